(** Property theorems about the generated Kotlin files, C50.  The text is read back by the Kotlin reader of KotlinSyntax;
    the declarations read are checked and run by the rules of KotlinSem.  After each theorem, a concrete case that meets
    its hypotheses, and its axioms. *)
Require Import Coq.Strings.String Coq.Strings.Ascii.
Require Import Coq.NArith.NArith Coq.ZArith.ZArith Coq.Lists.List Coq.Bool.Bool Coq.Arith.PeanoNat Coq.micromega.Lia.
Require Import Verif.Base Verif.F64 Verif.Ast Verif.Lexer Verif.Parser Verif.CaseConv Verif.RustSem Verif.Wire Verif.GenMoreFacts Verif.Code Verif.KotlinSyntax Verif.KotlinGen Verif.KotlinTree
  Verif.KotlinFile Verif.KotlinSem Verif.Defaults Verif.KotlinCheck Verif.KotlinRuns Verif.KotlinConsts.
Require Import Verif.KotlinFacts.
Import ListNotations.
Local Open Scope string_scope.
Local Open Scope list_scope.

(** The text of the models is a Kotlin file, and its declarations are exactly those of the schema. *)
Theorem C50_models_read : forall ast, models_ready ast = true ->
  exists text, kotlin_models ast = Ok text /\ kotlin_file text = Some (models_tree ast).
Proof. exact lem_C50_models_read. Qed.
Print Assumptions C50_models_read.
Example C50_models_read_case : compile_front c50_src = Ok c50_ast /\ models_ready c50_ast = true /\
  exists text d l, kotlin_models c50_ast = Ok text /\ kotlin_file text = Some (d :: l) /\ List.length l = 9 /\
    d = YClass true "Line" [("from", KTy "Point" []); ("toAll", KTy "List" [KTy "Point" []]); ("label", KTy "String" []); ("style", KTy "Style" []); ("visible", KTy "Boolean" [])] []
      [YCompanion [YFun "createDefault" (KTy "Line" [])
        (XCall "Line" [(Some "from", XMeth "Point" "createDefault" [] []); (Some "toAll", XCall "listOf" []); (Some "label", XStr ""); (Some "style", XMeth "Style" "createDefault" [] []);
           (Some "visible", XName "false")])]].
Proof.
  split; [vm_compute; reflexivity|].
  split; [vm_compute; reflexivity|].
  do 3 eexists.
  split; [vm_compute; reflexivity|].
  split; [vm_compute; reflexivity|].
  split; vm_compute; reflexivity.
Qed.

(** The same for the constants. *)
Theorem C50_consts_read : forall ast, consts_ready ast = true ->
  exists text, kotlin_consts ast = Ok text /\ kotlin_file text = Some (consts_tree ast).
Proof. exact lem_C50_consts_read. Qed.
Print Assumptions C50_consts_read.
Example C50_consts_read_case : compile_front c50_consts_src = Ok c50_consts /\ consts_ready c50_consts = true /\
  exists text, kotlin_consts c50_consts = Ok text /\ kotlin_file text = Some
    [YObject "Limits" []
      [YConst "top" (KTy "UByte" []) (XNum "255U");
       YObject "InnerBlock" [] [YConst "ratio" (KTy "Double" []) (XFloat "2" "5"); YConst "single" (KTy "Float" []) (XFloat "0" "1f"); YConst "addr" (KTy "ULong" []) (XNum "7UL")];
       YConst "name" (KTy "String" []) (XStr "ab"); YConst "on" (KTy "Boolean" []) (XName "true"); YConst "big" (KTy "Long" []) (XNum "9223372036854775807L")]].
Proof.
  split; [vm_compute; reflexivity|].
  split; [vm_compute; reflexivity|].
  eexists.
  split; vm_compute; reflexivity.
Qed.

(** The models compile, and [createDefault] of every declared type gives the default value of the type.  It runs out of
    every number of steps exactly when the type has no finite default. *)
Theorem C50_defaults : forall ast, kotlin_fine ast = true ->
  exists text decls, kotlin_models ast = Ok text /\ kotlin_file text = Some decls /\ compiles decls = true /\
    forall n f, decl_of n (schema_decls ast) <> None ->
      run_default decls (2 * f + 1) n = match default_value (schema_decls ast) f (TyOther n) with Some d => KValue (kotlin_of d) | None => KMore end.
Proof. exact lem_C50_defaults. Qed.
Print Assumptions C50_defaults.
Example C50_defaults_case : kotlin_fine c50_ast = true /\ decl_of "Line" (schema_decls c50_ast) <> None /\ decl_of "Mode" (schema_decls c50_ast) <> None /\
  let point := VNew "Point" [("x", VReal "Float" (F64Fin 0 (-1074))); ("y", VReal "Double" (F64Fin 0 (-1074))); ("zIndex", VWhole "Int" 0); ("id", VWhole "ULong" 0); ("b", VWhole "UByte" 0)] in
  match default_value (schema_decls c50_ast) 3 (TyOther "Line"), default_value (schema_decls c50_ast) 1 (TyOther "Mode") with
  | Some d, Some e =>
      kotlin_of d = VNew "Line" [("from", point); ("toAll", VList (KTy "Point" []) []); ("label", VText ""); ("style", VNew "StyleDashed" [("width", VWhole "UInt" 0); ("gap", point)]); ("visible", VTruth false)] /\
      kotlin_of e = VObject "ModeFast"
  | _, _ => False
  end.
Proof.
  split; [vm_compute; reflexivity|].
  split; [vm_compute; discriminate|].
  split; [vm_compute; discriminate|].
  vm_compute.
  split; reflexivity.
Qed.

(** The constants compile, and the file holds exactly the declared constants with their types and values. *)
Theorem C50_constants : forall ast, consts_fine ast = true ->
  exists text decls, kotlin_consts ast = Ok text /\ kotlin_file text = Some decls /\ compiles decls = true /\
    (forall p t l, declared ast p t l -> exists tn v, kotlin_holds t l tn v /\ constant [] decls (kotlin_path p) tn v) /\
    (forall p tn v, constant [] decls p tn v -> exists q t l, declared ast q t l /\ p = kotlin_path q /\ kotlin_holds t l tn v).
Proof. exact lem_C50_constants. Qed.
Print Assumptions C50_constants.
Example C50_constants_case : consts_fine c50_consts = true /\ declared c50_consts ["Limits"; "inner_block"; "addr"] (TyOther "GroupAddress") (IntLit 7) /\
  kotlin_path ["Limits"; "inner_block"; "addr"] = ["Limits"; "InnerBlock"; "addr"] /\ kotlin_constant (TyOther "GroupAddress") (IntLit 7) = Some ("ULong", VWhole "ULong" 7) /\
  declared c50_consts ["Limits"; "top"] (TyInteger "u8" 1 false) (IntLit 255).
Proof.
  split; [vm_compute; reflexivity|].
  split; [eexists; split; [left; reflexivity|]; eapply ca_in; [right; left; reflexivity|]; eapply ca_here; right; right; left; reflexivity|].
  split; [vm_compute; reflexivity|].
  split; [vm_compute; reflexivity|].
  eexists.
  split; [left; reflexivity|].
  eapply ca_here.
  left.
  reflexivity.
Qed.

(** A type that contains itself has no finite default: its [createDefault] never returns. *)
Theorem C50_terminates_refuted : exists src ast decls n,
  compile_front src = Ok ast /\ kotlin_fine ast = true /\ (exists text, kotlin_models ast = Ok text /\ kotlin_file text = Some decls) /\ compiles decls = true /\
  decl_of n (schema_decls ast) <> None /\ forall f, run_default decls f n = KMore.
Proof. exact lem_C50_terminates_refuted. Qed.
Print Assumptions C50_terminates_refuted.

(** Schemas that are accepted and whose Kotlin does not compile: the default of a character is the number 0; names are
    converted where they are declared and not where they are used; the fields of a case keep their names in the class
    and are converted in the default; addresses are declared as [ULong] and created as classes; a case with empty
    parentheses becomes a data class without properties; a type can have the name of a type of the language; two names
    can become the same. *)
Theorem C50_compiles_refuted : exists srcs, List.length srcs = 7 /\ forall src, In src srcs ->
  exists ast text decls, compile_front src = Ok ast /\ kotlin_models ast = Ok text /\ kotlin_file text = Some decls /\ compiles decls = false.
Proof. exact lem_C50_compiles_refuted. Qed.
Print Assumptions C50_compiles_refuted.

(** Constants that are accepted and whose Kotlin does not compile: a number out of the range of its type, a string with
    a dollar sign, two constants with the same name. *)
Theorem C50_constants_compile_refuted : exists srcs, List.length srcs = 4 /\ forall src, In src srcs ->
  exists ast text decls, compile_front src = Ok ast /\ kotlin_consts ast = Ok text /\ kotlin_file text = Some decls /\ compiles decls = false.
Proof. exact lem_C50_constants_compile_refuted. Qed.
Print Assumptions C50_constants_compile_refuted.
