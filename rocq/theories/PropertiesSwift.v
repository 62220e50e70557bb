(** Property theorems about the generated Swift files, C51.  The text is read back by the Swift reader of SwiftSyntax;
    the declarations read are checked and run by the rules of SwiftSem.  After each theorem, a concrete case that meets
    its hypotheses, and its axioms. *)
Require Import Coq.Strings.String Coq.Strings.Ascii.
Require Import Coq.NArith.NArith Coq.ZArith.ZArith Coq.Lists.List Coq.Bool.Bool Coq.Arith.PeanoNat Coq.micromega.Lia.
Require Import Verif.Base Verif.F64 Verif.Ast Verif.Lexer Verif.Parser Verif.CaseConv Verif.RustSem Verif.Wire Verif.GenMoreFacts Verif.Code Verif.SwiftSyntax Verif.SwiftGen Verif.SwiftTree
  Verif.SwiftFile Verif.SwiftSem Verif.Defaults Verif.SwiftCheck Verif.SwiftRuns Verif.SwiftConsts.
Require Import Verif.SwiftFacts.
Import ListNotations.
Local Open Scope string_scope.
Local Open Scope list_scope.

(** The text of the models is a Swift file, and its declarations are exactly those of the schema. *)
Theorem C51_models_read : forall ast, models_ready ast = true ->
  exists text, swift_models ast = Ok text /\ swift_file text = Some (models_tree ast).
Proof. exact lem_C51_models_read. Qed.
Print Assumptions C51_models_read.
Example C51_models_read_case : compile_front c51_src = Ok c51_ast /\ models_ready c51_ast = true /\
  exists text, swift_models c51_ast = Ok text /\ swift_file text = Some
   [ZStruct "Line"
      [ZVar "from" (STy "Point" []); ZVar "toAll" (SArr (STy "Line" [])); ZVar "label" (STy "String" []); ZVar "style" (STy "Style" []); ZVar "visible" (STy "Bool" []);
       ZFunc true "createDefault" (STy "Line" [])
         (QCall "Line" [(Some "from", QMeth "Point" [] "createDefault" []); (Some "toAll", QList); (Some "label", QStr ""); (Some "style", QMeth "Style" [] "createDefault" []); (Some "visible", QName "false")])];
    ZStruct "Point"
      [ZVar "x" (STy "Float" []); ZVar "y" (STy "Double" []); ZVar "zIndex" (STy "Int32" []); ZVar "id" (STy "UInt64" []); ZVar "b" (STy "UInt8" []);
       ZFunc true "createDefault" (STy "Point" []) (QCall "Point" [(Some "x", QNum "0"); (Some "y", QNum "0"); (Some "zIndex", QNum "0"); (Some "id", QNum "0"); (Some "b", QNum "0")])];
    ZEnum "Style"
      [ZCase "dashed" [STy "UInt32" []; STy "Point" []]; ZCase "dots" [STy "Int64" []; SArr (STy "Style" [])]; ZCase "noLine" [];
       ZFunc true "createDefault" (STy "Style" []) (QCaseCall "dashed" [(None, QNum "0"); (None, QMeth "Point" [] "createDefault" [])])];
    ZEnum "Mode" [ZCase "fastMode" []; ZCase "slow" [STy "String" []; STy "UInt64" []]; ZFunc true "createDefault" (STy "Mode" []) (QCase "fastMode")];
    ZStruct "Nothing" [ZFunc true "createDefault" (STy "Nothing" []) (QCall "Nothing" [])]].
Proof.
  split; [vm_compute; reflexivity|].
  split; [vm_compute; reflexivity|].
  eexists.
  split; vm_compute; reflexivity.
Qed.

(** The same for the constants. *)
Theorem C51_consts_read : forall ast, consts_ready ast = true ->
  exists text, swift_consts ast = Ok text /\ swift_file text = Some (consts_tree ast).
Proof. exact lem_C51_consts_read. Qed.
Print Assumptions C51_consts_read.
Example C51_consts_read_case : compile_front c51_consts_src = Ok c51_consts /\ consts_ready c51_consts = true /\
  exists text, swift_consts c51_consts = Ok text /\ swift_file text = Some
    [ZStruct "Limits"
      [ZLet "topValue" (STy "UInt8" []) (QNum "255");
       ZStruct "InnerBlock" [ZLet "ratio" (STy "Double" []) (QFloat "2" "5"); ZLet "addr" (STy "UInt64" []) (QNum "7")];
       ZLet "name" (STy "String" []) (QStr "5 $ab"); ZLet "on" (STy "Bool" []) (QName "true"); ZLet "big" (STy "Int64" []) (QNum "9223372036854775807")]].
Proof.
  split; [vm_compute; reflexivity|].
  split; [vm_compute; reflexivity|].
  eexists.
  split; vm_compute; reflexivity.
Qed.

(** The models compile, and [createDefault] of every declared type returns the default value of the type. *)
Theorem C51_defaults : forall ast, swift_fine ast = true ->
  exists text decls, swift_models ast = Ok text /\ swift_file text = Some decls /\ compiles decls = true /\
    (forall n f, In n (swift_names ast) ->
       run_default decls (2 * f + 1) n = match default_value (schema_decls ast) f (TyOther n) with Some d => SValue (swift_of d) | None => SMore end) /\
    (forall n, In n (swift_names ast) -> exists f d, default_value (schema_decls ast) f (TyOther n) = Some d /\ run_default decls (2 * f + 1) n = SValue (swift_of d)).
Proof. exact lem_C51_defaults. Qed.
Print Assumptions C51_defaults.
Example C51_defaults_case : swift_fine c51_ast = true /\ swift_names c51_ast = ["Line"; "Point"; "Style"; "Mode"; "Nothing"] /\
  let point := WStruct "Point" [("x", WReal "Float" (F64Fin 0 (-1074))); ("y", WReal "Double" (F64Fin 0 (-1074))); ("zIndex", WWhole "Int32" 0); ("id", WWhole "UInt64" 0); ("b", WWhole "UInt8" 0)] in
  match default_value (schema_decls c51_ast) 3 (TyOther "Line"), default_value (schema_decls c51_ast) 1 (TyOther "Mode") with
  | Some d, Some e =>
      swift_of d = WStruct "Line" [("from", point); ("toAll", WArray (STy "Line" []) []); ("label", WText ""); ("style", WCase "Style" "dashed" [WWhole "UInt32" 0; point]); ("visible", WTruth false)] /\
      swift_of e = WCase "Mode" "fastMode" []
  | _, _ => False
  end.
Proof.
  split; [vm_compute; reflexivity|].
  split; [vm_compute; reflexivity|].
  vm_compute.
  split; reflexivity.
Qed.

(** The constants compile, and the file holds exactly the declared constants with their types and values. *)
Theorem C51_constants : forall ast, consts_fine ast = true ->
  exists text decls, swift_consts ast = Ok text /\ swift_file text = Some decls /\ compiles decls = true /\
    (forall p t l, declared ast p t l -> exists tn v, swift_constant t l = Some (tn, v) /\ constant [] decls (swift_path p) tn v) /\
    (forall p tn v, constant [] decls p tn v -> exists q t l, declared ast q t l /\ p = swift_path q /\ swift_constant t l = Some (tn, v)).
Proof. exact lem_C51_constants. Qed.
Print Assumptions C51_constants.
Example C51_constants_case : consts_fine c51_consts = true /\ declared c51_consts ["Limits"; "inner_block"; "addr"] (TyOther "GroupAddress") (IntLit 7) /\
  swift_path ["Limits"; "inner_block"; "addr"] = ["Limits"; "InnerBlock"; "addr"] /\ swift_constant (TyOther "GroupAddress") (IntLit 7) = Some ("UInt64", WWhole "UInt64" 7) /\
  declared c51_consts ["Limits"; "top_value"] (TyInteger "u8" 1 false) (IntLit 255) /\ swift_path ["Limits"; "top_value"] = ["Limits"; "topValue"].
Proof.
  split; [vm_compute; reflexivity|].
  split; [eexists; split; [left; reflexivity|]; eapply ca_in; [right; left; reflexivity|]; eapply ca_here; right; left; reflexivity|].
  split; [vm_compute; reflexivity|].
  split; [vm_compute; reflexivity|].
  split; [eexists; split; [left; reflexivity|]; eapply ca_here; left; reflexivity|].
  vm_compute.
  reflexivity.
Qed.

(** Schemas that are accepted and whose Swift does not compile: Swift has no type [char]; names are converted where they
    are declared and not where they are used; addresses are declared as [UInt64] and created as structs; a struct or an
    enum that contains itself (also in a later case) is not of finite size, and the cases are not marked [indirect]; a
    default case with empty parentheses is called although it has no payload; a type can have the name of a type of the
    language; two names can become the same; a case can be named like the function. *)
Theorem C51_compiles_refuted : exists srcs, List.length srcs = 10 /\ forall src, In src srcs ->
  exists ast text decls, compile_front src = Ok ast /\ swift_models ast = Ok text /\ swift_file text = Some decls /\ compiles decls = false.
Proof. exact lem_C51_compiles_refuted. Qed.
Print Assumptions C51_compiles_refuted.

(** Constants that are accepted and whose Swift does not compile: a float of four bytes is written with the suffix [f],
    which Swift does not have; a number out of the range of its type; two constants whose names become the same. *)
Theorem C51_constants_compile_refuted : exists srcs, List.length srcs = 3 /\ forall src, In src srcs ->
  exists ast text decls, compile_front src = Ok ast /\ swift_consts ast = Ok text /\ swift_file text = Some decls /\ compiles decls = false.
Proof. exact lem_C51_constants_compile_refuted. Qed.
Print Assumptions C51_constants_compile_refuted.
