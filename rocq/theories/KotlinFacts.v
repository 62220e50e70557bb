(** Lemmas behind the theorems of PropertiesKotlin.v. *)

(** Property theorems about the generated Kotlin files, C50.  The text is read back by the Kotlin reader of KotlinSyntax;
    the declarations read are checked and run by the rules of KotlinSem.  After each theorem, a concrete case that meets
    its hypotheses, and its axioms. *)
Require Import Coq.Strings.String Coq.Strings.Ascii.
Require Import Coq.NArith.NArith Coq.ZArith.ZArith Coq.Lists.List Coq.Bool.Bool Coq.Arith.PeanoNat Coq.micromega.Lia.
Require Import Verif.Base Verif.F64 Verif.Ast Verif.Lexer Verif.Parser Verif.CaseConv Verif.RustSem Verif.Wire Verif.GenMoreFacts Verif.Code Verif.KotlinSyntax Verif.KotlinGen Verif.KotlinTree
  Verif.KotlinFile Verif.KotlinSem Verif.Defaults Verif.KotlinCheck Verif.KotlinRuns Verif.KotlinConsts.
Import ListNotations.
Local Open Scope string_scope.
Local Open Scope list_scope.

(** ** C50: generated Kotlin *)
(** The text that the generator makes of a schema: the models, and the constants. *)
Definition kotlin_models (ast : list ast_node) : res string := let* tokens := generate_models ast in stringify_tokens tokens.

Definition kotlin_consts (ast : list ast_node) : res string := stringify_tokens (generate_consts ast).

Definition c50_src : string :=
  "struct Line { from: Point, to_all: Vec<Point>, label: String, style: Style, visible: bool } struct Point { x: f32, y: f64, z_index: i32, id: u64, b: u8 } enum Style { Dashed { width: u32, gap: Point }, Dots(i64, char), Plain } enum Mode { Fast, Slow(String) } struct Nothing;".

Definition c50_ast : list ast_node := Eval vm_compute in match compile_front c50_src with Ok a => a | _ => [] end.

Definition c50_consts_src : string :=
  "const Limits { top: u8 = 255; const inner_block { ratio: f64 = 2.5; single: f32 = 0.1; addr: GroupAddress = 7; } name: String = ""ab""; on: bool = true; big: i64 = 9223372036854775807; }".

Definition c50_consts : list ast_node := Eval vm_compute in match compile_front c50_consts_src with Ok a => a | _ => [] end.

Lemma lem_C50_models_read : forall ast, models_ready ast = true ->
  exists text, kotlin_models ast = Ok text /\ kotlin_file text = Some (models_tree ast).
Proof.
  exact models_file.
Qed.

Lemma lem_C50_consts_read : forall ast, consts_ready ast = true ->
  exists text, kotlin_consts ast = Ok text /\ kotlin_file text = Some (consts_tree ast).
Proof.
  exact consts_file.
Qed.

Lemma lem_C50_defaults : forall ast, kotlin_fine ast = true ->
  exists text decls, kotlin_models ast = Ok text /\ kotlin_file text = Some decls /\ compiles decls = true /\
    forall n f, decl_of n (schema_decls ast) <> None ->
      run_default decls (2 * f + 1) n = match default_value (schema_decls ast) f (TyOther n) with Some d => KValue (kotlin_of d) | None => KMore end.
Proof.
  intros ast F.
  assert (R : models_ready ast = true) by (unfold kotlin_fine in F; rewrite !andb_true_iff in F; tauto).
  destruct (models_file ast R) as (text & E & K).
  exists text, (models_tree ast).
  split; [exact E|].
  split; [exact K|].
  split; [now apply models_compile|].
  intros n f D.
  rewrite Nat.add_1_r.
  now apply create_default.
Qed.

Lemma lem_C50_constants : forall ast, consts_fine ast = true ->
  exists text decls, kotlin_consts ast = Ok text /\ kotlin_file text = Some decls /\ compiles decls = true /\
    (forall p t l, declared ast p t l -> exists tn v, kotlin_holds t l tn v /\ constant [] decls (kotlin_path p) tn v) /\
    (forall p tn v, constant [] decls p tn v -> exists q t l, declared ast q t l /\ p = kotlin_path q /\ kotlin_holds t l tn v).
Proof.
  intros ast F.
  assert (R : consts_ready ast = true) by (unfold consts_fine in F; rewrite !andb_true_iff in F; tauto).
  destruct (consts_file ast R) as (text & E & K).
  exists text, (consts_tree ast).
  split; [exact E|].
  split; [exact K|].
  split; [now apply consts_compile|].
  split.
  - intros p t l D.
  destruct (constant_known ast p t l F D) as (tn & v & C).
  destruct (consts_forward ast p t l tn v F D C) as (w & H & K').
  now exists tn, w.
  - intros p tn v C.
  now apply consts_backward.
Qed.

Lemma lem_C50_terminates_refuted : exists src ast decls n,
  compile_front src = Ok ast /\ kotlin_fine ast = true /\ (exists text, kotlin_models ast = Ok text /\ kotlin_file text = Some decls) /\ compiles decls = true /\
  decl_of n (schema_decls ast) <> None /\ forall f, run_default decls f n = KMore.
Proof.
  exists "struct Tree { left: Tree }".
  do 2 eexists.
  exists "Tree".
  split; [vm_compute; reflexivity|].
  split; [vm_compute; reflexivity|].
  split; [eexists; split; vm_compute; reflexivity|].
  split; [vm_compute; reflexivity|].
  split; [vm_compute; discriminate|].
  intros f.
  unfold run_default.
  match goal with |- eval ?d f ?sh ?t ?e = _ => set (ks := d); set (names := sh) end.
  assert (X : forall k, eval ks k names (KTy "Tree" []) (XMeth "Tree" "createDefault" [] []) = KMore /\ eval ks k names (KTy "Tree" []) (XCall "Tree" [(Some "left", XMeth "Tree" "createDefault" [] [])]) = KMore);
    [|apply X].
  induction k as [|k [IH1 IH2]]; [now split|].
  split.
  - change (eval ks (S k) names (KTy "Tree" []) (XMeth "Tree" "createDefault" [] [])) with (eval ks k names (KTy "Tree" []) (XCall "Tree" [(Some "left", XMeth "Tree" "createDefault" [] [])])).
  exact IH2.
  - change (match in_turn (fun a u => eval ks k names u (snd a)) [(Some "left", XMeth "Tree" "createDefault" [] [])] [KTy "Tree" []] with
            | inr vs => KValue (VNew "Tree" (arrange [("left", KTy "Tree" [])] (combine [Some "left"] vs))) | inl r => r end = KMore).
  cbn [in_turn snd].
  now rewrite IH1.
Qed.

Lemma lem_C50_compiles_refuted : exists srcs, List.length srcs = 7 /\ forall src, In src srcs ->
  exists ast text decls, compile_front src = Ok ast /\ kotlin_models ast = Ok text /\ kotlin_file text = Some decls /\ compiles decls = false.
Proof.
  exists ["struct Key { letter: char }"; "struct HTTPRequest { size: u32 }"; "enum Shape { Circle { line_width: f32 }, Dot }"; "struct Route { target: GroupAddress }";
          "enum Shape { Circle(), Dot }"; "struct Int { value: i32 }"; "struct Pair { first_one: u8, firstOne: u8 }"].
  split; [reflexivity|].
  intros src I.
  cbn [In] in I.
  repeat (destruct I as [<-|I]; [do 3 eexists; split; [vm_compute; reflexivity|]; split; [vm_compute; reflexivity|]; split; [vm_compute; reflexivity|]; vm_compute; reflexivity|]).
  destruct I.
Qed.

Lemma lem_C50_constants_compile_refuted : exists srcs, List.length srcs = 4 /\ forall src, In src srcs ->
  exists ast text decls, compile_front src = Ok ast /\ kotlin_consts ast = Ok text /\ kotlin_file text = Some decls /\ compiles decls = false.
Proof.
  exists ["const Limits { top: u8 = 300; }"; "const Texts { price: String = ""5 $each""; }"; "const Limits { top: u8 = 1; top: u8 = 2; }";
          "const Limits { top: f32 = 1000000000000000000000000000000000000000.0; }"].
  split; [reflexivity|].
  intros src I.
  cbn [In] in I.
  repeat (destruct I as [<-|I]; [do 3 eexists; split; [vm_compute; reflexivity|]; split; [vm_compute; reflexivity|]; split; [vm_compute; reflexivity|]; vm_compute; reflexivity|]).
  destruct I.
Qed.
