(** Lemmas behind the theorems of PropertiesSwift.v. *)

(** Property theorems about the generated Swift files, C51.  The text is read back by the Swift reader of SwiftSyntax;
    the declarations read are checked and run by the rules of SwiftSem.  After each theorem, a concrete case that meets
    its hypotheses, and its axioms. *)
Require Import Coq.Strings.String Coq.Strings.Ascii.
Require Import Coq.NArith.NArith Coq.ZArith.ZArith Coq.Lists.List Coq.Bool.Bool Coq.Arith.PeanoNat Coq.micromega.Lia.
Require Import Verif.Base Verif.F64 Verif.Ast Verif.Lexer Verif.Parser Verif.CaseConv Verif.RustSem Verif.Wire Verif.GenMoreFacts Verif.Code Verif.SwiftSyntax Verif.SwiftGen Verif.SwiftTree
  Verif.SwiftFile Verif.SwiftSem Verif.Defaults Verif.SwiftCheck Verif.SwiftRuns Verif.SwiftConsts.
Import ListNotations.
Local Open Scope string_scope.
Local Open Scope list_scope.

(** ** C51: generated Swift *)
(** The text that the generator makes of a schema: the models, and the constants. *)
Definition swift_models (ast : list ast_node) : res string := let* tokens := generate_models ast in stringify_tokens tokens.

Definition swift_consts (ast : list ast_node) : res string := stringify_tokens (generate_consts ast).

Definition c51_src : string :=
  "struct Line { from: Point, to_all: Vec<Line>, label: String, style: Style, visible: bool } struct Point { x: f32, y: f64, z_index: i32, id: u64, b: u8 } enum Style { Dashed { line_width: u32, gap: Point }, Dots(i64, Vec<Style>), NoLine } enum Mode { FastMode, Slow(String, GroupAddress) } struct Nothing;".

Definition c51_ast : list ast_node := Eval vm_compute in match compile_front c51_src with Ok a => a | _ => [] end.

Definition c51_consts_src : string :=
  "const Limits { top_value: u8 = 255; const inner_block { ratio: f64 = 2.5; addr: GroupAddress = 7; } name: String = ""5 $ab""; on: bool = true; big: i64 = 9223372036854775807; }".

Definition c51_consts : list ast_node := Eval vm_compute in match compile_front c51_consts_src with Ok a => a | _ => [] end.

Lemma lem_C51_models_read : forall ast, models_ready ast = true ->
  exists text, swift_models ast = Ok text /\ swift_file text = Some (models_tree ast).
Proof.
  exact models_file.
Qed.

Lemma lem_C51_consts_read : forall ast, consts_ready ast = true ->
  exists text, swift_consts ast = Ok text /\ swift_file text = Some (consts_tree ast).
Proof.
  exact consts_file.
Qed.

Lemma lem_C51_defaults : forall ast, swift_fine ast = true ->
  exists text decls, swift_models ast = Ok text /\ swift_file text = Some decls /\ compiles decls = true /\
    (forall n f, In n (swift_names ast) ->
       run_default decls (2 * f + 1) n = match default_value (schema_decls ast) f (TyOther n) with Some d => SValue (swift_of d) | None => SMore end) /\
    (forall n, In n (swift_names ast) -> exists f d, default_value (schema_decls ast) f (TyOther n) = Some d /\ run_default decls (2 * f + 1) n = SValue (swift_of d)).
Proof.
  intros ast F.
  assert (R : models_ready ast = true) by (unfold swift_fine in F; rewrite !andb_true_iff in F; tauto).
  destruct (models_file ast R) as (text & E & K).
  exists text, (models_tree ast).
  split; [exact E|].
  split; [exact K|].
  split; [now apply models_compile|].
  split.
  - intros n f D.
  rewrite Nat.add_1_r.
  now apply create_default_runs.
  - intros n D.
  destruct (create_default_ends ast F n D) as (d & V & X).
  exists (S (List.length (swift_names ast))), d.
  rewrite Nat.add_1_r.
  now split.
Qed.

Lemma lem_C51_constants : forall ast, consts_fine ast = true ->
  exists text decls, swift_consts ast = Ok text /\ swift_file text = Some decls /\ compiles decls = true /\
    (forall p t l, declared ast p t l -> exists tn v, swift_constant t l = Some (tn, v) /\ constant [] decls (swift_path p) tn v) /\
    (forall p tn v, constant [] decls p tn v -> exists q t l, declared ast q t l /\ p = swift_path q /\ swift_constant t l = Some (tn, v)).
Proof.
  intros ast F.
  assert (R : consts_ready ast = true) by (unfold consts_fine in F; rewrite !andb_true_iff in F; tauto).
  destruct (consts_file ast R) as (text & E & K).
  exists text, (consts_tree ast).
  split; [exact E|].
  split; [exact K|].
  split; [now apply consts_compile|].
  split.
  - intros p t l D.
  destruct (constant_known ast p t l F D) as (tn & v & C).
  exists tn, v.
  split; [exact C|].
  now apply (consts_forward ast p t l).
  - intros p tn v C.
  now apply consts_backward.
Qed.

Lemma lem_C51_compiles_refuted : exists srcs, List.length srcs = 10 /\ forall src, In src srcs ->
  exists ast text decls, compile_front src = Ok ast /\ swift_models ast = Ok text /\ swift_file text = Some decls /\ compiles decls = false.
Proof.
  exists ["struct Key { letter: char }"; "struct HTTPRequest { size: u32 }"; "enum JSONKind { Text, Tree }"; "struct Route { target: GroupAddress }";
          "struct Tree { left: Tree }"; "enum Expr { Zero, Succ(Expr) }"; "enum Shape { Circle(), Dot }"; "struct Int32 { value: i32 }"; "struct Pair { first_one: u8, firstOne: u8 }";
          "enum Command { Stop, CreateDefault }"].
  split; [reflexivity|].
  intros src I.
  cbn [In] in I.
  repeat (destruct I as [<-|I]; [do 3 eexists; split; [vm_compute; reflexivity|]; split; [vm_compute; reflexivity|]; split; [vm_compute; reflexivity|]; vm_compute; reflexivity|]).
  destruct I.
Qed.

Lemma lem_C51_constants_compile_refuted : exists srcs, List.length srcs = 3 /\ forall src, In src srcs ->
  exists ast text decls, compile_front src = Ok ast /\ swift_consts ast = Ok text /\ swift_file text = Some decls /\ compiles decls = false.
Proof.
  exists ["const Limits { top: f32 = 0.5; }"; "const Limits { top: u8 = 300; }"; "const Limits { top_one: u8 = 1; TOP_ONE: u8 = 2; }"].
  split; [reflexivity|].
  intros src I.
  cbn [In] in I.
  repeat (destruct I as [<-|I]; [do 3 eexists; split; [vm_compute; reflexivity|]; split; [vm_compute; reflexivity|]; split; [vm_compute; reflexivity|]; vm_compute; reflexivity|]).
  destruct I.
Qed.
