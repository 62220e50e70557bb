(** Lemmas behind the theorems of PropertiesDefault.v. *)

(** Property theorems about default values, C52: what [T::default()] of the generated Rust and [createDefault] of the
    generated Dart return.  The Rust declarations read back from the text are checked and run by the rules of
    RustDefault; the Dart by those of DartSem.  After each theorem, a concrete case that meets its hypotheses, and its
    axioms. *)
Require Import Coq.Strings.String Coq.Strings.Ascii.
Require Import Coq.NArith.NArith Coq.ZArith.ZArith Coq.Lists.List Coq.Bool.Bool Coq.Arith.PeanoNat.
Require Import Coq.micromega.Lia.
Require Import Verif.Base Verif.Ast Verif.Lexer Verif.Parser Verif.CaseConv Verif.Code Verif.NumText Verif.RustSyntax Verif.RustGen Verif.RustTree Verif.RustFile Verif.RustWf Verif.RustSem Verif.Wire Verif.RustCodec Verif.CodecFacts.
Require Import Verif.DartSyntax Verif.DartGen Verif.DartTree Verif.DartFile Verif.DartWf Verif.DartSem Verif.DartWire Verif.DartRun Verif.DartShape Verif.DartCodec Verif.DartAgree Verif.DartFacts.
Require Verif.Defaults Verif.RustDefault Verif.RustFine Verif.RustDefaultRuns.
Import Defaults(default_value, schema_value).
Import RustDefault(types_compile, run_default, RValue, RMore).
Import RustFine(rust_fine).
Import ListNotations.
Local Open Scope string_scope.
Local Open Scope list_scope.

(** ** C52: default values *)
Definition schema_names (ast : list ast_node) : list string := map decl_name (schema_decls ast).

Definition c52_src : string :=
  "#[id = ""svc""] #[namespace = ""test""] struct Line { from: Point, tags: Vec<Point>, name: String, mode: Mode, on: bool } enum Mode { Near(Point, u64), Far { line: Vec<Line>, at: Point }, Off } enum Side { Left { at: Point, id: u8 }, Right(String) } struct Point { x: i32, y: f64, z: f32 } enum Colour { Red, Green(i64) } struct Nothing; fn shift(line: Line, by: i64) -> Line;".

Definition c52_ast : list ast_node := Eval vm_compute in parsed c52_src.

Definition c52_rust : list item := Eval vm_compute in rust_tree c52_ast true true true.

Definition c52_dart : list ditem := Eval vm_compute in dart_tree c52_ast true true false.

Definition c52_point : val := vrec "Point" [("x", vnum "i32" 0); ("y", vnum "f64" 0); ("z", vnum "f32" 0)].

Definition c52_mode : val := vcaset "Mode" "Near" [c52_point; vnum "u64" 0].

Definition c52_line : val :=
  vrec "Line" [("from", c52_point); ("tags", vbox "Vec" 0 []); ("name", vext "String" 0); ("mode", c52_mode); ("on", vnum "bool" 0)].

Lemma lem_C52_rust_defaults : forall ast buffers rpc items text,
  rust_ready ast = true -> file_items ast true buffers rpc items -> rust_fine (schema_decls ast) (rust_decls ast true rpc) = true ->
  types_compile items = true /\
  (forall n f, In n (schema_names ast) ->
     run_default items text (2 * f + 1) n = match default_value (schema_decls ast) f (TyOther n) with Some d => RValue (schema_value text d) | None => RMore end) /\
  (forall n, In n (schema_names ast) -> exists f d,
     default_value (schema_decls ast) f (TyOther n) = Some d /\ run_default items text (2 * f + 1) n = RValue (schema_value text d)).
Proof.
  intros ast buffers rpc items text R (s & G & E) F.
  rewrite (rust_file_generated ast true buffers rpc s R G) in E.
  inversion E; subst items.
  split; [now apply RustDefaultRuns.all_compiles|].
  split.
  - intros n f I.
  rewrite Nat.add_1_r.
  now apply RustDefaultRuns.default_runs.
  - intros n I.
  destruct (RustDefaultRuns.default_ends ast buffers rpc F text n I) as (d & V & X).
  exists (S (List.length (rust_decls ast true rpc))), d.
  rewrite Nat.add_1_r.
  now split.
Qed.

Lemma rust_items_tree ast m b r : rust_ready ast = true -> match rust_generate ast m b r with Ok _ => true | _ => false end = true -> file_items ast m b r (rust_tree ast m b r).
Proof.
  intros R G.
  destruct (rust_generate ast m b r) as [text| |] eqn:E; try discriminate.
  exists text.
  split; [exact E|].
  exact (rust_file_generated ast m b r text R E).
Qed.

(** A source of which the generated types do not compile. *)
Definition c52_fails (src : string) : bool :=
  match compile_front src with
  | Ok ast =>
      rust_ready ast && match rust_generate ast true true true with Ok _ => true | _ => false end &&
      negb (types_compile (rust_tree ast true true true))
  | _ => false
  end.

Lemma c52_fails_file src : c52_fails src = true ->
  exists ast items, compile_front src = Ok ast /\ rust_ready ast = true /\ file_items ast true true true items /\ types_compile items = false.
Proof.
  unfold c52_fails.
  destruct (compile_front src) as [ast| |]; try discriminate.
  rewrite !andb_true_iff, negb_true_iff.
  intros ((R & G) & F).
  exists ast, (rust_tree ast true true true).
  split; [reflexivity|].
  split; [exact R|].
  split; [now apply rust_items_tree|exact F].
Qed.

Lemma lem_C52_compiles_refuted : exists srcs, List.length srcs = 11 /\ forall src, In src srcs ->
  exists ast items, compile_front src = Ok ast /\ rust_ready ast = true /\ file_items ast true true true items /\ types_compile items = false.
Proof.
  exists ["struct Key { letter: char }"; "enum Key { Letter(char), Code(u32) }"; "struct Tree { left: Tree, id: u8 }"; "enum Expr { Zero, Succ(Expr) }";
          "struct Pair { first: u8, first: u8 }"; "struct Pair { first: u8 } struct Pair { second: u8 }"; "enum Mode { On, On }"; "struct Default { value: u8 }";
          "enum Mode { Off, On { level: u8, level: i32 } }"; "#[id = ""svc""] #[namespace = ""test""] struct __shift_rpc_args__ { by: u8 } fn shift(by: i64) -> i64;"; "struct Vec { x: u8 } struct Line { all: Vec<u8> }"].
  split; [reflexivity|].
  intros src I.
  apply c52_fails_file.
  revert src I.
  apply forallb_forall.
  vm_compute.
  reflexivity.
Qed.

Lemma lem_C52_dart_default : forall ast rpc items D U m cd f d fuel s,
  let ds := schema_decls ast in
  dart_ready ast = true -> dart_items ast rpc items -> dart_codecs_ok ast items = true -> zeros D U ds ->
  declared ds m = true -> creatable ds (top_names items) cd (TyOther m) = true -> default_value ds f (TyOther m) = Some d -> 3 * cd + 1 <= fuel ->
  exists w h,
    dart_call D items fuel (m ++ "BuffersFactory") "createDefault" [] s = DDone w (set_heap h s) /\
    changes (d_heap s) h [] /\ rep U ds (fresh (d_heap s) h) h w (schema_value (rd_ext_new D (DTy "String" [])) d) (TyOther m).
Proof.
  intros ast rpc items D U m cd f d fuel s ds RD F O Z DC C V FU.
  destruct (default_made ast rpc items D U m cd fuel s RD F O DC C FU) as (w & h & parts & E & CH & _ & _ & FR & VA).
  exists w, h.
  split; [exact E|].
  split; [exact CH|].
  eapply rep_frame; [|exact (VA Z eq_refl f d V)].
  intros a I.
  split; [now apply FR|reflexivity].
Qed.

Lemma lem_C52_same_default : forall ast rust_rpc dart_rpc rust_file items R V D U cd m fuel dfuel,
  let rds := rust_decls ast true rust_rpc in
  let ds := schema_decls ast in
  let text := rd_ext_new D (DTy "String" []) in
  rust_ready ast = true -> file_items ast true true rust_rpc rust_file -> rust_fine ds rds = true -> codecs_ok rds = true -> codecs_distinct rds = true ->
  dart_ready ast = true -> dart_items ast dart_rpc items -> dart_codecs_ok ast items = true -> zeros D U ds ->
  lawful R -> dlawful D U -> agree R D U -> In m (schema_names ast) -> creatable ds (top_names items) cd (TyOther m) = true ->
  exists f v, run_default rust_file text f m = RValue v /\
    (3 * cd + 1 <= dfuel -> forall s, exists w h,
       dart_call D items dfuel (m ++ "BuffersFactory") "createDefault" [] s = DDone w (set_heap h s) /\
       changes (d_heap s) h [] /\ rep U ds (fresh (d_heap s) h) h w v (TyOther m)) /\
    (typed R rds v (TyOther m) = true -> dtyped U ds (top_names items) cd v (TyOther m) = true -> portable ds v (TyOther m) = true ->
     depth v <= fuel -> 3 * depth v + 3 * cd + 3 <= dfuel -> exists bs,
      (forall q, write_value R V rust_file fuel v q = Done RustSem.ok (set_wr (s_wr q ++ bs) q)) /\
      (forall s, exists w h,
        dart_call D items dfuel (m ++ "BuffersFactory") "createDefault" [] s = DDone w (set_heap h s) /\
        dart_call D items dfuel (m ++ "IntoBuffers") "write" [dwriter; w] (set_heap h s) = DDone dnull (set_dwr (d_wr s ++ bs) (set_heap h s)))).
Proof.
  intros ast rust_rpc dart_rpc rust_file items R V D U cd m fuel dfuel rds ds text RR FI RF CO CD RD DI DO Z LR LD AG I C.
  destruct (lem_C52_rust_defaults ast true rust_rpc rust_file text RR FI RF) as (_ & _ & X).
  destruct (X m I) as (f & d & DV & RU).
  exists (2 * f + 1), (schema_value text d).
  split; [exact RU|].
  assert (DC : declared ds m = true).
  { unfold declared.
  cbn [default_value] in DV.
  apply in_map_iff in I as (e & <- & I).
  destruct (decl_of (decl_name e) ds) eqn:E; [reflexivity|].
  exfalso.
  apply (find_none _ _ E e) in I.
  now rewrite String.eqb_refl in I.
  }
  assert (MK : 3 * cd + 1 <= dfuel -> forall s, exists w h,
       dart_call D items dfuel (m ++ "BuffersFactory") "createDefault" [] s = DDone w (set_heap h s) /\
       changes (d_heap s) h [] /\ rep U ds (fresh (d_heap s) h) h w (schema_value text d) (TyOther m)).
  { intros L s.
  exact (lem_C52_dart_default ast dart_rpc items D U m cd f d dfuel s RD DI DO Z DC C DV L).
  }
  split; [exact MK|].
  intros T DT PO L DL.
  destruct (lem_C24_same_bytes ast true rust_rpc dart_rpc rust_file items R V D U cd (schema_value text d) m fuel dfuel RR FI CO CD RD DI DO LR LD AG DC T DT PO L DL) as (bs & W & DW & _ & _).
  exists bs.
  split; [exact W|].
  intros s.
  destruct (MK ltac:(lia) s) as (w & h & E & CH & RP).
  exists w, h.
  split; [exact E|].
  apply (DW (fresh (d_heap s) h) (set_heap h s) w).
  exact RP.
Qed.
