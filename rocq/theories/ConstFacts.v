(** Lemmas behind the theorems of PropertiesConst.v. *)

(** Property theorems about constants, C53: the constants of the generated Rust and Dart files, read back from the
    text, compile and have the declared types and values, the same in both languages.  The Rust is checked by the rules
    of RustConst, the Dart by those of DartConst; the conditions are those of ConstSpec.  After each theorem, a concrete
    case that meets its hypotheses, and its axioms. *)
Require Import Coq.Strings.String Coq.Strings.Ascii.
Require Import Coq.NArith.NArith Coq.ZArith.ZArith Coq.Lists.List Coq.Bool.Bool Coq.Arith.PeanoNat.
Require Import Coq.micromega.Lia.
Require Import Verif.Base Verif.F64 Verif.Ast Verif.Lexer Verif.Parser Verif.CaseConv Verif.Code Verif.NumText Verif.RustSyntax Verif.RustGen Verif.RustTree Verif.RustFile Verif.RustWf Verif.CodecFacts.
Require Import Verif.DartSyntax Verif.DartGen Verif.DartTree Verif.DartFile Verif.DartWf Verif.DartRun Verif.DartFacts.
Require Import Verif.ConstSpec.
Require Verif.RustDefault Verif.RustConst Verif.DartConst Verif.GenMoreFacts Verif.Single Verif.ConstRuns Verif.DartConstRuns Verif.DefaultFacts Verif.GoldenRust.
Import RustDefault(type_names).
Import GenMoreFacts(declared).
Import DefaultFacts(rust_items_tree).
Import ListNotations.
Local Open Scope string_scope.
Local Open Scope list_scope.

(** ** C53: constants *)
Definition c53_src : string :=
  "const limits { TOP: u8 = 255; BIG: i64 = 9223372036854775807; const inner_block { RATIO: f64 = 2.5; SINGLE: f32 = 0.1; GROUP: GroupAddress = 7; const last { ON: bool = true; } } OFF: bool = false; } struct Point { x: i32 } const other { TOP: u32 = 4294967295; COMMANDS: CommandsBufferAddress = 9223372036854775807; }".

Definition c53_ast : list ast_node := Eval vm_compute in match compile_front c53_src with Ok a => a | _ => [] end.

Definition c53_rust : list item := Eval vm_compute in rust_tree c53_ast true true true.

Definition c53_dart : list ditem := Eval vm_compute in dart_tree c53_ast true true true.

Definition c53_dart_src : string :=
  "const texts { HELLO: String = ""Hello World!""; const numbers { WHOLE: f64 = 16.0; LARGEST: f64 = 9007199254740991.0; ZERO: f32 = 0.0; TENTH: f64 = 0.1; } }".

Definition c53_dart_ast : list ast_node := Eval vm_compute in match compile_front c53_dart_src with Ok a => a | _ => [] end.

Definition c53_dart_items : list ditem := Eval vm_compute in dart_tree c53_dart_ast true true true.

(** A source of which the generated Rust constants do not compile. *)
Definition c53_rust_fails (src : string) : bool :=
  match compile_front src with
  | Ok ast =>
      rust_ready ast && match rust_generate ast true true true with Ok _ => true | _ => false end &&
      negb (RustConst.consts_compile (rust_tree ast true true true))
  | _ => false
  end.

Lemma c53_rust_fails_file src : c53_rust_fails src = true ->
  exists ast items, compile_front src = Ok ast /\ rust_ready ast = true /\ file_items ast true true true items /\ RustConst.consts_compile items = false.
Proof.
  unfold c53_rust_fails.
  destruct (compile_front src) as [ast| |]; try discriminate.
  rewrite !andb_true_iff, negb_true_iff.
  intros ((R & G) & F).
  exists ast, (rust_tree ast true true true).
  split; [reflexivity|].
  split; [exact R|].
  split; [now apply rust_items_tree|exact F].
Qed.

Definition c53_dart_fails (src : string) : bool :=
  match compile_front src with
  | Ok ast =>
      dart_ready ast && match dart_generate ast true true true with Ok _ => true | _ => false end &&
      negb (DartConst.consts_compile (dart_tree ast true true true))
  | _ => false
  end.

Lemma c53_dart_fails_file src : c53_dart_fails src = true ->
  exists ast items, compile_front src = Ok ast /\ dart_ready ast = true /\ dart_items ast true items /\ DartConst.consts_compile items = false.
Proof.
  unfold c53_dart_fails.
  destruct (compile_front src) as [ast| |]; try discriminate.
  rewrite !andb_true_iff, negb_true_iff.
  intros ((R & G) & F).
  exists ast, (dart_tree ast true true true).
  split; [reflexivity|].
  split; [exact R|].
  split; [now apply dart_items_tree|exact F].
Qed.

Lemma lem_C53_rust_constants : forall ast models buffers rpc items,
  rust_ready ast = true -> file_items ast models buffers rpc items -> rust_consts_fine ast (type_names items) = true ->
  RustConst.consts_compile items = true /\
  (forall p t l, declared ast p t l -> exists ty v, rust_const_type t = Some ty /\ rust_val t l v /\ RustConst.constant items p ty v) /\
  (forall p ty v, RustConst.constant items p ty v -> exists t l, declared ast p t l /\ rust_const_type t = Some ty /\ rust_val t l v) /\
  (forall p ty v ty' v', RustConst.constant items p ty v -> RustConst.constant items p ty' v' -> ty = ty' /\ v = v').
Proof.
  intros ast models buffers rpc items R (s & G & E) F.
  rewrite (rust_file_generated ast models buffers rpc s R G) in E.
  inversion E; subst items.
  destruct (ConstRuns.rust_constants ast models buffers rpc F) as (A & B & C).
  split; [exact A|].
  split; [exact B|].
  split; [exact C|].
  intros p ty v ty' v'.
  now apply ConstRuns.rust_one_value.
Qed.

Lemma lem_C53_rust_compiles_refuted : exists srcs, List.length srcs = 12 /\ In GoldenRust.f_consts_tpb srcs /\ forall src, In src srcs ->
  exists ast items, compile_front src = Ok ast /\ rust_ready ast = true /\ file_items ast true true true items /\ RustConst.consts_compile items = false.
Proof.
  exists [GoldenRust.f_consts_tpb; "const texts { HELLO: String = ""Hello World!""; }"; "const numbers { WHOLE: f64 = 16.0; }"; "const numbers { BIG: f32 = 1000000000000000000000000000000000000000.5; }";
          "const limits { TOP: u8 = 256; }"; "const limits { TOP: i32 = 2147483648; }"; "const limits { TOP: u8 = 1; TOP: u8 = 2; }"; "const limits { TOP: u8 = 1; } const limits { LOW: u8 = 2; }";
          "const u8 { TOP: u32 = 1; }"; "const limits { TOP: u8 = 1; const u8 { LOW: i32 = 3; } }"; "const Point { TOP: u8 = 1; } struct Point { x: u8 }"; "const limits { TOP: bool = 1; }"].
  split; [reflexivity|].
  split; [now left|].
  intros src I.
  apply c53_rust_fails_file.
  revert src I.
  apply forallb_forall.
  vm_compute.
  reflexivity.
Qed.

Lemma lem_C53_dart_constants : forall ast rpc items,
  dart_ready ast = true -> dart_items ast rpc items -> dart_consts_fine ast (top_names items) = true ->
  DartConst.consts_compile items = true /\
  (forall p t l, declared ast p t l -> exists ty v, dart_const_type t = Some ty /\ const_val t l = Some v /\ DartConst.constant items (map camel p) ty v) /\
  (forall q ty v, DartConst.constant items q ty v -> exists p t l, q = map camel p /\ declared ast p t l /\ dart_const_type t = Some ty /\ const_val t l = Some v) /\
  (forall q ty v ty' v', DartConst.constant items q ty v -> DartConst.constant items q ty' v' -> ty = ty' /\ v = v').
Proof.
  intros ast rpc items R (s & G & E) F.
  rewrite (dart_file_generated ast true true rpc s R G) in E.
  inversion E; subst items.
  destruct (DartConstRuns.dart_constants ast true true rpc F) as (A & B & C).
  split; [exact A|].
  split; [exact B|].
  split; [exact C|].
  intros q ty v ty' v'.
  now apply DartConstRuns.dart_one_value.
Qed.

Lemma lem_C53_dart_compiles_refuted : exists srcs, List.length srcs = 9 /\ forall src, In src srcs ->
  exists ast items, compile_front src = Ok ast /\ dart_ready ast = true /\ dart_items ast true items /\ DartConst.consts_compile items = false.
Proof.
  exists ["const limits { runtime_type: bool = true; }"; "const numbers { BIG: f64 = 1180591620717411303424.0; }"; "const limits { TOP_ONE: u8 = 1; topOne: u8 = 2; }";
          "const limits { int: u8 = 1; }"; "const int { TOP: u8 = 1; }"; "const limits { to_string: u8 = 1; }"; "const texts { PRICE: String = ""5 $each""; }";
          "const a { const b { TOP: u8 = 1; } } const a_b { TOP: u8 = 2; }"; "const limits { TOP: bool = 1; }"].
  split; [reflexivity|].
  intros src I.
  apply c53_dart_fails_file.
  revert src I.
  apply forallb_forall.
  vm_compute.
  reflexivity.
Qed.

Lemma rust_dart_value t l v w : rust_val t l v -> const_val t l = Some w -> (v = w <-> exact_literal t l).
Proof.
  unfold rust_val, exact_literal.
  intros R D.
  assert (X : const_val t l = Some v -> (v = w <-> True)) by (intros Y; rewrite D in Y; injection Y as ->; tauto).
  destruct t as [n size sg|n size|n|n|g gl|n]; destruct l as [s|z|x|b]; auto.
  destruct (String.eqb_spec n "f32") as [->|NE].
  - destruct R as (y & -> & S).
  injection D as <-.
  split.
  + intros E _.
  injection E as <-.
  now apply Single.single_value_single in S.
  + intros E.
  f_equal.
  now apply Single.single_value_exact; [apply E|].
  - specialize (X R).
  destruct X as [_ X].
  split; [contradiction|now intros _; apply X].
Qed.
Lemma rust_dart_exact t l v w rt : rust_val t l v -> const_val t l = Some w -> rust_const_type t = Some rt -> rt <> ["f32"] -> v = w.
Proof.
  intros R D T N.
  apply (rust_dart_value t l v w R D).
  unfold exact_literal.
  destruct t as [n size sg|n size|n|n|g gl|n]; try exact Logic.I.
  destruct l; try exact Logic.I.
  injection T as <-.
  intros ->.
  contradiction.
Qed.
Lemma rust_dart_whole t l v w dt : rust_val t l v -> const_val t l = Some w -> dart_const_type t = Some dt -> dt <> "double" -> v = w.
Proof.
  intros R D T N.
  apply (rust_dart_value t l v w R D).
  unfold exact_literal.
  destruct t as [n size sg|n size|n|n|g gl|n]; try exact Logic.I.
  destruct l; try exact Logic.I.
  injection T as <-.
  contradiction.
Qed.

Lemma lem_C53_same_constants : forall ast models buffers rpc rust_items rpc' items,
  rust_ready ast = true -> file_items ast models buffers rpc rust_items -> rust_consts_fine ast (type_names rust_items) = true ->
  dart_ready ast = true -> dart_items ast rpc' items -> dart_consts_fine ast (top_names items) = true ->
  (forall p t l, declared ast p t l -> exists rt dt v w, rust_const_type t = Some rt /\ dart_const_type t = Some dt /\
     RustConst.constant rust_items p rt v /\ DartConst.constant items (map camel p) dt w /\ (v = w <-> exact_literal t l)) /\
  (forall p rt v, RustConst.constant rust_items p rt v -> exists dt w, DartConst.constant items (map camel p) dt w /\ (rt <> ["f32"] -> v = w)) /\
  (forall q dt w, DartConst.constant items q dt w -> exists p rt v, q = map camel p /\ RustConst.constant rust_items p rt v /\ (dt <> "double" -> v = w)).
Proof.
  intros ast models buffers rpc rust_items rpc' items RR RI RF DR DI DF.
  destruct (lem_C53_rust_constants ast models buffers rpc rust_items RR RI RF) as (_ & RA & RB & _).
  destruct (lem_C53_dart_constants ast rpc' items DR DI DF) as (_ & DA & DB & _).
  split; [|split].
  - intros p t l H.
  destruct (RA p t l H) as (rt & v & RT & V & C).
  destruct (DA p t l H) as (dt & w & DT & W & C').
  exists rt, dt, v, w.
  split; [exact RT|].
  split; [exact DT|].
  split; [exact C|].
  split; [exact C'|].
  now apply rust_dart_value.
  - intros p rt v H.
  destruct (RB p rt v H) as (t & l & D & RT & V).
  destruct (DA p t l D) as (dt & w & _ & W & C').
  exists dt, w.
  split; [exact C'|].
  now apply (rust_dart_exact t l).
  - intros q dt w H.
  destruct (DB q dt w H) as (p & t & l & -> & D & DT & W).
  destruct (RA p t l D) as (rt & v & _ & V & C').
  exists p, rt, v.
  split; [reflexivity|].
  split; [exact C'|].
  now apply (rust_dart_whole t l v w dt).
Qed.

Definition c53_tenth_src : string := "const numbers { TENTH: f32 = 0.1; QUARTER: f32 = 0.25; EXACT: f64 = 0.1; }".
Definition c53_tenth_ast := match compile_front c53_tenth_src with Ok ast => ast | _ => [] end.
Definition c53_tenth_rust := rust_tree c53_tenth_ast true true true.
Definition c53_tenth_dart := dart_tree c53_tenth_ast true true true.

Lemma lem_C53_same_single_refuted : exists ast rust_items items v w,
  compile_front c53_tenth_src = Ok ast /\
  rust_ready ast = true /\ file_items ast true true true rust_items /\ rust_consts_fine ast (type_names rust_items) = true /\
  dart_ready ast = true /\ dart_items ast true items /\ dart_consts_fine ast (top_names items) = true /\
  RustConst.constant rust_items ["numbers"; "TENTH"] ["f32"] v /\ DartConst.constant items ["numbers"; "tenth"] "double" w /\ v <> w.
Proof.
  exists c53_tenth_ast, c53_tenth_rust, c53_tenth_dart, (CReal (Single.f32_of_dec 1 (-1))), (CReal (f64_of_dec 1 (-1))).
  split; [vm_compute; reflexivity|].
  split; [vm_compute; reflexivity|].
  split; [apply (rust_items_tree c53_tenth_ast true true true); vm_compute; reflexivity|].
  split; [vm_compute; reflexivity|].
  split; [vm_compute; reflexivity|].
  split; [apply dart_items_tree; vm_compute; reflexivity|].
  split; [vm_compute; reflexivity|].
  split; [|split].
  - eapply RustConst.co_in; [vm_compute; tauto|].
  eapply RustConst.co_here; [vm_compute; tauto|vm_compute; reflexivity].
  - eapply DartConst.co_at; [vm_compute; tauto|vm_compute; reflexivity|vm_compute; reflexivity|].
  eapply DartConst.he_here; [vm_compute; tauto|vm_compute; reflexivity].
  - vm_compute.
  discriminate.
Qed.
