(** Lemmas behind the theorems of PropertiesStrictMore.v. *)

(** More property theorems about buffers that nobody has written, C64: skipping, and the same buffers in Dart.
    After each theorem, a concrete case that meets its hypotheses, and its axioms. *)
Require Import Coq.Strings.String Coq.Strings.Ascii.
Require Import Coq.NArith.NArith Coq.ZArith.ZArith Coq.Lists.List Coq.Bool.Bool Coq.Arith.PeanoNat.
Require Import Coq.micromega.Lia.
Require Import Verif.Base Verif.Ast Verif.Lexer Verif.Parser Verif.Code Verif.RustSyntax Verif.RustGen Verif.RustTree Verif.RustFile Verif.RustWf Verif.RustSem Verif.Wire Verif.RustCodec Verif.CodecFacts.
Require Import Verif.DartSyntax Verif.DartGen Verif.DartTree Verif.DartFile Verif.DartWf Verif.DartSem Verif.DartWire Verif.DartRun Verif.DartShape Verif.DartCodec Verif.DartAgree Verif.DartFacts.
Require Import Verif.StrictSpec Verif.StrictFacts.
Import ListNotations.
Local Open Scope string_scope.
Local Open Scope list_scope.

Lemma times_reads R V items ds fuel n (one : forall q v q', read_value R V items (S fuel) (RustTree.ty0 n) q = Done v q' -> typed R ds v (TyOther n) = true /\ took (wire R ds v) q q') k :
  forall q x q', times k (RustSem.bind (read_value R V items (S fuel) (RustTree.ty0 n)) (fun _ => RustSem.ret RustSem.ok)) q = Done x q' ->
  exists vs, List.length vs = k /\ Forall (fun v => typed R ds v (TyOther n) = true) vs /\ took (flat_map (wire R ds) vs) q q'.
Proof.
  induction k as [|k IH]; intros q x q' E.
  - injection E as _ <-.
  exists [].
  split; [reflexivity|].
  split; [constructor|apply took_nil].
  - cbn [times] in E.
  unfold RustSem.bind at 1 2 in E.
  destruct (read_value R V items (S fuel) (RustTree.ty0 n) q) as [v q1| | | |] eqn:Ev; try discriminate E.
  change (times k (RustSem.bind (read_value R V items (S fuel) (RustTree.ty0 n)) (fun _ => RustSem.ret RustSem.ok)) q1 = Done x q') in E.
  destruct (one q v q1 Ev) as (T & B).
  destruct (IH q1 x q' E) as (vs & L & F & B').
  exists (v :: vs).
  split; [cbn; now rewrite L|].
  split; [now constructor|].
  now apply (took_app _ _ q q1 q').
Qed.

Lemma lem_C64_skipped : forall ast models buffers rpc items R V n d fuel count q x q',
  let ds := rust_decls ast buffers rpc in
  rust_ready ast = true -> file_items ast models buffers rpc items -> codecs_ok ds = true -> cases_named ds = true -> plain_types ds = true ->
  strict R -> decl_of n ds = Some d -> StrictSpec.plain_type (TyOther n) = true ->
  skip_values R V items fuel n count q = Done x q' ->
  exists vs rest, List.length vs = Z.to_nat count /\ Forall (fun v => typed R ds v (TyOther n) = true) vs /\
    s_rd q = flat_map (wire R ds) vs ++ rest /\ q' = set_rd rest q.
Proof.
  intros ast models buffers rpc items R V n d fuel count q x q' ds RD F O N P S D Pt E.
  rewrite (lem_C19_skip_is_reading ast models buffers rpc items R V n d fuel count q RD F O D) in E.
  apply (times_reads R V items ds) in E.
  - destruct E as (vs & L & T & rest & B & Q).
  now exists vs, rest.
  - clear E q x q'.
  intros q v q' E.
  exact (lem_C64_reads_wire ast models buffers rpc items R V (TyOther n) (Datatypes.S fuel) q v q' RD F O N P S Pt E).
Qed.

Lemma lem_C64_dart : forall ast models rust_rpc dart_rpc rust_file items R V D U cd v m fuel dfuel q q' s,
  let rds := rust_decls ast true rust_rpc in
  let ds := schema_decls ast in
  rust_ready ast = true -> file_items ast models true rust_rpc rust_file -> codecs_ok rds = true -> codecs_distinct rds = true ->
  cases_named rds = true -> plain_types rds = true -> StrictSpec.plain_type (TyOther m) = true ->
  dart_ready ast = true -> dart_items ast dart_rpc items -> dart_codecs_ok ast items = true ->
  lawful R -> strict R -> dlawful D U -> agree R D U ->
  declared ds m = true -> read_value R V rust_file fuel (RustTree.ty0 m) q = Done v q' ->
  dtyped U ds (top_names items) cd v (TyOther m) = true -> portable ds v (TyOther m) = true -> 3 * depth v + 3 * cd + 3 <= dfuel ->
  exists w h',
    dart_call D items dfuel (m ++ "IntoBuffers") "read" [dreader] (set_drd (s_rd q) s) = DDone w (set_heap h' (set_drd (s_rd q') s)) /\
    changes (d_heap s) h' [] /\ rep U ds (fresh (d_heap s) h') h' w v (TyOther m).
Proof.
  intros ast models rust_rpc dart_rpc rust_file items R V D U cd v m fuel dfuel q q' s rds ds RD F O DI N P Pt DR DF DO L S DL A M E T PO FU.
  destruct (lem_C64_reads_wire ast models true rust_rpc rust_file R V (TyOther m) fuel q v q' RD F O N P S Pt E) as (TR & _).
  destruct (lem_C64_forwarded ast models true rust_rpc rust_file R V (TyOther m) fuel q v q' RD F O N P S Pt E) as (bs & B & W).
  destruct (lem_C24_same_bytes ast models rust_rpc dart_rpc rust_file items R V D U cd v m (depth v) dfuel RD F O DI DR DF DO L DL A M TR T PO (le_n _) FU) as (bs' & W' & _ & _ & RR).
  specialize (W (depth v) q (le_n _)).
  specialize (W' q).
  rewrite W in W'.
  injection W' as W'.
  apply app_inv_head in W'.
  subst bs'.
  rewrite B.
  apply RR.
Qed.
