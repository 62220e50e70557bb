(** Lemmas behind the theorems of PropertiesCodec.v. *)

(** Property theorems about the meaning of the generated Rust codecs: C17 (structs), C18 (enums), C19 (skipping),
    C20 (unknown tags), C25 (reordered variants).  The generated text is read back as a Rust file and that file is
    run by the interpreter of RustSem.  After each theorem, a concrete case that meets its hypotheses, and its axioms. *)
Require Import Coq.Strings.String Coq.Strings.Ascii.
Require Import Coq.NArith.NArith Coq.ZArith.ZArith Coq.Lists.List Coq.Bool.Bool Coq.Arith.PeanoNat Coq.Sorting.Permutation.
Require Import Coq.micromega.Lia Coq.micromega.ZifyBool Coq.micromega.ZifyN Coq.micromega.ZifyNat.
Require Import Verif.Base Verif.Ast Verif.Lexer Verif.Parser Verif.Code Verif.NumText Verif.RustSyntax Verif.RustGen Verif.RustTree Verif.RustFile Verif.RustWf Verif.RustSem Verif.Wire Verif.RustCodec.
Import ListNotations.
Local Open Scope string_scope.
Local Open Scope list_scope.

(** [items] is what the file generated from [ast] with the given switches reads as. *)
Definition file_items (ast : list ast_node) (models buffers rpc : bool) (items : list item) : Prop :=
  exists text, rust_generate ast models buffers rpc = Ok text /\ rust_file text = Some items.

(** The declarations with codecs in such a file meet the conditions of the codecs. *)
Definition codecs_ok (ds : list decl) : bool := forallb decl_ok ds && forallb positions_fit ds.

(** Every enum has pairwise different positions. *)
Definition codecs_distinct (ds : list decl) : bool := forallb positions_distinct ds.

(** *** Concrete schemas *)
Definition parsed (s : string) : list ast_node := match compile_front s with Ok ast => ast | _ => [] end.

Lemma file_impls ast m b r items : rust_ready ast = true -> file_items ast m b r items ->
  forall n, find_impl n items = option_map decl_fns (decl_of n (rust_decls ast b r)).
Proof.
  intros RD (text & G & F) n.
  pose proof (rust_file_generated ast m b r text RD G) as X.
  rewrite F in X.
  injection X as ->.
  apply find_impl_tree.
Qed.

Lemma lem_C17_round_trip : forall ast models buffers rpc items R V v t fuel,
  let ds := rust_decls ast buffers rpc in
  rust_ready ast = true -> file_items ast models buffers rpc items -> codecs_ok ds = true -> codecs_distinct ds = true ->
  lawful R -> typed R ds v t = true -> depth v <= fuel ->
  exists bs,
    (forall q, write_value R V items fuel v q = Done RustSem.ok (set_wr (s_wr q ++ bs) q)) /\
    (forall q rest, read_value R V items fuel (rty_of t) (set_rd (bs ++ rest) q) = Done v (set_rd rest q)).
Proof.
  intros ast models buffers rpc items R V v t fuel ds RD F O DI L T D.
  pose proof (file_impls ast _ _ _ items RD F) as I.
  fold ds in I.
  unfold codecs_ok in O.
  apply andb_true_iff in O as [O FT].
  exists (wire R ds v).
  split.
  - intros q.
  exact (write_values R V items ds I O FT fuel v t T D q).
  - intros q rest.
  exact (read_values R V items ds I O L FT DI fuel v t T D q rest).
Qed.

Lemma lem_C17_struct_round_trip : forall ast models buffers rpc items R V n fs fuel,
  let ds := rust_decls ast buffers rpc in
  rust_ready ast = true -> file_items ast models buffers rpc items -> codecs_ok ds = true -> codecs_distinct ds = true ->
  lawful R -> typed R ds (vrec n fs) (TyOther n) = true -> depth (vrec n fs) <= fuel ->
  let bs := flat_map (fun '(_, v) => wire R ds v) fs in
  (forall q, write_value R V items fuel (vrec n fs) q = Done RustSem.ok (set_wr (s_wr q ++ bs) q)) /\
  (forall q rest, read_value R V items fuel (ty0 n) (set_rd (bs ++ rest) q) = Done (vrec n fs) (set_rd rest q)).
Proof.
  intros ast models buffers rpc items R V n fs fuel ds RD F O DI L T D bs.
  pose proof (file_impls ast _ _ _ items RD F) as I.
  fold ds in I.
  unfold codecs_ok in O.
  apply andb_true_iff in O as [O FT].
  split.
  - intros q.
  exact (write_values R V items ds I O FT fuel (vrec n fs) _ T D q).
  - intros q rest.
  exact (read_values R V items ds I O L FT DI fuel (vrec n fs) _ T D q rest).
Qed.

Definition c17_schema : string := "struct Point { x: i32, y: u8 } struct Line { from: Point, to: Point, name: String, tags: Vec<Point> } enum Shape { #[7] Dot, #[8] Round(Point, u32), #[9] Named { shape: Line, width: i64 } }".

Definition c17_point (x y : Z) : val := vrec "Point" [("x", vnum "i32" x); ("y", vnum "u8" y)].

Definition c17_line : val := vrec "Line" [("from", c17_point (-1) 2); ("to", c17_point 70000 255); ("name", vext "String" 5); ("tags", vbox "Vec" 2 [c17_point 1 1; c17_point 2 2])].

Definition c17_state : state := mk_state [] [] (fun _ _ _ => []) [] [] [] [].

Definition c17_service : service := mk_service (fun _ _ _ => None) (fun _ => false).

Definition c17_items : list item := rust_tree (parsed c17_schema) true true false.

Definition zs (l : list Z) : bytes := map (fun z => ascii_of_N (Z.to_N z)) l.

Lemma lem_C18_enum_round_trip : forall ast models buffers rpc items R V e v fuel,
  let ds := rust_decls ast buffers rpc in
  rust_ready ast = true -> file_items ast models buffers rpc items -> codecs_ok ds = true -> codecs_distinct ds = true ->
  lawful R -> In (DEnum e) ds -> typed R ds v (TyOther (en_id e)) = true -> depth v <= fuel ->
  exists bs,
    (forall q, write_value R V items fuel v q = Done RustSem.ok (set_wr (s_wr q ++ bs) q)) /\
    (forall q rest, read_value R V items fuel (ty0 (en_id e)) (set_rd (bs ++ rest) q) = Done v (set_rd rest q)).
Proof.
  intros ast models buffers rpc items R V e v fuel ds RD F O DI L _ T D.
  exact (lem_C17_round_trip ast models buffers rpc items R V v (TyOther (en_id e)) fuel RD F O DI L T D).
Qed.

Lemma lem_C18_enum_bytes : forall ast models buffers rpc items R V e i v fuel q,
  let ds := rust_decls ast buffers rpc in
  rust_ready ast = true -> file_items ast models buffers rpc items -> codecs_ok ds = true ->
  decl_of (en_id e) ds = Some (DEnum e) -> item_of (item_name i) e = Some i ->
  typed R ds v (TyOther (en_id e)) = true -> depth v <= fuel ->
  match i, v with
  | ItemEmpty _ c, vcase n c' => c = c'
  | ItemTuple _ c _, vcaset n c' l => c = c'
  | ItemStruct _ c _, vcases n c' fs => c = c'
  | _, _ => False
  end ->
  write_value R V items fuel v q =
  Done RustSem.ok (set_wr (s_wr q ++ rt_put R "u32" (Z.of_N (item_pos i)) ++
    match v with vcaset _ _ l => flat_map (wire R ds) l | vcases _ _ fs => flat_map (fun '(_, v) => wire R ds v) fs | _ => [] end) q).
Proof.
  intros ast models buffers rpc items R V e i v fuel q ds RD F O DE IT T D C.
  pose proof (file_impls ast _ _ _ items RD F) as I.
  fold ds in I.
  unfold codecs_ok in O.
  apply andb_true_iff in O as [O FT].
  pose proof (write_values R V items ds I O FT fuel v _ T D q) as W.
  unfold write_value.
  rewrite W.
  do 3 f_equal.
  destruct (typed_case R ds v (en_id e) e DE T) as (j & J & CV).
  assert (item_name j = item_name i) by (destruct i, v; try contradiction; subst; destruct j; try contradiction; cbn in CV |- *; intuition congruence).
  assert (j = i) by congruence.
  subst j.
  rewrite (wire_case R ds (en_id e) e i v DE IT CV).
  f_equal.
  destruct i, v; try contradiction; try reflexivity.
  cbn [payload].
  now rewrite wire_fields.
Qed.

Lemma lem_C18_shared_position : forall ast models buffers rpc items R V e l i l' j l'' v fuel,
  let ds := rust_decls ast buffers rpc in
  rust_ready ast = true -> file_items ast models buffers rpc items -> codecs_ok ds = true ->
  lawful R -> decl_of (en_id e) ds = Some (DEnum e) ->
  en_items e = l ++ i :: l' ++ j :: l'' -> item_pos i = item_pos j -> NoDup (map item_name (en_items e)) ->
  typed R ds v (TyOther (en_id e)) = true ->
  match j, v with
  | ItemEmpty _ c, vcase n c' => c = c'
  | ItemTuple _ c _, vcaset n c' l => c = c'
  | ItemStruct _ c _, vcases n c' fs => c = c'
  | _, _ => False
  end ->
  depth v <= fuel ->
  exists bs,
    (forall q, write_value R V items fuel v q = Done RustSem.ok (set_wr (s_wr q ++ bs) q)) /\
    (forall fuel' q q' rest, read_value R V items fuel' (ty0 (en_id e)) (set_rd (bs ++ rest) q) <> Done v q').
Proof.
  intros ast models buffers rpc items R V e l i l' j l'' v fuel ds RD F O L DE E P ND T C D.
  pose proof (file_impls ast _ _ _ items RD F) as I.
  fold ds in I.
  unfold codecs_ok in O.
  apply andb_true_iff in O as [O FT].
  exists (wire R ds v).
  split; [intros q; exact (write_values R V items ds I O FT fuel v _ T D q)|].
  intros fuel' q q' rest.
  destruct (typed_case R ds v (en_id e) e DE T) as (k & J & CV).
  assert (N : item_name k = item_name j) by (destruct j, v; try contradiction; subst; destruct k; try contradiction; cbn in CV |- *; intuition congruence).
  destruct (find_item_in _ _ _ J) as [KI _].
  assert (k = j).
  { assert (JI : In j (en_items e)) by (rewrite E; apply in_or_app; right; right; apply in_or_app; right; now left).
  clear - KI JI N ND.
  induction (en_items e) as [|x m IH]; [destruct KI|].
  cbn [map] in ND.
  apply NoDup_cons_iff in ND as [A B].
  destruct KI as [->|KI], JI as [->|JI]; [reflexivity| | |now apply IH]; exfalso; apply A; [rewrite N|rewrite <- N]; now apply in_map.
  }
  subst k.
  clear N.
  rewrite (wire_case R ds (en_id e) e j v DE J CV).
  rewrite <- app_assoc.
  destruct fuel' as [|fuel']; [discriminate|].
  unfold read_value.
  cbn [calls_upto c_read ty0 read_with].
  rewrite (find_read items ds I _ _ DE).
  cbn [decl_fns].
  rewrite (read_enum_exact R V items ds O FT _ _ e _ (clean_upto R V items fuel') DE).
  unfold with_tag.
  cbn [set_rd s_rd].
  rewrite (law_prim R L "u32" _ _ eq_refl (u32_range _ (fit_of ds FT (en_id e) e j DE KI))).
  assert (X : exists k, find (fun i0 => Z.eqb (Z.of_N (item_pos i0)) (Z.of_N (item_pos j))) (en_items e) = Some k /\ item_name k <> item_name j).
  { rewrite E in ND |- *.
  clear - P ND.
  induction l as [|x m IH].
  - exists i.
  cbn [app find].
  rewrite P, Z.eqb_refl.
  split; [reflexivity|].
  cbn [app map] in ND.
  apply NoDup_cons_iff in ND as [A _].
  intros H.
  apply A.
  rewrite H.
  apply in_map.
  apply in_or_app.
  right.
  now left.
  - cbn [app find].
  cbn [app map] in ND.
  apply NoDup_cons_iff in ND as [A B].
  destruct (Z.eqb _ _); [|now apply IH].
  exists x.
  split; [reflexivity|].
  intros H.
  apply A.
  rewrite H.
  apply in_map.
  apply in_or_app.
  right.
  right.
  apply in_or_app.
  right.
  now left.
  }
  destruct X as (k & X & NE).
  rewrite X.
  intros H.
  assert (item_name k = item_name j); [|contradiction].
  clear - H CV.
  destruct k as [p c|p c ts|p c m]; cbn [read_case] in H.
  - injection H as <- _.
  destruct j; try contradiction.
  cbn in CV |- *.
  intuition congruence.
  - unfold RustSem.bind in H.
  destruct (mapMM _ _ _); try discriminate.
  injection H as <- _.
  destruct j; try contradiction.
  cbn in CV |- *.
  intuition congruence.
  - unfold RustSem.bind in H.
  destruct (read_fields _ _ _ _ _); try discriminate.
  injection H as <- _.
  destruct j; try contradiction.
  cbn in CV |- *.
  intuition congruence.
Qed.

Definition c18_schema : string := "enum E { #[1] A, #[1] B(u8), #[2] C { x: i32 } }".

Lemma lem_C18_field_hides_writer_refuted : exists ast items v,
  let ds := rust_decls ast true false in
  rust_ready ast = true /\ file_items ast true true false items /\ forallb positions_fit ds = true /\ codecs_distinct ds = true /\
  typed le_runtime ds v (TyOther "E") = true /\
  forall V q fuel, write_value le_runtime V items (S fuel) v q = Stuck.
Proof.
  exists (parsed "enum E { A { bytes_writer: u8 } }"), (rust_tree (parsed "enum E { A { bytes_writer: u8 } }") true true false), (vcases "E" "A" [("bytes_writer", vnum "u8" 1)]).
  split; [vm_compute; reflexivity|].
  split; [eexists; split; vm_compute; reflexivity|].
  split; [vm_compute; reflexivity|].
  split; [vm_compute; reflexivity|].
  split; [vm_compute; reflexivity|].
  intros V q fuel.
  vm_compute.
  reflexivity.
Qed.

Lemma lem_C19_skip_is_reading : forall ast models buffers rpc items R V n d fuel count q,
  let ds := rust_decls ast buffers rpc in
  rust_ready ast = true -> file_items ast models buffers rpc items -> codecs_ok ds = true -> decl_of n ds = Some d ->
  skip_values R V items fuel n count q =
  times (Z.to_nat count) (RustSem.bind (read_value R V items (S fuel) (ty0 n)) (fun _ => RustSem.ret RustSem.ok)) q.
Proof.
  intros ast models buffers rpc items R V n d fuel count q ds RD F O D.
  pose proof (file_impls ast _ _ _ items RD F) as I.
  fold ds in I.
  unfold codecs_ok in O.
  apply andb_true_iff in O as [O FT].
  exact (skip_is_reads R V items ds I O FT fuel n d count q D).
Qed.

Lemma lem_C19_skip_written : forall ast models buffers rpc items R V n vs fuel q rest,
  let ds := rust_decls ast buffers rpc in
  rust_ready ast = true -> file_items ast models buffers rpc items -> codecs_ok ds = true -> codecs_distinct ds = true ->
  lawful R -> (exists d, decl_of n ds = Some d) ->
  (forall v, In v vs -> typed R ds v (TyOther n) = true /\ depth v <= S fuel) ->
  skip_values R V items fuel n (Z.of_nat (List.length vs)) (set_rd (flat_map (wire R ds) vs ++ rest) q) = Done RustSem.ok (set_rd rest q).
Proof.
  intros ast models buffers rpc items R V n vs fuel q rest ds RD F O DI L [d D] T.
  unfold ds in D.
  rewrite (lem_C19_skip_is_reading ast models buffers rpc items R V n d fuel _ _ RD F O D), Nat2Z.id.
  fold ds in D.
  pose proof (file_impls ast _ _ _ items RD F) as I.
  fold ds in I.
  unfold codecs_ok in O.
  apply andb_true_iff in O as [O FT].
  revert q.
  induction vs as [|v vs IH]; intros q; [reflexivity|].
  cbn [flat_map List.length times].
  rewrite <- app_assoc.
  destruct (T v (or_introl eq_refl)) as [TV DV].
  pose proof (read_values R V items ds I O L FT DI (S fuel) v (TyOther n) TV DV q (flat_map (wire R ds) vs ++ rest)) as X.
  rewrite (bind_done _ _ _ RustSem.ok (set_rd (flat_map (wire R ds) vs ++ rest) q)).
  2: { unfold read_value.
  change (ty0 n) with (rty_of (TyOther n)).
  now rewrite (bind_done _ _ _ _ _ X).
  }
  apply IH.
  intros u U.
  apply T.
  now right.
Qed.

Lemma lem_C20_rust_unknown_tag_panics : forall ast models buffers rpc items R V e fuel q z rest,
  let ds := rust_decls ast buffers rpc in
  rust_ready ast = true -> file_items ast models buffers rpc items -> codecs_ok ds = true ->
  decl_of (en_id e) ds = Some (DEnum e) ->
  rt_get R "u32" (s_rd q) = Some (z, rest) -> (forall i, In i (en_items e) -> Z.of_N (item_pos i) <> z) ->
  read_value R V items (S fuel) (ty0 (en_id e)) q = Panics /\
  (forall count, (0 < count)%Z -> skip_values R V items fuel (en_id e) count q = Panics).
Proof.
  intros ast models buffers rpc items R V e fuel q z rest ds RD F O DE G N.
  pose proof (file_impls ast _ _ _ items RD F) as I.
  fold ds in I.
  pose proof O as OK.
  unfold codecs_ok in O.
  apply andb_true_iff in O as [O FT].
  assert (P : read_value R V items (S fuel) (ty0 (en_id e)) q = Panics).
  { unfold read_value.
  cbn [calls_upto c_read ty0 read_with].
  rewrite (find_read items ds I _ _ DE).
  cbn [decl_fns].
  rewrite (read_enum_exact R V items ds O FT _ _ e _ (clean_upto R V items fuel) DE).
  unfold with_tag.
  rewrite G.
  assert (X : find (fun i => Z.eqb (Z.of_N (item_pos i)) z) (en_items e) = None); [|now rewrite X].
  clear - N.
  induction (en_items e) as [|i l IH]; [reflexivity|].
  cbn [find].
  destruct (Z.eqb_spec (Z.of_N (item_pos i)) z) as [H|_].
  - exfalso.
  exact (N i (or_introl eq_refl) H).
  - apply IH.
  intros j J.
  apply N.
  now right.
  }
  split; [exact P|].
  intros count H.
  rewrite (lem_C19_skip_is_reading ast models buffers rpc items R V _ _ fuel count q RD F OK DE).
  destruct (Z.to_nat count) as [|k] eqn:C; [lia|].
  cbn [times].
  unfold RustSem.bind.
  now rewrite P.
Qed.

(** *** Reordering *)
(** The same declaration, except that the cases of an enum may stand in another order. *)
Definition reordered (a b : ast_node) : Prop :=
  match a, b with
  | NEnum e, NEnum f => en_id e = en_id f /\ Permutation (en_items e) (en_items f)
  | _, _ => a = b
  end.

Definition reordered_decl (a b : decl) : Prop :=
  match a, b with
  | DEnum e, DEnum f => en_id e = en_id f /\ Permutation (en_items e) (en_items f)
  | _, _ => a = b
  end.

Lemma reordered_refl d : reordered_decl d d.
Proof.
  destruct d; cbn; auto.
Qed.

Lemma reordered_decls a b buffers rpc : Forall2 reordered a b ->
  Forall2 reordered_decl (rust_decls a buffers rpc) (rust_decls b buffers rpc).
Proof.
  intros H.
  assert (FN : find_fn_nodes a = find_fn_nodes b).
  { clear - H.
  induction H as [|x y a b H _ IH]; [reflexivity|].
  destruct x, y; cbn in H; try discriminate H; cbn [find_fn_nodes flat_map] in *; try congruence; try exact IH;
    injection H as <-; cbn; congruence.
  }
  assert (S : Forall2 reordered_decl (schema_decls a) (schema_decls b)).
  { clear - H.
  induction H as [|x y a b H _ IH]; [constructor|].
  destruct x, y; cbn in H; try discriminate H; cbn; try exact IH; constructor; try exact IH.
  - exact H.
  - injection H as <-.
  reflexivity.
  }
  unfold rust_decls.
  rewrite FN.
  apply Forall2_app; [destruct buffers; [exact S|constructor]|].
  destruct rpc; [|constructor].
  induction (args_decls _); constructor; [apply reordered_refl|assumption].
Qed.

(** No two cases of an enum have the same name. *)
Definition cases_named (ds : list decl) : bool :=
  forallb (fun d => match d with DEnum e => nodupb (map item_name (en_items e)) | DStruct _ => true end) ds.

Lemma find_perm {A} (f : A -> bool) l l' : Permutation l l' -> (forall x y, In x l -> In y l -> f x = true -> f y = true -> x = y) ->
  find f l = find f l'.
Proof.
  intros P U.
  destruct (find f l) as [x|] eqn:E, (find f l') as [y|] eqn:E'; try reflexivity.
  - apply find_some in E as [I F].
  apply find_some in E' as [I' F'].
  f_equal.
  apply U; try assumption.
  apply (Permutation_in _ (Permutation_sym P)).
  assumption.
  - apply find_some in E as [I F].
  exfalso.
  pose proof (find_none _ _ E' x (Permutation_in _ P I)).
  congruence.
  - apply find_some in E' as [I F].
  exfalso.
  pose proof (find_none _ _ E y (Permutation_in _ (Permutation_sym P) I)).
  congruence.
Qed.

Lemma NoDup_map_inj {A B} (f : A -> B) l x y : NoDup (map f l) -> In x l -> In y l -> f x = f y -> x = y.
Proof.
  induction l as [|a l IH]; intros N X Y E; [destruct X|].
  cbn in N.
  apply NoDup_cons_iff in N as [N M].
  destruct X as [->|X], Y as [->|Y]; [reflexivity| | |now apply IH]; exfalso; apply N; [rewrite E|rewrite <- E]; now apply in_map.
Qed.

Lemma forallb_perm {A} (f : A -> bool) l l' : Permutation l l' -> forallb f l = true -> forallb f l' = true.
Proof.
  intros P H.
  rewrite forallb_forall in *.
  intros x I.
  apply H.
  apply (Permutation_in _ (Permutation_sym P)).
  assumption.
Qed.

Section Reorder.

Variable R : runtime.

Variable V : service.

Variables ds ds' : list decl.

Hypothesis same : Forall2 reordered_decl ds ds'.

Hypothesis oks : codecs_ok ds = true.

Hypothesis dist : codecs_distinct ds = true.

Lemma reordered_of n : match decl_of n ds, decl_of n ds' with
  | Some d, Some d' => reordered_decl d d'
  | None, None => True
  | _, _ => False
  end.
Proof.
  pose proof same as S.
  clear same oks dist.
  unfold decl_of.
  induction S as [|a b l m H _ IH]; [exact Logic.I|].
  cbn [find].
  assert (N : decl_name a = decl_name b) by (destruct a, b; cbn in H |- *; try congruence; tauto).
  rewrite N.
  destruct (String.eqb _ _); [exact H|exact IH].
Qed.

Lemma reordered_oks : codecs_ok ds' = true.
Proof.
  pose proof oks as O.
  pose proof same as S.
  clear same dist oks.
  unfold codecs_ok in *.
  apply andb_true_iff in O as [A B].
  apply andb_true_iff.
  induction S as [|a b l m H _ IH]; [auto|].
  cbn [forallb] in *.
  apply andb_true_iff in A as [A A'].
  apply andb_true_iff in B as [B B'].
  destruct (IH A' B') as [C D].
  rewrite C, D, !andb_true_r.
  destruct a as [s|e], b as [s'|e']; cbn in H; try discriminate H; [injection H as <-; auto|].
  destruct H as [H P].
  unfold decl_ok, positions_fit in *.
  cbn [decl_name] in *.
  rewrite <- H.
  apply andb_true_iff in A as [A1 A2].
  rewrite A1.
  rewrite (forallb_perm _ _ _ P A2), (forallb_perm _ _ _ P B).
  auto.
Qed.

Lemma position_find n e e' z : decl_of n ds = Some (DEnum e) -> Permutation (en_items e) (en_items e') ->
  find (fun i => Z.eqb (Z.of_N (item_pos i)) z) (en_items e) = find (fun i => Z.eqb (Z.of_N (item_pos i)) z) (en_items e').
Proof.
  intros D P.
  apply find_perm; [exact P|].
  intros x y X Y FX FY.
  pose proof dist as U.
  unfold codecs_distinct in U.
  rewrite forallb_forall in U.
  apply decl_of_in in D as [D _].
  specialize (U _ D).
  cbn [positions_distinct] in U.
  apply nodupN_NoDup in U.
  apply (NoDup_map_inj item_pos (en_items e)); try assumption.
  apply Z.eqb_eq in FX, FY.
  lia.
Qed.

Variables items items' : list item.

Hypothesis impls : forall n, find_impl n items = option_map decl_fns (decl_of n ds).

Hypothesis impls' : forall n, find_impl n items' = option_map decl_fns (decl_of n ds').

Lemma read_ty_same K K' slf t s : (forall t s, c_read K t s = c_read K' t s) -> read_ty R K slf t s = read_ty R K' slf t s.
Proof.
  intros H.
  unfold read_ty.
  destruct (prim_name t); [reflexivity|apply H].
Qed.

Lemma read_fields_same K K' slf l s : (forall t s, c_read K t s = c_read K' t s) -> read_fields R K slf l s = read_fields R K' slf l s.
Proof.
  intros H.
  unfold read_fields.
  apply mapMM_ext_in.
  intros f q _.
  apply bind_ext2; [now apply read_ty_same|reflexivity].
Qed.

Lemma read_case_same K K' n i s : (forall t s, c_read K t s = c_read K' t s) -> read_case R K n i s = read_case R K' n i s.
Proof.
  intros H.
  destruct i; cbn [read_case]; [reflexivity| |]; apply bind_ext2; try reflexivity.
  - apply mapMM_ext_in.
  intros f q _.
  now apply read_ty_same.
  - now apply read_fields_same.
Qed.

Lemma read_same fuel : forall t q, read_value R V items fuel t q = read_value R V items' fuel t q.
Proof.
  unfold read_value.
  induction fuel as [|fuel IH]; intros t q; [reflexivity|].
  cbn [calls_upto c_read].
  unfold read_with.
  pose proof oks as O.
  unfold codecs_ok in O.
  apply andb_true_iff in O as [O FT].
  pose proof reordered_oks as O'.
  unfold codecs_ok in O'.
  apply andb_true_iff in O' as [O' FT'].
  destruct t as [segs args| |]; try reflexivity.
  destruct segs as [|n [|]]; try reflexivity.
  destruct args as [|a args].
  - pose proof (reordered_of n) as RO.
  destruct (decl_of n ds) as [d|] eqn:D, (decl_of n ds') as [d'|] eqn:D'; try contradiction.
  + rewrite (find_read items ds impls n d D), (find_read items' ds' impls' n d' D').
  destruct d as [s|e], d' as [s'|e']; cbn in RO; try discriminate RO.
  * injection RO as <-.
  cbn [decl_fns].
  rewrite (read_struct_exact R V items ds impls O _ n s q (clean_upto R V items fuel) D).
  rewrite (read_struct_exact R V items' ds' impls' O' _ n s q (clean_upto R V items' fuel) D').
  apply bind_ext2; [|reflexivity].
  now apply read_fields_same.
  * destruct RO as [_ P].
  cbn [decl_fns].
  rewrite (read_enum_exact R V items ds O FT _ n e q (clean_upto R V items fuel) D).
  rewrite (read_enum_exact R V items' ds' O' FT' _ n e' q (clean_upto R V items' fuel) D').
  unfold with_tag.
  destruct (rt_get R "u32" (s_rd q)) as [[z rest]|]; [|reflexivity].
  rewrite (position_find n e e' z D P).
  destruct (find _ (en_items e')); [|reflexivity].
  now apply read_case_same.
  + rewrite (find_method_none items ds impls n _ D), (find_method_none items' ds' impls' n _ D').
  unfold has_impl.
  now rewrite impls, impls', D, D'.
  - destruct (rt_head_get R n (s_rd q)) as [[k rest]|]; [|reflexivity].
  apply bind_ext2; [|reflexivity].
  apply mapMM_ext_in.
  intros i s _.
  destruct (nth_error _ _); [apply IH|reflexivity].
Qed.

Hypothesis named : cases_named ds = true.

Lemma item_same n e e' c : decl_of n ds = Some (DEnum e) -> Permutation (en_items e) (en_items e') -> item_of c e = item_of c e'.
Proof.
  intros D P.
  apply find_perm; [exact P|].
  intros x y X Y FX FY.
  pose proof named as U.
  unfold cases_named in U.
  rewrite forallb_forall in U.
  apply decl_of_in in D as [D _].
  specialize (U _ D).
  cbv beta iota in U.
  apply nodupb_NoDup in U.
  apply (NoDup_map_inj item_name (en_items e)); try assumption.
  apply String.eqb_eq in FX, FY.
  congruence.
Qed.

Lemma all2_ext_in {A B} (f g : A -> B -> bool) l m : (forall a b, In a l -> f a b = g a b) -> all2 f l m = all2 g l m.
Proof.
  revert m.
  induction l as [|a l IH]; intros [|b m] H; try reflexivity.
  cbn.
  rewrite (H a b (or_introl eq_refl)).
  f_equal.
  apply IH.
  intros; apply H; now right.
Qed.

Lemma flat_map_ext_in' {A B} (f g : A -> list B) l : (forall a, In a l -> f a = g a) -> flat_map f l = flat_map g l.
Proof.
  induction l as [|a l IH]; intros H; [reflexivity|].
  cbn.
  rewrite (H a (or_introl eq_refl)), IH; [reflexivity|].
  intros; apply H; now right.
Qed.

Lemma format_same k : forall v, depth v <= k -> (forall t, typed R ds v t = typed R ds' v t) /\ wire R ds v = wire R ds' v.
Proof.
  clear oks dist impls impls' items items'.
  induction k as [|k IH]; intros v L.
  - exfalso.
  destruct v; cbn in L; try lia; destruct o; lia.
  - assert (IHF : forall (fs : list (string * val)) l, S (list_max (map (fun '(_, v) => depth v) fs)) <= S k ->
      all2 (fun '(x, v) f => String.eqb x (sf_name f) && typed R ds v (sf_type f)) fs l =
      all2 (fun '(x, v) f => String.eqb x (sf_name f) && typed R ds' v (sf_type f)) fs l
      /\ flat_map (fun '(_, v) => wire R ds v) fs = flat_map (fun '(_, v) => wire R ds' v) fs).
  { intros fs l H.
  assert (X : forall x u, In (x, u) fs -> depth u <= k).
  { intros x u I.
  apply (in_map (fun '(_, v) => depth v)) in I.
  apply list_max_in in I.
  lia.
  }
      split.
  - apply all2_ext_in.
  intros [x u] f I.
  destruct (IH u (X x u I)) as [A _].
  now rewrite A.
  - apply flat_map_ext_in'.
  intros [x u] I.
  apply (IH u (X x u I)).
  }
    assert (IHL : forall l, S (list_max (map depth l)) <= S k -> forall u, In u l -> (forall t, typed R ds u t = typed R ds' u t) /\ wire R ds u = wire R ds' u).
  { intros l H u I.
  apply IH.
  apply (in_map depth) in I.
  apply list_max_in in I.
  lia.
  }
    assert (TAG : forall e c, tag R ds e c = tag R ds' e c).
  { intros e c.
  unfold tag.
  pose proof (reordered_of e) as RO.
  destruct (decl_of e ds) as [[s|d]|] eqn:D, (decl_of e ds') as [[s'|d']|] eqn:D'; cbn in RO; try contradiction; try discriminate RO; try reflexivity.
  destruct RO as [_ P].
  now rewrite (item_same e d d' c D P).
  }
    destruct v as [p z| | |m fs|m c|m c l|m c fs|g h l|x y| | | | | | | | | | | | | | | | |]; try (split; reflexivity).
  + split; [|cbn [wire]; now apply (IHF fs [])].
  intros t.
  cbn [typed].
  destruct t; try reflexivity.
  pose proof (reordered_of m) as RO.
  destruct (decl_of m ds) as [[s|d]|] eqn:D, (decl_of m ds') as [[s'|d']|] eqn:D'; cbn in RO; try contradiction; try discriminate RO; try reflexivity.
  injection RO as <-.
  f_equal.
  now apply IHF.
  + split; [|apply TAG].
  intros t.
  cbn [typed].
  destruct t; try reflexivity.
  pose proof (reordered_of m) as RO.
  destruct (decl_of m ds) as [[s|d]|] eqn:D, (decl_of m ds') as [[s'|d']|] eqn:D'; cbn in RO; try contradiction; try discriminate RO; try reflexivity.
  destruct RO as [_ P].
  now rewrite (item_same m d d' c D P).
  + split.
  * intros t.
  cbn [typed].
  destruct t; try reflexivity.
  pose proof (reordered_of m) as RO.
  destruct (decl_of m ds) as [[s|d]|] eqn:D, (decl_of m ds') as [[s'|d']|] eqn:D'; cbn in RO; try contradiction; try discriminate RO; try reflexivity.
  destruct RO as [_ P].
  rewrite (item_same m d d' c D P).
  f_equal.
  destruct (item_of c d') as [[]|]; try reflexivity.
  apply all2_ext_in.
  intros u f I.
  now apply (IHL l L).
  * cbn [wire].
  rewrite TAG.
  f_equal.
  apply flat_map_ext_in'.
  intros u I.
  now apply (IHL l L).
  + split.
  * intros t.
  cbn [typed].
  destruct t; try reflexivity.
  pose proof (reordered_of m) as RO.
  destruct (decl_of m ds) as [[s|d]|] eqn:D, (decl_of m ds') as [[s'|d']|] eqn:D'; cbn in RO; try contradiction; try discriminate RO; try reflexivity.
  destruct RO as [_ P].
  rewrite (item_same m d d' c D P).
  f_equal.
  destruct (item_of c d') as [[]|]; try reflexivity.
  now apply IHF.
  * cbn [wire].
  rewrite TAG.
  f_equal.
  now apply (IHF fs []).
  + split.
  * intros t.
  cbn [typed].
  destruct t as [| | | |n [|a args]|]; try reflexivity.
  f_equal.
  apply all2_ext_in.
  intros u i I.
  destruct (nth_error _ _); [|reflexivity].
  now apply (IHL l L).
  * cbn [wire].
  f_equal.
  apply flat_map_ext_in'.
  intros u I.
  now apply (IHL l L).
  + split; [|reflexivity].
  intros t.
  cbn [typed].
  destruct t; try reflexivity.
  f_equal.
  pose proof (reordered_of x) as RO.
  destruct (decl_of x ds), (decl_of x ds'); try contradiction; reflexivity.
Qed.

End Reorder.

Lemma lem_C25_reading : forall a b models buffers rpc items items' R V fuel t q,
  let ds := rust_decls a buffers rpc in
  Forall2 reordered a b -> rust_ready a = true -> rust_ready b = true ->
  file_items a models buffers rpc items -> file_items b models buffers rpc items' ->
  codecs_ok ds = true -> codecs_distinct ds = true ->
  read_value R V items fuel t q = read_value R V items' fuel t q.
Proof.
  intros a b models buffers rpc items items' R V fuel t q ds H RA RB FA FB O D.
  apply (read_same R V ds (rust_decls b buffers rpc) (reordered_decls a b buffers rpc H) O D items items').
  - exact (file_impls a _ _ _ items RA FA).
  - exact (file_impls b _ _ _ items' RB FB).
Qed.

Lemma lem_C25_writing : forall a b models buffers rpc items items' R V fuel v t q,
  let ds := rust_decls a buffers rpc in
  Forall2 reordered a b -> rust_ready a = true -> rust_ready b = true ->
  file_items a models buffers rpc items -> file_items b models buffers rpc items' ->
  codecs_ok ds = true -> cases_named ds = true -> typed R ds v t = true -> depth v <= fuel ->
  typed R (rust_decls b buffers rpc) v t = true /\
  write_value R V items fuel v q = write_value R V items' fuel v q /\
  exists q', write_value R V items fuel v q = Done RustSem.ok q'.
Proof.
  intros a b models buffers rpc items items' R V fuel v t q ds H RA RB FA FB O N T L.
  pose proof (reordered_decls a b buffers rpc H) as S.
  fold ds in S.
  destruct (format_same R ds _ S N fuel v L) as [TY W].
  pose proof (reordered_oks ds _ S O) as O'.
  unfold codecs_ok in O, O'.
  apply andb_true_iff in O as [O FT].
  apply andb_true_iff in O' as [O' FT'].
  assert (T' : typed R (rust_decls b buffers rpc) v t = true) by now rewrite <- TY.
  assert (X : write_value R V items fuel v q = Done RustSem.ok (set_wr (s_wr q ++ wire R ds v) q))
    by exact (write_values R V items ds (file_impls a _ _ _ items RA FA) O FT fuel v t T L q).
  split; [exact T'|].
  split; [|eexists; exact X].
  rewrite X, W.
  symmetry.
  exact (write_values R V items' _ (file_impls b _ _ _ items' RB FB) O' FT' fuel v t T' L q).
Qed.

Definition c25_schema : string := "struct Point { x: i32, y: u8 } enum Shape { #[9] Named { at: Point }, #[7] Dot, #[8] Round(Point, u32) }".

Definition c25_schema' : string := "struct Point { x: i32, y: u8 } enum Shape { #[8] Round(Point, u32), #[9] Named { at: Point }, #[7] Dot }".
