(** Lemmas behind the theorems of PropertiesStrict.v. *)

(** Property theorems about buffers that nobody has written, C64: generated Rust readers accept exactly the wire format.
    After each theorem, a concrete case that meets its hypotheses, and its axioms. *)
Require Import Coq.Strings.String Coq.Strings.Ascii.
Require Import Coq.NArith.NArith Coq.ZArith.ZArith Coq.Lists.List Coq.Bool.Bool Coq.Arith.PeanoNat.
Require Import Coq.micromega.Lia.
Require Import Verif.Base Verif.Ast Verif.Lexer Verif.Parser Verif.Code Verif.RustSyntax Verif.RustGen Verif.RustTree Verif.RustFile Verif.RustWf Verif.RustSem Verif.Wire Verif.RustCodec Verif.CodecFacts.
Require Import Verif.StrictSpec.
Import ListNotations.
Local Open Scope string_scope.
Local Open Scope list_scope.

(* ---- lemmas ---- *)
Lemma le_value_bytes_back b : le_bytes (List.length b) (le_value b) = b.
Proof.
  induction b as [|c b IH]; [reflexivity|].
  cbn [List.length le_bytes le_value].
  pose proof (N_ascii_bounded c).
  rewrite Z.mul_comm, Z.mod_add, Z.mod_small, N2Z.id, ascii_N_embedding by lia.
  rewrite Z.div_add, Z.div_small by lia.
  cbn [Z.add].
  now rewrite IH.
Qed.

Lemma le_bytes_mod n : forall z w, (z mod 2 ^ (8 * Z.of_nat n) = w mod 2 ^ (8 * Z.of_nat n))%Z -> le_bytes n z = le_bytes n w.
Proof.
  intros z w E.
  rewrite <- (le_value_bytes_back (le_bytes n z)), <- (le_value_bytes_back (le_bytes n w)).
  rewrite !le_bytes_length, !le_value_bytes.
  now rewrite E.
Qed.

Lemma le_get_back t b z r : le_get t b = Some (z, r) -> b = le_bytes (prim_size t) z ++ r.
Proof.
  unfold le_get.
  destruct (Nat.leb_spec (prim_size t) (List.length b)) as [L|]; [|discriminate].
  intros [= <- <-].
  set (n := prim_size t) in *.
  set (x := le_value (firstn n b)).
  assert (E : le_bytes n x = firstn n b).
  { unfold x.
  rewrite <- (le_value_bytes_back (firstn n b)) at 2.
  f_equal.
  rewrite firstn_length.
  lia.
  }
  rewrite <- (firstn_skipn n b) at 1.
  f_equal.
  rewrite <- E.
  destruct (prim_signed t && _); [|reflexivity].
  apply le_bytes_mod.
  assert (P : (1 <= Z.of_nat n)%Z) by apply prim_size_pos.
  assert (H : (2 ^ (8 * Z.of_nat n) = 2 * 2 ^ (8 * Z.of_nat n - 1))%Z) by (rewrite <- Z.pow_succ_r by lia; f_equal; lia).
  change ((x mod 2 ^ (8 * Z.of_nat n))%Z = ((x - 2 * 2 ^ (8 * Z.of_nat n - 1)) mod 2 ^ (8 * Z.of_nat n))%Z).
  rewrite <- H.
  rewrite <- (Z.mod_add (x - _) 1) by lia.
  f_equal.
  lia.
Qed.

Lemma le_nat_back b k r : le_nat_get b = Some (k, r) -> (k <? 2 ^ 64)%N = true /\ b = le_nat_put k ++ r.
Proof.
  unfold le_nat_get.
  destruct (le_get "u64" b) as [[z r']|] eqn:E; [|discriminate].
  intros [= <- <-].
  assert (B : (0 <= z < 2 ^ 64)%Z).
  { unfold le_get in E.
  destruct (Nat.leb_spec (prim_size "u64") (List.length b)) as [L|]; [|discriminate].
  injection E as E _.
  change (le_value (firstn 8 b) = z) in E.
  rewrite <- E.
  rewrite <- (le_value_bytes_back (firstn 8 b)), le_value_bytes, firstn_length, Nat.min_l by exact L.
  apply Z.mod_pos_bound.
  reflexivity.
  }
  split; [apply N.ltb_lt; lia|].
  unfold le_nat_put.
  rewrite Z2N.id by lia.
  change 8 with (prim_size "u64").
  now apply le_get_back.
Qed.

Lemma le_strict_strict : strict le_strict.
Proof.
  constructor; cbn; intros.
  - destruct (le_get t b) as [[z' r']|] eqn:E; [|discriminate].
  destruct (in_range t z') eqn:B; [|discriminate].
  injection H0 as <- <-.
  split; [exact B|].
  now apply le_get_back.
  - now apply le_nat_back.
  - now apply le_nat_back.
Qed.

Lemma le_strict_lawful : lawful le_strict.
Proof.
  constructor; cbn; intros; [|now apply le_nat_get_put|now apply le_nat_get_put].
  rewrite le_get_put by assumption.
  now rewrite H0.
Qed.

Lemma set_rd_same q : set_rd (s_rd q) q = q.
Proof.
  now destruct q.
Qed.

Section Strict.

Variable R : runtime.

Variable V : service.

Variable items : list item.

Variable ds : list decl.

Hypothesis impls : forall n, find_impl n items = option_map decl_fns (decl_of n ds).

Hypothesis ok : forallb decl_ok ds = true.

Hypothesis fit : forallb positions_fit ds = true.

Hypothesis named : cases_named ds = true.

Hypothesis plains : plain_types ds = true.

Hypothesis st : strict R.

(** [q'] is [q] after the bytes [b] have been read. *)
Definition took (b : bytes) (q q' : state) : Prop := exists r, s_rd q = b ++ r /\ q' = set_rd r q.

Lemma took_nil q : took [] q q.
Proof.
  exists (s_rd q).
  split; [reflexivity|].
  symmetry.
  apply set_rd_same.
Qed.

Lemma took_app a b q q1 q2 : took a q q1 -> took b q1 q2 -> took (a ++ b) q q2.
Proof.
  intros (r & E & ->) (r' & E' & ->).
  cbn in E'.
  exists r'.
  split; [|reflexivity].
  rewrite E, E'.
  now rewrite <- app_assoc.
Qed.

Lemma mapMM_took {A B} (f : A -> M B) (w : B -> bytes) (P : A -> B -> Prop) l :
  (forall a q b q', In a l -> f a q = Done b q' -> P a b /\ took (w b) q q') ->
  forall q bs q', mapMM f l q = Done bs q' -> Forall2 P l bs /\ took (flat_map w bs) q q'.
Proof.
  induction l as [|a l IH]; intros H q bs q' E.
  - injection E as <- <-.
  split; [constructor|apply took_nil].
  - cbn [mapMM] in E.
  unfold bind in E.
  destruct (f a q) as [b q1| | | |] eqn:Ea; try discriminate E.
  change ((fix go (l0 : list A) : M (list B) := match l0 with [] => ret [] | a0 :: l' => bind (f a0) (fun b0 => bind (go l') (fun bs0 => ret (b0 :: bs0))) end) l q1) with (mapMM f l q1) in E.
  destruct (mapMM f l q1) as [bs1 q2| | | |] eqn:El; try discriminate E.
  injection E as <- <-.
  destruct (H a q b q1 (or_introl eq_refl) Ea) as (Pa & Ta).
  destruct (IH (fun a0 q0 b0 q0' I => H a0 q0 b0 q0' (or_intror I)) q1 bs1 q2 El) as (Pl & Tl).
  split; [now constructor|].
  cbn [flat_map].
  now apply (took_app _ _ q q1 q2).
Qed.

Lemma bind_took {A B} (m : M A) (f : A -> B) q b q' : bind m (fun a => ret (f a)) q = Done b q' -> exists a, m q = Done a q' /\ b = f a.
Proof.
  unfold bind.
  destruct (m q); try discriminate.
  intros [= <- <-].
  eauto.
Qed.

Lemma all2_intro {A B} (f : A -> B -> bool) l m : Forall2 (fun b a => f a b = true) m l -> all2 f l m = true.
Proof.
  induction 1; [reflexivity|].
  cbn.
  now rewrite H.
Qed.

Definition reads_well (K : calls) : Prop := forall t q v q', plain_type t = true -> c_read K (rty_of t) q = Done v q' -> typed R ds v t = true /\ took (wire R ds v) q q'.

Lemma prim_well t id q v q' : prim_name t = Some id -> is_prim id = true -> read_prim R id q = Done v q' -> typed R ds v t = true /\ took (wire R ds v) q q'.
Proof.
  intros N P E.
  unfold read_prim in E.
  destruct (rt_get R id (s_rd q)) as [[z r]|] eqn:G; [|discriminate].
  injection E as <- <-.
  destruct (strict_prim R st id _ z r P G) as (B & W).
  split; [cbn [typed]; now rewrite N, String.eqb_refl, P, B|].
  exists r.
  now split.
Qed.

Lemma plain_prim t id : plain_type t = true -> prim_name t = Some id -> is_prim id = true.
Proof.
  destruct t; cbn; intros P [= <-]; exact P.
Qed.

Lemma read_ty_well K slf t q v q' : reads_well K -> plain_type t = true -> read_ty R K slf t q = Done v q' -> typed R ds v t = true /\ took (wire R ds v) q q'.
Proof.
  intros W P E.
  unfold read_ty in E.
  destruct (prim_name t) as [id|] eqn:N.
  - pose proof (plain_prim t id P N) as Q.
  rewrite method_prim_read in E by exact Q.
  now apply (prim_well t id).
  - assert (S : self_path slf (rty_of t) = rty_of t).
  { destruct t; try discriminate N; cbn [rty_of self_path]; unfold resolve; cbn [plain_type] in P; rewrite ?andb_true_iff, ?negb_true_iff in P.
  - destruct P as ((P & _) & _).
  now rewrite P.
  - destruct P as (_ & P).
  now rewrite P.
  }
    rewrite S in E.
  now apply (W t).
Qed.

Lemma decl_plain n d t : decl_of n ds = Some d -> In t (decl_types d) -> plain_type t = true.
Proof.
  intros D I.
  apply decl_of_in in D as (D & _).
  pose proof plains as P.
  unfold plain_types in P.
  rewrite forallb_forall in P.
  apply P.
  apply in_flat_map.
  now exists d.
Qed.

Lemma fields_well K slf l q fs q' : reads_well K -> (forall f, In f l -> plain_type (sf_type f) = true) -> read_fields R K slf l q = Done fs q' ->
  all2 (fun '(x, v) f => String.eqb x (sf_name f) && typed R ds v (sf_type f)) fs l = true /\ took (flat_map (fun '(_, v) => wire R ds v) fs) q q'.
Proof.
  intros W P E.
  unfold read_fields in E.
  apply (mapMM_took _ (fun '(_, v) => wire R ds v) (fun f '(x, v) => String.eqb x (sf_name f) && typed R ds v (sf_type f) = true)) in E.
  - destruct E as (F & T).
  split; [|exact T].
  apply all2_intro.
  revert F.
  clear.
  induction 1; constructor; [|assumption].
  now destruct y.
  - clear E q q' fs.
  intros f q [x v] q' I E.
  apply bind_took in E as (v' & E & [= -> ->]).
  destruct (read_ty_well K slf (sf_type f) q v' q' W (P f I) E) as (T & B).
  now rewrite String.eqb_refl.
Qed.

Lemma item_found n e i : decl_of n ds = Some (DEnum e) -> In i (en_items e) -> item_of (item_name i) e = Some i.
Proof.
  intros D I.
  apply decl_of_in in D as (D & _).
  pose proof named as U.
  unfold cases_named in U.
  rewrite forallb_forall in U.
  specialize (U _ D).
  cbn in U.
  apply nodupb_NoDup in U.
  unfold item_of.
  revert I U.
  generalize (en_items e).
  clear.
  induction l as [|j l IH]; intros I U; [destruct I|].
  cbn [find].
  inversion U as [|? ? NI U']; subst.
  destruct I as [->|I]; [now rewrite String.eqb_refl|].
  destruct (String.eqb_spec (item_name j) (item_name i)) as [E|]; [|now apply IH].
  exfalso.
  apply NI.
  rewrite E.
  now apply in_map.
Qed.

Lemma case_well K n e i q v q' : reads_well K -> decl_of n ds = Some (DEnum e) -> In i (en_items e) -> read_case R K n i q = Done v q' ->
  typed R ds v (TyOther n) = true /\ exists b, wire R ds v = rt_put R "u32" (Z.of_N (item_pos i)) ++ b /\ took b q q'.
Proof.
  intros W D I E.
  pose proof (item_found n e i D I) as F.
  assert (P : forall t, In t (item_types i) -> plain_type t = true).
  { intros t It.
  apply (decl_plain n (DEnum e) t D).
  cbn.
  apply in_flat_map.
  now exists i.
  }
  destruct i as [p c|p c ts|p c l]; cbn [read_case item_name item_pos item_types] in *.
  - injection E as <- <-.
  cbn [typed].
  rewrite D, String.eqb_refl, F.
  split; [reflexivity|].
  exists [].
  cbn [wire].
  unfold tag.
  rewrite D, F.
  split; [now rewrite app_nil_r|apply took_nil].
  - apply bind_took in E as (vs & E & ->).
  apply (mapMM_took _ (wire R ds) (fun f v => typed R ds v (tf_type f) = true)) in E.
  + destruct E as (T & B).
  cbn [typed].
  rewrite D, String.eqb_refl, F.
  split; [now apply all2_intro|].
  exists (flat_map (wire R ds) vs).
  cbn [wire].
  unfold tag.
  rewrite D, F.
  now split.
  + clear E q q' vs.
  intros f q v q' If E.
  apply (read_ty_well K n); [exact W| |exact E].
  apply P.
  now apply in_map.
  - apply bind_took in E as (fs & E & ->).
  apply fields_well in E; [|exact W|intros f If; apply P; now apply in_map].
  destruct E as (T & B).
  cbn [typed].
  rewrite D, String.eqb_refl, F.
  split; [exact T|].
  exists (flat_map (fun '(_, v) => wire R ds v) fs).
  cbn [wire].
  unfold tag.
  rewrite D, F.
  now split.
Qed.

Lemma upto_well n : reads_well (calls_upto R V items n).
Proof.
  induction n as [|n IH]; intros t q v q' P E; [discriminate E|].
  cbn [calls_upto c_read] in E.
  assert (PRIM : forall id, is_prim id = true -> prim_name t = Some id -> rty_of t = RPath [id] [] -> typed R ds v t = true /\ took (wire R ds v) q q').
  { intros id Q N Y.
  rewrite Y in E.
  cbn [read_with] in E.
  pose proof (no_prim_decl ds ok id Q) as D.
  rewrite (find_method_none items ds impls id _ D) in E.
  unfold has_impl in E.
  rewrite impls, D in E.
  cbn [option_map] in E.
  rewrite Q in E.
  now apply (prim_well t id).
  }
  destruct t as [id ? ?|id ?|id|id|g l|m]; try (apply (PRIM id); [exact P|reflexivity|reflexivity]); clear PRIM.
  - cbn [plain_type] in P.
  rewrite !andb_true_iff, negb_true_iff in P.
  destruct P as ((NS & NE) & PL).
  destruct l as [|a l]; [discriminate NE|].
  clear NE.
  cbn [rty_of map read_with] in E.
  destruct (rt_head_get R g (s_rd q)) as [[k rest]|] eqn:H; [|discriminate E].
  apply bind_took in E as (vs & E & ->).
  destruct (strict_head R st g _ k rest H) as (HO & HB).
  apply (mapMM_took _ (wire R ds) (fun i v => match nth_error (a :: l) i with Some t => typed R ds v t | None => false end = true)) in E.
  + destruct E as (T & B).
  cbn [typed].
  rewrite String.eqb_refl, NS, HO.
  cbn [negb andb].
  split; [now apply all2_intro|].
  cbn [wire].
  apply (took_app _ _ q (set_rd rest q) q'); [|exact B].
  exists rest.
  now split.
  + clear E q q' vs H HB.
  intros i q v q' _ E.
  change (rty_of a :: map rty_of l) with (map rty_of (a :: l)) in E.
  destruct (nth_error (a :: l) i) as [t|] eqn:N.
  * rewrite (map_nth_error rty_of i (a :: l) N) in E.
  apply IH; [|exact E].
  rewrite forallb_forall in PL.
  apply PL.
  eapply nth_error_In, N.
  * apply nth_error_None in N.
  assert (X : nth_error (map rty_of (a :: l)) i = None) by (apply nth_error_None; now rewrite map_length).
  rewrite X in E.
  discriminate E.
  - cbn [plain_type] in P.
  rewrite andb_true_iff, !negb_true_iff in P.
  destruct P as (NP & NS).
  cbn [rty_of read_with] in E.
  destruct (decl_of m ds) as [d|] eqn:D.
  + rewrite (find_read items ds impls m d D) in E.
  destruct d as [s|e].
  * rewrite (read_struct_exact R V items ds impls ok _ m s q (clean_upto R V items n) D) in E.
  apply bind_took in E as (fs & E & ->).
  apply fields_well in E; [|exact IH|intros f If; apply (decl_plain m _ _ D); cbn; now apply in_map].
  destruct E as (T & B).
  cbn [typed wire].
  rewrite D, String.eqb_refl.
  now split.
  * rewrite (read_enum_exact R V items ds ok fit _ m e q (clean_upto R V items n) D) in E.
  unfold with_tag in E.
  destruct (rt_get R "u32" (s_rd q)) as [[z rest]|] eqn:G; [|discriminate E].
  destruct (find _ (en_items e)) as [i|] eqn:F; [|discriminate E].
  apply find_some in F as (I & F).
  apply Z.eqb_eq in F.
  destruct (strict_prim R st "u32" _ z rest eq_refl G) as (_ & W).
  apply (case_well _ m e i _ v q' IH D I) in E.
  destruct E as (T & b & EB & B).
  split; [exact T|].
  rewrite EB.
  apply (took_app _ _ q (set_rd rest q) q'); [|exact B].
  exists rest.
  rewrite F.
  now split.
  + rewrite (find_method_none items ds impls m _ D) in E.
  unfold has_impl in E.
  rewrite impls, D in E.
  cbn [option_map] in E.
  rewrite NP in E.
  destruct (rt_ext_get R m (s_rd q)) as [[x r]|] eqn:G; [|discriminate E].
  injection E as <- <-.
  destruct (strict_ext R st m _ x r G) as (O & W).
  cbn [typed].
  rewrite String.eqb_refl, NP, NS, D, O.
  split; [reflexivity|].
  exists r.
  now split.
Qed.

End Strict.

Definition c64_schema : string := "struct Flag { on: bool }".

Definition c64_items : list item := rust_tree (parsed c64_schema) true true false.

Lemma lem_C64_reads_wire : forall ast models buffers rpc items R V t fuel q v q',
  let ds := rust_decls ast buffers rpc in
  rust_ready ast = true -> file_items ast models buffers rpc items -> codecs_ok ds = true -> cases_named ds = true -> plain_types ds = true ->
  strict R -> plain_type t = true ->
  read_value R V items fuel (rty_of t) q = Done v q' ->
  typed R ds v t = true /\ exists rest, s_rd q = wire R ds v ++ rest /\ q' = set_rd rest q.
Proof.
  intros ast models buffers rpc items R V t fuel q v q' ds RD F O N P S Pt E.
  pose proof (file_impls ast _ _ _ items RD F) as I.
  fold ds in I.
  unfold codecs_ok in O.
  apply andb_true_iff in O as [O FT].
  exact (upto_well R V items ds I O FT N P S fuel t q v q' Pt E).
Qed.

Lemma lem_C64_exactly : forall ast models buffers rpc items R V t q v rest,
  let ds := rust_decls ast buffers rpc in
  rust_ready ast = true -> file_items ast models buffers rpc items -> codecs_ok ds = true -> cases_named ds = true -> plain_types ds = true ->
  codecs_distinct ds = true -> lawful R -> strict R -> plain_type t = true ->
  (exists fuel, read_value R V items fuel (rty_of t) q = Done v (set_rd rest q)) <-> typed R ds v t = true /\ s_rd q = wire R ds v ++ rest.
Proof.
  intros ast models buffers rpc items R V t q v rest ds RD F O N P DI L S Pt.
  split.
  - intros (fuel & E).
  destruct (lem_C64_reads_wire ast models buffers rpc items R V t fuel q v _ RD F O N P S Pt E) as (T & r & B & Q).
  split; [exact T|].
  assert (rest = r) by (apply (f_equal s_rd) in Q; exact Q).
  now subst.
  - intros (T & B).
  exists (depth v).
  pose proof (file_impls ast _ _ _ items RD F) as I.
  fold ds in I.
  unfold codecs_ok in O.
  apply andb_true_iff in O as [O FT].
  pose proof (read_values R V items ds I O L FT DI (depth v) v t T (le_n _) q rest) as E.
  rewrite <- B, set_rd_same in E.
  exact E.
Qed.

Lemma lem_C64_prefix_free : forall ast models buffers rpc items R t v v' a b,
  let ds := rust_decls ast buffers rpc in
  rust_ready ast = true -> file_items ast models buffers rpc items -> codecs_ok ds = true -> codecs_distinct ds = true -> lawful R ->
  typed R ds v t = true -> typed R ds v' t = true -> wire R ds v ++ a = wire R ds v' ++ b -> v = v' /\ a = b.
Proof.
  intros ast models buffers rpc items R t v v' a b ds RD F O DI L T T' E.
  pose proof (file_impls ast _ _ _ items RD F) as I.
  fold ds in I.
  unfold codecs_ok in O.
  apply andb_true_iff in O as [O FT].
  set (q := mk_state [] [] (fun _ _ _ => []) [] [] [] []).
  set (V := mk_service (fun _ _ _ => None) (fun _ => false)).
  pose proof (read_values R V items ds I O L FT DI (depth v + depth v') v t T (Nat.le_add_r _ _) q a) as X.
  pose proof (read_values R V items ds I O L FT DI (depth v + depth v') v' t T' (Nat.le_add_l _ _) q b) as X'.
  rewrite E in X.
  rewrite X in X'.
  injection X' as -> ->.
  now split.
Qed.

Lemma lem_C64_truncated : forall ast models buffers rpc items R V t fuel q v p x w q',
  let ds := rust_decls ast buffers rpc in
  rust_ready ast = true -> file_items ast models buffers rpc items -> codecs_ok ds = true -> cases_named ds = true -> plain_types ds = true ->
  codecs_distinct ds = true -> lawful R -> strict R -> plain_type t = true ->
  typed R ds v t = true -> wire R ds v = p ++ x -> x <> [] -> s_rd q = p ->
  read_value R V items fuel (rty_of t) q <> Done w q'.
Proof.
  intros ast models buffers rpc items R V t fuel q v p x w q' ds RD F O N P DI L S Pt T W X B E.
  destruct (lem_C64_reads_wire ast models buffers rpc items R V t fuel q w q' RD F O N P S Pt E) as (T' & r & B' & _).
  fold ds in T', B'.
  rewrite B in B'.
  rewrite B', <- app_assoc in W.
  destruct (lem_C64_prefix_free ast models buffers rpc items R t v w [] (r ++ x) RD F O DI L T T') as (_ & Y).
  { fold ds.
  now rewrite app_nil_r.
  }
  destruct r; [now apply X|discriminate Y].
Qed.

Lemma lem_C64_forwarded : forall ast models buffers rpc items R V t fuel q v q',
  let ds := rust_decls ast buffers rpc in
  rust_ready ast = true -> file_items ast models buffers rpc items -> codecs_ok ds = true -> cases_named ds = true -> plain_types ds = true ->
  strict R -> plain_type t = true ->
  read_value R V items fuel (rty_of t) q = Done v q' ->
  exists bs, s_rd q = bs ++ s_rd q' /\
    forall more p, depth v <= more -> write_value R V items more v p = Done RustSem.ok (set_wr (s_wr p ++ bs) p).
Proof.
  intros ast models buffers rpc items R V t fuel q v q' ds RD F O N P S Pt E.
  destruct (lem_C64_reads_wire ast models buffers rpc items R V t fuel q v q' RD F O N P S Pt E) as (T & r & B & ->).
  exists (wire R ds v).
  split; [exact B|].
  intros more p D.
  pose proof (file_impls ast _ _ _ items RD F) as I.
  fold ds in I.
  unfold codecs_ok in O.
  apply andb_true_iff in O as [O FT].
  exact (write_values R V items ds I O FT more v t T D p).
Qed.

Lemma lem_C64_reads_wire_refuted : exists ast items R V t q v q',
  let ds := rust_decls ast true false in
  rust_ready ast = true /\ file_items ast true true false items /\ codecs_ok ds = true /\ cases_named ds = true /\ plain_types ds = true /\
  lawful R /\ plain_type t = true /\ read_value R V items 2 (rty_of t) q = Done v q' /\ typed R ds v t = false.
Proof.
  exists (parsed c64_schema), c64_items, le_runtime, c17_service, (TyOther "Flag"), (set_rd (zs [2]%Z) c17_state), (vrec "Flag" [("on", vnum "bool" 2)]), c17_state.
  split; [vm_compute; reflexivity|].
  split; [eexists; split; [reflexivity|vm_compute; reflexivity]|].
  split; [vm_compute; reflexivity|].
  split; [vm_compute; reflexivity|].
  split; [vm_compute; reflexivity|].
  split; [exact le_lawful|].
  split; [vm_compute; reflexivity|].
  split; vm_compute; reflexivity.
Qed.
