(** The generated Rust and Dart constants compile and have the declared types and values. *)
Require Import Coq.Strings.String Coq.Strings.Ascii.
Require Import Coq.NArith.NArith Coq.ZArith.ZArith Coq.QArith.QArith Coq.QArith.Qabs Coq.QArith.Qpower Coq.Lists.List Coq.Bool.Bool Coq.Arith.PeanoNat Coq.micromega.Lia Coq.micromega.Lqa.
Require Import Verif.Base Verif.F64 Verif.F64Spec Verif.F64Proofs Verif.LexProofs Verif.Ast Verif.CaseConv Verif.LexSpec Verif.NumText Verif.RustLexedConst Verif.GenMoreFacts Verif.FloatShape Verif.Writer Verif.Code.
Require Import Verif.RustSyntax Verif.RustSem Verif.ConstSpec.
Require Verif.RustTree Verif.RustConst Verif.RustDefault Verif.KotlinTree Verif.KotlinFile Verif.KotlinSem Verif.RustCodec Verif.RustDefaultRuns Verif.Single.
Import RustDefault(among, distinct, type_names). Import KotlinTree(finite_double). Import KotlinFile(finite_is_double). Import Single(single_range, f32_of_digits).
Import RustCodec(literal_show).
Import ListNotations.
Local Open Scope string_scope.
Local Open Scope list_scope.

Lemma among_out l n : among l n = false <-> ~ In n l.
Proof.
  unfold among. split.
  - intros H I. rewrite <- not_true_iff_false in H. apply H. apply existsb_exists. exists n. split; [exact I|apply String.eqb_refl].
  - intros H. apply not_true_iff_false. intros E. apply existsb_exists in E as (m & I & E). apply String.eqb_eq in E as ->. contradiction.
Qed.

(** ** Numbers *)

Lemma show_Z_N z : (0 <= z)%Z -> show_Z z = show_N (Z.to_N z).
Proof. destruct z; [reflexivity|reflexivity|lia]. Qed.

Lemma integer_unique m e n : f64_is_integral (F64Fin m e) = true -> (value m e == qN n)%Q -> integer_of m e = n.
Proof.
  intros I V. rewrite (integer_value m e I) in V. unfold qN in V. unfold Qeq in V. cbn in V. lia.
Qed.

Lemma whole_text m e : double m e -> f64_is_integral (F64Fin m e) = true ->
  exists a, show_f64 (F64Fin m e) = a /\ all_chars digitb a = true /\ a <> "" /\ f64_of_dec (positional 10 a) 0 = F64Fin m e.
Proof.
  intros D I. destruct (float_text_shape m e D) as (a & b & S & A & AN & B & BN & V & W). destruct (W I) as [E ->]. exists a. split; [now symmetry|]. split; [exact A|]. split; [exact AN|].
  rewrite positional_app in V. cbn [String.length positional] in V. change (digit_weight "0") with 0%N in V. change (Z.of_nat 1) with 1%Z in V. change (N.of_nat 1) with 1%N in V.
  change (0 * 10 ^ N.of_nat 0 + 0)%N with 0%N in V. rewrite N.add_0_r, N.pow_1_r in V. change (- (1))%Z with (-1)%Z in V. now rewrite dec_zero in V.
Qed.
(** Of a whole number below 2^53 all digits are written. *)
Lemma whole_exact m e n : double m e -> f64_is_integral (F64Fin m e) = true -> (integer_of m e < 2 ^ 53)%N -> f64_of_dec n 0 = F64Fin m e -> integer_of m e = n.
Proof.
  intros D I B G. assert (F : frac_is (qN n) n 1) by (split; [reflexivity|]; change (qN 1) with 1%Q; ring).
  pose proof (f64_of_ratio_nearest (qN n) n 1 F) as NR.
  assert (G' : f64_of_ratio n 1 = F64Fin m e). { unfold f64_of_dec in G. cbn [Z.leb Z.compare] in G. change (pow10N 0) with 1%N in G. now rewrite N.mul_1_r in G. }
  rewrite G' in NR. destruct (N.eq_dec n 0) as [N0|N0].
  { rewrite N0 in G'. cbn in G'. injection G' as <- <-. subst n. reflexivity. }
  destruct (N.lt_ge_cases n (2 ^ 53)) as [B'|B'].
  - destruct (small_integer n ltac:(lia)) as (m' & e' & D' & V & I').
    assert (E : F64Fin m e = F64Fin m' e').
    { apply (nearest_exact m' e'); [exact D'|]. rewrite <- G'. apply f64_of_ratio_nearest. split; [reflexivity|]. rewrite V. change (qN 1) with 1%Q. ring. }
    injection E as -> ->. now apply integer_unique.
  - exfalso. inversion NR as [m1 e1 D1 OV NE T|]; subst. assert (D2 : double (2 ^ 52) 1) by (unfold double; split; [reflexivity|]; split; [lia|left; lia]).
    specialize (NE _ _ D2). unfold distance in NE. pose proof (integer_value m e I) as VI.
    assert (V2 : (value (2 ^ 52) 1 == two ^ 53)%Q) by (unfold value; rewrite qN_2pow; change (Z.of_N 52) with 52%Z; rewrite <- two_plus; reflexivity).
    assert (B2 : (two ^ 53 <= qN n)%Q) by (change (two ^ 53)%Q with (two ^ Z.of_N 53)%Q; rewrite <- qN_2pow; now apply qN_le).
    assert (S2 : (qN (integer_of m e) < two ^ 53)%Q) by (change (two ^ 53)%Q with (two ^ Z.of_N 53)%Q; rewrite <- qN_2pow; now apply qN_lt).
    rewrite V2, VI in NE. rewrite (Qabs_neg (qN (integer_of m e) - qN n)) in NE by lra. rewrite (Qabs_neg (two ^ 53 - qN n)) in NE by lra. lra.
Qed.
Lemma fraction_text m e : double m e -> f64_is_integral (F64Fin m e) = false ->
  exists a b, show_f64 (F64Fin m e) = (a ++ "." ++ b)%string /\ all_chars digitb a = true /\ a <> "" /\ all_chars digitb b = true /\ b <> "" /\
    f64_of_dec (positional 10 (a ++ b)) (- Z.of_nat (String.length b)) = F64Fin m e.
Proof.
  intros D I. destruct (float_text_shape m e D) as (a & b & S & A & AN & B & BN & V & _). exists a, b. unfold float_shown in S. rewrite I in S. now repeat split.
Qed.

(** ** Rust: literals *)

Section Rust.
Import RustTree RustConst.

Lemma digits_only_all a : all_chars digitb a = true -> a <> "" -> RustConst.digits_only a = true.
Proof. intros A N. unfold RustConst.digits_only. rewrite A. destruct (String.eqb_spec a ""); [contradiction|reflexivity]. Qed.
Lemma number_int z : (0 <= z)%Z -> number_tree (show_Z z) = ENum (show_N (Z.to_N z)).
Proof. intros Z0. rewrite show_Z_N by assumption. apply digits_number; [apply show_N_digits|apply show_N_nonempty]. Qed.
Lemma int_literal_show t z : (0 <= z)%Z -> is_integer t = true -> in_range t z = true -> int_literal t (show_N (Z.to_N z)) = Some (CInt z).
Proof. intros Z0 T R. unfold int_literal. rewrite literal_show, Z2N.id by assumption. now rewrite T, R. Qed.

Definition open_items (l : list item) : Prop := forall n, In n rust_types -> visible l n = true.

Lemma rust_value l id t lit t' : open_items l -> rust_fits t lit = true ->
  exists p e v, const_tree id t (ConstLiteral lit t') = IConst id (RPath p []) e /\ rust_const_type t = Some p /\ rust_val t lit v /\ value_of l (RPath p []) e = Some v.
Proof.
  intros O F. destruct lit as [s|z|x|b]; destruct t as [n size sg|n size|n|n|g gl|n]; cbn [rust_fits] in F; try discriminate F.
  - rewrite !andb_true_iff in F. destruct F as ((I & Z0) & R). apply Z.leb_le in Z0. exists [n], (ENum (show_N (Z.to_N z))), (CInt z).
    split; [cbn [const_tree rty_of const_value_tree]; now rewrite number_int|]. split; [reflexivity|]. split; [reflexivity|]. unfold value_of. rewrite O; [now apply int_literal_show|].
    unfold is_integer in I. apply existsb_exists in I as (m & J & E). apply String.eqb_eq in E as ->. cbn in J. cbn. intuition.
  - rewrite !andb_true_iff in F. destruct F as ((A & Z0) & R). apply Z.leb_le in Z0. exists ["tech_paws_runtime"; n], (EPost (EPath [SName "tech_paws_runtime"; SName n]) [XCall [ENum (show_N (Z.to_N z))] false]), (CInt z).
    assert (V : forall m, In m addresses -> value_of l (RPath ["tech_paws_runtime"; m] []) (EPost (EPath [SName "tech_paws_runtime"; SName m]) [XCall [ENum (show_N (Z.to_N z))] false]) = Some (CInt z)).
    { intros m M. unfold value_of. rewrite O by (cbn; tauto). rewrite !String.eqb_refl. replace (among addresses m) with true; [cbn [andb]; now apply int_literal_show|].
      symmetry. apply existsb_exists. exists m. split; [exact M|apply String.eqb_refl]. }
    pose proof A as A'. unfold among in A'. apply existsb_exists in A' as (m & J & E). apply String.eqb_eq in E as ->. cbn [rust_const_type rust_val const_val]. rewrite A.
    split; [|split; [reflexivity|split; [reflexivity|now apply V]]]. cbn [const_tree const_value_tree]. rewrite number_int by assumption. destruct J as [<-|[<-|[]]]; reflexivity.
  - rewrite !andb_true_iff in F. destruct F as ((FD & NI) & R). apply negb_true_iff in NI. destruct (finite_is_double x FD) as (m & e & -> & D). destruct (fraction_text m e D NI) as (a & b & S & A & AN & B & BN & V).
    rewrite orb_true_iff, andb_true_iff in R. destruct R as [R|[R SR]]; apply String.eqb_eq in R as ->.
    + exists ["f64"], (EFloat a b), (CReal (F64Fin m e)). split; [cbn [const_tree rty_of const_value_tree]; now rewrite S, digits_float|]. split; [reflexivity|]. split; [reflexivity|]. unfold value_of.
      rewrite O by (cbn; tauto). unfold float_literal. rewrite !digits_only_all by assumption. cbn [andb]. now rewrite V.
    + destruct (f32_of_digits _ _ _ V SR) as (y & Y & YF & YS). exists ["f32"], (EFloat a b), (CReal y). split; [cbn [const_tree rty_of const_value_tree]; now rewrite S, digits_float|]. split; [reflexivity|].
      split; [exists y; split; [reflexivity|]; exists a, b; split; [unfold float_shown; now rewrite NI|]; split; [exact A|]; split; [exact B|exact YS]|]. unfold value_of. rewrite O by (cbn; tauto). unfold float_literal. rewrite !digits_only_all by assumption. cbn [andb String.eqb Ascii.eqb Bool.eqb]. rewrite Y. destruct y; [reflexivity|contradiction].
  - apply String.eqb_eq in F as ->. exists ["bool"], (var (show_bool b)), (CTruth b). split; [reflexivity|]. split; [reflexivity|]. split; [reflexivity|]. unfold value_of. rewrite O by (cbn; tauto). destruct b; reflexivity.
Qed.

(** ** Rust: blocks *)

Definition item_tree (i : const_item) : item := match i with ConstItemValue n t v => const_tree n t v | ConstItemNode c => const_block_tree c end.
Lemma block_items id items : const_block_tree (ConstNode id items) = IMod id (map item_tree items).
Proof. reflexivity. Qed.
Lemma tree_shape n t v : exists t' e, const_tree n t v = IConst n t' e.
Proof. unfold const_tree. destruct t; eauto. destruct (String.eqb _ _); [eauto|]. destruct (String.eqb _ _); eauto. Qed.
Lemma items_mods items : mod_names (map item_tree items) = item_blocks items.
Proof.
  induction items as [|i items IH]; [reflexivity|]. unfold mod_names, item_blocks in *. cbn [map flat_map]. rewrite IH. f_equal. destruct i as [n t v|[id l]]; [|reflexivity].
  cbn [item_tree]. destruct (tree_shape n t v) as (t' & e & ->). reflexivity.
Qed.
Lemma items_consts items : const_names (map item_tree items) = item_values items.
Proof.
  induction items as [|i items IH]; [reflexivity|]. unfold const_names, item_values in *. cbn [map flat_map]. rewrite IH. f_equal. destruct i as [n t v|[id l]]; [|reflexivity].
  cbn [item_tree]. destruct (tree_shape n t v) as (t' & e & ->). reflexivity.
Qed.
Lemma items_types items : type_names (map item_tree items) = [].
Proof.
  induction items as [|i items IH]; [reflexivity|]. unfold type_names in *. cbn [map flat_map]. rewrite IH, app_nil_r. destruct i as [n t v|[id l]]; [|reflexivity].
  cbn [item_tree]. destruct (tree_shape n t v) as (t' & e & ->). reflexivity.
Qed.
Lemma block_parts id items : rust_block_fine (ConstNode id items) = true ->
  among rust_types id = false /\ among rust_words id = false /\ distinct (item_blocks items) = true /\ distinct (item_values items) = true /\
  (forall n t l a, In (ConstItemValue n t (ConstLiteral l a)) items -> among rust_words n = false /\ rust_fits t l = true) /\
  (forall c, In (ConstItemNode c) items -> rust_block_fine c = true).
Proof.
  cbn [rust_block_fine]. rewrite !andb_true_iff, !negb_true_iff. intros ((((A & B) & C) & D) & E). rewrite forallb_forall in E. repeat (split; [assumption|]). split.
  - intros n t l a I. specialize (E _ I). cbn in E. now rewrite andb_true_iff, negb_true_iff in E.
  - intros c I. exact (E _ I).
Qed.
Lemma inside_open id items : rust_block_fine (ConstNode id items) = true -> open_items (map item_tree items).
Proof.
  intros F n I. destruct (block_parts id items F) as (_ & _ & _ & _ & _ & N). unfold visible. rewrite items_mods, items_types. cbn [among existsb]. rewrite orb_false_r. apply negb_true_iff, among_out. intros J.
  unfold item_blocks in J. apply in_flat_map in J as (i & J & K). destruct i as [m t v|[m l]]; [destruct K|]. destruct K as [->|[]]. specialize (N _ J). destruct (block_parts n l N) as (A & _). apply among_out in A. contradiction.
Qed.
Lemma block_ok c : rust_block_fine c = true -> forall l, const_ok l (const_block_tree c) = true.
Proof.
  induction c as [id items IH] using const_ind2. intros F l. rewrite block_items. cbn [const_ok]. rewrite items_mods, items_consts, items_types, app_nil_r.
  destruct (block_parts id items F) as (A & B & C & D & V & N). rewrite B, C, D. cbn [negb andb]. apply forallb_forall. intros i I. apply in_map_iff in I as (x & <- & I).
  destruct x as [n t [lit a]|c]; cbn [item_tree]; [|now apply IH; [|apply N]]. destruct (V n t lit a I) as [W R].
  destruct (rust_value _ n t lit a (inside_open id items F) R) as (p & e & v & -> & _ & _ & E). cbn [const_ok]. now rewrite W, E.
Qed.

Lemma rust_forward c p t l : const_at c p t l -> rust_block_fine c = true -> forall k, In (const_block_tree c) k ->
  exists ty v, rust_const_type t = Some ty /\ rust_val t l v /\ constant k p ty v.
Proof.
  induction 1 as [id items n t l t' I|id items c p t l I A IH]; intros F k J; rewrite block_items in J; destruct (block_parts id items F) as (_ & _ & _ & _ & V & N).
  - destruct (V n t l t' I) as [_ R]. destruct (rust_value _ n t l t' (inside_open id items F) R) as (ty & e & v & ET & T & CV & E). exists ty, v. split; [exact T|]. split; [exact CV|].
    eapply co_in; [exact J|]. eapply co_here; [|exact E]. rewrite <- ET. apply in_map_iff. now exists (ConstItemValue n t (ConstLiteral l t')).
  - destruct (IH (N _ I) (map item_tree items)) as (ty & v & T & CV & K); [apply in_map_iff; now exists (ConstItemNode c)|]. exists ty, v. split; [exact T|]. split; [exact CV|]. eapply co_in; [exact J|exact K].
Qed.

Lemma rust_backward k p ty v : constant k p ty v -> forall id items, k = map item_tree items -> rust_block_fine (ConstNode id items) = true ->
  exists t l, const_at (ConstNode id items) (id :: p) t l /\ rust_const_type t = Some ty /\ rust_val t l v.
Proof.
  induction 1 as [k n ty e v J E|k n k' p ty v J C IH]; intros id items -> F; destruct (block_parts id items F) as (_ & _ & _ & _ & V & N).
  - apply in_map_iff in J as (i & EI & J). destruct i as [m t [l a]|[m its]]; cbn [item_tree] in EI; [|discriminate]. destruct (V m t l a J) as [_ R].
    destruct (rust_value _ m t l a (inside_open id items F) R) as (ty' & e' & v' & ET & T & CV & E'). rewrite ET in EI. injection EI as -> -> ->. rewrite E in E'. injection E' as <-.
    exists t, l. split; [eapply ca_here; exact J|]. now split.
  - apply in_map_iff in J as (i & EI & J). destruct i as [m t [l a]|[m its]]; cbn [item_tree] in EI; [destruct (tree_shape m t (ConstLiteral l a)) as (? & ? & X); congruence|].
    rewrite block_items in EI. injection EI as -> <-. destruct (IH n its eq_refl (N _ J)) as (t & l & A & T & CV). exists t, l. split; [eapply ca_in; [exact J|exact A]|]. now split.
Qed.

(** ** Rust: a path leads to one constant *)

Lemma mod_unique l n a b : distinct (mod_names l) = true -> In (IMod n a) l -> In (IMod n b) l -> a = b.
Proof.
  assert (L : forall n a l, In (IMod n a) l -> In n (mod_names l)) by (intros m x k I; unfold mod_names; apply in_flat_map; exists (IMod m x); split; [exact I|now left]).
  induction l as [|i l IH]; [intros _ []|]. intros D [E|I] [E'|I'].
  - congruence.
  - subst i. change (mod_names (IMod n a :: l)) with (n :: mod_names l) in D. cbn [distinct] in D. rewrite andb_true_iff, negb_true_iff in D. destruct D as [D _]. apply among_out in D. exfalso. apply D. eapply L. exact I'.
  - subst i. change (mod_names (IMod n b :: l)) with (n :: mod_names l) in D. cbn [distinct] in D. rewrite andb_true_iff, negb_true_iff in D. destruct D as [D _]. apply among_out in D. exfalso. apply D. eapply L. exact I.
  - apply IH; try assumption. unfold mod_names in *. cbn [flat_map] in D. destruct i; cbn [app] in D; try exact D. cbn [distinct] in D. now apply andb_true_iff in D as [_ D].
Qed.
Lemma const_unique l n t e t' e' : distinct (const_names l) = true -> In (IConst n t e) l -> In (IConst n t' e') l -> t = t' /\ e = e'.
Proof.
  assert (L : forall n t e l, In (IConst n t e) l -> In n (const_names l)) by (intros m x y k I; unfold const_names; apply in_flat_map; exists (IConst m x y); split; [exact I|now left]).
  induction l as [|i l IH]; [intros _ []|]. intros D [E|I] [E'|I'].
  - split; congruence.
  - subst i. change (const_names (IConst n t e :: l)) with (n :: const_names l) in D. cbn [distinct] in D. rewrite andb_true_iff, negb_true_iff in D. destruct D as [D _]. apply among_out in D. exfalso. apply D. eapply L. exact I'.
  - subst i. change (const_names (IConst n t' e' :: l)) with (n :: const_names l) in D. cbn [distinct] in D. rewrite andb_true_iff, negb_true_iff in D. destruct D as [D _]. apply among_out in D. exfalso. apply D. eapply L. exact I.
  - apply IH; try assumption. unfold const_names in *. cbn [flat_map] in D. destruct i; cbn [app] in D; try exact D. cbn [distinct] in D. now apply andb_true_iff in D as [_ D].
Qed.
Lemma distinct_app a b : distinct (a ++ b) = true -> distinct a = true.
Proof.
  induction a as [|x a IH]; [reflexivity|]. cbn [app distinct]. rewrite !andb_true_iff, !negb_true_iff. intros [A B]. split; [|now apply IH]. apply among_out in A. apply among_out. intros I. apply A, in_or_app. now left.
Qed.
Lemma constant_path l p ty v : constant l p ty v -> p <> [].
Proof. destruct 1; discriminate. Qed.
Lemma one_constant l p ty v : constant l p ty v -> distinct (mod_names l) = true -> distinct (const_names l) = true -> forallb (const_ok l) l = true ->
  forall ty' v', constant l p ty' v' -> ty = ty' /\ v = v'.
Proof.
  induction 1 as [l n ty e v J E|l n l' p ty v J C IH]; intros M N O ty' v' C'; inversion C' as [k m t0 e0 v0 J' E'|k m k' q t0 v0 J' C'']; subst.
  - destruct (const_unique l n _ _ _ _ N J J') as [ET ->]. injection ET as <-. rewrite E in E'. now injection E' as <-.
  - exfalso. now apply constant_path in C''.
  - exfalso. now apply constant_path in C.
  - pose proof (mod_unique l n _ _ M J J') as <-. rewrite forallb_forall in O. specialize (O _ J). cbn [const_ok] in O. rewrite !andb_true_iff in O. destruct O as (((_ & O1) & O2) & O3). apply distinct_app in O1. now apply IH.
Qed.
Theorem rust_one_value items p ty v ty' v' : consts_compile items = true -> constant items p ty v -> constant items p ty' v' -> ty = ty' /\ v = v'.
Proof. unfold consts_compile. rewrite !andb_true_iff. intros ((((A & B) & _) & _) & C) X Y. eapply one_constant; eassumption. Qed.

(** ** Rust: the file *)

Lemma mods_app a b : mod_names (a ++ b) = mod_names a ++ mod_names b.
Proof. apply flat_map_app. Qed.
Lemma mods_none l : forallb not_const l = true -> mod_names l = [].
Proof.
  induction l as [|i l IH]; [reflexivity|]. cbn [forallb]. rewrite andb_true_iff. intros [A B]. unfold mod_names in *. cbn [flat_map]. rewrite (IH B). now destruct i.
Qed.
Lemma consts_none l : forallb not_const l = true -> const_names l = [].
Proof.
  induction l as [|i l IH]; [reflexivity|]. cbn [forallb]. rewrite andb_true_iff. intros [A B]. unfold const_names in *. cbn [flat_map]. rewrite (IH B). now destruct i.
Qed.
(** A file is its modules of constants and other items. *)
Lemma file_parts ast m b r : exists before after, rust_tree ast m b r = before ++ consts_tree ast ++ after /\ forallb not_const before = true /\ forallb not_const after = true.
Proof.
  unfold rust_tree.
  match goal with |- exists x y, ?a ++ ?u ++ ?w ++ ?k ++ ?d = _ /\ _ => exists (a ++ u ++ w), d; split; [now rewrite <- !app_assoc|] end.
  assert (N2 : forallb not_const (if r && nil_or (find_fn_nodes ast) then buffers_use :: runtime_uses else if b then [buffers_use] else []) = true) by (destruct (r && _); [reflexivity|]; now destruct b).
  assert (N3 : forallb not_const (user_uses ast) = true) by (apply forallb_flat_map; intros [[]] _; reflexivity).
  assert (N4 : forallb not_const (if m then models_tree ast else []) = true).
  { destruct m; [|reflexivity]. apply forallb_flat_map. intros [n|n|n|n|n] _; try reflexivity; [unfold enum_model_tree; destruct (en_items n); reflexivity|unfold struct_model_tree; destruct (sn_fields n); reflexivity]. }
  assert (N5 : forallb not_const (if b then buffers_tree ast else []) = true) by (destruct b; [|reflexivity]; apply forallb_flat_map; intros [n|n|n|n|n] _; reflexivity).
  assert (NM : forall n d, forallb not_const (struct_model_tree n d) = true) by (intros n []; unfold struct_model_tree; destruct (sn_fields n); reflexivity).
  assert (N6 : forallb not_const (if r then rpc_tree ast else []) = true).
  { destruct r; [|reflexivity]. unfold rpc_tree. destruct (find_fn_nodes ast) as [|f l]; [reflexivity|]. cbn [forallb]. apply andb_true_iff. split; [reflexivity|]. apply forallb_flat_map. intros n _.
    unfold rpc_method_tree. destruct (fn_is_read n), (fn_is_async n); try reflexivity; unfold sync_method_tree, async_method_tree; rewrite forallb_app, NM; reflexivity. }
  split; [|now rewrite !forallb_app, N4, N5, N6]. rewrite !forallb_app, N2, N3. reflexivity.
Qed.
Lemma consts_mods ast : mod_names (consts_tree ast) = block_names ast.
Proof.
  induction ast as [|n ast IH]; [reflexivity|]. unfold consts_tree, block_names in *. cbn [flat_map]. rewrite mods_app, IH. f_equal. destruct n as [| | | |[id l]]; reflexivity.
Qed.
Lemma file_mods ast m b r : mod_names (rust_tree ast m b r) = block_names ast.
Proof.
  destruct (file_parts ast m b r) as (x & y & -> & X & Y). rewrite !mods_app, (mods_none x X), (mods_none y Y), consts_mods. apply app_nil_r.
Qed.
Lemma file_names ast m b r : const_names (rust_tree ast m b r) = [].
Proof.
  destruct (file_parts ast m b r) as (x & y & -> & X & Y). unfold const_names. rewrite !flat_map_app. change (const_names x ++ const_names (consts_tree ast) ++ const_names y = []).
  rewrite (consts_none x X), (consts_none y Y), app_nil_r. cbn [app]. induction ast as [|n ast IH]; [reflexivity|]. unfold consts_tree, const_names in *. cbn [flat_map]. rewrite flat_map_app, IH, app_nil_r. destruct n as [| | | |[id l]]; reflexivity.
Qed.
Lemma file_in ast m b r i : In i (rust_tree ast m b r) -> not_const i = true \/ exists c, In (NConst c) ast /\ i = const_block_tree c.
Proof.
  destruct (file_parts ast m b r) as (x & y & -> & X & Y). rewrite forallb_forall in X, Y. rewrite !in_app_iff. intros [I|[I|I]]; [left; now apply X| |left; now apply Y].
  right. unfold consts_tree in I. apply in_flat_map in I as (n & J & I). destruct n as [| | | |c]; try destruct I; [|contradiction]. now exists c.
Qed.
Lemma file_block ast m b r c : In (NConst c) ast -> In (const_block_tree c) (rust_tree ast m b r).
Proof.
  intros I. destruct (file_parts ast m b r) as (x & y & -> & X & Y). rewrite !in_app_iff. right. left. unfold consts_tree. apply in_flat_map. exists (NConst c). split; [exact I|now left].
Qed.

Theorem rust_constants ast m b r : let items := rust_tree ast m b r in
  rust_consts_fine ast (type_names items) = true ->
  consts_compile items = true /\
  (forall p t l, declared ast p t l -> exists ty v, rust_const_type t = Some ty /\ rust_val t l v /\ constant items p ty v) /\
  (forall p ty v, constant items p ty v -> exists t l, declared ast p t l /\ rust_const_type t = Some ty /\ rust_val t l v).
Proof.
  intros items F. unfold rust_consts_fine in F. rewrite !andb_true_iff, !forallb_forall in F. destruct F as ((D & A) & B).
  assert (BF : forall c, In (NConst c) ast -> rust_block_fine c = true) by (intros c I; exact (B _ I)).
  split; [|split].
  - unfold consts_compile. subst items. rewrite file_mods, file_names, D. cbn [distinct andb]. rewrite !andb_true_iff, !forallb_forall. split; [split; [exact A|]|].
    + intros n I. unfold block_names in I. apply in_flat_map in I as (k & J & I). destruct k as [| | | |[id l]]; try destruct I; [|contradiction]. subst id. destruct (block_parts n l (BF _ J)) as (E & _). now rewrite E.
    + intros i I. destruct (file_in ast m b r i I) as [N|(c & J & ->)]; [now destruct i|]. apply block_ok. now apply BF.
  - intros p t l (c & I & CA). eapply rust_forward; [exact CA|now apply BF|now apply file_block].
  - intros p ty v C. inversion C as [k n t0 e v0 J E|k n k' q t0 v0 J C']; subst; destruct (file_in ast m b r _ J) as [N|(c & I & EC)]; try discriminate N; destruct c as [id its]; rewrite block_items in EC; [discriminate EC|].
    injection EC as -> ->. destruct (rust_backward _ _ _ _ C' id its eq_refl (BF _ I)) as (t & l & CA & T & V). exists t, l. split; [now exists (ConstNode id its)|]. now split.
Qed.
End Rust.
