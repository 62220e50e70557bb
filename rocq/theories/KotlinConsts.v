(** The Kotlin constants compile and have the declared types and values. *)
Require Import Coq.Strings.String Coq.Strings.Ascii.
Require Import Coq.NArith.NArith Coq.ZArith.ZArith Coq.Lists.List Coq.Bool.Bool Coq.Arith.PeanoNat Coq.micromega.Lia.
Require Import Verif.Base Verif.F64 Verif.Ast Verif.CaseConv Verif.LexSpec Verif.NumText Verif.RustLexedConst Verif.GenMoreFacts Verif.FloatShape Verif.Writer
  Verif.Code Verif.KotlinSyntax Verif.KotlinPrint Verif.KotlinTree Verif.KotlinFile Verif.KotlinSem Verif.KotlinCheck Verif.KotlinRuns.
Require Verif.Single.
Import Single(f32_of_digits).
Import ListNotations.
Local Open Scope string_scope.
Local Open Scope list_scope.

(** ** Digits *)

Definition letter_first (s : string) : bool := match s with "" => true | String c _ => negb (digitc c) end.
Lemma digits_then d s : all_chars digitb d = true -> letter_first s = true -> digits_first (d ++ s) = (d, s).
Proof.
  intros D L. induction d as [|c d IH].
  - destruct s as [|c s]; [reflexivity|]. cbn [append digits_first]. cbn [letter_first] in L. apply negb_true_iff in L. now rewrite L.
  - cbn [all_chars] in D. apply andb_true_iff in D as [D1 D2]. cbn [append digits_first]. change (digitc c) with (digitb c). rewrite D1, (IH D2). reflexivity.
Qed.
Lemma digit_weight_below c : digitb c = true -> (digit_weight c < 10)%N.
Proof. destruct c as [[] [] [] [] [] [] [] []]; intros H; try discriminate H; vm_compute; reflexivity. Qed.
Lemma positional_below d : all_chars digitb d = true -> (positional 10 d < 10 ^ N.of_nat (String.length d))%N.
Proof.
  induction d as [|c d IH]; [intros _; vm_compute; reflexivity|]. cbn [all_chars]. intros D. apply andb_true_iff in D as [D1 D2]. specialize (IH D2). pose proof (digit_weight_below c D1).
  cbn [positional String.length]. rewrite Nat2N.inj_succ, N.pow_succ_r'. nia.
Qed.
Lemma show_N_decimal n : decimal (show_N n) = true.
Proof.
  destruct (N.eq_dec n 0) as [->|NZ]; [reflexivity|]. assert (P : (0 < n)%N) by lia. destruct (show_N_len n P) as [L1 L2]. pose proof (show_N_digits n) as D. pose proof (show_N_value n) as V.
  destruct (show_N n) as [|c d] eqn:E; [cbn in L1; lia|]. cbn [all_chars] in D. apply andb_true_iff in D as [_ D]. cbn [String.length] in L2. rewrite Nat.sub_succ, Nat.sub_0_r in L2.
  destruct (Ascii.eqb_spec c "0") as [->|NE].
  - exfalso. cbn [positional] in V. replace (digit_weight "0") with 0%N in V by reflexivity. pose proof (positional_below d D). lia.
  - assert (X : Ascii.eqb c "0" = false) by now apply Ascii.eqb_neq. unfold decimal. destruct c as [[] [] [] [] [] [] [] []], d; try reflexivity; try (exfalso; now apply NE).
Qed.

(** ** Literals *)

Lemma whole_value t top z suffix : limit t = Some top -> (0 <= z)%Z -> (z < Z.of_N top)%Z -> letter_first suffix = true -> among (suffix_types suffix) t = true ->
  num_value t (show_Z z ++ suffix) = Some (VWhole t (Z.to_N z)).
Proof.
  intros L Z0 ZT F A. assert (E : show_Z z = show_N (Z.to_N z)) by (destruct z; [reflexivity|reflexivity|lia]). rewrite E. unfold num_value.
  rewrite digits_then; [|apply show_N_digits|exact F]. rewrite show_N_decimal, L, A, show_N_value. cbn [andb].
  destruct (N.ltb_spec (Z.to_N z) top); [reflexivity|lia].
Qed.
Lemma float_literal t x a b suffix : float_parts x = (a, b) -> finite_double x = true -> letter_first suffix = true -> 
  float_value t a (b ++ suffix) = real_value t suffix (positional 10 (a ++ b)) (- Z.of_nat (String.length b)).
Proof.
  intros E F L. destruct (float_parts_spec x F) as (c & d & E' & _ & C & CN & D & DN & V). rewrite E in E'. injection E' as <- <-. unfold float_value.
  rewrite digits_then by assumption. pose proof (digits_then a "" C eq_refl) as DA. rewrite append_nil_s in DA. rewrite DA. cbn [String.eqb andb].
  destruct (String.eqb_spec a ""); [contradiction|]. destruct (String.eqb_spec b ""); [contradiction|]. reflexivity.
Qed.

Definition open_scope (sh : list string) : Prop := forall n, In n sh -> ~ In n taken.
Lemma open_library sh n : open_scope sh -> In n taken -> library sh n = true.
Proof. intros O I. unfold library. apply negb_true_iff, among_out. intros J. exact (O n J I). Qed.

Lemma constant_value sh t l n v : open_scope sh -> type_ready t = true -> literal_ready t l = true -> in_reach t l = true -> kotlin_constant t l = Some (n, v) ->
  exists w, kotlin_holds t l n w /\ ktype t = KTy n [] /\ literal_of sh (ktype t) (kliteral t l) = Some w.
Proof.
  intros O T R IR K. pose proof (fun m => open_library sh m O) as L. unfold literal_of.
  destruct l as [s|z|x|b]; destruct t as [id size sg|id size|id|id|g gl|id]; cbn [kotlin_constant] in K; try discriminate.
  - destruct (String.eqb_spec id "String") as [->|]; [|discriminate]. injection K as <- <-. exists (VText s). split; [reflexivity|]. cbn [ktype address]. split; [reflexivity|]. change (address "String") with false. cbv iota. rewrite L by (cbn; tauto).
    cbn [kliteral]. cbn [in_reach] in IR. rewrite IR. reflexivity.
  - injection K as <- <-. exists (VWhole (int_type size sg) (Z.to_N z)). split; [reflexivity|]. cbn [ktype]. split; [reflexivity|]. cbn [literal_ready] in R. apply Z.leb_le in R. cbn [in_reach] in IR. cbn [type_ready] in T. rewrite !orb_true_iff, !Nat.eqb_eq in T.
    destruct T as [[->| ->]| ->]; destruct sg; cbn [int_type] in *; (rewrite L by (cbn; tauto)); cbn [kliteral limit String.eqb Ascii.eqb Bool.eqb] in *; apply Z.ltb_lt in IR; (eapply whole_value; [reflexivity|exact R|exact IR|reflexivity|reflexivity]).
  - cbn [literal_ready] in R. apply andb_true_iff in R as [A R]. rewrite A in K. injection K as <- <-. exists (VWhole "ULong" (Z.to_N z)). split; [cbn [kotlin_holds kotlin_constant]; now rewrite A|]. cbn [ktype]. rewrite A. split; [reflexivity|]. rewrite L by (cbn; tauto). apply Z.leb_le in R. cbn [in_reach] in IR. apply Z.ltb_lt in IR.
    cbn [kliteral]. eapply whole_value; [reflexivity|exact R|exact IR|reflexivity|reflexivity].
  - injection K as <- <-. cbn [literal_ready] in R. cbn [in_reach] in IR. cbn [kliteral]. destruct (float_parts x) as [a b] eqn:E. cbn [type_ready] in T. rewrite orb_true_iff, !Nat.eqb_eq in T.
    destruct (float_parts_spec x R) as (c & d & E' & SH & C & CN & D & DN & V). rewrite E in E'. injection E' as <- <-.
    assert (X : x <> F64Inf) by (intros ->; discriminate R).
    destruct T as [->| ->]; cbn [Nat.eqb ktype] in *.
    + cbn [negb orb] in IR. destruct (f32_of_digits _ _ _ V IR) as (y & Y & YF & YS). exists (VReal "Float" y). split.
      { split; [reflexivity|]. exists y. split; [reflexivity|]. exists a, b. split; [exact SH|]. split; [exact C|]. split; [exact D|exact YS]. }
      split; [reflexivity|]. rewrite L by (cbn; tauto). rewrite (float_literal _ x) by first [exact E|exact R|reflexivity]. unfold real_value. cbn [String.eqb Ascii.eqb Bool.eqb andb]. rewrite Y. destruct y; [reflexivity|contradiction].
    + exists (VReal "Double" x). split; [reflexivity|]. split; [reflexivity|]. rewrite L by (cbn; tauto). rewrite (float_literal _ x) by first [exact E|exact R|reflexivity].
      unfold real_value. cbn [String.eqb Ascii.eqb Bool.eqb andb]. rewrite V. destruct x; [reflexivity|contradiction].
  - injection K as <- <-. exists (VTruth b). split; [reflexivity|]. cbn [ktype kliteral]. split; [reflexivity|]. rewrite L by (cbn; tauto). destruct b; reflexivity.
Qed.

(** ** Blocks *)

Lemma item_yname i : yname (const_item_decl i) = item_label i.
Proof. destruct i as [n t [l a]|[id items]]; reflexivity. Qed.
Lemma object_items id items : const_object (ConstNode id items) = YObject (pascal id) [] (map const_item_decl items).
Proof. reflexivity. Qed.
Lemma inner_names items n : In n (type_names (map const_item_decl items)) -> exists c id l, In (ConstItemNode c) items /\ c = ConstNode id l /\ n = pascal id.
Proof.
  unfold type_names. intros I. apply in_map_iff in I as (d & <- & I). apply filter_In in I as [I T]. apply in_map_iff in I as (i & <- & I). destruct i as [m t [l a]|[id l]]; [discriminate|].
  exists (ConstNode id l), id, l. now repeat split.
Qed.
Lemma fine_scope sh items : open_scope sh -> (forall c, In (ConstItemNode c) items -> const_fine c = true) -> open_scope (type_names (map const_item_decl items) ++ sh).
Proof.
  intros O F n I. apply in_app_or in I as [I|I]; [|now apply O]. destruct (inner_names items n I) as (c & id & l & J & -> & ->). specialize (F _ J). cbn [const_fine] in F. rewrite !andb_true_iff in F.
  destruct F as ((F & _) & _). now apply negb_true_iff, among_out in F.
Qed.
Lemma fine_items id items : const_fine (ConstNode id items) = true -> distinct (map item_label items) = true /\ (forall c, In (ConstItemNode c) items -> const_fine c = true) /\
  (forall n t l a, In (ConstItemValue n t (ConstLiteral l a)) items -> in_reach t l = true /\ exists tv, kotlin_constant t l = Some tv).
Proof.
  cbn [const_fine]. rewrite !andb_true_iff. intros ((_ & D) & F). rewrite forallb_forall in F. split; [exact D|]. split; [intros c I; exact (F _ I)|].
  intros n t l a I. specialize (F _ I). cbn in F. apply andb_true_iff in F as [F1 F2]. split; [exact F1|]. destruct (kotlin_constant t l) as [tv|]; [now exists tv|discriminate].
Qed.
Lemma ready_items id items : const_ready (ConstNode id items) = true -> (forall c, In (ConstItemNode c) items -> const_ready c = true) /\
  (forall n t l a, In (ConstItemValue n t (ConstLiteral l a)) items -> type_ready t = true /\ literal_ready t l = true).
Proof.
  cbn [const_ready]. rewrite !andb_true_iff. intros (_ & F). rewrite forallb_forall in F. split; [intros c I; exact (F _ I)|].
  intros n t l a I. specialize (F _ I). cbn in F. rewrite !andb_true_iff in F. tauto.
Qed.

Lemma const_decl_ok ks c : const_ready c = true -> const_fine c = true -> forall sh, open_scope sh -> KotlinSem.decl_ok ks sh (const_object c) = true.
Proof.
  induction c as [id items IH] using const_ind2. intros R F sh O. rewrite object_items. cbn [KotlinSem.decl_ok supers_ok forallb andb].
  destruct (fine_items id items F) as (D & FN & FV). destruct (ready_items id items R) as (RN & RV). pose proof (fine_scope sh items O FN) as O'.
  apply andb_true_iff. split; [rewrite map_map; erewrite map_ext; [exact D|]; intros i; apply item_yname|].
  apply forallb_forall. intros d I. apply in_map_iff in I as (i & <- & I). destruct i as [n t [l a]|c]; cbn [const_item_decl].
  - cbn [KotlinSem.decl_ok]. destruct (FV n t l a I) as (IR & (tn & v) & K). destruct (RV n t l a I) as [T LR]. destruct (constant_value _ t l tn v O' T LR IR K) as (w & _ & _ & E). now rewrite E.
  - now apply IH; [|apply RN|apply FN|].
Qed.

Lemma const_forward c p t l : const_at c p t l -> const_ready c = true -> const_fine c = true -> forall sh tn v ks, open_scope (type_names ks ++ sh) -> In (const_object c) ks -> kotlin_constant t l = Some (tn, v) ->
  exists w, kotlin_holds t l tn w /\ constant sh ks (kotlin_path p) tn w.
Proof.
  induction 1 as [id items n t l t' I|id items c p t l I A IH]; intros R F sh tn v ks O J K; rewrite object_items in J; destruct (fine_items id items F) as (D & FN & FV); destruct (ready_items id items R) as (RN & RV);
    pose proof (fine_scope _ items O FN) as O'.
  - cbn [kotlin_path]. destruct (FV n t l t' I) as (IR & _). destruct (RV n t l t' I) as [T LR]. destruct (constant_value _ t l tn v O' T LR IR K) as (w & H & ET & E). rewrite ET in E. exists w. split; [exact H|]. eapply co_in; [exact J|].
    eapply co_here; [|exact E]. apply in_map_iff. exists (ConstItemValue n t (ConstLiteral l t')). split; [|exact I]. cbn [const_item_decl]. now rewrite ET.
  - assert (P : exists q qs, p = q :: qs) by (destruct A; eauto). destruct P as (q & qs & ->). change (kotlin_path (id :: q :: qs)) with (pascal id :: kotlin_path (q :: qs)).
    destruct (IH (RN _ I) (FN _ I) (type_names ks ++ sh) tn v (map const_item_decl items) O') as (w & H & C); [apply in_map_iff; now exists (ConstItemNode c)|exact K|]. exists w. split; [exact H|]. eapply co_in; [exact J|exact C].
Qed.

Lemma const_backward sh ks p tn v : constant sh ks p tn v -> forall items, ks = map const_item_decl items -> open_scope (type_names ks ++ sh) ->
  (forall c, In (ConstItemNode c) items -> const_ready c = true /\ const_fine c = true) ->
  (forall n t l a, In (ConstItemValue n t (ConstLiteral l a)) items -> type_ready t = true /\ literal_ready t l = true /\ in_reach t l = true /\ exists tv, kotlin_constant t l = Some tv) ->
  (exists n t l a, p = [n] /\ In (ConstItemValue n t (ConstLiteral l a)) items /\ kotlin_holds t l tn v) \/
  (exists c q t l, In (ConstItemNode c) items /\ const_at c q t l /\ p = kotlin_path q /\ kotlin_holds t l tn v).
Proof.
  induction 1 as [sh ks n t e v J E|sh ks n ss b p t v J C IH]; intros items -> O HN HV.
  - left. apply in_map_iff in J as (i & EI & J). destruct i as [m ty [l a]|[id its]]; [|discriminate]. cbn [const_item_decl] in EI. injection EI as -> ET <-.
    destruct (HV n ty l a J) as (T & LR & IR & (tn & w) & K). destruct (constant_value _ ty l tn w O T LR IR K) as (w' & H & ET' & E'). rewrite ET in ET', E'. injection ET' as <-. rewrite E in E'. injection E' as <-.
    exists n, ty, l, a. now repeat split.
  - right. apply in_map_iff in J as (i & EI & J). destruct i as [m ty [l a]|[id its]]; [discriminate|]. cbn [const_item_decl] in EI. rewrite object_items in EI. injection EI as <- <- <-.
    destruct (HN _ J) as [R F]. destruct (fine_items id its F) as (D & FN & FV). destruct (ready_items id its R) as (RN & RV).
    destruct (IH its eq_refl) as [(n & t0 & l & a & -> & I & K)|(c & q & t0 & l & I & A & -> & K)].
    + now apply fine_scope.
    + intros c I. split; [now apply RN|now apply FN].
    + intros n0 t0 l a I. destruct (RV n0 t0 l a I). destruct (FV n0 t0 l a I). repeat split; auto.
    + exists (ConstNode id its), [id; n], t0, l. repeat split; [exact J|eapply ca_here; exact I|exact K].
    + exists (ConstNode id its), (id :: q), t0, l. repeat split; [exact J|eapply ca_in; [exact I|exact A]| |exact K].
      assert (P : exists x xs, q = x :: xs) by (destruct A; eauto). destruct P as (x & xs & ->). reflexivity.
Qed.

Lemma consts_as_items ast : consts_tree ast = map const_item_decl (flat_map (fun n => match n with NConst c => [ConstItemNode c] | _ => [] end) ast).
Proof. induction ast as [|a ast IH]; [reflexivity|]. unfold consts_tree in *. cbn [flat_map]. rewrite map_app, <- IH. destruct a; reflexivity. Qed.

Lemma consts_parts ast : consts_fine ast = true -> consts_ready ast = true /\ distinct (map yname (consts_tree ast)) = true /\ (forall c, In (NConst c) ast -> const_ready c = true /\ const_fine c = true) /\
  open_scope (type_names (consts_tree ast) ++ []).
Proof.
  unfold consts_fine. rewrite !andb_true_iff. intros ((R & D) & F). rewrite forallb_forall in F.
  assert (H : forall c, In (NConst c) ast -> const_ready c = true /\ const_fine c = true).
  { intros c I. split; [|exact (F _ I)]. unfold consts_ready in R. rewrite forallb_forall in R. exact (R _ I). }
  repeat split; auto; [now apply H|now apply H|]. rewrite consts_as_items. apply fine_scope; [intros n []|]. intros c I. apply in_flat_map in I as (a & I & J). destruct a; try contradiction. destruct J as [[= ->]|[]]. now apply H.
Qed.

Theorem consts_compile ast : consts_fine ast = true -> compiles (consts_tree ast) = true.
Proof.
  intros F. destruct (consts_parts ast F) as (R & D & H & O). rewrite app_nil_r in O. unfold compiles. rewrite D. cbn [andb]. apply andb_true_iff. split.
  - apply negb_true_iff, among_out. intros I. apply (O "Companion"); [|now left]. unfold type_names. apply in_map_iff in I as (d & E & I). apply in_map_iff. exists d. split; [exact E|]. apply filter_In. split; [exact I|].
    unfold consts_tree in I. apply in_flat_map in I as (a & _ & J). destruct a; try contradiction. destruct J as [<-|[]]. destruct n; reflexivity.
  - apply forallb_forall. intros d I. unfold consts_tree in I. apply in_flat_map in I as (a & I & J). destruct a; try contradiction. destruct J as [<-|[]]. destruct (H _ I). now apply const_decl_ok.
Qed.

Theorem consts_forward ast p t l tn v : consts_fine ast = true -> declared ast p t l -> kotlin_constant t l = Some (tn, v) -> exists w, kotlin_holds t l tn w /\ constant [] (consts_tree ast) (kotlin_path p) tn w.
Proof.
  intros F (c & I & A) K. destruct (consts_parts ast F) as (_ & _ & H & O). destruct (H c I). eapply const_forward; eauto. unfold consts_tree. apply in_flat_map. exists (NConst c). split; [exact I|now left].
Qed.
Theorem consts_backward ast p tn v : consts_fine ast = true -> constant [] (consts_tree ast) p tn v -> exists q t l, declared ast q t l /\ p = kotlin_path q /\ kotlin_holds t l tn v.
Proof.
  intros F C. destruct (consts_parts ast F) as (_ & _ & H & O).
  destruct (const_backward _ _ _ _ _ C _ (consts_as_items ast) O) as [(n & t & l & a & _ & I & _)|(c & q & t & l & I & A & E & K)].
  - intros c I. apply in_flat_map in I as (x & I & J). destruct x; try contradiction. destruct J as [[= ->]|[]]. now apply H.
  - intros n t l a I. apply in_flat_map in I as (x & _ & J). destruct x; try contradiction. destruct J as [J|[]]. discriminate J.
  - apply in_flat_map in I as (x & _ & J). destruct x; try contradiction. destruct J as [J|[]]. discriminate J.
  - exists q, t, l. split; [|now split]. exists c. split; [|exact A]. apply in_flat_map in I as (x & I & J). destruct x; try contradiction. destruct J as [[= ->]|[]]. exact I.
Qed.
Theorem constant_known ast p t l : consts_fine ast = true -> declared ast p t l -> exists tn v, kotlin_constant t l = Some (tn, v).
Proof.
  intros F (c & I & A). destruct (consts_parts ast F) as (_ & _ & H & _). destruct (H c I) as [_ FC]. clear -A FC. induction A as [id items n t l t' I|id items c p t l I A IH]; destruct (fine_items id items FC) as (_ & FN & FV).
  - destruct (FV n t l t' I) as (_ & (tn & v) & K). now exists tn, v.
  - now apply IH, FN.
Qed.
