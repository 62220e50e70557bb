(** The generated Rust codecs of two versions of a schema. *)
Require Import Coq.Strings.String Coq.Strings.Ascii.
Require Import Coq.NArith.NArith Coq.ZArith.ZArith Coq.Lists.List Coq.Bool.Bool Coq.Arith.PeanoNat.
Require Import Coq.micromega.Lia Coq.micromega.ZifyBool Coq.micromega.ZifyN Coq.micromega.ZifyNat.
Require Import Verif.Base Verif.Ast Verif.RustSyntax Verif.RustGen Verif.RustTree Verif.RustFile Verif.RustSem Verif.Wire Verif.RustCodec Verif.EvolveSpec.
Require Verif.CodecFacts. Import CodecFacts(cases_named, NoDup_map_inj).
Import ListNotations.
Local Open Scope string_scope.
Local Open Scope list_scope.

(** ** Shapes *)
Lemma all2_map_r {A B C} (f : A -> C -> bool) (g : B -> C) l m : all2 (fun a b => f a (g b)) l m = all2 f l (map g m).
Proof. revert m. induction l as [|a l IH]; intros [|b m]; try reflexivity. cbn. now rewrite IH. Qed.
Lemma fields_shape (T : val -> type_id -> bool) fs l l' : map field_shape l' = map field_shape l ->
  all2 (fun '(x, v) f => String.eqb x (sf_name f) && T v (sf_type f)) fs l' =
  all2 (fun '(x, v) f => String.eqb x (sf_name f) && T v (sf_type f)) fs l.
Proof.
  intros E.
  assert (X : forall l, all2 (fun '(x, v) f => String.eqb x (sf_name f) && T v (sf_type f)) fs l =
    all2 (fun (a : string * val) g => String.eqb (fst a) (fst g) && T (snd a) (snd g)) fs (map field_shape l)).
  { intros k. rewrite <- all2_map_r. clear E l l'. revert k. induction fs as [|[x v] fs IH]; intros [|b k]; try reflexivity. cbn. now rewrite IH. }
  now rewrite !X, E.
Qed.
Lemma tuple_shape (T : val -> type_id -> bool) l ts ts' : map tf_type ts' = map tf_type ts ->
  all2 (fun v f => T v (tf_type f)) l ts' = all2 (fun v f => T v (tf_type f)) l ts.
Proof. intros E. rewrite !(all2_map_r T tf_type). now rewrite E. Qed.
Lemma same_case_name i j : same_case i j -> item_name j = item_name i /\ item_pos j = item_pos i.
Proof. destruct i, j; cbn; tauto. Qed.
Lemma same_case_types i j : same_case i j -> case_types j = case_types i.
Proof.
  destruct i as [| |p c l], j as [| |p' c' l']; cbn; try tauto. intros (_ & _ & E).
  change (map sf_type l) with (map (fun f => snd (field_shape f)) l). change (map sf_type l') with (map (fun f => snd (field_shape f)) l').
  rewrite <- !(map_map field_shape snd). now rewrite E.
Qed.
Lemma item_of_named c e i : nodupb (map item_name (en_items e)) = true -> In i (en_items e) -> item_name i = c -> item_of c e = Some i.
Proof.
  intros N I <-. apply nodupb_NoDup in N. unfold item_of. induction (en_items e) as [|j l IH]; [destruct I|]. cbn [find].
  cbn [map] in N. apply NoDup_cons_iff in N as [N M]. destruct (String.eqb_spec (item_name j) (item_name i)) as [E|E].
  - destruct I as [->|I]; [reflexivity|]. exfalso. apply N. rewrite E. now apply in_map.
  - destruct I as [->|I]; [congruence|]. now apply IH.
Qed.

Section Versions.
Variable R : runtime.
Variables ds ds' : list decl.
(** Declarations that no other one mentions and that may differ in other ways. *)
Variable apart : string -> bool.
Hypothesis kept : forall n d, apart n = false -> decl_of n ds = Some d -> exists d', decl_of n ds' = Some d' /\ grown_decl d d'.
Hypothesis foreign : forall n, In n (flat_map mentions (flat_map decl_types ds)) ->
  apart n = false /\ (decl_of n ds = None -> decl_of n ds' = None).
Hypothesis named : cases_named ds' = true.

Definition known (t : type_id) : Prop := forall n, In n (mentions t) -> apart n = false /\ (decl_of n ds = None -> decl_of n ds' = None).

Lemma known_part n d t : decl_of n ds = Some d -> In t (decl_types d) -> known t.
Proof.
  intros D I m M. apply foreign. apply decl_of_in in D as [D _].
  apply in_flat_map. exists t. split; [|assumption]. apply in_flat_map. now exists d.
Qed.
Lemma known_arg g l t : known (TyGeneric g l) -> In t l -> known t.
Proof. intros K I m M. apply K. cbn [mentions]. apply in_flat_map. now exists t. Qed.
Lemma not_declared n : apart n = false -> decl_of n ds' = None -> decl_of n ds = None.
Proof. intros A H. destruct (decl_of n ds) as [d|] eqn:E; [|reflexivity]. destruct (kept n d A E) as (d' & E' & _). congruence. Qed.

Lemma enum_kept n e : apart n = false -> decl_of n ds = Some (DEnum e) -> exists e', decl_of n ds' = Some (DEnum e') /\
  (forall i, In i (en_items e) -> exists i', item_of (item_name i) e' = Some i' /\ same_case i i').
Proof.
  intros A D. destruct (kept n _ A D) as ([s|e'] & D' & G); [contradiction|]. exists e'. split; [assumption|].
  intros i I. destruct (G i I) as (i' & I' & S). exists i'. split; [|assumption]. apply item_of_named; [|assumption|now apply same_case_name].
  apply decl_of_in in D' as [D' _]. pose proof named as N. unfold cases_named in N. rewrite forallb_forall in N. exact (N _ D').
Qed.
Lemma struct_kept n s : apart n = false -> decl_of n ds = Some (DStruct s) -> exists s', decl_of n ds' = Some (DStruct s') /\
  map field_shape (sn_fields s') = map field_shape (sn_fields s).
Proof. intros A D. destruct (kept n _ A D) as ([s'|e'] & D' & G); [|contradiction]. now exists s'. Qed.

Lemma case_known n e i t : decl_of n ds = Some (DEnum e) -> In i (en_items e) -> In t (case_types i) -> known t.
Proof. intros D I J. apply (known_part n _ t D). cbn [decl_types]. apply in_flat_map. now exists i. Qed.

(** Values of the earlier version are values of the later one, with the same bytes. *)
Lemma later n : forall v t, typed R ds v t = true -> known t -> depth v <= n -> typed R ds' v t = true /\ wire R ds' v = wire R ds v.
Proof.
  induction n as [|n IH]; intros v t T K L.
  - exfalso. destruct v; cbn in L; try lia; destruct o; lia.
  - assert (FS : forall (fs : list (string * val)) l, all2 (fun '(x, v) f => String.eqb x (sf_name f) && typed R ds v (sf_type f)) fs l = true ->
        (forall t, In t (map sf_type l) -> known t) -> list_max (map (fun '(_, v) => depth v) fs) <= n ->
        all2 (fun '(x, v) f => String.eqb x (sf_name f) && typed R ds' v (sf_type f)) fs l = true /\
        flat_map (fun '(_, v) => wire R ds' v) fs = flat_map (fun '(_, v) => wire R ds v) fs).
    { induction fs as [|[x v'] fs IHf]; intros [|f l] H KL LM; try discriminate H; [now split|].
      cbn [all2] in H |- *. apply andb_true_iff in H as [H1 H2]. apply andb_true_iff in H1 as [H0 H1]. cbn [map list_max fold_right] in LM.
      change (fold_right Nat.max 0 (map (fun '(_, v) => depth v) fs)) with (list_max (map (fun '(_, v) => depth v) fs)) in LM.
      destruct (IH v' (sf_type f) H1) as [A B]; [apply KL; now left|lia|].
      destruct (IHf l H2) as [C D]; [intros; apply KL; now right|lia|]. split.
      - cbv beta iota. now rewrite H0, A, C.
      - cbn [flat_map]. now rewrite B, D. }
    assert (LS : forall (T' : list type_id) l, Forall2 (fun v t => typed R ds v t = true /\ known t) l T' -> list_max (map depth l) <= n ->
        Forall2 (fun v t => typed R ds' v t = true) l T' /\ flat_map (wire R ds') l = flat_map (wire R ds) l).
    { intros T' l F. induction F as [|u t' l T' [F1 F2] _ IHl]; intros LM; [now split|].
      cbn [map list_max fold_right] in LM. change (fold_right Nat.max 0 (map depth l)) with (list_max (map depth l)) in LM.
      destruct (IH u t' F1 F2 ltac:(lia)) as [A B]. destruct (IHl ltac:(lia)) as [C D]. split; [now constructor|]. cbn [flat_map]. now rewrite B, D. }
    assert (TAG : forall m e c i, apart m = false -> decl_of m ds = Some (DEnum e) -> item_of c e = Some i ->
        exists e' i', decl_of m ds' = Some (DEnum e') /\ item_of c e' = Some i' /\ same_case i i' /\ tag R ds' m c = tag R ds m c).
    { intros m e c i AP D I. destruct (enum_kept m e AP D) as (e' & D' & KI). destruct (find_item_in _ _ _ I) as [II NI].
      destruct (KI i II) as (i' & I' & S). rewrite NI in I'. exists e', i'. repeat split; try assumption.
      unfold tag. rewrite D, D', I, I'. now destruct (same_case_name _ _ S) as [_ ->]. }
    destruct v as [p z| | |m fs|m c|m c l|m c fs|g k l|x y| | | | | | | | | | | | | | | | |]; try discriminate T.
    + now split.
    + cbn [typed] in T. destruct t as [| | | | |mm]; try discriminate. destruct (decl_of m ds) as [[s|]|] eqn:D; try discriminate.
      apply andb_true_iff in T as [E T]. assert (AP : apart m = false) by (apply String.eqb_eq in E; subst mm; apply (K m); now left). destruct (struct_kept m s AP D) as (s' & D' & SH).
      cbn [depth] in L. destruct (FS fs _ T) as [A B]; [intros; now apply (known_part m _ _ D)|lia|]. split; [|exact B].
      cbn [typed]. rewrite D', E. cbn [andb]. now rewrite (fields_shape (typed R ds') fs _ _ SH).
    + cbn [typed] in T. destruct t as [| | | | |mm]; try discriminate. destruct (decl_of m ds) as [[|e]|] eqn:D; try discriminate.
      apply andb_true_iff in T as [E T]. assert (AP : apart m = false) by (apply String.eqb_eq in E; subst mm; apply (K m); now left). destruct (item_of c e) as [i|] eqn:I; [|discriminate].
      destruct (TAG m e c i AP D I) as (e' & i' & D' & I' & S & TG). split; [|exact TG]. cbn [typed]. rewrite D', E, I'. destruct i, i'; try discriminate; now try contradiction.
    + cbn [typed] in T. destruct t as [| | | | |mm]; try discriminate. destruct (decl_of m ds) as [[|e]|] eqn:D; try discriminate.
      apply andb_true_iff in T as [E T]. assert (AP : apart m = false) by (apply String.eqb_eq in E; subst mm; apply (K m); now left). destruct (item_of c e) as [i|] eqn:I; [|discriminate].
      destruct (TAG m e c i AP D I) as (e' & i' & D' & I' & S & TG). destruct i as [|p c0 ts|]; try discriminate T. destruct i' as [|p' c0' ts'|]; try contradiction S.
      assert (F : Forall2 (fun v t => typed R ds v t = true /\ known t) l (map tf_type ts)).
      { apply Forall2_map_r. apply all2_Forall2 in T. eapply Forall2_impl_in; [|exact T]. intros u f _ J H. split; [exact H|].
        apply (case_known m e _ _ D (proj1 (find_item_in _ _ _ I))). cbn [case_types]. now apply in_map. }
      cbn [depth] in L. destruct (LS _ _ F) as [A B]; [lia|]. split.
      * cbn [typed]. rewrite D', E, I'. cbn [andb]. destruct S as (_ & _ & SH). rewrite (tuple_shape (typed R ds') l _ _ SH).
        clear - A. rewrite (all2_map_r (typed R ds') tf_type). revert A. generalize (map tf_type ts). intros m A.
        induction A; [reflexivity|]. cbn. now rewrite H, IHA.
      * cbn [wire]. now rewrite TG, B.
    + cbn [typed] in T. destruct t as [| | | | |mm]; try discriminate. destruct (decl_of m ds) as [[|e]|] eqn:D; try discriminate.
      apply andb_true_iff in T as [E T]. assert (AP : apart m = false) by (apply String.eqb_eq in E; subst mm; apply (K m); now left). destruct (item_of c e) as [i|] eqn:I; [|discriminate].
      destruct (TAG m e c i AP D I) as (e' & i' & D' & I' & S & TG). destruct i as [| |p c0 l]; try discriminate T. destruct i' as [| |p' c0' l']; try contradiction S.
      cbn [depth] in L. destruct (FS fs _ T) as [A B]; [|lia|].
      * intros u J. exact (case_known m e _ _ D (proj1 (find_item_in _ _ _ I)) J).
      * split; [|cbn [wire]; now rewrite TG, B]. cbn [typed]. rewrite D', E, I'. cbn [andb]. destruct S as (_ & _ & SH). now rewrite (fields_shape (typed R ds') fs _ _ SH).
    + cbn [typed] in T. destruct t as [| | | |h [|a args]|]; try discriminate. apply andb_true_iff in T as [H T].
      assert (F : exists T', Forall2 (fun v t => typed R ds v t = true /\ known t) l T' /\
        Forall2 (fun t i => nth_error (a :: args) i = Some t) T' (rt_slots R g k)).
      { apply all2_Forall2 in T. clear - T K. revert T. generalize (rt_slots R g k). intros sl T. induction T as [|v i l sl H T IHT]; [now exists []|].
        destruct IHT as (T' & A & B). destruct (nth_error (a :: args) i) as [t|] eqn:N; [|discriminate]. exists (t :: T'). split; constructor; try assumption.
        split; [assumption|]. apply (known_arg _ _ _ K). now apply (nth_error_In _ i). }
      destruct F as (T' & F & G). cbn [depth] in L. destruct (LS _ _ F) as [A B]; [lia|]. split; [|cbn [wire]; now rewrite B].
      cbn [typed]. rewrite H. cbn [andb]. clear - A G. revert G. generalize (rt_slots R g k). induction A; intros sl G; inversion G; subst; [reflexivity|].
      cbn [all2]. match goal with N : nth_error _ _ = Some _ |- _ => rewrite N end. rewrite H. cbn [andb]. now apply IHA.
    + cbn [typed] in T. destruct t as [| | | | |mm]; try discriminate. apply andb_true_iff in T as [H T]. split; [|reflexivity].
      destruct (decl_of x ds) eqn:D; [discriminate|]. cbn [typed]. rewrite H. cbn [andb].
      apply andb_true_iff in H as [H _]. apply andb_true_iff in H as [H _]. apply String.eqb_eq in H. subst mm.
      now rewrite (proj2 (K x (or_introl eq_refl)) D).
Qed.

(** ** Reading what the later version wrote *)

Variable V : service.
Variable items : list item.
Hypothesis impls : forall n, find_impl n items = option_map decl_fns (decl_of n ds).
Hypothesis ok : forallb decl_ok ds = true.
Hypothesis fit : forallb positions_fit ds = true.
Hypothesis distinct : forallb positions_distinct ds = true.
Hypothesis ok' : forallb decl_ok ds' = true.
Hypothesis fit' : forallb positions_fit ds' = true.
Hypothesis distinct' : forallb positions_distinct ds' = true.
Hypothesis law : lawful R.

Definition expect {A} (b : bool) (v : A) (s : state) : out A := if b then Done v s else Panics.

Lemma expect_bind {A B} (m : M A) (f : A -> B) b v s s' : m s = expect b v s' -> bind m (fun a => ret (f a)) s = expect b (f v) s'.
Proof. intros H. unfold bind. rewrite H. now destruct b. Qed.
Lemma mapMM_expect {A B} (f : A -> M B) (w : B -> bytes) (g : B -> A -> bool) l bs :
  Forall2 (fun a b => forall s r, f a (set_rd (w b ++ r) s) = expect (g b a) b (set_rd r s)) l bs ->
  forall s r, mapMM f l (set_rd (flat_map w bs ++ r) s) = expect (all2 g bs l) bs (set_rd r s).
Proof.
  induction 1 as [|a b l bs H _ IH]; intros s r; [reflexivity|].
  change (mapMM f (a :: l)) with (bind (f a) (fun b => bind (mapMM f l) (fun bs => ret (b :: bs)))).
  cbn [flat_map all2]. rewrite <- app_assoc. unfold bind at 1. rewrite (H s _). destruct (g b a); [|reflexivity]. cbn [expect andb].
  now apply expect_bind.
Qed.

Definition reads_if (K : calls) (t : type_id) (v : val) : Prop :=
  forall s r, c_read K (rty_of t) (set_rd (wire R ds' v ++ r) s) = expect (typed R ds v t) v (set_rd r s).

Lemma read_one_if K slf t v s r : typed R ds' v t = true -> (prim_name t = None -> reads_if K t v) ->
  read_ty R K slf t (set_rd (wire R ds' v ++ r) s) = expect (typed R ds v t) v (set_rd r s).
Proof.
  intros T W. unfold read_ty. destruct (prim_name t) as [id|] eqn:P.
  - destruct (typed_prim R ds' v t id P T) as (z & -> & Q & B). rewrite method_prim_read by assumption.
    unfold read_prim. cbn [set_rd s_rd wire]. rewrite (law_prim R law _ _ _ Q B). cbn [typed]. now rewrite P, String.eqb_refl, Q, B.
  - rewrite (typed_path R ds' ok' v t slf T P). apply (W eq_refl).
Qed.
Lemma read_fields_if K slf fs l : all2 (fun '(x, v) f => String.eqb x (sf_name f) && typed R ds' v (sf_type f)) fs l = true ->
  (forall v t, In v (map snd fs) -> In t (map sf_type l) -> typed R ds' v t = true -> reads_if K t v) ->
  forall q r, read_fields R K slf l (set_rd (flat_map (fun '(_, v) => wire R ds' v) fs ++ r) q) =
    expect (all2 (fun '(x, v) f => String.eqb x (sf_name f) && typed R ds v (sf_type f)) fs l) fs (set_rd r q).
Proof.
  intros T W. apply (mapMM_expect _ (fun '(_, v) => wire R ds' v)). apply Forall2_flip'. apply all2_Forall2 in T.
  eapply Forall2_impl_in; [|exact T]. intros [x v] f I J H q r. apply andb_true_iff in H as [H1 H2].
  apply String.eqb_eq in H1. subst x. cbv beta iota. rewrite String.eqb_refl. cbn [andb]. apply (expect_bind _ (fun v => (sf_name f, v))).
  apply read_one_if; [assumption|]. intros _. apply W; [|now apply in_map|assumption].
  apply in_map_iff. now exists (sf_name f, v).
Qed.

Lemma fresh_case m e e' i' : apart m = false -> decl_of m ds = Some (DEnum e) -> decl_of m ds' = Some (DEnum e') -> In i' (en_items e') ->
  item_of (item_name i') e = None -> find (fun i => Z.eqb (Z.of_N (item_pos i)) (Z.of_N (item_pos i'))) (en_items e) = None.
Proof.
  intros AP D D' I' N. destruct (find _ (en_items e)) as [j|] eqn:F; [|reflexivity]. exfalso. apply find_some in F as [J E]. apply Z.eqb_eq in E.
  destruct (kept m _ AP D) as (d & X & G). rewrite D' in X. injection X as <-. cbn [grown_decl] in G. destruct (G j J) as (j' & J' & S).
  destruct (same_case_name _ _ S) as [SN SP]. assert (j' = i').
  { apply decl_of_in in D' as [D' _]. pose proof distinct' as Y. rewrite forallb_forall in Y. specialize (Y _ D'). cbn [positions_distinct] in Y.
    apply nodupN_NoDup in Y. apply (NoDup_map_inj item_pos (en_items e')); try assumption. lia. }
  subst j'. unfold item_of in N. apply (find_none _ _ N) in J. rewrite SN, String.eqb_refl in J. discriminate.
Qed.

Lemma reads_if_values n : forall v t, typed R ds' v t = true -> known t -> depth v <= n -> reads_if (calls_upto R V items n) t v.
Proof.
  induction n as [|n IH]; intros v t T KN L s r.
  - exfalso. destruct v; cbn in L; try lia; destruct o; lia.
  - cbn [calls_upto c_read].
    assert (SUB : forall u t', depth u < depth v -> known t' -> typed R ds' u t' = true -> reads_if (calls_upto R V items n) t' u) by (intros u t' L' K' T'; apply (IH u t' T' K'); lia).
    assert (DOWN : forall m d, decl_of m ds' = Some d -> t = TyOther m -> exists d0, apart m = false /\ decl_of m ds = Some d0 /\ grown_decl d0 d).
    { intros m d D ->. destruct (decl_of m ds) as [d0|] eqn:D0.
      - exists d0. destruct (KN m (or_introl eq_refl)) as [AP _]. split; [exact AP|]. split; [reflexivity|]. destruct (kept m d0 AP D0) as (d1 & D1 & G). congruence.
      - rewrite (proj2 (KN m (or_introl eq_refl)) D0) in D. discriminate. }
    assert (ENUM : forall m e', decl_of m ds' = Some (DEnum e') -> t = TyOther m ->
       read_with R V items (calls_upto R V items n) (rty_of t) (set_rd (wire R ds' v ++ r) s) = expect (typed R ds v t) v (set_rd r s)).
    { intros m e' D' E. destruct (DOWN m _ D' E) as ([s0|e] & AP & D & G); [contradiction|]. subst t. cbn [rty_of]. unfold ty0. cbn [read_with]. rewrite (find_read items ds impls m _ D).
      rewrite (read_enum_exact R V items ds ok fit _ m e _ (clean_upto R V items n) D).
      destruct (typed_case R ds' v m e' D' T) as (i' & I' & C). rewrite (wire_case R ds' m e' i' v D' I' C).
      destruct (find_item_in _ _ _ I') as [II' _]. unfold with_tag. rewrite <- app_assoc. cbn [set_rd s_rd].
      rewrite (law_prim R law "u32" _ _ eq_refl (u32_range _ (fit_of ds' fit' m e' i' D' II'))).
      destruct (item_of (item_name i') e) as [i|] eqn:I.
      - destruct (find_item_in _ _ _ I) as [II NI]. destruct (enum_kept m e AP D) as (e1 & D1 & KI). rewrite D' in D1. injection D1 as <-.
        destruct (KI i II) as (i1 & I1 & S). rewrite NI in I1. rewrite I' in I1. injection I1 as <-.
        destruct (same_case_name _ _ S) as [_ SP]. rewrite SP, (find_position items ds impls ok fit distinct m e i D II). rewrite set_rd_rd.
        assert (TY : forall t0, In t0 (case_types i) -> known t0) by (intros t0 J; exact (case_known m e i t0 D II J)).
        destruct i as [p c|p c ts|p c l], i' as [p' c'|p' c' ts'|p' c' l'], v as [| | | |a b|a b vs|a b fs| | | | | | | | | | | | | | | | | | |]; try contradiction C; try contradiction S; cbn [read_case payload item_name] in *.
        + destruct C as [-> ->]. cbn [typed flat_map app]. rewrite D, String.eqb_refl, I. subst c'. reflexivity.
        + destruct C as (-> & -> & TL). destruct S as (_ & EC & SH). subst c'. cbn [typed]. rewrite D, String.eqb_refl, I. cbn [andb]. apply (expect_bind _ (fun l => vcaset m c l)).
          rewrite (tuple_shape (typed R ds') vs _ _ SH) in TL.
          revert s r. apply mapMM_expect. apply Forall2_flip'. apply all2_Forall2 in TL. eapply Forall2_impl_in; [|exact TL].
          intros u f J J' H q r. apply read_one_if; [assumption|]. intros _. apply SUB; [|apply TY; cbn [case_types]; now apply in_map|assumption].
          now apply (depth_payload items ds impls ok fit (vcaset m c vs)).
        + destruct C as (-> & -> & TL). destruct S as (_ & EC & SH). subst c'. cbn [typed]. rewrite D, String.eqb_refl, I. cbn [andb]. apply (expect_bind _ (fun fs => vcases m c fs)).
          rewrite (fields_shape (typed R ds') fs _ _ SH) in TL. rewrite <- wire_fields. apply read_fields_if; [assumption|].
          intros u t0 J J' H. apply SUB; [|now apply TY|assumption]. now apply (depth_payload items ds impls ok fit (vcases m c fs)).
      - rewrite (fresh_case m e e' i' AP D D' II' I). unfold expect.
        assert (X : typed R ds v (TyOther m) = false); [|now rewrite X].
        destruct i' as [p' c'|p' c' ts'|p' c' l'], v as [| | | |a b|a b vs|a b fs| | | | | | | | | | | | | | | | | | |]; try contradiction C; cbn [item_name] in I.
        + destruct C as [-> ->]. cbn [typed]. now rewrite D, I, andb_false_r.
        + destruct C as (-> & -> & _). cbn [typed]. now rewrite D, I, andb_false_r.
        + destruct C as (-> & -> & _). cbn [typed]. now rewrite D, I, andb_false_r. }
    destruct v as [p z| | |m fs|m c|m c l|m c fs|g k l|x y| | | | | | | | | | | | | | | | |]; try discriminate T.
    + pose proof T as T0. cbn [typed] in T. destruct (prim_name t) as [id|] eqn:P; [|discriminate]. apply andb_true_iff in T as [T B]. apply andb_true_iff in T as [T Q].
      apply String.eqb_eq in T. subst id.
      assert (E : rty_of t = RPath [p] []) by (destruct t; cbn in P |- *; congruence). rewrite E. cbn [read_with].
      rewrite (find_method_none items ds impls) by now apply (no_prim_decl ds ok). unfold has_impl. rewrite impls, (no_prim_decl ds ok p Q). cbn [option_map]. rewrite Q.
      unfold read_prim. cbn [set_rd s_rd wire]. rewrite (law_prim R law _ _ _ Q B). cbn [typed]. now rewrite P, String.eqb_refl, Q, B.
    + cbn [typed] in T. destruct t as [| | | | |mm]; try discriminate. destruct (decl_of m ds') as [[sn'|]|] eqn:D'; try discriminate.
      apply andb_true_iff in T as [E T]. apply String.eqb_eq in E. subst mm. destruct (DOWN m _ D' eq_refl) as ([sn|] & AP & D & G); [|contradiction].
      cbn [rty_of]. unfold ty0. cbn [read_with]. rewrite (find_read items ds impls m _ D).
      rewrite (read_struct_exact R V items ds impls ok _ m sn _ (clean_upto R V items n) D). cbn [typed]. rewrite D, String.eqb_refl. cbn [andb].
      apply (expect_bind _ (fun fs => vrec m fs)). cbn [grown_decl] in G. rewrite (fields_shape (typed R ds') fs _ _ G) in T. cbn [wire].
      apply read_fields_if; [assumption|]. intros u t0 I J H. apply SUB; [|exact (known_part m _ _ D J)|assumption].
      apply in_map_iff in I as ([x w] & E & I). cbn [snd] in E. subst w.
      cbn [depth]. apply (in_map (fun '(_, v) => depth v)) in I. apply list_max_in in I. lia.
    + cbn [typed] in T. destruct t as [| | | | |mm]; try discriminate. destruct (decl_of m ds') as [[|e]|] eqn:D; try discriminate.
      apply andb_true_iff in T as [E _]. apply String.eqb_eq in E. subst mm. now apply (ENUM m e).
    + cbn [typed] in T. destruct t as [| | | | |mm]; try discriminate. destruct (decl_of m ds') as [[|e]|] eqn:D; try discriminate.
      apply andb_true_iff in T as [E _]. apply String.eqb_eq in E. subst mm. now apply (ENUM m e).
    + cbn [typed] in T. destruct t as [| | | | |mm]; try discriminate. destruct (decl_of m ds') as [[|e]|] eqn:D; try discriminate.
      apply andb_true_iff in T as [E _]. apply String.eqb_eq in E. subst mm. now apply (ENUM m e).
    + cbn [typed] in T. destruct t as [| | | |h [|a args]|]; try discriminate.
      rewrite !andb_true_iff in T. destruct T as [[[E NS] H] T]. apply String.eqb_eq in E. subst h.
      change (rty_of (TyGeneric g (a :: args))) with (RPath [g] (rty_of a :: map rty_of args)). cbn [read_with].
      cbn [set_rd s_rd wire]. rewrite <- app_assoc, (law_head R law _ _ _ H), set_rd_rd.
      cbn [typed]. rewrite String.eqb_refl, NS, H. cbn [andb]. apply (expect_bind _ (fun l => vbox g k l)).
      assert (SUB' : forall u t', In u l -> In t' (a :: args) -> typed R ds' u t' = true -> reads_if (calls_upto R V items n) t' u).
      { intros u t' I J. apply SUB; [|now apply (known_arg _ _ _ KN)]. cbn [depth]. apply (in_map depth) in I. apply list_max_in in I. lia. }
      clear ENUM. revert s r. apply mapMM_expect. apply Forall2_flip'. apply all2_Forall2 in T. eapply Forall2_impl_in; [|exact T].
      intros u i I J H' q r. cbv beta in H'. change (rty_of a :: map rty_of args) with (map rty_of (a :: args)). rewrite nth_error_map.
      destruct (nth_error (a :: args) i) as [t'|] eqn:NE; cbv beta iota in H'; [|discriminate H']. cbn [option_map]. apply SUB'; [assumption|now apply (nth_error_In _ i)|assumption].
    + cbn [typed] in T. destruct t as [| | | | |mm]; try discriminate. apply andb_true_iff in T as [HH T].
      destruct (decl_of x ds') eqn:D'; [discriminate|]. assert (D : decl_of x ds = None).
      { apply not_declared; [|assumption]. rewrite !andb_true_iff in HH. destruct HH as [[E _] _]. apply String.eqb_eq in E. subst mm. apply (KN x). now left. }
      cbn [typed]. rewrite HH, D, T. cbn [andb]. rewrite !andb_true_iff in HH. destruct HH as [[E P] _]. apply String.eqb_eq in E. subst mm.
      cbn [rty_of]. unfold ty0. cbn [read_with]. rewrite (find_method_none items ds impls x _ D). unfold has_impl. rewrite impls, D. cbn [option_map].
      apply negb_true_iff in P. rewrite P. cbn [set_rd s_rd wire]. now rewrite (law_ext R law _ _ _ T).
Qed.

(** A struct with further fields behind the earlier ones. *)
Lemma reads_prefix n m s s' more fs gs : decl_of m ds = Some (DStruct s) -> decl_of m ds' = Some (DStruct s') ->
  map field_shape (sn_fields s') = map field_shape (sn_fields s) ++ more ->
  typed R ds' (vrec m (fs ++ gs)) (TyOther m) = true -> List.length fs = List.length (sn_fields s) -> depth (vrec m (fs ++ gs)) <= n ->
  forall q r, c_read (calls_upto R V items n) (ty0 m) (set_rd (wire R ds' (vrec m (fs ++ gs)) ++ r) q) =
    expect (typed R ds (vrec m fs) (TyOther m)) (vrec m fs) (set_rd (flat_map (fun '(_, v) => wire R ds' v) gs ++ r) q).
Proof.
  intros D D' SH T LN L q r. cbn [typed] in T. rewrite D', String.eqb_refl in T. cbn [andb] in T.
  destruct n as [|n]; [cbn [depth] in L; lia|].
  cbn [calls_upto c_read]. unfold ty0. cbn [read_with]. rewrite (find_read items ds impls m _ D).
  rewrite (read_struct_exact R V items ds impls ok _ m s _ (clean_upto R V items n) D). cbn [typed]. rewrite D, String.eqb_refl. cbn [andb].
  apply (expect_bind _ (fun fs => vrec m fs)). cbn [wire]. rewrite flat_map_app, <- app_assoc. cbn [depth] in L. rewrite map_app in L.
  apply read_fields_if.
  - clear - T SH LN. revert T SH LN. generalize (sn_fields s') as l'. generalize (sn_fields s) as l. induction fs as [|[x v] fs IH]; intros [|f l] [|f' l'] T SH LN; try discriminate; try reflexivity.
    cbn [map app] in SH. injection SH as E1 E2 E3. cbn [app all2] in T |- *. apply andb_true_iff in T as [T1 T2]. rewrite <- E1, <- E2, T1. cbn [andb].
    apply (IH l l'); [assumption|exact E3|]. cbn in LN. congruence.
  - intros u t0 I J H. apply reads_if_values; [assumption|exact (known_part m _ _ D J)|].
    apply in_map_iff in I as ([x w] & E & I). cbn [snd] in E. subst w.
    assert (X : In (depth u) (map (fun '(_, v) => depth v) fs ++ map (fun '(_, v) => depth v) gs)) by (apply in_or_app; left; now apply (in_map (fun '(_, v) => depth v) fs (x, u))).
    apply list_max_in in X. lia.
Qed.
End Versions.
