(** Floats of 32 bits: the number that a decimal text stands for where an [f32] or a [Float] is expected.  Rust and Kotlin
    round it correctly (nearest, ties to even).  A 32-bit float is given as the double with the same value. *)
Require Import Coq.Strings.String Coq.NArith.NArith Coq.ZArith.ZArith Coq.QArith.QArith Coq.QArith.Qabs Coq.QArith.Qpower Coq.micromega.Lqa Coq.micromega.Lia.
Require Import Verif.F64 Verif.F64Spec Verif.F64Proofs.
Require Verif.LexSpec Verif.NumText Verif.FloatShape. Import LexSpec(all_chars, digitb, positional). Import FloatShape(float_shown, float_text_shape).
Local Open Scope Q_scope.

(** ** Definitions *)

(** The finite non-negative floats of 32 bits (IEEE 754 binary32). *)
Definition single (m : N) (e : Z) : Prop :=
  (m < 2 ^ 24)%N /\ (-149 <= e <= 104)%Z /\ ((2 ^ 23 <= m)%N \/ e = (-149)%Z).
(** Halfway between the largest of them and 2^128. *)
Definition single_limit : Q := inject_Z (2 ^ 25 - 1) * two ^ 103.
(** The one nearest to a rational number, with an even significand in case of a tie; none is infinity. *)
Inductive nearest_single (r : Q) : option (N * Z) -> Prop :=
| ns_fin : forall m e, single m e -> r < single_limit ->
    (forall m' e', single m' e' -> distance m e r <= distance m' e' r) ->
    (forall m' e', single m' e' -> distance m e r == distance m' e' r -> (m' = m /\ e' = e) \/ N.even m = true) ->
    nearest_single r (Some (m, e))
| ns_inf : single_limit <= r -> nearest_single r None.

(** Below the point where rounding to single precision gives infinity. *)
Definition single_range (x : f64) : bool :=
  match x with
  | F64Fin m e => (Z.of_N m * 2 ^ Z.max e 0 <? (2 ^ 128 - 2 ^ 103) * 2 ^ Z.max (- e) 0)%Z
  | F64Inf => false
  end.
(** The float of 32 bits nearest to num / den. *)
Definition f32_round (num den : N) : option (N * Z) :=
  match num with
  | N0 => Some (0%N, (-149)%Z)
  | _ =>
      let e := Z.max (floor_log2 num den - 23) (-149) in
      let '(a, b) := scale2 num den e in
      let m := round_half_even a b in
      let '(m, e) := if (m =? 2 ^ 24)%N then ((2 ^ 23)%N, (e + 1)%Z) else (m, e) in
      if (104 <? e)%Z then None else Some (m, e)
  end.
(** The double with the same value. *)
Definition widen (m : N) (e : Z) : f64 :=
  match m with
  | N0 => F64Fin 0 (-1074)
  | _ => let j := (52 - Z.of_N (N.log2 m))%Z in F64Fin (m * pow2N j) (e - j)
  end.
(** The float of 32 bits nearest to d * 10^k. *)
Definition f32_of_dec (d : N) (k : Z) : f64 :=
  match (if (0 <=? k)%Z then f32_round (d * pow10N k) 1 else f32_round d (pow10N (- k))) with
  | Some (m, e) => widen m e
  | None => F64Inf
  end.
Example f32_tenth : f32_of_dec 1 (-1) = F64Fin 7205759511166976 (-56). Proof. reflexivity. Qed.
Example f32_half : f32_of_dec 25 (-1) = f64_of_dec 25 (-1). Proof. reflexivity. Qed.
Example f32_large : f32_of_dec 34028235 31 = F64Fin 9007198717870080 75 /\ f32_of_dec 34028236 31 = F64Inf. Proof. now vm_compute. Qed.

(** ** Rounding is correct *)

(** Two singles with the same value are the same. *)
Lemma single_inj_aux m e m' e' : (m < 2 ^ 24)%N -> (-149 <= e)%Z -> (e < e')%Z ->
  ((2 ^ 23 <= m')%N \/ e' = (-149)%Z) -> ~ value m e == value m' e'.
Proof.
  intros M E L C H. destruct C as [C|C]; [|lia]. unfold value in H.
  replace e' with ((e' - e) + e)%Z in H by lia. rewrite two_plus in H.
  assert (H' : qN m == qN m' * two ^ (e' - e)).
  { apply (Qmult_inj_r _ _ (two ^ e)); [pose proof (two_pos e); lra|]. rewrite H. ring. }
  assert (G : qN m' * two ^ 1 <= qN m' * two ^ (e' - e)).
  { rewrite !(Qmult_comm (qN m')). apply Qmult_le_compat_r; [|apply qN_nonneg]. apply two_mono. lia. }
  change (two ^ 1) with (2 # 1) in G.
  apply qN_lt in M. apply qN_le in C.
  assert (E24 : qN (2 ^ 24) == 2 * qN (2 ^ 23)) by reflexivity. lra.
Qed.

Lemma single_inj m e m' e' : single m e -> single m' e' -> value m e == value m' e' ->
  m = m' /\ e = e'.
Proof.
  intros (M & E & C) (M' & E' & C') H. destruct (Z.lt_trichotomy e e') as [L|[L|L]].
  - exfalso. eapply single_inj_aux; [| | |exact C'|exact H]; lia || assumption.
  - subst e'. split; [|reflexivity]. apply qN_inj. unfold value in H.
    apply (Qmult_inj_r _ _ (two ^ e)); [pose proof (two_pos e); lra|assumption].
  - exfalso. symmetry in H. eapply single_inj_aux; [| | |exact C|exact H]; lia || assumption.
Qed.

Section Core.
  Variables (x : Q) (e : Z) (m : N).
  Let s := x * two ^ (- e).
  Hypothesis NEAR : Qabs (qN m - s) <= 1 # 2.
  Hypothesis TIE : Qabs (qN m - s) == 1 # 2 -> N.even m = true.
  Hypothesis LOW : qN (2 ^ 23) <= s \/ e = (-149)%Z.

  Lemma near_whole n : Qabs (qN m - s) <= Qabs (qN n - s).
  Proof.
    destruct (N.eq_dec n m) as [->|H]; [apply Qle_refl|]. pose proof (int_far n m s H). lra.
  Qed.

  Lemma near_single m' e' : (m' < 2 ^ 24)%N -> (-149 <= e')%Z ->
    distance m e x <= distance m' e' x
    /\ (distance m e x == distance m' e' x -> value m' e' == value m e \/ N.even m = true).
  Proof.
    intros M' E'. rewrite dist_scaled. fold s.
    assert (D' : distance m' e' x == Qabs (qN m' * two ^ (e' - e) - s) * two ^ e).
    { unfold distance, value, s.
      assert (X : x == x * two ^ (- e) * two ^ e) by (rewrite <- Qmult_assoc, two_neg; ring).
      transitivity (Qabs ((qN m' * two ^ (e' - e) - x * two ^ (- e)) * two ^ e)).
      - apply Qabs_wd. rewrite X at 1. replace e' with (e' - e + e)%Z at 1 by lia. rewrite two_plus. ring.
      - rewrite Qabs_Qmult, (Qabs_pos (two ^ e)) by (apply Qlt_le_weak, two_pos). reflexivity. }
    rewrite D'. pose proof (two_pos e) as P.
    destruct (Z.le_gt_cases e e') as [L|L].
    - set (n := (m' * pow2N (e' - e))%N).
      assert (EN : qN m' * two ^ (e' - e) == qN n).
      { unfold n. rewrite qN_mul, qN_pow2 by lia. reflexivity. }
      rewrite EN. split.
      + apply Qmult_le_compat_r; [apply near_whole|lra].
      + intros H. destruct (N.eq_dec n m) as [->|NE].
        * left. unfold value. rewrite <- EN. rewrite <- Qmult_assoc, <- two_plus.
          replace (e' - e + e)%Z with e' by lia. reflexivity.
        * right. apply TIE. pose proof (int_far n m s NE).
          apply Qmult_inj_r in H; [lra|lra].
    - destruct LOW as [LW|LW]; [|lia].
      assert (Y : qN m' * two ^ (e' - e) < qN (2 ^ 23)).
      { assert (T : two ^ (e' - e) <= 1 # 2).
        { change (1 # 2) with (two ^ (-1)). apply two_mono. lia. }
        pose proof (two_pos (e' - e)). apply qN_lt in M'.
        assert (qN m' * two ^ (e' - e) <= qN m' * (1 # 2)).
        { rewrite !(Qmult_comm (qN m')). apply Qmult_le_compat_r; [assumption|apply qN_nonneg]. }
        assert (E24 : qN (2 ^ 24) == 2 * qN (2 ^ 23)) by reflexivity. lra. }
      pose proof (near_whole (2 ^ 23)) as N1.
      rewrite (Qabs_neg (qN (2 ^ 23) - s)) in N1 by lra.
      assert (A : Qabs (qN m' * two ^ (e' - e) - s) == - (qN m' * two ^ (e' - e) - s)).
      { apply Qabs_neg. lra. }
      assert (B : Qabs (qN m - s) < Qabs (qN m' * two ^ (e' - e) - s)) by lra.
      split.
      + apply Qmult_le_compat_r; lra.
      + intros H. apply Qmult_inj_r in H; lra.
  Qed.
End Core.

Lemma single_limit_alt : single_limit == (qN (2 ^ 24) - (1 # 2)) * two ^ 104.
Proof.
  unfold single_limit. replace 104%Z with (103 + 1)%Z by lia. rewrite two_succ.
  assert (inject_Z (2 ^ 25 - 1) == (qN (2 ^ 24) - (1 # 2)) * 2) by reflexivity.
  rewrite H. ring.
Qed.

Theorem f32_round_nearest_single x num den : frac_is x num den -> nearest_single x (f32_round num den).
Proof.
  intros F. unfold f32_round. destruct num as [|p].
  { (* zero *)
    assert (X : x == 0).
    { destruct F as [P E]. apply qN_lt in P. change (qN 0) with 0 in *. apply (Qmult_inj_r _ _ (qN den)); lra. }
    assert (D0 : distance 0 (-149) x == 0).
    { unfold distance, value. change (qN 0) with 0. rewrite X. rewrite Qmult_0_l. reflexivity. }
    apply ns_fin.
    - split; [reflexivity|]. split; [lia|now right].
    - rewrite X. unfold single_limit.
      apply Qmult_lt_0_compat; [reflexivity|apply two_pos].
    - intros m' e' _. rewrite D0. apply Qabs_nonneg.
    - intros. right. reflexivity. }
  set (num := N.pos p) in *.
  assert (PN : (0 < num)%N) by reflexivity.
  destruct (floor_log2_spec x num den PN F) as [L1 L2].
  set (L := floor_log2 num den) in *. set (e := Z.max (L - 23) (-149)).
  destruct (scale2 num den e) as [a b] eqn:S.
  apply (scale2_frac x) in S; [|assumption]. destruct (round_spec _ _ _ S) as [NEAR TIE].
  set (m := round_half_even a b) in *. clearbody m. clear S a b.
  set (s := x * two ^ (- e)) in *.
  assert (EG : (-149 <= e)%Z) by lia.
  assert (XS : x == s * two ^ e) by (unfold s; rewrite <- Qmult_assoc, two_neg; ring).
  pose proof (two_pos (- e)) as P'. pose proof (two_pos e) as P.
  assert (SP : 0 < s).
  { unfold s. apply Qmult_lt_0_compat; [|assumption]. pose proof (two_pos L). lra. }
  assert (SU : s < qN (2 ^ 24)).
  { unfold s. apply Qlt_le_trans with (two ^ (L + 1) * two ^ (- e)).
    - apply Qmult_lt_compat_r; assumption.
    - rewrite <- two_plus, qN_2pow. apply two_mono. lia. }
  assert (LOW : qN (2 ^ 23) <= s \/ e = (-149)%Z).
  { destruct (Z.le_gt_cases (-149) (L - 23)) as [G|G]; [left|right; lia].
    rewrite qN_2pow. unfold s. apply Qle_trans with (two ^ L * two ^ (- e)).
    - rewrite <- two_plus. apply two_mono. lia.
    - apply Qmult_le_compat_r; lra. }
  assert (MQ : qN m <= s + (1 # 2) /\ s - (1 # 2) <= qN m).
  { apply Qabs_Qle_condition in NEAR. lra. }
  assert (MU : (m <= 2 ^ 24)%N).
  { destruct (N.le_gt_cases m (2 ^ 24)) as [|G]; [assumption|exfalso].
    assert (G' : (2 ^ 24 + 1 <= m)%N) by lia. apply qN_le in G'. rewrite qN_add in G'.
    change (qN 1) with 1 in G'. lra. }
  assert (ML : (2 ^ 23 <= m)%N \/ e = (-149)%Z).
  { destruct LOW as [LW|LW]; [left|now right].
    destruct (N.le_gt_cases (2 ^ 23) m) as [|G]; [assumption|exfalso].
    assert (G' : (m + 1 <= 2 ^ 23)%N) by lia. apply qN_le in G'. rewrite qN_add in G'.
    change (qN 1) with 1 in G'. lra. }
  assert (E24 : qN (2 ^ 24) == 2 * qN (2 ^ 23)) by reflexivity.
  pose proof (near_single x e m NEAR TIE LOW) as CORE.
  (* the normalised result *)
  assert (R : exists m1 e1,
    (if (m =? 2 ^ 24)%N then ((2 ^ 23)%N, (e + 1)%Z) else (m, e)) = (m1, e1)
    /\ value m1 e1 == value m e /\ (N.even m = true -> N.even m1 = true)
    /\ (m1 < 2 ^ 24)%N /\ (-149 <= e1)%Z /\ ((2 ^ 23 <= m1)%N \/ e1 = (-149)%Z)
    /\ ((104 < e1)%Z -> single_limit <= x) /\ ((e1 <= 104)%Z -> x < single_limit)).
  { destruct (N.eqb_spec m (2 ^ 24)) as [EQ|NE]; eexists _, _; split; try reflexivity.
    - split. { subst m. unfold value. rewrite two_succ, E24. ring. }
      split; [reflexivity|]. split; [reflexivity|]. split; [lia|]. split; [left; reflexivity|].
      subst m. rewrite single_limit_alt. split.
      + intros G. rewrite XS.
        apply Qle_trans with (s * two ^ 104).
        * apply Qmult_le_compat_r; [lra|apply Qlt_le_weak, two_pos].
        * rewrite !(Qmult_comm s). apply Qmult_le_compat_r; [apply two_mono; lia|].
          lra.
      + intros G. rewrite XS. apply Qle_lt_trans with (s * two ^ 103).
        * rewrite !(Qmult_comm s). apply Qmult_le_compat_r; [apply two_mono; lia|]. lra.
        * replace 104%Z with (103 + 1)%Z by lia. rewrite two_succ. pose proof (two_pos 103).
          assert (s * two ^ 103 < qN (2 ^ 24) * two ^ 103) by (apply Qmult_lt_compat_r; assumption).
          assert (qN (2 ^ 24) * two ^ 103 <= ((qN (2 ^ 24) - (1 # 2)) * 2) * two ^ 103).
          { apply Qmult_le_compat_r; [|lra]. change (qN (2 ^ 24)) with (inject_Z (2 ^ 24)). now compute. }
          lra.
    - split; [reflexivity|]. split; [auto|]. split; [lia|]. split; [assumption|]. split; [assumption|].
      rewrite single_limit_alt. split.
      + intros G. destruct LOW as [LW|LW]; [|lia].
        apply Qle_trans with (qN (2 ^ 24) * two ^ 104).
        * apply Qmult_le_compat_r; [lra|apply Qlt_le_weak, two_pos].
        * rewrite XS. apply Qle_trans with (s * two ^ 105).
          -- replace 105%Z with (104 + 1)%Z by lia. rewrite two_succ, E24.
             assert (qN (2 ^ 23) * (2 * two ^ 104) <= s * (2 * two ^ 104)).
             { apply Qmult_le_compat_r; [assumption|]. pose proof (two_pos 104). lra. } lra.
          -- rewrite !(Qmult_comm s). apply Qmult_le_compat_r; [apply two_mono; lia|].
             pose proof (qN_nonneg (2 ^ 23)). lra.
      + intros G. destruct (Z.eq_dec e 104) as [E1|E1].
        * rewrite XS, E1. apply Qmult_lt_compat_r; [apply two_pos|].
          assert (M1 : qN m + 1 <= qN (2 ^ 24)).
          { assert (G' : (m + 1 <= 2 ^ 24)%N) by lia. apply qN_le in G'. rewrite qN_add in G'. exact G'. }
          destruct (Qlt_le_dec s (qN (2 ^ 24) - (1 # 2))) as [|G']; [assumption|exfalso].
          assert (SE : s == qN (2 ^ 24) - (1 # 2)) by lra.
          assert (ME : qN m == qN (2 ^ 24 - 1)).
          { change (qN (2 ^ 24 - 1)) with (qN (2 ^ 24) - 1). lra. }
          apply qN_inj in ME.
          assert (EV : N.even m = true).
          { apply TIE. rewrite Qabs_neg by lra.
            change (qN (2 ^ 24 - 1)) with (qN (2 ^ 24) - 1) in *. rewrite ME.
            change (qN (2 ^ 24 - 1)) with (qN (2 ^ 24) - 1). lra. }
          rewrite ME in EV. discriminate.
        * rewrite XS. apply Qlt_le_trans with (qN (2 ^ 24) * two ^ e).
          { apply Qmult_lt_compat_r; assumption. }
          apply Qle_trans with (qN (2 ^ 24) * two ^ 103).
          { rewrite !(Qmult_comm (qN (2 ^ 24))). apply Qmult_le_compat_r; [apply two_mono; lia|apply qN_nonneg]. }
          replace 104%Z with (103 + 1)%Z by lia. rewrite two_succ. pose proof (two_pos 103).
          assert (qN (2 ^ 24) * two ^ 103 <= ((qN (2 ^ 24) - (1 # 2)) * 2) * two ^ 103).
          { apply Qmult_le_compat_r; [|lra]. change (qN (2 ^ 24)) with (inject_Z (2 ^ 24)). now compute. }
          lra. }
  destruct R as (m1 & e1 & -> & V & EV & M1 & E1 & C1 & OV & NO).
  assert (DV : distance m1 e1 x == distance m e x).
  { unfold distance. rewrite V. reflexivity. }
  destruct (Z.ltb_spec 104 e1) as [G|G]; [apply ns_inf; auto|].
  assert (DB : single m1 e1) by (split; [assumption|split; [lia|assumption]]).
  apply ns_fin; auto.
  - intros m' e' (A & B & C). rewrite DV. apply CORE; lia || assumption.
  - intros m' e' D H. rewrite DV in H. destruct D as (A & B & C) eqn:DD. clear DD.
    destruct (CORE m' e' A ltac:(lia)) as [_ K]. destruct (K H) as [K'|K']; [left|right; auto].
    apply single_inj; [split; [assumption|split; assumption]|assumption|]. rewrite V. exact K'.
Qed.

(** Two singles with even significands have another single between them. *)
Lemma single_between m e m' e' : single m e -> single m' e' -> value m e < value m' e' ->
  N.even m = true -> N.even m' = true ->
  exists k f, single k f /\ value m e < value k f < value m' e'.
Proof.
  intros (M & E & L) (M' & E' & L') V EV EV'. exists (m + 1)%N, e.
  assert (P := two_pos e).
  assert (MM : (m + 1 < 2 ^ 24)%N).
  { destruct (N.eq_dec (m + 1) (2 ^ 24)) as [H|H]; [|lia]. exfalso.
    assert (m = 2 ^ 24 - 1)%N by lia. subst m. discriminate EV. }
  split; [split; [exact MM|split; [exact E|destruct L; [left; lia|now right]]]|].
  split.
  { unfold value. apply Qmult_lt_compat_r; [assumption|]. rewrite qN_add. change (qN 1) with 1. lra. }
  destruct (Z.le_gt_cases e e') as [G|G].
  - assert (VE : value m' e' == qN (m' * pow2N (e' - e)) * two ^ e).
    { unfold value. rewrite qN_mul, qN_pow2 by lia. rewrite <- Qmult_assoc, <- two_plus.
      replace (e' - e + e)%Z with e' by lia. reflexivity. }
    rewrite VE in *. unfold value in *. apply Qmult_lt_compat_r; [assumption|].
    assert (K : (m < m' * pow2N (e' - e))%N).
    { apply qN_lt. apply Qmult_lt_r in V; assumption. }
    apply qN_lt. destruct (N.eq_dec (m' * pow2N (e' - e)) (m + 1)) as [H|H]; [exfalso|lia].
    assert (X : N.even (m' * pow2N (e' - e)) = true) by (rewrite N.even_mul, EV'; reflexivity).
    rewrite H, N.even_add, EV in X. discriminate X.
  - exfalso. destruct L as [L|L]; [|lia]. unfold value in V.
    assert (A : qN (2 ^ 24) * two ^ e' <= qN m * two ^ e).
    { apply Qle_trans with (qN (2 ^ 23) * two ^ (e' + 1)).
      - rewrite two_succ. assert (E24 : qN (2 ^ 24) == 2 * qN (2 ^ 23)) by reflexivity. rewrite E24.
        assert (Q : 2 * qN (2 ^ 23) * two ^ e' == qN (2 ^ 23) * (2 * two ^ e')) by ring. rewrite Q. apply Qle_refl.
      - apply Qle_trans with (qN (2 ^ 23) * two ^ e).
        + rewrite !(Qmult_comm (qN (2 ^ 23))). apply Qmult_le_compat_r; [apply two_mono; lia|apply qN_nonneg].
        + apply Qmult_le_compat_r; [now apply qN_le|lra]. }
    assert (B : qN m' * two ^ e' <= qN (2 ^ 24) * two ^ e').
    { apply Qmult_le_compat_r; [apply qN_le; lia|apply Qlt_le_weak, two_pos]. }
    lra.
Qed.

(** The nearest single is unique. *)
Lemma nearest_single_unique r x y : nearest_single r x -> nearest_single r y -> x = y.
Proof.
  intros H H'. destruct H as [m e D L NR T|L]; destruct H' as [m' e' D' L' NR' T'|L']; try reflexivity;
    try (exfalso; lra).
  assert (EQ : distance m e r == distance m' e' r) by (apply Qle_antisym; auto).
  destruct (T _ _ D' EQ) as [[-> ->]|EV]; [reflexivity|].
  destruct (T' _ _ D (Qeq_sym _ _ EQ)) as [[-> ->]|EV']; [reflexivity|].
  assert (SYM : forall m e m' e', single m e -> single m' e' -> N.even m = true -> N.even m' = true ->
    distance m e r == distance m' e' r -> (forall m' e', single m' e' -> distance m e r <= distance m' e' r) ->
    value m e < value m' e' -> False).
  { clear. intros m e m' e' D D' EV EV' EQ NR V.
    destruct (single_between _ _ _ _ D D' V EV EV') as (k & f & DK & K1 & K2).
    specialize (NR k f DK). unfold distance in *.
    set (v := value m e) in *. set (v' := value m' e') in *. set (w := value k f) in *.
    clearbody v v' w. clear D D' DK EV EV'.
    destruct (Qlt_le_dec v r) as [G|G]; destruct (Qlt_le_dec v' r) as [G'|G'].
    - rewrite !Qabs_neg in EQ by lra. lra.
    - rewrite (Qabs_neg (v - r)) in * by lra. rewrite (Qabs_pos (v' - r)) in * by lra.
      destruct (Qlt_le_dec w r); [rewrite Qabs_neg in NR by lra|rewrite Qabs_pos in NR by lra]; lra.
    - lra.
    - rewrite !Qabs_pos in EQ by lra. lra. }
  destruct (Q_dec (value m e) (value m' e')) as [[V|V]|V].
  - exfalso. eapply (SYM m e m' e'); eassumption.
  - exfalso. eapply (SYM m' e' m e); try eassumption. now symmetry.
  - destruct (single_inj _ _ _ _ D D' V) as [-> ->]. reflexivity.
Qed.

(** ** Singles among the doubles *)

(** The double with the value of a single has an even significand. *)
Lemma widen_double m e : single m e -> exists M E, widen m e = F64Fin M E /\ double M E /\ N.even M = true /\ value M E == value m e.
Proof.
  intros (M & E & C). destruct m as [|p].
  { exists 0%N, (-1074)%Z. split; [reflexivity|]. split; [split; [reflexivity|split; [lia|now right]]|]. split; [reflexivity|]. unfold value. change (qN 0) with 0. ring. }
  set (m := N.pos p) in *. assert (P : (0 < m)%N) by reflexivity. destruct (N.log2_spec m P) as [L1 L2].
  assert (L : (N.log2 m <= 23)%N). { apply N.log2_lt_pow2 in M; [lia|exact P]. }
  set (j := (52 - Z.of_N (N.log2 m))%Z). assert (J : (29 <= j <= 52)%Z) by (unfold j; lia).
  assert (B : (2 ^ 52 <= m * pow2N j < 2 ^ 53)%N).
  { unfold pow2N. replace (Z.to_N j) with (52 - N.log2 m)%N by (unfold j; lia). split.
    - replace (2 ^ 52)%N with (2 ^ N.log2 m * 2 ^ (52 - N.log2 m))%N by (rewrite <- N.pow_add_r; f_equal; lia). now apply N.mul_le_mono_r.
    - replace (2 ^ 53)%N with (2 ^ N.succ (N.log2 m) * 2 ^ (52 - N.log2 m))%N by (rewrite <- N.pow_add_r; f_equal; lia). apply N.mul_lt_mono_pos_r; [|exact L2]. apply N.neq_0_lt_0, N.pow_nonzero. discriminate. }
  exists (m * pow2N j)%N, (e - j)%Z. split; [reflexivity|]. split; [split; [apply B|split; [lia|left; apply B]]|]. split.
  - rewrite N.even_mul. unfold pow2N. replace (Z.to_N j) with (N.succ (Z.to_N j - 1)) by lia. rewrite N.pow_succ_r', (N.even_mul 2). apply orb_true_r.
  - unfold value. rewrite qN_mul, qN_pow2 by lia. rewrite <- Qmult_assoc, <- two_plus. replace (j + (e - j))%Z with e by lia. reflexivity.
Qed.

(** Two doubles with even significands that are both nearest to a number are the same. *)
Lemma even_alone r m e m' e' : double m e -> double m' e' -> N.even m = true -> N.even m' = true ->
  distance m e r == distance m' e' r -> (forall k f, double k f -> distance m e r <= distance k f r) -> m = m' /\ e = e'.
Proof.
  assert (SYM : forall m e m' e', double m e -> double m' e' -> N.even m = true -> N.even m' = true ->
    distance m e r == distance m' e' r -> (forall m' e', double m' e' -> distance m e r <= distance m' e' r) -> value m e < value m' e' -> False).
  { clear. intros m e m' e' D D' EV EV' EQ NR V.
    destruct (double_between _ _ _ _ D D' V EV EV') as (k & f & DK & K1 & K2).
    specialize (NR k f DK). unfold distance in *.
    set (v := value m e) in *. set (v' := value m' e') in *. set (w := value k f) in *.
    clearbody v v' w. clear D D' DK EV EV'.
    destruct (Qlt_le_dec v r) as [G|G]; destruct (Qlt_le_dec v' r) as [G'|G'].
    - rewrite !Qabs_neg in EQ by lra. lra.
    - rewrite (Qabs_neg (v - r)) in * by lra. rewrite (Qabs_pos (v' - r)) in * by lra.
      destruct (Qlt_le_dec w r); [rewrite Qabs_neg in NR by lra|rewrite Qabs_pos in NR by lra]; lra.
    - lra.
    - rewrite !Qabs_pos in EQ by lra. lra. }
  intros D D' EV EV' EQ NR. destruct (Q_dec (value m e) (value m' e')) as [[V|V]|V].
  - exfalso. exact (SYM m e m' e' D D' EV EV' EQ NR V).
  - exfalso. refine (SYM m' e' m e D' D EV' EV (Qeq_sym _ _ EQ) _ V). intros k f K. rewrite <- EQ. now apply NR.
  - now apply double_inj.
Qed.

(** The double [x] is a single. *)
Definition is_single (x : f64) : Prop := exists m e, single m e /\ x = widen m e.
(** [y] is the single nearest to d / 10^n. *)
Definition single_of (d n : N) (y : f64) : Prop := exists m e, nearest_single (qN d / qN (10 ^ n)) (Some (m, e)) /\ y = widen m e.
(** [y] is the single nearest to the decimal number that is written for the double [x]: digits, a point and digits. *)
Definition single_value (x y : f64) : Prop := exists a b,
  float_shown x = (a ++ "." ++ b)%string /\ all_chars digitb a = true /\ all_chars digitb b = true /\
  single_of (positional 10 (a ++ b)) (N.of_nat (String.length b)) y.

Lemma single_of_single d n y : single_of d n y -> is_single y.
Proof. intros (m & e & N & ->). inversion N; subst. now exists m, e. Qed.
Lemma single_of_unique d n y y' : single_of d n y -> single_of d n y' -> y = y'.
Proof. intros (m & e & N & ->) (m' & e' & N' & ->). pose proof (nearest_single_unique _ _ _ N N') as E. now injection E as -> ->. Qed.
Lemma single_of_exact d n x y : nearest (qN d / qN (10 ^ n)) x -> is_single x -> single_of d n y -> y = x.
Proof.
  intros N (m & e & S & ->) (m' & e' & N' & ->). set (r := qN d / qN (10 ^ n)) in *. clearbody r.
  inversion N' as [a b S' L' NR' T'|]; subst. destruct (widen_double m e S) as (M & E & W & D & EV & V). destruct (widen_double m' e' S') as (M' & E' & W' & D' & EV' & V').
  rewrite W in *. rewrite W'. inversion N as [a b _ L NR T|]; subst.
  assert (Q1 : distance M E r == distance m e r) by (unfold distance; rewrite V; reflexivity).
  assert (Q2 : distance M' E' r == distance m' e' r) by (unfold distance; rewrite V'; reflexivity).
  assert (EQ : distance M E r == distance M' E' r).
  { apply Qle_antisym; [now apply NR|]. rewrite Q1, Q2. now apply NR'. }
  destruct (even_alone r M E M' E' D D' EV EV' EQ NR) as [-> ->]. reflexivity.
Qed.

(** Below the limit the nearest single is finite. *)
Lemma range_limit m e r : single_range (F64Fin m e) = true -> nearest r (F64Fin m e) -> r < single_limit.
Proof.
  intros R N. assert (V : value m e < single_limit).
  { cbn [single_range] in R. apply Z.ltb_lt in R. rewrite Zlt_Qlt in R. rewrite !inject_Z_mult in R.
    assert (P : forall z, (0 <= z)%Z -> inject_Z (2 ^ z) == two ^ z). { intros z Z0. rewrite <- (qN_pow2 z Z0). unfold qN, pow2N. rewrite N2Z.inj_pow, Z2N.id by exact Z0. reflexivity. }
    rewrite !P in R by lia. change (inject_Z (2 ^ 128 - 2 ^ 103)) with single_limit in R. unfold value. pose proof (two_pos e) as PE. pose proof (two_pos (Z.max e 0)) as PA. pose proof (two_pos (Z.max (- e) 0)) as PB.
    assert (X : two ^ Z.max e 0 == two ^ e * two ^ Z.max (- e) 0). { rewrite <- two_plus. replace (e + Z.max (- e) 0)%Z with (Z.max e 0) by lia. reflexivity. }
    rewrite X, Qmult_assoc in R. apply Qmult_lt_r in R; [exact R|exact PB]. }
  destruct (Qlt_le_dec r single_limit) as [|G]; [assumption|exfalso]. inversion N as [a b D L NR T|]; subst.
  assert (DL : double ((2 ^ 25 - 1) * 2 ^ 28) 75) by (split; [reflexivity|split; [lia|left; now apply N.leb_le]]).
  assert (VL : value ((2 ^ 25 - 1) * 2 ^ 28) 75 == single_limit) by reflexivity.
  specialize (NR _ _ DL). unfold distance in NR. rewrite VL in NR. rewrite !Qabs_neg in NR by lra. lra.
Qed.

(** ** Decimal texts *)

Lemma f32_parts d n : nearest_single (qN d / qN (10 ^ N.of_nat n))
  (if (0 <=? - Z.of_nat n)%Z then f32_round (d * pow10N (- Z.of_nat n)) 1 else f32_round d (pow10N (- - Z.of_nat n))).
Proof.
  destruct n as [|n].
  - cbn [Z.of_nat Z.opp Z.leb Z.compare]. change (pow10N 0) with 1%N. apply f32_round_nearest_single. split; [reflexivity|]. rewrite N.mul_1_r. change (10 ^ N.of_nat 0)%N with 1%N. change (qN 1) with 1. field.
  - replace (0 <=? - Z.of_nat (S n))%Z with false by lia. rewrite Z.opp_involutive. apply f32_round_nearest_single. unfold pow10N. replace (Z.to_N (Z.of_nat (S n))) with (N.of_nat (S n)) by lia.
    apply frac_exists. apply N.neq_0_lt_0, N.pow_nonzero. discriminate.
Qed.
Lemma f64_parts d n : nearest (qN d / qN (10 ^ N.of_nat n)) (f64_of_dec d (- Z.of_nat n)).
Proof.
  unfold f64_of_dec. destruct n as [|n].
  - cbn [Z.of_nat Z.opp Z.leb Z.compare]. change (pow10N 0) with 1%N. apply f64_of_ratio_nearest. split; [reflexivity|]. rewrite N.mul_1_r. change (10 ^ N.of_nat 0)%N with 1%N. change (qN 1) with 1. field.
  - replace (0 <=? - Z.of_nat (S n))%Z with false by lia. rewrite Z.opp_involutive. apply f64_of_ratio_nearest. unfold pow10N. replace (Z.to_N (Z.of_nat (S n))) with (N.of_nat (S n)) by lia.
    apply frac_exists. apply N.neq_0_lt_0, N.pow_nonzero. discriminate.
Qed.
(** A text of digits whose double is [x] has a 32-bit float if [x] is in range. *)
Lemma f32_of_digits d n x : f64_of_dec d (- Z.of_nat n) = x -> single_range x = true -> exists y, f32_of_dec d (- Z.of_nat n) = y /\ y <> F64Inf /\ single_of d (N.of_nat n) y.
Proof.
  intros V R. pose proof (f64_parts d n) as N. rewrite V in N. pose proof (f32_parts d n) as S. unfold f32_of_dec. destruct x as [m e|]; [|discriminate R]. pose proof (range_limit m e _ R N) as L.
  destruct (if (0 <=? - Z.of_nat n)%Z then _ else _) as [[a b]|].
  - exists (widen a b). split; [reflexivity|]. split; [|exists a, b; split; [exact S|reflexivity]]. inversion S as [a' b' SS|]; subst. destruct (widen_double a b SS) as (M & E & -> & _). discriminate.
  - exfalso. inversion S as [|G]. lra.
Qed.

(** The parts of a text with a point are determined by it. *)
Lemma point_parts a : forall b a' b', all_chars digitb a = true -> all_chars digitb a' = true -> (a ++ "." ++ b)%string = (a' ++ "." ++ b')%string -> a = a' /\ b = b'.
Proof.
  induction a as [|c a IH]; intros b [|c' a'] b' A A' E; cbn [append] in E.
  - now injection E as ->.
  - exfalso. injection E as <- _. cbn [all_chars] in A'. apply andb_true_iff in A' as [A' _]. discriminate A'.
  - exfalso. injection E as -> _. cbn [all_chars] in A. apply andb_true_iff in A as [A _]. discriminate A.
  - cbn [all_chars] in A, A'. apply andb_true_iff in A as [_ A]. apply andb_true_iff in A' as [_ A']. injection E as -> E. destruct (IH b a' b' A A' E) as [-> ->]. now split.
Qed.
Lemma single_value_single x y : single_value x y -> is_single y.
Proof. intros (a & b & _ & _ & _ & S). exact (single_of_single _ _ _ S). Qed.
Lemma single_value_unique x y y' : single_value x y -> single_value x y' -> y = y'.
Proof.
  intros (a & b & E & A & B & S) (a' & b' & E' & A' & B' & S'). rewrite E in E'. destruct (point_parts a b a' b' A A' E') as [-> ->]. exact (single_of_unique _ _ _ _ S S').
Qed.
Lemma single_value_exact x y : is_single x -> single_value x y -> y = x.
Proof.
  intros I (a & b & E & A & B & S). assert (X : exists m e, x = F64Fin m e /\ double m e). { destruct I as (k & f & SS & ->). destruct (widen_double k f SS) as (m & e & W & D & _). now exists m, e. }
  destruct X as (m & e & -> & D). destruct (float_text_shape m e D) as (a' & b' & E' & A' & _ & B' & _ & V & _). rewrite E in E'. destruct (point_parts a b a' b' A A' E') as [-> ->].
  pose proof (f64_parts (positional 10 (a' ++ b')) (String.length b')) as N. rewrite V in N. exact (single_of_exact _ _ _ _ N I S).
Qed.

(** A half is a single. *)
Example half_single : is_single (f64_of_dec 5 (-1)).
Proof. exists (2 ^ 23)%N, (-24)%Z. split; [split; [reflexivity|split; [lia|now left]]|reflexivity]. Qed.
