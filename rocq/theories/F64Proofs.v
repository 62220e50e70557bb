(** The float conversions of F64.v meet F64Spec.v. *)
Require Import Coq.NArith.NArith Coq.ZArith.ZArith Coq.QArith.QArith Coq.QArith.Qabs Coq.QArith.Qpower.
Require Import Coq.micromega.Lia Coq.micromega.Lqa Coq.micromega.ZifyBool Coq.micromega.ZifyN.
Require Import Coq.Strings.String Coq.Strings.Ascii Coq.Lists.List.
Require Import Verif.Base Verif.F64 Verif.F64Spec.
Local Open Scope Q_scope.

Lemma two_pos e : 0 < two ^ e.
Proof. apply Qpower_0_lt. reflexivity. Qed.
Lemma two_plus a b : two ^ (a + b) == two ^ a * two ^ b.
Proof. apply Qpower_plus. discriminate. Qed.
Lemma two_mono a b : (a <= b)%Z -> two ^ a <= two ^ b.
Proof. intros H. apply Qpower_le_compat_l; [assumption|discriminate]. Qed.
Lemma two_smono a b : (a < b)%Z -> two ^ a < two ^ b.
Proof. intros H. apply Qpower_lt_compat_l; [assumption|reflexivity]. Qed.
Lemma two_succ e : two ^ (e + 1) == 2 * two ^ e.
Proof. rewrite two_plus. change (two ^ 1) with (2 # 1). ring. Qed.
Lemma two_neg e : two ^ (- e) * two ^ e == 1.
Proof. rewrite <- two_plus. replace (- e + e)%Z with 0%Z by lia. reflexivity. Qed.

Lemma qN_pow2 z : (0 <= z)%Z -> qN (pow2N z) == two ^ z.
Proof.
  intros H. unfold qN, pow2N. rewrite N2Z.inj_pow, Z2N.id by assumption.
  apply Zpower_Qpower. assumption.
Qed.
Lemma qN_mul a b : qN (a * b) == qN a * qN b.
Proof. unfold qN. rewrite N2Z.inj_mul, inject_Z_mult. reflexivity. Qed.
Lemma qN_add a b : qN (a + b) == qN a + qN b.
Proof. unfold qN. rewrite N2Z.inj_add, inject_Z_plus. reflexivity. Qed.
Lemma qN_le a b : (a <= b)%N <-> qN a <= qN b.
Proof. unfold qN. rewrite <- Zle_Qle. lia. Qed.
Lemma qN_lt a b : (a < b)%N <-> qN a < qN b.
Proof. unfold qN. rewrite <- Zlt_Qlt. lia. Qed.
Lemma qN_nonneg a : 0 <= qN a.
Proof. change 0 with (qN 0). apply qN_le. lia. Qed.
Lemma qN_inj a b : qN a == qN b -> a = b.
Proof. intros H. apply N.le_antisymm; apply qN_le; lra. Qed.
Lemma qN_2pow n : qN (2 ^ n) == two ^ Z.of_N n.
Proof.
  rewrite <- qN_pow2 by lia. unfold pow2N. rewrite N2Z.id. reflexivity.
Qed.

(** Fractions, as [x * den == num] to avoid division. *)
Definition frac_is (x : Q) (num den : N) : Prop := (0 < den)%N /\ x * qN den == qN num.

Lemma frac_exists num den : (0 < den)%N -> frac_is (qN num / qN den) num den.
Proof.
  intros H. split; [assumption|]. field. apply qN_lt in H. change (qN 0) with 0 in H. lra.
Qed.

Lemma frac_unique x y num den : frac_is x num den -> frac_is y num den -> x == y.
Proof.
  intros [P E] [_ E']. apply qN_lt in P. change (qN 0) with 0 in P.
  apply (Qmult_inj_r _ _ (qN den)); lra.
Qed.

Lemma scale2_frac x num den e a b : frac_is x num den -> scale2 num den e = (a, b) ->
  frac_is (x * two ^ (- e)) a b.
Proof.
  intros [P E] H. unfold scale2 in H. destruct (Z.leb_spec 0 e) as [L|L]; injection H as <- <-.
  - split.
    + assert (0 < pow2N e)%N; [|nia]. unfold pow2N. apply N.neq_0_lt_0. apply N.pow_nonzero. discriminate.
    + rewrite qN_mul, qN_pow2 by assumption.
      rewrite <- E. transitivity (x * qN den * (two ^ (- e) * two ^ e)); [ring|]. rewrite two_neg. ring.
  - split; [assumption|]. rewrite qN_mul, qN_pow2 by lia. rewrite <- E. ring.
Qed.

Lemma log2_bounds n : (0 < n)%N -> two ^ Z.of_N (N.log2 n) <= qN n < two ^ (Z.of_N (N.log2 n) + 1).
Proof.
  intros P. destruct (N.log2_spec n P) as [L U]. split.
  - rewrite <- qN_2pow. now apply qN_le.
  - apply qN_lt in U. rewrite qN_2pow in U. rewrite N2Z.inj_succ in U. exact U.
Qed.

Lemma floor_log2_spec x num den : (0 < num)%N -> frac_is x num den ->
  two ^ floor_log2 num den <= x < two ^ (floor_log2 num den + 1).
Proof.
  intros PN F. destruct F as [PD E]. unfold floor_log2.
  set (ln := Z.of_N (N.log2 num)). set (ld := Z.of_N (N.log2 den)).
  destruct (scale2 num den (ln - ld)) as [a b] eqn:S.
  pose proof (scale2_frac x num den _ a b (conj PD E) S) as [PB EB].
  destruct (log2_bounds num PN) as [N1 N2]. destruct (log2_bounds den PD) as [D1 D2].
  fold ln in N1, N2. fold ld in D1, D2.
  assert (QD : 0 < qN den) by (apply qN_lt in PD; exact PD).
  assert (QB : 0 < qN b) by (apply qN_lt in PB; exact PB).
  (* x < 2^(d+1) and 2^(d-1) < x *)
  assert (U : x < two ^ (ln - ld + 1)).
  { apply Qnot_le_lt. intros G.
    assert (two ^ (ln - ld + 1) * two ^ ld <= x * qN den).
    { apply Qmult_le_compat_nonneg; split; try assumption; apply Qlt_le_weak, two_pos. }
    rewrite <- two_plus in H. replace (ln - ld + 1 + ld)%Z with (ln + 1)%Z in H by lia. lra. }
  assert (LO : two ^ (ln - ld - 1) < x).
  { apply Qnot_le_lt. intros G.
    assert (x * qN den <= two ^ (ln - ld - 1) * two ^ (ld + 1)).
    { apply Qmult_le_compat_nonneg; split; try assumption; try lra.
      apply Qnot_lt_le. intros B. assert (x * qN den < 0 * qN den) by (apply Qmult_lt_compat_r; assumption).
      pose proof (two_pos ln). lra. }
    rewrite <- two_plus in H. replace (ln - ld - 1 + (ld + 1))%Z with ln in H by lia.
    assert (x * qN den < two ^ (ln - ld - 1) * two ^ (ld + 1)).
    { apply Qle_lt_trans with (two ^ (ln - ld - 1) * qN den).
      - apply Qmult_le_compat_r; lra.
      - rewrite (Qmult_comm _ (qN den)), (Qmult_comm _ (two ^ (ld + 1))).
        apply Qmult_lt_compat_r; [apply two_pos|assumption]. }
    rewrite <- two_plus in H0. replace (ln - ld - 1 + (ld + 1))%Z with ln in H0 by lia. lra. }
  assert (XS : x == x * two ^ (- (ln - ld)) * two ^ (ln - ld)).
  { rewrite <- Qmult_assoc, two_neg. ring. }
  destruct (N.leb_spec b a) as [C|C].
  - split; [|assumption].
    assert (1 <= x * two ^ (- (ln - ld))).
    { apply qN_le in C. apply Qnot_lt_le. intros G.
      assert (x * two ^ (- (ln - ld)) * qN b < 1 * qN b) by now apply Qmult_lt_compat_r. lra. }
    rewrite XS. assert (1 * two ^ (ln - ld) <= x * two ^ (- (ln - ld)) * two ^ (ln - ld)).
    { apply Qmult_le_compat_r; [assumption|]. apply Qlt_le_weak, two_pos. } lra.
  - split; [apply Qlt_le_weak, LO|]. replace (ln - ld - 1 + 1)%Z with (ln - ld)%Z by lia.
    assert (x * two ^ (- (ln - ld)) < 1).
    { apply qN_lt in C. apply Qnot_le_lt. intros G.
      assert (1 * qN b <= x * two ^ (- (ln - ld)) * qN b) by (apply Qmult_le_compat_r; lra). lra. }
    rewrite XS. assert (x * two ^ (- (ln - ld)) * two ^ (ln - ld) < 1 * two ^ (ln - ld)).
    { apply Qmult_lt_compat_r; [apply two_pos|assumption]. } lra.
Qed.

(** Rounding to an integer. *)
Lemma round_spec s a b : frac_is s a b ->
  Qabs (qN (round_half_even a b) - s) <= 1 # 2
  /\ (Qabs (qN (round_half_even a b) - s) == 1 # 2 -> N.even (round_half_even a b) = true).
Proof.
  intros [P E]. assert (QB : 0 < qN b) by (apply qN_lt in P; exact P).
  pose proof (N.div_mod a b ltac:(lia)) as D. pose proof (N.mod_lt a b ltac:(lia)) as M.
  unfold round_half_even. set (q := (a / b)%N) in *. set (r := (a mod b)%N) in *.
  assert (DQ : qN a == qN b * qN q + qN r) by (rewrite D, qN_add, qN_mul; reflexivity).
  assert (SQ : (s - qN q) * qN b == qN r) by (rewrite Qmult_minus_distr_r || idtac; lra).
  assert (R0 := qN_nonneg r). assert (RB : qN r < qN b) by now apply qN_lt.
  assert (S0 : 0 <= s - qN q).
  { apply Qnot_lt_le. intros G. assert ((s - qN q) * qN b < 0 * qN b) by now apply Qmult_lt_compat_r. lra. }
  assert (Q1 : qN (q + 1) == qN q + 1) by (rewrite qN_add; reflexivity).
  assert (T2 : qN (2 * r) == 2 * qN r) by (rewrite qN_mul; reflexivity).
  destruct (N.compare_spec (2 * r) b) as [C|C|C].
  - assert (H : 2 * qN r == qN b) by (rewrite <- T2, C; reflexivity).
    assert (HS : s - qN q == 1 # 2).
    { apply (Qmult_inj_r _ _ (qN b)); lra. }
    destruct (N.even q) eqn:EV.
    + split; [|now intros _]. apply Qabs_Qle_condition. lra.
    + split.
      * apply Qabs_Qle_condition. lra.
      * intros _. rewrite N.add_1_r, N.even_succ, <- N.negb_even, EV. reflexivity.
  - apply qN_lt in C. rewrite T2 in C.
    assert (HS : s - qN q < 1 # 2).
    { apply Qnot_le_lt. intros G. assert ((1 # 2) * qN b <= (s - qN q) * qN b) by (apply Qmult_le_compat_r; lra). lra. }
    split; [apply Qabs_Qle_condition; lra|]. intros A. exfalso.
    assert (Qabs (qN q - s) == - (qN q - s)) by (apply Qabs_neg; lra). lra.
  - apply qN_lt in C. rewrite T2 in C.
    assert (HS : 1 # 2 < s - qN q).
    { apply Qnot_le_lt. intros G. assert ((s - qN q) * qN b <= (1 # 2) * qN b) by (apply Qmult_le_compat_r; lra). lra. }
    assert (HS1 : s - qN q < 1).
    { apply Qnot_le_lt. intros G. assert (1 * qN b <= (s - qN q) * qN b) by (apply Qmult_le_compat_r; lra). lra. }
    split; [apply Qabs_Qle_condition; rewrite Q1; lra|]. intros A. exfalso.
    rewrite Qabs_pos in A; rewrite Q1 in *; lra.
Qed.

(** Two doubles with the same value are the same. *)
Lemma double_inj_aux m e m' e' : (m < 2 ^ 53)%N -> (-1074 <= e)%Z -> (e < e')%Z ->
  ((2 ^ 52 <= m')%N \/ e' = (-1074)%Z) -> ~ value m e == value m' e'.
Proof.
  intros M E L C H. destruct C as [C|C]; [|lia]. unfold value in H.
  replace e' with ((e' - e) + e)%Z in H by lia. rewrite two_plus in H.
  assert (H' : qN m == qN m' * two ^ (e' - e)).
  { apply (Qmult_inj_r _ _ (two ^ e)); [pose proof (two_pos e); lra|]. rewrite H. ring. }
  assert (G : qN m' * two ^ 1 <= qN m' * two ^ (e' - e)).
  { rewrite !(Qmult_comm (qN m')). apply Qmult_le_compat_r; [|apply qN_nonneg]. apply two_mono. lia. }
  change (two ^ 1) with (2 # 1) in G.
  apply qN_lt in M. apply qN_le in C.
  assert (E53 : qN (2 ^ 53) == 2 * qN (2 ^ 52)) by reflexivity. lra.
Qed.

Lemma double_inj m e m' e' : double m e -> double m' e' -> value m e == value m' e' ->
  m = m' /\ e = e'.
Proof.
  intros (M & E & C) (M' & E' & C') H. destruct (Z.lt_trichotomy e e') as [L|[L|L]].
  - exfalso. eapply double_inj_aux; [| | |exact C'|exact H]; lia || assumption.
  - subst e'. split; [|reflexivity]. apply qN_inj. unfold value in H.
    apply (Qmult_inj_r _ _ (two ^ e)); [pose proof (two_pos e); lra|assumption].
  - exfalso. symmetry in H. eapply double_inj_aux; [| | |exact C|exact H]; lia || assumption.
Qed.

Lemma int_far n m s : n <> m -> 1 <= Qabs (qN n - s) + Qabs (qN m - s).
Proof.
  intros H. assert (D : qN n + 1 <= qN m \/ qN m + 1 <= qN n).
  { assert (C : (n + 1 <= m \/ m + 1 <= n)%N) by lia. destruct C as [C|C]; apply qN_le in C;
      rewrite qN_add in C; change (qN 1) with 1 in C; auto. }
  pose proof (Qle_Qabs (qN n - s)). pose proof (Qle_Qabs (qN m - s)).
  pose proof (Qle_Qabs (- (qN n - s))) as A. pose proof (Qle_Qabs (- (qN m - s))) as B.
  rewrite Qabs_opp in A, B. destruct D; lra.
Qed.

Lemma dist_scaled m e x : distance m e x == Qabs (qN m - x * two ^ (- e)) * two ^ e.
Proof.
  unfold distance, value.
  assert (X : x == x * two ^ (- e) * two ^ e) by (rewrite <- Qmult_assoc, two_neg; ring).
  transitivity (Qabs ((qN m - x * two ^ (- e)) * two ^ e)).
  - apply Qabs_wd. rewrite X at 1. ring.
  - rewrite Qabs_Qmult, (Qabs_pos (two ^ e)) by (apply Qlt_le_weak, two_pos). reflexivity.
Qed.

Section Core.
  Variables (x : Q) (e : Z) (m : N).
  Let s := x * two ^ (- e).
  Hypothesis NEAR : Qabs (qN m - s) <= 1 # 2.
  Hypothesis TIE : Qabs (qN m - s) == 1 # 2 -> N.even m = true.
  Hypothesis LOW : qN (2 ^ 52) <= s \/ e = (-1074)%Z.

  Lemma near_int n : Qabs (qN m - s) <= Qabs (qN n - s).
  Proof.
    destruct (N.eq_dec n m) as [->|H]; [apply Qle_refl|]. pose proof (int_far n m s H). lra.
  Qed.

  Lemma near_core m' e' : (m' < 2 ^ 53)%N -> (-1074 <= e')%Z ->
    distance m e x <= distance m' e' x
    /\ (distance m e x == distance m' e' x -> value m' e' == value m e \/ N.even m = true).
  Proof.
    intros M' E'. rewrite dist_scaled. fold s.
    assert (D' : distance m' e' x == Qabs (qN m' * two ^ (e' - e) - s) * two ^ e).
    { unfold distance, value, s.
      assert (X : x == x * two ^ (- e) * two ^ e) by (rewrite <- Qmult_assoc, two_neg; ring).
      transitivity (Qabs ((qN m' * two ^ (e' - e) - x * two ^ (- e)) * two ^ e)).
      - apply Qabs_wd. rewrite X at 1. replace e' with (e' - e + e)%Z at 1 by lia. rewrite two_plus. ring.
      - rewrite Qabs_Qmult, (Qabs_pos (two ^ e)) by (apply Qlt_le_weak, two_pos). reflexivity. }
    rewrite D'. pose proof (two_pos e) as P.
    destruct (Z.le_gt_cases e e') as [L|L].
    - set (n := (m' * pow2N (e' - e))%N).
      assert (EN : qN m' * two ^ (e' - e) == qN n).
      { unfold n. rewrite qN_mul, qN_pow2 by lia. reflexivity. }
      rewrite EN. split.
      + apply Qmult_le_compat_r; [apply near_int|lra].
      + intros H. destruct (N.eq_dec n m) as [->|NE].
        * left. unfold value. rewrite <- EN. rewrite <- Qmult_assoc, <- two_plus.
          replace (e' - e + e)%Z with e' by lia. reflexivity.
        * right. apply TIE. pose proof (int_far n m s NE).
          apply Qmult_inj_r in H; [lra|lra].
    - destruct LOW as [LW|LW]; [|lia].
      assert (Y : qN m' * two ^ (e' - e) < qN (2 ^ 52)).
      { assert (T : two ^ (e' - e) <= 1 # 2).
        { change (1 # 2) with (two ^ (-1)). apply two_mono. lia. }
        pose proof (two_pos (e' - e)). apply qN_lt in M'.
        assert (qN m' * two ^ (e' - e) <= qN m' * (1 # 2)).
        { rewrite !(Qmult_comm (qN m')). apply Qmult_le_compat_r; [assumption|apply qN_nonneg]. }
        assert (E53 : qN (2 ^ 53) == 2 * qN (2 ^ 52)) by reflexivity. lra. }
      pose proof (near_int (2 ^ 52)) as N1.
      rewrite (Qabs_neg (qN (2 ^ 52) - s)) in N1 by lra.
      assert (A : Qabs (qN m' * two ^ (e' - e) - s) == - (qN m' * two ^ (e' - e) - s)).
      { apply Qabs_neg. lra. }
      assert (B : Qabs (qN m - s) < Qabs (qN m' * two ^ (e' - e) - s)) by lra.
      split.
      + apply Qmult_le_compat_r; lra.
      + intros H. apply Qmult_inj_r in H; lra.
  Qed.
End Core.

Lemma limit_alt : overflow_limit == (qN (2 ^ 53) - (1 # 2)) * two ^ 971.
Proof.
  unfold overflow_limit. replace 971%Z with (970 + 1)%Z by lia. rewrite two_succ.
  assert (inject_Z (2 ^ 54 - 1) == (qN (2 ^ 53) - (1 # 2)) * 2) by reflexivity.
  rewrite H. ring.
Qed.

Theorem f64_of_ratio_nearest x num den : frac_is x num den -> nearest x (f64_of_ratio num den).
Proof.
  intros F. unfold f64_of_ratio. destruct num as [|p].
  { (* zero *)
    assert (X : x == 0).
    { destruct F as [P E]. apply qN_lt in P. change (qN 0) with 0 in *. apply (Qmult_inj_r _ _ (qN den)); lra. }
    assert (D0 : distance 0 (-1074) x == 0).
    { unfold distance, value. change (qN 0) with 0. rewrite X. rewrite Qmult_0_l. reflexivity. }
    apply ne_fin.
    - split; [reflexivity|]. split; [lia|now right].
    - rewrite X. unfold overflow_limit.
      apply Qmult_lt_0_compat; [reflexivity|apply two_pos].
    - intros m' e' _. rewrite D0. apply Qabs_nonneg.
    - intros. right. reflexivity. }
  set (num := N.pos p) in *.
  assert (PN : (0 < num)%N) by reflexivity.
  destruct (floor_log2_spec x num den PN F) as [L1 L2].
  set (L := floor_log2 num den) in *. set (e := Z.max (L - 52) (-1074)).
  destruct (scale2 num den e) as [a b] eqn:S.
  apply (scale2_frac x) in S; [|assumption]. destruct (round_spec _ _ _ S) as [NEAR TIE].
  set (m := round_half_even a b) in *. clearbody m. clear S a b.
  set (s := x * two ^ (- e)) in *.
  assert (EG : (-1074 <= e)%Z) by lia.
  assert (XS : x == s * two ^ e) by (unfold s; rewrite <- Qmult_assoc, two_neg; ring).
  pose proof (two_pos (- e)) as P'. pose proof (two_pos e) as P.
  assert (SP : 0 < s).
  { unfold s. apply Qmult_lt_0_compat; [|assumption]. pose proof (two_pos L). lra. }
  assert (SU : s < qN (2 ^ 53)).
  { unfold s. apply Qlt_le_trans with (two ^ (L + 1) * two ^ (- e)).
    - apply Qmult_lt_compat_r; assumption.
    - rewrite <- two_plus, qN_2pow. apply two_mono. lia. }
  assert (LOW : qN (2 ^ 52) <= s \/ e = (-1074)%Z).
  { destruct (Z.le_gt_cases (-1074) (L - 52)) as [G|G]; [left|right; lia].
    rewrite qN_2pow. unfold s. apply Qle_trans with (two ^ L * two ^ (- e)).
    - rewrite <- two_plus. apply two_mono. lia.
    - apply Qmult_le_compat_r; lra. }
  assert (MQ : qN m <= s + (1 # 2) /\ s - (1 # 2) <= qN m).
  { apply Qabs_Qle_condition in NEAR. lra. }
  assert (MU : (m <= 2 ^ 53)%N).
  { destruct (N.le_gt_cases m (2 ^ 53)) as [|G]; [assumption|exfalso].
    assert (G' : (2 ^ 53 + 1 <= m)%N) by lia. apply qN_le in G'. rewrite qN_add in G'.
    change (qN 1) with 1 in G'. lra. }
  assert (ML : (2 ^ 52 <= m)%N \/ e = (-1074)%Z).
  { destruct LOW as [LW|LW]; [left|now right].
    destruct (N.le_gt_cases (2 ^ 52) m) as [|G]; [assumption|exfalso].
    assert (G' : (m + 1 <= 2 ^ 52)%N) by lia. apply qN_le in G'. rewrite qN_add in G'.
    change (qN 1) with 1 in G'. lra. }
  assert (E53 : qN (2 ^ 53) == 2 * qN (2 ^ 52)) by reflexivity.
  pose proof (near_core x e m NEAR TIE LOW) as CORE.
  (* the normalised result *)
  assert (R : exists m1 e1,
    (if (m =? 2 ^ 53)%N then ((2 ^ 52)%N, (e + 1)%Z) else (m, e)) = (m1, e1)
    /\ value m1 e1 == value m e /\ (N.even m = true -> N.even m1 = true)
    /\ (m1 < 2 ^ 53)%N /\ (-1074 <= e1)%Z /\ ((2 ^ 52 <= m1)%N \/ e1 = (-1074)%Z)
    /\ ((971 < e1)%Z -> overflow_limit <= x) /\ ((e1 <= 971)%Z -> x < overflow_limit)).
  { destruct (N.eqb_spec m (2 ^ 53)) as [EQ|NE]; eexists _, _; split; try reflexivity.
    - split. { subst m. unfold value. rewrite two_succ, E53. ring. }
      split; [reflexivity|]. split; [reflexivity|]. split; [lia|]. split; [left; reflexivity|].
      subst m. rewrite limit_alt. split.
      + intros G. rewrite XS.
        apply Qle_trans with (s * two ^ 971).
        * apply Qmult_le_compat_r; [lra|apply Qlt_le_weak, two_pos].
        * rewrite !(Qmult_comm s). apply Qmult_le_compat_r; [apply two_mono; lia|].
          lra.
      + intros G. rewrite XS. apply Qle_lt_trans with (s * two ^ 970).
        * rewrite !(Qmult_comm s). apply Qmult_le_compat_r; [apply two_mono; lia|]. lra.
        * replace 971%Z with (970 + 1)%Z by lia. rewrite two_succ. pose proof (two_pos 970).
          assert (s * two ^ 970 < qN (2 ^ 53) * two ^ 970) by (apply Qmult_lt_compat_r; assumption).
          assert (qN (2 ^ 53) * two ^ 970 <= ((qN (2 ^ 53) - (1 # 2)) * 2) * two ^ 970).
          { apply Qmult_le_compat_r; [|lra]. change (qN (2 ^ 53)) with (inject_Z (2 ^ 53)). now compute. }
          lra.
    - split; [reflexivity|]. split; [auto|]. split; [lia|]. split; [assumption|]. split; [assumption|].
      rewrite limit_alt. split.
      + intros G. destruct LOW as [LW|LW]; [|lia].
        apply Qle_trans with (qN (2 ^ 53) * two ^ 971).
        * apply Qmult_le_compat_r; [lra|apply Qlt_le_weak, two_pos].
        * rewrite XS. apply Qle_trans with (s * two ^ 972).
          -- replace 972%Z with (971 + 1)%Z by lia. rewrite two_succ, E53.
             assert (qN (2 ^ 52) * (2 * two ^ 971) <= s * (2 * two ^ 971)).
             { apply Qmult_le_compat_r; [assumption|]. pose proof (two_pos 971). lra. } lra.
          -- rewrite !(Qmult_comm s). apply Qmult_le_compat_r; [apply two_mono; lia|].
             pose proof (qN_nonneg (2 ^ 52)). lra.
      + intros G. destruct (Z.eq_dec e 971) as [E1|E1].
        * rewrite XS, E1. apply Qmult_lt_compat_r; [apply two_pos|].
          assert (M1 : qN m + 1 <= qN (2 ^ 53)).
          { assert (G' : (m + 1 <= 2 ^ 53)%N) by lia. apply qN_le in G'. rewrite qN_add in G'. exact G'. }
          destruct (Qlt_le_dec s (qN (2 ^ 53) - (1 # 2))) as [|G']; [assumption|exfalso].
          assert (SE : s == qN (2 ^ 53) - (1 # 2)) by lra.
          assert (ME : qN m == qN (2 ^ 53 - 1)).
          { change (qN (2 ^ 53 - 1)) with (qN (2 ^ 53) - 1). lra. }
          apply qN_inj in ME.
          assert (EV : N.even m = true).
          { apply TIE. rewrite Qabs_neg by lra.
            change (qN (2 ^ 53 - 1)) with (qN (2 ^ 53) - 1) in *. rewrite ME.
            change (qN (2 ^ 53 - 1)) with (qN (2 ^ 53) - 1). lra. }
          rewrite ME in EV. discriminate.
        * rewrite XS. apply Qlt_le_trans with (qN (2 ^ 53) * two ^ e).
          { apply Qmult_lt_compat_r; assumption. }
          apply Qle_trans with (qN (2 ^ 53) * two ^ 970).
          { rewrite !(Qmult_comm (qN (2 ^ 53))). apply Qmult_le_compat_r; [apply two_mono; lia|apply qN_nonneg]. }
          replace 971%Z with (970 + 1)%Z by lia. rewrite two_succ. pose proof (two_pos 970).
          assert (qN (2 ^ 53) * two ^ 970 <= ((qN (2 ^ 53) - (1 # 2)) * 2) * two ^ 970).
          { apply Qmult_le_compat_r; [|lra]. change (qN (2 ^ 53)) with (inject_Z (2 ^ 53)). now compute. }
          lra. }
  destruct R as (m1 & e1 & -> & V & EV & M1 & E1 & C1 & OV & NO).
  assert (DV : distance m1 e1 x == distance m e x).
  { unfold distance. rewrite V. reflexivity. }
  destruct (Z.ltb_spec 971 e1) as [G|G]; [apply ne_inf; auto|].
  assert (DB : double m1 e1) by (split; [assumption|split; [lia|assumption]]).
  apply ne_fin; auto.
  - intros m' e' (A & B & C). rewrite DV. apply CORE; lia || assumption.
  - intros m' e' D H. rewrite DV in H. destruct D as (A & B & C) eqn:DD. clear DD.
    destruct (CORE m' e' A ltac:(lia)) as [_ K]. destruct (K H) as [K'|K']; [left|right; auto].
    apply double_inj; [split; [assumption|split; assumption]|assumption|]. rewrite V. exact K'.
Qed.

(** A double is its own nearest double. *)
Lemma nearest_exact m e y : double m e -> nearest (value m e) y -> y = F64Fin m e.
Proof.
  intros D N. assert (D0 : distance m e (value m e) == 0).
  { unfold distance. transitivity (Qabs 0); [apply Qabs_wd; ring|reflexivity]. }
  inversion N as [m1 e1 D1 L NR T|L]; subst.
  - pose proof (NR _ _ D) as H. rewrite D0 in H. unfold distance in H.
    assert (Z0 : value m1 e1 == value m e).
    { apply Qabs_Qle_condition in H. lra. }
    destruct (double_inj _ _ _ _ D1 D Z0) as [-> ->]. reflexivity.
  - exfalso. destruct D as (M & E & _). rewrite limit_alt in L. unfold value in L.
    assert (B : qN m * two ^ e <= (qN (2 ^ 53) - 1) * two ^ 971).
    { apply Qle_trans with (qN m * two ^ 971).
      - rewrite !(Qmult_comm (qN m)). apply Qmult_le_compat_r; [apply two_mono; lia|apply qN_nonneg].
      - apply Qmult_le_compat_r; [|apply Qlt_le_weak, two_pos].
        assert (G : (m + 1 <= 2 ^ 53)%N) by lia. apply qN_le in G. rewrite qN_add in G.
        change (qN 1) with 1 in G. lra. }
    pose proof (two_pos 971). lra.
Qed.

Lemma f64_of_ratio_exact m e num den : double m e -> frac_is (value m e) num den ->
  f64_of_ratio num den = F64Fin m e.
Proof. intros D F. apply nearest_exact; [assumption|]. now apply f64_of_ratio_nearest. Qed.

(** Results are doubles. *)
Lemma nearest_double x m e : nearest x (F64Fin m e) -> double m e.
Proof. intros N. now inversion N. Qed.

(** Two doubles with even significands have another double between them. *)
Lemma double_between m e m' e' : double m e -> double m' e' -> value m e < value m' e' ->
  N.even m = true -> N.even m' = true ->
  exists k f, double k f /\ value m e < value k f < value m' e'.
Proof.
  intros (M & E & L) (M' & E' & L') V EV EV'. exists (m + 1)%N, e.
  assert (P := two_pos e).
  assert (MM : (m + 1 < 2 ^ 53)%N).
  { destruct (N.eq_dec (m + 1) (2 ^ 53)) as [H|H]; [|lia]. exfalso.
    assert (m = 2 ^ 53 - 1)%N by lia. subst m. discriminate EV. }
  split; [split; [exact MM|split; [exact E|destruct L; [left; lia|now right]]]|].
  split.
  { unfold value. apply Qmult_lt_compat_r; [assumption|]. rewrite qN_add. change (qN 1) with 1. lra. }
  destruct (Z.le_gt_cases e e') as [G|G].
  - assert (VE : value m' e' == qN (m' * pow2N (e' - e)) * two ^ e).
    { unfold value. rewrite qN_mul, qN_pow2 by lia. rewrite <- Qmult_assoc, <- two_plus.
      replace (e' - e + e)%Z with e' by lia. reflexivity. }
    rewrite VE in *. unfold value in *. apply Qmult_lt_compat_r; [assumption|].
    assert (K : (m < m' * pow2N (e' - e))%N).
    { apply qN_lt. apply Qmult_lt_r in V; assumption. }
    apply qN_lt. destruct (N.eq_dec (m' * pow2N (e' - e)) (m + 1)) as [H|H]; [exfalso|lia].
    assert (X : N.even (m' * pow2N (e' - e)) = true) by (rewrite N.even_mul, EV'; reflexivity).
    rewrite H, N.even_add, EV in X. discriminate X.
  - exfalso. destruct L as [L|L]; [|lia]. unfold value in V.
    assert (A : qN (2 ^ 53) * two ^ e' <= qN m * two ^ e).
    { apply Qle_trans with (qN (2 ^ 52) * two ^ (e' + 1)).
      - rewrite two_succ. assert (E53 : qN (2 ^ 53) == 2 * qN (2 ^ 52)) by reflexivity. rewrite E53.
        assert (Q : 2 * qN (2 ^ 52) * two ^ e' == qN (2 ^ 52) * (2 * two ^ e')) by ring. rewrite Q. apply Qle_refl.
      - apply Qle_trans with (qN (2 ^ 52) * two ^ e).
        + rewrite !(Qmult_comm (qN (2 ^ 52))). apply Qmult_le_compat_r; [apply two_mono; lia|apply qN_nonneg].
        + apply Qmult_le_compat_r; [now apply qN_le|lra]. }
    assert (B : qN m' * two ^ e' <= qN (2 ^ 53) * two ^ e').
    { apply Qmult_le_compat_r; [apply qN_le; lia|apply Qlt_le_weak, two_pos]. }
    lra.
Qed.

(** The nearest double is unique. *)
Lemma nearest_unique r x y : nearest r x -> nearest r y -> x = y.
Proof.
  intros H H'. destruct H as [m e D L NR T|L]; destruct H' as [m' e' D' L' NR' T'|L']; try reflexivity;
    try (exfalso; lra).
  assert (EQ : distance m e r == distance m' e' r) by (apply Qle_antisym; auto).
  destruct (T _ _ D' EQ) as [[-> ->]|EV]; [reflexivity|].
  destruct (T' _ _ D (Qeq_sym _ _ EQ)) as [[-> ->]|EV']; [reflexivity|].
  assert (SYM : forall m e m' e', double m e -> double m' e' -> N.even m = true -> N.even m' = true ->
    distance m e r == distance m' e' r -> (forall m' e', double m' e' -> distance m e r <= distance m' e' r) ->
    value m e < value m' e' -> False).
  { clear. intros m e m' e' D D' EV EV' EQ NR V.
    destruct (double_between _ _ _ _ D D' V EV EV') as (k & f & DK & K1 & K2).
    specialize (NR k f DK). unfold distance in *.
    set (v := value m e) in *. set (v' := value m' e') in *. set (w := value k f) in *.
    clearbody v v' w. clear D D' DK EV EV'.
    destruct (Qlt_le_dec v r) as [G|G]; destruct (Qlt_le_dec v' r) as [G'|G'].
    - rewrite !Qabs_neg in EQ by lra. lra.
    - rewrite (Qabs_neg (v - r)) in * by lra. rewrite (Qabs_pos (v' - r)) in * by lra.
      destruct (Qlt_le_dec w r); [rewrite Qabs_neg in NR by lra|rewrite Qabs_pos in NR by lra]; lra.
    - lra.
    - rewrite !Qabs_pos in EQ by lra. lra. }
  destruct (Q_dec (value m e) (value m' e')) as [[V|V]|V].
  - exfalso. eapply (SYM m e m' e'); eassumption.
  - exfalso. eapply (SYM m' e' m e); try eassumption. now symmetry.
  - destruct (double_inj _ _ _ _ D D' V) as [-> ->]. reflexivity.
Qed.
