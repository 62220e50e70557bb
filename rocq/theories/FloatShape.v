(** The decimal text of a double with [.0] added if the double is an integer (src/swift/ir.rs and src/kotlin/ir.rs): it
    always has digits, one point and digits, and these digits denote the double. *)
Require Import Coq.Strings.String Coq.Strings.Ascii.
Require Import Coq.NArith.NArith Coq.ZArith.ZArith Coq.QArith.QArith Coq.QArith.Qabs Coq.QArith.Qpower Coq.Lists.List Coq.Bool.Bool Coq.Arith.PeanoNat Coq.micromega.Lia Coq.micromega.Lqa.
Require Import Verif.Base Verif.F64 Verif.F64Spec Verif.F64Proofs Verif.LexSpec Verif.LexProofs Verif.NumText.
Import ListNotations.
Local Open Scope string_scope.

(** ** The length of a decimal text *)

Lemma show_N_aux_len fuel : forall n acc, (0 < n)%N -> (n < 2 ^ N.of_nat fuel)%N ->
  (String.length acc < String.length (show_N_aux fuel n acc))%nat /\
  (10 ^ N.of_nat (String.length (show_N_aux fuel n acc) - String.length acc - 1) <= n)%N.
Proof.
  induction fuel as [|fuel IH]; intros n acc P B; [cbn in B; lia|]. cbn [show_N_aux].
  pose proof (N.div_eucl_spec n 10) as E. destruct (N.div_eucl n 10) as [q r]. destruct q as [|q].
  - cbn [String.length]. split; [lia|]. replace (S (String.length acc) - String.length acc - 1)%nat with 0%nat by lia. change (10 ^ N.of_nat 0)%N with 1%N. lia.
  - rewrite Nat2N.inj_succ, N.pow_succ_r' in B.
    destruct (IH (N.pos q) (String (digit_char r) acc) ltac:(lia) ltac:(lia)) as [L H]. cbn [String.length] in L, H. split; [lia|].
    set (len := String.length (show_N_aux fuel (N.pos q) (String (digit_char r) acc))) in *.
    replace (len - String.length acc - 1)%nat with (S (len - S (String.length acc) - 1))%nat by lia.
    rewrite Nat2N.inj_succ, N.pow_succ_r'. lia.
Qed.
Lemma show_N_len n : (0 < n)%N -> (1 <= String.length (show_N n))%nat /\ (10 ^ N.of_nat (String.length (show_N n) - 1) <= n)%N.
Proof.
  intros P. destruct (show_N_aux_len _ n "" P (size_bound n)) as [L H]. unfold show_N. cbn [String.length] in L, H.
  rewrite Nat.sub_0_r in H. split; [lia|exact H].
Qed.
Lemma show_N_short n : (0 < n < 2 ^ 53)%N -> (String.length (show_N n) <= 16)%nat.
Proof.
  intros [P B]. destruct (show_N_len n P) as [L H]. destruct (Nat.le_gt_cases (String.length (show_N n)) 16) as [G|G]; [exact G|exfalso].
  assert (10 ^ 16 <= 10 ^ N.of_nat (String.length (show_N n) - 1))%N by (apply N.pow_le_mono_r; lia).
  assert (2 ^ 53 < 10 ^ 16)%N by reflexivity. lia.
Qed.

(** ** Integers *)

(** The integer that a double is. *)
Definition integer_of (m : N) (e : Z) : N := if (0 <=? e)%Z then (m * pow2N e)%N else (m / pow2N (- e))%N.

Lemma pow2_pos z : (0 < pow2N z)%N.
Proof. unfold pow2N. apply N.neq_0_lt_0, N.pow_nonzero. discriminate. Qed.

Lemma integral_frac m e num den : f64_is_integral (F64Fin m e) = true -> frac_of m e = (num, den) ->
  (0 < den)%N /\ num = (integer_of m e * den)%N.
Proof.
  cbn [f64_is_integral]. unfold frac_of, integer_of. destruct (0 <=? e)%Z.
  - intros _ [= <- <-]. split; lia.
  - intros M [= <- <-]. pose proof (pow2_pos (- e)) as P. split; [exact P|]. apply N.eqb_eq in M.
    pose proof (N.div_mod m (pow2N (- e)) ltac:(lia)) as D. rewrite M in D. lia.
Qed.
Lemma integer_value m e : f64_is_integral (F64Fin m e) = true -> value m e == qN (integer_of m e).
Proof.
  cbn [f64_is_integral]. unfold integer_of, value. destruct (Z.leb_spec 0 e) as [L|L].
  - intros _. rewrite qN_mul, qN_pow2 by assumption. reflexivity.
  - intros M. pose proof (pow2_pos (- e)) as P. apply N.eqb_eq in M. pose proof (N.div_mod m (pow2N (- e)) ltac:(lia)) as D. rewrite M, N.add_0_r in D.
    assert (E : qN m == two ^ (- e) * qN (m / pow2N (- e))) by (rewrite D at 1; rewrite qN_mul, qN_pow2 by lia; reflexivity).
    rewrite E. transitivity (qN (m / pow2N (- e)) * (two ^ (- e) * two ^ e)); [ring|]. rewrite two_neg. ring.
Qed.

Lemma strip_zeros_up f : forall d k d' k', strip_zeros f d k = (d', k') -> (k <= k')%Z.
Proof.
  induction f as [|f IH]; intros d k d' k'; cbn [strip_zeros]; [intros [= _ <-]; lia|].
  destruct (d =? 0)%N; [intros [= _ <-]; lia|]. destruct (d mod 10 =? 0)%N; [|intros [= _ <-]; lia]. intros H. apply IH in H. lia.
Qed.

Lemma candidate_exponent x num den n d k : dec_candidate x num den n = Some (d, k) -> k = (floor_log10 num den - Z.of_nat n + 1)%Z.
Proof.
  unfold dec_candidate. cbn zeta. destruct (if (0 <=? _)%Z then _ else _) as [a b].
  match goal with |- (if ?x then _ else _) = _ -> _ => destruct x end; [now intros [= _ <-]|].
  match goal with |- (if ?x then _ else _) = _ -> _ => destruct x end; [now intros [= _ <-]|discriminate].
Qed.

(** An integer is found with no more digits than it has. *)
Lemma integer_exponent m e : double m e -> m <> 0%N -> f64_is_integral (F64Fin m e) = true -> (0 <= snd (choose_dec m e))%Z.
Proof.
  intros D NZ I. unfold choose_dec. destruct (frac_of m e) as [num den] eqn:F. destruct (integral_frac m e num den I F) as [DP E].
  assert (VP : (0 < integer_of m e)%N).
  { destruct (N.eq_dec (integer_of m e) 0) as [Z0|]; [|lia]. exfalso. rewrite Z0 in E. unfold frac_of in F. destruct (0 <=? e)%Z; injection F as <- <-; [|lia].
    pose proof (pow2_pos e). nia. }
  set (v := integer_of m e) in *.
  assert (LOG : floor_log10 num den = (Z.of_nat (String.length (show_N v)) - 1)%Z).
  { unfold floor_log10. replace (den <=? num)%N with true by (symmetry; apply N.leb_le; nia). subst num. rewrite N.div_mul by lia. reflexivity. }
  destruct (show_N_len v VP) as [LEN _].
  assert (X : f64_of_dec v 0 = F64Fin m e).
  { unfold f64_of_dec. cbn [Z.leb Z.compare]. apply f64_of_ratio_exact; [assumption|]. split; [reflexivity|]. change (pow10N 0) with 1%N. rewrite N.mul_1_r.
    rewrite (integer_value m e I). fold v. change (qN 1) with 1%Q. ring. }
  assert (FOUND : (String.length (show_N v) <= 17)%nat -> dec_candidate (F64Fin m e) num den (String.length (show_N v)) <> None).
  { intros _. unfold dec_candidate. cbn zeta. rewrite LOG. replace (Z.of_nat (String.length (show_N v)) - 1 - Z.of_nat (String.length (show_N v)) + 1)%Z with 0%Z by lia.
    cbn [Z.leb Z.compare]. change (pow10N 0) with 1%N. rewrite N.mul_1_r. rewrite E, N.div_mul, N.mod_mul by lia. rewrite X. cbn [N.mul].
    assert (RF : f64_eqb (F64Fin m e) (F64Fin m e) = true) by (cbn; now rewrite N.eqb_refl, Z.eqb_refl). rewrite RF.
    replace (0 <=? den)%N with true by (symmetry; apply N.leb_le; lia). cbn [andb orb]. discriminate. }
  assert (LOOP : forall t n, (n + t = 18)%nat -> (1 <= n <= String.length (show_N v))%nat ->
    match shortest_dec (F64Fin m e) num den t n with Some (d, k) => (0 <= k)%Z | None => (17 < String.length (show_N v))%nat end).
  { induction t as [|t IHt]; intros n T N; cbn [shortest_dec]; [lia|].
    destruct (dec_candidate (F64Fin m e) num den n) as [[d k]|] eqn:C.
    - apply candidate_exponent in C. rewrite LOG in C. lia.
    - destruct (Nat.eq_dec n (String.length (show_N v))) as [Q|Q].
      + exfalso. apply FOUND; [lia|]. now rewrite <- Q.
      + apply IHt; lia. }
  specialize (LOOP 17%nat 1%nat eq_refl ltac:(lia)). destruct (shortest_dec (F64Fin m e) num den 17 1) as [[d k]|].
  - destruct (strip_zeros 20 d k) as [d' k'] eqn:S. apply strip_zeros_up in S. destruct (f64_eqb _ _); cbn [snd]; lia.
  - destruct (Z.leb_spec 0 e) as [L|L]; cbn [snd]; [lia|exfalso].
    assert (B : (v < 2 ^ 53)%N).
    { destruct D as (MB & _ & _). unfold v, integer_of. replace (0 <=? e)%Z with false by lia. pose proof (pow2_pos (- e)). apply N.le_lt_trans with m; [|exact MB].
      apply N.div_le_upper_bound; [lia|]. nia. }
    pose proof (show_N_short v (conj VP B)). lia.
Qed.

(** ** Doubles that are not integers *)

(** Every integer below 2^53 is a double. *)
Lemma small_integer n : (0 < n < 2 ^ 53)%N -> exists m e, double m e /\ value m e == qN n /\ f64_is_integral (F64Fin m e) = true.
Proof.
  intros [P B]. pose proof (N.log2_spec n P) as [L1 L2]. set (l := N.log2 n) in *.
  assert (LB : (l <= 52)%N).
  { destruct (N.le_gt_cases l 52) as [G|G]; [exact G|exfalso]. assert (2 ^ 53 <= 2 ^ l)%N by (apply N.pow_le_mono_r; lia). lia. }
  exists (n * 2 ^ (52 - l))%N, (Z.of_N l - 52)%Z. split; [|split].
  - unfold double. assert (S : (2 ^ 52 = 2 ^ l * 2 ^ (52 - l))%N) by (rewrite <- N.pow_add_r; f_equal; lia).
    assert (S3 : (2 ^ 53 = 2 ^ N.succ l * 2 ^ (52 - l))%N) by (rewrite <- N.pow_add_r; f_equal; lia).
    assert (PP : (0 < 2 ^ (52 - l))%N) by (apply N.neq_0_lt_0, N.pow_nonzero; discriminate). split; [nia|]. split; [lia|]. left. nia.
  - unfold value. rewrite qN_mul, qN_2pow.
    assert (T : two ^ Z.of_N (52 - l) * two ^ (Z.of_N l - 52) == 1).
    { rewrite <- two_plus. replace (Z.of_N (52 - l) + (Z.of_N l - 52))%Z with 0%Z by lia. reflexivity. }
    transitivity (qN n * (two ^ Z.of_N (52 - l) * two ^ (Z.of_N l - 52))); [ring|]. rewrite T. ring.
  - cbn [f64_is_integral]. destruct (Z.leb_spec 0 (Z.of_N l - 52)) as [G|G]; [reflexivity|]. apply N.eqb_eq. unfold pow2N.
    replace (Z.to_N (- (Z.of_N l - 52))) with (52 - l)%N by lia. apply N.mod_mul, N.pow_nonzero. discriminate.
Qed.

Lemma fraction_small m e : double m e -> f64_is_integral (F64Fin m e) = false -> value m e < two ^ 52.
Proof.
  intros (M & _ & _) I. cbn [f64_is_integral] in I. destruct (Z.leb_spec 0 e) as [L|L]; [discriminate|]. unfold value.
  apply Qlt_le_trans with (qN (2 ^ 53) * two ^ e).
  - rewrite !(Qmult_comm _ (two ^ e)). apply Qmult_lt_l; [apply two_pos|]. now apply qN_lt.
  - rewrite qN_2pow, <- two_plus. apply two_mono. lia.
Qed.

(** An integer is never nearest to such a double. *)
Lemma fraction_exponent m e : double m e -> m <> 0%N -> f64_is_integral (F64Fin m e) = false -> (snd (choose_dec m e) < 0)%Z.
Proof.
  intros D NZ I. pose proof (choose_dec_good m e D) as G. unfold good_dec in G. destruct (choose_dec m e) as [d k]. cbn [fst snd] in *.
  destruct (Z.ltb_spec k 0) as [L|L]; [exact L|exfalso]. unfold f64_of_dec in G. replace (0 <=? k)%Z with true in G by lia.
  set (n := (d * pow10N k)%N) in *.
  assert (F : frac_is (qN n) n 1) by (split; [reflexivity|]; change (qN 1) with 1; ring).
  pose proof (f64_of_ratio_nearest (qN n) n 1 F) as NR. rewrite G in NR.
  destruct (N.eq_dec n 0) as [N0|N0].
  { rewrite N0 in G. cbn in G. injection G as G _. congruence. }
  destruct (N.lt_ge_cases n (2 ^ 53)) as [B|B].
  - destruct (small_integer n ltac:(lia)) as (m' & e' & D' & V & I').
    assert (E : F64Fin m e = F64Fin m' e').
    { apply (nearest_exact m' e'); [exact D'|]. rewrite <- G. apply f64_of_ratio_nearest. split; [reflexivity|]. rewrite V. change (qN 1) with 1. ring. }
    injection E as -> ->. congruence.
  - inversion NR as [m1 e1 D1 OV NE T|]; subst. assert (D2 : double (2 ^ 52) 1) by (unfold double; split; [reflexivity|]; split; [lia|left; lia]).
    specialize (NE _ _ D2). pose proof (fraction_small m e D I) as S. unfold distance in NE.
    assert (V2 : value (2 ^ 52) 1 == two ^ 53) by (unfold value; rewrite qN_2pow; change (Z.of_N 52) with 52%Z; rewrite <- two_plus; reflexivity).
    assert (B2 : two ^ 53 <= qN n) by (change (two ^ 53) with (two ^ Z.of_N 53); rewrite <- qN_2pow; now apply qN_le).
    assert (S2 : two ^ 52 < two ^ 53) by (apply two_smono; lia).
    rewrite V2 in NE. rewrite (Qabs_neg (value m e - qN n)) in NE by lra. rewrite (Qabs_neg (two ^ 53 - qN n)) in NE by lra. lra.
Qed.

(** ** The text *)

Definition float_shown (x : f64) : string := if f64_is_integral x then show_f64 x ++ ".0" else show_f64 x.

(** A zero after the point changes nothing. *)
Lemma dec_zero d : f64_of_dec (d * 10) (-1) = f64_of_dec d 0.
Proof.
  unfold f64_of_dec. cbn [Z.leb Z.compare Z.opp]. change (pow10N 1) with 10%N. change (pow10N 0) with 1%N. rewrite N.mul_1_r.
  apply (nearest_unique (qN d)); apply f64_of_ratio_nearest; (split; [reflexivity|]); [rewrite qN_mul|]; [reflexivity|]. change (qN 1) with 1. ring.
Qed.

Theorem float_text_shape m e : double m e ->
  exists a b, float_shown (F64Fin m e) = a ++ "." ++ b /\ all_chars digitb a = true /\ a <> "" /\ all_chars digitb b = true /\ b <> "" /\
    f64_of_dec (positional 10 (a ++ b)) (- Z.of_nat (String.length b)) = F64Fin m e /\
    (f64_is_integral (F64Fin m e) = true -> a = show_f64 (F64Fin m e) /\ b = "0").
Proof.
  intros D. destruct (N.eq_dec m 0) as [->|NZ].
  { destruct D as (_ & _ & [H| ->]); [now destruct H|]. exists "0", "0". repeat split; discriminate. }
  unfold float_shown. pose proof (choose_dec_good m e D) as G. unfold good_dec in G.
  assert (SH : show_f64 (F64Fin m e) = show_dec (fst (choose_dec m e)) (snd (choose_dec m e))).
  { cbn [show_f64]. replace (m =? 0)%N with false by (symmetry; now apply N.eqb_neq). now destruct (choose_dec m e). }
  assert (DZ : fst (choose_dec m e) <> 0%N) by (intros Z0; rewrite Z0, f64_of_dec_0 in G; congruence).
  destruct (show_dec_parts _ (snd (choose_dec m e)) DZ) as (a & b & (A & AN & B & V) & [(K & -> & S)|(K & BN & S)]); rewrite S in SH.
  - destruct (f64_is_integral (F64Fin m e)) eqn:I; [|pose proof (fraction_exponent m e D NZ I); lia].
    exists a, "0". rewrite SH. split; [reflexivity|]. split; [exact A|]. split; [exact AN|]. split; [reflexivity|]. split; [discriminate|]. split; [|now split].
    rewrite app_nil_s in V. rewrite positional_app. cbn [String.length positional]. change (digit_weight "0") with 0%N. change (Z.of_nat 1) with 1%Z. change (N.of_nat 1) with 1%N.
    change (0 * 10 ^ N.of_nat 0 + 0)%N with 0%N. rewrite N.add_0_r, N.pow_1_r. change (- (1))%Z with (-1)%Z. rewrite dec_zero. rewrite <- G, <- V. reflexivity.
  - destruct (f64_is_integral (F64Fin m e)) eqn:I; [pose proof (integer_exponent m e D NZ I); lia|].
    exists a, b. rewrite SH. split; [reflexivity|]. repeat (split; [assumption|]). split; [congruence|discriminate].
Qed.
