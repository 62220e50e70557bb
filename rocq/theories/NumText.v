(** The decimal texts written into generated files, read back. *)
Require Import Coq.Strings.String Coq.Strings.Ascii.
Require Import Coq.NArith.NArith Coq.ZArith.ZArith Coq.QArith.QArith Coq.Lists.List Coq.Bool.Bool.
Require Import Coq.micromega.Lia Coq.micromega.ZifyBool Coq.micromega.ZifyN Coq.micromega.ZifyNat.
Require Import Verif.Base Verif.F64 Verif.F64Spec Verif.F64Proofs Verif.Ast Verif.Lexer Verif.LexSpec
  Verif.LexProofs.
Import ListNotations.
Local Open Scope string_scope.

(** ** Natural numbers *)

Lemma digit_char_ok r : (r < 10)%N -> digitb (digit_char r) = true /\ digit_weight (digit_char r) = r.
Proof.
  intros H. assert (C : In r [0; 1; 2; 3; 4; 5; 6; 7; 8; 9]%N) by (cbn; lia).
  cbn in C. repeat (destruct C as [<-|C]; [split; reflexivity|]). destruct C.
Qed.

Lemma show_N_aux_spec fuel : forall n acc, (n < 2 ^ N.of_nat fuel)%N -> all_chars digitb acc = true ->
  fuel <> 0%nat ->
  all_chars digitb (show_N_aux fuel n acc) = true
  /\ positional 10 (show_N_aux fuel n acc)
     = (n * 10 ^ N.of_nat (String.length acc) + positional 10 acc)%N
  /\ show_N_aux fuel n acc <> "".
Proof.
  induction fuel as [|fuel IH]; intros n acc B A NZ; [easy|]. cbn [show_N_aux].
  pose proof (N.div_eucl_spec n 10) as E. pose proof (N.mod_lt n 10 ltac:(lia)) as M.
  unfold N.modulo in M. destruct (N.div_eucl n 10) as [q r] eqn:D. cbn [snd] in M.
  destruct (digit_char_ok r M) as [DC DW].
  assert (A' : all_chars digitb (String (digit_char r) acc) = true) by (cbn; now rewrite DC, A).
  assert (P' : positional 10 (String (digit_char r) acc)
               = (r * 10 ^ N.of_nat (String.length acc) + positional 10 acc)%N)
    by (cbn [positional]; now rewrite DW).
  destruct q as [|q].
  - rewrite P'. split; [assumption|]. split; [subst n; lia|discriminate].
  - assert (QB : (N.pos q < 2 ^ N.of_nat fuel)%N).
    { rewrite Nat2N.inj_succ, N.pow_succ_r' in B. lia. }
    assert (NZ' : fuel <> 0%nat) by (intros ->; cbn in QB; lia).
    destruct (IH (N.pos q) _ QB A' NZ') as (I1 & I2 & I3).
    split; [assumption|]. split; [|assumption]. rewrite I2, P'. cbn [String.length].
    rewrite Nat2N.inj_succ, N.pow_succ_r'. subst n. lia.
Qed.

Lemma size_bound n : (n < 2 ^ N.of_nat (S (N.size_nat n)))%N.
Proof.
  destruct n as [|p]; [reflexivity|]. pose proof (N.size_gt (N.pos p)) as H.
  eapply N.lt_le_trans; [exact H|]. apply N.pow_le_mono_r; [discriminate|].
  rewrite Nat2N.inj_succ. cbn [N.size_nat N.size]. clear H.
  assert (E : N.pos (Pos.size p) = N.of_nat (Pos.size_nat p)).
  { induction p as [p IH|p IH|]; cbn [Pos.size Pos.size_nat]; try reflexivity;
      rewrite Nat2N.inj_succ, <- IH; lia. }
  lia.
Qed.

Lemma show_N_digits n : all_chars digitb (show_N n) = true.
Proof. apply (show_N_aux_spec _ n ""); [apply size_bound|reflexivity|discriminate]. Qed.
Lemma show_N_value n : positional 10 (show_N n) = n.
Proof.
  unfold show_N. destruct (show_N_aux_spec _ n "" (size_bound n) eq_refl ltac:(discriminate)) as (_ & -> & _).
  cbn. lia.
Qed.
Lemma show_N_nonempty n : show_N n <> "".
Proof. apply (show_N_aux_spec _ n ""); [apply size_bound|reflexivity|discriminate]. Qed.

Lemma show_N_inj a b : show_N a = show_N b -> a = b.
Proof. intros H. rewrite <- (show_N_value a), <- (show_N_value b). now rewrite H. Qed.

(** A digit string is a spelling of itself. *)
Lemma digits_of_self isd ds : all_chars isd ds = true -> ds <> "" -> digits_of isd ds ds.
Proof.
  induction ds as [|c ds IH]; [congruence|]. intros H _. cbn in H. apply andb_true_iff in H as [H1 H2].
  destruct ds as [|d ds]; [now constructor|]. apply do_cons; [assumption|]. apply IH; [assumption|discriminate].
Qed.

(** ** Floats *)

Definition good_dec (m : N) (e : Z) (dk : N * Z) : Prop := f64_of_dec (fst dk) (snd dk) = F64Fin m e.

Lemma f64_eqb_eq a b : f64_eqb a b = true -> a = b.
Proof.
  destruct a as [m e|], b as [m' e'|]; cbn; try discriminate; auto.
  intros H. apply andb_true_iff in H as [H1 H2]. apply N.eqb_eq in H1. apply Z.eqb_eq in H2. congruence.
Qed.

Lemma dec_candidate_good m e num den n dk :
  dec_candidate (F64Fin m e) num den n = Some dk -> good_dec m e dk.
Proof.
  unfold dec_candidate. cbn zeta. destruct (if (0 <=? _)%Z then _ else _) as [a b].
  match goal with |- (if ?x && _ then _ else _) = _ -> _ => destruct x eqn:L end.
  - match goal with |- (if true && ?y then _ else _) = _ -> _ => destruct y end; cbn [andb].
    + intros [= <-]. now apply f64_eqb_eq in L.
    + match goal with |- (if ?x then _ else _) = _ -> _ => destruct x eqn:H end; [|discriminate].
      intros [= <-]. now apply f64_eqb_eq in H.
  - cbn [andb]. match goal with |- (if ?x then _ else _) = _ -> _ => destruct x eqn:H end; [|discriminate].
    intros [= <-]. now apply f64_eqb_eq in H.
Qed.

Lemma shortest_dec_good m e num den t : forall n dk,
  shortest_dec (F64Fin m e) num den t n = Some dk -> good_dec m e dk.
Proof.
  induction t as [|t IH]; intros n dk; cbn [shortest_dec]; [discriminate|].
  destruct (dec_candidate _ _ _ _) eqn:E.
  - intros [= <-]. eapply dec_candidate_good, E.
  - apply IH.
Qed.

Lemma pow10_pos z : (0 < pow10N z)%N.
Proof. unfold pow10N. apply N.neq_0_lt_0, N.pow_nonzero. discriminate. Qed.

Lemma choose_dec_good m e : double m e -> good_dec m e (choose_dec m e).
Proof.
  intros D. unfold choose_dec. destruct (frac_of m e) as [num den] eqn:F.
  destruct (shortest_dec _ _ _ _ _) as [[d k]|] eqn:S.
  - destruct (strip_zeros 20 d k) as [d' k'].
    destruct (f64_eqb (f64_of_dec d' k') (F64Fin m e)) eqn:E.
    + now apply f64_eqb_eq in E.
    + eapply shortest_dec_good, S.
  - unfold good_dec. destruct (Z.leb_spec 0 e) as [L|L]; cbn [fst snd]; unfold f64_of_dec.
    + cbn [Z.leb Z.compare]. apply f64_of_ratio_exact; [assumption|]. split; [reflexivity|].
      unfold value. change (pow10N 0) with 1%N. rewrite N.mul_1_r, qN_mul, qN_pow2 by assumption.
      change (qN 1) with 1%Q. ring.
    + replace (0 <=? e)%Z with false by lia.
      apply f64_of_ratio_exact; [assumption|]. split; [apply pow10_pos|].
      unfold value. rewrite qN_mul.
      assert (E10 : (qN (pow10N (- e)) == two ^ (- e) * qN (5 ^ Z.to_N (- e)))%Q).
      { unfold pow10N. change 10%N with (2 * 5)%N. rewrite N.pow_mul_l, qN_mul.
        change (2 ^ Z.to_N (- e))%N with (pow2N (- e)). rewrite qN_pow2 by lia. reflexivity. }
      rewrite E10.
      transitivity (qN m * (two ^ (- e) * two ^ e) * qN (5 ^ Z.to_N (- e)))%Q; [ring|].
      rewrite two_neg. ring.
Qed.

Lemma f64_of_dec_0 k : f64_of_dec 0 k = F64Fin 0 (-1074).
Proof. unfold f64_of_dec. destruct (0 <=? k)%Z; reflexivity. Qed.

(** The two halves of a decimal text. *)
Lemma split_at_app n : forall s a b, split_at n s = (a, b) -> s = a ++ b /\
  (n <= String.length s -> String.length a = n)%nat.
Proof.
  induction n as [|n IH]; intros s a b H; cbn in H.
  - injection H as <- <-. auto.
  - destruct s as [|c s].
    + injection H as <- <-. cbn. split; [reflexivity|lia].
    + destruct (split_at n s) as [a' b'] eqn:E. injection H as <- <-.
      destruct (IH s a' b' E) as [-> L]. split; [reflexivity|]. cbn. intros G. now rewrite L by lia.
Qed.

Lemma zeros_digits n : all_chars digitb (zeros n) = true.
Proof. unfold zeros. induction n; [reflexivity|assumption]. Qed.
Lemma zeros_length n : String.length (zeros n) = n.
Proof. unfold zeros. induction n as [|n IH]; cbn; [reflexivity|now rewrite IH]. Qed.
Lemma zeros_value n : positional 10 (zeros n) = 0%N.
Proof. unfold zeros. induction n as [|n IH]; [reflexivity|]. cbn [repeat_string append positional]. rewrite IH. reflexivity. Qed.

(** The text of d * 10^k as a whole part and, unless it is an integer, a fraction. *)
Definition dec_parts (d : N) (k : Z) (a b : string) : Prop :=
  all_chars digitb a = true /\ a <> "" /\ all_chars digitb b = true
  /\ f64_of_dec (positional 10 (a ++ b)) (- Z.of_nat (String.length b)) = f64_of_dec d k.

Lemma show_dec_parts d k : d <> 0%N ->
  exists a b, dec_parts d k a b /\
    ((0 <= k)%Z /\ b = "" /\ show_dec d k = a \/ (k < 0)%Z /\ b <> "" /\ show_dec d k = a ++ "." ++ b).
Proof.
  intros NZ. unfold show_dec. replace (d =? 0)%N with false by lia.
  destruct (Z.leb_spec 0 k) as [L|L].
  - exists (show_N d ++ zeros (Z.to_nat k)), "". split.
    + split; [now rewrite all_chars_app, show_N_digits, zeros_digits|].
      split; [pose proof (show_N_nonempty d); destruct (show_N d); [congruence|discriminate]|].
      split; [reflexivity|]. rewrite app_nil_s, positional_app, show_N_value, zeros_value, zeros_length.
      unfold f64_of_dec. cbn [String.length Z.of_nat Z.opp Z.leb Z.compare].
      replace (0 <=? k)%Z with true by lia. f_equal. unfold pow10N.
      change (Z.to_N 0) with 0%N. rewrite N.pow_0_r.
      replace (N.of_nat (Z.to_nat k)) with (Z.to_N k) by lia. lia.
    + left. auto.
  - assert (LEN : (1 <= String.length (show_N d))%nat).
    { pose proof (show_N_nonempty d). destruct (show_N d); [congruence|cbn; lia]. }
    destruct (Nat.ltb_spec (Z.to_nat (- k)) (String.length (show_N d))) as [G|G].
    + destruct (split_at _ _) as [a b] eqn:S. apply split_at_app in S as [E LA].
      specialize (LA ltac:(lia)).
      assert (LB : String.length b = Z.to_nat (- k)).
      { assert (String.length (show_N d) = String.length a + String.length b)%nat by now rewrite E, length_app_s.
        lia. }
      assert (AD := show_N_digits d). rewrite E, all_chars_app in AD. apply andb_true_iff in AD as [A1 A2].
      exists a, b. split.
      * split; [assumption|]. split; [intros ->; cbn [String.length] in LA; lia|]. split; [assumption|].
        rewrite <- E, show_N_value, LB. f_equal. lia.
      * right. split; [lia|]. split; [intros ->; cbn [String.length] in LB; lia|reflexivity].
    + exists "0", (zeros (Z.to_nat (- k) - String.length (show_N d)) ++ show_N d). split.
      * split; [reflexivity|]. split; [discriminate|].
        split; [now rewrite all_chars_app, show_N_digits, zeros_digits|].
        rewrite !positional_app, show_N_value, zeros_value, length_app_s, zeros_length.
        change (positional 10 "0") with 0%N. match goal with |- f64_of_dec ?x ?y = _ => replace y with k by lia; replace x with d by lia end. reflexivity.
      * right. split; [lia|]. split; [|reflexivity]. intros H.
        assert (String.length (zeros (Z.to_nat (- k) - String.length (show_N d)) ++ show_N d) = 0%nat)
          by now rewrite H. rewrite length_app_s in H0. lia.
Qed.

Lemma parse_f64_digits a : all_chars digitb a = true -> a <> "" ->
  parse_f64 a = Some (f64_of_dec (positional 10 a) 0).
Proof.
  intros Ha N. unfold parse_f64. rewrite <- (app_nil_s a) at 1.
  rewrite take_digits_spec by (assumption || exact I). rewrite N.mul_0_l, N.add_0_l, Nat.add_0_l.
  destruct a as [|c a]; [congruence|]. cbn [String.length Nat.add parse_exp]. reflexivity.
Qed.

(** The text written for a double reads back as that double. *)
Lemma parse_show_f64 m e : double m e -> parse_f64 (show_f64 (F64Fin m e)) = Some (F64Fin m e).
Proof.
  intros D. unfold show_f64. destruct (N.eqb_spec m 0) as [->|NZ].
  - destruct D as (_ & _ & [H| ->]); [now destruct H|]. reflexivity.
  - pose proof (choose_dec_good m e D) as G. destruct (choose_dec m e) as [d k]. unfold good_dec in G.
    cbn [fst snd] in G.
    assert (DZ : d <> 0%N) by (intros ->; rewrite f64_of_dec_0 in G; congruence).
    destruct (show_dec_parts d k DZ) as (a & b & (A & AN & B & V) & [(K & -> & ->)|(K & BN & ->)]).
    + rewrite parse_f64_digits by assumption. rewrite app_nil_s in V. change (- Z.of_nat (String.length ""))%Z with 0%Z in V. congruence.
    + rewrite parse_f64_text by assumption. congruence.
Qed.

(** A schema text for a double: the text above, with a point added if there is none. *)
Definition float_text (x : f64) : string :=
  let t := show_f64 x in if contains_char t "." then t else t ++ ".".

Lemma digits_no_point a : all_chars digitb a = true -> contains_char a "." = false.
Proof.
  induction a as [|c a IH]; [reflexivity|]. cbn [all_chars contains_char]. intros H.
  apply andb_true_iff in H as [H1 H2]. rewrite IH by assumption. rewrite orb_false_r.
  destruct (Ascii.eqb_spec c "."); [subst; discriminate|reflexivity].
Qed.
Lemma contains_app a b c : contains_char (a ++ b) c = contains_char a c || contains_char b c.
Proof. induction a as [|x a IH]; [reflexivity|]. cbn. now rewrite IH, orb_assoc. Qed.

Lemma float_text_spelling m e : double m e ->
  exists a b, float_spelling (float_text (F64Fin m e)) a b
    /\ f64_of_dec (positional 10 (a ++ b)) (- Z.of_nat (String.length b)) = F64Fin m e.
Proof.
  intros D. unfold float_text, show_f64. destruct (N.eqb_spec m 0) as [->|NZ].
  - destruct D as (_ & _ & [H| ->]); [now destruct H|]. exists "0", "". split; [|reflexivity].
    cbn. apply (fs_int "0" "0"). now constructor.
  - pose proof (choose_dec_good m e D) as G. destruct (choose_dec m e) as [d k]. unfold good_dec in G.
    cbn [fst snd] in G.
    assert (DZ : d <> 0%N) by (intros ->; rewrite f64_of_dec_0 in G; congruence).
    destruct (show_dec_parts d k DZ) as (a & b & (A & AN & B & V) & [(K & -> & ->)|(K & BN & ->)]).
    + rewrite digits_no_point by assumption. exists a, "". split; [|congruence].
      apply fs_int. now apply digits_of_self.
    + rewrite contains_app. cbn [append contains_char Ascii.eqb Bool.eqb orb].
      rewrite orb_true_r. exists a, b. split; [|congruence].
      apply (fs_frac a a b b); now apply digits_of_self.
Qed.
