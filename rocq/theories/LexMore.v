(** Further lemmas about the lexer: comments by number of stars, ranges of integer literals,
    rejected spellings, final encoding. *)
Require Import Coq.Strings.String Coq.Strings.Ascii.
Require Import Coq.NArith.NArith Coq.ZArith.ZArith Coq.Lists.List Coq.Bool.Bool Coq.micromega.Lia.
Require Import Coq.micromega.ZifyBool Coq.micromega.ZifyNat Coq.micromega.ZifyN.
Require Import Verif.Base Verif.F64 Verif.Ast Verif.Lexer Verif.LexSpec Verif.LexProofs.
Import ListNotations.
Local Open Scope string_scope.

Lemma bind_ok_l {A B} (x : res A) (f : A -> res B) (b : B) :
  bind x f = Ok b -> exists a, x = Ok a /\ f a = Ok b.
Proof. destruct x; try discriminate. eauto. Qed.

(** ** Block comments *)

Lemma comment_body_app a b : comment_body a -> comment_body b -> comment_body (a ++ b).
Proof.
  intros A B. induction A; cbn [append]; [assumption|now constructor|now constructor].
Qed.

Definition no_star (b : string) : bool := all_chars (fun c => negb (Ascii.eqb c "*")) b.

Lemma no_star_body b : no_star b = true -> comment_body b.
Proof.
  unfold no_star. induction b as [|c b IH]; cbn; intros H; [constructor|].
  apply andb_true_iff in H as [H1 H2]. constructor; [|auto].
  intros ->. discriminate.
Qed.

(** Star-free text that does not begin with a slash, after the opening star. *)
Lemma star_body c b : c <> "/"%char -> no_star b = true -> comment_body (String "*" (String c b)).
Proof. intros C B. apply cb_star; [assumption|]. now apply no_star_body. Qed.

Lemma multi_open b : comment_body b -> lex_multi_line_comment b = "".
Proof. intros H. rewrite <- (app_nil_s b), multi_body by assumption. reflexivity. Qed.

Fixpoint stars (n : nat) : string :=
  match n with
  | O => ""
  | S n' => String "*" (stars n')
  end.

Lemma stars_even_body k : comment_body (stars (2 * k)).
Proof.
  induction k as [|k IH]; [constructor|].
  replace (2 * S k) with (S (S (2 * k))) by lia. cbn [stars]. now apply cb_star.
Qed.

Lemma stars_app a b : stars (a + b) = stars a ++ stars b.
Proof. induction a as [|a IH]; cbn; [reflexivity|]. now rewrite IH. Qed.

(** Every text after an opening mark either has a recognised end or is open. *)
Lemma block_split_aux n : forall s, String.length s <= n ->
  (exists b r, s = b ++ "*/" ++ r /\ comment_body b)
  \/ comment_body s \/ (exists b, s = b ++ "*" /\ comment_body b).
Proof.
  induction n as [|n IH]; intros s L.
  - destruct s; cbn in L; [|lia]. right. left. constructor.
  - destruct s as [|c s]; [right; left; constructor|]. cbn in L.
    destruct (Ascii.ascii_dec c "*") as [->|C].
    + destruct s as [|d s].
      * right. right. exists "". split; [reflexivity|constructor].
      * cbn in L. destruct (Ascii.ascii_dec d "/") as [->|D].
        { left. exists "", s. split; [reflexivity|constructor]. }
        destruct (IH s ltac:(lia)) as [(b & r & -> & B)|[B|(b & -> & B)]].
        -- left. exists (String "*" (String d b)), r. split; [reflexivity|now constructor].
        -- right. left. now constructor.
        -- right. right. exists (String "*" (String d b)). split; [reflexivity|now constructor].
    + destruct (IH s ltac:(lia)) as [(b & r & -> & B)|[B|(b & -> & B)]].
      * left. exists (String c b), r. split; [reflexivity|now constructor].
      * right. left. now constructor.
      * right. right. exists (String c b). split; [reflexivity|now constructor].
Qed.

Lemma block_split s :
  (exists b r, s = b ++ "*/" ++ r /\ comment_body (String "*" b))
  \/ (exists r, s = String "/" r)
  \/ open_comment ("/*" ++ s).
Proof.
  destruct (block_split_aux _ (String "*" s) (le_n _)) as [(b & r & E & B)|[B|(b & E & B)]].
  - destruct b as [|c b]; cbn in E; injection E as E.
    + right. left. eauto.
    + subst c. left. exists b, r. split; assumption.
  - right. right. now apply oc_block.
  - right. right. destruct b as [|c b]; cbn in E; injection E as E.
    + subst. apply oc_block_empty.
    + subst c s. now apply oc_block_star.
Qed.

(** ** Unspellable literals *)

Lemma tokenize_step_panic s : lex_step s = StepPanic -> tokenize s = Panic.
Proof. intros H. now rewrite tokenize_step, H. Qed.

Lemma dec_overflow raw ds s : digits_of digitb raw ds -> stops dec_stop s ->
  (2 ^ 63 <= positional 10 ds)%N -> tokenize (raw ++ s) = Panic.
Proof.
  intros D S B. apply tokenize_step_panic. rewrite (digits_of_digit_step _ raw ds s) by auto.
  rewrite (lex_number_dec raw ds s) by assumption.
  destruct (N.ltb_spec (positional 10 ds) (2 ^ 63)); [lia|reflexivity].
Qed.

Lemma hex_overflow raw ds s : digits_of hexb raw ds -> stops hex_stop s ->
  (2 ^ 63 <= positional 16 ds)%N -> tokenize ("0x" ++ raw ++ s) = Panic.
Proof.
  intros D S B. apply tokenize_step_panic.
  change (lex_step ("0x" ++ raw ++ s)) with
    (match lex_number ("0x" ++ raw ++ s) with Ok (t, rest) => Step [t] rest | _ => StepPanic end).
  rewrite (lex_number_hex raw ds s) by assumption.
  destruct (N.ltb_spec (positional 16 ds) (2 ^ 63)); [lia|reflexivity].
Qed.

(** ** The range of integer literals *)

Definition lit_in_range (t : token) : Prop :=
  match t with
  | TLit (IntLit z) => (- 2 ^ 63 <= z < 2 ^ 63)%Z
  | _ => True
  end.

Lemma i64_range radix s z : i64_from_str_radix radix s = Some z -> (- 2 ^ 63 <= z < 2 ^ 63)%Z.
Proof.
  unfold i64_from_str_radix.
  destruct (match s with String "-" t => (true, t) | String "+" t => (false, t) | _ => (false, s) end)
    as [neg ds].
  destruct ds; [discriminate|].
  destruct (digits_value _ _ _); [|discriminate].
  set (w := if neg then _ else _).
  destruct ((- 2 ^ 63 <=? w) && (w <? 2 ^ 63))%Z eqn:E; [|discriminate].
  intros [= <-]. lia.
Qed.

Lemma keyword_in_range w : lit_in_range (keyword_or_id w).
Proof. unfold keyword_or_id. repeat destruct (String.eqb _ _); exact I. Qed.

Lemma step_in_range s ts r : lex_step s = Step ts r -> Forall lit_in_range ts.
Proof.
  destruct s as [|ch s]; [discriminate|]. cbn [lex_step].
  destruct (is_char_id ch true).
  { unfold lex_id. destruct (lex_id_loop _) as [[name rest]| |]; cbn; intros [= <- <-].
    repeat constructor. apply keyword_in_range. }
  destruct (Ascii.eqb ch quote).
  { unfold lex_string. destruct (advance _); [discriminate|].
    destruct (lex_string_loop _) as [[v rest]| |]; cbn [bind]; try discriminate.
    intros [= <- <-]. repeat constructor. }
  destruct (is_char_number ch).
  { unfold lex_number. destruct (lex_number_loop _ _ _) as [[[[v h] f] rest]| |]; cbn [bind]; try discriminate.
    destruct h.
    - destruct (i64_from_str_radix 16 _) eqn:E; intros [= <- <-]. apply i64_range in E. now repeat constructor.
    - destruct f.
      + destruct (parse_f64 v); intros [= <- <-]. repeat constructor.
      + destruct (i64_from_str_radix 10 _) eqn:E; intros [= <- <-]. apply i64_range in E. now repeat constructor. }
  destruct (_ || _ || _); [intros [= <- <-]; constructor|].
  destruct (Ascii.eqb ch "/"); [|intros [= <- <-]; repeat constructor].
  rewrite ascii_slash_star.
  destruct s as [|d s]; [intros [= <- <-]; repeat constructor|].
  destruct (Ascii.eqb d "/"); [intros [= <- <-]; constructor|].
  destruct (Ascii.eqb d "*"); intros [= <- <-]; repeat constructor.
Qed.

(** A property of all produced tokens follows from the property of each step. *)
Lemma tokens_forall (P : token -> Prop) (Q : string -> Prop) :
  P TEOF ->
  (forall s ts r, Q s -> lex_step s = Step ts r -> Forall P ts /\ Q r) ->
  forall s ts, Q s -> tokenize s = Ok ts -> Forall P ts.
Proof.
  intros PE PS s. remember (String.length s) as n eqn:L.
  assert (L' : String.length s <= n) by lia. clear L. revert s L'.
  induction n as [|n IH]; intros s L ts HQ H; rewrite tokenize_step in H.
  - destruct s; cbn in L; [|lia]. injection H as <-. now repeat constructor.
  - destruct (lex_step s) as [| |us r] eqn:E; [injection H as <-; now repeat constructor|discriminate|].
    pose proof (PS s us r HQ E) as [F HQ'].
    apply lex_step_consumes in E as [C _].
    destruct (tokenize r) as [vs| |] eqn:T; cbn in H; try discriminate. injection H as <-.
    apply Forall_app. split; [assumption|]. apply (IH r); auto. lia.
Qed.

Lemma tokens_in_range s ts : tokenize s = Ok ts -> Forall lit_in_range ts.
Proof.
  apply (tokens_forall lit_in_range (fun _ => True)); auto.
  - exact I.
  - intros s' us r _ E. split; [eapply step_in_range; eassumption|exact I].
Qed.

(** ** A negative literal needs an underscore followed by a minus sign *)

Fixpoint has_under_minus (s : string) : bool :=
  match s with
  | "" => false
  | String c s' =>
      (Ascii.eqb c "_" && match s' with String d _ => Ascii.eqb d "-" | "" => false end)
      || has_under_minus s'
  end.

Definition suffix_of (r s : string) : Prop := exists p, s = p ++ r.

Lemma suffix_refl s : suffix_of s s.
Proof. now exists "". Qed.

Lemma suffix_cons c r s : suffix_of r s -> suffix_of r (String c s).
Proof. intros [p ->]. now exists (String c p). Qed.

Lemma under_minus_suffix r s : suffix_of r s -> has_under_minus s = false -> has_under_minus r = false.
Proof.
  intros [p ->]. induction p as [|c p IH]; cbn; [auto|]. intros H.
  apply orb_false_iff in H as [_ H]. auto.
Qed.

Lemma single_suffix s : suffix_of (lex_single_line_comment s) s.
Proof.
  induction s as [|c s IH]; [apply suffix_refl|]. cbn. destruct (_ || _).
  - apply suffix_cons, suffix_refl.
  - now apply suffix_cons.
Qed.

Lemma multi_suffix_aux n : forall s, String.length s <= n -> suffix_of (lex_multi_line_comment s) s.
Proof.
  induction n as [|n IH]; intros [|c s] L; cbn in L; try lia; try apply suffix_refl.
  cbn. destruct (Ascii.eqb c "*").
  - destruct s as [|d s]; [now exists (String c "")|]. cbn in L.
    destruct (Ascii.eqb d "/"); do 2 apply suffix_cons; [apply suffix_refl|apply IH; lia].
  - apply suffix_cons, IH. lia.
Qed.

Lemma lex_id_loop_suffix s : forall v r, lex_id_loop s = Ok (v, r) -> suffix_of r s.
Proof.
  induction s as [|c s IH]; [discriminate|]. intros v r. rewrite lex_id_loop_cons.
  destruct s as [|d s]; [intros [= <- <-]; now exists (String c "")|].
  destruct (is_char_id d false).
  - destruct (lex_id_loop (String d s)) as [[v' r']| |]; cbn; intros [= <- <-].
    apply suffix_cons. eapply IH. reflexivity.
  - intros [= <- <-]. apply suffix_cons, suffix_refl.
Qed.

Lemma lex_string_loop_suffix s : forall v r, lex_string_loop s = Ok (v, r) -> suffix_of r s.
Proof.
  induction s as [|c s IH]; [discriminate|]. intros v r. rewrite lex_string_loop_cons.
  destruct (Ascii.eqb c quote); [intros [= <- <-]; apply suffix_cons, suffix_refl|].
  destruct s as [|d s]; [discriminate|].
  destruct (lex_string_loop (String d s)) as [[v' r']| |]; cbn; intros [= <- <-].
  apply suffix_cons. eapply IH. reflexivity.
Qed.

Definition no_minus (s : string) : bool := all_chars (fun c => negb (Ascii.eqb c "-")) s.

Lemma number_char_no_minus h d :
  (negb h && negb (digitb d)) || (h && negb (hexb d)) = false -> Ascii.eqb d "-" = false.
Proof. destruct h, d as [[] [] [] [] [] [] [] []]; cbn; congruence. Qed.

Lemma lex_number_loop_suffix n : forall s h f v h' f' r, String.length s <= n ->
  lex_number_loop s h f = Ok (v, h', f', r) ->
  suffix_of r s /\
  (has_under_minus s = false -> match s with String c _ => Ascii.eqb c "-" = false | "" => True end ->
   no_minus v = true).
Proof.
  induction n as [|n IH]; intros [|c s] h f v h' f' r L H; cbn in L; try lia; try discriminate.
  rewrite lex_number_loop_tail in H.
  apply bind_ok_l in H as ([[[v0 h0] f0] r0] & T & H). injection H as <- <- <- <-.
  unfold lex_number_tail in T. destruct s as [|d s].
  { injection T as <- <- <- <-. split; [now exists (String c "")|].
    intros _ C. unfold no_minus. cbn. now rewrite C. }
  cbn in L.
  destruct (Ascii.eqb d "_") eqn:U.
  { destruct (IH s _ _ _ _ _ _ ltac:(lia) T) as [S M]. split; [now do 2 apply suffix_cons|].
    intros Z C. unfold no_minus. cbn. rewrite C. cbn.
    cbn in Z. rewrite U in Z.
    apply orb_false_iff in Z as [_ Z]. apply orb_false_iff in Z as [Z1 Z2].
    apply M; [assumption|]. destruct s; [exact I|]. now rewrite andb_true_l in Z1. }
  assert (K : forall h1 f1, Ascii.eqb d "-" = false ->
    lex_number_loop (String d s) h1 f1 = Ok (v0, h0, f0, r0) ->
    suffix_of r0 (String c (String d s)) /\
    (has_under_minus (String c (String d s)) = false -> Ascii.eqb c "-" = false -> no_minus (String c v0) = true)).
  { intros h1 f1 D T'. destruct (IH (String d s) _ _ _ _ _ _ ltac:(cbn; lia) T') as [S M].
    split; [now apply suffix_cons|]. intros Z C. unfold no_minus. cbn [all_chars]. rewrite C. cbn.
    apply M; [|assumption]. cbn in Z. cbn. apply orb_false_iff in Z as [_ Z]. assumption. }
  destruct (Ascii.eqb d "." && negb h && negb f) eqn:P.
  { apply (K h true); [|assumption]. destruct (Ascii.eqb_spec d "."); [subst; reflexivity|discriminate]. }
  destruct (Ascii.eqb d "x" && negb h && negb f) eqn:X.
  { apply (K true f); [|assumption]. destruct (Ascii.eqb_spec d "x"); [subst; reflexivity|discriminate]. }
  destruct (_ || _) eqn:E.
  { injection T as <- <- <- <-. split; [apply suffix_cons, suffix_refl|].
    intros _ C. unfold no_minus. cbn. now rewrite C. }
  apply (K h f); [|assumption]. eapply number_char_no_minus; eassumption.
Qed.

Definition nonneg_lit (t : token) : Prop :=
  match t with
  | TLit (IntLit z) => (0 <= z)%Z
  | _ => True
  end.

Lemma trim_0x_no_minus n : forall s, String.length s <= n -> no_minus s = true -> no_minus (trim_0x s) = true.
Proof.
  induction n as [|n IH]; intros s L H.
  - destruct s; cbn in L; [reflexivity|lia].
  - destruct s as [|c s]; [reflexivity|].
    destruct s as [|d s]; [destruct c as [[] [] [] [] [] [] [] []]; assumption|].
    cbn in L.
    assert (T : trim_0x (String c (String d s)) = String c (String d s)
                \/ trim_0x (String c (String d s)) = trim_0x s).
    { destruct c as [[] [] [] [] [] [] [] []]; try (left; reflexivity).
      destruct d as [[] [] [] [] [] [] [] []]; try (left; reflexivity). right; reflexivity. }
    destruct T as [T|T]; rewrite T; [assumption|]. apply IH; [lia|].
    unfold no_minus in *. cbn in H. apply andb_true_iff in H as [_ H]. now apply andb_true_iff in H as [_ H].
Qed.

Lemma i64_nonneg radix s z : no_minus s = true -> i64_from_str_radix radix s = Some z -> (0 <= z)%Z.
Proof.
  intros N. unfold i64_from_str_radix.
  assert (M : exists ds,
    match s with String "-" t => (true, t) | String "+" t => (false, t) | _ => (false, s) end = (false, ds)).
  { destruct s as [|c s]; [eauto|].
    destruct c as [[] [] [] [] [] [] [] []]; eauto. discriminate. }
  destruct M as [ds ->]. destruct ds; [discriminate|].
  destruct (digits_value _ _ _) as [v|]; [|discriminate].
  destruct (_ && _); [|discriminate]. intros [= <-]. lia.
Qed.

Lemma step_nonneg s ts r : has_under_minus s = false -> lex_step s = Step ts r ->
  Forall nonneg_lit ts /\ has_under_minus r = false.
Proof.
  intros Z H. cut (Forall nonneg_lit ts /\ suffix_of r s).
  { intros [F S]. split; [assumption|]. eapply under_minus_suffix; eassumption. }
  destruct s as [|ch s]; [discriminate|]. cbn [lex_step] in H.
  destruct (is_char_id ch true).
  { unfold lex_id in H. destruct (lex_id_loop _) as [[name rest]| |] eqn:E; cbn in H; try discriminate. injection H as <- <-.
    split; [|eapply lex_id_loop_suffix; eassumption].
    repeat constructor. unfold keyword_or_id. repeat destruct (String.eqb _ _); exact I. }
  destruct (Ascii.eqb ch quote).
  { unfold lex_string in H. cbn [advance] in H. destruct s as [|d s]; [discriminate|].
    destruct (lex_string_loop (String d s)) as [[v rest]| |] eqn:E; cbn [bind] in H; try discriminate.
    injection H as <- <-. split; [now repeat constructor|]. apply suffix_cons.
    eapply lex_string_loop_suffix. exact E. }
  destruct (is_char_number ch) eqn:D.
  { unfold lex_number in H. destruct (lex_number_loop _ _ _) as [[[[v h] f] rest]| |] eqn:E; cbn [bind] in H; try discriminate.
    apply lex_number_loop_suffix with (n := String.length (String ch s)) in E as [S M]; [|lia].
    assert (V : no_minus v = true).
    { apply M; [assumption|]. destruct ch as [[] [] [] [] [] [] [] []]; try reflexivity; discriminate. }
    destruct h.
    - destruct (i64_from_str_radix 16 _) eqn:I; try discriminate. injection H as <- <-.
      split; [|assumption]. repeat constructor. cbn. eapply i64_nonneg; [|eassumption].
      eapply trim_0x_no_minus; [reflexivity|assumption].
    - destruct f.
      + destruct (parse_f64 v); try discriminate. injection H as <- <-. split; [now repeat constructor|assumption].
      + destruct (i64_from_str_radix 10 _) eqn:I; try discriminate. injection H as <- <-.
        split; [|assumption]. repeat constructor. cbn. eapply i64_nonneg; eassumption. }
  destruct (_ || _ || _); [injection H as <- <-; split; [constructor|apply suffix_cons, suffix_refl]|].
  destruct (Ascii.eqb ch "/");
    [|injection H as <- <-; split; [now repeat constructor|apply suffix_cons, suffix_refl]].
  rewrite ascii_slash_star in H.
  destruct s as [|d s]; [injection H as <- <-; split; [now repeat constructor|now exists (String ch "")]|].
  destruct (Ascii.eqb d "/").
  { injection H as <- <-. split; [constructor|]. apply suffix_cons, single_suffix. }
  destruct (Ascii.eqb d "*").
  { injection H as <- <-. split; [constructor|]. apply suffix_cons. eapply multi_suffix_aux. reflexivity. }
  injection H as <- <-. split; [now repeat constructor|]. cbn. do 2 apply suffix_cons. apply suffix_refl.
Qed.

Lemma tokens_nonneg s ts : has_under_minus s = false -> tokenize s = Ok ts -> Forall nonneg_lit ts.
Proof.
  intros Z H.
  apply (tokens_forall nonneg_lit (fun s => has_under_minus s = false) I) with (s := s); auto.
  intros s' us r. apply step_nonneg.
Qed.

(** ** Strings *)

Definition asciib (c : ascii) : bool := (N_of_ascii c <? 128)%N.

Lemma utf8_ascii s : all_chars asciib s = true -> utf8_encode s = s.
Proof.
  induction s as [|c s IH]; cbn; intros H; [reflexivity|]. apply andb_true_iff in H as [H1 H2].
  unfold asciib in H1. rewrite H1. now rewrite IH.
Qed.

Lemma utf8_length s : String.length (utf8_encode s) >= String.length s.
Proof.
  induction s as [|c s IH]; cbn; [lia|]. destruct (_ <? _)%N; cbn; lia.
Qed.

Lemma utf8_grows s : all_chars asciib s = false -> String.length (utf8_encode s) > String.length s.
Proof.
  induction s as [|c s IH]; cbn; intros H; [discriminate|]. unfold asciib at 1 in H.
  destruct (_ <? _)%N; cbn in *.
  - apply IH in H. lia.
  - pose proof (utf8_length s). lia.
Qed.

Lemma utf8_app a b : utf8_encode (a ++ b) = utf8_encode a ++ utf8_encode b.
Proof.
  induction a as [|c a IH]; cbn; [reflexivity|]. destruct (_ <? _)%N; cbn; now rewrite IH.
Qed.

Lemma tokenize_unclosed_string s : all_chars (fun c => negb (quoteb c)) s = true ->
  tokenize (String """" s) = Panic.
Proof.
  intros H. apply tokenize_step_panic.
  change (lex_step (String """" s)) with
    (match lex_string (String quote s) with Ok (t, rest) => Step [t] rest | _ => StepPanic end).
  unfold lex_string. cbn [advance]. pose proof (lex_string_loop_unclosed s H) as E.
  destruct s; [reflexivity|]. now rewrite E.
Qed.

(** ** Stray slash *)

Lemma step_slash c s : c <> "/"%char -> c <> "*"%char ->
  lex_step (String "/" (String c s)) = Step [TSym "/"; TSym "/"] s.
Proof.
  intros A B. unfold lex_step. cbn - [lex_single_line_comment lex_multi_line_comment].
  destruct c as [[] [] [] [] [] [] [] []]; try reflexivity; congruence.
Qed.

Lemma tokenize_slash c s : c <> "/"%char -> c <> "*"%char ->
  tokenize (String "/" (String c s)) =
  let* us := tokenize s in Ok ([TSym "/"; TSym "/"] ++ us)%list.
Proof. intros A B. rewrite tokenize_step, step_slash by assumption. reflexivity. Qed.
