(** Lemmas behind the theorems of PropertiesLex.v. *)

(** Property theorems about the lexer: C01 - C07.  After each theorem, a concrete case that meets
    its hypotheses, and its axioms. *)
Require Import Coq.Strings.String Coq.Strings.Ascii.
Require Import Coq.NArith.NArith Coq.ZArith.ZArith Coq.Lists.List Coq.Bool.Bool Coq.micromega.Lia.
Require Import Verif.Base Verif.F64 Verif.Ast Verif.Lexer Verif.LexSpec Verif.LexProofs Verif.LexMore.
Import ListNotations.
Local Open Scope string_scope.

Lemma lem_C01_tokenize_finishes : forall s, tokenize s <> NoFuel.
Proof.
  intros s.
  destruct (tokenize_shape s) as [E|(us & E & _)]; rewrite E; discriminate.
Qed.

Lemma lem_C01_one_eof_at_the_end : forall s ts, tokenize s = Ok ts ->
  exists us, ts = (us ++ [TEOF])%list /\ ~ In TEOF us.
Proof.
  exact tokenize_eof.
Qed.

(** The reader of a token stream: after the last token it keeps returning end-of-file, and before
    that it returns the tokens in order. *)
Fixpoint after (n : nat) (l : lexer) : lexer :=
  match n with O => l | S n' => after n' (next_token l) end.

Lemma after_cursor n : forall l, after n l = mk_lexer (lx_cursor l + n) (lx_tokens l).
Proof.
  induction n as [|n IH]; intros [k ts]; cbn [after lx_cursor lx_tokens].
  - now rewrite Nat.add_0_r.
  - rewrite IH.
  unfold next_token.
  cbn [lx_cursor lx_tokens].
  f_equal.
  lia.
Qed.

Lemma lem_C01_reading_past_the_end : forall s ts n, tokenize s = Ok ts ->
  current_token (after n (mk_lexer 0 ts)) = nth n ts TEOF.
Proof.
  intros s ts n H.
  destruct (tokenize_eof s ts H) as (us & -> & _).
  rewrite after_cursor.
  cbn [lx_cursor lx_tokens Nat.add].
  rewrite current_token_suffix.
  generalize (us ++ [TEOF])%list as l.
  clear.
  induction n as [|n IH]; intros [|t l]; cbn; auto.
Qed.

Lemma lem_C02_layout_is_irrelevant : forall s ts, reads s ts "" ->
  tokenize s = Ok (ts ++ [TEOF])%list.
Proof.
  intros s ts H.
  rewrite (tokenize_reads s ts "" H).
  reflexivity.
Qed.

Lemma lem_C02_layout_then_anything : forall s ts r, reads s ts r ->
  tokenize s = let* us := tokenize r in Ok (ts ++ us)%list.
Proof.
  exact tokenize_reads.
Qed.

Lemma lem_C02_same_tokens_same_stream : forall s s' ts, reads s ts "" -> reads s' ts "" ->
  tokenize s = tokenize s'.
Proof.
  intros s s' ts H H'.
  now rewrite (tokenize_reads _ _ _ H), (tokenize_reads _ _ _ H').
Qed.

Lemma lem_C03_plain_comment_disappears : forall c b rest,
  c <> "/"%char -> c <> "*"%char -> no_star b = true ->
  tokenize ("/*" ++ String c b ++ "*/" ++ rest) = tokenize rest.
Proof.
  intros c b rest C C' B.
  change ("/*" ++ String c b ++ "*/" ++ rest) with ("/*" ++ (String c b ++ ("*/" ++ rest))).
  rewrite <- !app_assoc_s, (app_assoc_s _ _ "*/").
  apply tokenize_blank.
  apply bl_block.
  now apply star_body.
Qed.

Lemma lem_C03_comment_decides : forall s,
  (exists b rest, s = b ++ "*/" ++ rest /\ comment_body (String "*" b)
                  /\ tokenize ("/*" ++ s) = tokenize rest)
  \/ (exists rest, s = String "/" rest /\ tokenize ("/*" ++ s) = tokenize rest)
  \/ (open_comment ("/*" ++ s) /\ tokenize ("/*" ++ s) = Ok [TEOF]).
Proof.
  intros s.
  destruct (block_split s) as [(b & r & -> & B)|[(r & ->)|O]].
  - left.
  exists b, r.
  split; [reflexivity|].
  split; [assumption|].
  rewrite <- !app_assoc_s, (app_assoc_s _ _ "*/").
  apply tokenize_blank.
  now apply bl_block.
  - right.
  left.
  exists r.
  split; [reflexivity|].
  exact (tokenize_blank "/*/" r bl_slash_star_slash).
  - right.
  right.
  split; [assumption|].
  now apply tokenize_open_comment.
Qed.

Lemma lem_C03_odd_stars_close : forall c b k rest,
  c <> "/"%char -> c <> "*"%char -> no_star b = true ->
  tokenize ("/*" ++ String c b ++ stars (2 * k + 1) ++ "/" ++ rest) = tokenize rest.
Proof.
  intros c b k rest C C' B.
  rewrite stars_app.
  change ("/*" ++ String c b ++ (stars (2 * k) ++ stars 1) ++ "/" ++ rest)
    with ("/*" ++ (String c b ++ (stars (2 * k) ++ "*") ++ "/" ++ rest)).
  replace (String c b ++ (stars (2 * k) ++ "*") ++ "/" ++ rest)
    with ((String c b ++ stars (2 * k)) ++ ("*/" ++ rest)) by now rewrite !app_assoc_s.
  rewrite <- !app_assoc_s, (app_assoc_s ("/*" ++ String c b) _ "*/"), (app_assoc_s "/*" (String c b) _),
    <- (app_assoc_s (String c b) _ "*/").
  apply tokenize_blank.
  apply bl_block.
  change (String "*" (String c b ++ stars (2 * k)))
    with (String "*" (String c b) ++ stars (2 * k)).
  apply comment_body_app; [now apply star_body|apply stars_even_body].
Qed.

Lemma lem_C03_even_stars_do_not_close : forall c b k rest,
  c <> "/"%char -> c <> "*"%char -> no_star b = true -> no_star rest = true ->
  tokenize ("/*" ++ String c b ++ stars (2 * k) ++ "/" ++ rest) = Ok [TEOF].
Proof.
  intros c b k rest C C' B R.
  apply tokenize_open_comment.
  apply oc_block.
  change (String "*" (String c b ++ stars (2 * k) ++ "/" ++ rest))
    with (String "*" (String c b) ++ stars (2 * k) ++ "/" ++ rest).
  apply comment_body_app; [now apply star_body|].
  apply comment_body_app; [apply stars_even_body|].
  constructor; [discriminate|].
  now apply no_star_body.
Qed.

Lemma lem_C03_empty_comment_swallows : forall rest, no_star rest = true ->
  tokenize ("/**/" ++ rest) = Ok [TEOF].
Proof.
  intros rest R.
  apply tokenize_open_comment.
  apply (oc_block ("*/" ++ rest)).
  cbn.
  apply cb_star; [discriminate|].
  constructor; [discriminate|].
  now apply no_star_body.
Qed.

Lemma lem_C04_words : forall w t s, is_word w = true -> word_token w t -> stops word_charb s ->
  tokenize (w ++ s) = let* us := tokenize s in Ok (t :: us).
Proof.
  intros w t s W T S.
  apply (tokenize_token w t word_charb); [now constructor|assumption].
Qed.

Lemma lem_C04_word_token_unique : forall w, exists t, word_token w t /\ forall u, word_token w u -> u = t.
Proof.
  intros w.
  exists (keyword_or_id w).
  split; [|intros u H; symmetry; now apply keyword_or_id_spec].
  unfold keyword_or_id.
  repeat match goal with
  | |- context [String.eqb w ?k] =>
      destruct (String.eqb_spec w k) as [->|]; [apply wt_reserved; cbn; intuition|]
  end.
  apply wt_name.
  cbn.
  intuition congruence.
Qed.

Lemma lem_C05_integer_literals : forall raw n s, int_spelling raw n ->
  stops (fun c => word_charb c || Ascii.eqb c ".") s ->
  tokenize (raw ++ s) =
  if (n <? 2 ^ 63)%N then let* us := tokenize s in Ok (TLit (IntLit (Z.of_N n)) :: us) else Panic.
Proof.
  intros raw n s I S.
  assert (SD : stops dec_stop s).
  { destruct s as [|c s]; [exact Logic.I|].
  cbn in *.
  unfold dec_stop.
  destruct c as [[] [] [] [] [] [] [] []]; cbn in *; congruence.
  }
  assert (SH : stops hex_stop s).
  { destruct s as [|c s]; [exact Logic.I|].
  cbn in *.
  unfold hex_stop.
  destruct c as [[] [] [] [] [] [] [] []]; cbn in *; congruence.
  }
  destruct I as [raw ds D|raw ds D].
  - destruct (N.ltb_spec (positional 10 ds) (2 ^ 63)) as [B|B].
  + apply (tokenize_token raw _ dec_stop); [now constructor|assumption].
  + now apply (dec_overflow raw ds).
  - destruct (N.ltb_spec (positional 16 ds) (2 ^ 63)) as [B|B].
  + apply (tokenize_token ("0x" ++ raw) _ hex_stop); [now constructor|assumption].
  + rewrite app_assoc_s.
  now apply (hex_overflow raw ds).
Qed.

Lemma lem_C05_literals_in_range : forall s ts z, tokenize s = Ok ts -> In (TLit (IntLit z)) ts ->
  (- 2 ^ 63 <= z < 2 ^ 63)%Z.
Proof.
  intros s ts z H I.
  apply tokens_in_range in H.
  rewrite Forall_forall in H.
  exact (H _ I).
Qed.

Lemma lem_C05_literals_not_negative : forall s ts z, has_under_minus s = false ->
  tokenize s = Ok ts -> In (TLit (IntLit z)) ts -> (0 <= z)%Z.
Proof.
  intros s ts z U H I.
  apply tokens_nonneg in H; [|assumption].
  rewrite Forall_forall in H.
  exact (H _ I).
Qed.

Lemma lem_C05_literals_not_negative_refuted : exists s ts z, tokenize s = Ok ts
  /\ In (TLit (IntLit z)) ts /\ (z < 0)%Z.
Proof.
  exists "0x_-F", [TLit (IntLit (-15)); TEOF], (-15)%Z.
  repeat split.
  now left.
Qed.

Lemma lem_C06_string_literals : forall v s, all_chars (fun c => negb (quoteb c)) v = true ->
  tokenize (String """" (v ++ """") ++ s) = let* us := tokenize s in Ok (TLit (StringLit v) :: us).
Proof.
  intros v s H.
  apply (tokenize_token _ _ (fun _ => false)); [now constructor|].
  now destruct s.
Qed.

Lemma lem_C06_unclosed_string_is_rejected : forall v, all_chars (fun c => negb (quoteb c)) v = true ->
  tokenize (String """" v) = Panic.
Proof.
  exact tokenize_unclosed_string.
Qed.

Lemma lem_C06_bytes_survive_iff_ascii : forall v,
  utf8_encode v = v <-> all_chars asciib v = true.
Proof.
  intros v.
  split.
  - intros E.
  destruct (all_chars asciib v) eqn:A; [reflexivity|].
  apply utf8_grows in A.
  rewrite E in A.
  lia.
  - apply utf8_ascii.
Qed.

Lemma lem_C06_encoding_is_local : forall a v b,
  utf8_encode (a ++ v ++ b) = utf8_encode a ++ utf8_encode v ++ utf8_encode b.
Proof.
  intros.
  now rewrite !utf8_app.
Qed.

(** ** C07 (token level; rejection by the parser is in PropertiesParse.v) *)
Definition tab : ascii := ascii_of_nat 9.

Lemma lem_C07_tab_is_a_symbol : forall s ts r, reads s ts (String tab r) ->
  tokenize s = let* us := tokenize r in Ok (ts ++ TSym tab :: us)%list.
Proof.
  intros s ts r H.
  rewrite (tokenize_reads _ _ _ H).
  change (String tab r) with (String tab "" ++ r).
  rewrite (tokenize_token (String tab "") (TSym tab) (fun _ => false) r
             (sp_symbol tab eq_refl)) by now destruct r.
  destruct (tokenize r); reflexivity.
Qed.

Lemma lem_C07_lone_slash : forall s ts c r, reads s ts (String "/" (String c r)) ->
  c <> "/"%char -> c <> "*"%char ->
  tokenize s = let* us := tokenize r in Ok (ts ++ TSym "/" :: TSym "/" :: us)%list.
Proof.
  intros s ts c r H A B.
  rewrite (tokenize_reads _ _ _ H), (tokenize_slash c r) by assumption.
  destruct (tokenize r); reflexivity.
Qed.

Lemma lem_C07_slash_at_the_end : forall s ts, reads s ts "/" ->
  tokenize s = Ok (ts ++ [TSym "/"; TSym "/"; TEOF])%list.
Proof.
  intros s ts H.
  rewrite (tokenize_reads _ _ _ H).
  reflexivity.
Qed.
