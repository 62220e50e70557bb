(** Lemmas about the model of the lexer (Lexer.v). *)
Require Import Coq.Strings.String Coq.Strings.Ascii.
Require Import Coq.NArith.NArith Coq.ZArith.ZArith Coq.Lists.List Coq.Bool.Bool Coq.micromega.Lia.
Require Import Coq.micromega.ZifyBool Coq.micromega.ZifyNat Coq.micromega.ZifyN.
Require Import Verif.Base Verif.F64 Verif.Ast Verif.Lexer Verif.LexSpec.
Import ListNotations.
Local Open Scope string_scope.

(** ** Character classes *)

Lemma is_char_number_spec c : is_char_number c = digitb c.
Proof. destruct c as [[] [] [] [] [] [] [] []]; reflexivity. Qed.

Lemma is_char_hex_spec c : is_char_hex_number c = hexb c.
Proof. destruct c as [[] [] [] [] [] [] [] []]; reflexivity. Qed.

Lemma is_char_id_first c : is_char_id c true = word_startb c.
Proof. destruct c as [[] [] [] [] [] [] [] []]; reflexivity. Qed.

Lemma is_char_id_rest c : is_char_id c false = word_charb c.
Proof. destruct c as [[] [] [] [] [] [] [] []]; reflexivity. Qed.

Lemma quote_spec c : Ascii.eqb c quote = quoteb c.
Proof. destruct c as [[] [] [] [] [] [] [] []]; reflexivity. Qed.

Lemma line_end_spec c : (Ascii.eqb c cr || Ascii.eqb c lf) = line_endb c.
Proof. destruct c as [[] [] [] [] [] [] [] []]; reflexivity. Qed.

Lemma blank_spec c : (Ascii.eqb c " " || Ascii.eqb c lf || Ascii.eqb c cr) = blankb c.
Proof. destruct c as [[] [] [] [] [] [] [] []]; reflexivity. Qed.

Lemma to_digit_dec c : to_digit 10 c = if digitb c then Some (digit_weight c) else None.
Proof. destruct c as [[] [] [] [] [] [] [] []]; reflexivity. Qed.

Lemma to_digit_hex c : hexb c = true -> to_digit 16 c = Some (digit_weight c).
Proof. destruct c as [[] [] [] [] [] [] [] []]; try reflexivity; discriminate. Qed.

Lemma digit_val_spec c : digit_val c = if digitb c then Some (digit_weight c) else None.
Proof. destruct c as [[] [] [] [] [] [] [] []]; reflexivity. Qed.

(** ** Every step consumes input *)

Lemma single_comment_length s : String.length (lex_single_line_comment s) <= String.length s.
Proof.
  induction s as [|c s IH]; cbn; [lia|]. destruct (_ || _); cbn; lia.
Qed.

Lemma multi_comment_length_aux n : forall s, String.length s <= n ->
  String.length (lex_multi_line_comment s) <= String.length s.
Proof.
  induction n as [|n IH]; intros [|c s]; cbn; try lia; intros H.
  destruct (Ascii.eqb c "*").
  - destruct s as [|c2 s]; cbn; [lia|]. destruct (Ascii.eqb c2 "/"); [lia|].
    specialize (IH s). cbn in H. lia.
  - specialize (IH s). lia.
Qed.

Lemma multi_comment_length s : String.length (lex_multi_line_comment s) <= String.length s.
Proof. eapply multi_comment_length_aux; reflexivity. Qed.

Lemma lex_id_loop_cons c s' :
  lex_id_loop (String c s') =
  match s' with
  | "" => Ok (String c "", "")
  | String ch _ =>
      if is_char_id ch false then
        let* (name, rest) := lex_id_loop s' in Ok (String c name, rest)
      else Ok (String c "", s')
  end.
Proof. reflexivity. Qed.

Lemma lex_string_loop_cons c s' :
  lex_string_loop (String c s') =
  if Ascii.eqb c quote then Ok ("", s')
  else
    match s' with
    | "" => Panic
    | _ => let* (value, rest) := lex_string_loop s' in Ok (String c value, rest)
    end.
Proof. reflexivity. Qed.

Lemma lex_number_loop_cons c s' is_hex is_float :
  lex_number_loop (String c s') is_hex is_float =
  match s' with
  | "" => Ok (String c "", is_hex, is_float, "")
  | String ch s'' =>
      if Ascii.eqb ch "_" then
        let* (v, h, f, rest) := lex_number_loop s'' is_hex is_float in
        Ok (String c v, h, f, rest)
      else if Ascii.eqb ch "." && negb is_hex && negb is_float then
        let* (v, h, f, rest) := lex_number_loop s' is_hex true in
        Ok (String c v, h, f, rest)
      else if Ascii.eqb ch "x" && negb is_hex && negb is_float then
        let* (v, h, f, rest) := lex_number_loop s' true is_float in
        Ok (String c v, h, f, rest)
      else if (negb is_hex && negb (is_char_number ch))
              || (is_hex && negb (is_char_hex_number ch)) then
        Ok (String c "", is_hex, is_float, s')
      else
        let* (v, h, f, rest) := lex_number_loop s' is_hex is_float in
        Ok (String c v, h, f, rest)
  end.
Proof. reflexivity. Qed.

Lemma lex_id_loop_ok c s : exists name rest,
  lex_id_loop (String c s) = Ok (name, rest) /\ String.length rest <= String.length s.
Proof.
  revert c; induction s as [|d s IH]; intros c.
  - exists (String c ""), "". split; [reflexivity|cbn; lia].
  - rewrite lex_id_loop_cons. destruct (is_char_id d false).
    + destruct (IH d) as (name & rest & E & L). rewrite E. cbn.
      eexists _, _. split; [reflexivity|lia].
    + eexists _, _. split; [reflexivity|cbn; lia].
Qed.

Lemma lex_string_loop_shape s :
  lex_string_loop s = Panic \/
  exists v rest, lex_string_loop s = Ok (v, rest) /\ String.length rest < String.length s.
Proof.
  induction s as [|c s IH]; [left; reflexivity|].
  rewrite lex_string_loop_cons. destruct (Ascii.eqb c quote).
  - right. exists "", s. split; [reflexivity|cbn; lia].
  - destruct s as [|d s]; [left; reflexivity|].
    destruct IH as [E|(v & rest & E & L)]; rewrite E; cbn [bind]; [left; reflexivity|].
    right. eexists _, _. split; [reflexivity|cbn in *; lia].
Qed.

Lemma lex_number_loop_shape_aux n : forall s h f, String.length s <= n ->
  lex_number_loop s h f = Panic \/
  exists v h' f' rest, lex_number_loop s h f = Ok (v, h', f', rest)
                       /\ String.length rest < String.length s.
Proof.
  induction n as [|n IH]; intros [|c s] h f Hn; cbn in Hn; try lia; try (left; reflexivity).
  rewrite lex_number_loop_cons.
  destruct s as [|d s]; [right; eexists _, _, _, _; split; [reflexivity|cbn; lia]|].
  cbn in Hn.
  destruct (Ascii.eqb d "_").
  { destruct (IH s h f ltac:(lia)) as [E|(v & h' & f' & rest & E & L)]; rewrite E; cbn [bind];
      [left; reflexivity|]. right. eexists _, _, _, _. split; [reflexivity|cbn; lia]. }
  destruct (Ascii.eqb d "." && negb h && negb f).
  { destruct (IH (String d s) h true ltac:(cbn; lia)) as [E|(v & h' & f' & rest & E & L)];
      rewrite E; cbn [bind];
      [left; reflexivity|]. right. eexists _, _, _, _. split; [reflexivity|cbn in *; lia]. }
  destruct (Ascii.eqb d "x" && negb h && negb f).
  { destruct (IH (String d s) true f ltac:(cbn; lia)) as [E|(v & h' & f' & rest & E & L)];
      rewrite E; cbn [bind];
      [left; reflexivity|]. right. eexists _, _, _, _. split; [reflexivity|cbn in *; lia]. }
  destruct (_ || _).
  { right. eexists _, _, _, _. split; [reflexivity|cbn; lia]. }
  { destruct (IH (String d s) h f ltac:(cbn; lia)) as [E|(v & h' & f' & rest & E & L)];
      rewrite E; cbn [bind];
      [left; reflexivity|]. right. eexists _, _, _, _. split; [reflexivity|cbn in *; lia]. }
Qed.

Lemma lex_number_loop_shape s h f :
  lex_number_loop s h f = Panic \/
  exists v h' f' rest, lex_number_loop s h f = Ok (v, h', f', rest)
                       /\ String.length rest < String.length s.
Proof. eapply lex_number_loop_shape_aux; reflexivity. Qed.

Lemma keyword_or_id_not_eof w : keyword_or_id w <> TEOF.
Proof. unfold keyword_or_id. repeat destruct (String.eqb _ _); discriminate. Qed.

Lemma lex_id_shape c s : exists t rest,
  lex_id (String c s) = Ok (t, rest) /\ String.length rest <= String.length s /\ t <> TEOF.
Proof.
  unfold lex_id. destruct (lex_id_loop_ok c s) as (name & rest & E & L).
  rewrite E. cbn. eexists _, _. split; [reflexivity|]. split; [lia|apply keyword_or_id_not_eof].
Qed.

Lemma lex_string_shape c s :
  lex_string (String c s) = Panic \/
  exists t rest, lex_string (String c s) = Ok (t, rest)
                 /\ String.length rest <= String.length s /\ t <> TEOF.
Proof.
  unfold lex_string. cbn [advance]. destruct s as [|d s]; [left; reflexivity|].
  destruct (lex_string_loop_shape (String d s)) as [E|(v & rest & E & L)]; rewrite E; cbn [bind];
    [left; reflexivity|].
  right. eexists _, _. split; [reflexivity|]. split; [lia|discriminate].
Qed.

Lemma lex_number_shape c s :
  lex_number (String c s) = Panic \/
  exists t rest, lex_number (String c s) = Ok (t, rest)
                 /\ String.length rest <= String.length s /\ t <> TEOF.
Proof.
  unfold lex_number.
  destruct (lex_number_loop_shape (String c s) false false) as [E|(v & h & f & rest & E & L)];
    rewrite E; cbn [bind]; [left; reflexivity|]. cbn in L.
  destruct h.
  - destruct (i64_from_str_radix _ _); [|left; reflexivity].
    right. eexists _, _. split; [reflexivity|]. split; [lia|discriminate].
  - destruct f.
    + destruct (parse_f64 v); [|left; reflexivity].
      right. eexists _, _. split; [reflexivity|]. split; [lia|discriminate].
    + destruct (i64_from_str_radix _ _); [|left; reflexivity].
      right. eexists _, _. split; [reflexivity|]. split; [lia|discriminate].
Qed.

(** One iteration of the main loop: the tokens it pushes and the text it leaves. *)
Inductive step_result : Type :=
| StepEnd
| StepPanic
| Step (ts : list token) (rest : string).

Definition lex_step (s : string) : step_result :=
  match s with
  | "" => StepEnd
  | String ch s' =>
      let one r := match r with Ok (t, rest) => Step [t] rest | _ => StepPanic end in
      if is_char_id ch true then one (lex_id s)
      else if Ascii.eqb ch quote then one (lex_string s)
      else if is_char_number ch then one (lex_number s)
      else if Ascii.eqb ch " " || Ascii.eqb ch lf || Ascii.eqb ch cr then Step [] s'
      else if Ascii.eqb ch "/" then
        match s' with
        | String "/" _ => Step [] (lex_single_line_comment s')
        | String "*" _ => Step [] (lex_multi_line_comment s')
        | _ => Step [TSym "/"; TSym ch] (advance s')
        end
      else Step [TSym ch] s'
  end.

Lemma ascii_slash_star {A : Type} (s : string) (a b c : A) :
  match s with String "/" _ => a | String "*" _ => b | _ => c end =
  match s with
  | "" => c
  | String d _ => if Ascii.eqb d "/" then a else if Ascii.eqb d "*" then b else c
  end.
Proof. destruct s as [|[[] [] [] [] [] [] [] []] s]; reflexivity. Qed.

Lemma lex_loop_step fuel s :
  lex_loop (S fuel) s =
  match lex_step s with
  | StepEnd => Ok [TEOF]
  | StepPanic => Panic
  | Step ts rest => let* us := lex_loop fuel rest in Ok (ts ++ us)%list
  end.
Proof.
  assert (ID : forall r : res (list token), r = let* us := r in Ok ([] ++ us)%list)
    by (intros []; reflexivity).
  destruct s as [|ch s]; [reflexivity|].
  cbn [lex_loop lex_step].
  destruct (is_char_id ch true).
  { destruct (lex_id_shape ch s) as (t & rest & E & _). rewrite E. reflexivity. }
  destruct (Ascii.eqb ch quote).
  { destruct (lex_string_shape ch s) as [E|(t & rest & E & _)]; rewrite E; reflexivity. }
  destruct (is_char_number ch).
  { destruct (lex_number_shape ch s) as [E|(t & rest & E & _)]; rewrite E; reflexivity. }
  destruct (_ || _ || _); [apply ID|].
  destruct (Ascii.eqb ch "/"); [|reflexivity].
  rewrite !ascii_slash_star.
  destruct s as [|d s]; [reflexivity|].
  destruct (Ascii.eqb d "/"); [apply ID|].
  destruct (Ascii.eqb d "*"); [apply ID|reflexivity].
Qed.

Lemma lex_step_consumes s ts rest :
  lex_step s = Step ts rest -> String.length rest < String.length s /\ ~ In TEOF ts.
Proof.
  destruct s as [|ch s]; [discriminate|].
  cbn [lex_step].
  destruct (is_char_id ch true).
  { destruct (lex_id_shape ch s) as (t & r & E & L & N). rewrite E. intros [= <- <-].
    cbn. split; [lia|]. intuition. }
  destruct (Ascii.eqb ch quote).
  { destruct (lex_string_shape ch s) as [E|(t & r & E & L & N)]; rewrite E; intros [= <- <-].
    cbn. split; [lia|]. intuition. }
  destruct (is_char_number ch).
  { destruct (lex_number_shape ch s) as [E|(t & r & E & L & N)]; rewrite E; intros [= <- <-].
    cbn. split; [lia|]. intuition. }
  destruct (_ || _ || _); [intros [= <- <-]; cbn; split; [lia|intuition]|].
  destruct (Ascii.eqb ch "/");
    [|intros [= <- <-]; cbn; split; [lia|intuition discriminate]].
  rewrite ascii_slash_star.
  destruct s as [|d s]; [intros [= <- <-]; cbn; split; [lia|intuition discriminate]|].
  destruct (Ascii.eqb d "/").
  { intros [= <- <-]. pose proof (single_comment_length (String d s)). cbn in *.
    split; [lia|intuition]. }
  destruct (Ascii.eqb d "*").
  { intros [= <- <-]. pose proof (multi_comment_length (String d s)). cbn in *.
    split; [lia|intuition]. }
  intros [= <- <-]. cbn. split; [lia|intuition discriminate].
Qed.

Lemma lex_loop_fuel n : forall f f' s, String.length s <= n -> String.length s < f ->
  String.length s < f' -> lex_loop f s = lex_loop f' s.
Proof.
  induction n as [|n IH]; intros [|f] [|f'] s Hn H H'; try lia; rewrite !lex_loop_step.
  - destruct s as [|c s]; cbn in Hn; [reflexivity|lia].
  - destruct (lex_step s) as [| |ts rest] eqn:E; try reflexivity.
    apply lex_step_consumes in E as [E _]. rewrite (IH f f' rest) by lia. reflexivity.
Qed.

Lemma tokenize_fuel f s : String.length s < f -> lex_loop f s = tokenize s.
Proof. intros H. eapply lex_loop_fuel; [reflexivity|lia|lia]. Qed.

(** [tokenize] satisfies the defining equation of an unbounded loop. *)
Lemma tokenize_step s :
  tokenize s =
  match lex_step s with
  | StepEnd => Ok [TEOF]
  | StepPanic => Panic
  | Step ts rest => let* us := tokenize rest in Ok (ts ++ us)%list
  end.
Proof.
  unfold tokenize at 1. rewrite lex_loop_step.
  destruct (lex_step s) as [| |ts rest] eqn:E; try reflexivity.
  apply lex_step_consumes in E as [E _]. rewrite (tokenize_fuel _ rest) by lia. reflexivity.
Qed.

Lemma tokenize_shape_aux n : forall s, String.length s <= n ->
  tokenize s = Panic \/ exists us, tokenize s = Ok (us ++ [TEOF])%list /\ ~ In TEOF us.
Proof.
  induction n as [|n IH]; intros s Hn.
  - destruct s; cbn in Hn; [|lia]. right. exists []. split; [reflexivity|intuition].
  - rewrite tokenize_step. destruct (lex_step s) as [| |ts rest] eqn:E.
    + right. exists []. split; [reflexivity|intuition].
    + left; reflexivity.
    + apply lex_step_consumes in E as [L N].
      destruct (IH rest ltac:(lia)) as [E|(us & E & N')]; rewrite E; cbn [bind];
        [left; reflexivity|].
      right. exists (ts ++ us)%list. rewrite app_assoc. split; [reflexivity|].
      rewrite in_app_iff. intuition.
Qed.

Lemma tokenize_shape s :
  tokenize s = Panic \/ exists us, tokenize s = Ok (us ++ [TEOF])%list /\ ~ In TEOF us.
Proof. eapply tokenize_shape_aux; reflexivity. Qed.

(** The end-of-file token occurs exactly once, at the end. *)
Lemma tokenize_eof s ts : tokenize s = Ok ts ->
  exists us, ts = (us ++ [TEOF])%list /\ ~ In TEOF us.
Proof.
  intros H. destruct (tokenize_shape s) as [E|(us & E & N)]; rewrite E in H; [discriminate|].
  injection H as <-. eauto.
Qed.

(** ** Reading past the end *)

Lemma current_token_suffix ts k :
  current_token (mk_lexer k (ts ++ [TEOF])) = cur (skipn k (ts ++ [TEOF])).
Proof.
  unfold current_token. cbn [lx_cursor lx_tokens].
  destruct (Nat.leb_spec (List.length (ts ++ [TEOF])%list) k) as [H|H].
  - rewrite skipn_all2 by lia. rewrite last_last. reflexivity.
  - revert k H; induction ts as [|t ts IH]; intros [|k] H; cbn in *; try lia; try reflexivity.
    apply IH. lia.
Qed.

(** ** Text lemmas *)

Lemma app_assoc_s (a b c : string) : (a ++ b) ++ c = a ++ b ++ c.
Proof. induction a as [|x a IH]; cbn; [reflexivity|]. now rewrite IH. Qed.

Lemma app_nil_s (a : string) : a ++ "" = a.
Proof. induction a as [|x a IH]; cbn; [reflexivity|]. now rewrite IH. Qed.

Lemma length_app_s (a b : string) :
  String.length (a ++ b) = String.length a + String.length b.
Proof. induction a as [|x a IH]; cbn; [reflexivity|]. now rewrite IH. Qed.

Lemma all_chars_app p a b : all_chars p (a ++ b) = all_chars p a && all_chars p b.
Proof. induction a as [|x a IH]; cbn; [reflexivity|]. now rewrite IH, andb_assoc. Qed.

(** ** Blanks and comments *)

Lemma blank_classes c : blankb c = true ->
  word_startb c = false /\ quoteb c = false /\ digitb c = false.
Proof. destruct c as [[] [] [] [] [] [] [] []]; try discriminate; repeat split. Qed.

Lemma bind_id {A} (r : res A) : (let* x := r in Ok x) = r.
Proof. destruct r; reflexivity. Qed.

Lemma step_blank c s : blankb c = true -> lex_step (String c s) = Step [] s.
Proof.
  intros H. destruct (blank_classes c H) as (W & Q & D).
  cbn [lex_step]. rewrite is_char_id_first, W, quote_spec, Q, is_char_number_spec, D, blank_spec, H.
  reflexivity.
Qed.

Lemma step_line s : lex_step ("//" ++ s) = Step [] (lex_single_line_comment s).
Proof. reflexivity. Qed.

Lemma step_block s : lex_step ("/*" ++ s) = Step [] (lex_multi_line_comment ("*" ++ s)).
Proof. reflexivity. Qed.

Lemma step_nothing s rest : lex_step s = Step [] rest -> tokenize s = tokenize rest.
Proof. intros H. rewrite tokenize_step, H. apply bind_id. Qed.

Lemma single_line_body b c s :
  all_chars (fun c => negb (line_endb c)) b = true -> line_endb c = true ->
  lex_single_line_comment (b ++ String c s) = s.
Proof.
  intros H L. induction b as [|d b IH]; cbn.
  - now rewrite line_end_spec, L.
  - cbn in H. apply andb_true_iff in H as [H1 H2]. rewrite line_end_spec.
    destruct (line_endb d); [discriminate|auto].
Qed.

Lemma single_line_open b :
  all_chars (fun c => negb (line_endb c)) b = true -> lex_single_line_comment b = "".
Proof.
  intros H. induction b as [|d b IH]; cbn; [reflexivity|].
  cbn in H. apply andb_true_iff in H as [H1 H2]. rewrite line_end_spec.
  destruct (line_endb d); [discriminate|auto].
Qed.

Lemma multi_body b s : comment_body b ->
  lex_multi_line_comment (b ++ s) = lex_multi_line_comment s.
Proof.
  induction 1 as [|c b N _ IH|c b N _ IH]; cbn [append]; [reflexivity| |].
  - cbn [lex_multi_line_comment]. apply Ascii.eqb_neq in N. now rewrite N.
  - cbn [lex_multi_line_comment]. apply Ascii.eqb_neq in N. cbn. now rewrite N.
Qed.

Lemma tokenize_blank b s : blank b -> tokenize (b ++ s) = tokenize s.
Proof.
  intros H. apply step_nothing. destruct H as [c H|b c H L|b H|].
  - now apply step_blank.
  - rewrite app_assoc_s. rewrite step_line. rewrite app_assoc_s. cbn [append].
    now rewrite single_line_body.
  - rewrite app_assoc_s, step_block, app_assoc_s.
    change ("*" ++ b ++ "*/" ++ s) with (String "*" b ++ "*/" ++ s).
    rewrite multi_body by assumption. reflexivity.
  - reflexivity.
Qed.

Lemma tokenize_open_comment s : open_comment s -> tokenize s = Ok [TEOF].
Proof.
  intros H.
  change (Ok [TEOF]) with (tokenize ""). apply step_nothing. destruct H as [b H|b H|b H|].
  - rewrite step_line. now rewrite single_line_open.
  - rewrite step_block. change ("*" ++ b) with (String "*" b).
    rewrite <- (app_nil_s (String "*" b)), multi_body by assumption. reflexivity.
  - rewrite step_block. change ("*" ++ b ++ "*") with (String "*" b ++ "*").
    rewrite multi_body by assumption. reflexivity.
  - reflexivity.
Qed.

(** ** Words *)

Lemma lex_id_loop_word c w s : all_chars word_charb w = true -> stops word_charb s ->
  lex_id_loop (String c (w ++ s)) = Ok (String c w, s).
Proof.
  revert c; induction w as [|d w IH]; intros c H S; rewrite lex_id_loop_cons; cbn [append].
  - destruct s as [|e s]; [reflexivity|]. rewrite is_char_id_rest. cbn in S. now rewrite S.
  - cbn in H. apply andb_true_iff in H as [H1 H2].
    rewrite is_char_id_rest, H1, IH by assumption. reflexivity.
Qed.

Lemma keyword_or_id_spec w t : word_token w t -> keyword_or_id w = t.
Proof.
  unfold keyword_or_id. intros [u H|H].
  - cbn in H. repeat (destruct H as [H|H]; [injection H as <- <-; reflexivity|]). destruct H.
  - repeat match goal with
    | |- context [String.eqb w ?k] =>
        destruct (String.eqb_spec w k) as [->|]; [exfalso; eapply H; cbn; intuition|]
    end. reflexivity.
Qed.

Lemma step_word w t s : is_word w = true -> word_token w t -> stops word_charb s ->
  lex_step (w ++ s) = Step [t] s.
Proof.
  intros W T S. destruct w as [|c w]; [discriminate|].
  cbn in W. apply andb_true_iff in W as [W1 W2].
  cbn [append lex_step]. rewrite is_char_id_first, W1. unfold lex_id.
  rewrite lex_id_loop_word by assumption. cbn. now rewrite (keyword_or_id_spec _ _ T).
Qed.

(** ** Numbers *)

Definition lex_number_tail (s : string) (h f : bool) : res (string * bool * bool * string) :=
  match s with
  | "" => Ok ("", h, f, "")
  | String ch s'' =>
      if Ascii.eqb ch "_" then lex_number_loop s'' h f
      else if Ascii.eqb ch "." && negb h && negb f then lex_number_loop s h true
      else if Ascii.eqb ch "x" && negb h && negb f then lex_number_loop s true f
      else if (negb h && negb (digitb ch)) || (h && negb (hexb ch)) then Ok ("", h, f, s)
      else lex_number_loop s h f
  end.

Lemma lex_number_loop_tail c s h f :
  lex_number_loop (String c s) h f =
  let* (v, h', f', rest) := lex_number_tail s h f in Ok (String c v, h', f', rest).
Proof.
  rewrite lex_number_loop_cons. unfold lex_number_tail.
  destruct s as [|ch s]; [reflexivity|].
  rewrite is_char_number_spec, is_char_hex_spec.
  destruct (Ascii.eqb ch "_"); [reflexivity|].
  destruct (_ && _ && _); [reflexivity|].
  destruct (_ && _ && _); [reflexivity|].
  destruct (_ || _); reflexivity.
Qed.

Definition mode_digit (h : bool) : ascii -> bool := if h then hexb else digitb.

Lemma mode_digit_other h c : mode_digit h c = true ->
  Ascii.eqb c "_" = false /\ Ascii.eqb c "." = false /\ Ascii.eqb c "x" = false.
Proof.
  destruct h, c as [[] [] [] [] [] [] [] []]; cbn; try discriminate; repeat split.
Qed.

Lemma lex_number_tail_digit h f c s : mode_digit h c = true ->
  lex_number_tail (String c s) h f = lex_number_loop (String c s) h f.
Proof.
  intros H. destruct (mode_digit_other h c H) as (U & P & X).
  unfold lex_number_tail. rewrite U, P, X. cbn [andb].
  destruct h; cbn in H; rewrite H; reflexivity.
Qed.

Lemma digits_of_head isd raw ds : digits_of isd raw ds ->
  exists c r, raw = String c r /\ isd c = true.
Proof. destruct 1; eauto. Qed.

Lemma lex_number_digits h f raw ds k : digits_of (mode_digit h) raw ds ->
  lex_number_loop (raw ++ k) h f =
  let* (v, h', f', rest) := lex_number_tail k h f in Ok (ds ++ v, h', f', rest).
Proof.
  induction 1 as [c H|c raw ds H D IH|c raw ds H D IH].
  - apply lex_number_loop_tail.
  - cbn [append]. rewrite lex_number_loop_tail.
    destruct (digits_of_head _ _ _ D) as (c' & r & -> & H').
    cbn [append] in *. rewrite lex_number_tail_digit by assumption. rewrite IH.
    destruct (lex_number_tail k h f) as [[[[v h'] f'] rest]| |]; reflexivity.
  - cbn [append]. rewrite lex_number_loop_tail. cbn [lex_number_tail Ascii.eqb Bool.eqb].
    rewrite IH. destruct (lex_number_tail k h f) as [[[[v h'] f'] rest]| |]; reflexivity.
Qed.

Lemma digits_of_all isd raw ds : digits_of isd raw ds -> all_chars isd ds = true.
Proof. induction 1; cbn; rewrite ?H, ?IHdigits_of; reflexivity. Qed.

Lemma digits_of_nonempty isd raw ds : digits_of isd raw ds ->
  exists c r, ds = String c r /\ isd c = true.
Proof. destruct 1; eauto. Qed.

Lemma digits_value_dec ds : forall acc, all_chars digitb ds = true ->
  digits_value 10 ds acc = Some (acc * 10 ^ N.of_nat (String.length ds) + positional 10 ds)%N.
Proof.
  induction ds as [|c ds IH]; intros acc H; cbn [digits_value positional String.length].
  - f_equal. change (N.of_nat 0) with 0%N. rewrite N.pow_0_r. lia.
  - cbn in H. apply andb_true_iff in H as [H1 H2]. rewrite to_digit_dec, H1, IH by assumption.
    f_equal. rewrite Nnat.Nat2N.inj_succ, N.pow_succ_r'. lia.
Qed.

Lemma digits_value_hex ds : forall acc, all_chars hexb ds = true ->
  digits_value 16 ds acc = Some (acc * 16 ^ N.of_nat (String.length ds) + positional 16 ds)%N.
Proof.
  induction ds as [|c ds IH]; intros acc H; cbn [digits_value positional String.length].
  - f_equal. change (N.of_nat 0) with 0%N. rewrite N.pow_0_r. lia.
  - cbn in H. apply andb_true_iff in H as [H1 H2]. rewrite to_digit_hex, IH by assumption.
    f_equal. rewrite Nnat.Nat2N.inj_succ, N.pow_succ_r'. lia.
Qed.

Lemma i64_nosign radix c s : hexb c = true ->
  i64_from_str_radix radix (String c s) =
  match digits_value radix (String c s) 0 with
  | Some v => if (v <? 2 ^ 63)%N then Some (Z.of_N v) else None
  | None => None
  end.
Proof.
  intros H. unfold i64_from_str_radix.
  replace (match String c s with
           | String "-" t => (true, t) | String "+" t => (false, t) | _ => (false, String c s)
           end) with (false, String c s)
    by (destruct c as [[] [] [] [] [] [] [] []]; cbn in H; try discriminate; reflexivity).
  destruct (digits_value radix (String c s) 0) as [v|]; [|reflexivity].
  replace ((- 2 ^ 63 <=? Z.of_N v) && (Z.of_N v <? 2 ^ 63))%Z with (v <? 2 ^ 63)%N; [reflexivity|].
  change (2 ^ 63)%N with 9223372036854775808%N. change (2 ^ 63)%Z with 9223372036854775808%Z. lia.
Qed.

Lemma digit_is_hex c : digitb c = true -> hexb c = true.
Proof. unfold hexb, digitb. now intros ->. Qed.

Lemma i64_dec ds : all_chars digitb ds = true -> ds <> "" ->
  i64_from_str_radix 10 ds =
  if (positional 10 ds <? 2 ^ 63)%N then Some (Z.of_N (positional 10 ds)) else None.
Proof.
  intros H N. destruct ds as [|c ds]; [congruence|].
  rewrite i64_nosign, digits_value_dec by (assumption ||
    (cbn in H; apply andb_true_iff in H as [H _]; now apply digit_is_hex)).
  rewrite N.mul_0_l, N.add_0_l. reflexivity.
Qed.

Lemma i64_hex ds : all_chars hexb ds = true -> ds <> "" ->
  i64_from_str_radix 16 ds =
  if (positional 16 ds <? 2 ^ 63)%N then Some (Z.of_N (positional 16 ds)) else None.
Proof.
  intros H N. destruct ds as [|c ds]; [congruence|].
  rewrite i64_nosign, digits_value_hex by (assumption ||
    (cbn in H; apply andb_true_iff in H as [H _]; assumption)).
  rewrite N.mul_0_l, N.add_0_l. reflexivity.
Qed.

Lemma trim_0x_hex ds : all_chars hexb ds = true -> trim_0x (String "0" (String "x" ds)) = ds.
Proof.
  intros H. cbn. destruct ds as [|c ds]; [reflexivity|].
  cbn in H. apply andb_true_iff in H as [H1 H2].
  destruct c as [[] [] [] [] [] [] [] []]; try discriminate; try reflexivity.
  destruct ds as [|d ds]; [reflexivity|].
  cbn in H2. apply andb_true_iff in H2 as [H2 _].
  destruct d as [[] [] [] [] [] [] [] []]; try discriminate; reflexivity.
Qed.

Definition dec_stop (c : ascii) : bool :=
  digitb c || Ascii.eqb c "_" || Ascii.eqb c "." || Ascii.eqb c "x".
Definition hex_stop (c : ascii) : bool := hexb c || Ascii.eqb c "_".
Definition float_stop (c : ascii) : bool := digitb c || Ascii.eqb c "_".

Lemma tail_stop_dec s : stops dec_stop s -> lex_number_tail s false false = Ok ("", false, false, s).
Proof.
  destruct s as [|c s]; [reflexivity|]. unfold stops, dec_stop, lex_number_tail.
  destruct (digitb c), (Ascii.eqb c "_"), (Ascii.eqb c "."), (Ascii.eqb c "x"); try discriminate.
  reflexivity.
Qed.

Lemma tail_stop_hex s f : stops hex_stop s -> lex_number_tail s true f = Ok ("", true, f, s).
Proof.
  destruct s as [|c s]; [reflexivity|]. unfold stops, hex_stop, lex_number_tail.
  destruct (hexb c), (Ascii.eqb c "_"); try discriminate. cbn [orb andb negb].
  rewrite !andb_false_r. reflexivity.
Qed.

Lemma tail_stop_float s : stops float_stop s ->
  lex_number_tail s false true = Ok ("", false, true, s).
Proof.
  destruct s as [|c s]; [reflexivity|]. unfold stops, float_stop, lex_number_tail.
  destruct (digitb c), (Ascii.eqb c "_"); try discriminate. cbn [orb andb negb].
  rewrite !andb_false_r. reflexivity.
Qed.

Lemma digit_classes c : digitb c = true ->
  word_startb c = false /\ quoteb c = false.
Proof. destruct c as [[] [] [] [] [] [] [] []]; try discriminate; repeat split. Qed.

Lemma step_digit c s : digitb c = true ->
  lex_step (String c s) =
  match lex_number (String c s) with Ok (t, rest) => Step [t] rest | _ => StepPanic end.
Proof.
  intros H. destruct (digit_classes c H) as (W & Q).
  cbn [lex_step]. rewrite is_char_id_first, W, quote_spec, Q, is_char_number_spec, H. reflexivity.
Qed.

Lemma lex_number_dec raw ds s : digits_of digitb raw ds -> stops dec_stop s ->
  lex_number (raw ++ s) =
  if (positional 10 ds <? 2 ^ 63)%N
  then Ok (TLit (IntLit (Z.of_N (positional 10 ds))), s) else Panic.
Proof.
  intros D S. unfold lex_number.
  rewrite (lex_number_digits false false raw ds) by assumption.
  rewrite tail_stop_dec by assumption. cbn [bind]. rewrite app_nil_s.
  rewrite i64_dec; [destruct (_ <? _)%N; reflexivity|eapply digits_of_all; eassumption|].
  destruct (digits_of_nonempty _ _ _ D) as (c & r & -> & _). discriminate.
Qed.

Lemma lex_number_hex raw ds s : digits_of hexb raw ds -> stops hex_stop s ->
  lex_number ("0x" ++ raw ++ s) =
  if (positional 16 ds <? 2 ^ 63)%N
  then Ok (TLit (IntLit (Z.of_N (positional 16 ds))), s) else Panic.
Proof.
  intros D S. unfold lex_number. cbn [append].
  rewrite lex_number_loop_tail. cbn [lex_number_tail Ascii.eqb Bool.eqb andb negb].
  rewrite lex_number_loop_tail.
  assert (E : lex_number_tail (raw ++ s) true false = Ok (ds, true, false, s)).
  { pose proof D as D'. destruct (digits_of_head _ _ _ D') as (c & r & -> & H).
    cbn [append]. rewrite (lex_number_tail_digit true) by assumption.
    change (String c (r ++ s)) with (String c r ++ s).
    rewrite (lex_number_digits true false _ ds) by assumption.
    rewrite tail_stop_hex by assumption. cbn [bind]. now rewrite app_nil_s. }
  rewrite E. cbn [bind].
  assert (A : all_chars hexb ds = true) by (eapply digits_of_all; eassumption).
  rewrite trim_0x_hex, i64_hex; [destruct (_ <? _)%N; reflexivity|assumption| |assumption].
  destruct (digits_of_nonempty _ _ _ D) as (c & r & -> & _). discriminate.
Qed.

Lemma positional_app radix a b :
  positional radix (a ++ b)
  = (positional radix a * radix ^ N.of_nat (String.length b) + positional radix b)%N.
Proof.
  induction a as [|c a IH]; cbn [positional append]; [lia|].
  rewrite IH, length_app_s, Nnat.Nat2N.inj_add, N.pow_add_r. lia.
Qed.

Lemma take_digits_spec ds : forall k acc cnt, all_chars digitb ds = true -> stops digitb k ->
  take_digits (ds ++ k) acc cnt =
  ((acc * 10 ^ N.of_nat (String.length ds) + positional 10 ds)%N, cnt + String.length ds, k).
Proof.
  induction ds as [|c ds IH]; intros k acc cnt H S; cbn [append String.length positional].
  - change (N.of_nat 0) with 0%N. rewrite N.pow_0_r, N.mul_1_r, !N.add_0_r, Nat.add_0_r.
    destruct k as [|c k]; [reflexivity|]. cbn in S. cbn [take_digits]. now rewrite digit_val_spec, S.
  - cbn in H. apply andb_true_iff in H as [H1 H2]. cbn [take_digits].
    rewrite digit_val_spec, H1, IH by assumption.
    rewrite Nnat.Nat2N.inj_succ, N.pow_succ_r'. f_equal. f_equal; lia.
Qed.

Lemma parse_f64_text a b : all_chars digitb a = true -> all_chars digitb b = true -> a <> "" ->
  parse_f64 (a ++ "." ++ b)
  = Some (f64_of_dec (positional 10 (a ++ b)) (- Z.of_nat (String.length b))).
Proof.
  intros Ha Hb N. unfold parse_f64.
  rewrite take_digits_spec by (assumption || reflexivity). cbn [append].
  rewrite <- (app_nil_s b) at 1. rewrite take_digits_spec by (assumption || exact I).
  rewrite N.mul_0_l, N.add_0_l, !Nat.add_0_l, positional_app.
  destruct a as [|c a]; [congruence|]. cbn [String.length Nat.add parse_exp]. f_equal.
Qed.

Lemma lex_number_float raw a b s : float_spelling raw a b -> stops float_stop s ->
  lex_number (raw ++ s) =
  Ok (TLit (NumberLit (f64_of_dec (positional 10 (a ++ b)) (- Z.of_nat (String.length b)))), s).
Proof.
  intros F S.
  assert (E : lex_number_loop (raw ++ s) false false = Ok (a ++ "." ++ b, false, true, s)
              /\ all_chars digitb a = true /\ all_chars digitb b = true /\ a <> "").
  { destruct F as [raw a D|raw a raw2 b D D2].
    - split; [|split; [eapply digits_of_all; eassumption|split; [reflexivity|]]].
      2:{ destruct (digits_of_nonempty _ _ _ D) as (c & r & -> & _). discriminate. }
      rewrite app_assoc_s, (lex_number_digits false false raw a) by assumption.
      cbn [append lex_number_tail Ascii.eqb Bool.eqb andb negb].
      rewrite lex_number_loop_tail, tail_stop_float by assumption. reflexivity.
    - split; [|split; [eapply digits_of_all; eassumption
                      |split; [eapply digits_of_all; eassumption|]]].
      2:{ destruct (digits_of_nonempty _ _ _ D) as (c & r & -> & _). discriminate. }
      rewrite app_assoc_s, (lex_number_digits false false raw a) by assumption.
      cbn [append lex_number_tail Ascii.eqb Bool.eqb andb negb].
      rewrite lex_number_loop_tail.
      pose proof D2 as D2'. destruct (digits_of_head _ _ _ D2') as (c & r & -> & H).
      cbn [append]. rewrite (lex_number_tail_digit false) by assumption.
      change (String c (r ++ s)) with (String c r ++ s).
      rewrite (lex_number_digits false true _ b) by assumption.
      rewrite tail_stop_float by assumption. cbn [bind]. now rewrite app_nil_s. }
  destruct E as (E & Ha & Hb & N).
  unfold lex_number. rewrite E. cbn [bind]. now rewrite parse_f64_text.
Qed.

(** ** Strings and symbols *)

Lemma lex_string_loop_text s rest : all_chars (fun c => negb (quoteb c)) s = true ->
  lex_string_loop (s ++ String quote rest) = Ok (s, rest).
Proof.
  induction s as [|c s IH]; intros H; cbn [append]; rewrite lex_string_loop_cons.
  - reflexivity.
  - cbn in H. apply andb_true_iff in H as [H1 H2]. rewrite quote_spec.
    destruct (quoteb c); [discriminate|]. rewrite IH by assumption.
    destruct s; reflexivity.
Qed.

Lemma lex_string_loop_unclosed s : all_chars (fun c => negb (quoteb c)) s = true ->
  lex_string_loop s = Panic.
Proof.
  induction s as [|c s IH]; intros H; [reflexivity|]. rewrite lex_string_loop_cons.
  cbn in H. apply andb_true_iff in H as [H1 H2]. rewrite quote_spec.
  destruct (quoteb c); [discriminate|]. rewrite IH by assumption. destruct s; reflexivity.
Qed.

Lemma step_string s rest : all_chars (fun c => negb (quoteb c)) s = true ->
  lex_step (String """" (s ++ """") ++ rest) = Step [TLit (StringLit s)] rest.
Proof.
  intros H. cbn [append]. rewrite app_assoc_s. cbn [append].
  change (lex_step (String """" (s ++ String """" rest))) with
    (match lex_string (String quote (s ++ String quote rest)) with
     | Ok (t, rest) => Step [t] rest | _ => StepPanic end).
  unfold lex_string. cbn [advance].
  pose proof (lex_string_loop_text s rest H) as E.
  destruct s as [|c s]; cbn [append] in *; rewrite E; reflexivity.
Qed.

Lemma step_symbol c s : symbolb c = true -> lex_step (String c s) = Step [TSym c] s.
Proof.
  unfold symbolb. intros H. cbn [lex_step].
  rewrite is_char_id_first, quote_spec, is_char_number_spec, blank_spec.
  destruct (word_startb c), (quoteb c), (digitb c), (blankb c), (Ascii.eqb c "/"); try discriminate.
  reflexivity.
Qed.

Lemma digits_of_digit_step h raw ds s : digits_of digitb raw ds -> h = raw ++ s ->
  lex_step h = match lex_number h with Ok (t, rest) => Step [t] rest | _ => StepPanic end.
Proof.
  intros D ->. destruct (digits_of_head _ _ _ D) as (c & r & -> & H). cbn [append].
  now apply step_digit.
Qed.

Lemma step_token w t stop s : spells w t stop -> stops stop s ->
  lex_step (w ++ s) = Step [t] s.
Proof.
  intros [w' u W T|raw ds D B|raw ds D B|raw a b F|v H|c H] S.
  - now apply step_word.
  - rewrite (digits_of_digit_step _ raw ds s) by auto.
    rewrite (lex_number_dec raw ds s) by assumption.
    apply N.ltb_lt in B. now rewrite B.
  - rewrite app_assoc_s.
    change (lex_step ("0x" ++ raw ++ s)) with
      (match lex_number ("0x" ++ raw ++ s) with Ok (t, rest) => Step [t] rest | _ => StepPanic end).
    rewrite (lex_number_hex raw ds s) by assumption.
    apply N.ltb_lt in B. now rewrite B.
  - pose proof F as F'.
    assert (exists c r, raw = String c r /\ digitb c = true) as (c & r & E & Hc).
    { destruct F' as [raw a D|raw a raw2 b D _];
        destruct (digits_of_head _ _ _ D) as (c & r & -> & Hc); cbn; eauto. }
    rewrite E. cbn [append]. rewrite step_digit by assumption.
    change (String c (r ++ s)) with (String c r ++ s). rewrite <- E.
    now rewrite (lex_number_float raw a b s).
  - now apply step_string.
  - now apply step_symbol.
Qed.

Lemma tokenize_token w t stop s : spells w t stop -> stops stop s ->
  tokenize (w ++ s) = let* us := tokenize s in Ok (t :: us).
Proof. intros H S. rewrite tokenize_step, (step_token w t stop s) by assumption. reflexivity. Qed.

Lemma tokenize_reads s ts r : reads s ts r ->
  tokenize s = let* us := tokenize r in Ok (ts ++ us)%list.
Proof.
  induction 1 as [s|b s ts r B _ IH|w t stop s ts r W S _ IH].
  - symmetry. apply bind_id.
  - now rewrite tokenize_blank.
  - rewrite (tokenize_token w t stop) by assumption. rewrite IH.
    destruct (tokenize r); reflexivity.
Qed.
