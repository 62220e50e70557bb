(** Tokens of texts written by writer calls with [push_tab] and [pop_tab] (Kotlin and Swift). *)
Require Import Coq.Strings.String Coq.Strings.Ascii.
Require Import Coq.NArith.NArith Coq.Lists.List Coq.Bool.Bool Coq.Arith.PeanoNat Coq.micromega.Lia.
Require Import Verif.Base Verif.Writer Verif.Code Verif.CodeLex.
Import ListNotations.
Local Open Scope string_scope.
Local Open Scope list_scope.

(** The calls append [text] and change the number of tabs from [n] to [n']. *)
Definition says (n : nat) (cs : list wcmd) (text : string) (n' : nat) : Prop :=
  forall r, run_cmds cs (mk_writer r "    " n) = Ok (mk_writer (r ++ text)%string "    " n').

Lemma says_nil n : says n [] "" n.
Proof. intros r. cbn. now rewrite append_nil_s. Qed.
Lemma run_cmds_app a b w : run_cmds (a ++ b) w = let* w' := run_cmds a w in run_cmds b w'.
Proof.
  revert w. induction a as [|c a IH]; intros w; [reflexivity|]. cbn [app run_cmds]. destruct (exec_cmd c w) as [w'| |]; cbn [bind]; try reflexivity. apply IH.
Qed.
Lemma says_app n a s m b t k : says n a s m -> says m b t k -> says n (a ++ b) (s ++ t)%string k.
Proof. intros A B r. rewrite run_cmds_app, A. cbn [bind]. rewrite B. now rewrite append_assoc_s. Qed.
Lemma says_do n o : says n [Do o] (op_text "    " n o) n.
Proof. intros r. reflexivity. Qed.

Section Lex.
  Variable quotes : ascii -> bool.
  Hypothesis no_nl : quotes (ascii_of_nat 10) = false.

  (** From the lexer state [st], with the token pending in it still to come, the calls give the tokens [ts]; the last one
      may be pending in [st']. *)
  Definition clex (n : nat) (st : lstate) (cs : list wcmd) (ts : list ctok) (n' : nat) (st' : lstate) : Prop :=
    exists text us, says n cs text n' /\ lexes quotes st text us st' /\ us ++ fin st' = fin st ++ ts.

  Lemma clex_nil n st : clex n st [] [] n st.
  Proof. exists "", []. split; [apply says_nil|]. split; [reflexivity|]. now rewrite app_nil_r. Qed.
  Lemma clex_app n st a ta m st1 b tb k st2 : clex n st a ta m st1 -> clex m st1 b tb k st2 -> clex n st (a ++ b) (ta ++ tb) k st2.
  Proof.
    intros (s & us & A1 & A2 & A3) (t & vs & B1 & B2 & B3). exists (s ++ t)%string, (us ++ vs).
    split; [eapply says_app; eassumption|]. split; [eapply lexes_app; eassumption|].
    rewrite <- app_assoc, B3, !app_assoc. now rewrite A3.
  Qed.
  Lemma clex_cons n st c cs ta m st1 tb k st2 : clex n st [c] ta m st1 -> clex m st1 cs tb k st2 -> clex n st (c :: cs) (ta ++ tb) k st2.
  Proof. intros A B. change (c :: cs) with ([c] ++ cs). eapply clex_app; eassumption. Qed.

  (** One text, read between tokens: the tokens with the pending one. *)
  Definition reads (s : string) (ts : list ctok) (st' : lstate) : Prop :=
    exists us, lexes quotes LNone s us st' /\ us ++ fin st' = ts.
  Lemma reads_nil : reads "" [] LNone.
  Proof. exists []. now split. Qed.
  Lemma reads_of s us st : run quotes LNone s = (us, st) -> reads s (us ++ fin st) st.
  Proof. intros H. exists us. now split. Qed.
  Lemma reads_word n : word n = true -> reads n [CW n] (LWord n).
  Proof. intros W. exists []. split; [now apply lexes_name|reflexivity]. Qed.
  Lemma reads_app a ta st b tb st' : reads a ta st -> reads b tb st' -> (st = LNone \/ seps st b = true) -> reads (a ++ b)%string (ta ++ tb) st'.
  Proof.
    intros (us & A1 & A2) (vs & B1 & B2) [->|S].
    - exists (us ++ vs). split; [eapply lexes_app; eassumption|]. cbn [fin] in A2. rewrite app_nil_r in A2. subst. now rewrite <- app_assoc.
    - exists (us ++ (fin st ++ vs)). split; [eapply lexes_app; [exact A1|]; now apply lexes_fin|]. subst. now rewrite <- !app_assoc.
  Qed.

  Lemma clex_write n st s ts st' : reads s ts st' -> (st = LNone \/ seps st s = true) -> clex n st [Do (Write s)] ts n st'.
  Proof.
    intros (us & L & <-) [->|S].
    - exists s, us. split; [apply says_do|]. split; [exact L|reflexivity].
    - exists s, (fin st ++ us). split; [apply says_do|]. split; [now apply lexes_fin|]. now rewrite app_assoc.
  Qed.
  Lemma tabs_blank c : In c (list_ascii_of_string "    ") -> c = " "%char.
  Proof. cbn. intuition. Qed.
  Lemma clex_tabs n : clex n LNone [Do WriteTabs] [] n LNone.
  Proof. exists (repeat_string "    " n), []. split; [apply says_do|]. split; [|reflexivity]. apply lexes_spaces. apply tabs_blank. Qed.
  Lemma clex_newline n st : closed st = true -> clex n st [Do NewLine] [] n LNone.
  Proof. intros C. exists nl, (fin st). split; [apply says_do|]. split; [now apply lexes_nl|]. now rewrite !app_nil_r. Qed.
  Lemma clex_line n s ts st' : reads s ts st' -> closed st' = true -> clex n LNone [Do (Writeln s)] ts n LNone.
  Proof.
    intros (us & L & <-) C. exists (repeat_string "    " n ++ s ++ nl)%string, ([] ++ us ++ fin st'). split; [apply says_do|].
    split; [|now rewrite app_nil_r]. eapply lexes_app; [apply lexes_spaces; apply tabs_blank|]. eapply lexes_app; [exact L|]. now apply lexes_nl.
  Qed.
  Lemma clex_push n st : clex n st [PushTab] [] (S n) st.
  Proof. exists "", []. split; [intros r; cbn; now rewrite append_nil_s|]. split; [reflexivity|]. now rewrite app_nil_r. Qed.
  Lemma clex_pop n st : clex (S n) st [PopTab] [] n st.
  Proof. exists "", []. split; [intros r; cbn; now rewrite append_nil_s|]. split; [reflexivity|]. now rewrite app_nil_r. Qed.

  (** What [Writer::default()] holds after the calls. *)
  Lemma clex_show cs ts : clex 0 LNone cs ts 0 LNone -> exists text, show_cmds cs = Ok text /\ code_tokens quotes text = Some ts.
  Proof.
    intros (s & us & A & L & E). exists s. split.
    - unfold show_cmds, writer_default, writer_new. change (repeat_string " " 4) with "    ". rewrite A. reflexivity.
    - unfold code_tokens. unfold lexes in L. rewrite L. cbn [flush]. cbn [fin app] in E. rewrite app_nil_r in E. subst. now rewrite app_nil_r.
  Qed.

  (** A token that may be followed by a comma, a blank or a line feed. *)
  Definition done (st : lstate) : bool :=
    match st with LNone | LWord _ => true | LSym c => Ascii.eqb c ")" || Ascii.eqb c ">" || Ascii.eqb c "]" | _ => false end.
  Lemma done_closed st : done st = true -> closed st = true.
  Proof. destruct st; cbn; congruence. Qed.
  Lemma done_seps st c s : done st = true -> wordc c = false -> c <> "="%char -> st = LNone \/ seps st (String c s) = true.
  Proof.
    intros D W N. destruct st as [|v|d| | |]; try discriminate; [now left| |]; right; cbn [seps sepc]; [now rewrite W|].
    cbn [done] in D. apply orb_true_iff in D as [D|D]; [apply orb_true_iff in D as [D|D]|]; apply Ascii.eqb_eq in D; subst d; reflexivity.
  Qed.
End Lex.
