(** Tokens of texts built from literals, names and writer calls. *)
Require Import Coq.Strings.String Coq.Strings.Ascii.
Require Import Coq.NArith.NArith Coq.Lists.List Coq.Bool.Bool Coq.Arith.PeanoNat Coq.micromega.Lia.
Require Import Verif.Base Verif.Writer Verif.Code.
Import ListNotations.
Local Open Scope string_scope.
Local Open Scope list_scope.

(** A non-empty string of letters, digits and underscores. *)
Fixpoint all_word (s : string) : bool :=
  match s with "" => true | String c s' => wordc c && all_word s' end.
Definition word (s : string) : bool := match s with "" => false | _ => all_word s end.

Lemma all_word_app a b : all_word (a ++ b)%string = all_word a && all_word b.
Proof. induction a as [|c a IH]; cbn; [reflexivity|]. now rewrite IH, andb_assoc. Qed.
Lemma word_all s : word s = true -> all_word s = true.
Proof. destruct s; [discriminate|]. auto. Qed.
Lemma word_app_l a b : word a = true -> all_word b = true -> word (a ++ b)%string = true.
Proof.
  intros A B. destruct a as [|c a]; [discriminate|]. cbn in A |- *.
  apply andb_true_iff in A as [A1 A2]. now rewrite A1, all_word_app, A2, B.
Qed.
Lemma word_app_r a b : all_word a = true -> word b = true -> word (a ++ b)%string = true.
Proof.
  intros A B. destruct a as [|c a]; [exact B|]. cbn in A |- *.
  apply andb_true_iff in A as [A1 A2]. now rewrite A1, all_word_app, A2, word_all.
Qed.

Lemma concat_strings_app a b : concat_strings (a ++ b) = (concat_strings a ++ concat_strings b)%string.
Proof. induction a as [|x a IH]; cbn; [reflexivity|]. rewrite IH. now rewrite append_assoc_s. Qed.

Section Lex.
  Variable quotes : ascii -> bool.

  Definition lexes (st : lstate) (s : string) (ts : list ctok) (st' : lstate) : Prop :=
    run quotes st s = (ts, st').

  Lemma lexes_nil st : lexes st "" [] st.
  Proof. reflexivity. Qed.

  Lemma lexes_app st a b t1 st1 t2 st2 :
    lexes st a t1 st1 -> lexes st1 b t2 st2 -> lexes st (a ++ b)%string (t1 ++ t2) st2.
  Proof. unfold lexes. intros A B. rewrite run_app, A. cbn [fst snd]. rewrite B. reflexivity. Qed.

  (** The token pending at the end of a text. *)
  Definition fin (st : lstate) : list ctok :=
    match st with
    | LWord w => [CW w]
    | LSym c => [CS (one c)]
    | _ => []
    end.
  (** No string is open. *)
  Definition closed (st : lstate) : bool :=
    match st with LStr _ _ | LEsc _ _ => false | _ => true end.

  (** The character [c] ends the pending token. *)
  Definition sepc (st : lstate) (c : ascii) : bool :=
    match st with
    | LNone => true
    | LWord _ => negb (wordc c)
    | LSym d => negb (is_pair d c) && negb (Ascii.eqb d "/" && Ascii.eqb c "/")
    | _ => false
    end.
  Definition seps (st : lstate) (s : string) : bool :=
    match s with "" => false | String c _ => sepc st c end.

  Lemma lexes_fin st s ts st' : seps st s = true -> lexes LNone s ts st' ->
    lexes st s (fin st ++ ts) st'.
  Proof.
    destruct s as [|c s]; [discriminate|]. unfold lexes. rewrite !run_cons. cbn [step fst snd app].
    intros S E. injection E as E1 E2. cbn [seps] in S.
    destruct st as [|v|d| | |]; cbn [sepc step fin fst snd] in *; try discriminate.
    - cbn. now rewrite E1, E2.
    - apply negb_true_iff in S. rewrite S. cbn. now rewrite E1, E2.
    - apply andb_true_iff in S as [S1 S2]. apply negb_true_iff in S1, S2. rewrite S1, S2. cbn.
      now rewrite E1, E2.
  Qed.

  Lemma lexes_word v n : all_word n = true -> lexes (LWord v) n [] (LWord (v ++ n)%string).
  Proof.
    unfold lexes. revert v. induction n as [|c n IH]; intros v H; cbn.
    - now rewrite append_nil_s.
    - cbn in H. apply andb_true_iff in H as [H1 H2]. rewrite H1. rewrite IH by assumption.
      now rewrite append_assoc_s.
  Qed.
  Lemma lexes_name n : word n = true -> lexes LNone n [] (LWord n).
  Proof.
    destruct n as [|c n]; [discriminate|]. cbn [word all_word]. intros H.
    apply andb_true_iff in H as [H1 H2]. unfold lexes. rewrite run_cons. cbn [step fst snd].
    unfold start. rewrite H1. pose proof (lexes_word (one c) n H2) as L. unfold lexes in L. rewrite L.
    reflexivity.
  Qed.

  (** A literal that starts with word characters, read after a word. *)
  Lemma lexes_join v a b ts st' : all_word a = true -> lexes (LWord (v ++ a)%string) b ts st' ->
    lexes (LWord v) (a ++ b)%string ts st'.
  Proof.
    intros A L. change ts with ([] ++ ts). eapply lexes_app; [|exact L]. now apply lexes_word.
  Qed.

  Lemma wordc_sep c d : wordc c = true -> sepc (LSym d) c = true.
  Proof.
    intros H. destruct c as [[] [] [] [] [] [] [] []]; try discriminate H;
    cbn [sepc]; unfold is_pair; cbn [pairs existsb fst snd Ascii.eqb Bool.eqb andb];
    rewrite ?andb_false_r; reflexivity.
  Qed.
  Lemma word_seps n d : word n = true -> seps (LSym d) n = true.
  Proof.
    destruct n as [|c n]; [discriminate|]. cbn [word all_word seps]. intros H. apply wordc_sep.
    now apply andb_true_iff in H.
  Qed.

  (** ** Strings *)

  (** Neither the quote nor a backslash. *)
  Fixpoint plain (q : ascii) (s : string) : bool :=
    match s with
    | "" => true
    | String c s' => negb (Ascii.eqb c q) && negb (Ascii.eqb c "\") && plain q s'
    end.
  Lemma lexes_plain q u s : plain q s = true -> lexes (LStr q u) s [] (LStr q (u ++ s)%string).
  Proof.
    unfold lexes. revert u. induction s as [|c s IH]; intros u H; cbn.
    - now rewrite append_nil_s.
    - cbn in H. apply andb_true_iff in H as [H1 H2]. apply andb_true_iff in H1 as [H0 H1].
      apply negb_true_iff in H0, H1. rewrite H0, H1. rewrite IH by assumption.
      now rewrite append_assoc_s.
  Qed.
  Lemma lexes_close q u s ts st' : lexes LNone s ts st' ->
    lexes (LStr q u) (String q s) (CQ u :: ts) st'.
  Proof.
    unfold lexes. intros H. rewrite run_cons. cbn [step]. rewrite Ascii.eqb_refl. cbn [fst snd].
    now rewrite H.
  Qed.

  (** ** Lines *)

  Lemma lexes_spaces tab n : (forall c, In c (list_ascii_of_string tab) -> c = " "%char) ->
    lexes LNone (repeat_string tab n) [] LNone.
  Proof.
    intros H. assert (T1 : lexes LNone tab [] LNone).
    { induction tab as [|c t IH]; [reflexivity|]. unfold lexes in *. rewrite run_cons. cbn [step fst snd].
      rewrite (H c) by now left. change (start quotes " ") with LNone. rewrite IH by (intros; apply H; now right).
      reflexivity. }
    induction n as [|n IH]; [reflexivity|]. cbn [repeat_string].
    change (@nil ctok) with (@nil ctok ++ []). eapply lexes_app; eauto.
  Qed.

  Lemma lexes_nl st : closed st = true -> quotes (ascii_of_nat 10) = false -> lexes st nl (fin st) LNone.
  Proof.
    intros C Q. unfold lexes, nl. destruct st as [|v|d| | |]; try discriminate C; cbn; try reflexivity.
    destruct d as [[] [] [] [] [] [] [] []]; reflexivity.
  Qed.

  (** The tokens one writer call adds between lines, and that it ends between tokens. *)
  Definition op_lexes (o : wop) (ts : list ctok) : Prop :=
    match o with
    | Write s | WriteTab _ s => lexes LNone s ts LNone
    | Writeln s | WritelnTab _ s => exists us st, lexes LNone s us st /\ closed st = true /\ ts = us ++ fin st
    | NewLine => ts = []
    | WriteTabs => False
    end.

  Hypothesis no_nl : quotes (ascii_of_nat 10) = false.

  Lemma op_text_lexes tab o ts : (forall c, In c (list_ascii_of_string tab) -> c = " "%char) ->
    op_lexes o ts -> lexes LNone (op_text tab 0 o) ts LNone.
  Proof.
    intros T O. destruct o as [|s|n s|s| |n s]; cbn [op_lexes op_text] in *; try contradiction.
    - exact O.
    - change ts with ([] ++ ts). eapply lexes_app; [now apply lexes_spaces|exact O].
    - destruct O as (us & st & L & C & ->). cbn [repeat_string append].
      eapply lexes_app; [exact L|]. now apply lexes_nl.
    - subst ts. now apply (lexes_nl LNone).
    - destruct O as (us & st & L & C & ->). cbn [Nat.add].
      change (us ++ fin st) with ([] ++ (us ++ fin st)).
      eapply lexes_app; [now apply lexes_spaces|]. eapply lexes_app; [exact L|]. now apply lexes_nl.
  Qed.

  Definition ops_lexes (ops : list wop) (ts : list ctok) : Prop := lexes LNone (show_ops ops) ts LNone.
  Definition ops2_lexes (ops : list wop) (ts : list ctok) : Prop := lexes LNone (show_ops2 ops) ts LNone.

  Lemma ops_nil : ops_lexes [] [].
  Proof. reflexivity. Qed.
  Lemma ops_cons o ops t ts : op_lexes o t -> ops_lexes ops ts -> ops_lexes (o :: ops) (t ++ ts).
  Proof.
    intros O L. unfold ops_lexes, show_ops. cbn [map concat_strings].
    eapply lexes_app; [|exact L]. apply op_text_lexes; auto. cbn. intuition (subst; reflexivity || auto).
  Qed.
  Lemma ops_app a b ta tb : ops_lexes a ta -> ops_lexes b tb -> ops_lexes (a ++ b) (ta ++ tb).
  Proof.
    intros A B. unfold ops_lexes, show_ops in *. rewrite map_app.
    replace (concat_strings (map (op_text "    " 0) a ++ map (op_text "    " 0) b))
      with (concat_strings (map (op_text "    " 0) a) ++ concat_strings (map (op_text "    " 0) b))%string.
    - eapply lexes_app; eauto.
    - symmetry. apply concat_strings_app.
  Qed.
  Lemma ops_flat_map {A} (f : A -> list wop) (g : A -> list ctok) l :
    (forall x, In x l -> ops_lexes (f x) (g x)) -> ops_lexes (flat_map f l) (flat_map g l).
  Proof.
    induction l as [|x l IH]; intros H; [reflexivity|]. cbn. apply ops_app; [apply H; now left|].
    apply IH. intros z Hz. apply H. now right.
  Qed.

  Lemma ops2_nil : ops2_lexes [] [].
  Proof. reflexivity. Qed.
  Lemma ops2_cons o ops t ts : op_lexes o t -> ops2_lexes ops ts -> ops2_lexes (o :: ops) (t ++ ts).
  Proof.
    intros O L. unfold ops2_lexes, show_ops2. cbn [map concat_strings].
    eapply lexes_app; [|exact L]. apply op_text_lexes; auto. cbn. intuition (subst; reflexivity || auto).
  Qed.
  Lemma show_ops2_app a b : show_ops2 (a ++ b) = (show_ops2 a ++ show_ops2 b)%string.
  Proof. unfold show_ops2. rewrite map_app. apply concat_strings_app. Qed.
  Lemma ops2_app a b ta tb : ops2_lexes a ta -> ops2_lexes b tb -> ops2_lexes (a ++ b) (ta ++ tb).
  Proof. intros A B. unfold ops2_lexes in *. rewrite show_ops2_app. eapply lexes_app; eauto. Qed.
  Lemma ops2_flat_map {A} (f : A -> list wop) (g : A -> list ctok) l :
    (forall x, In x l -> ops2_lexes (f x) (g x)) -> ops2_lexes (flat_map f l) (flat_map g l).
  Proof.
    induction l as [|x l IH]; intros H; [reflexivity|]. cbn. apply ops2_app; [apply H; now left|].
    apply IH. intros z Hz. apply H. now right.
  Qed.
End Lex.
