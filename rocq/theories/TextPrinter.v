(** Writing schemas as text: every token in some spelling, with some layout. *)
Require Import Coq.Strings.String Coq.Strings.Ascii.
Require Import Coq.NArith.NArith Coq.ZArith.ZArith Coq.QArith.QArith Coq.Lists.List Coq.Bool.Bool.
Require Import Coq.micromega.Lia Coq.micromega.ZifyBool Coq.micromega.ZifyN Coq.micromega.ZifyNat.
Require Import Verif.Base Verif.F64 Verif.F64Spec Verif.F64Proofs Verif.Ast Verif.Lexer Verif.LexSpec
  Verif.LexProofs Verif.LexMore Verif.NumText Verif.Parser Verif.Grammar Verif.GrammarMore
  Verif.ParseProofs Verif.Printer Verif.PrintProofs.
Import ListNotations.
Local Open Scope string_scope.

(** Tokens that have a spelling at all. *)
Definition writable (t : token) : Prop :=
  match t with
  | TStruct | TEnum | TFn | TRead | TAsync | TConst | TLit (BoolLit _) => True
  | TId n => is_word n = true /\ forall u, ~ In (n, u) reserved
  | TLit (IntLit z) => (0 <= z < 2 ^ 63)%Z
  | TLit (NumberLit (F64Fin m e)) => double m e
  | TLit (NumberLit F64Inf) => False
  | TLit (StringLit s) => all_chars (fun c => negb (quoteb c)) s = true
  | TSym c => symbolb c = true
  | TEOF => False
  end.

Definition token_text (t : token) : string :=
  match t with
  | TStruct => "struct" | TEnum => "enum" | TFn => "fn" | TRead => "read" | TAsync => "async"
  | TConst => "const"
  | TId n => n
  | TLit (StringLit s) => String """" (s ++ """")
  | TLit (IntLit z) => show_N (Z.to_N z)
  | TLit (NumberLit x) => float_text x
  | TLit (BoolLit true) => "true"
  | TLit (BoolLit false) => "false"
  | TSym c => String c ""
  | TEOF => ""
  end.

(** Every token followed by the blank [b]. *)
Definition spaced (b : string) (ts : list token) : string :=
  String.concat "" (map (fun t => token_text t ++ b) ts).

Lemma token_text_spells t : writable t ->
  exists stop, spells (token_text t) t stop
    /\ (forall c, blankb c = true -> stop c = false).
Proof.
  assert (BW : forall c, blankb c = true -> word_charb c = false).
  { intros [[] [] [] [] [] [] [] []]; cbn; congruence. }
  assert (WR : forall w t, is_word w = true -> In (w, t) reserved ->
    exists stop, spells w t stop /\ (forall c, blankb c = true -> stop c = false)).
  { intros w u W I. exists word_charb. split; [|assumption]. constructor; [assumption|]. now apply wt_reserved. }
  destruct t as [ | | | | | |n|[s|z|[m e|]|[]]|c| ]; cbn [writable token_text]; intros W;
    try (apply WR; [reflexivity|cbn; tauto]); try contradiction.
  - destruct W as [W N]. exists word_charb. split; [|assumption]. constructor; [assumption|]. now apply wt_name.
  - exists (fun _ => false). split; [|auto]. now constructor.
  - eexists. split.
    + replace (IntLit z) with (IntLit (Z.of_N (positional 10 (show_N (Z.to_N z)))))
        by (rewrite show_N_value, Z2N.id by lia; reflexivity).
      apply sp_dec.
      * apply digits_of_self; [apply show_N_digits|apply show_N_nonempty].
      * rewrite show_N_value. lia.
    + intros [[] [] [] [] [] [] [] []]; cbn; congruence.
  - destruct (float_text_spelling m e W) as (a & b & S & E). eexists. split.
    + pose proof (sp_float _ _ _ S) as SP. rewrite E in SP. exact SP.
    + intros [[] [] [] [] [] [] [] []]; cbn; congruence.
  - exists (fun _ => false). split; [|auto]. now constructor.
Qed.

Lemma spaced_cons b t ts : spaced b (t :: ts) = token_text t ++ b ++ spaced b ts.
Proof.
  unfold spaced. cbn [map String.concat].
  destruct (map (fun t => token_text t ++ b) ts) eqn:E.
  - now rewrite <- app_assoc_s, app_nil_s.
  - cbn [append]. now rewrite <- app_assoc_s.
Qed.

(** Layout (white characters and comments) that starts with a white character. *)
Definition separator (b : string) : Prop :=
  reads b [] "" /\ match b with String c _ => blankb c = true | "" => False end.

Lemma layout_prefix b s ts r : reads b [] "" -> reads s ts r -> reads (b ++ s) ts r.
Proof.
  intros B. remember [] as e eqn:E. remember "" as q eqn:Q. revert E Q.
  induction B as [x|w x us r' W B IH|w u stop x us r' SP ST B IH]; intros E Q H.
  - subst. exact H.
  - rewrite app_assoc_s. apply rd_blank; auto.
  - discriminate E.
Qed.

Lemma spaced_reads b ts : separator b -> Forall writable ts -> reads (spaced b ts) ts "".
Proof.
  intros [B S] F. induction F as [|t ts W F IH]; [apply rd_nil|]. rewrite spaced_cons.
  destruct (token_text_spells t W) as (stop & SP & BL).
  eapply rd_token; [exact SP| |apply layout_prefix; assumption].
  destruct b as [|c b]; [destruct S|]. cbn. now apply BL.
Qed.

(** Reading a schema text and, after a line feed, another one. *)
Lemma spells_nl w t stop : spells w t stop -> stop (ascii_of_nat 10) = false.
Proof. now intros []. Qed.

Lemma reads_extend s ts r t : reads s ts r ->
  reads (s ++ String (ascii_of_nat 10) t) ts (r ++ String (ascii_of_nat 10) t).
Proof.
  intros H. induction H as [s|b s ts r B H IH|w u stop s ts r SP ST H IH].
  - apply rd_nil.
  - rewrite app_assoc_s. now apply rd_blank.
  - rewrite app_assoc_s. eapply rd_token; [exact SP| |exact IH].
    destruct s as [|c s]; [apply (spells_nl _ _ _ SP)|exact ST].
Qed.

Lemma reads_app s ts r us r' : reads s ts r -> reads r us r' -> reads s (ts ++ us)%list r'.
Proof.
  intros H. revert us r'. induction H as [s|b s ts r B H IH|w u stop s ts r SP ST H IH]; intros us r' H'.
  - exact H'.
  - apply rd_blank; auto.
  - cbn. eapply rd_token; eauto.
Qed.

Lemma reads_two s ts t us : reads s ts "" -> reads t us "" ->
  reads (s ++ String (ascii_of_nat 10) t) (ts ++ us)%list "".
Proof.
  intros H H'. eapply reads_app; [eapply reads_extend, H|]. cbn.
  apply (rd_blank (String (ascii_of_nat 10) "") t); [|exact H']. constructor. reflexivity.
Qed.
