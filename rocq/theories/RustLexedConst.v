(** Reading the generated Rust text, continued: constants. *)
Require Import Coq.Strings.String Coq.Strings.Ascii.
Require Import Coq.NArith.NArith Coq.ZArith.ZArith Coq.Lists.List Coq.Bool.Bool Coq.micromega.Lia.
Require Import Verif.Base Verif.F64 Verif.Ast Verif.Writer Verif.Code Verif.RustSyntax Verif.RustPrint
  Verif.CodeLex Verif.RustGen Verif.RustTree Verif.LexSpec Verif.NumText Verif.RustLexed.
Import ListNotations.
Local Open Scope string_scope.
Local Open Scope list_scope.

(** ** Literals *)

(** Texts without quotes and backslashes; finite numbers. *)
Definition rliteral (l : literal) : bool :=
  match l with
  | StringLit s => plain """" s
  | NumberLit F64Inf => false
  | _ => true
  end.

Lemma upto_digits a : all_chars digitb a = true -> digits_upto_dot a = (a, None).
Proof.
  induction a as [|c a IH]; [reflexivity|]. cbn. intros H. apply andb_true_iff in H as [H1 H2]. rewrite IH by assumption.
  destruct (Ascii.eqb_spec c "."); [subst; discriminate|reflexivity].
Qed.
Lemma upto_dot a b : all_chars digitb a = true -> digits_upto_dot (a ++ "." ++ b)%string = (a, Some b).
Proof.
  induction a as [|c a IH]; [reflexivity|]. cbn [all_chars append digits_upto_dot]. intros H. apply andb_true_iff in H as [H1 H2].
  change (String "." b) with ("." ++ b)%string in *. rewrite IH by assumption.
  destruct (Ascii.eqb_spec c "."); [subst; discriminate|reflexivity].
Qed.
Lemma digits_unsigned a r : all_chars digitb a = true -> a <> "" ->
  number_tree (a ++ r)%string = unsigned_tree (a ++ r)%string.
Proof.
  destruct a as [|c a]; [congruence|]. cbn. intros H _. apply andb_true_iff in H as [H1 H2].
  destruct (Ascii.eqb_spec c "-"); [subst; discriminate|reflexivity].
Qed.
Lemma digits_words a : all_chars digitb a = true -> a <> "" -> word a = true.
Proof. intros H N. apply digits_word in H. destruct a; [congruence|assumption]. Qed.

Lemma digits_number a : all_chars digitb a = true -> a <> "" -> number_tree a = ENum a.
Proof.
  intros A N. pose proof (digits_unsigned a "" A N) as E. rewrite append_nil_s in E. rewrite E.
  unfold unsigned_tree. now rewrite upto_digits.
Qed.
Lemma digits_float a b : all_chars digitb a = true -> a <> "" -> number_tree (a ++ "." ++ b)%string = EFloat a b.
Proof. intros A N. rewrite digits_unsigned by assumption. unfold unsigned_tree. now rewrite upto_dot. Qed.

Lemma int_chunk z : chunk (show_Z z) (flat (pr (number_tree (show_Z z)))).
Proof.
  destruct z as [|p|p]; cbn [show_Z].
  - eapply chunk_intro; [lex|reflexivity|reflexivity|reflexivity].
  - rewrite digits_number by (apply show_N_digits || apply show_N_nonempty). apply chunk_name, word_show_N.
  - assert (E : number_tree ("-" ++ show_N (N.pos p)) = ENeg (ENum (show_N (N.pos p)))).
    { cbn [append number_tree Ascii.eqb Bool.eqb]. unfold unsigned_tree. rewrite upto_digits by apply show_N_digits. reflexivity. }
    rewrite E. eapply chunk_intro; [lex|reflexivity|reflexivity|reflexivity].
Qed.
Definition finite (x : f64) : bool := match x with F64Inf => false | _ => true end.
(** How a number is printed. *)
Lemma show_f64_digits x : finite x = true ->
  (exists a, all_chars digitb a = true /\ a <> "" /\ show_f64 x = a) \/
  (exists a b, all_chars digitb a = true /\ a <> "" /\ all_chars digitb b = true /\ b <> "" /\ show_f64 x = (a ++ "." ++ b)%string).
Proof.
  destruct x as [m e|]; [|discriminate]. intros _. cbn [show_f64]. destruct (m =? 0)%N.
  { left. exists "0". repeat split; discriminate. }
  destruct (choose_dec m e) as [d k]. destruct (N.eq_dec d 0) as [->|D].
  { left. exists "0". repeat split; discriminate. }
  destruct (show_dec_parts d k D) as (a & b & (A & AN & B & V) & [(K & -> & ->)|(K & BN & ->)]).
  - left. now exists a.
  - right. now exists a, b.
Qed.
Lemma f64_chunk x : finite x = true -> chunk (show_f64 x) (flat (pr (number_tree (show_f64 x)))).
Proof.
  intros F. destruct (show_f64_digits x F) as [(a & A & AN & ->)|(a & b & A & AN & B & BN & ->)].
  - rewrite digits_number by assumption. now apply chunk_name, digits_words.
  - rewrite digits_float by assumption. pose proof (digits_words a A AN). pose proof (digits_words b B BN).
    eapply chunk_intro; [lex|reflexivity|reflexivity|now apply starts_app, starts_word].
Qed.

Lemma value_chunk v : match v with ConstLiteral l _ => rliteral l end = true ->
  chunk (generate_const_value v) (flat (pr (const_value_tree v))).
Proof.
  destruct v as [[s|z|x|b] t]; cbn [rliteral generate_const_value const_value_tree]; intros R.
  - eapply chunk_intro; [lex|reflexivity|reflexivity|reflexivity].
  - apply int_chunk.
  - apply f64_chunk. now destruct x.
  - apply chunk_name. now destruct b.
Qed.

(** ** Constants *)

Definition rconst_value (id : string) (ty : type_id) (v : const_value) : bool :=
  rname id && rtype ty && match v with ConstLiteral l _ => rliteral l end.
Fixpoint rconst (c : const_node) : bool :=
  match c with
  | ConstNode id items =>
      rname id && forallb (fun i => match i with
                                    | ConstItemValue id ty v => rconst_value id ty v
                                    | ConstItemNode n => rconst n
                                    end) items
  end.

Section ConstInd.
  Variable P : const_node -> Prop.
  Hypothesis H : forall id items, (forall n, In (ConstItemNode n) items -> P n) -> P (ConstNode id items).
  Fixpoint const_ind2 (c : const_node) : P c :=
    match c with
    | ConstNode id items =>
        H id items ((fix go (l : list const_item) : forall n, In (ConstItemNode n) l -> P n :=
          match l return forall n, In (ConstItemNode n) l -> P n with
          | [] => fun n I => match I with end
          | i :: l' => fun n I =>
              match I with
              | or_introl E =>
                  match i as i0 return i0 = ConstItemNode n -> P n with
                  | ConstItemNode m => fun E => match E in _ = x return match x with ConstItemNode n => P n | _ => True end
                                                with eq_refl => const_ind2 m end
                  | ConstItemValue _ _ _ => fun E => match E in _ = x return match x with ConstItemNode _ => P n | _ => True end
                                                with eq_refl => Logic.I end
                  end E
              | or_intror I' => go l' n I'
              end
          end) items)
    end.
End ConstInd.

Lemma const_line_lexes id ty v : rconst_value id ty v = true ->
  exists us st, rlexes LNone (let '(t, v) := const_type_and_value ty v in "pub const " ++ id ++ ": " ++ t ++ " = " ++ v ++ ";")%string us st
    /\ closed st = true /\ us ++ fin st = flat (pr_item (const_tree id ty v)).
Proof.
  intros R. unfold rconst_value in R. rewrite !andb_true_iff in R. destruct R as [[N T] V]. apply rname_word in N.
  pose proof (value_chunk v V) as C. pose proof (type_lexes ty T) as D. unchunk.
  unfold const_type_and_value, const_tree, runtime_path.
  destruct ty as [i n s|i n|i|i|i l|i]; try destruct (String.eqb i "GroupAddress");
    try destruct (String.eqb i "CommandsBufferAddress");
    (eexists _, _; split; [lex|split; [reflexivity|]]); trees; flat_eq.
Qed.

Definition const_item_tree (i : const_item) : item :=
  match i with
  | ConstItemValue id ty v => const_tree id ty v
  | ConstItemNode n => const_block_tree n
  end.

Lemma const_block_lexes c : rconst c = true -> forall tab,
  rlexes LNone (generate_const_block tab c) (flat (pr_item (const_block_tree c))) LNone.
Proof.
  induction c as [id items IH] using const_ind2. intros R tab. cbn [rconst] in R.
  apply andb_true_iff in R as [N R]. apply rname_word in N. cbn [generate_const_block const_block_tree pr_item].
  show_rops. fold const_item_tree.
  match goal with |- ops_lexes _ (_ ++ ?loop items true false ++ _) _ =>
    assert (L : forall l, (forall n, In (ConstItemNode n) l -> In (ConstItemNode n) items) ->
      forallb (fun i => match i with ConstItemValue id ty v => rconst_value id ty v | ConstItemNode n => rconst n end) l = true ->
      forall a b, rops (loop l a b) (flat (flat_map pr_item (map const_item_tree l)))) end.
  { induction l as [|i l IHl]; intros S F a b; [apply rops_nil|]. cbn [forallb] in F. apply andb_true_iff in F as [F1 F2].
    specialize (IHl (fun n I => S n (or_intror I)) F2). destruct i as [i ty v|n].
    - destruct (const_line_lexes i ty v F1) as (us & st & Lx & C & U). cbn [map const_item_tree flat_map].
      destruct (const_type_and_value ty v) as [t x]. specialize (IHl false true). destruct (negb b && negb a); opsq; flat_eq.
    - pose proof (IH n (S n (or_introl eq_refl)) F1 (tab + 1)%nat) as X. cbn [map const_item_tree flat_map].
      specialize (IHl false false). destruct (b && negb a); opsq; flat_eq. }
  specialize (L items (fun n I => I) R true false). change (map (fun i : const_item => match i with
        | ConstItemValue id ty v => const_tree id ty v
        | ConstItemNode n => const_block_tree n
        end) items) with (map const_item_tree items).
  opsq. flat_eq.
Qed.
