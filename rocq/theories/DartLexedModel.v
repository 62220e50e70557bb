(** Reading the generated Dart text, continued: lines and models. *)
Require Import Coq.Strings.String Coq.Strings.Ascii.
Require Import Coq.NArith.NArith Coq.ZArith.ZArith Coq.Lists.List Coq.Bool.Bool Coq.micromega.Lia.
Require Import Verif.Base Verif.F64 Verif.Ast Verif.Writer Verif.CaseConv Verif.Code Verif.CodeLex Verif.LexSpec
  Verif.NumText Verif.RustLexed.
Require Import Verif.DartSyntax Verif.DartPrint Verif.DartGen Verif.DartTree Verif.DartLexed.
Require Verif.RustTree.
Import ListNotations.
Local Open Scope string_scope.
Local Open Scope list_scope.

(** ** Lines *)

Lemma dline_op s us st : dlexes LNone s us st -> closed st = true ->
  op_lexes dart_quotes (Writeln s) (us ++ fin st).
Proof. intros L C. now exists us, st. Qed.
Lemma dline_tab_op n s us st : dlexes LNone s us st -> closed st = true ->
  op_lexes dart_quotes (WritelnTab n s) (us ++ fin st).
Proof. intros L C. now exists us, st. Qed.
Lemma dwrite_op s us : dlexes LNone s us LNone -> op_lexes dart_quotes (Write s) us.
Proof. exact (fun H => H). Qed.

Lemma dops_eq l ts ts' : dops l ts -> ts = ts' -> dops l ts'.
Proof. now intros H ->. Qed.
Lemma dops_nil : dops [] [].
Proof. apply ops2_nil. Qed.
Lemma dops_cons o l t ts : op_lexes dart_quotes o t -> dops l ts -> dops (o :: l) (t ++ ts).
Proof. now apply ops2_cons. Qed.
Lemma dops_app a b ta tb : dops a ta -> dops b tb -> dops (a ++ b) (ta ++ tb).
Proof. now apply ops2_app. Qed.
(** A loop: the tokens of one round are given. *)
Lemma dops_loop {A} (f : A -> list wop) (g : A -> list tt) l :
  (forall x, In x l -> dops (f x) (flat (g x))) -> dops (flat_map f l) (flat (flat_map g l)).
Proof. intros H. rewrite flat_flat_map. now apply ops2_flat_map. Qed.
Lemma dops_enum_from {A} (f : nat * A -> list wop) (g : A -> list tt) (l : list A) : forall k,
  (forall i x, In x l -> dops (f (i, x)) (flat (g x))) -> dops (flat_map f (enumerate_from k l)) (flat (flat_map g l)).
Proof.
  induction l as [|x l IH]; intros k H; [apply dops_nil|]. cbn [enumerate_from flat_map]. rewrite flat_app.
  apply dops_app; [apply H; now left|]. apply IH. intros i z I. apply H. now right.
Qed.
Lemma dops_enum {A} (f : nat * A -> list wop) (g : A -> list tt) (l : list A) :
  (forall i x, In x l -> dops (f (i, x)) (flat (g x))) -> dops (flat_map f (enumerate l)) (flat (flat_map g l)).
Proof. apply dops_enum_from. Qed.
Lemma gap_lexes {A} i (l : list A) : dops (gap_unless_last i l) [].
Proof. unfold gap_unless_last. destruct (is_last i l); [apply dops_nil|reflexivity]. Qed.

Ltac ops :=
  lazymatch goal with
  | |- ops2_lexes _ [] _ => apply dops_nil
  | |- ops2_lexes _ (gap_unless_last _ _) _ => apply gap_lexes
  | |- ops2_lexes _ (_ ++ _) _ => eapply dops_app; [ops|ops]
  | |- ops2_lexes _ (Write _ :: _) _ => eapply dops_cons; [eapply dwrite_op; first [eassumption | solve [lex]]|ops]
  | |- ops2_lexes _ (Writeln _ :: _) _ => eapply dops_cons; [eapply dline_op; [first [eassumption|lex]|close_tac]|ops]
  | |- ops2_lexes _ (WritelnTab _ _ :: _) _ => eapply dops_cons; [eapply dline_tab_op; [first [eassumption|lex]|close_tac]|ops]
  | |- ops2_lexes _ _ _ => first [eassumption | idtac]
  end.
Ltac opsq := eapply dops_eq; [ops|].
Lemma show_lexes l ts : dops l ts -> dlexes LNone (show_ops2 l) ts LNone.
Proof. exact (fun H => H). Qed.
Ltac show_dops := eapply show_lexes.

(** Prints the known part of a tree. *)
Ltac trees :=
  repeat (progress (
    cbn [pr_items pr_item pr_member pr_params pr_param pr_value pr_body pr_st pr_ty pr_label flat_map map app fst snd
         trail sep item_id item_position ty0 factory_class override set_st]; unfold value_of; prs)).

(** ** Structs *)

Definition dfield (f : struct_field) : bool := dname (camel (sf_name f)) && dtype (sf_type f).
Lemma dfield_word f : dfield f = true -> word (camel (sf_name f)) = true.
Proof. intros H. apply andb_true_iff in H as [H _]. now apply dname_word. Qed.
Lemma dfield_type f : dfield f = true -> dtype (sf_type f) = true.
Proof. intros H. now apply andb_true_iff in H. Qed.
Definition dstruct (n : struct_node) : bool := dclass (sn_id n) && forallb dfield (sn_fields n).

Lemma fields_lexes k l : forallb dfield l = true ->
  dops (flat_map (fun param =>
          [ WritelnTab k (generate_type_id (sf_type param) ++ " " ++ camel (sf_name param) ++ ";") ]) l)
    (flat (flat_map pr_member (map (fun f => MField (dty_of (sf_type f)) (fname f) None) l))).
Proof.
  intros R. rewrite forallb_forall in R. rewrite flat_map_map. apply dops_loop. intros f I.
  pose proof (type_lexes _ (dfield_type f (R f I))). pose proof (dfield_word f (R f I)). unchunk.
  unfold fname. trees. opsq. flat_eq.
Qed.
Lemma this_lexes k l : forallb dfield l = true ->
  dops (flat_map (fun param => [ WritelnTab k ("required this." ++ camel (sf_name param) ++ ",") ]) l)
    (flat (flat_map pr_named (map (fun f => (None, fname f)) l))).
Proof.
  intros R. rewrite forallb_forall in R. rewrite flat_map_map. apply dops_loop. intros f I.
  pose proof (dfield_word f (R f I)). unfold pr_named, fname. trees. opsq. flat_eq.
Qed.

Lemma show_write_line a b l : show_ops2 (Write a :: Writeln b :: l) = show_ops2 (Writeln (a ++ b) :: l).
Proof. unfold show_ops2. cbn [map concat_strings op_text repeat_string append]. now rewrite !append_assoc_s. Qed.
Lemma inits_lexes (all : list struct_field) : forall l k, l <> [] -> k + length l = length all -> forallb dfield l = true ->
  dops (flat_map (fun ifield =>
          [ Write (camel (sf_name (snd ifield)) ++ " = " ++ generate_default_const (sf_type (snd ifield))) ] ++
          (if is_last (fst ifield) all then [ Writeln ";" ] else [ Writeln ","; WriteTab 3 "  " ]))
          (enumerate_from k l))
    (flat (pr_inits (map (fun f => (fname f, default_ex (sf_type f))) l))).
Proof.
  induction l as [|f l IH]; intros k N K R; [congruence|]. cbn [forallb] in R. apply andb_true_iff in R as [Rf R].
  cbn [enumerate_from flat_map fst snd]. unfold is_last. cbn [length] in K.
  pose proof (default_lexes _ (dfield_type f Rf)). pose proof (dfield_word f Rf). unchunk.
  destruct l as [|g l].
  - cbn [length] in K. replace (Nat.eqb (S k) (length all)) with true by (symmetry; apply Nat.eqb_eq; lia).
    cbn [enumerate_from flat_map app]. unfold ops2_lexes. rewrite show_write_line. apply show_lexes.
    unfold pr_inits, pr_init, fname. cbn [map sep fst snd app]. opsq. flat_eq.
  - cbn [length] in K. replace (Nat.eqb (S k) (length all)) with false by (symmetry; apply Nat.eqb_neq; lia).
    assert (K2 : S k + length (g :: l) = length all) by (cbn [length]; lia).
    specialize (IH (S k) ltac:(discriminate) K2 R). cbn [app]. unfold ops2_lexes. rewrite show_write_line. apply show_lexes.
    unfold pr_inits in *. cbn [map] in *. rewrite sep_cons, <- app_assoc. cbn [app]. unfold pr_init at 1. unfold fname at 1. cbn [fst snd].
    eapply dops_eq.
    + eapply dops_cons; [eapply dline_op; [lex|reflexivity]|].
      eapply dops_cons; [exact (eq_refl : dlexes LNone "  " [] LNone)|]. exact IH.
    + flat_eq.
Qed.

Lemma factory_lexes id t e : word id = true -> dchunk t (flat (pr e)) ->
  dops (factory_ops id t) (flat (pr_item (factory_class id e))).
Proof.
  intros W C. unchunk. unfold factory_ops. opsq. trees. flat_eq.
Qed.

Lemma struct_model_lexes node : word (sn_id node) = true -> forallb dfield (sn_fields node) = true ->
  dlexes LNone (generate_struct_model node "" true) (flat (pr_items (struct_model_tree node))) LNone.
Proof.
  intros N R. unfold generate_struct_model, struct_model_tree. show_dops.
  change ("" ++ " {")%string with " {".
  assert (C1 : dchunk ("const " ++ sn_id node ++ "()") (flat (pr (const0 (sn_id node))))).
  { eapply dchunk_intro; [lex|reflexivity|prs; flat_eq|reflexivity]. }
  assert (C2 : dchunk (sn_id node ++ ".createDefault()") (flat (pr (call (var (sn_id node)) "createDefault" [])))).
  { eapply dchunk_intro; [lex|reflexivity|prs; flat_eq|now apply starts_app, starts_word]. }
  pose proof (factory_lexes _ _ _ N C1) as F1. pose proof (factory_lexes _ _ _ N C2) as F2. clear C1 C2.
  pose proof (fields_lexes 1 _ R) as A. pose proof (this_lexes 2 _ R) as B.
  pose proof (inits_lexes (sn_fields node) (sn_fields node) 0) as I.
  destruct (sn_fields node) as [|f fs] eqn:E.
  - clear A B I. opsq. cbn [pr_items flat_map].
    flats. trees. flat_eq.
  - specialize (I ltac:(discriminate) eq_refl R). rewrite <- E in *. clear E.
    unfold pr_items. cbn [flat_map]. eapply dops_eq.
    + eapply dops_app; [ops|]. eapply dops_app; [exact A|]. eapply dops_app; [ops|]. eapply dops_app; [exact B|].
      eapply dops_app; [ops|]. eapply dops_app.
      { eapply dops_cons; [eapply dline_op; [exact (eq_refl : dlexes LNone "" [] LNone)|reflexivity]|].
        eapply dops_cons; [eapply dline_tab_op; [lex|reflexivity]|].
        eapply dops_cons; [exact (eq_refl : dlexes LNone ": " [CS ":"] LNone)|]. apply dops_nil. }
      eapply dops_app; [exact I|]. eapply dops_app; [ops|]. exact F2.
    + clear A B I F1 F2. cbn [pr_item pr_member pr_params flat_map app]. rewrite flat_map_app. cbn [flat_map pr_member pr_params app].
      flats. reflexivity.
Qed.
