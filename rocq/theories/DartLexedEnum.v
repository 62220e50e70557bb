(** Reading the generated Dart text, continued: enum models. *)
Require Import Coq.Strings.String Coq.Strings.Ascii.
Require Import Coq.NArith.NArith Coq.ZArith.ZArith Coq.Lists.List Coq.Bool.Bool Coq.micromega.Lia.
Require Import Verif.Base Verif.F64 Verif.Ast Verif.Writer Verif.CaseConv Verif.Code Verif.CodeLex Verif.LexSpec
  Verif.NumText Verif.RustLexed.
Require Import Verif.DartSyntax Verif.DartPrint Verif.DartGen Verif.DartTree Verif.DartLexed Verif.DartLexedModel.
Require Verif.RustTree.
Import ListNotations.
Local Open Scope string_scope.
Local Open Scope list_scope.

Definition dvalue (v : tuple_field) : bool := dtype (tf_type v).
Definition item_payload (i : enum_item) : bool :=
  match i with
  | ItemEmpty _ _ => true
  | ItemTuple _ _ vs => forallb dvalue vs
  | ItemStruct _ _ fs => nonempty fs && forallb dfield fs
  end.
(** The name of an item can be used as the name of a member and as part of a class name. *)
Definition ditem_ok (i : enum_item) : bool :=
  word (item_id i) && dname (camel (item_id i)) && word (pascal (item_id i)) && item_payload i.
Definition denum (n : enum_node) : bool :=
  dclass (en_id n) && forallb (fun i => ditem_ok i && tname (en_id n ++ item_id i)) (en_items n).

Lemma dsep_trail {A B} (f : B -> list tt) (g : A -> B) l :
  flat_map (fun v => f (g v) ++ [y ","]) l = sep (y ",") f (map g l) ++ trail (nil_or l).
Proof.
  destruct l as [|v l]; [reflexivity|]. cbn [nil_or trail]. revert v. induction l as [|v2 l IH]; intros v.
  - cbn. now rewrite app_nil_r.
  - cbn [map] in *. rewrite sep_cons, <- app_assoc. cbn [flat_map app] in *. rewrite <- IH. now rewrite <- !app_assoc.
Qed.
Lemma enumerate_in {A} (l : list A) : forall k iv, In iv (enumerate_from k l) -> In (snd iv) l.
Proof.
  induction l as [|x l IH]; intros k iv I; [destruct I|]. destruct I as [<-|I]; [now left|].
  right. eapply IH, I.
Qed.
Lemma nil_or_enumerate {A} (l : list A) : nil_or (enumerate l) = nil_or l.
Proof. now destruct l. Qed.

Lemma tuple_params_lexes k vs : forallb dvalue vs = true ->
  dops (flat_map (fun iv => [ WritelnTab k (generate_type_id (tf_type (snd iv)) ++ " v" ++ show_nat (fst iv) ++ ",") ])
          (enumerate vs)) (flat (pr_params (tuple_params vs))).
Proof.
  intros R. rewrite forallb_forall in R. unfold tuple_params, pr_params. rewrite <- nil_or_enumerate, <- dsep_trail.
  apply dops_loop. intros iv I. pose proof (type_lexes _ (R _ (enumerate_in _ _ _ I))). unchunk.
  unfold pr_param, v_name. cbn [fst snd]. opsq. flat_eq.
Qed.
Lemma struct_params_lexes k fs : forallb dfield fs = true ->
  dops (flat_map (fun field =>
          [ WritelnTab k ("required " ++ generate_type_id (sf_type field) ++ " " ++ camel (sf_name field) ++ ",") ]) fs)
    (flat (flat_map pr_named (map (fun f => (Some (dty_of (sf_type f)), fname f)) fs))).
Proof.
  intros R. rewrite forallb_forall in R. rewrite flat_map_map. apply dops_loop. intros f I.
  pose proof (type_lexes _ (dfield_type f (R f I))). pose proof (dfield_word f (R f I)). unchunk.
  unfold pr_named, pr_param, fname. cbn [fst snd]. opsq. flat_eq.
Qed.
(** [a.v0 = v0;] for every field. *)
Lemma tuple_sets_lexes k vs a e : dchunk a (flat (pr e)) ->
  dops (flat_map (fun iv => [ WritelnTab k (a ++ ".v" ++ show_nat (fst iv) ++ " = v" ++ show_nat (fst iv) ++ ";") ])
          (enumerate vs))
    (flat (flat_map pr_st (map (fun n => set_st (field e n) (var n)) (map (fun iv : nat * tuple_field => v_name (fst iv)) (enumerate vs))))).
Proof.
  intros C. unchunk. rewrite !flat_map_map. apply dops_loop. intros iv I. unfold set_st, v_name. cbn [pr_st pr]. prs.
  opsq. flat_eq.
Qed.
Lemma struct_sets_lexes k fs a e : forallb dfield fs = true -> dchunk a (flat (pr e)) ->
  dops (flat_map (fun f => [ WritelnTab k (a ++ "." ++ camel (sf_name f) ++ " = " ++ camel (sf_name f) ++ ";") ]) fs)
    (flat (flat_map pr_st (map (fun n => set_st (field e n) (var n)) (map fname fs)))).
Proof.
  intros R C. rewrite forallb_forall in R. unchunk. rewrite !flat_map_map. apply dops_loop. intros f I. unfold set_st, fname. cbn [pr_st pr]. prs.
  pose proof (dfield_word f (R f I)). opsq. flat_eq.
Qed.

Lemma ditem_parts i : ditem_ok i = true ->
  word (item_id i) = true /\ word (camel (item_id i)) = true /\ word (pascal (item_id i)) = true /\ item_payload i = true.
Proof. unfold ditem_ok. rewrite !andb_true_iff. intros [[[A B] C] D]. apply dname_word in B. auto. Qed.
Lemma v_word i : word (v_name i) = true.
Proof. apply word_app_l; [reflexivity|apply all_word_show_nat]. Qed.

Lemma default_item_lexes id i : word id = true -> word (item_id i) = true -> forall node, en_id node = id ->
  dchunk (item_factory node i) (flat (pr (item_default id i))).
Proof.
  intros W Wi node E. unfold item_factory. rewrite E. destruct i as [p n|p n vs|p n fs]; cbn [item_default item_id] in *.
  - eapply dchunk_intro; [lex|reflexivity|prs; flat_eq|reflexivity].
  - eapply dchunk_intro; [lex|reflexivity|prs; flat_eq|now apply starts_app, starts_word].
  - eapply dchunk_intro; [lex|reflexivity|prs; flat_eq|now apply starts_app, starts_word].
Qed.

(** Printing to and create methods with their parameters kept as one piece. *)
Lemma pr_meth (st : bool) t n ps b : pr_member (MMeth st (ty0 t) n ps b) =
  (if st then [w "static"] else []) ++ w t :: w n :: G "(" (pr_params ps) :: pr_body b.
Proof. reflexivity. Qed.


(** [v0], [v1], .. are in camel case. *)
Lemma digit_case c : digitb c = true ->
  is_digit c = true /\ is_delimiter c = false /\ is_upper c = false /\ is_lower c = false /\ to_upper c = c /\ to_lower c = c.
Proof. destruct c as [[] [] [] [] [] [] [] []]; intros H; try discriminate H; now vm_compute. Qed.
Lemma split_digits d : forall c acc, digitb c = true -> all_chars digitb d = true ->
  split_loop (Some c) acc d = [(rev_string acc ++ d)%string].
Proof.
  induction d as [|e d IH]; intros c acc C D; cbn [split_loop].
  - now rewrite append_nil_s.
  - cbn [all_chars] in D. apply andb_true_iff in D as [E D].
    destruct (digit_case c C) as (c1 & c2 & c3 & c4 & _). destruct (digit_case e E) as (e1 & e2 & e3 & e4 & _).
    assert (X : splits_before (Some c) e d = false).
    { unfold splits_before, is_boundary, is_acronym. rewrite c1, c3, c4, e1, e3, e4. now destruct d. }
    rewrite e2, X, IH by assumption. f_equal. unfold rev_string. change (String e acc) with (one e ++ acc)%string.
    clear. cbn [append one]. change (rev_append_string (String e acc) "") with (rev_append_string acc (one e)).
    assert (G : forall a b r, (rev_append_string a b ++ r = rev_append_string a (b ++ r))%string).
    { induction a as [|x a IH]; intros; [reflexivity|]. cbn [rev_append_string]. now rewrite IH. }
    rewrite !G. reflexivity.
Qed.
Lemma map_digits d f : (forall c, digitb c = true -> f c = c) -> all_chars digitb d = true -> map_string f d = d.
Proof.
  intros F. induction d as [|c d IH]; [reflexivity|]. cbn. intros D. apply andb_true_iff in D as [C D].
  now rewrite F, IH.
Qed.
Lemma camel_v i : camel ("v" ++ show_nat i) = ("v" ++ show_nat i)%string.
Proof.
  unfold show_nat. pose proof (show_N_digits (N.of_nat i)) as D. pose proof (show_N_nonempty (N.of_nat i)) as N.
  destruct (show_N (N.of_nat i)) as [|c d]; [contradiction|]. cbn [all_chars] in D. apply andb_true_iff in D as [C D].
  destruct (digit_case c C) as (c1 & c2 & c3 & c4 & c5 & _).
  unfold camel, words. cbn [append split_loop]. change (is_delimiter "v") with false. cbv iota.
  change (splits_before None "v" (String c d)) with false. cbv iota. rewrite c2.
  assert (X : splits_before (Some "v"%char) c d = true).
  { unfold splits_before, is_boundary. rewrite c1. change (is_lower "v") with true. now rewrite !orb_true_r. }
  rewrite X, (split_digits d c _ C D). change (rev_string (String c "")) with (one c). change (rev_string (one "v")) with "v".
  cbn [filter append one String.eqb negb]. change (rev_string "v") with "v".
  cbn [filter append one String.eqb negb map concat_strings capital]. change (lowercase "v") with "v".
  rewrite c5, (map_digits d _ (fun c H => proj2 (proj2 (proj2 (proj2 (proj2 (digit_case c H)))))) D).
  now rewrite append_nil_s.
Qed.

Lemma v_dident i : dident (v_name i) = true.
Proof.
  unfold dident, v_name. unfold show_nat. pose proof (show_N_digits (N.of_nat i)) as D. pose proof (show_N_nonempty (N.of_nat i)) as N.
  destruct (show_N (N.of_nat i)) as [|c d]; [contradiction|]. cbn [all_chars] in D. apply andb_true_iff in D as [C D].
  apply andb_true_iff. split; [|reflexivity]. apply negb_true_iff.
  destruct c as [[] [] [] [] [] [] [] []]; try discriminate C; reflexivity.
Qed.
Lemma enum_struct_fields node i : item_payload i = true ->
  forallb dfield (sn_fields (create_enum_item_struct_ast_node node i)) = true.
Proof.
  destruct i as [p n|p n vs|p n fs]; cbn [item_payload create_enum_item_struct_ast_node sn_fields]; intros R; [reflexivity| |].
  2: now apply andb_true_iff in R.
  unfold enumerate. generalize 0. induction vs as [|v vs IH]; intros k; [reflexivity|].
  cbn [forallb] in R. apply andb_true_iff in R as [R1 R2]. cbn [enumerate_from map forallb].
  rewrite (IH R2). unfold dfield. cbn [sf_name sf_type fst snd]. rewrite andb_true_r.
  apply andb_true_iff. split; [|exact R1]. rewrite camel_v. unfold dname. fold (v_name k). now rewrite v_word, v_dident.
Qed.
Lemma enum_struct_id node i : sn_id (create_enum_item_struct_ast_node node i) = (en_id node ++ item_id i)%string.
Proof. now destruct i. Qed.

Ltac parts H := destruct (ditem_parts _ H) as (?Wi & ?Wc & ?Wp & ?Wy).

Lemma enum_model_lexes node s : denum node = true -> generate_enum_model node = Ok s ->
  dlexes LNone s (flat (pr_items (enum_model_tree node))) LNone.
Proof.
  intros R G. unfold denum in R. apply andb_true_iff in R as [N R]. apply dclass_word in N.
  assert (P : forall i, In i (en_items node) -> ditem_ok i = true).
  { rewrite forallb_forall in R. intros i I. now apply R, andb_true_iff in I. }
  clear R. unfold generate_enum_model in G. unfold enum_model_tree.
  destruct (en_items node) as [|first items] eqn:E; [discriminate G|]. rewrite <- E in *. apply Ok_inj in G. subst s.
  assert (Pf : ditem_ok first = true) by (apply P; rewrite E; now left). parts Pf. clear E items Pf Wy Wp Wi. rename Wc into Wfirst.
  assert (F : dops (factory_ops (en_id node) (en_id node ++ "()")) (flat (pr_item (factory_class (en_id node) (new (en_id node)))))).
  { apply factory_lexes; [assumption|]. eapply dchunk_intro; [lex|reflexivity|prs; flat_eq|now apply starts_app, starts_word]. }
  show_dops.
  match goal with |- ops2_lexes _ (_ ++ flat_map ?f1 _ ++ _ ++ _ ++ flat_map ?f2 _ ++ _ ++ flat_map ?f3 _ ++ _ ++ flat_map ?f4 _ ++ _ ++ flat_map ?f5 _ ++ _ ++ _ ++ _ ++ flat_map ?f6 _) _ =>
    assert (L1 : dops (flat_map f1 (en_items node)) (flat (flat_map (fun n => [w n; y ","]) (map (fun i => camel (item_id i)) (en_items node)))));
    [|assert (L2 : dops (flat_map f2 (en_items node)) (flat (flat_map pr_member (map (fun i => MField (ty0 (en_id node ++ item_id i)) (camel (item_id i)) (Some (item_default (en_id node) i))) (en_items node)))));
    [|assert (L3 : dops (flat_map f3 (enumerate (en_items node))) (flat (flat_map pr_member (map (to_method (en_id node)) (en_items node)))));
    [|assert (L4 : dops (flat_map f4 (en_items node)) (flat (flat_map pr_member (map (is_method (en_id node)) (en_items node)))));
    [|assert (L5 : dops (flat_map f5 (enumerate (en_items node))) (flat (flat_map pr_member (map (create_method (en_id node)) (en_items node)))));
    [|assert (L6 : dops (flat_map f6 (enumerate (en_items node))) (flat (flat_map pr_item (flat_map (fun i => struct_model_tree (create_enum_item_struct_ast_node node i)) (en_items node)))))
    ]]]]] end.
  - rewrite flat_map_map. apply dops_loop. intros i I. specialize (P i I). parts P. opsq. flat_eq.
  - rewrite flat_map_map. apply dops_loop. intros i I. specialize (P i I). parts P.
    pose proof (default_item_lexes (en_id node) i N Wi node eq_refl). unchunk. opsq. trees. flat_eq.
  - rewrite flat_map_map. apply dops_enum. intros k i I. specialize (P i I). parts P. unfold to_method. rewrite pr_meth.
    destruct i as [p n|p n vs|p n fs]; cbn [fst snd item_id item_params item_names item_payload] in *.
    + opsq. trees. cbn [pr]. trees. flat_eq.
    + pose proof (tuple_params_lexes 2 vs Wy) as A.
      pose proof (tuple_sets_lexes 2 vs (camel n) (var (camel n)) (dchunk_name _ Wc)) as B.
      opsq. cbn [pr_body flat_map]. unfold set_st at 2. cbn [pr_st pr]. unfold value_of. prs. flat_eq.
    + apply andb_true_iff in Wy as [NE Wy]. pose proof (struct_params_lexes 2 fs Wy) as A.
      pose proof (struct_sets_lexes 2 fs (camel n) (var (camel n)) Wy (dchunk_name _ Wc)) as B.
      opsq. cbn [pr_body flat_map]. unfold set_st at 2. cbn [pr_st pr pr_params struct_params]. unfold value_of. prs. flat_eq.
  - rewrite flat_map_map. apply dops_loop. intros i I. specialize (P i I). parts P. unfold is_method. opsq. trees. cbn [pr]. trees. flat_eq.
  - rewrite flat_map_map. apply dops_enum. intros k i I. specialize (P i I). parts P. unfold create_method. rewrite pr_meth.
    assert (C : dchunk ("model." ++ camel (item_id i)) (flat (pr (field (var "model") (camel (item_id i)))))).
    { eapply dchunk_intro; [lex|reflexivity|prs; flat_eq|reflexivity]. }
    destruct i as [p n|p n vs|p n fs]; cbn [fst snd item_id item_params item_names item_payload] in *.
    + opsq. cbn [pr_body app map]. trees. cbn [pr]. trees. flat_eq.
    + pose proof (tuple_params_lexes 2 vs Wy) as A.
      pose proof (tuple_sets_lexes 2 vs _ _ C) as B.
      match goal with |- ops2_lexes _ ((_ ++ _ ++ _ ++ ?l ++ _) ++ _) _ =>
        match type of B with dops ?l2 _ => replace l with l2; [|apply flat_map_ext; intros ?; now rewrite append_assoc_s] end end.
      clear C. opsq. cbn [pr_body]. rewrite !flat_map_app. cbn [flat_map]. unfold set_st at 2. cbn [pr_st pr]. unfold value_of. prs. flat_eq.
    + apply andb_true_iff in Wy as [NE Wy]. pose proof (struct_params_lexes 2 fs Wy) as A.
      pose proof (struct_sets_lexes 2 fs _ _ Wy C) as B.
      match goal with |- ops2_lexes _ ((_ ++ _ ++ _ ++ ?l ++ _) ++ _) _ =>
        match type of B with dops ?l2 _ => replace l with l2; [|apply flat_map_ext; intros ?; now rewrite append_assoc_s] end end.
      clear C. opsq. cbn [pr_body pr_params struct_params]. rewrite !flat_map_app. cbn [flat_map]. unfold set_st at 2. cbn [pr_st pr]. unfold value_of. prs. flat_eq.
  - change (fun i => struct_model_tree (create_enum_item_struct_ast_node node i)) with (fun i => struct_model_tree (create_enum_item_struct_ast_node node i)).
    assert (X : forall l, flat_map pr_item (flat_map (fun i => struct_model_tree (create_enum_item_struct_ast_node node i)) l) =
      flat_map (fun i => pr_items (struct_model_tree (create_enum_item_struct_ast_node node i))) l).
    { induction l as [|i l IH]; [reflexivity|]. cbn [flat_map]. now rewrite flat_map_app, IH. }
    rewrite X. apply dops_enum. intros k i I. specialize (P i I). parts P. cbn [fst snd].
    assert (Q : word (sn_id (create_enum_item_struct_ast_node node i)) = true).
    { rewrite enum_struct_id. apply word_app_l; [assumption|now apply word_all]. }
    pose proof (struct_model_lexes _ Q (enum_struct_fields node i Wy)). opsq. now rewrite !app_nil_r.
  - clear P. opsq. rewrite !flat_app || idtac. unfold pr_items. rewrite flat_map_app. cbn [flat_map pr_item pr_member pr_value app].
    rewrite !flat_map_app. unfold value_of. prs. trees. flat_eq.
Qed.
