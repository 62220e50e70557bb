(** The trees of generated Dart files are well formed, so the files read back as these trees. *)
Require Import Coq.Strings.String Coq.Strings.Ascii.
Require Import Coq.NArith.NArith Coq.ZArith.ZArith Coq.Lists.List Coq.Bool.Bool Coq.micromega.Lia.
Require Import Verif.Base Verif.F64 Verif.Ast Verif.Writer Verif.CaseConv Verif.Code Verif.CodeLex Verif.LexSpec
  Verif.NumText Verif.RustLexed Verif.RustLexedConst.
Require Verif.RustWf.
Require Import Verif.DartSyntax Verif.DartPrint Verif.DartGen Verif.DartTree Verif.DartLexed Verif.DartLexedModel
  Verif.DartLexedEnum Verif.DartLexedBuf Verif.DartLexedRpc Verif.DartFile.
Import ListNotations.
Local Open Scope string_scope.
Local Open Scope list_scope.

(** ** Names *)

Lemma word_nonempty n : word n = true -> n <> "".
Proof. now destruct n. Qed.
Lemma numeric_app a b : word a = true -> numeric (a ++ b) = numeric a.
Proof. now destruct a. Qed.
Lemma among_app_r l x suf : forallb (fun k => negb (ends_with suf k)) l = true -> among l (x ++ suf) = false.
Proof.
  intros H. unfold among. induction l as [|k l IH]; [reflexivity|]. cbn [forallb] in H. apply andb_true_iff in H as [H1 H2].
  cbn [existsb]. rewrite RustWf.suffix_neq by now apply negb_true_iff in H1. now apply IH.
Qed.
Lemma suffix_tname n suf : word n = true -> tname n = true ->
  forallb (fun k => negb (ends_with suf k)) (dart_reserved ++ dart_builtin) = true -> tname (n ++ suf) = true.
Proof.
  intros W T H. rewrite forallb_app in H. apply andb_true_iff in H as [H1 H2]. unfold tname, dident in *.
  rewrite !andb_true_iff in T. destruct T as [[_ T] _].
  now rewrite !among_app_r, numeric_app, T by assumption.
Qed.
Lemma suffix_dident n suf : word n = true -> dident n = true ->
  forallb (fun k => negb (ends_with suf k)) dart_reserved = true -> dident (n ++ suf) = true.
Proof.
  intros W T H. unfold dident in *. rewrite !andb_true_iff in T. destruct T as [_ T].
  now rewrite !among_app_r, numeric_app, T by assumption.
Qed.
(** [pre] starts the word [k] and is not the whole of it. *)
Fixpoint begins (pre k : string) : bool :=
  match pre, k with
  | "", "" => false
  | "", _ => true
  | String a pre, String b k => Ascii.eqb a b && begins pre k
  | _, _ => false
  end.
Lemma among_app_l l pre x : word x = true -> forallb (fun k => negb (begins pre k)) l = true -> among l (pre ++ x) = false.
Proof.
  intros W H. unfold among. induction l as [|k l IH]; [reflexivity|]. cbn [forallb] in H. apply andb_true_iff in H as [H1 H2].
  cbn [existsb]. rewrite IH by assumption. rewrite orb_false_r. clear - W H1. apply negb_true_iff in H1.
  destruct (String.eqb_spec (pre ++ x) k) as [<-|]; [|reflexivity]. exfalso.
  induction pre as [|c pre IH]; [destruct x; discriminate|]. cbn [begins append] in H1. rewrite Ascii.eqb_refl in H1. now apply IH.
Qed.
Lemma prefix_dident pre x : word x = true -> pre <> "" -> numeric pre = false ->
  forallb (fun k => negb (begins pre k)) dart_reserved = true -> dident (pre ++ x) = true.
Proof.
  intros W NE N H. unfold dident. rewrite among_app_l by assumption. destruct pre; [congruence|]. cbn [append numeric negb andb] in *. now rewrite N.
Qed.
Lemma prefix_tname pre x : word x = true -> pre <> "" -> numeric pre = false ->
  forallb (fun k => negb (begins pre k)) (dart_reserved ++ dart_builtin) = true -> tname (pre ++ x) = true.
Proof.
  intros W NE N H. rewrite forallb_app in H. apply andb_true_iff in H as [H1 H2]. unfold tname.
  rewrite prefix_dident by assumption. now rewrite among_app_l by assumption.
Qed.
Lemma tname_dident n : tname n = true -> dident n = true.
Proof. intros H. now apply andb_true_iff in H. Qed.
Lemma dident_dhead n : dident n = true -> dhead n = true.
Proof. unfold dhead. now intros ->. Qed.
Lemma tname_thead n : tname n = true -> thead n = true.
Proof. unfold thead. now intros ->. Qed.
Lemma show_N_numeric_d n : numeric (show_N n) = true.
Proof. exact (RustWf.show_N_numeric n). Qed.
Create HintDb dwf discriminated.
#[export] Hint Constants Opaque : dwf.
#[export] Hint Resolve tname_dident dident_dhead tname_thead show_N_numeric_d v_dident : dwf.

Lemma class_parts n : dclass n = true -> word n = true /\ tname n = true.
Proof. intros H. now apply andb_true_iff in H. Qed.
Lemma into_tname n : dclass n = true -> tname (n ++ "IntoBuffers") = true.
Proof. intros H. apply class_parts in H as [W T]. now apply suffix_tname. Qed.
Lemma emplace_tname n : dclass n = true -> tname (n ++ "EmplaceToBuffers") = true.
Proof. intros H. apply class_parts in H as [W T]. now apply suffix_tname. Qed.
Lemma factory_tname n : dclass n = true -> tname (n ++ "BuffersFactory") = true.
Proof. intros H. apply class_parts in H as [W T]. now apply suffix_tname. Qed.
Lemma value_tname n : dclass n = true -> tname (n ++ "Value") = true.
Proof. intros H. apply class_parts in H as [W T]. now apply suffix_tname. Qed.
Lemma list_class n : dclass n = true -> dclass (list_name n) = true.
Proof. unfold list_name. now destruct (String.eqb n "Vec"). Qed.
Lemma prefix_class t : dtype t = true -> dclass (generate_class_prefix t) = true.
Proof.
  destruct t as [id n s|id n|id|id|id l|id]; cbn [dtype generate_class_prefix]; intros R; try reflexivity; [|assumption].
  rewrite !andb_true_iff in R. now apply list_class.
Qed.
#[export] Hint Resolve into_tname emplace_tname factory_tname value_tname list_class prefix_class dclass_tname : dwf.

(** ** Expressions *)

Definition posting (e : dex) : bool := match e with DPost _ _ => true | _ => atomic e end.
Lemma posts_ok_app ps p : posts_ok ps = true -> match p with XCall _ _ => false | _ => true end = true ->
  posts_ok (ps ++ [p]) = true.
Proof.
  intros H N. induction ps as [|q ps IH]; [now destruct p|].
  destruct q as [f|a b|m ts a b|m a b|e]; cbn [app posts_ok] in *; try (now apply IH).
  destruct ps as [|q ps]; [now destruct p|]. cbn [app] in *. destruct q; try discriminate H; now apply IH.
Qed.
Lemma wf_postfix e p : posting e = true -> wf e = true -> wf_post p = true ->
  match p with XCall _ _ => false | _ => true end = true -> wf (postfix e p) = true.
Proof.
  intros A W P N. destruct e as [| | | | | | | |h ps| |]; try discriminate A; cbn [postfix].
  - cbn [wf forallb posts_ok nonempty] in *. rewrite W, P. now destruct p.
  - cbn [wf forallb posts_ok nonempty] in *. rewrite W, P. now destruct p.
  - cbn [wf] in *. rewrite !andb_true_iff in W. destruct W as [[[[A1 A2] A3] A4] A5].
    rewrite A1, A2. rewrite posts_ok_app by assumption. rewrite forallb_app, A5. cbn [forallb]. rewrite P. now destruct ps.
Qed.
Lemma wf_field e f : posting e = true -> wf e = true -> dident f = true -> wf (field e f) = true.
Proof. intros A W F. now apply wf_postfix. Qed.
Lemma wf_call e m args : posting e = true -> wf e = true -> dident m = true -> forallb wf args = true -> wf (call e m args) = true.
Proof.
  intros A W M F. apply wf_postfix; [assumption..| |reflexivity]. cbn [wf_post forallb]. rewrite M. cbn [andb].
  rewrite RustWf.forallb_map. cbn [fst snd label_ok andb comma_ok implb]. apply andb_true_intro. split; [exact F|reflexivity].
Qed.
Lemma posting_postfix e p : posting (postfix e p) = true.
Proof. now destruct e. Qed.
Lemma posting_field e f : posting (field e f) = true.
Proof. apply posting_postfix. Qed.
Lemma posting_call e m l : posting (call e m l) = true.
Proof. apply posting_postfix. Qed.
Lemma simple_posting e : posting e = true -> simple e = true.
Proof. now destruct e. Qed.
Lemma wf_var n : dident n = true -> wf (var n) = true.
Proof. intros D. cbn. now rewrite (dident_dhead n D). Qed.
Lemma wf_new c : dident c = true -> wf (new c) = true.
Proof. intros D. cbn. now rewrite (dident_dhead c D). Qed.
Lemma wf_const0 c : tname c = true -> wf (const0 c) = true.
Proof. intros D. cbn. now rewrite D. Qed.
Lemma wf_set a b : posting a = true -> wf a = true -> wf b = true -> wf (DSet a b) = true.
Proof. intros P A B. cbn [wf]. now rewrite (simple_posting _ P), A, B. Qed.
Lemma wf_eq neg a b : posting a = true -> wf a = true -> posting b = true -> wf b = true -> wf (DEq neg a b) = true.
Proof. intros P A Q B. cbn [wf]. now rewrite (simple_posting _ P), (simple_posting _ Q), A, B. Qed.
#[export] Hint Resolve wf_field wf_call posting_field posting_call wf_var wf_new wf_const0 wf_set wf_eq simple_posting : dwf.

Ltac split_and := repeat match goal with |- (_ && _ = true) => apply andb_true_intro; split end.
Ltac wfs :=
  unfold set_st, set_value, read_meth, write_meth, skip_meth, count_loop, read_tag;
  cbn [wf_item wf_member wf_params wf_param wf_body wf_value wf_st wf_ty forallb fst snd ty0 reader_param writer_param model_param nonempty comma_ok implb];
  split_and; try reflexivity; auto 8 with dwf; try reflexivity.

Lemma dty_wf t : dtype t = true -> wf_ty (dty_of t) = true.
Proof.
  induction t as [id n s|id n|id|id|id l IH|id] using type_id_ind2; cbn [dtype dty_of]; intros R; try reflexivity.
  - rewrite !andb_true_iff in R. destruct R as [[R N] L]. cbn [wf_ty]. rewrite (tname_thead _ (dclass_tname _ (list_class _ R))).
    cbn [andb]. rewrite RustWf.forallb_map. rewrite Forall_forall in IH. rewrite forallb_forall in *. auto.
  - cbn [ty0 wf_ty forallb]. now rewrite (tname_thead _ (dclass_tname _ R)).
Qed.
Lemma dtys_wf l : forallb dtype l = true -> forallb wf_ty (map dty_of l) = true.
Proof. rewrite RustWf.forallb_map. apply RustWf.forallb_imp. intros t. apply dty_wf. Qed.
Lemma ret_wf t : match t with Some t => dtype t | None => true end = true -> wf_ty (ret_ty t) = true.
Proof. destruct t; cbn [ret_ty]; [apply dty_wf|reflexivity]. Qed.
#[export] Hint Resolve dty_wf dtys_wf ret_wf : dwf.

Lemma into_wf t : dtype t = true -> is_prim t = false -> wf (into_codec t) = true /\ posting (into_codec t) = true.
Proof.
  intros R P. destruct t as [id n s|id n|id|id|id l|id]; try discriminate P; cbn [into_codec dtype] in *.
  - destruct (vec_element id l) as [g|] eqn:V.
    + apply vec_elt in V as [-> ->]. cbn [forallb] in R. rewrite !andb_true_iff in R. destruct R as [_ [R _]].
      split; [|reflexivity]. cbn [wf forallb fst snd]. rewrite (dty_wf g R). change (tname "ListIntoBuffers") with true. cbn [andb].
      rewrite wf_const0 by auto with dwf. reflexivity.
    + rewrite !andb_true_iff in R. destruct R as [[R _] L]. split; [|reflexivity]. cbn [wf forallb]. rewrite into_tname by assumption.
      now rewrite dtys_wf.
  - split; [|reflexivity]. auto with dwf.
Qed.
Lemma emplace_wf t : dtype t = true -> is_prim t = false -> wf (emplace_codec t) = true /\ posting (emplace_codec t) = true.
Proof.
  intros R P. destruct t as [id n s|id n|id|id|id l|id]; try discriminate P; cbn [emplace_codec dtype] in *.
  - destruct (vec_element id l) as [g|] eqn:V.
    + apply vec_elt in V as [-> ->]. cbn [forallb] in R. rewrite !andb_true_iff in R. destruct R as [_ [R _]].
      split; [|reflexivity]. cbn [wf forallb fst snd]. rewrite (dty_wf g R). change (tname "ListEmplaceToBuffers") with true. cbn [andb].
      rewrite wf_const0 by auto with dwf. reflexivity.
    + rewrite !andb_true_iff in R. destruct R as [[R _] L]. split; [|reflexivity]. cbn [wf forallb]. rewrite emplace_tname by assumption.
      now rewrite dtys_wf.
  - destruct (String.eqb id "String"); (split; [|reflexivity]); auto with dwf.
Qed.
Lemma prim_dident pre t : pre = "read" \/ pre = "write" -> dident (pre ++ prim_name t) = true.
Proof. intros [-> | ->]; destruct t as [id n s|id n|id|id|id l|id]; try reflexivity; do 4 (try destruct n as [|n]; try reflexivity). Qed.
Lemma read_wf t : dtype t = true -> wf (read_ex t) = true.
Proof.
  intros R. unfold read_ex. destruct (is_prim t) eqn:P.
  - apply wf_call; auto using prim_dident.
  - destruct (into_wf t R P). apply wf_call; auto.
Qed.
Lemma posting_read t : posting (read_ex t) = true.
Proof. unfold read_ex. destruct (is_prim t); apply posting_call. Qed.
Lemma write_wf t a : dtype t = true -> wf a = true -> wf_st (write_st t a) = true.
Proof.
  intros R A. unfold write_st. cbn [wf_st]. destruct (is_prim t) eqn:P.
  - apply wf_call; auto using prim_dident. cbn [forallb]. now rewrite A.
  - destruct (into_wf t R P). apply wf_call; auto. cbn [forallb]. now rewrite A.
Qed.
Lemma read_emplace_wf t a : dtype t = true -> posting a = true -> wf a = true -> wf_st (read_emplace_st t a) = true.
Proof.
  intros R Q A. unfold read_emplace_st. cbn [wf_st]. destruct (is_prim t || is_string t) eqn:P.
  - auto using wf_set, read_wf.
  - apply orb_false_iff in P as [P _]. destruct (emplace_wf t R P). apply wf_call; auto. cbn [forallb]. now rewrite A.
Qed.
Lemma write_emplace_wf t a : dtype t = true -> wf a = true -> wf_st (write_emplace_st t a) = true.
Proof.
  intros R A. unfold write_emplace_st. destruct (is_prim t) eqn:P; [now apply write_wf|].
  destruct (emplace_wf t R P). cbn [wf_st]. apply wf_call; auto. cbn [forallb]. now rewrite A.
Qed.
Lemma skip_wf t : dtype t = true -> wf_st (skip_st t) = true.
Proof.
  intros R. unfold skip_st. cbn [wf_st]. destruct (is_prim t) eqn:P; [now apply read_wf|].
  destruct (into_wf t R P). apply wf_call; auto.
Qed.
Lemma skip_emplace_wf t : dtype t = true -> wf_st (skip_emplace_st t) = true.
Proof.
  intros R. unfold skip_emplace_st. cbn [wf_st]. destruct (is_prim t) eqn:P; [now apply read_wf|].
  destruct (emplace_wf t R P). apply wf_call; auto.
Qed.
Lemma default_wf t : dtype t = true -> wf (default_ex t) = true.
Proof.
  intros R. destruct t as [id n s|id n|id|id|id l|id]; try reflexivity; cbn [default_ex dtype] in *.
  - rewrite !andb_true_iff in R. destruct R as [[R _] L]. apply wf_call; try reflexivity. cbn [wf forallb].
    rewrite factory_tname by now apply list_class. now rewrite dtys_wf.
  - apply wf_call; try reflexivity. auto with dwf.
Qed.
#[export] Hint Resolve read_wf write_wf read_emplace_wf write_emplace_wf skip_wf skip_emplace_wf default_wf posting_read : dwf.

(** ** Models *)

Lemma dfield_ident f : dfield f = true -> dident (fname f) = true.
Proof. intros H. apply andb_true_iff in H as [H _]. now apply dname_ident. Qed.
#[export] Hint Resolve dfield_ident dfield_type : dwf.
Lemma map_wf {A B} (p : B -> bool) (q : A -> bool) (f : A -> B) l :
  forallb q l = true -> (forall x, q x = true -> p (f x) = true) -> forallb p (map f l) = true.
Proof. intros Q H. rewrite RustWf.forallb_map. revert Q. now apply RustWf.forallb_imp. Qed.

Lemma factory_wf id e : dclass id = true -> wf e = true -> wf_item (factory_class id e) = true.
Proof. intros C W. unfold factory_class. wfs. Qed.
Lemma struct_model_wf node : dstruct node = true -> forallb wf_item (struct_model_tree node) = true.
Proof.
  intros R. apply andb_true_iff in R as [N R]. unfold struct_model_tree.
  destruct (sn_fields node) as [|f fs].
  - cbn [forallb]. rewrite factory_wf by auto with dwf. wfs.
  - assert (NE : forall B (g : struct_field -> B), nonempty (map g (f :: fs)) = true) by reflexivity.
    revert R NE. generalize (f :: fs). intros l R NE. cbn [forallb]. rewrite factory_wf.
    + rewrite !andb_true_r. cbn [wf_item]. rewrite forallb_app.
      assert (A := map_wf wf_member _ (fun f => MField (dty_of (sf_type f)) (fname f) None) _ R). rewrite A by (intros x D; wfs). clear A.
      cbn [forallb wf_member wf_params]. rewrite !(dclass_tname _ N).
      match goal with |- context [forallb wf_param ?m] =>
        replace (forallb wf_param m) with true by (symmetry; apply (map_wf wf_param _ _ _ R); intros x D; unfold wf_param; wfs) end.
      assert (A := map_wf (fun ne => dident (fst ne) && wf (snd ne)) _ (fun f => (fname f, default_ex (sf_type f))) _ R).
      rewrite A by (intros x D; wfs). rewrite !NE. reflexivity.
    + assumption.
    + auto with dwf.
Qed.

Lemma value_of_wf id i : dclass id = true -> dident (camel i) = true -> wf (value_of id i) = true.
Proof. intros C D. unfold value_of. apply wf_field; [reflexivity| |assumption]. auto with dwf. Qed.
Lemma posting_value id i : posting (value_of id i) = true.
Proof. reflexivity. Qed.
#[export] Hint Resolve value_of_wf posting_value : dwf.

Lemma ditem_wf node i : denum node = true -> In i (en_items node) ->
  word (item_id i) = true /\ dident (camel (item_id i)) = true /\ word (pascal (item_id i)) = true /\
  item_payload i = true /\ dclass (en_id node ++ item_id i) = true.
Proof.
  intros R I. apply andb_true_iff in R as [N R]. rewrite forallb_forall in R. specialize (R i I).
  unfold ditem_ok in R. rewrite !andb_true_iff in R. destruct R as [[[[A B] C] D] T]. apply dname_ident in B.
  repeat split; try assumption. unfold dclass. rewrite T, andb_true_r. apply word_app_l; [now apply dclass_word|now apply word_all].
Qed.
Lemma item_names_wf i : item_payload i = true -> forallb dident (item_names i) = true.
Proof.
  destruct i as [p n|p n vs|p n fs]; cbn [item_payload item_names]; intros R; [reflexivity| |].
  - apply (map_wf _ (fun _ => true)); [|auto with dwf]. now apply forallb_forall.
  - apply andb_true_iff in R as [_ R]. now apply (map_wf _ dfield); [|auto with dwf].
Qed.
Lemma item_params_wf i : item_payload i = true -> wf_params (item_params i) = true.
Proof.
  destruct i as [p n|p n vs|p n fs]; cbn [item_payload item_params]; intros R; [reflexivity| |].
  - unfold tuple_params. cbn [wf_params]. apply andb_true_intro. split.
    + rewrite RustWf.forallb_map, forallb_forall. intros iv I. apply enumerate_in in I. rewrite forallb_forall in R. specialize (R _ I).
      unfold wf_param. cbn [fst snd]. rewrite v_dident. now apply dty_wf.
    + destruct vs as [|v vs]; [reflexivity|]. unfold enumerate. reflexivity.
  - apply andb_true_iff in R as [NE R]. unfold struct_params. cbn [wf_params].
    apply andb_true_intro. split; [now destruct fs|]. apply (map_wf _ dfield); [assumption|]. intros f D. unfold wf_param. wfs.
Qed.
Lemma item_default_wf node i : denum node = true -> In i (en_items node) -> wf (item_default (en_id node) i) = true.
Proof.
  intros R I. destruct (ditem_wf node i R I) as (_ & _ & _ & _ & C).
  destruct i as [p n|p n vs|p n fs]; cbn [item_default item_id] in *; auto with dwf.
Qed.
Lemma to_dident p : word p = true -> dident ("to" ++ p) = true.
Proof. intros W. now apply prefix_dident. Qed.
Lemma is_dident p : word p = true -> dident ("is" ++ p) = true.
Proof. intros W. now apply prefix_dident. Qed.
Lemma create_dident p : word p = true -> dident ("create" ++ p) = true.
Proof. intros W. now apply prefix_dident. Qed.
#[export] Hint Resolve to_dident is_dident create_dident item_params_wf item_names_wf item_default_wf : dwf.
Lemma enum_model_wf node : denum node = true -> forallb wf_item (enum_model_tree node) = true.
Proof.
  intros R. assert (N : dclass (en_id node) = true) by now apply andb_true_iff in R.
  unfold enum_model_tree. destruct (en_items node) as [|first rest] eqn:E; [reflexivity|]. rewrite <- E.
  assert (IF : In first (en_items node)) by (rewrite E; now left).
  assert (H := fun i => ditem_wf node i R). cbn [app forallb]. split_and.
  - cbn [wf_item]. rewrite value_tname by assumption. cbn [andb]. rewrite RustWf.forallb_map, forallb_forall. intros i I. now destruct (H i I).
  - destruct (H first IF) as (F1 & F2 & F3 & F4 & F5). cbn [wf_item]. split_and; [auto with dwf|reflexivity|]. cbn [forallb].
    rewrite !forallb_app, !RustWf.forallb_map. split_and.
    + wfs.
    + rewrite forallb_forall. intros i I. destruct (H i I) as (I1 & I2 & I3 & I4 & I5). wfs.
    + rewrite forallb_forall. intros i I. destruct (H i I) as (I1 & I2 & I3 & I4 & I5). unfold to_method. cbn [wf_member].
      split_and; try reflexivity; try solve [auto with dwf]. pose proof (item_names_wf i I4) as Q.
      destruct i as [p n|p n vs|p n fs]; cbn [wf_body item_id] in *; [auto with dwf| |]; cbn [forallb];
        (apply andb_true_intro; split; [unfold set_st; cbn [wf_st]; auto with dwf|]);
        (apply (map_wf _ dident); [assumption|intros x D; unfold set_st; cbn [wf_st]; auto 10 with dwf]).
    + rewrite forallb_forall. intros i I. destruct (H i I) as (I1 & I2 & I3 & I4 & I5). unfold is_method. wfs.
    + rewrite forallb_forall. intros i I. destruct (H i I) as (I1 & I2 & I3 & I4 & I5). unfold create_method. cbn [wf_member wf_body].
      rewrite !forallb_app. pose proof (item_names_wf i I4) as Q. wfs.
      apply (map_wf _ dident); [assumption|intros x D; cbn [wf_st]; auto 12 with dwf].
  - apply factory_wf; auto with dwf.
  - apply RustWf.forallb_flat_map. intros i I. destruct (H i I) as (I1 & I2 & I3 & I4 & I5). apply struct_model_wf.
    unfold dstruct. rewrite enum_struct_id, I5. now apply enum_struct_fields.
Qed.

(** ** Buffers *)

Lemma codec_class_wf kind id r wr s : kind = "IntoBuffers" \/ kind = "EmplaceToBuffers" -> dclass id = true ->
  wf_member r = true -> wf_member wr = true -> wf_member s = true -> wf_item (codec_class kind id r wr s) = true.
Proof.
  intros K C A B D. unfold codec_class. cbn [wf_item forallb]. rewrite A, B, D.
  assert (T : tname (id ++ kind) = true) by (destruct K as [-> | ->]; auto with dwf).
  cbn [wf_member ty0 wf_ty forallb]. rewrite T, (tname_thead _ (dclass_tname _ C)). destruct K as [-> | ->]; reflexivity.
Qed.
Lemma model_field_wf f : dfield f = true -> wf (model_field f) = true.
Proof. intros D. unfold model_field. auto with dwf. Qed.
Lemma posting_model_field f : posting (model_field f) = true.
Proof. apply posting_field. Qed.
#[export] Hint Resolve model_field_wf posting_model_field : dwf.
Lemma filter_wf {A} (q p : A -> bool) l : forallb q l = true -> forallb q (filter p l) = true.
Proof. rewrite !forallb_forall. intros H x I. apply filter_In in I. apply H, I. Qed.

Ltac params := unfold wf_params, model_param; cbn [forallb]; unfold wf_param; cbn [fst snd wf_ty forallb ty0 reader_param writer_param].
Lemma struct_skip_wf skip node : (forall t, dtype t = true -> wf_st (skip t) = true) -> forallb dfield (sn_fields node) = true ->
  wf_member (struct_skip_meth skip node) = true.
Proof.
  intros K R. unfold struct_skip_meth, skip_meth. cbn [wf_member wf_body]. rewrite forallb_app.
  assert (A : forall p, forallb wf_st (map (fun f => skip (sf_type f)) (filter p (sn_fields node))) = true).
  { intros p. apply (map_wf _ dfield); [now apply filter_wf|]. intros f D. apply K. auto with dwf. }
  rewrite A. unfold count_loop. cbn [forallb wf_st]. rewrite A. reflexivity.
Qed.
Lemma struct_into_wf node : dstruct node = true -> wf_item (struct_into_class node) = true.
Proof.
  intros R. apply andb_true_iff in R as [N R]. apply codec_class_wf; auto.
  - unfold struct_into_read, read_meth. cbn [wf_member wf_body]. rewrite forallb_app.
    rewrite (map_wf _ dfield) by (assumption || (intros f D; cbn [wf_st]; split_and; auto with dwf)).
    cbn [forallb wf_st wf wf_post andb atomic var posts_ok nonempty].
    rewrite (map_wf _ dfield) by (assumption || (intros f D; cbn [fst snd label_ok]; split_and; auto with dwf)).
    rewrite (dident_dhead _ (tname_dident _ (dclass_tname _ N))). cbn [wf_ty ty0 forallb]. rewrite (tname_thead _ (dclass_tname _ N)).
    now destruct (sn_fields node).
  - unfold struct_into_write, write_meth. cbn [wf_member wf_body].
    rewrite (map_wf _ dfield) by (assumption || (intros f D; auto with dwf)).
    params.
    rewrite (tname_thead _ (dclass_tname _ N)). reflexivity.
  - apply struct_skip_wf; auto with dwf.
Qed.
Lemma struct_emplace_wf node : dstruct node = true -> wf_item (struct_emplace_class node) = true.
Proof.
  intros R. apply andb_true_iff in R as [N R]. apply codec_class_wf; auto.
  - unfold struct_emplace_read, read_meth. cbn [wf_member wf_body].
    rewrite (map_wf _ dfield) by (assumption || (intros f D; auto with dwf)).
    params.
    rewrite (tname_thead _ (dclass_tname _ N)). reflexivity.
  - unfold struct_emplace_write, write_meth. cbn [wf_member wf_body].
    rewrite (map_wf _ dfield) by (assumption || (intros f D; auto with dwf)).
    params.
    rewrite (tname_thead _ (dclass_tname _ N)). reflexivity.
  - apply struct_skip_wf; auto with dwf.
Qed.
Lemma struct_buffers_wf node : dstruct node = true -> forallb wf_item (struct_buffers_tree node) = true.
Proof.
  intros R. unfold struct_buffers_tree. pose proof (struct_into_wf node R) as A. pose proof (struct_emplace_wf node R) as B.
  destruct (sn_emplace node); destruct (sn_into node); cbn [forallb app]; now rewrite ?A, ?B.
Qed.

Lemma unsupported_wf : wf_case unsupported = true.
Proof. reflexivity. Qed.
Lemma model_item_wf i : dident (camel (item_id i)) = true -> wf (model_item i) = true.
Proof. intros D. unfold model_item. auto with dwf. Qed.
Lemma item_codec_wf id i : dclass (id ++ item_id i) = true -> wf (item_codec id i) = true.
Proof.
  intros C. unfold item_codec. apply wf_const0. apply emplace_tname in C. now rewrite append_assoc_s in C.
Qed.
Lemma posting_item_codec id i : posting (item_codec id i) = true.
Proof. reflexivity. Qed.
Lemma tag_wf i : wf (tag i) = true.
Proof. apply show_N_numeric_d. Qed.
#[export] Hint Resolve model_item_wf item_codec_wf posting_item_codec tag_wf : dwf.
Lemma item_call_wf id i m args : dclass (id ++ item_id i) = true -> dident m = true -> forallb wf args = true ->
  wf_st (DExpr (call (item_codec id i) m args)) = true.
Proof. intros C M A. cbn [wf_st]. auto with dwf. Qed.
Lemma set_value_wf id i : dclass id = true -> dident (camel (item_id i)) = true -> wf_st (set_value id i) = true.
Proof. intros C D. unfold set_value, set_st. cbn [wf_st]. auto with dwf. Qed.
Lemma switch_wf e cs : wf e = true -> forallb wf_case cs = true -> wf_st (DSwitch e cs) = true.
Proof. intros E C. cbn [wf_st]. rewrite E. exact C. Qed.

Lemma enum_classes_wf node : denum node = true ->
  wf_item (enum_into_class node) = true /\ wf_item (enum_emplace_class node) = true.
Proof.
  intros R. assert (N : dclass (en_id node) = true) by now apply andb_true_iff in R.
  assert (TH := tname_thead _ (dclass_tname _ N)).
  assert (H := fun i => ditem_wf node i R).
  assert (K : forall (g : enum_item -> option dex * list dst), (forall i, In i (en_items node) -> wf_case (g i) = true) ->
    forallb wf_case (map g (en_items node)) = true).
  { intros g G. rewrite RustWf.forallb_map, forallb_forall. exact G. }
  assert (W : wf_member (enum_write_meth node) = true).
  { unfold enum_write_meth, write_meth. cbn [wf_member wf_body forallb]. rewrite switch_wf.
    - params. now rewrite TH.
    - reflexivity.
    - apply K. intros i I. destruct (H i I) as (I1 & I2 & I3 & I4 & I5). unfold wf_case. cbn [fst snd forallb].
      rewrite item_call_wf; auto; [|cbn [forallb]; now rewrite model_item_wf by assumption].
      cbn [wf_st]. rewrite wf_call; auto; [|cbn [forallb]; now rewrite tag_wf].
      now rewrite value_of_wf. }
  assert (S : wf_member (enum_skip_meth node) = true).
  { unfold enum_skip_meth, skip_meth, count_loop, read_tag. cbn [wf_member wf_body forallb].
    cbn [wf_st]. fold wf_case. cbn [forallb]. rewrite switch_wf; [reflexivity|reflexivity|]. rewrite forallb_app.
    cbn [forallb]. rewrite unsupported_wf, K; [reflexivity|].
    intros i I. destruct (H i I) as (I1 & I2 & I3 & I4 & I5). unfold wf_case. cbn [fst snd forallb].
    rewrite item_call_wf by auto. cbn [wf_st]. now rewrite tag_wf. }
  split; apply codec_class_wf; auto.
  - unfold enum_into_read_meth, read_meth, read_tag. cbn [wf_member wf_body forallb]. rewrite switch_wf.
    + params. now rewrite TH.
    + reflexivity.
    + rewrite forallb_app. cbn [forallb]. rewrite unsupported_wf, K; [reflexivity|].
      intros i I. destruct (H i I) as (I1 & I2 & I3 & I4 & I5). unfold wf_case. cbn [fst snd forallb].
      rewrite item_call_wf; auto; [|cbn [forallb]; now rewrite model_item_wf by assumption].
      rewrite set_value_wf by assumption. rewrite tag_wf. cbn [wf_st]. rewrite wf_new by auto with dwf. reflexivity.
  - unfold enum_emplace_read_meth, read_meth, read_tag. cbn [wf_member wf_body forallb]. rewrite switch_wf.
    + params. now rewrite TH.
    + reflexivity.
    + rewrite forallb_app. cbn [forallb]. rewrite unsupported_wf, K; [reflexivity|].
      intros i I. destruct (H i I) as (I1 & I2 & I3 & I4 & I5). unfold wf_case. cbn [fst snd forallb].
      rewrite item_call_wf; auto; [|cbn [forallb]; now rewrite model_item_wf by assumption].
      rewrite set_value_wf by assumption. rewrite tag_wf. reflexivity.
Qed.
Lemma enum_buffers_wf node : denum node = true -> forallb wf_item (enum_buffers_tree node) = true.
Proof.
  intros R. unfold enum_buffers_tree. rewrite forallb_app. cbn [forallb]. destruct (enum_classes_wf node R) as [-> ->].
  rewrite andb_true_r. rewrite RustWf.forallb_map, forallb_forall. intros i I. destruct (ditem_wf node i R I) as (I1 & I2 & I3 & I4 & I5).
  apply struct_emplace_wf. unfold dstruct. rewrite enum_struct_id, I5. now apply enum_struct_fields.
Qed.

(** ** Constants *)

Lemma value_wf v : match v with ConstLiteral l _ => dliteral l end = true -> wf (const_value_ex v) = true.
Proof.
  destruct v as [[s|z|x|b] t]; cbn [dliteral rliteral const_value_ex]; intros R.
  - reflexivity.
  - rewrite int_ex. destruct z; cbn [wf is_number andb]; apply show_N_numeric_d.
  - destruct (f64_ex x) as [(a & _ & A & _ & ->)|(a & b & _ & A & _ & B & _ & ->)]; [now destruct x| |]; cbn [wf].
    + exact A.
    + apply andb_true_intro. split; [exact A|exact B].
  - now destruct b.
Qed.
Lemma const_dty_wf t : dtype t = true -> wf_ty (const_dty t) = true.
Proof.
  intros R. destruct t as [id n s|id n|id|id|id l|id]; cbn [const_dty]; try now apply dty_wf.
  destruct (_ || _); [reflexivity|now apply dty_wf].
Qed.
Lemma under_tname x : word x = true -> tname ("_" ++ x) = true.
Proof. intros W. now apply prefix_tname. Qed.
Lemma const_classes_wf c : dconst c = true -> forall prefix, all_word prefix = true ->
  forallb wf_item (const_classes prefix c) = true.
Proof.
  induction c as [id items IH] using const_ind2. intros R prefix WP. cbn [dconst] in R.
  rewrite !andb_true_iff in R. destruct R as [[N P] R]. rewrite forallb_forall in R. cbn [const_classes forallb].
  assert (T : word (prefix ++ pascal id) = true) by (apply word_app_r; assumption).
  apply andb_true_intro. split.
  - cbn [wf_item forallb wf_member]. rewrite (under_tname _ T). cbn [andb]. rewrite RustWf.forallb_map, forallb_forall. intros i I.
    specialize (R i I). destruct i as [n ty v|n]; cbn [const_member wf_member wf_value].
    + rewrite !andb_true_iff in R. destruct R as [[A B] C]. rewrite const_dty_wf, (dname_ident _ A), value_wf by assumption. reflexivity.
    + assert (W := const_words n R). destruct n as [n l]. cbn [const_id dconst] in *. rewrite !andb_true_iff in R. destruct R as [[A B] _].
      rewrite (dname_ident _ A). cbn [andb]. apply wf_const0. apply under_tname. rewrite <- append_assoc_s.
      apply word_app_l; [assumption|now apply word_all].
  - apply RustWf.forallb_flat_map. intros i I. destruct i as [n ty v|n]; [reflexivity|]. apply IH; [assumption|exact (R _ I)|now apply word_all].
Qed.
Lemma consts_wf ast : forallb ddecl ast = true -> forallb wf_item (consts_tree ast) = true.
Proof.
  intros R. rewrite forallb_forall in R. unfold consts_tree. rewrite forallb_app. apply andb_true_intro.
  split; apply RustWf.forallb_flat_map; intros n I; specialize (R n I); destruct n as [n|n|n|n|n]; try reflexivity.
  - destruct n as [n l]. cbn [ddecl dconst const_id forallb wf_item] in *. rewrite !andb_true_iff in R. destruct R as [[A B] _].
    rewrite (dname_ident _ A), wf_new; [reflexivity|]. now apply tname_dident, under_tname.
  - now apply const_classes_wf.
Qed.

(** ** The client *)

Lemma vars_wf n : dmethod n = true ->
  dident (camel (fn_id n)) = true /\ dident ("_connect" ++ pascal (fn_id n)) = true /\
  dident (var_last_method_id n) = true /\ dident (var_method_completers n) = true /\
  dident (var_read_task n) = true /\ dident (var_read_stream_controller n) = true /\
  forallb darg (fn_args n) = true /\ match fn_return n with Some t => dtype t | None => true end = true.
Proof.
  unfold dmethod. rewrite !andb_true_iff. intros [[[C P] A] R]. assert (D := dname_ident _ C). apply dname_word in C.
  unfold var_last_method_id, var_method_completers, var_read_task, var_read_stream_controller.
  repeat split; try assumption; (apply prefix_dident; [|discriminate|reflexivity|reflexivity]); try assumption;
    (apply word_app_l; [assumption|reflexivity]).
Qed.
Lemma args_wf n : forallb darg (fn_args n) = true -> forallb wf_st (arg_writes n) = true.
Proof.
  intros R. unfold arg_writes. apply (map_wf _ darg); [assumption|]. intros a D. apply andb_true_iff in D as [D T].
  apply write_wf; [assumption|]. auto using dname_ident with dwf.
Qed.
Lemma method_params_wf n : forallb darg (fn_args n) = true -> wf_params (method_params n) = true.
Proof.
  intros R. unfold method_params. destruct (fn_args n) as [|a l]; [reflexivity|].
  cbn [wf_params]. rewrite (map_wf _ darg); [reflexivity|assumption|]. intros x D. apply andb_true_iff in D as [D T].
  unfold wf_param. cbn [fst snd]. now rewrite (dname_ident _ D), dty_wf.
Qed.
Lemma scall_wf m ts n side f : dident m = true -> forallb wf_ty ts = true -> dident side = true -> wf f = true ->
  wf (scall m ts (args3 n side f)) = true.
Proof.
  intros M T S F. unfold scall, args3, scheduler. cbn [wf forallb atomic nonempty posts_ok wf_post fst snd label_ok andb comma_ok implb].
  rewrite M, T, F. rewrite show_N_numeric_d. change (wf (field (var "TechPawsRuntimeRpcMethodBuffer") side)) with (dident side && true). rewrite S. reflexivity.
Qed.
Lemma fun_wf x l : dident x = true -> forallb wf_st l = true -> wf (DFun x l) = true.
Proof. intros X L. cbn [wf]. now rewrite X, L. Qed.
Lemma sync_wf n : dmethod n = true -> wf_member (sync_method n) = true.
Proof.
  intros R. destruct (vars_wf n R) as (V1 & V2 & V3 & V4 & V5 & V6 & A & T). unfold sync_method. cbn [wf_member wf_body].
  rewrite ret_wf, V1, method_params_wf by assumption. cbn [andb]. rewrite forallb_app. cbn [forallb wf_st].
  rewrite scall_wf; try reflexivity.
  - change (wf (call scheduler "loopSyncGroup" [])) with true. cbn [andb]. destruct (fn_return n) as [t|]; [|reflexivity].
    cbn [forallb wf_st]. rewrite scall_wf; try reflexivity.
    + cbn [forallb]. now rewrite dty_wf.
    + apply fun_wf; [reflexivity|]. cbn [forallb wf_st]. rewrite read_wf by assumption. reflexivity.
  - apply fun_wf; [reflexivity|]. cbn [forallb]. now rewrite args_wf.
Qed.
Lemma connect_wf n rest : dmethod n = true -> forallb wf_st rest = true -> wf_member (connect_method n rest) = true.
Proof.
  intros R L. destruct (vars_wf n R) as (V1 & V2 & V3 & V4 & V5 & V6 & A & T). unfold connect_method, set_st.
  cbn [wf_member wf_body forallb wf_st]. rewrite V2. rewrite wf_set; [reflexivity|reflexivity|now apply wf_var|].
  apply scall_wf; try reflexivity. apply fun_wf; [reflexivity|]. rewrite forallb_app, L. reflexivity.
Qed.
Lemma async_rest_wf n : dmethod n = true -> forallb wf_st (async_connect_rest n) = true.
Proof.
  intros R. destruct (vars_wf n R) as (V1 & V2 & V3 & V4 & V5 & V6 & A & T). unfold async_connect_rest. cbn [forallb].
  rewrite forallb_app. cbn [forallb wf_st]. change (wf (call (var "reader") "readInt64" [])) with true.
  rewrite (wf_call (var (var_method_completers n))) by (reflexivity || now apply wf_var).
  destruct (fn_return n) as [t|]; cbn [forallb wf_st].
  - rewrite read_wf by assumption. cbn [wf atomic var forallb]. rewrite (dident_dhead _ V4). reflexivity.
  - cbn [wf atomic var forallb]. rewrite (dident_dhead _ V4). reflexivity.
Qed.
Lemma async_wf n : dmethod n = true -> wf_member (async_method n) = true.
Proof.
  intros R. destruct (vars_wf n R) as (V1 & V2 & V3 & V4 & V5 & V6 & A & T). unfold async_method, set_st. cbn [wf_member wf_body wf_ty forallb].
  rewrite ret_wf, V1, method_params_wf by assumption. cbn [wf_st].
  rewrite scall_wf; try reflexivity.
  - rewrite wf_set; [| reflexivity | now apply wf_var |cbn [wf atomic var forallb wf_post label_ok fst snd andb]; rewrite (dident_dhead _ V3); reflexivity].
    rewrite wf_set; [|reflexivity|cbn [wf atomic var forallb]; rewrite (dident_dhead _ V4); reflexivity|reflexivity].
    rewrite wf_var by assumption. cbn [wf atomic forallb]. rewrite ret_wf by assumption. reflexivity.
  - apply fun_wf; [reflexivity|]. rewrite forallb_app, args_wf by assumption. reflexivity.
Qed.
Lemma read_rest_wf n : dmethod n = true -> forallb wf_st (read_rest n) = true.
Proof.
  intros R. destruct (vars_wf n R) as (V1 & V2 & V3 & V4 & V5 & V6 & A & T). unfold read_rest.
  destruct (fn_return n) as [t|]; cbn [forallb wf_st].
  - rewrite read_wf, wf_call by (reflexivity || assumption || now apply wf_var). reflexivity.
  - rewrite wf_call by (reflexivity || assumption || now apply wf_var). reflexivity.
Qed.
Lemma method_members_wf n : dmethod n = true -> forallb wf_member (method_members n) = true.
Proof.
  intros R. unfold method_members. destruct (fn_is_read n); [|destruct (fn_is_async n)]; cbn [forallb].
  - rewrite connect_wf; auto using read_rest_wf.
  - rewrite connect_wf, async_wf; auto using async_rest_wf.
  - now rewrite sync_wf.
Qed.
Lemma var_members_wf n : dmethod n = true -> forallb wf_member (var_members n) = true.
Proof.
  intros R. destruct (vars_wf n R) as (V1 & V2 & V3 & V4 & V5 & V6 & A & T). unfold var_members. rewrite !forallb_app. split_and.
  - destruct (_ && _); [|reflexivity]. cbn [forallb wf_member wf_value wf wf_ty]. rewrite V3, V4, ret_wf by assumption. reflexivity.
  - destruct (is_async_or_read n); [|reflexivity]. cbn [forallb wf_member]. now rewrite V5.
  - destruct (fn_is_read n); [|reflexivity]. cbn [forallb wf_member wf_value wf atomic]. rewrite V6, ret_wf by assumption. reflexivity.
Qed.
Lemma getter_members_wf n : dmethod n = true -> forallb wf_member (getter_members n) = true.
Proof.
  intros R. destruct (vars_wf n R) as (V1 & V2 & V3 & V4 & V5 & V6 & A & T). unfold getter_members.
  destruct (fn_is_read n); [|reflexivity]. cbn [forallb wf_member wf_ty]. rewrite V1, ret_wf, wf_field by (assumption || reflexivity || now apply wf_var). reflexivity.
Qed.
Lemma client_wf ns id nodes : tname (pascal ns ++ "RpcClient") = true -> forallb dmethod nodes = true ->
  wf_item (client_class ns id nodes) = true.
Proof.
  intros N R. assert (R' := R). rewrite forallb_forall in R'. unfold client_class. cbn [wf_item]. rewrite N. cbn [andb].
  rewrite !forallb_app. split_and.
  - cbn [forallb wf_member]. rewrite N. cbn [andb]. replace (wf_params (PPos [(None, "_scheduler")] false)) with true by reflexivity. cbn [andb].
    assert (C : forallb wf_st (flat_map connect_call nodes) = true).
    { apply RustWf.forallb_flat_map. intros n I. destruct (vars_wf n (R' n I)) as (_ & V2 & _). unfold connect_call.
      destruct (is_async_or_read n); [|reflexivity]. cbn [forallb wf_st]. now rewrite wf_new. }
    destruct (flat_map connect_call nodes); [reflexivity|]. now rewrite C.
  - apply RustWf.forallb_flat_map. intros n I. auto using var_members_wf.
  - apply RustWf.forallb_flat_map. intros n I. auto using getter_members_wf.
  - cbn [forallb wf_member wf_body]. rewrite RustWf.forallb_flat_map; [reflexivity|]. intros n I.
    destruct (vars_wf n (R' n I)) as (V1 & V2 & V3 & V4 & V5 & V6 & A & T). unfold disconnect_sts.
    rewrite forallb_app. split_and.
    + destruct (is_async_or_read n); [|reflexivity]. cbn [forallb wf_st]. rewrite wf_call; auto.
    + destruct (fn_is_read n); [|reflexivity]. cbn [forallb wf_st]. rewrite wf_call; auto.
  - apply RustWf.forallb_flat_map. intros n I. auto using method_members_wf.
Qed.

(** ** The whole file *)

Lemma dart_tree_wf ast m b r : dart_ready ast = true -> forallb wf_item (dart_tree ast m b r) = true.
Proof.
  unfold dart_ready. rewrite !andb_true_iff. intros [[R U] D]. assert (R' := R). rewrite forallb_forall in R'.
  unfold dart_tree. rewrite !forallb_app. split_and.
  - unfold lib_imports_tree. destruct (_ && _); [reflexivity|]. now destruct b.
  - apply RustWf.forallb_flat_map. intros v I. now destruct v as [[s| | |] t].
  - now apply consts_wf.
  - destruct m; [|reflexivity]. apply RustWf.forallb_flat_map. intros n I. specialize (R' n I).
    destruct n as [n|n|n|n|n]; try reflexivity; [now apply enum_model_wf|now apply struct_model_wf].
  - destruct b; [|reflexivity]. apply RustWf.forallb_flat_map. intros n I. specialize (R' n I).
    destruct n as [n|n|n|n|n]; try reflexivity; [now apply enum_buffers_wf|now apply struct_buffers_wf].
  - destruct r; [|reflexivity]. unfold rpc_tree. unfold drpc in D. apply andb_true_iff in D as [D1 D2].
    destruct (find_fn_nodes ast) as [|n ns]; [reflexivity|].
    destruct (required_string ast "namespace") as [nsp| |]; try reflexivity.
    destruct (required_string ast "id") as [id| |]; try reflexivity.
    rewrite !andb_true_iff in D2. destruct D2 as [[_ T] _]. cbn [forallb]. now rewrite client_wf.
Qed.

(** Every generated Dart file is a Dart file, and these are its items. *)
Theorem dart_file_generated ast m b r s :
  dart_ready ast = true -> dart_generate ast m b r = Ok s -> dart_file s = Some (dart_tree ast m b r).
Proof.
  intros R G. apply dart_file_pr; [now apply dart_tree_wf|].
  pose proof (file_lexes ast m b r s R G) as L. unfold lexes in L. unfold code_tokens. rewrite L. cbn [flush].
  now rewrite app_nil_r.
Qed.
