(** The trees of generated Rust files are well formed, so the files read back as these trees. *)
Require Import Coq.Strings.String Coq.Strings.Ascii.
Require Import Coq.NArith.NArith Coq.ZArith.ZArith Coq.Lists.List Coq.Bool.Bool Coq.micromega.Lia.
Require Import Verif.Base Verif.F64 Verif.Ast Verif.Writer Verif.Code Verif.RustSyntax Verif.RustPrint
  Verif.CodeLex Verif.RustGen Verif.RustTree Verif.LexSpec Verif.NumText Verif.RustLexed Verif.RustLexedEnum
  Verif.RustLexedConst Verif.RustLexedRpc Verif.RustFile.
Import ListNotations.
Local Open Scope string_scope.
Local Open Scope list_scope.

(** ** Names *)

Lemma ident_head n : ident n = true -> path_head n = true.
Proof. intros H. now apply andb_true_iff in H. Qed.
Lemma ident_type n : ident n = true -> type_head n = true.
Proof. intros H. unfold type_head. now rewrite H. Qed.
Lemma ident_field n : ident n = true -> field_name n = true.
Proof. intros H. unfold field_name. now rewrite H. Qed.

Lemma append_ends a b : ends_with b (a ++ b) = true.
Proof.
  induction a as [|c a IH].
  - cbn. destruct b; cbn [ends_with]; now rewrite String.eqb_refl.
  - cbn [append ends_with]. rewrite IH. apply orb_true_r.
Qed.
Lemma suffix_neq x suf k : ends_with suf k = false -> String.eqb (x ++ suf) k = false.
Proof.
  intros H. destruct (String.eqb_spec (x ++ suf) k) as [E|]; [|reflexivity]. subst k. now rewrite append_ends in H.
Qed.
Lemma handler_ident n : rname n = true -> ident (n ++ "_rpc_handler") = true.
Proof.
  intros R. assert (W := rname_word n R). assert (I := rname_ident n R).
  assert (N : numeric (n ++ "_rpc_handler") = false).
  { unfold ident, path_head in I. destruct (kw_of n); [discriminate|]. destruct n as [|c n]; [discriminate|].
    apply andb_true_iff in I as [I _]. cbn [append numeric] in *. now apply negb_true_iff in I. }
  unfold ident, path_head, kw_of, rust_reserved. cbn [existsb]. rewrite !suffix_neq by reflexivity. cbn [orb]. now rewrite N.
Qed.
Lemma v_ident i : ident (v_name i) = true.
Proof.
  unfold v_name. assert (H : String.eqb (show_nat i) "irtual" = false).
  { destruct (String.eqb_spec (show_nat i) "irtual") as [E|]; [|reflexivity].
    pose proof (show_N_digits (N.of_nat i)) as D. unfold show_nat in E. rewrite E in D. discriminate. }
  unfold ident, path_head, kw_of, rust_reserved. cbn [append existsb String.eqb Ascii.eqb Bool.eqb orb]. rewrite H. reflexivity.
Qed.
Lemma digits_numeric a : all_chars digitb a = true -> a <> "" -> numeric a = true.
Proof.
  destruct a as [|c a]; [congruence|]. cbn. intros H _. apply andb_true_iff in H as [H _].
  destruct c as [[] [] [] [] [] [] [] []]; vm_compute in H |- *; congruence.
Qed.
Lemma show_N_numeric n : numeric (show_N n) = true.
Proof. apply digits_numeric; [apply show_N_digits|apply show_N_nonempty]. Qed.

(** ** Types, reads, writes, defaults *)

Lemma rty_wf t : rtype t = true -> wf_ty (rty_of t) = true.
Proof.
  induction t as [id n s|id n|id|id|id l IH|id] using type_id_ind2; cbn [rtype rty_of]; intros R;
    try (cbn [wf_ty]; rewrite (ident_type _ (rname_ident _ R)); reflexivity).
  rewrite !andb_true_iff in R. destruct R as [[R N] L]. cbn [wf_ty]. rewrite (ident_type _ (rname_ident _ R)).
  cbn [forallb andb]. rewrite Forall_forall in IH. rewrite forallb_forall in *. intros t I.
  apply in_map_iff in I as (u & <- & I). auto.
Qed.
Lemma rtys_wf l : forallb rtype l = true -> forallb wf_ty (map rty_of l) = true.
Proof. rewrite !forallb_forall. intros H t I. apply in_map_iff in I as (u & <- & I). now apply rty_wf, H. Qed.

Lemma forallb_map {A B} (p : B -> bool) (f : A -> B) l : forallb p (map f l) = forallb (fun x => p (f x)) l.
Proof. induction l as [|x l IH]; [reflexivity|]. cbn. now rewrite IH. Qed.
Lemma forallb_imp {A} (p q : A -> bool) l : (forall x, p x = true -> q x = true) -> forallb p l = true -> forallb q l = true.
Proof. intros H. rewrite !forallb_forall. auto. Qed.

Lemma rtype_name t : rtype t = true -> match t with
  | TyInteger id _ _ | TyNumber id _ | TyBool id | TyChar id | TyOther id => ident id = true
  | TyGeneric id l => ident id = true /\ l <> [] /\ forallb wf_ty (map rty_of l) = true
  end.
Proof.
  destruct t as [id n s|id n|id|id|id l|id]; cbn [rtype]; intros R; try now apply rname_ident.
  rewrite !andb_true_iff in R. destruct R as [[R N] L]. split; [now apply rname_ident|].
  split; [now destruct l|now apply rtys_wf].
Qed.

Lemma assoc_wf t f : rtype t = true -> ident f = true -> wf (assoc_fn t f) = true.
Proof.
  intros R F. apply rtype_name in R. destruct t as [id n s|id n|id|id|id l|id]; cbn [assoc_fn path2 wf wf_path forallb wf_seg];
    try (rewrite (ident_head _ R), F; reflexivity).
  destruct R as (I & NE & L). rewrite (ident_head _ I), F. destruct l as [|t l]; [congruence|]. cbn [map] in *. now rewrite L.
Qed.
Lemma read_wf t : rtype t = true -> wf (read_tree t) = true.
Proof.
  intros R. pose proof (assoc_wf t "read_from_buffers" R eq_refl) as A.
  destruct t as [id n s|id n|id|id|id l|id]; cbn [read_tree]; try reflexivity.
  - cbn [wf]. rewrite A. reflexivity.
  - cbn [wf]. rewrite A. reflexivity.
Qed.
Lemma default_wf t : rtype t = true -> wf (default_tree t) = true.
Proof.
  intros R. pose proof (assoc_wf t "default" R eq_refl) as A.
  destruct t as [id n s|id n|id|id|id l|id]; cbn [default_tree]; try reflexivity.
  - cbn [wf]. rewrite A. reflexivity.
  - cbn [wf]. rewrite A. reflexivity.
Qed.

(** What a method can be called on, and can be passed with or without [*]. *)
Definition accessor_ok (e : ex) : bool :=
  match e with
  | EPath p => wf e
  | EPost (EPath p) ps => wf e && negb (existsb (fun p => match p with XField _ => false | _ => true end) ps)
  | _ => false
  end.
Lemma var_ok n : ident n = true -> accessor_ok (var n) = true.
Proof. intros I. cbn. now rewrite (ident_head _ I). Qed.
Lemma self_field_ok n : ident n = true -> accessor_ok (self_field n) = true.
Proof. intros I. cbn. now rewrite (ident_field _ I). Qed.

Lemma prim_write_wf id t e d : (match t with TyInteger i _ _ | TyNumber i _ | TyBool i | TyChar i => i = id | _ => False end) ->
  wf e = true -> unary e = true -> wf_st (write_tree t e d) = true.
Proof.
  intros E W U. destruct t as [i n s|i n|i|i|i l|i]; try contradiction; subst i; cbn [write_tree wf_st wf wf_post];
    destruct d; cbn [wf wf_post forallb andb]; rewrite ?U, W; reflexivity.
Qed.
Lemma write_wf t e d : rtype t = true -> accessor_ok e = true -> wf_st (write_tree t e d) = true.
Proof.
  intros R A. assert (W : wf e = true /\ unary e = true).
  { destruct e; try discriminate A; (split; [|reflexivity]); [assumption|]. destruct e; try discriminate A.
    cbn [accessor_ok] in A. now apply andb_true_iff in A. }
  destruct W as [W U].
  destruct t as [id n s|id n|id|id|id l|id]; try (eapply prim_write_wf; [reflexivity|assumption|assumption]);
    cbn [write_tree wf_st].
  all: destruct e as [| | |p| | | | | | | |h ps| | | | | | |]; try discriminate A.
  all: cbn [postfix]; try (cbn [wf] in *; rewrite W; reflexivity).
  all: destruct h; try discriminate A; cbn [accessor_ok] in A; apply andb_true_iff in A as [_ A]; apply negb_true_iff in A.
  all: cbn [wf atomic andb] in W |- *; rewrite !andb_true_iff in W; destruct W as [[[[W1 W2] W3] W4] W5].
  all: rewrite W1; cbn [andb num_posts_ok]; rewrite forallb_app, W5.
  all: replace (nonempty (ps ++ [XMeth "write_to_buffers" [var "bytes_writer"] false])) with true by now destruct ps.
  all: cbn [andb forallb]; rewrite andb_true_r.
  all: clear -W4; induction ps as [|[f|args b|m args b] ps IH]; [reflexivity| | |]; cbn [app posts_ok] in *; auto.
  all: destruct ps as [|[f2|args2 b2|m2 args2 b2] ps]; cbn [app posts_ok] in *; auto.
Qed.

(** ** Declarations *)

Ltac wfs :=
  cbn [wf wf_post wf_st wf_block wf_pat wf_path wf_seg forallb andb var path2 ty0 self_ty mut_ref self_ref fst snd
       rf_name rf_params rf_trailing rf_ret rf_body wf_item].

Lemma rfield_ident f : rfield f = true -> ident (sf_name f) = true.
Proof. intros H. apply andb_true_iff in H as [H _]. now apply rname_ident. Qed.
Lemma field_decl_wf l : forallb rfield l = true -> forallb wf_field (map field_decl l) = true.
Proof.
  rewrite forallb_map. apply forallb_imp. intros f R. unfold wf_field, field_decl. cbn [fst snd].
  now rewrite (rfield_ident f R), (rty_wf _ (rfield_type f R)).
Qed.
Lemma field_default_wf l : forallb rfield l = true ->
  forallb (fun fe => ident (fst fe) && wf (snd fe)) (map field_default l) = true.
Proof.
  rewrite forallb_map. apply forallb_imp. intros f R. unfold field_default. cbn [fst snd].
  now rewrite (rfield_ident f R), (default_wf _ (rfield_type f R)).
Qed.
Lemma field_read_wf l : forallb rfield l = true ->
  forallb (fun fe => ident (fst fe) && wf (snd fe)) (map field_read l) = true.
Proof.
  rewrite forallb_map. apply forallb_imp. intros f R. unfold field_read. cbn [fst snd].
  now rewrite (rfield_ident f R), (read_wf _ (rfield_type f R)).
Qed.
Lemma default_impl_wf id e : ident id = true -> wf e = true -> wf_item (default_impl id e) = true.
Proof.
  intros I W. unfold default_impl. cbn [wf_item ty0 wf_ty forallb]. rewrite (ident_type _ I). cbn [andb].
  unfold wf_fn. wfs. rewrite W. reflexivity.
Qed.
Lemma struct_model_wf node d : rstruct node = true -> forallb wf_item (struct_model_tree node d) = true.
Proof.
  intros R. apply andb_true_iff in R as [N R]. apply rname_ident in N. unfold struct_model_tree.
  assert (A := field_decl_wf _ R). assert (B := field_default_wf _ R).
  destruct (sn_fields node) as [|f fs]; rewrite forallb_app; cbn [forallb wf_item]; rewrite N.
  - destruct d; [|reflexivity]. cbn [forallb]. rewrite default_impl_wf; [reflexivity|assumption|reflexivity].
  - rewrite A. destruct d; [|reflexivity]. cbn [forallb]. rewrite default_impl_wf; [reflexivity|assumption|].
    cbn [wf wf_path forallb]. now rewrite B.
Qed.

Lemma values_wf l : forallb rvalue l = true -> forallb wf_ty (map (fun v => rty_of (tf_type v)) l) = true.
Proof. rewrite forallb_map. apply forallb_imp. intros v R. now apply rty_wf. Qed.
Lemma comma_nil_or {A B} (l : list A) (f : A -> B) : comma_ok (map f l) (nil_or l) = true.
Proof. now destruct l. Qed.

Lemma enum_model_wf node : renum node = true -> forallb wf_item (enum_model_tree node) = true.
Proof.
  intros R. unfold renum in R. rewrite !andb_true_iff in R. destruct R as [[N _] R]. apply rname_ident in N.
  unfold enum_model_tree. destruct (en_items node) as [|i items] eqn:E; [reflexivity|]. rewrite <- E in R |- *.
  cbn [forallb wf_item]. rewrite N, default_impl_wf; [|assumption|].
  - rewrite andb_true_r. change (forallb tt_ok _) with true. cbn [andb]. rewrite forallb_map. revert R. apply forallb_imp.
    intros [p id|p id vs|p id fs]; cbn [ritem variant_tree wf_variant]; intros R.
    + now apply rname_ident.
    + apply andb_true_iff in R as [R1 R2]. now rewrite (rname_ident _ R1), values_wf.
    + apply andb_true_iff in R as [R1 R2]. now rewrite (rname_ident _ R1), field_decl_wf.
  - rewrite E in R. cbn [forallb] in R. apply andb_true_iff in R as [R _].
    destruct i as [p id|p id vs|p id fs]; cbn [ritem variant_default] in *.
    + wfs. now rewrite (rname_ident _ R).
    + apply andb_true_iff in R as [R1 R2]. wfs. rewrite (rname_ident _ R1), comma_nil_or.
      assert (D : forallb wf (map (fun v => default_tree (tf_type v)) vs) = true).
      { rewrite forallb_map. revert R2. apply forallb_imp. intros v. apply default_wf. }
      rewrite D. reflexivity.
    + apply andb_true_iff in R as [R1 R2]. wfs. now rewrite (rname_ident _ R1), field_default_wf.
Qed.

(** ** Buffers *)

Lemma writes_bare l : bare_last (map SSemi l) = false.
Proof. induction l as [|x [|y l] IH]; [reflexivity|reflexivity|]. exact IH. Qed.
Lemma bare_semi {A} (f : A -> st) l : (forall x, match f x with SSemi _ => True | _ => False end) -> bare_last (map f l) = false.
Proof.
  intros H. induction l as [|x l IH]; [reflexivity|]. cbn [map bare_last]. specialize (H x).
  destruct (f x); try contradiction. exact IH.
Qed.
Lemma write_semi t e d : match write_tree t e d with SSemi _ => True | _ => False end.
Proof. now destruct t. Qed.
Lemma bare_tail s l : match s with SSemi _ | SLet _ _ => True | _ => False end -> bare_last l = false -> bare_last (s :: l) = false.
Proof. destruct s; try contradiction; intros _ H; exact H. Qed.

Lemma struct_buffers_wf node : rstruct node = true -> wf_item (struct_buffers_tree node) = true.
Proof.
  intros R. apply andb_true_iff in R as [N R]. apply rname_ident in N. unfold struct_buffers_tree.
  cbn [wf_item ty0 wf_ty forallb]. rewrite (ident_type _ N).
  assert (A : wf_fn (struct_read_fn node) = true).
  { unfold struct_read_fn. assert (B := field_read_wf _ R). destruct (sn_fields node) as [|f fs]; unfold wf_fn; wfs.
    - now rewrite (ident_head _ N).
    - now rewrite B. }
  assert (B : wf_fn (struct_write_fn node) = true).
  { unfold struct_write_fn.
    assert (W : forallb wf_st (map (fun f => write_tree (sf_type f) (self_field (sf_name f)) false) (sn_fields node)) = true).
    { rewrite forallb_map. revert R. apply forallb_imp. intros f R. apply write_wf; [now apply rfield_type|].
      apply self_field_ok. now apply rfield_ident. }
    destruct (sn_fields node) as [|f fs]; [reflexivity|]. unfold wf_fn. cbn [rf_name rf_params rf_trailing rf_ret rf_body wf_block].
    rewrite W, bare_semi by (intros; apply write_semi). reflexivity. }
  assert (C : wf_fn (struct_skip_fn node) = true).
  { unfold struct_skip_fn.
    assert (W : forallb wf_st (map (fun f => SSemi (read_tree (sf_type f))) (sn_fields node)) = true).
    { rewrite forallb_map. revert R. apply forallb_imp. intros f R. cbn [wf_st]. apply read_wf. now apply rfield_type. }
    destruct (sn_fields node) as [|f fs]; [reflexivity|]. unfold wf_fn. cbn [rf_name rf_params rf_trailing rf_ret rf_body wf_block wf_st forallb].
    rewrite W, (bare_semi (fun f => SSemi (read_tree (sf_type f)))) by (intros; exact I). reflexivity. }
  rewrite A, B, C. reflexivity.
Qed.

Lemma field_idents l : forallb rfield l = true -> forallb ident (map sf_name l) = true.
Proof. rewrite forallb_map. apply forallb_imp. intros f. apply rfield_ident. Qed.
Lemma path2_wf a b : ident a = true -> ident b = true -> wf_path [SName a; SName b] = true.
Proof. intros A B. cbn. now rewrite (ident_head _ A), B. Qed.
Lemma no_sym_path2 a b : no_sym "=>" (pr_path [SName a; SName b]) = true.
Proof. reflexivity. Qed.

Lemma enum_read_wf node : renum node = true -> wf_fn (enum_read_fn node) = true.
Proof.
  intros R. unfold renum in R. rewrite !andb_true_iff in R. destruct R as [[N _] R]. apply rname_ident in N.
  unfold enum_read_fn, wf_fn. cbn [rf_name rf_params rf_trailing rf_ret rf_body wf_block wf_st wf].
  rewrite forallb_app.
  assert (A : forallb (fun pe => wf_pat (fst pe) && no_sym "=>" (pr_pat (fst pe)) && wf (snd pe))
    (map (enum_read_arm (en_id node)) (en_items node)) = true).
  { rewrite forallb_map. revert R. apply forallb_imp.
    intros [p id|p id vs|p id fs]; cbn [ritem enum_read_arm fst snd wf_pat pr_pat]; intros R; rewrite show_N_numeric; cbn [andb no_sym forallb is_s w negb].
    - apply rname_ident in R. cbn [wf path2]. now apply path2_wf.
    - apply andb_true_iff in R as [R1 R2]. apply rname_ident in R1. cbn [wf path2]. rewrite path2_wf by assumption.
      cbn [forallb wf_post]. rewrite comma_nil_or.
      assert (D : forallb wf (map (fun v => read_tree (tf_type v)) vs) = true).
      { rewrite forallb_map. revert R2. apply forallb_imp. intros v. apply read_wf. }
      rewrite D. reflexivity.
    - apply andb_true_iff in R as [R1 R2]. apply rname_ident in R1. cbn [wf]. rewrite path2_wf, field_read_wf by assumption. reflexivity. }
  rewrite A. reflexivity.
Qed.

Lemma enum_write_wf node : renum node = true -> wf_fn (enum_write_fn node) = true.
Proof.
  intros R. unfold renum in R. rewrite !andb_true_iff in R. destruct R as [[N _] R]. apply rname_ident in N.
  unfold enum_write_fn, wf_fn. cbn [rf_name rf_params rf_trailing rf_ret rf_body wf_block wf_st wf].
  assert (A : forallb (fun pe => wf_pat (fst pe) && no_sym "=>" (pr_pat (fst pe)) && wf (snd pe))
    (map (enum_write_arm (en_id node)) (en_items node)) = true).
  { rewrite forallb_map. revert R. apply forallb_imp.
    assert (T : forall p, wf_st (tag_tree p) = true).
    { intros p. apply (prim_write_wf "u32"); [reflexivity| |reflexivity]. cbn. apply show_N_numeric. }
    intros [p id|p id vs|p id fs]; cbn [ritem enum_write_arm fst snd wf_pat pr_pat wf]; intros R.
    - apply rname_ident in R. rewrite path2_wf by assumption. rewrite no_sym_path2. cbn [wf_block forallb]. now rewrite T.
    - apply andb_true_iff in R as [R1 R2]. apply rname_ident in R1. rewrite path2_wf by assumption.
      rewrite <- (nil_or_enumerate vs), comma_nil_or.
      assert (I : forallb ident (map (fun iv : nat * tuple_field => v_name (fst iv)) (enumerate vs)) = true).
      { rewrite forallb_forall. intros x Hx. apply in_map_iff in Hx as (iv & <- & _). apply v_ident. }
      rewrite I. unfold no_sym. rewrite forallb_app. change (forallb (fun x => negb (is_s "=>" x)) (pr_path [SName (en_id node); SName id])) with true.
      cbn [forallb is_s negb andb wf_block]. rewrite T.
      assert (W : forallb wf_st (map (fun iv => write_tree (tf_type (snd iv)) (var (v_name (fst iv))) true) (enumerate vs)) = true).
      { rewrite forallb_forall. intros x Hx. apply in_map_iff in Hx as (iv & <- & Hi). apply write_wf; [|apply var_ok, v_ident].
        apply enumerate_in in Hi. rewrite forallb_forall in R2. now apply R2. }
      rewrite W, bare_tail; [reflexivity|exact Logic.I|]. apply bare_semi. intros. apply write_semi.
    - apply andb_true_iff in R as [R1 R2]. apply rname_ident in R1. rewrite path2_wf by assumption.
      rewrite field_idents by assumption.
      unfold no_sym. rewrite forallb_app. change (forallb (fun x => negb (is_s "=>" x)) (pr_path [SName (en_id node); SName id])) with true.
      cbn [forallb is_s negb andb wf_block]. rewrite T.
      assert (W : forallb wf_st (map (fun f => write_tree (sf_type f) (var (sf_name f)) true) fs) = true).
      { rewrite forallb_map. revert R2. apply forallb_imp. intros f R. apply write_wf; [now apply rfield_type|].
        apply var_ok. now apply rfield_ident. }
      rewrite W, bare_tail; [reflexivity|exact Logic.I|]. apply bare_semi. intros. apply write_semi. }
  rewrite A. reflexivity.
Qed.

Lemma enum_skip_wf node : renum node = true -> wf_fn (enum_skip_fn node) = true.
Proof.
  intros R. unfold renum in R. rewrite !andb_true_iff in R. destruct R as [[N _] R]. apply rname_ident in N.
  unfold enum_skip_fn, wf_fn. cbn [rf_name rf_params rf_trailing rf_ret rf_body wf_block wf_st wf forallb].
  rewrite forallb_app.
  assert (A : forallb (fun pe => wf_pat (fst pe) && no_sym "=>" (pr_pat (fst pe)) && wf (snd pe))
    (map enum_skip_arm (en_items node)) = true).
  { rewrite forallb_map. revert R. apply forallb_imp.
    intros [p id|p id vs|p id fs]; cbn [ritem enum_skip_arm fst snd wf_pat pr_pat]; intros R; rewrite show_N_numeric; cbn [andb no_sym forallb is_s w negb].
    - reflexivity.
    - apply andb_true_iff in R as [R1 R2]. cbn [wf wf_block].
      assert (D : forallb wf_st (map (fun v => SSemi (read_tree (tf_type v))) vs) = true).
      { rewrite forallb_map. revert R2. apply forallb_imp. intros v. apply read_wf. }
      rewrite D, (bare_semi (fun v => SSemi (read_tree (tf_type v)))) by (intros; exact I). reflexivity.
    - apply andb_true_iff in R as [R1 R2]. cbn [wf wf_block].
      assert (D : forallb wf_st (map (fun v => SSemi (read_tree (sf_type v))) fs) = true).
      { rewrite forallb_map. revert R2. apply forallb_imp. intros v R. apply read_wf. now apply rfield_type. }
      rewrite D, (bare_semi (fun v => SSemi (read_tree (sf_type v)))) by (intros; exact I). reflexivity. }
  rewrite A. reflexivity.
Qed.
Lemma enum_buffers_wf node : renum node = true -> wf_item (enum_buffers_tree node) = true.
Proof.
  intros R. unfold enum_buffers_tree. cbn [wf_item ty0 wf_ty forallb].
  rewrite enum_read_wf, enum_write_wf, enum_skip_wf by assumption.
  unfold renum in R. rewrite !andb_true_iff in R. destruct R as [[N _] _]. apply rname_ident in N.
  now rewrite (ident_type _ N).
Qed.

(** ** Constants *)

Lemma value_wf v : match v with ConstLiteral l _ => rliteral l end = true -> wf (const_value_tree v) = true.
Proof.
  destruct v as [[s|z|x|b] t]; cbn [rliteral const_value_tree]; intros R.
  - reflexivity.
  - destruct z as [|p|p]; cbn [show_Z]; [reflexivity| |].
    + rewrite digits_number by (apply show_N_digits || apply show_N_nonempty). apply show_N_numeric.
    + change (number_tree ("-" ++ show_N (N.pos p))) with (ENeg (unsigned_tree (show_N (N.pos p)))).
      unfold unsigned_tree. rewrite upto_digits by apply show_N_digits. cbn [wf unary andb]. apply show_N_numeric.
  - assert (F : finite x = true) by now destruct x.
    destruct (show_f64_digits x F) as [(a & A & AN & ->)|(a & b & A & AN & B & BN & ->)].
    + rewrite digits_number by assumption. now apply digits_numeric.
    + rewrite digits_float by assumption. cbn [wf]. now rewrite !digits_numeric.
  - now destruct b.
Qed.
Lemma const_tree_wf id ty v : rconst_value id ty v = true -> wf_item (const_tree id ty v) = true.
Proof.
  unfold rconst_value. rewrite !andb_true_iff. intros [[N T] V]. apply rname_ident in N.
  assert (W := value_wf v V). assert (Y := rty_wf ty T). unfold const_tree.
  assert (P : wf_item (IConst id (rty_of ty) (const_value_tree v)) = true) by (cbn [wf_item]; now rewrite N, Y, W).
  assert (Q : forall n, ident n = true -> wf_item (IConst id (RPath ["tech_paws_runtime"; n] [])
      (EPost (EPath (runtime_path n)) [XCall [const_value_tree v] false])) = true).
  { intros n I. cbn [wf_item]. rewrite N. unfold runtime_path. cbn [wf_ty wf wf_path forallb wf_seg wf_post]. rewrite I, W. reflexivity. }
  destruct ty as [i n s|i n|i|i|i l|i]; try exact P.
  destruct (String.eqb i "GroupAddress"); [now apply Q|]. destruct (String.eqb i "CommandsBufferAddress"); [now apply Q|exact P].
Qed.
Lemma const_block_wf c : rconst c = true -> wf_item (const_block_tree c) = true.
Proof.
  induction c as [id items IH] using const_ind2. cbn [rconst const_block_tree wf_item]. intros R.
  apply andb_true_iff in R as [N R]. rewrite (rname_ident _ N). cbn [andb]. rewrite forallb_forall in *.
  intros x Hx. apply in_map_iff in Hx as (i & <- & Hi). specialize (R i Hi). destruct i as [i ty v|n].
  - now apply const_tree_wf.
  - now apply IH.
Qed.

(** ** Remote calls *)

Lemma result_wf node : rmethod node = true -> forallb wf_st (result_tree node) = true /\ bare_last (result_tree node) = false.
Proof.
  unfold rmethod. rewrite !andb_true_iff. intros [_ R]. unfold result_tree. destruct (fn_return node) as [t|]; [|now split].
  cbn [forallb]. rewrite write_wf by (assumption || reflexivity). split; [reflexivity|]. now destruct t.
Qed.
Lemma call_wf a node : rmethod node = true -> wf_st (call_tree a node) = true.
Proof.
  unfold rmethod. rewrite !andb_true_iff. intros [[N A] _]. apply rname_ident in N. unfold call_tree.
  assert (W : forallb wf (map (fun a => EPost (var "args") [XMeth "clone" [] false; XField (fa_id a)]) (fn_args node)) = true).
  { rewrite forallb_map. revert A. apply forallb_imp. intros x R. unfold rarg in R. apply andb_true_iff in R as [R _].
    apply rname_ident in R. cbn. now rewrite (ident_field _ R). }
  set (args := map _ (fn_args node)) in *.
  assert (E : wf (EPost (var (fn_id node)) (XCall args (nil_or args) :: (if a then [XField "await"] else []))) = true).
  { cbn [wf wf_path var forallb wf_post]. rewrite (ident_head _ N), W. destruct args; destruct a; reflexivity. }
  destruct (fn_return node); cbn [wf_st]; rewrite E; reflexivity.
Qed.
Lemma call_semi a node : match call_tree a node with SSemi _ | SLet _ _ => True | _ => False end.
Proof. unfold call_tree. now destruct (fn_return node). Qed.
Lemma args_head node : path_head (args_struct_id node) = true.
Proof. reflexivity. Qed.
Lemma get_args_wf node : wf (get_args_tree node) = true.
Proof. reflexivity. Qed.

Ltac handler_wf :=
  unfold handler; cbn [wf_item]; unfold wf_fn; cbn [rf_name rf_params rf_trailing rf_ret rf_body].

Lemma blk_wf l t : forallb wf_st l = true -> match t with Some e => wf e | None => true end = true ->
  bare_last l && match t with None => true | Some _ => false end = false -> wf_block (Blk l t) = true.
Proof. intros A B C. cbn [wf_block]. now rewrite A, B, C. Qed.
Lemma buffer_write_wf m side l : ident m = true -> ident side = true -> forallb wf_st l = true -> bare_last l = false ->
  wf (buffer_call m side (writer_block l)) = true.
Proof.
  intros M S A B. unfold buffer_call, writer_block. cbn [wf forallb wf_post wf_path path2 wf_seg wf_block var].
  rewrite M, S, A, B. reflexivity.
Qed.

Lemma methods_wf node : rmethod node = true -> forallb wf_item (rpc_method_tree node) = true.
Proof.
  intros R. destruct (result_wf node R) as [R1 R2]. assert (C0 := call_wf false node R). assert (C1 := call_wf true node R).
  assert (S0 := sync_rstruct node R). assert (S1 := async_rstruct node R).
  assert (N : rname (fn_id node) = true) by (unfold rmethod in R; rewrite !andb_true_iff in R; apply R).
  assert (W : forall side v, ident side = true -> numeric v = true -> wf (buffer_call "rpc_buffer_write" side (writer_block (write_u8 v :: result_tree node))) = true).
  { intros side v Sd V. apply buffer_write_wf; [reflexivity|assumption| |].
    - cbn [forallb]. rewrite R1. unfold write_u8. cbn [wf_st wf forallb wf_post]. rewrite V. reflexivity.
    - apply bare_tail; [exact I|assumption]. }
  unfold rpc_method_tree. destruct (fn_is_read node), (fn_is_async node).
  - unfold async_read_method_tree. cbn [forallb]. rewrite andb_true_r. handler_wf. rewrite (handler_ident _ N).
    unfold spawn_tree, let_memory, if_some. cbn [wf_block forallb wf_st wf wf_post]. rewrite W by reflexivity.
    rewrite (ident_head _ (rname_ident _ N)) || cbn [var wf wf_path]. cbn [var wf wf_path]. rewrite (ident_head _ (rname_ident _ N)). reflexivity.
  - unfold sync_read_method_tree. cbn [forallb]. rewrite andb_true_r. handler_wf. rewrite (handler_ident _ N).
    unfold if_some. cbn [wf_block forallb wf_st wf wf_post]. rewrite W by reflexivity.
    cbn [var wf wf_path]. rewrite (ident_head _ (rname_ident _ N)). reflexivity.
  - unfold async_method_tree. rewrite forallb_app, struct_model_wf by assumption. cbn [forallb]. rewrite struct_buffers_wf by assumption.
    cbn [andb]. rewrite andb_true_r. handler_wf. rewrite (handler_ident _ N).
    assert (Wa : wf (buffer_call "rpc_buffer_write" "Client" (writer_block (write_u8 "0xFF" ::
        SSemi (EPost (var "bytes_writer") [XMeth "write_i64" [EPost (var "args") [XField "__method_id__"]] false]) :: result_tree node))) = true).
    { apply buffer_write_wf; [reflexivity|reflexivity| |].
      - cbn [forallb]. rewrite R1. reflexivity.
      - apply bare_tail; [exact I|]. now apply bare_tail. }
    unfold spawn_tree, let_memory, if_some. cbn [wf_block forallb wf_st wf wf_post]. rewrite get_args_wf, Wa, C1.
    cbn [bare_last]. destruct (call_tree true node) eqn:E; reflexivity.
  - unfold sync_method_tree. rewrite forallb_app, struct_model_wf by assumption. cbn [forallb]. rewrite struct_buffers_wf by assumption.
    cbn [andb]. rewrite andb_true_r. handler_wf. rewrite (handler_ident _ N).
    unfold if_some. cbn [wf_block forallb wf_st wf wf_post]. rewrite get_args_wf, W, C0 by reflexivity.
    cbn [bare_last]. destruct (call_tree false node) eqn:E; reflexivity.
Qed.

Lemma register_wf id l : forallb rmethod l = true -> wf_item (register_tree id l) = true.
Proof.
  intros R. unfold register_tree. cbn [wf_item]. unfold wf_fn. cbn [rf_name rf_params rf_trailing rf_ret rf_body].
  rewrite blk_wf; [reflexivity| |reflexivity|].
  - rewrite forallb_app. cbn [forallb andb]. change (wf_st (SLet _ _)) with true. change (wf_st (SSemi _)) with true at 1. cbn [andb].
    rewrite forallb_map. revert R. apply forallb_imp. intros n Rn. unfold rmethod in Rn. rewrite !andb_true_iff in Rn.
    destruct Rn as [[N _] _]. assert (H := ident_head _ (handler_ident _ N)). assert (D := show_N_numeric (fn_position n)).
    destruct (fn_is_read n); [|destruct (fn_is_async n)]; unfold call1; cbn [wf_st wf wf_post forallb wf_path var]; rewrite H, D; reflexivity.
  - rewrite andb_true_r. cbn [app]. apply bare_tail; [exact I|]. apply bare_tail; [exact I|]. apply bare_semi. intros n.
    destruct (fn_is_read n); [|destruct (fn_is_async n)]; exact I.
Qed.

(** ** The whole file *)

Lemma forallb_flat_map {A B} (p : B -> bool) (f : A -> list B) l :
  (forall x, In x l -> forallb p (f x) = true) -> forallb p (flat_map f l) = true.
Proof.
  induction l as [|x l IH]; intros H; [reflexivity|]. cbn [flat_map]. rewrite forallb_app, (H x (or_introl eq_refl)).
  apply IH. intros z I. apply H. now right.
Qed.

Lemma rust_tree_wf ast m b r : rust_ready ast = true -> forallb wf_item (rust_tree ast m b r) = true.
Proof.
  unfold rust_ready. rewrite !andb_true_iff. intros [[R U] _]. unfold rust_tree. rewrite !forallb_app, !andb_true_iff.
  assert (R' := R). rewrite forallb_forall in R'. repeat split.
  - destruct (r && _); [reflexivity|]. now destruct b.
  - unfold user_uses. apply forallb_flat_map. intros v I. rewrite forallb_forall in U. specialize (U v I).
    destruct v as [[s| | |] t]; try reflexivity. destruct (use_parts s (ex_intro _ t U)) as (us & st & _ & _ & _ & A & B).
    cbn [forallb wf_item]. now rewrite A, B.
  - apply forallb_flat_map. intros n I. specialize (R' n I). destruct n; try reflexivity. cbn [forallb]. now rewrite const_block_wf.
  - destruct m; [|reflexivity]. apply forallb_flat_map. intros n I. specialize (R' n I).
    destruct n; try reflexivity; [now apply enum_model_wf|now apply struct_model_wf].
  - destruct b; [|reflexivity]. apply forallb_flat_map. intros n I. specialize (R' n I).
    destruct n; try reflexivity; cbn [forallb]; [now rewrite enum_buffers_wf|now rewrite struct_buffers_wf].
  - destruct r; [|reflexivity]. assert (M := rmethods ast R). unfold rpc_tree. destruct (find_fn_nodes ast) as [|n ns] eqn:F; [reflexivity|].
    rewrite <- F in *. cbn [forallb]. rewrite register_wf by assumption. cbn [andb]. apply forallb_flat_map. intros x I.
    rewrite forallb_forall in M. apply methods_wf. now apply M.
Qed.

(** Every generated Rust file is a Rust file, and these are its items. *)
Theorem rust_file_generated ast m b r s :
  rust_ready ast = true -> rust_generate ast m b r = Ok s -> rust_file s = Some (rust_tree ast m b r).
Proof.
  intros R G. apply rust_file_pr; [now apply rust_tree_wf|].
  pose proof (file_lexes ast m b r s R G) as L. unfold lexes in L. unfold code_tokens. rewrite L. cbn [flush].
  now rewrite app_nil_r.
Qed.
