(** Reading the generated Dart text, continued: codec classes. *)
Require Import Coq.Strings.String Coq.Strings.Ascii.
Require Import Coq.NArith.NArith Coq.ZArith.ZArith Coq.Lists.List Coq.Bool.Bool Coq.micromega.Lia.
Require Import Verif.Base Verif.F64 Verif.Ast Verif.Writer Verif.CaseConv Verif.Code Verif.CodeLex Verif.LexSpec
  Verif.NumText Verif.RustLexed.
Require Import Verif.DartSyntax Verif.DartPrint Verif.DartGen Verif.DartTree Verif.DartLexed Verif.DartLexedModel
  Verif.DartLexedEnum.
Require Verif.RustTree.
Import ListNotations.
Local Open Scope string_scope.
Local Open Scope list_scope.

(** ** Lines that may panic *)

Lemma bind_ok {A B} (r : res A) (k : A -> res B) b : (let* x := r in k x) = Ok b -> exists a, r = Ok a /\ k a = Ok b.
Proof. destruct r as [a| |]; try discriminate. intros H. now exists a. Qed.
Lemma rapp_ok a b c : (a +++ b) = Ok c -> exists x z, a = Ok x /\ b = Ok z /\ c = x ++ z.
Proof.
  unfold rapp. intros H. apply bind_ok in H as (x & A & H). apply bind_ok in H as (z & B & H). apply Ok_inj in H. subst. eauto.
Qed.
Lemma rshow_ok r s : rshow r = Ok s -> exists o, r = Ok o /\ s = show_ops2 o.
Proof. unfold rshow. intros H. apply bind_ok in H as (o & A & H). apply Ok_inj in H. subst. eauto. Qed.
Lemma rline_ok k r o : rline k r = Ok o -> exists s, r = Ok s /\ o = [WritelnTab k s].
Proof. unfold rline. intros H. apply bind_ok in H as (s & A & H). apply Ok_inj in H. subst. eauto. Qed.
Lemma rflat_lexes {A} (f : A -> res (list wop)) (g : A -> list tt) l : forall ops, rflat f l = Ok ops ->
  (forall x o, In x l -> f x = Ok o -> dops o (flat (g x))) -> dops ops (flat (flat_map g l)).
Proof.
  unfold rflat. induction l as [|x l IH]; intros ops G H.
  - cbn in G. apply Ok_inj in G. subst. apply dops_nil.
  - cbn [mapM] in G. apply bind_ok in G as (ps & G & E). apply Ok_inj in E. subst ops.
    apply bind_ok in G as (o & Gx & G). apply bind_ok in G as (qs & Gl & E). apply Ok_inj in E. subst ps.
    cbn [concat flat_map]. rewrite flat_app. apply dops_app; [apply (H x o); [now left|assumption]|].
    apply IH; [cbn [bind]; now rewrite Gl|]. intros z o' I. apply H. now right.
Qed.
Ltac rinv :=
  repeat match goal with
  | H : (_ +++ _) = Ok _ |- _ => let x := fresh "q" in let z := fresh "q" in
      apply rapp_ok in H as (x & z & ? & H & ->)
  | H : rshow _ = Ok _ |- _ => let o := fresh "q" in apply rshow_ok in H as (o & H & ->)
  | H : Ok _ = Ok _ |- _ => apply Ok_inj in H; subst
  | H : bind _ _ = Ok _ |- _ => let a := fresh "a" in apply bind_ok in H as (a & ? & H)
  end.

(** ** Structs *)

Lemma chunk_model f : dfield f = true -> dchunk ("model." ++ camel (sf_name f)) (flat (pr (model_field f))).
Proof.
  intros R. pose proof (dfield_word f R). unfold model_field, fname.
  eapply dchunk_intro; [lex|reflexivity|prs; flat_eq|reflexivity].
Qed.

Ltac meth := unfold read_meth, write_meth, skip_meth, reader_param, writer_param, model_param; rewrite pr_meth;
  cbn [pr_params sep pr_param fst snd pr_ty ty0 app trail pr_body].

Lemma struct_into_read_lexes node s : word (sn_id node) = true -> forallb dfield (sn_fields node) = true ->
  generate_struct_into_buffers_read node = Ok s ->
  dlexes LNone s (flat (pr_member override ++ pr_member (struct_into_read node))) LNone.
Proof.
  intros N R G. unfold generate_struct_into_buffers_read in G. rinv. rewrite forallb_forall in R.
  match goal with H : rflat _ _ = Ok ?o |- _ =>
    assert (A : dops o (flat (flat_map pr_st (map (fun f => DFinal (fname f) (read_ex (sf_type f))) (sn_fields node))))) end.
  { rewrite flat_map_map. eapply rflat_lexes; [eassumption|]. intros f o I G. cbv beta in G. rinv.
    pose proof (read_lexes _ _ (dfield_type f (R f I)) ltac:(eassumption)). pose proof (dfield_word f (R f I)). unchunk. unfold fname.
    cbn [pr_st]. opsq. flat_eq. }
  assert (B : dops (flat_map (fun field => [ WritelnTab 3 (camel (sf_name field) ++ ": " ++ camel (sf_name field) ++ ",") ]) (sn_fields node))
      (flat (sep (y ",") pr_arg (map (fun f => (Some (fname f), var (fname f))) (sn_fields node)) ++ trail (nil_or (sn_fields node))))).
  { rewrite <- dsep_trail. apply dops_loop. intros f I. pose proof (dfield_word f (R f I)). unfold pr_arg, fname.
    cbn [fst snd pr_label]. prs. opsq. flat_eq. }
  show_dops. opsq. unfold struct_into_read. meth. rewrite flat_map_app. cbn [flat_map pr_st pr pr_post].
  fold pr_arg. flats. reflexivity.
Qed.
Lemma struct_into_write_lexes node s : word (sn_id node) = true -> forallb dfield (sn_fields node) = true ->
  generate_struct_into_buffers_write node = Ok s ->
  dlexes LNone s (flat (pr_member override ++ pr_member (struct_into_write node))) LNone.
Proof.
  intros N R G. unfold generate_struct_into_buffers_write in G. rinv. rewrite forallb_forall in R.
  match goal with H : rflat _ _ = Ok ?o |- _ =>
    assert (A : dops o (flat (flat_map pr_st (map (fun f => write_st (sf_type f) (model_field f)) (sn_fields node))))) end.
  { rewrite flat_map_map. eapply rflat_lexes; [eassumption|]. intros f o I G. apply rline_ok in G as (t & G & ->).
    pose proof (write_lexes _ _ _ _ (dfield_type f (R f I)) (chunk_model f (R f I)) G). unchunk. opsq. flat_eq. }
  show_dops. opsq. unfold struct_into_write. meth. flat_eq.
Qed.
Lemma struct_emplace_write_lexes node s : word (sn_id node) = true -> forallb dfield (sn_fields node) = true ->
  generate_struct_emplace_buffers_write node = Ok s ->
  dlexes LNone s (flat (pr_member override ++ pr_member (struct_emplace_write node))) LNone.
Proof.
  intros N R G. unfold generate_struct_emplace_buffers_write in G. rinv. rewrite forallb_forall in R.
  match goal with H : rflat _ _ = Ok ?o |- _ =>
    assert (A : dops o (flat (flat_map pr_st (map (fun f => write_emplace_st (sf_type f) (model_field f)) (sn_fields node))))) end.
  { rewrite flat_map_map. eapply rflat_lexes; [eassumption|]. intros f o I G. apply rline_ok in G as (t & G & ->).
    pose proof (write_emplace_lexes _ _ _ _ (dfield_type f (R f I)) (chunk_model f (R f I)) G). unchunk. opsq. flat_eq. }
  show_dops. opsq. unfold struct_emplace_write. meth. flat_eq.
Qed.
Lemma struct_emplace_read_lexes node s : word (sn_id node) = true -> forallb dfield (sn_fields node) = true ->
  generate_struct_emplace_buffers_read node = Ok s ->
  dlexes LNone s (flat (pr_member override ++ pr_member (struct_emplace_read node))) LNone.
Proof.
  intros N R G. unfold generate_struct_emplace_buffers_read in G. rinv. rewrite forallb_forall in R.
  match goal with H : rflat _ _ = Ok ?o |- _ =>
    assert (A : dops o (flat (flat_map pr_st (map (fun f => read_emplace_st (sf_type f) (model_field f)) (sn_fields node))))) end.
  { rewrite flat_map_map. eapply rflat_lexes; [eassumption|]. intros f o I G. apply rline_ok in G as (t & G & ->).
    pose proof (read_emplace_lexes _ _ _ _ (dfield_type f (R f I)) (chunk_model f (R f I)) G). unchunk. opsq. flat_eq. }
  show_dops. opsq. unfold struct_emplace_read. meth. flat_eq.
Qed.

Lemma flat_map_filter {A B} (p : A -> bool) (f : A -> list B) l :
  flat_map f (filter p l) = flat_map (fun x => if p x then f x else []) l.
Proof. induction l as [|x l IH]; [reflexivity|]. cbn. destruct (p x); cbn; now rewrite IH. Qed.
Lemma blank_lexes (b : bool) : dops (if b then [ Writeln "" ] else []) [].
Proof. destruct b; [reflexivity|apply dops_nil]. Qed.
Lemma struct_skip_lexes (text : type_id -> res string) (st : type_id -> dst) node s :
  (forall t s, dtype t = true -> text t = Ok s -> dchunk s (flat (pr_st (st t)))) ->
  word (sn_id node) = true -> forallb dfield (sn_fields node) = true -> struct_skip text node = Ok s ->
  dlexes LNone s (flat (pr_member override ++ pr_member (struct_skip_meth st node))) LNone.
Proof.
  intros T N R G. unfold struct_skip in G. rinv. rewrite forallb_forall in R. rewrite <- app_assoc.
  match goal with H : rflat (fun field => if _ then rline 2 _ else _) _ = Ok ?o |- _ => eassert (A : dops o _) end.
  { eapply (rflat_lexes _ (fun f => if is_other (sf_type f) then pr_st (st (sf_type f)) else [])); [eassumption|].
    intros f o I G. cbv beta in G. destruct (is_other (sf_type f)); [|Ok_inv G; apply dops_nil].
    apply rline_ok in G as (t & G & ->). pose proof (T _ _ (dfield_type f (R f I)) G). unchunk. opsq. flat_eq. }
  match goal with H : rflat (fun field => if _ then _ else rline 3 _) _ = Ok ?o |- _ => eassert (B : dops o _) end.
  { eapply (rflat_lexes _ (fun f => if negb (is_other (sf_type f)) then pr_st (st (sf_type f)) else [])); [eassumption|].
    intros f o I G. cbv beta in G. destruct (is_other (sf_type f)); [Ok_inv G; apply dops_nil|]. cbn [negb].
    apply rline_ok in G as (t & G & ->). pose proof (T _ _ (dfield_type f (R f I)) G). unchunk. opsq. flat_eq. }
  pose proof (blank_lexes (existsb (fun field => is_other (sf_type field)) (sn_fields node))) as X.
  show_dops. opsq. unfold struct_skip_meth. meth. rewrite flat_map_app. cbn [flat_map]. unfold count_loop. cbn [pr_st].
  rewrite !flat_map_map, !flat_map_filter. flat_eq.
Qed.

Lemma struct_into_class_lexes node s : word (sn_id node) = true -> forallb dfield (sn_fields node) = true ->
  generate_struct_into_buffers node = Ok s ->
  exists us, dlexes LNone s us (LSym "}") /\ us ++ [CS "}"] = flat (pr_item (struct_into_class node)).
Proof.
  intros N R G. unfold generate_struct_into_buffers in G. rinv.
  pose proof (struct_into_read_lexes node _ N R ltac:(eassumption)) as A.
  pose proof (struct_into_write_lexes node _ N R ltac:(eassumption)) as B.
  pose proof (struct_skip_lexes _ _ node _ (fun t s => skip_lexes t s) N R ltac:(eassumption)) as C.
  match goal with |- exists us, lexes _ _ (show_ops2 [?o1; ?o2; ?o3; ?o4; ?o5; ?o6; ?o7]) _ _ /\ _ =>
    change [o1; o2; o3; o4; o5; o6; o7] with ([o1; o2; o3; o4; o5; o6] ++ [o7]) end.
  rewrite show_ops2_app. change (show_ops2 [Write "}"]) with "}". eexists. split.
  - eapply lexes_app; [show_dops; ops|lex].
  - unfold struct_into_class, codec_class. cbn [pr_item flat_map pr_ty ty0 sep app pr_member]. flats. reflexivity.
Qed.
Lemma struct_emplace_class_lexes node s : word (sn_id node) = true -> forallb dfield (sn_fields node) = true ->
  generate_struct_emplace_buffers node = Ok s ->
  dlexes LNone s (flat (pr_item (struct_emplace_class node))) LNone.
Proof.
  intros N R G. unfold generate_struct_emplace_buffers in G. rinv.
  pose proof (struct_emplace_read_lexes node _ N R ltac:(eassumption)) as A.
  pose proof (struct_emplace_write_lexes node _ N R ltac:(eassumption)) as B.
  pose proof (struct_skip_lexes _ _ node _ (fun t s => skip_emplace_lexes t s) N R ltac:(eassumption)) as C.
  show_dops. opsq. unfold struct_emplace_class, codec_class. cbn [pr_item flat_map pr_ty ty0 sep app pr_member]. flats. reflexivity.
Qed.
Lemma struct_buffers_lexes node s : dstruct node = true -> generate_struct_buffers node = Ok s ->
  dlexes LNone s (flat (pr_items (struct_buffers_tree node))) LNone.
Proof.
  intros R G. unfold dstruct in R. apply andb_true_iff in R as [N R]. apply dclass_word in N.
  unfold generate_struct_buffers in G. rinv. unfold struct_buffers_tree, pr_items. rewrite flat_map_app, flat_app.
  show_dops. apply dops_app.
  - destruct (sn_emplace node); rinv; [|apply dops_nil].
    pose proof (struct_emplace_class_lexes node _ N R ltac:(eassumption)). opsq. cbn [flat_map]. flats. reflexivity.
  - destruct (sn_into node); rinv; [|apply dops_nil].
    destruct (struct_into_class_lexes node _ N R ltac:(eassumption)) as (us & L & U). opsq. cbn [flat_map]. rewrite !app_nil_r. exact U.
Qed.

(** ** Enums *)

Lemma unsupported_lexes k : dops (unsupported_default k) (flat (pr_case unsupported)).
Proof. unfold unsupported_default. opsq. reflexivity. Qed.
Lemma pr_switch e cases : pr_st (DSwitch e cases) = [w "switch"; G "(" (pr e); G "{" (flat_map pr_case cases)].
Proof. reflexivity. Qed.

Lemma enum_items_ok node : denum node = true -> word (en_id node) = true /\
  forall i, In i (en_items node) -> word (item_id i) = true /\ word (camel (item_id i)) = true /\ item_payload i = true.
Proof.
  unfold denum. rewrite andb_true_iff, forallb_forall. intros [N R]. split; [now apply dclass_word|].
  intros i I. specialize (R i I). apply andb_true_iff in R as [R _]. parts R. auto.
Qed.

Ltac enum_start := let R := fresh "R" in intros R; apply enum_items_ok in R as [N R]; show_dops.
Ltac cases := unfold pr_case, set_value, set_st, value_of, tag, item_codec, model_item, count_loop, read_tag;
  cbn [fst snd flat_map pr_st pr app]; prs; cbn [pr].

Lemma enum_into_read_lexes node : denum node = true ->
  dlexes LNone (enum_into_read node) (flat (pr_member override ++ pr_member (enum_into_read_meth node))) LNone.
Proof.
  intros R. apply enum_items_ok in R as [N R]. show_dops. pose proof (unsupported_lexes 3) as U.
  match goal with |- ops2_lexes _ (_ ++ flat_map ?f _ ++ _) _ => eassert (A : dops (flat_map f (en_items node)) _) end.
  { eapply dops_loop with (g := fun i => pr_case (Some (tag i),
            [ DFinal "model" (new (en_id node)); set_value (en_id node) i;
              DExpr (call (item_codec (en_id node) i) "read" [var "reader"; model_item i]);
              DReturn (Some (var "model")) ])).
    intros i I. destruct (R i I) as (Wi & Wc & _). opsq. cases. flat_eq. }
  opsq. unfold enum_into_read_meth. meth. cbn [flat_map]. rewrite pr_switch, flat_map_app. cbn [flat_map].
  rewrite !flat_map_map. unfold read_tag. cbn [pr_st]. prs. flat_eq.
Qed.
Lemma enum_emplace_read_lexes node : denum node = true ->
  dlexes LNone (enum_emplace_read node) (flat (pr_member override ++ pr_member (enum_emplace_read_meth node))) LNone.
Proof.
  intros R. apply enum_items_ok in R as [N R]. show_dops. pose proof (unsupported_lexes 3) as U.
  match goal with |- ops2_lexes _ (_ ++ flat_map ?f _ ++ _) _ => eassert (A : dops (flat_map f (en_items node)) _) end.
  { eapply dops_loop with (g := fun i => pr_case (Some (tag i),
            [ set_value (en_id node) i;
              DExpr (call (item_codec (en_id node) i) "read" [var "reader"; model_item i]);
              DReturn None ])).
    intros i I. destruct (R i I) as (Wi & Wc & _). opsq. cases. flat_eq. }
  opsq. unfold enum_emplace_read_meth. meth. cbn [flat_map]. rewrite pr_switch, flat_map_app. cbn [flat_map].
  rewrite !flat_map_map. unfold read_tag. cbn [pr_st]. prs. flat_eq.
Qed.
Lemma enum_write_lexes node : denum node = true ->
  dlexes LNone (enum_write node) (flat (pr_member override ++ pr_member (enum_write_meth node))) LNone.
Proof.
  intros R. apply enum_items_ok in R as [N R]. show_dops.
  match goal with |- ops2_lexes _ (_ ++ flat_map ?f _ ++ _) _ => eassert (A : dops (flat_map f (enumerate (en_items node))) _) end.
  { eapply dops_enum with (g := fun i => pr_case (Some (value_of (en_id node) (item_id i)),
            [ DExpr (call (var "writer") "writeInt32" [tag i]);
              DExpr (call (item_codec (en_id node) i) "write" [var "writer"; model_item i]);
              DReturn None ])).
    intros k i I. destruct (R i I) as (Wi & Wc & _). cbn [fst snd]. opsq. cases. flat_eq. }
  opsq. unfold enum_write_meth. meth. cbn [flat_map]. rewrite pr_switch. prs.
  rewrite !flat_map_map. flat_eq.
Qed.
Lemma enum_skip_lexes node : denum node = true ->
  dlexes LNone (enum_skip node) (flat (pr_member override ++ pr_member (enum_skip_meth node))) LNone.
Proof.
  intros R. apply enum_items_ok in R as [N R]. show_dops. pose proof (unsupported_lexes 4) as U.
  match goal with |- ops2_lexes _ (_ ++ flat_map ?f _ ++ _) _ => eassert (A : dops (flat_map f (en_items node)) _) end.
  { eapply dops_loop with (g := fun i => pr_case (Some (tag i),
                [ DExpr (call (item_codec (en_id node) i) "skip" [var "reader"; DNum "1"]); DBreak ])).
    intros i I. destruct (R i I) as (Wi & Wc & _). opsq. cases. flat_eq. }
  opsq. unfold enum_skip_meth. meth. cbn [flat_map]. unfold count_loop. cbn [pr_st flat_map]. fold pr_case.
  rewrite flat_map_app. cbn [flat_map].
  rewrite !flat_map_map. unfold read_tag. cbn [pr_st]. prs. flat_eq.
Qed.
Lemma enum_class_lexes node : denum node = true ->
  dlexes LNone (generate_enum_into_buffers node) (flat (pr_item (enum_into_class node))) LNone /\
  dlexes LNone (generate_enum_emplace_buffers node) (flat (pr_item (enum_emplace_class node))) LNone.
Proof.
  intros R. pose proof (enum_into_read_lexes node R). pose proof (enum_emplace_read_lexes node R).
  pose proof (enum_write_lexes node R). pose proof (enum_skip_lexes node R). apply enum_items_ok in R as [N R].
  split; show_dops; opsq; unfold enum_into_class, enum_emplace_class, codec_class; cbn [pr_item flat_map pr_ty ty0 sep app pr_member]; flats; reflexivity.
Qed.
Lemma enum_buffers_lexes node s : denum node = true -> generate_enum_buffers node = Ok s ->
  dlexes LNone s (flat (pr_items (enum_buffers_tree node))) LNone.
Proof.
  intros R G. destruct (enum_class_lexes node R) as [A B]. apply enum_items_ok in R as [N R].
  unfold generate_enum_buffers in G. rinv. unfold enum_buffers_tree, pr_items. rewrite flat_map_app, flat_app.
  show_dops. apply dops_app.
  - rewrite flat_map_map. eapply rflat_lexes; [eassumption|]. intros i o I G. cbv beta in G. rinv.
    destruct (R i I) as (Wi & Wc & Wy).
    assert (Q : word (sn_id (create_enum_item_struct_ast_node node i)) = true).
    { rewrite enum_struct_id. apply word_app_l; [assumption|now apply word_all]. }
    pose proof (struct_emplace_class_lexes _ _ Q (enum_struct_fields node i Wy) ltac:(eassumption)).
    opsq. flats. reflexivity.
  - opsq. cbn [flat_map]. flats. reflexivity.
Qed.
