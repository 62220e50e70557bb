(** Reading the generated Rust text, continued: remote calls. *)
Require Import Coq.Strings.String Coq.Strings.Ascii.
Require Import Coq.NArith.NArith Coq.ZArith.ZArith Coq.Lists.List Coq.Bool.Bool Coq.micromega.Lia.
Require Import Verif.Base Verif.F64 Verif.Ast Verif.Writer Verif.Code Verif.RustSyntax Verif.RustPrint
  Verif.CodeLex Verif.RustGen Verif.RustTree Verif.LexSpec Verif.NumText Verif.RustLexed Verif.RustLexedEnum.
Import ListNotations.
Local Open Scope string_scope.
Local Open Scope list_scope.

Definition rarg (a : fn_arg) : bool := rname (fa_id a) && rtype (fa_type a).
Definition rmethod (n : fn_node) : bool :=
  rname (fn_id n) && forallb rarg (fn_args n) &&
  match fn_return n with Some t => rtype t | None => true end.

Lemma args_word node : word (fn_id node) = true -> word (args_struct_id node) = true.
Proof.
  intros W. unfold args_struct_id. apply word_app_r; [reflexivity|]. now apply word_app_l.
Qed.
Lemma args_ident node : ident (args_struct_id node) = true.
Proof. reflexivity. Qed.
Lemma args_rname node : word (fn_id node) = true -> rname (args_struct_id node) = true.
Proof. intros W. unfold rname. now rewrite args_word, args_ident. Qed.

Lemma args_rfields k l : forallb rarg l = true -> forallb rfield (args_fields k l) = true.
Proof.
  unfold args_fields. revert k. induction l as [|a l IH]; intros k H; [reflexivity|]. cbn [forallb] in H.
  apply andb_true_iff in H as [H1 H2]. cbn [enumerate_from map forallb]. rewrite IH by assumption.
  unfold rfield. cbn [sf_name sf_type snd]. now rewrite andb_true_r.
Qed.
Lemma sync_rstruct node : rmethod node = true -> rstruct (sync_args_struct node) = true.
Proof.
  unfold rmethod. rewrite !andb_true_iff. intros [[N A] _]. unfold rstruct. cbn [sync_args_struct sn_id sn_fields].
  rewrite args_rname by now apply rname_word. now apply args_rfields.
Qed.
Lemma async_rstruct node : rmethod node = true -> rstruct (async_args_struct node) = true.
Proof.
  unfold rmethod. rewrite !andb_true_iff. intros [[N A] _]. unfold rstruct. cbn [async_args_struct sn_id sn_fields forallb].
  rewrite args_rname by now apply rname_word. rewrite args_rfields by assumption. reflexivity.
Qed.

Ltac statuses := unfold RPC_NEW_DATA_STATUS, RPC_NO_DATA_STATUS, RPC_READ_BUSY_STATUS, RPC_READ_FREE_STATUS.

Lemma result_lexes k node : rmethod node = true ->
  rops (write_result_ops k node) (flat (flat_map pr_st (result_tree node))).
Proof.
  unfold rmethod. rewrite !andb_true_iff. intros [_ R]. unfold write_result_ops, result_tree.
  destruct (fn_return node) as [t|]; [|apply rops_nil].
  pose proof (write_lexes t "result" (var "result") false R (chunk_var "result" eq_refl)). unchunk. opsq. cbn [flat_map]. flat_eq.
Qed.
Lemma call_args_lexes k l : forallb rarg l = true ->
  rops (flat_map (fun arg => [ WritelnTab k ("args.clone()." ++ fa_id arg ++ ",") ]) l)
    (flat (sep (y ",") pr (map (fun a => EPost (var "args") [XMeth "clone" [] false; XField (fa_id a)]) l) ++ trail (nil_or l))).
Proof.
  intros R. rewrite forallb_forall in R. rewrite <- sep_trail. apply rops_loop. intros a I.
  specialize (R a I). unfold rarg in R. apply andb_true_iff in R as [R _]. apply rname_word in R. opsq. trees. flat_eq.
Qed.
Lemma call_lexes k await (a : bool) node : rmethod node = true -> await = (if a then ".await" else "") ->
  rops (call_ops k await node) (flat (pr_st (call_tree a node))).
Proof.
  unfold rmethod. rewrite !andb_true_iff. intros [[N A] _] ->. apply rname_word in N. unfold call_ops, call_tree.
  pose proof (call_args_lexes (k + 1) (fn_args node) A) as L. replace (nil_or (map (fun a => EPost (var "args") [XMeth "clone" [] false; XField (fa_id a)]) (fn_args node)))
    with (nil_or (fn_args node)) by now destruct (fn_args node).
  destruct (fn_args node) as [|x l]; destruct (fn_return node) as [t|]; destruct a; cbn [is_none]; opsq;
    cbn [pr_st pr pr_post flat_map pr_path pr_seg var]; try flat_eq.
Qed.

Ltac rpc_trees :=
  unfold handler, get_args_tree, buffer_call, clear_request_tree, writer_block, write_u8, read_u8, if_some, is_some_tree,
    call1, memory_param, runtime_fn, async_params, spawn_tree, let_memory.

Lemma get_args_lexes node : word (fn_id node) = true ->
  rops (get_args_ops node) (flat (pr_st (SLet "args" (get_args_tree node)))).
Proof.
  intros W. apply args_word in W. unfold get_args_ops. statuses. opsq. rpc_trees. trees. flat_eq.
Qed.

Lemma pr_items_app a b : pr_items (a ++ b) = pr_items a ++ pr_items b.
Proof. apply flat_map_app. Qed.
Lemma pr_items_cons i l : pr_items (i :: l) = pr_item i ++ pr_items l.
Proof. reflexivity. Qed.

(** Prints the tree, leaving the named parts. *)
Ltac method_tree :=
  rpc_trees; cbn [pr_item]; unfold pr_fn; cbn [rf_name rf_params rf_trailing rf_ret rf_body pr_block flat_map];
  trees.

Lemma sync_method_lexes node : rmethod node = true ->
  rlexes LNone (generate_sync_rpc_method node) (flat (pr_items (sync_method_tree node))) LNone.
Proof.
  intros R. pose proof (struct_model_lexes _ false (sync_rstruct node R)) as M.
  pose proof (struct_buffers_lexes _ (sync_rstruct node R)) as B.
  pose proof (call_lexes 2 "" false node R eq_refl) as C. pose proof (result_lexes 4 node R) as Res.
  pose proof R as R'. unfold rmethod in R'. rewrite !andb_true_iff in R'. destruct R' as [[N _] _]. apply rname_word in N.
  pose proof (get_args_lexes node N) as G.
  unfold generate_sync_rpc_method, sync_method_tree. show_rops. rewrite pr_items_app, !pr_items_cons.
  set (struct := sync_args_struct node) in *. set (call := call_tree false node) in *. set (result := result_tree node) in *.
  unfold clear_request_ops. statuses. opsq.
  set (args := get_args_tree node) in *. method_tree. flat_eq.
Qed.

Lemma async_method_lexes node : rmethod node = true ->
  rlexes LNone (generate_async_rpc_method node) (flat (pr_items (async_method_tree node))) LNone.
Proof.
  intros R. pose proof (struct_model_lexes _ false (async_rstruct node R)) as M.
  pose proof (struct_buffers_lexes _ (async_rstruct node R)) as B.
  pose proof (call_lexes 3 ".await" true node R eq_refl) as C. pose proof (result_lexes 5 node R) as Res.
  pose proof R as R'. unfold rmethod in R'. rewrite !andb_true_iff in R'. destruct R' as [[N _] _]. apply rname_word in N.
  pose proof (get_args_lexes node N) as G.
  unfold generate_async_rpc_method, async_method_tree. show_rops. rewrite pr_items_app, !pr_items_cons.
  set (struct := async_args_struct node) in *. set (call := call_tree true node) in *. set (result := result_tree node) in *.
  unfold clear_request_ops. statuses. opsq.
  set (args := get_args_tree node) in *. method_tree. flat_eq.
Qed.

Lemma sync_read_method_lexes node : rmethod node = true ->
  rlexes LNone (generate_sync_read_rpc_method node) (flat (pr_items (sync_read_method_tree node))) LNone.
Proof.
  intros R. pose proof (result_lexes 4 node R) as Res.
  pose proof R as R'. unfold rmethod in R'. rewrite !andb_true_iff in R'. destruct R' as [[N _] _]. apply rname_word in N.
  unfold generate_sync_read_rpc_method, sync_read_method_tree. show_rops. rewrite !pr_items_cons.
  set (result := result_tree node) in *. statuses. opsq. method_tree. flat_eq.
Qed.
Lemma async_read_method_lexes node : rmethod node = true ->
  rlexes LNone (generate_async_read_rpc_method node) (flat (pr_items (async_read_method_tree node))) LNone.
Proof.
  intros R. pose proof (result_lexes 6 node R) as Res.
  pose proof R as R'. unfold rmethod in R'. rewrite !andb_true_iff in R'. destruct R' as [[N _] _]. apply rname_word in N.
  unfold generate_async_read_rpc_method, async_read_method_tree. show_rops. rewrite !pr_items_cons.
  set (result := result_tree node) in *. statuses. opsq. method_tree. flat_eq.
Qed.
Lemma rpc_method_lexes node : rmethod node = true ->
  rlexes LNone (generate_rpc_method node) (flat (pr_items (rpc_method_tree node))) LNone.
Proof.
  intros R. unfold generate_rpc_method, rpc_method_tree. destruct (fn_is_read node), (fn_is_async node).
  - now apply async_read_method_lexes.
  - now apply sync_read_method_lexes.
  - now apply async_method_lexes.
  - now apply sync_method_lexes.
Qed.

Lemma register_lexes ast s : forallb rmethod (find_fn_nodes ast) = true ->
  plain """" (service_id ast) = true -> generate_register_fn ast = Ok s ->
  rlexes LNone s (flat (pr_item (register_tree (service_id ast) (find_fn_nodes ast)))) LNone.
Proof.
  intros R P G. unfold generate_register_fn in G. unfold service_id in *.
  destruct (find_directive_value ast "id") as [[[id| | |] t]|]; try discriminate G. apply Ok_inj in G. subst s.
  unfold register_tree. show_rops.
  match goal with |- ops_lexes _ (_ ++ flat_map ?f ?l ++ _) ?t => match t with context [map ?g l] =>
    assert (L : rops (flat_map f l) (flat (flat_map pr_st (map g l)))) end end.
  { rewrite flat_map_map. apply rops_loop. rewrite forallb_forall in R. intros node I. specialize (R node I).
    unfold rmethod in R. rewrite !andb_true_iff in R. destruct R as [[N _] _]. apply rname_word in N.
    destruct (fn_is_read node); [|destruct (fn_is_async node)]; opsq; unfold call1; trees; flat_eq. }
  opsq. cbn [pr_item]. unfold pr_fn. cbn [rf_name rf_params rf_trailing rf_ret rf_body pr_block]. rewrite flat_map_app.
  unfold call1. trees. flat_eq.
Qed.
