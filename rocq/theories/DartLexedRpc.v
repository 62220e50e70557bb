(** Reading the generated Dart text, continued: constants and the remote call client. *)
Require Import Coq.Strings.String Coq.Strings.Ascii.
Require Import Coq.NArith.NArith Coq.ZArith.ZArith Coq.Lists.List Coq.Bool.Bool Coq.micromega.Lia.
Require Import Verif.Base Verif.F64 Verif.Ast Verif.Writer Verif.CaseConv Verif.Code Verif.CodeLex Verif.LexSpec
  Verif.NumText Verif.RustLexed Verif.RustLexedConst.
Require Import Verif.DartSyntax Verif.DartPrint Verif.DartGen Verif.DartTree Verif.DartLexed Verif.DartLexedModel
  Verif.DartLexedEnum Verif.DartLexedBuf.
Require Verif.RustTree.
Import ListNotations.
Local Open Scope string_scope.
Local Open Scope list_scope.

(** ** Constants *)

Definition dliteral (l : literal) : bool := rliteral l.

Lemma digits_unsigned_d a r : all_chars digitb a = true -> a <> "" ->
  number_ex (a ++ r)%string = unsigned_ex (a ++ r)%string.
Proof.
  destruct a as [|c a]; [congruence|]. cbn. intros H _. apply andb_true_iff in H as [H1 H2].
  destruct (Ascii.eqb_spec c "-"); [subst; discriminate|reflexivity].
Qed.
Lemma digits_number_d a : all_chars digitb a = true -> a <> "" -> number_ex a = DNum a.
Proof.
  intros A N. pose proof (digits_unsigned_d a "" A N) as E. rewrite append_nil_s in E. rewrite E.
  unfold unsigned_ex. now rewrite upto_digits.
Qed.
Lemma digits_float_d a b : all_chars digitb a = true -> a <> "" -> number_ex (a ++ "." ++ b)%string = DFloat a b.
Proof. intros A N. rewrite digits_unsigned_d by assumption. unfold unsigned_ex. now rewrite upto_dot. Qed.
Lemma int_ex z : number_ex (show_Z z) =
  match z with Zneg p => DNeg (DNum (show_N (N.pos p))) | _ => DNum (show_N (Z.to_N z)) end.
Proof.
  destruct z as [|p|p]; cbn [show_Z].
  - reflexivity.
  - now rewrite digits_number_d by (apply show_N_digits || apply show_N_nonempty).
  - cbn [append number_ex Ascii.eqb Bool.eqb]. unfold unsigned_ex. rewrite upto_digits by apply show_N_digits. reflexivity.
Qed.
Lemma int_dchunk z : dchunk (show_Z z) (flat (pr (number_ex (show_Z z)))).
Proof.
  rewrite int_ex. destruct z as [|p|p]; cbn [show_Z Z.to_N].
  - now apply dchunk_name.
  - apply dchunk_name, word_show_N.
  - eapply dchunk_intro; [lex|reflexivity|reflexivity|reflexivity].
Qed.
Lemma f64_ex x : finite x = true ->
  (exists a, word a = true /\ numeric a = true /\ show_f64 x = a /\ number_ex (show_f64 x) = DNum a) \/
  (exists a b, word a = true /\ numeric a = true /\ word b = true /\ numeric b = true /\
     show_f64 x = (a ++ "." ++ b)%string /\ number_ex (show_f64 x) = DFloat a b).
Proof.
  intros F.
  assert (NUM : forall a, all_chars digitb a = true -> a <> "" -> numeric a = true).
  { intros a A AN. destruct a as [|c a]; [congruence|]. cbn in A |- *. apply andb_true_iff in A as [A _].
    clear - A. destruct c as [[] [] [] [] [] [] [] []]; try discriminate A; reflexivity. }
  destruct (show_f64_digits x F) as [(a & A & AN & ->)|(a & b & A & AN & B & BN & ->)].
  - left. exists a. split; [now apply digits_words|]. split; [auto|]. split; [reflexivity|now apply digits_number_d].
  - right. exists a, b. split; [now apply digits_words|]. split; [auto|]. split; [now apply digits_words|].
    split; [auto|]. split; [reflexivity|now apply digits_float_d].
Qed.
Lemma value_lexes v : match v with ConstLiteral l _ => dliteral l end = true ->
  dchunk (generate_const_value v) (flat (pr (const_value_ex v))).
Proof.
  destruct v as [[s|z|x|b] t]; cbn [dliteral rliteral generate_const_value const_value_ex]; intros R.
  - eapply dchunk_intro; [lex|reflexivity|reflexivity|reflexivity].
  - apply int_dchunk.
  - destruct (f64_ex x) as [(a & A & _ & -> & ->)|(a & b & A & _ & B & _ & -> & ->)]; [now destruct x| |].
    + now apply dchunk_name.
    + eapply dchunk_intro; [lex|reflexivity|reflexivity|now apply starts_app, starts_word].
  - apply dchunk_name. now destruct b.
Qed.

Fixpoint dconst (c : const_node) : bool :=
  match c with
  | ConstNode id items =>
      dname (camel id) && word (pascal id) &&
      forallb (fun i => match i with
                        | ConstItemValue id ty v =>
                            dname (camel id) && dtype ty && match v with ConstLiteral l _ => dliteral l end
                        | ConstItemNode n => dconst n
                        end) items
  end.
Lemma const_type_lexes ty : dtype ty = true -> dchunk (const_type ty) (flat (pr_ty (const_dty ty))).
Proof.
  intros R. destruct ty as [i n s|i n|i|i|i l|i]; try exact (type_lexes _ R). cbn [const_type const_dty].
  destruct (String.eqb i "GroupAddress"); [now apply dchunk_name|].
  destruct (String.eqb i "CommandsBufferAddress"); [now apply dchunk_name|]. exact (type_lexes _ R).
Qed.
Lemma const_words c : dconst c = true -> word (camel (const_id c)) = true /\ word (pascal (const_id c)) = true.
Proof. destruct c as [id items]. cbn [dconst const_id]. rewrite !andb_true_iff. intros [[A B] _]. apply dname_word in A. auto. Qed.

Lemma const_classes_lexes c : dconst c = true -> forall prefix, all_word prefix = true ->
  dlexes LNone (generate_const_class_impl prefix c) (flat (pr_items (const_classes prefix c))) LNone.
Proof.
  induction c as [id items IH] using const_ind2. intros R prefix WP. cbn [dconst] in R.
  rewrite !andb_true_iff in R. destruct R as [[N P] R]. apply dname_word in N.
  cbn [generate_const_class_impl const_classes]. show_dops.
  assert (B : dops (match items with [] => [] | _ => [ Writeln "" ] end) []) by (destruct items; [apply dops_nil|reflexivity]).
  assert (A : dops (flat_map (const_item_ops prefix id) items) (flat (flat_map pr_member (map (const_member prefix id) items)))).
  { rewrite flat_map_map. apply dops_loop. intros i I. rewrite forallb_forall in R. specialize (R i I).
    destruct i as [n ty v|n]; cbn [const_item_ops const_member].
    - rewrite !andb_true_iff in R. destruct R as [[W T] V]. apply dname_word in W.
      pose proof (const_type_lexes ty T). pose proof (value_lexes v V). unchunk. opsq. cbn [pr_member pr_value]. flat_eq.
    - destruct (const_words n R) as [W1 W2]. opsq. cbn [pr_member pr_value]. prs. flat_eq. }
  match goal with |- ops2_lexes _ (_ ++ _ ++ _ ++ _ ++ ?loop items) _ =>
    assert (L : forall l, (forall n, In (ConstItemNode n) l -> In (ConstItemNode n) items) ->
      forallb (fun i => match i with
                        | ConstItemValue id ty v =>
                            dname (camel id) && dtype ty && match v with ConstLiteral l _ => dliteral l end
                        | ConstItemNode n => dconst n
                        end) l = true ->
      dops (loop l) (flat (pr_items (flat_map (fun i => match i with
                         | ConstItemValue _ _ _ => []
                         | ConstItemNode n => const_classes (prefix ++ pascal id)%string n
                         end) l)))) end.
  { induction l as [|i l IHl]; intros S F; [apply dops_nil|]. cbn [forallb] in F. apply andb_true_iff in F as [F1 F2].
    specialize (IHl (fun n I => S n (or_intror I)) F2). cbn [flat_map]. unfold pr_items in *. rewrite flat_map_app, flat_app.
    destruct i as [i ty v|n].
    - exact IHl.
    - assert (WX : all_word (prefix ++ pascal id)%string = true) by (rewrite all_word_app, WP; now apply word_all).
      pose proof (IH n (S n (or_introl eq_refl)) F1 _ WX) as X. opsq. unfold pr_items. flats. reflexivity. }
  specialize (L items (fun n I => I) R).
  opsq. unfold pr_items. cbn [flat_map pr_item pr_member app]. flat_eq.
Qed.
Definition dconst_of (n : ast_node) : bool := match n with NConst c => dconst c | _ => true end.
Lemma consts_lexes ast : forallb dconst_of ast = true -> forall s,
  s = show_ops2 (
    flat_map (fun node =>
      match node with NConst node => [ Write (generate_const_class_decls node) ] | _ => [] end) ast ++
    flat_map (fun node =>
      match node with
      | NConst node => [ Writeln ""; Write (generate_const_class_impl "" node) ]
      | _ => []
      end) ast)%list ->
  dlexes LNone s (flat (pr_items (consts_tree ast))) LNone.
Proof.
  intros R s ->. rewrite forallb_forall in R. unfold consts_tree, pr_items. rewrite flat_map_app, flat_app. show_dops.
  assert (X : forall (f : ast_node -> list ditem) l, flat_map pr_item (flat_map f l) = flat_map (fun n => flat_map pr_item (f n)) l).
  { intros f l. induction l as [|a l IH]; [reflexivity|]. cbn [flat_map]. now rewrite flat_map_app, IH. }
  rewrite !X. apply dops_app; apply dops_loop; intros n I; specialize (R n I); destruct n as [n|n|n|n|n]; try apply dops_nil.
  - destruct (const_words n R) as [W1 W2]. unfold generate_const_class_decls. cbn [flat_map pr_item]. prs.
    assert (L : dlexes LNone (show_ops2 [WritelnTab 0 ("const " ++ camel (const_id n) ++ " = _" ++ pascal (const_id n) ++ "();")])
        (flat [w "const"; w (camel (const_id n)); y "="; w ("_" ++ pascal (const_id n)); G "(" []; y ";"]) LNone).
    { show_dops. opsq. flat_eq. }
    opsq. flats. reflexivity.
  - pose proof (const_classes_lexes n R "" eq_refl) as L. opsq. unfold pr_items. flats. reflexivity.
Qed.

(** ** The client *)

Definition darg (a : fn_arg) : bool := dname (camel (fa_id a)) && dtype (fa_type a).
Definition dmethod (n : fn_node) : bool :=
  dname (camel (fn_id n)) && word (pascal (fn_id n)) && forallb darg (fn_args n) &&
  match fn_return n with Some t => dtype t | None => true end.

Lemma var_words n : word (camel (fn_id n)) = true -> word (pascal (fn_id n)) = true ->
  word (var_last_method_id n) = true /\ word (var_method_completers n) = true /\ word (var_read_task n) = true /\
  word (var_read_stream_controller n) = true.
Proof.
  intros C P. unfold var_last_method_id, var_method_completers, var_read_task, var_read_stream_controller.
  repeat split; (apply word_app_r; [reflexivity|apply word_app_l; [assumption|reflexivity]]).
Qed.
Lemma dmethod_parts n : dmethod n = true ->
  word (camel (fn_id n)) = true /\ word (pascal (fn_id n)) = true /\ forallb darg (fn_args n) = true /\
  match fn_return n with Some t => dtype t | None => true end = true /\
  dchunk (generate_option_type_id (fn_return n)) (flat (pr_ty (ret_ty (fn_return n)))) /\
  word (var_last_method_id n) = true /\ word (var_method_completers n) = true /\ word (var_read_task n) = true /\
  word (var_read_stream_controller n) = true.
Proof.
  unfold dmethod. rewrite !andb_true_iff. intros [[[C P] A] R]. apply dname_word in C.
  pose proof (var_words n C P). pose proof (ret_lexes _ R). intuition.
Qed.
Ltac method H := destruct (dmethod_parts _ H) as (?Wc & ?Wp & ?Wa & ?Wr & ?Wt & ?Wl & ?Wm & ?Wk & ?Ws).

Lemma constructor_ops nodes : forallb dmethod nodes = true ->
  dlexes LNone (generate_constructor nodes) (flat (flat_map pr_st (flat_map connect_call nodes))) LNone.
Proof.
  intros R. rewrite forallb_forall in R. unfold generate_constructor. show_dops.
  assert (X : forall l, flat_map pr_st (flat_map connect_call l) = flat_map (fun n => flat_map pr_st (connect_call n)) l).
  { induction l as [|a l IH]; [reflexivity|]. cbn [flat_map]. now rewrite flat_map_app, IH. }
  rewrite X. apply dops_loop. intros n I. specialize (R n I). method R. unfold connect_call.
  destruct (is_async_or_read n); [|apply dops_nil]. clear Wt. cbn [flat_map pr_st]. prs. opsq. flat_eq.
Qed.
Lemma constructor_empty nodes : String.eqb (generate_constructor nodes) "" =
  match flat_map connect_call nodes with [] => true | _ => false end.
Proof.
  unfold generate_constructor, connect_call. induction nodes as [|n nodes IH]; [reflexivity|].
  cbn [flat_map]. destruct (is_async_or_read n); [reflexivity|exact IH].
Qed.

Lemma disconnect_lexes nodes : forallb dmethod nodes = true ->
  dlexes LNone (generate_disconnect nodes)
    (flat (pr_member (MMeth false (ty0 "void") "disconnect" (PPos [] false) (BBlock (flat_map disconnect_sts nodes))))) LNone.
Proof.
  intros R. rewrite forallb_forall in R. unfold generate_disconnect. show_dops.
  assert (X : forall l, flat_map pr_st (flat_map disconnect_sts l) = flat_map (fun n => flat_map pr_st (disconnect_sts n)) l).
  { induction l as [|a l IH]; [reflexivity|]. cbn [flat_map]. now rewrite flat_map_app, IH. }
  match goal with |- ops2_lexes _ (_ ++ flat_map ?f _ ++ _) _ =>
    assert (A : dops (flat_map f nodes) (flat (flat_map pr_st (flat_map disconnect_sts nodes)))) end.
  { rewrite X. apply dops_loop. intros n I. specialize (R n I). method R. clear Wt. unfold disconnect_sts, scheduler.
    destruct (is_async_or_read n); destruct (fn_is_read n); cbn [app]; opsq; cbn [flat_map pr_st]; prs; flat_eq. }
  opsq. rewrite pr_meth. cbn [pr_params sep trail pr_body app]. flat_eq.
Qed.

Lemma fn_args_lexes n : forallb darg (fn_args n) = true ->
  dlexes LNone (generate_fn_args n)
    (flat (flat_map pr_named (map (fun a => (Some (dty_of (fa_type a)), camel (fa_id a))) (fn_args n)))) LNone.
Proof.
  intros R. rewrite forallb_forall in R. unfold generate_fn_args. show_dops. rewrite flat_map_map. apply dops_loop.
  intros a I. specialize (R a I). apply andb_true_iff in R as [W T]. apply dname_word in W.
  pose proof (type_lexes _ T). unchunk. unfold pr_named, pr_param. cbn [fst snd]. opsq. flat_eq.
Qed.
(** The first lines of a method, up to the opening brace. *)
Lemma head_lexes t ts n : dmethod n = true -> dchunk t ts ->
  dops (method_head t n) (ts ++ CW (camel (fn_id n)) :: CS "(" :: flat (pr_params (method_params n)) ++ [CS ")"; CS "{"]).
Proof.
  intros R C. method R. pose proof (fn_args_lexes n Wa) as A. clear Wt. unchunk. unfold method_head, method_params.
  destruct (fn_args n) as [|a l].
  - opsq. cbn [pr_params sep trail app]. flat_eq.
  - cbn [pr_params]. opsq. flat_eq.
Qed.
Lemma arg_writes_lexes n o : forallb darg (fn_args n) = true -> write_args n = Ok o ->
  dops o (flat (flat_map pr_st (arg_writes n))).
Proof.
  intros R G. rewrite forallb_forall in R. unfold write_args in G. unfold arg_writes. rewrite flat_map_map.
  eapply rflat_lexes; [exact G|]. clear G o. intros a o I G. apply rline_ok in G as (s & G & ->).
  specialize (R a I). apply andb_true_iff in R as [W T]. apply dname_word in W.
  pose proof (write_lexes _ _ (var (camel (fa_id a))) _ T (dchunk_name _ W) G). unchunk. opsq. flat_eq.
Qed.

Lemma pr_fun x body : pr (DFun x body) = [G "(" [w x]; G "{" (flat_map pr_st body)].
Proof. reflexivity. Qed.
Lemma pr_scall m ts n side f : pr (scall m ts (args3 n side f)) =
  w "_scheduler" :: y "." :: w m :: pr_targs ts ++
  [G "(" (w "_scopeId" :: y "," :: w (show_N (fn_position n)) :: y "," ::
          w "TechPawsRuntimeRpcMethodBuffer" :: y "." :: w side :: y "," :: pr f ++ [y ","])].
Proof.
  unfold scall, args3, scheduler. cbn [pr flat_map pr_post sep pr_label fst snd app trail]. unfold field. cbn [var postfix pr flat_map pr_post app pr_targs].
  rewrite ?app_nil_r, <- ?app_assoc. reflexivity.
Qed.
Lemma pr_has_data : pr has_data = [w "TechPawsRpcBufferStatus"; y "."; w "hasData"; y "."; w "value"].
Proof. reflexivity. Qed.
Lemma pr_throw_state s : pr_st (DThrow (DPost (var "StateError") [XCall [(None, DStr s)] false])) =
  [w "throw"; w "StateError"; G "(" [T (CQ s)]; y ";"].
Proof. reflexivity. Qed.
#[export] Hint Rewrite pr_fun pr_scall pr_has_data pr_throw_state : dpr.
Ltac sts := unfold put_status, get_status, set_st, scheduler; cbn [flat_map pr_st pr_body app]; prs; cbn [pr_targs pr flat_map pr_st pr_post app sep pr_label fst snd trail]; prs; cbn [flat_map pr_st pr app]; prs.

Lemma sync_lexes n s : dmethod n = true -> generate_sync_rpc_method n = Ok s ->
  dlexes LNone s (flat (pr_member (sync_method n))) LNone.
Proof.
  intros R G. pose proof R as R0. method R. pose proof (head_lexes _ _ n R Wt) as H. unfold generate_sync_rpc_method in G. rinv.
  pose proof (arg_writes_lexes n _ Wa ltac:(eassumption)) as A. clear Wt.
  show_dops. unfold sync_method. cbn [pr_member].
  destruct (fn_return n) as [t|] eqn:E; rinv.
  - pose proof (read_lexes t _ Wr ltac:(eassumption)) as C. pose proof (type_lexes t Wr) as D. unchunk.
    opsq. sts. unfold pr_tys. cbn [sep]. flat_eq.
  - opsq. sts. flat_eq.
Qed.

Lemma connect_lexes n o rest : dmethod n = true -> dops o (flat (flat_map pr_st rest)) ->
  dops (connect_head n ++ o ++ [ WritelnTab 3 "},"; WritelnTab 2 ");"; WritelnTab 1 "}" ])
    (flat (pr_member (connect_method n rest))).
Proof.
  intros R C. method R. clear Wt. unfold connect_head. opsq. unfold connect_method. rewrite pr_meth.
  cbn [pr_params sep trail app]. sts. flat_eq.
Qed.
Lemma async_connect_lexes n s : dmethod n = true -> generate_async_rpc_connect_method n = Ok s ->
  dlexes LNone s (flat (pr_member (connect_method n (async_connect_rest n)))) LNone.
Proof.
  intros R G. pose proof R as R0. method R. unfold generate_async_rpc_connect_method in G. rinv. clear Wt.
  match goal with |- lexes _ _ (show_ops2 ((connect_head n ++ ?a) ++ ?b ++ [?c; ?d; ?e; ?f])) _ _ =>
    replace ((connect_head n ++ a) ++ b ++ [c; d; e; f]) with (connect_head n ++ (a ++ b ++ [c]) ++ [d; e; f])
      by (rewrite <- !app_assoc; reflexivity) end.
  show_dops. apply connect_lexes; [assumption|]. unfold async_connect_rest.
  destruct (fn_return n) as [t|]; rinv.
  - pose proof (read_lexes t _ Wr ltac:(eassumption)) as C. unchunk. opsq. sts. flat_eq.
  - opsq. sts. flat_eq.
Qed.
Lemma async_lexes n s : dmethod n = true -> generate_async_rpc_method n = Ok s ->
  dlexes LNone s (flat (flat_map pr_member [connect_method n (async_connect_rest n); async_method n])) LNone.
Proof.
  intros R G. pose proof R as R0. method R.
  assert (F : dchunk ("Future<" ++ generate_option_type_id (fn_return n) ++ ">")
                (flat (pr_ty (DTy "Future" [ret_ty (fn_return n)])))).
  { unchunk. eapply dchunk_intro; [lex|reflexivity| |reflexivity]. rewrite pr_ty_args. unfold pr_tys. cbn [sep]. flat_eq. }
  pose proof (head_lexes _ _ n R F) as H. clear F. unfold generate_async_rpc_method in G. rinv.
  pose proof (async_connect_lexes n _ R0 ltac:(eassumption)) as C.
  pose proof (arg_writes_lexes n _ Wa ltac:(eassumption)) as A. unchunk.
  show_dops. opsq. cbn [flat_map]. unfold async_method. cbn [pr_member]. sts. unfold pr_tys. cbn [sep].
  rewrite !flat_app. cbn [app]. flat_eq.
Qed.
Lemma read_lexes_method n s : dmethod n = true -> generate_read_rpc_method n = Ok s ->
  dlexes LNone s (flat (pr_member (connect_method n (read_rest n)))) LNone.
Proof.
  intros R G. pose proof R as R0. method R. unfold generate_read_rpc_method in G. rinv. clear Wt.
  show_dops. apply connect_lexes; [assumption|]. unfold read_rest.
  destruct (fn_return n) as [t|]; rinv.
  - pose proof (read_lexes t _ Wr ltac:(eassumption)) as C. unchunk. opsq. sts. flat_eq.
  - opsq. sts. flat_eq.
Qed.
Lemma method_lexes n s : dmethod n = true -> generate_method n = Ok s ->
  dlexes LNone s (flat (flat_map pr_member (method_members n))) LNone.
Proof.
  intros R G. unfold generate_method in G. unfold method_members. destruct (fn_is_read n).
  - cbn [flat_map]. rewrite app_nil_r. now apply read_lexes_method.
  - destruct (fn_is_async n); [now apply async_lexes|]. cbn [flat_map]. rewrite app_nil_r. now apply sync_lexes.
Qed.

Lemma vars_lexes n : dmethod n = true -> dops (method_vars n) (flat (flat_map pr_member (var_members n))).
Proof.
  intros R. method R. unchunk. unfold method_vars, var_members.
  destruct (is_async_or_read n); destruct (fn_is_async n); destruct (fn_is_read n); cbn [andb negb app];
    (opsq; cbn [flat_map pr_member pr_value pr flat_map pr_post pr_targs app ty0]; unfold pr_tys; cbn [sep pr_ty app]; flat_eq).
Qed.
Lemma getter_lexes n : dmethod n = true -> dops (method_getter n) (flat (flat_map pr_member (getter_members n))).
Proof.
  intros R. method R. unchunk. unfold method_getter, getter_members. destruct (fn_is_read n); [|apply dops_nil].
  opsq. cbn [flat_map pr_member]. rewrite pr_ty_args. unfold pr_tys. cbn [sep]. prs. flat_eq.
Qed.

Lemma members_flat_map {A} (f : A -> list dmember) l : flat_map pr_member (flat_map f l) = flat_map (fun x => flat_map pr_member (f x)) l.
Proof. induction l as [|a l IH]; [reflexivity|]. cbn [flat_map]. now rewrite flat_map_app, IH. Qed.

Definition drpc (ast : list ast_node) : bool :=
  forallb dmethod (find_fn_nodes ast) &&
  match find_fn_nodes ast with
  | [] => true
  | _ =>
      match required_string ast "namespace", required_string ast "id" with
      | Ok namespace, Ok id => word (pascal namespace) && tname (pascal namespace ++ "RpcClient") && plain "'" id
      | _, _ => true
      end
  end.
Lemma rpc_lexes ast s : drpc ast = true -> generate_rpc ast = Ok s ->
  dlexes LNone s (flat (pr_items (rpc_tree ast))) LNone.
Proof.
  intros R G. unfold generate_rpc in G. apply bind_ok in G as (s' & G & E). apply Ok_inj in E. subst s.
  enough (dlexes LNone s' (flat (pr_items (rpc_tree ast))) LNone).
  { show_dops. opsq. now rewrite app_nil_r. }
  unfold drpc in R. apply andb_true_iff in R as [R Q]. unfold generate_rpc_methods in G. unfold rpc_tree.
  destruct (find_fn_nodes ast) as [|first rest] eqn:E.
  { apply Ok_inj in G. subst. reflexivity. }
  rewrite <- E in *. assert (NE : find_fn_nodes ast <> []) by (rewrite E; discriminate). clear E.
  generalize dependent (find_fn_nodes ast). intros nodes R G NE.
  destruct (required_string ast "namespace") as [ns| |]; try discriminate G. cbn [bind] in G.
  destruct (required_string ast "id") as [id| |]; try discriminate G. cbn [bind] in G.
  rewrite !andb_true_iff in Q. destruct Q as [[W _] P].
  apply rshow_ok in G as (o & G & ->). apply rapp_ok in G as (x & z & Gx & G & ->). apply Ok_inj in Gx. subst x.
  apply rapp_ok in G as (x & z' & Gx & G & ->). apply Ok_inj in G. subst z'.
  pose proof (constructor_ops nodes R) as C. pose proof (constructor_empty nodes) as CE.
  pose proof (disconnect_lexes nodes R) as D. rewrite forallb_forall in R.
  assert (V : dops (flat_map method_vars nodes) (flat (flat_map pr_member (flat_map var_members nodes)))).
  { rewrite members_flat_map. apply dops_loop. intros n I. now apply vars_lexes, R. }
  assert (H : dops (flat_map method_getter nodes) (flat (flat_map pr_member (flat_map getter_members nodes)))).
  { rewrite members_flat_map. apply dops_loop. intros n I. now apply getter_lexes, R. }
  assert (M : dops x (flat (flat_map pr_member (flat_map method_members nodes)))).
  { rewrite members_flat_map. eapply rflat_lexes; [exact Gx|]. intros n o I G. cbv beta in G. rinv.
    pose proof (method_lexes n _ (R n I) ltac:(eassumption)).
    destruct (N.eqb _ _); opsq; rewrite ?app_nil_r; reflexivity. }
  pose proof (blank_lexes (Nat.ltb 1 (length nodes))) as B.
  show_dops. unfold pr_items, client_class. rewrite CE. clear CE Gx R.
  destruct (flat_map connect_call nodes) as [|k ks].
  - opsq. cbn [flat_map pr_item app]. rewrite !flat_map_app. cbn [flat_map pr_member pr_params pr_param sep trail fst snd app pr_ty ty0 pr_value pr].
    flats. reflexivity.
  - opsq. cbn [flat_map pr_item app]. rewrite !flat_map_app. cbn [flat_map pr_member pr_params pr_param sep trail fst snd app pr_ty ty0 pr_value pr].
    flats. reflexivity.
Qed.
