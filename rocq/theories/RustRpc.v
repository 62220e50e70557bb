(** The meaning of the generated remote-call handlers: what running a handler, and completing a task it spawned, does
    to the buffers, the log of calls and the list of tasks. *)
Require Import Coq.Strings.String Coq.Strings.Ascii.
Require Import Coq.NArith.NArith Coq.ZArith.ZArith Coq.Lists.List Coq.Bool.Bool Coq.Arith.PeanoNat Coq.micromega.Lia.
Require Import Coq.micromega.ZifyBool Coq.micromega.ZifyN Coq.micromega.ZifyNat.
Require Import Verif.Base Verif.Ast Verif.Code Verif.RustSyntax Verif.RustGen Verif.RustTree Verif.RustSem
  Verif.Wire Verif.RustCodec.
Import ListNotations.
Local Open Scope string_scope.
Local Open Scope list_scope.

(** Writing at the start of a buffer. *)
Definition overlay (b old : bytes) : bytes := b ++ skipn (List.length b) old.
Definition put_buffer (sc : string) (a : Z) (side : string) (b : bytes) (s : state) : state :=
  set_mem (upd_mem (s_mem s) sc a side (overlay b (s_mem s sc a side))) s.

Lemma get_put sc a side b s : s_mem (put_buffer sc a side b s) sc a side = overlay b (s_mem s sc a side).
Proof. cbn. unfold upd_mem. now rewrite !String.eqb_refl, Z.eqb_refl. Qed.
Lemma get_put_other sc a side b s sc' a' side' : (sc', a', side') <> (sc, a, side) ->
  s_mem (put_buffer sc a side b s) sc' a' side' = s_mem s sc' a' side'.
Proof.
  intros N. cbn. unfold upd_mem. destruct (String.eqb_spec sc' sc) as [->|]; [|reflexivity].
  destruct (Z.eqb_spec a' a) as [->|]; [|reflexivity]. destruct (String.eqb_spec side' side) as [->|]; [|reflexivity]. now destruct N.
Qed.

Section Rpc.
Variable R : runtime.
Variable V : service.
Variable items : list item.
Variable K : calls.
Hypothesis cl : clean K.
Notation eval := (ev R V items K "").
Notation eval_st := (ev_st R V items K "").
Notation eval_block := (ev_block R V items K "").

Definition rpc_read (sc : string) (a : Z) (side : string) (m : M val) : M val := fun s =>
  match body m (set_rd (s_mem s sc a side) s) with
  | Done r s' => Done r (set_rd (s_rd s) s')
  | Returned _ _ => Stuck
  | Panics => Panics
  | Stuck => Stuck
  | NoFuel => NoFuel
  end.
Definition rpc_write (sc : string) (a : Z) (side : string) (m : M val) : M val := fun s =>
  match body m (set_wr [] s) with
  | Done r s' => Done r (set_wr (s_wr s) (put_buffer sc a side (s_wr s') s'))
  | Returned _ _ => Stuck
  | Panics => Panics
  | Stuck => Stuck
  | NoFuel => NoFuel
  end.

(** The names a handler uses. *)
Definition served (en : env) (sc : string) (a : Z) : Prop :=
  lookup "memory" en = Some (vref vmemory) /\ lookup "scope_id" en = Some (vscope sc) /\
  lookup "rpc_method_address" en = Some (vmethod a).

Lemma eval_buffer m sc a side x e en s : served en sc a ->
  eval (buffer_call m side (EClosure x e)) en s =
  buffer_method m (vscoped sc) (vmethod a) (vcase "TechPawsRuntimeRpcMethodBuffer" side)
    (fun h => eval e ((x, h) :: en)) s.
Proof.
  intros (A & B & C).
  change (eval (buffer_call m side (EClosure x e)) en s) with
    (bind (eval (var "memory") en) (fun v =>
      bind (bind (bind (eval (var "scope_id") en) (fun b => bind (ret []) (fun bs => ret (b :: bs))))
             (fun vs => method R K "get_scope_mut" v vs)) (fun v =>
        bind (bind (eval (var "rpc_method_address") en) (fun av => bind (ret (vcase "TechPawsRuntimeRpcMethodBuffer" side)) (fun sv =>
          buffer_method m v av sv (fun h => eval e ((x, h) :: en))))) ret)) s).
  rewrite (bind_done _ _ s _ s (eval_var R V items K "" _ _ _ _ A)).
  rewrite !bind_assoc, (bind_done _ _ s _ s (eval_var R V items K "" _ _ _ _ B)).
  rewrite !bind_assoc. unfold bind at 1, ret at 1. unfold bind at 1, ret at 1. unfold bind at 1. cbn [method deref String.eqb Ascii.eqb Bool.eqb ret].
  rewrite !bind_assoc, (bind_done _ _ s _ s (eval_var R V items K "" _ _ _ _ C)). rewrite !bind_assoc. unfold bind at 1, ret at 1. apply bind_ret.
Qed.
Lemma eval_buffer_read sc a side x e en s : served en sc a ->
  eval (buffer_call "rpc_buffer_read" side (EClosure x e)) en s = rpc_read sc a side (eval e ((x, vref vreader) :: en)) s.
Proof. intros H. rewrite (eval_buffer _ sc a) by exact H. reflexivity. Qed.
Lemma eval_buffer_write sc a side x e en s : served en sc a ->
  eval (buffer_call "rpc_buffer_write" side (EClosure x e)) en s = rpc_write sc a side (eval e ((x, vref vwriter) :: en)) s.
Proof. intros H. rewrite (eval_buffer _ sc a) by exact H. reflexivity. Qed.

Lemma served_cons x v en sc a : served en sc a -> x <> "memory" -> x <> "scope_id" -> x <> "rpc_method_address" -> served ((x, v) :: en) sc a.
Proof.
  intros (A & B & C) N1 N2 N3. repeat split; cbn [lookup].
  - destruct (String.eqb_spec "memory" x); congruence.
  - destruct (String.eqb_spec "scope_id" x); congruence.
  - destruct (String.eqb_spec "rpc_method_address" x); congruence.
Qed.

(** ** The status byte *)

Lemma eval_status tail en s :
  eval (EBlock BPlain (Blk [SLet "status" read_u8] (Some tail))) (("bytes_reader", vref vreader) :: en) s =
  match rt_get R "u8" (s_rd s) with
  | Some (z, rest) => eval tail (("status", vnum "u8" z) :: ("bytes_reader", vref vreader) :: en) (set_rd rest s)
  | None => Panics
  end.
Proof.
  change (eval (EBlock BPlain (Blk [SLet "status" read_u8] (Some tail))) (("bytes_reader", vref vreader) :: en) s) with
    (bind (bind (bind (eval read_u8 (("bytes_reader", vref vreader) :: en)) (fun v => ret (("status", v) :: ("bytes_reader", vref vreader) :: en)))
       ret) (fun en' => eval tail en') s).
  assert (X : forall s, eval read_u8 (("bytes_reader", vref vreader) :: en) s = read_prim R "u8" s).
  { intros s'. change (eval read_u8 (("bytes_reader", vref vreader) :: en) s') with (bind (read_prim R "u8") ret s'). apply bind_ret. }
  rewrite !bind_assoc. unfold bind at 1. rewrite X. unfold read_prim. destruct (rt_get R "u8" (s_rd s)) as [[z rest]|]; reflexivity.
Qed.
Lemma eval_status_eq z en s :
  eval (EEq (var "status") (ENum "0xFF")) (("status", vnum "u8" z) :: en) s = Done (bool_val (Z.eqb z 255)) s.
Proof. reflexivity. Qed.
Lemma eval_if (b : bool) c bt bf en s : eval c en s = Done (bool_val b) s ->
  eval (EIf c bt (Some bf)) en s = eval_block (if b then bt else bf) en s.
Proof.
  intros E. change (eval (EIf c bt (Some bf)) en s) with (bind (eval c en) (fun v =>
      match v with
      | vnum "bool" 1 => eval_block bt en
      | vnum "bool" 0 => eval_block bf en
      | _ => stuck
      end) s). rewrite (bind_done _ _ s _ s E). destruct b; reflexivity.
Qed.
Lemma eval_if1 (b : bool) c bt en s : eval c en s = Done (bool_val b) s ->
  eval (EIf c bt None) en s = if b then eval_block bt en s else Done vunit s.
Proof.
  intros E. change (eval (EIf c bt None) en s) with (bind (eval c en) (fun v =>
      match v with
      | vnum "bool" 1 => eval_block bt en
      | vnum "bool" 0 => ret vunit
      | _ => stuck
      end) s). rewrite (bind_done _ _ s _ s E). destruct b; reflexivity.
Qed.

(** Writing a status byte, then more. *)
Lemma eval_write_u8 v z en s : lookup "bytes_writer" en = Some (vref vwriter) -> literal v = Some z -> in_range "u8" z = true ->
  eval_st (write_u8 v) en s = Done en (set_wr (s_wr s ++ rt_put R "u8" z) s).
Proof.
  intros E L I. unfold write_u8. rewrite (eval_write_prim R V items K "" "write_u8" (ENum v) en (vint z) s E Logic.I).
  - replace (method_prim "write_" "write_u8") with (Some "u8") by reflexivity. unfold write_prim. rewrite I. reflexivity.
  - cbn. rewrite L. reflexivity.
Qed.
Lemma eval_writer sc a side l en s : served en sc a ->
  eval (buffer_call "rpc_buffer_write" side (writer_block l)) en s =
  rpc_write sc a side (bind (chain (fun st e => eval_st st e) l (("bytes_writer", vref vwriter) :: en)) (fun _ => ret vunit)) s.
Proof. intros H. unfold writer_block. rewrite (eval_buffer_write sc a) by exact H. reflexivity. Qed.
Lemma rpc_write_done sc a side m s b v : m (set_wr [] s) = Done v (set_wr b s) -> rpc_write sc a side m s = Done v (put_buffer sc a side b s).
Proof. intros E. unfold rpc_write, body. rewrite E. reflexivity. Qed.
Lemma eval_put_status sc a side v z en s : served en sc a -> literal v = Some z -> in_range "u8" z = true ->
  eval (buffer_call "rpc_buffer_write" side (writer_block [write_u8 v])) en s = Done vunit (put_buffer sc a side (rt_put R "u8" z) s).
Proof.
  intros H L I. rewrite (eval_writer sc a) by exact H. apply rpc_write_done.
  cbn [chain]. rewrite !bind_assoc. rewrite (bind_done _ _ _ _ _ (eval_write_u8 v z (("bytes_writer", vref vwriter) :: en) (set_wr [] s) eq_refl L I)). reflexivity.
Qed.
Lemma eval_clear sc a en s : served en sc a ->
  eval_st clear_request_tree en s = Done en (put_buffer sc a "Server" (rt_put R "u8" 0) s).
Proof.
  intros H. change (eval_st clear_request_tree en s) with
    (bind (eval (buffer_call "rpc_buffer_write" "Server" (writer_block [write_u8 "0x00"])) en) (fun _ => ret en) s).
  rewrite (bind_done _ _ s _ _ (eval_put_status sc a "Server" "0x00" 0 en s H eq_refl eq_refl)). reflexivity.
Qed.

(** ** Reading the request *)

Definition no_none : Prop := has_impl items "None" = false /\ has_fn items "None" = false.

Lemma eval_none en s : no_none -> lookup "None" en = None -> eval (var "None") en s = Done (vopt None) s.
Proof. intros [A B] L. cbn. unfold name_value. rewrite L, A, B. reflexivity. Qed.

Lemma eval_get_args node sc a en s z rest : served en sc a -> no_none -> lookup "None" en = None -> lookup "Some" en = None ->
  rt_get R "u8" (s_mem s sc a "Server") = Some (z, rest) ->
  eval (get_args_tree node) en s =
  if Z.eqb z 255 then
    match c_read K (ty0 (args_struct_id node)) (set_rd rest s) with
    | Done v s' => Done (vopt (Some v)) (set_rd (s_rd s) s')
    | Returned _ _ => Stuck
    | Panics => Panics
    | Stuck => Stuck
    | NoFuel => NoFuel
    end
  else Done (vopt None) s.
Proof.
  intros H N LN LS G. unfold get_args_tree. rewrite (eval_buffer_read sc a) by exact H. unfold rpc_read, body.
  rewrite eval_status. cbn [set_rd s_rd]. rewrite G.
  rewrite (eval_if (Z.eqb z 255) _ _ _ _ _ (eval_status_eq z _ _)).
  destruct (Z.eqb z 255).
  - set (en' := ("status", vnum "u8" z) :: ("bytes_reader", vref vreader) :: en).
    change (eval_block (Blk [] (Some (call1 "Some" [EPost (path2 (args_struct_id node) "read_from_buffers") [XCall [var "bytes_reader"] false]]))) en'
              (set_rd rest (set_rd (s_mem s sc a "Server") s)))
      with (bind (bind (bind (ret [vref vreader]) (fun vs => bind (call_path V K "" en' [SName (args_struct_id node); SName "read_from_buffers"] vs) ret))
             (fun v => bind (ret []) (fun bs => ret (v :: bs))))
             (fun vs => bind (call_path V K "" en' [SName "Some"] vs) ret) (set_rd rest s)).
    assert (NS : lookup "Some" en' = None) by exact LS.
    assert (Q : resolve "" (args_struct_id node) = args_struct_id node) by reflexivity.
    rewrite !bind_assoc. unfold bind at 1. unfold ret at 1. unfold bind at 1. rewrite bind_ret.
    cbn [call_path String.eqb Ascii.eqb Bool.eqb deref]. rewrite Q, NS.
    pose proof (proj1 cl (ty0 (args_struct_id node)) (set_rd rest s)) as NR. unfold ty0 in NR.
    unfold bind, ret, ty0. destruct (c_read K (RPath [args_struct_id node] []) (set_rd rest s)); try reflexivity. now destruct (NR v s0).
  - change (eval_block (Blk [] (Some (var "None"))) (("status", vnum "u8" z) :: ("bytes_reader", vref vreader) :: en) (set_rd rest (set_rd (s_mem s sc a "Server") s)))
      with (eval (var "None") (("status", vnum "u8" z) :: ("bytes_reader", vref vreader) :: en) (set_rd rest s)).
    rewrite eval_none; [|exact N|exact LN]. destruct s; reflexivity.
Qed.

(** ** Calling the function of the service *)

(** A name that no local name of a handler and no library function hides. *)
Definition callable (f : string) : Prop :=
  ~ In f ["args"; "memory"; "scope_id"; "rpc_method_address"; "runtime_as_mut"; "async_context"; "result"; "is_busy"; "Some"; "TechPawsScopeId"; "RpcMethodAddress"].

Lemma eval_arg en s av n fs x v : lookup "args" en = Some av -> deref av = vrec n fs -> lookup x fs = Some v ->
  eval (EPost (var "args") [XMeth "clone" [] false; XField x]) en s = Done v s.
Proof.
  intros A D L. change (eval (EPost (var "args") [XMeth "clone" [] false; XField x]) en s) with
    (bind (eval (var "args") en) (fun v => bind (bind (ret []) (fun vs => method R K "clone" v vs)) (fun v => bind (field x v) ret)) s).
  rewrite (bind_done _ _ s _ s (eval_var R V items K "" _ _ _ _ A)). unfold bind at 2. unfold ret at 1. unfold bind at 1. unfold method. rewrite D. cbn [String.eqb Ascii.eqb Bool.eqb].
  unfold ret at 1. unfold field. cbn [deref]. rewrite L. reflexivity.
Qed.
Lemma mapMM_values {A B} (f : A -> M B) l vs s : Forall2 (fun a v => f a s = Done v s) l vs -> mapMM f l s = Done vs s.
Proof.
  induction 1 as [|a v l vs E F IH]; [reflexivity|]. change (mapMM f (a :: l) s) with (bind (f a) (fun b => bind (mapMM f l) (fun bs => ret (b :: bs))) s).
  rewrite (bind_done _ _ _ _ _ E), (bind_done _ _ _ _ _ IH). reflexivity.
Qed.

(** The arguments of the call, from the fields of the request. *)
Definition passes (node : fn_node) (fs : list (string * val)) (vs : list val) : Prop :=
  Forall2 (fun x v => lookup (fa_id x) fs = Some v) (fn_args node) vs.

Lemma eval_args en s av n fs node vs : lookup "args" en = Some av -> deref av = vrec n fs -> passes node fs vs ->
  mapMM (fun e => eval e en) (map (fun a => EPost (var "args") [XMeth "clone" [] false; XField (fa_id a)]) (fn_args node)) s = Done vs s.
Proof.
  intros A D P. rewrite mapMM_map. apply mapMM_values. revert P. unfold passes. induction 1; constructor; auto. now apply (eval_arg en s av n fs).
Qed.

Lemma callable_path f en vs s : callable f -> lookup f en = None -> call_path V K "" en [SName f] vs s = service_call V f vs s.
Proof.
  intros C L. cbn [call_path]. rewrite L.
  assert (N : forall x, In x ["args"; "memory"; "scope_id"; "rpc_method_address"; "runtime_as_mut"; "async_context"; "result"; "is_busy"; "Some"; "TechPawsScopeId"; "RpcMethodAddress"] -> String.eqb f x = false).
  { intros x I. apply String.eqb_neq. intros ->. now apply C. }
  rewrite (N "Some"), (N "TechPawsScopeId"), (N "RpcMethodAddress") by (cbn; tauto). reflexivity.
Qed.

Lemma eval_service (args : list ex) b f en s vs v (m : bool) : callable f -> lookup f en = None ->
  (forall s, mapMM (fun e => eval e en) args s = Done vs s) ->
  sv_call V (List.length (s_log s)) f vs = Some v ->
  (if m then sv_async V f = true else sv_async V f = false) ->
  eval (EPost (var f) (XCall args b :: if m then [XField "await"] else [])) en s =
  Done v (set_log (s_log s ++ [mk_called f vs (s_mem s)]) s).
Proof.
  intros C L A S Y.
  change (eval (EPost (var f) (XCall args b :: if m then [XField "await"] else [])) en s) with
    (bind (mapMM (fun e => eval e en) args) (fun vs => bind (call_path V K "" en [SName f] vs)
      (chain (fun p v => ev_post R V items K "" p v en) (if m then [XField "await"] else []))) s).
  rewrite (bind_done _ _ _ _ _ (A s)). unfold bind. rewrite callable_path by assumption. unfold service_call. rewrite S.
  destruct m; rewrite Y; reflexivity.
Qed.
Lemma eval_service_panics (args : list ex) b f en s vs ps : callable f -> lookup f en = None ->
  (forall s, mapMM (fun e => eval e en) args s = Done vs s) ->
  sv_call V (List.length (s_log s)) f vs = None ->
  eval (EPost (var f) (XCall args b :: ps)) en s = Panics.
Proof.
  intros C L A S.
  change (eval (EPost (var f) (XCall args b :: ps)) en s) with
    (bind (mapMM (fun e => eval e en) args) (fun vs => bind (call_path V K "" en [SName f] vs)
      (chain (fun p v => ev_post R V items K "" p v en) ps)) s).
  rewrite (bind_done _ _ _ _ _ (A s)). unfold bind. rewrite callable_path by assumption. unfold service_call. rewrite S. reflexivity.
Qed.

Variable ds : list decl.
(** [v] is a result of the method: of its return type, and the codecs reach all of it. *)
Definition returns (node : fn_node) (v : val) : Prop :=
  match fn_return node with
  | Some ty => typed R ds v ty = true /\ (prim_name ty = None -> can_write R ds K v)
  | None => True
  end.
Definition result_bytes (node : fn_node) (v : val) : bytes :=
  match fn_return node with Some _ => wire R ds v | None => [] end.
(** The environment after the call. *)
Definition with_result (node : fn_node) (v : val) (en : env) : env :=
  match fn_return node with Some _ => ("result", v) :: en | None => en end.

Lemma eval_call m node en s av n fs vs v : callable (fn_id node) -> lookup (fn_id node) en = None ->
  lookup "args" en = Some av -> deref av = vrec n fs -> passes node fs vs ->
  sv_call V (List.length (s_log s)) (fn_id node) vs = Some v ->
  sv_async V (fn_id node) = m ->
  eval_st (call_tree m node) en s = Done (with_result node v en) (set_log (s_log s ++ [mk_called (fn_id node) vs (s_mem s)]) s).
Proof.
  intros C L A D P S Y. unfold call_tree.
  pose proof (eval_service (map (fun a => EPost (var "args") [XMeth "clone" [] false; XField (fa_id a)]) (fn_args node))
    (nil_or (map (fun a => EPost (var "args") [XMeth "clone" [] false; XField (fa_id a)]) (fn_args node))) (fn_id node) en s vs v m C L
    (fun s => eval_args en s av n fs node vs A D P) S ltac:(destruct m; exact Y)) as E.
  unfold with_result. destruct (fn_return node).
  - change (eval_st (SLet "result" ?e) en s) with (bind (eval e en) (fun v => ret (("result", v) :: en)) s). now rewrite (bind_done _ _ _ _ _ E).
  - change (eval_st (SSemi ?e) en s) with (bind (eval e en) (fun v => ret en) s). now rewrite (bind_done _ _ _ _ _ E).
Qed.
Lemma eval_call_panics m node en s av n fs vs : callable (fn_id node) -> lookup (fn_id node) en = None ->
  lookup "args" en = Some av -> deref av = vrec n fs -> passes node fs vs ->
  sv_call V (List.length (s_log s)) (fn_id node) vs = None ->
  eval_st (call_tree m node) en s = Panics.
Proof.
  intros C L A D P S. unfold call_tree.
  pose proof (eval_service_panics (map (fun a => EPost (var "args") [XMeth "clone" [] false; XField (fa_id a)]) (fn_args node))
    (nil_or (map (fun a => EPost (var "args") [XMeth "clone" [] false; XField (fa_id a)]) (fn_args node))) (fn_id node) en s vs (if m then [XField "await"] else []) C L
    (fun s => eval_args en s av n fs node vs A D P) S) as E.
  destruct (fn_return node).
  - change (eval_st (SLet "result" ?e) en s) with (bind (eval e en) (fun v => ret (("result", v) :: en)) s). unfold bind. now rewrite E.
  - change (eval_st (SSemi ?e) en s) with (bind (eval e en) (fun v => ret en) s). unfold bind. now rewrite E.
Qed.

(** ** Writing the response *)

Lemma eval_results node v a en s : lookup "bytes_writer" en = Some (vref vwriter) ->
  (fn_return node <> None -> lookup "result" en = Some a) ->
  (match fn_return node with Some ty => a = v \/ a = vref v /\ prim_name ty = None | None => True end) -> returns node v ->
  chain (fun st e => eval_st st e) (result_tree node) en s = Done en (set_wr (s_wr s ++ result_bytes node v) s).
Proof.
  intros W L O T. unfold result_tree, result_bytes, returns in *. destruct (fn_return node) as [ty|].
  - destruct T as [T CW]. cbn [chain]. rewrite (bind_done _ _ _ _ _ (write_one R V items ds K "" ty (var "result") false en a v s W (acc_var _ _ _ (L ltac:(discriminate))) T O CW)). reflexivity.
  - cbn [chain]. rewrite app_nil_r. destruct s; reflexivity.
Qed.

Lemma eval_response sc a side node v av en s : served en sc a ->
  (fn_return node <> None -> lookup "result" en = Some av) ->
  (match fn_return node with Some ty => av = v \/ av = vref v /\ prim_name ty = None | None => True end) -> returns node v ->
  eval (buffer_call "rpc_buffer_write" side (writer_block (write_u8 "0xFF" :: result_tree node))) en s =
  Done vunit (put_buffer sc a side (rt_put R "u8" 255 ++ result_bytes node v) s).
Proof.
  intros H L O T. rewrite (eval_writer sc a) by exact H. apply rpc_write_done.
  set (en' := ("bytes_writer", vref vwriter) :: en).
  change (bind (bind (eval_st (write_u8 "0xFF") en') (fun e => chain (fun st e => eval_st st e) (result_tree node) e)) (fun _ => ret vunit) (set_wr [] s) =
          Done vunit (set_wr (rt_put R "u8" 255 ++ result_bytes node v) s)).
  rewrite bind_assoc.
  rewrite (bind_done _ _ _ _ _ (eval_write_u8 "0xFF" 255 en' (set_wr [] s) eq_refl eq_refl eq_refl)).
  rewrite (bind_done _ _ _ _ _ (eval_results node v av en' _ eq_refl L O T)). reflexivity.
Qed.
Lemma eval_response_id sc a side node v av n fs id en s : served en sc a ->
  lookup "args" en = Some av -> deref av = vrec n fs -> lookup "__method_id__" fs = Some (vnum "i64" id) ->
  (fn_return node <> None -> lookup "result" en = Some v) -> returns node v ->
  eval (buffer_call "rpc_buffer_write" side (writer_block
    (write_u8 "0xFF" ::
     SSemi (EPost (var "bytes_writer") [XMeth "write_i64" [EPost (var "args") [XField "__method_id__"]] false]) ::
     result_tree node))) en s =
  Done vunit (put_buffer sc a side (rt_put R "u8" 255 ++ rt_put R "i64" id ++ result_bytes node v) s).
Proof.
  intros H A D I L T. rewrite (eval_writer sc a) by exact H. apply rpc_write_done.
  set (en' := ("bytes_writer", vref vwriter) :: en).
  change (bind (bind (eval_st (write_u8 "0xFF") en') (fun e => bind (eval_st (SSemi (EPost (var "bytes_writer") [XMeth "write_i64" [EPost (var "args") [XField "__method_id__"]] false])) e) (fun e => chain (fun st e => eval_st st e) (result_tree node) e))) (fun _ => ret vunit) (set_wr [] s) =
          Done vunit (set_wr (rt_put R "u8" 255 ++ rt_put R "i64" id ++ result_bytes node v) s)).
  rewrite bind_assoc.
  rewrite (bind_done _ _ _ _ _ (eval_write_u8 "0xFF" 255 en' (set_wr [] s) eq_refl eq_refl eq_refl)).
  rewrite bind_assoc.
  set (s1 := set_wr _ _).
  assert (E : eval (EPost (var "args") [XField "__method_id__"]) en' s1 = Done (vnum "i64" id) s1).
  { change (eval (EPost (var "args") [XField "__method_id__"]) en' s1) with (bind (eval (var "args") en') (fun v => bind (field "__method_id__" v) ret) s1).
    rewrite (bind_done _ _ s1 _ s1 (eval_var R V items K "" "args" en' av s1 A)). unfold field. destruct av; cbn [deref] in D |- *; try discriminate D; try rewrite D; try (injection D as -> ->); rewrite I; reflexivity. }
  unfold bind at 1. rewrite (eval_write_prim R V items K "" "write_i64" (EPost (var "args") [XField "__method_id__"]) en' (vnum "i64" id) s1 eq_refl Logic.I E).
  replace (method_prim "write_" "write_i64") with (Some "i64") by reflexivity. unfold write_prim. cbn [String.eqb Ascii.eqb Bool.eqb]. unfold emit, bind at 1, ret at 1.
  rewrite (bind_done _ _ _ _ _ (eval_results node v v en' _ eq_refl L ltac:(destruct (fn_return node); auto) T)).
  unfold s1. cbn. unfold set_wr. cbn. rewrite <- app_assoc. reflexivity.
Qed.

(** ** Statement by statement *)

Notation stmts := (chain (fun st e => eval_st st e)).
Lemma stmts_let x e l en s v s' : eval e en s = Done v s' -> stmts (SLet x e :: l) en s = stmts l ((x, v) :: en) s'.
Proof.
  intros E. change (stmts (SLet x e :: l) en s) with (bind (bind (eval e en) (fun v => ret ((x, v) :: en))) (fun en => stmts l en) s).
  rewrite bind_assoc. now rewrite (bind_done _ _ _ _ _ E).
Qed.
Lemma stmts_semi e l en s v s' : eval e en s = Done v s' -> stmts (SSemi e :: l) en s = stmts l en s'.
Proof.
  intros E. change (stmts (SSemi e :: l) en s) with (bind (bind (eval e en) (fun v => ret en)) (fun en => stmts l en) s).
  rewrite bind_assoc. now rewrite (bind_done _ _ _ _ _ E).
Qed.
Lemma stmts_bare e l en s v s' : eval e en s = Done v s' -> stmts (SBare e :: l) en s = stmts l en s'.
Proof. apply stmts_semi. Qed.
Lemma stmts_st st l en s en' s' : eval_st st en s = Done en' s' -> stmts (st :: l) en s = stmts l en' s'.
Proof. intros E. change (stmts (st :: l) en s) with (bind (eval_st st en) (fun en => stmts l en) s). now rewrite (bind_done _ _ _ _ _ E). Qed.
Lemma stmts_panics st l en s : eval_st st en s = Panics -> stmts (st :: l) en s = Panics.
Proof. intros E. change (stmts (st :: l) en s) with (bind (eval_st st en) (fun en => stmts l en) s). unfold bind. now rewrite E. Qed.
Lemma stmts_nil en s : stmts [] en s = Done en s.
Proof. reflexivity. Qed.
Lemma block_some l e en s en' s' : stmts l en s = Done en' s' -> eval_block (Blk l (Some e)) en s = eval e en' s'.
Proof. intros E. change (eval_block (Blk l (Some e)) en s) with (bind (stmts l en) (fun en' => eval e en') s). now rewrite (bind_done _ _ _ _ _ E). Qed.
Lemma block_none l en s en' s' : stmts l en s = Done en' s' -> eval_block (Blk l None) en s = Done vunit s'.
Proof. intros E. change (eval_block (Blk l None) en s) with (bind (stmts l en) (fun en' => ret vunit) s). now rewrite (bind_done _ _ _ _ _ E). Qed.
Lemma block_panics l t en s : stmts l en s = Panics -> eval_block (Blk l t) en s = Panics.
Proof.
  intros E. change (eval_block (Blk l t) en s) with (bind (stmts l en) (fun en' => match t with Some e => eval e en' | None => ret vunit end) s).
  unfold bind. now rewrite E.
Qed.
Lemma block_stuck l t en s : stmts l en s = Stuck -> eval_block (Blk l t) en s = Stuck.
Proof.
  intros E. change (eval_block (Blk l t) en s) with (bind (stmts l en) (fun en' => match t with Some e => eval e en' | None => ret vunit end) s).
  unfold bind. now rewrite E.
Qed.

Lemma eval_if_some x o b en s : lookup x en = Some (vopt o) ->
  eval (if_some x b) en s = match o with Some v => eval_block b ((x, vref v) :: en) s | None => Done vunit s end.
Proof.
  intros L. change (eval (if_some x b) en s) with (bind (bind (eval (var x) en) (fun v => ret (vref v))) (fun v =>
      match match_pat (PTuple [SName "Some"] [x] false) v with
      | Some (Some en') => eval_block b (en' ++ en)
      | Some None => ret vunit
      | None => stuck
      end) s).
  rewrite bind_assoc, (bind_done _ _ _ _ _ (eval_var R V items K "" _ _ _ s L)). unfold bind, ret. cbn [match_pat deref String.eqb Ascii.eqb Bool.eqb].
  destruct o; reflexivity.
Qed.
Lemma eval_is_some x o en s : lookup x en = Some (vopt o) ->
  eval (is_some_tree x) en s = Done (bool_val (match o with Some _ => true | None => false end)) s.
Proof.
  intros L. change (eval (is_some_tree x) en s) with (bind (eval (var x) en) (fun v => bind (bind (ret []) (fun vs => method R K "is_some" v vs)) ret) s).
  rewrite (bind_done _ _ _ _ _ (eval_var R V items K "" _ _ _ s L)). reflexivity.
Qed.

(** ** Handlers *)

(** No request is waiting. *)
Definition idle (s : state) (sc : string) (a : Z) : Prop :=
  exists z rest, rt_get R "u8" (s_mem s sc a "Server") = Some (z, rest) /\ z <> 255%Z.
(** A request is waiting: its fields, and the arguments they hold for the call. *)
Definition request (node : fn_node) (s : state) (sc : string) (a : Z) (fs : list (string * val)) (vs : list val) : Prop :=
  exists rest rest', rt_get R "u8" (s_mem s sc a "Server") = Some (255%Z, rest) /\
    c_read K (ty0 (args_struct_id node)) (set_rd rest s) = Done (vrec (args_struct_id node) fs) (set_rd rest' s) /\ passes node fs vs.

Definition logged (f : string) (vs : list val) (s : state) : state :=
  set_log (s_log s ++ [mk_called f vs (s_mem s)]) s.

Notation fn_body := (fun i => match i with IFn f => f | _ => mk_rfn "" [] false None (Blk [] None) end).
Definition the_handler (node : fn_node) : rfn := fn_body (List.last (rpc_method_tree node) (IConst "" (ty0 "") EUnit)).
Notation run := (run_fn R V items K "").
Definition sync_args (sc : string) (a : Z) : list val := [vscope sc; vref vmemory; vmethod a].
Definition async_args (sc : string) (a : Z) : list val := [vscope sc; vasmut; vref vmemory; vref vcontext; vmethod a].
Definition sync_env (sc : string) (a : Z) : env := [("scope_id", vscope sc); ("memory", vref vmemory); ("rpc_method_address", vmethod a)].
Definition async_env (sc : string) (a : Z) : env :=
  [("scope_id", vscope sc); ("runtime_as_mut", vasmut); ("memory", vref vmemory); ("async_context", vref vcontext); ("rpc_method_address", vmethod a)].

Lemma sync_served sc a : served (sync_env sc a) sc a. Proof. repeat split. Qed.
Lemma async_served sc a : served (async_env sc a) sc a. Proof. repeat split. Qed.

Lemma last_app1 {A} (l : list A) x d : List.last (l ++ [x]) d = x.
Proof. induction l as [|y l IH]; [reflexivity|]. cbn [app]. destruct (l ++ [x]) eqn:E; [destruct l; discriminate|]. exact IH. Qed.

Lemma get_args_idle node sc a en s : no_none -> served en sc a -> lookup "None" en = None -> lookup "Some" en = None -> idle s sc a ->
  eval (get_args_tree node) en s = Done (vopt None) s.
Proof.
  intros N SV LN LS (z & rest & G & NZ). rewrite (eval_get_args node sc a en s z rest SV N LN LS G). destruct (Z.eqb_spec z 255); [contradiction|reflexivity].
Qed.
Lemma get_args_request node sc a en s fs vs : no_none -> served en sc a -> lookup "None" en = None -> lookup "Some" en = None -> request node s sc a fs vs ->
  eval (get_args_tree node) en s = Done (vopt (Some (vrec (args_struct_id node) fs))) s.
Proof.
  intros N SV LN LS (rest & rest' & G & RD & _). rewrite (eval_get_args node sc a en s 255 rest SV N LN LS G). cbn [Z.eqb Pos.eqb]. rewrite RD. destruct s; reflexivity.
Qed.
Lemma no_local f en : callable f ->
  (forall x, In x (map fst en) -> In x ["args"; "memory"; "scope_id"; "rpc_method_address"; "runtime_as_mut"; "async_context"; "result"; "is_busy"; "Some"; "TechPawsScopeId"; "RpcMethodAddress"]) ->
  lookup f en = None.
Proof.
  intros C H. induction en as [|[y v] en IH]; [reflexivity|]. cbn [lookup]. destruct (String.eqb_spec f y) as [->|].
  - exfalso. apply C, H. now left.
  - apply IH. intros x I. apply H. now right.
Qed.
Ltac local_names := intros ? I; cbn in I |- *; intuition auto.

(** *** Synchronous methods *)

Definition is_sync (node : fn_node) : Prop := fn_is_read node = false /\ fn_is_async node = false.

Lemma sync_body node : is_sync node -> rf_params (the_handler node) = [("scope_id", ty0 "TechPawsScopeId"); memory_param; ("rpc_method_address", ty0 "RpcMethodAddress")] /\
  rf_body (the_handler node) =
     Blk [SLet "args" (get_args_tree node);
           SBare (if_some "args" (Blk
             [clear_request_tree;
              call_tree false node;
              SSemi (buffer_call "rpc_buffer_write" "Client"
                (writer_block (write_u8 "0xFF" :: result_tree node)))] None))]
        (Some (is_some_tree "args")).
Proof.
  intros [A B]. unfold the_handler, rpc_method_tree. rewrite A, B. unfold sync_method_tree.
  change [?x; ?y] with ([x] ++ [y]). rewrite app_assoc, last_app1. split; reflexivity.
Qed.

Lemma sync_idle node sc a s : no_none -> is_sync node -> idle s sc a ->
  run (the_handler node) (sync_args sc a) s = Done (bool_val false) s.
Proof.
  intros N Y I. destruct (sync_body node Y) as [P B]. unfold run_fn. rewrite P, B. cbn [params sync_args memory_param String.eqb Ascii.eqb Bool.eqb].
  change (params _ _) with (Some (sync_env sc a)).
  unfold body. erewrite block_some.
  2: { rewrite (stmts_let _ _ _ _ _ _ _ (get_args_idle node sc a (sync_env sc a) s N (sync_served sc a) eq_refl eq_refl I)).
       rewrite (stmts_bare _ _ _ _ vunit s); [reflexivity|]. exact (eval_if_some "args" None _ (("args", vopt None) :: sync_env sc a) s eq_refl). }
  rewrite (eval_is_some "args" None) by reflexivity. reflexivity.
Qed.

Lemma sync_serves node sc a s fs vs v : no_none -> is_sync node -> callable (fn_id node) -> sv_async V (fn_id node) = false -> request node s sc a fs vs ->
  sv_call V (List.length (s_log s)) (fn_id node) vs = Some v -> returns node v ->
  run (the_handler node) (sync_args sc a) s =
  Done (bool_val true)
    (put_buffer sc a "Client" (rt_put R "u8" 255 ++ result_bytes node v) (logged (fn_id node) vs (put_buffer sc a "Server" (rt_put R "u8" 0) s))).
Proof.
  intros N Y C AS I CV RT. destruct (sync_body node Y) as [P B]. unfold run_fn. rewrite P, B.
  change (params _ _) with (Some (sync_env sc a)).
  set (rv := vrec (args_struct_id node) fs).
  unfold body. erewrite block_some.
  2: { rewrite (stmts_let _ _ _ _ _ _ _ (get_args_request node sc a (sync_env sc a) s fs vs N (sync_served sc a) eq_refl eq_refl I)). fold rv.
       set (en := ("args", vopt (Some rv)) :: sync_env sc a).
       erewrite (stmts_bare _ _ _ _ vunit); [reflexivity|].
       rewrite (eval_if_some "args" (Some rv) _ en s eq_refl).
       set (en' := ("args", vref rv) :: en).
       assert (SV : served en' sc a) by (repeat split).
       eapply block_none with (en' := with_result node v en').
       rewrite (stmts_st _ _ _ _ _ _ (eval_clear sc a en' s SV)).
       destruct I as (rest & rest' & _ & _ & PA).
       rewrite (stmts_st _ _ _ _ _ _ (eval_call false node en' (put_buffer sc a "Server" (rt_put R "u8" 0) s) (vref rv) (args_struct_id node) fs vs v C
          ltac:(apply no_local; [exact C|local_names]) eq_refl eq_refl PA CV AS)).
       rewrite (stmts_semi _ _ _ _ vunit _ (eval_response sc a "Client" node v v (with_result node v en') _
          ltac:(unfold with_result; destruct (fn_return node); [apply served_cons; [exact SV|discriminate..]|exact SV])
          ltac:(unfold with_result; destruct (fn_return node); [reflexivity|congruence])
          ltac:(destruct (fn_return node); auto) RT)).
       reflexivity. }
  rewrite (eval_is_some "args" (Some rv)) by reflexivity. reflexivity.
Qed.

Lemma sync_panics node sc a s fs vs : no_none -> is_sync node -> callable (fn_id node) -> request node s sc a fs vs ->
  sv_call V (List.length (s_log s)) (fn_id node) vs = None ->
  run (the_handler node) (sync_args sc a) s = Panics.
Proof.
  intros N Y C I CV. destruct (sync_body node Y) as [P B]. unfold run_fn. rewrite P, B.
  change (params _ _) with (Some (sync_env sc a)).
  set (rv := vrec (args_struct_id node) fs).
  unfold body. rewrite block_panics; [reflexivity|].
  rewrite (stmts_let _ _ _ _ _ _ _ (get_args_request node sc a (sync_env sc a) s fs vs N (sync_served sc a) eq_refl eq_refl I)). fold rv.
  set (en := ("args", vopt (Some rv)) :: sync_env sc a).
  apply stmts_panics.
  change (eval_st (SBare ?e) en s) with (bind (eval e en) (fun _ => ret en) s). unfold bind.
  rewrite (eval_if_some "args" (Some rv) _ en s eq_refl).
  set (en' := ("args", vref rv) :: en).
  assert (SV : served en' sc a) by (repeat split).
  rewrite block_panics; [reflexivity|].
  rewrite (stmts_st _ _ _ _ _ _ (eval_clear sc a en' s SV)).
  destruct I as (rest & rest' & _ & _ & PA). apply stmts_panics.
  apply (eval_call_panics false node en' _ (vref rv) (args_struct_id node) fs vs); auto. apply no_local; [exact C|local_names].
Qed.

(** *** Asynchronous methods *)

Definition is_async (node : fn_node) : Prop := fn_is_read node = false /\ fn_is_async node = true.
Definition async_task_block (node : fn_node) : block :=
  Blk [let_memory;
       call_tree true node;
       SSemi (buffer_call "rpc_buffer_write" "Client"
         (writer_block
           (write_u8 "0xFF" ::
            SSemi (EPost (var "bytes_writer")
              [XMeth "write_i64" [EPost (var "args") [XField "__method_id__"]] false]) ::
            result_tree node)))] None.
Definition async_task (node : fn_node) (sc : string) (a : Z) (fs : list (string * val)) : env * block :=
  (("args", vrec (args_struct_id node) fs) :: ("args", vref (vrec (args_struct_id node) fs)) :: ("args", vopt (Some (vrec (args_struct_id node) fs))) :: async_env sc a,
   async_task_block node).
Definition spawned (t : env * block) (s : state) : state := set_tasks (s_tasks s ++ [t]) s.

Lemma async_body node : is_async node -> rf_params (the_handler node) = [("scope_id", ty0 "TechPawsScopeId")] ++ async_params "runtime_as_mut" "async_context" ++ [("rpc_method_address", ty0 "RpcMethodAddress")] /\
  rf_body (the_handler node) =
     Blk [SLet "args" (get_args_tree node);
           SBare (if_some "args" (Blk
             [clear_request_tree;
              SLet "args" (EPost (var "args") [XMeth "clone" [] false]);
              SSemi (EPost (var "async_context") [XField "async_spawner"; XMeth "spawn" [EBlock BAsync (async_task_block node)] false])] None))]
        (Some (is_some_tree "args")).
Proof.
  intros [A B]. unfold the_handler, rpc_method_tree. rewrite A, B. unfold async_method_tree.
  change [?x; ?y] with ([x] ++ [y]). rewrite app_assoc, last_app1. split; reflexivity.
Qed.

Lemma async_idle node sc a s : no_none -> is_async node -> idle s sc a ->
  run (the_handler node) (async_args sc a) s = Done (bool_val false) s.
Proof.
  intros N Y I. destruct (async_body node Y) as [P B]. unfold run_fn. rewrite P, B.
  change (params _ _) with (Some (async_env sc a)).
  unfold body. erewrite block_some.
  2: { rewrite (stmts_let _ _ _ _ _ _ _ (get_args_idle node sc a (async_env sc a) s N (async_served sc a) eq_refl eq_refl I)).
       rewrite (stmts_bare _ _ _ _ vunit s); [reflexivity|]. exact (eval_if_some "args" None _ (("args", vopt None) :: async_env sc a) s eq_refl). }
  rewrite (eval_is_some "args" None) by reflexivity. reflexivity.
Qed.

Lemma eval_spawn b en s : lookup "async_context" en = Some (vref vcontext) ->
  eval (EPost (var "async_context") [XField "async_spawner"; XMeth "spawn" [EBlock BAsync b] false]) en s = Done vunit (spawned (en, b) s).
Proof.
  intros L. change (eval (EPost (var "async_context") [XField "async_spawner"; XMeth "spawn" [EBlock BAsync b] false]) en s) with
    (bind (eval (var "async_context") en) (fun v => bind (field "async_spawner" v) (fun v => bind (spawn "spawn" v en b) ret)) s).
  rewrite (bind_done _ _ _ _ _ (eval_var R V items K "" _ _ _ s L)). reflexivity.
Qed.

Lemma async_accepts node sc a s fs vs : no_none -> is_async node -> request node s sc a fs vs ->
  run (the_handler node) (async_args sc a) s =
  Done (bool_val true) (spawned (async_task node sc a fs) (put_buffer sc a "Server" (rt_put R "u8" 0) s)).
Proof.
  intros N Y I. destruct (async_body node Y) as [P B]. unfold run_fn. rewrite P, B.
  change (params _ _) with (Some (async_env sc a)).
  set (rv := vrec (args_struct_id node) fs).
  unfold body. erewrite block_some.
  2: { rewrite (stmts_let _ _ _ _ _ _ _ (get_args_request node sc a (async_env sc a) s fs vs N (async_served sc a) eq_refl eq_refl I)). fold rv.
       set (en := ("args", vopt (Some rv)) :: async_env sc a).
       erewrite (stmts_bare _ _ _ _ vunit); [reflexivity|].
       rewrite (eval_if_some "args" (Some rv) _ en s eq_refl).
       set (en' := ("args", vref rv) :: en).
       assert (SV : served en' sc a) by (repeat split).
       eapply block_none with (en' := ("args", rv) :: en').
       rewrite (stmts_st _ _ _ _ _ _ (eval_clear sc a en' s SV)).
       rewrite (stmts_let "args" _ _ en' _ rv (put_buffer sc a "Server" (rt_put R "u8" 0) s)) by reflexivity.
       rewrite (stmts_semi _ _ _ _ vunit _ (eval_spawn (async_task_block node) (("args", rv) :: en') _ eq_refl)).
       reflexivity. }
  rewrite (eval_is_some "args" (Some rv)) by reflexivity. reflexivity.
Qed.

Lemma eval_let_memory en s : lookup "runtime_as_mut" en = Some vasmut -> eval_st let_memory en s = Done (("memory", vref vmemory) :: en) s.
Proof.
  intros L. unfold let_memory.
  change (eval_st (SLet "memory" ?e) en s) with (bind (eval e en) (fun v => ret (("memory", v) :: en)) s).
  change (eval (EBlock BUnsafe (Blk [] (Some (ERef true (EPost (var "runtime_as_mut") [XCall [] false; XField "memory"]))))) en) with
    (bind (ret en) (fun en => bind (bind (ret []) (fun vs => bind (call_path V K "" en [SName "runtime_as_mut"] vs) (fun v => bind (field "memory" v) ret))) (fun v => ret (vref v)))).
  unfold bind, ret, call_path. rewrite L. reflexivity.
Qed.

Lemma async_completes node sc a s fs vs v id : callable (fn_id node) -> sv_async V (fn_id node) = true ->
  lookup "__method_id__" fs = Some (vnum "i64" id) -> passes node fs vs ->
  sv_call V (List.length (s_log s)) (fn_id node) vs = Some v -> returns node v ->
  body (eval_block (snd (async_task node sc a fs)) (fst (async_task node sc a fs))) s =
  Done vunit (put_buffer sc a "Client" (rt_put R "u8" 255 ++ rt_put R "i64" id ++ result_bytes node v) (logged (fn_id node) vs s)).
Proof.
  intros C AS ID PA CV RT. unfold async_task. cbn [fst snd]. set (rv := vrec (args_struct_id node) fs).
  set (en := ("args", rv) :: _). unfold body, async_task_block.
  set (en' := ("memory", vref vmemory) :: en).
  assert (SV : served en' sc a) by (repeat split).
  erewrite block_none; [reflexivity|].
  rewrite (stmts_st _ _ _ _ _ _ (eval_let_memory en s eq_refl)). fold en'.
  rewrite (stmts_st _ _ _ _ _ _ (eval_call true node en' s rv (args_struct_id node) fs vs v C
     ltac:(apply no_local; [exact C|local_names]) eq_refl eq_refl PA CV AS)).
  rewrite (stmts_semi _ _ _ _ vunit _ (eval_response_id sc a "Client" node v rv (args_struct_id node) fs id (with_result node v en') _
     ltac:(unfold with_result; destruct (fn_return node); [apply served_cons; [exact SV|discriminate..]|exact SV])
     ltac:(unfold with_result; destruct (fn_return node); reflexivity) eq_refl ID
     ltac:(unfold with_result; destruct (fn_return node); [reflexivity|congruence]) RT)).
  reflexivity.
Qed.
Lemma async_task_panics node sc a s fs vs : callable (fn_id node) -> passes node fs vs ->
  sv_call V (List.length (s_log s)) (fn_id node) vs = None ->
  body (eval_block (snd (async_task node sc a fs)) (fst (async_task node sc a fs))) s = Panics.
Proof.
  intros C PA CV. unfold async_task. cbn [fst snd]. set (rv := vrec (args_struct_id node) fs).
  set (en := ("args", rv) :: _). unfold body, async_task_block.
  set (en' := ("memory", vref vmemory) :: en).
  rewrite block_panics; [reflexivity|].
  rewrite (stmts_st _ _ _ _ _ _ (eval_let_memory en s eq_refl)). fold en'.
  apply stmts_panics.
  apply (eval_call_panics true node en' _ rv (args_struct_id node) fs vs); auto. apply no_local; [exact C|local_names].
Qed.

(** *** Read methods *)

(** Writing a primitive result through a reference is ill-typed. *)
Lemma eval_results_stuck node ty v en s : lookup "bytes_writer" en = Some (vref vwriter) -> lookup "result" en = Some (vref v) ->
  fn_return node = Some ty -> prim_name ty <> None -> typed R ds v ty = true ->
  stmts (result_tree node) en s = Stuck.
Proof.
  intros W L E P T. unfold result_tree. rewrite E. destruct (prim_name ty) as [id|] eqn:Q; [|contradiction].
  destruct (typed_prim R ds v ty id Q T) as (z & -> & PR & _).
  change (stmts [write_tree ty (var "result") false] en s) with (bind (eval_st (write_tree ty (var "result") false) en) ret s). rewrite bind_ret.
  rewrite (eval_write R V items K "" ty (var "result") false en (vref (vnum id z)) (vnum id z) s W (acc_var _ _ _ L) Logic.I (or_intror eq_refl)).
  rewrite Q. cbv iota. rewrite method_prim_write by exact PR. reflexivity.
Qed.
Lemma eval_response_stuck sc a side node ty v en s : served en sc a -> lookup "result" en = Some (vref v) ->
  fn_return node = Some ty -> prim_name ty <> None -> typed R ds v ty = true ->
  eval (buffer_call "rpc_buffer_write" side (writer_block (write_u8 "0xFF" :: result_tree node))) en s = Stuck.
Proof.
  intros H L E P T. rewrite (eval_writer sc a) by exact H. unfold rpc_write, body.
  set (en' := ("bytes_writer", vref vwriter) :: en).
  change (stmts (write_u8 "0xFF" :: result_tree node) en') with (bind (eval_st (write_u8 "0xFF") en') (fun e => stmts (result_tree node) e)).
  rewrite bind_assoc.
  rewrite (bind_done _ _ _ _ _ (eval_write_u8 "0xFF" 255 en' (set_wr [] s) eq_refl eq_refl eq_refl)).
  unfold bind. rewrite (eval_results_stuck node ty v en') by (assumption || reflexivity). reflexivity.
Qed.

Definition is_sync_read (node : fn_node) : Prop := fn_is_read node = true /\ fn_is_async node = false.
Definition is_async_read (node : fn_node) : Prop := fn_is_read node = true /\ fn_is_async node = true.
(** What the generated code of a read method can send: anything but a primitive value. *)
Definition sendable (node : fn_node) : Prop := match fn_return node with Some ty => prim_name ty = None | None => True end.

Lemma sync_read_body node : is_sync_read node -> rf_params (the_handler node) = [("scope_id", ty0 "TechPawsScopeId")] ++ async_params "_" "_" ++ [("rpc_method_address", ty0 "RpcMethodAddress")] /\
  rf_body (the_handler node) =
     Blk [SLet "result" (EPost (var (fn_id node)) [XCall [] false]);
           SBare (if_some "result" (Blk
             [SSemi (buffer_call "rpc_buffer_write" "Client"
                (writer_block (write_u8 "0xFF" :: result_tree node)))] None))]
        (Some (is_some_tree "result")).
Proof. intros [A B]. unfold the_handler, rpc_method_tree. rewrite A, B. split; reflexivity. Qed.

Lemma sync_read_run node sc a s o : is_sync_read node -> callable (fn_id node) -> sv_async V (fn_id node) = false ->
  sv_call V (List.length (s_log s)) (fn_id node) [] = Some (vopt o) ->
  match o with Some v => sendable node /\ returns node v | None => True end ->
  run (the_handler node) (async_args sc a) s =
  match o with
  | Some v => Done (bool_val true) (put_buffer sc a "Client" (rt_put R "u8" 255 ++ result_bytes node v) (logged (fn_id node) [] s))
  | None => Done (bool_val false) (logged (fn_id node) [] s)
  end.
Proof.
  intros Y C AS CV RT. destruct (sync_read_body node Y) as [P B]. unfold run_fn. rewrite P, B.
  change (params _ _) with (Some (sync_env sc a)).
  unfold body.
  pose proof (eval_service [] false (fn_id node) (sync_env sc a) s [] (vopt o) false C ltac:(apply no_local; [exact C|local_names]) (fun s => eq_refl) CV AS) as E.
  set (en := ("result", vopt o) :: sync_env sc a).
  assert (X : eval (if_some "result" (Blk [SSemi (buffer_call "rpc_buffer_write" "Client" (writer_block (write_u8 "0xFF" :: result_tree node)))] None)) en (logged (fn_id node) [] s) =
    Done vunit (match o with Some v => put_buffer sc a "Client" (rt_put R "u8" 255 ++ result_bytes node v) (logged (fn_id node) [] s) | None => logged (fn_id node) [] s end)).
  { rewrite (eval_if_some "result" o _ en _ eq_refl). destruct o as [v|]; [|reflexivity]. destruct RT as [SE RT].
    erewrite block_none; [reflexivity|].
    rewrite (stmts_semi _ _ _ _ vunit _ (eval_response sc a "Client" node v (vref v) (("result", vref v) :: en) (logged (fn_id node) [] s)
      ltac:(repeat split) ltac:(reflexivity) ltac:(unfold sendable in SE; destruct (fn_return node); auto) RT)). reflexivity. }
  erewrite block_some.
  2: { rewrite (stmts_let _ _ _ _ _ _ _ E). fold en. rewrite (stmts_bare _ _ _ _ vunit _ X). reflexivity. }
  rewrite (eval_is_some "result" o) by reflexivity. destruct o; reflexivity.
Qed.
Lemma sync_read_stuck node sc a s ty v : is_sync_read node -> callable (fn_id node) -> sv_async V (fn_id node) = false ->
  sv_call V (List.length (s_log s)) (fn_id node) [] = Some (vopt (Some v)) ->
  fn_return node = Some ty -> prim_name ty <> None -> typed R ds v ty = true ->
  run (the_handler node) (async_args sc a) s = Stuck.
Proof.
  intros Y C AS CV RE PR TY. destruct (sync_read_body node Y) as [P B]. unfold run_fn. rewrite P, B.
  change (params _ _) with (Some (sync_env sc a)).
  unfold body.
  pose proof (eval_service [] false (fn_id node) (sync_env sc a) s [] (vopt (Some v)) false C ltac:(apply no_local; [exact C|local_names]) (fun s => eq_refl) CV AS) as E.
  rewrite block_stuck; [reflexivity|]. rewrite (stmts_let _ _ _ _ _ _ _ E).
  set (en := ("result", vopt (Some v)) :: sync_env sc a).
  change (stmts (SBare ?e :: []) en ?s) with (bind (bind (eval e en) (fun _ => ret en)) ret s). rewrite bind_ret. unfold bind.
  rewrite (eval_if_some "result" (Some v) _ en _ eq_refl). rewrite block_stuck; [reflexivity|].
  change (stmts (SSemi ?e :: []) ?en ?s) with (bind (bind (eval e en) (fun _ => ret en)) ret s). rewrite bind_ret. unfold bind.
  rewrite (eval_response_stuck sc a "Client" node ty v); auto. repeat split.
Qed.

Definition read_task_block (node : fn_node) : block :=
  Blk [SLet "result" (EPost (var (fn_id node)) [XCall [] false; XField "await"])]
      (Some (if_some "result" (Blk
         [let_memory;
          SSemi (buffer_call "rpc_buffer_write" "Client"
            (writer_block (write_u8 "0xFF" :: result_tree node)));
          SSemi (buffer_call "rpc_buffer_write" "Server" (writer_block [write_u8 "0x00"]))]
         None))).
Definition read_task (node : fn_node) (sc : string) (a : Z) : env * block :=
  (("is_busy", bool_val false) :: async_env sc a, read_task_block node).

Lemma async_read_body node : is_async_read node -> rf_params (the_handler node) = [("scope_id", ty0 "TechPawsScopeId")] ++ async_params "runtime_as_mut" "async_context" ++ [("rpc_method_address", ty0 "RpcMethodAddress")] /\
  rf_body (the_handler node) =
     Blk [SLet "is_busy" (buffer_call "rpc_buffer_read" "Server"
             (EClosure "bytes_reader" (EBlock BPlain
               (Blk [SLet "status" read_u8] (Some (EEq (var "status") (ENum "0xFF")))))));
           SBare (EIf (ENot (var "is_busy")) (Blk
             [SSemi (buffer_call "rpc_buffer_write" "Server" (writer_block [write_u8 "0xFF"]));
              SSemi (EPost (var "async_context") [XField "async_spawner"; XMeth "spawn" [EBlock BAsync (read_task_block node)] false])] None) None)]
        (Some (ENot (var "is_busy"))).
Proof. intros [A B]. unfold the_handler, rpc_method_tree. rewrite A, B. split; reflexivity. Qed.

Lemma eval_not x (b : bool) en s : lookup x en = Some (bool_val b) -> eval (ENot (var x)) en s = Done (bool_val (negb b)) s.
Proof.
  intros L. change (eval (ENot (var x)) en s) with (bind (eval (var x) en) (fun v =>
      match v with
      | vnum "bool" 1 => ret (bool_val false)
      | vnum "bool" 0 => ret (bool_val true)
      | _ => stuck
      end) s).
  rewrite (bind_done _ _ _ _ _ (eval_var R V items K "" _ _ _ s L)). destruct b; reflexivity.
Qed.

Lemma async_read_run node sc a s z rest : is_async_read node -> rt_get R "u8" (s_mem s sc a "Server") = Some (z, rest) ->
  run (the_handler node) (async_args sc a) s =
  if Z.eqb z 255 then Done (bool_val false) s
  else Done (bool_val true) (spawned (read_task node sc a) (put_buffer sc a "Server" (rt_put R "u8" 255) s)).
Proof.
  intros Y G. destruct (async_read_body node Y) as [P B]. unfold run_fn. rewrite P, B.
  change (params _ _) with (Some (async_env sc a)).
  unfold body.
  assert (E : eval (buffer_call "rpc_buffer_read" "Server" (EClosure "bytes_reader" (EBlock BPlain
               (Blk [SLet "status" read_u8] (Some (EEq (var "status") (ENum "0xFF"))))))) (async_env sc a) s = Done (bool_val (Z.eqb z 255)) s).
  { rewrite (eval_buffer_read sc a) by apply async_served. unfold rpc_read, body. rewrite eval_status. cbn [set_rd s_rd]. rewrite G. rewrite eval_status_eq. destruct s; reflexivity. }
  set (en := ("is_busy", bool_val (Z.eqb z 255)) :: async_env sc a).
  assert (X : eval (EIf (ENot (var "is_busy")) (Blk
             [SSemi (buffer_call "rpc_buffer_write" "Server" (writer_block [write_u8 "0xFF"]));
              SSemi (EPost (var "async_context") [XField "async_spawner"; XMeth "spawn" [EBlock BAsync (read_task_block node)] false])] None) None) en s =
    Done vunit (if Z.eqb z 255 then s else spawned (en, read_task_block node) (put_buffer sc a "Server" (rt_put R "u8" 255) s))).
  { rewrite (eval_if1 (negb (Z.eqb z 255)) _ _ _ _ (eval_not "is_busy" (Z.eqb z 255) en s eq_refl)).
    destruct (Z.eqb z 255); [reflexivity|]. cbn [negb].
    erewrite block_none; [reflexivity|].
    rewrite (stmts_semi _ _ _ _ vunit _ (eval_put_status sc a "Server" "0xFF" 255 en s ltac:(repeat split) eq_refl eq_refl)).
    rewrite (stmts_semi _ _ _ _ vunit _ (eval_spawn (read_task_block node) en _ eq_refl)). reflexivity. }
  erewrite block_some.
  2: { rewrite (stmts_let _ _ _ _ _ _ _ E). fold en. rewrite (stmts_bare _ _ _ _ vunit _ X). reflexivity. }
  rewrite (eval_not "is_busy" (Z.eqb z 255) en _ eq_refl). unfold en. destruct (Z.eqb z 255); reflexivity.
Qed.

Lemma read_completes node sc a s o : callable (fn_id node) -> sv_async V (fn_id node) = true ->
  sv_call V (List.length (s_log s)) (fn_id node) [] = Some (vopt o) ->
  match o with Some v => sendable node /\ returns node v | None => True end ->
  body (eval_block (snd (read_task node sc a)) (fst (read_task node sc a))) s =
  Done vunit (match o with
              | Some v => put_buffer sc a "Server" (rt_put R "u8" 0) (put_buffer sc a "Client" (rt_put R "u8" 255 ++ result_bytes node v) (logged (fn_id node) [] s))
              | None => logged (fn_id node) [] s
              end).
Proof.
  intros C AS CV RT. unfold read_task. cbn [fst snd]. set (en := ("is_busy", bool_val false) :: async_env sc a). unfold body, read_task_block.
  pose proof (eval_service [] false (fn_id node) en s [] (vopt o) true C ltac:(apply no_local; [exact C|local_names]) (fun s => eq_refl) CV AS) as E.
  erewrite block_some. 2: { rewrite (stmts_let _ _ _ _ _ _ _ E). reflexivity. }
  set (en1 := ("result", vopt o) :: en).
  rewrite (eval_if_some "result" o _ en1 _ eq_refl). destruct o as [v|]; [|reflexivity]. destruct RT as [SE RT].
  set (en2 := ("result", vref v) :: en1).
  erewrite block_none; [reflexivity|].
  rewrite (stmts_st _ _ _ _ _ _ (eval_let_memory en2 _ eq_refl)).
  rewrite (stmts_semi _ _ _ _ vunit _ (eval_response sc a "Client" node v (vref v) (("memory", vref vmemory) :: en2) (logged (fn_id node) [] s)
      ltac:(repeat split) ltac:(reflexivity) ltac:(unfold sendable in SE; destruct (fn_return node); auto) RT)).
  rewrite (stmts_semi _ _ _ _ vunit _ (eval_put_status sc a "Server" "0x00" 0 (("memory", vref vmemory) :: en2) _ ltac:(repeat split) eq_refl eq_refl)).
  reflexivity.
Qed.
Lemma read_task_stuck node sc a s ty v : callable (fn_id node) -> sv_async V (fn_id node) = true ->
  sv_call V (List.length (s_log s)) (fn_id node) [] = Some (vopt (Some v)) ->
  fn_return node = Some ty -> prim_name ty <> None -> typed R ds v ty = true ->
  body (eval_block (snd (read_task node sc a)) (fst (read_task node sc a))) s = Stuck.
Proof.
  intros C AS CV RE PR TY. unfold read_task. cbn [fst snd]. set (en := ("is_busy", bool_val false) :: async_env sc a). unfold body, read_task_block.
  pose proof (eval_service [] false (fn_id node) en s [] (vopt (Some v)) true C ltac:(apply no_local; [exact C|local_names]) (fun s => eq_refl) CV AS) as E.
  erewrite block_some. 2: { rewrite (stmts_let _ _ _ _ _ _ _ E). reflexivity. }
  set (en1 := ("result", vopt (Some v)) :: en).
  rewrite (eval_if_some "result" (Some v) _ en1 _ eq_refl).
  set (en2 := ("result", vref v) :: en1).
  rewrite block_stuck; [reflexivity|].
  rewrite (stmts_st _ _ _ _ _ _ (eval_let_memory en2 _ eq_refl)).
  change (stmts (SSemi ?ex0 :: ?l) ?en3 ?s) with (bind (bind (eval ex0 en3) (fun _ => ret en3)) (fun en4 => stmts l en4) s). rewrite bind_assoc. unfold bind.
  rewrite (eval_response_stuck sc a "Client" node ty v); auto. repeat split.
Qed.
End Rpc.
