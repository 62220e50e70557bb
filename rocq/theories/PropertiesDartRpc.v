(** Property theorems about the generated Dart client and its conversation with the generated Rust handlers: C31 (method
    numbers), C32 (synchronous calls), C34 (identities of asynchronous calls), C47 (streams), C48 (disconnecting).  The generated text is read back
    as a Dart file and that file is run by the interpreter of DartSem.  After each theorem, a concrete case that meets its
    hypotheses, and its axioms. *)
Require Import Coq.Strings.String Coq.Strings.Ascii.
Require Import Coq.NArith.NArith Coq.ZArith.ZArith Coq.Lists.List Coq.Bool.Bool Coq.Arith.PeanoNat.
Require Import Coq.micromega.Lia Coq.micromega.ZifyBool Coq.micromega.ZifyN Coq.micromega.ZifyNat.
Require Import Verif.Base Verif.Ast Verif.Lexer Verif.Parser Verif.CaseConv Verif.Code Verif.NumText Verif.RustGen Verif.RustTree Verif.RustFile Verif.RustWf Verif.RustSem Verif.Wire Verif.RustCodec Verif.CodecFacts Verif.RustRpc Verif.RpcFacts.
Require Import Verif.DartSyntax Verif.DartGen Verif.DartTree Verif.DartFile Verif.DartWf Verif.DartSem Verif.DartWire Verif.DartRun Verif.DartShape Verif.DartCodec Verif.DartAgree Verif.DartFacts Verif.DartRpc.
Require Import Verif.DartRpcFacts.
Import ListNotations.
Local Open Scope string_scope.
Local Open Scope list_scope.

(** ** C31: numbers *)
(** A new client: every pending set is empty, every stream is open and empty, and one task per asynchronous method and per
    stream listens on the buffer of that method.  Only new objects are made, and no buffer is written. *)
Theorem C31_new_client : forall ast items C sc D U fuel s,
  let nodes := find_fn_nodes ast in
  client_file ast items C sc -> dlawful D U -> 3 <= fuel ->
  exists a h' V,
    let ts := d_tasks s ++ map (fun n => Some (node_task C sc n a)) (filter is_async_or_read nodes) in
    call_new D items fuel C [(None, dsched)] s = DDone (dref a) (set_dtasks ts (set_heap h' s)) /\
    changes (d_heap s) h' [] /\ shows C sc nodes h' ts a V /\ (forall b, owned nodes V a b -> fresh (d_heap s) h' b) /\
    (forall node, In node nodes -> is_async_or_read node = true ->
      nth_error ts (w_task V (fn_id node)) = Some (Some (node_task C sc node a)) /\
      tk_scope (node_task C sc node a) = sc /\ tk_address (node_task C sc node a) = Z.of_N (fn_position node) /\ tk_side (node_task C sc node a) = "Client") /\
    (forall id, w_last V id = 0%Z /\ w_pending V id = [] /\ w_stream V id = ([], true)).
Proof. exact lem_C31_new_client. Qed.
Print Assumptions C31_new_client.
Example C31_new_client_case : client_file c31_ast c31_dart "TestRpcClient" "svc" /\ dlawful (c31_runtime (-1)) le_support /\
  map (option_map (fun t => (tk_scope t, tk_address t, tk_side t))) (d_tasks (c31_then c31_made)) =
    map (fun f => Some ("svc", Z.of_N (fn_position (c31_node f)), "Client")) ["later"; "where_am_i"; "next_point"; "count"] /\
  map (fun f => fn_position (c31_node f)) ["later"; "where_am_i"; "next_point"; "count"] = [2; 3; 4; 5]%N.
Proof.
  split; [exact c31_client|].
  split; [exact (c31_dlawful _)|].
  split; vm_compute; reflexivity.
Qed.

(** ** C32: synchronous calls *)
(** A synchronous call writes the request to the buffer of the method, lets the scheduler run the synchronous handlers once, and
    takes the result from the buffer of the method. *)
Theorem C32_client_call : forall ast items C sc D U cd node fuel a V s P d vs ws,
  let nodes := find_fn_nodes ast in let ds := schema_decls ast in
  client_file ast items C sc -> dlawful D U -> In node nodes -> fn_is_read node = false -> fn_is_async node = false ->
  shows C sc nodes (d_heap s) (d_tasks s) a V -> passed U items ds cd P (d_heap s) d vs ws (fn_args node) -> 2 * d + 5 <= fuel ->
  let mem := sent (d_mem s) sc (fn_position node) (dart_request D U ds node vs) in
  (rd_loop D (d_loops s) mem = None -> client_call D items fuel a node ws s = DThrows "ServerError") /\
  (forall mem', rd_loop D (d_loops s) mem = Some mem' ->
    let s' := set_loops (S (d_loops s)) (set_dmem mem' s) in
    (fn_return node = None -> client_call D items fuel a node ws s = DDone dnull s') /\
    (forall t z r, fn_return node = Some t -> rd_get D "Int8" (mem' sc (Z.of_N (fn_position node)) "Client") = Some (z, r) ->
      (z <> rd_has_data D -> client_call D items fuel a node ws s = DThrows "StateError") /\
      (z = rd_has_data D -> forall v rest, dtyped U ds (top_names items) cd v t = true -> 3 * depth v + 3 * cd + 5 <= fuel -> r = dwire D U ds false v t ++ rest ->
        exists w h', client_call D items fuel a node ws s = DDone w (set_heap h' s') /\ changes (d_heap s) h' [] /\
          rep U ds (fresh (d_heap s) h') h' w v t))).
Proof. exact lem_C32_client_call. Qed.
Print Assumptions C32_client_call.

(** The whole call: the client writes the request, the scheduler runs the generated Rust handler of the method on the buffers, the
    client reads the response.  The server function is called once, with exactly the arguments of the call, and the object that
    the call returns is exactly the value that the server function returned, whatever the buffers held before. *)
Theorem C32_round_trip : forall ast models rust_file items C sc R V D U cd node fuel dfuel a W s q P d vs ws v,
  let nodes := find_fn_nodes ast in let ds := schema_decls ast in let rds := rust_decls ast true true in let addr := Z.of_N (fn_position node) in
  rpc_file ast models true rust_file -> client_file ast items C sc -> lawful R -> dlawful D U -> agree R D U -> same_status D ->
  In node nodes -> fn_is_read node = false -> fn_is_async node = false -> sv_async V (fn_id node) = false ->
  arguments R rds node vs = true -> passed U items ds cd P (d_heap s) d vs ws (fn_args node) -> args_portable ds node vs = true ->
  is_result R rds node v = true -> dart_returns U ds items cd node v = true -> result_portable ds node v = true ->
  RpcFacts.within fuel (v :: vs) -> 2 * d + 5 <= dfuel -> 3 * depth v + 3 * cd + 5 <= dfuel ->
  shows C sc nodes (d_heap s) (d_tasks s) a W ->
  sv_call V (List.length (s_log q)) (fn_id node) vs = Some v ->
  (forall mem r q', call_fn R V rust_file fuel (handler_name node) (sync_args sc addr) (set_mem mem q) = Done r q' ->
    exists mem', rd_loop D (d_loops s) mem = Some mem' /\ mem' sc addr "Client" = s_mem q' sc addr "Client") ->
  exists w h' mem mem' q',
    rd_loop D (d_loops s) mem = Some mem' /\
    call_fn R V rust_file fuel (handler_name node) (sync_args sc addr) (set_mem mem q) = Done (bool_val true) q' /\
    (exists m, s_log q' = s_log q ++ [mk_called (fn_id node) vs m]) /\
    client_call D items dfuel a node ws s = DDone w (set_heap h' (set_loops (S (d_loops s)) (set_dmem mem' s))) /\
    changes (d_heap s) h' [] /\ returned U ds node v (d_heap s) h' w.
Proof. exact lem_C32_round_trip. Qed.
Example C32_round_trip_case : let node := c31_node "move_by" in let D := c31_runtime (-1) in let s := c31_then c31_made in
  rpc_file c31_ast true true c31_items /\ agree le_runtime D le_support /\ same_status D /\
  passed le_support c31_dart (schema_decls c31_ast) 5 (fun b => b = 0) (d_heap s) 2 [c31_point 1 2; vnum "i32" 4] [dref 0; dint 4] (fn_args node) /\
  (exists W, shows "TestRpcClient" "svc" (find_fn_nodes c31_ast) (d_heap s) (d_tasks s) (c31_at c31_made) W) /\
  let o := client_call D c31_dart 26 (c31_at c31_made) node [dref 0; dint 4] s in
  nth_error (d_heap (c31_then o)) (c31_at o) = Some (CObj "Point" [("x", dint 5); ("y", dint 6)]) /\
  exists w h' mem mem' q', rd_loop D 0 mem = Some mem' /\
    call_fn le_runtime c31_service c31_items 5 (handler_name node) (sync_args "svc" (Z.of_N (fn_position node))) (set_mem mem (c31_state [])) = Done (bool_val true) q' /\
    (exists m, s_log q' = [mk_called "move_by" [c31_point 1 2; vnum "i32" 4] m]) /\
    client_call D c31_dart 26 (c31_at c31_made) node [dref 0; dint 4] s = DDone w (set_heap h' (set_loops 1 (set_dmem mem' s))).
Proof.
  cbv zeta.
  split; [exact c31_file|].
  split; [exact (c31_agree _)|].
  split; [reflexivity|].
  split; [exact c31_passed|].
  destruct c31_made_view as (W & _ & SH & _).
  split; [now exists W|].
  split; [vm_compute; reflexivity|].
  assert (LS : d_loops (c31_then c31_made) = 0) by (vm_compute; reflexivity).
  destruct (C32_round_trip c31_ast true c31_items c31_dart "TestRpcClient" "svc" le_runtime c31_service (c31_runtime (-1)) le_support 5 (c31_node "move_by") 5 26 (c31_at c31_made) W
    (c31_then c31_made) (c31_state []) (fun b => b = 0) 2 [c31_point 1 2; vnum "i32" 4] [dref 0; dint 4] (c31_point 5 6)) as (w & h' & mem & mem' & q' & E1 & E2 & E3 & E4 & _);
    [exact c31_file|exact c31_client|exact le_lawful|exact (c31_dlawful _)|exact (c31_agree _)|reflexivity|vm_compute; tauto|reflexivity|reflexivity|reflexivity|vm_compute; reflexivity|exact c31_passed
    |vm_compute; reflexivity|vm_compute; reflexivity|vm_compute; reflexivity|vm_compute; reflexivity| |lia|vm_compute; lia|exact SH|reflexivity| |].
  - intros x [<-|[<-|[<-|[]]]]; vm_compute; lia.
  - intros mem r q' E.
  exists (s_mem q').
  split; [|reflexivity].
  cbn [c31_runtime rd_loop].
  unfold c31_loop.
  now rewrite E.
  - rewrite LS in E1, E4.
  exists w, h', mem, mem', q'.
  split; [exact E1|].
  split; [exact E2|].
  split; [exact E3|exact E4].
Qed.
Print Assumptions C32_round_trip.

(** The status matters: if the runtime of the client takes any other number than -1 (say, 255) for "has data", a call that was
    served correctly throws, because the byte 255 that the handler writes is read as -1. *)
Theorem C32_client_status : forall ast models rust_file items C sc R V D U cd node fuel dfuel a W s q P d vs ws v t,
  let nodes := find_fn_nodes ast in let ds := schema_decls ast in let rds := rust_decls ast true true in let addr := Z.of_N (fn_position node) in
  rpc_file ast models true rust_file -> client_file ast items C sc -> lawful R -> dlawful D U -> agree R D U ->
  rd_has_data D <> (-1)%Z -> rd_put D "Int8" (rd_has_data D) = rt_put R "u8" 255 ->
  In node nodes -> fn_is_read node = false -> fn_is_async node = false -> sv_async V (fn_id node) = false -> fn_return node = Some t ->
  arguments R rds node vs = true -> passed U items ds cd P (d_heap s) d vs ws (fn_args node) -> args_portable ds node vs = true ->
  is_result R rds node v = true -> RpcFacts.within fuel (v :: vs) -> 2 * d + 5 <= dfuel ->
  shows C sc nodes (d_heap s) (d_tasks s) a W ->
  sv_call V (List.length (s_log q)) (fn_id node) vs = Some v ->
  (forall mem r q', call_fn R V rust_file fuel (handler_name node) (sync_args sc addr) (set_mem mem q) = Done r q' ->
    exists mem', rd_loop D (d_loops s) mem = Some mem' /\ mem' sc addr "Client" = s_mem q' sc addr "Client") ->
  (exists mem q' m, call_fn R V rust_file fuel (handler_name node) (sync_args sc addr) (set_mem mem q) = Done (bool_val true) q' /\
    s_log q' = s_log q ++ [mk_called (fn_id node) vs m]) /\
  client_call D items dfuel a node ws s = DThrows "StateError".
Proof. exact lem_C32_client_status. Qed.
Example C32_client_status_case : rd_put (c31_runtime 255) "Int8" 255 = rt_put le_runtime "u8" 255 /\
  client_call (c31_runtime 255) c31_dart 26 (c31_at c31_made) (c31_node "move_by") [dref 0; dint 4] (c31_then c31_made) = DThrows "StateError".
Proof.
  split; vm_compute; reflexivity.
Qed.
Print Assumptions C32_client_status.

(** ** C34: identities *)
(** An asynchronous call sends a request that carries the next identity, and returns a new future that is pending under exactly
    this identity (an older pending call of the same identity, if any, is forgotten). *)
Theorem C34_client_call : forall ast items C sc D U cd node fuel a V s (P : nat -> Prop) d vs ws,
  let nodes := find_fn_nodes ast in let ds := schema_decls ast in let id := fn_id node in let z := w_last V id in let p := List.length (d_heap s) in
  client_file ast items C sc -> dlawful D U -> In node nodes -> fn_is_read node = false -> fn_is_async node = true ->
  shows C sc nodes (d_heap s) (d_tasks s) a V -> passed U items ds cd P (d_heap s) d vs ws (fn_args node) -> ~ P a -> 2 * d + 5 <= fuel ->
  exists h' V', client_call D items fuel a node ws s =
      DDone (dref p) (set_heap h' (set_dmem (sent (d_mem s) sc (fn_position node) (dart_async_request D U ds node z vs)) s)) /\
    shows C sc nodes h' (d_tasks s) a V' /\ nth_error h' p = Some (CDone None) /\
    w_pending V' id = filter (fun x => negb (Z.eqb (fst x) z)) (w_pending V id) ++ [(z, p)] /\ w_last V' id = rd_rotate D z /\
    (forall i, i <> id -> w_pending V' i = w_pending V i /\ w_last V' i = w_last V i) /\ w_stream V' = w_stream V /\ w_task V' = w_task V /\
    List.length h' = S p /\ (forall b, b < p -> b <> a -> b <> w_map V id -> nth_error h' b = nth_error (d_heap s) b).
Proof. exact lem_C34_client_call. Qed.

(** Two calls of [later], with the arguments 7 and 8. *)
Example C34_client_call_case : let node := c31_node "later" in let D := c31_runtime (-1) in
  let o1 := client_call D c31_dart 26 (c31_at c31_made) node [dint 7] (c31_then c31_made) in
  let o2 := client_call D c31_dart 26 (c31_at c31_made) node [dint 8] (c31_then o1) in
  In node (find_fn_nodes c31_ast) /\ fn_is_read node = false /\ fn_is_async node = true /\
  d_mem (c31_then o1) "svc" 2%Z "Server" = zs [255; 0; 0; 0; 0; 0; 0; 0; 0; 7]%Z /\
  d_mem (c31_then o2) "svc" 2%Z "Server" = zs [255; 1; 0; 0; 0; 0; 0; 0; 0; 8]%Z /\
  exists p1 p2, c31_at o1 = p1 /\ c31_at o2 = p2 /\ p1 <> p2 /\ nth_error (d_heap (c31_then o2)) p1 = Some (CDone None) /\ nth_error (d_heap (c31_then o2)) p2 = Some (CDone None).
Proof.
  cbv zeta.
  split; [vm_compute; tauto|].
  split; [reflexivity|].
  split; [reflexivity|].
  split; [vm_compute; reflexivity|].
  split; [vm_compute; reflexivity|].
  do 2 eexists.
  split; [reflexivity|].
  split; [reflexivity|].
  split; [vm_compute; discriminate|].
  split; vm_compute; reflexivity.
Qed.
Print Assumptions C34_client_call.

(** When a response arrives, the pending call with its identity, and no other, is completed, with the value of the response; a
    response whose identity is not pending completes nothing.  No other object changes. *)
Theorem C34_client_answer : forall ast items C sc D U cd node fuel a V s z v rest,
  let nodes := find_fn_nodes ast in let ds := schema_decls ast in let id := fn_id node in
  client_file ast items C sc -> dlawful D U -> dart_range "Int8" (rd_has_data D) = true -> In node nodes -> fn_is_read node = false -> fn_is_async node = true ->
  shows C sc nodes (d_heap s) (d_tasks s) a V -> nth_error (d_tasks s) (w_task V id) = Some (Some (node_task C sc node a)) ->
  dart_range "Int64" z = true -> dart_returns U ds items cd node v = true -> 3 * depth v + 3 * cd + 4 <= fuel ->
  d_mem s sc (Z.of_N (fn_position node)) "Client" = dart_response D U ds node z v ++ rest ->
  exists w h' V', run_task D items fuel (w_task V id) s = DDone dnull (set_heap h' s) /\ returned U ds node v (d_heap s) h' w /\
    shows C sc nodes h' (d_tasks s) a V' /\
    (forall p, pending V id z p -> nth_error h' p = Some (CDone (Some w))) /\
    w_pending V' id = filter (fun x => negb (Z.eqb (fst x) z)) (w_pending V id) /\ (forall i, i <> id -> w_pending V' i = w_pending V i) /\
    w_last V' = w_last V /\ w_map V' = w_map V /\ w_ctrl V' = w_ctrl V /\ w_stream V' = w_stream V /\ w_task V' = w_task V /\
    List.length (d_heap s) <= List.length h' /\
    (forall b, b < List.length (d_heap s) -> b <> w_map V id -> ~ pending V id z b -> nth_error h' b = nth_error (d_heap s) b).
Proof. exact lem_C34_client_answer. Qed.
Print Assumptions C34_client_answer.

(** For every set of pending calls and every sequence of responses: each pending call is completed by the first response that
    carries its identity, with the value of that response; the calls without a response stay pending; nothing else changes. *)
Theorem C34_any_order : forall ast items C sc D U cd fuel a l V s,
  let nodes := find_fn_nodes ast in let ds := schema_decls ast in
  client_file ast items C sc -> dlawful D U -> dart_range "Int8" (rd_has_data D) = true ->
  shows C sc nodes (d_heap s) (d_tasks s) a V ->
  Forall (fun r => In (an_node r) nodes /\ fn_is_read (an_node r) = false /\ fn_is_async (an_node r) = true /\
    nth_error (d_tasks s) (w_task V (fn_id (an_node r))) = Some (Some (node_task C sc (an_node r) a)) /\
    dart_range "Int64" (an_id r) = true /\ dart_returns U ds items cd (an_node r) (an_value r) = true /\ 3 * depth (an_value r) + 3 * cd + 4 <= fuel) l ->
  exists h' mem' V', deliver D U items ds sc fuel (w_task V) l s = DDone dnull (set_heap h' (set_dmem mem' s)) /\
    shows C sc nodes h' (d_tasks s) a V' /\
    (forall node, In node nodes -> fn_is_read node = false -> fn_is_async node = true ->
      w_pending V' (fn_id node) = filter (fun x => match answer_to (fn_id node) (fst x) l with None => true | Some _ => false end) (w_pending V (fn_id node)) /\
      forall z p, pending V (fn_id node) z p ->
        match answer_to (fn_id node) z l with
        | Some r => exists w, nth_error h' p = Some (CDone (Some w)) /\ returned U ds node (an_value r) (d_heap s) h' w
        | None => nth_error h' p = Some (CDone None)
        end) /\
    List.length (d_heap s) <= List.length h' /\
    (forall b, b < List.length (d_heap s) -> ~ owned nodes V a b -> nth_error h' b = nth_error (d_heap s) b).
Proof. exact lem_C34_any_order. Qed.

(** The two calls are answered in the opposite order, the second one twice. *)
Example C34_any_order_case : let node := c31_node "later" in let D := c31_runtime (-1) in
  let l := [mk_answer node 1 (vnum "i64" 800) []; mk_answer node 0 (vnum "i64" 700) (zs [3]%Z); mk_answer node 1 (vnum "i64" 900) []] in
  exists a s p1 s1 p2 s2 W, call_new D c31_dart 9 "TestRpcClient" [(None, dsched)] c31_start = DDone (dref a) s /\
    client_call D c31_dart 26 a node [dint 7] s = DDone (dref p1) s1 /\ client_call D c31_dart 26 a node [dint 8] s1 = DDone (dref p2) s2 /\
    shows "TestRpcClient" "svc" (find_fn_nodes c31_ast) (d_heap s2) (d_tasks s2) a W /\ pending W "later" 0 p1 /\ pending W "later" 1 p2 /\
    exists h' mem', deliver D le_support c31_dart (schema_decls c31_ast) "svc" 22 (w_task W) l s2 = DDone dnull (set_heap h' (set_dmem mem' s2)) /\
      nth_error h' p1 = Some (CDone (Some (dint 700))) /\ nth_error h' p2 = Some (CDone (Some (dint 800))).
Proof.
  cbv zeta.
  assert (I : In (c31_node "later") (find_fn_nodes c31_ast)) by (vm_compute; tauto).
  assert (FI : fn_id (c31_node "later") = "later") by reflexivity.
  destruct (C31_new_client c31_ast c31_dart "TestRpcClient" "svc" (c31_runtime (-1)) le_support 9 c31_start c31_client (c31_dlawful _) ltac:(lia)) as (a & h & W0 & E0 & _ & S0 & _ & T0 & EM).
  cbv zeta in E0, S0, T0.
  destruct (EM "later") as (Z1 & Z2 & _).
  destruct (T0 _ I eq_refl) as (T1 & _).
  rewrite FI in T1.
  set (s := set_dtasks _ _) in E0.
  destruct (c34_view a W0 s S0 T1 Z1 Z2) as (p1 & s1 & p2 & s2 & W & E1 & E2 & SH & PW & TK).
  clearbody s.
  exists a, s, p1, s1, p2, s2, W.
  split; [exact E0|].
  split; [exact E1|].
  split; [exact E2|].
  split; [exact SH|].
  assert (Q1 : pending W "later" 0 p1) by (unfold pending; rewrite PW; now left).
  assert (Q2 : pending W "later" 1 p2) by (unfold pending; rewrite PW; right; now left).
  split; [exact Q1|].
  split; [exact Q2|].
  destruct (C34_any_order c31_ast c31_dart "TestRpcClient" "svc" (c31_runtime (-1)) le_support 5 22 a
    [mk_answer (c31_node "later") 1 (vnum "i64" 800) []; mk_answer (c31_node "later") 0 (vnum "i64" 700) (zs [3]%Z); mk_answer (c31_node "later") 1 (vnum "i64" 900) []] W s2
    c31_client (c31_dlawful _) eq_refl SH) as (h' & mem' & W' & E & _ & X & _).
  - rewrite Forall_forall.
  intros r J.
  assert (EN : an_node r = c31_node "later") by (destruct J as [<-|[<-|[<-|[]]]]; reflexivity).
  rewrite EN, FI.
  split; [exact I|].
  split; [reflexivity|].
  split; [reflexivity|].
  split; [exact TK|].
  clear - J.
  destruct J as [<-|[<-|[<-|[]]]]; (split; [reflexivity|]); (split; [vm_compute; reflexivity|vm_compute; lia]).
  - exists h', mem'.
  split; [exact E|].
  destruct (X _ I eq_refl eq_refl) as (_ & Y).
  rewrite FI in Y.
  destruct (Y 0%Z p1 Q1) as (w1 & Y1 & R1).
  destruct (Y 1%Z p2 Q2) as (w2 & Y2 & R2).
  rewrite Y1, Y2.
  clear - R1 R2.
  unfold returned in R1, R2.
  replace (fn_return (c31_node "later")) with (Some (TyInteger "i64" 8 true)) in * by (vm_compute; reflexivity).
  cbn in R1, R2.
  rewrite R1, R2.
  split; reflexivity.
Qed.
Print Assumptions C34_any_order.

(** The whole conversation: the client calls, the handler accepts the request (in any state of the server that holds the request),
    the server function completes later (in any state of the server), the client reads the response later (in any state of the
    client in which the call is still pending): exactly this call is completed, with exactly the value that the server function
    returned for exactly the arguments of the call. *)
Theorem C34_round_trip : forall ast models rust_file items C sc R V D U cd node fuel dfuel a W s (P : nat -> Prop) d vs ws,
  let nodes := find_fn_nodes ast in let ds := schema_decls ast in let rds := rust_decls ast true true in
  let id := fn_id node in let addr := Z.of_N (fn_position node) in let z := w_last W id in let p := List.length (d_heap s) in
  rpc_file ast models true rust_file -> client_file ast items C sc -> lawful R -> dlawful D U -> agree R D U -> same_status D ->
  In node nodes -> fn_is_read node = false -> fn_is_async node = true -> sv_async V id = true ->
  in_range "i64" z = true -> arguments R rds node vs = true -> passed U items ds cd P (d_heap s) d vs ws (fn_args node) -> ~ P a -> args_portable ds node vs = true ->
  RpcFacts.within fuel vs -> fuel > 1 -> 2 * d + 5 <= dfuel -> shows C sc nodes (d_heap s) (d_tasks s) a W ->
  exists h' W' mem, client_call D items dfuel a node ws s = DDone (dref p) (set_heap h' (set_dmem mem s)) /\
    shows C sc nodes h' (d_tasks s) a W' /\ pending W' id z p /\ nth_error h' p = Some (CDone None) /\
    (forall sc' a' side, (sc', a', side) <> (sc, addr, "Server") -> mem sc' a' side = d_mem s sc' a' side) /\
    forall q, s_mem q sc addr "Server" = mem sc addr "Server" ->
    exists q' task, call_fn R V rust_file fuel (handler_name node) (async_args sc addr) q = Done (bool_val true) q' /\
      s_tasks q' = s_tasks q ++ [task] /\ s_log q' = s_log q /\
      forall q2 i v, nth_error (s_tasks q2) i = Some task -> sv_call V (List.length (s_log q2)) id vs = Some v ->
        is_result R rds node v = true -> dart_returns U ds items cd node v = true -> result_portable ds node v = true ->
        depth v <= fuel -> 3 * depth v + 3 * cd + 4 <= dfuel ->
      exists q3, complete R V rust_file fuel i q2 = Done vunit q3 /\ s_log q3 = s_log q2 ++ [mk_called id vs (s_mem q2)] /\
        forall s2 W2, shows C sc nodes (d_heap s2) (d_tasks s2) a W2 -> pending W2 id z p ->
          nth_error (d_tasks s2) (w_task W2 id) = Some (Some (node_task C sc node a)) ->
          d_mem s2 sc addr "Client" = s_mem q3 sc addr "Client" ->
        exists w h2, run_task D items dfuel (w_task W2 id) s2 = DDone dnull (set_heap h2 s2) /\
          nth_error h2 p = Some (CDone (Some w)) /\ returned U ds node v (d_heap s2) h2 w /\
          (forall b, b < List.length (d_heap s2) -> b <> p -> b <> w_map W2 id -> nth_error h2 b = nth_error (d_heap s2) b).
Proof. exact lem_C34_round_trip. Qed.

(** The first of the two calls, served and answered by the generated Rust code. *)
Example C34_round_trip_case : let node := c31_node "later" in
  let q := set_mem (d_mem (c31_then c34_first)) (c31_state []) in
  match call_fn le_runtime c31_service c31_items 5 (handler_name node) (async_args "svc" 2) q with
  | Done _ q' =>
      match complete le_runtime c31_service c31_items 5 0 q' with
      | Done _ q3 =>
          let s2 := set_dmem (fun sc a side => if String.eqb side "Client" then s_mem q3 sc a side else []) (c31_then c34_second) in
          nth_error (d_tasks s2) 0 = Some (Some (node_task "TestRpcClient" "svc" node (c31_at c31_made))) /\
          let s3 := c31_then (run_task (c31_runtime (-1)) c31_dart 22 0 s2) in
          nth_error (d_heap s3) (c31_at c34_first) = Some (CDone (Some (dint 77))) /\ nth_error (d_heap s3) (c31_at c34_second) = Some (CDone None)
      | _ => False
      end
  | _ => False
  end.
Proof.
  vm_compute.
  repeat split; reflexivity.
Qed.
Print Assumptions C34_round_trip.

(** A buffer without a response changes nothing. *)
Theorem C34_client_idle : forall ast items C sc D fuel a V s node z r,
  let nodes := find_fn_nodes ast in
  client_file ast items C sc -> In node nodes -> 1 <= fuel ->
  shows C sc nodes (d_heap s) (d_tasks s) a V -> nth_error (d_tasks s) (w_task V (fn_id node)) = Some (Some (node_task C sc node a)) ->
  rd_get D "Int8" (d_mem s sc (Z.of_N (fn_position node)) "Client") = Some (z, r) -> z <> rd_has_data D ->
  run_task D items fuel (w_task V (fn_id node)) s = DDone dnull s.
Proof. exact lem_C34_client_idle. Qed.
Example C34_client_idle_case : exists k, nth_error (d_tasks (c31_then c34_second)) k = Some (Some (node_task "TestRpcClient" "svc" (c31_node "later") (c31_at c31_made))) /\
  let s := set_dmem (fun _ _ _ => zs [0]%Z) (c31_then c34_second) in
  rd_get (c31_runtime (-1)) "Int8" (d_mem s "svc" 2%Z "Client") = Some (0%Z, []) /\ run_task (c31_runtime (-1)) c31_dart 5 k s = DDone dnull s.
Proof.
  exists 0.
  split; [vm_compute; reflexivity|].
  split; vm_compute; reflexivity.
Qed.
Print Assumptions C34_client_idle.

Theorem C34_every_response_arrives_refuted : exists a s0 p1 s1 p2 s2 q1 q2 q3 q4,
  call_new (c31_runtime (-1)) c31_dart 9 "TestRpcClient" [(None, dsched)] c31_start = DDone (dref a) s0 /\
  client_call (c31_runtime (-1)) c31_dart 26 a (c31_node "later") [dint 7] s0 = DDone (dref p1) s1 /\
  c34_handle (d_mem s1) (c31_state []) = Done (bool_val true) q1 /\
  client_call (c31_runtime (-1)) c31_dart 26 a (c31_node "later") [dint 8] s1 = DDone (dref p2) s2 /\
  c34_handle (d_mem s2) q1 = Done (bool_val true) q2 /\
  complete le_runtime c31_service c31_items 5 0 q2 = Done vunit q3 /\ complete le_runtime c31_service c31_items 5 0 q3 = Done vunit q4 /\
  map (fun c => (cl_fn c, cl_args c)) (s_log q4) = [("later", [vnum "u8" 7]); ("later", [vnum "u8" 8])] /\ s_tasks q4 = [] /\
  forall n, exists s', c34_runs (S n) (set_dmem (s_mem q4) s2) = DDone dnull s' /\
    nth_error (d_heap s') p1 = Some (CDone None) /\ nth_error (d_heap s') p2 = Some (CDone (Some (dint 77))).
Proof. exact lem_C34_every_response_arrives_refuted. Qed.
Print Assumptions C34_every_response_arrives_refuted.

(** ** C31: both sides use the same numbers *)
(** For every method, the handler of the method is registered for one number of the scope; the task of a new client that belongs to
    this method listens on the buffer of that number, and a call of the method writes to the buffer of that number and takes the
    response from it. *)
Theorem C31_same_numbers : forall ast models buffers rust_file items C sc R V D U fuel q,
  let nodes := find_fn_nodes ast in let ds := schema_decls ast in
  rust_ready ast = true -> file_items ast models buffers true rust_file -> rpc_ok ast buffers = true ->
  client_file ast items C sc -> dlawful D U ->
  exists regs, call_fn R V rust_file fuel "register_rpc" [vref vruntime; vref vaddresses] q =
      Done vunit (set_regs (s_regs q ++ regs) (set_scopes (s_scopes q ++ [sc]) q)) /\
    List.length regs = List.length nodes /\
    forall node, In node nodes -> exists f g addr, In (f, g, sc, addr, handler_name node) regs /\
      (forall f' g' sc' addr', In (f', g', sc', addr', handler_name node) regs -> sc' = sc /\ addr' = addr) /\
      (is_async_or_read node = true -> forall dfuel s, 3 <= dfuel -> exists a s' i t,
         call_new D items dfuel C [(None, dsched)] s = DDone (dref a) s' /\ nth_error (d_tasks s') i = Some (Some t) /\
         t = node_task C sc node a /\ tk_scope t = sc /\ tk_address t = addr /\ tk_side t = "Client") /\
      (fn_is_read node = false -> forall cd dfuel a W s (P : nat -> Prop) d vs ws, shows C sc nodes (d_heap s) (d_tasks s) a W ->
         passed U items ds cd P (d_heap s) d vs ws (fn_args node) -> ~ P a -> 2 * d + 5 <= dfuel ->
         exists b, let mem := upd_mem (d_mem s) sc addr "Server" b in
           (fn_is_async node = true -> exists p h', client_call D items dfuel a node ws s = DDone (dref p) (set_heap h' (set_dmem mem s))) /\
           (fn_is_async node = false ->
             (rd_loop D (d_loops s) mem = None -> client_call D items dfuel a node ws s = DThrows "ServerError") /\
             (forall mem', rd_loop D (d_loops s) mem = Some mem' ->
               (fn_return node = None -> exists s', client_call D items dfuel a node ws s = DDone dnull s') /\
               (forall z r, fn_return node <> None -> rd_get D "Int8" (mem' sc addr "Client") = Some (z, r) -> z <> rd_has_data D ->
                 client_call D items dfuel a node ws s = DThrows "StateError")))).
Proof. exact lem_C31_same_numbers. Qed.
Example C31_same_numbers_case : exists regs, call_fn le_runtime c31_service c31_items 5 "register_rpc" [vref vruntime; vref vaddresses] (c31_state []) =
    Done vunit (set_regs regs (set_scopes ["svc"] (c31_state []))) /\
  map (fun f => existsb (fun '(_, _, sc, a, h) => (String.eqb sc "svc" && Z.eqb a (Z.of_N (fn_position (c31_node f))) && String.eqb h (handler_name (c31_node f)))%bool) regs)
    ["move_by"; "ping"; "later"; "where_am_i"; "next_point"; "count"] = [true; true; true; true; true; true] /\
  map (option_map (fun t => (tk_scope t, tk_address t))) (d_tasks (c31_then c31_made)) = [Some ("svc", 2%Z); Some ("svc", 3%Z); Some ("svc", 4%Z); Some ("svc", 5%Z)].
Proof.
  eexists.
  split; [vm_compute; reflexivity|].
  split; vm_compute; reflexivity.
Qed.
Print Assumptions C31_same_numbers.

(** ** C47: streams *)
(** A value that arrives for a read method is added to the stream of that method and to no other. *)
Theorem C47_stream_adds : forall ast items C sc D U cd node fuel a V s v rest,
  let nodes := find_fn_nodes ast in let ds := schema_decls ast in let id := fn_id node in
  client_file ast items C sc -> dlawful D U -> dart_range "Int8" (rd_has_data D) = true -> In node nodes -> fn_is_read node = true ->
  shows C sc nodes (d_heap s) (d_tasks s) a V -> nth_error (d_tasks s) (w_task V id) = Some (Some (node_task C sc node a)) ->
  dart_returns U ds items cd node v = true -> 3 * depth v + 3 * cd + 4 <= fuel ->
  d_mem s sc (Z.of_N (fn_position node)) "Client" = rd_put D "Int8" (rd_has_data D) ++ dart_result D U ds node v ++ rest ->
  (snd (w_stream V id) = false -> run_task D items fuel (w_task V id) s = DThrows "StateError") /\
  (snd (w_stream V id) = true -> exists w h' V', run_task D items fuel (w_task V id) s = DDone dnull (set_heap h' s) /\
    returned U ds node v (d_heap s) h' w /\ shows C sc nodes h' (d_tasks s) a V' /\
    w_stream V' id = (fst (w_stream V id) ++ [w], true) /\ (forall i, i <> id -> w_stream V' i = w_stream V i) /\
    w_last V' = w_last V /\ w_map V' = w_map V /\ w_pending V' = w_pending V /\ w_ctrl V' = w_ctrl V /\ w_task V' = w_task V /\
    changes (d_heap s) h' [w_ctrl V id]).
Proof. exact lem_C47_stream_adds. Qed.

(** The stream of [where_am_i] is the second task of the client. *)
Example C47_stream_adds_case : let node := c31_node "where_am_i" in let D := c31_runtime (-1) in
  let s := set_dmem (fun _ _ _ => zs [255; 1; 0; 0; 0; 200; 9]%Z) (c31_then c31_made) in
  nth_error (d_tasks s) 1 = Some (Some (node_task "TestRpcClient" "svc" node (c31_at c31_made))) /\
  d_mem s "svc" 3%Z "Client" = rd_put D "Int8" (rd_has_data D) ++ dart_result D le_support (schema_decls c31_ast) node (c31_point 1 200) ++ zs [9]%Z /\
  exists c p, nth_error (d_heap s) c = Some (CStream [] true) /\ nth_error (d_heap (c31_then (run_task D c31_dart 26 1 s))) c = Some (CStream [dref p] true) /\
    nth_error (d_heap (c31_then (run_task D c31_dart 26 1 s))) p = Some (CObj "Point" [("x", dint 1); ("y", dint (-56))]).
Proof.
  cbv zeta.
  split; [vm_compute; reflexivity|].
  split; [vm_compute; reflexivity|].
  exists 2.
  eexists.
  split; [vm_compute; reflexivity|].
  split; [vm_compute; reflexivity|vm_compute; reflexivity].
Qed.
Print Assumptions C47_stream_adds.

(** What the server function of a read method returned arrives on the stream of the client: first a read that is not asynchronous. *)
Theorem C47_read_round_trip : forall ast models rust_file items C sc R V D U cd node fuel dfuel a W s q v,
  let nodes := find_fn_nodes ast in let ds := schema_decls ast in let rds := rust_decls ast true true in
  let id := fn_id node in let addr := Z.of_N (fn_position node) in
  rpc_file ast models true rust_file -> client_file ast items C sc -> dlawful D U -> agree R D U -> same_status D ->
  In node nodes -> fn_is_read node = true -> fn_is_async node = false -> sv_async V id = false ->
  match fn_return node with Some ty => Wire.prim_name ty = None | None => True end ->
  sv_call V (List.length (s_log q)) id [] = Some (vopt (Some v)) -> is_result R rds node v = true -> depth v <= fuel ->
  dart_returns U ds items cd node v = true -> result_portable ds node v = true -> 3 * depth v + 3 * cd + 4 <= dfuel ->
  exists q', call_fn R V rust_file fuel (handler_name node) (async_args sc addr) q = Done (bool_val true) q' /\
    s_log q' = s_log q ++ [mk_called id [] (s_mem q)] /\
    (shows C sc nodes (d_heap s) (d_tasks s) a W -> nth_error (d_tasks s) (w_task W id) = Some (Some (node_task C sc node a)) ->
     snd (w_stream W id) = true -> d_mem s sc addr "Client" = s_mem q' sc addr "Client" ->
     exists w h' W', run_task D items dfuel (w_task W id) s = DDone dnull (set_heap h' s) /\ returned U ds node v (d_heap s) h' w /\
       shows C sc nodes h' (d_tasks s) a W' /\ w_stream W' id = (fst (w_stream W id) ++ [w], true) /\ (forall i, i <> id -> w_stream W' i = w_stream W i)).
Proof. exact lem_C47_read_round_trip. Qed.
Example C47_read_round_trip_case : let node := c31_node "where_am_i" in let D := c31_runtime (-1) in
  fn_is_read node = true /\ fn_is_async node = false /\ sv_call c31_service 0 "where_am_i" [] = Some (vopt (Some (c31_point 1 2))) /\
  match call_fn le_runtime c31_service c31_items 5 (handler_name node) (async_args "svc" 3) (c31_state []) with
  | Done _ q =>
      let h := d_heap (c31_then (run_task D c31_dart 26 1 (set_dmem (s_mem q) (c31_then c31_made)))) in
      match nth_error h 2 with Some (CStream [dref p] true) => nth_error h p | _ => None end = Some (CObj "Point" [("x", dint 1); ("y", dint 2)])
  | _ => False
  end.
Proof.
  vm_compute.
  repeat split; reflexivity.
Qed.
Print Assumptions C47_read_round_trip.

(** An asynchronous read: the value that the server function returned, whenever it completes. *)
Theorem C47_async_read_round_trip : forall ast models rust_file items C sc R V D U cd node z rest fuel dfuel a q,
  let nodes := find_fn_nodes ast in let ds := schema_decls ast in let rds := rust_decls ast true true in
  let id := fn_id node in let addr := Z.of_N (fn_position node) in
  rpc_file ast models true rust_file -> client_file ast items C sc -> lawful R -> dlawful D U -> agree R D U -> same_status D ->
  In node nodes -> fn_is_read node = true -> fn_is_async node = true -> sv_async V id = true ->
  match fn_return node with Some ty => Wire.prim_name ty = None | None => True end ->
  rt_get R "u8" (s_mem q sc addr "Server") = Some (z, rest) -> z <> 255%Z ->
  exists q' task, call_fn R V rust_file fuel (handler_name node) (async_args sc addr) q = Done (bool_val true) q' /\
    s_tasks q' = s_tasks q ++ [task] /\
    forall q2 i v, nth_error (s_tasks q2) i = Some task -> sv_call V (List.length (s_log q2)) id [] = Some (vopt (Some v)) ->
      is_result R rds node v = true -> depth v <= fuel -> dart_returns U ds items cd node v = true -> result_portable ds node v = true -> 3 * depth v + 3 * cd + 4 <= dfuel ->
    exists q3, complete R V rust_file fuel i q2 = Done vunit q3 /\
      forall s W, shows C sc nodes (d_heap s) (d_tasks s) a W -> nth_error (d_tasks s) (w_task W id) = Some (Some (node_task C sc node a)) ->
        snd (w_stream W id) = true -> d_mem s sc addr "Client" = s_mem q3 sc addr "Client" ->
      exists w h' W', run_task D items dfuel (w_task W id) s = DDone dnull (set_heap h' s) /\ returned U ds node v (d_heap s) h' w /\
        shows C sc nodes h' (d_tasks s) a W' /\ w_stream W' id = (fst (w_stream W id) ++ [w], true) /\ (forall i, i <> id -> w_stream W' i = w_stream W i).
Proof. exact lem_C47_async_read_round_trip. Qed.
Example C47_async_read_round_trip_case : let node := c31_node "next_point" in let D := c31_runtime (-1) in
  fn_is_read node = true /\ fn_is_async node = true /\ sv_async c31_service "next_point" = true /\
  match call_fn le_runtime c31_service c31_items 5 (handler_name node) (async_args "svc" 4) (set_log [mk_called "ping" [] (fun _ _ _ => [])] (c31_state (zs [0]%Z))) with
  | Done _ q' =>
      match complete le_runtime c31_service c31_items 5 0 q' with
      | Done _ q =>
          let h := d_heap (c31_then (run_task D c31_dart 26 2 (set_dmem (s_mem q) (c31_then c31_made)))) in
          match nth_error h 3 with Some (CStream [dref p] true) => nth_error h p | _ => None end = Some (CObj "Point" [("x", dint 8); ("y", dint 9)])
      | _ => False
      end
  | _ => False
  end.
Proof.
  vm_compute.
  repeat split; reflexivity.
Qed.
Print Assumptions C47_async_read_round_trip.

(** The client never clears the response: if the scheduler runs the task again before the server wrote something new, an asynchronous
    response changes nothing more, but the value of a read is added to the stream a second time. *)
Theorem C47_repeated_read : forall ast items C sc D U cd node fuel a V s v rest,
  let nodes := find_fn_nodes ast in let ds := schema_decls ast in let id := fn_id node in
  client_file ast items C sc -> dlawful D U -> dart_range "Int8" (rd_has_data D) = true -> In node nodes -> fn_is_read node = true ->
  shows C sc nodes (d_heap s) (d_tasks s) a V -> nth_error (d_tasks s) (w_task V id) = Some (Some (node_task C sc node a)) ->
  dart_returns U ds items cd node v = true -> 3 * depth v + 3 * cd + 4 <= fuel -> snd (w_stream V id) = true ->
  d_mem s sc (Z.of_N (fn_position node)) "Client" = rd_put D "Int8" (rd_has_data D) ++ dart_result D U ds node v ++ rest ->
  exists w1 w2 h' V', dbind (run_task D items fuel (w_task V id)) (fun _ => run_task D items fuel (w_task V id)) s = DDone dnull (set_heap h' s) /\
    shows C sc nodes h' (d_tasks s) a V' /\ w_stream V' id = (fst (w_stream V id) ++ [w1; w2], true) /\
    returned U ds node v (d_heap s) h' w1 /\ returned U ds node v (d_heap s) h' w2.
Proof. exact lem_C47_repeated_read. Qed.
Example C47_repeated_read_case : let D := c31_runtime (-1) in let s := set_dmem (fun _ _ _ => zs [255; 1; 0; 0; 0; 2]%Z) (c31_then c31_made) in
  let h := d_heap (c31_then (run_task D c31_dart 26 1 (c31_then (run_task D c31_dart 26 1 s)))) in
  match nth_error h 2 with Some (CStream [dref p; dref q] true) => (negb (Nat.eqb p q), nth_error h p, nth_error h q) | _ => (false, None, None) end =
    (true, Some (CObj "Point" [("x", dint 1); ("y", dint 2)]), Some (CObj "Point" [("x", dint 1); ("y", dint 2)])).
Proof.
  vm_compute.
  reflexivity.
Qed.
Print Assumptions C47_repeated_read.

(** ** C48: disconnecting *)
(** After [disconnect()] no task of the client is left with the scheduler and every stream of the client is closed; what the streams
    held, the pending calls, the tasks of others and all other objects are as before. *)
Theorem C48_disconnect : forall ast items C sc D U fuel a V s,
  let nodes := find_fn_nodes ast in
  client_file ast items C sc -> dlawful D U -> 2 <= fuel -> shows C sc nodes (d_heap s) (d_tasks s) a V ->
  exists h' ts' V', method D items (dcalls_upto D items fuel) (dref a) "disconnect" [] s = DDone dnull (set_dtasks ts' (set_heap h' s)) /\
    shows C sc nodes h' ts' a V' /\
    (forall node, In node nodes -> is_async_or_read node = true -> nth_error ts' (w_task V (fn_id node)) = Some None) /\
    (forall node, In node nodes -> fn_is_read node = true -> snd (w_stream V' (fn_id node)) = false) /\
    (forall id, fst (w_stream V' id) = fst (w_stream V id)) /\ w_pending V' = w_pending V /\ w_last V' = w_last V /\
    (forall k, (forall node, In node nodes -> is_async_or_read node = true -> k <> w_task V (fn_id node)) -> nth_error ts' k = nth_error (d_tasks s) k) /\
    (forall b, (forall node, In node nodes -> fn_is_read node = true -> b <> w_ctrl V (fn_id node)) -> nth_error h' b = nth_error (d_heap s) b).
Proof. exact lem_C48_disconnect. Qed.

(** A client of the schema next to a task of someone else, after one value on the stream of [where_am_i]. *)
Example C48_disconnect_case : let D := c31_runtime (-1) in
  let s := c31_then (run_task D c31_dart 26 1 (set_dmem (fun _ _ _ => zs [255; 1; 0; 0; 0; 2]%Z) (c31_then c31_made))) in
  let s0 := set_dtasks (d_tasks s ++ [Some (mk_task "other" 7 "Client" dnull)]) s in
  let o := method D c31_dart (dcalls_upto D c31_dart 9) (dref (c31_at c31_made)) "disconnect" [] s0 in
  d_tasks (c31_then o) = [None; None; None; None; Some (mk_task "other" 7 "Client" dnull)] /\
  map (fun k => match nth_error (d_heap (c31_then o)) k with Some (CStream l b) => (List.length l, b) | _ => (99, true) end) [2; 3; 4] = [(1, false); (0, false); (0, false)].
Proof.
  split; vm_compute; reflexivity.
Qed.
Print Assumptions C48_disconnect.
