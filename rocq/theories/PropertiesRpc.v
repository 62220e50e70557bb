(** Property theorems about the generated Rust remote-call code: C31 (registration), C32 (synchronous calls), C33 (served once),
    C34 (identity of asynchronous responses), C35 (blocked reads), C36 (references).  The generated text is read back as a Rust
    file and that file is run by the interpreter of RustSem.  After each theorem, a concrete case that meets its hypotheses,
    and its axioms. *)
Require Import Coq.Strings.String Coq.Strings.Ascii.
Require Import Coq.NArith.NArith Coq.ZArith.ZArith Coq.Lists.List Coq.Bool.Bool Coq.Arith.PeanoNat.
Require Import Coq.micromega.Lia Coq.micromega.ZifyBool Coq.micromega.ZifyN Coq.micromega.ZifyNat.
Require Import Verif.Base Verif.Ast Verif.Lexer Verif.Parser Verif.ParseFacts Verif.Code Verif.NumText Verif.RustSyntax Verif.RustGen Verif.RustTree Verif.RustFile Verif.RustWf Verif.RustSem Verif.Wire Verif.RustCodec
  Verif.RustRpc Verif.CodecFacts.
Require Import Verif.RpcFacts.
Import ListNotations.
Local Open Scope string_scope.
Local Open Scope list_scope.

Theorem C31_registration : forall ast models buffers items R V fuel q,
  rust_ready ast = true -> file_items ast models buffers true items -> rpc_ok ast buffers = true -> find_fn_nodes ast <> [] ->
  exists sc ty, find_directive_value ast "id" = Some (ConstLiteral (StringLit sc) ty) /\
  call_fn R V items fuel "register_rpc" [vref vruntime; vref vaddresses] q =
  Done vunit (set_regs (s_regs q ++ map (fun n => registration n sc) (find_fn_nodes ast)) (set_scopes (s_scopes q ++ [sc]) q)).
Proof. exact lem_C31_registration. Qed.
Example C31_case : rust_ready c31_ast = true /\ file_items c31_ast true true true c31_items /\ rpc_ok c31_ast true = true /\
  map (fun n => registration n "svc") (find_fn_nodes c31_ast) =
  [("register_sync_rpc_method", "sync_group_address", "svc", 0%Z, "move_by_rpc_handler");
   ("register_sync_rpc_method", "sync_group_address", "svc", 1%Z, "ping_rpc_handler");
   ("register_async_rpc_method", "async_group_address", "svc", 2%Z, "later_rpc_handler");
   ("register_async_rpc_method", "read_group_address", "svc", 3%Z, "where_am_i_rpc_handler");
   ("register_async_rpc_method", "read_group_address", "svc", 4%Z, "next_point_rpc_handler");
   ("register_async_rpc_method", "read_group_address", "svc", 5%Z, "count_rpc_handler")].
Proof.
  split; [vm_compute; reflexivity|].
  split; [eexists; split; vm_compute; reflexivity|].
  split; vm_compute; reflexivity.
Qed.
Print Assumptions C31_registration.

Theorem C31_numbers_distinct : forall ts ast models buffers items R V fuel q q' r,
  parse ts = Ok ast -> rust_ready ast = true -> file_items ast models buffers true items -> rpc_ok ast buffers = true -> find_fn_nodes ast <> [] ->
  s_regs q = [] -> call_fn R V items fuel "register_rpc" [vref vruntime; vref vaddresses] q = Done r q' ->
  NoDup (map (fun '(_, _, _, a, _) => a) (s_regs q')) /\ NoDup (map (fun '(_, _, _, _, h) => h) (s_regs q')) /\
  List.length (s_regs q') = List.length (find_fn_nodes ast).
Proof. exact lem_C31_numbers_distinct. Qed.
Print Assumptions C31_numbers_distinct.

(** One run of the handler on a request: the service function is called once, with exactly the arguments of the request, after the
    request flag was cleared; the response is the flag 255 followed by the result; nothing else changes. *)
Theorem C32_sync_call : forall ast models buffers items R V node vs v rest fuel q sc a,
  let ds := rust_decls ast buffers true in
  rpc_file ast models buffers items -> lawful R ->
  In node (find_fn_nodes ast) -> fn_is_read node = false -> fn_is_async node = false -> sv_async V (fn_id node) = false ->
  arguments R ds node vs = true -> within fuel (v :: vs) ->
  s_mem q sc a "Server" = request_bytes R ds vs ++ rest ->
  sv_call V (List.length (s_log q)) (fn_id node) vs = Some v -> is_result R ds node v = true ->
  exists q' mem old old', call_fn R V items fuel (handler_name node) (sync_args sc a) q = Done (bool_val true) q' /\
    s_log q' = s_log q ++ [mk_called (fn_id node) vs mem] /\
    mem sc a "Server" = rt_put R "u8" 0 ++ old /\ mem sc a "Client" = s_mem q sc a "Client" /\
    s_mem q' sc a "Server" = rt_put R "u8" 0 ++ old /\
    s_mem q' sc a "Client" = rt_put R "u8" 255 ++ response_bytes R ds node v ++ old' /\
    (forall sc' a' side, (sc', a') <> (sc, a) \/ (side <> "Server" /\ side <> "Client") -> s_mem q' sc' a' side = s_mem q sc' a' side) /\
    s_rd q' = s_rd q /\ s_wr q' = s_wr q /\ s_tasks q' = s_tasks q /\ s_scopes q' = s_scopes q /\ s_regs q' = s_regs q.
Proof. exact lem_C32_sync_call. Qed.
Example C32_case : let ds := rust_decls c31_ast true true in let node := c31_node "move_by" in let vs := [c31_point 1 2; vnum "i32" 4] in
  let q := c31_state (request_bytes le_runtime ds vs ++ zs [9; 9]%Z) in
  rpc_file c31_ast true true c31_items /\ In node (find_fn_nodes c31_ast) /\ arguments le_runtime ds node vs = true /\ within 5 (c31_point 5 6 :: vs) /\
  request_bytes le_runtime ds vs = zs [255; 1; 0; 0; 0; 2; 4; 0; 0; 0]%Z /\
  match call_fn le_runtime c31_service c31_items 5 (handler_name node) (sync_args "svc" 1) q with
  | Done v q' => v = bool_val true /\ map cl_args (s_log q') = [vs] /\ s_mem q' "svc" 1%Z "Client" = zs [255; 5; 0; 0; 0; 6]%Z /\
      s_mem q' "svc" 1%Z "Server" = zs [0; 1; 0; 0; 0; 2; 4; 0; 0; 0; 9; 9]%Z
  | _ => False
  end.
Proof.
  split; [exact c31_file|].
  split; [vm_compute; tauto|].
  split; [vm_compute; reflexivity|].
  split; [intros v [<-|[<-|[<-|[]]]]; apply Nat.ltb_lt; vm_compute; reflexivity|].
  split; vm_compute; repeat split; reflexivity.
Qed.
Print Assumptions C32_sync_call.

(** If the service function fails (panics), so does the handler. *)
Theorem C32_sync_call_panics : forall ast models buffers items R V node vs rest fuel q sc a,
  let ds := rust_decls ast buffers true in
  rpc_file ast models buffers items -> lawful R ->
  In node (find_fn_nodes ast) -> fn_is_read node = false -> fn_is_async node = false ->
  arguments R ds node vs = true -> within fuel vs -> fuel > 0 ->
  s_mem q sc a "Server" = request_bytes R ds vs ++ rest ->
  sv_call V (List.length (s_log q)) (fn_id node) vs = None ->
  call_fn R V items fuel (handler_name node) (sync_args sc a) q = Panics.
Proof. exact lem_C32_sync_call_panics. Qed.
Print Assumptions C32_sync_call_panics.

(** After a request was served, every later run of the handler, however many and whatever happens in between, returns [false],
    calls nothing and changes nothing, until something writes to the request buffer. *)
Theorem C33_sync_once : forall ast models buffers items R V node vs v rest fuel q q' sc a r l,
  let ds := rust_decls ast buffers true in
  rpc_file ast models buffers items -> lawful R ->
  In node (find_fn_nodes ast) -> fn_is_read node = false -> fn_is_async node = false -> sv_async V (fn_id node) = false ->
  arguments R ds node vs = true -> within fuel (v :: vs) ->
  s_mem q sc a "Server" = request_bytes R ds vs ++ rest ->
  sv_call V (List.length (s_log q)) (fn_id node) vs = Some v -> is_result R ds node v = true ->
  let run := call_fn R V items fuel (handler_name node) (sync_args sc a) in
  run q = Done r q' -> history run (fun s => s_mem s sc a "Server") q' l ->
  Forall (fun '(s, o) => o = Done (bool_val false) s) l.
Proof. exact lem_C33_sync_once. Qed.
Print Assumptions C33_sync_once.

(** Without a request nothing is ever called. *)
Theorem C33_idle : forall ast models buffers items R V node fuel q sc a l,
  rpc_file ast models buffers items -> In node (find_fn_nodes ast) -> fn_is_read node = false ->
  (exists z rest, rt_get R "u8" (s_mem q sc a "Server") = Some (z, rest) /\ z <> 255%Z) ->
  let args := if fn_is_async node then async_args sc a else sync_args sc a in
  history (call_fn R V items fuel (handler_name node) args) (fun s => s_mem s sc a "Server") q l ->
  Forall (fun '(s, o) => o = Done (bool_val false) s) l.
Proof. exact lem_C33_idle. Qed.
Example C33_case : let ds := rust_decls c31_ast true true in
  let run := call_fn le_runtime c31_service c31_items 5 (handler_name (c31_node "ping")) (sync_args "svc" 1) in
  match run (c31_state (request_bytes le_runtime ds [])) with
  | Done v q => v = bool_val true /\ List.length (s_log q) = 1 /\ history run (fun s => s_mem s "svc" 1%Z "Server") q [(q, run q); (q, run q)] /\ run q = Done (bool_val false) q
  | _ => False
  end.
Proof.
  cbv zeta.
  set (ds := rust_decls c31_ast true true).
  set (run := call_fn _ _ _ _ _ _).
  destruct (C32_sync_call c31_ast true true c31_items le_runtime c31_service (c31_node "ping") [] vunit [] 5 (c31_state (request_bytes le_runtime ds [])) "svc" 1%Z)
    as (q & mem & old & old' & E & LG & _ & _ & SV & _); try reflexivity.
  - exact c31_file.
  - exact le_lawful.
  - vm_compute.
  tauto.
  - intros v [<-|[]].
  cbn.
  lia.
  - fold run in E.
  rewrite E.
  assert (X : forall l, history run (fun s => s_mem s "svc" 1%Z "Server") q l -> Forall (fun '(s, o) => o = Done (bool_val false) s) l).
  { intros l H.
  eapply (C33_idle c31_ast true true c31_items le_runtime c31_service (c31_node "ping") 5 q "svc" 1%Z l c31_file); [vm_compute; tauto|reflexivity| |exact H].
  cbv beta.
  rewrite SV.
  exists 0%Z, old.
  split; [reflexivity|discriminate].
  }
    split; [reflexivity|].
  split; [rewrite LG; reflexivity|].
  assert (Y : run q = Done (bool_val false) q).
  { specialize (X [(q, run q)]).
  destruct (run q) as [v s| | | |] eqn:R.
  1: assert (H : history run (fun s => s_mem s "svc" 1%Z "Server") q [(q, run q)]) by (econstructor; [exact R|constructor]).
  2-5: assert (H : history run (fun s => s_mem s "svc" 1%Z "Server") q [(q, run q)]) by (apply h_stop; rewrite R; discriminate).
  all: rewrite R in H; specialize (X H); inversion X; subst; assumption.
  }
    split; [|exact Y].
  apply (h_run _ _ q (bool_val false) q); [exact Y|].
  apply (h_run _ _ q (bool_val false) q); [exact Y|].
  constructor.
Qed.
Print Assumptions C33_idle.

(** ** Asynchronous calls *)
(** An accepted request is cleared at once and leaves one task.  Whenever that task is completed, however many other tasks there
    are by then, it calls the service function once, with the arguments of its own request, and its response carries the identity
    of its own request. *)
Theorem C34_async_identity : forall ast models buffers items R V node id vs rest fuel q sc a,
  let ds := rust_decls ast buffers true in
  rpc_file ast models buffers items -> lawful R ->
  In node (find_fn_nodes ast) -> fn_is_read node = false -> fn_is_async node = true -> sv_async V (fn_id node) = true ->
  in_range "i64" id = true -> arguments R ds node vs = true -> within fuel vs -> fuel > 1 ->
  s_mem q sc a "Server" = async_request_bytes R ds id vs ++ rest ->
  exists q' old task, call_fn R V items fuel (handler_name node) (async_args sc a) q = Done (bool_val true) q' /\
    s_tasks q' = s_tasks q ++ [task] /\ s_log q' = s_log q /\
    s_mem q' sc a "Server" = rt_put R "u8" 0 ++ old /\
    (forall sc' a' side, (sc', a', side) <> (sc, a, "Server") -> s_mem q' sc' a' side = s_mem q sc' a' side) /\
    forall q2 i v, nth_error (s_tasks q2) i = Some task ->
      sv_call V (List.length (s_log q2)) (fn_id node) vs = Some v -> is_result R ds node v = true -> depth v <= fuel ->
      exists q3 old', complete R V items fuel i q2 = Done vunit q3 /\
        s_tasks q3 = firstn i (s_tasks q2) ++ skipn (S i) (s_tasks q2) /\
        s_log q3 = s_log q2 ++ [mk_called (fn_id node) vs (s_mem q2)] /\
        s_mem q3 sc a "Client" = rt_put R "u8" 255 ++ rt_put R "i64" id ++ response_bytes R ds node v ++ old' /\
        (forall sc' a' side, (sc', a', side) <> (sc, a, "Client") -> s_mem q3 sc' a' side = s_mem q2 sc' a' side).
Proof. exact lem_C34_async_identity. Qed.

(** Two requests, completed in the opposite order: each response carries its own identity. *)
Example C34_case : let ds := rust_decls c31_ast true true in let node := c31_node "later" in
  let write (b : bytes) (q : state) := set_mem (fun sc a side => if String.eqb side "Server" then b else s_mem q sc a side) q in
  let run := call_fn le_runtime c31_service c31_items 5 (handler_name node) (async_args "svc" 3) in
  let req id n := async_request_bytes le_runtime ds id [vnum "u8" n] in
  req 258%Z 7%Z = zs [255; 2; 1; 0; 0; 0; 0; 0; 0; 7]%Z /\ arguments le_runtime ds node [vnum "u8" 7] = true /\
  match run (c31_state (req 258%Z 7%Z)) with
  | Done _ q1 =>
      match run (write (req 259%Z 8%Z) q1) with
      | Done _ q2 =>
          match complete le_runtime c31_service c31_items 5 1 q2 with
          | Done _ q3 =>
              List.length (s_tasks q2) = 2 /\ s_mem q3 "svc" 3%Z "Client" = zs [255; 3; 1; 0; 0; 0; 0; 0; 0; 77; 0; 0; 0; 0; 0; 0; 0]%Z /\
              match complete le_runtime c31_service c31_items 5 0 q3 with
              | Done _ q4 => s_mem q4 "svc" 3%Z "Client" = zs [255; 2; 1; 0; 0; 0; 0; 0; 0; 77; 0; 0; 0; 0; 0; 0; 0]%Z /\ map cl_args (s_log q4) = [[vnum "u8" 8]; [vnum "u8" 7]] /\ s_tasks q4 = []
              | _ => False
              end
          | _ => False
          end
      | _ => False
      end
  | _ => False
  end.
Proof.
  vm_compute.
  repeat split; reflexivity.
Qed.
Print Assumptions C34_async_identity.

Theorem C33_async_once : forall ast models buffers items R V node id vs rest fuel q q' sc a r l,
  let ds := rust_decls ast buffers true in
  rpc_file ast models buffers items -> lawful R ->
  In node (find_fn_nodes ast) -> fn_is_read node = false -> fn_is_async node = true -> sv_async V (fn_id node) = true ->
  in_range "i64" id = true -> arguments R ds node vs = true -> within fuel vs -> fuel > 1 ->
  s_mem q sc a "Server" = async_request_bytes R ds id vs ++ rest ->
  let run := call_fn R V items fuel (handler_name node) (async_args sc a) in
  run q = Done r q' -> history run (fun s => s_mem s sc a "Server") q' l ->
  Forall (fun '(s, o) => o = Done (bool_val false) s) l.
Proof. exact lem_C33_async_once. Qed.
Print Assumptions C33_async_once.

(** ** Asynchronous reads *)
(** A run of an asynchronous read that is not busy marks it busy and leaves a task.  If the service function then returns nothing,
    no later run of the handler does anything, ever. *)
Theorem C35_none_blocks : forall ast models buffers items R V node z rest fuel q sc a,
  rpc_file ast models buffers items -> lawful R ->
  In node (find_fn_nodes ast) -> fn_is_read node = true -> fn_is_async node = true -> sv_async V (fn_id node) = true ->
  rt_get R "u8" (s_mem q sc a "Server") = Some (z, rest) -> z <> 255%Z ->
  let run := call_fn R V items fuel (handler_name node) (async_args sc a) in
  exists q' task, run q = Done (bool_val true) q' /\ s_tasks q' = s_tasks q ++ [task] /\ s_log q' = s_log q /\
    forall q2 i, nth_error (s_tasks q2) i = Some task -> s_mem q2 sc a "Server" = s_mem q' sc a "Server" ->
      sv_call V (List.length (s_log q2)) (fn_id node) [] = Some (vopt None) ->
      exists q3, complete R V items fuel i q2 = Done vunit q3 /\ s_mem q3 = s_mem q2 /\
        s_log q3 = s_log q2 ++ [mk_called (fn_id node) [] (s_mem q2)] /\
        forall l, history run (fun s => s_mem s sc a "Server") q3 l -> Forall (fun '(s, o) => o = Done (bool_val false) s) l.
Proof. exact lem_C35_none_blocks. Qed.
Example C35_case : let node := c31_node "next_point" in
  let run := call_fn le_runtime c31_service c31_items 5 (handler_name node) (async_args "svc" 5) in
  match run (c31_state (zs [0]%Z)) with
  | Done v q => v = bool_val true /\ List.length (s_tasks q) = 1 /\
      match complete le_runtime c31_service c31_items 5 0 q with
      | Done _ q' => s_mem q' "svc" 5%Z "Server" = zs [255]%Z /\ List.length (s_log q') = 1 /\
          match run q' with Done v q'' => v = bool_val false /\ List.length (s_log q'') = 1 /\ s_tasks q'' = [] | _ => False end
      | _ => False
      end
  | _ => False
  end.
Proof.
  vm_compute.
  repeat split; reflexivity.
Qed.
Print Assumptions C35_none_blocks.

(** If it returns a value that can be sent, the response holds it and the next run starts the function again. *)
Theorem C35_some_releases : forall ast models buffers items R V node z rest fuel q sc a,
  let ds := rust_decls ast buffers true in
  rpc_file ast models buffers items -> lawful R ->
  In node (find_fn_nodes ast) -> fn_is_read node = true -> fn_is_async node = true -> sv_async V (fn_id node) = true ->
  match fn_return node with Some ty => prim_name ty = None | None => True end ->
  rt_get R "u8" (s_mem q sc a "Server") = Some (z, rest) -> z <> 255%Z ->
  let run := call_fn R V items fuel (handler_name node) (async_args sc a) in
  exists q' task, run q = Done (bool_val true) q' /\ s_tasks q' = s_tasks q ++ [task] /\ s_log q' = s_log q /\
    (forall l, history run (fun s => s_mem s sc a "Server") q' l -> Forall (fun '(s, o) => o = Done (bool_val false) s) l) /\
    forall q2 i v, nth_error (s_tasks q2) i = Some task ->
      sv_call V (List.length (s_log q2)) (fn_id node) [] = Some (vopt (Some v)) -> is_result R ds node v = true -> depth v <= fuel ->
      exists q3 q4 old, complete R V items fuel i q2 = Done vunit q3 /\
        s_log q3 = s_log q2 ++ [mk_called (fn_id node) [] (s_mem q2)] /\
        s_mem q3 sc a "Client" = rt_put R "u8" 255 ++ response_bytes R ds node v ++ old /\
        run q3 = Done (bool_val true) q4 /\ s_tasks q4 = s_tasks q3 ++ [task].
Proof. exact lem_C35_some_releases. Qed.
Print Assumptions C35_some_releases.

(** ** References *)
(** The interpreter is stuck when a call of the buffer library gets a reference where a value is expected, or the reverse.  A
    synchronous read whose result can be sent runs to its end. *)
Theorem C36_read_runs : forall ast models buffers items R V node o fuel q sc a,
  let ds := rust_decls ast buffers true in
  rpc_file ast models buffers items ->
  In node (find_fn_nodes ast) -> fn_is_read node = true -> fn_is_async node = false -> sv_async V (fn_id node) = false ->
  match fn_return node with Some ty => prim_name ty = None | None => True end ->
  sv_call V (List.length (s_log q)) (fn_id node) [] = Some (vopt o) ->
  match o with Some v => is_result R ds node v = true /\ depth v <= fuel | None => True end ->
  exists q' old, call_fn R V items fuel (handler_name node) (async_args sc a) q = Done (bool_val (match o with Some _ => true | None => false end)) q' /\
    s_log q' = s_log q ++ [mk_called (fn_id node) [] (s_mem q)] /\
    s_mem q' sc a "Client" = match o with Some v => rt_put R "u8" 255 ++ response_bytes R ds node v | None => [] end ++ old /\
    (forall sc' a' side, (sc', a', side) <> (sc, a, "Client") -> s_mem q' sc' a' side = s_mem q sc' a' side).
Proof. exact lem_C36_read_runs. Qed.
Print Assumptions C36_read_runs.

(** A read that returns a number or a boolean passes a reference to the writer of plain values: the handler, and for an
    asynchronous read the task, is stuck as soon as there is a value to send.  (The Rust compiler rejects the file.) *)
Theorem C36_primitive_read_stuck : forall ast models buffers items R V node ty v fuel q sc a,
  rpc_file ast models buffers items ->
  In node (find_fn_nodes ast) -> fn_is_read node = true -> fn_is_async node = false -> sv_async V (fn_id node) = false ->
  fn_return node = Some ty -> prim_name ty <> None ->
  sv_call V (List.length (s_log q)) (fn_id node) [] = Some (vopt (Some v)) -> typed R (rust_decls ast buffers true) v ty = true ->
  call_fn R V items fuel (handler_name node) (async_args sc a) q = Stuck.
Proof. exact lem_C36_primitive_read_stuck. Qed.
Example C36_case : In (c31_node "count") (find_fn_nodes c31_ast) /\ option_map prim_name (fn_return (c31_node "count")) = Some (Some "i32") /\
  call_fn le_runtime c31_service c31_items 5 (handler_name (c31_node "count")) (async_args "svc" 6) (c31_state []) = Stuck /\
  match call_fn le_runtime c31_service c31_items 5 (handler_name (c31_node "where_am_i")) (async_args "svc" 4) (c31_state []) with
  | Done v q => v = bool_val true /\ s_mem q "svc" 4%Z "Client" = zs [255; 1; 0; 0; 0; 2]%Z
  | _ => False
  end.
Proof.
  split; [vm_compute; tauto|].
  vm_compute.
  repeat split; reflexivity.
Qed.
Print Assumptions C36_primitive_read_stuck.

Theorem C36_primitive_async_read_stuck : forall ast models buffers items R V node ty z rest fuel q sc a,
  rpc_file ast models buffers items ->
  In node (find_fn_nodes ast) -> fn_is_read node = true -> fn_is_async node = true -> sv_async V (fn_id node) = true ->
  fn_return node = Some ty -> prim_name ty <> None ->
  rt_get R "u8" (s_mem q sc a "Server") = Some (z, rest) -> z <> 255%Z ->
  exists q' task, call_fn R V items fuel (handler_name node) (async_args sc a) q = Done (bool_val true) q' /\ s_tasks q' = s_tasks q ++ [task] /\
    forall q2 i v, nth_error (s_tasks q2) i = Some task -> sv_call V (List.length (s_log q2)) (fn_id node) [] = Some (vopt (Some v)) ->
      typed R (rust_decls ast buffers true) v ty = true -> complete R V items fuel i q2 = Stuck.
Proof. exact lem_C36_primitive_async_read_stuck. Qed.
Print Assumptions C36_primitive_async_read_stuck.
