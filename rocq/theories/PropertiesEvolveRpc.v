(** Property theorems about remote calls between two versions of a schema: C55.  The client generated from one version calls the
    server generated from the other.  After each theorem, a concrete case that meets its hypotheses, and its axioms. *)
Require Import Coq.Strings.String Coq.Strings.Ascii.
Require Import Coq.NArith.NArith Coq.ZArith.ZArith Coq.Lists.List Coq.Bool.Bool Coq.Arith.PeanoNat.
Require Import Coq.micromega.Lia.
Require Import Verif.Base Verif.Ast Verif.Lexer Verif.Parser Verif.ParseFacts Verif.CaseConv Verif.Code Verif.NumText Verif.RustSyntax Verif.RustGen Verif.RustTree Verif.RustFile Verif.RustWf Verif.RustSem Verif.Wire Verif.RustCodec Verif.CodecFacts Verif.RustRpc Verif.RpcFacts.
Require Import Verif.DartSyntax Verif.DartGen Verif.DartTree Verif.DartFile Verif.DartWf Verif.DartSem Verif.DartWire Verif.DartRun Verif.DartShape Verif.DartCodec Verif.DartAgree Verif.DartFacts Verif.DartRpc Verif.DartRpcFacts.
Require Import Verif.EvolveSpec Verif.EvolveFacts Verif.EvolveDartFacts.
Require Import Verif.DefaultFacts.
Require Verif.EvolveRust Verif.EvolveDart Verif.EvolveRpc Verif.EvolveServer.
Require Import Verif.EvolveRpcFacts.
Import ListNotations.
Local Open Scope string_scope.
Local Open Scope list_scope.

(** Methods appended at the end keep the earlier ones as they are, with their numbers. *)
Theorem C55_same_numbers : forall ts ts' a b,
  parse ts = Ok a -> parse ts' = Ok b -> appended (find_fn_nodes a) (find_fn_nodes b) ->
  exists more, find_fn_nodes b = find_fn_nodes a ++ more /\
    (forall f g, In f (find_fn_nodes a) -> In g more -> fn_position g <> fn_position f).
Proof. exact lem_C55_same_numbers. Qed.
Example C55_same_numbers_case : compile_front c55_old = Ok c55_a /\ compile_front c55_new = Ok c55_b /\ appended (find_fn_nodes c55_a) (find_fn_nodes c55_b) /\
  map (fun f => (fn_id f, fn_position f)) (find_fn_nodes c55_b) = [("grow", 0%N); ("later", 1%N); ("last", 2%N); ("next", 3%N); ("count", 4%N)].
Proof.
  split; [vm_compute; reflexivity|].
  split; [vm_compute; reflexivity|].
  split; [eexists; vm_compute; reflexivity|vm_compute; reflexivity].
Qed.
Print Assumptions C55_same_numbers.

(** The later server registers the earlier handlers for the same numbers, and nothing else for them. *)
Theorem C55_registered : forall ts ts' a b models models' buffers buffers' items items' R V V' fuel q sc ty,
  parse ts = Ok a -> parse ts' = Ok b -> appended (find_fn_nodes a) (find_fn_nodes b) -> find_fn_nodes a <> [] ->
  rust_ready a = true -> file_items a models buffers true items -> rpc_ok a buffers = true ->
  rust_ready b = true -> file_items b models' buffers' true items' -> rpc_ok b buffers' = true ->
  find_directive_value a "id" = Some (ConstLiteral (StringLit sc) ty) -> find_directive_value b "id" = Some (ConstLiteral (StringLit sc) ty) ->
  exists regs more,
    call_fn R V items fuel "register_rpc" [vref vruntime; vref vaddresses] q = Done vunit (set_regs (s_regs q ++ regs) (set_scopes (s_scopes q ++ [sc]) q)) /\
    call_fn R V' items' fuel "register_rpc" [vref vruntime; vref vaddresses] q = Done vunit (set_regs (s_regs q ++ regs ++ more) (set_scopes (s_scopes q ++ [sc]) q)) /\
    List.length regs = List.length (find_fn_nodes a) /\
    forall f g s n h f' g' s' n' h', In (f, g, s, n, h) regs -> In (f', g', s', n', h') more -> n' <> n.
Proof. exact lem_C55_registered. Qed.
Example C55_registered_case : appended (find_fn_nodes c55_a) (find_fn_nodes c55_b) /\ rpc_file c55_a true true c55_old_rust /\ rpc_file c55_b true true c55_new_rust /\
  (exists ty, find_directive_value c55_a "id" = Some (ConstLiteral (StringLit "svc") ty) /\ find_directive_value c55_b "id" = Some (ConstLiteral (StringLit "svc") ty)) /\
  map (fun n => registration n "svc") (find_fn_nodes c55_b) =
  [("register_sync_rpc_method", "sync_group_address", "svc", 0%Z, "grow_rpc_handler");
   ("register_async_rpc_method", "async_group_address", "svc", 1%Z, "later_rpc_handler");
   ("register_async_rpc_method", "read_group_address", "svc", 2%Z, "last_rpc_handler");
   ("register_async_rpc_method", "read_group_address", "svc", 3%Z, "next_rpc_handler");
   ("register_sync_rpc_method", "sync_group_address", "svc", 4%Z, "count_rpc_handler")].
Proof.
  split; [eexists; vm_compute; reflexivity|].
  split; [exact c55_old_server|].
  split; [exact c55_new_server|].
  split; [eexists; split; vm_compute; reflexivity|vm_compute; reflexivity].
Qed.
Print Assumptions C55_registered.

(** A client of the earlier version and a server of the later one: the function runs once with the arguments of the call; the
    client returns its result, or throws if the earlier version has no such value. *)
Theorem C55_old_client : forall a b models models' rust rust' dart dart' C C' sc R V D U cd node fuel dfuel x W s q P d vs ws v,
  let old := schema_decls a in let new := schema_decls b in let rold := rust_decls a true true in let rnew := rust_decls b true true in
  let addr := Z.of_N (fn_position node) in
  services a b models models' rust rust' dart dart' C C' sc -> lawful R -> dlawful D U -> agree R D U -> same_status D ->
  kept_method a b node -> fn_is_read node = false -> fn_is_async node = false -> sv_async V (fn_id node) = false ->
  arguments R rold node vs = true -> passed U dart old cd P (d_heap s) d vs ws (fn_args node) -> args_portable old node vs = true ->
  is_result R rnew node v = true -> dart_returns U new dart' cd node v = true -> result_portable new node v = true ->
  RpcFacts.within fuel (v :: vs) -> 2 * d + 5 <= dfuel -> 3 * depth v + 3 * cd + 5 <= dfuel ->
  shows C sc (find_fn_nodes a) (d_heap s) (d_tasks s) x W ->
  sv_call V (List.length (s_log q)) (fn_id node) vs = Some v ->
  (forall mem r q', call_fn R V rust' fuel (handler_name node) (sync_args sc addr) (set_mem mem q) = Done r q' ->
    exists mem', rd_loop D (d_loops s) mem = Some mem' /\ mem' sc addr "Client" = s_mem q' sc addr "Client") ->
  exists mem mem' q',
    rd_loop D (d_loops s) mem = Some mem' /\
    call_fn R V rust' fuel (handler_name node) (sync_args sc addr) (set_mem mem q) = Done (bool_val true) q' /\
    (exists m, s_log q' = s_log q ++ [mk_called (fn_id node) vs m]) /\
    if dart_returns U old dart cd node v
    then exists w h', client_call D dart dfuel x node ws s = DDone w (set_heap h' (set_loops (S (d_loops s)) (set_dmem mem' s))) /\
           changes (d_heap s) h' [] /\ returned U old node v (d_heap s) h' w
    else client_call D dart dfuel x node ws s = DThrows "StateError".
Proof. exact lem_C55_old_client. Qed.
Example C55_old_client_case : let node := c55_node "grow" in let D := c55_runtime c55_new_rust in let s := c31_then c55_old_made in
  services c55_a c55_b true true c55_old_rust c55_new_rust c55_old_dart c55_new_dart "TestRpcClient" "TestRpcClient" "svc" /\
  kept_method c55_a c55_b node /\ dlawful D le_support /\ agree le_runtime D le_support /\ same_status D /\
  (exists W, shows "TestRpcClient" "svc" (find_fn_nodes c55_a) (d_heap s) (d_tasks s) (c31_at c55_old_made) W) /\
  (forall z, In z [4; 9]%Z ->
    arguments le_runtime (rust_decls c55_a true true) node [vcase "Shape" "Dot"; vnum "u32" z] = true /\
    passed le_support c55_old_dart (schema_decls c55_a) 5 (fun b => b < 2) (d_heap s) 3 [vcase "Shape" "Dot"; vnum "u32" z] [dref 1; dint z] (fn_args node) /\
    args_portable (schema_decls c55_a) node [vcase "Shape" "Dot"; vnum "u32" z] = true /\
    is_result le_runtime (rust_decls c55_b true true) node (c55_answer z) = true /\ dart_returns le_support (schema_decls c55_b) c55_new_dart 5 node (c55_answer z) = true /\
    result_portable (schema_decls c55_b) node (c55_answer z) = true /\ RpcFacts.within 5 [c55_answer z; vcase "Shape" "Dot"; vnum "u32" z] /\
    3 * depth (c55_answer z) + 3 * 5 + 5 <= 29) /\
  dart_returns le_support (schema_decls c55_a) c55_old_dart 5 node (c55_answer 4) = true /\ dart_returns le_support (schema_decls c55_a) c55_old_dart 5 node (c55_answer 9) = false /\
  c55_object (c55_run c55_old_dart c55_new_rust c55_old_made [dref 1; dint 4]) = Some (CObj "Shape" [("value", dmem "ShapeValue" "round"); ("dot", dobj "ShapeDot" [] []); ("round", dref 6)]) /\
  c55_run c55_old_dart c55_new_rust c55_old_made [dref 1; dint 9] = DThrows "StateError".
Proof.
  cbv zeta.
  split; [exact c55_services|].
  split; [apply c55_kept; now left|].
  split; [apply c55_dlawful|].
  split; [apply c55_agree|].
  split; [reflexivity|].
  split; [destruct c55_old_view as (W & SH & _); now exists W|].
  split.
  { intros z Z.
  split; [destruct Z as [<-|[<-|[]]]; vm_compute; reflexivity|].
  split; [now apply c55_passed|].
  destruct Z as [<-|[<-|[]]].
  - split; [vm_compute; reflexivity|].
  split; [vm_compute; reflexivity|].
  split; [vm_compute; reflexivity|].
  split; [vm_compute; reflexivity|].
  split; [intros x [<-|[<-|[<-|[]]]]; vm_compute; lia|vm_compute; lia].
  - split; [vm_compute; reflexivity|].
  split; [vm_compute; reflexivity|].
  split; [vm_compute; reflexivity|].
  split; [vm_compute; reflexivity|].
  split; [intros x [<-|[<-|[<-|[]]]]; vm_compute; lia|vm_compute; lia].
  }
  split; [vm_compute; reflexivity|].
  split; [vm_compute; reflexivity|].
  split; vm_compute; reflexivity.
Qed.
Print Assumptions C55_old_client.

(** A client of the later version and a server of the earlier one, with arguments that the earlier version has: the function runs
    once with them, and the client returns its result. *)
Theorem C55_new_client : forall a b models models' rust rust' dart dart' C C' sc R V D U cd node fuel dfuel x W s q P d vs ws v,
  let new := schema_decls b in let rold := rust_decls a true true in
  let addr := Z.of_N (fn_position node) in
  services a b models models' rust rust' dart dart' C C' sc -> lawful R -> dlawful D U -> agree R D U -> same_status D ->
  kept_method a b node -> fn_is_read node = false -> fn_is_async node = false -> sv_async V (fn_id node) = false ->
  arguments R rold node vs = true -> passed U dart' new cd P (d_heap s) d vs ws (fn_args node) -> args_portable new node vs = true ->
  is_result R rold node v = true -> dart_returns U new dart' cd node v = true -> result_portable new node v = true ->
  RpcFacts.within fuel (v :: vs) -> 2 * d + 5 <= dfuel -> 3 * depth v + 3 * cd + 5 <= dfuel ->
  shows C' sc (find_fn_nodes b) (d_heap s) (d_tasks s) x W ->
  sv_call V (List.length (s_log q)) (fn_id node) vs = Some v ->
  (forall mem r q', call_fn R V rust fuel (handler_name node) (sync_args sc addr) (set_mem mem q) = Done r q' ->
    exists mem', rd_loop D (d_loops s) mem = Some mem' /\ mem' sc addr "Client" = s_mem q' sc addr "Client") ->
  exists mem mem' q' w h',
    rd_loop D (d_loops s) mem = Some mem' /\
    call_fn R V rust fuel (handler_name node) (sync_args sc addr) (set_mem mem q) = Done (bool_val true) q' /\
    (exists m, s_log q' = s_log q ++ [mk_called (fn_id node) vs m]) /\
    client_call D dart' dfuel x node ws s = DDone w (set_heap h' (set_loops (S (d_loops s)) (set_dmem mem' s))) /\
    changes (d_heap s) h' [] /\ returned U new node v (d_heap s) h' w.
Proof. exact lem_C55_new_client. Qed.
Example C55_new_client_case : let node := c55_node "grow" in let D := c55_runtime c55_old_rust in let s := c31_then c55_new_made in let vs := [vcase "Shape" "Dot"; vnum "u32" 4] in
  services c55_a c55_b true true c55_old_rust c55_new_rust c55_old_dart c55_new_dart "TestRpcClient" "TestRpcClient" "svc" /\
  kept_method c55_a c55_b node /\ dlawful D le_support /\ agree le_runtime D le_support /\ same_status D /\
  (exists W, shows "TestRpcClient" "svc" (find_fn_nodes c55_b) (d_heap s) (d_tasks s) (c31_at c55_new_made) W) /\
  arguments le_runtime (rust_decls c55_a true true) node vs = true /\
  passed le_support c55_new_dart (schema_decls c55_b) 5 (fun b => b < 5) (d_heap s) 3 vs [dref 1; dint 4] (fn_args node) /\ args_portable (schema_decls c55_b) node vs = true /\
  is_result le_runtime (rust_decls c55_a true true) node (c55_answer 4) = true /\ dart_returns le_support (schema_decls c55_b) c55_new_dart 5 node (c55_answer 4) = true /\
  result_portable (schema_decls c55_b) node (c55_answer 4) = true /\ RpcFacts.within 5 (c55_answer 4 :: vs) /\
  match c55_object (c55_run c55_new_dart c55_old_rust c55_new_made [dref 1; dint 4]) with Some (CObj "Shape" (("value", w) :: _)) => w = dmem "ShapeValue" "round" | _ => False end.
Proof.
  cbv zeta.
  split; [exact c55_services|].
  split; [apply c55_kept; now left|].
  split; [apply c55_dlawful|].
  split; [apply c55_agree|].
  split; [reflexivity|].
  split; [destruct c55_new_view as (W & SH & _); now exists W|].
  split; [vm_compute; reflexivity|].
  split; [exact c55_new_passed|].
  split; [vm_compute; reflexivity|].
  split; [vm_compute; reflexivity|].
  split; [vm_compute; reflexivity|].
  split; [vm_compute; reflexivity|].
  split; [intros x [<-|[<-|[<-|[]]]]; vm_compute; lia|vm_compute; reflexivity].
Qed.
Print Assumptions C55_new_client.

(** With an argument that the earlier version has no such value for, its handler panics on the request that the client sends, and
    the function does not run.  If the loop of the runtime then fails, the call of the client throws. *)
Theorem C55_new_client_refused : forall a b models models' rust rust' dart dart' C C' sc R V D U cd node fuel dfuel x W s q P d vs ws,
  let new := schema_decls b in let rold := rust_decls a true true in let rnew := rust_decls b true true in
  let addr := Z.of_N (fn_position node) in
  services a b models models' rust rust' dart dart' C C' sc -> lawful R -> dlawful D U -> agree R D U -> same_status D ->
  kept_method a b node -> fn_is_read node = false -> fn_is_async node = false ->
  arguments R rnew node vs = true -> arguments R rold node vs = false ->
  passed U dart' new cd P (d_heap s) d vs ws (fn_args node) -> args_portable new node vs = true ->
  RpcFacts.within fuel vs -> fuel > 1 -> 2 * d + 5 <= dfuel ->
  shows C' sc (find_fn_nodes b) (d_heap s) (d_tasks s) x W ->
  exists mem,
    call_fn R V rust fuel (handler_name node) (sync_args sc addr) (set_mem mem q) = Panics /\
    (forall sc' a' side, (sc', a', side) <> (sc, addr, "Server") -> mem sc' a' side = d_mem s sc' a' side) /\
    (rd_loop D (d_loops s) mem = None -> client_call D dart' dfuel x node ws s = DThrows "ServerError").
Proof. exact lem_C55_new_client_refused. Qed.
Example C55_new_client_refused_case : let node := c55_node "grow" in let s := c31_then c55_new_made in let vs := [c55_named 4; vnum "u32" 4] in
  services c55_a c55_b true true c55_old_rust c55_new_rust c55_old_dart c55_new_dart "TestRpcClient" "TestRpcClient" "svc" /\
  kept_method c55_a c55_b node /\
  (exists W, shows "TestRpcClient" "svc" (find_fn_nodes c55_b) (d_heap s) (d_tasks s) (c31_at c55_new_made) W) /\
  arguments le_runtime (rust_decls c55_b true true) node vs = true /\ arguments le_runtime (rust_decls c55_a true true) node vs = false /\
  passed le_support c55_new_dart (schema_decls c55_b) 5 (fun b => b < 5) (d_heap s) 3 vs [dref 4; dint 4] (fn_args node) /\ args_portable (schema_decls c55_b) node vs = true /\
  RpcFacts.within 5 vs /\
  c55_run c55_new_dart c55_old_rust c55_new_made [dref 4; dint 4] = DThrows "ServerError".
Proof.
  cbv zeta.
  split; [exact c55_services|].
  split; [apply c55_kept; now left|].
  split; [destruct c55_new_view as (W & SH & _); now exists W|].
  split; [vm_compute; reflexivity|].
  split; [vm_compute; reflexivity|].
  split; [exact c55_named_passed|].
  split; [vm_compute; reflexivity|].
  split; [intros x [<-|[<-|[]]]; vm_compute; lia|vm_compute; reflexivity].
Qed.
Print Assumptions C55_new_client_refused.

(** The same for an asynchronous method: the later server runs the function once, and the client of the earlier version completes
    the call with its result, or its task throws if the earlier version has no such value. *)
Theorem C55_old_client_async : forall a b models models' rust rust' dart dart' C C' sc R V D U cd node fuel dfuel x W s P d vs ws,
  let nodes := find_fn_nodes a in
  let old := schema_decls a in let new := schema_decls b in let rold := rust_decls a true true in let rnew := rust_decls b true true in
  let id := fn_id node in let addr := Z.of_N (fn_position node) in let z := w_last W id in let p := List.length (d_heap s) in
  services a b models models' rust rust' dart dart' C C' sc -> lawful R -> dlawful D U -> agree R D U -> same_status D ->
  kept_method a b node -> fn_is_read node = false -> fn_is_async node = true -> sv_async V id = true ->
  in_range "i64" z = true -> arguments R rold node vs = true -> passed U dart old cd P (d_heap s) d vs ws (fn_args node) -> ~ P x -> args_portable old node vs = true ->
  RpcFacts.within fuel vs -> fuel > 1 -> 2 * d + 5 <= dfuel -> shows C sc nodes (d_heap s) (d_tasks s) x W ->
  exists h' W' mem, client_call D dart dfuel x node ws s = DDone (dref p) (set_heap h' (set_dmem mem s)) /\
    shows C sc nodes h' (d_tasks s) x W' /\ pending W' id z p /\ nth_error h' p = Some (CDone None) /\
    forall q, s_mem q sc addr "Server" = mem sc addr "Server" ->
    exists q' task, call_fn R V rust' fuel (handler_name node) (async_args sc addr) q = Done (bool_val true) q' /\
      s_tasks q' = s_tasks q ++ [task] /\ s_log q' = s_log q /\
      forall q2 i v, nth_error (s_tasks q2) i = Some task -> sv_call V (List.length (s_log q2)) id vs = Some v ->
        is_result R rnew node v = true -> dart_returns U new dart' cd node v = true -> result_portable new node v = true ->
        depth v <= fuel -> 3 * depth v + 3 * cd + 4 <= dfuel ->
      exists q3, complete R V rust' fuel i q2 = Done vunit q3 /\ s_log q3 = s_log q2 ++ [mk_called id vs (s_mem q2)] /\
        forall s2 W2, shows C sc nodes (d_heap s2) (d_tasks s2) x W2 -> pending W2 id z p ->
          nth_error (d_tasks s2) (w_task W2 id) = Some (Some (node_task C sc node x)) ->
          d_mem s2 sc addr "Client" = s_mem q3 sc addr "Client" ->
        if dart_returns U old dart cd node v
        then exists w h2, run_task D dart dfuel (w_task W2 id) s2 = DDone dnull (set_heap h2 s2) /\
               nth_error h2 p = Some (CDone (Some w)) /\ returned U old node v (d_heap s2) h2 w
        else run_task D dart dfuel (w_task W2 id) s2 = DThrows "StateError".
Proof. exact lem_C55_old_client_async. Qed.
Example C55_old_client_async_case : let node := c55_node "later" in let s := c31_then c55_old_made in let vs := [vcase "Shape" "Dot"] in
  services c55_a c55_b true true c55_old_rust c55_new_rust c55_old_dart c55_new_dart "TestRpcClient" "TestRpcClient" "svc" /\
  kept_method c55_a c55_b node /\
  (exists W, shows "TestRpcClient" "svc" (find_fn_nodes c55_a) (d_heap s) (d_tasks s) (c31_at c55_old_made) W /\ w_last W "later" = 0%Z) /\
  arguments le_runtime (rust_decls c55_a true true) node vs = true /\
  passed le_support c55_old_dart (schema_decls c55_a) 5 (fun b => b < 2) (d_heap s) 3 vs [dref 1] (fn_args node) /\ ~ (c31_at c55_old_made < 2) /\ args_portable (schema_decls c55_a) node vs = true /\
  is_result le_runtime (rust_decls c55_b true true) node (c55_answer 9) = true /\ dart_returns le_support (schema_decls c55_b) c55_new_dart 5 node (c55_answer 9) = true /\
  dart_returns le_support (schema_decls c55_a) c55_old_dart 5 node (c55_answer 9) = false /\
  match c55_later c55_old_dart c55_new_rust c55_old_made (dref 1) 4 with
  | Some (DDone (dref p) s2) => match nth_error (d_heap s2) p with Some (CDone (Some w)) => c55_value (d_heap s2) w | _ => None end
  | _ => None
  end = Some (dmem "ShapeValue" "round") /\
  c55_later c55_old_dart c55_new_rust c55_old_made (dref 1) 9 = Some (DThrows "StateError").
Proof.
  cbv zeta.
  split; [exact c55_services|].
  split; [apply c55_kept; right; now left|].
  split; [destruct c55_old_view as (W & SH & L); exists W; split; [exact SH|apply L]|].
  split; [vm_compute; reflexivity|].
  split; [exact c55_later_passed|].
  split; [vm_compute; lia|].
  split; [vm_compute; reflexivity|].
  split; [vm_compute; reflexivity|].
  split; [vm_compute; reflexivity|].
  split; [vm_compute; reflexivity|].
  split; vm_compute; reflexivity.
Qed.
Print Assumptions C55_old_client_async.

(** A client of the later version and a server of the earlier one: with arguments of the earlier version the call is completed with
    the result of the function; otherwise the handler panics on the request. *)
Theorem C55_new_client_async : forall a b models models' rust rust' dart dart' C C' sc R V D U cd node fuel dfuel x W s P d vs ws,
  let nodes := find_fn_nodes b in
  let new := schema_decls b in let rold := rust_decls a true true in let rnew := rust_decls b true true in
  let id := fn_id node in let addr := Z.of_N (fn_position node) in let z := w_last W id in let p := List.length (d_heap s) in
  services a b models models' rust rust' dart dart' C C' sc -> lawful R -> dlawful D U -> agree R D U -> same_status D ->
  kept_method a b node -> fn_is_read node = false -> fn_is_async node = true -> sv_async V id = true ->
  in_range "i64" z = true -> arguments R rnew node vs = true -> passed U dart' new cd P (d_heap s) d vs ws (fn_args node) -> ~ P x -> args_portable new node vs = true ->
  RpcFacts.within fuel vs -> fuel > 1 -> 2 * d + 5 <= dfuel -> shows C' sc nodes (d_heap s) (d_tasks s) x W ->
  exists h' W' mem, client_call D dart' dfuel x node ws s = DDone (dref p) (set_heap h' (set_dmem mem s)) /\
    shows C' sc nodes h' (d_tasks s) x W' /\ pending W' id z p /\ nth_error h' p = Some (CDone None) /\
    forall q, s_mem q sc addr "Server" = mem sc addr "Server" ->
    if arguments R rold node vs
    then exists q' task, call_fn R V rust fuel (handler_name node) (async_args sc addr) q = Done (bool_val true) q' /\
      s_tasks q' = s_tasks q ++ [task] /\ s_log q' = s_log q /\
      forall q2 i v, nth_error (s_tasks q2) i = Some task -> sv_call V (List.length (s_log q2)) id vs = Some v ->
        is_result R rold node v = true -> dart_returns U new dart' cd node v = true -> result_portable new node v = true ->
        depth v <= fuel -> 3 * depth v + 3 * cd + 4 <= dfuel ->
      exists q3, complete R V rust fuel i q2 = Done vunit q3 /\ s_log q3 = s_log q2 ++ [mk_called id vs (s_mem q2)] /\
        forall s2 W2, shows C' sc nodes (d_heap s2) (d_tasks s2) x W2 -> pending W2 id z p ->
          nth_error (d_tasks s2) (w_task W2 id) = Some (Some (node_task C' sc node x)) ->
          d_mem s2 sc addr "Client" = s_mem q3 sc addr "Client" ->
        exists w h2, run_task D dart' dfuel (w_task W2 id) s2 = DDone dnull (set_heap h2 s2) /\
          nth_error h2 p = Some (CDone (Some w)) /\ returned U new node v (d_heap s2) h2 w
    else call_fn R V rust fuel (handler_name node) (async_args sc addr) q = Panics.
Proof. exact lem_C55_new_client_async. Qed.
Example C55_new_client_async_case : let node := c55_node "later" in let s := c31_then c55_new_made in
  services c55_a c55_b true true c55_old_rust c55_new_rust c55_old_dart c55_new_dart "TestRpcClient" "TestRpcClient" "svc" /\
  kept_method c55_a c55_b node /\
  (exists W, shows "TestRpcClient" "svc" (find_fn_nodes c55_b) (d_heap s) (d_tasks s) (c31_at c55_new_made) W /\ w_last W "later" = 0%Z) /\
  (forall v w, In (v, w) [(vcase "Shape" "Dot", dref 1); (c55_named 4, dref 4)] -> arguments le_runtime (rust_decls c55_b true true) node [v] = true /\
    passed le_support c55_new_dart (schema_decls c55_b) 5 (fun b => b < 5) (d_heap s) 3 [v] [w] (fn_args node) /\ args_portable (schema_decls c55_b) node [v] = true) /\
  ~ (c31_at c55_new_made < 5) /\
  arguments le_runtime (rust_decls c55_a true true) node [vcase "Shape" "Dot"] = true /\ arguments le_runtime (rust_decls c55_a true true) node [c55_named 4] = false /\
  match c55_later c55_new_dart c55_old_rust c55_new_made (dref 1) 4 with
  | Some (DDone (dref p) s2) => match nth_error (d_heap s2) p with Some (CDone (Some w)) => c55_value (d_heap s2) w | _ => None end
  | _ => None
  end = Some (dmem "ShapeValue" "round") /\
  let called := client_call (c55_runtime c55_old_rust) c55_new_dart 29 (c31_at c55_new_made) node [dref 4] s in
  call_fn le_runtime (c55_service 4) c55_old_rust 5 (handler_name node) (async_args "svc" 1) (set_mem (d_mem (c31_then called)) (c31_state [])) = Panics.
Proof.
  cbv zeta.
  split; [exact c55_services|].
  split; [apply c55_kept; right; now left|].
  split; [destruct c55_new_view as (W & SH & L); exists W; split; [exact SH|apply L]|].
  split.
  { intros v w [[= <- <-]|[[= <- <-]|[]]].
  - split; [vm_compute; reflexivity|].
  split; [exact (proj1 c55_later_new_passed)|vm_compute; reflexivity].
  - split; [vm_compute; reflexivity|].
  split; [exact (proj2 c55_later_new_passed)|vm_compute; reflexivity].
  }
  split; [vm_compute; lia|].
  split; [vm_compute; reflexivity|].
  split; [vm_compute; reflexivity|].
  split; vm_compute; reflexivity.
Qed.
Print Assumptions C55_new_client_async.

(** A stream of values read from the server. *)
Theorem C55_old_client_read : forall a b models models' rust rust' dart dart' C C' sc R V D U cd node fuel dfuel x W s q v,
  let nodes := find_fn_nodes a in let old := schema_decls a in let new := schema_decls b in let rnew := rust_decls b true true in
  let id := fn_id node in let addr := Z.of_N (fn_position node) in
  services a b models models' rust rust' dart dart' C C' sc -> dlawful D U -> agree R D U -> same_status D ->
  kept_method a b node -> fn_is_read node = true -> fn_is_async node = false -> sv_async V id = false ->
  match fn_return node with Some ty => Wire.prim_name ty = None | None => True end ->
  sv_call V (List.length (s_log q)) id [] = Some (vopt (Some v)) -> is_result R rnew node v = true -> depth v <= fuel ->
  dart_returns U new dart' cd node v = true -> result_portable new node v = true -> 3 * depth v + 3 * cd + 4 <= dfuel ->
  exists q', call_fn R V rust' fuel (handler_name node) (async_args sc addr) q = Done (bool_val true) q' /\
    s_log q' = s_log q ++ [mk_called id [] (s_mem q)] /\
    (shows C sc nodes (d_heap s) (d_tasks s) x W -> nth_error (d_tasks s) (w_task W id) = Some (Some (node_task C sc node x)) ->
     snd (w_stream W id) = true -> d_mem s sc addr "Client" = s_mem q' sc addr "Client" ->
     if dart_returns U old dart cd node v
     then exists w h' W', run_task D dart dfuel (w_task W id) s = DDone dnull (set_heap h' s) /\ returned U old node v (d_heap s) h' w /\
       shows C sc nodes h' (d_tasks s) x W' /\ w_stream W' id = (fst (w_stream W id) ++ [w], true)
     else run_task D dart dfuel (w_task W id) s = DThrows "StateError").
Proof. exact lem_C55_old_client_read. Qed.
Example C55_old_client_read_case : let node := c55_node "last" in let s := c31_then c55_old_made in
  services c55_a c55_b true true c55_old_rust c55_new_rust c55_old_dart c55_new_dart "TestRpcClient" "TestRpcClient" "svc" /\
  kept_method c55_a c55_b node /\
  (exists W, shows "TestRpcClient" "svc" (find_fn_nodes c55_a) (d_heap s) (d_tasks s) (c31_at c55_old_made) W) /\
  nth_error (d_tasks s) 1 = Some (Some (node_task "TestRpcClient" "svc" node (c31_at c55_old_made))) /\
  is_result le_runtime (rust_decls c55_b true true) node (c55_answer 4) = true /\ dart_returns le_support (schema_decls c55_b) c55_new_dart 5 node (c55_answer 4) = true /\
  match c55_last c55_old_dart c55_new_rust c55_old_made 4 with
  | Some (DDone _ s2) => match nth_error (d_heap s2) 3 with Some (CStream [w] true) => c55_value (d_heap s2) w | _ => None end
  | _ => None
  end = Some (dmem "ShapeValue" "round") /\
  dart_returns le_support (schema_decls c55_a) c55_old_dart 5 node (c55_answer 9) = false /\ c55_last c55_old_dart c55_new_rust c55_old_made 9 = Some (DThrows "StateError").
Proof.
  cbv zeta.
  split; [exact c55_services|].
  split; [apply c55_kept; right; right; now left|].
  split; [destruct c55_old_view as (W & SH & _); now exists W|].
  split; [vm_compute; reflexivity|].
  split; [vm_compute; reflexivity|].
  split; [vm_compute; reflexivity|].
  split; [vm_compute; reflexivity|].
  split; vm_compute; reflexivity.
Qed.
Print Assumptions C55_old_client_read.

Theorem C55_new_client_read : forall a b models models' rust rust' dart dart' C C' sc R V D U cd node fuel dfuel x W s q v,
  let nodes := find_fn_nodes b in let new := schema_decls b in let rold := rust_decls a true true in
  let id := fn_id node in let addr := Z.of_N (fn_position node) in
  services a b models models' rust rust' dart dart' C C' sc -> dlawful D U -> agree R D U -> same_status D ->
  kept_method a b node -> fn_is_read node = true -> fn_is_async node = false -> sv_async V id = false ->
  match fn_return node with Some ty => Wire.prim_name ty = None | None => True end ->
  sv_call V (List.length (s_log q)) id [] = Some (vopt (Some v)) -> is_result R rold node v = true -> depth v <= fuel ->
  dart_returns U new dart' cd node v = true -> result_portable new node v = true -> 3 * depth v + 3 * cd + 4 <= dfuel ->
  exists q', call_fn R V rust fuel (handler_name node) (async_args sc addr) q = Done (bool_val true) q' /\
    s_log q' = s_log q ++ [mk_called id [] (s_mem q)] /\
    (shows C' sc nodes (d_heap s) (d_tasks s) x W -> nth_error (d_tasks s) (w_task W id) = Some (Some (node_task C' sc node x)) ->
     snd (w_stream W id) = true -> d_mem s sc addr "Client" = s_mem q' sc addr "Client" ->
     exists w h' W', run_task D dart' dfuel (w_task W id) s = DDone dnull (set_heap h' s) /\ returned U new node v (d_heap s) h' w /\
       shows C' sc nodes h' (d_tasks s) x W' /\ w_stream W' id = (fst (w_stream W id) ++ [w], true)).
Proof. exact lem_C55_new_client_read. Qed.
Example C55_new_client_read_case : let node := c55_node "last" in let s := c31_then c55_new_made in
  services c55_a c55_b true true c55_old_rust c55_new_rust c55_old_dart c55_new_dart "TestRpcClient" "TestRpcClient" "svc" /\
  kept_method c55_a c55_b node /\
  (exists W, shows "TestRpcClient" "svc" (find_fn_nodes c55_b) (d_heap s) (d_tasks s) (c31_at c55_new_made) W) /\
  nth_error (d_tasks s) 1 = Some (Some (node_task "TestRpcClient" "svc" node (c31_at c55_new_made))) /\
  is_result le_runtime (rust_decls c55_a true true) node (c55_answer 4) = true /\ dart_returns le_support (schema_decls c55_b) c55_new_dart 5 node (c55_answer 4) = true /\
  match c55_last c55_new_dart c55_old_rust c55_new_made 4 with
  | Some (DDone _ s2) => match nth_error (d_heap s2) 6 with Some (CStream [w] true) => c55_value (d_heap s2) w | _ => None end
  | _ => None
  end = Some (dmem "ShapeValue" "round").
Proof.
  cbv zeta.
  split; [exact c55_services|].
  split; [apply c55_kept; right; right; now left|].
  split; [destruct c55_new_view as (W & SH & _); now exists W|].
  split; [vm_compute; reflexivity|].
  split; [vm_compute; reflexivity|].
  split; [vm_compute; reflexivity|].
  vm_compute; reflexivity.
Qed.
Print Assumptions C55_new_client_read.

(** The same for asynchronous reads. *)
Theorem C55_old_client_async_read : forall a b models models' rust rust' dart dart' C C' sc R V D U cd node z rest fuel dfuel x q,
  let nodes := find_fn_nodes a in let old := schema_decls a in let new := schema_decls b in let rnew := rust_decls b true true in
  let id := fn_id node in let addr := Z.of_N (fn_position node) in
  services a b models models' rust rust' dart dart' C C' sc -> lawful R -> dlawful D U -> agree R D U -> same_status D ->
  kept_method a b node -> fn_is_read node = true -> fn_is_async node = true -> sv_async V id = true ->
  match fn_return node with Some ty => Wire.prim_name ty = None | None => True end ->
  rt_get R "u8" (s_mem q sc addr "Server") = Some (z, rest) -> z <> 255%Z ->
  exists q' task, call_fn R V rust' fuel (handler_name node) (async_args sc addr) q = Done (bool_val true) q' /\
    s_tasks q' = s_tasks q ++ [task] /\
    forall q2 i v, nth_error (s_tasks q2) i = Some task -> sv_call V (List.length (s_log q2)) id [] = Some (vopt (Some v)) ->
      is_result R rnew node v = true -> depth v <= fuel -> dart_returns U new dart' cd node v = true -> result_portable new node v = true -> 3 * depth v + 3 * cd + 4 <= dfuel ->
    exists q3, complete R V rust' fuel i q2 = Done vunit q3 /\
      forall s W, shows C sc nodes (d_heap s) (d_tasks s) x W -> nth_error (d_tasks s) (w_task W id) = Some (Some (node_task C sc node x)) ->
        snd (w_stream W id) = true -> d_mem s sc addr "Client" = s_mem q3 sc addr "Client" ->
      if dart_returns U old dart cd node v
      then exists w h' W', run_task D dart dfuel (w_task W id) s = DDone dnull (set_heap h' s) /\ returned U old node v (d_heap s) h' w /\
        shows C sc nodes h' (d_tasks s) x W' /\ w_stream W' id = (fst (w_stream W id) ++ [w], true)
      else run_task D dart dfuel (w_task W id) s = DThrows "StateError".
Proof. exact lem_C55_old_client_async_read. Qed.
Example C55_old_client_async_read_case : let node := c55_node "next" in let s := c31_then c55_old_made in
  services c55_a c55_b true true c55_old_rust c55_new_rust c55_old_dart c55_new_dart "TestRpcClient" "TestRpcClient" "svc" /\
  kept_method c55_a c55_b node /\
  (exists W, shows "TestRpcClient" "svc" (find_fn_nodes c55_a) (d_heap s) (d_tasks s) (c31_at c55_old_made) W) /\
  nth_error (d_tasks s) 2 = Some (Some (node_task "TestRpcClient" "svc" node (c31_at c55_old_made))) /\
  is_result le_runtime (rust_decls c55_b true true) node (c55_answer 4) = true /\ dart_returns le_support (schema_decls c55_b) c55_new_dart 5 node (c55_answer 4) = true /\
  match c55_next c55_old_dart c55_new_rust c55_old_made 4 with
  | Some (DDone _ s2) => match nth_error (d_heap s2) 4 with Some (CStream [w] true) => c55_value (d_heap s2) w | _ => None end
  | _ => None
  end = Some (dmem "ShapeValue" "round") /\
  dart_returns le_support (schema_decls c55_a) c55_old_dart 5 node (c55_answer 9) = false /\ c55_next c55_old_dart c55_new_rust c55_old_made 9 = Some (DThrows "StateError").
Proof.
  cbv zeta.
  split; [exact c55_services|].
  split; [apply c55_kept; cbn; tauto|].
  split; [destruct c55_old_view as (W & SH & _); now exists W|].
  split; [vm_compute; reflexivity|].
  split; [vm_compute; reflexivity|].
  split; [vm_compute; reflexivity|].
  split; [vm_compute; reflexivity|].
  split; vm_compute; reflexivity.
Qed.
Print Assumptions C55_old_client_async_read.

Theorem C55_new_client_async_read : forall a b models models' rust rust' dart dart' C C' sc R V D U cd node z rest fuel dfuel x q,
  let nodes := find_fn_nodes b in let new := schema_decls b in let rold := rust_decls a true true in
  let id := fn_id node in let addr := Z.of_N (fn_position node) in
  services a b models models' rust rust' dart dart' C C' sc -> lawful R -> dlawful D U -> agree R D U -> same_status D ->
  kept_method a b node -> fn_is_read node = true -> fn_is_async node = true -> sv_async V id = true ->
  match fn_return node with Some ty => Wire.prim_name ty = None | None => True end ->
  rt_get R "u8" (s_mem q sc addr "Server") = Some (z, rest) -> z <> 255%Z ->
  exists q' task, call_fn R V rust fuel (handler_name node) (async_args sc addr) q = Done (bool_val true) q' /\
    s_tasks q' = s_tasks q ++ [task] /\
    forall q2 i v, nth_error (s_tasks q2) i = Some task -> sv_call V (List.length (s_log q2)) id [] = Some (vopt (Some v)) ->
      is_result R rold node v = true -> depth v <= fuel -> dart_returns U new dart' cd node v = true -> result_portable new node v = true -> 3 * depth v + 3 * cd + 4 <= dfuel ->
    exists q3, complete R V rust fuel i q2 = Done vunit q3 /\
      forall s W, shows C' sc nodes (d_heap s) (d_tasks s) x W -> nth_error (d_tasks s) (w_task W id) = Some (Some (node_task C' sc node x)) ->
        snd (w_stream W id) = true -> d_mem s sc addr "Client" = s_mem q3 sc addr "Client" ->
      exists w h' W', run_task D dart' dfuel (w_task W id) s = DDone dnull (set_heap h' s) /\ returned U new node v (d_heap s) h' w /\
        shows C' sc nodes h' (d_tasks s) x W' /\ w_stream W' id = (fst (w_stream W id) ++ [w], true).
Proof. exact lem_C55_new_client_async_read. Qed.
Example C55_new_client_async_read_case : let node := c55_node "next" in let s := c31_then c55_new_made in
  services c55_a c55_b true true c55_old_rust c55_new_rust c55_old_dart c55_new_dart "TestRpcClient" "TestRpcClient" "svc" /\
  kept_method c55_a c55_b node /\
  (exists W, shows "TestRpcClient" "svc" (find_fn_nodes c55_b) (d_heap s) (d_tasks s) (c31_at c55_new_made) W) /\
  nth_error (d_tasks s) 2 = Some (Some (node_task "TestRpcClient" "svc" node (c31_at c55_new_made))) /\
  is_result le_runtime (rust_decls c55_a true true) node (c55_answer 4) = true /\ dart_returns le_support (schema_decls c55_b) c55_new_dart 5 node (c55_answer 4) = true /\
  match c55_next c55_new_dart c55_old_rust c55_new_made 4 with
  | Some (DDone _ s2) => match nth_error (d_heap s2) 7 with Some (CStream [w] true) => c55_value (d_heap s2) w | _ => None end
  | _ => None
  end = Some (dmem "ShapeValue" "round").
Proof.
  cbv zeta.
  split; [exact c55_services|].
  split; [apply c55_kept; cbn; tauto|].
  split; [destruct c55_new_view as (W & SH & _); now exists W|].
  split; [vm_compute; reflexivity|].
  split; [vm_compute; reflexivity|].
  split; [vm_compute; reflexivity|].
  vm_compute; reflexivity.
Qed.
Print Assumptions C55_new_client_async_read.

Theorem C55_inserted_refuted : exists a b rust' dart node other q regs mem q' m w s',
  client_file a dart "TestRpcClient" "svc" /\ rpc_file b true true rust' /\
  In node (find_fn_nodes a) /\ (exists same, In same (find_fn_nodes b) /\ method_shape same = method_shape node) /\ fn_id other <> fn_id node /\
  (exists s1, call_fn le_runtime c55_i_service rust' 5 "register_rpc" [vref vruntime; vref vaddresses] q = Done vunit s1 /\ s_regs s1 = regs) /\
  In ("register_sync_rpc_method", "sync_group_address", "svc", Z.of_N (fn_position node), handler_name other) regs /\
  client_call c55_i_runtime dart 29 (c31_at c55_old_made) node [dref 1; dint 4] (c31_then c55_old_made) = DDone w s' /\
  rd_loop c55_i_runtime (d_loops (c31_then c55_old_made)) mem = Some (d_mem s') /\
  call_fn le_runtime c55_i_service rust' 5 (handler_name other) (sync_args "svc" (Z.of_N (fn_position node))) (set_mem mem q) = Done (bool_val true) q' /\
  s_log q' = [mk_called (fn_id other) [vcase "Shape" "Dot"; vnum "u32" 4] m].
Proof. exact lem_C55_inserted_refuted. Qed.
Print Assumptions C55_inserted_refuted.
