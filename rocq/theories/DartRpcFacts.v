(** Lemmas behind the theorems of PropertiesDartRpc.v. *)

(** Property theorems about the generated Dart client and its conversation with the generated Rust handlers: C31 (method
    numbers), C32 (synchronous calls), C34 (identities of asynchronous calls), C47 (streams), C48 (disconnecting).  The generated text is read back
    as a Dart file and that file is run by the interpreter of DartSem.  After each theorem, a concrete case that meets its
    hypotheses, and its axioms. *)
Require Import Coq.Strings.String Coq.Strings.Ascii.
Require Import Coq.NArith.NArith Coq.ZArith.ZArith Coq.Lists.List Coq.Bool.Bool Coq.Arith.PeanoNat.
Require Import Coq.micromega.Lia Coq.micromega.ZifyBool Coq.micromega.ZifyN Coq.micromega.ZifyNat.
Require Import Verif.Base Verif.Ast Verif.Lexer Verif.Parser Verif.CaseConv Verif.Code Verif.NumText Verif.RustGen Verif.RustTree Verif.RustFile Verif.RustWf Verif.RustSem Verif.Wire Verif.RustCodec Verif.CodecFacts Verif.RustRpc Verif.RpcFacts.
Require Import Verif.DartSyntax Verif.DartGen Verif.DartTree Verif.DartFile Verif.DartWf Verif.DartSem Verif.DartWire Verif.DartRun Verif.DartShape Verif.DartCodec Verif.DartAgree Verif.DartFacts Verif.DartRpc.
Import ListNotations.
Local Open Scope string_scope.
Local Open Scope list_scope.

(** ** The generated client *)
(** [items] is the Dart file generated from [ast], it compiles, and its client for the scope [sc] is the class [C]. *)
Definition client_file (ast : list ast_node) (items : list ditem) (C sc : string) : Prop :=
  dart_ready ast = true /\ dart_items ast true items /\ dart_codecs_ok ast items = true /\ find_fn_nodes ast <> [] /\
  (exists ns ty, find_directive_value ast "namespace" = Some (ConstLiteral (StringLit ns) ty) /\ C = (pascal ns ++ "RpcClient")%string) /\
  (exists ty, find_directive_value ast "id" = Some (ConstLiteral (StringLit sc) ty)) /\
  client_ok (client_members C sc (find_fn_nodes ast)) (find_fn_nodes ast) (top_names items) = true.

Lemma client_section ast items C sc : client_file ast items C sc ->
  (forall d i, In d (schema_decls ast) -> In i (decl_items d) -> In i items) /\ NoDup (top_names items) /\
  (forall n, In n lib_names -> ~ In n (top_names items)) /\ forallb dart_decl_ok (schema_decls ast) = true /\
  find_class C items = Some (client_members C sc (find_fn_nodes ast)) /\
  client_ok (client_members C sc (find_fn_nodes ast)) (find_fn_nodes ast) (top_names items) = true.
Proof.
  intros (RD & DI & O & NN & (ns & ty & E1 & EC) & (ty' & E2) & CO).
  destruct (dart_section ast true items RD DI O) as (A & B & X & Y).
  split; [exact A|].
  split; [exact B|].
  split; [exact X|].
  split; [exact Y|].
  split; [|exact CO].
  apply (find_class_in items C None _ B).
  destruct DI as (text & G & F).
  pose proof (dart_file_generated ast true true true text RD G) as Q.
  rewrite F in Q.
  injection Q as ->.
  unfold dart_tree.
  rewrite !in_app_iff.
  right.
  right.
  right.
  right.
  right.
  unfold rpc_tree.
  destruct (find_fn_nodes ast) as [|n l]; [congruence|].
  unfold required_string.
  rewrite E1, E2.
  left.
  rewrite client_class_members, EC.
  reflexivity.
Qed.

(** The call [client.method(x: w, …)] of the client at the address [a]. *)
Definition client_call (D : druntime) (items : list ditem) (fuel : nat) (a : nat) (node : fn_node) (ws : list dval) : dM dval :=
  method D items (dcalls_upto D items fuel) (dref a) (camel (fn_id node)) (named node ws).

(** The bytes of a request: the status and the arguments in order; an asynchronous one carries an identity. *)
Definition dart_args (D : druntime) (U : support) (ds : list decl) (node : fn_node) (vs : list val) : bytes :=
  flat_map (fun '(v, x) => dwire D U ds false v (fa_type x)) (combine vs (fn_args node)).

Definition dart_request (D : druntime) (U : support) (ds : list decl) (node : fn_node) (vs : list val) : bytes :=
  rd_put D "Int8" (rd_has_data D) ++ dart_args D U ds node vs.

Definition dart_async_request (D : druntime) (U : support) (ds : list decl) (node : fn_node) (z : Z) (vs : list val) : bytes :=
  rd_put D "Int8" (rd_has_data D) ++ rd_put D "Int64" z ++ dart_args D U ds node vs.

Definition dart_result (D : druntime) (U : support) (ds : list decl) (node : fn_node) (v : val) : bytes :=
  match fn_return node with Some t => dwire D U ds false v t | None => [] end.

(** The object [w] is the value [v] of the return type, made of objects that are not in [h]. *)
Definition returned (U : support) (ds : list decl) (node : fn_node) (v : val) (h h' : heap) (w : dval) : Prop :=
  match fn_return node with Some t => rep U ds (fresh h h') h' w v t | None => w = dnull end.

Definition dart_returns (U : support) (ds : list decl) (items : list ditem) (cd : nat) (node : fn_node) (v : val) : bool :=
  match fn_return node with Some t => dtyped U ds (top_names items) cd v t | None => true end.

(** A buffer after the front of it was overwritten. *)
Definition sent (m : string -> Z -> string -> bytes) (sc : string) (n : N) (b : bytes) : string -> Z -> string -> bytes :=
  upd_mem m sc (Z.of_N n) "Server" (b ++ skipn (List.length b) (m sc (Z.of_N n) "Server")).

Lemma wires_args D U ds vs : forall args, DartCodec.wires D U ds vs (map arg_slot args) = flat_map (fun '(v, x) => dwire D U ds false v (fa_type x)) (combine vs args).
Proof.
  induction vs as [|v vs IH]; intros [|x args]; try reflexivity.
  unfold DartCodec.wires in *.
  cbn [map cat2 combine flat_map arg_slot snd].
  now rewrite IH.
Qed.

Lemma sync_bytes_request D U ds node vs : sync_bytes D U ds vs node = dart_request D U ds node vs.
Proof.
  unfold sync_bytes, dart_request, dart_args.
  now rewrite wires_args.
Qed.

Lemma async_bytes_request D U ds node z vs : async_bytes D U ds z vs node = dart_async_request D U ds node z vs.
Proof.
  unfold async_bytes, dart_async_request, dart_args.
  now rewrite wires_args.
Qed.

Lemma lem_C31_new_client : forall ast items C sc D U fuel s,
  let nodes := find_fn_nodes ast in
  client_file ast items C sc -> dlawful D U -> 3 <= fuel ->
  exists a h' V,
    let ts := d_tasks s ++ map (fun n => Some (node_task C sc n a)) (filter is_async_or_read nodes) in
    call_new D items fuel C [(None, dsched)] s = DDone (dref a) (set_dtasks ts (set_heap h' s)) /\
    changes (d_heap s) h' [] /\ shows C sc nodes h' ts a V /\ (forall b, owned nodes V a b -> fresh (d_heap s) h' b) /\
    (forall node, In node nodes -> is_async_or_read node = true ->
      nth_error ts (w_task V (fn_id node)) = Some (Some (node_task C sc node a)) /\
      tk_scope (node_task C sc node a) = sc /\ tk_address (node_task C sc node a) = Z.of_N (fn_position node) /\ tk_side (node_task C sc node a) = "Client") /\
    (forall id, w_last V id = 0%Z /\ w_pending V id = [] /\ w_stream V id = ([], true)).
Proof.
  intros ast items C sc D U fuel s nodes CF L FU.
  destruct (client_section ast items C sc CF) as (FI & N & LB & OK & FC & CO).
  destruct fuel as [|[|[|n]]]; try lia.
  destruct (construct D items (schema_decls ast) LB OK C sc nodes FC CO n s) as (a & h' & V & E & CH & SH & FR & TK & EM).
  exists a, h', V.
  cbv zeta.
  split; [exact E|].
  split; [exact CH|].
  split; [exact SH|].
  split; [exact FR|].
  split; [|exact EM].
  intros node I T.
  split; [now apply TK|].
  repeat split.
Qed.

(** For the concrete cases: the client generated from the schema of RpcFacts, running on little-endian buffers.  A synchronous
    call is served by the generated Rust handler of [move_by]; [h] is the number of the status. *)
Definition c31_dart : list ditem := dart_tree c31_ast true true true.

Definition c31_loop (mem : string -> Z -> string -> bytes) : option (string -> Z -> string -> bytes) :=
  match call_fn le_runtime c31_service c31_items 5 (handler_name (c31_node "move_by")) (sync_args "svc" (Z.of_N (fn_position (c31_node "move_by")))) (set_mem mem (c31_state [])) with
  | Done _ q => Some (s_mem q)
  | _ => None
  end.

Definition c31_runtime (h : Z) : druntime :=
  let D := le_dart false in mk_druntime (rd_put D) (rd_get D) (rd_eput D) (rd_eget D) (rd_ext_put D) (rd_ext_get D) (rd_ext_new D) (rd_len_put D) (rd_len_get D)
    (rd_bulk D) (rd_float D) (rd_neg D) h (fun z => (z + 1)%Z) (fun _ => c31_loop).

Definition c31_start : dstate := mk_dstate [CObj "Point" [("x", dint 1); ("y", dint 2)]] [] [] (fun _ _ _ => []) 0 [].

Definition c31_made : dout dval := call_new (c31_runtime (-1)) c31_dart 9 "TestRpcClient" [(None, dsched)] c31_start.

Definition c31_at (o : dout dval) : nat := match o with DDone (dref a) _ => a | _ => 0 end.

Definition c31_then (o : dout dval) : dstate := match o with DDone _ s => s | _ => c31_start end.

Lemma c31_dlawful h : dlawful (c31_runtime h) le_support.
Proof.
  destruct (le_dlawful false).
  constructor; assumption.
Qed.

Lemma c31_agree h : agree le_runtime (c31_runtime h) le_support.
Proof.
  destruct (le_agree false).
  constructor; assumption.
Qed.

Lemma c31_client : client_file c31_ast c31_dart "TestRpcClient" "svc".
Proof.
  split; [vm_compute; reflexivity|].
  split; [eexists; split; vm_compute; reflexivity|].
  split; [vm_compute; reflexivity|].
  split; [vm_compute; discriminate|].
  split; [do 2 eexists; split; vm_compute; reflexivity|].
  split; [eexists; vm_compute; reflexivity|].
  vm_compute.
  reflexivity.
Qed.

Lemma c31_made_view : exists W, c31_made = DDone (dref (c31_at c31_made)) (c31_then c31_made) /\
  shows "TestRpcClient" "svc" (find_fn_nodes c31_ast) (d_heap (c31_then c31_made)) (d_tasks (c31_then c31_made)) (c31_at c31_made) W /\
  (forall node, In node (find_fn_nodes c31_ast) -> is_async_or_read node = true ->
    nth_error (d_tasks (c31_then c31_made)) (w_task W (fn_id node)) = Some (Some (node_task "TestRpcClient" "svc" node (c31_at c31_made)))) /\
  (forall id, w_last W id = 0%Z /\ w_pending W id = [] /\ w_stream W id = ([], true)).
Proof.
  destruct (lem_C31_new_client c31_ast c31_dart "TestRpcClient" "svc" (c31_runtime (-1)) le_support 9 c31_start c31_client (c31_dlawful _) ltac:(lia)) as (a & h' & W & E & _ & SH & _ & TK & EM).
  cbv zeta in E, SH, TK.
  exists W.
  change c31_made with (call_new (c31_runtime (-1)) c31_dart 9 "TestRpcClient" [(None, dsched)] c31_start).
  rewrite E.
  cbn [c31_at c31_then].
  split; [reflexivity|].
  split; [exact SH|].
  split; [|exact EM].
  intros node I T.
  exact (proj1 (TK node I T)).
Qed.

(** The arguments: the point at the address 0, and the number 4. *)
Lemma c31_passed : passed le_support c31_dart (schema_decls c31_ast) 5 (fun b => b = 0) (d_heap (c31_then c31_made)) 2 [c31_point 1 2; vnum "i32" 4] [dref 0; dint 4] (fn_args (c31_node "move_by")).
Proof.
  vm_compute.
  split; [reflexivity|].
  split; [lia|].
  split; [|split; [reflexivity|split; [lia|split; [reflexivity|exact Logic.I]]]].
  do 2 eexists.
  split; [reflexivity|].
  split; [reflexivity|].
  split; [reflexivity|].
  split; [eexists; split; reflexivity|].
  split; [eexists; split; reflexivity|exact Logic.I].
Qed.

Lemma lem_C32_client_call : forall ast items C sc D U cd node fuel a V s P d vs ws,
  let nodes := find_fn_nodes ast in let ds := schema_decls ast in
  client_file ast items C sc -> dlawful D U -> In node nodes -> fn_is_read node = false -> fn_is_async node = false ->
  shows C sc nodes (d_heap s) (d_tasks s) a V -> passed U items ds cd P (d_heap s) d vs ws (fn_args node) -> 2 * d + 5 <= fuel ->
  let mem := sent (d_mem s) sc (fn_position node) (dart_request D U ds node vs) in
  (rd_loop D (d_loops s) mem = None -> client_call D items fuel a node ws s = DThrows "ServerError") /\
  (forall mem', rd_loop D (d_loops s) mem = Some mem' ->
    let s' := set_loops (S (d_loops s)) (set_dmem mem' s) in
    (fn_return node = None -> client_call D items fuel a node ws s = DDone dnull s') /\
    (forall t z r, fn_return node = Some t -> rd_get D "Int8" (mem' sc (Z.of_N (fn_position node)) "Client") = Some (z, r) ->
      (z <> rd_has_data D -> client_call D items fuel a node ws s = DThrows "StateError") /\
      (z = rd_has_data D -> forall v rest, dtyped U ds (top_names items) cd v t = true -> 3 * depth v + 3 * cd + 5 <= fuel -> r = dwire D U ds false v t ++ rest ->
        exists w h', client_call D items fuel a node ws s = DDone w (set_heap h' s') /\ changes (d_heap s) h' [] /\
          rep U ds (fresh (d_heap s) h') h' w v t))).
Proof.
  intros ast items C sc D U cd node fuel a V s P d vs ws nodes ds CF L I NR NA SH PA FU mem.
  destruct (client_section ast items C sc CF) as (FI & N & LB & OK & FC & CO).
  destruct fuel as [|[|[|n]]]; try lia.
  destruct SH as (fs & A & _).
  destruct (sync_call D U items ds cd FI N LB OK L C sc nodes FC CO n a fs node d P vs ws s I (conj NA NR) A PA ltac:(lia)) as (X & Y).
  assert (EM : requested sc (d_mem s) node (sync_bytes D U ds vs node) = mem) by (unfold requested, mem, sent, overwrite, number; now rewrite sync_bytes_request).
  rewrite EM in X, Y.
  split; [exact X|].
  intros mem' EL.
  destruct (Y mem' EL) as (Y1 & Y2).
  split; [exact Y1|].
  intros t z r ER G.
  destruct (Y2 t z r ER G) as (Z1 & Z2).
  split; [exact Z1|].
  intros EZ v rest T DV W.
  apply (Z2 EZ v (depth v) rest T); [lia|lia|exact W].
Qed.

(** What the two runtimes agree on when the status of a sent buffer is the byte 255: in Dart it is read as the signed -1. *)
Definition same_status (D : druntime) : Prop := rd_has_data D = (-1)%Z.

Lemma status_agrees R D U : agree R D U -> same_status D -> rd_put D "Int8" (rd_has_data D) = rt_put R "u8" 255.
Proof.
  intros AG SS.
  rewrite SS.
  symmetry.
  exact (ag_int R D U AG "u8" 255%Z eq_refl eq_refl).
Qed.

Lemma identity_agrees R D U z : agree R D U -> in_range "i64" z = true -> rd_put D "Int64" z = rt_put R "i64" z.
Proof.
  intros AG G.
  rewrite (ag_int R D U AG "i64" z eq_refl G).
  change (int_codec (prim_size "i64")) with "Int64".
  assert (B : (z < 2 ^ 63)%Z) by (unfold in_range in G; cbn [String.eqb Ascii.eqb Bool.eqb orb] in G; lia).
  assert (E : signed (prim_size "i64") z = z); [|now rewrite E].
  unfold signed.
  change (8 * Z.of_nat (prim_size "i64") - 1)%Z with 63%Z.
  now rewrite (proj2 (Z.ltb_lt _ _) B).
Qed.

(** The arguments and the result are representable in both languages. *)
Definition args_portable (ds : list decl) (node : fn_node) (vs : list val) : bool := all2 (fun v x => portable ds v (fa_type x)) vs (fn_args node).

Definition result_portable (ds : list decl) (node : fn_node) (v : val) : bool := match fn_return node with Some t => portable ds v t | None => true end.

Lemma args_agree ast items R D U cd P h d vs : agree R D U -> forallb dart_decl_ok (schema_decls ast) = true -> forall ws args,
  passed U items (schema_decls ast) cd P h d vs ws args -> all2 (fun v x => portable (schema_decls ast) v (fa_type x)) vs args = true ->
  flat_map (wire R (rust_decls ast true true)) vs = flat_map (fun '(v, x) => dwire D U (schema_decls ast) false v (fa_type x)) (combine vs args).
Proof.
  intros AG OK.
  induction vs as [|v vs IH]; intros [|w ws] [|x args] PA PO; try destruct PA; [reflexivity|].
  destruct H0 as (DV & RP & PA).
  cbn [all2] in PO.
  apply andb_true_iff in PO as [PO1 PO2].
  cbn [flat_map combine].
  f_equal; [|now apply (IH ws)].
  exact (wire_agrees_upto R D U items (schema_decls ast) (RustCodec.args_decls (find_fn_nodes ast)) cd OK AG (depth v) v (fa_type x) (le_n _) H PO1).
Qed.

Lemma result_agrees ast items R D U cd node v : agree R D U -> forallb dart_decl_ok (schema_decls ast) = true ->
  dart_returns U (schema_decls ast) items cd node v = true -> result_portable (schema_decls ast) node v = true ->
  response_bytes R (rust_decls ast true true) node v = dart_result D U (schema_decls ast) node v.
Proof.
  unfold dart_returns, result_portable, response_bytes, dart_result.
  intros AG OK T PO.
  destruct (fn_return node) as [t|]; [|reflexivity].
  exact (wire_agrees_upto R D U items (schema_decls ast) (RustCodec.args_decls (find_fn_nodes ast)) cd OK AG (depth v) v t (le_n _) T PO).
Qed.

Lemma int8_get D U : dlawful D U -> same_status D -> forall r, rd_get D "Int8" (rd_put D "Int8" (rd_has_data D) ++ r) = Some (rd_has_data D, r).
Proof.
  intros L SS r.
  apply (dlaw_prim D U L).
  now rewrite SS.
Qed.

Lemma int64_get D U z : dlawful D U -> in_range "i64" z = true -> forall r, rd_get D "Int64" (rd_put D "Int64" z ++ r) = Some (z, r).
Proof.
  intros L G r.
  apply (dlaw_prim D U L).
  exact G.
Qed.

Lemma shows_more C sc nodes h h' ts ts' a V : shows C sc nodes h ts a V -> changes h h' [] -> (forall i, i < List.length ts -> nth_error ts' i = nth_error ts i) -> shows C sc nodes h' ts' a V.
Proof.
  intros H CH T.
  eapply shows_frame; [exact H|intros b O; destruct CH as [_ CH]; apply CH; [eapply owned_lt; eassumption|easy]|].
  intros node I Q.
  apply T.
  destruct H as (fs & _ & B & _).
  destruct (ns_task _ _ _ _ _ _ _ _ (B node I) Q) as (_ & [X|X]); eapply nth_some_lt, X.
Qed.

Lemma lem_C32_round_trip : forall ast models rust_file items C sc R V D U cd node fuel dfuel a W s q P d vs ws v,
  let nodes := find_fn_nodes ast in let ds := schema_decls ast in let rds := rust_decls ast true true in let addr := Z.of_N (fn_position node) in
  rpc_file ast models true rust_file -> client_file ast items C sc -> lawful R -> dlawful D U -> agree R D U -> same_status D ->
  In node nodes -> fn_is_read node = false -> fn_is_async node = false -> sv_async V (fn_id node) = false ->
  arguments R rds node vs = true -> passed U items ds cd P (d_heap s) d vs ws (fn_args node) -> args_portable ds node vs = true ->
  is_result R rds node v = true -> dart_returns U ds items cd node v = true -> result_portable ds node v = true ->
  RpcFacts.within fuel (v :: vs) -> 2 * d + 5 <= dfuel -> 3 * depth v + 3 * cd + 5 <= dfuel ->
  shows C sc nodes (d_heap s) (d_tasks s) a W ->
  sv_call V (List.length (s_log q)) (fn_id node) vs = Some v ->
  (forall mem r q', call_fn R V rust_file fuel (handler_name node) (sync_args sc addr) (set_mem mem q) = Done r q' ->
    exists mem', rd_loop D (d_loops s) mem = Some mem' /\ mem' sc addr "Client" = s_mem q' sc addr "Client") ->
  exists w h' mem mem' q',
    rd_loop D (d_loops s) mem = Some mem' /\
    call_fn R V rust_file fuel (handler_name node) (sync_args sc addr) (set_mem mem q) = Done (bool_val true) q' /\
    (exists m, s_log q' = s_log q ++ [mk_called (fn_id node) vs m]) /\
    client_call D items dfuel a node ws s = DDone w (set_heap h' (set_loops (S (d_loops s)) (set_dmem mem' s))) /\
    changes (d_heap s) h' [] /\ returned U ds node v (d_heap s) h' w.
Proof.
  intros ast models rust_file items C sc R V D U cd node fuel dfuel a W s q P d vs ws v nodes ds rds addr RF CF LR L AG SS I NR NA SA AR PA PO IR DR PR WI F1 F2 SH SV LOOP.
  destruct (client_section ast items C sc CF) as (FI & N & LB & OK & FC & CO).
  destruct (lem_C32_client_call ast items C sc D U cd node dfuel a W s P d vs ws CF L I NR NA SH PA F1) as (_ & Y).
  set (mem := sent (d_mem s) sc (fn_position node) (dart_request D U ds node vs)) in *.
  assert (EB : dart_request D U ds node vs = request_bytes R rds vs).
  { unfold dart_request, request_bytes, dart_args.
  rewrite (status_agrees R D U AG SS).
  f_equal.
  symmetry.
  now apply (args_agree ast items R D U cd P (d_heap s) d vs AG OK ws).
  }
  assert (ES : s_mem (set_mem mem q) sc addr "Server" = request_bytes R rds vs ++ skipn (List.length (request_bytes R rds vs)) (d_mem s sc addr "Server")).
  { cbn [set_mem s_mem].
  unfold mem, sent.
  fold addr.
  unfold upd_mem.
  rewrite !String.eqb_refl, Z.eqb_refl.
  cbn [andb].
  now rewrite EB.
  }
  destruct (lem_C32_sync_call ast models true rust_file R V node vs v _ fuel (set_mem mem q) sc addr RF LR I NR NA SA AR WI ES SV IR) as (q' & m & old & old' & E & LG & _ & _ & _ & CL & _).
  destruct (LOOP mem _ q' E) as (mem' & EL & EC).
  destruct (Y mem' EL) as (Y1 & Y2).
  rewrite CL in EC.
  rewrite <- (status_agrees R D U AG SS) in EC.
  unfold rds in EC.
  rewrite (result_agrees ast items R D U cd node v AG OK DR PR) in EC.
  unfold dart_result in EC.
  unfold returned.
  unfold dart_returns in DR.
  fold ds in EC, DR |- *.
  destruct (fn_return node) as [t|] eqn:ER.
  - destruct (Y2 t (rd_has_data D) (dwire D U ds false v t ++ old') eq_refl) as (_ & Z2).
  { fold addr.
  rewrite EC.
  now apply (int8_get D U).
  }
    destruct (Z2 eq_refl v old' DR F2 eq_refl) as (w & h' & E1 & E2 & E3).
  exists w, h', mem, mem', q'.
  split; [exact EL|].
  split; [exact E|].
  split; [eexists; exact LG|].
  split; [exact E1|].
  split; [exact E2|exact E3].
  - exists dnull, (d_heap s), mem, mem', q'.
  split; [exact EL|].
  split; [exact E|].
  split; [eexists; exact LG|].
  split; [rewrite (Y1 eq_refl); now destruct s|].
  split; [apply changes_refl|reflexivity].
Qed.

Lemma lem_C32_client_status : forall ast models rust_file items C sc R V D U cd node fuel dfuel a W s q P d vs ws v t,
  let nodes := find_fn_nodes ast in let ds := schema_decls ast in let rds := rust_decls ast true true in let addr := Z.of_N (fn_position node) in
  rpc_file ast models true rust_file -> client_file ast items C sc -> lawful R -> dlawful D U -> agree R D U ->
  rd_has_data D <> (-1)%Z -> rd_put D "Int8" (rd_has_data D) = rt_put R "u8" 255 ->
  In node nodes -> fn_is_read node = false -> fn_is_async node = false -> sv_async V (fn_id node) = false -> fn_return node = Some t ->
  arguments R rds node vs = true -> passed U items ds cd P (d_heap s) d vs ws (fn_args node) -> args_portable ds node vs = true ->
  is_result R rds node v = true -> RpcFacts.within fuel (v :: vs) -> 2 * d + 5 <= dfuel ->
  shows C sc nodes (d_heap s) (d_tasks s) a W ->
  sv_call V (List.length (s_log q)) (fn_id node) vs = Some v ->
  (forall mem r q', call_fn R V rust_file fuel (handler_name node) (sync_args sc addr) (set_mem mem q) = Done r q' ->
    exists mem', rd_loop D (d_loops s) mem = Some mem' /\ mem' sc addr "Client" = s_mem q' sc addr "Client") ->
  (exists mem q' m, call_fn R V rust_file fuel (handler_name node) (sync_args sc addr) (set_mem mem q) = Done (bool_val true) q' /\
    s_log q' = s_log q ++ [mk_called (fn_id node) vs m]) /\
  client_call D items dfuel a node ws s = DThrows "StateError".
Proof.
  intros ast models rust_file items C sc R V D U cd node fuel dfuel a W s q P d vs ws v t nodes ds rds addr RF CF LR L AG NS ES I NR NA SA ER AR PA PO IR WI F1 SH SV LOOP.
  destruct (client_section ast items C sc CF) as (FI & N & LB & OK & FC & CO).
  destruct (lem_C32_client_call ast items C sc D U cd node dfuel a W s P d vs ws CF L I NR NA SH PA F1) as (_ & Y).
  set (mem := sent (d_mem s) sc (fn_position node) (dart_request D U ds node vs)) in *.
  assert (EB : dart_request D U ds node vs = request_bytes R rds vs).
  { unfold dart_request, request_bytes, dart_args.
  rewrite ES.
  f_equal.
  symmetry.
  now apply (args_agree ast items R D U cd P (d_heap s) d vs AG OK ws).
  }
  assert (EQ : s_mem (set_mem mem q) sc addr "Server" = request_bytes R rds vs ++ skipn (List.length (request_bytes R rds vs)) (d_mem s sc addr "Server")).
  { cbn [set_mem s_mem].
  unfold mem, sent.
  fold addr.
  unfold upd_mem.
  rewrite !String.eqb_refl, Z.eqb_refl.
  cbn [andb].
  now rewrite EB.
  }
  destruct (lem_C32_sync_call ast models true rust_file R V node vs v _ fuel (set_mem mem q) sc addr RF LR I NR NA SA AR WI EQ SV IR) as (q' & m & old & old' & E & LG & _ & _ & _ & CL & _).
  split; [exists mem, q', m; split; [exact E|exact LG]|].
  destruct (LOOP mem _ q' E) as (mem' & EL & EC).
  destruct (Y mem' EL) as (_ & Y2).
  destruct (Y2 t (-1)%Z (response_bytes R rds node v ++ old') ER) as (Z1 & _); [|apply Z1; congruence].
  fold addr.
  rewrite EC, CL.
  rewrite (ag_int R D U AG "u8" 255%Z eq_refl eq_refl).
  apply (dlaw_prim D U L).
  reflexivity.
Qed.

Lemma lem_C34_client_call : forall ast items C sc D U cd node fuel a V s (P : nat -> Prop) d vs ws,
  let nodes := find_fn_nodes ast in let ds := schema_decls ast in let id := fn_id node in let z := w_last V id in let p := List.length (d_heap s) in
  client_file ast items C sc -> dlawful D U -> In node nodes -> fn_is_read node = false -> fn_is_async node = true ->
  shows C sc nodes (d_heap s) (d_tasks s) a V -> passed U items ds cd P (d_heap s) d vs ws (fn_args node) -> ~ P a -> 2 * d + 5 <= fuel ->
  exists h' V', client_call D items fuel a node ws s =
      DDone (dref p) (set_heap h' (set_dmem (sent (d_mem s) sc (fn_position node) (dart_async_request D U ds node z vs)) s)) /\
    shows C sc nodes h' (d_tasks s) a V' /\ nth_error h' p = Some (CDone None) /\
    w_pending V' id = filter (fun x => negb (Z.eqb (fst x) z)) (w_pending V id) ++ [(z, p)] /\ w_last V' id = rd_rotate D z /\
    (forall i, i <> id -> w_pending V' i = w_pending V i /\ w_last V' i = w_last V i) /\ w_stream V' = w_stream V /\ w_task V' = w_task V /\
    List.length h' = S p /\ (forall b, b < p -> b <> a -> b <> w_map V id -> nth_error h' b = nth_error (d_heap s) b).
Proof.
  intros ast items C sc D U cd node fuel a V s P d vs ws nodes ds id z p CF L I NR NA SH PA NP FU.
  destruct (client_section ast items C sc CF) as (FI & N & LB & OK & FC & CO).
  destruct fuel as [|[|[|n]]]; try lia.
  destruct SH as (fs & A & B & SP).
  destruct (ns_async _ _ _ _ _ _ _ _ (B node I) (conj NA NR)) as (L1 & L2 & L3 & L4 & L5).
  assert (PA' : passed U items ds cd (fun b => b <> a) (d_heap s) d vs ws (fn_args node)).
  { eapply passed_frame; [|exact PA].
  intros b Q.
  split; [intros ->; contradiction|reflexivity].
  }
  destruct (async_call D U items ds cd FI N LB OK L C sc nodes FC CO n a fs node d vs ws s z (w_map V id) (pend (w_pending V id)) I (conj NA NR) A L1 L2 L3 PA' ltac:(lia)) as (fs' & SK & E).
  pose proof (shows_called D items C sc nodes FC CO (d_heap s) (d_tasks s) a V node fs' fs I (conj NA NR) A B SP SK) as SH.
  fold p in E, SH.
  set (h' := set_cell (w_map V id) _ _) in E.
  assert (LP : w_map V id < p) by (eapply nth_some_lt, L3).
  assert (LS : List.length (set_cell a (CObj C fs') (d_heap s)) = p) by (apply set_cell_length).
  exists h', (called D V id p).
  split; [|split; [exact SH|split; [|split; [|split; [|split; [|split; [|split; [|split]]]]]]]].
  - unfold client_call.
  rewrite E.
  f_equal.
  unfold requested, sent, overwrite, number.
  now rewrite async_bytes_request.
  - unfold h'.
  rewrite set_cell_other by (clear - LP; lia).
  rewrite nth_error_app2, LS, Nat.sub_diag by (rewrite LS; reflexivity).
  reflexivity.
  - unfold called.
  cbn [set_pending set_last w_pending].
  now rewrite upd_same.
  - unfold called.
  cbn [set_pending set_last w_last].
  now rewrite upd_same.
  - intros i NI.
  unfold called.
  cbn [set_pending set_last w_pending w_last].
  rewrite !upd_other by exact NI.
  split; reflexivity.
  - reflexivity.
  - reflexivity.
  - unfold h'.
  rewrite set_cell_length, app_length, LS.
  cbn.
  clear.
  lia.
  - intros b LB1 NB NM.
  unfold h'.
  rewrite set_cell_other by congruence.
  rewrite nth_error_app1 by (rewrite LS; exact LB1).
  apply set_cell_other.
  congruence.
Qed.

(** The client after the two calls. *)
Definition c34_first : dout dval := client_call (c31_runtime (-1)) c31_dart 26 (c31_at c31_made) (c31_node "later") [dint 7] (c31_then c31_made).

Definition c34_second : dout dval := client_call (c31_runtime (-1)) c31_dart 26 (c31_at c31_made) (c31_node "later") [dint 8] (c31_then c34_first).

Lemma c34_passed h n : n = 7%Z \/ n = 8%Z ->
  passed le_support c31_dart (schema_decls c31_ast) 5 (fun _ => False) h 2 [vnum "u8" n] [dint n] (fn_args (c31_node "later")).
Proof.
  intros [-> | ->]; vm_compute; (split; [reflexivity|]); (split; [lia|]); split; [reflexivity|exact Logic.I|reflexivity|exact Logic.I].
Qed.

(** After two calls by any client without pending calls, both are pending. *)
Lemma c34_view a W s : shows "TestRpcClient" "svc" (find_fn_nodes c31_ast) (d_heap s) (d_tasks s) a W ->
  nth_error (d_tasks s) (w_task W "later") = Some (Some (node_task "TestRpcClient" "svc" (c31_node "later") a)) -> w_last W "later" = 0%Z -> w_pending W "later" = [] ->
  exists p1 s1 p2 s2 W2, client_call (c31_runtime (-1)) c31_dart 26 a (c31_node "later") [dint 7] s = DDone (dref p1) s1 /\
    client_call (c31_runtime (-1)) c31_dart 26 a (c31_node "later") [dint 8] s1 = DDone (dref p2) s2 /\
    shows "TestRpcClient" "svc" (find_fn_nodes c31_ast) (d_heap s2) (d_tasks s2) a W2 /\ w_pending W2 "later" = [(0%Z, p1); (1%Z, p2)] /\
    nth_error (d_tasks s2) (w_task W2 "later") = Some (Some (node_task "TestRpcClient" "svc" (c31_node "later") a)).
Proof.
  intros SH TK E1 E2.
  assert (I : In (c31_node "later") (find_fn_nodes c31_ast)) by (vm_compute; tauto).
  assert (FI : fn_id (c31_node "later") = "later") by reflexivity.
  destruct (lem_C34_client_call c31_ast c31_dart "TestRpcClient" "svc" (c31_runtime (-1)) le_support 5 (c31_node "later") 26 a W s (fun _ => False) 2
    [vnum "u8" 7] [dint 7] c31_client (c31_dlawful _) I eq_refl eq_refl SH (c34_passed _ _ (or_introl eq_refl)) (fun f => f) ltac:(lia)) as (h1 & W1 & X1 & S1 & _ & P1 & N1 & _ & _ & T1 & _ & _).
  cbv zeta in P1, N1.
  rewrite FI, E1 in N1.
  rewrite FI, E1, E2 in P1.
  cbn [filter app] in P1.
  set (s1 := set_heap h1 _) in X1.
  destruct (lem_C34_client_call c31_ast c31_dart "TestRpcClient" "svc" (c31_runtime (-1)) le_support 5 (c31_node "later") 26 a W1 s1 (fun _ => False) 2
    [vnum "u8" 8] [dint 8] c31_client (c31_dlawful _) I eq_refl eq_refl S1 (c34_passed _ _ (or_intror eq_refl)) (fun f => f) ltac:(lia)) as (h2 & W2 & X2 & S2 & _ & P2 & _ & _ & _ & T2 & _ & _).
  cbv zeta in P2.
  rewrite FI, N1, P1 in P2.
  cbn [c31_runtime rd_rotate filter fst Z.add Z.eqb negb app] in P2.
  eexists _, s1, _, _, W2.
  split; [exact X1|].
  split; [exact X2|].
  split; [exact S2|].
  split; [exact P2|].
  rewrite T2, T1.
  exact TK.
Qed.

(** The bytes of a response. *)
Definition dart_response (D : druntime) (U : support) (ds : list decl) (node : fn_node) (z : Z) (v : val) : bytes :=
  rd_put D "Int8" (rd_has_data D) ++ rd_put D "Int64" z ++ dart_result D U ds node v.

Definition pending (V : view) (id : string) (z : Z) (p : nat) : Prop := In (z, p) (w_pending V id).

Lemma pending_is V id z p : NoDup (map fst (w_pending V id)) -> pending V id z p -> pending_at z (w_pending V id) = Some p.
Proof.
  unfold pending.
  induction (w_pending V id) as [|[k q] l IH]; intros N J; [destruct J|].
  cbn [map fst] in N.
  apply NoDup_cons_iff in N as [N1 N2].
  cbn [pending_at].
  destruct J as [[= -> ->]|J]; [now rewrite Z.eqb_refl|].
  destruct (Z.eqb_spec k z) as [->|NE]; [|now apply IH].
  exfalso.
  apply N1.
  apply in_map_iff.
  now exists (z, p).
Qed.

Lemma lem_C34_client_answer : forall ast items C sc D U cd node fuel a V s z v rest,
  let nodes := find_fn_nodes ast in let ds := schema_decls ast in let id := fn_id node in
  client_file ast items C sc -> dlawful D U -> dart_range "Int8" (rd_has_data D) = true -> In node nodes -> fn_is_read node = false -> fn_is_async node = true ->
  shows C sc nodes (d_heap s) (d_tasks s) a V -> nth_error (d_tasks s) (w_task V id) = Some (Some (node_task C sc node a)) ->
  dart_range "Int64" z = true -> dart_returns U ds items cd node v = true -> 3 * depth v + 3 * cd + 4 <= fuel ->
  d_mem s sc (Z.of_N (fn_position node)) "Client" = dart_response D U ds node z v ++ rest ->
  exists w h' V', run_task D items fuel (w_task V id) s = DDone dnull (set_heap h' s) /\ returned U ds node v (d_heap s) h' w /\
    shows C sc nodes h' (d_tasks s) a V' /\
    (forall p, pending V id z p -> nth_error h' p = Some (CDone (Some w))) /\
    w_pending V' id = filter (fun x => negb (Z.eqb (fst x) z)) (w_pending V id) /\ (forall i, i <> id -> w_pending V' i = w_pending V i) /\
    w_last V' = w_last V /\ w_map V' = w_map V /\ w_ctrl V' = w_ctrl V /\ w_stream V' = w_stream V /\ w_task V' = w_task V /\
    List.length (d_heap s) <= List.length h' /\
    (forall b, b < List.length (d_heap s) -> b <> w_map V id -> ~ pending V id z b -> nth_error h' b = nth_error (d_heap s) b).
Proof.
  intros ast items C sc D U cd node fuel a V s z v rest nodes ds id CF L SR I NR NA SH TK RZ DR FU EM.
  destruct (client_section ast items C sc CF) as (FI & N & LB & OK & FC & CO).
  destruct fuel as [|[|n]]; try lia.
  pose proof SH as (fs & A & B & SP).
  destruct (ns_async _ _ _ _ _ _ _ _ (B node I) (conj NA NR)) as (L1 & L2 & L3 & L4 & L5).
  fold id in L1, L2, L3, L4, L5.
  assert (PI : forall p, pending_at z (w_pending V id) = Some p <-> pending V id z p).
  { intros p.
  split; [apply pending_in|now apply pending_is].
  }
  destruct (task_async D U items ds cd FI N LB OK L C sc nodes FC CO n a fs (w_task V id) node s (rd_has_data D) (w_map V id) (pend (w_pending V id)) z
    (rd_put D "Int64" z ++ dart_result D U ds node v ++ rest) v (depth v) rest I (conj NA NR) A TK L2 L3) as (w & h1 & E & CH & RR).
  - intros u MG.
  rewrite pend_get in MG.
  destruct (pending_at z (w_pending V id)) as [p|] eqn:PE; [|discriminate MG].
  injection MG as <-.
  exists p.
  split; [reflexivity|].
  apply (L5 z).
  now apply PI.
  - reflexivity.
  - unfold number.
  rewrite EM.
  unfold dart_response.
  rewrite <- !app_assoc.
  now apply (dlaw_prim D U L).
  - rewrite (dlaw_prim D U L) by exact RZ.
  reflexivity.
  - unfold result_ok.
  unfold dart_returns in DR.
  destruct (fn_return node); [|exact Logic.I].
  split; [exact DR|].
  split; [lia|lia].
  - destruct (shows_completed C sc nodes h1 (d_tasks s) a V node z w I (conj NA NR) (shows_changes C sc nodes _ _ _ a V SH CH)) as (S1 & S2 & S3 & S4).
  cbv zeta in S1, S2, S3, S4.
  fold id in S1, S2, S3, S4.
  set (h' := completed h1 _ _ z w) in *.
  exists w, h', (set_pending V id (without z (w_pending V id))).
  split; [exact E|].
  assert (MO : w_map V id < List.length (d_heap s)) by (eapply nth_some_lt, L3).
  destruct CH as [CL CH].
  split; [|split; [exact S1|split; [intros p Q; apply S2; now apply PI|split; [cbn [set_pending w_pending]; now rewrite upd_same|split; [intros i NI; cbn [set_pending w_pending]; now rewrite upd_other|]]]]].
  + unfold returned.
  unfold result_read in RR.
  destruct (fn_return node); [|exact RR].
  eapply rep_frame; [|exact RR].
  intros b [F1 F2].
  split; [unfold fresh; rewrite S4; now split|].
  apply S3; [lia|].
  intros PE.
  apply PI in PE.
  specialize (L5 z b PE).
  apply nth_some_lt in L5.
  lia.
  + do 5 (split; [reflexivity|]).
  split; [lia|].
  intros b LT NM NP.
  rewrite S3; [apply CH; [exact LT|easy]|exact NM|].
  intros PE.
  apply NP.
  now apply PI.
Qed.

(** Responses to any methods in any order, each read by the client before the next one is written. *)
Record answer := mk_answer { an_node : fn_node; an_id : Z; an_value : val; an_rest : bytes }.

Fixpoint deliver (D : druntime) (U : support) (items : list ditem) (ds : list decl) (sc : string) (fuel : nat) (task : string -> nat) (l : list answer) : dM dval := fun s =>
  match l with
  | [] => DDone dnull s
  | r :: l' => dbind (run_task D items fuel (task (fn_id (an_node r)))) (fun _ => deliver D U items ds sc fuel task l')
      (set_dmem (upd_mem (d_mem s) sc (Z.of_N (fn_position (an_node r))) "Client" (dart_response D U ds (an_node r) (an_id r) (an_value r) ++ an_rest r)) s)
  end.

(** The first response to the call [z] of a method. *)
Definition answer_to (id : string) (z : Z) (l : list answer) : option answer := find (fun r => String.eqb (fn_id (an_node r)) id && Z.eqb (an_id r) z) l.

Lemma owned_cell C sc nodes h ts a V b w : shows C sc nodes h ts a V -> owned nodes V a b -> nth_error h b <> Some (CDone (Some w)).
Proof.
  intros (fs & (A & _) & B & _) [->|[(x & I & Q & R)|(x & I & Q & ->)]] E.
  - congruence.
  - destruct (ns_async _ _ _ _ _ _ _ _ (B x I) Q) as (_ & _ & X3 & _ & X5).
  destruct R as [->|R]; [congruence|].
  apply in_map_iff in R as ([k p] & <- & R).
  specialize (X5 k p R).
  cbn [snd] in E.
  congruence.
  - destruct (ns_read _ _ _ _ _ _ _ _ (B x I) Q) as (_ & Y).
  congruence.
Qed.

Lemma owned_sub nodes V V' a b : w_map V' = w_map V -> w_ctrl V' = w_ctrl V -> (forall i, incl (w_pending V' i) (w_pending V i)) -> owned nodes V' a b -> owned nodes V a b.
Proof.
  intros E1 E2 IN [->|[(x & I & Q & R)|(x & I & Q & ->)]]; [now left| |].
  - right.
  left.
  exists x.
  split; [exact I|].
  split; [exact Q|].
  rewrite E1 in R.
  destruct R as [R|R]; [now left|].
  right.
  apply in_map_iff in R as ([k p] & <- & R).
  apply in_map_iff.
  exists (k, p).
  split; [reflexivity|].
  now apply IN.
  - right.
  right.
  exists x.
  rewrite E2.
  auto.
Qed.

Lemma filter_filter {X} (f g : X -> bool) l : filter f (filter g l) = filter (fun x => g x && f x) l.
Proof.
  induction l as [|x l IH]; [reflexivity|].
  cbn.
  destruct (g x); cbn; [destruct (f x); now rewrite IH|exact IH].
Qed.

Lemma filter_ext {X} (f g : X -> bool) l : (forall x, f x = g x) -> filter f l = filter g l.
Proof.
  intros E.
  induction l as [|x l IH]; [reflexivity|].
  cbn.
  rewrite E, IH.
  reflexivity.
Qed.

Lemma filter_all {X} (l : list X) : filter (fun _ => true) l = l.
Proof.
  induction l as [|x l IH]; [reflexivity|].
  cbn.
  now rewrite IH.
Qed.

Lemma lem_C34_any_order : forall ast items C sc D U cd fuel a l V s,
  let nodes := find_fn_nodes ast in let ds := schema_decls ast in
  client_file ast items C sc -> dlawful D U -> dart_range "Int8" (rd_has_data D) = true ->
  shows C sc nodes (d_heap s) (d_tasks s) a V ->
  Forall (fun r => In (an_node r) nodes /\ fn_is_read (an_node r) = false /\ fn_is_async (an_node r) = true /\
    nth_error (d_tasks s) (w_task V (fn_id (an_node r))) = Some (Some (node_task C sc (an_node r) a)) /\
    dart_range "Int64" (an_id r) = true /\ dart_returns U ds items cd (an_node r) (an_value r) = true /\ 3 * depth (an_value r) + 3 * cd + 4 <= fuel) l ->
  exists h' mem' V', deliver D U items ds sc fuel (w_task V) l s = DDone dnull (set_heap h' (set_dmem mem' s)) /\
    shows C sc nodes h' (d_tasks s) a V' /\
    (forall node, In node nodes -> fn_is_read node = false -> fn_is_async node = true ->
      w_pending V' (fn_id node) = filter (fun x => match answer_to (fn_id node) (fst x) l with None => true | Some _ => false end) (w_pending V (fn_id node)) /\
      forall z p, pending V (fn_id node) z p ->
        match answer_to (fn_id node) z l with
        | Some r => exists w, nth_error h' p = Some (CDone (Some w)) /\ returned U ds node (an_value r) (d_heap s) h' w
        | None => nth_error h' p = Some (CDone None)
        end) /\
    List.length (d_heap s) <= List.length h' /\
    (forall b, b < List.length (d_heap s) -> ~ owned nodes V a b -> nth_error h' b = nth_error (d_heap s) b).
Proof.
  intros ast items C sc D U cd fuel a l.
  induction l as [|r l IH]; intros V s nodes ds CF L SR SH FA.
  - exists (d_heap s), (d_mem s), V.
  split; [cbn; now destruct s|].
  split; [exact SH|].
  split; [|split; [lia|reflexivity]].
  intros node I NR NA.
  cbn [answer_to find].
  split; [symmetry; apply filter_all|].
  intros z p Q.
  destruct SH as (fs & _ & B & _).
  destruct (ns_async _ _ _ _ _ _ _ _ (B node I) (conj NA NR)) as (_ & _ & _ & _ & L5).
  now apply (L5 z).
  - apply Forall_cons_iff in FA as [(I & NR & NA & TK & RZ & DR & FU) FA].
  set (n0 := an_node r) in *.
  set (s0 := set_dmem (upd_mem (d_mem s) sc (Z.of_N (fn_position n0)) "Client" (dart_response D U ds n0 (an_id r) (an_value r) ++ an_rest r)) s).
  destruct (lem_C34_client_answer ast items C sc D U cd n0 fuel a V s0 (an_id r) (an_value r) (an_rest r) CF L SR I NR NA SH TK RZ DR FU)
      as (w & h1 & V1 & E1 & R1 & S1 & P1 & Q1 & Q2 & W1 & W2 & W3 & W4 & W5 & LE & O1).
  { cbn [s0 d_mem set_dmem].
  unfold upd_mem.
  rewrite !String.eqb_refl, Z.eqb_refl.
  reflexivity.
  }
    change (d_heap s0) with (d_heap s) in *.
  change (d_tasks s0) with (d_tasks s) in *.
  destruct (IH V1 (set_heap h1 s0) CF L SR) as (h' & mem' & V' & E2 & S2 & F2 & LE2 & O2).
  { exact S1.
  }
    { rewrite W5.
  exact FA.
  }
    change (d_heap (set_heap h1 s0)) with h1 in *.
  change (d_tasks (set_heap h1 s0)) with (d_tasks s) in *.
  fold nodes in F2, O2, S2.
  fold ds in F2, E2.
  assert (SUB : forall i, incl (w_pending V1 i) (w_pending V i)).
  { intros i x J.
  destruct (string_dec i (fn_id n0)) as [->|NE]; [rewrite Q1 in J; now apply filter_In in J|now rewrite Q2 in J].
  }
    assert (OS : forall b, owned nodes V1 a b -> owned nodes V a b) by (intros b; now apply owned_sub).
  assert (OL : forall b, owned nodes V1 a b -> b < List.length (d_heap s)) by (intros b Q; eapply owned_lt; [exact SH|now apply OS]).
  assert (NEW : forall x, returned U ds n0 (an_value r) (d_heap s) h1 x -> returned U ds n0 (an_value r) (d_heap s) h' x).
  { intros x.
  unfold returned.
  destruct (fn_return n0); [|auto].
  apply rep_frame.
  intros b [B1 B2].
  split; [unfold fresh; lia|].
  apply O2; [exact B2|].
  intros Q.
  apply OL in Q.
  lia.
  }
    exists h', mem', V'.
  split; [|split; [exact S2|split; [|split; [lia|]]]].
  + cbn [deliver].
  fold n0 s0.
  rewrite (dbind_done _ _ s0 _ _ E1).
  rewrite <- W5.
  rewrite E2.
  reflexivity.
  + intros node J NR' NA'.
  destruct (F2 node J NR' NA') as (FP & FC').
  unfold answer_to.
  cbn [find].
  fold n0.
  destruct (String.eqb_spec (fn_id n0) (fn_id node)) as [EN|NE].
  * assert (node = n0) as ->.
  { destruct (client_section ast items C sc CF) as (FI & N & LB & OK & FC & CO).
  symmetry.
  apply (same_node items C sc nodes CO n0 node I J); [now left|now left|exact EN].
  }
        split.
  -- rewrite FP, Q1, filter_filter.
  apply filter_ext.
  intros [k p].
  cbn [fst andb].
  fold (answer_to (fn_id n0) k l).
  rewrite (Z.eqb_sym k (an_id r)).
  now destruct (Z.eqb (an_id r) k).
  -- intros z p Q.
  cbn [andb].
  destruct (Z.eqb_spec (an_id r) z) as [<-|NZ].
  ++ exists w.
  split; [|now apply NEW].
  rewrite O2; [now apply P1| |].
  ** specialize (P1 p Q).
  eapply nth_some_lt, P1.
  ** intros OW.
  eapply (owned_cell C sc nodes h1 (d_tasks s) a V1 p w S1 OW).
  now apply P1.
  ++ specialize (FC' z p).
  fold (answer_to (fn_id n0) z l).
  assert (PV : pending V1 (fn_id n0) z p).
  { unfold pending.
  rewrite Q1.
  apply filter_In.
  split; [exact Q|].
  cbn [fst].
  apply negb_true_iff.
  apply Z.eqb_neq.
  congruence.
  }
              specialize (FC' PV).
  destruct (answer_to (fn_id n0) z l) as [r'|]; [|exact FC'].
  destruct FC' as (w' & X1 & X2).
  exists w'.
  split; [exact X1|].
  unfold returned in *.
  destruct (fn_return n0); [|exact X2].
  eapply rep_frame; [|exact X2].
  intros b [B1 B2].
  split; [unfold fresh; lia|reflexivity].
  * cbn [andb].
  assert (NE' : fn_id node <> fn_id n0) by congruence.
  split; [rewrite FP, (Q2 _ NE'); reflexivity|].
  intros z p Q.
  specialize (FC' z p).
  assert (PV : pending V1 (fn_id node) z p) by (unfold pending; now rewrite (Q2 _ NE')).
  specialize (FC' PV).
  fold (answer_to (fn_id node) z l).
  destruct (answer_to (fn_id node) z l) as [r'|]; [|exact FC'].
  destruct FC' as (w' & X1 & X2).
  exists w'.
  split; [exact X1|].
  unfold returned in *.
  destruct (fn_return node); [|exact X2].
  eapply rep_frame; [|exact X2].
  intros b [B1 B2].
  split; [unfold fresh; lia|reflexivity].
  + intros b LT NO.
  rewrite O2; [|lia|intros Q; apply NO; now apply OS].
  apply O1; [exact LT| |].
  * intros ->.
  apply NO.
  right.
  left.
  exists n0.
  split; [exact I|].
  split; [now split|now left].
  * intros Q.
  apply NO.
  right.
  left.
  exists n0.
  split; [exact I|].
  split; [now split|].
  right.
  apply in_map_iff.
  now exists (an_id r, b).
Qed.

Lemma lem_C34_round_trip : forall ast models rust_file items C sc R V D U cd node fuel dfuel a W s (P : nat -> Prop) d vs ws,
  let nodes := find_fn_nodes ast in let ds := schema_decls ast in let rds := rust_decls ast true true in
  let id := fn_id node in let addr := Z.of_N (fn_position node) in let z := w_last W id in let p := List.length (d_heap s) in
  rpc_file ast models true rust_file -> client_file ast items C sc -> lawful R -> dlawful D U -> agree R D U -> same_status D ->
  In node nodes -> fn_is_read node = false -> fn_is_async node = true -> sv_async V id = true ->
  in_range "i64" z = true -> arguments R rds node vs = true -> passed U items ds cd P (d_heap s) d vs ws (fn_args node) -> ~ P a -> args_portable ds node vs = true ->
  RpcFacts.within fuel vs -> fuel > 1 -> 2 * d + 5 <= dfuel -> shows C sc nodes (d_heap s) (d_tasks s) a W ->
  exists h' W' mem, client_call D items dfuel a node ws s = DDone (dref p) (set_heap h' (set_dmem mem s)) /\
    shows C sc nodes h' (d_tasks s) a W' /\ pending W' id z p /\ nth_error h' p = Some (CDone None) /\
    (forall sc' a' side, (sc', a', side) <> (sc, addr, "Server") -> mem sc' a' side = d_mem s sc' a' side) /\
    forall q, s_mem q sc addr "Server" = mem sc addr "Server" ->
    exists q' task, call_fn R V rust_file fuel (handler_name node) (async_args sc addr) q = Done (bool_val true) q' /\
      s_tasks q' = s_tasks q ++ [task] /\ s_log q' = s_log q /\
      forall q2 i v, nth_error (s_tasks q2) i = Some task -> sv_call V (List.length (s_log q2)) id vs = Some v ->
        is_result R rds node v = true -> dart_returns U ds items cd node v = true -> result_portable ds node v = true ->
        depth v <= fuel -> 3 * depth v + 3 * cd + 4 <= dfuel ->
      exists q3, complete R V rust_file fuel i q2 = Done vunit q3 /\ s_log q3 = s_log q2 ++ [mk_called id vs (s_mem q2)] /\
        forall s2 W2, shows C sc nodes (d_heap s2) (d_tasks s2) a W2 -> pending W2 id z p ->
          nth_error (d_tasks s2) (w_task W2 id) = Some (Some (node_task C sc node a)) ->
          d_mem s2 sc addr "Client" = s_mem q3 sc addr "Client" ->
        exists w h2, run_task D items dfuel (w_task W2 id) s2 = DDone dnull (set_heap h2 s2) /\
          nth_error h2 p = Some (CDone (Some w)) /\ returned U ds node v (d_heap s2) h2 w /\
          (forall b, b < List.length (d_heap s2) -> b <> p -> b <> w_map W2 id -> nth_error h2 b = nth_error (d_heap s2) b).
Proof.
  intros ast models rust_file items C sc R V D U cd node fuel dfuel a W s P d vs ws nodes ds rds id addr z p RF CF LR L AG SS I NR NA SA RZ AR PA NP PO WI F0 F1 SH.
  destruct (client_section ast items C sc CF) as (FI & N & LB & OK & FC & CO).
  destruct (lem_C34_client_call ast items C sc D U cd node dfuel a W s P d vs ws CF L I NR NA SH PA NP F1) as (h' & W' & E & SH' & CN & PW & _).
  set (mem := sent (d_mem s) sc (fn_position node) (dart_async_request D U ds node (w_last W (fn_id node)) vs)) in *.
  assert (EB : dart_async_request D U ds node (w_last W (fn_id node)) vs = async_request_bytes R rds z vs).
  { unfold dart_async_request, async_request_bytes, dart_args.
  rewrite (status_agrees R D U AG SS), (identity_agrees R D U (w_last W (fn_id node)) AG RZ).
  fold id.
  fold z.
  do 2 f_equal.
  symmetry.
  now apply (args_agree ast items R D U cd P (d_heap s) d vs AG OK ws).
  }
  exists h', W', mem.
  split; [exact E|].
  split; [exact SH'|].
  split; [unfold pending, id, z, p; rewrite PW; apply in_or_app; right; now left|].
  split; [exact CN|].
  split.
  { intros sc' a' side NE.
  unfold mem, sent, upd_mem.
  fold addr.
  destruct (String.eqb_spec sc' sc) as [->|], (Z.eqb_spec a' addr) as [->|], (String.eqb_spec side "Server") as [->|]; try reflexivity.
  now destruct NE.
  }
  intros q EQ.
  assert (ES : s_mem q sc addr "Server" = async_request_bytes R rds z vs ++ skipn (List.length (async_request_bytes R rds z vs)) (d_mem s sc addr "Server")).
  { rewrite EQ.
  unfold mem, sent.
  fold addr.
  unfold upd_mem.
  rewrite !String.eqb_refl, Z.eqb_refl.
  cbn [andb].
  now rewrite EB.
  }
  destruct (lem_C34_async_identity ast models true rust_file R V node z vs _ fuel q sc addr RF LR I NR NA SA RZ AR WI F0 ES) as (q' & old & task & E1 & T1 & G1 & _ & _ & LATER).
  exists q', task.
  split; [exact E1|].
  split; [exact T1|].
  split; [exact G1|].
  intros q2 i v TI SV IR DR PR DV F2.
  destruct (LATER q2 i v TI SV IR DV) as (q3 & old' & E3 & _ & G3 & C3 & _).
  exists q3.
  split; [exact E3|].
  split; [exact G3|].
  intros s2 W2 SH2 PD TK EM.
  assert (ER : d_mem s2 sc addr "Client" = dart_response D U ds node z v ++ old').
  { rewrite EM, C3.
  unfold dart_response.
  rewrite (status_agrees R D U AG SS), (identity_agrees R D U z AG RZ).
  rewrite (result_agrees ast items R D U cd node v AG OK DR PR).
  now rewrite <- !app_assoc.
  }
  destruct (lem_C34_client_answer ast items C sc D U cd node dfuel a W2 s2 z v old' CF L ltac:(now rewrite SS) I NR NA SH2 TK RZ DR F2 ER) as (w & h2 & V2 & X1 & X2 & _ & X3 & _ & _ & _ & _ & _ & _ & _ & _ & X4).
  exists w, h2.
  split; [exact X1|].
  split; [now apply X3|].
  split; [exact X2|].
  intros b B1 B2 B3.
  apply X4; [exact B1|exact B3|].
  intros Q.
  apply B2.
  destruct SH2 as (fs & _ & BB & _).
  destruct (ns_async _ _ _ _ _ _ _ _ (BB node I) (conj NA NR)) as (_ & _ & _ & ND & _).
  pose proof (pending_is W2 id z p ND PD) as Y1.
  pose proof (pending_is W2 id z b ND Q) as Y2.
  congruence.
Qed.

Lemma lem_C34_client_idle : forall ast items C sc D fuel a V s node z r,
  let nodes := find_fn_nodes ast in
  client_file ast items C sc -> In node nodes -> 1 <= fuel ->
  shows C sc nodes (d_heap s) (d_tasks s) a V -> nth_error (d_tasks s) (w_task V (fn_id node)) = Some (Some (node_task C sc node a)) ->
  rd_get D "Int8" (d_mem s sc (Z.of_N (fn_position node)) "Client") = Some (z, r) -> z <> rd_has_data D ->
  run_task D items fuel (w_task V (fn_id node)) s = DDone dnull s.
Proof.
  intros ast items C sc D fuel a V s node z r nodes CF I FU (fs & A & _) TK G NZ.
  destruct (client_section ast items C sc CF) as (FI & N & LB & OK & FC & CO).
  destruct fuel as [|n]; [lia|].
  exact (task_idle D items LB C sc nodes FC CO n a fs _ node s z r A TK G NZ).
Qed.

(** Not every response arrives: there is one response buffer per method, and a response that the client has not read yet is
    overwritten by the next one.  Here both calls are served and both responses are written, but however often the client then
    looks, the first call stays pending. *)
Definition c34_handle (mem : string -> Z -> string -> bytes) (q : state) : out val :=
  call_fn le_runtime c31_service c31_items 5 (handler_name (c31_node "later")) (async_args "svc" 2) (set_mem mem q).

Definition c34_after (o : out val) : state := match o with Done _ q => q | _ => c31_state [] end.

Fixpoint c34_runs (n : nat) (s : dstate) : dout dval :=
  match n with O => DDone dnull s | S n' => dbind (run_task (c31_runtime (-1)) c31_dart 22 0) (fun _ => c34_runs n') s end.

Definition c34_q1 : state := c34_after (c34_handle (d_mem (c31_then c34_first)) (c31_state [])).

Definition c34_q2 : state := c34_after (c34_handle (d_mem (c31_then c34_second)) c34_q1).

Definition c34_q3 : state := c34_after (complete le_runtime c31_service c31_items 5 0 c34_q2).

Definition c34_q4 : state := c34_after (complete le_runtime c31_service c31_items 5 0 c34_q3).

Definition c34_read : dstate := c31_then (run_task (c31_runtime (-1)) c31_dart 22 0 (set_dmem (s_mem c34_q4) (c31_then c34_second))).

Lemma c34_read_once : run_task (c31_runtime (-1)) c31_dart 22 0 (set_dmem (s_mem c34_q4) (c31_then c34_second)) = DDone dnull c34_read.
Proof.
  vm_compute.
  reflexivity.
Qed.

Lemma c34_read_again : run_task (c31_runtime (-1)) c31_dart 22 0 c34_read = DDone dnull c34_read.
Proof.
  vm_compute.
  reflexivity.
Qed.

Lemma c34_runs_read n : c34_runs n c34_read = DDone dnull c34_read.
Proof.
  induction n as [|n IH]; [reflexivity|].
  cbn [c34_runs].
  rewrite (dbind_done _ _ c34_read _ _ c34_read_again).
  exact IH.
Qed.

Lemma lem_C34_every_response_arrives_refuted : exists a s0 p1 s1 p2 s2 q1 q2 q3 q4,
  call_new (c31_runtime (-1)) c31_dart 9 "TestRpcClient" [(None, dsched)] c31_start = DDone (dref a) s0 /\
  client_call (c31_runtime (-1)) c31_dart 26 a (c31_node "later") [dint 7] s0 = DDone (dref p1) s1 /\
  c34_handle (d_mem s1) (c31_state []) = Done (bool_val true) q1 /\
  client_call (c31_runtime (-1)) c31_dart 26 a (c31_node "later") [dint 8] s1 = DDone (dref p2) s2 /\
  c34_handle (d_mem s2) q1 = Done (bool_val true) q2 /\
  complete le_runtime c31_service c31_items 5 0 q2 = Done vunit q3 /\ complete le_runtime c31_service c31_items 5 0 q3 = Done vunit q4 /\
  map (fun c => (cl_fn c, cl_args c)) (s_log q4) = [("later", [vnum "u8" 7]); ("later", [vnum "u8" 8])] /\ s_tasks q4 = [] /\
  forall n, exists s', c34_runs (S n) (set_dmem (s_mem q4) s2) = DDone dnull s' /\
    nth_error (d_heap s') p1 = Some (CDone None) /\ nth_error (d_heap s') p2 = Some (CDone (Some (dint 77))).
Proof.
  exists (c31_at c31_made), (c31_then c31_made), (c31_at c34_first), (c31_then c34_first), (c31_at c34_second), (c31_then c34_second), c34_q1, c34_q2, c34_q3, c34_q4.
  do 9 (split; [vm_compute; reflexivity|]).
  intros n.
  exists c34_read.
  split; [|split; vm_compute; reflexivity].
  cbn [c34_runs].
  rewrite (dbind_done _ _ _ _ _ c34_read_once).
  apply c34_runs_read.
Qed.

Lemma lem_C31_same_numbers : forall ast models buffers rust_file items C sc R V D U fuel q,
  let nodes := find_fn_nodes ast in let ds := schema_decls ast in
  rust_ready ast = true -> file_items ast models buffers true rust_file -> rpc_ok ast buffers = true ->
  client_file ast items C sc -> dlawful D U ->
  exists regs, call_fn R V rust_file fuel "register_rpc" [vref vruntime; vref vaddresses] q =
      Done vunit (set_regs (s_regs q ++ regs) (set_scopes (s_scopes q ++ [sc]) q)) /\
    List.length regs = List.length nodes /\
    forall node, In node nodes -> exists f g addr, In (f, g, sc, addr, handler_name node) regs /\
      (forall f' g' sc' addr', In (f', g', sc', addr', handler_name node) regs -> sc' = sc /\ addr' = addr) /\
      (is_async_or_read node = true -> forall dfuel s, 3 <= dfuel -> exists a s' i t,
         call_new D items dfuel C [(None, dsched)] s = DDone (dref a) s' /\ nth_error (d_tasks s') i = Some (Some t) /\
         t = node_task C sc node a /\ tk_scope t = sc /\ tk_address t = addr /\ tk_side t = "Client") /\
      (fn_is_read node = false -> forall cd dfuel a W s (P : nat -> Prop) d vs ws, shows C sc nodes (d_heap s) (d_tasks s) a W ->
         passed U items ds cd P (d_heap s) d vs ws (fn_args node) -> ~ P a -> 2 * d + 5 <= dfuel ->
         exists b, let mem := upd_mem (d_mem s) sc addr "Server" b in
           (fn_is_async node = true -> exists p h', client_call D items dfuel a node ws s = DDone (dref p) (set_heap h' (set_dmem mem s))) /\
           (fn_is_async node = false ->
             (rd_loop D (d_loops s) mem = None -> client_call D items dfuel a node ws s = DThrows "ServerError") /\
             (forall mem', rd_loop D (d_loops s) mem = Some mem' ->
               (fn_return node = None -> exists s', client_call D items dfuel a node ws s = DDone dnull s') /\
               (forall z r, fn_return node <> None -> rd_get D "Int8" (mem' sc addr "Client") = Some (z, r) -> z <> rd_has_data D ->
                 client_call D items dfuel a node ws s = DThrows "StateError")))).
Proof.
  intros ast models buffers rust_file items C sc R V D U fuel q nodes ds RR FI0 RO CF L.
  pose proof CF as (_ & _ & _ & NN & _ & (ty & ID) & _).
  destruct (lem_C31_registration ast models buffers rust_file R V fuel q RR FI0 RO NN) as (sc' & ty' & ID' & E).
  rewrite ID in ID'.
  injection ID' as <- <-.
  exists (map (fun n => registration n sc) nodes).
  split; [exact E|].
  split; [apply map_length|].
  intros node I.
  assert (REG : forall n, exists f g, registration n sc = (f, g, sc, Z.of_N (fn_position n), handler_name n)).
  { intros n.
  unfold registration.
  destruct (fn_is_read n), (fn_is_async n); do 2 eexists; reflexivity.
  }
  destruct (REG node) as (f & g & EG).
  exists f, g, (Z.of_N (fn_position node)).
  split; [apply in_map_iff; exists node; now split|].
  split.
  { intros f' g' sc' addr' J.
  apply in_map_iff in J as (n & EN & J).
  destruct (REG n) as (f2 & g2 & EG2).
  rewrite EG2 in EN.
  injection EN as _ _ <- <- EH.
  split; [reflexivity|].
  assert (n = node) as ->; [|reflexivity].
  unfold rpc_ok in RO.
  rewrite !andb_true_iff in RO.
  destruct RO as [[[_ O2] _] _].
  apply nodupb_NoDup in O2.
  assert (EF : fn_id n = fn_id node) by (unfold handler_name in EH; exact (append_cancel _ _ _ EH)).
  clear - O2 I J EF.
  unfold nodes in *.
  induction (find_fn_nodes ast) as [|x l IH]; [destruct I|].
  cbn [map] in O2.
  apply NoDup_cons_iff in O2 as [O1 O2].
  destruct I as [->|I], J as [->|J]; [reflexivity| | |now apply IH]; exfalso; apply O1; apply in_map_iff; eexists; (split; [|eassumption]); congruence.
  }
  split.
  { intros T dfuel s F.
  destruct (lem_C31_new_client ast items C sc D U dfuel s CF L F) as (a & h' & W & E1 & _ & _ & _ & TK & _).
  cbv zeta in E1, TK.
  destruct (TK node I T) as (T1 & T2 & T3 & T4).
  eexists a, _, _, _.
  split; [exact E1|].
  split; [exact T1|].
  split; [reflexivity|].
  now repeat split.
  }
  intros NR cd dfuel a W s P d vs ws SH PA NP F.
  destruct (fn_is_async node) eqn:NA.
  - destruct (lem_C34_client_call ast items C sc D U cd node dfuel a W s P d vs ws CF L I NR NA SH PA NP F) as (h' & W' & E1 & _).
  unfold sent in E1.
  fold ds in E1.
  eexists.
  cbv zeta.
  split; [intros _; eexists; eexists; exact E1|discriminate].
  - destruct (lem_C32_client_call ast items C sc D U cd node dfuel a W s P d vs ws CF L I NR NA SH PA F) as (Y0 & Y).
  unfold sent in Y0, Y.
  eexists.
  cbv zeta.
  split; [discriminate|].
  intros _.
  split; [exact Y0|].
  intros mem' EL.
  destruct (Y mem' EL) as (Y1 & Y2).
  split; [intros ER; eexists; now apply Y1|].
  intros z r ER G NZ.
  destruct (fn_return node) as [t|] eqn:ET; [|congruence].
  destruct (Y2 t z r eq_refl G) as (Z1 & _).
  now apply Z1.
Qed.

Lemma lem_C47_stream_adds : forall ast items C sc D U cd node fuel a V s v rest,
  let nodes := find_fn_nodes ast in let ds := schema_decls ast in let id := fn_id node in
  client_file ast items C sc -> dlawful D U -> dart_range "Int8" (rd_has_data D) = true -> In node nodes -> fn_is_read node = true ->
  shows C sc nodes (d_heap s) (d_tasks s) a V -> nth_error (d_tasks s) (w_task V id) = Some (Some (node_task C sc node a)) ->
  dart_returns U ds items cd node v = true -> 3 * depth v + 3 * cd + 4 <= fuel ->
  d_mem s sc (Z.of_N (fn_position node)) "Client" = rd_put D "Int8" (rd_has_data D) ++ dart_result D U ds node v ++ rest ->
  (snd (w_stream V id) = false -> run_task D items fuel (w_task V id) s = DThrows "StateError") /\
  (snd (w_stream V id) = true -> exists w h' V', run_task D items fuel (w_task V id) s = DDone dnull (set_heap h' s) /\
    returned U ds node v (d_heap s) h' w /\ shows C sc nodes h' (d_tasks s) a V' /\
    w_stream V' id = (fst (w_stream V id) ++ [w], true) /\ (forall i, i <> id -> w_stream V' i = w_stream V i) /\
    w_last V' = w_last V /\ w_map V' = w_map V /\ w_pending V' = w_pending V /\ w_ctrl V' = w_ctrl V /\ w_task V' = w_task V /\
    changes (d_heap s) h' [w_ctrl V id]).
Proof.
  intros ast items C sc D U cd node fuel a V s v rest nodes ds id CF L SR I RN SH TK DR FU EM.
  destruct (client_section ast items C sc CF) as (FI & N & LB & OK & FC & CO).
  destruct fuel as [|[|n]]; try lia.
  pose proof SH as (fs & A & B & SP).
  destruct (ns_read _ _ _ _ _ _ _ _ (B node I) RN) as (L1 & L2).
  fold id in L1, L2.
  destruct (task_read D U items ds cd FI N LB OK L C sc nodes FC CO n a fs (w_task V id) node s (rd_has_data D) (w_ctrl V id) (fst (w_stream V id)) (snd (w_stream V id))
    (dart_result D U ds node v ++ rest) v (depth v) rest I RN A TK L1 L2 eq_refl) as (w & h1 & E & CH & RR).
  - unfold number.
  rewrite EM.
  now apply (dlaw_prim D U L).
  - reflexivity.
  - unfold result_ok.
  unfold dart_returns in DR.
  destruct (fn_return node); [|exact Logic.I].
  split; [exact DR|].
  split; [lia|lia].
  - split; [intros O; rewrite O in E; exact E|].
  intros O.
  rewrite O in E.
  assert (LC : w_ctrl V id < List.length (d_heap s)) by (eapply nth_some_lt, L2).
  pose proof CH as [CL CH'].
  eexists w, _, (set_stream V id (fst (w_stream V id) ++ [w], true)).
  split; [exact E|].
  split; [|split; [apply shows_stream; [exact I|exact RN|eapply shows_changes; [exact SH|exact CH]]|split; [cbn [set_stream w_stream]; now rewrite upd_same|split; [intros i NI; cbn [set_stream w_stream]; now rewrite upd_other|]]]].
  + unfold returned.
  unfold result_read in RR.
  destruct (fn_return node); [|exact RR].
  eapply rep_frame; [|exact RR].
  intros b [F1 F2].
  split; [unfold fresh; rewrite set_cell_length; now split|].
  apply set_cell_other.
  lia.
  + do 5 (split; [reflexivity|]).
  eapply changes_trans; [eapply changes_more; [|exact CH]; intros b []|apply changes_set].
Qed.

Lemma lem_C47_read_round_trip : forall ast models rust_file items C sc R V D U cd node fuel dfuel a W s q v,
  let nodes := find_fn_nodes ast in let ds := schema_decls ast in let rds := rust_decls ast true true in
  let id := fn_id node in let addr := Z.of_N (fn_position node) in
  rpc_file ast models true rust_file -> client_file ast items C sc -> dlawful D U -> agree R D U -> same_status D ->
  In node nodes -> fn_is_read node = true -> fn_is_async node = false -> sv_async V id = false ->
  match fn_return node with Some ty => Wire.prim_name ty = None | None => True end ->
  sv_call V (List.length (s_log q)) id [] = Some (vopt (Some v)) -> is_result R rds node v = true -> depth v <= fuel ->
  dart_returns U ds items cd node v = true -> result_portable ds node v = true -> 3 * depth v + 3 * cd + 4 <= dfuel ->
  exists q', call_fn R V rust_file fuel (handler_name node) (async_args sc addr) q = Done (bool_val true) q' /\
    s_log q' = s_log q ++ [mk_called id [] (s_mem q)] /\
    (shows C sc nodes (d_heap s) (d_tasks s) a W -> nth_error (d_tasks s) (w_task W id) = Some (Some (node_task C sc node a)) ->
     snd (w_stream W id) = true -> d_mem s sc addr "Client" = s_mem q' sc addr "Client" ->
     exists w h' W', run_task D items dfuel (w_task W id) s = DDone dnull (set_heap h' s) /\ returned U ds node v (d_heap s) h' w /\
       shows C sc nodes h' (d_tasks s) a W' /\ w_stream W' id = (fst (w_stream W id) ++ [w], true) /\ (forall i, i <> id -> w_stream W' i = w_stream W i)).
Proof.
  intros ast models rust_file items C sc R V D U cd node fuel dfuel a W s q v nodes ds rds id addr RF CF L AG SS I RN NA SA NP SV IR DV DR PR F2.
  destruct (client_section ast items C sc CF) as (FI & N & LB & OK & FC & CO).
  destruct (lem_C36_read_runs ast models true rust_file R V node (Some v) fuel q sc addr RF I RN NA SA NP SV (conj IR DV)) as (q' & old & E & LG & CL & _).
  exists q'.
  split; [exact E|].
  split; [exact LG|].
  intros SH TK ST EM.
  assert (EB : d_mem s sc addr "Client" = rd_put D "Int8" (rd_has_data D) ++ dart_result D U ds node v ++ old).
  { rewrite EM, CL.
  rewrite (status_agrees R D U AG SS).
  rewrite (result_agrees ast items R D U cd node v AG OK DR PR).
  now rewrite <- !app_assoc.
  }
  destruct (lem_C47_stream_adds ast items C sc D U cd node dfuel a W s v old CF L ltac:(now rewrite SS) I RN SH TK DR F2 EB) as (_ & X).
  destruct (X ST) as (w & h' & W' & X1 & X2 & X3 & X4 & X5 & _).
  exists w, h', W'.
  split; [exact X1|].
  split; [exact X2|].
  split; [exact X3|].
  split; [exact X4|exact X5].
Qed.

Lemma lem_C47_async_read_round_trip : forall ast models rust_file items C sc R V D U cd node z rest fuel dfuel a q,
  let nodes := find_fn_nodes ast in let ds := schema_decls ast in let rds := rust_decls ast true true in
  let id := fn_id node in let addr := Z.of_N (fn_position node) in
  rpc_file ast models true rust_file -> client_file ast items C sc -> lawful R -> dlawful D U -> agree R D U -> same_status D ->
  In node nodes -> fn_is_read node = true -> fn_is_async node = true -> sv_async V id = true ->
  match fn_return node with Some ty => Wire.prim_name ty = None | None => True end ->
  rt_get R "u8" (s_mem q sc addr "Server") = Some (z, rest) -> z <> 255%Z ->
  exists q' task, call_fn R V rust_file fuel (handler_name node) (async_args sc addr) q = Done (bool_val true) q' /\
    s_tasks q' = s_tasks q ++ [task] /\
    forall q2 i v, nth_error (s_tasks q2) i = Some task -> sv_call V (List.length (s_log q2)) id [] = Some (vopt (Some v)) ->
      is_result R rds node v = true -> depth v <= fuel -> dart_returns U ds items cd node v = true -> result_portable ds node v = true -> 3 * depth v + 3 * cd + 4 <= dfuel ->
    exists q3, complete R V rust_file fuel i q2 = Done vunit q3 /\
      forall s W, shows C sc nodes (d_heap s) (d_tasks s) a W -> nth_error (d_tasks s) (w_task W id) = Some (Some (node_task C sc node a)) ->
        snd (w_stream W id) = true -> d_mem s sc addr "Client" = s_mem q3 sc addr "Client" ->
      exists w h' W', run_task D items dfuel (w_task W id) s = DDone dnull (set_heap h' s) /\ returned U ds node v (d_heap s) h' w /\
        shows C sc nodes h' (d_tasks s) a W' /\ w_stream W' id = (fst (w_stream W id) ++ [w], true) /\ (forall i, i <> id -> w_stream W' i = w_stream W i).
Proof.
  intros ast models rust_file items C sc R V D U cd node z rest fuel dfuel a q nodes ds rds id addr RF CF LR L AG SS I RN NA SA NP G NZ.
  destruct (client_section ast items C sc CF) as (FI & N & LB & OK & FC & CO).
  destruct (lem_C35_some_releases ast models true rust_file R V node z rest fuel q sc addr RF LR I RN NA SA NP G NZ) as (q' & task & E & T1 & _ & _ & LATER).
  exists q', task.
  split; [exact E|].
  split; [exact T1|].
  intros q2 i v TI SV IR DV DR PR F2.
  destruct (LATER q2 i v TI SV IR DV) as (q3 & q4 & old & E3 & _ & CL & _).
  exists q3.
  split; [exact E3|].
  intros s W SH TK ST EM.
  assert (EB : d_mem s sc addr "Client" = rd_put D "Int8" (rd_has_data D) ++ dart_result D U ds node v ++ old).
  { rewrite EM, CL.
  rewrite (status_agrees R D U AG SS).
  rewrite (result_agrees ast items R D U cd node v AG OK DR PR).
  now rewrite <- ?app_assoc.
  }
  destruct (lem_C47_stream_adds ast items C sc D U cd node dfuel a W s v old CF L ltac:(now rewrite SS) I RN SH TK DR F2 EB) as (_ & X).
  destruct (X ST) as (w & h' & W' & X1 & X2 & X3 & X4 & X5 & _).
  exists w, h', W'.
  split; [exact X1|].
  split; [exact X2|].
  split; [exact X3|].
  split; [exact X4|exact X5].
Qed.

Lemma lem_C47_repeated_read : forall ast items C sc D U cd node fuel a V s v rest,
  let nodes := find_fn_nodes ast in let ds := schema_decls ast in let id := fn_id node in
  client_file ast items C sc -> dlawful D U -> dart_range "Int8" (rd_has_data D) = true -> In node nodes -> fn_is_read node = true ->
  shows C sc nodes (d_heap s) (d_tasks s) a V -> nth_error (d_tasks s) (w_task V id) = Some (Some (node_task C sc node a)) ->
  dart_returns U ds items cd node v = true -> 3 * depth v + 3 * cd + 4 <= fuel -> snd (w_stream V id) = true ->
  d_mem s sc (Z.of_N (fn_position node)) "Client" = rd_put D "Int8" (rd_has_data D) ++ dart_result D U ds node v ++ rest ->
  exists w1 w2 h' V', dbind (run_task D items fuel (w_task V id)) (fun _ => run_task D items fuel (w_task V id)) s = DDone dnull (set_heap h' s) /\
    shows C sc nodes h' (d_tasks s) a V' /\ w_stream V' id = (fst (w_stream V id) ++ [w1; w2], true) /\
    returned U ds node v (d_heap s) h' w1 /\ returned U ds node v (d_heap s) h' w2.
Proof.
  intros ast items C sc D U cd node fuel a V s v rest nodes ds id CF L SR I RN SH TK DR FU ST EM.
  destruct (lem_C47_stream_adds ast items C sc D U cd node fuel a V s v rest CF L SR I RN SH TK DR FU EM) as (_ & X).
  destruct (X ST) as (w1 & h1 & V1 & E1 & R1 & S1 & T1 & _ & _ & _ & _ & W4 & W5 & CH1).
  fold id in E1, T1, W4, W5, CH1.
  assert (TK1 : nth_error (d_tasks (set_heap h1 s)) (w_task V1 id) = Some (Some (node_task C sc node a))) by (rewrite W5; exact TK).
  destruct (lem_C47_stream_adds ast items C sc D U cd node fuel a V1 (set_heap h1 s) v rest CF L SR I RN S1 TK1 DR FU EM) as (_ & X').
  destruct X' as (w2 & h2 & V2 & E2 & R2 & S2 & T2 & _ & _ & _ & _ & _ & _ & CH2); [fold id; now rewrite T1|].
  fold id in E2, T2, CH2.
  rewrite W5 in E2.
  rewrite W4 in CH2.
  rewrite T1 in T2.
  cbn [fst] in T2.
  change (d_heap (set_heap h1 s)) with h1 in *.
  pose proof SH as (fs & _ & B & _).
  destruct (ns_read _ _ _ _ _ _ _ _ (B node I) RN) as (_ & L2).
  fold id in L2.
  apply nth_some_lt in L2.
  destruct CH1 as [C1 _], CH2 as [C2 C2'].
  exists w1, w2, h2, V2.
  split; [rewrite (dbind_done _ _ s _ _ E1), E2; reflexivity|].
  split; [exact S2|].
  split; [rewrite T2, <- app_assoc; reflexivity|].
  split.
  - unfold returned in *.
  destruct (fn_return node); [|exact R1].
  eapply rep_frame; [|exact R1].
  intros b [F1 F2].
  split; [unfold fresh; lia|].
  apply C2'; [exact F2|].
  intros [Q|[]].
  lia.
  - unfold returned in *.
  destruct (fn_return node); [|exact R2].
  eapply rep_frame; [|exact R2].
  intros b [F1 F2].
  split; [unfold fresh; lia|reflexivity].
Qed.

Lemma lem_C48_disconnect : forall ast items C sc D U fuel a V s,
  let nodes := find_fn_nodes ast in
  client_file ast items C sc -> dlawful D U -> 2 <= fuel -> shows C sc nodes (d_heap s) (d_tasks s) a V ->
  exists h' ts' V', method D items (dcalls_upto D items fuel) (dref a) "disconnect" [] s = DDone dnull (set_dtasks ts' (set_heap h' s)) /\
    shows C sc nodes h' ts' a V' /\
    (forall node, In node nodes -> is_async_or_read node = true -> nth_error ts' (w_task V (fn_id node)) = Some None) /\
    (forall node, In node nodes -> fn_is_read node = true -> snd (w_stream V' (fn_id node)) = false) /\
    (forall id, fst (w_stream V' id) = fst (w_stream V id)) /\ w_pending V' = w_pending V /\ w_last V' = w_last V /\
    (forall k, (forall node, In node nodes -> is_async_or_read node = true -> k <> w_task V (fn_id node)) -> nth_error ts' k = nth_error (d_tasks s) k) /\
    (forall b, (forall node, In node nodes -> fn_is_read node = true -> b <> w_ctrl V (fn_id node)) -> nth_error h' b = nth_error (d_heap s) b).
Proof.
  intros ast items C sc D U fuel a V s nodes CF L FU SH.
  destruct (client_section ast items C sc CF) as (FI & N & LB & OK & FC & CO).
  destruct fuel as [|[|n]]; try lia.
  destruct (disconnect D items (schema_decls ast) LB OK C sc nodes FC CO n a V s SH) as (h' & ts' & E & S1 & S2 & S3 & S4).
  destruct (closes_same nodes V) as (W1 & W2 & W3 & W4 & W5).
  exists h', ts', (closes nodes V).
  split; [exact E|].
  split; [exact S1|].
  split; [exact S2|].
  split; [intros node I R; now apply closes_closed|].
  split; [intros id; apply closes_values|].
  split; [exact W3|].
  split; [exact W1|].
  split; [exact S3|exact S4].
Qed.
