(** Remote calls between two versions of a schema: responses that the generated Dart client refuses. *)
Require Import Coq.Strings.String Coq.Strings.Ascii.
Require Import Coq.NArith.NArith Coq.ZArith.ZArith Coq.Lists.List Coq.Bool.Bool Coq.Arith.PeanoNat.
Require Import Coq.micromega.Lia.
Require Import Verif.Base Verif.Ast Verif.CaseConv Verif.Code Verif.NumText Verif.RustGen Verif.RustSem Verif.Wire Verif.RustCodec.
Require Import Verif.DartSyntax Verif.DartGen Verif.DartTree Verif.DartSem Verif.DartWire Verif.DartRun Verif.DartShape Verif.DartCodec Verif.DartRpc.
Require Verif.EvolveDart.
Import ListNotations.
Local Open Scope string_scope.
Local Open Scope list_scope.

(** ** The client *)
Section Client.
Variable D : druntime.
Variable U : support.
Variable items : list ditem.
Variable ds : list decl.
Variable cd : nat.
Hypothesis file : forall d i, In d ds -> In i (decl_items d) -> In i items.
Hypothesis names : NoDup (top_names items).
Hypothesis libs : forall n, In n lib_names -> ~ In n (top_names items).
Hypothesis okd : forallb dart_decl_ok ds = true.
Hypothesis law : dlawful D U.
Variable C : string.
Variable sc : string.
Variable nodes : list fn_node.
Notation ms := (client_members C sc nodes).
Hypothesis FC : find_class C items = Some ms.
Hypothesis CO : client_ok ms nodes (top_names items) = true.
Notation KK := (dcalls_upto D items).
Notation clean := (DartRpc.clean C sc nodes).
Notation client_fields := (DartRpc.client_fields C sc nodes).
Notation self a := (Some (dref a, C)).
Notation run n th := (dchain (fun s e => DartSem.ev_st D items (KK n) th s e)).
Notation bad := (EvolveDart.bad D items ds).
Notation calls n a node ws s := (method D items (KK n) (dref a) (camel (fn_id node)) (named node ws) s).

Lemma sync_response_bad n a fs node t ws s r r' b : In node nodes -> client_fields (d_heap s) a fs -> rd_get D "Int8" (d_mem s sc (number node) "Client") = Some (rd_has_data D, r) ->
  bad (S n) b t -> r = b ++ r' ->
  DartSem.ev D items (KK (S (S n))) (self a) (scall "syncRead" [dty_of t] (args3 node "client" (DFun "reader" (sync_reader t)))) (arg_env node ws) s = DThrows "StateError".
Proof.
  intros I A G B ->. pose proof (clean_args items C sc nodes CO node ws I) as CA.
  set (body := with_reader (d_mem s sc (number node) "Client") (k_apply (KK (S (S n))) (dfun "reader" (sync_reader t) (arg_env node ws) (self a)) [dreader])).
  assert (X : DartSem.ev D items (KK (S (S n))) (self a) (scall "syncRead" [dty_of t] (args3 node "client" (DFun "reader" (sync_reader t)))) (arg_env node ws) s = body s).
  { erewrite scheduler_call; try eassumption; [reflexivity|discriminate]. }
  rewrite X. unfold body. change (k_apply (KK (S (S n)))) with (apply_with D items (KK (S n))). cbn [apply_with].
  set (s' := set_drd (d_mem s sc (number node) "Client") s). assert (A' : client_fields (d_heap (set_drd (b ++ r') s')) a fs) by exact A.
  set (en := ("reader", dreader) :: arg_env node ws). set (en' := ("status", dint (rd_has_data D)) :: en).
  assert (CE : clean en') by (apply (clean_cons items C sc nodes CO); [cbn; tauto|apply (clean_cons items C sc nodes CO); [cbn; tauto|exact CA]]).
  unfold with_reader. fold s'. fold en. rewrite (body_throws D items (KK (S n)) (self a) (sync_reader t) en s' "StateError"); [reflexivity|].
  unfold sync_reader. erewrite read_status; [|reflexivity| |exact G].
  2: { cbn [en DartSem.lookup String.eqb Ascii.eqb Bool.eqb]. apply (arg_env_none items C sc nodes CO); [exact I|left; cbn; tauto]. }
  fold en'. rewrite (status_kept D items libs C sc nodes FC CO (S n) a fs en' _ _ _ A' CE eq_refl).
  rewrite dchain_cons. cbn [DartSem.ev_st]. apply EvolveDart.throws_bind, EvolveDart.throws_bind.
  apply (EvolveDart.refuse_field D items ds file names libs okd n (self a) t b en' _ r' B); reflexivity.
Qed.
Lemma sync_call_bad n a fs node d P vs ws s m t r r' b : In node nodes -> sync_node node -> client_fields (d_heap s) a fs ->
  DartRpc.passed U items ds cd P (d_heap s) d vs ws (fn_args node) -> 2 * d + 3 <= S n ->
  rd_loop D (d_loops s) (requested sc (d_mem s) node (sync_bytes D U ds vs node)) = Some m ->
  fn_return node = Some t -> rd_get D "Int8" (m sc (number node) "Client") = Some (rd_has_data D, r) -> bad (S n) b t -> r = b ++ r' ->
  calls (S (S (S n))) a node ws s = DThrows "StateError".
Proof.
  intros I SN A PA F EL ER G B E. pose proof (sync_member node SN) as MM.
  assert (X : calls (S (S (S n))) a node ws s = ev_body D items (KK (S (S n))) (self a) (match sync_method node with MMeth _ _ _ _ b => b | _ => BBlock [] end) (arg_env node ws) s).
  { unfold sync_method. eapply invoke; [exact FC|exact CO|exact A|exact I|rewrite MM; left; reflexivity|].
    apply bind_method; [now apply (args_nodup items C sc nodes CO)|now apply (passed_length U items ds cd P (d_heap s) d vs)]. }
  rewrite X. clear X. unfold sync_method. cbn [ev_body]. rewrite ER.
  unfold dbody_of, dbind at 1. rewrite (sync_steps D U items ds cd file names libs okd law C sc nodes FC CO n a fs node d P vs ws s _ I A PA F), EL.
  rewrite dchain_cons. cbn [DartSem.ev_st]. rewrite (arg_env_none items C sc nodes CO) by (first [exact I|left; cbn; tauto]). unfold dbind at 1 2. fold (sync_reader t).
  rewrite (sync_response_bad n a fs node t ws (looped s m) r r' b I A G B E). reflexivity.
Qed.

(** The task of an asynchronous method or of a stream. *)
Lemma task_bad n a fs k node s t r id r' b : In node nodes -> has_task node -> client_fields (d_heap s) a fs -> nth_error (d_tasks s) k = Some (Some (node_task C sc node a)) ->
  rd_get D "Int8" (d_mem s sc (number node) "Client") = Some (rd_has_data D, r) -> fn_return node = Some t ->
  (if fn_is_read node then r = b ++ r' else rd_get D "Int64" r = Some (id, b ++ r')) -> bad (S n) b t ->
  run_task D items (S (S n)) k s = DThrows "StateError".
Proof.
  intros I HT A T G ER GI B.
  set (buf := d_mem s sc (number node) "Client") in *. set (s' := set_drd buf s).
  set (en0 := [("reader", dreader)]). set (en := ("status", dint (rd_has_data D)) :: en0).
  assert (CE : clean en) by (apply (clean_cons items C sc nodes CO); [cbn; tauto|apply (clean_cons items C sc nodes CO); [cbn; tauto|apply clean_nil]]).
  unfold run_task. rewrite T. cbn [tk_scope tk_address tk_side tk_fun node_task]. change (k_apply (KK (S (S n)))) with (apply_with D items (KK (S n))). cbn [apply_with].
  fold buf. fold en0. unfold with_reader. fold s'. rewrite (body_throws D items (KK (S n)) (self a) (task_body (node_rest node)) en0 s' "StateError"); [reflexivity|].
  unfold task_body. cbn [app]. erewrite read_status by (first [reflexivity|exact G]).
  rewrite (status_kept D items libs C sc nodes FC CO (S n) a fs _ _ _ _ (A : client_fields (d_heap (set_drd r s')) a fs) CE eq_refl).
  unfold node_rest. destruct (fn_is_read node) eqn:RN.
  - unfold read_rest. rewrite ER. rewrite dchain_cons. cbn [DartSem.ev_st]. apply EvolveDart.throws_bind. cbn [DartSem.lookup en en0 String.eqb Ascii.eqb Bool.eqb]. apply EvolveDart.throws_bind.
    apply (EvolveDart.refuse_field D items ds file names libs okd n (self a) t b en _ r' B); [reflexivity|exact GI].
  - unfold async_connect_rest. rewrite ER. erewrite run_final; [|reflexivity|].
    2: { rewrite (ev_call_var D items (KK (S n)) (self a) "reader" "readInt64" [] en dreader [] (set_drd r s') eq_refl (Forall2_nil _)).
         change (method D items (KK (S n)) dreader "readInt64" (pos []) (set_drd r s')) with (dbind (take (rd_get D "Int64")) (fun z => dret (prim_val "Int64" z)) (set_drd r s')).
         unfold dbind, take. cbn [d_rd set_drd]. rewrite GI. reflexivity. }
    cbn [app]. rewrite dchain_cons. cbn [DartSem.ev_st]. apply EvolveDart.throws_bind. cbn [DartSem.lookup en en0 String.eqb Ascii.eqb Bool.eqb]. apply EvolveDart.throws_bind.
    apply (EvolveDart.refuse_field D items ds file names libs okd n (self a) t b _ _ r' B); reflexivity.
Qed.
End Client.

