(** Lemmas behind the theorems of PropertiesEvolveRpc.v. *)
Require Import Coq.Strings.String Coq.Strings.Ascii.
Require Import Coq.NArith.NArith Coq.ZArith.ZArith Coq.Lists.List Coq.Bool.Bool Coq.Arith.PeanoNat.
Require Import Coq.micromega.Lia.
Require Import Verif.Base Verif.Ast Verif.Lexer Verif.Parser Verif.ParseFacts Verif.CaseConv Verif.Code Verif.NumText Verif.RustSyntax Verif.RustGen Verif.RustTree Verif.RustFile Verif.RustWf Verif.RustSem Verif.Wire Verif.RustCodec Verif.CodecFacts Verif.RustRpc Verif.RpcFacts.
Require Import Verif.DartSyntax Verif.DartGen Verif.DartTree Verif.DartFile Verif.DartWf Verif.DartSem Verif.DartWire Verif.DartRun Verif.DartShape Verif.DartCodec Verif.DartAgree Verif.DartFacts Verif.DartRpc Verif.DartRpcFacts.
Require Import Verif.EvolveSpec Verif.EvolveFacts Verif.EvolveDartFacts.
Require Import Verif.DefaultFacts.
Require Verif.EvolveRust Verif.EvolveDart Verif.EvolveRpc Verif.EvolveServer.
Import ListNotations.
Local Open Scope string_scope.
Local Open Scope list_scope.

(** ** Two versions of a service *)
Record services (a b : list ast_node) (models models' : bool) (rust rust' : list item) (dart dart' : list ditem) (C C' sc : string) : Prop := mk_services
  { sv_old_server : rpc_file a models true rust;
    sv_new_server : rpc_file b models' true rust';
    sv_old_client : client_file a dart C sc;
    sv_new_client : client_file b dart' C' sc;
    sv_cases_named : cases_named (rust_decls b true true) = true;
    sv_cases : enums_inhabited (schema_decls a) = true;
    sv_classes : incl (top_names dart) (top_names dart') }.

(** A method of both versions, with the types it uses. *)
Record kept_method (a b : list ast_node) (node : fn_node) : Prop := mk_kept_method
  { km_old : In node (find_fn_nodes a);
    km_new : In node (find_fn_nodes b);
    km_rust : forall t, In t (method_types node) -> grown (rust_decls a true true) (rust_decls b true true) t;
    km_dart : forall t, In t (method_types node) -> grown (schema_decls a) (schema_decls b) t }.

Section Services.

Variables (a b : list ast_node) (models models' : bool) (rust rust' : list item) (dart dart' : list ditem) (C C' sc : string).

Variables (R : runtime) (D : druntime) (U : support) (cd : nat).

Hypothesis SV : services a b models models' rust rust' dart dart' C C' sc.

Hypothesis LR : lawful R.

Hypothesis LD : dlawful D U.

Hypothesis AG : agree R D U.

Hypothesis SS : same_status D.

Notation old := (schema_decls a).

Notation new := (schema_decls b).

Notation rold := (rust_decls a true true).

Notation rnew := (rust_decls b true true).

Lemma dart_named : cases_named new = true.
Proof.
  pose proof (sv_cases_named _ _ _ _ _ _ _ _ _ _ _ SV) as H.
  unfold cases_named, rust_decls in H.
  rewrite forallb_app in H.
  apply andb_true_iff in H as [H _].
  exact H.
Qed.

Lemma args_later node vs : kept_method a b node -> arguments R rold node vs = true ->
  arguments R rnew node vs = true /\ flat_map (wire R rnew) vs = flat_map (wire R rold) vs.
Proof.
  intros [_ _ KR _] A.
  pose proof (sv_cases_named _ _ _ _ _ _ _ _ _ _ _ SV) as NM.
  assert (G : forall x, In x (fn_args node) -> grown rold rnew (fa_type x)) by (intros x I; apply KR; unfold method_types; apply in_or_app; left; now apply in_map).
  unfold arguments in *.
  clear KR.
  revert vs A.
  induction (fn_args node) as [|x l IH]; intros [|v vs] A; try discriminate A; [now split|].
  cbn [all2] in A.
  apply andb_true_iff in A as [T A].
  destruct (IH (fun y I => G y (or_intror I)) vs A) as [T2 W2].
  destruct (apart_none rold rnew (fa_type x) (G x (or_introl eq_refl))) as (K & FG & KN).
  destruct (EvolveRust.later R rold rnew (fun _ => false) K FG NM (depth v) v (fa_type x) T KN (le_n _)) as [T1 W1].
  cbn [all2 flat_map].
  now rewrite T1, T2, W1, W2.
Qed.

(** The bytes of a result of the later version. *)
Lemma result_seen node v n : kept_method a b node -> dart_returns U new dart' cd node v = true -> result_portable new node v = true -> 3 * depth v + 3 * cd + 3 <= n ->
  exists bs, response_bytes R rnew node v = bs /\
    if dart_returns U old dart cd node v then bs = dart_result D U old node v
    else exists t, fn_return node = Some t /\ EvolveDart.bad D dart old n bs t.
Proof.
  intros [_ _ _ KD] T P F.
  destruct (client_section a dart C sc (sv_old_client _ _ _ _ _ _ _ _ _ _ _ SV)) as (FI & N & LB & OK & _).
  destruct (client_section b dart' C' sc (sv_new_client _ _ _ _ _ _ _ _ _ _ _ SV)) as (_ & _ & _ & OK' & _).
  rewrite (result_agrees b dart' R D U cd node v AG OK' T P).
  eexists.
  split; [reflexivity|].
  unfold dart_returns, dart_result in *.
  unfold method_types in KD.
  destruct (fn_return node) as [t|]; [|reflexivity].
  assert (G : grown old new t) by (apply KD; apply in_or_app; right; now left).
  destruct (grown_settled _ _ _ G) as [FG S].
  destruct (dtyped U old (top_names dart) cd v t) eqn:E.
  - exact (EvolveDart.same_bytes D U dart dart' old new cd OK OK' (grown_kept _ _ _ G) FG dart_named (depth v) v t false (le_n _) S E T).
  - exists t.
  split; [reflexivity|].
  exact (EvolveDart.newer D U dart dart' old new cd FI N LB OK OK' LD (grown_kept _ _ _ G) FG dart_named (sv_classes _ _ _ _ _ _ _ _ _ _ _ SV)
      (inhabited _ (sv_cases _ _ _ _ _ _ _ _ _ _ _ SV)) (depth v) v t n (le_n _) S T E F).
Qed.

(** The bytes of a result of the earlier version. *)
Lemma result_later node v : kept_method a b node -> is_result R rold node v = true ->
  is_result R rnew node v = true /\ response_bytes R rnew node v = response_bytes R rold node v.
Proof.
  intros [_ _ KR _] T.
  pose proof (sv_cases_named _ _ _ _ _ _ _ _ _ _ _ SV) as NM.
  unfold is_result, response_bytes in *.
  unfold method_types in KR.
  destruct (fn_return node) as [t|]; [|now split].
  assert (G : grown rold rnew t) by (apply KR; apply in_or_app; right; now left).
  destruct (apart_none rold rnew t G) as (K & FG & KN).
  exact (EvolveRust.later R rold rnew (fun _ => false) K FG NM (depth v) v t T KN (le_n _)).
Qed.

(** The record of arguments of a request. *)
Definition argument_record (node : fn_node) (id : Z) (vs : list val) : val :=
  vrec (args_struct_id node) ((if fn_is_async node then [("__method_id__", vnum "i64" id)] else []) ++ combine (map fa_id (fn_args node)) vs).

Lemma arguments_fields ds start l vs : List.length vs = List.length l ->
  all2 (fun '(x, v) f => String.eqb x (sf_name f) && typed R ds v (sf_type f)) (combine (map fa_id l) vs) (args_fields start l) = all2 (fun v a => typed R ds v (fa_type a)) vs l.
Proof.
  unfold args_fields.
  revert start vs.
  induction l as [|x l IH]; intros start [|v vs] H; try discriminate H; [reflexivity|].
  cbn in H |- *.
  rewrite String.eqb_refl.
  cbn [andb].
  f_equal.
  apply IH.
  now injection H.
Qed.

Lemma record_typed c m r node id vs : rpc_file c m true r -> In node (find_fn_nodes c) -> fn_is_read node = false -> List.length vs = List.length (fn_args node) ->
  in_range "i64" id = true ->
  typed R (rust_decls c true true) (argument_record node id vs) (TyOther (args_struct_id node)) = arguments R (rust_decls c true true) node vs.
Proof.
  intros (RD & F & _ & _ & P) I NR LE IR.
  unfold argument_record.
  cbn [typed].
  rewrite (args_decl c m true r RD F P node I NR), String.eqb_refl.
  cbn [andb].
  unfold arguments.
  destruct (fn_is_async node).
  - cbn [app async_args_struct sn_fields all2 sf_name sf_type typed Wire.prim_name String.eqb Ascii.eqb Bool.eqb].
  change (RustSem.is_prim "i64") with true.
  rewrite IR.
  cbn [andb].
  now apply arguments_fields.
  - cbn [app sync_args_struct sn_fields].
  now apply arguments_fields.
Qed.

Lemma record_wire ds node id vs : List.length vs = List.length (fn_args node) ->
  wire R ds (argument_record node id vs) = (if fn_is_async node then rt_put R "i64" id else []) ++ flat_map (wire R ds) vs.
Proof.
  intros LE.
  unfold argument_record.
  cbn [wire].
  rewrite flat_map_app.
  f_equal.
  - destruct (fn_is_async node); [|reflexivity].
  cbn [flat_map wire].
  apply app_nil_r.
  - rewrite wire_fields.
  rewrite snd_combine; [reflexivity|].
  rewrite map_length.
  congruence.
Qed.

Lemma record_depth fuel node id vs : List.length vs = List.length (fn_args node) -> (forall v, In v vs -> depth v < fuel) -> fuel > 1 -> depth (argument_record node id vs) <= fuel.
Proof.
  intros LE DP FU.
  unfold argument_record.
  cbn [depth].
  rewrite map_app.
  assert (X : map (fun '(_, v) => depth v) (combine (map fa_id (fn_args node)) vs) = map depth vs).
  { rewrite <- (snd_combine (map fa_id (fn_args node)) vs) at 2; [|rewrite map_length; congruence].
  rewrite map_map.
  apply map_ext.
  now intros [x v].
  }
  rewrite X.
  clear X.
  assert (Y : list_max (map depth vs) < fuel).
  { clear - DP FU.
  induction vs as [|v vs IH]; cbn; [lia|].
  pose proof (DP v (or_introl eq_refl)).
  specialize (IH (fun x I => DP x (or_intror I))).
  unfold list_max in IH.
  lia.
  }
  rewrite list_max_app.
  destruct (fn_is_async node); cbn [map depth list_max fold_right]; lia.
Qed.

(** A request with an argument that the earlier version cannot read. *)
Lemma request_refused V fuel node id vs q addr rest : kept_method a b node -> fn_is_read node = false -> in_range "i64" id = true ->
  arguments R rnew node vs = true -> arguments R rold node vs = false -> (forall v, In v vs -> depth v < fuel) -> fuel > 1 ->
  s_mem q sc addr "Server" = rt_put R "u8" 255 ++ (if fn_is_async node then rt_put R "i64" id else []) ++ flat_map (wire R rnew) vs ++ rest ->
  EvolveServer.unreadable R (calls_upto R V rust fuel) node q sc addr.
Proof.
  intros [IO IN KR _] NR IR AN AO DP FU M.
  pose proof (sv_old_server _ _ _ _ _ _ _ _ _ _ _ SV) as RO.
  pose proof (sv_new_server _ _ _ _ _ _ _ _ _ _ _ SV) as RN.
  pose proof (all2_length _ _ _ AN) as LE.
  assert (G : exists t, grown rold rnew t).
  { unfold arguments in AN, AO.
  unfold method_types in KR.
  destruct (fn_args node) as [|x l]; [destruct vs; [discriminate AO|discriminate LE]|].
  eexists.
  apply KR.
  now left.
  }
  destruct G as (t & G).
  destruct (apart_none rold rnew t G) as (KP & FG & _).
  pose proof (record_typed b models' rust' node id vs RN IN NR LE IR) as TN.
  rewrite AN in TN.
  pose proof (record_typed a models rust node id vs RO IO NR LE IR) as TO.
  rewrite AO in TO.
  destruct RO as (RDo & Fo & Oo & Do & Po).
  destruct RN as (RDn & Fn & On & Dn & Pn).
  destruct (oks a true Oo) as [Ko Fto].
  destruct (oks b true On) as [Kn Ftn].
  exists ((if fn_is_async node then rt_put R "i64" id else []) ++ flat_map (wire R rnew) vs ++ rest).
  split.
  - rewrite M.
  apply (law_prim R LR); reflexivity.
  - pose proof (EvolveRust.reads_if_values R rold rnew (fun _ => false) KP FG (sv_cases_named _ _ _ _ _ _ _ _ _ _ _ SV) V rust
      (f_impls _ _ _ (a_service_file a models true rust RDo Fo Po)) Ko Fto Do Kn Ftn Dn LR fuel (argument_record node id vs) (TyOther (args_struct_id node)) TN) as X.
  assert (KN : EvolveRust.known rold rnew (fun _ => false) (TyOther (args_struct_id node))).
  { intros n [<-|[]].
  split; [reflexivity|].
  rewrite (args_decl a models true rust RDo Fo Po node IO NR).
  discriminate.
  }
    specialize (X KN (record_depth fuel node id vs LE DP FU) q rest).
  rewrite TO, (record_wire _ _ _ _ LE), <- app_assoc in X.
  exact X.
Qed.

End Services.

(** Two versions of a service.  The later one has another case of the enum, another struct and another method. *)
Definition c55_old : string := "#[id = ""svc""] #[namespace = ""test""] enum Shape { #[3] Dot, #[7] Round(u32) } fn grow(shape: Shape, by: u32) -> Shape; async fn later(shape: Shape) -> Shape; read last -> Shape; async read next -> Shape;".

Definition c55_new : string := "#[id = ""svc""] #[namespace = ""test""] struct Point { x: u32 } enum Shape { #[9] Named { at: Point }, #[3] Dot, #[7] Round(u32) } fn grow(shape: Shape, by: u32) -> Shape; async fn later(shape: Shape) -> Shape; read last -> Shape; async read next -> Shape; fn count() -> u32;".

Definition c55_a : list ast_node := Eval vm_compute in parsed c55_old.

Definition c55_b : list ast_node := Eval vm_compute in parsed c55_new.

Definition c55_old_rust : list item := Eval vm_compute in rust_tree c55_a true true true.

Definition c55_new_rust : list item := Eval vm_compute in rust_tree c55_b true true true.

Definition c55_old_dart : list ditem := Eval vm_compute in dart_tree c55_a true true true.

Definition c55_new_dart : list ditem := Eval vm_compute in dart_tree c55_b true true true.

Definition c55_node (f : string) : fn_node := match find (fun n => String.eqb (fn_id n) f) (find_fn_nodes c55_a) with Some n => n | None => mk_fn "" 0 [] None false false end.

Lemma rpc_file_by c : (rust_ready c, is_ok (rust_generate c true true true), codecs_ok (rust_decls c true true), codecs_distinct (rust_decls c true true), rpc_ok c true) = (true, true, true, true, true) ->
  rpc_file c true true (rust_tree c true true true).
Proof.
  intros [= H1 H2 H3 H4 H5].
  split; [exact H1|].
  split; [now apply rust_items_tree|].
  now split.
Qed.

Lemma c55_old_server : rpc_file c55_a true true c55_old_rust.
Proof.
  change c55_old_rust with (rust_tree c55_a true true true).
  apply rpc_file_by.
  vm_compute.
  reflexivity.
Qed.

Lemma c55_new_server : rpc_file c55_b true true c55_new_rust.
Proof.
  change c55_new_rust with (rust_tree c55_b true true true).
  apply rpc_file_by.
  vm_compute.
  reflexivity.
Qed.

Lemma c55_old_client : client_file c55_a c55_old_dart "TestRpcClient" "svc".
Proof.
  split; [vm_compute; reflexivity|].
  split; [change c55_old_dart with (dart_tree c55_a true true true); apply dart_items_tree; vm_compute; reflexivity|].
  split; [vm_compute; reflexivity|].
  split; [vm_compute; discriminate|].
  split; [do 2 eexists; split; vm_compute; reflexivity|].
  split; [eexists; vm_compute; reflexivity|].
  vm_compute.
  reflexivity.
Qed.

Lemma c55_new_client : client_file c55_b c55_new_dart "TestRpcClient" "svc".
Proof.
  split; [vm_compute; reflexivity|].
  split; [change c55_new_dart with (dart_tree c55_b true true true); apply dart_items_tree; vm_compute; reflexivity|].
  split; [vm_compute; reflexivity|].
  split; [vm_compute; discriminate|].
  split; [do 2 eexists; split; vm_compute; reflexivity|].
  split; [eexists; vm_compute; reflexivity|].
  vm_compute.
  reflexivity.
Qed.

Lemma c55_services : services c55_a c55_b true true c55_old_rust c55_new_rust c55_old_dart c55_new_dart "TestRpcClient" "TestRpcClient" "svc".
Proof.
  constructor; [exact c55_old_server|exact c55_new_server|exact c55_old_client|exact c55_new_client|vm_compute; reflexivity|vm_compute; reflexivity|].
  apply incl_by.
  vm_compute.
  reflexivity.
Qed.

Definition c55_rold : list decl := Eval vm_compute in rust_decls c55_a true true.

Definition c55_rnew : list decl := Eval vm_compute in rust_decls c55_b true true.

Definition c55_dold : list decl := Eval vm_compute in schema_decls c55_a.

Definition c55_dnew : list decl := Eval vm_compute in schema_decls c55_b.

Lemma c55_rust_grown t : In t [TyOther "Shape"; TyInteger "u32" 4 false] -> grown c55_rold c55_rnew t.
Proof.
  intros IT.
  constructor.
  - intros n d H.
  apply decl_of_in in H as [I <-].
  unfold c55_rold in I.
  repeat (destruct I as [<-|I]); try contradiction; (eexists; split; [vm_compute; reflexivity|grown_case]).
  - intros n I.
  repeat (destruct IT as [<-|IT]); try contradiction; vm_compute in I; repeat (destruct I as [<-|I]); try contradiction; vm_compute; congruence.
Qed.

Lemma c55_dart_grown t : In t [TyOther "Shape"; TyInteger "u32" 4 false] -> grown c55_dold c55_dnew t.
Proof.
  intros IT.
  constructor.
  - intros n d H.
  apply decl_of_in in H as [I <-].
  unfold c55_dold in I.
  repeat (destruct I as [<-|I]); try contradiction; (eexists; split; [vm_compute; reflexivity|grown_case]).
  - intros n I.
  repeat (destruct IT as [<-|IT]); try contradiction; vm_compute in I; repeat (destruct I as [<-|I]); try contradiction; vm_compute; congruence.
Qed.

Lemma c55_kept f : In f ["grow"; "later"; "last"; "next"] -> kept_method c55_a c55_b (c55_node f).
Proof.
  intros I.
  constructor.
  - repeat (destruct I as [<-|I]); try contradiction; vm_compute; tauto.
  - repeat (destruct I as [<-|I]); try contradiction; vm_compute; tauto.
  - intros t T.
  apply c55_rust_grown.
  repeat (destruct I as [<-|I]); try contradiction; vm_compute in T; vm_compute; tauto.
  - intros t T.
  apply c55_dart_grown.
  repeat (destruct I as [<-|I]); try contradiction; vm_compute in T; vm_compute; tauto.
Qed.

(** A service that answers with the case of the later version if the number is 9, and with a case of both versions otherwise. *)
Definition c55_named (x : Z) : val := vcases "Shape" "Named" [("at", vrec "Point" [("x", vnum "u32" x)])].

Definition c55_round (x : Z) : val := vcaset "Shape" "Round" [vnum "u32" x].

Definition c55_answer (x : Z) : val := if Z.eqb x 9 then c55_named x else c55_round x.

Definition c55_service (x : Z) : service := mk_service
  (fun _ f vs => if String.eqb f "grow" then match vs with [_; vnum _ z] => Some (c55_answer z) | _ => None end
    else if String.eqb f "later" then Some (c55_answer x) else Some (vopt (Some (c55_answer x))))
  (fun f => existsb (String.eqb f) ["later"; "next"]).

Definition c55_loop (server : list item) (mem : string -> Z -> string -> bytes) : option (string -> Z -> string -> bytes) :=
  match call_fn le_runtime (c55_service 0) server 5 (handler_name (c55_node "grow")) (sync_args "svc" 0) (set_mem mem (c31_state [])) with
  | Done _ q => Some (s_mem q)
  | _ => None
  end.

Definition c55_runtime (server : list item) : druntime :=
  let D := le_dart false in mk_druntime (rd_put D) (rd_get D) (rd_eput D) (rd_eget D) (rd_ext_put D) (rd_ext_get D) (rd_ext_new D) (rd_len_put D) (rd_len_get D)
    (rd_bulk D) (rd_float D) (rd_neg D) (-1) (fun z => (z + 1)%Z) (fun _ => c55_loop server).

Lemma c55_dlawful server : dlawful (c55_runtime server) le_support.
Proof.
  destruct (le_dlawful false).
  constructor; assumption.
Qed.

Lemma c55_agree server : agree le_runtime (c55_runtime server) le_support.
Proof.
  destruct (le_agree false).
  constructor; assumption.
Qed.

(** The shape at the address 1 is a dot; for the later version, the one at the address 4 is named. *)
Definition c55_heap : heap :=
  [CObj "ShapeRound" [("v0", dint 0)]; CObj "Shape" [("value", dmem "ShapeValue" "dot"); ("dot", dobj "ShapeDot" [] []); ("round", dref 0)]].

Definition c55_new_heap : heap :=
  [CObj "ShapeRound" [("v0", dint 0)]; CObj "Shape" [("value", dmem "ShapeValue" "dot"); ("named", dref 3); ("dot", dobj "ShapeDot" [] []); ("round", dref 0)];
   CObj "Point" [("x", dint 4)]; CObj "ShapeNamed" [("at", dref 2)];
   CObj "Shape" [("value", dmem "ShapeValue" "named"); ("named", dref 3); ("dot", dobj "ShapeDot" [] []); ("round", dref 0)]].

Definition c55_made (server : list item) (client : list ditem) (h : heap) : dout dval :=
  call_new (c55_runtime server) client 9 "TestRpcClient" [(None, dsched)] (mk_dstate h [] [] (fun _ _ _ => []) 0 []).

Definition c55_old_made : dout dval := c55_made c55_new_rust c55_old_dart c55_heap.

Definition c55_new_made : dout dval := c55_made c55_old_rust c55_new_dart c55_new_heap.

Lemma c55_old_view : exists W, shows "TestRpcClient" "svc" (find_fn_nodes c55_a) (d_heap (c31_then c55_old_made)) (d_tasks (c31_then c55_old_made)) (c31_at c55_old_made) W /\
  forall id, w_last W id = 0%Z.
Proof.
  destruct (lem_C31_new_client c55_a c55_old_dart "TestRpcClient" "svc" (c55_runtime c55_new_rust) le_support 9 (mk_dstate c55_heap [] [] (fun _ _ _ => []) 0 []) c55_old_client (c55_dlawful _) ltac:(lia)) as (a & h' & W & E & _ & SH & _ & TK & EM).
  exists W.
  change c55_old_made with (call_new (c55_runtime c55_new_rust) c55_old_dart 9 "TestRpcClient" [(None, dsched)] (mk_dstate c55_heap [] [] (fun _ _ _ => []) 0 [])).
  rewrite E.
  split; [exact SH|].
  intros id.
  apply EM.
Qed.

Lemma c55_new_view : exists W, shows "TestRpcClient" "svc" (find_fn_nodes c55_b) (d_heap (c31_then c55_new_made)) (d_tasks (c31_then c55_new_made)) (c31_at c55_new_made) W /\
  forall id, w_last W id = 0%Z.
Proof.
  destruct (lem_C31_new_client c55_b c55_new_dart "TestRpcClient" "svc" (c55_runtime c55_old_rust) le_support 9 (mk_dstate c55_new_heap [] [] (fun _ _ _ => []) 0 []) c55_new_client (c55_dlawful _) ltac:(lia)) as (a & h' & W & E & _ & SH & _ & TK & EM).
  exists W.
  change c55_new_made with (call_new (c55_runtime c55_old_rust) c55_new_dart 9 "TestRpcClient" [(None, dsched)] (mk_dstate c55_new_heap [] [] (fun _ _ _ => []) 0 [])).
  rewrite E.
  split; [exact SH|].
  intros id.
  apply EM.
Qed.

Ltac passed_by := vm_compute; repeat match goal with
  | |- _ /\ _ => split
  | |- exists _, _ => eexists
  | |- True => exact Logic.I
  | |- (_ <= _)%nat => lia
  | |- _ => reflexivity
  end.

Lemma c55_passed z : In z [4; 9]%Z -> passed le_support c55_old_dart (schema_decls c55_a) 5 (fun b => b < 2) (d_heap (c31_then c55_old_made)) 3 [vcase "Shape" "Dot"; vnum "u32" z] [dref 1; dint z] (fn_args (c55_node "grow")).
Proof.
  intros [<-|[<-|[]]]; passed_by.
Qed.

Lemma c55_new_passed : passed le_support c55_new_dart (schema_decls c55_b) 5 (fun b => b < 5) (d_heap (c31_then c55_new_made)) 3 [vcase "Shape" "Dot"; vnum "u32" 4] [dref 1; dint 4] (fn_args (c55_node "grow")).
Proof.
  passed_by.
Qed.

Lemma c55_named_passed : passed le_support c55_new_dart (schema_decls c55_b) 5 (fun b => b < 5) (d_heap (c31_then c55_new_made)) 3 [c55_named 4; vnum "u32" 4] [dref 4; dint 4] (fn_args (c55_node "grow")).
Proof.
  passed_by.
Qed.

(** The objects that a call returned. *)
Definition c55_object (o : dout dval) : option cell := match o with DDone (dref p) s => nth_error (d_heap s) p | _ => None end.

(** An asynchronous call by a client, served and completed by a server whose function returns the answer for [x]; then the client looks. *)
Definition c55_later (client : list ditem) (server : list item) (made : dout dval) (w : dval) (x : Z) : option (dout dval) :=
  let called := client_call (c55_runtime server) client 29 (c31_at made) (c55_node "later") [w] (c31_then made) in
  match call_fn le_runtime (c55_service x) server 5 (handler_name (c55_node "later")) (async_args "svc" 1) (set_mem (d_mem (c31_then called)) (c31_state [])) with
  | Done _ q =>
      match complete le_runtime (c55_service x) server 5 0 q with
      | Done _ q3 => Some (match run_task (c55_runtime server) client 29 0 (set_dmem (s_mem q3) (c31_then called)) with DDone _ s => DDone (dref (c31_at called)) s | o => o end)
      | _ => None
      end
  | _ => None
  end.

(** A read served by a server, and a look of the client. *)
Definition c55_last (client : list ditem) (server : list item) (made : dout dval) (x : Z) : option (dout dval) :=
  match call_fn le_runtime (c55_service x) server 5 (handler_name (c55_node "last")) (async_args "svc" 2) (c31_state []) with
  | Done _ q => Some (run_task (c55_runtime server) client 29 1 (set_dmem (s_mem q) (c31_then made)))
  | _ => None
  end.

Definition c55_next (client : list ditem) (server : list item) (made : dout dval) (x : Z) : option (dout dval) :=
  match call_fn le_runtime (c55_service x) server 5 (handler_name (c55_node "next")) (async_args "svc" 3) (c31_state (zs [0]%Z)) with
  | Done _ q =>
      match complete le_runtime (c55_service x) server 5 0 q with
      | Done _ q3 => Some (run_task (c55_runtime server) client 29 2 (set_dmem (s_mem q3) (c31_then made)))
      | _ => None
      end
  | _ => None
  end.

Definition c55_value (h : heap) (w : dval) : option dval := match w with dref p => match nth_error h p with Some (CObj "Shape" (("value", u) :: _)) => Some u | _ => None end | _ => None end.

Lemma c55_later_passed : passed le_support c55_old_dart (schema_decls c55_a) 5 (fun b => b < 2) (d_heap (c31_then c55_old_made)) 3 [vcase "Shape" "Dot"] [dref 1] (fn_args (c55_node "later")).
Proof.
  passed_by.
Qed.

Lemma c55_later_new_passed : passed le_support c55_new_dart (schema_decls c55_b) 5 (fun b => b < 5) (d_heap (c31_then c55_new_made)) 3 [vcase "Shape" "Dot"] [dref 1] (fn_args (c55_node "later")) /\
  passed le_support c55_new_dart (schema_decls c55_b) 5 (fun b => b < 5) (d_heap (c31_then c55_new_made)) 3 [c55_named 4] [dref 4] (fn_args (c55_node "later")).
Proof.
  split; passed_by.
Qed.

Definition c55_run (client : list ditem) (server : list item) (made : dout dval) (ws : list dval) : dout dval :=
  client_call (c55_runtime server) client 29 (c31_at made) (c55_node "grow") ws (c31_then made).

Lemma lem_C55_same_numbers : forall ts ts' a b,
  parse ts = Ok a -> parse ts' = Ok b -> appended (find_fn_nodes a) (find_fn_nodes b) ->
  exists more, find_fn_nodes b = find_fn_nodes a ++ more /\
    (forall f g, In f (find_fn_nodes a) -> In g more -> fn_position g <> fn_position f).
Proof.
  intros ts ts' a b PA PB (more & E).
  pose proof (lem_C12_method_numbers ts a PA) as NA.
  pose proof (lem_C12_method_numbers ts' b PB) as NB.
  rewrite methods_nodes in NA, NB.
  assert (X : forall l l' k, map fn_position l = map N.of_nat (seq k (List.length l)) -> map fn_position l' = map N.of_nat (seq k (List.length l')) ->
    forall m, map method_shape l' = map method_shape l ++ m -> exists m', l' = l ++ m' /\ forall f g, In f l -> In g m' -> fn_position g <> fn_position f).
  { induction l as [|[i p x t r y] l IH]; intros [|[i' p' x' t' r' y'] l'] k P P' m M; cbn [map app List.length seq] in *; try discriminate M.
  - exists [].
  split; [reflexivity|intros ? ? []].
  - eexists.
  split; [reflexivity|intros ? ? []].
  - injection P as P0 P.
  injection P' as P0' P'.
  unfold method_shape at 1 3 in M.
  cbn [fn_id fn_args fn_return fn_is_read fn_is_async fn_position] in M, P0, P0'.
  injection M as E1 E2 E3 E4 E5 M.
  destruct (IH l' (S k) P P' m M) as (m' & -> & Q).
  subst.
  exists m'.
  split; [reflexivity|].
  intros f g [<-|If] Ig; [|now apply Q].
  cbn [fn_position].
  intros Z.
  assert (J : In (fn_position g) (map fn_position (l ++ m'))) by (apply in_map, in_or_app; now right).
  rewrite P' in J.
  apply in_map_iff in J as (u & U1 & U2).
  apply in_seq in U2.
  lia.
  }
  exact (X _ _ 0 NA NB more E).
Qed.

Lemma lem_C55_registered : forall ts ts' a b models models' buffers buffers' items items' R V V' fuel q sc ty,
  parse ts = Ok a -> parse ts' = Ok b -> appended (find_fn_nodes a) (find_fn_nodes b) -> find_fn_nodes a <> [] ->
  rust_ready a = true -> file_items a models buffers true items -> rpc_ok a buffers = true ->
  rust_ready b = true -> file_items b models' buffers' true items' -> rpc_ok b buffers' = true ->
  find_directive_value a "id" = Some (ConstLiteral (StringLit sc) ty) -> find_directive_value b "id" = Some (ConstLiteral (StringLit sc) ty) ->
  exists regs more,
    call_fn R V items fuel "register_rpc" [vref vruntime; vref vaddresses] q = Done vunit (set_regs (s_regs q ++ regs) (set_scopes (s_scopes q ++ [sc]) q)) /\
    call_fn R V' items' fuel "register_rpc" [vref vruntime; vref vaddresses] q = Done vunit (set_regs (s_regs q ++ regs ++ more) (set_scopes (s_scopes q ++ [sc]) q)) /\
    List.length regs = List.length (find_fn_nodes a) /\
    forall f g s n h f' g' s' n' h', In (f, g, s, n, h) regs -> In (f', g', s', n', h') more -> n' <> n.
Proof.
  intros ts ts' a b models models' buffers buffers' items items' R V V' fuel q sc ty PA PB AP NE RA FA OA RB FB OB IA IB.
  destruct (lem_C55_same_numbers ts ts' a b PA PB AP) as (more & E & Q).
  destruct (lem_C31_registration a models buffers items R V fuel q RA FA OA NE) as (sa & ta & Ia & Xa).
  destruct (lem_C31_registration b models' buffers' items' R V' fuel q RB FB OB) as (sb & tb & Ib & Xb); [rewrite E; now destruct (find_fn_nodes a)|].
  assert (sa = sc) as -> by congruence.
  assert (sb = sc) as -> by congruence.
  rewrite E, map_app in Xb.
  eexists _, _.
  split; [exact Xa|].
  split; [exact Xb|].
  split; [now rewrite map_length|].
  intros f g s n h f' g' s' n' h' I I'.
  apply in_map_iff in I as (x & X & I).
  apply in_map_iff in I' as (x' & X' & I').
  pose proof (Q x x' I I') as NEQ.
  unfold registration in X, X'.
  assert (n = Z.of_N (fn_position x)) as -> by (destruct (fn_is_read x), (fn_is_async x); congruence).
  assert (n' = Z.of_N (fn_position x')) as -> by (destruct (fn_is_read x'), (fn_is_async x'); congruence).
  lia.
Qed.

Lemma lem_C55_old_client : forall a b models models' rust rust' dart dart' C C' sc R V D U cd node fuel dfuel x W s q P d vs ws v,
  let old := schema_decls a in let new := schema_decls b in let rold := rust_decls a true true in let rnew := rust_decls b true true in
  let addr := Z.of_N (fn_position node) in
  services a b models models' rust rust' dart dart' C C' sc -> lawful R -> dlawful D U -> agree R D U -> same_status D ->
  kept_method a b node -> fn_is_read node = false -> fn_is_async node = false -> sv_async V (fn_id node) = false ->
  arguments R rold node vs = true -> passed U dart old cd P (d_heap s) d vs ws (fn_args node) -> args_portable old node vs = true ->
  is_result R rnew node v = true -> dart_returns U new dart' cd node v = true -> result_portable new node v = true ->
  RpcFacts.within fuel (v :: vs) -> 2 * d + 5 <= dfuel -> 3 * depth v + 3 * cd + 5 <= dfuel ->
  shows C sc (find_fn_nodes a) (d_heap s) (d_tasks s) x W ->
  sv_call V (List.length (s_log q)) (fn_id node) vs = Some v ->
  (forall mem r q', call_fn R V rust' fuel (handler_name node) (sync_args sc addr) (set_mem mem q) = Done r q' ->
    exists mem', rd_loop D (d_loops s) mem = Some mem' /\ mem' sc addr "Client" = s_mem q' sc addr "Client") ->
  exists mem mem' q',
    rd_loop D (d_loops s) mem = Some mem' /\
    call_fn R V rust' fuel (handler_name node) (sync_args sc addr) (set_mem mem q) = Done (bool_val true) q' /\
    (exists m, s_log q' = s_log q ++ [mk_called (fn_id node) vs m]) /\
    if dart_returns U old dart cd node v
    then exists w h', client_call D dart dfuel x node ws s = DDone w (set_heap h' (set_loops (S (d_loops s)) (set_dmem mem' s))) /\
           changes (d_heap s) h' [] /\ returned U old node v (d_heap s) h' w
    else client_call D dart dfuel x node ws s = DThrows "StateError".
Proof.
  intros a b models models' rust rust' dart dart' C C' sc R V D U cd node fuel dfuel x W s q P d vs ws v old new rold rnew addr SV LR L AG SS KM NR NA SA AR PA PO IR DR PR WI F1 F2 SH SC LOOP.
  pose proof (sv_old_client _ _ _ _ _ _ _ _ _ _ _ SV) as CF.
  pose proof (sv_new_server _ _ _ _ _ _ _ _ _ _ _ SV) as RF.
  destruct (client_section a dart C sc CF) as (FI & N & LB & OK & FC & CO).
  destruct (args_later a b models models' rust rust' dart dart' C C' sc R SV node vs KM AR) as [AR' AW].
  fold rold rnew in AR', AW.
  destruct (lem_C32_client_call a dart C sc D U cd node dfuel x W s P d vs ws CF L (km_old _ _ _ KM) NR NA SH PA F1) as (_ & Y).
  set (mem := sent (d_mem s) sc (fn_position node) (dart_request D U (schema_decls a) node vs)) in *.
  assert (EB : dart_request D U old node vs = request_bytes R rnew vs).
  { unfold dart_request, request_bytes, dart_args.
  rewrite (status_agrees R D U AG SS).
  f_equal.
  rewrite AW.
  symmetry.
  now apply (args_agree a dart R D U cd P (d_heap s) d vs AG OK ws).
  }
  assert (ES : s_mem (set_mem mem q) sc addr "Server" = request_bytes R rnew vs ++ skipn (List.length (request_bytes R rnew vs)) (d_mem s sc addr "Server")).
  { cbn [set_mem s_mem].
  unfold mem, sent.
  fold addr.
  unfold upd_mem.
  rewrite !String.eqb_refl, Z.eqb_refl.
  cbn [andb].
  fold old.
  now rewrite EB.
  }
  destruct (lem_C32_sync_call b models' true rust' R V node vs v _ fuel (set_mem mem q) sc addr RF LR (km_new _ _ _ KM) NR NA SA AR' WI ES SC IR) as (q' & m & o & o' & E & LG & _ & _ & _ & CL & _).
  destruct (LOOP mem _ q' E) as (mem' & EL & EC).
  rewrite CL in EC.
  rewrite <- (status_agrees R D U AG SS) in EC.
  destruct (result_seen a b models models' rust rust' dart dart' C C' sc R D U cd SV L AG node v (dfuel - 2) KM DR PR ltac:(clear - F2; lia)) as (bs & EBS & SEEN).
  fold rnew in EBS, EC.
  rewrite EBS in EC.
  exists mem, mem', q'.
  split; [exact EL|].
  split; [exact E|].
  split; [eexists; exact LG|].
  fold old in SEEN.
  destruct (dart_returns U old dart cd node v) eqn:DO.
  - destruct (Y mem' EL) as (Y1 & Y2).
  rewrite SEEN in EC.
  unfold dart_result in EC.
  unfold returned, dart_returns in *.
  destruct (fn_return node) as [t|] eqn:ER.
  + destruct (Y2 t (rd_has_data D) (dwire D U old false v t ++ o') eq_refl) as (_ & Z2).
  { fold addr.
  rewrite EC.
  now apply (int8_get D U).
  }
      destruct (Z2 eq_refl v o' DO F2 eq_refl) as (w & h' & E1 & E2 & E3).
  exists w, h'.
  split; [exact E1|].
  split; [exact E2|exact E3].
  + exists dnull, (d_heap s).
  split; [|split; [apply changes_refl|reflexivity]].
  rewrite (Y1 eq_refl).
  reflexivity.
  - destruct SEEN as (t & ER & B).
  destruct SH as (fs & A & _).
  unfold client_call.
  assert (FN : exists n, dfuel = S (S (S n)) /\ 2 * d + 3 <= S n) by (clear - F1; exists (dfuel - 3); lia).
  destruct FN as (n & -> & F3).
  replace (S (S (S n)) - 2) with (S n) in B by (clear; lia).
  eapply (EvolveRpc.sync_call_bad D U dart old cd FI N LB OK L C sc _ FC CO n x fs node d P vs ws s mem' t (bs ++ o') o' bs (km_old _ _ _ KM) (conj NA NR) A PA F3).
  + rewrite <- EL.
  unfold requested, mem, sent, overwrite, number.
  now rewrite sync_bytes_request.
  + exact ER.
  + unfold number.
  fold addr.
  rewrite EC.
  now apply (int8_get D U).
  + exact B.
  + reflexivity.
Qed.

Lemma lem_C55_new_client : forall a b models models' rust rust' dart dart' C C' sc R V D U cd node fuel dfuel x W s q P d vs ws v,
  let new := schema_decls b in let rold := rust_decls a true true in
  let addr := Z.of_N (fn_position node) in
  services a b models models' rust rust' dart dart' C C' sc -> lawful R -> dlawful D U -> agree R D U -> same_status D ->
  kept_method a b node -> fn_is_read node = false -> fn_is_async node = false -> sv_async V (fn_id node) = false ->
  arguments R rold node vs = true -> passed U dart' new cd P (d_heap s) d vs ws (fn_args node) -> args_portable new node vs = true ->
  is_result R rold node v = true -> dart_returns U new dart' cd node v = true -> result_portable new node v = true ->
  RpcFacts.within fuel (v :: vs) -> 2 * d + 5 <= dfuel -> 3 * depth v + 3 * cd + 5 <= dfuel ->
  shows C' sc (find_fn_nodes b) (d_heap s) (d_tasks s) x W ->
  sv_call V (List.length (s_log q)) (fn_id node) vs = Some v ->
  (forall mem r q', call_fn R V rust fuel (handler_name node) (sync_args sc addr) (set_mem mem q) = Done r q' ->
    exists mem', rd_loop D (d_loops s) mem = Some mem' /\ mem' sc addr "Client" = s_mem q' sc addr "Client") ->
  exists mem mem' q' w h',
    rd_loop D (d_loops s) mem = Some mem' /\
    call_fn R V rust fuel (handler_name node) (sync_args sc addr) (set_mem mem q) = Done (bool_val true) q' /\
    (exists m, s_log q' = s_log q ++ [mk_called (fn_id node) vs m]) /\
    client_call D dart' dfuel x node ws s = DDone w (set_heap h' (set_loops (S (d_loops s)) (set_dmem mem' s))) /\
    changes (d_heap s) h' [] /\ returned U new node v (d_heap s) h' w.
Proof.
  intros a b models models' rust rust' dart dart' C C' sc R V D U cd node fuel dfuel x W s q P d vs ws v new rold addr SV LR L AG SS KM NR NA SA AR PA PO IR DR PR WI F1 F2 SH SC LOOP.
  pose proof (sv_new_client _ _ _ _ _ _ _ _ _ _ _ SV) as CF.
  pose proof (sv_old_server _ _ _ _ _ _ _ _ _ _ _ SV) as RF.
  destruct (client_section b dart' C' sc CF) as (FI & N & LB & OK & FC & CO).
  destruct (args_later a b models models' rust rust' dart dart' C C' sc R SV node vs KM AR) as [AR' AW].
  destruct (result_later a b models models' rust rust' dart dart' C C' sc R SV node v KM IR) as [IR' RW].
  destruct (lem_C32_client_call b dart' C' sc D U cd node dfuel x W s P d vs ws CF L (km_new _ _ _ KM) NR NA SH PA F1) as (_ & Y).
  set (mem := sent (d_mem s) sc (fn_position node) (dart_request D U (schema_decls b) node vs)) in *.
  assert (EB : dart_request D U new node vs = request_bytes R rold vs).
  { unfold dart_request, request_bytes, dart_args.
  rewrite (status_agrees R D U AG SS).
  f_equal.
  unfold rold.
  rewrite <- AW.
  symmetry.
  now apply (args_agree b dart' R D U cd P (d_heap s) d vs AG OK ws).
  }
  assert (ES : s_mem (set_mem mem q) sc addr "Server" = request_bytes R rold vs ++ skipn (List.length (request_bytes R rold vs)) (d_mem s sc addr "Server")).
  { cbn [set_mem s_mem].
  unfold mem, sent.
  fold addr.
  unfold upd_mem.
  rewrite !String.eqb_refl, Z.eqb_refl.
  cbn [andb].
  fold new.
  now rewrite EB.
  }
  destruct (lem_C32_sync_call a models true rust R V node vs v _ fuel (set_mem mem q) sc addr RF LR (km_old _ _ _ KM) NR NA SA AR WI ES SC IR) as (q' & m & o & o' & E & LG & _ & _ & _ & CL & _).
  destruct (LOOP mem _ q' E) as (mem' & EL & EC).
  rewrite CL in EC.
  rewrite <- (status_agrees R D U AG SS) in EC.
  rewrite <- RW in EC.
  rewrite (result_agrees b dart' R D U cd node v AG OK DR PR) in EC.
  destruct (Y mem' EL) as (Y1 & Y2).
  unfold dart_result in EC.
  unfold returned, dart_returns in *.
  destruct (fn_return node) as [t|] eqn:ER.
  - destruct (Y2 t (rd_has_data D) (dwire D U new false v t ++ o') eq_refl) as (_ & Z2).
  { fold addr.
  rewrite EC.
  now apply (int8_get D U).
  }
    destruct (Z2 eq_refl v o' DR F2 eq_refl) as (w & h' & E1 & E2 & E3).
  exists mem, mem', q', w, h'.
  split; [exact EL|].
  split; [exact E|].
  split; [eexists; exact LG|].
  split; [exact E1|].
  split; [exact E2|exact E3].
  - exists mem, mem', q', dnull, (d_heap s).
  split; [exact EL|].
  split; [exact E|].
  split; [eexists; exact LG|].
  split; [|split; [apply changes_refl|reflexivity]].
  rewrite (Y1 eq_refl).
  reflexivity.
Qed.

Lemma lem_C55_new_client_refused : forall a b models models' rust rust' dart dart' C C' sc R V D U cd node fuel dfuel x W s q P d vs ws,
  let new := schema_decls b in let rold := rust_decls a true true in let rnew := rust_decls b true true in
  let addr := Z.of_N (fn_position node) in
  services a b models models' rust rust' dart dart' C C' sc -> lawful R -> dlawful D U -> agree R D U -> same_status D ->
  kept_method a b node -> fn_is_read node = false -> fn_is_async node = false ->
  arguments R rnew node vs = true -> arguments R rold node vs = false ->
  passed U dart' new cd P (d_heap s) d vs ws (fn_args node) -> args_portable new node vs = true ->
  RpcFacts.within fuel vs -> fuel > 1 -> 2 * d + 5 <= dfuel ->
  shows C' sc (find_fn_nodes b) (d_heap s) (d_tasks s) x W ->
  exists mem,
    call_fn R V rust fuel (handler_name node) (sync_args sc addr) (set_mem mem q) = Panics /\
    (forall sc' a' side, (sc', a', side) <> (sc, addr, "Server") -> mem sc' a' side = d_mem s sc' a' side) /\
    (rd_loop D (d_loops s) mem = None -> client_call D dart' dfuel x node ws s = DThrows "ServerError").
Proof.
  intros a b models models' rust rust' dart dart' C C' sc R V D U cd node fuel dfuel x W s q P d vs ws new rold rnew addr SV LR L AG SS KM NR NA AN AO PA PO WI F0 F1 SH.
  pose proof (sv_new_client _ _ _ _ _ _ _ _ _ _ _ SV) as CF.
  destruct (sv_old_server _ _ _ _ _ _ _ _ _ _ _ SV) as (RDo & Fo & Oo & Do & Po).
  destruct (client_section b dart' C' sc CF) as (FI & N & LB & OK & FC & CO).
  destruct (lem_C32_client_call b dart' C' sc D U cd node dfuel x W s P d vs ws CF L (km_new _ _ _ KM) NR NA SH PA F1) as (X & _).
  set (mem := sent (d_mem s) sc (fn_position node) (dart_request D U (schema_decls b) node vs)) in *.
  assert (EB : dart_request D U new node vs = rt_put R "u8" 255 ++ flat_map (wire R rnew) vs).
  { unfold dart_request, dart_args.
  rewrite (status_agrees R D U AG SS).
  f_equal.
  symmetry.
  now apply (args_agree b dart' R D U cd P (d_heap s) d vs AG OK ws).
  }
  exists mem.
  split; [|split; [|exact X]].
  - rewrite (handler_runs a models true rust R V fuel RDo Fo Po node _ (km_old _ _ _ KM)).
  apply (EvolveServer.sync_refuses R V rust _ (K_clean rust R V fuel)).
  + exact (f_none _ _ _ (a_service_file a models true rust RDo Fo Po)).
  + now split.
  + eapply (request_refused a b models models' rust rust' dart dart' C C' sc R SV LR V fuel node 0 vs (set_mem mem q) addr _ KM NR eq_refl AN AO); [|exact F0|].
  * intros v I.
  specialize (WI v I).
  clear - WI.
  lia.
  * rewrite NA.
  cbn [set_mem s_mem app].
  unfold mem, sent.
  fold addr.
  unfold upd_mem.
  rewrite !String.eqb_refl, Z.eqb_refl.
  cbn [andb].
  fold new.
  rewrite EB, <- !app_assoc.
  reflexivity.
  - intros sc' a' side NE.
  unfold mem, sent, upd_mem.
  fold addr.
  destruct (String.eqb_spec sc' sc) as [->|], (Z.eqb_spec a' addr) as [->|], (String.eqb_spec side "Server") as [->|]; try reflexivity.
  now destruct NE.
Qed.

Lemma lem_C55_old_client_async : forall a b models models' rust rust' dart dart' C C' sc R V D U cd node fuel dfuel x W s P d vs ws,
  let nodes := find_fn_nodes a in
  let old := schema_decls a in let new := schema_decls b in let rold := rust_decls a true true in let rnew := rust_decls b true true in
  let id := fn_id node in let addr := Z.of_N (fn_position node) in let z := w_last W id in let p := List.length (d_heap s) in
  services a b models models' rust rust' dart dart' C C' sc -> lawful R -> dlawful D U -> agree R D U -> same_status D ->
  kept_method a b node -> fn_is_read node = false -> fn_is_async node = true -> sv_async V id = true ->
  in_range "i64" z = true -> arguments R rold node vs = true -> passed U dart old cd P (d_heap s) d vs ws (fn_args node) -> ~ P x -> args_portable old node vs = true ->
  RpcFacts.within fuel vs -> fuel > 1 -> 2 * d + 5 <= dfuel -> shows C sc nodes (d_heap s) (d_tasks s) x W ->
  exists h' W' mem, client_call D dart dfuel x node ws s = DDone (dref p) (set_heap h' (set_dmem mem s)) /\
    shows C sc nodes h' (d_tasks s) x W' /\ pending W' id z p /\ nth_error h' p = Some (CDone None) /\
    forall q, s_mem q sc addr "Server" = mem sc addr "Server" ->
    exists q' task, call_fn R V rust' fuel (handler_name node) (async_args sc addr) q = Done (bool_val true) q' /\
      s_tasks q' = s_tasks q ++ [task] /\ s_log q' = s_log q /\
      forall q2 i v, nth_error (s_tasks q2) i = Some task -> sv_call V (List.length (s_log q2)) id vs = Some v ->
        is_result R rnew node v = true -> dart_returns U new dart' cd node v = true -> result_portable new node v = true ->
        depth v <= fuel -> 3 * depth v + 3 * cd + 4 <= dfuel ->
      exists q3, complete R V rust' fuel i q2 = Done vunit q3 /\ s_log q3 = s_log q2 ++ [mk_called id vs (s_mem q2)] /\
        forall s2 W2, shows C sc nodes (d_heap s2) (d_tasks s2) x W2 -> pending W2 id z p ->
          nth_error (d_tasks s2) (w_task W2 id) = Some (Some (node_task C sc node x)) ->
          d_mem s2 sc addr "Client" = s_mem q3 sc addr "Client" ->
        if dart_returns U old dart cd node v
        then exists w h2, run_task D dart dfuel (w_task W2 id) s2 = DDone dnull (set_heap h2 s2) /\
               nth_error h2 p = Some (CDone (Some w)) /\ returned U old node v (d_heap s2) h2 w
        else run_task D dart dfuel (w_task W2 id) s2 = DThrows "StateError".
Proof.
  intros a b models models' rust rust' dart dart' C C' sc R V D U cd node fuel dfuel x W s P d vs ws nodes old new rold rnew id addr z p SV LR L AG SS KM NR NA SA RZ AR PA NP PO WI F0 F1 SH.
  pose proof (sv_old_client _ _ _ _ _ _ _ _ _ _ _ SV) as CF.
  pose proof (sv_new_server _ _ _ _ _ _ _ _ _ _ _ SV) as RF.
  destruct (client_section a dart C sc CF) as (FI & N & LB & OK & FC & CO).
  destruct (args_later a b models models' rust rust' dart dart' C C' sc R SV node vs KM AR) as [AR' AW].
  destruct (lem_C34_client_call a dart C sc D U cd node dfuel x W s P d vs ws CF L (km_old _ _ _ KM) NR NA SH PA NP F1) as (h' & W' & E & SH' & CN & PW & _).
  set (mem := sent (d_mem s) sc (fn_position node) (dart_async_request D U old node (w_last W (fn_id node)) vs)) in *.
  assert (EB : dart_async_request D U old node z vs = async_request_bytes R rnew z vs).
  { unfold dart_async_request, async_request_bytes, dart_args.
  rewrite (status_agrees R D U AG SS), (identity_agrees R D U z AG RZ).
  do 2 f_equal.
  unfold rnew.
  rewrite AW.
  symmetry.
  now apply (args_agree a dart R D U cd P (d_heap s) d vs AG OK ws).
  }
  exists h', W', mem.
  split; [exact E|].
  split; [exact SH'|].
  split; [unfold pending, id, z, p; rewrite PW; apply in_or_app; right; now left|].
  split; [exact CN|].
  intros q EQ.
  assert (ES : s_mem q sc addr "Server" = async_request_bytes R rnew z vs ++ skipn (List.length (async_request_bytes R rnew z vs)) (d_mem s sc addr "Server")).
  { rewrite EQ.
  unfold mem, sent.
  fold addr.
  unfold upd_mem.
  rewrite !String.eqb_refl, Z.eqb_refl.
  cbn [andb].
  fold id.
  fold z.
  now rewrite EB.
  }
  destruct (lem_C34_async_identity b models' true rust' R V node z vs _ fuel q sc addr RF LR (km_new _ _ _ KM) NR NA SA RZ AR' WI F0 ES) as (q' & o & task & E1 & T1 & G1 & _ & _ & LATER).
  exists q', task.
  split; [exact E1|].
  split; [exact T1|].
  split; [exact G1|].
  intros q2 i v TI SC IR DR PR DV F2.
  destruct (LATER q2 i v TI SC IR DV) as (q3 & old' & E3 & _ & G3 & C3 & _).
  exists q3.
  split; [exact E3|].
  split; [exact G3|].
  intros s2 W2 SH2 PD TK EM.
  destruct (result_seen a b models models' rust rust' dart dart' C C' sc R D U cd SV L AG node v (dfuel - 1) KM DR PR ltac:(clear - F2; lia)) as (bs & EBS & SEEN).
  rewrite C3, EBS in EM.
  rewrite <- (status_agrees R D U AG SS), <- (identity_agrees R D U z AG RZ) in EM.
  fold old in SEEN.
  destruct (dart_returns U old dart cd node v) eqn:DO.
  - assert (ER : d_mem s2 sc addr "Client" = dart_response D U old node z v ++ old') by (rewrite EM, SEEN; unfold dart_response; now rewrite <- !app_assoc).
  destruct (lem_C34_client_answer a dart C sc D U cd node dfuel x W2 s2 z v old' CF L ltac:(now rewrite SS) (km_old _ _ _ KM) NR NA SH2 TK RZ DO F2 ER) as (w & h2 & V2 & X1 & X2 & _ & X3 & _).
  exists w, h2.
  split; [exact X1|].
  split; [now apply X3|exact X2].
  - destruct SEEN as (t & ERT & B).
  destruct SH2 as (fs & A & _).
  assert (FN : exists n, dfuel = S (S n)) by (clear - F1; exists (dfuel - 2); lia).
  destruct FN as (n & ->).
  replace (S (S n) - 1) with (S n) in B by (clear; lia).
  eapply (EvolveRpc.task_bad D dart old FI N LB OK C sc nodes FC CO n x fs _ node s2 t _ z old' bs (km_old _ _ _ KM)); [|exact A|exact TK| |exact ERT| |exact B].
  + unfold has_task, is_async_or_read.
  now rewrite NA.
  + unfold number.
  fold addr.
  rewrite EM.
  apply (int8_get D U L SS).
  + rewrite NR.
  now apply (int64_get D U).
Qed.

Lemma lem_C55_new_client_async : forall a b models models' rust rust' dart dart' C C' sc R V D U cd node fuel dfuel x W s P d vs ws,
  let nodes := find_fn_nodes b in
  let new := schema_decls b in let rold := rust_decls a true true in let rnew := rust_decls b true true in
  let id := fn_id node in let addr := Z.of_N (fn_position node) in let z := w_last W id in let p := List.length (d_heap s) in
  services a b models models' rust rust' dart dart' C C' sc -> lawful R -> dlawful D U -> agree R D U -> same_status D ->
  kept_method a b node -> fn_is_read node = false -> fn_is_async node = true -> sv_async V id = true ->
  in_range "i64" z = true -> arguments R rnew node vs = true -> passed U dart' new cd P (d_heap s) d vs ws (fn_args node) -> ~ P x -> args_portable new node vs = true ->
  RpcFacts.within fuel vs -> fuel > 1 -> 2 * d + 5 <= dfuel -> shows C' sc nodes (d_heap s) (d_tasks s) x W ->
  exists h' W' mem, client_call D dart' dfuel x node ws s = DDone (dref p) (set_heap h' (set_dmem mem s)) /\
    shows C' sc nodes h' (d_tasks s) x W' /\ pending W' id z p /\ nth_error h' p = Some (CDone None) /\
    forall q, s_mem q sc addr "Server" = mem sc addr "Server" ->
    if arguments R rold node vs
    then exists q' task, call_fn R V rust fuel (handler_name node) (async_args sc addr) q = Done (bool_val true) q' /\
      s_tasks q' = s_tasks q ++ [task] /\ s_log q' = s_log q /\
      forall q2 i v, nth_error (s_tasks q2) i = Some task -> sv_call V (List.length (s_log q2)) id vs = Some v ->
        is_result R rold node v = true -> dart_returns U new dart' cd node v = true -> result_portable new node v = true ->
        depth v <= fuel -> 3 * depth v + 3 * cd + 4 <= dfuel ->
      exists q3, complete R V rust fuel i q2 = Done vunit q3 /\ s_log q3 = s_log q2 ++ [mk_called id vs (s_mem q2)] /\
        forall s2 W2, shows C' sc nodes (d_heap s2) (d_tasks s2) x W2 -> pending W2 id z p ->
          nth_error (d_tasks s2) (w_task W2 id) = Some (Some (node_task C' sc node x)) ->
          d_mem s2 sc addr "Client" = s_mem q3 sc addr "Client" ->
        exists w h2, run_task D dart' dfuel (w_task W2 id) s2 = DDone dnull (set_heap h2 s2) /\
          nth_error h2 p = Some (CDone (Some w)) /\ returned U new node v (d_heap s2) h2 w
    else call_fn R V rust fuel (handler_name node) (async_args sc addr) q = Panics.
Proof.
  intros a b models models' rust rust' dart dart' C C' sc R V D U cd node fuel dfuel x W s P d vs ws nodes new rold rnew id addr z p SV LR L AG SS KM NR NA SA RZ AN PA NP PO WI F0 F1 SH.
  pose proof (sv_new_client _ _ _ _ _ _ _ _ _ _ _ SV) as CF.
  pose proof (sv_old_server _ _ _ _ _ _ _ _ _ _ _ SV) as RF.
  destruct (client_section b dart' C' sc CF) as (FI & N & LB & OK & FC & CO).
  destruct (lem_C34_client_call b dart' C' sc D U cd node dfuel x W s P d vs ws CF L (km_new _ _ _ KM) NR NA SH PA NP F1) as (h' & W' & E & SH' & CN & PW & _).
  set (mem := sent (d_mem s) sc (fn_position node) (dart_async_request D U new node (w_last W (fn_id node)) vs)) in *.
  assert (EB : dart_async_request D U new node z vs = async_request_bytes R rnew z vs).
  { unfold dart_async_request, async_request_bytes, dart_args.
  rewrite (status_agrees R D U AG SS), (identity_agrees R D U z AG RZ).
  do 2 f_equal.
  symmetry.
  now apply (args_agree b dart' R D U cd P (d_heap s) d vs AG OK ws).
  }
  exists h', W', mem.
  split; [exact E|].
  split; [exact SH'|].
  split; [unfold pending, id, z, p; rewrite PW; apply in_or_app; right; now left|].
  split; [exact CN|].
  intros q EQ.
  assert (ES : s_mem q sc addr "Server" = async_request_bytes R rnew z vs ++ skipn (List.length (async_request_bytes R rnew z vs)) (d_mem s sc addr "Server")).
  { rewrite EQ.
  unfold mem, sent.
  fold addr.
  unfold upd_mem.
  rewrite !String.eqb_refl, Z.eqb_refl.
  cbn [andb].
  fold id.
  fold z.
  now rewrite EB.
  }
  destruct (arguments R rold node vs) eqn:AO.
  - destruct (args_later a b models models' rust rust' dart dart' C C' sc R SV node vs KM AO) as [_ AW].
  fold rold rnew in AW.
  assert (EO : async_request_bytes R rnew z vs = async_request_bytes R rold z vs) by (unfold async_request_bytes; now rewrite AW).
  rewrite EO in ES.
  destruct (lem_C34_async_identity a models true rust R V node z vs _ fuel q sc addr RF LR (km_old _ _ _ KM) NR NA SA RZ AO WI F0 ES) as (q' & o & task & E1 & T1 & G1 & _ & _ & LATER).
  exists q', task.
  split; [exact E1|].
  split; [exact T1|].
  split; [exact G1|].
  intros q2 i v TI SC IR DR PR DV F2.
  destruct (LATER q2 i v TI SC IR DV) as (q3 & old' & E3 & _ & G3 & C3 & _).
  exists q3.
  split; [exact E3|].
  split; [exact G3|].
  intros s2 W2 SH2 PD TK EM.
  destruct (result_later a b models models' rust rust' dart dart' C C' sc R SV node v KM IR) as [_ RW].
  rewrite C3, <- RW in EM.
  rewrite <- (status_agrees R D U AG SS), <- (identity_agrees R D U z AG RZ) in EM.
  rewrite (result_agrees b dart' R D U cd node v AG OK DR PR) in EM.
  assert (ER : d_mem s2 sc addr "Client" = dart_response D U new node z v ++ old') by (rewrite EM; unfold dart_response; now rewrite <- !app_assoc).
  destruct (lem_C34_client_answer b dart' C' sc D U cd node dfuel x W2 s2 z v old' CF L ltac:(now rewrite SS) (km_new _ _ _ KM) NR NA SH2 TK RZ DR F2 ER) as (w & h2 & V2 & X1 & X2 & _ & X3 & _).
  exists w, h2.
  split; [exact X1|].
  split; [now apply X3|exact X2].
  - destruct RF as (RDo & Fo & Oo & Do & Po).
  rewrite (handler_runs a models true rust R V fuel RDo Fo Po node _ (km_old _ _ _ KM)).
  apply (EvolveServer.async_refuses R V rust _ (K_clean rust R V fuel)).
  + exact (f_none _ _ _ (a_service_file a models true rust RDo Fo Po)).
  + now split.
  + eapply (request_refused a b models models' rust rust' dart dart' C C' sc R SV LR V fuel node z vs q addr _ KM NR RZ AN AO); [|exact F0|].
  * intros v I.
  specialize (WI v I).
  clear - WI.
  lia.
  * rewrite NA, ES.
  unfold async_request_bytes.
  rewrite <- !app_assoc.
  reflexivity.
Qed.

Lemma lem_C55_old_client_read : forall a b models models' rust rust' dart dart' C C' sc R V D U cd node fuel dfuel x W s q v,
  let nodes := find_fn_nodes a in let old := schema_decls a in let new := schema_decls b in let rnew := rust_decls b true true in
  let id := fn_id node in let addr := Z.of_N (fn_position node) in
  services a b models models' rust rust' dart dart' C C' sc -> dlawful D U -> agree R D U -> same_status D ->
  kept_method a b node -> fn_is_read node = true -> fn_is_async node = false -> sv_async V id = false ->
  match fn_return node with Some ty => Wire.prim_name ty = None | None => True end ->
  sv_call V (List.length (s_log q)) id [] = Some (vopt (Some v)) -> is_result R rnew node v = true -> depth v <= fuel ->
  dart_returns U new dart' cd node v = true -> result_portable new node v = true -> 3 * depth v + 3 * cd + 4 <= dfuel ->
  exists q', call_fn R V rust' fuel (handler_name node) (async_args sc addr) q = Done (bool_val true) q' /\
    s_log q' = s_log q ++ [mk_called id [] (s_mem q)] /\
    (shows C sc nodes (d_heap s) (d_tasks s) x W -> nth_error (d_tasks s) (w_task W id) = Some (Some (node_task C sc node x)) ->
     snd (w_stream W id) = true -> d_mem s sc addr "Client" = s_mem q' sc addr "Client" ->
     if dart_returns U old dart cd node v
     then exists w h' W', run_task D dart dfuel (w_task W id) s = DDone dnull (set_heap h' s) /\ returned U old node v (d_heap s) h' w /\
       shows C sc nodes h' (d_tasks s) x W' /\ w_stream W' id = (fst (w_stream W id) ++ [w], true)
     else run_task D dart dfuel (w_task W id) s = DThrows "StateError").
Proof.
  intros a b models models' rust rust' dart dart' C C' sc R V D U cd node fuel dfuel x W s q v nodes old new rnew id addr SV L AG SS KM RN NA SA NP SC IR DV DR PR F2.
  pose proof (sv_old_client _ _ _ _ _ _ _ _ _ _ _ SV) as CF.
  pose proof (sv_new_server _ _ _ _ _ _ _ _ _ _ _ SV) as RF.
  destruct (client_section a dart C sc CF) as (FI & N & LB & OK & FC & CO).
  destruct (lem_C36_read_runs b models' true rust' R V node (Some v) fuel q sc addr RF (km_new _ _ _ KM) RN NA SA NP SC (conj IR DV)) as (q' & o & E & LG & CL & _).
  exists q'.
  split; [exact E|].
  split; [exact LG|].
  intros SH TK ST EM.
  destruct (result_seen a b models models' rust rust' dart dart' C C' sc R D U cd SV L AG node v (dfuel - 1) KM DR PR ltac:(clear - F2; lia)) as (bs & EBS & SEEN).
  rewrite CL, EBS, <- app_assoc in EM.
  rewrite <- (status_agrees R D U AG SS) in EM.
  fold old in SEEN.
  destruct (dart_returns U old dart cd node v) eqn:DO.
  - rewrite SEEN in EM.
  destruct (lem_C47_stream_adds a dart C sc D U cd node dfuel x W s v o CF L ltac:(now rewrite SS) (km_old _ _ _ KM) RN SH TK DO F2 EM) as (_ & X).
  destruct (X ST) as (w & h' & W' & X1 & X2 & X3 & X4 & _).
  exists w, h', W'.
  split; [exact X1|].
  split; [exact X2|].
  split; [exact X3|exact X4].
  - destruct SEEN as (t & ERT & B).
  destruct SH as (fs & A & _).
  assert (FN : exists n, dfuel = S (S n)) by (clear - F2; exists (dfuel - 2); lia).
  destruct FN as (n & ->).
  replace (S (S n) - 1) with (S n) in B by (clear; lia).
  eapply (EvolveRpc.task_bad D dart old FI N LB OK C sc nodes FC CO n x fs _ node s t _ 0%Z o bs (km_old _ _ _ KM)); [|exact A|exact TK| |exact ERT| |exact B].
  + unfold has_task, is_async_or_read.
  now rewrite RN, orb_true_r.
  + unfold number.
  fold addr.
  rewrite EM.
  apply (int8_get D U L SS).
  + now rewrite RN.
Qed.

Lemma lem_C55_new_client_read : forall a b models models' rust rust' dart dart' C C' sc R V D U cd node fuel dfuel x W s q v,
  let nodes := find_fn_nodes b in let new := schema_decls b in let rold := rust_decls a true true in
  let id := fn_id node in let addr := Z.of_N (fn_position node) in
  services a b models models' rust rust' dart dart' C C' sc -> dlawful D U -> agree R D U -> same_status D ->
  kept_method a b node -> fn_is_read node = true -> fn_is_async node = false -> sv_async V id = false ->
  match fn_return node with Some ty => Wire.prim_name ty = None | None => True end ->
  sv_call V (List.length (s_log q)) id [] = Some (vopt (Some v)) -> is_result R rold node v = true -> depth v <= fuel ->
  dart_returns U new dart' cd node v = true -> result_portable new node v = true -> 3 * depth v + 3 * cd + 4 <= dfuel ->
  exists q', call_fn R V rust fuel (handler_name node) (async_args sc addr) q = Done (bool_val true) q' /\
    s_log q' = s_log q ++ [mk_called id [] (s_mem q)] /\
    (shows C' sc nodes (d_heap s) (d_tasks s) x W -> nth_error (d_tasks s) (w_task W id) = Some (Some (node_task C' sc node x)) ->
     snd (w_stream W id) = true -> d_mem s sc addr "Client" = s_mem q' sc addr "Client" ->
     exists w h' W', run_task D dart' dfuel (w_task W id) s = DDone dnull (set_heap h' s) /\ returned U new node v (d_heap s) h' w /\
       shows C' sc nodes h' (d_tasks s) x W' /\ w_stream W' id = (fst (w_stream W id) ++ [w], true)).
Proof.
  intros a b models models' rust rust' dart dart' C C' sc R V D U cd node fuel dfuel x W s q v nodes new rold id addr SV L AG SS KM RN NA SA NP SC IR DV DR PR F2.
  pose proof (sv_new_client _ _ _ _ _ _ _ _ _ _ _ SV) as CF.
  pose proof (sv_old_server _ _ _ _ _ _ _ _ _ _ _ SV) as RF.
  destruct (client_section b dart' C' sc CF) as (FI & N & LB & OK & FC & CO).
  destruct (lem_C36_read_runs a models true rust R V node (Some v) fuel q sc addr RF (km_old _ _ _ KM) RN NA SA NP SC (conj IR DV)) as (q' & o & E & LG & CL & _).
  exists q'.
  split; [exact E|].
  split; [exact LG|].
  intros SH TK ST EM.
  destruct (result_later a b models models' rust rust' dart dart' C C' sc R SV node v KM IR) as [_ RW].
  rewrite CL, <- RW, <- app_assoc in EM.
  rewrite <- (status_agrees R D U AG SS) in EM.
  rewrite (result_agrees b dart' R D U cd node v AG OK DR PR) in EM.
  destruct (lem_C47_stream_adds b dart' C' sc D U cd node dfuel x W s v o CF L ltac:(now rewrite SS) (km_new _ _ _ KM) RN SH TK DR F2 EM) as (_ & X).
  destruct (X ST) as (w & h' & W' & X1 & X2 & X3 & X4 & _).
  exists w, h', W'.
  split; [exact X1|].
  split; [exact X2|].
  split; [exact X3|exact X4].
Qed.

Lemma lem_C55_old_client_async_read : forall a b models models' rust rust' dart dart' C C' sc R V D U cd node z rest fuel dfuel x q,
  let nodes := find_fn_nodes a in let old := schema_decls a in let new := schema_decls b in let rnew := rust_decls b true true in
  let id := fn_id node in let addr := Z.of_N (fn_position node) in
  services a b models models' rust rust' dart dart' C C' sc -> lawful R -> dlawful D U -> agree R D U -> same_status D ->
  kept_method a b node -> fn_is_read node = true -> fn_is_async node = true -> sv_async V id = true ->
  match fn_return node with Some ty => Wire.prim_name ty = None | None => True end ->
  rt_get R "u8" (s_mem q sc addr "Server") = Some (z, rest) -> z <> 255%Z ->
  exists q' task, call_fn R V rust' fuel (handler_name node) (async_args sc addr) q = Done (bool_val true) q' /\
    s_tasks q' = s_tasks q ++ [task] /\
    forall q2 i v, nth_error (s_tasks q2) i = Some task -> sv_call V (List.length (s_log q2)) id [] = Some (vopt (Some v)) ->
      is_result R rnew node v = true -> depth v <= fuel -> dart_returns U new dart' cd node v = true -> result_portable new node v = true -> 3 * depth v + 3 * cd + 4 <= dfuel ->
    exists q3, complete R V rust' fuel i q2 = Done vunit q3 /\
      forall s W, shows C sc nodes (d_heap s) (d_tasks s) x W -> nth_error (d_tasks s) (w_task W id) = Some (Some (node_task C sc node x)) ->
        snd (w_stream W id) = true -> d_mem s sc addr "Client" = s_mem q3 sc addr "Client" ->
      if dart_returns U old dart cd node v
      then exists w h' W', run_task D dart dfuel (w_task W id) s = DDone dnull (set_heap h' s) /\ returned U old node v (d_heap s) h' w /\
        shows C sc nodes h' (d_tasks s) x W' /\ w_stream W' id = (fst (w_stream W id) ++ [w], true)
      else run_task D dart dfuel (w_task W id) s = DThrows "StateError".
Proof.
  intros a b models models' rust rust' dart dart' C C' sc R V D U cd node z rest fuel dfuel x q nodes old new rnew id addr SV LR L AG SS KM RN NA SA NP G NZ.
  pose proof (sv_old_client _ _ _ _ _ _ _ _ _ _ _ SV) as CF.
  pose proof (sv_new_server _ _ _ _ _ _ _ _ _ _ _ SV) as RF.
  destruct (client_section a dart C sc CF) as (FI & N & LB & OK & FC & CO).
  destruct (lem_C35_some_releases b models' true rust' R V node z rest fuel q sc addr RF LR (km_new _ _ _ KM) RN NA SA NP G NZ) as (q' & task & E & T1 & _ & _ & LATER).
  exists q', task.
  split; [exact E|].
  split; [exact T1|].
  intros q2 i v TI SC IR DV DR PR F2.
  destruct (LATER q2 i v TI SC IR DV) as (q3 & q4 & o & E3 & _ & CL & _).
  exists q3.
  split; [exact E3|].
  intros s W SH TK ST EM.
  destruct (result_seen a b models models' rust rust' dart dart' C C' sc R D U cd SV L AG node v (dfuel - 1) KM DR PR ltac:(clear - F2; lia)) as (bs & EBS & SEEN).
  rewrite CL, EBS in EM.
  rewrite <- (status_agrees R D U AG SS) in EM.
  fold old in SEEN.
  destruct (dart_returns U old dart cd node v) eqn:DO.
  - rewrite SEEN in EM.
  destruct (lem_C47_stream_adds a dart C sc D U cd node dfuel x W s v o CF L ltac:(now rewrite SS) (km_old _ _ _ KM) RN SH TK DO F2 EM) as (_ & X).
  destruct (X ST) as (w & h' & W' & X1 & X2 & X3 & X4 & _).
  exists w, h', W'.
  split; [exact X1|].
  split; [exact X2|].
  split; [exact X3|exact X4].
  - destruct SEEN as (t & ERT & B).
  destruct SH as (fs & A & _).
  assert (FN : exists n, dfuel = S (S n)) by (clear - F2; exists (dfuel - 2); lia).
  destruct FN as (n & ->).
  replace (S (S n) - 1) with (S n) in B by (clear; lia).
  eapply (EvolveRpc.task_bad D dart old FI N LB OK C sc nodes FC CO n x fs _ node s t _ 0%Z o bs (km_old _ _ _ KM)); [|exact A|exact TK| |exact ERT| |exact B].
  + unfold has_task, is_async_or_read.
  now rewrite RN, orb_true_r.
  + unfold number.
  fold addr.
  rewrite EM.
  apply (int8_get D U L SS).
  + now rewrite RN.
Qed.

Lemma lem_C55_new_client_async_read : forall a b models models' rust rust' dart dart' C C' sc R V D U cd node z rest fuel dfuel x q,
  let nodes := find_fn_nodes b in let new := schema_decls b in let rold := rust_decls a true true in
  let id := fn_id node in let addr := Z.of_N (fn_position node) in
  services a b models models' rust rust' dart dart' C C' sc -> lawful R -> dlawful D U -> agree R D U -> same_status D ->
  kept_method a b node -> fn_is_read node = true -> fn_is_async node = true -> sv_async V id = true ->
  match fn_return node with Some ty => Wire.prim_name ty = None | None => True end ->
  rt_get R "u8" (s_mem q sc addr "Server") = Some (z, rest) -> z <> 255%Z ->
  exists q' task, call_fn R V rust fuel (handler_name node) (async_args sc addr) q = Done (bool_val true) q' /\
    s_tasks q' = s_tasks q ++ [task] /\
    forall q2 i v, nth_error (s_tasks q2) i = Some task -> sv_call V (List.length (s_log q2)) id [] = Some (vopt (Some v)) ->
      is_result R rold node v = true -> depth v <= fuel -> dart_returns U new dart' cd node v = true -> result_portable new node v = true -> 3 * depth v + 3 * cd + 4 <= dfuel ->
    exists q3, complete R V rust fuel i q2 = Done vunit q3 /\
      forall s W, shows C' sc nodes (d_heap s) (d_tasks s) x W -> nth_error (d_tasks s) (w_task W id) = Some (Some (node_task C' sc node x)) ->
        snd (w_stream W id) = true -> d_mem s sc addr "Client" = s_mem q3 sc addr "Client" ->
      exists w h' W', run_task D dart' dfuel (w_task W id) s = DDone dnull (set_heap h' s) /\ returned U new node v (d_heap s) h' w /\
        shows C' sc nodes h' (d_tasks s) x W' /\ w_stream W' id = (fst (w_stream W id) ++ [w], true).
Proof.
  intros a b models models' rust rust' dart dart' C C' sc R V D U cd node z rest fuel dfuel x q nodes new rold id addr SV LR L AG SS KM RN NA SA NP G NZ.
  pose proof (sv_new_client _ _ _ _ _ _ _ _ _ _ _ SV) as CF.
  pose proof (sv_old_server _ _ _ _ _ _ _ _ _ _ _ SV) as RF.
  destruct (client_section b dart' C' sc CF) as (FI & N & LB & OK & FC & CO).
  destruct (lem_C35_some_releases a models true rust R V node z rest fuel q sc addr RF LR (km_old _ _ _ KM) RN NA SA NP G NZ) as (q' & task & E & T1 & _ & _ & LATER).
  exists q', task.
  split; [exact E|].
  split; [exact T1|].
  intros q2 i v TI SC IR DV DR PR F2.
  destruct (LATER q2 i v TI SC IR DV) as (q3 & q4 & o & E3 & _ & CL & _).
  exists q3.
  split; [exact E3|].
  intros s W SH TK ST EM.
  destruct (result_later a b models models' rust rust' dart dart' C C' sc R SV node v KM IR) as [_ RW].
  rewrite CL, <- RW in EM.
  rewrite <- (status_agrees R D U AG SS) in EM.
  rewrite (result_agrees b dart' R D U cd node v AG OK DR PR) in EM.
  destruct (lem_C47_stream_adds b dart' C' sc D U cd node dfuel x W s v o CF L ltac:(now rewrite SS) (km_new _ _ _ KM) RN SH TK DR F2 EM) as (_ & X).
  destruct (X ST) as (w & h' & W' & X1 & X2 & X3 & X4 & _).
  exists w, h', W'.
  split; [exact X1|].
  split; [exact X2|].
  split; [exact X3|exact X4].
Qed.

(** What the condition on the order of methods excludes: a method inserted before others.  Both versions generate files that
    compile, the function that the client calls still exists with the same arguments and result, and yet the call runs another one,
    and the client takes its result for the one of the function it called. *)
Definition c55_inserted : string := "#[id = ""svc""] #[namespace = ""test""] enum Shape { #[3] Dot, #[7] Round(u32) } fn shrink(shape: Shape, by: u32) -> Shape; fn grow(shape: Shape, by: u32) -> Shape; async fn later(shape: Shape) -> Shape; read last -> Shape; async read next -> Shape;".

Definition c55_i : list ast_node := Eval vm_compute in parsed c55_inserted.

Definition c55_i_rust : list item := Eval vm_compute in rust_tree c55_i true true true.

Definition c55_shrink : fn_node := Eval vm_compute in hd (mk_fn "" 0 [] None false false) (find_fn_nodes c55_i).

Lemma c55_i_server : rpc_file c55_i true true c55_i_rust.
Proof.
  change c55_i_rust with (rust_tree c55_i true true true).
  apply rpc_file_by.
  vm_compute.
  reflexivity.
Qed.

Definition c55_i_service : service := mk_service (fun _ f vs => Some (if String.eqb f "shrink" then c55_round 1 else c55_round 2)) (fun _ => false).

Definition c55_i_served (mem : string -> Z -> string -> bytes) : out val :=
  call_fn le_runtime c55_i_service c55_i_rust 5 "shrink_rpc_handler" (sync_args "svc" 0) (set_mem mem (c31_state [])).

Definition c55_i_runtime : druntime :=
  let D := le_dart false in mk_druntime (rd_put D) (rd_get D) (rd_eput D) (rd_eget D) (rd_ext_put D) (rd_ext_get D) (rd_ext_new D) (rd_len_put D) (rd_len_get D)
    (rd_bulk D) (rd_float D) (rd_neg D) (-1) (fun z => (z + 1)%Z) (fun _ mem => match c55_i_served mem with Done _ q => Some (s_mem q) | _ => None end).

Lemma c55_i_dlawful : dlawful c55_i_runtime le_support.
Proof.
  destruct (le_dlawful false).
  constructor; assumption.
Qed.

Lemma lem_C55_inserted_refuted : exists a b rust' dart node other q regs mem q' m w s',
  client_file a dart "TestRpcClient" "svc" /\ rpc_file b true true rust' /\
  In node (find_fn_nodes a) /\ (exists same, In same (find_fn_nodes b) /\ method_shape same = method_shape node) /\ fn_id other <> fn_id node /\
  (exists s1, call_fn le_runtime c55_i_service rust' 5 "register_rpc" [vref vruntime; vref vaddresses] q = Done vunit s1 /\ s_regs s1 = regs) /\
  In ("register_sync_rpc_method", "sync_group_address", "svc", Z.of_N (fn_position node), handler_name other) regs /\
  client_call c55_i_runtime dart 29 (c31_at c55_old_made) node [dref 1; dint 4] (c31_then c55_old_made) = DDone w s' /\
  rd_loop c55_i_runtime (d_loops (c31_then c55_old_made)) mem = Some (d_mem s') /\
  call_fn le_runtime c55_i_service rust' 5 (handler_name other) (sync_args "svc" (Z.of_N (fn_position node))) (set_mem mem q) = Done (bool_val true) q' /\
  s_log q' = [mk_called (fn_id other) [vcase "Shape" "Dot"; vnum "u32" 4] m].
Proof.
  destruct c55_old_view as (W & SH & _).
  destruct (lem_C32_client_call c55_a c55_old_dart "TestRpcClient" "svc" c55_i_runtime le_support 5 (c55_node "grow") 29 (c31_at c55_old_made) W (c31_then c55_old_made) (fun b => b < 2) 3
    [vcase "Shape" "Dot"; vnum "u32" 4] [dref 1; dint 4] c55_old_client c55_i_dlawful ltac:(vm_compute; tauto) eq_refl eq_refl SH (c55_passed 4 (or_introl eq_refl)) ltac:(lia)) as (_ & Y).
  set (mem := sent _ _ _ _) in Y.
  destruct (lem_C32_sync_call c55_i true true c55_i_rust le_runtime c55_i_service c55_shrink [vcase "Shape" "Dot"; vnum "u32" 4] (c55_round 1) [] 5 (set_mem mem (c31_state [])) "svc" 0%Z
    c55_i_server le_lawful) as (q' & m & o & o' & E & LG & _ & _ & _ & CL & _);
    [vm_compute; tauto|reflexivity|reflexivity|reflexivity|vm_compute; reflexivity|intros x [<-|[<-|[<-|[]]]]; vm_compute; lia|vm_compute; reflexivity|reflexivity|vm_compute; reflexivity|].
  assert (EL : rd_loop c55_i_runtime (d_loops (c31_then c55_old_made)) mem = Some (s_mem q')).
  { cbn [c55_i_runtime rd_loop].
  unfold c55_i_served.
  change "shrink_rpc_handler" with (handler_name c55_shrink).
  now rewrite E.
  }
  destruct (Y (s_mem q') EL) as (_ & Y2).
  destruct (Y2 (TyOther "Shape") (-1)%Z (dwire c55_i_runtime le_support (schema_decls c55_a) false (c55_round 1) (TyOther "Shape") ++ o') eq_refl) as (_ & Z2).
  { change (Z.of_N (fn_position (c55_node "grow"))) with 0%Z.
  rewrite CL.
  assert (B : rt_put le_runtime "u8" 255 ++ response_bytes le_runtime (rust_decls c55_i true true) c55_shrink (c55_round 1) =
      rd_put c55_i_runtime "Int8" (-1) ++ dwire c55_i_runtime le_support (schema_decls c55_a) false (c55_round 1) (TyOther "Shape")) by (vm_compute; reflexivity).
  rewrite app_assoc, B, <- app_assoc.
  now apply (int8_get c55_i_runtime le_support c55_i_dlawful).
  }
  destruct (Z2 eq_refl (c55_round 1) o' ltac:(vm_compute; reflexivity) ltac:(vm_compute; lia) eq_refl) as (w & h' & E1 & _).
  exists c55_a, c55_i, c55_i_rust, c55_old_dart, (c55_node "grow"), c55_shrink, (c31_state []), (map (fun n => registration n "svc") (find_fn_nodes c55_i)), mem, q', m, w.
  eexists.
  split; [exact c55_old_client|].
  split; [exact c55_i_server|].
  split; [vm_compute; tauto|].
  split; [exists (nth 1 (find_fn_nodes c55_i) c55_shrink); split; [vm_compute; tauto|vm_compute; reflexivity]|].
  split; [vm_compute; discriminate|].
  split.
  { destruct c55_i_server as (RD & F & _ & _ & P).
  destruct (lem_C31_registration c55_i true true c55_i_rust le_runtime c55_i_service 5 (c31_state []) RD F P ltac:(vm_compute; discriminate)) as (sc & ty & ID & X).
  assert (sc = "svc") as -> by (vm_compute in ID; congruence).
  eexists.
  split; [exact X|reflexivity].
  }
  split; [left; vm_compute; reflexivity|].
  split; [exact E1|].
  split; [exact EL|].
  split; [exact E|].
  rewrite LG.
  reflexivity.
Qed.
