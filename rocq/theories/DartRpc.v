(** Running the generated Dart client: its constructor, its methods, its read tasks. *)
Require Import Coq.Strings.String Coq.Strings.Ascii.
Require Import Coq.NArith.NArith Coq.ZArith.ZArith Coq.Lists.List Coq.Bool.Bool Coq.Arith.PeanoNat.
Require Import Coq.micromega.Lia.
Require Import Verif.Base Verif.Ast Verif.CaseConv Verif.Code Verif.NumText Verif.RustGen Verif.RustSem Verif.Wire Verif.RustCodec.
Require Import Verif.DartSyntax Verif.DartGen Verif.DartTree Verif.DartSem Verif.DartWire Verif.DartRun Verif.DartShape Verif.DartCodec.
Import ListNotations.
Local Open Scope string_scope.
Local Open Scope list_scope.

(** ** Members of a class *)

Definition member_name (m : dmember) : list string :=
  match m with
  | MStatic n _ | MLate _ n | MFinal _ n _ | MField _ n _ | MGet _ n _ | MMeth _ _ n _ _ => [n]
  | _ => []
  end.
Definition member_names (ms : list dmember) : list string := flat_map member_name ms.
Lemma member_in n m ms : In m ms -> In n (member_name m) -> In n (member_names ms).
Proof. intros I J. apply in_flat_map. eauto. Qed.
Lemma flat_map_flat_map {A B E} (f : B -> list E) (g : A -> list B) l : flat_map f (flat_map g l) = flat_map (fun x => flat_map f (g x)) l.
Proof. induction l as [|x l IH]; [reflexivity|]. cbn. now rewrite flat_map_app, IH. Qed.
Lemma flat_map_unique {A B} (f : A -> list B) l a b n : NoDup (flat_map f l) -> In a l -> In b l -> In n (f a) -> In n (f b) -> a = b.
Proof.
  induction l as [|x l IH]; intros N I J P Q; [destruct I|]. cbn [flat_map] in N.
  assert (X : forall c, In c l -> In n (f c) -> In n (f x) -> False).
  { intros c K R T. apply (NoDup_app_disjoint _ _ n N T). apply in_flat_map. eauto. }
  destruct I as [->|I], J as [->|J]; [reflexivity|exfalso; eauto|exfalso; eauto|]. apply IH; try assumption. now apply NoDup_app_remove_l in N.
Qed.
Lemma member_unique ms m m' n : NoDup (member_names ms) -> In m ms -> In m' ms -> In n (member_name m) -> In n (member_name m') -> m = m'.
Proof. apply flat_map_unique. Qed.
Lemma find_meth_in ms st t n ps b : NoDup (member_names ms) -> In (MMeth st t n ps b) ms -> find_meth st n ms = Some (ps, b).
Proof.
  induction ms as [|m ms IH]; intros N I; [destruct I|]. destruct I as [->|I].
  - cbn [find_meth]. now rewrite Bool.eqb_reflx, String.eqb_refl.
  - assert (N' : NoDup (member_names ms)) by (unfold member_names in *; cbn [flat_map] in N; now apply NoDup_app_remove_l in N).
    specialize (IH N' I). destruct m as [x|x|x p y|x y z|x e|x y|x y z|x y z|x y z|s x y p c]; try exact IH.
    cbn [find_meth]. destruct (String.eqb_spec y n) as [->|NE]; [|now rewrite andb_false_r].
    exfalso. unfold member_names in N. cbn [flat_map member_name] in N. cbn [app] in N. apply NoDup_cons_iff in N as [N _].
    apply N. eapply member_in; [exact I|now left].
Qed.
Lemma fields_members ms n : In n (map fst (instance_fields ms)) -> In n (member_names ms).
Proof.
  unfold instance_fields, member_names. intros I. apply in_map_iff in I as ([x o] & E & I). cbn in E. subst x.
  apply in_flat_map in I as (m & I & J). apply in_flat_map. exists m. split; [exact I|].
  destruct m; cbn in J; try contradiction; destruct J as [J|[]]; injection J as -> _; now left.
Qed.
Lemma fields_nodup ms : NoDup (member_names ms) -> NoDup (map fst (instance_fields ms)).
Proof.
  unfold member_names. induction ms as [|m ms IH]; intros N; [constructor|]. cbn [flat_map] in N.
  pose proof (IH (NoDup_app_remove_l _ _ N)) as Q. unfold instance_fields in *. cbn [flat_map]. rewrite map_app.
  destruct m; cbn [map fst app]; try exact Q; cbn [member_name app] in N; apply NoDup_cons_iff in N as [N _]; constructor; try exact Q;
    intros I; apply N; now apply (fields_members ms).
Qed.
Lemma field_member ms n : In n (map fst (instance_fields ms)) ->
  exists m, In m ms /\ In n (member_name m) /\ match m with MLate _ _ | MFinal _ _ _ | MField _ _ _ => True | _ => False end.
Proof.
  unfold instance_fields. intros I. apply in_map_iff in I as ([x o] & E & I). cbn in E. subst x. apply in_flat_map in I as (m & I & J).
  exists m. destruct m; cbn in J; try contradiction; destruct J as [J|[]]; injection J as -> _; (split; [exact I|]; split; [now left|exact Logic.I]).
Qed.
Lemma method_not_field ms st t n ps b : NoDup (member_names ms) -> In (MMeth st t n ps b) ms -> ~ In n (map fst (instance_fields ms)).
Proof.
  intros N I J. apply field_member in J as (m & J & K & Q).
  pose proof (member_unique _ _ _ n N I J (or_introl eq_refl) K) as E. now subst m.
Qed.
Lemma static_not_field ms e n : NoDup (member_names ms) -> In (MStatic n e) ms -> ~ In n (map fst (instance_fields ms)).
Proof.
  intros N I J. apply field_member in J as (m & J & K & Q).
  pose proof (member_unique _ _ _ n N I J (or_introl eq_refl) K) as E. now subst m.
Qed.
Lemma method_not_static ms e st t n ps b : NoDup (member_names ms) -> In (MMeth st t n ps b) ms -> ~ In (MStatic n e) ms.
Proof. intros N I J. pose proof (member_unique _ _ _ n N I J (or_introl eq_refl) (or_introl eq_refl)). discriminate. Qed.
Lemma find_meth_member st n ms ps b : find_meth st n ms = Some (ps, b) -> exists t, In (MMeth st t n ps b) ms.
Proof.
  induction ms as [|m ms IH]; [discriminate|]. destruct m; cbn [find_meth]; try (intros E; destruct (IH E) as (t' & J); exists t'; now right).
  destruct (Bool.eqb static st && String.eqb n0 n) eqn:B; [|intros E; destruct (IH E) as (t' & J); exists t'; now right].
  apply andb_true_iff in B as [B1 B2]. apply Bool.eqb_prop in B1. apply String.eqb_eq in B2. intros [= -> ->]. subst. exists t. now left.
Qed.
Lemma find_static_some ms n e : find_static n ms = Some e -> In (MStatic n e) ms.
Proof.
  induction ms as [|m ms IH]; [discriminate|]. destruct m; cbn [find_static]; try (intros E; right; now apply IH).
  destruct (String.eqb_spec n0 n) as [->|NE]; [intros [= ->]; now left|intros E; right; now apply IH].
Qed.

(** ** Arguments *)

Definition arg_name (a : fn_arg) : string := camel (fa_id a).
Definition arg_slot (a : fn_arg) : slot := (arg_name a, fa_type a).
(** The call [m(x: v, y: w)]; a method without parameters is called by [m()]. *)
Definition named (node : fn_node) (ws : list dval) : dargs := combine (map (fun a => Some (arg_name a)) (fn_args node)) ws.

Lemma labelled_combine (ns : list string) ws n w : NoDup ns -> In (n, w) (combine ns ws) -> labelled n (combine (map Some ns) ws) = Some w.
Proof.
  revert ws. induction ns as [|m ns IH]; intros [|v ws] N I; try destruct I; cbn [combine map labelled].
  - injection H as -> ->. now rewrite String.eqb_refl.
  - apply NoDup_cons_iff in N as [N1 N2]. destruct (String.eqb_spec n m) as [->|NE]; [exfalso; apply N1; apply (in_combine_l _ _ _ _ H)|now apply IH].
Qed.
Lemma bind_named_combine (ps : list dparam) ws : NoDup (map snd ps) -> List.length ws = List.length ps ->
  bind_named ps (combine (map Some (map snd ps)) ws) = Some (combine (map snd ps) ws).
Proof.
  intros N. assert (X : forall qs us, (forall n w, In (n, w) (combine (map snd qs) us) -> labelled n (combine (map Some (map snd ps)) ws) = Some w) ->
    List.length us = List.length qs -> bind_named qs (combine (map Some (map snd ps)) ws) = Some (combine (map snd qs) us)).
  { induction qs as [|[o n] qs IH]; intros [|u us] H L; try discriminate L; [reflexivity|]. cbn [bind_named map snd combine].
    rewrite (H n u (or_introl eq_refl)), (IH us); [reflexivity| |now injection L]. intros m w I. apply H. now right. }
  intros L. apply X; [|exact L]. intros n w I. now apply labelled_combine.
Qed.
Lemma bind_method node ws : NoDup (map arg_name (fn_args node)) -> List.length ws = List.length (fn_args node) ->
  bind_params (method_params node) (named node ws) = Some (combine (map arg_name (fn_args node)) ws).
Proof.
  unfold method_params, named. intros N L. destruct (fn_args node) as [|a l] eqn:E; [destruct ws; [reflexivity|discriminate L]|].
  rewrite <- E in *. cbn [bind_params].
  replace (map (fun a => Some (arg_name a)) (fn_args node)) with (map Some (map snd (map (fun a => (Some (dty_of (fa_type a)), camel (fa_id a))) (fn_args node)))) by (now rewrite !map_map).
  rewrite bind_named_combine.
  - rewrite combine_length, !map_length, L, Nat.min_id, Nat.eqb_refl, map_map. reflexivity.
  - now rewrite map_map.
  - now rewrite map_length.
Qed.

(** ** The client *)

Definition client_members (name id : string) (nodes : list fn_node) : list dmember :=
  [ MCtor name (PPos [(None, "_scheduler")] false)
      match flat_map connect_call nodes with [] => None | l => Some l end;
    MFinal (Some (ty0 "TechPawsRuntimeRpcScheduler")) "_scheduler" None;
    MStatic "_scopeId" (DStr id) ] ++
  flat_map var_members nodes ++
  flat_map getter_members nodes ++
  [ MMeth false (ty0 "void") "disconnect" (PPos [] false) (BBlock (flat_map disconnect_sts nodes)) ] ++
  flat_map method_members nodes.
Lemma client_class_members ns id nodes :
  client_class ns id nodes = DClass (pascal ns ++ "RpcClient") None (client_members (pascal ns ++ "RpcClient") id nodes).
Proof. reflexivity. Qed.

(** The variables of the generated client code. *)
Definition client_locals : list string := ["writer"; "reader"; "status"; "methodId"; "result"; "completer"; "null"; "true"; "false"].
(** The members have different names, and none of them, and no argument, has a name that is used for something else. *)
Definition client_ok (ms : list dmember) (nodes : list fn_node) (tops : list string) : bool :=
  nodupb (member_names ms) && forallb (fun n => absent n (client_locals ++ lib_names ++ tops)) (member_names ms) &&
  forallb (fun f => nodupb (map arg_name (fn_args f)) &&
    forallb (fun n => absent n (client_locals ++ lib_names ++ member_names ms)) (map arg_name (fn_args f))) nodes.

(** Overwriting the front of a buffer. *)
Definition overwrite (b old : bytes) : bytes := b ++ skipn (List.length b) old.

(** ** The state of a client *)

(** By method name: the identity of the next call, the address of the map of completers, the pending calls (identity and
    completer), the address of the stream controller, the values that were added to the stream and whether it is open, the
    read task. *)
Record view := mk_view
  { w_last : string -> Z; w_map : string -> nat; w_pending : string -> list (Z * nat);
    w_ctrl : string -> nat; w_stream : string -> list dval * bool; w_task : string -> nat }.
Definition upd {A} (f : string -> A) (id : string) (x : A) : string -> A := fun i => if String.eqb i id then x else f i.
Definition set_last V id z := mk_view (upd (w_last V) id z) (w_map V) (w_pending V) (w_ctrl V) (w_stream V) (w_task V).
Definition set_pending V id l := mk_view (w_last V) (w_map V) (upd (w_pending V) id l) (w_ctrl V) (w_stream V) (w_task V).
Definition set_stream V id p := mk_view (w_last V) (w_map V) (w_pending V) (w_ctrl V) (upd (w_stream V) id p) (w_task V).
(** Pending calls without the ones with identity [z]. *)
Definition without (z : Z) (l : list (Z * nat)) : list (Z * nat) := filter (fun p => negb (Z.eqb (fst p) z)) l.
Fixpoint pending_at (z : Z) (l : list (Z * nat)) : option nat :=
  match l with [] => None | (k, p) :: l' => if Z.eqb k z then Some p else pending_at z l' end.
Definition pend (l : list (Z * nat)) : list (Z * dval) := map (fun p => (fst p, dref (snd p))) l.
Lemma pend_remove z l : map_remove z (pend l) = pend (without z l).
Proof. induction l as [|[k p] l IH]; [reflexivity|]. cbn. destruct (Z.eqb k z); cbn; [apply IH|]. f_equal. apply IH. Qed.
Lemma pend_put z p l : map_put z (dref p) (pend l) = pend (without z l ++ [(z, p)]).
Proof. unfold map_put. rewrite pend_remove. unfold pend. now rewrite map_app. Qed.
Lemma pend_get z l : map_get z (pend l) = match pending_at z l with Some p => Some (dref p) | None => None end.
Proof. induction l as [|[k p] l IH]; [reflexivity|]. cbn. destruct (Z.eqb k z); [reflexivity|apply IH]. Qed.
Lemma pending_in z l p : pending_at z l = Some p -> In (z, p) l.
Proof. induction l as [|[k q] l IH]; [discriminate|]. cbn. destruct (Z.eqb_spec k z) as [->|]; [intros [= ->]; now left|right; auto]. Qed.
Lemma in_without z l k p : In (k, p) (without z l) <-> In (k, p) l /\ k <> z.
Proof. unfold without. rewrite filter_In. cbn. destruct (Z.eqb_spec k z); cbn; intuition (congruence || discriminate). Qed.
Lemma without_nodup z l : NoDup (map fst l) -> NoDup (map fst (without z l)).
Proof.
  induction l as [|[k p] l IH]; intros N; [constructor|]. cbn in N |- *. apply NoDup_cons_iff in N as [N1 N2]. destruct (Z.eqb k z); cbn; [now apply IH|].
  constructor; [|now apply IH]. intros I. apply N1. apply in_map_iff in I as ([k' p'] & E & I). cbn in E. subst k'. apply in_without in I as [I _].
  apply in_map_iff. now exists (k, p').
Qed.

Section Client.
Variable D : druntime.
Variable U : support.
Variable items : list ditem.
Variable ds : list decl.
Variable cd : nat.
Hypothesis file : forall d i, In d ds -> In i (decl_items d) -> In i items.
Hypothesis names : NoDup (top_names items).
Hypothesis libs : forall n, In n lib_names -> ~ In n (top_names items).
Hypothesis okd : forallb dart_decl_ok ds = true.
Hypothesis law : dlawful D U.

Variable C : string.
Variable sc : string.
Variable nodes : list fn_node.
Notation ms := (client_members C sc nodes).
Hypothesis FC : find_class C items = Some ms.
Hypothesis CO : client_ok ms nodes (top_names items) = true.

Notation KK := (dcalls_upto D items).
Notation classes := (top_names items).
Notation dtyped := (DartWire.dtyped U ds classes cd).
Notation dwire := (DartWire.dwire D U ds).
Notation rep := (DartWire.rep U ds).

Lemma members_nodup : NoDup (member_names ms).
Proof. unfold client_ok in CO. rewrite !andb_true_iff in CO. apply nodupb_NoDup, CO. Qed.
Lemma member_free n : In n (member_names ms) -> ~ In n client_locals /\ ~ In n lib_names /\ ~ In n classes.
Proof.
  unfold client_ok in CO. rewrite !andb_true_iff in CO. destruct CO as [[_ F] _]. rewrite forallb_forall in F.
  intros I. specialize (F n I). apply absent_not_in in F. rewrite !in_app_iff in F. tauto.
Qed.
Lemma args_nodup node : In node nodes -> NoDup (map arg_name (fn_args node)).
Proof.
  unfold client_ok in CO. rewrite !andb_true_iff in CO. destruct CO as [_ F]. rewrite forallb_forall in F.
  intros I. specialize (F node I). apply andb_true_iff in F as [F _]. now apply nodupb_NoDup.
Qed.
Lemma arg_free node n : In node nodes -> In n (map arg_name (fn_args node)) -> ~ In n client_locals /\ ~ In n lib_names /\ ~ In n (member_names ms).
Proof.
  unfold client_ok in CO. rewrite !andb_true_iff in CO. destruct CO as [_ F]. rewrite forallb_forall in F.
  intros I J. specialize (F node I). apply andb_true_iff in F as [_ F]. rewrite forallb_forall in F. specialize (F n J).
  apply absent_not_in in F. rewrite !in_app_iff in F. tauto.
Qed.
(** The variables of a call. *)
Definition arg_env (node : fn_node) (ws : list dval) : denv := combine (map arg_name (fn_args node)) ws.
Lemma arg_env_none node ws n : In node nodes -> In n client_locals \/ In n lib_names \/ In n (member_names ms) -> DartSem.lookup n (arg_env node ws) = None.
Proof.
  intros I H. apply lookup_none. intros J. unfold arg_env in J. apply in_map_iff in J as ([x w] & E & J). cbn in E. subst x.
  apply in_combine_l in J. destruct (arg_free node n I J) as (A & B & E). tauto.
Qed.

Lemma scheduler_member : In "_scheduler" (member_names ms). Proof. cbn. tauto. Qed.
Lemma scope_member : In "_scopeId" (member_names ms). Proof. cbn. tauto. Qed.
Lemma scope_not_field : ~ In "_scopeId" (map fst (instance_fields ms)).
Proof. apply (static_not_field _ (DStr sc)); [apply members_nodup|]. cbn. tauto. Qed.
Lemma lib_not_member n : In n lib_names -> ~ In n (member_names ms).
Proof. intros I J. destruct (member_free n J) as (_ & A & _). now apply A. Qed.

(** The client is an object with the fields of its class. *)
Definition client_fields (h : heap) (a : nat) (fs : list (string * dval)) : Prop :=
  nth_error h a = Some (CObj C fs) /\ map fst fs = map fst (instance_fields ms) /\ DartSem.lookup "_scheduler" fs = Some dsched.

Notation self a := (Some (dref a, C)).
Lemma own a : own_members items (self a) = ms.
Proof. unfold own_members. now rewrite FC. Qed.
Lemma keyword_free n : ~ In n client_locals -> String.eqb n "null" = false /\ String.eqb n "true" = false /\ String.eqb n "false" = false.
Proof. intros N. repeat split; apply String.eqb_neq; intros ->; apply N; cbn; tauto. Qed.
Lemma self_field K a fs n en s v : client_fields (d_heap s) a fs -> In n (member_names ms) -> DartSem.lookup n en = None ->
  DartSem.lookup n fs = Some v -> v <> dlate -> DartSem.name_value items K (self a) n en s = DDone (Some v) s.
Proof.
  intros (A & _ & _) I E L NL. unfold DartSem.name_value. rewrite E. destruct (keyword_free n) as (-> & -> & ->); [now apply member_free|].
  cbv zeta. rewrite (dbind_done _ _ s (CObj C fs) s) by (unfold get_cell; now rewrite A). rewrite L. destruct v; try reflexivity. congruence.
Qed.
Lemma self_none K a fs n en s : client_fields (d_heap s) a fs -> DartSem.lookup n en = None -> ~ In n client_locals ->
  ~ In n (member_names ms) \/ (exists st t ps b, In (MMeth st t n ps b) ms) -> ~ In n classes -> DartSem.name_value items K (self a) n en s = DDone None s.
Proof.
  intros (A & B & _) E NL NM NC. unfold DartSem.name_value. rewrite E. destruct (keyword_free n NL) as (-> & -> & ->).
  cbv zeta. rewrite (dbind_done _ _ s (CObj C fs) s) by (unfold get_cell; now rewrite A).
  assert (F : ~ In n (map fst (instance_fields ms))).
  { destruct NM as [NM|(st & t & ps & b & NM)]; [intros I; apply NM; now apply fields_members|].
    eapply method_not_field; [apply members_nodup|exact NM]. }
  rewrite lookup_none by (now rewrite B). rewrite own, find_const_none by assumption.
  destruct (find_static n ms) as [e|] eqn:FS; [|reflexivity]. exfalso. apply find_static_some in FS.
  destruct NM as [NM|(st & t & ps & b & NM)]; [apply NM; eapply member_in; [exact FS|now left]|].
  eapply method_not_static; [apply members_nodup|exact NM|exact FS].
Qed.
Lemma scope_name n a fs en s : client_fields (d_heap s) a fs -> DartSem.lookup "_scopeId" en = None ->
  DartSem.name_value items (KK (S n)) (self a) "_scopeId" en s = DDone (Some (dtext sc)) s.
Proof.
  intros (A & B & _) E. unfold DartSem.name_value. rewrite E. cbn [String.eqb Ascii.eqb Bool.eqb]. cbv zeta.
  rewrite (dbind_done _ _ s (CObj C fs) s) by (unfold get_cell; now rewrite A).
  rewrite lookup_none by (rewrite B; apply scope_not_field). rewrite own. reflexivity.
Qed.

(** Library names are no variables. *)
Definition clean (en : denv) : Prop := forall n, In n lib_names \/ In n (member_names ms) -> DartSem.lookup n en = None.
Lemma clean_args node ws : In node nodes -> clean (arg_env node ws).
Proof. intros I n H. apply arg_env_none; tauto. Qed.
Lemma clean_nil : clean [].
Proof. intros n _. reflexivity. Qed.
Lemma clean_cons x v en : In x client_locals -> clean en -> clean ((x, v) :: en).
Proof.
  intros I H n J. cbn [DartSem.lookup]. destruct (String.eqb_spec n x) as [->|]; [|now apply H]. exfalso.
  destruct J as [J|J]; [|destruct (member_free x J) as (A & _); now apply A].
  cbn in I, J. decompose [or] I; subst; decompose [or] J; try discriminate; contradiction.
Qed.
Lemma lib_name K a fs n en s : client_fields (d_heap s) a fs -> clean en -> In n lib_names -> DartSem.name_value items K (self a) n en s = DDone None s.
Proof.
  intros A E I. eapply self_none; [exact A|apply E; now left| |left; now apply lib_not_member|now apply libs].
  intros J. cbn in I, J. decompose [or] I; subst; decompose [or] J; try discriminate; contradiction.
Qed.

Lemma side_value K a fs side en s : client_fields (d_heap s) a fs -> clean en -> side_of side <> None ->
  DartSem.ev D items K (self a) (DartTree.field (var "TechPawsRuntimeRpcMethodBuffer") side) en s = DDone (dmem "TechPawsRuntimeRpcMethodBuffer" side) s.
Proof.
  intros A E NS.
  change (DartSem.ev D items K (self a) (DartTree.field (var "TechPawsRuntimeRpcMethodBuffer") side) en s) with
    (dbind (DartSem.name_value items K (self a) "TechPawsRuntimeRpcMethodBuffer" en) (fun o => match o with
       | Some v => dd v <- get_field D items K side v; dret v
       | None => (dd v <- static_field items "TechPawsRuntimeRpcMethodBuffer" side; dret v) end) s).
  rewrite (dbind_done _ _ s None s) by (eapply lib_name; [exact A|exact E|cbn; tauto]).
  unfold static_field. rewrite find_enum_none by (apply libs; cbn; tauto). unfold has_class. rewrite find_class_none by (apply libs; cbn; tauto).
  destruct (side_of side); [reflexivity|congruence].
Qed.
Lemma has_data_value K a fs en s : client_fields (d_heap s) a fs -> clean en ->
  DartSem.ev D items K (self a) has_data en s = DDone (dint (rd_has_data D)) s.
Proof.
  intros A E.
  change (DartSem.ev D items K (self a) has_data en s) with
    (dbind (DartSem.name_value items K (self a) "TechPawsRpcBufferStatus" en) (fun o => match o with
       | Some v => dd v <- get_field D items K "hasData" v; dd v <- get_field D items K "value" v; dret v
       | None => (dd v <- static_field items "TechPawsRpcBufferStatus" "hasData"; dd v <- get_field D items K "value" v; dret v) end) s).
  rewrite (dbind_done _ _ s None s) by (eapply lib_name; [exact A|exact E|cbn; tauto]).
  unfold static_field. rewrite find_enum_none by (apply libs; cbn; tauto). unfold has_class. rewrite find_class_none by (apply libs; cbn; tauto).
  reflexivity.
Qed.

(** A call of the scheduler. *)
Definition number (node : fn_node) : Z := Z.of_N (fn_position node).
Lemma scheduler_args n a fs node side x body en s : client_fields (d_heap s) a fs -> clean en -> side_of side <> None ->
  dmapM (fun '(l, e) => dd v <- DartSem.ev D items (KK (S n)) (self a) e en; dret (l, v)) (args3 node side (DFun x body)) s =
  DDone (pos [dtext sc; dint (number node); dmem "TechPawsRuntimeRpcMethodBuffer" side; dfun x body en (self a)]) s.
Proof.
  intros A E NS.
  apply (dargs_pure D items (KK (S n)) (self a) en [var "_scopeId"; DNum (show_N (fn_position node)); DartTree.field (var "TechPawsRuntimeRpcMethodBuffer") side; DFun x body]).
  constructor; [|constructor; [|constructor; [|constructor; [|constructor]]]].
  - unfold pure. cbn [DartSem.ev var]. rewrite (dbind_done _ _ s _ s (scope_name n a fs en s A (E _ (or_intror scope_member)))). reflexivity.
  - unfold pure. now apply ev_num.
  - unfold pure. eapply side_value; eassumption.
  - reflexivity.
Qed.
Lemma scheduler_call n a fs node side m ts x body en s : client_fields (d_heap s) a fs -> clean en -> side_of side <> None ->
  DartSem.ev D items (KK (S n)) (self a) (scall m ts (args3 node side (DFun x body))) en s =
  scheduler_method D (KK (S n)) m (pos [dtext sc; dint (number node); dmem "TechPawsRuntimeRpcMethodBuffer" side; dfun x body en (self a)]) s.
Proof.
  intros A E NS. pose proof A as (_ & _ & SC).
  change (DartSem.ev D items (KK (S n)) (self a) (scall m ts (args3 node side (DFun x body))) en s) with
    (dbind (DartSem.name_value items (KK (S n)) (self a) "_scheduler" en) (fun o => match o with
       | Some v => dd v <- (dd vs <- dmapM (fun '(l, e) => dd v <- DartSem.ev D items (KK (S n)) (self a) e en; dret (l, v)) (args3 node side (DFun x body)); method D items (KK (S n)) v m vs); dret v
       | None => (dd v <- ev_named D items (KK (S n)) (self a) "_scheduler" (XMeth m ts (args3 node side (DFun x body)) true) en; dret v) end) s).
  rewrite (dbind_done _ _ s _ s (self_field _ _ _ _ _ _ dsched A scheduler_member (E _ (or_intror scheduler_member)) SC ltac:(discriminate))).
  rewrite dbind_ret, (dbind_done _ _ s _ s (scheduler_args n a fs node side x body en s A E NS)). reflexivity.
Qed.

(** *** Writing a request *)

Notation wires := (DartCodec.wires D U ds).
Notation run n th := (dchain (fun s e => DartSem.ev_st D items (KK n) th s e)).
Notation typed := (DartWire.dtyped U ds classes cd).
(** The objects [ws] represent the values [vs] of the arguments and consist of objects in [P]. *)
Fixpoint passed (P : nat -> Prop) (h : heap) (d : nat) (vs : list val) (ws : list dval) (args : list fn_arg) : Prop :=
  match vs, ws, args with
  | [], [], [] => True
  | v :: vs', w :: ws', x :: args' =>
      typed v (fa_type x) = true /\ depth v <= d /\ rep P h w v (fa_type x) /\ passed P h d vs' ws' args'
  | _, _, _ => False
  end.
Lemma passed_length P h d vs : forall ws args, passed P h d vs ws args -> List.length ws = List.length args.
Proof. induction vs as [|v vs IH]; intros [|w ws] [|x args] H; try destruct H; [reflexivity|]. cbn. f_equal. now apply (IH ws args). Qed.

Lemma write_args n th d P h : 2 * d + 3 <= S n -> forall vs ws args, passed P h d vs ws args -> forall en s, d_heap s = h ->
  DartSem.lookup "writer" en = Some dwriter -> Forall2 (fun x w => DartSem.lookup (arg_name x) en = Some w) args ws ->
  run (S n) th (map (fun x => write_st (fa_type x) (var (camel (fa_id x)))) args) en s = DDone en (add_out (wires vs (map arg_slot args)) s).
Proof.
  intros F. induction vs as [|v vs IH]; intros [|w ws] [|x args] H en s HH LW LA; try destruct H.
  - cbn [map]. unfold DartCodec.wires. cbn [cat2]. now rewrite add_out_nil.
  - destruct H0 as (DD & R & H0). inversion LA; subst. cbn [map]. erewrite run_first.
    2: { apply (write_item D U items ds cd file names libs okd law n false th v (fa_type x) (var (arg_name x)) en s P w); try assumption.
         - intros N. apply (write_all D U items ds cd file names libs okd law d); assumption.
         - now apply ev_var. }
    rewrite (IH ws args H0 en (add_out (dwire false v (fa_type x)) s) eq_refl LW); [now rewrite add_out_app|assumption].
Qed.
Lemma write_status n a fs en s : client_fields (d_heap s) a fs -> clean en -> DartSem.lookup "writer" en = Some dwriter ->
  DartSem.ev_st D items (KK n) (self a) put_status en s = DDone en (add_out (rd_put D "Int8" (rd_has_data D)) s).
Proof.
  intros A E L. eapply ev_expr. rewrite (ev_call_var D items (KK n) (self a) "writer" "writeInt8" [has_data] en dwriter [dint (rd_has_data D)] s L).
  - reflexivity.
  - constructor; [|constructor]. unfold pure. eapply has_data_value; eassumption.
Qed.
Lemma write_id n a z en s : DartSem.lookup "writer" en = Some dwriter -> DartSem.lookup "methodId" en = Some (dint z) ->
  DartSem.ev_st D items (KK n) (self a) (DExpr (call (var "writer") "writeInt64" [var "methodId"])) en s = DDone en (add_out (rd_put D "Int64" z) s).
Proof.
  intros L M. eapply ev_expr. rewrite (ev_call_var D items (KK n) (self a) "writer" "writeInt64" [var "methodId"] en dwriter [dint z] s L).
  - reflexivity.
  - constructor; [|constructor]. now apply ev_var.
Qed.
Lemma writer_done sc' z sd (m : dM dval) b s : m (set_dwr [] s) = DDone dnull (add_out b (set_dwr [] s)) ->
  with_writer sc' z sd m s = DDone dnull (set_dmem (upd_mem (d_mem s) sc' z sd (overwrite b (d_mem s sc' z sd))) s).
Proof. intros E. unfold with_writer. rewrite E. now destruct s. Qed.
(** The memory with a request written to it. *)
Definition requested (m : string -> Z -> string -> bytes) (node : fn_node) (b : bytes) : string -> Z -> string -> bytes :=
  upd_mem m sc (number node) "Server" (overwrite b (m sc (number node) "Server")).
Lemma args_lookup node d P h vs ws en : In node nodes -> passed P h d vs ws (fn_args node) ->
  (forall n, In n (map arg_name (fn_args node)) -> DartSem.lookup n en = DartSem.lookup n (arg_env node ws)) ->
  Forall2 (fun x w => DartSem.lookup (arg_name x) en = Some w) (fn_args node) ws.
Proof.
  intros I PA E. pose proof (args_nodup node I) as N. pose proof (passed_length _ _ _ _ _ _ PA) as L. clear PA. unfold arg_env in E.
  revert ws L N E. induction (fn_args node) as [|x l IH]; intros [|w ws] L N E; try discriminate L; [constructor|].
  cbn [map] in *. apply NoDup_cons_iff in N as [N1 N2]. constructor.
  - rewrite E by (now left). cbn [combine DartSem.lookup]. now rewrite String.eqb_refl.
  - apply IH; [now injection L|assumption|]. intros n J. rewrite E by (now right). cbn [combine DartSem.lookup].
    destruct (String.eqb_spec n (arg_name x)) as [->|]; [contradiction|reflexivity].
Qed.
Lemma local_arg node n x : In node nodes -> In x client_locals -> In n (map arg_name (fn_args node)) -> String.eqb n x = false.
Proof. intros I L J. apply String.eqb_neq. intros ->. destruct (arg_free node x I J) as (A & _). exact (A L). Qed.

Lemma sync_request n a fs node d P vs ws s : In node nodes -> client_fields (d_heap s) a fs -> passed P (d_heap s) d vs ws (fn_args node) -> 2 * d + 3 <= S n ->
  DartSem.ev D items (KK (S (S n))) (self a) (scall "syncWrite" [] (args3 node "server" (DFun "writer" (put_status :: arg_writes node)))) (arg_env node ws) s =
  DDone dnull (set_dmem (requested (d_mem s) node (rd_put D "Int8" (rd_has_data D) ++ wires vs (map arg_slot (fn_args node)))) s).
Proof.
  intros I A PA F. erewrite scheduler_call; [|exact A|now apply clean_args|discriminate].
  unfold scheduler_method. cbn [pos map]. change (with_writer sc (number node) "Server" (dd _ <- k_apply (KK (S (S n))) (dfun "writer" (put_status :: arg_writes node) (arg_env node ws) (self a)) [dwriter]; dret dnull) s = DDone dnull (set_dmem (requested (d_mem s) node (rd_put D "Int8" (rd_has_data D) ++ wires vs (map arg_slot (fn_args node)))) s)).
  apply writer_done. set (s' := set_dwr [] s). assert (A' : client_fields (d_heap s') a fs) by exact A.
  change (k_apply (KK (S (S n)))) with (apply_with D items (KK (S n))). cbn [apply_with].
  erewrite dbind_done; [reflexivity|]. erewrite body_done; [reflexivity|].
  assert (CL : clean (("writer", dwriter) :: arg_env node ws)) by (apply clean_cons; [cbn; tauto|now apply clean_args]).
  erewrite run_first by (eapply write_status; [exact A'|exact CL|reflexivity]).
  unfold arg_writes. erewrite (write_args n (self a) d P (d_heap s') F vs ws (fn_args node) PA); [rewrite add_out_app; reflexivity|reflexivity|reflexivity|].
  eapply args_lookup; [exact I|exact PA|]. intros x J. cbn [DartSem.lookup]. rewrite (local_arg node x "writer" I); [reflexivity|cbn; tauto|exact J].
Qed.

(** *** Reading a response *)

Lemma reader_done b (m : dM dval) w h' r s : m (set_drd b s) = DDone w (set_heap h' (set_drd r (set_drd b s))) -> with_reader b m s = DDone w (set_heap h' s).
Proof. intros E. unfold with_reader. rewrite E. now destruct s. Qed.
Lemma read_status n th en s z r l : DartSem.lookup "reader" en = Some dreader -> DartSem.lookup "status" en = None -> rd_get D "Int8" (d_rd s) = Some (z, r) ->
  run n th (get_status :: l) en s = run n th l (("status", dint z) :: en) (set_drd r s).
Proof.
  intros L N E. unfold get_status. apply run_final; [exact N|].
  rewrite (ev_call_var D items (KK n) th "reader" "readInt8" [] en dreader [] s L (Forall2_nil _)).
  change (method D items (KK n) dreader "readInt8" (pos []) s) with (dbind (take (rd_get D "Int8")) (fun z => dret (prim_val "Int8" z)) s).
  unfold dbind, take. rewrite E. reflexivity.
Qed.
Lemma status_differs n a fs en s z : client_fields (d_heap s) a fs -> clean en -> DartSem.lookup "status" en = Some (dint z) ->
  DartSem.ev D items (KK n) (self a) (DEq true (var "status") has_data) en s = DDone (dbool (negb (Z.eqb z (rd_has_data D)))) s.
Proof.
  intros A E L. change (DartSem.ev D items (KK n) (self a) (DEq true (var "status") has_data) en s) with
    (dbind (DartSem.ev D items (KK n) (self a) (var "status") en) (fun x => dd y <- DartSem.ev D items (KK n) (self a) has_data en; dd r <- dof (dequal x y); dret (dbool (negb r))) s).
  rewrite (dbind_done _ _ s (dint z) s) by (now apply ev_var). rewrite (dbind_done _ _ s _ s (has_data_value _ _ _ _ _ A E)). reflexivity.
Qed.
Lemma status_kept n a fs en s l rest : client_fields (d_heap s) a fs -> clean en -> DartSem.lookup "status" en = Some (dint (rd_has_data D)) ->
  run n (self a) (DIf (DEq true (var "status") has_data) l :: rest) en s = run n (self a) rest en s.
Proof.
  intros A E L. apply run_first. change (DartSem.ev_st D items (KK n) (self a) (DIf (DEq true (var "status") has_data) l) en s) with
    (dbind (DartSem.ev D items (KK n) (self a) (DEq true (var "status") has_data) en) (fun v => match v with
      | dbool true => dd _ <- run n (self a) l en; dret en | dbool false => dret en | _ => dstuck end) s).
  rewrite (dbind_done _ _ s _ s (status_differs n a fs en s _ A E L)). rewrite Z.eqb_refl. reflexivity.
Qed.
Lemma status_other n a fs en s z l rest : client_fields (d_heap s) a fs -> clean en -> DartSem.lookup "status" en = Some (dint z) -> z <> rd_has_data D ->
  run n (self a) (DIf (DEq true (var "status") has_data) l :: rest) en s = (dd e <- (dd _ <- run n (self a) l en; dret en); run n (self a) rest e) s.
Proof.
  intros A E L NE. change (run n (self a) (DIf (DEq true (var "status") has_data) l :: rest) en s) with
    (dbind (dbind (DartSem.ev D items (KK n) (self a) (DEq true (var "status") has_data) en) (fun v => match v with
      | dbool true => dd _ <- run n (self a) l en; dret en | dbool false => dret en | _ => dstuck end)) (run n (self a) rest) s).
  unfold dbind at 1. unfold dbind at 1. rewrite (status_differs n a fs en s z A E L). rewrite (proj2 (Z.eqb_neq _ _) NE). reflexivity.
Qed.
Lemma lib_call_name K a n vs : In n lib_names -> call_name D items K (self a) n vs =
  match vs with
  | [(None, dtext _)] => if String.eqb n "StateError" then dret (derr n) else dstuck
  | [(None, dint z)] => if String.eqb n "rotateMethodId" then dret (dint (rd_rotate D z)) else dstuck
  | [] => if String.eqb n "Completer" then alloc (CDone None) else dstuck
  | _ => dstuck
  end.
Proof.
  intros I. unfold call_name. rewrite own. destruct (find_meth false n ms) as [[ps b]|] eqn:F.
  - exfalso. apply (lib_not_member n I). apply find_meth_member in F as (t & F). eapply member_in; [exact F|now left].
  - unfold has_class. rewrite find_class_none by (now apply libs). reflexivity.
Qed.
Lemma throw_no_data n a fs en s : client_fields (d_heap s) a fs -> clean en ->
  run n (self a) [DThrow (DPost (var "StateError") [XCall [(None, DStr "No data")] false])] en s = DThrows "StateError".
Proof.
  intros A E. rewrite dchain_cons. cbn [DartSem.ev_st]. unfold dbind at 1 2.
  erewrite ev_new; [|eapply lib_name; [exact A|exact E|cbn; tauto]|reflexivity]. rewrite lib_call_name by (cbn; tauto). reflexivity.
Qed.

Definition sync_reader (t : type_id) : list dst :=
  [ get_status; DIf (DEq true (var "status") has_data) [DThrow (DPost (var "StateError") [XCall [(None, DStr "No data")] false])]; DReturn (Some (read_ex t)) ].
Lemma sync_response n a fs node t ws s z r : In node nodes -> client_fields (d_heap s) a fs -> rd_get D "Int8" (d_mem s sc (number node) "Client") = Some (z, r) ->
  let e := scall "syncRead" [dty_of t] (args3 node "client" (DFun "reader" (sync_reader t))) in
  (z <> rd_has_data D -> DartSem.ev D items (KK (S (S n))) (self a) e (arg_env node ws) s = DThrows "StateError") /\
  (z = rd_has_data D -> forall v d r', dtyped v t = true -> depth v <= d -> 3 * d + 3 * cd + 3 <= S n -> r = dwire false v t ++ r' -> exists w h',
     DartSem.ev D items (KK (S (S n))) (self a) e (arg_env node ws) s = DDone w (set_heap h' s) /\ changes (d_heap s) h' [] /\ rep (fresh (d_heap s) h') h' w v t).
Proof.
  intros I A G e. pose proof (clean_args node ws I) as CA.
  set (body := with_reader (d_mem s sc (number node) "Client") (k_apply (KK (S (S n))) (dfun "reader" (sync_reader t) (arg_env node ws) (self a)) [dreader])).
  assert (X : DartSem.ev D items (KK (S (S n))) (self a) e (arg_env node ws) s = body s).
  { unfold e. erewrite scheduler_call; [|exact A|exact CA|discriminate]. reflexivity. }
  rewrite X. unfold body. change (k_apply (KK (S (S n)))) with (apply_with D items (KK (S n))). cbn [apply_with].
  set (s' := set_drd (d_mem s sc (number node) "Client") s). assert (A' : client_fields (d_heap (set_drd r s')) a fs) by exact A.
  set (en := ("reader", dreader) :: arg_env node ws). set (en' := ("status", dint z) :: en).
  assert (CE : clean en') by (apply clean_cons; [cbn; tauto|apply clean_cons; [cbn; tauto|exact CA]]).
  assert (Y : run (S n) (self a) (sync_reader t) en s' =
              run (S n) (self a) [DIf (DEq true (var "status") has_data) [DThrow (DPost (var "StateError") [XCall [(None, DStr "No data")] false])]; DReturn (Some (read_ex t))] en' (set_drd r s')).
  { unfold sync_reader. apply read_status; [reflexivity| |exact G]. cbn [en DartSem.lookup String.eqb Ascii.eqb Bool.eqb]. apply arg_env_none; [exact I|left; cbn; tauto]. }
  split.
  - intros NE. unfold with_reader. fold s'. fold en. rewrite (body_throws D items (KK (S n)) (self a) (sync_reader t) en s' "StateError"); [reflexivity|]. rewrite Y.
    rewrite (status_other (S n) a fs en' _ z _ _ A' CE eq_refl NE). unfold dbind at 1. unfold dbind at 1. now rewrite (throw_no_data (S n) a fs en' _ A' CE).
  - intros -> v d r' T DD F ->.
    destruct (read_field D U items ds cd file names libs okd law n v t (self a) en' (set_drd (dwire false v t ++ r') s') r' T) as (w & h' & E1 & C1 & R1).
    { intros N. apply (read_all D U items ds cd file names libs okd law d); assumption. }
    { reflexivity. }
    { reflexivity. }
    exists w, h'. split; [|split; [exact C1|exact R1]].
    apply (reader_done _ _ _ _ r'). fold s'. apply body_returned. fold en. rewrite Y.
    rewrite (status_kept (S n) a fs en' _ _ _ A' CE eq_refl). erewrite run_return by exact E1. reflexivity.
Qed.

(** *** Synchronous calls *)

Lemma node_members node m : In node nodes -> In m (method_members node) -> In m ms.
Proof. intros I J. unfold client_members. rewrite !in_app_iff. right. right. right. right. apply in_flat_map. eauto. Qed.
Lemma invoke n a fs node t m ps b vs en s : client_fields (d_heap s) a fs -> In node nodes -> In (MMeth false t m ps b) (method_members node) ->
  bind_params ps vs = Some en -> method D items (KK (S n)) (dref a) m vs s = ev_body D items (KK n) (self a) b en s.
Proof.
  intros (A & _ & _) I J B. cbn [method]. rewrite (dbind_done _ _ s (CObj C fs) s) by (unfold get_cell; now rewrite A).
  change (k_invoke (KK (S n))) with (invoke_with D items (KK n)). unfold invoke_with.
  rewrite FC, (find_meth_in ms false t m ps b members_nodup (node_members node _ I J)). now rewrite B.
Qed.
Lemma scheduler_meth K a fs m ts args b en s vs : client_fields (d_heap s) a fs -> DartSem.lookup "_scheduler" en = None ->
  dmapM (fun '(l, e) => dd v <- DartSem.ev D items K (self a) e en; dret (l, v)) args s = DDone vs s ->
  DartSem.ev D items K (self a) (DPost scheduler [XMeth m ts args b]) en s = scheduler_method D K m vs s.
Proof.
  intros A E V. pose proof A as (_ & _ & SC).
  change (DartSem.ev D items K (self a) (DPost scheduler [XMeth m ts args b]) en s) with
    (dbind (DartSem.name_value items K (self a) "_scheduler" en) (fun o => match o with
       | Some v => dd v <- (dd vs <- dmapM (fun '(l, e) => dd v <- DartSem.ev D items K (self a) e en; dret (l, v)) args; method D items K v m vs); dret v
       | None => (dd v <- ev_named D items K (self a) "_scheduler" (XMeth m ts args b) en; dret v) end) s).
  rewrite (dbind_done _ _ s _ s (self_field _ _ _ _ _ _ dsched A scheduler_member E SC ltac:(discriminate))).
  rewrite dbind_ret, (dbind_done _ _ s _ s V). reflexivity.
Qed.

(** The memory after the request. *)
Definition sync_bytes (vs : list val) (node : fn_node) : bytes := rd_put D "Int8" (rd_has_data D) ++ wires vs (map arg_slot (fn_args node)).
Definition looped (s : dstate) (m : string -> Z -> string -> bytes) : dstate := set_loops (S (d_loops s)) (set_dmem m s).
Lemma sync_steps n a fs node d P vs ws s rest : In node nodes -> client_fields (d_heap s) a fs -> passed P (d_heap s) d vs ws (fn_args node) -> 2 * d + 3 <= S n ->
  run (S (S n)) (self a) ([ DExpr (scall "syncWrite" [] (args3 node "server" (DFun "writer" (put_status :: arg_writes node)))); DExpr (call scheduler "loopSyncGroup" []) ] ++ rest) (arg_env node ws) s =
  match rd_loop D (d_loops s) (requested (d_mem s) node (sync_bytes vs node)) with
  | Some m => run (S (S n)) (self a) rest (arg_env node ws) (looped s m)
  | None => DThrows "ServerError"
  end.
Proof.
  intros I A PA F. cbn [app]. erewrite run_expr by (eapply sync_request; eassumption). fold (sync_bytes vs node).
  set (s1 := set_dmem _ s).
  assert (EV : DartSem.ev D items (KK (S (S n))) (self a) (call scheduler "loopSyncGroup" []) (arg_env node ws) s1 = scheduler_method D (KK (S (S n))) "loopSyncGroup" [] s1).
  { eapply scheduler_meth; [exact A|apply arg_env_none; [exact I|right; right; apply scheduler_member]|reflexivity]. }
  rewrite dchain_cons. cbn [DartSem.ev_st]. unfold dbind at 1 2. rewrite EV.
  unfold scheduler_method. cbn [String.eqb Ascii.eqb Bool.eqb]. change (d_loops s1) with (d_loops s). change (d_mem s1) with (requested (d_mem s) node (sync_bytes vs node)).
  destruct (rd_loop D (d_loops s) (requested (d_mem s) node (sync_bytes vs node))); reflexivity.
Qed.

Definition sync_node (node : fn_node) : Prop := fn_is_async node = false /\ fn_is_read node = false.
Lemma sync_member node : sync_node node -> method_members node = [sync_method node].
Proof. intros (A & B). unfold method_members. now rewrite A, B. Qed.
Notation calls n a node ws s := (method D items (KK n) (dref a) (camel (fn_id node)) (named node ws) s).
Lemma sync_call n a fs node d P vs ws s : In node nodes -> sync_node node -> client_fields (d_heap s) a fs -> passed P (d_heap s) d vs ws (fn_args node) -> 2 * d + 3 <= S n ->
  (rd_loop D (d_loops s) (requested (d_mem s) node (sync_bytes vs node)) = None -> calls (S (S (S n))) a node ws s = DThrows "ServerError") /\
  (forall m, rd_loop D (d_loops s) (requested (d_mem s) node (sync_bytes vs node)) = Some m ->
    (fn_return node = None -> calls (S (S (S n))) a node ws s = DDone dnull (looped s m)) /\
    (forall t z r, fn_return node = Some t -> rd_get D "Int8" (m sc (number node) "Client") = Some (z, r) ->
       (z <> rd_has_data D -> calls (S (S (S n))) a node ws s = DThrows "StateError") /\
       (z = rd_has_data D -> forall v d r', dtyped v t = true -> depth v <= d -> 3 * d + 3 * cd + 3 <= S n -> r = dwire false v t ++ r' -> exists w h',
          calls (S (S (S n))) a node ws s = DDone w (set_heap h' (looped s m)) /\ changes (d_heap s) h' [] /\ rep (fresh (d_heap s) h') h' w v t))).
Proof.
  intros I SN A PA F. pose proof (sync_member node SN) as MM.
  assert (X : forall s, client_fields (d_heap s) a fs -> calls (S (S (S n))) a node ws s = ev_body D items (KK (S (S n))) (self a) (match sync_method node with MMeth _ _ _ _ b => b | _ => BBlock [] end) (arg_env node ws) s).
  { intros s' A'. unfold sync_method. eapply invoke; [exact A'|exact I|rewrite MM; left; reflexivity|].
    apply bind_method; [now apply args_nodup|now apply (passed_length P (d_heap s) d vs)]. }
  rewrite (X s A). clear X. unfold sync_method. cbn [ev_body]. split; [|intros m EL; split].
  - intros EL. unfold dbody_of, dbind at 1. rewrite (sync_steps n a fs node d P vs ws s _ I A PA F), EL. reflexivity.
  - intros NR. unfold dbody_of, dbind at 1. rewrite (sync_steps n a fs node d P vs ws s _ I A PA F), EL, NR. reflexivity.
  - intros t z r ER G. rewrite ER.
    destruct (sync_response n a fs node t ws (looped s m) z r I A G) as [Y1 Y2]. cbv zeta in Y1, Y2. split.
    + intros NE. specialize (Y1 NE). unfold dbody_of, dbind at 1. rewrite (sync_steps n a fs node d P vs ws s _ I A PA F), EL.
      rewrite dchain_cons. cbn [DartSem.ev_st]. rewrite arg_env_none by (first [exact I|left; cbn; tauto]). unfold dbind at 1 2. fold (sync_reader t).
      now rewrite Y1.
    + intros EZ v d' r' T DD F' ->. destruct (Y2 EZ v d' r' T DD F' eq_refl) as (w & h' & E1 & C1 & R1). exists w, h'. split; [|split; [exact C1|exact R1]].
      unfold dbody_of, dbind at 1. rewrite (sync_steps n a fs node d P vs ws s _ I A PA F), EL. fold (sync_reader t).
      erewrite run_final; [|apply arg_env_none; [exact I|left; cbn; tauto]|exact E1].
      erewrite run_return; [reflexivity|]. now apply ev_var.
Qed.

(** *** Asynchronous calls *)

Lemma passed_frame (P Q : nat -> Prop) h h' d : (forall b, P b -> Q b /\ nth_error h' b = nth_error h b) -> forall vs ws args, passed P h d vs ws args -> passed Q h' d vs ws args.
Proof.
  intros F. induction vs as [|v vs IH]; intros [|w ws] [|x args] H; try destruct H; [exact Logic.I|]. destruct H0 as (B & R & H0). cbn [passed].
  split; [assumption|]. split; [assumption|]. split; [eapply rep_frame; eassumption|]. now apply IH.
Qed.
Lemma ev_self K a fs x en s v : client_fields (d_heap s) a fs -> In x (member_names ms) -> clean en -> DartSem.lookup x fs = Some v -> v <> dlate ->
  DartSem.ev D items K (self a) (var x) en s = DDone v s.
Proof.
  intros A I E L NL. cbn [DartSem.ev var]. rewrite (dbind_done _ _ s _ s (self_field K a fs x en s v A I (E x (or_intror I)) L NL)). reflexivity.
Qed.
Lemma set_self K a fs fs' x e en s s' w : client_fields (d_heap s') a fs -> In x (member_names ms) -> clean en -> DartSem.ev D items K (self a) e en s = DDone w s' ->
  set_key x w fs = Some fs' -> DartSem.ev D items K (self a) (DSet (var x) e) en s = DDone w (set_heap (set_cell a (CObj C fs') (d_heap s')) s').
Proof.
  intros (A & _ & _) I E V SK. change (DartSem.ev D items K (self a) (DSet (var x) e) en s) with (dbind (DartSem.ev D items K (self a) e en) (fun w => set_name (self a) x en w) s).
  rewrite (dbind_done _ _ s _ s' V). unfold set_name. rewrite (E x (or_intror I)). cbn [set_field].
  rewrite (dbind_done _ _ s' (CObj C fs) s') by (unfold get_cell; now rewrite A). rewrite SK. reflexivity.
Qed.
Lemma set_key_names x v (l l' : list (string * dval)) : set_key x v l = Some l' -> map fst l' = map fst l.
Proof.
  revert l'. induction l as [|[y w] l IH]; intros l'; [discriminate|]. cbn [set_key]. destruct (String.eqb x y); [intros [= <-]; reflexivity|].
  destruct (set_key x v l) as [k|]; [|discriminate]. intros [= <-]. cbn. f_equal. now apply IH.
Qed.
(** Changing another field than the scheduler. *)
Lemma client_set h a fs fs' x v : client_fields h a fs -> set_key x v fs = Some fs' -> x <> "_scheduler" -> client_fields (set_cell a (CObj C fs') h) a fs'.
Proof.
  intros (A & B & E) SK NE. split; [|split].
  - apply set_cell_same. eapply nth_some_lt, A.
  - now rewrite (set_key_names _ _ _ _ SK).
  - now rewrite (lookup_set_other x "_scheduler" v fs fs' NE SK).
Qed.
Lemma client_frame h h' a fs : client_fields h a fs -> nth_error h' a = nth_error h a -> client_fields h' a fs.
Proof. intros (A & B & E) X. split; [congruence|now split]. Qed.

Definition async_node (node : fn_node) : Prop := fn_is_async node = true /\ fn_is_read node = false.
Lemma node_fields node m : In node nodes -> In m (var_members node) -> In m ms.
Proof. intros I J. unfold client_members. rewrite !in_app_iff. right. left. apply in_flat_map. eauto. Qed.
Lemma last_member node : In node nodes -> async_node node -> In (var_last_method_id node) (member_names ms).
Proof.
  intros I (A & B). eapply member_in; [apply (node_fields node _ I); unfold var_members; rewrite A, B; left; reflexivity|now left].
Qed.
Lemma completers_member node : In node nodes -> async_node node -> In (var_method_completers node) (member_names ms).
Proof.
  intros I (A & B). eapply member_in; [apply (node_fields node _ I); unfold var_members; rewrite A, B; right; left; reflexivity|now left].
Qed.
(** The fields of a node are different, and not the scheduler. *)
Lemma var_names_nodup : NoDup ("_scheduler" :: flat_map (fun node => member_names (var_members node)) nodes).
Proof.
  pose proof members_nodup as N. unfold client_members, member_names in N. cbn [app flat_map member_name] in N.
  rewrite flat_map_app in N. apply NoDup_cons_iff in N as [N1 N]. apply NoDup_cons_iff in N as [_ N]. rewrite flat_map_flat_map in N, N1.
  constructor; [intros I; apply N1; cbn; right; apply in_or_app; left; exact I|now apply NoDup_app_remove_r in N].
Qed.
Lemma last_not node : In node nodes -> async_node node -> var_last_method_id node <> "_scheduler" /\ var_last_method_id node <> var_method_completers node.
Proof.
  intros I (A & B). pose proof var_names_nodup as N. apply NoDup_cons_iff in N as [N1 N2].
  assert (X : member_names (var_members node) = var_last_method_id node :: var_method_completers node :: [var_read_task node]).
  { unfold var_members. rewrite A, B. unfold is_async_or_read. rewrite A. reflexivity. }
  split.
  - intros E. apply N1. apply in_flat_map. exists node. split; [exact I|]. rewrite X, <- E. now left.
  - intros E. apply in_split in I as (l1 & l2 & ->). rewrite flat_map_app in N2. apply NoDup_app_remove_l in N2. cbn [flat_map] in N2. rewrite X in N2.
    apply NoDup_cons_iff in N2 as [N2 _]. apply N2. rewrite E. now left.
Qed.

Definition async_bytes (z : Z) (vs : list val) (node : fn_node) : bytes := rd_put D "Int8" (rd_has_data D) ++ rd_put D "Int64" z ++ wires vs (map arg_slot (fn_args node)).
Lemma async_request n a fs node d P vs ws s z : In node nodes -> client_fields (d_heap s) a fs -> passed P (d_heap s) d vs ws (fn_args node) -> 2 * d + 3 <= S n ->
  DartSem.ev D items (KK (S (S n))) (self a) (scall "write" [] (args3 node "server" (DFun "writer" ([ put_status; DExpr (call (var "writer") "writeInt64" [var "methodId"]) ] ++ arg_writes node))))
    (("methodId", dint z) :: arg_env node ws) s =
  DDone dnull (set_dmem (requested (d_mem s) node (async_bytes z vs node)) s).
Proof.
  intros I A PA F. assert (CL0 : clean (("methodId", dint z) :: arg_env node ws)) by (apply clean_cons; [cbn; tauto|now apply clean_args]).
  erewrite scheduler_call; [|exact A|exact CL0|discriminate].
  set (body := [ put_status; DExpr (call (var "writer") "writeInt64" [var "methodId"]) ] ++ arg_writes node).
  set (en := ("methodId", dint z) :: arg_env node ws) in *.
  unfold scheduler_method. cbn [pos map]. change (with_writer sc (number node) "Server" (dd _ <- k_apply (KK (S (S n))) (dfun "writer" body en (self a)) [dwriter]; dret dnull) s = DDone dnull (set_dmem (requested (d_mem s) node (async_bytes z vs node)) s)).
  apply writer_done. set (s' := set_dwr [] s). assert (A' : client_fields (d_heap s') a fs) by exact A.
  change (k_apply (KK (S (S n)))) with (apply_with D items (KK (S n))). cbn [apply_with].
  erewrite dbind_done; [reflexivity|]. erewrite body_done; [reflexivity|].
  assert (CL : clean (("writer", dwriter) :: en)) by (apply clean_cons; [cbn; tauto|exact CL0]).
  unfold body. cbn [app]. erewrite run_first by (eapply write_status; [exact A'|exact CL|reflexivity]).
  erewrite run_first by (apply (write_id (S n) a z); reflexivity).
  unfold arg_writes. erewrite (write_args n (self a) d P (d_heap s') F vs ws (fn_args node) PA); [rewrite !add_out_app; unfold async_bytes; rewrite app_assoc; reflexivity|reflexivity|reflexivity|].
  eapply args_lookup; [exact I|exact PA|]. intros x J. cbn [DartSem.lookup]. rewrite (local_arg node x "writer" I); [|cbn; tauto|exact J].
  unfold en. cbn [DartSem.lookup]. rewrite (local_arg node x "methodId" I); [reflexivity|cbn; tauto|exact J].
Qed.

Lemma rotate_last K a fs x en s z : client_fields (d_heap s) a fs -> clean en -> In x (member_names ms) -> DartSem.lookup x fs = Some (dint z) ->
  DartSem.ev D items K (self a) (DPost (var "rotateMethodId") [XCall [(None, var x)] false]) en s = DDone (dint (rd_rotate D z)) s.
Proof.
  intros A E I L. rewrite (ev_new D items K (self a) "rotateMethodId" _ _ en s [(None, dint z)] s).
  - rewrite lib_call_name by (cbn; tauto). reflexivity.
  - eapply lib_name; [exact A|exact E|cbn; tauto].
  - rewrite dmapM_cons. rewrite (dbind_done _ _ s (None, dint z) s); [reflexivity|].
    rewrite (dbind_done _ _ s _ s (ev_self K a fs x en s (dint z) A I E L ltac:(discriminate))). reflexivity.
Qed.
Lemma new_completer K a fs ts en s : client_fields (d_heap s) a fs -> clean en ->
  DartSem.ev D items K (self a) (DPost (DName "Completer" ts) [XCall [] false]) en s = DDone (dref (List.length (d_heap s))) (set_heap (d_heap s ++ [CDone None]) s).
Proof.
  intros A E. change (DartSem.ev D items K (self a) (DPost (var "Completer") [XCall [] false]) en s = DDone (dref (List.length (d_heap s))) (set_heap (d_heap s ++ [CDone None]) s)).
  erewrite ev_new; [|eapply lib_name; [exact A|exact E|cbn; tauto]|reflexivity]. rewrite lib_call_name by (cbn; tauto). reflexivity.
Qed.
Lemma put_completer K a fs x m l z w en s : client_fields (d_heap s) a fs -> clean en -> In x (member_names ms) -> DartSem.lookup x fs = Some (dref m) ->
  nth_error (d_heap s) m = Some (CMap l) -> DartSem.lookup "methodId" en = Some (dint z) -> DartSem.lookup "completer" en = Some w ->
  DartSem.ev D items K (self a) (DSet (DPost (var x) [XIndex (var "methodId")]) (var "completer")) en s = DDone w (set_heap (set_cell m (CMap (map_put z w l)) (d_heap s)) s).
Proof.
  intros A E I L M LI LW. change (DartSem.ev D items K (self a) (DSet (DPost (var x) [XIndex (var "methodId")]) (var "completer")) en s) with
    (dbind (DartSem.ev D items K (self a) (var x) en) (fun v => dd k <- DartSem.ev D items K (self a) (var "methodId") en; dd w <- DartSem.ev D items K (self a) (var "completer") en; set_index v k w) s).
  rewrite (dbind_done _ _ s _ s (ev_self K a fs x en s _ A I E L ltac:(discriminate))).
  rewrite (dbind_done _ _ s _ s (ev_var D items K (self a) "methodId" en _ s LI)). rewrite (dbind_done _ _ s _ s (ev_var D items K (self a) "completer" en _ s LW)).
  cbn [set_index]. rewrite (dbind_done _ _ s (CMap l) s) by (unfold get_cell; now rewrite M). reflexivity.
Qed.

Lemma async_member node : async_node node -> method_members node = [connect_method node (async_connect_rest node); async_method node].
Proof. intros (A & B). unfold method_members. now rewrite A, B. Qed.
Lemma async_call n a fs node d vs ws s z m l : In node nodes -> async_node node -> client_fields (d_heap s) a fs ->
  DartSem.lookup (var_last_method_id node) fs = Some (dint z) -> DartSem.lookup (var_method_completers node) fs = Some (dref m) -> nth_error (d_heap s) m = Some (CMap l) ->
  passed (fun b => b <> a) (d_heap s) d vs ws (fn_args node) -> 2 * d + 3 <= S n -> exists fs',
  set_key (var_last_method_id node) (dint (rd_rotate D z)) fs = Some fs' /\
  calls (S (S (S n))) a node ws s = DDone (dref (List.length (d_heap s)))
    (set_heap (set_cell m (CMap (map_put z (dref (List.length (d_heap s))) l)) (set_cell a (CObj C fs') (d_heap s) ++ [CDone None]))
      (set_dmem (requested (d_mem s) node (async_bytes z vs node)) s)).
Proof.
  intros I SN A LL LC M PA F. pose proof (async_member node SN) as MM. destruct (last_not node I SN) as [NS NC].
  destruct (set_key_some (var_last_method_id node) (dint (rd_rotate D z)) fs _ LL) as [fs' SK]. exists fs'. split; [exact SK|].
  rewrite (invoke (S (S n)) a fs node (DTy "Future" [ret_ty (fn_return node)]) (camel (fn_id node)) (method_params node)
    (match async_method node with MMeth _ _ _ _ b => b | _ => BBlock [] end) (named node ws) (arg_env node ws) s A I).
  2: { rewrite MM. right. left. reflexivity. }
  2: { apply bind_method; [now apply args_nodup|now apply (passed_length (fun b => b <> a) (d_heap s) d vs)]. }
  unfold async_method. cbv zeta. apply body_returned.
  pose proof (clean_args node ws I) as CA. assert (CM : clean (("methodId", dint z) :: arg_env node ws)) by (apply clean_cons; [cbn; tauto|exact CA]).
  pose proof (last_member node I SN) as ML. pose proof (completers_member node I SN) as MC.
  erewrite run_final; [|apply arg_env_none; [exact I|left; cbn; tauto]|eapply ev_self; [exact A|exact ML|exact CA|exact LL|discriminate]].
  set (h1 := set_cell a (CObj C fs') (d_heap s)). assert (A1 : client_fields h1 a fs') by (eapply client_set; eassumption).
  unfold set_st. erewrite run_expr; [|eapply set_self; [exact A|exact ML|exact CM|eapply rotate_last; [exact A|exact CM|exact ML|exact LL]|exact SK]].
  fold h1.
  erewrite run_expr; [|eapply (async_request n a fs' node d (fun _ => True) vs ws (set_heap h1 s)); [exact I|exact A1| |exact F]].
  2: { eapply passed_frame; [|exact PA]. intros b NB. split; [exact Logic.I|]. cbn [d_heap set_heap]. unfold h1. apply set_cell_other. congruence. }
  set (p := List.length (d_heap s)). set (s2 := set_dmem _ (set_heap h1 s)).
  assert (LP : List.length h1 = p) by (unfold h1; now rewrite set_cell_length).
  erewrite run_final; [|cbn [DartSem.lookup String.eqb Ascii.eqb Bool.eqb]; apply arg_env_none; [exact I|left; cbn; tauto]|eapply (new_completer _ a fs'); [exact A1|exact CM]].
  change (d_heap s2) with h1. rewrite LP. set (s3 := set_heap (h1 ++ [CDone None]) s2). set (en := ("completer", dref p) :: ("methodId", dint z) :: arg_env node ws).
  assert (CE : clean en) by (apply clean_cons; [cbn; tauto|exact CM]).
  assert (A3 : client_fields (d_heap s3) a fs').
  { eapply client_frame; [exact A1|]. cbn [s3 d_heap set_heap]. rewrite nth_error_app1; [reflexivity|]. destruct A1 as (A1 & _). eapply nth_some_lt, A1. }
  assert (MA : a <> m) by (intros <-; destruct A as (A & _); congruence).
  assert (M3 : nth_error (d_heap s3) m = Some (CMap l)).
  { cbn [s3 d_heap set_heap]. rewrite nth_error_app1; [|rewrite LP; unfold p; eapply nth_some_lt, M]. unfold h1. now rewrite set_cell_other. }
  erewrite run_expr; [|eapply (put_completer _ a fs' (var_method_completers node) m l z (dref p) en s3); [exact A3|exact CE|exact MC| |exact M3|reflexivity|reflexivity]].
  2: { rewrite (lookup_set_other _ _ _ _ _ NC SK). exact LC. }
  set (s4 := set_heap _ s3). erewrite run_return; [reflexivity|].
  assert (P4 : nth_error (d_heap s4) p = Some (CDone None)).
  { cbn [s4 d_heap set_heap]. rewrite set_cell_other; [cbn [s3 d_heap set_heap]; rewrite nth_error_app2, LP, Nat.sub_diag; [reflexivity|rewrite LP; reflexivity]|].
    intros ->. apply nth_some_lt in M. unfold p in M. clear - M. lia. }
  change (DartSem.ev D items (KK (S (S n))) (self a) (DartTree.field (var "completer") "future") en s4) with
    (dbind (dret (Some (dref p))) (fun o => match o with Some v => dd v <- get_field D items (KK (S (S n))) "future" v; dret v
       | None => (dd v <- static_field items "completer" "future"; dret v) end) s4).
  rewrite dbind_ret_l. cbv beta iota. rewrite dbind_ret. unfold get_field. rewrite (dbind_done _ _ s4 (CDone None) s4) by (unfold get_cell; now rewrite P4). reflexivity.
Qed.

(** *** Read tasks *)

Lemma ev_self_post K a fs x ps en s v : client_fields (d_heap s) a fs -> In x (member_names ms) -> clean en -> DartSem.lookup x fs = Some v -> v <> dlate ->
  DartSem.ev D items K (self a) (DPost (var x) ps) en s = dchain (fun p v => DartSem.ev_post D items K (self a) p v en) ps v s.
Proof.
  intros A I E L NL. change (DartSem.ev D items K (self a) (DPost (var x) ps) en s) with
    (dbind (DartSem.name_value items K (self a) x en) (fun o => match o, ps with
       | Some v, _ => dchain (fun p v => DartSem.ev_post D items K (self a) p v en) ps v
       | None, p :: ps' => dd v <- DartSem.ev_named D items K (self a) x p en; dchain (fun p v => DartSem.ev_post D items K (self a) p v en) ps' v
       | None, [] => dstuck end) s).
  now rewrite (dbind_done _ _ s _ s (self_field K a fs x en s v A I (E x (or_intror I)) L NL)).
Qed.
Lemma opt_complete K a fs x m l z (e : list dex) vs en s : client_fields (d_heap s) a fs -> clean en -> In x (member_names ms) -> DartSem.lookup x fs = Some (dref m) ->
  nth_error (d_heap s) m = Some (CMap l) -> DartSem.lookup "methodId" en = Some (dint z) -> Forall2 (pure D items K (self a) en s) e vs ->
  DartSem.ev D items K (self a) (DPost (var x) [XIndex (var "methodId"); XOpt "complete" (map (fun a => (None, a)) e) false]) en s =
  match map_get z l with
  | Some dnull | None => DDone dnull s
  | Some w => method D items K w "complete" (pos vs) s
  end.
Proof.
  intros A E I L M LI F. rewrite (ev_self_post K a fs x _ en s (dref m) A I E L ltac:(discriminate)).
  rewrite dchain_cons.
  assert (X : DartSem.ev_post D items K (self a) (XIndex (var "methodId")) (dref m) en s = DDone (match map_get z l with Some w => w | None => dnull end) s).
  { cbn [DartSem.ev_post]. rewrite (dbind_done _ _ s _ s (ev_var D items K (self a) "methodId" en _ s LI)). cbn [get_index].
    rewrite (dbind_done _ _ s (CMap l) s) by (unfold get_cell; now rewrite M). reflexivity. }
  rewrite (dbind_done _ _ s _ s X). rewrite dchain_cons. change (dchain (fun p v => DartSem.ev_post D items K (self a) p v en) []) with (fun v : dval => dret v).
  rewrite dbind_ret.
  assert (Y : forall w, w <> dnull -> DartSem.ev_post D items K (self a) (XOpt "complete" (map (fun a => (None, a)) e) false) w en s = method D items K w "complete" (pos vs) s).
  { intros w NW. transitivity (dbind (dmapM (fun '(l, e) => dd v <- DartSem.ev D items K (self a) e en; dret (l, v)) (map (fun a => (None, a)) e)) (fun vs => method D items K w "complete" vs) s).
    - destruct w; try reflexivity. congruence.
    - now rewrite (dbind_done _ _ s _ s (dargs_pure D items K (self a) en e vs s F)). }
  destruct (map_get z l) as [w|]; [|reflexivity]. destruct w; try (rewrite Y by discriminate; reflexivity). reflexivity.
Qed.
Lemma remove_completer K a fs x m l z en s : client_fields (d_heap s) a fs -> clean en -> In x (member_names ms) -> DartSem.lookup x fs = Some (dref m) ->
  nth_error (d_heap s) m = Some (CMap l) -> DartSem.lookup "methodId" en = Some (dint z) ->
  DartSem.ev D items K (self a) (call (var x) "remove" [var "methodId"]) en s =
  DDone (match map_get z l with Some w => w | None => dnull end) (set_heap (set_cell m (CMap (map_remove z l)) (d_heap s)) s).
Proof.
  intros A E I L M LI. unfold call. change (postfix (var x) (XMeth "remove" [] (map (fun a => (None, a)) [var "methodId"]) false)) with (DPost (var x) [XMeth "remove" [] [(None, var "methodId")] false]).
  rewrite (ev_self_post K a fs x _ en s (dref m) A I E L ltac:(discriminate)). rewrite dchain_cons.
  change (dchain (fun p v => DartSem.ev_post D items K (self a) p v en) []) with (fun v : dval => dret v). rewrite dbind_ret.
  cbn [DartSem.ev_post].
  rewrite (dbind_done _ _ s (pos [dint z]) s).
  - cbn [method]. rewrite (dbind_done _ _ s (CMap l) s) by (unfold get_cell; now rewrite M). reflexivity.
  - apply (dargs_pure D items K (self a) en [var "methodId"] [dint z]). constructor; [|constructor]. now apply ev_var.
Qed.

Definition task_body (rest : list dst) : list dst := [ get_status; DIf (DEq true (var "status") has_data) [DReturn None] ] ++ rest.
Definition node_rest (node : fn_node) : list dst := if fn_is_read node then read_rest node else async_connect_rest node.
(** What the client registers for a method. *)
Definition node_task (node : fn_node) (a : nat) : task := mk_task sc (number node) "Client" (dfun "reader" (task_body (node_rest node)) [] (self a)).

Lemma task_idle n a fs k node s z r : client_fields (d_heap s) a fs -> nth_error (d_tasks s) k = Some (Some (node_task node a)) ->
  rd_get D "Int8" (d_mem s sc (number node) "Client") = Some (z, r) -> z <> rd_has_data D ->
  run_task D items (S n) k s = DDone dnull s.
Proof.
  intros A T G NE. unfold run_task. rewrite T. cbn [tk_scope tk_address tk_side tk_fun node_task].
  change (k_apply (KK (S n))) with (apply_with D items (KK n)). cbn [apply_with].
  set (b := d_mem s sc (number node) "Client") in *. set (s' := set_drd b s). assert (A' : client_fields (d_heap (set_drd r s')) a fs) by exact A.
  set (en := [("reader", dreader)]). set (en' := ("status", dint z) :: en).
  assert (CE : clean en') by (apply clean_cons; [cbn; tauto|apply clean_cons; [cbn; tauto|apply clean_nil]]).
  replace (DDone dnull s) with (DDone (A := dval) dnull (set_heap (d_heap s) s)) by (now destruct s).
  apply (reader_done _ _ _ _ r). fold s'. fold en.
  replace (set_heap (d_heap s) (set_drd r s')) with (set_drd r s') by (now destruct s).
  apply body_returned. unfold task_body. cbn [app].
  erewrite read_status by (first [reflexivity|exact G]). fold en'.
  rewrite (status_other n a fs en' _ z _ _ A' CE eq_refl NE). reflexivity.
Qed.

Definition result_read (t : option type_id) (v : val) (h h' : heap) (w : dval) : Prop :=
  match t with Some t => rep (fresh h h') h' w v t | None => w = dnull end.
Definition result_bytes (t : option type_id) (v : val) : bytes := match t with Some t => dwire false v t | None => [] end.
Definition result_ok (t : option type_id) (v : val) (d n : nat) : Prop :=
  match t with Some t => dtyped v t = true /\ depth v <= d /\ 3 * d + 3 * cd + 3 <= n | None => True end.
(** The heap after a response: the completer of the call is completed, the call is no longer pending. *)
Definition completed (h : heap) (m : nat) (l : list (Z * dval)) (z : Z) (w : dval) : heap :=
  set_cell m (CMap (map_remove z l)) (match map_get z l with Some (dref p) => set_cell p (CDone (Some w)) h | _ => h end).
Lemma task_async n a fs k node s z m l id r v d r' : In node nodes -> async_node node -> client_fields (d_heap s) a fs -> nth_error (d_tasks s) k = Some (Some (node_task node a)) ->
  DartSem.lookup (var_method_completers node) fs = Some (dref m) -> nth_error (d_heap s) m = Some (CMap l) ->
  (forall w, map_get id l = Some w -> exists p, w = dref p /\ nth_error (d_heap s) p = Some (CDone None)) ->
  z = rd_has_data D -> rd_get D "Int8" (d_mem s sc (number node) "Client") = Some (z, r) -> rd_get D "Int64" r = Some (id, result_bytes (fn_return node) v ++ r') ->
  result_ok (fn_return node) v d (S n) -> exists w h',
  run_task D items (S (S n)) k s = DDone dnull (set_heap (completed h' m l id w) s) /\ changes (d_heap s) h' [] /\ result_read (fn_return node) v (d_heap s) h' w.
Proof.
  intros I SN A T LC M PE EZ G GI RO.
  set (b := d_mem s sc (number node) "Client") in *. set (s' := set_drd b s).
  set (en0 := [("reader", dreader)]). set (en := ("methodId", dint id) :: ("status", dint z) :: en0).
  assert (C0 : clean (("status", dint z) :: en0)) by (apply clean_cons; [cbn; tauto|apply clean_cons; [cbn; tauto|apply clean_nil]]).
  assert (CE : clean en) by (apply clean_cons; [cbn; tauto|exact C0]).
  set (r2 := result_bytes (fn_return node) v ++ r') in *.
  assert (X : run (S n) (self a) (task_body (node_rest node)) en0 s' = run (S n) (self a) (tl (async_connect_rest node)) en (set_drd r2 (set_drd r s'))).
  { unfold task_body. cbn [app]. erewrite read_status by (first [reflexivity|exact G]).
    rewrite (status_kept (S n) a fs _ _ _ _ (A : client_fields (d_heap (set_drd r s')) a fs) C0); [|now rewrite EZ].
    unfold node_rest. destruct SN as [_ ->]. unfold async_connect_rest. cbn [tl]. apply run_final; [reflexivity|].
    rewrite (ev_call_var D items (KK (S n)) (self a) "reader" "readInt64" [] (("status", dint z) :: en0) dreader [] (set_drd r s') eq_refl (Forall2_nil _)).
    change (method D items (KK (S n)) dreader "readInt64" (pos []) (set_drd r s')) with (dbind (take (rd_get D "Int64")) (fun z => dret (prim_val "Int64" z)) (set_drd r s')).
    unfold dbind, take. cbn [d_rd set_drd]. rewrite GI. reflexivity. }
  pose proof (completers_member node I SN) as MC.
  assert (Y : exists w h' es vs en', run (S n) (self a) (tl (async_connect_rest node)) en (set_drd r2 (set_drd r s')) =
      run (S n) (self a) [DExpr (DPost (var (var_method_completers node)) [XIndex (var "methodId"); XOpt "complete" (map (fun a => (None, a)) es) false]);
        DExpr (call (var (var_method_completers node)) "remove" [var "methodId"])] en' (set_heap h' (set_drd r' s')) /\
      clean en' /\ DartSem.lookup "methodId" en' = Some (dint id) /\ Forall2 (pure D items (KK (S n)) (self a) en' (set_heap h' (set_drd r' s'))) es vs /\
      (vs = [] /\ w = dnull \/ vs = [w]) /\ changes (d_heap s) h' [] /\ result_read (fn_return node) v (d_heap s) h' w).
  { unfold async_connect_rest. cbn [tl]. destruct (fn_return node) as [t|] eqn:ER.
    - destruct RO as (TY & DD & FU).
      destruct (read_field D U items ds cd file names libs okd law n v t (self a) en (set_drd r2 (set_drd r s')) r' TY) as (w & h' & E1 & C1 & R1).
      { intros N. apply (read_all D U items ds cd file names libs okd law d); assumption. }
      { reflexivity. }
      { reflexivity. }
      exists w, h', [var "result"], [w], (("result", w) :: en). split.
      { cbn [app]. erewrite run_final; [|reflexivity|exact E1]. reflexivity. }
      split; [apply clean_cons; [cbn; tauto|exact CE]|]. split; [reflexivity|]. split; [constructor; [now apply ev_var|constructor]|].
      split; [now right|]. split; [exact C1|exact R1].
    - exists dnull, (d_heap s), [], [], en. split; [|split; [exact CE|split; [reflexivity|split; [constructor|split; [now left|split; [apply changes_refl|reflexivity]]]]]].
      cbn [app map]. now destruct s. }
  destruct Y as (w & h' & es & vs & en' & Y & CE' & LI & F2 & VS & CH & RR). exists w, h'. split; [|split; [exact CH|exact RR]].
  unfold run_task. rewrite T. cbn [tk_scope tk_address tk_side tk_fun node_task]. change (k_apply (KK (S (S n)))) with (apply_with D items (KK (S n))). cbn [apply_with].
  apply (reader_done _ _ _ _ r'). fold b. fold s'. fold en0. eapply body_done. rewrite X, Y.
  set (s1 := set_heap h' (set_drd r' s')).
  assert (A1 : client_fields (d_heap s1) a fs).
  { eapply client_frame; [exact A|]. destruct CH as [_ CH]. cbn [s1 d_heap set_heap]. apply CH; [destruct A as (A & _); eapply nth_some_lt, A|easy]. }
  assert (M1 : nth_error (d_heap s1) m = Some (CMap l)) by (eapply changes_nth; [exact CH|easy|exact M]).
  pose proof (opt_complete (KK (S n)) a fs _ m l id es vs en' s1 A1 CE' MC LC M1 LI F2) as OC.
  set (h2 := match map_get id l with Some (dref p) => set_cell p (CDone (Some w)) h' | _ => h' end).
  assert (OD : exists u, DartSem.ev D items (KK (S n)) (self a) (DPost (var (var_method_completers node)) [XIndex (var "methodId"); XOpt "complete" (map (fun a => (None, a)) es) false]) en' s1 = DDone u (set_heap h2 s1)).
  { rewrite OC. unfold h2. destruct (map_get id l) as [u|] eqn:MG; [|exists dnull; reflexivity].
    destruct (PE u eq_refl) as (p & -> & PC). assert (PC1 : nth_error (d_heap s1) p = Some (CDone None)) by (eapply changes_nth; [exact CH|easy|exact PC]).
    exists dnull. cbn [method]. rewrite (dbind_done _ _ s1 (CDone None) s1) by (unfold get_cell; now rewrite PC1).
    destruct VS as [[-> ->]| ->]; reflexivity. }
  destruct OD as [u OD]. erewrite run_expr by exact OD.
  assert (P2 : forall q, nth_error (d_heap s1) q = Some (CMap l) \/ nth_error (d_heap s1) q = Some (CObj C fs) -> nth_error h2 q = nth_error (d_heap s1) q).
  { intros q Q. unfold h2. destruct (map_get id l) as [u'|] eqn:MG; [|reflexivity]. destruct (PE u' eq_refl) as (p & -> & PC).
    apply set_cell_other. intros ->. assert (PC1 : nth_error (d_heap s1) q = Some (CDone None)) by (eapply changes_nth; [exact CH|easy|exact PC]).
    destruct Q; congruence. }
  erewrite run_expr; [|eapply (remove_completer _ a fs (var_method_completers node) m l id en' (set_heap h2 s1)); [|exact CE'|exact MC|exact LC| |exact LI]].
  - cbn [dchain]. unfold dret, completed. fold h2. destruct s. reflexivity.
  - eapply client_frame; [exact A1|]. cbn [d_heap set_heap]. apply P2. right. destruct A1 as (A1 & _). exact A1.
  - cbn [d_heap set_heap]. rewrite P2 by (left; exact M1). exact M1.
Qed.

Definition read_node (node : fn_node) : Prop := fn_is_read node = true.
Lemma stream_member node : In node nodes -> read_node node -> In (var_read_stream_controller node) (member_names ms).
Proof.
  intros I A. eapply member_in; [apply (node_fields node _ I); unfold var_members; rewrite A, !in_app_iff; right; right; left; reflexivity|now left].
Qed.
Lemma stream_call K a fs x b m (es : list dex) vs en s : client_fields (d_heap s) a fs -> clean en -> In x (member_names ms) -> DartSem.lookup x fs = Some (dref b) ->
  Forall2 (pure D items K (self a) en s) es vs -> DartSem.ev D items K (self a) (call (var x) m es) en s = method D items K (dref b) m (pos vs) s.
Proof.
  intros A E I L F. unfold call. change (postfix (var x) (XMeth m [] (map (fun a => (None, a)) es) false)) with (DPost (var x) [XMeth m [] (map (fun a => (None, a)) es) false]).
  rewrite (ev_self_post K a fs x _ en s (dref b) A I E L ltac:(discriminate)). rewrite dchain_cons.
  change (dchain (fun p v => DartSem.ev_post D items K (self a) p v en) []) with (fun v : dval => dret v). rewrite dbind_ret.
  cbn [DartSem.ev_post]. now rewrite (dbind_done _ _ s (pos vs) s (dargs_pure D items K (self a) en es vs s F)).
Qed.
Lemma task_read n a fs k node s z b l o r v d r' : In node nodes -> read_node node -> client_fields (d_heap s) a fs -> nth_error (d_tasks s) k = Some (Some (node_task node a)) ->
  DartSem.lookup (var_read_stream_controller node) fs = Some (dref b) -> nth_error (d_heap s) b = Some (CStream l o) ->
  z = rd_has_data D -> rd_get D "Int8" (d_mem s sc (number node) "Client") = Some (z, r) -> r = result_bytes (fn_return node) v ++ r' ->
  result_ok (fn_return node) v d (S n) -> exists w h',
  run_task D items (S (S n)) k s = (if o then DDone dnull (set_heap (set_cell b (CStream (l ++ [w]) true) h') s) else DThrows "StateError") /\
  changes (d_heap s) h' [] /\ result_read (fn_return node) v (d_heap s) h' w.
Proof.
  intros I RN A T LS M EZ G -> RO.
  set (buf := d_mem s sc (number node) "Client") in *. set (s' := set_drd buf s).
  set (en0 := [("reader", dreader)]). set (en := ("status", dint z) :: en0).
  assert (CE : clean en) by (apply clean_cons; [cbn; tauto|apply clean_cons; [cbn; tauto|apply clean_nil]]).
  set (r2 := result_bytes (fn_return node) v ++ r') in *.
  assert (X : run (S n) (self a) (task_body (node_rest node)) en0 s' = run (S n) (self a) (read_rest node) en (set_drd r2 s')).
  { unfold task_body. cbn [app]. erewrite read_status by (first [reflexivity|exact G]).
    rewrite (status_kept (S n) a fs _ _ _ _ (A : client_fields (d_heap (set_drd r2 s')) a fs) CE); [|unfold en; rewrite EZ; reflexivity].
    unfold node_rest. now rewrite RN. }
  pose proof (stream_member node I RN) as MS.
  assert (Y : exists w h' es en', run (S n) (self a) (read_rest node) en (set_drd r2 s') =
      run (S n) (self a) [DExpr (call (var (var_read_stream_controller node)) "add" es)] en' (set_heap h' (set_drd r' s')) /\
      clean en' /\ Forall2 (pure D items (KK (S n)) (self a) en' (set_heap h' (set_drd r' s'))) es [w] /\
      changes (d_heap s) h' [] /\ result_read (fn_return node) v (d_heap s) h' w).
  { unfold read_rest. destruct (fn_return node) as [t|] eqn:ER.
    - destruct RO as (TY & DD & FU).
      destruct (read_field D U items ds cd file names libs okd law n v t (self a) en (set_drd r2 s') r' TY) as (w & h' & E1 & C1 & R1).
      { intros N. apply (read_all D U items ds cd file names libs okd law d); assumption. }
      { reflexivity. }
      { reflexivity. }
      exists w, h', [var "result"], (("result", w) :: en). split.
      { erewrite run_final; [|reflexivity|exact E1]. reflexivity. }
      split; [apply clean_cons; [cbn; tauto|exact CE]|]. split; [constructor; [now apply ev_var|constructor]|]. split; [exact C1|exact R1].
    - exists dnull, (d_heap s), [var "null"], en. split; [now destruct s|]. split; [exact CE|]. split; [constructor; [reflexivity|constructor]|].
      split; [apply changes_refl|reflexivity]. }
  destruct Y as (w & h' & es & en' & Y & CE' & F2 & CH & RR). exists w, h'. split; [|split; [exact CH|exact RR]].
  set (s1 := set_heap h' (set_drd r' s')) in *.
  assert (A1 : client_fields (d_heap s1) a fs).
  { eapply client_frame; [exact A|]. destruct CH as [_ CH]. cbn [s1 d_heap set_heap]. apply CH; [destruct A as (A & _); eapply nth_some_lt, A|easy]. }
  assert (M1 : nth_error (d_heap s1) b = Some (CStream l o)) by (eapply changes_nth; [exact CH|easy|exact M]).
  pose proof (stream_call (KK (S n)) a fs _ b "add" es [w] en' s1 A1 CE' MS LS F2) as SC.
  assert (SD : method D items (KK (S n)) (dref b) "add" (pos [w]) s1 = if o then DDone dnull (set_heap (set_cell b (CStream (l ++ [w]) true) h') s1) else DThrows "StateError").
  { cbn [method]. rewrite (dbind_done _ _ s1 (CStream l o) s1) by (unfold get_cell; now rewrite M1). destruct o; reflexivity. }
  rewrite SD in SC.
  unfold run_task. rewrite T. cbn [tk_scope tk_address tk_side tk_fun node_task]. change (k_apply (KK (S (S n)))) with (apply_with D items (KK (S n))). cbn [apply_with].
  fold buf. fold en0. destruct o.
  - apply (reader_done _ _ _ _ r'). fold s'. eapply body_done. rewrite X, Y. erewrite run_expr by exact SC. cbn [dchain]. unfold dret. now destruct s.
  - unfold with_reader. fold s'. rewrite (body_throws D items (KK (S n)) (self a) (task_body (node_rest node)) en0 s' "StateError"); [reflexivity|].
    rewrite X, Y. rewrite dchain_cons. cbn [DartSem.ev_st]. unfold dbind at 1 2. now rewrite SC.
Qed.

(** *** Connecting and disconnecting *)

Definition has_task (node : fn_node) : Prop := is_async_or_read node = true.
Lemma task_member node : In node nodes -> has_task node -> In (var_read_task node) (member_names ms).
Proof.
  intros I A. eapply member_in; [apply (node_fields node _ I); unfold var_members; rewrite A, !in_app_iff; right; left; left; reflexivity|now left].
Qed.
Lemma task_not_scheduler node : In node nodes -> has_task node -> var_read_task node <> "_scheduler".
Proof.
  intros I A E. pose proof var_names_nodup as N. apply NoDup_cons_iff in N as [N1 _]. apply N1. apply in_flat_map. exists node. split; [exact I|].
  rewrite <- E. eapply member_in; [unfold var_members; rewrite A, !in_app_iff; right; left; left; reflexivity|now left].
Qed.
Lemma connect_member node : has_task node -> In (connect_method node (node_rest node)) (method_members node).
Proof.
  unfold has_task, is_async_or_read, method_members, node_rest. destruct (fn_is_read node); [now left|]. rewrite orb_false_r. intros ->. now left.
Qed.
Lemma connect n a fs node v s : In node nodes -> has_task node -> client_fields (d_heap s) a fs -> DartSem.lookup (var_read_task node) fs = Some v -> exists fs',
  set_key (var_read_task node) (dtask (List.length (d_tasks s))) fs = Some fs' /\
  DartSem.ev D items (KK (S (S n))) (self a) (new ("_connect" ++ pascal (fn_id node))) [] s =
  DDone dnull (set_dtasks (d_tasks s ++ [Some (node_task node a)]) (set_heap (set_cell a (CObj C fs') (d_heap s)) s)).
Proof.
  intros I HT A L. destruct (set_key_some (var_read_task node) (dtask (List.length (d_tasks s))) fs _ L) as [fs' SK]. exists fs'. split; [exact SK|].
  pose proof (node_members node _ I (connect_member node HT)) as CM. unfold connect_method in CM.
  assert (MN : In ("_connect" ++ pascal (fn_id node))%string (member_names ms)) by (eapply member_in; [exact CM|now left]).
  unfold new. rewrite (ev_new D items (KK (S (S n))) (self a) _ [] false [] s [] s).
  2: { eapply self_none; [exact A|reflexivity|now apply member_free|right; eauto|now apply member_free]. }
  2: { reflexivity. }
  unfold call_name. rewrite own, (find_meth_in ms false _ _ _ _ members_nodup CM).
  change (k_invoke (KK (S (S n)))) with (invoke_with D items (KK (S n))). unfold invoke_with. rewrite FC, (find_meth_in ms false _ _ _ _ members_nodup CM). cbn [bind_params bind_pos].
  eapply body_done. unfold set_st. erewrite run_expr; [reflexivity|].
  rewrite (set_self (KK (S n)) a fs fs' (var_read_task node) _ [] s (set_dtasks (d_tasks s ++ [Some (node_task node a)]) s) (dtask (List.length (d_tasks s)))).
  - now destruct s.
  - exact A.
  - now apply task_member.
  - apply clean_nil.
  - erewrite scheduler_call; [reflexivity|exact A|apply clean_nil|discriminate].
  - exact SK.
Qed.

(** *** The state of the client *)

Record node_shows (h : heap) (ts : list (option task)) (a : nat) (fs : list (string * dval)) (V : view) (node : fn_node) : Prop := mk_node_shows
  { ns_async : async_node node ->
      DartSem.lookup (var_last_method_id node) fs = Some (dint (w_last V (fn_id node))) /\
      DartSem.lookup (var_method_completers node) fs = Some (dref (w_map V (fn_id node))) /\
      nth_error h (w_map V (fn_id node)) = Some (CMap (pend (w_pending V (fn_id node)))) /\
      NoDup (map fst (w_pending V (fn_id node))) /\
      forall k p, In (k, p) (w_pending V (fn_id node)) -> nth_error h p = Some (CDone None);
    ns_read : read_node node ->
      DartSem.lookup (var_read_stream_controller node) fs = Some (dref (w_ctrl V (fn_id node))) /\
      nth_error h (w_ctrl V (fn_id node)) = Some (CStream (fst (w_stream V (fn_id node))) (snd (w_stream V (fn_id node))));
    ns_task : has_task node ->
      DartSem.lookup (var_read_task node) fs = Some (dtask (w_task V (fn_id node))) /\
      (nth_error ts (w_task V (fn_id node)) = Some (Some (node_task node a)) \/ nth_error ts (w_task V (fn_id node)) = Some None) }.
(** The objects of different methods are different. *)
Record separate (V : view) : Prop := mk_separate
  { sp_map : forall x y, In x nodes -> In y nodes -> async_node x -> async_node y -> w_map V (fn_id x) = w_map V (fn_id y) -> x = y;
    sp_ctrl : forall x y, In x nodes -> In y nodes -> read_node x -> read_node y -> w_ctrl V (fn_id x) = w_ctrl V (fn_id y) -> x = y;
    sp_pending : forall x y k k' p, In x nodes -> In y nodes -> async_node x -> async_node y ->
      In (k, p) (w_pending V (fn_id x)) -> In (k', p) (w_pending V (fn_id y)) -> x = y /\ k = k' }.
(** The object [a] is a client in the state [V]. *)
Definition shows (h : heap) (ts : list (option task)) (a : nat) (V : view) : Prop := exists fs,
  client_fields h a fs /\ (forall node, In node nodes -> node_shows h ts a fs V node) /\ separate V.

Lemma var_unique x y n : In x nodes -> In y nodes -> In n (member_names (var_members x)) -> In n (member_names (var_members y)) -> x = y.
Proof. pose proof var_names_nodup as N. apply NoDup_cons_iff in N as [_ N]. intros A B E F. eapply (flat_map_unique (fun node => member_names (var_members node))); eassumption. Qed.
Lemma var_nodup x : In x nodes -> NoDup (member_names (var_members x)).
Proof.
  intros I. pose proof var_names_nodup as N. apply NoDup_cons_iff in N as [_ N]. apply in_split in I as (l1 & l2 & ->). rewrite flat_map_app in N.
  apply NoDup_app_remove_l in N. cbn [flat_map] in N. now apply NoDup_app_remove_r in N.
Qed.
Lemma async_vars x : async_node x -> member_names (var_members x) = [var_last_method_id x; var_method_completers x; var_read_task x].
Proof. intros (A & B). unfold var_members, is_async_or_read. now rewrite A, B. Qed.
Lemma read_vars x : read_node x -> member_names (var_members x) = [var_read_task x; var_read_stream_controller x].
Proof. intros A. unfold var_members, is_async_or_read. rewrite A, andb_false_r, orb_true_r. reflexivity. Qed.
Lemma task_kind x : has_task x -> async_node x \/ read_node x.
Proof. unfold has_task, is_async_or_read, async_node, read_node. destruct (fn_is_read x); [now right|]. rewrite orb_false_r. now left. Qed.
Lemma not_both x : async_node x -> read_node x -> False.
Proof. unfold async_node, read_node. intros [_ A] B. congruence. Qed.
(** A field of another method is another field. *)
Lemma other_field x y n n' : In x nodes -> In y nodes -> x <> y -> In n (member_names (var_members x)) -> In n' (member_names (var_members y)) -> n <> n'.
Proof. intros A B NE E F ->. apply NE. eapply var_unique; eassumption. Qed.
Lemma same_node x y : In x nodes -> In y nodes -> async_node x \/ read_node x -> async_node y \/ read_node y -> fn_id x = fn_id y -> x = y.
Proof.
  intros I J A B E. eapply (var_unique x y (var_read_task x)); try assumption.
  - destruct A as [A|A]; [rewrite (async_vars x A)|rewrite (read_vars x A)]; cbn; tauto.
  - replace (var_read_task x) with (var_read_task y) by (unfold var_read_task; now rewrite E).
    destruct B as [B|B]; [rewrite (async_vars y B)|rewrite (read_vars y B)]; cbn; tauto.
Qed.

(** Nothing that belongs to the client changes. *)
Definition owned (V : view) (a b : nat) : Prop := b = a \/
  (exists x, In x nodes /\ async_node x /\ (b = w_map V (fn_id x) \/ In b (map snd (w_pending V (fn_id x))))) \/
  (exists x, In x nodes /\ read_node x /\ b = w_ctrl V (fn_id x)).
Lemma shows_frame h h' ts ts' a V : shows h ts a V -> (forall b, owned V a b -> nth_error h' b = nth_error h b) ->
  (forall node, In node nodes -> has_task node -> nth_error ts' (w_task V (fn_id node)) = nth_error ts (w_task V (fn_id node))) -> shows h' ts' a V.
Proof.
  intros (fs & A & B & E) F G. exists fs. split; [eapply client_frame; [exact A|apply F; now left]|]. split; [|exact E].
  intros node I. destruct (B node I) as [X Y Z]. split.
  - intros Q. destruct (X Q) as (X1 & X2 & X3 & X4 & X5). split; [exact X1|]. split; [exact X2|]. split; [rewrite F; [exact X3|right; left; eauto]|]. split; [exact X4|].
    intros k p J. rewrite F; [now apply (X5 k)|]. right. left. exists node. split; [exact I|]. split; [exact Q|]. right. apply in_map_iff. now exists (k, p).
  - intros Q. destruct (Y Q) as (Y1 & Y2). split; [exact Y1|]. rewrite F; [exact Y2|right; right; eauto].
  - intros Q. destruct (Z Q) as (Z1 & Z2). split; [exact Z1|]. now rewrite G.
Qed.
Lemma owned_lt h ts a V b : shows h ts a V -> owned V a b -> b < List.length h.
Proof.
  intros (fs & (A & _) & B & _) [->|[(x & I & Q & R)|(x & I & Q & ->)]].
  - eapply nth_some_lt, A.
  - destruct (ns_async _ _ _ _ _ _ (B x I) Q) as (_ & _ & X3 & _ & X5). destruct R as [->|R]; [eapply nth_some_lt, X3|].
    apply in_map_iff in R as ([k p] & <- & R). eapply nth_some_lt, (X5 k p R).
  - destruct (ns_read _ _ _ _ _ _ (B x I) Q) as (_ & Y). eapply nth_some_lt, Y.
Qed.
Lemma shows_changes h h' ts a V : shows h ts a V -> changes h h' [] -> shows h' ts a V.
Proof. intros H [_ CH]. eapply shows_frame; [exact H| |reflexivity]. intros b O. apply CH; [eapply owned_lt; eassumption|easy]. Qed.

(** An asynchronous call: it is pending under the identity that was written. *)
Definition called (V : view) (id : string) (p : nat) : view :=
  set_pending (set_last V id (rd_rotate D (w_last V id))) id (without (w_last V id) (w_pending V id) ++ [(w_last V id, p)]).
Lemma upd_same {X} (f : string -> X) id x : upd f id x id = x.
Proof. unfold upd. now rewrite String.eqb_refl. Qed.
Lemma upd_other {X} (f : string -> X) id x i : i <> id -> upd f id x i = f i.
Proof. unfold upd. intros N. apply String.eqb_neq in N. now rewrite N. Qed.
Lemma shows_called h ts a V node fs' fs : In node nodes -> async_node node -> client_fields h a fs -> (forall x, In x nodes -> node_shows h ts a fs V x) -> separate V ->
  set_key (var_last_method_id node) (dint (rd_rotate D (w_last V (fn_id node)))) fs = Some fs' ->
  shows (set_cell (w_map V (fn_id node)) (CMap (map_put (w_last V (fn_id node)) (dref (List.length h)) (pend (w_pending V (fn_id node))))) (set_cell a (CObj C fs') h ++ [CDone None]))
    ts a (called V (fn_id node) (List.length h)).
Proof.
  intros I AN A B SP SK. destruct (last_not node I AN) as [NS NC]. set (id := fn_id node) in *. set (z := w_last V id) in *. set (m := w_map V id). set (p := List.length h).
  destruct (ns_async _ _ _ _ _ _ (B node I) AN) as (L1 & L2 & L3 & L4 & L5). fold id m in L1, L2, L3, L4, L5. fold z in L1.
  set (h' := set_cell m _ _).
  assert (MA : m <> a) by (intros ->; destruct A as (A & _); congruence).
  assert (PL : List.length (set_cell a (CObj C fs') h) = p) by (now rewrite set_cell_length).
  assert (ML : m < p) by (eapply nth_some_lt, L3).
  assert (HO : forall b c, b <> a -> b <> m -> nth_error h b = Some c -> nth_error h' b = Some c).
  { intros b c N1 N2 E. unfold h'. rewrite set_cell_other by congruence. rewrite nth_error_app1 by (rewrite PL; eapply nth_some_lt, E). rewrite set_cell_other by congruence. exact E. }
  assert (HM : nth_error h' m = Some (CMap (map_put z (dref p) (pend (w_pending V id))))).
  { unfold h'. apply set_cell_same. rewrite app_length, PL. cbn. clear - ML. lia. }
  assert (HP : nth_error h' p = Some (CDone None)).
  { unfold h'. rewrite set_cell_other by (clear - ML; lia). rewrite nth_error_app2, PL, Nat.sub_diag; [reflexivity|rewrite PL; reflexivity]. }
  assert (LO : forall n, var_last_method_id node <> n -> DartSem.lookup n fs' = DartSem.lookup n fs) by (intros n N; exact (lookup_set_other _ _ _ _ _ N SK)).
  assert (HA : client_fields h' a fs').
  { eapply client_frame; [apply (client_set h a fs fs' _ _ A SK NS)|]. unfold h'. rewrite set_cell_other by congruence. apply nth_error_app1.
    rewrite PL. destruct A as (A & _). eapply nth_some_lt, A. }
  assert (FP : forall x k, In x nodes -> async_node x -> ~ In (k, p) (w_pending V (fn_id x))).
  { intros x k J Q K. destruct (ns_async _ _ _ _ _ _ (B x J) Q) as (_ & _ & _ & _ & X5). specialize (X5 k p K). apply nth_some_lt in X5. unfold p in X5. clear - X5. lia. }
  exists fs'. split; [exact HA|]. split.
  - intros x J. destruct (B x J) as [X Y Z]. split.
    + intros Q. destruct (X Q) as (X1 & X2 & X3 & X4 & X5). unfold called, set_pending, set_last. cbn [w_last w_map w_pending].
      destruct (string_dec (fn_id x) id) as [E|NE].
      * assert (x = node) by (apply same_node; auto). subst x. fold id. rewrite !upd_same.
        split; [apply (lookup_set_same _ _ _ _ SK)|]. split; [rewrite (lookup_set_other _ _ _ _ _ NC SK); exact L2|]. split; [fold m; rewrite HM; now rewrite pend_put|]. split.
        -- rewrite map_app. apply NoDup_app_intro; [now apply without_nodup|repeat constructor; easy|]. intros k K [<-|[]].
           apply in_map_iff in K as ([k q] & E' & K). cbn in E'. subst k. apply in_without in K as [_ K]. now apply K.
        -- intros k q K. apply in_app_or in K as [K|[K|[]]]; [|injection K as <- <-; exact HP]. apply in_without in K as [K _].
           pose proof (L5 k q K) as Q5. apply HO; [intros ->; destruct A as (A & _); congruence|intros ->; congruence|exact Q5].
      * assert (NX : x <> node) by (intros ->; now apply NE).
        assert (O : forall n, In n (member_names (var_members x)) -> DartSem.lookup n fs' = DartSem.lookup n fs).
        { intros n K. apply LO. apply not_eq_sym. eapply other_field; [exact J|exact I|exact NX|exact K|]. rewrite (async_vars node AN). now left. }
        rewrite !upd_other by assumption. rewrite !O by (rewrite (async_vars x Q); cbn; tauto). split; [exact X1|]. split; [exact X2|]. split.
        -- apply HO; [intros E; rewrite E in X3; destruct A as (A & _); congruence|intros E; apply NX; now apply (sp_map V SP)|exact X3].
        -- split; [exact X4|]. intros k q K. pose proof (X5 k q K) as Q5. apply HO; [intros ->; destruct A as (A & _); congruence|intros ->; congruence|exact Q5].
    + intros Q. destruct (Y Q) as (Y1 & Y2). unfold called, set_pending, set_last. cbn [w_ctrl w_stream].
      assert (NX : x <> node) by (intros ->; now apply (not_both node)).
      rewrite LO.
      * split; [exact Y1|]. apply HO; [intros E; rewrite E in Y2; destruct A as (A & _); congruence|intros E; rewrite E in Y2; congruence|exact Y2].
      * apply not_eq_sym. eapply other_field; [exact J|exact I|exact NX| |rewrite (async_vars node AN); now left]. rewrite (read_vars x Q). cbn. tauto.
    + intros Q. destruct (Z Q) as (Z1 & Z2). unfold called, set_pending, set_last. cbn [w_task]. split; [|exact Z2].
      rewrite LO; [exact Z1|].
      destruct (task_kind x Q) as [KX|KX].
      * destruct (string_dec (fn_id x) id) as [E|NE].
        -- assert (x = node) by (apply same_node; auto). subst x. pose proof (var_nodup node I) as N. rewrite (async_vars node AN) in N.
           apply NoDup_cons_iff in N as [N _]. intros E'. apply N. rewrite E'. cbn. tauto.
        -- apply not_eq_sym. eapply (other_field x node); [exact J|exact I|intros ->; now apply NE| |rewrite (async_vars node AN); now left]. rewrite (async_vars x KX). cbn. tauto.
      * apply not_eq_sym. eapply (other_field x node); [exact J|exact I|intros ->; now apply (not_both node)| |rewrite (async_vars node AN); now left]. rewrite (read_vars x KX). cbn. tauto.
  - destruct SP as [S1 S2 S3]. split; [exact S1|exact S2|]. unfold called, set_pending, set_last. cbn [w_pending].
    assert (IN : forall x k q, In x nodes -> async_node x -> In (k, q) (upd (w_pending V) id (without z (w_pending V id) ++ [(z, p)]) (fn_id x)) ->
      In (k, q) (w_pending V (fn_id x)) \/ (x = node /\ k = z /\ q = p)).
    { intros x k q J Q K. destruct (string_dec (fn_id x) id) as [E|NE].
      - assert (x = node) by (apply same_node; auto). subst x. fold id in K |- *. rewrite upd_same in K. apply in_app_or in K as [K|[K|[]]]; [left; now apply in_without in K|].
        injection K as <- <-. right. auto.
      - rewrite upd_other in K by assumption. now left. }
    intros x y k k' q J J' Q Q' K K'. apply IN in K; [|assumption|assumption]. apply IN in K'; [|assumption|assumption].
    destruct K as [K|(-> & -> & EQ)], K' as [K'|(-> & -> & EQ')].
    + eapply S3; eassumption.
    + exfalso. rewrite EQ' in K. now apply (FP x k).
    + exfalso. rewrite EQ in K'. now apply (FP y k').
    + auto.
Qed.

(** A response: the call with its identity is no longer pending, its completer is completed, everything else stays. *)
Lemma shows_completed h ts a V node z w : In node nodes -> async_node node -> shows h ts a V ->
  let id := fn_id node in
  let h' := completed h (w_map V id) (pend (w_pending V id)) z w in
  shows h' ts a (set_pending V id (without z (w_pending V id))) /\
  (forall p, pending_at z (w_pending V id) = Some p -> nth_error h' p = Some (CDone (Some w))) /\
  (forall b, b <> w_map V id -> pending_at z (w_pending V id) <> Some b -> nth_error h' b = nth_error h b) /\ List.length h' = List.length h.
Proof.
  intros I AN (fs & A & B & SP) id h'. destruct (ns_async _ _ _ _ _ _ (B node I) AN) as (L1 & L2 & L3 & L4 & L5). fold id in L1, L2, L3, L4, L5.
  set (m := w_map V id) in *. set (l := w_pending V id) in *.
  set (h1 := match pending_at z l with Some p => set_cell p (CDone (Some w)) h | None => h end).
  assert (EH : h' = set_cell m (CMap (pend (without z l))) h1).
  { unfold h', completed, h1. rewrite pend_remove, pend_get. now destruct (pending_at z l). }
  assert (LH : List.length h1 = List.length h) by (unfold h1; destruct (pending_at z l); [now rewrite set_cell_length|reflexivity]).
  assert (PM : forall p, pending_at z l = Some p -> p <> m /\ nth_error h p = Some (CDone None)).
  { intros p E. pose proof (L5 z p (pending_in z l p E)) as Q. split; [intros ->; congruence|exact Q]. }
  assert (HO : forall b, b <> m -> pending_at z l <> Some b -> nth_error h' b = nth_error h b).
  { intros b N1 N2. rewrite EH, set_cell_other by congruence. unfold h1. destruct (pending_at z l) as [p|]; [|reflexivity]. apply set_cell_other. congruence. }
  assert (HM : nth_error h' m = Some (CMap (pend (without z l)))) by (rewrite EH; apply set_cell_same; rewrite LH; eapply nth_some_lt, L3).
  assert (HP : forall p, pending_at z l = Some p -> nth_error h' p = Some (CDone (Some w))).
  { intros p E. destruct (PM p E) as [N Q]. rewrite EH, set_cell_other by congruence. unfold h1. rewrite E. apply set_cell_same. eapply nth_some_lt, Q. }
  assert (HN : forall b c, nth_error h b = Some c -> c <> CDone None -> b <> m -> nth_error h' b = Some c).
  { intros b c E NC NM. rewrite HO; [exact E|exact NM|]. intros E'. destruct (PM b E') as [_ Q]. congruence. }
  split; [|split; [exact HP|split; [exact HO|rewrite EH, set_cell_length; exact LH]]].
  assert (HA : nth_error h' a = nth_error h a).
  { destruct A as (A & _). rewrite A. apply HN; [exact A|discriminate|intros ->; congruence]. }
  exists fs. split; [eapply client_frame; [exact A|exact HA]|]. split.
  - intros x J. destruct (B x J) as [X Y Z]. split; [| |exact Z].
    + intros Q. destruct (X Q) as (X1 & X2 & X3 & X4 & X5). unfold set_pending. cbn [w_last w_map w_pending]. split; [exact X1|]. split; [exact X2|].
      destruct (string_dec (fn_id x) id) as [E|NE].
      * rewrite E, upd_same. fold m. split; [exact HM|]. split; [now apply without_nodup|]. intros k p K. apply in_without in K as [K NK].
        rewrite HO; [now apply (L5 k)|intros ->; specialize (L5 k m K); congruence|]. intros E'. apply pending_in in E'. apply NK.
        now apply (sp_pending V SP node node k z p).
      * rewrite upd_other by assumption. assert (NX : x <> node) by (intros ->; now apply NE). split.
        -- apply HN; [exact X3|discriminate|]. intros E. apply NX. now apply (sp_map V SP).
        -- split; [exact X4|]. intros k p K. rewrite HO; [now apply (X5 k)|intros ->; specialize (X5 k m K); congruence|]. intros E'. apply pending_in in E'.
           apply NX. now apply (sp_pending V SP x node k z p).
    + intros Q. destruct (Y Q) as (Y1 & Y2). split; [exact Y1|]. apply HN; [exact Y2|discriminate|]. cbn [w_ctrl set_pending]. intros E. rewrite E in Y2. congruence.
  - destruct SP as [S1 S2 S3]. split; [exact S1|exact S2|]. unfold set_pending. cbn [w_pending].
    assert (IN : forall x k q, In (k, q) (upd (w_pending V) id (without z l) (fn_id x)) -> In (k, q) (w_pending V (fn_id x))).
    { intros x k q K. unfold upd in K. destruct (String.eqb_spec (fn_id x) id) as [->|]; [now apply in_without in K|exact K]. }
    intros x y k k' q J J' Q Q' K K'. apply IN in K. apply IN in K'. eapply S3; eassumption.
Qed.
(** A change of a stream. *)
Lemma shows_stream h ts a V node l o : In node nodes -> read_node node -> shows h ts a V ->
  shows (set_cell (w_ctrl V (fn_id node)) (CStream l o) h) ts a (set_stream V (fn_id node) (l, o)).
Proof.
  intros I RN (fs & A & B & SP). destruct (ns_read _ _ _ _ _ _ (B node I) RN) as (L1 & L2). set (b := w_ctrl V (fn_id node)) in *.
  assert (HO : forall x c, nth_error h x = Some c -> (forall l o, c <> CStream l o) -> nth_error (set_cell b (CStream l o) h) x = Some c).
  { intros x c E N. rewrite set_cell_other; [exact E|]. intros <-. rewrite E in L2. injection L2 as ->. now apply (N (fst (w_stream V (fn_id node))) (snd (w_stream V (fn_id node)))). }
  exists fs. split; [eapply client_frame; [exact A|destruct A as (A & _); rewrite A; apply HO; [exact A|discriminate]]|]. split; [|destruct SP as [S1 S2 S3]; split; [exact S1|exact S2|exact S3]].
  - intros x J. destruct (B x J) as [X Y Z]. split; [| |exact Z].
    + intros Q. destruct (X Q) as (X1 & X2 & X3 & X4 & X5). cbn [w_last w_map w_pending set_stream]. split; [exact X1|]. split; [exact X2|].
      split; [apply HO; [exact X3|discriminate]|]. split; [exact X4|]. intros k p K. apply HO; [now apply (X5 k)|discriminate].
    + intros Q. destruct (Y Q) as (Y1 & Y2). cbn [w_ctrl w_stream set_stream]. split; [exact Y1|]. destruct (string_dec (fn_id x) (fn_id node)) as [E|NE].
      * rewrite E, upd_same. apply set_cell_same. eapply nth_some_lt, L2.
      * rewrite upd_other by assumption. rewrite set_cell_other; [exact Y2|]. intros E. apply NE. f_equal. now apply (sp_ctrl V SP).
Qed.

(** *** The constructor *)

Lemma set_cell_twice a c c' h : set_cell a c (set_cell a c' h) = set_cell a c h.
Proof. revert a. induction h as [|x h IH]; intros [|a]; cbn; [reflexivity|reflexivity|reflexivity|]. now rewrite IH. Qed.
Definition with_task (l : list fn_node) : list fn_node := filter is_async_or_read l.
Definition vars (l : list fn_node) : list string := flat_map (fun node => member_names (var_members node)) l.
Lemma task_var node : has_task node -> In (var_read_task node) (member_names (var_members node)).
Proof. intros T. destruct (task_kind node T) as [Q|Q]; [rewrite (async_vars node Q)|rewrite (read_vars node Q)]; cbn; tauto. Qed.
Lemma connect_all n a l : forall fs s, incl l nodes -> NoDup (vars l) -> client_fields (d_heap s) a fs ->
  (forall node, In node l -> has_task node -> In (var_read_task node) (map fst fs)) -> exists fs',
  run (S (S n)) (self a) (flat_map connect_call l) [] s =
    DDone [] (set_dtasks (d_tasks s ++ map (fun node => Some (node_task node a)) (with_task l)) (set_heap (set_cell a (CObj C fs') (d_heap s)) s)) /\
  client_fields (set_cell a (CObj C fs') (d_heap s)) a fs' /\
  (forall x, (forall node, In node l -> has_task node -> x <> var_read_task node) -> DartSem.lookup x fs' = DartSem.lookup x fs) /\
  (forall node, In node l -> has_task node -> exists k, DartSem.lookup (var_read_task node) fs' = Some (dtask k) /\
     nth_error (d_tasks s ++ map (fun node => Some (node_task node a)) (with_task l)) k = Some (Some (node_task node a))).
Proof.
  induction l as [|x l IH]; intros fs s IN ND A KE.
  - exists fs. assert (E : set_cell a (CObj C fs) (d_heap s) = d_heap s).
    { destruct A as (A & _). clear - A. revert a A. generalize (d_heap s). induction h as [|c h IH]; intros [|a] A; try discriminate A; [cbn in *; congruence|]. cbn. f_equal. now apply IH. }
    cbn [flat_map with_task filter map]. rewrite E, app_nil_r. split; [now destruct s|]. split; [exact A|]. split; [reflexivity|]. intros node [].
  - unfold vars in ND. cbn [flat_map] in ND. pose proof (NoDup_app_remove_l _ _ ND) as ND2. cbn [flat_map]. unfold connect_call at 1. destruct (is_async_or_read x) eqn:HT.
    + assert (IX : In x nodes) by (apply IN; now left). assert (KX : exists v, DartSem.lookup (var_read_task x) fs = Some v).
      { destruct (DartSem.lookup (var_read_task x) fs) as [v|] eqn:L; [eauto|]. exfalso. specialize (KE x (or_introl eq_refl) HT). clear - KE L.
        induction fs as [|[y w] fs IH]; [destruct KE|]. cbn [DartSem.lookup] in L. destruct (String.eqb_spec (var_read_task x) y) as [E0|N]; [discriminate|]. apply IH; [|exact L]. destruct KE as [E|KE]; [cbn [fst] in E; congruence|exact KE]. }
      destruct KX as [v L]. destruct (connect n a fs x v s IX HT A L) as (fs1 & SK & E1).
      set (s1 := set_dtasks (d_tasks s ++ [Some (node_task x a)]) (set_heap (set_cell a (CObj C fs1) (d_heap s)) s)) in *.
      assert (A1 : client_fields (d_heap s1) a fs1) by (apply (client_set _ _ _ _ _ _ A SK); now apply task_not_scheduler).
      destruct (IH fs1 s1) as (fs' & E2 & A2 & O2 & T2); [intros y J; apply IN; now right|exact ND2|exact A1| |].
      { intros node J Q. rewrite (set_key_names _ _ _ _ SK). apply KE; [now right|exact Q]. }
      assert (EH : set_cell a (CObj C fs') (d_heap s1) = set_cell a (CObj C fs') (d_heap s)) by (cbn [s1 d_heap set_dtasks set_heap]; apply set_cell_twice).
      rewrite EH in E2, A2.
      assert (ET : d_tasks s1 ++ map (fun node => Some (node_task node a)) (with_task l) = d_tasks s ++ map (fun node => Some (node_task node a)) (with_task (x :: l))).
      { cbn [s1 d_tasks set_dtasks with_task filter]. rewrite HT. cbn [map]. now rewrite <- app_assoc. }
      rewrite ET in E2, T2. exists fs'. split; [|split; [exact A2|split]].
      * cbn [app]. erewrite run_expr by exact E1. rewrite E2. now destruct s.
      * intros y N. rewrite O2 by (intros node J Q; apply N; [now right|exact Q]). apply (lookup_set_other _ _ _ _ _ (not_eq_sym (N x (or_introl eq_refl) HT)) SK).
      * intros node [<-|J] Q; [|now apply T2]. exists (List.length (d_tasks s)). split.
        -- rewrite O2; [apply (lookup_set_same _ _ _ _ SK)|]. intros node J Q' E. eapply (NoDup_app_disjoint _ _ (var_read_task x) ND); [now apply task_var|].
           apply in_flat_map. exists node. split; [exact J|]. rewrite E. now apply task_var.
        -- rewrite nth_error_app2, Nat.sub_diag by reflexivity. unfold with_task. cbn [filter]. rewrite HT. reflexivity.
    + destruct (IH fs s) as (fs' & E2 & A2 & O2 & T2); [intros y J; apply IN; now right|exact ND2|exact A|intros node J Q; apply KE; [now right|exact Q]|].
      assert (EW : with_task (x :: l) = with_task l) by (unfold with_task; cbn [filter]; now rewrite HT).
      rewrite EW. exists fs'. split; [exact E2|]. split; [exact A2|]. split.
      * intros y N. apply O2. intros node J. apply N. now right.
      * intros node [<-|J] Q; [unfold has_task in Q; congruence|now apply T2].
Qed.

Lemma dmapM_app {A B} (f : A -> dM B) l1 l2 : forall s, dmapM f (l1 ++ l2) s = dbind (dmapM f l1) (fun a => dbind (dmapM f l2) (fun b => dret (a ++ b))) s.
Proof.
  induction l1 as [|x l1 IH]; intros s.
  - cbn [app]. unfold dbind, dret. cbn [dmapM]. unfold dret. now destruct (dmapM f l2 s).
  - cbn [app]. rewrite !dmapM_cons. unfold dbind, dret in *. destruct (f x s) as [b s1| | | | |]; try reflexivity. rewrite IH. destruct (dmapM f l1 s1) as [c s2| | | | |]; try reflexivity.
    destruct (dmapM f l2 s2); reflexivity.
Qed.
(** The initial values of the fields of a method. *)
Definition inits (fs : list (string * option dex)) : list (string * dex) := flat_map (fun '(n, o) => match o with Some e => [(n, e)] | None => [] end) fs.
Definition node_inits (node : fn_node) : list (string * dex) := inits (instance_fields (var_members node)).
Notation init K := (fun '(n, e) => dd v <- DartSem.ev D items K None e []; dret (n, v)).
Lemma async_inits x : async_node x -> node_inits x = [(var_last_method_id x, DNum "0"); (var_method_completers x, DMap [ty0 "int"; DTy "Completer" [ret_ty (fn_return x)]])].
Proof. intros (A & B). unfold node_inits, var_members, is_async_or_read. now rewrite A, B. Qed.
Lemma read_inits x : read_node x -> node_inits x = [(var_read_stream_controller x, DPost (DName "StreamController" [ret_ty (fn_return x)]) [XMeth "broadcast" [] [] false])].
Proof. intros A. unfold node_inits, var_members, is_async_or_read. rewrite A, andb_false_r, orb_true_r. reflexivity. Qed.
Lemma sync_inits x : ~ async_node x -> ~ read_node x -> node_inits x = [].
Proof.
  unfold async_node, read_node, node_inits, var_members, is_async_or_read. destruct (fn_is_read x); [congruence|]. destruct (fn_is_async x); [tauto|reflexivity].
Qed.
Lemma node_cases x : async_node x \/ read_node x \/ (~ async_node x /\ ~ read_node x).
Proof. unfold async_node, read_node. destruct (fn_is_async x), (fn_is_read x); intuition congruence. Qed.
Lemma new_stream K ts s : DartSem.ev D items K None (DPost (DName "StreamController" ts) [XMeth "broadcast" [] [] false]) [] s =
  DDone (dref (List.length (d_heap s))) (set_heap (d_heap s ++ [CStream [] true]) s).
Proof.
  assert (N : DartSem.name_value items K None "StreamController" [] s = DDone None s).
  { unfold DartSem.name_value. cbn [DartSem.lookup String.eqb Ascii.eqb Bool.eqb]. cbn [own_members find_static]. rewrite find_const_none by (apply libs; cbn; tauto). reflexivity. }
  change (DartSem.ev D items K None (DPost (var "StreamController") [XMeth "broadcast" [] [] false]) [] s = DDone (dref (List.length (d_heap s))) (set_heap (d_heap s ++ [CStream [] true]) s)).
  change (DPost (var "StreamController") [XMeth "broadcast" [] [] false]) with (call (var "StreamController") "broadcast" []).
  rewrite (ev_static D items K None "StreamController" "broadcast" [] s N). unfold call_static, has_class. rewrite find_class_none by (apply libs; cbn; tauto). reflexivity.
Qed.
Definition kinds (h : heap) (vals : list (string * dval)) (node : fn_node) : Prop :=
  (async_node node -> In (var_last_method_id node, dint 0) vals /\ exists m, In (var_method_completers node, dref m) vals /\ nth_error h m = Some (CMap [])) /\
  (read_node node -> exists b, In (var_read_stream_controller node, dref b) vals /\ nth_error h b = Some (CStream [] true)).
Lemma kinds_more h h' vals vals' node : kinds h vals node -> changes h h' [] -> incl vals vals' -> kinds h' vals' node.
Proof.
  intros (X & Y) CH IN. split.
  - intros Q. destruct (X Q) as (X1 & m & X2 & X3). split; [now apply IN|]. exists m. split; [now apply IN|]. eapply changes_nth; [exact CH|easy|exact X3].
  - intros Q. destruct (Y Q) as (b & Y1 & Y2). exists b. split; [now apply IN|]. eapply changes_nth; [exact CH|easy|exact Y2].
Qed.
Lemma init_all K l : forall s, exists vals h',
  dmapM (init K) (flat_map node_inits l) s = DDone vals (set_heap h' s) /\ changes (d_heap s) h' [] /\
  map fst vals = map fst (flat_map node_inits l) /\ (forall node, In node l -> kinds h' vals node) /\
  (forall x m, In (x, dref m) vals -> fresh (d_heap s) h' m) /\
  (NoDup (map fst vals) -> forall x y m, In (x, dref m) vals -> In (y, dref m) vals -> x = y).
Proof.
  induction l as [|node l IH]; intros s.
  - exists [], (d_heap s). split; [cbn; now destruct s|]. split; [apply changes_refl|]. split; [reflexivity|]. split; [intros node []|]. split; [intros x m []|]. intros _ x y m [].
  - cbn [flat_map].
    assert (X : exists vals h', dmapM (init K) (node_inits node) s = DDone vals (set_heap h' s) /\ changes (d_heap s) h' [] /\ map fst vals = map fst (node_inits node) /\ kinds h' vals node /\
      (forall x m, In (x, dref m) vals -> fresh (d_heap s) h' m) /\ (forall x y m, In (x, dref m) vals -> In (y, dref m) vals -> x = y)).
    { destruct (node_cases node) as [Q|[Q|[Q Q']]].
      - rewrite (async_inits node Q). exists [(var_last_method_id node, dint 0); (var_method_completers node, dref (List.length (d_heap s)))], (d_heap s ++ [CMap []]).
        split; [reflexivity|]. split; [apply changes_alloc|]. split; [reflexivity|]. split; [split|split].
        + intros _. split; [now left|]. exists (List.length (d_heap s)). split; [right; now left|]. rewrite nth_error_app2, Nat.sub_diag by reflexivity. reflexivity.
        + intros R. now destruct (not_both node Q R).
        + intros x m [E|[E|[]]]; [discriminate E|]. injection E as <- <-. unfold fresh. rewrite app_length. cbn. lia.
        + intros x y m [E|[E|[]]] [E'|[E'|[]]]; try discriminate E; try discriminate E'. injection E as <- _. injection E' as <- _. reflexivity.
      - rewrite (read_inits node Q). exists [(var_read_stream_controller node, dref (List.length (d_heap s)))], (d_heap s ++ [CStream [] true]).
        split; [|split; [apply changes_alloc|split; [reflexivity|split; [split|split]]]].
        + rewrite dmapM_cons. unfold dbind at 1 2. rewrite new_stream. reflexivity.
        + intros R. now destruct (not_both node R Q).
        + intros _. exists (List.length (d_heap s)). split; [now left|]. rewrite nth_error_app2, Nat.sub_diag by reflexivity. reflexivity.
        + intros x m [E|[]]; injection E as <- <-. unfold fresh. rewrite app_length. cbn. lia.
        + intros x y m [E|[]] [E'|[]]. injection E as <- _. injection E' as <- _. reflexivity.
      - rewrite (sync_inits node Q Q'). exists [], (d_heap s). split; [cbn; now destruct s|]. split; [apply changes_refl|]. split; [reflexivity|]. split; [split; intros R; contradiction|].
        split; [intros x m []|intros x y m []]. }
    destruct X as (v1 & h1 & E1 & C1 & N1 & K1 & F1 & I1). destruct (IH (set_heap h1 s)) as (v2 & h2 & E2 & C2 & N2 & K2 & F2 & I2). cbn [d_heap set_heap] in *.
    exists (v1 ++ v2), h2. split; [|split; [eapply changes_trans; eassumption|split; [rewrite !map_app, N1, N2; reflexivity|split; [|split]]]].
    + rewrite dmapM_app. rewrite (dbind_done _ _ s _ _ E1). rewrite (dbind_done _ _ _ _ _ E2). unfold dret. now destruct s.
    + intros x [<-|J]; [eapply kinds_more; [exact K1|exact C2|apply incl_appl, incl_refl]|eapply kinds_more; [now apply K2|apply changes_refl|apply incl_appr, incl_refl]].
    + intros x m J. destruct C1 as [L1 _], C2 as [L2 _]. apply in_app_or in J as [J|J]; [apply F1 in J|apply F2 in J]; unfold fresh in *; lia.
    + intros ND x y m J J'. rewrite map_app in ND. apply in_app_or in J as [J|J], J' as [J'|J'].
      * now apply (I1 x y m).
      * apply F1 in J. apply F2 in J'. unfold fresh in *. lia.
      * apply F2 in J. apply F1 in J'. unfold fresh in *. lia.
      * apply (I2 (NoDup_app_remove_l _ _ ND) x y m); assumption.
Qed.
Definition ref_of (v : option dval) : nat := match v with Some (dref m) => m | _ => 0 end.
Definition task_of (v : option dval) : nat := match v with Some (dtask k) => k | _ => 0 end.
(** The state of a new client with the fields [fs]. *)
Definition view_of (fs : list (string * dval)) : view :=
  mk_view (fun _ => 0%Z) (fun id => ref_of (DartSem.lookup ("_" ++ camel id ++ "Completers")%string fs)) (fun _ => [])
    (fun id => ref_of (DartSem.lookup ("_read" ++ pascal id ++ "StreamController")%string fs)) (fun _ => ([], true))
    (fun id => task_of (DartSem.lookup ("_read" ++ pascal id ++ "Task")%string fs)).
Lemma instance_fields_app l1 l2 : instance_fields (l1 ++ l2) = instance_fields l1 ++ instance_fields l2.
Proof. apply flat_map_app. Qed.
Lemma no_fields (f : fn_node -> list dmember) l : (forall x, instance_fields (f x) = []) -> instance_fields (flat_map f l) = [].
Proof. intros H. induction l as [|x l IH]; [reflexivity|]. cbn [flat_map]. now rewrite instance_fields_app, H, IH. Qed.
Lemma instance_fields_client : instance_fields ms = ("_scheduler", None) :: flat_map (fun node => instance_fields (var_members node)) nodes.
Proof.
  unfold client_members. rewrite !instance_fields_app. cbn [app instance_fields flat_map]. f_equal.
  rewrite (no_fields getter_members) by (intros x; unfold getter_members; now destruct (fn_is_read x)).
  rewrite (no_fields method_members).
  2: { intros x. unfold method_members. destruct (fn_is_read x); [reflexivity|]. destruct (fn_is_async x); reflexivity. }
  rewrite !app_nil_r. unfold instance_fields. apply flat_map_flat_map.
Qed.
Lemma inits_app l1 l2 : inits (l1 ++ l2) = inits l1 ++ inits l2.
Proof. apply flat_map_app. Qed.
Lemma inits_nodes l : inits (flat_map (fun node => instance_fields (var_members node)) l) = flat_map node_inits l.
Proof. induction l as [|x l IH]; [reflexivity|]. cbn [flat_map]. now rewrite inits_app, IH. Qed.
Lemma inits_names fs n : In n (map fst (inits fs)) -> In n (map fst fs).
Proof.
  induction fs as [|[x [e|]] fs IH]; cbn; [easy| |]; [intros [E|I]; [now left|right; now apply IH]|right; now apply IH].
Qed.
Lemma inits_nodup fs : NoDup (map fst fs) -> NoDup (map fst (inits fs)).
Proof.
  induction fs as [|[x o] fs IH]; intros N; [constructor|]. cbn in N. apply NoDup_cons_iff in N as [N1 N]. destruct o as [e|]; [|now apply IH].
  cbn. constructor; [|now apply IH]. intros I. apply N1. now apply inits_names.
Qed.
Lemma lookup_field_values n fs vals : In n (map fst fs) ->
  DartSem.lookup n (field_values fs vals) = Some match DartSem.lookup n vals with Some v => v | None => dlate end.
Proof.
  induction fs as [|[x o] fs IH]; intros I; [destruct I|]. unfold field_values in *. cbn [map DartSem.lookup]. destruct (String.eqb_spec n x) as [->|N]; [reflexivity|].
  apply IH. destruct I as [E|I]; [cbn in E; congruence|exact I].
Qed.
Lemma field_values_names fs vals : map fst (field_values fs vals) = map fst fs.
Proof. unfold field_values. rewrite map_map. apply map_ext. now intros []. Qed.
Lemma construct n s : exists a h' V,
  new_with D items (KK (S (S n))) C [(None, dsched)] s =
    DDone (dref a) (set_dtasks (d_tasks s ++ map (fun node => Some (node_task node a)) (with_task nodes)) (set_heap h' s)) /\
  changes (d_heap s) h' [] /\
  shows h' (d_tasks s ++ map (fun node => Some (node_task node a)) (with_task nodes)) a V /\
  (forall b, owned V a b -> fresh (d_heap s) h' b) /\
  (forall node, In node nodes -> has_task node ->
    nth_error (d_tasks s ++ map (fun node => Some (node_task node a)) (with_task nodes)) (w_task V (fn_id node)) = Some (Some (node_task node a))) /\
  (forall id, w_last V id = 0%Z /\ w_pending V id = [] /\ w_stream V id = ([], true)).
Proof.
  destruct (init_all (KK (S (S n))) nodes s) as (vals & h1 & E1 & C1 & N1 & K1 & F1 & I1).
  assert (NF : NoDup (map fst (instance_fields ms))) by (apply fields_nodup, members_nodup).
  assert (NV : NoDup (map fst vals)).
  { rewrite N1, <- inits_nodes. apply inits_nodup. rewrite instance_fields_client in NF. cbn [map] in NF. now apply NoDup_cons_iff in NF as [_ NF]. }
  assert (IV : forall x, In x (map fst vals) -> In x (map fst (instance_fields ms)) /\ x <> "_scheduler").
  { intros x J. rewrite N1, <- inits_nodes in J. apply inits_names in J. rewrite instance_fields_client in NF |- *. cbn [map fst] in NF |- *. apply NoDup_cons_iff in NF as [NF _]. split; [now right|]. intros ->. now apply NF. }
  set (fs0 := field_values (instance_fields ms) ([("_scheduler", dsched)] ++ vals)).
  assert (L0 : forall x v, In (x, v) vals -> DartSem.lookup x fs0 = Some v).
  { intros x v J. assert (J' : In x (map fst vals)) by (apply in_map_iff; now exists (x, v)). destruct (IV x J') as [J1 J2].
    unfold fs0. rewrite lookup_field_values by exact J1. cbn [app DartSem.lookup]. rewrite (proj2 (String.eqb_neq _ _) J2). now rewrite (lookup_in vals x v NV J). }
  set (a := List.length h1). set (s1 := set_heap (h1 ++ [CObj C fs0]) s).
  assert (A0 : client_fields (d_heap s1) a fs0).
  { cbn [s1 d_heap set_heap]. split; [unfold a; rewrite nth_error_app2, Nat.sub_diag by reflexivity; reflexivity|]. split; [unfold fs0; apply field_values_names|].
    unfold fs0. rewrite lookup_field_values; [reflexivity|]. rewrite instance_fields_client. now left. }
  destruct (connect_all n a nodes fs0 s1) as (fs & E2 & A2 & O2 & T2); [apply incl_refl|pose proof var_names_nodup as N; now apply NoDup_cons_iff in N as [_ N]|exact A0| |].
  { intros node I HT. unfold fs0. rewrite field_values_names, instance_fields_client. right. apply in_map_iff. exists (var_read_task node, None). split; [reflexivity|].
    apply in_flat_map. exists node. split; [exact I|]. unfold var_members. rewrite HT, !instance_fields_app, !in_app_iff. right. left. now left. }
  cbn [s1 d_heap d_tasks set_heap] in E2, A2, T2. set (h2 := set_cell a (CObj C fs) (h1 ++ [CObj C fs0])) in *.
  assert (H2 : forall b, b <> a -> nth_error h2 b = nth_error h1 b).
  { intros b N. unfold h2. rewrite set_cell_other by congruence. destruct (Nat.lt_ge_cases b (List.length h1)) as [L|L]; [now apply nth_error_app1|].
    rewrite (proj2 (nth_error_None h1 b) L). apply nth_error_None. rewrite app_length. cbn. fold a. unfold a in *. lia. }
  assert (LH : List.length h2 = S (List.length h1)) by (unfold h2; rewrite set_cell_length, app_length; cbn; lia).
  assert (C2 : changes h1 h2 []). { split; [lia|]. intros b L _. apply H2. unfold a. lia. }
  assert (NT : forall x node, In node nodes -> has_task node -> In x (map fst vals) -> x <> var_read_task node).
  { intros x node I HT J ->. rewrite N1 in J. apply in_map_iff in J as ([y e] & E & J). cbn in E. subst y. apply in_flat_map in J as (node' & I' & J).
    assert (Q : In (var_read_task node) (member_names (var_members node'))).
    { apply fields_members. apply inits_names. apply in_map_iff. eexists. split; [|exact J]. reflexivity. }
    assert (node = node') as <- by (eapply var_unique; [exact I|exact I'|now apply task_var|exact Q]).
    destruct (task_kind node HT) as [R|R].
    - rewrite (async_inits node R) in J. pose proof (var_nodup node I) as ND. rewrite (async_vars node R) in ND. apply NoDup_cons_iff in ND as [ND1 ND]. apply NoDup_cons_iff in ND as [ND2 _].
      destruct J as [J|[J|[]]]; apply (f_equal fst) in J; cbn [fst] in J; [apply ND1; rewrite J; right; now left|apply ND2; rewrite J; now left].
    - rewrite (read_inits node R) in J. pose proof (var_nodup node I) as ND. rewrite (read_vars node R) in ND. apply NoDup_cons_iff in ND as [ND1 _].
      destruct J as [J|[]]. apply (f_equal fst) in J. cbn [fst] in J. apply ND1. rewrite J. now left. }
  assert (L2 : forall x v, In (x, v) vals -> DartSem.lookup x fs = Some v).
  { intros x v J. rewrite O2; [now apply L0|]. intros node I HT. apply NT; [exact I|exact HT|]. apply in_map_iff. now exists (x, v). }
  assert (ASY : forall node, In node nodes -> async_node node -> exists m, In (var_method_completers node, dref m) vals /\ w_map (view_of fs) (fn_id node) = m /\
      nth_error h2 m = Some (CMap []) /\ In (var_last_method_id node, dint 0) vals /\ fresh (d_heap s) h1 m).
  { intros node I R. destruct (proj1 (K1 node I) R) as (Q1 & m & Q2 & Q3). exists m. split; [exact Q2|]. split; [|split; [eapply changes_nth; [exact C2|easy|exact Q3]|split; [exact Q1|now apply (F1 _ _ Q2)]]].
    unfold view_of. cbn [w_map]. change (("_" ++ camel (fn_id node) ++ "Completers")%string) with (var_method_completers node). now rewrite (L2 _ _ Q2). }
  assert (RDS : forall node, In node nodes -> read_node node -> exists m, In (var_read_stream_controller node, dref m) vals /\ w_ctrl (view_of fs) (fn_id node) = m /\
      nth_error h2 m = Some (CStream [] true) /\ fresh (d_heap s) h1 m).
  { intros node I R. destruct (proj2 (K1 node I) R) as (m & Q2 & Q3). exists m. split; [exact Q2|]. split; [|split; [eapply changes_nth; [exact C2|easy|exact Q3]|now apply (F1 _ _ Q2)]].
    unfold view_of. cbn [w_ctrl]. change (("_read" ++ pascal (fn_id node) ++ "StreamController")%string) with (var_read_stream_controller node). now rewrite (L2 _ _ Q2). }
  assert (TSK : forall node, In node nodes -> has_task node -> DartSem.lookup (var_read_task node) fs = Some (dtask (w_task (view_of fs) (fn_id node))) /\
      nth_error (d_tasks s ++ map (fun node => Some (node_task node a)) (with_task nodes)) (w_task (view_of fs) (fn_id node)) = Some (Some (node_task node a))).
  { intros node I HT. destruct (T2 node I HT) as (k & Q1 & Q2). unfold view_of. cbn [w_task]. change (("_read" ++ pascal (fn_id node) ++ "Task")%string) with (var_read_task node). rewrite Q1. cbn [task_of]. now split. }
  exists a, h2, (view_of fs). split; [|split; [eapply changes_trans; eassumption|split; [|split; [|split]]]].
  - unfold new_with. rewrite FC. change (find_ctor ms) with (Ctor (PPos [(None, "_scheduler")] false) match flat_map connect_call nodes with [] => None | l => Some l end).
    cbn [param_list is_this fst forallb bind_params bind_pos andb].
    assert (EI : initialisers D items (KK (S (S n))) (instance_fields ms) s = DDone vals (set_heap h1 s)).
    { unfold initialisers. fold (inits (instance_fields ms)). rewrite instance_fields_client. change (inits (("_scheduler", None) :: ?l)) with (inits l). rewrite inits_nodes. exact E1. }
    rewrite (dbind_done _ _ s vals (set_heap h1 s) EI). fold fs0.
    rewrite (dbind_done _ _ (set_heap h1 s) (dref a) s1) by reflexivity.
    destruct (flat_map connect_call nodes) as [|c l] eqn:EC.
    + pose proof (f_equal (fun r => match r with DDone _ q => q | _ => s1 end) E2) as E3. cbn [dchain] in E3. unfold dret in E3. unfold dret. rewrite E3. now destruct s.
    + rewrite (dbind_done _ _ s1 dnull _ (body_done D items (KK (S (S n))) (self a) (c :: l) [] s1 _ _ E2)). unfold dret. now destruct s.
  - exists fs. split; [exact A2|]. split.
    + intros node I. split.
      * intros R. destruct (ASY node I R) as (m & Q1 & Q2 & Q3 & Q4 & _). rewrite Q2. split; [now apply L2|]. split; [now apply L2|]. split; [exact Q3|]. split; [constructor|]. intros k p [].
      * intros R. destruct (RDS node I R) as (m & Q1 & Q2 & Q3 & _). rewrite Q2. split; [now apply L2|exact Q3].
      * intros R. destruct (TSK node I R) as [Q1 Q2]. split; [exact Q1|now left].
    + split.
      * intros x y I J R R' E. destruct (ASY x I R) as (m & Q1 & Q2 & _), (ASY y J R') as (m' & Q1' & Q2' & _). rewrite Q2, Q2' in E. subst m'.
        pose proof (I1 NV _ _ _ Q1 Q1') as EN. eapply (var_unique x y (var_method_completers x)); [exact I|exact J|rewrite (async_vars x R); cbn; tauto|rewrite EN, (async_vars y R'); cbn; tauto].
      * intros x y I J R R' E. destruct (RDS x I R) as (m & Q1 & Q2 & _), (RDS y J R') as (m' & Q1' & Q2' & _). rewrite Q2, Q2' in E. subst m'.
        pose proof (I1 NV _ _ _ Q1 Q1') as EN. eapply (var_unique x y (var_read_stream_controller x)); [exact I|exact J|rewrite (read_vars x R); cbn; tauto|rewrite EN, (read_vars y R'); cbn; tauto].
      * intros x y k k' p _ _ _ _ [].
  - intros b [->|[(x & I & R & [->|[]])|(x & I & R & ->)]].
    + unfold fresh. destruct C1 as [L _]. unfold a. lia.
    + destruct (ASY x I R) as (m & _ & -> & _ & _ & Q). unfold fresh in *. lia.
    + destruct (RDS x I R) as (m & _ & -> & _ & Q). unfold fresh in *. lia.
  - intros node I HT. now apply TSK.
  - intros id. repeat split.
Qed.

(** *** Disconnecting *)

Lemma invoke_in n a fs t m ps b vs en s : client_fields (d_heap s) a fs -> In (MMeth false t m ps b) ms ->
  bind_params ps vs = Some en -> method D items (KK (S n)) (dref a) m vs s = ev_body D items (KK n) (self a) b en s.
Proof.
  intros (A & _ & _) J B. cbn [method]. rewrite (dbind_done _ _ s (CObj C fs) s) by (unfold get_cell; now rewrite A).
  change (k_invoke (KK (S n))) with (invoke_with D items (KK n)). unfold invoke_with.
  rewrite FC, (find_meth_in ms false _ _ _ _ members_nodup J). now rewrite B.
Qed.
Fixpoint closes (l : list fn_node) (V : view) : view :=
  match l with
  | [] => V
  | x :: l' => closes l' (if fn_is_read x then set_stream V (fn_id x) (fst (w_stream V (fn_id x)), false) else V)
  end.
Lemma closes_same l : forall V, w_last (closes l V) = w_last V /\ w_map (closes l V) = w_map V /\ w_pending (closes l V) = w_pending V /\
  w_ctrl (closes l V) = w_ctrl V /\ w_task (closes l V) = w_task V.
Proof. induction l as [|x l IH]; intros V; [repeat split|]. cbn [closes]. destruct (fn_is_read x); [|apply IH]. destruct (IH (set_stream V (fn_id x) (fst (w_stream V (fn_id x)), false))) as (-> & -> & -> & -> & ->). repeat split. Qed.
Lemma closes_values l id : forall V, fst (w_stream (closes l V) id) = fst (w_stream V id).
Proof.
  induction l as [|x l IH]; intros V; [reflexivity|]. cbn [closes]. rewrite IH. destruct (fn_is_read x); [|reflexivity]. cbn [set_stream w_stream]. unfold upd.
  destruct (String.eqb_spec id (fn_id x)) as [->|]; reflexivity.
Qed.
Lemma closes_kept l id : forall V, snd (w_stream V id) = false -> snd (w_stream (closes l V) id) = false.
Proof.
  induction l as [|x l IH]; intros V E; [exact E|]. cbn [closes]. apply IH. destruct (fn_is_read x); [|exact E]. cbn [set_stream w_stream]. unfold upd. now destruct (String.eqb id (fn_id x)).
Qed.
Lemma closes_closed l x : In x l -> fn_is_read x = true -> forall V, snd (w_stream (closes l V) (fn_id x)) = false.
Proof.
  induction l as [|y l IH]; intros I R V; [destruct I|]. cbn [closes]. destruct I as [->|I]; [|now apply IH]. rewrite R. apply closes_kept. cbn [set_stream w_stream]. now rewrite upd_same.
Qed.
Lemma cut_same (ts : list (option task)) k : k < List.length ts -> nth_error (firstn k ts ++ [None] ++ skipn (S k) ts) k = Some None.
Proof. intros L. rewrite nth_error_app2; rewrite firstn_length_le by lia; [now rewrite Nat.sub_diag|reflexivity]. Qed.
Lemma cut_other (ts : list (option task)) k i : k < List.length ts -> i <> k -> nth_error (firstn k ts ++ [None] ++ skipn (S k) ts) i = nth_error ts i.
Proof.
  intros L N. assert (X : skipn k ts = nth k ts None :: skipn (S k) ts).
  { clear N. revert k L. induction ts as [|x ts IH]; intros [|k] L; cbn in *; try lia; [reflexivity|]. apply IH. lia. }
  transitivity (nth_error (firstn k ts ++ nth k ts None :: skipn (S k) ts) i); [|now rewrite <- X, firstn_skipn].
  assert (LF : List.length (firstn k ts) = k) by (apply firstn_length_le; lia). destruct (Nat.lt_ge_cases i k) as [J|J].
  - rewrite nth_error_app1 by lia. symmetry. now apply nth_error_app1; lia.
  - rewrite (nth_error_app2 (firstn k ts) ([None] ++ skipn (S k) ts)), (nth_error_app2 (firstn k ts) (nth k ts None :: skipn (S k) ts)) by lia. rewrite LF. destruct (i - k) as [|j] eqn:E; [lia|]. reflexivity.
Qed.
Lemma cut_none (ts : list (option task)) k i : k < List.length ts -> nth_error ts i = Some None -> nth_error (firstn k ts ++ [None] ++ skipn (S k) ts) i = Some None.
Proof. intros L E. destruct (Nat.eq_dec i k) as [->|N]; [now apply cut_same|now rewrite cut_other]. Qed.
Lemma disconnect_all n a l : forall V s, incl l nodes -> shows (d_heap s) (d_tasks s) a V -> exists h' ts',
  run (S n) (self a) (flat_map disconnect_sts l) [] s = DDone [] (set_dtasks ts' (set_heap h' s)) /\ shows h' ts' a (closes l V) /\
  (forall node, In node l -> has_task node -> nth_error ts' (w_task V (fn_id node)) = Some None) /\
  (forall k, nth_error (d_tasks s) k = Some None -> nth_error ts' k = Some None) /\
  (forall k, (forall node, In node l -> has_task node -> k <> w_task V (fn_id node)) -> nth_error ts' k = nth_error (d_tasks s) k) /\
  (forall b, (forall node, In node l -> read_node node -> b <> w_ctrl V (fn_id node)) -> nth_error h' b = nth_error (d_heap s) b).
Proof.
  induction l as [|x l IH]; intros V s IN H.
  - exists (d_heap s), (d_tasks s). split; [now destruct s|]. split; [exact H|]. split; [intros node []|]. split; [auto|]. split; reflexivity.
  - assert (IX : In x nodes) by (apply IN; now left). cbn [flat_map closes].
    set (V1 := if fn_is_read x then set_stream V (fn_id x) (fst (w_stream V (fn_id x)), false) else V).
    assert (X : exists h1 ts1, (forall rest, run (S n) (self a) (disconnect_sts x ++ rest) [] s = run (S n) (self a) rest [] (set_dtasks ts1 (set_heap h1 s))) /\ shows h1 ts1 a V1 /\
      (has_task x -> nth_error ts1 (w_task V (fn_id x)) = Some None) /\ (forall k, nth_error (d_tasks s) k = Some None -> nth_error ts1 k = Some None) /\
      (forall k, (has_task x -> k <> w_task V (fn_id x)) -> nth_error ts1 k = nth_error (d_tasks s) k) /\
      (forall b, (read_node x -> b <> w_ctrl V (fn_id x)) -> nth_error h1 b = nth_error (d_heap s) b)).
    { destruct (is_async_or_read x) eqn:HT.
      2: { assert (R : fn_is_read x = false) by (unfold is_async_or_read in HT; destruct (fn_is_read x); [now rewrite orb_true_r in HT|reflexivity]).
           exists (d_heap s), (d_tasks s). unfold V1, disconnect_sts. rewrite HT, R. cbn [app]. split; [intros rest; now destruct s|]. split; [exact H|].
           split; [intros Q; unfold has_task in Q; congruence|]. split; [auto|]. split; reflexivity. }
      destruct H as (fs & A & B & SP). destruct (ns_task _ _ _ _ _ _ (B x IX) HT) as (T1 & T2). set (k := w_task V (fn_id x)) in *.
      assert (LK : k < List.length (d_tasks s)) by (destruct T2 as [T2|T2]; eapply nth_some_lt, T2).
      set (ts1 := firstn k (d_tasks s) ++ [None] ++ skipn (S k) (d_tasks s)).
      assert (E1 : DartSem.ev D items (KK (S n)) (self a) (call scheduler "disconnect" [var (var_read_task x)]) [] s = DDone dnull (set_dtasks ts1 s)).
      { change (call scheduler "disconnect" [var (var_read_task x)]) with (DPost scheduler [XMeth "disconnect" [] [(None, var (var_read_task x))] false]).
        erewrite scheduler_meth; [|exact A|reflexivity|].
        2: { rewrite dmapM_cons. rewrite (dbind_done _ _ s (None, dtask k) s); [reflexivity|].
             now rewrite (dbind_done _ _ s _ s (ev_self (KK (S n)) a fs (var_read_task x) [] s (dtask k) A (task_member x IX HT) clean_nil T1 ltac:(discriminate))). }
        reflexivity. }
      assert (H1 : shows (d_heap s) ts1 a V).
      { exists fs. split; [exact A|]. split; [|exact SP]. intros y J. destruct (B y J) as [X Y Z]. split; [exact X|exact Y|]. intros Q. destruct (Z Q) as (Z1 & Z2). split; [exact Z1|].
        destruct (Nat.eq_dec (w_task V (fn_id y)) k) as [->|N]; [right; now apply cut_same|]. unfold ts1. rewrite cut_other by assumption. exact Z2. }
      assert (K1 : nth_error ts1 k = Some None) by now apply cut_same.
      assert (K2 : forall i, nth_error (d_tasks s) i = Some None -> nth_error ts1 i = Some None) by (intros i; now apply cut_none).
      assert (K3 : forall i, (has_task x -> i <> k) -> nth_error ts1 i = nth_error (d_tasks s) i) by (intros i Q; apply cut_other; [exact LK|now apply Q]).
      unfold disconnect_sts, V1. rewrite HT. destruct (fn_is_read x) eqn:R.
      - destruct (ns_read _ _ _ _ _ _ (B x IX) R) as (L1 & L2). exists (set_cell (w_ctrl V (fn_id x)) (CStream (fst (w_stream V (fn_id x))) false) (d_heap s)), ts1.
        split; [|split; [now apply shows_stream|split; [intros _; exact K1|split; [exact K2|split; [exact K3|]]]]].
        + intros rest. cbn [app]. erewrite run_expr by exact E1. erewrite run_expr.
          2: { rewrite (stream_call (KK (S n)) a fs (var_read_stream_controller x) (w_ctrl V (fn_id x)) "close" [] [] [] (set_dtasks ts1 s) A clean_nil (stream_member x IX R) L1 (Forall2_nil _)).
               cbn [method]. rewrite (dbind_done _ _ (set_dtasks ts1 s) _ (set_dtasks ts1 s)) by (unfold get_cell; cbn [d_heap set_dtasks]; now rewrite L2). reflexivity. }
          now destruct s.
        + intros b Q. apply set_cell_other. intros E. apply Q; [exact R|now symmetry].
      - exists (d_heap s), ts1. cbn [app]. split; [intros rest; erewrite run_expr by exact E1; now destruct s|]. split; [exact H1|]. split; [intros _; exact K1|]. split; [exact K2|]. split; [exact K3|reflexivity]. }
    destruct X as (h1 & ts1 & E1 & H1 & D1 & D2 & D3 & D4).
    destruct (IH V1 (set_dtasks ts1 (set_heap h1 s))) as (h' & ts' & E2 & H2 & F1 & F2 & F3 & F4); [intros y J; apply IN; now right|exact H1|].
    assert (WT : w_task V1 = w_task V) by (unfold V1; now destruct (fn_is_read x)). assert (WC : w_ctrl V1 = w_ctrl V) by (unfold V1; now destruct (fn_is_read x)).
    rewrite WT in *. rewrite WC in *. cbn [d_heap d_tasks set_heap set_dtasks] in *.
    exists h', ts'. split; [rewrite E1, E2; now destruct s|]. split; [exact H2|]. split; [|split; [|split]].
    + intros node [<-|J] Q; [apply F2; now apply D1|now apply F1].
    + intros k Q. apply F2. now apply D2.
    + intros k Q. rewrite F3 by (intros node J; apply Q; now right). apply D3. apply Q. now left.
    + intros b Q. rewrite F4 by (intros node J; apply Q; now right). apply D4. apply Q. now left.
Qed.
Lemma disconnect n a V s : shows (d_heap s) (d_tasks s) a V -> exists h' ts',
  method D items (KK (S (S n))) (dref a) "disconnect" [] s = DDone dnull (set_dtasks ts' (set_heap h' s)) /\ shows h' ts' a (closes nodes V) /\
  (forall node, In node nodes -> has_task node -> nth_error ts' (w_task V (fn_id node)) = Some None) /\
  (forall k, (forall node, In node nodes -> has_task node -> k <> w_task V (fn_id node)) -> nth_error ts' k = nth_error (d_tasks s) k) /\
  (forall b, (forall node, In node nodes -> read_node node -> b <> w_ctrl V (fn_id node)) -> nth_error h' b = nth_error (d_heap s) b).
Proof.
  intros H. destruct (disconnect_all n a nodes V s (incl_refl _) H) as (h' & ts' & E & S1 & S2 & _ & S3 & S4). exists h', ts'. split; [|auto].
  destruct H as (fs & A & _). rewrite (invoke_in (S n) a fs (ty0 "void") "disconnect" (PPos [] false) (BBlock (flat_map disconnect_sts nodes)) [] []); [eapply body_done, E|exact A| |reflexivity].
  unfold client_members. rewrite !in_app_iff. right. right. right. left. now left.
Qed.
End Client.
