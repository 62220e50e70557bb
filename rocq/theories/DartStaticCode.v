(** The static rules of Dart on the expressions and statements of the generated code. *)
Require Import Coq.Strings.String Coq.Strings.Ascii.
Require Import Coq.NArith.NArith Coq.ZArith.ZArith Coq.Lists.List Coq.Bool.Bool Coq.Arith.PeanoNat Coq.micromega.Lia.
Require Import Verif.Base Verif.Ast Verif.CaseConv Verif.Code Verif.LexSpec Verif.NumText Verif.DartSyntax Verif.DartGen Verif.DartTree Verif.DartStatic Verif.DartStaticSpec.
Require Verif.DartRpc Verif.Wire Verif.DartSem Verif.DartConst Verif.RustDefault Verif.RustDefaultRuns Verif.RustTree Verif.DartBuild Verif.RustCodec Verif.DartRun Verif.DartConstRuns Verif.DartCodec Verif.DartWire.
Import DartSem(find_class, find_enum, prim_of, strip, param_list, is_this). Import RustDefault(distinct). Import RustCodec(nodupN_NoDup). Import DartRun(NoDup_app_remove_l, NoDup_app_disjoint, find_const_none, class_not_const, enum_not_const, top_names, top_name, strip_app, strip_into_emplace, strip_into_factory, strip_emplace_factory).
Import DartRpc(member_name, client_members). Import DartConst(digits_only, member_names, holder). Import DartConstRuns(digits_only_all). Import Wire(decl, DStruct, decl_name, schema_decls).
Import ListNotations.
Local Open Scope string_scope.
Local Open Scope list_scope.

(** ** Small facts *)

Lemma among_in l x : among l x = true <-> In x l.
Proof.
  unfold among. rewrite existsb_exists. split; [intros (y & I & E); apply String.eqb_eq in E; now subst|intros I; exists x; now rewrite String.eqb_refl].
Qed.
Lemma among_out l x : among l x = false <-> ~ In x l.
Proof. rewrite <- not_true_iff_false, among_in. reflexivity. Qed.
Lemma same_ty_refl : forall t, same_ty t t = true.
Proof.
  fix IH 1. intros [n l]. cbn [same_ty]. rewrite String.eqb_refl. cbn [andb].
  induction l as [|a l IHl]; [reflexivity|]. rewrite (IH a). exact IHl.
Qed.
Lemma subtype_refl ext items t : subtype ext items t t = true.
Proof. unfold subtype. now rewrite same_ty_refl. Qed.
Lemma fits_refl ext items e t : fits ext items e t t = true.
Proof. unfold fits. now rewrite subtype_refl. Qed.
Lemma assoc_app {A} x (a b : list (string * A)) : assoc x (a ++ b) = match assoc x a with Some v => Some v | None => assoc x b end.
Proof. induction a as [|[y v] a IH]; [reflexivity|]. cbn [app assoc]. destruct (String.eqb x y); [reflexivity|exact IH]. Qed.
Lemma assoc_none {A} x (l : list (string * A)) : assoc x l = None <-> ~ In x (map fst l).
Proof.
  induction l as [|[y v] l IH]; cbn [assoc map fst]; [tauto|]. destruct (String.eqb_spec x y) as [->|N].
  - split; [discriminate|]. intros H. now destruct H; left.
  - rewrite IH. cbn [In]. intuition congruence.
Qed.
Lemma class_of_in l n i ms : NoDup (top_names l) -> In (DClass n i ms) l -> class_of n l = Some (i, ms).
Proof.
  induction l as [|j l IH]; intros N I; [destruct I|].
  assert (N' : NoDup (top_names l)) by (unfold top_names in N |- *; cbn [flat_map] in N; now apply NoDup_app_remove_l in N).
  assert (H : forall m k ks, j = DClass m k ks -> In (DClass n i ms) l -> String.eqb m n = false).
  { intros m k ks -> J. apply String.eqb_neq. intros ->. unfold top_names in N. cbn [flat_map top_name app] in N. inversion N as [|? ? X _]; subst. apply X. apply in_flat_map.
    exists (DClass n i ms). split; [exact J|now left]. }
  destruct I as [->|I].
  - cbn [class_of]. now rewrite String.eqb_refl.
  - destruct j as [s|m e|m k ks|m ns]; cbn [class_of]; try (now apply IH). rewrite (H m k ks eq_refl I). now apply IH.
Qed.
Lemma in_top_class l n i ms : In (DClass n i ms) l -> In n (top_names l).
Proof. intros I. unfold top_names. apply in_flat_map. eexists. split; [exact I|now left]. Qed.
Lemma in_top_enum l n ns : In (DEnum n ns) l -> In n (top_names l).
Proof. intros I. unfold top_names. apply in_flat_map. eexists. split; [exact I|now left]. Qed.

Lemma prim_ty_of t : is_prim t = true -> prim_ty (DartTree.prim_name t) = dty_of t.
Proof.
  destruct t as [i sz sg|i sz|i|i|g l|m]; try discriminate; intros _; try reflexivity; cbn [DartTree.prim_name dty_of].
  - destruct sz as [|[|[|[|[|sz]]]]]; reflexivity.
  - destruct sz as [|[|[|[|[|sz]]]]]; reflexivity.
Qed.
Lemma prim_names t : In (DartTree.prim_name t) DartSem.dart_prims.
Proof.
  destruct t as [i sz sg|i sz|i|i|g l|m]; cbn [DartTree.prim_name]; try (cbn; tauto).
  - destruct sz as [|[|[|[|[|sz]]]]]; cbn; tauto.
  - destruct sz as [|[|[|[|[|sz]]]]]; cbn; tauto.
Qed.
Lemma prim_of_name pre t : prim_of pre (pre ++ DartTree.prim_name t) = Some (DartTree.prim_name t).
Proof.
  unfold prim_of. pose proof (prim_names t) as I. set (n := DartTree.prim_name t) in *. clearbody n.
  assert (E : forall p, String.eqb (pre ++ n) (pre ++ p) = String.eqb n p).
  { intros p. destruct (String.eqb_spec n p) as [->|N]; [apply String.eqb_refl|]. apply String.eqb_neq. intros H. apply N. clear - H. induction pre as [|c pre IH]; [exact H|].
    injection H as H. auto. }
  cbn [find DartSem.dart_prims]. rewrite !E. destruct I as [<-|[<-|[<-|[<-|[<-|[<-|[]]]]]]]; reflexivity.
Qed.

Section File.
Variable ast : list ast_node.
Variable ext : list string.
Variable items : list ditem.
Hypothesis has : forall d i, In d (schema_decls ast) -> In i (DartCodec.decl_items d) -> In i items.
Hypothesis nd : NoDup (top_names items).
Hypothesis tf : tops_fine ext items = true.
Hypothesis okd : forallb DartCodec.dart_decl_ok (schema_decls ast) = true.
Hypothesis fine : forallb (decl_fine ast ext) (schema_decls ast) = true.
Notation tops := (top_names items).
Notation R := (class_names ext items).
Notation member_of := (member_of ext items).
Notation const_of := (const_of ext items).
Notation implemented := (implemented ext items).
Notation usable := (usable ast ext).
Notation mentioned := (mentioned ast ext).

Lemma known_out n : In n known -> among tops n = false.
Proof.
  intros I. unfold tops_fine in tf. rewrite !andb_true_iff, !forallb_forall in tf. destruct tf as [[A _] _]. apply negb_true_iff, A, in_or_app. now left.
Qed.
Lemma ext_out p : In p ext -> among tops p = false /\ among known p = false.
Proof.
  intros I. unfold tops_fine in tf. rewrite !andb_true_iff, !forallb_forall in tf. destruct tf as [[A B] _].
  split; apply negb_true_iff; [apply A; rewrite !in_app_iff; tauto|apply B; rewrite !in_app_iff; tauto].
Qed.
Lemma in_codecs p k : In p ext -> In k kinds -> In (p ++ k)%string (codecs_of ext).
Proof. intros I J. unfold codecs_of. apply in_flat_map. exists p. split; [exact I|]. now apply in_map. Qed.
Lemma codec_out p k : In p ext -> In k kinds -> among tops (p ++ k) = false /\ among known (p ++ k) = false.
Proof.
  intros I J. pose proof (in_codecs p k I J) as C. unfold tops_fine in tf. rewrite !andb_true_iff, !forallb_forall in tf. destruct tf as [[A B] _].
  split; apply negb_true_iff; [apply A; rewrite !in_app_iff; tauto|apply B; rewrite !in_app_iff; tauto].
Qed.
Lemma fixed_out n : In n fixed_names -> ~ In n R.
Proof.
  intros I. unfold tops_fine in tf. rewrite !andb_true_iff, !forallb_forall in tf. destruct tf as [_ C]. now apply among_out, negb_true_iff, C.
Qed.
Lemma R_top n : In n tops -> In n R. Proof. intros I. unfold class_names. rewrite !in_app_iff. tauto. Qed.
Lemma R_known n : In n known -> In n R. Proof. intros I. unfold class_names. rewrite !in_app_iff. tauto. Qed.
Lemma R_ext n : In n ext -> In n R. Proof. intros I. unfold class_names. rewrite !in_app_iff. tauto. Qed.
Lemma R_codec p k : In p ext -> In k kinds -> In (p ++ k)%string R.
Proof. intros I J. pose proof (in_codecs p k I J). unfold class_names. rewrite !in_app_iff. tauto. Qed.

(** ** Codecs *)

(** The class [c] has constant objects, and they are the codec (or factory) of kind [k] for [t]. *)
Record codec (k c : string) (ts : list dty) (t : dty) : Prop := mk_codec
  { co_name : In c R;
    co_const : const_of c ts = Some (Fun (codec_params c ts) [] [] (DTy c ts));
    co_impl : implemented (DTy c ts) = Some (DTy k [t]);
    co_mem : forall m s, assoc m (interface (DTy k [t])) = Some s -> member_of (DTy c ts) m [] = Some s }.

Lemma codec_params_top c : In c tops -> codec_params c [] = [].
Proof.
  intros I. unfold codec_params. destruct (among _ c) eqn:E; [|reflexivity]. apply among_in in E.
  assert (K : In c known) by (destruct E as [<-|[<-|[]]]; vm_compute; tauto). apply known_out in K. apply among_out in K. contradiction.
Qed.
Lemma codec_class_of kind id r w s :
  In (codec_class kind id r w s) items ->
  (kind = "IntoBuffers" /\ (exists b, r = read_meth id [reader_param] b) \/ kind = "EmplaceToBuffers" /\ (exists b, r = read_meth "void" [reader_param; model_param id] b)) ->
  (exists b, w = write_meth id b) -> (exists b, s = skip_meth b) -> codec kind (id ++ kind) [] (ty0 id).
Proof.
  intros I KR (bw & ->) (bs & ->). pose proof (class_of_in _ _ _ _ nd I) as C. pose proof (in_top_class _ _ _ _ I) as T.
  assert (TA : among tops (id ++ kind) = true) by now apply among_in.
  split.
  - now apply R_top.
  - unfold DartStatic.const_of. rewrite TA, C, (codec_params_top _ T). reflexivity.
  - unfold DartStatic.implemented. now rewrite TA, C.
  - intros m x E. unfold DartStatic.member_of. rewrite TA, C.
    destruct KR as [[-> [br ->]]|[-> [br ->]]]; cbn [interface String.eqb Ascii.eqb Bool.eqb] in E; cbn [assoc] in E.
    + destruct (String.eqb_spec m "read") as [->|N1]; [injection E as <-; reflexivity|].
      destruct (String.eqb_spec m "write") as [->|N2]; [injection E as <-; reflexivity|].
      destruct (String.eqb_spec m "skip") as [->|N3]; [injection E as <-; reflexivity|discriminate].
    + destruct (String.eqb_spec m "read") as [->|N1]; [injection E as <-; reflexivity|].
      destruct (String.eqb_spec m "write") as [->|N2]; [injection E as <-; reflexivity|].
      destruct (String.eqb_spec m "skip") as [->|N3]; [injection E as <-; reflexivity|discriminate].
Qed.
Lemma factory_class_of id e : In (factory_class id e) items -> codec "BuffersFactory" (id ++ "BuffersFactory") [] (ty0 id).
Proof.
  intros I. pose proof (class_of_in _ _ _ _ nd I) as C. pose proof (in_top_class _ _ _ _ I) as T.
  assert (TA : among tops (id ++ "BuffersFactory") = true) by now apply among_in.
  split.
  - now apply R_top.
  - unfold DartStatic.const_of. rewrite TA, C, (codec_params_top _ T). reflexivity.
  - unfold DartStatic.implemented. now rewrite TA, C.
  - intros m x E. unfold DartStatic.member_of. rewrite TA, C. cbn [interface String.eqb Ascii.eqb Bool.eqb] in E; cbn [assoc] in E.
    destruct (String.eqb_spec m "createDefault") as [->|N]; [injection E as <-; reflexivity|discriminate].
Qed.
(** The struct of a case. *)
Definition case_struct (e : enum_node) (i : enum_item) : struct_node := create_enum_item_struct_ast_node e i.
Lemma case_into e i : sn_id (case_struct e i) = (en_id e ++ item_id i)%string. Proof. now destruct i. Qed.

Lemma codec_decl d k : In d (schema_decls ast) -> In k kinds -> codec k (decl_name d ++ k) [] (ty0 (decl_name d)).
Proof.
  intros I K. rewrite forallb_forall in okd, fine. pose proof (okd _ I) as O. pose proof (fine _ I) as F.
  destruct d as [s|e]; cbn [decl_name].
  - unfold DartCodec.dart_decl_ok in O. rewrite !andb_true_iff in O. destruct O as (_ & ((((SI & SE) & _) & _) & _)).
    destruct K as [<-|[<-|[<-|[]]]].
    + eapply codec_class_of; [apply (has _ _ I); unfold DartCodec.decl_items, struct_buffers_tree; rewrite SI, SE; apply in_or_app; right; right; left; reflexivity| | |].
      * left. split; [reflexivity|]. eexists. reflexivity.
      * eexists. reflexivity.
      * eexists. reflexivity.
    + eapply codec_class_of; [apply (has _ _ I); unfold DartCodec.decl_items, struct_buffers_tree; rewrite SI, SE; apply in_or_app; right; left; reflexivity| | |].
      * right. split; [reflexivity|]. eexists. reflexivity.
      * eexists. reflexivity.
      * eexists. reflexivity.
    + unfold DartCodec.decl_items, struct_model_tree in has. destruct (sn_fields s) as [|f fs] eqn:EF.
      * eapply factory_class_of, (has (DStruct s)); [exact I|]. cbn beta iota. rewrite EF. right. left. reflexivity.
      * eapply factory_class_of, (has (DStruct s)); [exact I|]. cbn beta iota. rewrite EF. right. left. reflexivity.
  - cbn [decl_fine] in F. apply andb_true_iff in F as [NE _].
    destruct K as [<-|[<-|[<-|[]]]].
    + eapply codec_class_of; [apply (has _ _ I); unfold DartCodec.decl_items, enum_buffers_tree; rewrite !in_app_iff; right; right; left; reflexivity| | |].
      * left. split; [reflexivity|]. eexists. reflexivity.
      * eexists. reflexivity.
      * eexists. reflexivity.
    + eapply codec_class_of; [apply (has _ _ I); unfold DartCodec.decl_items, enum_buffers_tree; rewrite !in_app_iff; right; right; right; left; reflexivity| | |].
      * right. split; [reflexivity|]. eexists. reflexivity.
      * eexists. reflexivity.
      * eexists. reflexivity.
    + eapply factory_class_of, (has (Wire.DEnum e)); [exact I|]. unfold DartCodec.decl_items, enum_model_tree. destruct (en_items e) as [|a l]; [discriminate NE|].
      cbn [app]. right. right. left. reflexivity.
Qed.

Lemma codec_ext p k ts : In p ext -> In k kinds -> codec k (p ++ k) ts (DTy p ts).
Proof.
  intros I K. destruct (codec_out p k I K) as [TO KO]. assert (A : among ext p = true) by now apply among_in.
  assert (L : lib_codec ext (p ++ k) ts = Some (DTy k [DTy p ts])).
  { unfold lib_codec. rewrite KO. destruct K as [<-|[<-|[<-|[]]]].
    - now rewrite strip_app, A.
    - now rewrite strip_into_emplace, strip_app, A.
    - now rewrite strip_into_factory, strip_emplace_factory, strip_app, A. }
  split.
  - now apply R_codec.
  - unfold DartStatic.const_of. now rewrite TO, L.
  - unfold DartStatic.implemented. now rewrite TO, L.
  - intros m s E. unfold DartStatic.member_of. now rewrite TO, L, E.
Qed.
Lemma codec_lib c ts k t : In c known -> lib_codec ext c ts = Some (DTy k [t]) -> codec k c ts t.
Proof.
  intros I L. pose proof (known_out c I) as TO. split.
  - now apply R_known.
  - unfold DartStatic.const_of. now rewrite TO, L.
  - unfold DartStatic.implemented. now rewrite TO, L.
  - intros m s E. unfold DartStatic.member_of. now rewrite TO, L, E.
Qed.

(** The types of the language. *)
Lemma other_cases m : mentioned (TyOther m) = true -> m = "String" \/ (exists d, In d (schema_decls ast) /\ decl_name d = m) \/ In m ext.
Proof.
  cbn [DartStaticSpec.mentioned]. rewrite among_in. intros [E|I]; [now left|]. apply in_app_or in I as [I|I]; [|tauto]. apply in_map_iff in I as (d & E & I). right. left. now exists d.
Qed.
Lemma codec_other m k : mentioned (TyOther m) = true -> (k = "IntoBuffers" \/ k = "BuffersFactory" \/ k = "EmplaceToBuffers" /\ m <> "String") ->
  codec k (m ++ k) [] (ty0 m).
Proof.
  intros M K. assert (KI : In k kinds) by (destruct K as [->|[->|[-> _]]]; cbn; tauto).
  destruct (other_cases m M) as [->|[(d & I & <-)|I]].
  - destruct K as [->|[->|[_ K]]]; [| |contradiction]; apply codec_lib; reflexivity || (vm_compute; tauto).
  - now apply codec_decl.
  - now apply codec_ext.
Qed.
(** The classes of a type can be named. *)
Fixpoint heads (t : dty) : list string := match t with DTy n l => n :: flat_map heads l end.
Lemma type_of m : mentioned m = true -> type_known ext items (dty_of m) = true /\ (forall n, In n (heads (dty_of m)) -> In n R) /\ head_of (dty_of m) <> "void".
Proof.
  assert (KN : forall n, In n plain_types -> In n known) by (intros n; unfold known; rewrite !in_app_iff; tauto).
  assert (P : forall n, In n plain_types -> type_known ext items (t0 n) = true /\ (forall x, In x (heads (t0 n)) -> In x R)).
  { intros n I. split.
    - unfold t0; cbn [type_known forallb andb]. rewrite (known_out n (KN n I)). assert (A : among plain_types n = true) by now apply among_in. now rewrite A.
    - intros x [<-|[]]. now apply R_known, KN. }
  assert (PL : forall n, In n ["int"; "double"; "bool"; "String"] -> In n plain_types) by (intros n [<-|[<-|[<-|[<-|[]]]]]; vm_compute; tauto).
  revert m. fix IH 1. intros [i sz sg|i sz|i|i|g l|m] M; cbn [dty_of];
    try (split; [apply P, PL; cbn; tauto|split; [apply P, PL; cbn; tauto|discriminate]]).
  - assert (L : forallb mentioned l = true) by (cbn [DartStaticSpec.mentioned] in M; now apply andb_true_iff in M).
    assert (LK : forallb (type_known ext items) (map dty_of l) = true /\ (forall n, In n (flat_map heads (map dty_of l)) -> In n R)).
    { clear M. induction l as [|a l IHl]; [split; [reflexivity|intros n []]|]. cbn [forallb] in L. apply andb_true_iff in L as [La Ll]. destruct (IH a La) as (A1 & A2 & _). destruct (IHl Ll) as [B1 B2].
      split; [cbn [map forallb]; now rewrite A1, B1|]. intros n I. cbn [map flat_map] in I. apply in_app_or in I as [I|I]; auto. }
    destruct LK as [LK LH]. cbn [DartStaticSpec.mentioned] in M. apply andb_true_iff in M as [M _]. unfold list_name. destruct (String.eqb_spec g "Vec") as [->|NV].
    + apply Nat.eqb_eq in M. destruct l as [|a [|b l]]; try discriminate M. split; [|split; [|discriminate]].
      * cbn [map type_known]. cbn [map] in LK. rewrite LK, known_out by (vm_compute; tauto). reflexivity.
      * intros n [<-|I]; [apply R_known; vm_compute; tauto|auto].
    + apply among_in in M. destruct (ext_out g M) as [TO KO]. split; [|split].
      * cbn [type_known]. rewrite LK, TO. cbn [andb]. apply among_out in KO. unfold known in KO. rewrite !in_app_iff in KO.
        assert (A1 : among plain_types g = false) by (apply among_out; tauto). assert (A2 : among generic_types g = false) by (apply among_out; tauto).
        assert (A3 : among kinds g = false) by (apply among_out; tauto). assert (A4 : String.eqb g "Map" = false) by (apply String.eqb_neq; intros ->; apply KO; cbn; tauto).
        rewrite A1, A2, A3, A4. now apply among_in.
      * intros n [<-|I]; [now apply R_ext|auto].
      * cbn [head_of]. intros ->. apply among_out in KO. apply KO. vm_compute. tauto.
  - destruct (other_cases m M) as [->|[(d & I & <-)|I]].
    + split; [apply P, PL; cbn; tauto|split; [apply P, PL; cbn; tauto|discriminate]].
    + assert (C : exists i ms, In (DClass (decl_name d) i ms) items).
      { rewrite forallb_forall in fine. pose proof (fine _ I) as F. destruct d as [s|e]; cbn [decl_name].
        - destruct (sn_fields s) as [|f fs] eqn:EF; eexists; eexists; apply (has _ _ I); unfold DartCodec.decl_items, struct_model_tree; rewrite EF; left; reflexivity.
        - cbn [decl_fine] in F. apply andb_true_iff in F as [NE _]. destruct (en_items e) as [|a l] eqn:EE; [discriminate NE|].
          eexists; eexists; apply (has _ _ I); unfold DartCodec.decl_items, enum_model_tree; rewrite EE; right; left; reflexivity. }
      destruct C as (i & ms & C). pose proof (in_top_class _ _ _ _ C) as T. split; [|split].
      * unfold ty0. cbn [type_known forallb]. assert (A : among tops (decl_name d) = true) by now apply among_in. now rewrite A, (class_of_in _ _ _ _ nd C).
      * intros n [<-|[]]. now apply R_top.
      * cbn [ty0 head_of]. intros E. rewrite E in T. apply among_in in T. rewrite known_out in T by (vm_compute; tauto). discriminate.
    + destruct (ext_out m I) as [TO KO]. split; [|split].
      * unfold ty0. cbn [type_known forallb]. rewrite TO. apply among_out in KO. unfold known in KO. rewrite !in_app_iff in KO.
        assert (A1 : among plain_types m = false) by (apply among_out; tauto). assert (A2 : among generic_types m = false) by (apply among_out; tauto).
        assert (A3 : among kinds m = false) by (apply among_out; tauto). assert (A4 : String.eqb m "Map" = false) by (apply String.eqb_neq; intros ->; apply KO; cbn; tauto).
        cbn [andb]. rewrite A1, A2, A3, A4. now apply among_in.
      * intros n [<-|[]]. now apply R_ext.
      * cbn [ty0 head_of]. intros ->. apply among_out in KO. apply KO. vm_compute. tauto.
Qed.

(** ** Expressions and statements *)

Definition plain_ex (e : dex) : Prop := match e with DFun _ _ | DNum _ => False | _ => True end.
Section Code.
Variable ms : list dmember.
Variable inst : bool.
Hypothesis msok : forall n, In n (member_names ms) -> ~ In n R.
Notation tex := (tex ext items ms inst).
Notation tst := (tst ext items ms inst).
Notation arg_ok := (arg_ok ext items tex tst).
Notation args_ok := (args_ok ext items tex tst).
Notation hidden := (hidden ms).
Notation type_ok := (type_ok ext items ms).
Notation tpost := (tpost ext items ms inst).
Notation tnamed := (tnamed ext items ms inst).

(** The rules as equations. *)
Notation posts en := (fix go (ps : list dpost) (p : place) : option place := match ps with [] => Some p | x :: ps' => match tpost x p en with Some p' => go ps' p' | None => None end end).
Lemma tex_const n ts args tr en : tex (DConst n ts args tr) en =
  if negb (hidden n en) && forallb (type_ok en) ts && forallb (fun '(_, e) => is_const e) args then value (args_ok en (const_of n ts) args) else None.
Proof. reflexivity. Qed.
Lemma tex_post_const n ts args tr ps en : tex (DPost (DConst n ts args tr) ps) en = match tex (DConst n ts args tr) en with Some p => posts en ps p | None => None end.
Proof. reflexivity. Qed.
Lemma tex_post_name n ts ps en : tex (DPost (DName n ts) ps) en =
  match name_ty items ms inst n en, ts, ps with
  | Place p, [], _ => posts en ps p
  | Other, _, x :: ps' => if forallb (type_ok en) ts then match tnamed n ts x en with Some p => posts en ps' p | None => None end else None
  | _, _, _ => None
  end.
Proof. reflexivity. Qed.
Lemma tex_set a b en : tex (DSet a b) en =
  match tex a en, tex b en with Some (_, Some w), Some (t, _) => if fits ext items b t w then Some (t, None) else None | _, _ => None end.
Proof. reflexivity. Qed.
Lemma tex_eq n a b en : tex (DEq n a b) en = match tex a en, tex b en with Some _, Some _ => Some (t0 "bool", None) | _, _ => None end.
Proof. reflexivity. Qed.
Lemma post_field f p en : tpost (XField f) p en = match member_of (fst p) f [] with Some (Var t s) => Some (place_of t s) | _ => None end.
Proof. reflexivity. Qed.
Lemma post_meth m ts args tr p en : tpost (XMeth m ts args tr) p en = if forallb (type_ok en) ts then value (args_ok en (member_of (fst p) m ts) args) else None.
Proof. reflexivity. Qed.
Lemma post_opt m args tr t w en : tpost (XOpt m args tr) (nullable t, w) en = value (option_map nullable (args_ok en (member_of t m []) args)).
Proof. reflexivity. Qed.
Lemma post_index e k v w en : tpost (XIndex e) (DTy "Map" [k; v], w) en = if arg_ok en e k then Some (nullable v, Some v) else None.
Proof. reflexivity. Qed.
Lemma named_field n ts f en : tnamed n ts (XField f) en = if hidden n en then None else match static_of items n ts f with Some (Var t s) => Some (place_of t s) | _ => None end.
Proof. reflexivity. Qed.
Lemma named_call n ts args tr en : tnamed n ts (XCall args tr) en =
  value (args_ok en (match own ms inst n with Some (true, m) => match ts with [] => Some m | _ => None end | Some (false, _) => None | None => maker_of items n ts end) args).
Proof. reflexivity. Qed.
Lemma named_meth n ts m args tr en : tnamed n ts (XMeth m [] args tr) en = if hidden n en then None else value (args_ok en (static_of items n ts m) args).
Proof. reflexivity. Qed.
Lemma st_final x e r en : tst (DFinal x e) r en =
  match tex e en with Some (t, _) => if String.eqb (head_of t) "void" then None else Some ((x, Some (t, false)) :: en, Goes) | None => None end.
Proof. reflexivity. Qed.
Lemma st_expr e r en : tst (DExpr e) r en = match tex e en with Some _ => Some (en, Goes) | None => None end.
Proof. reflexivity. Qed.
Lemma st_return e r en : tst (DReturn (Some e)) r en =
  match tex e en with Some (t, _) => if negb (String.eqb (head_of r) "void") && fits ext items e t r then Some (en, Exits) else None | None => None end.
Proof. reflexivity. Qed.
Lemma st_throw e r en : tst (DThrow e) r en = match tex e en with Some (t, _) => if subtype ext items t (t0 "Object") then Some (en, Exits) else None | None => None end.
Proof. reflexivity. Qed.
Notation blk r := (block (fun s en => tst s r en)).
Lemma st_if c b r en : tst (DIf c b) r en =
  match tex c en with Some (t, _) => if same_ty t (t0 "bool") then match blk r b en with Some Breaks => None | Some _ => Some (en, Goes) | None => None end else None | None => None end.
Proof. reflexivity. Qed.
Lemma st_for x a b c l r en : tst (DFor x a b c l) r en =
  match name_ty items ms inst b en with
  | Place (t, _) => if same_ty t (t0 "int") && digits_only a && digits_only c then match blk r l ((x, Some (t0 "int", true)) :: en) with Some _ => Some (en, Goes) | None => None end else None
  | _ => None
  end.
Proof. reflexivity. Qed.
Lemma st_switch e cases r en : tst (DSwitch e cases) r en =
  match tex e en with
  | Some (t, _) =>
      let flows := map (fun '(o, body) => blk r body en) cases in
      if labels_ok (map fst cases) && covers items t (map (fun '(o, _) => match o with Some c => label c | None => None end) cases) &&
         forallb (fun '(o, _) => match o with Some c => match tex c en with Some (t', _) => same_ty t' t | None => false end | None => true end) cases &&
         forallb (fun w => match w with Some Breaks | Some Exits => true | _ => false end) flows
      then
        Some (en, if forallb (fun w => match w with Some Exits => true | _ => false end) flows then Exits else Goes)
      else None
  | None => None
  end.
Proof. reflexivity. Qed.
Lemma arg_fun x body a r en : arg_ok en (DFun x body) (fun_ty a r) =
  match blk r body ((x, Some (a, true)) :: en) with Some Exits => true | Some Goes => String.eqb (head_of r) "void" | _ => false end.
Proof. reflexivity. Qed.
Definition env_ok (en : tenv) : Prop := forall x, In x (map fst en) -> ~ In x R.

Lemma env_none n en : env_ok en -> In n R -> assoc n en = None.
Proof. intros E I. apply assoc_none. intros J. exact (E n J I). Qed.
Lemma vis n en : env_ok en -> In n R -> hidden n en = false.
Proof. intros E I. unfold DartStatic.hidden. rewrite (env_none n en E I). apply among_out. intros J. exact (msok n J I). Qed.
Lemma vis_type en t : env_ok en -> (forall n, In n (heads t) -> In n R) -> visible_ty ms en t = true.
Proof.
  intros E. revert t. fix IH 1. intros [n l] H. cbn [visible_ty]. rewrite (vis n en E) by (apply H; now left). cbn [negb andb].
  assert (L : forall x, In x (flat_map heads l) -> In x R) by (intros x I; apply H; now right). clear H.
  induction l as [|a l IHl]; [reflexivity|]. cbn [forallb]. rewrite (IH a), IHl; [reflexivity| |]; intros x I; apply L; cbn [flat_map]; apply in_or_app; auto.
Qed.
Lemma type_okay en t : env_ok en -> mentioned t = true -> type_ok en (dty_of t) = true.
Proof. intros E M. destruct (type_of t M) as (A & B & _). unfold DartStatic.type_ok. now rewrite A, vis_type. Qed.
Lemma env_nil : env_ok []. Proof. intros x []. Qed.
Lemma env_cons x o en : ~ In x R -> env_ok en -> env_ok ((x, o) :: en).
Proof. intros N E y [<-|I]; [exact N|auto]. Qed.
Lemma env_app a b : env_ok a -> env_ok b -> env_ok (a ++ b).
Proof. intros A B x I. rewrite map_app in I. apply in_app_or in I as [I|I]; auto. Qed.
Lemma env_hide l en : (forall x, In x l -> ~ In x R) -> env_ok en -> env_ok (map (fun x => (x, None)) l ++ en).
Proof. intros A E. apply env_app; [|exact E]. intros x I. rewrite map_map in I. apply in_map_iff in I as (y & <- & I). auto. Qed.

Lemma tex_var x en t s : assoc x en = Some (Some (t, s)) -> tex (var x) en = Some (place_of t s).
Proof. intros A. cbn [DartStatic.tex var]. unfold name_ty. now rewrite A. Qed.
Lemma arg_plain en e t w : plain_ex e -> tex e en = Some (t, w) -> arg_ok en e t = true.
Proof. intros P T. unfold DartStatic.arg_ok. destruct e; try destruct P; rewrite T; apply fits_refl. Qed.
Lemma tex_const0 k c ts t tr en : codec k c ts t -> env_ok en -> forallb (type_ok en) ts = true -> codec_params c ts = [] ->
  tex (DConst c ts [] tr) en = Some (DTy c ts, None).
Proof.
  intros [N C _ _] E T P. rewrite tex_const, (vis c en E N), T. cbn [negb andb forallb]. unfold DartStatic.args_ok. rewrite C, P. reflexivity.
Qed.
Lemma tex_const1 k c ts t tr en e t' : codec k c ts t -> env_ok en -> forallb (type_ok en) ts = true -> codec_params c ts = [t'] -> is_const e = true -> arg_ok en e t' = true ->
  tex (DConst c ts [(None, e)] tr) en = Some (DTy c ts, None).
Proof.
  intros [N C _ _] E T P K A. rewrite tex_const, (vis c en E N), T. cbn [negb andb forallb]. rewrite K. cbn [andb]. unfold DartStatic.args_ok. rewrite C, P. cbn [map fst snd call_ok positional_ok].
  now rewrite A.
Qed.
Definition unlabelled (l : list dex) : list (option string * dex) := map (fun a => (None, a)) l.
(** A method of a codec object. *)
Lemma tex_call c ts args tr k t en m l : codec k c ts t -> tex (DConst c ts args tr) en = Some (DTy c ts, None) ->
  forall s, assoc m (interface (DTy k [t])) = Some s ->
  tex (call (DConst c ts args tr) m l) en = value (args_ok en (Some s) (unlabelled l)).
Proof.
  intros C T s A. unfold call, postfix. change (map (fun a : dex => (None, a)) l) with (unlabelled l).
  rewrite tex_post_const, T, post_meth. cbn [forallb fst]. rewrite (co_mem _ _ _ _ C m s A). destruct (value _); reflexivity.
Qed.
(** A method of a variable. *)
Lemma tex_method x en t st m l s : assoc x en = Some (Some (t, st)) -> member_of t m [] = Some s ->
  tex (call (var x) m l) en = value (args_ok en (Some s) (unlabelled l)).
Proof.
  intros A M. unfold call, postfix, var. change (map (fun a : dex => (None, a)) l) with (unlabelled l). rewrite tex_post_name. unfold name_ty. rewrite A, post_meth. cbn [forallb place_of fst]. rewrite M. destruct (value _); reflexivity.
Qed.
Lemma args_exact en ps r l : List.length ps = List.length l -> (forall p e, In (p, e) (combine ps l) -> arg_ok en e p = true) ->
  args_ok en (Some (Fun ps [] [] r)) (unlabelled l) = Some r.
Proof.
  intros L H. unfold DartStatic.args_ok, call_ok. assert (P : positional_ok ps [] (map (fun a => (fst a, arg_ok en (snd a))) (unlabelled l)) = true); [|now rewrite P].
  revert l L H. induction ps as [|p ps IH]; intros [|e l] L H; try discriminate L; [reflexivity|]. cbn [unlabelled map fst snd positional_ok].
  rewrite (H p e) by now left. apply IH; [now injection L|]. intros q f I. apply H. now right.
Qed.

(** A reader and a writer in scope. *)
Definition reads (en : tenv) : Prop := env_ok en /\ exists s, assoc "reader" en = Some (Some (t0 "BytesReader", s)).
Definition writes (en : tenv) : Prop := env_ok en /\ exists s, assoc "writer" en = Some (Some (t0 "BytesWriter", s)).
Lemma arg_reader en : reads en -> arg_ok en (var "reader") (t0 "BytesReader") = true.
Proof. intros [_ [s A]]. eapply arg_plain; [exact I|]. rewrite (tex_var _ _ _ _ A). reflexivity. Qed.
Lemma arg_writer en : writes en -> arg_ok en (var "writer") (t0 "BytesWriter") = true.
Proof. intros [_ [s A]]. eapply arg_plain; [exact I|]. rewrite (tex_var _ _ _ _ A). reflexivity. Qed.
Lemma reader_member t : member_of (t0 "BytesReader") ("read" ++ DartTree.prim_name t) [] = Some (Fun [] [] [] (prim_ty (DartTree.prim_name t))).
Proof.
  unfold DartStatic.member_of, t0. rewrite known_out by (vm_compute; tauto). change (lib_codec ext "BytesReader" []) with (@None dty). cbn [lib_member String.eqb Ascii.eqb Bool.eqb]. now rewrite prim_of_name.
Qed.
Lemma writer_member t : member_of (t0 "BytesWriter") ("write" ++ DartTree.prim_name t) [] = Some (Fun [prim_ty (DartTree.prim_name t)] [] [] (t0 "void")).
Proof.
  unfold DartStatic.member_of, t0. rewrite known_out by (vm_compute; tauto). change (lib_codec ext "BytesWriter" []) with (@None dty). cbn [lib_member String.eqb Ascii.eqb Bool.eqb]. now rewrite prim_of_name.
Qed.
Lemma tex_read_prim t en : reads en -> is_prim t = true -> tex (call (var "reader") ("read" ++ DartTree.prim_name t) []) en = Some (dty_of t, None).
Proof. intros [_ [s A]] P. rewrite (tex_method _ _ _ _ _ _ _ A (reader_member t)), prim_ty_of by exact P. reflexivity. Qed.

(** The codec objects of a type. *)
Lemma prefix_codec g : mentioned g = true -> match g with TyGeneric _ _ => false | _ => true end = true ->
  codec "IntoBuffers" (generate_class_prefix g ++ "IntoBuffers") [] (dty_of g).
Proof.
  destruct g as [i sz sg|i sz|i|i|g l|m]; intros M E; try discriminate E; cbn [generate_class_prefix dty_of]; try (apply codec_lib; [vm_compute; tauto|reflexivity]).
  apply codec_other; [exact M|now left].
Qed.
Lemma params_in c k ts t : codec k c ts t -> codec_params c ts = [] \/ c = "ListIntoBuffers" \/ c = "ListEmplaceToBuffers".
Proof. intros _. unfold codec_params. destruct (among _ c) eqn:E; [|now left]. apply among_in in E as [<-|[<-|[]]]; tauto. Qed.
Lemma codec_params_suffix p k : In k kinds -> p <> "List" -> codec_params (p ++ k) [] = [].
Proof.
  intros K N. unfold codec_params. destruct (among _ (p ++ k)) eqn:E; [|reflexivity]. exfalso. apply N.
  assert (S : forall q, (q ++ k)%string = (p ++ k)%string -> p = q).
  { intros q H. assert (X : strip k (q ++ k) = strip k (p ++ k)) by now rewrite H. rewrite !strip_app in X. now injection X. }
  apply among_in in E. destruct K as [<-|[<-|[<-|[]]]]; destruct E as [E|[E|[]]].
  - apply (S "List"). exact E.
  - assert (X : strip "IntoBuffers" (p ++ "IntoBuffers") = strip "IntoBuffers" "ListEmplaceToBuffers") by now rewrite E. rewrite strip_app in X. discriminate X.
  - assert (X : strip "EmplaceToBuffers" (p ++ "EmplaceToBuffers") = strip "EmplaceToBuffers" "ListIntoBuffers") by now rewrite E. rewrite strip_app in X. discriminate X.
  - apply (S "List"). exact E.
  - assert (X : strip "BuffersFactory" (p ++ "BuffersFactory") = strip "BuffersFactory" "ListIntoBuffers") by now rewrite E. rewrite strip_app in X. discriminate X.
  - assert (X : strip "BuffersFactory" (p ++ "BuffersFactory") = strip "BuffersFactory" "ListEmplaceToBuffers") by now rewrite E. rewrite strip_app in X. discriminate X.
Qed.
Lemma not_list m : mentioned (TyOther m) = true -> m <> "List".
Proof.
  intros M ->. destruct (other_cases _ M) as [E|[(d & I & E)|I]]; [discriminate E| |].
  - destruct (type_of _ M) as (A & _ & _). cbn [dty_of ty0] in A. unfold ty0 in A. cbn [type_known forallb andb] in A. rewrite known_out in A by (vm_compute; tauto). discriminate A.
  - destruct (ext_out _ I) as [_ K]. discriminate K.
Qed.

Lemma types_okay en l : env_ok en -> forallb mentioned l = true -> forallb (type_ok en) (map dty_of l) = true.
Proof.
  intros E. induction l as [|a l IH]; [reflexivity|]. cbn [forallb map]. rewrite andb_true_iff. intros [A L]. now rewrite type_okay, IH.
Qed.
Lemma usable_mentioned t : usable t = true -> mentioned t = true.
Proof. unfold DartStaticSpec.usable. rewrite andb_true_iff. tauto. Qed.
Lemma list_arg g en : env_ok en -> mentioned g = true -> match g with TyGeneric _ _ => false | _ => true end = true ->
  arg_ok en (const0 (generate_class_prefix g ++ "IntoBuffers")) (DTy "IntoBuffers" [dty_of g]) = true.
Proof.
  intros E M N. pose proof (prefix_codec g M N) as C. unfold DartStatic.arg_ok, const0.
  assert (P : codec_params (generate_class_prefix g ++ "IntoBuffers") [] = []).
  { apply codec_params_suffix; [cbn; tauto|]. destruct g as [i sz sg|i sz|i|i|g l|m]; try discriminate; cbn [generate_class_prefix]. now apply not_list. }
  rewrite (tex_const0 _ _ _ _ false en C E eq_refl P). unfold fits, subtype. rewrite (co_impl _ _ _ _ C), same_ty_refl. now rewrite !orb_true_r.
Qed.
Lemma into_facts t : usable t = true -> is_prim t = false -> exists c ts args tr, into_codec t = DConst c ts args tr /\ codec "IntoBuffers" c ts (dty_of t) /\
  forall en, env_ok en -> tex (into_codec t) en = Some (DTy c ts, None).
Proof.
  intros U P. pose proof (usable_mentioned t U) as M. destruct t as [i sz sg|i sz|i|i|g l|m]; try discriminate P.
  - cbn [into_codec]. assert (ML : forallb mentioned l = true) by (cbn [DartStaticSpec.mentioned] in M; now apply andb_true_iff in M).
    destruct (String.eqb_spec g "Vec") as [->|NV].
    + destruct l as [|a [|b l]]; try (cbn in M; discriminate M). change (vec_element "Vec" [a]) with (Some a). cbn beta iota.
      assert (C : codec "IntoBuffers" "ListIntoBuffers" [dty_of a] (dty_of (TyGeneric "Vec" [a]))) by (apply codec_lib; [vm_compute; tauto|reflexivity]).
      eexists; eexists; eexists; eexists. split; [reflexivity|]. split; [exact C|]. intros en E.
      unfold DartStaticSpec.usable in U. apply andb_true_iff in U as [_ U]. cbn in U. rewrite orb_false_r in U.
      cbn [forallb] in ML. rewrite andb_true_r in ML.
      eapply tex_const1; [exact C|exact E|cbn [forallb]; now rewrite type_okay|reflexivity|reflexivity|]. apply list_arg; try assumption. now destruct a.
    + assert (G : In g ext) by (cbn [DartStaticSpec.mentioned] in M; apply andb_true_iff in M as [M _]; destruct (String.eqb_spec g "Vec"); [contradiction|now apply among_in]).
      assert (C : codec "IntoBuffers" (g ++ "IntoBuffers") (map dty_of l) (dty_of (TyGeneric g l))).
      { cbn [dty_of]. unfold list_name. destruct (String.eqb_spec g "Vec"); [contradiction|]. apply codec_ext; [exact G|cbn; tauto]. }
      assert (Y : vec_element g l = None).
      { unfold vec_element. destruct l as [|a [|b l]]; try reflexivity. destruct (String.eqb_spec g "Vec"); [contradiction|reflexivity]. }
      rewrite Y. eexists; eexists; eexists; eexists. split; [reflexivity|]. split; [exact C|]. intros en E.
      eapply tex_const0; [exact C|exact E|now apply types_okay|]. assert (NL : g <> "List") by (intros ->; destruct (ext_out _ G) as [_ K]; discriminate K).
      pose proof (codec_params_suffix g "IntoBuffers" ltac:(cbn; tauto) NL) as Z. unfold codec_params in Z |- *. destruct (among _ _); [discriminate Z|reflexivity].
  - cbn [into_codec]. pose proof (codec_other m "IntoBuffers" M (or_introl eq_refl)) as C. eexists; eexists; eexists; eexists. split; [reflexivity|]. split; [exact C|]. intros en E.
    eapply tex_const0; [exact C|exact E|reflexivity|]. apply codec_params_suffix; [cbn; tauto|now apply not_list].
Qed.
Lemma emplace_facts t : usable t = true -> is_prim t = false -> is_string t = false -> exists c ts args tr, emplace_codec t = DConst c ts args tr /\ codec "EmplaceToBuffers" c ts (dty_of t) /\
  forall en, env_ok en -> tex (emplace_codec t) en = Some (DTy c ts, None).
Proof.
  intros U P NS. pose proof (usable_mentioned t U) as M. destruct t as [i sz sg|i sz|i|i|g l|m]; try discriminate P.
  - cbn [emplace_codec]. assert (ML : forallb mentioned l = true) by (cbn [DartStaticSpec.mentioned] in M; now apply andb_true_iff in M).
    destruct (String.eqb_spec g "Vec") as [->|NV].
    + destruct l as [|a [|b l]]; try (cbn in M; discriminate M). change (vec_element "Vec" [a]) with (Some a). cbn beta iota.
      assert (C : codec "EmplaceToBuffers" "ListEmplaceToBuffers" [dty_of a] (dty_of (TyGeneric "Vec" [a]))) by (apply codec_lib; [vm_compute; tauto|reflexivity]).
      eexists; eexists; eexists; eexists. split; [reflexivity|]. split; [exact C|]. intros en E.
      unfold DartStaticSpec.usable in U. apply andb_true_iff in U as [_ U]. cbn in U. rewrite orb_false_r in U.
      cbn [forallb] in ML. rewrite andb_true_r in ML.
      eapply tex_const1; [exact C|exact E|cbn [forallb]; now rewrite type_okay|reflexivity|reflexivity|]. apply list_arg; try assumption. now destruct a.
    + assert (G : In g ext) by (cbn [DartStaticSpec.mentioned] in M; apply andb_true_iff in M as [M _]; destruct (String.eqb_spec g "Vec"); [contradiction|now apply among_in]).
      assert (C : codec "EmplaceToBuffers" (g ++ "EmplaceToBuffers") (map dty_of l) (dty_of (TyGeneric g l))).
      { cbn [dty_of]. unfold list_name. destruct (String.eqb_spec g "Vec"); [contradiction|]. apply codec_ext; [exact G|cbn; tauto]. }
      assert (Y : vec_element g l = None).
      { unfold vec_element. destruct l as [|a [|b l]]; try reflexivity. destruct (String.eqb_spec g "Vec"); [contradiction|reflexivity]. }
      rewrite Y. eexists; eexists; eexists; eexists. split; [reflexivity|]. split; [exact C|]. intros en E.
      eapply tex_const0; [exact C|exact E|now apply types_okay|]. assert (NL : g <> "List") by (intros ->; destruct (ext_out _ G) as [_ K]; discriminate K).
      pose proof (codec_params_suffix g "EmplaceToBuffers" ltac:(cbn; tauto) NL) as Z. unfold codec_params in Z |- *. destruct (among _ _); [discriminate Z|reflexivity].
  - cbn [is_string] in NS. cbn [emplace_codec]. rewrite NS. assert (NE : m <> "String") by now apply String.eqb_neq.
    pose proof (codec_other m "EmplaceToBuffers" M (or_intror (or_intror (conj eq_refl NE)))) as C. eexists; eexists; eexists; eexists. split; [reflexivity|]. split; [exact C|]. intros en E.
    eapply tex_const0; [exact C|exact E|reflexivity|]. apply codec_params_suffix; [cbn; tauto|now apply not_list].
Qed.
Lemma tex_default t : usable t = true -> tex (default_ex t) [] = Some (dty_of t, None).
Proof.
  intros U. pose proof (usable_mentioned t U) as M. destruct t as [i sz sg|i sz|i|i|g l|m]; try reflexivity.
  - cbn [default_ex]. assert (ML : forallb mentioned l = true) by (cbn [DartStaticSpec.mentioned] in M; now apply andb_true_iff in M).
    assert (C : codec "BuffersFactory" (list_name g ++ "BuffersFactory") (map dty_of l) (dty_of (TyGeneric g l)) /\ codec_params (list_name g ++ "BuffersFactory") (map dty_of l) = []).
    { cbn [dty_of]. cbn [DartStaticSpec.mentioned] in M. apply andb_true_iff in M as [M _]. unfold list_name. destruct (String.eqb_spec g "Vec") as [->|NV].
      - apply Nat.eqb_eq in M. destruct l as [|a [|b l]]; try discriminate M. split; [apply codec_lib; [vm_compute; tauto|reflexivity]|reflexivity].
      - apply among_in in M. split; [apply codec_ext; [exact M|cbn; tauto]|]. assert (NL : g <> "List") by (intros ->; destruct (ext_out _ M) as [_ K]; discriminate K).
        pose proof (codec_params_suffix g "BuffersFactory" ltac:(cbn; tauto) NL) as Z. unfold codec_params in Z |- *. destruct (among _ _); [discriminate Z|reflexivity]. }
    destruct C as [C P].
    rewrite (tex_call _ _ _ _ _ _ _ "createDefault" _ C (tex_const0 _ _ _ _ false [] C env_nil (types_okay _ _ env_nil ML) P) _ eq_refl). reflexivity.
  - cbn [default_ex]. pose proof (codec_other m "BuffersFactory" M (or_intror (or_introl eq_refl))) as C.
    assert (P : codec_params (m ++ "BuffersFactory") [] = []) by (apply codec_params_suffix; [cbn; tauto|now apply not_list]).
    unfold const0. rewrite (tex_call _ _ _ _ _ _ _ "createDefault" _ C (tex_const0 _ _ _ _ false [] C env_nil eq_refl P) _ eq_refl). reflexivity.
Qed.

Lemma one_reader en ps r : reads en -> ps = [t0 "BytesReader"] -> args_ok en (Some (Fun ps [] [] r)) (unlabelled [var "reader"]) = Some r.
Proof. intros W ->. apply args_exact; [reflexivity|]. intros p e [[= <- <-]|[]]. now apply arg_reader. Qed.
Lemma two_args en r a b e f : arg_ok en e a = true -> arg_ok en f b = true -> args_ok en (Some (Fun [a; b] [] [] r)) (unlabelled [e; f]) = Some r.
Proof. intros A B. apply args_exact; [reflexivity|]. intros p x [[= <- <-]|[[= <- <-]|[]]]; assumption. Qed.
Lemma tex_read t en : reads en -> usable t = true -> tex (read_ex t) en = Some (dty_of t, None).
Proof.
  intros W U. unfold read_ex. destruct (is_prim t) eqn:P; [now apply tex_read_prim|].
  destruct (into_facts t U P) as (c & ts & args & tr & E & C & T). specialize (T en (proj1 W)). rewrite E in T |- *.
  rewrite (tex_call _ _ _ _ _ _ _ "read" _ C T _ eq_refl), one_reader by (assumption || reflexivity). reflexivity.
Qed.
Lemma st_write t a w en r : writes en -> usable t = true -> plain_ex a -> tex a en = Some (dty_of t, w) -> tst (write_st t a) r en = Some (en, Goes).
Proof.
  intros W U PA A. unfold write_st. rewrite st_expr. pose proof (arg_plain en a _ _ PA A) as AA. destruct (is_prim t) eqn:P.
  - destruct W as [_ [s AW]]. rewrite (tex_method _ _ _ _ _ _ _ AW (writer_member t)), prim_ty_of by exact P.
    rewrite args_exact; [reflexivity|reflexivity|]. intros p e [[= <- <-]|[]]. exact AA.
  - destruct (into_facts t U P) as (c & ts & args & tr & E & C & T). specialize (T en (proj1 W)). rewrite E in T |- *.
    rewrite (tex_call _ _ _ _ _ _ _ "write" _ C T _ eq_refl), two_args by (assumption || now apply arg_writer). reflexivity.
Qed.
Lemma st_write_emplace t a w en r : writes en -> usable t = true -> plain_ex a -> tex a en = Some (dty_of t, w) -> tst (write_emplace_st t a) r en = Some (en, Goes).
Proof.
  intros W U PA A. unfold write_emplace_st. destruct (is_prim t) eqn:P; [now apply st_write with w|]. rewrite st_expr. pose proof (arg_plain en a _ _ PA A) as AA.
  destruct (is_string t) eqn:S.
  - destruct t as [| | | | |m]; try discriminate S. cbn [is_string] in S. cbn [emplace_codec]. rewrite S. destruct (into_facts (TyOther m) U P) as (c & ts & args & tr & E & C & T).
    specialize (T en (proj1 W)). cbn [into_codec] in E, T. rewrite E in T |- *.
    rewrite (tex_call _ _ _ _ _ _ _ "write" _ C T _ eq_refl), two_args by (assumption || now apply arg_writer). reflexivity.
  - destruct (emplace_facts t U P S) as (c & ts & args & tr & E & C & T). specialize (T en (proj1 W)). rewrite E in T |- *.
    rewrite (tex_call _ _ _ _ _ _ _ "write" _ C T _ eq_refl), two_args by (assumption || now apply arg_writer). reflexivity.
Qed.
Lemma st_read_emplace t a en r : reads en -> usable t = true -> plain_ex a -> tex a en = Some (dty_of t, Some (dty_of t)) -> tst (read_emplace_st t a) r en = Some (en, Goes).
Proof.
  intros W U PA A. unfold read_emplace_st. rewrite st_expr. destruct (is_prim t || is_string t) eqn:P.
  - rewrite tex_set, A, tex_read, fits_refl by assumption. reflexivity.
  - apply orb_false_iff in P as [P S]. pose proof (arg_plain en a _ _ PA A) as AA. destruct (emplace_facts t U P S) as (c & ts & args & tr & E & C & T). specialize (T en (proj1 W)). rewrite E in T |- *.
    rewrite (tex_call _ _ _ _ _ _ _ "read" _ C T _ eq_refl), two_args by (assumption || now apply arg_reader). reflexivity.
Qed.
Lemma arg_one en : arg_ok en (DNum "1") (t0 "int") = true. Proof. reflexivity. Qed.
Lemma st_skip t en r : reads en -> usable t = true -> tst (skip_st t) r en = Some (en, Goes).
Proof.
  intros W U. unfold skip_st. rewrite st_expr. destruct (is_prim t) eqn:P; [now rewrite tex_read|].
  destruct (into_facts t U P) as (c & ts & args & tr & E & C & T). specialize (T en (proj1 W)). rewrite E in T |- *.
  rewrite (tex_call _ _ _ _ _ _ _ "skip" _ C T _ eq_refl), two_args; [reflexivity|now apply arg_reader|apply arg_one].
Qed.
Lemma st_skip_emplace t en r : reads en -> usable t = true -> tst (skip_emplace_st t) r en = Some (en, Goes).
Proof.
  intros W U. unfold skip_emplace_st. rewrite st_expr. destruct (is_prim t) eqn:P; [now rewrite tex_read|]. destruct (is_string t) eqn:S.
  - destruct t as [| | | | |m]; try discriminate S. cbn [is_string] in S. cbn [emplace_codec]. rewrite S. destruct (into_facts (TyOther m) U P) as (c & ts & args & tr & E & C & T).
    specialize (T en (proj1 W)). cbn [into_codec] in E, T. rewrite E in T |- *.
    rewrite (tex_call _ _ _ _ _ _ _ "skip" _ C T _ eq_refl), two_args; [reflexivity|now apply arg_reader|apply arg_one].
  - destruct (emplace_facts t U P S) as (c & ts & args & tr & E & C & T). specialize (T en (proj1 W)). rewrite E in T |- *.
    rewrite (tex_call _ _ _ _ _ _ _ "skip" _ C T _ eq_refl), two_args; [reflexivity|now apply arg_reader|apply arg_one].
Qed.

(** ** Blocks *)

Lemma chain_goes (f : dst -> tenv -> option (tenv * flow)) l k en : (forall s, In s l -> f s en = Some (en, Goes)) -> chain f (l ++ k) en = chain f k en.
Proof.
  induction l as [|s l IH]; intros H; [reflexivity|]. cbn [app chain]. rewrite (H s) by now left. change ((fix go (l0 : list dst) (en0 : tenv) {struct l0} : option flow := _) (l ++ k) en) with (chain f (l ++ k) en).
  rewrite IH by (intros t I; apply H; now right). destruct (chain f k en); reflexivity.
Qed.
Lemma chain_all (f : dst -> tenv -> option (tenv * flow)) l en : (forall s, In s l -> f s en = Some (en, Goes)) -> chain f l en = Some Goes.
Proof. intros H. rewrite <- (app_nil_r l). now rewrite chain_goes. Qed.
Lemma chain_cons (f : dst -> tenv -> option (tenv * flow)) s l en en' : f s en = Some (en', Goes) -> chain f (s :: l) en = chain f l en'.
Proof. intros H. cbn [chain]. rewrite H. change ((fix go (l0 : list dst) (en0 : tenv) {struct l0} : option flow := _) l en') with (chain f l en'). destruct (chain f l en'); reflexivity. Qed.
Lemma chain_last (f : dst -> tenv -> option (tenv * flow)) s en en' w : f s en = Some (en', w) -> chain f [s] en = Some w.
Proof. intros H. cbn [chain]. rewrite H. now destruct w. Qed.
Lemma locals_app a b : locals (a ++ b) = locals a ++ locals b. Proof. apply flat_map_app. Qed.
Lemma locals_none l : (forall s, In s l -> match s with DFinal _ _ => False | _ => True end) -> locals l = [].
Proof. induction l as [|s l IH]; intros H; [reflexivity|]. unfold locals in *. cbn [flat_map]. rewrite IH by (intros t I; apply H; now right). specialize (H s (or_introl eq_refl)). now destruct s. Qed.
Lemma block_plain f l en : locals l = [] -> block f l en = chain f l en.
Proof. intros L. unfold block. now rewrite L. Qed.
End Code.

(** ** Classes *)

Lemma distinct_of l : NoDup l -> distinct l = true.
Proof. induction 1 as [|x l N _ IH]; [reflexivity|]. cbn [distinct]. rewrite IH, andb_true_r. apply negb_true_iff, among_out. exact N. Qed.
Lemma mnames_cons m l : member_names (m :: l) = member_name m ++ member_names l. Proof. destruct m; reflexivity. Qed.
Lemma mnames_app a b : member_names (a ++ b) = member_names a ++ member_names b. Proof. apply flat_map_app. Qed.
Lemma mname_in n m ms : In m ms -> In n (member_name m) -> In n (member_names ms).
Proof. induction ms as [|k l IH]; [easy|]. rewrite mnames_cons, in_app_iff. intros [->|I] J; [now left|right; auto]. Qed.
Definition field_sig (m : dmember) : option (string * dty * bool) :=
  match m with
  | MField t n _ | MLate t n => Some (n, t, true)
  | MFinal (Some t) n _ => Some (n, t, false)
  | MFinal None n (Some e) => option_map (fun t => (n, t, false)) (init_ty e)
  | _ => None
  end.
Lemma field_ty_cons x m l : field_ty x (m :: l) =
  match m with
  | MField t n _ | MLate t n => if String.eqb x n then Some (t, true) else field_ty x l
  | MFinal (Some t) n _ => if String.eqb x n then Some (t, false) else field_ty x l
  | MFinal None n (Some e) => if String.eqb x n then option_map (fun t => (t, false)) (init_ty e) else field_ty x l
  | _ => field_ty x l
  end.
Proof. destruct m as [| | | | | |[t|] n [e|]| | |]; reflexivity. Qed.
Lemma field_ty_none n ms : (forall m, In m ms -> In n (member_name m) -> match m with MField _ _ _ | MLate _ _ | MFinal _ _ _ => False | _ => True end) -> field_ty n ms = None.
Proof.
  induction ms as [|m l IH]; intros H; [reflexivity|]. specialize (IH (fun k I => H k (or_intror I))). specialize (H m (or_introl eq_refl)). rewrite field_ty_cons, IH.
  destruct m as [| | | |x e|t x|[t|] x [e|]|t x e|t x e|st t x ps b]; try reflexivity; destruct (String.eqb_spec n x) as [->|]; try reflexivity; destruct (H (or_introl eq_refl)).
Qed.
Lemma field_ty_in ms m n t s : NoDup (member_names ms) -> In m ms -> field_sig m = Some (n, t, s) -> field_ty n ms = Some (t, s).
Proof.
  induction ms as [|k l IH]; intros N I F; [destruct I|]. rewrite mnames_cons in N. rewrite field_ty_cons.
  assert (NM : In n (member_name m)).
  { destruct m as [| | | |x e|t' x|[t'|] x [e|]|t' x e|t' x e|st t' x ps b]; cbn [field_sig] in F; try discriminate F; try (injection F as <- <- <-; now left).
    destruct (init_ty e); try discriminate F. injection F as <- <- <-. now left. }
  destruct I as [->|I].
  - destruct m as [| | | |x e|t' x|[t'|] x [e|]|t' x e|t' x e|st t' x ps b]; cbn [field_sig] in F; try discriminate F; try (injection F as <- <- <-; now rewrite String.eqb_refl).
    destruct (init_ty e) as [u|]; try discriminate F. injection F as <- <- <-. rewrite String.eqb_refl. reflexivity.
  - assert (D : ~ In n (member_name k)) by (intros J; exact (NoDup_app_disjoint _ _ n N J (mname_in _ _ _ I NM))).
    specialize (IH (NoDup_app_remove_l _ _ N) I F). rewrite IH.
    destruct k as [| | | |x e|t' x|[t'|] x [e|]|t' x e|t' x e|st t' x ps b]; try reflexivity; destruct (String.eqb_spec n x) as [->|]; try reflexivity; exfalso; apply D; now left.
Qed.
Lemma inst_none all n ms : (forall m, In m ms -> In n (member_name m) -> match m with MGet _ _ _ | MMeth false _ _ _ _ => False | _ => True end) -> inst_member all n ms = None.
Proof.
  induction ms as [|m l IH]; intros H; [reflexivity|]. specialize (IH (fun k I => H k (or_intror I))). specialize (H m (or_introl eq_refl)).
  destruct m as [| | | |x e|t x|t x e|t x e|t x e|[|] t x ps b]; cbn [inst_member]; try exact IH; rewrite IH; destruct (String.eqb_spec n x) as [->|]; try reflexivity; destruct (H (or_introl eq_refl)).
Qed.
Lemma inst_in all ms m n : NoDup (member_names ms) -> In m ms -> In n (member_name m) ->
  inst_member all n ms = match m with MGet t _ _ => Some (Var t false) | MMeth false r _ ps _ => signature all ps r | _ => None end.
Proof.
  induction ms as [|k l IH]; intros N I M; [destruct I|]. rewrite mnames_cons in N. destruct I as [->|I].
  - assert (L : inst_member all n l = None).
    { apply inst_none. intros k I J. exfalso. exact (NoDup_app_disjoint _ _ n N M (mname_in _ _ _ I J)). }
    destruct m as [| | | |x e|t x|t x e|t x e|t x e|[|] t x ps b]; cbn [inst_member]; try exact L; destruct M as [<-|[]]; now rewrite String.eqb_refl.
  - assert (D : ~ In n (member_name k)) by (intros J; exact (NoDup_app_disjoint _ _ n N J (mname_in _ _ _ I M))).
    specialize (IH (NoDup_app_remove_l _ _ N) I M).
    destruct k as [| | | |x e|t' x|t' x e|t' x e|t' x e|[|] t' x ps b]; cbn [inst_member]; try exact IH; (destruct (String.eqb_spec n x) as [->|]; [exfalso; apply D; now left|exact IH]).
Qed.
Lemma class_none all n ms : (forall m, In m ms -> In n (member_name m) -> match m with MStatic _ _ | MMeth true _ _ _ _ => False | _ => True end) -> class_member all n ms = None.
Proof.
  induction ms as [|m l IH]; intros H; [reflexivity|]. specialize (IH (fun k I => H k (or_intror I))). specialize (H m (or_introl eq_refl)).
  destruct m as [| | | |x e|t x|t x e|t x e|t x e|[|] t x ps b]; cbn [class_member]; try exact IH; rewrite IH; destruct (String.eqb_spec n x) as [->|]; try reflexivity; destruct (H (or_introl eq_refl)).
Qed.
Lemma class_in all ms m n : NoDup (member_names ms) -> In m ms -> In n (member_name m) ->
  class_member all n ms = match m with MStatic _ e => option_map (fun t => Var t false) (init_ty e) | MMeth true r _ ps _ => signature all ps r | _ => None end.
Proof.
  induction ms as [|k l IH]; intros N I M; [destruct I|]. rewrite mnames_cons in N. destruct I as [->|I].
  - assert (L : class_member all n l = None).
    { apply class_none. intros k I J. exfalso. exact (NoDup_app_disjoint _ _ n N M (mname_in _ _ _ I J)). }
    destruct m as [| | | |x e|t x|t x e|t x e|t x e|[|] t x ps b]; cbn [class_member]; try exact L; destruct M as [<-|[]]; now rewrite String.eqb_refl.
  - assert (D : ~ In n (member_name k)) by (intros J; exact (NoDup_app_disjoint _ _ n N J (mname_in _ _ _ I M))).
    specialize (IH (NoDup_app_remove_l _ _ N) I M).
    destruct k as [| | | |x e|t' x|t' x e|t' x e|t' x e|[|] t' x ps b]; cbn [class_member]; try exact IH; (destruct (String.eqb_spec n x) as [->|]; [exfalso; apply D; now left|exact IH]).
Qed.
Lemma field_ty_other ms m n : NoDup (member_names ms) -> In m ms -> In n (member_name m) -> field_sig m = None -> match m with MFinal _ _ _ => False | _ => True end -> field_ty n ms = None.
Proof.
  intros N I M F NF. apply field_ty_none. intros k J K. assert (k = m) as ->; [|destruct m; try discriminate F; auto].
  clear F NF. revert N I J. induction ms as [|j l IH]; intros N I J; [destruct I|]. rewrite mnames_cons in N. destruct I as [->|I], J as [->|J]; try reflexivity.
  - exfalso. exact (NoDup_app_disjoint _ _ n N M (mname_in _ _ _ J K)).
  - exfalso. exact (NoDup_app_disjoint _ _ n N K (mname_in _ _ _ I M)).
  - apply IH; try assumption. exact (NoDup_app_remove_l _ _ N).
Qed.
(** What a member of a class means in it and outside. *)
Lemma own_field ms inst m n t s : NoDup (member_names ms) -> In m ms -> field_sig m = Some (n, t, s) -> own ms inst n = Some (inst, Var t s).
Proof.
  intros N I F. assert (NM : In n (member_name m) /\ match m with MStatic _ _ | MMeth _ _ _ _ _ => False | _ => True end).
  { destruct m as [| | | |x e|t' x|[t'|] x [e|]|t' x e|t' x e|st t' x ps b]; cbn [field_sig] in F; try discriminate F; try (injection F as <- <- <-; split; [now left|exact Logic.I]).
    destruct (init_ty e); try discriminate F. injection F as <- <- <-. split; [now left|exact Logic.I]. }
  destruct NM as [NM C]. unfold own, object_member. rewrite (class_in ms ms m n N I NM), (field_ty_in ms m n t s N I F). destruct m; try reflexivity; destruct C.
Qed.
Lemma own_method ms inst r n ps b s : NoDup (member_names ms) -> In (MMeth false r n ps b) ms -> signature ms ps r = Some s -> own ms inst n = Some (inst, s).
Proof.
  intros N I S. assert (NM : In n (member_name (MMeth false r n ps b))) by now left.
  unfold own, object_member. now rewrite (class_in ms ms _ n N I NM), (field_ty_other ms _ n N I NM eq_refl Logic.I), (inst_in ms ms _ n N I NM), S.
Qed.
Lemma own_static ms inst n e t : NoDup (member_names ms) -> In (MStatic n e) ms -> init_ty e = Some t -> own ms inst n = Some (true, Var t false).
Proof.
  intros N I S. assert (NM : In n (member_name (MStatic n e))) by now left. unfold own. now rewrite (class_in ms ms _ n N I NM), S.
Qed.
Lemma own_none ms inst n : ~ In n (member_names ms) -> own ms inst n = None.
Proof.
  intros N. unfold own, object_member. rewrite class_none, field_ty_none, inst_none; [reflexivity| | |]; intros m I J; exfalso; apply N; eapply mname_in; eassumption.
Qed.

Hypothesis names : forallb (item_names_fine ext items) items = true.

Lemma members_fine c i ms : In (DClass c i ms) items -> match i with None => holder ms | Some _ => false end = false ->
  distinct (member_names ms) = true /\ forall n, In n (member_names ms) -> ~ In n R /\ ~ In n (c :: ConstSpec.dart_object).
Proof.
  intros I E. rewrite forallb_forall in names. specialize (names _ I). cbn [item_names_fine] in names.
  rewrite E in names. cbn [orb] in names. apply andb_true_iff in names as [A B]. split; [exact A|]. intros n J. rewrite forallb_forall in B. specialize (B n J).
  apply negb_true_iff, among_out in B. rewrite in_app_iff in B. split; [tauto|]. intros [<-|X]; [|tauto]. apply B. left. apply R_top. exact (in_top_class _ _ _ _ I).
Qed.
Lemma names_check c (l : list string) : (forall n, In n l -> ~ In n R /\ ~ In n (c :: ConstSpec.dart_object)) -> forallb (fun n => negb (among (c :: ConstSpec.dart_object) n)) l = true.
Proof. intros H. apply forallb_forall. intros n I. apply negb_true_iff, among_out. now apply H. Qed.
(** A name that stands for a class. *)
Lemma name_other ms inst n en : (forall x, In x (member_names ms) -> ~ In x R) -> env_ok en -> In n R -> ~ In n ["null"; "true"; "false"] -> DartSem.find_const n items = None ->
  name_ty items ms inst n en = Other /\ own ms inst n = None.
Proof.
  intros MO E I K F. assert (O : own ms inst n = None) by (apply own_none; intros J; exact (MO n J I)). split; [|exact O]. unfold name_ty. rewrite (env_none n en E I).
  assert (A : among ["true"; "false"] n = false) by (apply among_out; intros J; apply K; now right). assert (B : String.eqb n "null" = false) by (apply String.eqb_neq; intros ->; apply K; now left).
  now rewrite A, B, O, F.
Qed.
Lemma class_other c i cms ms inst en : (forall x, In x (member_names ms) -> ~ In x R) -> env_ok en -> In (DClass c i cms) items -> ~ In c ["null"; "true"; "false"] ->
  name_ty items ms inst c en = Other /\ own ms inst c = None.
Proof. intros MO E I K. apply name_other; try assumption; [exact (R_top _ (in_top_class _ _ _ _ I))|exact (proj1 (class_not_const _ _ _ _ nd I))]. Qed.
Lemma lib_other c ms inst en : (forall x, In x (member_names ms) -> ~ In x R) -> env_ok en -> In c known -> name_ty items ms inst c en = Other /\ own ms inst c = None.
Proof.
  intros MO E I. apply name_other; try assumption; [now apply R_known| |].
  - intros [<-|[<-|[<-|[]]]]; vm_compute in I; decompose [or] I; try discriminate; contradiction.
  - apply find_const_none, among_out. now apply known_out.
Qed.
Lemma class_type c i cms : In (DClass c i cms) items -> type_known ext items (t0 c) = true /\ head_of (t0 c) <> "void".
Proof.
  intros I. pose proof (in_top_class _ _ _ _ I) as T. split.
  - unfold t0. cbn [type_known forallb]. assert (A : among tops c = true) by now apply among_in. now rewrite A, (class_of_in _ _ _ _ nd I).
  - cbn [t0 head_of]. intros ->. apply among_in in T. rewrite known_out in T by (vm_compute; tauto). discriminate.
Qed.
Lemma class_type_ok c i cms ms en : (forall x, In x (member_names ms) -> ~ In x R) -> env_ok en -> In (DClass c i cms) items -> type_ok ext items ms en (t0 c) = true.
Proof.
  intros MO E I. unfold type_ok. rewrite (proj1 (class_type _ _ _ I)). apply vis_type; try assumption. intros n [<-|[]]. exact (R_top _ (in_top_class _ _ _ _ I)).
Qed.
Lemma plain_type_ok n ms en : (forall x, In x (member_names ms) -> ~ In x R) -> env_ok en -> In n plain_types -> type_ok ext items ms en (t0 n) = true.
Proof.
  intros MO E I. assert (K : In n known) by (unfold known; rewrite !in_app_iff; tauto). unfold type_ok, t0. cbn [type_known forallb]. rewrite (known_out n K). assert (A : among plain_types n = true) by now apply among_in.
  rewrite A. apply vis_type; try assumption. intros x [<-|[]]. now apply R_known.
Qed.
Lemma kind_type_ok k t ms en : (forall x, In x (member_names ms) -> ~ In x R) -> env_ok en -> In k kinds -> type_ok ext items ms en t = true -> type_ok ext items ms en (DTy k [t]) = true.
Proof.
  intros MO E I T. assert (K : In k known) by (unfold known; rewrite !in_app_iff; tauto). unfold type_ok in *. apply andb_true_iff in T as [T V]. cbn [type_known visible_ty forallb].
  rewrite T, V, (known_out k K), (vis ms MO k en E (R_known k K)). destruct I as [<-|[<-|[<-|[]]]]; reflexivity.
Qed.

(** *** Factories and codecs *)

Definition factory_members (id : string) (e : dex) : list dmember :=
  [ MConstCtor (id ++ "BuffersFactory"); override; MMeth false (ty0 id) "createDefault" (PPos [] false) (BArrow e) ].
Lemma factory_okay id e i cms w : In (DClass id i cms) items -> In (factory_class id e) items ->
  ((forall x, In x (member_names (factory_members id e)) -> ~ In x R) -> tex ext items (factory_members id e) true e [] = Some (t0 id, w)) ->
  static_item ext items (factory_class id e) = true.
Proof.
  intros C I T. destruct (members_fine _ _ _ I eq_refl) as [D F]. assert (MO : forall x, In x (member_names (factory_members id e)) -> ~ In x R) by (intros x J; now apply F). specialize (T MO).
  unfold factory_class. cbn [static_item orb]. unfold class_ok. fold (factory_members id e) in D, F |- *. rewrite D, names_check by exact F.
  rewrite (kind_type_ok "BuffersFactory" (ty0 id) (factory_members id e) [] MO env_nil ltac:(cbn; tauto) (class_type_ok _ _ _ _ _ MO env_nil C)).
  assert (B : body_ok ext items (factory_members id e) true (BArrow e) (ty0 id) [] = true) by (unfold body_ok; rewrite T; cbn [t0 ty0]; change (DTy id []) with (t0 id); rewrite fits_refl; apply orb_true_r).
  assert (TI : type_ok ext items (factory_members id e) [] (ty0 id) = true) by exact (class_type_ok _ _ _ _ _ MO env_nil C).
  assert (O1 : member_ok ext items (id ++ "BuffersFactory") (factory_members id e) (MConstCtor (id ++ "BuffersFactory")) = true) by (cbn [member_ok]; rewrite String.eqb_refl; reflexivity).
  assert (O2 : member_ok ext items (id ++ "BuffersFactory") (factory_members id e) override = true) by reflexivity.
  assert (O3 : member_ok ext items (id ++ "BuffersFactory") (factory_members id e) (MMeth false (ty0 id) "createDefault" (PPos [] false) (BArrow e)) = true).
  { cbn [member_ok negb]. rewrite TI. change (param_env (PPos [] false)) with (@nil (string * option (dty * bool))). rewrite B. reflexivity. }
  assert (FM : forallb (member_ok ext items (id ++ "BuffersFactory") (factory_members id e)) (factory_members id e) = true).
  { apply forallb_forall. intros m [<-|[<-|[<-|[]]]]; assumption. }
  rewrite FM.
  assert (IM : implements_ok (factory_members id e) (DTy "BuffersFactory" [ty0 id]) = true).
  { unfold implements_ok. cbn [interface String.eqb Ascii.eqb Bool.eqb forallb]. change (object_member (factory_members id e) "createDefault") with (Some (Fun [] [] [] (ty0 id))). cbn [same_mem]. now rewrite same_ty_refl. }
  rewrite IM. reflexivity.
Qed.

Definition codec_members (kind id : string) (r w s : dmember) : list dmember := [ MConstCtor (id ++ kind); override; r; override; w; override; s ].
Definition reader_env : tenv := [("reader", Some (t0 "BytesReader", true))].
Definition emplace_env (id : string) : tenv := [("reader", Some (t0 "BytesReader", true)); ("model", Some (t0 id, true))].
Definition writer_env (id : string) : tenv := [("writer", Some (t0 "BytesWriter", true)); ("model", Some (t0 id, true))].
Definition skip_env : tenv := [("reader", Some (t0 "BytesReader", true)); ("count", Some (t0 "int", true))].
Lemma codec_okay kind id i cms r w s rt rp rb wb sb :
  In (DClass id i cms) items -> In (codec_class kind id r w s) items ->
  (kind = "IntoBuffers" /\ rt = id /\ rp = [reader_param] \/ kind = "EmplaceToBuffers" /\ rt = "void" /\ rp = [reader_param; model_param id]) ->
  r = read_meth rt rp rb -> w = write_meth id wb -> s = skip_meth sb ->
  (let ms := codec_members kind id r w s in
   (forall x, In x (member_names ms) -> ~ In x R) ->
   body_ok ext items ms true (BBlock rb) (t0 rt) (param_env (PPos rp false)) = true /\
   body_ok ext items ms true (BBlock wb) (t0 "void") (writer_env id) = true /\
   body_ok ext items ms true (BBlock sb) (t0 "void") skip_env = true) ->
  static_item ext items (codec_class kind id r w s) = true.
Proof.
  intros C I KR -> -> -> H. destruct (members_fine _ _ _ I eq_refl) as [D F]. set (ms := codec_members _ _ _ _ _) in H. cbn zeta in H.
  assert (MO : forall x, In x (member_names ms) -> ~ In x R) by (intros x J; now apply F). destruct (H MO) as (HR & HW & HS).
  unfold codec_class. cbn [static_item orb]. unfold class_ok. fold (codec_members kind id (read_meth rt rp rb) (write_meth id wb) (skip_meth sb)). fold ms. rewrite names_check by exact F.
  change (distinct (member_names ms)) with (distinct (member_names [MConstCtor (id ++ kind); override; read_meth rt rp rb; override; write_meth id wb; override; skip_meth sb])). rewrite D.
  assert (K : In kind kinds) by (destruct KR as [[-> _]|[-> _]]; cbn; tauto).
  assert (TI : type_ok ext items ms [] (t0 id) = true) by exact (class_type_ok _ _ _ _ _ MO env_nil C).
  rewrite (kind_type_ok kind (ty0 id) ms [] MO env_nil K TI).
  assert (P : forall n, In n plain_types -> type_ok ext items ms [] (t0 n) = true) by (intros n J; apply plain_type_ok; try assumption; exact env_nil).
  assert (NV : String.eqb id "void" = false) by (apply String.eqb_neq; exact (proj2 (class_type _ _ _ C))).
  assert (IM : implements_ok ms (DTy kind [ty0 id]) = true).
  { unfold implements_ok. destruct KR as [(-> & -> & ->)|(-> & -> & ->)]; cbn [interface String.eqb Ascii.eqb Bool.eqb forallb].
    - change (object_member ms "read") with (Some (Fun [t0 "BytesReader"] [] [] (ty0 id))). change (object_member ms "write") with (Some (Fun [t0 "BytesWriter"; ty0 id] [] [] (t0 "void"))).
      change (object_member ms "skip") with (Some (Fun [t0 "BytesReader"; t0 "int"] [] [] (t0 "void"))). cbn [same_mem]. now rewrite !same_ty_refl.
    - change (object_member ms "read") with (Some (Fun [t0 "BytesReader"; ty0 id] [] [] (t0 "void"))). change (object_member ms "write") with (Some (Fun [t0 "BytesWriter"; ty0 id] [] [] (t0 "void"))).
      change (object_member ms "skip") with (Some (Fun [t0 "BytesReader"; t0 "int"] [] [] (t0 "void"))). cbn [same_mem]. now rewrite !same_ty_refl. }
  rewrite IM.
  assert (OV : member_ok ext items (id ++ kind) ms override = true) by reflexivity.
  assert (CO : member_ok ext items (id ++ kind) ms (MConstCtor (id ++ kind)) = true) by (cbn [member_ok]; rewrite String.eqb_refl; reflexivity).
  assert (P1 : type_ok ext items ms [] (t0 "BytesReader") = true) by (apply P; vm_compute; tauto).
  assert (P2 : type_ok ext items ms [] (t0 "BytesWriter") = true) by (apply P; vm_compute; tauto).
  assert (P3 : type_ok ext items ms [] (t0 "int") = true) by (apply P; vm_compute; tauto).
  assert (P4 : type_ok ext items ms [] (t0 "void") = true) by (apply P; vm_compute; tauto).
  assert (OW : member_ok ext items (id ++ kind) ms (write_meth id wb) = true).
  { unfold write_meth. cbn [member_ok negb]. change (param_env (PPos [writer_param; model_param id] false)) with (writer_env id). change (ty0 "void") with (t0 "void"). rewrite P4, HW. unfold params_ok. cbn [param_list map snd forallb fst writer_param model_param existsb is_this].
    change (ty0 "BytesWriter") with (t0 "BytesWriter"). change (ty0 id) with (t0 id). rewrite P2, TI. cbn [t0 head_of]. now rewrite NV. }
  assert (OS : member_ok ext items (id ++ kind) ms (skip_meth sb) = true).
  { unfold skip_meth. cbn [member_ok negb]. change (param_env (PPos [reader_param; (Some (ty0 "int"), "count")] false)) with skip_env. change (ty0 "void") with (t0 "void"). rewrite P4, HS. unfold params_ok. cbn [param_list map snd forallb fst reader_param existsb is_this].
    change (ty0 "BytesReader") with (t0 "BytesReader"). change (ty0 "int") with (t0 "int"). rewrite P1, P3. reflexivity. }
  assert (OR : member_ok ext items (id ++ kind) ms (read_meth rt rp rb) = true).
  { unfold read_meth. cbn [member_ok negb]. change (ty0 rt) with (t0 rt). rewrite HR. unfold params_ok. cbn [param_list].
    destruct KR as [(-> & -> & ->)|(-> & -> & ->)]; cbn [map snd forallb fst reader_param model_param existsb is_this]; change (ty0 "BytesReader") with (t0 "BytesReader"); change (ty0 id) with (t0 id).
    - rewrite TI, P1. reflexivity.
    - rewrite P4, TI, P1. cbn [t0 head_of]. now rewrite NV. }
  assert (FM : forallb (member_ok ext items (id ++ kind) ms) ms = true).
  { apply forallb_forall. intros m [<-|[<-|[<-|[<-|[<-|[<-|[<-|[]]]]]]]]; assumption. }
  rewrite FM. reflexivity.
Qed.

(** *** Structs *)

Definition struct_fields_members (s : struct_node) : list dmember :=
  map (fun f => MField (dty_of (sf_type f)) (fname f) None) (sn_fields s) ++
  [ MCtor (sn_id s) (PNamed (map (fun f => (None, fname f)) (sn_fields s))) None;
    MInitCtor (sn_id s) "createDefault" (map (fun f => (fname f, default_ex (sf_type f))) (sn_fields s)) ].
Definition struct_members (s : struct_node) : list dmember := match sn_fields s with [] => [MConstCtor (sn_id s)] | _ => struct_fields_members s end.
Definition struct_factory (s : struct_node) : dex := match sn_fields s with [] => const0 (sn_id s) | _ => call (var (sn_id s)) "createDefault" [] end.
Lemma struct_model_items s : struct_model_tree s = [DClass (sn_id s) None (struct_members s); factory_class (sn_id s) (struct_factory s)].
Proof. unfold struct_model_tree, struct_members, struct_factory, struct_fields_members. now destruct (sn_fields s). Qed.

(** A struct of the file. *)
Record struct_here (s : struct_node) : Prop := mk_here
  { sh_in : forall i, In i (struct_model_tree s) -> In i items;
    sh_slots : forall f, In f (sn_fields s) -> private (fname f) = false /\ usable (sf_type f) = true;
    sh_id : ~ In (sn_id s) ["null"; "true"; "false"] }.

Lemma struct_model s : struct_here s -> In (DClass (sn_id s) None (struct_members s)) items.
Proof. intros H. apply (sh_in s H). rewrite struct_model_items. now left. Qed.
Lemma struct_holder s : sn_fields s <> [] -> holder (struct_members s) = false.
Proof. unfold struct_members, struct_fields_members, holder. destruct (sn_fields s) as [|f fs]; [congruence|]. intros _. cbn [map app forallb]. apply andb_false_r. Qed.
Lemma struct_member_names s : member_names (struct_members s) = map fname (sn_fields s).
Proof.
  unfold struct_members, struct_fields_members. destruct (sn_fields s) as [|f fs] eqn:E; [reflexivity|]. rewrite <- E. generalize (sn_fields s). intros l. rewrite mnames_app. cbn [member_names flat_map app]. rewrite app_nil_r.
  induction l as [|a l IH]; [reflexivity|]. cbn [map]. rewrite mnames_cons, IH. reflexivity.
Qed.
Lemma struct_names s : struct_here s -> NoDup (map fname (sn_fields s)) /\ forall f, In f (sn_fields s) -> ~ In (fname f) R.
Proof.
  intros H. destruct (sn_fields s) as [|f fs] eqn:E; [split; [constructor|intros f []]|].
  destruct (members_fine _ _ _ (struct_model s H)) as [D F]; [apply struct_holder; congruence|]. rewrite struct_member_names, E in D, F.
  split; [now apply RustDefaultRuns.distinct_NoDup|]. intros g I. apply F. now apply in_map.
Qed.
Lemma struct_field_ty s f : struct_here s -> In f (sn_fields s) -> field_ty (fname f) (struct_members s) = Some (dty_of (sf_type f), true).
Proof.
  intros H I. apply field_ty_in with (MField (dty_of (sf_type f)) (fname f) None); [rewrite struct_member_names; now apply struct_names| |reflexivity].
  unfold struct_members, struct_fields_members. destruct (sn_fields s) as [|g l] eqn:E; [destruct I|]. rewrite <- E in *. apply in_or_app. left. apply in_map_iff. now exists f.
Qed.
Lemma struct_member s f : struct_here s -> In f (sn_fields s) -> member_of (t0 (sn_id s)) (fname f) [] = Some (Var (dty_of (sf_type f)) true).
Proof.
  intros H I. pose proof (struct_model s H) as C. unfold DartStatic.member_of, t0. assert (A : among tops (sn_id s) = true) by (apply among_in; exact (in_top_class _ _ _ _ C)).
  rewrite A, (class_of_in _ _ _ _ nd C). unfold object_member. now rewrite struct_field_ty.
Qed.
Lemma all_some_map {A B} (f : A -> option B) g l : (forall a, In a l -> f a = Some (g a)) -> all_some (map f l) = Some (map g l).
Proof. induction l as [|a l IH]; intros H; [reflexivity|]. cbn [map all_some]. rewrite (H a) by now left. rewrite IH by (intros b I; apply H; now right). reflexivity. Qed.
Lemma struct_maker s : struct_here s -> maker_of items (sn_id s) [] = Some (Fun [] [] (map (fun f => (fname f, dty_of (sf_type f))) (sn_fields s)) (t0 (sn_id s))).
Proof.
  intros H. pose proof (struct_model s H) as C. unfold maker_of. assert (A : among tops (sn_id s) = true) by (apply among_in; exact (in_top_class _ _ _ _ C)).
  rewrite A, (class_of_in _ _ _ _ nd C). destruct (sn_fields s) as [|f fs] eqn:E; [unfold struct_members; now rewrite E|]. rewrite <- E.
  assert (X : forall l k, ctor_of (struct_members s) (sn_id s) (map (fun f => MField (dty_of (sf_type f)) (fname f) None) l ++ k) = ctor_of (struct_members s) (sn_id s) k).
  { induction l as [|a l IH]; intros k; [reflexivity|]. exact (IH k). }
  assert (Y : struct_members s = struct_fields_members s) by (unfold struct_members; now rewrite E). rewrite Y at 2. unfold struct_fields_members. rewrite X. cbn [ctor_of signature]. rewrite map_map.
  rewrite (all_some_map _ (fun f => (fname f, dty_of (sf_type f)))); [reflexivity|]. intros a I. cbn [param_ty]. now rewrite struct_field_ty.
Qed.
Lemma struct_default s : struct_here s -> sn_fields s <> [] -> static_of items (sn_id s) [] "createDefault" = Some (Fun [] [] [] (t0 (sn_id s))).
Proof.
  intros H N. pose proof (struct_model s H) as C. unfold static_of. assert (A : among tops (sn_id s) = true) by (apply among_in; exact (in_top_class _ _ _ _ C)).
  rewrite A, (class_of_in _ _ _ _ nd C). assert (Y : struct_members s = struct_fields_members s) by (unfold struct_members; now destruct (sn_fields s)).
  rewrite class_none.
  - rewrite Y. unfold struct_fields_members. generalize (map (fun f => (fname f, default_ex (sf_type f))) (sn_fields s)). intros inits.
    generalize (PNamed (map (fun f => (None, fname f)) (sn_fields s))). intros ps. clear. induction (sn_fields s) as [|a l IH]; [reflexivity|]. exact IH.
  - rewrite Y. unfold struct_fields_members. intros m I _. apply in_app_or in I as [I|[<-|[<-|[]]]]; try exact Logic.I. apply in_map_iff in I as (f & <- & _). exact Logic.I.
Qed.

Lemma struct_model_okay s : struct_here s -> static_item ext items (DClass (sn_id s) None (struct_members s)) = true.
Proof.
  intros H. pose proof (struct_model s H) as C. cbn [static_item]. destruct (sn_fields s) as [|f0 fs] eqn:E.
  - unfold struct_members. rewrite E. reflexivity.
  - assert (NE : sn_fields s <> []) by congruence. clear f0 fs E. rewrite struct_holder by exact NE. cbn [orb].
    destruct (members_fine _ _ _ C) as [D F]; [now apply struct_holder|]. assert (MO : forall x, In x (member_names (struct_members s)) -> ~ In x R) by (intros x I; now apply F).
    assert (Y : struct_members s = struct_fields_members s) by (unfold struct_members; now destruct (sn_fields s)).
    assert (OF : open_fields (struct_members s) = map fname (sn_fields s)).
    { rewrite Y. unfold struct_fields_members, open_fields. rewrite flat_map_app. cbn [flat_map app]. rewrite app_nil_r. clear. induction (sn_fields s) as [|a l IH]; [reflexivity|]. cbn. now rewrite IH. }
    assert (CN : ctor_names (struct_members s) = [""; "createDefault"]).
    { rewrite Y. unfold struct_fields_members, ctor_names. rewrite flat_map_app. cbn [flat_map app]. clear. induction (sn_fields s) as [|a l IH]; [reflexivity|]. exact IH. }
    unfold class_ok. rewrite D, CN, names_check by exact F. rewrite OF.
    assert (DI : distinct (map fname (sn_fields s)) = true) by (rewrite <- struct_member_names; exact D).
    assert (SELF : forall l : list string, forallb (fun x => among l x) l = true) by (intros l; apply forallb_forall; intros x I; now apply among_in).
    assert (FM : forallb (member_ok ext items (sn_id s) (struct_members s)) (struct_members s) = true).
    { apply forallb_forall. intros m I. rewrite Y in I. unfold struct_fields_members in I. apply in_app_or in I as [I|[<-|[<-|[]]]].
      - apply in_map_iff in I as (f & <- & I). cbn [member_ok]. destruct (sh_slots s H f I) as [_ U]. apply usable_mentioned in U. rewrite type_okay by (assumption || exact env_nil).
        cbn [andb]. apply negb_true_iff, String.eqb_neq. exact (proj2 (proj2 (type_of _ U))).
      - cbn [member_ok]. rewrite String.eqb_refl, OF. unfold params_ok. cbn [param_list]. rewrite !map_map. cbn [snd]. change (fun x : struct_field => fname x) with fname. rewrite DI, SELF. cbn [andb].
        rewrite !andb_true_iff. repeat split.
        + apply forallb_forall. intros p I. apply in_map_iff in I as (f & <- & _). reflexivity.
        + apply negb_true_iff. destruct (existsb _ _) eqn:EX; [|reflexivity]. apply existsb_exists in EX as (p & I & P). apply in_map_iff in I as (f & <- & I). cbn [snd] in P. now rewrite (proj1 (sh_slots s H f I)) in P.
        + apply forallb_forall. intros p I. apply in_map_iff in I as (f & <- & _). reflexivity.
        + apply forallb_forall. intros p I. apply in_map_iff in I as (f & <- & I). cbn [snd]. apply among_in. now apply in_map.
      - cbn [member_ok]. rewrite String.eqb_refl, OF, map_map. cbn [fst]. change (fun x : struct_field => fname x) with fname. rewrite DI, SELF. rewrite !andb_true_iff. repeat split.
        + apply negb_true_iff, among_out. intros I. apply in_flat_map in I as (m & I & J). rewrite Y in I. unfold struct_fields_members in I. apply in_app_or in I as [I|[<-|[<-|[]]]]; try destruct J.
          apply in_map_iff in I as (f & <- & _). destruct J.
        + apply forallb_forall. intros [x e] I. apply in_map_iff in I as (f & [= <- <-] & I). rewrite struct_field_ty by assumption. destruct (sh_slots s H f I) as [_ U]. rewrite tex_default by assumption.
          rewrite fits_refl, andb_true_r. apply among_in. now apply in_map. }
    rewrite FM. now destruct (sn_fields s).
Qed.
Lemma tex_struct_factory ms inst s en : struct_here s -> (forall x, In x (member_names ms) -> ~ In x R) -> env_ok en -> tex ext items ms inst (struct_factory s) en = Some (t0 (sn_id s), None).
Proof.
  intros H MO E0. pose proof (struct_model s H) as C. unfold struct_factory. destruct (sn_fields s) as [|f fs] eqn:E.
  - unfold const0. rewrite tex_const. assert (A : among tops (sn_id s) = true) by (apply among_in; exact (in_top_class _ _ _ _ C)).
    rewrite (vis ms MO _ en E0 (R_top _ (in_top_class _ _ _ _ C))). cbn [negb andb forallb]. unfold args_ok, DartStatic.const_of. rewrite A, (class_of_in _ _ _ _ nd C). unfold struct_members. rewrite E. reflexivity.
  - unfold call, postfix, var. rewrite tex_post_name. destruct (class_other _ _ _ ms inst en MO E0 C (sh_id s H)) as [O _]. rewrite O. cbn [forallb map]. rewrite named_meth.
    rewrite (vis ms MO _ en E0 (R_top _ (in_top_class _ _ _ _ C))), struct_default by (assumption || congruence). reflexivity.
Qed.
Lemma struct_factory_okay s : struct_here s -> static_item ext items (factory_class (sn_id s) (struct_factory s)) = true.
Proof.
  intros H. pose proof (struct_model s H) as C. apply factory_okay with None (struct_members s) None; [exact C|apply (sh_in s H); rewrite struct_model_items; right; now left|].
  intros MO. apply tex_struct_factory; try assumption. exact env_nil.
Qed.
(** The bodies. *)
Lemma tex_model_field ms inst en s f st : assoc "model" en = Some (Some (t0 (sn_id s), st)) -> struct_here s -> In f (sn_fields s) ->
  tex ext items ms inst (model_field f) en = Some (dty_of (sf_type f), Some (dty_of (sf_type f))).
Proof.
  intros A H I. unfold model_field, field, postfix, var. rewrite tex_post_name. unfold name_ty. rewrite A, post_field. cbn [place_of fst]. now rewrite struct_member.
Qed.
Lemma block_all ext' items' ms inst r l en : (forall x, In x l -> match x with DFinal _ _ => False | _ => True end) -> (forall x, In x l -> tst ext' items' ms inst x r en = Some (en, Goes)) ->
  block (fun s en => tst ext' items' ms inst s r en) l en = Some Goes.
Proof. intros L H. rewrite block_plain by now apply locals_none. apply chain_all. exact H. Qed.
Lemma write_env_ok id : writes (writer_env id).
Proof.
  split; [|now exists true]. intros x [<-|[<-|[]]]; apply fixed_out; cbn; tauto.
Qed.
Lemma emplace_env_ok id : reads (emplace_env id).
Proof. split; [|now exists true]. intros x [<-|[<-|[]]]; apply fixed_out; cbn; tauto. Qed.
Lemma skip_env_ok : reads skip_env.
Proof. split; [|now exists true]. intros x [<-|[<-|[]]]; apply fixed_out; cbn; tauto. Qed.
Lemma reader_env_ok : reads reader_env.
Proof. split; [|now exists true]. intros x [<-|[]]; apply fixed_out; cbn; tauto. Qed.
Lemma struct_write_body ms s : struct_here s -> (forall x, In x (member_names ms) -> ~ In x R) ->
  body_ok ext items ms true (BBlock (map (fun f => write_st (sf_type f) (model_field f)) (sn_fields s))) (t0 "void") (writer_env (sn_id s)) = true.
Proof.
  intros H MO. unfold body_ok. rewrite block_all; [reflexivity| |].
  - intros x I. apply in_map_iff in I as (f & <- & _). exact Logic.I.
  - intros x I. apply in_map_iff in I as (f & <- & I). eapply st_write; [exact MO|apply write_env_ok|exact (proj2 (sh_slots s H f I))|exact Logic.I|]. eapply tex_model_field; [reflexivity|exact H|exact I].
Qed.
Lemma struct_write_emplace_body ms s : struct_here s -> (forall x, In x (member_names ms) -> ~ In x R) ->
  body_ok ext items ms true (BBlock (map (fun f => write_emplace_st (sf_type f) (model_field f)) (sn_fields s))) (t0 "void") (writer_env (sn_id s)) = true.
Proof.
  intros H MO. unfold body_ok. rewrite block_all; [reflexivity| |].
  - intros x I. apply in_map_iff in I as (f & <- & _). unfold write_emplace_st, write_st. now destruct (is_prim _).
  - intros x I. apply in_map_iff in I as (f & <- & I). eapply st_write_emplace; [exact MO|apply write_env_ok|exact (proj2 (sh_slots s H f I))|exact Logic.I|]. eapply tex_model_field; [reflexivity|exact H|exact I].
Qed.
Lemma struct_read_emplace_body ms s : struct_here s -> (forall x, In x (member_names ms) -> ~ In x R) ->
  body_ok ext items ms true (BBlock (map (fun f => read_emplace_st (sf_type f) (model_field f)) (sn_fields s))) (t0 "void") (emplace_env (sn_id s)) = true.
Proof.
  intros H MO. unfold body_ok. rewrite block_all; [reflexivity| |].
  - intros x I. apply in_map_iff in I as (f & <- & _). exact Logic.I.
  - intros x I. apply in_map_iff in I as (f & <- & I). eapply st_read_emplace; [exact MO|apply emplace_env_ok|exact (proj2 (sh_slots s H f I))|exact Logic.I|]. eapply tex_model_field; [reflexivity|exact H|exact I].
Qed.
Lemma count_env_ok : reads (("i", Some (t0 "int", true)) :: skip_env).
Proof. split; [|now exists true]. apply env_cons; [apply fixed_out; cbn; tauto|apply skip_env_ok]. Qed.
Lemma st_count ms inst l w : block (fun s en => tst ext items ms inst s (t0 "void") en) l (("i", Some (t0 "int", true)) :: skip_env) = Some w ->
  tst ext items ms inst (count_loop l) (t0 "void") skip_env = Some (skip_env, Goes).
Proof. intros B. unfold count_loop. rewrite st_for. change (name_ty items ms inst "count" skip_env) with (Place (t0 "int", Some (t0 "int"))). cbv beta iota. rewrite same_ty_refl.
  change (digits_only "0") with true. change (digits_only "1") with true. cbn [andb]. now rewrite B.
Qed.
Lemma struct_skip_body (skip : type_id -> dst) ms s : struct_here s -> (forall x, In x (member_names ms) -> ~ In x R) ->
  (forall t en, reads en -> usable t = true -> tst ext items ms true (skip t) (t0 "void") en = Some (en, Goes)) -> (forall t, match skip t with DFinal _ _ => False | _ => True end) ->
  body_ok ext items ms true (BBlock (map (fun f => skip (sf_type f)) (filter (fun f => is_other (sf_type f)) (sn_fields s)) ++
     [ count_loop (map (fun f => skip (sf_type f)) (filter (fun f => negb (is_other (sf_type f))) (sn_fields s))) ])) (t0 "void") skip_env = true.
Proof.
  intros H MO SK NF. unfold body_ok. rewrite block_all; [reflexivity| |].
  - intros x I. apply in_app_or in I as [I|[<-|[]]]; [|exact Logic.I]. apply in_map_iff in I as (f & <- & _). apply NF.
  - intros x I. apply in_app_or in I as [I|[<-|[]]].
    + apply in_map_iff in I as (f & <- & I). apply filter_In in I as [I _]. apply SK; [exact skip_env_ok|exact (proj2 (sh_slots s H f I))].
    + apply st_count with Goes. apply block_all.
      * intros x I. apply in_map_iff in I as (f & <- & _). apply NF.
      * intros x I. apply in_map_iff in I as (f & <- & I). apply filter_In in I as [I _]. apply SK; [exact count_env_ok|exact (proj2 (sh_slots s H f I))].
Qed.
(** Reading: a variable for each field, then the constructor. *)
Fixpoint read_env (l : list struct_field) (en : tenv) : tenv := match l with [] => en | f :: l' => read_env l' ((fname f, Some (dty_of (sf_type f), false)) :: en) end.
Lemma read_env_app l en : read_env l en = rev (map (fun f => (fname f, Some (dty_of (sf_type f), false))) l) ++ en.
Proof. revert en. induction l as [|f l IH]; intros en; [reflexivity|]. cbn [read_env map rev]. now rewrite IH, <- app_assoc. Qed.
Lemma read_env_get l en f : NoDup (map fname l) -> In f l -> assoc (fname f) (read_env l en) = Some (Some (dty_of (sf_type f), false)).
Proof.
  revert en. induction l as [|g l IH]; intros en N I; [destruct I|]. cbn [read_env]. cbn [map] in N. apply NoDup_cons_iff in N as [A N]. destruct I as [->|I]; [|now apply IH].
  rewrite read_env_app, assoc_app. assert (X : assoc (fname f) (rev (map (fun f => (fname f, Some (dty_of (sf_type f), false))) l)) = None); [|rewrite X; cbn [assoc]; now rewrite String.eqb_refl].
  apply assoc_none. rewrite map_rev, <- in_rev, map_map. exact A.
Qed.
Lemma call_named named r args : named <> [] -> List.length args = List.length named -> NoDup (map fst named) ->
  (forall x t, In (x, t) named -> exists f, In (Some x, f) args /\ f t = true) -> call_ok (Fun [] [] named r) args = Some r.
Proof.
  intros N L D H. destruct named as [|p l]; [congruence|]. cbn [call_ok]. set (named := p :: l) in *. assert (X : Nat.eqb (List.length args) (List.length named) = true) by now apply Nat.eqb_eq.
  match goal with |- (if ?a && ?b && _ then _ else _) = _ => change a with (Nat.eqb (List.length args) (List.length named)); change b with (distinct (map fst named)) end.
  rewrite X, distinct_of by exact D. cbn [andb].
  match goal with |- context [forallb ?f ?l] => assert (B : forallb f l = true) end; [|now rewrite B].
  apply forallb_forall. intros [x t] I. destruct (H x t I) as (f & J & F). apply existsb_exists. exists (Some x, f). split; [exact J|]. now rewrite String.eqb_refl.
Qed.
Lemma struct_read_body ms s : struct_here s -> ~ In "reader" (map fname (sn_fields s)) -> (forall x, In x (member_names ms) -> ~ In x R) ->
  body_ok ext items ms true (BBlock (map (fun f => DFinal (fname f) (read_ex (sf_type f))) (sn_fields s) ++
     [ DReturn (Some (DPost (var (sn_id s)) [XCall (map (fun f => (Some (fname f), var (fname f))) (sn_fields s)) (RustTree.nil_or (sn_fields s))])) ])) (t0 (sn_id s)) reader_env = true.
Proof.
  intros H NR MO. destruct (struct_names s H) as [ND NN]. pose proof (struct_model s H) as C. set (last := DReturn _).
  assert (LO : locals (map (fun f => DFinal (fname f) (read_ex (sf_type f))) (sn_fields s) ++ [last]) = map fname (sn_fields s)).
  { rewrite locals_app. cbn [locals flat_map]. unfold last. rewrite app_nil_r. clear. induction (sn_fields s) as [|f l IH]; [reflexivity|]. cbn [map]. rewrite <- IH. reflexivity. }
  unfold body_ok, block. rewrite LO, distinct_of by exact ND.
  set (en0 := map (fun x => (x, None)) (map fname (sn_fields s)) ++ reader_env).
  assert (E0 : env_ok en0). { apply env_hide; [|apply reader_env_ok]. intros x I. apply in_map_iff in I as (f & <- & I). now apply NN. }
  assert (R0 : assoc "reader" en0 = Some (Some (t0 "BytesReader", true))).
  { unfold en0. rewrite assoc_app. assert (X : assoc "reader" (map (fun x => (x, @None (dty * bool))) (map fname (sn_fields s))) = None); [|now rewrite X]. apply assoc_none. now rewrite map_map, map_id. }
  assert (CH : forall l en, (forall f, In f l -> In f (sn_fields s)) -> env_ok en -> assoc "reader" en = Some (Some (t0 "BytesReader", true)) ->
    chain (fun st en => tst ext items ms true st (t0 (sn_id s)) en) (map (fun f => DFinal (fname f) (read_ex (sf_type f))) l ++ [last]) en =
    chain (fun st en => tst ext items ms true st (t0 (sn_id s)) en) [last] (read_env l en) /\ env_ok (read_env l en)).
  { induction l as [|f l IH]; intros en SUB EO RO; [now split|]. cbn [map app read_env]. assert (IF : In f (sn_fields s)) by (apply SUB; now left).
    rewrite chain_cons with (en' := (fname f, Some (dty_of (sf_type f), false)) :: en).
    - apply IH; [intros g J; apply SUB; now right|apply env_cons; [now apply NN|exact EO]|]. cbn [assoc]. destruct (String.eqb_spec "reader" (fname f)) as [X|_]; [|exact RO]. exfalso. apply NR. rewrite X. now apply in_map.
    - rewrite st_final, tex_read; try assumption; [|split; [exact EO|eexists; exact RO]|exact (proj2 (sh_slots s H f IF))].
      destruct (type_of (sf_type f)) as (_ & _ & NV); [exact (usable_mentioned _ (proj2 (sh_slots s H f IF)))|]. apply String.eqb_neq in NV. now rewrite NV. }
  destruct (CH (sn_fields s) en0 (fun f I => I) E0 R0) as [CE EE]. rewrite CE. clear CH CE. set (en := read_env _ _) in *.
  assert (GET : forall f, In f (sn_fields s) -> tex ext items ms true (var (fname f)) en = Some (dty_of (sf_type f), None)).
  { intros f I. rewrite (tex_var _ _ _ _ _ _ (read_env_get (sn_fields s) en0 f ND I)). reflexivity. }
  assert (T : tst ext items ms true last (t0 (sn_id s)) en = Some (en, Exits)); [|now rewrite (chain_last (fun st en => tst ext items ms true st (t0 (sn_id s)) en) last en en Exits T)].
  unfold last. rewrite st_return. unfold var at 1. rewrite tex_post_name. destruct (class_other _ _ _ ms true en MO EE C (sh_id s H)) as [O OW]. rewrite O. cbn [forallb]. rewrite named_call, OW, struct_maker by exact H.
  assert (AR : args_ok ext items (tex ext items ms true) (tst ext items ms true) en (Some (Fun [] [] (map (fun f => (fname f, dty_of (sf_type f))) (sn_fields s)) (t0 (sn_id s))))
    (map (fun f => (Some (fname f), var (fname f))) (sn_fields s)) = Some (t0 (sn_id s))).
  { unfold args_ok. rewrite map_map. cbn [fst snd]. destruct (sn_fields s) as [|f0 fs] eqn:E; [reflexivity|]. rewrite <- E in *. apply call_named.
    - rewrite E. discriminate.
    - now rewrite !map_length.
    - rewrite map_map. exact ND.
    - intros x t I. apply in_map_iff in I as (f & [= <- <-] & I). eexists. split; [apply in_map_iff; exists f; split; [reflexivity|exact I]|]. eapply arg_plain; [exact Logic.I|now apply GET]. }
  rewrite AR. cbn [value option_map]. rewrite fits_refl. pose proof (proj2 (class_type _ _ _ C)) as NV. apply String.eqb_neq in NV. rewrite NV. reflexivity.
Qed.
Lemma struct_into_okay s : struct_here s -> ~ In "reader" (map fname (sn_fields s)) -> In (struct_into_class s) items -> static_item ext items (struct_into_class s) = true.
Proof.
  intros H NR I. eapply codec_okay; [exact (struct_model s H)|exact I|left; split; [reflexivity|split; reflexivity]|reflexivity|reflexivity|reflexivity|]. intros ms MO. split; [|split].
  - now apply struct_read_body.
  - now apply struct_write_body.
  - apply struct_skip_body; [exact H|exact MO| |intros t; exact Logic.I]. intros t en W U. now apply st_skip.
Qed.
Lemma struct_emplace_okay s : struct_here s -> In (struct_emplace_class s) items -> static_item ext items (struct_emplace_class s) = true.
Proof.
  intros H I. eapply codec_okay; [exact (struct_model s H)|exact I|right; split; [reflexivity|split; reflexivity]|reflexivity|reflexivity|reflexivity|]. intros ms MO. split; [|split].
  - now apply struct_read_emplace_body.
  - now apply struct_write_emplace_body.
  - apply struct_skip_body; [exact H|exact MO| |intros t; exact Logic.I]. intros t en W U. now apply st_skip_emplace.
Qed.

(** *** Enums *)

Lemma flat_map_nil_all {A B} (f : A -> list B) l : (forall a, In a l -> f a = []) -> flat_map f l = [].
Proof. induction l as [|a l IH]; intros H; [reflexivity|]. cbn [flat_map]. rewrite (H a) by now left. apply IH. intros b I. apply H. now right. Qed.
Lemma removelast_in {A} (x : A) l : In x (removelast l) -> In x l.
Proof. induction l as [|a l IH]; [easy|]. cbn [removelast]. destruct l as [|b l]; [intros []|]. intros [->|I]; [now left|right; now apply IH]. Qed.
Lemma class_of_none l n : find_class n l = None -> class_of n l = None.
Proof. induction l as [|j l IH]; [reflexivity|]. destruct j as [x|x v|x i ms|x ns]; cbn [find_class class_of]; try exact IH. destruct (String.eqb x n); [discriminate|exact IH]. Qed.
Lemma append_assoc_str a b c : ((a ++ b) ++ c)%string = (a ++ b ++ c)%string.
Proof. induction a as [|x a IH]; [reflexivity|]. cbn [append]. now rewrite IH. Qed.
Lemma ctor_of_none all c l : (forall m, In m l -> match m with MConstCtor _ | MCtor _ _ _ => False | _ => True end) -> ctor_of all c l = ctor_of all c [].
Proof. induction l as [|m l IH]; intros H; [reflexivity|]. specialize (IH (fun k I => H k (or_intror I))). specialize (H m (or_introl eq_refl)). destruct m; try exact IH; destruct H. Qed.

Section Enum.
Variable e : enum_node.
Hypothesis ie : In (Wire.DEnum e) (schema_decls ast).
Hypothesis kw : forall i, In i (en_items e) -> dident (camel (item_id i)) = true.
Notation id := (en_id e).
Notation tag_ty := (t0 (id ++ "Value")).

Lemma camel_word i : In i (en_items e) -> ~ In (camel (item_id i)) ["null"; "true"; "false"].
Proof. intros I. specialize (kw i I). intros J. destruct J as [J|[J|[J|[]]]]; rewrite <- J in kw; discriminate kw. Qed.
Lemma enum_fine : en_items e <> [] /\ forall i, In i (en_items e) ->
  (match i with ItemEmpty _ _ => True | _ => DartWire.item_slots i <> [] end) /\
  forall p, In p (DartWire.item_slots i) -> private (fst p) = false /\ usable (snd p) = true /\ ~ In (fst p) ["model"; "value"; camel (item_id i)].
Proof.
  rewrite forallb_forall in fine. specialize (fine _ ie). cbn [decl_fine] in fine. apply andb_true_iff in fine as [A B]. split; [intros X; rewrite X in A; discriminate A|].
  intros i I. rewrite forallb_forall in B. specialize (B i I). apply andb_true_iff in B as [B1 B2]. split; [destruct i; try exact Logic.I; now destruct (DartWire.item_slots _)|].
  intros p J. rewrite forallb_forall in B2. specialize (B2 p J). unfold slot_fine in B2. rewrite !andb_true_iff, !negb_true_iff, among_out in B2. rewrite DartCodec.item_id_name. tauto.
Qed.
Lemma enum_okd : ~ In id ["null"; "true"; "false"] /\ ~ In (id ++ "Value")%string ["null"; "true"; "false"] /\ NoDup (map item_position (en_items e)) /\
  forall i, In i (en_items e) -> ~ In (id ++ item_id i)%string ["null"; "true"; "false"] /\ (item_position i < 2 ^ 31)%N.
Proof.
  rewrite forallb_forall in okd. specialize (okd _ ie). unfold DartCodec.dart_decl_ok in okd. rewrite !andb_true_iff in okd. destruct okd as ((_ & A) & (((B & C) & _) & D)).
  assert (L : forall n, DartRun.absent n DartRun.local_names = true -> ~ In n ["null"; "true"; "false"]).
  { intros n X J. apply DartRun.absent_not_in in X. apply X. vm_compute. destruct J as [<-|[<-|[<-|[]]]]; tauto. }
  split; [now apply L|]. split; [now apply L|]. split.
  - apply nodupN_NoDup in C. erewrite map_ext; [exact C|]. intros i. apply DartCodec.item_position_pos.
  - intros i I. rewrite forallb_forall in D. specialize (D i I). unfold DartCodec.dart_item_ok in D. rewrite !andb_true_iff in D. destruct D as ((D1 & _) & D2).
    rewrite DartCodec.item_id_name, DartCodec.item_position_pos. split; [now apply L|now apply N.ltb_lt].
Qed.

Definition first_item : enum_item := match en_items e with a :: _ => a | [] => ItemEmpty 0 "" end.
Definition enum_members : list dmember :=
  MField (ty0 (id ++ "Value")) "value" (Some (value_of id (item_id first_item))) ::
  map (fun i => MField (ty0 (id ++ item_id i)) (camel (item_id i)) (Some (item_default id i))) (en_items e) ++
  map (to_method id) (en_items e) ++ map (is_method id) (en_items e) ++ map (create_method id) (en_items e).
Lemma enum_model_items : enum_model_tree e = [DEnum (id ++ "Value") (map (fun i => camel (item_id i)) (en_items e)); DClass id None enum_members; factory_class id (new id)] ++
  flat_map (fun i => struct_model_tree (case_struct e i)) (en_items e).
Proof. unfold enum_model_tree, enum_members, first_item. destruct (en_items e) eqn:E; [destruct (proj1 enum_fine); exact E|reflexivity]. Qed.
Lemma enum_in j : In j (enum_model_tree e) -> In j items.
Proof. intros I. apply (has _ _ ie). unfold DartCodec.decl_items. apply in_or_app. now left. Qed.
Lemma enum_class_in : In (DClass id None enum_members) items. Proof. apply enum_in. rewrite enum_model_items. right. now left. Qed.
Lemma enum_tags_in : In (DEnum (id ++ "Value") (map (fun i => camel (item_id i)) (en_items e))) items. Proof. apply enum_in. rewrite enum_model_items. now left. Qed.
Lemma first_in : In first_item (en_items e). Proof. unfold first_item. destruct (en_items e) eqn:E; [destruct (proj1 enum_fine); exact E|now left]. Qed.

Lemma case_names i : map fname (sn_fields (case_struct e i)) = map fst (DartWire.item_slots i).
Proof. unfold case_struct. rewrite <- (DartCodec.item_struct_slots e i), map_map. reflexivity. Qed.
Lemma case_field i n t : In (n, t) (DartWire.item_slots i) -> exists f, In f (sn_fields (case_struct e i)) /\ fname f = n /\ sf_type f = t.
Proof. unfold case_struct. rewrite <- (DartCodec.item_struct_slots e i). intros I. apply in_map_iff in I as (f & E & I). exists f. injection E as <- <-. now split. Qed.
Lemma case_here i : In i (en_items e) -> struct_here (case_struct e i).
Proof.
  intros I. split.
  - intros j J. apply enum_in. rewrite enum_model_items. apply in_or_app. right. apply in_flat_map. now exists i.
  - intros f J. destruct (proj2 (proj2 enum_fine i I) (DartWire.field_slot f)) as (A & B & _); [rewrite <- (DartCodec.item_struct_slots e i); now apply in_map|]. now split.
  - rewrite case_into. exact (proj1 (proj2 (proj2 (proj2 enum_okd)) i I)).
Qed.
Lemma case_default i : In i (en_items e) -> item_default id i = struct_factory (case_struct e i).
Proof.
  intros I. pose proof (proj1 (proj2 enum_fine i I)) as N. unfold struct_factory. rewrite case_into. destruct i as [p n|p n ts|p n fs]; [reflexivity| |]; cbn [item_default item_id].
  - destruct (sn_fields _) eqn:E; [|reflexivity]. exfalso. apply N. rewrite <- (DartCodec.item_struct_slots e). unfold case_struct in E. now rewrite E.
  - destruct (sn_fields _) eqn:E; [|reflexivity]. exfalso. apply N. rewrite <- (DartCodec.item_struct_slots e). unfold case_struct in E. now rewrite E.
Qed.
Lemma case_member i n t : In i (en_items e) -> In (n, t) (DartWire.item_slots i) -> member_of (t0 (id ++ item_id i)) n [] = Some (Var (dty_of t) true).
Proof. intros I J. destruct (case_field i n t J) as (f & K & <- & <-). rewrite <- case_into. apply struct_member; [now apply case_here|exact K]. Qed.

(** The tag. *)
Lemma tag_type : type_known ext items tag_ty = true /\ In (id ++ "Value")%string R /\ String.eqb (id ++ "Value") "void" = false.
Proof.
  pose proof (in_top_enum _ _ _ enum_tags_in) as T. split; [|split; [now apply R_top|]].
  - unfold t0. cbn [type_known forallb]. assert (A : among tops (id ++ "Value") = true) by now apply among_in. rewrite A, (DartRun.find_enum_in _ _ _ nd enum_tags_in). cbn [andb]. now destruct (class_of _ _).
  - apply String.eqb_neq. intros E. rewrite E in T. apply among_in in T. rewrite known_out in T by (vm_compute; tauto). discriminate.
Qed.
Lemma tag_static i : In i (en_items e) -> static_of items (id ++ "Value") [] (camel (item_id i)) = Some (Var tag_ty false).
Proof.
  intros I. pose proof (in_top_enum _ _ _ enum_tags_in) as T. unfold static_of. assert (A : among tops (id ++ "Value") = true) by now apply among_in.
  destruct (enum_not_const _ _ _ nd enum_tags_in) as [_ FC]. rewrite A, (class_of_none _ _ FC), (DartRun.find_enum_in _ _ _ nd enum_tags_in).
  assert (B : among (map (fun i => camel (item_id i)) (en_items e)) (camel (item_id i)) = true); [|now rewrite B]. apply among_in. apply in_map_iff. now exists i.
Qed.
Lemma tex_tag ms inst en i : (forall x, In x (member_names ms) -> ~ In x R) -> env_ok en -> In i (en_items e) -> tex ext items ms inst (value_of id (item_id i)) en = Some (tag_ty, None).
Proof.
  intros MO E I. unfold value_of, field, postfix, var. rewrite tex_post_name. destruct tag_type as (_ & TR & _).
  destruct (name_other ms inst (id ++ "Value") en MO E TR (proj1 (proj2 enum_okd)) (proj1 (enum_not_const _ _ _ nd enum_tags_in))) as [O _]. rewrite O. cbn [forallb]. rewrite named_field, (vis ms MO _ en E TR), tag_static by exact I. reflexivity.
Qed.

(** The model class. *)
Lemma enum_member_facts : NoDup (member_names enum_members) /\ (forall x, In x (member_names enum_members) -> ~ In x R) /\
  distinct (member_names enum_members) = true /\ forallb (fun n => negb (among (id :: ConstSpec.dart_object) n)) (member_names enum_members) = true.
Proof.
  destruct (members_fine _ _ _ enum_class_in (andb_false_r _)) as [D F]. split; [now apply RustDefaultRuns.distinct_NoDup|]. split; [intros x J; now apply F|]. split; [exact D|]. apply names_check. exact F.
Qed.
Lemma value_in : In (MField (ty0 (id ++ "Value")) "value" (Some (value_of id (item_id first_item)))) enum_members. Proof. now left. Qed.
Lemma case_in i : In i (en_items e) -> In (MField (ty0 (id ++ item_id i)) (camel (item_id i)) (Some (item_default id i))) enum_members.
Proof. intros I. right. apply in_or_app. left. apply in_map_iff. now exists i. Qed.
Lemma enum_object_member m t : In (DClass id None enum_members) items -> field_ty m enum_members = Some t -> member_of (t0 id) m [] = Some (Var (fst t) (snd t)).
Proof.
  intros C F. unfold DartStatic.member_of, t0. assert (A : among tops id = true) by (apply among_in; exact (in_top_class _ _ _ _ C)). rewrite A, (class_of_in _ _ _ _ nd C). unfold object_member. rewrite F. now destruct t.
Qed.
Lemma value_member : member_of (t0 id) "value" [] = Some (Var tag_ty true).
Proof. exact (enum_object_member _ (tag_ty, true) enum_class_in (field_ty_in _ _ _ _ _ (proj1 enum_member_facts) value_in eq_refl)). Qed.
Lemma case_field_member i : In i (en_items e) -> member_of (t0 id) (camel (item_id i)) [] = Some (Var (t0 (id ++ item_id i)) true).
Proof. intros I. exact (enum_object_member _ (t0 (id ++ item_id i), true) enum_class_in (field_ty_in _ _ _ _ _ (proj1 enum_member_facts) (case_in i I) eq_refl)). Qed.
Lemma enum_no_ctor m : In m enum_members -> match m with MConstCtor _ | MCtor _ _ _ | MInitCtor _ _ _ => False | _ => True end.
Proof.
  unfold enum_members. intros [<-|I]; [exact Logic.I|]. repeat (apply in_app_or in I as [I|I]); apply in_map_iff in I as (i & <- & _); exact Logic.I.
Qed.
Lemma enum_maker : maker_of items id [] = Some (Fun [] [] [] (t0 id)).
Proof.
  unfold maker_of. assert (A : among tops id = true) by (apply among_in; exact (in_top_class _ _ _ _ enum_class_in)). rewrite A, (class_of_in _ _ _ _ nd enum_class_in), ctor_of_none.
  - cbn [ctor_of]. destruct (existsb _ _) eqn:X; [|reflexivity]. apply existsb_exists in X as (m & I & Y). apply enum_no_ctor in I. destruct m; try discriminate Y; destruct I.
  - intros m I. apply enum_no_ctor in I. destruct m; auto.
Qed.
Lemma tex_new ms inst en : (forall x, In x (member_names ms) -> ~ In x R) -> env_ok en -> tex ext items ms inst (new id) en = Some (t0 id, None).
Proof.
  intros MO E. unfold new, var. rewrite tex_post_name. destruct (class_other _ _ _ ms inst en MO E enum_class_in (proj1 enum_okd)) as [O OW]. rewrite O. cbn [forallb]. rewrite named_call, OW, enum_maker. reflexivity.
Qed.
Lemma tex_value ms inst en st : assoc "model" en = Some (Some (t0 id, st)) -> tex ext items ms inst (field (var "model") "value") en = Some (tag_ty, Some tag_ty).
Proof. intros A. unfold field, postfix, var. rewrite tex_post_name. unfold name_ty. rewrite A, post_field. cbn [place_of fst]. now rewrite value_member. Qed.
Lemma tex_case ms inst en st i : In i (en_items e) -> assoc "model" en = Some (Some (t0 id, st)) ->
  tex ext items ms inst (model_item i) en = Some (t0 (id ++ item_id i), Some (t0 (id ++ item_id i))).
Proof. intros I A. unfold model_item, field, postfix, var. rewrite tex_post_name. unfold name_ty. rewrite A, post_field. cbn [place_of fst]. now rewrite case_field_member. Qed.
Lemma tex_case_field ms inst en st i n t : In i (en_items e) -> In (n, t) (DartWire.item_slots i) -> assoc "model" en = Some (Some (t0 id, st)) ->
  tex ext items ms inst (field (field (var "model") (camel (item_id i))) n) en = Some (dty_of t, Some (dty_of t)).
Proof.
  intros I J A. unfold field, postfix, var. cbn [app]. rewrite tex_post_name. unfold name_ty. rewrite A, post_field. cbn [place_of fst]. rewrite case_field_member by exact I. cbn [place_of]. rewrite post_field. cbn [place_of fst]. now rewrite (case_member i n t I J).
Qed.
Lemma st_set_value ms inst en st i r : (forall x, In x (member_names ms) -> ~ In x R) -> env_ok en -> In i (en_items e) -> assoc "model" en = Some (Some (t0 id, st)) ->
  tst ext items ms inst (set_value id i) r en = Some (en, Goes).
Proof. intros MO E I A. unfold set_value, set_st. now rewrite st_expr, tex_set, (tex_value ms inst en st A), tex_tag, fits_refl. Qed.

(** The parameters of a case. *)
Lemma case_params i : param_list (item_params i) = map (fun p => (Some (dty_of (snd p)), fst p)) (DartWire.item_slots i).
Proof.
  destruct i as [p n|p n ts|p n fs]; cbn [item_params param_list DartWire.item_slots]; [reflexivity| |].
  - unfold tuple_params. cbn [param_list]. unfold DartWire.tuple_slots. rewrite DartCodec.enumerate_numbered, map_map. apply map_ext. now intros [k f].
  - unfold struct_params. cbn [param_list]. rewrite map_map. reflexivity.
Qed.
Definition case_env (i : enum_item) : tenv := map (fun p => (fst p, Some (dty_of (snd p), true))) (DartWire.item_slots i).
Lemma case_param_env i : param_env (item_params i) = case_env i.
Proof. unfold param_env, case_env. rewrite case_params. induction (DartWire.item_slots i) as [|p l IH]; [reflexivity|]. cbn [map flat_map fst snd app]. now rewrite IH. Qed.
Lemma case_env_ok i : In i (en_items e) -> env_ok (case_env i).
Proof.
  intros I x J. unfold case_env in J. rewrite map_map in J. cbn [fst] in J. change (fun x : string * type_id => fst x) with (@fst string type_id) in J. rewrite <- case_names in J. apply in_map_iff in J as (f & <- & J).
  exact (proj2 (struct_names _ (case_here i I)) f J).
Qed.
Lemma case_env_get i n t : In i (en_items e) -> In (n, t) (DartWire.item_slots i) -> assoc n (case_env i) = Some (Some (dty_of t, true)).
Proof.
  intros I J. pose proof (proj1 (struct_names _ (case_here i I))) as N. rewrite case_names in N. unfold case_env. induction (DartWire.item_slots i) as [|[m u] l IH]; [destruct J|]. cbn [map fst] in N. apply NoDup_cons_iff in N as [A N].
  cbn [map assoc fst snd]. destruct J as [[= -> ->]|J]; [now rewrite String.eqb_refl|]. destruct (String.eqb_spec n m) as [->|]; [|now apply IH]. exfalso. apply A. apply in_map_iff. now exists (m, t).
Qed.
Lemma case_env_out i x : In i (en_items e) -> In x ["model"; "value"; camel (item_id i)] -> assoc x (case_env i) = None.
Proof.
  intros I J. apply assoc_none. unfold case_env. rewrite map_map. cbn [fst]. intros K. apply in_map_iff in K as (p & <- & K). exact (proj2 (proj2 (proj2 (proj2 enum_fine i I) p K)) J).
Qed.
Lemma case_params_ok ms i : (forall x, In x (member_names ms) -> ~ In x R) -> In i (en_items e) -> params_ok ext items ms (item_params i) = true /\ existsb is_this (param_list (item_params i)) = false.
Proof.
  intros MO I. pose proof (proj1 (struct_names _ (case_here i I))) as N. rewrite case_names in N. destruct (proj2 enum_fine i I) as [_ F]. unfold params_ok. split.
  - assert (P : match item_params i with PNamed l => negb (existsb (fun p => private (snd p)) l) | _ => true end = true).
    { pose proof (case_params i) as CP. destruct (item_params i) as [l b|l]; [reflexivity|]. cbn [param_list] in CP. rewrite CP. apply negb_true_iff. destruct (existsb _ _) eqn:X; [|reflexivity]. apply existsb_exists in X as (p & J & Y).
      apply in_map_iff in J as (q & <- & J). cbn [snd] in Y. now rewrite (proj1 (F q J)) in Y. }
    rewrite P, case_params, map_map. cbn [snd]. rewrite distinct_of by exact N. rewrite andb_true_r. cbn [andb]. apply forallb_forall. intros p J. apply in_map_iff in J as (q & <- & J). cbn [fst].
    destruct (F q J) as (_ & U & _). apply usable_mentioned in U. rewrite type_okay by (assumption || exact env_nil). cbn [andb]. apply negb_true_iff, String.eqb_neq. exact (proj2 (proj2 (type_of _ U))).
  - rewrite case_params. destruct (existsb _ _) eqn:X; [|reflexivity]. apply existsb_exists in X as (p & J & Y). apply in_map_iff in J as (q & <- & J). discriminate Y.
Qed.
Lemma set_cases i (h : string -> dex) ms inst en r : In i (en_items e) ->
  (forall n t, In (n, t) (DartWire.item_slots i) -> tex ext items ms inst (h n) en = Some (dty_of t, Some (dty_of t)) /\ assoc n en = Some (Some (dty_of t, true))) ->
  forall s, In s (map (fun n => set_st (h n) (var n)) (DartTree.item_names i)) -> tst ext items ms inst s r en = Some (en, Goes) /\ match s with DFinal _ _ => False | _ => True end.
Proof.
  intros I H s J. apply in_map_iff in J as (n & <- & J). rewrite DartBuild.slot_item_names in J. apply in_map_iff in J as ([m t] & E & J). cbn [fst] in E. subst m. destruct (H n t J) as [A B]. split; [|exact Logic.I].
  unfold set_st. rewrite st_expr, tex_set, A, (tex_var _ _ _ _ _ _ B). cbn [place_of]. now rewrite fits_refl.
Qed.
Notation em := enum_members.
Lemma self_value en : assoc "value" en = None -> name_ty items em true "value" en = Place (tag_ty, Some tag_ty).
Proof. intros A. unfold name_ty. rewrite A. cbn [String.eqb Ascii.eqb Bool.eqb among existsb orb]. rewrite (own_field _ true _ _ _ _ (proj1 enum_member_facts) value_in eq_refl). reflexivity. Qed.
Lemma self_case en i : In i (en_items e) -> assoc (camel (item_id i)) en = None -> name_ty items em true (camel (item_id i)) en = Place (place_of (t0 (id ++ item_id i)) true).
Proof.
  intros I A. unfold name_ty. rewrite A. pose proof (camel_word i I) as K. assert (B : among ["true"; "false"] (camel (item_id i)) = false) by (apply among_out; intros J; apply K; now right).
  assert (C : String.eqb (camel (item_id i)) "null" = false) by (apply String.eqb_neq; intros J; apply K; left; now symmetry). rewrite B, C. now rewrite (own_field _ true _ _ _ _ (proj1 enum_member_facts) (case_in i I) eq_refl).
Qed.
Lemma tex_own_value en : assoc "value" en = None -> tex ext items em true (var "value") en = Some (tag_ty, Some tag_ty).
Proof. intros A. unfold var. cbn [tex]. now rewrite self_value. Qed.

Lemma to_okay i : In i (en_items e) -> member_ok ext items id em (to_method id i) = true.
Proof.
  intros I. destruct enum_member_facts as (N & MO & _ & _). unfold to_method. cbn [member_ok negb]. destruct (case_params_ok em i MO I) as [P1 P2]. rewrite P1, P2, case_param_env.
  change (ty0 "void") with (t0 "void"). rewrite (plain_type_ok "void" em [] MO env_nil ltac:(vm_compute; tauto)). cbn [andb negb].
  assert (V : assoc "value" (case_env i) = None) by (apply case_env_out; [exact I|cbn; tauto]).
  assert (S : forall r, tst ext items em true (set_st (var "value") (value_of id (item_id i))) r (case_env i) = Some (case_env i, Goes)).
  { intros r. unfold set_st. rewrite st_expr, tex_set, tex_own_value, tex_tag, fits_refl; try assumption; [reflexivity|now apply case_env_ok]. }
  assert (B : body_ok ext items em true (BBlock (set_st (var "value") (value_of id (item_id i)) :: map (fun n => set_st (field (var (camel (item_id i))) n) (var n)) (DartTree.item_names i))) (t0 "void") (case_env i) = true).
  { assert (SC : forall s, In s (map (fun n => set_st (field (var (camel (item_id i))) n) (var n)) (DartTree.item_names i)) -> tst ext items em true s (t0 "void") (case_env i) = Some (case_env i, Goes) /\ match s with DFinal _ _ => False | _ => True end).
    { apply set_cases; [exact I|]. intros n t J. split; [|now apply case_env_get]. unfold field, postfix, var. rewrite tex_post_name, self_case by (exact I || (apply case_env_out; [exact I|cbn; tauto])).
      rewrite post_field. cbn [place_of fst]. now rewrite (case_member i n t I J). }
    unfold body_ok. rewrite block_all; [reflexivity| |].
    - intros x [<-|J]; [exact Logic.I|]. now apply SC.
    - intros x [<-|J]; [apply S|]. now apply SC. }
  destruct i as [p n|p n ts|p n fs]; try exact B. cbn [body_ok item_id] in *. rewrite tex_set, tex_own_value, (tex_tag em true _ (ItemEmpty p n)), fits_refl; try assumption; try (now apply case_env_ok); reflexivity.
Qed.
Lemma is_okay i : In i (en_items e) -> member_ok ext items id em (is_method id i) = true.
Proof.
  intros I. destruct enum_member_facts as (N & MO & _ & _). unfold is_method. cbn [member_ok negb]. change (ty0 "bool") with (t0 "bool"). rewrite (plain_type_ok "bool" em [] MO env_nil ltac:(vm_compute; tauto)).
  unfold params_ok. cbn [param_list map forallb distinct existsb andb negb]. change (param_env (PPos [] false)) with (@nil (string * option (dty * bool))). unfold body_ok.
  rewrite tex_eq, tex_own_value, tex_tag; try assumption; [|exact env_nil|reflexivity]. reflexivity.
Qed.
Lemma create_okay i : In i (en_items e) -> member_ok ext items id em (create_method id i) = true.
Proof.
  intros I. destruct enum_member_facts as (N & MO & _ & _). unfold create_method. cbn [member_ok negb]. destruct (case_params_ok em i MO I) as [P1 P2]. rewrite P1, P2, case_param_env.
  change (ty0 id) with (t0 id). rewrite (class_type_ok _ _ _ em [] MO env_nil enum_class_in). cbn [andb negb].
  set (en1 := ("model", Some (t0 id, false)) :: ("model", None) :: case_env i).
  assert (E0 : env_ok (("model", None) :: case_env i)) by (apply env_cons; [apply fixed_out; cbn; tauto|now apply case_env_ok]).
  assert (E1 : env_ok en1) by (apply env_cons; [apply fixed_out; cbn; tauto|exact E0]).
  assert (M1 : assoc "model" en1 = Some (Some (t0 id, false))) by reflexivity.
  assert (NV : String.eqb id "void" = false) by (apply String.eqb_neq; exact (proj2 (class_type _ _ _ enum_class_in))).
  assert (SC : forall s, In s (map (fun n => set_st (field (field (var "model") (camel (item_id i))) n) (var n)) (DartTree.item_names i)) -> tst ext items em false s (t0 id) en1 = Some (en1, Goes) /\ match s with DFinal _ _ => False | _ => True end).
  { apply set_cases; [exact I|]. intros n t J. split; [now apply tex_case_field with false|]. unfold en1. cbn [assoc]. destruct (String.eqb_spec n "model") as [->|]; [|now apply case_env_get].
    exfalso. apply (proj2 (proj2 (proj2 (proj2 enum_fine i I) _ J))). now left. }
  unfold body_ok, block. set (mids := map _ (DartTree.item_names i)) in *.
  assert (L : locals ([DFinal "model" (new id); set_st (field (var "model") "value") (value_of id (item_id i))] ++ mids ++ [DReturn (Some (var "model"))]) = ["model"]).
  { cbn [app]. change (locals (DFinal "model" (new id) :: set_st (field (var "model") "value") (value_of id (item_id i)) :: mids ++ [DReturn (Some (var "model"))])) with ("model" :: locals (mids ++ [DReturn (Some (var "model"))])).
    rewrite locals_app, locals_none; [reflexivity|]. intros s J. now apply SC. }
  rewrite L. cbn [distinct map app existsb negb andb]. cbn [RustDefault.among existsb negb andb].
  rewrite chain_cons with (en' := en1); [|rewrite st_final, tex_new by assumption; cbn [t0 head_of]; now rewrite NV].
  rewrite chain_cons with (en' := en1); [|exact (st_set_value em false en1 false i (t0 id) MO E1 I M1)].
  rewrite chain_goes; [|intros s J; now apply SC].
  assert (T : tst ext items em false (DReturn (Some (var "model"))) (t0 id) en1 = Some (en1, Exits)).
  { rewrite st_return, (tex_var _ _ _ _ _ _ M1). cbn [place_of t0 head_of]. change (DTy id []) with (t0 id). now rewrite NV, fits_refl. }
  rewrite (chain_last (fun st en => tst ext items em false st (t0 id) en) _ en1 en1 Exits T). reflexivity.
Qed.
Lemma enum_class_okay : static_item ext items (DClass id None em) = true.
Proof.
  destruct enum_member_facts as (N & MO & D & F). cbn [static_item]. apply orb_true_iff. right. unfold class_ok. rewrite D, F.
  assert (OF : open_fields em = []).
  { unfold open_fields. apply flat_map_nil_all. unfold enum_members. intros m [<-|I]; [reflexivity|]. repeat (apply in_app_or in I as [I|I]); apply in_map_iff in I as (i & <- & _); reflexivity. }
  assert (CN : ctor_names em = []) by (unfold ctor_names; apply flat_map_nil_all; intros m I; apply enum_no_ctor in I; destruct m; reflexivity || destruct I).
  rewrite OF, CN. cbn [distinct andb]. rewrite andb_true_r. apply forallb_forall. intros m I. unfold enum_members in I. destruct I as [<-|I]; [|repeat (apply in_app_or in I as [I|I]); apply in_map_iff in I as (i & <- & I)].
  - cbn [member_ok]. destruct tag_type as (A & B & C). change (ty0 (id ++ "Value")) with tag_ty. rewrite tex_tag; [|exact MO|exact env_nil|exact first_in]. rewrite fits_refl, andb_true_r. unfold type_ok. rewrite A. apply vis_type; [exact MO|exact env_nil|].
    intros x [<-|[]]. exact B.
  - cbn [member_ok]. pose proof (struct_model _ (case_here i I)) as C. rewrite case_into in C. change (ty0 (id ++ item_id i)) with (t0 (id ++ item_id i)). rewrite (class_type_ok _ _ _ em [] MO env_nil C), case_default by exact I.
    rewrite tex_struct_factory; [|now apply case_here|exact MO|exact env_nil]. rewrite case_into, fits_refl. reflexivity.
  - now apply to_okay.
  - now apply is_okay.
  - now apply create_okay.
Qed.
Lemma enum_tags_okay : static_item ext items (DEnum (id ++ "Value") (map (fun i => camel (item_id i)) (en_items e))) = true.
Proof.
  cbn [static_item]. rewrite forallb_forall in names. specialize (names _ enum_tags_in). cbn [item_names_fine] in names. apply andb_true_iff in names as [A B]. rewrite A, B. rewrite !andb_true_r.
  pose proof (proj1 enum_fine) as N. now destruct (en_items e).
Qed.
Lemma enum_factory_okay : static_item ext items (factory_class id (new id)) = true.
Proof.
  apply factory_okay with None em None; [exact enum_class_in|apply enum_in; rewrite enum_model_items; right; right; now left|]. intros MO. apply tex_new; [exact MO|exact env_nil].
Qed.

(** The codecs. *)
Lemma case_codec i : In i (en_items e) -> codec "EmplaceToBuffers" (id ++ item_id i ++ "EmplaceToBuffers") [] (t0 (id ++ item_id i)) /\ codec_params (id ++ item_id i ++ "EmplaceToBuffers") [] = [].
Proof.
  intros I. assert (J : In (struct_emplace_class (case_struct e i)) items).
  { apply (has _ _ ie). unfold DartCodec.decl_items, enum_buffers_tree. rewrite !in_app_iff. right. left. apply in_map_iff. exists i. now split. }
  pose proof (in_top_class _ _ _ _ J) as T. unfold struct_emplace_class in J. apply codec_class_of in J.
  - rewrite case_into, append_assoc_str in J. split; [exact J|]. apply codec_params_top. rewrite case_into, append_assoc_str in T. exact T.
  - right. split; [reflexivity|]. eexists. reflexivity.
  - eexists. reflexivity.
  - eexists. reflexivity.
Qed.
Lemma tex_item_codec ms inst en i : (forall x, In x (member_names ms) -> ~ In x R) -> env_ok en -> In i (en_items e) ->
  tex ext items ms inst (item_codec id i) en = Some (DTy (id ++ item_id i ++ "EmplaceToBuffers") [], None).
Proof. intros MO E I. destruct (case_codec i I) as [C P]. unfold item_codec, const0. exact (tex_const0 ms inst MO _ _ _ _ false en C E eq_refl P). Qed.
Lemma st_case_read ms inst en st i r : (forall x, In x (member_names ms) -> ~ In x R) -> reads en -> In i (en_items e) -> assoc "model" en = Some (Some (t0 id, st)) ->
  tst ext items ms inst (DExpr (call (item_codec id i) "read" [var "reader"; model_item i])) r en = Some (en, Goes).
Proof.
  intros MO RD I A. destruct (case_codec i I) as [C P]. rewrite st_expr. pose proof (tex_item_codec ms inst en i MO (proj1 RD) I) as T. unfold item_codec, const0 in T |- *.
  rewrite (tex_call ms inst _ _ _ _ _ _ _ "read" _ C T _ eq_refl), two_args; [reflexivity|now apply arg_reader|]. eapply arg_plain; [exact Logic.I|]. now apply tex_case with st.
Qed.
Lemma st_case_write ms inst en st i r : (forall x, In x (member_names ms) -> ~ In x R) -> writes en -> In i (en_items e) -> assoc "model" en = Some (Some (t0 id, st)) ->
  tst ext items ms inst (DExpr (call (item_codec id i) "write" [var "writer"; model_item i])) r en = Some (en, Goes).
Proof.
  intros MO RD I A. destruct (case_codec i I) as [C P]. rewrite st_expr. pose proof (tex_item_codec ms inst en i MO (proj1 RD) I) as T. unfold item_codec, const0 in T |- *.
  rewrite (tex_call ms inst _ _ _ _ _ _ _ "write" _ C T _ eq_refl), two_args; [reflexivity|now apply arg_writer|]. eapply arg_plain; [exact Logic.I|]. now apply tex_case with st.
Qed.
Lemma st_case_skip ms inst en i r : (forall x, In x (member_names ms) -> ~ In x R) -> reads en -> In i (en_items e) ->
  tst ext items ms inst (DExpr (call (item_codec id i) "skip" [var "reader"; DNum "1"])) r en = Some (en, Goes).
Proof.
  intros MO RD I. destruct (case_codec i I) as [C P]. rewrite st_expr. pose proof (tex_item_codec ms inst en i MO (proj1 RD) I) as T. unfold item_codec, const0 in T |- *.
  rewrite (tex_call ms inst _ _ _ _ _ _ _ "skip" _ C T _ eq_refl), two_args; [reflexivity|now apply arg_reader|apply arg_one].
Qed.
Lemma st_read_tag ms inst en r : reads en -> tst ext items ms inst read_tag r en = Some (("value", Some (t0 "int", false)) :: en, Goes).
Proof.
  intros RD. unfold read_tag. rewrite st_final. pose proof (tex_read_prim ms inst (TyInteger "u32" 4 false) en RD eq_refl) as T. cbn [DartTree.prim_name] in T. change ("read" ++ "Int32")%string with "readInt32" in T. rewrite T. reflexivity.
Qed.
Lemma tex_tag_num ms inst en i : In i (en_items e) -> tex ext items ms inst (tag i) en = Some (t0 "int", None).
Proof.
  intros I. unfold tag. cbn [tex]. rewrite digits_only_all by (apply show_N_digits || apply show_N_nonempty). rewrite show_N_value.
  assert (L : (item_position i <? 2 ^ 63)%N = true); [|now rewrite L]. apply N.ltb_lt. apply N.lt_trans with (2 ^ 31)%N; [exact (proj2 (proj2 (proj2 (proj2 enum_okd)) i I))|reflexivity].
Qed.
Notation blk ms r := (block (fun s en => tst ext items ms true s r en)).
Lemma unsupported_okay ms en r : (forall x, In x (member_names ms) -> ~ In x R) -> env_ok en -> assoc "value" en = Some (Some (t0 "int", false)) -> blk ms r (snd unsupported) en = Some Exits.
Proof.
  intros MO E A. unfold unsupported. cbn [snd]. rewrite block_plain by reflexivity. apply (chain_last (fun s en => tst ext items ms true s r en) _ en en). rewrite st_throw. unfold var. rewrite tex_post_name.
  destruct (lib_other "StateError" ms true en MO E ltac:(vm_compute; tauto)) as [O OW]. rewrite O. cbn [forallb]. rewrite named_call, OW. unfold maker_of. rewrite known_out by (vm_compute; tauto). cbn [String.eqb Ascii.eqb Bool.eqb].
  assert (T : tex ext items ms true (DStr "Unsupported enum value: $value") en = Some (t0 "String", None)).
  { change (tex ext items ms true (DStr "Unsupported enum value: $value") en) with (if text_ok items ms true "Unsupported enum value: $value" en then Some (t0 "String", @None dty) else None).
    unfold text_ok. change (no_escapes "Unsupported enum value: $value") with true. change (dollars "Unsupported enum value: $value") with ["value"]. cbn [forallb]. unfold name_ty. now rewrite A. }
  assert (AE : args_ok ext items (tex ext items ms true) (tst ext items ms true) en (Some (Fun [t0 "String"] [] [] (t0 "StateError"))) (unlabelled [DStr "Unsupported enum value: $value"]) = Some (t0 "StateError")).
  { apply args_exact; [reflexivity|]. intros p x [[= <- <-]|[]]. now apply arg_plain with None. }
  unfold unlabelled in AE. cbn [map] in AE. rewrite AE. reflexivity.
Qed.
Lemma labels_some (l : list dex) d : NoDup (map label l) -> (forall x, In x l -> label x <> None) -> (d = [] \/ d = [None]) -> labels_ok (map Some l ++ d) = true.
Proof.
  intros N H D. unfold labels_ok.
  assert (L : flat_map (fun o => match o with Some c => match label c with Some x => [x] | None => [] end | None => [] end) (map Some l ++ d) =
              flat_map (fun c => match label c with Some x => [x] | None => [] end) l).
  { rewrite flat_map_app. assert (Z : flat_map (fun o : option dex => match o with Some c => match label c with Some x => [x] | None => [] end | None => [] end) d = []) by (destruct D as [->| ->]; reflexivity).
    rewrite Z, app_nil_r. clear. induction l as [|a l IH]; [reflexivity|]. cbn [map flat_map]. now rewrite IH. }
  rewrite L. assert (DI : distinct (flat_map (fun c => match label c with Some x => [x] | None => [] end) l) = true).
  { apply distinct_of. clear D L. induction l as [|a l IH]; [constructor|]. cbn [map] in N. apply NoDup_cons_iff in N as [A N]. cbn [flat_map]. specialize (IH N (fun x I => H x (or_intror I))). destruct (label a) as [x|] eqn:LA; [|exact IH].
    cbn [app]. constructor; [|exact IH]. intros J. apply A. apply in_flat_map in J as (b & J & K). destruct (label b) as [y|] eqn:LB; [|destruct K]. destruct K as [<-|[]]. apply in_map_iff. exists b. now split. }
  rewrite DI. cbn [andb]. apply andb_true_iff. split.
  - apply forallb_forall. intros o I. apply in_app_or in I as [I|I]; [|destruct D as [->| ->]; [destruct I|destruct I as [<-|[]]; reflexivity]]. apply in_map_iff in I as (c & <- & I). specialize (H c I). now destruct (label c).
  - apply forallb_forall. intros o I. destruct D as [->| ->].
    + rewrite app_nil_r in I. apply removelast_in in I. apply in_map_iff in I as (c & <- & _). reflexivity.
    + rewrite removelast_last in I. apply in_map_iff in I as (c & <- & _). reflexivity.
Qed.
Lemma tags_distinct : NoDup (map label (map tag (en_items e))).
Proof.
  rewrite map_map. destruct enum_okd as (_ & _ & N & _). unfold tag. cbn [label]. clear - N. induction (en_items e) as [|a l IH]; [constructor|]. cbn [map] in *. apply NoDup_cons_iff in N as [A N]. constructor; [|now apply IH].
  intros I. apply A. apply in_map_iff in I as (b & [= E] & I). apply show_N_inj in E. apply in_map_iff. now exists b.
Qed.
Lemma st_tags ms r en (body : enum_item -> list dst) st : (forall x, In x (member_names ms) -> ~ In x R) -> env_ok en -> assoc "value" en = Some (Some (t0 "int", false)) ->
  st = (fun i => (Some (tag i), body i)) -> (forall i, In i (en_items e) -> blk ms r (body i) en = Some Exits \/ blk ms r (body i) en = Some Breaks) ->
  exists w, tst ext items ms true (DSwitch (var "value") (map st (en_items e) ++ [unsupported])) r en = Some (en, w) /\
    ((forall i, In i (en_items e) -> blk ms r (body i) en = Some Exits) -> w = Exits).
Proof.
  intros MO E A -> H. rewrite st_switch, (tex_var _ _ _ _ _ _ A). cbn [place_of]. cbv zeta.
  assert (L : labels_ok (map fst (map (fun i => (Some (tag i), body i)) (en_items e) ++ [unsupported])) = true).
  { rewrite map_app, map_map. cbn [fst map]. rewrite <- (map_map tag Some). change (fst unsupported) with (@None dex). apply labels_some; [exact tags_distinct| |now right].
    intros x I. apply in_map_iff in I as (i & <- & _). discriminate. }
  rewrite L. cbn [andb].
  match goal with |- context [covers ?t ?q ?l] => assert (CV : covers t q l = true) end.
  { rewrite map_app. cbn [map]. unfold covers. apply orb_true_iff. left. apply existsb_exists. exists None. split; [apply in_or_app; right; now left|reflexivity]. }
  rewrite CV. cbn [andb].
  match goal with |- context [forallb ?f (map _ (en_items e) ++ [unsupported])] => assert (B : forallb f (map (fun i => (Some (tag i), body i)) (en_items e) ++ [unsupported]) = true) end.
  { apply forallb_forall. intros [o b] I. apply in_app_or in I as [I|[[= <- <-]|[]]]; [|reflexivity]. apply in_map_iff in I as (i & [= <- <-] & I). rewrite tex_tag_num by exact I. apply same_ty_refl. }
  rewrite B. cbn [andb]. rewrite !map_app, !map_map. cbn [map]. pose proof (unsupported_okay ms en r MO E A) as US. cbn [snd unsupported] in US. unfold unsupported. rewrite US.
  rewrite !forallb_app. cbn [forallb].
  match goal with |- context [forallb ?f (map ?g (en_items e)) && _] => assert (F : forallb f (map g (en_items e)) = true) end.
  { apply forallb_forall. intros w I. apply in_map_iff in I as (i & <- & I). destruct (H i I) as [-> | ->]; reflexivity. }
  rewrite F. cbn [andb]. eexists. split; [reflexivity|]. intros X.
  match goal with |- context [forallb ?f (map ?g (en_items e))] => assert (F2 : forallb f (map g (en_items e)) = true) end.
  { apply forallb_forall. intros w I. apply in_map_iff in I as (i & <- & I). now rewrite (X i I). }
  now rewrite F2.
Qed.
Definition tagged (en : tenv) : tenv := ("value", Some (t0 "int", false)) :: ("value", None) :: en.
Lemma tagged_ok en : reads en -> reads (("value", None) :: en) /\ reads (tagged en).
Proof.
  intros [E [s A]]. assert (V : ~ In "value" R) by (apply fixed_out; cbn; tauto). assert (E1 : env_ok (("value", None) :: en)) by now apply env_cons. split; (split; [try assumption|now exists s]). unfold tagged. now apply env_cons.
Qed.
Lemma tag_block ms r en s w : reads en -> tst ext items ms true s r (tagged en) = Some (tagged en, w) -> match s with DFinal _ _ => False | _ => True end -> blk ms r [read_tag; s] en = Some w.
Proof.
  intros RD T F. unfold block. assert (L : locals [read_tag; s] = ["value"]) by (unfold read_tag; now destruct s). rewrite L. cbn [distinct RustDefault.among existsb negb andb map app].
  rewrite chain_cons with (en' := tagged en); [|apply st_read_tag; now apply tagged_ok]. exact (chain_last (fun s en => tst ext items ms true s r en) s (tagged en) (tagged en) w T).
Qed.
Lemma model_env_ok en : reads en -> reads (("model", Some (t0 id, false)) :: ("model", None) :: en) /\ env_ok (("model", None) :: en).
Proof.
  intros [E [s A]]. assert (V : ~ In "model" R) by (apply fixed_out; cbn; tauto). split; [split; [now apply env_cons, env_cons|now exists s]|now apply env_cons].
Qed.
Lemma enum_void : String.eqb id "void" = false.
Proof. apply String.eqb_neq. exact (proj2 (class_type _ _ _ enum_class_in)). Qed.
Lemma into_case ms i en : (forall x, In x (member_names ms) -> ~ In x R) -> reads en -> In i (en_items e) ->
  blk ms (t0 id) [DFinal "model" (new id); set_value id i; DExpr (call (item_codec id i) "read" [var "reader"; model_item i]); DReturn (Some (var "model"))] en = Some Exits.
Proof.
  intros MO RD I. unfold block. change (locals _) with ["model"]. cbn [distinct RustDefault.among existsb negb andb map app]. destruct (model_env_ok en RD) as [R1 E0]. set (en1 := ("model", Some (t0 id, false)) :: _) in *.
  rewrite chain_cons with (en' := en1); [|rewrite st_final, tex_new by assumption; cbn [t0 head_of]; now rewrite enum_void].
  rewrite chain_cons with (en' := en1); [|exact (st_set_value ms true en1 false i (t0 id) MO (proj1 R1) I eq_refl)].
  rewrite chain_cons with (en' := en1); [|exact (st_case_read ms true en1 false i (t0 id) MO R1 I eq_refl)].
  assert (T : tst ext items ms true (DReturn (Some (var "model"))) (t0 id) en1 = Some (en1, Exits)).
  { rewrite st_return, (tex_var ms true "model" en1 (t0 id) false eq_refl). cbn [place_of t0 head_of]. change (DTy id []) with (t0 id). now rewrite enum_void, fits_refl. }
  exact (chain_last (fun s en => tst ext items ms true s (t0 id) en) _ en1 en1 Exits T).
Qed.
Lemma emplace_case ms i en st : (forall x, In x (member_names ms) -> ~ In x R) -> reads en -> In i (en_items e) -> assoc "model" en = Some (Some (t0 id, st)) ->
  blk ms (t0 "void") [set_value id i; DExpr (call (item_codec id i) "read" [var "reader"; model_item i]); DReturn None] en = Some Exits.
Proof.
  intros MO RD I A. rewrite block_plain by reflexivity.
  rewrite chain_cons with (en' := en); [|exact (st_set_value ms true en st i (t0 "void") MO (proj1 RD) I A)].
  rewrite chain_cons with (en' := en); [|exact (st_case_read ms true en st i (t0 "void") MO RD I A)]. reflexivity.
Qed.
Lemma write_case ms i en st : (forall x, In x (member_names ms) -> ~ In x R) -> writes en -> In i (en_items e) -> assoc "model" en = Some (Some (t0 id, st)) ->
  blk ms (t0 "void") [DExpr (call (var "writer") "writeInt32" [tag i]); DExpr (call (item_codec id i) "write" [var "writer"; model_item i]); DReturn None] en = Some Exits.
Proof.
  intros MO RD I A. rewrite block_plain by reflexivity.
  rewrite chain_cons with (en' := en).
  - rewrite chain_cons with (en' := en); [|exact (st_case_write ms true en st i (t0 "void") MO RD I A)]. reflexivity.
  - rewrite st_expr. destruct RD as [_ [s W]]. pose proof (writer_member (TyInteger "u32" 4 false)) as M. cbn [DartTree.prim_name] in M. change ("write" ++ "Int32")%string with "writeInt32" in M.
    rewrite (tex_method _ _ _ _ _ _ _ _ _ W M), args_exact; [reflexivity|reflexivity|]. intros p x [[= <- <-]|[]]. unfold arg_ok, tag. change (DNum (show_N (item_position i))) with (tag i). rewrite tex_tag_num by exact I. reflexivity.
Qed.
Lemma skip_case ms i en : (forall x, In x (member_names ms) -> ~ In x R) -> reads en -> In i (en_items e) ->
  blk ms (t0 "void") [DExpr (call (item_codec id i) "skip" [var "reader"; DNum "1"]); DBreak] en = Some Breaks.
Proof. intros MO RD I. rewrite block_plain by reflexivity. rewrite chain_cons with (en' := en); [|exact (st_case_skip ms true en i (t0 "void") MO RD I)]. reflexivity. Qed.

Lemma enum_write_body ms : (forall x, In x (member_names ms) -> ~ In x R) ->
  body_ok ext items ms true (BBlock [ DSwitch (field (var "model") "value") (map (fun i => (Some (value_of id (item_id i)),
    [DExpr (call (var "writer") "writeInt32" [tag i]); DExpr (call (item_codec id i) "write" [var "writer"; model_item i]); DReturn None])) (en_items e)) ]) (t0 "void") (writer_env id) = true.
Proof.
  intros MO. unfold body_ok. rewrite block_plain by reflexivity. set (body := fun i => [DExpr (call (var "writer") "writeInt32" [tag i]); DExpr (call (item_codec id i) "write" [var "writer"; model_item i]); DReturn None]).
  assert (W : forall i, In i (en_items e) -> blk ms (t0 "void") (body i) (writer_env id) = Some Exits) by (intros i I; apply write_case with true; [exact MO|apply write_env_ok|exact I|reflexivity]).
  assert (T : exists w, tst ext items ms true (DSwitch (field (var "model") "value") (map (fun i => (Some (value_of id (item_id i)), body i)) (en_items e))) (t0 "void") (writer_env id) = Some (writer_env id, w) /\ w <> Breaks).
  { rewrite st_switch, (tex_value ms true (writer_env id) true eq_refl). cbv zeta.
    assert (L : labels_ok (map fst (map (fun i => (Some (value_of id (item_id i)), body i)) (en_items e))) = true).
    { rewrite map_map. cbn [fst]. rewrite <- (map_map (fun i => value_of id (item_id i)) Some). rewrite <- (app_nil_r (map Some _)). apply labels_some; [| |now left].
      - rewrite map_map. rewrite forallb_forall in names. specialize (names _ enum_tags_in). cbn [item_names_fine] in names. apply andb_true_iff in names as [D _]. apply RustDefaultRuns.distinct_NoDup in D.
        unfold value_of, field, postfix, var. cbn [label]. rewrite <- (map_map (fun i => camel (item_id i)) Some). apply FinFun.Injective_map_NoDup; [intros a b [=]; assumption|exact D].
      - intros x I. apply in_map_iff in I as (i & <- & _). discriminate. }
    rewrite L. cbn [andb].
    match goal with |- context [covers ?t ?q ?l] => assert (CV : covers t q l = true) end.
    { rewrite map_map. unfold covers. apply orb_true_iff. right. cbn [t0]. rewrite (DartRun.find_enum_in _ _ _ nd enum_tags_in). apply forallb_forall. intros x I. apply in_map_iff in I as (i & <- & I).
      apply existsb_exists. exists (Some (camel (item_id i))). split; [|apply String.eqb_refl]. apply in_map_iff. now exists i. }
    rewrite CV. cbn [andb].
    match goal with |- context [forallb ?f (map ?g (en_items e))] => assert (B : forallb f (map g (en_items e)) = true) end.
    { apply forallb_forall. intros [o b] I. apply in_map_iff in I as (i & [= <- <-] & I). rewrite tex_tag; [apply same_ty_refl|exact MO|apply write_env_ok|exact I]. }
    rewrite B. cbn [andb]. rewrite !map_map.
    match goal with |- context [if forallb ?f (map ?g (en_items e)) then _ else _] => assert (F : forallb f (map g (en_items e)) = true) end.
    { apply forallb_forall. intros w I. apply in_map_iff in I as (i & <- & I). now rewrite (W i I). }
    rewrite F. eexists. split; [reflexivity|]. now match goal with |- (if ?c then _ else _) <> _ => destruct c end. }
  destruct T as (w & T & NB). unfold body in T. rewrite (chain_last (fun s en => tst ext items ms true s (t0 "void") en) _ _ _ w T). destruct w; try reflexivity. now destruct NB.
Qed.
Lemma enum_skip_body ms : (forall x, In x (member_names ms) -> ~ In x R) ->
  body_ok ext items ms true (BBlock [ count_loop [ read_tag; DSwitch (var "value") (map (fun i => (Some (tag i), [DExpr (call (item_codec id i) "skip" [var "reader"; DNum "1"]); DBreak])) (en_items e) ++ [unsupported]) ] ]) (t0 "void") skip_env = true.
Proof.
  intros MO. set (body := fun i => [DExpr (call (item_codec id i) "skip" [var "reader"; DNum "1"]); DBreak]). destruct (tagged_ok _ count_env_ok) as [_ RT].
  destruct (st_tags ms (t0 "void") (tagged (("i", Some (t0 "int", true)) :: skip_env)) body _ MO (proj1 RT) eq_refl eq_refl) as (w & T & _); [intros i I; right; now apply skip_case|].
  unfold body_ok. rewrite block_plain by reflexivity. assert (C := st_count ms true _ _ (tag_block ms (t0 "void") _ _ w count_env_ok T Logic.I)). unfold body in C.
  now rewrite (chain_last (fun s en => tst ext items ms true s (t0 "void") en) _ _ _ Goes C).
Qed.
Lemma enum_into_okay : static_item ext items (enum_into_class e) = true.
Proof.
  assert (I : In (enum_into_class e) items) by (apply (has _ _ ie); unfold DartCodec.decl_items, enum_buffers_tree; rewrite !in_app_iff; right; right; now left).
  eapply codec_okay; [exact enum_class_in|exact I|left; split; [reflexivity|split; reflexivity]|reflexivity|reflexivity|reflexivity|]. intros ms MO. split; [|split].
  - unfold body_ok. change (param_env (PPos [reader_param] false)) with reader_env. destruct (tagged_ok _ reader_env_ok) as [_ RT].
    assert (X : forall i, In i (en_items e) -> blk ms (t0 id) [DFinal "model" (new id); set_value id i; DExpr (call (item_codec id i) "read" [var "reader"; model_item i]); DReturn (Some (var "model"))] (tagged reader_env) = Some Exits) by (intros i J; now apply into_case).
    destruct (st_tags ms (t0 id) (tagged reader_env) (fun i => [DFinal "model" (new id); set_value id i; DExpr (call (item_codec id i) "read" [var "reader"; model_item i]); DReturn (Some (var "model"))]) _ MO (proj1 RT) eq_refl eq_refl) as (w & T & WE);
      [intros i J; left; now apply X|]. rewrite (WE X) in T. now rewrite (tag_block ms (t0 id) reader_env _ Exits reader_env_ok T Logic.I).
  - now apply enum_write_body.
  - now apply enum_skip_body.
Qed.
Lemma enum_emplace_okay : static_item ext items (enum_emplace_class e) = true.
Proof.
  assert (I : In (enum_emplace_class e) items) by (apply (has _ _ ie); unfold DartCodec.decl_items, enum_buffers_tree; rewrite !in_app_iff; right; right; right; now left).
  eapply codec_okay; [exact enum_class_in|exact I|right; split; [reflexivity|split; reflexivity]|reflexivity|reflexivity|reflexivity|]. intros ms MO. split; [|split].
  - unfold body_ok. change (param_env (PPos [reader_param; model_param id] false)) with (emplace_env id). destruct (tagged_ok _ (emplace_env_ok id)) as [_ RT].
    assert (X : forall i, In i (en_items e) -> blk ms (t0 "void") [set_value id i; DExpr (call (item_codec id i) "read" [var "reader"; model_item i]); DReturn None] (tagged (emplace_env id)) = Some Exits) by (intros i J; now apply emplace_case with true).
    destruct (st_tags ms (t0 "void") (tagged (emplace_env id)) (fun i => [set_value id i; DExpr (call (item_codec id i) "read" [var "reader"; model_item i]); DReturn None]) _ MO (proj1 RT) eq_refl eq_refl) as (w & T & WE);
      [intros i J; left; now apply X|]. rewrite (WE X) in T. now rewrite (tag_block ms (t0 "void") (emplace_env id) _ Exits (emplace_env_ok id) T Logic.I).
  - now apply enum_write_body.
  - now apply enum_skip_body.
Qed.
Lemma enum_items_okay i : In i (DartCodec.decl_items (Wire.DEnum e)) -> static_item ext items i = true.
Proof.
  intros I. unfold DartCodec.decl_items in I. rewrite enum_model_items in I. unfold enum_buffers_tree in I. rewrite !in_app_iff in I. destruct I as [[[<-|[<-|[<-|[]]]]|I]|[I|[<-|[<-|[]]]]].
  - exact enum_tags_okay.
  - exact enum_class_okay.
  - exact enum_factory_okay.
  - apply in_flat_map in I as (c & I & J). rewrite struct_model_items in J. destruct J as [<-|[<-|[]]]; [apply struct_model_okay|apply struct_factory_okay]; now apply case_here.
  - pose proof I as J. apply in_map_iff in I as (c & <- & I). apply struct_emplace_okay; [now apply case_here|]. apply (has _ _ ie). unfold DartCodec.decl_items, enum_buffers_tree. rewrite !in_app_iff. right. now left.
  - exact enum_into_okay.
  - exact enum_emplace_okay.
Qed.
End Enum.

(** A struct of the schema. *)
Lemma struct_items_okay s i : dident (sn_id s) = true -> In (DStruct s) (schema_decls ast) -> In i (DartCodec.decl_items (DStruct s)) -> static_item ext items i = true.
Proof.
  intros KW I J. pose proof okd as O. pose proof fine as F. rewrite forallb_forall in O, F. specialize (O _ I). specialize (F _ I). unfold DartCodec.dart_decl_ok in O. rewrite !andb_true_iff in O. destruct O as ((_ & A) & ((((B1 & B2) & _) & C) & _)).
  assert (H : struct_here s).
  { split.
    - intros j K. apply (has _ _ I). unfold DartCodec.decl_items. apply in_or_app. now left.
    - intros f K. cbn [decl_fine] in F. rewrite forallb_forall in F. specialize (F f K). unfold slot_fine in F. cbn [fst snd] in F. rewrite andb_true_iff, negb_true_iff in F. exact F.
    - intros K. destruct K as [K|[K|[K|[]]]]; rewrite <- K in KW; vm_compute in KW; discriminate KW. }
  pose proof (has _ _ I J) as IN. unfold DartCodec.decl_items in J. apply in_app_or in J as [J|J].
  - rewrite struct_model_items in J. destruct J as [<-|[<-|[]]]; [now apply struct_model_okay|now apply struct_factory_okay].
  - unfold struct_buffers_tree in J. rewrite B1, B2 in J. destruct J as [<-|[<-|[]]]; [now apply struct_emplace_okay|]. apply struct_into_okay; try assumption. now apply DartRun.absent_not_in.
Qed.
(** ** The client *)

Section Client.
Variable name id : string.
Variable nodes : list fn_node.
Notation ms := (client_members name id nodes).
Hypothesis ic : In (DClass name None ms) items.
Hypothesis ff : forallb (fn_fine ast ext items) nodes = true.
Hypothesis idp : ConstSpec.dart_plain id = true.

Lemma client_names : NoDup (member_names ms) /\ forall n, In n (member_names ms) -> ~ In n R /\ ~ In n (name :: ConstSpec.dart_object).
Proof.
  destruct (members_fine _ _ _ ic) as [D F]; [unfold holder; cbn [client_members app existsb orb forallb andb]; apply andb_false_r|]. split; [now apply RustDefaultRuns.distinct_NoDup|exact F].
Qed.
Lemma cmo : forall n, In n (member_names ms) -> ~ In n R. Proof. intros n I. now apply client_names. Qed.
Notation nn := (proj1 client_names).
Notation tex := (tex ext items ms).
Notation tst := (tst ext items ms).
Notation blk r := (block (fun s en => tst true s r en)).

(** Environments: no class is hidden, and no private name is a variable. *)
Definition fit (en : tenv) : Prop := env_ok en /\ forall x, In x (map fst en) -> private x = false.
Lemma fit_cons x o en : In x fixed_names -> fit en -> fit ((x, o) :: en).
Proof.
  intros I [E P]. split; [apply env_cons; [now apply fixed_out|exact E]|]. intros y [<-|J]; [|now apply P]. cbn [fst]. clear - I. cbn in I. decompose [or] I; subst; try reflexivity; contradiction.
Qed.
Lemma fit_nil : fit []. Proof. split; [exact env_nil|]. intros x []. Qed.
Lemma fit_none n en : fit en -> private n = true -> assoc n en = None.
Proof. intros [_ P] Q. apply assoc_none. intros I. rewrite P in Q by exact I. discriminate. Qed.

Lemma private_names n : private n = true -> ~ In n ["null"; "true"; "false"].
Proof. intros P [<-|[<-|[<-|[]]]]; discriminate P. Qed.
Lemma mine_field m n t s en : In m ms -> field_sig m = Some (n, t, s) -> private n = true -> fit en -> name_ty items ms true n en = Place (place_of t s).
Proof.
  intros I F P E. unfold name_ty. rewrite (fit_none n en E P). pose proof (private_names n P) as K. assert (A : among ["true"; "false"] n = false) by (apply among_out; intros J; apply K; now right). assert (B : String.eqb n "null" = false) by (apply String.eqb_neq; intros ->; apply K; now left).
  now rewrite A, B, (own_field ms true m n t s nn I F).
Qed.
Lemma mine_static n e t en inst : In (MStatic n e) ms -> init_ty e = Some t -> private n = true -> fit en -> name_ty items ms inst n en = Place (t, None).
Proof.
  intros I F P E. unfold name_ty. rewrite (fit_none n en E P). pose proof (private_names n P) as K. assert (A : among ["true"; "false"] n = false) by (apply among_out; intros J; apply K; now right). assert (B : String.eqb n "null" = false) by (apply String.eqb_neq; intros ->; apply K; now left).
  now rewrite A, B, (own_static ms inst n e t nn I F).
Qed.
Lemma lib_named c inst en : fit en -> In c known -> name_ty items ms inst c en = Other /\ own ms inst c = None.
Proof. intros E I. exact (lib_other c ms inst en cmo (proj1 E) I). Qed.

Lemma in_scheduler : In (MFinal (Some (ty0 "TechPawsRuntimeRpcScheduler")) "_scheduler" None) ms. Proof. right. now left. Qed.
Lemma in_scope : In (MStatic "_scopeId" (DStr id)) ms. Proof. right. right. now left. Qed.
Lemma scheduler_place en : fit en -> name_ty items ms true "_scheduler" en = Place (t0 "TechPawsRuntimeRpcScheduler", None).
Proof. intros E. exact (mine_field _ "_scheduler" (t0 "TechPawsRuntimeRpcScheduler") false en in_scheduler eq_refl eq_refl E). Qed.
Lemma scheduler_call m ts args tr en s : fit en -> forallb (type_ok ext items ms en) ts = true -> member_of (t0 "TechPawsRuntimeRpcScheduler") m ts = Some s ->
  tex true (DPost scheduler [XMeth m ts args tr]) en = value (args_ok ext items (tex true) (tst true) en (Some s) args).
Proof. intros E T M. unfold scheduler, var. rewrite tex_post_name, (scheduler_place en E). rewrite post_meth, T. cbn [fst]. rewrite M. now destruct (value _). Qed.
Lemma scheduler_member m ts s : lib_member "TechPawsRuntimeRpcScheduler" [] m ts = Some s -> member_of (t0 "TechPawsRuntimeRpcScheduler") m ts = Some s.
Proof. intros L. unfold DartStatic.member_of, t0. rewrite known_out by (vm_compute; tauto). exact L. Qed.
Lemma tex_lib_field inst c f t en ps : fit en -> In c known -> static_of items c [] f = Some (Var t false) ->
  tex inst (DPost (var c) (XField f :: ps)) en = (fix go (ps : list dpost) (p : place) : option place := match ps with [] => Some p | x :: ps' => match tpost ext items ms inst x p en with Some p' => go ps' p' | None => None end end) ps (t, None).
Proof.
  intros E I S. unfold var. rewrite tex_post_name. destruct (lib_named c inst en E I) as [O _]. rewrite O. cbn [forallb]. rewrite named_field, (vis ms cmo c en (proj1 E) (R_known c I)), S. reflexivity.
Qed.
Lemma tex_side inst side en : fit en -> side = "server" \/ side = "client" -> tex inst (field (var "TechPawsRuntimeRpcMethodBuffer") side) en = Some (t0 "TechPawsRuntimeRpcMethodBuffer", None).
Proof.
  intros E S. unfold field, postfix, var. change (DName "TechPawsRuntimeRpcMethodBuffer" []) with (var "TechPawsRuntimeRpcMethodBuffer"). rewrite (tex_lib_field inst _ side (t0 "TechPawsRuntimeRpcMethodBuffer")); [reflexivity|exact E|vm_compute; tauto|].
  unfold static_of. rewrite known_out by (vm_compute; tauto). destruct S as [-> | ->]; reflexivity.
Qed.
Lemma tex_has_data inst en : fit en -> tex inst has_data en = Some (t0 "int", None).
Proof.
  intros E. unfold has_data. rewrite (tex_lib_field inst _ "hasData" (t0 "TechPawsRpcBufferStatus")); [|exact E|vm_compute; tauto|unfold static_of; rewrite known_out by (vm_compute; tauto); reflexivity].
  rewrite post_field. cbn [fst]. unfold DartStatic.member_of, t0. rewrite known_out by (vm_compute; tauto). reflexivity.
Qed.
Lemma number_arg inst en n : (n < 2 ^ 63)%N -> arg_ok ext items (tex inst) (tst inst) en (DNum (show_N n)) (t0 "int") = true.
Proof.
  intros L. unfold arg_ok. cbn [DartStatic.tex]. rewrite digits_only_all by (apply show_N_digits || apply show_N_nonempty). rewrite show_N_value. apply N.ltb_lt in L. rewrite L. reflexivity.
Qed.
Lemma four_args tx ts en a b c d p q u v r : arg_ok ext items tx ts en a p = true -> arg_ok ext items tx ts en b q = true -> arg_ok ext items tx ts en c u = true -> arg_ok ext items tx ts en d v = true ->
  args_ok ext items tx ts en (Some (Fun [p; q; u; v] [] [] r)) [(None, a); (None, b); (None, c); (None, d)] = Some r.
Proof. intros A B C D. unfold args_ok, call_ok. cbn [map fst snd positional_ok]. now rewrite A, B, C, D. Qed.

Section Method.
Variable node : fn_node.
Hypothesis inode : In node nodes.
Lemma node_fine : (fn_position node < 2 ^ 63)%N /\
  (forall a, In a (fn_args node) -> private (camel (fa_id a)) = false /\ usable (fa_type a) = true /\ ~ In (camel (fa_id a)) fixed_names /\ ~ In (camel (fa_id a)) R) /\
  (forall t, fn_return node = Some t -> usable t = true) /\ distinct (map (fun a => camel (fa_id a)) (fn_args node)) = true.
Proof.
  pose proof ff as F. rewrite forallb_forall in F. specialize (F node inode). unfold fn_fine in F. rewrite !andb_true_iff in F. destruct F as ((((P & A) & T) & D) & N). rewrite forallb_forall in A, N. repeat split.
  - now apply N.ltb_lt.
  - specialize (A _ H). unfold slot_fine in A. cbn [fst snd] in A. apply andb_true_iff in A as [A _]. now apply negb_true_iff in A.
  - specialize (A _ H). unfold slot_fine in A. cbn [fst snd] in A. now apply andb_true_iff in A as [_ A].
  - specialize (N _ H). apply negb_true_iff, among_out in N. intros J. apply N, in_or_app. now left.
  - specialize (N _ H). apply negb_true_iff, among_out in N. intros J. apply N, in_or_app. now right.
  - intros t E. now rewrite E in T.
  - exact D.
Qed.
Lemma scall_okay m ts side x body a r res en w : fit en -> member_of (t0 "TechPawsRuntimeRpcScheduler") m ts = Some (Fun (scheduler_args (fun_ty a r)) [] [] res) ->
  forallb (type_ok ext items ms en) ts = true -> side = "server" \/ side = "client" ->
  blk r body ((x, Some (a, true)) :: en) = Some w -> w = Exits \/ w = Goes /\ head_of r = "void" ->
  tex true (scall m ts (args3 node side (DFun x body))) en = Some (res, None).
Proof.
  intros E M T S B W. unfold scall. rewrite (scheduler_call m ts _ _ en _ E T M). unfold args3, scheduler_args. rewrite four_args; [reflexivity| | | |].
  - eapply arg_plain; [exact Logic.I|]. unfold var. cbn [DartStatic.tex]. rewrite (mine_static _ _ (t0 "String") en true in_scope eq_refl eq_refl E). reflexivity.
  - apply number_arg. exact (proj1 node_fine).
  - eapply arg_plain; [exact Logic.I|]. now apply tex_side.
  - rewrite arg_fun, B. destruct W as [-> | [-> V]]; [reflexivity|]. rewrite V. reflexivity.
Qed.
Lemma st_get_status inst en r : reads en -> tst inst get_status r en = Some (("status", Some (t0 "int", false)) :: en, Goes).
Proof.
  intros RD. unfold get_status. rewrite st_final. pose proof (tex_read_prim ms inst (TyInteger "u8" 1 false) en RD eq_refl) as T. cbn [DartTree.prim_name] in T. change ("read" ++ "Int8")%string with "readInt8" in T. rewrite T. reflexivity.
Qed.
Lemma st_put_status en r : fit en -> writes en -> tst true put_status r en = Some (en, Goes).
Proof.
  intros E [_ [s W]]. unfold put_status. rewrite st_expr. pose proof (writer_member (TyInteger "u8" 1 false)) as M. cbn [DartTree.prim_name] in M. change ("write" ++ "Int8")%string with "writeInt8" in M.
  rewrite (tex_method _ _ _ _ _ _ _ _ _ W M), args_exact; [reflexivity|reflexivity|]. intros p e [[= <- <-]|[]]. eapply arg_plain; [exact Logic.I|]. now apply tex_has_data.
Qed.
Lemma st_no_data en r body w st : fit en -> assoc "status" en = Some (Some (t0 "int", st)) -> blk r body en = Some w -> w <> Breaks ->
  tst true (DIf (DEq true (var "status") has_data) body) r en = Some (en, Goes).
Proof. intros E A B W. rewrite st_if, tex_eq, (tex_var _ _ _ _ _ _ A), tex_has_data by exact E. cbn [place_of]. change (same_ty (t0 "bool") (t0 "bool")) with true. cbv iota. rewrite B. now destruct w. Qed.

(** The arguments. *)
Definition args_env : tenv := map (fun a => (camel (fa_id a), Some (dty_of (fa_type a), true))) (fn_args node).
Lemma method_env : param_env (method_params node) = args_env.
Proof.
  unfold method_params, args_env. destruct (fn_args node) as [|a l]; [reflexivity|]. unfold param_env. cbn [param_list]. generalize (a :: l). clear. intros k. induction k as [|b k IH]; [reflexivity|]. cbn [map flat_map fst snd app]. now rewrite IH.
Qed.
Lemma args_fit : fit args_env.
Proof.
  destruct node_fine as (_ & A & _ & _). unfold args_env. split.
  - intros x I. rewrite map_map in I. cbn [fst] in I. apply in_map_iff in I as (a & <- & I). now apply A.
  - intros x I. rewrite map_map in I. cbn [fst] in I. apply in_map_iff in I as (a & <- & I). now apply A.
Qed.
Lemma arg_place a : In a (fn_args node) -> assoc (camel (fa_id a)) args_env = Some (Some (dty_of (fa_type a), true)).
Proof.
  destruct node_fine as (_ & _ & _ & D). apply RustDefaultRuns.distinct_NoDup in D. unfold args_env. clear - D. induction (fn_args node) as [|b l IH]; intros I; [destruct I|]. cbn [map] in *. apply NoDup_cons_iff in D as [B D]. cbn [assoc]. destruct I as [->|I].
  - now rewrite String.eqb_refl.
  - destruct (String.eqb_spec (camel (fa_id a)) (camel (fa_id b))) as [E|]; [|now apply IH]. exfalso. apply B. rewrite <- E. exact (in_map (fun a => camel (fa_id a)) l a I).
Qed.
Lemma arg_skip a x o (en : tenv) : In a (fn_args node) -> In x fixed_names -> assoc (camel (fa_id a)) ((x, o) :: en) = assoc (camel (fa_id a)) en.
Proof. intros I J. destruct node_fine as (_ & A & _). cbn [assoc]. destruct (String.eqb_spec (camel (fa_id a)) x) as [E|]; [|reflexivity]. exfalso. destruct (A a I) as (_ & _ & N & _). apply N. now rewrite E. Qed.
Lemma method_params_okay : params_ok ext items ms (method_params node) = true /\ existsb is_this (param_list (method_params node)) = false.
Proof.
  destruct node_fine as (_ & A & _ & D). unfold method_params. destruct (fn_args node) as [|b l] eqn:EA; [split; reflexivity|]. rewrite <- EA in *. split.
  - unfold params_ok. cbn [param_list]. rewrite map_map. cbn [snd]. rewrite D. cbn [andb]. apply andb_true_iff. split.
    + apply forallb_forall. intros p I. apply in_map_iff in I as (a & <- & I). cbn [fst]. destruct (A a I) as (_ & U & _). apply usable_mentioned in U. rewrite (type_okay ms cmo [] _ env_nil U). apply negb_true_iff, String.eqb_neq. exact (proj2 (proj2 (type_of _ U))).
    + apply negb_true_iff. destruct (existsb _ _) eqn:X; [|reflexivity]. apply existsb_exists in X as (p & I & P). apply in_map_iff in I as (a & <- & I). cbn [snd] in P. rewrite (proj1 (A a I)) in P. discriminate.
  - cbn [param_list]. destruct (existsb _ _) eqn:X; [|reflexivity]. apply existsb_exists in X as (p & I & P). apply in_map_iff in I as (a & <- & I). discriminate P.
Qed.
Lemma st_arg_writes en r s : writes en -> (forall a, In a (fn_args node) -> assoc (camel (fa_id a)) en = Some (Some (dty_of (fa_type a), true))) -> In s (arg_writes node) -> tst true s r en = Some (en, Goes).
Proof.
  intros W H I. unfold arg_writes in I. apply in_map_iff in I as (a & <- & I). destruct node_fine as (_ & A & _). eapply (st_write ms true cmo); [exact W|now apply A|exact Logic.I|]. apply tex_var. now apply H.
Qed.
Lemma ret_okay en : fit en -> type_ok ext items ms en (ret_ty (fn_return node)) = true.
Proof.
  intros E. destruct node_fine as (_ & _ & T & _). destruct (fn_return node) as [t|] eqn:RE; cbn [ret_ty].
  - apply (type_okay ms cmo); [exact (proj1 E)|]. now apply usable_mentioned, T.
  - apply plain_type_ok; [exact cmo|exact (proj1 E)|]. vm_compute. tauto.
Qed.
Lemma ret_nonvoid t : fn_return node = Some t -> String.eqb (head_of (dty_of t)) "void" = false.
Proof. intros E. destruct node_fine as (_ & _ & T & _). apply String.eqb_neq. exact (proj2 (proj2 (type_of _ (usable_mentioned _ (T t E))))). Qed.

Lemma reader_fit en : fit en -> reads (("reader", Some (t0 "BytesReader", true)) :: en).
Proof. intros E. split; [exact (proj1 (fit_cons "reader" _ en ltac:(vm_compute; tauto) E))|now exists true]. Qed.
Lemma sync_write en : fit en -> (forall a, In a (fn_args node) -> assoc (camel (fa_id a)) en = Some (Some (dty_of (fa_type a), true))) ->
  tst true (DExpr (scall "syncWrite" [] (args3 node "server" (DFun "writer" (put_status :: arg_writes node))))) (ret_ty (fn_return node)) en = Some (en, Goes).
Proof.
  intros E A. rewrite st_expr, (scall_okay "syncWrite" [] "server" "writer" (put_status :: arg_writes node) (t0 "BytesWriter") (t0 "void") (t0 "void") en Goes); [reflexivity|exact E|now apply scheduler_member|reflexivity|now left| |right; now split].
  pose proof (fit_cons "writer" (Some (t0 "BytesWriter", true)) en ltac:(vm_compute; tauto) E) as E2. assert (W : writes (("writer", Some (t0 "BytesWriter", true)) :: en)) by (split; [exact (proj1 E2)|now exists true]).
  apply block_all.
  - intros x [<-|I]; [exact Logic.I|]. unfold arg_writes in I. apply in_map_iff in I as (a & <- & _). exact Logic.I.
  - intros x [<-|I]; [now apply st_put_status|]. apply st_arg_writes; [exact W| |exact I]. intros a J. rewrite arg_skip by (assumption || (vm_compute; tauto)). now apply A.
Qed.
Lemma sync_loop en r : fit en -> tst true (DExpr (call scheduler "loopSyncGroup" [])) r en = Some (en, Goes).
Proof.
  intros E. rewrite st_expr. unfold call, postfix. cbn [scheduler var map]. change (DName "_scheduler" []) with scheduler.
  rewrite (scheduler_call "loopSyncGroup" [] [] false en (Fun [] [] [] (t0 "void")) E eq_refl); [reflexivity|now apply scheduler_member].
Qed.
Lemma tex_error inst en : fit en -> tex inst (DPost (var "StateError") [XCall [(None, DStr "No data")] false]) en = Some (t0 "StateError", None).
Proof.
  intros E. unfold var. rewrite tex_post_name. destruct (lib_named "StateError" inst en E ltac:(vm_compute; tauto)) as [O OW]. rewrite O. cbn [forallb]. rewrite named_call, OW. unfold maker_of. rewrite known_out by (vm_compute; tauto). cbn [String.eqb Ascii.eqb Bool.eqb].
  assert (T : tex inst (DStr "No data") en = Some (t0 "String", None)) by reflexivity.
  assert (AE : args_ok ext items (tex inst) (tst inst) en (Some (Fun [t0 "String"] [] [] (t0 "StateError"))) (unlabelled [DStr "No data"]) = Some (t0 "StateError")).
  { apply args_exact; [reflexivity|]. intros p x [[= <- <-]|[]]. now apply arg_plain with None. }
  unfold unlabelled in AE. cbn [map] in AE. rewrite AE. reflexivity.
Qed.
Lemma sync_read t en : fit en -> fn_return node = Some t ->
  tex true (scall "syncRead" [dty_of t] (args3 node "client" (DFun "reader"
              [ get_status; DIf (DEq true (var "status") has_data) [DThrow (DPost (var "StateError") [XCall [(None, DStr "No data")] false])]; DReturn (Some (read_ex t)) ]))) en = Some (dty_of t, None).
Proof.
  intros E RE. destruct node_fine as (_ & _ & U & _). specialize (U t RE). pose proof (ret_okay en E) as RO. rewrite RE in RO. cbn [ret_ty] in RO.
  eapply (scall_okay "syncRead" [dty_of t] "client" "reader" _ (t0 "BytesReader") (dty_of t)); [exact E|now apply scheduler_member|cbn [forallb]; now rewrite RO|now right| |now left].
  unfold block. change (locals _) with ["status"]. cbn [distinct RustDefault.among existsb negb andb map app].
  set (en1 := ("status", None) :: ("reader", Some (t0 "BytesReader", true)) :: en). set (en2 := ("status", Some (t0 "int", false)) :: en1).
  assert (F1 : fit en1) by (apply fit_cons; [vm_compute; tauto|apply fit_cons; [vm_compute; tauto|exact E]]). assert (F2 : fit en2) by (apply fit_cons; [vm_compute; tauto|exact F1]).
  rewrite chain_cons with (en' := en2); [|apply st_get_status; split; [exact (proj1 F1)|now exists true]].
  rewrite chain_cons with (en' := en2).
  - assert (T : tst true (DReturn (Some (read_ex t))) (dty_of t) en2 = Some (en2, Exits)).
    { rewrite st_return, (tex_read ms true cmo) by first [exact U|split; [exact (proj1 F2)|now exists true]]. now rewrite (ret_nonvoid t RE), fits_refl. }
    exact (chain_last (fun s en => tst true s (dty_of t) en) _ en2 en2 Exits T).
  - eapply st_no_data with (w := Exits); [exact F2|reflexivity| |discriminate]. rewrite block_plain by reflexivity.
    assert (T : tst true (DThrow (DPost (var "StateError") [XCall [(None, DStr "No data")] false])) (dty_of t) en2 = Some (en2, Exits)) by (rewrite st_throw, tex_error by exact F2; reflexivity).
    exact (chain_last (fun s en => tst true s (dty_of t) en) _ en2 en2 Exits T).
Qed.
Lemma meth_okay st r n ps b : type_ok ext items ms [] r = true -> params_ok ext items ms ps = true -> existsb is_this (param_list ps) = false -> body_ok ext items ms (negb st) b r (param_env ps) = true ->
  member_ok ext items name ms (MMeth st r n ps b) = true.
Proof. intros A B C D. cbn [member_ok]. now rewrite A, B, C, D. Qed.
Lemma sync_okay : member_ok ext items name ms (sync_method node) = true.
Proof.
  destruct method_params_okay as [P T]. unfold sync_method. apply meth_okay; [apply ret_okay, fit_nil|exact P|exact T|]. rewrite method_env. cbn [negb]. unfold body_ok. pose proof args_fit as F. pose proof (fun a => arg_place a) as AP.
  destruct (fn_return node) as [t|] eqn:RE; cbn [ret_ty app].
  - unfold block. change (locals _) with ["result"]. cbn [distinct RustDefault.among existsb negb andb map app]. set (en1 := ("result", None) :: args_env). assert (F1 : fit en1) by (apply fit_cons; [vm_compute; tauto|exact F]).
    assert (A1 : forall a, In a (fn_args node) -> assoc (camel (fa_id a)) en1 = Some (Some (dty_of (fa_type a), true))) by (intros a I; unfold en1; rewrite arg_skip by (assumption || (vm_compute; tauto)); now apply AP).
    pose proof (sync_write en1 F1 A1) as SW. rewrite RE in SW. cbn [ret_ty] in SW. rewrite chain_cons with (en' := en1) by exact SW. rewrite chain_cons with (en' := en1) by now apply sync_loop.
    rewrite chain_cons with (en' := ("result", Some (dty_of t, false)) :: en1); [|rewrite st_final, (sync_read t en1 F1 RE); now rewrite (ret_nonvoid t RE)].
    assert (X : tst true (DReturn (Some (var "result"))) (dty_of t) (("result", Some (dty_of t, false)) :: en1) = Some (("result", Some (dty_of t, false)) :: en1, Exits)).
    { rewrite st_return, (tex_var ms true "result" (("result", Some (dty_of t, false)) :: en1) (dty_of t) false eq_refl). cbn [place_of]. now rewrite (ret_nonvoid t RE), fits_refl. }
    now rewrite (chain_last (fun s en => tst true s (dty_of t) en) _ _ _ Exits X).
  - rewrite block_plain by reflexivity. pose proof (sync_write args_env F AP) as SW. rewrite RE in SW. cbn [ret_ty] in SW. rewrite chain_cons with (en' := args_env) by exact SW. rewrite chain_cons with (en' := args_env) by now apply sync_loop. reflexivity.
Qed.
(** The methods with a read task. *)
Lemma var_in m : In m (var_members node) -> In m ms.
Proof. intros I. unfold client_members. rewrite !in_app_iff. right. left. apply in_flat_map. now exists node. Qed.
Lemma task_place en : fit en -> is_async_or_read node = true -> name_ty items ms true (var_read_task node) en = Place (place_of (t0 "TechPawsRuntimeRpcReadTask") true).
Proof.
  intros E A. apply (mine_field (MLate (ty0 "TechPawsRuntimeRpcReadTask") (var_read_task node))); [|reflexivity|reflexivity|exact E]. apply var_in. unfold var_members. rewrite A, !in_app_iff. right. left. now left.
Qed.
Lemma last_place en : fit en -> fn_is_async node = true -> fn_is_read node = false -> name_ty items ms true (var_last_method_id node) en = Place (place_of (t0 "int") true).
Proof.
  intros E A B. apply (mine_field (MField (ty0 "int") (var_last_method_id node) (Some (DNum "0")))); [|reflexivity|reflexivity|exact E]. apply var_in. unfold var_members. rewrite A, B, !in_app_iff. left. now left.
Qed.
Notation waiting := (DTy "Map" [ty0 "int"; DTy "Completer" [ret_ty (fn_return node)]]).
Lemma completers_place en : fit en -> fn_is_async node = true -> fn_is_read node = false -> name_ty items ms true (var_method_completers node) en = Place (waiting, None).
Proof.
  intros E A B. apply (mine_field (MFinal None (var_method_completers node) (Some (DMap [ty0 "int"; DTy "Completer" [ret_ty (fn_return node)]]))) _ waiting false); [|reflexivity|reflexivity|exact E].
  apply var_in. unfold var_members. rewrite A, B, !in_app_iff. left. right. now left.
Qed.
Notation control := (DTy "StreamController" [ret_ty (fn_return node)]).
Lemma control_place en : fit en -> fn_is_read node = true -> name_ty items ms true (var_read_stream_controller node) en = Place (control, None).
Proof.
  intros E B. apply (mine_field (MFinal None (var_read_stream_controller node) (Some (DPost (DName "StreamController" [ret_ty (fn_return node)]) [XMeth "broadcast" [] [] false]))) _ control false); [|reflexivity|reflexivity|exact E].
  apply var_in. unfold var_members. rewrite B, !in_app_iff. right. right. now left.
Qed.
Lemma lib_type_ok g t en : fit en -> In g generic_types -> type_ok ext items ms en t = true -> type_ok ext items ms en (DTy g [t]) = true.
Proof.
  intros E I T. assert (K : In g known) by (unfold known; rewrite !in_app_iff; tauto). unfold type_ok in *. apply andb_true_iff in T as [T V]. cbn [type_known visible_ty forallb].
  rewrite T, V, (known_out g K), (vis ms cmo g en (proj1 E) (R_known g K)). cbn in I. decompose [or] I; subst; try reflexivity; contradiction.
Qed.
Lemma map_type_ok en : fit en -> type_ok ext items ms en waiting = true.
Proof.
  intros E. pose proof (lib_type_ok "Completer" _ en E ltac:(vm_compute; tauto) (ret_okay en E)) as T. pose proof (plain_type_ok "int" ms en cmo (proj1 E) ltac:(vm_compute; tauto)) as T'.
  assert (K : In "Map" known) by (vm_compute; tauto). unfold type_ok in *. apply andb_true_iff in T as [T V], T' as [T' V']. change (t0 "int") with (ty0 "int") in *. cbn [type_known visible_ty forallb] in *.
  rewrite T, V, T', V', (known_out _ K), (vis ms cmo _ en (proj1 E) (R_known _ K)). reflexivity.
Qed.
(** The members of the classes of the libraries. *)
Lemma lib_mem n ts m s : In n known -> lib_codec ext n ts = None -> lib_member n ts m [] = Some s -> member_of (DTy n ts) m [] = Some s.
Proof. intros K C L. unfold DartStatic.member_of. now rewrite (known_out n K), C, L. Qed.
(** A variable of the class: a method of it. *)
Lemma tex_mine x m t w args tr en s : name_ty items ms true x en = Place (t, w) -> member_of t m [] = Some s ->
  tex true (DPost (var x) [XMeth m [] args tr]) en = value (args_ok ext items (tex true) (tst true) en (Some s) args).
Proof. intros P M. unfold var. rewrite tex_post_name, P, post_meth. cbn [forallb fst]. rewrite M. now destruct (value _). Qed.
Lemma call_var x m l : call (var x) m l = DPost (var x) [XMeth m [] (unlabelled l) false]. Proof. reflexivity. Qed.

Lemma connect_okay rest : is_async_or_read node = true ->
  (forall en, fit en -> reads en -> assoc "null" en = None -> assoc "status" en = Some (Some (t0 "int", false)) -> (forall x, In x (locals rest) -> assoc x en = Some None) -> chain (fun s en => tst true s (t0 "void") en) rest en = Some Goes) ->
  distinct ("status" :: locals rest) = true -> (forall x, In x (locals rest) -> In x fixed_names /\ x <> "reader") ->
  member_ok ext items name ms (connect_method node rest) = true.
Proof.
  intros AR H D L. unfold connect_method. apply meth_okay; [apply plain_type_ok; [exact cmo|exact env_nil|vm_compute; tauto]|reflexivity|reflexivity|]. change (param_env (PPos [] false)) with (@nil (string * option (dty * bool))). cbn [negb].
  unfold body_ok. rewrite block_plain by reflexivity. pose proof fit_nil as E.
  assert (X : tex true (scall "read" [] (args3 node "client" (DFun "reader" ([ get_status; DIf (DEq true (var "status") has_data) [DReturn None] ] ++ rest)))) [] = Some (t0 "TechPawsRuntimeRpcReadTask", None)).
  { eapply (scall_okay "read" [] "client" "reader" _ (t0 "BytesReader") (t0 "void")); [exact E|now apply scheduler_member|reflexivity|now right| |right; split; reflexivity].
    unfold block. change (locals ([get_status; DIf (DEq true (var "status") has_data) [DReturn None]] ++ rest)) with ("status" :: locals rest). rewrite D. cbn [app map].
    set (en0 := map (fun x => (x, None)) (locals rest) ++ [("reader", Some (t0 "BytesReader", true))] : tenv). set (en1 := ("status", None) :: en0 : tenv). set (en2 := ("status", Some (t0 "int", false)) :: en1 : tenv).
    assert (F0 : fit en0). { unfold en0. clear - L tf. induction (locals rest) as [|x l IH]; cbn [map app]; [apply fit_cons; [vm_compute; tauto|apply fit_nil]|]. apply fit_cons; [now apply L; left|]. apply IH. intros y J. apply L. now right. }
    assert (F1 : fit en1) by (apply fit_cons; [vm_compute; tauto|exact F0]). assert (F2 : fit en2) by (apply fit_cons; [vm_compute; tauto|exact F1]).
    assert (A0 : assoc "reader" en0 = Some (Some (t0 "BytesReader", true))).
    { unfold en0. clear - L. induction (locals rest) as [|x l IH]; [reflexivity|]. cbn [map app assoc]. destruct (String.eqb_spec "reader" x) as [<-|]; [exfalso; apply (L "reader"); [now left|reflexivity]|]. apply IH. intros y J. apply L. now right. }
    rewrite chain_cons with (en' := en2); [|apply st_get_status; split; [exact (proj1 F1)|exists true; exact A0]].
    rewrite chain_cons with (en' := en2).
    - apply H; [exact F2|split; [exact (proj1 F2)|exists true; exact A0]| |reflexivity|].
      { unfold en2, en1, en0. cbn [assoc String.eqb Ascii.eqb Bool.eqb]. clear - L. induction (locals rest) as [|x l IH]; [reflexivity|]. cbn [map app assoc]. destruct (String.eqb_spec "null" x) as [<-|].
        - exfalso. destruct (L "null" (or_introl eq_refl)) as [X _]. vm_compute in X. decompose [or] X; try discriminate; contradiction.
        - apply IH. intros y J. apply L. now right. }
      intros x J. unfold en2, en1. cbn [assoc]. cbn [distinct] in D. apply andb_true_iff in D as [D _]. destruct (String.eqb_spec x "status") as [->|].
      + exfalso. apply negb_true_iff, among_out in D. now apply D.
      + unfold en0. clear - J. induction (locals rest) as [|y l IH]; [destruct J|]. cbn [map app assoc]. destruct (String.eqb_spec x y) as [->|]; [reflexivity|]. destruct J as [->|J]; [congruence|now apply IH].
    - eapply st_no_data with (w := Exits); [exact F2|reflexivity| |discriminate]. reflexivity. }
  assert (T : tst true (set_st (var (var_read_task node)) (scall "read" [] (args3 node "client" (DFun "reader" ([ get_status; DIf (DEq true (var "status") has_data) [DReturn None] ] ++ rest))))) (ty0 "void") [] = Some ([], Goes)).
  { unfold set_st. rewrite st_expr, tex_set, X. assert (TV : tex true (var (var_read_task node)) [] = Some (place_of (t0 "TechPawsRuntimeRpcReadTask") true)) by (unfold var; cbn [DartStatic.tex]; now rewrite (task_place [] E AR)).
    rewrite TV. cbn [place_of]. now rewrite fits_refl. }
  now rewrite (chain_last (fun s en => tst true s (ty0 "void") en) _ _ _ Goes T).
Qed.
Lemma st_method_id en : reads en -> tst true (DFinal "methodId" (call (var "reader") "readInt64" [])) (t0 "void") en = Some (("methodId", Some (t0 "int", false)) :: en, Goes).
Proof.
  intros RD. rewrite st_final. pose proof (tex_read_prim ms true (TyInteger "u64" 8 false) en RD eq_refl) as T. cbn [DartTree.prim_name] in T. change ("read" ++ "Int64")%string with "readInt64" in T. rewrite T. reflexivity.
Qed.
Lemma st_result t en : reads en -> fn_return node = Some t -> tst true (DFinal "result" (read_ex t)) (t0 "void") en = Some (("result", Some (dty_of t, false)) :: en, Goes).
Proof. intros RD RE. destruct node_fine as (_ & _ & U & _). rewrite st_final, (tex_read ms true cmo) by (assumption || now apply U). now rewrite (ret_nonvoid t RE). Qed.
Lemma tex_waiting en s ps : fit en -> fn_is_async node = true -> fn_is_read node = false -> assoc "methodId" en = Some (Some (t0 "int", s)) ->
  tex true (DPost (var (var_method_completers node)) (XIndex (var "methodId") :: ps)) en =
  (fix go (ps : list dpost) (p : place) : option place := match ps with [] => Some p | x :: ps' => match tpost ext items ms true x p en with Some p' => go ps' p' | None => None end end) ps
    (nullable (DTy "Completer" [ret_ty (fn_return node)]), Some (DTy "Completer" [ret_ty (fn_return node)])).
Proof.
  intros E A B M. unfold var. rewrite tex_post_name, (completers_place en E A B), post_index. assert (X : arg_ok ext items (tex true) (tst true) en (DName "methodId" []) (ty0 "int") = true); [|now rewrite X].
  eapply arg_plain; [exact Logic.I|]. exact (tex_var ms true "methodId" en (t0 "int") s M).
Qed.
Lemma complete_member : member_of (DTy "Completer" [ret_ty (fn_return node)]) "complete" [] = Some (Fun [] [ret_ty (fn_return node)] [] (t0 "void")).
Proof. apply lib_mem; [vm_compute; tauto|reflexivity|reflexivity]. Qed.
Lemma st_remove en s : fit en -> fn_is_async node = true -> fn_is_read node = false -> assoc "methodId" en = Some (Some (t0 "int", s)) ->
  tst true (DExpr (call (var (var_method_completers node)) "remove" [var "methodId"])) (t0 "void") en = Some (en, Goes).
Proof.
  intros E A B M. rewrite st_expr, call_var, (tex_mine _ "remove" waiting None _ _ en (Fun [t0 "Object"] [] [] (nullable (DTy "Completer" [ret_ty (fn_return node)]))) (completers_place en E A B)) by (apply lib_mem; [vm_compute; tauto|reflexivity|reflexivity]).
  rewrite args_exact; [reflexivity|reflexivity|]. intros p x [[= <- <-]|[]]. unfold arg_ok, var. change (DName "methodId" []) with (var "methodId"). rewrite (tex_var ms true "methodId" en (t0 "int") s M). reflexivity.
Qed.
Lemma async_connect_okay : fn_is_async node = true -> fn_is_read node = false -> member_ok ext items name ms (connect_method node (async_connect_rest node)) = true.
Proof.
  intros A B. apply connect_okay.
  - unfold is_async_or_read. now rewrite A.
  - intros en E RD NU S L. unfold async_connect_rest. cbn [app].
    rewrite chain_cons with (en' := ("methodId", Some (t0 "int", false)) :: en) by now apply st_method_id.
    set (en1 := ("methodId", Some (t0 "int", false)) :: en). assert (F1 : fit en1) by (apply fit_cons; [vm_compute; tauto|exact E]). assert (R1 : reads en1) by (destruct RD as [_ [s RD]]; split; [exact (proj1 F1)|exists s; exact RD]).
    destruct (fn_return node) as [t|] eqn:RE; cbn [app].
    + rewrite chain_cons with (en' := ("result", Some (dty_of t, false)) :: en1) by now apply st_result.
      set (en2 := ("result", Some (dty_of t, false)) :: en1). assert (F2 : fit en2) by (apply fit_cons; [vm_compute; tauto|exact F1]).
      rewrite chain_cons with (en' := en2).
      * assert (T := st_remove en2 false F2 A B eq_refl). exact (chain_last (fun s en => tst true s (t0 "void") en) _ _ _ Goes T).
      * rewrite st_expr, (tex_waiting en2 false _ F2 A B eq_refl). rewrite post_opt, complete_member, RE. cbn [ret_ty].
        assert (X : args_ok ext items (tex true) (tst true) en2 (Some (Fun [] [dty_of t] [] (t0 "void"))) [(None, var "result")] = Some (t0 "void")).
        { unfold args_ok, call_ok. cbn [map fst snd positional_ok]. rewrite (arg_plain ms true en2 (var "result") (dty_of t) None Logic.I (tex_var ms true "result" en2 (dty_of t) false eq_refl)). reflexivity. }
        rewrite X. reflexivity.
    + rewrite chain_cons with (en' := en1).
      * assert (T := st_remove en1 false F1 A B eq_refl). exact (chain_last (fun s en => tst true s (t0 "void") en) _ _ _ Goes T).
      * rewrite st_expr, (tex_waiting en1 false _ F1 A B eq_refl). rewrite post_opt, complete_member, RE. reflexivity.
  - unfold async_connect_rest. destruct (fn_return node); reflexivity.
  - unfold async_connect_rest. destruct (fn_return node); cbn; intros x X; decompose [or] X; subst; try contradiction; split; try discriminate; tauto.
Qed.
Lemma add_member : member_of control "add" [] = Some (Fun [ret_ty (fn_return node)] [] [] (t0 "void")).
Proof. apply lib_mem; [vm_compute; tauto|reflexivity|reflexivity]. Qed.
Lemma read_connect_okay : fn_is_read node = true -> member_ok ext items name ms (connect_method node (read_rest node)) = true.
Proof.
  intros B. apply connect_okay.
  - unfold is_async_or_read. rewrite B. apply orb_true_r.
  - intros en E RD NU S L. unfold read_rest. destruct (fn_return node) as [t|] eqn:RE.
    + rewrite chain_cons with (en' := ("result", Some (dty_of t, false)) :: en) by now apply st_result.
      set (en2 := ("result", Some (dty_of t, false)) :: en). assert (F2 : fit en2) by (apply fit_cons; [vm_compute; tauto|exact E]).
      assert (T : tst true (DExpr (call (var (var_read_stream_controller node)) "add" [var "result"])) (t0 "void") en2 = Some (en2, Goes)).
      { rewrite st_expr, call_var, (tex_mine _ "add" control None _ _ en2 _ (control_place en2 F2 B) add_member), RE. cbn [ret_ty]. rewrite args_exact; [reflexivity|reflexivity|]. intros p x [[= <- <-]|[]].
        exact (arg_plain ms true en2 (var "result") (dty_of t) None Logic.I (tex_var ms true "result" en2 (dty_of t) false eq_refl)). }
      exact (chain_last (fun s en => tst true s (t0 "void") en) _ _ _ Goes T).
    + assert (T : tst true (DExpr (call (var (var_read_stream_controller node)) "add" [var "null"])) (t0 "void") en = Some (en, Goes)).
      { rewrite st_expr, call_var, (tex_mine _ "add" control None _ _ en _ (control_place en E B) add_member), RE. cbn [ret_ty]. rewrite args_exact; [reflexivity|reflexivity|]. intros p x [[= <- <-]|[]].
        unfold arg_ok, var. cbn [DartStatic.tex]. unfold name_ty. rewrite NU. reflexivity. }
      exact (chain_last (fun s en => tst true s (t0 "void") en) _ _ _ Goes T).
  - unfold read_rest. destruct (fn_return node); reflexivity.
  - unfold read_rest. destruct (fn_return node); cbn; intros x X; decompose [or] X; subst; try contradiction; split; try discriminate; tauto.
Qed.
Lemma async_okay : fn_is_async node = true -> fn_is_read node = false -> member_ok ext items name ms (async_method node) = true.
Proof.
  intros A B. destruct method_params_okay as [P T]. unfold async_method. cbv zeta. apply meth_okay; [apply lib_type_ok; [exact fit_nil|vm_compute; tauto|apply ret_okay, fit_nil]|exact P|exact T|]. rewrite method_env. cbn [negb]. unfold body_ok.
  set (rt := ret_ty (fn_return node)). unfold block. change (locals _) with ["methodId"; "completer"]. cbn [distinct RustDefault.among existsb negb andb map app String.eqb Ascii.eqb Bool.eqb orb].
  set (en0 := ("methodId", None) :: ("completer", None) :: args_env : tenv). set (en1 := ("methodId", Some (t0 "int", false)) :: en0 : tenv). set (en2 := ("completer", Some (DTy "Completer" [rt], false)) :: en1 : tenv).
  assert (F0 : fit en0) by (apply fit_cons; [vm_compute; tauto|apply fit_cons; [vm_compute; tauto|exact args_fit]]). assert (F1 : fit en1) by (apply fit_cons; [vm_compute; tauto|exact F0]). assert (F2 : fit en2) by (apply fit_cons; [vm_compute; tauto|exact F1]).
  assert (LV : forall en, fit en -> tex true (var (var_last_method_id node)) en = Some (place_of (t0 "int") true)) by (intros en E; unfold var; cbn [DartStatic.tex]; now rewrite (last_place en E A B)).
  rewrite chain_cons with (en' := en1) by (rewrite st_final, (LV en0 F0); reflexivity).
  rewrite chain_cons with (en' := en1).
  2:{ unfold set_st. rewrite st_expr, tex_set, (LV en1 F1). cbn [place_of].
      assert (RM : tex true (DPost (var "rotateMethodId") [XCall [(None, var (var_last_method_id node))] false]) en1 = Some (t0 "int", None)).
      { unfold var at 1. rewrite tex_post_name. destruct (lib_named "rotateMethodId" true en1 F1 ltac:(vm_compute; tauto)) as [O OW]. rewrite O. cbn [forallb]. rewrite named_call, OW. unfold maker_of. rewrite known_out by (vm_compute; tauto). cbn [String.eqb Ascii.eqb Bool.eqb].
        assert (AE : args_ok ext items (tex true) (tst true) en1 (Some (Fun [t0 "int"] [] [] (t0 "int"))) (unlabelled [var (var_last_method_id node)]) = Some (t0 "int")).
        { apply args_exact; [reflexivity|]. intros p x [[= <- <-]|[]]. eapply arg_plain; [exact Logic.I|]. now apply LV. }
        unfold unlabelled in AE. cbn [map] in AE. rewrite AE. reflexivity. }
      rewrite RM. now rewrite fits_refl. }
  rewrite chain_cons with (en' := en1).
  2:{ rewrite st_expr, (scall_okay "write" [] "server" "writer" (put_status :: DExpr (call (var "writer") "writeInt64" [var "methodId"]) :: arg_writes node) (t0 "BytesWriter") (t0 "void") (t0 "void") en1 Goes); [reflexivity|exact F1|now apply scheduler_member|reflexivity|now left| |right; now split].
      pose proof (fit_cons "writer" (Some (t0 "BytesWriter", true)) en1 ltac:(vm_compute; tauto) F1) as E2. assert (W : writes (("writer", Some (t0 "BytesWriter", true)) :: en1)) by (split; [exact (proj1 E2)|now exists true]).
      apply block_all.
      - intros x [<-|[<-|I]]; [exact Logic.I|exact Logic.I|]. unfold arg_writes in I. apply in_map_iff in I as (a & <- & _). exact Logic.I.
      - intros x [<-|[<-|I]]; [now apply st_put_status| |].
        + rewrite st_expr. pose proof (writer_member (TyInteger "u64" 8 false)) as M. cbn [DartTree.prim_name] in M. change ("write" ++ "Int64")%string with "writeInt64" in M. destruct W as [_ [s W]].
          rewrite (tex_method _ _ _ _ _ _ _ _ _ W M), args_exact; [reflexivity|reflexivity|]. intros p e [[= <- <-]|[]]. eapply arg_plain; [exact Logic.I|]. apply (tex_var ms true "methodId" (("writer", Some (t0 "BytesWriter", true)) :: en1) (t0 "int") false). reflexivity.
        + apply st_arg_writes; [exact W| |exact I]. intros a J. unfold en1, en0. rewrite !arg_skip by (assumption || (vm_compute; tauto)). now apply arg_place. }
  rewrite chain_cons with (en' := en2).
  2:{ rewrite st_final. assert (NC : tex true (DPost (DName "Completer" [rt]) [XCall [] false]) en1 = Some (DTy "Completer" [rt], None)); [|now rewrite NC].
      rewrite tex_post_name. destruct (lib_named "Completer" true en1 F1 ltac:(vm_compute; tauto)) as [O OW]. rewrite O. cbn [forallb]. unfold rt at 1. rewrite (ret_okay en1 F1). cbn [andb]. rewrite named_call, OW. unfold maker_of. rewrite known_out by (vm_compute; tauto). reflexivity. }
  rewrite chain_cons with (en' := en2).
  2:{ unfold set_st. rewrite st_expr, tex_set, (tex_waiting en2 false [] F2 A B eq_refl), (tex_var ms true "completer" en2 (DTy "Completer" [rt]) false eq_refl). cbn [place_of]. fold rt. now rewrite fits_refl. }
  assert (X : tst true (DReturn (Some (field (var "completer") "future"))) (DTy "Future" [rt]) en2 = Some (en2, Exits)).
  { rewrite st_return. assert (TF : tex true (field (var "completer") "future") en2 = Some (DTy "Future" [rt], None)).
    - unfold field, postfix, var. rewrite tex_post_name. unfold name_ty. change (assoc "completer" en2) with (Some (Some (DTy "Completer" [rt], false))). cbv iota. rewrite post_field. cbn [place_of fst].
      rewrite (lib_mem "Completer" [rt] "future" (Var (DTy "Future" [rt]) false)); [reflexivity|vm_compute; tauto|reflexivity|reflexivity].
    - rewrite TF. cbn [head_of String.eqb Ascii.eqb Bool.eqb negb andb]. now rewrite fits_refl. }
  now rewrite (chain_last (fun s en => tst true s (DTy "Future" [rt]) en) _ _ _ Exits X).
Qed.
Lemma method_okay m : In m (method_members node) -> member_ok ext items name ms m = true.
Proof.
  unfold method_members. destruct (fn_is_read node) eqn:B; [|destruct (fn_is_async node) eqn:A].
  - intros [<-|[]]. now apply read_connect_okay.
  - intros [<-|[<-|[]]]; [now apply async_connect_okay|now apply async_okay].
  - intros [<-|[]]. exact sync_okay.
Qed.
Lemma tex_broadcast : tex false (DPost (DName "StreamController" [ret_ty (fn_return node)]) [XMeth "broadcast" [] [] false]) [] = Some (control, None).
Proof.
  rewrite tex_post_name. destruct (lib_named "StreamController" false [] fit_nil ltac:(vm_compute; tauto)) as [O OW]. rewrite O. cbn [forallb]. rewrite (ret_okay [] fit_nil). cbn [andb]. rewrite named_meth, (vis ms cmo _ [] env_nil (R_known "StreamController" ltac:(vm_compute; tauto))).
  unfold static_of. rewrite known_out by (vm_compute; tauto). reflexivity.
Qed.
Lemma var_okay m : In m (var_members node) -> member_ok ext items name ms m = true.
Proof.
  unfold var_members. rewrite !in_app_iff. intros [I|[I|I]].
  - destruct (fn_is_async node && negb (fn_is_read node)); [|destruct I]. destruct I as [<-|[<-|[]]].
    + cbn [member_ok]. rewrite (plain_type_ok "int" ms [] cmo env_nil ltac:(vm_compute; tauto) : type_ok ext items ms [] (ty0 "int") = true). reflexivity.
    + cbn [member_ok init_ty]. assert (T : tex false (DMap [ty0 "int"; DTy "Completer" [ret_ty (fn_return node)]]) [] = Some (waiting, None)).
      { cbn [DartStatic.tex]. rewrite (plain_type_ok "int" ms [] cmo env_nil ltac:(vm_compute; tauto) : type_ok ext items ms [] (ty0 "int") = true), (lib_type_ok "Completer" _ [] fit_nil ltac:(vm_compute; tauto) (ret_okay [] fit_nil)). reflexivity. }
      rewrite T. apply same_ty_refl.
  - destruct (is_async_or_read node); [|destruct I]. destruct I as [<-|[]]. cbn [member_ok]. rewrite (plain_type_ok "TechPawsRuntimeRpcReadTask" ms [] cmo env_nil ltac:(vm_compute; tauto) : type_ok ext items ms [] (ty0 "TechPawsRuntimeRpcReadTask") = true). reflexivity.
  - destruct (fn_is_read node); [|destruct I]. destruct I as [<-|[]]. cbn [member_ok init_ty]. rewrite tex_broadcast. apply same_ty_refl.
Qed.
Lemma getter_okay m : In m (getter_members node) -> member_ok ext items name ms m = true.
Proof.
  unfold getter_members. destruct (fn_is_read node) eqn:B; [|easy]. intros [<-|[]]. cbn [member_ok]. rewrite (lib_type_ok "Stream" _ [] fit_nil ltac:(vm_compute; tauto) (ret_okay [] fit_nil)). cbn [andb].
  assert (T : tex true (field (var (var_read_stream_controller node)) "stream") [] = Some (DTy "Stream" [ret_ty (fn_return node)], None)).
  { unfold field, postfix, var. rewrite tex_post_name, (control_place [] fit_nil B), post_field. cbn [fst]. rewrite (lib_mem "StreamController" [ret_ty (fn_return node)] "stream" (Var (DTy "Stream" [ret_ty (fn_return node)]) false)); [reflexivity|vm_compute; tauto|reflexivity|reflexivity]. }
  rewrite T. apply fits_refl.
Qed.
Lemma connect_st s : In s (connect_call node) -> tst true s (t0 "void") [] = Some ([], Goes) /\ match s with DFinal _ _ => False | _ => True end.
Proof.
  unfold connect_call. destruct (is_async_or_read node) eqn:AR; [|easy]. intros [<-|[]]. split; [|exact Logic.I].
  assert (I : exists rest, In (connect_method node rest) ms).
  { unfold client_members. unfold is_async_or_read in AR. destruct (fn_is_read node) eqn:B; [exists (read_rest node)|rewrite orb_false_r in AR; exists (async_connect_rest node)];
      rewrite !in_app_iff; right; right; right; right; apply in_flat_map; exists node; (split; [exact inode|]); unfold method_members; rewrite B, ?AR; now left. }
  destruct I as [rest I]. unfold connect_method in I. pose proof (own_method ms true _ _ _ _ (Fun [] [] [] (ty0 "void")) nn I eq_refl) as OW.
  rewrite st_expr. unfold new, var. rewrite tex_post_name. assert (O : name_ty items ms true ("_connect" ++ pascal (fn_id node)) [] = Other).
  { unfold name_ty. cbn [assoc]. rewrite OW. reflexivity. }
  rewrite O. cbn [forallb]. rewrite named_call, OW. reflexivity.
Qed.
Lemma disconnect_st s : In s (disconnect_sts node) -> tst true s (t0 "void") [] = Some ([], Goes) /\ match s with DFinal _ _ => False | _ => True end.
Proof.
  unfold disconnect_sts. rewrite in_app_iff. intros [I|I].
  - destruct (is_async_or_read node) eqn:AR; [|destruct I]. destruct I as [<-|[]]. split; [|exact Logic.I]. rewrite st_expr. unfold scheduler. rewrite call_var. change (DPost (var "_scheduler")) with (DPost scheduler).
    rewrite (scheduler_call "disconnect" [] _ false [] (Fun [t0 "TechPawsRuntimeRpcReadTask"] [] [] (t0 "void")) fit_nil eq_refl) by now apply scheduler_member.
    rewrite args_exact; [reflexivity|reflexivity|]. intros p e [[= <- <-]|[]]. eapply arg_plain; [exact Logic.I|]. unfold var. cbn [DartStatic.tex]. rewrite (task_place [] fit_nil AR). reflexivity.
  - destruct (fn_is_read node) eqn:B; [|destruct I]. destruct I as [<-|[]]. split; [|exact Logic.I]. rewrite st_expr, call_var, (tex_mine _ "close" control None _ _ [] (Fun [] [] [] (DTy "Future" [t0 "Object"])) (control_place [] fit_nil B)); [reflexivity|].
    apply lib_mem; [vm_compute; tauto|reflexivity|reflexivity].
Qed.
Lemma node_open : open_fields (var_members node) = [] /\ open_fields (getter_members node) = [] /\ open_fields (method_members node) = [] /\
  ctor_names (var_members node) = [] /\ ctor_names (getter_members node) = [] /\ ctor_names (method_members node) = [].
Proof. unfold var_members, getter_members, method_members. destruct (fn_is_async node), (fn_is_read node), (is_async_or_read node); repeat split. Qed.
End Method.

Lemma flat_map_none {A B} (f : A -> list B) l : (forall x, In x l -> f x = []) -> flat_map f l = [].
Proof. induction l as [|a l IH]; intros H; [reflexivity|]. cbn [flat_map]. now rewrite (H a (or_introl eq_refl)), (IH (fun x I => H x (or_intror I))). Qed.
Lemma flat_map_twice {A B C} (f : B -> list C) (g : A -> list B) l : flat_map f (flat_map g l) = flat_map (fun x => flat_map f (g x)) l.
Proof. induction l as [|x l IH]; [reflexivity|]. cbn. now rewrite flat_map_app, IH. Qed.
Lemma client_open : open_fields ms = ["_scheduler"] /\ ctor_names ms = [""].
Proof.
  assert (A : forall (g : fn_node -> list dmember) (h : dmember -> list string), (forall n, flat_map h (g n) = []) -> flat_map h (flat_map g nodes) = []) by (intros g h H; rewrite flat_map_twice; apply flat_map_none; intros x _; apply H).
  unfold client_members, open_fields, ctor_names. rewrite !flat_map_app. split; rewrite (A var_members), (A getter_members), (A method_members); try reflexivity; intros n; apply (node_open n).
Qed.
Lemma plain_text s en inst : ConstSpec.dart_plain s = true -> text_ok items ms inst s en = true.
Proof.
  intros P. assert (D : dollars s = [] /\ no_escapes s = true).
  { unfold no_escapes. assert (E : String.concat "" (map (fun c => if Ascii.eqb c "$" then "" else String c "") (list_ascii_of_string s)) = s /\ dollars s = []).
    - unfold ConstSpec.dart_plain in P. induction s as [|c s IH]; [split; reflexivity|]. cbn [all_chars] in P. apply andb_true_iff in P as [C P]. destruct (IH P) as [E1 E2].
      assert (X : Ascii.eqb c "$" = false) by (destruct (Ascii.eqb c "$"); [discriminate C|reflexivity]). cbn [list_ascii_of_string map dollars]. rewrite X, E2. split; [|reflexivity].
      destruct (list_ascii_of_string s) as [|d l] eqn:L; [destruct s; [reflexivity|discriminate L]|]. cbn [map] in *. change (String.concat "" (String c "" :: ?x :: ?y)) with (String c (String.concat "" (x :: y))).
      cbn [String.concat append]. cbn [String.concat] in E1. f_equal. exact E1.
    - destruct E as [-> E]. now split. }
  unfold text_ok. destruct D as [-> ->]. reflexivity.
Qed.
Lemma client_okay : static_item ext items (DClass name None ms) = true.
Proof.
  cbn [static_item]. apply orb_true_iff. right. unfold class_ok. destruct client_names as [N F]. rewrite (distinct_of _ N), names_check by exact F. destruct client_open as [O C]. rewrite O, C. cbn [distinct RustDefault.among existsb negb andb].
  assert (M : forallb (member_ok ext items name ms) ms = true); [|now rewrite M]. apply forallb_forall. intros m I. unfold client_members in I. rewrite !in_app_iff in I. destruct I as [[<-|[<-|[<-|[]]]]|[I|[I|[[<-|[]]|I]]]].
  - cbn [member_ok]. rewrite String.eqb_refl, O. cbn [andb param_list map snd forallb RustDefault.among among existsb String.eqb Ascii.eqb Bool.eqb orb is_this fst params_ok distinct negb].
    destruct (flat_map connect_call nodes) as [|s l] eqn:E; [reflexivity|]. rewrite <- E. unfold body_ok. rewrite block_all; [reflexivity| |]; intros x I; apply in_flat_map in I as (node & J & I); now apply (connect_st node).
  - cbn [member_ok]. rewrite (plain_type_ok "TechPawsRuntimeRpcScheduler" ms [] cmo env_nil ltac:(vm_compute; tauto) : type_ok ext items ms [] (ty0 "TechPawsRuntimeRpcScheduler") = true). reflexivity.
  - cbn [member_ok init_ty]. cbn [DartStatic.tex]. rewrite plain_text by exact idp. reflexivity.
  - apply in_flat_map in I as (node & J & I). now apply (var_okay node).
  - apply in_flat_map in I as (node & J & I). now apply (getter_okay node).
  - apply meth_okay; [apply plain_type_ok; [exact cmo|exact env_nil|vm_compute; tauto]|reflexivity|reflexivity|]. unfold body_ok. rewrite block_all; [reflexivity| |]; intros x I; apply in_flat_map in I as (node & J & I); now apply (disconnect_st node).
  - apply in_flat_map in I as (node & J & I). now apply (method_okay node).
Qed.
End Client.
End File.
