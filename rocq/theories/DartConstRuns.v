(** The generated Dart constants compile and have the declared types and values. *)
Require Import Coq.Strings.String Coq.Strings.Ascii.
Require Import Coq.NArith.NArith Coq.ZArith.ZArith Coq.Lists.List Coq.Bool.Bool Coq.Arith.PeanoNat Coq.micromega.Lia.
Require Import Verif.Base Verif.F64 Verif.F64Spec Verif.Ast Verif.CaseConv Verif.LexSpec Verif.LexProofs Verif.NumText Verif.RustLexedConst Verif.FloatShape Verif.Writer Verif.Code.
Require Import Verif.DartSyntax Verif.DartTree Verif.ConstSpec.
Require Verif.DartSem Verif.DartConst Verif.RustDefault Verif.KotlinTree Verif.KotlinFile Verif.DartLexedRpc Verif.DartRun Verif.GenMoreFacts Verif.ConstRuns.
Import RustDefault(among, distinct). Import KotlinTree(finite_double). Import KotlinFile(finite_is_double). Import DartLexedRpc(digits_number_d, digits_float_d).
Import DartSem(find_class). Import DartRun(top_names, find_class_in). Import GenMoreFacts(const_at, ca_here, ca_in, declared). Import ConstRuns(among_out, show_Z_N, whole_text, whole_exact, fraction_text).
Require Verif.DartGen. Import DartGen(const_id, required_string).
Import DartConst.
Import ListNotations.
Local Open Scope string_scope.
Local Open Scope list_scope.

Lemma distinct_nodup l : distinct l = true -> NoDup l.
Proof. induction l as [|x l IH]; [constructor|]. cbn [distinct]. rewrite andb_true_iff, negb_true_iff. intros [A B]. constructor; [now apply among_out|now apply IH]. Qed.
Lemma digits_only_all a : all_chars digitb a = true -> a <> "" -> digits_only a = true.
Proof. intros A N. unfold digits_only. rewrite A. destruct (String.eqb_spec a ""); [contradiction|reflexivity]. Qed.
Lemma number_int z : (0 <= z)%Z -> number_ex (show_Z z) = DNum (show_N (Z.to_N z)).
Proof. intros Z0. rewrite show_Z_N by assumption. apply digits_number_d; [apply show_N_digits|apply show_N_nonempty]. Qed.

(** ** Blocks *)

Definition block_fields (prefix id : string) (its : list const_item) : list dmember :=
  MConstCtor ("_" ++ prefix ++ pascal id) :: map (const_member prefix id) its.
Lemma classes_of prefix id its : const_classes prefix (ConstNode id its) =
  DClass ("_" ++ prefix ++ pascal id) None (block_fields prefix id its) ::
  flat_map (fun i => match i with ConstItemValue _ _ _ => [] | ConstItemNode n => const_classes (prefix ++ pascal id)%string n end) its.
Proof. reflexivity. Qed.
Lemma fields_names prefix id its : member_names (block_fields prefix id its) = map (fun i => camel (item_name i)) its.
Proof.
  unfold block_fields, member_names. cbn [flat_map app]. induction its as [|i its IH]; [reflexivity|]. cbn [map flat_map]. rewrite IH. destruct i as [n t v|[n l]]; reflexivity.
Qed.
Lemma fields_holder prefix id its : holder (block_fields prefix id its) = true.
Proof.
  unfold holder, block_fields. cbn [existsb forallb]. cbn [orb andb]. apply forallb_forall. intros m I. apply in_map_iff in I as (i & <- & _). destruct i as [n t v|[n l]]; reflexivity.
Qed.
Lemma block_parts id its : dart_block_fine (ConstNode id its) = true ->
  distinct (map (fun i => camel (item_name i)) its) = true /\
  (forall i, In i its -> among (dart_types ++ dart_object) (camel (item_name i)) = false) /\
  (forall n t l a, In (ConstItemValue n t (ConstLiteral l a)) its -> dart_fits t l = true) /\
  (forall c, In (ConstItemNode c) its -> dart_block_fine c = true).
Proof.
  cbn [dart_block_fine]. rewrite !andb_true_iff. intros ((A & B) & C). rewrite forallb_forall in B, C. split; [exact A|]. split; [intros i I; now apply negb_true_iff, B|]. split.
  - intros n t l a I. exact (C _ I).
  - intros c I. exact (C _ I).
Qed.
Definition apart (prefix : string) (c : const_node) : Prop := forall x, In x (block_classes prefix c) -> ~ In x (block_members c).
Lemma apart_child prefix id its c : apart prefix (ConstNode id its) -> In (ConstItemNode c) its -> apart (prefix ++ pascal id) c.
Proof.
  intros A I x J K. apply (A x).
  - cbn [block_classes]. right. apply in_flat_map. exists (ConstItemNode c). now split.
  - cbn [block_members]. apply in_or_app. right. apply in_flat_map. exists (ConstItemNode c). now split.
Qed.
Lemma child_class prefix id c its : In (ConstItemNode c) its -> In ("_" ++ prefix ++ pascal id ++ pascal (const_id c))%string (block_classes prefix (ConstNode id its)).
Proof.
  intros I. cbn [block_classes]. right. apply in_flat_map. exists (ConstItemNode c). split; [exact I|]. destruct c as [n l]. cbn [block_classes const_id]. left. now rewrite append_assoc_s.
Qed.

Section File.
Variable items : list ditem.
Hypothesis names : NoDup (top_names items).
Hypothesis types_free : forall t, In t dart_types -> ~ In t (top_names items).

Definition open_members (ms : list dmember) : Prop := forall t, In t dart_types -> ~ In t (member_names ms).
Lemma open_visible ms t : open_members ms -> In t dart_types -> visible items ms t = true.
Proof. intros O I. unfold visible. apply negb_true_iff, orb_false_iff. split; apply among_out; [now apply types_free|now apply O]. Qed.

Lemma dart_value ms t lit a : open_members ms -> dart_fits t lit = true ->
  exists ty v, const_dty t = DTy ty [] /\ dart_const_type t = Some ty /\ const_val t lit = Some v /\ value_of items ms ty (const_value_ex (ConstLiteral lit a)) = Some v.
Proof.
  intros O F. pose proof (fun t => open_visible ms t O) as V. destruct lit as [s|z|x|b]; destruct t as [n size sg|n size|n|n|g gl|n]; cbn [dart_fits] in F; try discriminate F; try (destruct x; discriminate F).
  - apply andb_true_iff in F as [E P]. apply String.eqb_eq in E as ->. exists "String", (CText s). repeat (split; [reflexivity|]). unfold value_of. rewrite V by (cbn; tauto). cbn [const_value_ex]. now rewrite P.
  - apply andb_true_iff in F as [Z0 R]. apply Z.leb_le in Z0. apply Z.ltb_lt in R. exists "int", (CInt z). repeat (split; [reflexivity|]). unfold value_of. rewrite V by (cbn; tauto). cbn [const_value_ex]. rewrite number_int by assumption.
    rewrite digits_only_all by (apply show_N_digits || apply show_N_nonempty). rewrite show_N_value, Z2N.id by assumption. cbn [String.eqb Ascii.eqb Bool.eqb]. destruct (N.ltb_spec (Z.to_N z) (2 ^ 63)); [reflexivity|lia].
  - rewrite !andb_true_iff in F. destruct F as ((A & Z0) & R). apply Z.leb_le in Z0. apply Z.ltb_lt in R. exists "int", (CInt z). cbn [const_dty dart_const_type const_val]. rewrite A.
    assert (A' : String.eqb n "GroupAddress" || String.eqb n "CommandsBufferAddress" = true) by (unfold among in A; cbn [addresses existsb] in A; now rewrite orb_false_r in A). rewrite A'.
    repeat (split; [reflexivity|]). unfold value_of. rewrite V by (cbn; tauto). cbn [const_value_ex]. rewrite number_int by assumption.
    rewrite digits_only_all by (apply show_N_digits || apply show_N_nonempty). rewrite show_N_value, Z2N.id by assumption. cbn [String.eqb Ascii.eqb Bool.eqb]. destruct (N.ltb_spec (Z.to_N z) (2 ^ 63)); [reflexivity|lia].
  - destruct x as [m e|]; [|discriminate F]. apply andb_true_iff in F as [FD F]. exists "double", (CReal (F64Fin m e)). repeat (split; [reflexivity|]). unfold value_of. rewrite V by (cbn; tauto). cbn [const_value_ex].
    destruct (finite_is_double _ FD) as (m' & e' & EE & D). injection EE as <- <-. destruct (f64_is_integral (F64Fin m e)) eqn:I.
    + cbn [negb orb] in F. apply N.ltb_lt in F. destruct (whole_text m e D I) as (c & -> & C & CN & W). rewrite digits_number_d by assumption. rewrite digits_only_all by assumption. cbn [String.eqb Ascii.eqb Bool.eqb].
      unfold exact_double. rewrite W, I. rewrite (whole_exact m e _ D I F W), N.eqb_refl. reflexivity.
    + destruct (fraction_text m e D I) as (c & d & -> & C & CN & DD & DN & W). rewrite digits_float_d by assumption. rewrite !digits_only_all by assumption. cbn [String.eqb Ascii.eqb Bool.eqb andb]. rewrite W. reflexivity.
  - exists "bool", (CTruth b). repeat (split; [reflexivity|]). unfold value_of. rewrite V by (cbn; tauto). destruct b; reflexivity.
Qed.

Lemma fields_open prefix id its : dart_block_fine (ConstNode id its) = true -> open_members (block_fields prefix id its).
Proof.
  intros F t T I. rewrite fields_names in I. apply in_map_iff in I as (i & <- & I). destruct (block_parts id its F) as (_ & A & _). specialize (A i I). apply among_out in A. apply A. apply in_or_app. now left.
Qed.
Lemma own_class prefix id its : incl (const_classes prefix (ConstNode id its)) items -> find_class ("_" ++ prefix ++ pascal id) items = Some (block_fields prefix id its).
Proof. intros L. eapply find_class_in; [exact names|]. apply L. rewrite classes_of. now left. Qed.
Lemma child_incl prefix id its c : incl (const_classes prefix (ConstNode id its)) items -> In (ConstItemNode c) its -> incl (const_classes (prefix ++ pascal id) c) items.
Proof. intros L I x J. apply L. rewrite classes_of. right. apply in_flat_map. exists (ConstItemNode c). now split. Qed.
Lemma child_found prefix id its n l : incl (const_classes prefix (ConstNode id its)) items -> In (ConstItemNode (ConstNode n l)) its ->
  find_class ("_" ++ prefix ++ pascal id ++ pascal n) items = Some (block_fields (prefix ++ pascal id) n l).
Proof. intros L I. pose proof (own_class _ n l (child_incl _ _ _ _ L I)) as E. now rewrite append_assoc_s in E. Qed.

Lemma classes_ok c : forall prefix, dart_block_fine c = true -> apart prefix c -> incl (const_classes prefix c) items -> forall i, In i (const_classes prefix c) -> item_ok items i = true.
Proof.
  induction c as [id its IH] using const_ind2. intros prefix F A L i I. rewrite classes_of in I. destruct (block_parts id its F) as (D & O & V & N). destruct I as [<-|I].
  - cbn [item_ok]. rewrite fields_holder, fields_names, D. cbn [negb orb andb]. unfold block_fields at 2. cbn [forallb]. cbn [member_ok]. rewrite String.eqb_refl. cbn [andb].
    apply forallb_forall. intros m J. apply in_map_iff in J as (x & <- & J).
    assert (NC : String.eqb (camel (item_name x)) ("_" ++ prefix ++ pascal id) = false).
    { apply String.eqb_neq. intros E. apply (A ("_" ++ prefix ++ pascal id)%string); [cbn [block_classes]; now left|]. cbn [block_members]. apply in_or_app. left. rewrite <- E. apply in_map_iff. now exists x. }
    assert (NO : among dart_object (camel (item_name x)) = false) by (pose proof (O x J) as P; apply among_out in P; apply among_out; intros K; apply P, in_or_app; now right).
    destruct x as [n t [lit a]|[n l]]; cbn [const_member const_id item_name] in *.
    + destruct (dart_value (block_fields prefix id its) t lit a (fields_open prefix id its F) (V n t lit a J)) as (ty & v & -> & _ & _ & E). cbn [member_ok]. now rewrite NC, NO, E.
    + cbn [member_ok]. rewrite NC, NO. cbn [negb andb object_class const0]. unfold has_object. rewrite (child_found prefix id its n l L J), fields_holder, fields_names, andb_true_r. apply negb_true_iff, among_out.
      intros K. apply (A ("_" ++ prefix ++ pascal id ++ pascal n)%string); [apply (child_class prefix id (ConstNode n l) its J)|]. cbn [block_members]. apply in_or_app. now left.
  - apply in_flat_map in I as (x & J & I). destruct x as [n t v|c]; [destruct I|]. apply (IH c J (prefix ++ pascal id)%string); [now apply N|eapply apart_child; [exact A|exact J]|eapply child_incl; [exact L|exact J]|exact I].
Qed.

Lemma dart_forward c p t l : const_at c p t l -> forall prefix, dart_block_fine c = true -> incl (const_classes prefix c) items ->
  exists q ty v, p = const_id c :: q /\ dart_const_type t = Some ty /\ const_val t l = Some v /\
    match c with ConstNode id its => held items (block_fields prefix id its) (map camel q) ty v end.
Proof.
  induction 1 as [id its n t l t' I|id its c p t l I A IH]; intros prefix F L; destruct (block_parts id its F) as (D & O & V & N).
  - destruct (dart_value (block_fields prefix id its) t l t' (fields_open prefix id its F) (V n t l t' I)) as (ty & v & ED & T & CV & E). exists [n], ty, v. split; [reflexivity|]. split; [exact T|]. split; [exact CV|].
    cbn [map]. eapply he_here; [|exact E]. right. apply in_map_iff. exists (ConstItemValue n t (ConstLiteral l t')). split; [|exact I]. cbn [const_member]. now rewrite ED.
  - destruct (IH (prefix ++ pascal id)%string (N _ I) (child_incl _ _ _ _ L I)) as (q & ty & v & -> & T & CV & H). destruct c as [n its']. exists (n :: q), ty, v. split; [reflexivity|]. split; [exact T|]. split; [exact CV|].
    cbn [map]. eapply he_in; [| |apply (child_found prefix id its n its' L I)|exact H].
    + right. apply in_map_iff. exists (ConstItemNode (ConstNode n its')). split; [reflexivity|exact I].
    + reflexivity.
Qed.

Lemma dart_backward ms q ty v : held items ms q ty v -> forall prefix id its, ms = block_fields prefix id its -> dart_block_fine (ConstNode id its) = true -> incl (const_classes prefix (ConstNode id its)) items ->
  exists r t l, q = map camel r /\ const_at (ConstNode id its) (id :: r) t l /\ dart_const_type t = Some ty /\ const_val t l = Some v.
Proof.
  induction 1 as [ms n ty e v J E|ms n e k ms' p ty v J OC FC H IH]; intros prefix id its -> F L; destruct (block_parts id its F) as (D & O & V & N); (destruct J as [J|J]; [discriminate J|]);
    apply in_map_iff in J as (x & EX & J); (destruct x as [m t [l a]|[m its']]; cbn [const_member const_id] in EX; try discriminate EX).
  - destruct (dart_value (block_fields prefix id its) t l a (fields_open prefix id its F) (V m t l a J)) as (ty' & v' & ED & T & CV & E'). rewrite ED in EX. injection EX as -> <- <-. cbn [const_value_ex] in E'. rewrite E in E'. injection E' as <-.
    exists [m], t, l. split; [reflexivity|]. split; [eapply ca_here; exact J|]. now split.
  - injection EX as <- <-. cbn [object_class const0] in OC. injection OC as <-. pose proof (child_found prefix id its m its' L J) as E. cbn [append] in E, FC. rewrite E in FC. injection FC as <-.
    destruct (IH (prefix ++ pascal id)%string m its' eq_refl (N _ J) (child_incl _ _ _ _ L J)) as (r & t & l & -> & A & T & CV). exists (m :: r), t, l. split; [reflexivity|]. split; [eapply ca_in; [exact J|exact A]|]. now split.
Qed.
End File.

(** ** A path leads to one constant *)

Lemma final_unique ms n t e t' e' : distinct (member_names ms) = true -> In (MFinal t n (Some e)) ms -> In (MFinal t' n (Some e')) ms -> t = t' /\ e = e'.
Proof.
  assert (L : forall n t e l, In (MFinal t n (Some e)) l -> In n (member_names l)) by (intros m x y k I; unfold member_names; apply in_flat_map; exists (MFinal x m (Some y)); split; [exact I|now left]).
  induction ms as [|i l IH]; [intros _ []|]. intros D [E|I] [E'|I'].
  - split; congruence.
  - subst i. change (member_names (MFinal t n (Some e) :: l)) with (n :: member_names l) in D. cbn [distinct] in D. rewrite andb_true_iff, negb_true_iff in D. destruct D as [D _]. apply among_out in D. exfalso. apply D. eapply L. exact I'.
  - subst i. change (member_names (MFinal t' n (Some e') :: l)) with (n :: member_names l) in D. cbn [distinct] in D. rewrite andb_true_iff, negb_true_iff in D. destruct D as [D _]. apply among_out in D. exfalso. apply D. eapply L. exact I.
  - apply IH; try assumption. unfold member_names in *. cbn [flat_map] in D. destruct i; cbn [app] in D; try exact D; cbn [distinct] in D; now apply andb_true_iff in D as [_ D].
Qed.
Lemma find_class_has n l ms : find_class n l = Some ms -> exists im, In (DClass n im ms) l.
Proof.
  induction l as [|i l IH]; [discriminate|]. cbn [find_class]. destruct i as [s|m e|m im k|m k]; try (intros H; destruct (IH H) as (im' & J); exists im'; now right).
  destruct (String.eqb_spec m n) as [->|]; [|intros H; destruct (IH H) as (im' & J); exists im'; now right]. intros [= ->]. exists im. now left.
Qed.
Lemma found_ok items k ms : consts_compile items = true -> has_object items k = true -> find_class k items = Some ms -> distinct (member_names ms) = true /\ forallb (member_ok items k ms) ms = true.
Proof.
  unfold consts_compile, has_object. rewrite andb_true_iff, forallb_forall. intros [_ O] H F. rewrite F in H. destruct (find_class_has k items ms F) as (im & I). specialize (O _ I). cbn [item_ok] in O. rewrite H in O. now apply andb_true_iff in O.
Qed.
Lemma held_path items ms p ty v : held items ms p ty v -> p <> [].
Proof. destruct 1; discriminate. Qed.
Lemma one_held items ms p ty v : consts_compile items = true -> held items ms p ty v -> forall k, distinct (member_names ms) = true -> forallb (member_ok items k ms) ms = true ->
  forall ty' v', held items ms p ty' v' -> ty = ty' /\ v = v'.
Proof.
  intros CC. induction 1 as [ms n ty e v J E|ms n e k' ms' p ty v J OC FC H IH]; intros k D O ty' v' C'; inversion C' as [k0 m t0 e0 v0 J' E'|k0 m e0 k1 ms1 q t0 v0 J' OC' FC' H']; subst.
  - destruct (final_unique ms n _ _ _ _ D J J') as [ET ->]. injection ET as <-. rewrite E in E'. now injection E' as <-.
  - exfalso. now apply held_path in H'.
  - exfalso. now apply held_path in H.
  - destruct (final_unique ms n _ _ _ _ D J J') as [_ <-]. rewrite OC in OC'. injection OC' as <-. rewrite FC in FC'. injection FC' as <-.
    rewrite forallb_forall in O. specialize (O _ J). cbn [member_ok] in O. rewrite OC, !andb_true_iff in O. destruct O as (_ & _ & O). destruct (found_ok items k' ms' CC O FC) as [D' O']. eapply IH; eassumption.
Qed.
Lemma const_unique l n e e' : NoDup (top_names l) -> In (DConstDecl n e) l -> In (DConstDecl n e') l -> e = e'.
Proof.
  assert (L : forall n e l, In (DConstDecl n e) l -> In n (top_names l)) by (intros m x k I; unfold top_names; apply in_flat_map; exists (DConstDecl m x); split; [exact I|now left]).
  induction l as [|i l IH]; [intros _ []|]. intros D [E|I] [E'|I'].
  - congruence.
  - subst i. change (top_names (DConstDecl n e :: l)) with (n :: top_names l) in D. apply NoDup_cons_iff in D as [D _]. exfalso. apply D. eapply L. exact I'.
  - subst i. change (top_names (DConstDecl n e' :: l)) with (n :: top_names l) in D. apply NoDup_cons_iff in D as [D _]. exfalso. apply D. eapply L. exact I.
  - apply IH; try assumption. unfold top_names in *. cbn [flat_map] in D. destruct i; cbn [DartRun.top_name app] in D; try exact D; now apply NoDup_cons_iff in D as [_ D].
Qed.
Theorem dart_one_value items p ty v ty' v' : consts_compile items = true -> constant items p ty v -> constant items p ty' v' -> ty = ty' /\ v = v'.
Proof.
  intros CC [n e k ms q t w I OC FC H] X. inversion X as [n' e' k' ms' q' t' w' I' OC' FC' H']; subst. pose proof CC as CC'. unfold consts_compile in CC'. rewrite andb_true_iff, forallb_forall in CC'. destruct CC' as [D O].
  pose proof (const_unique items n e e' (distinct_nodup _ D) I I') as <-. rewrite OC in OC'. injection OC' as <-. rewrite FC in FC'. injection FC' as <-. specialize (O _ I). cbn [item_ok] in O. rewrite OC in O.
  destruct (found_ok items k ms CC O FC) as [D' O']. eapply one_held; eassumption.
Qed.

(** ** The file *)

Definition other (i : ditem) : bool :=
  match i with
  | DConstDecl _ _ => false
  | DClass c _ ms => negb (holder ms) || match ms with [MConstCtor n] => String.eqb n c | _ => false end
  | _ => true
  end.
Lemma other_ok items i : other i = true -> item_ok items i = true.
Proof.
  destruct i as [s|n e|c t ms|n l]; cbn [other item_ok]; try reflexivity; try discriminate. destruct (holder ms); [|reflexivity]. cbn [negb orb].
  destruct ms as [|[] [|? ?]]; try discriminate. intros E. cbn [member_names flat_map app distinct forallb member_ok]. now rewrite E.
Qed.
Lemma field_first t n e ms : holder (MField t n e :: ms) = false.
Proof. unfold holder. cbn [forallb]. apply andb_false_r. Qed.
Lemma holder_not ms m : In m ms -> match m with MConstCtor _ | MFinal _ _ (Some _) => false | _ => true end = true -> holder ms = false.
Proof.
  intros I H. unfold holder. destruct (forallb _ ms) eqn:E; [|apply andb_false_r]. rewrite forallb_forall in E. specialize (E m I). destruct m as [| | | | | |? ? [|]| | |]; discriminate.
Qed.
Lemma struct_other n : forallb other (struct_model_tree n) = true.
Proof.
  unfold struct_model_tree. destruct (sn_fields n) as [|f l]; [cbn [forallb other]; rewrite String.eqb_refl; reflexivity|]. cbn [map app forallb other]. now rewrite field_first.
Qed.
Lemma models_other ast : forallb other (models_tree ast) = true.
Proof.
  apply GenMoreFacts.forallb_flat_map. intros [n|n|n|n|n] _; try reflexivity; [|apply struct_other]. unfold enum_model_tree. destruct (en_items n) as [|i l]; [reflexivity|].
  rewrite forallb_app. apply andb_true_iff. split; [cbn [forallb other]; now rewrite field_first|]. apply GenMoreFacts.forallb_flat_map. intros x _. apply struct_other.
Qed.
Lemma buffers_other ast : forallb other (buffers_tree ast) = true.
Proof.
  apply GenMoreFacts.forallb_flat_map. intros [n|n|n|n|n] _; try reflexivity.
  - unfold enum_buffers_tree. rewrite forallb_app. apply andb_true_iff. split; [|reflexivity]. apply forallb_forall. intros i I. apply in_map_iff in I as (x & <- & _). reflexivity.
  - unfold struct_buffers_tree. destruct (sn_emplace n), (sn_into n); reflexivity.
Qed.
Lemma rpc_other ast : forallb other (rpc_tree ast) = true.
Proof.
  unfold rpc_tree. destruct (find_fn_nodes ast); [reflexivity|]. destruct (required_string ast "namespace"); try reflexivity. destruct (required_string ast "id"); try reflexivity.
  cbn [forallb]. unfold client_class. cbn [app other]. erewrite holder_not; [reflexivity|now left|reflexivity].
Qed.
Lemma imports_other ast : forallb other (imports_tree ast) = true.
Proof. apply GenMoreFacts.forallb_flat_map. intros [[]] _; reflexivity. Qed.
Lemma libs_other ast b r : forallb other (lib_imports_tree ast b r) = true.
Proof. unfold lib_imports_tree. destruct (r && _); [reflexivity|]. now destruct b. Qed.

Lemma file_in ast m b r i : In i (dart_tree ast m b r) -> other i = true \/ In i (consts_tree ast).
Proof.
  unfold dart_tree. rewrite !in_app_iff. pose proof (libs_other ast b r) as A. pose proof (imports_other ast) as B. pose proof (models_other ast) as C. pose proof (buffers_other ast) as D. pose proof (rpc_other ast) as E.
  rewrite forallb_forall in A, B, C, D, E. intros [I|[I|[I|[I|[I|I]]]]]; [left; now apply A|left; now apply B|now right| | |]; left; [destruct m|destruct b|destruct r]; try destruct I; auto.
Qed.
Lemma file_consts ast m b r : incl (consts_tree ast) (dart_tree ast m b r).
Proof. intros i I. unfold dart_tree. rewrite !in_app_iff. tauto. Qed.
Lemma block_incl ast m b r c : In (NConst c) ast -> incl (const_classes "" c) (dart_tree ast m b r).
Proof. intros I i J. apply file_consts. unfold consts_tree. apply in_or_app. right. apply in_flat_map. exists (NConst c). now split. Qed.
Lemma consts_in ast i : In i (consts_tree ast) -> exists c, In (NConst c) ast /\ (i = DConstDecl (camel (const_id c)) (new ("_" ++ pascal (const_id c))) \/ In i (const_classes "" c)).
Proof.
  unfold consts_tree. rewrite in_app_iff, !in_flat_map. intros [(n & I & J)|(n & I & J)]; destruct n as [| | | |c]; try destruct J; try contradiction; exists c; (split; [exact I|]); auto.
Qed.

Theorem dart_constants ast m b r : let items := dart_tree ast m b r in
  dart_consts_fine ast (top_names items) = true ->
  consts_compile items = true /\
  (forall p t l, declared ast p t l -> exists ty v, dart_const_type t = Some ty /\ const_val t l = Some v /\ constant items (map camel p) ty v) /\
  (forall q ty v, constant items q ty v -> exists p t l, q = map camel p /\ declared ast p t l /\ dart_const_type t = Some ty /\ const_val t l = Some v).
Proof.
  intros items F. unfold dart_consts_fine in F. rewrite !andb_true_iff, !forallb_forall in F. destruct F as ((D & A) & B). pose proof (distinct_nodup _ D) as ND.
  assert (TF : forall t, In t dart_types -> ~ In t (top_names items)) by (intros t I; now apply among_out, negb_true_iff, A).
  assert (BF : forall c, In (NConst c) ast -> dart_block_fine c = true /\ apart "" c).
  { intros c I. specialize (B _ I). cbn in B. apply andb_true_iff in B as [B1 B2]. split; [exact B1|]. rewrite forallb_forall in B2. intros x J. now apply among_out, negb_true_iff, B2. }
  assert (DECL : forall c, In (NConst c) ast -> In (DConstDecl (camel (const_id c)) (new ("_" ++ pascal (const_id c)))) items).
  { intros c I. apply file_consts. unfold consts_tree. apply in_or_app. left. apply in_flat_map. exists (NConst c). split; [exact I|now left]. }
  split; [|split].
  - unfold consts_compile. rewrite D. cbn [andb]. apply forallb_forall. intros i I. destruct (file_in ast m b r i I) as [O|O]; [now apply other_ok|]. destruct (consts_in ast i O) as (c & J & [->|K]); destruct (BF c J) as [F1 F2].
    + destruct c as [id its]. change (match find_class ("_" ++ "" ++ pascal id) items with Some ms => holder ms | None => false end = true). rewrite (own_class items ND "" id its (block_incl ast m b r _ J)). apply fields_holder.
    + eapply (classes_ok items ND TF c ""); [exact F1|exact F2|now apply block_incl|exact K].
  - intros p t l (c & I & CA). destruct (BF c I) as [F1 _]. destruct (dart_forward items ND TF c p t l CA "" F1 (block_incl ast m b r _ I)) as (q & ty & v & -> & T & V & H). exists ty, v. split; [exact T|]. split; [exact V|].
    destruct c as [id its]. cbn [map const_id]. eapply co_at; [exact (DECL _ I)|reflexivity| |exact H]. exact (own_class items ND "" id its (block_incl ast m b r _ I)).
  - intros q ty v C. destruct C as [n e k ms p ty v J OC FC H]. destruct (file_in ast m b r _ J) as [O|O]; [discriminate O|]. destruct (consts_in ast _ O) as (c & I & [E|E]).
    + destruct c as [id its]. cbn [const_id] in E. injection E as -> ->. cbn [object_class new] in OC. injection OC as <-. pose proof (own_class items ND "" id its (block_incl ast m b r _ I)) as E. cbn [append] in E, FC. rewrite E in FC. injection FC as <-.
      destruct (dart_backward items ND TF _ _ _ _ H "" id its eq_refl (proj1 (BF _ I)) (block_incl ast m b r _ I)) as (x & t & l & -> & CA & T & V). exists (id :: x), t, l. split; [reflexivity|]. split; [now exists (ConstNode id its)|]. now split.
    + exfalso. clear - E. revert E. generalize "". induction c as [id its IH] using const_ind2. intros prefix E. rewrite classes_of in E. destruct E as [E|E]; [discriminate E|]. apply in_flat_map in E as (x & K & E). destruct x as [|c]; [destruct E|]. now apply (IH c K) in E.
Qed.
