(** The Swift models compile, and [createDefault] gives the default value. *)
Require Import Coq.Strings.String Coq.Strings.Ascii.
Require Import Coq.NArith.NArith Coq.ZArith.ZArith Coq.Lists.List Coq.Bool.Bool Coq.Arith.PeanoNat Coq.micromega.Lia.
Require Import Verif.Base Verif.F64 Verif.Ast Verif.CaseConv Verif.RustSem Verif.Wire Verif.Code.
Require Verif.KotlinSyntax Verif.KotlinSem Verif.KotlinTree Verif.KotlinRuns.
Require Import Verif.SwiftSyntax Verif.SwiftSem Verif.SwiftTree Verif.Defaults Verif.SwiftCheck.
Import KotlinSyntax(among). Import KotlinSem(distinct, each2). Import KotlinTree(address).
Import KotlinRuns(among_in, among_out, find_distinct, find_none_name, in_combine_map, all_some_length, named_fst).
Import ListNotations.
Local Open Scope string_scope.
Local Open Scope list_scope.

(** ** Lists *)

Lemma each2_all {A B} (f : A -> B -> bool) l m : (forall a b, In (a, b) (combine l m) -> f a b = true) -> each2 f l m = true.
Proof.
  revert m. induction l as [|a l IH]; intros [|b m] H; try reflexivity. cbn [each2]. rewrite (H a b) by now left. apply IH. intros x y I. apply H. now right.
Qed.
Lemma labels_map {A B} (l : list A) (g : A -> option string) (h : A -> B) : labels_are (map (fun x => (g x, h x)) l) (map g l) = true.
Proof.
  unfold labels_are. rewrite !map_length, Nat.eqb_refl. apply each2_all. intros a b I. apply in_combine_map in I as (x & _ & -> & ->). cbn [fst]. destruct (g x); [apply String.eqb_refl|reflexivity].
Qed.
Lemma distinct_head {A} (l : list A) (f : A -> string) (x : string) : distinct (x :: map f l) = true -> distinct (map f l) = true /\ ~ In x (map f l).
Proof. cbn [distinct]. rewrite andb_true_iff, negb_true_iff. intros [H D]. now apply among_out in H. Qed.
Lemma distinct_last l x : distinct l = true -> ~ In x l -> distinct (l ++ [x]) = true.
Proof.
  induction l as [|y l IH]; intros D N; [reflexivity|]. cbn [app distinct] in *. apply andb_true_iff in D as [D1 D2]. rewrite IH; [|exact D2|intros I; apply N; now right]. rewrite andb_true_r.
  apply negb_true_iff, among_out. intros I. apply in_app_or in I as [I|[->|[]]]; [|apply N; now left]. now apply negb_true_iff, among_out in D1.
Qed.

(** ** Bodies *)

Section Body.
Context {A : Type} (name : A -> string).
Variables (fd : sdecl).

Lemma properties_of (ty : A -> sty) l : (match fd with ZVar _ _ => False | _ => True end) -> properties (map (fun f => ZVar (name f) (ty f)) l ++ [fd]) = map (fun f => (name f, ty f)) l.
Proof. intros F. unfold properties. rewrite flat_map_app. cbn [flat_map]. replace (match fd with ZVar n t => [(n, t)] | _ => [] end) with (@nil (string * sty)) by (destruct fd; tauto). rewrite !app_nil_r.
  induction l as [|x l IH]; [reflexivity|]. cbn. now rewrite IH. Qed.
Lemma cases_of (ty : A -> list sty) l ds : (forall d, In d ds -> match d with ZCase _ _ => False | _ => True end) -> cases (map (fun f => ZCase (name f) (ty f)) l ++ ds) = map (fun f => (name f, ty f)) l.
Proof. intros F. unfold cases. rewrite flat_map_app. replace (flat_map _ ds) with (@nil (string * list sty)).
  - rewrite app_nil_r. induction l as [|x l IH]; [reflexivity|]. cbn. now rewrite IH.
  - induction ds as [|d ds IH]; [reflexivity|]. cbn. rewrite <- IH by (intros x I; apply F; now right). specialize (F d (or_introl eq_refl)). destruct d; tauto. Qed.
End Body.

(** ** The declarations of a file *)

Section Models.
Variable ast : list ast_node.
Let ds := schema_decls ast.
Let ks := models_tree ast.
Let names := swift_names ast.
Hypothesis fine : swift_fine ast = true.

Lemma fine_parts : models_ready ast = true /\ distinct names = true /\ (forall n, In n names -> n <> "createDefault" /\ ~ In n taken) /\
  (forall s, In (NStruct s) ast -> struct_fine ds names s = true) /\ (forall e, In (NEnum e) ast -> enum_fine ds names e = true) /\
  (forall n, In n names -> sized_type ds (S (List.length names)) (TyOther n) = true).
Proof.
  unfold swift_fine in fine. rewrite !andb_true_iff in fine. destruct fine as ((((R & D) & T) & F) & Z). rewrite forallb_forall in T, F, Z.
  split; [exact R|]. split; [exact D|]. split; [|split; [intros s I; exact (F _ I)|split; [intros e I; exact (F _ I)|exact Z]]].
  intros n I. specialize (T n I). apply negb_true_iff, among_out in T. split; intros J; apply T; [now left|now right].
Qed.

Lemma struct_name s : In (NStruct s) ast -> pascal (sn_id s) = sn_id s.
Proof. intros I. destruct fine_parts as (_ & _ & _ & S & _). specialize (S s I). unfold struct_fine in S. rewrite !andb_true_iff in S. destruct S as ((E & _) & _). now apply String.eqb_eq in E. Qed.
Lemma enum_name e : In (NEnum e) ast -> pascal (en_id e) = en_id e.
Proof. intros I. destruct fine_parts as (_ & _ & _ & _ & S & _). specialize (S e I). unfold enum_fine in S. rewrite !andb_true_iff in S. destruct S as (((E & _) & _) & _). now apply String.eqb_eq in E. Qed.

Lemma names_of : map zname ks = names.
Proof.
  pose proof struct_name as S. pose proof enum_name as E. unfold ks, names. clear -S E. unfold swift_names, models_tree. induction ast as [|a l IH]; [reflexivity|].
  cbn [flat_map]. rewrite map_app, IH; [|intros s I; apply S; now right|intros e I; apply E; now right]. f_equal. destruct a as [e|s|f|d|c]; try reflexivity; cbn.
  - now rewrite (E e (or_introl eq_refl)).
  - now rewrite (S s (or_introl eq_refl)).
Qed.
Lemma only_types : filter ztype ks = ks.
Proof. unfold ks, models_tree. clear. induction ast as [|a l IH]; [reflexivity|]. cbn [flat_map]. rewrite filter_app, IH. destruct a; reflexivity. Qed.
Lemma all_types : type_names ks = names.
Proof. unfold type_names. now rewrite only_types, names_of. Qed.

Lemma found d : In d ks -> zfind (zname d) ks = Some d.
Proof. intros I. unfold zfind. apply find_distinct; [|exact I]. rewrite names_of. now destruct fine_parts as (_ & D & _). Qed.
Lemma not_found n : ~ In n names -> zfind n ks = None.
Proof. intros I. unfold zfind. apply find_none_name. now rewrite names_of. Qed.
Lemma free n : In n taken -> library names n = true.
Proof. intros I. unfold library. apply negb_true_iff, among_out. intros J. destruct fine_parts as (_ & _ & T & _). now apply (T n J). Qed.

Lemma decl_in n d : decl_of n ds = Some d -> decl_name d = n /\ In (match d with DStruct s => NStruct s | DEnum e => NEnum e end) ast.
Proof.
  intros F. apply find_some in F as [I E]. apply String.eqb_eq in E. split; [exact E|]. unfold ds, schema_decls in I. apply in_flat_map in I as (a & I & J).
  destruct a as [e|s|f|dd|c]; cbn in J; try contradiction; destruct J as [<-|[]]; exact I.
Qed.
Lemma id_in (d : decl) : In (match d with DStruct s => NStruct s | DEnum e => NEnum e end) ast -> In (decl_name d) names.
Proof. intros I. unfold names, swift_names. apply in_flat_map. destruct d as [s|e]; eexists; (split; [exact I|now left]). Qed.
Lemma name_in n d : decl_of n ds = Some d -> In n names.
Proof. intros F. destruct (decl_in n d F) as [<- I]. now apply id_in. Qed.
Lemma name_known n : In n names -> exists d, decl_of n ds = Some d.
Proof.
  intros I. destruct (decl_of n ds) as [d|] eqn:F; [now exists d|]. exfalso. unfold decl_of in F. unfold names, swift_names in I. apply in_flat_map in I as (a & I & J).
  assert (X : exists d, In d ds /\ decl_name d = n).
  { destruct a as [e|s|f|dd|c]; try contradiction; destruct J as [<-|[]]; [exists (DEnum e)|exists (DStruct s)]; (split; [|reflexivity]); unfold ds, schema_decls; apply in_flat_map; eexists; (split; [exact I|now left]). }
  destruct X as (d & X & E). apply (find_none _ _ F) in X. rewrite E, String.eqb_refl in X. discriminate.
Qed.
Lemma not_address n : In n names -> address n = false.
Proof. intros F. apply among_out. intros I. destruct fine_parts as (_ & _ & T & _). destruct (T n F) as [_ NT]. apply NT. cbn in I |- *. tauto. Qed.
Lemma id_type n : In n names -> stype (TyOther n) = STy n [] /\ other_type n = n.
Proof. intros I. cbn [stype]. unfold other_type. now rewrite (not_address n I). Qed.

Lemma struct_found s : In (NStruct s) ast -> zfind (sn_id s) ks = Some (struct_decl s).
Proof.
  intros I. rewrite <- (struct_name s I) at 1. change (pascal (sn_id s)) with (zname (struct_decl s)). apply found. unfold ks, models_tree. apply in_flat_map. exists (NStruct s). split; [exact I|now left].
Qed.
Lemma enum_found e : In (NEnum e) ast -> zfind (en_id e) ks = Some (enum_decl e).
Proof.
  intros I. rewrite <- (enum_name e I) at 1. change (pascal (en_id e)) with (zname (enum_decl e)). apply found. unfold ks, models_tree. apply in_flat_map. exists (NEnum e). split; [exact I|now left].
Qed.

Definition fname (f : struct_field) : string := camel (sf_name f).
Definition cname (i : enum_item) : string := camel (item_id i).
Definition struct_call (s : struct_node) : sex := QCall (sn_id s) (map (fun f => (Some (fname f), sdefault (sf_type f))) (sn_fields s)).

Lemma struct_body s : In (NStruct s) ast -> body_of (struct_decl s) = map (fun f => ZVar (fname f) (stype (sf_type f))) (sn_fields s) ++ [ZFunc true "createDefault" (STy (sn_id s) []) (struct_call s)].
Proof. intros I. destruct (id_type _ (id_in (DStruct s) I)) as [E1 E2]. cbn [decl_name] in *. unfold struct_decl, create_default. cbn [body_of]. now rewrite E1, E2. Qed.
Lemma enum_body e i l : In (NEnum e) ast -> en_items e = i :: l ->
  body_of (enum_decl e) = map (fun i => ZCase (cname i) (map stype (case_types i))) (en_items e) ++ [ZFunc true "createDefault" (STy (en_id e) []) (first_value i)].
Proof. intros I E. destruct (id_type _ (id_in (DEnum e) I)) as [E1 _]. cbn [decl_name] in *. unfold enum_decl, create_default. cbn [body_of]. rewrite E1, E. reflexivity. Qed.

Lemma find_after {A} (p : A -> bool) l x : forallb (fun y => negb (p y)) l = true -> p x = true -> find p (l ++ [x]) = Some x.
Proof. induction l as [|y l IH]; cbn [forallb app find]; intros F P; [now rewrite P|]. apply andb_true_iff in F as [F1 F2]. apply negb_true_iff in F1. rewrite F1. now apply IH. Qed.
Lemma struct_static s : In (NStruct s) ast -> static ks (sn_id s) "createDefault" = Some (STy (sn_id s) [], struct_call s).
Proof.
  intros I. unfold static. rewrite (struct_found s I), (struct_body s I), find_after; [reflexivity| |reflexivity]. apply forallb_forall. intros d J. apply in_map_iff in J as (f & <- & _). reflexivity.
Qed.
Lemma enum_static e i l : In (NEnum e) ast -> en_items e = i :: l -> static ks (en_id e) "createDefault" = Some (STy (en_id e) [], first_value i).
Proof.
  intros I E. unfold static. rewrite (enum_found e I), (enum_body e i l I E), find_after; [reflexivity| |reflexivity]. apply forallb_forall. intros d J. apply in_map_iff in J as (f & <- & _). reflexivity.
Qed.

Lemma known_ok : forall t, type_ready t = true -> known_type ds t = true -> known names (stype t) = true.
Proof.
  fix IH 1. intros [n size sg|n size|n|n|g l|n] R K; cbn [stype]; try discriminate K.
  - cbn [known]. apply orb_true_iff. right. cbn [type_ready] in R. rewrite !orb_true_iff, !Nat.eqb_eq in R. destruct R as [[->| ->]| ->]; destruct sg; reflexivity.
  - cbn [known]. apply orb_true_iff. right. destruct (Nat.eqb size 4); reflexivity.
  - cbn [known]. apply orb_true_iff. now right.
  - destruct l as [|a [|b l]]; cbn [known_type] in K; try discriminate. apply andb_true_iff in K as [G K]. rewrite G. cbn [known].
    apply IH; [|exact K]. cbn [type_ready forallb] in R. rewrite !andb_true_iff in R. tauto.
  - cbn [known_type] in K. unfold other_type. destruct (address n) eqn:A; cbn [known]; apply orb_true_iff; [now right|]. rewrite orb_false_r in K. apply orb_true_iff in K as [K|K]; [right; apply String.eqb_eq in K as ->; reflexivity|].
    left. apply among_in. destruct (decl_of n ds) as [d|] eqn:F; [|discriminate]. exact (name_in n d F).
Qed.

(** ** Default expressions *)

Lemma integer_default n size sg : type_ready (TyInteger n size sg) = true -> literal_of names (stype (TyInteger n size sg)) (QNum "0") = Some (swift_of (Dnumber (TyInteger n size sg))).
Proof.
  intros R. cbn [type_ready] in R. rewrite !orb_true_iff, !Nat.eqb_eq in R. unfold literal_of. cbn [stype].
  destruct R as [[->| ->]| ->]; destruct sg; cbn [int_type]; rewrite free by (cbn; tauto); vm_compute; reflexivity.
Qed.
Lemma number_default n size : type_ready (TyNumber n size) = true -> literal_of names (stype (TyNumber n size)) (QNum "0") = Some (swift_of (Dnumber (TyNumber n size))).
Proof.
  intros R. cbn [type_ready] in R. rewrite !orb_true_iff, !Nat.eqb_eq in R. unfold literal_of. cbn [stype].
  destruct R as [->| ->]; cbn [Nat.eqb]; rewrite free by (cbn; tauto); vm_compute; reflexivity.
Qed.

(** What a default expression is: a literal, or the function of a declared type. *)
Lemma default_kind t : type_ready t = true -> default_type ds t = true ->
  (exists d, (forall f, default_value ds f t = Some d) /\ literal_of names (stype t) (sdefault t) = Some (swift_of d) /\ match sdefault t with QNum _ | QStr _ | QName _ | QList => True | _ => False end) \/
  (exists n d, t = TyOther n /\ decl_of n ds = Some d /\ stype t = STy n [] /\ sdefault t = QMeth n [] "createDefault" []).
Proof.
  intros R D. pose proof D as K. unfold default_type in K. apply andb_true_iff in K as [K A]. destruct t as [n size sg|n size|n|n|g l|n]; try discriminate.
  - left. exists (Dnumber (TyInteger n size sg)). split; [destruct f; reflexivity|]. split; [now apply integer_default|exact Logic.I].
  - left. exists (Dnumber (TyNumber n size)). split; [destruct f; reflexivity|]. split; [now apply number_default|exact Logic.I].
  - left. exists Dfalse. split; [destruct f; reflexivity|]. split; [|exact Logic.I]. cbn [stype sdefault literal_of]. now rewrite free by (cbn; tauto).
  - left. destruct l as [|a [|b l]]; cbn [known_type] in K; try discriminate. apply andb_true_iff in K as [G K]. exists (Dlist a). split; [intros [|f]; cbn [default_value]; now rewrite G|]. cbn [stype sdefault]. rewrite G. now split.
  - apply negb_true_iff in A. destruct (String.eqb_spec n "String") as [->|NS].
    + left. exists Dtext. split.
      * intros f. assert (F : decl_of "String" ds = None); [|destruct f; cbn [default_value]; now rewrite F]. destruct (decl_of "String" ds) as [d|] eqn:F; [|reflexivity].
        exfalso. destruct fine_parts as (_ & _ & T & _). destruct (T _ (name_in _ _ F)) as [_ NT]. apply NT. cbn. tauto.
      * split; [|exact Logic.I]. cbn [stype sdefault String.eqb Ascii.eqb Bool.eqb literal_of]. unfold other_type. rewrite A. now rewrite free by (cbn; tauto).
    + right. cbn [known_type] in K. rewrite A, orb_false_r in K. apply orb_true_iff in K as [K|K]; [apply String.eqb_eq in K; contradiction|].
      destruct (decl_of n ds) as [d|] eqn:F; [|discriminate]. exists n, d. split; [reflexivity|]. split; [exact F|]. pose proof (name_in n d F) as NI. destruct (id_type n NI) as [E1 _]. split; [exact E1|].
      cbn [sdefault]. destruct (String.eqb_spec n "String") as [|_]; [contradiction|]. destruct (String.eqb_spec n "Vec") as [->|_]; [|reflexivity].
      exfalso. destruct fine_parts as (_ & _ & T & _). destruct (T _ NI) as [_ NT]. apply NT. cbn. tauto.
Qed.

Lemma static_of n d : decl_of n ds = Some d -> exists e, static ks n "createDefault" = Some (STy n [], e).
Proof.
  intros F. destruct (decl_in n d F) as [<- I]. destruct d as [s|e]; cbn [decl_name] in *; [exists (struct_call s); now apply struct_static|].
  destruct fine_parts as (_ & _ & _ & _ & E & _). specialize (E e I). unfold enum_fine in E. apply andb_true_iff in E as [_ E]. destruct (en_items e) as [|i l] eqn:EI; [discriminate|]. exists (first_value i). now apply (enum_static e i l).
Qed.
Lemma default_typed members t : (forall m, In m members -> ~ In m names) -> type_ready t = true -> default_type ds t = true -> typed ks names members (stype t) (sdefault t) = true.
Proof.
  intros M R D. destruct (default_kind t R D) as [(d & _ & L & Q)|(n & d & -> & F & -> & ->)].
  - destruct (sdefault t); try contradiction; cbn [typed]; now rewrite L.
  - cbn [typed]. destruct (static_of n d F) as [e ->]. cbn [sty_is]. rewrite String.eqb_refl, andb_true_r. apply negb_true_iff, among_out. intros I. exact (M n I (name_in n d F)).
Qed.

(** ** Parts of the declarations *)

Lemma struct_parts s : In (NStruct s) ast -> distinct (map fname (sn_fields s)) = true /\
  (forall f, In f (sn_fields s) -> type_ready (sf_type f) = true /\ default_type ds (sf_type f) = true /\ ~ In (fname f) names).
Proof.
  intros I. destruct fine_parts as (R & _ & _ & S & _). specialize (S s I). unfold struct_fine in S. rewrite !andb_true_iff in S. destruct S as ((_ & D) & F). split; [exact D|].
  unfold models_ready in R. rewrite forallb_forall in R. specialize (R _ I). cbn in R. unfold struct_ready in R. rewrite !andb_true_iff in R. destruct R as ((_ & _) & R). rewrite forallb_forall in R, F.
  intros f J. specialize (R f J). apply andb_true_iff in R as [_ R]. specialize (F f J). apply andb_true_iff in F as [F1 F2]. split; [exact R|]. split; [exact F1|]. now apply negb_true_iff, among_out in F2.
Qed.
Lemma enum_parts e : In (NEnum e) ast -> exists i l, en_items e = i :: l /\ first_fine ds i = true /\ distinct (map cname (en_items e)) = true /\ ~ In "createDefault" (map cname (en_items e)) /\
  (forall i, In i (en_items e) -> ~ In (cname i) names /\ forall t, In t (case_types i) -> type_ready t = true /\ known_type ds t = true).
Proof.
  intros I. destruct fine_parts as (R & _ & _ & _ & E & _). specialize (E e I). unfold enum_fine in E. rewrite !andb_true_iff in E. destruct E as (((_ & D) & C) & F).
  destruct (en_items e) as [|i l] eqn:EI; [discriminate|]. rewrite <- EI in *. exists i, l. split; [exact EI|]. split; [exact F|]. destruct (distinct_head _ _ _ D) as [D1 D2]. split; [exact D1|]. split; [exact D2|].
  unfold models_ready in R. rewrite forallb_forall in R. specialize (R _ I). cbn in R. unfold enum_ready in R. rewrite !andb_true_iff in R. destruct R as (_ & R). rewrite forallb_forall in R, C.
  intros j J. specialize (C j J). unfold case_fine in C. apply andb_true_iff in C as [C1 C2]. apply negb_true_iff, among_out in C1. split; [exact C1|]. specialize (R j J). unfold case_ready in R. rewrite !andb_true_iff in R.
  destruct R as ((_ & R) & _). rewrite forallb_forall in R, C2. auto.
Qed.

Lemma struct_props s : In (NStruct s) ast -> properties (body_of (struct_decl s)) = map (fun f => (fname f, stype (sf_type f))) (sn_fields s).
Proof. intros I. rewrite (struct_body s I). now apply properties_of. Qed.
Lemma enum_cases e : In (NEnum e) ast -> cases (body_of (enum_decl e)) = map (fun i => (cname i, map stype (case_types i))) (en_items e).
Proof. intros I. destruct (enum_parts e I) as (i & l & E & _). rewrite (enum_body e i l I E). apply cases_of. intros d [<-|[]]. exact Logic.I. Qed.
Lemma first_case e i l : In (NEnum e) ast -> en_items e = i :: l -> case_of ks (STy (en_id e) []) (cname i) = Some (en_id e, map stype (case_types i)).
Proof.
  intros I E. unfold case_of. rewrite (enum_found e I). pose proof (enum_cases e I) as C. unfold enum_decl in *. cbn [body_of] in C. rewrite C, E. cbn [map find fst]. now rewrite String.eqb_refl.
Qed.

(** ** The file compiles *)

Lemma struct_typed s members : In (NStruct s) ast -> (forall m, In m members -> ~ In m names) -> typed ks names members (STy (sn_id s) []) (struct_call s) = true.
Proof.
  intros I M. destruct (struct_parts s I) as [_ P]. pose proof (struct_found s I) as F. pose proof (struct_props s I) as PR. unfold struct_call. cbn [typed]. rewrite F. unfold struct_decl in *. cbn [body_of] in PR. rewrite PR, !map_map. cbn [fst snd sty_is].
  rewrite String.eqb_refl, labels_map. cbn [andb]. apply andb_true_iff. split.
  - apply negb_true_iff, among_out. intros J. exact (M _ J (id_in (DStruct s) I)).
  - apply each2_all. intros a b J. apply in_combine_map in J as (f & J & -> & ->). cbn [snd]. destruct (P f J) as (R & D & _). now apply default_typed.
Qed.
Lemma first_typed e i l members : In (NEnum e) ast -> en_items e = i :: l -> (forall m, In m members -> ~ In m names) -> typed ks names members (STy (en_id e) []) (first_value i) = true.
Proof.
  intros I E M. pose proof (first_case e i l I E) as C. destruct (enum_parts e I) as (i' & l' & E' & FF & _ & _ & P). rewrite E in E'. injection E' as <- <-.
  assert (J : In i (en_items e)) by (rewrite E; now left). destruct (P i J) as [_ PT]. unfold cname in C.
  destruct i as [a c|a c vs|a c fs]; cbn [item_id first_value] in *; [cbn [typed]; now rewrite C| |]; cbn [first_fine] in FF; apply andb_true_iff in FF as [NE FF]; rewrite forallb_forall in FF; cbn [typed]; rewrite C.
  all: match goal with |- context [map stype ?l] => destruct l as [|t0 ts] eqn:ET; [discriminate NE|] end; rewrite <- ET in *; destruct (map stype _) as [|u us] eqn:EM; [rewrite ET in EM; discriminate EM|]; rewrite <- EM.
  all: rewrite map_map, labels_map; cbn [andb]; apply each2_all; intros x b X; apply in_combine_map in X as (t & X & -> & ->); cbn [snd]; apply default_typed; [exact M|now apply PT|now apply FF].
Qed.

Lemma filter_map_all {A B} (p : B -> bool) (f : A -> B) l : (forall x, p (f x) = true) -> filter p (map f l) = map f l.
Proof. intros H. induction l as [|x l IH]; [reflexivity|]. cbn [map filter]. now rewrite H, IH. Qed.
Lemma filter_map_none {A B} (p : B -> bool) (f : A -> B) l : (forall x, p (f x) = false) -> filter p (map f l) = [].
Proof. intros H. induction l as [|x l IH]; [reflexivity|]. cbn [map filter]. now rewrite H, IH. Qed.

Lemma struct_ok s : In (NStruct s) ast -> SwiftSem.decl_ok ks names [] (struct_decl s) = true.
Proof.
  intros I. destruct (struct_parts s I) as [D P]. assert (E : struct_decl s = ZStruct (pascal (sn_id s)) (body_of (struct_decl s))) by reflexivity. rewrite E, (struct_body s I). cbn [SwiftSem.decl_ok].
  assert (TN : type_names (map (fun f => ZVar (fname f) (stype (sf_type f))) (sn_fields s) ++ [ZFunc true "createDefault" (STy (sn_id s) []) (struct_call s)]) = []).
  { unfold type_names. rewrite filter_app, filter_map_none by reflexivity. reflexivity. }
  assert (MN : member_names (map (fun f => ZVar (fname f) (stype (sf_type f))) (sn_fields s) ++ [ZFunc true "createDefault" (STy (sn_id s) []) (struct_call s)]) = map fname (sn_fields s) ++ ["createDefault"]).
  { unfold member_names. rewrite filter_app, filter_map_all by reflexivity. rewrite map_app, map_map. reflexivity. }
  rewrite TN, MN. cbn [app]. rewrite !forallb_app. cbn [forallb]. rewrite !andb_true_r. unfold once. rewrite !filter_app, (filter_map_all of_values), (filter_map_none (fun d => negb (of_values d))) by reflexivity.
  rewrite map_app, map_map. cbn [filter of_values negb map app distinct zname]. rewrite app_nil_r. change (map (fun x => fname x) (sn_fields s)) with (map fname (sn_fields s)). rewrite D. cbn [among existsb negb andb].
  apply andb_true_iff. split; [apply forallb_forall; intros d J; apply in_map_iff in J as (f & <- & _); reflexivity|]. apply andb_true_iff. split.
  - apply forallb_forall. intros d J. apply in_map_iff in J as (f & <- & J). cbn [SwiftSem.decl_ok]. destruct (P f J) as (R & DT & _). unfold default_type in DT. apply andb_true_iff in DT as [K _]. now apply known_ok.
  - cbn [SwiftSem.decl_ok known]. apply andb_true_iff. split; [apply orb_true_iff; left; apply among_in; exact (id_in (DStruct s) I)|]. apply struct_typed; [exact I|].
    intros m J NJ. apply in_app_or in J as [J|[<-|[]]]; [apply in_map_iff in J as (f & <- & J); destruct (P f J) as (_ & _ & N); contradiction|]. destruct fine_parts as (_ & _ & T & _). destruct (T _ NJ) as [N _]. now apply N.
Qed.
Lemma enum_ok e : In (NEnum e) ast -> SwiftSem.decl_ok ks names [] (enum_decl e) = true.
Proof.
  intros I. destruct (enum_parts e I) as (i & l & EI & FF & D & ND & P). assert (E : enum_decl e = ZEnum (pascal (en_id e)) (body_of (enum_decl e))) by reflexivity. rewrite E, (enum_body e i l I EI). cbn [SwiftSem.decl_ok].
  assert (TN : type_names (map (fun i => ZCase (cname i) (map stype (case_types i))) (en_items e) ++ [ZFunc true "createDefault" (STy (en_id e) []) (first_value i)]) = []).
  { unfold type_names. rewrite filter_app, filter_map_none by reflexivity. reflexivity. }
  assert (MN : member_names (map (fun i => ZCase (cname i) (map stype (case_types i))) (en_items e) ++ [ZFunc true "createDefault" (STy (en_id e) []) (first_value i)]) = map cname (en_items e) ++ ["createDefault"]).
  { unfold member_names. rewrite filter_app, filter_map_all by reflexivity. rewrite map_app, map_map. reflexivity. }
  rewrite TN, MN. cbn [app]. rewrite !forallb_app. cbn [forallb]. rewrite !andb_true_r. unfold once. rewrite !filter_app, (filter_map_none of_values), (filter_map_all (fun d => negb (of_values d))) by reflexivity.
  rewrite !map_app, map_map. cbn [filter of_values negb map app distinct zname]. change (map (fun x => cname x) (en_items e)) with (map cname (en_items e)). rewrite (distinct_last _ _ D ND). cbn [andb].
  apply andb_true_iff. split; [apply forallb_forall; intros d J; apply in_map_iff in J as (f & <- & _); reflexivity|]. apply andb_true_iff. split.
  - apply forallb_forall. intros d J. apply in_map_iff in J as (c & <- & J). cbn [SwiftSem.decl_ok]. destruct (P c J) as (_ & PT). apply forallb_forall. intros t X. apply in_map_iff in X as (u & <- & X). destruct (PT u X). now apply known_ok.
  - cbn [SwiftSem.decl_ok known]. apply andb_true_iff. split; [apply orb_true_iff; left; apply among_in; exact (id_in (DEnum e) I)|]. apply (first_typed e i l); [exact I|exact EI|].
    intros m J NJ. apply in_app_or in J as [J|[<-|[]]]; [apply in_map_iff in J as (c & <- & J); destruct (P c J) as (N & _); contradiction|]. destruct fine_parts as (_ & _ & T & _). destruct (T _ NJ) as [N _]. now apply N.
Qed.

(** Sizes. *)
Lemma sized_ok : forall f t, type_ready t = true -> known_type ds t = true -> sized_type ds f t = true -> sized ks f (stype t) = true.
Proof.
  induction f as [|f IH]; intros t R K Z; destruct t as [n size sg|n size|n|n|g l|n]; try discriminate K; cbn [stype].
  all: try (cbn [type_ready] in R; rewrite ?orb_true_iff, ?Nat.eqb_eq in R).
  all: try (assert (NF : forall m, In m taken -> zfind m ks = None) by (intros m J; apply not_found; intros X; destruct fine_parts as (_ & _ & T & _); now apply (T m X))).
  all: try (destruct R as [[->| ->]| ->]; destruct sg; cbn [int_type sized]; rewrite NF by (cbn; tauto); reflexivity).
  all: try (destruct R as [->| ->]; cbn [Nat.eqb sized]; rewrite NF by (cbn; tauto); reflexivity).
  all: try (cbn [sized]; rewrite NF by (cbn; tauto); reflexivity).
  all: try (destruct l as [|a [|b l]]; cbn [known_type] in K; try discriminate; apply andb_true_iff in K as [G K]; rewrite G; reflexivity).
  all: cbn [known_type] in K; unfold other_type; destruct (address n) eqn:A; [cbn [sized]; rewrite NF by (cbn; tauto); reflexivity|]; rewrite orb_false_r in K.
  all: destruct (decl_of n ds) as [d|] eqn:F; [|cbn [sized]; rewrite not_found; [reflexivity|]; intros X; destruct (name_known n X) as [d' F']; rewrite F in F'; discriminate].
  - cbn [sized_type] in Z. rewrite F in Z. destruct d; discriminate.
  - destruct (decl_in n d F) as [<- I]. cbn [sized_type] in Z. rewrite F in Z. destruct d as [s|e]; cbn [decl_name sized] in *.
    + rewrite (struct_found s I). pose proof (struct_props s I) as PR. unfold struct_decl in *. cbn [body_of] in PR. rewrite PR. apply forallb_forall. intros p J. apply in_map_iff in J as (fd & <- & J). cbn [snd].
      rewrite forallb_forall in Z. destruct (struct_parts s I) as [_ P]. destruct (P fd J) as (R' & D' & _). unfold default_type in D'. apply andb_true_iff in D' as [D' _]. apply IH; [exact R'|exact D'|now apply Z].
    + rewrite (enum_found e I). pose proof (enum_cases e I) as PR. unfold enum_decl in *. cbn [body_of] in PR. rewrite PR. apply forallb_forall. intros p J. apply in_map_iff in J as (c & <- & J). cbn [snd].
      rewrite forallb_forall in Z. specialize (Z c J). rewrite forallb_forall in Z. destruct (enum_parts e I) as (_ & _ & _ & _ & _ & _ & P). destruct (P c J) as [_ PT]. apply forallb_forall. intros u X. apply in_map_iff in X as (t & <- & X).
      destruct (PT t X). apply IH; auto.
Qed.
Lemma id_ready n : In n names -> type_ready (TyOther n) = true /\ default_type ds (TyOther n) = true.
Proof.
  intros I. destruct (name_known n I) as [d F]. destruct (decl_in n d F) as [<- J]. destruct fine_parts as (R & _). unfold models_ready in R. rewrite forallb_forall in R. specialize (R _ J). split.
  - cbn [type_ready]. destruct d as [s|e]; cbn [decl_name]; [unfold struct_ready in R|unfold enum_ready in R]; rewrite !andb_true_iff in R; tauto.
  - unfold default_type. cbn [known_type]. rewrite F, (not_address _ I), orb_true_r. reflexivity.
Qed.

Theorem models_compile : compiles ks = true.
Proof.
  unfold compiles. rewrite names_of, all_types. destruct fine_parts as (_ & D & T & _ & _ & Z). rewrite D, andb_true_r. apply andb_true_iff. split; [apply andb_true_iff; split|].
  - rewrite <- only_types. apply forallb_forall. intros d I. now apply filter_In in I as [_ I].
  - apply forallb_forall. intros d I. unfold ks, models_tree in I. apply in_flat_map in I as (a & I & J). destruct a as [e|s|f|dd|c]; try contradiction; destruct J as [<-|[]]; [now apply enum_ok|now apply struct_ok].
  - apply forallb_forall. intros d I. assert (N : In (zname d) names) by (rewrite <- names_of; now apply in_map). destruct (id_type _ N) as [E _]. rewrite <- E. destruct (id_ready _ N) as [R DT].
    assert (L : List.length ks = List.length names) by (rewrite <- names_of; now rewrite map_length). rewrite L. apply sized_ok; [exact R| |now apply Z]. unfold default_type in DT. now apply andb_true_iff in DT as [DT _].
Qed.

(** ** What [createDefault] gives *)

Definition outcome (o : option dval) : sres := match o with Some d => SValue (swift_of d) | None => SMore end.

Lemma turns {A B} (l : list A) (f : option string * sex -> sty -> sres) (arg : A -> option string * sex) (ty : A -> sty) (h : A -> option B) (v : B -> wval) :
  (forall x, In x l -> f (arg x) (ty x) = match h x with Some y => SValue (v y) | None => SMore end) ->
  in_turn f (map arg l) (map ty l) = match all_some h l with Some ys => inr (map v ys) | None => inl SMore end.
Proof.
  induction l as [|x l IH]; intros H; [reflexivity|]. cbn [map in_turn all_some]. rewrite (H x) by now left. destruct (h x) as [y|]; [|reflexivity].
  fold (@in_turn (option string * sex) sty f). rewrite IH by (intros z Z; apply H; now right). fold (@all_some A B h). destruct (all_some h l); reflexivity.
Qed.
Lemma combine_named (fs : list struct_field) (ys : list (string * dval)) : map fst ys = map sf_name fs ->
  combine (map fname fs) (map (fun y => swift_of (snd y)) ys) = map (fun y => (camel (fst y), swift_of (snd y))) ys.
Proof.
  revert ys. induction fs as [|f fs IH]; intros [|y ys] E; try discriminate; [reflexivity|]. cbn [map combine] in *. injection E as E1 E2. unfold fname at 1. rewrite E1. f_equal. now apply IH.
Qed.
Lemma all_some_map {A B C} (g : A -> B) (h : B -> option C) l : all_some h (map g l) = all_some (fun x => h (g x)) l.
Proof. induction l as [|x l IH]; [reflexivity|]. cbn [map all_some]. fold (@all_some B C h). rewrite IH. reflexivity. Qed.
Lemma unnamed value fs : all_some value (map sf_type fs) = match named_values value fs with Some ys => Some (map snd ys) | None => None end.
Proof.
  rewrite all_some_map. unfold named_values. induction fs as [|f fs IH]; [reflexivity|]. cbn [all_some]. destruct (value (sf_type f)); [|reflexivity].
  fold (@all_some struct_field dval (fun x => value (sf_type x))). rewrite IH. match goal with |- context [match ?x with _ => _ end] => destruct x; reflexivity end.
Qed.

Lemma eval_call k sh t n args b m : zfind n ks = Some (ZStruct m b) -> eval ks (S k) sh t (QCall n args) =
  match in_turn (fun a u => eval ks k sh u (snd a)) args (map snd (properties b)) with inr vs => SValue (WStruct n (combine (map fst (properties b)) vs)) | inl r => r end.
Proof. intros F. cbn [eval]. now rewrite F. Qed.
Lemma eval_static k sh t n m : eval ks (S k) sh t (QMeth n [] m []) = match static ks n m with Some (t', e') => eval ks k sh t' e' | None => SStuck end.
Proof. reflexivity. Qed.
Lemma eval_case k sh t c : eval ks (S k) sh t (QCase c) = match case_of ks t c with Some (n, []) => SValue (WCase n c []) | _ => SStuck end.
Proof. reflexivity. Qed.
Lemma eval_case_call k sh t c args : eval ks (S k) sh t (QCaseCall c args) =
  match case_of ks t c with
  | Some (n, ts) => match in_turn (fun a u => eval ks k sh u (snd a)) args ts with inr vs => SValue (WCase n c vs) | inl r => r end
  | None => SStuck
  end.
Proof. reflexivity. Qed.

Theorem default_run : forall f t, type_ready t = true -> default_type ds t = true -> eval ks (S (2 * f)) names (stype t) (sdefault t) = outcome (default_value ds f t).
Proof.
  induction f as [|f IH]; intros t R D; (destruct (default_kind t R D) as [(d & V & L & Q)|(n & d & -> & F & -> & ->)];
    [rewrite V; destruct (sdefault t); try contradiction; cbn [eval]; rewrite L; reflexivity|]).
  - cbn [default_value]. rewrite F. destruct (static_of n d F) as [e E]. cbn [Nat.mul]. rewrite eval_static, E. destruct d; reflexivity.
  - replace (S (2 * S f)) with (S (S (S (2 * f)))) by lia. remember (S (2 * f)) as k eqn:EK. rewrite eval_static. cbn [default_value]. rewrite F. destruct (decl_in n d F) as [<- I]. destruct d as [s|e]; cbn [decl_name] in *.
    + rewrite (struct_static s I). unfold struct_call. rewrite (eval_call k _ _ _ _ (body_of (struct_decl s)) (pascal (sn_id s)) (struct_found s I)), (struct_props s I), !map_map. cbn [fst snd]. destruct (struct_parts s I) as [_ P].
      assert (T : in_turn (fun a u => eval ks k names u (snd a)) (map (fun f => (Some (fname f), sdefault (sf_type f))) (sn_fields s)) (map (fun f => stype (sf_type f)) (sn_fields s)) =
        match named_values (default_value ds f) (sn_fields s) with Some ys => inr (map (fun y => swift_of (snd y)) ys) | None => inl SMore end).
      { unfold named_values. apply turns. intros fd J. cbn [snd]. destruct (P fd J) as (R' & D' & _). rewrite (IH _ R' D'). unfold outcome. destruct (default_value ds f (sf_type fd)); reflexivity. }
      rewrite T. destruct (named_values (default_value ds f) (sn_fields s)) as [ys|] eqn:E; [|reflexivity]. change (map (fun x => fname x) (sn_fields s)) with (map fname (sn_fields s)). rewrite combine_named; [reflexivity|now apply (named_fst (default_value ds f))].
    + destruct (enum_parts e I) as (i & l & EI & FF & _ & _ & P). rewrite (enum_static e i l I EI), EI. pose proof (first_case e i l I EI) as C. unfold cname in C.
      assert (J : In i (en_items e)) by (rewrite EI; now left). destruct (P i J) as [_ PT].
      assert (T : first_fine ds i = true -> match i with ItemEmpty _ _ => False | _ => True end -> in_turn (fun a u => eval ks k names u (snd a)) (map (fun t => (@None string, sdefault t)) (case_types i)) (map stype (case_types i)) =
        match all_some (default_value ds f) (case_types i) with Some ys => inr (map swift_of ys) | None => inl SMore end).
      { intros FF' NE. apply turns. intros t X. cbn [snd]. destruct (PT t X) as [R' _]. apply IH; [exact R'|]. destruct i; try contradiction; cbn [first_fine] in FF'; apply andb_true_iff in FF' as [_ FF']; rewrite forallb_forall in FF'; now apply FF'. }
      destruct i as [a c|a c vs|a c fs]; cbn [item_id first_value] in *.
      * now rewrite eval_case, C.
      * rewrite eval_case_call, C, (T FF Logic.I). cbn [case_types]. rewrite all_some_map. destruct (all_some (fun v => default_value ds f (tf_type v)) vs); reflexivity.
      * rewrite eval_case_call, C, (T FF Logic.I). cbn [case_types]. rewrite unnamed. destruct (named_values (default_value ds f) fs) as [ys|]; [|reflexivity]. cbn [outcome swift_of]. now rewrite map_map.
Qed.

(** The default of a type of finite size is finite. *)
Lemma all_some_exists {A B} (h : A -> option B) l : (forall x, In x l -> exists y, h x = Some y) -> exists ys, all_some h l = Some ys.
Proof.
  induction l as [|x l IH]; intros H; [now exists []|]. destruct (H x (or_introl eq_refl)) as [y E]. destruct IH as [ys E']; [intros z Z; apply H; now right|]. exists (y :: ys). cbn [all_some]. fold (@all_some A B h). now rewrite E, E'.
Qed.
Theorem default_finite : forall f t, type_ready t = true -> default_type ds t = true -> sized_type ds f t = true -> exists d, default_value ds f t = Some d.
Proof.
  induction f as [|f IH]; intros t R D Z; (destruct (default_kind t R D) as [(d & V & _)|(n & d & -> & F & _ & _)]; [exists d; apply V|]); cbn [sized_type] in Z; rewrite F in Z; [destruct d; discriminate|].
  cbn [default_value]. rewrite F. destruct (decl_in n d F) as [<- I]. destruct d as [s|e]; rewrite forallb_forall in Z.
  - destruct (struct_parts s I) as [_ P]. assert (X : exists ys, named_values (default_value ds f) (sn_fields s) = Some ys).
    { unfold named_values. apply all_some_exists. intros fd J. destruct (P fd J) as (R' & D' & _). destruct (IH _ R' D' (Z _ J)) as [v E]. rewrite E. eauto. }
    destruct X as [ys ->]. eauto.
  - destruct (enum_parts e I) as (i & l & EI & FF & _ & _ & P). assert (J : In i (en_items e)) by (rewrite EI; now left). destruct (P i J) as [_ PT]. specialize (Z i J). rewrite forallb_forall in Z. rewrite EI.
    assert (X : match i with ItemEmpty _ _ => False | _ => True end -> forall t, In t (case_types i) -> exists v, default_value ds f t = Some v).
    { intros NE t X. destruct (PT t X) as [R' _]. apply IH; [exact R'| |now apply Z]. destruct i; try contradiction; cbn [first_fine] in FF; apply andb_true_iff in FF as [_ FF]; rewrite forallb_forall in FF; now apply FF. }
    destruct i as [a c|a c vs|a c fs]; [eauto| |].
    + assert (Y : exists ys, all_some (fun v => default_value ds f (tf_type v)) vs = Some ys) by (apply all_some_exists; intros v V; apply (X Logic.I); cbn [case_types]; now apply in_map). destruct Y as [ys ->]. eauto.
    + assert (Y : exists ys, named_values (default_value ds f) fs = Some ys).
      { unfold named_values. apply all_some_exists. intros fd V. destruct (X Logic.I (sf_type fd)) as [v E]; [cbn [case_types]; now apply in_map|]. rewrite E. eauto. }
      destruct Y as [ys ->]. eauto.
Qed.

Theorem create_default_runs f n : In n names -> run_default ks (S (2 * f)) n = outcome (default_value ds f (TyOther n)).
Proof.
  intros I. unfold run_default. rewrite all_types. destruct (id_ready n I) as [R D]. destruct (id_type n I) as [E _]. rewrite <- (default_run f _ R D), E. f_equal. destruct (default_kind _ R D) as [(d & _ & _ & Q)|(m & d & [= <-] & _ & _ & ->)]; [|reflexivity].
  exfalso. destruct fine_parts as (_ & _ & T & _). destruct (T n I) as [_ NT]. revert Q. cbn [sdefault]. destruct (String.eqb_spec n "String") as [->|_]; [intros _; apply NT; cbn; tauto|]. destruct (String.eqb_spec n "Vec") as [->|_]; [intros _; apply NT; cbn; tauto|]. auto.
Qed.
Theorem create_default_ends n : In n names -> exists d, default_value ds (S (List.length names)) (TyOther n) = Some d /\ run_default ks (S (2 * S (List.length names))) n = SValue (swift_of d).
Proof.
  intros I. destruct (id_ready n I) as [R D]. destruct fine_parts as (_ & _ & _ & _ & _ & Z). destruct (default_finite _ _ R D (Z n I)) as [d E]. exists d. split; [exact E|]. rewrite (create_default_runs _ n I), E. reflexivity.
Qed.
End Models.
