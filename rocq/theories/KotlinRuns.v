(** The Kotlin models compile, and [createDefault] gives the default value. *)
Require Import Coq.Strings.String Coq.Strings.Ascii.
Require Import Coq.NArith.NArith Coq.ZArith.ZArith Coq.Lists.List Coq.Bool.Bool Coq.Arith.PeanoNat Coq.micromega.Lia.
Require Import Verif.Base Verif.F64 Verif.Ast Verif.CaseConv Verif.RustSem Verif.Wire Verif.NumText Verif.Code Verif.KotlinSyntax Verif.KotlinPrint Verif.KotlinTree Verif.KotlinFile Verif.KotlinSem Verif.Defaults Verif.KotlinCheck.
Import ListNotations.
Local Open Scope string_scope.
Local Open Scope list_scope.

(** ** Lists *)

Lemma among_in l x : among l x = true <-> In x l.
Proof. unfold among. rewrite existsb_exists. split; [intros (z & I & E); apply String.eqb_eq in E as <-; exact I|intros I; exists x; split; [exact I|apply String.eqb_refl]]. Qed.
Lemma among_out l x : among l x = false <-> ~ In x l.
Proof. rewrite <- among_in. destruct (among l x); split; congruence. Qed.

Lemma find_distinct {A} (name : A -> string) l d : distinct (map name l) = true -> In d l -> find (fun d => String.eqb (name d) (name d)) [d] = Some d /\ find (fun e => String.eqb (name e) (name d)) l = Some d.
Proof.
  intros D I. split; [cbn; now rewrite String.eqb_refl|]. induction l as [|a l IH]; [destruct I|]. cbn [map distinct] in D. apply andb_true_iff in D as [D1 D2].
  apply negb_true_iff, among_out in D1. cbn [find]. destruct I as [->|I]; [now rewrite String.eqb_refl|].
  destruct (String.eqb_spec (name a) (name d)) as [E|_]; [|now apply IH]. exfalso. apply D1. rewrite E. now apply in_map.
Qed.
Lemma find_none_name {A} (name : A -> string) l n : ~ In n (map name l) -> find (fun e => String.eqb (name e) n) l = None.
Proof.
  induction l as [|a l IH]; [reflexivity|]. cbn [map find]. intros H. destruct (String.eqb_spec (name a) n) as [E|_]; [exfalso; apply H; now left|]. apply IH. intros I. apply H. now right.
Qed.

(** ** Arguments *)

Lemma named_types ps : distinct (map fst ps) = true -> arg_types ps (map (fun p => Some (fst p)) ps) = Some (map snd ps).
Proof.
  intros D. unfold arg_types. rewrite map_length, Nat.eqb_refl. cbn [negb].
  destruct ps as [|p0 ps0] eqn:E; [reflexivity|]. rewrite <- E in *. replace (forallb _ (map (fun p => Some (fst p)) ps)) with false by (rewrite E; reflexivity).
  rewrite map_map. cbn. change (map (fun x => fst x) ps) with (map fst ps). rewrite D.
  assert (X : forall l, (forall x, In x l -> In x ps) -> fold_right (fun l acc =>
         match l, acc with
         | Some n, Some ts => match find (fun p => String.eqb (fst p) n) ps with Some p => Some (snd p :: ts) | None => None end
         | _, _ => None
         end) (Some []) (map (fun p => Some (fst p)) l) = Some (map snd l)).
  { induction l as [|x l IH]; [reflexivity|]. intros H. cbn [map fold_right]. rewrite IH by (intros z Z; apply H; now right).
    destruct (find_distinct fst ps x D (H x (or_introl eq_refl))) as [_ F]. now rewrite F. }
  apply X. auto.
Qed.
Lemma place_types {A} ps (l : list A) : List.length l = List.length ps -> arg_types ps (map (fun _ => None) l) = Some (map snd ps).
Proof.
  intros L. unfold arg_types. rewrite map_length, L, Nat.eqb_refl. cbn [negb].
  replace (forallb _ (map (fun _ => None) l)) with true; [reflexivity|]. symmetry. apply forallb_forall. intros x I. apply in_map_iff in I as (a & <- & _). reflexivity.
Qed.

Lemma find_arg ps : forall vs p v, distinct (map fst ps) = true -> In (p, v) (combine ps vs) ->
  find (fun a => match fst a with Some n => String.eqb n (fst p) | None => false end) (combine (map (fun p : string * kty => Some (fst p)) ps) vs) = Some (Some (fst p), v : kval).
Proof.
  induction ps as [|q ps IH]; intros [|w vs] p v D I; try contradiction. cbn [map distinct] in D. apply andb_true_iff in D as [D1 D2]. apply negb_true_iff, among_out in D1.
  cbn [map combine find fst]. destruct I as [[= -> ->]|I]; [now rewrite String.eqb_refl|]. destruct (String.eqb_spec (fst q) (fst p)) as [E|_]; [|now apply IH].
  exfalso. apply D1. rewrite E. apply in_map. exact (in_combine_l _ _ _ _ I).
Qed.
Lemma arrange_named ps vs : distinct (map fst ps) = true -> List.length vs = List.length ps ->
  arrange ps (combine (map (fun p => Some (fst p)) ps) vs) = combine (map fst ps) vs.
Proof.
  intros D L. pose proof (fun p v => find_arg ps vs p v D) as F.
  assert (X : arrange ps (combine (map (fun p => Some (fst p)) ps) vs) =
    flat_map (fun p => match find (fun a => match fst a with Some n => String.eqb n (fst p) | None => false end) (combine (map (fun p : string * kty => Some (fst p)) ps) vs) with
                         | Some a => [(fst p, snd a : kval)]
                         | None => []
                         end) ps) by (destruct ps; [reflexivity|]; destruct vs; [discriminate|reflexivity]).
  rewrite X. clear X. revert F. generalize (combine (map (fun p : string * kty => Some (fst p)) ps) vs) as args. intros args F. clear D.
  revert vs L F. induction ps as [|p ps IH]; intros [|v vs] L F; try discriminate; [reflexivity|]. cbn [flat_map map combine]. rewrite (F p v) by now left. cbn [app snd]. f_equal. apply IH; [now injection L|].
  intros q w I. apply F. now right.
Qed.
Lemma arrange_places {A} ps vs (l : list A) : List.length l = List.length ps -> List.length vs = List.length ps ->
  arrange ps (combine (map (fun _ => None) l) vs) = combine (map fst ps) vs.
Proof.
  intros L1 L2. destruct l as [|a l]; [destruct ps; [|discriminate]; destruct vs; [reflexivity|discriminate]|]. destruct vs as [|v vs]; [destruct ps; [reflexivity|discriminate]|].
  cbn [map combine arrange]. cbn [snd map]. f_equal. f_equal. assert (E : List.length l = List.length vs) by (destruct ps; [discriminate|]; cbn in *; lia). clear -E.
  revert vs E. induction l as [|a l IH]; intros [|v vs] E; try discriminate; [reflexivity|]. cbn [map combine snd]. f_equal. apply IH. now injection E.
Qed.

(** ** The declarations of a file *)

Section Models.
Variable ast : list ast_node.
Let ds := schema_decls ast.
Let ks := models_tree ast.
Hypothesis fine : kotlin_fine ast = true.

Lemma fine_parts : models_ready ast = true /\ distinct (kotlin_names ast) = true /\ (forall n, In n (kotlin_names ast) -> ~ In n taken) /\
  (forall s, In (NStruct s) ast -> struct_fine ds s = true) /\ (forall e, In (NEnum e) ast -> enum_fine ds e = true).
Proof.
  unfold kotlin_fine in fine. rewrite !andb_true_iff in fine. destruct fine as (((R & D) & T) & F). rewrite forallb_forall in T, F.
  repeat split; auto.
  - intros n I. apply among_out, negb_true_iff, T, I.
  - intros s I. exact (F _ I).
  - intros e I. exact (F _ I).
Qed.

Lemma case_name e i : case_fine ds e i = true -> yname (case_decl e i) = (e ++ item_id i)%string.
Proof. unfold case_fine. rewrite andb_true_iff. intros [E _]. apply String.eqb_eq in E. destruct i; exact E. Qed.
Lemma struct_name s : struct_fine ds s = true -> yname (struct_class s) = sn_id s.
Proof. unfold struct_fine. rewrite !andb_true_iff. intros ((E & _) & _). now apply String.eqb_eq in E. Qed.

Lemma names_of : map yname ks = kotlin_names ast.
Proof.
  destruct fine_parts as (_ & _ & _ & S & E). unfold ks. revert S E. generalize ds. intros ds0. clear. unfold kotlin_names, models_tree. induction ast as [|a l IH]; intros S E; [reflexivity|].
  cbn [flat_map]. rewrite map_app, IH; [|intros s I; apply S; now right|intros e I; apply E; now right]. f_equal. destruct a as [e|s|f|d|c]; try reflexivity.
  - unfold enum_decls. cbn [map]. f_equal. specialize (E e (or_introl eq_refl)). unfold enum_fine in E. apply andb_true_iff in E as [E _]. rewrite forallb_forall in E.
    rewrite map_map. apply map_ext_in. intros i I. specialize (E i I). unfold case_fine in E. apply andb_true_iff in E as [E _]. apply String.eqb_eq in E. destruct i; exact E.
  - specialize (S s (or_introl eq_refl)). unfold struct_fine in S. rewrite !andb_true_iff in S. destruct S as ((S & _) & _). apply String.eqb_eq in S. cbn. now rewrite S.
Qed.
Lemma all_types : type_names ks = kotlin_names ast.
Proof.
  rewrite <- names_of. unfold type_names, ks, models_tree. f_equal. clear. induction ast as [|a l IH]; [reflexivity|]. cbn [flat_map]. rewrite filter_app, IH. f_equal.
  destruct a as [e|s|f|d|c]; try reflexivity. unfold enum_decls. cbn [filter ytype enum_interface]. f_equal. induction (en_items e) as [|i il IHi]; [reflexivity|]. cbn [map filter].
  rewrite IHi. destruct i; reflexivity.
Qed.

Lemma found d : In d ks -> kfind (yname d) ks = Some d.
Proof. intros I. unfold kfind. apply find_distinct; [|exact I]. rewrite names_of. now destruct fine_parts as (_ & D & _). Qed.
Lemma not_found n : In n taken -> kfind n ks = None.
Proof. intros I. unfold kfind. apply find_none_name. rewrite names_of. intros J. destruct fine_parts as (_ & _ & T & _). exact (T n J I). Qed.
Lemma free n : In n (tl taken) -> library (kotlin_names ast) n = true.
Proof. intros I. unfold library. apply negb_true_iff, among_out. intros J. destruct fine_parts as (_ & _ & T & _). exact (T n J (or_intror I)). Qed.
(** A scope with the names of the file, in which those of the language are not hidden. *)
Definition scope (sh : list string) : Prop := (forall n, In n (tl taken) -> library sh n = true) /\ (forall n, In n (kotlin_names ast) -> In n sh).
Lemma file_scope : scope (kotlin_names ast).
Proof. split; [exact free|auto]. Qed.
Lemma class_scope : scope ("Companion" :: kotlin_names ast).
Proof.
  split; [|intros n I; now right]. intros n I. unfold library. apply negb_true_iff, among_out. intros [<-|J].
  - cbn in I. repeat (destruct I as [I|I]; [discriminate I|]). exact I.
  - destruct fine_parts as (_ & _ & T & _). exact (T n J (or_intror I)).
Qed.

Lemma decl_in n d : decl_of n ds = Some d -> decl_name d = n /\ In (match d with DStruct s => NStruct s | DEnum e => NEnum e end) ast.
Proof.
  intros F. apply find_some in F as [I E]. apply String.eqb_eq in E. split; [exact E|]. unfold ds, schema_decls in I. apply in_flat_map in I as (a & I & J).
  destruct a as [e|s|f|dd|c]; cbn in J; try contradiction; destruct J as [<-|[]]; exact I.
Qed.
Lemma struct_found s : In (NStruct s) ast -> kfind (sn_id s) ks = Some (struct_class s).
Proof.
  intros I. destruct fine_parts as (_ & _ & _ & S & _). rewrite <- (struct_name s (S s I)) at 1. apply found. unfold ks, models_tree. apply in_flat_map. exists (NStruct s). split; [exact I|now left].
Qed.
Lemma enum_found e : In (NEnum e) ast -> kfind (en_id e) ks = Some (enum_interface e).
Proof.
  intros I. change (en_id e) with (yname (enum_interface e)). apply found. unfold ks, models_tree. apply in_flat_map. exists (NEnum e). split; [exact I|now left].
Qed.
Lemma case_found e i : In (NEnum e) ast -> In i (en_items e) -> kfind (en_id e ++ item_id i) ks = Some (case_decl (en_id e) i).
Proof.
  intros I J. destruct fine_parts as (_ & _ & _ & _ & E). specialize (E e I). unfold enum_fine in E. apply andb_true_iff in E as [E _]. rewrite forallb_forall in E.
  rewrite <- (case_name _ i (E i J)). apply found. unfold ks, models_tree. apply in_flat_map. exists (NEnum e). split; [exact I|]. right. apply in_map_iff. now exists i.
Qed.
Lemma name_in n d : decl_of n ds = Some d -> In n (kotlin_names ast).
Proof.
  intros F. destruct (decl_in n d F) as [<- I]. unfold kotlin_names. apply in_flat_map. destruct d as [s|e]; eexists; (split; [exact I|now left]).
Qed.
Lemma not_taken n d : decl_of n ds = Some d -> ~ In n taken.
Proof. intros F. destruct fine_parts as (_ & _ & T & _). apply T. exact (name_in n d F). Qed.
Lemma not_address n d : decl_of n ds = Some d -> address n = false.
Proof. intros F. apply among_out. intros I. apply (not_taken n d F). cbn in I |- *. tauto. Qed.

Lemma struct_static s : In (NStruct s) ast -> static ks (sn_id s) "createDefault" = Some (KTy (sn_id s) [], XCall (sn_id s) (named_defaults (sn_fields s))).
Proof.
  intros I. assert (A : ktype (TyOther (sn_id s)) = KTy (sn_id s) []); [|unfold static; rewrite (struct_found s I); unfold struct_class, companion; rewrite A; reflexivity].
  cbn [ktype]. replace (address (sn_id s)) with false; [reflexivity|]. symmetry. apply among_out. intros J.
  destruct fine_parts as (_ & _ & T & _). apply (T (sn_id s)); [|cbn in J |- *; tauto]. unfold kotlin_names. apply in_flat_map. eexists. split; [exact I|now left].
Qed.
Lemma enum_static e i l : In (NEnum e) ast -> en_items e = i :: l -> static ks (en_id e) "createDefault" = Some (KTy (en_id e) [], first_value (en_id e) i).
Proof.
  intros I E. assert (A : ktype (TyOther (en_id e)) = KTy (en_id e) []); [|unfold static; rewrite (enum_found e I); unfold enum_interface, companion; rewrite E, A; reflexivity].
  cbn [ktype]. replace (address (en_id e)) with false; [reflexivity|]. symmetry. apply among_out. intros J.
  destruct fine_parts as (_ & _ & T & _). apply (T (en_id e)); [|cbn in J |- *; tauto]. unfold kotlin_names. apply in_flat_map. eexists. split; [exact I|now left].
Qed.

Lemma known_ok sh : scope sh -> forall t, type_ready t = true -> known_type ds t = true -> known sh (ktype t) = true.
Proof.
  intros [L S]. fix IH 1. intros [n size sg|n size|n|n|g l|n] R K; cbn [ktype].
  - cbn [known]. apply orb_true_iff. right. cbn [type_ready] in R. rewrite !orb_true_iff, !Nat.eqb_eq in R. destruct R as [[->| ->]| ->]; destruct sg; reflexivity.
  - cbn [known]. apply orb_true_iff. right. destruct (Nat.eqb size 4); reflexivity.
  - cbn [known]. apply orb_true_iff. now right.
  - cbn [known]. apply orb_true_iff. now right.
  - destruct l as [|a [|b l]]; cbn [known_type] in K; try discriminate. apply andb_true_iff in K as [G K]. rewrite G. cbn [map known]. rewrite (L "List") by (cbn; tauto). cbn [andb String.eqb Ascii.eqb Bool.eqb].
    apply IH; [|exact K]. cbn [type_ready forallb] in R. rewrite !andb_true_iff in R. tauto.
  - cbn [known_type] in K. destruct (address n) eqn:A; cbn [known]; apply orb_true_iff; [now right|]. rewrite orb_false_r in K. apply orb_true_iff in K as [K|K]; [right; apply String.eqb_eq in K as ->; reflexivity|].
    left. apply among_in, S. destruct (decl_of n ds) as [d|] eqn:F; [|discriminate]. exact (name_in n d F).
Qed.

(** ** Default expressions *)

Lemma integer_default n size sg sh : type_ready (TyInteger n size sg) = true -> (forall m, In m (tl taken) -> library sh m = true) ->
  literal_of sh (ktype (TyInteger n size sg)) (kdefault (TyInteger n size sg)) = Some (kotlin_of (Dnumber (TyInteger n size sg))).
Proof.
  intros R L. cbn [type_ready] in R. rewrite !orb_true_iff, !Nat.eqb_eq in R. unfold literal_of. cbn [ktype].
  destruct R as [[->| ->]| ->]; destruct sg; cbn [int_type]; rewrite L by (cbn; tauto); vm_compute; reflexivity.
Qed.
Lemma number_default n size sh : type_ready (TyNumber n size) = true -> (forall m, In m (tl taken) -> library sh m = true) ->
  literal_of sh (ktype (TyNumber n size)) (kdefault (TyNumber n size)) = Some (kotlin_of (Dnumber (TyNumber n size))).
Proof.
  intros R L. cbn [type_ready] in R. rewrite !orb_true_iff, !Nat.eqb_eq in R. unfold literal_of. cbn [ktype].
  destruct R as [->| ->]; cbn [Nat.eqb]; rewrite L by (cbn; tauto); vm_compute; reflexivity.
Qed.

Lemma stands_self n : stands_for ks n (KTy n []) = true.
Proof. unfold stands_for. now rewrite String.eqb_refl. Qed.

Lemma class_default_typed sh n data ps ss b args ts t : kfind n ks = Some (YClass data (pascal n) ps ss b) -> stands_for ks n t = true -> arg_types ps (map fst args) = Some ts ->
  (forall a u, In (a, u) (combine args ts) -> typed ks sh u (snd a) = true) -> typed ks sh t (XCall n args) = true.
Proof.
  intros F S A H. cbn [typed]. rewrite F, S, A. cbn [andb]. clear -H. revert ts H. induction args as [|a args IH]; intros [|u ts] H; try reflexivity. cbn [each2].
  rewrite (H a u) by now left. apply IH. intros c v I. apply H. now right.
Qed.

Lemma default_typed sh t : scope sh -> type_ready t = true -> default_type ds t = true -> typed ks sh (ktype t) (kdefault t) = true.
Proof.
  intros [L _] R D. unfold default_type in D. apply andb_true_iff in D as [K D].
  destruct t as [n size sg|n size|n|n|g l|n]; try discriminate.
  - pose proof (integer_default n size sg _ R L) as E. cbn [kdefault] in *. cbn [typed]. now rewrite E.
  - pose proof (number_default n size _ R L) as E. cbn [kdefault] in *. destruct (Nat.eqb size 4); cbn [typed]; now rewrite E.
  - cbn [kdefault typed]. rewrite not_found by (cbn; tauto). cbn [ktype literal_of]. rewrite L by (cbn; tauto). reflexivity.
  - destruct l as [|a [|b l]]; cbn [known_type] in K; try discriminate. apply andb_true_iff in K as [G K]. cbn [ktype kdefault]. rewrite G. cbn [typed].
    rewrite not_found by (cbn; tauto). cbn [map empty_list]. rewrite L by (cbn; tauto). reflexivity.
  - cbn [ktype kdefault]. apply negb_true_iff in D. rewrite D. destruct (String.eqb_spec n "String") as [->|NS].
    + cbn [typed literal_of]. rewrite L by (cbn; tauto). reflexivity.
    + cbn [known_type] in K. rewrite D, orb_false_r in K. apply orb_true_iff in K as [K|K]; [apply String.eqb_eq in K; contradiction|].
      destruct (decl_of n ds) as [d|] eqn:F; [|discriminate]. destruct (String.eqb_spec n "Vec") as [->|NV]; [exfalso; apply (not_taken _ _ F); cbn; tauto|].
      destruct (decl_in n d F) as [<- I]. destruct d as [s|e]; cbn [decl_name typed].
      * now rewrite (struct_static s I), stands_self.
      * destruct fine_parts as (_ & _ & _ & _ & E). specialize (E e I). unfold enum_fine in E. apply andb_true_iff in E as [_ E].
        destruct (en_items e) as [|i l] eqn:EI; [discriminate|]. now rewrite (enum_static e i l I EI), stands_self.
Qed.

(** ** The file compiles *)

Lemma in_combine_map {A B C} (f : A -> B) (g : A -> C) l a u : In (a, u) (combine (map f l) (map g l)) -> exists x, In x l /\ a = f x /\ u = g x.
Proof. induction l as [|x l IH]; [contradiction|]. cbn [map combine]. intros [[= <- <-]|I]; [exists x; repeat split; now left|]. destruct (IH I) as (z & Z & E). exists z. split; [now right|exact E]. Qed.

Definition params (fs : list struct_field) : list (string * kty) := map (fun f => (camel (sf_name f), ktype (sf_type f))) fs.
Lemma named_labels fs : map fst (named_defaults fs) = map (fun p => Some (fst p)) (params fs).
Proof. unfold named_defaults, params. now rewrite !map_map. Qed.
Lemma param_names fs : map fst (params fs) = map (fun f => camel (sf_name f)) fs.
Proof. unfold params. now rewrite map_map. Qed.
Lemma param_types fs : map snd (params fs) = map (fun f => ktype (sf_type f)) fs.
Proof. unfold params. now rewrite map_map. Qed.
Lemma raw_params fs : forallb (fun f => String.eqb (camel (sf_name f)) (sf_name f)) fs = true -> map (fun f => (sf_name f, ktype (sf_type f))) fs = params fs.
Proof. intros F. rewrite forallb_forall in F. apply map_ext_in. intros f I. specialize (F f I). apply String.eqb_eq in F. now rewrite F. Qed.

Lemma numbered_length vs : forall i, List.length (numbered i vs) = List.length vs.
Proof. induction vs as [|v vs IH]; intros i; [reflexivity|]. cbn [numbered List.length]. now rewrite IH. Qed.
Lemma numbered_types vs : forall i, map snd (numbered i vs) = map (fun v => ktype (tf_type v)) vs.
Proof. induction vs as [|v vs IH]; intros i; [reflexivity|]. cbn [numbered map snd]. now rewrite IH. Qed.

Definition places (vs : list tuple_field) : list (option string * kex) := map (fun v => (None, kdefault (tf_type v))) vs.
Lemma place_labels vs : map fst (places vs) = map (fun _ => None) vs.
Proof. unfold places. now rewrite map_map. Qed.

Lemma struct_parts s : In (NStruct s) ast -> distinct (map fst (params (sn_fields s))) = true /\
  (forall f, In f (sn_fields s) -> type_ready (sf_type f) = true /\ default_type ds (sf_type f) = true).
Proof.
  intros I. destruct fine_parts as (R & _ & _ & S & _). specialize (S s I). unfold struct_fine in S. rewrite !andb_true_iff in S. destruct S as ((_ & D) & F). rewrite param_names. split; [exact D|].
  unfold models_ready in R. rewrite forallb_forall in R. specialize (R _ I). cbn in R. unfold struct_ready in R. rewrite !andb_true_iff in R. destruct R as ((_ & _) & R). rewrite forallb_forall in R, F.
  intros f J. specialize (R f J). apply andb_true_iff in R as [_ R]. split; [exact R|now apply F].
Qed.

(** What is known of a case, and more of the first one. *)
Lemma case_parts e i : In (NEnum e) ast -> In i (en_items e) -> case_fine ds (en_id e) i = true /\ case_ready (en_id e) i = true.
Proof.
  intros I J. destruct fine_parts as (R & _ & _ & _ & E). specialize (E e I). unfold enum_fine in E. apply andb_true_iff in E as [E _]. rewrite forallb_forall in E. split; [now apply E|].
  unfold models_ready in R. rewrite forallb_forall in R. specialize (R _ I). cbn in R. unfold enum_ready in R. rewrite !andb_true_iff in R. destruct R as (_ & R). rewrite forallb_forall in R. now apply R.
Qed.
Lemma first_parts e i l : In (NEnum e) ast -> en_items e = i :: l ->
  match i with
  | ItemEmpty _ _ => True
  | ItemTuple _ _ vs => forall v, In v vs -> type_ready (tf_type v) = true /\ default_type ds (tf_type v) = true
  | ItemStruct _ _ fs => map (fun f => (sf_name f, ktype (sf_type f))) fs = params fs /\ distinct (map fst (params fs)) = true /\
      map (fun f => camel (sf_name f)) fs = map sf_name fs /\
      forall f, In f fs -> type_ready (sf_type f) = true /\ default_type ds (sf_type f) = true
  end.
Proof.
  intros I E. destruct (case_parts e i I) as [F R]; [rewrite E; now left|]. destruct fine_parts as (_ & _ & _ & _ & EF). specialize (EF e I). unfold enum_fine in EF. apply andb_true_iff in EF as [_ EF]. rewrite E in EF.
  unfold case_ready in R. rewrite !andb_true_iff in R. destruct R as (_ & R). unfold case_fine in F. rewrite !andb_true_iff in F. destruct F as (_ & F).
  destruct i as [a c|a c vs|a c fs]; [exact Logic.I| |]; cbn [first_fine] in EF; rewrite forallb_forall in R, EF.
  - intros v J. split; [now apply R|now apply EF].
  - rewrite !andb_true_iff in F. destruct F as ((_ & D) & _).
    assert (X : forallb (fun f => String.eqb (camel (sf_name f)) (sf_name f)) fs = true) by (apply forallb_forall; intros f J; specialize (EF f J); apply andb_true_iff in EF as [EF _]; exact EF).
    assert (Y : map (fun f => camel (sf_name f)) fs = map sf_name fs) by (apply map_ext_in; intros f J; rewrite forallb_forall in X; specialize (X f J); now apply String.eqb_eq in X).
    split; [now apply raw_params|]. split; [rewrite param_names, Y; exact D|]. split; [exact Y|]. intros f J. specialize (R f J). rewrite !andb_true_iff in R. specialize (EF f J). apply andb_true_iff in EF as [_ EF]. tauto.
Qed.

Lemma case_stands e i : In (NEnum e) ast -> In i (en_items e) -> stands_for ks (en_id e ++ item_id i) (KTy (en_id e) []) = true.
Proof.
  intros I J. unfold stands_for. rewrite (case_found e i I J). apply orb_true_iff. right. destruct i; cbn; now rewrite String.eqb_refl.
Qed.

Lemma first_typed sh e i l : scope sh -> In (NEnum e) ast -> en_items e = i :: l -> typed ks sh (KTy (en_id e) []) (first_value (en_id e) i) = true.
Proof.
  intros SC I E. pose proof (first_parts e i l I E) as P. assert (J : In i (en_items e)) by (rewrite E; now left). pose proof (case_found e i I J) as F. pose proof (case_stands e i I J) as S.
  destruct i as [a c|a c vs|a c fs]; cbn [item_id case_decl first_value] in *.
  - cbn [typed]. now rewrite F.
  - change (map (fun v => (None, kdefault (tf_type v))) vs) with (places vs). eapply class_default_typed; [exact F|exact S|rewrite place_labels; apply place_types; now rewrite numbered_length|].
    intros x u X. rewrite numbered_types in X. apply in_combine_map in X as (v & V & -> & ->). destruct (P v V) as [R D]. now apply default_typed.
  - destruct P as (EQ & D & _ & P). rewrite EQ in F. eapply class_default_typed; [exact F|exact S|rewrite named_labels; now apply named_types|].
    intros x u X. rewrite param_types in X. apply in_combine_map in X as (f & V & -> & ->). destruct (P f V) as [R DT]. now apply default_typed.
Qed.
Lemma struct_typed sh s : scope sh -> In (NStruct s) ast -> typed ks sh (KTy (sn_id s) []) (XCall (sn_id s) (named_defaults (sn_fields s))) = true.
Proof.
  intros SC I. destruct (struct_parts s I) as [D P]. pose proof (struct_found s I) as F. unfold struct_class in F.
  eapply class_default_typed; [exact F|apply stands_self|rewrite named_labels; now apply named_types|].
  intros x u X. rewrite param_types in X. apply in_combine_map in X as (f & V & -> & ->). destruct (P f V) as [R DT]. now apply default_typed.
Qed.

Lemma companion_ok id e : stands_for ks id (KTy id []) = true -> address id = false -> In id (kotlin_names ast) -> typed ks ("Companion" :: kotlin_names ast) (KTy id []) e = true ->
  (distinct (map yname (companion id e)) && forallb (KotlinSem.decl_ok ks (type_names (companion id e) ++ kotlin_names ast)) (companion id e)) = true.
Proof.
  intros S A I T. unfold companion. assert (K : ktype (TyOther id) = KTy id []) by (cbn [ktype]; now rewrite A). rewrite K.
  cbn [map yname distinct among existsb negb andb forallb type_names filter ytype app KotlinSem.decl_ok]. rewrite andb_true_r.
  change (filter ytype [YFun "createDefault" (KTy id []) e]) with (@nil kdecl). cbn [map app]. rewrite T. cbn [known]. rewrite andb_true_r, andb_true_r.
  apply orb_true_iff. left. apply among_in. now right.
Qed.
Lemma id_name (d : decl) : In (match d with DStruct s => NStruct s | DEnum e => NEnum e end) ast -> In (decl_name d) (kotlin_names ast) /\ address (decl_name d) = false.
Proof.
  intros I. assert (N : In (decl_name d) (kotlin_names ast)) by (unfold kotlin_names; apply in_flat_map; destruct d as [s|e]; eexists; (split; [exact I|now left])).
  split; [exact N|]. apply among_out. intros J. destruct fine_parts as (_ & _ & T & _). apply (T _ N). cbn in J |- *. tauto.
Qed.

Lemma struct_ok s : In (NStruct s) ast -> KotlinSem.decl_ok ks (kotlin_names ast) (struct_class s) = true.
Proof.
  intros I. destruct (struct_parts s I) as [D P]. destruct (id_name (DStruct s) I) as [N A]. cbn [decl_name] in *. unfold struct_class. cbn [KotlinSem.decl_ok].
  rewrite companion_ok; [|apply stands_self|exact A|exact N|now apply struct_typed; [apply class_scope|]]. rewrite andb_true_r. cbn [supers_ok forallb]. rewrite andb_true_r.
  change (map (fun f => (camel (sf_name f), ktype (sf_type f))) (sn_fields s)) with (params (sn_fields s)). rewrite D, andb_true_r.
  apply andb_true_iff. split; [destruct (sn_fields s); reflexivity|]. apply forallb_forall. intros p J. unfold params in J. apply in_map_iff in J as (f & <- & J). cbn [snd].
  destruct (P f J) as [R DT]. unfold default_type in DT. apply andb_true_iff in DT as [K _]. apply known_ok; [apply file_scope|exact R|exact K].
Qed.
Lemma interface_ok e : In (NEnum e) ast -> KotlinSem.decl_ok ks (kotlin_names ast) (enum_interface e) = true.
Proof.
  intros I. destruct (id_name (DEnum e) I) as [N A]. cbn [decl_name] in *. destruct fine_parts as (_ & _ & _ & _ & EF). specialize (EF e I). unfold enum_fine in EF. apply andb_true_iff in EF as [_ EF].
  unfold enum_interface. cbn [KotlinSem.decl_ok]. destruct (en_items e) as [|i l] eqn:E; [discriminate|]. apply companion_ok; [apply stands_self|exact A|exact N|]. eapply first_typed; [apply class_scope|exact I|exact E].
Qed.

Lemma append_cancel a b c : (a ++ b)%string = (a ++ c)%string -> b = c.
Proof. induction a as [|x a IH]; [auto|]. cbn [append]. intros [= H]. now apply IH. Qed.
Lemma numbered_names vs : forall i, map fst (numbered i vs) = map (fun k => "p" ++ show_nat k)%string (seq i (List.length vs)).
Proof. induction vs as [|v vs IH]; intros i; [reflexivity|]. cbn [numbered map fst List.length seq]. now rewrite IH. Qed.
Lemma distinct_nodup l : NoDup l -> distinct l = true.
Proof. induction 1 as [|x l N _ IH]; [reflexivity|]. cbn [distinct]. rewrite IH. apply among_out in N. now rewrite N. Qed.
Lemma numbered_distinct vs : distinct (map fst (numbered 0 vs)) = true.
Proof.
  apply distinct_nodup. rewrite numbered_names. generalize (seq_NoDup (List.length vs) 0). generalize (seq 0 (List.length vs)). intros l N.
  induction N as [|x l NI N IH]; [constructor|]. cbn [map]. constructor; [|exact IH]. intros I. apply in_map_iff in I as (k & E & I). apply NI.
  apply append_cancel in E. unfold show_nat in E. apply show_N_inj in E. apply Nat2N.inj in E. now subst.
Qed.

Lemma case_ok e i : In (NEnum e) ast -> In i (en_items e) -> KotlinSem.decl_ok ks (kotlin_names ast) (case_decl (en_id e) i) = true.
Proof.
  intros I J. destruct (case_parts e i I J) as [F R]. unfold case_fine in F. rewrite !andb_true_iff in F. destruct F as (_ & F). unfold case_ready in R. rewrite !andb_true_iff in R. destruct R as (_ & R).
  assert (S : supers_ok ks [en_id e] = true) by (unfold supers_ok; cbn [forallb]; rewrite (enum_found e I); reflexivity).
  destruct i as [a c|a c vs|a c fs]; cbn [case_decl KotlinSem.decl_ok]; rewrite S; [reflexivity| |]; cbn [map distinct forallb andb]; rewrite !andb_true_r; rewrite ?andb_true_iff in F; rewrite forallb_forall in R.
  - destruct F as (NE & F). rewrite forallb_forall in F. rewrite numbered_distinct, andb_true_r. apply andb_true_iff. split; [destruct vs; [discriminate|reflexivity]|].
    apply forallb_forall. intros p X. assert (Y : In (snd p) (map snd (numbered 0 vs))) by now apply in_map. rewrite numbered_types in Y. apply in_map_iff in Y as (v & <- & V).
    apply known_ok; [apply file_scope|now apply R|now apply F].
  - destruct F as ((NE & D) & F). rewrite forallb_forall in F. rewrite map_map. cbn [fst]. change (map (fun x => sf_name x) fs) with (map sf_name fs). rewrite D, andb_true_r. apply andb_true_iff. split; [destruct fs; [discriminate|reflexivity]|].
    apply forallb_forall. intros p X. apply in_map_iff in X as (f & <- & V). cbn [snd]. specialize (R f V). rewrite !andb_true_iff in R. destruct R as (_ & R). apply known_ok; [apply file_scope|exact R|now apply F].
Qed.

Theorem models_compile : compiles ks = true.
Proof.
  unfold compiles. rewrite names_of, all_types. destruct fine_parts as (_ & D & T & _). rewrite D. cbn [andb]. apply andb_true_iff. split.
  - apply negb_true_iff, among_out. intros I. apply (T _ I). now left.
  - apply forallb_forall. intros d I. unfold ks, models_tree in I. apply in_flat_map in I as (a & I & J). destruct a as [e|s|f|dd|c]; try contradiction.
    + destruct J as [<-|J]; [now apply interface_ok|]. apply in_map_iff in J as (i & <- & J). now apply case_ok.
    + destruct J as [<-|[]]. now apply struct_ok.
Qed.

(** ** What [createDefault] gives *)

Definition outcome (o : option dval) : kres := match o with Some d => KValue (kotlin_of d) | None => KMore end.

Lemma turns {A B} (l : list A) (f : option string * kex -> kty -> kres) (arg : A -> option string * kex) (ty : A -> kty) (h : A -> option B) (v : B -> kval) :
  (forall x, In x l -> f (arg x) (ty x) = match h x with Some y => KValue (v y) | None => KMore end) ->
  in_turn f (map arg l) (map ty l) = match all_some h l with Some ys => inr (map v ys) | None => inl KMore end.
Proof.
  induction l as [|x l IH]; intros H; [reflexivity|]. cbn [map in_turn all_some]. rewrite (H x) by now left. destruct (h x) as [y|]; [|reflexivity].
  fold (@in_turn (option string * kex) kty f). rewrite IH by (intros z Z; apply H; now right). fold (@all_some A B h). destruct (all_some h l); reflexivity.
Qed.
Lemma all_some_length {A B} (h : A -> option B) l ys : all_some h l = Some ys -> List.length ys = List.length l.
Proof. revert ys. induction l as [|x l IH]; intros ys; cbn [all_some]; [now intros [= <-]|]. fold (@all_some A B h). destruct (h x); [|discriminate]. destruct (all_some h l); [|discriminate]. intros [= <-]. cbn. now rewrite (IH _ eq_refl). Qed.

Lemma named_fst value fs ys : named_values value fs = Some ys -> map fst ys = map sf_name fs.
Proof.
  unfold named_values. revert ys. induction fs as [|f fs IH]; intros ys; cbn [all_some]; [now intros [= <-]|]. destruct (value (sf_type f)); [|discriminate].
  match goal with |- match ?x with _ => _ end = _ -> _ => destruct x as [ys0|] eqn:E; [|discriminate] end. intros [= <-]. cbn [map fst]. now rewrite (IH _ eq_refl).
Qed.
Lemma combine_named (fs : list struct_field) (ys : list (string * dval)) (g : string -> string) : map fst ys = map sf_name fs ->
  combine (map (fun f => g (sf_name f)) fs) (map (fun y => kotlin_of (snd y)) ys) = map (fun y => (g (fst y), kotlin_of (snd y))) ys.
Proof.
  revert ys. induction fs as [|f fs IH]; intros [|y ys] E; try discriminate; [reflexivity|]. cbn [map combine] in *. injection E as E1 E2. rewrite E1. f_equal. now apply IH.
Qed.
Lemma combine_places (vs : list tuple_field) : forall (l : list kval) i, List.length l = List.length vs -> combine (map fst (numbered i vs)) l = in_places i l.
Proof. induction vs as [|v vs IH]; intros [|x l] i L; try discriminate; [reflexivity|]. cbn [numbered map fst combine in_places]. f_equal. apply IH. now injection L. Qed.

Lemma class_call fuel sh n m data ps ss b args ts t : kfind n ks = Some (YClass data m ps ss b) -> stands_for ks n t = true -> arg_types ps (map fst args) = Some ts ->
  eval ks (S fuel) sh t (XCall n args) =
  match in_turn (fun a u => eval ks fuel sh u (snd a)) args ts with
  | inr vs => KValue (VNew n (arrange ps (combine (map fst args) vs)))
  | inl r => r
  end.
Proof. intros F S A. cbn [eval]. rewrite F, A, S. reflexivity. Qed.

Lemma struct_call fuel n m data ss b fs value t : kfind n ks = Some (YClass data m (params fs) ss b) -> stands_for ks n t = true -> distinct (map fst (params fs)) = true ->
  (forall f, In f fs -> eval ks fuel (kotlin_names ast) (ktype (sf_type f)) (kdefault (sf_type f)) = outcome (value (sf_type f))) ->
  eval ks (S fuel) (kotlin_names ast) t (XCall n (named_defaults fs)) =
  match named_values value fs with Some ys => KValue (VNew n (map (fun y => (camel (fst y), kotlin_of (snd y))) ys)) | None => KMore end.
Proof.
  intros F S D H. erewrite class_call; [|exact F|exact S|rewrite named_labels; now apply named_types].
  assert (T : in_turn (fun a u => eval ks fuel (kotlin_names ast) u (snd a)) (named_defaults fs) (map snd (params fs)) =
    match named_values value fs with Some ys => inr (map (fun y => kotlin_of (snd y)) ys) | None => inl KMore end).
  { rewrite param_types. unfold named_defaults, named_values. apply turns. intros f I. cbn [snd]. rewrite (H f I). unfold outcome. destruct (value (sf_type f)); reflexivity. }
  rewrite T. destruct (named_values value fs) as [ys|] eqn:E; [|reflexivity]. rewrite named_labels, arrange_named; [|exact D|].
  - rewrite param_names, combine_named; [reflexivity|now apply (named_fst value)].
  - unfold named_values in E. apply all_some_length in E. unfold params. now rewrite !map_length.
Qed.

Lemma method_call k sh t n m : eval ks (S k) sh t (XMeth n m [] []) =
  match static ks n m with
  | Some (KTy a [], e') => if stands_for ks a t then eval ks k sh (KTy a []) e' else KStuck
  | _ => KStuck
  end.
Proof. reflexivity. Qed.

Theorem default_run : forall f t, type_ready t = true -> default_type ds t = true ->
  eval ks (S (2 * f)) (kotlin_names ast) (ktype t) (kdefault t) = outcome (default_value ds f t).
Proof.
  induction f as [|f IH]; intros t R D; pose proof free as L; pose proof D as D0; unfold default_type in D0; apply andb_true_iff in D0 as [K D0].
  all: destruct t as [n size sg|n size|n|n|g l|n]; try discriminate.
  all: try (pose proof (integer_default n size sg _ R L) as E; cbn [kdefault] in *; cbn [eval]; rewrite E; reflexivity).
  all: try (pose proof (number_default n size _ R L) as E; cbn [kdefault] in *; destruct (Nat.eqb size 4); cbn [eval]; rewrite E; reflexivity).
  all: try (cbn [kdefault eval]; rewrite not_found by (cbn; tauto); cbn [ktype literal_of]; rewrite L by (cbn; tauto); reflexivity).
  all: try (destruct l as [|a [|b l]]; cbn [known_type] in K; try discriminate; apply andb_true_iff in K as [G K]; cbn [ktype kdefault default_value]; rewrite G; cbn [eval];
    rewrite not_found by (cbn; tauto); cbn [map empty_list]; rewrite L by (cbn; tauto); reflexivity).
  all: cbn [ktype kdefault]; apply negb_true_iff in D0; rewrite D0; destruct (String.eqb_spec n "String") as [->|NS].
  1,3: cbn [eval literal_of]; rewrite L by (cbn; tauto); cbn [default_value]; destruct (decl_of "String" ds) as [d|] eqn:F; [exfalso; apply (not_taken _ _ F); cbn; tauto|reflexivity].
  all: cbn [known_type] in K; rewrite D0, orb_false_r in K; apply orb_true_iff in K as [K|K]; [apply String.eqb_eq in K; contradiction|].
  all: cbn [default_value]; destruct (decl_of n ds) as [d|] eqn:F; [|discriminate]; destruct (String.eqb_spec n "Vec") as [->|NV]; [exfalso; apply (not_taken _ _ F); cbn; tauto|].
  all: destruct (decl_in n d F) as [<- I]; destruct d as [s|e]; cbn [decl_name] in *.
  - cbn [eval]. rewrite (struct_static s I), stands_self. reflexivity.
  - destruct fine_parts as (_ & _ & _ & _ & E). specialize (E e I). unfold enum_fine in E. apply andb_true_iff in E as [_ E].
    destruct (en_items e) as [|i l] eqn:EI; [discriminate|]. cbn [eval]. rewrite (enum_static e i l I EI), stands_self. reflexivity.
  - replace (S (2 * S f)) with (S (S (S (2 * f)))) by lia. remember (S (2 * f)) as k eqn:EK. rewrite method_call, (struct_static s I), stands_self.
    destruct (struct_parts s I) as [DI P]. rewrite (struct_call k _ (pascal (sn_id s)) _ _ _ (sn_fields s) (default_value ds f) _ (struct_found s I) (stands_self _) DI).
    + destruct (named_values (default_value ds f) (sn_fields s)); reflexivity.
    + intros fl J. destruct (P fl J) as [R' D']. now apply IH.
  - destruct fine_parts as (_ & _ & _ & _ & E). specialize (E e I). unfold enum_fine in E. apply andb_true_iff in E as [_ E].
    destruct (en_items e) as [|i l] eqn:EI; [discriminate|]. replace (S (2 * S f)) with (S (S (S (2 * f)))) by lia. remember (S (2 * f)) as k eqn:EK.
    assert (J : In i (en_items e)) by (rewrite EI; now left). pose proof (case_found e i I J) as CF. pose proof (case_stands e i I J) as CS. pose proof (first_parts e i l I EI) as P.
    rewrite method_call. rewrite (enum_static e i l I EI), stands_self. destruct i as [a c|a c vs|a c fs]; cbn [item_id first_value case_decl] in *.
    + cbn [eval]. rewrite CF, CS. reflexivity.
    + change (map (fun v => (None, kdefault (tf_type v))) vs) with (places vs). erewrite class_call; [|exact CF|exact CS|rewrite place_labels; apply place_types; now rewrite numbered_length].
      assert (T : in_turn (fun x u => eval ks k (kotlin_names ast) u (snd x)) (places vs) (map snd (numbered 0 vs)) =
        match all_some (fun v => default_value ds f (tf_type v)) vs with Some ys => inr (map kotlin_of ys) | None => inl KMore end).
      { rewrite numbered_types. unfold places. apply turns. intros v V. cbn [snd]. destruct (P v V) as [R' D']. exact (IH _ R' D'). }
      rewrite T. destruct (all_some (fun v => default_value ds f (tf_type v)) vs) as [ys|] eqn:ES; [|reflexivity]. apply all_some_length in ES.
      rewrite place_labels, arrange_places; [|now rewrite numbered_length|rewrite map_length, numbered_length; exact ES]. rewrite combine_places by (rewrite map_length; exact ES). reflexivity.
    + destruct P as (EQ & DI & CM & P). rewrite EQ in CF. rewrite (struct_call k _ _ _ _ _ fs (default_value ds f) _ CF CS DI).
      * destruct (named_values (default_value ds f) fs) as [ys|] eqn:ES; [|reflexivity]. cbn [outcome kotlin_of]. f_equal. f_equal. apply named_fst in ES.
        clear -ES CM. revert fs ES CM. induction ys as [|y ys IHy]; intros [|f fs] ES CM; try discriminate; [reflexivity|]. cbn [map] in *. injection ES as E1 E2. injection CM as C1 C2. rewrite E1, C1. f_equal. now apply (IHy fs).
      * intros fl V. destruct (P fl V) as [R' D']. exact (IH _ R' D').
Qed.

Theorem create_default f n : decl_of n ds <> None -> run_default ks (S (2 * f)) n = outcome (default_value ds f (TyOther n)).
Proof.
  intros DC. unfold run_default. rewrite all_types. destruct (decl_of n ds) as [d|] eqn:F; [|contradiction].
  pose proof (not_address n d F) as A. assert (NT := not_taken n d F).
  assert (E : ktype (TyOther n) = KTy n [] /\ kdefault (TyOther n) = XMeth n "createDefault" [] []).
  { cbn [ktype kdefault]. rewrite A. destruct (String.eqb_spec n "String") as [->|_]; [exfalso; apply NT; cbn; tauto|]. destruct (String.eqb_spec n "Vec") as [->|_]; [exfalso; apply NT; cbn; tauto|]. now split. }
  destruct E as [<- <-]. apply default_run.
  - destruct (decl_in n d F) as [<- I]. destruct fine_parts as (R & _). unfold models_ready in R. rewrite forallb_forall in R. specialize (R _ I). cbn [type_ready].
    destruct d as [s|e]; cbn [decl_name]; [unfold struct_ready in R|unfold enum_ready in R]; rewrite !andb_true_iff in R; tauto.
  - unfold default_type. cbn [known_type]. rewrite F, A, orb_true_r. reflexivity.
Qed.
End Models.
