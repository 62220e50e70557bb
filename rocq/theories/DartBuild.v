(** The meaning of the methods that the generated Dart classes of enums have: [createX], [toX], [isX]. *)
Require Import Coq.Strings.String Coq.Strings.Ascii.
Require Import Coq.NArith.NArith Coq.ZArith.ZArith Coq.Lists.List Coq.Bool.Bool Coq.Arith.PeanoNat Coq.micromega.Lia Coq.Sorting.Permutation.
Require Import Verif.Base Verif.Ast Verif.Writer Verif.CaseConv Verif.Code Verif.NumText Verif.RustSem Verif.Wire Verif.RustCodec.
Require Import Verif.DartSyntax Verif.DartGen Verif.DartTree Verif.DartSem Verif.DartWire Verif.DartLexedEnum Verif.DartRun Verif.DartShape Verif.DartCodec.
Import ListNotations.
Local Open Scope string_scope.
Local Open Scope list_scope.

(** ** Specification *)

(** The case of an enum value. *)
Definition case_name (v : val) : string :=
  match v with vcase _ c | vcaset _ c _ | vcases _ c _ => c | _ => "" end.
(** [args] are Dart arguments for the fields of the case [v] of an enum: by position for a tuple, by
    name and in any order for a struct. *)
Definition passed (U : support) (ds : list decl) (P : nat -> Prop) (h : heap) (v : val) (args : dargs) : Prop :=
  match v with
  | vcase _ _ => args = []
  | vcaset e c l => exists ws, args = map (fun w => (None, w)) ws /\
      all2P (fun vw p => rep U ds P h (snd vw) (fst vw) (snd p)) (combine l ws) (items_of ds e c) /\ List.length l = List.length ws
  | vcases e c fs => exists ws, Permutation args (combine (map (fun f => Some (camel (fst f))) fs) ws) /\
      all2P (fun vw p => rep U ds P h (snd vw) (fst vw) (snd p)) (combine (map snd fs) ws) (items_of ds e c) /\ List.length fs = List.length ws
  | _ => False
  end.
(** An object of the class of [e]: it has the fields that the class declares, and for each case the
    object of that case. *)
Definition complete (h : heap) (w : dval) (e : enum_node) : Prop := exists a cfs, w = dref a /\
  nth_error h a = Some (CObj (en_id e) cfs) /\ map fst cfs = "value" :: map (fun i => camel (item_name i)) (en_items e) /\
  forall i, In i (en_items e) ->
    (item_slots i = [] /\ lookup (camel (item_name i)) cfs = Some (dobj (en_id e ++ item_name i) [] [])) \/
    (item_slots i <> [] /\ exists b gfs, lookup (camel (item_name i)) cfs = Some (dref b) /\ b <> a /\
       nth_error h b = Some (CObj (en_id e ++ item_name i)%string gfs) /\ forall x, In x (map fst (item_slots i)) -> exists u, lookup x gfs = Some u).
(** The object [w] and its object for the case [c] are not in [P]. *)
Definition apart (P : nat -> Prop) (h : heap) (w : dval) (c : string) : Prop := forall a n cfs, w = dref a -> nth_error h a = Some (CObj n cfs) ->
  ~ P a /\ forall b, lookup (camel c) cfs = Some (dref b) -> ~ P b.
(** The methods compile: they have different names, and no parameter hides another name they use. *)
Definition creates_ok (e : enum_node) (i : enum_item) : bool :=
  forallb (fun x => absent x (map fst (item_slots i))) ["model"; en_id e; en_id e ++ "Value"]%string.
Definition turns_ok (e : enum_node) (i : enum_item) : bool :=
  forallb (fun x => absent x (map fst (item_slots i))) ["value"; camel (item_name i); en_id e ++ "Value"]%string &&
  absent (camel (item_name i)) ["null"; "true"; "false"].
Definition methods_ok (e : enum_node) : bool :=
  nodupb (map (fun i => pascal (item_name i)) (en_items e)) &&
  absent (en_id e ++ "Value")%string (map (fun i => camel (item_name i)) (en_items e)).

(** ** Lemmas *)

Lemma slot_item_names i : DartTree.item_names i = map fst (item_slots i).
Proof.
  destruct i as [p n|p n ts|p n fs]; cbn [DartTree.item_names item_slots]; [reflexivity| |].
  - unfold tuple_slots. rewrite enumerate_numbered, map_map. apply map_ext. now intros [k f].
  - rewrite map_map. reflexivity.
Qed.

Lemma set_key_keys x v l l' : set_key x v l = Some l' -> map fst l' = map fst l.
Proof.
  revert l'. induction l as [|[y w] l IH]; cbn; [discriminate|]. intros l'. destruct (String.eqb_spec x y) as [->|N].
  - intros [= <-]. reflexivity.
  - destruct (set_key x v l) as [m|]; [|discriminate]. intros [= <-]. cbn. now rewrite (IH m).
Qed.

Lemma bind_pos_named (ps : list dparam) ws : List.length ps = List.length ws ->
  bind_pos ps (map (fun w => (None, w)) ws) = Some (combine (map snd ps) ws).
Proof.
  revert ws. induction ps as [|[t x] ps IH]; intros [|w ws] L; try discriminate L; [reflexivity|].
  cbn [map bind_pos snd combine]. rewrite IH; [reflexivity|]. now injection L.
Qed.
Lemma labelled_in x w (l : dargs) : NoDup (map fst l) -> In (Some x, w) l -> labelled x l = Some w.
Proof.
  induction l as [|[[y|] u] l IH]; intros N I; [destruct I| |]; cbn [map fst] in N; apply NoDup_cons_iff in N as [N M]; cbn [labelled].
  - destruct I as [[= -> ->]|I]; [now rewrite String.eqb_refl|]. destruct (String.eqb_spec x y) as [->|]; [|now apply IH].
    exfalso. apply N. apply in_map_iff. now exists (Some y, w).
  - destruct I as [[=]|I]. now apply IH.
Qed.
Lemma combine_fst {A B} (l : list A) (m : list B) : List.length l = List.length m -> map fst (combine l m) = l.
Proof. revert m. induction l as [|a l IH]; intros [|b m] L; try discriminate L; [reflexivity|]. cbn. f_equal. apply IH. now injection L. Qed.
Lemma bind_named_in (ps : list dparam) ws args : List.length ps = List.length ws ->
  (forall x w, In (x, w) (combine (map snd ps) ws) -> labelled x args = Some w) -> bind_named ps args = Some (combine (map snd ps) ws).
Proof.
  revert ws. induction ps as [|[t x] ps IH]; intros [|w ws] L H; try discriminate L; [reflexivity|].
  cbn [map bind_named snd combine]. rewrite (H x w) by now left. rewrite (IH ws); [reflexivity|now injection L|].
  intros y u I. apply H. now right.
Qed.

Lemma lookup_combine (ns : list string) (ws : list dval) x w : NoDup ns -> List.length ns = List.length ws -> In (x, w) (combine ns ws) ->
  DartSem.lookup x (combine ns ws) = Some w.
Proof. intros N L I. apply lookup_in; [|exact I]. now rewrite combine_fst. Qed.

Section Assign.
Variable D : druntime.
Variable items : list ditem.
Variable K : dcalls.
Variable this : option (dval * string).
Notation eval := (DartSem.ev D items K this).
Notation run := (dchain (fun s e => DartSem.ev_st D items K this s e)).

(** [x.f = e] where x is any name. *)
Lemma set_name_field x f e en s a c fs fs' w : eval (var x) en s = DDone (dref a) s -> eval e en s = DDone w s ->
  nth_error (d_heap s) a = Some (CObj c fs) -> set_key f w fs = Some fs' ->
  DartSem.ev_st D items K this (set_st (DartTree.field (var x) f) e) en s = DDone en (set_heap (set_cell a (CObj c fs') (d_heap s)) s).
Proof.
  intros X V N F. unfold set_st. eapply ev_expr.
  change (eval (DSet (DartTree.field (var x) f) e) en s) with (dbind (eval (var x) en) (fun v => dd w <- eval e en; set_field f v w) s).
  rewrite (dbind_done _ _ s _ s X), (dbind_done _ _ s _ s V). unfold set_field.
  rewrite (dbind_done _ _ s (CObj c fs) s) by (unfold get_cell; now rewrite N). rewrite F. reflexivity.
Qed.
(** [x.g.f = e]. *)
Lemma set_name_field2 x g f e en s a b c c' gs fs fs' w : eval (var x) en s = DDone (dref a) s -> eval e en s = DDone w s ->
  nth_error (d_heap s) a = Some (CObj c' gs) -> DartSem.lookup g gs = Some (dref b) ->
  nth_error (d_heap s) b = Some (CObj c fs) -> set_key f w fs = Some fs' ->
  DartSem.ev_st D items K this (set_st (DartTree.field (DartTree.field (var x) g) f) e) en s = DDone en (set_heap (set_cell b (CObj c fs') (d_heap s)) s).
Proof.
  intros X V A G N F. unfold set_st. eapply ev_expr.
  change (eval (DSet (DartTree.field (DartTree.field (var x) g) f) e) en s) with
    (dbind (eval (var x) en) (fun v => dd v' <- get_field D items K g v; dd w <- eval e en; set_field f v' w) s).
  rewrite (dbind_done _ _ s _ s X). rewrite (dbind_done _ _ s (dref b) s).
  2: { unfold get_field. rewrite (dbind_done _ _ s (CObj c' gs) s) by (unfold get_cell; now rewrite A). rewrite G. reflexivity. }
  rewrite (dbind_done _ _ s _ s V). unfold set_field.
  rewrite (dbind_done _ _ s (CObj c fs) s) by (unfold get_cell; now rewrite N). rewrite F. reflexivity.
Qed.

(** Assigning the parameters to the fields of an object, one after the other. *)
Lemma assign_all (stm : string -> dst) (b : nat) (c : string) en (inv : heap -> Prop) :
  (forall h x, inv h -> inv (set_cell b x h)) ->
  forall ns, (forall s n w gfs gfs', inv (d_heap s) -> nth_error (d_heap s) b = Some (CObj c gfs) -> DartSem.lookup n en = Some w -> In n ns ->
     set_key n w gfs = Some gfs' -> DartSem.ev_st D items K this (stm n) en s = DDone en (set_heap (set_cell b (CObj c gfs') (d_heap s)) s)) ->
  forall ws s gfs rest, NoDup ns -> List.length ns = List.length ws -> inv (d_heap s) -> nth_error (d_heap s) b = Some (CObj c gfs) ->
  (forall x w, In (x, w) (combine ns ws) -> DartSem.lookup x en = Some w) -> (forall x, In x ns -> exists u, DartSem.lookup x gfs = Some u) ->
  exists h' gfs', run (map stm ns ++ rest) en s = run rest en (set_heap h' s) /\ changes (d_heap s) h' [b] /\ List.length h' = List.length (d_heap s) /\
    inv h' /\ nth_error h' b = Some (CObj c gfs') /\ map fst gfs' = map fst gfs /\
    (forall x w, In (x, w) (combine ns ws) -> DartSem.lookup x gfs' = Some w) /\ (forall x, ~ In x ns -> DartSem.lookup x gfs' = DartSem.lookup x gfs).
Proof.
  intros IV. induction ns as [|n ns IH]; intros ST ws s gfs rest ND L I B EN KEY; destruct ws as [|w ws]; try discriminate L.
  - exists (d_heap s), gfs. cbn [map app]. split; [now destruct s|]. split; [apply changes_refl|]. split; [reflexivity|].
    split; [assumption|]. split; [assumption|]. split; [reflexivity|]. split; [intros x w []|reflexivity].
  - apply NoDup_cons_iff in ND as [N1 N2]. destruct (KEY n) as [u U]; [now left|].
    destruct (set_key_some n w gfs u U) as [gfs1 SK]. assert (LB : b < List.length (d_heap s)) by now apply nth_some_lt in B.
    cbn [map app]. rewrite (run_first D items K this _ _ _ _ _ _ (ST s n w gfs gfs1 I B (EN n w (or_introl eq_refl)) (or_introl eq_refl) SK)).
    destruct (IH (fun s n w g g' H1 H2 H3 H4 => ST s n w g g' H1 H2 H3 (or_intror H4)) ws (set_heap (set_cell b (CObj c gfs1) (d_heap s)) s) gfs1 rest)
      as (h' & gfs' & E & C & LE & I' & B' & KS & A & O).
    + assumption.
    + now injection L.
    + now apply IV.
    + cbn [d_heap set_heap]. now apply set_cell_same.
    + intros x v J. apply EN. now right.
    + intros x J. destruct (String.eqb_spec n x) as [->|NE]; [contradiction|]. rewrite (lookup_set_other _ _ _ _ _ NE SK). apply KEY. now right.
    + exists h', gfs'. cbn [d_heap set_heap] in *. rewrite set_cell_length in LE. split; [exact E|]. split; [eapply changes_trans; [apply changes_set|exact C]|].
      split; [exact LE|]. split; [exact I'|]. split; [exact B'|]. split; [now rewrite KS, (set_key_keys _ _ _ _ SK)|]. split.
      * intros x v [[= <- <-]|J]; [|now apply A]. rewrite (O n N1). eapply lookup_set_same, SK.
      * intros x J. rewrite O; [|intros Q; apply J; now right]. eapply lookup_set_other; [|exact SK]. intros ->. apply J. now left.
Qed.
End Assign.

Section Build.
Variable D : druntime.
Variable U : support.
Variable items : list ditem.
Variable ds : list decl.
Variable cd : nat.
Hypothesis file : forall d i, In d ds -> In i (decl_items d) -> In i items.
Hypothesis names : NoDup (top_names items).
Hypothesis libs : forall n, In n lib_names -> ~ In n (top_names items).
Hypothesis okd : forallb dart_decl_ok ds = true.
Notation classes := (top_names items).
Notation KK n := (dcalls_upto D items n).
Notation dtyped := (dtyped U ds classes cd).
Notation rep := (rep U ds).
Notation shaped := (shaped ds classes).

(** The members of the class. *)
Lemma members e f :
  (forall i, In i (en_items e) -> NoDup (map (fun i => pascal (item_name i)) (en_items e)) ->
    find_meth false ("to" ++ pascal (item_name i)) (enum_members e f) =
      match to_method (en_id e) i with MMeth _ _ _ ps b => Some (ps, b) | _ => None end /\
    find_meth false ("is" ++ pascal (item_name i)) (enum_members e f) =
      match is_method (en_id e) i with MMeth _ _ _ ps b => Some (ps, b) | _ => None end /\
    find_meth true ("create" ++ pascal (item_name i)) (enum_members e f) =
      match create_method (en_id e) i with MMeth _ _ _ ps b => Some (ps, b) | _ => None end) /\
  (forall x, find_static x (enum_members e f) = None).
Proof.
  split.
  - intros i I ND. unfold enum_members.
    assert (FLD : forall st x l m, find_meth st x (map (fun i => MField (ty0 (en_id e ++ item_id i)) (camel (item_id i)) (Some (item_default (en_id e) i))) l ++ m) = find_meth st x m)
      by (intros st x; induction l as [|j l IH]; intros m; [reflexivity|apply IH]).
    assert (NO : forall st x (g : enum_item -> dmember) l m, (forall j, match g j with MMeth s _ y _ _ => (Bool.eqb s st && String.eqb y x)%bool = false | _ => True end) ->
      find_meth st x (map g l ++ m) = find_meth st x m).
    { intros st x g l m G. induction l as [|j l IH]; [reflexivity|]. cbn [map app find_meth]. specialize (G j). destruct (g j); try exact IH. now rewrite G. }
    assert (YES : forall st pre (g : enum_item -> dmember), (forall j, match g j with MMeth s _ y _ _ => s = st /\ y = (pre ++ pascal (item_name j))%string | _ => False end) ->
      forall l m, In i l -> NoDup (map (fun i => pascal (item_name i)) l) ->
      find_meth st (pre ++ pascal (item_name i)) (map g l ++ m) = match g i with MMeth _ _ _ ps b => Some (ps, b) | _ => None end).
    { intros st pre g G. induction l as [|j l IH]; intros m J N; [destruct J|]. cbn [map] in N. apply NoDup_cons_iff in N as [N1 N2].
      cbn [map app find_meth]. pose proof (G j) as Gj. pose proof (G i) as Gi. destruct (g j) eqn:Ej; try contradiction Gj. destruct Gj as [-> ->]. rewrite Bool.eqb_reflx. cbn [andb].
      destruct (String.eqb_spec (pre ++ pascal (item_name j)) (pre ++ pascal (item_name i))) as [Q|Q].
      - destruct J as [->|J]; [now rewrite Ej|]. exfalso. apply N1.
        assert (Q' : pascal (item_name j) = pascal (item_name i)).
        { clear - Q. induction pre as [|c pre IH]; [exact Q|]. change (String c (pre ++ pascal (item_name j)) = String c (pre ++ pascal (item_name i)))%string in Q. injection Q as Q. now apply IH. }
        rewrite Q'. now apply (in_map (fun i => pascal (item_name i))).
      - destruct J as [->|J]; [contradiction|]. now apply IH. }
    cbn [find_meth]. rewrite !FLD. split; [|split].
    + apply YES; try assumption. intros j. split; [reflexivity|now rewrite item_id_name].
    + rewrite NO. { apply YES; try assumption. intros j. split; [reflexivity|now rewrite item_id_name]. }
      intros j. reflexivity.
    + rewrite NO by (intros j; reflexivity). rewrite NO by (intros j; reflexivity). rewrite <- (app_nil_r (map (create_method (en_id e)) (en_items e))).
      apply YES; try assumption. intros j. split; [reflexivity|now rewrite item_id_name].
  - intros x. unfold enum_members. cbn [find_static].
    assert (G : forall (g : enum_item -> dmember) l m, (forall j, match g j with MStatic _ _ => False | _ => True end) -> find_static x (map g l ++ m) = find_static x m).
    { intros g l m H. induction l as [|j l IH]; [reflexivity|]. cbn [map app find_static]. specialize (H j). destruct (g j); try exact IH. contradiction. }
    rewrite !G; try (intros j; exact Logic.I). rewrite <- (app_nil_r (map (create_method (en_id e)) (en_items e))), G; [reflexivity|]. intros j. exact Logic.I.
Qed.

(** The environment of the arguments. *)
Lemma passed_env v e i vs P h args : enum_value v (en_id e) i vs -> decl_of (en_id e) ds = Some (Wire.DEnum e) -> item_of (item_name i) e = Some i ->
  Forall2 (fun v p => dtyped v (snd p) = true) vs (item_slots i) -> NoDup (map fst (item_slots i)) ->
  (match v with vcases _ _ fs => match i with ItemStruct _ _ gs => Forall2 (fun f g => fst f = sf_name g) fs gs | _ => False end | _ => True end) ->
  passed U ds P h v args -> exists ws, bind_params (item_params i) args = Some (combine (map fst (item_slots i)) ws) /\
    List.length (map fst (item_slots i)) = List.length ws /\
    all2P (fun vw p => rep P h (snd vw) (fst vw) (snd p)) (combine vs ws) (item_slots i) /\ List.length vs = List.length ws.
Proof.
  intros V E IO T ND FN PS. pose proof (enum_items_of ds _ e i E IO) as SL. apply Forall2_len in T.
  destruct v as [| | | |e' c|e' c l|e' c fs| | | | | | | | | | | | | | | | | | |]; try contradiction V; destruct i as [p n|p n ts|p n gs]; try contradiction V;
    destruct V as (-> & -> & ->); cbn [passed item_name] in *.
  - subst args. exists []. repeat split.
  - destruct PS as (ws & -> & R & L). rewrite SL in R. exists ws.
    assert (LN : List.length (map fst (item_slots (ItemTuple p n ts))) = List.length ws) by (rewrite map_length, <- T; exact L).
    split; [|auto]. cbn [item_params]. unfold tuple_params, bind_params.
    assert (SN : map snd (map (fun iv => (Some (dty_of (tf_type (snd iv))), v_name (fst iv))) (enumerate ts)) = map fst (item_slots (ItemTuple p n ts))).
    { rewrite <- slot_item_names. cbn [DartTree.item_names]. now rewrite map_map. }
    rewrite bind_pos_named; [now rewrite SN|]. etransitivity; [symmetry; apply (map_length snd)|]. rewrite SN. exact LN.
  - destruct PS as (ws & PE & R & L). rewrite SL in R. exists ws. rewrite map_length in T.
    assert (LN : List.length (map fst (item_slots (ItemStruct p n gs))) = List.length ws) by (rewrite map_length, <- T; exact L).
    split; [|split; [exact LN|split; [exact R|rewrite map_length; exact L]]]. cbn [item_params]. unfold struct_params, bind_params.
    assert (SN : map snd (map (fun f => (Some (dty_of (sf_type f)), fname f)) gs) = map fst (item_slots (ItemStruct p n gs))).
    { rewrite <- slot_item_names. cbn [DartTree.item_names]. now rewrite map_map. }
    assert (LB : map (fun f : string * val => Some (camel (fst f))) fs = map Some (map fst (item_slots (ItemStruct p n gs)))).
    { cbn [item_slots]. rewrite !map_map. clear - FN. induction FN as [|f g fs gs Q F IH]; [reflexivity|]. cbn [map]. rewrite IH. unfold field_slot. cbn [fst]. now rewrite Q. }
    assert (LA : List.length (map (fun f => (Some (dty_of (sf_type f)), fname f)) gs) = List.length args).
    { rewrite (Permutation_length PE), combine_length, !map_length, L, Nat.min_id, <- LN, <- SN, !map_length. reflexivity. }
    match goal with |- (if ?b then _ else _) = _ => replace b with true by (symmetry; apply Nat.eqb_eq; exact LA) end.
    rewrite (bind_named_in _ ws); [do 2 f_equal; exact SN| |].
    + etransitivity; [symmetry; apply (map_length snd)|]. rewrite SN. exact LN.
    + intros x w I. apply labelled_in.
      * eapply Permutation_NoDup; [apply Permutation_map, Permutation_sym, PE|]. rewrite combine_fst by (rewrite map_length; exact L).
        rewrite LB. apply FinFun.Injective_map_NoDup; [intros ? ? [=]; assumption|exact ND].
      * eapply Permutation_in; [apply Permutation_sym, PE|]. rewrite LB. change (In (x, w) (combine (map snd (map (fun f => (Some (dty_of (sf_type f)), fname f)) gs)) ws)) in I. rewrite SN in I. revert I. clear.
        generalize (map fst (item_slots (ItemStruct p n gs))) as ns. intros ns. revert ws. induction ns as [|y ns IH]; intros [|u ws]; cbn; try tauto.
        intros [[= -> ->]|I]; [now left|]. right. now apply IH.
Qed.
Lemma struct_names v m e i vs : dtyped v (TyOther m) = true -> decl_of m ds = Some (Wire.DEnum e) -> item_of (item_name i) e = Some i -> enum_value v m i vs ->
  match v with vcases _ _ fs => match i with ItemStruct _ _ gs => Forall2 (fun f g => fst f = sf_name g) fs gs | _ => False end | _ => True end.
Proof.
  intros T E IO V.
  destruct v as [| | | |e' c|e' c l|e' c fs| | | | | | | | | | | | | | | | | | |]; try exact Logic.I.
  destruct i as [p n|p n ts|p n gs]; try contradiction V. destruct V as (-> & -> & _). cbn [item_name] in IO.
  cbn [DartWire.dtyped] in T. rewrite E, IO, !andb_true_iff in T. destruct T as [_ T]. apply all2_Forall2 in T.
  clear - T. induction T as [|[x v] g fs gs H F IH]; constructor; [|exact IH]. apply andb_true_iff in H as [H _]. now apply String.eqb_eq.
Qed.

(** A list of represented values as the fields of an object. *)
Lemma fields_rep (P : nat -> Prop) h vs ws (ss : list slot) gfs : all2P (fun vw p => rep P h (snd vw) (fst vw) (snd p)) (combine vs ws) ss ->
  List.length vs = List.length ws -> (forall x w, In (x, w) (combine (map fst ss) ws) -> DartSem.lookup x gfs = Some w) ->
  all2P (fun v p => exists y, DartSem.lookup (fst p) gfs = Some y /\ rep P h y v (snd p)) vs ss.
Proof.
  revert ws ss. induction vs as [|v vs IH]; intros [|w ws] [|[x t] ss]; cbn; try easy. intros [R A] L H. split.
  - exists w. split; [apply H; now left|exact R].
  - apply (IH ws); [exact A|now injection L|]. intros y u I. apply H. now right.
Qed.

Lemma slots_keys h gfs (ss : list slot) fp : shaped_slots ds classes h gfs ss fp -> forall x, In x (map fst ss) -> exists u, DartSem.lookup x gfs = Some u.
Proof.
  intros SP. induction SP as [cfs|cfs n t l w fp fp' L W R IH]; intros x I; [destruct I|]. destruct I as [<-|I]; [exists w; exact L|now apply IH].
Qed.

(** *** isX *)

Lemma this_value (th : option (dval * string)) e f a cfs K en s i : decl_of (en_id e) ds = Some (Wire.DEnum e) -> en_items e = f -> In i f ->
  th = Some (dref a, en_id e) -> nth_error (d_heap s) a = Some (CObj (en_id e) cfs) -> DartSem.lookup (en_id e ++ "Value") cfs = None ->
  DartSem.lookup (en_id e ++ "Value") en = None ->
  DartSem.ev D items K th (value_of (en_id e) (item_name i)) en s = DDone (dmem (en_id e ++ "Value") (camel (item_name i))) s.
Proof.
  intros E F I -> A L LE. destruct f as [|g l]; [destruct I|].
  destruct (enum_models items ds file names (en_id e) e g l E F) as (X & _ & Y & Z & _).
  destruct (enum_conditions ds okd (en_id e) e E) as (_ & _ & AV & _).
  unfold value_of.
  change (DartSem.ev D items K (Some (dref a, en_id e)) (DartTree.field (var (en_id e ++ "Value")) (camel (item_name i))) en s) with
    (dbind (DartSem.name_value items K (Some (dref a, en_id e)) (en_id e ++ "Value") en) (fun o => match o with
       | Some v => dd v <- get_field D items K (camel (item_name i)) v; dret v
       | None => (dd v <- static_field items (en_id e ++ "Value") (camel (item_name i)); dret v) end) s).
  rewrite (dbind_done _ _ s None s).
  - rewrite dbind_ret. unfold static_field. rewrite Y.
    replace (existsb (String.eqb (camel (item_name i))) (map (fun i => camel (item_name i)) (en_items e))) with true; [reflexivity|].
    symmetry. apply existsb_exists. exists (camel (item_name i)). split; [|apply String.eqb_refl]. rewrite F. now apply (in_map (fun i => camel (item_name i))).
  - unfold DartSem.name_value. rewrite LE.
    assert (Q : String.eqb (en_id e ++ "Value") "null" = false /\ String.eqb (en_id e ++ "Value") "true" = false /\ String.eqb (en_id e ++ "Value") "false" = false).
    { apply absent_not_in in AV. repeat split; apply String.eqb_neq; intros H; apply AV; rewrite H; cbn; tauto. }
    destruct Q as (-> & -> & ->). cbv zeta.
    rewrite (dbind_done _ _ s (CObj (en_id e) cfs) s) by (unfold get_cell; now rewrite A). rewrite L.
    unfold own_members. rewrite X. rewrite (proj2 (members e g)). rewrite Z. reflexivity.
Qed.
Lemma this_field x a c cfs K en s u : DartSem.lookup x en = None -> absent x ["null"; "true"; "false"] = true ->
  nth_error (d_heap s) a = Some (CObj c cfs) -> DartSem.lookup x cfs = Some u -> u <> dlate ->
  DartSem.ev D items K (Some (dref a, c)) (var x) en s = DDone u s.
Proof.
  intros L AB A F NL. cbn [DartSem.ev var]. rewrite (dbind_done _ _ s (Some u) s); [reflexivity|].
  unfold DartSem.name_value. rewrite L.
  assert (Q : String.eqb x "null" = false /\ String.eqb x "true" = false /\ String.eqb x "false" = false).
  { apply absent_not_in in AB. repeat split; apply String.eqb_neq; intros ->; apply AB; cbn; tauto. }
  destruct Q as (-> & -> & ->). cbv zeta. rewrite (dbind_done _ _ s (CObj c cfs) s) by (unfold get_cell; now rewrite A).
  rewrite F. destruct u; try reflexivity. congruence.
Qed.

(** The fields of an instance. *)
Lemma instance_value e cfs : methods_ok e = true -> map fst cfs = "value" :: map (fun i => camel (item_name i)) (en_items e) ->
  absent (en_id e ++ "Value") local_names = true -> DartSem.lookup (en_id e ++ "Value") cfs = None.
Proof.
  intros M K A. apply lookup_none. rewrite K. intros [Q|I].
  - apply absent_not_in in A. apply A. rewrite <- Q. cbn. tauto.
  - unfold methods_ok in M. apply andb_true_iff in M as [_ M]. apply absent_not_in in M. contradiction.
Qed.

Lemma is_case fuel e i v P w s : decl_of (en_id e) ds = Some (Wire.DEnum e) -> In i (en_items e) -> methods_ok e = true ->
  dtyped v (TyOther (en_id e)) = true -> rep P (d_heap s) w v (TyOther (en_id e)) -> complete (d_heap s) w e -> 1 <= fuel ->
  method D items (KK fuel) w ("is" ++ pascal (item_name i)) [] s = DDone (dbool (String.eqb (case_name v) (item_name i))) s.
Proof.
  intros E I M T R (a & cfs & -> & A & KS & _) FU. destruct fuel as [|n]; [lia|].
  destruct (enum_conditions ds okd (en_id e) e E) as (_ & _ & AV & _ & NN & _).
  pose proof (instance_value e cfs M KS AV) as LV.
  destruct (enum_case U items ds cd v (en_id e) e T E) as (j & vs & IO & V & CR & _ & _).
  apply find_item_in in IO as IO'. destruct IO' as [J _].
  assert (CN : case_name v = item_name j).
  { destruct v; try contradiction V; destruct j; try contradiction V; now destruct V as (_ & -> & _). }
  assert (HD : has_default j).
  { destruct (creatable_enum items ds cd (en_id e) e E CR) as (cd' & _ & _ & C2). rewrite forallb_forall in C2. specialize (C2 j J). apply andb_true_iff in C2 as [_ H].
    destruct j as [?|? ? [|]|? ? [|]]; try exact Logic.I; try discriminate H; cbn; discriminate. }
  apply (enum_rep U ds v (en_id e) e j vs P (d_heap s) (dref a) V E IO HD) in R as (a' & cfs' & Q & _ & A' & LU & _).
  injection Q as <-. rewrite A in A'. injection A' as <-.
  destruct (en_items e) as [|f l] eqn:F; [destruct I|].
  destruct (enum_models items ds file names (en_id e) e f l E F) as (X & _).
  unfold method. rewrite (dbind_done _ _ s (CObj (en_id e) cfs) s) by (unfold get_cell; now rewrite A).
  cbn [dcalls_upto k_invoke]. unfold invoke_with. rewrite X.
  assert (ND : NoDup (map (fun i => pascal (item_name i)) (en_items e))).
  { unfold methods_ok in M. apply andb_true_iff in M as [M _]. now apply nodupb_NoDup. }
  rewrite <- F in *. destruct (proj1 (members e f) i I ND) as (_ & -> & _). cbn [is_method bind_params bind_pos ev_body].
  rewrite item_id_name. cbn [DartSem.ev].
  change (dbind (DartSem.ev D items (KK n) (Some (dref a, en_id e)) (var "value") []) (fun x =>
            dbind (DartSem.ev D items (KK n) (Some (dref a, en_id e)) (value_of (en_id e) (item_name i)) []) (fun y =>
            dbind (dof (dequal x y)) (fun r => dret (dbool (if false then negb r else r))))) s = DDone (dbool (String.eqb (case_name v) (item_name i))) s).
  rewrite (dbind_done _ _ s (dmem (en_id e ++ "Value") (camel (item_name j))) s) by (eapply this_field; [reflexivity|reflexivity|exact A|exact LU|discriminate]).
  rewrite (dbind_done _ _ s (dmem (en_id e ++ "Value") (camel (item_name i))) s) by (eapply this_value; [exact E|reflexivity|exact I|reflexivity|exact A|exact LV|reflexivity]).
  cbn [dequal]. rewrite String.eqb_refl. cbn [dof]. rewrite dbind_ret_l. unfold dret. f_equal. f_equal. rewrite CN.
  destruct (String.eqb_spec (camel (item_name j)) (camel (item_name i))) as [Q|Q], (String.eqb_spec (item_name j) (item_name i)) as [Q'|Q']; try reflexivity; [|congruence].
  exfalso. apply Q'. apply NoDup_cons_iff in NN as [_ NN]. clear - NN Q I J. revert NN I J. generalize (en_items e) as l.
  induction l as [|k l IH]; intros NN I J; [destruct I|]. cbn [map] in NN. apply NoDup_cons_iff in NN as [N1 N2].
  destruct I as [->|I], J as [->|J]; auto.
  - exfalso. apply N1. rewrite <- Q. now apply (in_map (fun i => camel (item_name i))).
  - exfalso. apply N1. rewrite Q. now apply (in_map (fun i => camel (item_name i))).
Qed.

(** *** E() *)

Lemma new_keys K m e f l s w s' : decl_of m ds = Some (Wire.DEnum e) -> en_items e = f :: l -> new_with D items K m [] s = DDone w s' ->
  exists a cfs, w = dref a /\ nth_error (d_heap s') a = Some (CObj m cfs) /\ map fst cfs = "value" :: map (fun i => camel (item_name i)) (en_items e).
Proof.
  intros E Q. destruct (enum_models items ds file names m e f l E Q) as (X & _). unfold new_with. rewrite X, enum_find_ctor.
  remember (instance_fields (enum_members e f)) as fs eqn:QF.
  unfold dbind. destruct (initialisers D items K fs s) as [inits s1| | | | |]; try discriminate.
  unfold alloc. intros [= <- <-]. cbn [d_heap set_heap]. do 2 eexists. split; [reflexivity|]. split; [apply nth_app_new|].
  subst fs. unfold field_values. rewrite enum_instance_fields, !map_map. cbn [map fst]. f_equal. rewrite map_map. reflexivity.
Qed.
Lemma shaped_complete h a e cfs fp : decl_of (en_id e) ds = Some (Wire.DEnum e) -> shaped h (dref a) (TyOther (en_id e)) fp -> NoDup fp ->
  nth_error h a = Some (CObj (en_id e) cfs) -> map fst cfs = "value" :: map (fun i => camel (item_name i)) (en_items e) -> complete h (dref a) e.
Proof.
  intros E SP ND A KS. destruct (enum_shape items ds okd _ _ _ _ _ E SP) as (a' & cfs' & v & fp' & Q & -> & A' & _ & SI).
  injection Q as <-. rewrite A in A'. injection A' as <-. exists a, cfs. split; [reflexivity|]. split; [exact A|]. split; [exact KS|].
  intros i I. destruct (items_select items ds _ _ _ _ _ _ SI I) as [H|(NZ & b & gfs & fpi & L & B & SS & IN & _)]; [now left|].
  right. split; [exact NZ|]. exists b, gfs. split; [exact L|]. split; [|split; [exact B|eapply slots_keys, SS]].
  intros ->. apply NoDup_cons_iff in ND as [N _]. apply N, IN. now left.
Qed.
Lemma new_complete n e s : decl_of (en_id e) ds = Some (Wire.DEnum e) -> creatable ds classes cd (TyOther (en_id e)) = true -> 3 * cd <= n + 2 ->
  exists a h', new_with D items (KK (S n)) (en_id e) [] s = DDone (dref a) (set_heap h' s) /\ changes (d_heap s) h' [] /\ complete h' (dref a) e /\
    fresh (d_heap s) h' a /\ (forall cfs i b, nth_error h' a = Some (CObj (en_id e) cfs) -> In i (en_items e) ->
      DartSem.lookup (camel (item_name i)) cfs = Some (dref b) -> fresh (d_heap s) h' b).
Proof.
  intros E C LN. destruct (creatable_enum items ds cd (en_id e) e E C) as (cd' & CD & C1 & C2).
  assert (NE : en_items e <> []) by (intros H; rewrite H in C1; discriminate).
  assert (G : Forall (fun i => Forall (fun p => made D (mk_support (fun _ _ => true) (fun _ => true) (fun _ => true) (fun z => z)) items ds n (snd p)) (item_slots i) /\ match i with ItemEmpty _ _ => True | _ => item_slots i <> [] end) (en_items e)).
  { rewrite Forall_forall. intros j J. rewrite forallb_forall in C2. specialize (C2 j J). apply andb_true_iff in C2 as [C2 C3]. split.
    - rewrite Forall_forall. intros p Q. rewrite forallb_forall in C2. apply (creatable_made D (mk_support (fun _ _ => true) (fun _ => true) (fun _ => true) (fun z => z)) items ds file names libs okd cd'); [now apply C2|]. clear - LN CD. lia.
    - destruct j as [?|? ? [|]|? ? [|]]; try exact Logic.I; try discriminate C3; cbn; discriminate. }
  destruct (new_enum D (mk_support (fun _ _ => true) (fun _ => true) (fun _ => true) (fun z => z)) items ds file names okd n (en_id e) e E NE G s) as (a & h1 & fp & E1 & N1 & S1 & _).
  destruct (en_items e) as [|f l] eqn:Q; [congruence|]. rewrite <- Q in *.
  destruct (new_keys _ _ _ _ _ _ _ _ E Q E1) as (a' & cfs & QA & A & KS). injection QA as <-. cbn [d_heap set_heap] in A.
  exists a, h1. split; [exact E1|]. destruct N1 as (CH & ND & FR). split; [exact CH|]. split; [eapply shaped_complete; eassumption|].
  destruct (enum_shape items ds okd _ _ _ _ _ E S1) as (a' & cfs' & v & fp' & QB & -> & A' & _ & SI). injection QB as <-. rewrite A in A'. injection A' as <-.
  split; [apply FR; now left|]. intros cfs' i b A' I L. rewrite A in A'. injection A' as <-.
  destruct (items_select items ds _ _ _ _ _ _ SI I) as [[_ H]|(_ & b' & gfs & fpi & L' & _ & _ & IN & _)]; [congruence|].
  assert (b' = b) by congruence. subst. apply FR. right. apply IN. now left.
Qed.

(** *** Filling in a case: what createX and toX have in common *)

Lemma item_unique e i j : NoDup (map (fun i => camel (item_name i)) (en_items e)) -> In i (en_items e) -> In j (en_items e) -> item_name i = item_name j -> i = j.
Proof.
  generalize (en_items e) as l. induction l as [|k l IH]; intros NN I J Q; [destruct I|]. cbn [map] in NN. apply NoDup_cons_iff in NN as [N1 N2].
  destruct I as [->|I], J as [->|J]; auto.
  - exfalso. apply N1. rewrite Q. now apply (in_map (fun i => camel (item_name i))).
  - exfalso. apply N1. rewrite <- Q. now apply (in_map (fun i => camel (item_name i))).
Qed.
Lemma app_inj_l (a b c : string) : (a ++ b = a ++ c)%string -> b = c.
Proof. induction a as [|x a IH]; [auto|]. intros Q. change (String x (a ++ b) = String x (a ++ c))%string in Q. injection Q as Q. auto. Qed.

(** The object [a] gets the value [i], then its part the fields. *)
Lemma complete_filled h e a cfs cfs1 i b gfs gfs' h2 : complete h (dref a) e -> decl_of (en_id e) ds = Some (Wire.DEnum e) -> In i (en_items e) ->
  nth_error h a = Some (CObj (en_id e) cfs) -> nth_error h2 a = Some (CObj (en_id e) cfs1) -> map fst cfs1 = map fst cfs ->
  (forall x, x <> "value" -> DartSem.lookup x cfs1 = DartSem.lookup x cfs) ->
  nth_error h b = Some (CObj (en_id e ++ item_name i)%string gfs) -> nth_error h2 b = Some (CObj (en_id e ++ item_name i)%string gfs') -> map fst gfs' = map fst gfs ->
  (forall c, c < List.length h -> c <> a -> c <> b -> nth_error h2 c = nth_error h c) -> complete h2 (dref a) e.
Proof.
  intros (a0 & cfs0 & Q & A0 & KS & H) E I A A2 K1 O1 B B2 K2 SAME. injection Q as <-. rewrite A in A0. injection A0 as <-.
  destruct (enum_conditions ds okd (en_id e) e E) as (_ & _ & _ & _ & NN & _). apply NoDup_cons_iff in NN as [NV NN].
  exists a, cfs1. split; [reflexivity|]. split; [exact A2|]. split; [now rewrite K1|]. intros j J.
  assert (NJ : camel (item_name j) <> "value") by (intros Q; apply NV; rewrite <- Q; now apply (in_map (fun i => camel (item_name i)))).
  rewrite (O1 _ NJ). destruct (H j J) as [X|(NZ & c & hfs & L & NA & C & X)]; [now left|]. right. split; [exact NZ|].
  destruct (Nat.eq_dec c b) as [->|NB].
  - exists b, gfs'. split; [exact L|]. split; [exact NA|]. rewrite C in B. injection B as Q ->.
    assert (j = i) by (eapply item_unique; try eassumption; eapply app_inj_l, Q). subst j. split; [exact B2|]. intros x P.
    destruct (X x P) as [u LU].
    assert (G : forall (l l' : list (string * dval)), map fst l' = map fst l -> forall u, DartSem.lookup x l = Some u -> exists u', DartSem.lookup x l' = Some u').
    { clear. induction l as [|[y v] l IH]; intros [|[y' v'] l'] Q u; cbn in *; try discriminate. injection Q as -> Q. destruct (String.eqb x y); [eauto|]. now apply IH. }
    now apply (G gfs gfs' K2 u).
  - exists c, hfs. split; [exact L|]. split; [exact NA|]. split; [|exact X]. rewrite SAME; auto. now apply nth_some_lt in C.
Qed.

(** The outcome for a case without fields and for a case with fields, given that the statements run. *)
Lemma fill_run K th e i v vs ws en s a cfs (stm : string -> dst) rest P (V : enum_value v (en_id e) i vs) :
  decl_of (en_id e) ds = Some (Wire.DEnum e) -> item_of (item_name i) e = Some i -> has_default i ->
  nth_error (d_heap s) a = Some (CObj (en_id e) cfs) -> complete (d_heap s) (dref a) e ->
  DartSem.lookup "value" cfs = Some (dmem (en_id e ++ "Value") (camel (item_name i))) ->
  NoDup (map fst (item_slots i)) -> List.length (map fst (item_slots i)) = List.length ws -> List.length vs = List.length ws ->
  (forall x w, In (x, w) (combine (map fst (item_slots i)) ws) -> DartSem.lookup x en = Some w) ->
  all2P (fun vw p => rep P (d_heap s) (snd vw) (fst vw) (snd p)) (combine vs ws) (item_slots i) ->
  (forall b, DartSem.lookup (camel (item_name i)) cfs = Some (dref b) -> ~ P b) ->
  (forall b s n w gfs gfs', DartSem.lookup (camel (item_name i)) cfs = Some (dref b) -> nth_error (d_heap s) a = Some (CObj (en_id e) cfs) ->
    nth_error (d_heap s) b = Some (CObj (en_id e ++ item_name i)%string gfs) ->
    DartSem.lookup n en = Some w -> In n (map fst (item_slots i)) -> set_key n w gfs = Some gfs' ->
    DartSem.ev_st D items K th (stm n) en s = DDone en (set_heap (set_cell b (CObj (en_id e ++ item_name i)%string gfs') (d_heap s)) s)) ->
  exists h', dchain (fun s e => DartSem.ev_st D items K th s e) (map stm (map fst (item_slots i)) ++ rest) en s =
      dchain (fun s e => DartSem.ev_st D items K th s e) rest en (set_heap h' s) /\
    List.length h' = List.length (d_heap s) /\ complete h' (dref a) e /\ nth_error h' a = Some (CObj (en_id e) cfs) /\
    (forall c, c < List.length (d_heap s) -> DartSem.lookup (camel (item_name i)) cfs <> Some (dref c) -> nth_error h' c = nth_error (d_heap s) c) /\
    rep (fun x => P x \/ x = a \/ DartSem.lookup (camel (item_name i)) cfs = Some (dref x)) h' (dref a) v (TyOther (en_id e)).
Proof.
  intros E IO HD A CO LV ND LN LVS EN R AP ST. apply find_item_in in IO as IO'. destruct IO' as [I _].
  pose proof CO as (a0 & cfs0 & Q & A0 & KS & H). injection Q as <-. rewrite A in A0. injection A0 as <-.
  destruct (H i I) as [[Z LU]|(NZ & b & gfs & LU & NA & B & KEY)].
  - exists (d_heap s). rewrite Z in *. cbn [map app]. split; [now destruct s|]. split; [reflexivity|]. split; [exact CO|]. split; [exact A|].
    split; [reflexivity|]. apply (enum_rep U ds v (en_id e) e i vs _ _ _ V E IO HD). exists a, cfs. split; [reflexivity|]. split; [auto|].
    split; [exact A|]. split; [exact LV|]. eexists. split; [exact LU|]. left. auto.
  - destruct (assign_all D items K th stm b (en_id e ++ item_name i)%string en (fun h => nth_error h a = Some (CObj (en_id e) cfs)))
      with (ns := map fst (item_slots i)) (ws := ws) (s := s) (gfs := gfs) (rest := rest)
      as (h' & gfs' & RUN & CH & LE & A' & B' & KS' & AS & _); try assumption.
    { intros h x Q. rewrite set_cell_other; auto. }
    { intros s' n w g g' Q1 Q2 Q3 Q4 Q5. eapply ST; eassumption. }
    assert (OUT : forall c, c < List.length (d_heap s) -> c <> b -> nth_error h' c = nth_error (d_heap s) c).
    { intros c L N. apply CH; [exact L|]. intros [Q|[]]. congruence. }
    exists h'. split; [exact RUN|]. split; [exact LE|]. split.
    { eapply complete_filled with (h := d_heap s) (b := b); try eassumption; try reflexivity. intros c L _ N. now apply OUT. }
    split; [exact A'|]. split.
    { intros c L N. apply OUT; [exact L|]. intros ->. contradiction. }
    apply (enum_rep U ds v (en_id e) e i vs _ _ _ V E IO HD). exists a, cfs. split; [reflexivity|]. split; [auto|].
    split; [exact A'|]. split; [exact LV|]. exists (dref b). split; [exact LU|]. right. split; [exact NZ|]. exists b, gfs'. split; [reflexivity|].
    split; [auto|]. split; [exact B'|]. apply (fields_rep _ _ _ ws); [|exact LVS|exact AS].
    eapply all2P_imp; [|exact R]. intros vw p _ X. eapply rep_frame; [|exact X]. intros c PC. split; [auto|].
    destruct (Nat.lt_ge_cases c (List.length (d_heap s))) as [L|L].
    + apply OUT; [exact L|]. intros ->. now apply (AP b LU).
    + rewrite !(proj2 (nth_error_None _ _)); [reflexivity|exact L|now rewrite LE].
Qed.

(** A value of the enum, its case and the values of its fields. *)
Lemma value_case v e : dtyped v (TyOther (en_id e)) = true -> decl_of (en_id e) ds = Some (Wire.DEnum e) -> exists i vs,
  item_of (item_name i) e = Some i /\ In i (en_items e) /\ enum_value v (en_id e) i vs /\ case_name v = item_name i /\ has_default i /\
  creatable ds classes cd (TyOther (en_id e)) = true /\ NoDup (map fst (item_slots i)) /\
  forall P h args, passed U ds P h v args -> exists ws, bind_params (item_params i) args = Some (combine (map fst (item_slots i)) ws) /\
    List.length (map fst (item_slots i)) = List.length ws /\
    all2P (fun vw p => rep P h (snd vw) (fst vw) (snd p)) (combine vs ws) (item_slots i) /\ List.length vs = List.length ws.
Proof.
  intros T E. destruct (enum_case U items ds cd v (en_id e) e T E) as (i & vs & IO & V & CR & _ & F).
  apply find_item_in in IO as IO'. destruct IO' as [I _]. exists i, vs. split; [exact IO|]. split; [exact I|]. split; [exact V|].
  destruct (item_conditions ds okd (en_id e) e i E I) as (_ & ND & _).
  split; [|split; [|split; [exact CR|split; [exact ND|]]]].
  - destruct v; try contradiction V; destruct i; try contradiction V; now destruct V as (_ & -> & _).
  - destruct (creatable_enum items ds cd (en_id e) e E CR) as (cd' & _ & _ & C2). rewrite forallb_forall in C2. specialize (C2 i I). apply andb_true_iff in C2 as [_ H].
    destruct i as [?|? ? [|]|? ? [|]]; try exact Logic.I; try discriminate H; cbn; discriminate.
  - intros P h args PS. eapply passed_env; try eassumption. eapply struct_names; eassumption.
Qed.
Lemma env_none x (ns : list string) (ws : list dval) : absent x ns = true -> DartSem.lookup x (combine ns ws) = None.
Proof.
  intros A. apply lookup_none. apply absent_not_in in A. intros I. apply A. revert ws I. clear.
  induction ns as [|n ns IH]; intros [|w ws] I; cbn in *; try tauto. destruct I as [->|I]; [now left|]. right. now apply (IH ws).
Qed.

(** *** toX *)

Lemma set_this_value K a e cfs cfs1 i en s : decl_of (en_id e) ds = Some (Wire.DEnum e) -> In i (en_items e) -> methods_ok e = true ->
  nth_error (d_heap s) a = Some (CObj (en_id e) cfs) -> map fst cfs = "value" :: map (fun i => camel (item_name i)) (en_items e) ->
  DartSem.lookup "value" en = None -> DartSem.lookup (en_id e ++ "Value") en = None ->
  set_key "value" (dmem (en_id e ++ "Value") (camel (item_name i))) cfs = Some cfs1 ->
  DartSem.ev D items K (Some (dref a, en_id e)) (DSet (var "value") (value_of (en_id e) (item_name i))) en s =
  DDone (dmem (en_id e ++ "Value") (camel (item_name i))) (set_heap (set_cell a (CObj (en_id e) cfs1) (d_heap s)) s).
Proof.
  intros E I M A KS L1 L2 SK. destruct (enum_conditions ds okd (en_id e) e E) as (_ & _ & AV & _).
  pose proof (instance_value e cfs M KS AV) as LV.
  change (dbind (DartSem.ev D items K (Some (dref a, en_id e)) (value_of (en_id e) (item_name i)) en) (fun w => set_name (Some (dref a, en_id e)) "value" en w) s =
    DDone (dmem (en_id e ++ "Value") (camel (item_name i))) (set_heap (set_cell a (CObj (en_id e) cfs1) (d_heap s)) s)).
  rewrite (dbind_done _ _ s (dmem (en_id e ++ "Value") (camel (item_name i))) s)
    by (eapply this_value; [exact E|reflexivity|exact I|reflexivity|exact A|exact LV|exact L2]).
  unfold set_name. rewrite L1. unfold set_field. rewrite (dbind_done _ _ s (CObj (en_id e) cfs) s) by (unfold get_cell; now rewrite A).
  rewrite SK. reflexivity.
Qed.

Lemma to_case fuel e v P w args s : decl_of (en_id e) ds = Some (Wire.DEnum e) -> methods_ok e = true ->
  dtyped v (TyOther (en_id e)) = true -> (forall i, item_of (case_name v) e = Some i -> turns_ok e i = true) ->
  complete (d_heap s) w e -> passed U ds P (d_heap s) v args -> apart P (d_heap s) w (case_name v) -> 1 <= fuel ->
  exists r h', method D items (KK fuel) w ("to" ++ pascal (case_name v)) args s = DDone r (set_heap h' s) /\
    List.length h' = List.length (d_heap s) /\ complete h' w e /\
    (forall x, x < List.length (d_heap s) -> w <> dref x ->
      (forall a n cfs, w = dref a -> nth_error (d_heap s) a = Some (CObj n cfs) -> DartSem.lookup (camel (case_name v)) cfs <> Some (dref x)) ->
      nth_error h' x = nth_error (d_heap s) x) /\
    rep (fun x => P x \/ w = dref x \/ exists a n cfs, w = dref a /\ nth_error (d_heap s) a = Some (CObj n cfs) /\ DartSem.lookup (camel (case_name v)) cfs = Some (dref x))
      h' w v (TyOther (en_id e)).
Proof.
  intros E M T OKI CO PS AP FU. destruct fuel as [|n]; [lia|].
  destruct (value_case v e T E) as (i & vs & IO & I & V & CN & HD & _ & ND & ENV). rewrite CN in *.
  specialize (OKI i IO). unfold turns_ok in OKI. cbn [forallb] in OKI. rewrite !andb_true_iff in OKI. destruct OKI as ((O1 & O2 & O3 & _) & O4).
  destruct (ENV P (d_heap s) args PS) as (ws & BP & LN & R & LVS).
  set (en := combine (map fst (item_slots i)) ws) in *.
  destruct (enum_conditions ds okd (en_id e) e E) as (_ & _ & AV & _ & NN & _). apply NoDup_cons_iff in NN as [NV NN].
  pose proof CO as (a & cfs & -> & A & KS & H).
  assert (KV : exists u, DartSem.lookup "value" cfs = Some u).
  { destruct cfs as [|[x u] cfs']; [discriminate KS|]. cbn [map fst] in KS. injection KS as -> _. exists u. reflexivity. }
  destruct KV as [u0 KV]. destruct (set_key_some "value" (dmem (en_id e ++ "Value") (camel (item_name i))) cfs u0 KV) as [cfs1 SK].
  pose proof (set_key_keys _ _ _ _ SK) as KS1.
  set (h1 := set_cell a (CObj (en_id e) cfs1) (d_heap s)).
  assert (LA : a < List.length (d_heap s)) by now apply nth_some_lt in A.
  assert (A1 : nth_error h1 a = Some (CObj (en_id e) cfs1)) by now apply set_cell_same.
  assert (LX : forall x, x <> "value" -> DartSem.lookup x cfs1 = DartSem.lookup x cfs) by (intros x N; eapply lookup_set_other; [|exact SK]; congruence).
  assert (NC : camel (item_name i) <> "value") by (intros Q; apply NV; rewrite <- Q; now apply (in_map (fun i => camel (item_name i)))).
  assert (LV1 : DartSem.lookup "value" cfs1 = Some (dmem (en_id e ++ "Value") (camel (item_name i)))) by (eapply lookup_set_same, SK).
  assert (CO1 : complete h1 (dref a) e).
  { exists a, cfs1. split; [reflexivity|]. split; [exact A1|]. split; [now rewrite KS1|]. intros j J.
    assert (NJ : camel (item_name j) <> "value") by (intros Q; apply NV; rewrite <- Q; now apply (in_map (fun i => camel (item_name i)))).
    rewrite (LX _ NJ). destruct (H j J) as [X|(NZ & b & gfs & X1 & X2 & X3 & X4)]; [now left|]. right. split; [exact NZ|]. exists b, gfs.
    split; [exact X1|]. split; [exact X2|]. split; [|exact X4]. unfold h1. rewrite set_cell_other; auto. }
  assert (AP1 : ~ P a) by (destruct (AP a (en_id e) cfs eq_refl A); assumption).
  assert (AP2 : forall b, DartSem.lookup (camel (item_name i)) cfs1 = Some (dref b) -> ~ P b).
  { intros b L. rewrite (LX _ NC) in L. now apply (AP a (en_id e) cfs eq_refl A). }
  assert (R1 : all2P (fun vw p => rep P h1 (snd vw) (fst vw) (snd p)) (combine vs ws) (item_slots i)).
  { eapply all2P_imp; [|exact R]. intros vw p _ X. eapply rep_frame; [|exact X]. intros c PC. split; [exact PC|]. unfold h1. apply set_cell_other. intros ->. contradiction. }
  assert (E1 : DartSem.ev D items (KK n) (Some (dref a, en_id e)) (DSet (var "value") (value_of (en_id e) (item_name i))) en s =
    DDone (dmem (en_id e ++ "Value") (camel (item_name i))) (set_heap h1 s)).
  { eapply set_this_value; try eassumption; apply env_none; assumption. }
  assert (FILL : exists h', dchain (fun st en0 => DartSem.ev_st D items (KK n) (Some (dref a, en_id e)) st en0)
        (map (fun n => set_st (DartTree.field (var (camel (item_name i))) n) (var n)) (map fst (item_slots i)) ++ []) en (set_heap h1 s) = DDone en (set_heap h' (set_heap h1 s)) /\
      List.length h' = List.length h1 /\ complete h' (dref a) e /\ nth_error h' a = Some (CObj (en_id e) cfs1) /\
      (forall c, c < List.length h1 -> DartSem.lookup (camel (item_name i)) cfs1 <> Some (dref c) -> nth_error h' c = nth_error h1 c) /\
      rep (fun x => P x \/ x = a \/ DartSem.lookup (camel (item_name i)) cfs1 = Some (dref x)) h' (dref a) v (TyOther (en_id e))).
  { destruct (fill_run (KK n) (Some (dref a, en_id e)) e i v vs ws en (set_heap h1 s) a cfs1 (fun n => set_st (DartTree.field (var (camel (item_name i))) n) (var n)) [] P V)
      as (h' & RUN & X); try assumption.
    - intros x w J. now apply lookup_combine.
    - intros b s' x w gfs gfs' LB A' B' LE IN SK'. eapply set_name_field; [|apply ev_var; exact LE|exact B'|exact SK'].
      eapply this_field; [apply env_none; exact O2|exact O4|exact A'|exact LB|discriminate].
    - exists h'. split; [exact RUN|exact X]. }
  destruct FILL as (h' & RUN & LE & CO' & A' & OUT & REP).
  assert (LH1 : List.length h1 = List.length (d_heap s)) by apply set_cell_length.
  assert (GOAL : exists r, method D items (KK (S n)) (dref a) ("to" ++ pascal (item_name i)) args s = DDone r (set_heap h' s)).
  { unfold method. rewrite (dbind_done _ _ s (CObj (en_id e) cfs) s) by (unfold get_cell; now rewrite A).
    cbn [dcalls_upto k_invoke]. unfold invoke_with.
    destruct (en_items e) as [|f l] eqn:F; [destruct I|].
    destruct (enum_models items ds file names (en_id e) e f l E F) as (X & _). rewrite X. rewrite <- F in *.
    assert (NP : NoDup (map (fun i => pascal (item_name i)) (en_items e))).
    { unfold methods_ok in M. apply andb_true_iff in M as [M _]. now apply nodupb_NoDup. }
    destruct (proj1 (members e f) i I NP) as (-> & _). unfold to_method. rewrite BP.
    assert (BLOCK : exists r, ev_body D items (KK n) (Some (dref a, en_id e))
       (BBlock (set_st (var "value") (value_of (en_id e) (item_id i)) ::
                map (fun n => set_st (DartTree.field (var (camel (item_id i))) n) (var n)) (DartTree.item_names i))) en s = DDone r (set_heap h' s)).
    { exists dnull. eapply body_done. rewrite item_id_name, slot_item_names. unfold set_st at 1. rewrite (run_expr _ _ _ _ _ _ _ _ _ _ E1).
      rewrite <- (app_nil_r (map _ _)). destruct s. exact RUN. }
    destruct i as [p c|p c ts|p c gs]; try exact BLOCK.
    cbn [item_slots map app dchain item_name] in *. destruct s. cbn in RUN. injection RUN as RUN. exists (dmem (en_id e ++ "Value") (camel c)). cbn [ev_body]. rewrite E1.
    cbn. now rewrite RUN. }
  destruct GOAL as [r GOAL]. exists r, h'. split; [exact GOAL|]. split; [now rewrite LE|]. split; [exact CO'|]. split.
  - intros x L N1 N2. rewrite OUT; [|now rewrite LH1|].
    + unfold h1. apply set_cell_other. congruence.
    + rewrite (LX _ NC). exact (N2 a (en_id e) cfs eq_refl A).
  - eapply rep_frame; [|exact REP]. intros x [PX|[->|PX]]; (split; [|reflexivity]).
    + now left.
    + right. now left.
    + right. right. exists a, (en_id e), cfs. split; [reflexivity|]. split; [exact A|]. rewrite (LX _ NC) in PX. exact PX.
Qed.

(** *** createX *)

Lemma create_case fuel e v P args s : decl_of (en_id e) ds = Some (Wire.DEnum e) -> methods_ok e = true ->
  dtyped v (TyOther (en_id e)) = true -> (forall i, item_of (case_name v) e = Some i -> creates_ok e i = true) ->
  passed U ds P (d_heap s) v args -> (forall x, P x -> x < List.length (d_heap s)) -> 3 * cd + 1 <= fuel ->
  exists w h', static_with D items (KK fuel) (en_id e) ("create" ++ pascal (case_name v)) args s = DDone w (set_heap h' s) /\
    changes (d_heap s) h' [] /\ complete h' w e /\ (forall a, w = dref a -> fresh (d_heap s) h' a) /\
    rep (fun x => P x \/ fresh (d_heap s) h' x) h' w v (TyOther (en_id e)).
Proof.
  intros E M T OKI PS PD FU.
  destruct (value_case v e T E) as (i & vs & IO & I & V & CN & HD & CR & ND & ENV). rewrite CN in *.
  specialize (OKI i IO). unfold creates_ok in OKI. cbn [forallb] in OKI. rewrite !andb_true_iff in OKI. destruct OKI as (O1 & O2 & O3 & _).
  destruct (ENV P (d_heap s) args PS) as (ws & BP & LN & R & LVS).
  set (en := combine (map fst (item_slots i)) ws) in *.
  destruct (enum_conditions ds okd (en_id e) e E) as (_ & AM & AV & _ & NN & _). apply NoDup_cons_iff in NN as [NV NN].
  assert (exists n, fuel = S (S n) /\ 3 * cd <= n + 2) as (n & -> & FU').
  { destruct cd as [|cd']; [now destruct (creatable_enum items ds 0 (en_id e) e E CR) as (k & Q & _)|]. exists (fuel - 2). clear - FU. split; lia. }
  destruct (new_complete n e s E CR FU') as (a & h0 & E0 & CH0 & CO & FA & FB).
  pose proof CO as (a0 & cfs & Q & A & KS & H). injection Q as <-.
  set (en1 := ("model", dref a) :: en).
  assert (KV : exists u, DartSem.lookup "value" cfs = Some u).
  { destruct cfs as [|[x u] cfs']; [discriminate KS|]. cbn [map fst] in KS. injection KS as -> _. exists u. reflexivity. }
  destruct KV as [u0 KV]. destruct (set_key_some "value" (dmem (en_id e ++ "Value") (camel (item_name i))) cfs u0 KV) as [cfs1 SK].
  pose proof (set_key_keys _ _ _ _ SK) as KS1.
  set (h1 := set_cell a (CObj (en_id e) cfs1) h0).
  assert (LA : a < List.length h0) by now apply nth_some_lt in A.
  assert (A1 : nth_error h1 a = Some (CObj (en_id e) cfs1)) by now apply set_cell_same.
  assert (LX : forall x, x <> "value" -> DartSem.lookup x cfs1 = DartSem.lookup x cfs) by (intros x N; eapply lookup_set_other; [|exact SK]; congruence).
  assert (NC : camel (item_name i) <> "value") by (intros Q; apply NV; rewrite <- Q; now apply (in_map (fun i => camel (item_name i)))).
  assert (LV1 : DartSem.lookup "value" cfs1 = Some (dmem (en_id e ++ "Value") (camel (item_name i)))) by (eapply lookup_set_same, SK).
  assert (CO1 : complete h1 (dref a) e).
  { exists a, cfs1. split; [reflexivity|]. split; [exact A1|]. split; [now rewrite KS1|]. intros j J.
    assert (NJ : camel (item_name j) <> "value") by (intros Q; apply NV; rewrite <- Q; now apply (in_map (fun i => camel (item_name i)))).
    rewrite (LX _ NJ). destruct (H j J) as [X|(NZ & b & gfs & X1 & X2 & X3 & X4)]; [now left|]. right. split; [exact NZ|]. exists b, gfs.
    split; [exact X1|]. split; [exact X2|]. split; [|exact X4]. unfold h1. rewrite set_cell_other; auto. }
  destruct CH0 as [L0 C0].
  assert (LH1 : List.length h1 = List.length h0) by apply set_cell_length.
  assert (R1 : all2P (fun vw p => rep P h1 (snd vw) (fst vw) (snd p)) (combine vs ws) (item_slots i)).
  { eapply all2P_imp; [|exact R]. intros vw p _ X. eapply rep_frame; [|exact X]. intros c PC. split; [exact PC|]. pose proof (PD c PC) as LC.
    unfold h1. rewrite set_cell_other; [now apply C0|]. intros ->. unfold fresh in FA. clear - FA LC. lia. }
  assert (NOEN : forall x, absent x (map fst (item_slots i)) = true -> x <> "model" -> DartSem.lookup x en1 = None).
  { intros x AB NX. unfold en1. cbn [DartSem.lookup]. apply String.eqb_neq in NX. rewrite NX. now apply env_none. }
  assert (NVM : (en_id e ++ "Value")%string <> "model") by (intros Q; apply absent_not_in in AV; apply AV; rewrite Q; cbn; tauto).
  destruct (fill_run (KK (S (S n))) None e i v vs ws en1 (set_heap h1 s) a cfs1 (fun n => set_st (DartTree.field (DartTree.field (var "model") (camel (item_name i))) n) (var n))
     [DReturn (Some (var "model"))] P V) as (h' & RUN & LE & CO' & A' & OUT & REP); try assumption.
  - intros x w J. unfold en1. cbn [DartSem.lookup]. destruct (String.eqb_spec x "model") as [->|]; [|now apply lookup_combine].
    exfalso. apply absent_not_in in O1. apply O1. now apply in_combine_l in J.
  - intros b L PB. rewrite (LX _ NC) in L. apply PD in PB. specialize (FB cfs i b A I L). unfold fresh in FB. clear - FB PB. lia.
  - intros b s' x w gfs gfs' LB A' B' LE IN SK'.
    eapply set_name_field2; [apply ev_var; reflexivity|apply ev_var; exact LE|exact A'|exact LB|exact B'|exact SK'].
  - exists (dref a), h'. cbn [d_heap set_heap] in *.
    assert (CH : changes (d_heap s) h' []).
    { split; [rewrite LE, LH1; exact L0|]. intros c LC _. rewrite OUT; [|rewrite LH1; clear - L0 LC; lia|].
      - unfold h1. rewrite set_cell_other; [apply C0; [exact LC|intros []]|]. intros ->. unfold fresh in FA. clear - FA LC. lia.
      - intros Q. rewrite (LX _ NC) in Q. specialize (FB cfs i c A I Q). unfold fresh in FB. clear - FB LC. lia. }
    assert (FR : forall x, fresh (d_heap s) h0 x -> fresh (d_heap s) h' x) by (intros x; unfold fresh; rewrite LE, LH1; auto).
    split; [|split; [exact CH|split; [exact CO'|split]]].
    + unfold static_with. destruct (en_items e) as [|f l] eqn:F; [destruct I|].
      destruct (enum_models items ds file names (en_id e) e f l E F) as (X & XC & _). rewrite X. rewrite <- F in *.
      assert (NP : NoDup (map (fun i => pascal (item_name i)) (en_items e))).
      { unfold methods_ok in M. apply andb_true_iff in M as [M _]. now apply nodupb_NoDup. }
      destruct (proj1 (members e f) i I NP) as (_ & _ & ->). unfold create_method. rewrite BP, item_id_name, slot_item_names. apply body_returned.
      cbn [app]. erewrite run_final; [|apply env_none; exact O1|].
      2: { unfold new. erewrite ev_new; [|apply codec_name; [exact Logic.I|apply env_none; exact O2|exact AM|exact XC]|reflexivity].
           rewrite codec_call_name; [exact E0|exact Logic.I|exact AM|eapply has_class_some, X]. }
      fold en1. unfold set_st at 1. erewrite run_expr.
      2: { eapply (ev_set_field D items (KK (S (S n))) None "model" "value" en1 a); [reflexivity|eapply ev_enum_value; try eassumption; [exact Logic.I|now apply NOEN]|exact A|exact SK|reflexivity]. }
      cbn [d_heap set_heap]. fold h1. change (set_heap h1 (set_heap h0 s)) with (set_heap h1 s). rewrite RUN.
      erewrite run_return; [|apply ev_var; reflexivity]. reflexivity.
    + intros b [= <-]. now apply FR.
    + eapply rep_frame; [|exact REP]. intros x [PX|[->|PX]]; (split; [|reflexivity]).
      * now left.
      * right. now apply FR.
      * right. apply FR. rewrite (LX _ NC) in PX. exact (FB cfs i x A I PX).
Qed.
End Build.
