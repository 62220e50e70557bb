(** Lists whose elements may or may not carry a position (property C13). *)
Require Import Coq.Strings.String Coq.Strings.Ascii.
Require Import Coq.NArith.NArith Coq.ZArith.ZArith Coq.Lists.List Coq.Bool.Bool Coq.micromega.Lia.
Require Import Verif.Base Verif.F64 Verif.Ast Verif.Lexer Verif.Parser Verif.Grammar Verif.GrammarMore
  Verif.ParseProofs Verif.Printer Verif.PrintProofs.
Import ListNotations.
Local Open Scope string_scope.
Local Open Scope list_scope.

(** An element written with or without a position. *)
Definition write_at (o : option Z) (q : toks) : toks :=
  match o with
  | Some z => TSym "#" :: TSym "[" :: TLit (IntLit z) :: TSym "]" :: q
  | None => q
  end.

Definition has_pos (o : option Z) : bool := match o with Some _ => true | None => false end.
Definition all_with (l : list (option Z)) : bool := forallb has_pos l.
Definition all_without (l : list (option Z)) : bool := forallb (fun o => negb (has_pos o)) l.

(** The positions the elements get, if the list is accepted at all. *)
Definition assigned (l : list (option Z)) : option (list N) :=
  if all_without l then Some (counted l)
  else if all_with l
  then Some (map (fun o => match o with Some z => Z.to_N (z mod 2 ^ 32) | None => 0%N end) l)
  else None.

Section Mixed.
  Context {A : Type} (item : toks -> A -> toks -> Prop) (follow : toks -> Prop).
  Hypothesis det : forall ts x r x' r', item ts x r -> item ts x' r' -> r = r'.
  Hypothesis follow_comma : forall r, follow (TSym "," :: r).

  Definition elem_ok (b : option Z * (toks * A)) : Prop :=
    (forall r, next_is_id (fst (snd b) ++ r))
    /\ (forall r, follow r -> item (fst (snd b) ++ r) (snd (snd b)) r).

  Definition write (b : option Z * (toks * A)) : toks := write_at (fst b) (fst (snd b)).

  Lemma listed_cons tr x l : l <> [] -> listed tr (x :: l) = x ++ TSym "," :: listed tr l.
  Proof. intros N. destruct tr; [apply commas_after_cons|]. destruct l; [easy|reflexivity]. Qed.

  Lemma listed_starts tr x l : exists s, forall r, listed tr (x :: l) ++ r = x ++ s ++ r.
  Proof.
    destruct tr; cbn [listed].
    - exists (TSym "," :: commas_after l). intros r. rewrite commas_after_cons, <- app_assoc. reflexivity.
    - destruct l as [|y l].
      + exists []. reflexivity.
      + exists (TSym "," :: commas (y :: l)). intros r. cbn [commas].
        now rewrite <- app_assoc.
  Qed.

  (** Where the list stops when the next element is not of the kind expected. *)
  Lemma stops_at_without tr r : follow r -> forall l, Forall elem_ok l ->
    all_with (map fst l) = false -> forall ts x r', ts = listed tr (map write l) ++ r ->
    sep_list_g (next_is (TSym "#")) (with_pos_g item) ts x r' -> next_is_id r'.
  Proof.
    intros FR. induction l as [|[o [q a]] l IH]; [discriminate|]. intros F M ts x r' -> H.
    inversion F as [|? ? [S I] F']; subst. cbn [fst snd] in *.
    destruct o as [z|].
    - (* explicit: consumed *)
      destruct l as [|b l]; [discriminate|]. cbn in M.
      cbn [map] in H. rewrite listed_cons, <- app_assoc in H by discriminate.
      unfold write at 1 in H. cbn [fst snd write_at app] in H.
      assert (C : forall y s, with_pos_g item (TSym "#" :: TSym "[" :: TLit (IntLit z) :: TSym "]" :: q
         ++ TSym "," :: listed tr (map write (b :: l)) ++ r) y s ->
         s = TSym "," :: listed tr (map write (b :: l)) ++ r).
      { intros y s W. inversion W as [? ? ? ? ? PG IT]; subst. inversion PG; subst.
        eapply det; [exact IT|]. apply I. apply follow_comma. }
      inversion H as [? NS|? ? ? ? IT NC|? ? ? ? ? ? IT H']; subst.
      + exfalso. apply NS. eexists. reflexivity.
      + apply C in IT. subst. exfalso. apply NC. eexists. reflexivity.
      + apply C in IT. injection IT as ->. eapply IH; [assumption|exact M|reflexivity|exact H'].
    - cbn [map] in H. destruct (listed_starts tr (write (None, (q, a))) (map write l)) as (s & E).
      rewrite E in H. unfold write at 1 in H. cbn [fst snd write_at] in H.
      destruct (S (s ++ r)) as (n & u & EQ). rewrite EQ in H.
      inversion H as [? NS|? ? ? NS _ _|? ? ? ? ? NS _ _]; subst; [apply next_id_cons| |];
        destruct NS as (? & ?); discriminate.
  Qed.

  Lemma stops_at_with tr r : follow r -> forall l, Forall elem_ok l ->
    all_without (map fst l) = false -> forall ts x r', ts = listed tr (map write l) ++ r ->
    sep_list_g next_is_id item ts x r' -> next_is (TSym "#") r'.
  Proof.
    intros FR. induction l as [|[o [q a]] l IH]; [discriminate|]. intros F M ts x r' -> H.
    inversion F as [|? ? [S I] F']; subst. cbn [fst snd] in *.
    destruct o as [z|].
    - cbn [map] in H. destruct (listed_starts tr (write (Some z, (q, a))) (map write l)) as (s & E).
      rewrite E in H. unfold write at 1 in H. cbn [fst snd write_at app] in H.
      inversion H as [? NS|? ? ? NS _ _|? ? ? ? ? NS _ _]; subst; [eexists; reflexivity| |];
        destruct NS as (? & ? & ?); discriminate.
    - destruct l as [|b l]; [discriminate|]. cbn in M.
      cbn [map] in H. rewrite listed_cons, <- app_assoc in H by discriminate.
      unfold write at 1 in H. cbn [fst snd write_at app] in H.
      assert (C : forall y s, item (q ++ TSym "," :: listed tr (map write (b :: l)) ++ r) y s ->
         s = TSym "," :: listed tr (map write (b :: l)) ++ r).
      { intros y s IT. eapply det; [exact IT|]. apply I. apply follow_comma. }
      cbn [app] in *.
      inversion H as [? NS|? ? ? ? IT NC|? ? ? ? ? ? IT H']; subst.
      + exfalso. apply NS. apply S.
      + apply C in IT. subst. exfalso. apply NC. eexists. reflexivity.
      + apply C in IT. injection IT as ->. eapply IH; [assumption|exact M|reflexivity|exact H'].
  Qed.

  Lemma mixed_stops tr r l ts x r' : follow r -> Forall elem_ok l -> assigned (map fst l) = None ->
    ts = listed tr (map write l) ++ r -> positioned_g item ts x r' ->
    next_is_id r' \/ next_is (TSym "#") r'.
  Proof.
    intros FR F M E P. unfold assigned in M.
    destruct (all_without (map fst l)) eqn:W; [discriminate|].
    destruct (all_with (map fst l)) eqn:W'; [discriminate|].
    destruct P as [ts' l' r'' S H|ts' l' r'' S H].
    - left. eapply stops_at_without; eassumption.
    - right. eapply stops_at_with; eassumption.
  Qed.

  Lemma assigned_g tr r l ps : follow r -> Forall elem_ok l -> assigned (map fst l) = Some ps ->
    ~ next_is_id r -> ~ next_is (TSym "#") r -> ~ next_is (TSym ",") r ->
    positioned_g item (listed tr (map write l) ++ r) (combine ps (map (fun b => snd (snd b)) l)) r.
  Proof.
    intros FR F M NI NH NC. unfold assigned in M.
    destruct (all_without (map fst l)) eqn:W.
    - injection M as <-.
      assert (EC : combine (counted (map fst l)) (map (fun b : option Z * (toks * A) => snd (snd b)) l)
                   = number_from 0 (map (fun b => snd (snd b)) l)).
      { unfold counted. rewrite map_length. change 0%N with (N.of_nat 0). generalize 0%nat as k.
        clear. induction l as [|b l IH]; intros k; [reflexivity|]. cbn. f_equal.
        rewrite IH. f_equal. lia. }
      rewrite EC. apply ps_implicit.
      + destruct l as [|[o [q a]] l]; [destruct tr; exact NH|].
        cbn in W. destruct o; [discriminate|]. inversion F as [|? ? [S I] F']; subst. cbn [fst snd] in *.
        cbn [map]. destruct (listed_starts tr (write (None, (q, a))) (map write l)) as (s & ->).
        destruct (S (s ++ r)) as (n & u & EQ). unfold write. cbn [fst snd write_at].
        rewrite EQ. nn.
      + apply (listed_g _ _ follow); auto. clear - F W. induction F as [|[o [q a]] l E F IH]; constructor.
        * cbn in W. destruct o; [discriminate|]. exact E.
        * apply IH. cbn in W. now apply andb_prop in W.
    - destruct (all_with (map fst l)) eqn:W'; [|discriminate]. injection M as <-.
      destruct l as [|b l]; [discriminate|].
      replace (combine _ _) with
        (map (fun b : option Z * (toks * A) =>
           (match fst b with Some z => Z.to_N (z mod 2 ^ 32) | None => 0%N end, snd (snd b))) (b :: l)).
      2: { rewrite map_map. generalize (b :: l) as m. induction m as [|y m IH]; cbn; [reflexivity|f_equal; exact IH]. }
      apply ps_explicit.
      + cbn [map]. destruct (listed_starts tr (write b) (map write l)) as (s & ->).
        destruct b as [[z|] [q a]]; [|discriminate]. eexists. reflexivity.
      + apply (listed_g _ _ follow); auto. clear W. clear - F W'.
        induction F as [|[o [q a]] m E F IH]; constructor.
        * cbn in W'. destruct o as [z|]; [|discriminate]. cbn [fst snd] in *. split.
          -- intros s. eexists. reflexivity.
          -- intros s FS. unfold write. cbn. econstructor; [apply pg|]. now apply E.
        * apply IH. cbn in W'. now apply andb_prop in W'.
  Qed.
End Mixed.

Lemma good_det {A} (p : nat -> toks -> res (A * toks)) g : good p g ->
  forall ts x r x' r', g ts x r -> g ts x' r' -> r = r'.
Proof.
  intros G ts x r x' r' H H'.
  pose proof (good_complete _ _ G (S (S (length ts))) ts x r H ltac:(lia)) as E.
  pose proof (good_complete _ _ G (S (S (length ts))) ts x' r' H' ltac:(lia)) as E'.
  congruence.
Qed.

Lemma parse_panic ts : (forall l, ~ schema_g 0 ts l) -> parse ts = Panic.
Proof.
  intros N. pose proof (parse_terminates ts) as T. destruct (parse ts) as [l| |] eqn:E; [|reflexivity|contradiction].
  apply parse_iff_grammar in E. now apply N in E.
Qed.

Lemma decl_struct_inv k n ts x r : decl_g k (TStruct :: TId n :: TSym "{" :: ts) x r ->
  exists l, x = NStruct (mk_struct n l true true) /\ fields_g ts l (TSym "}" :: r).
Proof.
  intros H. inversion H as [|? ? l ? _ F| | ? ? ? M | | ? ? ? C |? ? ? E]; subst;
    [eauto|inversion M|inversion C|inversion E].
Qed.

Lemma decl_enum_inv k n ts x r : decl_g k (TEnum :: TId n :: TSym "{" :: ts) x r ->
  exists l, x = NEnum (mk_enum n l) /\ variants_g ts l (TSym "}" :: r).
Proof.
  intros H. inversion H as [| |? ? l ? _ F | ? ? ? M | | ? ? ? C |? ? ? E]; subst;
    [eauto|inversion M|inversion C|inversion E].
Qed.

(** A struct of optionally numbered fields. *)
Definition field_elem (x : option Z * (string * type_id)) : option Z * (toks * (string * type_id)) :=
  (fst x, (print_binding (fst (snd x)) (snd (snd x)), snd x)).

Definition write_struct (tr : bool) (n : string) (l : list (option Z * (string * type_id))) : toks :=
  [TStruct; TId n; TSym "{"]
  ++ listed tr (map (fun x => write_at (fst x) (print_binding (fst (snd x)) (snd (snd x)))) l)
  ++ [TSym "}"; TEOF].

Lemma field_elems_ok l : Forall (fun x => wf_type (snd (snd x))) l ->
  Forall (elem_ok binding_g (fun r => ~ next_is (TSym "<") r)) (map field_elem l).
Proof.
  intros F. apply Forall_map. eapply Forall_impl; [|exact F]. intros [o [n t]] W. split.
  - intros r. apply next_id_cons.
  - intros r N. now apply print_binding_g.
Qed.

Lemma struct_positions tr n l : l <> [] -> Forall (fun x => wf_type (snd (snd x))) l ->
  parse (write_struct tr n l) =
  match assigned (map fst l) with
  | Some ps => Ok [NStruct (mk_struct n (map field_of (combine ps (map snd l))) true true)]
  | None => Panic
  end.
Proof.
  intros NE W. apply field_elems_ok in W as F.
  assert (EF : map fst (map field_elem l) = map fst l) by (rewrite map_map; reflexivity).
  assert (EW : map (fun x => write_at (fst x) (print_binding (fst (snd x)) (snd (snd x)))) l
               = map write (map field_elem l)) by (rewrite map_map; reflexivity).
  assert (ES : map (fun b : option Z * (toks * (string * type_id)) => snd (snd b)) (map field_elem l) = map snd l)
    by (rewrite map_map; reflexivity).
  assert (D := good_det _ _ binding_good).
  unfold write_struct. rewrite EW.
  destruct (assigned (map fst l)) as [ps|] eqn:A.
  - apply parse_iff_grammar. cbn [app]. eapply sg_decl; [|constructor; right; now exists []].
    rewrite <- EF in A.
    pose proof (fun c => assigned_g binding_g _ c tr (TSym "}" :: [TEOF]) _ ps (not_next (TSym "<") (TSym "}") _ ltac:(discriminate)) F A) as G.
    cbn in G. rewrite ES in G.
    specialize (G (fun r => not_next (TSym "<") (TSym ",") _ ltac:(discriminate)) ltac:(nn) ltac:(nn) ltac:(nn)).
    apply dc_struct; [|constructor; exact G].
    apply positioned_starts in G; [exact G|].
    unfold assigned in A. intros E. destruct l as [|x l]; [easy|].
    cbn [map] in E. destruct ps as [|p ps]; [|discriminate].
    destruct (all_without _) in A; [discriminate|]. destruct (all_with _) in A; discriminate.
  - apply parse_panic. intros out H. rewrite <- EF in A. cbn [app] in H.
    inversion H as [? ? E|? ? nd ts' out' DE]; subst.
    + destruct E as [E|(? & E)]; discriminate.
    + apply decl_struct_inv in DE. destruct DE as (fl & _ & FG).
      inversion FG as [? m ? P]; subst.
      apply (mixed_stops _ (fun r => ~ next_is (TSym "<") r) D ltac:(intros; nn) tr
               [TSym "}"; TEOF] (map field_elem l)) in P; [|nn|exact F|exact A|reflexivity].
      destruct P as [(? & ? & E)|(? & E)]; discriminate.
Qed.

(** An enum of optionally numbered variants. *)
Definition write_enum (st : style) (tr : bool) (n : string) (l : list (option Z * enum_item)) : toks :=
  [TEnum; TId n; TSym "{"]
  ++ listed tr (map (fun x => write_at (fst x) (print_item st (snd x))) l)
  ++ [TSym "}"; TEOF].

Definition item_elem (st : style) (x : option Z * enum_item) : option Z * (toks * (N -> enum_item)) :=
  (fst x, (print_item st (snd x), item_at (snd x))).

Lemma item_elems_ok st l : Forall (fun x => wf_item (snd x)) l ->
  Forall (elem_ok variant_g (fun r => ~ next_is (TSym "(") r /\ ~ next_is (TSym "{") r))
    (map (item_elem st) l).
Proof.
  intros F. apply Forall_map. eapply Forall_impl; [|exact F]. intros [o i] W. split.
  - intros r. destruct i; apply next_id_cons.
  - intros r [N N']. now apply print_item_g.
Qed.

Lemma enum_positions st tr n l : l <> [] -> Forall (fun x => wf_item (snd x)) l ->
  parse (write_enum st tr n l) =
  match assigned (map fst l) with
  | Some ps => Ok [NEnum (mk_enum n (map (fun x => item_at (snd x) (fst x)) (combine ps (map snd l))))]
  | None => Panic
  end.
Proof.
  intros NE W. apply (item_elems_ok st) in W as F.
  assert (EF : map fst (map (item_elem st) l) = map fst l) by (rewrite map_map; reflexivity).
  assert (EW : map (fun x => write_at (fst x) (print_item st (snd x))) l
               = map write (map (item_elem st) l)) by (rewrite map_map; reflexivity).
  assert (ES : map (fun b : option Z * (toks * (N -> enum_item)) => snd (snd b)) (map (item_elem st) l)
               = map item_at (map snd l))
    by (rewrite !map_map; reflexivity).
  assert (D := good_det _ _ variant_good).
  unfold write_enum. rewrite EW.
  destruct (assigned (map fst l)) as [ps|] eqn:A.
  - apply parse_iff_grammar. cbn [app]. eapply sg_decl; [|constructor; right; now exists []].
    rewrite <- EF in A.
    pose proof (fun c => assigned_g variant_g _ c tr (TSym "}" :: [TEOF]) _ ps
      (conj (not_next (TSym "(") (TSym "}") _ ltac:(discriminate))
            (not_next (TSym "{") (TSym "}") _ ltac:(discriminate))) F A) as G.
    cbn beta in G. rewrite ES in G.
    specialize (G (fun r => conj (not_next (TSym "(") (TSym ",") _ ltac:(discriminate))
                                 (not_next (TSym "{") (TSym ",") _ ltac:(discriminate)))
                  ltac:(nn) ltac:(nn) ltac:(nn)).
    replace (map (fun x : N * enum_item => item_at (snd x) (fst x)) (combine ps (map snd l)))
      with (map (fun x : N * (N -> enum_item) => snd x (fst x)) (combine ps (map item_at (map snd l)))).
    2: { generalize (map snd l) as m. clear. revert ps.
         induction ps as [|p ps IH]; intros [|i m]; cbn; auto. f_equal. apply IH. }
    apply dc_enum; [|constructor; exact G].
    apply positioned_starts in G; [exact G|].
    unfold assigned in A. intros E. destruct l as [|x l]; [easy|].
    cbn [map] in E. destruct ps as [|p ps]; [|discriminate].
    destruct (all_without _) in A; [discriminate|]. destruct (all_with _) in A; discriminate.
  - apply parse_panic. intros out H. rewrite <- EF in A. cbn [app] in H.
    inversion H as [? ? E|? ? nd ts' out' DE]; subst.
    + destruct E as [E|(? & E)]; discriminate.
    + apply decl_enum_inv in DE. destruct DE as (fl & _ & FG).
      inversion FG as [? m ? P]; subst.
      apply (mixed_stops _ (fun r => ~ next_is (TSym "(") r /\ ~ next_is (TSym "{") r) D
               ltac:(intros; split; nn) tr [TSym "}"; TEOF] (map (item_elem st) l)) in P;
        [|split; nn|exact F|exact A|reflexivity].
      destruct P as [(? & ? & E)|(? & E)]; discriminate.
Qed.

(** An enum whose only variant is a tuple of optionally numbered types. *)
Definition write_tuple_enum (tr : bool) (n v : string) (l : list (option Z * type_id)) : toks :=
  [TEnum; TId n; TSym "{"; TId v; TSym "("]
  ++ listed tr (map (fun x => write_at (fst x) (print_type (snd x))) l)
  ++ [TSym ")"; TSym "}"; TEOF].

Definition type_elem (x : option Z * type_id) : option Z * (toks * type_id) :=
  (fst x, (print_type (snd x), snd x)).

Lemma type_elems_ok l : Forall (fun x => wf_type (snd x)) l ->
  Forall (elem_ok type_g (fun r => ~ next_is (TSym "<") r)) (map type_elem l).
Proof.
  intros F. apply Forall_map. eapply Forall_impl; [|exact F]. intros [o t] W. split.
  - intros r. destruct (print_type_id t r) as (n & r' & E). cbn [type_elem fst snd]. rewrite E.
    apply next_id_cons.
  - intros r N. now apply print_type_ok.
Qed.

Lemma tuple_positions tr n v l : Forall (fun x => wf_type (snd x)) l ->
  parse (write_tuple_enum tr n v l) =
  match assigned (map fst l) with
  | Some ps => Ok [NEnum (mk_enum n [ItemTuple 0 v (map tuple_field_of (combine ps (map snd l)))])]
  | None => Panic
  end.
Proof.
  intros W. apply type_elems_ok in W as F.
  assert (EF : map fst (map type_elem l) = map fst l) by (rewrite map_map; reflexivity).
  assert (EW : map (fun x => write_at (fst x) (print_type (snd x))) l
               = map write (map type_elem l)) by (rewrite map_map; reflexivity).
  assert (ES : map (fun b : option Z * (toks * type_id) => snd (snd b)) (map type_elem l) = map snd l)
    by (rewrite map_map; reflexivity).
  assert (D := good_det _ _ type_good).
  unfold write_tuple_enum. rewrite EW.
  destruct (assigned (map fst l)) as [ps|] eqn:A.
  - apply parse_iff_grammar. cbn [app]. eapply sg_decl; [|constructor; right; now exists []].
    rewrite <- EF in A.
    pose proof (fun c => assigned_g type_g _ c tr (TSym ")" :: TSym "}" :: [TEOF]) _ ps
      (not_next (TSym "<") (TSym ")") _ ltac:(discriminate)) F A) as G.
    cbn beta in G. rewrite ES in G.
    specialize (G (fun r => not_next (TSym "<") (TSym ",") _ ltac:(discriminate)) ltac:(nn) ltac:(nn) ltac:(nn)).
    apply dc_enum; [right; apply next_id_cons|].
    change [ItemTuple 0 v (map tuple_field_of (combine ps (map snd l)))]
      with (map (fun x : N * (N -> enum_item) => snd x (fst x))
        (number_from 0 [fun p => ItemTuple p v (map tuple_field_of (combine ps (map snd l)))])).
    constructor. apply ps_implicit; [nn|]. apply sl_last; [apply next_id_cons| |nn].
    apply vg_tuple. constructor. exact G.
  - apply parse_panic. intros out H. rewrite <- EF in A. cbn [app] in H.
    inversion H as [? ? E|? ? nd ts' out' DE]; subst.
    + destruct E as [E|(? & E)]; discriminate.
    + apply decl_enum_inv in DE. destruct DE as (fl & _ & FG).
      inversion FG as [? m ? P]; subst.
      assert (V : exists x r, variant_g (TId v :: TSym "(" :: listed tr (map write (map type_elem l))
                                 ++ [TSym ")"; TSym "}"; TEOF]) x r).
      { inversion P as [? ? ? S|? ? ? _ L]; subst; [destruct S; discriminate|].
        inversion L as [? S|? ? ? _ V _|? ? ? ? ? _ V _]; subst; eauto. }
      destruct V as (x & r & V). inversion V as [? ? N|? ? ? ? T|]; subst.
      * apply N. apply next_cons.
      * inversion T as [? m' ? P']; subst.
        apply (mixed_stops _ (fun r => ~ next_is (TSym "<") r) D ltac:(intros; nn) tr
                 [TSym ")"; TSym "}"; TEOF] (map type_elem l)) in P'; [|nn|exact F|exact A|reflexivity].
        destruct P' as [(? & ? & E)|(? & E)]; discriminate.
Qed.

(** An enum whose only variant is a struct of optionally numbered fields. *)
Definition write_struct_enum (tr : bool) (n v : string) (l : list (option Z * (string * type_id))) : toks :=
  [TEnum; TId n; TSym "{"; TId v; TSym "{"]
  ++ listed tr (map (fun x => write_at (fst x) (print_binding (fst (snd x)) (snd (snd x)))) l)
  ++ [TSym "}"; TSym "}"; TEOF].

Lemma struct_variant_positions tr n v l : Forall (fun x => wf_type (snd (snd x))) l ->
  parse (write_struct_enum tr n v l) =
  match assigned (map fst l) with
  | Some ps => Ok [NEnum (mk_enum n [ItemStruct 0 v (map field_of (combine ps (map snd l)))])]
  | None => Panic
  end.
Proof.
  intros W. apply field_elems_ok in W as F.
  assert (EF : map fst (map field_elem l) = map fst l) by (rewrite map_map; reflexivity).
  assert (EW : map (fun x => write_at (fst x) (print_binding (fst (snd x)) (snd (snd x)))) l
               = map write (map field_elem l)) by (rewrite map_map; reflexivity).
  assert (ES : map (fun b : option Z * (toks * (string * type_id)) => snd (snd b)) (map field_elem l) = map snd l)
    by (rewrite map_map; reflexivity).
  assert (D := good_det _ _ binding_good).
  unfold write_struct_enum. rewrite EW.
  destruct (assigned (map fst l)) as [ps|] eqn:A.
  - apply parse_iff_grammar. cbn [app]. eapply sg_decl; [|constructor; right; now exists []].
    rewrite <- EF in A.
    pose proof (fun c => assigned_g binding_g _ c tr (TSym "}" :: TSym "}" :: [TEOF]) _ ps
      (not_next (TSym "<") (TSym "}") _ ltac:(discriminate)) F A) as G.
    cbn in G. rewrite ES in G.
    specialize (G (fun r => not_next (TSym "<") (TSym ",") _ ltac:(discriminate)) ltac:(nn) ltac:(nn) ltac:(nn)).
    apply dc_enum; [right; apply next_id_cons|].
    change [ItemStruct 0 v (map field_of (combine ps (map snd l)))]
      with (map (fun x : N * (N -> enum_item) => snd x (fst x))
        (number_from 0 [fun p => ItemStruct p v (map field_of (combine ps (map snd l)))])).
    constructor. apply ps_implicit; [nn|]. apply sl_last; [apply next_id_cons| |nn].
    apply vg_struct. constructor. exact G.
  - apply parse_panic. intros out H. rewrite <- EF in A. cbn [app] in H.
    inversion H as [? ? E|? ? nd ts' out' DE]; subst.
    + destruct E as [E|(? & E)]; discriminate.
    + apply decl_enum_inv in DE. destruct DE as (fl & _ & FG).
      inversion FG as [? m ? P]; subst.
      assert (V : exists x r, variant_g (TId v :: TSym "{" :: listed tr (map write (map field_elem l))
                                 ++ [TSym "}"; TSym "}"; TEOF]) x r).
      { inversion P as [? ? ? S|? ? ? _ L]; subst; [destruct S; discriminate|].
        inversion L as [? S|? ? ? _ V _|? ? ? ? ? _ V _]; subst; eauto. }
      destruct V as (x & r & V). inversion V as [? ? _ N| |? ? ? ? T]; subst.
      * apply N. apply next_cons.
      * inversion T as [? m' ? P']; subst.
        apply (mixed_stops _ (fun r => ~ next_is (TSym "<") r) D ltac:(intros; nn) tr
                 [TSym "}"; TSym "}"; TEOF] (map field_elem l)) in P'; [|nn|exact F|exact A|reflexivity].
        destruct P' as [(? & ? & E)|(? & E)]; discriminate.
Qed.
