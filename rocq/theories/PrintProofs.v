(** Printed declarations are derivable in the grammar, and everything the grammar derives is
    well-formed. *)
Require Import Coq.Strings.String Coq.Strings.Ascii.
Require Import Coq.NArith.NArith Coq.ZArith.ZArith Coq.Lists.List Coq.Bool.Bool Coq.micromega.Lia.
Require Import Verif.F64 Verif.Ast Verif.Grammar Verif.GrammarMore Verif.Printer.
Import ListNotations.
Local Open Scope string_scope.
Local Open Scope list_scope.

Lemma not_next (a b : token) r : a <> b -> ~ next_is a (b :: r).
Proof. intros N (u & [= E _]). now apply N. Qed.
Lemma not_next_id b r : (forall n, b <> TId n) -> ~ next_is_id (b :: r).
Proof. intros N (n & u & [= E _]). now apply (N n). Qed.
Lemma next_cons t r : next_is t (t :: r).
Proof. now exists r. Qed.
Lemma next_id_cons n r : next_is_id (TId n :: r).
Proof. now exists n, r. Qed.

Ltac nn := first [apply not_next; discriminate | apply not_next_id; discriminate].

Lemma plain_print n t : plain_type n t -> print_type t = [TId n].
Proof. now intros []. Qed.

Lemma commas_map_cons {A} (f : A -> toks) x l : l <> [] ->
  commas (map f (x :: l)) = f x ++ TSym "," :: commas (map f l).
Proof. destruct l; [easy|reflexivity]. Qed.

Lemma print_type_g :
  (forall t, wf_type t -> forall r, ~ next_is (TSym "<") r -> type_g (print_type t ++ r) t r)
  /\ (forall l, wf_types l -> forall r,
        type_args_g (commas (map print_type l) ++ TSym ">" :: r) l r).
Proof.
  apply wf_type_mutind.
  - intros n t P r N. rewrite (plain_print n t P). now apply tg_plain.
  - intros n l W IH r N. cbn [print_type app]. rewrite <- app_assoc. apply tg_generic. apply IH.
  - intros t W IH r. cbn. apply ta_last. apply IH. nn.
  - intros t l W IH W' IH' r. rewrite commas_map_cons by (destruct W'; discriminate).
    rewrite <- app_assoc. cbn. eapply ta_more; [apply IH; nn|apply IH'].
Qed.

Lemma print_type_ok t r : wf_type t -> ~ next_is (TSym "<") r -> type_g (print_type t ++ r) t r.
Proof. intros W. now apply print_type_g. Qed.

Lemma commas_after_cons x l : commas_after (x :: l) = x ++ TSym "," :: commas_after l.
Proof. unfold commas_after. cbn. now rewrite <- app_assoc. Qed.

Lemma listed_g {A B} (starts : toks -> Prop) (item : toks -> A -> toks -> Prop)
    (follow : toks -> Prop) (pr : B -> toks) (val : B -> A) tr (l : list B) r :
  Forall (fun b => (forall r, starts (pr b ++ r)) /\ (forall r, follow r -> item (pr b ++ r) (val b) r)) l ->
  (forall r, follow (TSym "," :: r)) -> follow r -> ~ starts r -> ~ next_is (TSym ",") r ->
  sep_list_g starts item (listed tr (map pr l) ++ r) (map val l) r.
Proof.
  intros F FC FR NS NC. destruct tr; cbn [listed].
  - induction F as [|x l [S I] F IH]; [now apply sl_stop|]. cbn [map]. rewrite commas_after_cons, <- app_assoc.
    eapply sl_more; [apply S|apply I, FC|apply IH].
  - induction F as [|x l [S I] F IH]; [now apply sl_stop|].
    destruct l as [|y l].
    + cbn. apply sl_last; auto.
    + rewrite commas_map_cons by discriminate. rewrite <- app_assoc.
      cbn [map]. eapply sl_more; [apply S|apply I, FC|apply IH].
Qed.

Lemma number_from_counted {A} : forall (l : list (N * A)) k,
  map fst l = map N.of_nat (seq k (length l)) -> number_from (N.of_nat k) (map snd l) = l.
Proof.
  induction l as [|[p x] l IH]; intros k E; [reflexivity|]. cbn in *. injection E as -> E.
  f_equal. replace (N.of_nat k + 1)%N with (N.of_nat (S k)) by lia. now apply IH.
Qed.

Lemma mod_fits p : fits p = true -> Z.to_N (Z.of_N p mod 2 ^ 32) = p.
Proof.
  unfold fits. intros F%N.ltb_lt. rewrite Z.mod_small by lia. now rewrite N2Z.id.
Qed.

(** [l] lists positions, printed elements and their values. *)
Lemma print_positioned_g {A} (item : toks -> A -> toks -> Prop) (follow : toks -> Prop)
    st (l : list (N * (toks * A))) r :
  wf_positions (map fst l) ->
  Forall (fun b => (forall r, next_is_id (fst (snd b) ++ r))
                   /\ (forall r, follow r -> item (fst (snd b) ++ r) (snd (snd b)) r)) l ->
  (forall r, follow (TSym "," :: r)) -> follow r ->
  ~ next_is_id r -> ~ next_is (TSym "#") r -> ~ next_is (TSym ",") r ->
  positioned_g item (print_positioned st (map (fun b => (fst b, fst (snd b))) l) ++ r)
    (map (fun b => (fst b, snd (snd b))) l) r.
Proof.
  intros W F FC FR NI NH NC.
  assert (EF : map fst (map (fun b : N * (toks * A) => (fst b, fst (snd b))) l) = map fst l)
    by (rewrite map_map; reflexivity).
  assert (IMP : map fst l = counted (map fst l) ->
    positioned_g item (listed (st_trailing st) (map snd (map (fun b => (fst b, fst (snd b))) l)) ++ r)
      (map (fun b => (fst b, snd (snd b))) l) r).
  { intros C. unfold counted in C. rewrite map_length in C.
    rewrite <- (number_from_counted (map (fun b => (fst b, snd (snd b))) l) 0)
      by (rewrite map_map, map_length; exact C).
    apply ps_implicit.
    - destruct F as [|x l [S _] F]; [destruct (st_trailing st); exact NH|].
      cbn [map snd fst].
      assert (next_is_id (listed (st_trailing st) (fst (snd x) :: map snd (map (fun b => (fst b, fst (snd b))) l)) ++ r)).
      { destruct (st_trailing st); cbn [listed].
        - rewrite commas_after_cons, <- app_assoc. apply S.
        - destruct l; cbn [map commas]; [apply S|]. rewrite <- app_assoc. apply S. }
      intros (u & E). destruct H as (n & u' & E'). rewrite E in E'. discriminate.
    - rewrite !map_map. apply (listed_g _ _ follow); assumption. }
  unfold print_positioned. rewrite EF. unfold leave_out.
  destruct (forallb fits (map fst l)) eqn:FT.
  - unfold Nlist_eqb. destruct (list_eq_dec N.eq_dec (map fst l) (counted (map fst l))) as [C|C];
      destruct (st_implicit st); cbn [andb]; auto.
    + (* explicit although counted *)
      destruct l as [|b l]; [rewrite map_map in *; apply IMP; reflexivity|].
      rewrite map_map. apply ps_explicit.
      * destruct (st_trailing st); cbn; [eexists; reflexivity|].
        destruct l; cbn; eexists; reflexivity.
      * apply (listed_g _ _ follow); [|assumption|assumption|assumption|assumption].
        clear - F FT. apply Forall_forall. intros x I. split.
        -- intros s. cbn. eexists. reflexivity.
        -- intros s FS. rewrite Forall_forall in F. destruct (F x I) as [_ FI].
           rewrite forallb_forall in FT. specialize (FT (fst x) (in_map fst _ _ I)).
           cbn [fst snd]. rewrite <- app_assoc. cbn.
           econstructor; [|apply FI, FS]. rewrite <- (mod_fits _ FT) at 2. apply pg.
    + destruct l as [|b l]; [rewrite map_map in *; apply IMP; reflexivity|].
      rewrite map_map. apply ps_explicit.
      * destruct (st_trailing st); cbn; [eexists; reflexivity|].
        destruct l; cbn; eexists; reflexivity.
      * apply (listed_g _ _ follow); [|assumption|assumption|assumption|assumption].
        clear - F FT. apply Forall_forall. intros x I. split.
        -- intros s. cbn. eexists. reflexivity.
        -- intros s FS. rewrite Forall_forall in F. destruct (F x I) as [_ FI].
           rewrite forallb_forall in FT. specialize (FT (fst x) (in_map fst _ _ I)).
           cbn [fst snd]. rewrite <- app_assoc. cbn.
           econstructor; [|apply FI, FS]. rewrite <- (mod_fits _ FT) at 2. apply pg.
    + destruct l as [|b l]; [rewrite map_map in *; apply IMP; reflexivity|].
      rewrite map_map. apply ps_explicit.
      * destruct (st_trailing st); cbn; [eexists; reflexivity|].
        destruct l; cbn; eexists; reflexivity.
      * apply (listed_g _ _ follow); [|assumption|assumption|assumption|assumption].
        clear - F FT. apply Forall_forall. intros x I. split.
        -- intros s. cbn. eexists. reflexivity.
        -- intros s FS. rewrite Forall_forall in F. destruct (F x I) as [_ FI].
           rewrite forallb_forall in FT. specialize (FT (fst x) (in_map fst _ _ I)).
           cbn [fst snd]. rewrite <- app_assoc. cbn.
           econstructor; [|apply FI, FS]. rewrite <- (mod_fits _ FT) at 2. apply pg.
  - destruct W as [W|W]; [congruence|]. auto.
Qed.

Lemma print_type_id t r : exists n r', print_type t ++ r = TId n :: r'.
Proof. destruct t; cbn; eauto. Qed.

Lemma print_binding_g n t r : wf_type t -> ~ next_is (TSym "<") r ->
  binding_g (print_binding n t ++ r) (n, t) r.
Proof. intros W N. cbn. constructor. now apply print_type_ok. Qed.

Lemma print_fields_g st l r : wf_fields l ->
  ~ next_is_id r -> ~ next_is (TSym "#") r -> ~ next_is (TSym ",") r -> ~ next_is (TSym "<") r ->
  fields_g (print_fields st l ++ r) l r.
Proof.
  intros [W F] A B C D.
  pose (ll := map (fun f => (sf_position f, (print_binding (sf_name f) (sf_type f), (sf_name f, sf_type f)))) l).
  assert (E : map field_of (map (fun b => (fst b, snd (snd b))) ll) = l).
  { unfold ll. rewrite !map_map. rewrite <- (map_id l) at 2. apply map_ext. now intros []. }
  rewrite <- E at 2. constructor.
  unfold print_fields.
  replace (map (fun f => (sf_position f, print_binding (sf_name f) (sf_type f))) l)
    with (map (fun b => (fst b, fst (snd b))) ll) by (unfold ll; now rewrite map_map).
  apply (print_positioned_g _ (fun r => ~ next_is (TSym "<") r)); auto.
  - unfold ll. now rewrite map_map.
  - unfold ll. apply Forall_map. eapply Forall_impl; [|exact F]. intros f WF. cbn [fst snd]. split.
    + intros s. apply next_id_cons.
    + intros s N. now apply print_binding_g.
  - intros s. nn.
Qed.

Lemma print_tuple_g st l r : wf_tuple l ->
  ~ next_is_id r -> ~ next_is (TSym "#") r -> ~ next_is (TSym ",") r -> ~ next_is (TSym "<") r ->
  tuple_g (print_tuple st l ++ r) l r.
Proof.
  intros [W F] A B C D.
  pose (ll := map (fun f => (tf_position f, (print_type (tf_type f), tf_type f))) l).
  assert (E : map tuple_field_of (map (fun b => (fst b, snd (snd b))) ll) = l).
  { unfold ll. rewrite !map_map. rewrite <- (map_id l) at 2. apply map_ext. now intros []. }
  rewrite <- E at 2. constructor.
  unfold print_tuple.
  replace (map (fun f => (tf_position f, print_type (tf_type f))) l)
    with (map (fun b => (fst b, fst (snd b))) ll) by (unfold ll; now rewrite map_map).
  apply (print_positioned_g _ (fun r => ~ next_is (TSym "<") r)); auto.
  - unfold ll. now rewrite map_map.
  - unfold ll. apply Forall_map. eapply Forall_impl; [|exact F]. intros f WF. cbn [fst snd]. split.
    + intros s. destruct (print_type_id (tf_type f) s) as (n & r' & ->). apply next_id_cons.
    + intros s N. now apply print_type_ok.
  - intros s. nn.
Qed.

Definition item_at (i : enum_item) : N -> enum_item :=
  match i with
  | ItemEmpty _ n => fun p => ItemEmpty p n
  | ItemTuple _ n l => fun p => ItemTuple p n l
  | ItemStruct _ n l => fun p => ItemStruct p n l
  end.

Lemma print_item_g st i r : wf_item i -> ~ next_is (TSym "(") r -> ~ next_is (TSym "{") r ->
  variant_g (print_item st i ++ r) (item_at i) r.
Proof.
  intros W A B. destruct i as [p n|p n l|p n l]; cbn in *.
  - now apply vg_empty.
  - rewrite <- app_assoc. apply vg_tuple. apply print_tuple_g; auto; nn.
  - rewrite <- app_assoc. apply vg_struct. apply print_fields_g; auto; nn.
Qed.

Lemma print_items_g st l r : wf_items l ->
  ~ next_is_id r -> ~ next_is (TSym "#") r -> ~ next_is (TSym ",") r ->
  ~ next_is (TSym "(") r -> ~ next_is (TSym "{") r ->
  variants_g (print_items st l ++ r) l r.
Proof.
  intros [W F] A B C D D'.
  pose (ll := map (fun i => (item_position i, (print_item st i, item_at i))) l).
  assert (E : map (fun x => snd x (fst x)) (map (fun b => (fst b, snd (snd b))) ll) = l).
  { unfold ll. rewrite !map_map. rewrite <- (map_id l) at 2. apply map_ext. now intros []. }
  rewrite <- E at 2. constructor.
  unfold print_items.
  replace (map (fun i => (item_position i, print_item st i)) l)
    with (map (fun b => (fst b, fst (snd b))) ll) by (unfold ll; now rewrite map_map).
  apply (print_positioned_g _ (fun r => ~ next_is (TSym "(") r /\ ~ next_is (TSym "{") r)); auto.
  - unfold ll. now rewrite map_map.
  - unfold ll. apply Forall_map. eapply Forall_impl; [|exact F]. intros i WF. cbn [fst snd]. split.
    + intros s. destruct i; apply next_id_cons.
    + intros s [N N']. now apply print_item_g.
  - intros s. split; nn.
Qed.

Lemma print_value_g v : wf_value v -> value_g (print_value v) v.
Proof. intros (t & H). destruct H; constructor. Qed.

Lemma print_const_g :
  (forall c, wf_const c -> forall r, const_g (print_const c ++ r) c r)
  /\ (forall l, wf_const_items l -> forall r, next_is (TSym "}") r ->
        const_items_g (flat_map print_const_item l ++ r) l r).
Proof.
  apply wf_const_mutind.
  - intros n l W IH r. cbn [print_const app]. rewrite <- app_assoc. apply cg. apply IH. apply next_cons.
  - intros r N. now apply ci_stop.
  - intros n l W IH W' IH' r N. cbn [flat_map print_const_item]. rewrite <- app_assoc.
    eapply ci_node; [apply IH|now apply IH'].
  - intros n t v l WT WV W IH r N. cbn [flat_map print_const_item]. rewrite <- !app_assoc.
    cbn. eapply ci_value; [|apply print_value_g, WV|now apply IH]. apply print_type_ok; [assumption|nn].
Qed.

Lemma print_directive_g st d r : wf_directive d -> directive_g (print_directive st d ++ r) d r.
Proof.
  destruct d as [n v|n l]; cbn; intros W.
  - constructor. now apply print_value_g.
  - rewrite <- app_assoc. apply dg_group with (close := TSym ")").
    rewrite <- (map_id l) at 2.
    apply (listed_g _ _ (fun _ => True)); auto; try nn.
    eapply Forall_impl; [|exact W]. intros p WP. cbn. split.
    + intros s. apply next_id_cons.
    + intros s _. destruct p as [i v]. constructor. now apply print_value_g.
Qed.

Lemma print_return_g o r : match o with None => True | Some t => wf_type t end ->
  returns_g (print_return o ++ r) o r.
Proof.
  destruct o as [t|]; cbn; intros W; [|constructor].
  rewrite <- app_assoc. constructor. apply print_type_ok; [assumption|nn].
Qed.

Lemma print_fn_g st k f r : wf_fn k f -> decl_g k (print_fn st f ++ r) (NFn f) r.
Proof.
  destruct f as [n p args ret rd asy]. intros (E & WA & WR & RD). cbn in *. subst p.
  assert (M : method_g asy k
    ((if rd then [TRead; TId n]
      else TFn :: TId n :: TSym "("
           :: listed (st_trailing st) (map (fun a => print_binding (fa_id a) (fa_type a)) args)
           ++ [TSym ")"])
     ++ print_return ret ++ r) (mk_fn n k args ret rd asy) r).
  { destruct rd.
    - rewrite RD by reflexivity. cbn. apply mg_read. now apply print_return_g.
    - cbn. rewrite <- app_assoc.
      replace args with (map arg_of (map (fun a => (fa_id a, fa_type a)) args)) at 2
        by (rewrite map_map; rewrite <- (map_id args) at 2; apply map_ext; now intros []).
      eapply mg_fn; [|now apply print_return_g].
      apply (listed_g _ _ (fun r => ~ next_is (TSym "<") r)); try nn.
      + eapply Forall_impl; [|exact WA]. intros a W. split.
        * intros s. apply next_id_cons.
        * intros s N. now apply print_binding_g.
      + intros s. nn. }
  unfold print_fn. cbn [fn_is_async fn_is_read fn_id fn_args fn_return].
  rewrite <- !app_assoc. destruct asy; cbn [app]; [apply dc_async|apply dc_method]; exact M.
Qed.

Lemma positioned_starts {A} (item : toks -> A -> toks -> Prop) ts l r :
  positioned_g item ts l r -> l <> [] -> next_is (TSym "#") ts \/ next_is_id ts.
Proof.
  intros [ts' l' r' S H|ts' l' r' S H] N; [now left|].
  right. destruct H; [now destruct N|assumption|assumption].
Qed.

Lemma print_decl_g st k n r : wf_decl k n -> decl_g k (print_decl st n ++ r) n r.
Proof.
  destruct n as [e|s|f|d|c]; cbn [wf_decl print_decl].
  - intros [W N]. destruct e as [id l]. cbn [en_id en_items] in *. cbn. rewrite <- app_assoc. apply dc_enum.
    + assert (V : variants_g (print_items st l ++ TSym "}" :: r) l (TSym "}" :: r))
        by (apply print_items_g; auto; nn).
      cbn. clear - V N. inversion V as [ts m r' P]; subst. apply positioned_starts in P; [exact P|].
      now intros ->.
    + apply print_items_g; auto; nn.
  - destruct s as [id l em into]. cbn. intros (W & -> & ->). destruct l as [|f l]; [constructor|].
    cbn. rewrite <- app_assoc. apply dc_struct.
    + assert (V : fields_g (print_fields st (f :: l) ++ TSym "}" :: r) (f :: l) (TSym "}" :: r))
        by (apply print_fields_g; auto; nn).
      cbn. clear - V. remember (f :: l) as l' eqn:EL. inversion V as [ts m r' P]; subst.
      apply positioned_starts in P; [exact P|]. now intros ->.
    + apply print_fields_g; auto; nn.
  - apply print_fn_g.
  - intros W. apply dc_directive. now apply print_directive_g.
  - intros W. apply dc_const. now apply print_const_g.
Qed.

Lemma print_schema_g st : forall l k, wf_schema k l ->
  schema_g k (print_schema st l) l.
Proof.
  unfold print_schema. induction l as [|n l IH]; intros k W; cbn.
  - constructor. right. now exists [].
  - destruct W as [W W']. rewrite <- app_assoc. eapply sg_decl; [now apply print_decl_g|]. now apply IH.
Qed.

(** ** Everything derivable is well-formed *)

Lemma type_g_wf :
  (forall ts t r, type_g ts t r -> wf_type t)
  /\ (forall ts l r, type_args_g ts l r -> wf_types l)
  /\ (forall ts r, broken_args_g ts r -> True).
Proof. apply type_g_mutind; intros; auto; econstructor; eassumption. Qed.

Lemma sep_list_forall {A} starts (item : toks -> A -> toks -> Prop) (P : A -> Prop) :
  (forall ts x r, item ts x r -> P x) ->
  forall ts l r, sep_list_g starts item ts l r -> Forall P l.
Proof. intros HI ts l r H. induction H; constructor; eauto. Qed.

Lemma number_from_fst {A} : forall (l : list A) k,
  map fst (number_from (N.of_nat k) l) = map N.of_nat (seq k (length l)).
Proof.
  induction l as [|x l IH]; intros k; [reflexivity|]. cbn. f_equal.
  replace (N.of_nat k + 1)%N with (N.of_nat (S k)) by lia. apply IH.
Qed.
Lemma number_from_length {A} : forall (l : list A) k, length (number_from k l) = length l.
Proof. induction l as [|x l IH]; intros k; [reflexivity|]. cbn. now rewrite IH. Qed.
Lemma number_from_forall {A} (P : A -> Prop) : forall (l : list A) k, Forall P l ->
  Forall (fun x => P (snd x)) (number_from k l).
Proof. intros l k H. revert k. induction H; intros k; cbn; constructor; auto. Qed.

Lemma positioned_wf {A} (item : toks -> A -> toks -> Prop) (P : A -> Prop) :
  (forall ts x r, item ts x r -> P x) ->
  forall ts l r, positioned_g item ts l r -> wf_positions (map fst l) /\ Forall (fun x => P (snd x)) l.
Proof.
  intros HI ts l r [ts' l' r' S H|ts' l' r' S H].
  - assert (F : Forall (fun x => fits (fst x) = true /\ P (snd x)) l').
    { eapply sep_list_forall; [|exact H]. intros a x b [? ? ? ? rr PG I]. cbn. split; [|eauto].
      destruct PG as [z rz]. unfold fits. apply N.ltb_lt. assert (0 <= z mod 2 ^ 32 < 2 ^ 32)%Z by now apply Z.mod_pos_bound.
      lia. }
    split.
    + left. apply forallb_forall. intros p I. apply in_map_iff in I. destruct I as (x & <- & I).
      rewrite Forall_forall in F. now apply F.
    + eapply Forall_impl; [|exact F]. now intros x [].
  - split.
    + right. unfold counted. rewrite map_length, number_from_length. apply (number_from_fst _ 0).
    + apply number_from_forall. eapply sep_list_forall; eassumption.
Qed.

Lemma binding_wf ts x r : binding_g ts x r -> wf_type (snd x).
Proof. intros [n ts' t r' H]. cbn. eapply type_g_wf, H. Qed.

Lemma fields_wf ts l r : fields_g ts l r -> wf_fields l.
Proof.
  intros [ts' l' r' H]. apply (positioned_wf _ (fun x => wf_type (snd x)) binding_wf) in H.
  destruct H as [W F]. split.
  - now rewrite map_map.
  - apply Forall_map. exact F.
Qed.

Lemma tuple_wf ts l r : tuple_g ts l r -> wf_tuple l.
Proof.
  intros [ts' l' r' H]. apply (positioned_wf _ wf_type) in H; [|apply type_g_wf].
  destruct H as [W F]. split.
  - now rewrite map_map.
  - apply Forall_map. exact F.
Qed.

Lemma variant_wf ts v r : variant_g ts v r -> forall p, wf_item (v p) /\ item_position (v p) = p.
Proof.
  intros [n r' _ _|n ts' l r' H|n ts' l r' H] p; cbn; split; auto.
  - eapply tuple_wf, H.
  - eapply fields_wf, H.
Qed.

Lemma variants_wf ts l r : variants_g ts l r -> wf_items l.
Proof.
  intros [ts' l' r' H]. apply (positioned_wf _ _ variant_wf) in H. destruct H as [W F]. split.
  - rewrite map_map. erewrite map_ext_in; [exact W|]. intros x I. rewrite Forall_forall in F.
    now apply F.
  - apply Forall_map. eapply Forall_impl; [|exact F]. intros x H. apply H.
Qed.

Lemma const_wf :
  (forall ts c r, const_g ts c r -> wf_const c)
  /\ (forall ts l r, const_items_g ts l r -> wf_const_items l).
Proof.
  apply const_g_mutind; intros; try (econstructor; eauto; fail).
  constructor; auto; [|now exists v]. eapply type_g_wf. eassumption.
Qed.

Lemma returns_wf ts o r : returns_g ts o r -> match o with None => True | Some t => wf_type t end.
Proof. intros [|ts' t r' H]; [exact I|]. eapply type_g_wf, H. Qed.

Lemma method_wf a k ts f r : method_g a k ts f r -> wf_fn k f.
Proof.
  intros [n ts' l ts'' ret r' H R|n ts' ret r' R]; unfold wf_fn; cbn.
  - split; [reflexivity|]. split; [|split; [eapply returns_wf, R|discriminate]].
    apply Forall_map. exact (sep_list_forall _ _ (fun x => wf_type (snd x)) binding_wf _ _ _ H).
  - split; [reflexivity|]. split; [constructor|]. split; [eapply returns_wf, R|reflexivity].
Qed.

Lemma positioned_nonempty {A} (item : toks -> A -> toks -> Prop) ts l r :
  positioned_g item ts l r -> next_is (TSym "#") ts \/ next_is_id ts -> l <> [].
Proof.
  intros [ts' l' r' S H|ts' l' r' S H] N.
  - destruct H; try discriminate. contradiction.
  - destruct N as [N|N]; [contradiction|]. destruct H; try discriminate. contradiction.
Qed.

Lemma decl_wf k ts n r : decl_g k ts n r -> wf_decl k n.
Proof.
  intros [m r'|m ts' l r' S H|m ts' l r' S H|ts' f r' H|ts' f r' H|ts' m r' H|ts' d r' H]; cbn.
  - split; [|auto]. split; [now left|constructor].
  - split; [|auto]. eapply fields_wf, H.
  - split; [eapply variants_wf, H|]. destruct H as [ts' l' r'' H].
    apply positioned_nonempty in H; [|assumption]. now destruct l'.
  - eapply method_wf, H.
  - eapply method_wf, H.
  - eapply const_wf, H.
  - destruct H as [i v val r' V|i ts' l close r' H]; cbn.
    + now exists v.
    + eapply sep_list_forall; [|exact H]. intros a x b [i' v val r0 V]. cbn. now exists v.
Qed.

Lemma schema_wf k ts l : schema_g k ts l -> wf_schema k l.
Proof. intros H. induction H as [|k ts n ts' l D H IH]; cbn; [exact I|]. split; [eapply decl_wf, D|assumption]. Qed.
