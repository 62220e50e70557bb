(** The generated Dart codecs of two versions of a schema. *)
Require Import Coq.Strings.String Coq.Strings.Ascii.
Require Import Coq.NArith.NArith Coq.ZArith.ZArith Coq.Lists.List Coq.Bool.Bool Coq.Arith.PeanoNat Coq.micromega.Lia.
Require Import Coq.micromega.ZifyBool Coq.micromega.ZifyN Coq.micromega.ZifyNat.
Require Import Verif.Base Verif.Ast Verif.Writer Verif.CaseConv Verif.Code Verif.NumText Verif.RustSem Verif.Wire Verif.RustCodec.
Require Import Verif.DartSyntax Verif.DartGen Verif.DartTree Verif.DartSem Verif.DartWire Verif.DartLexedEnum Verif.DartRun Verif.DartShape Verif.DartCodec.
Require Import Verif.EvolveSpec.
Require Verif.EvolveRust Verif.CodecFacts.
Import ListNotations.
Local Open Scope string_scope.
Local Open Scope list_scope.

Lemma throws_bind {A B} (m : dM A) (f : A -> dM B) s x : m s = DThrows x -> dbind m f s = DThrows x.
Proof. intros H. unfold dbind. now rewrite H. Qed.

(** ** Bytes that a reader refuses *)
Section Refusing.
Variable D : druntime.
Variable U : support.
Variable items : list ditem.
Variable ds : list decl.
Variable cd : nat.
Hypothesis file : forall d i, In d ds -> In i (decl_items d) -> In i items.
Hypothesis names : NoDup (top_names items).
Hypothesis libs : forall n, In n lib_names -> ~ In n (top_names items).
Hypothesis okd : forallb dart_decl_ok ds = true.
Hypothesis law : dlawful D U.
Notation classes := (top_names items).
Notation KK n := (dcalls_upto D items n).
Notation dtyped := (dtyped U ds classes cd).
Notation dwire := (dwire D U ds).
Notation shaped := (shaped ds classes).
Notation shaped_slots := (shaped_slots ds classes).
Notation wires := (wires D U ds).
Notation reads := (reads D U items ds).
Notation fills := (fills D U items ds).
Notation fillable := (fillable D U items ds cd).
Notation run n th := (dchain (fun s e => DartSem.ev_st D items (KK n) th s e)).
Notation Throws := (DThrows "StateError").

Definition refuses (n : nat) (b : bytes) (t : type_id) : Prop := forall s r, d_rd s = b ++ r ->
  method D items (KK n) (into_obj t) "read" (pos [dreader]) s = Throws /\
  (forall w fp, shaped (d_heap s) w t fp -> NoDup fp -> method D items (KK n) (emplace_obj t) "read" (pos [dreader; w]) s = Throws).
Lemma refuses_more n b c t : refuses n b t -> refuses n (b ++ c) t.
Proof. intros R s r E. apply (R s (c ++ r)). now rewrite app_assoc. Qed.

(** A type whose codecs are called, and refused bytes. *)
Definition bad (n : nat) (b : bytes) (t : type_id) : Prop :=
  Wire.prim_name t = None /\ DartTree.is_string t = false /\ known items ds t /\ refuses n b t.

Definition good (n : nat) (v : val) (p : slot) : Prop :=
  dtyped v (snd p) = true /\ (Wire.prim_name (snd p) = None -> reads n v (snd p) /\ fills n v (snd p)).
Lemma good_reads n vs ss : Forall2 (good n) vs ss -> Forall2 (fun v p => dtyped v (snd p) = true /\ (Wire.prim_name (snd p) = None -> reads n v (snd p))) vs ss.
Proof. intros F. eapply Forall2_imp_in; [exact F|]. intros v p _ [T R]. split; [exact T|]. intros P. now apply R. Qed.
Lemma good_fills n vs ss : Forall2 (good n) vs ss -> Forall2 (fun v p => fillable n v (snd p)) vs ss.
Proof. intros F. eapply Forall2_imp_in; [exact F|]. intros v p _ [T R]. split; [exact T|]. intros P. destruct (DartTree.is_string (snd p)); now apply R. Qed.

Lemma refuse_field n th t b en s r : bad (S n) b t -> DartSem.lookup "reader" en = Some dreader -> d_rd s = b ++ r ->
  DartSem.ev D items (KK (S n)) th (read_ex t) en s = Throws.
Proof.
  intros (P & _ & K & R) L E. unfold read_ex. rewrite (not_prim t P). destruct (R s r E) as [X _]. rewrite <- X.
  apply (ev_into_call D items ds file names libs okd); [assumption|]. constructor; [|constructor]. now apply ev_var.
Qed.
Lemma refuse_fields n th vs (ss : list slot) (p : slot) (more : list slot) b en s r : Forall2 (good (S n)) vs ss -> bad (S n) b (snd p) ->
  DartSem.lookup "reader" en = Some dreader -> d_rd s = wires vs ss ++ b ++ r ->
  NoDup (map fst (ss ++ p :: more)) -> (forall x, In x (map fst (ss ++ p :: more)) -> DartSem.lookup x en = None) ->
  run (S n) th (map (fun p => DFinal (fst p) (read_ex (snd p))) (ss ++ p :: more)) en s = Throws.
Proof.
  intros F B L E N O. rewrite map_app in N, O. cbn [map] in N, O.
  destruct (read_fields D U items ds cd file names libs okd law n th vs ss (good_reads _ _ _ F) en s (b ++ r) L E) as (vals & h' & E1 & K1 & C1 & _).
  { now apply NoDup_app_remove_r in N. }
  { intros x I. apply O, in_or_app. now left. }
  rewrite map_app, dchain_app, (dbind_done _ _ _ _ _ E1). cbn [map]. rewrite dchain_cons. apply throws_bind. cbn [DartSem.ev_st].
  assert (NV : ~ In (fst p) (map fst vals)).
  { rewrite K1. intros I. apply (NoDup_app_disjoint _ _ (fst p) N I). now left. }
  assert (LX : DartSem.lookup (fst p) (rev vals ++ en) = None).
  { apply lookup_none. rewrite map_app, map_rev. intros I. apply in_app_or in I as [I|I]; [apply in_rev in I; contradiction|].
    revert I. change (~ In (fst p) (map fst en)). intros I. apply in_map_iff in I as ([y u] & Y & I). cbn in Y. subst y.
    assert (LN : DartSem.lookup (fst p) en = None) by (apply O, in_or_app; right; now left).
    clear - LN I. induction en as [|[z w] en IH]; [destruct I|]. cbn [DartSem.lookup] in LN. destruct (String.eqb_spec (fst p) z) as [Z|Z]; [discriminate|].
    destruct I as [I|I]; [congruence|auto]. }
  rewrite LX. apply throws_bind. eapply refuse_field; [exact B| |reflexivity].
  assert (NR : ~ In "reader" (map fst vals)).
  { rewrite K1. intros I. assert (X : DartSem.lookup "reader" en = None) by (apply O, in_or_app; now left). congruence. }
  clear - NR L. assert (X : forall l, ~ In "reader" (map fst l) -> DartSem.lookup "reader" (l ++ en) = Some dreader).
  { induction l as [|[y u] l IH]; intros I; [exact L|]. cbn [app DartSem.lookup]. destruct (String.eqb_spec "reader" y) as [Y|Y]; [exfalso; apply I; left; now symmetry|].
    apply IH. intros J. apply I. now right. }
  apply X. rewrite map_rev. intros I. now apply in_rev in I.
Qed.

Lemma slots_split h cfs (ss : list slot) (p : slot) (more : list slot) fp : shaped_slots h cfs (ss ++ p :: more) fp -> exists fp1 w fp2 fp3,
  fp = fp1 ++ fp2 ++ fp3 /\ shaped_slots h cfs ss fp1 /\ DartSem.lookup (fst p) cfs = Some w /\ shaped h w (snd p) fp2.
Proof.
  revert fp. induction ss as [|[x t] ss IH]; intros fp S; cbn [app] in S.
  - destruct p as [x t]. inversion S as [|cfs0 n0 t0 l0 w fp1 fp2 L S1 S2 Q1 Q2 Q3]. subst. exists [], w, fp1, fp2. split; [reflexivity|].
    split; [constructor|]. split; assumption.
  - inversion S as [|cfs0 n0 t0 l0 w fp1 fp2 L S1 S2 Q1 Q2 Q3]. subst. destruct (IH _ S2) as (f1 & w2 & f2 & f3 & -> & H1 & H2 & H3).
    exists (fp1 ++ f1), w2, f2, f3. split; [now rewrite app_assoc|]. split; [|split; assumption]. eapply sl_cons; eassumption.
Qed.
Lemma refuse_fill_fields n th vs (ss : list slot) (p : slot) (more : list slot) b en s r a c cfs fp : Forall2 (good (S n)) vs ss -> bad (S n) b (snd p) ->
  DartSem.lookup "reader" en = Some dreader -> DartSem.lookup "model" en = Some (dref a) ->
  nth_error (d_heap s) a = Some (CObj c cfs) -> shaped_slots (d_heap s) cfs (ss ++ p :: more) fp -> NoDup (a :: fp) ->
  NoDup (map fst (ss ++ p :: more)) -> d_rd s = wires vs ss ++ b ++ r ->
  run (S n) th (map (fun p => read_emplace_st (snd p) (DartTree.field (var "model") (fst p))) (ss ++ p :: more)) en s = Throws.
Proof.
  intros F B LR LM A SP ND NS E. rewrite map_app in NS. cbn [map] in NS.
  destruct (slots_split _ _ _ _ _ _ SP) as (fp1 & w & fp2 & fp3 & -> & S1 & LW & S2).
  apply NoDup_cons_iff in ND as [NA ND].
  assert (ND1 : NoDup (a :: fp1)). { constructor; [intros I; apply NA, in_or_app; now left|now apply NoDup_app_remove_r in ND]. }
  destruct (fill_fields D U items ds cd file names libs okd law n th vs ss (good_fills _ _ _ F) en s (b ++ r) a c cfs fp1 LR LM A S1 ND1) as (h' & cfs' & E1 & C1 & A1 & O1 & _).
  { now apply NoDup_app_remove_r in NS. }
  { exact E. }
  rewrite map_app, dchain_app, (dbind_done _ _ _ _ _ E1). cbn [map]. rewrite dchain_cons. apply throws_bind.
  destruct B as (P & Q & K & R). unfold read_emplace_st. rewrite (not_prim _ P), Q. cbn [orb DartSem.ev_st]. apply throws_bind.
  assert (LW' : DartSem.lookup (fst p) cfs' = Some w).
  { rewrite O1; [exact LW|]. intros I. apply (NoDup_app_disjoint _ _ (fst p) NS I). now left. }
  assert (S2' : shaped h' w (snd p) fp2).
  { eapply shaped_frame; [exact S2|]. eapply changes_same; [exact C1|]. intros x I. split; [eapply shaped_dom; eassumption|].
    intros [<-|J]; [apply NA, in_or_app; right; apply in_or_app; now left|].
    apply (NoDup_app_disjoint _ _ x ND J). apply in_or_app. now left. }
  rewrite (ev_emplace_call D items ds file names libs okd n th (snd p) "read" [var "reader"; DartTree.field (var "model") (fst p)] en [dreader; w]).
  - destruct (R (set_heap h' (set_drd (b ++ r) s)) r eq_refl) as [_ X]. apply (X w fp2); [exact S2'|].
    apply NoDup_app_remove_l in ND. now apply NoDup_app_remove_r in ND.
  - exact K.
  - constructor; [now apply ev_var|]. constructor; [|constructor]. eapply ev_field; [exact LM|exact A1|exact LW'|].
    eapply (shaped_not_late items ds); eassumption.
Qed.

(** The reader of a struct, also of the struct of an item. *)
Lemma refuse_fill_struct n c st wr sk vs (ss : list slot) (p : slot) (more : list slot) b s r a cfs fp : find_class c items = Some (codec_members c (struct_emplace_read st) wr sk) ->
  map field_slot (sn_fields st) = ss ++ p :: more -> Forall2 (good (S n)) vs ss -> bad (S n) b (snd p) -> NoDup (map fname (sn_fields st)) ->
  nth_error (d_heap s) a = Some (CObj (sn_id st) cfs) -> shaped_slots (d_heap s) cfs (map field_slot (sn_fields st)) fp -> NoDup (a :: fp) ->
  d_rd s = wires vs ss ++ b ++ r ->
  method D items (KK (S (S n))) (dobj c [] []) "read" (pos [dreader; dref a]) s = Throws.
Proof.
  intros FC SL F B NN A SP ND E.
  rewrite (codec_call D items (S n) c _ _ _ "read" [reader_param; model_param (sn_id st)] (BBlock (map (fun f => read_emplace_st (sf_type f) (model_field f)) (sn_fields st)))
     [dreader; dref a] [("reader", dreader); ("model", dref a)] s FC eq_refl eq_refl).
  apply body_throws. pose proof (slot_names st) as SN. rewrite SL in *. rewrite <- SN in NN.
  pose proof (refuse_fill_fields n (Some (dobj c [] [], c)) vs ss p more b [("reader", dreader); ("model", dref a)] s r a _ cfs fp F B eq_refl eq_refl A SP ND NN E) as X.
  rewrite <- SL in X. rewrite map_map in X. exact X.
Qed.
Lemma refuses_struct n m st vs (ss : list slot) (p : slot) (more : list slot) b : decl_of m ds = Some (DStruct st) ->
  map field_slot (sn_fields st) = ss ++ p :: more -> Forall2 (good (S n)) vs ss -> bad (S n) b (snd p) ->
  refuses (S (S n)) (wires vs ss ++ b) (TyOther m).
Proof.
  intros E SL F B s r W. rewrite <- app_assoc in W.
  destruct (struct_conditions ds okd m st E) as (NS & A & _ & _ & ND & NR & NI). pose proof (struct_id ds m st E) as SI.
  split.
  - pose proof (struct_into items ds file names okd m st E) as FC. cbn [into_obj generate_class_prefix].
    rewrite (codec_call D items (S n) _ _ _ _ "read" [reader_param] _ [dreader] [("reader", dreader)] s FC eq_refl eq_refl).
    apply body_throws. rewrite dchain_app. apply throws_bind. pose proof (slot_names st) as SN. rewrite SL in SN.
    pose proof (refuse_fields n (Some (dobj (m ++ "IntoBuffers") [] [], (m ++ "IntoBuffers")%string)) vs ss p more b [("reader", dreader)] s r F B eq_refl W) as X.
    rewrite SN in X. rewrite <- SL, map_map in X. apply X; [assumption|].
    intros x I. cbn [DartSem.lookup]. destruct (String.eqb_spec x "reader") as [->|]; [contradiction|reflexivity].
  - intros w fp SP NF. pose proof (struct_emplace items ds file names okd m st E) as FC.
    assert (NS' : String.eqb m "String" = false) by now apply String.eqb_neq.
    cbn [emplace_obj DartTree.is_string generate_class_prefix]. rewrite NS'.
    inversion SP as [w0 t0 P|w0|a0 m0 x0 X1 X2 X3|a0 g l x X1 X2|a0 t0 l X1|n0 s0 X1 X2|n0 s0 a cfs fp' X1 X2 X3 X4|n0 e a cfs v fp' X1 X2 X3 X4]; subst.
    + now contradiction P.
    + congruence.
    + destruct (outside_not items ds _ X2) as (_ & _ & Q). congruence.
    + assert (s0 = st) by congruence. subst s0. rewrite X2 in SL. destruct ss; discriminate SL.
    + assert (s0 = st) by congruence. subst s0. eapply refuse_fill_struct; eassumption.
    + congruence.
Qed.

(** *** Enums *)
Lemma refuse_case n th m e i vs (ss : list slot) (p : slot) (more : list slot) b en s r a fp rest : decl_of m ds = Some (Wire.DEnum e) -> In i (en_items e) -> codec_this items th ->
  item_slots i = ss ++ p :: more -> Forall2 (good (S n)) vs ss -> bad (S n) b (snd p) ->
  DartSem.lookup "reader" en = Some dreader -> DartSem.lookup "model" en = Some (dref a) -> DartSem.lookup (m ++ "Value") en = None ->
  shaped (d_heap s) (dref a) (TyOther m) fp -> NoDup fp -> d_rd s = wires vs ss ++ b ++ r ->
  run (S (S n)) th (set_value m i :: DExpr (call (item_codec m i) "read" [var "reader"; model_item i]) :: rest) en s = Throws.
Proof.
  intros E I TH IS F B LR LM LV SP ND W. destruct (enum_shape items ds okd _ _ _ _ _ E SP) as (a' & cfs & v0 & fp' & Q1 & -> & A & V0 & SI).
  injection Q1 as <-. destruct (enum_conditions ds okd m e E) as (_ & _ & _ & _ & NN & _). apply NoDup_cons_iff in NN as [NV NN].
  apply NoDup_cons_iff in ND as [NA ND].
  destruct (set_key_some "value" (dmem (m ++ "Value") (camel (item_name i))) cfs v0 V0) as [cfs1 SK].
  set (h1 := set_cell a (CObj m cfs1) (d_heap s)).
  assert (LA : a < List.length (d_heap s)) by now apply nth_some_lt in A.
  assert (A1 : nth_error h1 a = Some (CObj m cfs1)) by now apply set_cell_same.
  assert (O1 : forall j, In j (en_items e) -> DartSem.lookup (camel (item_name j)) cfs1 = DartSem.lookup (camel (item_name j)) cfs).
  { intros j J. eapply lookup_set_other; [|exact SK]. intros Q. apply NV. rewrite Q. now apply (in_map (fun i => camel (item_name i))). }
  assert (SI1 : shaped_items ds classes h1 m cfs1 (en_items e) fp').
  { eapply items_fields with (cfs := cfs).
    - eapply items_frame; [exact SI|]. eapply changes_same; [apply changes_set|]. intros x J. split; [eapply items_dom; eassumption|].
      intros [<-|[]]. contradiction.
    - intros x J. apply in_map_iff in J as (j & <- & J). now apply O1. }
  assert (E1 : DartSem.ev_st D items (KK (S (S n))) th (set_value m i) en s = DDone en (set_heap h1 s)).
  { unfold set_value, set_st. eapply ev_expr. change (item_id i) with (item_name i). erewrite ev_set_field; [reflexivity|exact LM| |exact A|exact SK|reflexivity].
    eapply (ev_enum_value D items ds); try eassumption. }
  pose proof (item_emplace items ds file names m e i E I) as FC. cbv zeta in FC.
  pose proof (item_struct_slots e i) as SL. pose proof (item_struct_id e i) as SID. rewrite (enum_id ds m e E) in SID.
  destruct (item_conditions ds okd m e i E I) as (_ & NSL & _).
  rewrite (run_first D items (KK (S (S n))) th _ _ en s _ _ E1). rewrite dchain_cons. apply throws_bind. cbn [DartSem.ev_st]. apply throws_bind.
  destruct (items_select items ds _ _ _ _ _ _ SI1 I) as [[Z _]|(NZ & x & gfs & fpi & LU & X & SB & IN & FR)]; [rewrite Z in IS; destruct ss; discriminate IS|].
  destruct (FR ND) as [NB _]. rewrite <- SL in SB, IS. rewrite <- SID in X.
  unfold item_codec, const0. change (item_id i) with (item_name i). erewrite ev_call_const.
  - eapply (refuse_fill_struct n _ (create_enum_item_struct_ast_node e i) _ _ vs ss p more b (set_heap h1 s) r x gfs fpi FC IS F B); try eassumption.
    now rewrite <- slot_names, SL.
  - eapply ev_const_class, FC.
  - constructor; [now apply ev_var|]. constructor; [|constructor]. unfold model_item. change (item_id i) with (item_name i). eapply ev_field; [exact LM|exact A1|exact LU|discriminate].
Qed.
Lemma refuses_enum n m e i vs (ss : list slot) (p : slot) (more : list slot) b : decl_of m ds = Some (Wire.DEnum e) -> In i (en_items e) ->
  creatable ds classes cd (TyOther m) = true -> 3 * cd <= n + 2 ->
  item_slots i = ss ++ p :: more -> Forall2 (good (S n)) vs ss -> bad (S n) b (snd p) ->
  refuses (S (S (S n))) (rd_put D "Int32" (Z.of_N (item_pos i)) ++ wires vs ss ++ b) (TyOther m).
Proof.
  intros E I C LN IS F B s r W. rewrite <- !app_assoc in W.
  destruct (enum_conditions ds okd m e E) as (NS & AM & AV & NP & NN & _).
  destruct (item_conditions ds okd m e i E I) as (_ & _ & PB).
  set (s1 := set_drd (wires vs ss ++ b ++ r) s).
  split.
  - pose proof (enum_into items ds file names m e E) as FC. pose proof (codec_members_this _ _ _ _ _ _ _ _ _ _ _ _ _ _ FC eq_refl eq_refl eq_refl) as TH.
    destruct (creatable_enum items ds cd m e E C) as (cd' & CD & C1 & C2).
    assert (NE : en_items e <> []) by (intros H; rewrite H in C1; discriminate).
    assert (G : Forall (fun i => Forall (fun p => made D U items ds n (snd p)) (item_slots i) /\ match i with ItemEmpty _ _ => True | _ => item_slots i <> [] end) (en_items e)).
    { rewrite Forall_forall. intros j J. rewrite forallb_forall in C2. specialize (C2 j J). apply andb_true_iff in C2 as [C2 C3]. split.
      - rewrite Forall_forall. intros q Q. rewrite forallb_forall in C2. apply (creatable_made D U items ds file names libs okd cd'); [now apply C2|]. clear - LN CD. lia.
      - destruct j as [?|? ? [|]|? ? [|]]; try exact Logic.I; try discriminate C3; cbn; discriminate. }
    destruct (new_enum D U items ds file names okd n m e E NE G s1) as (a & h1 & fp & E1 & N1 & S1 & _).
    set (th := Some (dobj (m ++ "IntoBuffers") [] [], (m ++ "IntoBuffers")%string)) in *.
    cbn [into_obj generate_class_prefix]. rewrite (codec_call D items (S (S n)) _ _ _ _ "read" [reader_param] _ [dreader] [("reader", dreader)] s FC eq_refl eq_refl).
    apply body_throws. unfold read_tag. rewrite (run_final D items (KK (S (S n))) th "value" _ _ [("reader", dreader)] s (dint (Z.of_N (item_pos i))) s1 eq_refl).
    2: { apply (read_tag_done D U items law); [exact PB|reflexivity|exact W]. }
    rewrite dchain_cons. rewrite (enum_id ds m e E). apply throws_bind.
    rewrite (switch_tag D items (KK (S (S n))) th (fun i => [DFinal "model" (new m); set_value m i; DExpr (call (item_codec m i) "read" [var "reader"; model_item i]); DReturn (Some (var "model"))])
      (en_items e) [unsupported] i [("value", dint (Z.of_N (item_pos i))); ("reader", dreader)] s1 (Z.of_N (item_pos i)) eq_refl eq_refl I NP).
    erewrite run_final; [|reflexivity|].
    2: { unfold new. erewrite ev_new; [|apply (codec_name items); [exact TH|apply lookup_local; [cbn; tauto|exact AM]|exact AM|]|reflexivity].
         - rewrite (codec_call_name D items); [exact E1|exact TH|exact AM|]. destruct (en_items e) as [|f l] eqn:Q; [congruence|].
           destruct (enum_models items ds file names m e f l E Q) as (X & _). eapply has_class_some, X.
         - destruct (en_items e) as [|f l] eqn:Q; [congruence|]. now destruct (enum_models items ds file names m e f l E Q) as (_ & X & _). }
    rewrite (refuse_case n th m e i vs ss p more b _ (set_heap h1 s1) r a fp _ E I TH IS F B); try reflexivity.
    { apply lookup_local; [|exact AV]. cbn. tauto. }
    { exact S1. } { apply N1. }
  - intros w fp SP ND. pose proof (enum_emplace items ds file names m e E) as FC. pose proof (codec_members_this _ _ _ _ _ _ _ _ _ _ _ _ _ _ FC eq_refl eq_refl eq_refl) as TH.
    destruct (enum_shape items ds okd _ _ _ _ _ E SP) as (a & cfs0 & v0 & fp' & -> & _ & _).
    assert (NS' : String.eqb m "String" = false) by now apply String.eqb_neq.
    set (th := Some (dobj (m ++ "EmplaceToBuffers") [] [], (m ++ "EmplaceToBuffers")%string)) in *.
    cbn [emplace_obj DartTree.is_string generate_class_prefix]. rewrite NS'.
    rewrite (codec_call D items (S (S n)) _ _ _ _ "read" [reader_param; model_param (en_id e)] _ [dreader; dref a] [("reader", dreader); ("model", dref a)] s FC eq_refl eq_refl).
    apply body_throws. unfold read_tag. rewrite (run_final D items (KK (S (S n))) th "value" _ _ [("reader", dreader); ("model", dref a)] s (dint (Z.of_N (item_pos i))) s1 eq_refl).
    2: { apply (read_tag_done D U items law); [exact PB|reflexivity|exact W]. }
    rewrite dchain_cons. rewrite (enum_id ds m e E). apply throws_bind.
    rewrite (switch_tag D items (KK (S (S n))) th (fun i => [set_value m i; DExpr (call (item_codec m i) "read" [var "reader"; model_item i]); DReturn None])
      (en_items e) [unsupported] i [("value", dint (Z.of_N (item_pos i))); ("reader", dreader); ("model", dref a)] s1 (Z.of_N (item_pos i)) eq_refl eq_refl I NP).
    rewrite (refuse_case n th m e i vs ss p more b _ s1 r a fp _ E I TH IS F B); try reflexivity.
    { apply lookup_local; [|exact AV]. cbn. tauto. }
    { exact SP. } { exact ND. }
Qed.
Lemma refuses_tag n m e z : decl_of m ds = Some (Wire.DEnum e) -> dart_range "Int32" z = true ->
  ~ In z (map (fun i => Z.of_N (item_pos i)) (en_items e)) -> refuses (S n) (rd_put D "Int32" z) (TyOther m).
Proof.
  intros E P NI s r W. destruct (unknown_tags D U items ds file names libs okd law n m e s r z E P NI W) as (A & B & _).
  split; [exact A|]. intros w fp _ _. apply B.
Qed.

(** *** Lists *)
Lemma refuse_elems n a vs b k : Forall (fun v => reads_elem D U items ds n v a) vs -> Wire.prim_name a = None -> element_type ds classes a = true ->
  refuses n b a -> forall s r, d_rd s = flat_map (fun v => dwire true v a) vs ++ b ++ r ->
  dmapM (fun _ => k_method (KK (S n)) (elem_obj a) "read" (pos [dreader])) (repeat RustSem.ok (List.length vs + S k)) s = Throws.
Proof.
  intros F P EA R. induction F as [|v vs RV F IH]; intros s r W.
  - cbn [List.length plus repeat]. rewrite dmapM_cons. apply throws_bind. destruct (R s r W) as [X _].
    replace (elem_obj a) with (into_obj a); [exact X|]. destruct a; try discriminate P; [discriminate EA|reflexivity].
  - cbn [flat_map] in W. rewrite <- app_assoc in W. destruct (RV s _ W) as (w & h1 & E1 & _ & _).
    cbn [List.length plus repeat]. rewrite dmapM_cons. rewrite (dbind_done _ _ s w _ E1). apply throws_bind. eapply IH. reflexivity.
Qed.
Lemma refuses_list n a vs b k : su_len U (List.length vs + S k) = true -> Forall (fun v => reads_elem D U items ds n v a) vs ->
  Wire.prim_name a = None -> element_type ds classes a = true -> refuses n b a ->
  refuses (S n) (rd_len_put D (List.length vs + S k) ++ flat_map (fun v => dwire true v a) vs ++ b) (TyGeneric "Vec" [a]).
Proof.
  intros SL F P EA R s r W. rewrite <- !app_assoc in W.
  pose proof (refuse_elems n a vs b k F P EA R (set_drd (flat_map (fun v => dwire true v a) vs ++ b ++ r) s) r eq_refl) as X. cbn [pos map] in X.
  split.
  - change (into_obj (TyGeneric "Vec" [a])) with (dobj "ListIntoBuffers" [dty_of a] [elem_obj a]). unfold method. rewrite (lib_class items libs) by (cbn; tauto).
    change (codec_method D (KK (S n)) "ListIntoBuffers" [dty_of a] [elem_obj a] "read" (pos [dreader])) with (list_method D (KK (S n)) false (elem_obj a) "read" (pos [dreader])).
    unfold list_method. cbn [pos map String.eqb Ascii.eqb Bool.eqb negb andb]. unfold dbind at 1, take. rewrite W, (dlaw_len D U law _ _ SL).
    apply throws_bind. exact X.
  - intros w fp SP ND.
    assert (Y : exists c l0, w = dref c /\ fp = [c] /\ nth_error (d_heap s) c = Some (CList l0)).
    { inversion SP as [w0 t0 P0|w0|a0 m0 x0 X1 X2 X3|a0 g l0 x X1 X2|a0 t0 l0 X1|n0 s0 X1 X2|n0 s0 a0 cfs fp' X1 X2 X3 X4|n0 e0 a0 cfs v fp' X1 X2 X3 X4]; subst.
      - now contradiction P0.
      - now apply (opaque_not items ds) in X1 as (X1 & _).
      - eauto. }
    destruct Y as (c & l0 & -> & -> & A).
    change (emplace_obj (TyGeneric "Vec" [a])) with (dobj "ListEmplaceToBuffers" [dty_of a] [elem_obj a]). unfold method. rewrite (lib_class items libs) by (cbn; tauto).
    change (codec_method D (KK (S n)) "ListEmplaceToBuffers" [dty_of a] [elem_obj a] "read" (pos [dreader; dref c])) with
      (list_method D (KK (S n)) true (elem_obj a) "read" (pos [dreader; dref c])).
    unfold list_method. cbn [pos map String.eqb Ascii.eqb Bool.eqb negb andb]. unfold dbind at 1, get_cell. rewrite A.
    unfold dbind at 1, take. rewrite W, (dlaw_len D U law _ _ SL). apply throws_bind. exact X.
Qed.
End Refusing.

(** ** Two versions *)
Lemma field_slots_same l l' : map field_shape l' = map field_shape l -> map field_slot l' = map field_slot l.
Proof.
  intros E. assert (X : forall l, map field_slot l = map (fun p => (camel (fst p), snd p)) (map field_shape l)) by (intros k; now rewrite map_map).
  now rewrite !X, E.
Qed.
Lemma tuple_slots_same ts ts' : map tf_type ts' = map tf_type ts -> tuple_slots ts' = tuple_slots ts.
Proof.
  intros E. unfold tuple_slots, numbered.
  assert (X : forall l a, map (fun '(i, f) => (("v" ++ show_nat i)%string, tf_type f)) (combine (seq a (List.length l)) l) =
    map (fun '(i, t) => (("v" ++ show_nat i)%string, t)) (combine (seq a (List.length (map tf_type l))) (map tf_type l))).
  { clear. induction l as [|f l IH]; intros a; [reflexivity|]. cbn. now rewrite IH. }
  now rewrite !X, E.
Qed.
Lemma item_slots_same i j : same_case i j -> item_slots j = item_slots i.
Proof.
  destruct i, j; cbn [same_case item_slots]; try tauto; intros (_ & _ & E); [now apply tuple_slots_same|now apply field_slots_same].
Qed.
Lemma field_names_same l l' : map field_shape l' = map field_shape l -> map sf_name l' = map sf_name l.
Proof. intros E. change (map (fun f => fst (field_shape f)) l' = map (fun f => fst (field_shape f)) l). now rewrite <- !(map_map field_shape fst), E. Qed.

Lemma first_bad {A B} (P : A -> B -> Prop) (f : A -> B -> bool) l m : Forall2 P l m -> all2 f l m = false ->
  exists l1 a l2 m1 b m2, l = l1 ++ a :: l2 /\ m = m1 ++ b :: m2 /\ Forall2 P l1 m1 /\ Forall2 (fun a b => f a b = true) l1 m1 /\ P a b /\ f a b = false.
Proof.
  induction 1 as [|a b l m Q F IH]; intros H; [discriminate|]. cbn [all2] in H. destruct (f a b) eqn:E.
  - destruct (IH H) as (l1 & x & l2 & m1 & y & m2 & -> & -> & G & GF & X).
    exists (a :: l1), x, l2, (b :: m1), y, m2. repeat split; auto; apply X.
  - exists [], a, l, [], b, m. repeat split; auto.
Qed.
Lemma all2_true {A B} (f : A -> B -> bool) l m : all2 f l m = true <-> Forall2 (fun a b => f a b = true) l m.
Proof.
  split.
  - revert m. induction l as [|a l IH]; intros [|b m] H; try discriminate; constructor; cbn in H; apply andb_true_iff in H as [H1 H2]; auto.
  - induction 1 as [|a b l m H F IH]; [reflexivity|]. cbn. now rewrite H, IH.
Qed.
Lemma names_all2 (T : val -> type_id -> bool) fs l : all2 (fun '(x, v) f => String.eqb x (sf_name f) && T v (sf_type f)) fs l = true <->
  map fst fs = map sf_name l /\ Forall2 (fun v p => T v (snd p) = true) (map snd fs) (map field_slot l).
Proof.
  split.
  - revert l. induction fs as [|[x v] fs IH]; intros [|f l] H; try discriminate; [split; [reflexivity|constructor]|].
    cbn in H. apply andb_true_iff in H as [H1 H2]. apply andb_true_iff in H1 as [H0 H1]. apply String.eqb_eq in H0. destruct (IH l H2) as [E F].
    split; [cbn; congruence|]. cbn [map]. constructor; assumption.
  - intros [E F]. revert l E F. induction fs as [|[x v] fs IH]; intros [|f l] E F; try discriminate; [reflexivity|].
    cbn in E. injection E as E1 E2. cbn [map snd] in F. inversion F; subst. cbn [all2]. rewrite String.eqb_refl. cbn [andb]. rewrite (IH l E2) by assumption.
    rewrite andb_true_r. assumption.
Qed.
Lemma tuple_all2 (T : val -> type_id -> bool) l ts : all2 (fun v f => T v (tf_type f)) l ts = true <-> Forall2 (fun v p => T v (snd p) = true) l (tuple_slots ts).
Proof.
  unfold tuple_slots, numbered. generalize 0 as a. revert ts. induction l as [|v l IH]; intros [|f ts] a; cbn; (split; intros H; try discriminate; try (inversion H; fail)); try constructor; try reflexivity.
  - now apply andb_true_iff in H.
  - apply IH. now apply andb_true_iff in H.
  - inversion H; subst. apply andb_true_iff. split; [assumption|]. now apply (IH ts (S a)).
Qed.

Section Versions.
Variable D : druntime.
Variable U : support.
Variables items items' : list ditem.
Variables ds ds' : list decl.
Variable cd : nat.
Hypothesis file : forall d i, In d ds -> In i (decl_items d) -> In i items.
Hypothesis names : NoDup (top_names items).
Hypothesis libs : forall n, In n lib_names -> ~ In n (top_names items).
Hypothesis okd : forallb dart_decl_ok ds = true.
Hypothesis okd' : forallb dart_decl_ok ds' = true.
Hypothesis law : dlawful D U.
Hypothesis kept : forall n d, decl_of n ds = Some d -> exists d', decl_of n ds' = Some d' /\ grown_decl d d'.
Hypothesis foreign : forall n, In n (flat_map mentions (flat_map decl_types ds)) -> decl_of n ds = None -> decl_of n ds' = None.
Hypothesis named : CodecFacts.cases_named ds' = true.
Notation classes := (top_names items).
Notation classes' := (top_names items').
Notation dtyped := (dtyped U ds classes cd).
Notation dtyped' := (DartWire.dtyped U ds' classes' cd).
Notation dwire := (dwire D U ds).
Notation dwire' := (DartWire.dwire D U ds').

Definition settled (t : type_id) : Prop := forall n, In n (mentions t) -> decl_of n ds = None -> decl_of n ds' = None.
Lemma settled_part n d t : decl_of n ds = Some d -> In t (decl_types d) -> settled t.
Proof.
  intros E I m M. apply foreign. apply decl_of_in in E as [E _].
  apply in_flat_map. exists t. split; [|assumption]. apply in_flat_map. now exists d.
Qed.
Lemma settled_arg g l t : settled (TyGeneric g l) -> In t l -> settled t.
Proof. intros K I m M. apply K. cbn [mentions]. apply in_flat_map. now exists t. Qed.
Lemma struct_later n s : decl_of n ds = Some (DStruct s) -> exists s', decl_of n ds' = Some (DStruct s') /\
  map field_shape (sn_fields s') = map field_shape (sn_fields s).
Proof. intros E. destruct (kept n _ E) as ([s'|e'] & E' & G); [|contradiction]. now exists s'. Qed.
Lemma enum_later n e : decl_of n ds = Some (Wire.DEnum e) -> exists e', decl_of n ds' = Some (Wire.DEnum e') /\
  (forall i, In i (en_items e) -> exists i', item_of (item_name i) e' = Some i' /\ same_case i i').
Proof.
  intros E. destruct (kept n _ E) as ([s|e'] & E' & G); [contradiction|]. exists e'. split; [assumption|].
  intros i I. destruct (G i I) as (i' & I' & S). exists i'. split; [|assumption]. apply EvolveRust.item_of_named; [|assumption|now apply EvolveRust.same_case_name].
  unfold CodecFacts.cases_named in named. rewrite forallb_forall in named. apply decl_of_in in E' as [E' _]. exact (named _ E').
Qed.
Lemma slot_types_struct s : map snd (map field_slot (sn_fields s)) = map sf_type (sn_fields s).
Proof. now rewrite map_map. Qed.
Lemma slot_types_item i : map snd (item_slots i) = case_types i.
Proof.
  destruct i as [|p c ts|p c l]; cbn [item_slots case_types]; [reflexivity| |now rewrite map_map].
  unfold tuple_slots, numbered. generalize 0 as a. induction ts as [|f ts IH]; intros a; [reflexivity|]. cbn. now rewrite IH.
Qed.
Lemma settled_slot_struct n s p : decl_of n ds = Some (DStruct s) -> In p (map field_slot (sn_fields s)) -> settled (snd p).
Proof. intros E I. apply (settled_part n _ _ E). cbn [decl_types]. rewrite <- slot_types_struct. now apply in_map. Qed.
Lemma settled_slot_item n e i p : decl_of n ds = Some (Wire.DEnum e) -> In i (en_items e) -> In p (item_slots i) -> settled (snd p).
Proof.
  intros E I J. apply (settled_part n _ _ E). cbn [decl_types]. apply in_flat_map. exists i. split; [assumption|].
  rewrite <- slot_types_item. now apply in_map.
Qed.

(** Values of both versions have the same bytes. *)
Lemma cat2_ext {A B} (f g : A -> B -> bytes) l m : Forall2 (fun a b => f a b = g a b) l m -> cat2 f l m = cat2 g l m.
Proof. induction 1 as [|a b l m H F IH]; [reflexivity|]. cbn. now rewrite H, IH. Qed.
Lemma Forall2_both {A B} (P Q : A -> B -> Prop) l m : Forall2 P l m -> Forall2 Q l m -> Forall2 (fun a b => P a b /\ Q a b) l m.
Proof. intros F. induction F; intros G; inversion G; subst; constructor; auto. Qed.
Lemma Forall2_in_both {A B} (P Q : A -> B -> Prop) l m : Forall2 P l m -> (forall a b, In a l -> In b m -> P a b -> Q a b) -> Forall2 Q l m.
Proof. induction 1 as [|a b l m H F IH]; intros I; constructor; [apply I; [now left|now left|assumption]|]. apply IH. intros x y J K. apply I; now right. Qed.
Lemma same_wires vs ss (IH : forall v p, In v vs -> In p ss -> dtyped v (snd p) = true -> dtyped' v (snd p) = true -> dwire' false v (snd p) = dwire false v (snd p)) :
  Forall2 (fun v p => dtyped v (snd p) = true) vs ss -> Forall2 (fun v p => dtyped' v (snd p) = true) vs ss ->
  wires D U ds' vs ss = wires D U ds vs ss.
Proof.
  intros F G. unfold wires. apply cat2_ext. eapply Forall2_in_both; [exact (Forall2_both _ _ _ _ F G)|].
  intros v p I J [A B]. now apply IH.
Qed.
Lemma same_bytes d : forall v t elem, depth v <= d -> settled t -> dtyped v t = true -> dtyped' v t = true -> dwire' elem v t = dwire elem v t.
Proof.
  induction d as [d IH] using lt_wf_ind. intros v t elem DV K T T'.
  assert (SUB : forall u p b, In u (parts v) -> settled p -> dtyped u p = true -> dtyped' u p = true -> dwire' b u p = dwire b u p).
  { intros u p b I S A B. pose proof (sub_depth v u I) as L. apply (IH (depth u)); try assumption; lia. }
  assert (NE : forall b, Wire.prim_name t = None -> dwire b v t = dwire false v t /\ dwire' b v t = dwire' false v t).
  { intros b P. destruct b; [|auto]. split; [now apply (dwire_elem D U items ds cd)|now apply (dwire_elem D U items' ds' cd)]. }
  destruct (Wire.prim_name t) as [id|] eqn:P.
  - destruct (dtyped_prim U items ds cd v t T) as (p & z & -> & _); [congruence|]. reflexivity.
  - destruct (NE elem eq_refl) as [-> ->]. clear NE elem.
    destruct (value_cases U items ds cd v t T P) as [(m & x & ->)|[(k & l & a & -> & -> & EA & SL & F)|[(m & st & -> & E)|(m & e & -> & E)]]].
    + reflexivity.
    + cbn [DartWire.dwire]. f_equal. apply (dtyped_list U items' ds' cd) in T' as (a' & Q & _ & _ & _ & F' & _). injection Q as <-.
      rewrite Forall_forall in F, F'. assert (X : forall l', incl l' l -> flat_map (fun v => dwire' true v a) l' = flat_map (fun v => dwire true v a) l').
      { induction l' as [|u l' IHl]; intros IN; [reflexivity|]. cbn [flat_map]. rewrite IHl by (intros y Y; apply IN; now right). f_equal.
        assert (I : In u l) by (apply IN; now left). apply SUB; [exact I|apply (settled_arg _ _ _ K); now left|now apply F|now apply F']. }
      apply X. apply incl_refl.
    + destruct (struct_later m st E) as (st' & E' & SH). destruct (struct_case U items ds cd v m st T E) as (fs & -> & F).
      destruct (struct_case U items' ds' cd _ m st' T' E') as (fs' & Q & F'). injection Q as <-.
      rewrite (record_wires D U ds m st fs E), (record_wires D U ds' m st' fs E'). rewrite (field_slots_same _ _ SH) in F' |- *.
      apply same_wires; [|exact F|exact F']. intros u p I J. apply SUB; [exact I|]. now apply (settled_slot_struct m st).
    + destruct (enum_later m e E) as (e' & E' & IT). destruct (enum_case U items ds cd v m e T E) as (i & vs & IO & V & C & -> & F).
      destruct (enum_case U items' ds' cd v m e' T' E') as (i' & vs' & IO' & V' & _ & -> & F').
      apply find_item_in in IO as IN. destruct IN as [IN _]. destruct (IT i IN) as (i2 & IO2 & SC). destruct (EvolveRust.same_case_name i i2 SC) as [N2 P2].
      assert (NM : item_name i = item_name i').
      { clear - V V'. destruct v; try contradiction V; destruct i; try contradiction V; destruct i'; try contradiction V'; cbn in *; intuition congruence. }
      rewrite <- NM in IO'. assert (i2 = i') by congruence. subst i2. rewrite NM in IO'.
      rewrite (enum_wire D U ds v m e i _ V E IO), (enum_wire D U ds' v m e' i' _ V' E' IO'). rewrite (item_slots_same i i' SC) in F' |- *. rewrite P2. f_equal.
      apply same_wires; [|exact F|exact F']. intros u p I J. apply SUB; [exact I|]. now apply (settled_slot_item m e i).
Qed.

(** *** What the earlier reader makes of the bytes of a value of the later version *)
Hypothesis more_classes : incl classes classes'.
Hypothesis cases : forall e, In (Wire.DEnum e) ds -> en_items e <> [].

Lemma undeclared m : decl_of m ds' = None -> decl_of m ds = None.
Proof. intros H. destruct (decl_of m ds) as [d|] eqn:E; [|reflexivity]. destruct (kept m d E) as (d' & E' & _). congruence. Qed.
Lemma outside_before m : outside ds' classes' m = true -> outside ds classes m = true.
Proof.
  unfold outside. rewrite !andb_true_iff. intros ((A & B) & C). repeat split; try assumption.
  - unfold declared in *. destruct (decl_of m ds') eqn:E; [discriminate A|]. now rewrite (undeclared m E).
  - rewrite forallb_forall in C |- *. intros suf I. specialize (C suf I). apply negb_true_iff in C. apply negb_true_iff.
    apply not_true_iff_false in C. apply not_true_iff_false. intros H. apply C. apply existsb_exists in H as (x & J & Q). apply existsb_exists. exists x.
    split; [now apply more_classes|assumption].
Qed.
Lemma opaque_before g : opaque ds' classes' g = true -> opaque ds classes g = true.
Proof. unfold opaque. rewrite !andb_true_iff. intros (A & B). split; [assumption|]. now apply outside_before. Qed.
Lemma creatable_before k : forall t, settled t -> creatable ds' classes' k t = true -> creatable ds classes k t = true.
Proof.
  induction k as [|k IH]; intros t S C; (destruct t as [| | | |g l|m]; [reflexivity|reflexivity|reflexivity|reflexivity| |]).
  1, 3: cbn [creatable] in C |- *; apply orb_true_iff in C as [C|C]; [now rewrite C|now rewrite (opaque_before g C), orb_true_r].
  - cbn [creatable] in C |- *. destruct (decl_of m ds) as [d|] eqn:E.
    + destruct (kept m d E) as (d' & E' & _). rewrite E' in C. destruct d'; discriminate C.
    + rewrite (S m (or_introl eq_refl) E) in C. now apply outside_before.
  - cbn [creatable] in C |- *. destruct (decl_of m ds) as [[s|e]|] eqn:E.
    + destruct (struct_later m s E) as (s' & E' & SH). rewrite E' in C. rewrite forallb_forall in C |- *. intros f I.
      apply IH; [apply (settled_part m _ _ E); cbn [decl_types]; now apply in_map|].
      assert (J : In (sf_type f) (map sf_type (sn_fields s'))).
      { change (In (sf_type f) (map (fun f => snd (field_shape f)) (sn_fields s'))). rewrite <- (map_map field_shape snd), SH, map_map. now apply (in_map (fun f => snd (field_shape f))). }
      apply in_map_iff in J as (f' & <- & J). now apply C.
    + destruct (enum_later m e E) as (e' & E' & IT). rewrite E' in C. apply andb_true_iff in C as [_ C]. apply andb_true_iff. split.
      * apply decl_of_in in E as [E _]. pose proof (cases e E) as NE. now destruct (en_items e).
      * rewrite forallb_forall in C |- *. intros i I. destruct (IT i I) as (i' & IO & SC). apply find_item_in in IO as [IN _]. specialize (C i' IN).
        apply andb_true_iff in C as [C1 C2]. rewrite (item_slots_same i i' SC) in C1, C2. apply andb_true_iff. split.
        -- rewrite forallb_forall in C1 |- *. intros p J. apply IH; [now apply (settled_slot_item m e i)|now apply C1].
        -- destruct i, i'; try contradiction SC; assumption.
    + rewrite (S m (or_introl eq_refl) E) in C. now apply outside_before.
Qed.
Lemma element_before a : settled a -> element_type ds' classes' a = true -> element_type ds classes a = true.
Proof.
  intros S E. destruct a as [| | | |g l|m]; try assumption. cbn [element_type] in *. unfold declared in *.
  destruct (decl_of m ds) as [d|] eqn:X; [reflexivity|]. rewrite (S m (or_introl eq_refl) X) in E. cbn [orb] in *. now apply outside_before.
Qed.
Lemma ext_before n x t : dtyped' (vext n x) t = true -> dtyped (vext n x) t = true.
Proof.
  cbn [DartWire.dtyped]. destruct t as [| | | |g l|m]; try discriminate; rewrite !andb_true_iff; intros ((A & B) & C); repeat split; try assumption;
    [now apply opaque_before|now apply outside_before].
Qed.
Lemma tag_range p : (p < 2 ^ 31)%N -> dart_range "Int32" (Z.of_N p) = true.
Proof.
  intros P. unfold dart_range. cbn [String.eqb Ascii.eqb Bool.eqb orb].
  change (2 ^ 31)%Z with 2147483648%Z. change (2 ^ 31)%N with 2147483648%N in P. lia.
Qed.
Lemma unused_tag m e e' i' : decl_of m ds = Some (Wire.DEnum e) -> decl_of m ds' = Some (Wire.DEnum e') -> In i' (en_items e') ->
  item_of (item_name i') e = None -> ~ In (Z.of_N (item_pos i')) (map (fun i => Z.of_N (item_pos i)) (en_items e)).
Proof.
  intros E E' I' N J. apply in_map_iff in J as (j & PJ & J). apply N2Z.inj in PJ.
  destruct (enum_later m e E) as (e2 & E2 & IT). rewrite E' in E2. injection E2 as <-. destruct (IT j J) as (j' & IO & SC).
  destruct (EvolveRust.same_case_name j j' SC) as [N2 P2]. apply find_item_in in IO as [J' _].
  destruct (enum_conditions ds' okd' m e' E') as (_ & _ & _ & NP & _ & _).
  assert (j' = i') by (apply (CodecFacts.NoDup_map_inj item_pos (en_items e')); try assumption; congruence). subst j'.
  rewrite N2 in N. unfold item_of in N. pose proof (find_none _ _ N j J) as X. cbv beta in X. now rewrite String.eqb_refl in X.
Qed.

Lemma enum_typed v m e i vs : decl_of m ds = Some (Wire.DEnum e) -> item_of (item_name i) e = Some i -> creatable ds classes cd (TyOther m) = true ->
  enum_value v m i vs -> match v, i with vcases _ _ fs, ItemStruct _ _ l => map fst fs = map sf_name l | _, _ => True end ->
  Forall2 (fun v p => dtyped v (snd p) = true) vs (item_slots i) -> dtyped v (TyOther m) = true.
Proof.
  intros E IO C V NM F.
  destruct v as [| | | |e' c|e' c l|e' c fs| | | | | | | | | | | | | | | | | | |]; try contradiction V; destruct i as [p n|p n ts|p n gs]; try contradiction V;
    destruct V as (-> & -> & ->); cbn [DartWire.dtyped]; rewrite E, String.eqb_refl, C; cbn [item_name] in IO; rewrite IO; cbn [andb].
  - reflexivity.
  - now apply (tuple_all2 dtyped).
  - now apply (names_all2 dtyped).
Qed.

Lemma split_wires vs u vs2 (ss : list slot) (p : slot) (more : list slot) :
  Forall2 (fun v p => dtyped' v (snd p) = true) vs ss -> Forall2 (fun v p => dtyped v (snd p) = true) vs ss ->
  (forall q, In q (ss ++ [p]) -> settled (snd q)) ->
  wires D U ds' (vs ++ u :: vs2) (ss ++ p :: more) = wires D U ds vs ss ++ dwire' false u (snd p) ++ wires D U ds' vs2 more.
Proof.
  intros F' F S. rewrite (wires_app D U ds') by now apply Forall2_len in F. f_equal.
  apply same_wires; [|exact F|exact F']. intros v q _ J A B. apply (same_bytes (depth v)); [lia| |exact A|exact B]. apply S, in_or_app. now left.
Qed.
Lemma newer d : forall v t n, depth v <= d -> settled t -> dtyped' v t = true -> dtyped v t = false -> 3 * d + 3 * cd + 3 <= n ->
  bad D items ds n (dwire' false v t) t.
Proof.
  induction d as [d IH] using lt_wf_ind. intros v t n DV K T' T LN.
  destruct n as [|[|[|n]]]; try (exfalso; clear - LN; lia).
  assert (SUB : forall u q k, In u (parts v) -> settled q -> dtyped' u q = true -> dtyped u q = false -> S n <= k -> bad D items ds k (dwire' false u q) q).
  { intros u q k I S A B LK. pose proof (sub_depth v u I) as L. apply (IH (depth u)); try assumption; lia. }
  assert (GOOD : forall u q k, In u (parts v) -> dtyped u (snd q) = true -> S n <= k -> good D U items ds cd k u q).
  { intros u q k I A LK. split; [exact A|]. intros P. pose proof (sub_depth v u I) as L.
    apply (read_all D U items ds cd file names libs okd law (depth u)); try assumption; lia. }
  destruct (Wire.prim_name t) as [id|] eqn:P.
  - exfalso. assert (P' : Wire.prim_name t <> None) by congruence. destruct (dtyped_prim U items' ds' cd v t T' P') as (p & z & -> & _).
    change (dtyped' (vnum p z) t) with (dtyped (vnum p z) t) in T'. congruence.
  - destruct (value_cases U items' ds' cd v t T' P) as [(m & x & ->)|[(k & l & a & -> & -> & EA & SL & F)|[(m & st' & -> & E')|(m & e' & -> & E')]]].
    + exfalso. rewrite (ext_before _ _ _ T') in T. discriminate T.
    + assert (KA : settled a) by (apply (settled_arg _ _ _ K); now left). pose proof (element_before a KA EA) as EB.
      destruct (dtyped_list U items' ds' cd _ _ _ _ T') as (a' & Q & _ & _ & _ & _ & KL). injection Q as <-.
      assert (X : exists l1 u l2, l = l1 ++ u :: l2 /\ Forall (fun v => dtyped v a = true) l1 /\ dtyped u a = false).
      { cbn [DartWire.dtyped] in T. rewrite EB, SL, KL, N.eqb_refl, String.eqb_refl in T. cbn [andb] in T. clear - T.
        induction l as [|u l IHl]; [discriminate T|]. cbn [forallb] in T. destruct (dtyped u a) eqn:E.
        - destruct (IHl T) as (l1 & w & l2 & -> & F & B). exists (u :: l1), w, l2. split; [reflexivity|]. split; [constructor; assumption|assumption].
        - exists [], u, l. split; [reflexivity|]. split; [constructor|assumption]. }
      destruct X as (l1 & u & l2 & -> & F1 & B). rewrite Forall_forall in F, F1.
      assert (IU : In u (parts (vbox "Vec" k (l1 ++ u :: l2)))) by (cbn [parts]; apply in_or_app; right; now left).
      assert (TU : dtyped' u a = true) by (apply F; apply in_or_app; right; now left).
      destruct (SUB u a (S (S n)) IU KA TU B) as (PA & _ & _ & RU); [clear; lia|].
      split; [reflexivity|]. split; [reflexivity|]. split; [exact EB|].
      cbn [DartWire.dwire]. rewrite flat_map_app. cbn [flat_map]. rewrite (dwire_elem D U items' ds' cd u a PA TU).
      replace (flat_map (fun v => dwire' true v a) l1) with (flat_map (fun v => dwire true v a) l1).
      2: { assert (X : forall l', incl l' l1 -> flat_map (fun v => dwire true v a) l' = flat_map (fun v => dwire' true v a) l').
           { induction l' as [|w l' IHl]; intros IN; [reflexivity|]. cbn [flat_map]. rewrite IHl by (intros y Y; apply IN; now right). f_equal. symmetry.
             assert (J : In w l1) by (apply IN; now left). apply (same_bytes (depth w)); [clear; lia|exact KA|now apply F1|]. apply F. apply in_or_app. now left. }
           apply X. apply incl_refl. }
      rewrite app_length. cbn [List.length]. rewrite !app_assoc. apply refuses_more. rewrite <- !app_assoc.
      apply (refuses_list D U items ds libs law); try assumption.
      * rewrite app_length in SL. exact SL.
      * rewrite Forall_forall. intros w J. apply (elem_reads D U items ds cd libs law); [now apply F1|exact EB|].
        intros PW. destruct (GOOD w ("", a) (S (S n))) as [_ G]; [cbn [parts]; apply in_or_app; now left|now apply F1|clear; lia|]. now apply G.
    + destruct (decl_of m ds) as [dcl|] eqn:E; [|rewrite (K m (or_introl eq_refl) E) in E'; discriminate E'].
      destruct (kept m dcl E) as (d2 & E2 & G). rewrite E' in E2. injection E2 as <-. destruct dcl as [st|e]; [|contradiction G]. cbn [grown_decl] in G.
      destruct (struct_conditions ds okd m st E) as (NS & _).
      assert (X : exists fs, v = vrec m fs /\ map fst fs = map sf_name (sn_fields st') /\ Forall2 (fun v p => dtyped' v (snd p) = true) (map snd fs) (map field_slot (sn_fields st'))).
      { destruct (struct_case U items' ds' cd v m st' T' E') as (fs & -> & _). exists fs. split; [reflexivity|].
        cbn [DartWire.dtyped] in T'. rewrite E', String.eqb_refl in T'. cbn [andb] in T'. now apply (names_all2 dtyped') in T'. }
      destruct X as (fs & -> & NM & F'). rewrite (field_names_same _ _ G) in NM. rewrite (field_slots_same _ _ G) in F'.
      assert (B : all2 (fun v p => dtyped v (snd p)) (map snd fs) (map field_slot (sn_fields st)) = false).
      { apply not_true_iff_false. intros H. apply all2_true in H. cbn [DartWire.dtyped] in T. rewrite E, String.eqb_refl in T. cbn [andb] in T.
        assert (X : all2 (fun '(x, v) f => String.eqb x (sf_name f) && dtyped v (sf_type f)) fs (sn_fields st) = true) by (apply (names_all2 dtyped); split; assumption). congruence. }
      destruct (first_bad _ _ _ _ F' B) as (vs & u & vs2 & ss & p & more & EV & ES & FP & FG & PU & BU). cbv beta in PU, BU.
      split; [reflexivity|]. split; [now apply String.eqb_neq|]. split; [left; unfold declared; now rewrite E|].
      rewrite (record_wires D U ds' m st' fs E'), (field_slots_same _ _ G), EV, ES.
      assert (IV : forall x, In x vs -> In x (parts (vrec m fs))) by (intros x I; cbn [parts]; rewrite EV; apply in_or_app; now left).
      assert (IU : In u (parts (vrec m fs))) by (cbn [parts]; rewrite EV; apply in_or_app; right; now left).
      assert (IS : forall q, In q (ss ++ [p]) -> settled (snd q)).
      { intros q I. apply (settled_slot_struct m st _ E). rewrite ES. apply in_or_app. apply in_app_or in I as [I|[<-|[]]]; [now left|right; now left]. }
      match goal with |- refuses _ _ _ _ ?b _ => replace b with (wires D U ds vs ss ++ dwire' false u (snd p) ++ wires D U ds' vs2 more) by (symmetry; exact (split_wires vs u vs2 ss p more FP FG IS)) end.
      rewrite app_assoc. apply refuses_more.
      apply (refuses_struct D U items ds cd file names libs okd law (S n) m st vs ss p more); [exact E|exact ES| |].
      * eapply Forall2_in_both; [exact FG|]. intros x q I _ H. apply GOOD; [now apply IV|exact H|clear; lia].
      * apply SUB; [exact IU|apply IS, in_or_app; right; now left|exact PU|exact BU|clear; lia].
    + destruct (decl_of m ds) as [dcl|] eqn:E; [|rewrite (K m (or_introl eq_refl) E) in E'; discriminate E'].
      destruct (kept m dcl E) as (d2 & E2 & G). rewrite E' in E2. injection E2 as <-. destruct dcl as [st|e]; [contradiction G|]. clear G.
      destruct (enum_conditions ds okd m e E) as (NS & _).
      destruct (enum_case U items' ds' cd v m e' T' E') as (i' & vs' & IO' & V' & C' & -> & F').
      apply find_item_in in IO' as IN'. destruct IN' as [IN' _].
      split; [reflexivity|]. split; [now apply String.eqb_neq|]. split; [left; unfold declared; now rewrite E|].
      rewrite (enum_wire D U ds' v m e' i' _ V' E' IO').
      destruct (item_of (item_name i') e) as [i|] eqn:IO.
      * apply find_item_in in IO as IN. destruct IN as [IN NI].
        destruct (enum_later m e E) as (e2 & E2 & IT). rewrite E' in E2. injection E2 as <-. destruct (IT i IN) as (i2 & IO2 & SC).
        rewrite NI, IO' in IO2. injection IO2 as <-. destruct (EvolveRust.same_case_name i i' SC) as [_ PE].
        pose proof (creatable_before cd _ K C') as C. rewrite (item_slots_same i i' SC) in F' |- *. rewrite PE.
        assert (V : enum_value v m i (parts v)).
        { clear - V' SC NI. destruct v; try contradiction V'; destruct i'; try contradiction V'; destruct i; try contradiction SC; cbn in *; intuition congruence. }
        assert (NMS : match v, i with vcases _ _ fs, ItemStruct _ _ l => map fst fs = map sf_name l | _, _ => True end).
        { destruct v as [| | | |q c|q c l|q c fs| | | | | | | | | | | | | | | | | | |]; try exact Logic.I. destruct i as [|?|p c0 gs]; try exact Logic.I.
          destruct i' as [| |p' c' gs']; try contradiction SC. destruct SC as (_ & _ & SH). rewrite <- (field_names_same _ _ SH).
          cbn in V'. destruct V' as (-> & -> & _). cbn [DartWire.dtyped] in T'. cbn [item_name] in IO'. rewrite E', IO' in T'. apply andb_true_iff in T' as [_ T'].
          now apply (names_all2 dtyped') in T'. }
        assert (B : all2 (fun v p => dtyped v (snd p)) (parts v) (item_slots i) = false).
        { apply not_true_iff_false. intros H. apply all2_true in H. rewrite <- NI in IO.
          rewrite (enum_typed v m e i (parts v) E IO C V NMS H) in T. discriminate T. }
        destruct (first_bad _ _ _ _ F' B) as (vs & u & vs2 & ss & p & more & EV & ES & FP & FG & PU & BU). cbv beta in PU, BU.
        assert (IV : forall x, In x vs -> In x (parts v)) by (intros x I; rewrite EV; apply in_or_app; now left).
        assert (IU : In u (parts v)) by (rewrite EV; apply in_or_app; right; now left).
        assert (IS : forall q, In q (ss ++ [p]) -> settled (snd q)).
        { intros q I. apply (settled_slot_item m e i _ E IN). rewrite ES. apply in_or_app. apply in_app_or in I as [I|[<-|[]]]; [now left|right; now left]. }
        rewrite EV, ES. match goal with |- refuses _ _ _ _ (?a ++ ?b) _ => replace b with (wires D U ds vs ss ++ dwire' false u (snd p) ++ wires D U ds' vs2 more) by (symmetry; exact (split_wires vs u vs2 ss p more FP FG IS)) end.
        rewrite (app_assoc (wires D U ds vs ss)), app_assoc. apply refuses_more.
        apply (refuses_enum D U items ds cd file names libs okd law n m e i vs ss p more); try assumption.
        -- clear - LN. lia.
        -- eapply Forall2_in_both; [exact FG|]. intros x q I _ H. apply GOOD; [now apply IV|exact H|clear; lia].
        -- apply SUB; [exact IU|apply IS, in_or_app; right; now left|exact PU|exact BU|clear; lia].
      * apply refuses_more. apply (refuses_tag D U items ds file names libs okd law _ m e); [exact E| |now apply (unused_tag m e e')].
        apply tag_range. now destruct (item_conditions ds' okd' m e' i' E' IN') as (_ & _ & X).
Qed.
End Versions.
