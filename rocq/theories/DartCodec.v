(** The meaning of the generated Dart codecs. *)
Require Import Coq.Strings.String Coq.Strings.Ascii.
Require Import Coq.NArith.NArith Coq.ZArith.ZArith Coq.Lists.List Coq.Bool.Bool Coq.Arith.PeanoNat Coq.micromega.Lia.
Require Import Coq.micromega.ZifyBool Coq.micromega.ZifyN Coq.micromega.ZifyNat.
Require Import Verif.Base Verif.Ast Verif.Writer Verif.CaseConv Verif.Code Verif.NumText Verif.RustSem Verif.Wire Verif.RustCodec.
Require Import Verif.DartSyntax Verif.DartGen Verif.DartTree Verif.DartSem Verif.DartWire Verif.DartLexedEnum Verif.DartRun Verif.DartShape.
Require Verif.Defaults.
Import ListNotations.
Local Open Scope string_scope.
Local Open Scope list_scope.

(** ** Conditions *)

(** What a declaration adds to the file. *)
Definition decl_items (d : decl) : list ditem :=
  match d with
  | DStruct s => struct_model_tree s ++ struct_buffers_tree s
  | Wire.DEnum e => enum_model_tree e ++ enum_buffers_tree e
  end.
(** The codec of a declaration compiles: both kinds are generated, names do not hide each other, and
    positions fit a signed tag. *)
Definition dart_item_ok (e : enum_node) (i : enum_item) : bool :=
  absent (en_id e ++ item_name i)%string local_names && nodupb (map fst (item_slots i)) && (item_pos i <? 2 ^ 31)%N.
Definition dart_decl_ok (d : decl) : bool :=
  negb (String.eqb (decl_name d) "String") && absent (decl_name d) local_names &&
  match d with
  | DStruct s =>
      sn_into s && sn_emplace s && nodupb (map fname (sn_fields s)) &&
      absent "reader" (map fname (sn_fields s)) && absent (sn_id s) (map fname (sn_fields s))
  | Wire.DEnum e =>
      absent (en_id e ++ "Value")%string local_names && nodupN (map item_pos (en_items e)) &&
      nodupb ("value" :: map (fun i => camel (item_name i)) (en_items e)) && forallb (dart_item_ok e) (en_items e)
  end.

Lemma item_id_name i : item_id i = item_name i. Proof. now destruct i. Qed.
Lemma item_position_pos i : item_position i = item_pos i. Proof. now destruct i. Qed.

Lemma enumerate_numbered {A} (l : list A) : enumerate l = numbered l.
Proof.
  unfold enumerate, numbered. generalize 0. induction l as [|a l IH]; intros k; [reflexivity|].
  cbn [enumerate_from List.length seq combine]. now rewrite IH.
Qed.

(** ** Codec objects *)

Definition into_obj (t : type_id) : dval :=
  match t with
  | TyGeneric g l =>
      match vec_element g l with
      | Some a => dobj "ListIntoBuffers" [dty_of a] [dobj (generate_class_prefix a ++ "IntoBuffers") [] []]
      | None => dobj (g ++ "IntoBuffers") (map dty_of l) []
      end
  | _ => dobj (generate_class_prefix t ++ "IntoBuffers") [] []
  end.
Definition emplace_obj (t : type_id) : dval :=
  match t with
  | TyGeneric g l =>
      match vec_element g l with
      | Some a => dobj "ListEmplaceToBuffers" [dty_of a] [dobj (generate_class_prefix a ++ "IntoBuffers") [] []]
      | None => dobj (g ++ "EmplaceToBuffers") (map dty_of l) []
      end
  | _ => if is_string t then into_obj t else dobj (generate_class_prefix t ++ "EmplaceToBuffers") [] []
  end.
Lemma dart_type_of t : dart_type t = dty_of t.
Proof. induction t using RustLexed.type_id_ind2; reflexivity. Qed.

(** ** Statements *)

Section Statements.
Variable D : druntime.
Variable items : list ditem.
Variable K : dcalls.
Variable this : option (dval * string).
Notation eval := (DartSem.ev D items K this).
Notation eval_st := (DartSem.ev_st D items K this).
Notation run := (dchain (fun s e => eval_st s e)).

(** The cases of a [switch], and what becomes of the end of a case. *)
Definition case_end (last : bool) (en : denv) (o : dout denv) : dout denv :=
  match o with
  | DBreaks s' => DDone en s'
  | DDone _ s' => if last then DDone en s' else DStuck
  | r => r
  end.
Definition cases_of (v : dval) (en : denv) : list (option dex * list dst) -> dM denv :=
  fix go l :=
    match l with
    | [] => dret en
    | (None, body) :: l' =>
        match l' with
        | [] => fun s => match run body en s with DBreaks s' => DDone en s' | DDone _ s' => DDone en s' | r => r end
        | _ => dstuck
        end
    | (Some c, body) :: l' =>
        dd w <- eval c en;
        dd b <- dof (dequal v w);
        if (b : bool) then fun s => match run body en s with DBreaks s' => DDone en s' | DDone _ _ => DStuck | r => r end
        else go l'
    end.
Lemma ev_switch e l en s : eval_st (DSwitch e l) en s = (dd v <- eval e en; cases_of v en l) s.
Proof. reflexivity. Qed.
Lemma cases_cons v en c w body l s b : eval c en s = DDone w s -> dequal v w = Some b ->
  cases_of v en ((Some c, body) :: l) s = if b then case_end false en (run body en s) else cases_of v en l s.
Proof.
  intros E Q. cbn [cases_of]. rewrite (dbind_done _ _ _ _ _ E), Q. cbn [dof]. rewrite dbind_ret_l.
  destruct b; [|reflexivity]. unfold case_end. now destruct (run body en s).
Qed.
Lemma ev_num z p en s : z = Z.of_N p -> eval (DNum (show_N p)) en s = DDone (dint z) s.
Proof. intros ->. cbn [DartSem.ev]. now rewrite literal_show. Qed.

(** A tag selects the first case with that number, and the default case if there is none. *)
Lemma switch_tag (body : enum_item -> list dst) l rest i en s z : DartSem.lookup "value" en = Some (dint z) -> z = Z.of_N (item_pos i) ->
  In i l -> NoDup (map item_pos l) ->
  eval_st (DSwitch (var "value") (map (fun i => (Some (DartTree.tag i), body i)) l ++ rest)) en s = case_end false en (run (body i) en s).
Proof.
  intros L Z I N. rewrite ev_switch, (dbind_done _ _ _ _ _ (ev_var D items K this _ _ _ s L)).
  revert N I. induction l as [|j l IH]; intros N I; [destruct I|]. cbn [map app].
  rewrite (cases_cons _ _ _ (dint (Z.of_N (item_pos j))) _ _ s (Z.eqb z (Z.of_N (item_pos j)))).
  - cbn [map] in N. apply NoDup_cons_iff in N as [N1 N2].
    destruct (Z.eqb_spec z (Z.of_N (item_pos j))) as [E|E].
    + destruct I as [->|I]; [reflexivity|]. exfalso. apply N1. rewrite Z in E. apply N2Z.inj in E. rewrite <- E. now apply in_map.
    + destruct I as [->|I]; [contradiction|]. now apply IH.
  - now apply ev_num.
  - reflexivity.
Qed.
Lemma switch_unknown (body : enum_item -> list dst) l en s z : DartSem.lookup "value" en = Some (dint z) ->
  ~ In z (map (fun i => Z.of_N (item_pos i)) l) ->
  eval_st (DSwitch (var "value") (map (fun i => (Some (DartTree.tag i), body i)) l ++ [unsupported])) en s =
  case_end true en (run (snd unsupported) en s).
Proof.
  intros L I. rewrite ev_switch, (dbind_done _ _ _ _ _ (ev_var D items K this _ _ _ s L)).
  induction l as [|j l IH].
  - cbn [map app cases_of]. unfold unsupported. unfold case_end. cbn [snd].
    match goal with |- match ?a with _ => _ end = match ?a with _ => _ end => now destruct a end.
  - cbn [map app]. rewrite (cases_cons _ _ _ (dint (Z.of_N (item_pos j))) _ _ s false).
    + apply IH. intros J. apply I. now right.
    + now apply ev_num.
    + cbn [dequal]. f_equal. apply Z.eqb_neq. intros ->. apply I. now left.
Qed.
(** A member of an enum selects its case. *)
Lemma switch_member (m n : string) (body : enum_item -> list dst) l i en s e : eval e en s = DDone (dmem n (camel (item_name i))) s ->
  (forall j, In j l -> eval (DartTree.value_of m (item_id j)) en s = DDone (dmem n (camel (item_name j))) s) ->
  In i l -> NoDup (map (fun i => camel (item_name i)) l) ->
  eval_st (DSwitch e (map (fun i => (Some (DartTree.value_of m (item_id i)), body i)) l)) en s =
  case_end false en (run (body i) en s).
Proof.
  intros E V I N. rewrite ev_switch, (dbind_done _ _ _ _ _ E). clear E.
  revert V N I. induction l as [|j l IH]; intros V N I; [destruct I|]. cbn [map].
  rewrite (cases_cons _ _ _ (dmem n (camel (item_name j))) _ _ s (String.eqb (camel (item_name i)) (camel (item_name j)))).
  - cbn [map] in N. apply NoDup_cons_iff in N as [N1 N2].
    destruct (String.eqb_spec (camel (item_name i)) (camel (item_name j))) as [E|E].
    + destruct I as [->|I]; [reflexivity|]. exfalso. apply N1. rewrite <- E. now apply (in_map (fun i => camel (item_name i))).
    + destruct I as [->|I]; [contradiction|]. apply IH; try assumption. intros k J. apply V. now right.
  - apply V. now left.
  - cbn [dequal]. now rewrite String.eqb_refl.
Qed.

Lemma run_final x e l en s v s' : DartSem.lookup x en = None -> eval e en s = DDone v s' ->
  run (DFinal x e :: l) en s = run l ((x, v) :: en) s'.
Proof.
  intros L E. rewrite dchain_cons. cbn [DartSem.ev_st]. rewrite L.
  rewrite (dbind_done _ _ s ((x, v) :: en) s') by (rewrite (dbind_done _ _ _ _ _ E); reflexivity). reflexivity.
Qed.
Lemma run_expr e l en s v s' : eval e en s = DDone v s' -> run (DExpr e :: l) en s = run l en s'.
Proof.
  intros E. rewrite dchain_cons. cbn [DartSem.ev_st].
  rewrite (dbind_done _ _ s en s') by (rewrite (dbind_done _ _ _ _ _ E); reflexivity). reflexivity.
Qed.
Lemma run_return e l en s v s' : eval e en s = DDone v s' -> run (DReturn (Some e) :: l) en s = DReturned v s'.
Proof. intros E. rewrite dchain_cons. cbn [DartSem.ev_st]. unfold dbind. now rewrite E. Qed.
Lemma run_single st en s en' s' : eval_st st en s = DDone en' s' -> run [st] en s = DDone en' s'.
Proof. intros E. rewrite dchain_cons. unfold dbind. now rewrite E. Qed.
Lemma run_first st l en s en' s' : eval_st st en s = DDone en' s' -> run (st :: l) en s = run l en' s'.
Proof. intros E. rewrite dchain_cons. unfold dbind. now rewrite E. Qed.
Lemma ev_expr e en s v s' : eval e en s = DDone v s' -> eval_st (DExpr e) en s = DDone en s'.
Proof. intros E. cbn [DartSem.ev_st]. now rewrite (dbind_done _ _ _ _ _ E). Qed.
End Statements.

Section File.
Variable D : druntime.
Variable U : support.
Variable items : list ditem.
Variable ds : list decl.
Variable cd : nat.
Hypothesis file : forall d i, In d ds -> In i (decl_items d) -> In i items.
Hypothesis names : NoDup (top_names items).
Hypothesis libs : forall n, In n lib_names -> ~ In n (top_names items).
Hypothesis okd : forallb dart_decl_ok ds = true.
Notation classes := (top_names items).
Notation KK n := (dcalls_upto D items n).
Notation outside := (outside ds classes).
Notation opaque := (opaque ds classes).
Notation dtyped := (dtyped U ds classes cd).
Notation dwire := (dwire D U ds).
Notation rep := (rep U ds).
Notation shaped := (shaped ds classes).
Notation shaped_slots := (shaped_slots ds classes).
Notation shaped_items := (shaped_items ds classes).

Lemma decl_ok_in d : In d ds -> dart_decl_ok d = true.
Proof. clear - okd. intros I. rewrite forallb_forall in okd. auto. Qed.

(** *** The classes of the file *)

Lemma struct_class n s i : decl_of n ds = Some (DStruct s) -> In i (decl_items (DStruct s)) -> In i items.
Proof. intros E. apply decl_of_in in E as [I _]. now apply file. Qed.
Lemma enum_class n e i : decl_of n ds = Some (Wire.DEnum e) -> In i (decl_items (Wire.DEnum e)) -> In i items.
Proof. intros E. apply decl_of_in in E as [I _]. now apply file. Qed.
Lemma struct_id n s : decl_of n ds = Some (DStruct s) -> sn_id s = n.
Proof. intros E. now apply decl_of_in in E as [_ I]. Qed.
Lemma enum_id n e : decl_of n ds = Some (Wire.DEnum e) -> en_id e = n.
Proof. intros E. now apply decl_of_in in E as [_ I]. Qed.

Lemma struct_conditions n s : decl_of n ds = Some (DStruct s) ->
  n <> "String" /\ absent n local_names = true /\ sn_into s = true /\ sn_emplace s = true /\ NoDup (map fname (sn_fields s)) /\
  ~ In "reader" (map fname (sn_fields s)) /\ ~ In n (map fname (sn_fields s)).
Proof.
  intros E. apply decl_of_in in E as [I N]. apply decl_ok_in in I. unfold dart_decl_ok in I. rewrite N in I. cbn [decl_name] in N. rewrite N in I.
  rewrite !andb_true_iff, negb_true_iff in I. destruct I as ((A & B) & (((C & D') & E) & F) & G).
  repeat split; try assumption.
  - now apply String.eqb_neq.
  - now apply nodupb_NoDup.
  - now apply absent_not_in.
  - now apply absent_not_in.
Qed.
Lemma enum_conditions n e : decl_of n ds = Some (Wire.DEnum e) ->
  n <> "String" /\ absent n local_names = true /\ absent (n ++ "Value") local_names = true /\ NoDup (map item_pos (en_items e)) /\
  NoDup ("value" :: map (fun i => camel (item_name i)) (en_items e)) /\ forallb (dart_item_ok e) (en_items e) = true.
Proof.
  intros E. apply decl_of_in in E as [I N]. apply decl_ok_in in I. unfold dart_decl_ok in I. rewrite N in I. cbn [decl_name] in N. rewrite N in I.
  rewrite !andb_true_iff, negb_true_iff in I. destruct I as ((A & B) & ((C & D') & E) & F).
  repeat split; try assumption.
  - now apply String.eqb_neq.
  - now apply nodupN_NoDup.
  - now apply nodupb_NoDup.
Qed.
Definition codec_members (c : string) (r wr s : dmember) : list dmember :=
  [MConstCtor c; override; r; override; wr; override; s].
Lemma class_in n im ms : In (DClass n im ms) items -> find_class n items = Some ms.
Proof. apply find_class_in. exact names. Qed.

Lemma struct_into n s : decl_of n ds = Some (DStruct s) ->
  find_class (n ++ "IntoBuffers") items =
  Some (codec_members (n ++ "IntoBuffers") (struct_into_read s) (struct_into_write s) (struct_skip_meth skip_st s)).
Proof.
  intros E. pose proof (struct_id n s E) as N. subst n. eapply class_in, (struct_class _ s _ E).
  destruct (struct_conditions _ _ E) as (_ & _ & C & _).
  cbn [decl_items]. apply in_or_app. right. unfold struct_buffers_tree. apply in_or_app. right.
  rewrite C. now left.
Qed.
Lemma struct_emplace n s : decl_of n ds = Some (DStruct s) ->
  find_class (n ++ "EmplaceToBuffers") items =
  Some (codec_members (n ++ "EmplaceToBuffers") (struct_emplace_read s) (struct_emplace_write s) (struct_skip_meth skip_emplace_st s)).
Proof.
  intros E. pose proof (struct_id n s E) as N. subst n. eapply class_in, (struct_class _ s _ E).
  destruct (struct_conditions _ _ E) as (_ & _ & _ & C & _).
  cbn [decl_items]. apply in_or_app. right. unfold struct_buffers_tree. apply in_or_app. left.
  rewrite C. now left.
Qed.
Lemma enum_into n e : decl_of n ds = Some (Wire.DEnum e) ->
  find_class (n ++ "IntoBuffers") items =
  Some (codec_members (n ++ "IntoBuffers") (enum_into_read_meth e) (enum_write_meth e) (enum_skip_meth e)).
Proof.
  intros E. pose proof (enum_id n e E) as N. subst n. eapply class_in, (enum_class _ e _ E).
  cbn [decl_items]. apply in_or_app. right. unfold enum_buffers_tree. apply in_or_app. right. now left.
Qed.
Lemma enum_emplace n e : decl_of n ds = Some (Wire.DEnum e) ->
  find_class (n ++ "EmplaceToBuffers") items =
  Some (codec_members (n ++ "EmplaceToBuffers") (enum_emplace_read_meth e) (enum_write_meth e) (enum_skip_meth e)).
Proof.
  intros E. pose proof (enum_id n e E) as N. subst n. eapply class_in, (enum_class _ e _ E).
  cbn [decl_items]. apply in_or_app. right. unfold enum_buffers_tree. apply in_or_app. right. right. now left.
Qed.
(** The struct of an enum item. *)
Notation item_struct e i := (create_enum_item_struct_ast_node e i).
Lemma item_struct_id e i : sn_id (item_struct e i) = (en_id e ++ item_name i)%string.
Proof. now destruct i. Qed.
Lemma item_struct_slots e i : map field_slot (sn_fields (item_struct e i)) = item_slots i.
Proof.
  destruct i as [p n|p n ts|p n fs]; try reflexivity. cbn [create_enum_item_struct_ast_node sn_fields item_slots].
  unfold tuple_slots. rewrite map_map. rewrite enumerate_numbered. apply map_ext. intros [k f]. unfold field_slot.
  cbn [sf_name sf_type fst snd]. now rewrite camel_v.
Qed.
Lemma item_emplace n e i : decl_of n ds = Some (Wire.DEnum e) -> In i (en_items e) ->
  let s := item_struct e i in
  find_class (n ++ item_name i ++ "EmplaceToBuffers") items =
  Some (codec_members (n ++ item_name i ++ "EmplaceToBuffers") (struct_emplace_read s) (struct_emplace_write s) (struct_skip_meth skip_emplace_st s)).
Proof.
  intros E I s. pose proof (enum_id n e E) as N. subst n.
  assert (X : (en_id e ++ item_name i ++ "EmplaceToBuffers" = sn_id s ++ "EmplaceToBuffers")%string).
  { unfold s. rewrite item_struct_id. clear. induction (en_id e) as [|c x IH]; [reflexivity|].
    change (String c (x ++ item_name i ++ "EmplaceToBuffers") = String c ((x ++ item_name i) ++ "EmplaceToBuffers"))%string. now f_equal. }
  rewrite X. eapply class_in, (enum_class _ e _ E). cbn [decl_items]. apply in_or_app. right. unfold enum_buffers_tree.
  apply in_or_app. left. apply in_map_iff. now exists i.
Qed.

Lemma has_class_some c ms : find_class c items = Some ms -> has_class items c = true.
Proof. unfold has_class. now intros ->. Qed.
Lemma has_class_none c : ~ In c classes -> has_class items c = false.
Proof. intros N. unfold has_class. now rewrite find_class_none. Qed.

(** *** Codec objects *)

Lemma outside_class m suf : outside m = true -> In suf ["IntoBuffers"; "EmplaceToBuffers"; "BuffersFactory"] -> has_class items (m ++ suf) = false.
Proof.
  intros O I. unfold DartWire.outside in O. rewrite !andb_true_iff in O. destruct O as [_ O].
  rewrite forallb_forall in O. specialize (O suf I). apply has_class_none, absent_not_in. exact O.
Qed.
Lemma lib_class c : In c lib_names -> has_class items c = false.
Proof. intros I. apply has_class_none. auto. Qed.

(** The types with codecs. *)
Definition known_elem (t : type_id) : Prop := element_type ds classes t = true.
Definition known (t : type_id) : Prop :=
  match t with
  | TyOther m => declared ds m = true \/ outside m = true
  | TyGeneric g l => match vec_element g l with Some a => known_elem a | None => opaque g = true end
  | _ => False
  end.
Lemma declared_some m : declared ds m = true -> exists d, decl_of m ds = Some d.
Proof. unfold declared. destruct (decl_of m ds); [eauto|discriminate]. Qed.

Lemma ev_const_class n th c en s r wr sk : find_class c items = Some (codec_members c r wr sk) ->
  DartSem.ev D items (KK (S n)) th (const0 c) en s = DDone (dobj c [] []) s.
Proof.
  intros E. cbn [DartSem.ev const0 dmapM]. rewrite dbind_ret_l, (has_class_some _ _ E).
  cbn [dcalls_upto k_new]. unfold new_with. rewrite E. reflexivity.
Qed.
Lemma ev_const_lib K th c ts en s : has_class items c = false ->
  DartSem.ev D items K th (DConst c ts [] false) en s = DDone (dobj c ts []) s.
Proof. intros E. cbn [DartSem.ev dmapM]. rewrite dbind_ret_l, E. reflexivity. Qed.

Lemma ev_const_into n th m en s : declared ds m = true \/ outside m = true ->
  DartSem.ev D items (KK (S n)) th (const0 (m ++ "IntoBuffers")) en s = DDone (dobj (m ++ "IntoBuffers") [] []) s.
Proof.
  intros [E|O].
  - apply declared_some in E as [[x|x] E].
    + eapply ev_const_class, struct_into, E.
    + eapply ev_const_class, enum_into, E.
  - apply ev_const_lib, outside_class; [assumption|now left].
Qed.
Lemma ev_const_emplace n th m en s : declared ds m = true \/ outside m = true ->
  DartSem.ev D items (KK (S n)) th (const0 (m ++ "EmplaceToBuffers")) en s = DDone (dobj (m ++ "EmplaceToBuffers") [] []) s.
Proof.
  intros [E|O].
  - apply declared_some in E as [[x|x] E].
    + eapply ev_const_class, struct_emplace, E.
    + eapply ev_const_class, enum_emplace, E.
  - apply ev_const_lib, outside_class; [assumption|right; now left].
Qed.
Lemma ev_const_elem n th a en s : known_elem a ->
  DartSem.ev D items (KK (S n)) th (const0 (generate_class_prefix a ++ "IntoBuffers")) en s =
  DDone (dobj (generate_class_prefix a ++ "IntoBuffers") [] []) s.
Proof.
  intros E. destruct a as [id k sg|id k|id|id|id l|id]; cbn [generate_class_prefix]; try (apply ev_const_lib, lib_class; cbn; tauto).
  - discriminate E.
  - apply ev_const_into. unfold known_elem in E. cbn [element_type] in E. now apply orb_true_iff.
Qed.
Lemma ev_list_codec n th c a en s : In c lib_names -> known_elem a ->
  DartSem.ev D items (KK (S n)) th (DConst c [dty_of a] [(None, const0 (generate_class_prefix a ++ "IntoBuffers"))] false) en s =
  DDone (dobj c [dty_of a] [dobj (generate_class_prefix a ++ "IntoBuffers") [] []]) s.
Proof.
  intros L E.
  change (DartSem.ev D items (KK (S n)) th (DConst c [dty_of a] [(None, const0 (generate_class_prefix a ++ "IntoBuffers"))] false) en s) with
    (dbind (dd b <- (dd v <- DartSem.ev D items (KK (S n)) th (const0 (generate_class_prefix a ++ "IntoBuffers")) en; dret (@None string, v)); dd bs <- dret []; dret (b :: bs))
       (fun vs => if has_class items c then k_new (KK (S n)) c vs
          else if forallb (fun '(l, _) => match l with None => true | Some _ => false end) vs then dret (dobj c [dty_of a] (map snd vs)) else dstuck) s).
  rewrite !dbind_assoc, (dbind_done _ _ s _ s (ev_const_elem n th a en s E)), !dbind_ret_l.
  rewrite dbind_assoc, dbind_ret_l, dbind_ret_l. now rewrite (lib_class c L).
Qed.
Lemma ev_into_codec n th t en s : known t -> DartSem.ev D items (KK (S n)) th (into_codec t) en s = DDone (into_obj t) s.
Proof.
  intros E. destruct t as [id k sg|id k|id|id|id l|id]; try contradiction E; cbn [known] in E; cbn [into_codec into_obj generate_class_prefix].
  - destruct (vec_element id l) as [a|] eqn:V.
    + apply ev_list_codec; [cbn; tauto|assumption].
    + apply ev_const_lib, outside_class; [|now left]. unfold DartWire.opaque in E. now apply andb_true_iff in E as [_ E].
  - now apply ev_const_into.
Qed.
Lemma ev_emplace_codec n th t en s : known t -> DartSem.ev D items (KK (S n)) th (emplace_codec t) en s = DDone (emplace_obj t) s.
Proof.
  intros E. destruct t as [id k sg|id k|id|id|id l|id]; try contradiction E; cbn [known] in E; cbn [emplace_codec emplace_obj into_obj generate_class_prefix is_string].
  - destruct (vec_element id l) as [a|] eqn:V.
    + apply ev_list_codec; [cbn; tauto|assumption].
    + apply ev_const_lib, outside_class; [|cbn; tauto]. unfold DartWire.opaque in E. now apply andb_true_iff in E as [_ E].
  - destruct (String.eqb id "String"); [now apply ev_const_into|now apply ev_const_emplace].
Qed.

Lemma into_codec_const t : known t -> exists c ts args, into_codec t = DConst c ts args false.
Proof.
  destruct t as [id k sg|id k|id|id|id l|id]; intros E; try contradiction E; cbn [into_codec]; unfold const0; try destruct (vec_element id l); eauto.
Qed.
Lemma emplace_codec_const t : known t -> exists c ts args, emplace_codec t = DConst c ts args false.
Proof.
  destruct t as [id k sg|id k|id|id|id l|id]; intros E; try contradiction E; cbn [emplace_codec]; unfold const0;
    try destruct (vec_element id l); try destruct (String.eqb id "String"); eauto.
Qed.
Lemma ev_into_call n th t m es en vs s : known t -> Forall2 (pure D items (KK (S n)) th en s) es vs ->
  DartSem.ev D items (KK (S n)) th (call (into_codec t) m es) en s = method D items (KK (S n)) (into_obj t) m (pos vs) s.
Proof.
  intros E F. destruct (into_codec_const t E) as (c & ts & args & X). pose proof (ev_into_codec n th t en s E) as Y. rewrite X in *.
  now apply ev_call_const.
Qed.
Lemma ev_emplace_call n th t m es en vs s : known t -> Forall2 (pure D items (KK (S n)) th en s) es vs ->
  DartSem.ev D items (KK (S n)) th (call (emplace_codec t) m es) en s = method D items (KK (S n)) (emplace_obj t) m (pos vs) s.
Proof.
  intros E F. destruct (emplace_codec_const t E) as (c & ts & args & X). pose proof (ev_emplace_codec n th t en s E) as Y. rewrite X in *.
  now apply ev_call_const.
Qed.

(** A typed value has a type with codecs. *)
Lemma dtyped_known v t : dtyped v t = true -> Wire.prim_name t = None -> known t.
Proof.
  intros T N. destruct t as [id k sg|id k|id|id|id l|id]; try discriminate N; cbn [known].
  - destruct v; cbn [DartWire.dtyped Wire.prim_name] in T; try discriminate T; try (destruct (decl_of _ ds) as [[]|]; discriminate T).
    + destruct l as [|a [|]]; try discriminate T. rewrite !andb_true_iff in T. destruct T as (((((_ & T) & X) & _) & _) & _).
      unfold vec_element. rewrite T. exact X.
    + rewrite !andb_true_iff in T. destruct T as ((_ & T) & _). replace (vec_element id l) with (@None type_id); [assumption|].
      unfold DartWire.opaque in T. rewrite !andb_true_iff, negb_true_iff in T. destruct T as ((T & _) & _).
      unfold vec_element. destruct l as [|? [|]]; try reflexivity. now rewrite T.
  - destruct v as [| | |n' fs|n' c|n' c l|n' c fs| |n' x| | | | | | | | | | | | | | | | |]; cbn [DartWire.dtyped Wire.prim_name] in T; try discriminate T;
      try (left; unfold declared; destruct (decl_of n' ds) as [[]|] eqn:E; try discriminate T; rewrite !andb_true_iff in T;
           let H := fresh in assert (H : String.eqb n' id = true) by tauto; apply String.eqb_eq in H; subst; now rewrite E).
    right. rewrite !andb_true_iff in T. tauto.
Qed.
(** *** Classes of the models *)

(** The model of [s] is in the file. *)
Definition modelled (s : struct_node) : Prop := forall i, In i (struct_model_tree s) -> In i items.
Lemma struct_modelled n s : decl_of n ds = Some (DStruct s) -> modelled s.
Proof. intros E i I. eapply struct_class; [exact E|]. cbn [decl_items]. apply in_or_app. now left. Qed.
Lemma item_modelled n e i : decl_of n ds = Some (Wire.DEnum e) -> In i (en_items e) -> modelled (item_struct e i).
Proof.
  intros E I j J. eapply enum_class; [exact E|]. cbn [decl_items]. apply in_or_app. left. unfold enum_model_tree.
  destruct (en_items e) as [|f l]; [destruct I|]. apply in_or_app. right. apply in_flat_map. now exists i.
Qed.
Definition struct_members (s : struct_node) : list dmember :=
  map (fun f => MField (dty_of (sf_type f)) (fname f) None) (sn_fields s) ++
  [ MCtor (sn_id s) (PNamed (map (fun f => (None, fname f)) (sn_fields s))) None;
    MInitCtor (sn_id s) "createDefault" (map (fun f => (fname f, default_ex (sf_type f))) (sn_fields s)) ].
Definition factory_members (n : string) (e : dex) : list dmember :=
  [MConstCtor (n ++ "BuffersFactory"); override; MMeth false (ty0 n) "createDefault" (PPos [] false) (BArrow e)].
Lemma model_empty s : modelled s -> sn_fields s = [] -> find_class (sn_id s) items = Some [MConstCtor (sn_id s)].
Proof. intros M F. eapply class_in, M. unfold struct_model_tree. rewrite F. now left. Qed.
Lemma model_fields s : modelled s -> sn_fields s <> [] -> find_class (sn_id s) items = Some (struct_members s).
Proof.
  intros M F. eapply class_in, M. unfold struct_model_tree, struct_members. destruct (sn_fields s); [congruence|now left].
Qed.
Lemma model_not_const s : modelled s -> find_const (sn_id s) items = None.
Proof.
  intros M. destruct (sn_fields s) eqn:F.
  - eapply class_not_const; [exact names|]. apply M. unfold struct_model_tree. rewrite F. now left.
  - eapply class_not_const; [exact names|]. apply M. unfold struct_model_tree. rewrite F. now left.
Qed.
Lemma struct_factory s : modelled s ->
  find_class (sn_id s ++ "BuffersFactory") items =
  Some (factory_members (sn_id s) (match sn_fields s with [] => const0 (sn_id s) | _ => call (var (sn_id s)) "createDefault" [] end)).
Proof.
  intros M. eapply class_in, M. unfold struct_model_tree. destruct (sn_fields s); right; now left.
Qed.
Definition enum_members (e : enum_node) (first : enum_item) : list dmember :=
  MField (ty0 (en_id e ++ "Value")) "value" (Some (value_of (en_id e) (item_id first))) ::
  map (fun i => MField (ty0 (en_id e ++ item_id i)) (camel (item_id i)) (Some (item_default (en_id e) i))) (en_items e) ++
  map (to_method (en_id e)) (en_items e) ++ map (is_method (en_id e)) (en_items e) ++ map (create_method (en_id e)) (en_items e).
Lemma enum_models n e first l : decl_of n ds = Some (Wire.DEnum e) -> en_items e = first :: l ->
  find_class n items = Some (enum_members e first) /\ find_const n items = None /\
  find_enum (n ++ "Value") items = Some (map (fun i => camel (item_name i)) (en_items e)) /\ find_const (n ++ "Value") items = None /\
  find_class (n ++ "BuffersFactory") items = Some (factory_members n (new n)).
Proof.
  intros E I. pose proof (enum_id n e E) as N. subst n.
  assert (X : forall i, In i (enum_model_tree e) -> In i items).
  { intros i J. eapply enum_class; [exact E|]. cbn [decl_items]. apply in_or_app. now left. }
  unfold enum_model_tree in X. rewrite I in X.
  assert (X1 : In (DClass (en_id e) None (enum_members e first)) items).
  { apply X. apply in_or_app. left. unfold enum_members. rewrite I. right. now left. }
  assert (X2 : In (DartSyntax.DEnum (en_id e ++ "Value") (map (fun i => camel (item_name i)) (en_items e))) items).
  { apply X. apply in_or_app. left. left. rewrite I. reflexivity. }
  repeat split.
  - eapply class_in, X1.
  - eapply class_not_const; [exact names|exact X1].
  - eapply find_enum_in; [exact names|exact X2].
  - eapply enum_not_const; [exact names|exact X2].
  - eapply class_in, X. apply in_or_app. left. right. right. now left.
Qed.

(** *** Names in code that runs without [this] or in a codec object *)

Definition codec_this (th : option (dval * string)) : Prop :=
  match th with
  | None => True
  | Some (v, c) => v = dobj c [] [] /\ exists ms, find_class c items = Some ms /\
      (forall x, find_static x ms = None) /\ (forall x, ~ In x ["read"; "write"; "skip"; "createDefault"] -> find_meth false x ms = None)
  end.
Lemma codec_members_this c t1 r wr sk ps1 b1 t2 ps2 b2 ps3 b3 t3 : find_class c items = Some (codec_members c r wr sk) ->
  r = MMeth false t1 "read" ps1 b1 -> wr = MMeth false t2 "write" ps2 b2 -> sk = MMeth false t3 "skip" ps3 b3 ->
  codec_this (Some (dobj c [] [], c)).
Proof.
  intros E -> -> ->. split; [reflexivity|]. eexists. split; [exact E|]. split; [reflexivity|]. intros x N.
  cbn [find_meth codec_members Bool.eqb andb override].
  repeat match goal with |- context [String.eqb ?a x] => destruct (String.eqb_spec a x) as [<-|]; [exfalso; apply N; cbn; tauto|] end.
  reflexivity.
Qed.
Lemma factory_this n e : find_class (n ++ "BuffersFactory") items = Some (factory_members n e) ->
  codec_this (Some (dobj (n ++ "BuffersFactory") [] [], (n ++ "BuffersFactory")%string)).
Proof.
  intros E. split; [reflexivity|]. eexists. split; [exact E|]. split; [reflexivity|]. intros x N.
  cbn [find_meth factory_members Bool.eqb andb override].
  repeat match goal with |- context [String.eqb ?a x] => destruct (String.eqb_spec a x) as [<-|]; [exfalso; apply N; cbn; tauto|] end.
  reflexivity.
Qed.
Lemma local_name_not x : absent x local_names = true -> ~ In x ["read"; "write"; "skip"; "createDefault"].
Proof. intros A I. apply absent_not_in in A. apply A. cbn in I |- *. tauto. Qed.
Lemma codec_name K th x en s : codec_this th -> DartSem.lookup x en = None -> absent x local_names = true -> find_const x items = None ->
  DartSem.name_value items K th x en s = DDone None s.
Proof.
  intros T L A C. apply name_none; try assumption.
  - destruct th as [[v c]|]; [|exact I]. destruct T as [-> _]. exact I.
  - unfold own_members. destruct th as [[v c]|]; [|reflexivity]. destruct T as (_ & ms & -> & F & _). apply F.
Qed.
Lemma codec_call_name K th x vs s : codec_this th -> absent x local_names = true -> has_class items x = true ->
  call_name D items K th x vs s = k_new K x vs s.
Proof.
  intros T A H. unfold call_name, own_members. destruct th as [[v c]|].
  - destruct T as (_ & ms & -> & _ & F). rewrite (F x (local_name_not x A)), H. reflexivity.
  - cbn [find_meth]. now rewrite H.
Qed.
Lemma ev_enum_value K th n e i en s : codec_this th -> decl_of n ds = Some (Wire.DEnum e) -> In i (en_items e) ->
  DartSem.lookup (n ++ "Value") en = None ->
  pure D items K th en s (value_of n (item_name i)) (dmem (n ++ "Value") (camel (item_name i))).
Proof.
  intros T E I L. destruct (enum_conditions n e E) as (_ & _ & A & _).
  destruct (en_items e) as [|f l] eqn:F; [destruct I|].
  destruct (enum_models n e f l E F) as (_ & _ & X & Y & _). unfold value_of. eapply ev_member; try eassumption.
  - destruct th as [[v c]|]; [|exact Logic.I]. destruct T as [-> _]. exact Logic.I.
  - unfold own_members. destruct th as [[v c]|]; [|reflexivity]. destruct T as (_ & ms & -> & F' & _). apply F'.
  - rewrite F. apply in_map_iff. now exists i.
Qed.
(** *** Making default values *)

(** [fp] are new objects of [h']. *)
Definition new_objects (h h' : heap) (fp : list nat) : Prop :=
  changes h h' [] /\ NoDup fp /\ forall b, In b fp -> fresh h h' b.
Lemma new_objects_nil h h' : changes h h' [] -> new_objects h h' [].
Proof. intros C. split; [assumption|]. split; [constructor|]. intros b []. Qed.
Lemma new_objects_alloc h c : new_objects h (h ++ [c]) [List.length h].
Proof.
  split; [apply changes_alloc|]. split; [repeat constructor; easy|]. intros b [<-|[]]. unfold fresh. rewrite app_length. cbn. lia.
Qed.
Lemma new_objects_app h h1 h2 l m : new_objects h h1 l -> new_objects h1 h2 m -> new_objects h h2 (l ++ m).
Proof.
  intros (C1 & N1 & F1) (C2 & N2 & F2). split; [eapply changes_trans; eassumption|]. split.
  - apply NoDup_app_intro; try assumption. intros b I J. apply F1 in I. apply F2 in J. unfold fresh in I, J. lia.
  - intros b I. destruct C1 as [L1 _], C2 as [L2 _]. apply in_app_or in I as [I|I]; [apply F1 in I|apply F2 in I]; unfold fresh in *; lia.
Qed.
Lemma new_objects_perm h h' l m : new_objects h h' (l ++ m) -> new_objects h h' (m ++ l).
Proof.
  intros (C & N & F). split; [assumption|]. split; [now apply NoDup_app_comm|]. intros b I. apply F. apply in_or_app. apply in_app_or in I. tauto.
Qed.
Lemma new_same h h1 h2 fp : new_objects h h1 fp -> changes h1 h2 [] -> same_on fp h1 h2.
Proof. intros (_ & _ & F) C. eapply changes_same; [exact C|]. intros b I. split; [apply F in I; unfold fresh in I; lia|easy]. Qed.

(** The literal [0.0] is zero; the single precision zero becomes the double precision zero; integers have at least one byte. *)
Definition sized_type (t : type_id) : bool := match t with TyInteger _ 0 _ => false | _ => true end.
Definition sized_slots (l : list slot) : bool := forallb (fun p => sized_type (snd p)) l.
Definition sized_decl (d : decl) : bool :=
  match d with
  | DStruct s => sized_slots (map field_slot (sn_fields s))
  | Wire.DEnum e => forallb (fun i => sized_slots (item_slots i)) (en_items e)
  end.
Definition zeros : Prop := rd_float D "0" "0" = 0%Z /\ su_widen U 0 = 0%Z /\ forallb sized_decl ds = true.
Lemma signed_zero k : k <> 0 -> signed k 0 = 0%Z.
Proof.
  intros N. unfold signed. destruct (Z.ltb_spec 0 (2 ^ (8 * Z.of_nat k - 1))) as [_|H]; [reflexivity|]. exfalso.
  assert (0 < 2 ^ (8 * Z.of_nat k - 1))%Z by (apply Z.pow_pos_nonneg; lia). lia.
Qed.
(** [w] is the default value of [t], made of the objects [fp]. *)
Notation default_val d := (Defaults.schema_value (rd_ext_new D (DTy "String" [])) d).
Definition valued (h : heap) (w : dval) (t : type_id) (fp : list nat) : Prop := zeros -> sized_type t = true ->
  forall f d, Defaults.default_value ds f t = Some d -> rep (fun a => In a fp) h w (default_val d) t.
Definition valued_slots (h : heap) (cfs : list (string * dval)) (ss : list slot) (fp : list nat) : Prop := zeros -> sized_slots ss = true ->
  forall f l, Defaults.all_some (fun p => Defaults.default_value ds f (snd p)) ss = Some l ->
  all2P (fun d p => exists u, DartSem.lookup (fst p) cfs = Some u /\ rep (fun a => In a fp) h u (default_val d) (snd p)) l ss.
Definition valued_item (h : heap) (m : string) (cfs : list (string * dval)) (i : enum_item) (fp : list nat) : Prop :=
  exists u, DartSem.lookup (camel (item_name i)) cfs = Some u /\
  (item_slots i = [] -> u = dobj (m ++ item_name i) [] []) /\
  (item_slots i <> [] -> exists b gfs, u = dref b /\ In b fp /\ nth_error h b = Some (CObj (m ++ item_name i) gfs) /\ valued_slots h gfs (item_slots i) fp).

Ltac split_all E l x Q := match type of E with context [@Defaults.all_some ?A ?B ?f l] => destruct (@Defaults.all_some A B f l) as [x|] eqn:Q; [|discriminate E] end.
Lemma all2P_impl {A B} (f g : A -> B -> Prop) : (forall a b, f a b -> g a b) -> forall l m, all2P f l m -> all2P g l m.
Proof. intros H. induction l as [|a l IH]; intros [|b m]; cbn; try tauto. intros [X Y]. split; auto. Qed.
Lemma valued_frame h h' w t fp fp' : valued h w t fp -> same_on fp h h' -> incl fp fp' -> valued h' w t fp'.
Proof. intros V S I Z W f d E. eapply rep_frame; [|exact (V Z W f d E)]. intros b J. split; [now apply I|now apply S]. Qed.
Lemma valued_slots_frame h h' cfs ss fp fp' : valued_slots h cfs ss fp -> same_on fp h h' -> incl fp fp' -> valued_slots h' cfs ss fp'.
Proof.
  intros V S I Z W f l E. eapply all2P_impl; [|exact (V Z W f l E)]. cbn beta. intros d p (u & L & R). exists u. split; [exact L|].
  eapply rep_frame; [|exact R]. intros b J. split; [now apply I|now apply S].
Qed.
Lemma valued_item_frame h h' m cfs i fp fp' : valued_item h m cfs i fp -> same_on fp h h' -> incl fp fp' -> valued_item h' m cfs i fp'.
Proof.
  intros (u & L & A & B) S I. exists u. split; [exact L|]. split; [exact A|]. intros N. destruct (B N) as (b & gfs & E & J & H & V).
  exists b, gfs. split; [exact E|]. split; [now apply I|]. split; [rewrite S; assumption|]. eapply valued_slots_frame; eassumption.
Qed.
Lemma valued_slots_nil h cfs fp : valued_slots h cfs [] fp.
Proof. intros Z _ f l E. injection E as <-. exact Logic.I. Qed.
Lemma valued_slots_cons h cfs x t ss w fp : DartSem.lookup x cfs = Some w -> valued h w t fp -> valued_slots h cfs ss fp -> valued_slots h cfs ((x, t) :: ss) fp.
Proof.
  intros L V W Z SZ f l E. cbn [Defaults.all_some snd] in E. apply andb_true_iff in SZ as [SZ1 SZ2]. destruct (Defaults.default_value ds f t) as [d|] eqn:Ed; [|discriminate E].
  split_all E ss ds' Es. injection E as <-. split; [|exact (W Z SZ2 f ds' Es)].
  exists w. split; [exact L|exact (V Z SZ1 f d Ed)].
Qed.
(** Fields with their names against their slots. *)
Lemma named_slots (value : type_id -> option Defaults.dval) (fs : list struct_field) l : Defaults.named_values value fs = Some l ->
  Defaults.all_some (fun p => value (snd p)) (map field_slot fs) = Some (map snd l).
Proof.
  revert l. unfold Defaults.named_values. induction fs as [|f fs IH]; intros l E; [injection E as <-; reflexivity|].
  cbn [Defaults.all_some map] in *. cbn [field_slot snd] in *. destruct (value (sf_type f)) as [d|]; [|discriminate E].
  split_all E fs ys Q. injection E as <-. first [now rewrite (IH ys eq_refl) | now rewrite (IH ys Q)].
Qed.
Lemma tuple_all_some (value : type_id -> option Defaults.dval) (ts : list tuple_field) l : Defaults.all_some (fun v => value (tf_type v)) ts = Some l ->
  Defaults.all_some (fun p => value (snd p)) (tuple_slots ts) = Some l.
Proof.
  unfold tuple_slots, numbered. generalize 0. revert l. induction ts as [|f ts IH]; intros l k E; [exact E|].
  cbn [Defaults.all_some map seq combine List.length snd] in *. destruct (value (tf_type f)) as [d|]; [|discriminate E].
  split_all E ts ys Q. injection E as <-. first [now rewrite (IH ys (S k) eq_refl) | now rewrite (IH ys (S k) Q)].
Qed.
Lemma all2P_map_l {A A' B} (g : A -> A') (f : A' -> B -> Prop) : forall l m, all2P f (map g l) m <-> all2P (fun a => f (g a)) l m.
Proof. induction l as [|a l IH]; intros [|b m]; cbn; try tauto. now rewrite IH. Qed.
Lemma named_reps (P : nat -> Prop) h cfs (fs : list (string * Defaults.dval)) ss :
  all2P (fun d p => exists u, DartSem.lookup (fst p) cfs = Some u /\ rep P h u (default_val d) (snd p)) (map snd fs) ss ->
  all2P (fun '(_, v) p => exists u, DartSem.lookup (fst p) cfs = Some u /\ rep P h u v (snd p)) (map (fun '(x, d) => (x, default_val d)) fs) ss.
Proof. rewrite !all2P_map_l. apply all2P_impl. intros [x d] p H. exact H. Qed.

Definition made (n : nat) (t : type_id) : Prop := forall s, exists w h' fp,
  DartSem.ev D items (KK n) None (default_ex t) [] s = DDone w (set_heap h' s) /\
  new_objects (d_heap s) h' fp /\ shaped h' w t fp /\ valued h' w t fp.

Notation init_with n := (fun '(x, e) => dd v <- DartSem.ev D items (KK n) None e []; dret (x, v)).
Lemma make_slots n (ss : list slot) : Forall (fun p => made n (snd p)) ss -> forall s, exists vals h' fp,
  dmapM (init_with n) (map (fun p => (fst p, default_ex (snd p))) ss) s = DDone vals (set_heap h' s) /\
  map fst vals = map fst ss /\ new_objects (d_heap s) h' fp /\
  forall cfs, (forall x w, In (x, w) vals -> DartSem.lookup x cfs = Some w) -> shaped_slots h' cfs ss fp /\ valued_slots h' cfs ss fp.
Proof.
  induction 1 as [|[x t] ss M F IH]; intros s.
  - exists [], (d_heap s), []. split; [now destruct s|]. split; [reflexivity|]. split; [apply new_objects_nil, changes_refl|]. intros cfs _. split; [constructor|apply valued_slots_nil].
  - destruct (M s) as (w & h1 & fp1 & E1 & N1 & S1 & V1). cbn [snd] in *. destruct (IH (set_heap h1 s)) as (vals & h2 & fp2 & E2 & K2 & N2 & S2).
    exists ((x, w) :: vals), h2, (fp1 ++ fp2). cbn [map fst]. rewrite dmapM_cons.
    rewrite (dbind_done _ _ s (x, w) (set_heap h1 s)) by (rewrite (dbind_done _ _ s _ _ E1); reflexivity).
    rewrite (dbind_done _ _ _ _ _ E2). split; [reflexivity|]. split; [now rewrite K2|].
    split; [eapply new_objects_app; [exact N1|exact N2]|].
    intros cfs L. destruct (S2 cfs) as [A B]; [intros y v I; apply L; now right|].
    assert (SM : same_on fp1 h1 h2) by (eapply new_same; [exact N1|]; apply N2). split.
    + econstructor; [apply L; now left| |exact A]. eapply shaped_frame; [exact S1|exact SM].
    + eapply valued_slots_cons; [apply L; now left| |].
      * eapply valued_frame; [exact V1|exact SM|apply incl_appl, incl_refl].
      * eapply valued_slots_frame; [exact B|intros b _; reflexivity|apply incl_appr, incl_refl].
Qed.

Lemma struct_find_meth s st x : find_meth st x (struct_members s) = None.
Proof.
  unfold struct_members. generalize (map (fun f => (None, fname f)) (sn_fields s) : list dparam) (map (fun f => (fname f, default_ex (sf_type f))) (sn_fields s)).
  intros ps is. induction (sn_fields s) as [|f l IH]; [reflexivity|exact IH].
Qed.
Lemma find_init_fields (l : list struct_field) m : find_init "createDefault" (map (fun f => MField (dty_of (sf_type f)) (fname f) None) l ++ m) = find_init "createDefault" m.
Proof. induction l as [|f l IH]; [reflexivity|exact IH]. Qed.
Lemma find_ctor_fields (l : list struct_field) m : find_ctor (map (fun f => MField (dty_of (sf_type f)) (fname f) None) l ++ m) = find_ctor m.
Proof. induction l as [|f l IH]; [reflexivity|exact IH]. Qed.
Lemma struct_instance_fields s : instance_fields (struct_members s) = map (fun f => (fname f, None)) (sn_fields s).
Proof.
  unfold struct_members, instance_fields. rewrite flat_map_app. cbn [flat_map]. rewrite app_nil_r.
  induction (sn_fields s) as [|f l IH]; [reflexivity|]. cbn [map flat_map]. now rewrite IH.
Qed.
Lemma slot_names s : map fst (map field_slot (sn_fields s)) = map fname (sn_fields s).
Proof. rewrite map_map. reflexivity. Qed.

Lemma make_struct n s : modelled s -> sn_fields s <> [] -> NoDup (map fname (sn_fields s)) ->
  Forall (fun p => made n (snd p)) (map field_slot (sn_fields s)) ->
  forall st, exists a cfs h' fp,
    static_with D items (KK n) (sn_id s) "createDefault" [] st = DDone (dref a) (set_heap h' st) /\
    new_objects (d_heap st) h' (a :: fp) /\ nth_error h' a = Some (CObj (sn_id s) cfs) /\
    shaped_slots h' cfs (map field_slot (sn_fields s)) fp /\ valued_slots h' cfs (map field_slot (sn_fields s)) fp.
Proof.
  intros M E N F st. destruct (make_slots n _ F st) as (vals & h1 & fp & E1 & K1 & N1 & S1).
  rewrite slot_names in K1. exists (List.length h1), vals, (h1 ++ [CObj (sn_id s) vals]), fp.
  unfold static_with. rewrite (model_fields s M E), struct_find_meth. unfold struct_members at 1. rewrite find_init_fields. cbn [find_init].
  change (String.eqb "createDefault" "createDefault") with true. cbv iota beta.
  rewrite map_map in E1. rewrite (dbind_done _ _ _ _ _ E1). unfold alloc. cbn [d_heap set_heap].
  rewrite struct_instance_fields, <- (app_nil_r vals), field_values_all;
    [| rewrite map_map; cbn [fst]; now rewrite K1 | now rewrite K1]. rewrite app_nil_r.
  split; [reflexivity|]. split; [|split].
  - apply (new_objects_perm _ _ fp [List.length h1]). eapply new_objects_app; [exact N1|apply new_objects_alloc].
  - apply nth_app_new.
  - destruct (S1 vals) as [A B]; [intros x w I; apply lookup_in; [now rewrite K1|assumption]|].
    assert (SM : same_on fp h1 (h1 ++ [CObj (sn_id s) vals])) by (eapply new_same; [exact N1|apply changes_alloc]).
    split; [eapply slots_frame; [exact A|exact SM]|]. eapply valued_slots_frame; [exact B|exact SM|apply incl_refl].
Qed.

Lemma lib_list_factory n ts s : 1 <= n ->
  DartSem.ev D items (KK n) None (call (DConst "ListBuffersFactory" ts [] false) "createDefault" []) [] s = alloc (CList []) s.
Proof.
  intros L. rewrite (ev_call_const D items (KK n) None "ListBuffersFactory" ts [] false "createDefault" [] [] (dobj "ListBuffersFactory" ts []) [] s).
  - unfold method. rewrite lib_class by (cbn; tauto). reflexivity.
  - apply ev_const_lib, lib_class. cbn. tauto.
  - constructor.
Qed.
Lemma outside_not m : outside m = true -> m <> "List" /\ existsb (String.eqb m) dart_elements = false /\ decl_of m ds = None.
Proof.
  intros O. unfold DartWire.outside in O. rewrite !andb_true_iff, !negb_true_iff in O. destruct O as ((X & O) & _).
  cbn [existsb] in O. rewrite !orb_false_iff in O. destruct O as (A & B & C & E & _). repeat split.
  - now apply String.eqb_neq.
  - cbn [existsb dart_elements]. now rewrite B, C, E.
  - unfold declared in X. now destruct (decl_of m ds).
Qed.
Lemma not_list_name m suf suf' : m <> "List" -> In suf ["IntoBuffers"; "EmplaceToBuffers"; "BuffersFactory"] ->
  In suf' ["IntoBuffers"; "EmplaceToBuffers"; "BuffersFactory"] -> String.eqb (m ++ suf) ("List" ++ suf') = false.
Proof.
  intros N I J. apply String.eqb_neq. intros E. pose proof (strip_app suf m) as X. rewrite E in X.
  cbn [In] in I, J. decompose [or] I; subst; try contradiction; decompose [or] J; subst; try contradiction; vm_compute in X; try discriminate X; congruence.
Qed.
Lemma codec_name_method K m suf ts mt vs : outside m = true -> In suf ["IntoBuffers"; "EmplaceToBuffers"; "BuffersFactory"] ->
  method D items K (dobj (m ++ suf) ts []) mt vs =
  if String.eqb suf "IntoBuffers" then into_method D m ts mt vs
  else if String.eqb suf "EmplaceToBuffers" then emplace_method D m ts mt vs
  else if String.eqb mt "createDefault" then
    match vs with
    | [] => if String.eqb m "String" then dret (dstr (rd_ext_new D (DTy m ts))) else alloc (CExt (DTy m ts) (rd_ext_new D (DTy m ts)))
    | _ => dstuck
    end
  else dstuck.
Proof.
  intros O I. pose proof (outside_class m suf O I) as H. destruct (outside_not m O) as (N & _).
  unfold method. rewrite H. unfold codec_method.
  assert (X : forall suf', In suf' ["IntoBuffers"; "EmplaceToBuffers"; "BuffersFactory"] -> String.eqb (m ++ suf) ("List" ++ suf') = false)
    by (intros; now apply not_list_name).
  pose proof (X "IntoBuffers" ltac:(cbn; tauto)) as X1. pose proof (X "EmplaceToBuffers" ltac:(cbn; tauto)) as X2.
  pose proof (X "BuffersFactory" ltac:(cbn; tauto)) as X3.
  change ("List" ++ "IntoBuffers")%string with "ListIntoBuffers" in X1. change ("List" ++ "EmplaceToBuffers")%string with "ListEmplaceToBuffers" in X2.
  change ("List" ++ "BuffersFactory")%string with "ListBuffersFactory" in X3. rewrite X1, X2, X3.
  cbn [In] in I. decompose [or] I; subst; try contradiction.
  - now rewrite strip_app.
  - rewrite strip_into_emplace, strip_app. reflexivity.
  - rewrite strip_into_factory, strip_emplace_factory, strip_app. reflexivity.
Qed.
Lemma ev_ext_factory n m ts s : outside m = true ->
  DartSem.ev D items (KK n) None (call (DConst (m ++ "BuffersFactory") ts [] false) "createDefault" []) [] s =
  (if String.eqb m "String" then dret (dstr (rd_ext_new D (DTy m ts))) else alloc (CExt (DTy m ts) (rd_ext_new D (DTy m ts)))) s.
Proof.
  intros O. assert (I : In "BuffersFactory" ["IntoBuffers"; "EmplaceToBuffers"; "BuffersFactory"]) by (cbn; tauto).
  rewrite (ev_call_const D items (KK n) None (m ++ "BuffersFactory") ts [] false "createDefault" [] [] (dobj (m ++ "BuffersFactory") ts []) [] s).
  - rewrite codec_name_method by assumption. reflexivity.
  - apply ev_const_lib. now apply outside_class.
  - constructor.
Qed.
Lemma ev_own_factory n m e s : find_class (m ++ "BuffersFactory") items = Some (factory_members m e) ->
  DartSem.ev D items (KK (S n)) None (call (const0 (m ++ "BuffersFactory")) "createDefault" []) [] s =
  DartSem.ev D items (KK n) (Some (dobj (m ++ "BuffersFactory") [] [], (m ++ "BuffersFactory")%string)) e [] s.
Proof.
  intros F. unfold const0. rewrite (ev_call_const D items (KK (S n)) None (m ++ "BuffersFactory") [] [] false "createDefault" [] [] (dobj (m ++ "BuffersFactory") [] []) [] s).
  - unfold method. rewrite (has_class_some _ _ F). cbn [dcalls_upto k_invoke]. unfold invoke_with. rewrite F. reflexivity.
  - unfold pure. cbn [DartSem.ev dmapM]. rewrite dbind_ret_l, (has_class_some _ _ F). cbn [dcalls_upto k_new]. unfold new_with. rewrite F. reflexivity.
  - constructor.
Qed.

(** The default value of an item. *)
Definition item_creatable (m : nat) (i : enum_item) : bool :=
  forallb (fun p => creatable ds classes m (snd p)) (item_slots i) &&
  match i with ItemEmpty _ _ => true | _ => negb (match item_slots i with [] => true | _ => false end) end.
Lemma item_conditions n e i : decl_of n ds = Some (Wire.DEnum e) -> In i (en_items e) ->
  absent (n ++ item_name i) local_names = true /\ NoDup (map fst (item_slots i)) /\ (item_pos i < 2 ^ 31)%N.
Proof.
  intros E I. destruct (enum_conditions n e E) as (_ & _ & _ & _ & _ & F). rewrite forallb_forall in F. specialize (F i I).
  unfold dart_item_ok in F. rewrite (enum_id n e E), !andb_true_iff in F. destruct F as ((A & B) & C). repeat split; try assumption.
  - now apply nodupb_NoDup.
  - now apply N.ltb_lt.
Qed.
Lemma make_items n m e l : decl_of m ds = Some (Wire.DEnum e) -> incl l (en_items e) ->
  Forall (fun i => Forall (fun p => made n (snd p)) (item_slots i) /\ match i with ItemEmpty _ _ => True | _ => item_slots i <> [] end) l ->
  forall s, exists vals h' fp,
  dmapM (init_with (S n)) (map (fun i => (camel (item_name i), item_default m i)) l) s = DDone vals (set_heap h' s) /\
  map fst vals = map (fun i => camel (item_name i)) l /\ new_objects (d_heap s) h' fp /\
  forall cfs, (forall x w, In (x, w) vals -> DartSem.lookup x cfs = Some w) -> shaped_items h' m cfs l fp /\ Forall (fun i => valued_item h' m cfs i fp) l.
Proof.
  intros E. induction l as [|i l IH]; intros I F s.
  - exists [], (d_heap s), []. split; [now destruct s|]. split; [reflexivity|]. split; [apply new_objects_nil, changes_refl|]. split; constructor.
  - apply Forall_cons_iff in F as [[F1 F2] F]. assert (J : In i (en_items e)) by (apply I; now left).
    pose proof (item_modelled m e i E J) as M. destruct (item_conditions m e i E J) as (A & ND & _).
    pose proof (item_struct_slots e i) as SL. pose proof (item_struct_id e i) as SI. rewrite (enum_id m e E) in SI.
    destruct (match item_slots i with [] => true | _ => false end) eqn:Z.
    + assert (Z' : item_slots i = []) by (destruct (item_slots i); [reflexivity|discriminate]).
      destruct i as [p c|p c ts|p c fs]; try congruence.
      assert (EV : DartSem.ev D items (KK (S n)) None (item_default m (ItemEmpty p c)) [] s = DDone (dobj (m ++ c) [] []) s).
      { pose proof (model_empty _ M eq_refl) as X. rewrite SI in X. cbn [item_name] in X. cbn [item_default const0 DartSem.ev dmapM].
        rewrite dbind_ret_l, (has_class_some _ _ X). cbn [dcalls_upto k_new]. unfold new_with. rewrite X. reflexivity. }
      destruct (IH (fun x H => I x (or_intror H)) F s) as (vals & h2 & fp2 & E2 & K2 & N2 & S2).
      exists ((camel c, dobj (m ++ c) [] []) :: vals), h2, fp2. cbn [map]. rewrite dmapM_cons.
      rewrite (dbind_done _ _ s (camel c, dobj (m ++ c) [] []) s) by (rewrite (dbind_done _ _ s _ _ EV); reflexivity).
      rewrite (dbind_done _ _ _ _ _ E2). split; [reflexivity|]. split; [cbn [fst]; now rewrite K2|]. split; [exact N2|].
      intros cfs L. destruct (S2 cfs) as [SA VA]; [intros y v H; apply L; now right|]. split.
      * eapply si_empty; [reflexivity|apply L; now left|exact SA].
      * constructor; [|exact VA]. exists (dobj (m ++ c) [] []). split; [apply L; now left|]. split; [reflexivity|]. intros H. now contradiction H.
    + assert (Z' : item_slots i <> []) by (intros H; rewrite H in Z; discriminate).
      assert (NE : sn_fields (item_struct e i) <> []) by (intros H; rewrite H in SL; symmetry in SL; contradiction).
      destruct (make_struct n (item_struct e i) M NE) with (st := s) as (a & gfs & h1 & fp1 & E1 & N1 & C1 & S1 & V1).
      { now rewrite <- slot_names, SL. }
      { now rewrite SL. }
      rewrite SL in S1, V1. rewrite SI in C1, E1.
      assert (EV : DartSem.ev D items (KK (S n)) None (item_default m i) [] s = DDone (dref a) (set_heap h1 s)).
      { assert (item_default m i = call (var (m ++ item_name i)) "createDefault" []) as -> by (destruct i; [now contradiction Z'|reflexivity|reflexivity]).
        rewrite ev_static.
        - unfold call_static. pose proof (model_fields _ M NE) as X. rewrite SI in X. rewrite (has_class_some _ _ X). exact E1.
        - apply codec_name; [exact Logic.I|reflexivity|assumption|]. rewrite <- SI. now apply model_not_const. }
      destruct (IH (fun x H => I x (or_intror H)) F (set_heap h1 s)) as (vals & h2 & fp2 & E2 & K2 & N2 & S2).
      exists ((camel (item_name i), dref a) :: vals), h2, ((a :: fp1) ++ fp2). cbn [map]. rewrite dmapM_cons.
      rewrite (dbind_done _ _ s (camel (item_name i), dref a) (set_heap h1 s)) by (rewrite (dbind_done _ _ s _ _ EV); reflexivity).
      rewrite (dbind_done _ _ _ _ _ E2). split; [reflexivity|]. split; [cbn [fst]; now rewrite K2|].
      split; [eapply new_objects_app; [exact N1|exact N2]|].
      pose proof (new_same _ _ _ _ N1 (proj1 N2)) as SA. apply same_on_cons in SA as [SA SB]. cbn [d_heap set_heap] in SA.
      intros cfs L. destruct (S2 cfs) as [SS VS]; [intros y v H; apply L; now right|]. cbn [app]. split.
      * eapply si_cons; [exact Z'|apply L; now left|rewrite SA; exact C1| |exact SS]. eapply slots_frame; [exact S1|exact SB].
      * constructor.
        -- exists (dref a). split; [apply L; now left|]. split; [intros H; contradiction|]. intros _. exists a, gfs. split; [reflexivity|].
           split; [now left|]. split; [rewrite SA; exact C1|]. eapply valued_slots_frame; [exact V1|exact SB|].
           apply incl_tl, incl_appl, incl_refl.
        -- eapply Forall_impl; [|exact VS]. intros j VJ. eapply valued_item_frame; [exact VJ|intros b _; reflexivity|apply incl_tl, incl_appr, incl_refl].
Qed.
Lemma enum_find_ctor e f : find_ctor (enum_members e f) = CtorNone.
Proof.
  unfold enum_members. cbn [find_ctor].
  assert (A : forall l m, find_ctor (map (fun i => MField (ty0 (en_id e ++ item_id i)) (camel (item_id i)) (Some (item_default (en_id e) i))) l ++ m) = find_ctor m)
    by (induction l as [|i l IH]; intros m; [reflexivity|apply IH]).
  assert (B : forall l m, find_ctor (map (to_method (en_id e)) l ++ m) = find_ctor m)
    by (induction l as [|i l IH]; intros m; [reflexivity|apply IH]).
  assert (C : forall l m, find_ctor (map (is_method (en_id e)) l ++ m) = find_ctor m)
    by (induction l as [|i l IH]; intros m; [reflexivity|apply IH]).
  assert (E : forall l m, find_ctor (map (create_method (en_id e)) l ++ m) = find_ctor m)
    by (induction l as [|i l IH]; intros m; [reflexivity|apply IH]).
  rewrite A, B, C, <- (app_nil_r (map (create_method (en_id e)) (en_items e))), E. reflexivity.
Qed.
Lemma enum_instance_fields e f : instance_fields (enum_members e f) =
  ("value", Some (value_of (en_id e) (item_name f))) :: map (fun i => (camel (item_name i), Some (item_default (en_id e) i))) (en_items e).
Proof.
  unfold enum_members, instance_fields. cbn [flat_map app]. rewrite item_id_name. f_equal. rewrite !flat_map_app.
  assert (A : forall l, flat_map (fun m => match m with MLate _ n => [(n, None)] | MFinal _ n e | MField _ n e => [(n, e)] | _ => [] end)
     (map (fun i => MField (ty0 (en_id e ++ item_id i)) (camel (item_id i)) (Some (item_default (en_id e) i))) l) =
     map (fun i => (camel (item_name i), Some (item_default (en_id e) i))) l).
  { induction l as [|i l IH]; [reflexivity|]. cbn [map flat_map app]. now rewrite IH, item_id_name. }
  assert (B : forall g : enum_item -> dmember, (forall i, match g i with MLate _ _ | MFinal _ _ _ | MField _ _ _ => False | _ => True end) ->
    forall l, flat_map (fun m => match m with MLate _ n => [(n, None)] | MFinal _ n e | MField _ n e => [(n, e)] | _ => [] end) (map g l) = []).
  { intros g G. induction l as [|i l IH]; [reflexivity|]. cbn [map flat_map]. rewrite IH. specialize (G i). now destruct (g i). }
  rewrite A, !B, !app_nil_r; [reflexivity| | |]; intros i; exact Logic.I.
Qed.
Lemma new_enum n m e : decl_of m ds = Some (Wire.DEnum e) -> en_items e <> [] ->
  Forall (fun i => Forall (fun p => made n (snd p)) (item_slots i) /\ match i with ItemEmpty _ _ => True | _ => item_slots i <> [] end) (en_items e) ->
  forall s, exists a h' fp, new_with D items (KK (S n)) m [] s = DDone (dref a) (set_heap h' s) /\
    new_objects (d_heap s) h' fp /\ shaped h' (dref a) (TyOther m) fp /\ valued h' (dref a) (TyOther m) fp.
Proof.
  intros E NE F s. destruct (en_items e) as [|f l] eqn:Q; [congruence|]. rewrite <- Q in *.
  destruct (enum_models m e f l E Q) as (X & _ & _).
  destruct (enum_conditions m e E) as (_ & _ & _ & _ & ND & _).
  destruct (make_items n m e (en_items e) E (incl_refl _) F s) as (vals & h1 & fp & E1 & K1 & N1 & S1).
  set (cfs := ("value", dmem (m ++ "Value") (camel (item_name f))) :: vals).
  exists (List.length h1), (h1 ++ [CObj m cfs]), (List.length h1 :: fp).
  unfold new_with. rewrite X, enum_find_ctor, enum_instance_fields, (enum_id m e E).
  assert (I : initialisers D items (KK (S n)) (("value", Some (value_of m (item_name f))) :: map (fun i => (camel (item_name i), Some (item_default m i))) (en_items e)) s
    = DDone cfs (set_heap h1 s)).
  { unfold initialisers. cbn [flat_map app]. rewrite dmapM_cons.
    assert (V : DartSem.ev D items (KK (S n)) None (value_of m (item_name f)) [] s = DDone (dmem (m ++ "Value") (camel (item_name f))) s).
    { eapply ev_enum_value; [exact Logic.I|exact E|rewrite Q; now left|reflexivity]. }
    rewrite (dbind_done _ _ s ("value", dmem (m ++ "Value") (camel (item_name f))) s) by (rewrite (dbind_done _ _ s _ _ V); reflexivity).
    assert (Z : flat_map (fun '(n0, o) => match o with Some e0 => [(n0, e0)] | None => [] end) (map (fun i => (camel (item_name i), Some (item_default m i))) (en_items e))
      = map (fun i => (camel (item_name i), item_default m i)) (en_items e)).
    { clear. induction (en_items e) as [|i l IH]; [reflexivity|]. cbn [map flat_map app]. now rewrite IH. }
    rewrite Z, (dbind_done _ _ _ _ _ E1). reflexivity. }
  rewrite (dbind_done _ _ _ _ _ I). unfold alloc. cbn [d_heap set_heap].
  rewrite <- (app_nil_r cfs), field_values_all; [rewrite app_nil_r| |].
  - split; [reflexivity|]. split.
    + apply (new_objects_perm _ _ fp [List.length h1]). eapply new_objects_app; [exact N1|apply new_objects_alloc].
    + destruct (S1 cfs) as [SA VA].
      { intros x w H. unfold cfs. apply lookup_in; [cbn [map fst]; now rewrite K1|now right]. }
      assert (SM : same_on fp h1 (h1 ++ [CObj m cfs])) by (eapply new_same; [exact N1|apply changes_alloc]). split.
      * eapply sh_enum; [exact E|apply nth_app_new|reflexivity|]. eapply items_frame; [exact SA|exact SM].
      * rewrite Q in VA. apply Forall_inv in VA. eapply valued_item_frame with (fp' := List.length h1 :: fp) in VA; [|exact SM|apply incl_tl, incl_refl].
        assert (IOF : items_of ds m (item_name f) = item_slots f).
        { unfold items_of. rewrite E. unfold item_of. rewrite Q. cbn [find]. now rewrite String.eqb_refl. }
        destruct VA as (u & LU & VE & VN). intros Z _ k d DV.
        assert (SZ : sized_slots (item_slots f) = true).
        { destruct Z as (_ & _ & SZ). rewrite forallb_forall in SZ. specialize (SZ _ (proj1 (decl_of_in _ _ _ E))). cbn [sized_decl] in SZ. rewrite Q in SZ. now apply andb_true_iff in SZ as [SZ _]. } destruct k as [|k]; cbn [Defaults.default_value] in DV; rewrite E in DV; [discriminate DV|].
        rewrite Q in DV. destruct f as [p c|p c ts|p c fs]; cbn [item_name item_slots] in *.
        -- injection DV as <-. exists (List.length h1), cfs. split; [reflexivity|]. split; [now left|]. split; [apply nth_app_new|]. split; [reflexivity|].
           exists u. split; [exact LU|]. now apply VE.
        -- split_all DV ts l' AS. injection DV as <-.
           assert (NZ : tuple_slots ts <> []). { rewrite Q in F. apply Forall_inv in F. exact (proj2 F). }
           destruct (VN NZ) as (b & gfs & -> & IB & HB & VS).
           exists (List.length h1), cfs. split; [reflexivity|]. split; [now left|]. split; [apply nth_app_new|]. split; [reflexivity|].
           exists (dref b). split; [exact LU|]. exists b, gfs. split; [reflexivity|]. split; [exact IB|]. split; [exact HB|].
           fold (DartWire.rep U ds). rewrite IOF. apply all2P_map_l. exact (VS Z SZ k l' (tuple_all_some _ _ _ AS)).
        -- destruct (Defaults.named_values _ fs) as [l'|] eqn:AS; [|discriminate DV]. injection DV as <-.
           assert (NZ : map field_slot fs <> []). { rewrite Q in F. apply Forall_inv in F. exact (proj2 F). }
           destruct (VN NZ) as (b & gfs & -> & IB & HB & VS).
           exists (List.length h1), cfs. split; [reflexivity|]. split; [now left|]. split; [apply nth_app_new|]. split; [reflexivity|].
           exists (dref b). split; [exact LU|]. exists b, gfs. split; [reflexivity|]. split; [exact IB|]. split; [exact HB|].
           rewrite IOF. apply named_reps. exact (VS Z SZ k _ (named_slots _ _ _ AS)).
  - unfold cfs. cbn [map fst]. rewrite K1, map_map. reflexivity.
  - unfold cfs. cbn [map fst]. now rewrite K1.
Qed.

Lemma creatable_made m : forall t n, creatable ds classes m t = true -> 3 * m + 1 <= n -> made n t.
Proof.
  induction m as [|m IH]; intros t n C L s.
  all: destruct n as [|n]; [exfalso; clear - L; lia|].
  all: destruct t as [id k sg|id k|id|id|id l|id]; cbn [default_ex];
    try (eexists _, (d_heap s), []; split; [destruct s; reflexivity|]; split; [apply new_objects_nil, changes_refl|]; split; [apply sh_prim; discriminate|];
      intros (ZF & Z & _) SZ f d E; destruct f; injection E as <-; cbn [DartWire.rep Defaults.schema_value dart_prim dart_num]; first [reflexivity | rewrite signed_zero; [reflexivity|now destruct k] | destruct k as [|[|[|[|[|]]]]]; cbn; now rewrite ?ZF, ?Z]).
  all: (assert (G : forall id l, is_vec id l || opaque id = true -> exists w h' fp,
        DartSem.ev D items (KK (S n)) None (call (DConst (list_name id ++ "BuffersFactory") (map dty_of l) [] false) "createDefault" []) [] s = DDone w (set_heap h' s) /\
        new_objects (d_heap s) h' fp /\ shaped h' w (TyGeneric id l) fp /\ valued h' w (TyGeneric id l) fp);
    [ clear C; intros g gl C; apply orb_true_iff in C as [C|C];
      [ unfold is_vec in C; apply andb_true_iff in C as [C1 C2]; apply String.eqb_eq in C1; subst g; destruct gl as [|a [|]]; try discriminate C2;
        exists (dref (List.length (d_heap s))), (d_heap s ++ [CList []]), [List.length (d_heap s)];
        split; [apply (lib_list_factory (S n)), le_n_S, Nat.le_0_l|]; split; [apply new_objects_alloc|]; split; [eapply sh_list, nth_app_new|];
        intros Z _ f d E; destruct f; injection E as <-; exists (List.length (d_heap s)), []; (split; [reflexivity|]; split; [now left|]; split; [apply nth_app_new|exact Logic.I])
      | unfold DartWire.opaque in C; pose proof C as C'; rewrite !andb_true_iff, !negb_true_iff in C; destruct C as ((A & B) & O);
        exists (dref (List.length (d_heap s))), (d_heap s ++ [CExt (DTy g (map dty_of gl)) (rd_ext_new D (DTy g (map dty_of gl)))]), [List.length (d_heap s)];
        unfold list_name; rewrite A;
        split; [rewrite ev_ext_factory by assumption; now rewrite B|]; split; [apply new_objects_alloc|]; split;
        [ eapply sh_opaque; [exact C'|]; rewrite nth_app_new; f_equal; f_equal; cbn [dart_type]; rewrite A; reflexivity
        | intros Z _ f d E; destruct f, gl as [|a [|]]; cbn [Defaults.default_value] in E; rewrite ?A in E; discriminate E ] ]
    |] ).
  all: try (now apply G).
  all: clear G.
  all: assert (O : outside id = true -> exists w h' fp,
        DartSem.ev D items (KK (S n)) None (call (const0 (id ++ "BuffersFactory")) "createDefault" []) [] s = DDone w (set_heap h' s) /\
        new_objects (d_heap s) h' fp /\ shaped h' w (TyOther id) fp /\ valued h' w (TyOther id) fp)
   by (intros O; destruct (outside_not id O) as (_ & _ & ON); unfold const0; rewrite ev_ext_factory by assumption; destruct (String.eqb_spec id "String") as [->|N];
       [ eexists _, (d_heap s), []; split; [destruct s; reflexivity|]; split; [apply new_objects_nil, changes_refl|]; split; [apply sh_string|];
         intros Z _ f d E; destruct f; cbn [Defaults.default_value] in E; rewrite ON in E; injection E as <-; reflexivity
       | exists (dref (List.length (d_heap s))), (d_heap s ++ [CExt (DTy id []) (rd_ext_new D (DTy id []))]), [List.length (d_heap s)];
         split; [reflexivity|]; split; [apply new_objects_alloc|]; split; [eapply sh_ext; [exact N|exact O|apply nth_app_new]|];
         intros Z _ f d E; destruct f; cbn [Defaults.default_value] in E; rewrite ON in E; destruct (String.eqb_spec id "String"); try contradiction; discriminate E ]).
  - cbn [creatable] in C. destruct (decl_of id ds) as [[]|]; try discriminate C. now apply O.
  - cbn [creatable] in C. destruct (decl_of id ds) as [[st|e]|] eqn:E; [| |now apply O]; clear O.
    + pose proof (struct_modelled id st E) as M. pose proof (struct_id id st E) as SI.
      destruct (struct_conditions id st E) as (_ & A & _ & _ & ND & _).
      pose proof (struct_factory st M) as FC. rewrite SI in FC. rewrite (ev_own_factory n id _ s FC).
      pose proof (factory_this _ _ FC) as TH.
      destruct (match sn_fields st with [] => true | _ => false end) eqn:Z.
      * assert (Z' : sn_fields st = []) by (destruct (sn_fields st); [reflexivity|discriminate]). rewrite Z'.
        destruct n as [|n]; [exfalso; clear - L; lia|].
        exists (dobj id [] []), (d_heap s), []. split.
        { pose proof (model_empty _ M Z') as X. rewrite SI in X. cbn [const0 DartSem.ev dmapM].
          rewrite dbind_ret_l, (has_class_some _ _ X). cbn [dcalls_upto k_new]. unfold new_with. rewrite X. destruct s; reflexivity. }
        split; [apply new_objects_nil, changes_refl|]. split; [eapply sh_empty; eassumption|].
        intros Z0 _ f d DV. destruct f as [|f]; cbn [Defaults.default_value] in DV; rewrite E in DV; [discriminate DV|]. rewrite Z' in DV. injection DV as <-. reflexivity.
      * assert (Z' : sn_fields st <> []) by (intros H; rewrite H in Z; discriminate).
        assert (MT : match sn_fields st with [] => const0 id | _ :: _ => call (var id) "createDefault" [] end = call (var id) "createDefault" [])
          by (destruct (sn_fields st); [congruence|reflexivity]). rewrite MT.
        destruct n as [|n]; [exfalso; clear - L; lia|].
        destruct (make_struct n st M Z' ND) with (st := s) as (a & cfs & h' & fp & E1 & N1 & C1 & S1 & V1).
        { rewrite Forall_forall. intros p I. apply in_map_iff in I as (f & <- & I). rewrite forallb_forall in C.
          apply IH; [now apply C|]. clear - L. lia. }
        exists (dref a), h', (a :: fp). split.
        { rewrite ev_static.
          - unfold call_static. pose proof (model_fields _ M Z') as X. rewrite SI in X. rewrite (has_class_some _ _ X).
            rewrite SI in E1. exact E1.
          - apply codec_name; [exact TH|reflexivity|exact A|]. rewrite <- SI. now apply model_not_const. }
        split; [exact N1|]. rewrite SI in C1. split; [eapply sh_struct; eassumption|].
        intros Z0 _ f d DV. destruct f as [|f]; cbn [Defaults.default_value] in DV; rewrite E in DV; [discriminate DV|].
        destruct (Defaults.named_values _ (sn_fields st)) as [l|] eqn:NV; [|discriminate DV]. injection DV as <-.
        assert (SZ : sized_slots (map field_slot (sn_fields st)) = true).
        { destruct Z0 as (_ & _ & SZ). rewrite forallb_forall in SZ. exact (SZ _ (proj1 (decl_of_in _ _ _ E))). }
        pose proof (V1 Z0 SZ f _ (named_slots _ _ _ NV)) as R. cbn [Defaults.schema_value].
        assert (FO : fields_of ds id = map field_slot (sn_fields st)) by (unfold fields_of; now rewrite E).
        destruct l as [|[x d] l].
        { exfalso. destruct (sn_fields st); [now contradiction Z'|exact R]. }
        exists a, cfs. split; [reflexivity|]. split; [now left|]. split; [exact C1|]. rewrite FO. apply (named_reps _ _ _ ((x, d) :: l)).
        eapply all2P_impl; [|exact R]. cbn beta. intros d' p (u & L' & R'). exists u. split; [exact L'|].
        eapply rep_frame; [|exact R']. intros b J. split; [now right|reflexivity].
    + apply andb_true_iff in C as [C1 C2].
      assert (NE : en_items e <> []) by (intros H; rewrite H in C1; discriminate).
      destruct (en_items e) as [|f l] eqn:Q; [congruence|]. destruct (enum_models id e f l E Q) as (X & XC & _ & _ & FC). rewrite <- Q in *.
      destruct (enum_conditions id e E) as (_ & A & _).
      rewrite (ev_own_factory n id _ s FC). pose proof (factory_this _ _ FC) as TH.
      destruct n as [|[|n]]; [exfalso; clear - L; lia|exfalso; clear - L; lia|].
      assert (G : Forall (fun i => Forall (fun p => made n (snd p)) (item_slots i) /\ match i with ItemEmpty _ _ => True | _ => item_slots i <> [] end) (en_items e)).
      { rewrite Forall_forall. intros i I. rewrite forallb_forall in C2. specialize (C2 i I). apply andb_true_iff in C2 as [C2 C3]. split.
        - rewrite Forall_forall. intros p J. rewrite forallb_forall in C2. apply IH; [now apply C2|]. clear - L. lia.
        - destruct i as [?|? ? [|]|? ? [|]]; try exact Logic.I; try discriminate C3; cbn; discriminate. }
      destruct (new_enum n id e E NE G s) as (a & h' & fp & E1 & N1 & S1 & V1).
      exists (dref a), h', fp. split; [|split; [|split]; assumption].
      unfold new. rewrite (ev_new D items (KK (S (S n))) _ id [] false [] s [] s).
      * rewrite codec_call_name; [exact E1|exact TH|exact A|]. eapply has_class_some, X.
      * now apply codec_name.
      * reflexivity.
Qed.
(** *** Primitives *)

Hypothesis law : dlawful D U.

Definition prim_facts (t : type_id) (z : Z) : Prop :=
  DartTree.is_prim t = true /\ DartTree.prim_name t = field_codec t /\
  In (field_codec t) dart_prims /\
  prim_val (field_codec t) (dart_num U t z) = dart_prim U t z /\
  prim_num (field_codec t) (dart_prim U t z) = Some (dart_num U t z) /\
  (forall r, rd_get D (field_codec t) (rd_put D (field_codec t) (dart_num U t z) ++ r) = Some (dart_num U t z, r)) /\
  generate_class_prefix t = element_codec t /\
  In (element_codec t) dart_elements /\
  prim_val (element_codec t) (dart_num U t z) = dart_prim U t z /\
  prim_num (element_codec t) (dart_prim U t z) = Some (dart_num U t z) /\
  (forall r, rd_eget D (element_codec t) (rd_eput D (element_codec t) (dart_num U t z) ++ r) = Some (dart_num U t z, r)).
Lemma prim_ok_facts t z : prim_ok U t z = true -> prim_facts t z.
Proof.
  intros P. unfold prim_facts.
  destruct t as [id k sg|id k|id|id|id l|id]; cbn [prim_ok] in P; try discriminate P.
  - rewrite !andb_true_iff in P. destruct P as [[I S] R]. apply Nat.eqb_eq in S.
    assert (X : (k = 1 \/ k = 4 \/ k = 8) /\ dart_range (field_codec (TyInteger id k sg)) (signed k z) = true /\ element_range "Int" (signed k z) = true).
    { clear - I S R. unfold is_integer in I. cbn [existsb] in I.
      repeat (apply orb_true_iff in I; destruct I as [I|I]; [apply String.eqb_eq in I; subst id; cbv in S; subst k;
        (split; [tauto|]); cbn [field_codec]; unfold signed, dart_range, element_range, in_range in *;
        cbn [String.eqb Ascii.eqb Bool.eqb orb] in *;
        change (2 ^ 7)%Z with 128%Z in *; change (2 ^ 8)%Z with 256%Z in *;
        change (2 ^ 31)%Z with 2147483648%Z in *; change (2 ^ 32)%Z with 4294967296%Z in *;
        change (2 ^ 63)%Z with 9223372036854775808%Z in *; change (2 ^ 64)%Z with 18446744073709551616%Z in *;
        change (2 ^ (8 * Z.of_nat 1 - 1))%Z with 128%Z; change (2 ^ (8 * Z.of_nat 1))%Z with 256%Z;
        change (2 ^ (8 * Z.of_nat 4 - 1))%Z with 2147483648%Z; change (2 ^ (8 * Z.of_nat 4))%Z with 4294967296%Z;
        change (2 ^ (8 * Z.of_nat 8 - 1))%Z with 9223372036854775808%Z; change (2 ^ (8 * Z.of_nat 8))%Z with 18446744073709551616%Z;
        split; destruct (Z.ltb_spec z 128); destruct (Z.ltb_spec z 2147483648); destruct (Z.ltb_spec z 9223372036854775808); lia|]).
      discriminate. }
    destruct X as (K & X1 & X2).
    split; [reflexivity|]. split; [reflexivity|].
    cbn [dart_num dart_prim element_codec].
    split; [destruct K as [->|[->| ->]]; cbn; tauto|].
    split; [destruct K as [->|[->| ->]]; reflexivity|].
    split; [destruct K as [->|[->| ->]]; reflexivity|].
    split; [intros r; now apply (dlaw_prim D U law)|]. split; [reflexivity|].
    split; [cbn; tauto|]. split; [reflexivity|]. split; [reflexivity|]. intros r. now apply (dlaw_elem D U law).
  - split; [reflexivity|]. split; [reflexivity|]. apply orb_true_iff in P. destruct P as [P|P].
    + rewrite !andb_true_iff in P. destruct P as [[I S] R]. apply Nat.eqb_eq in S. subst k. cbn [dart_num dart_prim field_codec element_codec].
      split; [cbn; tauto|]. split; [reflexivity|]. split; [reflexivity|].
      split; [intros r; now apply (dlaw_float D U law)|]. split; [reflexivity|]. split; [cbn; tauto|]. split; [reflexivity|]. split; [reflexivity|].
      intros r. apply (dlaw_elem D U law). now apply (dlaw_elem_float D U law).
    + rewrite !andb_true_iff in P. destruct P as [[I S] R]. apply Nat.eqb_eq in S. apply String.eqb_eq in I. subst k id. cbn [dart_num dart_prim field_codec element_codec].
      split; [cbn; tauto|]. split; [reflexivity|]. split; [reflexivity|].
      split; [intros r; now apply (dlaw_prim D U law)|]. split; [reflexivity|]. split; [cbn; tauto|]. split; [reflexivity|]. split; [reflexivity|].
      intros r. now apply (dlaw_elem D U law).
  - rewrite !andb_true_iff in P. destruct P as [I R]. apply String.eqb_eq in I. subst id.
    assert (Z : z = 0%Z \/ z = 1%Z) by (clear - R; unfold in_range in R; cbn [String.eqb Ascii.eqb Bool.eqb orb] in R; lia).
    split; [reflexivity|]. split; [reflexivity|]. cbn [dart_num dart_prim field_codec element_codec].
    split; [cbn; tauto|]. split; [reflexivity|]. split; [destruct Z as [->| ->]; reflexivity|].
    split; [intros r; apply (dlaw_prim D U law); now destruct Z as [->| ->]|]. split; [reflexivity|].
    split; [cbn; tauto|]. split; [reflexivity|]. split; [destruct Z as [->| ->]; reflexivity|].
    intros r. apply (dlaw_elem D U law). now destruct Z as [->| ->].
  - split; [reflexivity|]. split; [reflexivity|]. rewrite !andb_true_iff in P. destruct P as [[I R1] R2].
    cbn [dart_num dart_prim field_codec element_codec].
    split; [cbn; tauto|]. split; [reflexivity|]. split; [reflexivity|].
    split; [intros r; apply (dlaw_prim D U law)|]. { clear - R1 R2. unfold dart_range. cbn [String.eqb Ascii.eqb Bool.eqb orb]. change (2 ^ 7)%Z with 128%Z. lia. }
    split; [reflexivity|]. split; [cbn; tauto|]. split; [reflexivity|]. split; [reflexivity|].
    intros r. apply (dlaw_elem D U law). clear - R1 R2. unfold element_range. cbn [String.eqb Ascii.eqb Bool.eqb orb]. change (2 ^ 63)%Z with 9223372036854775808%Z. lia.
Qed.
Lemma prim_of_app pre p : In p dart_prims -> prim_of pre (pre ++ p) = Some p.
Proof.
  intros I. unfold prim_of, dart_prims in *.
  assert (X : forall q, String.eqb (pre ++ p) (pre ++ q) = String.eqb p q).
  { clear. intros q. induction pre as [|c pre IH]; [reflexivity|].
    change (String.eqb (String c (pre ++ p)) (String c (pre ++ q)) = String.eqb p q). cbn [String.eqb]. now rewrite Ascii.eqb_refl. }
  cbn [find]. rewrite !X. cbn [In] in I. decompose [or] I; subst; try contradiction; reflexivity.
Qed.
Lemma dtyped_prim v t : dtyped v t = true -> Wire.prim_name t <> None -> exists p z, v = vnum p z /\ prim_ok U t z = true.
Proof.
  intros T N. destruct v; cbn [DartWire.dtyped] in T; try discriminate T;
    try (destruct t; try discriminate T; now contradiction N);
    try (destruct t; cbn in N; try congruence; destruct (decl_of _ ds) as [[]|]; discriminate T).
  - destruct (Wire.prim_name t); [|congruence]. apply andb_true_iff in T as [_ T]. eauto.
Qed.
Lemma ev_read_prim K th t z en s r : prim_ok U t z = true -> DartSem.lookup "reader" en = Some dreader ->
  d_rd s = rd_put D (field_codec t) (dart_num U t z) ++ r ->
  DartSem.ev D items K th (read_ex t) en s = DDone (dart_prim U t z) (set_drd r s).
Proof.
  intros P L R. destruct (prim_ok_facts t z P) as (A & B & C & E & _ & F & _).
  unfold read_ex. rewrite A, (ev_call_var D items K th "reader" _ [] en dreader [] s L (Forall2_nil _)).
  unfold method, reader_method. rewrite B, (prim_of_app "read" _ C). cbn [pos map]. unfold dbind, take. rewrite R, F, E. reflexivity.
Qed.

(** *** Reading *)

Definition reads (n : nat) (v : val) (t : type_id) : Prop := forall s r, d_rd s = dwire false v t ++ r -> exists w h',
  method D items (KK n) (into_obj t) "read" (pos [dreader]) s = DDone w (set_heap h' (set_drd r s)) /\
  changes (d_heap s) h' [] /\ rep (fresh (d_heap s) h') h' w v t.
(** Filling [w]; [fp] are the objects that are written to. *)
Definition within (fp : list nat) (h h' : heap) (b : nat) : Prop := In b fp \/ fresh h h' b.
Definition fills (n : nat) (v : val) (t : type_id) : Prop := DartTree.is_string t = false -> forall s r w fp,
  d_rd s = dwire false v t ++ r -> shaped (d_heap s) w t fp -> NoDup fp -> exists h',
  method D items (KK n) (emplace_obj t) "read" (pos [dreader; w]) s = DDone dnull (set_heap h' (set_drd r s)) /\
  changes (d_heap s) h' fp /\ shaped h' w t fp /\ rep (within fp (d_heap s) h') h' w v t.

Lemma not_prim t : Wire.prim_name t = None -> DartTree.is_prim t = false.
Proof. destruct t; [discriminate|discriminate|discriminate|discriminate|reflexivity|reflexivity]. Qed.
Lemma read_field n v t th en s r : dtyped v t = true -> (Wire.prim_name t = None -> reads (S n) v t) ->
  DartSem.lookup "reader" en = Some dreader -> d_rd s = dwire false v t ++ r -> exists w h',
  DartSem.ev D items (KK (S n)) th (read_ex t) en s = DDone w (set_heap h' (set_drd r s)) /\
  changes (d_heap s) h' [] /\ rep (fresh (d_heap s) h') h' w v t.
Proof.
  intros T R L E. destruct (Wire.prim_name t) as [id|] eqn:P.
  - destruct (dtyped_prim v t T) as (p & z & -> & Z); [congruence|]. exists (dart_prim U t z), (d_heap s).
    split; [rewrite (ev_read_prim _ th t z en s r Z L E); now destruct s|]. split; [apply changes_refl|reflexivity].
  - unfold read_ex. rewrite (not_prim t P). pose proof (dtyped_known v t T P) as Kn.
    destruct (R eq_refl s r E) as (w & h' & X & Y). exists w, h'. split; [|exact Y].
    rewrite <- X. apply ev_into_call; [assumption|]. constructor; [|constructor]. now apply ev_var.
Qed.

Notation run n th := (dchain (fun s e => DartSem.ev_st D items (KK n) th s e)).
Definition wires (vs : list val) (ss : list slot) : bytes := cat2 (fun v p => dwire false v (snd p)) vs ss.
Lemma read_fields n th (vs : list val) (ss : list slot) :
  Forall2 (fun v p => dtyped v (snd p) = true /\ (Wire.prim_name (snd p) = None -> reads (S n) v (snd p))) vs ss ->
  forall en s r, DartSem.lookup "reader" en = Some dreader -> d_rd s = wires vs ss ++ r ->
  NoDup (map fst ss) -> (forall x, In x (map fst ss) -> DartSem.lookup x en = None) ->
  exists vals h', run (S n) th (map (fun p => DFinal (fst p) (read_ex (snd p))) ss) en s = DDone (rev vals ++ en) (set_heap h' (set_drd r s)) /\
    map fst vals = map fst ss /\ changes (d_heap s) h' [] /\
    all2P (fun v p => exists u, In (fst p, u) vals /\ rep (fresh (d_heap s) h') h' u v (snd p)) vs ss.
Proof.
  induction 1 as [|v [x t] vs ss [T R] F IH]; intros en s r L E N O.
  - exists [], (d_heap s). cbn in E. split; [cbn; rewrite <- E; now destruct s|]. split; [reflexivity|]. split; [apply changes_refl|exact Logic.I].
  - cbn [snd fst map] in *. unfold wires in E. cbn [cat2 snd] in E. rewrite <- app_assoc in E. fold (wires vs ss) in E.
    destruct (read_field n v t th en s _ T R L E) as (w & h1 & E1 & C1 & R1).
    apply NoDup_cons_iff in N as [N1 N2].
    assert (Lx : DartSem.lookup x en = None) by (apply O; now left).
    assert (NR : x <> "reader") by (intros ->; rewrite L in Lx; discriminate).
    destruct (IH ((x, w) :: en) (set_heap h1 (set_drd (wires vs ss ++ r) s)) r) as (vals & h2 & E2 & K2 & C2 & A2).
    { cbn [DartSem.lookup]. destruct (String.eqb_spec "reader" x); [congruence|assumption]. }
    { reflexivity. }
    { assumption. }
    { intros y I. cbn [DartSem.lookup]. destruct (String.eqb_spec y x) as [->|]; [contradiction|]. apply O. now right. }
    cbn [d_heap set_heap set_drd] in *.
    exists ((x, w) :: vals), h2. rewrite (run_final D items (KK (S n)) th x _ _ en s w _ Lx E1), E2.
    split; [cbn [rev]; rewrite <- app_assoc; reflexivity|]. split; [cbn [map fst]; now rewrite K2|].
    split; [eapply changes_trans; eassumption|]. split.
    + exists w. split; [now left|]. eapply rep_frame; [|exact R1]. intros b [B1 B2]. destruct C1 as [L1 _]. destruct C2 as [L2 C2].
      split; [unfold fresh; cbn [fst] in *; clear - B1 B2 L2; lia|]. apply C2; [assumption|easy].
    + eapply all2P_imp; [|exact A2]. intros v' p I (u & J & Q). exists u. split; [now right|].
      eapply rep_frame; [|exact Q]. intros b [B1 B2]. destruct C1 as [L1 _]. split; [unfold fresh; clear - B1 B2 L1; lia|reflexivity].
Qed.

Lemma lookup_rev (vals en : list (string * dval)) x u : NoDup (map fst vals) -> In (x, u) vals -> DartSem.lookup x (rev vals ++ en) = Some u.
Proof.
  intros N I. assert (X : DartSem.lookup x (rev vals) = Some u).
  { apply lookup_in; [|now apply in_rev in I]. rewrite map_rev. now apply NoDup_rev. }
  revert X. generalize (rev vals). induction l as [|[y w] l IH]; cbn; [discriminate|]. now destruct (String.eqb x y).
Qed.
Lemma named_args K th en s (vals : list (string * dval)) : (forall x u, In (x, u) vals -> DartSem.lookup x en = Some u) ->
  dmapM (fun '(l, e) => dd v <- DartSem.ev D items K th e en; dret (l, v)) (map (fun x => (Some x, var x)) (map fst vals)) s =
  DDone (map (fun p => (Some (fst p), snd p)) vals) s.
Proof.
  induction vals as [|[x u] vals IH]; intros L; [reflexivity|]. cbn [map fst snd]. rewrite dmapM_cons.
  rewrite (dbind_done _ _ s (Some x, u) s) by (rewrite (dbind_done _ _ s u s) by (apply ev_var, L; now left); reflexivity).
  rewrite (dbind_done _ _ s _ s (IH (fun y w I => L y w (or_intror I)))). reflexivity.
Qed.
Lemma labelled_in (vals : list (string * dval)) x u : NoDup (map fst vals) -> In (x, u) vals -> labelled x (map (fun p => (Some (fst p), snd p)) vals) = Some u.
Proof.
  induction vals as [|[y w] vals IH]; intros N I; [destruct I|]. cbn [map fst snd labelled] in *. apply NoDup_cons_iff in N as [N M].
  destruct I as [[= -> ->]|I]; [now rewrite String.eqb_refl|]. destruct (String.eqb_spec x y) as [->|]; [|auto].
  exfalso. apply N. apply in_map_iff. now exists (y, u).
Qed.
Lemma bind_named_in (all vals : list (string * dval)) : NoDup (map fst all) -> incl vals all ->
  bind_named (map (fun x => (None, x)) (map fst vals)) (map (fun p => (Some (fst p), snd p)) all) = Some vals.
Proof.
  intros N. induction vals as [|[x u] vals IH]; intros I; [reflexivity|]. cbn [map fst bind_named].
  rewrite (labelled_in all x u N (I _ (or_introl eq_refl))), IH; [reflexivity|]. intros p J. apply I. now right.
Qed.
Lemma new_struct n s vals st : modelled s -> sn_fields s <> [] -> map fst vals = map fname (sn_fields s) -> NoDup (map fst vals) ->
  new_with D items (KK n) (sn_id s) (map (fun p => (Some (fst p), snd p)) vals) st = alloc (CObj (sn_id s) vals) st.
Proof.
  intros M E Q N. unfold new_with. rewrite (model_fields s M E). unfold struct_members at 1. rewrite find_ctor_fields. cbn [find_ctor param_list].
  assert (X : forallb is_this (map (fun f => (None, fname f)) (sn_fields s)) = true) by (clear; induction (sn_fields s); [reflexivity|assumption]).
  rewrite X. cbn [bind_params]. rewrite !map_length, <- (map_length fname), <- Q, map_length, Nat.eqb_refl.
  assert (Y : map (fun f => (None, fname f)) (sn_fields s) = map (fun x => (@None dty, x)) (map fst vals)) by (rewrite Q, map_map; reflexivity).
  rewrite Y, (bind_named_in vals vals N (incl_refl _)). rewrite struct_instance_fields.
  assert (Z : initialisers D items (KK n) (map (fun f => (fname f, None)) (sn_fields s)) st = DDone [] st).
  { unfold initialisers. assert (W : flat_map (fun '(x, o) => match o with Some e0 => [(x, e0)] | None => [] end)
      (map (fun f => (fname f, @None dex)) (sn_fields s)) = []) by (clear; induction (sn_fields s); [reflexivity|assumption]). rewrite W. reflexivity. }
  rewrite (dbind_done _ _ _ _ _ Z), dbind_ret. rewrite field_values_all; [reflexivity| |assumption].
  rewrite Q, map_map. reflexivity.
Qed.

(** A call of a method of a codec class. *)
Lemma codec_call n c r wr sk m ps b vs en s : find_class c items = Some (codec_members c r wr sk) ->
  find_meth false m (codec_members c r wr sk) = Some (PPos ps false, b) -> bind_pos ps (pos vs) = Some en ->
  method D items (KK (S n)) (dobj c [] []) m (pos vs) s = ev_body D items (KK n) (Some (dobj c [] [], c)) b en s.
Proof.
  intros F M B. unfold method. rewrite (has_class_some _ _ F). cbn [dcalls_upto k_invoke]. unfold invoke_with.
  rewrite F, M. cbn [bind_params]. now rewrite B.
Qed.
Lemma body_done K th l en s en' s' : dchain (fun s e => DartSem.ev_st D items K th s e) l en s = DDone en' s' ->
  ev_body D items K th (BBlock l) en s = DDone dnull s'.
Proof. intros E. cbn [ev_body]. unfold dbody_of, dbind. now rewrite E. Qed.
Lemma body_returned K th l en s v s' : dchain (fun s e => DartSem.ev_st D items K th s e) l en s = DReturned v s' ->
  ev_body D items K th (BBlock l) en s = DDone v s'.
Proof. intros E. cbn [ev_body]. unfold dbody_of, dbind. now rewrite E. Qed.

Lemma struct_slots n s : decl_of n ds = Some (DStruct s) -> fields_of ds n = map field_slot (sn_fields s).
Proof. intros E. unfold fields_of. now rewrite E. Qed.
Lemma read_struct n m st fs : decl_of m ds = Some (DStruct st) ->
  Forall2 (fun v p => dtyped v (snd p) = true /\ (Wire.prim_name (snd p) = None -> reads (S n) v (snd p))) (map snd fs) (map field_slot (sn_fields st)) ->
  reads (S (S n)) (vrec m fs) (TyOther m).
Proof.
  intros E F s r W. pose proof (struct_id m st E) as SI. pose proof (struct_modelled m st E) as M.
  destruct (struct_conditions m st E) as (_ & A & _ & _ & ND & NR & NI).
  pose proof (struct_into m st E) as FC.
  pose proof (codec_members_this _ _ _ _ _ _ _ _ _ _ _ _ _ FC eq_refl eq_refl eq_refl) as TH.
  cbn [into_obj generate_class_prefix]. rewrite (codec_call (S n) _ _ _ _ "read" [reader_param] _ [dreader] [("reader", dreader)] s FC eq_refl eq_refl).
  cbn [DartWire.dwire] in W. rewrite (struct_slots m st E) in W.
  assert (W' : d_rd s = wires (map snd fs) (map field_slot (sn_fields st)) ++ r).
  { rewrite W. f_equal. unfold wires. rewrite <- cat2_map. clear. generalize (map field_slot (sn_fields st)). induction fs as [|[x v] fs IH]; intros [|p l]; cbn; try reflexivity. now rewrite IH. }
  destruct (read_fields n (Some (dobj (m ++ "IntoBuffers") [] [], (m ++ "IntoBuffers")%string)) _ _ F [("reader", dreader)] s r eq_refl W') as (vals & h1 & E1 & K1 & C1 & R1).
  { now rewrite slot_names. }
  { rewrite slot_names. intros x I. cbn [DartSem.lookup]. destruct (String.eqb_spec x "reader") as [->|]; [contradiction|reflexivity]. }
  rewrite slot_names in K1. rewrite map_map in E1. cbn [fst snd field_slot] in E1.
  assert (ND' : NoDup (map fst vals)) by now rewrite K1.
  assert (LV : forall x u, In (x, u) vals -> DartSem.lookup x (rev vals ++ [("reader", dreader)]) = Some u) by (intros; now apply lookup_rev).
  assert (LI : DartSem.lookup m (rev vals ++ [("reader", dreader)]) = None).
  { apply lookup_none. rewrite map_app, map_rev. intros I. apply in_app_or in I as [I|I].
    - apply in_rev in I. rewrite K1 in I. contradiction.
    - cbn in I. destruct I as [<-|[]]. discriminate A. }
  assert (NAME : DartSem.name_value items (KK (S n)) (Some (dobj (m ++ "IntoBuffers") [] [], (m ++ "IntoBuffers")%string)) m (rev vals ++ [("reader", dreader)])
      (set_heap h1 (set_drd r s)) = DDone None (set_heap h1 (set_drd r s))).
  { apply codec_name; try assumption. rewrite <- SI. now apply model_not_const. }
  assert (ARGS : dmapM (fun '(l, e) => dd v <- DartSem.ev D items (KK (S n)) (Some (dobj (m ++ "IntoBuffers") [] [], (m ++ "IntoBuffers")%string)) e (rev vals ++ [("reader", dreader)]); dret (l, v))
      (map (fun f => (Some (fname f), var (fname f))) (sn_fields st)) (set_heap h1 (set_drd r s)) =
      DDone (map (fun p => (Some (fst p), snd p)) vals) (set_heap h1 (set_drd r s))).
  { rewrite <- (named_args (KK (S n)) (Some (dobj (m ++ "IntoBuffers") [] [], (m ++ "IntoBuffers")%string)) _ _ vals LV), K1, map_map. reflexivity. }
  assert (BODY : forall w h2 b, new_with D items (KK n) m (map (fun p => (Some (fst p), snd p)) vals) (set_heap h1 (set_drd r s)) = DDone w (set_heap h2 (set_drd r s)) ->
    ev_body D items (KK (S n)) (Some (dobj (m ++ "IntoBuffers") [] [], (m ++ "IntoBuffers")%string))
      (BBlock (map (fun f => DFinal (fname f) (read_ex (sf_type f))) (sn_fields st) ++
        [DReturn (Some (DPost (var (sn_id st)) [XCall (map (fun f => (Some (fname f), var (fname f))) (sn_fields st)) b]))])) [("reader", dreader)] s
    = DDone w (set_heap h2 (set_drd r s))).
  { intros w h2 b NW. apply body_returned. rewrite dchain_app, (dbind_done _ _ _ _ _ E1). eapply run_return. rewrite SI.
    rewrite (ev_new D items (KK (S n)) _ m _ b _ _ _ _ NAME ARGS).
    rewrite codec_call_name; [exact NW|exact TH|exact A|].
    destruct (sn_fields st) eqn:Z; [eapply has_class_some; rewrite <- SI; now apply model_empty|].
    eapply has_class_some. rewrite <- SI. apply model_fields; [exact M|congruence]. }
  assert (LEN : List.length (map snd fs) = List.length (sn_fields st)).
  { rewrite <- (map_length field_slot (sn_fields st)). clear - F. induction F; cbn; congruence. }
  destruct (match sn_fields st with [] => true | _ => false end) eqn:Z.
  - assert (Z' : sn_fields st = []) by (destruct (sn_fields st); [reflexivity|discriminate]).
    rewrite Z' in LEN, K1. destruct fs; [|discriminate LEN]. destruct vals; [|discriminate K1].
    exists (dobj m [] []), h1. split; [|split; [assumption|reflexivity]].
    apply BODY. cbn [map]. unfold new_with. pose proof (model_empty _ M Z') as X. rewrite SI in X. rewrite X. reflexivity.
  - assert (Z' : sn_fields st <> []) by (intros H; rewrite H in Z; discriminate).
    exists (dref (List.length h1)), (h1 ++ [CObj m vals]). split; [|split].
    + apply BODY. pose proof (new_struct n st vals (set_heap h1 (set_drd r s)) M Z' K1 ND') as X. rewrite SI in X. rewrite X. reflexivity.
    + eapply changes_trans; [exact C1|apply changes_alloc].
    + cbn [DartWire.rep]. destruct fs as [|f0 fs]; [destruct (sn_fields st); [congruence|discriminate LEN]|].
      rewrite (struct_slots m st E). destruct C1 as [L1 _]. exists (List.length h1), vals. split; [reflexivity|].
      split; [unfold fresh; rewrite app_length; cbn [List.length]; clear - L1; lia|]. split; [apply nth_app_new|].
      assert (Q : all2P (fun v p => exists u, DartSem.lookup (fst p) vals = Some u /\ rep (fresh (d_heap s) (h1 ++ [CObj m vals])) (h1 ++ [CObj m vals]) u v (snd p)) (map snd (f0 :: fs)) (map field_slot (sn_fields st))).
      { eapply all2P_imp; [|exact R1]. intros v p _ (u & I & R). exists u. split; [now apply lookup_in|].
        eapply rep_frame; [|exact R]. intros b [B1 B2]. split; [unfold fresh; rewrite app_length; cbn [List.length]; clear - B1 B2; lia|].
        now apply nth_error_app1. }
      apply all2P_map in Q. eapply all2P_imp; [|exact Q]. intros [x v] p _ H. exact H.
Qed.
(** *** Reading in place *)

(** What is needed to fill one field. *)
Definition fillable (n : nat) (v : val) (t : type_id) : Prop :=
  dtyped v t = true /\ (Wire.prim_name t = None -> if DartTree.is_string t then reads n v t else fills n v t).
Lemma shaped_simple h w t fp : shaped h w t fp -> Wire.prim_name t <> None \/ DartTree.is_string t = true -> fp = [] /\ forall h' u, shaped h' u t [].
Proof.
  intros S H. destruct H as [P|P].
  - inversion S; subst; cbn in P; try congruence. split; [reflexivity|]. intros. now apply sh_prim.
  - destruct t as [id k sg|id k|id|id|id l|id]; try discriminate P. cbn in P. apply String.eqb_eq in P. subst id.
    inversion S; subst; try (split; [reflexivity|intros; apply sh_string]).
    + exfalso. match goal with H : "String" <> "String" |- _ => now apply H end.
    + exfalso. match goal with H : decl_of _ ds = Some (DStruct _) |- _ => now apply struct_conditions in H as [H _] end.
    + exfalso. match goal with H : decl_of _ ds = Some (Wire.DEnum _) |- _ => now apply enum_conditions in H as [H _] end.
Qed.
Lemma shaped_not_late h w t fp : shaped h w t fp -> Wire.prim_name t = None -> DartTree.is_string t = false -> w <> dlate.
Proof. intros S P Q. inversion S; subst; try discriminate; try congruence. Qed.

Lemma fill_field n th v t f en s r a c cfs w fp : fillable (S n) v t ->
  DartSem.lookup "reader" en = Some dreader -> DartSem.lookup "model" en = Some (dref a) ->
  nth_error (d_heap s) a = Some (CObj c cfs) -> DartSem.lookup f cfs = Some w -> shaped (d_heap s) w t fp -> NoDup (a :: fp) ->
  d_rd s = dwire false v t ++ r -> exists h' cfs' u,
  DartSem.ev_st D items (KK (S n)) th (read_emplace_st t (DartTree.field (var "model") f)) en s = DDone en (set_heap h' (set_drd r s)) /\
  changes (d_heap s) h' (a :: fp) /\ nth_error h' a = Some (CObj c cfs') /\
  (forall g, g <> f -> DartSem.lookup g cfs' = DartSem.lookup g cfs) /\ DartSem.lookup f cfs' = Some u /\
  shaped h' u t fp /\ rep (within fp (d_heap s) h') h' u v t.
Proof.
  intros [T R] LR LM A L SP ND E. apply NoDup_cons_iff in ND as [NA ND].
  assert (SET : Wire.prim_name t <> None \/ DartTree.is_string t = true -> (Wire.prim_name t = None -> reads (S n) v t) -> exists h' cfs' u,
    DartSem.ev_st D items (KK (S n)) th (DExpr (DSet (DartTree.field (var "model") f) (read_ex t))) en s = DDone en (set_heap h' (set_drd r s)) /\
    changes (d_heap s) h' (a :: fp) /\ nth_error h' a = Some (CObj c cfs') /\
    (forall g, g <> f -> DartSem.lookup g cfs' = DartSem.lookup g cfs) /\ DartSem.lookup f cfs' = Some u /\
    shaped h' u t fp /\ rep (within fp (d_heap s) h') h' u v t).
  { intros P R'. destruct (shaped_simple _ _ _ _ SP P) as [-> SH]. clear R.
    destruct (read_field n v t th en s r T R' LR E) as (u & h1 & E1 & C1 & R1).
    destruct (set_key_some f u cfs w L) as [cfs' SK].
    assert (A1 : nth_error h1 a = Some (CObj c cfs)) by (eapply changes_nth; [exact C1|easy|exact A]).
    assert (L1 : a < List.length h1) by now apply nth_some_lt in A1.
    exists (set_cell a (CObj c cfs') h1), cfs', u. split; [|split; [|split; [|split; [|split; [|split]]]]].
    - eapply ev_expr. rewrite (ev_set_field D items (KK (S n)) th "model" f en a (read_ex t) _ s _ c cfs cfs' u LM E1 A1 SK eq_refl). reflexivity.
    - eapply changes_trans; [eapply changes_more; [|exact C1]; easy|apply changes_set].
    - now apply set_cell_same.
    - intros g G. eapply lookup_set_other; [|exact SK]. congruence.
    - eapply lookup_set_same, SK.
    - apply SH.
    - eapply rep_frame; [|exact R1]. intros b [B1 B2].
      assert (La : a < List.length (d_heap s)) by now apply nth_some_lt in A.
      split; [right; split; [assumption|now rewrite set_cell_length]|]. apply set_cell_other. clear - La B1. lia. }
  unfold read_emplace_st. destruct (Wire.prim_name t) as [id|] eqn:P.
  - assert (DartTree.is_prim t = true) as -> by (destruct t; try reflexivity; discriminate P). cbn [orb]. apply SET; [left; congruence|intros; discriminate].
  - rewrite (not_prim t P). cbn [orb]. specialize (R eq_refl). destruct (DartTree.is_string t) eqn:Q; [apply SET; [now right|auto]|]. clear SET.
    destruct (R Q s r w fp E SP ND) as (h1 & E1 & C1 & S1 & R1).
    assert (A1 : nth_error h1 a = Some (CObj c cfs)) by (eapply changes_nth; [exact C1|assumption|exact A]).
    exists h1, cfs, w. split; [|split; [|split; [|split; [|split; [|split]]]]]; try assumption.
    + eapply ev_expr. rewrite (ev_emplace_call n th t "read" [var "reader"; DartTree.field (var "model") f] en [dreader; w] s); [exact E1|now apply (dtyped_known v)|].
      constructor; [now apply ev_var|]. constructor; [|constructor]. eapply ev_field; try eassumption. eapply shaped_not_late; eassumption.
    + eapply changes_more; [|exact C1]. intros b I. now right.
    + reflexivity.
Qed.

Lemma fill_fields n th (vs : list val) (ss : list slot) : Forall2 (fun v p => fillable (S n) v (snd p)) vs ss ->
  forall en s r a c cfs fp, DartSem.lookup "reader" en = Some dreader -> DartSem.lookup "model" en = Some (dref a) ->
  nth_error (d_heap s) a = Some (CObj c cfs) -> shaped_slots (d_heap s) cfs ss fp -> NoDup (a :: fp) -> NoDup (map fst ss) ->
  d_rd s = wires vs ss ++ r -> exists h' cfs',
  run (S n) th (map (fun p => read_emplace_st (snd p) (DartTree.field (var "model") (fst p))) ss) en s = DDone en (set_heap h' (set_drd r s)) /\
  changes (d_heap s) h' (a :: fp) /\ nth_error h' a = Some (CObj c cfs') /\
  (forall g, ~ In g (map fst ss) -> DartSem.lookup g cfs' = DartSem.lookup g cfs) /\
  shaped_slots h' cfs' ss fp /\
  all2P (fun v p => exists u, DartSem.lookup (fst p) cfs' = Some u /\ rep (within fp (d_heap s) h') h' u v (snd p)) vs ss.
Proof.
  induction 1 as [|v [x t] vs ss R F IH]; intros en s r a c cfs fp LR LM A SP ND NS E.
  - exists (d_heap s), cfs. cbn in E. split; [cbn; rewrite <- E; now destruct s|]. split; [apply changes_refl|].
    split; [exact A|]. split; [reflexivity|]. split; [exact SP|exact Logic.I].
  - cbn [snd fst map] in *. unfold wires in E. cbn [cat2 snd] in E. rewrite <- app_assoc in E. fold (wires vs ss) in E.
    inversion SP as [|cfs0 n0 t0 l0 w fp1 fp2 L S1 S2 Q1 Q2 Q3]. subst. clear SP.
    assert (ND' := ND). apply NoDup_cons_iff in ND' as [NA ND'].
    assert (D1 : forall b, In b fp1 -> In b fp2 -> False) by (intros b; now apply NoDup_app_disjoint).
    assert (ND1 : NoDup (a :: fp1)). { constructor; [intros I; apply NA, in_or_app; now left|now apply NoDup_app_remove_r in ND']. }
    assert (ND2 : NoDup (a :: fp2)). { constructor; [intros I; apply NA, in_or_app; now right|now apply NoDup_app_remove_l in ND']. }
    apply NoDup_cons_iff in NS as [NS1 NS2].
    destruct (fill_field n th v t x en s _ a c cfs w fp1 R LR LM A L S1 ND1 E) as (h1 & cfs1 & u & E1 & C1 & A1 & O1 & L1 & SH1 & R1).
    assert (X2 : shaped_slots h1 cfs1 ss fp2).
    { eapply slots_fields with (cfs := cfs).
      - eapply slots_frame; [exact S2|]. eapply changes_same; [exact C1|]. intros b I. split; [eapply slots_dom; eassumption|].
        intros [<-|J]; [apply NA, in_or_app; now right|now apply (D1 b)].
      - intros y I. apply O1. intros ->. contradiction. }
    destruct (IH en (set_heap h1 (set_drd (wires vs ss ++ r) s)) r a c cfs1 fp2 LR LM A1 X2 ND2 NS2 eq_refl)
      as (h2 & cfs2 & E2 & C2 & A2 & O2 & SH2 & R2). cbn [d_heap set_heap set_drd] in *.
    assert (LEN1 : List.length (d_heap s) <= List.length h1) by apply C1. assert (LEN2 : List.length h1 <= List.length h2) by apply C2.
    assert (LA : a < List.length (d_heap s)) by now apply nth_some_lt in A.
    assert (DOM2 : forall b, In b fp2 -> b < List.length (d_heap s)) by (intros b I; eapply slots_dom; eassumption).
    assert (DOM1 : forall b, In b fp1 -> b < List.length (d_heap s)) by (intros b I; eapply shaped_dom; eassumption).
    exists h2, cfs2. split; [|split; [|split; [|split; [|split]]]].
    + rewrite (run_first D items (KK (S n)) th _ _ en s _ _ E1). exact E2.
    + eapply changes_trans.
      * eapply changes_more; [|exact C1]. intros b [<-|I]; [now left|]. right. apply in_or_app. now left.
      * eapply changes_more; [|exact C2]. intros b [<-|I]; [now left|]. right. apply in_or_app. now right.
    + exact A2.
    + intros g G. rewrite O2 by (intros I; apply G; now right). apply O1. intros ->. apply G. now left.
    + apply (sl_cons _ _ _ _ _ _ _ u); [now rewrite (O2 x NS1)| |exact SH2]. eapply shaped_frame; [exact SH1|].
      eapply changes_same; [exact C2|]. intros b I. split; [pose proof (DOM1 b I) as DB; clear - DB LEN1; lia|].
      intros [<-|J]; [apply NA, in_or_app; now left|now apply (D1 b)].
    + split.
      * exists u. split; [cbn [fst]; rewrite (O2 x NS1); exact L1|]. eapply rep_frame; [|exact R1]. intros b B.
        assert (B' : b < List.length h1 /\ ~ In b (a :: fp2)).
        { destruct B as [I|[B1 B2]].
          - split; [pose proof (DOM1 b I) as DB; clear - DB LEN1; lia|]. intros [<-|J]; [apply NA, in_or_app; now left|now apply (D1 b)].
          - split; [assumption|]. intros [<-|J]; [clear - LA B1; lia|]. apply DOM2 in J. clear - J B1. lia. }
        split; [|now apply C2]. destruct B as [I|[B1 B2]]; [left; apply in_or_app; now left|right; split; [assumption|clear - B2 LEN2; lia]].
      * eapply all2P_imp; [|exact R2]. intros v' p _ (u' & L' & R'). exists u'. split; [assumption|].
        eapply rep_frame; [|exact R']. intros b [I|[B1 B2]]; (split; [|reflexivity]); [left; apply in_or_app; now right|right; split; [clear - B1 LEN1; lia|assumption]].
Qed.

(** The reader of a struct, also of the struct of an item. *)
Lemma fill_struct n c st wr sk vs s r a cfs fp : find_class c items = Some (codec_members c (struct_emplace_read st) wr sk) ->
  Forall2 (fun v p => fillable (S n) v (snd p)) vs (map field_slot (sn_fields st)) ->
  NoDup (map fname (sn_fields st)) ->
  nth_error (d_heap s) a = Some (CObj (sn_id st) cfs) -> shaped_slots (d_heap s) cfs (map field_slot (sn_fields st)) fp -> NoDup (a :: fp) ->
  d_rd s = wires vs (map field_slot (sn_fields st)) ++ r -> exists h' cfs',
  method D items (KK (S (S n))) (dobj c [] []) "read" (pos [dreader; dref a]) s = DDone dnull (set_heap h' (set_drd r s)) /\
  changes (d_heap s) h' (a :: fp) /\ nth_error h' a = Some (CObj (sn_id st) cfs') /\ shaped_slots h' cfs' (map field_slot (sn_fields st)) fp /\
  all2P (fun v p => exists u, DartSem.lookup (fst p) cfs' = Some u /\ rep (within fp (d_heap s) h') h' u v (snd p)) vs (map field_slot (sn_fields st)).
Proof.
  intros FC F NN A SP ND E.
  destruct (fill_fields n (Some (dobj c [] [], c)) vs _ F [("reader", dreader); ("model", dref a)] s r a _ cfs fp eq_refl eq_refl A SP ND) as (h' & cfs' & E1 & C1 & A1 & _ & S1 & R1).
  { now rewrite slot_names. }
  { exact E. }
  exists h', cfs'. split; [|auto].
  rewrite (codec_call (S n) c _ _ _ "read" [reader_param; model_param (sn_id st)] (BBlock (map (fun f => read_emplace_st (sf_type f) (model_field f)) (sn_fields st)))
     [dreader; dref a] [("reader", dreader); ("model", dref a)] s FC eq_refl eq_refl).
  eapply body_done. rewrite map_map in E1. exact E1.
Qed.
Lemma fill_empty n c st wr sk s w : find_class c items = Some (codec_members c (struct_emplace_read st) wr sk) -> sn_fields st = [] ->
  method D items (KK (S n)) (dobj c [] []) "read" (pos [dreader; w]) s = DDone dnull s.
Proof.
  intros FC Z.
  rewrite (codec_call n c _ _ _ "read" [reader_param; model_param (sn_id st)] (BBlock (map (fun f => read_emplace_st (sf_type f) (model_field f)) (sn_fields st)))
     [dreader; w] [("reader", dreader); ("model", w)] s FC eq_refl eq_refl).
  rewrite Z. reflexivity.
Qed.

Lemma record_wires m st fs : decl_of m ds = Some (DStruct st) ->
  dwire false (vrec m fs) (TyOther m) = wires (map snd fs) (map field_slot (sn_fields st)).
Proof.
  intros E. cbn [DartWire.dwire]. rewrite (struct_slots m st E). unfold wires. rewrite <- cat2_map.
  clear. generalize (map field_slot (sn_fields st)). induction fs as [|[x v] fs IH]; intros [|p l]; cbn; try reflexivity. now rewrite IH.
Qed.
Lemma Forall2_len {A B} (P : A -> B -> Prop) l m : Forall2 P l m -> List.length l = List.length m.
Proof. induction 1; cbn; congruence. Qed.
Lemma fills_struct n m st fs : decl_of m ds = Some (DStruct st) ->
  Forall2 (fun v p => fillable (S n) v (snd p)) (map snd fs) (map field_slot (sn_fields st)) ->
  fills (S (S n)) (vrec m fs) (TyOther m).
Proof.
  intros E F NS s r w fp W SP ND. pose proof (struct_id m st E) as SI.
  destruct (struct_conditions m st E) as (_ & A & _ & _ & NN & _).
  pose proof (struct_emplace m st E) as FC. rewrite (record_wires m st fs E) in W.
  cbn [DartTree.is_string] in NS. cbn [emplace_obj DartTree.is_string generate_class_prefix]. rewrite NS.
  pose proof (Forall2_len _ _ _ F) as LEN. rewrite !map_length in LEN.
  inversion SP as [w0 t0 P|w0|a0 m0 x0 X1 X2 X3|a0 g l x X1 X2|a0 t0 l X1|n0 s0 X1 X2|n0 s0 a cfs fp' X1 X2 X3 X4|n0 e a cfs v fp' X1 X2 X3 X4]; subst.
  - now contradiction P.
  - exfalso. apply String.eqb_neq in NS. congruence.
  - destruct (outside_not _ X2) as (_ & _ & Q). congruence.
  - assert (s0 = st) by congruence. subst s0. rewrite X2 in *. destruct fs; [|discriminate LEN]. cbn [map wires cat2 app] in W.
    exists (d_heap s). split; [|split; [apply changes_refl|split; [eapply sh_empty; eassumption|reflexivity]]].
    rewrite (fill_empty _ _ st _ _ s (dobj (sn_id st) [] []) FC X2). unfold wires in W. cbn in W. rewrite <- W. now destruct s.
  - assert (s0 = st) by congruence. subst s0.
    destruct (fill_struct n _ st _ _ _ s r a cfs fp' FC F NN X3 X4 ND W) as (h' & cfs' & E1 & C1 & A1 & S1 & R1).
    exists h'. split; [exact E1|]. split; [exact C1|]. split; [eapply sh_struct; eassumption|].
    cbn [DartWire.rep]. destruct fs as [|f0 fs]; [destruct (sn_fields st); [congruence|discriminate LEN]|].
    rewrite (struct_slots _ st E). exists a, cfs'. split; [reflexivity|]. split; [left; now left|]. split; [exact A1|].
    apply all2P_map in R1. eapply all2P_imp; [|exact R1]. intros [x v] p _ (u & L & R). exists u. split; [exact L|].
    eapply rep_frame; [|exact R]. intros b [I|B]; (split; [|reflexivity]); [left; now right|now right].
  - congruence.
Qed.
(** *** Enums *)

(** An enum value: its case and the contained values. *)
Definition enum_value (v : val) (m : string) (i : enum_item) (vs : list val) : Prop :=
  match v, i with
  | vcase e c, ItemEmpty _ n => e = m /\ c = n /\ vs = []
  | vcaset e c l, ItemTuple _ n _ => e = m /\ c = n /\ vs = l
  | vcases e c fs, ItemStruct _ n _ => e = m /\ c = n /\ vs = map snd fs
  | _, _ => False
  end.
(** The object [u] of the case [i]. *)
Definition item_rep (P : nat -> Prop) (h : heap) (m : string) (i : enum_item) (vs : list val) (u : dval) : Prop :=
  (item_slots i = [] /\ u = dobj (m ++ item_name i) [] []) \/
  (item_slots i <> [] /\ exists b gfs, u = dref b /\ P b /\ nth_error h b = Some (CObj (m ++ item_name i)%string gfs) /\
     all2P (fun v p => exists y, DartSem.lookup (fst p) gfs = Some y /\ rep P h y v (snd p)) vs (item_slots i)).
Definition has_default (i : enum_item) : Prop := match i with ItemEmpty _ _ => True | _ => item_slots i <> [] end.
Lemma enum_items_of m e i : decl_of m ds = Some (Wire.DEnum e) -> item_of (item_name i) e = Some i -> items_of ds m (item_name i) = item_slots i.
Proof. intros E I. unfold items_of. now rewrite E, I. Qed.
Lemma enum_rep v m e i vs P h w : enum_value v m i vs -> decl_of m ds = Some (Wire.DEnum e) -> item_of (item_name i) e = Some i -> has_default i ->
  (exists a cfs, w = dref a /\ P a /\ nth_error h a = Some (CObj m cfs) /\
    DartSem.lookup "value" cfs = Some (dmem (m ++ "Value") (camel (item_name i))) /\
    exists u, DartSem.lookup (camel (item_name i)) cfs = Some u /\ item_rep P h m i vs u) <-> rep P h w v (TyOther m).
Proof.
  intros V E I HD. pose proof (enum_items_of m e i E I) as SL.
  destruct v as [| | | |e' c|e' c l|e' c fs| | | | | | | | | | | | | | | | | | |]; try contradiction V; destruct i as [p n|p n ts|p n gs]; try contradiction V;
    destruct V as (-> & -> & ->); cbn [DartWire.rep item_name] in *; cbn [has_default] in HD; rewrite ?SL.
  - split; intros (a & cfs & H1 & H2 & H3 & H4 & u & H5 & H6); exists a, cfs; repeat (split; [assumption|]); exists u; (split; [assumption|]).
    + destruct H6 as [[_ H6]|[H6 _]]; [exact H6|now contradiction H6].
    + left. split; [reflexivity|assumption].
  - split; intros (a & cfs & H1 & H2 & H3 & H4 & u & H5 & H6); exists a, cfs; repeat (split; [assumption|]); exists u; (split; [assumption|]).
    + destruct H6 as [[H6 _]|[_ H6]]; [contradiction|exact H6].
    + right. split; [assumption|exact H6].
  - split; intros (a & cfs & H1 & H2 & H3 & H4 & u & H5 & H6); exists a, cfs; repeat (split; [assumption|]); exists u; (split; [assumption|]).
    + destruct H6 as [[H6 _]|[_ (b & gfs & Q1 & Q2 & Q3 & Q4)]]; [contradiction|]. exists b, gfs. repeat (split; [assumption|]).
      apply all2P_map in Q4. eapply all2P_imp; [|exact Q4]. intros [x v] f _ H. exact H.
    + right. split; [assumption|]. destruct H6 as (b & gfs & Q1 & Q2 & Q3 & Q4). exists b, gfs. repeat (split; [assumption|]).
      apply (all2P_map (@snd string val)). eapply all2P_imp; [|exact Q4]. intros [x v] f _ H. exact H.
Qed.
Lemma enum_wire v m e i vs : enum_value v m i vs -> decl_of m ds = Some (Wire.DEnum e) -> item_of (item_name i) e = Some i ->
  dwire false v (TyOther m) = rd_put D "Int32" (Z.of_N (item_pos i)) ++ wires vs (item_slots i).
Proof.
  intros V E I. pose proof (enum_items_of m e i E I) as SL.
  assert (TG : dtag D ds m (item_name i) = rd_put D "Int32" (Z.of_N (item_pos i))) by (unfold dtag; now rewrite E, I).
  destruct v as [| | | |e' c|e' c l|e' c fs| | | | | | | | | | | | | | | | | | |]; try contradiction V; destruct i as [p n|p n ts|p n gs]; try contradiction V;
    destruct V as (-> & -> & ->); cbn [DartWire.dwire]; cbn [item_name] in SL, TG; rewrite ?SL, TG.
  - cbn [item_slots]. unfold wires. cbn [cat2]. now rewrite app_nil_r.
  - reflexivity.
  - f_equal. unfold wires. rewrite <- cat2_map. generalize (item_slots (ItemStruct p n gs)). clear.
    induction fs as [|[x v] fs IH]; intros [|q l]; cbn; try reflexivity. now rewrite IH.
Qed.

Lemma items_select h m cfs l fp i : shaped_items h m cfs l fp -> In i l ->
  (item_slots i = [] /\ DartSem.lookup (camel (item_name i)) cfs = Some (dobj (m ++ item_name i) [] [])) \/
  (item_slots i <> [] /\ exists b gfs fpi, DartSem.lookup (camel (item_name i)) cfs = Some (dref b) /\
     nth_error h b = Some (CObj (m ++ item_name i)%string gfs) /\ shaped_slots h gfs (item_slots i) fpi /\ incl (b :: fpi) fp /\
     (NoDup fp -> NoDup (b :: fpi) /\ forall h' gfs', nth_error h' b = Some (CObj (m ++ item_name i)%string gfs') ->
        shaped_slots h' gfs' (item_slots i) fpi -> changes h h' (b :: fpi) -> shaped_items h' m cfs l fp)).
Proof.
  intros SP. induction SP as [n cfs|n cfs j l fp Z L SP IH|n cfs j l b gfs fp fp' Z L A SS SP IH]; intros I; [destruct I| |].
  - destruct I as [->|I]; [left; auto|]. destruct (IH I) as [H|(NZ & b & gfs & fpi & H1 & H2 & H3 & H4 & H5)]; [now left|].
    right. split; [assumption|]. exists b, gfs, fpi. repeat (split; [assumption|]). intros ND. destruct (H5 ND) as [N1 N2]. split; [assumption|].
    intros h' gfs' Q1 Q2 Q3. eapply si_empty; [assumption|assumption|]. now apply (N2 h' gfs').
  - destruct I as [->|I].
    + right. split; [assumption|]. exists b, gfs, fp. repeat (split; [assumption|]). split; [intros x [<-|J]; [now left|right; apply in_or_app; now left]|].
      intros ND. apply NoDup_cons_iff in ND as [N1 N2].
      split; [constructor; [intros J; apply N1, in_or_app; now left|now apply NoDup_app_remove_r in N2]|].
      intros h' gfs' Q1 Q2 Q3. eapply si_cons; [assumption|exact L|exact Q1|exact Q2|]. eapply items_frame; [exact SP|].
      eapply changes_same; [exact Q3|]. intros x J. split; [eapply items_dom; eassumption|].
      intros [<-|J']; [apply N1, in_or_app; now right|now apply (NoDup_app_disjoint fp fp' x N2)].
    + destruct (IH I) as [H|(NZ & b' & gfs0 & fpi & H1 & H2 & H3 & H4 & H5)]; [now left|].
      right. split; [assumption|]. exists b', gfs0, fpi. repeat (split; [assumption|]).
      split; [intros x J; right; apply in_or_app; right; now apply H4|]. intros ND. apply NoDup_cons_iff in ND as [N1 N2].
      destruct (H5 (NoDup_app_remove_l _ _ N2)) as [N3 N4]. split; [assumption|].
      intros h' gfs' Q1 Q2 Q3.
      assert (SAME : same_on (b :: fp) h h').
      { eapply changes_same; [exact Q3|]. intros x [<-|J].
        - split; [now apply nth_some_lt in A|]. intros J. apply N1, in_or_app. right. now apply H4.
        - split; [eapply slots_dom; [exact SS|exact J]|]. intros J'. apply (NoDup_app_disjoint fp fp' x N2 J). now apply H4. }
      apply same_on_cons in SAME as [SA SB]. eapply si_cons; [assumption|exact L|rewrite SA; exact A| |].
      * eapply slots_frame; [exact SS|exact SB].
      * now apply (N4 h' gfs').
Qed.

Lemma enum_shape h w m e fp : decl_of m ds = Some (Wire.DEnum e) -> shaped h w (TyOther m) fp ->
  exists a cfs v fp', w = dref a /\ fp = a :: fp' /\ nth_error h a = Some (CObj m cfs) /\ DartSem.lookup "value" cfs = Some v /\ shaped_items h m cfs (en_items e) fp'.
Proof.
  intros E SP. destruct (enum_conditions m e E) as (NS & _).
  inversion SP as [w0 t0 P|w0|a0 m0 x0 X1 X2 X3|a0 g l x X1 X2|a0 t0 l X1|n0 s0 X1 X2|n0 s0 a cfs fp' X1 X2 X3 X4|n0 e0 a cfs v fp' X1 X2 X3 X4]; subst;
    try congruence.
  - now contradiction P.
  - destruct (outside_not m X2) as (_ & _ & Q). congruence.
  - assert (e0 = e) by congruence. subst. eauto 10.
Qed.

(** What both readers do after the tag. *)
Lemma fill_case n th m e i vs en s r a fp rest : decl_of m ds = Some (Wire.DEnum e) -> In i (en_items e) -> codec_this th ->
  Forall2 (fun v p => fillable (S n) v (snd p)) vs (item_slots i) ->
  DartSem.lookup "reader" en = Some dreader -> DartSem.lookup "model" en = Some (dref a) -> DartSem.lookup (m ++ "Value") en = None ->
  shaped (d_heap s) (dref a) (TyOther m) fp -> NoDup fp -> d_rd s = wires vs (item_slots i) ++ r -> exists h',
  run (S (S n)) th (set_value m i :: DExpr (call (item_codec m i) "read" [var "reader"; model_item i]) :: rest) en s =
    run (S (S n)) th rest en (set_heap h' (set_drd r s)) /\
  changes (d_heap s) h' fp /\ shaped h' (dref a) (TyOther m) fp /\
  exists cfs, In a fp /\ nth_error h' a = Some (CObj m cfs) /\
    DartSem.lookup "value" cfs = Some (dmem (m ++ "Value") (camel (item_name i))) /\
    exists u, DartSem.lookup (camel (item_name i)) cfs = Some u /\ item_rep (within fp (d_heap s) h') h' m i vs u.
Proof.
  intros E I TH F LR LM LV SP ND W. destruct (enum_shape _ _ _ _ _ E SP) as (a' & cfs & v0 & fp' & Q1 & -> & A & V0 & SI).
  injection Q1 as <-. destruct (enum_conditions m e E) as (_ & _ & _ & _ & NN & _). apply NoDup_cons_iff in NN as [NV NN].
  apply NoDup_cons_iff in ND as [NA ND].
  destruct (set_key_some "value" (dmem (m ++ "Value") (camel (item_name i))) cfs v0 V0) as [cfs1 SK].
  set (h1 := set_cell a (CObj m cfs1) (d_heap s)).
  assert (LA : a < List.length (d_heap s)) by now apply nth_some_lt in A.
  assert (A1 : nth_error h1 a = Some (CObj m cfs1)) by now apply set_cell_same.
  assert (O1 : forall j, In j (en_items e) -> DartSem.lookup (camel (item_name j)) cfs1 = DartSem.lookup (camel (item_name j)) cfs).
  { intros j J. eapply lookup_set_other; [|exact SK]. intros Q. apply NV. rewrite Q. now apply (in_map (fun i => camel (item_name i))). }
  assert (V1 : DartSem.lookup "value" cfs1 = Some (dmem (m ++ "Value") (camel (item_name i)))) by (eapply lookup_set_same, SK).
  assert (SI1 : shaped_items h1 m cfs1 (en_items e) fp').
  { eapply items_fields with (cfs := cfs).
    - eapply items_frame; [exact SI|]. eapply changes_same; [apply changes_set|]. intros b J. split; [eapply items_dom; eassumption|].
      intros [<-|[]]. contradiction.
    - intros x J. apply in_map_iff in J as (j & <- & J). now apply O1. }
  assert (E1 : DartSem.ev_st D items (KK (S (S n))) th (set_value m i) en s = DDone en (set_heap h1 s)).
  { unfold set_value, set_st. eapply ev_expr. change (item_id i) with (item_name i). erewrite ev_set_field; [reflexivity|exact LM| |exact A|exact SK|reflexivity].
    eapply ev_enum_value; try eassumption. }
  pose proof (item_emplace m e i E I) as FC. cbv zeta in FC.
  pose proof (item_struct_slots e i) as SL. pose proof (item_struct_id e i) as SID. rewrite (enum_id m e E) in SID.
  destruct (item_conditions m e i E I) as (_ & NSL & _).
  assert (CC : forall u s', DartSem.lookup (camel (item_name i)) cfs1 = Some u -> u <> dlate -> nth_error (d_heap s') a = Some (CObj m cfs1) ->
    DartSem.ev D items (KK (S (S n))) th (call (item_codec m i) "read" [var "reader"; model_item i]) en s' =
    method D items (KK (S (S n))) (dobj (m ++ item_name i ++ "EmplaceToBuffers") [] []) "read" (pos [dreader; u]) s').
  { intros u s' LU NL A'. unfold item_codec, const0. change (item_id i) with (item_name i). apply ev_call_const.
    - eapply ev_const_class, FC.
    - constructor; [now apply ev_var|]. constructor; [|constructor]. unfold model_item. change (item_id i) with (item_name i). eapply ev_field; eassumption. }
  rewrite (run_first D items (KK (S (S n))) th _ _ en s _ _ E1).
  destruct (items_select _ _ _ _ _ _ SI1 I) as [[Z LU]|(NZ & b & gfs & fpi & LU & B & SB & IN & FR)].
  - exists h1. rewrite Z in W, F. apply Forall2_len in F. destruct vs; [|discriminate F]. unfold wires in W. cbn in W.
    assert (ZF : sn_fields (item_struct e i) = []) by (rewrite Z in SL; destruct (sn_fields (item_struct e i)); [reflexivity|discriminate SL]).
    split; [|split; [|split]].
    + erewrite run_expr; [rewrite <- W; destruct s; reflexivity|]. rewrite (CC _ _ LU); [|discriminate|exact A1].
      apply (fill_empty _ _ _ _ _ _ _ FC ZF).
    + eapply changes_more; [|apply changes_set]. intros x [<-|[]]. now left.
    + eapply sh_enum; eassumption.
    + exists cfs1. split; [now left|]. split; [exact A1|]. split; [exact V1|]. exists (dobj (m ++ item_name i) [] []). split; [exact LU|]. left. auto.
  - destruct (FR ND) as [NB FR']. rewrite <- SL in F, W, SB. rewrite <- SID in B.
    destruct (fill_struct n _ (item_struct e i) _ _ vs (set_heap h1 s) r b gfs fpi FC F) as (h2 & gfs2 & E2 & C2 & B2 & S2 & R2); try assumption.
    { now rewrite <- slot_names, SL. }
    cbn [d_heap set_heap] in *.
    assert (AB : ~ In a (b :: fpi)) by (intros J; apply NA; now apply IN).
    assert (A2 : nth_error h2 a = Some (CObj m cfs1)) by (eapply changes_nth; eassumption).
    rewrite SL in S2. rewrite SID in B2.
    exists h2. split; [|split; [|split]].
    + erewrite run_expr; [reflexivity|]. rewrite (CC _ _ LU); [exact E2|discriminate|exact A1].
    + eapply changes_trans; [eapply changes_more; [|apply changes_set]|eapply changes_more; [|exact C2]].
      * intros x [<-|[]]. now left.
      * intros x J. right. now apply IN.
    + eapply sh_enum; [exact E|exact A2|exact V1|]. eapply FR'; eassumption.
    + exists cfs1. split; [now left|]. split; [exact A2|]. split; [exact V1|]. exists (dref b). split; [exact LU|]. right. split; [assumption|].
      exists b, gfs2. split; [reflexivity|]. split; [left; right; apply IN; now left|]. split; [exact B2|]. rewrite <- SL.
      eapply all2P_imp; [|exact R2]. intros v p _ (y & L & R). exists y. split; [exact L|]. eapply rep_frame; [|exact R].
      intros x [J|[X1 X2]]; (split; [|reflexivity]); [left; right; apply IN; now right|right; split; [|assumption]].
      unfold h1 in X1. now rewrite set_cell_length in X1.
Qed.

Lemma lookup_local (en : denv) x : (forall y, In y (map fst en) -> In y local_names) -> absent x local_names = true -> DartSem.lookup x en = None.
Proof. intros L A. apply lookup_none. intros I. apply absent_not_in in A. apply A. now apply L. Qed.
Lemma read_tag_done K th en s r p : (p < 2 ^ 31)%N -> DartSem.lookup "reader" en = Some dreader -> d_rd s = rd_put D "Int32" (Z.of_N p) ++ r ->
  DartSem.ev D items K th (call (var "reader") "readInt32" []) en s = DDone (dint (Z.of_N p)) (set_drd r s).
Proof.
  intros P L R. rewrite (ev_call_var D items K th "reader" _ [] en dreader [] s L (Forall2_nil _)).
  unfold method, reader_method. change (prim_of "read" "readInt32") with (Some "Int32"). cbn [pos map]. unfold dbind, take.
  rewrite R, (dlaw_prim D U law); [reflexivity|]. clear - P. unfold dart_range. cbn [String.eqb Ascii.eqb Bool.eqb orb].
  change (2 ^ 31)%Z with 2147483648%Z. change (2 ^ 31)%N with 2147483648%N in P. lia.
Qed.
Lemma item_default_ok i : item_creatable cd i = true -> has_default i.
Proof. unfold item_creatable. rewrite andb_true_iff. intros [_ H]. destruct i as [?|? ? [|]|? ? [|]]; try exact Logic.I; try discriminate H; cbn; discriminate. Qed.

Lemma creatable_enum k m e : decl_of m ds = Some (Wire.DEnum e) -> creatable ds classes k (TyOther m) = true -> exists k', k = S k' /\
  negb (match en_items e with [] => true | _ => false end) = true /\ forallb (item_creatable k') (en_items e) = true.
Proof.
  intros E C. destruct k as [|k]; cbn [creatable] in C; unfold DartWire.outside, declared in C; rewrite E in C; cbn [negb andb orb] in C.
  - discriminate C.
  - exists k. split; [reflexivity|]. now apply andb_true_iff in C.
Qed.
Lemma reads_enum n m e i vs v : decl_of m ds = Some (Wire.DEnum e) -> item_of (item_name i) e = Some i -> enum_value v m i vs ->
  creatable ds classes cd (TyOther m) = true -> 3 * cd <= n + 2 ->
  Forall2 (fun v p => fillable (S n) v (snd p)) vs (item_slots i) -> reads (S (S (S n))) v (TyOther m).
Proof.
  intros E IO V C LN F s r W. apply find_item_in in IO as IO'. destruct IO' as [I _].
  destruct (enum_conditions m e E) as (_ & AM & AV & NP & NN & _).
  destruct (item_conditions m e i E I) as (_ & _ & PB).
  rewrite (enum_wire v m e i vs V E IO) in W. rewrite <- app_assoc in W.
  pose proof (enum_into m e E) as FC. pose proof (codec_members_this _ _ _ _ _ _ _ _ _ _ _ _ _ FC eq_refl eq_refl eq_refl) as TH.
  destruct (creatable_enum cd m e E C) as (cd' & CD & C1 & C2).
  assert (NE : en_items e <> []) by (intros H; rewrite H in C1; discriminate).
  assert (HD : has_default i).
  { rewrite forallb_forall in C2. specialize (C2 i I). apply andb_true_iff in C2 as [_ H].
    destruct i as [?|? ? [|]|? ? [|]]; try exact Logic.I; try discriminate H; cbn; discriminate. }
  assert (G : Forall (fun i => Forall (fun p => made n (snd p)) (item_slots i) /\ match i with ItemEmpty _ _ => True | _ => item_slots i <> [] end) (en_items e)).
  { rewrite Forall_forall. intros j J. rewrite forallb_forall in C2. specialize (C2 j J). apply andb_true_iff in C2 as [C2 C3]. split.
    - rewrite Forall_forall. intros p Q. rewrite forallb_forall in C2. apply (creatable_made cd'); [now apply C2|]. clear - LN CD. lia.
    - destruct j as [?|? ? [|]|? ? [|]]; try exact Logic.I; try discriminate C3; cbn; discriminate. }
  set (s1 := set_drd (wires vs (item_slots i) ++ r) s).
  destruct (new_enum n m e E NE G s1) as (a & h1 & fp & E1 & N1 & S1 & _).
  set (th := Some (dobj (m ++ "IntoBuffers") [] [], (m ++ "IntoBuffers")%string)) in *.
  set (en := [("model", dref a); ("value", dint (Z.of_N (item_pos i))); ("reader", dreader)]).
  destruct (fill_case n th m e i vs en (set_heap h1 s1) r a fp [DReturn (Some (var "model"))] E I TH F eq_refl eq_refl) as (h2 & E2 & C3 & S2 & cfs & IA & A2 & V2 & R2).
  { apply lookup_local; [|exact AV]. cbn. tauto. }
  { exact S1. } { apply N1. } { reflexivity. }
  exists (dref a), h2. cbn [d_heap set_heap set_drd] in *.
  assert (CH : changes (d_heap s) h2 []).
  { destruct N1 as ([L1 D1] & _ & FR). destruct C3 as [L2 D2]. split; [unfold s1 in L1; cbn in L1; clear - L1 L2; lia|].
    intros b B _. rewrite D2; [now apply D1| |].
    - unfold s1 in L1. cbn in L1. clear - L1 B. lia.
    - intros J. apply FR in J. unfold fresh, s1 in J. cbn in J. clear - J B. lia. }
  split; [|split; [exact CH|]].
  - cbn [into_obj generate_class_prefix]. rewrite (codec_call (S (S n)) _ _ _ _ "read" [reader_param] _ [dreader] [("reader", dreader)] s FC eq_refl eq_refl).
    apply body_returned. unfold read_tag. rewrite (run_final D items (KK (S (S n))) th "value" _ _ [("reader", dreader)] s (dint (Z.of_N (item_pos i))) s1 eq_refl).
    2: { apply read_tag_done; [exact PB|reflexivity|exact W]. }
    rewrite dchain_cons. rewrite (enum_id m e E). unfold dbind.
    rewrite (switch_tag D items (KK (S (S n))) th (fun i => [DFinal "model" (new m); set_value m i; DExpr (call (item_codec m i) "read" [var "reader"; model_item i]); DReturn (Some (var "model"))])
      (en_items e) [unsupported] i [("value", dint (Z.of_N (item_pos i))); ("reader", dreader)] s1 (Z.of_N (item_pos i)) eq_refl eq_refl I NP).
    erewrite run_final; [|reflexivity|].
    2: { unfold new. erewrite ev_new; [|apply codec_name; [exact TH|apply lookup_local; [cbn; tauto|exact AM]|exact AM|]|reflexivity].
         - rewrite codec_call_name; [exact E1|exact TH|exact AM|]. destruct (en_items e) as [|f l] eqn:Q; [congruence|].
           destruct (enum_models m e f l E Q) as (X & _). eapply has_class_some, X.
         - destruct (en_items e) as [|f l] eqn:Q; [congruence|]. now destruct (enum_models m e f l E Q) as (_ & X & _). }
    fold en. rewrite E2. erewrite run_return; [|now apply ev_var]. reflexivity.
  - apply (enum_rep v m e i vs _ _ _ V E IO HD).
    exists a, cfs. split; [reflexivity|]. destruct N1 as ([L1 D1] & _ & FR). destruct C3 as [L2 _]. unfold s1 in *. cbn [d_heap set_drd] in *.
    assert (SUB : forall b, within fp h1 h2 b -> fresh (d_heap s) h2 b).
    { intros b [J|[B1 B2]]; [apply FR in J; unfold fresh in *; clear - J L2; lia|unfold fresh; clear - B1 B2 L1; lia]. }
    split; [apply SUB; now left|]. split; [exact A2|]. split; [exact V2|]. destruct R2 as (u & LU & R2). exists u. split; [exact LU|].
    destruct R2 as [R2|(NZ & b & gfs & Q1 & Q2 & Q3 & Q4)]; [now left|]. right. split; [assumption|]. exists b, gfs. split; [assumption|].
    split; [now apply SUB|]. split; [assumption|]. eapply all2P_imp; [|exact Q4]. intros v' p _ (y & L & R). exists y. split; [assumption|].
    eapply rep_frame; [|exact R]. intros x X. split; [now apply SUB|reflexivity].
Qed.

Lemma fills_enum n m e i vs v : decl_of m ds = Some (Wire.DEnum e) -> item_of (item_name i) e = Some i -> enum_value v m i vs -> has_default i ->
  Forall2 (fun v p => fillable (S n) v (snd p)) vs (item_slots i) -> fills (S (S (S n))) v (TyOther m).
Proof.
  intros E IO V HD F NS s r w fp W SP ND. apply find_item_in in IO as IO'. destruct IO' as [I _].
  destruct (enum_conditions m e E) as (_ & AM & AV & NP & NN & _).
  destruct (item_conditions m e i E I) as (_ & _ & PB).
  rewrite (enum_wire v m e i vs V E IO) in W. rewrite <- app_assoc in W.
  pose proof (enum_emplace m e E) as FC. pose proof (codec_members_this _ _ _ _ _ _ _ _ _ _ _ _ _ FC eq_refl eq_refl eq_refl) as TH.
  destruct (enum_shape _ _ _ _ _ E SP) as (a & cfs0 & v0 & fp' & -> & _ & _).
  set (s1 := set_drd (wires vs (item_slots i) ++ r) s).
  set (th := Some (dobj (m ++ "EmplaceToBuffers") [] [], (m ++ "EmplaceToBuffers")%string)) in *.
  set (en := [("value", dint (Z.of_N (item_pos i))); ("reader", dreader); ("model", dref a)]).
  destruct (fill_case n th m e i vs en s1 r a fp [DReturn None] E I TH F eq_refl eq_refl) as (h2 & E2 & C3 & S2 & cfs & IA & A2 & V2 & R2).
  { apply lookup_local; [|exact AV]. cbn. tauto. }
  { exact SP. } { exact ND. } { reflexivity. }
  exists h2. split; [|split; [exact C3|split; [exact S2|]]].
  - cbn [DartTree.is_string] in NS. cbn [emplace_obj DartTree.is_string generate_class_prefix]. rewrite NS.
    rewrite (codec_call (S (S n)) _ _ _ _ "read" [reader_param; model_param (en_id e)] _ [dreader; dref a] [("reader", dreader); ("model", dref a)] s FC eq_refl eq_refl).
    apply body_returned. unfold read_tag. rewrite (run_final D items (KK (S (S n))) th "value" _ _ [("reader", dreader); ("model", dref a)] s (dint (Z.of_N (item_pos i))) s1 eq_refl).
    2: { apply read_tag_done; [exact PB|reflexivity|exact W]. }
    rewrite dchain_cons. rewrite (enum_id m e E). unfold dbind.
    rewrite (switch_tag D items (KK (S (S n))) th (fun i => [set_value m i; DExpr (call (item_codec m i) "read" [var "reader"; model_item i]); DReturn None])
      (en_items e) [unsupported] i [("value", dint (Z.of_N (item_pos i))); ("reader", dreader); ("model", dref a)] s1 (Z.of_N (item_pos i)) eq_refl eq_refl I NP).
    fold en. rewrite E2. reflexivity.
  - apply (enum_rep v m e i vs _ _ _ V E IO HD). exists a, cfs. split; [reflexivity|]. split; [now left|]. auto.
Qed.
(** *** Values of the libraries *)

(** [t] is the type [m] of the libraries with the arguments [ts]. *)
Definition ext_type (t : type_id) (m : string) (ts : list dty) : Prop :=
  outside m = true /\ ((t = TyOther m /\ ts = []) \/ exists l, t = TyGeneric m l /\ opaque m = true /\ ts = map dty_of l).
Lemma opaque_not g : opaque g = true -> String.eqb g "Vec" = false /\ String.eqb g "String" = false /\ outside g = true.
Proof. unfold DartWire.opaque. rewrite !andb_true_iff, !negb_true_iff. tauto. Qed.
Lemma opaque_vec g l : opaque g = true -> vec_element g l = None.
Proof. intros O. apply opaque_not in O as (O & _). unfold vec_element. destruct l as [|a [|]]; try reflexivity. now rewrite O. Qed.
Lemma ext_facts t m ts : ext_type t m ts -> dart_type t = DTy m ts /\ into_obj t = dobj (m ++ "IntoBuffers") ts [] /\
  (DartTree.is_string t = false -> emplace_obj t = dobj (m ++ "EmplaceToBuffers") ts [] /\ String.eqb m "String" = false) /\
  (is_string_type t = DartTree.is_string t) /\ (DartTree.is_string t = true -> m = "String").
Proof.
  intros [O [[-> ->]|(l & -> & OP & ->)]].
  - repeat split; cbn [into_obj emplace_obj DartTree.is_string generate_class_prefix].
    + cbn [DartTree.is_string] in H. now rewrite H.
    + exact H.
    + intros H. cbn [DartTree.is_string] in H. now apply String.eqb_eq in H.
  - pose proof (opaque_vec m l OP) as V. destruct (opaque_not m OP) as (NV & NS & _).
    rewrite dart_type_of. cbn [dty_of into_obj emplace_obj DartTree.is_string is_string_type]. rewrite V. unfold list_name. rewrite NV. repeat split; auto. discriminate.
Qed.
Lemma dtyped_ext n x t : dtyped (vext n x) t = true -> exists ts, ext_type t n ts /\ su_ext U (dart_type t) x = true.
Proof.
  intros T. destruct t as [id k sg|id k|id|id|id l|id]; cbn [DartWire.dtyped] in T; try discriminate T; rewrite !andb_true_iff in T; destruct T as ((N & O) & X);
    apply String.eqb_eq in N; subst n.
  - exists (map dty_of l). split; [|exact X]. split; [now apply opaque_not in O|]. right. eauto.
  - exists []. split; [|exact X]. split; [exact O|]. now left.
Qed.
Lemma reads_ext n m x t : dtyped (vext m x) t = true -> reads n (vext m x) t.
Proof.
  intros T s r W. apply dtyped_ext in T as (ts & X & S). destruct (ext_facts t m ts X) as (TY & IO & _ & ST & SM).
  cbn [DartWire.dwire] in W. rewrite IO, codec_name_method by (try apply X; now left). cbn [String.eqb Ascii.eqb Bool.eqb].
  unfold into_method. destruct (outside_not m (proj1 X)) as (_ & -> & _). cbn [pos map String.eqb Ascii.eqb Bool.eqb].
  rewrite TY in *. unfold dbind, take. rewrite W, (dlaw_ext D U law _ _ _ S). cbn [DartWire.rep]. rewrite ST.
  destruct (DartTree.is_string t) eqn:STR.
  - rewrite (SM eq_refl), String.eqb_refl. exists (dstr x), (d_heap s). split; [now destruct s|]. split; [apply changes_refl|reflexivity].
  - destruct (String.eqb_spec m "String") as [->|NE].
    + exfalso. destruct X as [_ [[-> _]|(l & -> & OP & _)]]; [discriminate STR|]. now apply opaque_not in OP as (_ & OP & _).
    + exists (dref (List.length (d_heap s))), (d_heap s ++ [CExt (DTy m ts) x]). split; [now destruct s|]. split; [apply changes_alloc|].
      exists (List.length (d_heap s)). split; [reflexivity|]. split; [unfold fresh; rewrite app_length; cbn; clear; lia|].
      rewrite nth_error_app2, Nat.sub_diag by (clear; lia). now rewrite TY.
Qed.
Lemma ext_shape h w t m ts fp : ext_type t m ts -> DartTree.is_string t = false -> shaped h w t fp ->
  exists a x, w = dref a /\ fp = [a] /\ nth_error h a = Some (CExt (DTy m ts) x).
Proof.
  intros X NS SP. destruct (ext_facts t m ts X) as (TY & _). destruct X as [O X]. destruct (outside_not m O) as (_ & _ & ND).
  destruct X as [[-> ->]|(l & -> & OP & ->)].
  - inversion SP as [w0 t0 P|w0|a0 m0 x0 X1 X2 X3|a0 g l x X1 X2|a0 t0 l X1|n0 s0 X1 X2|n0 s0 a cfs fp' X1 X2 X3 X4|n0 e0 a cfs v fp' X1 X2 X3 X4]; subst; try congruence.
    + now contradiction P.
    + discriminate NS.
    + eauto.
  - destruct (opaque_not m OP) as (NV & _ & _).
    inversion SP as [w0 t0 P|w0|a0 m0 x0 X1 X2 X3|a0 g l0 x X1 X2|a0 t0 l0 X1|n0 s0 X1 X2|n0 s0 a cfs fp' X1 X2 X3 X4|n0 e0 a cfs v fp' X1 X2 X3 X4]; subst; try congruence.
    + now contradiction P.
    + rewrite TY in X2. eauto.
    + discriminate NV.
Qed.
Lemma shaped_ext h t m ts a x : ext_type t m ts -> DartTree.is_string t = false -> nth_error h a = Some (CExt (DTy m ts) x) -> shaped h (dref a) t [a].
Proof.
  intros X NS A. destruct (ext_facts t m ts X) as (TY & _). destruct X as [O [[-> ->]|(l & -> & OP & ->)]].
  - eapply sh_ext; [|exact O|exact A]. intros ->. discriminate NS.
  - eapply sh_opaque; [exact OP|]. rewrite TY. exact A.
Qed.
Lemma fills_ext n m x t : dtyped (vext m x) t = true -> fills n (vext m x) t.
Proof.
  intros T NS s r w fp W SP ND. apply dtyped_ext in T as (ts & X & S). destruct (ext_facts t m ts X) as (TY & _ & EO & ST & _).
  destruct (EO NS) as [EO' NE]. destruct (ext_shape _ _ _ _ _ _ X NS SP) as (a & y & -> & -> & A).
  pose proof (nth_some_lt _ _ _ A) as LA.
  cbn [DartWire.dwire] in W. rewrite EO', codec_name_method by (try apply X; cbn; tauto). cbn [String.eqb Ascii.eqb Bool.eqb].
  unfold emplace_method. cbn [pos map String.eqb Ascii.eqb Bool.eqb]. rewrite TY in *. unfold dbind, get_cell, take, put_cell. rewrite A, String.eqb_refl, W, (dlaw_ext D U law _ _ _ S).
  exists (set_cell a (CExt (DTy m ts) x) (d_heap s)). split; [now destruct s|]. split; [apply changes_set|].
  split; [eapply shaped_ext; [exact X|exact NS|now apply set_cell_same]|].
  cbn [DartWire.rep]. rewrite ST, NS, TY. exists a. split; [reflexivity|]. split; [left; now left|]. now apply set_cell_same.
Qed.

(** *** Lists *)

Definition elem_obj (t : type_id) : dval := dobj (generate_class_prefix t ++ "IntoBuffers") [] [].
Definition reads_elem (n : nat) (v : val) (t : type_id) : Prop := forall s r, d_rd s = dwire true v t ++ r -> exists w h',
  method D items (KK n) (elem_obj t) "read" (pos [dreader]) s = DDone w (set_heap h' (set_drd r s)) /\
  changes (d_heap s) h' [] /\ rep (fresh (d_heap s) h') h' w v t.
Lemma elem_codec_method K t m vs : Wire.prim_name t <> None -> method D items K (elem_obj t) m vs = into_method D (generate_class_prefix t) [] m vs.
Proof.
  intros P. unfold elem_obj, method.
  destruct t as [id k sg|id k|id|id|id l|id]; try (now contradiction P); cbn [generate_class_prefix]; rewrite lib_class by (cbn; tauto); reflexivity.
Qed.
Lemma dart_elements_in p : In p dart_elements -> existsb (String.eqb p) dart_elements = true.
Proof. intros I. apply existsb_exists. exists p. split; [assumption|]. apply String.eqb_refl. Qed.
Lemma dwire_elem v t : Wire.prim_name t = None -> dtyped v t = true -> dwire true v t = dwire false v t.
Proof. intros P T. destruct v; try reflexivity. cbn [DartWire.dtyped] in T. now rewrite P in T. Qed.
Lemma elem_reads n v t : dtyped v t = true -> element_type ds classes t = true -> (Wire.prim_name t = None -> reads n v t) -> reads_elem n v t.
Proof.
  intros T E R s r W. destruct (Wire.prim_name t) as [id|] eqn:P.
  - assert (P' : Wire.prim_name t <> None) by congruence. destruct (dtyped_prim v t T P') as (p & z & -> & Z).
    destruct (prim_ok_facts t z Z) as (_ & _ & _ & _ & _ & _ & A & B & C & _ & F).
    rewrite (elem_codec_method _ t "read" _ P'), A. unfold into_method. rewrite (dart_elements_in _ B). cbn [pos map String.eqb Ascii.eqb Bool.eqb].
    cbn [DartWire.dwire] in W. unfold dbind, take. rewrite W, F, C. exists (dart_prim U t z), (d_heap s). split; [now destruct s|]. split; [apply changes_refl|reflexivity].
  - rewrite (dwire_elem v t P T) in W. destruct (R eq_refl s r W) as (w & h' & H). exists w, h'.
    replace (elem_obj t) with (into_obj t); [exact H|]. destruct t as [id' k sg|id' k|id'|id'|id' l|id']; try discriminate P; [discriminate E|reflexivity].
Qed.
Lemma read_elems n t vs : Forall (fun v => reads_elem n v t) vs -> forall s r, d_rd s = flat_map (fun v => dwire true v t) vs ++ r -> exists ws h',
  dmapM (fun _ => k_method (KK (S n)) (elem_obj t) "read" (pos [dreader])) (repeat RustSem.ok (List.length vs)) s = DDone ws (set_heap h' (set_drd r s)) /\
  changes (d_heap s) h' [] /\ all2P (fun v u => rep (fresh (d_heap s) h') h' u v t) vs ws.
Proof.
  induction 1 as [|v vs R F IH]; intros s r W.
  - cbn in W. exists [], (d_heap s). split; [rewrite <- W; now destruct s|]. split; [apply changes_refl|exact Logic.I].
  - cbn [flat_map] in W. rewrite <- app_assoc in W. destruct (R s _ W) as (w & h1 & E1 & C1 & R1).
    destruct (IH (set_heap h1 (set_drd (flat_map (fun v => dwire true v t) vs ++ r) s)) r eq_refl) as (ws & h2 & E2 & C2 & R2).
    exists (w :: ws), h2. cbn [d_heap set_heap set_drd] in *. split; [|split; [eapply changes_trans; eassumption|split]].
    + cbn [List.length repeat]. rewrite dmapM_cons. rewrite (dbind_done _ _ s w _ E1), (dbind_done _ _ _ ws _ E2). reflexivity.
    + destruct C1 as [L1 _]. destruct C2 as [L2 C2]. eapply rep_frame; [|exact R1]. intros b [B1 B2].
      split; [unfold fresh; clear - B1 B2 L2; lia|]. apply C2; [exact B2|intros []].
    + eapply all2P_imp; [|exact R2]. intros v' u _ R'. eapply rep_frame; [|exact R']. intros b [B1 B2]. destruct C1 as [L1 _].
      split; [unfold fresh; clear - B1 B2 L1; lia|reflexivity].
Qed.
Lemma dtyped_list g k l t : dtyped (vbox g k l) t = true -> exists a, t = TyGeneric "Vec" [a] /\ g = "Vec" /\ element_type ds classes a = true /\ su_len U (List.length l) = true /\
  Forall (fun v => dtyped v a = true) l /\ k = N.of_nat (List.length l).
Proof.
  intros T. cbn [DartWire.dtyped] in T. destruct t as [id k' sg|id k'|id|id|id ts|id]; try discriminate T. destruct ts as [|a [|]]; try discriminate T.
  rewrite !andb_true_iff in T. destruct T as (((((A & B) & C) & K) & E) & F). apply String.eqb_eq in A, B. apply N.eqb_eq in K. subst. exists a. repeat split; try assumption.
  rewrite Forall_forall. now apply forallb_forall.
Qed.
Lemma reads_list n k l a : su_len U (List.length l) = true -> Forall (fun v => reads_elem n v a) l -> reads (S n) (vbox "Vec" k l) (TyGeneric "Vec" [a]).
Proof.
  intros SL F s r W. cbn [DartWire.dwire] in W. rewrite <- app_assoc in W.
  destruct (read_elems n a l F (set_drd (flat_map (fun v => dwire true v a) l ++ r) s) r eq_refl) as (ws & h1 & E1 & C1 & R1). cbn [d_heap set_drd] in *.
  exists (dref (List.length h1)), (h1 ++ [CList ws]). split; [|split].
  - change (into_obj (TyGeneric "Vec" [a])) with (dobj "ListIntoBuffers" [dty_of a] [elem_obj a]). unfold method. rewrite lib_class by (cbn; tauto).
    change (codec_method D (KK (S n)) "ListIntoBuffers" [dty_of a] [elem_obj a] "read" (pos [dreader])) with (list_method D (KK (S n)) false (elem_obj a) "read" (pos [dreader])).
    unfold list_method. cbn [pos map] in E1. cbn [pos map String.eqb Ascii.eqb Bool.eqb negb andb]. unfold dbind at 1, take. rewrite W, (dlaw_len D U law _ _ SL).
    unfold dbind. rewrite E1. now destruct s.
  - eapply changes_trans; [exact C1|apply changes_alloc].
  - cbn [DartWire.rep]. exists (List.length h1), ws. split; [reflexivity|]. destruct C1 as [L1 _].
    split; [unfold fresh; rewrite app_length; cbn; clear - L1; lia|]. split; [rewrite nth_error_app2, Nat.sub_diag by (clear; lia); reflexivity|].
    eapply all2P_imp; [|exact R1]. intros v u _ R'. eapply rep_frame; [|exact R']. intros b [B1 B2].
    split; [unfold fresh; rewrite app_length; clear - B1 B2; lia|]. now rewrite nth_error_app1.
Qed.
Lemma fills_list n k l a : su_len U (List.length l) = true -> Forall (fun v => reads_elem n v a) l -> fills (S n) (vbox "Vec" k l) (TyGeneric "Vec" [a]).
Proof.
  intros SL F _ s r w fp W SP ND. cbn [DartWire.dwire] in W. rewrite <- app_assoc in W.
  assert (X : exists b l0, w = dref b /\ fp = [b] /\ nth_error (d_heap s) b = Some (CList l0)).
  { inversion SP as [w0 t0 P|w0|a0 m0 x0 X1 X2 X3|a0 g l0 x X1 X2|a0 t0 l0 X1|n0 s0 X1 X2|n0 s0 a0 cfs fp' X1 X2 X3 X4|n0 e0 a0 cfs v fp' X1 X2 X3 X4]; subst.
    - now contradiction P.
    - now apply opaque_not in X1 as (X1 & _).
    - eauto. }
  destruct X as (b & l0 & -> & -> & A). pose proof (nth_some_lt _ _ _ A) as LA.
  destruct (read_elems n a l F (set_drd (flat_map (fun v => dwire true v a) l ++ r) s) r eq_refl) as (ws & h1 & E1 & C1 & R1). cbn [d_heap set_drd] in *.
  assert (L1 : List.length (d_heap s) <= List.length h1) by apply C1.
  assert (LB : b < List.length h1) by (clear - LA L1; lia).
  exists (set_cell b (CList ws) h1). split; [|split; [|split]].
  - change (emplace_obj (TyGeneric "Vec" [a])) with (dobj "ListEmplaceToBuffers" [dty_of a] [elem_obj a]). unfold method. rewrite lib_class by (cbn; tauto).
    change (codec_method D (KK (S n)) "ListEmplaceToBuffers" [dty_of a] [elem_obj a] "read" (pos [dreader; dref b])) with
      (list_method D (KK (S n)) true (elem_obj a) "read" (pos [dreader; dref b])).
    unfold list_method. cbn [pos map] in E1. cbn [pos map String.eqb Ascii.eqb Bool.eqb negb andb]. unfold dbind at 1, get_cell. rewrite A.
    unfold dbind at 1, take. rewrite W, (dlaw_len D U law _ _ SL). unfold dbind. rewrite E1. now destruct s.
  - eapply changes_trans; [eapply changes_more; [|exact C1]; intros x []|apply changes_set].
  - eapply sh_list. now apply set_cell_same.
  - cbn [DartWire.rep]. exists b, ws. split; [reflexivity|]. split; [left; now left|]. split; [now apply set_cell_same|].
    eapply all2P_imp; [|exact R1]. intros v u _ R'. eapply rep_frame; [|exact R']. intros c [B1 B2].
    split; [right; unfold fresh; rewrite set_cell_length; auto|]. rewrite set_cell_other; [reflexivity|]. clear - B1 LA. lia.
Qed.

(** *** All values *)

(** The values that a value consists of. *)
Definition parts (v : val) : list val :=
  match v with vrec _ fs | vcases _ _ fs => map snd fs | vcaset _ _ l | vbox _ _ l => l | _ => [] end.

Lemma enum_case v m e : dtyped v (TyOther m) = true -> decl_of m ds = Some (Wire.DEnum e) -> exists i vs,
  item_of (item_name i) e = Some i /\ enum_value v m i vs /\ creatable ds classes cd (TyOther m) = true /\ vs = parts v /\
  Forall2 (fun v p => dtyped v (snd p) = true) vs (item_slots i).
Proof.
  intros T E. pose proof (fun c i (H : item_of c e = Some i) => proj2 (find_item_in c e i H)) as NM.
  destruct v as [| | |n' fs|n' c|n' c l|n' c fs| |n' x| | | | | | | | | | | | | | | | |]; cbn [DartWire.dtyped] in T; try discriminate T.
  - destruct (decl_of n' ds) as [[x|x]|] eqn:E'; try discriminate T. rewrite !andb_true_iff in T. destruct T as [T _]. apply String.eqb_eq in T. subst. congruence.
  - destruct (decl_of n' ds) as [[x|x]|] eqn:E'; try discriminate T. rewrite !andb_true_iff in T. destruct T as ((T1 & T2) & T3). apply String.eqb_eq in T1. subst.
    assert (x = e) by congruence. subst x. destruct (item_of c e) as [[p k|p k ts|p k gs]|] eqn:IO; try discriminate T3.
    pose proof (NM _ _ IO) as Q. cbn [item_name] in Q. subst k. exists (ItemEmpty p c), []. repeat split; try assumption. constructor.
  - destruct (decl_of n' ds) as [[x|x]|] eqn:E'; try discriminate T. rewrite !andb_true_iff in T. destruct T as ((T1 & T2) & T3). apply String.eqb_eq in T1. subst.
    assert (x = e) by congruence. subst x. destruct (item_of c e) as [[p k|p k ts|p k gs]|] eqn:IO; try discriminate T3.
    pose proof (NM _ _ IO) as Q. cbn [item_name] in Q. subst k. exists (ItemTuple p c ts), l. repeat split; try assumption.
    cbn [item_slots]. unfold tuple_slots. apply all2_Forall2 in T3. clear - T3.
    assert (X : forall a, Forall2 (fun (v : val) (p : string * type_id) => dtyped v (snd p) = true) l (map (fun '(i, f) => (("v" ++ show_nat i)%string, tf_type f)) (combine (seq a (List.length ts)) ts))).
    { induction T3 as [|v f l ts H F IH]; intros a; [constructor|]. cbn [List.length seq combine map]. constructor; [exact H|apply IH]. }
    apply X.
  - destruct (decl_of n' ds) as [[x|x]|] eqn:E'; try discriminate T. rewrite !andb_true_iff in T. destruct T as ((T1 & T2) & T3). apply String.eqb_eq in T1. subst.
    assert (x = e) by congruence. subst x. destruct (item_of c e) as [[p k|p k ts|p k gs]|] eqn:IO; try discriminate T3.
    pose proof (NM _ _ IO) as Q. cbn [item_name] in Q. subst k. exists (ItemStruct p c gs), (map snd fs). repeat split; try assumption.
    cbn [item_slots]. apply all2_Forall2 in T3. clear - T3.
    induction T3 as [|[x v] f l ts H F IH]; cbn [map]; constructor; [|apply IH]. now apply andb_true_iff in H as [_ H].
  - rewrite !andb_true_iff in T. destruct T as [[T1 T2] _]. apply outside_not in T2 as (_ & _ & T2). congruence.
Qed.
Lemma struct_case v m st : dtyped v (TyOther m) = true -> decl_of m ds = Some (DStruct st) -> exists fs,
  v = vrec m fs /\ Forall2 (fun v p => dtyped v (snd p) = true) (map snd fs) (map field_slot (sn_fields st)).
Proof.
  intros T E.
  destruct v as [| | |n' fs|n' c|n' c l|n' c fs| |n' x| | | | | | | | | | | | | | | | |]; cbn [DartWire.dtyped] in T; try discriminate T;
    try (destruct (decl_of n' ds) as [[x|x]|] eqn:E'; try discriminate T; rewrite !andb_true_iff in T; destruct T as [[T _] _]; apply String.eqb_eq in T; subst; congruence).
  - destruct (decl_of n' ds) as [[x|x]|] eqn:E'; try discriminate T. rewrite !andb_true_iff in T. destruct T as [T F]. apply String.eqb_eq in T. subst.
    assert (x = st) by congruence. subst x. exists fs. split; [reflexivity|]. apply all2_Forall2 in F. clear - F.
    induction F as [|[x v] f l ts H F IH]; cbn [map]; constructor; [|apply IH]. now apply andb_true_iff in H as [_ H].
  - rewrite !andb_true_iff in T. destruct T as [[T1 T2] _]. apply outside_not in T2 as (_ & _ & T2). congruence.
Qed.
(** The values of a type with codecs. *)
Lemma value_cases (v : val) t : dtyped v t = true -> Wire.prim_name t = None ->
  (exists n x, v = vext n x) \/ (exists k l a, v = vbox "Vec" k l /\ t = TyGeneric "Vec" [a] /\ element_type ds classes a = true /\ su_len U (List.length l) = true /\
     Forall (fun v => dtyped v a = true) l) \/
  (exists m st, t = TyOther m /\ decl_of m ds = Some (DStruct st)) \/ (exists m e, t = TyOther m /\ decl_of m ds = Some (Wire.DEnum e)).
Proof.
  intros T P. destruct v as [| | |n' fs|n' c|n' c l|n' c fs|g k l|n' x| | | | | | | | | | | | | | | | |]; try discriminate T.
  - cbn [DartWire.dtyped] in T. now rewrite P in T.
  - right. right. left. destruct t; try discriminate T. cbn [DartWire.dtyped] in T. destruct (decl_of n' ds) as [[x|x]|] eqn:E; try discriminate T.
    rewrite !andb_true_iff in T. destruct T as [T _]. apply String.eqb_eq in T. subst. eauto.
  - right. right. right. destruct t; try discriminate T. cbn [DartWire.dtyped] in T. destruct (decl_of n' ds) as [[x|x]|] eqn:E; try discriminate T.
    rewrite !andb_true_iff in T. destruct T as [[T _] _]. apply String.eqb_eq in T. subst. eauto.
  - right. right. right. destruct t; try discriminate T. cbn [DartWire.dtyped] in T. destruct (decl_of n' ds) as [[x|x]|] eqn:E; try discriminate T.
    rewrite !andb_true_iff in T. destruct T as [[T _] _]. apply String.eqb_eq in T. subst. eauto.
  - right. right. right. destruct t; try discriminate T. cbn [DartWire.dtyped] in T. destruct (decl_of n' ds) as [[x|x]|] eqn:E; try discriminate T.
    rewrite !andb_true_iff in T. destruct T as [[T _] _]. apply String.eqb_eq in T. subst. eauto.
  - right. left. apply dtyped_list in T as (a & -> & -> & H). exists k, l, a. tauto.
  - left. eauto.
Qed.
Lemma Forall2_in_r {A B} (Q : A -> B -> Prop) l m : Forall2 Q l m -> forall a, In a l -> exists b, In b m /\ Q a b.
Proof. induction 1 as [|a b l m H F IH]; intros x I; [destruct I|]. destruct I as [<-|I]; [exists b; split; [now left|assumption]|]. destruct (IH x I) as (c & J & C). exists c. split; [now right|assumption]. Qed.
Lemma Forall2_imp_in {A B} (Q Q' : A -> B -> Prop) l m : Forall2 Q l m -> (forall a b, In a l -> Q a b -> Q' a b) -> Forall2 Q' l m.
Proof. induction 1 as [|a b l m H F IH]; intros I; constructor; [apply I; [now left|assumption]|]. apply IH. intros x y J. apply I. now right. Qed.

Lemma sub_depth v u : In u (parts v) -> depth u < depth v.
Proof.
  clear. destruct v; try (intros []); cbn [parts depth]; intros I;
    try (apply in_map_iff in I as ([x w] & <- & I); apply (in_map (fun '(_, v) => depth v)) in I; apply list_max_in in I; cbn [snd]; lia);
    apply (in_map depth) in I; apply list_max_in in I; lia.
Qed.
Theorem read_all d : forall v t n, dtyped v t = true -> Wire.prim_name t = None -> depth v <= d -> 3 * d + 3 * cd + 3 <= n -> reads n v t /\ fills n v t.
Proof.
  induction d as [d IH] using lt_wf_ind. intros v t n T P DV LN.
  destruct n as [|[|[|n]]]; try (exfalso; clear - LN; lia).
  destruct (value_cases v t T P) as [(m & x & ->)|[(k & l & a & -> & -> & EA & SL & F)|[(m & st & -> & E)|(m & e & -> & E)]]].
  - split; [now apply reads_ext|now apply fills_ext].
  - assert (G : Forall (fun v => reads_elem (S (S n)) v a) l).
    { rewrite Forall_forall in F |- *. intros v I. apply elem_reads; [now apply F|exact EA|]. intros PA.
      assert (DD : depth v < depth (vbox "Vec" k l)) by (apply sub_depth; exact I).
      destruct d as [|d]; [exfalso; clear - DD DV; lia|].
      apply (IH d); [clear; lia|now apply F|exact PA|clear - DD DV; lia|clear - LN; lia]. }
    split; [now apply reads_list|now apply fills_list].
  - destruct (struct_case v m st T E) as (fs & -> & F).
    assert (G : Forall2 (fun v p => dtyped v (snd p) = true /\ (Wire.prim_name (snd p) = None -> reads (S (S n)) v (snd p) /\ fills (S (S n)) v (snd p))) (map snd fs) (map field_slot (sn_fields st))).
    { eapply Forall2_imp_in; [exact F|]. intros v p I T'. split; [exact T'|]. intros P'.
      assert (DD : depth v < depth (vrec m fs)) by (apply sub_depth; exact I).
      destruct d as [|d]; [exfalso; clear - DD DV; lia|].
      apply (IH d); [clear; lia|exact T'|exact P'|clear - DD DV; lia|clear - LN; lia]. }
    split.
    + eapply read_struct; [exact E|]. eapply Forall2_imp_in; [exact G|]. intros v p _ [T' R]. split; [exact T'|]. intros P'. now apply R.
    + eapply fills_struct; [exact E|]. eapply Forall2_imp_in; [exact G|]. intros v p _ [T' R]. split; [exact T'|]. intros P'. destruct (DartTree.is_string (snd p)); now apply R.
  - destruct (enum_case v m e T E) as (i & vs & IO & V & C & -> & F).
    assert (G : Forall2 (fun v p => fillable (S n) v (snd p)) (parts v) (item_slots i)).
    { eapply Forall2_imp_in; [exact F|]. intros u p I T'. split; [exact T'|]. intros P'.
      assert (DD : depth u < depth v) by (apply sub_depth; exact I).
      destruct d as [|d]; [exfalso; clear - DD DV; lia|].
      assert (R : reads (S n) u (snd p) /\ fills (S n) u (snd p)) by (apply (IH d); [clear; lia|exact T'|exact P'|clear - DD DV; lia|clear - LN; lia]).
      destruct (DartTree.is_string (snd p)); apply R. }
    split.
    + eapply reads_enum; try eassumption. clear - LN. lia.
    + eapply fills_enum; try eassumption. destruct (creatable_enum cd m e E C) as (cd' & _ & _ & C2).
      rewrite forallb_forall in C2. specialize (C2 i (proj1 (find_item_in _ _ _ IO))). unfold item_creatable in C2. apply andb_true_iff in C2 as [_ H].
      destruct i as [?|? ? [|]|? ? [|]]; try exact Logic.I; try discriminate H; cbn; discriminate.
Qed.
(** *** Writing *)

(** The two kinds of codecs. *)
Definition cobj (emp : bool) (t : type_id) : dval := if emp then emplace_obj t else into_obj t.
Definition wst (emp : bool) (t : type_id) (a : dex) : dst := if emp then write_emplace_st t a else write_st t a.
Definition add_out (b : bytes) (s : dstate) : dstate := set_dwr (d_wr s ++ b) s.
Definition writes (n : nat) (emp : bool) (v : val) (t : type_id) : Prop := forall P s w, rep P (d_heap s) w v t ->
  method D items (KK n) (cobj emp t) "write" (pos [dwriter; w]) s = DDone dnull (add_out (dwire false v t) s).
Lemma add_out_app b c s : add_out c (add_out b s) = add_out (b ++ c) s.
Proof. unfold add_out. destruct s. cbn. now rewrite app_assoc. Qed.
Lemma add_out_nil s : add_out [] s = s.
Proof. unfold add_out. destruct s. cbn. now rewrite app_nil_r. Qed.

Lemma write_item n emp th v t e en s P u : dtyped v t = true -> (Wire.prim_name t = None -> writes (S n) emp v t) ->
  DartSem.lookup "writer" en = Some dwriter -> pure D items (KK (S n)) th en s e u -> rep P (d_heap s) u v t ->
  DartSem.ev_st D items (KK (S n)) th (wst emp t e) en s = DDone en (add_out (dwire false v t) s).
Proof.
  intros T W LW PF R.
  destruct (Wire.prim_name t) as [id|] eqn:P'.
  - destruct (dtyped_prim v t T) as (p & z & -> & Z); [congruence|].
    destruct (prim_ok_facts t z Z) as (A1 & B & C & _ & E & _). cbn [DartWire.rep] in R. subst u.
    assert (Q : wst emp t e = DExpr (call (var "writer") ("write" ++ DartTree.prim_name t) [e]))
      by (unfold wst, write_emplace_st, write_st; rewrite A1; now destruct emp).
    rewrite Q. eapply ev_expr. rewrite (ev_call_var D items (KK (S n)) th "writer" _ _ en dwriter [dart_prim U t z] s LW).
    + unfold method, writer_method. rewrite B, (prim_of_app "write" _ C). cbn [pos map]. rewrite E. reflexivity.
    + constructor; [exact PF|constructor].
  - pose proof (dtyped_known v t T P') as KN. pose proof (not_prim t P') as NP.
    assert (F2 : Forall2 (pure D items (KK (S n)) th en s) [var "writer"; e] [dwriter; u])
      by (constructor; [now apply ev_var|constructor; [exact PF|constructor]]).
    unfold wst, write_emplace_st, write_st. destruct emp; rewrite NP; eapply ev_expr.
    + rewrite (ev_emplace_call n th t "write" _ en _ s KN F2). apply (W eq_refl P s u R).
    + rewrite (ev_into_call n th t "write" _ en _ s KN F2). apply (W eq_refl P s u R).
Qed.
Lemma write_field n emp th v t f en s P a c cfs u : dtyped v t = true -> (Wire.prim_name t = None -> writes (S n) emp v t) ->
  DartSem.lookup "writer" en = Some dwriter -> DartSem.lookup "model" en = Some (dref a) ->
  nth_error (d_heap s) a = Some (CObj c cfs) -> DartSem.lookup f cfs = Some u -> rep P (d_heap s) u v t ->
  DartSem.ev_st D items (KK (S n)) th (wst emp t (DartTree.field (var "model") f)) en s = DDone en (add_out (dwire false v t) s).
Proof.
  intros T W LW LM A LU R. pose proof (rep_not_late _ _ _ _ _ _ _ R) as NL.
  eapply write_item; try eassumption. eapply ev_field; eassumption.
Qed.
Lemma write_fields n emp th (vs : list val) (ss : list slot) :
  Forall2 (fun v p => dtyped v (snd p) = true /\ (Wire.prim_name (snd p) = None -> writes (S n) emp v (snd p))) vs ss ->
  forall en s P a c cfs, DartSem.lookup "writer" en = Some dwriter -> DartSem.lookup "model" en = Some (dref a) ->
  nth_error (d_heap s) a = Some (CObj c cfs) ->
  all2P (fun v p => exists u, DartSem.lookup (fst p) cfs = Some u /\ rep P (d_heap s) u v (snd p)) vs ss ->
  run (S n) th (map (fun p => wst emp (snd p) (DartTree.field (var "model") (fst p))) ss) en s = DDone en (add_out (wires vs ss) s).
Proof.
  induction 1 as [|v [x t] vs ss [T W] F IH]; intros en s P a c cfs LW LM A R.
  - cbn [map]. unfold wires. cbn [cat2]. now rewrite add_out_nil.
  - cbn [all2P fst snd] in R. destruct R as [(u & LU & R) R2]. cbn [map fst snd].
    erewrite run_first; [|eapply write_field; eassumption].
    rewrite (IH en (add_out (dwire false v t) s) P a c cfs LW LM A R2). rewrite add_out_app. reflexivity.
Qed.
Definition struct_write (emp : bool) (st : struct_node) : dmember := if emp then struct_emplace_write st else struct_into_write st.
Lemma struct_write_body emp st : struct_write emp st = write_meth (sn_id st) (map (fun p => wst emp (snd p) (DartTree.field (var "model") (fst p))) (map field_slot (sn_fields st))).
Proof. rewrite map_map. now destruct emp. Qed.
Lemma write_struct n emp c st r sk vs s P a cc cfs : find_class c items = Some (codec_members c r (struct_write emp st) sk) ->
  (exists t ps b, r = MMeth false t "read" ps b) ->
  Forall2 (fun v p => dtyped v (snd p) = true /\ (Wire.prim_name (snd p) = None -> writes (S n) emp v (snd p))) vs (map field_slot (sn_fields st)) ->
  nth_error (d_heap s) a = Some (CObj cc cfs) ->
  all2P (fun v p => exists u, DartSem.lookup (fst p) cfs = Some u /\ rep P (d_heap s) u v (snd p)) vs (map field_slot (sn_fields st)) ->
  method D items (KK (S (S n))) (dobj c [] []) "write" (pos [dwriter; dref a]) s = DDone dnull (add_out (wires vs (map field_slot (sn_fields st))) s).
Proof.
  intros FC (rt & rps & rb & ->) F A R. rewrite struct_write_body in FC.
  rewrite (codec_call (S n) c _ _ _ "write" [writer_param; model_param (sn_id st)] (BBlock (map (fun p => wst emp (snd p) (DartTree.field (var "model") (fst p))) (map field_slot (sn_fields st))))
     [dwriter; dref a] [("writer", dwriter); ("model", dref a)] s FC eq_refl eq_refl).
  eapply body_done. eapply write_fields; try eassumption; reflexivity.
Qed.
Lemma write_empty n emp c st r sk s w : find_class c items = Some (codec_members c r (struct_write emp st) sk) ->
  (exists t ps b, r = MMeth false t "read" ps b) -> sn_fields st = [] ->
  method D items (KK (S n)) (dobj c [] []) "write" (pos [dwriter; w]) s = DDone dnull s.
Proof.
  intros FC (rt & rps & rb & ->) Z. rewrite struct_write_body, Z in FC.
  rewrite (codec_call n c _ _ _ "write" [writer_param; model_param (sn_id st)] (BBlock [])
     [dwriter; w] [("writer", dwriter); ("model", w)] s FC eq_refl eq_refl). reflexivity.
Qed.
Lemma struct_codec m st emp : decl_of m ds = Some (DStruct st) -> exists c r sk, cobj emp (TyOther m) = dobj c [] [] /\
  find_class c items = Some (codec_members c r (struct_write emp st) sk) /\ exists t ps b, r = MMeth false t "read" ps b.
Proof.
  intros E. destruct (struct_conditions m st E) as (NS & _). apply String.eqb_neq in NS. destruct emp; cbn [cobj emplace_obj into_obj DartTree.is_string generate_class_prefix]; rewrite ?NS.
  - eexists _, _, _. split; [reflexivity|]. split; [apply (struct_emplace m st E)|]. eexists _, _, _. reflexivity.
  - eexists _, _, _. split; [reflexivity|]. split; [apply (struct_into m st E)|]. eexists _, _, _. reflexivity.
Qed.
Lemma writes_struct n emp m st fs : decl_of m ds = Some (DStruct st) ->
  Forall2 (fun v p => dtyped v (snd p) = true /\ (Wire.prim_name (snd p) = None -> writes (S n) emp v (snd p))) (map snd fs) (map field_slot (sn_fields st)) ->
  writes (S (S n)) emp (vrec m fs) (TyOther m).
Proof.
  intros E F P s w R. destruct (struct_codec m st emp E) as (c & r & sk & -> & FC & RM). rewrite (record_wires m st fs E).
  cbn [DartWire.rep] in R. pose proof (Forall2_len _ _ _ F) as LEN. rewrite !map_length in LEN. destruct fs as [|f0 fs].
  - subst w. assert (Z : sn_fields st = []) by (destruct (sn_fields st); [reflexivity|discriminate LEN]).
    rewrite (write_empty _ _ _ _ _ _ _ _ FC RM Z). rewrite Z. unfold wires. cbn [map cat2]. now rewrite add_out_nil.
  - destruct R as (a & cfs & -> & _ & A & R). eapply write_struct; try eassumption.
    rewrite (struct_slots _ st E) in R. apply (all2P_map (@snd string val)). eapply all2P_imp; [|exact R]. intros [x v] p _ H. exact H.
Qed.
Lemma enum_codec m e emp : decl_of m ds = Some (Wire.DEnum e) -> exists c r, cobj emp (TyOther m) = dobj c [] [] /\
  find_class c items = Some (codec_members c r (enum_write_meth e) (enum_skip_meth e)) /\ exists t ps b, r = MMeth false t "read" ps b.
Proof.
  intros E. destruct (enum_conditions m e E) as (NS & _). apply String.eqb_neq in NS. destruct emp; cbn [cobj emplace_obj into_obj DartTree.is_string generate_class_prefix]; rewrite ?NS.
  - eexists _, _. split; [reflexivity|]. split; [apply (enum_emplace m e E)|]. eexists _, _, _. reflexivity.
  - eexists _, _. split; [reflexivity|]. split; [apply (enum_into m e E)|]. eexists _, _, _. reflexivity.
Qed.
Lemma writes_enum n emp m e i vs v : decl_of m ds = Some (Wire.DEnum e) -> item_of (item_name i) e = Some i -> enum_value v m i vs -> has_default i ->
  Forall2 (fun v p => dtyped v (snd p) = true /\ (Wire.prim_name (snd p) = None -> writes (S n) true v (snd p))) vs (item_slots i) ->
  writes (S (S (S n))) emp v (TyOther m).
Proof.
  intros E IO V HD F P s w R. apply find_item_in in IO as IO'. destruct IO' as [I _].
  destruct (enum_codec m e emp E) as (c & r & -> & FC & rt & rps & rb & ->). pose proof (codec_members_this _ _ _ _ _ _ _ _ _ _ _ _ _ FC eq_refl eq_refl eq_refl) as TH.
  rewrite (enum_wire v m e i vs V E IO). apply (enum_rep v m e i vs _ _ _ V E IO HD) in R as (a & cfs & -> & _ & A & LV & u & LU & RI).
  destruct (enum_conditions m e E) as (_ & _ & AV & _ & NN & _). apply NoDup_cons_iff in NN as [_ NN].
  set (en := [("writer", dwriter); ("model", dref a)]).
  rewrite (codec_call (S (S n)) c _ _ _ "write" [writer_param; model_param (en_id e)] _ [dwriter; dref a] en s FC eq_refl eq_refl).
  rewrite (enum_id m e E).
  assert (NV : DartSem.lookup (m ++ "Value") en = None) by (apply lookup_local; [cbn; tauto|exact AV]).
  pose proof (item_emplace m e i E I) as IC. cbv zeta in IC. pose proof (item_struct_slots e i) as SL.
  set (th := Some (dobj c [] [], c)) in *.
  set (s1 := add_out (rd_put D "Int32" (Z.of_N (item_pos i))) s).
  assert (CW : DartSem.ev D items (KK (S (S n))) th (call (item_codec m i) "write" [var "writer"; model_item i]) en s1 =
               DDone dnull (add_out (wires vs (item_slots i)) s1)).
  { unfold item_codec, const0. change (item_id i) with (item_name i).
    rewrite (ev_call_const D items (KK (S (S n))) th (m ++ item_name i ++ "EmplaceToBuffers") [] [] false "write" _ en (dobj (m ++ item_name i ++ "EmplaceToBuffers") [] []) [dwriter; u] s1).
    - destruct RI as [[Z ->]|(NZ & b & gfs & -> & _ & B & Q)].
      + rewrite (write_empty (S n) true _ (item_struct e i) _ _ s1 _ IC).
        * rewrite Z. destruct vs; unfold wires; cbn [cat2]; now rewrite add_out_nil.
        * eexists _, _, _. reflexivity.
        * rewrite Z in SL. destruct (sn_fields (item_struct e i)); [reflexivity|discriminate SL].
      + rewrite <- SL in *. eapply (write_struct n true); try eassumption. eexists _, _, _. reflexivity.
    - eapply ev_const_class, IC.
    - constructor; [now apply ev_var|]. constructor; [|constructor]. unfold model_item. change (item_id i) with (item_name i).
      eapply ev_field; try eassumption; [reflexivity|]. destruct RI as [[_ ->]|(_ & b & gfs & -> & _)]; discriminate. }
  assert (ST : run (S (S n)) th [DExpr (call (var "writer") "writeInt32" [DartTree.tag i]); DExpr (call (item_codec m i) "write" [var "writer"; model_item i]); DReturn None] en s =
     DReturned dnull (add_out (rd_put D "Int32" (Z.of_N (item_pos i)) ++ wires vs (item_slots i)) s)).
  { erewrite run_expr; [|rewrite (ev_call_var D items (KK (S (S n))) th "writer" _ _ en dwriter [dint (Z.of_N (item_pos i))] s eq_refl);
      [unfold method, writer_method; change (prim_of "write" "writeInt32") with (Some "Int32"); reflexivity|
       constructor; [now apply ev_num|constructor]]].
    fold (add_out (rd_put D "Int32" (Z.of_N (item_pos i))) s). fold s1. erewrite run_expr; [|exact CW]. unfold s1. rewrite add_out_app. reflexivity. }
  eapply body_returned. rewrite dchain_cons. unfold dbind.
  rewrite (switch_member D items (KK (S (S n))) th m (m ++ "Value")
    (fun i => [DExpr (call (var "writer") "writeInt32" [DartTree.tag i]); DExpr (call (item_codec m i) "write" [var "writer"; model_item i]); DReturn None])
    (en_items e) i en s (DartTree.field (var "model") "value")).
  - rewrite ST. reflexivity.
  - eapply ev_field; try eassumption; [reflexivity|discriminate].
  - intros j J. now apply (ev_enum_value (KK (S (S n))) th m e j en s).
  - exact I.
  - exact NN.
Qed.
Lemma writes_ext n emp m x t : dtyped (vext m x) t = true -> writes n emp (vext m x) t.
Proof.
  intros T P s w R. apply dtyped_ext in T as (ts & X & _). destruct (ext_facts t m ts X) as (TY & IO & EO & ST & SM).
  destruct (outside_not m (proj1 X)) as (_ & NE & _). cbn [DartWire.rep DartWire.dwire] in *. rewrite ST, TY in *.
  assert (G : into_method D m ts "write" (pos [dwriter; w]) s = DDone dnull (add_out (rd_ext_put D (DTy m ts) x) s)).
  { unfold into_method. rewrite NE. cbn [pos map String.eqb Ascii.eqb Bool.eqb]. destruct (DartTree.is_string t).
    - subst w. now rewrite (SM eq_refl).
    - destruct R as (a & -> & _ & A). unfold dbind, get_cell. rewrite A, String.eqb_refl. reflexivity. }
  assert (GI : method D items (KK n) (into_obj t) "write" (pos [dwriter; w]) s = DDone dnull (add_out (rd_ext_put D (DTy m ts) x) s)).
  { rewrite IO, codec_name_method by (try apply X; now left). exact G. }
  destruct emp; [|exact GI]. cbn [cobj]. destruct (DartTree.is_string t) eqn:STR.
  - assert (Q : emplace_obj t = into_obj t); [|now rewrite Q].
    destruct t as [id k sg|id k|id|id|id l|id]; try discriminate STR. cbn [emplace_obj]. now rewrite STR.
  - destruct (EO eq_refl) as [-> _]. rewrite codec_name_method by (try apply X; cbn; tauto). cbn [String.eqb Ascii.eqb Bool.eqb].
    unfold emplace_method. exact G.
Qed.
Definition writes_elem (n : nat) (v : val) (t : type_id) : Prop := forall P s w, rep P (d_heap s) w v t ->
  method D items (KK n) (elem_obj t) "write" (pos [dwriter; w]) s = DDone dnull (add_out (dwire true v t) s).
Lemma elem_writes n v t : dtyped v t = true -> element_type ds classes t = true -> (Wire.prim_name t = None -> writes n false v t) -> writes_elem n v t.
Proof.
  intros T E W P s w R. destruct (Wire.prim_name t) as [id|] eqn:PN.
  - assert (P' : Wire.prim_name t <> None) by congruence. destruct (dtyped_prim v t T P') as (p & z & -> & Z).
    destruct (prim_ok_facts t z Z) as (_ & _ & _ & _ & _ & _ & A & B & _ & C & _). cbn [DartWire.rep] in R. subst w.
    rewrite (elem_codec_method _ t "write" _ P'), A. unfold into_method. rewrite (dart_elements_in _ B). cbn [pos map String.eqb Ascii.eqb Bool.eqb].
    rewrite C. reflexivity.
  - rewrite (dwire_elem v t PN T). rewrite <- (W eq_refl P s w R). cbn [cobj].
    destruct t as [id' k sg|id' k|id'|id'|id' l|id']; try discriminate PN; [discriminate E|reflexivity].
Qed.
Lemma write_elems n t P vs : Forall (fun v => writes_elem n v t) vs -> forall s ws, all2P (fun v u => rep P (d_heap s) u v t) vs ws -> exists os,
  dmapM (fun v => k_method (KK (S n)) (elem_obj t) "write" (pos [dwriter; v])) ws s = DDone os (add_out (flat_map (fun v => dwire true v t) vs) s).
Proof.
  induction 1 as [|v vs W F IH]; intros s ws R; (destruct ws as [|w ws]; try contradiction R).
  - exists []. cbn [flat_map]. now rewrite add_out_nil.
  - destruct R as [R1 R2]. destruct (IH (add_out (dwire true v t) s) ws R2) as (os & E). exists (dnull :: os).
    rewrite dmapM_cons, (dbind_done _ _ s dnull _ (W P s w R1)), (dbind_done _ _ _ os _ E), add_out_app. reflexivity.
Qed.
Lemma writes_list n emp k l a : Forall (fun v => writes_elem n v a) l -> writes (S n) emp (vbox "Vec" k l) (TyGeneric "Vec" [a]).
Proof.
  intros F P s w R. cbn [DartWire.rep] in R. destruct R as (b & ws & -> & _ & B & R).
  destruct (write_elems n a P l F (add_out (rd_len_put D (List.length l)) s) ws R) as (os & E).
  assert (LEN : List.length ws = List.length l) by (symmetry; eapply all2P_length, R).
  assert (G : forall b', list_method D (KK (S n)) b' (elem_obj a) "write" (pos [dwriter; dref b]) s =
    DDone dnull (add_out (rd_len_put D (List.length l) ++ flat_map (fun v => dwire true v a) l) s)).
  { intros b'. unfold list_method. cbn [pos map] in E. cbn [pos map String.eqb Ascii.eqb Bool.eqb negb andb]. unfold dbind at 1, get_cell. rewrite B.
    unfold dbind at 1, demit. fold (add_out (rd_len_put D (List.length ws)) s). rewrite LEN. unfold dbind. rewrite E, add_out_app. reflexivity. }
  destruct emp; cbn [cobj DartWire.dwire].
  - change (emplace_obj (TyGeneric "Vec" [a])) with (dobj "ListEmplaceToBuffers" [dty_of a] [elem_obj a]). unfold method. rewrite lib_class by (cbn; tauto). apply G.
  - change (into_obj (TyGeneric "Vec" [a])) with (dobj "ListIntoBuffers" [dty_of a] [elem_obj a]). unfold method. rewrite lib_class by (cbn; tauto). apply G.
Qed.
Theorem write_all d : forall v t n emp, dtyped v t = true -> Wire.prim_name t = None -> depth v <= d -> 2 * d + 3 <= n -> writes n emp v t.
Proof.
  induction d as [d IH] using lt_wf_ind. intros v t n emp T P DV LN.
  destruct n as [|[|[|n]]]; try (exfalso; clear - LN; lia).
  destruct (value_cases v t T P) as [(m & x & ->)|[(k & l & a & -> & -> & EA & SL & F)|[(m & st & -> & E)|(m & e & -> & E)]]].
  - now apply writes_ext.
  - apply writes_list. rewrite Forall_forall in F |- *. intros v I. apply elem_writes; [now apply F|exact EA|]. intros PA.
    assert (DD : depth v < depth (vbox "Vec" k l)) by (apply sub_depth; exact I).
    destruct d as [|d]; [exfalso; clear - DD DV; lia|].
    apply (IH d); [clear; lia|now apply F|exact PA|clear - DD DV; lia|clear - LN; lia].
  - destruct (struct_case v m st T E) as (fs & -> & F). eapply writes_struct; [exact E|].
    eapply Forall2_imp_in; [exact F|]. intros v p I T'. split; [exact T'|]. intros P'.
    assert (DD : depth v < depth (vrec m fs)) by (apply sub_depth; exact I).
    destruct d as [|d]; [exfalso; clear - DD DV; lia|].
    apply (IH d); [clear; lia|exact T'|exact P'|clear - DD DV; lia|clear - LN; lia].
  - destruct (enum_case v m e T E) as (i & vs & IO & V & C & -> & F). eapply writes_enum; try eassumption.
    + destruct (creatable_enum cd m e E C) as (cd' & _ & _ & C2).
      rewrite forallb_forall in C2. specialize (C2 i (proj1 (find_item_in _ _ _ IO))). unfold item_creatable in C2. apply andb_true_iff in C2 as [_ H].
      destruct i as [?|? ? [|]|? ? [|]]; try exact Logic.I; try discriminate H; cbn; discriminate.
    + eapply Forall2_imp_in; [exact F|]. intros u p I T'. split; [exact T'|]. intros P'.
      assert (DD : depth u < depth v) by (apply sub_depth; exact I).
      destruct d as [|d]; [exfalso; clear - DD DV; lia|].
      apply (IH d); [clear; lia|exact T'|exact P'|clear - DD DV; lia|clear - LN; lia].
Qed.
(** *** Skipping *)

Notation skippable := (skippable D ds).
Notation plain_type := (plain_type ds).
Definition sst (emp : bool) (t : type_id) : dst := if emp then skip_emplace_st t else skip_st t.
Definition skips (n : nat) (emp : bool) (vs : list val) (t : type_id) : Prop := forall s r, d_rd s = flat_map (fun v => dwire false v t) vs ++ r ->
  method D items (KK n) (cobj emp t) "skip" (pos [dreader; dint (Z.of_nat (List.length vs))]) s = DDone dnull (set_drd r s).
Lemma set_drd_twice a b s : set_drd a (set_drd b s) = set_drd a s.
Proof. now destruct s. Qed.
Lemma set_drd_same b s : d_rd s = b -> set_drd b s = s.
Proof. intros <-. now destruct s. Qed.

Lemma skip_field n emp th v t en s r : dtyped v t = true -> (Wire.prim_name t = None -> skips (S n) emp [v] t) ->
  DartSem.lookup "reader" en = Some dreader -> d_rd s = dwire false v t ++ r ->
  DartSem.ev_st D items (KK (S n)) th (sst emp t) en s = DDone en (set_drd r s).
Proof.
  intros T K L E. destruct (Wire.prim_name t) as [id|] eqn:P.
  - destruct (dtyped_prim v t T) as (p & z & -> & Z); [congruence|]. destruct (prim_ok_facts t z Z) as (A & _).
    assert (Q : sst emp t = DExpr (read_ex t)) by (unfold sst, skip_st, skip_emplace_st; rewrite A; now destruct emp).
    rewrite Q. eapply ev_expr. now apply (ev_read_prim _ th t z).
  - pose proof (dtyped_known v t T P) as KN. pose proof (not_prim t P) as NP.
    assert (F2 : Forall2 (pure D items (KK (S n)) th en s) [var "reader"; DNum "1"] [dreader; dint 1])
      by (constructor; [now apply ev_var|constructor; [reflexivity|constructor]]).
    assert (W : d_rd s = flat_map (fun v => dwire false v t) [v] ++ r) by (cbn [flat_map]; now rewrite app_nil_r).
    unfold sst, skip_st, skip_emplace_st. destruct emp; rewrite NP; eapply ev_expr.
    + rewrite (ev_emplace_call n th t "skip" _ en _ s KN F2). apply (K eq_refl s r W).
    + rewrite (ev_into_call n th t "skip" _ en _ s KN F2). apply (K eq_refl s r W).
Qed.
Definition skip_ok (n : nat) (emp : bool) (v : val) (p : slot) : Prop :=
  dtyped v (snd p) = true /\ (Wire.prim_name (snd p) = None -> skips (S n) emp [v] (snd p)).
Lemma skip_fields n emp th (vs : list val) (ss : list slot) : Forall2 (skip_ok n emp) vs ss -> forall en s r,
  DartSem.lookup "reader" en = Some dreader -> d_rd s = wires vs ss ++ r ->
  run (S n) th (map (fun p => sst emp (snd p)) ss) en s = DDone en (set_drd r s).
Proof.
  induction 1 as [|v p vs ss [T K] F IH]; intros en s r L W.
  - unfold wires in W. cbn in W. rewrite <- W. cbn [map]. now destruct s.
  - assert (W1 : d_rd s = dwire false v (snd p) ++ wires vs ss ++ r) by (rewrite app_assoc; exact W). cbn [map].
    erewrite run_first; [|eapply skip_field; eassumption]. now rewrite (IH en (set_drd (wires vs ss ++ r) s) r L eq_refl), set_drd_twice.
Qed.
Lemma skip_rounds n emp th (vss : list (list val)) (ss : list slot) : Forall (fun vs => Forall2 (skip_ok n emp) vs ss) vss -> forall en s r a,
  DartSem.lookup "reader" en = Some dreader -> d_rd s = flat_map (fun vs => wires vs ss) vss ++ r -> exists os,
  dmapM (fun i => run (S n) th (map (fun p => sst emp (snd p)) ss) (("i", dint i) :: en)) (counter (List.length vss) a 1) s = DDone os (set_drd r s).
Proof.
  induction 1 as [|vs vss F FF IH]; intros en s r a L W.
  - cbn in W. exists []. cbn [List.length counter]. rewrite <- W. now destruct s.
  - cbn [flat_map] in W. rewrite <- app_assoc in W.
    destruct (IH en (set_drd (flat_map (fun vs => wires vs ss) vss ++ r) s) r (a + 1)%Z L eq_refl) as (os & E).
    eexists. cbn [List.length counter]. rewrite dmapM_cons.
    rewrite (dbind_done _ _ s _ _ (skip_fields n emp th vs ss F (("i", dint a) :: en) s _ L W)).
    rewrite (dbind_done _ _ _ os _ E), set_drd_twice. reflexivity.
Qed.
Lemma rounds_count k : rounds 0 (Z.of_nat k) 1 = counter k 0 1.
Proof. unfold rounds. f_equal. rewrite Z.div_1_r. clear. lia. Qed.
Lemma loop_done K th body en s k os s' : DartSem.lookup "count" en = Some (dint (Z.of_nat k)) -> DartSem.lookup "i" en = None ->
  dmapM (fun i => dchain (fun s e => DartSem.ev_st D items K th s e) body (("i", dint i) :: en)) (counter k 0 1) s = DDone os s' ->
  DartSem.ev_st D items K th (count_loop body) en s = DDone en s'.
Proof.
  intros C N E. unfold count_loop. cbn [DartSem.ev_st]. rewrite C, N. change (literal "0") with (Some 0%Z). change (literal "1") with (Some 1%Z).
  cbn [Z.ltb Z.compare]. rewrite rounds_count, (dbind_done _ _ s os s' E). reflexivity.
Qed.
Definition users (ss : list slot) : list slot := filter (fun p => user_typed (snd p)) ss.
Definition others (ss : list slot) : list slot := filter (fun p => negb (user_typed (snd p))) ss.
Lemma is_other_user t : DartGen.is_other t = user_typed t.
Proof. now destruct t. Qed.
Lemma skip_body emp st : struct_skip_meth (sst emp) st =
  skip_meth (map (fun p => sst emp (snd p)) (users (map field_slot (sn_fields st))) ++ [count_loop (map (fun p => sst emp (snd p)) (others (map field_slot (sn_fields st))))]).
Proof.
  unfold struct_skip_meth. f_equal. f_equal; [|f_equal; f_equal]; unfold users, others;
    (induction (sn_fields st) as [|f l IH]; [reflexivity|]; cbn [map filter]; rewrite is_other_user; cbn [field_slot snd];
     destruct (user_typed (sf_type f)); cbn [negb map]; now rewrite IH).
Qed.
(** What skipping [k] structs consumes: the user-typed fields once, then [k] times the others. *)
Lemma skip_struct n emp c st r0 wr us qss s r : find_class c items = Some (codec_members c r0 wr (struct_skip_meth (sst emp) st)) ->
  (exists t ps b, r0 = MMeth false t "read" ps b) -> (exists t ps b, wr = MMeth false t "write" ps b) ->
  Forall2 (skip_ok n emp) us (users (map field_slot (sn_fields st))) ->
  Forall (fun qs => Forall2 (skip_ok n emp) qs (others (map field_slot (sn_fields st)))) qss ->
  d_rd s = wires us (users (map field_slot (sn_fields st))) ++ flat_map (fun qs => wires qs (others (map field_slot (sn_fields st)))) qss ++ r ->
  method D items (KK (S (S n))) (dobj c [] []) "skip" (pos [dreader; dint (Z.of_nat (List.length qss))]) s = DDone dnull (set_drd r s).
Proof.
  intros FC (rt & rps & rb & ->) (wt & wps & wb & ->) F1 F2 W. rewrite skip_body in FC.
  set (en := [("reader", dreader); ("count", dint (Z.of_nat (List.length qss)))]).
  rewrite (codec_call (S n) c _ _ _ "skip" [reader_param; (Some (ty0 "int"), "count")] _ [dreader; dint (Z.of_nat (List.length qss))] en s FC eq_refl eq_refl).
  eapply body_done. rewrite dchain_app.
  rewrite (dbind_done _ _ s _ _ (skip_fields n emp _ us _ F1 en s _ eq_refl W)).
  destruct (skip_rounds n emp (Some (dobj c [] [], c)) qss _ F2 en (set_drd (flat_map (fun qs => wires qs (others (map field_slot (sn_fields st)))) qss ++ r) s) r 0%Z eq_refl eq_refl) as (os & E).
  erewrite run_single; [reflexivity|]. rewrite <- (set_drd_twice r (flat_map (fun qs => wires qs (others (map field_slot (sn_fields st)))) qss ++ r) s).
  eapply (loop_done (KK (S n)) _ _ en _ (List.length qss)); [reflexivity|reflexivity|exact E].
Qed.
Lemma plain_split ss : forallb (fun p => negb (user_typed (snd p))) ss = true -> users ss = [] /\ others ss = ss.
Proof.
  unfold users, others. induction ss as [|p ss IH]; intros H; [split; reflexivity|]. cbn [forallb filter] in *. apply andb_true_iff in H as [H1 H2].
  destruct (IH H2) as [E1 E2]. destruct (user_typed (snd p)); [discriminate H1|]. cbn [negb]. now rewrite E1, E2.
Qed.
Lemma user_first_split ss : user_first ss = true -> ss = users ss ++ others ss.
Proof.
  induction ss as [|p ss IH]; intros H; [reflexivity|]. cbn [user_first] in H. unfold users, others. cbn [filter].
  fold (users ss). fold (others ss). destruct (user_typed (snd p)); cbn [negb app]; [f_equal; now apply IH|].
  destruct (plain_split ss H) as [-> ->]. reflexivity.
Qed.
Lemma wires_app us qs ss1 ss2 : List.length us = List.length ss1 -> wires (us ++ qs) (ss1 ++ ss2) = wires us ss1 ++ wires qs ss2.
Proof.
  clear. unfold wires. revert ss1. induction us as [|u us IH]; intros [|p ss1] L; try discriminate L; [reflexivity|].
  cbn [app cat2]. rewrite IH by (cbn in L; congruence). now rewrite app_assoc.
Qed.
Lemma Forall2_app_split {A B} (Q : A -> B -> Prop) l m1 m2 : Forall2 Q l (m1 ++ m2) -> exists l1 l2, l = l1 ++ l2 /\ Forall2 Q l1 m1 /\ Forall2 Q l2 m2.
Proof. intros F. apply Forall2_app_inv_r in F as (l1 & l2 & F1 & F2 & ->). eauto. Qed.

(** One struct whose user-typed fields come first; any number of structs without user-typed fields. *)
Lemma skip_struct_once n emp c st r0 wr vs s r : find_class c items = Some (codec_members c r0 wr (struct_skip_meth (sst emp) st)) ->
  (exists t ps b, r0 = MMeth false t "read" ps b) -> (exists t ps b, wr = MMeth false t "write" ps b) ->
  user_first (map field_slot (sn_fields st)) = true -> Forall2 (skip_ok n emp) vs (map field_slot (sn_fields st)) ->
  d_rd s = wires vs (map field_slot (sn_fields st)) ++ r ->
  method D items (KK (S (S n))) (dobj c [] []) "skip" (pos [dreader; dint 1]) s = DDone dnull (set_drd r s).
Proof.
  intros FC R0 WR UF F W. apply user_first_split in UF. rewrite UF in F, W. apply Forall2_app_split in F as (us & qs & -> & F1 & F2).
  rewrite wires_app in W by (now apply Forall2_len in F1). rewrite <- app_assoc in W.
  apply (skip_struct n emp c st r0 wr us [qs] s r FC R0 WR F1).
  - constructor; [exact F2|constructor].
  - cbn [flat_map]. now rewrite app_nil_r.
Qed.
Lemma skip_struct_plain n emp c st r0 wr vss s r : find_class c items = Some (codec_members c r0 wr (struct_skip_meth (sst emp) st)) ->
  (exists t ps b, r0 = MMeth false t "read" ps b) -> (exists t ps b, wr = MMeth false t "write" ps b) ->
  forallb (fun p => negb (user_typed (snd p))) (map field_slot (sn_fields st)) = true ->
  Forall (fun vs => Forall2 (skip_ok n emp) vs (map field_slot (sn_fields st))) vss ->
  d_rd s = flat_map (fun vs => wires vs (map field_slot (sn_fields st))) vss ++ r ->
  method D items (KK (S (S n))) (dobj c [] []) "skip" (pos [dreader; dint (Z.of_nat (List.length vss))]) s = DDone dnull (set_drd r s).
Proof.
  intros FC R0 WR PL F W. apply plain_split in PL as [PU PO].
  apply (skip_struct n emp c st r0 wr [] vss s r FC R0 WR); rewrite ?PU, ?PO; [constructor|exact F|exact W].
Qed.
Lemma struct_skip_codec m st emp : decl_of m ds = Some (DStruct st) -> exists c r wr, cobj emp (TyOther m) = dobj c [] [] /\
  find_class c items = Some (codec_members c r wr (struct_skip_meth (sst emp) st)) /\ (exists t ps b, r = MMeth false t "read" ps b) /\ exists t ps b, wr = MMeth false t "write" ps b.
Proof.
  intros E. destruct (struct_conditions m st E) as (NS & _). apply String.eqb_neq in NS. destruct emp; cbn [cobj emplace_obj into_obj DartTree.is_string generate_class_prefix]; rewrite ?NS.
  - eexists _, _, _. split; [reflexivity|]. split; [apply (struct_emplace m st E)|]. split; eexists _, _, _; reflexivity.
  - eexists _, _, _. split; [reflexivity|]. split; [apply (struct_into m st E)|]. split; eexists _, _, _; reflexivity.
Qed.
Lemma skips_struct n emp m st fss : decl_of m ds = Some (DStruct st) ->
  (List.length fss = 1 /\ user_first (map field_slot (sn_fields st)) = true) \/ forallb (fun p => negb (user_typed (snd p))) (map field_slot (sn_fields st)) = true ->
  Forall (fun fs => Forall2 (skip_ok n emp) (map snd fs) (map field_slot (sn_fields st))) fss ->
  skips (S (S n)) emp (map (vrec m) fss) (TyOther m).
Proof.
  intros E H F s r W. destruct (struct_skip_codec m st emp E) as (c & r0 & wr & -> & FC & R0 & WR).
  assert (X : flat_map (fun v => dwire false v (TyOther m)) (map (vrec m) fss) = flat_map (fun vs => wires vs (map field_slot (sn_fields st))) (map (map snd) fss)).
  { clear W F H. induction fss as [|fs fss IH]; [reflexivity|]. cbn [map flat_map]. now rewrite (record_wires m st fs E), IH. }
  rewrite X in W. rewrite map_length, <- (map_length (map (@snd string val))). destruct H as [[H1 H2]|H].
  - destruct fss as [|fs [|]]; try discriminate H1. inversion F as [|? ? F1 _]; subst. cbn [map flat_map] in W. rewrite app_nil_r in W.
    now apply (skip_struct_once n emp c st r0 wr (map snd fs)).
  - apply (skip_struct_plain n emp c st r0 wr); try assumption. rewrite Forall_forall in *. intros vs I. apply in_map_iff in I as (fs & <- & I). now apply F.
Qed.
(** Enums. *)
Lemma skip_case n th m e i vs en s r : decl_of m ds = Some (Wire.DEnum e) -> In i (en_items e) -> codec_this th ->
  user_first (item_slots i) = true -> Forall2 (skip_ok n true) vs (item_slots i) -> DartSem.lookup "reader" en = Some dreader ->
  d_rd s = wires vs (item_slots i) ++ r ->
  run (S (S n)) th [DExpr (call (item_codec m i) "skip" [var "reader"; DNum "1"]); DBreak] en s = DBreaks (set_drd r s).
Proof.
  intros E I TH UF F L W. pose proof (item_emplace m e i E I) as IC. cbv zeta in IC. pose proof (item_struct_slots e i) as SL.
  erewrite run_expr.
  2: { unfold item_codec, const0. change (item_id i) with (item_name i).
    rewrite (ev_call_const D items (KK (S (S n))) th (m ++ item_name i ++ "EmplaceToBuffers") [] [] false "skip" _ en (dobj (m ++ item_name i ++ "EmplaceToBuffers") [] []) [dreader; dint 1] s).
    - rewrite <- SL in UF, F, W. apply (skip_struct_once n true _ (item_struct e i) _ _ vs s r IC); try assumption; eexists _, _, _; reflexivity.
    - eapply ev_const_class, IC.
    - constructor; [now apply ev_var|]. constructor; [reflexivity|constructor]. }
  reflexivity.
Qed.
Definition enum_skip_ok (n : nat) (m : string) (e : enum_node) (v : val) : Prop := exists i vs,
  item_of (item_name i) e = Some i /\ enum_value v m i vs /\ user_first (item_slots i) = true /\ Forall2 (skip_ok n true) vs (item_slots i).
Definition enum_skip_body (m : string) (e : enum_node) : list dst :=
  [ read_tag;
    DSwitch (var "value")
      (map (fun i => (Some (DartTree.tag i), [ DExpr (call (item_codec m i) "skip" [var "reader"; DNum "1"]); DBreak ])) (en_items e) ++ [unsupported]) ].
Lemma skip_enum_round n th m e v en s r : decl_of m ds = Some (Wire.DEnum e) -> codec_this th -> enum_skip_ok n m e v ->
  DartSem.lookup "reader" en = Some dreader -> DartSem.lookup "value" en = None -> d_rd s = dwire false v (TyOther m) ++ r -> exists en',
  run (S (S n)) th (enum_skip_body m e) en s = DDone en' (set_drd r s).
Proof.
  intros E TH (i & vs & IO & V & UF & F) L NV W. apply find_item_in in IO as IO'. destruct IO' as [I _].
  destruct (enum_conditions m e E) as (_ & _ & _ & NP & _). destruct (item_conditions m e i E I) as (_ & _ & PB).
  rewrite (enum_wire v m e i vs V E IO), <- app_assoc in W. set (s1 := set_drd (wires vs (item_slots i) ++ r) s).
  set (en1 := ("value", dint (Z.of_N (item_pos i))) :: en). exists en1. unfold enum_skip_body, read_tag.
  rewrite (run_final D items (KK (S (S n))) th "value" _ _ en s (dint (Z.of_N (item_pos i))) s1 NV).
  2: { apply read_tag_done; [exact PB|exact L|exact W]. }
  rewrite dchain_cons. unfold dbind.
  rewrite (switch_tag D items (KK (S (S n))) th (fun i => [DExpr (call (item_codec m i) "skip" [var "reader"; DNum "1"]); DBreak])
    (en_items e) [unsupported] i (("value", dint (Z.of_N (item_pos i))) :: en) s1 (Z.of_N (item_pos i)) eq_refl eq_refl I NP).
  rewrite (skip_case n th m e i vs (("value", dint (Z.of_N (item_pos i))) :: en) s1 r E I TH UF F L eq_refl).
  cbn [case_end]. unfold s1. rewrite set_drd_twice. reflexivity.
Qed.
Lemma skips_enum n emp m e vs : decl_of m ds = Some (Wire.DEnum e) -> Forall (enum_skip_ok n m e) vs -> skips (S (S (S n))) emp vs (TyOther m).
Proof.
  intros E F s r W. destruct (enum_codec m e emp E) as (c & r0 & -> & FC & rt & rps & rb & ->).
  pose proof (codec_members_this _ _ _ _ _ _ _ _ _ _ _ _ _ FC eq_refl eq_refl eq_refl) as TH.
  set (en := [("reader", dreader); ("count", dint (Z.of_nat (List.length vs)))]).
  set (th := Some (dobj c [] [], c)) in *.
  rewrite (codec_call (S (S n)) c _ _ _ "skip" [reader_param; (Some (ty0 "int"), "count")] (BBlock [count_loop (enum_skip_body (en_id e) e)])
     [dreader; dint (Z.of_nat (List.length vs))] en s FC eq_refl eq_refl).
  eapply body_done. rewrite (enum_id m e E).
  assert (L : DartSem.lookup "reader" en = Some dreader) by reflexivity.
  assert (NV : DartSem.lookup "value" en = None) by reflexivity.
  assert (X : forall a s, d_rd s = flat_map (fun v => dwire false v (TyOther m)) vs ++ r -> exists os,
    dmapM (fun i => run (S (S n)) th (enum_skip_body m e) (("i", dint i) :: en)) (counter (List.length vs) a 1) s = DDone os (set_drd r s)).
  { clear FC W s. clearbody en. induction F as [|v vs O F IH]; intros a s W.
    - cbn in W. exists []. cbn [List.length counter]. rewrite <- W. now destruct s.
    - cbn [flat_map] in W. rewrite <- app_assoc in W.
      destruct (skip_enum_round n th m e v (("i", dint a) :: en) s _ E TH O L NV W) as (en' & E1).
      destruct (IH (a + 1)%Z (set_drd (flat_map (fun v => dwire false v (TyOther m)) vs ++ r) s) eq_refl) as (os & E2).
      eexists. cbn [List.length counter]. rewrite dmapM_cons, (dbind_done _ _ s _ _ E1), (dbind_done _ _ _ os _ E2), set_drd_twice. reflexivity. }
  destruct (X 0%Z s W) as (os & EX). erewrite run_single; [reflexivity|].
  eapply (loop_done (KK (S (S n))) _ _ en _ (List.length vs)); [reflexivity|reflexivity|exact EX].
Qed.
(** Values of the libraries and lists. *)
Lemma dtimes_take {A} (f : bytes -> option (A * bytes)) (w : val -> bytes) vs :
  Forall (fun v => exists a, forall r, f (w v ++ r) = Some (a, r)) vs -> forall s r, d_rd s = flat_map w vs ++ r ->
  dtimes (List.length vs) (dd _ <- take f; dret RustSem.ok) s = DDone RustSem.ok (set_drd r s).
Proof.
  induction 1 as [|v vs (a & G) F IH]; intros s r W.
  - cbn in W. cbn [List.length dtimes]. rewrite <- W. now destruct s.
  - cbn [flat_map] in W. rewrite <- app_assoc in W. cbn [List.length dtimes].
    rewrite (dbind_done _ _ s RustSem.ok (set_drd (flat_map w vs ++ r) s)).
    + rewrite (IH (set_drd (flat_map w vs ++ r) s) r eq_refl). now rewrite set_drd_twice.
    + rewrite (dbind_done _ _ s a (set_drd (flat_map w vs ++ r) s)); [reflexivity|]. unfold take. now rewrite W, G.
Qed.
Lemma skips_ext n emp vs t m ts : ext_type t m ts -> Forall (fun v => dtyped v t = true /\ exists m x, v = vext m x) vs -> skips n emp vs t.
Proof.
  intros X F s r W. destruct (ext_facts t m ts X) as (TY & IO & EO & _ & _).
  destruct (outside_not m (proj1 X)) as (_ & NEL & _).
  assert (G : into_method D m ts "skip" (pos [dreader; dint (Z.of_nat (List.length vs))]) s = DDone dnull (set_drd r s)).
  { unfold into_method. rewrite NEL. cbn [pos map String.eqb Ascii.eqb Bool.eqb]. rewrite Nat2Z.id.
    rewrite (dbind_done _ _ s RustSem.ok (set_drd r s)); [reflexivity|]. eapply dtimes_take; [|exact W].
    eapply Forall_impl; [|exact F]. intros v (T & m' & x & ->). exists x. intros r'. apply dtyped_ext in T as (ts' & X' & SU).
    cbn [DartWire.dwire]. rewrite <- TY. now apply (dlaw_ext D U law). }
  assert (GI : method D items (KK n) (into_obj t) "skip" (pos [dreader; dint (Z.of_nat (List.length vs))]) s = DDone dnull (set_drd r s)).
  { rewrite IO, codec_name_method by (try apply X; now left). exact G. }
  destruct emp; [|exact GI]. cbn [cobj]. destruct (DartTree.is_string t) eqn:STR.
  - assert (Q : emplace_obj t = into_obj t); [|now rewrite Q].
    destruct t as [id k sg|id k|id|id|id l|id]; try discriminate STR. cbn [emplace_obj]. now rewrite STR.
  - destruct (EO eq_refl) as [-> _]. rewrite codec_name_method by (try apply X; cbn; tauto). cbn [String.eqb Ascii.eqb Bool.eqb].
    unfold emplace_method. exact G.
Qed.
Definition skips_elem (n : nat) (vs : list val) (t : type_id) : Prop := forall s r, d_rd s = flat_map (fun v => dwire true v t) vs ++ r ->
  method D items (KK n) (elem_obj t) "skip" (pos [dreader; dint (Z.of_nat (List.length vs))]) s = DDone dnull (set_drd r s).
Lemma elem_skips n vs t : Forall (fun v => dtyped v t = true) vs -> element_type ds classes t = true -> (Wire.prim_name t = None -> skips n false vs t) -> skips_elem n vs t.
Proof.
  intros T E K s r W. destruct (Wire.prim_name t) as [id|] eqn:PN.
  - assert (P' : Wire.prim_name t <> None) by congruence.
    rewrite (elem_codec_method _ t "skip" _ P'). unfold into_method.
    assert (B : existsb (String.eqb (generate_class_prefix t)) dart_elements = true /\ generate_class_prefix t = element_codec t)
      by (destruct t; try discriminate PN; split; reflexivity). destruct B as [-> B].
    cbn [pos map String.eqb Ascii.eqb Bool.eqb]. rewrite Nat2Z.id. rewrite (dbind_done _ _ s RustSem.ok (set_drd r s)); [reflexivity|].
    eapply dtimes_take; [|exact W]. eapply Forall_impl; [|exact T]. intros v Tv. destruct (dtyped_prim v t Tv P') as (p & z & -> & Z).
    destruct (prim_ok_facts t z Z) as (_ & _ & _ & _ & _ & _ & _ & _ & _ & _ & G). exists (dart_num U t z). intros r'. rewrite B. apply G.
  - replace (elem_obj t) with (cobj false t).
    + apply (K eq_refl). rewrite W. f_equal. clear - T PN. induction T as [|v vs T F IH]; [reflexivity|]. cbn [flat_map]. now rewrite (dwire_elem v t PN T), IH.
    + destruct t as [id' k sg|id' k|id'|id'|id' l|id']; try discriminate PN; [discriminate E|reflexivity].
Qed.
Definition list_skip_ok (n : nat) (a : type_id) (v : val) : Prop := exists k l, v = vbox "Vec" k l /\ su_len U (List.length l) = true /\
  (if rd_bulk D then skips_elem n l a else Forall (fun v => skips_elem n [v] a) l).
Lemma skips_list n emp vs a : Forall (list_skip_ok n a) vs -> skips (S n) emp vs (TyGeneric "Vec" [a]).
Proof.
  intros F s r W.
  assert (G : forall b', list_method D (KK (S n)) b' (elem_obj a) "skip" (pos [dreader; dint (Z.of_nat (List.length vs))]) s = DDone dnull (set_drd r s)).
  { intros b'. unfold list_method. cbn [pos map String.eqb Ascii.eqb Bool.eqb negb andb]. rewrite Nat2Z.id.
    rewrite (dbind_done _ _ s RustSem.ok (set_drd r s)); [reflexivity|]. revert s W.
    induction F as [|v vs (k & l & -> & SL & O) F IH]; intros s W.
    - cbn in W. cbn [List.length dtimes]. rewrite <- W. now destruct s.
    - cbn [flat_map DartWire.dwire] in W. rewrite <- !app_assoc in W. cbn [List.length dtimes].
      set (rest := flat_map (fun v => dwire false v (TyGeneric "Vec" [a])) vs ++ r) in *.
      rewrite (dbind_done _ _ s RustSem.ok (set_drd rest s)).
      + rewrite (IH (set_drd rest s) eq_refl). now rewrite set_drd_twice.
      + rewrite (dbind_done _ _ s (List.length l) (set_drd (flat_map (fun v => dwire true v a) l ++ rest) s)) by (unfold take; now rewrite W, (dlaw_len D U law _ _ SL)).
        destruct (rd_bulk D).
        * rewrite (dbind_done _ _ _ dnull (set_drd rest s)); [reflexivity|].
          change (k_method (KK (S n))) with (method D items (KK n)). cbn [map pos] in O. 
          pose proof (O (set_drd (flat_map (fun v => dwire true v a) l ++ rest) s) rest eq_refl) as Q. now rewrite set_drd_twice in Q.
        * clear W IH. clearbody rest. clear SL. induction O as [|v l O1 O IHl].
          -- cbn [flat_map app List.length dtimes]. now destruct s.
          -- cbn [flat_map List.length dtimes]. rewrite <- app_assoc.
             rewrite (dbind_done _ _ _ RustSem.ok (set_drd (flat_map (fun v => dwire true v a) l ++ rest) s)); [exact IHl|].
             change (k_method (KK (S n))) with (method D items (KK n)).
             pose proof (O1 (set_drd (dwire true v a ++ flat_map (fun v => dwire true v a) l ++ rest) s) (flat_map (fun v => dwire true v a) l ++ rest)) as Q.
             cbn [flat_map] in Q. rewrite app_nil_r in Q. specialize (Q eq_refl). rewrite set_drd_twice in Q. rewrite (dbind_done _ _ _ dnull _ Q). reflexivity. }
  destruct emp; cbn [cobj].
  - change (emplace_obj (TyGeneric "Vec" [a])) with (dobj "ListEmplaceToBuffers" [dty_of a] [elem_obj a]). unfold method. rewrite lib_class by (cbn; tauto). apply G.
  - change (into_obj (TyGeneric "Vec" [a])) with (dobj "ListIntoBuffers" [dty_of a] [elem_obj a]). unfold method. rewrite lib_class by (cbn; tauto). apply G.
Qed.

(** *** Skipping all values *)

Lemma slots_skip (vs : list val) (ss : list slot) : all2 (fun v p => skippable v (snd p)) vs ss = true -> Forall2 (fun v p => dtyped v (snd p) = true) vs ss ->
  Forall2 (fun v p => dtyped v (snd p) = true /\ skippable v (snd p) = true) vs ss.
Proof.
  intros A F. revert A. induction F as [|v p vs ss T F IH]; intros A; constructor; cbn [all2] in A; apply andb_true_iff in A as [A1 A2]; auto.
Qed.
Lemma fields_skip (fs : list (string * val)) (ss : list slot) : all2 (fun '(_, v) p => skippable v (snd p)) fs ss = true -> all2 (fun v p => skippable v (snd p)) (map snd fs) ss = true.
Proof.
  revert ss. induction fs as [|[x v] fs IH]; intros [|p ss] A; try exact A. cbn [all2 map snd] in *. apply andb_true_iff in A as [A1 A2].
  rewrite A1. cbn [andb]. now apply IH.
Qed.
Lemma known_cases t : known t ->
  (exists m ts, ext_type t m ts) \/ (exists a, t = TyGeneric "Vec" [a] /\ element_type ds classes a = true) \/
  (exists m st, t = TyOther m /\ decl_of m ds = Some (DStruct st)) \/ (exists m e, t = TyOther m /\ decl_of m ds = Some (Wire.DEnum e)).
Proof.
  intros K. destruct t as [id k sg|id k|id|id|id l|id]; try contradiction K; cbn [known] in K.
  - unfold vec_element in K. destruct l as [|a [|b l]].
    + left. exists id, []. split; [now apply opaque_not in K|]. right. exists []. auto.
    + destruct (String.eqb_spec id "Vec") as [->|N].
      * right. left. exists a. auto.
      * left. exists id, [dty_of a]. split; [now apply opaque_not in K|]. right. exists [a]. auto.
    + left. exists id, (map dty_of (a :: b :: l)). split; [now apply opaque_not in K|]. right. exists (a :: b :: l). auto.
  - destruct K as [K|K].
    + right. right. apply declared_some in K as [[x|x] E]; eauto.
    + left. exists id, []. split; [exact K|]. now left.
Qed.
Lemma ext_value v t m ts : dtyped v t = true -> ext_type t m ts -> exists n x, v = vext n x.
Proof.
  intros T X. assert (P : Wire.prim_name t = None) by (destruct X as [_ [[-> _]|(l & -> & _)]]; reflexivity).
  destruct (value_cases v t T P) as [H|[(k & l & a & -> & -> & _)|[(m' & st & -> & E)|(m' & e & -> & E)]]]; [assumption| | |];
    destruct X as [O [[Q _]|(l' & Q & OP & _)]]; try discriminate Q; injection Q as Q; subst.
  - now apply opaque_not in OP as (OP & _).
  - apply outside_not in O as (_ & _ & O). congruence.
  - apply outside_not in O as (_ & _ & O). congruence.
Qed.
Lemma element_known a : element_type ds classes a = true -> Wire.prim_name a = None -> known a.
Proof.
  intros E P. destruct a as [id k sg|id k|id|id|id l|id]; try discriminate P; [discriminate E|]. cbn [known]. now apply orb_true_iff.
Qed.

Theorem skip_all d : forall vs t n emp, known t -> Forall (fun v => dtyped v t = true /\ skippable v t = true /\ depth v <= d) vs ->
  List.length vs = 1 \/ plain_type t = true -> 2 * d + 3 <= n -> skips n emp vs t.
Proof.
  induction d as [d IH] using lt_wf_ind. intros vs t n emp K F C LN.
  destruct n as [|[|[|n]]]; try (exfalso; clear - LN; lia).
  destruct (known_cases t K) as [(m & ts & X)|[(a & -> & EA)|[(m & st & -> & E)|(m & e & -> & E)]]].
  - apply (skips_ext _ emp vs t m ts X). eapply Forall_impl; [|exact F]. intros v (T & _). split; [exact T|]. now apply (ext_value v t m ts).
  - apply skips_list. eapply Forall_impl; [|exact F]. intros v (T & SK & DV).
    destruct (value_cases v _ T eq_refl) as [(n' & x & ->)|[(k & l & a' & -> & Q & _ & SL & FT)|[(m' & st & Q & _)|(m' & e & Q & _)]]]; try discriminate Q.
    { exfalso. cbn [DartWire.dtyped] in T. rewrite !andb_true_iff in T. destruct T as [[_ T] _]. now apply opaque_not in T as (T & _). }
    injection Q as <-. exists k, l. split; [reflexivity|]. split; [exact SL|]. cbn [DartWire.skippable] in SK. apply andb_true_iff in SK as [B SK].
    rewrite forallb_forall in SK. rewrite Forall_forall in FT.
    assert (SUB : forall vs', incl vs' l -> List.length vs' = 1 \/ plain_type a = true -> skips_elem (S (S n)) vs' a).
    { intros vs' I C'. apply elem_skips; [rewrite Forall_forall; intros v J; apply FT, I, J|exact EA|]. intros PA.
      destruct d as [|d]; [exfalso; cbn [depth] in DV; clear - DV; lia|].
      apply (IH d); [clear; lia|now apply element_known| |exact C'|clear - LN; lia].
      rewrite Forall_forall. intros v J. split; [apply FT, I, J|]. split; [apply SK, I, J|].
      assert (DD : depth v < depth (vbox "Vec" k l)) by (apply sub_depth; apply I, J). clear - DD DV. lia. }
    destruct (rd_bulk D).
    + apply SUB; [apply incl_refl|]. cbn [negb orb] in B. apply orb_true_iff in B. destruct B as [B|B]; [left; now apply Nat.eqb_eq|now right].
    + rewrite Forall_forall. intros v J. apply SUB; [|now left]. intros u [<-|[]]. exact J.
  - assert (G : exists fss, vs = map (vrec m) fss /\ Forall (fun fs => Forall2 (skip_ok (S n) emp) (map snd fs) (map field_slot (sn_fields st))) fss /\
      Forall (fun fs => user_first (map field_slot (sn_fields st)) = true) fss).
    { clear C. induction F as [|v vs (T & SK & DV) F IHF]; [exists []; repeat constructor|].
      destruct IHF as (fss & -> & G1 & G2). destruct (struct_case v m st T E) as (fs & -> & FT). exists (fs :: fss). split; [reflexivity|].
      cbn [DartWire.skippable] in SK. rewrite (struct_slots m st E) in SK. apply andb_true_iff in SK as [UF SK]. apply fields_skip in SK.
      split; constructor; try assumption. pose proof (slots_skip _ _ SK FT) as H. eapply Forall2_imp_in; [exact H|].
      intros v p I [T' S']. split; [exact T'|]. intros P'.
      assert (DD : depth v < depth (vrec m fs)) by (apply sub_depth; exact I).
      destruct d as [|d]; [exfalso; clear - DD DV; lia|].
      apply (IH d); [clear; lia|now apply (dtyped_known v)| |now left|clear - LN; lia].
      constructor; [|constructor]. split; [exact T'|]. split; [exact S'|]. clear - DD DV. lia. }
    destruct G as (fss & -> & G1 & G2). apply (skips_struct (S n) emp m st fss E); [|exact G1].
    destruct C as [C|C].
    + left. rewrite map_length in C. split; [exact C|]. destruct fss; [discriminate C|]. now inversion G2.
    + right. cbn [DartWire.plain_type] in C. now rewrite (struct_slots m st E) in C.
  - apply (skips_enum n emp m e vs E). eapply Forall_impl; [|exact F]. intros v (T & SK & DV).
    destruct (enum_case v m e T E) as (i & vs' & IO & V & _ & -> & FT). exists i, (parts v). split; [exact IO|]. split; [exact V|].
    assert (H : user_first (item_slots i) = true /\ all2 (fun v p => skippable v (snd p)) (parts v) (item_slots i) = true).
    { pose proof (enum_items_of m e i E IO) as SL.
      destruct v as [| | | |e' c|e' c l|e' c fs| | | | | | | | | | | | | | | | | | |]; try contradiction V; destruct i as [p nm|p nm ts|p nm gs]; try contradiction V;
        destruct V as (-> & -> & _); cbn [parts item_name] in *.
      - split; reflexivity.
      - cbn [DartWire.skippable] in SK. rewrite SL in SK. now apply andb_true_iff in SK.
      - cbn [DartWire.skippable] in SK. rewrite SL in SK. apply andb_true_iff in SK as [H1 H2]. split; [exact H1|now apply fields_skip]. }
    destruct H as [UF SS]. split; [exact UF|]. pose proof (slots_skip _ _ SS FT) as H. eapply Forall2_imp_in; [exact H|].
    intros u p I [T' S']. split; [exact T'|]. intros P'.
    assert (DD : depth u < depth v) by (apply sub_depth; exact I).
    destruct d as [|d]; [exfalso; clear - DD DV; lia|].
    apply (IH d); [clear; lia|now apply (dtyped_known u)| |now left|clear - LN; lia].
    constructor; [|constructor]. split; [exact T'|]. split; [exact S'|]. clear - DD DV. lia.
Qed.

(** *** Unknown tags *)

Lemma read_any_tag K th en s r z : dart_range "Int32" z = true -> DartSem.lookup "reader" en = Some dreader -> d_rd s = rd_put D "Int32" z ++ r ->
  DartSem.ev D items K th (call (var "reader") "readInt32" []) en s = DDone (dint z) (set_drd r s).
Proof.
  intros P L R. rewrite (ev_call_var D items K th "reader" _ [] en dreader [] s L (Forall2_nil _)).
  unfold method, reader_method. change (prim_of "read" "readInt32") with (Some "Int32"). cbn [pos map]. unfold dbind, take.
  now rewrite R, (dlaw_prim D U law).
Qed.
Lemma run_throws K th en s : codec_this th -> DartSem.lookup "StateError" en = None ->
  dchain (fun s e => DartSem.ev_st D items K th s e) (snd unsupported) en s = DThrows "StateError".
Proof.
  intros TH L. unfold unsupported. cbn [snd]. rewrite dchain_cons. cbn [DartSem.ev_st]. unfold dbind at 1 2.
  assert (LS : ~ In "StateError" classes) by (apply libs; cbn; tauto).
  erewrite ev_new; [|apply codec_name; [exact TH|exact L|reflexivity|now apply find_const_none]|reflexivity].
  unfold call_name. rewrite (has_class_none _ LS).
  assert (M : find_meth false "StateError" (own_members items th) = None).
  { unfold own_members. destruct th as [[v c]|]; [|reflexivity]. destruct TH as (_ & ms & -> & _ & H). apply H. cbn. intuition discriminate. }
  rewrite M. reflexivity.
Qed.
Lemma unknown_tag K th m e (body : enum_item -> list dst) en s r z : decl_of m ds = Some (Wire.DEnum e) -> codec_this th ->
  dart_range "Int32" z = true -> ~ In z (map (fun i => Z.of_N (item_pos i)) (en_items e)) ->
  DartSem.lookup "reader" en = Some dreader -> DartSem.lookup "value" en = None -> DartSem.lookup "StateError" en = None ->
  d_rd s = rd_put D "Int32" z ++ r ->
  dchain (fun s e => DartSem.ev_st D items K th s e) [read_tag; DSwitch (var "value") (map (fun i => (Some (DartTree.tag i), body i)) (en_items e) ++ [unsupported])] en s = DThrows "StateError".
Proof.
  intros E TH P NI L NV NS W. unfold read_tag. rewrite (run_final D items K th "value" _ _ en s (dint z) (set_drd r s) NV).
  2: { now apply read_any_tag. }
  rewrite dchain_cons. unfold dbind. rewrite (switch_unknown D items K th body (en_items e) (("value", dint z) :: en) (set_drd r s) z eq_refl NI).
  rewrite run_throws; [reflexivity|exact TH|exact NS].
Qed.
Lemma body_throws K th l en s x : dchain (fun s e => DartSem.ev_st D items K th s e) l en s = DThrows x -> ev_body D items K th (BBlock l) en s = DThrows x.
Proof. intros E. cbn [ev_body]. unfold dbody_of, dbind. now rewrite E. Qed.
Theorem unknown_tags n m e s r z : decl_of m ds = Some (Wire.DEnum e) ->
  dart_range "Int32" z = true -> ~ In z (map (fun i => Z.of_N (item_pos i)) (en_items e)) -> d_rd s = rd_put D "Int32" z ++ r ->
  method D items (KK (S n)) (into_obj (TyOther m)) "read" (pos [dreader]) s = DThrows "StateError" /\
  (forall w, method D items (KK (S n)) (emplace_obj (TyOther m)) "read" (pos [dreader; w]) s = DThrows "StateError") /\
  (forall emp k, method D items (KK (S n)) (cobj emp (TyOther m)) "skip" (pos [dreader; dint (Z.of_nat (S k))]) s = DThrows "StateError").
Proof.
  intros E P NI W. destruct (enum_conditions m e E) as (NS & _). apply String.eqb_neq in NS.
  pose proof (enum_into m e E) as FI. pose proof (enum_emplace m e E) as FE.
  pose proof (codec_members_this _ _ _ _ _ _ _ _ _ _ _ _ _ FI eq_refl eq_refl eq_refl) as TI.
  pose proof (codec_members_this _ _ _ _ _ _ _ _ _ _ _ _ _ FE eq_refl eq_refl eq_refl) as TE.
  split; [|split].
  - cbn [into_obj generate_class_prefix]. rewrite (codec_call n _ _ _ _ "read" [reader_param] _ [dreader] [("reader", dreader)] s FI eq_refl eq_refl).
    apply body_throws. eapply unknown_tag; try eassumption; reflexivity.
  - intros w. cbn [emplace_obj DartTree.is_string generate_class_prefix]. rewrite NS.
    rewrite (codec_call n _ _ _ _ "read" [reader_param; model_param (en_id e)] _ [dreader; w] [("reader", dreader); ("model", w)] s FE eq_refl eq_refl).
    apply body_throws. eapply unknown_tag; try eassumption; reflexivity.
  - intros emp k. destruct (enum_codec m e emp E) as (c & r0 & -> & FC & rt & rps & rb & ->).
    pose proof (codec_members_this _ _ _ _ _ _ _ _ _ _ _ _ _ FC eq_refl eq_refl eq_refl) as TH.
    set (en := [("reader", dreader); ("count", dint (Z.of_nat (S k)))]).
    rewrite (codec_call n c _ _ _ "skip" [reader_param; (Some (ty0 "int"), "count")] (BBlock [count_loop (enum_skip_body (en_id e) e)])
      [dreader; dint (Z.of_nat (S k))] en s FC eq_refl eq_refl).
    apply body_throws. rewrite dchain_cons. unfold count_loop. cbn [DartSem.ev_st].
    change (DartSem.lookup "i" en) with (@None dval). change (DartSem.lookup "count" en) with (Some (dint (Z.of_nat (S k)))).
    change (literal "0") with (Some 0%Z). change (literal "1") with (Some 1%Z). cbn [Z.ltb Z.compare]. rewrite rounds_count. cbn [counter].
    rewrite dmapM_cons. unfold dbind. unfold enum_skip_body at 1. rewrite (unknown_tag (KK n) _ m e _ _ s r z E TH P NI); try reflexivity. exact W.
Qed.
End File.
