(** Lemmas behind the theorems of PropertiesGenMore.v. *)

(** Property theorems about generated text: C41 (element types in Dart), C27 and C28 (constants).  After each theorem,
    a concrete case that meets its hypotheses, and its axioms. *)
Require Import Coq.Strings.String Coq.Strings.Ascii.
Require Import Coq.NArith.NArith Coq.ZArith.ZArith Coq.QArith.QArith Coq.QArith.Qabs Coq.QArith.Qpower.
Require Import Coq.Lists.List Coq.Bool.Bool Coq.Classes.Morphisms Coq.Setoids.Setoid.
Require Import Coq.micromega.Lia Coq.micromega.Lqa Coq.micromega.ZifyBool Coq.micromega.ZifyN Coq.micromega.ZifyNat.
Require Import Verif.Base Verif.F64 Verif.F64Spec Verif.F64Proofs Verif.NumText Verif.Ast Verif.Lexer Verif.LexSpec Verif.LexProofs Verif.LexMore Verif.LexFacts
  Verif.Parser Verif.Grammar Verif.GrammarMore Verif.ParseProofs Verif.Printer Verif.PrintProofs Verif.TextPrinter Verif.Names
  Verif.ParseFacts Verif.Writer Verif.CaseConv Verif.RunFacts Verif.GenFacts.
Require Import Verif.RustSyntax Verif.RustPrint Verif.CodeLex Verif.RustTree Verif.RustLexed Verif.RustLexedConst Verif.RustFile Verif.RustWf.
Require Verif.RustGen Verif.DartGen Verif.SwiftGen Verif.KotlinGen.
Import ListNotations.
Local Open Scope string_scope.

(** ** C41: element types in Dart *)
(** Forgetting the width and sign of every integer type and the width of every floating point type inside
    generic arguments; types that are not generic stay as they are. *)
Fixpoint forget (t : type_id) : type_id :=
  match t with
  | TyInteger _ _ _ | TyChar _ => TyInteger "" 0 true
  | TyNumber _ _ => TyNumber "" 0
  | TyBool _ => TyBool ""
  | TyOther n => TyOther n
  | TyGeneric n l => TyGeneric n (map forget l)
  end.

Definition forget_arguments (t : type_id) : type_id :=
  match t with TyGeneric n l => TyGeneric n (map forget l) | _ => t end.

Section Retype.

Variable g : type_id -> type_id.

Definition retype_field (f : struct_field) := mk_struct_field (sf_position f) (sf_name f) (g (sf_type f)).

Definition retype_tuple (f : tuple_field) := mk_tuple_field (tf_position f) (g (tf_type f)).

Definition retype_item (i : enum_item) : enum_item :=
    match i with
    | ItemEmpty p n => ItemEmpty p n
    | ItemTuple p n l => ItemTuple p n (map retype_tuple l)
    | ItemStruct p n l => ItemStruct p n (map retype_field l)
    end.

Fixpoint retype_const (c : const_node) : const_node :=
    match c with ConstNode id l => ConstNode id (map retype_const_item l) end
  with retype_const_item (i : const_item) : const_item :=
    match i with
    | ConstItemValue id t v => ConstItemValue id (g t) v
    | ConstItemNode c => ConstItemNode (retype_const c)
    end.

Definition retype_struct (s : struct_node) := mk_struct (sn_id s) (map retype_field (sn_fields s)) (sn_emplace s) (sn_into s).

Definition retype_enum (e : enum_node) := mk_enum (en_id e) (map retype_item (en_items e)).

Definition retype_fn (f : fn_node) :=
    mk_fn (fn_id f) (fn_position f) (map (fun a => mk_fn_arg (fa_id a) (g (fa_type a))) (fn_args f)) (option_map g (fn_return f)) (fn_is_read f) (fn_is_async f).

Definition retype_decl (n : ast_node) : ast_node :=
    match n with
    | NStruct s => NStruct (retype_struct s)
    | NEnum e => NEnum (retype_enum e)
    | NFn f => NFn (retype_fn f)
    | NDirective d => NDirective d
    | NConst c => NConst (retype_const c)
    end.

End Retype.

(** Two schemas that are the same except for widths inside generic arguments. *)
Definition same_but_element_widths (a b : list ast_node) : Prop :=
  map (retype_decl forget_arguments) a = map (retype_decl forget_arguments) b.

Lemma forget_type_id t : DartGen.generate_type_id (forget t) = DartGen.generate_type_id t.
Proof.
  induction t as [t L|n l IH] using type_ind2; [destruct t; try reflexivity; contradiction|].
  cbn.
  do 3 f_equal.
  rewrite map_map.
  f_equal.
  apply map_ext_in.
  exact IH.
Qed.

Lemma forget_prefix t : DartGen.generate_class_prefix (forget t) = DartGen.generate_class_prefix t.
Proof.
  now destruct t.
Qed.

Lemma forget_args l : DartGen.generic_args (map forget l) = DartGen.generic_args l.
Proof.
  unfold DartGen.generic_args.
  f_equal.
  rewrite map_map.
  apply map_ext.
  apply forget_type_id.
Qed.

Lemma forget_element n l : DartGen.vec_element n (map forget l) = option_map forget (DartGen.vec_element n l).
Proof.
  destruct l as [|x [|y l]]; try reflexivity.
  cbn.
  now destruct (String.eqb n "Vec").
Qed.

Section Same.

Let g := forget_arguments.

Ltac generic := intros t; destruct t as [n s k|n s|n|n|n l|n]; try reflexivity; cbn; rewrite ?forget_element;
    destruct (DartGen.vec_element n l); cbn; rewrite ?forget_type_id, ?forget_prefix, ?forget_args; reflexivity.

Lemma same_type_id t : DartGen.generate_type_id (g t) = DartGen.generate_type_id t.
Proof.
  destruct t; try reflexivity.
  apply (forget_type_id (TyGeneric _ _)).
Qed.

Lemma same_option o : DartGen.generate_option_type_id (option_map g o) = DartGen.generate_option_type_id o.
Proof.
  destruct o; [apply same_type_id|reflexivity].
Qed.

Lemma same_default t : DartGen.generate_default_const (g t) = DartGen.generate_default_const t.
Proof.
  destruct t; try reflexivity.
  cbn.
  now rewrite forget_args.
Qed.

Lemma same_read : forall t, DartGen.generate_read (g t) = DartGen.generate_read t.
Proof.
  generic.
Qed.

Lemma same_write a : forall t, DartGen.generate_write (g t) a = DartGen.generate_write t a.
Proof.
  generic.
Qed.

Lemma same_read_emplace a : forall t, DartGen.generate_read_emplace (g t) a = DartGen.generate_read_emplace t a.
Proof.
  generic.
Qed.

Lemma same_write_emplace a : forall t, DartGen.generate_write_emplace (g t) a = DartGen.generate_write_emplace t a.
Proof.
  generic.
Qed.

Lemma same_skip : forall t, DartGen.generate_read_skip (g t) = DartGen.generate_read_skip t.
Proof.
  generic.
Qed.

Lemma same_skip_emplace : forall t, DartGen.generate_read_skip_emplace (g t) = DartGen.generate_read_skip_emplace t.
Proof.
  generic.
Qed.

Lemma same_other t : DartGen.is_other (g t) = DartGen.is_other t.
Proof.
  now destruct t.
Qed.

Lemma same_const_type t : DartGen.const_type (g t) = DartGen.const_type t.
Proof.
  destruct t; try reflexivity.
  apply (same_type_id (TyGeneric _ _)).
Qed.

Lemma flat_map_map {A B C} (h : A -> B) (f : B -> list C) l : flat_map f (map h l) = flat_map (fun x => f (h x)) l.
Proof.
  induction l as [|x l IH]; [reflexivity|].
  cbn.
  now rewrite IH.
Qed.

Lemma mapM_map {A B C} (h : A -> B) (f : B -> res C) l : mapM f (map h l) = mapM (fun x => f (h x)) l.
Proof.
  induction l as [|x l IH]; [reflexivity|].
  cbn.
  now rewrite IH.
Qed.

Lemma rflat_map {A B} (h : A -> B) f l : DartGen.rflat f (map h l) = DartGen.rflat (fun x => f (h x)) l.
Proof.
  unfold DartGen.rflat.
  now rewrite mapM_map.
Qed.

Lemma rflat_ext {A} (f f' : A -> _) l : (forall x, f x = f' x) -> DartGen.rflat f l = DartGen.rflat f' l.
Proof.
  intros H.
  unfold DartGen.rflat.
  replace (mapM f l) with (mapM f' l); [reflexivity|].
  induction l as [|x l IH]; [reflexivity|].
  cbn.
  now rewrite H, IH.
Qed.

Lemma enumerate_map {A B} (h : A -> B) l : enumerate (map h l) = map (fun p => (fst p, h (snd p))) (enumerate l).
Proof.
  unfold enumerate.
  generalize 0%nat.
  induction l as [|x l IH]; intros k; [reflexivity|].
  cbn.
  now rewrite IH.
Qed.

Lemma is_last_map {A B} (h : A -> B) i l : DartGen.is_last i (map h l) = DartGen.is_last i l.
Proof.
  unfold DartGen.is_last.
  now rewrite map_length.
Qed.

Lemma gap_map {A B} (h : A -> B) i l : DartGen.gap_unless_last i (map h l) = DartGen.gap_unless_last i l.
Proof.
  unfold DartGen.gap_unless_last.
  now rewrite is_last_map.
Qed.

Lemma existsb_map {A B} (h : A -> B) f l : existsb f (map h l) = existsb (fun x => f (h x)) l.
Proof.
  induction l as [|x l IH]; [reflexivity|].
  cbn.
  now rewrite IH.
Qed.

Lemma existsb_ext {A} f f' (l : list A) : (forall x, f x = f' x) -> existsb f l = existsb f' l.
Proof.
  intros H.
  induction l as [|x l IH]; [reflexivity|].
  cbn.
  now rewrite H, IH.
Qed.

Instance flat_map_proper {A B} : Proper (pointwise_relation A eq ==> eq ==> eq) (@flat_map A B).

Proof.

intros f f' H l _ <-.

apply flat_map_ext.

exact H.

Qed.

Instance rflat_proper {A} : Proper (pointwise_relation A eq ==> eq ==> eq) (@DartGen.rflat A).

Proof.

intros f f' H l _ <-.

apply rflat_ext.

exact H.

Qed.

Instance existsb_proper {A} : Proper (pointwise_relation A eq ==> eq ==> eq) (@existsb A).

Proof.

intros f f' H l _ <-.

apply existsb_ext.

exact H.

Qed.

Ltac types := repeat (setoid_rewrite same_type_id || setoid_rewrite same_option || setoid_rewrite same_default || setoid_rewrite same_read || setoid_rewrite same_write
    || setoid_rewrite same_read_emplace || setoid_rewrite same_write_emplace || setoid_rewrite same_skip || setoid_rewrite same_skip_emplace || setoid_rewrite same_other || setoid_rewrite same_const_type).

Ltac proj := cbn [fst snd retype_field retype_tuple retype_struct retype_enum retype_fn sf_position sf_name sf_type tf_position tf_type sn_id sn_fields sn_emplace sn_into en_id en_items fn_id fn_position fn_args fn_return fn_is_read fn_is_async fa_id fa_type].

Ltac lists := proj; rewrite ?enumerate_map, ?flat_map_map, ?rflat_map, ?existsb_map; proj;
    repeat (setoid_rewrite is_last_map || setoid_rewrite gap_map).

Ltac sweep := lists; types; reflexivity.

Lemma same_struct_model s d b : DartGen.generate_struct_model (retype_struct g s) d b = DartGen.generate_struct_model s d b.
Proof.
  unfold DartGen.generate_struct_model.
  cbn [retype_struct sn_id sn_fields].
  destruct (sn_fields s) as [|f fs]; [reflexivity|].
  cbn [map].
  cbv iota.
  change (retype_field g f :: map (retype_field g) fs) with (map (retype_field g) (f :: fs)).
  generalize (f :: fs).
  intros l.
  sweep.
Qed.

Lemma same_struct_skip h s : (forall t, h (g t) = h t) -> DartGen.struct_skip h (retype_struct g s) = DartGen.struct_skip h s.
Proof.
  intros H.
  unfold DartGen.struct_skip.
  lists.
  assert (E : forall k, DartGen.rflat (fun x => if DartGen.is_other (g (sf_type x)) then DartGen.rline k (h (g (sf_type x))) else Ok []) (sn_fields s)
      = DartGen.rflat (fun x => if DartGen.is_other (sf_type x) then DartGen.rline k (h (sf_type x)) else Ok []) (sn_fields s))
      by (intros k; apply rflat_ext; intros f; now rewrite H, same_other).
  assert (E' : forall k, DartGen.rflat (fun x => if DartGen.is_other (g (sf_type x)) then Ok [] else DartGen.rline k (h (g (sf_type x)))) (sn_fields s)
      = DartGen.rflat (fun x => if DartGen.is_other (sf_type x) then Ok [] else DartGen.rline k (h (sf_type x))) (sn_fields s))
      by (intros k; apply rflat_ext; intros f; now rewrite H, same_other).
  rewrite E, E', (existsb_ext (fun x => DartGen.is_other (g (sf_type x))) (fun x => DartGen.is_other (sf_type x))) by (intros; apply same_other).
  reflexivity.
Qed.

Lemma same_struct_into s : DartGen.generate_struct_into_buffers (retype_struct g s) = DartGen.generate_struct_into_buffers s.
Proof.
  unfold DartGen.generate_struct_into_buffers.
  replace (DartGen.generate_struct_into_buffers_read (retype_struct g s)) with (DartGen.generate_struct_into_buffers_read s)
      by (symmetry; unfold DartGen.generate_struct_into_buffers_read; sweep).
  replace (DartGen.generate_struct_into_buffers_write (retype_struct g s)) with (DartGen.generate_struct_into_buffers_write s)
      by (symmetry; unfold DartGen.generate_struct_into_buffers_write; sweep).
  unfold DartGen.generate_struct_into_buffers_skip.
  rewrite (same_struct_skip _ _ same_skip).
  reflexivity.
Qed.

Lemma same_struct_emplace s : DartGen.generate_struct_emplace_buffers (retype_struct g s) = DartGen.generate_struct_emplace_buffers s.
Proof.
  unfold DartGen.generate_struct_emplace_buffers.
  replace (DartGen.generate_struct_emplace_buffers_read (retype_struct g s)) with (DartGen.generate_struct_emplace_buffers_read s)
      by (symmetry; unfold DartGen.generate_struct_emplace_buffers_read; sweep).
  replace (DartGen.generate_struct_emplace_buffers_write (retype_struct g s)) with (DartGen.generate_struct_emplace_buffers_write s)
      by (symmetry; unfold DartGen.generate_struct_emplace_buffers_write; sweep).
  unfold DartGen.generate_struct_emplace_buffers_skip.
  rewrite (same_struct_skip _ _ same_skip_emplace).
  reflexivity.
Qed.

Lemma same_struct_buffers s : DartGen.generate_struct_buffers (retype_struct g s) = DartGen.generate_struct_buffers s.
Proof.
  unfold DartGen.generate_struct_buffers.
  rewrite same_struct_emplace, same_struct_into.
  reflexivity.
Qed.

Lemma same_item_id i : item_id (retype_item g i) = item_id i.
Proof.
  now destruct i.
Qed.

Lemma same_item_position i : item_position (retype_item g i) = item_position i.
Proof.
  now destruct i.
Qed.

Lemma same_item_factory e i : DartGen.item_factory (retype_enum g e) (retype_item g i) = DartGen.item_factory e i.
Proof.
  now destruct i.
Qed.

Lemma same_item_struct e i : DartGen.create_enum_item_struct_ast_node (retype_enum g e) (retype_item g i) = retype_struct g (DartGen.create_enum_item_struct_ast_node e i).
Proof.
  destruct i as [p n|p n l|p n l]; try reflexivity.
  cbn.
  unfold retype_struct.
  cbn.
  f_equal.
  rewrite enumerate_map, !map_map.
  reflexivity.
Qed.

Ltac items := repeat (setoid_rewrite same_item_id || setoid_rewrite same_item_position || setoid_rewrite same_item_factory || setoid_rewrite same_item_struct).

Ltac segs := repeat match goal with |- app ?a ?b = app ?a ?c => apply (f_equal (app a)) end.

Lemma same_enum_model e : DartGen.generate_enum_model (retype_enum g e) = DartGen.generate_enum_model e.
Proof.
  unfold DartGen.generate_enum_model.
  destruct e as [id l].
  cbn [retype_enum en_items en_id].
  destruct l as [|i l]; [reflexivity|].
  cbn [map].
  cbv iota.
  change (retype_item g i :: map (retype_item g) l) with (map (retype_item g) (i :: l)).
  rewrite !same_item_id.
  generalize (i :: l).
  clear l.
  intros l.
  change (mk_enum id (map (retype_item g) l)) with (retype_enum g (mk_enum id l)).
  apply f_equal, f_equal.
  lists.
  items.
  segs.
  apply f_equal2; [apply flat_map_ext; intros [k [p n|p n v|p n v]]; cbn [fst snd retype_item]; [reflexivity|sweep|sweep]|].
  segs.
  apply f_equal2; [apply flat_map_ext; intros [k [p n|p n v|p n v]]; cbn [fst snd retype_item]; [reflexivity|sweep|sweep]|].
  segs.
  apply flat_map_ext.
  intros [k j].
  cbn [snd].
  rewrite same_struct_model.
  reflexivity.
Qed.

Lemma same_enum_buffers e : DartGen.generate_enum_buffers (retype_enum g e) = DartGen.generate_enum_buffers e.
Proof.
  unfold DartGen.generate_enum_buffers.
  change (en_items (retype_enum g e)) with (map (retype_item g) (en_items e)).
  lists.
  items.
  setoid_rewrite same_struct_emplace.
  unfold DartGen.generate_enum_into_buffers, DartGen.generate_enum_emplace_buffers, DartGen.enum_into_read, DartGen.enum_emplace_read, DartGen.enum_write, DartGen.enum_skip.
  cbn [retype_enum en_id en_items].
  lists.
  items.
  reflexivity.
Qed.

Lemma same_models l : DartGen.generate_models (map (retype_decl g) l) = DartGen.generate_models l.
Proof.
  unfold DartGen.generate_models.
  lists.
  erewrite rflat_ext; [reflexivity|].
  intros [e|s|f|d|c]; cbn [retype_decl]; rewrite ?same_enum_model, ?same_struct_model; reflexivity.
Qed.

Lemma same_buffers l : DartGen.generate_buffers (map (retype_decl g) l) = DartGen.generate_buffers l.
Proof.
  unfold DartGen.generate_buffers.
  lists.
  erewrite rflat_ext; [reflexivity|].
  intros [e|s|f|d|c]; cbn [retype_decl]; rewrite ?same_enum_buffers, ?same_struct_buffers; reflexivity.
Qed.

Lemma same_const_id c : DartGen.const_id (retype_const g c) = DartGen.const_id c.
Proof.
  now destruct c.
Qed.

Lemma same_const_class : forall c p, DartGen.generate_const_class_impl p (retype_const g c) = DartGen.generate_const_class_impl p c.
Proof.
  fix IH 1.
  intros [id l] p.
  cbn [retype_const DartGen.generate_const_class_impl].
  apply f_equal.
  segs.
  apply f_equal2; [now destruct l|].
  apply f_equal2.
  - rewrite flat_map_map.
  apply flat_map_ext.
  intros [n t v|c]; cbn [retype_const_item DartGen.const_item_ops]; rewrite ?same_const_type, ?same_const_id; reflexivity.
  - segs.
  induction l as [|[n t v|c] l IHl]; [reflexivity|exact IHl|].
  cbn [map retype_const_item].
  rewrite (IH c).
  rewrite IHl.
  reflexivity.
Qed.

Lemma same_consts l : DartGen.generate_consts (map (retype_decl g) l) = DartGen.generate_consts l.
Proof.
  unfold DartGen.generate_consts.
  rewrite !flat_map_map.
  do 2 apply f_equal.
  apply f_equal2; apply flat_map_ext; intros [e|s|f|d|c]; try reflexivity; cbn [retype_decl].
  - unfold DartGen.generate_const_class_decls.
  now rewrite same_const_id.
  - now rewrite same_const_class.
Qed.

Lemma same_contains l : contains_consts_nodes (map (retype_decl g) l) = contains_consts_nodes l.
Proof.
  induction l as [|[e|s|f|d|c] l IH]; try reflexivity; exact IH.
Qed.

Lemma same_fns l : find_fn_nodes (map (retype_decl g) l) = map (retype_fn g) (find_fn_nodes l).
Proof.
  induction l as [|[e|s|f|d|c] l IH]; try reflexivity; try exact IH.
  cbn.
  now rewrite IH.
Qed.

Lemma same_directive l k : find_directive_value (map (retype_decl g) l) k = find_directive_value l k.
Proof.
  induction l as [|[e|s|f|[i v|i v]|c] l IH]; try reflexivity; try exact IH.
  cbn.
  now rewrite IH.
Qed.

Lemma same_group l k k' : find_directive_group_values (map (retype_decl g) l) k k' = find_directive_group_values l k k'.
Proof.
  induction l as [|[e|s|f|[i v|i v]|c] l IH]; try reflexivity; try exact IH.
  cbn.
  now rewrite IH.
Qed.

Lemma same_required l k : DartGen.required_string (map (retype_decl g) l) k = DartGen.required_string l k.
Proof.
  unfold DartGen.required_string.
  now rewrite same_directive.
Qed.

Lemma same_head r f : DartGen.method_head r (retype_fn g f) = DartGen.method_head r f.
Proof.
  unfold DartGen.method_head, DartGen.generate_fn_args.
  cbn [retype_fn fn_args fn_id].
  destruct (fn_args f) as [|a l]; [reflexivity|].
  cbn [map].
  cbv iota.
  rewrite (flat_map_map (fun a => mk_fn_arg (fa_id a) (g (fa_type a))) _ (a :: l)).
  sweep.
Qed.

Lemma same_args f : DartGen.write_args (retype_fn g f) = DartGen.write_args f.
Proof.
  unfold DartGen.write_args.
  sweep.
Qed.

Lemma same_method f : DartGen.generate_method (retype_fn g f) = DartGen.generate_method f.
Proof.
  unfold DartGen.generate_method.
  cbn [retype_fn fn_is_read fn_is_async].
  destruct (fn_is_read f); [|destruct (fn_is_async f)].
  - unfold DartGen.generate_read_rpc_method.
  cbn [retype_fn fn_return].
  destruct (fn_return f) as [t|]; cbn [option_map]; [rewrite same_read|]; reflexivity.
  - unfold DartGen.generate_async_rpc_method, DartGen.generate_async_rpc_connect_method.
  rewrite same_args, same_head.
  cbn [retype_fn fn_return].
  rewrite !same_option.
  destruct (fn_return f) as [t|]; cbn [option_map]; [rewrite same_read|]; reflexivity.
  - unfold DartGen.generate_sync_rpc_method.
  rewrite same_args, same_head.
  cbn [retype_fn fn_return].
  rewrite same_option.
  destruct (fn_return f) as [t|]; cbn [option_map]; [rewrite same_read, same_type_id|]; reflexivity.
Qed.

Lemma same_last f l : fn_position (last (map (retype_fn g) l) (retype_fn g f)) = fn_position (last l f).
Proof.
  induction l as [|a [|b l] IH]; [reflexivity|reflexivity|].
  exact IH.
Qed.

Lemma same_vars f : DartGen.method_vars (retype_fn g f) = DartGen.method_vars f.
Proof.
  unfold DartGen.method_vars.
  cbn [retype_fn fn_return].
  rewrite !same_option.
  reflexivity.
Qed.

Lemma same_getter f : DartGen.method_getter (retype_fn g f) = DartGen.method_getter f.
Proof.
  unfold DartGen.method_getter.
  cbn [retype_fn fn_return].
  rewrite !same_option.
  reflexivity.
Qed.

Lemma same_rpc l : DartGen.generate_rpc (map (retype_decl g) l) = DartGen.generate_rpc l.
Proof.
  unfold DartGen.generate_rpc, DartGen.generate_rpc_methods.
  rewrite !same_required, same_fns.
  destruct (find_fn_nodes l) as [|f fs]; [reflexivity|].
  cbn [map].
  cbv iota.
  change (retype_fn g f :: map (retype_fn g) fs) with (map (retype_fn g) (f :: fs)).
  rewrite same_last.
  unfold DartGen.generate_constructor, DartGen.generate_disconnect.
  rewrite !flat_map_map, !map_length, rflat_map.
  replace (flat_map (fun x => DartGen.method_vars (retype_fn g x)) (f :: fs)) with (flat_map DartGen.method_vars (f :: fs)) by (apply flat_map_ext; intros; now rewrite same_vars).
  replace (flat_map (fun x => DartGen.method_getter (retype_fn g x)) (f :: fs)) with (flat_map DartGen.method_getter (f :: fs)) by (apply flat_map_ext; intros; now rewrite same_getter).
  destruct (DartGen.required_string l "namespace") as [ns| |]; [|reflexivity..].
  destruct (DartGen.required_string l "id") as [id| |]; [|reflexivity..].
  cbn [bind].
  erewrite (rflat_ext (fun x => let* method := DartGen.generate_method (retype_fn g x) in _)); [reflexivity|].
  intros x.
  rewrite same_method.
  reflexivity.
Qed.

Lemma same_dart l m b r : DartGen.dart_generate (map (retype_decl g) l) m b r = DartGen.dart_generate l m b r.
Proof.
  unfold DartGen.dart_generate, DartGen.generate_imports, DartGen.dart_lib_imports.
  rewrite same_group, same_contains, same_consts, same_models, same_buffers, same_rpc, same_fns.
  destruct (find_fn_nodes l); reflexivity.
Qed.

End Same.

Lemma lem_C41_same_file : forall a b models buffers rpc,
  same_but_element_widths a b -> DartGen.dart_generate a models buffers rpc = DartGen.dart_generate b models buffers rpc.
Proof.
  intros a b models buffers rpc.
  intros H.
  rewrite <- (same_dart a), <- (same_dart b).
  now rewrite H.
Qed.

Lemma lem_C41_lists : forall i s k i' s' k' accessor,
  let a := TyGeneric "Vec" [TyInteger i s k] in let b := TyGeneric "Vec" [TyInteger i' s' k'] in
  DartGen.generate_read a = DartGen.generate_read b /\ DartGen.generate_write a accessor = DartGen.generate_write b accessor
  /\ DartGen.generate_read_emplace a accessor = DartGen.generate_read_emplace b accessor /\ DartGen.generate_write_emplace a accessor = DartGen.generate_write_emplace b accessor
  /\ DartGen.generate_read_skip a = DartGen.generate_read_skip b /\ DartGen.generate_read_skip_emplace a = DartGen.generate_read_skip_emplace b
  /\ exists text, DartGen.generate_read a = Ok text.
Proof.
  intros i s k i' s' k' accessor.
  repeat split.
  cbn.
  eauto.
Qed.

Lemma lem_C41_scalars : forall i s k i' s' k',
  In s [1; 4; 8]%nat -> In s' [1; 4; 8]%nat ->
  (DartGen.generate_read (TyInteger i s k) = DartGen.generate_read (TyInteger i' s' k') <-> s = s').
Proof.
  intros i s k i' s' k'.
  intros [<-|[<-|[<-|[]]]] [<-|[<-|[<-|[]]]]; cbn; split; intros H; try reflexivity; try discriminate H.
Qed.

(** ** C28: floating point constants *)
(** A decimal text and the number it stands for: digits, or digits with a point between. *)
Inductive decimal : string -> bool -> Q -> Prop :=
| dc_whole : forall a, all_chars digitb a = true -> a <> "" -> decimal a false (qN (positional 10 a))
| dc_point : forall a b, all_chars digitb a = true -> a <> "" -> all_chars digitb b = true -> b <> "" ->
    decimal (a ++ "." ++ b) true (qN (positional 10 (a ++ b)) / qN (10 ^ N.of_nat (String.length b))).

Lemma show_N_aux_length fuel : forall n acc j, (n < 10 ^ N.of_nat j)%N -> (1 <= j)%nat -> (String.length (show_N_aux fuel n acc) <= j + String.length acc)%nat.
Proof.
  induction fuel as [|fuel IH]; intros n acc j B J; cbn [show_N_aux]; [lia|].
  pose proof (N.div_eucl_spec n 10) as E.
  destruct (N.div_eucl n 10) as [q r].
  destruct q as [|q]; [cbn [String.length]; lia|].
  destruct j as [|[|j]]; [lia|cbn in B; lia|].
  specialize (IH (N.pos q) (String (digit_char r) acc) (S j)).
  cbn [String.length] in IH.
  assert (Q : (N.pos q < 10 ^ N.of_nat (S j))%N) by (rewrite (Nat2N.inj_succ (S j)), N.pow_succ_r' in B; lia).
  specialize (IH Q).
  lia.
Qed.

Lemma show_N_length n j : (n < 10 ^ N.of_nat j)%N -> (1 <= j)%nat -> (String.length (show_N n) <= j)%nat.
Proof.
  intros B J.
  pose proof (show_N_aux_length (S (N.size_nat n)) n "" j B J) as H.
  cbn [String.length] in H.
  unfold show_N.
  lia.
Qed.

Lemma show_N_long n : (1 <= String.length (show_N n))%nat.
Proof.
  pose proof (show_N_nonempty n).
  destruct (show_N n); [congruence|cbn; lia].
Qed.

Lemma frac_of_is m e : (let '(num, den) := frac_of m e in frac_is (value m e) num den).
Proof.
  unfold frac_of.
  destruct (Z.leb_spec 0 e) as [L|L]; split.
  - reflexivity.
  - unfold value.
  rewrite qN_mul, qN_pow2 by assumption.
  change (qN 1) with 1%Q.
  ring.
  - unfold pow2N.
  apply N.neq_0_lt_0, N.pow_nonzero.
  discriminate.
  - unfold value.
  rewrite qN_pow2 by lia.
  transitivity (qN m * (two ^ (- e) * two ^ e))%Q; [ring|].
  rewrite two_neg.
  ring.
Qed.

(** The decimal exponents tried are not negative as long as fewer digits are tried than the integer has. *)
Lemma candidate_exponent x num den n dk : dec_candidate x num den n = Some dk -> snd dk = (floor_log10 num den - Z.of_nat n + 1)%Z.
Proof.
  unfold dec_candidate.
  cbv zeta.
  destruct (if (0 <=? _)%Z then _ else _) as [a b].
  repeat match goal with |- (if ?x then _ else _) = _ -> _ => destruct x end; intros [= <-]; reflexivity.
Qed.

Lemma whole_candidate m e v num den : double m e -> frac_is (value m e) num den -> (value m e == qN v)%Q -> (0 < v)%N ->
  dec_candidate (F64Fin m e) num den (String.length (show_N v)) <> None /\ floor_log10 num den = (Z.of_nat (String.length (show_N v)) - 1)%Z.
Proof.
  intros D F V P.
  destruct F as [DP F].
  assert (E : (num = v * den)%N) by (apply qN_inj; rewrite qN_mul, <- F, V; reflexivity).
  assert (L : floor_log10 num den = (Z.of_nat (String.length (show_N v)) - 1)%Z).
  { unfold floor_log10.
  replace (den <=? num)%N with true by (symmetry; apply N.leb_le; rewrite E; nia).
  rewrite E, N.div_mul by lia.
  reflexivity.
  }
  split; [|exact L].
  unfold dec_candidate.
  rewrite L.
  cbv zeta.
  replace (Z.of_nat (String.length (show_N v)) - 1 - Z.of_nat (String.length (show_N v)) + 1)%Z with 0%Z by lia.
  cbn [Z.leb Z.compare].
  change (pow10N 0) with 1%N.
  rewrite N.mul_1_r.
  rewrite E, N.div_mul, N.mod_mul by lia.
  replace (f64_of_dec v 0) with (F64Fin m e).
  - cbn [f64_eqb].
  rewrite N.eqb_refl, Z.eqb_refl.
  cbn.
  replace (0 <=? den)%N with true by lia.
  discriminate.
  - unfold f64_of_dec.
  cbn [Z.leb Z.compare].
  change (pow10N 0) with 1%N.
  symmetry.
  apply f64_of_ratio_exact; [exact D|].
  split; [reflexivity|].
  rewrite N.mul_1_r, V.
  change (qN 1) with 1%Q.
  ring.
Qed.

Lemma search_exponent x num den t : forall n dk N0, (n <= N0)%nat -> (N0 < n + t)%nat -> dec_candidate x num den N0 <> None -> shortest_dec x num den t n = Some dk ->
  (floor_log10 num den - Z.of_nat N0 + 1 <= snd dk)%Z.
Proof.
  induction t as [|t IH]; intros n dk N0 L U C; cbn [shortest_dec]; [discriminate|].
  destruct (dec_candidate x num den n) as [r|] eqn:E.
  - intros [= <-].
  rewrite (candidate_exponent _ _ _ _ _ E).
  lia.
  - apply IH; [|lia|exact C].
  destruct (Nat.eq_dec n N0) as [->|]; [congruence|lia].
Qed.

Lemma search_found x num den t : forall n N0, (n <= N0)%nat -> (N0 < n + t)%nat -> dec_candidate x num den N0 <> None -> shortest_dec x num den t n <> None.
Proof.
  induction t as [|t IH]; intros n N0 L U C; cbn [shortest_dec]; [lia|].
  destruct (dec_candidate x num den n) as [r|] eqn:E; [discriminate|].
  apply (IH _ N0); [|lia|exact C].
  destruct (Nat.eq_dec n N0) as [->|]; [congruence|lia].
Qed.

Lemma search_exponent_any x num den t : forall n dk, shortest_dec x num den t n = Some dk -> (floor_log10 num den - Z.of_nat (n + t - 1) + 1 <= snd dk)%Z.
Proof.
  induction t as [|t IH]; intros n dk; cbn [shortest_dec]; [discriminate|].
  destruct (dec_candidate x num den n) as [r|] eqn:E.
  - intros [= <-].
  rewrite (candidate_exponent _ _ _ _ _ E).
  lia.
  - intros H.
  specialize (IH _ _ H).
  lia.
Qed.

Lemma strip_exponent fuel : forall d k, (k <= snd (strip_zeros fuel d k))%Z.
Proof.
  induction fuel as [|f IH]; intros d k; cbn; [lia|].
  destruct (d =? 0)%N; [cbn; lia|].
  destruct (d mod 10 =? 0)%N; [|cbn; lia].
  specialize (IH (d / 10)%N (k + 1)%Z).
  lia.
Qed.

(** A whole number is written without a fraction... *)
Lemma whole_exponent m e v : double m e -> (value m e == qN v)%Q -> (0 < v)%N -> (0 <= snd (choose_dec m e))%Z.
Proof.
  intros D V P.
  pose proof (frac_of_is m e) as F.
  unfold choose_dec.
  destruct (frac_of m e) as [num den].
  destruct (whole_candidate m e v num den D F V P) as [C L].
  pose proof (show_N_long v) as LG.
  assert (K : forall dk, shortest_dec (F64Fin m e) num den 17 1 = Some dk -> (0 <= snd dk)%Z).
  { intros dk S.
  destruct (Nat.le_gt_cases (String.length (show_N v)) 17) as [G|G].
  - pose proof (search_exponent _ _ _ 17 1 _ _ LG ltac:(lia) C S).
  lia.
  - pose proof (search_exponent_any _ _ _ _ _ _ S).
  lia.
  }
  destruct (shortest_dec (F64Fin m e) num den 17 1) as [[d k]|] eqn:S.
  - specialize (K _ eq_refl).
  cbn [snd] in K.
  pose proof (strip_exponent 20 d k) as T.
  destruct (strip_zeros 20 d k) as [d' k'].
  cbn [snd] in T.
  destruct (f64_eqb _ _); cbn [snd]; lia.
  - destruct (Z.leb_spec 0 e) as [E|E]; [cbn [snd]; lia|].
  exfalso.
  assert (B : (v < 10 ^ N.of_nat 16)%N).
  { apply N.le_lt_trans with m; [|destruct D as [D _]; eapply N.lt_le_trans; [exact D|]; discriminate].
  apply qN_le.
  rewrite <- V.
  unfold value.
  rewrite <- (Qmult_1_r (qN m)) at 2.
  rewrite !(Qmult_comm (qN m)).
  apply Qmult_le_compat_r; [|apply qN_nonneg].
  apply Qlt_le_weak.
  change 1%Q with (two ^ 0)%Q.
  apply two_smono.
  exact E.
  }
    pose proof (show_N_length v 16 B ltac:(lia)).
  exact (search_found _ _ _ 17 1 _ LG ltac:(lia) C S).
Qed.

(** ... and a number written without a fraction is whole. *)
Lemma small_double v : (0 < v < 2 ^ 53)%N -> exists m e, double m e /\ (value m e == qN v)%Q.
Proof.
  intros [P U].
  set (l := N.log2 v).
  assert (L : (l <= 52)%N) by (assert ((l < 53)%N) by (apply N.log2_lt_pow2; assumption); lia).
  destruct (N.log2_spec v P) as [L1 L2].
  fold l in L1, L2.
  exists (v * 2 ^ (52 - l))%N, (Z.of_N l - 52)%Z.
  split.
  - split; [|split].
  + apply N.lt_le_trans with (2 ^ N.succ l * 2 ^ (52 - l))%N; [apply N.mul_lt_mono_pos_r; [apply N.neq_0_lt_0, N.pow_nonzero; discriminate|assumption]|].
  rewrite <- N.pow_add_r.
  apply N.pow_le_mono_r; [discriminate|lia].
  + lia.
  + left.
  apply N.le_trans with (2 ^ l * 2 ^ (52 - l))%N; [|apply N.mul_le_mono_r; assumption].
  rewrite <- N.pow_add_r.
  apply N.pow_le_mono_r; [discriminate|lia].
  - unfold value.
  rewrite qN_mul, qN_2pow, <- Qmult_assoc, <- two_plus.
  replace (Z.of_N (52 - l) + (Z.of_N l - 52))%Z with 0%Z by lia.
  change (two ^ 0)%Q with 1%Q.
  ring.
Qed.

Lemma near_whole_is_whole m e v : double m e -> nearest (qN v) (F64Fin m e) -> exists w, (value m e == qN w)%Q.
Proof.
  intros D N.
  destruct (Z.leb_spec 0 e) as [E|E].
  - exists (m * pow2N e)%N.
  unfold value.
  now rewrite qN_mul, qN_pow2.
  - destruct (N.eq_dec v 0) as [->|NZ].
  { exists 0%N.
  assert (D0 : double 0 (-1074)) by (split; [reflexivity|split; [lia|now right]]).
  assert (V0 : (value 0 (-1074) == qN 0)%Q) by (unfold value; change (qN 0) with 0%Q; ring).
  inversion N as [m' e' _ _ NR _ EQ|]; subst.
  specialize (NR _ _ D0).
  unfold distance in NR.
  rewrite V0 in NR.
  assert (Z : (Qabs (qN 0 - qN 0) == 0)%Q) by (change (qN 0) with 0%Q; reflexivity).
  rewrite Z in NR.
  apply Qabs_Qle_condition in NR.
  lra.
  }
    destruct (N.lt_ge_cases v (2 ^ 53)) as [S|S].
  + destruct (small_double v ltac:(lia)) as (m' & e' & D' & V').
  exists v.
  assert (N' : nearest (value m' e') (F64Fin m e)).
  { inversion N as [m1 e1 _ L NR T|]; subst.
  assert (DW : forall a b, (distance a b (value m' e') == distance a b (qN v))%Q) by (intros a b; unfold distance; now rewrite V').
  constructor; [exact D|now rewrite V'|intros a b Dab; rewrite !DW; now apply NR|intros a b Dab H; rewrite !DW in H; now apply T].
  }
      apply nearest_exact in N'; [|exact D'].
  injection N' as -> ->.
  exact V'.
  + exfalso.
  assert (D2 : double (2 ^ 52) 1) by (split; [reflexivity|split; [lia|left; apply N.le_refl]]).
  inversion N as [m1 e1 _ L NR T|]; subst.
  specialize (NR _ _ D2).
  unfold distance in NR.
  assert (V2 : (value (2 ^ 52) 1 == qN (2 ^ 53))%Q) by reflexivity.
  rewrite V2 in NR.
  assert (B : (value m e < qN (2 ^ 53))%Q).
  { destruct D as [D _].
  apply qN_lt in D.
  unfold value.
  apply Qle_lt_trans with (qN m); [|exact D].
  rewrite <- (Qmult_1_r (qN m)) at 2.
  rewrite !(Qmult_comm (qN m)).
  apply Qmult_le_compat_r; [|apply qN_nonneg].
  apply Qlt_le_weak.
  change 1%Q with (two ^ 0)%Q.
  apply two_smono.
  exact E.
  }
      apply qN_le in S.
  assert (A1 : (Qabs (value m e - qN v) == qN v - value m e)%Q) by (rewrite Qabs_neg; [ring|lra]).
  assert (A2 : (Qabs (qN (2 ^ 53) - qN v) == qN v - qN (2 ^ 53))%Q) by (rewrite Qabs_neg; [ring|lra]).
  rewrite A1, A2 in NR.
  lra.
Qed.

Lemma dec_nearest d k : (0 <= k)%Z -> nearest (qN (d * pow10N k)) (f64_of_dec d k).
Proof.
  intros K.
  unfold f64_of_dec.
  replace (0 <=? k)%Z with true by lia.
  apply f64_of_ratio_nearest.
  split; [reflexivity|].
  change (qN 1) with 1%Q.
  ring.
Qed.

Lemma parts_nearest a b : nearest (qN (positional 10 (a ++ b)) / qN (10 ^ N.of_nat (String.length b))) (f64_of_dec (positional 10 (a ++ b)) (- Z.of_nat (String.length b))).
Proof.
  unfold f64_of_dec.
  destruct (String.length b) as [|n] eqn:L.
  - cbn [Z.of_nat Z.opp Z.leb Z.compare].
  change (pow10N 0) with 1%N.
  apply f64_of_ratio_nearest.
  split; [reflexivity|].
  rewrite N.mul_1_r.
  change (10 ^ N.of_nat 0)%N with 1%N.
  change (qN 1) with 1%Q.
  field.
  - replace (0 <=? - Z.of_nat (S n))%Z with false by lia.
  rewrite Z.opp_involutive.
  apply f64_of_ratio_nearest.
  unfold pow10N.
  replace (Z.to_N (Z.of_nat (S n))) with (N.of_nat (S n)) by lia.
  apply frac_exists.
  apply N.neq_0_lt_0, N.pow_nonzero.
  discriminate.
Qed.

Lemma nearest_wd r r' x : (r == r')%Q -> nearest r x -> nearest r' x.
Proof.
  intros E [m e D L NR T|L].
  - assert (DW : forall a b, (distance a b r' == distance a b r)%Q) by (intros a b; unfold distance; now rewrite E).
  constructor; [exact D|now rewrite <- E|intros a b Dab; rewrite !DW; now apply NR|intros a b Dab H; rewrite !DW in H; now apply T].
  - constructor.
  now rewrite <- E.
Qed.

(** The text of a double: it has a point exactly if the number is not whole, and the double is the one
    nearest to the number written. *)
Lemma show_f64_decimal m e : double m e -> exists p r, decimal (show_f64 (F64Fin m e)) p r /\ nearest r (F64Fin m e)
  /\ (p = false <-> exists v, (value m e == qN v)%Q).
Proof.
  intros D.
  destruct (N.eqb_spec m 0) as [->|NZ].
  - assert (e = -1074)%Z as -> by (destruct D as (_ & _ & [H|H]); [now destruct H|exact H]).
  exists false, (qN 0).
  split; [apply (dc_whole "0"); [reflexivity|discriminate]|].
  split; [apply (dec_nearest 0 0); lia|].
  split; [|reflexivity].
  intros _.
  exists 0%N.
  unfold value.
  change (qN 0) with 0%Q.
  ring.
  - unfold show_f64.
  replace (m =? 0)%N with false by lia.
  pose proof (choose_dec_good m e D) as G.
  pose proof (whole_exponent m e) as W.
  destruct (choose_dec m e) as [d k].
  unfold good_dec in G.
  cbn [fst snd] in G, W.
  assert (DZ : d <> 0%N) by (intros ->; rewrite f64_of_dec_0 in G; congruence).
  destruct (show_dec_parts d k DZ) as (a & b & (A & AN & B & V) & [(K & -> & ->)|(K & BN & ->)]).
  + exists false, (qN (positional 10 a)).
  split; [now constructor|].
  pose proof (parts_nearest a "") as PN.
  rewrite V, G, app_nil_s in PN.
  assert (PN' : nearest (qN (positional 10 a)) (F64Fin m e)) by (eapply nearest_wd; [|exact PN]; cbn [String.length]; change (10 ^ N.of_nat 0)%N with 1%N; change (qN 1) with 1%Q; field).
  split; [exact PN'|].
  split; [|reflexivity].
  intros _.
  eapply near_whole_is_whole; eauto.
  + exists true, (qN (positional 10 (a ++ b)) / qN (10 ^ N.of_nat (String.length b)))%Q.
  split; [now constructor|].
  pose proof (parts_nearest a b) as PN.
  rewrite V, G in PN.
  split; [exact PN|].
  split; [discriminate|].
  intros [v E].
  exfalso.
  assert (0 < v)%N.
  { apply N.neq_0_lt_0.
  intros ->.
  unfold value in E.
  change (qN 0) with 0%Q in E.
  apply Qmult_integral in E as [E|E]; [apply NZ, qN_inj; exact E|pose proof (two_pos e); lra].
  }
      pose proof (W v D E H).
  lia.
Qed.

Lemma integral_whole m e : double m e -> (f64_is_integral (F64Fin m e) = true <-> exists v, (value m e == qN v)%Q).
Proof.
  intros D.
  unfold f64_is_integral.
  destruct (Z.leb_spec 0 e) as [E|E].
  - split; [|reflexivity].
  intros _.
  exists (m * pow2N e)%N.
  unfold value.
  now rewrite qN_mul, qN_pow2.
  - pose proof (frac_of_is m e) as F.
  unfold frac_of in F.
  replace (0 <=? e)%Z with false in F by lia.
  destruct F as [P F].
  split.
  + intros H.
  apply N.eqb_eq in H.
  exists (m / pow2N (- e))%N.
  pose proof (N.div_mod m (pow2N (- e)) ltac:(lia)) as DM.
  rewrite H, N.add_0_r in DM.
  rewrite DM in F at 2.
  rewrite qN_mul in F.
  assert (NZ : ~ (qN (pow2N (- e)) == 0)%Q) by (intros Z; change 0%Q with (qN 0) in Z; apply qN_inj in Z; lia).
  apply Qmult_inj_r with (qN (pow2N (- e))); [exact NZ|].
  rewrite F.
  ring.
  + intros [v H].
  apply N.eqb_eq.
  rewrite H in F.
  rewrite <- qN_mul in F.
  apply qN_inj in F.
  rewrite <- F.
  apply N.mod_mul.
  lia.
Qed.

Lemma lem_C28_exact : forall m e t, double m e ->
  exists text p r, RustGen.generate_const_value (ConstLiteral (NumberLit (F64Fin m e)) t) = text
    /\ DartGen.generate_const_value (ConstLiteral (NumberLit (F64Fin m e)) t) = text
    /\ decimal text p r /\ nearest r (F64Fin m e)
    /\ (p = false <-> exists v, (value m e == qN v)%Q).
Proof.
  intros m e t.
  intros D.
  destruct (show_f64_decimal m e D) as (p & r & H).
  exists (show_f64 (F64Fin m e)), p, r.
  split; [reflexivity|].
  split; [reflexivity|].
  exact H.
Qed.

(** Swift and Kotlin: always with a point. *)
Lemma show_float_decimal m e : double m e -> exists r, decimal (SwiftGen.show_float (F64Fin m e)) true r /\ nearest r (F64Fin m e).
Proof.
  intros D.
  destruct (show_f64_decimal m e D) as (p & r & T & R & P).
  rewrite <- (integral_whole m e D) in P.
  unfold SwiftGen.show_float.
  destruct (f64_is_integral (F64Fin m e)) eqn:I.
  - destruct P as [_ P].
  rewrite (P eq_refl) in T.
  inversion T as [a A AN|]; subst.
  exists (qN (positional 10 (show_f64 (F64Fin m e) ++ "0")) / qN (10 ^ N.of_nat (String.length "0")))%Q.
  split; [apply (dc_point _ "0"); auto; discriminate|].
  eapply nearest_wd; [|exact R].
  rewrite positional_app.
  cbn [String.length positional].
  change (10 ^ N.of_nat 1)%N with 10%N.
  change (digit_weight "0" * 10 ^ N.of_nat 0 + 0)%N with 0%N.
  rewrite N.add_0_r, qN_mul.
  change (qN 10) with (10 # 1)%Q.
  field.
  - exists r.
  split; [|exact R].
  destruct p; [exact T|].
  destruct P as [P _].
  discriminate (P eq_refl).
Qed.

Lemma lem_C28_swift_kotlin : forall m e id t, double m e ->
  exists text r, decimal text true r /\ nearest r (F64Fin m e)
    /\ SwiftGen.generate_const_value (ConstLiteral (NumberLit (F64Fin m e)) t) (TyNumber id 8) = Ok text
    /\ SwiftGen.generate_const_value (ConstLiteral (NumberLit (F64Fin m e)) t) (TyNumber id 4) = Ok (text ++ "f")
    /\ KotlinGen.generate_const_value (TyNumber id 8) (ConstLiteral (NumberLit (F64Fin m e)) t) = Ok text
    /\ KotlinGen.generate_const_value (TyNumber id 4) (ConstLiteral (NumberLit (F64Fin m e)) t) = Ok (text ++ "f").
Proof.
  intros m e id t.
  intros D.
  destruct (show_float_decimal m e D) as (r & T & R).
  exists (SwiftGen.show_float (F64Fin m e)), r.
  auto 10.
Qed.

(** Every number literal of a source text is a double or infinity, so these cover all constants. *)
Definition is_f64 (x : f64) : Prop := match x with F64Fin m e => double m e | F64Inf => True end.

Definition lit_double (t : token) : Prop := match t with TLit (NumberLit x) => is_f64 x | _ => True end.

Lemma f64_of_dec_double d k : is_f64 (f64_of_dec d k).
Proof.
  assert (N : exists r, nearest r (f64_of_dec d k)).
  { unfold f64_of_dec.
  destruct (0 <=? k)%Z; eexists; apply f64_of_ratio_nearest, frac_exists; [reflexivity|apply pow10_pos].
  }
  destruct N as [r N].
  destruct (f64_of_dec d k); [exact (nearest_double _ _ _ N)|exact Logic.I].
Qed.

Lemma parse_f64_double v x : parse_f64 v = Some x -> is_f64 x.
Proof.
  unfold parse_f64.
  destruct (take_digits v 0 0) as [[a n] s1].
  destruct (match s1 with String "." t => take_digits t a 0 | _ => (a, 0%nat, s1) end) as [[v2 n2] s2].
  destruct (n + n2)%nat; [discriminate|].
  destruct (parse_exp s2); [|discriminate].
  intros [= <-].
  apply f64_of_dec_double.
Qed.

Lemma step_double s ts r : lex_step s = Step ts r -> Forall lit_double ts.
Proof.
  destruct s as [|ch s]; [discriminate|].
  cbn [lex_step].
  destruct (is_char_id ch true).
  { unfold lex_id.
  destruct (lex_id_loop _) as [[name rest]| |]; cbn; intros [= <- <-].
  constructor; [|constructor].
  unfold keyword_or_id.
  repeat destruct (String.eqb _ _); exact Logic.I.
  }
  destruct (Ascii.eqb ch quote).
  { unfold lex_string.
  destruct (advance _); [discriminate|].
  destruct (lex_string_loop _) as [[v rest]| |]; cbn [bind]; try discriminate.
  intros [= <- <-].
  repeat constructor.
  }
  destruct (is_char_number ch).
  { unfold lex_number.
  destruct (lex_number_loop _ _ _) as [[[[v h] f] rest]| |]; cbn [bind]; try discriminate.
  destruct h.
  - destruct (i64_from_str_radix 16 _) eqn:E; intros [= <- <-].
  now repeat constructor.
  - destruct f.
  + destruct (parse_f64 v) eqn:E; intros [= <- <-].
  apply parse_f64_double in E.
  now repeat constructor.
  + destruct (i64_from_str_radix 10 _) eqn:E; intros [= <- <-].
  now repeat constructor.
  }
  destruct (_ || _ || _); [intros [= <- <-]; constructor|].
  destruct (Ascii.eqb ch "/"); [|intros [= <- <-]; repeat constructor].
  rewrite ascii_slash_star.
  destruct s as [|d s]; [intros [= <- <-]; repeat constructor|].
  destruct (Ascii.eqb d "/"); [intros [= <- <-]; constructor|].
  destruct (Ascii.eqb d "*"); intros [= <- <-]; repeat constructor.
Qed.

Lemma lem_C28_literals : forall s ts m e, tokenize s = Ok ts -> In (TLit (NumberLit (F64Fin m e))) ts -> double m e.
Proof.
  intros s ts m e.
  intros T I.
  assert (F : Forall lit_double ts).
  { revert T.
  apply (tokens_forall lit_double (fun _ => True)); [exact Logic.I| |exact Logic.I].
  intros s' us r _ E.
  split; [eapply step_double; eassumption|exact Logic.I].
  }
  rewrite Forall_forall in F.
  exact (F _ I).
Qed.

Lemma lem_C28_rust_float_refuted : exists src ast text,
  compile_front src = Ok ast /\ src = "const C { X: f64 = 16.0; }" /\ RustGen.rust_generate ast true true true = Ok text
  /\ occurs ("pub const X: f64 = 16;" ++ nl) text = true.
Proof.
  do 3 eexists.
  split; [|split; [reflexivity|]]; [vm_compute; reflexivity|].
  split; vm_compute; reflexivity.
Qed.

Lemma lem_C28_overflow_refuted : exists src ast text,
  compile_front src = Ok ast /\ RustGen.rust_generate ast true true true = Ok text /\ occurs ("pub const X: f64 = inf;" ++ nl) text = true.
Proof.
  exists ("const C { X: f64 = 1" ++ zeros 309 ++ ".0; }").
  do 2 eexists.
  split; [vm_compute; reflexivity|].
  split; vm_compute; reflexivity.
Qed.

(** ** C27: constants keep their value *)
(** The constants of a schema: path, declared type, literal. *)
Inductive const_at : const_node -> list string -> type_id -> literal -> Prop :=
| ca_here : forall id l n t v t', In (ConstItemValue n t (ConstLiteral v t')) l -> const_at (ConstNode id l) [id; n] t v
| ca_in : forall id l c p t v, In (ConstItemNode c) l -> const_at c p t v -> const_at (ConstNode id l) (id :: p) t v.

Definition declared (ast : list ast_node) (p : list string) (t : type_id) (v : literal) : Prop := exists c, In (NConst c) ast /\ const_at c p t v.

(** The constants of a Rust file: path through the modules, type, expression. *)
Inductive defines : list item -> list string -> rty -> ex -> Prop :=
| df_here : forall l n t e, In (IConst n t e) l -> defines l [n] t e
| df_in : forall l n l' p t e, In (IMod n l') l -> defines l' p t e -> defines l (n :: p) t e.

(** The value of a literal expression of Rust. *)
Inductive denotes : ex -> literal -> Prop :=
| dn_string : forall s, denotes (EStr s) (StringLit s)
| dn_true : denotes (EPath [SName "true"]) (BoolLit true)
| dn_false : denotes (EPath [SName "false"]) (BoolLit false)
| dn_int : forall ds, all_chars digitb ds = true -> ds <> "" -> denotes (ENum ds) (IntLit (Z.of_N (positional 10 ds)))
| dn_negative : forall ds, all_chars digitb ds = true -> ds <> "" -> denotes (ENeg (ENum ds)) (IntLit (- Z.of_N (positional 10 ds)))
| dn_whole : forall ds x, all_chars digitb ds = true -> ds <> "" -> nearest (qN (positional 10 ds)) x -> denotes (ENum ds) (NumberLit x)
| dn_float : forall a b x, all_chars digitb a = true -> a <> "" -> all_chars digitb b = true -> b <> "" ->
    nearest (qN (positional 10 (a ++ b)) / qN (10 ^ N.of_nat (String.length b))) x -> denotes (EFloat a b) (NumberLit x).

(** A schema type as a Rust type. *)
Inductive rust_type : type_id -> rty -> Prop :=
| rt_integer : forall n s k, rust_type (TyInteger n s k) (RPath [n] [])
| rt_number : forall n s, rust_type (TyNumber n s) (RPath [n] [])
| rt_bool : forall n, rust_type (TyBool n) (RPath [n] [])
| rt_char : forall n, rust_type (TyChar n) (RPath [n] [])
| rt_other : forall n, rust_type (TyOther n) (RPath [n] [])
| rt_generic : forall n l l', Forall2 rust_type l l' -> rust_type (TyGeneric n l) (RPath [n] l').

(** A constant as a Rust constant: addresses are wrapped in their type, all other constants are plain. *)
Inductive rust_constant : type_id -> literal -> rty -> ex -> Prop :=
| rc_address : forall n v e, n = "GroupAddress" \/ n = "CommandsBufferAddress" -> denotes e v ->
    rust_constant (TyOther n) v (RPath ["tech_paws_runtime"; n] []) (EPost (EPath [SName "tech_paws_runtime"; SName n]) [XCall [e] false])
| rc_plain : forall t v t' e, t <> TyOther "GroupAddress" -> t <> TyOther "CommandsBufferAddress" -> rust_type t t' -> denotes e v -> rust_constant t v t' e.

Lemma rty_of_type t : rust_type t (rty_of t).
Proof.
  induction t as [t L|n l IH] using type_ind2; [destruct t; try contradiction; constructor|].
  cbn.
  constructor.
  induction l as [|x l IHl]; constructor; [apply IH; now left|apply IHl; intros; apply IH; now right].
Qed.

Lemma rust_type_rty t t' : rust_type t t' -> t' = rty_of t.
Proof.
  revert t'.
  induction t as [t L|n l IH] using type_ind2; intros t' H; [destruct t; try contradiction; now inversion H|].
  inversion H as [| | | | |n' l0 l' F]; subst.
  cbn.
  f_equal.
  clear H.
  induction F as [|a b l l' H F IHF]; [reflexivity|].
  cbn.
  f_equal; [apply IH; [now left|exact H]|apply IHF; intros; apply IH; [now right|assumption]].
Qed.

Lemma show_Z_denotes z : denotes (number_tree (show_Z z)) (IntLit z).
Proof.
  assert (U : forall n, number_tree (show_N n) = ENum (show_N n)) by (intros n; apply digits_number; [apply show_N_digits|apply show_N_nonempty]).
  destruct z as [|p|p].
  - apply (dn_int "0"); [reflexivity|discriminate].
  - cbn [show_Z].
  pose proof (dn_int (show_N (Npos p)) (show_N_digits _) (show_N_nonempty _)) as H.
  rewrite show_N_value in H.
  rewrite U.
  exact H.
  - cbn [show_Z append number_tree].
  rewrite Ascii.eqb_refl.
  unfold unsigned_tree.
  rewrite upto_digits by apply show_N_digits.
  pose proof (dn_negative (show_N (Npos p)) (show_N_digits _) (show_N_nonempty _)) as H.
  rewrite show_N_value in H.
  exact H.
Qed.

Lemma show_f64_denotes m e : double m e -> denotes (number_tree (show_f64 (F64Fin m e))) (NumberLit (F64Fin m e)).
Proof.
  intros D.
  destruct (show_f64_decimal m e D) as (p & r & T & N & _).
  revert T.
  generalize (show_f64 (F64Fin m e)).
  intros s T.
  destruct T as [a A AN|a b A AN B BN].
  - rewrite digits_number by assumption.
  now constructor.
  - rewrite digits_float by assumption.
  now constructor.
Qed.

Lemma literal_denotes v t : match v with NumberLit x => is_f64 x | _ => True end -> rliteral v = true -> denotes (const_value_tree (ConstLiteral v t)) v.
Proof.
  destruct v as [s|z|[m e|]|[]]; cbn [const_value_tree]; intros D R; try discriminate R.
  - constructor.
  - apply show_Z_denotes.
  - now apply show_f64_denotes.
  - constructor.
  - constructor.
Qed.

(** A module tree printed for a block of constants defines exactly the constants of the block. *)
Lemma const_tree_shape id t v : exists rt e, const_tree id t v = IConst id rt e.
Proof.
  unfold const_tree.
  destruct t; eauto.
  destruct (String.eqb _ _); [eauto|].
  destruct (String.eqb _ _); eauto.
Qed.

Lemma const_tree_constant id t v t' rt e : match v with NumberLit x => is_f64 x | _ => True end -> rliteral v = true ->
  const_tree id t (ConstLiteral v t') = IConst id rt e -> rust_constant t v rt e.
Proof.
  intros D R E.
  pose proof (literal_denotes v t' D R) as L.
  unfold const_tree in E.
  revert L E.
  generalize (const_value_tree (ConstLiteral v t')).
  intros x L E.
  assert (P : forall n, t = TyOther n -> n <> "GroupAddress" -> n <> "CommandsBufferAddress" -> IConst id (rty_of t) x = IConst id rt e -> rust_constant t v rt e).
  { intros n -> G C [= <- <-].
  apply rc_plain; [congruence|congruence|exact (rty_of_type (TyOther n))|exact L].
  }
  assert (Q : forall t0, t = t0 -> t <> TyOther "GroupAddress" -> t <> TyOther "CommandsBufferAddress" -> IConst id (rty_of t0) x = IConst id rt e -> rust_constant t v rt e).
  { intros t0 <- A B E'.
  injection E' as <- <-.
  apply rc_plain; [exact A|exact B|apply rty_of_type|exact L].
  }
  destruct t as [n s k|n s|n|n|n l|n]; try (apply (Q _ eq_refl); [discriminate|discriminate|exact E]).
  clear Q.
  destruct (String.eqb_spec n "GroupAddress") as [->|G]; [injection E as <- <-; apply rc_address; auto|].
  destruct (String.eqb_spec n "CommandsBufferAddress") as [->|C]; [injection E as <- <-; apply rc_address; auto|].
  now apply (P n).
Qed.

Lemma declared_literal ast p t v : declared ast p t v -> In v (schema_literals ast).
Proof.
  intros (c & I & A).
  unfold schema_literals.
  apply in_flat_map.
  exists (NConst c).
  split; [exact I|].
  cbn [decl_literals].
  clear I.
  induction A as [id l n t v t' I|id l c p t v I A IH].
  - cbn.
  apply in_flat_map.
  eexists.
  split; [exact I|].
  now left.
  - cbn.
  apply in_flat_map.
  eexists.
  split; [exact I|].
  exact IH.
Qed.

Lemma block_defines c p t v : (forall q t v, const_at c q t v -> match v with NumberLit x => is_f64 x | _ => True end) -> rconst c = true ->
  const_at c p t v -> exists rt e, defines [const_block_tree c] p rt e /\ rust_constant t v rt e.
Proof.
  intros D R A.
  induction A as [id l n t v t' I|id l c p t v I A IH]; cbn [rconst] in R; apply andb_true_iff in R as [_ R]; rewrite forallb_forall in R; pose proof (R _ I) as RI; cbn in RI.
  - unfold rconst_value in RI.
  rewrite !andb_true_iff in RI.
  destruct RI as [_ RI].
  destruct (const_tree_shape n t (ConstLiteral v t')) as (rt & e & E).
  exists rt, e.
  split; [|eapply const_tree_constant; [eapply D; eapply ca_here; exact I|exact RI|exact E]].
  cbn [const_block_tree].
  eapply df_in; [now left|].
  apply df_here.
  apply in_map_iff.
  exists (ConstItemValue n t (ConstLiteral v t')).
  split; [exact E|exact I].
  - destruct IH as (rt & e & F & C); [intros; eapply D; eapply ca_in; eauto|exact RI|].
  exists rt, e.
  split; [|exact C].
  cbn [const_block_tree].
  eapply df_in; [now left|].
  inversion F as [l0 n0 t0 e0 J|l0 n0 l' p0 t0 e0 J F']; subst; destruct J as [J|[]].
  + destruct c; discriminate J.
  + eapply df_in; [|exact F'].
  apply in_map_iff.
  exists (ConstItemNode c).
  split; [exact J|exact I].
Qed.

Lemma const_block_mod c : exists n l, const_block_tree c = IMod n l.
Proof.
  destruct c.
  cbn.
  eauto.
Qed.

Lemma defines_block : forall p rt e c, (forall q t v, const_at c q t v -> match v with NumberLit x => is_f64 x | _ => True end) -> rconst c = true ->
  defines [const_block_tree c] p rt e -> exists t v, const_at c p t v /\ rust_constant t v rt e.
Proof.
  induction p as [|a p IH]; intros rt e [id l] D R H; [inversion H|].
  cbn [rconst] in R.
  apply andb_true_iff in R as [_ R].
  rewrite forallb_forall in R.
  inversion H as [l0 n0 t0 e0 J|l0 n0 l' p0 t0 e0 J F]; subst; destruct J as [J|[]]; [discriminate J|].
  cbn in J.
  injection J as <- <-.
  inversion F as [l0 n0 t0 e0 J|l0 n0 l' p0 t0 e0 J F']; subst; apply in_map_iff in J as (i & E & I); pose proof (R _ I) as RI.
  - destruct i as [n t [v t']|c]; [|destruct (const_block_mod c) as (? & ? & Ec); rewrite Ec in E; discriminate E].
  unfold rconst_value in RI.
  rewrite !andb_true_iff in RI.
  destruct RI as [_ RI].
  assert (n = n0) as -> by (destruct (const_tree_shape n t (ConstLiteral v t')) as (x & y & Ec); rewrite Ec in E; now injection E).
  exists t, v.
  split; [eapply ca_here; exact I|].
  eapply const_tree_constant; [eapply D; eapply ca_here; exact I|exact RI|exact E].
  - destruct i as [n t v|c]; [destruct (const_tree_shape n t v) as (x & y & Ec); rewrite Ec in E; discriminate E|].
  destruct (IH rt e c) as (t & v & A & C); [intros; eapply D; eapply ca_in; eauto|exact RI|eapply df_in; [left; exact E|exact F']|].
  exists t, v.
  split; [|exact C].
  eapply ca_in; eauto.
Qed.

Lemma defines_app a b p t e : defines (a ++ b)%list p t e <-> defines a p t e \/ defines b p t e.
Proof.
  split.
  - intros D.
  inversion D as [l0 n0 t0 e0 J|l0 n0 l' p0 t0 e0 J F']; subst; apply in_app_iff in J as [J|J]; [left|right|left|right]; try (now constructor); econstructor; eauto.
  - intros [D|D]; inversion D as [l0 n0 t0 e0 J|l0 n0 l' p0 t0 e0 J F']; subst; (constructor; apply in_app_iff; tauto) || (econstructor; [apply in_app_iff|]; eauto).
Qed.

Definition not_const (i : item) : bool := match i with IConst _ _ _ | IMod _ _ => false | _ => true end.

Lemma not_const_defines l p t e : forallb not_const l = true -> ~ defines l p t e.
Proof.
  intros H D.
  rewrite forallb_forall in H.
  inversion D as [l0 n0 t0 e0 J|l0 n0 l' p0 t0 e0 J F']; subst; specialize (H _ J); discriminate H.
Qed.

Lemma forallb_flat_map {A B} (f : B -> bool) (g : A -> list B) l : (forall x, In x l -> forallb f (g x) = true) -> forallb f (flat_map g l) = true.
Proof.
  intros H.
  induction l as [|x l IH]; [reflexivity|].
  cbn.
  rewrite forallb_app, H by now left.
  apply IH.
  intros; apply H; now right.
Qed.

Lemma tree_defines ast m b r p t e : defines (rust_tree ast m b r) p t e <-> defines (consts_tree ast) p t e.
Proof.
  unfold rust_tree.
  rewrite !defines_app.
  assert (N1 : forallb not_const [allow "warnings"; allow "clippy"; allow "unknown_lints"] = true) by reflexivity.
  assert (N2 : forallb not_const (if r && nil_or (find_fn_nodes ast) then buffers_use :: runtime_uses else if b then [buffers_use] else []) = true) by (destruct (r && _); [reflexivity|]; now destruct b).
  assert (N3 : forallb not_const (user_uses ast) = true) by (apply forallb_flat_map; intros [[]] _; reflexivity).
  assert (N4 : forallb not_const (if m then models_tree ast else []) = true).
  { destruct m; [|reflexivity].
  apply forallb_flat_map.
  intros [n|n|n|n|n] _; try reflexivity.
  - unfold enum_model_tree.
  destruct (en_items n); reflexivity.
  - unfold struct_model_tree.
  destruct (sn_fields n); reflexivity.
  }
  assert (N5 : forallb not_const (if b then buffers_tree ast else []) = true) by (destruct b; [|reflexivity]; apply forallb_flat_map; intros [n|n|n|n|n] _; reflexivity).
  assert (NM : forall n d, forallb not_const (struct_model_tree n d) = true) by (intros n []; unfold struct_model_tree; destruct (sn_fields n); reflexivity).
  assert (N6 : forallb not_const (if r then rpc_tree ast else []) = true).
  { destruct r; [|reflexivity].
  unfold rpc_tree.
  destruct (find_fn_nodes ast) as [|f l]; [reflexivity|].
  cbn [forallb].
  apply andb_true_iff.
  split; [reflexivity|].
  apply forallb_flat_map.
  intros n _.
  unfold rpc_method_tree.
  destruct (fn_is_read n), (fn_is_async n); try reflexivity; unfold sync_method_tree, async_method_tree; rewrite forallb_app, NM; reflexivity.
  }
  pose proof (not_const_defines _ p t e N1).
  pose proof (not_const_defines _ p t e N2).
  pose proof (not_const_defines _ p t e N3).
  pose proof (not_const_defines _ p t e N4).
  pose proof (not_const_defines _ p t e N5).
  pose proof (not_const_defines _ p t e N6).
  tauto.
Qed.

Lemma defines_flat {A} (g : A -> list item) l p t e : defines (flat_map g l) p t e <-> exists x, In x l /\ defines (g x) p t e.
Proof.
  induction l as [|x l IH]; cbn [flat_map].
  - split; [intros D; inversion D; contradiction|intros (y & [] & _)].
  - rewrite defines_app, IH.
  split.
  + intros [D|(y & I & D)]; [exists x|exists y]; auto with datatypes.
  + intros (y & [<-|I] & D); eauto.
Qed.

Lemma lem_C27_rust : forall src ast models buffers rpc text,
  compile_front src = Ok ast -> rust_ready ast = true -> RustGen.rust_generate ast models buffers rpc = Ok text ->
  exists items, rust_file text = Some items
    /\ (forall p t v, declared ast p t v -> exists t' e, defines items p t' e /\ rust_constant t v t' e)
    /\ (forall p t' e, defines items p t' e -> exists t v, declared ast p t v /\ rust_constant t v t' e).
Proof.
  intros src ast models buffers rpc text.
  intros C R G.
  exists (rust_tree ast models buffers rpc).
  split; [now apply rust_file_generated|].
  assert (DB : forall p t v, declared ast p t v -> match v with NumberLit x => is_f64 x | _ => True end).
  { intros p t v D.
  apply declared_literal in D.
  destruct v as [| |[m e|]|]; try exact Logic.I.
  unfold compile_front in C.
  destruct (tokenize src) as [ts| |] eqn:T; cbn [bind] in C; try discriminate.
  eapply lem_C28_literals; [exact T|].
  apply parse_iff_grammar in C.
  destruct (schema_in _ _ _ C) as [_ IL].
  now apply IL.
  }
  assert (RC : forall c, In (NConst c) ast -> rconst c = true).
  { intros c I.
  unfold rust_ready in R.
  rewrite !andb_true_iff in R.
  destruct R as [[R _] _].
  rewrite forallb_forall in R.
  exact (R _ I).
  }
  split.
  - intros p t v (c & I & A).
  destruct (block_defines c p t v) as (rt & e & D & K); [intros q t0 v0 A0; apply (DB q t0); now exists c|now apply RC|exact A|].
  exists rt, e.
  split; [|exact K].
  apply tree_defines, defines_flat.
  now exists (NConst c).
  - intros p rt e D.
  apply tree_defines, defines_flat in D as ([n|n|n|n|c] & I & D); try (inversion D; contradiction).
  destruct (defines_block p rt e c) as (t & v & A & K); [intros q t0 v0 A0; apply (DB q t0); now exists c|now apply RC|exact D|].
  exists t, v.
  split; [now exists c|exact K].
Qed.

(** The value of a literal of Dart, as a text. *)
Inductive dart_literal : string -> literal -> Prop :=
| dl_string : forall s, all_chars (fun c => negb (existsb (Ascii.eqb c) [quote; "\"; "$"; ascii_of_nat 10; ascii_of_nat 13])%char) s = true ->
    dart_literal (String quote (s ++ String quote "")) (StringLit s)
| dl_true : dart_literal "true" (BoolLit true)
| dl_false : dart_literal "false" (BoolLit false)
| dl_int : forall ds, all_chars digitb ds = true -> ds <> "" -> dart_literal ds (IntLit (Z.of_N (positional 10 ds)))
| dl_negative : forall ds, all_chars digitb ds = true -> ds <> "" -> dart_literal ("-" ++ ds) (IntLit (- Z.of_N (positional 10 ds)))
| dl_number : forall s p r x, decimal s p r -> nearest r x -> dart_literal s (NumberLit x).

Lemma lem_C27_dart : forall src ast p t v t',
  compile_front src = Ok ast -> declared ast p t v ->
  match v with
  | StringLit s => all_chars (fun c => negb (existsb (Ascii.eqb c) [quote; "\"; "$"; ascii_of_nat 10; ascii_of_nat 13])%char) s = true
  | NumberLit x => x <> F64Inf
  | _ => True
  end ->
  dart_literal (DartGen.generate_const_value (ConstLiteral v t')) v.
Proof.
  intros src ast p t v t'.
  intros C D H.
  destruct v as [s|[|q|q]|[m e|]|[]]; cbn [DartGen.generate_const_value].
  - now constructor.
  - apply (dl_int "0"); [reflexivity|discriminate].
  - cbn [show_Z].
  pose proof (dl_int (show_N (Npos q)) (show_N_digits _) (show_N_nonempty _)) as L.
  rewrite show_N_value in L.
  exact L.
  - cbn [show_Z].
  pose proof (dl_negative (show_N (Npos q)) (show_N_digits _) (show_N_nonempty _)) as L.
  rewrite show_N_value in L.
  exact L.
  - assert (DB : double m e).
  { apply declared_literal in D.
  unfold compile_front in C.
  destruct (tokenize src) as [ts| |] eqn:T; cbn [bind] in C; try discriminate.
  eapply lem_C28_literals; [exact T|].
  apply parse_iff_grammar in C.
  destruct (schema_in _ _ _ C) as [_ IL].
  now apply IL.
  }
    destruct (show_f64_decimal m e DB) as (b & r & T & N & _).
  econstructor; eauto.
  - now destruct H.
  - constructor.
  - constructor.
Qed.
