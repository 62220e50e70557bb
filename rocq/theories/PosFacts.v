(** Lemmas behind the theorems of PropertiesPos.v. *)

(** Property theorems about generated text: C26 (the positions of fields).  After each theorem, a concrete case that meets
    its hypotheses, and its axioms. *)
Require Import Coq.Strings.String Coq.Strings.Ascii.
Require Import Coq.NArith.NArith Coq.ZArith.ZArith Coq.Lists.List Coq.Bool.Bool Coq.Classes.Morphisms Coq.Setoids.Setoid.
Require Import Verif.Base Verif.Ast Verif.Lexer Verif.Parser Verif.Writer Verif.CaseConv Verif.GenMoreFacts.
Require Verif.RustGen Verif.DartGen.
Import ListNotations.
Local Open Scope string_scope.

(** A schema without the positions of the fields of its structs and cases (the positions of cases and methods stay). *)
Definition strip_field (f : struct_field) := mk_struct_field 0 (sf_name f) (sf_type f).

Definition strip_tuple (f : tuple_field) := mk_tuple_field 0 (tf_type f).

Definition strip_item (i : enum_item) : enum_item :=
  match i with
  | ItemEmpty p n => ItemEmpty p n
  | ItemTuple p n l => ItemTuple p n (map strip_tuple l)
  | ItemStruct p n l => ItemStruct p n (map strip_field l)
  end.

Definition strip_struct (s : struct_node) := mk_struct (sn_id s) (map strip_field (sn_fields s)) (sn_emplace s) (sn_into s).

Definition strip_enum (e : enum_node) := mk_enum (en_id e) (map strip_item (en_items e)).

Definition strip_decl (n : ast_node) : ast_node :=
  match n with
  | NStruct s => NStruct (strip_struct s)
  | NEnum e => NEnum (strip_enum e)
  | _ => n
  end.

(** Two schemas that are the same except for positions of fields. *)
Definition same_but_field_positions (a b : list ast_node) : Prop := map strip_decl a = map strip_decl b.

Lemma strip_fns l : find_fn_nodes (map strip_decl l) = find_fn_nodes l.
Proof.
  induction l as [|[e|s|f|d|c] l IH]; try reflexivity; try exact IH.
  cbn.
  now rewrite IH.
Qed.

Lemma strip_contains l : contains_consts_nodes (map strip_decl l) = contains_consts_nodes l.
Proof.
  induction l as [|[e|s|f|d|c] l IH]; try reflexivity; exact IH.
Qed.

Lemma strip_directive l k : find_directive_value (map strip_decl l) k = find_directive_value l k.
Proof.
  induction l as [|[e|s|f|[i v|i v]|c] l IH]; try reflexivity; try exact IH.
  cbn.
  now rewrite IH.
Qed.

Lemma strip_group l k k' : find_directive_group_values (map strip_decl l) k k' = find_directive_group_values l k k'.
Proof.
  induction l as [|[e|s|f|[i v|i v]|c] l IH]; try reflexivity; try exact IH.
  cbn.
  now rewrite IH.
Qed.

Lemma flat_map_same {A B} : Proper (pointwise_relation A eq ==> eq ==> eq) (@flat_map A B).
Proof.
  intros f f' H l _ <-.
  apply flat_map_ext.
  exact H.
Qed.

Lemma rflat_same {A} : Proper (pointwise_relation A eq ==> eq ==> eq) (@DartGen.rflat A).
Proof.
  intros f f' H l _ <-.
  apply rflat_ext.
  exact H.
Qed.
Local Existing Instance flat_map_same.
Local Existing Instance rflat_same.

(** Rust *)
Lemma enumerate_strip {A B} (h : A -> B) l : enumerate (map h l) = map (fun p => (fst p, h (snd p))) (enumerate l).
Proof.
  apply enumerate_map.
Qed.

Ltac sproj := cbn [fst snd strip_field strip_tuple strip_struct strip_enum sf_position sf_name sf_type tf_position tf_type sn_id sn_fields sn_emplace sn_into en_id en_items].

Ltac slists := sproj; rewrite ?enumerate_strip, ?flat_map_map, ?rflat_map, ?existsb_map; sproj; repeat (setoid_rewrite is_last_map || setoid_rewrite gap_map).

Lemma rust_params k b l : RustGen.generate_struct_parameters k b (map strip_field l) = RustGen.generate_struct_parameters k b l.
Proof.
  unfold RustGen.generate_struct_parameters.
  slists.
  reflexivity.
Qed.

Lemma rust_tuple k l : RustGen.generate_tuple_parameters k (map strip_tuple l) = RustGen.generate_tuple_parameters k l.
Proof.
  unfold RustGen.generate_tuple_parameters.
  slists.
  reflexivity.
Qed.

Lemma rust_struct_default s : RustGen.generate_struct_default (strip_struct s) = RustGen.generate_struct_default s.
Proof.
  unfold RustGen.generate_struct_default.
  slists.
  reflexivity.
Qed.

Lemma rust_struct_model s d : RustGen.generate_struct_model (strip_struct s) d = RustGen.generate_struct_model s d.
Proof.
  unfold RustGen.generate_struct_model.
  rewrite rust_struct_default.
  sproj.
  destruct (sn_fields s) as [|f fs]; [reflexivity|].
  cbn [map].
  cbv iota.
  change (strip_field f :: map strip_field fs) with (map strip_field (f :: fs)).
  now rewrite rust_params.
Qed.

Lemma rust_struct_buffers s : RustGen.generate_struct_buffers (strip_struct s) = RustGen.generate_struct_buffers s.
Proof.
  unfold RustGen.generate_struct_buffers, RustGen.generate_struct_buffers_read_from_buffers, RustGen.generate_struct_buffers_write_to_buffers, RustGen.generate_struct_buffers_skip.
  sproj.
  destruct (sn_fields s) as [|f fs]; [reflexivity|].
  cbn [map].
  cbv iota.
  change (strip_field f :: map strip_field fs) with (map strip_field (f :: fs)).
  generalize (f :: fs).
  intros l.
  slists.
  reflexivity.
Qed.

Ltac segs := repeat match goal with |- app ?a ?b = app ?a ?c => apply (f_equal (app a)) end.

Ltac each := apply flat_map_ext; intros [p n|p n v|p n v]; cbn [strip_item]; [reflexivity|slists; reflexivity|slists; reflexivity].

Lemma rust_enum_read e : RustGen.generate_enum_buffers_read_from_buffers (strip_enum e) = RustGen.generate_enum_buffers_read_from_buffers e.
Proof.
  unfold RustGen.generate_enum_buffers_read_from_buffers.
  sproj.
  rewrite flat_map_map.
  apply f_equal.
  segs.
  apply f_equal2; [each|reflexivity].
Qed.

Lemma rust_enum_write e : RustGen.generate_enum_buffers_write_to_buffers (strip_enum e) = RustGen.generate_enum_buffers_write_to_buffers e.
Proof.
  unfold RustGen.generate_enum_buffers_write_to_buffers.
  sproj.
  rewrite flat_map_map.
  apply f_equal.
  segs.
  apply f_equal2; [each|reflexivity].
Qed.

Lemma rust_enum_skip e : RustGen.generate_enum_buffers_skip (strip_enum e) = RustGen.generate_enum_buffers_skip e.
Proof.
  unfold RustGen.generate_enum_buffers_skip.
  sproj.
  rewrite flat_map_map.
  apply f_equal.
  segs.
  apply f_equal2; [each|reflexivity].
Qed.

Lemma rust_enum_buffers e : RustGen.generate_enum_buffers (strip_enum e) = RustGen.generate_enum_buffers e.
Proof.
  unfold RustGen.generate_enum_buffers.
  now rewrite rust_enum_read, rust_enum_write, rust_enum_skip.
Qed.

Lemma rust_enum_model e : RustGen.generate_enum_model (strip_enum e) = RustGen.generate_enum_model e.
Proof.
  unfold RustGen.generate_enum_model.
  sproj.
  destruct (en_items e) as [|i l] eqn:E; [reflexivity|].
  cbn [map].
  cbv iota.
  change (strip_item i :: map strip_item l) with (map strip_item (i :: l)).
  rewrite flat_map_map.
  apply f_equal, f_equal.
  rewrite <- !app_assoc.
  segs.
  apply f_equal2.
  - apply flat_map_ext.
  intros [p n|p n v|p n v]; cbn [strip_item]; rewrite ?rust_params, ?rust_tuple; reflexivity.
  - segs.
  destruct i; cbn [strip_item]; slists; reflexivity.
Qed.

Lemma mapM_same {A B} (f g : A -> res B) l : (forall x, f x = g x) -> mapM f l = mapM g l.
Proof.
  intros H.
  induction l as [|x l IH]; [reflexivity|].
  cbn.
  now rewrite H, IH.
Qed.

Lemma rust_models l : RustGen.generate_models (map strip_decl l) = RustGen.generate_models l.
Proof.
  unfold RustGen.generate_models.
  rewrite mapM_map.
  erewrite mapM_same; [reflexivity|].
  intros [e|s|f|d|c]; cbn [strip_decl]; rewrite ?rust_enum_model, ?rust_struct_model; reflexivity.
Qed.

Lemma rust_buffers l : RustGen.generate_buffers (map strip_decl l) = RustGen.generate_buffers l.
Proof.
  unfold RustGen.generate_buffers.
  rewrite flat_map_map.
  do 2 f_equal.
  apply flat_map_ext.
  intros [e|s|f|d|c]; cbn [strip_decl]; rewrite ?rust_enum_buffers, ?rust_struct_buffers; reflexivity.
Qed.

Lemma rust_methods l : RustGen.has_rpc_methods (map strip_decl l) = RustGen.has_rpc_methods l.
Proof.
  induction l as [|[e|s|f|d|c] l IH]; try reflexivity; exact IH.
Qed.

Lemma rust_rpc l : RustGen.generate_rpc (map strip_decl l) = RustGen.generate_rpc l.
Proof.
  unfold RustGen.generate_rpc, RustGen.generate_register_fn.
  rewrite rust_methods, strip_directive, strip_fns, flat_map_map.
  destruct (RustGen.has_rpc_methods l); [|reflexivity].
  replace (flat_map (fun x => match strip_decl x with NFn node => [Writeln (RustGen.generate_rpc_method node)] | _ => [] end) l)
    with (flat_map (fun x => match x with NFn node => [Writeln (RustGen.generate_rpc_method node)] | _ => [] end) l); [reflexivity|].
  apply flat_map_ext.
  intros [e|s|f|d|c]; reflexivity.
Qed.

Lemma rust_consts l : RustGen.generate_consts (map strip_decl l) = RustGen.generate_consts l.
Proof.
  unfold RustGen.generate_consts.
  rewrite flat_map_map.
  do 2 f_equal.
  apply flat_map_ext.
  intros [e|s|f|d|c]; reflexivity.
Qed.

Lemma rust_strip l m b r : RustGen.rust_generate (map strip_decl l) m b r = RustGen.rust_generate l m b r.
Proof.
  unfold RustGen.rust_generate, RustGen.generate_uses, RustGen.rust_lib_uses.
  now rewrite strip_group, strip_contains, strip_fns, rust_models, rust_buffers, rust_rpc, rust_consts.
Qed.

(** Dart *)
Lemma dart_struct_model s d b : DartGen.generate_struct_model (strip_struct s) d b = DartGen.generate_struct_model s d b.
Proof.
  unfold DartGen.generate_struct_model.
  sproj.
  destruct (sn_fields s) as [|f fs]; [reflexivity|].
  cbn [map].
  cbv iota.
  change (strip_field f :: map strip_field fs) with (map strip_field (f :: fs)).
  generalize (f :: fs).
  intros l.
  slists.
  reflexivity.
Qed.

Lemma dart_struct_buffers s : DartGen.generate_struct_buffers (strip_struct s) = DartGen.generate_struct_buffers s
  /\ DartGen.generate_struct_emplace_buffers (strip_struct s) = DartGen.generate_struct_emplace_buffers s.
Proof.
  assert (SK : forall h, DartGen.struct_skip h (strip_struct s) = DartGen.struct_skip h s).
  { intros h.
  unfold DartGen.struct_skip.
  slists.
  reflexivity.
  }
  assert (E : DartGen.generate_struct_emplace_buffers (strip_struct s) = DartGen.generate_struct_emplace_buffers s).
  { unfold DartGen.generate_struct_emplace_buffers, DartGen.generate_struct_emplace_buffers_skip.
  rewrite SK.
  unfold DartGen.generate_struct_emplace_buffers_read, DartGen.generate_struct_emplace_buffers_write.
  slists.
  reflexivity.
  }
  split; [|exact E].
  unfold DartGen.generate_struct_buffers.
  rewrite E.
  unfold DartGen.generate_struct_into_buffers, DartGen.generate_struct_into_buffers_skip.
  rewrite SK.
  unfold DartGen.generate_struct_into_buffers_read, DartGen.generate_struct_into_buffers_write.
  slists.
  reflexivity.
Qed.

Lemma dart_item_id i : item_id (strip_item i) = item_id i.
Proof.
  now destruct i.
Qed.

Lemma dart_item_position i : item_position (strip_item i) = item_position i.
Proof.
  now destruct i.
Qed.

Lemma dart_item_factory e i : DartGen.item_factory (strip_enum e) (strip_item i) = DartGen.item_factory e i.
Proof.
  now destruct i.
Qed.

Lemma dart_item_struct e i : strip_struct (DartGen.create_enum_item_struct_ast_node (strip_enum e) (strip_item i)) = strip_struct (DartGen.create_enum_item_struct_ast_node e i).
Proof.
  destruct i as [p n|p n l|p n l]; try reflexivity; cbn; unfold strip_struct; cbn; f_equal.
  - rewrite enumerate_map, !map_map.
  reflexivity.
  - rewrite map_map.
  reflexivity.
Qed.

Lemma dart_item_model e i d b : DartGen.generate_struct_model (DartGen.create_enum_item_struct_ast_node (strip_enum e) (strip_item i)) d b
  = DartGen.generate_struct_model (DartGen.create_enum_item_struct_ast_node e i) d b.
Proof.
  rewrite <- dart_struct_model, dart_item_struct.
  apply dart_struct_model.
Qed.

Lemma dart_item_emplace e i : DartGen.generate_struct_emplace_buffers (DartGen.create_enum_item_struct_ast_node (strip_enum e) (strip_item i))
  = DartGen.generate_struct_emplace_buffers (DartGen.create_enum_item_struct_ast_node e i).
Proof.
  rewrite <- (proj2 (dart_struct_buffers _)), dart_item_struct.
  apply dart_struct_buffers.
Qed.

Ltac items := repeat (setoid_rewrite dart_item_id || setoid_rewrite dart_item_position || setoid_rewrite dart_item_factory || setoid_rewrite dart_item_emplace).

Lemma dart_enum_model e : DartGen.generate_enum_model (strip_enum e) = DartGen.generate_enum_model e.
Proof.
  unfold DartGen.generate_enum_model.
  destruct e as [id l].
  cbn [strip_enum en_items en_id].
  destruct l as [|i l]; [reflexivity|].
  cbn [map].
  cbv iota.
  change (strip_item i :: map strip_item l) with (map strip_item (i :: l)).
  rewrite !dart_item_id.
  generalize (i :: l).
  clear l.
  intros l.
  change (mk_enum id (map strip_item l)) with (strip_enum (mk_enum id l)).
  apply f_equal, f_equal.
  slists.
  items.
  segs.
  apply f_equal2; [apply flat_map_ext; intros [k [p n|p n v|p n v]]; cbn [fst snd strip_item]; [reflexivity|slists; reflexivity|slists; reflexivity]|].
  segs.
  apply f_equal2; [apply flat_map_ext; intros [k [p n|p n v|p n v]]; cbn [fst snd strip_item]; [reflexivity|slists; reflexivity|slists; reflexivity]|].
  segs.
  apply flat_map_ext.
  intros [k j].
  cbn [snd].
  rewrite dart_item_model.
  reflexivity.
Qed.

Lemma dart_enum_buffers e : DartGen.generate_enum_buffers (strip_enum e) = DartGen.generate_enum_buffers e.
Proof.
  unfold DartGen.generate_enum_buffers.
  change (en_items (strip_enum e)) with (map strip_item (en_items e)).
  slists.
  items.
  unfold DartGen.generate_enum_into_buffers, DartGen.generate_enum_emplace_buffers, DartGen.enum_into_read, DartGen.enum_emplace_read, DartGen.enum_write, DartGen.enum_skip.
  cbn [strip_enum en_id en_items].
  slists.
  items.
  reflexivity.
Qed.

Lemma dart_models l : DartGen.generate_models (map strip_decl l) = DartGen.generate_models l.
Proof.
  unfold DartGen.generate_models.
  slists.
  erewrite rflat_ext; [reflexivity|].
  intros [e|s|f|d|c]; cbn [strip_decl]; rewrite ?dart_enum_model, ?dart_struct_model; reflexivity.
Qed.

Lemma dart_buffers l : DartGen.generate_buffers (map strip_decl l) = DartGen.generate_buffers l.
Proof.
  unfold DartGen.generate_buffers.
  slists.
  erewrite rflat_ext; [reflexivity|].
  intros [e|s|f|d|c]; cbn [strip_decl]; rewrite ?dart_enum_buffers, ?(proj1 (dart_struct_buffers _)); reflexivity.
Qed.

Lemma dart_consts l : DartGen.generate_consts (map strip_decl l) = DartGen.generate_consts l.
Proof.
  unfold DartGen.generate_consts.
  rewrite !flat_map_map.
  do 2 apply f_equal.
  apply f_equal2; apply flat_map_ext; intros [e|s|f|d|c]; reflexivity.
Qed.

Lemma dart_rpc l : DartGen.generate_rpc (map strip_decl l) = DartGen.generate_rpc l.
Proof.
  unfold DartGen.generate_rpc, DartGen.generate_rpc_methods, DartGen.required_string.
  now rewrite !strip_directive, !strip_fns.
Qed.

Lemma dart_strip l m b r : DartGen.dart_generate (map strip_decl l) m b r = DartGen.dart_generate l m b r.
Proof.
  unfold DartGen.dart_generate, DartGen.generate_imports, DartGen.dart_lib_imports.
  now rewrite strip_group, strip_contains, strip_fns, dart_consts, dart_models, dart_buffers, dart_rpc.
Qed.

Lemma lem_C26_same_rust_file : forall a b models buffers rpc,
  same_but_field_positions a b -> RustGen.rust_generate a models buffers rpc = RustGen.rust_generate b models buffers rpc.
Proof.
  intros a b models buffers rpc H.
  rewrite <- (rust_strip a), <- (rust_strip b).
  now rewrite H.
Qed.

Lemma lem_C26_same_dart_file : forall a b models buffers rpc,
  same_but_field_positions a b -> DartGen.dart_generate a models buffers rpc = DartGen.dart_generate b models buffers rpc.
Proof.
  intros a b models buffers rpc H.
  rewrite <- (dart_strip a), <- (dart_strip b).
  now rewrite H.
Qed.

Definition c26_first : string := "struct P { #[1] x: i32, #[2] y: u8 } enum E { #[4] A { #[5] f: f32, #[9] g: f64 }, #[6] B(#[0] i32, #[7] u8) }".

Definition c26_other : string := "struct P { #[12] x: i32, #[3] y: u8 } enum E { #[4] A { #[6] f: f32, #[5] g: f64 }, #[6] B(#[8] i32, #[7] u8) }".
