(** Lemmas behind the theorems of PropertiesWhole.v. *)

(** Property theorems about what a generated file says about its schema, C67: the Rust file of models and codecs determines
    the types of the schema with all that the bytes depend on; files of models alone in Kotlin do not.  After each
    theorem, a concrete case that meets its hypotheses, and its axioms. *)
Require Import Coq.Strings.String Coq.Strings.Ascii.
Require Import Coq.NArith.NArith Coq.Lists.List Coq.Bool.Bool Coq.Arith.PeanoNat.
Require Import Verif.Base Verif.Ast Verif.Lexer Verif.Parser Verif.Code Verif.Writer Verif.WholeSpec.
Require Verif.RustSyntax Verif.RustGen Verif.RustTree Verif.RustFile Verif.RustWf Verif.RustLexed Verif.NumText Verif.ParseFacts.
Require Verif.PosFacts Verif.DartGen Verif.KotlinGen Verif.SwiftGen Verif.ParseProofs Verif.PrintProofs Verif.FieldFacts Verif.DeclaredFacts Verif.KotlinTree Verif.KotlinFacts.
Import RustSyntax(item, IStruct, IEnum, IImpl, RPath, Blk, EMatch, PNum, rf_body).
Import RustFile(rust_ready).
Import RustGen(rust_generate).
Import KotlinFacts(kotlin_models).
Import ListNotations.
Local Open Scope string_scope.
Local Open Scope list_scope.

(** Types of the schema can be told from those of Rust. *)
Lemma rty_of_inj : forall t u, ParseFacts.sized t -> ParseFacts.sized u -> RustTree.rty_of t = RustTree.rty_of u -> t = u.
Proof.
  intros t.
  assert (LEAF : forall id l, l <> [] -> RPath [id] (map RustTree.rty_of l) <> RPath [id] []) by (intros ? [|? ?] N; [now destruct N|discriminate]).
  assert (WORD : forall a b, FieldSpec.simple a = true -> FieldSpec.simple b = true -> ParseFacts.sized a -> ParseFacts.sized b ->
    SameTypesSpec.type_name a = SameTypesSpec.type_name b -> a = b).
  { intros a b SA SB A B E.
  destruct a as [n s g|n s|n|n|n l|n], b as [n' s' g'|n' s'|n'|n'|n' l'|n']; try discriminate SA; try discriminate SB; cbn in E; subst; cbn in A, B; try reflexivity; clear LEAF SA SB.
  all: repeat match goal with H : _ \/ _ |- _ => destruct H as [H|H] | H : _ /\ _ |- _ => destruct H end; subst; try discriminate; try reflexivity.
  all: exfalso; cbn in *; tauto.
  }
  induction t as [id n s|id n|id|id|g l IH|id] using RustLexed.type_id_ind2; intros u A B E.
  5:{ destruct u as [? ? ?|? ?|?|?|g' l'|?]; cbn [RustTree.rty_of] in E; try (injection E as -> E; destruct A as (A & _); destruct l; [now destruct A|discriminate E]).
  injection E as -> E.
  f_equal.
  apply FieldFacts.sized_args in A, B.
  revert l' B E.
  induction l as [|t l IHl]; intros [|u l'] B E; try discriminate E; [reflexivity|].
  injection E as E1 E2.
  inversion A; inversion B; inversion IH; subst.
  f_equal; auto.
  }
  all: destruct u as [? ? ?|? ?|?|?|g' l'|?]; cbn [RustTree.rty_of] in E;
    try (injection E as -> E; destruct B as (B & _); destruct l'; [now destruct B|discriminate E]);
    injection E as ->; apply WORD; auto.
Qed.

Lemma rty_ofs_inj l l' : Forall ParseFacts.sized l -> Forall ParseFacts.sized l' -> map RustTree.rty_of l = map RustTree.rty_of l' -> l = l'.
Proof.
  intros A.
  revert l'.
  induction A as [|t l T A IH]; intros [|u l'] B E; try discriminate E; [reflexivity|].
  injection E as E1 E2.
  inversion B; subst.
  f_equal; [now apply rty_of_inj|now apply IH].
Qed.

Lemma field_decls_inj l l' : Forall ParseFacts.sized (map sf_type l) -> Forall ParseFacts.sized (map sf_type l') ->
  map RustTree.field_decl l = map RustTree.field_decl l' -> map named_type l = map named_type l'.
Proof.
  revert l'.
  induction l as [|f l IH]; intros [|g l'] A B E; try discriminate E; [reflexivity|].
  cbn in *.
  injection E as E1 E2 E3.
  inversion A; inversion B; subst.
  f_equal; [|now apply IH].
  unfold named_type.
  f_equal; [exact E1|now apply rty_of_inj].
Qed.

(** What is taken from the items of a file: structs and enums, and for each codec the numbers that its reader knows. *)
Definition decl_items (i : item) : list item := match i with IStruct _ _ | IEnum _ _ => [i] | _ => [] end.

Definition numbers (arms : list (RustSyntax.pat * RustSyntax.ex)) : list string :=
  flat_map (fun a => match fst a with PNum w => [w] | _ => [] end) arms.

Definition codec_items (i : item) : list (string * option (list string)) :=
  match i with
  | IImpl tr (RPath [n] _) (f :: _) =>
      if String.eqb tr "IntoVMBuffers" then
        match rf_body f with Blk _ (Some (EMatch _ arms)) => [(n, Some (numbers arms))] | _ => [(n, None)] end
      else []
  | _ => []
  end.

Definition node_model (n : ast_node) : list item :=
  match n with
  | NStruct s => match sn_fields s with [] => [IStruct (sn_id s) None] | l => [IStruct (sn_id s) (Some (map RustTree.field_decl l))] end
  | NEnum e => match en_items e with [] => [] | l => [IEnum (en_id e) (map RustTree.variant_tree l)] end
  | _ => []
  end.

Definition node_codec (n : ast_node) : list (string * option (list string)) :=
  match n with
  | NStruct s => [(sn_id s, None)]
  | NEnum e => [(en_id e, Some (map (fun i => show_N (item_position i)) (en_items e)))]
  | _ => []
  end.

Lemma flat_nil {A B} (g : A -> list B) l : (forall y, In y l -> g y = []) -> flat_map g l = [].
Proof.
  induction l as [|y l IH]; intros H; [reflexivity|].
  cbn.
  rewrite (H y (or_introl eq_refl)).
  apply IH.
  intros z I.
  apply H.
  now right.
Qed.

Lemma arm_numbers en l : numbers (map (RustTree.enum_read_arm en) l ++ [RustTree.unsupported]) = map (fun i => show_N (item_position i)) l.
Proof.
  unfold numbers.
  induction l as [|i l IH]; [reflexivity|].
  cbn [map app flat_map].
  rewrite IH.
  now destruct i.
Qed.

Lemma front_items (ast : list ast_node) i :
  In i ([RustTree.allow "warnings"; RustTree.allow "clippy"; RustTree.allow "unknown_lints"] ++ [RustTree.buffers_use] ++ RustTree.user_uses ast ++ RustTree.consts_tree ast) ->
  decl_items i = [] /\ codec_items i = [].
Proof.
  rewrite !in_app_iff.
  intros [I|[I|[I|I]]].
  - destruct I as [<-|[<-|[<-|[]]]]; split; reflexivity.
  - destruct I as [<-|[]]; split; reflexivity.
  - apply in_flat_map in I.
  destruct I as (v & _ & I).
  destruct v as [[] ?]; cbn in I; try (destruct I; fail).
  destruct I as [<-|[]]; split; reflexivity.
  - apply in_flat_map in I.
  destruct I as (n & _ & I).
  destruct n as [| | | |c]; try (destruct I; fail).
  destruct I as [<-|[]], c; split; reflexivity.
Qed.

Lemma tree_split ast : RustTree.rust_tree ast true true false =
  ([RustTree.allow "warnings"; RustTree.allow "clippy"; RustTree.allow "unknown_lints"] ++ [RustTree.buffers_use] ++ RustTree.user_uses ast ++ RustTree.consts_tree ast) ++
  RustTree.models_tree ast ++ RustTree.buffers_tree ast.
Proof.
  unfold RustTree.rust_tree.
  cbn [andb].
  now rewrite <- !app_assoc, app_nil_r.
Qed.

Lemma tree_decls ast : flat_map decl_items (RustTree.rust_tree ast true true false) = flat_map node_model ast.
Proof.
  rewrite tree_split, flat_map_app, (flat_nil decl_items) by (intros y I; now apply front_items in I).
  rewrite flat_map_app.
  unfold RustTree.models_tree, RustTree.buffers_tree.
  rewrite !DeclaredFacts.flat_map_flat.
  rewrite (flat_nil (fun x => flat_map decl_items match x with NStruct n => [RustTree.struct_buffers_tree n] | NEnum n => [RustTree.enum_buffers_tree n] | _ => [] end)) by (intros [] _; reflexivity).
  rewrite app_nil_r.
  cbn [app].
  apply DeclaredFacts.flat_map_same.
  intros [e|s| | |] _; try reflexivity.
  - unfold RustTree.enum_model_tree, node_model.
  now destruct (en_items e).
  - unfold RustTree.struct_model_tree, node_model.
  now destruct (sn_fields s).
Qed.

Lemma tree_codecs ast : flat_map codec_items (RustTree.rust_tree ast true true false) = flat_map node_codec ast.
Proof.
  rewrite tree_split, flat_map_app, (flat_nil codec_items) by (intros y I; now apply front_items in I).
  rewrite flat_map_app.
  unfold RustTree.models_tree, RustTree.buffers_tree.
  rewrite !DeclaredFacts.flat_map_flat.
  rewrite (flat_nil (fun x => flat_map codec_items match x with NStruct n => RustTree.struct_model_tree n true | NEnum n => RustTree.enum_model_tree n | _ => [] end)).
  - cbn [app].
  apply DeclaredFacts.flat_map_same.
  intros [e|s| | |] _; try reflexivity.
  + cbn -[numbers].
  now rewrite arm_numbers.
  + cbn [flat_map codec_items RustTree.struct_buffers_tree RustTree.ty0 node_codec app].
  change (String.eqb "IntoVMBuffers" "IntoVMBuffers") with true.
  cbn iota.
  unfold RustTree.struct_read_fn.
  now destruct (sn_fields s).
  - intros [e|s| | |] _; try reflexivity.
  + unfold RustTree.enum_model_tree.
  now destruct (en_items e).
  + unfold RustTree.struct_model_tree.
  now destruct (sn_fields s).
Qed.

Definition fine_node (n : ast_node) : Prop := forall t, In t (ParseFacts.decl_types n) -> ParseFacts.sized t.

Lemma items_inj (l l' : list enum_item) :
  (forall i, In i l -> Forall ParseFacts.sized (FieldSpec.case_types i)) -> (forall i, In i l' -> Forall ParseFacts.sized (FieldSpec.case_types i)) ->
  map RustTree.variant_tree l = map RustTree.variant_tree l' -> map (fun i => show_N (item_position i)) l = map (fun i => show_N (item_position i)) l' ->
  map case_of l = map case_of l'.
Proof.
  revert l'.
  induction l as [|i l IH]; intros [|j l'] A B E F; try discriminate E; [reflexivity|].
  cbn [map] in E, F |- *.
  injection E as E1 E2.
  injection F as F1 F2.
  f_equal; [|apply IH; auto; intros k K; [apply A|apply B]; now right].
  specialize (A i (or_introl eq_refl)).
  specialize (B j (or_introl eq_refl)).
  apply NumText.show_N_inj in F1.
  destruct i as [p c|p c m|p c m], j as [q d|q d k|q d k]; cbn in E1, F1, A, B |- *; try discriminate E1; injection E1 as E1; subst; try reflexivity.
  - f_equal.
  f_equal.
  apply rty_ofs_inj; auto.
  now rewrite !map_map.
  - f_equal.
  f_equal.
  now apply field_decls_inj.
Qed.

Lemma contents_cons n l : contents (n :: l) = contents [n] ++ contents l.
Proof.
  unfold contents.
  cbn [flat_map].
  now rewrite app_nil_r.
Qed.

Definition typed (n : ast_node) : bool := match n with NStruct _ | NEnum _ => true | _ => false end.

Lemma typed_only {B} (g : ast_node -> list B) l : (forall n, typed n = false -> g n = []) -> flat_map g (filter typed l) = flat_map g l.
Proof.
  intros H.
  induction l as [|n l IH]; [reflexivity|].
  cbn [filter flat_map].
  destruct (typed n) eqn:T; cbn [flat_map]; rewrite IH; [reflexivity|].
  now rewrite (H n T).
Qed.

Lemma nodes_inj : forall l l', Forall fine_node l -> Forall fine_node l' -> forallb typed l = true -> forallb typed l' = true ->
  flat_map node_model l = flat_map node_model l' -> flat_map node_codec l = flat_map node_codec l' -> contents l = contents l'.
Proof.
  assert (ES : forall e, fine_node (NEnum e) -> forall i, In i (en_items e) -> Forall ParseFacts.sized (FieldSpec.case_types i)).
  { intros e F i I.
  apply Forall_forall.
  intros t T.
  apply F.
  cbn.
  apply in_flat_map.
  exists i.
  split; [exact I|].
  now destruct i.
  }
  assert (SS : forall s, fine_node (NStruct s) -> Forall ParseFacts.sized (map sf_type (sn_fields s))).
  { intros s F.
  apply Forall_forall.
  exact F.
  }
  induction l as [|n l IH]; intros [|n' l'] A B T T' M C.
  - reflexivity.
  - cbn in T'.
  destruct n'; try discriminate T'; discriminate C.
  - cbn in T.
  destruct n; try discriminate T; discriminate C.
  - rewrite (contents_cons n), (contents_cons n').
  cbn [forallb] in T, T'.
  rewrite andb_true_iff in T, T'.
  destruct T as [T1 T2], T' as [T1' T2'].
  inversion A as [|? ? A1 A2]; inversion B as [|? ? B1 B2]; subst.
  cbn [flat_map] in M, C.
  destruct n as [e|s| | |]; try discriminate T1; destruct n' as [e'|s'| | |]; try discriminate T1'; cbn [node_codec app] in C; try discriminate C.
  + injection C as C1 C2 C3.
  unfold contents at 1 3.
  cbn [flat_map app].
  cbn [node_model] in M.
  destruct (en_items e) as [|i is] eqn:E, (en_items e') as [|i' is'] eqn:E'; try discriminate C2.
  * rewrite C1.
  f_equal.
  now apply IH.
  * cbn [app] in M.
  injection M as _ M1 M2 M3.
  rewrite C1.
  f_equal; [|now apply IH].
  f_equal.
  apply (items_inj (i :: is) (i' :: is')); [rewrite <- E; now apply ES|rewrite <- E'; now apply ES| |exact C2].
  cbn [map].
  now rewrite M1, M2.
  + injection C as C1 C3.
  unfold contents at 1 3.
  cbn [flat_map app].
  cbn [node_model] in M.
  specialize (SS _ A1) as S1.
  specialize (SS _ B1) as S2.
  destruct (sn_fields s) as [|f fs] eqn:E, (sn_fields s') as [|f' fs'] eqn:E'; cbn [app] in M; try discriminate M.
  * injection M as _ M.
  rewrite C1.
  f_equal.
  now apply IH.
  * injection M as _ M1 M2 M3 M4.
  rewrite C1.
  f_equal; [|now apply IH].
  f_equal.
  apply field_decls_inj; [exact S1|exact S2|].
  cbn [map].
  unfold RustTree.field_decl at 1 3.
  now rewrite M1, M2, M3.
Qed.

Lemma lem_C67_rust_file : forall src src' ast ast' text, compile_front src = Ok ast -> compile_front src' = Ok ast' ->
  rust_ready ast = true -> rust_ready ast' = true ->
  rust_generate ast true true false = Ok text -> rust_generate ast' true true false = Ok text ->
  contents ast = contents ast'.
Proof.
  intros src src' ast ast' text P P' RD RD' G G'.
  assert (E : RustTree.rust_tree ast true true false = RustTree.rust_tree ast' true true false).
  { pose proof (RustWf.rust_file_generated ast true true false text RD G) as F.
  rewrite (RustWf.rust_file_generated ast' true true false text RD' G') in F.
  assert (S : forall (A : Type) (x y : A), Some x = Some y -> y = x) by (intros A x y [= ->]; reflexivity).
  exact (S _ _ _ F).
  }
  assert (W : forall s a, compile_front s = Ok a -> Forall fine_node (filter typed a)).
  { intros s a Q.
  apply Forall_forall.
  intros n I t T.
  apply filter_In in I.
  exact (FieldFacts.node_sized s a n t Q (proj1 I) T).
  }
  assert (Y : forall a, forallb typed (filter typed a) = true).
  { intros a.
  apply forallb_forall.
  intros n I.
  now apply filter_In in I.
  }
  assert (CT : forall a, contents (filter typed a) = contents a) by (intros a; apply typed_only; intros [] H; first [discriminate H|reflexivity]).
  rewrite <- (CT ast), <- (CT ast').
  apply nodes_inj; eauto.
  - rewrite !typed_only by (intros [] H; first [discriminate H|reflexivity]).
  rewrite <- !tree_decls.
  now rewrite E.
  - rewrite !typed_only by (intros [] H; first [discriminate H|reflexivity]).
  rewrite <- !tree_codecs.
  now rewrite E.
Qed.

(** Spaces and the positions of fields in structs do not matter: two sources of one file. *)
Definition c67_src : string := "struct Point { x: f32, id: u64 } enum Shape { Empty, Round(Point, i64), Named { all: Vec<u8> } } struct Nothing;".

Definition c67_src' : string := "struct Point{#[3] x:f32, #[9] id:u64,}  enum Shape { #[0] Empty, #[1] Round(Point, i64), #[2] Named { all: Vec<u8> } }  struct Nothing;".

Definition c67_ast : list ast_node := Eval vm_compute in match compile_front c67_src with Ok a => a | _ => [] end.

Definition c67_ast' : list ast_node := Eval vm_compute in match compile_front c67_src' with Ok a => a | _ => [] end.

Definition c67_text : string := match rust_generate c67_ast true true false with Ok t => t | _ => "" end.

(** The way back: the text of models and codecs is made from these parts alone. *)
Definition back_field (p : string * type_id) : struct_field := mk_struct_field 0 (fst p) (snd p).

Definition back_case (c : N * string * case_contents) : enum_item :=
  match c with
  | (p, n, CNone) => ItemEmpty p n
  | (p, n, CValues l) => ItemTuple p n (map (mk_tuple_field 0) l)
  | (p, n, CFields l) => ItemStruct p n (map back_field l)
  end.

Definition back (c : type_contents) : ast_node :=
  match c with
  | TStruct n l => NStruct (mk_struct n (map back_field l) true true)
  | TEnum n l => NEnum (mk_enum n (map back_case l))
  end.

Lemma flat_map_map {A B C} (g : B -> list C) (h : A -> B) l : flat_map g (map h l) = flat_map (fun x => g (h x)) l.
Proof.
  induction l as [|x l IH]; [reflexivity|].
  cbn.
  now rewrite IH.
Qed.

Lemma enumerate_map {A B} (h : A -> B) l : enumerate (map h l) = map (fun iv => (fst iv, h (snd iv))) (enumerate l).
Proof.
  unfold enumerate.
  generalize 0.
  induction l as [|x l IH]; intros k; [reflexivity|].
  cbn.
  now rewrite IH.
Qed.

Definition plain_field (f : struct_field) : struct_field := mk_struct_field 0 (sf_name f) (sf_type f).

Definition plain_value (v : tuple_field) : tuple_field := mk_tuple_field 0 (tf_type v).

Definition plain_item (i : enum_item) : enum_item :=
  match i with ItemEmpty p c => ItemEmpty p c | ItemTuple p c l => ItemTuple p c (map plain_value l) | ItemStruct p c l => ItemStruct p c (map plain_field l) end.

Definition plain_struct (s : struct_node) : struct_node := mk_struct (sn_id s) (map plain_field (sn_fields s)) true true.

Definition plain_enum (e : enum_node) : enum_node := mk_enum (en_id e) (map plain_item (en_items e)).

Lemma back_case_of i : back_case (case_of i) = plain_item i.
Proof.
  destruct i as [p c|p c l|p c l]; cbn; now rewrite ?map_map.
Qed.

Lemma back_struct s : back (TStruct (sn_id s) (map named_type (sn_fields s))) = NStruct (plain_struct s).
Proof.
  cbn.
  now rewrite map_map.
Qed.

Lemma back_enum e : back (TEnum (en_id e) (map case_of (en_items e))) = NEnum (plain_enum e).
Proof.
  cbn.
  now rewrite map_map, (map_ext _ _ back_case_of).
Qed.

Lemma plain_params t b l : RustGen.generate_struct_parameters t b (map plain_field l) = RustGen.generate_struct_parameters t b l.
Proof.
  unfold RustGen.generate_struct_parameters.
  now rewrite flat_map_map.
Qed.

Lemma plain_tuple t l : RustGen.generate_tuple_parameters t (map plain_value l) = RustGen.generate_tuple_parameters t l.
Proof.
  unfold RustGen.generate_tuple_parameters.
  now rewrite flat_map_map.
Qed.

Lemma plain_default s : RustGen.generate_struct_default (plain_struct s) = RustGen.generate_struct_default s.
Proof.
  unfold RustGen.generate_struct_default, plain_struct.
  cbn [sn_id sn_fields].
  now rewrite flat_map_map.
Qed.

Lemma plain_model s d : RustGen.generate_struct_model (plain_struct s) d = RustGen.generate_struct_model s d.
Proof.
  unfold RustGen.generate_struct_model.
  rewrite plain_default.
  unfold plain_struct.
  cbn [sn_id sn_fields].
  rewrite plain_params.
  now destruct (sn_fields s).
Qed.

Lemma plain_struct_codec s : RustGen.generate_struct_buffers (plain_struct s) = RustGen.generate_struct_buffers s.
Proof.
  unfold RustGen.generate_struct_buffers, RustGen.generate_struct_buffers_read_from_buffers, RustGen.generate_struct_buffers_write_to_buffers, RustGen.generate_struct_buffers_skip, plain_struct.
  cbn [sn_id sn_fields].
  rewrite !flat_map_map.
  now destruct (sn_fields s).
Qed.

Lemma plain_items (g : enum_item -> list Writer.wop) l : (forall i, g (plain_item i) = g i) -> flat_map g (map plain_item l) = flat_map g l.
Proof.
  intros H.
  rewrite flat_map_map.
  now apply flat_map_ext.
Qed.

Lemma plain_enum_model e : RustGen.generate_enum_model (plain_enum e) = RustGen.generate_enum_model e.
Proof.
  unfold RustGen.generate_enum_model, plain_enum.
  cbn [en_id en_items].
  rewrite plain_items by (intros [p c|p c l|p c l]; cbn [plain_item]; rewrite ?plain_tuple, ?plain_params; reflexivity).
  destruct (en_items e) as [|i is]; [reflexivity|].
  cbn [map].
  destruct i as [p c|p c l|p c l]; cbn [plain_item]; rewrite ?flat_map_map; reflexivity.
Qed.

Lemma plain_enum_codec e : RustGen.generate_enum_buffers (plain_enum e) = RustGen.generate_enum_buffers e.
Proof.
  unfold RustGen.generate_enum_buffers, RustGen.generate_enum_buffers_read_from_buffers, RustGen.generate_enum_buffers_write_to_buffers, RustGen.generate_enum_buffers_skip, plain_enum.
  cbn [en_id en_items].
  rewrite !plain_items; [reflexivity| | |]; intros [p c|p c l|p c l]; cbn [plain_item]; rewrite ?enumerate_map, ?flat_map_map; reflexivity.
Qed.

Lemma models_from ast : RustGen.generate_models ast = RustGen.generate_models (map back (contents ast)).
Proof.
  unfold RustGen.generate_models.
  match goal with |- bind (mapM ?f _) _ = _ => set (g := f) end.
  assert (E : (let* parts := mapM g ast in Ok (concat parts)) = (let* parts := mapM g (map back (contents ast)) in Ok (concat parts))).
  { induction ast as [|n l IH]; [reflexivity|].
  rewrite contents_cons, map_app.
  assert (H : contents [n] = [] /\ g n = Ok [] \/ exists c, contents [n] = [c] /\ g (back c) = g n).
  { destruct n as [e|s| | |]; try (left; split; reflexivity); right; eexists; (split; [reflexivity|]).
  - rewrite back_enum.
  unfold g.
  now rewrite plain_enum_model.
  - rewrite back_struct.
  unfold g.
  now rewrite plain_model.
  }
    destruct H as [(-> & H)|(c & -> & H)]; cbn [map app mapM].
  - rewrite H.
  cbn [bind].
  rewrite <- IH.
  now destruct (mapM g l).
  - rewrite H.
  destruct (g n) as [x| |]; try reflexivity.
  cbn [bind].
  destruct (mapM g l), (mapM g (map back (contents l))); cbn in IH |- *; try discriminate IH; try reflexivity.
  injection IH as ->.
  reflexivity.
  }
  destruct (mapM g ast), (mapM g (map back (contents ast))); cbn in E |- *; try discriminate E; try reflexivity.
  injection E as ->.
  reflexivity.
Qed.

Lemma codecs_from ast : RustGen.generate_buffers ast = RustGen.generate_buffers (map back (contents ast)).
Proof.
  unfold RustGen.generate_buffers.
  f_equal.
  f_equal.
  rewrite flat_map_map.
  unfold contents.
  rewrite DeclaredFacts.flat_map_flat.
  apply flat_map_ext.
  intros [e|s| | |]; try reflexivity; cbn [flat_map]; rewrite app_nil_r.
  - rewrite back_enum.
  now rewrite plain_enum_codec.
  - rewrite back_struct.
  now rewrite plain_struct_codec.
Qed.

Lemma lem_C67_rust_text : forall ast ast', contents ast = contents ast' ->
  RustGen.generate_models ast = RustGen.generate_models ast' /\ RustGen.generate_buffers ast = RustGen.generate_buffers ast'.
Proof.
  intros ast ast' E.
  now rewrite (models_from ast), (models_from ast'), (codecs_from ast), (codecs_from ast'), E.
Qed.

Lemma fns_nodes ast : find_fn_nodes ast = fns ast.
Proof.
  induction ast as [|n l IH]; [reflexivity|].
  destruct n; cbn; now rewrite IH.
Qed.

Lemma fns_has ast : RustGen.has_rpc_methods ast = match fns ast with [] => false | _ => true end.
Proof.
  induction ast as [|n l IH]; [reflexivity|].
  destruct n; cbn; auto.
Qed.

Lemma consts_has ast : contains_consts_nodes ast = match const_blocks ast with [] => false | _ => true end.
Proof.
  induction ast as [|n l IH]; [reflexivity|].
  destruct n; cbn; auto.
Qed.

Lemma directive_value ast k : find_directive_value ast k = find_directive_value (map NDirective (directives ast)) k.
Proof.
  induction ast as [|n l IH]; [reflexivity|].
  destruct n as [| | |[|]|]; cbn; auto.
  now rewrite IH.
Qed.

Lemma directive_values ast g k : find_directive_group_values ast g k = find_directive_group_values (map NDirective (directives ast)) g k.
Proof.
  induction ast as [|n l IH]; [reflexivity|].
  destruct n as [| | |[|]|]; cbn; auto.
  now rewrite IH.
Qed.

Lemma fns_text {B} (g : fn_node -> list B) ast : flat_map (fun n => match n with NFn f => g f | _ => [] end) ast = flat_map g (fns ast).
Proof.
  induction ast as [|n l IH]; [reflexivity|].
  destruct n; cbn; now rewrite IH.
Qed.

Lemma consts_text {B} (g : const_node -> list B) ast : flat_map (fun n => match n with NConst c => g c | _ => [] end) ast = flat_map g (const_blocks ast).
Proof.
  induction ast as [|n l IH]; [reflexivity|].
  destruct n; cbn; now rewrite IH.
Qed.

Lemma lem_C67_rust_kinds : forall ast ast' models buffers rpc, contents ast = contents ast' -> fns ast = fns ast' ->
  const_blocks ast = const_blocks ast' -> directives ast = directives ast' ->
  rust_generate ast models buffers rpc = rust_generate ast' models buffers rpc.
Proof.
  intros ast ast' models buffers rpc C F K D.
  destruct (lem_C67_rust_text ast ast' C) as (M & B).
  unfold rust_generate, RustGen.generate_uses, RustGen.rust_lib_uses, RustGen.generate_consts, RustGen.generate_rpc, RustGen.generate_register_fn.
  rewrite M, B, (directive_values ast), (directive_values ast'), (directive_value ast), (directive_value ast'), D, (consts_has ast), (consts_has ast'),
    (fns_has ast), (fns_has ast'), (fns_nodes ast), (fns_nodes ast').
  rewrite (consts_text _ ast), (consts_text _ ast'), (fns_text _ ast), (fns_text _ ast'), K, F.
  reflexivity.
Qed.

Lemma parts_from {B} (g : ast_node -> res (list B)) ast :
  (forall n, In n ast -> contents [n] = [] /\ g n = Ok [] \/ exists c, contents [n] = [c] /\ g (back c) = g n) ->
  (let* parts := mapM g ast in Ok (concat parts)) = (let* parts := mapM g (map back (contents ast)) in Ok (concat parts)).
Proof.
  induction ast as [|n l IH]; intros H; [reflexivity|].
  specialize (IH (fun m I => H m (or_intror I))).
  rewrite contents_cons, map_app.
  destruct (H n (or_introl eq_refl)) as [(-> & E)|(c & -> & E)]; cbn [map app mapM].
  - rewrite E.
  cbn [bind].
  rewrite <- IH.
  now destruct (mapM g l).
  - rewrite E.
  destruct (g n) as [x| |]; try reflexivity.
  cbn [bind].
  destruct (mapM g l), (mapM g (map back (contents l))); cbn in IH |- *; try discriminate IH; try reflexivity.
  injection IH as ->.
  reflexivity.
Qed.

Definition flagged (n : ast_node) : Prop := match n with NStruct s => sn_emplace s = true /\ sn_into s = true | _ => True end.

Lemma front_flagged src ast : compile_front src = Ok ast -> forall n, In n ast -> flagged n.
Proof.
  unfold compile_front.
  destruct (tokenize src) as [ts| |]; try discriminate.
  cbn [bind].
  intros P n I.
  apply ParseProofs.parse_iff_grammar, PrintProofs.schema_wf in P.
  revert P I.
  generalize 0%N.
  induction ast as [|m l IH]; intros k W I; [destruct I|].
  destruct W as [W WS].
  destruct I as [->|I]; [|exact (IH _ WS I)].
  destruct n; try exact Logic.I.
  cbn in W |- *.
  tauto.
Qed.

Lemma strip_back_struct s : flagged (NStruct s) -> back (TStruct (sn_id s) (map named_type (sn_fields s))) = NStruct (PosFacts.strip_struct s).
Proof.
  intros (A & B).
  cbn.
  unfold PosFacts.strip_struct.
  now rewrite map_map, A, B.
Qed.

Lemma strip_back_enum e : back (TEnum (en_id e) (map case_of (en_items e))) = NEnum (PosFacts.strip_enum e).
Proof.
  cbn.
  unfold PosFacts.strip_enum.
  f_equal.
  f_equal.
  rewrite map_map.
  apply map_ext.
  intros [p c|p c l|p c l]; cbn; now rewrite ?map_map.
Qed.

Lemma dart_from ast : (forall n, In n ast -> flagged n) ->
  DartGen.generate_models ast = DartGen.generate_models (map back (contents ast)) /\
  DartGen.generate_buffers ast = DartGen.generate_buffers (map back (contents ast)).
Proof.
  intros F.
  unfold DartGen.generate_models, DartGen.generate_buffers, DartGen.rflat.
  split.
  all: match goal with |- (let* ops := (let* parts := mapM ?f _ in _) in _) = _ => pose proof (parts_from f ast) as H end.
  all: rewrite H; [reflexivity|].
  all: intros [e|s| | |] I; try (left; split; reflexivity); right; eexists; (split; [reflexivity|]).
  - rewrite strip_back_enum.
  now rewrite PosFacts.dart_enum_model.
  - rewrite (strip_back_struct s (F _ I)).
  now rewrite PosFacts.dart_struct_model.
  - rewrite strip_back_enum.
  now rewrite PosFacts.dart_enum_buffers.
  - rewrite (strip_back_struct s (F _ I)).
  now rewrite (proj1 (PosFacts.dart_struct_buffers s)).
Qed.

Lemma lem_C67_dart_kinds : forall src src' ast ast' models buffers rpc, compile_front src = Ok ast -> compile_front src' = Ok ast' ->
  contents ast = contents ast' -> fns ast = fns ast' -> const_blocks ast = const_blocks ast' -> directives ast = directives ast' ->
  DartGen.dart_generate ast models buffers rpc = DartGen.dart_generate ast' models buffers rpc.
Proof.
  intros src src' ast ast' models buffers rpc P P' C F K D.
  destruct (dart_from ast (front_flagged src ast P)) as (M & B).
  destruct (dart_from ast' (front_flagged src' ast' P')) as (M' & B').
  unfold DartGen.dart_generate, DartGen.generate_imports, DartGen.dart_lib_imports, DartGen.generate_consts, DartGen.generate_rpc, DartGen.generate_rpc_methods, DartGen.required_string.
  rewrite M, M', B, B', C, !(directive_values ast), !(directive_values ast'), !(directive_value ast), !(directive_value ast'), D, (consts_has ast), (consts_has ast'),
    (fns_nodes ast), (fns_nodes ast').
  rewrite !(consts_text _ ast), !(consts_text _ ast'), K, F.
  reflexivity.
Qed.

Lemma lem_C67_kotlin_kinds : forall ast ast', contents ast = contents ast' -> const_blocks ast = const_blocks ast' ->
  KotlinGen.generate_models ast = KotlinGen.generate_models ast' /\ KotlinGen.generate_consts ast = KotlinGen.generate_consts ast'.
Proof.
  intros ast ast' C K.
  split; [|unfold KotlinGen.generate_consts; now rewrite !(consts_text _ _), K].
  assert (H : forall a, KotlinGen.generate_models a = KotlinGen.generate_models (map back (contents a))).
  { intros a.
  unfold KotlinGen.generate_models.
  apply parts_from.
  intros [e|s| | |] I; try (left; split; reflexivity); right; eexists; (split; [reflexivity|]).
  - destruct e as [n l].
  cbn.
  unfold KotlinGen.generate_enum_model, KotlinGen.generate_enum_interface, KotlinGen.default_arguments.
  cbn.
  assert (M : map (KotlinGen.generate_enum_case (mk_enum n (map back_case (map case_of l)))) (map back_case (map case_of l)) =
                  map (KotlinGen.generate_enum_case (mk_enum n l)) l).
  { rewrite !map_map.
  apply map_ext.
  intros [p c|p c v|p c v]; cbn; rewrite ?map_map; try reflexivity.
  unfold KotlinGen.generate_enum_case.
  f_equal.
  rewrite PosFacts.enumerate_strip, map_map.
  reflexivity.
  }
      rewrite M.
  destruct l as [|[p c|p c v|p c v] l]; cbn; rewrite ?map_map; reflexivity.
  - destruct s as [n l a1 a2].
  cbn.
  unfold KotlinGen.generate_struct_model, KotlinGen.default_arguments.
  cbn.
  rewrite !map_map.
  destruct l; reflexivity.
  }
  now rewrite (H ast), (H ast'), C.
Qed.

Lemma lem_C67_swift_kinds : forall ast ast', contents ast = contents ast' -> const_blocks ast = const_blocks ast' ->
  SwiftGen.generate_models ast = SwiftGen.generate_models ast' /\ SwiftGen.generate_consts ast = SwiftGen.generate_consts ast'.
Proof.
  intros ast ast' C K.
  split; [|unfold SwiftGen.generate_consts; now rewrite !(consts_text _ _), K].
  assert (H : forall a, SwiftGen.generate_models a = SwiftGen.generate_models (map back (contents a))).
  { intros a.
  unfold SwiftGen.generate_models.
  apply parts_from.
  intros [e|s| | |] I; try (left; split; reflexivity); right; eexists; (split; [reflexivity|]).
  - destruct e as [n l].
  cbn.
  unfold SwiftGen.generate_enum_model.
  cbn.
  assert (M : map (fun case => SwiftGen.SEnumCase (item_id case) (SwiftGen.case_parameters case)) (map back_case (map case_of l)) =
                  map (fun case => SwiftGen.SEnumCase (item_id case) (SwiftGen.case_parameters case)) l).
  { rewrite !map_map.
  apply map_ext.
  intros [p c|p c v|p c v]; cbn; rewrite ?map_map; reflexivity.
  }
      rewrite M.
  destruct l as [|[p c|p c v|p c v] l]; cbn; rewrite ?map_map; reflexivity.
  - destruct s as [n l a1 a2].
  cbn.
  unfold SwiftGen.generate_struct_model.
  cbn.
  rewrite !map_map.
  reflexivity.
  }
  now rewrite (H ast), (H ast'), C.
Qed.

Definition c67_mixed_src : string :=
  "fn area(at: Point) -> f64; struct Point { x: f32, id: u64 } #[id = ""7""] const Sizes { MAX: u32 = 9; } enum Shape { Empty, Round(Point, i64) } fn name() -> String;".

Definition c67_sorted_src : string :=
  "#[id = ""7""] const Sizes { MAX: u32 = 9; } struct Point { #[1] x: f32, #[4] id: u64 } enum Shape { Empty, Round(#[2] Point, #[3] i64) } fn area(at: Point) -> f64; fn name() -> String;".

Definition c67_mixed : list ast_node := Eval vm_compute in match compile_front c67_mixed_src with Ok a => a | _ => [] end.

Definition c67_sorted : list ast_node := Eval vm_compute in match compile_front c67_sorted_src with Ok a => a | _ => [] end.

Lemma lem_C67_kotlin_refuted : exists src src' ast ast' text, compile_front src = Ok ast /\ compile_front src' = Ok ast' /\
  KotlinTree.models_ready ast = true /\ KotlinTree.models_ready ast' = true /\
  kotlin_models ast = Ok text /\ kotlin_models ast' = Ok text /\ contents ast <> contents ast'.
Proof.
  exists "enum A { B, C }", "enum A { #[1] B, #[0] C }",
    [NEnum (mk_enum "A" [ItemEmpty 0 "B"; ItemEmpty 1 "C"])], [NEnum (mk_enum "A" [ItemEmpty 1 "B"; ItemEmpty 0 "C"])].
  eexists.
  split; [vm_compute; reflexivity|].
  split; [vm_compute; reflexivity|].
  split; [vm_compute; reflexivity|].
  split; [vm_compute; reflexivity|].
  split; [vm_compute; reflexivity|].
  split; [vm_compute; reflexivity|].
  discriminate.
Qed.
