(** Lemmas behind the theorems of PropertiesField.v. *)

(** Property theorems about the types of fields in all generated languages, C65: the fields of structs and the values of
    cases have the types that belong to those of the schema.  The texts are read back by the readers of the languages.
    After each theorem, a concrete case that meets its hypotheses, and its axioms. *)
Require Import Coq.Strings.String Coq.Strings.Ascii.
Require Import Coq.NArith.NArith Coq.Lists.List Coq.Bool.Bool Coq.Arith.PeanoNat.
Require Import Verif.Base Verif.Ast Verif.Lexer Verif.Parser Verif.CaseConv Verif.Code.
Require Import Verif.SameTypesSpec Verif.FieldSpec Verif.Writer.
Require Verif.RustSyntax Verif.RustGen Verif.RustCodec Verif.RustTree Verif.RustFile Verif.RustWf Verif.CodecFacts Verif.DefaultFacts Verif.RustLexed.
Require Verif.DartSyntax Verif.DartGen Verif.DartTree Verif.DartFile Verif.DartWf Verif.DartFacts.
Require Verif.KotlinSyntax Verif.KotlinTree Verif.KotlinFacts Verif.SwiftSyntax Verif.SwiftTree Verif.SwiftFacts Verif.ParseFacts.
Import RustSyntax(IStruct, IEnum, VUnit, VTuple, VStruct).
Import DartSyntax(DClass, MField).
Import KotlinSyntax(YClass, YObject, YInterface, kotlin_file).
Import SwiftSyntax(ZStruct, ZEnum, ZVar, ZCase, swift_file).
Import RustFile(rust_ready).
Import DartFile(dart_ready).
Import CodecFacts(file_items).
Import DartFacts(dart_items).
Import KotlinFacts(kotlin_models).
Import SwiftFacts(swift_models).
Import ListNotations.
Local Open Scope string_scope.
Local Open Scope list_scope.

Lemma means_all L (f : type_id -> shape) l : Forall (fun t => means L t (f t)) l -> all_mean L l (map f l).
Proof.
  induction 1; cbn; now constructor.
Qed.

Lemma means_forall L (f : type_id -> shape) (ok : type_id -> bool) l :
  Forall (fun t => ok t = true -> means L t (f t)) l -> Forall2 (fun t s => ok t = true -> means L t s) l (map f l).
Proof.
  induction 1; cbn; now constructor.
Qed.

Lemma sized_args g l : ParseFacts.sized (TyGeneric g l) -> Forall ParseFacts.sized l.
Proof.
  cbn.
  intros (_ & H).
  induction l as [|t l IH]; constructor; [apply H|].
  apply IH, H.
Qed.

(** From the leaves to all types. *)
Lemma generic_means L (f : type_id -> shape) (ok : type_id -> bool) :
  (forall t, simple t = true -> ParseFacts.sized t -> ok t = true -> means L t (f t)) ->
  (forall t, f (TyGeneric "Vec" [t]) = Shape (l_list L) [f t]) ->
  (forall g l, g <> "Vec" -> f (TyGeneric g l) = Shape g (map f l)) ->
  (forall g l, ok (TyGeneric g l) = true -> forallb ok l = true) ->
  forall t, ParseFacts.sized t -> lists_fine t && ok t = true -> means L t (f t).
Proof.
  intros B V G O t.
  induction t as [id n s|id n|id|id|g l IH|id] using RustLexed.type_id_ind2; intros SZ C;
    rewrite andb_true_iff in C; destruct C as [C K]; try (apply B; [reflexivity|exact SZ|exact K]).
  apply sized_args in SZ.
  apply O in K.
  cbn [lists_fine] in C.
  rewrite andb_true_iff in C.
  destruct C as [N C].
  assert (A : Forall (fun t => means L t (f t)) l).
  { rewrite Forall_forall in *.
  rewrite forallb_forall in *.
  intros t I.
  apply IH; [exact I|now apply SZ|].
  now rewrite (C t I), (K t I).
  }
  destruct (String.eqb_spec g "Vec") as [->|NE].
  - destruct l as [|t [|? ?]]; try discriminate N.
  rewrite V.
  constructor.
  now inversion A.
  - rewrite (G g l NE).
  constructor; [exact NE|].
  now apply means_all.
Qed.

Ltac named := apply means_named; [reflexivity|repeat first [left; reflexivity | right]].

Lemma rust_means t : ParseFacts.sized t -> lists_fine t && true = true -> means rust t (rust_shape (RustTree.rty_of t)).
Proof.
  apply (generic_means rust (fun t => rust_shape (RustTree.rty_of t)) (fun _ => true)); try reflexivity.
  - intros u S SZ _.
  destruct u as [id n s|id n|id|id|g l|id]; cbn [ParseFacts.sized] in SZ; try discriminate S; cbn [RustTree.rty_of rust_shape map].
  + destruct SZ as [(-> & _)|[(-> & _)|[(-> & _)|[(-> & _)|[(-> & _)|(-> & _)]]]]]; named.
  + destruct SZ as [(-> & _)|(-> & _)]; named.
  + subst id; named.
  + subst id; named.
  + apply means_own.
  intros I.
  apply SZ.
  cbn in I |- *.
  intuition.
  - intros g l _.
  cbn [RustTree.rty_of rust_shape].
  now rewrite map_map.
  - intros _ l _.
  induction l; [reflexivity|exact IHl].
Qed.

Lemma dart_means t : ParseFacts.sized t -> lists_fine t && true = true -> means dart t (dart_shape (DartTree.dty_of t)).
Proof.
  apply (generic_means dart (fun t => dart_shape (DartTree.dty_of t)) (fun _ => true)); try reflexivity.
  - intros u S SZ _.
  destruct u as [id n s|id n|id|id|g l|id]; cbn [ParseFacts.sized] in SZ; try discriminate S; cbn [DartTree.dty_of DartTree.ty0 dart_shape map].
  + destruct SZ as [(-> & _)|[(-> & _)|[(-> & _)|[(-> & _)|[(-> & _)|(-> & _)]]]]]; named.
  + destruct SZ as [(-> & _)|(-> & _)]; named.
  + subst id; named.
  + subst id; named.
  + apply means_own.
  intros I.
  apply SZ.
  cbn in I |- *.
  intuition.
  - intros g l NE.
  cbn [DartTree.dty_of dart_shape].
  unfold DartGen.list_name.
  apply String.eqb_neq in NE.
  now rewrite NE, map_map.
  - intros _ l _.
  induction l; [reflexivity|exact IHl].
Qed.

Lemma address_either n : KotlinTree.address n = true -> n = "GroupAddress" \/ n = "CommandsBufferAddress".
Proof.
  unfold KotlinTree.address, KotlinSyntax.among.
  cbn [existsb].
  rewrite !orb_true_iff, !String.eqb_eq.
  intuition discriminate.
Qed.

Lemma kotlin_means t : ParseFacts.sized t -> lists_fine t && true = true -> means kotlin t (kotlin_shape (KotlinTree.ktype t)).
Proof.
  apply (generic_means kotlin (fun t => kotlin_shape (KotlinTree.ktype t)) (fun _ => true)); try reflexivity.
  - intros u S SZ _.
  destruct u as [id n s|id n|id|id|g l|id]; cbn [ParseFacts.sized] in SZ; try discriminate S; cbn [KotlinTree.ktype kotlin_shape map].
  + destruct SZ as [(-> & -> & ->)|[(-> & -> & ->)|[(-> & -> & ->)|[(-> & -> & ->)|[(-> & -> & ->)|(-> & -> & ->)]]]]]; named.
  + destruct SZ as [(-> & ->)|(-> & ->)]; named.
  + subst id; named.
  + subst id; named.
  + destruct (KotlinTree.address id) eqn:A.
  * destruct (address_either id A) as [->| ->]; named.
  * destruct (String.eqb_spec id "String") as [->|NS]; [named|].
  apply means_own.
  intros I.
  apply SZ.
  cbn in I |- *.
  intuition; subst; discriminate.
  - intros g l NE.
  cbn [KotlinTree.ktype kotlin_shape].
  apply String.eqb_neq in NE.
  now rewrite NE, map_map.
  - intros _ l _.
  induction l; [reflexivity|exact IHl].
Qed.

Lemma swift_means t : ParseFacts.sized t -> lists_fine t && no_char t = true -> means swift t (swift_shape (SwiftTree.stype t)).
Proof.
  apply (generic_means swift (fun t => swift_shape (SwiftTree.stype t)) no_char); try reflexivity.
  - intros u S SZ NC.
  destruct u as [id n s|id n|id|id|g l|id]; cbn [ParseFacts.sized] in SZ; try discriminate S; try discriminate NC; cbn [SwiftTree.stype swift_shape map].
  + destruct SZ as [(-> & -> & ->)|[(-> & -> & ->)|[(-> & -> & ->)|[(-> & -> & ->)|[(-> & -> & ->)|(-> & -> & ->)]]]]]; named.
  + destruct SZ as [(-> & ->)|(-> & ->)]; named.
  + subst id; named.
  + unfold SwiftTree.other_type.
  destruct (KotlinTree.address id) eqn:A.
  * destruct (address_either id A) as [->| ->]; named.
  * destruct (String.eqb_spec id "String") as [->|NS]; [named|].
  apply means_own.
  intros I.
  apply SZ.
  cbn in I |- *.
  intuition; subst; discriminate.
  - intros g l NE.
  apply String.eqb_neq in NE.
  cbn [SwiftTree.stype].
  rewrite NE.
  destruct l as [|a [|b l]]; cbn [swift_shape map]; try reflexivity.
  now rewrite map_map.
  - intros g l NC.
  exact NC.
Qed.

Lemma node_sized src ast n t : compile_front src = Ok ast -> In n ast -> In t (ParseFacts.decl_types n) -> ParseFacts.sized t.
Proof.
  unfold compile_front.
  destruct (tokenize src) as [ts| |]; try discriminate.
  cbn [bind].
  intros P I T.
  exact (ParseFacts.lem_C14_types_are_sized ts ast n t P I T).
Qed.

Lemma struct_sized src ast s : compile_front src = Ok ast -> In (NStruct s) ast -> Forall ParseFacts.sized (map sf_type (sn_fields s)).
Proof.
  intros P I.
  apply Forall_forall.
  intros t T.
  exact (node_sized src ast (NStruct s) t P I T).
Qed.

Lemma case_sized src ast e i : compile_front src = Ok ast -> In (NEnum e) ast -> In i (en_items e) -> Forall ParseFacts.sized (case_types i).
Proof.
  intros P I J.
  apply Forall_forall.
  intros t T.
  apply (node_sized src ast (NEnum e) t P I).
  cbn [ParseFacts.decl_types].
  apply in_flat_map.
  exists i.
  split; [exact J|].
  destruct i; exact T.
Qed.

Lemma enumerated {A} (l : list A) : map snd (enumerate l) = l.
Proof.
  unfold enumerate.
  generalize 0.
  induction l as [|x l IH]; intros k; [reflexivity|].
  cbn.
  now rewrite IH.
Qed.

Lemma lem_C65_rust : forall src ast buffers rpc items, compile_front src = Ok ast -> rust_ready ast = true -> file_items ast true buffers rpc items ->
  (forall s, In (NStruct s) ast ->
    match sn_fields s with
    | [] => In (IStruct (sn_id s) None) items
    | _ => exists fs, In (IStruct (sn_id s) (Some fs)) items /\ map fst fs = map sf_name (sn_fields s) /\
        Forall2 (fun t f => lists_fine t = true -> means rust t (rust_shape (snd f))) (map sf_type (sn_fields s)) fs
    end) /\
  (forall e i, In (NEnum e) ast -> In i (en_items e) -> exists vs, In (IEnum (en_id e) vs) items /\
    match i with
    | ItemEmpty _ c => In (VUnit c) vs
    | ItemTuple _ c l => exists ts, In (VTuple c ts) vs /\ Forall2 (fun t r => lists_fine t = true -> means rust t (rust_shape r)) (map tf_type l) ts
    | ItemStruct _ c l => exists fs, In (VStruct c fs) vs /\ map fst fs = map sf_name l /\
        Forall2 (fun t f => lists_fine t = true -> means rust t (rust_shape (snd f))) (map sf_type l) fs
    end).
Proof.
  intros src ast buffers rpc items P RD (text & G & F).
  rewrite (RustWf.rust_file_generated ast true buffers rpc text RD G) in F.
  injection F as <-.
  assert (M : forall x, In x (RustTree.models_tree ast) -> In x (RustTree.rust_tree ast true buffers rpc)).
  { intros x I.
  unfold RustTree.rust_tree.
  apply in_or_app; right.
  apply in_or_app; right.
  apply in_or_app; right.
  apply in_or_app; right.
  apply in_or_app; left.
  exact I.
  }
  assert (W : forall t, ParseFacts.sized t -> lists_fine t = true -> means rust t (rust_shape (RustTree.rty_of t))).
  { intros t SZ C.
  apply rust_means; [exact SZ|now rewrite C].
  }
  assert (FS : forall l, Forall ParseFacts.sized (map sf_type l) ->
    map fst (map RustTree.field_decl l) = map sf_name l /\
    Forall2 (fun t f => lists_fine t = true -> means rust t (rust_shape (snd f))) (map sf_type l) (map RustTree.field_decl l)).
  { intros l SZ.
  split; [now rewrite map_map|].
  induction l as [|f l IH]; constructor.
  - intros C.
  apply W; [now inversion SZ|exact C].
  - apply IH.
  now inversion SZ.
  }
  split.
  - intros s I.
  pose proof (struct_sized src ast s P I) as SZ.
  assert (J : forall x, In x (RustTree.struct_model_tree s true) -> In x (RustTree.rust_tree ast true buffers rpc)).
  { intros x H.
  apply M.
  unfold RustTree.models_tree.
  apply in_flat_map.
  now exists (NStruct s).
  }
  unfold RustTree.struct_model_tree in J.
  destruct (sn_fields s) as [|f l] eqn:E.
  + apply J.
  right; left; reflexivity.
  + exists (map RustTree.field_decl (f :: l)).
  split; [apply J; right; left; reflexivity|].
  now apply FS.
  - intros e i I K.
  pose proof (case_sized src ast e i P I K) as SZ.
  exists (map RustTree.variant_tree (en_items e)).
  split.
  + apply M.
  unfold RustTree.models_tree.
  apply in_flat_map.
  exists (NEnum e).
  split; [exact I|].
  unfold RustTree.enum_model_tree.
  destruct (en_items e); [destruct K|].
  right; left; reflexivity.
  + apply (in_map RustTree.variant_tree) in K.
  destruct i as [p c|p c l|p c l]; cbn [RustTree.variant_tree case_types] in *.
  * exact K.
  * exists (map (fun v => RustTree.rty_of (tf_type v)) l).
  split; [exact K|].
  clear K.
  induction l as [|v l IH]; constructor.
  -- intros C.
  apply W; [now inversion SZ|exact C].
  -- apply IH.
  now inversion SZ.
  * exists (map RustTree.field_decl l).
  split; [exact K|].
  now apply FS.
Qed.

Lemma lem_C65_kotlin : forall src ast, compile_front src = Ok ast -> KotlinTree.models_ready ast = true ->
  exists text decls, kotlin_models ast = Ok text /\ kotlin_file text = Some decls /\
  (forall s, In (NStruct s) ast -> exists data ps body, In (YClass data (pascal (sn_id s)) ps [] body) decls /\
    map fst ps = map (fun f => camel (sf_name f)) (sn_fields s) /\
    Forall2 (fun t p => lists_fine t = true -> means kotlin t (kotlin_shape (snd p))) (map sf_type (sn_fields s)) ps) /\
  (forall e i, In (NEnum e) ast -> In i (en_items e) -> (exists body, In (YInterface true (en_id e) body) decls) /\
    match i with
    | ItemEmpty _ c => In (YObject (pascal (en_id e ++ c)%string) [en_id e] []) decls
    | ItemTuple _ c l => exists ps, In (YClass true (pascal (en_id e ++ c)%string) ps [en_id e] []) decls /\
        Forall2 (fun t p => lists_fine t = true -> means kotlin t (kotlin_shape (snd p))) (map tf_type l) ps
    | ItemStruct _ c l => exists ps, In (YClass true (pascal (en_id e ++ c)%string) ps [en_id e] []) decls /\ map fst ps = map sf_name l /\
        Forall2 (fun t p => lists_fine t = true -> means kotlin t (kotlin_shape (snd p))) (map sf_type l) ps
    end).
Proof.
  intros src ast P RD.
  destruct (KotlinFacts.lem_C50_models_read ast RD) as (text & T & F).
  exists text, (KotlinTree.models_tree ast).
  split; [exact T|].
  split; [exact F|].
  assert (W : forall t, ParseFacts.sized t -> lists_fine t = true -> means kotlin t (kotlin_shape (KotlinTree.ktype t))).
  { intros t SZ C.
  apply kotlin_means; [exact SZ|now rewrite C].
  }
  assert (FS : forall (g : struct_field -> string) l, Forall ParseFacts.sized (map sf_type l) ->
    map fst (map (fun f => (g f, KotlinTree.ktype (sf_type f))) l) = map g l /\
    Forall2 (fun t p => lists_fine t = true -> means kotlin t (kotlin_shape (snd p))) (map sf_type l) (map (fun f => (g f, KotlinTree.ktype (sf_type f))) l)).
  { intros g l SZ.
  split; [now rewrite map_map|].
  induction l as [|f l IH]; constructor.
  - intros C.
  apply W; [now inversion SZ|exact C].
  - apply IH.
  now inversion SZ.
  }
  split.
  - intros s I.
  pose proof (struct_sized src ast s P I) as SZ.
  do 3 eexists.
  split.
  + unfold KotlinTree.models_tree.
  apply in_flat_map.
  exists (NStruct s).
  split; [exact I|].
  left.
  unfold KotlinTree.struct_class.
  reflexivity.
  + now apply (FS (fun f => camel (sf_name f))).
  - intros e i I K.
  pose proof (case_sized src ast e i P I K) as SZ.
  assert (J : forall x, In x (KotlinTree.enum_decls e) -> In x (KotlinTree.models_tree ast)).
  { intros x H.
  unfold KotlinTree.models_tree.
  apply in_flat_map.
  now exists (NEnum e).
  }
  split.
  + eexists.
  apply J.
  left.
  reflexivity.
  + apply (in_map (KotlinTree.case_decl (en_id e))) in K.
  assert (K' : In (KotlinTree.case_decl (en_id e) i) (KotlinTree.models_tree ast)) by (apply J; right; exact K).
  clear K J.
  destruct i as [p c|p c l|p c l]; cbn [KotlinTree.case_decl case_types] in *.
  * exact K'.
  * exists (KotlinTree.numbered 0 l).
  split; [exact K'|].
  clear K'.
  generalize 0.
  induction l as [|v l IH]; intros k; constructor.
  -- intros C.
  apply W; [now inversion SZ|exact C].
  -- apply IH.
  now inversion SZ.
  * eexists.
  split; [exact K'|].
  now apply (FS sf_name).
Qed.

Lemma lem_C65_swift : forall src ast, compile_front src = Ok ast -> SwiftTree.models_ready ast = true ->
  exists text decls, swift_models ast = Ok text /\ swift_file text = Some decls /\
  (forall s, In (NStruct s) ast -> exists body, In (ZStruct (pascal (sn_id s)) body) decls /\
    map fst (swift_vars body) = map (fun f => camel (sf_name f)) (sn_fields s) /\
    Forall2 (fun t p => lists_fine t && no_char t = true -> means swift t (swift_shape (snd p))) (map sf_type (sn_fields s)) (swift_vars body)) /\
  (forall e i, In (NEnum e) ast -> In i (en_items e) -> exists body ts, In (ZEnum (pascal (en_id e)) body) decls /\
    In (ZCase (camel (item_id i)) ts) body /\
    Forall2 (fun t s => lists_fine t && no_char t = true -> means swift t (swift_shape s)) (case_types i) ts).
Proof.
  intros src ast P RD.
  destruct (SwiftFacts.lem_C51_models_read ast RD) as (text & T & F).
  exists text, (SwiftTree.models_tree ast).
  split; [exact T|].
  split; [exact F|].
  split.
  - intros s I.
  pose proof (struct_sized src ast s P I) as SZ.
  eexists.
  split.
  + unfold SwiftTree.models_tree.
  apply in_flat_map.
  exists (NStruct s).
  split; [exact I|].
  left.
  unfold SwiftTree.struct_decl.
  reflexivity.
  + unfold swift_vars.
  rewrite flat_map_app.
  cbn [flat_map SwiftTree.create_default].
  assert (E : flat_map (fun d => match d with ZVar n t => [(n, t)] | _ => [] end)
    (map (fun f => ZVar (camel (sf_name f)) (SwiftTree.stype (sf_type f))) (sn_fields s)) =
    map (fun f => (camel (sf_name f), SwiftTree.stype (sf_type f))) (sn_fields s)).
  { induction (sn_fields s) as [|f l IH]; [reflexivity|].
  cbn.
  f_equal.
  apply IH.
  now inversion SZ.
  }
  unfold SwiftTree.create_default.
  cbn [app].
  rewrite E, app_nil_r.
  split; [now rewrite map_map|].
  clear E I.
  induction (sn_fields s) as [|f l IH]; constructor.
  * apply swift_means.
  now inversion SZ.
  * apply IH.
  now inversion SZ.
  - intros e i I K.
  pose proof (case_sized src ast e i P I K) as SZ.
  eexists _, (map SwiftTree.stype (case_types i)).
  split.
  + unfold SwiftTree.models_tree.
  apply in_flat_map.
  exists (NEnum e).
  split; [exact I|].
  left.
  unfold SwiftTree.enum_decl.
  reflexivity.
  + split.
  * apply in_or_app; left.
  apply in_map_iff.
  exists i.
  split; [|exact K].
  now destruct i.
  * clear K.
  induction (case_types i) as [|t l IH]; constructor.
  -- apply swift_means.
  now inversion SZ.
  -- apply IH.
  now inversion SZ.
Qed.

Lemma lem_C65_dart : forall src ast rpc items, compile_front src = Ok ast -> dart_ready ast = true -> dart_items ast rpc items ->
  (forall s, In (NStruct s) ast -> exists ms, In (DClass (sn_id s) None ms) items /\
    map fst (dart_fields ms) = map (fun f => camel (sf_name f)) (sn_fields s) /\
    Forall2 (fun t p => lists_fine t = true -> means dart t (dart_shape (snd p))) (map sf_type (sn_fields s)) (dart_fields ms)) /\
  (forall e i, In (NEnum e) ast -> In i (en_items e) -> exists ms, In (DClass (en_id e ++ item_id i)%string None ms) items /\
    Forall2 (fun t p => lists_fine t = true -> means dart t (dart_shape (snd p))) (case_types i) (dart_fields ms)).
Proof.
  intros src ast rpc items P RD (text & G & F).
  rewrite (DartWf.dart_file_generated ast true true rpc text RD G) in F.
  injection F as <-.
  assert (M : forall x, In x (DartTree.models_tree ast) -> In x (DartTree.dart_tree ast true true rpc)).
  { intros x I.
  unfold DartTree.dart_tree.
  apply in_or_app; right.
  apply in_or_app; right.
  apply in_or_app; right.
  apply in_or_app; left.
  exact I.
  }
  assert (W : forall t, ParseFacts.sized t -> lists_fine t = true -> means dart t (dart_shape (DartTree.dty_of t))).
  { intros t SZ C.
  apply dart_means; [exact SZ|now rewrite C].
  }
  assert (FS : forall s, Forall ParseFacts.sized (map sf_type (sn_fields s)) ->
    exists ms, In (DClass (sn_id s) None ms) (DartTree.struct_model_tree s) /\
    map fst (dart_fields ms) = map (fun f => camel (sf_name f)) (sn_fields s) /\
    Forall2 (fun t p => lists_fine t = true -> means dart t (dart_shape (snd p))) (map sf_type (sn_fields s)) (dart_fields ms)).
  { intros s SZ.
  unfold DartTree.struct_model_tree.
  destruct (sn_fields s) as [|f0 l0] eqn:E0.
  - eexists.
  split; [left; reflexivity|].
  split; constructor.
  - rewrite <- E0 in *.
  clear E0 f0 l0.
  eexists.
  split; [left; reflexivity|].
  unfold dart_fields.
  rewrite flat_map_app.
  cbn [flat_map app].
  rewrite app_nil_r.
  assert (E : flat_map (fun m => match m with MField t n None => [(n, t)] | _ => [] end)
    (map (fun f => MField (DartTree.dty_of (sf_type f)) (DartTree.fname f) None) (sn_fields s)) =
    map (fun f => (camel (sf_name f), DartTree.dty_of (sf_type f))) (sn_fields s)).
  { clear SZ.
  induction (sn_fields s) as [|f l IH]; [reflexivity|].
  cbn.
  f_equal.
  apply IH.
  }
  rewrite E.
  split; [now rewrite map_map|].
  clear E.
  induction (sn_fields s) as [|f l IH]; constructor.
  + apply W.
  now inversion SZ.
  + apply IH.
  now inversion SZ.
  }
  split.
  - intros s I.
  destruct (FS s (struct_sized src ast s P I)) as (ms & K & R).
  exists ms.
  split; [|exact R].
  apply M.
  unfold DartTree.models_tree.
  apply in_flat_map.
  now exists (NStruct s).
  - intros e i I K.
  pose proof (case_sized src ast e i P I K) as SZ.
  assert (TS : map sf_type (sn_fields (DartGen.create_enum_item_struct_ast_node e i)) = case_types i).
  { destruct i as [p c|p c l|p c l]; cbn [DartGen.create_enum_item_struct_ast_node sn_fields case_types]; try reflexivity.
  rewrite map_map.
  cbn [sf_type].
  rewrite <- (map_map snd tf_type).
  f_equal.
  apply enumerated.
  }
  destruct (FS (DartGen.create_enum_item_struct_ast_node e i)) as (ms & J & _ & R); [now rewrite TS|].
  rewrite TS in R.
  exists ms.
  split; [|exact R].
  apply M.
  unfold DartTree.models_tree.
  apply in_flat_map.
  exists (NEnum e).
  split; [exact I|].
  unfold DartTree.enum_model_tree.
  destruct (en_items e) as [|i0 l0]; [destruct K|].
  apply in_or_app; right.
  apply in_flat_map.
  exists i.
  split; [exact K|].
  replace (en_id e ++ item_id i)%string with (sn_id (DartGen.create_enum_item_struct_ast_node e i)) by now destruct i.
  exact J.
Qed.

Scheme means_ind2 := Minimality for means Sort Prop with all_mean_ind2 := Minimality for all_mean Sort Prop.

Lemma table_one (L : language) : NoDup (map fst (l_table L)) -> forall n a b, In (n, a) (l_table L) -> In (n, b) (l_table L) -> a = b.
Proof.
  intros N n a b.
  induction (l_table L) as [|[m c] l IH]; [intros []|].
  cbn in N |- *.
  inversion N as [|? ? NI N']; subst.
  intros [[= <- <-]|A] [[= E]|B]; try reflexivity.
  - exact E.
  - destruct NI.
  now apply (in_map fst) in B.
  - subst.
  destruct NI.
  now apply (in_map fst) in A.
  - now apply IH.
Qed.

Lemma lem_C65_one_type : forall L t s s', In L [rust; dart; kotlin; swift] -> means L t s -> means L t s' -> s = s'.
Proof.
  intros L t s s' IL A.
  assert (N : NoDup (map fst (l_table L))).
  { assert (D : forallb (fun L => RustCodec.nodupb (map fst (l_table L))) [rust; dart; kotlin; swift] = true) by (vm_compute; reflexivity).
  rewrite forallb_forall in D.
  apply RustCodec.nodupb_NoDup, D, IL.
  }
  clear IL.
  revert s'.
  apply (means_ind2 L (fun t s => forall s', means L t s' -> s = s') (fun ts ss => forall ss', all_mean L ts ss' -> ss = ss')) with (t := t) (s := s); try exact A.
  - intros u n S I s' B.
  inversion B as [? n' S' I'|m NI|u' s0 M|g ts ss NV MS]; subst; try discriminate S.
  + now rewrite (table_one L N _ _ _ I I').
  + destruct NI.
  now apply (in_map fst) in I.
  - intros n NI s' B.
  inversion B as [? n' S' I'|m NI'|u' s0 M|g ts ss NV MS]; subst; [|reflexivity].
  destruct NI.
  now apply (in_map fst) in I'.
  - intros u v M IH s' B.
  inversion B as [? n' S' I'|m NI'|u' s0 M'|g ts ss NV MS]; subst; [discriminate S'| |now destruct NV].
  now rewrite (IH s0 M').
  - intros g ts ss NV MS IH s' B.
  inversion B as [? n' S' I'|m NI'|u' s0 M'|g' ts' ss' NV' MS']; subst; [discriminate S'|now destruct NV|].
  now rewrite (IH ss' MS').
  - intros ss' B.
  now inversion B.
  - intros u ts v ss M IH MS IHS ss' B.
  inversion B as [|? ? v' ss0 M' MS']; subst.
  now rewrite (IH v' M'), (IHS ss0 MS').
Qed.

Definition c65_src : string :=
  "struct Point { x_pos: f32, id: u64, names: Vec<Vec<String>>, home: GroupAddress, next: Option<Point> } enum Shape { Empty, Round(Point, i64), Named { of_all: Vec<u8> } } struct Nothing;".

Definition c65_ast : list ast_node := Eval vm_compute in match compile_front c65_src with Ok a => a | _ => [] end.

Lemma lem_C65_swift_refuted : exists src ast text decls s, compile_front src = Ok ast /\ SwiftTree.models_ready ast = true /\
  swift_models ast = Ok text /\ swift_file text = Some decls /\ In (NStruct s) ast /\
  forall body, In (ZStruct (pascal (sn_id s)) body) decls ->
    ~ Forall2 (fun t p => lists_fine t = true -> means swift t (swift_shape (snd p))) (map sf_type (sn_fields s)) (swift_vars body).
Proof.
  exists "struct A { c: char }", [NStruct (mk_struct "A" [mk_struct_field 0 "c" (TyChar "char")] true true)].
  destruct (SwiftFacts.lem_C51_models_read [NStruct (mk_struct "A" [mk_struct_field 0 "c" (TyChar "char")] true true)]) as (text & T & F); [vm_compute; reflexivity|].
  eexists text, _, _.
  split; [vm_compute; reflexivity|].
  split; [vm_compute; reflexivity|].
  split; [exact T|].
  split; [exact F|].
  split; [left; reflexivity|].
  intros body [E|[]] HF.
  injection E as <-.
  cbn in HF.
  inversion HF as [|? ? ? ? M _]; subst.
  specialize (M eq_refl).
  cbn in M.
  assert (W : means swift (TyChar "char") (Shape "Character" [])) by named.
  assert (X := lem_C65_one_type swift _ _ _ (or_intror (or_intror (or_intror (or_introl eq_refl)))) W M).
  discriminate X.
Qed.
