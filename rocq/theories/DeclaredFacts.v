(** Lemmas behind the theorems of PropertiesDeclared.v. *)

(** Property theorems about the declarations of the generated files, C66: each file declares the types of the schema, with
    the names inside them, in the order of the schema, and no others.  After each theorem, a concrete case that meets its
    hypotheses, and its axioms. *)
Require Import Coq.Strings.String Coq.Strings.Ascii.
Require Import Coq.NArith.NArith Coq.Lists.List Coq.Bool.Bool Coq.Arith.PeanoNat.
Require Import Verif.Base Verif.Ast Verif.Lexer Verif.Parser Verif.CaseConv Verif.Code.
Require Import Verif.DeclaredSpec Verif.Writer.
Require Verif.RustSyntax Verif.RustGen Verif.RustCodec Verif.RustTree Verif.RustFile Verif.RustWf Verif.CodecFacts Verif.DefaultFacts Verif.RustLexed.
Require Verif.DartSyntax Verif.DartGen Verif.DartTree Verif.DartFile Verif.DartWf Verif.DartFacts.
Require Verif.KotlinSyntax Verif.KotlinTree Verif.KotlinFacts Verif.SwiftSyntax Verif.SwiftTree Verif.SwiftFacts Verif.ParseFacts.
Import KotlinSyntax(kotlin_file).
Import SwiftSyntax(swift_file).
Import RustFile(rust_ready).
Import DartFile(dart_ready).
Import CodecFacts(file_items).
Import DartFacts(dart_items).
Import KotlinFacts(kotlin_models).
Import SwiftFacts(swift_models).
Import ListNotations.
Local Open Scope string_scope.
Local Open Scope list_scope.

Lemma flat_map_flat {A B C} (f : A -> list B) (g : B -> list C) l : flat_map g (flat_map f l) = flat_map (fun x => flat_map g (f x)) l.
Proof.
  induction l as [|x l IH]; [reflexivity|].
  cbn.
  now rewrite flat_map_app, IH.
Qed.

Lemma flat_map_none {A B C} (f : A -> list B) (g : B -> list C) l : (forall x y, In y (f x) -> g y = []) -> flat_map g (flat_map f l) = [].
Proof.
  intros H.
  rewrite flat_map_flat.
  induction l as [|x l IH]; [reflexivity|].
  cbn.
  rewrite IH, app_nil_r.
  specialize (H x).
  induction (f x) as [|y m IHm]; [reflexivity|].
  cbn.
  rewrite (H y (or_introl eq_refl)).
  apply IHm.
  intros z I.
  apply H.
  now right.
Qed.

Lemma flat_map_same {A B} (f g : A -> list B) l : (forall x, In x l -> f x = g x) -> flat_map f l = flat_map g l.
Proof.
  induction l as [|x l IH]; intros H; [reflexivity|].
  cbn.
  rewrite (H x (or_introl eq_refl)), IH; [reflexivity|].
  intros y I.
  apply H.
  now right.
Qed.

Lemma named_args k (l : list fn_arg) : map sf_name (RustGen.args_fields k l) = map fa_id l.
Proof.
  unfold RustGen.args_fields.
  rewrite map_map.
  cbn [sf_name].
  revert k.
  induction l as [|a l IH]; intros k; [reflexivity|].
  cbn.
  now rewrite IH.
Qed.

Lemma model_declares s d : rust_declares (RustTree.struct_model_tree s d) = [DStruct (sn_id s) (map sf_name (sn_fields s))].
Proof.
  unfold RustTree.struct_model_tree.
  destruct (sn_fields s) as [|f l], d; cbn; now rewrite ?map_map.
Qed.

Lemma rust_declares_app a b : rust_declares (a ++ b) = rust_declares a ++ rust_declares b.
Proof.
  apply flat_map_app.
Qed.

Lemma method_declares f : rust_declares (RustTree.rpc_method_tree f) = sent [NFn f].
Proof.
  unfold RustTree.rpc_method_tree, sent.
  cbn [flat_map].
  rewrite app_nil_r.
  destruct (fn_is_read f), (fn_is_async f); try reflexivity.
  - unfold RustTree.async_method_tree.
  rewrite rust_declares_app, model_declares.
  cbn -[String.append].
  now rewrite named_args.
  - unfold RustTree.sync_method_tree.
  rewrite rust_declares_app, model_declares.
  cbn -[String.append].
  now rewrite named_args.
Qed.

Lemma rpc_declares ast : rust_declares (RustTree.rpc_tree ast) = sent ast.
Proof.
  unfold RustTree.rpc_tree.
  assert (E : rust_declares (flat_map RustTree.rpc_method_tree (find_fn_nodes ast)) = sent ast).
  { unfold find_fn_nodes.
  induction ast as [|n l IH]; [reflexivity|].
  change (sent (n :: l)) with (sent ([n] ++ l)).
  unfold sent at 1.
  rewrite flat_map_app.
  fold (sent [n]) (sent l).
  cbn [flat_map].
  destruct n as [| |f| |]; try exact IH.
  cbn [app flat_map].
  now rewrite rust_declares_app, IH, method_declares.
  }
  destruct (find_fn_nodes ast) as [|f l]; [exact E|].
  exact E.
Qed.

Lemma lem_C66_rust : forall ast buffers rpc items, rust_ready ast = true -> file_items ast true buffers rpc items ->
  rust_declares items = filter (fun d => match d with DEnumeration _ [] => false | _ => true end) (declares ast) ++ (if rpc then sent ast else []).
Proof.
  intros ast buffers rpc items RD (text & G & F).
  rewrite (RustWf.rust_file_generated ast true buffers rpc text RD G) in F.
  injection F as <-.
  replace (if rpc then sent ast else []) with (if rpc then rust_declares (RustTree.rpc_tree ast) else []) by (destruct rpc; [apply rpc_declares|reflexivity]).
  unfold RustTree.rust_tree, rust_declares at 1.
  rewrite !flat_map_app.
  assert (U : flat_map (fun i => match i with RustSyntax.IStruct n None => [DStruct n []] | RustSyntax.IStruct n (Some fs) => [DStruct n (map fst fs)]
    | RustSyntax.IEnum n vs => [DEnumeration n (map variant_name vs)] | _ => [] end) (RustTree.user_uses ast) = []).
  { apply flat_map_none.
  intros v y.
  destruct v as [[] ?]; cbn; intros I; try (destruct I; fail); destruct I as [<-|[]]; reflexivity.
  }
  rewrite U.
  assert (K : flat_map (fun i => match i with RustSyntax.IStruct n None => [DStruct n []] | RustSyntax.IStruct n (Some fs) => [DStruct n (map fst fs)]
    | RustSyntax.IEnum n vs => [DEnumeration n (map variant_name vs)] | _ => [] end) (RustTree.consts_tree ast) = []).
  { apply flat_map_none.
  intros x y.
  destruct x as [| | | |c]; try (intros []; fail).
  intros [<-|[]].
  now destruct c.
  }
  rewrite K.
  assert (B : flat_map (fun i => match i with RustSyntax.IStruct n None => [DStruct n []] | RustSyntax.IStruct n (Some fs) => [DStruct n (map fst fs)]
    | RustSyntax.IEnum n vs => [DEnumeration n (map variant_name vs)] | _ => [] end) (if buffers then RustTree.buffers_tree ast else []) = []).
  { destruct buffers; [|reflexivity].
  apply flat_map_none.
  intros x y.
  destruct x; try (intros []; fail); intros [<-|[]]; reflexivity.
  }
  rewrite B.
  assert (M : flat_map (fun i => match i with RustSyntax.IStruct n None => [DStruct n []] | RustSyntax.IStruct n (Some fs) => [DStruct n (map fst fs)]
    | RustSyntax.IEnum n vs => [DEnumeration n (map variant_name vs)] | _ => [] end) (RustTree.models_tree ast) =
    filter (fun d => match d with DEnumeration _ [] => false | _ => true end) (declares ast)).
  { unfold RustTree.models_tree, declares.
  clear.
  induction ast as [|n l IH]; [reflexivity|].
  cbn [flat_map].
  rewrite flat_map_app, filter_app, IH.
  f_equal.
  destruct n as [e|s| | |]; try reflexivity; cbn [flat_map app].
  all: swap 1 2.
  - unfold RustTree.struct_model_tree.
  destruct (sn_fields s) as [|f fs]; [reflexivity|].
  cbn.
  now rewrite map_map.
  - unfold RustTree.enum_model_tree.
  destruct (en_items e) as [|i is]; [reflexivity|].
  cbn [flat_map map filter app RustTree.derive_attr RustTree.default_impl].
  rewrite map_map.
  f_equal.
  f_equal.
  f_equal; [now destruct i|].
  apply map_ext.
  now intros [].
  }
  rewrite M.
  destruct rpc; cbn [andb]; [destruct (RustTree.nil_or (find_fn_nodes ast))|]; destruct buffers; cbn [flat_map app RustTree.allow RustTree.buffers_use RustTree.runtime_uses]; reflexivity.
Qed.

Lemma lem_C66_swift : forall ast, SwiftTree.models_ready ast = true ->
  exists text decls, swift_models ast = Ok text /\ swift_file text = Some decls /\
  swift_declares decls = map (fun d => match d with DStruct n l => DStruct (pascal n) (map camel l) | DEnumeration n l => DEnumeration (pascal n) (map camel l) end) (declares ast).
Proof.
  intros ast RD.
  destruct (SwiftFacts.lem_C51_models_read ast RD) as (text & T & F).
  exists text, (SwiftTree.models_tree ast).
  split; [exact T|].
  split; [exact F|].
  clear.
  assert (V : forall (l : list struct_field) (g : struct_field -> SwiftSyntax.sty), flat_map (fun d => match d with SwiftSyntax.ZVar f _ => [f] | _ => [] end)
    (map (fun f => SwiftSyntax.ZVar (camel (sf_name f)) (g f)) l) = map camel (map sf_name l)).
  { intros l g.
  induction l as [|f l IH]; [reflexivity|].
  cbn.
  now rewrite IH.
  }
  assert (W : forall (l : list enum_item) (g : enum_item -> list SwiftSyntax.sty), flat_map (fun d => match d with SwiftSyntax.ZCase f _ => [f] | _ => [] end)
    (map (fun i => SwiftSyntax.ZCase (camel (item_id i)) (g i)) l) = map camel (map item_id l)).
  { intros l g.
  induction l as [|f l IH]; [reflexivity|].
  cbn.
  now rewrite IH.
  }
  unfold SwiftTree.models_tree, declares, swift_declares.
  induction ast as [|n l IH]; [reflexivity|].
  cbn [flat_map].
  rewrite flat_map_app, map_app, IH.
  f_equal.
  destruct n as [e|s| | |]; try reflexivity; cbn [flat_map app map].
  all: swap 1 2.
  - unfold SwiftTree.struct_decl.
  rewrite flat_map_app, (V (sn_fields s) (fun f => SwiftTree.stype (sf_type f))).
  cbn.
  now rewrite app_nil_r.
  - unfold SwiftTree.enum_decl.
  rewrite flat_map_app, (W (en_items e) (fun i => map SwiftTree.stype (SwiftTree.case_types i))).
  destruct (en_items e); cbn; now rewrite ?app_nil_r.
Qed.

Lemma lem_C66_kotlin : forall ast, KotlinTree.models_ready ast = true ->
  exists text decls, kotlin_models ast = Ok text /\ kotlin_file text = Some decls /\
  map kotlin_kind decls = flat_map (fun d => match d with
    | DStruct n l => [(pascal n, None, map camel l)]
    | DEnumeration n l => (n, Some "", []) :: map (fun c => (pascal (n ++ c)%string, Some n, [])) l end) (declares ast).
Proof.
  intros ast RD.
  destruct (KotlinFacts.lem_C50_models_read ast RD) as (text & T & F).
  exists text, (KotlinTree.models_tree ast).
  split; [exact T|].
  split; [exact F|].
  clear.
  unfold KotlinTree.models_tree, declares.
  induction ast as [|n l IH]; [reflexivity|].
  cbn [flat_map].
  rewrite flat_map_app, map_app, IH.
  f_equal.
  destruct n as [e|s| | |]; try reflexivity; cbn [flat_map app map].
  - unfold KotlinTree.enum_decls.
  cbn.
  rewrite app_nil_r, !map_map.
  f_equal.
  apply map_ext.
  now intros [].
  - unfold KotlinTree.struct_class.
  cbn.
  now rewrite !map_map.
Qed.

Lemma const_class_names : forall c p n, In n (dart_classes (DartTree.const_classes p c)) -> prefix "_" n = true.
Proof.
  fix IH 1.
  intros [id items] p n.
  unfold dart_classes.
  cbn [DartTree.const_classes flat_map app].
  intros [<-|I]; [cbn; now destruct (p ++ pascal id)%string|].
  revert I.
  generalize (p ++ pascal id)%string.
  intros q.
  induction items as [|[? ? ?|c] items IHi]; cbn [flat_map app].
  - intros [].
  - exact IHi.
  - rewrite flat_map_app.
  intros I.
  apply in_app_or in I.
  destruct I as [I|I]; [exact (IH c q n I)|exact (IHi I)].
Qed.

Lemma const_class_enums y : forall c p, In y (DartTree.const_classes p c) -> match y with DartSyntax.DEnum n l => [(n, l)] | _ => [] end = [].
Proof.
  fix IH 1.
  intros [id items] p.
  cbn [DartTree.const_classes].
  intros [E|I]; [now rewrite <- E|].
  revert I.
  generalize (p ++ pascal id)%string.
  intros q.
  induction items as [|[? ? ?|c] items IHi]; cbn [flat_map app].
  - intros [].
  - exact IHi.
  - intros I.
  apply in_app_or in I.
  destruct I as [I|I]; [exact (IH c q I)|exact (IHi I)].
Qed.

Lemma lem_C66_dart : forall ast rpc items, dart_ready ast = true -> dart_items ast rpc items ->
  exists consts more, dart_classes items = consts ++ flat_map (fun d => match d with
    | DStruct n _ => [n]
    | DEnumeration n [] => []
    | DEnumeration n l => n :: map (fun c => (n ++ c)%string) l end) (declares ast) ++ more /\
  (forall n, In n consts -> prefix "_" n = true) /\
  (rpc = false -> more = []) /\ List.length more <= 1 /\
  dart_enums items = flat_map (fun d => match d with DEnumeration n (c :: l) => [((n ++ "Value")%string, map camel (c :: l))] | _ => [] end) (declares ast).
Proof.
  intros ast rpc items RD (text & G & F).
  rewrite (DartWf.dart_file_generated ast true true rpc text RD G) in F.
  injection F as <-.
  exists (dart_classes (DartTree.consts_tree ast)), (if rpc then dart_classes (DartTree.rpc_tree ast) else []).
  assert (L : forall b r, dart_classes (DartTree.lib_imports_tree ast b r) = [] /\ dart_enums (DartTree.lib_imports_tree ast b r) = []).
  { intros b r.
  unfold DartTree.lib_imports_tree.
  repeat match goal with |- context [if ?c then _ else _] => destruct c end; split; reflexivity.
  }
  assert (U : dart_classes (DartTree.imports_tree ast) = [] /\ dart_enums (DartTree.imports_tree ast) = []).
  { split; apply flat_map_none; intros v y; destruct v as [[] ?]; cbn; intros I; try (destruct I; fail); destruct I as [<-|[]]; reflexivity.
  }
  assert (B : dart_classes (DartTree.buffers_tree ast) = [] /\ dart_enums (DartTree.buffers_tree ast) = []).
  { split; apply flat_map_none; intros x y; destruct x as [e|s| | |]; try (intros []; fail); cbn [DartTree.struct_buffers_tree].
  all: unfold DartTree.struct_buffers_tree, DartTree.enum_buffers_tree; rewrite in_app_iff.
  2, 4: destruct (sn_emplace s), (sn_into s); intros [I|I]; cbn in I; try tauto; destruct I as [<-|[]]; reflexivity.
  all: intros [I|[<-|[<-|[]]]]; try reflexivity; apply in_map_iff in I; destruct I as (i & <- & _); reflexivity.
  }
  assert (SM : forall s, dart_classes (DartTree.struct_model_tree s) = [sn_id s] /\ dart_enums (DartTree.struct_model_tree s) = []).
  { intros s.
  unfold DartTree.struct_model_tree.
  destruct (sn_fields s); split; reflexivity.
  }
  assert (IM : forall e l, dart_classes (flat_map (fun i => DartTree.struct_model_tree (DartGen.create_enum_item_struct_ast_node e i)) l) = map (fun c => (en_id e ++ c)%string) (map item_id l) /\
    dart_enums (flat_map (fun i => DartTree.struct_model_tree (DartGen.create_enum_item_struct_ast_node e i)) l) = []).
  { intros e l.
  unfold dart_classes, dart_enums.
  rewrite !flat_map_flat.
  split.
  - rewrite map_map.
  induction l as [|i l IH]; [reflexivity|].
  cbn [flat_map map].
  fold (dart_classes (DartTree.struct_model_tree (DartGen.create_enum_item_struct_ast_node e i))).
  destruct (SM (DartGen.create_enum_item_struct_ast_node e i)) as (-> & _).
  rewrite IH.
  cbn.
  f_equal.
  now destruct i.
  - induction l as [|i l IH]; [reflexivity|].
  cbn [flat_map].
  fold (dart_enums (DartTree.struct_model_tree (DartGen.create_enum_item_struct_ast_node e i))).
  destruct (SM (DartGen.create_enum_item_struct_ast_node e i)) as (_ & ->).
  exact IH.
  }
  assert (M : dart_classes (DartTree.models_tree ast) = flat_map (fun d => match d with
    | DStruct n _ => [n]
    | DEnumeration n [] => []
    | DEnumeration n l => n :: map (fun c => (n ++ c)%string) l end) (declares ast) /\
    dart_enums (DartTree.models_tree ast) = flat_map (fun d => match d with DEnumeration n (c :: l) => [((n ++ "Value")%string, map camel (c :: l))] | _ => [] end) (declares ast)).
  { clear - SM IM.
  unfold DartTree.models_tree, declares.
  induction ast as [|n l (IH1 & IH2)]; [split; reflexivity|].
  cbn [flat_map].
  unfold dart_classes, dart_enums in IH1, IH2 |- *.
  rewrite !flat_map_app, IH1, IH2.
  clear IH1 IH2.
  split; f_equal; destruct n as [e|s| | |]; try reflexivity; cbn [flat_map].
  all: swap 1 2.
  all: swap 3 4.
  - now destruct (SM s) as (H & _).
  - unfold DartTree.enum_model_tree.
  destruct (en_items e) as [|i is] eqn:E; [reflexivity|].
  rewrite flat_map_app.
  destruct (IM e (i :: is)) as (H & _).
  unfold dart_classes in H.
  rewrite H.
  cbn.
  now rewrite app_nil_r.
  - now destruct (SM s) as (_ & H).
  - unfold DartTree.enum_model_tree.
  destruct (en_items e) as [|i is] eqn:E; [reflexivity|].
  rewrite flat_map_app.
  destruct (IM e (i :: is)) as (_ & H).
  unfold dart_enums in H.
  rewrite H.
  cbn.
  now rewrite map_map.
  }
  assert (KE : dart_enums (DartTree.consts_tree ast) = []).
  { unfold DartTree.consts_tree, dart_enums.
  rewrite flat_map_app.
  rewrite !flat_map_none; [reflexivity| |].
  - intros x y.
  destruct x as [| | | |c]; try (intros []; fail).
  intros I.
  revert I.
  apply const_class_enums.
  - intros x y.
  destruct x; try (intros []; fail).
  intros [<-|[]].
  reflexivity.
  }
  assert (RE : dart_enums (DartTree.rpc_tree ast) = []).
  { unfold DartTree.rpc_tree.
  destruct (find_fn_nodes ast); [reflexivity|].
  destruct (DartGen.required_string ast "namespace"), (DartGen.required_string ast "id"); reflexivity.
  }
  split; [|split; [|split; [|split]]].
  - unfold DartTree.dart_tree, dart_classes at 1.
  rewrite !flat_map_app.
  fold (dart_classes (DartTree.lib_imports_tree ast true rpc)) (dart_classes (DartTree.imports_tree ast)) (dart_classes (DartTree.consts_tree ast)).
  fold (dart_classes (DartTree.models_tree ast)) (dart_classes (DartTree.buffers_tree ast)).
  destruct (L true rpc) as (-> & _), U as (-> & _), M as (-> & _), B as (-> & _).
  now destruct rpc.
  - unfold DartTree.consts_tree, dart_classes.
  intros n.
  rewrite flat_map_app.
  rewrite flat_map_none.
  + cbn [app].
  rewrite flat_map_flat.
  intros I.
  apply in_flat_map in I.
  destruct I as (x & _ & I).
  destruct x as [| | | |c]; try (destruct I; fail).
  exact (const_class_names c "" n I).
  + intros x y.
  destruct x; try (intros []; fail).
  intros [<-|[]].
  reflexivity.
  - now intros ->.
  - destruct rpc; [|cbn; auto].
  unfold DartTree.rpc_tree.
  destruct (find_fn_nodes ast); [cbn; auto|].
  destruct (DartGen.required_string ast "namespace"), (DartGen.required_string ast "id"); cbn; auto.
  - unfold DartTree.dart_tree, dart_enums at 1.
  rewrite !flat_map_app.
  fold (dart_enums (DartTree.lib_imports_tree ast true rpc)) (dart_enums (DartTree.imports_tree ast)) (dart_enums (DartTree.consts_tree ast)).
  fold (dart_enums (DartTree.models_tree ast)) (dart_enums (DartTree.buffers_tree ast)).
  destruct (L true rpc) as (_ & ->), U as (_ & ->), M as (_ & ->), B as (_ & ->).
  rewrite KE.
  cbn [app].
  destruct rpc; [|cbn; now rewrite ?app_nil_r].
  fold (dart_enums (DartTree.rpc_tree ast)).
  rewrite RE.
  now rewrite !app_nil_r.
Qed.

Definition c66_src : string :=
  "#[id = ""7""] #[namespace = ""shapes""] const Sizes { MAX: u32 = 9; const Inner { MIN: i32 = 1; } } struct Point { x_pos: f32, id: u64 } fn area(at: Point) -> f64; enum Shape { Empty, Round(Point, i64), Named { of_all: Vec<u8> } } struct Nothing;".

Definition c66_ast : list ast_node := Eval vm_compute in match compile_front c66_src with Ok a => a | _ => [] end.
