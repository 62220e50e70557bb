(** Property theorems about what a generated file says about its schema, C67: the Rust file of models and codecs determines
    the types of the schema with all that the bytes depend on; files of models alone in Kotlin do not.  After each
    theorem, a concrete case that meets its hypotheses, and its axioms. *)
Require Import Coq.Strings.String Coq.Strings.Ascii.
Require Import Coq.NArith.NArith Coq.Lists.List Coq.Bool.Bool Coq.Arith.PeanoNat.
Require Import Verif.Base Verif.Ast Verif.Lexer Verif.Parser Verif.Code Verif.Writer Verif.WholeSpec.
Require Verif.RustSyntax Verif.RustGen Verif.RustTree Verif.RustFile Verif.RustWf Verif.RustLexed Verif.NumText Verif.ParseFacts.
Require Verif.PosFacts Verif.DartGen Verif.KotlinGen Verif.SwiftGen Verif.ParseProofs Verif.PrintProofs Verif.FieldFacts Verif.DeclaredFacts Verif.KotlinTree Verif.KotlinFacts.
Require Import Verif.WholeFacts.
Import RustSyntax(item, IStruct, IEnum, IImpl, RPath, Blk, EMatch, PNum, rf_body).
Import RustFile(rust_ready).
Import RustGen(rust_generate).
Import KotlinFacts(kotlin_models).
Import ListNotations.
Local Open Scope string_scope.
Local Open Scope list_scope.

(** Two schemas of which the same Rust file is generated have the same types, with the same fields, cases and numbers in the same order. *)
Theorem C67_rust_file : forall src src' ast ast' text, compile_front src = Ok ast -> compile_front src' = Ok ast' ->
  rust_ready ast = true -> rust_ready ast' = true ->
  rust_generate ast true true false = Ok text -> rust_generate ast' true true false = Ok text ->
  contents ast = contents ast'.
Proof. exact lem_C67_rust_file. Qed.
Print Assumptions C67_rust_file.
Example C67_case : c67_src <> c67_src' /\ compile_front c67_src = Ok c67_ast /\ compile_front c67_src' = Ok c67_ast' /\
  rust_ready c67_ast = true /\ rust_ready c67_ast' = true /\
  rust_generate c67_ast true true false = Ok c67_text /\ rust_generate c67_ast' true true false = Ok c67_text /\
  contents c67_ast = [TStruct "Point" [("x", TyNumber "f32" 4); ("id", TyInteger "u64" 8 false)];
    TEnum "Shape" [(0%N, "Empty", CNone); (1%N, "Round", CValues [TyOther "Point"; TyInteger "i64" 8 true]); (2%N, "Named", CFields [("all", TyGeneric "Vec" [TyInteger "u8" 1 false])])];
    TStruct "Nothing" []].
Proof.
  split; [discriminate|].
  split; [vm_compute; reflexivity|].
  split; [vm_compute; reflexivity|].
  split; [vm_compute; reflexivity|].
  split; [vm_compute; reflexivity|].
  split; [vm_compute; reflexivity|].
  split; [vm_compute; reflexivity|].
  vm_compute; reflexivity.
Qed.

(** Nothing else of the schema goes into the Rust models and codecs: schemas with the same types give the same text. *)
Theorem C67_rust_text : forall ast ast', contents ast = contents ast' ->
  RustGen.generate_models ast = RustGen.generate_models ast' /\ RustGen.generate_buffers ast = RustGen.generate_buffers ast'.
Proof. exact lem_C67_rust_text. Qed.
Print Assumptions C67_rust_text.

(** The schemas of the example above are different and have the same types. *)
Example C67_text_case : c67_ast <> c67_ast' /\ contents c67_ast = contents c67_ast'.
Proof.
  split; [discriminate|reflexivity].
Qed.

(** The Rust file is made from the types, methods, constants and directives of the schema alone, each kind in its order: how the kinds are mixed,
    and the positions of fields, do not matter. *)
Theorem C67_rust_kinds : forall ast ast' models buffers rpc, contents ast = contents ast' -> fns ast = fns ast' ->
  const_blocks ast = const_blocks ast' -> directives ast = directives ast' ->
  rust_generate ast models buffers rpc = rust_generate ast' models buffers rpc.
Proof. exact lem_C67_rust_kinds. Qed.
Print Assumptions C67_rust_kinds.

(** So is the Dart file. *)
Theorem C67_dart_kinds : forall src src' ast ast' models buffers rpc, compile_front src = Ok ast -> compile_front src' = Ok ast' ->
  contents ast = contents ast' -> fns ast = fns ast' -> const_blocks ast = const_blocks ast' -> directives ast = directives ast' ->
  DartGen.dart_generate ast models buffers rpc = DartGen.dart_generate ast' models buffers rpc.
Proof. exact lem_C67_dart_kinds. Qed.
Print Assumptions C67_dart_kinds.

(** And so are the models and constants of Kotlin and Swift. *)
Theorem C67_kotlin_kinds : forall ast ast', contents ast = contents ast' -> const_blocks ast = const_blocks ast' ->
  KotlinGen.generate_models ast = KotlinGen.generate_models ast' /\ KotlinGen.generate_consts ast = KotlinGen.generate_consts ast'.
Proof. exact lem_C67_kotlin_kinds. Qed.
Print Assumptions C67_kotlin_kinds.

Theorem C67_swift_kinds : forall ast ast', contents ast = contents ast' -> const_blocks ast = const_blocks ast' ->
  SwiftGen.generate_models ast = SwiftGen.generate_models ast' /\ SwiftGen.generate_consts ast = SwiftGen.generate_consts ast'.
Proof. exact lem_C67_swift_kinds. Qed.
Print Assumptions C67_swift_kinds.
Example C67_kinds_case : compile_front c67_mixed_src = Ok c67_mixed /\ compile_front c67_sorted_src = Ok c67_sorted /\ c67_mixed <> c67_sorted /\ contents c67_mixed = contents c67_sorted /\ fns c67_mixed = fns c67_sorted /\
  const_blocks c67_mixed = const_blocks c67_sorted /\ directives c67_mixed = directives c67_sorted /\
  List.length (contents c67_mixed) = 2 /\ List.length (fns c67_mixed) = 2.
Proof.
  split; [vm_compute; reflexivity|].
  split; [vm_compute; reflexivity|].
  split; [discriminate|].
  repeat split.
Qed.

(** Kotlin models alone do not determine the types: the numbers of cases do not occur in them. *)
Theorem C67_kotlin_refuted : exists src src' ast ast' text, compile_front src = Ok ast /\ compile_front src' = Ok ast' /\
  KotlinTree.models_ready ast = true /\ KotlinTree.models_ready ast' = true /\
  kotlin_models ast = Ok text /\ kotlin_models ast' = Ok text /\ contents ast <> contents ast'.
Proof. exact lem_C67_kotlin_refuted. Qed.
Print Assumptions C67_kotlin_refuted.
