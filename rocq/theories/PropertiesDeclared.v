(** Property theorems about the declarations of the generated files, C66: each file declares the types of the schema, with
    the names inside them, in the order of the schema, and no others.  After each theorem, a concrete case that meets its
    hypotheses, and its axioms. *)
Require Import Coq.Strings.String Coq.Strings.Ascii.
Require Import Coq.NArith.NArith Coq.Lists.List Coq.Bool.Bool Coq.Arith.PeanoNat.
Require Import Verif.Base Verif.Ast Verif.Lexer Verif.Parser Verif.CaseConv Verif.Code.
Require Import Verif.DeclaredSpec Verif.Writer.
Require Verif.RustSyntax Verif.RustGen Verif.RustCodec Verif.RustTree Verif.RustFile Verif.RustWf Verif.CodecFacts Verif.DefaultFacts Verif.RustLexed.
Require Verif.DartSyntax Verif.DartGen Verif.DartTree Verif.DartFile Verif.DartWf Verif.DartFacts.
Require Verif.KotlinSyntax Verif.KotlinTree Verif.KotlinFacts Verif.SwiftSyntax Verif.SwiftTree Verif.SwiftFacts Verif.ParseFacts.
Require Import Verif.DeclaredFacts.
Import KotlinSyntax(kotlin_file).
Import SwiftSyntax(swift_file).
Import RustFile(rust_ready).
Import DartFile(dart_ready).
Import CodecFacts(file_items).
Import DartFacts(dart_items).
Import KotlinFacts(kotlin_models).
Import SwiftFacts(swift_models).
Import ListNotations.
Local Open Scope string_scope.
Local Open Scope list_scope.

(** A Rust file declares the structs and the enums that have cases, with all fields and cases in order, then, if it has the methods, a struct
    for the arguments of each that is sent, and no other struct or enum. *)
Theorem C66_rust : forall ast buffers rpc items, rust_ready ast = true -> file_items ast true buffers rpc items ->
  rust_declares items = filter (fun d => match d with DEnumeration _ [] => false | _ => true end) (declares ast) ++ (if rpc then sent ast else []).
Proof. exact lem_C66_rust. Qed.
Print Assumptions C66_rust.

(** A Swift file of models declares the structs and the enums of the schema, with all fields and cases in order, and nothing else. *)
Theorem C66_swift : forall ast, SwiftTree.models_ready ast = true ->
  exists text decls, swift_models ast = Ok text /\ swift_file text = Some decls /\
  swift_declares decls = map (fun d => match d with DStruct n l => DStruct (pascal n) (map camel l) | DEnumeration n l => DEnumeration (pascal n) (map camel l) end) (declares ast).
Proof. exact lem_C66_swift. Qed.
Print Assumptions C66_swift.

(** A Kotlin file of models declares a class for each struct, and an interface and the classes and objects of its cases for each enum, in
    order and nothing else. *)
Theorem C66_kotlin : forall ast, KotlinTree.models_ready ast = true ->
  exists text decls, kotlin_models ast = Ok text /\ kotlin_file text = Some decls /\
  map kotlin_kind decls = flat_map (fun d => match d with
    | DStruct n l => [(pascal n, None, map camel l)]
    | DEnumeration n l => (n, Some "", []) :: map (fun c => (pascal (n ++ c)%string, Some n, [])) l end) (declares ast).
Proof. exact lem_C66_kotlin. Qed.
Print Assumptions C66_kotlin.

(** A Dart file declares a class for each struct, and for each enum that has cases an enumeration of the cases, a class and a class for each
    case, in order; the only other classes that implement nothing are those of the constants, which are private, and those of the methods. *)
Theorem C66_dart : forall ast rpc items, dart_ready ast = true -> dart_items ast rpc items ->
  exists consts more, dart_classes items = consts ++ flat_map (fun d => match d with
    | DStruct n _ => [n]
    | DEnumeration n [] => []
    | DEnumeration n l => n :: map (fun c => (n ++ c)%string) l end) (declares ast) ++ more /\
  (forall n, In n consts -> prefix "_" n = true) /\
  (rpc = false -> more = []) /\ List.length more <= 1 /\
  dart_enums items = flat_map (fun d => match d with DEnumeration n (c :: l) => [((n ++ "Value")%string, map camel (c :: l))] | _ => [] end) (declares ast).
Proof. exact lem_C66_dart. Qed.
Print Assumptions C66_dart.
Example C66_case : compile_front c66_src = Ok c66_ast /\ rust_ready c66_ast = true /\ dart_ready c66_ast = true /\
  KotlinTree.models_ready c66_ast = true /\ SwiftTree.models_ready c66_ast = true /\
  file_items c66_ast true true true (RustTree.rust_tree c66_ast true true true) /\ dart_items c66_ast true (DartTree.dart_tree c66_ast true true true) /\
  declares c66_ast = [DStruct "Point" ["x_pos"; "id"]; DEnumeration "Shape" ["Empty"; "Round"; "Named"]; DStruct "Nothing" []] /\
  sent c66_ast = [DStruct "__area_rpc_args__" ["at"]] /\
  dart_classes (DartTree.dart_tree c66_ast true true true) =
    ["_Sizes"; "_SizesInner"; "Point"; "Shape"; "ShapeEmpty"; "ShapeRound"; "ShapeNamed"; "Nothing"; "ShapesRpcClient"].
Proof.
  split; [vm_compute; reflexivity|].
  split; [vm_compute; reflexivity|].
  split; [vm_compute; reflexivity|].
  split; [vm_compute; reflexivity|].
  split; [vm_compute; reflexivity|].
  split; [apply DefaultFacts.rust_items_tree; vm_compute; reflexivity|].
  split; [apply DartFacts.dart_items_tree; vm_compute; reflexivity|].
  split; [vm_compute; reflexivity|].
  split; vm_compute; reflexivity.
Qed.
