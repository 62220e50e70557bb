(** Property theorems about default values in all generated languages, C61: the default of a type is the same in Rust, Dart,
    Kotlin and Swift.  The texts are read back and run by the rules of RustDefault, DartSem, KotlinSem and SwiftSem.
    After each theorem, a concrete case that meets its hypotheses, and its axioms. *)
Require Import Coq.Strings.String Coq.Strings.Ascii.
Require Import Coq.NArith.NArith Coq.ZArith.ZArith Coq.Lists.List Coq.Bool.Bool Coq.Arith.PeanoNat.
Require Import Coq.micromega.Lia.
Require Import Verif.Base Verif.F64 Verif.Ast Verif.Lexer Verif.Parser Verif.CaseConv Verif.Code Verif.RustSyntax Verif.RustGen Verif.RustTree Verif.RustFile Verif.RustWf Verif.RustSem Verif.Wire Verif.RustCodec Verif.CodecFacts.
Require Import Verif.DartSyntax Verif.DartGen Verif.DartTree Verif.DartFile Verif.DartWf Verif.DartSem Verif.DartWire Verif.DartRun Verif.DartShape Verif.DartCodec Verif.DartAgree Verif.DartFacts.
Require Verif.Defaults Verif.RustDefault Verif.RustFine Verif.DefaultFacts Verif.ParseFacts.
Require Verif.KotlinSyntax Verif.KotlinTree Verif.KotlinSem Verif.KotlinCheck Verif.KotlinFacts.
Require Verif.SwiftSyntax Verif.SwiftTree Verif.SwiftSem Verif.SwiftCheck Verif.SwiftFacts.
Require Import Verif.SameDefSpec.
Require Import Verif.SameDefFacts.
Import Defaults(default_value, schema_value, all_some, named_values).
Import RustDefault(types_compile, run_default, RValue, RMore).
Import RustFine(rust_fine).
Import DefaultFacts(schema_names, rust_items_tree, lem_C52_rust_defaults, lem_C52_dart_default).
Import KotlinFacts(kotlin_models).
Import KotlinSyntax(kotlin_file).
Import KotlinCheck(kotlin_fine, kotlin_of).
Import SwiftFacts(swift_models).
Import SwiftSyntax(swift_file).
Import SwiftCheck(swift_fine, swift_of).
Import ListNotations.
Local Open Scope string_scope.
Local Open Scope list_scope.

(** Rust and Kotlin start from the same value; where the Rust types compile, [createDefault] of Kotlin comes to an end. *)
Theorem C61_rust_kotlin : forall src ast buffers rpc rust_file text m,
  compile_front src = Ok ast -> rust_ready ast = true -> file_items ast true buffers rpc rust_file -> rust_fine (schema_decls ast) (rust_decls ast true rpc) = true ->
  kotlin_fine ast = true -> In m (schema_names ast) ->
  exists ktext kotlin f v k,
    kotlin_models ast = Ok ktext /\ kotlin_file ktext = Some kotlin /\ KotlinSem.compiles kotlin = true /\
    run_default rust_file text f m = RValue v /\ KotlinSem.run_default kotlin f m = KotlinSem.KValue k /\ kotlin_same text v k.
Proof. exact lem_C61_rust_kotlin. Qed.
Print Assumptions C61_rust_kotlin.

(** Rust and Swift start from the same value. *)
Theorem C61_rust_swift : forall src ast buffers rpc rust_file text m,
  compile_front src = Ok ast -> rust_ready ast = true -> file_items ast true buffers rpc rust_file -> rust_fine (schema_decls ast) (rust_decls ast true rpc) = true ->
  swift_fine ast = true -> In m (schema_names ast) ->
  exists stext swift f v w,
    swift_models ast = Ok stext /\ swift_file stext = Some swift /\ SwiftSem.compiles swift = true /\
    run_default rust_file text f m = RValue v /\ SwiftSem.run_default swift f m = SwiftSem.SValue w /\ swift_same text v w.
Proof. exact lem_C61_rust_swift. Qed.
Print Assumptions C61_rust_swift.

(** The default of a type is the same value in all four languages. *)
Theorem C61_same_defaults : forall src ast buffers rust_rpc rust_file D m,
  let ds := schema_decls ast in
  let text := rd_ext_new D (DTy "String" []) in
  compile_front src = Ok ast -> rust_ready ast = true -> file_items ast true buffers rust_rpc rust_file -> rust_fine ds (rust_decls ast true rust_rpc) = true ->
  kotlin_fine ast = true -> swift_fine ast = true -> In m (schema_names ast) ->
  exists ktext kotlin stext swift f v k w,
    kotlin_models ast = Ok ktext /\ kotlin_file ktext = Some kotlin /\ KotlinSem.compiles kotlin = true /\
    swift_models ast = Ok stext /\ swift_file stext = Some swift /\ SwiftSem.compiles swift = true /\
    run_default rust_file text f m = RValue v /\ KotlinSem.run_default kotlin f m = KotlinSem.KValue k /\ SwiftSem.run_default swift f m = SwiftSem.SValue w /\
    kotlin_same text v k /\ swift_same text v w /\
    (forall U dart_rpc items cd dfuel s, dart_ready ast = true -> dart_items ast dart_rpc items -> dart_codecs_ok ast items = true -> zeros D U ds ->
       creatable ds (top_names items) cd (TyOther m) = true -> 3 * cd + 1 <= dfuel ->
       exists o h, dart_call D items dfuel (m ++ "BuffersFactory") "createDefault" [] s = DDone o (set_heap h s) /\
         changes (d_heap s) h [] /\ rep U ds (fresh (d_heap s) h) h o v (TyOther m)).
Proof. exact lem_C61_same_defaults. Qed.
Print Assumptions C61_same_defaults.
Example C61_same_defaults_case : let ds := schema_decls c61_ast in
  compile_front c61_src = Ok c61_ast /\ rust_ready c61_ast = true /\ file_items c61_ast true true true c61_rust /\ rust_fine ds (rust_decls c61_ast true true) = true /\
  kotlin_fine c61_ast = true /\ swift_fine c61_ast = true /\ schema_names c61_ast = ["Line"; "Point"; "Style"; "Side"; "Mode"; "Nothing"] /\
  dart_ready c61_ast = true /\ dart_items c61_ast false c61_dart /\ dart_codecs_ok c61_ast c61_dart = true /\ zeros c21_dart le_support ds /\
  creatable ds (top_names c61_dart) 5 (TyOther "Line") = true /\
  run_default c61_rust 0 7 "Line" = RValue c61_line.
Proof.
  split; [vm_compute; reflexivity|].
  split; [vm_compute; reflexivity|].
  split; [apply rust_items_tree; vm_compute; reflexivity|].
  split; [vm_compute; reflexivity|].
  split; [vm_compute; reflexivity|].
  split; [vm_compute; reflexivity|].
  split; [vm_compute; reflexivity|].
  split; [vm_compute; reflexivity|].
  split; [apply dart_items_tree; vm_compute; reflexivity|].
  split; [vm_compute; reflexivity|].
  split; [split; [vm_compute; reflexivity|]; split; vm_compute; reflexivity|].
  split; vm_compute; reflexivity.
Qed.

(** The comparison tells values apart: another number, type, truth value, name of a property, order or case is not the same. *)
Example C61_apart :
  ~ kotlin_same 0 (vnum "i32" 0) (KotlinSem.VWhole "Int" 1) /\ ~ kotlin_same 0 (vnum "i32" 0) (KotlinSem.VWhole "UInt" 0) /\
  ~ kotlin_same 0 (vnum "bool" 0) (KotlinSem.VTruth true) /\ ~ kotlin_same 0 (vext "String" 0) (KotlinSem.VText "a") /\
  ~ kotlin_same 0 (vrec "P" [("a_b", vnum "u8" 0)]) (KotlinSem.VNew "P" [("a_b", KotlinSem.VWhole "UByte" 0)]) /\
  ~ kotlin_same 0 (vrec "P" [("a", vnum "u8" 0); ("b", vnum "i8" 0)]) (KotlinSem.VNew "P" [("b", KotlinSem.VWhole "Byte" 0); ("a", KotlinSem.VWhole "UByte" 0)]) /\
  ~ kotlin_same 0 (vcase "E" "A") (KotlinSem.VObject "EB") /\
  ~ swift_same 0 (vcase "E" "A") (SwiftSem.WCase "E" "b" []) /\ ~ swift_same 0 (vcaset "E" "A" [vnum "u8" 0]) (SwiftSem.WCase "E" "a" []).
Proof.
  repeat split; intros H; inversion H; subst;
    repeat match goal with
           | X : Forall2 _ (_ :: _) _ |- _ => inversion X; clear X; subst
           | X : Forall2 _ [] _ |- _ => inversion X; clear X; subst
           | X : _ /\ _ |- _ => destruct X
           end; try discriminate; try (cbn in *; intuition discriminate); try lia; try (destruct b; discriminate).
Qed.
