(** Property theorems about generated text: C41 (element types in Dart), C27 and C28 (constants).  After each theorem,
    a concrete case that meets its hypotheses, and its axioms. *)
Require Import Coq.Strings.String Coq.Strings.Ascii.
Require Import Coq.NArith.NArith Coq.ZArith.ZArith Coq.QArith.QArith Coq.QArith.Qabs Coq.QArith.Qpower.
Require Import Coq.Lists.List Coq.Bool.Bool Coq.Classes.Morphisms Coq.Setoids.Setoid.
Require Import Coq.micromega.Lia Coq.micromega.Lqa Coq.micromega.ZifyBool Coq.micromega.ZifyN Coq.micromega.ZifyNat.
Require Import Verif.Base Verif.F64 Verif.F64Spec Verif.F64Proofs Verif.NumText Verif.Ast Verif.Lexer Verif.LexSpec Verif.LexProofs Verif.LexMore Verif.LexFacts
  Verif.Parser Verif.Grammar Verif.GrammarMore Verif.ParseProofs Verif.Printer Verif.PrintProofs Verif.TextPrinter Verif.Names
  Verif.ParseFacts Verif.Writer Verif.CaseConv Verif.RunFacts Verif.GenFacts.
Require Import Verif.RustSyntax Verif.RustPrint Verif.CodeLex Verif.RustTree Verif.RustLexed Verif.RustLexedConst Verif.RustFile Verif.RustWf.
Require Verif.RustGen Verif.DartGen Verif.SwiftGen Verif.KotlinGen.
Require Import Verif.GenMoreFacts.
Import ListNotations.
Local Open Scope string_scope.

(** The Dart file does not depend on the widths inside generic arguments. *)
Theorem C41_same_file : forall a b models buffers rpc,
  same_but_element_widths a b -> DartGen.dart_generate a models buffers rpc = DartGen.dart_generate b models buffers rpc.
Proof. exact lem_C41_same_file. Qed.
Print Assumptions C41_same_file.

(** In particular the expressions for a list of integers are the same whatever the integer type... *)
Theorem C41_lists : forall i s k i' s' k' accessor,
  let a := TyGeneric "Vec" [TyInteger i s k] in let b := TyGeneric "Vec" [TyInteger i' s' k'] in
  DartGen.generate_read a = DartGen.generate_read b /\ DartGen.generate_write a accessor = DartGen.generate_write b accessor
  /\ DartGen.generate_read_emplace a accessor = DartGen.generate_read_emplace b accessor /\ DartGen.generate_write_emplace a accessor = DartGen.generate_write_emplace b accessor
  /\ DartGen.generate_read_skip a = DartGen.generate_read_skip b /\ DartGen.generate_read_skip_emplace a = DartGen.generate_read_skip_emplace b
  /\ exists text, DartGen.generate_read a = Ok text.
Proof. exact lem_C41_lists. Qed.
Print Assumptions C41_lists.

(** ... while outside a list the size of the integer type chooses the expression. *)
Theorem C41_scalars : forall i s k i' s' k',
  In s [1; 4; 8]%nat -> In s' [1; 4; 8]%nat ->
  (DartGen.generate_read (TyInteger i s k) = DartGen.generate_read (TyInteger i' s' k') <-> s = s').
Proof. exact lem_C41_scalars. Qed.
Print Assumptions C41_scalars.

(** A schema with a list of bytes and one with a list of 64-bit words: one Dart file, two Rust files;
    the same with plain fields gives two Dart files. *)
Example C41_case :
  let schema (t : string) := compile_front ("struct A { x: Vec<" ++ t ++ ">, y: Map<Vec<" ++ t ++ ">, f32> } fn f(a: Vec<" ++ t ++ ">) -> bool;") in
  let plain (t : string) := compile_front ("struct A { x: " ++ t ++ " }") in
  exists a b c d,
    schema "i8" = Ok a /\ schema "u64" = Ok b /\ plain "i8" = Ok c /\ plain "u64" = Ok d
    /\ same_but_element_widths a b /\ a <> b /\ ~ same_but_element_widths c d
    /\ DartGen.dart_generate a true true false = DartGen.dart_generate b true true false
    /\ RustGen.rust_generate a true true false <> RustGen.rust_generate b true true false
    /\ DartGen.dart_generate c true true false <> DartGen.dart_generate d true true false.
Proof.
  cbv zeta.
  do 4 eexists.
  split; [vm_compute; reflexivity|].
  split; [vm_compute; reflexivity|].
  split; [vm_compute; reflexivity|].
  split; [vm_compute; reflexivity|].
  split; [reflexivity|].
  split; [discriminate|].
  split; [discriminate|].
  split; [apply C41_same_file; reflexivity|].
  split; vm_compute; discriminate.
Qed.

(** Rust and Dart: the number written rounds to the constant, and there is a point exactly if the constant is not whole. *)
Theorem C28_exact : forall m e t, double m e ->
  exists text p r, RustGen.generate_const_value (ConstLiteral (NumberLit (F64Fin m e)) t) = text
    /\ DartGen.generate_const_value (ConstLiteral (NumberLit (F64Fin m e)) t) = text
    /\ decimal text p r /\ nearest r (F64Fin m e)
    /\ (p = false <-> exists v, (value m e == qN v)%Q).
Proof. exact lem_C28_exact. Qed.
Print Assumptions C28_exact.

Theorem C28_swift_kotlin : forall m e id t, double m e ->
  exists text r, decimal text true r /\ nearest r (F64Fin m e)
    /\ SwiftGen.generate_const_value (ConstLiteral (NumberLit (F64Fin m e)) t) (TyNumber id 8) = Ok text
    /\ SwiftGen.generate_const_value (ConstLiteral (NumberLit (F64Fin m e)) t) (TyNumber id 4) = Ok (text ++ "f")
    /\ KotlinGen.generate_const_value (TyNumber id 8) (ConstLiteral (NumberLit (F64Fin m e)) t) = Ok text
    /\ KotlinGen.generate_const_value (TyNumber id 4) (ConstLiteral (NumberLit (F64Fin m e)) t) = Ok (text ++ "f").
Proof. exact lem_C28_swift_kotlin. Qed.
Print Assumptions C28_swift_kotlin.

Theorem C28_literals : forall s ts m e, tokenize s = Ok ts -> In (TLit (NumberLit (F64Fin m e))) ts -> double m e.
Proof. exact lem_C28_literals. Qed.
Print Assumptions C28_literals.

(** A whole constant declared as a float is written in Rust as an integer literal, ... *)
Theorem C28_rust_float_refuted : exists src ast text,
  compile_front src = Ok ast /\ src = "const C { X: f64 = 16.0; }" /\ RustGen.rust_generate ast true true true = Ok text
  /\ occurs ("pub const X: f64 = 16;" ++ nl) text = true.
Proof. exact lem_C28_rust_float_refuted. Qed.
Print Assumptions C28_rust_float_refuted.

(** ... and a literal above the largest double as the name of nothing. *)
Theorem C28_overflow_refuted : exists src ast text,
  compile_front src = Ok ast /\ RustGen.rust_generate ast true true true = Ok text /\ occurs ("pub const X: f64 = inf;" ++ nl) text = true.
Proof. exact lem_C28_overflow_refuted. Qed.
Print Assumptions C28_overflow_refuted.
Example C28_case : double 7205759403792794 (-56) /\ show_f64 (F64Fin 7205759403792794 (-56)) = "0.1"
  /\ double 4503599627370496 (-48) /\ show_f64 (F64Fin 4503599627370496 (-48)) = "16" /\ SwiftGen.show_float (F64Fin 4503599627370496 (-48)) = "16.0"
  /\ (value 4503599627370496 (-48) == qN 16)%Q.
Proof.
  split; [repeat split; cbn; try lia; left; lia|].
  split; [vm_compute; reflexivity|].
  split; [repeat split; cbn; try lia; left; lia|].
  split; [vm_compute; reflexivity|].
  split; [vm_compute; reflexivity|].
  reflexivity.
Qed.

(** The constants read from a generated Rust file are those of the schema, with type and value. *)
Theorem C27_rust : forall src ast models buffers rpc text,
  compile_front src = Ok ast -> rust_ready ast = true -> RustGen.rust_generate ast models buffers rpc = Ok text ->
  exists items, rust_file text = Some items
    /\ (forall p t v, declared ast p t v -> exists t' e, defines items p t' e /\ rust_constant t v t' e)
    /\ (forall p t' e, defines items p t' e -> exists t v, declared ast p t v /\ rust_constant t v t' e).
Proof. exact lem_C27_rust. Qed.
Print Assumptions C27_rust.

(** The text of a constant in Dart denotes its value, if it is finite and if it is a string without characters special to Dart. *)
Theorem C27_dart : forall src ast p t v t',
  compile_front src = Ok ast -> declared ast p t v ->
  match v with
  | StringLit s => all_chars (fun c => negb (existsb (Ascii.eqb c) [quote; "\"; "$"; ascii_of_nat 10; ascii_of_nat 13])%char) s = true
  | NumberLit x => x <> F64Inf
  | _ => True
  end ->
  dart_literal (DartGen.generate_const_value (ConstLiteral v t')) v.
Proof. exact lem_C27_dart. Qed.
Print Assumptions C27_dart.
Example C27_case :
  let src := "const A { x: u8 = 0x10; const B { y: f64 = 2.5; z: GroupAddress = 7; } s: String = ""ab""; n: bool = false; }" in
  exists ast text, compile_front src = Ok ast /\ rust_ready ast = true /\ RustGen.rust_generate ast true true true = Ok text
    /\ declared ast ["A"; "B"; "z"] (TyOther "GroupAddress") (IntLit 7) /\ declared ast ["A"; "x"] (TyInteger "u8" 1 false) (IntLit 16)
    /\ occurs "pub const z: tech_paws_runtime::GroupAddress = tech_paws_runtime::GroupAddress(7);" text = true.
Proof.
  cbv zeta.
  do 2 eexists.
  split; [vm_compute; reflexivity|].
  split; [vm_compute; reflexivity|].
  split; [vm_compute; reflexivity|].
  split; [|split].
  - eexists.
  split; [now left|].
  eapply ca_in; [right; left; reflexivity|].
  eapply ca_here.
  right.
  left.
  reflexivity.
  - eexists.
  split; [now left|].
  eapply ca_here.
  left.
  reflexivity.
  - vm_compute.
  reflexivity.
Qed.
