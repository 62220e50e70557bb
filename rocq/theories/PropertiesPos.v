(** Property theorems about generated text: C26 (the positions of fields).  After each theorem, a concrete case that meets
    its hypotheses, and its axioms. *)
Require Import Coq.Strings.String Coq.Strings.Ascii.
Require Import Coq.NArith.NArith Coq.ZArith.ZArith Coq.Lists.List Coq.Bool.Bool Coq.Classes.Morphisms Coq.Setoids.Setoid.
Require Import Verif.Base Verif.Ast Verif.Lexer Verif.Parser Verif.Writer Verif.CaseConv Verif.GenMoreFacts.
Require Verif.RustGen Verif.DartGen.
Require Import Verif.PosFacts.
Import ListNotations.
Local Open Scope string_scope.

(** Positions of fields change no generated file; in particular the layout is that of the textual order. *)
Theorem C26_same_rust_file : forall a b models buffers rpc,
  same_but_field_positions a b -> RustGen.rust_generate a models buffers rpc = RustGen.rust_generate b models buffers rpc.
Proof. exact lem_C26_same_rust_file. Qed.
Print Assumptions C26_same_rust_file.

Theorem C26_same_dart_file : forall a b models buffers rpc,
  same_but_field_positions a b -> DartGen.dart_generate a models buffers rpc = DartGen.dart_generate b models buffers rpc.
Proof. exact lem_C26_same_dart_file. Qed.
Print Assumptions C26_same_dart_file.
Example C26_case : exists a b text dart, compile_front c26_first = Ok a /\ compile_front c26_other = Ok b /\ a <> b /\ same_but_field_positions a b
  /\ RustGen.rust_generate a true true true = Ok text /\ DartGen.dart_generate a true true true = Ok dart.
Proof.
  do 4 eexists.
  split; [vm_compute; reflexivity|].
  split; [vm_compute; reflexivity|].
  split; [discriminate|].
  split; [reflexivity|].
  split; vm_compute; reflexivity.
Qed.
