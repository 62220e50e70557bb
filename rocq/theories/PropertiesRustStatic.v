(** The generated Rust file compiles (C57). *)
Require Import Coq.Strings.String Coq.Strings.Ascii.
Require Import Coq.NArith.NArith Coq.Lists.List Coq.Bool.Bool Coq.Arith.PeanoNat.
Require Import Verif.Base Verif.Ast Verif.Wire Verif.RustSyntax Verif.RustTree Verif.RustFile Verif.RustCodec Verif.CodecFacts Verif.RustStatic Verif.RustStaticSpec.
Require Verif.Parser Verif.RustGen Verif.RustWf Verif.RustFine Verif.RustDefault Verif.ConstSpec Verif.ConstFacts Verif.DefaultFacts Verif.RustStaticCode Verif.DartStaticFacts Verif.GoldenRust.
Require Import Verif.RustStaticFacts.
Import Parser(compile_front).
Import RustGen(rust_generate).
Import RustFine(rust_fine).
Import RustDefault(type_names).
Import ConstSpec(rust_consts_fine).
Import DartStaticFacts(replaced, lines).
Import DefaultFacts(rust_items_tree).
Import ListNotations.
Local Open Scope string_scope.
Local Open Scope list_scope.

(** The Rust file generated from a schema compiles: every name is declared once and is in scope where it stands, every
    expression has the type that its place asks for, every call has the arguments of its target, every [match] is exhaustive,
    every [impl] has the functions of its trait, no variable is used after it has been moved, no [&mut] is used twice in a call,
    no reference outlives what it refers to.  [compiles] are the rules of the language (RustStatic.v); [rust_fine] (RustFine.v),
    [rust_consts_fine] (ConstSpec.v) and [rust_code_fine] (RustStaticSpec.v) speak of the names and types of the schema;
    [user_fns] are the functions that the user has to provide for the remote methods. *)
Theorem C57_compiles : forall ast rpc ext items,
  rust_ready ast = true -> file_items ast true true rpc items -> rust_fine (schema_decls ast) (rust_decls ast true rpc) = true ->
  rust_consts_fine ast (type_names items) = true -> rust_code_fine ast rpc ext (rust_decls ast true rpc) = true ->
  compiles (user_fns ast rpc) ext items = true.
Proof. exact lem_C57_compiles. Qed.
Print Assumptions C57_compiles.
Example C57_compiles_case : exists ast items, compile_front c57_src = Ok ast /\ rust_ready ast = true /\ file_items ast true true true items /\
  rust_fine (schema_decls ast) (rust_decls ast true true) = true /\ rust_consts_fine ast (type_names items) = true /\
  rust_code_fine ast true ["Theme"] (rust_decls ast true true) = true /\ List.length items = 43.
Proof.
  assert (H : c57_holds ["Theme"] c57_src = true) by (vm_compute; reflexivity).
  assert (L : List.length (snd (c57_file c57_src)) = 43) by (vm_compute; reflexivity).
  assert (K : match compile_front c57_src with Ok _ => true | _ => false end = true) by (vm_compute; reflexivity).
  unfold c57_holds, c57_file in H, L.
  destruct (compile_front c57_src) as [ast| |]; try discriminate K.
  rewrite !andb_true_iff in H.
  destruct H as ((((RD & G) & CO) & CF) & F).
  exists ast, (rust_tree ast true true true).
  split; [reflexivity|].
  split; [exact RD|].
  split; [now apply rust_items_tree|].
  split; [exact CO|].
  split; [exact CF|].
  split; [exact F|exact L].
Qed.

(** Sources of the repository meet the hypotheses: all but the one with fields of types from elsewhere and the one with
    constants of such types, which [RustDefault] and [RustConst] do not cover. *)
Example C57_compiles_golden : forallb (c57_holds ["Theme"])
  [GoldenRust.f_empty_tpb; GoldenRust.f_enum_tpb; GoldenRust.f_rpc_sync_methods_tpb; GoldenRust.f_rpc_async_methods_tpb; GoldenRust.f_rpc_read_methods_tpb; GoldenRust.f_rpc_methods_tpb] = true.
Proof.
  vm_compute.
  reflexivity.
Qed.

(** Without the conditions on the names and types it does not hold: sources that are accepted, that mention no types from
    elsewhere, and whose Rust files are well formed, but do not compile.  Among them a [read] of a number: its handler passes a
    reference to [write_u8] (src/rust/rpc.rs:333-344, 400-412). *)
Theorem C57_compiles_refuted : forall src, In src c57_bad -> exists ast items, compile_front src = Ok ast /\ file_items ast true true true items /\ compiles (user_fns ast true) [] items = false.
Proof. exact lem_C57_compiles_refuted. Qed.
Print Assumptions C57_compiles_refuted.

(** The rules refuse exactly what is wrong in such a file: a [read] of a list compiles. *)
Example C57_compiles_refuted_case : In (c57_rpc "read last -> u8;") c57_bad /\ c57_holds [] (c57_rpc "read last -> Vec<u8>;") = true.
Proof.
  split; [now left|vm_compute; reflexivity].
Qed.

(** The rules refuse wrong files: a generated file compiles, and each of the edits in [c57_edits] gives a file that is still
    well formed but does not compile. *)
Example C57_rules : exists ast text, compile_front c57_whole = Ok ast /\ rust_generate ast true true true = Ok text /\
  (exists items, rust_file text = Some items /\ compiles (user_fns ast true) [] items = true) /\
  forall old new, In (old, new) c57_edits -> exists items, rust_file (replaced (lines old) (lines new) text) = Some items /\ compiles (user_fns ast true) [] items = false.
Proof. exact lem_C57_rules. Qed.
Print Assumptions C57_rules.
