(** The generated Dart file compiles (C56). *)
Require Import Coq.Strings.String Coq.Strings.Ascii.
Require Import Coq.NArith.NArith Coq.Lists.List Coq.Bool.Bool Coq.Arith.PeanoNat.
Require Import Verif.Base Verif.Ast Verif.CaseConv Verif.Wire Verif.DartSyntax Verif.DartTree Verif.DartFile Verif.DartFacts Verif.DartStatic Verif.DartStaticSpec.
Require Verif.DartWf Verif.Parser Verif.ConstSpec Verif.ConstFacts Verif.DartConst Verif.DartRun Verif.DartRpc Verif.DartCodec Verif.DartLexed Verif.DartLexedEnum Verif.DartLexedModel Verif.DartLexedRpc Verif.DartGen Verif.DartStaticCode Verif.GoldenDart.
Require Import Verif.DartStaticFacts.
Import Parser(compile_front).
Import ConstSpec(dart_consts_fine).
Import DartRun(top_names).
Import ListNotations.
Local Open Scope string_scope.
Local Open Scope list_scope.

(** The Dart file generated from a schema compiles: every name is declared once and is in scope where it stands, every
    expression has the type that its place asks for, every call has the arguments of its target, every class has the methods of
    its interface, every field is set, every path returns.  [compiles] are the rules of the language (DartStatic.v), [dart_fine]
    speaks of the names and types of the schema. *)
Theorem C56_compiles : forall ast rpc ext items,
  dart_ready ast = true -> dart_items ast rpc items -> dart_codecs_ok ast items = true -> dart_consts_fine ast (top_names items) = true ->
  dart_fine ast ext items = true -> compiles ext items = true.
Proof. exact lem_C56_compiles. Qed.
Print Assumptions C56_compiles.
Example C56_compiles_case : exists ast items, compile_front c56_src = Ok ast /\ dart_ready ast = true /\ dart_items ast true items /\ dart_codecs_ok ast items = true /\
  dart_consts_fine ast (top_names items) = true /\ dart_fine ast ["Theme"] items = true /\ List.length items = 36.
Proof.
  assert (H : c56_holds ["Theme"] c56_src = true) by (vm_compute; reflexivity).
  assert (L : List.length (snd (c56_file c56_src)) = 36) by (vm_compute; reflexivity).
  assert (K : match compile_front c56_src with Ok _ => true | _ => false end = true) by (vm_compute; reflexivity).
  unfold c56_holds, c56_file in H, L.
  destruct (compile_front c56_src) as [ast| |]; try discriminate K.
  rewrite !andb_true_iff in H.
  destruct H as ((((RD & G) & CO) & CF) & F).
  exists ast, (dart_tree ast true true true).
  split; [reflexivity|].
  split; [exact RD|].
  split; [now apply dart_items_tree|].
  split; [exact CO|].
  split; [exact CF|].
  split; [exact F|exact L].
Qed.

(** The sources of the repository meet the hypotheses. *)
Example C56_compiles_golden : forallb (c56_holds ["TouchStatus"; "LinearTable"; "Theme"])
  [GoldenDart.f_empty_tpb; GoldenDart.f_struct_tpb; GoldenDart.f_enum_tpb; GoldenDart.f_consts_tpb; GoldenDart.f_rpc_sync_methods_tpb; GoldenDart.f_rpc_async_methods_tpb;
   GoldenDart.f_rpc_read_methods_tpb; GoldenDart.f_rpc_methods_tpb] = true.
Proof.
  vm_compute.
  reflexivity.
Qed.

(** Without [dart_fine] it does not hold: sources that are accepted, that mention no types from elsewhere, and whose Dart
    files are well formed, but do not compile. *)
Theorem C56_compiles_refuted : forall src, In src c56_bad -> exists ast items, compile_front src = Ok ast /\ dart_items ast true items /\ compiles [] items = false.
Proof. exact lem_C56_compiles_refuted. Qed.
Print Assumptions C56_compiles_refuted.
(** The rules refuse exactly what is wrong in such a file: with another name of the field it compiles. *)
Example C56_compiles_refuted_case : In "struct Point { to_string: u32 }" c56_bad /\ c56_holds [] "struct Point { to_text: u32 }" = true.
Proof. split; [now left|vm_compute; reflexivity]. Qed.
(** The rules refuse wrong files: a generated file compiles, and each of the edits in [c56_edits] gives a file that is still
    well formed but does not compile. *)
Example C56_rules : exists ast text, compile_front c56_whole = Ok ast /\ DartGen.dart_generate ast true true true = Ok text /\
  (exists items, dart_file text = Some items /\ compiles [] items = true) /\
  forall old new, In (old, new) c56_edits -> exists items, dart_file (replaced (lines old) (lines new) text) = Some items /\ compiles [] items = false.
Proof. exact lem_C56_rules. Qed.
Print Assumptions C56_rules.
