(** More property theorems about buffers that nobody has written, C64: skipping, and the same buffers in Dart.
    After each theorem, a concrete case that meets its hypotheses, and its axioms. *)
Require Import Coq.Strings.String Coq.Strings.Ascii.
Require Import Coq.NArith.NArith Coq.ZArith.ZArith Coq.Lists.List Coq.Bool.Bool Coq.Arith.PeanoNat.
Require Import Coq.micromega.Lia.
Require Import Verif.Base Verif.Ast Verif.Lexer Verif.Parser Verif.Code Verif.RustSyntax Verif.RustGen Verif.RustTree Verif.RustFile Verif.RustWf Verif.RustSem Verif.Wire Verif.RustCodec Verif.CodecFacts.
Require Import Verif.DartSyntax Verif.DartGen Verif.DartTree Verif.DartFile Verif.DartWf Verif.DartSem Verif.DartWire Verif.DartRun Verif.DartShape Verif.DartCodec Verif.DartAgree Verif.DartFacts.
Require Import Verif.StrictSpec Verif.StrictFacts.
Require Import Verif.StrictMoreFacts.
Import ListNotations.
Local Open Scope string_scope.
Local Open Scope list_scope.

(** Whatever the bytes are: what a generated skip passes over are the bytes of as many values of the type. *)
Theorem C64_skipped : forall ast models buffers rpc items R V n d fuel count q x q',
  let ds := rust_decls ast buffers rpc in
  rust_ready ast = true -> file_items ast models buffers rpc items -> codecs_ok ds = true -> cases_named ds = true -> plain_types ds = true ->
  strict R -> decl_of n ds = Some d -> StrictSpec.plain_type (TyOther n) = true ->
  skip_values R V items fuel n count q = Done x q' ->
  exists vs rest, List.length vs = Z.to_nat count /\ Forall (fun v => typed R ds v (TyOther n) = true) vs /\
    s_rd q = flat_map (wire R ds) vs ++ rest /\ q' = set_rd rest q.
Proof. exact lem_C64_skipped. Qed.
Print Assumptions C64_skipped.
Example C64_skipped_case : let ds := rust_decls (parsed c17_schema) true false in
  StrictSpec.plain_type (TyOther "Point") = true /\ (exists d, decl_of "Point" ds = Some d) /\
  skip_values le_strict c17_service c17_items 5 "Point" 2 (set_rd (zs [254; 255; 255; 255; 3; 1; 0; 0; 0; 2; 99]%Z) c17_state) =
    Done RustSem.ok (set_rd (zs [99]%Z) c17_state).
Proof.
  split; [reflexivity|].
  split; [eexists; vm_compute; reflexivity|].
  vm_compute.
  reflexivity.
Qed.

(** A buffer that the generated Rust code accepts, whoever made it, is accepted by the generated Dart code, which reads the same value and leaves the
    same bytes. *)
Theorem C64_dart : forall ast models rust_rpc dart_rpc rust_file items R V D U cd v m fuel dfuel q q' s,
  let rds := rust_decls ast true rust_rpc in
  let ds := schema_decls ast in
  rust_ready ast = true -> file_items ast models true rust_rpc rust_file -> codecs_ok rds = true -> codecs_distinct rds = true ->
  cases_named rds = true -> plain_types rds = true -> StrictSpec.plain_type (TyOther m) = true ->
  dart_ready ast = true -> dart_items ast dart_rpc items -> dart_codecs_ok ast items = true ->
  lawful R -> strict R -> dlawful D U -> agree R D U ->
  declared ds m = true -> read_value R V rust_file fuel (RustTree.ty0 m) q = Done v q' ->
  dtyped U ds (top_names items) cd v (TyOther m) = true -> portable ds v (TyOther m) = true -> 3 * depth v + 3 * cd + 3 <= dfuel ->
  exists w h',
    dart_call D items dfuel (m ++ "IntoBuffers") "read" [dreader] (set_drd (s_rd q) s) = DDone w (set_heap h' (set_drd (s_rd q') s)) /\
    changes (d_heap s) h' [] /\ rep U ds (fresh (d_heap s) h') h' w v (TyOther m).
Proof. exact lem_C64_dart. Qed.
Print Assumptions C64_dart.
Example C64_dart_case : let rds := rust_decls c21_ast true false in let ds := schema_decls c21_ast in
  rust_ready c21_ast = true /\ file_items c21_ast true true false c17_items /\ codecs_ok rds = true /\ codecs_distinct rds = true /\
  cases_named rds = true /\ plain_types rds = true /\ StrictSpec.plain_type (TyOther "Shape") = true /\
  dart_ready c21_ast = true /\ dart_items c21_ast false c21_items /\ dart_codecs_ok c21_ast c21_items = true /\
  lawful le_strict /\ strict le_strict /\ dlawful c21_dart le_support /\ agree le_strict c21_dart le_support /\ declared ds "Shape" = true /\
  read_value le_strict c17_service c17_items 5 (RustTree.ty0 "Shape") (set_rd (wire le_strict rds c21_shape ++ zs [99]%Z) c17_state) =
    Done c21_shape (set_rd (zs [99]%Z) c17_state) /\
  dtyped le_support ds (top_names c21_items) 4 c21_shape (TyOther "Shape") = true /\ portable ds c21_shape (TyOther "Shape") = true.
Proof.
  split; [vm_compute; reflexivity|].
  split; [eexists; split; vm_compute; reflexivity|].
  split; [vm_compute; reflexivity|].
  split; [vm_compute; reflexivity|].
  split; [vm_compute; reflexivity|].
  split; [vm_compute; reflexivity|].
  split; [vm_compute; reflexivity|].
  split; [vm_compute; reflexivity|].
  split; [apply dart_items_tree; vm_compute; reflexivity|].
  split; [vm_compute; reflexivity|].
  split; [exact le_strict_lawful|].
  split; [exact le_strict_strict|].
  split; [apply le_dlawful|].
  split; [destruct (le_agree false); constructor; assumption|].
  split; [vm_compute; reflexivity|].
  split; [vm_compute; reflexivity|].
  split; vm_compute; reflexivity.
Qed.
