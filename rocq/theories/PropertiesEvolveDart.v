(** Property theorems about two versions of a schema in Dart, and across the languages: C54.  After each theorem, a
    concrete case that meets its hypotheses, and its axioms. *)
Require Import Coq.Strings.String Coq.Strings.Ascii.
Require Import Coq.NArith.NArith Coq.ZArith.ZArith Coq.Lists.List Coq.Bool.Bool Coq.Arith.PeanoNat.
Require Import Coq.micromega.Lia.
Require Import Verif.Base Verif.Ast Verif.Lexer Verif.Parser Verif.CaseConv Verif.Code Verif.NumText Verif.RustGen Verif.RustTree Verif.RustFile Verif.RustWf Verif.RustSem Verif.Wire Verif.RustCodec Verif.CodecFacts.
Require Import Verif.DartSyntax Verif.DartGen Verif.DartTree Verif.DartFile Verif.DartWf Verif.DartSem Verif.DartWire Verif.DartRun Verif.DartShape Verif.DartCodec Verif.DartAgree Verif.DartFacts.
Require Import Verif.EvolveSpec Verif.EvolveFacts.
Require Verif.EvolveRust Verif.EvolveDart.
Require Import Verif.EvolveDartFacts.
Import ListNotations.
Local Open Scope string_scope.
Local Open Scope list_scope.

(** Values of both versions: both writers produce the same bytes and both readers read them back. *)
Theorem C54_dart_older_data : forall a b rpc rpc' items items' D U cd v m fuel,
  let old := schema_decls a in
  let new := schema_decls b in
  dart_version a rpc items -> dart_version b rpc' items' -> dlawful D U -> grown old new (TyOther m) ->
  declared old m = true -> dtyped U old (top_names items) cd v (TyOther m) = true -> dtyped U new (top_names items') cd v (TyOther m) = true ->
  3 * depth v + 3 * cd + 3 <= fuel ->
  exists bs,
    dart_writes D U items old fuel m v bs /\ dart_writes D U items' new fuel m v bs /\
    dart_reads D U items old fuel m v bs /\ dart_reads D U items' new fuel m v bs.
Proof. exact lem_C54_dart_older_data. Qed.
Print Assumptions C54_dart_older_data.
Example C54_dart_older_case :
  dart_version (parsed c54_old) false c54_old_dart /\ dart_version (parsed c54_new) false c54_new_dart /\ dlawful c21_dart le_support /\
  schema_decls (parsed c54_old) = c54_old_decls /\ schema_decls (parsed c54_new) = c54_new_decls /\
  grown c54_old_decls c54_new_decls (TyOther "Scene") /\ declared c54_old_decls "Scene" = true /\
  dtyped le_support c54_old_decls (top_names c54_old_dart) 3 c54_plain (TyOther "Scene") = true /\
  dtyped le_support c54_new_decls (top_names c54_new_dart) 3 c54_plain (TyOther "Scene") = true.
Proof.
  split; [exact c54_old_dart_version|].
  split; [exact c54_new_dart_version|].
  split; [apply le_dlawful|].
  split; [vm_compute; reflexivity|].
  split; [vm_compute; reflexivity|].
  split; [exact c54_grown|].
  split; [vm_compute; reflexivity|].
  split; vm_compute; reflexivity.
Qed.

(** Data of the later version that is no value of the earlier one: the earlier readers throw, both the one that makes a new
    object and the one that fills a given object. *)
Theorem C54_dart_newer_data : forall a b rpc rpc' items items' D U cd v m fuel,
  let old := schema_decls a in
  let new := schema_decls b in
  dart_version a rpc items -> dart_version b rpc' items' -> dlawful D U -> grown old new (TyOther m) ->
  incl (top_names items) (top_names items') ->
  declared old m = true -> dtyped U new (top_names items') cd v (TyOther m) = true -> 3 * depth v + 3 * cd + 3 <= fuel ->
  exists bs,
    dart_writes D U items' new fuel m v bs /\
    if dtyped U old (top_names items) cd v (TyOther m) then dart_reads D U items old fuel m v bs else dart_throws D items old fuel m bs.
Proof. exact lem_C54_dart_newer_data. Qed.
Print Assumptions C54_dart_newer_data.
Example C54_dart_newer_case :
  dart_version (parsed c54_old) false c54_old_dart /\ dart_version (parsed c54_new) false c54_new_dart /\
  incl (top_names c54_old_dart) (top_names c54_new_dart) /\ grown c54_old_decls c54_new_decls (TyOther "Scene") /\
  dtyped le_support c54_new_decls (top_names c54_new_dart) 3 c54_mixed (TyOther "Scene") = true /\
  dtyped le_support c54_old_decls (top_names c54_old_dart) 3 c54_mixed (TyOther "Scene") = false /\
  dart_call c21_dart c54_old_dart 20 "SceneIntoBuffers" "read" [dreader]
    (set_drd (dwire c21_dart le_support c54_new_decls false c54_mixed (TyOther "Scene")) c21_start) = DThrows "StateError".
Proof.
  split; [exact c54_old_dart_version|].
  split; [exact c54_new_dart_version|].
  split; [apply incl_by; vm_compute; reflexivity|].
  split; [exact c54_grown|].
  split; [vm_compute; reflexivity|].
  split; vm_compute; reflexivity.
Qed.

(** Across the languages: a server of the later version and a client of the earlier one, or the other way round. *)
Theorem C54_across : forall a b models models' rpc rpc' drpc drpc' items items' ditems ditems' R V V' D U cd v m fuel dfuel,
  let rold := rust_decls a true rpc in
  let rnew := rust_decls b true rpc' in
  let old := schema_decls a in
  let new := schema_decls b in
  rust_version a models true rpc items -> rust_version b models' true rpc' items' ->
  dart_version a drpc ditems -> dart_version b drpc' ditems' ->
  lawful R -> dlawful D U -> agree R D U -> grown rold rnew (TyOther m) -> grown old new (TyOther m) -> incl (top_names ditems) (top_names ditems') ->
  declared old m = true -> typed R rnew v (TyOther m) = true -> dtyped U new (top_names ditems') cd v (TyOther m) = true -> portable new v (TyOther m) = true ->
  depth v <= fuel -> 3 * depth v + 3 * cd + 3 <= dfuel ->
  exists bs,
    (forall q, write_value R V' items' fuel v q = Done RustSem.ok (set_wr (s_wr q ++ bs) q)) /\
    dart_writes D U ditems' new dfuel m v bs /\
    (if dtyped U old (top_names ditems) cd v (TyOther m) then dart_reads D U ditems old dfuel m v bs else dart_throws D ditems old dfuel m bs) /\
    (forall q rest, read_value R V items fuel (RustTree.ty0 m) (set_rd (bs ++ rest) q) =
      if typed R rold v (TyOther m) then Done v (set_rd rest q) else Panics).
Proof. exact lem_C54_across. Qed.
Print Assumptions C54_across.
Example C54_across_case :
  rust_version (parsed c54_old) true true false c54_old_items /\ rust_version (parsed c54_new) true true false c54_new_items /\
  dart_version (parsed c54_old) false c54_old_dart /\ dart_version (parsed c54_new) false c54_new_dart /\
  lawful le_runtime /\ dlawful c21_dart le_support /\ agree le_runtime c21_dart le_support /\
  grown c54_old_decls c54_new_decls (TyOther "Scene") /\
  typed le_runtime c54_new_decls c54_mixed (TyOther "Scene") = true /\ typed le_runtime c54_old_decls c54_mixed (TyOther "Scene") = false /\
  dtyped le_support c54_new_decls (top_names c54_new_dart) 3 c54_mixed (TyOther "Scene") = true /\
  portable c54_new_decls c54_mixed (TyOther "Scene") = true.
Proof.
  split; [exact c54_old_version|].
  split; [exact c54_new_version|].
  split; [exact c54_old_dart_version|].
  split; [exact c54_new_dart_version|].
  split; [exact le_lawful|].
  split; [apply le_dlawful|].
  split; [exact (le_agree false)|].
  split; [exact c54_grown|].
  repeat split; vm_compute; reflexivity.
Qed.
