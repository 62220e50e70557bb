(** Property theorems about two versions of a schema: C54.  Files generated from the earlier and the later version are
    read back and run against each other's bytes.  After each theorem, a concrete case that meets its hypotheses, and its
    axioms. *)
Require Import Coq.Strings.String Coq.Strings.Ascii.
Require Import Coq.NArith.NArith Coq.ZArith.ZArith Coq.Lists.List Coq.Bool.Bool Coq.Arith.PeanoNat.
Require Import Coq.micromega.Lia.
Require Import Verif.Base Verif.Ast Verif.Lexer Verif.Parser Verif.Code Verif.RustSyntax Verif.RustGen Verif.RustTree Verif.RustFile Verif.RustWf Verif.RustSem Verif.Wire Verif.RustCodec Verif.EvolveSpec Verif.EvolveRust.
Require Verif.CodecFacts.
Require Import Verif.EvolveFacts.
Import CodecFacts(file_items, codecs_ok, codecs_distinct, cases_named, parsed, file_impls, c17_service, c17_state, zs).
Import ListNotations.
Local Open Scope string_scope.
Local Open Scope list_scope.

(** Values of the earlier version: the writers of both versions produce the same bytes, and the readers of both versions
    read them back. *)
Theorem C54_rust_older_data : forall a b models models' buffers buffers' rpc rpc' items items' R V V' v t fuel,
  let old := rust_decls a buffers rpc in
  let new := rust_decls b buffers' rpc' in
  rust_version a models buffers rpc items -> rust_version b models' buffers' rpc' items' -> lawful R ->
  grown old new t -> typed R old v t = true -> depth v <= fuel ->
  typed R new v t = true /\
  exists bs,
    (forall q, write_value R V items fuel v q = Done RustSem.ok (set_wr (s_wr q ++ bs) q)) /\
    (forall q, write_value R V' items' fuel v q = Done RustSem.ok (set_wr (s_wr q ++ bs) q)) /\
    (forall q rest, read_value R V items fuel (rty_of t) (set_rd (bs ++ rest) q) = Done v (set_rd rest q)) /\
    (forall q rest, read_value R V' items' fuel (rty_of t) (set_rd (bs ++ rest) q) = Done v (set_rd rest q)).
Proof. exact lem_C54_rust_older_data. Qed.
Print Assumptions C54_rust_older_data.

(** Data of the later version: the earlier reader returns the value when it is a value of the earlier version, and
    otherwise panics.  It never returns something else. *)
Theorem C54_rust_newer_data : forall a b models models' buffers buffers' rpc rpc' items items' R V V' v t fuel,
  let old := rust_decls a buffers rpc in
  let new := rust_decls b buffers' rpc' in
  rust_version a models buffers rpc items -> rust_version b models' buffers' rpc' items' -> lawful R ->
  grown old new t -> typed R new v t = true -> depth v <= fuel ->
  exists bs,
    (forall q, write_value R V' items' fuel v q = Done RustSem.ok (set_wr (s_wr q ++ bs) q)) /\
    (forall q rest, read_value R V items fuel (rty_of t) (set_rd (bs ++ rest) q) =
      if typed R old v t then Done v (set_rd rest q) else Panics).
Proof. exact lem_C54_rust_newer_data. Qed.
Print Assumptions C54_rust_newer_data.
Example C54_older_case :
  rust_version (parsed c54_old) true true false c54_old_items /\ rust_version (parsed c54_new) true true false c54_new_items /\
  lawful le_runtime /\ rust_decls (parsed c54_old) true false = c54_old_decls /\ rust_decls (parsed c54_new) true false = c54_new_decls /\
  grown c54_old_decls c54_new_decls (TyOther "Scene") /\
  typed le_runtime c54_old_decls (c54_scene [vcase "Shape" "Dot"; vcaset "Shape" "Round" [c54_point 1 2; vnum "u32" 3]] (vcase "Shape" "Dot")) (TyOther "Scene") = true /\
  write_value le_runtime c17_service c54_old_items 4 (vcaset "Shape" "Round" [c54_point 1 2; vnum "u32" 3]) c17_state = Done RustSem.ok (set_wr (zs [7; 0; 0; 0; 1; 2; 3; 0; 0; 0]%Z) c17_state) /\
  write_value le_runtime c17_service c54_new_items 4 (vcaset "Shape" "Round" [c54_point 1 2; vnum "u32" 3]) c17_state = Done RustSem.ok (set_wr (zs [7; 0; 0; 0; 1; 2; 3; 0; 0; 0]%Z) c17_state).
Proof.
  split; [exact c54_old_version|].
  split; [exact c54_new_version|].
  split; [exact le_lawful|].
  split; [vm_compute; reflexivity|].
  split; [vm_compute; reflexivity|].
  split; [exact c54_grown|].
  split; [vm_compute; reflexivity|].
  split; vm_compute; reflexivity.
Qed.
Example C54_newer_case :
  typed le_runtime c54_new_decls (c54_scene [vcase "Shape" "Dot"; c54_named] (vcase "Shape" "Dot")) (TyOther "Scene") = true /\
  typed le_runtime c54_old_decls (c54_scene [vcase "Shape" "Dot"; c54_named] (vcase "Shape" "Dot")) (TyOther "Scene") = false /\
  write_value le_runtime c17_service c54_new_items 4 c54_named c17_state = Done RustSem.ok (set_wr (zs [9; 0; 0; 0; 1; 2; 1; 0; 0; 0]%Z) c17_state) /\
  read_value le_runtime c17_service c54_old_items 4 (ty0 "Shape") (set_rd (zs [9; 0; 0; 0; 1; 2; 1; 0; 0; 0]%Z) c17_state) = Panics /\
  read_value le_runtime c17_service c54_old_items 4 (ty0 "Shape") (set_rd (zs [7; 0; 0; 0; 1; 2; 3; 0; 0; 0]%Z) c17_state) = Done (vcaset "Shape" "Round" [c54_point 1 2; vnum "u32" 3]) c17_state.
Proof.
  repeat (split; [vm_compute; reflexivity|]).
  vm_compute.
  reflexivity.
Qed.

(** A field appended to a struct that no declaration mentions: the earlier reader returns the earlier fields and leaves the
    bytes of the added ones unread. *)
Theorem C54_appended_fields : forall a b models models' buffers buffers' rpc rpc' items items' R V V' m s s' more fs gs fuel,
  let old := rust_decls a buffers rpc in
  let new := rust_decls b buffers' rpc' in
  rust_version a models buffers rpc items -> rust_version b models' buffers' rpc' items' -> lawful R ->
  decl_of m old = Some (DStruct s) -> decl_of m new = Some (DStruct s') ->
  map field_shape (sn_fields s') = map field_shape (sn_fields s) ++ more ->
  (forall n d, n <> m -> decl_of n old = Some d -> exists d', decl_of n new = Some d' /\ grown_decl d d') ->
  (forall n, In n (flat_map mentions (flat_map decl_types old)) -> n <> m /\ (decl_of n old = None -> decl_of n new = None)) ->
  typed R new (vrec m (fs ++ gs)) (TyOther m) = true -> List.length fs = List.length (sn_fields s) -> depth (vrec m (fs ++ gs)) <= fuel ->
  exists bs extra,
    (forall q, write_value R V' items' fuel (vrec m (fs ++ gs)) q = Done RustSem.ok (set_wr (s_wr q ++ bs ++ extra) q)) /\
    (typed R old (vrec m fs) (TyOther m) = true -> forall q, write_value R V items fuel (vrec m fs) q = Done RustSem.ok (set_wr (s_wr q ++ bs) q)) /\
    (forall q rest, read_value R V items fuel (ty0 m) (set_rd (bs ++ extra ++ rest) q) =
      if typed R old (vrec m fs) (TyOther m) then Done (vrec m fs) (set_rd (extra ++ rest) q) else Panics).
Proof. exact lem_C54_appended_fields. Qed.
Print Assumptions C54_appended_fields.
Example C54_appended_case :
  rust_version (parsed c54_old) true true false c54_old_items /\ rust_version (parsed c54_wide) true true false c54_wide_items /\
  (exists s s', decl_of "Scene" c54_old_decls = Some (DStruct s) /\ decl_of "Scene" c54_wide_decls = Some (DStruct s') /\
    List.length c54_dots = List.length (sn_fields s) /\
    map field_shape (sn_fields s') = map field_shape (sn_fields s) ++ [("depth", TyInteger "u8" 1 false)]) /\
  (forall n d, n <> "Scene" -> decl_of n c54_old_decls = Some d -> exists d', decl_of n c54_wide_decls = Some d' /\ grown_decl d d') /\
  (forall n, In n (flat_map mentions (flat_map decl_types c54_old_decls)) -> n <> "Scene" /\ (decl_of n c54_old_decls = None -> decl_of n c54_wide_decls = None)) /\
  typed le_runtime c54_wide_decls (vrec "Scene" (c54_dots ++ [("depth", vnum "u8" 9)])) (TyOther "Scene") = true /\
  read_value le_runtime c17_service c54_old_items 4 (ty0 "Scene")
    (set_rd (zs [1; 0; 0; 0; 0; 0; 0; 0; 3; 0; 0; 0; 3; 0; 0; 0; 1; 0; 0; 0; 0; 0; 0; 0; 9]%Z) c17_state) =
  Done (vrec "Scene" c54_dots) (set_rd (zs [9]%Z) c17_state).
Proof.
  split; [exact c54_old_version|].
  split; [exact c54_wide_version|].
  split.
  { eexists.
  eexists.
  split; [vm_compute; reflexivity|].
  split; [vm_compute; reflexivity|].
  split; vm_compute; reflexivity.
  }
  destruct c54_beside as [A B].
  split; [exact A|].
  split; [exact B|].
  split; vm_compute; reflexivity.
Qed.

(** A field appended to a struct that another one contains. *)
Theorem C54_nested_field_refuted : exists v w,
  misread "struct Point { x: u8 } struct Line { from: Point, to: Point }" "struct Point { x: u8, y: u8 } struct Line { from: Point, to: Point }" "Line" v w.
Proof. exact lem_C54_nested_field_refuted. Qed.
Print Assumptions C54_nested_field_refuted.

(** Two fields that change places: positions written before the fields do not help. *)
Theorem C54_field_order_refuted : exists v w,
  misread "struct Point { #[0] x: u8, #[1] y: u8 }" "struct Point { #[1] y: u8, #[0] x: u8 }" "Point" v w.
Proof. exact lem_C54_field_order_refuted. Qed.
Print Assumptions C54_field_order_refuted.

(** A case put before others that have no written position: it takes the position of the first of them. *)
Theorem C54_implicit_position_refuted : exists v w,
  misread "enum Shape { Dot, Round }" "enum Shape { Empty, Dot, Round }" "Shape" v w.
Proof. exact lem_C54_implicit_position_refuted. Qed.
Print Assumptions C54_implicit_position_refuted.

(** A position that is used again. *)
Theorem C54_reused_position_refuted : exists v w,
  misread "enum Shape { #[0] Dot, #[1] Round(u8) }" "enum Shape { #[0] Dot, #[1] Square(u8) }" "Shape" v w.
Proof. exact lem_C54_reused_position_refuted. Qed.
Print Assumptions C54_reused_position_refuted.
