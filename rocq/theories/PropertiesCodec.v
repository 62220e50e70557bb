(** Property theorems about the meaning of the generated Rust codecs: C17 (structs), C18 (enums), C19 (skipping),
    C20 (unknown tags), C25 (reordered variants).  The generated text is read back as a Rust file and that file is
    run by the interpreter of RustSem.  After each theorem, a concrete case that meets its hypotheses, and its axioms. *)
Require Import Coq.Strings.String Coq.Strings.Ascii.
Require Import Coq.NArith.NArith Coq.ZArith.ZArith Coq.Lists.List Coq.Bool.Bool Coq.Arith.PeanoNat Coq.Sorting.Permutation.
Require Import Coq.micromega.Lia Coq.micromega.ZifyBool Coq.micromega.ZifyN Coq.micromega.ZifyNat.
Require Import Verif.Base Verif.Ast Verif.Lexer Verif.Parser Verif.Code Verif.NumText Verif.RustSyntax Verif.RustGen Verif.RustTree Verif.RustFile Verif.RustWf Verif.RustSem Verif.Wire Verif.RustCodec.
Require Import Verif.CodecFacts.
Import ListNotations.
Local Open Scope string_scope.
Local Open Scope list_scope.

(** What a generated writer writes for a value of any type, the generated reader reads back. *)
Theorem C17_round_trip : forall ast models buffers rpc items R V v t fuel,
  let ds := rust_decls ast buffers rpc in
  rust_ready ast = true -> file_items ast models buffers rpc items -> codecs_ok ds = true -> codecs_distinct ds = true ->
  lawful R -> typed R ds v t = true -> depth v <= fuel ->
  exists bs,
    (forall q, write_value R V items fuel v q = Done RustSem.ok (set_wr (s_wr q ++ bs) q)) /\
    (forall q rest, read_value R V items fuel (rty_of t) (set_rd (bs ++ rest) q) = Done v (set_rd rest q)).
Proof. exact lem_C17_round_trip. Qed.
Print Assumptions C17_round_trip.

(** In particular for a struct; and the bytes are those of its fields in the order of the declaration, with nothing before,
    between or after. *)
Theorem C17_struct_round_trip : forall ast models buffers rpc items R V n fs fuel,
  let ds := rust_decls ast buffers rpc in
  rust_ready ast = true -> file_items ast models buffers rpc items -> codecs_ok ds = true -> codecs_distinct ds = true ->
  lawful R -> typed R ds (vrec n fs) (TyOther n) = true -> depth (vrec n fs) <= fuel ->
  let bs := flat_map (fun '(_, v) => wire R ds v) fs in
  (forall q, write_value R V items fuel (vrec n fs) q = Done RustSem.ok (set_wr (s_wr q ++ bs) q)) /\
  (forall q rest, read_value R V items fuel (ty0 n) (set_rd (bs ++ rest) q) = Done (vrec n fs) (set_rd rest q)).
Proof. exact lem_C17_struct_round_trip. Qed.
Print Assumptions C17_struct_round_trip.
Example C17_case : let ds := rust_decls (parsed c17_schema) true false in
  rust_ready (parsed c17_schema) = true /\ file_items (parsed c17_schema) true true false c17_items /\ codecs_ok ds = true /\ codecs_distinct ds = true
  /\ lawful le_runtime /\ typed le_runtime ds c17_line (TyOther "Line") = true /\ depth c17_line <= 4
  /\ write_value le_runtime c17_service c17_items 3 (c17_point (-2) 3) c17_state = Done RustSem.ok (set_wr (zs [254; 255; 255; 255; 3]%Z) c17_state).
Proof.
  split; [vm_compute; reflexivity|].
  split; [eexists; split; vm_compute; reflexivity|].
  split; [vm_compute; reflexivity|].
  split; [vm_compute; reflexivity|].
  split; [exact le_lawful|].
  split; [vm_compute; reflexivity|].
  split; [apply Nat.leb_le; vm_compute; reflexivity|].
  vm_compute.
  reflexivity.
Qed.

(** Enums: the position of the case as a u32, then the payload. *)
Theorem C18_enum_round_trip : forall ast models buffers rpc items R V e v fuel,
  let ds := rust_decls ast buffers rpc in
  rust_ready ast = true -> file_items ast models buffers rpc items -> codecs_ok ds = true -> codecs_distinct ds = true ->
  lawful R -> In (DEnum e) ds -> typed R ds v (TyOther (en_id e)) = true -> depth v <= fuel ->
  exists bs,
    (forall q, write_value R V items fuel v q = Done RustSem.ok (set_wr (s_wr q ++ bs) q)) /\
    (forall q rest, read_value R V items fuel (ty0 (en_id e)) (set_rd (bs ++ rest) q) = Done v (set_rd rest q)).
Proof. exact lem_C18_enum_round_trip. Qed.
Print Assumptions C18_enum_round_trip.

Theorem C18_enum_bytes : forall ast models buffers rpc items R V e i v fuel q,
  let ds := rust_decls ast buffers rpc in
  rust_ready ast = true -> file_items ast models buffers rpc items -> codecs_ok ds = true ->
  decl_of (en_id e) ds = Some (DEnum e) -> item_of (item_name i) e = Some i ->
  typed R ds v (TyOther (en_id e)) = true -> depth v <= fuel ->
  match i, v with
  | ItemEmpty _ c, vcase n c' => c = c'
  | ItemTuple _ c _, vcaset n c' l => c = c'
  | ItemStruct _ c _, vcases n c' fs => c = c'
  | _, _ => False
  end ->
  write_value R V items fuel v q =
  Done RustSem.ok (set_wr (s_wr q ++ rt_put R "u32" (Z.of_N (item_pos i)) ++
    match v with vcaset _ _ l => flat_map (wire R ds) l | vcases _ _ fs => flat_map (fun '(_, v) => wire R ds v) fs | _ => [] end) q).
Proof. exact lem_C18_enum_bytes. Qed.
Print Assumptions C18_enum_bytes.

(** If two cases share a position, no value of the later one is ever read back. *)
Theorem C18_shared_position : forall ast models buffers rpc items R V e l i l' j l'' v fuel,
  let ds := rust_decls ast buffers rpc in
  rust_ready ast = true -> file_items ast models buffers rpc items -> codecs_ok ds = true ->
  lawful R -> decl_of (en_id e) ds = Some (DEnum e) ->
  en_items e = l ++ i :: l' ++ j :: l'' -> item_pos i = item_pos j -> NoDup (map item_name (en_items e)) ->
  typed R ds v (TyOther (en_id e)) = true ->
  match j, v with
  | ItemEmpty _ c, vcase n c' => c = c'
  | ItemTuple _ c _, vcaset n c' l => c = c'
  | ItemStruct _ c _, vcases n c' fs => c = c'
  | _, _ => False
  end ->
  depth v <= fuel ->
  exists bs,
    (forall q, write_value R V items fuel v q = Done RustSem.ok (set_wr (s_wr q ++ bs) q)) /\
    (forall fuel' q q' rest, read_value R V items fuel' (ty0 (en_id e)) (set_rd (bs ++ rest) q) <> Done v q').
Proof. exact lem_C18_shared_position. Qed.
Print Assumptions C18_shared_position.
Example C18_case :
  rust_ready (parsed c18_schema) = true /\ codecs_ok (rust_decls (parsed c18_schema) false true) = true
  /\ (exists items, file_items (parsed c18_schema) true true false items) 
  /\ (exists e i j k, schema_decls (parsed c18_schema) = [DEnum e] /\ en_items e = [i; j; k] /\ item_pos i = item_pos j /\ NoDup (map item_name (en_items e)))
  /\ typed le_runtime (rust_decls (parsed c18_schema) true false) (vcaset "E" "B" [vnum "u8" 3]) (TyOther "E") = true
  /\ (let items := rust_tree (parsed c18_schema) true true false in
      write_value le_runtime c17_service items 2 (vcaset "E" "B" [vnum "u8" 3]) c17_state = Done RustSem.ok (set_wr (zs [1; 0; 0; 0; 3]%Z) c17_state)
      /\ read_value le_runtime c17_service items 2 (ty0 "E") (set_rd (zs [1; 0; 0; 0; 3]%Z) c17_state) = Done (vcase "E" "A") (set_rd (zs [3]%Z) c17_state)).
Proof.
  split; [vm_compute; reflexivity|].
  split; [vm_compute; reflexivity|].
  split; [eexists; eexists; split; vm_compute; reflexivity|].
  split.
  - do 4 eexists.
  split; [vm_compute; reflexivity|].
  split; [reflexivity|].
  split; [reflexivity|].
  repeat constructor; cbn; intuition discriminate.
  - split; [vm_compute; reflexivity|].
  split; vm_compute; reflexivity.
Qed.
Example C18_distinct_case : let ds := rust_decls (parsed c17_schema) true false in
  typed le_runtime ds (vcases "Shape" "Named" [("shape", c17_line); ("width", vnum "i64" (-1))]) (TyOther "Shape") = true
  /\ wire le_runtime ds (vcaset "Shape" "Round" [c17_point 1 2; vnum "u32" 3]) = zs [8; 0; 0; 0; 1; 0; 0; 0; 2; 3; 0; 0; 0]%Z.
Proof.
  split; vm_compute; reflexivity.
Qed.

(** The condition on names is needed: a field that is called like the writer hides it, and the generated writer calls
    [write_u32] on the field. *)
Theorem C18_field_hides_writer_refuted : exists ast items v,
  let ds := rust_decls ast true false in
  rust_ready ast = true /\ file_items ast true true false items /\ forallb positions_fit ds = true /\ codecs_distinct ds = true /\
  typed le_runtime ds v (TyOther "E") = true /\
  forall V q fuel, write_value le_runtime V items (S fuel) v q = Stuck.
Proof. exact lem_C18_field_hides_writer_refuted. Qed.
Print Assumptions C18_field_hides_writer_refuted.

(** Skipping [count] values is reading [count] values: on every buffer it succeeds, panics or gets stuck at the same place,
    and leaves the same state. *)
Theorem C19_skip_is_reading : forall ast models buffers rpc items R V n d fuel count q,
  let ds := rust_decls ast buffers rpc in
  rust_ready ast = true -> file_items ast models buffers rpc items -> codecs_ok ds = true -> decl_of n ds = Some d ->
  skip_values R V items fuel n count q =
  times (Z.to_nat count) (RustSem.bind (read_value R V items (S fuel) (ty0 n)) (fun _ => RustSem.ret RustSem.ok)) q.
Proof. exact lem_C19_skip_is_reading. Qed.
Print Assumptions C19_skip_is_reading.

(** Skipping over written values ends behind them. *)
Theorem C19_skip_written : forall ast models buffers rpc items R V n vs fuel q rest,
  let ds := rust_decls ast buffers rpc in
  rust_ready ast = true -> file_items ast models buffers rpc items -> codecs_ok ds = true -> codecs_distinct ds = true ->
  lawful R -> (exists d, decl_of n ds = Some d) ->
  (forall v, In v vs -> typed R ds v (TyOther n) = true /\ depth v <= S fuel) ->
  skip_values R V items fuel n (Z.of_nat (List.length vs)) (set_rd (flat_map (wire R ds) vs ++ rest) q) = Done RustSem.ok (set_rd rest q).
Proof. exact lem_C19_skip_written. Qed.
Print Assumptions C19_skip_written.
Example C19_case : let ds := rust_decls (parsed c17_schema) true false in
  (exists d, decl_of "Line" ds = Some d)
  /\ skip_values le_runtime c17_service c17_items 2 "Point" 2 (set_rd (zs [1; 2; 3; 4; 5; 6; 7; 8; 9; 10; 11]%Z) c17_state) = Done RustSem.ok (set_rd (zs [11]%Z) c17_state)
  /\ skip_values le_runtime c17_service c17_items 2 "Point" 3 (set_rd (zs [1; 2; 3; 4; 5; 6; 7; 8; 9; 10; 11]%Z) c17_state) = Panics
  /\ skip_values le_runtime c17_service c17_items 2 "Shape" 2 (set_rd (zs [7; 0; 0; 0; 8; 0; 0; 0; 1; 0; 0; 0; 2; 3; 0; 0; 0; 99]%Z) c17_state) = Done RustSem.ok (set_rd (zs [99]%Z) c17_state).
Proof.
  split; [eexists; vm_compute; reflexivity|].
  repeat split; vm_compute; reflexivity.
Qed.

(** A tag that no case carries makes the reader panic, and the skipper too. *)
Theorem C20_rust_unknown_tag_panics : forall ast models buffers rpc items R V e fuel q z rest,
  let ds := rust_decls ast buffers rpc in
  rust_ready ast = true -> file_items ast models buffers rpc items -> codecs_ok ds = true ->
  decl_of (en_id e) ds = Some (DEnum e) ->
  rt_get R "u32" (s_rd q) = Some (z, rest) -> (forall i, In i (en_items e) -> Z.of_N (item_pos i) <> z) ->
  read_value R V items (S fuel) (ty0 (en_id e)) q = Panics /\
  (forall count, (0 < count)%Z -> skip_values R V items fuel (en_id e) count q = Panics).
Proof. exact lem_C20_rust_unknown_tag_panics. Qed.
Print Assumptions C20_rust_unknown_tag_panics.
Example C20_case : let q := set_rd (zs [10; 0; 0; 0; 3]%Z) c17_state in
  (exists rest, rt_get le_runtime "u32" (s_rd q) = Some (10%Z, rest))
  /\ (exists e, decl_of "Shape" (rust_decls (parsed c17_schema) true false) = Some (DEnum e) /\ en_id e = "Shape" /\ map item_pos (en_items e) = [7; 8; 9]%N).
Proof.
  split; [eexists; vm_compute; reflexivity|].
  eexists.
  split; [vm_compute; reflexivity|].
  split; reflexivity.
Qed.

(** Schemas that differ in the order of the cases of their enums: the readers agree on every buffer. *)
Theorem C25_reading : forall a b models buffers rpc items items' R V fuel t q,
  let ds := rust_decls a buffers rpc in
  Forall2 reordered a b -> rust_ready a = true -> rust_ready b = true ->
  file_items a models buffers rpc items -> file_items b models buffers rpc items' ->
  codecs_ok ds = true -> codecs_distinct ds = true ->
  read_value R V items fuel t q = read_value R V items' fuel t q.
Proof. exact lem_C25_reading. Qed.
Print Assumptions C25_reading.

(** The writers agree on every value. *)
Theorem C25_writing : forall a b models buffers rpc items items' R V fuel v t q,
  let ds := rust_decls a buffers rpc in
  Forall2 reordered a b -> rust_ready a = true -> rust_ready b = true ->
  file_items a models buffers rpc items -> file_items b models buffers rpc items' ->
  codecs_ok ds = true -> cases_named ds = true -> typed R ds v t = true -> depth v <= fuel ->
  typed R (rust_decls b buffers rpc) v t = true /\
  write_value R V items fuel v q = write_value R V items' fuel v q /\
  exists q', write_value R V items fuel v q = Done RustSem.ok q'.
Proof. exact lem_C25_writing. Qed.
Print Assumptions C25_writing.
Example C25_case : let ds := rust_decls (parsed c25_schema) true false in
  Forall2 reordered (parsed c25_schema) (parsed c25_schema') /\ parsed c25_schema <> parsed c25_schema'
  /\ rust_ready (parsed c25_schema) = true /\ rust_ready (parsed c25_schema') = true
  /\ (exists items, file_items (parsed c25_schema) true true false items) /\ (exists items, file_items (parsed c25_schema') true true false items)
  /\ codecs_ok ds = true /\ codecs_distinct ds = true /\ cases_named ds = true
  /\ typed le_runtime ds (vcaset "Shape" "Round" [c17_point 1 2; vnum "u32" 3]) (TyOther "Shape") = true.
Proof.
  split; [vm_compute; constructor; [reflexivity|constructor; [|constructor]]; split; [reflexivity|]; apply Permutation_sym; eapply perm_trans; [apply perm_swap|]; apply perm_skip; apply perm_swap|].
  split; [vm_compute; discriminate|].
  split; [vm_compute; reflexivity|].
  split; [vm_compute; reflexivity|].
  split; [eexists; eexists; split; vm_compute; reflexivity|].
  split; [eexists; eexists; split; vm_compute; reflexivity|].
  repeat split; vm_compute; reflexivity.
Qed.
