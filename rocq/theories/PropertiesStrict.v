(** Property theorems about buffers that nobody has written, C64: generated Rust readers accept exactly the wire format.
    After each theorem, a concrete case that meets its hypotheses, and its axioms. *)
Require Import Coq.Strings.String Coq.Strings.Ascii.
Require Import Coq.NArith.NArith Coq.ZArith.ZArith Coq.Lists.List Coq.Bool.Bool Coq.Arith.PeanoNat.
Require Import Coq.micromega.Lia.
Require Import Verif.Base Verif.Ast Verif.Lexer Verif.Parser Verif.Code Verif.RustSyntax Verif.RustGen Verif.RustTree Verif.RustFile Verif.RustWf Verif.RustSem Verif.Wire Verif.RustCodec Verif.CodecFacts.
Require Import Verif.StrictSpec.
Require Import Verif.StrictFacts.
Import ListNotations.
Local Open Scope string_scope.
Local Open Scope list_scope.

(* ---- theorems ---- *)
(** Whatever the bytes are: a value that a generated reader gives is a value of the type, its bytes are exactly those that were consumed, and nothing
    else has changed. *)
Theorem C64_reads_wire : forall ast models buffers rpc items R V t fuel q v q',
  let ds := rust_decls ast buffers rpc in
  rust_ready ast = true -> file_items ast models buffers rpc items -> codecs_ok ds = true -> cases_named ds = true -> plain_types ds = true ->
  strict R -> plain_type t = true ->
  read_value R V items fuel (rty_of t) q = Done v q' ->
  typed R ds v t = true /\ exists rest, s_rd q = wire R ds v ++ rest /\ q' = set_rd rest q.
Proof. exact lem_C64_reads_wire. Qed.
Print Assumptions C64_reads_wire.
Example C64_reads_wire_case : let ds := rust_decls (parsed c17_schema) true false in
  rust_ready (parsed c17_schema) = true /\ file_items (parsed c17_schema) true true false c17_items /\ codecs_ok ds = true /\ cases_named ds = true /\
  plain_types ds = true /\ strict le_strict /\ plain_type (TyOther "Shape") = true /\
  read_value le_strict c17_service c17_items 5 (rty_of (TyOther "Shape")) (set_rd (zs [8; 0; 0; 0; 254; 255; 255; 255; 3; 4; 0; 0; 0; 99]%Z) c17_state) =
    Done (vcaset "Shape" "Round" [c17_point (-2) 3; vnum "u32" 4]) (set_rd (zs [99]%Z) c17_state).
Proof.
  split; [vm_compute; reflexivity|].
  split; [eexists; split; [reflexivity|vm_compute; reflexivity]|].
  split; [vm_compute; reflexivity|].
  split; [vm_compute; reflexivity|].
  split; [vm_compute; reflexivity|].
  split; [exact le_strict_strict|].
  split; vm_compute; reflexivity.
Qed.

(** Generated readers accept exactly the wire format. *)
Theorem C64_exactly : forall ast models buffers rpc items R V t q v rest,
  let ds := rust_decls ast buffers rpc in
  rust_ready ast = true -> file_items ast models buffers rpc items -> codecs_ok ds = true -> cases_named ds = true -> plain_types ds = true ->
  codecs_distinct ds = true -> lawful R -> strict R -> plain_type t = true ->
  (exists fuel, read_value R V items fuel (rty_of t) q = Done v (set_rd rest q)) <-> typed R ds v t = true /\ s_rd q = wire R ds v ++ rest.
Proof. exact lem_C64_exactly. Qed.
Print Assumptions C64_exactly.
Example C64_exactly_case : let ds := rust_decls (parsed c17_schema) true false in
  codecs_distinct ds = true /\ lawful le_strict /\ typed le_strict ds c17_line (TyOther "Line") = true /\
  wire le_strict ds (c17_point (-2) 3) = zs [254; 255; 255; 255; 3]%Z /\ List.length (wire le_strict ds c17_line) = 36.
Proof.
  split; [vm_compute; reflexivity|].
  split; [exact le_strict_lawful|].
  split; [vm_compute; reflexivity|].
  split; vm_compute; reflexivity.
Qed.

(** The bytes of a value do not start with those of another value of its type, so values that follow each other are told apart. *)
Theorem C64_prefix_free : forall ast models buffers rpc items R t v v' a b,
  let ds := rust_decls ast buffers rpc in
  rust_ready ast = true -> file_items ast models buffers rpc items -> codecs_ok ds = true -> codecs_distinct ds = true -> lawful R ->
  typed R ds v t = true -> typed R ds v' t = true -> wire R ds v ++ a = wire R ds v' ++ b -> v = v' /\ a = b.
Proof. exact lem_C64_prefix_free. Qed.
Print Assumptions C64_prefix_free.
Example C64_prefix_free_case : let ds := rust_decls (parsed c17_schema) true false in
  typed le_strict ds (c17_point 1 1) (TyOther "Point") = true /\ typed le_strict ds (c17_point 1 2) (TyOther "Point") = true /\
  wire le_strict ds (c17_point 1 1) <> wire le_strict ds (c17_point 1 2).
Proof.
  split; [vm_compute; reflexivity|].
  split; [vm_compute; reflexivity|].
  vm_compute.
  discriminate.
Qed.

(** A buffer that breaks off inside of a value gives no value. *)
Theorem C64_truncated : forall ast models buffers rpc items R V t fuel q v p x w q',
  let ds := rust_decls ast buffers rpc in
  rust_ready ast = true -> file_items ast models buffers rpc items -> codecs_ok ds = true -> cases_named ds = true -> plain_types ds = true ->
  codecs_distinct ds = true -> lawful R -> strict R -> plain_type t = true ->
  typed R ds v t = true -> wire R ds v = p ++ x -> x <> [] -> s_rd q = p ->
  read_value R V items fuel (rty_of t) q <> Done w q'.
Proof. exact lem_C64_truncated. Qed.
Print Assumptions C64_truncated.
Example C64_truncated_case : let ds := rust_decls (parsed c17_schema) true false in
  typed le_strict ds (c17_point (-2) 3) (TyOther "Point") = true /\ wire le_strict ds (c17_point (-2) 3) = zs [254; 255; 255; 255]%Z ++ zs [3]%Z /\
  read_value le_strict c17_service c17_items 5 (rty_of (TyOther "Point")) (set_rd (zs [254; 255; 255; 255]%Z) c17_state) = Panics.
Proof.
  split; [vm_compute; reflexivity|].
  split; vm_compute; reflexivity.
Qed.

(** What has been read and is written again gives the same bytes: passing a value on changes nothing. *)
Theorem C64_forwarded : forall ast models buffers rpc items R V t fuel q v q',
  let ds := rust_decls ast buffers rpc in
  rust_ready ast = true -> file_items ast models buffers rpc items -> codecs_ok ds = true -> cases_named ds = true -> plain_types ds = true ->
  strict R -> plain_type t = true ->
  read_value R V items fuel (rty_of t) q = Done v q' ->
  exists bs, s_rd q = bs ++ s_rd q' /\
    forall more p, depth v <= more -> write_value R V items more v p = Done RustSem.ok (set_wr (s_wr p ++ bs) p).
Proof. exact lem_C64_forwarded. Qed.
Print Assumptions C64_forwarded.
Example C64_forwarded_case :
  write_value le_strict c17_service c17_items 5 (vcaset "Shape" "Round" [c17_point (-2) 3; vnum "u32" 4]) c17_state =
    Done RustSem.ok (set_wr (zs [8; 0; 0; 0; 254; 255; 255; 255; 3; 4; 0; 0; 0]%Z) c17_state).
Proof.
  vm_compute.
  reflexivity.
Qed.

(** The generated code checks tags alone: with a package that reads more than it writes, values come out that are none of the type. *)
Theorem C64_reads_wire_refuted : exists ast items R V t q v q',
  let ds := rust_decls ast true false in
  rust_ready ast = true /\ file_items ast true true false items /\ codecs_ok ds = true /\ cases_named ds = true /\ plain_types ds = true /\
  lawful R /\ plain_type t = true /\ read_value R V items 2 (rty_of t) q = Done v q' /\ typed R ds v t = false.
Proof. exact lem_C64_reads_wire_refuted. Qed.
Print Assumptions C64_reads_wire_refuted.
