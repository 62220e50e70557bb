(** Property theorems about constants, C53: the constants of the generated Rust and Dart files, read back from the
    text, compile and have the declared types and values, the same in both languages but for an [f32] that has to be rounded.  The Rust is checked by the rules
    of RustConst, the Dart by those of DartConst; the conditions are those of ConstSpec.  After each theorem, a concrete
    case that meets its hypotheses, and its axioms. *)
Require Import Coq.Strings.String Coq.Strings.Ascii.
Require Import Coq.NArith.NArith Coq.ZArith.ZArith Coq.Lists.List Coq.Bool.Bool Coq.Arith.PeanoNat.
Require Import Coq.micromega.Lia.
Require Import Verif.Base Verif.F64 Verif.Ast Verif.Lexer Verif.Parser Verif.CaseConv Verif.Code Verif.NumText Verif.RustSyntax Verif.RustGen Verif.RustTree Verif.RustFile Verif.RustWf Verif.CodecFacts.
Require Import Verif.DartSyntax Verif.DartGen Verif.DartTree Verif.DartFile Verif.DartWf Verif.DartRun Verif.DartFacts.
Require Import Verif.ConstSpec.
Require Verif.RustDefault Verif.RustConst Verif.DartConst Verif.GenMoreFacts Verif.Single Verif.ConstRuns Verif.DartConstRuns Verif.DefaultFacts Verif.GoldenRust.
Require Import Verif.ConstFacts.
Import RustDefault(type_names).
Import GenMoreFacts(declared).
Import DefaultFacts(rust_items_tree).
Import ListNotations.
Local Open Scope string_scope.
Local Open Scope list_scope.

(** The constants of a generated Rust file compile.  Every constant of the schema is there, under the same path, with its
    type and value; there are no others; and a path leads to one value. *)
Theorem C53_rust_constants : forall ast models buffers rpc items,
  rust_ready ast = true -> file_items ast models buffers rpc items -> rust_consts_fine ast (type_names items) = true ->
  RustConst.consts_compile items = true /\
  (forall p t l, declared ast p t l -> exists ty v, rust_const_type t = Some ty /\ rust_val t l v /\ RustConst.constant items p ty v) /\
  (forall p ty v, RustConst.constant items p ty v -> exists t l, declared ast p t l /\ rust_const_type t = Some ty /\ rust_val t l v) /\
  (forall p ty v ty' v', RustConst.constant items p ty v -> RustConst.constant items p ty' v' -> ty = ty' /\ v = v').
Proof. exact lem_C53_rust_constants. Qed.
Print Assumptions C53_rust_constants.
Example C53_rust_constants_case : compile_front c53_src = Ok c53_ast /\ rust_ready c53_ast = true /\ file_items c53_ast true true true c53_rust /\ rust_consts_fine c53_ast (type_names c53_rust) = true /\
  RustConst.constant c53_rust ["limits"; "BIG"] ["i64"] (CInt 9223372036854775807) /\
  RustConst.constant c53_rust ["limits"; "inner_block"; "GROUP"] ["tech_paws_runtime"; "GroupAddress"] (CInt 7) /\
  RustConst.constant c53_rust ["limits"; "inner_block"; "last"; "ON"] ["bool"] (CTruth true).
Proof.
  split; [vm_compute; reflexivity|].
  split; [vm_compute; reflexivity|].
  split; [apply (rust_items_tree c53_ast true true true); vm_compute; reflexivity|].
  split; [vm_compute; reflexivity|].
  split; [|split].
  - eapply RustConst.co_in; [vm_compute; tauto|].
  eapply RustConst.co_here; [vm_compute; tauto|vm_compute; reflexivity].
  - eapply RustConst.co_in; [vm_compute; tauto|].
  eapply RustConst.co_in; [vm_compute; tauto|].
  eapply RustConst.co_here; [vm_compute; tauto|vm_compute; reflexivity].
  - eapply RustConst.co_in; [vm_compute; tauto|].
  eapply RustConst.co_in; [vm_compute; tauto|].
  eapply RustConst.co_in; [vm_compute; tauto|].
  eapply RustConst.co_here; [vm_compute; tauto|vm_compute; reflexivity].
Qed.

(** Without the conditions they need not compile, and those of the repository's own test schema do not: a string is not a [String], a whole number is not an [f64]; numbers
    are out of range; names are used twice, or are those of the language. *)
Theorem C53_rust_compiles_refuted : exists srcs, List.length srcs = 12 /\ In GoldenRust.f_consts_tpb srcs /\ forall src, In src srcs ->
  exists ast items, compile_front src = Ok ast /\ rust_ready ast = true /\ file_items ast true true true items /\ RustConst.consts_compile items = false.
Proof. exact lem_C53_rust_compiles_refuted. Qed.
Print Assumptions C53_rust_compiles_refuted.

(** The same of the constants of a generated Dart file: every name of a path is in camel case. *)
Theorem C53_dart_constants : forall ast rpc items,
  dart_ready ast = true -> dart_items ast rpc items -> dart_consts_fine ast (top_names items) = true ->
  DartConst.consts_compile items = true /\
  (forall p t l, declared ast p t l -> exists ty v, dart_const_type t = Some ty /\ const_val t l = Some v /\ DartConst.constant items (map camel p) ty v) /\
  (forall q ty v, DartConst.constant items q ty v -> exists p t l, q = map camel p /\ declared ast p t l /\ dart_const_type t = Some ty /\ const_val t l = Some v) /\
  (forall q ty v ty' v', DartConst.constant items q ty v -> DartConst.constant items q ty' v' -> ty = ty' /\ v = v').
Proof. exact lem_C53_dart_constants. Qed.
Print Assumptions C53_dart_constants.
Example C53_dart_constants_case : compile_front c53_dart_src = Ok c53_dart_ast /\ dart_ready c53_dart_ast = true /\ dart_items c53_dart_ast true c53_dart_items /\
  dart_consts_fine c53_dart_ast (top_names c53_dart_items) = true /\
  DartConst.constant c53_dart_items ["texts"; "hello"] "String" (CText "Hello World!") /\
  DartConst.constant c53_dart_items ["texts"; "numbers"; "whole"] "double" (CReal (f64_of_dec 16 0)) /\
  DartConst.constant c53_dart_items ["texts"; "numbers"; "tenth"] "double" (CReal (f64_of_dec 1 (-1))).
Proof.
  split; [vm_compute; reflexivity|].
  split; [vm_compute; reflexivity|].
  split; [apply dart_items_tree; vm_compute; reflexivity|].
  split; [vm_compute; reflexivity|].
  split; [|split].
  - eapply DartConst.co_at; [vm_compute; tauto|vm_compute; reflexivity|vm_compute; reflexivity|].
  eapply DartConst.he_here; [vm_compute; tauto|vm_compute; reflexivity].
  - eapply DartConst.co_at; [vm_compute; tauto|vm_compute; reflexivity|vm_compute; reflexivity|].
  eapply DartConst.he_in; [vm_compute; tauto|vm_compute; reflexivity|vm_compute; reflexivity|].
  eapply DartConst.he_here; [vm_compute; tauto|vm_compute; reflexivity].
  - eapply DartConst.co_at; [vm_compute; tauto|vm_compute; reflexivity|vm_compute; reflexivity|].
  eapply DartConst.he_in; [vm_compute; tauto|vm_compute; reflexivity|vm_compute; reflexivity|].
  eapply DartConst.he_here; [vm_compute; tauto|vm_compute; reflexivity].
Qed.

(** Without the conditions they need not compile: of a large [f64] not all digits
    are written; names become the same in camel case, or are those of the language or of every object; a string
    contains a dollar sign; two blocks have a class of the same name. *)
Theorem C53_dart_compiles_refuted : exists srcs, List.length srcs = 9 /\ forall src, In src srcs ->
  exists ast items, compile_front src = Ok ast /\ dart_ready ast = true /\ dart_items ast true items /\ DartConst.consts_compile items = false.
Proof. exact lem_C53_dart_compiles_refuted. Qed.
Print Assumptions C53_dart_compiles_refuted.

(** Both languages have the same constants, with the same values; an [f32] has the same value exactly if it is a number of
    single precision, as a [double] of Dart keeps more digits than Rust. *)
Theorem C53_same_constants : forall ast models buffers rpc rust_items rpc' items,
  rust_ready ast = true -> file_items ast models buffers rpc rust_items -> rust_consts_fine ast (type_names rust_items) = true ->
  dart_ready ast = true -> dart_items ast rpc' items -> dart_consts_fine ast (top_names items) = true ->
  (forall p t l, declared ast p t l -> exists rt dt v w, rust_const_type t = Some rt /\ dart_const_type t = Some dt /\
     RustConst.constant rust_items p rt v /\ DartConst.constant items (map camel p) dt w /\ (v = w <-> exact_literal t l)) /\
  (forall p rt v, RustConst.constant rust_items p rt v -> exists dt w, DartConst.constant items (map camel p) dt w /\ (rt <> ["f32"] -> v = w)) /\
  (forall q dt w, DartConst.constant items q dt w -> exists p rt v, q = map camel p /\ RustConst.constant rust_items p rt v /\ (dt <> "double" -> v = w)).
Proof. exact lem_C53_same_constants. Qed.
Print Assumptions C53_same_constants.
Example C53_same_constants_case : rust_ready c53_ast = true /\ file_items c53_ast true true true c53_rust /\ rust_consts_fine c53_ast (type_names c53_rust) = true /\
  dart_ready c53_ast = true /\ dart_items c53_ast true c53_dart /\ dart_consts_fine c53_ast (top_names c53_dart) = true /\
  DartConst.constant c53_dart ["limits"; "innerBlock"; "last"; "on"] "bool" (CTruth true).
Proof.
  split; [vm_compute; reflexivity|].
  split; [apply (rust_items_tree c53_ast true true true); vm_compute; reflexivity|].
  split; [vm_compute; reflexivity|].
  split; [vm_compute; reflexivity|].
  split; [apply dart_items_tree; vm_compute; reflexivity|].
  split; [vm_compute; reflexivity|].
  eapply DartConst.co_at; [vm_compute; tauto|vm_compute; reflexivity|vm_compute; reflexivity|].
  eapply DartConst.he_in; [vm_compute; tauto|vm_compute; reflexivity|vm_compute; reflexivity|].
  eapply DartConst.he_in; [vm_compute; tauto|vm_compute; reflexivity|vm_compute; reflexivity|].
  eapply DartConst.he_here; [vm_compute; tauto|vm_compute; reflexivity].
Qed.

(** The constant [TENTH: f32 = 0.1] has different values in the two languages. *)
Theorem C53_same_single_refuted : exists ast rust_items items v w,
  compile_front c53_tenth_src = Ok ast /\
  rust_ready ast = true /\ file_items ast true true true rust_items /\ rust_consts_fine ast (type_names rust_items) = true /\
  dart_ready ast = true /\ dart_items ast true items /\ dart_consts_fine ast (top_names items) = true /\
  RustConst.constant rust_items ["numbers"; "TENTH"] ["f32"] v /\ DartConst.constant items ["numbers"; "tenth"] "double" w /\ v <> w.
Proof. exact lem_C53_same_single_refuted. Qed.
Print Assumptions C53_same_single_refuted.
(** A quarter is a number of single precision. *)
Example C53_same_single_case : exact_literal (TyNumber "f32" 4) (NumberLit (f64_of_dec 25 (-2))) /\
  RustConst.constant c53_tenth_rust ["numbers"; "QUARTER"] ["f32"] (CReal (f64_of_dec 25 (-2))) /\
  RustConst.constant c53_tenth_rust ["numbers"; "EXACT"] ["f64"] (CReal (f64_of_dec 1 (-1))).
Proof.
  split; [|split].
  - intros _.
  exists (2 ^ 23)%N, (-25)%Z.
  split; [|reflexivity].
  split; [reflexivity|split; [lia|now left]].
  - eapply RustConst.co_in; [vm_compute; tauto|].
  eapply RustConst.co_here; [vm_compute; tauto|vm_compute; reflexivity].
  - eapply RustConst.co_in; [vm_compute; tauto|].
  eapply RustConst.co_here; [vm_compute; tauto|vm_compute; reflexivity].
Qed.
