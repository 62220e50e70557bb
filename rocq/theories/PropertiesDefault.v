(** Property theorems about default values, C52: what [T::default()] of the generated Rust and [createDefault] of the
    generated Dart return.  The Rust declarations read back from the text are checked and run by the rules of
    RustDefault; the Dart by those of DartSem.  After each theorem, a concrete case that meets its hypotheses, and its
    axioms. *)
Require Import Coq.Strings.String Coq.Strings.Ascii.
Require Import Coq.NArith.NArith Coq.ZArith.ZArith Coq.Lists.List Coq.Bool.Bool Coq.Arith.PeanoNat.
Require Import Coq.micromega.Lia.
Require Import Verif.Base Verif.Ast Verif.Lexer Verif.Parser Verif.CaseConv Verif.Code Verif.NumText Verif.RustSyntax Verif.RustGen Verif.RustTree Verif.RustFile Verif.RustWf Verif.RustSem Verif.Wire Verif.RustCodec Verif.CodecFacts.
Require Import Verif.DartSyntax Verif.DartGen Verif.DartTree Verif.DartFile Verif.DartWf Verif.DartSem Verif.DartWire Verif.DartRun Verif.DartShape Verif.DartCodec Verif.DartAgree Verif.DartFacts.
Require Verif.Defaults Verif.RustDefault Verif.RustFine Verif.RustDefaultRuns.
Require Import Verif.DefaultFacts.
Import Defaults(default_value, schema_value).
Import RustDefault(types_compile, run_default, RValue, RMore).
Import RustFine(rust_fine).
Import ListNotations.
Local Open Scope string_scope.
Local Open Scope list_scope.

(** The types of a generated Rust file and their [Default] implementations compile, and [T::default()] of every type of
    the schema comes to an end with the default value of the type. *)
Theorem C52_rust_defaults : forall ast buffers rpc items text,
  rust_ready ast = true -> file_items ast true buffers rpc items -> rust_fine (schema_decls ast) (rust_decls ast true rpc) = true ->
  types_compile items = true /\
  (forall n f, In n (schema_names ast) ->
     run_default items text (2 * f + 1) n = match default_value (schema_decls ast) f (TyOther n) with Some d => RValue (schema_value text d) | None => RMore end) /\
  (forall n, In n (schema_names ast) -> exists f d,
     default_value (schema_decls ast) f (TyOther n) = Some d /\ run_default items text (2 * f + 1) n = RValue (schema_value text d)).
Proof. exact lem_C52_rust_defaults. Qed.
Print Assumptions C52_rust_defaults.
Example C52_rust_defaults_case : compile_front c52_src = Ok c52_ast /\ rust_ready c52_ast = true /\ file_items c52_ast true true true c52_rust /\
  rust_fine (schema_decls c52_ast) (rust_decls c52_ast true true) = true /\
  map decl_name (rust_decls c52_ast true true) = ["Line"; "Mode"; "Side"; "Point"; "Colour"; "Nothing"; "__shift_rpc_args__"] /\
  run_default c52_rust 0 7 "Line" = RValue c52_line /\ run_default c52_rust 0 5 "Line" = RMore /\
  run_default c52_rust 0 5 "Side" = RValue (vcases "Side" "Left" [("at", c52_point); ("id", vnum "u8" 0)]) /\
  run_default c52_rust 0 3 "Colour" = RValue (vcase "Colour" "Red") /\ run_default c52_rust 0 3 "Nothing" = RValue (vrec "Nothing" []).
Proof.
  split; [vm_compute; reflexivity|].
  split; [vm_compute; reflexivity|].
  split; [apply (rust_items_tree c52_ast true true true); vm_compute; reflexivity|].
  split; [vm_compute; reflexivity|].
  split; [vm_compute; reflexivity|].
  split; [vm_compute; reflexivity|].
  split; [vm_compute; reflexivity|].
  split; [vm_compute; reflexivity|].
  split; vm_compute; reflexivity.
Qed.

(** Without the conditions the file need not compile: a [char] gets the default 0; a type contains itself; names are
    used twice, or are those of the language. *)
Theorem C52_compiles_refuted : exists srcs, List.length srcs = 11 /\ forall src, In src srcs ->
  exists ast items, compile_front src = Ok ast /\ rust_ready ast = true /\ file_items ast true true true items /\ types_compile items = false.
Proof. exact lem_C52_compiles_refuted. Qed.
Print Assumptions C52_compiles_refuted.

(** [createDefault] of a generated Dart factory makes an object, of new parts, that represents the default value of the type. *)
Theorem C52_dart_default : forall ast rpc items D U m cd f d fuel s,
  let ds := schema_decls ast in
  dart_ready ast = true -> dart_items ast rpc items -> dart_codecs_ok ast items = true -> zeros D U ds ->
  declared ds m = true -> creatable ds (top_names items) cd (TyOther m) = true -> default_value ds f (TyOther m) = Some d -> 3 * cd + 1 <= fuel ->
  exists w h,
    dart_call D items fuel (m ++ "BuffersFactory") "createDefault" [] s = DDone w (set_heap h s) /\
    changes (d_heap s) h [] /\ rep U ds (fresh (d_heap s) h) h w (schema_value (rd_ext_new D (DTy "String" [])) d) (TyOther m).
Proof. exact lem_C52_dart_default. Qed.
Print Assumptions C52_dart_default.
Example C52_dart_default_case : let ds := schema_decls c52_ast in
  dart_ready c52_ast = true /\ dart_items c52_ast false c52_dart /\ dart_codecs_ok c52_ast c52_dart = true /\ zeros c21_dart le_support ds /\
  declared ds "Line" = true /\ creatable ds (top_names c52_dart) 5 (TyOther "Line") = true /\
  (exists d, default_value ds 3 (TyOther "Line") = Some d /\ schema_value (rd_ext_new c21_dart (DTy "String" [])) d = c52_line) /\
  (exists w s, dart_call c21_dart c52_dart 16 "LineBuffersFactory" "createDefault" [] c21_start = DDone w s).
Proof.
  split; [vm_compute; reflexivity|].
  split; [apply dart_items_tree; vm_compute; reflexivity|].
  split; [vm_compute; reflexivity|].
  split; [split; [vm_compute; reflexivity|]; split; vm_compute; reflexivity|].
  split; [vm_compute; reflexivity|].
  split; [vm_compute; reflexivity|].
  split; [eexists; split; vm_compute; reflexivity|].
  do 2 eexists.
  vm_compute.
  reflexivity.
Qed.

(** The two languages start from the same value: what [T::default()] returns in Rust is what [createDefault] makes in
    Dart, and both are written as the same bytes. *)
Theorem C52_same_default : forall ast rust_rpc dart_rpc rust_file items R V D U cd m fuel dfuel,
  let rds := rust_decls ast true rust_rpc in
  let ds := schema_decls ast in
  let text := rd_ext_new D (DTy "String" []) in
  rust_ready ast = true -> file_items ast true true rust_rpc rust_file -> rust_fine ds rds = true -> codecs_ok rds = true -> codecs_distinct rds = true ->
  dart_ready ast = true -> dart_items ast dart_rpc items -> dart_codecs_ok ast items = true -> zeros D U ds ->
  lawful R -> dlawful D U -> agree R D U -> In m (schema_names ast) -> creatable ds (top_names items) cd (TyOther m) = true ->
  exists f v, run_default rust_file text f m = RValue v /\
    (3 * cd + 1 <= dfuel -> forall s, exists w h,
       dart_call D items dfuel (m ++ "BuffersFactory") "createDefault" [] s = DDone w (set_heap h s) /\
       changes (d_heap s) h [] /\ rep U ds (fresh (d_heap s) h) h w v (TyOther m)) /\
    (typed R rds v (TyOther m) = true -> dtyped U ds (top_names items) cd v (TyOther m) = true -> portable ds v (TyOther m) = true ->
     depth v <= fuel -> 3 * depth v + 3 * cd + 3 <= dfuel -> exists bs,
      (forall q, write_value R V rust_file fuel v q = Done RustSem.ok (set_wr (s_wr q ++ bs) q)) /\
      (forall s, exists w h,
        dart_call D items dfuel (m ++ "BuffersFactory") "createDefault" [] s = DDone w (set_heap h s) /\
        dart_call D items dfuel (m ++ "IntoBuffers") "write" [dwriter; w] (set_heap h s) = DDone dnull (set_dwr (d_wr s ++ bs) (set_heap h s)))).
Proof. exact lem_C52_same_default. Qed.
Print Assumptions C52_same_default.
Example C52_same_default_case : let rds := rust_decls c52_ast true true in let ds := schema_decls c52_ast in
  rust_ready c52_ast = true /\ file_items c52_ast true true true c52_rust /\ rust_fine ds rds = true /\ codecs_ok rds = true /\ codecs_distinct rds = true /\
  dart_ready c52_ast = true /\ dart_items c52_ast false c52_dart /\ dart_codecs_ok c52_ast c52_dart = true /\ zeros c21_dart le_support ds /\
  lawful le_runtime /\ dlawful c21_dart le_support /\ agree le_runtime c21_dart le_support /\ In "Line" (schema_names c52_ast) /\
  creatable ds (top_names c52_dart) 5 (TyOther "Line") = true /\
  typed le_runtime rds c52_line (TyOther "Line") = true /\ dtyped le_support ds (top_names c52_dart) 5 c52_line (TyOther "Line") = true /\ portable ds c52_line (TyOther "Line") = true.
Proof.
  split; [vm_compute; reflexivity|].
  split; [apply (rust_items_tree c52_ast true true true); vm_compute; reflexivity|].
  split; [vm_compute; reflexivity|].
  split; [vm_compute; reflexivity|].
  split; [vm_compute; reflexivity|].
  split; [vm_compute; reflexivity|].
  split; [apply dart_items_tree; vm_compute; reflexivity|].
  split; [vm_compute; reflexivity|].
  split; [split; [vm_compute; reflexivity|]; split; vm_compute; reflexivity|].
  split; [exact le_lawful|].
  split; [apply le_dlawful|].
  split; [apply le_agree|].
  split; [vm_compute; tauto|].
  split; [vm_compute; reflexivity|].
  split; [vm_compute; reflexivity|].
  split; vm_compute; reflexivity.
Qed.
