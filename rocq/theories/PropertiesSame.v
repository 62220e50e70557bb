(** Property theorems about constants in all generated languages, C58: a constant has the same value in Rust, Dart, Kotlin
    and Swift.  The texts are read back and the constants found by the rules of RustConst, DartConst, KotlinSem and SwiftSem.
    After each theorem, a concrete case that meets its hypotheses, and its axioms. *)
Require Import Coq.Strings.String Coq.Strings.Ascii.
Require Import Coq.NArith.NArith Coq.ZArith.ZArith Coq.Lists.List Coq.Bool.Bool Coq.Arith.PeanoNat.
Require Import Coq.micromega.Lia.
Require Import Verif.Base Verif.F64 Verif.Ast Verif.Lexer Verif.Parser Verif.CaseConv Verif.Code Verif.RustSyntax Verif.RustGen Verif.RustTree Verif.RustFile Verif.RustWf Verif.CodecFacts.
Require Import Verif.DartSyntax Verif.DartGen Verif.DartTree Verif.DartFile Verif.DartWf Verif.DartRun Verif.DartFacts.
Require Import Verif.ConstSpec Verif.SameSpec.
Require Verif.RustDefault Verif.RustConst Verif.DartConst Verif.GenMoreFacts Verif.Single Verif.ConstFacts Verif.DefaultFacts Verif.ParseFacts.
Require Verif.KotlinSyntax Verif.KotlinGen Verif.KotlinTree Verif.KotlinFile Verif.KotlinSem Verif.KotlinCheck Verif.KotlinConsts Verif.KotlinRuns Verif.KotlinFacts.
Require Verif.SwiftSyntax Verif.SwiftGen Verif.SwiftTree Verif.SwiftSem Verif.SwiftCheck Verif.SwiftConsts Verif.SwiftRuns Verif.SwiftFacts.
Require Import Verif.SameFacts.
Import RustDefault(type_names).
Import GenMoreFacts(declared, const_at, ca_here, ca_in).
Import DefaultFacts(rust_items_tree).
Import KotlinFacts(kotlin_consts).
Import KotlinSyntax(kotlin_file).
Import KotlinCheck(kotlin_path, kotlin_holds, kotlin_constant).
Import SwiftFacts(swift_consts).
Import SwiftSyntax(swift_file).
Import SwiftCheck(swift_path, swift_constant).
Import ListNotations.
Local Open Scope string_scope.
Local Open Scope list_scope.

(** A constant has the same value in Rust and in Kotlin, also an [f32]; both have the same constants, and a path leads to one. *)
Theorem C58_rust_kotlin : forall src ast models buffers rpc items, compile_front src = Ok ast ->
  rust_ready ast = true -> file_items ast models buffers rpc items -> rust_consts_fine ast (type_names items) = true -> KotlinCheck.consts_fine ast = true ->
  exists text decls, kotlin_consts ast = Ok text /\ kotlin_file text = Some decls /\
    (forall p rt v, RustConst.constant items p rt v -> exists kt k, KotlinSem.constant [] decls (kotlin_path p) kt k /\ kotlin_means k = Some v) /\
    (forall q kt k, KotlinSem.constant [] decls q kt k -> exists p rt v, q = kotlin_path p /\ RustConst.constant items p rt v /\ kotlin_means k = Some v) /\
    (forall q kt k kt' k', KotlinSem.constant [] decls q kt k -> KotlinSem.constant [] decls q kt' k' -> kt = kt' /\ k = k').
Proof. exact lem_C58_rust_kotlin. Qed.
Print Assumptions C58_rust_kotlin.
Example C58_rust_kotlin_case : compile_front ConstFacts.c53_src = Ok ConstFacts.c53_ast /\ KotlinCheck.consts_fine ConstFacts.c53_ast = true /\
  RustConst.constant ConstFacts.c53_rust ["limits"; "inner_block"; "SINGLE"] ["f32"] (CReal (Single.f32_of_dec 1 (-1))) /\
  KotlinSem.constant [] (KotlinTree.consts_tree ConstFacts.c53_ast) ["Limits"; "InnerBlock"; "SINGLE"] "Float" (KotlinSem.VReal "Float" (Single.f32_of_dec 1 (-1))) /\
  kotlin_path ["limits"; "inner_block"; "SINGLE"] = ["Limits"; "InnerBlock"; "SINGLE"] /\
  (exists text, kotlin_consts ConstFacts.c53_ast = Ok text /\ kotlin_file text = Some (KotlinTree.consts_tree ConstFacts.c53_ast)).
Proof.
  split; [vm_compute; reflexivity|].
  split; [vm_compute; reflexivity|].
  split; [eapply RustConst.co_in; [vm_compute; tauto|]; eapply RustConst.co_in; [vm_compute; tauto|]; eapply RustConst.co_here; [vm_compute; tauto|vm_compute; reflexivity]|].
  split; [eapply KotlinSem.co_in; [vm_compute; tauto|]; eapply KotlinSem.co_in; [vm_compute; tauto|]; eapply KotlinSem.co_here; [vm_compute; tauto|vm_compute; reflexivity]|].
  split; [vm_compute; reflexivity|].
  apply KotlinFacts.lem_C50_consts_read.
  vm_compute.
  reflexivity.
Qed.

(** A constant has the same value in Dart and in Swift. *)
Theorem C58_dart_swift : forall ast rpc items,
  dart_ready ast = true -> dart_items ast rpc items -> dart_consts_fine ast (top_names items) = true -> SwiftCheck.consts_fine ast = true ->
  exists text decls, swift_consts ast = Ok text /\ swift_file text = Some decls /\
    (forall p t l, declared ast p t l -> exists dt v st s, DartConst.constant items (map camel p) dt v /\ SwiftSem.constant [] decls (swift_path p) st s /\ swift_means s = Some v) /\
    (forall q st s, SwiftSem.constant [] decls q st s -> exists p dt v, q = swift_path p /\ DartConst.constant items (map camel p) dt v /\ swift_means s = Some v) /\
    (forall q st s st' s', SwiftSem.constant [] decls q st s -> SwiftSem.constant [] decls q st' s' -> st = st' /\ s = s').
Proof. exact lem_C58_dart_swift. Qed.
Print Assumptions C58_dart_swift.
Example C58_dart_swift_case : compile_front c58_src = Ok c58_ast /\ dart_ready c58_ast = true /\ dart_items c58_ast true c58_dart /\ dart_consts_fine c58_ast (top_names c58_dart) = true /\
  SwiftCheck.consts_fine c58_ast = true /\
  DartConst.constant c58_dart ["limits"; "innerBlock"; "ratio"] "double" (CReal (f64_of_dec 25 (-1))) /\
  SwiftSem.constant [] (SwiftTree.consts_tree c58_ast) (swift_path ["limits"; "inner_block"; "RATIO"]) "Double" (SwiftSem.WReal "Double" (f64_of_dec 25 (-1))).
Proof.
  split; [vm_compute; reflexivity|].
  split; [vm_compute; reflexivity|].
  split; [apply dart_items_tree; vm_compute; reflexivity|].
  split; [vm_compute; reflexivity|].
  split; [vm_compute; reflexivity|].
  split.
  - eapply DartConst.co_at; [vm_compute; tauto|vm_compute; reflexivity|vm_compute; reflexivity|].
  eapply DartConst.he_in; [vm_compute; tauto|vm_compute; reflexivity|vm_compute; reflexivity|].
  eapply DartConst.he_here; [vm_compute; tauto|vm_compute; reflexivity].
  - eapply SwiftSem.co_in; [vm_compute; tauto|]; eapply SwiftSem.co_in; [vm_compute; tauto|]; eapply SwiftSem.co_here; [vm_compute; tauto|vm_compute; reflexivity].
Qed.

(** A constant has the same value in Dart and in Kotlin exactly if it is not an [f32] that has to be rounded. *)
Theorem C58_dart_kotlin : forall src ast rpc items, compile_front src = Ok ast ->
  dart_ready ast = true -> dart_items ast rpc items -> dart_consts_fine ast (top_names items) = true -> KotlinCheck.consts_fine ast = true ->
  exists text decls, kotlin_consts ast = Ok text /\ kotlin_file text = Some decls /\
    (forall p t l, declared ast p t l -> exists dt v kt k, DartConst.constant items (map camel p) dt v /\ KotlinSem.constant [] decls (kotlin_path p) kt k /\ (kotlin_means k = Some v <-> exact_literal t l)).
Proof. exact lem_C58_dart_kotlin. Qed.
Print Assumptions C58_dart_kotlin.
Example C58_dart_kotlin_case : KotlinCheck.consts_fine c58_ast = true /\ compile_front c58_src = Ok c58_ast /\ dart_consts_fine c58_ast (top_names c58_dart) = true /\
  exact_literal (TyNumber "f64" 8) (NumberLit (f64_of_dec 25 (-1))) /\
  KotlinSem.constant [] (KotlinTree.consts_tree c58_ast) (kotlin_path ["limits"; "inner_block"; "RATIO"]) "Double" (KotlinSem.VReal "Double" (f64_of_dec 25 (-1))).
Proof.
  split; [vm_compute; reflexivity|].
  split; [vm_compute; reflexivity|].
  split; [vm_compute; reflexivity|].
  split; [intros X; discriminate X|].
  eapply KotlinSem.co_in; [vm_compute; tauto|]; eapply KotlinSem.co_in; [vm_compute; tauto|]; eapply KotlinSem.co_here; [vm_compute; tauto|vm_compute; reflexivity].
Qed.

(** The constant [TENTH: f32 = 0.1] differs in Dart and in Kotlin. *)
Theorem C58_dart_kotlin_refuted : exists src ast items text decls v k,
  compile_front src = Ok ast /\ dart_ready ast = true /\ dart_items ast true items /\ dart_consts_fine ast (top_names items) = true /\ KotlinCheck.consts_fine ast = true /\
  kotlin_consts ast = Ok text /\ kotlin_file text = Some decls /\
  DartConst.constant items ["numbers"; "tenth"] "double" (CReal v) /\ KotlinSem.constant [] decls ["Numbers"; "TENTH"] "Float" (KotlinSem.VReal "Float" k) /\ v <> k.
Proof. exact lem_C58_dart_kotlin_refuted. Qed.
Print Assumptions C58_dart_kotlin_refuted.

(** Where a schema suits all four languages, each of its constants has one value, which is the value of the literal. *)
Theorem C58_same_constants : forall src ast models buffers rpc rust_items rpc' items, compile_front src = Ok ast ->
  rust_ready ast = true -> file_items ast models buffers rpc rust_items -> rust_consts_fine ast (type_names rust_items) = true ->
  dart_ready ast = true -> dart_items ast rpc' items -> dart_consts_fine ast (top_names items) = true ->
  KotlinCheck.consts_fine ast = true -> SwiftCheck.consts_fine ast = true ->
  exists ktext kotlin stext swift, kotlin_consts ast = Ok ktext /\ kotlin_file ktext = Some kotlin /\ swift_consts ast = Ok stext /\ swift_file stext = Some swift /\
    forall p t l, declared ast p t l -> exists v rt dt kt k st s, const_val t l = Some v /\
      RustConst.constant rust_items p rt v /\ DartConst.constant items (map camel p) dt v /\
      KotlinSem.constant [] kotlin (kotlin_path p) kt k /\ kotlin_means k = Some v /\ SwiftSem.constant [] swift (swift_path p) st s /\ swift_means s = Some v.
Proof. exact lem_C58_same_constants. Qed.
Print Assumptions C58_same_constants.
Example C58_same_constants_case : compile_front c58_src = Ok c58_ast /\
  rust_ready c58_ast = true /\ file_items c58_ast true true true c58_rust /\ rust_consts_fine c58_ast (type_names c58_rust) = true /\
  dart_ready c58_ast = true /\ dart_items c58_ast true c58_dart /\ dart_consts_fine c58_ast (top_names c58_dart) = true /\
  KotlinCheck.consts_fine c58_ast = true /\ SwiftCheck.consts_fine c58_ast = true /\
  declared c58_ast ["other"; "COMMANDS"] (TyOther "CommandsBufferAddress") (IntLit 9223372036854775807).
Proof.
  split; [vm_compute; reflexivity|].
  split; [vm_compute; reflexivity|].
  split; [apply (rust_items_tree c58_ast true true true); vm_compute; reflexivity|].
  split; [vm_compute; reflexivity|].
  split; [vm_compute; reflexivity|].
  split; [apply dart_items_tree; vm_compute; reflexivity|].
  split; [vm_compute; reflexivity|].
  split; [vm_compute; reflexivity|].
  split; [vm_compute; reflexivity|].
  eexists.
  split; [right; right; left; reflexivity|].
  eapply ca_here.
  right; left; reflexivity.
Qed.
