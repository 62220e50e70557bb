(** Property theorems about the types of constants in Kotlin and Swift, C58: a constant has the type of the language that
    belongs to its type in the schema, by name.  The tables are those of SameTypesSpec, not those of the generators.
    After each theorem, a concrete case that meets its hypotheses, and its axioms. *)
Require Import Coq.Strings.String Coq.Strings.Ascii.
Require Import Coq.NArith.NArith Coq.ZArith.ZArith Coq.Lists.List Coq.Bool.Bool Coq.Arith.PeanoNat.
Require Import Verif.Base Verif.F64 Verif.Ast Verif.Lexer Verif.Parser Verif.CaseConv Verif.Code.
Require Import Verif.SameFacts Verif.SameTypesSpec.
Require Verif.GenMoreFacts Verif.ParseFacts.
Require Verif.KotlinSyntax Verif.KotlinGen Verif.KotlinTree Verif.KotlinSem Verif.KotlinCheck Verif.KotlinFacts.
Require Verif.SwiftSyntax Verif.SwiftGen Verif.SwiftTree Verif.SwiftSem Verif.SwiftCheck Verif.SwiftFacts.
Require Import Verif.SameTypesFacts.
Import GenMoreFacts(declared, const_at, ca_here, ca_in).
Import KotlinFacts(kotlin_consts).
Import KotlinSyntax(kotlin_file, among).
Import KotlinCheck(kotlin_path, kotlin_holds, kotlin_constant).
Import SwiftFacts(swift_consts).
Import SwiftSyntax(swift_file).
Import SwiftCheck(swift_path, swift_constant).
Import ListNotations.
Local Open Scope string_scope.
Local Open Scope list_scope.

(** A constant of the schema is in Kotlin a constant of the type of its name in the table; there are no others. *)
Theorem C58_kotlin_types : forall src ast, compile_front src = Ok ast -> KotlinCheck.consts_fine ast = true ->
  exists text decls, kotlin_consts ast = Ok text /\ kotlin_file text = Some decls /\
    (forall p t l, declared ast p t l -> exists kt k, In (type_name t, kt) kotlin_types /\ KotlinSem.constant [] decls (kotlin_path p) kt k) /\
    (forall q kt k, KotlinSem.constant [] decls q kt k ->
      exists p t l, declared ast p t l /\ q = kotlin_path p /\ In (type_name t, kt) kotlin_types).
Proof. exact lem_C58_kotlin_types. Qed.
Print Assumptions C58_kotlin_types.
Example C58_kotlin_types_case : compile_front c58_src = Ok c58_ast /\ KotlinCheck.consts_fine c58_ast = true /\
  exists l, declared c58_ast ["limits"; "BIG"] (TyInteger "i64" 8 true) l.
Proof.
  split; [vm_compute; reflexivity|].
  split; [vm_compute; reflexivity|].
  eexists.
  eexists.
  split; [left; reflexivity|].
  eapply ca_here.
  right; left; reflexivity.
Qed.

(** A constant of the schema is in Swift a constant of the type of its name in the table; there are no others. *)
Theorem C58_swift_types : forall src ast, compile_front src = Ok ast -> SwiftCheck.consts_fine ast = true ->
  exists text decls, swift_consts ast = Ok text /\ swift_file text = Some decls /\
    (forall p t l, declared ast p t l -> exists wt w, In (type_name t, wt) swift_types /\ SwiftSem.constant [] decls (swift_path p) wt w) /\
    (forall q wt w, SwiftSem.constant [] decls q wt w ->
      exists p t l, declared ast p t l /\ q = swift_path p /\ In (type_name t, wt) swift_types).
Proof. exact lem_C58_swift_types. Qed.
Print Assumptions C58_swift_types.
Example C58_swift_types_case : compile_front c58_src = Ok c58_ast /\ SwiftCheck.consts_fine c58_ast = true /\
  exists l, declared c58_ast ["limits"; "BIG"] (TyInteger "i64" 8 true) l.
Proof.
  split; [vm_compute; reflexivity|].
  split; [vm_compute; reflexivity|].
  eexists.
  eexists.
  split; [left; reflexivity|].
  eapply ca_here.
  right; left; reflexivity.
Qed.
