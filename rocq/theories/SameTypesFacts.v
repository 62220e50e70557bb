(** Lemmas behind the theorems of PropertiesSameTypes.v. *)

(** Property theorems about the types of constants in Kotlin and Swift, C58: a constant has the type of the language that
    belongs to its type in the schema, by name.  The tables are those of SameTypesSpec, not those of the generators.
    After each theorem, a concrete case that meets its hypotheses, and its axioms. *)
Require Import Coq.Strings.String Coq.Strings.Ascii.
Require Import Coq.NArith.NArith Coq.ZArith.ZArith Coq.Lists.List Coq.Bool.Bool Coq.Arith.PeanoNat.
Require Import Verif.Base Verif.F64 Verif.Ast Verif.Lexer Verif.Parser Verif.CaseConv Verif.Code.
Require Import Verif.SameFacts Verif.SameTypesSpec.
Require Verif.GenMoreFacts Verif.ParseFacts.
Require Verif.KotlinSyntax Verif.KotlinGen Verif.KotlinTree Verif.KotlinSem Verif.KotlinCheck Verif.KotlinFacts.
Require Verif.SwiftSyntax Verif.SwiftGen Verif.SwiftTree Verif.SwiftSem Verif.SwiftCheck Verif.SwiftFacts.
Import GenMoreFacts(declared, const_at, ca_here, ca_in).
Import KotlinFacts(kotlin_consts).
Import KotlinSyntax(kotlin_file, among).
Import KotlinCheck(kotlin_path, kotlin_holds, kotlin_constant).
Import SwiftFacts(swift_consts).
Import SwiftSyntax(swift_file).
Import SwiftCheck(swift_path, swift_constant).
Import ListNotations.
Local Open Scope string_scope.
Local Open Scope list_scope.

Lemma address_named n : among ["GroupAddress"; "CommandsBufferAddress"] n = true -> n = "GroupAddress" \/ n = "CommandsBufferAddress".
Proof.
  unfold among.
  cbn [existsb].
  rewrite !orb_true_iff, !String.eqb_eq.
  intuition discriminate.
Qed.

Lemma kotlin_typed t l kt k : ParseFacts.sized t -> kotlin_constant t l = Some (kt, k) -> In (type_name t, kt) kotlin_types.
Proof.
  intros SZ H.
  destruct l as [s|z|x|b], t as [id size signed|id size|id|id|id ts|id]; cbn [kotlin_constant swift_constant] in H; try discriminate H; unfold type_name.
  - destruct (String.eqb_spec id "String") as [->|]; [|discriminate H].
  injection H as <- _.
  repeat first [left; reflexivity | right].
  - destruct SZ as [(-> & -> & ->)|[(-> & -> & ->)|[(-> & -> & ->)|[(-> & -> & ->)|[(-> & -> & ->)|(-> & -> & ->)]]]]];
    injection H as <- _; repeat first [left; reflexivity | right].
  - destruct (KotlinTree.address id) eqn:A; [|discriminate H].
  injection H as <- _.
  destruct (address_named id A) as [->| ->]; repeat first [left; reflexivity | right].
  - destruct SZ as [(-> & ->)|(-> & ->)]; injection H as <- _; repeat first [left; reflexivity | right].
  - cbn [ParseFacts.sized] in SZ.
  subst id.
  injection H as <- _.
  repeat first [left; reflexivity | right].
Qed.

Lemma kotlin_held t l kt k : ParseFacts.sized t -> kotlin_holds t l kt k -> In (type_name t, kt) kotlin_types.
Proof.
  intros SZ H.
  unfold kotlin_holds in H.
  destruct l as [s|z|x|b], t as [id n signed|id n|id|id|id ts|id]; try exact (kotlin_typed _ _ _ _ SZ H).
  destruct (Nat.eqb n 4) eqn:E; [|exact (kotlin_typed _ _ _ _ SZ H)].
  destruct H as (-> & _).
  apply Nat.eqb_eq in E.
  subst n.
  cbn [ParseFacts.sized type_name] in SZ |- *.
  destruct SZ as [(-> & _)|(_ & X)]; [|discriminate].
  repeat first [left; reflexivity | right].
Qed.

Lemma swift_typed t l wt w : ParseFacts.sized t -> swift_constant t l = Some (wt, w) -> In (type_name t, wt) swift_types.
Proof.
  intros SZ H.
  destruct l as [s|z|x|b], t as [id size signed|id size|id|id|id ts|id]; cbn [kotlin_constant swift_constant] in H; try discriminate H; unfold type_name.
  - destruct (String.eqb_spec id "String") as [->|]; [|discriminate H].
  injection H as <- _.
  repeat first [left; reflexivity | right].
  - destruct SZ as [(-> & -> & ->)|[(-> & -> & ->)|[(-> & -> & ->)|[(-> & -> & ->)|[(-> & -> & ->)|(-> & -> & ->)]]]]];
    injection H as <- _; repeat first [left; reflexivity | right].
  - destruct (KotlinTree.address id) eqn:A; [|discriminate H].
  injection H as <- _.
  destruct (address_named id A) as [->| ->]; repeat first [left; reflexivity | right].
  - destruct SZ as [(-> & ->)|(-> & ->)]; injection H as <- _; repeat first [left; reflexivity | right].
  - cbn [ParseFacts.sized] in SZ.
  subst id.
  injection H as <- _.
  repeat first [left; reflexivity | right].
Qed.

Lemma lem_C58_kotlin_types : forall src ast, compile_front src = Ok ast -> KotlinCheck.consts_fine ast = true ->
  exists text decls, kotlin_consts ast = Ok text /\ kotlin_file text = Some decls /\
    (forall p t l, declared ast p t l -> exists kt k, In (type_name t, kt) kotlin_types /\ KotlinSem.constant [] decls (kotlin_path p) kt k) /\
    (forall q kt k, KotlinSem.constant [] decls q kt k ->
      exists p t l, declared ast p t l /\ q = kotlin_path p /\ In (type_name t, kt) kotlin_types).
Proof.
  intros src ast P F.
  destruct (KotlinFacts.lem_C50_constants ast F) as (text & decls & T & D & _ & A & B).
  exists text, decls.
  split; [exact T|].
  split; [exact D|].
  split.
  - intros p t l DC.
  destruct (A p t l DC) as (kt & k & H & C).
  exists kt, k.
  split; [|exact C].
  exact (kotlin_held t l kt k (declared_sized src ast p t l P DC) H).
  - intros q kt k C.
  destruct (B q kt k C) as (p & t & l & DC & -> & H).
  exists p, t, l.
  split; [exact DC|].
  split; [reflexivity|].
  exact (kotlin_held t l kt k (declared_sized src ast p t l P DC) H).
Qed.

Lemma lem_C58_swift_types : forall src ast, compile_front src = Ok ast -> SwiftCheck.consts_fine ast = true ->
  exists text decls, swift_consts ast = Ok text /\ swift_file text = Some decls /\
    (forall p t l, declared ast p t l -> exists wt w, In (type_name t, wt) swift_types /\ SwiftSem.constant [] decls (swift_path p) wt w) /\
    (forall q wt w, SwiftSem.constant [] decls q wt w ->
      exists p t l, declared ast p t l /\ q = swift_path p /\ In (type_name t, wt) swift_types).
Proof.
  intros src ast P F.
  destruct (SwiftFacts.lem_C51_constants ast F) as (text & decls & T & D & _ & A & B).
  exists text, decls.
  split; [exact T|].
  split; [exact D|].
  split.
  - intros p t l DC.
  destruct (A p t l DC) as (wt & w & H & C).
  exists wt, w.
  split; [|exact C].
  exact (swift_typed t l wt w (declared_sized src ast p t l P DC) H).
  - intros q wt w C.
  destruct (B q wt w C) as (p & t & l & DC & -> & H).
  exists p, t, l.
  split; [exact DC|].
  split; [reflexivity|].
  exact (swift_typed t l wt w (declared_sized src ast p t l P DC) H).
Qed.
