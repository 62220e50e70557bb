(** Property theorems about the conversion of names, C63: camel and Pascal case of every name.
    After each theorem, a concrete case that meets its hypotheses, and its axioms. *)
Require Import Coq.Strings.String Coq.Strings.Ascii.
Require Import Coq.NArith.NArith Coq.Lists.List Coq.Bool.Bool Coq.Arith.PeanoNat.
Require Import Coq.micromega.Lia.
Require Import Verif.Base Verif.CaseConv Verif.CaseSpec.
Require Import Verif.CaseFacts.
Import ListNotations.
Local Open Scope string_scope.
Local Open Scope list_scope.
Local Notation chars := list_ascii_of_string.

(* ---- theorems ---- *)
(** Both conversions, letter by letter, on every name. *)
Theorem C63_conversions : forall s,
  chars (pascal s) = cased (chars s) /\ chars (camel s) = low_first (cased (chars s)).
Proof. exact lem_C63_conversions. Qed.
Print Assumptions C63_conversions.
Example C63_conversions_case :
  let c s := string_of_list_ascii (cased (chars s)) in
  c "HTTPRequest_id" = "HttpRequestId" /\ c "say_hello2world" = "SayHello2World" /\ c "WIN1_MAIN" = "Win1Main" /\ c "-a  b_" = "AB" /\ c "aBC" = "ABc" /\
  c "a_b_c" = "ABC" /\ c "X" = "X" /\ c "" = "".
Proof.
  vm_compute.
  repeat split.
Qed.

(** The two differ in the first letter only, so they merge the same names. *)
Theorem C63_same_merges : forall a b, camel a = camel b <-> pascal a = pascal b.
Proof. exact lem_C63_same_merges. Qed.
Print Assumptions C63_same_merges.
Example C63_same_merges_case : camel "aB" = camel "a_b" /\ pascal "aB" = pascal "a_b".
Proof.
  split; reflexivity.
Qed.

(** Only gaps and case are lost: names that are merged differ in these alone. *)
Theorem C63_merged : forall a b, camel a = camel b -> plain (chars a) = plain (chars b).
Proof. exact lem_C63_merged. Qed.
Print Assumptions C63_merged.
Example C63_merged_case : camel "user_ID" = camel "UserId" /\ plain (chars "user_ID") = chars "userid".
Proof.
  split; reflexivity.
Qed.

(** Nothing is added either, and no gap is left. *)
Theorem C63_letters : forall s,
  plain (chars (pascal s)) = plain (chars s) /\ plain (chars (camel s)) = plain (chars s) /\
  Forall (fun c => kind_of c <> Gap) (chars (pascal s)) /\ Forall (fun c => kind_of c <> Gap) (chars (camel s)).
Proof. exact lem_C63_letters. Qed.
Print Assumptions C63_letters.
Example C63_letters_case : plain (chars "Get_HTTP-2 x") = chars "gethttp2x".
Proof.
  reflexivity.
Qed.

(** A converted name is in general not stable: converting it again gives another. *)
Theorem C63_stable_refuted : exists s, camel (camel s) <> camel s /\ pascal (pascal s) <> pascal s /\ pascal (camel s) <> pascal s.
Proof. exact lem_C63_stable_refuted. Qed.
Print Assumptions C63_stable_refuted.
