(** Lemmas behind the theorems of PropertiesPath.v. *)

(** Property theorem about the paths of a configuration, C38: the text of a joined path, character by character.
    After it, a concrete case, and its axioms. *)
Require Import Coq.Strings.String Coq.Strings.Ascii Coq.Lists.List Coq.Bool.Bool.
Require Import Verif.Base Verif.MainModel Verif.GenFacts.
Import ListNotations.
Local Open Scope string_scope.

Lemma lem_C38_joined : forall dir p,
  (forall q, path_join dir (String "/" q) = String "/" q) /\
  ((forall q, p <> String "/" q) ->
    path_join "" p = p /\
    path_join (dir ++ "/") p = dir ++ "/" ++ p /\
    (dir <> "" -> (forall d, dir <> d ++ "/") -> path_join dir p = dir ++ "/" ++ p)).
Proof.
  intros dir p.
  split; [reflexivity|].
  intros N.
  assert (A : starts_with_slash p = false).
  { destruct p as [|c p]; [reflexivity|].
  cbn.
  destruct (Ascii.eqb_spec c "/") as [->|]; [|reflexivity].
  now destruct (N p).
  }
  unfold path_join.
  rewrite A.
  split; [reflexivity|].
  split.
  - assert (E : String.eqb (dir ++ "/") "" = false) by now destruct dir.
  assert (L : ends_with "/" (dir ++ "/") = true) by (apply ends_with_spec; now exists dir).
  rewrite E, L.
  clear.
  induction dir as [|c dir IH]; [reflexivity|].
  cbn [append].
  f_equal.
  exact IH.
  - intros E L.
  apply String.eqb_neq in E.
  rewrite E.
  destruct (ends_with "/" dir) eqn:S; [|reflexivity].
  apply ends_with_spec in S as (d & S).
  now destruct (L d).
Qed.
