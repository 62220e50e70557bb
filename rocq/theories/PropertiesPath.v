(** Property theorem about the paths of a configuration, C38: the text of a joined path, character by character.
    After it, a concrete case, and its axioms. *)
Require Import Coq.Strings.String Coq.Strings.Ascii Coq.Lists.List Coq.Bool.Bool.
Require Import Verif.Base Verif.MainModel Verif.GenFacts.
Require Import Verif.PathFacts.
Import ListNotations.
Local Open Scope string_scope.

(** An absolute path stays as it is; a relative one follows the directory, behind exactly one separator if the directory has a name, and a separator
    that the directory ends with is not repeated. *)
Theorem C38_joined : forall dir p,
  (forall q, path_join dir (String "/" q) = String "/" q) /\
  ((forall q, p <> String "/" q) ->
    path_join "" p = p /\
    path_join (dir ++ "/") p = dir ++ "/" ++ p /\
    (dir <> "" -> (forall d, dir <> d ++ "/") -> path_join dir p = dir ++ "/" ++ p)).
Proof. exact lem_C38_joined. Qed.
Print Assumptions C38_joined.
Example C38_joined_case : (forall q, "schema.tpb" <> String "/" q) /\ "src" <> "" /\ (forall d, "src" <> d ++ "/") /\
  path_join "src" "schema.tpb" = "src/schema.tpb" /\ path_join "src/" "schema.tpb" = "src/schema.tpb".
Proof.
  split; [discriminate|].
  split; [discriminate|].
  split; [|now split].
  intros d E.
  assert (H : ends_with "/" "src" = true) by (apply ends_with_spec; now exists d).
  discriminate H.
Qed.
