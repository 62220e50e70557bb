(** Property theorems about runs of a configuration, C60: when they succeed, what they depend on, and that they can be repeated
    and reordered.  After each theorem, a concrete case that meets its hypotheses, and its axioms. *)
Require Import Coq.Strings.String Coq.Strings.Ascii.
Require Import Coq.NArith.NArith Coq.Lists.List Coq.Bool.Bool Coq.Sorting.Permutation.
Require Import Verif.Base Verif.MainModel Verif.MainCmd Verif.RunFacts.
Require Verif.OutFacts Verif.Parser.
Require Import Verif.RepeatFacts.
Import OutFacts(apart, configured).
Import ListNotations.
Local Open Scope string_scope.
Local Open Scope list_scope.

(** A run of a configuration succeeds exactly if every source can be translated and every output written. *)
Theorem C60_succeeds_exactly : forall parse path w dir data,
  configured parse w path dir data -> (exists text, w_files w path = Some text /\ valid_utf8 text = true) -> apart (jobs dir data) ->
  ((exists w', run_command parse (CYaml path) w = (Done, w')) <-> forall j, In j (jobs dir data) -> exists text, possible w j text).
Proof. exact lem_C60_succeeds_exactly. Qed.
Print Assumptions C60_succeeds_exactly.
Example C60_succeeds_exactly_case : configured c60_parse (c60_world "old") "all.yaml" "" c60_data /\ apart (jobs "" c60_data) /\ List.length (jobs "" c60_data) = 4 /\
  fst (run_command c60_parse (CYaml "all.yaml") (c60_world "old")) = Done /\
  fst (run_command c60_parse (CYaml "all.yaml") (set_file (c60_world "old") "a.tpb" "struct {")) = Panicked.
Proof.
  split; [exists "dart: ..."; repeat split|].
  split.
  - split; [|split]; cbn.
  + repeat constructor; cbn; intuition discriminate.
  + intuition discriminate.
  + intros j k [<-|[<-|[<-|[<-|[]]]]] [<-|[<-|[<-|[<-|[]]]]]; discriminate.
  - split; [reflexivity|].
  split; vm_compute; reflexivity.
Qed.

(** What a successful run leaves: the translation of its source in each output, every other file and standard output as before. *)
Theorem C60_result : forall parse path w w' dir data,
  run_command parse (CYaml path) w = (Done, w') -> configured parse w path dir data -> apart (jobs dir data) ->
  w_out w' = w_out w /\
  (forall j, In j (jobs dir data) -> exists text, translates w (j_input j) (j_lang j) (j_models j) (j_buffers j) (j_rpc j) text /\ w_files w' (j_output j) = Some (utf8_encode text)) /\
  (forall p, ~ In p (map j_output (jobs dir data)) -> w_files w' p = w_files w p).
Proof. exact lem_C60_result. Qed.
Print Assumptions C60_result.
Example C60_result_case : let w' := snd (run_command c60_parse (CYaml "all.yaml") (c60_world "old")) in
  w_files w' "a.tpb" = Some "struct A { x: i32 }" /\ w_files w' "b.rs" <> Some "old" /\ w_files w' "a.dart" <> None /\ w_files w' "c.rs" = None.
Proof.
  vm_compute.
  repeat split; discriminate.
Qed.

(** It depends on the sources alone: in another world with the same sources, whatever the outputs and the other files are, the run
    succeeds as well and leaves the same outputs. *)
Theorem C60_sources_only : forall parse path w w' v dir data,
  run_command parse (CYaml path) w = (Done, w') -> configured parse w path dir data -> apart (jobs dir data) ->
  w_files v path = w_files w path -> same_sources w v (jobs dir data) ->
  exists v', run_command parse (CYaml path) v = (Done, v') /\ forall p, In p (map j_output (jobs dir data)) -> w_files v' p = w_files w' p.
Proof. exact lem_C60_sources_only. Qed.
Print Assumptions C60_sources_only.
Example C60_sources_only_case : same_sources (c60_world "old") (c60_world "new") (jobs "" c60_data) /\ w_files (c60_world "old") "b.rs" <> w_files (c60_world "new") "b.rs" /\
  w_files (c60_world "new") "all.yaml" = w_files (c60_world "old") "all.yaml".
Proof.
  split; [|split; [discriminate|reflexivity]].
  intros j [<-|[<-|[<-|[<-|[]]]]]; repeat split.
Qed.

(** A second run changes nothing. *)
Theorem C60_again : forall parse path w w' dir data,
  run_command parse (CYaml path) w = (Done, w') -> configured parse w path dir data -> apart (jobs dir data) -> ~ In path (map j_output (jobs dir data)) ->
  exists w'', run_command parse (CYaml path) w' = (Done, w'') /\ (forall p, w_files w'' p = w_files w' p) /\ w_out w'' = w_out w'.
Proof. exact lem_C60_again. Qed.
Print Assumptions C60_again.
Example C60_again_case : ~ In "all.yaml" (map j_output (jobs "" c60_data)) /\
  let w' := snd (run_command c60_parse (CYaml "all.yaml") (c60_world "old")) in
  let w'' := snd (run_command c60_parse (CYaml "all.yaml") w') in w_files w'' "b.rs" = w_files w' "b.rs" /\ w_files w' "b.rs" <> w_files (c60_world "old") "b.rs".
Proof.
  split; [cbn; intuition discriminate|].
  vm_compute.
  split; [reflexivity|discriminate].
Qed.

(** If an output is a source, the second run can fail: the first has replaced the schema. *)
Theorem C60_again_refuted : exists parse path w w' dir data,
  run_command parse (CYaml path) w = (Done, w') /\ configured parse w path dir data /\ NoDup (map j_output (jobs dir data)) /\ ~ In path (map j_output (jobs dir data)) /\
  fst (run_command parse (CYaml path) w') = Panicked.
Proof. exact lem_C60_again_refuted. Qed.
Print Assumptions C60_again_refuted.

(** The order of the entries does not matter: a configuration with the same entries in another order succeeds as well and leaves the same files. *)
Theorem C60_any_order : forall parse path path' w w' dir data dir' data',
  run_command parse (CYaml path) w = (Done, w') -> configured parse w path dir data -> apart (jobs dir data) ->
  configured parse w path' dir' data' -> (exists text, w_files w path' = Some text /\ valid_utf8 text = true) -> Permutation (jobs dir data) (jobs dir' data') ->
  exists v', run_command parse (CYaml path') w = (Done, v') /\ (forall p, w_files v' p = w_files w' p) /\ w_out v' = w_out w'.
Proof. exact lem_C60_any_order. Qed.
Print Assumptions C60_any_order.
Example C60_any_order_case : exists data', configured c60_parse (c60_world "old") "other.yaml" "" data' /\ Permutation (jobs "" c60_data) (jobs "" data') /\ jobs "" c60_data <> jobs "" data'.
Proof.
  eexists.
  split; [exists "rust: ..."; repeat split|].
  split; [|vm_compute; discriminate].
  cbn.
  apply (Permutation_app (l := [_; _]) (l' := [_; _])); apply perm_swap.
Qed.

(** With two entries for one output it does matter. *)
Theorem C60_any_order_refuted : exists w dir data data',
  Permutation (jobs dir data) (jobs dir data') /\ fst (run_yaml dir data w) = Done /\ fst (run_yaml dir data' w) = Done /\
  exists p, w_files (snd (run_yaml dir data w)) p <> w_files (snd (run_yaml dir data' w)) p.
Proof. exact lem_C60_any_order_refuted. Qed.
Print Assumptions C60_any_order_refuted.
