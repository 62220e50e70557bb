(** Lemmas behind the theorems of PropertiesRepeat.v. *)

(** Property theorems about runs of a configuration, C60: when they succeed, what they depend on, and that they can be repeated
    and reordered.  After each theorem, a concrete case that meets its hypotheses, and its axioms. *)
Require Import Coq.Strings.String Coq.Strings.Ascii.
Require Import Coq.NArith.NArith Coq.Lists.List Coq.Bool.Bool Coq.Sorting.Permutation.
Require Import Verif.Base Verif.MainModel Verif.MainCmd Verif.RunFacts.
Require Verif.OutFacts Verif.Parser.
Import OutFacts(apart, configured).
Import ListNotations.
Local Open Scope string_scope.
Local Open Scope list_scope.

(** ** C60: runs of configurations *)
(** The source of an entry can be translated, to [text], and its output can be created and written to. *)
Definition possible (w : world) (j : job) (text : string) : Prop :=
  translates w (j_input j) (j_lang j) (j_models j) (j_buffers j) (j_rpc j) text /\ w_creatable w (j_output j) = true /\ w_capacity w (j_output j) = None.

(** Two worlds with the same sources and the same outputs that can be written. *)
Definition same_sources (w v : world) (js : list job) : Prop :=
  forall j, In j js -> w_files w (j_input j) = w_files v (j_input j) /\ w_creatable w (j_output j) = w_creatable v (j_output j) /\ w_capacity w (j_output j) = w_capacity v (j_output j).

Lemma apart_cons j js : apart (j :: js) -> apart js /\ j_output j <> "-" /\ ~ In (j_output j) (map j_output js) /\ (forall k, In k js -> j_input k <> j_output j).
Proof.
  intros (N & O & S).
  cbn [map] in N, O.
  inversion N; subst.
  split; [split; [assumption|]; split; [now intros I; apply O; right|intros a b I J; apply S; now right]|].
  split; [intros E; apply O; now left|].
  split; [assumption|].
  intros k I.
  apply S; [now right|now left].
Qed.

Lemma possible_run w j text : j_output j <> "-" -> possible w j text -> run_job j w = (Done, set_file (set_file w (j_output j) "") (j_output j) (utf8_encode text)).
Proof.
  intros N ((c & F & V & T) & C & K).
  unfold run_job, generate.
  rewrite F, V, T.
  unfold emit.
  rewrite (proj2 (String.eqb_neq _ _) N), C.
  cbn [set_file w_capacity].
  now rewrite K.
Qed.

Lemma run_possible w j w1 : j_output j <> "-" -> run_job j w = (Done, w1) -> exists text, possible w j text /\ w1 = set_file (set_file w (j_output j) "") (j_output j) (utf8_encode text).
Proof.
  intros N R.
  unfold run_job, generate in R.
  destruct (w_files w (j_input j)) as [c|] eqn:F; [|discriminate R].
  destruct (valid_utf8 c) eqn:V; [|discriminate R].
  destruct (translate c (j_lang j) (j_models j) (j_buffers j) (j_rpc j)) as [text| |] eqn:T; try discriminate R.
  unfold emit in R.
  rewrite (proj2 (String.eqb_neq _ _) N) in R.
  destruct (w_creatable w (j_output j)) eqn:C; [|discriminate R].
  cbn [set_file w_capacity] in R.
  destruct (w_capacity w (j_output j)) eqn:K; [discriminate R|].
  injection R as <-.
  exists text.
  split; [|reflexivity].
  split; [now exists c|now split].
Qed.

Lemma possible_sources w v j text : w_files w (j_input j) = w_files v (j_input j) -> w_creatable w (j_output j) = w_creatable v (j_output j) -> w_capacity w (j_output j) = w_capacity v (j_output j) -> possible w j text -> possible v j text.
Proof.
  intros F C K ((c & F' & V & T) & C' & K').
  split; [exists c; split; [congruence|now split]|].
  split; congruence.
Qed.

Lemma possible_unique w j a b : possible w j a -> possible w j b -> a = b.
Proof.
  intros ((c & F & _ & T) & _) ((c' & F' & _ & T') & _).
  congruence.
Qed.

Lemma set_file_other w p q c : p <> q -> w_files (set_file w q c) p = w_files w p.
Proof.
  intros N.
  cbn [set_file w_files].
  now rewrite (proj2 (String.eqb_neq _ _) N).
Qed.

Lemma all_possible js : forall w, apart js -> (forall j, In j js -> exists text, possible w j text) -> exists w', succeed w js w'.
Proof.
  induction js as [|j js IH]; intros w A H; [exists w; constructor|].
  destruct (apart_cons j js A) as (A' & N & NI & NS).
  destruct (H j (or_introl eq_refl)) as (text & P).
  destruct (IH (set_file (set_file w (j_output j) "") (j_output j) (utf8_encode text)) A') as (w' & S).
  - intros k I.
  destruct (H k (or_intror I)) as (t & Q).
  exists t.
  refine (possible_sources w _ k t _ _ _ Q); [|reflexivity|reflexivity].
  rewrite !set_file_other by now apply NS.
  reflexivity.
  - exists w'.
  exact (succeed_cons w j _ js w' (possible_run w j text N P) S).
Qed.

Lemma succeed_possible js : forall w w', apart js -> succeed w js w' ->
  (forall j, In j js -> exists text, possible w j text /\ w_files w' (j_output j) = Some (utf8_encode text)) /\ w_out w' = w_out w /\ w_creatable w' = w_creatable w /\ w_capacity w' = w_capacity w.
Proof.
  induction js as [|j js IH]; intros w w' A S; inversion S as [|? ? w1 ? ? G S']; subst; [split; [intros ? []|auto]|].
  destruct (apart_cons j js A) as (A' & N & NI & NS).
  destruct (run_possible w j w1 N G) as (text & P & ->).
  destruct (IH _ _ A' S') as (H & O & C & K).
  split; [|cbn [set_file w_out w_creatable w_capacity] in O, C, K; auto].
  intros k [<-|I].
  - exists text.
  split; [exact P|].
  rewrite (succeed_files _ _ _ S' _ NI).
  cbn [set_file w_files].
  now rewrite String.eqb_refl.
  - destruct (H k I) as (t & Q & E).
  exists t.
  split; [|exact E].
  refine (possible_sources _ w k t _ _ _ Q); [|reflexivity|reflexivity].
  rewrite !set_file_other by now apply NS.
  reflexivity.
Qed.

(** The jobs in order, as one function. *)
Fixpoint run_jobs (js : list job) (w : world) : outcome * world :=
  match js with
  | [] => (Done, w)
  | j :: js => match run_job j w with (Done, w1) => run_jobs js w1 | r => r end
  end.

Lemma run_items_jobs dir l items : forall w, run_items dir l items w = run_jobs (map (job_of dir l) items) w.
Proof.
  induction items as [|p items IH]; intros w; [reflexivity|].
  cbn [run_items run_jobs map].
  unfold run_job at 1, job_of at 1 2 3 4 5 6.
  cbn [j_input j_output j_lang j_models j_buffers j_rpc].
  destruct (generate _ _ _ _ _ _ w) as [[] w1]; now rewrite ?IH.
Qed.

Lemma run_jobs_app a b : forall w, run_jobs (a ++ b) w = match run_jobs a w with (Done, w1) => run_jobs b w1 | r => r end.
Proof.
  induction a as [|j a IH]; intros w; [reflexivity|].
  cbn [app run_jobs].
  destruct (run_job j w) as [[] w1]; auto.
Qed.

Lemma run_yaml_jobs dir data w : run_yaml dir data w = run_jobs (jobs dir data) w.
Proof.
  unfold run_yaml, jobs.
  rewrite run_jobs_app, run_items_jobs.
  destruct (run_jobs _ w) as [[] w1]; [apply run_items_jobs|reflexivity..].
Qed.

Lemma run_jobs_done js : forall w w', run_jobs js w = (Done, w') <-> succeed w js w'.
Proof.
  induction js as [|j js IH]; intros w w'; cbn [run_jobs].
  - split; [intros [= <-]; constructor|intros S; now inversion S].
  - split.
  + destruct (run_job j w) as [[] w1] eqn:E; intros R; try discriminate R.
  econstructor; [exact E|now apply IH].
  + intros S.
  inversion S as [|? ? w1 ? ? G S']; subst.
  rewrite G.
  now apply IH.
Qed.

Lemma run_config parse path w dir data : configured parse w path dir data -> (exists text, w_files w path = Some text /\ valid_utf8 text = true) -> run_command parse (CYaml path) w = run_jobs (jobs dir data) w.
Proof.
  intros (text & F & P & D) (text' & F' & V).
  rewrite F in F'.
  injection F' as <-.
  cbn [run_command].
  now rewrite F, V, P, D, run_yaml_jobs.
Qed.

Lemma config_valid parse path w dir data w' : run_command parse (CYaml path) w = (Done, w') -> configured parse w path dir data -> exists text, w_files w path = Some text /\ valid_utf8 text = true.
Proof.
  intros R (text & F & P & D).
  cbn [run_command] in R.
  rewrite F in R.
  exists text.
  split; [exact F|].
  destruct (valid_utf8 text); [reflexivity|discriminate R].
Qed.

Lemma lem_C60_succeeds_exactly : forall parse path w dir data,
  configured parse w path dir data -> (exists text, w_files w path = Some text /\ valid_utf8 text = true) -> apart (jobs dir data) ->
  ((exists w', run_command parse (CYaml path) w = (Done, w')) <-> forall j, In j (jobs dir data) -> exists text, possible w j text).
Proof.
  intros parse path w dir data C V A.
  rewrite (run_config _ _ _ _ _ C V).
  split.
  - intros (w' & R) j I.
  apply run_jobs_done in R.
  destruct (succeed_possible _ _ _ A R) as (H & _).
  destruct (H j I) as (t & P & _).
  now exists t.
  - intros H.
  destruct (all_possible _ w A H) as (w' & S).
  exists w'.
  now apply run_jobs_done.
Qed.

Definition c60_entry (src dest : string) : yaml_params := mk_yaml_params src dest false false false.

Definition c60_data : yaml_data := mk_yaml_data (Some [c60_entry "a.tpb" "a.dart"; c60_entry "b.tpb" "b.dart"]) (Some [c60_entry "b.tpb" "b.rs"; c60_entry "a.tpb" "a.rs"]).

Definition c60_world (old : string) : world :=
  mk_world (fun p => if String.eqb p "all.yaml" then Some "dart: ..." else if String.eqb p "other.yaml" then Some "rust: ..." else if String.eqb p "a.tpb" then Some "struct A { x: i32 }"
                     else if String.eqb p "b.tpb" then Some "enum B { One, Two(u8) }" else if String.eqb p "b.rs" then Some old else None) "" (fun _ => true) (fun _ => None).

Definition c60_parse (text : string) : option yaml_data :=
  if String.eqb text "dart: ..." then Some c60_data else Some (mk_yaml_data (Some [c60_entry "b.tpb" "b.dart"; c60_entry "a.tpb" "a.dart"]) (Some [c60_entry "a.tpb" "a.rs"; c60_entry "b.tpb" "b.rs"])).

Lemma lem_C60_result : forall parse path w w' dir data,
  run_command parse (CYaml path) w = (Done, w') -> configured parse w path dir data -> apart (jobs dir data) ->
  w_out w' = w_out w /\
  (forall j, In j (jobs dir data) -> exists text, translates w (j_input j) (j_lang j) (j_models j) (j_buffers j) (j_rpc j) text /\ w_files w' (j_output j) = Some (utf8_encode text)) /\
  (forall p, ~ In p (map j_output (jobs dir data)) -> w_files w' p = w_files w p).
Proof.
  intros parse path w w' dir data R C A.
  rewrite (run_config _ _ _ _ _ C (config_valid _ _ _ _ _ _ R C)) in R.
  apply run_jobs_done in R.
  destruct (succeed_possible _ _ _ A R) as (H & O & _).
  split; [exact O|].
  split; [|now apply succeed_files].
  intros j I.
  destruct (H j I) as (t & (T & _) & E).
  now exists t.
Qed.

Lemma lem_C60_sources_only : forall parse path w w' v dir data,
  run_command parse (CYaml path) w = (Done, w') -> configured parse w path dir data -> apart (jobs dir data) ->
  w_files v path = w_files w path -> same_sources w v (jobs dir data) ->
  exists v', run_command parse (CYaml path) v = (Done, v') /\ forall p, In p (map j_output (jobs dir data)) -> w_files v' p = w_files w' p.
Proof.
  intros parse path w w' v dir data R C A F S.
  pose proof (config_valid _ _ _ _ _ _ R C) as V.
  rewrite (run_config _ _ _ _ _ C V) in R.
  apply run_jobs_done in R.
  destruct (succeed_possible _ _ _ A R) as (H & _).
  assert (P : forall j, In j (jobs dir data) -> exists text, possible v j text).
  { intros j I.
  destruct (H j I) as (t & P & _).
  destruct (S j I) as (S1 & S2 & S3).
  exists t.
  now apply (possible_sources w).
  }
  destruct (all_possible _ v A P) as (v' & SV).
  exists v'.
  split.
  - rewrite (run_config parse path v dir data); [now apply run_jobs_done| |].
  + destruct C as (text & F' & X).
  exists text.
  split; [congruence|exact X].
  + destruct V as (text & F' & X).
  exists text.
  split; [congruence|exact X].
  - intros p I.
  apply in_map_iff in I as (j & <- & I).
  destruct (succeed_possible _ _ _ A SV) as (H' & _).
  destruct (H j I) as (t & P1 & ->).
  destruct (H' j I) as (t' & P2 & ->).
  destruct (S j I) as (S1 & S2 & S3).
  now rewrite (possible_unique v j t t' (possible_sources w v j t S1 S2 S3 P1) P2).
Qed.

Lemma lem_C60_again : forall parse path w w' dir data,
  run_command parse (CYaml path) w = (Done, w') -> configured parse w path dir data -> apart (jobs dir data) -> ~ In path (map j_output (jobs dir data)) ->
  exists w'', run_command parse (CYaml path) w' = (Done, w'') /\ (forall p, w_files w'' p = w_files w' p) /\ w_out w'' = w_out w'.
Proof.
  intros parse path w w' dir data R C A NP.
  pose proof (lem_C60_result parse path w w' dir data R C A) as (_ & _ & O).
  assert (C' : configured parse w' path dir data).
  { destruct C as (text & F' & X).
  exists text.
  split; [now rewrite O|exact X].
  }
  pose proof (config_valid _ _ _ _ _ _ R C) as V.
  pose proof R as R'.
  rewrite (run_config _ _ _ _ _ C V) in R'.
  apply run_jobs_done in R'.
  destruct (succeed_possible _ _ _ A R') as (_ & _ & CR & CA).
  destruct (lem_C60_sources_only parse path w w' w' dir data R C A) as (w'' & R2 & S2); [now apply O| |].
  - intros j I.
  rewrite CR, CA.
  split; [|now split].
  symmetry.
  apply O.
  intros J.
  apply in_map_iff in J as (k & E & K).
  destruct A as (_ & _ & S).
  apply (S j k I K).
  now symmetry.
  - exists w''.
  split; [exact R2|].
  destruct (lem_C60_result parse path w' w'' dir data R2 C' A) as (OU & _ & O2).
  split; [|exact OU].
  intros p.
  destruct (in_dec string_dec p (map j_output (jobs dir data))) as [I|I]; [now apply S2|now apply O2].
Qed.

Lemma lem_C60_again_refuted : exists parse path w w' dir data,
  run_command parse (CYaml path) w = (Done, w') /\ configured parse w path dir data /\ NoDup (map j_output (jobs dir data)) /\ ~ In path (map j_output (jobs dir data)) /\
  fst (run_command parse (CYaml path) w') = Panicked.
Proof.
  set (data := mk_yaml_data None (Some [c60_entry "a.tpb" "a.tpb"])).
  destruct (run_command (fun _ => Some data) (CYaml "all.yaml") (c60_world "old")) as [o w'] eqn:E.
  exists (fun _ => Some data), "all.yaml", (c60_world "old"), w', "", data.
  assert (D : o = Done) by (apply (f_equal fst) in E; vm_compute in E; now symmetry).
  split; [now rewrite <- D|].
  split; [exists "dart: ..."; repeat split|].
  split; [repeat constructor; intros []|].
  split; [cbn; intuition discriminate|].
  apply (f_equal snd) in E.
  cbn [snd] in E.
  subst w'.
  vm_compute.
  reflexivity.
Qed.

Lemma lem_C60_any_order : forall parse path path' w w' dir data dir' data',
  run_command parse (CYaml path) w = (Done, w') -> configured parse w path dir data -> apart (jobs dir data) ->
  configured parse w path' dir' data' -> (exists text, w_files w path' = Some text /\ valid_utf8 text = true) -> Permutation (jobs dir data) (jobs dir' data') ->
  exists v', run_command parse (CYaml path') w = (Done, v') /\ (forall p, w_files v' p = w_files w' p) /\ w_out v' = w_out w'.
Proof.
  intros parse path path' w w' dir data dir' data' R C A C' V' PE.
  pose proof (config_valid _ _ _ _ _ _ R C) as V.
  rewrite (run_config _ _ _ _ _ C V) in R.
  apply run_jobs_done in R.
  destruct (succeed_possible _ _ _ A R) as (H & O & _).
  assert (A' : apart (jobs dir' data')).
  { destruct A as (N & O' & S).
  pose proof (Permutation_map j_output PE) as PO.
  split; [exact (Permutation_NoDup PO N)|].
  split; [intros I; apply O'; exact (Permutation_in _ (Permutation_sym PO) I)|].
  intros j k I J.
  apply S; apply (Permutation_in _ (Permutation_sym PE)); assumption.
  }
  destruct (all_possible _ w A') as (v' & SV).
  { intros j I.
  destruct (H j (Permutation_in _ (Permutation_sym PE) I)) as (t & P & _).
  now exists t.
  }
  exists v'.
  rewrite (run_config _ _ _ _ _ C' V').
  split; [now apply run_jobs_done|].
  destruct (succeed_possible _ _ _ A' SV) as (H' & O' & _).
  split; [|congruence].
  intros p.
  destruct (in_dec string_dec p (map j_output (jobs dir data))) as [I|I].
  - apply in_map_iff in I as (j & <- & I).
  destruct (H j I) as (t & P1 & ->).
  destruct (H' j (Permutation_in _ PE I)) as (t' & P2 & ->).
  now rewrite (possible_unique w j t t' P1 P2).
  - rewrite (succeed_files _ _ _ R _ I).
  apply (succeed_files _ _ _ SV).
  intros J.
  apply I.
  exact (Permutation_in _ (Permutation_map j_output (Permutation_sym PE)) J).
Qed.

Lemma lem_C60_any_order_refuted : exists w dir data data',
  Permutation (jobs dir data) (jobs dir data') /\ fst (run_yaml dir data w) = Done /\ fst (run_yaml dir data' w) = Done /\
  exists p, w_files (snd (run_yaml dir data w)) p <> w_files (snd (run_yaml dir data' w)) p.
Proof.
  exists (c60_world "old"), "", (mk_yaml_data None (Some [c60_entry "a.tpb" "x"; c60_entry "b.tpb" "x"])), (mk_yaml_data None (Some [c60_entry "b.tpb" "x"; c60_entry "a.tpb" "x"])).
  split; [apply perm_swap|].
  split; [vm_compute; reflexivity|].
  split; [vm_compute; reflexivity|].
  exists "x".
  vm_compute.
  discriminate.
Qed.
