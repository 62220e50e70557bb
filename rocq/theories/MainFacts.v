(** Lemmas behind the theorems of PropertiesMain.v. *)

(** Property theorems about the command line: C38 (which files a configuration names, and what running it does).
    After each theorem, a concrete case, and its axioms. *)
Require Import Coq.Strings.String Coq.Strings.Ascii.
Require Import Coq.NArith.NArith Coq.Lists.List Coq.Bool.Bool Coq.micromega.Lia.
Require Import Verif.Base Verif.MainModel Verif.MainCmd Verif.RunFacts.
Import ListNotations.
Local Open Scope string_scope.
Local Open Scope list_scope.

(** What a path names: the names between the separators, without empty ones and without single dots, from the root or from the
    current directory. *)
Fixpoint split_path (l : list ascii) : list (list ascii) :=
  match l with
  | [] => [[]]
  | c :: t => if Ascii.eqb c "/" then [] :: split_path t else match split_path t with h :: r => (c :: h) :: r | [] => [[c]] end
  end.

Definition named (x : list ascii) : bool := match x with [] => false | [c] => negb (Ascii.eqb c ".") | _ => true end.

Definition components (p : string) : list (list ascii) := filter named (split_path (list_ascii_of_string p)).

Definition absolute (p : string) : bool := match p with String c _ => Ascii.eqb c "/" | "" => false end.

Definition comps (l : list ascii) : list (list ascii) := filter named (split_path l).

Lemma split_path_nonempty l : split_path l <> [].
Proof.
  destruct l as [|c l]; [discriminate|].
  cbn.
  destruct (Ascii.eqb c "/"); [discriminate|].
  destruct (split_path l); discriminate.
Qed.

Lemma split_path_app p q : split_path (p ++ "/"%char :: q) = split_path p ++ split_path q.
Proof.
  induction p as [|c p IH]; [reflexivity|].
  cbn [app split_path].
  rewrite IH.
  destruct (Ascii.eqb c "/"); [reflexivity|].
  destruct (split_path p) eqn:E; [now apply split_path_nonempty in E|].
  reflexivity.
Qed.

Lemma comps_app p q : comps (p ++ "/"%char :: q) = comps p ++ comps q.
Proof.
  unfold comps.
  now rewrite split_path_app, filter_app.
Qed.

Lemma chars_app a b : list_ascii_of_string (a ++ b) = list_ascii_of_string a ++ list_ascii_of_string b.
Proof.
  induction a as [|c a IH]; [reflexivity|].
  cbn.
  now rewrite IH.
Qed.

Lemma ends_slash s : ends_with "/" s = true -> exists d, s = (d ++ "/")%string.
Proof.
  induction s as [|c s IH]; [discriminate|].
  intros E.
  cbn [ends_with] in E.
  apply orb_true_iff in E as [E|E] || idtac.
  - apply String.eqb_eq in E.
  exists "".
  exact E.
  - destruct (IH E) as (d & ->).
  exists (String c d).
  reflexivity.
Qed.

Lemma lem_C38_paths : forall dir p,
  components (path_join dir p) = (if absolute p then components p else components dir ++ components p) /\
  absolute (path_join dir p) = (absolute p || absolute dir)%bool.
Proof.
  intros dir p.
  unfold path_join.
  change (starts_with_slash p) with (absolute p).
  destruct (absolute p) eqn:A; [now rewrite A|].
  cbn [orb].
  destruct (String.eqb_spec dir "") as [->|N]; [now rewrite A|].
  destruct (ends_with "/" dir) eqn:E.
  - apply ends_slash in E as (d & ->).
  split.
  + unfold components.
  rewrite !chars_app, <- app_assoc.
  cbn [list_ascii_of_string app].
  change (filter named (split_path ?l)) with (comps l).
  rewrite !comps_app.
  change (comps []) with (@nil (list ascii)).
  now rewrite app_nil_r.
  + destruct d; reflexivity.
  - split; [|destruct dir; [congruence|reflexivity]].
  unfold components.
  rewrite !chars_app.
  cbn [list_ascii_of_string app].
  change (filter named (split_path ?l)) with (comps l).
  now rewrite comps_app.
Qed.

Lemma lem_C38_standard_output : forall dir p, path_join dir p = "-" <-> dir = "" /\ p = "-".
Proof.
  intros dir p.
  split; [|now intros [-> ->]].
  unfold path_join.
  destruct (starts_with_slash p) eqn:A; [intros ->; discriminate A|].
  destruct (String.eqb_spec dir "") as [->|N]; [now split|].
  destruct (ends_with "/" dir) eqn:E.
  - apply ends_slash in E as (d & ->).
  destruct d as [|c [|c' d]]; cbn; discriminate.
  - destruct dir as [|c [|c' d]]; [congruence| |]; cbn; discriminate.
Qed.

Lemma drop_tail_comps r : comps (rev (drop_tail r)) = comps (rev r).
Proof.
  induction r as [|c t IH]; [reflexivity|].
  cbn [drop_tail].
  destruct (Ascii.eqb_spec c slash) as [->|NS].
  - destruct t as [|d t]; [reflexivity|].
  rewrite IH.
  cbn [rev].
  unfold slash.
  now rewrite (comps_app (rev t ++ [d]) []), app_nil_r.
  - destruct (Ascii.eqb_spec c dot) as [->|ND]; [|reflexivity].
  destruct t as [|d t]; [reflexivity|].
  destruct (Ascii.eqb_spec d slash) as [->|]; [|reflexivity].
  rewrite IH.
  cbn [rev].
  rewrite <- app_assoc.
  cbn [app].
  unfold slash.
  now rewrite !comps_app.
Qed.

Lemma drop_tail_last r d : last (drop_tail r) d = last r d.
Proof.
  induction r as [|c t IH]; [reflexivity|].
  cbn [drop_tail].
  destruct (Ascii.eqb c slash); [destruct t; [reflexivity|rewrite IH; reflexivity]|].
  destruct (Ascii.eqb c dot); [|reflexivity].
  destruct t as [|e t]; [reflexivity|].
  destruct (Ascii.eqb e slash); [rewrite IH; reflexivity|reflexivity].
Qed.

Lemma drop_tail_nil r : drop_tail r = [] -> r = [].
Proof.
  induction r as [|c t IH]; [reflexivity|].
  cbn [drop_tail].
  destruct (Ascii.eqb c slash); [destruct t; [discriminate|intros E; specialize (IH E); discriminate]|].
  destruct (Ascii.eqb c dot); [|discriminate].
  destruct t as [|e t]; [discriminate|].
  destruct (Ascii.eqb e slash); [intros E; specialize (IH E); discriminate|discriminate].
Qed.

Lemma drop_name_split r : exists n, r = n ++ drop_name r /\ ~ In slash n /\ (drop_name r = [] \/ exists t, drop_name r = slash :: t).
Proof.
  induction r as [|c t IH]; [exists []; repeat split; [intros []|now left]|].
  cbn [drop_name].
  destruct (Ascii.eqb_spec c slash) as [->|NS].
  - exists [].
  repeat split; [intros []|right; eauto].
  - destruct IH as (n & E & NI & D).
  exists (c :: n).
  cbn [app].
  rewrite <- E.
  repeat split; [intros [Q|Q]; [congruence|contradiction]|exact D].
Qed.

(** What is left has a last name, unless it is the root or the current directory. *)
Lemma drop_tail_shape r : drop_tail r = [] \/ drop_tail r = [slash] \/ drop_tail r = [dot] \/
  exists n rest, drop_tail r = n ++ rest /\ named (rev n) = true /\ ~ In slash n /\ drop_name (drop_tail r) = rest /\ (rest = [] \/ exists t, rest = slash :: t).
Proof.
  assert (G : forall c t, c <> slash -> (c = dot -> exists d t', t = d :: t' /\ d <> slash) ->
    exists n rest, c :: t = n ++ rest /\ named (rev n) = true /\ ~ In slash n /\ drop_name (c :: t) = rest /\ (rest = [] \/ exists t', rest = slash :: t')).
  { intros c t NS ND.
  destruct (drop_name_split t) as (n & E & NI & D).
  exists (c :: n), (drop_name t).
  cbn [app drop_name].
  rewrite <- E.
  destruct (Ascii.eqb_spec c slash) as [|_]; [contradiction|].
  split; [reflexivity|].
  split; [|split; [intros [Q|Q]; [congruence|contradiction]|split; [reflexivity|exact D]]].
  destruct n as [|d n]; cbn [rev app].
  - destruct (Ascii.eqb_spec c ".") as [->|K]; [|cbn; now destruct (Ascii.eqb_spec c "."); [contradiction|]].
  destruct (ND eq_refl) as (d & t' & -> & NE).
  cbn [app] in E.
  exfalso.
  cbn [drop_name] in E.
  destruct (Ascii.eqb_spec d slash); [contradiction|].
  apply (f_equal (@List.length ascii)) in E.
  cbn in E.
  destruct (drop_name_split t') as (m & E' & _).
  apply (f_equal (@List.length ascii)) in E'.
  rewrite app_length in E'.
  lia.
  - destruct (rev n ++ [d]) as [|x l] eqn:X; [destruct (rev n); discriminate|].
  cbn [app].
  destruct l; reflexivity.
  }
  induction r as [|c t IH]; [now left|].
  cbn [drop_tail].
  destruct (Ascii.eqb_spec c slash) as [->|NS].
  - destruct t as [|d t]; [right; now left|exact IH].
  - destruct (Ascii.eqb_spec c dot) as [->|ND].
  + destruct t as [|d t]; [do 2 right; now left|].
  destruct (Ascii.eqb_spec d slash) as [->|NE]; [exact IH|].
  do 3 right.
  apply G; [exact NS|].
  intros _.
  now exists d, t.
  + do 3 right.
  apply G; [exact NS|].
  intros Q.
  contradiction.
Qed.

Lemma no_slash_comps n : ~ In slash n -> named n = true -> comps n = [n].
Proof.
  intros NI NM.
  unfold comps.
  assert (E : split_path n = [n]).
  { clear NM.
  induction n as [|c n IH]; [reflexivity|].
  cbn [split_path].
  destruct (Ascii.eqb_spec c "/") as [->|]; [destruct NI; now left|].
  rewrite IH; [reflexivity|].
  intros Q.
  apply NI.
  now right.
  }
  rewrite E.
  cbn [filter].
  now rewrite NM.
Qed.

Lemma removelast_snoc {A} (l : list A) x : removelast (l ++ [x]) = l.
Proof.
  rewrite removelast_app by discriminate.
  apply app_nil_r.
Qed.

Definition absl (r : list ascii) : bool := match rev r with c :: _ => Ascii.eqb c slash | [] => false end.

Lemma absolute_chars p : absolute p = absl (rev (list_ascii_of_string p)).
Proof.
  unfold absl.
  rewrite rev_involutive.
  destruct p; reflexivity.
Qed.

Lemma absl_last r : absl r = Ascii.eqb (last r dot) slash.
Proof.
  unfold absl.
  destruct r as [|c r]; [reflexivity|].
  destruct (@exists_last _ (c :: r) ltac:(discriminate)) as (l & x & E).
  rewrite E, rev_app_distr.
  cbn [rev app].
  now rewrite last_last.
Qed.

Lemma lem_C38_config_directory : forall p,
  match path_parent p with
  | Some dir => components dir = removelast (components p) /\ absolute dir = absolute p
  | None => components p = [] /\ (p = "" \/ absolute p = true)
  end.
Proof.
  intros p.
  set (r := rev (list_ascii_of_string p)).
  assert (EC : forall s, components (string_of_list_ascii s) = comps s) by (intros s; unfold components; now rewrite list_ascii_of_string_of_list_ascii).
  assert (CP : components p = comps (rev (drop_tail r))) by (rewrite drop_tail_comps; unfold r; rewrite rev_involutive; reflexivity).
  assert (AP : absolute p = absl (drop_tail r)) by (rewrite absolute_chars; fold r; rewrite !absl_last; now rewrite drop_tail_last).
  assert (AS : forall l, absolute (string_of_list_ascii (rev l)) = absl l) by (intros l; rewrite absolute_chars, list_ascii_of_string_of_list_ascii, rev_involutive; reflexivity).
  unfold path_parent.
  fold r.
  rewrite CP, AP.
  destruct (drop_tail_shape r) as [E|[E|[E|(n & rest & E & NM & NI & DN & RS)]]].
  - rewrite E.
  split; [reflexivity|left].
  apply drop_tail_nil in E.
  unfold r in E.
  apply (f_equal (@rev ascii)) in E.
  rewrite rev_involutive in E.
  destruct p; [reflexivity|discriminate].
  - rewrite E.
  cbn.
  split; [reflexivity|now right].
  - rewrite E.
  cbn.
  split; reflexivity.
  - rewrite DN, E.
  destruct n as [|c n]; [discriminate|].
  cbn [app].
  assert (NC : Ascii.eqb c slash = false) by (destruct (Ascii.eqb_spec c slash) as [->|]; [destruct NI; now left|reflexivity]).
  rewrite NC.
  cbn [andb].
  rewrite EC, drop_tail_comps, AS.
  rewrite !(absl_last (drop_tail rest)), drop_tail_last.
  assert (NI' : ~ In slash (rev (c :: n))) by (intros Q; apply in_rev in Q; contradiction).
  change (c :: n ++ rest) with ((c :: n) ++ rest).
  rewrite rev_app_distr.
  destruct RS as [->|(t & ->)].
  + cbn [rev app].
  rewrite app_nil_r.
  change (rev n ++ [c]) with (rev (c :: n)).
  rewrite (no_slash_comps _ NI' NM).
  split; [reflexivity|].
  cbn [last].
  rewrite ?app_nil_r.
  unfold absl.
  cbn [rev].
  destruct (rev n ++ [c]) as [|x l] eqn:X; [reflexivity|].
  destruct (Ascii.eqb_spec x slash) as [->|]; [|reflexivity].
  exfalso.
  apply NI'.
  cbn [rev].
  rewrite X.
  now left.
  + cbn [rev].
  rewrite <- app_assoc.
  cbn [app].
  change (rev n ++ [c]) with (rev (c :: n)).
  unfold slash.
  rewrite !comps_app.
  rewrite (no_slash_comps _ NI' NM).
  rewrite removelast_snoc.
  split; [now rewrite app_nil_r|].
  rewrite absl_last.
  f_equal.
  change (c :: n ++ "/"%char :: t) with ((c :: n) ++ "/"%char :: t).
  destruct (@exists_last _ ("/"%char :: t) ltac:(discriminate)) as (l & x & X).
  rewrite X, app_assoc, !last_last.
  reflexivity.
Qed.

Lemma lem_C38_config : forall parse path w o w', run_command parse (CYaml path) w = (o, w') ->
  match w_files w path with
  | None => o = IoError /\ w' = w
  | Some text =>
      if valid_utf8 text then
        match parse text with
        | None => o = Panicked /\ w' = w
        | Some data =>
            (components path = [] /\ o = Panicked /\ w' = w) \/
            exists dir, components dir = removelast (components path) /\ absolute dir = absolute path /\ stops w (jobs dir data) o w' /\
              forall j, In j (jobs dir data) -> exists item,
                (j_lang j = Rust /\ (exists l, yd_rust data = Some l /\ In item l) \/ j_lang j = Dart /\ (exists l, yd_dart data = Some l /\ In item l)) /\
                (j_models j, j_buffers j, j_rpc j) = (yp_skip_models item, yp_skip_buffers item, yp_skip_rpc item) /\
                components (j_input j) = (if absolute (yp_src item) then components (yp_src item) else removelast (components path) ++ components (yp_src item)) /\
                components (j_output j) = (if absolute (yp_dest item) then components (yp_dest item) else removelast (components path) ++ components (yp_dest item))
        end
      else o = IoError /\ w' = w
  end.
Proof.
  intros parse path w o w' R.
  cbn [run_command] in R.
  destruct (w_files w path) as [text|]; [|injection R as <- <-; now split].
  destruct (valid_utf8 text); [|injection R as <- <-; now split].
  destruct (parse text) as [data|]; [|injection R as <- <-; now split].
  pose proof (lem_C38_config_directory path) as P.
  destruct (path_parent path) as [dir|]; [|injection R as <- <-; left; now split].
  destruct P as [P1 P2].
  right.
  exists dir.
  split; [exact P1|].
  split; [exact P2|].
  split; [now apply lem_C38_stops_at_the_first_failure|].
  intros j J.
  unfold jobs in J.
  apply in_app_iff in J as [J|J]; apply in_map_iff in J as (item & <- & I); exists item; cbn [job_of j_lang j_models j_buffers j_rpc j_input j_output].
  - split; [left; split; [reflexivity|]; destruct (yd_rust data) as [l|]; [now exists l|destruct I]|].
  split; [reflexivity|].
  rewrite !(proj1 (lem_C38_paths _ _)), P1.
  now split.
  - split; [right; split; [reflexivity|]; destruct (yd_dart data) as [l|]; [now exists l|destruct I]|].
  split; [reflexivity|].
  rewrite !(proj1 (lem_C38_paths _ _)), P1.
  now split.
Qed.
