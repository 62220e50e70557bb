(** Lemmas behind the theorems of PropertiesCase.v. *)

(** Property theorems about the conversion of names, C63: camel and Pascal case of every name.
    After each theorem, a concrete case that meets its hypotheses, and its axioms. *)
Require Import Coq.Strings.String Coq.Strings.Ascii.
Require Import Coq.NArith.NArith Coq.Lists.List Coq.Bool.Bool Coq.Arith.PeanoNat.
Require Import Coq.micromega.Lia.
Require Import Verif.Base Verif.CaseConv Verif.CaseSpec.
Import ListNotations.
Local Open Scope string_scope.
Local Open Scope list_scope.
Local Notation chars := list_ascii_of_string.

(* ---- lemmas ---- *)
Lemma chars_app a b : chars (a ++ b)%string = chars a ++ chars b.
Proof.
  induction a; cbn; congruence.
Qed.

Ltac all_bytes c := destruct c as [[|] [|] [|] [|] [|] [|] [|] [|]]; vm_compute.

Lemma delimiter_gap c : is_delimiter c = match kind_of c with Gap => true | _ => false end.
Proof.
  all_bytes c; reflexivity.
Qed.

Lemma upper_kind c : is_upper c = match kind_of c with Upper => true | _ => false end.
Proof.
  all_bytes c; reflexivity.
Qed.

Lemma lower_kind c : is_lower c = match kind_of c with Lower => true | _ => false end.
Proof.
  all_bytes c; reflexivity.
Qed.

Lemma digit_kind c : is_digit c = match kind_of c with Digit => true | _ => false end.
Proof.
  all_bytes c; reflexivity.
Qed.

Lemma upper_up c : to_upper c = up c.
Proof.
  all_bytes c; reflexivity.
Qed.

Lemma lower_low c : to_lower c = low c.
Proof.
  all_bytes c; reflexivity.
Qed.

Lemma low_up c : low (up c) = low c.
Proof.
  all_bytes c; reflexivity.
Qed.

Lemma up_low c : up (low c) = up c.
Proof.
  all_bytes c; reflexivity.
Qed.

Lemma low_low c : low (low c) = low c.
Proof.
  all_bytes c; reflexivity.
Qed.

Lemma kind_low c : match kind_of c with Gap => True | _ => kind_of (low c) <> Gap /\ kind_of (up c) <> Gap end.
Proof.
  all_bytes c; trivial; split; discriminate.
Qed.

Lemma map_chars f s : chars (map_string f s) = map f (chars s).
Proof.
  induction s; cbn; congruence.
Qed.

Definition cap (l : list ascii) : list ascii := match l with [] => [] | c :: r => up c :: map low r end.

Lemma capital_cap w : chars (capital w) = cap (chars w).
Proof.
  destruct w as [|c w]; [reflexivity|].
  cbn.
  rewrite upper_up, map_chars.
  f_equal.
  apply map_ext.
  exact lower_low.
Qed.

Lemma lowercase_low w : chars (lowercase w) = map low (chars w).
Proof.
  unfold lowercase.
  rewrite map_chars.
  apply map_ext.
  exact lower_low.
Qed.

Lemma concat_chars l : chars (concat_strings l) = flat_map chars l.
Proof.
  induction l; [reflexivity|].
  cbn [concat_strings flat_map].
  rewrite chars_app.
  congruence.
Qed.

Lemma rev_append_chars s : forall t, chars (rev_append_string s t) = rev (chars s) ++ chars t.
Proof.
  induction s as [|c s IH]; intros t; [reflexivity|].
  cbn.
  rewrite IH.
  cbn.
  now rewrite <- app_assoc.
Qed.

Lemma rev_chars s : chars (rev_string s) = rev (chars s).
Proof.
  unfold rev_string.
  rewrite rev_append_chars.
  apply app_nil_r.
Qed.

Lemma filter_nonempty l : flat_map chars (map capital (filter (fun w => negb (String.eqb w "")) l)) = flat_map (fun w => cap (chars w)) l.
Proof.
  induction l as [|w l IH]; [reflexivity|].
  cbn [filter flat_map].
  destruct (String.eqb_spec w "") as [->|]; cbn [negb]; [exact IH|].
  cbn [map flat_map].
  rewrite capital_cap, IH.
  reflexivity.
Qed.

Definition opens (prev : option ascii) : bool := match prev with None => true | Some c => is_delimiter c end.

(** The letters one after the other. *)
Fixpoint go (prev : option ascii) (s : string) : list ascii :=
  match s with
  | "" => []
  | String d rest =>
      if is_delimiter d then go (Some d) rest
      else (if opens prev || splits_before prev d rest then up d else low d) :: go (Some d) rest
  end.

Lemma cap_snoc l d : l <> [] -> cap (l ++ [d]) = cap l ++ [low d].
Proof.
  destruct l; [congruence|].
  intros _.
  cbn.
  now rewrite map_app.
Qed.

Lemma split_go s : forall prev word, opens prev = (match word with "" => true | _ => false end) ->
  flat_map (fun w => cap (chars w)) (split_loop prev word s) = cap (rev (chars word)) ++ go prev s.
Proof.
  induction s as [|d rest IH]; intros prev word O.
  - cbn.
  now rewrite rev_chars.
  - cbn [split_loop go].
  destruct (is_delimiter d) eqn:D.
  { cbn [flat_map].
  rewrite rev_chars, IH by exact D.
  reflexivity.
  }
    destruct (splits_before prev d rest) eqn:S.
  { cbn [flat_map].
  rewrite rev_chars, IH by exact D.
  rewrite orb_true_r.
  reflexivity.
  }
    rewrite IH by exact D.
  rewrite orb_false_r, O.
  destruct word as [|c word]; [reflexivity|].
  cbn [list_ascii_of_string rev].
  rewrite (cap_snoc (rev (chars word) ++ [c])) by (destruct (rev (chars word)); discriminate).
  now rewrite <- app_assoc.
Qed.

Lemma pascal_go s : chars (pascal s) = go None s.
Proof.
  unfold pascal, words.
  rewrite concat_chars, filter_nonempty, split_go; reflexivity.
Qed.

Lemma nth_mid {A} (pre : list A) d r : nth_error (pre ++ d :: r) (List.length pre) = Some d.
Proof.
  now rewrite nth_error_app2, Nat.sub_diag by lia.
Qed.

Lemma nth_next {A} (pre : list A) d r : nth_error (pre ++ d :: r) (S (List.length pre)) = hd_error r.
Proof.
  rewrite nth_error_app2 by lia.
  replace (S (List.length pre) - List.length pre) with 1 by lia.
  destruct r; reflexivity.
Qed.

Lemma starts_same pre prev d rest : 
  match prev with None => pre = [] | Some c => exists p, pre = p ++ [c] end -> 
  kind_of d <> Gap ->
  starts (pre ++ d :: chars rest) (List.length pre) = opens prev || splits_before prev d rest.
Proof.
  intros P G.
  destruct prev as [c|]; [|now subst pre].
  destruct P as (p & ->).
  rewrite app_length.
  cbn [List.length].
  rewrite Nat.add_1_r.
  cbn [starts].
  unfold kind_at.
  rewrite <- app_assoc.
  cbn [app].
  rewrite (nth_mid p c), (nth_next p c).
  cbn [hd_error option_map].
  replace (p ++ c :: d :: chars rest) with ((p ++ [c]) ++ d :: chars rest) by (now rewrite <- app_assoc).
  replace (S (List.length p)) with (List.length (p ++ [c])) by (rewrite app_length; cbn; lia).
  rewrite nth_next.
  cbn [opens splits_before].
  unfold is_boundary, is_acronym.
  rewrite delimiter_gap, !upper_kind, !lower_kind, !digit_kind.
  destruct rest as [|e rest]; cbn [list_ascii_of_string hd_error option_map].
  - destruct (kind_of c), (kind_of d); try reflexivity; congruence.
  - rewrite ?upper_kind, ?lower_kind.
  destruct (kind_of c), (kind_of d), (kind_of e); try reflexivity; congruence.
Qed.

Lemma go_cased s : forall pre prev, match prev with None => pre = [] | Some c => exists p, pre = p ++ [c] end ->
  go prev s = flat_map (fun i =>
    match nth_error (pre ++ chars s) i with
    | Some c => match kind_of c with Gap => [] | _ => [if starts (pre ++ chars s) i then up c else low c] end
    | None => []
    end) (seq (List.length pre) (String.length s)).
Proof.
  induction s as [|d rest IH]; intros pre prev P; [reflexivity|].
  cbn [String.length seq flat_map go list_ascii_of_string].
  rewrite nth_mid.
  specialize (IH (pre ++ [d]) (Some d) (ex_intro _ pre eq_refl)).
  rewrite app_length, Nat.add_1_r, <- app_assoc in IH.
  cbn [app] in IH.
  pose proof (delimiter_gap d) as G.
  destruct (kind_of d) eqn:K; rewrite G;
    try (rewrite (starts_same pre prev d rest P) by congruence); rewrite IH; reflexivity.
Qed.

Lemma length_chars s : List.length (chars s) = String.length s.
Proof.
  induction s; cbn; congruence.
Qed.

Lemma pascal_cased s : chars (pascal s) = cased (chars s).
Proof.
  rewrite pascal_go, (go_cased s [] None eq_refl).
  unfold cased.
  now rewrite length_chars.
Qed.

Lemma words_nonempty s : Forall (fun w => w <> "") (words s).
Proof.
  apply Forall_forall.
  intros w I.
  apply filter_In in I.
  destruct I as (_ & I).
  destruct (String.eqb_spec w ""); [discriminate|assumption].
Qed.

Lemma camel_pascal s : chars (camel s) = low_first (chars (pascal s)).
Proof.
  unfold camel, pascal.
  pose proof (words_nonempty s) as F.
  destruct (words s) as [|w ws]; [reflexivity|].
  inversion F as [|? ? N _]; subst.
  destruct w as [|c w]; [congruence|].
  cbn [map concat_strings].
  rewrite !chars_app, lowercase_low, capital_cap.
  cbn.
  now rewrite low_up.
Qed.

Lemma go_up prev s : opens prev = true -> match go prev s with [] => True | c :: _ => up c = c end.
Proof.
  revert prev; induction s as [|d rest IH]; intros prev O; cbn; trivial.
  destruct (is_delimiter d) eqn:D; [now apply IH|].
  rewrite O.
  cbn.
  clear.
  all_bytes d; reflexivity.
Qed.

Lemma pascal_camel s : chars (pascal s) = up_first (chars (camel s)).
Proof.
  rewrite camel_pascal.
  pose proof (go_up None s eq_refl) as U.
  rewrite <- pascal_go in U.
  destruct (chars (pascal s)) as [|c r]; [reflexivity|].
  cbn.
  now rewrite up_low, U.
Qed.

Lemma plain_go s : forall prev, plain (go prev s) = plain (chars s).
Proof.
  unfold plain.
  induction s as [|d rest IH]; intros prev; [reflexivity|].
  cbn [go list_ascii_of_string filter].
  rewrite delimiter_gap.
  pose proof (kind_low d) as K.
  destruct (kind_of d); [| | |apply IH|];
    cbn [filter map]; (destruct (opens prev || splits_before prev d rest);
      [destruct (kind_of (up d)) eqn:E; try (exfalso; now apply (proj2 K)); cbn [map]; rewrite low_up, IH; reflexivity
      |destruct (kind_of (low d)) eqn:E; try (exfalso; now apply (proj1 K)); cbn [map]; rewrite low_low, IH; reflexivity]).
Qed.

Lemma plain_low_first l : plain (low_first l) = plain l.
Proof.
  destruct l as [|c r]; [reflexivity|].
  unfold plain.
  cbn.
  assert (H : kind_of (low c) = Gap <-> kind_of c = Gap) by (clear; all_bytes c; split; intros; assumption || discriminate).
  destruct (kind_of c), (kind_of (low c)); cbn; rewrite ?low_low; try reflexivity;
    destruct H as (H1 & H2); try (discriminate (H1 eq_refl)); discriminate (H2 eq_refl).
Qed.

Lemma go_no_gap s : forall prev, Forall (fun c => kind_of c <> Gap) (go prev s).
Proof.
  induction s as [|d rest IH]; intros prev; [constructor|].
  cbn [go].
  rewrite delimiter_gap.
  pose proof (kind_low d) as K.
  destruct (kind_of d); try apply IH; (constructor; [|apply IH]; destruct (_ || _); apply K).
Qed.

Lemma chars_inj a b : chars a = chars b -> a = b.
Proof.
  intros E.
  rewrite <- (string_of_list_ascii_of_string a), <- (string_of_list_ascii_of_string b).
  now rewrite E.
Qed.

Lemma lem_C63_conversions : forall s,
  chars (pascal s) = cased (chars s) /\ chars (camel s) = low_first (cased (chars s)).
Proof.
  intros s.
  split; [apply pascal_cased|].
  now rewrite camel_pascal, pascal_cased.
Qed.

Lemma lem_C63_same_merges : forall a b, camel a = camel b <-> pascal a = pascal b.
Proof.
  intros a b; split; intros E; apply chars_inj; [rewrite !pascal_camel|rewrite !camel_pascal]; now rewrite E.
Qed.

Lemma lem_C63_merged : forall a b, camel a = camel b -> plain (chars a) = plain (chars b).
Proof.
  assert (P : forall s, plain (chars (camel s)) = plain (chars s)) by (intros s; now rewrite camel_pascal, plain_low_first, pascal_go, plain_go).
  intros a b E.
  rewrite <- (P a), <- (P b).
  now rewrite E.
Qed.

Lemma lem_C63_letters : forall s,
  plain (chars (pascal s)) = plain (chars s) /\ plain (chars (camel s)) = plain (chars s) /\
  Forall (fun c => kind_of c <> Gap) (chars (pascal s)) /\ Forall (fun c => kind_of c <> Gap) (chars (camel s)).
Proof.
  intros s.
  split; [rewrite pascal_go; apply plain_go|].
  split; [now rewrite camel_pascal, plain_low_first, pascal_go, plain_go|].
  assert (G : Forall (fun c => kind_of c <> Gap) (chars (pascal s))) by (rewrite pascal_go; apply go_no_gap).
  split; [exact G|].
  rewrite camel_pascal.
  destruct (chars (pascal s)) as [|c r]; [constructor|].
  inversion G as [|? ? N R]; subst.
  constructor; [|exact R].
  clear - N.
  revert N.
  all_bytes c; intros N; first [discriminate | exact N].
Qed.

Lemma lem_C63_stable_refuted : exists s, camel (camel s) <> camel s /\ pascal (pascal s) <> pascal s /\ pascal (camel s) <> pascal s.
Proof.
  exists "a_b_c".
  vm_compute.
  repeat split; discriminate.
Qed.
