(** The case of names as convert_case documents it, letter by letter; independent of the model, which collects words. *)
Require Import Coq.Strings.String Coq.Strings.Ascii Coq.NArith.NArith Coq.Lists.List Coq.Bool.Bool.
Import ListNotations.

Inductive kind := Upper | Lower | Digit | Gap | Else.

(** A-Z, a-z, 0-9; space, hyphen and underscore. *)
Definition kind_of (c : ascii) : kind :=
  let n := N_of_ascii c in
  if ((65 <=? n) && (n <=? 90))%N then Upper
  else if ((97 <=? n) && (n <=? 122))%N then Lower
  else if ((48 <=? n) && (n <=? 57))%N then Digit
  else if existsb (N.eqb n) [32; 45; 95]%N then Gap
  else Else.

Definition kind_at (l : list ascii) (i : nat) : option kind := option_map kind_of (nth_error l i).

(** Whether the letter at [i] starts a word: it is the first, follows a gap, lies where letters turn into digits, digits into letters or small letters
    into capitals, or is the last of several capitals before a small letter. *)
Definition starts (l : list ascii) (i : nat) : bool :=
  match i with
  | O => true
  | S j =>
      match kind_at l j, kind_at l i, kind_at l (S i) with
      | Some Gap, _, _ => true
      | Some Lower, Some Upper, _ => true
      | Some Lower, Some Digit, _ | Some Upper, Some Digit, _ => true
      | Some Digit, Some Lower, _ | Some Digit, Some Upper, _ => true
      | Some Upper, Some Upper, Some Lower => true
      | _, _, _ => false
      end
  end.

Definition up (c : ascii) : ascii := match kind_of c with Lower => ascii_of_N (N_of_ascii c - 32) | _ => c end.
Definition low (c : ascii) : ascii := match kind_of c with Upper => ascii_of_N (N_of_ascii c + 32) | _ => c end.

(** Gaps disappear, first letters of words become capital, all others small. *)
Definition cased (l : list ascii) : list ascii :=
  flat_map (fun i =>
    match nth_error l i with
    | Some c => match kind_of c with Gap => [] | _ => [if starts l i then up c else low c] end
    | None => []
    end) (seq 0 (List.length l)).

Definition low_first (l : list ascii) : list ascii := match l with [] => [] | c :: r => low c :: r end.
Definition up_first (l : list ascii) : list ascii := match l with [] => [] | c :: r => up c :: r end.

(** What is left of a name without gaps and case. *)
Definition plain (l : list ascii) : list ascii := map low (filter (fun c => match kind_of c with Gap => false | _ => true end) l).
