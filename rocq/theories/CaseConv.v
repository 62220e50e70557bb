(** Model of the two conversions of the external crate convert_case 0.5.0 that the generators call
    ([to_case(Case::Camel)], [to_case(Case::Pascal)]; 90 call sites in src/dart_generator.rs,
    src/dart/*.rs, src/swift/*.rs, src/kotlin/*.rs).  The crate is not part of /repo: this file is a
    transcription of its documented behaviour and belongs to the trusted base.  It reproduces the
    expected outputs in /repo/test_resources.

    Simplification: characters with codes 128-255 are neither upper nor lower case here and are
    copied unchanged. *)
Require Import Coq.Strings.String Coq.Strings.Ascii.
Require Import Coq.NArith.NArith Coq.Lists.List Coq.Bool.Bool.
Require Import Verif.Base.
Import ListNotations.
Local Open Scope string_scope.

Definition code (c : ascii) : N := N_of_ascii c.
Definition is_upper (c : ascii) : bool := ((65 <=? code c) && (code c <=? 90))%N.
Definition is_lower (c : ascii) : bool := ((97 <=? code c) && (code c <=? 122))%N.
Definition is_digit (c : ascii) : bool := ((48 <=? code c) && (code c <=? 57))%N.

Definition to_upper (c : ascii) : ascii := if is_lower c then ascii_of_N (code c - 32) else c.
Definition to_lower (c : ascii) : ascii := if is_upper c then ascii_of_N (code c + 32) else c.

(** Boundaries of one character, which is dropped: underscore, hyphen, space. *)
Definition is_delimiter (c : ascii) : bool :=
  ((code c =? 95) || (code c =? 45) || (code c =? 32))%N.

(** Boundaries between two characters: LowerUpper, UpperDigit, DigitUpper, DigitLower, LowerDigit. *)
Definition is_boundary (c d : ascii) : bool :=
  (is_lower c && is_upper d) || (is_upper c && is_digit d) || (is_digit c && is_upper d) ||
  (is_digit c && is_lower d) || (is_lower c && is_digit d).

(** Acronym: upper, upper, lower splits before the second upper. *)
Definition is_acronym (c d e : ascii) : bool := is_upper c && is_upper d && is_lower e.

(** Whether a word starts at [d] when [c] is the character before and [rest] follows. *)
Definition splits_before (prev : option ascii) (d : ascii) (rest : string) : bool :=
  match prev with
  | None => false
  | Some c =>
      is_boundary c d || match rest with String e _ => is_acronym c d e | "" => false end
  end.

(** The words, before the empty ones are dropped; [word] is the current word, reversed. *)
Fixpoint split_loop (prev : option ascii) (word : string) (s : string) : list string :=
  match s with
  | "" => [rev_string word]
  | String d rest =>
      if is_delimiter d then rev_string word :: split_loop (Some d) "" rest
      else if splits_before prev d rest then
        rev_string word :: split_loop (Some d) (String d "") rest
      else split_loop (Some d) (String d word) rest
  end.

Definition words (s : string) : list string :=
  filter (fun w => negb (String.eqb w "")) (split_loop None "" s).

Fixpoint map_string (f : ascii -> ascii) (s : string) : string :=
  match s with
  | "" => ""
  | String c s' => String (f c) (map_string f s')
  end.

Definition lowercase (w : string) : string := map_string to_lower w.

Definition capital (w : string) : string :=
  match w with
  | "" => ""
  | String c w' => String (to_upper c) (map_string to_lower w')
  end.

(** [s.to_case(Case::Pascal)]. *)
Definition pascal (s : string) : string := concat_strings (map capital (words s)).

(** [s.to_case(Case::Camel)]. *)
Definition camel (s : string) : string :=
  match words s with
  | [] => ""
  | w :: ws => lowercase w ++ concat_strings (map capital ws)
  end.

Example camel_ex1 : camel "WIN1_MAIN_RENDER" = "win1MainRender". Proof. reflexivity. Qed.
Example camel_ex2 : camel "HTTPRequest_id" = "httpRequestId". Proof. reflexivity. Qed.
Example pascal_ex1 : pascal "say_hello2world" = "SayHello2World". Proof. reflexivity. Qed.
