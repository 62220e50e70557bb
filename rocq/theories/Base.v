(** Shared vocabulary of the model: results, text helpers, decimal text.

    Rust panics are the explicit value [Panic]; [NoFuel] marks a model loop that ran out of
    fuel.  It has no counterpart in the code: the termination theorems show it never occurs.

    Text.  A Coq [string] is a list of 8-bit codes.  Source text read from a file
    (src/main.rs:160-162) is the list of its UTF-8 bytes.  src/lexer.rs:47 turns every byte
    into the [char] with that code, so every Rust [String] built by the tool holds only code
    points below 256 and is represented by the list of these code points.  [utf8_encode]
    gives the bytes that are finally written to a file (src/main.rs:176). *)
Require Import Coq.Strings.String Coq.Strings.Ascii.
Require Import Coq.NArith.NArith Coq.ZArith.ZArith Coq.Lists.List Coq.Bool.Bool.
Import ListNotations.
Local Open Scope string_scope.

Inductive res (A : Type) : Type :=
| Ok (a : A)
| Panic
| NoFuel.
Arguments Ok {A} a.
Arguments Panic {A}.
Arguments NoFuel {A}.

Definition bind {A B : Type} (x : res A) (f : A -> res B) : res B :=
  match x with
  | Ok a => f a
  | Panic => Panic
  | NoFuel => NoFuel
  end.

Declare Scope res_scope.
Notation "'let*' x ':=' a 'in' b" := (bind a (fun x => b))
  (at level 200, x pattern, a at level 100, b at level 200, right associativity) : res_scope.
Open Scope res_scope.

(** Sequencing of a fallible function over a list (a Rust [for] loop whose body may panic). *)
Section MapM.
  Context {A B : Type} (f : A -> res B).
  Fixpoint mapM (l : list A) : res (list B) :=
    match l with
    | [] => Ok []
    | x :: l' => let* y := f x in let* ys := mapM l' in Ok (y :: ys)
    end.
End MapM.

Definition is_ok {A : Type} (r : res A) : bool :=
  match r with Ok _ => true | _ => false end.

(** The line feed as a one-character text. *)
Definition nl : string := String (ascii_of_nat 10) "".
Definition dq : string := String (ascii_of_nat 34) "".

Fixpoint concat_strings (l : list string) : string :=
  match l with
  | [] => ""
  | s :: l' => s ++ concat_strings l'
  end.

(** [[a, b, c].join(sep)] of the Rust standard library. *)
Fixpoint join (sep : string) (l : list string) : string :=
  match l with
  | [] => ""
  | [s] => s
  | s :: l' => s ++ sep ++ join sep l'
  end.

(** [s.repeat(n)] of the Rust standard library. *)
Fixpoint repeat_string (s : string) (n : nat) : string :=
  match n with
  | O => ""
  | S n' => s ++ repeat_string s n'
  end.

(** [s.contains(ch)] of the Rust standard library. *)
Fixpoint contains_char (s : string) (ch : ascii) : bool :=
  match s with
  | "" => false
  | String c s' => Ascii.eqb c ch || contains_char s' ch
  end.

(** Whether [s] ends with [suf]. *)
Fixpoint ends_with (suf s : string) : bool :=
  String.eqb s suf ||
  match s with
  | "" => false
  | String _ s' => ends_with suf s'
  end.

(** [s.pop()] of the Rust standard library, dropping the last character. *)
Fixpoint pop_last (s : string) : string :=
  match s with
  | "" => ""
  | String c s' =>
      match s' with
      | "" => ""
      | _ => String c (pop_last s')
      end
  end.

Fixpoint rev_append_string (s acc : string) : string :=
  match s with
  | "" => acc
  | String c s' => rev_append_string s' (String c acc)
  end.
Definition rev_string (s : string) : string := rev_append_string s "".

(** Decimal text of a natural number, as [Display] for unsigned integers prints it. *)
Definition digit_char (n : N) : ascii := ascii_of_N (48 + n).

Fixpoint show_N_aux (fuel : nat) (n : N) (acc : string) : string :=
  match fuel with
  | O => acc
  | S f =>
      let '(q, r) := N.div_eucl n 10 in
      let acc' := String (digit_char r) acc in
      match q with
      | N0 => acc'
      | _ => show_N_aux f q acc'
      end
  end.
Definition show_N (n : N) : string := show_N_aux (S (N.size_nat n)) n "".

Definition show_nat (n : nat) : string := show_N (N.of_nat n).

(** Decimal text of an integer, as [Display] for i64 prints it. *)
Definition show_Z (z : Z) : string :=
  match z with
  | Z0 => "0"
  | Zpos p => show_N (Npos p)
  | Zneg p => "-" ++ show_N (Npos p)
  end.

(** UTF-8 bytes of a text of code points below 256 (src/main.rs:176 [data.as_bytes()]). *)
Fixpoint utf8_encode (s : string) : string :=
  match s with
  | "" => ""
  | String c s' =>
      let n := N_of_ascii c in
      if (n <? 128)%N then String c (utf8_encode s')
      else String (ascii_of_N (192 + n / 64)) (String (ascii_of_N (128 + n mod 64)) (utf8_encode s'))
  end.
