(** Non-negative 64-bit floats as the tool uses them: [str::parse::<f64>] (src/lexer.rs:268)
    and [Display for f64] (src/rust_generator.rs:209, src/dart_generator.rs:542).

    Both functions belong to the Rust standard library, not to /repo.  They are modelled by
    their documented behaviour: parsing is correctly rounded (nearest, ties to even), and
    [Display] prints the shortest decimal text that parses back to the same float, without an
    exponent.  Only non-negative values occur: the literal text starts with a digit. *)
Require Import Coq.Strings.String Coq.Strings.Ascii.
Require Import Coq.NArith.NArith Coq.ZArith.ZArith Coq.Lists.List Coq.Bool.Bool.
Require Import Verif.Base.
Import ListNotations.
Local Open Scope string_scope.

(** [F64Fin m e] is the number m * 2^e; [F64Inf] is positive infinity. *)
Inductive f64 : Type :=
| F64Fin (m : N) (e : Z)
| F64Inf.

Definition f64_eqb (a b : f64) : bool :=
  match a, b with
  | F64Fin m e, F64Fin m' e' => N.eqb m m' && Z.eqb e e'
  | F64Inf, F64Inf => true
  | _, _ => false
  end.

Definition pow2N (z : Z) : N := N.pow 2 (Z.to_N z).
Definition pow10N (z : Z) : N := N.pow 10 (Z.to_N z).

(** The value (num / den) * 2^(-e) as a fraction. *)
Definition scale2 (num den : N) (e : Z) : N * N :=
  if (0 <=? e)%Z then (num, (den * pow2N e)%N) else ((num * pow2N (- e))%N, den).

(** Largest l with 2^l <= num / den, for positive num and den. *)
Definition floor_log2 (num den : N) : Z :=
  let d := (Z.of_N (N.log2 num) - Z.of_N (N.log2 den))%Z in
  let '(a, b) := scale2 num den d in
  if (b <=? a)%N then d else (d - 1)%Z.

(** Round a fraction to the nearest integer, ties to even. *)
Definition round_half_even (a b : N) : N :=
  let q := (a / b)%N in
  let r := (a mod b)%N in
  match (2 * r ?= b)%N with
  | Lt => q
  | Gt => (q + 1)%N
  | Eq => if N.even q then q else (q + 1)%N
  end.

(** The float nearest to num / den. *)
Definition f64_of_ratio (num den : N) : f64 :=
  match num with
  | N0 => F64Fin 0 (-1074)
  | _ =>
      let e := Z.max (floor_log2 num den - 52) (-1074) in
      let '(a, b) := scale2 num den e in
      let m := round_half_even a b in
      let '(m, e) := if (m =? 2 ^ 53)%N then ((2 ^ 52)%N, (e + 1)%Z) else (m, e) in
      if (971 <? e)%Z then F64Inf else F64Fin m e
  end.

(** The float nearest to d * 10^k. *)
Definition f64_of_dec (d : N) (k : Z) : f64 :=
  if (0 <=? k)%Z then f64_of_ratio (d * pow10N k) 1 else f64_of_ratio d (pow10N (- k)).

(** The value of a decimal digit. *)
Definition digit_val (c : ascii) : option N :=
  let n := N_of_ascii c in
  if ((48 <=? n) && (n <=? 57))%N then Some (n - 48)%N else None.

(** Longest prefix of digits: its value continued from [acc], its length added to [cnt], the rest. *)
Fixpoint take_digits (s : string) (acc : N) (cnt : nat) : N * nat * string :=
  match s with
  | "" => (acc, cnt, "")
  | String c s' =>
      match digit_val c with
      | Some d => take_digits s' (10 * acc + d)%N (S cnt)
      | None => (acc, cnt, s)
      end
  end.

(** The exponent part of a float text: (e|E)[+|-]digits, at least one digit, nothing after. *)
Definition parse_exp (s : string) : option Z :=
  match s with
  | "" => Some 0%Z
  | String c s' =>
      if Ascii.eqb c "e" || Ascii.eqb c "E" then
        let '(neg, s'') :=
          match s' with
          | String "+" t => (false, t)
          | String "-" t => (true, t)
          | _ => (false, s')
          end in
        match take_digits s'' 0 0 with
        | (v, S _, "") => Some (if neg then - Z.of_N v else Z.of_N v)%Z
        | _ => None
        end
      else None
  end.

(** [value.parse::<f64>()] for a text starting with a digit, src/lexer.rs:268.
    [None] is the parse error on which [unwrap] panics. *)
Definition parse_f64 (s : string) : option f64 :=
  let '(v, n, s1) := take_digits s 0 0 in
  let '(v2, n2, s2) :=
    match s1 with
    | String "." t => take_digits t v 0
    | _ => (v, 0, s1)
    end in
  match n + n2 with
  | O => None
  | S _ =>
      match parse_exp s2 with
      | Some x => Some (f64_of_dec v2 (x - Z.of_nat n2))
      | None => None
      end
  end.

(** Smallest j with num * 10^j >= den (at most [fuel]). *)
Fixpoint up_log10 (fuel : nat) (num den : N) (j : Z) : Z :=
  match fuel with
  | O => j
  | S f => if (den <=? num)%N then j else up_log10 f (10 * num)%N den (j + 1)%Z
  end.

(** Exponent of the leading decimal digit of num / den > 0. *)
Definition floor_log10 (num den : N) : Z :=
  if (den <=? num)%N then (Z.of_nat (String.length (show_N (num / den))) - 1)%Z
  else (- up_log10 400 num den 0)%Z.

(** The fraction equal to m * 2^e. *)
Definition frac_of (m : N) (e : Z) : N * N :=
  if (0 <=? e)%Z then ((m * pow2N e)%N, 1%N) else (m, pow2N (- e)).

(** A decimal number d * 10^k with at most n digits that parses to the float [x] = num / den:
    the nearer of the two neighbours of x. *)
Definition dec_candidate (x : f64) (num den : N) (n : nat) : option (N * Z) :=
  let k := (floor_log10 num den - Z.of_nat n + 1)%Z in
  let '(a, b) :=
    if (0 <=? k)%Z then (num, (den * pow10N k)%N) else ((num * pow10N (- k))%N, den) in
  let q := (a / b)%N in
  let r := (a mod b)%N in
  let lo_ok := f64_eqb (f64_of_dec q k) x in
  let hi_ok := f64_eqb (f64_of_dec (q + 1) k) x in
  let lo_near := (2 * r <=? b)%N in
  if lo_ok && (lo_near || negb hi_ok) then Some (q, k)
  else if hi_ok then Some ((q + 1)%N, k)
  else None.

Fixpoint shortest_dec (x : f64) (num den : N) (tries n : nat) : option (N * Z) :=
  match tries with
  | O => None
  | S t =>
      match dec_candidate x num den n with
      | Some r => Some r
      | None => shortest_dec x num den t (S n)
      end
  end.

(** Strip trailing zeros of d, moving them into the exponent. *)
Fixpoint strip_zeros (fuel : nat) (d : N) (k : Z) : N * Z :=
  match fuel with
  | O => (d, k)
  | S f =>
      if (d =? 0)%N then (d, k)
      else if (d mod 10 =? 0)%N then strip_zeros f (d / 10)%N (k + 1)%Z else (d, k)
  end.

(** The decimal number chosen for a finite float: the shortest one (17 digits always suffice
    for a double; if the search failed the exact expansion is used). *)
Definition choose_dec (m : N) (e : Z) : N * Z :=
  let '(num, den) := frac_of m e in
  match shortest_dec (F64Fin m e) num den 17 1 with
  | Some (d, k) =>
      let '(d', k') := strip_zeros 20 d k in
      if f64_eqb (f64_of_dec d' k') (F64Fin m e) then (d', k') else (d, k)
  | None => if (0 <=? e)%Z then ((m * pow2N e)%N, 0%Z) else ((m * N.pow 5 (Z.to_N (- e)))%N, e)
  end.

Definition zeros (n : nat) : string := repeat_string "0" n.

Fixpoint split_at (n : nat) (s : string) : string * string :=
  match n, s with
  | O, _ => ("", s)
  | S n', String c s' => let '(a, b) := split_at n' s' in (String c a, b)
  | S _, "" => ("", "")
  end.

(** Positional text of d * 10^k, as [Display for f64] lays it out. *)
Definition show_dec (d : N) (k : Z) : string :=
  let ds := show_N d in
  if (d =? 0)%N then "0"
  else if (0 <=? k)%Z then ds ++ zeros (Z.to_nat k)
  else
    let frac := Z.to_nat (- k) in
    if Nat.ltb frac (String.length ds) then
      let '(a, b) := split_at (String.length ds - frac) ds in a ++ "." ++ b
    else "0." ++ zeros (frac - String.length ds) ++ ds.

(** [format!("{}", x)] for a non-negative f64. *)
Definition show_f64 (x : f64) : string :=
  match x with
  | F64Inf => "inf"
  | F64Fin m e => if (m =? 0)%N then "0" else let '(d, k) := choose_dec m e in show_dec d k
  end.

(** Whether the float is an integer (used by [value.floor() == *value], src/swift/generator.rs
    and src/kotlin/generator.rs; infinity equals its own floor). *)
Definition f64_is_integral (x : f64) : bool :=
  match x with
  | F64Inf => true
  | F64Fin m e => if (0 <=? e)%Z then true else (m mod pow2N (- e) =? 0)%N
  end.
