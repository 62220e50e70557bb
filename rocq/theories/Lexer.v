(** Model of src/lexer.rs:30-272.

    [StringReader] (src/lexer.rs:30-52) is the suffix of the text that starts at the cursor:
    [current] is the head of the suffix, [next] drops the head (beyond the end the suffix stays
    empty, exactly as [current] stays [None] once the cursor reached the length). *)
Require Import Coq.Strings.String Coq.Strings.Ascii.
Require Import Coq.NArith.NArith Coq.ZArith.ZArith Coq.Lists.List Coq.Bool.Bool.
Require Import Verif.Base Verif.F64 Verif.Ast.
Import ListNotations.
Local Open Scope string_scope.

(** src/lexer.rs:40-43 [StringReader::next] without its result. *)
Definition advance (s : string) : string :=
  match s with
  | "" => ""
  | String _ s' => s'
  end.

(** src/lexer.rs:126-129 [is_char_number]. *)
Definition is_char_number (ch : ascii) : bool := contains_char "0123456789" ch.

(** src/lexer.rs:131-134 [is_char_hex_number]. *)
Definition is_char_hex_number (ch : ascii) : bool := contains_char "0123456789ABCDEF" ch.

(** src/lexer.rs:136-145 [is_char_id]. *)
Definition is_char_id (ch : ascii) (first_char : bool) : bool :=
  let letters := "abcdefjhigklmnopqrstuvwxyzABCDEFJHIGKLMNOPQRSTUVWXYZ_" in
  let numbers := "0123456789" in
  if first_char then contains_char letters ch
  else contains_char letters ch || contains_char numbers ch.

Definition lf : ascii := ascii_of_nat 10.
Definition cr : ascii := ascii_of_nat 13.
Definition quote : ascii := ascii_of_nat 34.

(** src/lexer.rs:147-156 [lex_single_line_comment]; returns the remaining suffix. *)
Fixpoint lex_single_line_comment (s : string) : string :=
  match s with
  | "" => ""
  | String ch s' =>
      if Ascii.eqb ch cr || Ascii.eqb ch lf then s' else lex_single_line_comment s'
  end.

(** src/lexer.rs:158-169 [lex_multi_line_comment]; entered with the cursor on the opening star. *)
Fixpoint lex_multi_line_comment (s : string) : string :=
  match s with
  | "" => ""
  | String ch s' =>
      if Ascii.eqb ch "*" then
        match s' with
        | "" => ""
        | String c2 s'' => if Ascii.eqb c2 "/" then s'' else lex_multi_line_comment s''
        end
      else lex_multi_line_comment s'
  end.

(** src/lexer.rs:171-186, the collecting loop of [lex_id]: entered with the cursor on a
    character that belongs to the name; returns the name and the remaining suffix. *)
Fixpoint lex_id_loop (s : string) : res (string * string) :=
  match s with
  | "" => Panic
  | String c s' =>
      match s' with
      | "" => Ok (String c "", "")
      | String ch _ =>
          if is_char_id ch false then
            let* (name, rest) := lex_id_loop s' in Ok (String c name, rest)
          else Ok (String c "", s')
      end
  end.

(** src/lexer.rs:188-198, the keyword table of [lex_id]. *)
Definition keyword_or_id (name : string) : token :=
  if String.eqb name "struct" then TStruct
  else if String.eqb name "enum" then TEnum
  else if String.eqb name "fn" then TFn
  else if String.eqb name "read" then TRead
  else if String.eqb name "async" then TAsync
  else if String.eqb name "const" then TConst
  else if String.eqb name "true" then TLit (BoolLit true)
  else if String.eqb name "false" then TLit (BoolLit false)
  else TId name.

(** src/lexer.rs:171-199 [lex_id]. *)
Definition lex_id (s : string) : res (token * string) :=
  let* (name, rest) := lex_id_loop s in Ok (keyword_or_id name, rest).

(** src/lexer.rs:208-224, the loop of [lex_string]. *)
Fixpoint lex_string_loop (s : string) : res (string * string) :=
  match s with
  | "" => Panic
  | String c s' =>
      if Ascii.eqb c quote then Ok ("", s')
      else
        match s' with
        | "" => Panic
        | _ => let* (value, rest) := lex_string_loop s' in Ok (String c value, rest)
        end
  end.

(** src/lexer.rs:201-227 [lex_string]; entered with the cursor on the opening quote. *)
Definition lex_string (s : string) : res (token * string) :=
  match advance s with
  | "" => Panic
  | s' => let* (value, rest) := lex_string_loop s' in Ok (TLit (StringLit value), rest)
  end.

(** src/lexer.rs:234-261, the loop of [lex_number]: the collected text, [is_hex], [is_float],
    the remaining suffix. *)
Fixpoint lex_number_loop (s : string) (is_hex is_float : bool)
  : res (string * bool * bool * string) :=
  match s with
  | "" => Panic
  | String c s' =>
      match s' with
      | "" => Ok (String c "", is_hex, is_float, "")
      | String ch s'' =>
          if Ascii.eqb ch "_" then
            let* (v, h, f, rest) := lex_number_loop s'' is_hex is_float in
            Ok (String c v, h, f, rest)
          else if Ascii.eqb ch "." && negb is_hex && negb is_float then
            let* (v, h, f, rest) := lex_number_loop s' is_hex true in
            Ok (String c v, h, f, rest)
          else if Ascii.eqb ch "x" && negb is_hex && negb is_float then
            let* (v, h, f, rest) := lex_number_loop s' true is_float in
            Ok (String c v, h, f, rest)
          else if (negb is_hex && negb (is_char_number ch))
                  || (is_hex && negb (is_char_hex_number ch)) then
            Ok (String c "", is_hex, is_float, s')
          else
            let* (v, h, f, rest) := lex_number_loop s' is_hex is_float in
            Ok (String c v, h, f, rest)
      end
  end.

(** [char::to_digit(radix)] of the Rust standard library, radix 10 or 16. *)
Definition to_digit (radix : N) (c : ascii) : option N :=
  let n := N_of_ascii c in
  let d :=
    if ((48 <=? n) && (n <=? 57))%N then Some (n - 48)%N
    else if ((97 <=? n) && (n <=? 102))%N then Some (n - 87)%N
    else if ((65 <=? n) && (n <=? 70))%N then Some (n - 55)%N
    else None in
  match d with
  | Some v => if (v <? radix)%N then Some v else None
  | None => None
  end.

Fixpoint digits_value (radix : N) (s : string) (acc : N) : option N :=
  match s with
  | "" => Some acc
  | String c s' =>
      match to_digit radix c with
      | Some d => digits_value radix s' (radix * acc + d)%N
      | None => None
      end
  end.

(** [i64::from_str_radix] of the Rust standard library: optional sign, at least one digit,
    value within the i64 range; [None] is the error on which [unwrap] panics. *)
Definition i64_from_str_radix (radix : N) (s : string) : option Z :=
  let '(neg, ds) :=
    match s with
    | String "-" t => (true, t)
    | String "+" t => (false, t)
    | _ => (false, s)
    end in
  match ds with
  | "" => None
  | _ =>
      match digits_value radix ds 0 with
      | Some v =>
          let z := if (neg : bool) then (- Z.of_N v)%Z else Z.of_N v in
          if ((- 2 ^ 63 <=? z) && (z <? 2 ^ 63))%Z then Some z else None
      | None => None
      end
  end.

(** [s.trim_start_matches("0x")] of the Rust standard library. *)
Fixpoint trim_0x (s : string) : string :=
  match s with
  | String "0" (String "x" s') => trim_0x s'
  | _ => s
  end.

(** src/lexer.rs:229-272 [lex_number]. *)
Definition lex_number (s : string) : res (token * string) :=
  let* (value, is_hex, is_float, rest) := lex_number_loop s false false in
  if (is_hex : bool) then
    match i64_from_str_radix 16 (trim_0x value) with
    | Some z => Ok (TLit (IntLit z), rest)
    | None => Panic
    end
  else if (is_float : bool) then
    match parse_f64 value with
    | Some x => Ok (TLit (NumberLit x), rest)
    | None => Panic
    end
  else
    match i64_from_str_radix 10 value with
    | Some z => Ok (TLit (IntLit z), rest)
    | None => Panic
    end.

(** src/lexer.rs:59-88, the main loop of [Lexer::tokenize].  [fuel] bounds the number of
    iterations. *)
Fixpoint lex_loop (fuel : nat) (s : string) : res (list token) :=
  match fuel with
  | O => NoFuel
  | S fuel' =>
      match s with
      | "" => Ok [TEOF]
      | String ch s' =>
          if is_char_id ch true then
            let* (t, rest) := lex_id s in
            let* ts := lex_loop fuel' rest in Ok (t :: ts)
          else if Ascii.eqb ch quote then
            let* (t, rest) := lex_string s in
            let* ts := lex_loop fuel' rest in Ok (t :: ts)
          else if is_char_number ch then
            let* (t, rest) := lex_number s in
            let* ts := lex_loop fuel' rest in Ok (t :: ts)
          else if Ascii.eqb ch " " || Ascii.eqb ch lf || Ascii.eqb ch cr then lex_loop fuel' s'
          else if Ascii.eqb ch "/" then
            match s' with
            | String "/" _ => lex_loop fuel' (lex_single_line_comment s')
            | String "*" _ => lex_loop fuel' (lex_multi_line_comment s')
            | _ =>
                let* ts := lex_loop fuel' (advance s') in
                Ok (TSym "/" :: TSym ch :: ts)
            end
          else
            let* ts := lex_loop fuel' s' in Ok (TSym ch :: ts)
      end
  end.

(** src/lexer.rs:55-95 [Lexer::tokenize]; the token list of the result.  Every iteration of the
    loop consumes at least one byte, so the number of bytes plus one is enough fuel. *)
Definition tokenize (data : string) : res (list token) := lex_loop (S (String.length data)) data.

(** src/lexer.rs:23-28 [struct Lexer], its cursor and tokens. *)
Record lexer := mk_lexer { lx_cursor : nat; lx_tokens : list token }.

(** src/lexer.rs:117-123 [current_token]: beyond the end, the last token.  [last] defaults to
    [TEOF], but the list is never empty (the [unwrap] never fails, theorem [tokenize_eof]). *)
Definition current_token (l : lexer) : token :=
  if Nat.leb (List.length (lx_tokens l)) (lx_cursor l) then last (lx_tokens l) TEOF
  else nth (lx_cursor l) (lx_tokens l) TEOF.

(** src/lexer.rs:112-115 [next_token], the new state. *)
Definition next_token (l : lexer) : lexer := mk_lexer (S (lx_cursor l)) (lx_tokens l).

(** The parser model works on the suffix of the token list at the cursor; lemma
    [current_token_suffix] in LexProofs.v shows that [cur] and [nxt] on suffixes are
    [current_token] and [next_token] for every list that ends with [TEOF]. *)
Definition cur (ts : list token) : token :=
  match ts with
  | [] => TEOF
  | t :: _ => t
  end.
Definition nxt (ts : list token) : list token := tl ts.

(** src/lexer.rs:97-110 [next_fn_poisition].  [registered_fn_positions] is always empty (it is
    only ever assigned [vec![]], line 92), so the [while] loop never runs.  The u32 counter is
    an unbounded [N]: a schema with 2^32 methods is outside the model. *)
Definition next_fn_position (last : N) : N * N := (last, (last + 1)%N).
