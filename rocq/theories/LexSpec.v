(** Specification of the lexical syntax, written independently of Lexer.v: character classes by
    code, words, number spellings with positional value, strings, blanks and comments, and the
    relation [reads s ts r]: the text [s] starts with a spelling of the tokens [ts], laid out
    with blanks, and [r] is the text after it. *)
Require Import Coq.Strings.String Coq.Strings.Ascii.
Require Import Coq.NArith.NArith Coq.ZArith.ZArith Coq.Lists.List Coq.Bool.Bool.
Require Import Verif.F64 Verif.Ast.
Import ListNotations.
Local Open Scope string_scope.

Definition code_in (lo hi : N) (c : ascii) : bool :=
  ((lo <=? N_of_ascii c) && (N_of_ascii c <=? hi))%N.

Definition digitb (c : ascii) : bool := code_in 48 57 c.
Definition hexb (c : ascii) : bool := code_in 48 57 c || code_in 65 70 c.
Definition word_startb (c : ascii) : bool :=
  code_in 65 90 c || code_in 97 122 c || Ascii.eqb c "_".
Definition word_charb (c : ascii) : bool := word_startb c || digitb c.
Definition line_endb (c : ascii) : bool := code_in 10 10 c || code_in 13 13 c.
Definition quoteb (c : ascii) : bool := code_in 34 34 c.
Definition blankb (c : ascii) : bool := Ascii.eqb c " " || line_endb c.

Fixpoint all_chars (p : ascii -> bool) (s : string) : bool :=
  match s with
  | "" => true
  | String c s' => p c && all_chars p s'
  end.

Definition is_word (w : string) : bool :=
  match w with
  | "" => false
  | String c r => word_startb c && all_chars word_charb r
  end.

(** The reserved words and the token each one stands for. *)
Definition reserved : list (string * token) :=
  [("struct", TStruct); ("enum", TEnum); ("fn", TFn); ("read", TRead); ("async", TAsync);
   ("const", TConst); ("true", TLit (BoolLit true)); ("false", TLit (BoolLit false))].

Inductive word_token (w : string) : token -> Prop :=
| wt_reserved : forall t, In (w, t) reserved -> word_token w t
| wt_name : (forall t, ~ In (w, t) reserved) -> word_token w (TId w).

(** [digits_of isd raw ds]: [raw] is the digits [ds], possibly with single underscores between
    digits. *)
Inductive digits_of (isd : ascii -> bool) : string -> string -> Prop :=
| do_one : forall c, isd c = true -> digits_of isd (String c "") (String c "")
| do_cons : forall c raw ds, isd c = true -> digits_of isd raw ds ->
    digits_of isd (String c raw) (String c ds)
| do_under : forall c raw ds, isd c = true -> digits_of isd raw ds ->
    digits_of isd (String c (String "_" raw)) (String c ds).

Definition digit_weight (c : ascii) : N :=
  if digitb c then (N_of_ascii c - 48)%N else (N_of_ascii c - 55)%N.

(** Positional value of a digit string. *)
Fixpoint positional (radix : N) (ds : string) : N :=
  match ds with
  | "" => 0
  | String c s => digit_weight c * radix ^ N.of_nat (String.length s) + positional radix s
  end.

Inductive int_spelling : string -> N -> Prop :=
| is_dec : forall raw ds, digits_of digitb raw ds -> int_spelling raw (positional 10 ds)
| is_hex : forall raw ds, digits_of hexb raw ds -> int_spelling ("0x" ++ raw) (positional 16 ds).

(** A float literal [a.b]: digits, a point, and possibly more digits. *)
Inductive float_spelling : string -> string -> string -> Prop :=
| fs_int : forall raw a, digits_of digitb raw a -> float_spelling (raw ++ ".") a ""
| fs_frac : forall raw a raw2 b, digits_of digitb raw a -> digits_of digitb raw2 b ->
    float_spelling (raw ++ "." ++ raw2) a b.

(** Characters that stand for themselves as a symbol token. *)
Definition symbolb (c : ascii) : bool :=
  negb (word_startb c || digitb c || quoteb c || blankb c || Ascii.eqb c "/").

(** [spells w t stop]: the text [w] is a spelling of the token [t]; the text after it must not
    start with a character on which [stop] is true. *)
Inductive spells : string -> token -> (ascii -> bool) -> Prop :=
| sp_word : forall w t, is_word w = true -> word_token w t -> spells w t word_charb
| sp_dec : forall raw ds, digits_of digitb raw ds -> (positional 10 ds < 2 ^ 63)%N ->
    spells raw (TLit (IntLit (Z.of_N (positional 10 ds))))
           (fun c => digitb c || Ascii.eqb c "_" || Ascii.eqb c "." || Ascii.eqb c "x")
| sp_hex : forall raw ds, digits_of hexb raw ds -> (positional 16 ds < 2 ^ 63)%N ->
    spells ("0x" ++ raw) (TLit (IntLit (Z.of_N (positional 16 ds))))
           (fun c => hexb c || Ascii.eqb c "_")
| sp_float : forall raw a b, float_spelling raw a b ->
    spells raw (TLit (NumberLit (f64_of_dec (positional 10 (a ++ b))
                                            (- Z.of_nat (String.length b)))))
           (fun c => digitb c || Ascii.eqb c "_")
| sp_string : forall s, all_chars (fun c => negb (quoteb c)) s = true ->
    spells (String """" (s ++ """")) (TLit (StringLit s)) (fun _ => false)
| sp_symbol : forall c, symbolb c = true -> spells (String c "") (TSym c) (fun _ => false).

Definition stops (stop : ascii -> bool) (s : string) : Prop :=
  match s with
  | "" => True
  | String c _ => stop c = false
  end.

(** The text inside a block comment as the tool reads it, the opening star included: characters
    other than a star, or a star together with the character after it if that is not a slash. *)
Inductive comment_body : string -> Prop :=
| cb_nil : comment_body ""
| cb_char : forall c s, c <> "*"%char -> comment_body s -> comment_body (String c s)
| cb_star : forall c s, c <> "/"%char -> comment_body s -> comment_body (String "*" (String c s)).

(** Text that stands for nothing: a blank, a line comment with its line end, a block comment. *)
Inductive blank : string -> Prop :=
| bl_char : forall c, blankb c = true -> blank (String c "")
| bl_line : forall b c, all_chars (fun c => negb (line_endb c)) b = true -> line_endb c = true ->
    blank ("//" ++ b ++ String c "")
| bl_block : forall b, comment_body (String "*" b) -> blank ("/*" ++ b ++ "*/")
| bl_slash_star_slash : blank "/*/".

Inductive reads : string -> list token -> string -> Prop :=
| rd_nil : forall s, reads s [] s
| rd_blank : forall b s ts r, blank b -> reads s ts r -> reads (b ++ s) ts r
| rd_token : forall w t stop s ts r, spells w t stop -> stops stop s -> reads s ts r ->
    reads (w ++ s) (t :: ts) r.

(** A comment that reaches the end of the text. *)
Inductive open_comment : string -> Prop :=
| oc_line : forall b, all_chars (fun c => negb (line_endb c)) b = true -> open_comment ("//" ++ b)
| oc_block : forall b, comment_body (String "*" b) -> open_comment ("/*" ++ b)
| oc_block_star : forall b, comment_body (String "*" b) -> open_comment ("/*" ++ b ++ "*")
| oc_block_empty : open_comment "/*".
