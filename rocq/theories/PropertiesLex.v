(** Property theorems about the lexer: C01 - C07.  After each theorem, a concrete case that meets
    its hypotheses, and its axioms. *)
Require Import Coq.Strings.String Coq.Strings.Ascii.
Require Import Coq.NArith.NArith Coq.ZArith.ZArith Coq.Lists.List Coq.Bool.Bool Coq.micromega.Lia.
Require Import Verif.Base Verif.F64 Verif.Ast Verif.Lexer Verif.LexSpec Verif.LexProofs Verif.LexMore.
Require Import Verif.LexFacts.
Import ListNotations.
Local Open Scope string_scope.

(** ** C01 *)
Theorem C01_tokenize_finishes : forall s, tokenize s <> NoFuel.
Proof. exact lem_C01_tokenize_finishes. Qed.
Example C01_finishes_case : tokenize "struct A /* open" = Ok [TStruct; TId "A"; TEOF].
Proof.
  reflexivity.
Qed.
Print Assumptions C01_tokenize_finishes.

Theorem C01_one_eof_at_the_end : forall s ts, tokenize s = Ok ts ->
  exists us, ts = (us ++ [TEOF])%list /\ ~ In TEOF us.
Proof. exact lem_C01_one_eof_at_the_end. Qed.
Example C01_one_eof_case : tokenize "a<b>;" = Ok [TId "a"; TSym "<"; TId "b"; TSym ">"; TSym ";"; TEOF].
Proof.
  reflexivity.
Qed.
Print Assumptions C01_one_eof_at_the_end.

Theorem C01_reading_past_the_end : forall s ts n, tokenize s = Ok ts ->
  current_token (after n (mk_lexer 0 ts)) = nth n ts TEOF.
Proof. exact lem_C01_reading_past_the_end. Qed.
Example C01_reading_past_case :
  current_token (after 7 (mk_lexer 0 [TId "a"; TEOF])) = TEOF
  /\ current_token (after 0 (mk_lexer 0 [TId "a"; TEOF])) = TId "a".
Proof.
  split; reflexivity.
Qed.
Print Assumptions C01_reading_past_the_end.

(** ** C02 *)
Theorem C02_layout_is_irrelevant : forall s ts, reads s ts "" ->
  tokenize s = Ok (ts ++ [TEOF])%list.
Proof. exact lem_C02_layout_is_irrelevant. Qed.

Theorem C02_layout_then_anything : forall s ts r, reads s ts r ->
  tokenize s = let* us := tokenize r in Ok (ts ++ us)%list.
Proof. exact lem_C02_layout_then_anything. Qed.

(** Two layouts of the same tokens cannot be told apart. *)
Theorem C02_same_tokens_same_stream : forall s s' ts, reads s ts "" -> reads s' ts "" ->
  tokenize s = tokenize s'.
Proof. exact lem_C02_same_tokens_same_stream. Qed.

(** A word, layout with a line comment and a block comment, a number, a symbol. *)
Example C02_case : reads ("foo" ++ "// x" ++ nl ++ "/* y */" ++ "0xFF" ++ ";")
  [TId "foo"; TLit (IntLit 255); TSym ";"] "".
Proof.
  apply (rd_token "foo" (TId "foo") word_charb).
  { apply sp_word; [reflexivity|].
  apply wt_name.
  cbn.
  intuition discriminate.
  }
  { reflexivity.
  }
  apply (rd_blank ("//" ++ " x" ++ nl) ("/* y */0xFF;")).
  { apply (bl_line " x" (ascii_of_nat 10)); reflexivity.
  }
  apply (rd_blank ("/*" ++ " y " ++ "*/") "0xFF;").
  { apply bl_block.
  apply (cb_star " "); [discriminate|].
  repeat (constructor; try discriminate).
  }
  apply (rd_token ("0x" ++ "FF") (TLit (IntLit 255)) hex_stop).
  { apply (sp_hex "FF" "FF"); [|reflexivity].
  repeat (constructor; try reflexivity).
  }
  { reflexivity.
  }
  apply (rd_token ";" (TSym ";") (fun _ => false)).
  { apply sp_symbol.
  reflexivity.
  }
  { exact I.
  }
  apply rd_nil.
Qed.
Print Assumptions C02_layout_is_irrelevant.
Print Assumptions C02_layout_then_anything.
Print Assumptions C02_same_tokens_same_stream.

(** ** C03 *)
(** A comment whose text has no star and does not start with a slash disappears. *)
Theorem C03_plain_comment_disappears : forall c b rest,
  c <> "/"%char -> c <> "*"%char -> no_star b = true ->
  tokenize ("/*" ++ String c b ++ "*/" ++ rest) = tokenize rest.
Proof. exact lem_C03_plain_comment_disappears. Qed.
Example C03_plain_case : tokenize ("/*" ++ " struct A;" ++ "*/" ++ "enum") = Ok [TEnum; TEOF].
Proof.
  reflexivity.
Qed.

(** Exactly which texts are read as closed: the decomposition always exists and decides. *)
Theorem C03_comment_decides : forall s,
  (exists b rest, s = b ++ "*/" ++ rest /\ comment_body (String "*" b)
                  /\ tokenize ("/*" ++ s) = tokenize rest)
  \/ (exists rest, s = String "/" rest /\ tokenize ("/*" ++ s) = tokenize rest)
  \/ (open_comment ("/*" ++ s) /\ tokenize ("/*" ++ s) = Ok [TEOF]).
Proof. exact lem_C03_comment_decides. Qed.

(** Extra stars before the closing slash: an odd number closes the comment, an even number does
    not, and then the rest of the file up to a later closing mark is swallowed. *)
Theorem C03_odd_stars_close : forall c b k rest,
  c <> "/"%char -> c <> "*"%char -> no_star b = true ->
  tokenize ("/*" ++ String c b ++ stars (2 * k + 1) ++ "/" ++ rest) = tokenize rest.
Proof. exact lem_C03_odd_stars_close. Qed.

Theorem C03_even_stars_do_not_close : forall c b k rest,
  c <> "/"%char -> c <> "*"%char -> no_star b = true -> no_star rest = true ->
  tokenize ("/*" ++ String c b ++ stars (2 * k) ++ "/" ++ rest) = Ok [TEOF].
Proof. exact lem_C03_even_stars_do_not_close. Qed.

(** The shortest comment is not closed: everything after it is swallowed without an error. *)
Theorem C03_empty_comment_swallows : forall rest, no_star rest = true ->
  tokenize ("/**/" ++ rest) = Ok [TEOF].
Proof. exact lem_C03_empty_comment_swallows. Qed.
Example C03_stars_case :
  tokenize "/* a ***/ fn" = Ok [TFn; TEOF] /\ tokenize "/* a **/ fn" = Ok [TEOF]
  /\ tokenize "/**/ fn" = Ok [TEOF] /\ tokenize "/*/ fn" = Ok [TFn; TEOF].
Proof.
  repeat split.
Qed.
Print Assumptions C03_plain_comment_disappears.
Print Assumptions C03_comment_decides.
Print Assumptions C03_odd_stars_close.
Print Assumptions C03_even_stars_do_not_close.
Print Assumptions C03_empty_comment_swallows.

(** ** C04 *)
Theorem C04_words : forall w t s, is_word w = true -> word_token w t -> stops word_charb s ->
  tokenize (w ++ s) = let* us := tokenize s in Ok (t :: us).
Proof. exact lem_C04_words. Qed.

(** Every word has exactly one token. *)
Theorem C04_word_token_unique : forall w, exists t, word_token w t /\ forall u, word_token w u -> u = t.
Proof. exact lem_C04_word_token_unique. Qed.
Example C04_case : is_word "structs_1" = true /\ word_token "structs_1" (TId "structs_1")
  /\ word_token "async" TAsync /\ stops word_charb "<T>".
Proof.
  repeat split.
  - apply wt_name.
  cbn.
  intuition discriminate.
  - apply wt_reserved.
  cbn.
  intuition.
Qed.
Print Assumptions C04_words.
Print Assumptions C04_word_token_unique.

(** ** C05 *)
Theorem C05_integer_literals : forall raw n s, int_spelling raw n ->
  stops (fun c => word_charb c || Ascii.eqb c ".") s ->
  tokenize (raw ++ s) =
  if (n <? 2 ^ 63)%N then let* us := tokenize s in Ok (TLit (IntLit (Z.of_N n)) :: us) else Panic.
Proof. exact lem_C05_integer_literals. Qed.

(** Whatever the source text: integer literals are in the range of a 64-bit integer, and they are
    not negative unless an underscore is directly followed by a minus sign somewhere. *)
Theorem C05_literals_in_range : forall s ts z, tokenize s = Ok ts -> In (TLit (IntLit z)) ts ->
  (- 2 ^ 63 <= z < 2 ^ 63)%Z.
Proof. exact lem_C05_literals_in_range. Qed.

Theorem C05_literals_not_negative : forall s ts z, has_under_minus s = false ->
  tokenize s = Ok ts -> In (TLit (IntLit z)) ts -> (0 <= z)%Z.
Proof. exact lem_C05_literals_not_negative. Qed.

(** Without that condition the claim is false. *)
Theorem C05_literals_not_negative_refuted : exists s ts z, tokenize s = Ok ts
  /\ In (TLit (IntLit z)) ts /\ (z < 0)%Z.
Proof. exact lem_C05_literals_not_negative_refuted. Qed.
Example C05_case :
  int_spelling "1_000" 1000 /\ int_spelling ("0x" ++ "7FFF_FFFF") 2147483647
  /\ stops (fun c => word_charb c || Ascii.eqb c ".") "]".
Proof.
  split; [|split; [|reflexivity]].
  - apply (is_dec "1_000" "1000").
  apply do_under; [reflexivity|].
  do 2 (apply do_cons; [reflexivity|]).
  now apply do_one.
  - apply (is_hex "7FFF_FFFF" "7FFFFFFF").
  do 3 (apply do_cons; [reflexivity|]).
  apply do_under; [reflexivity|].
  do 3 (apply do_cons; [reflexivity|]).
  now apply do_one.
Qed.
Example C05_limits :
  tokenize "9223372036854775807" = Ok [TLit (IntLit 9223372036854775807); TEOF]
  /\ tokenize "9223372036854775808" = Panic
  /\ tokenize "0x8000_0000_0000_0000" = Panic.
Proof.
  repeat split.
Qed.
Print Assumptions C05_integer_literals.
Print Assumptions C05_literals_in_range.
Print Assumptions C05_literals_not_negative.
Print Assumptions C05_literals_not_negative_refuted.

(** ** C06 *)
Theorem C06_string_literals : forall v s, all_chars (fun c => negb (quoteb c)) v = true ->
  tokenize (String """" (v ++ """") ++ s) = let* us := tokenize s in Ok (TLit (StringLit v) :: us).
Proof. exact lem_C06_string_literals. Qed.

Theorem C06_unclosed_string_is_rejected : forall v, all_chars (fun c => negb (quoteb c)) v = true ->
  tokenize (String """" v) = Panic.
Proof. exact lem_C06_unclosed_string_is_rejected. Qed.

(** In a generated file the text of a literal appears byte for byte as written iff it is ASCII;
    otherwise it becomes longer. *)
Theorem C06_bytes_survive_iff_ascii : forall v,
  utf8_encode v = v <-> all_chars asciib v = true.
Proof. exact lem_C06_bytes_survive_iff_ascii. Qed.

Theorem C06_encoding_is_local : forall a v b,
  utf8_encode (a ++ v ++ b) = utf8_encode a ++ utf8_encode v ++ utf8_encode b.
Proof. exact lem_C06_encoding_is_local. Qed.
Example C06_case : tokenize "#""a b""" = Ok [TSym "#"; TLit (StringLit "a b"); TEOF]
  /\ utf8_encode (String "233" "") = String "195" (String "169" "").
Proof.
  split; reflexivity.
Qed.
Print Assumptions C06_string_literals.
Print Assumptions C06_unclosed_string_is_rejected.
Print Assumptions C06_bytes_survive_iff_ascii.
Print Assumptions C06_encoding_is_local.

Theorem C07_tab_is_a_symbol : forall s ts r, reads s ts (String tab r) ->
  tokenize s = let* us := tokenize r in Ok (ts ++ TSym tab :: us)%list.
Proof. exact lem_C07_tab_is_a_symbol. Qed.

Theorem C07_lone_slash : forall s ts c r, reads s ts (String "/" (String c r)) ->
  c <> "/"%char -> c <> "*"%char ->
  tokenize s = let* us := tokenize r in Ok (ts ++ TSym "/" :: TSym "/" :: us)%list.
Proof. exact lem_C07_lone_slash. Qed.

Theorem C07_slash_at_the_end : forall s ts, reads s ts "/" ->
  tokenize s = Ok (ts ++ [TSym "/"; TSym "/"; TEOF])%list.
Proof. exact lem_C07_slash_at_the_end. Qed.
Example C07_case : reads (String tab "a/b") [] (String tab "a/b")
  /\ tokenize (String tab "a/bc") = Ok [TSym tab; TId "a"; TSym "/"; TSym "/"; TId "c"; TEOF].
Proof.
  split; [constructor|reflexivity].
Qed.
Print Assumptions C07_tab_is_a_symbol.
Print Assumptions C07_lone_slash.
Print Assumptions C07_slash_at_the_end.
