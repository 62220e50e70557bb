(** Property theorems about the parser: C07 - C14, and C45 on float literals.  After each theorem,
    a concrete case that meets its hypotheses, and its axioms. *)
Require Import Coq.Strings.String Coq.Strings.Ascii.
Require Import Coq.NArith.NArith Coq.ZArith.ZArith Coq.QArith.QArith Coq.Lists.List Coq.Logic.FinFun Coq.Bool.Bool Coq.micromega.Lia.
Require Import Verif.Base Verif.F64 Verif.F64Spec Verif.F64Proofs Verif.NumText Verif.Ast Verif.Lexer
  Verif.LexSpec Verif.LexProofs Verif.LexMore Verif.LexFacts Verif.Parser Verif.Grammar Verif.GrammarMore
  Verif.ParseProofs Verif.Printer Verif.PrintProofs Verif.Positions Verif.TextPrinter Verif.Names.
Require Import Verif.ParseFacts.
Import ListNotations.
Local Open Scope string_scope.
Local Open Scope list_scope.

Theorem C07_foreign_symbol : forall s ts l c, tokenize s = Ok ts -> parse ts = Ok l ->
  In (TSym c) ts -> ~ In c language_symbols -> stands_for_parenthesis (TSym c) ts.
Proof. exact lem_C07_foreign_symbol. Qed.
Example C07_foreign_case :
  match tokenize ("#[rust(use = ""x""" ++ String tab "]") with
  | Ok ts => In (TSym tab) ts /\ parse ts = Ok [NDirective (DirGroup "rust" [mk_id_value "use" (ConstLiteral (StringLit "x") (TyOther "String"))])]
  | _ => False
  end.
Proof.
  split; [cbn; tauto|reflexivity].
Qed.
Print Assumptions C07_foreign_symbol.

(** Without a directive group, a schema with a tab between tokens is rejected. *)
Theorem C07_tab_is_rejected : forall s ts, tokenize s = Ok ts -> In (TSym tab) ts ->
  ~ In (TSym "(") ts -> parse ts = Panic.
Proof. exact lem_C07_tab_is_rejected. Qed.
Example C07_tab_case :
  match tokenize ("struct" ++ String tab "A;") with
  | Ok ts => In (TSym tab) ts /\ parse ts = Panic
  | _ => False
  end.
Proof.
  split; [cbn; tauto|reflexivity].
Qed.
Print Assumptions C07_tab_is_rejected.

(** The unrestricted claim fails: see the case after [C07_foreign_symbol]. *)
Theorem C07_tab_is_rejected_refuted : exists s ts l,
  tokenize s = Ok ts /\ In (TSym tab) ts /\ parse ts = Ok l.
Proof. exact lem_C07_tab_is_rejected_refuted. Qed.
Print Assumptions C07_tab_is_rejected_refuted.

(** ** C08 *)
Theorem C08_parse_finishes : forall ts, parse ts <> NoFuel.
Proof. exact lem_C08_parse_finishes. Qed.

Theorem C08_front_end_finishes : forall src, compile_front src <> NoFuel.
Proof. exact lem_C08_front_end_finishes. Qed.
Example C08_case : parse [TStruct; TId "A"; TSym "{"] = Panic
  /\ compile_front "fn f(a: Vec<Vec<i32>>) -> i64;" <> NoFuel /\ compile_front "struct" = Panic.
Proof.
  repeat split; discriminate.
Qed.
Print Assumptions C08_parse_finishes.
Print Assumptions C08_front_end_finishes.

(** ** C09 *)
Theorem C09_tokens_round_trip : forall st l, wf_schema 0 l -> parse (print_schema st l) = Ok l.
Proof. exact lem_C09_tokens_round_trip. Qed.

Theorem C09_text_round_trip : forall b st l, separator b -> wf_schema 0 l ->
  Forall is_name (schema_names l) -> Forall writable_literal (schema_literals l) ->
  compile_front (schema_text b st l) = Ok l.
Proof. exact lem_C09_text_round_trip. Qed.

(** Whatever was accepted is well-formed, so any accepted schema can be printed and read again. *)
Theorem C09_accepted_is_printable : forall ts l st, parse ts = Ok l ->
  wf_schema 0 l /\ parse (print_schema st l) = Ok l.
Proof. exact lem_C09_accepted_is_printable. Qed.

(** The same for texts.  Negative integers and overflowing floats can be read from odd spellings
    but have no spelling in the language. *)
Theorem C09_reformat : forall src l b st, compile_front src = Ok l -> separator b ->
  (forall z, In (IntLit z) (schema_literals l) -> (0 <= z)%Z) ->
  ~ In (NumberLit F64Inf) (schema_literals l) ->
  compile_front (schema_text b st l) = Ok l.
Proof. exact lem_C09_reformat. Qed.
Example C09_case_tokens : wf_schema 0 sample /\ parse (print_schema (mk_style false true) sample) = Ok sample.
Proof.
  split; [|reflexivity].
  eapply schema_wf.
  apply parse_iff_grammar.
  instantiate (1 := print_schema (mk_style true false) sample).
  reflexivity.
Qed.
Example C09_case_text :
  compile_front (schema_text (String (ascii_of_nat 10) "// note
 ") (mk_style true true) sample) = Ok sample.
Proof.
  vm_compute.
  reflexivity.
Qed.
Example C09_case_names : Forall is_name (schema_names sample) /\ Forall writable_literal (schema_literals sample)
  /\ separator (String (ascii_of_nat 10) "// note
 ").
Proof.
  repeat split; try (repeat constructor; cbn; intuition (discriminate || lia); fail).
  apply (rd_blank (String (ascii_of_nat 10) "")); [now constructor|].
  apply (rd_blank ("//" ++ " note" ++ String (ascii_of_nat 10) "")); [now constructor|].
  apply (rd_blank " "); [now constructor|].
  apply rd_nil.
Qed.
Example C09_reformat_case :
  compile_front "struct A{#[0x1_0]a:Vec<i32>,}/*x*/const K{k:f32=1_0.50;}" =
  compile_front (schema_text " " (mk_style false false)
    [NStruct (mk_struct "A" [mk_struct_field 16 "a" (TyGeneric "Vec" [TyInteger "i32" 4 true])] true true);
     NConst (ConstNode "K" [ConstItemValue "k" (TyNumber "f32" 4) (ConstLiteral (NumberLit (F64Fin (21 * 2 ^ 48) (-49))) (TyNumber "f32" 4))])]).
Proof.
  vm_compute.
  reflexivity.
Qed.
Print Assumptions C09_tokens_round_trip.
Print Assumptions C09_text_round_trip.
Print Assumptions C09_accepted_is_printable.
Print Assumptions C09_reformat.

(** ** C10 *)
Theorem C10_exactly_the_grammar : forall ts l, parse ts = Ok l <-> schema_g 0 ts l.
Proof. exact lem_C10_exactly_the_grammar. Qed.

Theorem C10_everything_else_panics : forall ts, parse ts = Panic <-> forall l, ~ schema_g 0 ts l.
Proof. exact lem_C10_everything_else_panics. Qed.

Theorem C10_grammar_is_unambiguous : forall ts l l', schema_g 0 ts l -> schema_g 0 ts l' -> l = l'.
Proof. exact lem_C10_grammar_is_unambiguous. Qed.
Example C10_case :
  schema_g 0 [TStruct; TId "A"; TSym "{"; TId "x"; TSym ":"; TId "Map"; TSym "<"; TId "u8"; TSym ","; TSym "}"; TEOF]
           [NStruct (mk_struct "A" [mk_struct_field 0 "x" (TyOther "Map")] true true)]
  /\ parse [TStruct; TId "A"; TSym "{"; TId "x"; TSym ":"; TSym "}"; TEOF] = Panic.
Proof.
  split; [apply parse_iff_grammar|]; reflexivity.
Qed.
Print Assumptions C10_exactly_the_grammar.
Print Assumptions C10_everything_else_panics.
Print Assumptions C10_grammar_is_unambiguous.

Theorem C11_concatenation : forall us1 us2 l1 l2, ~ In TEOF us1 ->
  parse (us1 ++ [TEOF]) = Ok l1 -> parse (us2 ++ [TEOF]) = Ok l2 ->
  parse (us1 ++ us2 ++ [TEOF]) = Ok (l1 ++ renumber (N.of_nat (length (methods l1))) l2).
Proof. exact lem_C11_concatenation. Qed.

(** For texts: the second one on a new line. *)
Theorem C11_texts : forall s1 s2 us1 us2 l1 l2, reads s1 us1 "" -> reads s2 us2 "" ->
  compile_front s1 = Ok l1 -> compile_front s2 = Ok l2 ->
  compile_front (s1 ++ String (ascii_of_nat 10) s2)
    = Ok (l1 ++ renumber (N.of_nat (length (methods l1))) l2).
Proof. exact lem_C11_texts. Qed.
Example C11_case :
  let s1 := [TFn; TId "a"; TSym "("; TSym ")"; TSym ";"; TStruct; TId "S"; TSym ";"] in
  let s2 := [TRead; TId "b"; TSym ";"] in
  parse (s1 ++ s2 ++ [TEOF]) =
    Ok [NFn (mk_fn "a" 0 [] None false false); NStruct (mk_struct "S" [] true true);
        NFn (mk_fn "b" 1 [] None true false)].
Proof.
  reflexivity.
Qed.
Example C11_texts_case :
  compile_front ("fn a();" ++ String (ascii_of_nat 10) "read b;")
  = Ok [NFn (mk_fn "a" 0 [] None false false); NFn (mk_fn "b" 1 [] None true false)].
Proof.
  reflexivity.
Qed.
Print Assumptions C11_concatenation.
Print Assumptions C11_texts.

Theorem C12_method_numbers : forall ts l, parse ts = Ok l ->
  map fn_position (methods l) = map N.of_nat (seq 0 (length (methods l))).
Proof. exact lem_C12_method_numbers. Qed.

Theorem C12_method_numbers_distinct : forall ts l, parse ts = Ok l ->
  NoDup (map fn_position (methods l)).
Proof. exact lem_C12_method_numbers_distinct. Qed.
Example C12_case :
  match compile_front "read a; struct S; async fn b(); fn c(x: S) -> S; async read d -> S;" with
  | Ok l => map (fun f => (fn_id f, fn_position f)) (methods l) = [("a", 0); ("b", 1); ("c", 2); ("d", 3)]%N
  | _ => False
  end.
Proof.
  reflexivity.
Qed.
Print Assumptions C12_method_numbers.
Print Assumptions C12_method_numbers_distinct.

Theorem C13_struct : forall tr n l, l <> [] -> Forall (fun x => wf_type (snd (snd x))) l ->
  exists o, position_rule (map fst l) o
  /\ parse (write_struct tr n l) =
     match o with
     | Some ps => Ok [NStruct (mk_struct n (map field_of (combine ps (map snd l))) true true)]
     | None => Panic
     end.
Proof. exact lem_C13_struct. Qed.

Theorem C13_struct_variant : forall tr n v l, Forall (fun x => wf_type (snd (snd x))) l ->
  exists o, position_rule (map fst l) o
  /\ parse (write_struct_enum tr n v l) =
     match o with
     | Some ps => Ok [NEnum (mk_enum n [ItemStruct 0 v (map field_of (combine ps (map snd l)))])]
     | None => Panic
     end.
Proof. exact lem_C13_struct_variant. Qed.

Theorem C13_tuple_variant : forall tr n v l, Forall (fun x => wf_type (snd x)) l ->
  exists o, position_rule (map fst l) o
  /\ parse (write_tuple_enum tr n v l) =
     match o with
     | Some ps => Ok [NEnum (mk_enum n [ItemTuple 0 v (map tuple_field_of (combine ps (map snd l)))])]
     | None => Panic
     end.
Proof. exact lem_C13_tuple_variant. Qed.

Theorem C13_enum : forall st tr n l, l <> [] -> Forall (fun x => wf_item (snd x)) l ->
  exists o, position_rule (map fst l) o
  /\ parse (write_enum st tr n l) =
     match o with
     | Some ps => Ok [NEnum (mk_enum n (map (fun x => item_at (snd x) (fst x)) (combine ps (map snd l))))]
     | None => Panic
     end.
Proof. exact lem_C13_enum. Qed.

(** The rule determines the result. *)
Theorem C13_rule_is_functional : forall l o o', position_rule l o -> position_rule l o' -> o = o'.
Proof. exact lem_C13_rule_is_functional. Qed.

Theorem C13_every_list : forall ts l n ps, parse ts = Ok l -> In n l -> In ps (decl_lists n) ->
  (forall p, In p ps -> (p < 2 ^ 32)%N) \/ ps = map N.of_nat (seq 0 (length ps)).
Proof. exact lem_C13_every_list. Qed.
Example C13_struct_case :
  parse (write_struct false "S" [(Some 4294967301, ("a", TyBool "bool")); (Some (-1), ("b", TyOther "T"))]%Z)
  = Ok [NStruct (mk_struct "S" [mk_struct_field 5 "a" (TyBool "bool"); mk_struct_field 4294967295 "b" (TyOther "T")] true true)]
  /\ parse (write_struct false "S" [(Some 1, ("a", TyBool "bool")); (None, ("b", TyOther "T"))]%Z) = Panic
  /\ parse (write_struct true "S" [(None, ("a", TyBool "bool")); (None, ("b", TyOther "T"))]%Z)
     = Ok [NStruct (mk_struct "S" [mk_struct_field 0 "a" (TyBool "bool"); mk_struct_field 1 "b" (TyOther "T")] true true)].
Proof.
  repeat split.
Qed.
Example C13_enum_case :
  parse (write_enum (mk_style true false) true "E" [(Some 9, ItemEmpty 0 "A"); (Some 9, ItemTuple 0 "B" [mk_tuple_field 0 (TyBool "bool")])]%Z)
  = Ok [NEnum (mk_enum "E" [ItemEmpty 9 "A"; ItemTuple 9 "B" [mk_tuple_field 0 (TyBool "bool")]])]
  /\ parse (write_tuple_enum false "E" "V" [(None, TyBool "bool"); (Some 0, TyBool "bool")]%Z) = Panic
  /\ parse (write_struct_enum false "E" "V" [(Some 3, ("x", TyBool "bool"))]%Z)
     = Ok [NEnum (mk_enum "E" [ItemStruct 0 "V" [mk_struct_field 3 "x" (TyBool "bool")]])].
Proof.
  repeat split.
Qed.
Print Assumptions C13_struct.
Print Assumptions C13_struct_variant.
Print Assumptions C13_tuple_variant.
Print Assumptions C13_enum.
Print Assumptions C13_rule_is_functional.
Print Assumptions C13_every_list.

(** ** C14 *)
Theorem C14_enums_have_variants : forall ts l e, parse ts = Ok l -> In (NEnum e) l -> en_items e <> [].
Proof. exact lem_C14_enums_have_variants. Qed.

Theorem C14_empty_braces_are_rejected : forall n r,
  parse (TStruct :: TId n :: TSym "{" :: TSym "}" :: r) = Panic
  /\ parse (TEnum :: TId n :: TSym "{" :: TSym "}" :: r) = Panic.
Proof. exact lem_C14_empty_braces_are_rejected. Qed.

Theorem C14_types_are_sized : forall ts l n t, parse ts = Ok l -> In n l -> In t (decl_types n) -> sized t.
Proof. exact lem_C14_types_are_sized. Qed.

(** Every name in an accepted schema (type names also inside generics) is a word of the source that
    is not reserved. *)
Theorem C14_names_are_words : forall src ts l n, tokenize src = Ok ts -> parse ts = Ok l ->
  In n (schema_names l) -> In (TId n) ts /\ is_word n = true /\ forall u, ~ In (n, u) reserved.
Proof. exact lem_C14_names_are_words. Qed.

(** And every constant is a literal of the source. *)
Theorem C14_literals_are_from_the_source : forall ts l x, parse ts = Ok l ->
  In x (schema_literals l) -> In (TLit x) ts.
Proof. exact lem_C14_literals_are_from_the_source. Qed.
Example C14_case :
  match compile_front "enum E { A(Vec<Option<u64>>), B } const K { k: f64 = 2.5; }" with
  | Ok l => In (NEnum (mk_enum "E" [ItemTuple 0 "A" [mk_tuple_field 0 (TyGeneric "Vec" [TyGeneric "Option" [TyInteger "u64" 8 false]])]; ItemEmpty 1 "B"])) l
            /\ In "Option" (schema_names l) /\ In (NumberLit (F64Fin (5 * 2 ^ 50) (-51))) (schema_literals l)
            /\ In (TyNumber "f64" 8) (flat_map decl_types l)
  | _ => False
  end.
Proof.
  vm_compute.
  tauto.
Qed.
Print Assumptions C14_enums_have_variants.
Print Assumptions C14_empty_braces_are_rejected.
Print Assumptions C14_types_are_sized.
Print Assumptions C14_names_are_words.
Print Assumptions C14_literals_are_from_the_source.

(** ** C45 *)
(** A decimal literal with a point denotes the double nearest to the number written. *)
Theorem C45_float_literals : forall raw a b r us, float_spelling raw a b ->
  match r with "" => True | String c _ => digitb c = false /\ c <> "_"%char end ->
  tokenize r = Ok us ->
  exists x, tokenize (raw ++ r) = Ok (TLit (NumberLit x) :: us)
    /\ nearest (qN (positional 10 (a ++ b)) / qN (10 ^ N.of_nat (String.length b))) x.
Proof. exact lem_C45_float_literals. Qed.

Theorem C45_nearest_is_unique : forall q x y, nearest q x -> nearest q y -> x = y.
Proof. exact lem_C45_nearest_is_unique. Qed.
Example C45_case : tokenize "0.1;" = Ok [TLit (NumberLit (F64Fin 7205759403792794 (-56))); TSym ";"; TEOF]
  /\ float_spelling "0.1" "0" "1".
Proof.
  split; [vm_compute; reflexivity|].
  apply (fs_frac "0" "0" "1" "1"); apply do_one; reflexivity.
Qed.
Print Assumptions C45_float_literals.
Print Assumptions C45_nearest_is_unique.
