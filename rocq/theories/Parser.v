(** Model of src/parser.rs:4-717.

    A parser state is the suffix of the token list at the cursor ([cur], [nxt] of Lexer.v) and,
    where methods are parsed, the method counter.  [panic!] is [Panic].  Loops carry fuel; every
    function is called with the fuel that [parse] starts with.  Position counters ([u32]) are
    unbounded [N]. *)
Require Import Coq.Strings.String Coq.Strings.Ascii.
Require Import Coq.NArith.NArith Coq.ZArith.ZArith Coq.Lists.List Coq.Bool.Bool.
Require Import Verif.Base Verif.F64 Verif.Ast Verif.Lexer.
Import ListNotations.
Local Open Scope string_scope.

(** [*lexer.current_token() == Token::Symbol(c)]. *)
Definition is_sym (c : ascii) (ts : list token) : bool :=
  match cur ts with
  | TSym d => Ascii.eqb c d
  | _ => false
  end.

Notation toks := (list token).

(** [if let Token::ID { name } = lexer.current_token() { name.clone() } else { panic! }]. *)
Definition expect_id (ts : toks) : res string :=
  match cur ts with
  | TId name => Ok name
  | _ => Panic
  end.

(** [if *lexer.current_token() != Token::Symbol(c) { panic! }]. *)
Definition expect_sym (c : ascii) (ts : toks) : res unit :=
  if is_sym c ts then Ok tt else Panic.

(** src/parser.rs:381-417, the table of primitive names in [parse_type_id]. *)
Definition named_type (name : string) : type_id :=
  if String.eqb name "i8" then TyInteger name 1 true
  else if String.eqb name "i32" then TyInteger name 4 true
  else if String.eqb name "i64" then TyInteger name 8 true
  else if String.eqb name "u8" then TyInteger name 1 false
  else if String.eqb name "u32" then TyInteger name 4 false
  else if String.eqb name "u64" then TyInteger name 8 false
  else if String.eqb name "f32" then TyNumber name 4
  else if String.eqb name "f64" then TyNumber name 8
  else if String.eqb name "char" then TyChar name
  else if String.eqb name "bool" then TyBool name
  else TyOther name.

(** src/parser.rs:354-418 [parse_type_id]; [parse_generics] is the loop of lines 362-378, entered
    just before its [lexer.next_token()]. *)
Fixpoint parse_type_id (fuel : nat) (ts : toks) : res (type_id * toks) :=
  match fuel with
  | O => NoFuel
  | S f =>
      let* name := expect_id ts in
      let ts := nxt ts in
      if is_sym "<" ts then parse_generics f name [] ts
      else Ok (named_type name, ts)
  end
with parse_generics (fuel : nat) (name : string) (generics : list type_id) (ts : toks)
  : res (type_id * toks) :=
  match fuel with
  | O => NoFuel
  | S f =>
      let ts := nxt ts in
      match cur ts with
      | TId _ =>
          let* (ty, ts) := parse_type_id f ts in
          let generics := (generics ++ [ty])%list in
          if is_sym ">" ts then Ok (TyGeneric name generics, nxt ts)
          else if is_sym "," ts then parse_generics f name generics ts
          else Panic
      | _ => Ok (named_type name, ts)
      end
  end.

(** [as u32] of an i64 (src/parser.rs:647): reduction modulo 2^32. *)
Definition to_u32 (z : Z) : N := Z.to_N (z mod 2 ^ 32)%Z.

(** src/parser.rs:626-648 [parse_position]. *)
Definition parse_position (ts : toks) : res (N * toks) :=
  let* _ := expect_sym "#" ts in
  let ts := nxt ts in
  let* _ := expect_sym "[" ts in
  let ts := nxt ts in
  match cur ts with
  | TLit (IntLit z) =>
      let ts := nxt ts in
      let* _ := expect_sym "]" ts in
      Ok (to_u32 z, nxt ts)
  | _ => Panic
  end.

(** src/parser.rs:207-233 [parse_const_value]; does not move the cursor. *)
Definition parse_const_value (ts : toks) : res const_value :=
  match cur ts with
  | TLit l =>
      Ok (ConstLiteral l
            match l with
            | BoolLit _ => TyBool "bool"
            | StringLit _ => TyOther "String"
            | IntLit _ => TyInteger "i32" 4 true
            | NumberLit _ => TyNumber "f32" 4
            end)
  | _ => Panic
  end.

(** src/parser.rs:243-272 [parse_struct_parameters_without_positions], one loop iteration per
    fuel unit; [position] is the loop counter. *)
Fixpoint parse_struct_parameters_without_positions (fuel : nat) (position : N) (ts : toks)
  : res (list struct_field * toks) :=
  match fuel with
  | O => NoFuel
  | S f =>
      match cur ts with
      | TId name =>
          let ts := nxt ts in
          let* _ := expect_sym ":" ts in
          let ts := nxt ts in
          let* (ty, ts) := parse_type_id f ts in
          let field := mk_struct_field position name ty in
          if is_sym "," ts then
            let* (fields, ts) :=
              parse_struct_parameters_without_positions f (position + 1) (nxt ts) in
            Ok (field :: fields, ts)
          else Ok ([field], ts)
      | _ => Ok ([], ts)
      end
  end.

(** src/parser.rs:274-305 [parse_struct_parameters_with_positions]. *)
Fixpoint parse_struct_parameters_with_positions (fuel : nat) (ts : toks)
  : res (list struct_field * toks) :=
  match fuel with
  | O => NoFuel
  | S f =>
      if is_sym "#" ts then
        let* (position, ts) := parse_position ts in
        let* name := expect_id ts in
        let ts := nxt ts in
        let* _ := expect_sym ":" ts in
        let ts := nxt ts in
        let* (ty, ts) := parse_type_id f ts in
        let field := mk_struct_field position name ty in
        if is_sym "," ts then
          let* (fields, ts) := parse_struct_parameters_with_positions f (nxt ts) in
          Ok (field :: fields, ts)
        else Ok ([field], ts)
      else Ok ([], ts)
  end.

(** src/parser.rs:235-241 [parse_struct_parameters]. *)
Definition parse_struct_parameters (fuel : nat) (ts : toks) : res (list struct_field * toks) :=
  if is_sym "#" ts then parse_struct_parameters_with_positions fuel ts
  else parse_struct_parameters_without_positions fuel 0 ts.

(** src/parser.rs:315-332 [parse_tuple_parameters_with_positions]. *)
Fixpoint parse_tuple_parameters_with_positions (fuel : nat) (ts : toks)
  : res (list tuple_field * toks) :=
  match fuel with
  | O => NoFuel
  | S f =>
      if is_sym "#" ts then
        let* (position, ts) := parse_position ts in
        let* (ty, ts) := parse_type_id f ts in
        let field := mk_tuple_field position ty in
        if is_sym "," ts then
          let* (fields, ts) := parse_tuple_parameters_with_positions f (nxt ts) in
          Ok (field :: fields, ts)
        else Ok ([field], ts)
      else Ok ([], ts)
  end.

(** src/parser.rs:334-352 [parse_tuple_parameters_without_positions]. *)
Fixpoint parse_tuple_parameters_without_positions (fuel : nat) (position : N) (ts : toks)
  : res (list tuple_field * toks) :=
  match fuel with
  | O => NoFuel
  | S f =>
      match cur ts with
      | TId _ =>
          let* (ty, ts) := parse_type_id f ts in
          let field := mk_tuple_field position ty in
          if is_sym "," ts then
            let* (fields, ts) :=
              parse_tuple_parameters_without_positions f (position + 1) (nxt ts) in
            Ok (field :: fields, ts)
          else Ok ([field], ts)
      | _ => Ok ([], ts)
      end
  end.

(** src/parser.rs:307-313 [parse_tuple_parameters]. *)
Definition parse_tuple_parameters (fuel : nat) (ts : toks) : res (list tuple_field * toks) :=
  if is_sym "#" ts then parse_tuple_parameters_with_positions fuel ts
  else parse_tuple_parameters_without_positions fuel 0 ts.

(** src/parser.rs:165-184 [parse_struct_enum]. *)
Definition parse_struct_enum (fuel : nat) (position : N) (id : string) (ts : toks)
  : res (enum_item * toks) :=
  let* _ := expect_sym "{" ts in
  let ts := nxt ts in
  let* (fields, ts) := parse_struct_parameters fuel ts in
  let* _ := expect_sym "}" ts in
  Ok (ItemStruct position id fields, nxt ts).

(** src/parser.rs:186-205 [parse_tuple_enum]. *)
Definition parse_tuple_enum (fuel : nat) (position : N) (id : string) (ts : toks)
  : res (enum_item * toks) :=
  let* _ := expect_sym "(" ts in
  let ts := nxt ts in
  let* (values, ts) := parse_tuple_parameters fuel ts in
  let* _ := expect_sym ")" ts in
  Ok (ItemTuple position id values, nxt ts).

(** src/parser.rs:121-125 and 146-150, the item after its name. *)
Definition parse_enum_item (fuel : nat) (position : N) (name : string) (ts : toks)
  : res (enum_item * toks) :=
  if is_sym "(" ts then parse_tuple_enum fuel position name ts
  else if is_sym "{" ts then parse_struct_enum fuel position name ts
  else Ok (ItemEmpty position name, ts).

(** src/parser.rs:110-137 [parse_enum_items_with_positions], the items. *)
Fixpoint parse_enum_items_with_positions (fuel : nat) (ts : toks) : res (list enum_item * toks) :=
  match fuel with
  | O => NoFuel
  | S f =>
      if is_sym "#" ts then
        let* (position, ts) := parse_position ts in
        let* name := expect_id ts in
        let ts := nxt ts in
        let* (item, ts) := parse_enum_item f position name ts in
        if is_sym "," ts then
          let* (items, ts) := parse_enum_items_with_positions f (nxt ts) in
          Ok (item :: items, ts)
        else Ok ([item], ts)
      else Ok ([], ts)
  end.

(** src/parser.rs:139-163 [parse_enum_items_without_positions], the items. *)
Fixpoint parse_enum_items_without_positions (fuel : nat) (position : N) (ts : toks)
  : res (list enum_item * toks) :=
  match fuel with
  | O => NoFuel
  | S f =>
      match cur ts with
      | TId name =>
          let ts := nxt ts in
          let* (item, ts) := parse_enum_item f position name ts in
          if is_sym "," ts then
            let* (items, ts) := parse_enum_items_without_positions f (position + 1) (nxt ts) in
            Ok (item :: items, ts)
          else Ok ([item], ts)
      | _ => Ok ([], ts)
      end
  end.

(** src/parser.rs:102-108 [parse_enum_items]. *)
Definition parse_enum_items (fuel : nat) (id : string) (ts : toks) : res (ast_node * toks) :=
  let* (items, ts) :=
    if is_sym "#" ts then parse_enum_items_with_positions fuel ts
    else parse_enum_items_without_positions fuel 0 ts in
  Ok (NEnum (mk_enum id items), ts).

(** src/parser.rs:49-53 and 86-90: the token after the brace is '#' or an identifier. *)
Definition expect_hash_or_id (ts : toks) : res unit :=
  match cur ts with
  | TSym "#" => Ok tt
  | TId _ => Ok tt
  | _ => Panic
  end.

(** src/parser.rs:23-69 [parse_struct]; the test of lines 24-26 holds by the dispatch of [parse]. *)
Definition parse_struct (fuel : nat) (ts : toks) : res (ast_node * toks) :=
  match cur ts with
  | TStruct =>
      let ts := nxt ts in
      let* name := expect_id ts in
      let ts := nxt ts in
      if is_sym ";" ts then Ok (NStruct (mk_struct name [] true true), nxt ts)
      else
        let* _ := expect_sym "{" ts in
        let ts := nxt ts in
        let* _ := expect_hash_or_id ts in
        let* (parameters, ts) := parse_struct_parameters fuel ts in
        let* _ := expect_sym "}" ts in
        Ok (NStruct (mk_struct name parameters true true), nxt ts)
  | _ => Panic
  end.

(** src/parser.rs:71-100 [parse_enum]. *)
Definition parse_enum (fuel : nat) (ts : toks) : res (ast_node * toks) :=
  match cur ts with
  | TEnum =>
      let ts := nxt ts in
      let* name := expect_id ts in
      let ts := nxt ts in
      let* _ := expect_sym "{" ts in
      let ts := nxt ts in
      let* _ := expect_hash_or_id ts in
      let* (node, ts) := parse_enum_items fuel name ts in
      let* _ := expect_sym "}" ts in
      Ok (node, nxt ts)
  | _ => Panic
  end.

(** src/parser.rs:541-563 [parse_fn_args]. *)
Fixpoint parse_fn_args (fuel : nat) (ts : toks) : res (list fn_arg * toks) :=
  match fuel with
  | O => NoFuel
  | S f =>
      match cur ts with
      | TId id =>
          let ts := nxt ts in
          let* _ := expect_sym ":" ts in
          let ts := nxt ts in
          let* (ty, ts) := parse_type_id f ts in
          let arg := mk_fn_arg id ty in
          if is_sym "," ts then
            let* (args, ts) := parse_fn_args f (nxt ts) in Ok (arg :: args, ts)
          else Ok ([arg], ts)
      | _ => Ok ([], ts)
      end
  end.

(** src/parser.rs:465-479 and 515-529: "-> type ;". *)
Definition parse_return_type (fuel : nat) (ts : toks) : res (type_id * toks) :=
  let* _ := expect_sym "-" ts in
  let ts := nxt ts in
  let* _ := expect_sym ">" ts in
  let ts := nxt ts in
  let* (ty, ts) := parse_type_id fuel ts in
  let* _ := expect_sym ";" ts in
  Ok (ty, nxt ts).

(** src/parser.rs:430-489 [parse_fn]; [fp] is the method counter of the lexer. *)
Definition parse_fn (fuel : nat) (is_async : bool) (ts : toks) (fp : N)
  : res (ast_node * toks * N) :=
  match cur ts with
  | TFn =>
      let ts := nxt ts in
      let* id := expect_id ts in
      let ts := nxt ts in
      let* _ := expect_sym "(" ts in
      let ts := nxt ts in
      let* (args, ts) := parse_fn_args fuel ts in
      let* _ := expect_sym ")" ts in
      let ts := nxt ts in
      if is_sym ";" ts then
        let '(position, fp) := next_fn_position fp in
        Ok (NFn (mk_fn id position args None false is_async), nxt ts, fp)
      else
        let* (ty, ts) := parse_return_type fuel ts in
        let '(position, fp) := next_fn_position fp in
        Ok (NFn (mk_fn id position args (Some ty) false is_async), ts, fp)
  | _ => Panic
  end.

(** src/parser.rs:491-539 [parse_read]. *)
Definition parse_read (fuel : nat) (is_async : bool) (ts : toks) (fp : N)
  : res (ast_node * toks * N) :=
  match cur ts with
  | TRead =>
      let ts := nxt ts in
      let* id := expect_id ts in
      let ts := nxt ts in
      if is_sym ";" ts then
        let '(position, fp) := next_fn_position fp in
        Ok (NFn (mk_fn id position [] None true is_async), nxt ts, fp)
      else
        let* (ty, ts) := parse_return_type fuel ts in
        let '(position, fp) := next_fn_position fp in
        Ok (NFn (mk_fn id position [] (Some ty) true is_async), ts, fp)
  | _ => Panic
  end.

(** src/parser.rs:420-428 [parse_async]. *)
Definition parse_async (fuel : nat) (ts : toks) (fp : N) : res (ast_node * toks * N) :=
  let ts := nxt ts in
  match cur ts with
  | TFn => parse_fn fuel true ts fp
  | TRead => parse_read fuel true ts fp
  | _ => Panic
  end.

(** src/parser.rs:565-624 [parse_const]; [parse_const_items] is the loop of lines 580-615.  The
    test of line 617 fails exactly when the loop stopped at the end of the tokens. *)
Fixpoint parse_const (fuel : nat) (ts : toks) : res (const_node * toks) :=
  match fuel with
  | O => NoFuel
  | S f =>
      let ts := nxt ts in
      let* id := expect_id ts in
      let ts := nxt ts in
      let* _ := expect_sym "{" ts in
      let ts := nxt ts in
      let* (items, ts) := parse_const_items f ts in
      let* _ := expect_sym "}" ts in
      Ok (ConstNode id items, nxt ts)
  end
with parse_const_items (fuel : nat) (ts : toks) : res (list const_item * toks) :=
  match fuel with
  | O => NoFuel
  | S f =>
      match cur ts with
      | TSym "}" => Ok ([], ts)
      | TEOF => Ok ([], ts)
      | TConst =>
          let* (node, ts) := parse_const f ts in
          let* (items, ts) := parse_const_items f ts in
          Ok (ConstItemNode node :: items, ts)
      | TId id =>
          let ts := nxt ts in
          let* _ := expect_sym ":" ts in
          let ts := nxt ts in
          let* (ty, ts) := parse_type_id f ts in
          let* _ := expect_sym "=" ts in
          let ts := nxt ts in
          let* value := parse_const_value ts in
          let ts := nxt ts in
          let* _ := expect_sym ";" ts in
          let* (items, ts) := parse_const_items f (nxt ts) in
          Ok (ConstItemValue id ty value :: items, ts)
      | _ => Panic
      end
  end.

(** src/parser.rs:683-687 [parse_value_directive]. *)
Definition parse_value_directive (id : string) (ts : toks) : res (directive * toks) :=
  let ts := nxt ts in
  let* value := parse_const_value ts in
  Ok (DirValue id value, ts).

(** src/parser.rs:694-711, the loop of [parse_group_directive]. *)
Fixpoint parse_group_values (fuel : nat) (ts : toks) : res (list id_value * toks) :=
  match fuel with
  | O => NoFuel
  | S f =>
      match cur ts with
      | TId id =>
          let ts := nxt ts in
          let* _ := expect_sym "=" ts in
          let ts := nxt ts in
          let* value := parse_const_value ts in
          let ts := nxt ts in
          if is_sym "," ts then
            let* (values, ts) := parse_group_values f (nxt ts) in
            Ok (mk_id_value id value :: values, ts)
          else Ok ([mk_id_value id value], ts)
      | _ => Ok ([], ts)
      end
  end.

(** src/parser.rs:689-717 [parse_group_directive]. *)
Definition parse_group_directive (fuel : nat) (id : string) (ts : toks) : res (directive * toks) :=
  let* (values, ts) := parse_group_values fuel (nxt ts) in
  Ok (DirGroup id values, ts).

(** src/parser.rs:653-681 [parse_directive]. *)
Definition parse_directive (fuel : nat) (ts : toks) : res (ast_node * toks) :=
  let* _ := expect_sym "#" ts in
  let ts := nxt ts in
  let* _ := expect_sym "[" ts in
  let ts := nxt ts in
  let* id := expect_id ts in
  let ts := nxt ts in
  let* (directive, ts) :=
    if is_sym "=" ts then parse_value_directive id ts
    else if is_sym "(" ts then parse_group_directive fuel id ts
    else Panic in
  let ts := nxt ts in
  let* _ := expect_sym "]" ts in
  Ok (NDirective directive, nxt ts).

(** src/parser.rs:8-17, one declaration. *)
Definition parse_node (fuel : nat) (ts : toks) (fp : N) : res (ast_node * toks * N) :=
  let keep (r : res (ast_node * toks)) := let* (n, ts) := r in Ok (n, ts, fp) in
  match cur ts with
  | TStruct => keep (parse_struct fuel ts)
  | TEnum => keep (parse_enum fuel ts)
  | TAsync => parse_async fuel ts fp
  | TFn => parse_fn fuel false ts fp
  | TRead => parse_read fuel false ts fp
  | TConst => keep (let* (n, ts) := parse_const fuel ts in Ok (NConst n, ts))
  | TSym "#" => keep (parse_directive fuel ts)
  | _ => Panic
  end.

(** src/parser.rs:7-20, the main loop of [parse]; [inner] is the fuel handed to the functions
    called from it. *)
Fixpoint parse_loop (fuel inner : nat) (ts : toks) (fp : N) : res (list ast_node) :=
  match fuel with
  | O => NoFuel
  | S f =>
      match cur ts with
      | TEOF => Ok []
      | _ =>
          let* (node, ts, fp) := parse_node inner ts fp in
          let* nodes := parse_loop f inner ts fp in
          Ok (node :: nodes)
      end
  end.

(** src/parser.rs:4-21 [parse]. *)
Definition parse (ts : toks) : res (list ast_node) :=
  let fuel := S (List.length ts) in parse_loop fuel fuel ts 0.

(** src/main.rs:164-165: tokenize, then parse. *)
Definition compile_front (src : string) : res (list ast_node) :=
  let* ts := tokenize src in parse ts.
