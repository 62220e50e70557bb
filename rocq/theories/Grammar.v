(** The schema grammar, written independently of Parser.v.

    [X_g ts x r] reads: the token list [ts] starts with a phrase for [x], and [r] is what follows
    it.  Conditions on [r] are the one-token look-aheads that make the grammar deterministic.
    Rules marked MALFORMED describe inputs that no documentation of the language mentions but
    that the tool accepts. *)
Require Import Coq.Strings.String Coq.Strings.Ascii.
Require Import Coq.NArith.NArith Coq.ZArith.ZArith Coq.Lists.List Coq.Bool.Bool.
Require Import Verif.F64 Verif.Ast.
Import ListNotations.
Local Open Scope string_scope.
Local Open Scope list_scope.

Notation toks := (list token).

(** What the next token is. *)
Definition next_is (t : token) (ts : toks) : Prop := exists r, ts = t :: r.
Definition next_is_id (ts : toks) : Prop := exists n r, ts = TId n :: r.
Definition at_end (ts : toks) : Prop := ts = [] \/ next_is TEOF ts.

(** Type names with a fixed meaning: integers with their byte size and sign, floats with their
    byte size.  All other names stand for themselves. *)
Definition int_types : list (string * (nat * bool)) :=
  [("i8", (1, true)); ("i32", (4, true)); ("i64", (8, true));
   ("u8", (1, false)); ("u32", (4, false)); ("u64", (8, false))].
Definition num_types : list (string * nat) := [("f32", 4); ("f64", 8)].

Inductive plain_type (n : string) : type_id -> Prop :=
| pt_int : forall size sgn, In (n, (size, sgn)) int_types -> plain_type n (TyInteger n size sgn)
| pt_num : forall size, In (n, size) num_types -> plain_type n (TyNumber n size)
| pt_char : n = "char" -> plain_type n (TyChar n)
| pt_bool : n = "bool" -> plain_type n (TyBool n)
| pt_other :
    ~ In n ["i8"; "i32"; "i64"; "u8"; "u32"; "u64"; "f32"; "f64"; "char"; "bool"] ->
    plain_type n (TyOther n).

(** Types: a name, or a name with arguments in angle brackets. *)
Inductive type_g : toks -> type_id -> toks -> Prop :=
| tg_plain : forall n t r, ~ next_is (TSym "<") r -> plain_type n t -> type_g (TId n :: r) t r
| tg_generic : forall n ts l r, type_args_g ts l r ->
    type_g (TId n :: TSym "<" :: ts) (TyGeneric n l) r
(** MALFORMED: the argument list breaks off at a token that is not a name ([Vec<], [Map<u8,]);
    the arguments are dropped. *)
| tg_broken : forall n ts t r, broken_args_g ts r -> plain_type n t ->
    type_g (TId n :: TSym "<" :: ts) t r
with type_args_g : toks -> list type_id -> toks -> Prop :=
| ta_last : forall ts t r, type_g ts t (TSym ">" :: r) -> type_args_g ts [t] r
| ta_more : forall ts t ts' l r, type_g ts t (TSym "," :: ts') -> type_args_g ts' l r ->
    type_args_g ts (t :: l) r
with broken_args_g : toks -> toks -> Prop :=
| ba_stop : forall ts, ~ next_is_id ts -> broken_args_g ts ts
| ba_more : forall ts t ts' r, type_g ts t (TSym "," :: ts') -> broken_args_g ts' r ->
    broken_args_g ts r.

Scheme type_g_mut := Induction for type_g Sort Prop
with type_args_g_mut := Induction for type_args_g Sort Prop
with broken_args_g_mut := Induction for broken_args_g Sort Prop.
Combined Scheme type_g_mutind from type_g_mut, type_args_g_mut, broken_args_g_mut.

(** A comma-separated list, possibly empty, possibly with a comma after the last element. *)
Section SepList.
  Context {A : Type} (starts : toks -> Prop) (item : toks -> A -> toks -> Prop).
  Inductive sep_list_g : toks -> list A -> toks -> Prop :=
  | sl_stop : forall ts, ~ starts ts -> sep_list_g ts [] ts
  | sl_last : forall ts x r, starts ts -> item ts x r -> ~ next_is (TSym ",") r ->
      sep_list_g ts [x] r
  | sl_more : forall ts x ts' l r, starts ts -> item ts x (TSym "," :: ts') ->
      sep_list_g ts' l r -> sep_list_g ts (x :: l) r.
End SepList.

(** [#[n]]: any integer literal, taken modulo 2^32. *)
Inductive pos_g : toks -> N -> toks -> Prop :=
| pg : forall z r,
    pos_g (TSym "#" :: TSym "[" :: TLit (IntLit z) :: TSym "]" :: r) (Z.to_N (z mod 2 ^ 32)) r.

(** An element with an explicit position. *)
Inductive with_pos_g {A : Type} (item : toks -> A -> toks -> Prop)
  : toks -> N * A -> toks -> Prop :=
| wp : forall ts p ts' x r, pos_g ts p ts' -> item ts' x r -> with_pos_g item ts (p, x) r.

(** Number the elements of a list from k. *)
Fixpoint number_from {A : Type} (k : N) (l : list A) : list (N * A) :=
  match l with
  | [] => []
  | x :: l' => (k, x) :: number_from (k + 1) l'
  end.

(** A list of elements with positions: all explicit, or all implicit and counted from 0. *)
Inductive positioned_g {A : Type} (item : toks -> A -> toks -> Prop)
  : toks -> list (N * A) -> toks -> Prop :=
| ps_explicit : forall ts l r, next_is (TSym "#") ts ->
    sep_list_g (next_is (TSym "#")) (with_pos_g item) ts l r -> positioned_g item ts l r
| ps_implicit : forall ts l r, ~ next_is (TSym "#") ts ->
    sep_list_g next_is_id item ts l r -> positioned_g item ts (number_from 0 l) r.

(** [name: type]. *)
Inductive binding_g : toks -> string * type_id -> toks -> Prop :=
| bg : forall n ts t r, type_g ts t r -> binding_g (TId n :: TSym ":" :: ts) (n, t) r.

Definition field_of (x : N * (string * type_id)) : struct_field :=
  mk_struct_field (fst x) (fst (snd x)) (snd (snd x)).
Definition tuple_field_of (x : N * type_id) : tuple_field := mk_tuple_field (fst x) (snd x).

Inductive fields_g : toks -> list struct_field -> toks -> Prop :=
| fg : forall ts l r, positioned_g binding_g ts l r -> fields_g ts (map field_of l) r.

Inductive tuple_g : toks -> list tuple_field -> toks -> Prop :=
| tug : forall ts l r, positioned_g type_g ts l r -> tuple_g ts (map tuple_field_of l) r.

(** A variant without its position. *)
Inductive variant_g : toks -> (N -> enum_item) -> toks -> Prop :=
| vg_empty : forall n r, ~ next_is (TSym "(") r -> ~ next_is (TSym "{") r ->
    variant_g (TId n :: r) (fun p => ItemEmpty p n) r
| vg_tuple : forall n ts l r, tuple_g ts l (TSym ")" :: r) ->
    variant_g (TId n :: TSym "(" :: ts) (fun p => ItemTuple p n l) r
| vg_struct : forall n ts l r, fields_g ts l (TSym "}" :: r) ->
    variant_g (TId n :: TSym "{" :: ts) (fun p => ItemStruct p n l) r.

Inductive variants_g : toks -> list enum_item -> toks -> Prop :=
| vsg : forall ts l r, positioned_g variant_g ts l r ->
    variants_g ts (map (fun x => snd x (fst x)) l) r.

(** A literal and the type recorded with it. *)
Inductive value_g : token -> const_value -> Prop :=
| vl_bool : forall b, value_g (TLit (BoolLit b)) (ConstLiteral (BoolLit b) (TyBool "bool"))
| vl_string : forall s, value_g (TLit (StringLit s)) (ConstLiteral (StringLit s) (TyOther "String"))
| vl_int : forall z, value_g (TLit (IntLit z)) (ConstLiteral (IntLit z) (TyInteger "i32" 4 true))
| vl_num : forall x, value_g (TLit (NumberLit x)) (ConstLiteral (NumberLit x) (TyNumber "f32" 4)).

(** Constant blocks. *)
Inductive const_g : toks -> const_node -> toks -> Prop :=
| cg : forall n ts l r, const_items_g ts l (TSym "}" :: r) ->
    const_g (TConst :: TId n :: TSym "{" :: ts) (ConstNode n l) r
with const_items_g : toks -> list const_item -> toks -> Prop :=
| ci_stop : forall ts, next_is (TSym "}") ts -> const_items_g ts [] ts
| ci_node : forall ts n ts' l r, const_g ts n ts' -> const_items_g ts' l r ->
    const_items_g ts (ConstItemNode n :: l) r
| ci_value : forall n ts t v val ts' l r, type_g ts t (TSym "=" :: v :: TSym ";" :: ts') ->
    value_g v val -> const_items_g ts' l r ->
    const_items_g (TId n :: TSym ":" :: ts) (ConstItemValue n t val :: l) r.

Scheme const_g_mut := Induction for const_g Sort Prop
with const_items_g_mut := Induction for const_items_g Sort Prop.
Combined Scheme const_g_mutind from const_g_mut, const_items_g_mut.

(** [name = literal] in a directive group. *)
Inductive pair_g : toks -> id_value -> toks -> Prop :=
| prg : forall n v val r, value_g v val ->
    pair_g (TId n :: TSym "=" :: v :: r) (mk_id_value n val) r.

Inductive directive_g : toks -> directive -> toks -> Prop :=
| dg_value : forall n v val r, value_g v val ->
    directive_g (TSym "#" :: TSym "[" :: TId n :: TSym "=" :: v :: TSym "]" :: r) (DirValue n val) r
(** MALFORMED if [close] is not the closing parenthesis: any token is accepted there. *)
| dg_group : forall n ts l close r,
    sep_list_g next_is_id pair_g ts l (close :: TSym "]" :: r) ->
    directive_g (TSym "#" :: TSym "[" :: TId n :: TSym "(" :: ts) (DirGroup n l) r.

Definition arg_of (x : string * type_id) : fn_arg := mk_fn_arg (fst x) (snd x).

(** What ends a method: a semicolon, or an arrow, a type and a semicolon. *)
Inductive returns_g : toks -> option type_id -> toks -> Prop :=
| rg_none : forall r, returns_g (TSym ";" :: r) None r
| rg_some : forall ts t r, type_g ts t (TSym ";" :: r) ->
    returns_g (TSym "-" :: TSym ">" :: ts) (Some t) r.

(** A method, given whether [async] was read before and the number of the method. *)
Inductive method_g (async : bool) (k : N) : toks -> fn_node -> toks -> Prop :=
| mg_fn : forall n ts l ts' ret r,
    sep_list_g next_is_id binding_g ts l (TSym ")" :: ts') -> returns_g ts' ret r ->
    method_g async k (TFn :: TId n :: TSym "(" :: ts) (mk_fn n k (map arg_of l) ret false async) r
| mg_read : forall n ts ret r, returns_g ts ret r ->
    method_g async k (TRead :: TId n :: ts) (mk_fn n k [] ret true async) r.

(** One declaration; [k] is the number it gets if it is a method. *)
Inductive decl_g (k : N) : toks -> ast_node -> toks -> Prop :=
| dc_unit : forall n r,
    decl_g k (TStruct :: TId n :: TSym ";" :: r) (NStruct (mk_struct n [] true true)) r
| dc_struct : forall n ts l r, next_is (TSym "#") ts \/ next_is_id ts ->
    fields_g ts l (TSym "}" :: r) ->
    decl_g k (TStruct :: TId n :: TSym "{" :: ts) (NStruct (mk_struct n l true true)) r
| dc_enum : forall n ts l r, next_is (TSym "#") ts \/ next_is_id ts ->
    variants_g ts l (TSym "}" :: r) ->
    decl_g k (TEnum :: TId n :: TSym "{" :: ts) (NEnum (mk_enum n l)) r
| dc_method : forall ts f r, method_g false k ts f r -> decl_g k ts (NFn f) r
| dc_async : forall ts f r, method_g true k ts f r -> decl_g k (TAsync :: ts) (NFn f) r
| dc_const : forall ts n r, const_g ts n r -> decl_g k ts (NConst n) r
| dc_directive : forall ts d r, directive_g ts d r -> decl_g k ts (NDirective d) r.

Definition is_method (n : ast_node) : bool := match n with NFn _ => true | _ => false end.

(** A whole schema; [k] is the number of methods read before. *)
Inductive schema_g : N -> toks -> list ast_node -> Prop :=
| sg_end : forall k ts, at_end ts -> schema_g k ts []
| sg_decl : forall k ts n ts' l, decl_g k ts n ts' ->
    schema_g (if is_method n then k + 1 else k)%N ts' l -> schema_g k ts (n :: l).
