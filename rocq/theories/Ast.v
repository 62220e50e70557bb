(** Tokens (src/lexer.rs:1-21), declarations (src/ast.rs:1-185) and the look-up helpers on
    declaration lists (src/ast.rs:187-261). *)
Require Import Coq.Strings.String Coq.Strings.Ascii.
Require Import Coq.NArith.NArith Coq.ZArith.ZArith Coq.Lists.List Coq.Bool.Bool.
Require Import Verif.Base Verif.F64.
Import ListNotations.
Local Open Scope string_scope.

(** src/lexer.rs:15-21 [enum Literal]; an i64 is a [Z]. *)
Inductive literal : Type :=
| StringLit (s : string)
| IntLit (z : Z)
| NumberLit (x : f64)
| BoolLit (b : bool).

(** src/lexer.rs:1-13 [enum Token]. *)
Inductive token : Type :=
| TStruct | TEnum | TFn | TRead | TAsync | TConst
| TId (name : string)
| TLit (l : literal)
| TSym (c : ascii)
| TEOF.

(** src/ast.rs:98-122 [enum TypeIDASTNode]. *)
Inductive type_id : Type :=
| TyInteger (id : string) (size : nat) (signed : bool)
| TyNumber (id : string) (size : nat)
| TyBool (id : string)
| TyChar (id : string)
| TyGeneric (id : string) (generics : list type_id)
| TyOther (id : string).

(** src/ast.rs:84-90 [enum ConstValueASTNode], one constructor. *)
Inductive const_value : Type :=
| ConstLiteral (lit : literal) (ty : type_id).

(** src/ast.rs:92-96 [struct IdValuePair]. *)
Record id_value := mk_id_value { iv_id : string; iv_value : const_value }.

(** src/ast.rs:12-28 [struct ConstASTNode], [enum ConstItemASTNode]. *)
Inductive const_node : Type :=
| ConstNode (id : string) (items : list const_item)
with const_item : Type :=
| ConstItemValue (id : string) (ty : type_id) (value : const_value)
| ConstItemNode (node : const_node).

(** src/ast.rs:30-40 [enum DirectiveASTNode]. *)
Inductive directive : Type :=
| DirValue (id : string) (value : const_value)
| DirGroup (group_id : string) (values : list id_value).

(** src/ast.rs:168-172 [struct TupleFieldASTNode]; a u32 position is an [N]. *)
Record tuple_field := mk_tuple_field { tf_position : N; tf_type : type_id }.

(** src/ast.rs:174-179 [struct StructFieldASTNode]. *)
Record struct_field := mk_struct_field { sf_position : N; sf_name : string; sf_type : type_id }.

(** src/ast.rs:181-185 [struct FnArgASTNode]. *)
Record fn_arg := mk_fn_arg { fa_id : string; fa_type : type_id }.

(** src/ast.rs:66-82 [enum EnumItemASTNode]. *)
Inductive enum_item : Type :=
| ItemEmpty (position : N) (id : string)
| ItemTuple (position : N) (id : string) (values : list tuple_field)
| ItemStruct (position : N) (id : string) (fields : list struct_field).

(** src/ast.rs:42-46 [struct EnumASTNode]. *)
Record enum_node := mk_enum { en_id : string; en_items : list enum_item }.

(** src/ast.rs:48-54 [struct StructASTNode]. *)
Record struct_node := mk_struct
  { sn_id : string; sn_fields : list struct_field; sn_emplace : bool; sn_into : bool }.

(** src/ast.rs:56-64 [struct FnASTNode]. *)
Record fn_node := mk_fn
  { fn_id : string; fn_position : N; fn_args : list fn_arg; fn_return : option type_id;
    fn_is_read : bool; fn_is_async : bool }.

(** src/ast.rs:3-10 [enum ASTNode]. *)
Inductive ast_node : Type :=
| NEnum (n : enum_node)
| NStruct (n : struct_node)
| NFn (n : fn_node)
| NDirective (n : directive)
| NConst (n : const_node).

(** src/ast.rs:125-139 [EnumItemASTNode::id]. *)
Definition item_id (i : enum_item) : string :=
  match i with
  | ItemEmpty _ id => id
  | ItemTuple _ id _ => id
  | ItemStruct _ id _ => id
  end.

(** src/ast.rs:141-155 [EnumItemASTNode::position]. *)
Definition item_position (i : enum_item) : N :=
  match i with
  | ItemEmpty p _ => p
  | ItemTuple p _ _ => p
  | ItemStruct p _ _ => p
  end.

(** src/ast.rs:158-166 [TypeIDASTNode::u32_type_id] (size 8, as in the code). *)
Definition u32_type_id : type_id := TyInteger "u32" 8 false.

(** src/ast.rs:187-195 [contains_consts_nodes]. *)
Fixpoint contains_consts_nodes (ast : list ast_node) : bool :=
  match ast with
  | [] => false
  | NConst _ :: _ => true
  | _ :: rest => contains_consts_nodes rest
  end.

(** src/ast.rs:197-207 [find_fn_nodes]. *)
Fixpoint find_fn_nodes (ast : list ast_node) : list fn_node :=
  match ast with
  | [] => []
  | NFn n :: rest => n :: find_fn_nodes rest
  | _ :: rest => find_fn_nodes rest
  end.

(** src/ast.rs:209-219 [find_directive_value]. *)
Fixpoint find_directive_value (ast : list ast_node) (target_id : string) : option const_value :=
  match ast with
  | [] => None
  | NDirective (DirValue id value) :: rest =>
      if String.eqb target_id id then Some value else find_directive_value rest target_id
  | _ :: rest => find_directive_value rest target_id
  end.

(** src/ast.rs:229-233, the inner loop of [find_directive_group_value]. *)
Fixpoint find_in_group (values : list id_value) (target_id : string) : option const_value :=
  match values with
  | [] => None
  | v :: rest =>
      if String.eqb (iv_id v) target_id then Some (iv_value v) else find_in_group rest target_id
  end.

(** src/ast.rs:221-239 [find_directive_group_value]. *)
Fixpoint find_directive_group_value (ast : list ast_node) (target_group_id target_id : string)
  : option const_value :=
  match ast with
  | [] => None
  | NDirective (DirGroup group_id values) :: rest =>
      if String.eqb target_group_id group_id then
        match find_in_group values target_id with
        | Some v => Some v
        | None => find_directive_group_value rest target_group_id target_id
        end
      else find_directive_group_value rest target_group_id target_id
  | _ :: rest => find_directive_group_value rest target_group_id target_id
  end.

(** src/ast.rs:251-255, the inner loop of [find_directive_group_values]. *)
Fixpoint find_all_in_group (values : list id_value) (target_id : string) : list const_value :=
  match values with
  | [] => []
  | v :: rest =>
      if String.eqb (iv_id v) target_id then iv_value v :: find_all_in_group rest target_id
      else find_all_in_group rest target_id
  end.

(** src/ast.rs:241-261 [find_directive_group_values]. *)
Fixpoint find_directive_group_values (ast : list ast_node) (target_group_id target_id : string)
  : list const_value :=
  match ast with
  | [] => []
  | NDirective (DirGroup group_id values) :: rest =>
      if String.eqb target_group_id group_id then
        find_all_in_group values target_id
          ++ find_directive_group_values rest target_group_id target_id
      else find_directive_group_values rest target_group_id target_id
  | _ :: rest => find_directive_group_values rest target_group_id target_id
  end.
