(** The Swift declarations that a schema should become: one struct for each struct, one enum for each enum, one struct of
    static constants for each block of constants.  Written without the generator's tokens. *)
Require Import Coq.Strings.String Coq.Strings.Ascii.
Require Import Coq.NArith.NArith Coq.ZArith.ZArith Coq.Lists.List Coq.Bool.Bool Coq.Arith.PeanoNat.
Require Import Verif.Base Verif.F64 Verif.Ast Verif.CaseConv Verif.Code Verif.CodeLex.
Require Verif.KotlinSyntax Verif.KotlinTree.
Require Import Verif.SwiftSyntax.
Import KotlinSyntax(among). Import KotlinTree(address, float_parts, literal_ready).
Import ListNotations.
Local Open Scope string_scope.
Local Open Scope list_scope.

(** ** Types *)

Definition int_type (size : nat) (signed : bool) : string :=
  match size, signed with
  | 1, true => "Int8" | 4, true => "Int32" | 8, true => "Int64"
  | 1, false => "UInt8" | 4, false => "UInt32" | _, _ => "UInt64"
  end.
Definition other_type (id : string) : string := if address id then "UInt64" else id.
Fixpoint stype (t : type_id) : sty :=
  match t with
  | TyInteger _ size signed => STy (int_type size signed) []
  | TyNumber _ size => STy (if Nat.eqb size 4 then "Float" else "Double") []
  | TyBool _ => STy "Bool" []
  | TyChar id => STy id []
  | TyOther id => STy (other_type id) []
  | TyGeneric id l =>
      match l with
      | [t] => if String.eqb id "Vec" then SArr (stype t) else STy id [stype t]
      | _ => STy id (map stype l)
      end
  end.

(** ** Expressions *)

(** The default of a type. *)
Definition sdefault (t : type_id) : sex :=
  match t with
  | TyInteger _ _ _ | TyNumber _ _ | TyChar _ => QNum "0"
  | TyBool _ => QName "false"
  | TyOther id =>
      if String.eqb id "String" then QStr ""
      else if String.eqb id "Vec" then QList
      else QMeth id [] "createDefault" []
  | TyGeneric id l => if String.eqb id "Vec" then QList else QMeth id (map stype l) "createDefault" []
  end.

(** A literal of a type. *)
Definition sliteral (t : type_id) (l : literal) : sex :=
  match l with
  | StringLit s => QStr s
  | BoolLit b => QName (if b then "true" else "false")
  | IntLit z => QNum (show_Z z)
  | NumberLit x =>
      let (a, b) := float_parts x in
      QFloat a (b ++ match t with TyNumber _ 4 => "f" | _ => "" end)
  end.

(** ** Declarations *)

Definition create_default (id : string) (e : sex) : sdecl := ZFunc true "createDefault" (stype (TyOther id)) e.
Definition struct_decl (n : struct_node) : sdecl :=
  ZStruct (pascal (sn_id n))
    (map (fun f => ZVar (camel (sf_name f)) (stype (sf_type f))) (sn_fields n) ++
     [create_default (sn_id n)
        (QCall (other_type (sn_id n)) (map (fun f => (Some (camel (sf_name f)), sdefault (sf_type f))) (sn_fields n)))]).

Definition case_types (i : enum_item) : list type_id :=
  match i with
  | ItemEmpty _ _ => []
  | ItemTuple _ _ vs => map tf_type vs
  | ItemStruct _ _ fs => map sf_type fs
  end.
Definition first_value (i : enum_item) : sex :=
  match i with
  | ItemEmpty _ c => QCase (camel c)
  | _ => QCaseCall (camel (item_id i)) (map (fun t => (None, sdefault t)) (case_types i))
  end.
Definition enum_decl (n : enum_node) : sdecl :=
  ZEnum (pascal (en_id n))
    (map (fun i => ZCase (camel (item_id i)) (map stype (case_types i))) (en_items n) ++
     match en_items n with [] => [] | i :: _ => [create_default (en_id n) (first_value i)] end).

Definition models_tree (ast : list ast_node) : list sdecl :=
  flat_map (fun n => match n with NStruct n => [struct_decl n] | NEnum n => [enum_decl n] | _ => [] end) ast.

Fixpoint const_struct (c : const_node) : sdecl :=
  match c with
  | ConstNode id items =>
      ZStruct (pascal id)
        (map (fun i => match i with
                       | ConstItemValue n t (ConstLiteral l _) => ZLet (camel n) (stype t) (sliteral t l)
                       | ConstItemNode c => const_struct c
                       end) items)
  end.
Definition consts_tree (ast : list ast_node) : list sdecl := flat_map (fun n => match n with NConst c => [const_struct c] | _ => [] end) ast.

(** ** The schemas of which the text can be read: names that are Swift names, sizes that exist *)

Definition sname (n : string) : bool := word n && sident n.
Fixpoint type_ready (t : type_id) : bool :=
  match t with
  | TyInteger _ size _ => (Nat.eqb size 1) || (Nat.eqb size 4) || (Nat.eqb size 8)
  | TyNumber _ size => (Nat.eqb size 4) || (Nat.eqb size 8)
  | TyBool _ => true
  | TyChar id | TyOther id => sname id
  | TyGeneric id l =>
      sname id && forallb type_ready l &&
      (if String.eqb id "Vec" then Nat.eqb (List.length l) 1 else negb (Nat.eqb (List.length l) 0))
  end.
Definition struct_ready (n : struct_node) : bool :=
  sname (sn_id n) && sname (pascal (sn_id n)) && forallb (fun f => sname (camel (sf_name f)) && type_ready (sf_type f)) (sn_fields n).
(** The names of the fields of a case only appear in comments. *)
Definition case_ready (i : enum_item) : bool :=
  sname (camel (item_id i)) && forallb type_ready (case_types i) &&
  match i with
  | ItemStruct _ _ fs => forallb (fun f => word (sf_name f) && word (camel (sf_name f))) fs
  | _ => true
  end.
Definition enum_ready (n : enum_node) : bool :=
  sname (en_id n) && sname (pascal (en_id n)) && negb (match en_items n with [] => true | _ => false end) && forallb case_ready (en_items n).
Definition models_ready (ast : list ast_node) : bool :=
  forallb (fun n => match n with NStruct n => struct_ready n | NEnum n => enum_ready n | _ => true end) ast.

Fixpoint const_ready (c : const_node) : bool :=
  match c with
  | ConstNode id items =>
      sname (pascal id) &&
      forallb (fun i => match i with
                        | ConstItemValue n t (ConstLiteral l _) => sname (camel n) && type_ready t && literal_ready t l
                        | ConstItemNode c => const_ready c
                        end) items
  end.
Definition consts_ready (ast : list ast_node) : bool := forallb (fun n => match n with NConst c => const_ready c | _ => true end) ast.
