(** The Kotlin declarations that a schema should become: one class for each struct, one interface and one class or object
    for each enum and its cases, one object for each block of constants.  Written without the generator's tokens. *)
Require Import Coq.Strings.String Coq.Strings.Ascii.
Require Import Coq.NArith.NArith Coq.ZArith.ZArith Coq.Lists.List Coq.Bool.Bool Coq.Arith.PeanoNat.
Require Import Verif.Base Verif.F64 Verif.Ast Verif.CaseConv Verif.Code Verif.CodeLex Verif.KotlinSyntax.
Import ListNotations.
Local Open Scope string_scope.
Local Open Scope list_scope.

(** ** Types *)

Definition address (id : string) : bool := among ["GroupAddress"; "CommandsBufferAddress"] id.
Definition int_type (size : nat) (signed : bool) : string :=
  match size, signed with
  | 1, true => "Byte" | 4, true => "Int" | 8, true => "Long"
  | 1, false => "UByte" | 4, false => "UInt" | _, _ => "ULong"
  end.
Fixpoint ktype (t : type_id) : kty :=
  match t with
  | TyInteger _ size signed => KTy (int_type size signed) []
  | TyNumber _ size => KTy (if Nat.eqb size 4 then "Float" else "Double") []
  | TyBool _ => KTy "Boolean" []
  | TyChar _ => KTy "Char" []
  | TyOther id => KTy (if address id then "ULong" else id) []
  | TyGeneric id l => KTy (if String.eqb id "Vec" then "List" else id) (map ktype l)
  end.

(** ** Expressions *)

(** The default of a type. *)
Definition kdefault (t : type_id) : kex :=
  match t with
  | TyInteger _ size signed =>
      XNum match size, signed with
           | 1, true | 4, true => "0" | 8, true => "0L"
           | 1, false | 4, false => "0U" | _, _ => "0UL"
           end
  | TyNumber _ size => if Nat.eqb size 4 then XNum "0f" else XFloat "0" "0"
  | TyBool _ => XName "false"
  | TyChar _ => XNum "0"
  | TyOther id =>
      if String.eqb id "String" then XStr ""
      else if String.eqb id "Vec" then XCall "listOf" []
      else XMeth id "createDefault" [] []
  | TyGeneric id l => if String.eqb id "Vec" then XCall "listOf" [] else XMeth id "createDefault" (map ktype l) []
  end.

(** The digits before and after the point. *)
Fixpoint at_point (s : string) : string * string :=
  match s with
  | "" => ("", "")
  | String c s' => if Ascii.eqb c "." then ("", s') else let (a, b) := at_point s' in (String c a, b)
  end.
Definition float_parts (x : f64) : string * string :=
  if f64_is_integral x then (show_f64 x, "0") else at_point (show_f64 x).

(** A literal of a type. *)
Definition kliteral (t : type_id) (l : literal) : kex :=
  match l with
  | StringLit s => XStr s
  | BoolLit b => XName (if b then "true" else "false")
  | IntLit z =>
      XNum (show_Z z ++
            match t with
            | TyInteger _ 1 true | TyInteger _ 4 true => "" | TyInteger _ _ true => "L"
            | TyInteger _ 1 false | TyInteger _ 4 false => "U" | _ => "UL"
            end)
  | NumberLit x =>
      let (a, b) := float_parts x in
      XFloat a (b ++ match t with TyNumber _ 4 => "f" | _ => "" end)
  end.

(** ** Declarations *)

(** [companion object { fun createDefault(): id = e }]. *)
Definition companion (id : string) (e : kex) : list kdecl := [YCompanion [YFun "createDefault" (ktype (TyOther id)) e]].
Definition named_defaults (fs : list struct_field) : list (option string * kex) :=
  map (fun f => (Some (camel (sf_name f)), kdefault (sf_type f))) fs.

Definition struct_class (n : struct_node) : kdecl :=
  YClass match sn_fields n with [] => false | _ => true end (pascal (sn_id n))
    (map (fun f => (camel (sf_name f), ktype (sf_type f))) (sn_fields n)) []
    (companion (sn_id n) (XCall (sn_id n) (named_defaults (sn_fields n)))).

Definition first_value (e : string) (i : enum_item) : kex :=
  match i with
  | ItemEmpty _ c => XName (e ++ c)
  | ItemTuple _ c vs => XCall (e ++ c) (map (fun v => (None, kdefault (tf_type v))) vs)
  | ItemStruct _ c fs => XCall (e ++ c) (named_defaults fs)
  end.
Fixpoint numbered (i : nat) (vs : list tuple_field) : list (string * kty) :=
  match vs with [] => [] | v :: vs' => ("p" ++ show_nat i, ktype (tf_type v))%string :: numbered (S i) vs' end.
Definition case_decl (e : string) (i : enum_item) : kdecl :=
  match i with
  | ItemEmpty _ c => YObject (pascal (e ++ c)) [e] []
  | ItemTuple _ c vs => YClass true (pascal (e ++ c)) (numbered 0 vs) [e] []
  | ItemStruct _ c fs => YClass true (pascal (e ++ c)) (map (fun f => (sf_name f, ktype (sf_type f))) fs) [e] []
  end.
Definition enum_interface (n : enum_node) : kdecl :=
  YInterface true (en_id n) match en_items n with [] => [] | i :: _ => companion (en_id n) (first_value (en_id n) i) end.
Definition enum_decls (n : enum_node) : list kdecl := enum_interface n :: map (case_decl (en_id n)) (en_items n).

Definition models_tree (ast : list ast_node) : list kdecl :=
  flat_map (fun n => match n with NStruct n => [struct_class n] | NEnum n => enum_decls n | _ => [] end) ast.

Fixpoint const_object (c : const_node) : kdecl :=
  match c with
  | ConstNode id items =>
      YObject (pascal id) []
        (map (fun i => match i with
                       | ConstItemValue n t (ConstLiteral l _) => YConst n (ktype t) (kliteral t l)
                       | ConstItemNode c => const_object c
                       end) items)
  end.
Definition consts_tree (ast : list ast_node) : list kdecl := flat_map (fun n => match n with NConst c => [const_object c] | _ => [] end) ast.

(** ** The schemas of which the text can be read: names that are Kotlin names, sizes that exist *)

Definition kname (n : string) : bool := word n && kident n.
Fixpoint type_ready (t : type_id) : bool :=
  match t with
  | TyInteger _ size _ => (Nat.eqb size 1) || (Nat.eqb size 4) || (Nat.eqb size 8)
  | TyNumber _ size => (Nat.eqb size 4) || (Nat.eqb size 8)
  | TyBool _ | TyChar _ => true
  | TyOther id => kname id
  | TyGeneric id l => kname id && negb (match l with [] => true | _ => false end) && forallb type_ready l
  end.
Definition struct_ready (n : struct_node) : bool :=
  kname (sn_id n) && kname (pascal (sn_id n)) && forallb (fun f => kname (camel (sf_name f)) && type_ready (sf_type f)) (sn_fields n).
Definition case_ready (e : string) (i : enum_item) : bool :=
  kname (e ++ item_id i) && kname (pascal (e ++ item_id i)) &&
  match i with
  | ItemEmpty _ _ => true
  | ItemTuple _ _ vs => forallb (fun v => type_ready (tf_type v)) vs
  | ItemStruct _ _ fs => forallb (fun f => kname (sf_name f) && kname (camel (sf_name f)) && type_ready (sf_type f)) fs
  end.
Definition enum_ready (n : enum_node) : bool :=
  kname (en_id n) && negb (match en_items n with [] => true | _ => false end) && forallb (case_ready (en_id n)) (en_items n).
Definition models_ready (ast : list ast_node) : bool :=
  forallb (fun n => match n with NStruct n => struct_ready n | NEnum n => enum_ready n | _ => true end) ast.

(** A double that is not infinite. *)
Definition finite_double (x : f64) : bool :=
  match x with
  | F64Fin m e => (m <? 2 ^ 53)%N && (-1074 <=? e)%Z && (e <=? 971)%Z && ((2 ^ 52 <=? m)%N || (e =? -1074)%Z)
  | F64Inf => false
  end.
Definition literal_ready (t : type_id) (l : literal) : bool :=
  match l, t with
  | StringLit s, _ => plain """" s
  | BoolLit _, _ => true
  | IntLit z, TyInteger _ _ _ => (0 <=? z)%Z
  | IntLit z, TyOther id => address id && (0 <=? z)%Z
  | NumberLit x, TyNumber _ _ => finite_double x
  | _, _ => false
  end.
Fixpoint const_ready (c : const_node) : bool :=
  match c with
  | ConstNode id items =>
      kname (pascal id) &&
      forallb (fun i => match i with
                        | ConstItemValue n t (ConstLiteral l _) => kname n && type_ready t && literal_ready t l
                        | ConstItemNode c => const_ready c
                        end) items
  end.
Definition consts_ready (ast : list ast_node) : bool := forallb (fun n => match n with NConst c => const_ready c | _ => true end) ast.
