(** When a schema is a later version of another: the earlier declarations are still there, with the same fields in the
    same order, and enums have at least the earlier cases, each with its position and payload.  Stated on the
    declarations alone, without the generators. *)
Require Import Coq.Strings.String Coq.Lists.List Coq.NArith.NArith.
Require Import Verif.Base Verif.Ast Verif.Wire.
Import ListNotations.
Local Open Scope string_scope.
Local Open Scope list_scope.

(** The names of declared or foreign types in a type. *)
Fixpoint mentions (t : type_id) : list string :=
  match t with
  | TyGeneric _ l => flat_map mentions l
  | TyOther n => [n]
  | _ => []
  end.

(** A field without its position, which never reaches the wire. *)
Definition field_shape (f : struct_field) : string * type_id := (sf_name f, sf_type f).
Definition case_types (i : enum_item) : list type_id :=
  match i with ItemEmpty _ _ => [] | ItemTuple _ _ ts => map tf_type ts | ItemStruct _ _ l => map sf_type l end.
Definition decl_types (d : decl) : list type_id :=
  match d with DStruct s => map sf_type (sn_fields s) | DEnum e => flat_map case_types (en_items e) end.

Definition same_case (i j : enum_item) : Prop :=
  match i, j with
  | ItemEmpty p c, ItemEmpty p' c' => p' = p /\ c' = c
  | ItemTuple p c ts, ItemTuple p' c' ts' => p' = p /\ c' = c /\ map tf_type ts' = map tf_type ts
  | ItemStruct p c l, ItemStruct p' c' l' => p' = p /\ c' = c /\ map field_shape l' = map field_shape l
  | _, _ => False
  end.
Definition grown_decl (d d' : decl) : Prop :=
  match d, d' with
  | DStruct s, DStruct s' => map field_shape (sn_fields s') = map field_shape (sn_fields s)
  | DEnum e, DEnum e' => forall i, In i (en_items e) -> exists i', In i' (en_items e') /\ same_case i i'
  | _, _ => False
  end.

(** [new] is a later version of [old] as far as values of type [t] go.  A name that [old] and [t] use for a foreign type is
    not declared by [new] either. *)
Record grown (old new : list decl) (t : type_id) : Prop := mk_grown
  { grown_kept : forall n d, decl_of n old = Some d -> exists d', decl_of n new = Some d' /\ grown_decl d d';
    grown_foreign : forall n, In n (mentions t ++ flat_map mentions (flat_map decl_types old)) ->
      decl_of n old = None -> decl_of n new = None }.

(** ** Methods *)
(** A method without its number, which follows from the order of the methods. *)
Definition method_shape (f : fn_node) : string * list fn_arg * option type_id * bool * bool :=
  (fn_id f, fn_args f, fn_return f, fn_is_read f, fn_is_async f).
(** The later version has the earlier methods first, then others. *)
Definition appended (old new : list fn_node) : Prop := exists more, map method_shape new = map method_shape old ++ more.
Definition method_types (f : fn_node) : list type_id := map fa_type (fn_args f) ++ match fn_return f with Some t => [t] | None => [] end.
