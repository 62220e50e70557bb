(** What C64 asks of the buffer package and of the types of a schema. *)
Require Import Coq.Strings.String Coq.Strings.Ascii.
Require Import Coq.NArith.NArith Coq.ZArith.ZArith Coq.Lists.List Coq.Bool.Bool.
Require Import Verif.Base Verif.Ast Verif.RustSem Verif.Wire.
Import ListNotations.
Local Open Scope string_scope.
Local Open Scope list_scope.

(** The codecs of the package read only what they write: a successful read gives a value of the type and has consumed its bytes. *)
Record strict (R : runtime) : Prop := mk_strict
  { strict_prim : forall t b z r, is_prim t = true -> rt_get R t b = Some (z, r) -> in_range t z = true /\ b = rt_put R t z ++ r;
    strict_ext : forall n b x r, rt_ext_get R n b = Some (x, r) -> rt_ext_ok R n x = true /\ b = rt_ext_put R n x ++ r;
    strict_head : forall g b k r, rt_head_get R g b = Some (k, r) -> rt_head_ok R g k = true /\ b = rt_head_put R g k ++ r }.

(** Primitive types are called so, other types are not; no type is called [Self]; generic types have arguments. *)
Fixpoint plain_type (t : type_id) : bool :=
  match t with
  | TyInteger n _ _ | TyNumber n _ | TyBool n | TyChar n => is_prim n
  | TyOther n => negb (is_prim n) && negb (String.eqb n "Self")
  | TyGeneric n l => negb (String.eqb n "Self") && (match l with [] => false | _ => true end) && forallb plain_type l
  end.
Definition item_types (i : enum_item) : list type_id :=
  match i with ItemEmpty _ _ => [] | ItemTuple _ _ l => map tf_type l | ItemStruct _ _ l => map sf_type l end.
Definition decl_types (d : decl) : list type_id :=
  match d with DStruct s => map sf_type (sn_fields s) | DEnum e => flat_map item_types (en_items e) end.
Definition plain_types (ds : list decl) : bool := forallb plain_type (flat_map decl_types ds).

(** An example: the little-endian package, which refuses numbers that are no value of the type (a truth value of 2, a surrogate). *)
Definition le_strict : runtime :=
  mk_runtime (rt_put le_runtime)
    (fun t b => match rt_get le_runtime t b with Some (z, r) => if in_range t z then Some (z, r) else None | None => None end)
    (rt_ext_ok le_runtime) (rt_ext_put le_runtime) (rt_ext_get le_runtime)
    (rt_head_ok le_runtime) (rt_head_put le_runtime) (rt_head_get le_runtime) (rt_slots le_runtime).
