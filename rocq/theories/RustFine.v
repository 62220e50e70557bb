(** The schemas whose Rust types and [Default] implementations should compile; independent of the generator. *)
Require Import Coq.Strings.String Coq.Lists.List Coq.Bool.Bool Coq.Arith.PeanoNat.
Require Import Verif.Base Verif.Ast Verif.RustSem Verif.Wire.
Require Verif.RustDefault.
Import RustDefault(among, distinct).
Import ListNotations.
Local Open Scope string_scope.
Local Open Scope list_scope.

Definition is_declared (ds : list decl) (n : string) : bool := match decl_of n ds with Some _ => true | None => false end.
(** Types that exist: those of the language, and those of the file. *)
Fixpoint known_type (all : list decl) (t : type_id) : bool :=
  match t with
  | TyInteger id _ _ => is_integer id
  | TyNumber id _ => is_prim id
  | TyBool id => String.eqb id "bool"
  | TyChar id => String.eqb id "char"
  | TyOther n => String.eqb n "String" || is_declared all n
  | TyGeneric g [a] => String.eqb g "Vec" && known_type all a
  | TyGeneric _ _ => false
  end.
(** Types of which a default is written: no [char], whose default is written as the number zero, and none of the types
    of arguments, which have no default. *)
Definition default_type (ds : list decl) (t : type_id) : bool :=
  match t with
  | TyChar _ => false
  | TyNumber id _ => among ["f32"; "f64"] id
  | TyOther n => String.eqb n "String" || is_declared ds n
  | _ => true
  end.
Definition payload (i : enum_item) : list type_id :=
  match i with
  | ItemEmpty _ _ => []
  | ItemTuple _ _ vs => map tf_type vs
  | ItemStruct _ _ fs => map sf_type fs
  end.
Definition item_fields (i : enum_item) : list string := match i with ItemStruct _ _ fs => map sf_name fs | _ => [] end.

Definition decl_fine (all : list decl) (d : decl) : bool :=
  match d with
  | DStruct s => distinct (map sf_name (sn_fields s)) && forallb (fun f => known_type all (sf_type f)) (sn_fields s)
  | DEnum e =>
      negb (match en_items e with [] => true | _ => false end) && distinct (map item_name (en_items e)) &&
      forallb (fun i => distinct (item_fields i) && forallb (known_type all) (payload i)) (en_items e)
  end.
Definition default_fine (ds : list decl) (d : decl) : bool :=
  match d with
  | DStruct s => forallb (fun f => default_type ds (sf_type f)) (sn_fields s)
  | DEnum e => match en_items e with i :: _ => forallb (default_type ds) (payload i) | [] => false end
  end.
(** A type whose values are finite by their type, with at most [f] declarations inside one another. *)
Fixpoint sized_type (all : list decl) (f : nat) (t : type_id) : bool :=
  match t with
  | TyOther n =>
      match decl_of n all, f with
      | Some (DStruct s), S f' => forallb (fun fd => sized_type all f' (sf_type fd)) (sn_fields s)
      | Some (DEnum e), S f' => forallb (fun i => forallb (sized_type all f') (payload i)) (en_items e)
      | Some _, 0 => false
      | None, _ => true
      end
  | _ => true
  end.
(** Names that mean something else in the file. *)
Definition taken : list string := ["Self"; "Default"; "String"; "Vec"] ++ prims.
(** [ds]: the declarations of the schema; [all]: all the types of the file. *)
Definition rust_fine (ds all : list decl) : bool :=
  distinct (map decl_name all) && forallb (fun d => negb (among taken (decl_name d))) all &&
  forallb (decl_fine all) all && forallb (default_fine ds) ds &&
  forallb (fun d => sized_type all (S (List.length all)) (TyOther (decl_name d))) all.
