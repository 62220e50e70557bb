(** The default value of a schema type, written down once for all target languages: zero, false, the empty text, the
    empty list; of a struct the defaults of its fields; of an enum its first case with the defaults of its fields. *)
Require Import Coq.Strings.String Coq.NArith.NArith Coq.ZArith.ZArith Coq.Lists.List Coq.Bool.Bool Coq.Arith.PeanoNat Coq.micromega.Lia.
Require Import Verif.Base Verif.Ast Verif.RustSem Verif.Wire.
Import ListNotations.
Local Open Scope string_scope.
Local Open Scope list_scope.

(** [Dnumber t]: zero of the number type [t]; [Dlist t]: the empty list with elements of type [t]; [Dstruct n fs]: the
    struct [n]; [Dcase e c fs]: the case [c] of the enum [e], whose fields have names or only places. *)
Inductive dval : Type :=
| Dnumber (t : type_id)
| Dfalse
| Dtext
| Dlist (t : type_id)
| Dstruct (n : string) (fs : list (string * dval))
| Dplain (e c : string)
| Dtuple (e c : string) (l : list dval)
| Drecord (e c : string) (fs : list (string * dval)).

Definition all_some {A B} (f : A -> option B) : list A -> option (list B) :=
  fix go l := match l with
              | [] => Some []
              | x :: l' => match f x, go l' with Some y, Some ys => Some (y :: ys) | _, _ => None end
              end.

(** The fields with the values of their types. *)
Definition named_values (value : type_id -> option dval) (fs : list struct_field) : option (list (string * dval)) :=
  all_some (fun f => match value (sf_type f) with Some v => Some (sf_name f, v) | None => None end) fs.

(** The default value of a type, if it is finite with at most [f] declarations inside one another. *)
Fixpoint default_value (ds : list decl) (f : nat) (t : type_id) : option dval :=
  match t with
  | TyInteger _ _ _ | TyNumber _ _ => Some (Dnumber t)
  | TyBool _ => Some Dfalse
  | TyChar _ => Some (Dnumber t)
  | TyGeneric g [a] => if String.eqb g "Vec" then Some (Dlist a) else None
  | TyGeneric _ _ => None
  | TyOther n =>
      match decl_of n ds, f with
      | Some (DStruct s), S f' =>
          match named_values (default_value ds f') (sn_fields s) with Some fs => Some (Dstruct n fs) | None => None end
      | Some (DEnum e), S f' =>
          match en_items e with
          | ItemEmpty _ c :: _ => Some (Dplain n c)
          | ItemTuple _ c ts :: _ => match all_some (fun v => default_value ds f' (tf_type v)) ts with Some l => Some (Dtuple n c l) | None => None end
          | ItemStruct _ c fs :: _ => match named_values (default_value ds f') fs with Some fs => Some (Drecord n c fs) | None => None end
          | [] => None
          end
      | Some _, 0 => None
      | None, _ => if String.eqb n "String" then Some Dtext else None
      end
  end.

(** The same as a value of the schema type ([val]); [empty] stands for the empty text. *)
Fixpoint schema_value (empty : N) (d : dval) : val :=
  match d with
  | Dnumber t => vnum (match prim_name t with Some p => p | None => "" end) 0%Z
  | Dfalse => vnum "bool" 0%Z
  | Dtext => vext "String" empty
  | Dlist _ => vbox "Vec" 0%N []
  | Dstruct n fs => vrec n (map (fun '(x, d) => (x, schema_value empty d)) fs)
  | Dplain e c => vcase e c
  | Dtuple e c l => vcaset e c (map (schema_value empty) l)
  | Drecord e c fs => vcases e c (map (fun '(x, d) => (x, schema_value empty d)) fs)
  end.
