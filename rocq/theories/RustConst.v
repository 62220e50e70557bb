(** What the modules of constants of a generated Rust file mean: which of them compile, and the values of the
    constants.  Written from the Rust language rules for the constructs of [RustSyntax]; nothing here refers to the
    generator.

    Simplifications: a constant is a literal, or one of the two address types of the runtime around an integer literal
    (both wrap a [u64]); the value of an [f32] is given as the double with the same value; nothing is imported into the
    modules. *)
Require Import Coq.Strings.String Coq.Strings.Ascii.
Require Import Coq.NArith.NArith Coq.ZArith.ZArith Coq.Lists.List Coq.Bool.Bool.
Require Import Verif.Base Verif.F64 Verif.LexSpec Verif.NumText Verif.Code Verif.RustSyntax Verif.RustSem Verif.ConstSpec.
Require Verif.RustDefault Verif.Single.
Import RustDefault(among, distinct, type_names). Import Single(f32_of_dec).
Import ListNotations.
Local Open Scope string_scope.
Local Open Scope list_scope.

(** ** Names *)

Definition mod_names (l : list item) : list string := flat_map (fun i => match i with IMod n _ => [n] | _ => [] end) l.
Definition const_names (l : list item) : list string := flat_map (fun i => match i with IConst n _ _ => [n] | _ => [] end) l.
(** Inside a list of items, a name of the language or of a crate means itself unless something there has the name. *)
Definition visible (l : list item) (n : string) : bool := negb (among (mod_names l) n || among (type_names l) n).

(** ** Values *)

Definition digits_only (s : string) : bool := negb (String.eqb s "") && all_chars digitb s.
(** The value of [a.b] where the type [t] is expected. *)
Definition float_literal (t a b : string) : option cval :=
  if digits_only a && digits_only b then
    let d := positional 10 (a ++ b) in
    let k := (- Z.of_nat (String.length b))%Z in
    if String.eqb t "f64" && finite (f64_of_dec d k) then Some (CReal (f64_of_dec d k))
    else if String.eqb t "f32" && finite (f32_of_dec d k) then Some (CReal (f32_of_dec d k)) else None
  else None.
Definition int_literal (t w : string) : option cval :=
  match literal w with Some z => if is_integer t && in_range t z then Some (CInt z) else None | None => None end.
(** The value of an expression where the type [t] is expected; none if this does not compile. *)
Definition value_of (l : list item) (t : rty) (e : ex) : option cval :=
  match t with
  | RPath [n] [] =>
      if visible l n then
        match e with
        | ENum w => int_literal n w
        | EFloat a b => float_literal n a b
        | EPath [SName x] =>
            if String.eqb n "bool" then
              if String.eqb x "true" then Some (CTruth true) else if String.eqb x "false" then Some (CTruth false) else None
            else None
        | _ => None
        end
      else None
  | RPath [k; n] [] =>
      if String.eqb k "tech_paws_runtime" && visible l k && among addresses n then
        match e with
        | EPost (EPath [SName k'; SName n']) [XCall [ENum w] _] => if String.eqb k k' && String.eqb n n' then int_literal "u64" w else None
        | _ => None
        end
      else None
  | _ => None
  end.

(** ** What compiles *)

Fixpoint const_ok (l : list item) (i : item) : bool :=
  match i with
  | IConst n t e => negb (among rust_words n) && match value_of l t e with Some _ => true | None => false end
  | IMod n l' =>
      negb (among rust_words n) && distinct (mod_names l' ++ type_names l') && distinct (const_names l') && forallb (const_ok l') l'
  | _ => true
  end.
(** Of a file: names are not used twice, types and modules have different names, no module hides a type of the language or the runtime, and the
    constants compile. *)
Definition consts_compile (items : list item) : bool :=
  distinct (mod_names items) && distinct (const_names items) && forallb (fun n => negb (among (type_names items) n)) (mod_names items) &&
  forallb (fun n => negb (among rust_types n)) (mod_names items) && forallb (const_ok items) items.

(** The constants with their types and values. *)
Inductive constant : list item -> list string -> list string -> cval -> Prop :=
| co_here : forall l n t e v, In (IConst n (RPath t []) e) l -> value_of l (RPath t []) e = Some v -> constant l [n] t v
| co_in : forall l n l' p t v, In (IMod n l') l -> constant l' p t v -> constant l (n :: p) t v.
