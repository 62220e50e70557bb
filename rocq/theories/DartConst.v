(** What the constants of a generated Dart file mean: which of them compile, and their values.  Written from the Dart
    language rules for the constructs of [DartSyntax]; nothing here refers to the generator.

    Simplifications: of the library only [int], [double], [bool], [String] and the members of [Object] are known; a
    constant object is looked at through its final fields, which are literals or constant objects again. *)
Require Import Coq.Strings.String Coq.Strings.Ascii.
Require Import Coq.NArith.NArith Coq.ZArith.ZArith Coq.Lists.List Coq.Bool.Bool.
Require Import Verif.Base Verif.F64 Verif.LexSpec Verif.NumText Verif.Code Verif.DartSyntax Verif.ConstSpec.
Require Verif.DartSem Verif.RustDefault Verif.FloatShape Verif.DartRun.
Import DartSem(find_class). Import RustDefault(among, distinct). Import FloatShape(integer_of). Import DartRun(top_names).
Import ListNotations.
Local Open Scope string_scope.
Local Open Scope list_scope.

Definition member_names (ms : list dmember) : list string :=
  flat_map (fun m => match m with
                     | MStatic n _ | MLate _ n | MFinal _ n _ | MField _ n _ | MGet _ n _ | MMeth _ _ n _ _ => [n]
                     | _ => []
                     end) ms.

Section File.
Variable items : list ditem.

(** In a class with the members [ms] a name of the library means itself unless something has the name. *)
Definition visible (ms : list dmember) (n : string) : bool := negb (among (top_names items) n || among (member_names ms) n).

(** ** Values *)

Definition digits_only (s : string) : bool := negb (String.eqb s "") && all_chars digitb s.
(** An integer where a [double] is expected has to be one. *)
Definition exact_double (n : N) : option f64 :=
  match f64_of_dec n 0 with
  | F64Fin m e => if f64_is_integral (F64Fin m e) && (integer_of m e =? n)%N then Some (F64Fin m e) else None
  | F64Inf => None
  end.
(** The value of an expression where the type [t] is expected; none if this does not compile. *)
Definition value_of (ms : list dmember) (t : string) (e : dex) : option cval :=
  if visible ms t then
    match e with
    | DNum w =>
        if digits_only w then
          if String.eqb t "int" then if (positional 10 w <? 2 ^ 63)%N then Some (CInt (Z.of_N (positional 10 w))) else None
          else if String.eqb t "double" then option_map CReal (exact_double (positional 10 w))
          else None
        else None
    | DFloat a b =>
        if String.eqb t "double" && digits_only a && digits_only b then
          let x := f64_of_dec (positional 10 (a ++ b)) (- Z.of_nat (String.length b)) in
          if finite x then Some (CReal x) else None
        else None
    | DStr s => if String.eqb t "String" && dart_plain s then Some (CText s) else None
    | DName x [] =>
        if String.eqb t "bool" then
          if String.eqb x "true" then Some (CTruth true) else if String.eqb x "false" then Some (CTruth false) else None
        else None
    | _ => None
    end
  else None.

(** The class of the constant object [const C()], or [C()] where a constant is expected. *)
Definition object_class (e : dex) : option string :=
  match e with
  | DConst n [] [] _ => Some n
  | DPost (DName n []) [XCall [] _] => Some n
  | _ => None
  end.
(** A class that has constant objects without arguments: it has such a constructor and all its fields have values. *)
Definition holder (ms : list dmember) : bool :=
  existsb (fun m => match m with MConstCtor _ => true | _ => false end) ms &&
  forallb (fun m => match m with MConstCtor _ | MFinal _ _ (Some _) => true | _ => false end) ms.
Definition has_object (n : string) : bool := match find_class n items with Some ms => holder ms | None => false end.

(** ** What compiles *)

Definition member_ok (c : string) (ms : list dmember) (m : dmember) : bool :=
  match m with
  | MConstCtor n => String.eqb n c
  | MFinal (Some (DTy t [])) n (Some e) =>
      negb (String.eqb n c) &&
      (negb (among dart_object n) || (String.eqb n "hashCode" && String.eqb t "int")) &&
      match value_of ms t e with Some _ => true | None => false end
  | MFinal None n (Some e) =>
      negb (String.eqb n c) && negb (among dart_object n) &&
      match object_class e with Some k => negb (among (member_names ms) k) && has_object k | None => false end
  | _ => false
  end.
(** The classes that hold constants: they have a constant constructor and fields, but no methods. *)
Definition item_ok (i : ditem) : bool :=
  match i with
  | DConstDecl _ e => match object_class e with Some k => has_object k | None => false end
  | DClass c _ ms => negb (holder ms) || (distinct (member_names ms) && forallb (member_ok c ms) ms)
  | _ => true
  end.
Definition consts_compile : bool := distinct (top_names items) && forallb item_ok items.

(** ** The constants with their types and values *)

Inductive held : list dmember -> list string -> string -> cval -> Prop :=
| he_here : forall ms n t e v, In (MFinal (Some (DTy t [])) n (Some e)) ms -> value_of ms t e = Some v -> held ms [n] t v
| he_in : forall ms n e k ms' p t v, In (MFinal None n (Some e)) ms -> object_class e = Some k -> find_class k items = Some ms' -> held ms' p t v ->
    held ms (n :: p) t v.
(** The constant [n.p] of the file. *)
Inductive constant : list string -> string -> cval -> Prop :=
| co_at : forall n e k ms p t v, In (DConstDecl n e) items -> object_class e = Some k -> find_class k items = Some ms -> held ms p t v ->
    constant (n :: p) t v.
End File.
