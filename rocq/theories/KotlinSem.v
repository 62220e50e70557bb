(** What the generated Kotlin means: which files compile, and the values of expressions.  Written from the Kotlin
    language rules for the constructs of [KotlinSyntax]; nothing here refers to the generator.

    Simplifications: types are checked against the type expected at the place (the generated expressions always have
    one); a call has only positional or only named arguments; strings with [$] or [\] (templates and escapes) are not
    given a value; a [Float] is represented by the double with the same value. *)
Require Import Coq.Strings.String Coq.Strings.Ascii.
Require Import Coq.NArith.NArith Coq.ZArith.ZArith Coq.Lists.List Coq.Bool.Bool Coq.Arith.PeanoNat.
Require Import Verif.F64 Verif.LexSpec Verif.Code Verif.KotlinSyntax.
Require Verif.Single.
Import ListNotations.
Local Open Scope string_scope.
Local Open Scope list_scope.

(** A number of an integer type, a number of a floating type, a boolean, a string, a list with its element type, the
    instance of an object declaration, an instance of a class with its properties. *)
Inductive kval : Type :=
| VWhole (t : string) (n : N)
| VReal (t : string) (x : f64)
| VTruth (b : bool)
| VText (s : string)
| VList (t : kty) (l : list kval)
| VObject (n : string)
| VNew (n : string) (props : list (string * kval)).

(** ** Literals *)

Fixpoint digits_first (s : string) : string * string :=
  match s with
  | "" => ("", "")
  | String c s' => if digitc c then let (d, r) := digits_first s' in (String c d, r) else ("", s)
  end.
(** Decimal digits without leading zeros. *)
Definition decimal (d : string) : bool :=
  match d with "" => false | "0" => true | String c _ => negb (Ascii.eqb c "0") end.

Definition limit (t : string) : option N :=
  if String.eqb t "Byte" then Some (2 ^ 7)%N else if String.eqb t "Int" then Some (2 ^ 31)%N
  else if String.eqb t "Long" then Some (2 ^ 63)%N else if String.eqb t "UByte" then Some (2 ^ 8)%N
  else if String.eqb t "UInt" then Some (2 ^ 32)%N else if String.eqb t "ULong" then Some (2 ^ 64)%N else None.
(** The integer types of a literal with this suffix. *)
Definition suffix_types (suffix : string) : list string :=
  if String.eqb suffix "" then ["Byte"; "Int"; "Long"] else if String.eqb suffix "L" then ["Long"]
  else if String.eqb suffix "U" then ["UByte"; "UInt"; "ULong"] else if String.eqb suffix "UL" then ["ULong"] else [].

(** The value of d * 10^k with a suffix. *)
Definition real_value (t suffix : string) (d : N) (k : Z) : option kval :=
  if String.eqb suffix "" && String.eqb t "Double" then
    match f64_of_dec d k with F64Inf => None | x => Some (VReal t x) end
  else if String.eqb suffix "f" && String.eqb t "Float" then
    match Single.f32_of_dec d k with F64Inf => None | y => Some (VReal t y) end
  else None.

(** The value of the word [w] where the type [t] is expected. *)
Definition num_value (t w : string) : option kval :=
  let (d, suffix) := digits_first w in
  if decimal d then
    match limit t with
    | Some top =>
        if among (suffix_types suffix) t && (positional 10 d <? top)%N then Some (VWhole t (positional 10 d)) else None
    | None => if String.eqb suffix "f" then real_value t suffix (positional 10 d) 0 else None
    end
  else None.
(** The value of [a.b]. *)
Definition float_value (t a b : string) : option kval :=
  let (c, suffix_a) := digits_first a in
  let (d, suffix) := digits_first b in
  if String.eqb suffix_a "" && negb (String.eqb c "") && negb (String.eqb d "")
  then real_value t suffix (positional 10 (c ++ d)) (- Z.of_nat (String.length d))
  else None.

Definition plain_text (s : string) : bool :=
  all_chars (fun c => negb (Ascii.eqb c "$" || Ascii.eqb c "\" || Ascii.eqb c """" || Ascii.eqb c (ascii_of_nat 10) || Ascii.eqb c (ascii_of_nat 13))) s.

(** ** Declarations *)

Definition yname (d : kdecl) : string :=
  match d with YFun n _ _ | YConst n _ _ | YObject n _ _ | YClass _ n _ _ _ | YInterface _ n _ => n | YCompanion _ => "Companion" end.
Definition ytype (d : kdecl) : bool := match d with YFun _ _ _ | YConst _ _ _ => false | _ => true end.
(** The names of types that a list of declarations introduces. *)
Definition type_names (l : list kdecl) : list string := map yname (filter ytype l).
Definition kfind (n : string) (l : list kdecl) : option kdecl := find (fun d => String.eqb (yname d) n) l.
Fixpoint distinct (l : list string) : bool := match l with [] => true | x :: l' => negb (among l' x) && distinct l' end.

Definition supers_of (d : kdecl) : list string := match d with YObject _ ss _ | YClass _ _ _ ss _ => ss | _ => [] end.
Definition body_of (d : kdecl) : list kdecl := match d with YObject _ _ b | YClass _ _ _ _ b | YInterface _ _ b => b | _ => [] end.
(** The function [n.m]: its type and expression. *)
Definition static (ds : list kdecl) (n m : string) : option (kty * kex) :=
  match kfind n ds with
  | Some d =>
      match find (fun d => match d with YCompanion _ => true | _ => false end) (body_of d) with
      | Some (YCompanion b) => match kfind m b with Some (YFun _ t e) => Some (t, e) | _ => None end
      | _ => None
      end
  | None => None
  end.

(** The declared type [a] can stand where [t] is expected. *)
Definition stands_for (ds : list kdecl) (a : string) (t : kty) : bool :=
  match t with
  | KTy m [] => String.eqb a m || match kfind a ds with Some d => among (supers_of d) m | None => false end
  | _ => false
  end.

(** The types at which the arguments of a call are expected, given the parameters and the labels of the arguments. *)
Definition arg_types (ps : list (string * kty)) (labels : list (option string)) : option (list kty) :=
  if negb (Nat.eqb (List.length ps) (List.length labels)) then None
  else if forallb (fun l => match l with None => true | Some _ => false end) labels then Some (map snd ps)
  else if distinct (map (fun l => match l with Some n => n | None => "" end) labels)
  then fold_right (fun l acc =>
         match l, acc with
         | Some n, Some ts => match find (fun p => String.eqb (fst p) n) ps with Some p => Some (snd p :: ts) | None => None end
         | _, _ => None
         end) (Some []) labels
  else None.
(** The properties in the order of the parameters. *)
Definition arrange (ps : list (string * kty)) (args : list (option string * kval)) : list (string * kval) :=
  match args with
  | (Some _, _) :: _ =>
      flat_map (fun p => match find (fun a => match fst a with Some n => String.eqb n (fst p) | None => false end) args with
                         | Some a => [(fst p, snd a)]
                         | None => []
                         end) ps
  | _ => combine (map fst ps) (map snd args)
  end.

Definition each2 {A B} (f : A -> B -> bool) : list A -> list B -> bool :=
  fix go l m := match l, m with a :: l', b :: m' => f a b && go l' m' | _, _ => true end.

(** The result of evaluating an expression: a value, a program that would not have compiled, or not finished within the
    number of calls given. *)
Inductive kres : Type := KValue (v : kval) | KStuck | KMore.
Definition in_turn {A B} (f : A -> B -> kres) : list A -> list B -> kres + list kval :=
  fix go l m :=
    match l, m with
    | a :: l', b :: m' =>
        match f a b with
        | KValue v => match go l' m' with inr vs => inr (v :: vs) | inl r => inl r end
        | r => inl r
        end
    | _, _ => inr []
    end.

Section Scope.
(** The declarations of the file, and the names of the types declared in the scopes around (which hide those of the library). *)
Variable ds : list kdecl.

Definition library (shadow : list string) (n : string) : bool := negb (among shadow n).

Fixpoint known (shadow : list string) (t : kty) : bool :=
  match t with
  | KTy n [] =>
      among shadow n ||
      among ["Byte"; "Int"; "Long"; "UByte"; "UInt"; "ULong"; "Float"; "Double"; "Boolean"; "Char"; "String"] n
  | KTy n [a] => library shadow n && String.eqb n "List" && known shadow a
  | _ => false
  end.

(** The value of an expression without calls. *)
Definition literal_of (shadow : list string) (t : kty) (e : kex) : option kval :=
  match t with
  | KTy n [] =>
      if library shadow n then
        match e with
        | XNum w => num_value n w
        | XFloat a b => float_value n a b
        | XStr s => if String.eqb n "String" && plain_text s then Some (VText s) else None
        | XName m =>
            if String.eqb n "Boolean" then
              if String.eqb m "true" then Some (VTruth true) else if String.eqb m "false" then Some (VTruth false) else None
            else None
        | _ => None
        end
      else None
  | _ => None
  end.
Definition empty_list (shadow : list string) (t : kty) (n : string) (args : list (option string * kex)) : option kval :=
  match t, args with
  | KTy m [a], [] => if String.eqb n "listOf" && String.eqb m "List" && library shadow "List" then Some (VList a []) else None
  | _, _ => None
  end.

(** The expression has a type that can stand where [t] is expected. *)
Fixpoint typed (shadow : list string) (t : kty) (e : kex) : bool :=
  match e with
  | XCall n args =>
      match kfind n ds with
      | Some (YClass _ _ ps _ _) =>
          stands_for ds n t &&
          match arg_types ps (map fst args) with
          | Some ts => each2 (fun a t => typed shadow t (snd a)) args ts
          | None => false
          end
      | Some _ => false
      | None => match empty_list shadow t n args with Some _ => true | None => false end
      end
  | XMeth n m [] [] => match static ds n m with Some (KTy a [], _) => stands_for ds a t | _ => false end
  | XMeth _ _ _ _ => false
  | XName n =>
      match kfind n ds with
      | Some (YObject _ _ _) => stands_for ds n t
      | Some _ => false
      | None => match literal_of shadow t e with Some _ => true | None => false end
      end
  | _ => match literal_of shadow t e with Some _ => true | None => false end
  end.

Definition supers_ok (l : list string) : bool :=
  forallb (fun s => match kfind s ds with Some (YInterface _ _ _) => true | _ => false end) l.

(** The declaration is accepted: its types exist, its expressions have them, names are not declared twice, a data class
    has a property, supertypes are interfaces, a constant is a number, a boolean or a string. *)
Fixpoint decl_ok (shadow : list string) (d : kdecl) : bool :=
  let inner b := distinct (map yname b) && forallb (decl_ok (type_names b ++ shadow)) b in
  match d with
  | YFun n t e => known shadow t && typed shadow t e
  | YConst n t e => match literal_of shadow t e with Some _ => true | None => false end
  | YObject n ss b => supers_ok ss && inner b
  | YClass data n ps ss b =>
      negb (data && match ps with [] => true | _ => false end) && distinct (map fst ps) && forallb (fun p => known shadow (snd p)) ps &&
      supers_ok ss && inner b
  | YInterface _ n b => inner b
  | YCompanion b => inner b
  end.

(** The value of an expression; [fuel] bounds the depth of calls. *)
Definition of_option (o : option kval) : kres := match o with Some v => KValue v | None => KStuck end.

Fixpoint eval (fuel : nat) (shadow : list string) (t : kty) (e : kex) : kres :=
  match fuel with
  | 0 => KMore
  | S fuel' =>
      match e with
      | XCall n args =>
          match kfind n ds with
          | Some (YClass _ _ ps _ _) =>
              match arg_types ps (map fst args) with
              | Some ts =>
                  match in_turn (fun a t => eval fuel' shadow t (snd a)) args ts with
                  | inr vs => if stands_for ds n t then KValue (VNew n (arrange ps (combine (map fst args) vs))) else KStuck
                  | inl r => r
                  end
              | None => KStuck
              end
          | Some _ => KStuck
          | None => of_option (empty_list shadow t n args)
          end
      | XMeth n m [] [] =>
          match static ds n m with
          | Some (KTy a [], e') => if stands_for ds a t then eval fuel' shadow (KTy a []) e' else KStuck
          | _ => KStuck
          end
      | XMeth _ _ _ _ => KStuck
      | XName n =>
          match kfind n ds with
          | Some (YObject _ _ _) => if stands_for ds n t then KValue (VObject n) else KStuck
          | Some _ => KStuck
          | None => of_option (literal_of shadow t e)
          end
      | _ => of_option (literal_of shadow t e)
      end
  end.
End Scope.

(** The file is accepted.  A declaration named [Companion] would be hidden inside the classes; this is left out. *)
Definition compiles (ds : list kdecl) : bool :=
  distinct (map yname ds) && negb (among (map yname ds) "Companion") && forallb (decl_ok ds (type_names ds)) ds.

(** [n.createDefault()] in a file. *)
Definition run_default (ds : list kdecl) (fuel : nat) (n : string) : kres :=
  eval ds fuel (type_names ds) (KTy n []) (XMeth n "createDefault" [] []).

(** A constant of the file: the path through the objects, and its value. *)
Inductive constant (shadow : list string) : list kdecl -> list string -> string -> kval -> Prop :=
| co_here : forall l n t e v, In (YConst n (KTy t []) e) l -> literal_of (type_names l ++ shadow) (KTy t []) e = Some v -> constant shadow l [n] t v
| co_in : forall l n ss b p t v, In (YObject n ss b) l -> constant (type_names l ++ shadow) b p t v -> constant shadow l (n :: p) t v.
