(** What the generated Swift means: which files compile, and the values of expressions.  Written from the Swift language
    rules for the constructs of [SwiftSyntax]; nothing here refers to the generator.

    Simplifications: types are checked against the type expected at the place (the generated expressions always have
    one); strings with [\] (escapes and interpolations) are not given a value; a float is represented by the double
    nearest to its digits, and whether a [Float] is too large is judged on this double; the types of the library are
    those listed in [builtin]. *)
Require Import Coq.Strings.String Coq.Strings.Ascii.
Require Import Coq.NArith.NArith Coq.ZArith.ZArith Coq.Lists.List Coq.Bool.Bool Coq.Arith.PeanoNat.
Require Import Verif.F64 Verif.LexSpec Verif.Code.
Require Verif.KotlinSyntax Verif.Single Verif.KotlinSem.
Require Import Verif.SwiftSyntax.
Import KotlinSyntax(digitc, among). Import KotlinSem(digits_first, distinct, each2). Import Single(single_range).
Import ListNotations.
Local Open Scope string_scope.
Local Open Scope list_scope.

(** A number of an integer type, a number of a floating type, a boolean, a string, an array with its element type, a
    struct with its properties, a case of an enum with its payload. *)
Inductive wval : Type :=
| WWhole (t : string) (n : N)
| WReal (t : string) (x : f64)
| WTruth (b : bool)
| WText (s : string)
| WArray (t : sty) (l : list wval)
| WStruct (n : string) (props : list (string * wval))
| WCase (e c : string) (payload : list wval).

(** ** Literals *)

Definition limit (t : string) : option N :=
  if String.eqb t "Int8" then Some (2 ^ 7)%N else if String.eqb t "Int32" then Some (2 ^ 31)%N
  else if String.eqb t "Int64" then Some (2 ^ 63)%N else if String.eqb t "UInt8" then Some (2 ^ 8)%N
  else if String.eqb t "UInt32" then Some (2 ^ 32)%N else if String.eqb t "UInt64" then Some (2 ^ 64)%N else None.
Definition real_value (t : string) (x : f64) : option wval :=
  match x with
  | F64Inf => None
  | _ =>
      if String.eqb t "Double" then Some (WReal t x)
      else if String.eqb t "Float" && single_range x then Some (WReal t x)
      else None
  end.

(** The value of the word [w] where the type [t] is expected: digits, for any type of numbers.  Numbers have no suffixes. *)
Definition num_value (t w : string) : option wval :=
  let (d, rest) := digits_first w in
  if negb (String.eqb d "") && String.eqb rest "" then
    match limit t with
    | Some top => if (positional 10 d <? top)%N then Some (WWhole t (positional 10 d)) else None
    | None => real_value t (f64_of_dec (positional 10 d) 0)
    end
  else None.
(** The value of [a.b]. *)
Definition float_value (t a b : string) : option wval :=
  let (c, rest_a) := digits_first a in
  let (d, rest) := digits_first b in
  if String.eqb rest_a "" && String.eqb rest "" && negb (String.eqb c "") && negb (String.eqb d "")
  then real_value t (f64_of_dec (positional 10 (c ++ d)) (- Z.of_nat (String.length d)))
  else None.

Definition plain_text (s : string) : bool :=
  all_chars (fun c => negb (Ascii.eqb c "\" || Ascii.eqb c """" || Ascii.eqb c (ascii_of_nat 10) || Ascii.eqb c (ascii_of_nat 13))) s.

(** ** Declarations *)

Definition zname (d : sdecl) : string :=
  match d with ZStruct n _ | ZEnum n _ | ZVar n _ | ZLet n _ _ | ZFunc _ n _ _ | ZCase n _ => n end.
Definition ztype (d : sdecl) : bool := match d with ZStruct _ _ | ZEnum _ _ => true | _ => false end.
(** A member of the values of a type, not of the type itself. *)
Definition of_values (d : sdecl) : bool := match d with ZVar _ _ | ZFunc false _ _ _ => true | _ => false end.
Definition type_names (l : list sdecl) : list string := map zname (filter ztype l).
Definition member_names (l : list sdecl) : list string := map zname (filter (fun d => negb (ztype d)) l).
Definition zfind (n : string) (l : list sdecl) : option sdecl := find (fun d => String.eqb (zname d) n) l.

(** Nothing is declared twice.  A member of the values may have the name of a member of the type. *)
Definition once (l : list sdecl) : bool :=
  distinct (map zname (filter of_values l)) && distinct (map zname (filter (fun d => negb (of_values d)) l)).

(** The stored properties of a struct, and the cases of an enum with the types of their payloads. *)
Definition properties (b : list sdecl) : list (string * sty) := flat_map (fun d => match d with ZVar n t => [(n, t)] | _ => [] end) b.
Definition cases (b : list sdecl) : list (string * list sty) := flat_map (fun d => match d with ZCase n ts => [(n, ts)] | _ => [] end) b.
Definition body_of (d : sdecl) : list sdecl := match d with ZStruct _ b | ZEnum _ b => b | _ => [] end.

Inductive sres : Type := SValue (v : wval) | SStuck | SMore.
Definition in_turn {A B} (f : A -> B -> sres) : list A -> list B -> sres + list wval :=
  fix go l m :=
    match l, m with
    | a :: l', b :: m' =>
        match f a b with
        | SValue v => match go l' m' with inr vs => inr (v :: vs) | inl r => inl r end
        | r => inl r
        end
    | _, _ => inr []
    end.

Definition builtin : list string :=
  ["Int8"; "Int32"; "Int64"; "UInt8"; "UInt32"; "UInt64"; "Float"; "Double"; "Bool"; "String"].

Definition labels_are {A} (args : list (option string * A)) (l : list (option string)) : bool :=
  Nat.eqb (List.length args) (List.length l) &&
  each2 (fun a b => match fst a, b with Some x, Some y => String.eqb x y | None, None => true | _, _ => false end) args l.

Section Scope.
(** The declarations of the file. *)
Variable ds : list sdecl.

(** The static function [n.m]: its type and expression. *)
Definition static (n m : string) : option (sty * sex) :=
  match zfind n ds with
  | Some d => match find (fun d => match d with ZFunc true k _ _ => String.eqb k m | _ => false end) (body_of d) with
              | Some (ZFunc _ _ t e) => Some (t, e)
              | _ => None
              end
  | None => None
  end.
(** The payload of the case [c] of the enum that the type [t] is. *)
Definition case_of (t : sty) (c : string) : option (string * list sty) :=
  match t with
  | STy n [] =>
      match zfind n ds with
      | Some (ZEnum _ b) => match find (fun p => String.eqb (fst p) c) (cases b) with Some p => Some (n, snd p) | None => None end
      | _ => None
      end
  | _ => None
  end.

(** [shadow]: the names of the types declared in the scopes around, which hide those of the library.  [members]: the
    names of the members of the type around, which hide the types of the file inside expressions. *)
Definition library (shadow : list string) (n : string) : bool := negb (among shadow n).

Fixpoint known (shadow : list string) (t : sty) : bool :=
  match t with
  | STy n [] => among shadow n || among builtin n
  | STy _ _ => false
  | SArr a => known shadow a
  end.

(** The value of an expression without calls. *)
Definition literal_of (shadow : list string) (t : sty) (e : sex) : option wval :=
  match t with
  | STy n [] =>
      if library shadow n then
        match e with
        | QNum w => num_value n w
        | QFloat a b => float_value n a b
        | QStr s => if String.eqb n "String" && plain_text s then Some (WText s) else None
        | QName m =>
            if String.eqb n "Bool" then
              if String.eqb m "true" then Some (WTruth true) else if String.eqb m "false" then Some (WTruth false) else None
            else None
        | _ => None
        end
      else None
  | STy _ _ => None
  | SArr a => match e with QList => Some (WArray a []) | _ => None end
  end.

Definition sty_is (n : string) (t : sty) : bool := match t with STy m [] => String.eqb n m | _ => false end.

(** The expression has the type [t]: the initialiser of a struct takes all its stored properties, labelled, in the order
    of their declarations; a case takes its payload without labels, and no parentheses if it has none. *)
Fixpoint typed (shadow members : list string) (t : sty) (e : sex) : bool :=
  match e with
  | QCall n args =>
      negb (among members n) &&
      match zfind n ds with
      | Some (ZStruct _ b) =>
          sty_is n t && labels_are args (map (fun p => Some (fst p)) (properties b)) &&
          each2 (fun a t => typed shadow members t (snd a)) args (map snd (properties b))
      | _ => false
      end
  | QMeth n [] m [] =>
      negb (among members n) && match static n m with Some (STy a [], _) => sty_is a t | _ => false end
  | QMeth _ _ _ _ => false
  | QCase c => match case_of t c with Some (_, []) => true | _ => false end
  | QCaseCall c args =>
      match case_of t c with
      | Some (_, (_ :: _) as ts) =>
          labels_are args (map (fun _ => None) ts) && each2 (fun a t => typed shadow members t (snd a)) args ts
      | _ => false
      end
  | _ => match literal_of shadow t e with Some _ => true | None => false end
  end.

(** The declaration is accepted: its types exist, its expressions have them, names are not declared twice; an enum has no
    stored properties, a struct has no cases. *)
Fixpoint decl_ok (shadow members : list string) (d : sdecl) : bool :=
  let inner b := once b && forallb (decl_ok (type_names b ++ shadow) (member_names b)) b in
  match d with
  | ZStruct n b => forallb (fun d => match d with ZCase _ _ => false | _ => true end) b && inner b
  | ZEnum n b => forallb (fun d => match d with ZVar _ _ => false | _ => true end) b && inner b
  | ZVar n t => known shadow t
  | ZLet n t e => known shadow t && typed shadow members t e
  | ZFunc _ n t e => known shadow t && typed shadow members t e
  | ZCase n ts => forallb (known shadow) ts
  end.

(** A type of finite size: following stored properties and payloads comes to an end; arrays are references. *)
Fixpoint sized (fuel : nat) (t : sty) : bool :=
  match t with
  | STy n [] =>
      match zfind n ds with
      | Some d =>
          match fuel with
          | 0 => false
          | S fuel' =>
              match d with
              | ZStruct _ b => forallb (fun p => sized fuel' (snd p)) (properties b)
              | ZEnum _ b => forallb (fun p => forallb (sized fuel') (snd p)) (cases b)
              | _ => true
              end
          end
      | None => true
      end
  | _ => true
  end.

(** The value of an expression; [fuel] bounds the depth of calls. *)
Definition of_option (o : option wval) : sres := match o with Some v => SValue v | None => SStuck end.

Fixpoint eval (fuel : nat) (shadow : list string) (t : sty) (e : sex) : sres :=
  match fuel with
  | 0 => SMore
  | S fuel' =>
      match e with
      | QCall n args =>
          match zfind n ds with
          | Some (ZStruct _ b) =>
              match in_turn (fun a t => eval fuel' shadow t (snd a)) args (map snd (properties b)) with
              | inr vs => SValue (WStruct n (combine (map fst (properties b)) vs))
              | inl r => r
              end
          | _ => SStuck
          end
      | QMeth n [] m [] =>
          match static n m with
          | Some (t', e') => eval fuel' shadow t' e'
          | _ => SStuck
          end
      | QMeth _ _ _ _ => SStuck
      | QCase c => match case_of t c with Some (n, []) => SValue (WCase n c []) | _ => SStuck end
      | QCaseCall c args =>
          match case_of t c with
          | Some (n, ts) =>
              match in_turn (fun a t => eval fuel' shadow t (snd a)) args ts with
              | inr vs => SValue (WCase n c vs)
              | inl r => r
              end
          | None => SStuck
          end
      | _ => of_option (literal_of shadow t e)
      end
  end.
End Scope.

(** The file is accepted: types at the top, declared once, accepted, and of finite size. *)
Definition compiles (ds : list sdecl) : bool :=
  forallb ztype ds && distinct (map zname ds) && forallb (decl_ok ds (type_names ds) []) ds &&
  forallb (fun d => sized ds (S (List.length ds)) (STy (zname d) [])) ds.

(** [n.createDefault()] in a file. *)
Definition run_default (ds : list sdecl) (fuel : nat) (n : string) : sres :=
  eval ds fuel (type_names ds) (STy n []) (QMeth n [] "createDefault" []).

(** A constant of the file: the path through the structs, its type and its value. *)
Inductive constant (shadow : list string) : list sdecl -> list string -> string -> wval -> Prop :=
| co_here : forall l n t e v, In (ZLet n (STy t []) e) l -> literal_of (type_names l ++ shadow) (STy t []) e = Some v -> constant shadow l [n] t v
| co_in : forall l n b p t v, In (ZStruct n b) l -> constant (type_names l ++ shadow) b p t v -> constant shadow l (n :: p) t v.
