(** What the type declarations and the [Default] implementations of a generated Rust file mean: which of them compile,
    and the value of [T::default()].  Written from the Rust language rules for the constructs of [RustSyntax]; nothing
    here refers to the generator.

    Simplifications: an expression is checked against the type expected at its place (the generated expressions always
    have one); a float literal has a value only if all its digits are zero; of the library, the primitive types, [String]
    and [Vec] are known, and no type is imported; the other parts of the file (codecs, handlers, constants) are not
    looked at here. *)
Require Import Coq.Strings.String Coq.Strings.Ascii.
Require Import Coq.NArith.NArith Coq.ZArith.ZArith Coq.Lists.List Coq.Bool.Bool Coq.Arith.PeanoNat.
Require Import Verif.RustSyntax Verif.RustSem.
Import ListNotations.
Local Open Scope string_scope.
Local Open Scope list_scope.

Definition among (l : list string) (n : string) : bool := existsb (String.eqb n) l.
Fixpoint distinct (l : list string) : bool := match l with [] => true | x :: l' => negb (among l' x) && distinct l' end.

Fixpoint rty_eqb (a b : rty) : bool :=
  match a, b with
  | RPath p l, RPath q m =>
      (fix eqp (p q : list string) : bool :=
         match p, q with [], [] => true | x :: p', y :: q' => String.eqb x y && eqp p' q' | _, _ => false end) p q &&
      (fix eql (l m : list rty) : bool :=
         match l, m with [], [] => true | x :: l', y :: m' => rty_eqb x y && eql l' m' | _, _ => false end) l m
  | RRef s u t, RRef s' u' t' => Bool.eqb s s' && Bool.eqb u u' && rty_eqb t t'
  | RUnsafeFn t, RUnsafeFn t' => rty_eqb t t'
  | _, _ => false
  end.
Definition rty_is (n : string) (t : rty) : bool := match t with RPath [m] [] => String.eqb n m | _ => false end.

(** ** Declarations *)

(** A struct without fields, a struct with fields, an enum. *)
Inductive shape : Type :=
| HUnit
| HFields (l : list (string * rty))
| HCases (l : list variant).
Definition item_shape (n : string) (i : item) : option shape :=
  match i with
  | IStruct m None => if String.eqb n m then Some HUnit else None
  | IStruct m (Some l) => if String.eqb n m then Some (HFields l) else None
  | IEnum m l => if String.eqb n m then Some (HCases l) else None
  | _ => None
  end.
Fixpoint first_of {A B} (f : A -> option B) (l : list A) : option B :=
  match l with [] => None | x :: l' => match f x with Some y => Some y | None => first_of f l' end end.
Definition shape_of (items : list item) (n : string) : option shape := first_of (item_shape n) items.
Definition type_names (items : list item) : list string :=
  flat_map (fun i => match i with IStruct n _ | IEnum n _ => [n] | _ => [] end) items.

(** The functions of [impl Default for n]. *)
Definition item_default (n : string) (i : item) : option (list rfn) :=
  match i with
  | IImpl tr (RPath [m] []) fns => if String.eqb tr "Default" && String.eqb n m then Some fns else None
  | _ => None
  end.
Definition default_of (items : list item) (n : string) : option (list rfn) := first_of (item_default n) items.
Definition default_names (items : list item) : list string :=
  flat_map (fun i => match i with IImpl tr (RPath [m] []) _ => if String.eqb tr "Default" then [m] else [] | _ => [] end) items.
(** The expression of [fn default() -> Self]. *)
Definition default_body (fns : list rfn) : option ex :=
  match fns with
  | [f] =>
      match rf_name f, rf_params f, rf_ret f, rf_body f with
      | "default", [], Some t, Blk [] (Some e) => if rty_is "Self" t then Some e else None
      | _, _, _, _ => None
      end
  | _ => None
  end.

Definition variant_name (v : variant) : string := match v with VUnit n | VTuple n _ | VStruct n _ => n end.
Definition find_variant (c : string) (l : list variant) : option variant := find (fun v => String.eqb (variant_name v) c) l.
Definition named {A} (x : string) (l : list (string * A)) : option A :=
  match find (fun p => String.eqb (fst p) x) l with Some p => Some (snd p) | None => None end.

Section File.
Variable items : list item.

Definition declares (n : string) : bool := match shape_of items n with Some _ => true | None => false end.

(** ** Types *)

Fixpoint known (t : rty) : bool :=
  match t with
  | RPath [n] [] => declares n || is_prim n || String.eqb n "String"
  | RPath [n] [a] => String.eqb n "Vec" && negb (declares n) && known a
  | _ => false
  end.

(** A type of finite size: following fields comes to an end; the elements of a [Vec] are elsewhere. *)
Fixpoint sized (fuel : nat) (t : rty) : bool :=
  match t with
  | RPath [n] [] =>
      match shape_of items n, fuel with
      | None, _ | Some HUnit, _ => true
      | Some _, 0 => false
      | Some (HFields l), S fuel' => forallb (fun p => sized fuel' (snd p)) l
      | Some (HCases l), S fuel' =>
          forallb (fun v => match v with
                            | VUnit _ => true
                            | VTuple _ ts => forallb (sized fuel') ts
                            | VStruct _ fs => forallb (fun p => sized fuel' (snd p)) fs
                            end) l
      end
  | _ => true
  end.

(** ** Literals *)

Definition zero_digits (s : string) : bool :=
  negb (String.eqb s "") && String.eqb s (String.concat "" (repeat "0" (String.length s))).
(** The value of an expression without calls where the primitive type [p] is expected. *)
Definition prim_value (p : string) (e : ex) : option val :=
  if declares p then None else
  match e with
  | ENum w => match literal w with Some z => if is_integer p && in_range p z then Some (vnum p z) else None | None => None end
  | EFloat a b => if among ["f32"; "f64"] p && zero_digits a && zero_digits b then Some (vnum p 0) else None
  | EPath [SName x] =>
      if String.eqb p "bool" then
        if String.eqb x "true" then Some (vnum "bool" 1) else if String.eqb x "false" then Some (vnum "bool" 0) else None
      else None
  | _ => None
  end.
Definition rty_prim (t : rty) (e : ex) : option val := match t with RPath [p] [] => prim_value p e | _ => None end.

(** ** Expressions inside [impl Default for slf] *)

Definition each2 {A B} (f : A -> B -> bool) : list A -> list B -> bool :=
  fix go l m := match l, m with [], [] => true | a :: l', b :: m' => f a b && go l' m' | _, _ => false end.

(** The expression has the type [t].  The fields of a struct are all given, each once, in any order. *)
Fixpoint fits (slf : string) (t : rty) (e : ex) : bool :=
  let fields (l : list (string * rty)) (fs : list (string * ex)) :=
    Nat.eqb (List.length fs) (List.length l) && distinct (map fst fs) &&
    forallb (fun '(x, e) => match named x l with Some u => fits slf u e | None => false end) fs in
  match e with
  | EStruct [SName s] fs =>
      String.eqb s "Self" && rty_is slf t && match shape_of items slf with Some (HFields l) => fields l fs | _ => false end
  | EStruct [SName s; SName c] fs =>
      String.eqb s "Self" && rty_is slf t &&
      match shape_of items slf with
      | Some (HCases vs) => match find_variant c vs with Some (VStruct _ l) => fields l fs | _ => false end
      | _ => false
      end
  | EPath [SName s; SName c] =>
      String.eqb s "Self" && rty_is slf t &&
      match shape_of items slf with
      | Some (HCases vs) => match find_variant c vs with Some (VUnit _) => true | _ => false end
      | _ => false
      end
  | EPost (EPath [SName s; SName c]) [XCall args _] =>
      if String.eqb s "Self" then
        rty_is slf t &&
        match shape_of items slf with
        | Some (HCases vs) => match find_variant c vs with Some (VTuple _ ts) => each2 (fun a u => fits slf u a) args ts | _ => false end
        | _ => false
        end
      else
        String.eqb c "default" && match args with [] => true | _ => false end && rty_is s t &&
        if declares s then match default_of items s with Some _ => true | None => false end else String.eqb s "String"
  | EPost (EPath [SName g; SArgs [a]; SName c]) [XCall args _] =>
      String.eqb c "default" && match args with [] => true | _ => false end &&
      String.eqb g "Vec" && negb (declares g) && rty_eqb t (RPath [g] [a])
  | EPath [SName s] =>
      if String.eqb s "Self" then rty_is slf t && match shape_of items slf with Some HUnit => true | _ => false end
      else match rty_prim t e with Some _ => true | None => false end
  | _ => match rty_prim t e with Some _ => true | None => false end
  end.

(** ** Values *)

Inductive rres : Type := RValue (v : val) | RStuck | RMore.
Definition in_turn {A} (f : A -> rres) : list A -> rres + list val :=
  fix go l :=
    match l with
    | [] => inr []
    | a :: l' => match f a with RValue v => match go l' with inr vs => inr (v :: vs) | inl r => inl r end | r => inl r end
    end.

(** [String::default()]. *)
Variable text : N.

(** The value of an expression; [fuel] bounds the depth of calls.  Fields are put in the order of the declaration. *)
Fixpoint eval (fuel : nat) (slf : string) (t : rty) (e : ex) : rres :=
  match fuel with
  | 0 => RMore
  | S fuel' =>
      let fields (l : list (string * rty)) (fs : list (string * ex)) (k : list (string * val) -> val) :=
        match in_turn (fun p => match named (fst p) fs with Some e => eval fuel' slf (snd p) e | None => RStuck end) l with
        | inr vs => RValue (k (combine (map fst l) vs))
        | inl r => r
        end in
      match e with
      | EStruct [SName _] fs =>
          match shape_of items slf with Some (HFields l) => fields l fs (vrec slf) | _ => RStuck end
      | EStruct [SName _; SName c] fs =>
          match shape_of items slf with
          | Some (HCases vs) => match find_variant c vs with Some (VStruct _ l) => fields l fs (vcases slf c) | _ => RStuck end
          | _ => RStuck
          end
      | EPath [SName _; SName c] => RValue (vcase slf c)
      | EPost (EPath [SName s; SName c]) [XCall args _] =>
          if String.eqb s "Self" then
            match shape_of items slf with
            | Some (HCases vs) =>
                match find_variant c vs with
                | Some (VTuple _ ts) =>
                    match in_turn (fun p => eval fuel' slf (snd p) (fst p)) (combine args ts) with
                    | inr vs => RValue (vcaset slf c vs)
                    | inl r => r
                    end
                | _ => RStuck
                end
            | _ => RStuck
            end
          else if declares s then
            match default_of items s with
            | Some fns => match default_body fns with Some e' => eval fuel' s (RPath [s] []) e' | None => RStuck end
            | None => RStuck
            end
          else if String.eqb s "String" then RValue (vext "String" text)
          else RStuck
      | EPost (EPath [SName g; SArgs [a]; SName c]) [XCall args _] => if String.eqb g "Vec" then RValue (vbox "Vec" 0 []) else RStuck
      | EPath [SName s] =>
          if String.eqb s "Self" then RValue (vrec slf [])
          else match rty_prim t e with Some v => RValue v | None => RStuck end
      | _ => match rty_prim t e with Some v => RValue v | None => RStuck end
      end
  end.
End File.

(** ** The file *)

(** Types exist; names are not declared twice; [Default] is the trait of the library, implemented once for a type. *)
Definition item_ok (items : list item) (i : item) : bool :=
  match i with
  | IStruct n (Some l) => distinct (map fst l) && forallb (fun p => known items (snd p)) l
  | IEnum n vs =>
      distinct (map variant_name vs) &&
      forallb (fun v => match v with
                        | VUnit _ => true
                        | VTuple _ ts => forallb (known items) ts
                        | VStruct _ l => distinct (map fst l) && forallb (fun p => known items (snd p)) l
                        end) vs
  | IImpl tr t fns =>
      if String.eqb tr "Default" then
        match t with
        | RPath [n] [] => declares items n && match default_body fns with Some e => fits items n t e | None => false end
        | _ => false
        end
      else true
  | _ => true
  end.
Definition types_compile (items : list item) : bool :=
  distinct (type_names items) && forallb (fun n => negb (among ["Default"; "Self"] n)) (type_names items) &&
  distinct (default_names items) && forallb (item_ok items) items &&
  forallb (fun n => sized items (S (List.length (type_names items))) (RPath [n] [])) (type_names items).

(** [n::default()] in a file. *)
Definition run_default (items : list item) (text : N) (fuel : nat) (n : string) : rres :=
  eval items text fuel "" (RPath [n] []) (EPost (EPath [SName n; SName "default"]) [XCall [] false]).
