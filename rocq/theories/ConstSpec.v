(** What the constants of a schema are, and the schemas whose constants should compile in Rust and in Dart; independent
    of the generators. *)
Require Import Coq.Strings.String Coq.Strings.Ascii.
Require Import Coq.NArith.NArith Coq.ZArith.ZArith Coq.Lists.List Coq.Bool.Bool.
Require Import Verif.Base Verif.Ast Verif.F64 Verif.CaseConv Verif.LexSpec Verif.Code.
Require Verif.RustSem Verif.RustDefault Verif.KotlinTree Verif.FloatShape Verif.Single.
Import RustSem(is_integer, in_range, prims). Import RustDefault(among, distinct). Import Single(single_range, single_value, is_single). Import FloatShape(integer_of). Import KotlinTree(finite_double).
Import ListNotations.
Local Open Scope string_scope.
Local Open Scope list_scope.

(** ** Values *)

Inductive cval : Type :=
| CInt (z : Z)
| CReal (x : f64)
| CText (s : string)
| CTruth (b : bool).

Definition addresses : list string := ["GroupAddress"; "CommandsBufferAddress"].
(** The value of a literal of a type; none if it is not a literal of the type. *)
Definition const_val (t : type_id) (l : Ast.literal) : option cval :=
  match l, t with
  | IntLit z, TyInteger _ _ _ => Some (CInt z)
  | IntLit z, TyOther n => if among addresses n then Some (CInt z) else None
  | NumberLit x, TyNumber _ _ => Some (CReal x)
  | BoolLit b, TyBool _ => Some (CTruth b)
  | StringLit s, TyOther n => if String.eqb n "String" then Some (CText s) else None
  | _, _ => None
  end.
(** An [f32] of Rust is the single nearest to the decimal text of the literal; every other value is the same. *)
Definition rust_val (t : type_id) (l : Ast.literal) (v : cval) : Prop :=
  match t, l with
  | TyNumber id _, NumberLit x => if String.eqb id "f32" then exists y, v = CReal y /\ single_value x y else const_val t l = Some v
  | _, _ => const_val t l = Some v
  end.
(** The literals that lose nothing in this. *)
Definition exact_literal (t : type_id) (l : Ast.literal) : Prop :=
  match t, l with
  | TyNumber id _, NumberLit x => id = "f32" -> is_single x
  | _, _ => True
  end.
Definition finite (x : f64) : bool := match x with F64Inf => false | F64Fin _ _ => true end.

(** ** Rust *)

(** The type of a constant, as a path. *)
Definition rust_const_type (t : type_id) : option (list string) :=
  match t with
  | TyInteger id _ _ | TyNumber id _ | TyBool id => Some [id]
  | TyOther n => if among addresses n then Some ["tech_paws_runtime"; n] else None
  | _ => None
  end.
(** The literals that Rust accepts: numbers in range, and floating-point numbers that have a fraction (the others are
    written without a point, as integers).  No strings: [String] is not the type of a string literal. *)
Definition rust_fits (t : type_id) (l : Ast.literal) : bool :=
  match l, t with
  | IntLit z, TyInteger id _ _ => is_integer id && (0 <=? z)%Z && in_range id z
  | IntLit z, TyOther n => among addresses n && (0 <=? z)%Z && in_range "u64" z
  | NumberLit x, TyNumber id _ => finite_double x && negb (f64_is_integral x) && (String.eqb id "f64" || (String.eqb id "f32" && single_range x))
  | BoolLit _, TyBool id => String.eqb id "bool"
  | _, _ => false
  end.
(** Names that are not names in Rust. *)
Definition rust_words : list string := ["self"; "Self"; "true"; "false"].
(** Names that a module may not hide. *)
Definition rust_types : list string := ["tech_paws_runtime"] ++ prims.
Definition item_blocks (items : list const_item) : list string :=
  flat_map (fun i => match i with ConstItemNode (ConstNode id _) => [id] | _ => [] end) items.
Definition item_values (items : list const_item) : list string :=
  flat_map (fun i => match i with ConstItemValue n _ _ => [n] | _ => [] end) items.
Fixpoint rust_block_fine (c : const_node) : bool :=
  match c with
  | ConstNode id items =>
      negb (among rust_types id) && negb (among rust_words id) && distinct (item_blocks items) && distinct (item_values items) &&
      forallb (fun i => match i with
                        | ConstItemValue n t (ConstLiteral l _) => negb (among rust_words n) && rust_fits t l
                        | ConstItemNode c' => rust_block_fine c'
                        end) items
  end.
Definition block_names (ast : list ast_node) : list string :=
  flat_map (fun n => match n with NConst (ConstNode id _) => [id] | _ => [] end) ast.
(** [others]: the names of the types of the file. *)
Definition rust_consts_fine (ast : list ast_node) (others : list string) : bool :=
  distinct (block_names ast) && forallb (fun n => negb (among others n)) (block_names ast) &&
  forallb (fun n => match n with NConst c => rust_block_fine c | _ => true end) ast.

(** ** Dart *)

Definition dart_const_type (t : type_id) : option string :=
  match t with
  | TyInteger _ _ _ => Some "int"
  | TyNumber _ _ => Some "double"
  | TyBool _ => Some "bool"
  | TyOther n => if among addresses n then Some "int" else if String.eqb n "String" then Some "String" else None
  | _ => None
  end.
(** Text that stands for itself between double quotes in Dart. *)
Definition dart_plain (s : string) : bool :=
  all_chars (fun c => negb (Ascii.eqb c "$" || Ascii.eqb c "\" || Ascii.eqb c """" || Ascii.eqb c (ascii_of_nat 10) || Ascii.eqb c (ascii_of_nat 13))) s.
(** The literals that Dart accepts: an [int] has 64 bits and a sign; whole floating-point numbers are written without a
    point, and of a large one not all digits are written. *)
Definition dart_fits (t : type_id) (l : Ast.literal) : bool :=
  match l, t with
  | IntLit z, TyInteger _ _ _ => (0 <=? z)%Z && (z <? 2 ^ 63)%Z
  | IntLit z, TyOther n => among addresses n && (0 <=? z)%Z && (z <? 2 ^ 63)%Z
  | NumberLit (F64Fin m e), TyNumber _ _ => finite_double (F64Fin m e) && (negb (f64_is_integral (F64Fin m e)) || (integer_of m e <? 2 ^ 53)%N)
  | BoolLit _, TyBool _ => true
  | StringLit s, TyOther n => String.eqb n "String" && dart_plain s
  | _, _ => false
  end.
Definition dart_types : list string := ["int"; "double"; "bool"; "String"].
(** The members that every object of Dart has. *)
Definition dart_object : list string := ["toString"; "noSuchMethod"; "runtimeType"; "hashCode"].
Definition item_name (i : const_item) : string := match i with ConstItemValue n _ _ => n | ConstItemNode (ConstNode id _) => id end.
Fixpoint dart_block_fine (c : const_node) : bool :=
  match c with
  | ConstNode _ items =>
      distinct (map (fun i => camel (item_name i)) items) &&
      forallb (fun i => negb (among (dart_types ++ dart_object) (camel (item_name i)))) items &&
      forallb (fun i => match i with
                        | ConstItemValue n t (ConstLiteral l _) => dart_fits t l
                        | ConstItemNode c' => dart_block_fine c'
                        end) items
  end.
(** The classes that hold the constants: one for each block, named after the blocks around it. *)
Fixpoint block_classes (prefix : string) (c : const_node) : list string :=
  match c with
  | ConstNode id items =>
      ("_" ++ prefix ++ pascal id)%string ::
      flat_map (fun i => match i with ConstItemNode n => block_classes (prefix ++ pascal id)%string n | _ => [] end) items
  end.
Fixpoint block_members (c : const_node) : list string :=
  match c with
  | ConstNode _ items =>
      map (fun i => camel (item_name i)) items ++
      flat_map (fun i => match i with ConstItemNode n => block_members n | _ => [] end) items
  end.
(** [tops]: the top-level names of the file. *)
Definition dart_consts_fine (ast : list ast_node) (tops : list string) : bool :=
  distinct tops && forallb (fun t => negb (among tops t)) dart_types &&
  forallb (fun n => match n with
                    | NConst c => dart_block_fine c && forallb (fun x => negb (among (block_members c) x)) (block_classes "" c)
                    | _ => true
                    end) ast.
