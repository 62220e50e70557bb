(** Specification for the types of fields (C65): which type of Rust, Dart, Kotlin and Swift belongs to a type of the schema.
    Types are compared by their names alone, with tables that are written here; the sizes and signs that the generators
    decide by are not used (src/rust_generator.rs:175-198, src/dart_generator.rs:547-575, src/kotlin/ir.rs:327-370 and
    src/swift/ir.rs:289-332, all [generate_type_id]). *)
Require Import Coq.Strings.String Coq.Lists.List Coq.Bool.Bool.
Require Import Verif.Ast Verif.SameTypesSpec.
Require Verif.RustSyntax Verif.DartSyntax Verif.KotlinSyntax Verif.SwiftSyntax.
Import ListNotations.
Local Open Scope string_scope.
Local Open Scope list_scope.

(** A type of any language: a name and arguments.  An array [[T]] of Swift is [Array<T>]. *)
Inductive shape : Type := Shape (n : string) (args : list shape).
Fixpoint rust_shape (t : RustSyntax.rty) : shape :=
  match t with
  | RustSyntax.RPath [n] l => Shape n (map rust_shape l)
  | _ => Shape "" []
  end.
Fixpoint dart_shape (t : DartSyntax.dty) : shape := match t with DartSyntax.DTy n l => Shape n (map dart_shape l) end.
Fixpoint kotlin_shape (t : KotlinSyntax.kty) : shape := match t with KotlinSyntax.KTy n l => Shape n (map kotlin_shape l) end.
Fixpoint swift_shape (t : SwiftSyntax.sty) : shape :=
  match t with
  | SwiftSyntax.STy n l => Shape n (map swift_shape l)
  | SwiftSyntax.SArr t => Shape "Array" [swift_shape t]
  end.

(** A language: the types that have a name of their own there, and the name of lists. *)
Record language : Type := mk_language { l_table : list (string * string); l_list : string }.
Definition rust : language := mk_language
  [("i8", "i8"); ("i32", "i32"); ("i64", "i64"); ("u8", "u8"); ("u32", "u32"); ("u64", "u64");
   ("f32", "f32"); ("f64", "f64"); ("bool", "bool"); ("char", "char")] "Vec".
Definition dart : language := mk_language
  [("i8", "int"); ("i32", "int"); ("i64", "int"); ("u8", "int"); ("u32", "int"); ("u64", "int");
   ("f32", "double"); ("f64", "double"); ("bool", "bool"); ("char", "int")] "List".
Definition kotlin : language := mk_language (("char", "Char") :: kotlin_types) "List".
Definition swift : language := mk_language (("char", "Character") :: swift_types) "Array".

(** What a type of the schema is called in a language: by the table, like in the schema if it is not in the table, and
    generic types with their arguments. *)
Definition simple (t : type_id) : bool := match t with TyGeneric _ _ => false | _ => true end.
Inductive means (L : language) : type_id -> shape -> Prop :=
| means_named t n : simple t = true -> In (type_name t, n) (l_table L) -> means L t (Shape n [])
| means_own n : ~ In n (map fst (l_table L)) -> means L (TyOther n) (Shape n [])
| means_list t s : means L t s -> means L (TyGeneric "Vec" [t]) (Shape (l_list L) [s])
| means_generic g ts ss : g <> "Vec" -> all_mean L ts ss -> means L (TyGeneric g ts) (Shape g ss)
with all_mean (L : language) : list type_id -> list shape -> Prop :=
| all_nil : all_mean L [] []
| all_cons t ts s ss : means L t s -> all_mean L ts ss -> all_mean L (t :: ts) (s :: ss).

(** Lists have one type of elements. *)
Fixpoint lists_fine (t : type_id) : bool :=
  match t with
  | TyGeneric g l => (if String.eqb g "Vec" then Nat.eqb (List.length l) 1 else true) && forallb lists_fine l
  | _ => true
  end.
(** No characters. *)
Fixpoint no_char (t : type_id) : bool :=
  match t with TyChar _ => false | TyGeneric _ l => forallb no_char l | _ => true end.

(** The types of the values of a case. *)
Definition case_types (i : enum_item) : list type_id :=
  match i with ItemEmpty _ _ => [] | ItemTuple _ _ l => map tf_type l | ItemStruct _ _ l => map sf_type l end.

(** The fields of a Dart class and of a Swift struct. *)
Definition dart_fields (ms : list DartSyntax.dmember) : list (string * DartSyntax.dty) :=
  flat_map (fun m => match m with DartSyntax.MField t n None => [(n, t)] | _ => [] end) ms.
Definition swift_vars (body : list SwiftSyntax.sdecl) : list (string * SwiftSyntax.sty) :=
  flat_map (fun d => match d with SwiftSyntax.ZVar n t => [(n, t)] | _ => [] end) body.
