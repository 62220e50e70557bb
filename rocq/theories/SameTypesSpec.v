(** Specification for the types of constants (C58): which type of Kotlin and of Swift belongs to a type of the schema, by
    the names alone.  The sizes and signs are those that the names say; the generators decide by size and sign
    (src/kotlin/ir.rs:327-370 and src/swift/ir.rs:289-332 [generate_type_id]). *)
Require Import Coq.Strings.String Coq.Lists.List.
Require Import Verif.Ast.
Import ListNotations.
Local Open Scope string_scope.
Local Open Scope list_scope.

(** The name of a type as the schema writes it. *)
Definition type_name (t : type_id) : string :=
  match t with
  | TyInteger n _ _ | TyNumber n _ | TyBool n | TyChar n | TyGeneric n _ | TyOther n => n
  end.

Definition kotlin_types : list (string * string) :=
  [("i8", "Byte"); ("i32", "Int"); ("i64", "Long"); ("u8", "UByte"); ("u32", "UInt"); ("u64", "ULong");
   ("f32", "Float"); ("f64", "Double"); ("bool", "Boolean"); ("String", "String");
   ("GroupAddress", "ULong"); ("CommandsBufferAddress", "ULong")].

Definition swift_types : list (string * string) :=
  [("i8", "Int8"); ("i32", "Int32"); ("i64", "Int64"); ("u8", "UInt8"); ("u32", "UInt32"); ("u64", "UInt64");
   ("f32", "Float"); ("f64", "Double"); ("bool", "Bool"); ("String", "String");
   ("GroupAddress", "UInt64"); ("CommandsBufferAddress", "UInt64")].
