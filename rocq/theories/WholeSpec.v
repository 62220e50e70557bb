(** Specification for what a generated file says about its schema (C67): the types of a schema with everything that the bytes of
    their values depend on, the names and types of fields, the cases of enums and their numbers
    (src/ast.rs:42-54 and 66-82; the positions of fields only order them, src/parser.rs:243-305). *)
Require Import Coq.Strings.String Coq.NArith.NArith Coq.Lists.List.
Require Import Verif.Ast.
Import ListNotations.

Inductive case_contents : Type :=
| CNone
| CValues (l : list type_id)
| CFields (l : list (string * type_id)).
Inductive type_contents : Type :=
| TStruct (n : string) (l : list (string * type_id))
| TEnum (n : string) (l : list (N * string * case_contents)).
Definition named_type (f : struct_field) : string * type_id := (sf_name f, sf_type f).
Definition case_of (i : enum_item) : N * string * case_contents :=
  match i with
  | ItemEmpty p c => (p, c, CNone)
  | ItemTuple p c l => (p, c, CValues (map tf_type l))
  | ItemStruct p c l => (p, c, CFields (map named_type l))
  end.
Definition contents (ast : list ast_node) : list type_contents :=
  flat_map (fun n => match n with
                     | NStruct s => [TStruct (sn_id s) (map named_type (sn_fields s))]
                     | NEnum e => [TEnum (en_id e) (map case_of (en_items e))]
                     | _ => []
                     end) ast.

(** The other parts of a schema, each kind on its own. *)
Definition fns (ast : list ast_node) : list fn_node := flat_map (fun n => match n with NFn f => [f] | _ => [] end) ast.
Definition const_blocks (ast : list ast_node) : list const_node := flat_map (fun n => match n with NConst c => [c] | _ => [] end) ast.
Definition directives (ast : list ast_node) : list directive := flat_map (fun n => match n with NDirective d => [d] | _ => [] end) ast.
