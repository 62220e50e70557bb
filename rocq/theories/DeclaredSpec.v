(** Specification for the declarations of the generated files (C66): the types that a schema declares, and the types that a
    file of each language declares, with the names inside them, in order.  Nothing here looks at how the generators
    visit the schema (src/rust_generator.rs:81-101, src/dart_generator.rs:81-99, src/kotlin/generator.rs:54-66 and
    src/swift/generator.rs:46-58, all [generate_models]). *)
Require Import Coq.Strings.String Coq.Lists.List Coq.Bool.Bool.
Require Import Verif.Ast.
Require Verif.RustSyntax Verif.DartSyntax Verif.KotlinSyntax Verif.SwiftSyntax.
Import ListNotations.
Local Open Scope string_scope.
Local Open Scope list_scope.

(** The structs of a schema with the names of their fields and the enums with the names of their cases. *)
Inductive declared : Type :=
| DStruct (n : string) (fields : list string)
| DEnumeration (n : string) (cases : list string).
Definition declares (ast : list ast_node) : list declared :=
  flat_map (fun n => match n with
                     | NStruct s => [DStruct (sn_id s) (map sf_name (sn_fields s))]
                     | NEnum e => [DEnumeration (en_id e) (map item_id (en_items e))]
                     | _ => []
                     end) ast.

(** The structs and enums of a Rust file. *)
Definition variant_name (v : RustSyntax.variant) : string :=
  match v with RustSyntax.VUnit c => c | RustSyntax.VTuple c _ => c | RustSyntax.VStruct c _ => c end.
Definition rust_declares (items : list RustSyntax.item) : list declared :=
  flat_map (fun i => match i with
                     | RustSyntax.IStruct n None => [DStruct n []]
                     | RustSyntax.IStruct n (Some fs) => [DStruct n (map fst fs)]
                     | RustSyntax.IEnum n vs => [DEnumeration n (map variant_name vs)]
                     | _ => []
                     end) items.

(** The arguments of the methods of a schema that are sent: all but those that are read; async ones with the number of the call. *)
Definition sent (ast : list ast_node) : list declared :=
  flat_map (fun n => match n with
                     | NFn f => if fn_is_read f then [] else
                         [DStruct ("__" ++ fn_id f ++ "_rpc_args__")
                            ((if fn_is_async f then ["__method_id__"] else []) ++ map fa_id (fn_args f))]
                     | _ => []
                     end) ast.

(** The structs and enums of a Swift file. *)
Definition swift_declares (decls : list SwiftSyntax.sdecl) : list declared :=
  flat_map (fun d => match d with
                     | SwiftSyntax.ZStruct n body => [DStruct n (flat_map (fun d => match d with SwiftSyntax.ZVar f _ => [f] | _ => [] end) body)]
                     | SwiftSyntax.ZEnum n body => [DEnumeration n (flat_map (fun d => match d with SwiftSyntax.ZCase c _ => [c] | _ => [] end) body)]
                     | SwiftSyntax.ZVar n _ | SwiftSyntax.ZLet n _ _ | SwiftSyntax.ZFunc _ n _ _ | SwiftSyntax.ZCase n _ => [DStruct n [n]]
                     end) decls.

(** The classes, objects and interfaces of a Kotlin file: a class without interface is a struct, an interface an enum with
    the classes and objects that have this interface.  With the names of the fields of structs. *)
Definition kotlin_kind (d : KotlinSyntax.kdecl) : string * option string * list string :=
  match d with
  | KotlinSyntax.YClass _ n ps [] _ => (n, None, map fst ps)
  | KotlinSyntax.YClass _ n _ (e :: _) _ => (n, Some e, [])
  | KotlinSyntax.YObject n [] _ => (n, None, [])
  | KotlinSyntax.YObject n (e :: _) _ => (n, Some e, [])
  | KotlinSyntax.YInterface _ n _ => (n, Some "", [])
  | KotlinSyntax.YFun n _ _ | KotlinSyntax.YConst n _ _ => (n, Some n, [n])
  | KotlinSyntax.YCompanion _ => ("", None, [])
  end.

(** The classes of a Dart file that implement nothing, and its enums. *)
Definition dart_classes (items : list DartSyntax.ditem) : list string :=
  flat_map (fun i => match i with DartSyntax.DClass n None _ => [n] | _ => [] end) items.
Definition dart_enums (items : list DartSyntax.ditem) : list (string * list string) :=
  flat_map (fun i => match i with DartSyntax.DEnum n l => [(n, l)] | _ => [] end) items.
