(** Which schemas give Rust files that compile; independent of the generator. *)
Require Import Coq.Strings.String Coq.Strings.Ascii.
Require Import Coq.NArith.NArith Coq.ZArith.ZArith Coq.Lists.List Coq.Bool.Bool Coq.Arith.PeanoNat.
Require Import Verif.Base Verif.Ast Verif.RustSyntax Verif.Wire Verif.RustStatic.
Require Verif.RustDefault Verif.RustFine Verif.RustSem Verif.ConstSpec.
Import RustDefault(among, distinct). Import RustFine(known_type). Import ConstSpec(rust_words, block_names).
Import ListNotations.
Local Open Scope string_scope.
Local Open Scope list_scope.

(** The Rust type of a type of the schema. *)
Fixpoint rust_ty (t : type_id) : rty :=
  match t with
  | TyInteger id _ _ | TyNumber id _ | TyBool id | TyChar id | TyOther id => RPath [id] []
  | TyGeneric id l => RPath [id] (map rust_ty l)
  end.
(** The function that the user provides for a remote method: a [fn] takes the arguments and returns the result, a [read]
    takes nothing and may have no result. *)
Definition user_fn (f : fn_node) : string * (list rty * rty * bool) :=
  let r := match fn_return f with Some t => rust_ty t | None => unit_ty end in
  (fn_id f, if fn_is_read f then ([], option_of r, fn_is_async f) else (map (fun a => rust_ty (fa_type a)) (fn_args f), r, fn_is_async f)).
Definition user_fns (ast : list ast_node) (rpc : bool) : list (string * (list rty * rty * bool)) := if rpc then map user_fn (find_fn_nodes ast) else [].

(** The variables of the generated code. *)
Definition local_names : list string :=
  ["bytes_reader"; "bytes_writer"; "count"; "value"; "args"; "status"; "result"; "is_busy"; "memory"; "scope_id"; "rpc_method_address"; "runtime_as_mut"; "async_context"; "runtime"; "addr"].
(** A type without fields is also a value; no variable can have its name. *)
Definition empty_names (all : list decl) : list string :=
  flat_map (fun d => match d with DStruct s => match sn_fields s with [] => [sn_id s] | _ => [] end | DEnum _ => [] end) all.
Definition slot_names (i : enum_item) : list string :=
  match i with
  | ItemEmpty _ _ => []
  | ItemTuple _ _ l => map (fun n => ("v" ++ show_nat n)%string) (seq 0 (List.length l))
  | ItemStruct _ _ l => map sf_name l
  end.
Definition item_position (i : enum_item) : N := match i with ItemEmpty p _ | ItemTuple p _ _ | ItemStruct p _ _ => p end.
Definition decl_fine (all : list decl) (d : decl) : bool :=
  match d with
  | DStruct s => forallb (fun f => negb (among rust_words (sf_name f))) (sn_fields s)
  | DEnum e =>
      forallb (fun i => negb (among ("read_from_buffers" :: rust_words) (item_name i)) && (item_position i <? 2 ^ 32)%N &&
        forallb (fun x => negb (among ("bytes_writer" :: empty_names all ++ lib_names) x)) (slot_names i)) (en_items e)
  end.
(** Types with codecs: those of the language, of the file, and of the user. *)
Fixpoint codec_type (ext : list string) (all : list decl) (t : type_id) : bool :=
  match t with
  | TyOther n => among ext n || known_type all t
  | TyGeneric g [a] => String.eqb g "Vec" && codec_type ext all a
  | _ => known_type all t
  end.
Definition handler_id (f : fn_node) : string := (fn_id f ++ "_rpc_handler")%string.
(** A remote method: its number, its result (a [read] returns no number, truth value or character), its name. *)
Definition fn_fine (ext : list string) (all : list decl) (f : fn_node) : bool :=
  (fn_position f <? 2 ^ 64)%N && negb (among (local_names ++ lib_names) (fn_id f)) && negb (among lib_names (handler_id f)) &&
  match fn_return f with
  | Some t => codec_type ext all t && negb (fn_is_read f && match t with TyOther _ | TyGeneric _ _ => false | _ => true end)
  | None => true
  end.
Definition scope_fine (ast : list ast_node) : bool :=
  match find_fn_nodes ast with [] => true | _ => match find_directive_value ast "id" with Some (ConstLiteral (StringLit id) _) => uuid_text id | _ => false end end.
(** [ext]: the types of the user; [all]: all the types of the file. *)
Definition rust_code_fine (ast : list ast_node) (rpc : bool) (ext : list string) (all : list decl) : bool :=
  forallb (fun n => negb (among lib_names n)) (map decl_name all ++ block_names ast ++ ext) &&
  forallb (fun n => negb (among (map decl_name all ++ block_names ast) n)) ext &&
  forallb (fun x => negb (among (empty_names all) x)) local_names && forallb (decl_fine all) all &&
  (if rpc then
     let nodes := find_fn_nodes ast in
     forallb (fn_fine ext all) nodes && scope_fine ast && distinct ("register_rpc" :: map handler_id nodes ++ empty_names all ++ map fn_id nodes)
   else distinct (empty_names all)).
