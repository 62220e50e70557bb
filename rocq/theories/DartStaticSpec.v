(** Which schemas give Dart files that compile. *)
Require Import Coq.Strings.String Coq.Strings.Ascii.
Require Import Coq.NArith.NArith Coq.Lists.List Coq.Bool.Bool Coq.Arith.PeanoNat.
Require Import Verif.Base Verif.Ast Verif.CaseConv Verif.Wire Verif.DartSyntax Verif.DartStatic.
Require Verif.DartWire Verif.ConstSpec Verif.DartConst Verif.RustDefault Verif.DartRun.
Import DartWire(item_slots). Import ConstSpec(dart_object, dart_plain). Import RustDefault(distinct). Import DartRun(top_names).
Import DartConst(member_names, holder).
Import ListNotations.
Local Open Scope string_scope.
Local Open Scope list_scope.

(** The names that stand for classes: those of the file, of the libraries, and of the classes from elsewhere with their
    codecs and factories. *)
Definition codecs_of (ext : list string) : list string := flat_map (fun p => map (append p) kinds) ext.
Definition class_names (ext : list string) (items : list ditem) : list string := top_names items ++ known ++ ext ++ codecs_of ext.
(** The variables of the generated code. *)
Definition fixed_names : list string := ["reader"; "writer"; "model"; "value"; "count"; "i"; "status"; "methodId"; "result"; "completer"].

(** The names of the file, those of the libraries and those from elsewhere differ, and no variable has one. *)
Definition tops_fine (ext : list string) (items : list ditem) : bool :=
  forallb (fun n => negb (among (top_names items) n)) (known ++ ext ++ codecs_of ext) &&
  forallb (fun n => negb (among known n)) (ext ++ codecs_of ext) &&
  forallb (fun n => negb (among (class_names ext items) n)) fixed_names.
(** Members have different names, which are not those of a class or of a member of every object; so have the members of
    enums.  (The fields of constant objects are the subject of [dart_consts_fine].) *)
Definition item_names_fine (ext : list string) (items : list ditem) (i : ditem) : bool :=
  match i with
  | DClass _ impl ms =>
      match impl with None => holder ms | Some _ => false end ||
      (distinct (member_names ms) && forallb (fun n => negb (among (class_names ext items ++ dart_object) n)) (member_names ms))
  | DEnum n names => distinct names && forallb (fun x => negb (among (n :: "index" :: "values" :: dart_object) x)) names
  | _ => true
  end.

Section Types.
Variable ast : list ast_node.
Variable ext : list string.
(** The types that have a Dart class with codecs: an element of a list is not generic. *)
Fixpoint mentioned (t : type_id) : bool :=
  match t with
  | TyOther m => among ("String" :: map decl_name (schema_decls ast) ++ ext) m
  | TyGeneric g l => (if String.eqb g "Vec" then Nat.eqb (List.length l) 1 else among ext g) && forallb mentioned l
  | _ => true
  end.
Definition usable (t : type_id) : bool :=
  mentioned t && match t with TyGeneric g l => negb (String.eqb g "Vec") || negb (existsb (fun a => match a with TyGeneric _ _ => true | _ => false end) l) | _ => true end.

(** A declaration: its types, its parameters, and the parameters of the methods of an enum. *)
Definition slot_fine (p : string * type_id) : bool := negb (private (fst p)) && usable (snd p).
Definition decl_fine (d : decl) : bool :=
  match d with
  | DStruct s => forallb (fun f => slot_fine (camel (sf_name f), sf_type f)) (sn_fields s)
  | Wire.DEnum e =>
      negb (match en_items e with [] => true | _ => false end) &&
      forallb (fun i => match i with ItemEmpty _ _ => true | _ => negb (match item_slots i with [] => true | _ => false end) end &&
        forallb (fun p => slot_fine p && negb (among ["model"; "value"; camel (item_name i)] (fst p))) (item_slots i)) (en_items e)
  end.
(** A remote method: its number, its types and its arguments. *)
Definition fn_fine (items : list ditem) (f : fn_node) : bool :=
  (fn_position f <? 2 ^ 63)%N && forallb (fun a => slot_fine (camel (fa_id a), fa_type a)) (fn_args f) &&
  match fn_return f with Some t => usable t | None => true end &&
  distinct (map (fun a => camel (fa_id a)) (fn_args f)) &&
  forallb (fun a => negb (among (fixed_names ++ class_names ext items) (camel (fa_id a)))) (fn_args f).
(** The text that names the scope of the client. *)
Definition scope_fine : bool :=
  match find_fn_nodes ast with [] => true | _ => match find_directive_value ast "id" with Some (ConstLiteral (StringLit id) _) => dart_plain id | _ => true end end.
End Types.

Definition dart_fine (ast : list ast_node) (ext : list string) (items : list ditem) : bool :=
  tops_fine ext items && forallb (item_names_fine ext items) items && forallb (decl_fine ast ext) (schema_decls ast) && forallb (fn_fine ast ext items) (find_fn_nodes ast) && scope_fine ast.
