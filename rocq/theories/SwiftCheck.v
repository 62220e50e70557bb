(** The schemas whose Swift models should compile, and what [createDefault] should give; independent of the generator. *)
Require Import Coq.Strings.String Coq.Strings.Ascii.
Require Import Coq.NArith.NArith Coq.ZArith.ZArith Coq.Lists.List Coq.Bool.Bool Coq.Arith.PeanoNat.
Require Import Verif.Base Verif.F64 Verif.Ast Verif.CaseConv Verif.RustSem Verif.Wire Verif.Code.
Require Verif.KotlinSyntax Verif.KotlinSem Verif.KotlinTree.
Require Import Verif.SwiftSyntax Verif.SwiftSem Verif.SwiftTree Verif.Defaults.
Import KotlinSyntax(among). Import KotlinSem(distinct). Import KotlinTree(address).
Import ListNotations.
Local Open Scope string_scope.
Local Open Scope list_scope.

(** ** The Swift values of default values *)

Fixpoint swift_of (d : dval) : wval :=
  match d with
  | Dnumber (TyNumber _ 4) => WReal "Float" (F64Fin 0 (-1074))
  | Dnumber (TyNumber _ _) => WReal "Double" (F64Fin 0 (-1074))
  | Dnumber (TyInteger _ size signed) => WWhole (int_type size signed) 0
  | Dnumber _ => WWhole "char" 0
  | Dfalse => WTruth false
  | Dtext => WText ""
  | Dlist t => WArray (stype t) []
  | Dstruct n fs => WStruct n (map (fun f => (camel (fst f), swift_of (snd f))) fs)
  | Dplain e c => WCase e (camel c) []
  | Dtuple e c l => WCase e (camel c) (map swift_of l)
  | Drecord e c fs => WCase e (camel c) (map (fun f => swift_of (snd f)) fs)
  end.

(** ** Conditions *)

(** Types that exist in Swift: those of the language, which has no [char], and those of the schema. *)
Fixpoint known_type (ds : list decl) (t : type_id) : bool :=
  match t with
  | TyInteger _ _ _ | TyNumber _ _ | TyBool _ => true
  | TyChar _ => false
  | TyOther n => String.eqb n "String" || address n || match decl_of n ds with Some _ => true | None => false end
  | TyGeneric g [a] => String.eqb g "Vec" && known_type ds a
  | TyGeneric _ _ => false
  end.
(** Types of which a default is written: no addresses. *)
Definition default_type (ds : list decl) (t : type_id) : bool :=
  known_type ds t && match t with TyOther n => negb (address n) | _ => true end.

(** The names that the file declares. *)
Definition swift_names (ast : list ast_node) : list string :=
  flat_map (fun n => match n with NStruct s => [sn_id s] | NEnum e => [en_id e] | _ => [] end) ast.
(** The names of the types of the language that the file uses, those of the addresses, and [Vec], which is always an array. *)
Definition taken : list string := ["GroupAddress"; "CommandsBufferAddress"; "Vec"] ++ builtin.

(** A type whose values are finite by their type, with at most [f] declarations inside one another. *)
Fixpoint sized_type (ds : list decl) (f : nat) (t : type_id) : bool :=
  match t with
  | TyOther n =>
      match decl_of n ds, f with
      | Some (DStruct s), S f' => forallb (fun fd => sized_type ds f' (sf_type fd)) (sn_fields s)
      | Some (DEnum e), S f' => forallb (fun i => forallb (sized_type ds f') (case_types i)) (en_items e)
      | Some _, 0 => false
      | None, _ => true
      end
  | _ => true
  end.

(** Members are not named like the types of the schema. *)
Definition struct_fine (ds : list decl) (names : list string) (s : struct_node) : bool :=
  String.eqb (pascal (sn_id s)) (sn_id s) && distinct (map (fun f => camel (sf_name f)) (sn_fields s)) &&
  forallb (fun f => default_type ds (sf_type f) && negb (among names (camel (sf_name f)))) (sn_fields s).
Definition case_fine (ds : list decl) (names : list string) (i : enum_item) : bool :=
  negb (among names (camel (item_id i))) && forallb (known_type ds) (case_types i).
(** The first case is the default. *)
Definition first_fine (ds : list decl) (i : enum_item) : bool :=
  match i with
  | ItemEmpty _ _ => true
  | _ => negb (match case_types i with [] => true | _ => false end) && forallb (default_type ds) (case_types i)
  end.
Definition enum_fine (ds : list decl) (names : list string) (e : enum_node) : bool :=
  String.eqb (pascal (en_id e)) (en_id e) && distinct ("createDefault" :: map (fun i => camel (item_id i)) (en_items e)) &&
  forallb (case_fine ds names) (en_items e) && match en_items e with i :: _ => first_fine ds i | [] => false end.
Definition swift_fine (ast : list ast_node) : bool :=
  let ds := schema_decls ast in
  let names := swift_names ast in
  models_ready ast && distinct names && forallb (fun n => negb (among ("createDefault" :: taken) n)) names &&
  forallb (fun n => match n with NStruct s => struct_fine ds names s | NEnum e => enum_fine ds names e | _ => true end) ast &&
  forallb (fun n => sized_type ds (S (List.length names)) (TyOther n)) names.

(** ** Constants *)

(** The path of a constant: blocks have Pascal case names, constants camel case names. *)
Fixpoint swift_path (p : list string) : list string :=
  match p with [] => [] | [n] => [camel n] | n :: p' => pascal n :: swift_path p' end.
(** The type and the value that a constant should have. *)
Definition swift_constant (t : type_id) (l : Ast.literal) : option (string * wval) :=
  match l, t with
  | IntLit z, TyInteger _ size signed => Some (int_type size signed, WWhole (int_type size signed) (Z.to_N z))
  | IntLit z, TyOther n => if address n then Some ("UInt64", WWhole "UInt64" (Z.to_N z)) else None
  | NumberLit x, TyNumber _ size => let n := if Nat.eqb size 4 then "Float" else "Double" in Some (n, WReal n x)
  | BoolLit b, TyBool _ => Some ("Bool", WTruth b)
  | StringLit s, TyOther n => if String.eqb n "String" then Some ("String", WText s) else None
  | _, _ => None
  end.
(** The value is in the range of the type; floats of four bytes are written with a suffix that Swift does not have. *)
Definition in_reach (t : type_id) (l : Ast.literal) : bool :=
  match l, t with
  | IntLit z, TyInteger _ size signed => match limit (int_type size signed) with Some top => (z <? Z.of_N top)%Z | None => false end
  | IntLit z, TyOther n => (z <? 2 ^ 64)%Z
  | NumberLit x, TyNumber _ size => negb (Nat.eqb size 4)
  | StringLit s, _ => plain_text s
  | _, _ => true
  end.
Definition item_label (i : const_item) : string :=
  match i with ConstItemValue n _ _ => camel n | ConstItemNode (ConstNode id _) => pascal id end.
(** Names of one block are different, those of blocks are not names of the language. *)
Fixpoint const_fine (c : const_node) : bool :=
  match c with
  | ConstNode id items =>
      negb (among taken (pascal id)) && distinct (map item_label items) &&
      forallb (fun i => match i with
                        | ConstItemValue n t (ConstLiteral l _) =>
                            in_reach t l && match swift_constant t l with Some _ => true | None => false end
                        | ConstItemNode c => const_fine c
                        end) items
  end.
Definition consts_fine (ast : list ast_node) : bool :=
  consts_ready ast && distinct (map zname (consts_tree ast)) &&
  forallb (fun n => match n with NConst c => const_fine c | _ => true end) ast.
