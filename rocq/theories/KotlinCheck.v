(** The schemas whose Kotlin models should compile, and what [createDefault] should give; independent of the generator. *)
Require Import Coq.Strings.String Coq.Strings.Ascii.
Require Import Coq.NArith.NArith Coq.ZArith.ZArith Coq.Lists.List Coq.Bool.Bool Coq.Arith.PeanoNat.
Require Import Verif.Base Verif.F64 Verif.Ast Verif.CaseConv Verif.RustSem Verif.Wire Verif.Code Verif.KotlinSyntax Verif.KotlinSem Verif.KotlinTree Verif.Defaults.
Require Verif.Single.
Import Single(single_range, single_value).
Import ListNotations.
Local Open Scope string_scope.
Local Open Scope list_scope.

(** ** The Kotlin values of default values *)

Fixpoint in_places (i : nat) (l : list kval) : list (string * kval) :=
  match l with [] => [] | v :: l' => (("p" ++ show_nat i)%string, v) :: in_places (S i) l' end.
Fixpoint kotlin_of (d : dval) : kval :=
  match d with
  | Dnumber (TyNumber _ 4) => VReal "Float" (F64Fin 0 (-1074))
  | Dnumber (TyNumber _ _) => VReal "Double" (F64Fin 0 (-1074))
  | Dnumber (TyInteger _ size signed) => VWhole (int_type size signed) 0
  | Dnumber _ => VWhole "Char" 0
  | Dfalse => VTruth false
  | Dtext => VText ""
  | Dlist t => VList (ktype t) []
  | Dstruct n fs => VNew n (map (fun f => (camel (fst f), kotlin_of (snd f))) fs)
  | Dplain e c => VObject (e ++ c)
  | Dtuple e c l => VNew (e ++ c) (in_places 0 (map kotlin_of l))
  | Drecord e c fs => VNew (e ++ c) (map (fun f => (fst f, kotlin_of (snd f))) fs)
  end.

(** ** Conditions *)

(** Types that exist in Kotlin: those of the language and those of the schema. *)
Fixpoint known_type (ds : list decl) (t : type_id) : bool :=
  match t with
  | TyInteger _ _ _ | TyNumber _ _ | TyBool _ | TyChar _ => true
  | TyOther n => String.eqb n "String" || address n || match decl_of n ds with Some _ => true | None => false end
  | TyGeneric g [a] => String.eqb g "Vec" && known_type ds a
  | TyGeneric _ _ => false
  end.
(** Types of which a default is written: no characters, no addresses. *)
Definition default_type (ds : list decl) (t : type_id) : bool :=
  known_type ds t && match t with TyChar _ => false | TyOther n => negb (address n) | _ => true end.

(** The names that the file declares. *)
Definition kotlin_names (ast : list ast_node) : list string :=
  flat_map (fun n => match n with
                     | NStruct s => [sn_id s]
                     | NEnum e => en_id e :: map (fun i => en_id e ++ item_id i)%string (en_items e)
                     | _ => []
                     end) ast.
(** The names of the language that the file uses, those of the addresses, and [Vec], which is always a list. *)
Definition taken : list string :=
  ["Companion"; "GroupAddress"; "CommandsBufferAddress"; "Vec";
   "Byte"; "Int"; "Long"; "UByte"; "UInt"; "ULong"; "Float"; "Double"; "Boolean"; "Char"; "String"; "List"; "listOf"; "true"; "false"].

Definition struct_fine (ds : list decl) (s : struct_node) : bool :=
  String.eqb (pascal (sn_id s)) (sn_id s) && distinct (map (fun f => camel (sf_name f)) (sn_fields s)) &&
  forallb (fun f => default_type ds (sf_type f)) (sn_fields s).
Definition case_fine (ds : list decl) (e : string) (i : enum_item) : bool :=
  String.eqb (pascal (e ++ item_id i)) (e ++ item_id i) &&
  match i with
  | ItemEmpty _ _ => true
  | ItemTuple _ _ vs => negb (match vs with [] => true | _ => false end) && forallb (fun v => known_type ds (tf_type v)) vs
  | ItemStruct _ _ fs =>
      negb (match fs with [] => true | _ => false end) && distinct (map sf_name fs) && forallb (fun f => known_type ds (sf_type f)) fs
  end.
(** The first case is the default; its fields are set by name. *)
Definition first_fine (ds : list decl) (i : enum_item) : bool :=
  match i with
  | ItemEmpty _ _ => true
  | ItemTuple _ _ vs => forallb (fun v => default_type ds (tf_type v)) vs
  | ItemStruct _ _ fs => forallb (fun f => String.eqb (camel (sf_name f)) (sf_name f) && default_type ds (sf_type f)) fs
  end.
Definition enum_fine (ds : list decl) (e : enum_node) : bool :=
  forallb (case_fine ds (en_id e)) (en_items e) && match en_items e with i :: _ => first_fine ds i | [] => false end.
Definition kotlin_fine (ast : list ast_node) : bool :=
  let ds := schema_decls ast in
  models_ready ast && distinct (kotlin_names ast) && forallb (fun n => negb (among taken n)) (kotlin_names ast) &&
  forallb (fun n => match n with NStruct s => struct_fine ds s | NEnum e => enum_fine ds e | _ => true end) ast.

(** ** Constants *)

(** The path of a constant: objects have Pascal case names, constants keep theirs. *)
Fixpoint kotlin_path (p : list string) : list string :=
  match p with [] => [] | [n] => [n] | n :: p' => pascal n :: kotlin_path p' end.
(** The type and the value of a constant in the schema. *)
Definition kotlin_constant (t : type_id) (l : Ast.literal) : option (string * kval) :=
  match l, t with
  | IntLit z, TyInteger _ size signed => Some (int_type size signed, VWhole (int_type size signed) (Z.to_N z))
  | IntLit z, TyOther n => if address n then Some ("ULong", VWhole "ULong" (Z.to_N z)) else None
  | NumberLit x, TyNumber _ size => let n := if Nat.eqb size 4 then "Float" else "Double" in Some (n, VReal n x)
  | BoolLit b, TyBool _ => Some ("Boolean", VTruth b)
  | StringLit s, TyOther n => if String.eqb n "String" then Some ("String", VText s) else None
  | _, _ => None
  end.
(** The type and the value that it has: a [Float] is the single nearest to the decimal text of the literal. *)
Definition kotlin_holds (t : type_id) (l : Ast.literal) (n : string) (v : kval) : Prop :=
  match l, t with
  | NumberLit x, TyNumber _ size =>
      if Nat.eqb size 4 then n = "Float" /\ exists y, v = VReal "Float" y /\ single_value x y else kotlin_constant t l = Some (n, v)
  | _, _ => kotlin_constant t l = Some (n, v)
  end.
(** The value is in the range of the type. *)
Definition in_reach (t : type_id) (l : Ast.literal) : bool :=
  match l, t with
  | IntLit z, TyInteger _ size signed => match limit (int_type size signed) with Some top => (z <? Z.of_N top)%Z | None => false end
  | IntLit z, TyOther n => (z <? 2 ^ 64)%Z
  | NumberLit x, TyNumber _ size => negb (Nat.eqb size 4) || single_range x
  | StringLit s, _ => plain_text s
  | _, _ => true
  end.
Definition item_label (i : const_item) : string :=
  match i with ConstItemValue n _ _ => n | ConstItemNode (ConstNode id _) => pascal id end.
(** Names of one block are different, those of blocks are not names of the language. *)
Fixpoint const_fine (c : const_node) : bool :=
  match c with
  | ConstNode id items =>
      negb (among taken (pascal id)) && distinct (map item_label items) &&
      forallb (fun i => match i with
                        | ConstItemValue n t (ConstLiteral l _) =>
                            in_reach t l && match kotlin_constant t l with Some _ => true | None => false end
                        | ConstItemNode c => const_fine c
                        end) items
  end.
Definition consts_fine (ast : list ast_node) : bool :=
  consts_ready ast && distinct (map yname (consts_tree ast)) &&
  forallb (fun n => match n with NConst c => const_fine c | _ => true end) ast.
