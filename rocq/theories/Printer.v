(** The schema language seen from the user's side: well-formed declarations and how to write them.
    Independent of Parser.v; nothing in /repo corresponds to the printer. *)
Require Import Coq.Strings.String Coq.Strings.Ascii.
Require Import Coq.NArith.NArith Coq.ZArith.ZArith Coq.Lists.List Coq.Bool.Bool.
Require Import Verif.F64 Verif.Ast Verif.Grammar.
Import ListNotations.
Local Open Scope string_scope.
Local Open Scope list_scope.

(** ** Well-formed declarations *)

Inductive wf_type : type_id -> Prop :=
| wt_plain : forall n t, plain_type n t -> wf_type t
| wt_generic : forall n l, wf_types l -> wf_type (TyGeneric n l)
with wf_types : list type_id -> Prop :=
| wts_one : forall t, wf_type t -> wf_types [t]
| wts_more : forall t l, wf_type t -> wf_types l -> wf_types (t :: l).

Scheme wf_type_mut := Induction for wf_type Sort Prop
with wf_types_mut := Induction for wf_types Sort Prop.
Combined Scheme wf_type_mutind from wf_type_mut, wf_types_mut.

(** Positions: 32-bit numbers, or counted from 0. *)
Definition fits (p : N) : bool := (p <? 2 ^ 32)%N.
Definition counted {A} (l : list A) : list N := map N.of_nat (seq 0 (length l)).
Definition wf_positions (ps : list N) : Prop := forallb fits ps = true \/ ps = counted ps.

Definition wf_fields (l : list struct_field) : Prop :=
  wf_positions (map sf_position l) /\ Forall (fun f => wf_type (sf_type f)) l.
Definition wf_tuple (l : list tuple_field) : Prop :=
  wf_positions (map tf_position l) /\ Forall (fun f => wf_type (tf_type f)) l.
Definition wf_item (i : enum_item) : Prop :=
  match i with
  | ItemEmpty _ _ => True
  | ItemTuple _ _ l => wf_tuple l
  | ItemStruct _ _ l => wf_fields l
  end.
Definition wf_items (l : list enum_item) : Prop :=
  wf_positions (map item_position l) /\ Forall wf_item l.

Definition wf_value (v : const_value) : Prop := exists t, value_g t v.

Inductive wf_const : const_node -> Prop :=
| wc : forall n l, wf_const_items l -> wf_const (ConstNode n l)
with wf_const_items : list const_item -> Prop :=
| wci_nil : wf_const_items []
| wci_node : forall n l, wf_const n -> wf_const_items l -> wf_const_items (ConstItemNode n :: l)
| wci_value : forall n t v l, wf_type t -> wf_value v -> wf_const_items l ->
    wf_const_items (ConstItemValue n t v :: l).

Scheme wf_const_mut := Induction for wf_const Sort Prop
with wf_const_items_mut := Induction for wf_const_items Sort Prop.
Combined Scheme wf_const_mutind from wf_const_mut, wf_const_items_mut.

Definition wf_directive (d : directive) : Prop :=
  match d with
  | DirValue _ v => wf_value v
  | DirGroup _ l => Forall (fun p => wf_value (iv_value p)) l
  end.

Definition wf_fn (k : N) (f : fn_node) : Prop :=
  fn_position f = k /\ Forall (fun a => wf_type (fa_type a)) (fn_args f)
  /\ match fn_return f with None => True | Some t => wf_type t end
  /\ (fn_is_read f = true -> fn_args f = []).

Definition wf_decl (k : N) (n : ast_node) : Prop :=
  match n with
  | NStruct s => wf_fields (sn_fields s) /\ sn_emplace s = true /\ sn_into s = true
  | NEnum e => wf_items (en_items e) /\ en_items e <> []
  | NFn f => wf_fn k f
  | NDirective d => wf_directive d
  | NConst c => wf_const c
  end.

(** [k] is the number of the next method. *)
Fixpoint wf_schema (k : N) (l : list ast_node) : Prop :=
  match l with
  | [] => True
  | n :: l' => wf_decl k n /\ wf_schema (if is_method n then k + 1 else k)%N l'
  end.

(** ** Writing declarations as tokens *)

Fixpoint commas (l : list toks) : toks :=
  match l with
  | [] => []
  | [x] => x
  | x :: l' => x ++ TSym "," :: commas l'
  end.

(** With a comma also after the last element. *)
Definition commas_after (l : list toks) : toks := flat_map (fun x => x ++ [TSym ","]) l.
Definition listed (trailing : bool) (l : list toks) : toks :=
  if trailing then commas_after l else commas l.

Fixpoint print_type (t : type_id) : toks :=
  match t with
  | TyInteger n _ _ | TyNumber n _ | TyBool n | TyChar n | TyOther n => [TId n]
  | TyGeneric n l => TId n :: TSym "<" :: commas (map print_type l) ++ [TSym ">"]
  end.

Definition print_pos (p : N) : toks := [TSym "#"; TSym "["; TLit (IntLit (Z.of_N p)); TSym "]"].

(** How to write a schema: whether to leave out positions where they count from 0 anyway, and
    whether to write a comma after the last element of a list. *)
Record style := mk_style { st_implicit : bool; st_trailing : bool }.

Definition Nlist_eqb (a b : list N) : bool :=
  if list_eq_dec N.eq_dec a b then true else false.

(** Are the positions left out? *)
Definition leave_out (st : style) (ps : list N) : bool :=
  if forallb fits ps then st_implicit st && Nlist_eqb ps (counted ps) else true.

Definition print_positioned (st : style) (l : list (N * toks)) : toks :=
  if leave_out st (map fst l) then listed (st_trailing st) (map snd l)
  else listed (st_trailing st) (map (fun x => print_pos (fst x) ++ snd x) l).

Definition print_binding (n : string) (t : type_id) : toks := TId n :: TSym ":" :: print_type t.

Definition print_fields (st : style) (l : list struct_field) : toks :=
  print_positioned st (map (fun f => (sf_position f, print_binding (sf_name f) (sf_type f))) l).
Definition print_tuple (st : style) (l : list tuple_field) : toks :=
  print_positioned st (map (fun f => (tf_position f, print_type (tf_type f))) l).
Definition print_item (st : style) (i : enum_item) : toks :=
  match i with
  | ItemEmpty _ n => [TId n]
  | ItemTuple _ n l => TId n :: TSym "(" :: print_tuple st l ++ [TSym ")"]
  | ItemStruct _ n l => TId n :: TSym "{" :: print_fields st l ++ [TSym "}"]
  end.
Definition print_items (st : style) (l : list enum_item) : toks :=
  print_positioned st (map (fun i => (item_position i, print_item st i)) l).

Definition print_value (v : const_value) : token := match v with ConstLiteral l _ => TLit l end.

Fixpoint print_const (c : const_node) : toks :=
  match c with
  | ConstNode n l =>
      TConst :: TId n :: TSym "{" :: flat_map print_const_item l ++ [TSym "}"]
  end
with print_const_item (i : const_item) : toks :=
  match i with
  | ConstItemValue n t v => print_binding n t ++ [TSym "="; print_value v; TSym ";"]
  | ConstItemNode c => print_const c
  end.

Definition print_directive (st : style) (d : directive) : toks :=
  match d with
  | DirValue n v => [TSym "#"; TSym "["; TId n; TSym "="; print_value v; TSym "]"]
  | DirGroup n l =>
      TSym "#" :: TSym "[" :: TId n :: TSym "("
      :: listed (st_trailing st) (map (fun p => [TId (iv_id p); TSym "="; print_value (iv_value p)]) l)
      ++ [TSym ")"; TSym "]"]
  end.

Definition print_return (r : option type_id) : toks :=
  match r with
  | None => [TSym ";"]
  | Some t => TSym "-" :: TSym ">" :: print_type t ++ [TSym ";"]
  end.

Definition print_fn (st : style) (f : fn_node) : toks :=
  (if fn_is_async f then [TAsync] else [])
  ++ (if fn_is_read f then [TRead; TId (fn_id f)]
      else TFn :: TId (fn_id f) :: TSym "("
           :: listed (st_trailing st) (map (fun a => print_binding (fa_id a) (fa_type a)) (fn_args f))
           ++ [TSym ")"])
  ++ print_return (fn_return f).

Definition print_decl (st : style) (n : ast_node) : toks :=
  match n with
  | NStruct s =>
      match sn_fields s with
      | [] => [TStruct; TId (sn_id s); TSym ";"]
      | l => TStruct :: TId (sn_id s) :: TSym "{" :: print_fields st l ++ [TSym "}"]
      end
  | NEnum e => TEnum :: TId (en_id e) :: TSym "{" :: print_items st (en_items e) ++ [TSym "}"]
  | NFn f => print_fn st f
  | NDirective d => print_directive st d
  | NConst c => print_const c
  end.

Definition print_schema (st : style) (l : list ast_node) : toks :=
  flat_map (print_decl st) l ++ [TEOF].
