(** What the generated Dart code has to do with schema values, written down independently of the
    generator: which Dart object represents a value, which bytes it has, which objects can be filled
    in place.  Schema values are those of RustSem.v ([val]). *)
Require Import Coq.Strings.String Coq.Strings.Ascii.
Require Import Coq.NArith.NArith Coq.ZArith.ZArith Coq.Lists.List Coq.Bool.Bool.
Require Import Verif.Base Verif.Ast Verif.CaseConv Verif.Code Verif.RustSem Verif.Wire.
Require Import Verif.DartSyntax Verif.DartSem.
Import ListNotations.
Local Open Scope string_scope.
Local Open Scope list_scope.

(** What a library promises depends on which values it supports: numbers behind classes declared
    elsewhere, lengths of lists, single precision floats (with the double each of them becomes). *)
Record support := mk_support
  { su_ext : dty -> N -> bool;
    su_len : nat -> bool;
    su_f32 : Z -> bool;
    su_widen : Z -> Z }.

(** The Dart type of a schema type. *)
Fixpoint dart_type (t : type_id) : dty :=
  match t with
  | TyInteger _ _ _ | TyChar _ => DTy "int" []
  | TyNumber _ _ => DTy "double" []
  | TyBool _ => DTy "bool" []
  | TyOther n => DTy n []
  | TyGeneric g l => DTy (if String.eqb g "Vec" then "List" else g) (map dart_type l)
  end.

(** Bounds on what the reader and writer methods keep. *)
Definition dart_range (p : string) (z : Z) : bool :=
  (if String.eqb p "Int8" then (- 2 ^ 7 <=? z) && (z <? 2 ^ 7)
   else if String.eqb p "Int32" then (- 2 ^ 31 <=? z) && (z <? 2 ^ 31)
   else if String.eqb p "Int64" then (- 2 ^ 63 <=? z) && (z <? 2 ^ 63)
   else if String.eqb p "Double" then (0 <=? z) && (z <? 2 ^ 64)
   else if String.eqb p "Bool" then (0 <=? z) && (z <? 2)
   else false)%Z.
Definition element_range (p : string) (z : Z) : bool :=
  (if String.eqb p "Int" then (- 2 ^ 63 <=? z) && (z <? 2 ^ 63)
   else if String.eqb p "Double" then (0 <=? z) && (z <? 2 ^ 64)
   else if String.eqb p "Bool" then (0 <=? z) && (z <? 2)
   else false)%Z.

(** What the Dart libraries promise: reading what was written gives the value and leaves the rest. *)
Record dlawful (D : druntime) (U : support) : Prop := mk_dlawful
  { dlaw_prim : forall p z r, dart_range p z = true -> rd_get D p (rd_put D p z ++ r) = Some (z, r);
    dlaw_float : forall z r, su_f32 U z = true ->
      rd_get D "Float" (rd_put D "Float" (su_widen U z) ++ r) = Some (su_widen U z, r);
    dlaw_elem : forall p z r, element_range p z = true -> rd_eget D p (rd_eput D p z ++ r) = Some (z, r);
    dlaw_elem_float : forall z, su_f32 U z = true -> element_range "Double" (su_widen U z) = true;
    dlaw_ext : forall t x r, su_ext U t x = true -> rd_ext_get D t (rd_ext_put D t x ++ r) = Some (x, r);
    dlaw_len : forall n r, su_len U n = true -> rd_len_get D (rd_len_put D n ++ r) = Some (n, r) }.

(** The two's complement reading of a number of [n] bytes. *)
Definition signed (n : nat) (z : Z) : Z :=
  (if z <? 2 ^ (8 * Z.of_nat n - 1) then z else z - 2 ^ (8 * Z.of_nat n))%Z.

Definition all2P {A B} (f : A -> B -> Prop) : list A -> list B -> Prop :=
  fix go l m :=
    match l, m with
    | [], [] => True
    | a :: l', b :: m' => f a b /\ go l' m'
    | _, _ => False
    end.
Definition cat2 {A B} (f : A -> B -> bytes) : list A -> list B -> bytes :=
  fix go l m :=
    match l, m with
    | a :: l', b :: m' => f a b ++ go l' m'
    | _, _ => []
    end.
Definition numbered {A} (l : list A) : list (nat * A) := combine (seq 0 (List.length l)) l.

(** The fields of an object: name and type. *)
Definition slot := (string * type_id)%type.
Definition field_slot (f : struct_field) : slot := (camel (sf_name f), sf_type f).
Definition tuple_slots (ts : list tuple_field) : list slot :=
  map (fun '(i, f) => (("v" ++ show_nat i)%string, tf_type f)) (numbered ts).
Definition item_slots (i : enum_item) : list slot :=
  match i with
  | ItemEmpty _ _ => []
  | ItemTuple _ _ ts => tuple_slots ts
  | ItemStruct _ _ fs => map field_slot fs
  end.

Section Spec.
Variable D : druntime.
Variable U : support.
Variable ds : list decl.
(** The names of the classes of the file. *)
Variable classes : list string.
(** How deeply the default value of an enum may be nested. *)
Variable cd : nat.

(** A type of the file; a type whose codecs and factory are declared elsewhere. *)
Definition declared (n : string) : bool := match decl_of n ds with Some _ => true | None => false end.
Definition outside (n : string) : bool :=
  negb (declared n) &&
  negb (existsb (String.eqb n) ["List"; "Int"; "Double"; "Bool"]) &&
  forallb (fun suf => negb (existsb (String.eqb (n ++ suf)%string) classes)) ["IntoBuffers"; "EmplaceToBuffers"; "BuffersFactory"].
Definition is_vec (g : string) (l : list type_id) : bool :=
  String.eqb g "Vec" && match l with [_] => true | _ => false end.
(** A generic type that the library codecs treat as a whole. *)
Definition opaque (g : string) : bool := negb (String.eqb g "Vec") && negb (String.eqb g "String") && outside g.

(** The default value of a type can be made: the chain of fields that have to be made with it ends. *)
Fixpoint creatable (n : nat) (t : type_id) {struct n} : bool :=
  match t with
  | TyInteger _ _ _ | TyNumber _ _ | TyBool _ | TyChar _ => true
  | TyGeneric g l => is_vec g l || opaque g
  | TyOther m =>
      match decl_of m ds, n with
      | None, _ => outside m
      | Some _, 0 => false
      | Some (DStruct s), S n' => forallb (fun f => creatable n' (sf_type f)) (sn_fields s)
      | Some (Wire.DEnum e), S n' =>
          negb (match en_items e with [] => true | _ => false end) &&
          forallb (fun i => forallb (fun p => creatable n' (snd p)) (item_slots i) &&
                            match i with ItemEmpty _ _ => true | _ => negb (match item_slots i with [] => true | _ => false end) end)
            (en_items e)
      end
  end.

(** The numbers that a primitive type of the schema has and that the Dart libraries keep. *)
Definition prim_ok (t : type_id) (z : Z) : bool :=
  match t with
  | TyInteger id n _ => is_integer id && Nat.eqb n (prim_size id) && in_range id z
  | TyNumber id n =>
      (String.eqb id "f32" && Nat.eqb n 4 && su_f32 U z) || (String.eqb id "f64" && Nat.eqb n 8 && in_range id z)
  | TyBool id => String.eqb id "bool" && in_range id z
  | TyChar id => (String.eqb id "char" && (0 <=? z) && (z <? 128))%Z
  | _ => false
  end.

(** The types for which there is a codec for the elements of a list. *)
Definition element_type (t : type_id) : bool :=
  match t with TyGeneric _ _ => false | TyOther m => declared m || outside m | _ => true end.
(** [v] is a value of type [t]. *)
Fixpoint dtyped (v : val) (t : type_id) {struct v} : bool :=
  let fields fs l := all2 (fun '(x, v) f => String.eqb x (sf_name f) && dtyped v (sf_type f)) fs l in
  match v with
  | vnum p z => match prim_name t with Some id => String.eqb p id && prim_ok t z | None => false end
  | vext n x =>
      match t with
      | TyOther m => String.eqb n m && outside m && su_ext U (DTy m []) x
      | TyGeneric g l => String.eqb n g && opaque g && su_ext U (dart_type t) x
      | _ => false
      end
  | vrec n fs =>
      match t, decl_of n ds with
      | TyOther m, Some (DStruct s) => String.eqb n m && fields fs (sn_fields s)
      | _, _ => false
      end
  | vcase e c =>
      match t, decl_of e ds with
      | TyOther m, Some (Wire.DEnum d) =>
          String.eqb e m && creatable cd t && match item_of c d with Some (ItemEmpty _ _) => true | _ => false end
      | _, _ => false
      end
  | vcaset e c l =>
      match t, decl_of e ds with
      | TyOther m, Some (Wire.DEnum d) =>
          String.eqb e m && creatable cd t &&
          match item_of c d with
          | Some (ItemTuple _ _ ts) => all2 (fun v f => dtyped v (tf_type f)) l ts
          | _ => false
          end
      | _, _ => false
      end
  | vcases e c fs =>
      match t, decl_of e ds with
      | TyOther m, Some (Wire.DEnum d) =>
          String.eqb e m && creatable cd t &&
          match item_of c d with Some (ItemStruct _ _ l) => fields fs l | _ => false end
      | _, _ => false
      end
  | vbox g k l =>
      match t with
      | TyGeneric h [a] =>
          String.eqb g "Vec" && String.eqb h "Vec" && element_type a && N.eqb k (N.of_nat (List.length l)) && su_len U (List.length l) &&
          forallb (fun v => dtyped v a) l
      | _ => false
      end
  | _ => false
  end.

(** The Dart number of a schema number. *)
Definition dart_num (t : type_id) (z : Z) : Z :=
  match t with
  | TyInteger _ n _ => signed n z
  | TyNumber _ 4 => su_widen U z
  | _ => z
  end.
Definition dart_prim (t : type_id) (z : Z) : dval :=
  match t with
  | TyNumber _ _ => ddbl (dart_num t z)
  | TyBool _ => dbool (Z.eqb z 1)
  | _ => dint (dart_num t z)
  end.
(** The reader and writer methods of a primitive field; the codec of a primitive element. *)
Definition field_codec (t : type_id) : string :=
  match t with
  | TyInteger _ 1 _ | TyChar _ => "Int8"
  | TyInteger _ 4 _ => "Int32"
  | TyInteger _ _ _ => "Int64"
  | TyNumber _ 4 => "Float"
  | TyNumber _ _ => "Double"
  | _ => "Bool"
  end.
Definition element_codec (t : type_id) : string :=
  match t with TyNumber _ _ => "Double" | TyBool _ => "Bool" | _ => "Int" end.

(** The bytes of a value. *)
Definition dtag (e c : string) : bytes :=
  match decl_of e ds with
  | Some (Wire.DEnum d) => match item_of c d with Some i => rd_put D "Int32" (Z.of_N (item_pos i)) | None => [] end
  | _ => []
  end.
Definition items_of (e c : string) : list slot :=
  match decl_of e ds with
  | Some (Wire.DEnum d) => match item_of c d with Some i => item_slots i | None => [] end
  | _ => []
  end.
Definition fields_of (n : string) : list slot :=
  match decl_of n ds with Some (DStruct s) => map field_slot (sn_fields s) | _ => [] end.
Fixpoint dwire (elem : bool) (v : val) (t : type_id) {struct v} : bytes :=
  match v with
  | vnum _ z =>
      if elem then rd_eput D (element_codec t) (dart_num t z) else rd_put D (field_codec t) (dart_num t z)
  | vext n x => rd_ext_put D (dart_type t) x
  | vrec n fs => cat2 (fun '(_, v) f => dwire false v (snd f)) fs (fields_of n)
  | vcase e c => dtag e c
  | vcaset e c l => dtag e c ++ cat2 (fun v f => dwire false v (snd f)) l (items_of e c)
  | vcases e c fs => dtag e c ++ cat2 (fun '(_, v) f => dwire false v (snd f)) fs (items_of e c)
  | vbox _ _ l =>
      rd_len_put D (List.length l) ++
      flat_map (fun v => dwire true v (match t with TyGeneric _ (a :: _) => a | _ => t end)) l
  | _ => []
  end.

Definition is_string_type (t : type_id) : bool := match t with TyOther m => String.eqb m "String" | _ => false end.
(** [w] represents [v] in the heap [h], and all the objects it consists of are in [P]. *)
Section Rep.
Variable P : nat -> Prop.
Variable h : heap.
Fixpoint rep (w : dval) (v : val) (t : type_id) {struct v} : Prop :=
  let enum e c k := exists a cfs, w = dref a /\ P a /\ nth_error h a = Some (CObj e cfs) /\
    lookup "value" cfs = Some (dmem (e ++ "Value")%string (camel c)) /\ exists u, lookup (camel c) cfs = Some u /\ k u in
  let object n (k : list (string * dval) -> Prop) (u : dval) := exists b cfs, u = dref b /\ P b /\ nth_error h b = Some (CObj n cfs) /\ k cfs in
  match v with
  | vnum _ z => w = dart_prim t z
  | vext n x =>
      if is_string_type t then w = dstr x
      else exists a, w = dref a /\ P a /\ nth_error h a = Some (CExt (dart_type t) x)
  | vrec n fs =>
      match fs with
      | [] => w = dobj n [] []
      | _ => object n (fun cfs => all2P (fun '(_, v) f => exists u, lookup (fst f) cfs = Some u /\ rep u v (snd f)) fs (fields_of n)) w
      end
  | vcase e c => enum e c (fun u => u = dobj (e ++ c)%string [] [])
  | vcaset e c l =>
      enum e c (object (e ++ c)%string (fun cfs => all2P (fun v f => exists u, lookup (fst f) cfs = Some u /\ rep u v (snd f)) l (items_of e c)))
  | vcases e c fs =>
      enum e c (object (e ++ c)%string (fun cfs => all2P (fun '(_, v) f => exists u, lookup (fst f) cfs = Some u /\ rep u v (snd f)) fs (items_of e c)))
  | vbox _ _ l =>
      exists a ws, w = dref a /\ P a /\ nth_error h a = Some (CList ws) /\
        all2P (fun v u => rep u v (match t with TyGeneric _ (a :: _) => a | _ => t end)) l ws
  | _ => False
  end.
End Rep.

(** [w] is an object of the class of [t] that can be filled in place, and [fp] are the objects that
    will be written to.  The elements of a list are replaced and do not belong to it. *)
Section Shaped.
Variable h : heap.
Inductive shaped : dval -> type_id -> list nat -> Prop :=
| sh_prim w t : prim_name t <> None -> shaped w t []
| sh_string w : shaped w (TyOther "String") []
| sh_ext a m x : m <> "String" -> outside m = true -> nth_error h a = Some (CExt (DTy m []) x) -> shaped (dref a) (TyOther m) [a]
| sh_opaque a g l x : opaque g = true -> nth_error h a = Some (CExt (dart_type (TyGeneric g l)) x) -> shaped (dref a) (TyGeneric g l) [a]
| sh_list a t l : nth_error h a = Some (CList l) -> shaped (dref a) (TyGeneric "Vec" [t]) [a]
| sh_empty n s : decl_of n ds = Some (DStruct s) -> sn_fields s = [] -> shaped (dobj n [] []) (TyOther n) []
| sh_struct n s a cfs fp :
    decl_of n ds = Some (DStruct s) -> sn_fields s <> [] ->
    nth_error h a = Some (CObj n cfs) -> shaped_slots cfs (map field_slot (sn_fields s)) fp ->
    shaped (dref a) (TyOther n) (a :: fp)
| sh_enum n e a cfs v fp :
    decl_of n ds = Some (Wire.DEnum e) -> nth_error h a = Some (CObj n cfs) -> lookup "value" cfs = Some v ->
    shaped_items n cfs (en_items e) fp -> shaped (dref a) (TyOther n) (a :: fp)
with shaped_slots : list (string * dval) -> list slot -> list nat -> Prop :=
| sl_nil cfs : shaped_slots cfs [] []
| sl_cons cfs n t l w fp fp' :
    lookup n cfs = Some w -> shaped w t fp -> shaped_slots cfs l fp' -> shaped_slots cfs ((n, t) :: l) (fp ++ fp')
with shaped_items : string -> list (string * dval) -> list enum_item -> list nat -> Prop :=
| si_nil n cfs : shaped_items n cfs [] []
| si_empty n cfs i l fp :
    item_slots i = [] -> lookup (camel (item_name i)) cfs = Some (dobj (n ++ item_name i)%string [] []) ->
    shaped_items n cfs l fp -> shaped_items n cfs (i :: l) fp
| si_cons n cfs i l b gfs fp fp' :
    item_slots i <> [] -> lookup (camel (item_name i)) cfs = Some (dref b) ->
    nth_error h b = Some (CObj (n ++ item_name i)%string gfs) -> shaped_slots gfs (item_slots i) fp ->
    shaped_items n cfs l fp' -> shaped_items n cfs (i :: l) (b :: fp ++ fp').
End Shaped.

(** Where skipping agrees with reading.  A field with a type of its own (a struct, an enum, String or
    another type of the libraries, but no primitive and no generic type) is skipped before the others
    and only once. *)
Definition user_typed (t : type_id) : bool := match t with TyOther _ => true | _ => false end.
Fixpoint user_first (l : list slot) : bool :=
  match l with
  | [] => true
  | p :: l' => if user_typed (snd p) then user_first l' else forallb (fun q => negb (user_typed (snd q))) l'
  end.
(** No struct with such a field. *)
Definition plain_type (t : type_id) : bool :=
  match t with
  | TyOther n => forallb (fun p => negb (user_typed (snd p))) (fields_of n)
  | _ => true
  end.
Fixpoint skippable (v : val) (t : type_id) {struct v} : bool :=
  match v with
  | vrec n fs => user_first (fields_of n) && all2 (fun '(_, v) p => skippable v (snd p)) fs (fields_of n)
  | vcaset e c l => user_first (items_of e c) && all2 (fun v p => skippable v (snd p)) l (items_of e c)
  | vcases e c fs => user_first (items_of e c) && all2 (fun '(_, v) p => skippable v (snd p)) fs (items_of e c)
  | vbox _ _ l =>
      let a := match t with TyGeneric _ (a :: _) => a | _ => t end in
      (negb (rd_bulk D) || Nat.eqb (List.length l) 1 || plain_type a) && forallb (fun v => skippable v a) l
  | _ => true
  end.

(** Where the two languages use the same bytes: no [char], no list of numbers, and of the generic types
    only [Vec]. *)
Fixpoint portable (v : val) (t : type_id) {struct v} : bool :=
  match v with
  | vnum _ _ => match t with TyChar _ => false | _ => true end
  | vext _ _ => match t with TyOther _ => true | _ => false end
  | vrec n fs => all2 (fun '(_, v) p => portable v (snd p)) fs (fields_of n)
  | vcaset e c l => all2 (fun v p => portable v (snd p)) l (items_of e c)
  | vcases e c fs => all2 (fun '(_, v) p => portable v (snd p)) fs (items_of e c)
  | vbox _ _ l =>
      let a := match t with TyGeneric _ (a :: _) => a | _ => t end in
      match prim_name a with None => true | Some _ => false end && forallb (fun v => portable v a) l
  | _ => true
  end.
End Spec.

(** The Rust and the Dart libraries agree: integers as two's complement numbers of the same width,
    floats, booleans, lengths of lists, and the types that both of them declare elsewhere. *)
Definition int_codec (n : nat) : string := match n with 1 => "Int8" | 4 => "Int32" | _ => "Int64" end.
Record agree (R : runtime) (D : druntime) (U : support) : Prop := mk_agree
  { ag_int : forall p z, is_integer p = true -> in_range p z = true ->
      rt_put R p z = rd_put D (int_codec (prim_size p)) (signed (prim_size p) z);
    ag_f32 : forall z, su_f32 U z = true -> rt_put R "f32" z = rd_put D "Float" (su_widen U z);
    ag_f64 : forall z, in_range "f64" z = true -> rt_put R "f64" z = rd_put D "Double" z;
    ag_bool : forall z, in_range "bool" z = true -> rt_put R "bool" z = rd_put D "Bool" z;
    ag_ext : forall n x, su_ext U (DTy n []) x = true -> rt_ext_put R n x = rd_ext_put D (DTy n []) x;
    ag_len : forall n, su_len U n = true -> rt_head_put R "Vec" (N.of_nat n) = rd_len_put D n }.

(** How [h'] continues [h]: nothing but the objects [fp] changed. *)
Definition changes (h h' : heap) (fp : list nat) : Prop :=
  List.length h <= List.length h' /\
  forall a, a < List.length h -> ~ In a fp -> nth_error h' a = nth_error h a.
(** The objects that are in [h'] but not in [h]. *)
Definition fresh (h h' : heap) (a : nat) : Prop := List.length h <= a < List.length h'.
