(** The wire format of a schema, written down independently of the generators: which values a type
    has, and the bytes of a value.  A struct is the bytes of its fields in declaration order; an enum
    value is the position of its case as a u32, then its payload; a generic library type is its own
    data followed by the contained values. *)
Require Import Coq.Strings.String Coq.Strings.Ascii.
Require Import Coq.NArith.NArith Coq.ZArith.ZArith Coq.Lists.List Coq.Bool.Bool Coq.micromega.Lia.
Require Import Verif.Base Verif.Ast Verif.RustSem.
Import ListNotations.
Local Open Scope string_scope.
Local Open Scope list_scope.

(** The types a file defines. *)
Inductive decl : Type :=
| DStruct (s : struct_node)
| DEnum (e : enum_node).
Definition decl_name (d : decl) : string := match d with DStruct s => sn_id s | DEnum e => en_id e end.
Definition decl_of (n : string) (ds : list decl) : option decl :=
  find (fun d => String.eqb (decl_name d) n) ds.
Definition schema_decls (ast : list ast_node) : list decl :=
  flat_map (fun n => match n with NStruct s => [DStruct s] | NEnum e => [DEnum e] | _ => [] end) ast.

Definition item_name (i : enum_item) : string :=
  match i with ItemEmpty _ n | ItemTuple _ n _ | ItemStruct _ n _ => n end.
Definition item_pos (i : enum_item) : N :=
  match i with ItemEmpty p _ | ItemTuple p _ _ | ItemStruct p _ _ => p end.
Definition item_of (c : string) (e : enum_node) : option enum_item :=
  find (fun i => String.eqb (item_name i) c) (en_items e).

(** The name of a primitive type. *)
Definition prim_name (t : type_id) : option string :=
  match t with
  | TyInteger id _ _ | TyNumber id _ | TyBool id | TyChar id => Some id
  | TyOther _ | TyGeneric _ _ => None
  end.

Definition all2 {A B} (f : A -> B -> bool) : list A -> list B -> bool :=
  fix go l m :=
    match l, m with
    | [], [] => true
    | a :: l', b :: m' => f a b && go l' m'
    | _, _ => false
    end.

Section Format.
Variable R : runtime.
Variable ds : list decl.

(** [v] is a value of type [t]. *)
Fixpoint typed (v : val) (t : type_id) {struct v} : bool :=
  let fields fs l := all2 (fun '(x, v) f => String.eqb x (sf_name f) && typed v (sf_type f)) fs l in
  match v with
  | vnum p z =>
      match prim_name t with Some id => String.eqb p id && is_prim p && in_range p z | None => false end
  | vext n x =>
      match t with
      | TyOther m =>
          String.eqb n m && negb (is_prim n) && negb (String.eqb n "Self") &&
          match decl_of n ds with None => rt_ext_ok R n x | Some _ => false end
      | _ => false
      end
  | vrec n fs =>
      match t, decl_of n ds with
      | TyOther m, Some (DStruct s) => String.eqb n m && fields fs (sn_fields s)
      | _, _ => false
      end
  | vcase e c =>
      match t, decl_of e ds with
      | TyOther m, Some (DEnum d) =>
          String.eqb e m && match item_of c d with Some (ItemEmpty _ _) => true | _ => false end
      | _, _ => false
      end
  | vcaset e c l =>
      match t, decl_of e ds with
      | TyOther m, Some (DEnum d) =>
          String.eqb e m &&
          match item_of c d with
          | Some (ItemTuple _ _ ts) => all2 (fun v f => typed v (tf_type f)) l ts
          | _ => false
          end
      | _, _ => false
      end
  | vcases e c fs =>
      match t, decl_of e ds with
      | TyOther m, Some (DEnum d) =>
          String.eqb e m && match item_of c d with Some (ItemStruct _ _ l) => fields fs l | _ => false end
      | _, _ => false
      end
  | vbox g k l =>
      match t with
      | TyGeneric h (a :: args) =>
          String.eqb g h && negb (String.eqb g "Self") && rt_head_ok R g k &&
          all2 (fun v i => match nth_error (a :: args) i with Some t => typed v t | None => false end)
            l (rt_slots R g k)
      | _ => false
      end
  | _ => false
  end.

Definition tag (e c : string) : bytes :=
  match decl_of e ds with
  | Some (DEnum d) =>
      match item_of c d with Some i => rt_put R "u32" (Z.of_N (item_pos i)) | None => [] end
  | _ => []
  end.

(** The bytes of a value. *)
Fixpoint wire (v : val) : bytes :=
  match v with
  | vnum t z => rt_put R t z
  | vext n x => rt_ext_put R n x
  | vrec _ fs => flat_map (fun '(_, v) => wire v) fs
  | vcase e c => tag e c
  | vcaset e c l => tag e c ++ flat_map wire l
  | vcases e c fs => tag e c ++ flat_map (fun '(_, v) => wire v) fs
  | vbox g k l => rt_head_put R g k ++ flat_map wire l
  | _ => []
  end.
End Format.

(** How deeply a value is nested. *)
Fixpoint depth (v : val) : nat :=
  match v with
  | vrec _ fs | vcases _ _ fs => S (list_max (map (fun '(_, v) => depth v) fs))
  | vcaset _ _ l | vbox _ _ l => S (list_max (map depth l))
  | vopt (Some v) | vref v | vfut v => S (depth v)
  | _ => 1
  end.

(** What the library codecs promise: reading what was written gives the value and leaves the rest. *)
Record lawful (R : runtime) : Prop := mk_lawful
  { law_prim : forall t z r, is_prim t = true -> in_range t z = true ->
      rt_get R t (rt_put R t z ++ r) = Some (z, r);
    law_ext : forall n x r, rt_ext_ok R n x = true -> rt_ext_get R n (rt_ext_put R n x ++ r) = Some (x, r);
    law_head : forall g k r, rt_head_ok R g k = true -> rt_head_get R g (rt_head_put R g k ++ r) = Some (k, r) }.

(** An example: little-endian two's complement numbers, strings as a length and their bytes, vectors
    as a u64 length and the elements. *)
Fixpoint le_bytes (n : nat) (z : Z) : bytes :=
  match n with
  | 0 => []
  | S n' => ascii_of_N (Z.to_N (z mod 256)) :: le_bytes n' (z / 256)
  end.
Fixpoint le_value (b : bytes) : Z :=
  match b with
  | [] => 0
  | c :: b' => (Z.of_N (N_of_ascii c) + 256 * le_value b')%Z
  end.
Definition prim_size (t : string) : nat :=
  if String.eqb t "i8" || String.eqb t "u8" || String.eqb t "bool" then 1
  else if String.eqb t "i64" || String.eqb t "u64" || String.eqb t "f64" then 8 else 4.
Definition prim_signed (t : string) : bool := existsb (String.eqb t) ["i8"; "i32"; "i64"].
Definition le_get (t : string) (b : bytes) : option (Z * bytes) :=
  let n := prim_size t in
  if Nat.leb n (List.length b) then
    let z := le_value (firstn n b) in
    let h := (2 ^ (8 * Z.of_nat n - 1))%Z in
    Some (if prim_signed t && (h <=? z)%Z then (z - 2 * h)%Z else z, skipn n b)
  else None.
Definition le_nat_put (k : N) : bytes := le_bytes 8 (Z.of_N k).
Definition le_nat_get (b : bytes) : option (N * bytes) :=
  match le_get "u64" b with Some (z, r) => Some (Z.to_N z, r) | None => None end.
Definition le_runtime : runtime :=
  mk_runtime (fun t z => le_bytes (prim_size t) z) le_get
    (fun _ x => (x <? 2 ^ 64)%N) (fun _ => le_nat_put) (fun _ => le_nat_get)
    (fun _ k => (k <? 2 ^ 64)%N) (fun _ => le_nat_put) (fun _ => le_nat_get)
    (fun _ k => repeat 0 (N.to_nat k)).

Lemma le_bytes_length n z : List.length (le_bytes n z) = n.
Proof. revert z. induction n; intros; cbn; congruence. Qed.
Lemma le_value_bytes n z : le_value (le_bytes n z) = (z mod 2 ^ (8 * Z.of_nat n))%Z.
Proof.
  revert z. induction n as [|n IH]; intros z.
  - cbn. now rewrite Z.mod_1_r.
  - cbn [le_bytes le_value]. rewrite IH.
    pose proof (Z.mod_pos_bound z 256 eq_refl) as B.
    rewrite N_ascii_embedding by (apply N2Z.inj_lt; rewrite Z2N.id; [apply B|apply B]).
    rewrite Z2N.id by apply B.
    replace (8 * Z.of_nat (S n))%Z with (8 + 8 * Z.of_nat n)%Z by (rewrite Nat2Z.inj_succ; ring).
    rewrite Z.pow_add_r by (try apply Nat2Z.is_nonneg; try (apply Z.mul_nonneg_nonneg; [easy|apply Nat2Z.is_nonneg]); easy).
    change (2 ^ 8)%Z with 256%Z. rewrite Z.rem_mul_r; [reflexivity|easy|].
    apply Z.pow_pos_nonneg; [easy|]. apply Z.mul_nonneg_nonneg; [easy|apply Nat2Z.is_nonneg].
Qed.
Lemma firstn_app_l {A} (a b : list A) : firstn (List.length a) (a ++ b) = a.
Proof. induction a; cbn; [now destruct b|congruence]. Qed.
Lemma skipn_app_l {A} (a b : list A) : skipn (List.length a) (a ++ b) = b.
Proof. induction a; cbn; [now destruct b|congruence]. Qed.

Definition range_of (t : string) (z : Z) : Prop :=
  let h := (2 ^ (8 * Z.of_nat (prim_size t) - 1))%Z in
  if prim_signed t then (- h <= z < h)%Z else (0 <= z < 2 * h)%Z.
Lemma prim_size_pos t : (1 <= Z.of_nat (prim_size t))%Z.
Proof. unfold prim_size. destruct (_ || _); [reflexivity|]. now destruct (_ || _). Qed.
Lemma le_get_range t z r : range_of t z -> le_get t (le_bytes (prim_size t) z ++ r) = Some (z, r).
Proof.
  intros B. unfold le_get.
  rewrite app_length, le_bytes_length. replace (Nat.leb _ _) with true by (symmetry; apply Nat.leb_le; lia).
  pose proof (firstn_app_l (le_bytes (prim_size t) z) r) as F. rewrite le_bytes_length in F. rewrite F.
  pose proof (skipn_app_l (le_bytes (prim_size t) z) r) as K. rewrite le_bytes_length in K. rewrite K.
  rewrite le_value_bytes. unfold range_of in B.
  pose proof (prim_size_pos t) as P.
  assert (H : (2 ^ (8 * Z.of_nat (prim_size t)) = 2 * 2 ^ (8 * Z.of_nat (prim_size t) - 1))%Z).
  { rewrite <- Z.pow_succ_r by lia. f_equal. lia. }
  rewrite H. pose proof (Z.pow_pos_nonneg 2 (8 * Z.of_nat (prim_size t) - 1)) as Q.
  set (h := (2 ^ (8 * Z.of_nat (prim_size t) - 1))%Z) in *. clearbody h.
  f_equal. f_equal. destruct (prim_signed t); cbn [andb].
  - destruct (Z.leb_spec 0 z).
    + rewrite Z.mod_small by lia. destruct (Z.leb_spec h z); lia.
    + rewrite <- (Z.mod_add z 1) by lia. rewrite Z.mod_small by lia. destruct (Z.leb_spec h (z + 1 * (2 * h))); lia.
  - rewrite Z.mod_small by lia. reflexivity.
Qed.
Lemma le_get_put t z r : is_prim t = true -> in_range t z = true ->
  le_get t (le_bytes (prim_size t) z ++ r) = Some (z, r).
Proof.
  intros P B. apply le_get_range.
  unfold is_prim, prims in P. cbn [existsb] in P.
  repeat (apply orb_true_iff in P; destruct P as [P|P]; [apply String.eqb_eq in P; subst t|]); [..|discriminate];
    unfold in_range in B; cbn [String.eqb Ascii.eqb Bool.eqb orb] in B; rewrite ?orb_true_iff, ?andb_true_iff, ?Z.leb_le, ?Z.ltb_lt in B.
  all: match goal with |- range_of ?t ?z =>
         let s := eval vm_compute in (prim_signed t) in
         let h := eval vm_compute in (2 ^ (8 * Z.of_nat (prim_size t) - 1))%Z in
         change (if s then (- h <= z < h)%Z else (0 <= z < 2 * h)%Z) end; cbv iota.
  all: repeat match type of B with context [(2 ^ ?b)%Z] => let k := eval vm_compute in (2 ^ b)%Z in change (2 ^ b)%Z with k in B end; lia.
Qed.
Lemma le_nat_get_put k r : (k <? 2 ^ 64)%N = true -> le_nat_get (le_nat_put k ++ r) = Some (k, r).
Proof.
  intros B. unfold le_nat_get, le_nat_put. change 8 with (prim_size "u64"). rewrite le_get_put.
  - now rewrite N2Z.id.
  - reflexivity.
  - change (in_range "u64" (Z.of_N k)) with ((0 <=? Z.of_N k) && (Z.of_N k <? 2 ^ 64))%Z.
    apply N.ltb_lt in B. apply andb_true_iff. split; [apply Z.leb_le; lia|apply Z.ltb_lt; lia].
Qed.
Lemma le_lawful : lawful le_runtime.
Proof. constructor; cbn; intros; [now apply le_get_put|now apply le_nat_get_put|now apply le_nat_get_put]. Qed.
