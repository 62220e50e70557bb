(** What representing a value says about it, when the bytes of Rust and Dart are the same, and an
    example of the Dart libraries that meets the laws. *)
Require Import Coq.Strings.String Coq.Strings.Ascii.
Require Import Coq.NArith.NArith Coq.ZArith.ZArith Coq.Lists.List Coq.Bool.Bool Coq.Arith.PeanoNat Coq.micromega.Lia.
Require Import Coq.micromega.ZifyBool Coq.micromega.ZifyN Coq.micromega.ZifyNat.
Require Import Verif.Base Verif.Ast Verif.CaseConv Verif.Code Verif.NumText Verif.RustSem Verif.Wire Verif.RustCodec.
Require Import Verif.DartSyntax Verif.DartGen Verif.DartTree Verif.DartSem Verif.DartWire Verif.DartRun Verif.DartShape Verif.DartCodec.
Import ListNotations.
Local Open Scope string_scope.
Local Open Scope list_scope.

(** ** Signed numbers *)

Lemma signed_cong n z : n = 1 \/ n = 4 \/ n = 8 -> ((signed n z) mod 2 ^ (8 * Z.of_nat n) = z mod 2 ^ (8 * Z.of_nat n))%Z.
Proof.
  intros K. unfold signed. destruct (z <? _)%Z; [reflexivity|].
  replace (z - 2 ^ (8 * Z.of_nat n))%Z with (z + (-1) * 2 ^ (8 * Z.of_nat n))%Z by ring.
  apply Z.mod_add. destruct K as [->|[->| ->]]; discriminate.
Qed.
Lemma integer_size p : is_integer p = true -> prim_size p = 1 \/ prim_size p = 4 \/ prim_size p = 8.
Proof.
  unfold is_integer. cbn [existsb]. intros I.
  repeat (apply orb_true_iff in I; destruct I as [I|I]; [apply String.eqb_eq in I; subst p; cbn; tauto|]). discriminate.
Qed.
(** The range of an integer type is an interval of the size of its width. *)
Lemma range_width p z z' : is_integer p = true -> in_range p z = true -> in_range p z' = true ->
  (z mod 2 ^ (8 * Z.of_nat (prim_size p)) = z' mod 2 ^ (8 * Z.of_nat (prim_size p)))%Z -> z = z'.
Proof.
  intros I A B E.
  assert (K : exists b, (b <= z < b + 2 ^ (8 * Z.of_nat (prim_size p)))%Z /\ (b <= z' < b + 2 ^ (8 * Z.of_nat (prim_size p)))%Z).
  { unfold is_integer in I. cbn [existsb] in I.
    repeat (apply orb_true_iff in I; destruct I as [I|I]; [apply String.eqb_eq in I; subst p;
      match goal with |- context [prim_size ?q] => let k := eval vm_compute in (2 ^ (8 * Z.of_nat (prim_size q)))%Z in change (2 ^ (8 * Z.of_nat (prim_size q)))%Z with k end;
      unfold in_range in A, B; cbn [String.eqb Ascii.eqb Bool.eqb orb] in A, B;
      change (2 ^ 7)%Z with 128%Z in *; change (2 ^ 8)%Z with 256%Z in *;
      change (2 ^ 31)%Z with 2147483648%Z in *; change (2 ^ 32)%Z with 4294967296%Z in *;
      change (2 ^ 63)%Z with 9223372036854775808%Z in *; change (2 ^ 64)%Z with 18446744073709551616%Z in *;
      first [exists 0%Z; lia|exists (-128)%Z; lia|exists (-2147483648)%Z; lia|exists (-9223372036854775808)%Z; lia]|]). discriminate. }
  destruct K as (b & K1 & K2). set (m := (2 ^ (8 * Z.of_nat (prim_size p)))%Z) in *.
  assert (M : (0 < m)%Z) by lia.
  assert (X : ((z - b) mod m = (z' - b) mod m)%Z) by (rewrite (Zminus_mod z b), (Zminus_mod z' b), E; reflexivity).
  clearbody m. clear - K1 K2 X M. rewrite !Z.mod_small in X by lia. lia.
Qed.
Lemma signed_inj p z z' : is_integer p = true -> in_range p z = true -> in_range p z' = true ->
  signed (prim_size p) z = signed (prim_size p) z' -> z = z'.
Proof.
  intros I A B E. apply (range_width p); try assumption. pose proof (integer_size p I) as K.
  now rewrite <- (signed_cong _ z K), <- (signed_cong _ z' K), E.
Qed.
Lemma signed_small n z : (0 <= z < 2 ^ 31)%Z -> n = 4 -> signed n z = z.
Proof. intros L ->. unfold signed. change (2 ^ (8 * Z.of_nat 4 - 1))%Z with (2 ^ 31)%Z. destruct (Z.ltb_spec z (2 ^ 31)); lia. Qed.

Section Values.
Variable U : support.
Variable items : list ditem.
Variable ds : list decl.
Variable cd : nat.
Hypothesis okd : forallb dart_decl_ok ds = true.
Notation classes := (top_names items).
Notation dtyped := (dtyped U ds classes cd).
Notation rep := (rep U ds).

(** ** An object represents one value only *)

Lemma prim_unique t z z' : (forall a b, su_f32 U a = true -> su_f32 U b = true -> su_widen U a = su_widen U b -> a = b) ->
  prim_ok U t z = true -> prim_ok U t z' = true -> dart_prim U t z = dart_prim U t z' -> z = z'.
Proof.
  intros W A B E. destruct t as [id k sg|id k|id|id|id l|id]; cbn [prim_ok] in A, B; try discriminate A.
  - rewrite !andb_true_iff in A, B. destruct A as [[I S] A], B as [_ B]. apply Nat.eqb_eq in S. subst k.
    cbn [dart_prim dart_num] in E. injection E as E. now apply (signed_inj id).
  - apply orb_true_iff in A, B. cbn [dart_prim dart_num] in E. injection E as E.
    rewrite !andb_true_iff in A, B. destruct A as [[[A1 A2] A3]|[[A1 A2] A3]], B as [[[B1 B2] B3]|[[B1 B2] B3]];
      apply Nat.eqb_eq in A2, B2; subst k; try discriminate B2; [now apply W|exact E].
  - rewrite !andb_true_iff in A, B. destruct A as [A1 A], B as [_ B]. apply String.eqb_eq in A1. subst.
    unfold in_range in A, B. cbn [String.eqb Ascii.eqb Bool.eqb orb] in A, B. cbn [dart_prim] in E. injection E as E.
    destruct (Z.eqb_spec z 1), (Z.eqb_spec z' 1); try discriminate E; lia.
  - cbn [dart_prim dart_num] in E. now injection E.
Qed.

Lemma camel_item m e i j : decl_of m ds = Some (Wire.DEnum e) -> In i (en_items e) -> In j (en_items e) ->
  camel (item_name i) = camel (item_name j) -> i = j.
Proof.
  intros E I J C. destruct (enum_conditions ds okd m e E) as (_ & _ & _ & _ & N & _). apply NoDup_cons_iff in N as [_ N].
  clear - I J C N. induction (en_items e) as [|k l IH]; [destruct I|]. cbn [map] in N. apply NoDup_cons_iff in N as [N1 N2].
  destruct I as [->|I], J as [->|J]; [reflexivity| | |now apply IH]; exfalso; apply N1.
  - rewrite C. apply (in_map (fun i => camel (item_name i))). exact J.
  - rewrite <- C. apply (in_map (fun i => camel (item_name i))). exact I.
Qed.

Lemma all2P_Forall2 {A B} (f : A -> B -> Prop) l m : all2P f l m <-> Forall2 f l m.
Proof.
  split; [|induction 1; cbn; auto].
  revert m. induction l as [|a l IH]; intros [|b m] H; cbn in H; try contradiction; constructor; [apply H|apply IH, H].
Qed.
Lemma Forall2_cons_iff {A B} (Q : A -> B -> Prop) a l b m : Forall2 Q (a :: l) (b :: m) <-> Q a b /\ Forall2 Q l m.
Proof. split; [now inversion 1|]. intros [H F]. now constructor. Qed.
Lemma fields_unique (Q Q' : val -> slot -> Prop) (ss : list slot) : forall vs ws,
  Forall2 (fun v p => dtyped v (snd p) = true) vs ss -> Forall2 (fun v p => dtyped v (snd p) = true) ws ss ->
  Forall2 Q vs ss -> Forall2 Q' ws ss ->
  (forall v w p, In v vs -> dtyped v (snd p) = true -> dtyped w (snd p) = true -> Q v p -> Q' w p -> v = w) -> vs = ws.
Proof.
  induction ss as [|p ss IH]; intros [|v vs] [|w ws] A B C E H; try reflexivity; try (exfalso; now inversion A); try (exfalso; now inversion B).
  apply Forall2_cons_iff in A as [A1 A2], B as [B1 B2], C as [C1 C2], E as [E1 E2]. f_equal; [apply (H _ _ p); auto; now left|]. apply IH; auto. intros x y q I. apply H. now right.
Qed.

(** The names of the fields of a typed record. *)
Lemma struct_names m fs st : dtyped (vrec m fs) (TyOther m) = true -> decl_of m ds = Some (DStruct st) -> map fst fs = map sf_name (sn_fields st).
Proof.
  intros T E. cbn [DartWire.dtyped] in T. rewrite E in T. apply andb_true_iff in T as [_ T]. apply all2_Forall2 in T. clear - T.
  induction T as [|[x v] f l m H F IH]; [reflexivity|]. cbn. apply andb_true_iff in H as [H _]. apply String.eqb_eq in H. now f_equal.
Qed.
Lemma same_record (fs gs : list (string * val)) : map fst fs = map fst gs -> map snd fs = map snd gs -> fs = gs.
Proof.
  revert gs. induction fs as [|[x v] fs IH]; intros [|[y w] gs] A B; cbn in A, B; try discriminate; [reflexivity|].
  injection A as -> A. injection B as -> B. f_equal. now apply IH.
Qed.
Lemma case_names v m e i vs : dtyped v (TyOther m) = true -> decl_of m ds = Some (Wire.DEnum e) -> item_of (item_name i) e = Some i -> enum_value v m i vs ->
  match v, i with vcases _ _ fs, ItemStruct _ _ gs => map fst fs = map sf_name gs | _, _ => True end.
Proof.
  intros T E IO V. destruct v; try exact Logic.I. destruct i as [p n|p n ts|p n gs]; try contradiction V. destruct V as (-> & -> & ->).
  cbn [DartWire.dtyped] in T. rewrite E in T. cbn [item_name] in IO. rewrite IO in T. apply andb_true_iff in T as [_ T]. apply all2_Forall2 in T. clear - T.
  induction T as [|[x v] f l m H F IH]; [reflexivity|]. cbn. apply andb_true_iff in H as [H _]. apply String.eqb_eq in H. now f_equal.
Qed.
Lemma enum_has_default m e v i vs : dtyped v (TyOther m) = true -> decl_of m ds = Some (Wire.DEnum e) -> item_of (item_name i) e = Some i -> enum_value v m i vs ->
  has_default i.
Proof.
  intros T E IO V. destruct (enum_case U items ds cd v m e T E) as (j & ws & IJ & V' & C & _).
  destruct (creatable_enum items ds cd m e E C) as (cd' & _ & _ & C2).
  rewrite forallb_forall in C2. specialize (C2 i (proj1 (find_item_in _ _ _ IO))). unfold item_creatable in C2. apply andb_true_iff in C2 as [_ H].
  destruct i as [?|? ? [|]|? ? [|]]; try exact Logic.I; try discriminate H; cbn; discriminate.
Qed.
Lemma enum_value_inj v v' m i vs : enum_value v m i vs -> enum_value v' m i vs ->
  (forall fs fs', v = vcases m (item_name i) fs -> v' = vcases m (item_name i) fs' -> map fst fs = map fst fs') -> v = v'.
Proof.
  intros A B H. destruct i as [p n|p n ts|p n gs]; destruct v; try contradiction A; destruct v'; try contradiction B; cbn in A, B;
    destruct A as (-> & -> & ->), B as (-> & -> & B); [reflexivity|congruence|].
  f_equal. apply same_record; [|exact B]. now apply (H fs fs0).
Qed.

Theorem rep_unique_upto (widen_inj : forall a b, su_f32 U a = true -> su_f32 U b = true -> su_widen U a = su_widen U b -> a = b) d :
  forall v v' t P P' h w, depth v <= d -> dtyped v t = true -> dtyped v' t = true -> rep P h w v t -> rep P' h w v' t -> v = v'.
Proof.
  induction d as [|d IH]; intros v v' t P P' h w L T T' A B; [exfalso; destruct v; try discriminate T; cbn in L; lia|].
  destruct (Wire.prim_name t) as [id|] eqn:PN.
  - destruct (dtyped_prim U items ds cd v t T) as (p & z & -> & OK); [congruence|].
    destruct (dtyped_prim U items ds cd v' t T') as (p' & z' & -> & OK'); [congruence|].
    cbn [DartWire.dtyped] in T, T'. rewrite PN in T, T'. apply andb_true_iff in T as [T _], T' as [T' _]. apply String.eqb_eq in T, T'.
    cbn [DartWire.rep] in A, B. f_equal; [congruence|]. apply (prim_unique t _ _ widen_inj OK OK'). congruence.
  - destruct (value_cases U items ds cd v t T PN) as [(n & x & ->)|[(k & l & a & -> & -> & EA & SL & F)|[(m & st & -> & E)|(m & e & -> & E)]]].
    + destruct (dtyped_ext U items ds cd n x t T) as (ts & X & _).
      destruct (ext_value U items ds cd v' t n ts T' X) as (n' & x' & ->).
      destruct (dtyped_ext U items ds cd n' x' t T') as (ts' & X' & _).
      destruct (ext_facts items ds t n ts X) as (Y & _), (ext_facts items ds t n' ts' X') as (Y' & _).
      cbn [DartWire.rep] in A, B. destruct (is_string_type t).
      * f_equal; congruence.
      * destruct A as (b & -> & _ & A), B as (b' & [= <-] & _ & B). f_equal; congruence.
    + destruct (value_cases U items ds cd v' _ T' eq_refl) as [(n' & x' & ->)|[(k' & l' & a' & -> & [= <-] & _ & _ & F')|[(m & st & [=] & E)|(m & e & [=] & E)]]].
      { cbn [DartWire.dtyped] in T'. rewrite !andb_true_iff in T'. destruct T' as [[_ T'] _]. discriminate T'. }
      apply dtyped_list in T as (a0 & _ & _ & _ & _ & _ & K), T' as (a1 & _ & _ & _ & _ & _ & K').
      cbn [DartWire.rep] in A, B. destruct A as (b & ws & -> & _ & H & A), B as (b' & ws' & [= <-] & _ & H' & B).
      assert (ws' = ws) by congruence. subst ws'.
      assert (L' : l = l').
      { assert (DL : forall v, In v l -> depth v <= d) by (intros v I; pose proof (sub_depth (vbox "Vec" k l) v I); lia).
        clear - IH F F' A B DL. revert l' F' ws A B. induction l as [|v l IHl]; intros [|v' l'] F' [|u ws] A B; try contradiction; [reflexivity|].
        inversion F; inversion F'; subst. destruct A as [A1 A2], B as [B1 B2]. f_equal.
        - apply (IH v v' a P P' h u); auto. apply DL. now left.
        - apply (IHl H2) with (ws := ws); auto. intros y I. apply DL. now right. }
      subst l'. congruence.
    + destruct (struct_case U items ds cd v m st T E) as (fs & -> & F), (struct_case U items ds cd v' m st T' E) as (fs' & -> & F').
      pose proof (struct_names m fs st T E) as N. pose proof (struct_names m fs' st T' E) as N'.
      f_equal. apply same_record; [congruence|].
      cbn [DartWire.rep] in A, B.
      destruct fs as [|p0 fs0].
      { destruct fs' as [|p1 fs1]; [reflexivity|]. exfalso. cbn [map] in N, N'. rewrite <- N in N'. discriminate N'. }
      destruct fs' as [|p1 fs1]. { exfalso. cbn [map] in N, N'. rewrite <- N in N'. discriminate N'. }
      set (fs := p0 :: fs0) in *. set (fs' := p1 :: fs1) in *.
      destruct A as (b & cfs & -> & _ & H & A), B as (b' & cfs' & [= <-] & _ & H' & B). assert (cfs' = cfs) by congruence. subst cfs'.
      rewrite (struct_slots ds m st E) in A, B.
      assert (A' : all2P (fun v f => exists u, DartSem.lookup (fst f) cfs = Some u /\ rep P h u v (snd f)) (map snd fs) (map field_slot (sn_fields st))).
      { apply (all2P_map (@snd string val)). eapply all2P_imp; [|exact A]. intros [x v] f _ Q. exact Q. }
      assert (B' : all2P (fun v f => exists u, DartSem.lookup (fst f) cfs = Some u /\ rep P' h u v (snd f)) (map snd fs') (map field_slot (sn_fields st))).
      { apply (all2P_map (@snd string val)). eapply all2P_imp; [|exact B]. intros [x v] f _ Q. exact Q. }
      apply all2P_Forall2 in A', B'.
      assert (DL : forall v, In v (map snd fs) -> depth v <= d) by (intros v I; pose proof (sub_depth (vrec m fs) v I); lia).
      eapply (fields_unique _ _ _ _ _ F F' A' B'). intros v w p I TV TW (u & U1 & U2) (u' & U1' & U2').
      assert (u' = u) by congruence. subst u'. apply (IH v w (snd p) P P' h u); auto.
    + destruct (enum_case U items ds cd v m e T E) as (i & vs & IO & V & _ & PV & F), (enum_case U items ds cd v' m e T' E) as (j & vs' & JO & V' & _ & _ & F').
      apply (enum_rep U ds v m e i vs P h w V E IO (enum_has_default m e v i vs T E IO V)) in A.
      apply (enum_rep U ds v' m e j vs' P' h w V' E JO (enum_has_default m e v' j vs' T' E JO V')) in B.
      destruct A as (b & cfs & -> & _ & H & VA & u & UA & A), B as (b' & cfs' & [= <-] & _ & H' & VB & u' & UB & B).
      assert (cfs' = cfs) by congruence. subst cfs'.
      assert (J : i = j).
      { apply (camel_item m e); [exact E|apply (find_item_in _ _ _ IO)|apply (find_item_in _ _ _ JO)|]. congruence. }
      subst j. assert (u' = u) by congruence. subst u'.
      assert (X : vs = vs').
      { destruct A as [[A0 A]|[A0 (b1 & gfs & -> & _ & G & A)]], B as [[B0 B]|[B0 (b2 & gfs' & Y & _ & G' & B)]]; try contradiction.
        - rewrite A0 in F, F'. inversion F; inversion F'. congruence.
        - injection Y as <-. assert (gfs' = gfs) by congruence. subst gfs'. apply all2P_Forall2 in A, B.
          eapply (fields_unique _ _ _ _ _ F F' A B). intros x y p I TV TW (y1 & U1 & U2) (y2 & U1' & U2').
          assert (y2 = y1) by congruence. subst y2. apply (IH x y (snd p) P P' h y1); auto.
          rewrite PV in I. pose proof (sub_depth v x I). lia. }
      subst vs'. apply (enum_value_inj v v' m i vs V V').
      intros fs fs' -> ->. pose proof (case_names _ m e i vs T E IO V) as N1. pose proof (case_names _ m e i vs T' E IO V') as N2.
      cbn in V. destruct i; try contradiction. congruence.
Qed.
End Values.

(** ** The same bytes in both languages *)

Section Bytes.
Variable R : runtime.
Variable D : druntime.
Variable U : support.
Variable items : list ditem.
Variables ds more : list decl.
Variable cd : nat.
Hypothesis okd : forallb dart_decl_ok ds = true.
Hypothesis same : agree R D U.
Notation classes := (top_names items).
Notation dtyped := (dtyped U ds classes cd).
Notation dwire := (dwire D U ds).
Notation portable := (portable ds).
Notation wire := (wire R (ds ++ more)).

Lemma decl_of_more n d : decl_of n ds = Some d -> decl_of n (ds ++ more) = Some d.
Proof.
  unfold decl_of. clear. intros H. induction ds as [|x l IH]; [discriminate H|]. cbn in H |- *.
  destruct (String.eqb (decl_name x) n); [exact H|now apply IH].
Qed.
Lemma slots_portable (vs : list val) (ss : list slot) : all2 (fun v p => portable v (snd p)) vs ss = true ->
  Forall2 (fun v p => portable v (snd p) = true) vs ss.
Proof. apply all2_Forall2. Qed.
Lemma fields_portable (fs : list (string * val)) (ss : list slot) : all2 (fun '(_, v) p => portable v (snd p)) fs ss = true ->
  all2 (fun v p => portable v (snd p)) (map snd fs) ss = true.
Proof.
  revert ss. induction fs as [|[x v] fs IH]; intros [|p ss] A; try exact A. cbn [all2 map snd] in *. apply andb_true_iff in A as [A1 A2].
  rewrite A1. cbn [andb]. now apply IH.
Qed.
Lemma agree_prim p z t : prim_ok U t z = true -> Wire.prim_name t = Some p -> (match t with TyChar _ => false | _ => true end) = true ->
  rt_put R p z = rd_put D (field_codec t) (dart_num U t z).
Proof.
  intros OK N PT. destruct t as [id k sg|id k|id|id|id l|id]; cbn [prim_ok Wire.prim_name] in OK, N; try discriminate; injection N as ->.
  - rewrite !andb_true_iff in OK. destruct OK as [[I S] Q]. apply Nat.eqb_eq in S. subst k.
    rewrite (ag_int R D U same p z I Q). cbn [dart_num]. destruct (integer_size p I) as [->|[->| ->]]; reflexivity.
  - apply orb_true_iff in OK. rewrite !andb_true_iff in OK. destruct OK as [[[A B] C]|[[A B] C]]; apply String.eqb_eq in A; apply Nat.eqb_eq in B; subst.
    + now apply (ag_f32 R D U same).
    + now apply (ag_f64 R D U same).
  - rewrite andb_true_iff in OK. destruct OK as [A B]. apply String.eqb_eq in A. subst. now apply (ag_bool R D U same).
Qed.
Lemma agree_tag p : (p < 2 ^ 31)%N -> rt_put R "u32" (Z.of_N p) = rd_put D "Int32" (Z.of_N p).
Proof.
  intros L. rewrite (ag_int R D U same "u32" (Z.of_N p) eq_refl).
  - change (prim_size "u32") with 4. rewrite signed_small; [reflexivity| |reflexivity]. lia.
  - unfold in_range. cbn [String.eqb Ascii.eqb Bool.eqb orb]. change (2 ^ 32)%Z with 4294967296%Z. lia.
Qed.
Lemma flat_snd (fs : list (string * val)) : flat_map (fun '(_, v) => wire v) fs = flat_map wire (map snd fs).
Proof. induction fs as [|[x v] fs IH]; [reflexivity|]. cbn. now rewrite IH. Qed.
Lemma slots_agree (vs : list val) (ss : list slot) :
  Forall2 (fun v p => wire v = dwire false v (snd p)) vs ss -> flat_map wire vs = wires D U ds vs ss.
Proof. induction 1 as [|v p vs ss E F IH]; [reflexivity|]. unfold wires in *. cbn [flat_map cat2]. now rewrite E, IH. Qed.

Theorem wire_agrees_upto d : forall v t, depth v <= d -> dtyped v t = true -> portable v t = true -> wire v = dwire false v t.
Proof.
  induction d as [|d IH]; intros v t L T PT; [exfalso; destruct v; try discriminate T; cbn in L; lia|].
  destruct (Wire.prim_name t) as [id|] eqn:PN.
  - destruct (dtyped_prim U items ds cd v t T) as (p & z & -> & OK); [congruence|].
    cbn [DartWire.dtyped] in T. rewrite PN in T. apply andb_true_iff in T as [T _]. apply String.eqb_eq in T. subst p.
    cbn [Wire.wire DartWire.dwire]. now apply agree_prim.
  - destruct (value_cases U items ds cd v t T PN) as [(n & x & ->)|[(k & l & a & -> & -> & EA & SL & F)|[(m & st & -> & E)|(m & e & -> & E)]]].
    + destruct t as [| | | |g l|m]; try discriminate PT. cbn [DartWire.dtyped] in T. rewrite !andb_true_iff in T.
      destruct T as [[N _] S]. apply String.eqb_eq in N. subst n. cbn [Wire.wire DartWire.dwire dart_type]. now apply (ag_ext R D U same).
    + apply dtyped_list in T as (a0 & _ & _ & _ & _ & _ & ->). cbn [DartWire.portable] in PT. apply andb_true_iff in PT as [PA PT].
      cbn [Wire.wire DartWire.dwire]. rewrite (ag_len R D U same _ SL). f_equal.
      assert (PA' : Wire.prim_name a = None) by (destruct (Wire.prim_name a); [discriminate|reflexivity]).
      assert (DL : forall v, In v l -> depth v <= d) by (intros v I; pose proof (sub_depth (vbox "Vec" (N.of_nat (List.length l)) l) v I); lia).
      rewrite forallb_forall in PT. rewrite Forall_forall in F. clear - IH F PT PA' DL okd same.
      assert (X : forall v, In v l -> wire v = dwire true v a).
      { intros v I. rewrite (IH v a); auto. symmetry. apply (dwire_elem D U items ds cd); auto. }
      clear - X. induction l as [|v l IH]; [reflexivity|]. cbn [flat_map]. rewrite X by (now left). f_equal. apply IH. intros w I. apply X. now right.
    + destruct (struct_case U items ds cd v m st T E) as (fs & -> & F).
      rewrite (record_wires D U ds m st fs E). cbn [Wire.wire]. rewrite flat_snd. apply slots_agree.
      cbn [DartWire.portable] in PT. apply fields_portable in PT. rewrite (struct_slots ds m st E) in PT. apply slots_portable in PT.
      assert (DL : forall v, In v (map snd fs) -> depth v <= d) by (intros v I; pose proof (sub_depth (vrec m fs) v I); lia).
      revert F PT DL. generalize (map snd fs) as vs, (map field_slot (sn_fields st)) as ss. clear - IH okd same.
      induction 1 as [|v p vs ss H F IHF]; intros PT DL; constructor; inversion PT; subst.
      * apply IH; auto. apply DL. now left.
      * apply IHF; auto. intros w I. apply DL. now right.
    + destruct (enum_case U items ds cd v m e T E) as (i & vs & IO & V & _ & PV & F).
      rewrite (enum_wire D U ds v m e i vs V E IO).
      destruct (item_conditions ds okd m e i E (proj1 (find_item_in _ _ _ IO))) as (_ & _ & BD).
      assert (PS : Forall2 (fun v p => portable v (snd p) = true) vs (item_slots i)).
      { pose proof (enum_items_of ds m e i E IO) as SL. destruct v as [| | | |e' c|e' c l|e' c fs| | | | | | | | | | | | | | | | | | |]; try contradiction V; destruct i as [p n|p n ts|p n gs]; try contradiction V;
          destruct V as (-> & -> & ->); cbn [DartWire.portable item_name] in *; rewrite ?SL in PT.
        - constructor.
        - now apply slots_portable.
        - now apply slots_portable, fields_portable. }
      assert (TG : Wire.tag R (ds ++ more) m (item_name i) = rd_put D "Int32" (Z.of_N (item_pos i))).
      { unfold Wire.tag. rewrite (decl_of_more m _ E), IO. now apply agree_tag. }
      assert (W : wire v = rd_put D "Int32" (Z.of_N (item_pos i)) ++ flat_map wire vs).
      { destruct v as [| | | |e' c|e' c l|e' c fs| | | | | | | | | | | | | | | | | | |]; try contradiction V; destruct i as [p n|p n ts|p n gs]; try contradiction V;
          destruct V as (-> & -> & ->); cbn [Wire.wire item_name] in *; rewrite TG; [cbn; now rewrite app_nil_r|reflexivity|now rewrite flat_snd]. }
      rewrite W. f_equal. apply slots_agree.
      assert (DL : forall u, In u vs -> depth u <= d) by (rewrite PV; intros u I; pose proof (sub_depth v u I); lia).
      clear - IH F PS DL okd same. induction F as [|u p vs ss H F IHF]; constructor; inversion PS; subst.
      * apply IH; auto. apply DL. now left.
      * apply IHF; auto. intros w I. apply DL. now right.
Qed.
End Bytes.

(** ** An example of the libraries *)

(** Little-endian two's complement numbers, as in [le_runtime]; elements of lists of integers with eight
    bytes; the library types of Wire.v. *)
Definition le_name (p : string) : string :=
  if String.eqb p "Int8" then "i8" else if String.eqb p "Int32" then "i32" else if String.eqb p "Double" then "f64"
  else if String.eqb p "Float" then "f32" else if String.eqb p "Bool" then "bool" else "i64".
(** The double of a single precision float, and back, by bit pattern; without subnormal numbers. *)
Definition widen (z : Z) : Z :=
  (let s := z / 2 ^ 31 in let e := (z / 2 ^ 23) mod 2 ^ 8 in let m := z mod 2 ^ 23 in
   s * 2 ^ 63 + (if e =? 0 then 0 else if e =? 255 then 2047 * 2 ^ 52 + m * 2 ^ 29 else (e + 896) * 2 ^ 52 + m * 2 ^ 29))%Z.
Definition narrow (z : Z) : Z :=
  (let s := z / 2 ^ 63 in let e := (z / 2 ^ 52) mod 2 ^ 11 in let m := (z mod 2 ^ 52) / 2 ^ 29 in
   s * 2 ^ 31 + (if e =? 0 then 0 else if e =? 2047 then 255 * 2 ^ 23 + m else (e - 896) * 2 ^ 23 + m))%Z.
Definition le_support : support :=
  mk_support (fun _ x => (x <? 2 ^ 64)%N) (fun n => (N.of_nat n <? 2 ^ 64)%N)
    (fun z => in_range "f32" z && Z.eqb (narrow (widen z)) z && element_range "Double" (widen z)) widen.
Definition le_dart (bulk : bool) : druntime :=
  mk_druntime
    (fun p z => le_bytes (prim_size (le_name p)) (if String.eqb p "Float" then narrow z else z))
    (fun p b => match le_get (le_name p) b with Some (z, r) => Some (if String.eqb p "Float" then widen z else z, r) | None => None end)
    (fun p z => le_bytes (prim_size (le_name p)) z) (fun p b => le_get (le_name p) b)
    (fun _ => le_nat_put) (fun _ => le_nat_get) (fun _ => 0%N)
    (fun n => le_nat_put (N.of_nat n)) (fun b => match le_nat_get b with Some (k, r) => Some (N.to_nat k, r) | None => None end)
    bulk (fun _ _ => 0%Z) (fun z => z) 255%Z (fun z => (z + 1)%Z) (fun _ m => Some m).

Lemma le_dart_prim p z r : In p ["Int8"; "Int32"; "Int64"; "Double"; "Bool"] -> dart_range p z = true ->
  le_get (le_name p) (le_bytes (prim_size (le_name p)) z ++ r) = Some (z, r).
Proof.
  intros I G. apply le_get_put.
  - destruct I as [<-|[<-|[<-|[<-|[<-|[]]]]]]; reflexivity.
  - destruct I as [<-|[<-|[<-|[<-|[<-|[]]]]]]; exact G.
Qed.
Lemma dart_range_name p z : dart_range p z = true -> In p ["Int8"; "Int32"; "Int64"; "Double"; "Bool"].
Proof.
  unfold dart_range. intros H.
  destruct (String.eqb_spec p "Int8") as [->|]; [cbn; tauto|]. destruct (String.eqb_spec p "Int32") as [->|]; [cbn; tauto|].
  destruct (String.eqb_spec p "Int64") as [->|]; [cbn; tauto|]. destruct (String.eqb_spec p "Double") as [->|]; [cbn; tauto|].
  destruct (String.eqb_spec p "Bool") as [->|]; [cbn; tauto|]. discriminate.
Qed.
Lemma le_dlawful bulk : dlawful (le_dart bulk) le_support.
Proof.
  constructor; cbn [le_dart rd_get rd_put rd_eget rd_eput rd_ext_get rd_ext_put rd_len_get rd_len_put le_support su_f32 su_widen su_ext su_len].
  - intros p z r G. pose proof (dart_range_name p z G) as I.
    replace (String.eqb p "Float") with false by (destruct I as [<-|[<-|[<-|[<-|[<-|[]]]]]]; reflexivity).
    now rewrite (le_dart_prim p z r I G).
  - intros z r G. rewrite !andb_true_iff in G. destruct G as [[G1 G2] G3]. apply Z.eqb_eq in G2. rewrite String.eqb_refl, G2.
    change (le_name "Float") with "f32". now rewrite (le_get_put "f32" z r eq_refl G1).
  - intros p z r G. unfold element_range in G.
    destruct (String.eqb_spec p "Int") as [->|]; [apply (le_get_put "i64" z r eq_refl G)|].
    destruct (String.eqb_spec p "Double") as [->|]; [apply (le_get_put "f64" z r eq_refl G)|].
    destruct (String.eqb_spec p "Bool") as [->|]; [apply (le_get_put "bool" z r eq_refl G)|discriminate].
  - intros z G. now rewrite !andb_true_iff in G.
  - intros t x r G. now apply le_nat_get_put.
  - intros n r G. rewrite le_nat_get_put by exact G. now rewrite Nat2N.id.
Qed.
Lemma le_bytes_mod n z z' : (z mod 2 ^ (8 * Z.of_nat n) = z' mod 2 ^ (8 * Z.of_nat n))%Z -> le_bytes n z = le_bytes n z'.
Proof.
  revert z z'. induction n as [|n IH]; intros z z' E; [reflexivity|]. cbn [le_bytes].
  replace (8 * Z.of_nat (S n))%Z with (8 + 8 * Z.of_nat n)%Z in E by lia.
  rewrite Z.pow_add_r in E by lia. change (2 ^ 8)%Z with 256%Z in E.
  pose proof (Z.pow_pos_nonneg 2 (8 * Z.of_nat n)) as Q.
  rewrite !Z.rem_mul_r in E by lia.
  pose proof (Z.mod_pos_bound z 256 eq_refl). pose proof (Z.mod_pos_bound z' 256 eq_refl).
  f_equal; [do 2 f_equal; lia|]. apply IH. lia.
Qed.
Lemma le_agree bulk : agree le_runtime (le_dart bulk) le_support.
Proof.
  constructor; cbn [le_runtime rt_put rt_ext_put rt_head_put le_dart rd_put rd_ext_put rd_len_put le_support su_f32 su_widen su_ext su_len].
  - intros p z I G. pose proof (integer_size p I) as K.
    replace (String.eqb (int_codec (prim_size p)) "Float") with false by (destruct K as [->|[->| ->]]; reflexivity).
    replace (prim_size (le_name (int_codec (prim_size p)))) with (prim_size p) by (destruct K as [->|[->| ->]]; reflexivity).
    apply le_bytes_mod. symmetry. now apply signed_cong.
  - intros z G. rewrite !andb_true_iff in G. destruct G as [[_ G] _]. apply Z.eqb_eq in G. rewrite String.eqb_refl, G. reflexivity.
  - reflexivity.
  - reflexivity.
  - reflexivity.
  - reflexivity.
Qed.
