(** The Swift constants compile and have the declared types and values. *)
Require Import Coq.Strings.String Coq.Strings.Ascii.
Require Import Coq.NArith.NArith Coq.ZArith.ZArith Coq.Lists.List Coq.Bool.Bool Coq.Arith.PeanoNat Coq.micromega.Lia.
Require Import Verif.Base Verif.F64 Verif.Ast Verif.CaseConv Verif.LexSpec Verif.NumText Verif.RustLexedConst Verif.GenMoreFacts Verif.FloatShape Verif.Writer Verif.Code.
Require Verif.KotlinSyntax Verif.KotlinSem Verif.KotlinTree Verif.KotlinFile Verif.KotlinRuns Verif.KotlinConsts.
Require Import Verif.SwiftSyntax Verif.SwiftTree Verif.SwiftFile Verif.SwiftSem Verif.SwiftCheck Verif.SwiftRuns.
Import KotlinSyntax(among). Import KotlinSem(digits_first, distinct). Import KotlinTree(address, float_parts, literal_ready, finite_double).
Import KotlinRuns(among_in, among_out, find_distinct). Import KotlinConsts(letter_first, digits_then). Import KotlinFile(float_parts_spec).
Import ListNotations.
Local Open Scope string_scope.
Local Open Scope list_scope.

(** ** Literals *)

Lemma digits_all d : all_chars digitb d = true -> digits_first d = (d, "").
Proof. intros D. pose proof (digits_then d "" D eq_refl) as E. now rewrite append_nil_s in E. Qed.
Lemma show_N_some n : String.eqb (show_N n) "" = false.
Proof.
  destruct (String.eqb_spec (show_N n) "") as [E|_]; [|reflexivity]. exfalso. destruct (N.eq_dec n 0) as [->|NZ]; [discriminate E|]. assert (P : (0 < n)%N) by lia. destruct (show_N_len n P) as [L _]. rewrite E in L. cbn in L. lia.
Qed.
Lemma whole_value t top z : limit t = Some top -> (0 <= z)%Z -> (z < Z.of_N top)%Z -> num_value t (show_Z z) = Some (WWhole t (Z.to_N z)).
Proof.
  intros L Z0 ZT. assert (E : show_Z z = show_N (Z.to_N z)) by (destruct z; [reflexivity|reflexivity|lia]). rewrite E. unfold num_value.
  rewrite digits_all by apply show_N_digits. rewrite show_N_some, L, show_N_value. cbn [negb andb String.eqb]. destruct (N.ltb_spec (Z.to_N z) top); [reflexivity|lia].
Qed.
Lemma float_literal t x a b : float_parts x = (a, b) -> finite_double x = true -> float_value t a b = real_value t x.
Proof.
  intros E F. destruct (float_parts_spec x F) as (c & d & E' & _ & C & CN & D & DN & V). rewrite E in E'. injection E' as <- <-. unfold float_value. rewrite !digits_all by assumption. cbn [String.eqb andb].
  destruct (String.eqb_spec a ""); [contradiction|]. destruct (String.eqb_spec b ""); [contradiction|]. cbn [negb andb]. now rewrite V.
Qed.

Definition open_scope (sh : list string) : Prop := forall n, In n sh -> ~ In n taken.
Lemma open_library sh n : open_scope sh -> In n taken -> library sh n = true.
Proof. intros O I. unfold library. apply negb_true_iff, among_out. intros J. exact (O n J I). Qed.

Lemma constant_value sh t l n v : open_scope sh -> type_ready t = true -> literal_ready t l = true -> in_reach t l = true -> swift_constant t l = Some (n, v) ->
  stype t = STy n [] /\ In n builtin /\ literal_of sh (stype t) (sliteral t l) = Some v.
Proof.
  intros O T R IR K. pose proof (fun m => open_library sh m O) as L. unfold literal_of.
  destruct l as [s|z|x|b]; destruct t as [id size sg|id size|id|id|g gl|id]; cbn [swift_constant] in K; try discriminate.
  - destruct (String.eqb_spec id "String") as [->|]; [|discriminate]. injection K as <- <-. cbn [stype]. split; [reflexivity|]. split; [cbn; tauto|]. change (other_type "String") with "String". rewrite L by (cbn; tauto).
    cbn [sliteral]. cbn [in_reach] in IR. rewrite IR. reflexivity.
  - injection K as <- <-. cbn [stype]. split; [reflexivity|]. cbn [literal_ready] in R. apply Z.leb_le in R. cbn [in_reach] in IR. cbn [type_ready] in T. rewrite !orb_true_iff, !Nat.eqb_eq in T.
    destruct T as [[->| ->]| ->]; destruct sg; cbn [int_type] in *; (split; [cbn; tauto|]); (rewrite L by (cbn; tauto)); cbn [sliteral limit String.eqb Ascii.eqb Bool.eqb] in *; apply Z.ltb_lt in IR; (eapply whole_value; [reflexivity|exact R|exact IR]).
  - cbn [literal_ready] in R. apply andb_true_iff in R as [A R]. rewrite A in K. injection K as <- <-. cbn [stype]. unfold other_type. rewrite A. split; [reflexivity|]. split; [cbn; tauto|]. rewrite L by (cbn; tauto). apply Z.leb_le in R. cbn [in_reach] in IR. apply Z.ltb_lt in IR.
    cbn [sliteral]. eapply whole_value; [reflexivity|exact R|exact IR].
  - injection K as <- <-. cbn [stype]. split; [reflexivity|]. cbn [literal_ready] in R. cbn [in_reach] in IR. cbn [sliteral]. destruct (float_parts x) as [a b] eqn:E. cbn [type_ready] in T. rewrite orb_true_iff, !Nat.eqb_eq in T.
    assert (X : x <> F64Inf) by (intros ->; discriminate R). destruct T as [->| ->]; [discriminate IR|]. cbn [Nat.eqb]. split; [cbn; tauto|]. rewrite L by (cbn; tauto). rewrite append_nil_s. rewrite (float_literal _ x) by first [exact E|exact R]. unfold real_value. now destruct x.
  - injection K as <- <-. cbn [stype sliteral]. split; [reflexivity|]. split; [cbn; tauto|]. rewrite L by (cbn; tauto). destruct b; reflexivity.
Qed.
Lemma sliteral_typed ks sh members t l v : literal_of sh (stype t) (sliteral t l) = Some v -> typed ks sh members (stype t) (sliteral t l) = true.
Proof. intros E. destruct l as [s|z|x|b]; cbn [sliteral] in *; try (cbn [typed]; now rewrite E). destruct (float_parts x). cbn [typed]. now rewrite E. Qed.

(** ** Blocks *)

Lemma item_zname i : zname (const_item_decl i) = item_label i.
Proof. destruct i as [n t [l a]|[id items]]; reflexivity. Qed.
Lemma struct_items id items : const_struct (ConstNode id items) = ZStruct (pascal id) (map const_item_decl items).
Proof. reflexivity. Qed.
Lemma inner_names items n : In n (type_names (map const_item_decl items)) -> exists c id l, In (ConstItemNode c) items /\ c = ConstNode id l /\ n = pascal id.
Proof.
  unfold type_names. intros I. apply in_map_iff in I as (d & <- & I). apply filter_In in I as [I T]. apply in_map_iff in I as (i & <- & I). destruct i as [m t [l a]|[id l]]; [discriminate|].
  exists (ConstNode id l), id, l. now repeat split.
Qed.
Lemma fine_scope sh items : open_scope sh -> (forall c, In (ConstItemNode c) items -> const_fine c = true) -> open_scope (type_names (map const_item_decl items) ++ sh).
Proof.
  intros O F n I. apply in_app_or in I as [I|I]; [|now apply O]. destruct (inner_names items n I) as (c & id & l & J & -> & ->). specialize (F _ J). cbn [const_fine] in F. rewrite !andb_true_iff in F.
  destruct F as ((F & _) & _). now apply negb_true_iff, among_out in F.
Qed.
Lemma fine_items id items : const_fine (ConstNode id items) = true -> distinct (map item_label items) = true /\ (forall c, In (ConstItemNode c) items -> const_fine c = true) /\
  (forall n t l a, In (ConstItemValue n t (ConstLiteral l a)) items -> in_reach t l = true /\ exists tv, swift_constant t l = Some tv).
Proof.
  cbn [const_fine]. rewrite !andb_true_iff. intros ((_ & D) & F). rewrite forallb_forall in F. split; [exact D|]. split; [intros c I; exact (F _ I)|].
  intros n t l a I. specialize (F _ I). cbn in F. apply andb_true_iff in F as [F1 F2]. split; [exact F1|]. destruct (swift_constant t l) as [tv|]; [now exists tv|discriminate].
Qed.
Lemma ready_items id items : const_ready (ConstNode id items) = true -> (forall c, In (ConstItemNode c) items -> const_ready c = true) /\
  (forall n t l a, In (ConstItemValue n t (ConstLiteral l a)) items -> type_ready t = true /\ literal_ready t l = true).
Proof.
  cbn [const_ready]. rewrite !andb_true_iff. intros (_ & F). rewrite forallb_forall in F. split; [intros c I; exact (F _ I)|].
  intros n t l a I. specialize (F _ I). cbn in F. rewrite !andb_true_iff in F. tauto.
Qed.

Lemma const_decl_ok ks c : const_ready c = true -> const_fine c = true -> forall sh members, open_scope sh -> SwiftSem.decl_ok ks sh members (const_struct c) = true.
Proof.
  induction c as [id items IH] using const_ind2. intros R F sh members O. rewrite struct_items. cbn [SwiftSem.decl_ok].
  destruct (fine_items id items F) as (D & FN & FV). destruct (ready_items id items R) as (RN & RV). pose proof (fine_scope sh items O FN) as O'.
  apply andb_true_iff. split; [apply forallb_forall; intros d I; apply in_map_iff in I as (i & <- & I); destruct i as [n t [l a]|[id' l']]; reflexivity|].
  apply andb_true_iff. split.
  - unfold once. rewrite filter_map_none by (intros [n t [l a]|[id' l']]; reflexivity). rewrite filter_map_all by (intros [n t [l a]|[id' l']]; reflexivity). cbn [map distinct andb].
    rewrite map_map. erewrite map_ext; [exact D|]. intros i. apply item_zname.
  - apply forallb_forall. intros d I. apply in_map_iff in I as (i & <- & I). destruct i as [n t [l a]|c]; cbn [const_item_decl].
    + cbn [SwiftSem.decl_ok]. destruct (FV n t l a I) as (IR & (tn & v) & K). destruct (RV n t l a I) as [T LR]. destruct (constant_value _ t l tn v O' T LR IR K) as (ET & B & E). rewrite (sliteral_typed _ _ _ _ _ _ E), andb_true_r, ET. cbn [known]. apply orb_true_iff. right. now apply among_in.
    + now apply IH; [|apply RN|apply FN|].
Qed.

Lemma const_forward c p t l : const_at c p t l -> const_ready c = true -> const_fine c = true -> forall sh tn v ks, open_scope (type_names ks ++ sh) -> In (const_struct c) ks -> swift_constant t l = Some (tn, v) ->
  constant sh ks (swift_path p) tn v.
Proof.
  induction 1 as [id items n t l t' I|id items c p t l I A IH]; intros R F sh tn v ks O J K; rewrite struct_items in J; destruct (fine_items id items F) as (D & FN & FV); destruct (ready_items id items R) as (RN & RV);
    pose proof (fine_scope _ items O FN) as O'.
  - cbn [swift_path]. eapply co_in; [exact J|]. destruct (FV n t l t' I) as (IR & _). destruct (RV n t l t' I) as [T LR]. destruct (constant_value _ t l tn v O' T LR IR K) as (ET & _ & E). rewrite ET in E.
    eapply co_here; [|exact E]. apply in_map_iff. exists (ConstItemValue n t (ConstLiteral l t')). split; [|exact I]. cbn [const_item_decl]. now rewrite ET.
  - assert (P : exists q qs, p = q :: qs) by (destruct A; eauto). destruct P as (q & qs & ->). change (swift_path (id :: q :: qs)) with (pascal id :: swift_path (q :: qs)). eapply co_in; [exact J|].
    apply IH; [now apply RN|now apply FN|exact O'| |exact K]. apply in_map_iff. now exists (ConstItemNode c).
Qed.

Lemma const_backward sh ks p tn v : constant sh ks p tn v -> forall items, ks = map const_item_decl items -> open_scope (type_names ks ++ sh) ->
  (forall c, In (ConstItemNode c) items -> const_ready c = true /\ const_fine c = true) ->
  (forall n t l a, In (ConstItemValue n t (ConstLiteral l a)) items -> type_ready t = true /\ literal_ready t l = true /\ in_reach t l = true /\ exists tv, swift_constant t l = Some tv) ->
  (exists n t l a, p = [camel n] /\ In (ConstItemValue n t (ConstLiteral l a)) items /\ swift_constant t l = Some (tn, v)) \/
  (exists c q t l, In (ConstItemNode c) items /\ const_at c q t l /\ p = swift_path q /\ swift_constant t l = Some (tn, v)).
Proof.
  induction 1 as [sh ks n t e v J E|sh ks n b p t v J C IH]; intros items -> O HN HV.
  - left. apply in_map_iff in J as (i & EI & J). destruct i as [m ty [l a]|[id its]]; [|discriminate]. cbn [const_item_decl] in EI. injection EI as <- ET <-.
    destruct (HV m ty l a J) as (T & LR & IR & (tn & w) & K). destruct (constant_value _ ty l tn w O T LR IR K) as (ET' & _ & E'). rewrite ET in ET', E'. injection ET' as <-. rewrite E in E'. injection E' as <-.
    exists m, ty, l, a. now repeat split.
  - right. apply in_map_iff in J as (i & EI & J). destruct i as [m ty [l a]|[id its]]; [discriminate|]. cbn [const_item_decl] in EI. rewrite struct_items in EI. injection EI as <- <-.
    destruct (HN _ J) as [R F]. destruct (fine_items id its F) as (D & FN & FV). destruct (ready_items id its R) as (RN & RV).
    destruct (IH its eq_refl) as [(n & t0 & l & a & -> & I & K)|(c & q & t0 & l & I & A & -> & K)].
    + now apply fine_scope.
    + intros c I. split; [now apply RN|now apply FN].
    + intros n0 t0 l a I. destruct (RV n0 t0 l a I). destruct (FV n0 t0 l a I). repeat split; auto.
    + exists (ConstNode id its), [id; n], t0, l. repeat split; [exact J|eapply ca_here; exact I|exact K].
    + exists (ConstNode id its), (id :: q), t0, l. repeat split; [exact J|eapply ca_in; [exact I|exact A]| |exact K].
      assert (P : exists x xs, q = x :: xs) by (destruct A; eauto). destruct P as (x & xs & ->). reflexivity.
Qed.

Lemma consts_as_items ast : consts_tree ast = map const_item_decl (flat_map (fun n => match n with NConst c => [ConstItemNode c] | _ => [] end) ast).
Proof. induction ast as [|a ast IH]; [reflexivity|]. unfold consts_tree in *. cbn [flat_map]. rewrite map_app, <- IH. destruct a; reflexivity. Qed.

Lemma consts_parts ast : consts_fine ast = true -> consts_ready ast = true /\ distinct (map zname (consts_tree ast)) = true /\ (forall c, In (NConst c) ast -> const_ready c = true /\ const_fine c = true) /\
  open_scope (type_names (consts_tree ast) ++ []).
Proof.
  unfold consts_fine. rewrite !andb_true_iff. intros ((R & D) & F). rewrite forallb_forall in F.
  assert (H : forall c, In (NConst c) ast -> const_ready c = true /\ const_fine c = true).
  { intros c I. split; [|exact (F _ I)]. unfold consts_ready in R. rewrite forallb_forall in R. exact (R _ I). }
  repeat split; auto; [now apply H|now apply H|]. rewrite consts_as_items. apply fine_scope; [intros n []|]. intros c I. apply in_flat_map in I as (a & I & J). destruct a; try contradiction. destruct J as [[= ->]|[]]. now apply H.
Qed.

Theorem consts_compile ast : consts_fine ast = true -> compiles (consts_tree ast) = true.
Proof.
  intros F. destruct (consts_parts ast F) as (R & D & H & O). rewrite app_nil_r in O. unfold compiles. rewrite D, andb_true_r.
  assert (X : forall d, In d (consts_tree ast) -> exists c, In (NConst c) ast /\ d = const_struct c).
  { intros d I. unfold consts_tree in I. apply in_flat_map in I as (a & I & J). destruct a as [| | | |c]; try contradiction. destruct J as [<-|[]]. now exists c. }
  apply andb_true_iff. split; [apply andb_true_iff; split|]; apply forallb_forall; intros d I; destruct (X d I) as (c & IC & ->).
  - destruct c; reflexivity.
  - destruct (H c IC). now apply const_decl_ok.
  - destruct c as [id items]. assert (Z : zfind (zname (const_struct (ConstNode id items))) (consts_tree ast) = Some (const_struct (ConstNode id items))) by (unfold zfind; now apply find_distinct).
    rewrite struct_items in *. cbn [sized]. rewrite Z. replace (properties (map const_item_decl items)) with (@nil (string * sty)); [reflexivity|].
    unfold properties. clear. induction items as [|[n t [l a]|[id' l']] items IH]; [reflexivity| |]; cbn; exact IH.
Qed.

Theorem consts_forward ast p t l tn v : consts_fine ast = true -> declared ast p t l -> swift_constant t l = Some (tn, v) -> constant [] (consts_tree ast) (swift_path p) tn v.
Proof.
  intros F (c & I & A) K. destruct (consts_parts ast F) as (_ & _ & H & O). destruct (H c I). eapply const_forward; eauto. unfold consts_tree. apply in_flat_map. exists (NConst c). split; [exact I|now left].
Qed.
Theorem consts_backward ast p tn v : consts_fine ast = true -> constant [] (consts_tree ast) p tn v -> exists q t l, declared ast q t l /\ p = swift_path q /\ swift_constant t l = Some (tn, v).
Proof.
  intros F C. destruct (consts_parts ast F) as (_ & _ & H & O).
  destruct (const_backward _ _ _ _ _ C _ (consts_as_items ast) O) as [(n & t & l & a & _ & I & _)|(c & q & t & l & I & A & E & K)].
  - intros c I. apply in_flat_map in I as (x & I & J). destruct x; try contradiction. destruct J as [[= ->]|[]]. now apply H.
  - intros n t l a I. apply in_flat_map in I as (x & _ & J). destruct x; try contradiction. destruct J as [J|[]]. discriminate J.
  - apply in_flat_map in I as (x & _ & J). destruct x; try contradiction. destruct J as [J|[]]. discriminate J.
  - exists q, t, l. split; [|now split]. exists c. split; [|exact A]. apply in_flat_map in I as (x & I & J). destruct x; try contradiction. destruct J as [[= ->]|[]]. exact I.
Qed.
Theorem constant_known ast p t l : consts_fine ast = true -> declared ast p t l -> exists tn v, swift_constant t l = Some (tn, v).
Proof.
  intros F (c & I & A). destruct (consts_parts ast F) as (_ & _ & H & _). destruct (H c I) as [_ FC]. clear -A FC. induction A as [id items n t l t' I|id items c p t l I A IH]; destruct (fine_items id items FC) as (_ & FN & FV).
  - destruct (FV n t l t' I) as (_ & (tn & v) & K). now exists tn, v.
  - now apply IH, FN.
Qed.
