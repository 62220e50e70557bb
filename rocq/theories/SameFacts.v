(** Lemmas behind the theorems of PropertiesSame.v. *)

(** Property theorems about constants in all generated languages, C58: a constant has the same value in Rust, Dart, Kotlin
    and Swift.  The texts are read back and the constants found by the rules of RustConst, DartConst, KotlinSem and SwiftSem.
    After each theorem, a concrete case that meets its hypotheses, and its axioms. *)
Require Import Coq.Strings.String Coq.Strings.Ascii.
Require Import Coq.NArith.NArith Coq.ZArith.ZArith Coq.Lists.List Coq.Bool.Bool Coq.Arith.PeanoNat.
Require Import Coq.micromega.Lia.
Require Import Verif.Base Verif.F64 Verif.Ast Verif.Lexer Verif.Parser Verif.CaseConv Verif.Code Verif.RustSyntax Verif.RustGen Verif.RustTree Verif.RustFile Verif.RustWf Verif.CodecFacts.
Require Import Verif.DartSyntax Verif.DartGen Verif.DartTree Verif.DartFile Verif.DartWf Verif.DartRun Verif.DartFacts.
Require Import Verif.ConstSpec Verif.SameSpec.
Require Verif.RustDefault Verif.RustConst Verif.DartConst Verif.GenMoreFacts Verif.Single Verif.ConstFacts Verif.DefaultFacts Verif.ParseFacts.
Require Verif.KotlinSyntax Verif.KotlinGen Verif.KotlinTree Verif.KotlinFile Verif.KotlinSem Verif.KotlinCheck Verif.KotlinConsts Verif.KotlinRuns Verif.KotlinFacts.
Require Verif.SwiftSyntax Verif.SwiftGen Verif.SwiftTree Verif.SwiftSem Verif.SwiftCheck Verif.SwiftConsts Verif.SwiftRuns Verif.SwiftFacts.
Import RustDefault(type_names).
Import GenMoreFacts(declared, const_at, ca_here, ca_in).
Import DefaultFacts(rust_items_tree).
Import KotlinFacts(kotlin_consts).
Import KotlinSyntax(kotlin_file).
Import KotlinCheck(kotlin_path, kotlin_holds, kotlin_constant).
Import SwiftFacts(swift_consts).
Import SwiftSyntax(swift_file).
Import SwiftCheck(swift_path, swift_constant).
Import ListNotations.
Local Open Scope string_scope.
Local Open Scope list_scope.

(** ** C58: constants in all languages *)
Definition c58_src : string :=
  "const limits { TOP: u8 = 255; BIG: i64 = 9223372036854775807; const inner_block { RATIO: f64 = 2.5; GROUP: GroupAddress = 7; const last { ON: bool = true; } } OFF: bool = false; } struct Point { x: i32 } const other { TOP: u32 = 4294967295; COMMANDS: CommandsBufferAddress = 9223372036854775807; }".

Definition c58_ast : list ast_node := Eval vm_compute in match compile_front c58_src with Ok a => a | _ => [] end.

Definition c58_rust : list item := Eval vm_compute in rust_tree c58_ast true true true.

Definition c58_dart : list ditem := Eval vm_compute in dart_tree c58_ast true true true.

(** Kotlin: a path leads to one constant. *)
Lemma kotlin_once l : forall d d', KotlinSem.distinct (map KotlinSem.yname l) = true -> In d l -> In d' l -> KotlinSem.yname d = KotlinSem.yname d' -> d = d'.
Proof.
  induction l as [|x l IH]; [intros ? ? _ []|].
  intros d d' D I I' E.
  cbn [map KotlinSem.distinct] in D.
  apply andb_true_iff in D as [N D].
  apply negb_true_iff in N.
  assert (X : forall y, In y l -> KotlinSem.yname x <> KotlinSem.yname y).
  { intros y J Q.
  apply (proj1 (KotlinRuns.among_out _ _) N).
  rewrite Q.
  now apply in_map.
  }
  destruct I as [<-|I], I' as [<-|I']; [reflexivity| | |now apply IH]; exfalso; eapply X; try eassumption.
  now symmetry.
Qed.

Lemma kotlin_one ds sh l p t v : KotlinSem.constant sh l p t v -> forall sh', KotlinSem.distinct (map KotlinSem.yname l) = true -> forallb (KotlinSem.decl_ok ds sh') l = true ->
  forall t' v', KotlinSem.constant sh l p t' v' -> t = t' /\ v = v'.
Proof.
  induction 1 as [sh l n t e v I E|sh l n ss b p t v I C IH]; intros sh' D OK t' v' C'; inversion C'; subst.
  - match goal with J : In (KotlinSyntax.YConst _ _ _) l |- _ => pose proof (kotlin_once l _ _ D I J eq_refl) as X end.
  injection X as <- <-.
  split; [reflexivity|congruence].
  - match goal with J : In (KotlinSyntax.YObject _ _ _) l |- _ => pose proof (kotlin_once l _ _ D I J eq_refl) as X end.
  discriminate X.
  - match goal with J : In (KotlinSyntax.YConst _ _ _) l |- _ => pose proof (kotlin_once l _ _ D I J eq_refl) as X end.
  discriminate X.
  - match goal with J : In (KotlinSyntax.YObject _ _ _) l |- _ => pose proof (kotlin_once l _ _ D I J eq_refl) as X end.
  injection X as <- <-.
  rewrite forallb_forall in OK.
  specialize (OK _ I).
  cbn [KotlinSem.decl_ok] in OK.
  rewrite !andb_true_iff in OK.
  destruct OK as (_ & D' & OK).
  eapply IH; eassumption.
Qed.

(** Swift: the same. *)
Lemma swift_once l : forall d d', KotlinSem.distinct (map SwiftSem.zname l) = true -> In d l -> In d' l -> SwiftSem.zname d = SwiftSem.zname d' -> d = d'.
Proof.
  induction l as [|x l IH]; [intros ? ? _ []|].
  intros d d' D I I' E.
  cbn [map KotlinSem.distinct] in D.
  apply andb_true_iff in D as [N D].
  apply negb_true_iff in N.
  assert (X : forall y, In y l -> SwiftSem.zname x <> SwiftSem.zname y).
  { intros y J Q.
  apply (proj1 (KotlinRuns.among_out _ _) N).
  rewrite Q.
  now apply in_map.
  }
  destruct I as [<-|I], I' as [<-|I']; [reflexivity| | |now apply IH]; exfalso; eapply X; try eassumption.
  now symmetry.
Qed.

Lemma swift_one ds sh l p t v : SwiftSem.constant sh l p t v -> forall sh' ms, KotlinSem.distinct (map SwiftSem.zname (filter (fun d => negb (SwiftSem.of_values d)) l)) = true -> forallb (SwiftSem.decl_ok ds sh' ms) l = true ->
  forall t' v', SwiftSem.constant sh l p t' v' -> t = t' /\ v = v'.
Proof.
  induction 1 as [sh l n t e v I E|sh l n b p t v I C IH]; intros sh' ms D OK t' v' C'; inversion C'; subst.
  - match goal with J : In (SwiftSyntax.ZLet _ _ _) l |- _ => pose proof (swift_once _ _ _ D (proj2 (filter_In _ _ _) (conj I eq_refl)) (proj2 (filter_In _ _ _) (conj J eq_refl)) eq_refl) as X end.
  injection X as <- <-.
  split; [reflexivity|congruence].
  - match goal with J : In (SwiftSyntax.ZStruct _ _) l |- _ => pose proof (swift_once _ _ _ D (proj2 (filter_In _ _ _) (conj I eq_refl)) (proj2 (filter_In _ _ _) (conj J eq_refl)) eq_refl) as X end.
  discriminate X.
  - match goal with J : In (SwiftSyntax.ZLet _ _ _) l |- _ => pose proof (swift_once _ _ _ D (proj2 (filter_In _ _ _) (conj I eq_refl)) (proj2 (filter_In _ _ _) (conj J eq_refl)) eq_refl) as X end.
  discriminate X.
  - match goal with J : In (SwiftSyntax.ZStruct _ _) l |- _ => pose proof (swift_once _ _ _ D (proj2 (filter_In _ _ _) (conj I eq_refl)) (proj2 (filter_In _ _ _) (conj J eq_refl)) eq_refl) as X end.
  injection X as <-.
  rewrite forallb_forall in OK.
  specialize (OK _ I).
  cbn [SwiftSem.decl_ok] in OK.
  rewrite !andb_true_iff in OK.
  destruct OK as (_ & ON & OK).
  unfold SwiftSem.once in ON.
  apply andb_true_iff in ON as [_ ON].
  eapply IH; eassumption.
Qed.

Lemma swift_all l : forallb SwiftSem.ztype l = true -> filter (fun d => negb (SwiftSem.of_values d)) l = l.
Proof.
  induction l as [|d l IH]; [reflexivity|].
  cbn [forallb filter].
  intros F.
  apply andb_true_iff in F as [T F].
  rewrite (IH F).
  destruct d; discriminate T || reflexivity.
Qed.

(** What is known of a declared constant. *)
Lemma declared_sized src ast p t l : compile_front src = Ok ast -> declared ast p t l -> ParseFacts.sized t.
Proof.
  unfold compile_front.
  destruct (tokenize src) as [ts| |]; try discriminate.
  cbn [bind].
  intros P (c & I & A).
  apply (ParseFacts.lem_C14_types_are_sized ts ast (NConst c) t P I).
  cbn [ParseFacts.decl_types].
  clear -A.
  induction A as [id items n t l t' I|id items c p t l I A IH]; cbn [ParseFacts.const_types]; apply in_flat_map.
  - exists (ConstItemValue n t (ConstLiteral l t')).
  split; [exact I|now left].
  - exists (ConstItemNode c).
  split; [exact I|exact IH].
Qed.

Definition not_negative (l : literal) : Prop := match l with IntLit z => (0 <= z)%Z | _ => True end.

Lemma kotlin_nonneg ast p t l : KotlinCheck.consts_fine ast = true -> declared ast p t l -> not_negative l.
Proof.
  intros F (c & I & A).
  destruct (KotlinConsts.consts_parts ast F) as (_ & _ & H & _).
  destruct (H c I) as [R _].
  clear -A R.
  induction A as [id items n t l t' I|id items c p t l I A IH]; destruct (KotlinConsts.ready_items id items R) as (RN & RV); [|now apply IH, RN].
  destruct (RV n t l t' I) as [_ L].
  destruct l; try exact Logic.I.
  destruct t; cbn [KotlinTree.literal_ready] in L; try discriminate L; [now apply Z.leb_le|].
  apply andb_true_iff in L as [_ L].
  now apply Z.leb_le.
Qed.

Lemma swift_nonneg ast p t l : SwiftCheck.consts_fine ast = true -> declared ast p t l -> not_negative l /\ match l, t with NumberLit _, TyNumber _ size => size <> 4 | _, _ => True end.
Proof.
  intros F (c & I & A).
  destruct (SwiftConsts.consts_parts ast F) as (_ & _ & H & _).
  destruct (H c I) as [R FC].
  clear -A R FC.
  induction A as [id items n t l t' I|id items c p t l I A IH]; destruct (SwiftConsts.ready_items id items R) as (RN & RV); destruct (SwiftConsts.fine_items id items FC) as (_ & FN & FV); [|now apply IH; [apply RN|apply FN]].
  destruct (RV n t l t' I) as [_ L].
  destruct (FV n t l t' I) as [IR _].
  split.
  - destruct l; try exact Logic.I.
  destruct t; cbn [KotlinTree.literal_ready] in L; try discriminate L; [now apply Z.leb_le|].
  apply andb_true_iff in L as [_ L].
  now apply Z.leb_le.
  - destruct l; try exact Logic.I.
  destruct t; try exact Logic.I.
  cbn [SwiftCheck.in_reach] in IR.
  intros ->.
  discriminate IR.
Qed.

(** The values of one constant. *)
Lemma rust_kotlin_value t l n v k : ParseFacts.sized t -> not_negative l -> rust_val t l v -> kotlin_holds t l n k -> kotlin_means k = Some v.
Proof.
  intros S N R K.
  destruct l as [s|z|x|b]; destruct t as [id size sg|id size|id|id|g gl|id]; cbn [rust_val const_val kotlin_holds kotlin_constant] in R, K; try discriminate K; try discriminate R.
  - destruct (String.eqb id "String"); [|discriminate R].
  injection R as <-.
  injection K as <- <-.
  reflexivity.
  - injection R as <-.
  injection K as <- <-.
  cbn [kotlin_means].
  cbn in N.
  now rewrite Z2N.id.
  - destruct (KotlinTree.address id); [|discriminate K].
  destruct (RustDefault.among addresses id); [|discriminate R].
  injection R as <-.
  injection K as <- <-.
  cbn [kotlin_means].
  cbn in N.
  now rewrite Z2N.id.
  - destruct S as [(-> & ->)|(-> & ->)]; cbn [String.eqb Ascii.eqb Bool.eqb Nat.eqb] in R, K.
  + destruct R as (y & -> & Y).
  destruct K as (_ & y' & -> & Y').
  cbn [kotlin_means].
  do 2 f_equal.
  exact (Single.single_value_unique x y' y Y' Y).
  + injection R as <-.
  injection K as <- <-.
  reflexivity.
  - injection R as <-.
  injection K as <- <-.
  reflexivity.
Qed.

Lemma dart_swift_value t l n v k : not_negative l -> const_val t l = Some v -> swift_constant t l = Some (n, k) -> swift_means k = Some v.
Proof.
  intros N R K.
  destruct l as [s|z|x|b]; destruct t as [id size sg|id size|id|id|g gl|id]; cbn [const_val swift_constant] in R, K; try discriminate K; try discriminate R.
  - destruct (String.eqb id "String"); [|discriminate R].
  injection R as <-.
  injection K as <- <-.
  reflexivity.
  - injection R as <-.
  injection K as <- <-.
  cbn [swift_means].
  cbn in N.
  now rewrite Z2N.id.
  - destruct (KotlinTree.address id); [|discriminate K].
  destruct (RustDefault.among addresses id); [|discriminate R].
  injection R as <-.
  injection K as <- <-.
  cbn [swift_means].
  cbn in N.
  now rewrite Z2N.id.
  - injection R as <-.
  injection K as <- <-.
  reflexivity.
  - injection R as <-.
  injection K as <- <-.
  reflexivity.
Qed.

Lemma dart_kotlin_value t l n w k : ParseFacts.sized t -> not_negative l -> const_val t l = Some w -> kotlin_holds t l n k -> (kotlin_means k = Some w <-> exact_literal t l).
Proof.
  intros S N W K.
  assert (R : exists v, rust_val t l v /\ kotlin_means k = Some v).
  { destruct (match t, l with TyNumber id _, NumberLit _ => String.eqb id "f32" | _, _ => false end) eqn:E.
  - destruct t as [id size sg|id size|id|id|g gl|id]; try discriminate E.
  destruct l as [s|z|x|b]; try discriminate E.
  destruct S as [(-> & ->)|(-> & ->)]; [|discriminate E].
  cbn [kotlin_holds Nat.eqb] in K.
  destruct K as (_ & y & -> & Y).
  exists (CReal y).
  split; [now exists y|reflexivity].
  - exists w.
  assert (R : rust_val t l w) by (unfold rust_val; destruct t; try exact W; destruct l; try exact W; now rewrite E).
  split; [exact R|].
  now apply (rust_kotlin_value t l n w k).
  }
  destruct R as (v & R & M).
  rewrite M.
  rewrite <- (ConstFacts.rust_dart_value t l v w R W).
  split; [now intros [= ->]|now intros ->].
Qed.

Lemma lem_C58_rust_kotlin : forall src ast models buffers rpc items, compile_front src = Ok ast ->
  rust_ready ast = true -> file_items ast models buffers rpc items -> rust_consts_fine ast (type_names items) = true -> KotlinCheck.consts_fine ast = true ->
  exists text decls, kotlin_consts ast = Ok text /\ kotlin_file text = Some decls /\
    (forall p rt v, RustConst.constant items p rt v -> exists kt k, KotlinSem.constant [] decls (kotlin_path p) kt k /\ kotlin_means k = Some v) /\
    (forall q kt k, KotlinSem.constant [] decls q kt k -> exists p rt v, q = kotlin_path p /\ RustConst.constant items p rt v /\ kotlin_means k = Some v) /\
    (forall q kt k kt' k', KotlinSem.constant [] decls q kt k -> KotlinSem.constant [] decls q kt' k' -> kt = kt' /\ k = k').
Proof.
  intros src ast models buffers rpc items P RR RI RF KF.
  destruct (ConstFacts.lem_C53_rust_constants ast models buffers rpc items RR RI RF) as (_ & RA & RB & _).
  destruct (KotlinFacts.lem_C50_constants ast KF) as (text & decls & E & K & C & KA & KB).
  exists text, decls.
  split; [exact E|].
  split; [exact K|].
  split; [|split].
  - intros p rt v H.
  destruct (RB p rt v H) as (t & l & D & _ & V).
  destruct (KA p t l D) as (kt & k & KH & KC).
  exists kt, k.
  split; [exact KC|].
  apply (rust_kotlin_value t l kt v k); [now apply (declared_sized src ast p t l)|now apply (kotlin_nonneg ast p t l)|exact V|exact KH].
  - intros q kt k H.
  destruct (KB q kt k H) as (p & t & l & D & -> & KH).
  destruct (RA p t l D) as (rt & v & _ & V & RC).
  exists p, rt, v.
  split; [reflexivity|].
  split; [exact RC|].
  apply (rust_kotlin_value t l kt v k); [now apply (declared_sized src ast p t l)|now apply (kotlin_nonneg ast p t l)|exact V|exact KH].
  - intros q kt k kt' k' H H'.
  unfold KotlinSem.compiles in C.
  rewrite !andb_true_iff in C.
  destruct C as ((C1 & _) & C2).
  exact (kotlin_one decls [] decls q kt k H _ C1 C2 kt' k' H').
Qed.

Lemma lem_C58_dart_swift : forall ast rpc items,
  dart_ready ast = true -> dart_items ast rpc items -> dart_consts_fine ast (top_names items) = true -> SwiftCheck.consts_fine ast = true ->
  exists text decls, swift_consts ast = Ok text /\ swift_file text = Some decls /\
    (forall p t l, declared ast p t l -> exists dt v st s, DartConst.constant items (map camel p) dt v /\ SwiftSem.constant [] decls (swift_path p) st s /\ swift_means s = Some v) /\
    (forall q st s, SwiftSem.constant [] decls q st s -> exists p dt v, q = swift_path p /\ DartConst.constant items (map camel p) dt v /\ swift_means s = Some v) /\
    (forall q st s st' s', SwiftSem.constant [] decls q st s -> SwiftSem.constant [] decls q st' s' -> st = st' /\ s = s').
Proof.
  intros ast rpc items DR DI DF SF.
  destruct (ConstFacts.lem_C53_dart_constants ast rpc items DR DI DF) as (_ & DA & DB & _).
  destruct (SwiftFacts.lem_C51_constants ast SF) as (text & decls & E & K & C & SA & SB).
  exists text, decls.
  split; [exact E|].
  split; [exact K|].
  split; [|split].
  - intros p t l D.
  destruct (DA p t l D) as (dt & v & _ & V & DC).
  destruct (SA p t l D) as (st & s & SH & SC).
  exists dt, v, st, s.
  split; [exact DC|].
  split; [exact SC|].
  apply (dart_swift_value t l st v s); [now apply (swift_nonneg ast p t l)|exact V|exact SH].
  - intros q st s H.
  destruct (SB q st s H) as (p & t & l & D & -> & SH).
  destruct (DA p t l D) as (dt & v & _ & V & DC).
  exists p, dt, v.
  split; [reflexivity|].
  split; [exact DC|].
  apply (dart_swift_value t l st v s); [now apply (swift_nonneg ast p t l)|exact V|exact SH].
  - intros q st s st' s' H H'.
  unfold SwiftSem.compiles in C.
  rewrite !andb_true_iff in C.
  destruct C as (((Z0 & C1) & C2) & _).
  refine (swift_one decls [] decls q st s H _ _ _ C2 st' s' H').
  now rewrite swift_all.
Qed.

Lemma lem_C58_dart_kotlin : forall src ast rpc items, compile_front src = Ok ast ->
  dart_ready ast = true -> dart_items ast rpc items -> dart_consts_fine ast (top_names items) = true -> KotlinCheck.consts_fine ast = true ->
  exists text decls, kotlin_consts ast = Ok text /\ kotlin_file text = Some decls /\
    (forall p t l, declared ast p t l -> exists dt v kt k, DartConst.constant items (map camel p) dt v /\ KotlinSem.constant [] decls (kotlin_path p) kt k /\ (kotlin_means k = Some v <-> exact_literal t l)).
Proof.
  intros src ast rpc items P DR DI DF KF.
  destruct (ConstFacts.lem_C53_dart_constants ast rpc items DR DI DF) as (_ & DA & DB & _).
  destruct (KotlinFacts.lem_C50_constants ast KF) as (text & decls & E & K & C & KA & KB).
  exists text, decls.
  split; [exact E|].
  split; [exact K|].
  intros p t l D.
  destruct (DA p t l D) as (dt & v & _ & V & DC).
  destruct (KA p t l D) as (kt & k & KH & KC).
  exists dt, v, kt, k.
  split; [exact DC|].
  split; [exact KC|].
  apply (dart_kotlin_value t l kt v k); [now apply (declared_sized src ast p t l)|now apply (kotlin_nonneg ast p t l)|exact V|exact KH].
Qed.

Lemma lem_C58_dart_kotlin_refuted : exists src ast items text decls v k,
  compile_front src = Ok ast /\ dart_ready ast = true /\ dart_items ast true items /\ dart_consts_fine ast (top_names items) = true /\ KotlinCheck.consts_fine ast = true /\
  kotlin_consts ast = Ok text /\ kotlin_file text = Some decls /\
  DartConst.constant items ["numbers"; "tenth"] "double" (CReal v) /\ KotlinSem.constant [] decls ["Numbers"; "TENTH"] "Float" (KotlinSem.VReal "Float" k) /\ v <> k.
Proof.
  destruct (KotlinFacts.lem_C50_consts_read ConstFacts.c53_tenth_ast) as (text & E & K); [vm_compute; reflexivity|].
  exists ConstFacts.c53_tenth_src, ConstFacts.c53_tenth_ast, ConstFacts.c53_tenth_dart, text, (KotlinTree.consts_tree ConstFacts.c53_tenth_ast), (f64_of_dec 1 (-1)), (Single.f32_of_dec 1 (-1)).
  split; [vm_compute; reflexivity|].
  split; [vm_compute; reflexivity|].
  split; [apply dart_items_tree; vm_compute; reflexivity|].
  split; [vm_compute; reflexivity|].
  split; [vm_compute; reflexivity|].
  split; [exact E|].
  split; [exact K|].
  split; [|split].
  - eapply DartConst.co_at; [vm_compute; tauto|vm_compute; reflexivity|vm_compute; reflexivity|].
  eapply DartConst.he_here; [vm_compute; tauto|vm_compute; reflexivity].
  - eapply KotlinSem.co_in; [vm_compute; tauto|].
  eapply KotlinSem.co_here; [vm_compute; tauto|vm_compute; reflexivity].
  - vm_compute.
  discriminate.
Qed.

Lemma lem_C58_same_constants : forall src ast models buffers rpc rust_items rpc' items, compile_front src = Ok ast ->
  rust_ready ast = true -> file_items ast models buffers rpc rust_items -> rust_consts_fine ast (type_names rust_items) = true ->
  dart_ready ast = true -> dart_items ast rpc' items -> dart_consts_fine ast (top_names items) = true ->
  KotlinCheck.consts_fine ast = true -> SwiftCheck.consts_fine ast = true ->
  exists ktext kotlin stext swift, kotlin_consts ast = Ok ktext /\ kotlin_file ktext = Some kotlin /\ swift_consts ast = Ok stext /\ swift_file stext = Some swift /\
    forall p t l, declared ast p t l -> exists v rt dt kt k st s, const_val t l = Some v /\
      RustConst.constant rust_items p rt v /\ DartConst.constant items (map camel p) dt v /\
      KotlinSem.constant [] kotlin (kotlin_path p) kt k /\ kotlin_means k = Some v /\ SwiftSem.constant [] swift (swift_path p) st s /\ swift_means s = Some v.
Proof.
  intros src ast models buffers rpc rust_items rpc' items P RR RI RF DR DI DF KF SF.
  destruct (ConstFacts.lem_C53_rust_constants ast models buffers rpc rust_items RR RI RF) as (_ & RA & _).
  destruct (ConstFacts.lem_C53_dart_constants ast rpc' items DR DI DF) as (_ & DA & _).
  destruct (KotlinFacts.lem_C50_constants ast KF) as (ktext & kotlin & KE & KT & _ & KA & _).
  destruct (SwiftFacts.lem_C51_constants ast SF) as (stext & swift & SE & ST & _ & SA & _).
  exists ktext, kotlin, stext, swift.
  split; [exact KE|].
  split; [exact KT|].
  split; [exact SE|].
  split; [exact ST|].
  intros p t l D.
  destruct (RA p t l D) as (rt & v & _ & RV & RC).
  destruct (DA p t l D) as (dt & w & _ & DV & DC).
  destruct (KA p t l D) as (kt & k & KV & KC).
  destruct (SA p t l D) as (st & s & SV & SC).
  pose proof (declared_sized src ast p t l P D) as SZ.
  destruct (swift_nonneg ast p t l SF D) as [NN NF].
  assert (EX : exact_literal t l).
  { unfold exact_literal.
  destruct t; try exact Logic.I.
  destruct l; try exact Logic.I.
  intros ->.
  destruct SZ as [(_ & ->)|(X & _)]; [contradiction|discriminate X].
  }
  assert (VW : v = w) by now apply (ConstFacts.rust_dart_value t l v w RV DV).
  subst w.
  exists v, rt, dt, kt, k, st, s.
  split; [exact DV|].
  split; [exact RC|].
  split; [exact DC|].
  split; [exact KC|].
  split; [now apply (rust_kotlin_value t l kt v k)|].
  split; [exact SC|].
  now apply (dart_swift_value t l st v s).
Qed.
