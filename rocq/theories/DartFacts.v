(** Lemmas behind the theorems of PropertiesDart.v. *)

(** Property theorems about the meaning of the generated Dart codecs: C20 (unknown tags), C21 (value codecs), C22 (in-place
    codecs), C23 (skipping), C24 (agreement with Rust).  The generated text is read back as a Dart file and that file is
    run by the interpreter of DartSem.  After each theorem, a concrete case that meets its hypotheses, and its axioms. *)
Require Import Coq.Strings.String Coq.Strings.Ascii.
Require Import Coq.NArith.NArith Coq.ZArith.ZArith Coq.Lists.List Coq.Bool.Bool Coq.Arith.PeanoNat.
Require Import Coq.micromega.Lia Coq.micromega.ZifyBool Coq.micromega.ZifyN Coq.micromega.ZifyNat.
Require Import Verif.Base Verif.Ast Verif.Lexer Verif.Parser Verif.CaseConv Verif.Code Verif.NumText Verif.RustGen Verif.RustTree Verif.RustFile Verif.RustWf Verif.RustSem Verif.Wire Verif.RustCodec Verif.CodecFacts.
Require Import Verif.DartSyntax Verif.DartGen Verif.DartTree Verif.DartFile Verif.DartWf Verif.DartSem Verif.DartWire Verif.DartRun Verif.DartShape Verif.DartCodec Verif.DartAgree.
Import ListNotations.
Local Open Scope string_scope.
Local Open Scope list_scope.

(** [items] is what the Dart file generated from [ast], with models and buffers, reads as. *)
Definition dart_items (ast : list ast_node) (rpc : bool) (items : list ditem) : Prop :=
  exists text, dart_generate ast true true rpc = Ok text /\ dart_file text = Some items.

(** Its names are pairwise different and differ from those of the libraries, and the codecs compile. *)
Definition dart_names_ok (items : list ditem) : bool :=
  nodupb (top_names items) && forallb (fun n => absent n (top_names items)) lib_names.

Definition dart_codecs_ok (ast : list ast_node) (items : list ditem) : bool :=
  forallb dart_decl_ok (schema_decls ast) && dart_names_ok items.

(** The method [m] of [const c()]. *)
Definition dart_call (D : druntime) (items : list ditem) (fuel : nat) (c m : string) (args : list dval) : dM dval :=
  method D items (dcalls_upto D items fuel) (dobj c [] []) m (pos args).

Lemma dart_section ast rpc items : dart_ready ast = true -> dart_items ast rpc items -> dart_codecs_ok ast items = true ->
  (forall d i, In d (schema_decls ast) -> In i (decl_items d) -> In i items) /\ NoDup (top_names items) /\
  (forall n, In n lib_names -> ~ In n (top_names items)) /\ forallb dart_decl_ok (schema_decls ast) = true.
Proof.
  intros RD (text & G & F) O.
  pose proof (dart_file_generated ast true true rpc text RD G) as X.
  rewrite F in X.
  injection X as ->.
  unfold dart_codecs_ok, dart_names_ok in O.
  rewrite !andb_true_iff in O.
  destruct O as (O & N & L).
  split; [|split; [now apply nodupb_NoDup|split; [|exact O]]].
  - intros d i ID II.
  unfold schema_decls in ID.
  apply in_flat_map in ID as (n & IN & ID).
  unfold dart_tree.
  apply in_or_app.
  right.
  apply in_or_app.
  right.
  apply in_or_app.
  right.
  apply in_or_app.
  destruct n; try destruct ID; try contradiction; subst d; cbn [decl_items] in II; apply in_app_or in II as [II|II];
      [left|right; apply in_or_app; left|left|right; apply in_or_app; left]; unfold models_tree, buffers_tree; apply in_flat_map; eexists; (split; [exact IN|exact II]).
  - intros n I.
  rewrite forallb_forall in L.
  now apply absent_not_in, L.
Qed.

Lemma dart_items_tree ast rpc : dart_ready ast = true -> match dart_generate ast true true rpc with Ok _ => true | _ => false end = true ->
  dart_items ast rpc (dart_tree ast true true rpc).
Proof.
  intros RD G.
  destruct (dart_generate ast true true rpc) as [text| |] eqn:E; try discriminate.
  exists text.
  split; [exact E|].
  exact (dart_file_generated ast true true rpc text RD E).
Qed.

Lemma not_string ds m : forallb dart_decl_ok ds = true -> declared ds m = true -> m <> "String".
Proof.
  intros O K.
  unfold declared in K.
  destruct (decl_of m ds) as [[s|e]|] eqn:E; [| |discriminate].
  - now apply (struct_conditions ds O) in E.
  - now apply (enum_conditions ds O) in E.
Qed.

Lemma declared_emplace ds m : forallb dart_decl_ok ds = true -> declared ds m = true -> emplace_obj (TyOther m) = dobj (m ++ "EmplaceToBuffers") [] [].
Proof.
  intros O K.
  cbn [emplace_obj DartTree.is_string generate_class_prefix].
  pose proof (not_string ds m O K) as N.
  apply String.eqb_neq in N.
  now rewrite N.
Qed.

Lemma lem_C20_dart_unknown_tag_throws : forall ast rpc items D U e z fuel s rest,
  let ds := schema_decls ast in
  dart_ready ast = true -> dart_items ast rpc items -> dart_codecs_ok ast items = true -> dlawful D U ->
  decl_of (en_id e) ds = Some (Wire.DEnum e) ->
  (- 2 ^ 31 <= z < 2 ^ 31)%Z -> (forall i, In i (en_items e) -> Z.of_N (item_pos i) <> z) ->
  d_rd s = rd_put D "Int32" z ++ rest -> 1 <= fuel ->
  dart_call D items fuel (en_id e ++ "IntoBuffers") "read" [dreader] s = DThrows "StateError" /\
  (forall target, dart_call D items fuel (en_id e ++ "EmplaceToBuffers") "read" [dreader; target] s = DThrows "StateError") /\
  (forall count, (1 <= count)%Z ->
    dart_call D items fuel (en_id e ++ "IntoBuffers") "skip" [dreader; dint count] s = DThrows "StateError" /\
    dart_call D items fuel (en_id e ++ "EmplaceToBuffers") "skip" [dreader; dint count] s = DThrows "StateError").
Proof.
  intros ast rpc items D U e z fuel s rest ds RD F O L E B NI W FU.
  destruct (dart_section ast rpc items RD F O) as (FI & N & LB & OK).
  fold ds in FI, OK.
  destruct fuel as [|n]; [lia|].
  assert (DC : declared ds (en_id e) = true) by (unfold declared; now rewrite E).
  assert (RG : dart_range "Int32" z = true).
  { unfold dart_range.
  cbn [String.eqb Ascii.eqb Bool.eqb orb].
  clear - B.
  lia.
  }
  assert (NIN : ~ In z (map (fun i => Z.of_N (item_pos i)) (en_items e))).
  { intros I.
  apply in_map_iff in I as (i & Q & I).
  now apply (NI i I).
  }
  destruct (unknown_tags D U items ds FI N LB OK L n (en_id e) e s rest z E RG NIN W) as (A & B' & C).
  pose proof (declared_emplace ds (en_id e) OK DC) as EO.
  split; [exact A|].
  split; [intros t; specialize (B' t); rewrite EO in B'; exact B'|].
  intros count CT.
  set (k := Z.to_nat (count - 1)).
  assert (CK : count = Z.of_nat (S k)) by (unfold k; lia).
  rewrite CK.
  split.
  - exact (C false k).
  - pose proof (C true k) as Q.
  cbn [cobj] in Q.
  rewrite EO in Q.
  exact Q.
Qed.

Definition c21_ast : list ast_node := parsed c17_schema.

Definition c21_items : list ditem := dart_tree c21_ast true true false.

Definition c21_dart : druntime := le_dart false.

Definition c21_start : dstate := mk_dstate [] [] [] (fun _ _ _ => []) 0 [].

Lemma lem_C21_round_trip : forall ast rpc items D U cd v m fuel,
  let ds := schema_decls ast in
  dart_ready ast = true -> dart_items ast rpc items -> dart_codecs_ok ast items = true -> dlawful D U ->
  declared ds m = true -> dtyped U ds (top_names items) cd v (TyOther m) = true -> 3 * depth v + 3 * cd + 3 <= fuel ->
  let bs := dwire D U ds false v (TyOther m) in
  (forall P s w, rep U ds P (d_heap s) w v (TyOther m) ->
    dart_call D items fuel (m ++ "IntoBuffers") "write" [dwriter; w] s = DDone dnull (set_dwr (d_wr s ++ bs) s)) /\
  (forall s rest, exists w h',
    dart_call D items fuel (m ++ "IntoBuffers") "read" [dreader] (set_drd (bs ++ rest) s) = DDone w (set_heap h' (set_drd rest s)) /\
    changes (d_heap s) h' [] /\ rep U ds (fresh (d_heap s) h') h' w v (TyOther m)).
Proof.
  intros ast rpc items D U cd v m fuel ds RD F O L DC T FU bs.
  destruct (dart_section ast rpc items RD F O) as (FI & N & LB & OK).
  fold ds in FI, OK.
  split.
  - intros P s w R.
  apply (write_all D U items ds cd FI N LB OK L (depth v) v (TyOther m) fuel false T eq_refl (le_n _)) with (P := P); [lia|exact R].
  - intros s rest.
  destruct (read_all D U items ds cd FI N LB OK L (depth v) v (TyOther m) fuel T eq_refl (le_n _)) as [R _]; [lia|].
  destruct (R (set_drd (bs ++ rest) s) rest eq_refl) as (w & h' & E & C & P).
  exists w, h'.
  split; [|split; [exact C|exact P]].
  rewrite set_drd_twice in E.
  exact E.
Qed.

Lemma lem_C21_bytes : forall D U ds elem,
  (forall n s fs, decl_of n ds = Some (DStruct s) ->
    dwire D U ds elem (vrec n fs) (TyOther n) = cat2 (fun x f => dwire D U ds false (snd x) (sf_type f)) fs (sn_fields s)) /\
  (forall n e c i l, decl_of n ds = Some (Wire.DEnum e) -> item_of c e = Some i ->
    dwire D U ds elem (vcase n c) (TyOther n) = rd_put D "Int32" (Z.of_N (item_pos i)) /\
    (forall p ts, i = ItemTuple p c ts -> dwire D U ds elem (vcaset n c l) (TyOther n) =
       rd_put D "Int32" (Z.of_N (item_pos i)) ++ cat2 (fun x f => dwire D U ds false x (tf_type f)) l ts) /\
    (forall p gs fs, i = ItemStruct p c gs -> dwire D U ds elem (vcases n c fs) (TyOther n) =
       rd_put D "Int32" (Z.of_N (item_pos i)) ++ cat2 (fun x f => dwire D U ds false (snd x) (sf_type f)) fs gs)) /\
  (forall k l t, dwire D U ds elem (vbox "Vec" k l) (TyGeneric "Vec" [t]) = rd_len_put D (List.length l) ++ flat_map (fun v => dwire D U ds true v t) l).
Proof.
  intros D U ds elem.
  assert (FS : forall (fs : list (string * val)) gs, cat2 (fun '(_, v) (f : slot) => dwire D U ds false v (snd f)) fs (map field_slot gs) =
                cat2 (fun x f => dwire D U ds false (snd x) (sf_type f)) fs gs).
  { induction fs as [|[x v] fs IH]; intros [|f gs]; try reflexivity.
  cbn [map cat2].
  now rewrite IH.
  }
  split; [|split].
  - intros n s fs E.
  cbn [dwire].
  unfold fields_of.
  rewrite E.
  apply FS.
  - intros n e c i l E IO.
  cbn [dwire].
  unfold dtag, items_of.
  rewrite E, IO.
  split; [reflexivity|].
  split.
  + intros p ts ->.
  cbn [item_slots item_pos].
  f_equal.
  unfold tuple_slots, numbered.
  generalize 0 as a.
  clear IO.
  revert ts.
  induction l as [|x l IH]; intros [|t ts] a; try reflexivity.
  cbn [List.length seq combine map cat2 snd].
  now rewrite IH.
  + intros p gs fs ->.
  cbn [item_slots item_pos].
  f_equal.
  apply FS.
  - reflexivity.
Qed.

Lemma lem_C21_one_value : forall ast items U cd v v' t P P' h w,
  let ds := schema_decls ast in
  forallb dart_decl_ok ds = true ->
  (forall a b, su_f32 U a = true -> su_f32 U b = true -> su_widen U a = su_widen U b -> a = b) ->
  dtyped U ds (top_names items) cd v t = true -> dtyped U ds (top_names items) cd v' t = true ->
  rep U ds P h w v t -> rep U ds P' h w v' t -> v = v'.
Proof.
  intros ast items U cd v v' t P P' h w ds OK W T T' A B.
  exact (rep_unique_upto U items ds cd OK W (depth v) v v' t P P' h w (le_n _) T T' A B).
Qed.

Lemma le_widen_inj : forall a b, su_f32 le_support a = true -> su_f32 le_support b = true -> su_widen le_support a = su_widen le_support b -> a = b.
Proof.
  intros a b A B E.
  cbn [le_support su_f32 su_widen] in A, B, E.
  rewrite !andb_true_iff in A, B.
  destruct A as [[_ A] _], B as [[_ B] _].
  apply Z.eqb_eq in A, B.
  congruence.
Qed.

Definition c21_line : val := c17_line.

Definition c21_shape : val := vcases "Shape" "Named" [("shape", c21_line); ("width", vnum "i64" (-3))].

Lemma lem_C22_same_bytes : forall ast rpc items D U cd v m fuel P s w,
  let ds := schema_decls ast in
  dart_ready ast = true -> dart_items ast rpc items -> dart_codecs_ok ast items = true -> dlawful D U ->
  declared ds m = true -> dtyped U ds (top_names items) cd v (TyOther m) = true -> 2 * depth v + 3 <= fuel ->
  rep U ds P (d_heap s) w v (TyOther m) ->
  let bs := dwire D U ds false v (TyOther m) in
  dart_call D items fuel (m ++ "EmplaceToBuffers") "write" [dwriter; w] s = DDone dnull (set_dwr (d_wr s ++ bs) s) /\
  dart_call D items fuel (m ++ "EmplaceToBuffers") "write" [dwriter; w] s = dart_call D items fuel (m ++ "IntoBuffers") "write" [dwriter; w] s.
Proof.
  intros ast rpc items D U cd v m fuel P s w ds RD F O L DC T FU R bs.
  destruct (dart_section ast rpc items RD F O) as (FI & N & LB & OK).
  fold ds in FI, OK.
  pose proof (write_all D U items ds cd FI N LB OK L (depth v) v (TyOther m) fuel false T eq_refl (le_n _) FU P s w R) as A.
  pose proof (write_all D U items ds cd FI N LB OK L (depth v) v (TyOther m) fuel true T eq_refl (le_n _) FU P s w R) as B.
  cbn [cobj] in A, B.
  rewrite (declared_emplace ds m OK DC) in B.
  split; [exact B|].
  unfold dart_call.
  rewrite B.
  symmetry.
  exact A.
Qed.

Lemma lem_C22_fills : forall ast rpc items D U cd v m fuel s rest target parts,
  let ds := schema_decls ast in
  dart_ready ast = true -> dart_items ast rpc items -> dart_codecs_ok ast items = true -> dlawful D U ->
  declared ds m = true -> dtyped U ds (top_names items) cd v (TyOther m) = true -> 3 * depth v + 3 * cd + 3 <= fuel ->
  shaped ds (top_names items) (d_heap s) target (TyOther m) parts -> NoDup parts ->
  d_rd s = dwire D U ds false v (TyOther m) ++ rest ->
  exists h w h1,
    dart_call D items fuel (m ++ "EmplaceToBuffers") "read" [dreader; target] s = DDone dnull (set_heap h (set_drd rest s)) /\
    changes (d_heap s) h parts /\ shaped ds (top_names items) h target (TyOther m) parts /\
    rep U ds (fun a => In a parts \/ fresh (d_heap s) h a) h target v (TyOther m) /\
    dart_call D items fuel (m ++ "IntoBuffers") "read" [dreader] s = DDone w (set_heap h1 (set_drd rest s)) /\
    rep U ds (fresh (d_heap s) h1) h1 w v (TyOther m).
Proof.
  intros ast rpc items D U cd v m fuel s rest target parts ds RD F O L DC T FU SH ND W.
  destruct (dart_section ast rpc items RD F O) as (FI & N & LB & OK).
  fold ds in FI, OK.
  destruct (read_all D U items ds cd FI N LB OK L (depth v) v (TyOther m) fuel T eq_refl (le_n _) FU) as [A B].
  destruct (A s rest W) as (w & h1 & A1 & A2 & A3).
  destruct (B (proj2 (String.eqb_neq _ _) (not_string ds m OK DC)) s rest target parts W SH ND) as (h & B1 & B2 & B3 & B4).
  rewrite (declared_emplace ds m OK DC) in B1.
  exists h, w, h1.
  repeat (split; [assumption|]).
  exact A3.
Qed.

(** The default value, with the objects it consists of. *)
Lemma default_made : forall ast rpc items D U m cd fuel s,
  let ds := schema_decls ast in
  dart_ready ast = true -> dart_items ast rpc items -> dart_codecs_ok ast items = true ->
  declared ds m = true -> creatable ds (top_names items) cd (TyOther m) = true -> 3 * cd + 1 <= fuel ->
  exists w h parts,
    dart_call D items fuel (m ++ "BuffersFactory") "createDefault" [] s = DDone w (set_heap h s) /\
    changes (d_heap s) h [] /\ shaped ds (top_names items) h w (TyOther m) parts /\ NoDup parts /\ (forall a, In a parts -> fresh (d_heap s) h a) /\
    valued D U ds h w (TyOther m) parts.
Proof.
  intros ast rpc items D U m cd fuel s ds RD F O DC C FU.
  destruct (dart_section ast rpc items RD F O) as (FI & N & LB & OK).
  fold ds in FI, OK.
  destruct (creatable_made D U items ds FI N LB OK cd (TyOther m) fuel C FU s) as (w & h & parts & E & (A & B & G) & SH & VA).
  exists w, h, parts.
  split; [|repeat (split; [assumption|]); exact VA].
  assert (X : exists e, find_class (m ++ "BuffersFactory") items = Some (factory_members m e)).
  { unfold declared in DC.
  destruct (decl_of m ds) as [[st|e]|] eqn:Q; [| |discriminate].
  - pose proof (struct_factory items N st (struct_modelled items ds FI m st Q)) as Y.
  rewrite (struct_id ds m st Q) in Y.
  eauto.
  - destruct (creatable_enum items ds cd m e Q C) as (cd' & _ & NE & _).
  destruct (en_items e) as [|i l] eqn:I; [discriminate NE|].
  destruct (enum_models items ds FI N m e i l Q I) as (_ & _ & _ & _ & Y).
  eauto.
  }
  destruct X as (e & X).
  unfold dart_call.
  rewrite <- E.
  cbn [default_ex].
  unfold const0.
  destruct fuel as [|fuel]; [exfalso; clear - FU; lia|].
  rewrite (ev_call_const D items (dcalls_upto D items (S fuel)) None (m ++ "BuffersFactory") [] [] false "createDefault" [] [] (dobj (m ++ "BuffersFactory") [] []) [] s); [reflexivity| |constructor].
  unfold pure.
  cbn [DartSem.ev dmapM].
  rewrite dbind_ret_l, (has_class_some items _ _ X).
  cbn [dcalls_upto k_new].
  unfold new_with.
  rewrite X.
  reflexivity.
Qed.

Lemma lem_C46_default_targets : forall ast rpc items D m cd fuel s,
  let ds := schema_decls ast in
  dart_ready ast = true -> dart_items ast rpc items -> dart_codecs_ok ast items = true ->
  declared ds m = true -> creatable ds (top_names items) cd (TyOther m) = true -> 3 * cd + 1 <= fuel ->
  exists w h parts,
    dart_call D items fuel (m ++ "BuffersFactory") "createDefault" [] s = DDone w (set_heap h s) /\
    changes (d_heap s) h [] /\ shaped ds (top_names items) h w (TyOther m) parts /\ NoDup parts /\ (forall a, In a parts -> fresh (d_heap s) h a).
Proof.
  intros ast rpc items D m cd fuel s ds RD F O DC C FU.
  destruct (default_made ast rpc items D (mk_support (fun _ _ => true) (fun _ => true) (fun _ => true) (fun z => z)) m cd fuel s RD F O DC C FU) as (w & h & parts & E & A & B & G & H & _).
  exists w, h, parts.
  repeat (split; [assumption|]).
  exact H.
Qed.

Definition c22_schema : string := "struct Point { x: i32 } struct Line { from: Point, to: Point }".

Definition c22_ast : list ast_node := parsed c22_schema.

Definition c22_items : list ditem := dart_tree c22_ast true true false.

Definition c22_value (a b : Z) : val := vrec "Line" [("from", vrec "Point" [("x", vnum "i32" a)]); ("to", vrec "Point" [("x", vnum "i32" b)])].

(** A line whose two points are different objects, and one whose points are the same object. *)
Definition c22_heap (shared : bool) : heap :=
  [CObj "Point" [("x", dint 70)]; CObj "Point" [("x", dint 71)]; CObj "Line" [("from", dref 0); ("to", dref (if shared then 0 else 1))]].

Definition c22_state (shared : bool) : dstate := set_heap (c22_heap shared) (set_drd (zs [1; 0; 0; 0; 2; 0; 0; 0; 9]%Z) c21_start).

Lemma c22_shaped shared : shaped (schema_decls c22_ast) (top_names c22_items) (c22_heap shared) (dref 2) (TyOther "Line") [2; 0; if shared then 0 else 1].
Proof.
  change [2; 0; if shared then 0 else 1] with (2 :: [0] ++ [if shared then 0 else 1] ++ []).
  assert (P : forall b, b = 0 \/ b = 1 -> shaped (schema_decls c22_ast) (top_names c22_items) (c22_heap shared) (dref b) (TyOther "Point") [b]).
  { intros b B.
  change [b] with (b :: [] ++ []).
  destruct B as [->| ->]; (eapply sh_struct; [reflexivity|discriminate|reflexivity|]);
    (eapply (sl_cons _ _ _ _ "x" _ []); [cbn; reflexivity|apply sh_prim; discriminate|apply sl_nil]).
  }
  eapply sh_struct; [reflexivity|discriminate|reflexivity|].
  eapply (sl_cons _ _ _ _ "from" _ [("to", TyOther "Point")]); [reflexivity|apply P; tauto|].
  eapply (sl_cons _ _ _ _ "to" _ []); [reflexivity|apply P; destruct shared; tauto|apply sl_nil].
Qed.

Lemma lem_C22_shared_target_refuted : exists ast items D U v target parts s h,
  let ds := schema_decls ast in
  dart_ready ast = true /\ dart_items ast false items /\ dart_codecs_ok ast items = true /\ dlawful D U /\
  dtyped U ds (top_names items) 0 v (TyOther "Line") = true /\
  shaped ds (top_names items) (d_heap s) target (TyOther "Line") parts /\
  d_rd s = dwire D U ds false v (TyOther "Line") ++ zs [9]%Z /\
  dart_call D items 12 "LineEmplaceToBuffers" "read" [dreader; target] s = DDone dnull (set_heap h (set_drd (zs [9]%Z) s)) /\
  forall P, ~ rep U ds P h target v (TyOther "Line").
Proof.
  exists c22_ast, c22_items, c21_dart, le_support, (c22_value 1 2), (dref 2), [2; 0; 0], (c22_state true),
    [CObj "Point" [("x", dint 2)]; CObj "Point" [("x", dint 71)]; CObj "Line" [("from", dref 0); ("to", dref 0)]].
  split; [vm_compute; reflexivity|].
  split; [apply dart_items_tree; vm_compute; reflexivity|].
  split; [vm_compute; reflexivity|].
  split; [apply le_dlawful|].
  split; [vm_compute; reflexivity|].
  split; [exact (c22_shaped true)|].
  split; [vm_compute; reflexivity|].
  split; [vm_compute; reflexivity|].
  intros P H.
  unfold c22_value in H.
  assert (E1 : fields_of (schema_decls c22_ast) "Line" = [("from", TyOther "Point"); ("to", TyOther "Point")]) by (vm_compute; reflexivity).
  assert (E2 : exists t, fields_of (schema_decls c22_ast) "Point" = [("x", t)] /\ dart_prim le_support t 1 = dint 1) by (eexists; split; vm_compute; reflexivity).
  destruct E2 as (t & E2 & E3).
  cbn [rep] in H.
  rewrite E1 in H.
  cbn [all2P fst snd rep] in H.
  rewrite E2 in H.
  cbn [all2P fst snd rep] in H.
  destruct H as (a & cfs & [= <-] & _ & N & (u & L & (b & gfs & -> & _ & N' & (x & LX & X) & _)) & _).
  cbn in N.
  injection N as <-.
  cbn in L.
  injection L as <-.
  cbn in N'.
  injection N' as <-.
  cbn in LX.
  injection LX as <-.
  rewrite E3 in X.
  discriminate X.
Qed.

(** Skipping: with any count it consumes what so many reads consume, if the type has no field with a type of its own. *)
Lemma dart_skip ast rpc items D U cd vs m fuel emp : let ds := schema_decls ast in
  dart_ready ast = true -> dart_items ast rpc items -> dart_codecs_ok ast items = true -> dlawful D U -> declared ds m = true ->
  Forall (fun v => dtyped U ds (top_names items) cd v (TyOther m) = true /\ skippable D ds v (TyOther m) = true /\ 2 * depth v + 3 <= fuel) vs ->
  List.length vs = 1 \/ plain_type ds (TyOther m) = true -> 3 <= fuel ->
  forall s rest, d_rd s = flat_map (fun v => dwire D U ds false v (TyOther m)) vs ++ rest ->
  dart_call D items fuel (m ++ if (emp : bool) then "EmplaceToBuffers" else "IntoBuffers") "skip" [dreader; dint (Z.of_nat (List.length vs))] s = DDone dnull (set_drd rest s).
Proof.
  intros ds RD F O L DC A C FU s rest W.
  destruct (dart_section ast rpc items RD F O) as (FI & N & LB & OK).
  fold ds in FI, OK.
  assert (KN : known items ds (TyOther m)) by (cbn [known]; now left).
  assert (X : Forall (fun v => dtyped U ds (top_names items) cd v (TyOther m) = true /\ skippable D ds v (TyOther m) = true /\ depth v <= (fuel - 3) / 2) vs).
  { eapply Forall_impl; [|exact A].
  intros v (T & K & Q).
  repeat split; try assumption.
  apply Nat.div_le_lower_bound; [discriminate|lia].
  }
  assert (Y : 2 * ((fuel - 3) / 2) + 3 <= fuel) by (pose proof (Nat.mul_div_le (fuel - 3) 2 ltac:(discriminate)); lia).
  pose proof (skip_all D U items ds cd FI N LB OK L ((fuel - 3) / 2) vs (TyOther m) fuel emp KN X C Y s rest W) as Q.
  unfold cobj in Q.
  destruct emp; [rewrite (declared_emplace ds m OK DC) in Q|]; exact Q.
Qed.

Lemma lem_C23_plain : forall ast rpc items D U cd vs m fuel s rest suffix,
  let ds := schema_decls ast in
  dart_ready ast = true -> dart_items ast rpc items -> dart_codecs_ok ast items = true -> dlawful D U -> declared ds m = true ->
  plain_type ds (TyOther m) = true ->
  Forall (fun v => dtyped U ds (top_names items) cd v (TyOther m) = true /\ skippable D ds v (TyOther m) = true /\ 2 * depth v + 3 <= fuel) vs -> 3 <= fuel ->
  d_rd s = flat_map (fun v => dwire D U ds false v (TyOther m)) vs ++ rest -> suffix = "IntoBuffers" \/ suffix = "EmplaceToBuffers" ->
  dart_call D items fuel (m ++ suffix) "skip" [dreader; dint (Z.of_nat (List.length vs))] s = DDone dnull (set_drd rest s).
Proof.
  intros ast rpc items D U cd vs m fuel s rest suffix ds RD F O L DC PL A FU W [->| ->].
  - exact (dart_skip ast rpc items D U cd vs m fuel false RD F O L DC A (or_intror PL) FU s rest W).
  - exact (dart_skip ast rpc items D U cd vs m fuel true RD F O L DC A (or_intror PL) FU s rest W).
Qed.

Lemma lem_C23_once : forall ast rpc items D U cd v m fuel s rest suffix,
  let ds := schema_decls ast in
  dart_ready ast = true -> dart_items ast rpc items -> dart_codecs_ok ast items = true -> dlawful D U -> declared ds m = true ->
  dtyped U ds (top_names items) cd v (TyOther m) = true -> skippable D ds v (TyOther m) = true -> 2 * depth v + 3 <= fuel ->
  d_rd s = dwire D U ds false v (TyOther m) ++ rest -> suffix = "IntoBuffers" \/ suffix = "EmplaceToBuffers" ->
  dart_call D items fuel (m ++ suffix) "skip" [dreader; dint 1] s = DDone dnull (set_drd rest s).
Proof.
  intros ast rpc items D U cd v m fuel s rest suffix ds RD F O L DC T K FU W SF.
  assert (A : Forall (fun v => dtyped U ds (top_names items) cd v (TyOther m) = true /\ skippable D ds v (TyOther m) = true /\ 2 * depth v + 3 <= fuel) [v]) by (constructor; auto).
  assert (W' : d_rd s = flat_map (fun v => dwire D U ds false v (TyOther m)) [v] ++ rest) by (cbn [flat_map]; now rewrite app_nil_r).
  destruct SF as [->| ->].
  - exact (dart_skip ast rpc items D U cd [v] m fuel false RD F O L DC A (or_introl eq_refl) ltac:(lia) s rest W').
  - exact (dart_skip ast rpc items D U cd [v] m fuel true RD F O L DC A (or_introl eq_refl) ltac:(lia) s rest W').
Qed.

Lemma lem_C23_struct_consumes : forall ast rpc items D U cd st us qss fuel s rest suffix,
  let ds := schema_decls ast in
  let own := filter (fun f => user_typed (sf_type f)) (sn_fields st) in
  let others := filter (fun f => negb (user_typed (sf_type f))) (sn_fields st) in
  let field_ok (v : val) (f : struct_field) := dtyped U ds (top_names items) cd v (sf_type f) = true /\ skippable D ds v (sf_type f) = true /\ 2 * depth v + 5 <= fuel in
  let bytes (vs : list val) (fs : list struct_field) := cat2 (fun v f => dwire D U ds false v (sf_type f)) vs fs in
  dart_ready ast = true -> dart_items ast rpc items -> dart_codecs_ok ast items = true -> dlawful D U ->
  decl_of (sn_id st) ds = Some (DStruct st) -> 3 <= fuel ->
  Forall2 field_ok us own -> Forall (fun qs => Forall2 field_ok qs others) qss ->
  d_rd s = bytes us own ++ flat_map (fun qs => bytes qs others) qss ++ rest -> suffix = "IntoBuffers" \/ suffix = "EmplaceToBuffers" ->
  dart_call D items fuel (sn_id st ++ suffix) "skip" [dreader; dint (Z.of_nat (List.length qss))] s = DDone dnull (set_drd rest s).
Proof.
  intros ast rpc items D U cd st us qss fuel s rest suffix ds own others field_ok bytes RD F O L E FU A B W SF.
  destruct (dart_section ast rpc items RD F O) as (FI & N & LB & OK).
  fold ds in FI, OK.
  assert (DC : declared ds (sn_id st) = true) by (unfold declared; now rewrite E).
  destruct fuel as [|[|[|n]]]; try (exfalso; clear - FU; lia).
  assert (OWN : DartCodec.users (map field_slot (sn_fields st)) = map field_slot own).
  { unfold own, users.
  clear.
  induction (sn_fields st) as [|f l IH]; [reflexivity|].
  cbn [map filter field_slot snd].
  destruct (user_typed (sf_type f)); cbn [map]; now rewrite IH.
  }
  assert (OTH : DartCodec.others (map field_slot (sn_fields st)) = map field_slot others).
  { unfold others, DartCodec.others.
  clear.
  induction (sn_fields st) as [|f l IH]; [reflexivity|].
  cbn [map filter field_slot snd].
  destruct (user_typed (sf_type f)); cbn [map negb]; now rewrite IH.
  }
  assert (BY : forall vs fs, bytes vs fs = wires D U ds vs (map field_slot fs)).
  { unfold bytes, wires.
  clear.
  induction vs as [|v vs IH]; intros [|f fs]; try reflexivity.
  cbn [map cat2 field_slot snd].
  now rewrite IH.
  }
  assert (X : forall emp : bool, dart_call D items (S (S (S n))) (sn_id st ++ if emp then "EmplaceToBuffers" else "IntoBuffers") "skip" [dreader; dint (Z.of_nat (List.length qss))] s = DDone dnull (set_drd rest s)).
  { intros emp.
  destruct (struct_skip_codec items ds FI N OK (sn_id st) st emp E) as (c & r0 & wr & CO & FC & R1 & R2).
  assert (SK : forall v f, field_ok v f -> skip_ok D U items ds cd (S n) emp v (field_slot f)).
  { intros v f (T & K & Q).
  split; [exact T|].
  intros P.
  assert (KN : known items ds (sf_type f)) by (eapply dtyped_known; eassumption).
  apply (skip_all D U items ds cd FI N LB OK L (depth v) [v] (sf_type f) (S (S n)) emp KN); [constructor; auto|now left|lia].
  }
    assert (G : forall vs fs, Forall2 field_ok vs fs -> Forall2 (skip_ok D U items ds cd (S n) emp) vs (map field_slot fs)).
  { induction 1; cbn [map]; constructor; auto.
  }
    pose proof (skip_struct D U items ds cd FI N LB OK L (S n) emp c st r0 wr us qss s rest FC R1 R2) as Q.
  rewrite OWN, OTH in Q.
  assert (CO' : dobj (sn_id st ++ (if emp then "EmplaceToBuffers" else "IntoBuffers")) [] [] = dobj c [] []).
  { rewrite <- CO.
  unfold cobj.
  destruct emp; [now rewrite (declared_emplace ds (sn_id st) OK DC)|reflexivity].
  }
    unfold dart_call.
  rewrite CO'.
  apply Q.
  - now apply G.
  - eapply Forall_impl; [|exact B].
  intros qs.
  apply G.
  - rewrite W, BY.
  do 2 f_equal.
  clear - BY.
  induction qss as [|qs l IH]; [reflexivity|].
  cbn [flat_map].
  now rewrite BY, IH.
  }
  destruct SF as [->| ->]; [exact (X false)|exact (X true)].
Qed.

Definition c23_schema : string := "struct Point { x: i32, y: u8 } enum Kind { #[0] A, #[1] B(u8) } struct Pair { p: Point, n: u8 } struct Entry { n: i32, k: Kind } struct All { l: Vec<Pair> }".

Definition c23_ast : list ast_node := parsed c23_schema.

Definition c23_items : list ditem := dart_tree c23_ast true true false.

Definition c23_point (x y : Z) : val := vrec "Point" [("x", vnum "i32" x); ("y", vnum "u8" y)].

Definition c23_pair (x : Z) : val := vrec "Pair" [("p", c23_point x 1); ("n", vnum "u8" 7)].

Definition c23_entry : val := vrec "Entry" [("n", vnum "i32" 5); ("k", vcase "Kind" "A")].

Lemma lem_C23_count_refuted : exists ast items D U vs s rest,
  let ds := schema_decls ast in
  dart_ready ast = true /\ dart_items ast false items /\ dart_codecs_ok ast items = true /\ dlawful D U /\
  forallb (fun v => dtyped U ds (top_names items) 0 v (TyOther "Pair") && skippable D ds v (TyOther "Pair")) vs = true /\
  d_rd s = flat_map (fun v => dwire D U ds false v (TyOther "Pair")) vs ++ rest /\
  exists left, left <> rest /\
  dart_call D items 20 "PairIntoBuffers" "skip" [dreader; dint (Z.of_nat (List.length vs))] s = DDone dnull (set_drd left s) /\
  dart_call D items 20 "PairEmplaceToBuffers" "skip" [dreader; dint (Z.of_nat (List.length vs))] s = DDone dnull (set_drd left s).
Proof.
  exists c23_ast, c23_items, c21_dart, le_support, [c23_pair 1; c23_pair 2], (set_drd (zs [1; 0; 0; 0; 1; 7; 2; 0; 0; 0; 1; 7; 9]%Z) c21_start), (zs [9]%Z).
  split; [vm_compute; reflexivity|].
  split; [apply dart_items_tree; vm_compute; reflexivity|].
  split; [vm_compute; reflexivity|].
  split; [apply le_dlawful|].
  split; [vm_compute; reflexivity|].
  split; [vm_compute; reflexivity|].
  exists (zs [0; 0; 0; 1; 7; 9]%Z).
  split; [discriminate|].
  split; vm_compute; reflexivity.
Qed.

Lemma lem_C23_zero_refuted : exists ast items D U s left,
  dart_ready ast = true /\ dart_items ast false items /\ dart_codecs_ok ast items = true /\ dlawful D U /\ left <> d_rd s /\
  dart_call D items 20 "PairIntoBuffers" "skip" [dreader; dint 0] s = DDone dnull (set_drd left s).
Proof.
  exists c23_ast, c23_items, c21_dart, le_support, (set_drd (zs [1; 0; 0; 0; 1; 7]%Z) c21_start), (zs [7]%Z).
  split; [vm_compute; reflexivity|].
  split; [apply dart_items_tree; vm_compute; reflexivity|].
  split; [vm_compute; reflexivity|].
  split; [apply le_dlawful|].
  split; [discriminate|vm_compute; reflexivity].
Qed.

Lemma lem_C23_order_refuted : exists ast items D U v s rest,
  let ds := schema_decls ast in
  dart_ready ast = true /\ dart_items ast false items /\ dart_codecs_ok ast items = true /\ dlawful D U /\
  dtyped U ds (top_names items) 1 v (TyOther "Entry") = true /\
  d_rd s = dwire D U ds false v (TyOther "Entry") ++ rest /\
  (exists w h, dart_call D items 20 "EntryIntoBuffers" "read" [dreader] s = DDone w (set_heap h (set_drd rest s))) /\
  dart_call D items 20 "EntryIntoBuffers" "skip" [dreader; dint 1] s = DThrows "StateError".
Proof.
  exists c23_ast, c23_items, c21_dart, le_support, c23_entry, (set_drd (zs [5; 0; 0; 0; 0; 0; 0; 0; 9]%Z) c21_start), (zs [9]%Z).
  split; [vm_compute; reflexivity|].
  split; [apply dart_items_tree; vm_compute; reflexivity|].
  split; [vm_compute; reflexivity|].
  split; [apply le_dlawful|].
  split; [vm_compute; reflexivity|].
  split; [vm_compute; reflexivity|].
  split; [eexists; eexists; vm_compute; reflexivity|vm_compute; reflexivity].
Qed.

Lemma lem_C23_bulk_list_refuted : exists ast items D U v s rest,
  let ds := schema_decls ast in
  dart_ready ast = true /\ dart_items ast false items /\ dart_codecs_ok ast items = true /\ dlawful D U /\ rd_bulk D = true /\
  dtyped U ds (top_names items) 0 v (TyOther "All") = true /\
  d_rd s = dwire D U ds false v (TyOther "All") ++ rest /\
  exists left, left <> rest /\ dart_call D items 20 "AllIntoBuffers" "skip" [dreader; dint 1] s = DDone dnull (set_drd left s).
Proof.
  exists c23_ast, c23_items, (le_dart true), le_support, (vrec "All" [("l", vbox "Vec" 2 [c23_pair 1; c23_pair 2])]),
    (set_drd (zs [2; 0; 0; 0; 0; 0; 0; 0; 1; 0; 0; 0; 1; 7; 2; 0; 0; 0; 1; 7; 9]%Z) c21_start), (zs [9]%Z).
  split; [vm_compute; reflexivity|].
  split; [apply dart_items_tree; vm_compute; reflexivity|].
  split; [vm_compute; reflexivity|].
  split; [apply le_dlawful|].
  split; [reflexivity|].
  split; [vm_compute; reflexivity|].
  split; [vm_compute; reflexivity|].
  exists (zs [0; 0; 0; 1; 7; 9]%Z).
  split; [discriminate|vm_compute; reflexivity].
Qed.

Lemma lem_C24_same_bytes : forall ast models rust_rpc dart_rpc rust_file items R V D U cd v m fuel dfuel,
  let rds := rust_decls ast true rust_rpc in
  let ds := schema_decls ast in
  rust_ready ast = true -> file_items ast models true rust_rpc rust_file -> codecs_ok rds = true -> codecs_distinct rds = true ->
  dart_ready ast = true -> dart_items ast dart_rpc items -> dart_codecs_ok ast items = true ->
  lawful R -> dlawful D U -> agree R D U ->
  declared ds m = true -> typed R rds v (TyOther m) = true -> dtyped U ds (top_names items) cd v (TyOther m) = true ->
  portable ds v (TyOther m) = true -> depth v <= fuel -> 3 * depth v + 3 * cd + 3 <= dfuel ->
  exists bs,
    (forall q, write_value R V rust_file fuel v q = Done RustSem.ok (set_wr (s_wr q ++ bs) q)) /\
    (forall P s w, rep U ds P (d_heap s) w v (TyOther m) ->
      dart_call D items dfuel (m ++ "IntoBuffers") "write" [dwriter; w] s = DDone dnull (set_dwr (d_wr s ++ bs) s)) /\
    (forall q rest, read_value R V rust_file fuel (RustTree.ty0 m) (set_rd (bs ++ rest) q) = Done v (set_rd rest q)) /\
    (forall s rest, exists w h',
      dart_call D items dfuel (m ++ "IntoBuffers") "read" [dreader] (set_drd (bs ++ rest) s) = DDone w (set_heap h' (set_drd rest s)) /\
      changes (d_heap s) h' [] /\ rep U ds (fresh (d_heap s) h') h' w v (TyOther m)).
Proof.
  intros ast models rust_rpc dart_rpc rust_file items R V D U cd v m fuel dfuel rds ds RR RF RO RX DR DF DO L DL AG DC T DT PT FU DFU.
  destruct (dart_section ast dart_rpc items DR DF DO) as (FI & N & LB & OK).
  fold ds in FI, OK.
  destruct (lem_C21_round_trip ast dart_rpc items D U cd v m dfuel DR DF DO DL DC DT DFU) as [A B].
  fold ds in A, B.
  pose proof (wire_agrees_upto R D U items ds (if rust_rpc then RustCodec.args_decls (find_fn_nodes ast) else []) cd OK AG (depth v) v (TyOther m) (le_n _) DT PT) as W.
  exists (wire R rds v).
  change (ds ++ (if rust_rpc then RustCodec.args_decls (find_fn_nodes ast) else [])) with rds in W.
  pose proof (file_impls ast _ _ _ rust_file RR RF) as I.
  fold rds in I.
  pose proof RO as RO'.
  unfold codecs_ok in RO'.
  apply andb_true_iff in RO' as [RO1 RO2].
  split; [|split; [|split]].
  - intros q.
  exact (write_values R V rust_file rds I RO1 RO2 fuel v (TyOther m) T FU q).
  - rewrite W.
  exact A.
  - intros q rest.
  exact (read_values R V rust_file rds I RO1 L RO2 RX fuel v (TyOther m) T FU q rest).
  - rewrite W.
  exact B.
Qed.

Lemma lem_C24_integers : forall U ds P h w p k sg z,
  prim_ok U (TyInteger p k sg) z = true -> rep U ds P h w (vnum p z) (TyInteger p k sg) ->
  exists z', w = dint z' /\ (z' mod 2 ^ (8 * Z.of_nat k) = z mod 2 ^ (8 * Z.of_nat k))%Z /\
    (- 2 ^ (8 * Z.of_nat k - 1) <= z' < 2 ^ (8 * Z.of_nat k - 1))%Z /\
    ((z < 2 ^ (8 * Z.of_nat k - 1))%Z -> z' = z) /\ ((2 ^ (8 * Z.of_nat k - 1) <= z)%Z -> (z' < 0)%Z).
Proof.
  intros U ds P h w p k sg z OK R.
  cbn [rep dart_prim dart_num] in R.
  exists (signed k z).
  split; [exact R|].
  cbn [prim_ok] in OK.
  rewrite !andb_true_iff in OK.
  destruct OK as [[I S] G].
  apply Nat.eqb_eq in S.
  subst k.
  split; [apply signed_cong, integer_size, I|].
  assert (B : (- 2 ^ (8 * Z.of_nat (prim_size p) - 1) <= z < 2 ^ (8 * Z.of_nat (prim_size p)))%Z /\ (2 ^ (8 * Z.of_nat (prim_size p)) = 2 * 2 ^ (8 * Z.of_nat (prim_size p) - 1))%Z).
  { split.
  - unfold is_integer in I.
  cbn [existsb] in I.
  repeat (apply orb_true_iff in I; destruct I as [I|I]; [apply String.eqb_eq in I; subst p;
        match goal with |- context [prim_size ?q] =>
          let a := eval vm_compute in (2 ^ (8 * Z.of_nat (prim_size q)))%Z in change (2 ^ (8 * Z.of_nat (prim_size q)))%Z with a;
          let b := eval vm_compute in (2 ^ (8 * Z.of_nat (prim_size q) - 1))%Z in change (2 ^ (8 * Z.of_nat (prim_size q) - 1))%Z with b end;
        unfold in_range in G; cbn [String.eqb Ascii.eqb Bool.eqb orb] in G;
        change (2 ^ 7)%Z with 128%Z in *; change (2 ^ 8)%Z with 256%Z in *;
        change (2 ^ 31)%Z with 2147483648%Z in *; change (2 ^ 32)%Z with 4294967296%Z in *;
        change (2 ^ 63)%Z with 9223372036854775808%Z in *; change (2 ^ 64)%Z with 18446744073709551616%Z in *; lia|]).
  discriminate.
  - pose proof (prim_size_pos p).
  rewrite <- Z.pow_succ_r by lia.
  f_equal.
  lia.
  }
  destruct B as [B E].
  unfold signed.
  rewrite E in *.
  set (b := (2 ^ (8 * Z.of_nat (prim_size p) - 1))%Z) in *.
  clearbody b.
  clear - B.
  destruct (Z.ltb_spec z b); lia.
Qed.

(** [Rust and Dart write the same bytes] for the value [v] of the type [m]. *)
Definition same_bytes (R : runtime) V rust_file (D : druntime) (U : support) ds items (v : val) (m : string) : Prop :=
  exists bs, (forall q, write_value R V rust_file 9 v q = Done RustSem.ok (set_wr (s_wr q ++ bs) q)) /\
    (forall P s w, rep U ds P (d_heap s) w v (TyOther m) ->
      dart_call D items 30 (m ++ "IntoBuffers") "write" [dwriter; w] s = DDone dnull (set_dwr (d_wr s ++ bs) s)).

Lemma same_bytes_wire ast R V rust_file D U cd items v m :
  let rds := rust_decls ast true false in let ds := schema_decls ast in
  rust_ready ast = true -> file_items ast true true false rust_file -> codecs_ok rds = true ->
  dart_ready ast = true -> dart_items ast false items -> dart_codecs_ok ast items = true -> dlawful D U ->
  declared ds m = true -> typed R rds v (TyOther m) = true -> dtyped U ds (top_names items) cd v (TyOther m) = true -> depth v <= 8 -> cd <= 1 ->
  same_bytes R V rust_file D U ds items v m -> wire R rds v = dwire D U ds false v (TyOther m).
Proof.
  intros rds ds RR RF RO DR DF DO DL DC T DT L1 L2 (bs & A & B).
  pose proof (file_impls ast _ _ _ rust_file RR RF) as I.
  fold rds in I.
  pose proof RO as RO'.
  unfold codecs_ok in RO'.
  apply andb_true_iff in RO' as [RO1 RO2].
  pose proof (write_values R V rust_file rds I RO1 RO2 9 v (TyOther m) T ltac:(lia) c17_state) as W.
  unfold write_value in A.
  rewrite A in W.
  injection W as W.
  cbn in W.
  destruct (lem_C21_round_trip ast false items D U cd v m 30 DR DF DO DL DC DT ltac:(lia)) as [C E].
  destruct (E c21_start []) as (w & h & _ & _ & R1).
  pose proof (C _ (set_heap h c21_start) w R1) as X.
  rewrite (B _ (set_heap h c21_start) w R1) in X.
  injection X as X.
  exact (eq_trans (eq_sym W) X).
Qed.

Definition c24_schema : string := "struct A { l: Vec<u8> } struct B { l: Vec<i32> } struct C { c: char }".

Definition c24_ast : list ast_node := parsed c24_schema.

Definition c24_rust : list RustSyntax.item := rust_tree c24_ast true true false.

Definition c24_items : list ditem := dart_tree c24_ast true true false.

Definition c24_value (n p : string) : val := vrec n [("l", vbox "Vec" 1 [vnum p 1])].

Lemma lem_C24_number_lists_refuted : exists ast rust_file items va vb,
  rust_ready ast = true /\ file_items ast true true false rust_file /\ dart_ready ast = true /\ dart_items ast false items /\
  forall R V D U, lawful R -> dlawful D U -> agree R D U -> su_len U 1 = true -> rt_head_ok R "Vec" 1 = true -> rt_slots R "Vec" 1 = [0] ->
    let ds := schema_decls ast in
    typed R (rust_decls ast true false) va (TyOther "A") = true /\ dtyped U ds (top_names items) 0 va (TyOther "A") = true /\
    typed R (rust_decls ast true false) vb (TyOther "B") = true /\ dtyped U ds (top_names items) 0 vb (TyOther "B") = true /\
    (rt_put R "u8" 1 <> rt_put R "i32" 1 -> ~ (same_bytes R V rust_file D U ds items va "A" /\ same_bytes R V rust_file D U ds items vb "B")).
Proof.
  exists c24_ast, c24_rust, c24_items, (c24_value "A" "u8"), (c24_value "B" "i32").
  assert (H1 : rust_ready c24_ast = true) by (vm_compute; reflexivity).
  assert (H2 : file_items c24_ast true true false c24_rust) by (eexists; split; vm_compute; reflexivity).
  assert (H3 : dart_ready c24_ast = true) by (vm_compute; reflexivity).
  assert (H4 : dart_items c24_ast false c24_items) by (apply dart_items_tree; vm_compute; reflexivity).
  split; [exact H1|].
  split; [exact H2|].
  split; [exact H3|].
  split; [exact H4|].
  intros R V D U L DL AG SL HO RS ds.
  assert (EA : exists s, decl_of "A" (schema_decls c24_ast) = Some (DStruct s) /\ sn_fields s = [mk_struct_field 0 "l" (TyGeneric "Vec" [TyInteger "u8" 1 false])]) by (eexists; split; vm_compute; reflexivity).
  assert (EB : exists s, decl_of "B" (schema_decls c24_ast) = Some (DStruct s) /\ sn_fields s = [mk_struct_field 0 "l" (TyGeneric "Vec" [TyInteger "i32" 4 true])]) by (eexists; split; vm_compute; reflexivity).
  destruct EA as (sa & EA & FA), EB as (sb & EB & FB).
  assert (RS' : rust_decls c24_ast true false = schema_decls c24_ast) by (unfold rust_decls; apply app_nil_r).
  assert (TA : typed R (rust_decls c24_ast true false) (c24_value "A" "u8") (TyOther "A") = true).
  { rewrite RS'.
  unfold c24_value.
  cbn [typed].
  rewrite EA, FA.
  cbn [all2 sf_name sf_type typed].
  rewrite HO, RS.
  reflexivity.
  }
  assert (TB : typed R (rust_decls c24_ast true false) (c24_value "B" "i32") (TyOther "B") = true).
  { rewrite RS'.
  unfold c24_value.
  cbn [typed].
  rewrite EB, FB.
  cbn [all2 sf_name sf_type typed].
  rewrite HO, RS.
  reflexivity.
  }
  assert (DA : dtyped U ds (top_names c24_items) 0 (c24_value "A" "u8") (TyOther "A") = true).
  { unfold c24_value.
  cbn [dtyped].
  unfold ds.
  rewrite EA, FA.
  cbn [all2 sf_name sf_type dtyped List.length].
  rewrite SL.
  reflexivity.
  }
  assert (DB : dtyped U ds (top_names c24_items) 0 (c24_value "B" "i32") (TyOther "B") = true).
  { unfold c24_value.
  cbn [dtyped].
  unfold ds.
  rewrite EB, FB.
  cbn [all2 sf_name sf_type dtyped List.length].
  rewrite SL.
  reflexivity.
  }
  split; [exact TA|].
  split; [exact DA|].
  split; [exact TB|].
  split; [exact DB|].
  intros NE [SA SB].
  assert (LC : 0 <= 1) by lia.
  assert (O1 : codecs_ok (rust_decls c24_ast true false) = true) by (vm_compute; reflexivity).
  assert (O2 : dart_codecs_ok c24_ast c24_items = true) by (vm_compute; reflexivity).
  assert (D1 : declared (schema_decls c24_ast) "A" = true) by (vm_compute; reflexivity).
  assert (D2 : declared (schema_decls c24_ast) "B" = true) by (vm_compute; reflexivity).
  assert (LD : forall n p, depth (c24_value n p) <= 8) by (intros; apply Nat.leb_le; reflexivity).
  pose proof (same_bytes_wire c24_ast R V c24_rust D U 0 c24_items (c24_value "A" "u8") "A" H1 H2 O1 H3 H4 O2 DL D1 TA DA (LD _ _) LC SA) as WA.
  pose proof (same_bytes_wire c24_ast R V c24_rust D U 0 c24_items (c24_value "B" "i32") "B" H1 H2 O1 H3 H4 O2 DL D2 TB DB (LD _ _) LC SB) as WB.
  rewrite RS' in WA, WB.
  unfold c24_value in WA, WB.
  cbn [wire flat_map dwire] in WA, WB.
  unfold fields_of in WA, WB.
  rewrite EA, FA in WA.
  rewrite EB, FB in WB.
  cbn [map field_slot cat2 snd sf_type dwire flat_map List.length] in WA, WB.
  rewrite !app_nil_r in WA, WB.
  rewrite <- (ag_len R D U AG 1 SL) in WA, WB.
  change (N.of_nat 1) with 1%N in WA, WB.
  apply app_inv_head in WA, WB.
  apply NE.
  rewrite WA, WB.
  reflexivity.
Qed.

Lemma lem_C24_char_refuted : exists ast rust_file items v,
  rust_ready ast = true /\ file_items ast true true false rust_file /\ dart_ready ast = true /\ dart_items ast false items /\
  forall R V D U, lawful R -> dlawful D U -> agree R D U ->
    let ds := schema_decls ast in
    typed R (rust_decls ast true false) v (TyOther "C") = true /\ dtyped U ds (top_names items) 0 v (TyOther "C") = true /\
    (rt_put R "char" 97 <> rt_put R "u8" 97 -> ~ same_bytes R V rust_file D U ds items v "C").
Proof.
  exists c24_ast, c24_rust, c24_items, (vrec "C" [("c", vnum "char" 97)]).
  assert (H1 : rust_ready c24_ast = true) by (vm_compute; reflexivity).
  assert (H2 : file_items c24_ast true true false c24_rust) by (eexists; split; vm_compute; reflexivity).
  assert (H3 : dart_ready c24_ast = true) by (vm_compute; reflexivity).
  assert (H4 : dart_items c24_ast false c24_items) by (apply dart_items_tree; vm_compute; reflexivity).
  split; [exact H1|].
  split; [exact H2|].
  split; [exact H3|].
  split; [exact H4|].
  intros R V D U L DL AG ds.
  assert (EA : exists s, decl_of "C" (schema_decls c24_ast) = Some (DStruct s) /\ sn_fields s = [mk_struct_field 0 "c" (TyChar "char")]) by (eexists; split; vm_compute; reflexivity).
  destruct EA as (sa & EA & FA).
  assert (RS' : rust_decls c24_ast true false = schema_decls c24_ast) by (unfold rust_decls; apply app_nil_r).
  assert (TA : typed R (rust_decls c24_ast true false) (vrec "C" [("c", vnum "char" 97)]) (TyOther "C") = true).
  { rewrite RS'.
  cbn [typed].
  rewrite EA, FA.
  reflexivity.
  }
  assert (DA : dtyped U ds (top_names c24_items) 0 (vrec "C" [("c", vnum "char" 97)]) (TyOther "C") = true).
  { cbn [dtyped].
  unfold ds.
  rewrite EA, FA.
  reflexivity.
  }
  split; [exact TA|].
  split; [exact DA|].
  intros NE SA.
  assert (LC : 0 <= 1) by lia.
  assert (O1 : codecs_ok (rust_decls c24_ast true false) = true) by (vm_compute; reflexivity).
  assert (O2 : dart_codecs_ok c24_ast c24_items = true) by (vm_compute; reflexivity).
  assert (D1 : declared (schema_decls c24_ast) "C" = true) by (vm_compute; reflexivity).
  assert (LD : depth (vrec "C" [("c", vnum "char" 97)]) <= 8) by (apply Nat.leb_le; reflexivity).
  pose proof (same_bytes_wire c24_ast R V c24_rust D U 0 c24_items (vrec "C" [("c", vnum "char" 97)]) "C" H1 H2 O1 H3 H4 O2 DL D1 TA DA LD LC SA) as WA.
  rewrite RS' in WA.
  cbn [wire flat_map dwire] in WA.
  unfold fields_of in WA.
  rewrite EA, FA in WA.
  cbn [map field_slot cat2 snd sf_type dwire] in WA.
  rewrite !app_nil_r in WA.
  apply NE.
  rewrite WA.
  rewrite (ag_int R D U AG "u8" 97 eq_refl eq_refl).
  reflexivity.
Qed.
