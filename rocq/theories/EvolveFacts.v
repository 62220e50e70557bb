(** Lemmas behind the theorems of PropertiesEvolve.v. *)

(** Property theorems about two versions of a schema: C54.  Files generated from the earlier and the later version are
    read back and run against each other's bytes.  After each theorem, a concrete case that meets its hypotheses, and its
    axioms. *)
Require Import Coq.Strings.String Coq.Strings.Ascii.
Require Import Coq.NArith.NArith Coq.ZArith.ZArith Coq.Lists.List Coq.Bool.Bool Coq.Arith.PeanoNat.
Require Import Coq.micromega.Lia.
Require Import Verif.Base Verif.Ast Verif.Lexer Verif.Parser Verif.Code Verif.RustSyntax Verif.RustGen Verif.RustTree Verif.RustFile Verif.RustWf Verif.RustSem Verif.Wire Verif.RustCodec Verif.EvolveSpec Verif.EvolveRust.
Require Verif.CodecFacts.
Import CodecFacts(file_items, codecs_ok, codecs_distinct, cases_named, parsed, file_impls, c17_service, c17_state, zs).
Import ListNotations.
Local Open Scope string_scope.
Local Open Scope list_scope.

(** A generated Rust file that compiles and whose cases have names and positions of their own. *)
Record rust_version (ast : list ast_node) (models buffers rpc : bool) (items : list item) : Prop := mk_rust_version
  { rv_ready : rust_ready ast = true;
    rv_file : file_items ast models buffers rpc items;
    rv_ok : codecs_ok (rust_decls ast buffers rpc) = true;
    rv_distinct : codecs_distinct (rust_decls ast buffers rpc) = true;
    rv_named : cases_named (rust_decls ast buffers rpc) = true }.

Lemma apart_none old new t : grown old new t ->
  (forall n d, (fun _ : string => false) n = false -> decl_of n old = Some d -> exists d', decl_of n new = Some d' /\ grown_decl d d') /\
  (forall n, In n (flat_map mentions (flat_map decl_types old)) -> (fun _ : string => false) n = false /\ (decl_of n old = None -> decl_of n new = None)) /\
  known old new (fun _ => false) t.
Proof.
  intros [K F].
  split; [|split].
  - intros n d _.
  exact (K n d).
  - intros n I.
  split; [reflexivity|].
  apply F.
  apply in_or_app.
  now right.
  - intros n I.
  split; [reflexivity|].
  apply F.
  apply in_or_app.
  now left.
Qed.

Lemma lem_C54_rust_older_data : forall a b models models' buffers buffers' rpc rpc' items items' R V V' v t fuel,
  let old := rust_decls a buffers rpc in
  let new := rust_decls b buffers' rpc' in
  rust_version a models buffers rpc items -> rust_version b models' buffers' rpc' items' -> lawful R ->
  grown old new t -> typed R old v t = true -> depth v <= fuel ->
  typed R new v t = true /\
  exists bs,
    (forall q, write_value R V items fuel v q = Done RustSem.ok (set_wr (s_wr q ++ bs) q)) /\
    (forall q, write_value R V' items' fuel v q = Done RustSem.ok (set_wr (s_wr q ++ bs) q)) /\
    (forall q rest, read_value R V items fuel (rty_of t) (set_rd (bs ++ rest) q) = Done v (set_rd rest q)) /\
    (forall q rest, read_value R V' items' fuel (rty_of t) (set_rd (bs ++ rest) q) = Done v (set_rd rest q)).
Proof.
  intros a b models models' buffers buffers' rpc rpc' items items' R V V' v t fuel old new [RD F O DI NM] [RD' F' O' DI' NM'] L G T DP.
  pose proof (file_impls a _ _ _ items RD F) as I.
  pose proof (file_impls b _ _ _ items' RD' F') as I'.
  fold old in I, O, DI, NM.
  fold new in I', O', DI', NM'.
  unfold codecs_ok in O, O'.
  apply andb_true_iff in O as [O FT].
  apply andb_true_iff in O' as [O' FT'].
  destruct (apart_none old new t G) as (K & FG & KN).
  destruct (later R old new (fun _ => false) K FG NM' (depth v) v t T KN (le_n _)) as [T' W].
  split; [exact T'|].
  exists (wire R old v).
  split; [|split; [|split]].
  - intros q.
  exact (write_values R V items old I O FT fuel v t T DP q).
  - intros q.
  rewrite <- W.
  exact (write_values R V' items' new I' O' FT' fuel v t T' DP q).
  - intros q rest.
  exact (read_values R V items old I O L FT DI fuel v t T DP q rest).
  - intros q rest.
  rewrite <- W.
  exact (read_values R V' items' new I' O' L FT' DI' fuel v t T' DP q rest).
Qed.

Definition c54_old : string := "struct Point { x: u8, y: u8 } enum Shape { #[3] Dot, #[7] Round(Point, u32) } struct Scene { shapes: Vec<Shape>, first: Shape, name: String }".

Definition c54_new : string := "enum Colour { #[0] Red, #[1] Blue } enum Shape { #[9] Named { at: Point, colour: Colour }, #[7] Round(Point, u32), #[3] Dot } struct Point { x: u8, y: u8 } struct Scene { shapes: Vec<Shape>, first: Shape, name: String }".

Definition c54_scene (shapes : list val) (first : val) : val :=
  vrec "Scene" [("shapes", vbox "Vec" (N.of_nat (List.length shapes)) shapes); ("first", first); ("name", vext "String" 1)].

Definition c54_point (x y : Z) : val := vrec "Point" [("x", vnum "u8" x); ("y", vnum "u8" y)].

Definition c54_named : val := vcases "Shape" "Named" [("at", c54_point 1 2); ("colour", vcase "Colour" "Blue")].

Lemma lem_C54_rust_newer_data : forall a b models models' buffers buffers' rpc rpc' items items' R V V' v t fuel,
  let old := rust_decls a buffers rpc in
  let new := rust_decls b buffers' rpc' in
  rust_version a models buffers rpc items -> rust_version b models' buffers' rpc' items' -> lawful R ->
  grown old new t -> typed R new v t = true -> depth v <= fuel ->
  exists bs,
    (forall q, write_value R V' items' fuel v q = Done RustSem.ok (set_wr (s_wr q ++ bs) q)) /\
    (forall q rest, read_value R V items fuel (rty_of t) (set_rd (bs ++ rest) q) =
      if typed R old v t then Done v (set_rd rest q) else Panics).
Proof.
  intros a b models models' buffers buffers' rpc rpc' items items' R V V' v t fuel old new [RD F O DI NM] [RD' F' O' DI' NM'] L G T DP.
  pose proof (file_impls a _ _ _ items RD F) as I.
  pose proof (file_impls b _ _ _ items' RD' F') as I'.
  fold old in I, O, DI, NM.
  fold new in I', O', DI', NM'.
  unfold codecs_ok in O, O'.
  apply andb_true_iff in O as [O FT].
  apply andb_true_iff in O' as [O' FT'].
  destruct (apart_none old new t G) as (K & FG & KN).
  exists (wire R new v).
  split.
  - intros q.
  exact (write_values R V' items' new I' O' FT' fuel v t T DP q).
  - intros q rest.
  pose proof (reads_if_values R old new (fun _ => false) K FG NM' V items I O FT DI) as X.
  specialize (X O' FT' DI' L fuel v t T KN DP q rest).
  exact X.
Qed.

Definition c54_old_decls : list decl := Eval vm_compute in rust_decls (parsed c54_old) true false.

Definition c54_new_decls : list decl := Eval vm_compute in rust_decls (parsed c54_new) true false.

Definition c54_old_items : list item := Eval vm_compute in rust_tree (parsed c54_old) true true false.

Definition c54_new_items : list item := Eval vm_compute in rust_tree (parsed c54_new) true true false.

Ltac grown_case :=
  match goal with
  | |- grown_decl (DStruct _) _ => vm_compute; reflexivity
  | |- grown_decl (DEnum _) _ =>
      cbn [grown_decl en_items]; intros i I; repeat (destruct I as [<-|I]); try contradiction;
      solve [eexists; split; [left; reflexivity|vm_compute; auto]|eexists; split; [right; left; reflexivity|vm_compute; auto]
            |eexists; split; [right; right; left; reflexivity|vm_compute; auto]]
  end.

Lemma c54_grown : grown c54_old_decls c54_new_decls (TyOther "Scene").
Proof.
  constructor.
  - intros n d H.
  apply decl_of_in in H as [I <-].
  unfold c54_old_decls in I.
  repeat (destruct I as [<-|I]); try contradiction;
      (eexists; split; [vm_compute; reflexivity|grown_case]).
  - intros n I.
  vm_compute in I.
  repeat (destruct I as [<-|I]); try contradiction; vm_compute; congruence.
Qed.

Lemma c54_old_version : rust_version (parsed c54_old) true true false c54_old_items.
Proof.
  constructor; [| exists (match rust_generate (parsed c54_old) true true false with Ok t => t | _ => "" end); split| | |]; vm_compute; reflexivity.
Qed.

Lemma c54_new_version : rust_version (parsed c54_new) true true false c54_new_items.
Proof.
  constructor; [| exists (match rust_generate (parsed c54_new) true true false with Ok t => t | _ => "" end); split| | |]; vm_compute; reflexivity.
Qed.

Lemma lem_C54_appended_fields : forall a b models models' buffers buffers' rpc rpc' items items' R V V' m s s' more fs gs fuel,
  let old := rust_decls a buffers rpc in
  let new := rust_decls b buffers' rpc' in
  rust_version a models buffers rpc items -> rust_version b models' buffers' rpc' items' -> lawful R ->
  decl_of m old = Some (DStruct s) -> decl_of m new = Some (DStruct s') ->
  map field_shape (sn_fields s') = map field_shape (sn_fields s) ++ more ->
  (forall n d, n <> m -> decl_of n old = Some d -> exists d', decl_of n new = Some d' /\ grown_decl d d') ->
  (forall n, In n (flat_map mentions (flat_map decl_types old)) -> n <> m /\ (decl_of n old = None -> decl_of n new = None)) ->
  typed R new (vrec m (fs ++ gs)) (TyOther m) = true -> List.length fs = List.length (sn_fields s) -> depth (vrec m (fs ++ gs)) <= fuel ->
  exists bs extra,
    (forall q, write_value R V' items' fuel (vrec m (fs ++ gs)) q = Done RustSem.ok (set_wr (s_wr q ++ bs ++ extra) q)) /\
    (typed R old (vrec m fs) (TyOther m) = true -> forall q, write_value R V items fuel (vrec m fs) q = Done RustSem.ok (set_wr (s_wr q ++ bs) q)) /\
    (forall q rest, read_value R V items fuel (ty0 m) (set_rd (bs ++ extra ++ rest) q) =
      if typed R old (vrec m fs) (TyOther m) then Done (vrec m fs) (set_rd (extra ++ rest) q) else Panics).
Proof.
  intros a b models models' buffers buffers' rpc rpc' items items' R V V' m s s' more fs gs fuel old new [RD F O DI NM] [RD' F' O' DI' NM'] L D D' SH K FG T LN DP.
  pose proof (file_impls a _ _ _ items RD F) as I.
  pose proof (file_impls b _ _ _ items' RD' F') as I'.
  fold old in I, O, DI, NM.
  fold new in I', O', DI', NM'.
  unfold codecs_ok in O, O'.
  apply andb_true_iff in O as [O FT].
  apply andb_true_iff in O' as [O' FT'].
  assert (K2 : forall n d, String.eqb n m = false -> decl_of n old = Some d -> exists d', decl_of n new = Some d' /\ grown_decl d d').
  { intros n d N.
  apply K.
  now apply String.eqb_neq.
  }
  assert (F2 : forall n, In n (flat_map mentions (flat_map decl_types old)) -> String.eqb n m = false /\ (decl_of n old = None -> decl_of n new = None)).
  { intros n J.
  destruct (FG n J) as [N U].
  split; [now apply String.eqb_neq|exact U].
  }
  assert (DPF : depth (vrec m fs) <= fuel).
  { cbn [depth] in *.
  rewrite map_app, list_max_app in DP.
  lia.
  }
  exists (flat_map (fun '(_, v) => wire R new v) fs), (flat_map (fun '(_, v) => wire R new v) gs).
  split; [|split].
  - intros q.
  pose proof (write_values R V' items' new I' O' FT' fuel _ _ T DP q) as W.
  unfold write_value.
  rewrite W.
  cbn [wire].
  now rewrite flat_map_app.
  - intros T2 q.
  pose proof (write_values R V items old I O FT fuel _ _ T2 DPF q) as W.
  unfold write_value.
  rewrite W.
  cbn [wire].
  do 3 f_equal.
  cbn [typed] in T2.
  rewrite D, String.eqb_refl in T2.
  cbn [andb] in T2.
  assert (PT : forall t, In t (map sf_type (sn_fields s)) -> known old new (fun n => String.eqb n m) t).
  { intros t J.
  exact (known_part old new (fun n => String.eqb n m) F2 m (DStruct s) t D J).
  }
    clear - T2 PT K2 F2 NM'.
  revert T2 PT.
  generalize (sn_fields s) as l.
  induction fs as [|[x v] fs IH]; intros [|f l] T2 PT; try discriminate; [reflexivity|].
  cbn [all2] in T2.
  apply andb_true_iff in T2 as [T1 T2].
  apply andb_true_iff in T1 as [_ T1].
  cbn [flat_map].
  destruct (later R old new (fun n => String.eqb n m) K2 F2 NM' (depth v) v _ T1 (PT _ (or_introl eq_refl)) (le_n _)) as [_ ->].
  f_equal.
  apply (IH l T2).
  intros t J.
  apply PT.
  now right.
  - intros q rest.
  pose proof (reads_prefix R old new (fun n => String.eqb n m) K2 F2 NM' V items I O FT DI O' FT' DI' L) as X.
  specialize (X fuel m s s' more fs gs D D' SH T LN DP q rest).
  cbn [wire] in X.
  rewrite flat_map_app, <- app_assoc in X.
  exact X.
Qed.

Definition c54_wide : string := "struct Point { x: u8, y: u8 } enum Shape { #[3] Dot, #[7] Round(Point, u32) } struct Scene { shapes: Vec<Shape>, first: Shape, name: String, depth: u8 }".

Definition c54_wide_decls : list decl := Eval vm_compute in rust_decls (parsed c54_wide) true false.

Definition c54_wide_items : list item := Eval vm_compute in rust_tree (parsed c54_wide) true true false.

Lemma c54_wide_version : rust_version (parsed c54_wide) true true false c54_wide_items.
Proof.
  constructor; [| exists (match rust_generate (parsed c54_wide) true true false with Ok t => t | _ => "" end); split| | |]; vm_compute; reflexivity.
Qed.

Lemma c54_beside :
  (forall n d, n <> "Scene" -> decl_of n c54_old_decls = Some d -> exists d', decl_of n c54_wide_decls = Some d' /\ grown_decl d d') /\
  (forall n, In n (flat_map mentions (flat_map decl_types c54_old_decls)) -> n <> "Scene" /\ (decl_of n c54_old_decls = None -> decl_of n c54_wide_decls = None)).
Proof.
  split.
  - intros n d N H.
  apply decl_of_in in H as [I <-].
  unfold c54_old_decls in I.
  repeat (destruct I as [<-|I]); try contradiction;
      try (exfalso; apply N; vm_compute; reflexivity); (eexists; split; [vm_compute; reflexivity|grown_case]).
  - intros n I.
  vm_compute in I.
  repeat (destruct I as [<-|I]); try contradiction; (split; [discriminate|vm_compute; congruence]).
Qed.

Definition c54_dots : list (string * val) := [("shapes", vbox "Vec" 1 [vcase "Shape" "Dot"]); ("first", vcase "Shape" "Dot"); ("name", vext "String" 1)].

(** What the conditions exclude.  Both sources generate files that compile, and the earlier reader takes the bytes of the
    later writer for another value without noticing. *)
Definition misread (a b n : string) (v w : val) : Prop :=
  exists items items' bs rest,
    rust_version (parsed a) true true false items /\ rust_version (parsed b) true true false items' /\
    typed le_runtime (rust_decls (parsed b) true false) v (TyOther n) = true /\ w <> v /\
    write_value le_runtime c17_service items' 4 v c17_state = Done RustSem.ok (set_wr bs c17_state) /\
    read_value le_runtime c17_service items 4 (ty0 n) (set_rd bs c17_state) = Done w (set_rd rest c17_state).

Lemma misread_by a b n v w bs rest :
  (rust_ready (parsed a), codecs_ok (rust_decls (parsed a) true false), codecs_distinct (rust_decls (parsed a) true false), cases_named (rust_decls (parsed a) true false),
   (rust_ready (parsed b), codecs_ok (rust_decls (parsed b) true false), codecs_distinct (rust_decls (parsed b) true false), cases_named (rust_decls (parsed b) true false)),
   typed le_runtime (rust_decls (parsed b) true false) v (TyOther n)) = (true, true, true, true, (true, true, true, true), true) ->
  (exists text text', rust_generate (parsed a) true true false = Ok text /\ rust_generate (parsed b) true true false = Ok text') ->
  w <> v ->
  write_value le_runtime c17_service (rust_tree (parsed b) true true false) 4 v c17_state = Done RustSem.ok (set_wr bs c17_state) ->
  read_value le_runtime c17_service (rust_tree (parsed a) true true false) 4 (ty0 n) (set_rd bs c17_state) = Done w (set_rd rest c17_state) ->
  misread a b n v w.
Proof.
  intros E (text & text' & G & G') N W RD.
  injection E as A1 A2 A3 A4 B1 B2 B3 B4 T.
  exists (rust_tree (parsed a) true true false), (rust_tree (parsed b) true true false), bs, rest.
  split; [constructor; try assumption; exists text; split; [assumption|now apply rust_file_generated]|].
  split; [constructor; try assumption; exists text'; split; [assumption|now apply rust_file_generated]|].
  auto.
Qed.

Ltac misread_run bs rest :=
  apply (misread_by _ _ _ _ _ bs rest);
  [vm_compute; reflexivity|eexists; eexists; split; vm_compute; reflexivity|discriminate|vm_compute; reflexivity|vm_compute; reflexivity].

Lemma lem_C54_nested_field_refuted : exists v w,
  misread "struct Point { x: u8 } struct Line { from: Point, to: Point }" "struct Point { x: u8, y: u8 } struct Line { from: Point, to: Point }" "Line" v w.
Proof.
  exists (vrec "Line" [("from", c54_point 1 2); ("to", c54_point 3 4)]).
  exists (vrec "Line" [("from", vrec "Point" [("x", vnum "u8" 1)]); ("to", vrec "Point" [("x", vnum "u8" 2)])]).
  misread_run (zs [1; 2; 3; 4]%Z) (zs [3; 4]%Z).
Qed.

Lemma lem_C54_field_order_refuted : exists v w,
  misread "struct Point { #[0] x: u8, #[1] y: u8 }" "struct Point { #[1] y: u8, #[0] x: u8 }" "Point" v w.
Proof.
  exists (vrec "Point" [("y", vnum "u8" 2); ("x", vnum "u8" 1)]), (vrec "Point" [("x", vnum "u8" 2); ("y", vnum "u8" 1)]).
  misread_run (zs [2; 1]%Z) (zs []).
Qed.

Lemma lem_C54_implicit_position_refuted : exists v w,
  misread "enum Shape { Dot, Round }" "enum Shape { Empty, Dot, Round }" "Shape" v w.
Proof.
  exists (vcase "Shape" "Dot"), (vcase "Shape" "Round").
  misread_run (zs [1; 0; 0; 0]%Z) (zs []).
Qed.

Lemma lem_C54_reused_position_refuted : exists v w,
  misread "enum Shape { #[0] Dot, #[1] Round(u8) }" "enum Shape { #[0] Dot, #[1] Square(u8) }" "Shape" v w.
Proof.
  exists (vcaset "Shape" "Square" [vnum "u8" 5]), (vcaset "Shape" "Round" [vnum "u8" 5]).
  misread_run (zs [1; 0; 0; 0; 5]%Z) (zs []).
Qed.
