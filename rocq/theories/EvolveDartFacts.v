(** Lemmas behind the theorems of PropertiesEvolveDart.v. *)

(** Property theorems about two versions of a schema in Dart, and across the languages: C54.  After each theorem, a
    concrete case that meets its hypotheses, and its axioms. *)
Require Import Coq.Strings.String Coq.Strings.Ascii.
Require Import Coq.NArith.NArith Coq.ZArith.ZArith Coq.Lists.List Coq.Bool.Bool Coq.Arith.PeanoNat.
Require Import Coq.micromega.Lia.
Require Import Verif.Base Verif.Ast Verif.Lexer Verif.Parser Verif.CaseConv Verif.Code Verif.NumText Verif.RustGen Verif.RustTree Verif.RustFile Verif.RustWf Verif.RustSem Verif.Wire Verif.RustCodec Verif.CodecFacts.
Require Import Verif.DartSyntax Verif.DartGen Verif.DartTree Verif.DartFile Verif.DartWf Verif.DartSem Verif.DartWire Verif.DartRun Verif.DartShape Verif.DartCodec Verif.DartAgree Verif.DartFacts.
Require Import Verif.EvolveSpec Verif.EvolveFacts.
Require Verif.EvolveRust Verif.EvolveDart.
Import ListNotations.
Local Open Scope string_scope.
Local Open Scope list_scope.

(** A generated Dart file that compiles, whose enums have cases with names of their own. *)
Definition enums_inhabited (ds : list decl) : bool :=
  forallb (fun d => match d with Wire.DEnum e => negb (Nat.eqb (List.length (en_items e)) 0) | DStruct _ => true end) ds.

Record dart_version (ast : list ast_node) (rpc : bool) (items : list ditem) : Prop := mk_dart_version
  { dv_ready : dart_ready ast = true;
    dv_items : dart_items ast rpc items;
    dv_ok : dart_codecs_ok ast items = true;
    dv_named : cases_named (schema_decls ast) = true;
    dv_inhabited : enums_inhabited (schema_decls ast) = true }.

(** [read] and [write] of the codecs of type [m]. *)
Definition dart_reads (D : druntime) (U : support) (items : list ditem) (ds : list decl) (fuel : nat) (m : string) (v : val) (bs : bytes) : Prop :=
  forall s rest, exists w h',
    dart_call D items fuel (m ++ "IntoBuffers") "read" [dreader] (set_drd (bs ++ rest) s) = DDone w (set_heap h' (set_drd rest s)) /\
    changes (d_heap s) h' [] /\ rep U ds (fresh (d_heap s) h') h' w v (TyOther m).

Definition dart_writes (D : druntime) (U : support) (items : list ditem) (ds : list decl) (fuel : nat) (m : string) (v : val) (bs : bytes) : Prop :=
  forall P s w, rep U ds P (d_heap s) w v (TyOther m) ->
    dart_call D items fuel (m ++ "IntoBuffers") "write" [dwriter; w] s = DDone dnull (set_dwr (d_wr s ++ bs) s).

Definition dart_throws (D : druntime) (items : list ditem) (ds : list decl) (fuel : nat) (m : string) (bs : bytes) : Prop :=
  forall s rest,
    dart_call D items fuel (m ++ "IntoBuffers") "read" [dreader] (set_drd (bs ++ rest) s) = DThrows "StateError" /\
    (forall w fp, shaped ds (top_names items) (d_heap s) w (TyOther m) fp -> NoDup fp ->
      dart_call D items fuel (m ++ "EmplaceToBuffers") "read" [dreader; w] (set_drd (bs ++ rest) s) = DThrows "StateError").

Lemma grown_settled old new t : grown old new t ->
  (forall n, In n (flat_map mentions (flat_map decl_types old)) -> decl_of n old = None -> decl_of n new = None) /\ EvolveDart.settled old new t.
Proof.
  intros [_ F].
  split; intros n I; apply F, in_or_app; [now right|now left].
Qed.

Lemma inhabited ds : enums_inhabited ds = true -> forall e, In (Wire.DEnum e) ds -> en_items e <> [].
Proof.
  unfold enums_inhabited.
  rewrite forallb_forall.
  intros H e I Z.
  specialize (H _ I).
  cbv beta iota in H.
  now rewrite Z in H.
Qed.

Lemma lem_C54_dart_older_data : forall a b rpc rpc' items items' D U cd v m fuel,
  let old := schema_decls a in
  let new := schema_decls b in
  dart_version a rpc items -> dart_version b rpc' items' -> dlawful D U -> grown old new (TyOther m) ->
  declared old m = true -> dtyped U old (top_names items) cd v (TyOther m) = true -> dtyped U new (top_names items') cd v (TyOther m) = true ->
  3 * depth v + 3 * cd + 3 <= fuel ->
  exists bs,
    dart_writes D U items old fuel m v bs /\ dart_writes D U items' new fuel m v bs /\
    dart_reads D U items old fuel m v bs /\ dart_reads D U items' new fuel m v bs.
Proof.
  intros a b rpc rpc' items items' D U cd v m fuel old new [RD F O NM IH] [RD' F' O' NM' _] L G DC T T' FU.
  destruct (lem_C21_round_trip a rpc items D U cd v m fuel RD F O L DC T FU) as [A B].
  fold old in A, B.
  assert (DC' : declared new m = true).
  { unfold declared in *.
  destruct (decl_of m old) as [d|] eqn:E; [|discriminate DC].
  destruct (grown_kept _ _ _ G m d E) as (d' & -> & _).
  reflexivity.
  }
  destruct (lem_C21_round_trip b rpc' items' D U cd v m fuel RD' F' O' L DC' T' FU) as [A' B'].
  fold new in A', B'.
  destruct (grown_settled _ _ _ G) as [FG S].
  destruct (dart_section a rpc items RD F O) as (_ & _ & _ & OK).
  destruct (dart_section b rpc' items' RD' F' O') as (_ & _ & _ & OK').
  pose proof (EvolveDart.same_bytes D U items items' old new cd OK OK' (grown_kept _ _ _ G) FG NM' (depth v) v (TyOther m) false (le_n _) S T T') as W.
  exists (dwire D U old false v (TyOther m)).
  rewrite W in A', B'.
  repeat split; assumption.
Qed.

Definition c54_old_dart : list ditem := Eval vm_compute in dart_tree (parsed c54_old) true true false.

Definition c54_new_dart : list ditem := Eval vm_compute in dart_tree (parsed c54_new) true true false.

Lemma c54_old_dart_version : dart_version (parsed c54_old) false c54_old_dart.
Proof.
  constructor; [vm_compute; reflexivity|change c54_old_dart with (dart_tree (parsed c54_old) true true false); apply dart_items_tree; vm_compute; reflexivity| | |]; vm_compute; reflexivity.
Qed.

Lemma c54_new_dart_version : dart_version (parsed c54_new) false c54_new_dart.
Proof.
  constructor; [vm_compute; reflexivity|change c54_new_dart with (dart_tree (parsed c54_new) true true false); apply dart_items_tree; vm_compute; reflexivity| | |]; vm_compute; reflexivity.
Qed.

Definition c54_plain : val := c54_scene [vcase "Shape" "Dot"; vcaset "Shape" "Round" [c54_point 1 2; vnum "u32" 3]] (vcase "Shape" "Dot").

Definition c54_mixed : val := c54_scene [vcase "Shape" "Dot"; c54_named] (vcase "Shape" "Dot").

(** The bytes of the later version, as the earlier readers see them. *)
Lemma newer_bytes a b rpc rpc' items items' D U cd v m fuel :
  dart_version a rpc items -> dart_version b rpc' items' -> dlawful D U -> grown (schema_decls a) (schema_decls b) (TyOther m) ->
  incl (top_names items) (top_names items') ->
  declared (schema_decls a) m = true -> dtyped U (schema_decls b) (top_names items') cd v (TyOther m) = true -> 3 * depth v + 3 * cd + 3 <= fuel ->
  let bs := dwire D U (schema_decls b) false v (TyOther m) in
    dart_writes D U items' (schema_decls b) fuel m v bs /\
    if dtyped U (schema_decls a) (top_names items) cd v (TyOther m) then dart_reads D U items (schema_decls a) fuel m v bs else dart_throws D items (schema_decls a) fuel m bs.
Proof.
  set (old := schema_decls a).
  set (new := schema_decls b).
  intros [RD F O NM IH] [RD' F' O' NM' IH'] L G IN DC T' FU bs.
  assert (DC' : declared new m = true).
  { unfold declared in *.
  destruct (decl_of m old) as [d|] eqn:E; [|discriminate DC].
  destruct (grown_kept _ _ _ G m d E) as (d' & -> & _).
  reflexivity.
  }
  destruct (lem_C21_round_trip b rpc' items' D U cd v m fuel RD' F' O' L DC' T' FU) as [A' _].
  fold new in A'.
  split; [exact A'|].
  destruct (grown_settled _ _ _ G) as [FG S].
  destruct (dart_section a rpc items RD F O) as (FI & N & LB & OK).
  destruct (dart_section b rpc' items' RD' F' O') as (_ & _ & _ & OK').
  destruct (dtyped U old (top_names items) cd v (TyOther m)) eqn:T.
  - destruct (lem_C21_round_trip a rpc items D U cd v m fuel RD F O L DC T FU) as [_ B].
  fold old in B.
  unfold bs.
  rewrite (EvolveDart.same_bytes D U items items' old new cd OK OK' (grown_kept _ _ _ G) FG NM' (depth v) v (TyOther m) false (le_n _) S T T').
  exact B.
  - destruct (EvolveDart.newer D U items items' old new cd FI N LB OK OK' L (grown_kept _ _ _ G) FG NM' IN (inhabited _ IH) (depth v) v (TyOther m) fuel (le_n _) S T' T FU) as (_ & NS & _ & R).
  intros s rest.
  specialize (R (set_drd (bs ++ rest) s) rest eq_refl) as [R1 R2].
  split; [exact R1|].
  intros w fp SH ND.
  pose proof (R2 w fp SH ND) as X.
  cbn [DartTree.is_string] in NS.
  cbn [emplace_obj DartTree.is_string generate_class_prefix] in X.
  rewrite NS in X.
  exact X.
Qed.

Lemma lem_C54_dart_newer_data : forall a b rpc rpc' items items' D U cd v m fuel,
  let old := schema_decls a in
  let new := schema_decls b in
  dart_version a rpc items -> dart_version b rpc' items' -> dlawful D U -> grown old new (TyOther m) ->
  incl (top_names items) (top_names items') ->
  declared old m = true -> dtyped U new (top_names items') cd v (TyOther m) = true -> 3 * depth v + 3 * cd + 3 <= fuel ->
  exists bs,
    dart_writes D U items' new fuel m v bs /\
    if dtyped U old (top_names items) cd v (TyOther m) then dart_reads D U items old fuel m v bs else dart_throws D items old fuel m bs.
Proof.
  intros a b rpc rpc' items items' D U cd v m fuel old new V V' L G IN DC T' FU.
  eexists.
  exact (newer_bytes a b rpc rpc' items items' D U cd v m fuel V V' L G IN DC T' FU).
Qed.

Lemma incl_by (l m : list string) : forallb (fun x => existsb (String.eqb x) m) l = true -> incl l m.
Proof.
  rewrite forallb_forall.
  intros H x I.
  specialize (H x I).
  apply existsb_exists in H as (y & J & E).
  apply String.eqb_eq in E.
  now rewrite E.
Qed.

Lemma lem_C54_across : forall a b models models' rpc rpc' drpc drpc' items items' ditems ditems' R V V' D U cd v m fuel dfuel,
  let rold := rust_decls a true rpc in
  let rnew := rust_decls b true rpc' in
  let old := schema_decls a in
  let new := schema_decls b in
  rust_version a models true rpc items -> rust_version b models' true rpc' items' ->
  dart_version a drpc ditems -> dart_version b drpc' ditems' ->
  lawful R -> dlawful D U -> agree R D U -> grown rold rnew (TyOther m) -> grown old new (TyOther m) -> incl (top_names ditems) (top_names ditems') ->
  declared old m = true -> typed R rnew v (TyOther m) = true -> dtyped U new (top_names ditems') cd v (TyOther m) = true -> portable new v (TyOther m) = true ->
  depth v <= fuel -> 3 * depth v + 3 * cd + 3 <= dfuel ->
  exists bs,
    (forall q, write_value R V' items' fuel v q = Done RustSem.ok (set_wr (s_wr q ++ bs) q)) /\
    dart_writes D U ditems' new dfuel m v bs /\
    (if dtyped U old (top_names ditems) cd v (TyOther m) then dart_reads D U ditems old dfuel m v bs else dart_throws D ditems old dfuel m bs) /\
    (forall q rest, read_value R V items fuel (RustTree.ty0 m) (set_rd (bs ++ rest) q) =
      if typed R rold v (TyOther m) then Done v (set_rd rest q) else Panics).
Proof.
  intros a b models models' rpc rpc' drpc drpc' items items' ditems ditems' R V V' D U cd v m fuel dfuel rold rnew old new RV RV' DV DV' L DL AG RG DG IN DC T DT PT FU DFU.
  destruct (newer_bytes a b drpc drpc' ditems ditems' D U cd v m dfuel DV DV' DL DG IN DC DT DFU) as [A B].
  fold old new in A, B.
  destruct (lem_C54_rust_newer_data a b models models' true true rpc rpc' items items' R V V' v (TyOther m) fuel RV RV' L RG T FU) as (bs & W & RR).
  destruct DV' as [RD' F' O' NM' IH'].
  destruct (dart_section b drpc' ditems' RD' F' O') as (_ & _ & _ & OK').
  pose proof (wire_agrees_upto R D U ditems' new (if rpc' then RustCodec.args_decls (find_fn_nodes b) else []) cd OK' AG (depth v) v (TyOther m) (le_n _) DT PT) as E.
  change (new ++ (if rpc' then RustCodec.args_decls (find_fn_nodes b) else [])) with rnew in E.
  assert (BS : bs = dwire D U new false v (TyOther m)).
  { destruct RV' as [RY RF RO RX RN].
  pose proof (file_impls b _ _ _ items' RY RF) as I.
  pose proof RO as RO'.
  unfold codecs_ok in RO'.
  apply andb_true_iff in RO' as [RO1 RO2].
  pose proof (write_values R V' items' rnew I RO1 RO2 fuel v (TyOther m) T FU c17_state) as X.
  pose proof (W c17_state) as W0.
  unfold write_value in W0.
  rewrite W0 in X.
  assert (Y : s_wr (set_wr (s_wr c17_state ++ bs) c17_state) = s_wr (set_wr (s_wr c17_state ++ wire R rnew v) c17_state)) by congruence.
  cbn in Y.
  now rewrite <- E.
  }
  exists bs.
  rewrite BS in *.
  split; [exact W|].
  split; [exact A|].
  split; [exact B|exact RR].
Qed.
