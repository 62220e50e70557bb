(** Property theorems about the meaning of the generated Dart codecs: C20 (unknown tags), C21 (value codecs), C22 (in-place
    codecs), C23 (skipping), C24 (agreement with Rust).  The generated text is read back as a Dart file and that file is
    run by the interpreter of DartSem.  After each theorem, a concrete case that meets its hypotheses, and its axioms. *)
Require Import Coq.Strings.String Coq.Strings.Ascii.
Require Import Coq.NArith.NArith Coq.ZArith.ZArith Coq.Lists.List Coq.Bool.Bool Coq.Arith.PeanoNat.
Require Import Coq.micromega.Lia Coq.micromega.ZifyBool Coq.micromega.ZifyN Coq.micromega.ZifyNat.
Require Import Verif.Base Verif.Ast Verif.Lexer Verif.Parser Verif.CaseConv Verif.Code Verif.NumText Verif.RustGen Verif.RustTree Verif.RustFile Verif.RustWf Verif.RustSem Verif.Wire Verif.RustCodec Verif.CodecFacts.
Require Import Verif.DartSyntax Verif.DartGen Verif.DartTree Verif.DartFile Verif.DartWf Verif.DartSem Verif.DartWire Verif.DartRun Verif.DartShape Verif.DartCodec Verif.DartAgree.
Require Import Verif.DartFacts.
Import ListNotations.
Local Open Scope string_scope.
Local Open Scope list_scope.

(** Unknown tags: whatever follows the tag, both readers and both skip methods throw. *)
Theorem C20_dart_unknown_tag_throws : forall ast rpc items D U e z fuel s rest,
  let ds := schema_decls ast in
  dart_ready ast = true -> dart_items ast rpc items -> dart_codecs_ok ast items = true -> dlawful D U ->
  decl_of (en_id e) ds = Some (Wire.DEnum e) ->
  (- 2 ^ 31 <= z < 2 ^ 31)%Z -> (forall i, In i (en_items e) -> Z.of_N (item_pos i) <> z) ->
  d_rd s = rd_put D "Int32" z ++ rest -> 1 <= fuel ->
  dart_call D items fuel (en_id e ++ "IntoBuffers") "read" [dreader] s = DThrows "StateError" /\
  (forall target, dart_call D items fuel (en_id e ++ "EmplaceToBuffers") "read" [dreader; target] s = DThrows "StateError") /\
  (forall count, (1 <= count)%Z ->
    dart_call D items fuel (en_id e ++ "IntoBuffers") "skip" [dreader; dint count] s = DThrows "StateError" /\
    dart_call D items fuel (en_id e ++ "EmplaceToBuffers") "skip" [dreader; dint count] s = DThrows "StateError").
Proof. exact lem_C20_dart_unknown_tag_throws. Qed.
Print Assumptions C20_dart_unknown_tag_throws.
Example C20_dart_case : dart_ready c21_ast = true /\ dart_items c21_ast false c21_items /\ dart_codecs_ok c21_ast c21_items = true /\ dlawful c21_dart le_support
  /\ (exists e, decl_of "Shape" (schema_decls c21_ast) = Some (Wire.DEnum e) /\ forallb (fun i => negb (Z.eqb (Z.of_N (item_pos i)) 5)) (en_items e) = true)
  /\ dart_call c21_dart c21_items 3 "ShapeIntoBuffers" "read" [dreader] (set_drd (zs [5; 0; 0; 0; 1]%Z) c21_start) = DThrows "StateError"
  /\ dart_call c21_dart c21_items 20 "ShapeIntoBuffers" "read" [dreader] (set_drd (zs [7; 0; 0; 0; 1]%Z) c21_start) <> DThrows "StateError".
Proof.
  split; [vm_compute; reflexivity|].
  split; [apply dart_items_tree; vm_compute; reflexivity|].
  split; [vm_compute; reflexivity|].
  split; [apply le_dlawful|].
  split; [eexists; split; vm_compute; reflexivity|].
  split; [vm_compute; reflexivity|].
  vm_compute.
  discriminate.
Qed.

(** Value codecs: whatever object represents the value, the writer writes the bytes of the value, and the reader makes of
    these bytes, whatever follows, a new object that represents the value; nothing else changes. *)
Theorem C21_round_trip : forall ast rpc items D U cd v m fuel,
  let ds := schema_decls ast in
  dart_ready ast = true -> dart_items ast rpc items -> dart_codecs_ok ast items = true -> dlawful D U ->
  declared ds m = true -> dtyped U ds (top_names items) cd v (TyOther m) = true -> 3 * depth v + 3 * cd + 3 <= fuel ->
  let bs := dwire D U ds false v (TyOther m) in
  (forall P s w, rep U ds P (d_heap s) w v (TyOther m) ->
    dart_call D items fuel (m ++ "IntoBuffers") "write" [dwriter; w] s = DDone dnull (set_dwr (d_wr s ++ bs) s)) /\
  (forall s rest, exists w h',
    dart_call D items fuel (m ++ "IntoBuffers") "read" [dreader] (set_drd (bs ++ rest) s) = DDone w (set_heap h' (set_drd rest s)) /\
    changes (d_heap s) h' [] /\ rep U ds (fresh (d_heap s) h') h' w v (TyOther m)).
Proof. exact lem_C21_round_trip. Qed.
Print Assumptions C21_round_trip.

(** The bytes: of a struct those of its fields in the order of the declaration; of an enum the position of the case, then
    the payload; of a list its length and its elements. *)
Theorem C21_bytes : forall D U ds elem,
  (forall n s fs, decl_of n ds = Some (DStruct s) ->
    dwire D U ds elem (vrec n fs) (TyOther n) = cat2 (fun x f => dwire D U ds false (snd x) (sf_type f)) fs (sn_fields s)) /\
  (forall n e c i l, decl_of n ds = Some (Wire.DEnum e) -> item_of c e = Some i ->
    dwire D U ds elem (vcase n c) (TyOther n) = rd_put D "Int32" (Z.of_N (item_pos i)) /\
    (forall p ts, i = ItemTuple p c ts -> dwire D U ds elem (vcaset n c l) (TyOther n) =
       rd_put D "Int32" (Z.of_N (item_pos i)) ++ cat2 (fun x f => dwire D U ds false x (tf_type f)) l ts) /\
    (forall p gs fs, i = ItemStruct p c gs -> dwire D U ds elem (vcases n c fs) (TyOther n) =
       rd_put D "Int32" (Z.of_N (item_pos i)) ++ cat2 (fun x f => dwire D U ds false (snd x) (sf_type f)) fs gs)) /\
  (forall k l t, dwire D U ds elem (vbox "Vec" k l) (TyGeneric "Vec" [t]) = rd_len_put D (List.length l) ++ flat_map (fun v => dwire D U ds true v t) l).
Proof. exact lem_C21_bytes. Qed.
Print Assumptions C21_bytes.

(** An object represents at most one value: what the reader returns determines what was written. *)
Theorem C21_one_value : forall ast items U cd v v' t P P' h w,
  let ds := schema_decls ast in
  forallb dart_decl_ok ds = true ->
  (forall a b, su_f32 U a = true -> su_f32 U b = true -> su_widen U a = su_widen U b -> a = b) ->
  dtyped U ds (top_names items) cd v t = true -> dtyped U ds (top_names items) cd v' t = true ->
  rep U ds P h w v t -> rep U ds P' h w v' t -> v = v'.
Proof. exact lem_C21_one_value. Qed.
Print Assumptions C21_one_value.
Example C21_case : let ds := schema_decls c21_ast in
  declared ds "Shape" = true /\ dtyped le_support ds (top_names c21_items) 4 c21_shape (TyOther "Shape") = true /\
  (exists w s, dart_call c21_dart c21_items 30 "ShapeIntoBuffers" "read" [dreader] (set_drd (dwire c21_dart le_support ds false c21_shape (TyOther "Shape") ++ zs [9]%Z) c21_start) = DDone w s
     /\ d_rd s = zs [9]%Z
     /\ exists s', dart_call c21_dart c21_items 30 "ShapeIntoBuffers" "write" [dwriter; w] s = DDone dnull s'
     /\ d_wr s' = zs [9; 0; 0; 0;  255; 255; 255; 255; 2;  112; 17; 1; 0; 255;  5; 0; 0; 0; 0; 0; 0; 0;  2; 0; 0; 0; 0; 0; 0; 0;  1; 0; 0; 0; 1;  2; 0; 0; 0; 2;  253; 255; 255; 255; 255; 255; 255; 255]%Z).
Proof.
  split; [vm_compute; reflexivity|].
  split; [vm_compute; reflexivity|].
  eexists.
  eexists.
  split; [vm_compute; reflexivity|].
  split; [reflexivity|].
  eexists.
  split; vm_compute; reflexivity.
Qed.

(** In-place codecs: the same bytes from the same object. *)
Theorem C22_same_bytes : forall ast rpc items D U cd v m fuel P s w,
  let ds := schema_decls ast in
  dart_ready ast = true -> dart_items ast rpc items -> dart_codecs_ok ast items = true -> dlawful D U ->
  declared ds m = true -> dtyped U ds (top_names items) cd v (TyOther m) = true -> 2 * depth v + 3 <= fuel ->
  rep U ds P (d_heap s) w v (TyOther m) ->
  let bs := dwire D U ds false v (TyOther m) in
  dart_call D items fuel (m ++ "EmplaceToBuffers") "write" [dwriter; w] s = DDone dnull (set_dwr (d_wr s ++ bs) s) /\
  dart_call D items fuel (m ++ "EmplaceToBuffers") "write" [dwriter; w] s = dart_call D items fuel (m ++ "IntoBuffers") "write" [dwriter; w] s.
Proof. exact lem_C22_same_bytes. Qed.
Print Assumptions C22_same_bytes.

(** The in-place reader fills any target that has the shape of the type and whose parts are not shared: afterwards the
    target represents the value, it can be filled again, nothing outside of it has changed, and the bytes left are those
    that the value reader leaves. *)
Theorem C22_fills : forall ast rpc items D U cd v m fuel s rest target parts,
  let ds := schema_decls ast in
  dart_ready ast = true -> dart_items ast rpc items -> dart_codecs_ok ast items = true -> dlawful D U ->
  declared ds m = true -> dtyped U ds (top_names items) cd v (TyOther m) = true -> 3 * depth v + 3 * cd + 3 <= fuel ->
  shaped ds (top_names items) (d_heap s) target (TyOther m) parts -> NoDup parts ->
  d_rd s = dwire D U ds false v (TyOther m) ++ rest ->
  exists h w h1,
    dart_call D items fuel (m ++ "EmplaceToBuffers") "read" [dreader; target] s = DDone dnull (set_heap h (set_drd rest s)) /\
    changes (d_heap s) h parts /\ shaped ds (top_names items) h target (TyOther m) parts /\
    rep U ds (fun a => In a parts \/ fresh (d_heap s) h a) h target v (TyOther m) /\
    dart_call D items fuel (m ++ "IntoBuffers") "read" [dreader] s = DDone w (set_heap h1 (set_drd rest s)) /\
    rep U ds (fresh (d_heap s) h1) h1 w v (TyOther m).
Proof. exact lem_C22_fills. Qed.
Print Assumptions C22_fills.

(** The default value of every type that has one is such a target. *)
Theorem C46_default_targets : forall ast rpc items D m cd fuel s,
  let ds := schema_decls ast in
  dart_ready ast = true -> dart_items ast rpc items -> dart_codecs_ok ast items = true ->
  declared ds m = true -> creatable ds (top_names items) cd (TyOther m) = true -> 3 * cd + 1 <= fuel ->
  exists w h parts,
    dart_call D items fuel (m ++ "BuffersFactory") "createDefault" [] s = DDone w (set_heap h s) /\
    changes (d_heap s) h [] /\ shaped ds (top_names items) h w (TyOther m) parts /\ NoDup parts /\ (forall a, In a parts -> fresh (d_heap s) h a).
Proof. exact lem_C46_default_targets. Qed.
Print Assumptions C46_default_targets.
Example C46_case : dart_ready c21_ast = true /\ dart_items c21_ast false c21_items /\ dart_codecs_ok c21_ast c21_items = true /\
  declared (schema_decls c21_ast) "Line" = true /\ creatable (schema_decls c21_ast) (top_names c21_items) 3 (TyOther "Line") = true /\
  declared (schema_decls c21_ast) "Shape" = true /\ creatable (schema_decls c21_ast) (top_names c21_items) 4 (TyOther "Shape") = true.
Proof.
  split; [vm_compute; reflexivity|].
  split; [apply dart_items_tree; vm_compute; reflexivity|].
  repeat (split; [vm_compute; reflexivity|]).
  vm_compute; reflexivity.
Qed.
Example C22_case : let ds := schema_decls c22_ast in
  dart_ready c22_ast = true /\ dart_items c22_ast false c22_items /\ dart_codecs_ok c22_ast c22_items = true /\
  declared ds "Line" = true /\ dtyped le_support ds (top_names c22_items) 0 (c22_value 1 2) (TyOther "Line") = true /\
  creatable ds (top_names c22_items) 2 (TyOther "Line") = true /\
  shaped ds (top_names c22_items) (d_heap (c22_state false)) (dref 2) (TyOther "Line") [2; 0; 1] /\ NoDup [2; 0; 1] /\
  d_rd (c22_state false) = dwire c21_dart le_support ds false (c22_value 1 2) (TyOther "Line") ++ zs [9]%Z /\
  (exists s, dart_call c21_dart c22_items 12 "LineEmplaceToBuffers" "read" [dreader; dref 2] (c22_state false) = DDone dnull s /\
     d_heap s = [CObj "Point" [("x", dint 1)]; CObj "Point" [("x", dint 2)]; CObj "Line" [("from", dref 0); ("to", dref 1)]]).
Proof.
  split; [vm_compute; reflexivity|].
  split; [apply dart_items_tree; vm_compute; reflexivity|].
  split; [vm_compute; reflexivity|].
  split; [vm_compute; reflexivity|].
  split; [vm_compute; reflexivity|].
  split; [vm_compute; reflexivity|].
  split; [exact (c22_shaped false)|].
  split; [repeat constructor; cbn; intuition discriminate|].
  split; [vm_compute; reflexivity|].
  eexists.
  split; vm_compute; reflexivity.
Qed.

(** If two parts of the target are the same object, the target does not represent the value afterwards. *)
Theorem C22_shared_target_refuted : exists ast items D U v target parts s h,
  let ds := schema_decls ast in
  dart_ready ast = true /\ dart_items ast false items /\ dart_codecs_ok ast items = true /\ dlawful D U /\
  dtyped U ds (top_names items) 0 v (TyOther "Line") = true /\
  shaped ds (top_names items) (d_heap s) target (TyOther "Line") parts /\
  d_rd s = dwire D U ds false v (TyOther "Line") ++ zs [9]%Z /\
  dart_call D items 12 "LineEmplaceToBuffers" "read" [dreader; target] s = DDone dnull (set_heap h (set_drd (zs [9]%Z) s)) /\
  forall P, ~ rep U ds P h target v (TyOther "Line").
Proof. exact lem_C22_shared_target_refuted. Qed.
Print Assumptions C22_shared_target_refuted.

Theorem C23_plain : forall ast rpc items D U cd vs m fuel s rest suffix,
  let ds := schema_decls ast in
  dart_ready ast = true -> dart_items ast rpc items -> dart_codecs_ok ast items = true -> dlawful D U -> declared ds m = true ->
  plain_type ds (TyOther m) = true ->
  Forall (fun v => dtyped U ds (top_names items) cd v (TyOther m) = true /\ skippable D ds v (TyOther m) = true /\ 2 * depth v + 3 <= fuel) vs -> 3 <= fuel ->
  d_rd s = flat_map (fun v => dwire D U ds false v (TyOther m)) vs ++ rest -> suffix = "IntoBuffers" \/ suffix = "EmplaceToBuffers" ->
  dart_call D items fuel (m ++ suffix) "skip" [dreader; dint (Z.of_nat (List.length vs))] s = DDone dnull (set_drd rest s).
Proof. exact lem_C23_plain. Qed.
Print Assumptions C23_plain.

(** With the count one it also does so with such fields, if in every struct of the value they come first. *)
Theorem C23_once : forall ast rpc items D U cd v m fuel s rest suffix,
  let ds := schema_decls ast in
  dart_ready ast = true -> dart_items ast rpc items -> dart_codecs_ok ast items = true -> dlawful D U -> declared ds m = true ->
  dtyped U ds (top_names items) cd v (TyOther m) = true -> skippable D ds v (TyOther m) = true -> 2 * depth v + 3 <= fuel ->
  d_rd s = dwire D U ds false v (TyOther m) ++ rest -> suffix = "IntoBuffers" \/ suffix = "EmplaceToBuffers" ->
  dart_call D items fuel (m ++ suffix) "skip" [dreader; dint 1] s = DDone dnull (set_drd rest s).
Proof. exact lem_C23_once. Qed.
Print Assumptions C23_once.

(** In general a struct is skipped as if it were the fields with types of their own, once, followed by [count] times the
    other fields. *)
Theorem C23_struct_consumes : forall ast rpc items D U cd st us qss fuel s rest suffix,
  let ds := schema_decls ast in
  let own := filter (fun f => user_typed (sf_type f)) (sn_fields st) in
  let others := filter (fun f => negb (user_typed (sf_type f))) (sn_fields st) in
  let field_ok (v : val) (f : struct_field) := dtyped U ds (top_names items) cd v (sf_type f) = true /\ skippable D ds v (sf_type f) = true /\ 2 * depth v + 5 <= fuel in
  let bytes (vs : list val) (fs : list struct_field) := cat2 (fun v f => dwire D U ds false v (sf_type f)) vs fs in
  dart_ready ast = true -> dart_items ast rpc items -> dart_codecs_ok ast items = true -> dlawful D U ->
  decl_of (sn_id st) ds = Some (DStruct st) -> 3 <= fuel ->
  Forall2 field_ok us own -> Forall (fun qs => Forall2 field_ok qs others) qss ->
  d_rd s = bytes us own ++ flat_map (fun qs => bytes qs others) qss ++ rest -> suffix = "IntoBuffers" \/ suffix = "EmplaceToBuffers" ->
  dart_call D items fuel (sn_id st ++ suffix) "skip" [dreader; dint (Z.of_nat (List.length qss))] s = DDone dnull (set_drd rest s).
Proof. exact lem_C23_struct_consumes. Qed.
Print Assumptions C23_struct_consumes.
Example C23_case : let ds := schema_decls c23_ast in
  dart_ready c23_ast = true /\ dart_items c23_ast false c23_items /\ dart_codecs_ok c23_ast c23_items = true /\
  plain_type ds (TyOther "Point") = true /\ plain_type ds (TyOther "Kind") = true /\ plain_type ds (TyOther "Pair") = false /\
  forallb (fun v => dtyped le_support ds (top_names c23_items) 2 v (TyOther "Point") && skippable c21_dart ds v (TyOther "Point")) [c23_point 1 2; c23_point 3 4] = true /\
  dtyped le_support ds (top_names c23_items) 2 (c23_pair 1) (TyOther "Pair") = true /\ skippable c21_dart ds (c23_pair 1) (TyOther "Pair") = true /\
  dtyped le_support ds (top_names c23_items) 2 c23_entry (TyOther "Entry") = true /\ skippable c21_dart ds c23_entry (TyOther "Entry") = false.
Proof.
  split; [vm_compute; reflexivity|].
  split; [apply dart_items_tree; vm_compute; reflexivity|].
  repeat (split; [vm_compute; reflexivity|]).
  vm_compute; reflexivity.
Qed.

(** Two pairs: skipping two leaves bytes of the second one. *)
Theorem C23_count_refuted : exists ast items D U vs s rest,
  let ds := schema_decls ast in
  dart_ready ast = true /\ dart_items ast false items /\ dart_codecs_ok ast items = true /\ dlawful D U /\
  forallb (fun v => dtyped U ds (top_names items) 0 v (TyOther "Pair") && skippable D ds v (TyOther "Pair")) vs = true /\
  d_rd s = flat_map (fun v => dwire D U ds false v (TyOther "Pair")) vs ++ rest /\
  exists left, left <> rest /\
  dart_call D items 20 "PairIntoBuffers" "skip" [dreader; dint (Z.of_nat (List.length vs))] s = DDone dnull (set_drd left s) /\
  dart_call D items 20 "PairEmplaceToBuffers" "skip" [dreader; dint (Z.of_nat (List.length vs))] s = DDone dnull (set_drd left s).
Proof. exact lem_C23_count_refuted. Qed.
Print Assumptions C23_count_refuted.

(** Skipping no pair consumes a point. *)
Theorem C23_zero_refuted : exists ast items D U s left,
  dart_ready ast = true /\ dart_items ast false items /\ dart_codecs_ok ast items = true /\ dlawful D U /\ left <> d_rd s /\
  dart_call D items 20 "PairIntoBuffers" "skip" [dreader; dint 0] s = DDone dnull (set_drd left s).
Proof. exact lem_C23_zero_refuted. Qed.
Print Assumptions C23_zero_refuted.

(** A field with a type of its own after a number: skipping once throws on bytes that are read without complaint. *)
Theorem C23_order_refuted : exists ast items D U v s rest,
  let ds := schema_decls ast in
  dart_ready ast = true /\ dart_items ast false items /\ dart_codecs_ok ast items = true /\ dlawful D U /\
  dtyped U ds (top_names items) 1 v (TyOther "Entry") = true /\
  d_rd s = dwire D U ds false v (TyOther "Entry") ++ rest /\
  (exists w h, dart_call D items 20 "EntryIntoBuffers" "read" [dreader] s = DDone w (set_heap h (set_drd rest s))) /\
  dart_call D items 20 "EntryIntoBuffers" "skip" [dreader; dint 1] s = DThrows "StateError".
Proof. exact lem_C23_order_refuted. Qed.
Print Assumptions C23_order_refuted.

(** If the library skips the elements of a list by one call, skipping a list of pairs goes wrong, too. *)
Theorem C23_bulk_list_refuted : exists ast items D U v s rest,
  let ds := schema_decls ast in
  dart_ready ast = true /\ dart_items ast false items /\ dart_codecs_ok ast items = true /\ dlawful D U /\ rd_bulk D = true /\
  dtyped U ds (top_names items) 0 v (TyOther "All") = true /\
  d_rd s = dwire D U ds false v (TyOther "All") ++ rest /\
  exists left, left <> rest /\ dart_call D items 20 "AllIntoBuffers" "skip" [dreader; dint 1] s = DDone dnull (set_drd left s).
Proof. exact lem_C23_bulk_list_refuted. Qed.
Print Assumptions C23_bulk_list_refuted.

(** Agreement: for the same schema and value, Rust and Dart write the same bytes, and each of them reads what the other wrote. *)
Theorem C24_same_bytes : forall ast models rust_rpc dart_rpc rust_file items R V D U cd v m fuel dfuel,
  let rds := rust_decls ast true rust_rpc in
  let ds := schema_decls ast in
  rust_ready ast = true -> file_items ast models true rust_rpc rust_file -> codecs_ok rds = true -> codecs_distinct rds = true ->
  dart_ready ast = true -> dart_items ast dart_rpc items -> dart_codecs_ok ast items = true ->
  lawful R -> dlawful D U -> agree R D U ->
  declared ds m = true -> typed R rds v (TyOther m) = true -> dtyped U ds (top_names items) cd v (TyOther m) = true ->
  portable ds v (TyOther m) = true -> depth v <= fuel -> 3 * depth v + 3 * cd + 3 <= dfuel ->
  exists bs,
    (forall q, write_value R V rust_file fuel v q = Done RustSem.ok (set_wr (s_wr q ++ bs) q)) /\
    (forall P s w, rep U ds P (d_heap s) w v (TyOther m) ->
      dart_call D items dfuel (m ++ "IntoBuffers") "write" [dwriter; w] s = DDone dnull (set_dwr (d_wr s ++ bs) s)) /\
    (forall q rest, read_value R V rust_file fuel (RustTree.ty0 m) (set_rd (bs ++ rest) q) = Done v (set_rd rest q)) /\
    (forall s rest, exists w h',
      dart_call D items dfuel (m ++ "IntoBuffers") "read" [dreader] (set_drd (bs ++ rest) s) = DDone w (set_heap h' (set_drd rest s)) /\
      changes (d_heap s) h' [] /\ rep U ds (fresh (d_heap s) h') h' w v (TyOther m)).
Proof. exact lem_C24_same_bytes. Qed.
Print Assumptions C24_same_bytes.
Example C24_case : let rds := rust_decls c21_ast true false in let ds := schema_decls c21_ast in
  rust_ready c21_ast = true /\ file_items c21_ast true true false c17_items /\ codecs_ok rds = true /\ codecs_distinct rds = true /\
  dart_ready c21_ast = true /\ dart_items c21_ast false c21_items /\ dart_codecs_ok c21_ast c21_items = true /\
  lawful le_runtime /\ dlawful c21_dart le_support /\ agree le_runtime c21_dart le_support /\ declared ds "Shape" = true /\
  typed le_runtime rds c21_shape (TyOther "Shape") = true /\ dtyped le_support ds (top_names c21_items) 4 c21_shape (TyOther "Shape") = true /\
  portable ds c21_shape (TyOther "Shape") = true /\ depth c21_shape <= 5.
Proof.
  split; [vm_compute; reflexivity|].
  split; [eexists; split; vm_compute; reflexivity|].
  split; [vm_compute; reflexivity|].
  split; [vm_compute; reflexivity|].
  split; [vm_compute; reflexivity|].
  split; [apply dart_items_tree; vm_compute; reflexivity|].
  split; [vm_compute; reflexivity|].
  split; [exact le_lawful|].
  split; [apply le_dlawful|].
  split; [apply le_agree|].
  split; [vm_compute; reflexivity|].
  split; [vm_compute; reflexivity|].
  split; [vm_compute; reflexivity|].
  split; [vm_compute; reflexivity|].
  apply Nat.leb_le.
  vm_compute.
  reflexivity.
Qed.

(** The number that represents an integer of [k] bytes in Dart is congruent to it modulo the width and signed; it is the
    number itself below the half, and negative from there on. *)
Theorem C24_integers : forall U ds P h w p k sg z,
  prim_ok U (TyInteger p k sg) z = true -> rep U ds P h w (vnum p z) (TyInteger p k sg) ->
  exists z', w = dint z' /\ (z' mod 2 ^ (8 * Z.of_nat k) = z mod 2 ^ (8 * Z.of_nat k))%Z /\
    (- 2 ^ (8 * Z.of_nat k - 1) <= z' < 2 ^ (8 * Z.of_nat k - 1))%Z /\
    ((z < 2 ^ (8 * Z.of_nat k - 1))%Z -> z' = z) /\ ((2 ^ (8 * Z.of_nat k - 1) <= z)%Z -> (z' < 0)%Z).
Proof. exact lem_C24_integers. Qed.
Print Assumptions C24_integers.
Example C24_integers_case : exists w, rep le_support [] (fun _ => True) [] w (vnum "u32" 4294967295) (TyInteger "u32" 4 false) /\
  prim_ok le_support (TyInteger "u32" 4 false) 4294967295 = true /\ w = dint (-1).
Proof.
  eexists.
  split; [reflexivity|].
  split; [vm_compute; reflexivity|reflexivity].
Qed.

(** Lists of numbers: Dart uses the same codec for the elements whatever their width, so Rust and Dart cannot agree on
    both Vec<u8> and Vec<i32>, whatever the libraries do, unless a u8 and an i32 have the same bytes in Rust. *)
Theorem C24_number_lists_refuted : exists ast rust_file items va vb,
  rust_ready ast = true /\ file_items ast true true false rust_file /\ dart_ready ast = true /\ dart_items ast false items /\
  forall R V D U, lawful R -> dlawful D U -> agree R D U -> su_len U 1 = true -> rt_head_ok R "Vec" 1 = true -> rt_slots R "Vec" 1 = [0] ->
    let ds := schema_decls ast in
    typed R (rust_decls ast true false) va (TyOther "A") = true /\ dtyped U ds (top_names items) 0 va (TyOther "A") = true /\
    typed R (rust_decls ast true false) vb (TyOther "B") = true /\ dtyped U ds (top_names items) 0 vb (TyOther "B") = true /\
    (rt_put R "u8" 1 <> rt_put R "i32" 1 -> ~ (same_bytes R V rust_file D U ds items va "A" /\ same_bytes R V rust_file D U ds items vb "B")).
Proof. exact lem_C24_number_lists_refuted. Qed.
Print Assumptions C24_number_lists_refuted.

(** Characters: Dart writes one byte, as for a u8; so if Rust writes a char differently from a u8, they do not agree. *)
Theorem C24_char_refuted : exists ast rust_file items v,
  rust_ready ast = true /\ file_items ast true true false rust_file /\ dart_ready ast = true /\ dart_items ast false items /\
  forall R V D U, lawful R -> dlawful D U -> agree R D U ->
    let ds := schema_decls ast in
    typed R (rust_decls ast true false) v (TyOther "C") = true /\ dtyped U ds (top_names items) 0 v (TyOther "C") = true /\
    (rt_put R "char" 97 <> rt_put R "u8" 97 -> ~ same_bytes R V rust_file D U ds items v "C").
Proof. exact lem_C24_char_refuted. Qed.
Print Assumptions C24_char_refuted.
Example C24_refuted_case : agree le_runtime c21_dart le_support /\ su_len le_support 1 = true /\ rt_head_ok le_runtime "Vec" 1 = true /\ rt_slots le_runtime "Vec" 1 = [0] /\
  rt_put le_runtime "u8" 1 <> rt_put le_runtime "i32" 1 /\ rt_put le_runtime "char" 97 <> rt_put le_runtime "u8" 97.
Proof.
  split; [apply le_agree|].
  repeat (split; [vm_compute; reflexivity|]).
  split; vm_compute; discriminate.
Qed.
