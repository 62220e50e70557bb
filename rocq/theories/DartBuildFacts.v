(** Lemmas behind the theorems of PropertiesDartBuild.v. *)

(** Property theorems about the methods of the generated Dart classes of enums, C49: [E()], [E.createX(..)], [e.toX(..)]
    and [e.isX()].  The generated text is read back as a Dart file and that file is run by the interpreter of DartSem.
    After each theorem, a concrete case that meets its hypotheses, and its axioms. *)
Require Import Coq.Strings.String Coq.Strings.Ascii.
Require Import Coq.NArith.NArith Coq.ZArith.ZArith Coq.Lists.List Coq.Bool.Bool Coq.Arith.PeanoNat.
Require Import Coq.micromega.Lia Coq.Sorting.Permutation.
Require Import Verif.Base Verif.Ast Verif.Lexer Verif.Parser Verif.CaseConv Verif.Code Verif.NumText Verif.RustGen Verif.RustTree Verif.RustFile Verif.RustWf Verif.RustSem Verif.Wire Verif.RustCodec Verif.CodecFacts.
Require Import Verif.DartSyntax Verif.DartGen Verif.DartTree Verif.DartFile Verif.DartWf Verif.DartSem Verif.DartWire Verif.DartRun Verif.DartShape Verif.DartCodec Verif.DartAgree Verif.DartFacts Verif.DartBuild.
Import ListNotations.
Local Open Scope string_scope.
Local Open Scope list_scope.

Definition c49_shape : enum_node := match decl_of "Shape" (schema_decls c21_ast) with Some (Wire.DEnum e) => e | _ => mk_enum "" [] end.

(** [Round(Point { x: -1, y: 2 }, 5)]. *)
Definition c49_point : val := vrec "Point" [("x", vnum "i32" (-1)); ("y", vnum "u8" 2)].

Definition c49_round : val := vcaset "Shape" "Round" [c49_point; vnum "u32" 5].

Definition c49_args : dargs := [(None, dref 0); (None, dint 5)].

(** [Shape()] beside that point. *)
Definition c49_heap : heap := Eval vm_compute in
  [CObj "Point" [("x", dint (-1)); ("y", dint 2)]] ++
  match call_new c21_dart c21_items 30 "Shape" [] (set_heap [CObj "Point" [("x", dint (-1)); ("y", dint 2)]] c21_start) with DDone _ s => List.tl (d_heap s) | _ => [] end.

Definition c49_start : dstate := set_heap c49_heap c21_start.

Definition c49_object : dval := Eval vm_compute in dref (List.length c49_heap - 1).

Lemma c49_passed : passed le_support (schema_decls c21_ast) (fun a => a = 0) c49_heap c49_round c49_args.
Proof.
  exists [dref 0; dint 5].
  split; [reflexivity|].
  split; [|reflexivity].
  let l := eval vm_compute in (items_of (schema_decls c21_ast) "Shape" "Round") in replace (items_of (schema_decls c21_ast) "Shape" "Round") with l by (vm_compute; reflexivity).
  split; [|split; [reflexivity|exact Logic.I]].
  exists 0, [("x", dint (-1)); ("y", dint 2)].
  split; [reflexivity|].
  split; [reflexivity|].
  split; [reflexivity|].
  let l := eval vm_compute in (fields_of (schema_decls c21_ast) "Point") in replace (fields_of (schema_decls c21_ast) "Point") with l by (vm_compute; reflexivity).
  split; [exists (dint (-1)); now split|].
  split; [exists (dint 2); now split|exact Logic.I].
Qed.

Lemma lem_C49_new : forall ast rpc items D e cd fuel s,
  let ds := schema_decls ast in
  dart_ready ast = true -> dart_items ast rpc items -> dart_codecs_ok ast items = true ->
  decl_of (en_id e) ds = Some (Wire.DEnum e) -> creatable ds (top_names items) cd (TyOther (en_id e)) = true -> 3 * cd + 2 <= fuel ->
  exists a h', call_new D items fuel (en_id e) [] s = DDone (dref a) (set_heap h' s) /\
    changes (d_heap s) h' [] /\ complete h' (dref a) e /\ fresh (d_heap s) h' a /\
    (forall cfs i b, nth_error h' a = Some (CObj (en_id e) cfs) -> In i (en_items e) ->
      lookup (camel (item_name i)) cfs = Some (dref b) -> fresh (d_heap s) h' b).
Proof.
  intros ast rpc items D e cd fuel s ds RD F O E C FU.
  destruct (dart_section ast rpc items RD F O) as (FI & N & LB & OK).
  fold ds in FI, OK.
  assert (exists n, fuel = S (S n) /\ 3 * cd <= n + 2) as (n & -> & L) by (exists (fuel - 2); lia).
  exact (new_complete D items ds cd FI N LB OK n e s E C L).
Qed.

Lemma lem_C49_create : forall ast rpc items D U cd e v P args fuel s,
  let ds := schema_decls ast in
  dart_ready ast = true -> dart_items ast rpc items -> dart_codecs_ok ast items = true -> dlawful D U ->
  decl_of (en_id e) ds = Some (Wire.DEnum e) -> methods_ok e = true ->
  (forall i, item_of (case_name v) e = Some i -> creates_ok e i = true) ->
  dtyped U ds (top_names items) cd v (TyOther (en_id e)) = true ->
  passed U ds P (d_heap s) v args -> (forall a, P a -> a < List.length (d_heap s)) -> 3 * depth v + 3 * cd + 3 <= fuel ->
  exists w h', call_static_of D items fuel (en_id e) ("create" ++ pascal (case_name v)) args s = DDone w (set_heap h' s) /\
    changes (d_heap s) h' [] /\ complete h' w e /\ (forall a, w = dref a -> fresh (d_heap s) h' a) /\
    rep U ds (fun a => P a \/ fresh (d_heap s) h' a) h' w v (TyOther (en_id e)) /\
    (forall s', d_heap s' = h' ->
      dart_call D items fuel (en_id e ++ "IntoBuffers") "write" [dwriter; w] s' = DDone dnull (set_dwr (d_wr s' ++ dwire D U ds false v (TyOther (en_id e))) s')).
Proof.
  intros ast rpc items D U cd e v P args fuel s ds RD F O L E M OI T PS PD FU.
  destruct (dart_section ast rpc items RD F O) as (FI & N & LB & OK).
  fold ds in FI, OK.
  destruct fuel as [|n]; [lia|].
  destruct (create_case D U items ds cd FI N LB OK n e v P args s E M T OI PS PD ltac:(lia)) as (w & h' & A & B & C & G & R).
  exists w, h'.
  split; [exact A|].
  split; [exact B|].
  split; [exact C|].
  split; [exact G|].
  split; [exact R|].
  intros s' HS.
  assert (DC : declared ds (en_id e) = true) by (unfold declared; now rewrite E).
  destruct (lem_C21_round_trip ast rpc items D U cd v (en_id e) (S n) RD F O L DC T FU) as [W _].
  eapply W.
  rewrite HS.
  exact R.
Qed.

Lemma lem_C49_to : forall ast rpc items D U cd e v P w args fuel s,
  let ds := schema_decls ast in
  dart_ready ast = true -> dart_items ast rpc items -> dart_codecs_ok ast items = true -> dlawful D U ->
  decl_of (en_id e) ds = Some (Wire.DEnum e) -> methods_ok e = true ->
  (forall i, item_of (case_name v) e = Some i -> turns_ok e i = true) ->
  dtyped U ds (top_names items) cd v (TyOther (en_id e)) = true -> complete (d_heap s) w e ->
  passed U ds P (d_heap s) v args -> apart P (d_heap s) w (case_name v) -> 3 * depth v + 3 * cd + 3 <= fuel ->
  exists r h', call_method D items fuel w ("to" ++ pascal (case_name v)) args s = DDone r (set_heap h' s) /\
    List.length h' = List.length (d_heap s) /\ complete h' w e /\
    (forall b, b < List.length (d_heap s) -> w <> dref b ->
      (forall a n cfs, w = dref a -> nth_error (d_heap s) a = Some (CObj n cfs) -> lookup (camel (case_name v)) cfs <> Some (dref b)) ->
      nth_error h' b = nth_error (d_heap s) b) /\
    (exists P', rep U ds P' h' w v (TyOther (en_id e))) /\
    (forall s', d_heap s' = h' ->
      dart_call D items fuel (en_id e ++ "IntoBuffers") "write" [dwriter; w] s' = DDone dnull (set_dwr (d_wr s' ++ dwire D U ds false v (TyOther (en_id e))) s')).
Proof.
  intros ast rpc items D U cd e v P w args fuel s ds RD F O L E M OI T CO PS AP FU.
  destruct (dart_section ast rpc items RD F O) as (FI & N & LB & OK).
  fold ds in FI, OK.
  destruct fuel as [|n]; [lia|].
  destruct (to_case D U items ds cd FI N OK n e v P w args s E M T OI CO PS AP ltac:(lia)) as (r & h' & A & B & C & G & R).
  exists r, h'.
  split; [exact A|].
  split; [exact B|].
  split; [exact C|].
  split; [exact G|].
  split; [eexists; exact R|].
  intros s' HS.
  assert (DC : declared ds (en_id e) = true) by (unfold declared; now rewrite E).
  destruct (lem_C21_round_trip ast rpc items D U cd v (en_id e) (S n) RD F O L DC T FU) as [W _].
  eapply W.
  rewrite HS.
  exact R.
Qed.

Lemma lem_C49_is : forall ast rpc items D U cd e i v P w fuel s,
  let ds := schema_decls ast in
  dart_ready ast = true -> dart_items ast rpc items -> dart_codecs_ok ast items = true ->
  decl_of (en_id e) ds = Some (Wire.DEnum e) -> methods_ok e = true -> In i (en_items e) ->
  dtyped U ds (top_names items) cd v (TyOther (en_id e)) = true -> rep U ds P (d_heap s) w v (TyOther (en_id e)) -> complete (d_heap s) w e -> 2 <= fuel ->
  call_method D items fuel w ("is" ++ pascal (item_name i)) [] s = DDone (dbool (String.eqb (case_name v) (item_name i))) s.
Proof.
  intros ast rpc items D U cd e i v P w fuel s ds RD F O E M I T R CO FU.
  destruct (dart_section ast rpc items RD F O) as (FI & N & LB & OK).
  fold ds in FI, OK.
  destruct fuel as [|n]; [lia|].
  exact (is_case D U items ds cd FI N OK n e i v P w s E I M T R CO ltac:(lia)).
Qed.

Lemma lem_C49_parameter_names_refuted : exists ast items w s,
  dart_ready ast = true /\ dart_items ast false items /\ dart_codecs_ok ast items = true /\
  call_new c21_dart items 30 "Shape" [] c21_start = DDone w s /\
  call_method c21_dart items 30 w "toBar" [(Some "value", dint 1)] s = DStuck /\
  call_method c21_dart items 30 w "toFoo" [(Some "foo", dint 1)] s = DStuck /\
  call_method c21_dart items 30 w "toV0" [(None, dint 1)] s = DStuck /\
  call_static_of c21_dart items 30 "Shape" "createBaz" [(Some "model", dint 1)] s = DStuck /\
  (exists s', call_method c21_dart items 30 w "toOk" [(None, dint 1)] s = DDone dnull s') /\
  (exists w' s', call_static_of c21_dart items 30 "Shape" "createBar" [(Some "value", dint 1)] s = DDone w' s').
Proof.
  pose (ast := parsed "enum Shape { #[0] Foo { foo: i32 }, #[1] Bar { value: i32 }, #[2] V0(i32), #[3] Ok(i32), #[4] Baz { model: i32 } }").
  exists ast, (dart_tree ast true true false).
  eexists.
  eexists.
  split; [vm_compute; reflexivity|].
  split; [apply dart_items_tree; vm_compute; reflexivity|].
  split; [vm_compute; reflexivity|].
  split; [vm_compute; reflexivity|].
  split; [vm_compute; reflexivity|].
  split; [vm_compute; reflexivity|].
  split; [vm_compute; reflexivity|].
  split; [vm_compute; reflexivity|].
  split; [eexists; vm_compute; reflexivity|].
  eexists.
  eexists.
  vm_compute; reflexivity.
Qed.
