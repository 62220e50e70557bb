(** Property theorems about the methods of the generated Dart classes of enums, C49: [E()], [E.createX(..)], [e.toX(..)]
    and [e.isX()].  The generated text is read back as a Dart file and that file is run by the interpreter of DartSem.
    After each theorem, a concrete case that meets its hypotheses, and its axioms. *)
Require Import Coq.Strings.String Coq.Strings.Ascii.
Require Import Coq.NArith.NArith Coq.ZArith.ZArith Coq.Lists.List Coq.Bool.Bool Coq.Arith.PeanoNat.
Require Import Coq.micromega.Lia Coq.Sorting.Permutation.
Require Import Verif.Base Verif.Ast Verif.Lexer Verif.Parser Verif.CaseConv Verif.Code Verif.NumText Verif.RustGen Verif.RustTree Verif.RustFile Verif.RustWf Verif.RustSem Verif.Wire Verif.RustCodec Verif.CodecFacts.
Require Import Verif.DartSyntax Verif.DartGen Verif.DartTree Verif.DartFile Verif.DartWf Verif.DartSem Verif.DartWire Verif.DartRun Verif.DartShape Verif.DartCodec Verif.DartAgree Verif.DartFacts Verif.DartBuild.
Require Import Verif.DartBuildFacts.
Import ListNotations.
Local Open Scope string_scope.
Local Open Scope list_scope.

(** ** C49: the methods of enum classes *)
(** A new object has all fields, and one object for each case that has fields; all of them are new. *)
Theorem C49_new : forall ast rpc items D e cd fuel s,
  let ds := schema_decls ast in
  dart_ready ast = true -> dart_items ast rpc items -> dart_codecs_ok ast items = true ->
  decl_of (en_id e) ds = Some (Wire.DEnum e) -> creatable ds (top_names items) cd (TyOther (en_id e)) = true -> 3 * cd + 2 <= fuel ->
  exists a h', call_new D items fuel (en_id e) [] s = DDone (dref a) (set_heap h' s) /\
    changes (d_heap s) h' [] /\ complete h' (dref a) e /\ fresh (d_heap s) h' a /\
    (forall cfs i b, nth_error h' a = Some (CObj (en_id e) cfs) -> In i (en_items e) ->
      lookup (camel (item_name i)) cfs = Some (dref b) -> fresh (d_heap s) h' b).
Proof. exact lem_C49_new. Qed.
Print Assumptions C49_new.

(** [E.createX(..)] makes a complete object that represents the case with the given fields.  No object that was there
    changes, and writing the new one gives the bytes of the value. *)
Theorem C49_create : forall ast rpc items D U cd e v P args fuel s,
  let ds := schema_decls ast in
  dart_ready ast = true -> dart_items ast rpc items -> dart_codecs_ok ast items = true -> dlawful D U ->
  decl_of (en_id e) ds = Some (Wire.DEnum e) -> methods_ok e = true ->
  (forall i, item_of (case_name v) e = Some i -> creates_ok e i = true) ->
  dtyped U ds (top_names items) cd v (TyOther (en_id e)) = true ->
  passed U ds P (d_heap s) v args -> (forall a, P a -> a < List.length (d_heap s)) -> 3 * depth v + 3 * cd + 3 <= fuel ->
  exists w h', call_static_of D items fuel (en_id e) ("create" ++ pascal (case_name v)) args s = DDone w (set_heap h' s) /\
    changes (d_heap s) h' [] /\ complete h' w e /\ (forall a, w = dref a -> fresh (d_heap s) h' a) /\
    rep U ds (fun a => P a \/ fresh (d_heap s) h' a) h' w v (TyOther (en_id e)) /\
    (forall s', d_heap s' = h' ->
      dart_call D items fuel (en_id e ++ "IntoBuffers") "write" [dwriter; w] s' = DDone dnull (set_dwr (d_wr s' ++ dwire D U ds false v (TyOther (en_id e))) s')).
Proof. exact lem_C49_create. Qed.
Print Assumptions C49_create.

(** [e.toX(..)] turns a complete object, whatever its case was, into one that represents the case with the given fields.
    The object stays complete.  Only it and its object for the new case change. *)
Theorem C49_to : forall ast rpc items D U cd e v P w args fuel s,
  let ds := schema_decls ast in
  dart_ready ast = true -> dart_items ast rpc items -> dart_codecs_ok ast items = true -> dlawful D U ->
  decl_of (en_id e) ds = Some (Wire.DEnum e) -> methods_ok e = true ->
  (forall i, item_of (case_name v) e = Some i -> turns_ok e i = true) ->
  dtyped U ds (top_names items) cd v (TyOther (en_id e)) = true -> complete (d_heap s) w e ->
  passed U ds P (d_heap s) v args -> apart P (d_heap s) w (case_name v) -> 3 * depth v + 3 * cd + 3 <= fuel ->
  exists r h', call_method D items fuel w ("to" ++ pascal (case_name v)) args s = DDone r (set_heap h' s) /\
    List.length h' = List.length (d_heap s) /\ complete h' w e /\
    (forall b, b < List.length (d_heap s) -> w <> dref b ->
      (forall a n cfs, w = dref a -> nth_error (d_heap s) a = Some (CObj n cfs) -> lookup (camel (case_name v)) cfs <> Some (dref b)) ->
      nth_error h' b = nth_error (d_heap s) b) /\
    (exists P', rep U ds P' h' w v (TyOther (en_id e))) /\
    (forall s', d_heap s' = h' ->
      dart_call D items fuel (en_id e ++ "IntoBuffers") "write" [dwriter; w] s' = DDone dnull (set_dwr (d_wr s' ++ dwire D U ds false v (TyOther (en_id e))) s')).
Proof. exact lem_C49_to. Qed.
Print Assumptions C49_to.

(** [e.isX()] says whether the object represents the case X; it changes nothing. *)
Theorem C49_is : forall ast rpc items D U cd e i v P w fuel s,
  let ds := schema_decls ast in
  dart_ready ast = true -> dart_items ast rpc items -> dart_codecs_ok ast items = true ->
  decl_of (en_id e) ds = Some (Wire.DEnum e) -> methods_ok e = true -> In i (en_items e) ->
  dtyped U ds (top_names items) cd v (TyOther (en_id e)) = true -> rep U ds P (d_heap s) w v (TyOther (en_id e)) -> complete (d_heap s) w e -> 2 <= fuel ->
  call_method D items fuel w ("is" ++ pascal (item_name i)) [] s = DDone (dbool (String.eqb (case_name v) (item_name i))) s.
Proof. exact lem_C49_is. Qed.
Print Assumptions C49_is.
Example C49_case : let ds := schema_decls c21_ast in
  dart_ready c21_ast = true /\ dart_items c21_ast false c21_items /\ dart_codecs_ok c21_ast c21_items = true /\ dlawful c21_dart le_support /\
  decl_of "Shape" ds = Some (Wire.DEnum c49_shape) /\ methods_ok c49_shape = true /\
  forallb (fun i => creates_ok c49_shape i && turns_ok c49_shape i) (en_items c49_shape) = true /\
  creatable ds (top_names c21_items) 4 (TyOther "Shape") = true /\ dtyped le_support ds (top_names c21_items) 4 c49_round (TyOther "Shape") = true /\
  passed le_support ds (fun a => a = 0) c49_heap c49_round c49_args /\ apart (fun a => a = 0) c49_heap c49_object "Round" /\
  match call_method c21_dart c21_items 30 c49_object "toRound" c49_args c49_start with
  | DDone _ s1 =>
      match dart_call c21_dart c21_items 30 "ShapeIntoBuffers" "write" [dwriter; c49_object] s1,
            call_method c21_dart c21_items 30 c49_object "isRound" [] s1, call_method c21_dart c21_items 30 c49_object "isRound" [] c49_start,
            call_static_of c21_dart c21_items 30 "Shape" "createNamed" [(Some "width", dint 3); (Some "shape", dref 1)] c49_start with
      | DDone _ s2, DDone (dbool true) _, DDone (dbool false) _, DDone _ _ => d_wr s2 = zs [8; 0; 0; 0; 255; 255; 255; 255; 2; 5; 0; 0; 0]%Z
      | _, _, _, _ => False
      end
  | _ => False
  end.
Proof.
  split; [vm_compute; reflexivity|].
  split; [apply dart_items_tree; vm_compute; reflexivity|].
  split; [vm_compute; reflexivity|].
  split; [apply le_dlawful|].
  split; [vm_compute; reflexivity|].
  split; [vm_compute; reflexivity|].
  split; [vm_compute; reflexivity|].
  split; [vm_compute; reflexivity|].
  split; [vm_compute; reflexivity|].
  split; [exact c49_passed|].
  split; [|vm_compute; reflexivity].
  intros a n cfs [= <-] A.
  vm_compute in A.
  injection A as _ <-.
  split; [discriminate|].
  intros b [= <-].
  discriminate.
Qed.

(** Without [turns_ok] and [creates_ok] the methods fail, although the file is generated, reads back and its codecs
    compile: [toX] of a struct case with a field named [value] assigns its parameter and not the field of the object, that
    of a case with a field that has the name of the case asks the argument for that field, and so does the one of a
    tuple case named [V0]; [createX] with a field named [model] redefines its parameter.  The case [Ok] is a control. *)
Theorem C49_parameter_names_refuted : exists ast items w s,
  dart_ready ast = true /\ dart_items ast false items /\ dart_codecs_ok ast items = true /\
  call_new c21_dart items 30 "Shape" [] c21_start = DDone w s /\
  call_method c21_dart items 30 w "toBar" [(Some "value", dint 1)] s = DStuck /\
  call_method c21_dart items 30 w "toFoo" [(Some "foo", dint 1)] s = DStuck /\
  call_method c21_dart items 30 w "toV0" [(None, dint 1)] s = DStuck /\
  call_static_of c21_dart items 30 "Shape" "createBaz" [(Some "model", dint 1)] s = DStuck /\
  (exists s', call_method c21_dart items 30 w "toOk" [(None, dint 1)] s = DDone dnull s') /\
  (exists w' s', call_static_of c21_dart items 30 "Shape" "createBar" [(Some "value", dint 1)] s = DDone w' s').
Proof. exact lem_C49_parameter_names_refuted. Qed.
Print Assumptions C49_parameter_names_refuted.
