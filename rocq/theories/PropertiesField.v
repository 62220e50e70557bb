(** Property theorems about the types of fields in all generated languages, C65: the fields of structs and the values of
    cases have the types that belong to those of the schema.  The texts are read back by the readers of the languages.
    After each theorem, a concrete case that meets its hypotheses, and its axioms. *)
Require Import Coq.Strings.String Coq.Strings.Ascii.
Require Import Coq.NArith.NArith Coq.Lists.List Coq.Bool.Bool Coq.Arith.PeanoNat.
Require Import Verif.Base Verif.Ast Verif.Lexer Verif.Parser Verif.CaseConv Verif.Code.
Require Import Verif.SameTypesSpec Verif.FieldSpec Verif.Writer.
Require Verif.RustSyntax Verif.RustGen Verif.RustCodec Verif.RustTree Verif.RustFile Verif.RustWf Verif.CodecFacts Verif.DefaultFacts Verif.RustLexed.
Require Verif.DartSyntax Verif.DartGen Verif.DartTree Verif.DartFile Verif.DartWf Verif.DartFacts.
Require Verif.KotlinSyntax Verif.KotlinTree Verif.KotlinFacts Verif.SwiftSyntax Verif.SwiftTree Verif.SwiftFacts Verif.ParseFacts.
Require Import Verif.FieldFacts.
Import RustSyntax(IStruct, IEnum, VUnit, VTuple, VStruct).
Import DartSyntax(DClass, MField).
Import KotlinSyntax(YClass, YObject, YInterface, kotlin_file).
Import SwiftSyntax(ZStruct, ZEnum, ZVar, ZCase, swift_file).
Import RustFile(rust_ready).
Import DartFile(dart_ready).
Import CodecFacts(file_items).
Import DartFacts(dart_items).
Import KotlinFacts(kotlin_models).
Import SwiftFacts(swift_models).
Import ListNotations.
Local Open Scope string_scope.
Local Open Scope list_scope.

(** Every struct of the schema is a Rust struct with the same fields, each of the type that belongs to it, and every case of an enum is a case of the
    Rust enum. *)
Theorem C65_rust : forall src ast buffers rpc items, compile_front src = Ok ast -> rust_ready ast = true -> file_items ast true buffers rpc items ->
  (forall s, In (NStruct s) ast ->
    match sn_fields s with
    | [] => In (IStruct (sn_id s) None) items
    | _ => exists fs, In (IStruct (sn_id s) (Some fs)) items /\ map fst fs = map sf_name (sn_fields s) /\
        Forall2 (fun t f => lists_fine t = true -> means rust t (rust_shape (snd f))) (map sf_type (sn_fields s)) fs
    end) /\
  (forall e i, In (NEnum e) ast -> In i (en_items e) -> exists vs, In (IEnum (en_id e) vs) items /\
    match i with
    | ItemEmpty _ c => In (VUnit c) vs
    | ItemTuple _ c l => exists ts, In (VTuple c ts) vs /\ Forall2 (fun t r => lists_fine t = true -> means rust t (rust_shape r)) (map tf_type l) ts
    | ItemStruct _ c l => exists fs, In (VStruct c fs) vs /\ map fst fs = map sf_name l /\
        Forall2 (fun t f => lists_fine t = true -> means rust t (rust_shape (snd f))) (map sf_type l) fs
    end).
Proof. exact lem_C65_rust. Qed.
Print Assumptions C65_rust.

(** Every struct of the schema is a Kotlin class with the same fields, each of the type that belongs to it, and every case of an enum is a class of the
    interface. *)
Theorem C65_kotlin : forall src ast, compile_front src = Ok ast -> KotlinTree.models_ready ast = true ->
  exists text decls, kotlin_models ast = Ok text /\ kotlin_file text = Some decls /\
  (forall s, In (NStruct s) ast -> exists data ps body, In (YClass data (pascal (sn_id s)) ps [] body) decls /\
    map fst ps = map (fun f => camel (sf_name f)) (sn_fields s) /\
    Forall2 (fun t p => lists_fine t = true -> means kotlin t (kotlin_shape (snd p))) (map sf_type (sn_fields s)) ps) /\
  (forall e i, In (NEnum e) ast -> In i (en_items e) -> (exists body, In (YInterface true (en_id e) body) decls) /\
    match i with
    | ItemEmpty _ c => In (YObject (pascal (en_id e ++ c)%string) [en_id e] []) decls
    | ItemTuple _ c l => exists ps, In (YClass true (pascal (en_id e ++ c)%string) ps [en_id e] []) decls /\
        Forall2 (fun t p => lists_fine t = true -> means kotlin t (kotlin_shape (snd p))) (map tf_type l) ps
    | ItemStruct _ c l => exists ps, In (YClass true (pascal (en_id e ++ c)%string) ps [en_id e] []) decls /\ map fst ps = map sf_name l /\
        Forall2 (fun t p => lists_fine t = true -> means kotlin t (kotlin_shape (snd p))) (map sf_type l) ps
    end).
Proof. exact lem_C65_kotlin. Qed.
Print Assumptions C65_kotlin.

(** Every struct of the schema is a Swift struct with the same fields, each of the type that belongs to it unless it has characters, and every case of
    an enum is a case with the values of the types that belong to them. *)
Theorem C65_swift : forall src ast, compile_front src = Ok ast -> SwiftTree.models_ready ast = true ->
  exists text decls, swift_models ast = Ok text /\ swift_file text = Some decls /\
  (forall s, In (NStruct s) ast -> exists body, In (ZStruct (pascal (sn_id s)) body) decls /\
    map fst (swift_vars body) = map (fun f => camel (sf_name f)) (sn_fields s) /\
    Forall2 (fun t p => lists_fine t && no_char t = true -> means swift t (swift_shape (snd p))) (map sf_type (sn_fields s)) (swift_vars body)) /\
  (forall e i, In (NEnum e) ast -> In i (en_items e) -> exists body ts, In (ZEnum (pascal (en_id e)) body) decls /\
    In (ZCase (camel (item_id i)) ts) body /\
    Forall2 (fun t s => lists_fine t && no_char t = true -> means swift t (swift_shape s)) (case_types i) ts).
Proof. exact lem_C65_swift. Qed.
Print Assumptions C65_swift.

(** Every struct of the schema is a Dart class with the same fields, each of the type that belongs to it, and so is every case of an enum. *)
Theorem C65_dart : forall src ast rpc items, compile_front src = Ok ast -> dart_ready ast = true -> dart_items ast rpc items ->
  (forall s, In (NStruct s) ast -> exists ms, In (DClass (sn_id s) None ms) items /\
    map fst (dart_fields ms) = map (fun f => camel (sf_name f)) (sn_fields s) /\
    Forall2 (fun t p => lists_fine t = true -> means dart t (dart_shape (snd p))) (map sf_type (sn_fields s)) (dart_fields ms)) /\
  (forall e i, In (NEnum e) ast -> In i (en_items e) -> exists ms, In (DClass (en_id e ++ item_id i)%string None ms) items /\
    Forall2 (fun t p => lists_fine t = true -> means dart t (dart_shape (snd p))) (case_types i) (dart_fields ms)).
Proof. exact lem_C65_dart. Qed.
Print Assumptions C65_dart.

(** A type of the schema has no two types that belong to it. *)
Theorem C65_one_type : forall L t s s', In L [rust; dart; kotlin; swift] -> means L t s -> means L t s' -> s = s'.
Proof. exact lem_C65_one_type. Qed.
Print Assumptions C65_one_type.
Example C65_case : compile_front c65_src = Ok c65_ast /\ rust_ready c65_ast = true /\ file_items c65_ast true true false (RustTree.rust_tree c65_ast true true false) /\
  dart_ready c65_ast = true /\ KotlinTree.models_ready c65_ast = true /\ SwiftTree.models_ready c65_ast = true /\
  exists s e, In (NStruct s) c65_ast /\ In (NEnum e) c65_ast /\ forallb lists_fine (map sf_type (sn_fields s)) = true /\ List.length (sn_fields s) = 5 /\ List.length (en_items e) = 3.
Proof.
  split; [vm_compute; reflexivity|].
  split; [vm_compute; reflexivity|].
  split; [apply DefaultFacts.rust_items_tree; vm_compute; reflexivity|].
  split; [vm_compute; reflexivity|].
  split; [vm_compute; reflexivity|].
  split; [vm_compute; reflexivity|].
  do 2 eexists.
  split; [left; reflexivity|].
  split; [right; left; reflexivity|].
  split; [vm_compute; reflexivity|].
  split; reflexivity.
Qed.
Example C65_types_case : let vec := TyGeneric "Vec" [TyGeneric "Vec" [TyInteger "u8" 1 false]] in
  means kotlin vec (Shape "List" [Shape "List" [Shape "UByte" []]]) /\ means swift vec (Shape "Array" [Shape "Array" [Shape "UInt8" []]]) /\
  means dart vec (Shape "List" [Shape "List" [Shape "int" []]]) /\ means rust vec (Shape "Vec" [Shape "Vec" [Shape "u8" []]]) /\
  ~ means kotlin vec (Shape "List" [Shape "List" [Shape "Byte" []]]).
Proof.
  cbn zeta.
  assert (K : means kotlin (TyGeneric "Vec" [TyGeneric "Vec" [TyInteger "u8" 1 false]]) (Shape "List" [Shape "List" [Shape "UByte" []]])) by (apply (means_list kotlin), (means_list kotlin); named).
  split; [exact K|].
  split; [apply (means_list swift), (means_list swift); named|].
  split; [apply (means_list dart), (means_list dart); named|].
  split; [apply (means_list rust), (means_list rust); named|].
  intros H.
  assert (E := lem_C65_one_type kotlin _ _ _ (or_intror (or_intror (or_introl eq_refl))) K H).
  discriminate E.
Qed.

(** Swift has no type called [char]: characters are written with the name of the schema, not as [Character]. *)
Theorem C65_swift_refuted : exists src ast text decls s, compile_front src = Ok ast /\ SwiftTree.models_ready ast = true /\
  swift_models ast = Ok text /\ swift_file text = Some decls /\ In (NStruct s) ast /\
  forall body, In (ZStruct (pascal (sn_id s)) body) decls ->
    ~ Forall2 (fun t p => lists_fine t = true -> means swift t (swift_shape (snd p))) (map sf_type (sn_fields s)) (swift_vars body).
Proof. exact lem_C65_swift_refuted. Qed.
Print Assumptions C65_swift_refuted.
