(** Property theorems about files that are read and written as text, C62: exactly the files that are UTF-8 are read, and what is written is UTF-8.
    After each theorem, a concrete case that meets its hypotheses, and its axioms. *)
Require Import Coq.Strings.String Coq.Strings.Ascii.
Require Import Coq.NArith.NArith Coq.ZArith.ZArith Coq.Lists.List Coq.Bool.Bool Coq.Arith.PeanoNat.
Require Import Coq.micromega.Lia.
Require Import Verif.Base Verif.MainModel Verif.MainCmd Verif.Utf8Spec.
Require Import Verif.Utf8Facts.
Import ListNotations.
Local Open Scope string_scope.
Local Open Scope list_scope.

(* ---- theorems ---- *)
(** The check that decides whether a file is read accepts exactly UTF-8. *)
Theorem C62_utf8 : forall s, valid_utf8 s = true <-> exists cs, is_text s cs.
Proof. exact lem_C62_utf8. Qed.
Print Assumptions C62_utf8.

(** Letters of one to four bytes; a lone further byte, an overlong form, a surrogate, a code point that is too large, a text that breaks off. *)
Example C62_utf8_case :
  let s l := string_of_list_ascii (map ascii_of_N l) in
  is_text (s [0x61; 0xC3; 0xA9; 0xE2; 0x82; 0xAC; 0xF0; 0x9F; 0x90; 0xBE]%N) [0x61; 0xE9; 0x20AC; 0x1F43E]%N /\
  (forall l, In l [[0x80]; [0xC0; 0x80]; [0xED; 0xA0; 0x80]; [0xF4; 0x90; 0x80; 0x80]; [0xE2; 0x82]; [0xC3; 0xC0]]%N -> valid_utf8 (s l) = false).
Proof.
  split.
  - split; [repeat constructor; unfold scalar; lia|vm_compute; reflexivity].
  - intros l I.
  repeat (destruct I as [<-|I]; [vm_compute; reflexivity|]).
  destruct I.
Qed.

(** Bytes are at most one text. *)
Theorem C62_one_text : forall s cs cs', is_text s cs -> is_text s cs' -> cs = cs'.
Proof. exact lem_C62_one_text. Qed.
Print Assumptions C62_one_text.
Example C62_one_text_case : is_text "ab" [0x61; 0x62]%N.
Proof.
  split; [repeat constructor; unfold scalar; lia|reflexivity].
Qed.

(** A command whose file is missing or not UTF-8 ends with an error and changes nothing. *)
Theorem C62_refused : forall parse path w,
  (forall s cs, w_files w path = Some s -> ~ is_text s cs) ->
  (forall output l models buffers rpc, run_command parse (CGenerate path output l models buffers rpc) w = (IoError, w)) /\
  run_command parse (CYaml path) w = (IoError, w).
Proof. exact lem_C62_refused. Qed.
Print Assumptions C62_refused.
Example C62_refused_case :
  let w := mk_world (fun p => if String.eqb p "a.tpb" then Some (String "237" (String "160" (String "128" ""))) else None) "" (fun _ => true) (fun _ => None) in
  forall s cs, w_files w "a.tpb" = Some s -> ~ is_text s cs.
Proof.
  intros w s cs E T.
  cbn in E.
  injection E as <-.
  assert (V : valid_utf8 (String "237" (String "160" (String "128" ""))) = true) by (apply C62_utf8; now exists cs).
  vm_compute in V.
  discriminate V.
Qed.

(** A source that is UTF-8 is read: an error then means that the output could not be written. *)
Theorem C62_read : forall parse input output l models buffers rpc w w' s cs,
  w_files w input = Some s -> is_text s cs ->
  run_command parse (CGenerate input output l models buffers rpc) w = (IoError, w') ->
  output <> "-" /\ (w_creatable w output = false \/ exists n, w_capacity w output = Some n).
Proof. exact lem_C62_read. Qed.
Print Assumptions C62_read.
Example C62_read_case :
  let w := mk_world (fun p => if String.eqb p "a.tpb" then Some ("// " ++ String "195" (String "169" "")) else None)%string "" (fun _ => false) (fun _ => None) in
  (exists s cs, w_files w "a.tpb" = Some s /\ is_text s cs) /\
  fst (run_command (fun _ => None) (CGenerate "a.tpb" "a.rs" Rust false false false) w) = IoError /\ w_creatable w "a.rs" = false.
Proof.
  split; [eexists; exists [0x2F; 0x2F; 0x20; 0xE9]%N; split; [reflexivity|]; split; [repeat constructor; unfold scalar; lia|reflexivity]|].
  split; vm_compute; reflexivity.
Qed.

(** What is written is UTF-8, to files and to standard output; it can be read again. *)
Theorem C62_written : forall parse input output l models buffers rpc w w',
  run_command parse (CGenerate input output l models buffers rpc) w = (MainModel.Done, w') ->
  exists s cs, is_text s cs /\ Forall (fun c => (c < 256)%N) cs /\
    (output <> "-" -> w_files w' output = Some s /\ w_out w' = w_out w) /\
    (output = "-" -> w_out w' = (w_out w ++ s)%string /\ forall p, w_files w' p = w_files w p).
Proof. exact lem_C62_written. Qed.
Print Assumptions C62_written.
Example C62_written_case :
  let w := mk_world (fun p => if String.eqb p "a.tpb" then Some ("const texts { A: String = """ ++ String "195" (String "169" """; }"))%string else None) "" (fun _ => true) (fun _ => None) in
  fst (run_command (fun _ => None) (CGenerate "a.tpb" "-" Dart false false false) w) = MainModel.Done.
Proof.
  vm_compute.
  reflexivity.
Qed.

(** A write that breaks off can leave a file that is not UTF-8. *)
Theorem C62_written_refuted : exists parse input output l models buffers rpc w w' s,
  run_command parse (CGenerate input output l models buffers rpc) w = (IoError, w') /\ w_files w' output = Some s /\ forall cs, ~ is_text s cs.
Proof. exact lem_C62_written_refuted. Qed.
Print Assumptions C62_written_refuted.
