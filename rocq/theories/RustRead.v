(** The golden schemas of the repository meet the hypothesis of
    [rust_file_generated], and their generated text reads back as its tree
    (a test of the reader, beside the proof in RustWf.v). *)

From Coq Require Import String List Bool.
From Verif Require Import Base Ast Lexer Parser RustGen Code RustSyntax RustPrint RustTree RustFile RustWf GoldenRust.
Import ListNotations.

Definition ready (src : string) : bool :=
  match compile_front src with Ok ast => rust_ready ast && Nat.leb 1 (List.length ast) | _ => false end.
Definition reads_as_tree (src : string) : Prop :=
  match compile_front src with
  | Ok ast => match rust_generate ast true true true with
    | Ok s => rust_file s = Some (rust_tree ast true true true)
    | _ => False end
  | _ => False end.

Example golden_ready :
  forallb ready [f_struct_tpb; f_enum_tpb; f_rpc_sync_methods_tpb; f_rpc_async_methods_tpb; f_rpc_read_methods_tpb;
    f_rpc_methods_tpb; f_consts_tpb] = true.
Proof. vm_compute. reflexivity. Qed.
Example golden_struct_reads : reads_as_tree f_struct_tpb. Proof. vm_compute. reflexivity. Qed.
Example golden_enum_reads : reads_as_tree f_enum_tpb. Proof. vm_compute. reflexivity. Qed.
Example golden_sync_reads : reads_as_tree f_rpc_sync_methods_tpb. Proof. vm_compute. reflexivity. Qed.
Example golden_async_reads : reads_as_tree f_rpc_async_methods_tpb. Proof. vm_compute. reflexivity. Qed.
Example golden_read_reads : reads_as_tree f_rpc_read_methods_tpb. Proof. vm_compute. reflexivity. Qed.
Example golden_rpc_reads : reads_as_tree f_rpc_methods_tpb. Proof. vm_compute. reflexivity. Qed.
Example golden_consts_reads : reads_as_tree f_consts_tpb. Proof. vm_compute. reflexivity. Qed.
