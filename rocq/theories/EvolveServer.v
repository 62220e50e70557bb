(** Remote calls between two versions of a schema: requests that the generated Rust handlers refuse. *)
Require Import Coq.Strings.String Coq.Strings.Ascii.
Require Import Coq.NArith.NArith Coq.ZArith.ZArith Coq.Lists.List Coq.Bool.Bool Coq.Arith.PeanoNat Coq.micromega.Lia.
Require Import Verif.Base Verif.Ast Verif.Code Verif.RustSyntax Verif.RustGen Verif.RustTree Verif.RustSem Verif.Wire Verif.RustCodec Verif.RustRpc.
Import ListNotations.
Local Open Scope string_scope.
Local Open Scope list_scope.

Section Server.
Variable R : runtime.
Variable V : service.
Variable items : list item.
Variable K : calls.
Hypothesis cl : clean K.
Notation eval := (ev R V items K "").
Notation run f := (run_fn R V items K "" f).

(** A request whose arguments cannot be read. *)
Definition unreadable (node : fn_node) (s : state) (sc : string) (a : Z) : Prop :=
  exists rest, rt_get R "u8" (s_mem s sc a "Server") = Some (255%Z, rest) /\ c_read K (ty0 (args_struct_id node)) (set_rd rest s) = Panics.
Lemma get_args_panics node sc a en s : no_none items -> served en sc a -> lookup "None" en = None -> lookup "Some" en = None -> unreadable node s sc a ->
  eval (get_args_tree node) en s = Panics.
Proof.
  intros N SV LN LS (rest & G & RD). rewrite (eval_get_args R V items K cl node sc a en s 255 rest SV N LN LS G). cbn [Z.eqb Pos.eqb]. now rewrite RD.
Qed.
Lemma sync_refuses node sc a s : no_none items -> is_sync node -> unreadable node s sc a -> run (the_handler node) (sync_args sc a) s = Panics.
Proof.
  intros N Y I. destruct (sync_body node Y) as [P B]. unfold run_fn. rewrite P, B.
  change (params _ _) with (Some (sync_env sc a)). unfold body. rewrite block_panics; [reflexivity|]. apply stmts_panics.
  change (ev_st R V items K "" (SLet "args" ?e) ?en s) with (bind (eval e en) (fun v => ret (("args", v) :: en)) s). unfold bind.
  now rewrite (get_args_panics node sc a _ s N (sync_served sc a) eq_refl eq_refl I).
Qed.
Lemma async_refuses node sc a s : no_none items -> is_async node -> unreadable node s sc a -> run (the_handler node) (async_args sc a) s = Panics.
Proof.
  intros N Y I. destruct (async_body node Y) as [P B]. unfold run_fn. rewrite P, B.
  change (params _ _) with (Some (async_env sc a)). unfold body. rewrite block_panics; [reflexivity|]. apply stmts_panics.
  change (ev_st R V items K "" (SLet "args" ?e) ?en s) with (bind (eval e en) (fun v => ret (("args", v) :: en)) s). unfold bind.
  now rewrite (get_args_panics node sc a _ s N (async_served sc a) eq_refl eq_refl I).
Qed.
End Server.
