(** The meaning of the generated codecs. *)
Require Import Coq.Strings.String Coq.Strings.Ascii.
Require Import Coq.NArith.NArith Coq.ZArith.ZArith Coq.Lists.List Coq.Bool.Bool Coq.Arith.PeanoNat Coq.micromega.Lia Coq.Logic.FinFun.
Require Import Coq.micromega.ZifyBool Coq.micromega.ZifyN Coq.micromega.ZifyNat.
Require Import Verif.Base Verif.F64 Verif.Ast Verif.Writer Verif.Code Verif.LexSpec Verif.NumText Verif.RustSyntax Verif.RustGen Verif.RustTree Verif.RustSem
  Verif.Wire.
Import ListNotations.
Local Open Scope string_scope.
Local Open Scope list_scope.

(** ** The impls of a generated file *)

Definition args_decls (nodes : list fn_node) : list decl :=
  flat_map (fun n => if fn_is_read n then [] else
                       [DStruct (if fn_is_async n then async_args_struct n else sync_args_struct n)]) nodes.
Definition rust_decls (ast : list ast_node) (buffers rpc : bool) : list decl :=
  (if buffers then schema_decls ast else []) ++ (if rpc then args_decls (find_fn_nodes ast) else []).

Definition decl_fns (d : decl) : list rfn :=
  match d with
  | DStruct s => [struct_read_fn s; struct_write_fn s; struct_skip_fn s]
  | DEnum e => [enum_read_fn e; enum_write_fn e; enum_skip_fn e]
  end.

Definition or_else {A} (a b : option A) : option A := match a with Some x => Some x | None => b end.
Lemma find_impl_app n l m : find_impl n (l ++ m) = or_else (find_impl n l) (find_impl n m).
Proof. induction l as [|i l IH]; [reflexivity|]. cbn [app find_impl]. destruct (impl_of n i); [reflexivity|exact IH]. Qed.
Lemma find_impl_none n l : (forall i, In i l -> impl_of n i = None) -> find_impl n l = None.
Proof.
  induction l as [|i l IH]; intros H; [reflexivity|]. cbn [find_impl]. rewrite (H i (or_introl eq_refl)).
  apply IH. intros j J. apply H. now right.
Qed.
Lemma decl_of_app n l m : decl_of n (l ++ m) = or_else (decl_of n l) (decl_of n m).
Proof. unfold decl_of. induction l as [|d l IH]; [reflexivity|]. cbn [app find]. destruct (String.eqb _ _); [reflexivity|exact IH]. Qed.

Lemma impl_of_struct n s :
  impl_of n (struct_buffers_tree s) = if String.eqb (sn_id s) n then Some (decl_fns (DStruct s)) else None.
Proof. unfold struct_buffers_tree, impl_of, ty0. now destruct (String.eqb (sn_id s) n). Qed.
Lemma impl_of_enum n e :
  impl_of n (enum_buffers_tree e) = if String.eqb (en_id e) n then Some (decl_fns (DEnum e)) else None.
Proof. unfold enum_buffers_tree, impl_of, ty0. now destruct (String.eqb (en_id e) n). Qed.

Lemma find_impl_struct_model n s d : find_impl n (struct_model_tree s d) = None.
Proof. apply find_impl_none. unfold struct_model_tree. destruct (sn_fields s), d; cbn; intros i H; decompose [or] H; subst; easy. Qed.
Lemma find_impl_enum_model n e : find_impl n (enum_model_tree e) = None.
Proof. apply find_impl_none. unfold enum_model_tree. destruct (en_items e); cbn; intros i H; decompose [or] H; subst; easy. Qed.

Lemma find_impl_buffers n ast : find_impl n (buffers_tree ast) = option_map decl_fns (decl_of n (schema_decls ast)).
Proof.
  unfold buffers_tree, schema_decls. induction ast as [|a ast IH]; [reflexivity|]. cbn [flat_map].
  destruct a as [s|e|f|d|c]; cbn [app]; try exact IH; cbn [find_impl];
    rewrite ?impl_of_struct, ?impl_of_enum; unfold decl_of; cbn [find decl_name];
    destruct (String.eqb _ n); try reflexivity; exact IH.
Qed.
Lemma find_impl_models n ast : find_impl n (models_tree ast) = None.
Proof.
  unfold models_tree. induction ast as [|a ast IH]; [reflexivity|]. cbn [flat_map]. rewrite find_impl_app, IH.
  destruct a; cbn [or_else find_impl]; now rewrite ?find_impl_struct_model, ?find_impl_enum_model.
Qed.
Lemma find_impl_methods n nodes :
  find_impl n (flat_map rpc_method_tree nodes) = option_map decl_fns (decl_of n (args_decls nodes)).
Proof.
  unfold args_decls. induction nodes as [|f nodes IH]; [reflexivity|]. cbn [flat_map]. rewrite find_impl_app, IH, decl_of_app.
  unfold rpc_method_tree, async_method_tree, sync_method_tree, async_read_method_tree, sync_read_method_tree.
  destruct (fn_is_read f).
  - destruct (fn_is_async f); reflexivity.
  - destruct (fn_is_async f); rewrite find_impl_app, find_impl_struct_model; cbn [or_else find_impl];
      rewrite impl_of_struct; unfold decl_of; cbn [find decl_name]; destruct (String.eqb _ n); reflexivity.
Qed.
Lemma find_impl_rpc n ast :
  find_impl n (rpc_tree ast) = option_map decl_fns (decl_of n (args_decls (find_fn_nodes ast))).
Proof.
  unfold rpc_tree. destruct (find_fn_nodes ast) as [|f nodes]; [reflexivity|].
  cbn [find_impl]. rewrite <- find_impl_methods. reflexivity.
Qed.

Lemma find_impl_tree n ast m b r :
  find_impl n (rust_tree ast m b r) = option_map decl_fns (decl_of n (rust_decls ast b r)).
Proof.
  unfold rust_tree, rust_decls. rewrite !find_impl_app, decl_of_app.
  assert (U : find_impl n (user_uses ast) = None).
  { apply find_impl_none. unfold user_uses. intros i H. apply in_flat_map in H as (v & _ & H).
    destruct v as [[]]; cbn in H; decompose [or] H; subst; easy. }
  assert (C : find_impl n (consts_tree ast) = None).
  { apply find_impl_none. unfold consts_tree. intros i H. apply in_flat_map in H as (v & _ & H).
    destruct v as [| | | |[]]; cbn in H; decompose [or] H; subst; easy. }
  assert (X : forall c : bool, find_impl n (if c then buffers_use :: runtime_uses else if b then [buffers_use] else []) = None)
    by (intros []; destruct b; reflexivity).
  rewrite U, C, X. cbn [find_impl or_else impl_of allow].
  assert (Y : find_impl n (if m then models_tree ast else []) = None) by (destruct m; [apply find_impl_models|reflexivity]).
  rewrite Y. cbn [or_else].
  destruct b, r; cbn [find_impl or_else]; rewrite ?find_impl_buffers, ?find_impl_rpc;
    destruct (decl_of n (schema_decls ast)); reflexivity.
Qed.

(** ** Conditions *)

Fixpoint nodupb (l : list string) : bool :=
  match l with [] => true | x :: l' => negb (existsb (String.eqb x) l') && nodupb l' end.
Fixpoint nodupN (l : list N) : bool :=
  match l with [] => true | x :: l' => negb (existsb (N.eqb x) l') && nodupN l' end.
Definition keyword_name (n : string) : bool := existsb (String.eqb n) ["Self"; "true"; "false"].
(** The codec of a case compiles: its field names differ from each other and from the writer, and a
    tuple case is not called like the function it would hide. *)
Definition item_ok (i : enum_item) : bool :=
  match i with
  | ItemEmpty _ _ => true
  | ItemTuple _ n _ => negb (String.eqb n "read_from_buffers")
  | ItemStruct _ _ fs => nodupb (map sf_name fs) && negb (existsb (String.eqb "bytes_writer") (map sf_name fs))
  end.
Definition decl_ok (d : decl) : bool :=
  negb (keyword_name (decl_name d)) && negb (is_prim (decl_name d)) &&
  match d with
  | DStruct s => nodupb (map sf_name (sn_fields s))
  | DEnum e => forallb item_ok (en_items e)
  end.
(** Positions that fit the tag and are pairwise different. *)
Definition positions_fit (d : decl) : bool :=
  match d with
  | DStruct _ => true
  | DEnum e => forallb (fun i => (item_pos i <? 2 ^ 32)%N) (en_items e)
  end.
Definition positions_distinct (d : decl) : bool :=
  match d with
  | DStruct _ => true
  | DEnum e => nodupN (map item_pos (en_items e))
  end.

Lemma nodupb_NoDup l : nodupb l = true -> NoDup l.
Proof.
  induction l as [|x l IH]; [constructor|]. cbn. rewrite andb_true_iff, negb_true_iff. intros [A B].
  constructor; [|auto]. intros I. assert (existsb (String.eqb x) l = true); [|congruence].
  apply existsb_exists. exists x. split; [assumption|apply String.eqb_refl].
Qed.
Lemma nodupN_NoDup l : nodupN l = true -> NoDup l.
Proof.
  induction l as [|x l IH]; [constructor|]. cbn. rewrite andb_true_iff, negb_true_iff. intros [A B].
  constructor; [|auto]. intros I. assert (existsb (N.eqb x) l = true); [|congruence].
  apply existsb_exists. exists x. split; [assumption|apply N.eqb_refl].
Qed.
Lemma existsb_eqb_not_in x l : existsb (String.eqb x) l = false -> ~ In x l.
Proof. intros E I. assert (existsb (String.eqb x) l = true); [|congruence]. apply existsb_exists. exists x. split; [assumption|apply String.eqb_refl]. Qed.

(** ** The interpreter on generated code *)

Lemma method_prim_read t : is_prim t = true -> method_prim "read_" ("read_" ++ t) = Some t.
Proof.
  unfold is_prim, prims. cbn [existsb]. intros P.
  repeat (apply orb_true_iff in P; destruct P as [P|P]; [apply String.eqb_eq in P; subst t; reflexivity|]). discriminate.
Qed.
Lemma method_prim_write t : is_prim t = true -> method_prim "write_" ("write_" ++ t) = Some t.
Proof.
  unfold is_prim, prims. cbn [existsb]. intros P.
  repeat (apply orb_true_iff in P; destruct P as [P|P]; [apply String.eqb_eq in P; subst t; reflexivity|]). discriminate.
Qed.

Lemma set_rd_rd a b s : set_rd a (set_rd b s) = set_rd a s. Proof. reflexivity. Qed.
Lemma set_wr_wr a b s : set_wr a (set_wr b s) = set_wr a s. Proof. reflexivity. Qed.

Lemma bind_done {A B} (m : M A) (k : A -> M B) s a s' : m s = Done a s' -> bind m k s = k a s'.
Proof. unfold bind. now intros ->. Qed.

Section Run.
Variable R : runtime.
Variable V : service.
Variable items : list item.
Variable K : calls.
Variable slf : string.
Notation eval := (ev R V items K slf).
Notation eval_st := (ev_st R V items K slf).
Notation eval_block := (ev_block R V items K slf).

Lemma eval_var x en v s : lookup x en = Some v -> eval (var x) en s = Done v s.
Proof. intros E. cbn. unfold name_value. rewrite E. reflexivity. Qed.

Lemma bind_ret {A} (m : M A) s : bind m ret s = m s.
Proof. unfold bind, ret. now destruct (m s). Qed.
Lemma bind_ext {A B} (m : M A) (k k' : A -> M B) s : (forall a s', k a s' = k' a s') -> bind m k s = bind m k' s.
Proof. intros H. unfold bind. destruct (m s); auto. Qed.
Lemma bind_assoc {A B C} (m : M A) (k : A -> M B) (h : B -> M C) s :
  bind (bind m k) h s = bind m (fun a => bind (k a) h) s.
Proof. unfold bind. now destruct (m s). Qed.

(** Reading a value of a schema type. *)
Definition self_path (t : rty) : rty :=
  match t with RPath [n] l => RPath [resolve slf n] l | _ => t end.
Definition read_ty (t : type_id) : M val :=
  match prim_name t with
  | Some id => match method_prim "read_" ("read_" ++ id) with Some p => read_prim R p | None => stuck end
  | None => c_read K (self_path (rty_of t))
  end.
Lemma eval_read t en s : lookup "bytes_reader" en = Some (vref vreader) -> eval (read_tree t) en s = read_ty t s.
Proof.
  intros E. unfold read_ty.
  assert (P : forall id, eval (EPost (var "bytes_reader") [XMeth ("read_" ++ id) [] false]) en s =
    (match method_prim "read_" ("read_" ++ id) with Some p => read_prim R p | None => stuck end) s).
  { intros id. change (eval (EPost (var "bytes_reader") [XMeth ("read_" ++ id) [] false]) en s) with
      (bind (eval (var "bytes_reader") en) (fun v => bind (bind (ret []) (fun vs => method R K ("read_" ++ id) v vs)) ret) s).
    rewrite (bind_done _ _ s (vref vreader) s (eval_var _ _ _ _ E)). rewrite bind_ret. unfold bind, ret.
    unfold method. cbn [deref]. destruct (method_prim _ _); reflexivity. }
  assert (Q : forall p k, (forall vs, vs = [vref vreader] -> call_path V K slf en p vs = k) ->
    eval (EPost (EPath p) [XCall [var "bytes_reader"] false]) en s = k s).
  { intros p k H. change (eval (EPost (EPath p) [XCall [var "bytes_reader"] false]) en s) with
      (bind (bind (eval (var "bytes_reader") en) (fun b => bind (ret []) (fun bs => ret (b :: bs))))
        (fun vs => bind (call_path V K slf en p vs) ret) s).
    rewrite bind_assoc. rewrite (bind_done _ _ s (vref vreader) s (eval_var _ _ _ _ E)).
    rewrite bind_assoc. unfold bind at 1, ret at 1. unfold bind at 1, ret at 1. rewrite bind_ret. now rewrite H. }
  destruct t; cbn [read_tree prim_name assoc_fn rty_of]; try apply P.
  - unfold path2. apply Q. intros vs ->. reflexivity.
  - apply Q. intros vs ->. reflexivity.
Qed.

(** Writing a value. *)
Definition write_ty (t : type_id) (v : val) : M done :=
  match prim_name t with
  | Some id => match method_prim "write_" ("write_" ++ id) with Some p => write_prim R p v | None => stuck end
  | None => match deref v with
            | vnum _ _ | vrec _ _ | vcase _ _ | vcaset _ _ _ | vcases _ _ _ | vbox _ _ _ | vext _ _ => c_write K (deref v)
            | _ => stuck
            end
  end.
Definition no_async (e : ex) : Prop := match e with EBlock BAsync _ => False | _ => True end.
Lemma eval_write_prim m e en a s : lookup "bytes_writer" en = Some (vref vwriter) ->
  no_async e -> eval e en s = Done a s ->
  eval_st (SSemi (EPost (var "bytes_writer") [XMeth m [e] false])) en s =
  bind (match method_prim "write_" m with Some p => write_prim R p a | None => stuck end) (fun _ => ret en) s.
Proof.
  intros E N A.
  assert (X : eval (EPost (var "bytes_writer") [XMeth m [e] false]) en s =
    bind (eval (var "bytes_writer") en) (fun v => bind (bind (bind (eval e en) (fun b => bind (ret []) (fun bs => ret (b :: bs))))
       (fun vs => method R K m v vs)) ret) s) by (destruct e as [| | | | | | |[]| | | | | | | | | | |]; try reflexivity; destruct N).
  change (eval_st (SSemi (EPost (var "bytes_writer") [XMeth m [e] false])) en s) with
    (bind (eval (EPost (var "bytes_writer") [XMeth m [e] false]) en) (fun _ => ret en) s).
  unfold bind at 1. rewrite X.
  rewrite (bind_done _ _ s (vref vwriter) s (eval_var _ _ _ _ E)). rewrite bind_ret, !bind_assoc.
  rewrite (bind_done _ _ s a s A). unfold method. cbn [deref]. unfold bind, ret. cbv beta iota.
  destruct (method_prim "write_" m); [|reflexivity]. cbv beta iota. unfold bind, ret. destruct (write_prim _ _ _ _); reflexivity.
Qed.

Lemma eval_write_call e (acc : ex) en a s : lookup "bytes_writer" en = Some (vref vwriter) ->
  (eval e en s = bind (ev_post R V items K slf (XMeth "write_to_buffers" [var "bytes_writer"] false) a en) ret s) ->
  match deref a with
  | vnum _ _ | vrec _ _ | vcase _ _ | vcaset _ _ _ | vcases _ _ _ | vbox _ _ _ | vext _ _ => True
  | _ => False
  end ->
  eval_st (SSemi e) en s = bind (c_write K (deref a)) (fun _ => ret en) s.
Proof.
  intros E A T. change (eval_st (SSemi e) en s) with (bind (eval e en) (fun _ => ret en) s).
  unfold bind at 1. rewrite A, bind_ret.
  change (ev_post R V items K slf (XMeth "write_to_buffers" [var "bytes_writer"] false) a en) with
    (bind (bind (eval (var "bytes_writer") en) (fun b => bind (ret []) (fun bs => ret (b :: bs))))
       (fun vs => method R K "write_to_buffers" a vs)).
  rewrite bind_assoc, (bind_done _ _ s _ s (eval_var _ _ _ _ E)). rewrite bind_assoc.
  unfold bind at 1, ret at 1. unfold bind at 1, ret at 1. unfold method.
  destruct (deref a) eqn:D; try destruct T; cbv beta iota zeta; cbn [String.eqb Ascii.eqb Bool.eqb deref];
    unfold bind, ret; destruct (c_write K _ s); reflexivity.
Qed.

(** The two accessors. *)
Inductive access (en : env) : ex -> val -> Prop :=
| acc_var x a : lookup x en = Some a -> access en (var x) a
| acc_self f n fs a : lookup "self" en = Some (vref (vrec n fs)) -> lookup f fs = Some a -> access en (self_field f) a.
Lemma access_eval en e a s : access en e a -> eval e en s = Done a s.
Proof.
  intros [x a' E|f n fs a' E F]; [now apply eval_var|].
  change (eval (self_field f) en s) with (bind (eval (var "self") en) (fun v => bind (field f v) ret) s).
  rewrite (bind_done _ _ s _ s (eval_var _ _ _ _ E)). cbn [field deref]. rewrite F. reflexivity.
Qed.
Lemma access_no_async en e a : access en e a -> no_async e.
Proof. now intros []. Qed.
Lemma access_post en e a p s : access en e a -> (match p with XCall _ _ => False | _ => True end) ->
  eval (postfix e p) en s = bind (ev_post R V items K slf p a en) ret s.
Proof.
  intros [x a' E|f n fs a' E F] N; cbn [postfix var self_field].
  - transitivity (bind (eval (var x) en) (fun v => bind (ev_post R V items K slf p v en) ret) s).
    + destruct p; [reflexivity|destruct N|reflexivity].
    + now rewrite (bind_done _ _ s _ s (eval_var _ _ _ _ E)).
  - change (eval (EPost (var "self") ([XField f] ++ [p])) en s) with
      (bind (eval (var "self") en) (fun v => bind (field f v) (fun v => bind (ev_post R V items K slf p v en) ret)) s).
    rewrite (bind_done _ _ s _ s (eval_var _ _ _ _ E)). cbn [field deref]. rewrite F. reflexivity.
Qed.

Definition data (v : val) : Prop :=
  match v with
  | vnum _ _ | vrec _ _ | vcase _ _ | vcaset _ _ _ | vcases _ _ _ | vbox _ _ _ | vext _ _ => True
  | _ => False
  end.
(** [write(acc)] where [acc] is the value or a reference to it.  A primitive value must be given as
    itself: dereferenced if and only if it is a reference. *)
Lemma eval_write t e d en a v s : lookup "bytes_writer" en = Some (vref vwriter) -> access en e a ->
  data v -> (a = v \/ a = vref v) ->
  eval_st (write_tree t e d) en s =
  bind (match prim_name t with
        | Some id =>
            match (if d then match a with vref x => Some x | _ => None end else Some a) with
            | Some x => match method_prim "write_" ("write_" ++ id) with Some p => write_prim R p x | None => stuck end
            | None => stuck
            end
        | None => c_write K v
        end) (fun _ => ret en) s.
Proof.
  intros E A D O. pose proof (access_eval en e a) as AE.
  assert (P : forall id, eval_st (SSemi (EPost (var "bytes_writer") [XMeth ("write_" ++ id) [if d then EDeref e else e] false])) en s =
    bind (match (if d then match a with vref x => Some x | _ => None end else Some a) with
            | Some x => match method_prim "write_" ("write_" ++ id) with Some p => write_prim R p x | None => stuck end
            | None => stuck
            end) (fun _ => ret en) s).
  { intros id. destruct d.
    - destruct O as [->| ->].
      + destruct v; try destruct D; (change (eval_st (SSemi (EPost (var "bytes_writer") [XMeth ("write_" ++ id) [EDeref e] false])) en s) with
          (bind (bind (eval (var "bytes_writer") en) (fun v => bind (bind (bind (bind (eval e en) (fun v => match v with vref v' => ret v' | _ => stuck end)) (fun b => bind (ret []) (fun bs => ret (b :: bs))))
          (fun vs => method R K ("write_" ++ id) v vs)) ret)) (fun _ => ret en) s);
          rewrite bind_assoc, (bind_done _ _ s _ s (eval_var _ _ _ _ E)), !bind_assoc, (bind_done _ _ s _ s (AE s A)); reflexivity).
      + apply eval_write_prim; [assumption|exact Logic.I|].
        change (eval (EDeref e) en s) with (bind (eval e en) (fun v => match v with vref v' => ret v' | _ => stuck end) s).
        now rewrite (bind_done _ _ s _ s (AE s A)).
    - apply eval_write_prim; [assumption|now apply access_no_async in A|now apply AE]. }
  assert (Q : eval_st (SSemi (postfix e (XMeth "write_to_buffers" [var "bytes_writer"] false))) en s =
    bind (c_write K v) (fun _ => ret en) s).
  { assert (DV : deref a = v).
    { destruct O as [->| ->]; destruct v; try destruct D; reflexivity. }
    rewrite <- DV. apply eval_write_call; [exact e|assumption|now apply access_post|].
    rewrite DV. destruct v; try destruct D; exact Logic.I. }
  destruct t; cbn [write_tree prim_name]; auto.
Qed.
End Run.

(** ** Literals *)

Lemma digit_weight_ok c : digitb c = true -> hex_digit c = Some (Z.of_N (digit_weight c)) /\ (digit_weight c < 10)%N.
Proof. destruct c as [[] [] [] [] [] [] [] []]; cbv; intros H; try discriminate H; auto. Qed.
Lemma digits_positional s : forall acc, all_chars digitb s = true ->
  digits 10 (Z.of_N acc) s = Some (Z.of_N (acc * 10 ^ N.of_nat (String.length s) + positional 10 s)).
Proof.
  induction s as [|c s IH]; intros acc D.
  - cbn. do 2 f_equal. lia.
  - cbn [all_chars] in D. apply andb_true_iff in D as [C D]. destruct (digit_weight_ok c C) as [H L].
    cbn [digits String.length positional]. rewrite H. replace (_ <? 10)%Z with true by lia.
    replace (10 * Z.of_N acc + Z.of_N (digit_weight c))%Z with (Z.of_N (10 * acc + digit_weight c)) by lia.
    rewrite IH by assumption. do 2 f_equal. rewrite Nat2N.inj_succ, N.pow_succ_r'. lia.
Qed.
Lemma literal_show p : literal (show_N p) = Some (Z.of_N p).
Proof.
  pose proof (digits_positional (show_N p) 0 (show_N_digits p)) as H. rewrite show_N_value in H.
  pose proof (show_N_digits p) as D. pose proof (show_N_nonempty p) as N.
  change (Z.of_N 0) with 0%Z in H. rewrite N.mul_0_l, N.add_0_l in H.
  destruct (show_N p) as [|a [|b s]]; [congruence|rewrite <- H; destruct a as [[] [] [] [] [] [] [] []]; reflexivity|].
  assert (B : b <> "x"%char) by (intros ->; cbn in D; rewrite andb_false_r in D; discriminate).
  unfold literal. rewrite <- H. clear - B.
  destruct s; destruct a as [[] [] [] [] [] [] [] []]; try reflexivity;
    destruct b as [[] [] [] [] [] [] [] []]; try reflexivity; now destruct B.
Qed.

(** ** Round trip *)

Lemma mapMM_reads {A B} (f : A -> M B) (w : B -> bytes) l bs :
  Forall2 (fun a b => forall s r, f a (set_rd (w b ++ r) s) = Done b (set_rd r s)) l bs ->
  forall s r, mapMM f l (set_rd (flat_map w bs ++ r) s) = Done bs (set_rd r s).
Proof.
  induction 1 as [|a b l bs H _ IH]; intros s r; [reflexivity|].
  change (mapMM f (a :: l)) with (bind (f a) (fun b => bind (mapMM f l) (fun bs => ret (b :: bs)))).
  cbn [flat_map]. rewrite <- app_assoc.
  rewrite (bind_done _ _ _ _ _ (H s _)), (bind_done _ _ _ _ _ (IH s r)). reflexivity.
Qed.
Lemma chain_writes {A} (f : A -> env -> M env) (w : val -> bytes) en l vs :
  Forall2 (fun a v => forall s, f a en s = Done en (set_wr (s_wr s ++ w v) s)) l vs ->
  forall s, chain f l en s = Done en (set_wr (s_wr s ++ flat_map w vs) s).
Proof.
  induction 1 as [|a b l bs H _ IH]; intros s.
  - cbn. rewrite app_nil_r. destruct s; reflexivity.
  - change (chain f (a :: l) en) with (bind (f a en) (fun b => chain f l b)).
    rewrite (bind_done _ _ _ _ _ (H s)), IH, set_wr_wr. cbn [set_wr s_wr flat_map]. now rewrite app_assoc.
Qed.
Lemma all2_Forall2 {A B} (f : A -> B -> bool) l m : all2 f l m = true -> Forall2 (fun a b => f a b = true) l m.
Proof.
  revert m. induction l as [|a l IH]; intros [|b m]; cbn; try discriminate; [constructor|].
  rewrite andb_true_iff. intros [H E]. constructor; auto.
Qed.
Lemma Forall2_flip' {A B} (P : A -> B -> Prop) l m : Forall2 P l m -> Forall2 (fun b a => P a b) m l.
Proof. induction 1; constructor; auto. Qed.
Lemma Forall2_map_l {A B C} (P : B -> C -> Prop) (f : A -> B) l m : Forall2 (fun a c => P (f a) c) l m -> Forall2 P (map f l) m.
Proof. induction 1; constructor; auto. Qed.
Lemma Forall2_map_r {A B C} (P : A -> C -> Prop) (f : B -> C) l m : Forall2 (fun a b => P a (f b)) l m -> Forall2 P l (map f m).
Proof. induction 1; constructor; auto. Qed.
Lemma Forall2_impl_in {A B} (P Q : A -> B -> Prop) l m : (forall a b, In a l -> In b m -> P a b -> Q a b) ->
  Forall2 P l m -> Forall2 Q l m.
Proof.
  intros H F. induction F as [|a b l m X F IH]; constructor; [apply H; [now left|now left|assumption]|].
  apply IH. intros a' b' I J. apply H; now right.
Qed.
Lemma list_max_in (l : list nat) x : In x l -> x <= list_max l.
Proof.
  intros I. destruct (list_max_le l (list_max l)) as [H _]. specialize (H (le_n _)). rewrite Forall_forall in H. auto.
Qed.
Lemma typed_data R ds v t : typed R ds v t = true -> data v.
Proof. destruct v; cbn; try discriminate; auto. Qed.

Lemma find_item_in c e i : item_of c e = Some i -> In i (en_items e) /\ item_name i = c.
Proof.
  unfold item_of. intros H. apply find_some in H as [A B]. apply String.eqb_eq in B. auto.
Qed.
Lemma decl_of_in n ds d : decl_of n ds = Some d -> In d ds /\ decl_name d = n.
Proof. unfold decl_of. intros H. apply find_some in H as [A B]. apply String.eqb_eq in B. auto. Qed.

Section Codec.
Variable R : runtime.
Variable V : service.
Variable items : list item.
Variable ds : list decl.
Hypothesis impls : forall n, find_impl n items = option_map decl_fns (decl_of n ds).
Hypothesis ok : forallb decl_ok ds = true.

Lemma find_read n d : decl_of n ds = Some d ->
  find_method items n "read_from_buffers" = Some (match d with DStruct s => struct_read_fn s | DEnum e => enum_read_fn e end).
Proof.
  intros E. unfold find_method. rewrite impls, E. cbn [option_map].
  destruct d as [s|e]; [|reflexivity]. cbn [decl_fns find]. unfold struct_read_fn. now destruct (sn_fields s).
Qed.
Lemma find_write n d : decl_of n ds = Some d ->
  find_method items n "write_to_buffers" = Some (match d with DStruct s => struct_write_fn s | DEnum e => enum_write_fn e end).
Proof.
  intros E. unfold find_method. rewrite impls, E. cbn [option_map].
  destruct d as [s|e]; [|reflexivity]. cbn [decl_fns find]. unfold struct_read_fn, struct_write_fn. now destruct (sn_fields s).
Qed.
Lemma find_skip n d : decl_of n ds = Some d ->
  find_method items n "skip_in_buffers" = Some (match d with DStruct s => struct_skip_fn s | DEnum e => enum_skip_fn e end).
Proof.
  intros E. unfold find_method. rewrite impls, E. cbn [option_map].
  destruct d as [s|e]; [|reflexivity]. cbn [decl_fns find]. unfold struct_read_fn, struct_write_fn, struct_skip_fn. now destruct (sn_fields s).
Qed.

Lemma decl_ok_of n d : decl_of n ds = Some d -> decl_ok d = true /\ keyword_name n = false /\ is_prim n = false.
Proof.
  intros E. apply decl_of_in in E as [I <-]. pose proof ok as H. rewrite forallb_forall in H. specialize (H d I).
  split; [assumption|]. unfold decl_ok in H. rewrite !andb_true_iff, !negb_true_iff in H. tauto.
Qed.
Lemma not_self n d slf : decl_of n ds = Some d -> resolve slf n = n.
Proof.
  intros E. apply decl_ok_of in E as (_ & E & _). unfold keyword_name in E. cbn [existsb] in E.
  apply orb_false_iff in E as [E _]. unfold resolve. now rewrite E.
Qed.
Lemma typed_path v t slf : typed R ds v t = true -> prim_name t = None -> self_path slf (rty_of t) = rty_of t.
Proof.
  intros T N. destruct t as [| | | |m l|m]; try discriminate N.
  2: { cbn [rty_of self_path]. assert (resolve slf m = m) as ->; [|reflexivity].
    destruct v; cbn [typed prim_name] in T; try discriminate T.
    + destruct (decl_of n ds) as [[]|] eqn:E; try discriminate. apply andb_true_iff in T as [T _]. apply String.eqb_eq in T. subst. eapply not_self, E.
    + destruct (decl_of e ds) as [[]|] eqn:E; try discriminate. apply andb_true_iff in T as [T _]. apply String.eqb_eq in T. subst. eapply not_self, E.
    + destruct (decl_of e ds) as [[]|] eqn:E; try discriminate. apply andb_true_iff in T as [T _]. apply String.eqb_eq in T. subst. eapply not_self, E.
    + destruct (decl_of e ds) as [[]|] eqn:E; try discriminate. apply andb_true_iff in T as [T _]. apply String.eqb_eq in T. subst. eapply not_self, E.
    + rewrite !andb_true_iff in T. destruct T as [[[T _] N'] _]. apply String.eqb_eq in T. subst. unfold resolve.
      apply negb_true_iff in N'. now rewrite N'. }
  - cbn [rty_of self_path]. assert (resolve slf m = m) as ->; [|reflexivity].
    destruct v; cbn [typed prim_name] in T; try discriminate T; try (destruct (decl_of _ ds) as [[]|]; discriminate T).
    destruct l; [discriminate T|]. rewrite !andb_true_iff in T. destruct T as [[[T S] _] _]. apply String.eqb_eq in T. subst.
    unfold resolve. apply negb_true_iff in S. now rewrite S.
Qed.

(** What is known of the called codecs: [v] can be written and read. *)
Definition can_write (K : calls) (v : val) : Prop :=
  forall s, c_write K v s = Done RustSem.ok (set_wr (s_wr s ++ wire R ds v) s).
Definition can_read (K : calls) (t : type_id) (v : val) : Prop :=
  forall s r, c_read K (rty_of t) (set_rd (wire R ds v ++ r) s) = Done v (set_rd r s).

Lemma prim_write id v z : prim_name (TyBool id) = Some id -> v = vnum id z -> is_prim id = true ->
  (match method_prim "write_" ("write_" ++ id) with Some p => write_prim R p v | None => stuck end) = emit (rt_put R id z).
Proof.
  intros _ -> P. rewrite method_prim_write by assumption. unfold write_prim. now rewrite String.eqb_refl.
Qed.
Lemma typed_prim v t id : prim_name t = Some id -> typed R ds v t = true ->
  exists z, v = vnum id z /\ is_prim id = true /\ in_range id z = true.
Proof.
  intros P T. destruct t; try discriminate P; cbn [prim_name] in P; injection P as <-;
    (destruct v; cbn [typed prim_name] in T; try discriminate T; try (destruct (decl_of _ ds) as [[]|]; discriminate T);
     rewrite !andb_true_iff in T; destruct T as [[T1 T2] T3]; apply String.eqb_eq in T1; subst; eauto).
Qed.

Lemma write_one K slf t e (d : bool) en a v s : lookup "bytes_writer" en = Some (vref vwriter) -> access en e a ->
  typed R ds v t = true -> (if d then a = vref v else a = v \/ a = vref v /\ prim_name t = None) ->
  (prim_name t = None -> can_write K v) ->
  ev_st R V items K slf (write_tree t e d) en s = Done en (set_wr (s_wr s ++ wire R ds v) s).
Proof.
  intros E A T O W. rewrite (eval_write R V items K slf t e d en a v s E A (typed_data _ _ _ _ T)) by (destruct d; [auto|tauto]).
  destruct (prim_name t) as [id|] eqn:P.
  - destruct (typed_prim v t id P T) as (z & -> & Q & _).
    assert (X : (if d then match a with vref x => Some x | _ => None end else Some a) = Some (vnum id z)).
    { destruct d; [now subst|]. destruct O as [->|[_ O]]; [reflexivity|discriminate O]. }
    rewrite X, (prim_write id _ z eq_refl eq_refl Q). reflexivity.
  - unfold bind. rewrite (W eq_refl s). reflexivity.
Qed.

Section Lawful.
Hypothesis law : lawful R.

Lemma read_one K slf t v s r : typed R ds v t = true -> (prim_name t = None -> can_read K t v) ->
  read_ty R K slf t (set_rd (wire R ds v ++ r) s) = Done v (set_rd r s).
Proof.
  intros T W. unfold read_ty. destruct (prim_name t) as [id|] eqn:P.
  - destruct (typed_prim v t id P T) as (z & -> & Q & B). rewrite method_prim_read by assumption.
    unfold read_prim. cbn [set_rd s_rd wire]. rewrite (law_prim R law _ _ _ Q B). reflexivity.
  - rewrite (typed_path v t slf T P). apply (W eq_refl).
Qed.

(** *** Structs *)

Lemma lookup_nodup (fs : list (string * val)) x v : NoDup (map fst fs) -> In (x, v) fs -> lookup x fs = Some v.
Proof.
  induction fs as [|[y u] fs IH]; intros N I; [destruct I|]. cbn [map fst] in N. apply NoDup_cons_iff in N as [A B].
  cbn [lookup]. destruct I as [[= -> ->]|I]; [now rewrite String.eqb_refl|].
  destruct (String.eqb_spec x y) as [->|]; [|now apply IH]. exfalso. apply A. change y with (fst (y, v)). now apply in_map.
Qed.
Lemma fields_names fs l : all2 (fun '(x, v) f => String.eqb x (sf_name f) && typed R ds v (sf_type f)) fs l = true ->
  map fst fs = map sf_name l.
Proof.
  revert l. induction fs as [|[x v] fs IH]; intros [|f l] H; cbn in H; try discriminate; [reflexivity|].
  rewrite !andb_true_iff in H. destruct H as [[A _] B]. apply String.eqb_eq in A. cbn. f_equal; auto.
Qed.
Lemma wire_fields (fs : list (string * val)) : flat_map (fun '(_, v) => wire R ds v) fs = flat_map (wire R ds) (map snd fs).
Proof. induction fs as [|[x v] fs IH]; [reflexivity|]. cbn. now rewrite IH. Qed.
Lemma set_wr_nil s : set_wr (s_wr s ++ []) s = s.
Proof. rewrite app_nil_r. now destruct s. Qed.

Lemma struct_write K n fs s : decl_of n ds = Some (DStruct s) ->
  all2 (fun '(x, v) f => String.eqb x (sf_name f) && typed R ds v (sf_type f)) fs (sn_fields s) = true ->
  (forall v, In v (map snd fs) -> can_write K v) ->
  forall q, run_fn R V items K n (struct_write_fn s) [vref (vrec n fs); vref vwriter] q =
    Done vunit (set_wr (s_wr q ++ wire R ds (vrec n fs)) q).
Proof.
  intros D T W q. cbn [wire]. rewrite wire_fields.
  destruct (decl_ok_of n _ D) as (O & _ & _). unfold decl_ok in O. apply andb_true_iff in O as [_ O]. apply nodupb_NoDup in O.
  pose proof (fields_names _ _ T) as N. rewrite <- N in O. unfold struct_write_fn, run_fn.
  destruct (sn_fields s) as [|f0 l] eqn:F.
  - destruct fs; [|discriminate]. cbn [map flat_map]. rewrite set_wr_nil. reflexivity.
  - rewrite <- F in *. clear F f0 l. cbn [rf_params rf_body params String.eqb Ascii.eqb Bool.eqb].
    set (en := [("self", vref (vrec n fs)); ("bytes_writer", vref vwriter)]).
    assert (X : chain (fun s e => ev_st R V items K n s e)
        (map (fun f => write_tree (sf_type f) (self_field (sf_name f)) false) (sn_fields s)) en q =
        Done en (set_wr (s_wr q ++ flat_map (wire R ds) (map snd fs)) q)).
    { apply chain_writes. apply Forall2_map_l. apply Forall2_map_r. apply Forall2_flip'.
      apply all2_Forall2 in T. eapply Forall2_impl_in; [|exact T]. intros [x v] f I J H q'.
      apply andb_true_iff in H as [H1 H2]. apply String.eqb_eq in H1. subst x. cbn [snd].
      apply (write_one K n (sf_type f) (self_field (sf_name f)) false en v).
      - reflexivity.
      - apply (acc_self en _ n fs); [reflexivity|]. now apply lookup_nodup.
      - assumption.
      - now left.
      - intros _. apply W. apply in_map_iff. now exists (sf_name f, v). }
    unfold body. change (ev_block R V items K n (Blk ?l None) ?e) with (bind (chain (fun s e => ev_st R V items K n s e) l e) (fun _ => ret vunit)).
    now rewrite (bind_done _ _ _ _ _ X).
Qed.

Lemma struct_read K n fs s : decl_of n ds = Some (DStruct s) ->
  all2 (fun '(x, v) f => String.eqb x (sf_name f) && typed R ds v (sf_type f)) fs (sn_fields s) = true ->
  (forall v t, In v (map snd fs) -> typed R ds v t = true -> can_read K t v) ->
  forall q r, run_fn R V items K n (struct_read_fn s) [vref vreader] (set_rd (wire R ds (vrec n fs) ++ r) q) =
    Done (vrec n fs) (set_rd r q).
Proof.
  intros D T W q r. cbn [wire]. unfold struct_read_fn, run_fn.
  destruct (decl_ok_of n _ D) as (_ & KW & _).
  destruct (sn_fields s) as [|f0 l] eqn:F.
  - destruct fs; [|discriminate]. cbn [flat_map app rf_params rf_body params String.eqb Ascii.eqb Bool.eqb].
    unfold body. change (ev_block R V items K n (Blk [] (Some (var (sn_id s)))) [] (set_rd r q)) with (name_value items n [] (sn_id s) (set_rd r q)).
    apply decl_of_in in D as DN. destruct DN as [_ DN]. cbn [decl_name] in DN. rewrite DN. unfold name_value. cbn [lookup].
    unfold keyword_name in KW. cbn [existsb] in KW. rewrite !orb_false_iff in KW. destruct KW as (K1 & K2 & K3 & _). rewrite K1, K2, K3.
    unfold has_impl. rewrite impls, D. reflexivity.
  - rewrite <- F in *. clear F f0 l. cbn [rf_params rf_body params String.eqb Ascii.eqb Bool.eqb].
    set (en := [("bytes_reader", vref vreader)]).
    assert (X : mapMM (fun '(x, e) => bind (ev R V items K n e en) (fun v => ret (x, v))) (map field_read (sn_fields s))
        (set_rd (flat_map (fun '(_, v) => wire R ds v) fs ++ r) q) = Done fs (set_rd r q)).
    { revert q r. apply mapMM_reads. apply Forall2_map_l. apply Forall2_flip'. apply all2_Forall2 in T.
      eapply Forall2_impl_in; [|exact T]. intros [x v] f I J H q r. apply andb_true_iff in H as [H1 H2].
      apply String.eqb_eq in H1. subst x. cbn [field_read]. unfold bind. rewrite eval_read by reflexivity.
      rewrite (read_one K n (sf_type f) v q r H2); [reflexivity|]. intros _. apply W; [|assumption].
      apply in_map_iff. now exists (sf_name f, v). }
    unfold body. change (ev_block R V items K n (Blk [] (Some (EStruct [SName "Self"] ?l))) en) with
      (bind (mapMM (fun '(x, e) => bind (ev R V items K n e en) (fun v => ret (x, v))) l) (fun vs => ret (vrec n vs))).
    now rewrite (bind_done _ _ _ _ _ X).
Qed.

(** *** Enums *)

(** The arm of a value. *)
Definition case_value (e : string) (i : enum_item) (v : val) : Prop :=
  match i, v with
  | ItemEmpty _ c, vcase e' c' => e' = e /\ c' = c
  | ItemTuple _ c ts, vcaset e' c' l => e' = e /\ c' = c /\ all2 (fun v f => typed R ds v (tf_type f)) l ts = true
  | ItemStruct _ c l, vcases e' c' fs =>
      e' = e /\ c' = c /\
      all2 (fun '(x, v) f => String.eqb x (sf_name f) && typed R ds v (sf_type f)) fs l = true
  | _, _ => False
  end.
Lemma typed_case v m e : decl_of m ds = Some (DEnum e) -> typed R ds v (TyOther m) = true ->
  exists i, item_of (item_name i) e = Some i /\ case_value m i v.
Proof.
  intros D T. destruct v as [| | |n fs|a c|a c l|a c fs| |n x| | | | | | | | | | | | | | | | |]; cbn [typed prim_name] in T; try discriminate T.
  - destruct (decl_of n ds) as [[]|] eqn:E; try discriminate. apply andb_true_iff in T as [T _]. apply String.eqb_eq in T. congruence.
  - destruct (decl_of a ds) as [[]|] eqn:E; try discriminate. apply andb_true_iff in T as [T X]. apply String.eqb_eq in T. subst a.
    rewrite D in E. injection E as <-. destruct (item_of c e) as [i|] eqn:I; [|discriminate]. destruct (find_item_in _ _ _ I) as [_ N].
    exists i. rewrite N. split; [assumption|]. destruct i; try discriminate. cbn in *. auto.
  - destruct (decl_of a ds) as [[]|] eqn:E; try discriminate. apply andb_true_iff in T as [T X]. apply String.eqb_eq in T. subst a.
    rewrite D in E. injection E as <-. destruct (item_of c e) as [i|] eqn:I; [|discriminate]. destruct (find_item_in _ _ _ I) as [_ N].
    exists i. rewrite N. split; [assumption|]. destruct i; try discriminate. cbn in *. auto.
  - destruct (decl_of a ds) as [[]|] eqn:E; try discriminate. apply andb_true_iff in T as [T X]. apply String.eqb_eq in T. subst a.
    rewrite D in E. injection E as <-. destruct (item_of c e) as [i|] eqn:I; [|discriminate]. destruct (find_item_in _ _ _ I) as [_ N].
    exists i. rewrite N. split; [assumption|]. destruct i; try discriminate. cbn in *. auto.
  - exfalso. revert T. rewrite !andb_true_iff. intros T. decompose [and] T. clear T.
    match goal with H : String.eqb n m = true |- _ => apply String.eqb_eq in H; subst n end. rewrite D in *. discriminate.
Qed.

Lemma match_other e j i v : case_value e i v -> item_name j <> item_name i ->
  match_pat (fst (enum_write_arm e j)) (vref v) = Some None.
Proof.
  intros C N. destruct i, v; try contradiction C; cbn [case_value] in C; decompose [and] C; subst; destruct j; cbn [item_name] in N; cbn [enum_write_arm fst match_pat deref];
    rewrite ?String.eqb_refl; try reflexivity; 
    match goal with |- context [String.eqb ?a ?b] => destruct (String.eqb_spec a b) as [E|E]; [exfalso; congruence|reflexivity] | |- ?g => idtac g end.
Qed.
Definition payload_names (i : enum_item) : list string :=
  match i with
  | ItemEmpty _ _ => []
  | ItemTuple _ _ ts => map (fun iv => v_name (fst iv)) (enumerate ts)
  | ItemStruct _ _ l => map sf_name l
  end.
Definition payload (v : val) : list val :=
  match v with vcaset _ _ l => l | vcases _ _ fs => map snd fs | _ => [] end.

Lemma bind_names_map m names vs : List.length names = List.length vs ->
  bind_names m names vs = Some (combine names (map m vs)).
Proof.
  revert vs. induction names as [|x names IH]; intros [|v vs] L; cbn in L; try discriminate; [reflexivity|].
  cbn [bind_names]. rewrite IH by congruence. reflexivity.
Qed.
Lemma bind_fields_map m l fs : (forall x v, In (x, v) l -> lookup x fs = Some v) ->
  bind_fields m (map fst l) fs = Some (combine (map fst l) (map m (map snd l))).
Proof.
  induction l as [|[x v] l IH]; intros H; [reflexivity|]. cbn [map fst snd bind_fields].
  rewrite (H x v (or_introl eq_refl)), IH by (intros; apply H; now right). reflexivity.
Qed.
Lemma all2_length {A B} (f : A -> B -> bool) l m : all2 f l m = true -> List.length l = List.length m.
Proof. intros H. apply all2_Forall2 in H. induction H; cbn; congruence. Qed.
Lemma enumerate_from_length {A} i (l : list A) : List.length (enumerate_from i l) = List.length l.
Proof. revert i. induction l; intros; cbn; congruence. Qed.

Lemma match_this e i v : case_value e i v -> item_ok i = true ->
  match_pat (fst (enum_write_arm e i)) (vref v) = Some (Some (combine (payload_names i) (map vref (payload v)))).
Proof.
  intros C O. destruct i as [p c|p c ts|p c l], v; try contradiction C.
  - destruct C as [-> ->]. cbn. now rewrite !String.eqb_refl.
  - destruct C as (-> & -> & T). cbn [enum_write_arm fst match_pat deref]. rewrite !String.eqb_refl.
    rewrite bind_names_map; [reflexivity|]. unfold enumerate. rewrite map_length, enumerate_from_length. symmetry. now apply all2_length in T.
  - destruct C as (-> & -> & T). cbn [enum_write_arm fst match_pat deref]. rewrite !String.eqb_refl.
    pose proof (fields_names _ _ T) as N. apply all2_length in T. rewrite map_length, <- T, Nat.eqb_refl.
    cbn [item_ok] in O. apply andb_true_iff in O as [O _]. apply nodupb_NoDup in O. cbn [payload_names payload]. rewrite <- N in *.
    rewrite bind_fields_map; [reflexivity|]. intros x v I. now apply lookup_nodup.
Qed.

Lemma choose_write_arm e l i v (k : pat -> ex -> env -> M val) : case_value e i v ->
  find (fun j => String.eqb (item_name j) (item_name i)) l = Some i -> item_ok i = true ->
  choose (vref v) k (map (enum_write_arm e) l) =
  k (fst (enum_write_arm e i)) (snd (enum_write_arm e i)) (combine (payload_names i) (map vref (payload v))).
Proof.
  intros C F O. induction l as [|j l IH]; [discriminate|]. cbn [find] in F. cbn [map].
  change (choose (vref v) k (?a :: ?m)) with
    (let '(p, e) := a in match match_pat p (vref v) with Some (Some en) => k p e en | Some None => choose (vref v) k m | None => stuck end).
  destruct (String.eqb_spec (item_name j) (item_name i)) as [E|E].
  - injection F as ->. pose proof (match_this e i v C O) as H. destruct (enum_write_arm e i) as [p x]. cbn [fst snd] in *. now rewrite H.
  - pose proof (match_other e j i v C E) as H. destruct (enum_write_arm e j) as [p x]. cbn [fst] in H. rewrite H. now apply IH.
Qed.

Lemma v_name_inj i j : v_name i = v_name j -> i = j.
Proof.
  unfold v_name. cbn [append]. intros H. injection H as H. unfold show_nat in H. apply show_N_inj in H. lia.
Qed.
Lemma lookup_app_r x (a b : env) : lookup x a = None -> lookup x (a ++ b) = lookup x b.
Proof. induction a as [|[y v] a IH]; [reflexivity|]. cbn. destruct (String.eqb x y); [discriminate|auto]. Qed.
Lemma lookup_app_l x (a b : env) v : lookup x a = Some v -> lookup x (a ++ b) = Some v.
Proof. induction a as [|[y u] a IH]; [discriminate|]. cbn. destruct (String.eqb x y); auto. Qed.
Lemma lookup_combine_none x names (vs : list val) : ~ In x names -> lookup x (combine names vs) = None.
Proof.
  revert vs. induction names as [|y names IH]; intros [|v vs] N; try reflexivity. cbn.
  destruct (String.eqb_spec x y) as [->|]; [exfalso; apply N; now left|]. apply IH. intros I. apply N. now right.
Qed.
Lemma lookup_combine names (vs : list val) x v : NoDup names -> In (x, v) (combine names vs) -> lookup x (combine names vs) = Some v.
Proof.
  revert vs. induction names as [|y names IH]; intros [|u vs] N I; try destruct I.
  - injection H as -> ->. cbn. now rewrite String.eqb_refl.
  - apply NoDup_cons_iff in N as [A B]. cbn. destruct (String.eqb_spec x y) as [->|]; [|now apply IH].
    exfalso. apply A. now apply in_combine_l in H.
Qed.
Lemma enumerate_fst {A} i (l : list A) : map fst (enumerate_from i l) = seq i (List.length l).
Proof. revert i. induction l; intros; cbn; [reflexivity|]. now rewrite IHl. Qed.
Lemma payload_names_ok i : item_ok i = true -> NoDup (payload_names i) /\ ~ In "bytes_writer" (payload_names i).
Proof.
  destruct i as [p c|p c ts|p c l]; intros O; cbn [payload_names].
  - split; [constructor|easy].
  - assert (E : map (fun iv : nat * tuple_field => v_name (fst iv)) (enumerate ts) = map v_name (seq 0 (List.length ts))).
    { unfold enumerate. rewrite <- enumerate_fst with (l := ts). now rewrite map_map. }
    rewrite E. split.
    + apply Injective_map_NoDup; [intros a b; apply v_name_inj|apply seq_NoDup].
    + intros I. apply in_map_iff in I as (n & I & _). discriminate I.
  - cbn [item_ok] in O. apply andb_true_iff in O as [A B]. split; [now apply nodupb_NoDup|]. apply negb_true_iff in B. now apply existsb_eqb_not_in.
Qed.

Hypothesis fit : forallb positions_fit ds = true.
Lemma fit_of n e i : decl_of n ds = Some (DEnum e) -> In i (en_items e) -> (item_pos i < 2 ^ 32)%N.
Proof.
  intros D I. apply decl_of_in in D as [D _]. pose proof fit as F. rewrite forallb_forall in F. specialize (F _ D).
  cbn [positions_fit] in F. rewrite forallb_forall in F. specialize (F _ I). clear - F. lia.
Qed.
Lemma u32_range p : (p < 2 ^ 32)%N -> in_range "u32" (Z.of_N p) = true.
Proof. clear. intros H. change (in_range "u32" (Z.of_N p)) with ((0 <=? Z.of_N p) && (Z.of_N p <? 2 ^ 32))%Z. lia. Qed.

Lemma write_tag K slf p en s : lookup "bytes_writer" en = Some (vref vwriter) -> (p < 2 ^ 32)%N ->
  ev_st R V items K slf (tag_tree p) en s = Done en (set_wr (s_wr s ++ rt_put R "u32" (Z.of_N p)) s).
Proof.
  intros E F. unfold tag_tree, u32_type_id. cbn [write_tree].
  assert (N : ev R V items K slf (ENum (show_N p)) en s = Done (vint (Z.of_N p)) s).
  { change (ev R V items K slf (ENum (show_N p)) en) with (bind (of_opt (literal (show_N p))) (fun z => ret (vint z))).
    rewrite literal_show. reflexivity. }
  rewrite (eval_write_prim R V items K slf _ (ENum (show_N p)) en _ s E Logic.I N).
  change (method_prim "write_" ("write_" ++ "u32")) with (Some "u32"). unfold write_prim.
  replace (is_integer "u32") with true by reflexivity. rewrite (u32_range p F). reflexivity.
Qed.

Lemma tag_of m e i : decl_of m ds = Some (DEnum e) -> item_of (item_name i) e = Some i ->
  tag R ds m (item_name i) = rt_put R "u32" (Z.of_N (item_pos i)).
Proof. intros D I. unfold tag. now rewrite D, I. Qed.

Lemma wire_case m e i v : decl_of m ds = Some (DEnum e) -> item_of (item_name i) e = Some i -> case_value m i v ->
  wire R ds v = rt_put R "u32" (Z.of_N (item_pos i)) ++ flat_map (wire R ds) (payload v).
Proof.
  intros D I C. rewrite <- (tag_of m e i D I). destruct i, v; try contradiction C.
  - destruct C as [-> ->]. cbn. now rewrite app_nil_r.
  - destruct C as (-> & -> & _). reflexivity.
  - destruct C as (-> & -> & _). cbn [wire payload item_name]. now rewrite wire_fields.
Qed.

Lemma enum_write K m e v : decl_of m ds = Some (DEnum e) -> typed R ds v (TyOther m) = true ->
  (forall u, In u (payload v) -> can_write K u) ->
  forall q, run_fn R V items K m (enum_write_fn e) [vref v; vref vwriter] q =
    Done vunit (set_wr (s_wr q ++ wire R ds v) q).
Proof.
  intros D T W q. destruct (typed_case v m e D T) as (i & I & C). rewrite (wire_case m e i v D I C).
  destruct (find_item_in _ _ _ I) as [II _].
  destruct (decl_ok_of m _ D) as (O & _ & _). unfold decl_ok in O. apply andb_true_iff in O as [_ O].
  rewrite forallb_forall in O. specialize (O i II). pose proof (fit_of m e i D II) as F.
  apply decl_of_in in D as DN. destruct DN as [_ DN]. cbn [decl_name] in DN.
  unfold run_fn, enum_write_fn. cbn [rf_params rf_body params String.eqb Ascii.eqb Bool.eqb]. rewrite DN.
  set (en := [("self", vref v); ("bytes_writer", vref vwriter)]). unfold body.
  change (ev_block R V items K m (Blk [] (Some (EMatch (var "self") ?arms))) en q) with
    (choose (vref v) (fun _ e' en' => ev R V items K m e' (en' ++ en)) arms q).
  rewrite (choose_write_arm m (en_items e) i v _ C I O). cbv beta.
  destruct (payload_names_ok i O) as [ND NW].
  set (en' := combine (payload_names i) (map vref (payload v)) ++ en).
  assert (BW : lookup "bytes_writer" en' = Some (vref vwriter)).
  { unfold en'. rewrite lookup_app_r by now apply lookup_combine_none. reflexivity. }
  assert (ACC : forall x u, In (x, vref u) (combine (payload_names i) (map vref (payload v))) -> access en' (var x) (vref u)).
  { intros x u J. constructor. unfold en'. apply lookup_app_l. now apply lookup_combine. }
  assert (Y : forall l, Forall2 (fun a u => forall s, ev_st R V items K m a en' s = Done en' (set_wr (s_wr s ++ wire R ds u) s)) l (payload v) ->
    ev R V items K m (EBlock BPlain (Blk (tag_tree (item_pos i) :: l) None)) en' q =
    Done vunit (set_wr (s_wr q ++ rt_put R "u32" (Z.of_N (item_pos i)) ++ flat_map (wire R ds) (payload v)) q)).
  { intros l FL. change (ev R V items K m (EBlock BPlain (Blk (tag_tree (item_pos i) :: l) None)) en') with
      (bind (bind (ev_st R V items K m (tag_tree (item_pos i)) en') (fun b => chain (fun s e => ev_st R V items K m s e) l b)) (fun _ => ret vunit)).
    rewrite bind_assoc, (bind_done _ _ _ _ _ (write_tag K m _ en' q BW F)).
    rewrite (bind_done _ _ _ _ _ (chain_writes _ (wire R ds) en' l (payload v) FL _)). rewrite set_wr_wr. cbn [set_wr s_wr].
    now rewrite app_assoc. }
  destruct i as [p c|p c ts|p c l], v; try contradiction C; cbn [enum_write_arm snd item_pos] in *.
  - rewrite Y; [reflexivity|constructor].
  - rewrite Y; [reflexivity|]. destruct C as (-> & -> & TL). cbn [payload payload_names] in *. apply Forall2_map_l.
    assert (J : forall a u, In (a, u) (combine (enumerate ts) l) -> typed R ds u (tf_type (snd a)) = true ->
      forall s, ev_st R V items K m (write_tree (tf_type (snd a)) (var (v_name (fst a))) true) en' s = Done en' (set_wr (s_wr s ++ wire R ds u) s)).
    { intros a u J H s. apply (write_one K m _ _ true en' (vref u)); [assumption| |assumption|reflexivity|].
      - apply ACC. clear - J. revert l J. generalize (enumerate ts). induction l as [|b l0 IH]; intros [|u0 l] J; try destruct J.
        + injection H as -> ->. now left.
        + right. now apply IH.
      - intros _. apply W. now apply in_combine_r in J. }
    clear - TL J. clearbody en'. apply all2_Forall2 in TL. unfold enumerate in *. revert J. generalize 0 as n.
    induction TL as [|u f l ts H TL IH]; intros n J; [constructor|]. cbn [enumerate_from combine] in *. constructor.
    + apply J; [now left|assumption].
    + apply IH. intros a u' I. apply J. now right.
  - rewrite Y; [reflexivity|]. destruct C as (-> & -> & TL). cbn [payload payload_names] in *. apply Forall2_map_l. apply Forall2_map_r.
    pose proof (fields_names _ _ TL) as N. apply all2_Forall2 in TL. apply Forall2_flip'.
    eapply Forall2_impl_in; [|exact TL]. intros [x u] f J J' H s. apply andb_true_iff in H as [H1 H2]. apply String.eqb_eq in H1. subst x.
    cbn [snd]. apply (write_one K m _ _ true en' (vref u)); [assumption| |assumption|reflexivity|].
    + apply ACC. rewrite <- N. clear - J. induction fs as [|b fs IH]; [destruct J|]. destruct J as [->|J]; [now left|]. right. now apply IH.
    + intros _. apply W. apply in_map_iff. now exists (sf_name f, u).
Qed.

(** *** Reading, exactly *)

Definition no_return {A} (m : M A) : Prop := forall s v s', m s <> Returned v s'.
Definition clean (K : calls) : Prop := (forall t, no_return (c_read K t)) /\ (forall v, no_return (c_write K v)).

Lemma no_return_ret {A} (a : A) : no_return (ret a). Proof. discriminate. Qed.
Lemma no_return_stuck {A} : no_return (@stuck A). Proof. discriminate. Qed.
Lemma no_return_emit b : no_return (emit b). Proof. discriminate. Qed.
Lemma no_return_bind {A B} (m : M A) (k : A -> M B) : no_return m -> (forall a, no_return (k a)) -> no_return (bind m k).
Proof. intros H H' s v s'. unfold bind. destruct (m s) eqn:E; try discriminate; [apply H'|]. exfalso. exact (H _ _ _ E). Qed.
Lemma no_return_mapMM {A B} (f : A -> M B) l : (forall a, no_return (f a)) -> no_return (mapMM f l).
Proof.
  intros H. induction l as [|a l IH]; [apply no_return_ret|].
  change (mapMM f (a :: l)) with (bind (f a) (fun b => bind (mapMM f l) (fun bs => ret (b :: bs)))).
  apply no_return_bind; [apply H|]. intros b. apply no_return_bind; [apply IH|]. intros. apply no_return_ret.
Qed.
Lemma no_return_body m : no_return (body m).
Proof. intros s v s'. unfold body. destruct (m s); discriminate. Qed.
Lemma no_return_run K slf f vs : no_return (run_fn R V items K slf f vs).
Proof. unfold run_fn. destruct (params _ _); [apply no_return_body|discriminate]. Qed.
Lemma no_return_read_prim t : no_return (read_prim R t).
Proof. intros s v s'. unfold read_prim. destruct (rt_get R t (s_rd s)) as [[]|]; discriminate. Qed.
Lemma clean_upto n : clean (calls_upto R V items n).
Proof.
  induction n as [|n [IH1 IH2]]; split; try discriminate.
  - intros t. cbn [calls_upto c_read]. unfold read_with. destruct t as [segs args| |]; try apply no_return_stuck.
    destruct segs as [|x [|]]; try apply no_return_stuck. destruct args as [|a args].
    + destruct (find_method items x _); [apply no_return_run|]. destruct (has_impl items x); [apply no_return_stuck|].
      destruct (is_prim x); [apply no_return_read_prim|]. intros s v s'. destruct (rt_ext_get R x (s_rd s)) as [[]|]; discriminate.
    + intros s v s'. destruct (rt_head_get R x (s_rd s)) as [[k rest]|]; [|discriminate]. revert v s'. generalize (set_rd rest s).
      fold (@no_return val). apply no_return_bind; [|intros; apply no_return_ret]. apply no_return_mapMM. intros i. destruct (nth_error _ _); [apply IH1|apply no_return_stuck].
  - intros v. cbn [calls_upto c_write]. unfold write_with.
    assert (X : forall n', no_return (match find_method items n' "write_to_buffers" with
      | Some f => bind (run_fn R V items (calls_upto R V items n) n' f [vref v; vref vwriter]) (fun _ => ret RustSem.ok) | None => stuck end)).
    { intros n'. destruct (find_method _ _ _); [|apply no_return_stuck]. apply no_return_bind; [apply no_return_run|intros; apply no_return_ret]. }
    destruct v; try apply no_return_stuck; try apply no_return_emit; try apply X.
    apply no_return_bind; [apply no_return_emit|]. intros _. apply no_return_bind; [|intros; apply no_return_ret]. apply no_return_mapMM. apply IH2.
Qed.
Lemma body_clean m s : no_return m -> body m s = m s.
Proof. intros H. unfold body. destruct (m s) eqn:E; try reflexivity. exfalso. exact (H _ _ _ E). Qed.
Definition returning (v : val) : M val := fun s => Returned v s.
Lemma body_returned (m : M val) s : no_return m -> body (bind m returning) s = m s.
Proof. intros H. unfold body, bind. destruct (m s) eqn:E; try reflexivity. exfalso. exact (H _ _ _ E). Qed.
Lemma clean_read K slf t : clean K -> no_return (read_ty R K slf t).
Proof.
  intros [C _]. unfold read_ty. destruct (prim_name t); [|apply C]. destruct (method_prim _ _); [apply no_return_read_prim|apply no_return_stuck].
Qed.

(** The fields of a struct, or of a struct case, one after the other. *)
Definition read_fields (K : calls) (slf : string) (l : list struct_field) : M (list (string * val)) :=
  mapMM (fun f => bind (read_ty R K slf (sf_type f)) (fun v => ret (sf_name f, v))) l.
Definition read_case (K : calls) (m : string) (i : enum_item) : M val :=
  match i with
  | ItemEmpty _ c => ret (vcase m c)
  | ItemTuple _ c ts => bind (mapMM (fun f => read_ty R K m (tf_type f)) ts) (fun l => ret (vcaset m c l))
  | ItemStruct _ c l => bind (read_fields K m l) (fun fs => ret (vcases m c fs))
  end.
Definition with_tag (e : enum_node) {A} (k : enum_item -> M A) : M A := fun s =>
  match rt_get R "u32" (s_rd s) with
  | Some (z, rest) =>
      match find (fun i => Z.eqb (Z.of_N (item_pos i)) z) (en_items e) with
      | Some i => k i (set_rd rest s)
      | None => Panics
      end
  | None => Panics
  end.

Lemma mapMM_ext_in {A B} (f g : A -> M B) l s : (forall a s, In a l -> f a s = g a s) -> mapMM f l s = mapMM g l s.
Proof.
  revert s. induction l as [|a l IH]; intros s H; [reflexivity|].
  change (bind (f a) (fun b => bind (mapMM f l) (fun bs => ret (b :: bs))) s = bind (g a) (fun b => bind (mapMM g l) (fun bs => ret (b :: bs))) s).
  unfold bind. rewrite H by now left. destruct (g a s); try reflexivity. rewrite IH; [reflexivity|]. intros. apply H. now right.
Qed.
Lemma mapMM_map {A B C} (f : B -> M C) (g : A -> B) l : mapMM f (map g l) = mapMM (fun a => f (g a)) l.
Proof. induction l as [|a l IH]; [reflexivity|]. cbn [map]. change (mapMM f (g a :: map g l)) with (bind (f (g a)) (fun b => bind (mapMM f (map g l)) (fun bs => ret (b :: bs)))). now rewrite IH. Qed.

Lemma eval_fields K slf en l s : lookup "bytes_reader" en = Some (vref vreader) ->
  mapMM (fun '(x, e) => bind (ev R V items K slf e en) (fun v => ret (x, v))) (map field_read l) s = read_fields K slf l s.
Proof.
  intros E. rewrite mapMM_map. apply mapMM_ext_in. intros f q _. unfold field_read, bind. now rewrite eval_read.
Qed.
Lemma eval_reads K slf en (l : list tuple_field) s : lookup "bytes_reader" en = Some (vref vreader) ->
  mapMM (fun e => ev R V items K slf e en) (map (fun v => read_tree (tf_type v)) l) s = mapMM (fun f => read_ty R K slf (tf_type f)) l s.
Proof. intros E. rewrite mapMM_map. apply mapMM_ext_in. intros f q _. now rewrite eval_read. Qed.
Lemma no_return_fields K slf l : clean K -> no_return (read_fields K slf l).
Proof. intros C. apply no_return_mapMM. intros f. apply no_return_bind; [now apply clean_read|]. intros. apply no_return_ret. Qed.
Lemma no_return_case K m i : clean K -> no_return (read_case K m i).
Proof.
  intros C. destruct i; cbn [read_case]; [apply no_return_ret| |]; (apply no_return_bind; [|intros; apply no_return_ret]).
  - apply no_return_mapMM. intros. now apply clean_read.
  - now apply no_return_fields.
Qed.

Lemma read_struct_exact K n s q : clean K -> decl_of n ds = Some (DStruct s) ->
  run_fn R V items K n (struct_read_fn s) [vref vreader] q = bind (read_fields K n (sn_fields s)) (fun fs => ret (vrec n fs)) q.
Proof.
  intros C D. destruct (decl_ok_of n _ D) as (_ & KW & _). unfold struct_read_fn, run_fn.
  destruct (sn_fields s) as [|f0 l] eqn:F.
  - cbn [rf_params rf_body params String.eqb Ascii.eqb Bool.eqb].
    unfold body. change (ev_block R V items K n (Blk [] (Some (var (sn_id s)))) [] q) with (name_value items n [] (sn_id s) q).
    apply decl_of_in in D as DN. destruct DN as [_ DN]. cbn [decl_name] in DN. rewrite DN. unfold name_value. cbn [lookup].
    unfold keyword_name in KW. cbn [existsb] in KW. rewrite !orb_false_iff in KW. destruct KW as (K1 & K2 & K3 & _). rewrite K1, K2, K3.
    unfold has_impl. rewrite impls, D. reflexivity.
  - rewrite <- F in *. clear F f0 l. cbn [rf_params rf_body params String.eqb Ascii.eqb Bool.eqb].
    set (en := [("bytes_reader", vref vreader)]).
    change (ev_block R V items K n (Blk [] (Some (EStruct [SName "Self"] ?l))) en) with
      (bind (mapMM (fun '(x, e) => bind (ev R V items K n e en) (fun v => ret (x, v))) l) (fun vs => ret (vrec n vs))).
    unfold body, bind at 1. rewrite (eval_fields K n en (sn_fields s) q eq_refl).
    change (body (bind (read_fields K n (sn_fields s)) (fun fs => ret (vrec n fs))) q = bind (read_fields K n (sn_fields s)) (fun fs => ret (vrec n fs)) q).
    apply body_clean. apply no_return_bind; [now apply no_return_fields|intros; apply no_return_ret].
Qed.

Lemma choose_num {B} (l : list enum_item) (arm : enum_item -> pat * B) (last : pat * B) z (k : pat -> B -> env -> M val) :
  (forall i, In i l -> fst (arm i) = PNum (show_N (item_pos i)) /\ (item_pos i < 2 ^ 32)%N) -> fst last = PWild ->
  choose (vnum "u32" z) k (map arm l ++ [last]) =
  match find (fun i => Z.eqb (Z.of_N (item_pos i)) z) l with
  | Some i => k (fst (arm i)) (snd (arm i)) []
  | None => k PWild (snd last) []
  end.
Proof.
  intros H L. induction l as [|i l IH].
  - destruct last as [p b]. cbn [fst] in L. subst p. reflexivity.
  - cbn [map app find]. destruct (H i (or_introl eq_refl)) as [A F].
    assert (P : match_pat (fst (arm i)) (vnum "u32" z) = Some (if Z.eqb (Z.of_N (item_pos i)) z then Some [] else None)).
    { rewrite A. cbn [match_pat deref]. rewrite literal_show, (u32_range _ F). reflexivity. }
    change (choose (vnum "u32" z) k (arm i :: map arm l ++ [last])) with
      (let '(p, e) := arm i in match match_pat p (vnum "u32" z) with Some (Some en) => k p e en
        | Some None => choose (vnum "u32" z) k (map arm l ++ [last]) | None => stuck end).
    destruct (arm i) as [p b] eqn:AI. cbn [fst snd] in *. rewrite P. destruct (Z.eqb _ _); [now rewrite AI|].
    apply IH. intros j J. apply H. now right.
Qed.

Lemma read_u32 K slf en q : lookup "bytes_reader" en = Some (vref vreader) ->
  ev R V items K slf (read_tree u32_type_id) en q = read_prim R "u32" q.
Proof. intros E. now rewrite eval_read. Qed.

Lemma read_enum_exact K n e q : clean K -> decl_of n ds = Some (DEnum e) ->
  run_fn R V items K n (enum_read_fn e) [vref vreader] q = with_tag e (read_case K n) q.
Proof.
  intros C D. destruct (decl_ok_of n _ D) as (O & _ & _). unfold decl_ok in O. apply andb_true_iff in O as [_ O]. rewrite forallb_forall in O.
  apply decl_of_in in D as DN. destruct DN as [_ DN]. cbn [decl_name] in DN.
  unfold run_fn, enum_read_fn. cbn [rf_params rf_body params String.eqb Ascii.eqb Bool.eqb]. rewrite DN.
  set (en := [("bytes_reader", vref vreader)]).
  change (ev_block R V items K n (Blk [SLet "value" (read_tree u32_type_id)] (Some (EMatch (var "value") ?arms))) en) with
    (bind (bind (bind (ev R V items K n (read_tree u32_type_id) en) (fun v => ret (("value", v) :: en))) (fun b => ret b))
       (fun en1 => bind (ev R V items K n (var "value") en1) (fun v => choose v (fun _ e' en' => ev R V items K n e' (en' ++ en1)) arms))).
  unfold body. rewrite !bind_assoc. unfold bind at 1. rewrite (read_u32 K n en q eq_refl). unfold read_prim, with_tag.
  destruct (rt_get R "u32" (s_rd q)) as [[z rest]|]; [|reflexivity]. cbv beta iota. unfold bind at 1, ret at 1, bind at 1, ret at 1.
  set (en1 := ("value", vnum "u32" z) :: en). unfold bind at 1. rewrite (eval_var R V items K n "value" en1 _ _ eq_refl).
  rewrite (choose_num (en_items e) (enum_read_arm n) unsupported z); [| |reflexivity].
  2: { intros i I. split; [destruct i; reflexivity|]. exact (fit_of n e i D I). }
  destruct (find _ (en_items e)) as [i|] eqn:F; [|reflexivity].
  apply find_some in F as [F _]. specialize (O i F). cbn [app].
  change (body (ev R V items K n (snd (enum_read_arm n i)) en1) (set_rd rest q) = read_case K n i (set_rd rest q)).
  rewrite <- (body_returned (read_case K n i)) by now apply no_return_case. unfold body.
  assert (SELF : resolve n n = n) by (unfold resolve; now destruct (String.eqb n "Self")).
  destruct i as [p c|p c ts|p c l]; cbn [enum_read_arm snd read_case item_ok] in *.
  - change (ev R V items K n (EReturn (path2 n c)) en1) with (bind (ret (vcase (resolve n n) c)) returning). now rewrite SELF.
  - change (ev R V items K n (EReturn (EPost (path2 n c) [XCall ?a ?b])) en1) with
      (bind (bind (mapMM (fun e => ev R V items K n e en1) a) (fun vs => bind (call_path V K n en1 [SName n; SName c] vs) ret)) returning).
    rewrite !bind_assoc. unfold bind at 1. rewrite (eval_reads K n en1 ts _ eq_refl).
    unfold bind at 3. destruct (mapMM _ ts _); try reflexivity. unfold call_path. apply negb_true_iff in O. rewrite O, SELF. reflexivity.
  - change (ev R V items K n (EReturn (EStruct [SName n; SName c] ?a)) en1) with
      (bind (bind (mapMM (fun '(x, e) => bind (ev R V items K n e en1) (fun v => ret (x, v))) a) (fun vs => ret (vcases (resolve n n) c vs))) returning).
    rewrite !bind_assoc, SELF. unfold bind at 1. rewrite (eval_fields K n en1 l _ eq_refl). reflexivity.
Qed.

(** *** All values *)

Lemma find_method_none n m : decl_of n ds = None -> find_method items n m = None.
Proof. intros D. unfold find_method. now rewrite impls, D. Qed.

Lemma no_prim_decl n : is_prim n = true -> decl_of n ds = None.
Proof.
  intros P. destruct (decl_of n ds) eqn:D; [|reflexivity]. destruct (decl_ok_of n _ D) as (_ & _ & Q). congruence.
Qed.

Lemma depth_payload v u : In u (payload v) -> depth u < depth v.
Proof.
  destruct v; try (intros []); cbn [payload depth]; intros I.
  - apply (in_map depth) in I. apply list_max_in in I. lia.
  - apply in_map_iff in I as ([x w] & <- & I). apply (in_map (fun '(_, v) => depth v)) in I. apply list_max_in in I. cbn [snd]. lia.
Qed.

Lemma write_values n : forall v t, typed R ds v t = true -> depth v <= n -> can_write (calls_upto R V items n) v.
Proof.
  induction n as [|n IH]; intros v t T L s.
  - exfalso. destruct v; cbn in L; try lia; destruct o; lia.
  - cbn [calls_upto c_write].
    assert (SUB : forall u t', typed R ds u t' = true -> depth u < depth v -> can_write (calls_upto R V items n) u) by (intros u t' T' L'; apply (IH u t' T'); lia).
    assert (ENUM : forall m e, decl_of m ds = Some (DEnum e) -> t = TyOther m -> forall q,
      bind (run_fn R V items (calls_upto R V items n) m (enum_write_fn e) [vref v; vref vwriter]) (fun _ => ret RustSem.ok) q =
      Done RustSem.ok (set_wr (s_wr q ++ wire R ds v) q)).
    { intros m e D -> q. assert (W : forall u, In u (payload v) -> can_write (calls_upto R V items n) u).
      { intros u I. assert (exists t', typed R ds u t' = true) as [t' T'].
        { destruct (typed_case v m e D T) as (i & _ & C). destruct i, v; try contradiction C; try (destruct I);
            destruct C as (_ & _ & C); apply all2_Forall2 in C; cbn [payload] in I.
          - clear - I C. induction C; [destruct I|]. destruct I as [->|I]; eauto.
          - apply in_map_iff in I as ([x w] & E & I). cbn [snd] in E. subst w. clear - I C. induction C; [destruct I|]. destruct I as [->|I]; [|eauto].
            cbv beta iota in H. apply andb_true_iff in H as [_ H]. eauto. }
        apply (SUB u t' T'). now apply depth_payload. }
      now rewrite (bind_done _ _ _ _ _ (enum_write _ m e v D T W q)). }
    destruct v as [p z| | |m fs|m c|m c l|m c fs|g k l|x y| | | | | | | | | | | | | | | | |]; try discriminate T.
    + reflexivity.
    + cbn [write_with]. cbn [typed] in T. destruct t as [| | | | |mm]; try discriminate. destruct (decl_of m ds) as [[sn|]|] eqn:D; try discriminate.
      apply andb_true_iff in T as [_ T]. rewrite (find_write m _ D).
      assert (W : forall v, In v (map snd fs) -> can_write (calls_upto R V items n) v).
      { intros u I. apply in_map_iff in I as ([x w] & E & I). cbn [snd] in E. subst w.
        assert (exists t', typed R ds u t' = true) as [t' T'].
        { apply all2_Forall2 in T. clear - I T. induction T; [destruct I|]. destruct I as [->|I]; [|eauto]. cbv beta iota in H. apply andb_true_iff in H as [_ H]. eauto. }
        apply (SUB u t' T'). cbn [depth]. apply (in_map (fun '(_, v) => depth v)) in I. apply list_max_in in I. lia. }
      now rewrite (bind_done _ _ _ _ _ (struct_write _ m fs sn D T W s)).
    + cbn [write_with]. cbn [typed] in T. destruct t as [| | | | |mm]; try discriminate. destruct (decl_of m ds) as [[|e]|] eqn:D; try discriminate.
      apply andb_true_iff in T as [T _]. apply String.eqb_eq in T. subst mm. rewrite (find_write m _ D). now apply ENUM.
    + cbn [write_with]. cbn [typed] in T. destruct t as [| | | | |mm]; try discriminate. destruct (decl_of m ds) as [[|e]|] eqn:D; try discriminate.
      apply andb_true_iff in T as [T _]. apply String.eqb_eq in T. subst mm. rewrite (find_write m _ D). now apply ENUM.
    + cbn [write_with]. cbn [typed] in T. destruct t as [| | | | |mm]; try discriminate. destruct (decl_of m ds) as [[|e]|] eqn:D; try discriminate.
      apply andb_true_iff in T as [T _]. apply String.eqb_eq in T. subst mm. rewrite (find_write m _ D). now apply ENUM.
    + cbn [write_with wire]. cbn [typed] in T. destruct t as [| | | |h [|a args]|]; try discriminate.
      apply andb_true_iff in T as [_ T]. unfold bind at 1, emit.
      assert (X : forall q, mapMM (c_write (calls_upto R V items n)) l q = Done (map (fun _ => RustSem.ok) l) (set_wr (s_wr q ++ flat_map (wire R ds) l) q)).
      { assert (W : forall u, In u l -> can_write (calls_upto R V items n) u).
        { intros u I. assert (exists t', typed R ds u t' = true) as [t' T'].
          { apply all2_Forall2 in T. clear - I T. induction T as [|u' i l is H T IH]; [destruct I|]. destruct I as [->|I]; [|eauto]. destruct (nth_error _ _); [eauto|discriminate]. }
          apply (SUB u t' T'). cbn [depth]. apply (in_map depth) in I. apply list_max_in in I. lia. }
        clear - W. induction l as [|u l IH]; intros q; [cbn; now rewrite app_nil_r; destruct q|].
        change (mapMM (c_write (calls_upto R V items n)) (u :: l)) with
          (bind (c_write (calls_upto R V items n) u) (fun b => bind (mapMM (c_write (calls_upto R V items n)) l) (fun bs => ret (b :: bs)))).
        rewrite (bind_done _ _ _ _ _ (W u (or_introl eq_refl) q)).
        rewrite (bind_done _ _ _ _ _ (IH (fun u I => W u (or_intror I)) _)). rewrite set_wr_wr. cbn [set_wr s_wr flat_map map].
        now rewrite app_assoc. }
      rewrite (bind_done _ _ _ _ _ (X _)). rewrite set_wr_wr. cbn [set_wr s_wr]. now rewrite app_assoc.
    + reflexivity.
Qed.

Hypothesis distinct : forallb positions_distinct ds = true.
Lemma find_position n e i : decl_of n ds = Some (DEnum e) -> In i (en_items e) ->
  find (fun j => Z.eqb (Z.of_N (item_pos j)) (Z.of_N (item_pos i))) (en_items e) = Some i.
Proof.
  intros D I. apply decl_of_in in D as [D _]. pose proof distinct as X. rewrite forallb_forall in X. specialize (X _ D). cbn [positions_distinct] in X.
  apply nodupN_NoDup in X. clear D. induction (en_items e) as [|j l IH]; [destruct I|]. cbn [find]. cbn [map] in X. apply NoDup_cons_iff in X as [X Y].
  destruct (Z.eqb_spec (Z.of_N (item_pos j)) (Z.of_N (item_pos i))) as [E|E].
  - destruct I as [->|I]; [reflexivity|]. exfalso. apply X. apply in_map_iff. exists i. split; [lia|assumption].
  - destruct I as [->|I]; [congruence|]. now apply IH.
Qed.

Lemma read_fields_one K slf fs l : all2 (fun '(x, v) f => String.eqb x (sf_name f) && typed R ds v (sf_type f)) fs l = true ->
  (forall v t, In v (map snd fs) -> typed R ds v t = true -> can_read K t v) ->
  forall q r, read_fields K slf l (set_rd (flat_map (fun '(_, v) => wire R ds v) fs ++ r) q) = Done fs (set_rd r q).
Proof.
  intros T W. apply mapMM_reads. apply Forall2_flip'. apply all2_Forall2 in T.
  eapply Forall2_impl_in; [|exact T]. intros [x v] f I J H q r. apply andb_true_iff in H as [H1 H2].
  apply String.eqb_eq in H1. subst x. unfold bind.
  rewrite (read_one K slf (sf_type f) v q r H2); [reflexivity|]. intros _. apply W; [|assumption].
  apply in_map_iff. now exists (sf_name f, v).
Qed.

Lemma enum_read K m e v : clean K -> decl_of m ds = Some (DEnum e) -> typed R ds v (TyOther m) = true ->
  (forall u t, In u (payload v) -> typed R ds u t = true -> can_read K t u) ->
  forall q r, run_fn R V items K m (enum_read_fn e) [vref vreader] (set_rd (wire R ds v ++ r) q) = Done v (set_rd r q).
Proof.
  intros CL D T W q r. destruct (typed_case v m e D T) as (i & I & C). rewrite (wire_case m e i v D I C).
  destruct (find_item_in _ _ _ I) as [II _]. rewrite (read_enum_exact K m e _ CL D). unfold with_tag. rewrite <- app_assoc. cbn [set_rd s_rd].
  rewrite (law_prim R law "u32" _ _ eq_refl (u32_range _ (fit_of m e i D II))). rewrite (find_position m e i D II).
  rewrite set_rd_rd. destruct i as [p c|p c ts|p c l], v; try contradiction C; cbn [read_case payload].
  - destruct C as [-> ->]. reflexivity.
  - destruct C as (-> & -> & TL). cbn [payload] in W. erewrite (bind_done _ _ (set_rd (flat_map (wire R ds) l ++ r) q)); [reflexivity|].
    revert q r. apply mapMM_reads. apply Forall2_flip'. apply all2_Forall2 in TL. eapply Forall2_impl_in; [|exact TL].
    intros u f J J' H q r. apply read_one; [assumption|]. intros _. now apply W.
  - destruct C as (-> & -> & TL). rewrite <- wire_fields. now rewrite (bind_done _ _ _ _ _ (read_fields_one K m fs l TL W q r)).
Qed.

Lemma read_values n : forall v t, typed R ds v t = true -> depth v <= n -> can_read (calls_upto R V items n) t v.
Proof.
  induction n as [|n IH]; intros v t T L s r.
  - exfalso. destruct v; cbn in L; try lia; destruct o; lia.
  - cbn [calls_upto c_read].
    assert (SUB : forall u t', depth u < depth v -> typed R ds u t' = true -> can_read (calls_upto R V items n) t' u) by (intros u t' L' T'; apply (IH u t' T'); lia).
    assert (ENUM : forall m e, decl_of m ds = Some (DEnum e) -> t = TyOther m ->
       read_with R V items (calls_upto R V items n) (rty_of t) (set_rd (wire R ds v ++ r) s) = Done v (set_rd r s)).
    { intros m e D ->. cbn [rty_of read_with]. unfold ty0. cbn [read_with]. rewrite (find_read m _ D). apply enum_read; [apply clean_upto|assumption|assumption|].
      intros u t I. apply SUB. now apply depth_payload. }
    destruct v as [p z| | |m fs|m c|m c l|m c fs|g k l|x y| | | | | | | | | | | | | | | | |]; try discriminate T.
    + cbn [typed] in T. destruct (prim_name t) as [id|] eqn:P; [|discriminate]. apply andb_true_iff in T as [T B]. apply andb_true_iff in T as [T Q].
      apply String.eqb_eq in T. subst id.
      assert (E : rty_of t = RPath [p] []) by (destruct t; cbn in P |- *; congruence). rewrite E. cbn [read_with].
      rewrite find_method_none by now apply no_prim_decl. unfold has_impl. rewrite impls, (no_prim_decl p Q). cbn [option_map]. rewrite Q.
      unfold read_prim. cbn [set_rd s_rd wire]. now rewrite (law_prim R law _ _ _ Q B).
    + cbn [typed] in T. destruct t as [| | | | |mm]; try discriminate. destruct (decl_of m ds) as [[sn|]|] eqn:D; try discriminate.
      apply andb_true_iff in T as [E T]. apply String.eqb_eq in E. subst mm. cbn [rty_of]. unfold ty0. cbn [read_with]. rewrite (find_read m _ D).
      apply struct_read; [assumption|assumption|]. intros u t I. apply SUB. apply in_map_iff in I as ([x w] & E & I). cbn [snd] in E. subst w.
      cbn [depth]. apply (in_map (fun '(_, v) => depth v)) in I. apply list_max_in in I. lia.
    + cbn [typed] in T. destruct t as [| | | | |mm]; try discriminate. destruct (decl_of m ds) as [[|e]|] eqn:D; try discriminate.
      apply andb_true_iff in T as [E _]. apply String.eqb_eq in E. subst mm. now apply (ENUM m e).
    + cbn [typed] in T. destruct t as [| | | | |mm]; try discriminate. destruct (decl_of m ds) as [[|e]|] eqn:D; try discriminate.
      apply andb_true_iff in T as [E _]. apply String.eqb_eq in E. subst mm. now apply (ENUM m e).
    + cbn [typed] in T. destruct t as [| | | | |mm]; try discriminate. destruct (decl_of m ds) as [[|e]|] eqn:D; try discriminate.
      apply andb_true_iff in T as [E _]. apply String.eqb_eq in E. subst mm. now apply (ENUM m e).
    + cbn [typed] in T. destruct t as [| | | |h [|a args]|]; try discriminate.
      rewrite !andb_true_iff in T. destruct T as [[[E _] H] T]. apply String.eqb_eq in E. subst h.
      change (rty_of (TyGeneric g (a :: args))) with (RPath [g] (rty_of a :: map rty_of args)). cbn [read_with].
      cbn [set_rd s_rd wire]. rewrite <- app_assoc, (law_head R law _ _ _ H), set_rd_rd.
      erewrite (bind_done _ _ (set_rd (flat_map (wire R ds) l ++ r) s)); [reflexivity|].
      assert (SUB' : forall u t', In u l -> typed R ds u t' = true -> can_read (calls_upto R V items n) t' u).
      { intros u t' I. apply SUB. cbn [depth]. apply (in_map depth) in I. apply list_max_in in I. lia. }
      clear - T SUB'. revert s r. apply mapMM_reads. apply Forall2_flip'. apply all2_Forall2 in T. eapply Forall2_impl_in; [|exact T].
      intros u i I J H q r. cbv beta in H. change (rty_of a :: map rty_of args) with (map rty_of (a :: args)). rewrite nth_error_map.
      destruct (nth_error (a :: args) i) as [t'|] eqn:NE; cbv beta iota in H; [|discriminate H]. cbn [option_map]. now apply SUB'.
    + cbn [typed] in T. destruct t as [| | | | |mm]; try discriminate. rewrite !andb_true_iff in T. destruct T as [[[E P] _] T]. apply String.eqb_eq in E. subst mm.
      destruct (decl_of x ds) eqn:D; [discriminate|]. cbn [rty_of]. unfold ty0. cbn [read_with]. rewrite (find_method_none x _ D). unfold has_impl. rewrite impls, D. cbn [option_map].
      apply negb_true_iff in P. rewrite P. cbn [set_rd s_rd wire]. now rewrite (law_ext R law _ _ _ T).
Qed.
End Lawful.

(** *** Skipping, exactly *)
Section Skip.
Hypothesis fit : forallb positions_fit ds = true.

Lemma bind_ext2 {A B} (m m' : M A) (k k' : A -> M B) s : m s = m' s -> (forall a s', k a s' = k' a s') -> bind m k s = bind m' k' s.
Proof. intros H H'. unfold bind. rewrite H. destruct (m' s); auto. Qed.
Lemma times_ext n (m m' : M done) s : (forall s, m s = m' s) -> times n m s = times n m' s.
Proof. intros H. revert s. induction n as [|n IH]; intros s; [reflexivity|]. cbn [times]. apply bind_ext2; auto. Qed.
Lemma times_ok n s : times n (ret RustSem.ok) s = Done RustSem.ok s.
Proof. induction n as [|n IH]; [reflexivity|]. cbn [times]. exact IH. Qed.

Lemma chain_reads {A} K slf en (ty : A -> type_id) l q : lookup "bytes_reader" en = Some (vref vreader) ->
  chain (fun s e => ev_st R V items K slf s e) (map (fun f => SSemi (read_tree (ty f))) l) en q =
  bind (mapMM (fun f => read_ty R K slf (ty f)) l) (fun _ => ret en) q.
Proof.
  intros E. revert q. induction l as [|f l IH]; intros q; [reflexivity|]. cbn [map].
  change (chain (fun s e => ev_st R V items K slf s e) (SSemi (read_tree (ty f)) :: ?m) en) with
    (bind (bind (ev R V items K slf (read_tree (ty f)) en) (fun _ => ret en)) (fun b => chain (fun s e => ev_st R V items K slf s e) m b)).
  change (mapMM (fun f => read_ty R K slf (ty f)) (f :: l)) with
    (bind (read_ty R K slf (ty f)) (fun b => bind (mapMM (fun f => read_ty R K slf (ty f)) l) (fun bs => ret (b :: bs)))).
  rewrite !bind_assoc. apply bind_ext2; [now apply eval_read|]. intros a s'. unfold bind at 1, ret at 1. rewrite IH, !bind_assoc. reflexivity.
Qed.
Lemma fields_reads K slf l q {B} (k : M B) :
  bind (read_fields K slf l) (fun _ => k) q = bind (mapMM (fun f => read_ty R K slf (sf_type f)) l) (fun _ => k) q.
Proof.
  revert q k. unfold read_fields. induction l as [|f l IH]; intros q k; [reflexivity|].
  change (mapMM (fun f => read_ty R K slf (sf_type f)) (f :: l)) with
    (bind (read_ty R K slf (sf_type f)) (fun b => bind (mapMM (fun f => read_ty R K slf (sf_type f)) l) (fun bs => ret (b :: bs)))).
  change (mapMM (fun f => bind (read_ty R K slf (sf_type f)) (fun v => ret (sf_name f, v))) (f :: l)) with
    (bind (bind (read_ty R K slf (sf_type f)) (fun v => ret (sf_name f, v)))
       (fun b => bind (mapMM (fun f => bind (read_ty R K slf (sf_type f)) (fun v => ret (sf_name f, v))) l) (fun bs => ret (b :: bs)))).
  rewrite !bind_assoc. apply bind_ext2; [reflexivity|]. intros a s'. unfold bind at 1, ret at 1. rewrite !bind_assoc. apply (IH s' k).
Qed.

Lemma skip_loop K slf l count q :
  body (ev_block R V items K slf (Blk [SFor (ENum "0") (var "count") l] None)
    [("bytes_reader", vref vreader); ("count", vnum "u64" count)]) q =
  body (bind (times (Z.to_nat count) (bind (ev_block R V items K slf l [("bytes_reader", vref vreader); ("count", vnum "u64" count)]) (fun _ => ret RustSem.ok)))
    (fun _ => ret vunit)) q.
Proof.
  set (en := [("bytes_reader", vref vreader); ("count", vnum "u64" count)]). unfold body.
  change (ev_block R V items K slf (Blk [SFor (ENum "0") (var "count") l] None) en) with
    (bind (bind (bind (times (Z.to_nat (count - 0)) (bind (ev_block R V items K slf l en) (fun _ => ret RustSem.ok))) (fun _ => ret en)) (fun b => ret b)) (fun _ => ret vunit)).
  rewrite !bind_assoc, Z.sub_0_r. reflexivity.
Qed.
Lemma no_return_times n m : no_return m -> no_return (times n m).
Proof. intros H. induction n as [|n IH]; [apply no_return_ret|]. cbn [times]. apply no_return_bind; [assumption|]. intros _. exact IH. Qed.

Lemma skip_struct_exact K n s count q : clean K -> decl_of n ds = Some (DStruct s) ->
  run_fn R V items K n (struct_skip_fn s) [vref vreader; vnum "u64" count] q =
  bind (times (Z.to_nat count) (bind (read_fields K n (sn_fields s)) (fun _ => ret RustSem.ok))) (fun _ => ret vunit) q.
Proof.
  intros C D. unfold struct_skip_fn, run_fn. destruct (sn_fields s) as [|f0 l] eqn:F.
  - cbn [rf_params rf_body params String.eqb Ascii.eqb Bool.eqb]. unfold bind. rewrite (times_ext _ _ (ret RustSem.ok)) by reflexivity.
    rewrite times_ok. reflexivity.
  - rewrite <- F in *. clear F f0 l. cbn [rf_params rf_body params String.eqb Ascii.eqb Bool.eqb]. rewrite skip_loop.
    set (en := [("bytes_reader", vref vreader); ("count", vnum "u64" count)]).
    assert (X : forall s', bind (ev_block R V items K n (Blk (map (fun f => SSemi (read_tree (sf_type f))) (sn_fields s)) None) en) (fun _ => ret RustSem.ok) s' =
      bind (read_fields K n (sn_fields s)) (fun _ => ret RustSem.ok) s').
    { intros s'. change (ev_block R V items K n (Blk ?l None) en) with (bind (chain (fun s e => ev_st R V items K n s e) l en) (fun _ => ret vunit)).
      rewrite bind_assoc, fields_reads. unfold bind at 1. rewrite (chain_reads K n en sf_type _ s' eq_refl). unfold bind, ret. destruct (mapMM _ _ s'); reflexivity. }
    unfold body. rewrite (bind_ext2 _ _ _ _ q (times_ext _ _ _ q X) (fun _ _ => eq_refl)).
    apply body_clean. apply no_return_bind; [|intros; apply no_return_ret]. apply no_return_times. apply no_return_bind; [now apply no_return_fields|intros; apply no_return_ret].
Qed.

Lemma with_tag_bind {A B} e (k : enum_item -> M A) (h : A -> M B) s :
  bind (with_tag e k) h s =
  match rt_get R "u32" (s_rd s) with
  | Some (z, rest) =>
      match find (fun i => Z.eqb (Z.of_N (item_pos i)) z) (en_items e) with
      | Some i => bind (k i) h (set_rd rest s)
      | None => Panics
      end
  | None => Panics
  end.
Proof. unfold bind, with_tag. destruct (rt_get _ _ _) as [[z rest]|]; [|reflexivity]. destruct (find _ _); reflexivity. Qed.

Lemma skip_enum_exact K n e count q : clean K -> decl_of n ds = Some (DEnum e) ->
  run_fn R V items K n (enum_skip_fn e) [vref vreader; vnum "u64" count] q =
  bind (times (Z.to_nat count) (bind (with_tag e (read_case K n)) (fun _ => ret RustSem.ok))) (fun _ => ret vunit) q.
Proof.
  intros C D. unfold enum_skip_fn, run_fn. cbn [rf_params rf_body params String.eqb Ascii.eqb Bool.eqb]. rewrite skip_loop.
  set (en := [("bytes_reader", vref vreader); ("count", vnum "u64" count)]).
  match goal with |- body (bind (times _ (bind ?b _)) _) _ = _ => set (blk := b) end.
  assert (X : forall s', bind blk (fun _ => ret RustSem.ok) s' = bind (with_tag e (read_case K n)) (fun _ => ret RustSem.ok) s').
  { intros s'. subst blk.
    change (ev_block R V items K n (Blk [SLet "value" (read_tree u32_type_id)] (Some (EMatch (var "value") ?arms))) en) with
      (bind (bind (bind (ev R V items K n (read_tree u32_type_id) en) (fun v => ret (("value", v) :: en))) (fun b => ret b))
         (fun en1 => bind (ev R V items K n (var "value") en1) (fun v => choose v (fun _ e' en' => ev R V items K n e' (en' ++ en1)) arms))).
    rewrite with_tag_bind, !bind_assoc. unfold bind at 1. rewrite (read_u32 K n en s' eq_refl). unfold read_prim.
    destruct (rt_get R "u32" (s_rd s')) as [[z rest]|]; [|reflexivity]. cbv beta iota. unfold bind at 1, ret at 1, bind at 1, ret at 1.
    set (en1 := ("value", vnum "u32" z) :: en). rewrite !bind_assoc. unfold bind at 1. rewrite (eval_var R V items K n "value" en1 _ _ eq_refl). unfold bind at 1.
    rewrite (choose_num (en_items e) enum_skip_arm unsupported z); [| |reflexivity].
    2: { intros i I. split; [destruct i; reflexivity|]. exact (fit_of fit n e i D I). }
    destruct (find _ (en_items e)) as [i|] eqn:F; [|reflexivity]. cbn [app].
    destruct i as [p c|p c ts|p c l]; cbn [enum_skip_arm snd read_case].
    - reflexivity.
    - change (ev R V items K n (EBlock BPlain (Blk ?l None)) en1) with (bind (chain (fun s e => ev_st R V items K n s e) l en1) (fun _ => ret vunit)).
      unfold bind at 1. rewrite (chain_reads K n en1 tf_type _ _ eq_refl). unfold bind, ret. destruct (mapMM _ _ _); reflexivity.
    - change (ev R V items K n (EBlock BPlain (Blk ?l None)) en1) with (bind (chain (fun s e => ev_st R V items K n s e) l en1) (fun _ => ret vunit)).
      unfold bind at 1. rewrite (chain_reads K n en1 sf_type _ _ eq_refl).
      rewrite bind_assoc.
      change (bind (read_fields K n l) (fun x => bind (ret (vcases n c x)) (fun _ => ret RustSem.ok)) (set_rd rest s')) with
        (bind (read_fields K n l) (fun _ => ret RustSem.ok) (set_rd rest s')).
      rewrite fields_reads. unfold bind, ret. destruct (mapMM _ _ _); reflexivity. }
  unfold body. rewrite (bind_ext2 _ _ _ _ q (times_ext _ _ _ q X) (fun _ _ => eq_refl)).
  apply body_clean. apply no_return_bind; [|intros; apply no_return_ret]. apply no_return_times. apply no_return_bind; [|intros; apply no_return_ret].
  intros s v s'. unfold with_tag. destruct (rt_get _ _ _) as [[z rest]|]; [|discriminate]. destruct (find _ _); [|discriminate]. now apply no_return_case.
Qed.

Lemma skip_is_reads fuel n d count q : decl_of n ds = Some d ->
  skip_values R V items fuel n count q =
  times (Z.to_nat count) (bind (read_value R V items (S fuel) (ty0 n)) (fun _ => ret RustSem.ok)) q.
Proof.
  intros D. unfold skip_values. rewrite (find_skip n d D). pose proof (clean_upto fuel) as C.
  assert (RD : forall s, read_value R V items (S fuel) (ty0 n) s =
    match d with DStruct sn => bind (read_fields (calls_upto R V items fuel) n (sn_fields sn)) (fun fs => ret (vrec n fs)) s
      | DEnum e => with_tag e (read_case (calls_upto R V items fuel) n) s end).
  { intros s. unfold read_value. cbn [calls_upto c_read ty0 read_with]. rewrite (find_read n d D).
    destruct d; [now apply read_struct_exact|now apply read_enum_exact]. }
  destruct d as [sn|e].
  - unfold bind at 1. rewrite (skip_struct_exact _ n sn count q C D). unfold bind at 1.
    rewrite (times_ext _ _ (bind (read_value R V items (S fuel) (ty0 n)) (fun _ => ret RustSem.ok))).
    + destruct (times _ _ q) as [[]| | | |]; reflexivity.
    + intros s. transitivity (bind (bind (read_fields (calls_upto R V items fuel) n (sn_fields sn)) (fun fs => ret (vrec n fs))) (fun _ => ret RustSem.ok) s).
      * rewrite bind_assoc. reflexivity.
      * symmetry. apply bind_ext2; [apply RD|reflexivity].
  - unfold bind at 1. rewrite (skip_enum_exact _ n e count q C D). unfold bind at 1.
    rewrite (times_ext _ _ (bind (read_value R V items (S fuel) (ty0 n)) (fun _ => ret RustSem.ok))).
    + destruct (times _ _ q) as [[]| | | |]; reflexivity.
    + intros s. symmetry. apply bind_ext2; [apply RD|reflexivity].
Qed.
End Skip.
End Codec.
