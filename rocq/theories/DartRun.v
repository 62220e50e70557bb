(** The interpreter of DartSem on the trees of the generator: classes, names, codec objects. *)
Require Import Coq.Strings.String Coq.Strings.Ascii.
Require Import Coq.NArith.NArith Coq.ZArith.ZArith Coq.Lists.List Coq.Bool.Bool Coq.Arith.PeanoNat Coq.micromega.Lia.
Require Import Coq.micromega.ZifyBool Coq.micromega.ZifyN Coq.micromega.ZifyNat.
Require Import Verif.Base Verif.Ast Verif.CaseConv Verif.Code Verif.NumText Verif.RustSem Verif.Wire Verif.RustCodec.
Require Import Verif.DartSyntax Verif.DartGen Verif.DartTree Verif.DartSem Verif.DartWire Verif.DartLexedEnum.
Import ListNotations.
Local Open Scope string_scope.
Local Open Scope list_scope.

(** ** The monad *)

Lemma dbind_done {A B} (m : dM A) (k : A -> dM B) s a s' : m s = DDone a s' -> dbind m k s = k a s'.
Proof. unfold dbind. now intros ->. Qed.
Lemma dbind_ret {A} (m : dM A) s : dbind m dret s = m s.
Proof. unfold dbind, dret. now destruct (m s). Qed.
Lemma dbind_ret_l {A B} (a : A) (k : A -> dM B) s : dbind (dret a) k s = k a s.
Proof. reflexivity. Qed.
Lemma dbind_ext {A B} (m : dM A) (k k' : A -> dM B) s : (forall a s', k a s' = k' a s') -> dbind m k s = dbind m k' s.
Proof. intros H. unfold dbind. destruct (m s); auto. Qed.
Lemma dbind_assoc {A B C} (m : dM A) (k : A -> dM B) (h : B -> dM C) s :
  dbind (dbind m k) h s = dbind m (fun a => dbind (k a) h) s.
Proof. unfold dbind. now destruct (m s). Qed.
Lemma dchain_cons {A B} (f : A -> B -> dM B) a l b : dchain f (a :: l) b = (dd b' <- f a b; dchain f l b').
Proof. reflexivity. Qed.
Lemma dchain_app {A B} (f : A -> B -> dM B) l m b s : dchain f (l ++ m) b s = (dd b' <- dchain f l b; dchain f m b') s.
Proof.
  revert b s. induction l as [|a l IH]; intros b s; [reflexivity|].
  cbn [app]. rewrite !dchain_cons, dbind_assoc. apply dbind_ext. intros. apply IH.
Qed.
Lemma dmapM_cons {A B} (f : A -> dM B) a l : dmapM f (a :: l) = (dd b <- f a; dd bs <- dmapM f l; dret (b :: bs)).
Proof. reflexivity. Qed.

Lemma set_heap_same s : set_heap (d_heap s) s = s. Proof. now destruct s. Qed.
Lemma set_drd_same s : set_drd (d_rd s) s = s. Proof. now destruct s. Qed.
Lemma set_dwr_nil s : set_dwr (d_wr s ++ []) s = s. Proof. rewrite app_nil_r. now destruct s. Qed.

(** ** Heaps *)

Lemma set_cell_length a c h : List.length (set_cell a c h) = List.length h.
Proof. revert a. induction h as [|d h IH]; intros [|a]; cbn; auto. Qed.
Lemma set_cell_same a c h : a < List.length h -> nth_error (set_cell a c h) a = Some c.
Proof. revert a. induction h as [|d h IH]; intros [|a] L; cbn in *; try lia; auto. apply IH. lia. Qed.
Lemma set_cell_other a b c h : a <> b -> nth_error (set_cell a c h) b = nth_error h b.
Proof. revert a b. induction h as [|d h IH]; intros [|a] [|b] N; cbn; auto; try lia. Qed.
Lemma nth_some_lt {A} (l : list A) a x : nth_error l a = Some x -> a < List.length l.
Proof. intros E. apply nth_error_Some. congruence. Qed.
Lemma nth_app_old {A} (l m : list A) a x : nth_error l a = Some x -> nth_error (l ++ m) a = Some x.
Proof. intros E. rewrite nth_error_app1; [assumption|]. eapply nth_some_lt, E. Qed.
Lemma nth_app_new {A} (l : list A) x : nth_error (l ++ [x]) (List.length l) = Some x.
Proof. rewrite nth_error_app2, Nat.sub_diag by lia. reflexivity. Qed.

Lemma changes_refl h fp : changes h h fp.
Proof. split; [lia|auto]. Qed.
Lemma changes_trans h h1 h2 fp : changes h h1 fp -> changes h1 h2 fp -> changes h h2 fp.
Proof.
  intros [L A] [M B]. split; [lia|]. intros a I N. rewrite B, A; auto; lia.
Qed.
Lemma changes_more h h' fp fp' : (forall a, In a fp -> In a fp') -> changes h h' fp -> changes h h' fp'.
Proof. intros I [L A]. split; [assumption|]. intros a LA N. apply A; auto. Qed.
Lemma changes_alloc h c : changes h (h ++ [c]) [].
Proof. split; [rewrite app_length; cbn; lia|]. intros a L _. now rewrite nth_error_app1. Qed.
Lemma changes_set h a c : changes h (set_cell a c h) [a].
Proof.
  split; [now rewrite set_cell_length|]. intros b L N. apply set_cell_other. intros ->. apply N. now left.
Qed.
Lemma changes_nth h h' fp a x : changes h h' fp -> ~ In a fp -> nth_error h a = Some x -> nth_error h' a = Some x.
Proof. intros [L A] N E. rewrite A; auto. eapply nth_some_lt, E. Qed.

(** ** Lookups *)

Lemma lookup_set_same x v l l' : set_key x v l = Some l' -> lookup x l' = Some v.
Proof.
  revert l'. induction l as [|[y w] l IH]; cbn; [discriminate|]. intros l'.
  destruct (String.eqb_spec x y) as [->|N].
  - intros [= <-]. cbn. now rewrite String.eqb_refl.
  - destruct (set_key x v l) as [m|]; [|discriminate]. intros [= <-]. cbn. apply String.eqb_neq in N. rewrite N. auto.
Qed.
Lemma lookup_set_other x y v l l' : x <> y -> set_key x v l = Some l' -> lookup y l' = lookup y l.
Proof.
  revert l'. induction l as [|[z w] l IH]; cbn; [discriminate|]. intros l' N.
  destruct (String.eqb_spec x z) as [->|M].
  - intros [= <-]. cbn. destruct (String.eqb_spec y z) as [->|]; [congruence|reflexivity].
  - destruct (set_key x v l) as [m|]; [|discriminate]. intros [= <-]. cbn. destruct (String.eqb y z); auto.
Qed.
Lemma set_key_some x v l w : lookup x l = Some w -> exists l', set_key x v l = Some l'.
Proof.
  induction l as [|[z u] l IH]; cbn; [discriminate|]. destruct (String.eqb x z); [eauto|].
  intros E. destruct (IH E) as [l' ->]. eauto.
Qed.
Lemma lookup_in (l : list (string * dval)) x v : NoDup (map fst l) -> In (x, v) l -> DartSem.lookup x l = Some v.
Proof.
  induction l as [|[y w] l IH]; intros N I; [destruct I|]. cbn [map fst] in N. apply NoDup_cons_iff in N as [N M].
  cbn [DartSem.lookup]. destruct I as [[= -> ->]|I]; [now rewrite String.eqb_refl|].
  destruct (String.eqb_spec x y) as [->|]; [|now apply IH].
  exfalso. apply N. apply in_map_iff. now exists (y, v).
Qed.
Lemma lookup_none (l : list (string * dval)) x : ~ In x (map fst l) -> DartSem.lookup x l = None.
Proof.
  induction l as [|[y w] l IH]; intros N; [reflexivity|]. cbn [DartSem.lookup]. destruct (String.eqb_spec x y) as [->|].
  - exfalso. apply N. now left.
  - apply IH. intros I. apply N. now right.
Qed.

(** The fields of a new object are the given values, if all are given in order. *)
Lemma field_values_all fs (vals more : list (string * dval)) : map fst fs = map fst vals -> NoDup (map fst vals) ->
  field_values fs (vals ++ more) = vals.
Proof.
  intros E N. unfold field_values.
  assert (X : forall ws, incl ws vals -> forall gs, map fst gs = map fst ws ->
    map (fun '(n, _) => (n, match DartSem.lookup n (vals ++ more) with Some v => v | None => dlate end)) (gs : list (string * option dex)) = ws).
  { induction ws as [|[y w] ws IH]; intros I gs G; destruct gs as [|[x o] gs]; try discriminate G; [reflexivity|].
    cbn [map fst] in G. injection G as -> G. cbn [map]. f_equal; [|apply IH; [intros z Z; apply I; now right|assumption]].
    f_equal. assert (L : DartSem.lookup y vals = Some w) by (apply lookup_in; [assumption|apply I; now left]).
    revert L. clear. induction vals as [|[z u] vals IH]; cbn; [discriminate|]. destruct (String.eqb y z); [now intros [= ->]|exact IH]. }
  apply X; [intros z Z; exact Z|assumption].
Qed.

(** ** Suffixes *)

Lemma append_length a b : String.length (a ++ b) = String.length a + String.length b.
Proof. induction a as [|c a IH]; [reflexivity|]. change (S (String.length (a ++ b)) = S (String.length a + String.length b)). now rewrite IH. Qed.

Lemma strip_app suf p : strip suf (p ++ suf) = Some p.
Proof.
  induction p as [|c p IH].
  - change ("" ++ suf)%string with suf. destruct suf; cbn; [reflexivity|]. now rewrite Ascii.eqb_refl, String.eqb_refl.
  - change (String c p ++ suf)%string with (String c (p ++ suf)). cbn [strip].
    destruct (String.eqb_spec (String c (p ++ suf)) suf) as [E|_]; [|now rewrite IH].
    exfalso. apply (f_equal String.length) in E. cbn in E. rewrite append_length in E. lia.
Qed.
Lemma strip_sound suf s p : strip suf s = Some p -> s = (p ++ suf)%string.
Proof.
  revert p. induction s as [|c s IH]; intros p; cbn [strip].
  - destruct (String.eqb_spec "" suf) as [<-|]; [now intros [= <-]|discriminate].
  - destruct (String.eqb_spec (String c s) suf) as [<-|]; [now intros [= <-]|].
    destruct (strip suf s) as [q|]; [|discriminate]. intros [= <-].
    change (String c q ++ suf)%string with (String c (q ++ suf)). f_equal. now apply IH.
Qed.
Lemma app_same_tail a b x y : String.length x = String.length y -> (a ++ x = b ++ y)%string -> x = y.
Proof.
  revert b. induction a as [|c a IH]; intros b L E.
  - destruct b as [|d b]; [exact E|]. apply (f_equal String.length) in E. cbn in E. rewrite append_length in E. lia.
  - destruct b as [|d b].
    + apply (f_equal String.length) in E. cbn in E. rewrite append_length in E. lia.
    + change (String c a ++ x)%string with (String c (a ++ x)) in E. change (String d b ++ y)%string with (String d (b ++ y)) in E.
      injection E as _ E. eapply IH; eassumption.
Qed.
Lemma strip_other suf suf' a p : String.length suf = String.length suf' -> suf <> suf' -> strip suf (p ++ a ++ suf') = None.
Proof.
  intros L N. destruct (strip suf (p ++ a ++ suf')) as [q|] eqn:E; [|reflexivity]. apply strip_sound in E.
  exfalso. apply N. symmetry. eapply (app_same_tail (p ++ a) q); [now symmetry|].
  rewrite <- E. clear. induction p as [|c p IH]; [reflexivity|].
  change (String c ((p ++ a) ++ suf') = String c (p ++ a ++ suf'))%string. now f_equal.
Qed.
Lemma strip_into_emplace p : strip "IntoBuffers" (p ++ "EmplaceToBuffers") = None.
Proof. apply (strip_other "IntoBuffers" "ceToBuffers" "Empla" p); [reflexivity|discriminate]. Qed.
Lemma strip_into_factory p : strip "IntoBuffers" (p ++ "BuffersFactory") = None.
Proof. apply (strip_other "IntoBuffers" "fersFactory" "Buf" p); [reflexivity|discriminate]. Qed.
Lemma strip_emplace_factory p : strip "EmplaceToBuffers" (p ++ "BuffersFactory") = None.
Proof.
  destruct (strip "EmplaceToBuffers" (p ++ "BuffersFactory")) as [q|] eqn:E; [|reflexivity]. apply strip_sound in E.
  exfalso. assert (X : "BuffersFactory" = "placeToBuffers"); [|discriminate].
  apply (app_same_tail p (q ++ "Em")); [reflexivity|]. rewrite E. clear. induction q as [|c q IH]; [reflexivity|].
  change (String c (q ++ "EmplaceToBuffers") = String c ((q ++ "Em") ++ "placeToBuffers"))%string. now f_equal.
Qed.

(** ** The names of a file *)

Lemma NoDup_app_remove_l {A} (l m : list A) : NoDup (l ++ m) -> NoDup m.
Proof. induction l as [|a l IH]; [auto|]. cbn. intros N. apply NoDup_cons_iff in N as [_ N]. auto. Qed.
Lemma NoDup_app_remove_r {A} (l m : list A) : NoDup (l ++ m) -> NoDup l.
Proof.
  induction l as [|a l IH]; [constructor|]. cbn. intros N. apply NoDup_cons_iff in N as [M N]. constructor; [|auto].
  intros I. apply M. apply in_or_app. now left.
Qed.
Lemma NoDup_app_disjoint {A} (l m : list A) a : NoDup (l ++ m) -> In a l -> In a m -> False.
Proof.
  induction l as [|b l IH]; [intros _ []|]. cbn. intros N [->|I] J; apply NoDup_cons_iff in N as [M N].
  - apply M. apply in_or_app. now right.
  - now apply IH.
Qed.

Lemma NoDup_app_intro {A} (l m : list A) : NoDup l -> NoDup m -> (forall a, In a l -> In a m -> False) -> NoDup (l ++ m).
Proof.
  induction l as [|b l IH]; intros N M H; [assumption|]. apply NoDup_cons_iff in N as [N1 N2]. cbn. constructor.
  - intros I. apply in_app_or in I as [I|I]; [contradiction|]. apply (H b); [now left|assumption].
  - apply IH; try assumption. intros a I. apply H. now right.
Qed.
Lemma NoDup_app_comm {A} (l m : list A) : NoDup (l ++ m) -> NoDup (m ++ l).
Proof.
  intros N. apply NoDup_app_intro; [now apply NoDup_app_remove_l in N|now apply NoDup_app_remove_r in N|].
  intros a I J. now apply (NoDup_app_disjoint l m a).
Qed.

Definition top_name (i : ditem) : list string :=
  match i with DImport _ => [] | DConstDecl n _ | DClass n _ _ | DartSyntax.DEnum n _ => [n] end.
Definition top_names (l : list ditem) : list string := flat_map top_name l.
(** What the generated code uses of the libraries. *)
Definition lib_names : list string :=
  ["ListIntoBuffers"; "ListEmplaceToBuffers"; "ListBuffersFactory"; "IntIntoBuffers"; "DoubleIntoBuffers";
   "BoolIntoBuffers"; "StateError"; "Completer"; "StreamController"; "rotateMethodId";
   "TechPawsRuntimeRpcMethodBuffer"; "TechPawsRpcBufferStatus"].
(** The names that the generated codecs and factories use for variables and methods. *)
Definition local_names : list string :=
  ["reader"; "writer"; "model"; "value"; "count"; "i"; "null"; "true"; "false"; "read"; "write"; "skip"; "createDefault"].
Definition absent (n : string) (l : list string) : bool := negb (existsb (String.eqb n) l).

Lemma absent_not_in n l : absent n l = true -> ~ In n l.
Proof. unfold absent. rewrite negb_true_iff. apply existsb_eqb_not_in. Qed.
Lemma not_in_absent n l : ~ In n l -> absent n l = true.
Proof.
  intros N. unfold absent. rewrite negb_true_iff. destruct (existsb (String.eqb n) l) eqn:E; [|reflexivity].
  apply existsb_exists in E as (m & I & E). apply String.eqb_eq in E. subst. now destruct N.
Qed.

Lemma find_class_in l n im ms : NoDup (top_names l) -> In (DClass n im ms) l -> find_class n l = Some ms.
Proof.
  induction l as [|i l IH]; intros N I; [destruct I|].
  assert (N' : NoDup (top_names l)) by (unfold top_names in N |- *; cbn [flat_map] in N; now apply NoDup_app_remove_l in N).
  destruct I as [->|I].
  - cbn. now rewrite String.eqb_refl.
  - cbn [find_class]. destruct i as [x|x e|x im' ms'|x ns]; try (now apply IH).
    destruct (String.eqb_spec x n) as [->|]; [|now apply IH].
    exfalso. unfold top_names in N. cbn in N. apply NoDup_cons_iff in N as [N _]. apply N.
    apply in_flat_map. exists (DClass n im ms). split; [assumption|now left].
Qed.
Lemma find_enum_in l n ns : NoDup (top_names l) -> In (DartSyntax.DEnum n ns) l -> find_enum n l = Some ns.
Proof.
  induction l as [|i l IH]; intros N I; [destruct I|].
  assert (N' : NoDup (top_names l)) by (unfold top_names in N |- *; cbn [flat_map] in N; now apply NoDup_app_remove_l in N).
  destruct I as [->|I].
  - cbn. now rewrite String.eqb_refl.
  - cbn [find_enum]. destruct i as [x|x e|x im' ms'|x ns']; try (now apply IH).
    destruct (String.eqb_spec x n) as [->|]; [|now apply IH].
    exfalso. unfold top_names in N. cbn in N. apply NoDup_cons_iff in N as [N _]. apply N.
    apply in_flat_map. exists (DartSyntax.DEnum n ns). split; [assumption|now left].
Qed.
Lemma find_const_none l n : ~ In n (top_names l) -> find_const n l = None.
Proof.
  induction l as [|i l IH]; intros N; [reflexivity|]. unfold top_names in N. cbn in N.
  cbn [find_const]. destruct i as [x|x e|x im' ms'|x ns']; try (apply IH; intros I; apply N; apply in_or_app; now right).
  destruct (String.eqb_spec x n) as [->|]; [exfalso; apply N; now left|]. apply IH. intros I. apply N. now right.
Qed.
Lemma find_class_none l n : ~ In n (top_names l) -> find_class n l = None.
Proof.
  induction l as [|i l IH]; intros N; [reflexivity|]. unfold top_names in N. cbn in N.
  cbn [find_class]. destruct i as [x|x e|x im' ms'|x ns']; try (apply IH; intros I; apply N; apply in_or_app; now right).
  destruct (String.eqb_spec x n) as [->|]; [exfalso; apply N; now left|]. apply IH. intros I. apply N. now right.
Qed.
Lemma find_enum_none l n : ~ In n (top_names l) -> find_enum n l = None.
Proof.
  induction l as [|i l IH]; intros N; [reflexivity|]. unfold top_names in N. cbn in N.
  cbn [find_enum]. destruct i as [x|x e|x im' ms'|x ns']; try (apply IH; intros I; apply N; apply in_or_app; now right).
  destruct (String.eqb_spec x n) as [->|]; [exfalso; apply N; now left|]. apply IH. intros I. apply N. now right.
Qed.
(** A name of a class is no constant and no enum. *)
Lemma class_not_const l n im ms : NoDup (top_names l) -> In (DClass n im ms) l -> find_const n l = None /\ find_enum n l = None.
Proof.
  induction l as [|i l IH]; intros N I; [destruct I|].
  assert (N' : NoDup (top_names l)) by (unfold top_names in N |- *; cbn [flat_map] in N; now apply NoDup_app_remove_l in N).
  assert (X : In (DClass n im ms) l -> ~ In n (top_name i)).
  { intros J K. unfold top_names in N. cbn in N.
    assert (Y : In n (flat_map top_name l)) by (apply in_flat_map; exists (DClass n im ms); split; [assumption|now left]).
    apply in_split in K as (a & b & E). rewrite E in N. rewrite <- app_assoc in N. apply NoDup_app_remove_l in N. cbn in N.
    apply NoDup_cons_iff in N as [N _]. apply N. apply in_or_app. now right. }
  destruct I as [->|I].
  - unfold top_names in N. cbn in N. apply NoDup_cons_iff in N as [N _]. cbn. split; [now apply find_const_none|now apply find_enum_none].
  - specialize (IH N' I) as [A B]. specialize (X I). cbn [find_const find_enum].
    destruct i as [x|x e|x im' ms'|x ns']; cbn in X; split; auto;
      destruct (String.eqb_spec x n) as [->|]; auto; exfalso; apply X; now left.
Qed.
Lemma enum_not_const l n ns : NoDup (top_names l) -> In (DartSyntax.DEnum n ns) l -> find_const n l = None /\ find_class n l = None.
Proof.
  induction l as [|i l IH]; intros N I; [destruct I|].
  assert (N' : NoDup (top_names l)) by (unfold top_names in N |- *; cbn [flat_map] in N; now apply NoDup_app_remove_l in N).
  assert (X : In (DartSyntax.DEnum n ns) l -> ~ In n (top_name i)).
  { intros J K. unfold top_names in N. cbn in N.
    assert (Y : In n (flat_map top_name l)) by (apply in_flat_map; exists (DartSyntax.DEnum n ns); split; [assumption|now left]).
    apply in_split in K as (a & b & E). rewrite E in N. rewrite <- app_assoc in N. apply NoDup_app_remove_l in N. cbn in N.
    apply NoDup_cons_iff in N as [N _]. apply N. apply in_or_app. now right. }
  destruct I as [->|I].
  - unfold top_names in N. cbn in N. apply NoDup_cons_iff in N as [N _]. cbn. split; [now apply find_const_none|now apply find_class_none].
  - specialize (IH N' I) as [A B]. specialize (X I). cbn [find_const find_class].
    destruct i as [x|x e|x im' ms'|x ns']; cbn in X; split; auto;
      destruct (String.eqb_spec x n) as [->|]; auto; exfalso; apply X; now left.
Qed.

(** ** Expressions *)

Section Eval.
Variable D : druntime.
Variable items : list ditem.
Variable K : dcalls.
Variable this : option (dval * string).
Notation eval := (DartSem.ev D items K this).
Notation eval_st := (DartSem.ev_st D items K this).

Lemma ev_var x en v s : DartSem.lookup x en = Some v -> eval (var x) en s = DDone v s.
Proof. intros E. cbn. unfold DartSem.name_value. rewrite E. reflexivity. Qed.

(** A method call with positional arguments that change nothing. *)
Definition pure (en : denv) (s : dstate) (e : dex) (v : dval) : Prop := eval e en s = DDone v s.
Lemma dargs_pure en es vs s : Forall2 (pure en s) es vs ->
  dmapM (fun '(l, e) => dd v <- eval e en; dret (l, v)) (map (fun a => (None, a)) es) s = DDone (pos vs) s.
Proof.
  induction 1 as [|x v xs vs H F IH]; [reflexivity|]. cbn [map]. rewrite dmapM_cons.
  rewrite (dbind_done _ _ s (None, v) s) by (rewrite (dbind_done _ _ s _ s H); reflexivity).
  now rewrite (dbind_done _ _ s _ s IH).
Qed.
Lemma ev_call_var x m es en v vs s : DartSem.lookup x en = Some v -> Forall2 (pure en s) es vs ->
  eval (call (var x) m es) en s = method D items K v m (pos vs) s.
Proof.
  intros E F.
  change (eval (call (var x) m es) en s) with
    (dbind (DartSem.name_value items K this x en) (fun o => match o with
       | Some v => dd v <- (dd vs <- dmapM (fun '(l, e) => dd v <- eval e en; dret (l, v)) (map (fun a => (None, a)) es); method D items K v m vs); dret v
       | None => (dd v <- ev_named D items K this x (XMeth m [] (map (fun a => (None, a)) es) false) en; dret v) end) s).
  unfold DartSem.name_value. rewrite E, dbind_ret_l, dbind_ret.
  now rewrite (dbind_done _ _ s _ s (dargs_pure en es vs s F)).
Qed.
(** [const C(..).m(xs)]. *)
Lemma ev_call_const c ts args b m es en v vs s : pure en s (DConst c ts args b) v -> Forall2 (pure en s) es vs ->
  eval (call (DConst c ts args b) m es) en s = method D items K v m (pos vs) s.
Proof.
  intros E F.
  change (eval (call (DConst c ts args b) m es) en s) with
    (dbind (eval (DConst c ts args b) en) (fun v => dd v <- (dd vs <- dmapM (fun '(l, e) => dd v <- eval e en; dret (l, v)) (map (fun a => (None, a)) es); method D items K v m vs); dret v) s).
  rewrite (dbind_done _ _ s _ s E), dbind_ret.
  now rewrite (dbind_done _ _ s _ s (dargs_pure en es vs s F)).
Qed.
(** [x.f] where x is an object with the field f. *)
Lemma ev_field x f en a c fs v s : DartSem.lookup x en = Some (dref a) -> nth_error (d_heap s) a = Some (CObj c fs) ->
  DartSem.lookup f fs = Some v -> v <> dlate -> pure en s (DartTree.field (var x) f) v.
Proof.
  intros E N F L. unfold pure.
  change (eval (DartTree.field (var x) f) en s) with
    (dbind (DartSem.name_value items K this x en) (fun o => match o with
       | Some v => dd v <- get_field D items K f v; dret v
       | None => (dd v <- static_field items x f; dret v) end) s).
  unfold DartSem.name_value. rewrite E, dbind_ret_l, dbind_ret. unfold get_field.
  rewrite (dbind_done _ _ s (CObj c fs) s) by (unfold get_cell; now rewrite N).
  rewrite F. destruct v; try reflexivity. congruence.
Qed.
(** [x.f = e]. *)
Lemma ev_set_field x f en a e b s s' c fs fs' w : DartSem.lookup x en = Some (dref a) ->
  eval e en s = DDone w s' -> nth_error (d_heap s') a = Some (CObj c fs) -> set_key f w fs = Some fs' -> b = DartTree.field (var x) f ->
  eval (DSet b e) en s = DDone w (set_heap (set_cell a (CObj c fs') (d_heap s')) s').
Proof.
  intros E V N F ->.
  change (eval (DSet (DartTree.field (var x) f) e) en s) with
    (dbind (eval (var x) en) (fun v => dd w <- eval e en; set_field f v w) s).
  rewrite (dbind_done _ _ s _ s (ev_var x en _ s E)), (dbind_done _ _ s _ s' V). unfold set_field.
  rewrite (dbind_done _ _ s' (CObj c fs) s') by (unfold get_cell; now rewrite N). rewrite F. reflexivity.
Qed.
(** [N.f] for an enum N of the file. *)
Lemma ev_member n f en s ns : DartSem.lookup n en = None -> absent n local_names = true ->
  (match this with Some (dref _, _) => False | _ => True end) -> find_static n (own_members items this) = None ->
  find_const n items = None -> find_enum n items = Some ns -> In f ns ->
  pure en s (DartTree.field (var n) f) (dmem n f).
Proof.
  intros E A T O C F I. unfold pure.
  change (eval (DartTree.field (var n) f) en s) with
    (dbind (DartSem.name_value items K this n en) (fun o => match o with
       | Some v => dd v <- get_field D items K f v; dret v
       | None => (dd v <- static_field items n f; dret v) end) s).
  unfold DartSem.name_value. rewrite E.
  assert (A' : String.eqb n "null" = false /\ String.eqb n "true" = false /\ String.eqb n "false" = false).
  { apply absent_not_in in A. repeat split; apply String.eqb_neq; intros ->; apply A; cbn; tauto. }
  destruct A' as (-> & -> & ->). cbv zeta. rewrite O, C.
  assert (X : static_field items n f s = DDone (dmem n f) s).
  { unfold static_field. rewrite F. replace (existsb (String.eqb f) ns) with true; [reflexivity|].
    symmetry. apply existsb_exists. exists f. split; [assumption|apply String.eqb_refl]. }
  destruct this as [[[] ?]|]; try destruct T; rewrite dbind_ret_l, (dbind_done _ _ s _ s X); reflexivity.
Qed.
(** A name that is no variable. *)
Lemma name_none n en s : DartSem.lookup n en = None -> absent n local_names = true ->
  (match this with Some (dref _, _) => False | _ => True end) -> find_static n (own_members items this) = None ->
  find_const n items = None -> DartSem.name_value items K this n en s = DDone None s.
Proof.
  intros E A T O C. unfold DartSem.name_value. rewrite E.
  assert (A' : String.eqb n "null" = false /\ String.eqb n "true" = false /\ String.eqb n "false" = false).
  { apply absent_not_in in A. repeat split; apply String.eqb_neq; intros ->; apply A; cbn; tauto. }
  destruct A' as (-> & -> & ->). cbv zeta. rewrite O, C.
  destruct this as [[[] ?]|]; try destruct T; reflexivity.
Qed.
(** [C(..)] and [C.m(..)]. *)
Lemma ev_new n args b en s vs s' : DartSem.name_value items K this n en s = DDone None s ->
  dmapM (fun '(l, e) => dd v <- eval e en; dret (l, v)) args s = DDone vs s' ->
  eval (DPost (var n) [XCall args b]) en s = call_name D items K this n vs s'.
Proof.
  intros E V.
  change (eval (DPost (var n) [XCall args b]) en s) with
    (dbind (DartSem.name_value items K this n en) (fun o => match o with
       | Some v => dd v <- @dstuck dval; dret v
       | None => (dd v <- (dd vs <- dmapM (fun '(l, e) => dd v <- eval e en; dret (l, v)) args; call_name D items K this n vs); dret v) end) s).
  rewrite (dbind_done _ _ s _ s E), dbind_ret. now rewrite (dbind_done _ _ s _ s' V).
Qed.
Lemma ev_static n m en s : DartSem.name_value items K this n en s = DDone None s ->
  eval (call (var n) m []) en s = call_static items K n m [] s.
Proof.
  intros E.
  change (eval (call (var n) m []) en s) with
    (dbind (DartSem.name_value items K this n en) (fun o => match o with
       | Some v => dd v <- (dd vs <- dret []; method D items K v m vs); dret v
       | None => (dd v <- (dd vs <- dret []; call_static items K n m vs); dret v) end) s).
  rewrite (dbind_done _ _ s _ s E), dbind_ret. reflexivity.
Qed.
End Eval.
