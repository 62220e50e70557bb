(** The token groups of a Kotlin syntax tree, and: parsing them gives the tree back. *)
Require Import Coq.Strings.String Coq.Strings.Ascii.
Require Import Coq.NArith.NArith Coq.Lists.List Coq.Bool.Bool Coq.Arith.PeanoNat Coq.Arith.Wf_nat Coq.micromega.Lia.
Require Import Verif.Code Verif.KotlinSyntax.
Import ListNotations.
Local Open Scope string_scope.
Local Open Scope list_scope.

Definition w (s : string) : tt := T (CW s).
Definition y (s : string) : tt := T (CS s).

(** [x, y, z]. *)
Definition sep {A : Type} (c : tt) (pr : A -> list tt) : list A -> list tt :=
  fix sep l :=
    match l with
    | [] => []
    | [a] => pr a
    | a :: l' => pr a ++ c :: sep l'
    end.

Fixpoint pr_ty (t : kty) : list tt :=
  match t with
  | KTy n [] => [w n]
  | KTy n args => w n :: y "<" :: sep (y ",") pr_ty args ++ [y ">"]
  end.
Definition pr_targs (l : list kty) : list tt := match l with [] => [] | _ => y "<" :: sep (y ",") pr_ty l ++ [y ">"] end.

Definition pr_label (n : option string) : list tt := match n with Some n => [w n; y "="] | None => [] end.
(** Every argument and parameter is followed by a comma. *)
Fixpoint pr_ex (e : kex) : list tt :=
  match e with
  | XNum n => [w n]
  | XFloat a b => [w a; y "."; w b]
  | XStr s => [T (CQ s)]
  | XName n => [w n]
  | XCall n args => [w n; G "(" (flat_map (fun a => pr_label (fst a) ++ pr_ex (snd a) ++ [y ","]) args)]
  | XMeth n m ts args => [w n; y "."; w m] ++ pr_targs ts ++ [G "(" (flat_map (fun a => pr_label (fst a) ++ pr_ex (snd a) ++ [y ","]) args)]
  end.
Definition pr_arg (a : option string * kex) : list tt := pr_label (fst a) ++ pr_ex (snd a) ++ [y ","].
Definition pr_param (p : string * kty) : list tt := [w "val"; w (fst p); y ":"] ++ pr_ty (snd p) ++ [y ","].
Definition pr_supers (l : list string) : list tt := match l with [] => [] | _ => y ":" :: sep (y ",") (fun n => [w n]) l end.

Fixpoint pr_decl (d : kdecl) : list tt :=
  let block b := match b with [] => [] | _ => [G "{" (flat_map pr_decl b)] end in
  match d with
  | YFun n t e => [w "fun"; w n; G "(" []; y ":"] ++ pr_ty t ++ y "=" :: pr_ex e
  | YConst n t e => [w "const"; w "val"; w n; y ":"] ++ pr_ty t ++ y "=" :: pr_ex e
  | YObject n ss b => [w "object"; w n] ++ pr_supers ss ++ block b
  | YClass data n ps ss b =>
      (if data then [w "data"] else []) ++ [w "class"; w n; G "(" (flat_map pr_param ps)] ++ pr_supers ss ++ block b
  | YInterface sealed n b => (if sealed then [w "sealed"] else []) ++ [w "interface"; w n] ++ block b
  | YCompanion b => [w "companion"; w "object"] ++ block b
  end.
Definition pr_block (b : list kdecl) : list tt := match b with [] => [] | _ => [G "{" (flat_map pr_decl b)] end.

(** ** Well-formed trees *)

Fixpoint wf_ty (t : kty) : bool := match t with KTy n args => kident n && forallb wf_ty args end.
Definition wf_label (n : option string) : bool := match n with Some n => kident n | None => true end.
Fixpoint wf_ex (e : kex) : bool :=
  match e with
  | XNum n => numeric n
  | XFloat a b => numeric a && numeric b
  | XStr _ => true
  | XName n => khead n
  | XCall n args => khead n && forallb (fun a => wf_label (fst a) && wf_ex (snd a)) args
  | XMeth n m ts args => khead n && kident m && forallb wf_ty ts && forallb (fun a => wf_label (fst a) && wf_ex (snd a)) args
  end.
Definition wf_arg (a : option string * kex) : bool := wf_label (fst a) && wf_ex (snd a).
Definition wf_param (p : string * kty) : bool := kident (fst p) && wf_ty (snd p).
Fixpoint wf_decl (d : kdecl) : bool :=
  match d with
  | YFun n t e | YConst n t e => kident n && wf_ty t && wf_ex e
  | YObject n ss b => kident n && forallb kident ss && forallb wf_decl b
  | YClass _ n ps ss b => kident n && forallb wf_param ps && forallb kident ss && forallb wf_decl b
  | YInterface _ n b => kident n && forallb wf_decl b
  | YCompanion b => forallb wf_decl b
  end.

(** ** Reading printed trees *)

(** What may follow a type, an expression, a declaration. *)
Definition after_ty (r : list tt) : bool := match r with T (CS s) :: _ => negb (String.eqb s "<") | _ => true end.
Definition after_ex (r : list tt) : bool :=
  match r with T (CS s) :: _ => negb (String.eqb s ".") && negb (String.eqb s "=") | G o _ :: _ => negb (Ascii.eqb o "(") | _ => true end.
Definition next (r : list tt) : bool := match r with [] | T (CW _) :: _ => true | _ => false end.

Lemma eat_y s r : eat s (y s :: r) = Some r.
Proof. unfold y. cbn. now rewrite String.eqb_refl. Qed.
Lemma eat_other s c r : c <> s -> eat s (y c :: r) = None.
Proof. intros N. unfold y. cbn. apply String.eqb_neq in N. now rewrite N. Qed.
Lemma eatw_w s r : eatw s (w s :: r) = Some r.
Proof. unfold w. cbn. now rewrite String.eqb_refl. Qed.
Lemma eat_lt_none r : after_ty r = true -> eat "<" r = None.
Proof. destruct r as [|[[a|a|a]|o g] r]; cbn; try reflexivity. intros H. apply negb_true_iff in H. now rewrite H. Qed.

Lemma size_w s : tt_size (w s) = 1.
Proof. reflexivity. Qed.
Lemma size_y s : tt_size (y s) = 1.
Proof. reflexivity. Qed.
Lemma size_T t : tt_size (T t) = 1.
Proof. reflexivity. Qed.
Ltac sizes := rewrite ?tts_size_app, ?tts_size_cons, ?tts_size_app, ?tts_size_cons, ?size_w, ?size_y, ?size_T, ?tt_size_G in *; change (tts_size []) with 0 in *.

Lemma pr_ty_pos t : 1 <= tts_size (pr_ty t).
Proof. destruct t as [n [|a l]]; cbn [pr_ty]; sizes; lia. Qed.

Lemma read_ty_all n : (forall t f r, tts_size (pr_ty t) <= n -> wf_ty t = true -> after_ty r = true -> 2 * n <= f -> p_ty f (pr_ty t ++ r) = Some (t, r)).
Proof.
  induction n as [n IH] using lt_wf_ind. intros [m args] f r L W A F. cbn [wf_ty] in W. apply andb_true_iff in W as [W1 W2].
  pose proof (pr_ty_pos (KTy m args)) as P. destruct f as [|f]; [lia|]. destruct args as [|a l].
  - cbn [pr_ty app p_ty w]. rewrite W1, (eat_lt_none r A). reflexivity.
  - cbn [pr_ty] in L. cbn [pr_ty p_ty app w]. rewrite W1.
    rewrite <- app_assoc. change (y "<" :: sep (y ",") pr_ty (a :: l) ++ [y ">"] ++ r) with (y "<" :: (sep (y ",") pr_ty (a :: l) ++ [y ">"] ++ r)).
    rewrite eat_y.
    assert (X : forall l g, l <> [] -> forallb wf_ty l = true -> tts_size (sep (y ",") pr_ty l) < n -> 2 * tts_size (sep (y ",") pr_ty l) + 1 <= g ->
      p_tys g (sep (y ",") pr_ty l ++ [y ">"] ++ r) = Some (l, r)).
    { clear - IH. induction l as [|t l IHl]; intros g N W L G; [congruence|]. cbn [forallb] in W. apply andb_true_iff in W as [W1 W2].
      destruct g as [|g]; [lia|]. destruct l as [|t2 l].
      - cbn [sep] in *. cbn [p_tys]. rewrite (IH (tts_size (pr_ty t))); try assumption; try reflexivity; try lia; cbn [obind app]; now rewrite eat_y.
      - change (sep (y ",") pr_ty (t :: t2 :: l)) with (pr_ty t ++ y "," :: sep (y ",") pr_ty (t2 :: l)) in *.
        rewrite <- app_assoc. cbn [p_tys]. sizes. pose proof (pr_ty_pos t).
        rewrite (IH (tts_size (pr_ty t))); try assumption; try reflexivity; try lia. cbn [obind app]. rewrite eat_other by discriminate. rewrite eat_y. cbn [obind].
        rewrite IHl; [reflexivity|discriminate|assumption|lia|lia]. }
    sizes. rewrite X; [reflexivity|discriminate|assumption|lia|lia].
Qed.
Lemma read_ty t f r : wf_ty t = true -> after_ty r = true -> 2 * tts_size (pr_ty t) <= f -> p_ty f (pr_ty t ++ r) = Some (t, r).
Proof. intros. now apply (read_ty_all (tts_size (pr_ty t))). Qed.

Lemma read_targs ts f r : forallb wf_ty ts = true -> after_ty r = true -> 2 * tts_size (pr_targs ts) <= f -> p_targs f (pr_targs ts ++ r) = Some (ts, r).
Proof.
  intros W A F. destruct ts as [|t l]; [cbn [pr_targs app]; unfold p_targs; now rewrite eat_lt_none|].
  unfold p_targs, pr_targs in *. cbn [app]. rewrite eat_y, <- app_assoc. sizes.
  assert (X : forall l g, l <> [] -> forallb wf_ty l = true -> 2 * tts_size (sep (y ",") pr_ty l) + 1 <= g ->
    p_tys g (sep (y ",") pr_ty l ++ [y ">"] ++ r) = Some (l, r)).
  { clear. induction l as [|t l IHl]; intros g N W G; [congruence|]. cbn [forallb] in W. apply andb_true_iff in W as [W1 W2].
    destruct g as [|g]; [lia|]. destruct l as [|t2 l].
    - cbn [sep] in *. cbn [p_tys]. rewrite read_ty; try assumption; try reflexivity; try lia.
    - change (sep (y ",") pr_ty (t :: t2 :: l)) with (pr_ty t ++ y "," :: sep (y ",") pr_ty (t2 :: l)) in *.
      rewrite <- app_assoc. cbn [p_tys]. sizes. pose proof (pr_ty_pos t).
      rewrite read_ty; try assumption; try reflexivity; try lia. cbn [obind app]. rewrite eat_other by discriminate. rewrite eat_y. cbn [obind].
      rewrite IHl; [reflexivity|discriminate|assumption|lia]. }
  apply X; [discriminate|assumption|lia].
Qed.

Lemma pr_ex_pos e : 1 <= tts_size (pr_ex e).
Proof. destruct e; cbn [pr_ex]; sizes; lia. Qed.
Lemma numeric_head n : numeric n = true -> khead n = false.
Proof.
  intros N. unfold khead, kident. rewrite N. rewrite andb_false_r. cbn [andb orb]. unfold among. cbn [existsb].
  destruct (String.eqb_spec n "true") as [->|]; [discriminate|]. destruct (String.eqb_spec n "false") as [->|]; [discriminate|].
  destruct (String.eqb_spec n "null") as [->|]; [discriminate|]. reflexivity.
Qed.
Lemma head_numeric n : khead n = true -> numeric n = false.
Proof. intros H. destruct (numeric n) eqn:E; [|reflexivity]. apply numeric_head in E. congruence. Qed.

Lemma after_ex_open r : after_ex r = true -> open_g "(" r = None /\ eat "." r = None.
Proof.
  destruct r as [|[[a|a|a]|o g] r]; cbn; try (now split).
  - intros H. apply andb_true_iff in H as [H _]. apply negb_true_iff in H. now rewrite H.
  - intros H. apply negb_true_iff in H. now rewrite H.
Qed.
Lemma label_none e r : wf_ex e = true -> label_of (pr_ex e ++ y "," :: r) = None.
Proof. destruct e; cbn [pr_ex app]; reflexivity. Qed.

Lemma read_ex_all n : forall e f r, tts_size (pr_ex e) <= n -> wf_ex e = true -> after_ex r = true -> 2 * n <= f -> p_ex f (pr_ex e ++ r) = Some (e, r).
Proof.
  induction n as [n IH] using lt_wf_ind. intros e f r L W A F. pose proof (pr_ex_pos e) as P. destruct f as [|f]; [lia|].
  assert (X : forall l g, forallb wf_arg l = true -> tts_size (flat_map pr_arg l) < n -> 2 * tts_size (flat_map pr_arg l) + 1 <= g ->
      p_args g (flat_map pr_arg l) = Some l).
  { clear - IH. induction l as [|[o e] l IHl]; intros g W L G; [destruct g; [lia|reflexivity]|]. cbn [forallb] in W. apply andb_true_iff in W as [W1 W2].
    apply andb_true_iff in W1 as [W0 W1]. cbn [fst snd] in W0, W1. destruct g as [|g]; [lia|].
    change (flat_map pr_arg ((o, e) :: l)) with ((pr_label o ++ pr_ex e ++ [y ","]) ++ flat_map pr_arg l) in *. rewrite <- !app_assoc in *. sizes. pose proof (pr_ex_pos e) as P.
    assert (Q : p_ex g (pr_ex e ++ [y ","] ++ flat_map pr_arg l) = Some (e, y "," :: flat_map pr_arg l)).
    { apply (IH (tts_size (pr_ex e))); try assumption; try reflexivity; lia. }
    assert (Q2 : p_args g (flat_map pr_arg l) = Some l) by (apply IHl; try assumption; lia).
    destruct o as [m|]; cbn [pr_label app p_args].
    - change (label_of (w m :: y "=" :: pr_ex e ++ y "," :: flat_map pr_arg l)) with (Some (m, pr_ex e ++ y "," :: flat_map pr_arg l)). cbv beta iota. cbn [app] in Q. rewrite Q. cbn [obind]. cbn [wf_label] in W0. rewrite W0. cbn [obind]. rewrite eat_y. cbn [obind]. now rewrite Q2.
    - cbn [app] in *. rewrite label_none by assumption. rewrite Q. cbn [obind].
      assert (NE : exists x t, pr_ex e ++ y "," :: flat_map pr_arg l = x :: t) by (destruct (pr_ex e); cbn; eauto).
      destruct NE as (x & t & ->). rewrite eat_y. cbn [obind]. now rewrite Q2. }
  destruct e as [m|a b|s|m|m args|m m2 ts args]; cbn [wf_ex] in W.
  - cbn [pr_ex app p_ex w]. rewrite W. destruct r as [|[[a|c|a]|o g] r]; try reflexivity. cbn [after_ex] in A. apply andb_true_iff in A as [A _]. apply negb_true_iff in A.
    rewrite A. cbn [andb]. destruct r as [|[[]|] r]; reflexivity.
  - apply andb_true_iff in W as [W1 W2]. cbn [pr_ex app p_ex w y]. rewrite W1. cbn [String.eqb Ascii.eqb Bool.eqb andb]. now rewrite W2.
  - reflexivity.
  - cbn [pr_ex app p_ex w]. rewrite (head_numeric _ W), W. destruct (after_ex_open r A) as [-> ->]. reflexivity.
  - apply andb_true_iff in W as [W1 W2]. cbn [pr_ex app p_ex w]. rewrite (head_numeric _ W1), W1. cbn [open_g Ascii.eqb Bool.eqb].
    change (flat_map _ args) with (flat_map pr_arg args). cbn [pr_ex] in L. change (flat_map _ args) with (flat_map pr_arg args) in L. sizes.
    rewrite X; [reflexivity|exact W2|lia|lia].
  - rewrite !andb_true_iff in W. destruct W as (((W1 & W2) & W3) & W4). cbn [pr_ex] in *. change (flat_map _ args) with (flat_map pr_arg args) in *. rewrite <- !app_assoc. cbn [app p_ex w].
    rewrite (head_numeric _ W1), W1. cbn [open_g]. rewrite eat_y. sizes. rewrite read_targs; [|exact W3|reflexivity|lia]. cbn [obind open_g app Ascii.eqb Bool.eqb]. rewrite X; [|exact W4|lia|lia]. cbn [obind]. cbn [w y]. now rewrite W2.
Qed.
Lemma read_ex e f r : wf_ex e = true -> after_ex r = true -> 2 * tts_size (pr_ex e) <= f -> p_ex f (pr_ex e ++ r) = Some (e, r).
Proof. intros. now apply (read_ex_all (tts_size (pr_ex e))). Qed.

Lemma read_word n r : kident n = true -> p_word (w n :: r) = Some (n, r).
Proof. intros K. cbn. now rewrite K. Qed.

Lemma read_params l f : forallb wf_param l = true -> 2 * tts_size (flat_map pr_param l) + 1 <= f -> p_params f (flat_map pr_param l) = Some l.
Proof.
  revert f. induction l as [|[n t] l IH]; intros f W F; (destruct f as [|f]; [lia|]); [reflexivity|]. cbn [forallb] in W. apply andb_true_iff in W as [W1 W2].
  apply andb_true_iff in W1 as [W0 W1]. cbn [fst snd] in *.
  change (flat_map pr_param ((n, t) :: l)) with (([w "val"; w n; y ":"] ++ pr_ty t ++ [y ","]) ++ flat_map pr_param l) in *. rewrite <- !app_assoc in *. sizes.
  cbn [app p_params]. rewrite eatw_w. cbn [obind]. rewrite read_word by assumption. cbn [obind]. rewrite eat_y. cbn [obind].
  rewrite read_ty; [|assumption|reflexivity|lia]. cbn [obind]. rewrite eat_y. cbn [obind]. rewrite IH; [reflexivity|assumption|lia].
Qed.

Lemma eat_sym_next s r : next r = true -> eat s r = None.
Proof. destruct r as [|[[]|] r]; cbn; congruence. Qed.
Lemma eat_sym_brace s g r : eat s (G "{" g :: r) = None.
Proof. reflexivity. Qed.
Definition after_names (r : list tt) : bool := match r with T (CS _) :: _ => false | _ => true end.
Lemma eat_after s r : after_names r = true -> eat s r = None.
Proof. destruct r as [|[[]|] r]; cbn; congruence. Qed.

Lemma read_supers l f r : forallb kident l = true -> after_names r = true -> tts_size (pr_supers l) <= f -> p_supers f (pr_supers l ++ r) = Some (l, r).
Proof.
  intros W A F. destruct l as [|n l]; [unfold p_supers; cbn [pr_supers app]; now rewrite eat_after|].
  unfold pr_supers, p_supers in *. cbn [app]. rewrite eat_y. sizes.
  revert f n W F. induction l as [|m l IH]; intros f n W F; cbn [forallb] in W; apply andb_true_iff in W as [W1 W2].
  - cbn [sep] in *. destruct f as [|f]; [sizes; lia|]. cbn [app p_names]. rewrite read_word by assumption. cbn [obind]. now rewrite eat_after.
  - change (sep (y ",") (fun n => [w n]) (n :: m :: l)) with (w n :: y "," :: sep (y ",") (fun n => [w n]) (m :: l)) in *. sizes.
    destruct f as [|f]; [lia|]. cbn [app p_names]. rewrite read_word by assumption. cbn [obind]. rewrite eat_y. rewrite IH; [reflexivity|assumption|lia].
Qed.

Lemma next_after_ex r : next r = true -> after_ex r = true.
Proof. destruct r as [|[[]|] r]; cbn; congruence. Qed.
Lemma next_after_names r : next r = true -> after_names r = true.
Proof. destruct r as [|[[]|] r]; cbn; congruence. Qed.
Lemma next_open r o : next r = true -> open_g o r = None.
Proof. destruct r as [|[[]|] r]; cbn; congruence. Qed.
Lemma pr_decl_pos d : 1 <= tts_size (pr_decl d).
Proof. destruct d as [| |n ss b|[] n ps ss b|[] n b|b]; cbn [pr_decl app]; sizes; lia. Qed.
Lemma pr_decl_next d r : next (pr_decl d ++ r) = true.
Proof. destruct d as [| |n ss b|[] n ps ss b|[] n b|b]; reflexivity. Qed.
Lemma block_after b r : next r = true -> after_names (pr_block b ++ r) = true.
Proof. destruct b; [apply next_after_names|reflexivity]. Qed.

Lemma read_typed t e f r : wf_ty t = true -> wf_ex e = true -> after_ex r = true -> 2 * tts_size (pr_ty t) + 2 * tts_size (pr_ex e) <= f ->
  p_typed f (y ":" :: pr_ty t ++ y "=" :: pr_ex e ++ r) = Some (t, e, r).
Proof.
  intros W1 W2 A F. unfold p_typed. rewrite eat_y. cbn [obind]. rewrite read_ty; [|assumption|reflexivity|lia]. cbn [obind]. rewrite eat_y. cbn [obind].
  rewrite read_ex; [reflexivity|assumption|assumption|lia].
Qed.

Lemma read_decl_all n : forall d f r, tts_size (pr_decl d) <= n -> wf_decl d = true -> next r = true -> 2 * n <= f -> p_decl f (pr_decl d ++ r) = Some (d, r).
Proof.
  induction n as [n IH] using lt_wf_ind. intros d f r L W A F. pose proof (pr_decl_pos d) as P. destruct f as [|f]; [lia|].
  assert (X : forall l g, forallb wf_decl l = true -> tts_size (flat_map pr_decl l) < n -> 2 * tts_size (flat_map pr_decl l) + 1 <= g -> p_decls g (flat_map pr_decl l) = Some l).
  { clear - IH. induction l as [|d l IHl]; intros g W L G; [destruct g; [lia|reflexivity]|]. cbn [forallb] in W. apply andb_true_iff in W as [W1 W2].
    destruct g as [|g]; [lia|]. cbn [flat_map] in *. sizes. pose proof (pr_decl_pos d) as P.
    assert (Q : p_decl g (pr_decl d ++ flat_map pr_decl l) = Some (d, flat_map pr_decl l)).
    { apply (IH (tts_size (pr_decl d))); try assumption; try lia. destruct l as [|d2 l]; [reflexivity|]. cbn [flat_map]. apply pr_decl_next. }
    cbn [p_decls]. rewrite Q. cbn [obind]. rewrite IHl; [|assumption|lia|lia].
    destruct (pr_decl d ++ flat_map pr_decl l) eqn:E; [|reflexivity]. apply app_eq_nil in E as [E _]. rewrite E in P. cbn in P. lia. }
  assert (B : forall b, forallb wf_decl b = true -> tts_size (pr_block b) < n ->
    match open_g "{" (pr_block b ++ r) with Some (g, r) => let? b := p_decls f g in Some (b, r) | None => Some ([], pr_block b ++ r) end = Some (b, r)).
  { intros b WB LB. destruct b as [|d' b]; [cbn [pr_block app]; now rewrite next_open|]. unfold pr_block in *. cbn [app open_g Ascii.eqb Bool.eqb]. sizes.
    rewrite X; [reflexivity|assumption|lia|lia]. }
  destruct d as [m t e|m t e|m ss b|data m ps ss b|sealed m b|b]; cbn [wf_decl] in W; rewrite ?andb_true_iff in W.
  - destruct W as ((W1 & W2) & W3). cbn [pr_decl] in *. rewrite <- ?app_assoc. cbn [app p_decl w]. cbn [String.eqb Ascii.eqb Bool.eqb]. fold (w m). rewrite read_word by assumption.
    cbn [obind open_g Ascii.eqb Bool.eqb]. sizes. rewrite <- ?app_assoc. cbn [app]. rewrite read_typed; [reflexivity|assumption|assumption|now apply next_after_ex|lia].
  - destruct W as ((W1 & W2) & W3). cbn [pr_decl] in *. rewrite <- ?app_assoc. cbn [app p_decl w]. cbn [String.eqb Ascii.eqb Bool.eqb]. fold (w "val"). rewrite eatw_w. cbn [obind]. fold (w m). rewrite read_word by assumption.
    cbn [obind]. sizes. rewrite read_typed; [reflexivity|assumption|assumption|now apply next_after_ex|lia].
  - destruct W as ((W1 & W2) & W3). cbn [pr_decl] in *. change (match b with [] => [] | _ => _ end) with (pr_block b) in *. rewrite <- ?app_assoc. cbn [app p_decl w].
    cbn [String.eqb Ascii.eqb Bool.eqb]. fold (w m). rewrite read_word by assumption. cbn [obind]. sizes. rewrite read_supers; [|assumption|now apply block_after|lia]. cbn [obind].
    rewrite B; [reflexivity|assumption|lia].
  - destruct W as (((W1 & W2) & W3) & W4). cbn [pr_decl] in *. change (match b with [] => [] | _ => _ end) with (pr_block b) in *. rewrite <- ?app_assoc.
    destruct data; cbn [app p_decl w] in *; cbn [String.eqb Ascii.eqb Bool.eqb] in *.
    + fold (w "class"). rewrite eatw_w. cbn [obind]. fold (w m). rewrite read_word by assumption. cbn [obind open_g Ascii.eqb Bool.eqb]. sizes. rewrite read_params; [|assumption|lia].
      cbn [obind]. rewrite read_supers; [|assumption|now apply block_after|lia]. cbn [obind]. rewrite B; [reflexivity|assumption|lia].
    + fold (w m). rewrite read_word by assumption. cbn [obind open_g Ascii.eqb Bool.eqb]. sizes. rewrite read_params; [|assumption|lia].
      cbn [obind]. rewrite read_supers; [|assumption|now apply block_after|lia]. cbn [obind]. rewrite B; [reflexivity|assumption|lia].
  - destruct W as (W1 & W2). cbn [pr_decl] in *. change (match b with [] => [] | _ => _ end) with (pr_block b) in *. rewrite <- ?app_assoc.
    destruct sealed; cbn [app p_decl w] in *; cbn [String.eqb Ascii.eqb Bool.eqb] in *.
    + fold (w "interface"). rewrite eatw_w. cbn [obind]. fold (w m). rewrite read_word by assumption. cbn [obind]. sizes. rewrite B; [reflexivity|assumption|lia].
    + fold (w m). rewrite read_word by assumption. cbn [obind]. sizes. rewrite B; [reflexivity|assumption|lia].
  - cbn [pr_decl] in *. change (match b with [] => [] | _ => _ end) with (pr_block b) in *. cbn [app p_decl w] in *; cbn [String.eqb Ascii.eqb Bool.eqb] in *. fold (w "object"). rewrite eatw_w. cbn [obind]. sizes.
    rewrite B; [reflexivity|assumption|lia].
Qed.

Lemma read_decls l f : forallb wf_decl l = true -> 2 * tts_size (flat_map pr_decl l) + 1 <= f -> p_decls f (flat_map pr_decl l) = Some l.
Proof.
  revert f. induction l as [|d l IHl]; intros g W G; [destruct g; [lia|reflexivity]|]. cbn [forallb] in W. apply andb_true_iff in W as [W1 W2].
  destruct g as [|g]; [lia|]. cbn [flat_map] in *. sizes. pose proof (pr_decl_pos d) as P.
  assert (Q : p_decl g (pr_decl d ++ flat_map pr_decl l) = Some (d, flat_map pr_decl l)).
  { apply (read_decl_all (tts_size (pr_decl d))); try assumption; try lia. destruct l as [|d2 l]; [reflexivity|]. cbn [flat_map]. apply pr_decl_next. }
  cbn [p_decls]. rewrite Q. cbn [obind]. rewrite IHl; [|assumption|lia].
  destruct (pr_decl d ++ flat_map pr_decl l) eqn:E; [|reflexivity]. apply app_eq_nil in E as [E _]. rewrite E in P. cbn in P. lia.
Qed.

(** No leaf is a bracket. *)
Lemma forallb_flat_map {A} (p : tt -> bool) (f : A -> list tt) l : (forall x, In x l -> forallb p (f x) = true) -> forallb p (flat_map f l) = true.
Proof. intros H. induction l as [|x l IH]; [reflexivity|]. cbn [flat_map]. rewrite forallb_app, H by now left. apply IH. intros z Z. apply H. now right. Qed.
Lemma sep_ok {A} (f : A -> list tt) l : (forall x, In x l -> forallb tt_ok (f x) = true) -> forallb tt_ok (sep (y ",") f l) = true.
Proof.
  intros H. induction l as [|x l IH]; [reflexivity|]. destruct l as [|z l]; [apply H; now left|].
  change (sep (y ",") f (x :: z :: l)) with (f x ++ y "," :: sep (y ",") f (z :: l)). rewrite forallb_app, H by now left. cbn [forallb tt_ok y andb].
  apply IH. intros u U. apply H. now right.
Qed.
Lemma ty_ok : forall t, forallb tt_ok (pr_ty t) = true.
Proof.
  fix IH 1. intros [n l]. destruct l as [|a l]; [reflexivity|]. cbn [pr_ty]. cbn [forallb tt_ok w y]. change (leaf_ok (CW n)) with true. change (leaf_ok (CS "<")) with true. cbn [andb].
  rewrite forallb_app, andb_true_iff. split; [|reflexivity]. apply sep_ok. intros x I.
  revert x I. generalize (a :: l). induction l0 as [|z l0 IHl]; intros x I; [destruct I|]. destruct I as [<-|I]; [apply IH|now apply IHl].
Qed.
Lemma targs_ok l : forallb tt_ok (pr_targs l) = true.
Proof. destruct l as [|a l]; [reflexivity|]. unfold pr_targs. cbn [forallb]. rewrite forallb_app, sep_ok; [reflexivity|]. intros; apply ty_ok. Qed.
Lemma ex_ok : forall e, forallb tt_ok (pr_ex e) = true.
Proof.
  fix IH 1.
  assert (X : forall l, forallb tt_ok (flat_map (fun a => pr_label (fst a) ++ pr_ex (snd a) ++ [y ","]) l) = true).
  { induction l as [|[o e] l IHl]; [reflexivity|]. cbn [flat_map fst snd]. rewrite !forallb_app, IH, IHl. destruct o; reflexivity. }
  intros [n|a b|s|n|n args|n m ts args]; try reflexivity; cbn [pr_ex forallb tt_ok app].
  - change (leaf_ok (CW n)) with true. cbn [w tt_ok]. rewrite X. reflexivity.
  - rewrite forallb_app, targs_ok. cbn [forallb tt_ok w y]. rewrite X. reflexivity.
Qed.
Lemma supers_ok l : forallb tt_ok (pr_supers l) = true.
Proof. destruct l as [|a l]; [reflexivity|]. unfold pr_supers. cbn [forallb tt_ok y]. change (leaf_ok (CS ":")) with true. cbn [andb]. apply sep_ok. reflexivity. Qed.
Lemma params_ok l : forallb tt_ok (flat_map pr_param l) = true.
Proof. apply forallb_flat_map. intros [n t] _. unfold pr_param. cbn [fst snd]. rewrite !forallb_app, ty_ok. reflexivity. Qed.
Lemma decl_ok : forall d, forallb tt_ok (pr_decl d) = true.
Proof.
  fix IH 1.
  assert (X : forall b, forallb tt_ok (pr_block b) = true).
  { intros b. assert (Y : forallb tt_ok (flat_map pr_decl b) = true) by (induction b as [|d b IHb]; [reflexivity|cbn [flat_map]; now rewrite forallb_app, IH, IHb]).
    destruct b; [reflexivity|]. unfold pr_block. cbn [forallb tt_ok]. rewrite Y. reflexivity. }
  intros [n t e|n t e|n ss b|data n ps ss b|sealed n b|b]; cbn [pr_decl]; try change (match b with [] => [] | _ => _ end) with (pr_block b);
    rewrite ?forallb_app; try (cbn [forallb]); rewrite ?forallb_app, ?ty_ok, ?ex_ok, ?supers_ok, ?X; try reflexivity.
  - destruct data; cbn [forallb tt_ok app]; rewrite params_ok; reflexivity.
  - destruct sealed; reflexivity.
Qed.

(** Reading a text that has the tokens of well-formed declarations. *)
Lemma read_file s l : code_tokens kotlin_quotes s = Some (flat (flat_map pr_decl l)) -> forallb wf_decl l = true -> kotlin_file s = Some l.
Proof.
  intros C W. unfold kotlin_file. rewrite C. cbn [obind]. rewrite group_of_flat by (apply forallb_flat_map; intros; apply decl_ok). cbn [obind].
  apply read_decls; [exact W|lia].
Qed.
