(** The token groups of a Dart syntax tree, and: parsing them gives the tree back. *)
Require Import Coq.Strings.String Coq.Strings.Ascii.
Require Import Coq.NArith.NArith Coq.Lists.List Coq.Bool.Bool Coq.Arith.PeanoNat Coq.Arith.Wf_nat Coq.micromega.Lia.
Require Import Verif.Code Verif.DartSyntax.
Import ListNotations.
Local Open Scope string_scope.
Local Open Scope list_scope.

Definition w (s : string) : tt := T (CW s).
Definition y (s : string) : tt := T (CS s).

(** [x, y, z] with the given separator. *)
Definition sep {A : Type} (c : tt) (pr : A -> list tt) : list A -> list tt :=
  fix sep l :=
    match l with
    | [] => []
    | [a] => pr a
    | a :: l' => pr a ++ c :: sep l'
    end.
Definition trail (b : bool) : list tt := if b then [y ","] else [].

Fixpoint pr_ty (t : dty) : list tt :=
  match t with
  | DTy n [] => [w n]
  | DTy n args => w n :: y "<" :: sep (y ",") pr_ty args ++ [y ">"]
  end.
Definition pr_tys (l : list dty) : list tt := y "<" :: sep (y ",") pr_ty l ++ [y ">"].
Definition pr_targs (l : list dty) : list tt := match l with [] => [] | _ => pr_tys l end.

Definition pr_label (n : option string) : list tt :=
  match n with Some n => [w n; y ":"] | None => [] end.

Fixpoint pr (e : dex) : list tt :=
  match e with
  | DNum n => [w n]
  | DFloat a b => [w a; y "."; w b]
  | DStr s => [T (CQ s)]
  | DNeg e => y "-" :: pr e
  | DName n ts => w n :: pr_targs ts
  | DConst n ts args b =>
      w "const" :: w n :: pr_targs ts ++
      [G "(" (sep (y ",") (fun a => pr_label (fst a) ++ pr (snd a)) args ++ trail b)]
  | DMap ts => pr_tys ts ++ [G "{" []]
  | DFun x body => [G "(" [w x]; G "{" (flat_map pr_st body)]
  | DPost h ps => pr h ++ flat_map pr_post ps
  | DEq neg a b => pr a ++ y (if neg then "!=" else "==") :: pr b
  | DSet a b => pr a ++ y "=" :: pr b
  end
with pr_post (p : dpost) : list tt :=
  match p with
  | XField f => [y "."; w f]
  | XCall args b => [G "(" (sep (y ",") (fun a => pr_label (fst a) ++ pr (snd a)) args ++ trail b)]
  | XMeth m ts args b =>
      y "." :: w m :: pr_targs ts ++
      [G "(" (sep (y ",") (fun a => pr_label (fst a) ++ pr (snd a)) args ++ trail b)]
  | XOpt m args b =>
      [y "?."; w m; G "(" (sep (y ",") (fun a => pr_label (fst a) ++ pr (snd a)) args ++ trail b)]
  | XIndex e => [G "[" (pr e)]
  end
with pr_st (s : dst) : list tt :=
  match s with
  | DFinal x e => w "final" :: w x :: y "=" :: pr e ++ [y ";"]
  | DExpr e => pr e ++ [y ";"]
  | DReturn None => [w "return"; y ";"]
  | DReturn (Some e) => w "return" :: pr e ++ [y ";"]
  | DThrow e => w "throw" :: pr e ++ [y ";"]
  | DBreak => [w "break"; y ";"]
  | DIf c body => [w "if"; G "(" (pr c); G "{" (flat_map pr_st body)]
  | DFor x a b c body =>
      [w "for";
       G "(" [w "int"; w x; y "="; w a; y ";"; w x; y "<"; w b; y ";"; w x; y "+="; w c];
       G "{" (flat_map pr_st body)]
  | DSwitch e cases =>
      [w "switch"; G "(" (pr e);
       G "{" (flat_map (fun c =>
                match fst c with
                | Some e => w "case" :: pr e
                | None => [w "default"]
                end ++ y ":" :: flat_map pr_st (snd c)) cases)]
  end.

Definition pr_arg (a : option string * dex) : list tt := pr_label (fst a) ++ pr (snd a).
Definition pr_args (l : list (option string * dex)) (b : bool) : list tt :=
  sep (y ",") pr_arg l ++ trail b.
Definition pr_case (c : option dex * list dst) : list tt :=
  match fst c with
  | Some e => w "case" :: pr e
  | None => [w "default"]
  end ++ y ":" :: flat_map pr_st (snd c).

(** ** Well-formed trees *)

Fixpoint wf_ty (t : dty) : bool :=
  match t with DTy n args => thead n && forallb wf_ty args end.

Definition nonempty {A : Type} (l : list A) : bool := match l with [] => false | _ => true end.
(** A trailing comma needs something before it. *)
Definition comma_ok {A : Type} (l : list A) (b : bool) : bool := implb b (nonempty l).

Definition simple (e : dex) : bool := match e with DEq _ _ _ | DSet _ _ => false | _ => true end.
(** What may stand before [.f], [(..)] and [[..]]. *)
Definition atomic (e : dex) : bool :=
  match e with DName _ _ | DConst _ _ _ _ => true | _ => false end.
Definition is_number (e : dex) : bool := match e with DNum _ | DFloat _ _ => true | _ => false end.
(** [x.f (..)] would be read as a method call. *)
Fixpoint posts_ok (l : list dpost) : bool :=
  match l with
  | XField _ :: ((XCall _ _ :: _) as l') => false
  | _ :: l' => posts_ok l'
  | [] => true
  end.
Definition label_ok (n : option string) : bool := match n with Some n => dident n | None => true end.

Fixpoint wf (e : dex) : bool :=
  match e with
  | DNum n => numeric n
  | DFloat a b => numeric a && numeric b
  | DStr _ => true
  | DNeg e => is_number e && wf e
  | DName n ts => dhead n && forallb wf_ty ts
  | DConst n ts args b =>
      tname n && forallb wf_ty ts && forallb (fun a => label_ok (fst a) && wf (snd a)) args
      && comma_ok args b
  | DMap ts => nonempty ts && forallb wf_ty ts
  | DFun x body => dident x && forallb wf_st body
  | DPost h ps => atomic h && wf h && nonempty ps && posts_ok ps && forallb wf_post ps
  | DEq _ a b => simple a && wf a && simple b && wf b
  | DSet a b => simple a && wf a && wf b
  end
with wf_post (p : dpost) : bool :=
  match p with
  | XField f => dident f
  | XCall args b => forallb (fun a => label_ok (fst a) && wf (snd a)) args && comma_ok args b
  | XMeth m ts args b =>
      dident m && forallb wf_ty ts && forallb (fun a => label_ok (fst a) && wf (snd a)) args
      && comma_ok args b
  | XOpt m args b =>
      dident m && forallb (fun a => label_ok (fst a) && wf (snd a)) args && comma_ok args b
  | XIndex e => wf e
  end
with wf_st (s : dst) : bool :=
  match s with
  | DFinal x e => dident x && wf e
  | DExpr e => wf e
  | DReturn (Some e) => wf e
  | DReturn None => true
  | DThrow e => wf e
  | DBreak => true
  | DIf c body => wf c && forallb wf_st body
  | DFor x a b c body => dident x && numeric a && dident b && numeric c && forallb wf_st body
  | DSwitch e cases =>
      wf e && forallb (fun c => match fst c with Some e => wf e | None => true end
                                && forallb wf_st (snd c)) cases
  end.

Definition wf_arg (a : option string * dex) : bool := label_ok (fst a) && wf (snd a).
Definition wf_case (c : option dex * list dst) : bool :=
  match fst c with Some e => wf e | None => true end && forallb wf_st (snd c).

(** ** What may follow *)

Definition stop_sym (s : string) : bool :=
  String.eqb s "," || String.eqb s ";" || String.eqb s ":".
(** Ends an expression. *)
Definition stop (r : list tt) : bool :=
  match r with [] => true | T (CS s) :: _ => stop_sym s | _ => false end.
(** Ends an operand. *)
Definition stop2 (r : list tt) : bool :=
  match r with
  | [] => true
  | T (CS s) :: _ => stop_sym s || String.eqb s "==" || String.eqb s "!=" || String.eqb s "="
  | _ => false
  end.

Lemma stop_stop2 r : stop r = true -> stop2 r = true.
Proof.
  destruct r as [|[[| s |]|] r]; cbn; try congruence; try reflexivity. intros ->. reflexivity.
Qed.

Ltac sym_cases H :=
  match type of H with
  | (?a || ?b)%bool = true => apply orb_true_iff in H; destruct H as [H|H]; sym_cases H
  | String.eqb _ _ = true => apply String.eqb_eq in H; subst
  | _ => idtac
  end.

Lemma stop2_cases r : stop2 r = true -> r = [] \/ exists s r', r = T (CS s) :: r' /\
  (s = "," \/ s = ";" \/ s = ":" \/ s = "==" \/ s = "!=" \/ s = "=").
Proof.
  destruct r as [|[[| s |]|] r]; cbn; try discriminate; [now left|]. intros H. right.
  exists s, r. split; [reflexivity|]. unfold stop_sym in H. sym_cases H; auto 7.
Qed.
Lemma stop_cases r : stop r = true -> r = [] \/ exists s r', r = T (CS s) :: r' /\
  (s = "," \/ s = ";" \/ s = ":").
Proof.
  destruct r as [|[[| s |]|] r]; cbn; try discriminate; [now left|]. intros H. right.
  exists s, r. split; [reflexivity|]. unfold stop_sym in H. sym_cases H; auto.
Qed.
(** Not the start of type arguments. *)
Definition no_lt (r : list tt) : bool := match r with x :: _ => negb (is_s "<" x) | [] => true end.
Lemma stop2_no_lt r : stop2 r = true -> no_lt r = true.
Proof. intros H. destruct (stop2_cases r H) as [->|(s & q & -> & [->|[->|[->|[->|[->| ->]]]]])]; reflexivity. Qed.
Lemma no_lt_eat r : no_lt r = true -> eat "<" r = None.
Proof. destruct r as [|x r]; [reflexivity|]. cbn. intros H. apply negb_true_iff in H. now rewrite H. Qed.

Ltac ev := cbn [obind eat eatw is_s is_w is_g y w String.eqb Ascii.eqb Bool.eqb andb orb negb app fst snd].
Ltac bools := repeat match goal with H : (_ && _)%bool = true |- _ => apply andb_true_iff in H; destruct H end.
Ltac names := repeat match goal with
  | H : dident ?n = true |- context [dident ?n] => rewrite H
  | H : tname ?n = true |- context [tname ?n] => rewrite H
  | H : thead ?n = true |- context [thead ?n] => rewrite H
  | H : numeric ?n = true |- context [numeric ?n] => rewrite H
  end; cbn [andb negb].

(** ** Sizes *)

Lemma sep_cons {A} c (pr : A -> list tt) a b l : sep c pr (a :: b :: l) = pr a ++ c :: sep c pr (b :: l).
Proof. reflexivity. Qed.
Lemma tts_size_one x l : 1 <= tts_size (x :: l).
Proof. rewrite tts_size_cons. destruct x; cbn; lia. Qed.
Lemma size_pos_w n : tt_size (w n) = 1. Proof. reflexivity. Qed.
Lemma size_pos_y n : tt_size (y n) = 1. Proof. reflexivity. Qed.
Lemma tts_size_nil : tts_size [] = 0. Proof. reflexivity. Qed.
#[global] Hint Rewrite tts_size_app tts_size_cons tt_size_G size_pos_w size_pos_y tts_size_nil : dsize.
Ltac size := autorewrite with dsize in *.

(** ** Types *)

Lemma p_ty_S f l : p_ty (S f) l =
  match l with
  | T (CW w) :: r =>
      if thead w then
        match eat "<" r with
        | Some r' => let? (args, r) := p_tys f r' in Some (DTy w args, r)
        | None => Some (DTy w [], r)
        end
      else None
  | _ => None
  end.
Proof. reflexivity. Qed.
Lemma p_tys_S f l : p_tys (S f) l =
  let? (t, r) := p_ty f l in
  match eat ">" r with
  | Some r' => Some ([t], r')
  | None =>
      let? r := eat "," r in
      let? (ts, r) := p_tys f r in Some (t :: ts, r)
  end.
Proof. reflexivity. Qed.

Lemma pr_ty_size t : 1 <= tts_size (pr_ty t).
Proof. destruct t as [n [|]]; cbn [pr_ty]; apply tts_size_one. Qed.

Lemma p_tys_rt m (IH : forall t r f, wf_ty t = true -> tts_size (pr_ty t) <= m -> no_lt r = true ->
    10 * tts_size (pr_ty t) + 2 <= f -> p_ty f (pr_ty t ++ r) = Some (t, r)) :
  forall l r f, l <> [] -> forallb wf_ty l = true -> tts_size (sep (y ",") pr_ty l) <= m ->
  10 * tts_size (sep (y ",") pr_ty l) + 5 <= f ->
  p_tys f (sep (y ",") pr_ty l ++ y ">" :: r) = Some (l, r).
Proof.
  induction l as [|t l IHl]; intros r f N W M F; [contradiction|].
  cbn [forallb] in W. apply andb_true_iff in W as [W1 W2].
  destruct f as [|f]; [lia|]. rewrite p_tys_S. destruct l as [|u l].
  - cbn [sep] in *. rewrite IH by (assumption || reflexivity || lia). reflexivity.
  - rewrite sep_cons in *. rewrite <- app_assoc. size. cbn [app].
    rewrite IH by (assumption || reflexivity || lia). ev.
    change (T (CS ",")) with (y ",").
    rewrite IHl by (assumption || discriminate || lia). reflexivity.
Qed.

Lemma ty_rt : forall m t r f, wf_ty t = true -> tts_size (pr_ty t) <= m -> no_lt r = true ->
    10 * tts_size (pr_ty t) + 2 <= f -> p_ty f (pr_ty t ++ r) = Some (t, r).
Proof.
  induction m as [|m IH]; intros t r f W M R F.
  - pose proof (pr_ty_size t). lia.
  - destruct f as [|f]; [lia|]. rewrite p_ty_S. destruct t as [n args].
    cbn [wf_ty] in W. apply andb_true_iff in W as [W0 W2]. destruct args as [|a args].
    + cbn [pr_ty app w]. rewrite W0, (no_lt_eat r R). reflexivity.
    + cbn [pr_ty] in *. cbn [app w]. rewrite W0. ev. size. rewrite <- app_assoc. cbn [app].
      rewrite (p_tys_rt m IH) by (assumption || discriminate || lia). reflexivity.
Qed.

Lemma p_ty_pr t r f : wf_ty t = true -> no_lt r = true -> 10 * tts_size (pr_ty t) + 2 <= f ->
  p_ty f (pr_ty t ++ r) = Some (t, r).
Proof. intros. now apply (ty_rt (tts_size (pr_ty t))). Qed.
Lemma p_tys_pr l r f : nonempty l = true -> forallb wf_ty l = true -> 10 * tts_size (pr_tys l) <= f ->
  p_tys f (sep (y ",") pr_ty l ++ y ">" :: r) = Some (l, r).
Proof.
  intros N W F. apply (p_tys_rt (tts_size (sep (y ",") pr_ty l)) (ty_rt _)); auto.
  - now destruct l.
  - unfold pr_tys in F. size. lia.
Qed.
Lemma p_targs_pr l r f : forallb wf_ty l = true -> no_lt r = true -> 10 * tts_size (pr_targs l) <= f ->
  p_targs f (pr_targs l ++ r) = Some (l, r).
Proof.
  intros W R F. unfold p_targs. destruct l as [|t l].
  - cbn [pr_targs app]. now rewrite (no_lt_eat r R).
  - cbn [pr_targs] in *. unfold pr_tys in *. rewrite <- app_comm_cons, <- app_assoc. ev.
    now apply p_tys_pr.
Qed.

(** ** How a printed expression starts *)

Definition ehead (x : tt) : bool :=
  match x with
  | T (CW v) => numeric v || String.eqb v "const" || dhead v
  | T (CS c) => String.eqb c "<" || String.eqb c "-"
  | T (CQ _) => true
  | G o _ => Ascii.eqb o "("
  end.

Lemma pr_head : forall e, wf e = true -> exists x q, pr e = x :: q /\ ehead x = true.
Proof.
  induction e; intros W; cbn [pr wf] in *; bools; try (eexists _, _; split; [reflexivity|]; cbn; names; rewrite ?orb_true_r; reflexivity).
  - eexists _, _. split; [reflexivity|]. cbn. rewrite H. now rewrite !orb_true_r.
  - destruct IHe as (x & q & -> & E); [assumption|]. eexists _, _. split; [reflexivity|exact E].
  - destruct IHe1 as (x & q & -> & E); [assumption|]. eexists _, _. split; [reflexivity|exact E].
  - destruct IHe1 as (x & q & -> & E); [assumption|]. eexists _, _. split; [reflexivity|exact E].
Qed.
Lemma pr_size e : wf e = true -> 1 <= tts_size (pr e).
Proof. intros W. destruct (pr_head e W) as (x & q & -> & _). apply tts_size_one. Qed.

Lemma ehead_word x v : ehead x = true -> (numeric v || String.eqb v "const" || dhead v) = false -> is_w v x = false.
Proof.
  intros E V. destruct x as [[u| |]|]; try reflexivity. cbn in *. destruct (String.eqb u v) eqn:Q; [|reflexivity].
  apply String.eqb_eq in Q. subst. congruence.
Qed.
Lemma ehead_skw x q : ehead x = true ->
  match x :: q with T (CW w) :: _ => skw_of w | _ => None end = None.
Proof.
  intros E. destruct x as [[u| |]|]; try reflexivity. unfold skw_of. cbn in E.
  repeat match goal with |- context [String.eqb u ?v] => let Q := fresh "Q" in destruct (String.eqb u v) eqn:Q;
    [apply String.eqb_eq in Q; subst; discriminate E|] end. reflexivity.
Qed.

Definition no_colon (r : list tt) : bool := match r with x :: _ => negb (is_s ":" x) | [] => true end.
Lemma pr_post_colon p q : no_colon (pr_post p ++ q) = true.
Proof. destruct p; reflexivity. Qed.
Lemma label_word n r : no_colon r = true -> label_of (w n :: r) = None.
Proof.
  destruct r as [|[[|c|]|] r]; try reflexivity. cbn. intros H. apply negb_true_iff in H. now rewrite H.
Qed.
Lemma pr_no_label : forall e r, wf e = true -> no_colon r = true -> label_of (pr e ++ r) = None.
Proof.
  induction e; intros r W R; cbn [pr wf] in *; bools; cbn [app]; try reflexivity.
  - now apply label_word.
  - destruct targs; [|reflexivity]. now apply label_word.
  - destruct ps as [|p ps]; [discriminate|]. rewrite <- app_assoc. apply IHe; [assumption|].
    cbn [flat_map]. rewrite <- app_assoc. apply pr_post_colon.
  - rewrite <- app_assoc. apply IHe1; [assumption|]. now destruct neg.
  - rewrite <- app_assoc. apply IHe1; [assumption|]. reflexivity.
Qed.

Lemma dhead_numeric n : dhead n = true -> numeric n = false.
Proof.
  unfold dhead. intros H. apply orb_true_iff in H as [H|H].
  - unfold dident in H. bools. now apply negb_true_iff in H0.
  - cbn in H. sym_cases H; try reflexivity. discriminate.
Qed.
Lemma dhead_const n : dhead n = true -> String.eqb n "const" = false.
Proof. intros H. destruct (String.eqb n "const") eqn:E; [|reflexivity]. apply String.eqb_eq in E. subst. discriminate. Qed.

(** ** Expressions and statements *)

Definition aend (h : dex) (r : list tt) : bool :=
  match h with DNum _ => stop2 r | _ => no_lt r end.
(** What may follow a list of statements. *)
Definition cend (r : list tt) : bool :=
  match r with [] => true | x :: _ => is_w "case" x || is_w "default" x end.

Section Step.
  Variable m : nat.
  Hypothesis IHe : forall e r f, wf e = true -> tts_size (pr e) <= m -> stop r = true ->
    10 * tts_size (pr e) + 5 <= f -> p_expr f (pr e ++ r) = Some (e, r).
  Hypothesis IHu : forall e r f, wf e = true -> simple e = true -> tts_size (pr e) <= m -> stop2 r = true ->
    10 * tts_size (pr e) + 4 <= f -> p_unary f (pr e ++ r) = Some (e, r).
  Hypothesis IHs : forall l r f, forallb wf_st l = true -> tts_size (flat_map pr_st l) <= m -> cend r = true ->
    10 * tts_size (flat_map pr_st l) + 7 <= f -> p_stmts f (flat_map pr_st l ++ r) = Some (l, r).

  Lemma expr_all e f : wf e = true -> tts_size (pr e) <= m -> 10 * tts_size (pr e) + 5 <= f ->
    p_expr f (pr e) = Some (e, []).
  Proof. intros. rewrite <- (app_nil_r (pr e)). now apply IHe. Qed.
  Lemma stmts_all l f : forallb wf_st l = true -> tts_size (flat_map pr_st l) <= m ->
    10 * tts_size (flat_map pr_st l) + 7 <= f -> p_stmts f (flat_map pr_st l) = Some (l, []).
  Proof. intros. rewrite <- (app_nil_r (flat_map pr_st l)). now apply IHs. Qed.

  Lemma pr_arg_nonempty a : wf_arg a = true -> exists x q, pr_arg a = x :: q.
  Proof.
    unfold wf_arg, pr_arg. intros W. bools. destruct (pr_head (snd a)) as (x & q & -> & _); [assumption|].
    destruct (fst a); cbn; eauto.
  Qed.
  Lemma arg_rt f a r : wf_arg a = true -> tts_size (pr_arg a) <= m -> stop r = true -> no_colon r = true ->
    10 * tts_size (pr_arg a) + 5 <= f ->
    match label_of (pr_arg a ++ r) with
    | Some (n, r) =>
        let? (e, r) := p_expr f r in if dident n then Some ((Some n, e), r) else None
    | None => let? (e, r) := p_expr f (pr_arg a ++ r) in Some ((None, e), r)
    end = Some (a, r).
  Proof.
    destruct a as [[n|] e]; unfold wf_arg, pr_arg; cbn [fst snd pr_label label_ok app]; intros W M R C F; bools; size.
    - cbn [label_of w y]. ev. rewrite IHe by (assumption || lia). ev. names. reflexivity.
    - rewrite pr_no_label by assumption. rewrite IHe by (assumption || lia). reflexivity.
  Qed.

  Lemma args_rt : forall l b f, forallb wf_arg l = true -> comma_ok l b = true ->
    tts_size (pr_args l b) <= m -> 10 * tts_size (pr_args l b) + 6 <= f ->
    p_args f (pr_args l b) = Some (l, b).
  Proof.
    unfold pr_args. induction l as [|a l IH]; intros b f W C M F; (destruct f as [|f]; [lia|]).
    { destruct b; [discriminate|reflexivity]. }
    cbn [forallb] in W. bools.
    assert (NE : forall A (u : A) k q, match pr_arg a ++ q with [] => u | _ => k end = k).
    { intros. destruct (pr_arg_nonempty a) as (x & q' & ->); [assumption|]. reflexivity. }
    destruct l as [|a2 l].
    - cbn [sep] in *. cbn [p_args]. rewrite NE. size. rewrite arg_rt; [|assumption|lia|now destruct b|now destruct b|lia].
      cbn [obind]. destruct b; reflexivity.
    - rewrite sep_cons in *. rewrite <- !app_assoc in *. cbn [app] in *. size.
      cbn [p_args]. rewrite NE. rewrite arg_rt by (assumption || reflexivity || lia). ev. change (T (CS ",")) with (y ",") in *.
      assert (C2 : comma_ok (a2 :: l) b = true) by (now destruct b).
      rewrite IH by (assumption || (size; lia)).
      assert (NE2 : forall A (u : A) k q, match sep (y ",") pr_arg (a2 :: l) ++ q with [] => u | _ => k end = k).
      { intros. cbn [forallb] in H0. bools. destruct (pr_arg_nonempty a2) as (x & q' & E); [assumption|].
        destruct l; [cbn [sep]|rewrite sep_cons]; rewrite E; reflexivity. }
      now rewrite NE2.
  Qed.

  Lemma posts_end r f : stop2 r = true -> p_posts (S f) r = Some ([], r).
  Proof.
    intros R. destruct (stop2_cases r R) as [->|(s & q & -> & [->|[->|[->|[->|[->| ->]]]]])]; reflexivity.
  Qed.

  Lemma posts_no_lt ps r : stop2 r = true -> no_lt (flat_map pr_post ps ++ r) = true.
  Proof. intros R. destruct ps as [|p ps]; [now apply stop2_no_lt|]. cbn [flat_map]. rewrite <- app_assoc. destruct p; reflexivity. Qed.
  Lemma posts_no_call ps r : stop2 r = true -> match ps with XCall _ _ :: _ => false | _ => true end = true ->
    open_g "(" (flat_map pr_post ps ++ r) = None.
  Proof.
    intros R C. destruct ps as [|p ps].
    - destruct (stop2_cases r R) as [->|(s & q & -> & _)]; reflexivity.
    - cbn [flat_map]. rewrite <- app_assoc. destruct p; try reflexivity. discriminate.
  Qed.

  Lemma posts_rt : forall ps r f, forallb wf_post ps = true -> posts_ok ps = true ->
    tts_size (flat_map pr_post ps) <= S m -> stop2 r = true ->
    10 * tts_size (flat_map pr_post ps) + 1 <= f ->
    p_posts f (flat_map pr_post ps ++ r) = Some (ps, r).
  Proof.
    induction ps as [|p ps IH]; intros r f W O M R F; (destruct f as [|f]; [lia|]); [now apply posts_end|].
    cbn [forallb] in W. bools. cbn [flat_map] in *.
    assert (O2 : posts_ok ps = true) by (cbn [posts_ok] in O; destruct p, ps as [|[] ?]; auto; discriminate).
    destruct p as [x|args b|x ts args b|x args b|e]; cbn [pr_post wf_post] in *; bools.
    - (* field *) size. cbn [app p_posts y w]. ev. names.
      assert (E : p_targs f (flat_map pr_post ps ++ r) = Some ([], flat_map pr_post ps ++ r)).
      { apply (p_targs_pr [] _ f eq_refl); [now apply posts_no_lt|cbn; lia]. }
      rewrite E. cbn [obind]. rewrite posts_no_call.
      + rewrite IH by (assumption || lia). reflexivity.
      + assumption.
      + cbn [posts_ok] in O. destruct ps as [|[] ?]; auto.
    - change (sep (y ",") (fun a => pr_label (fst a) ++ pr (snd a)) args ++ trail b) with (pr_args args b) in *.
      change (forallb (fun a => label_ok (fst a) && wf (snd a)) args) with (forallb wf_arg args) in *.
      size. cbn [app p_posts]. ev. rewrite args_rt by (assumption || lia). cbn [obind].
      rewrite IH by (assumption || lia). reflexivity.
    - change (sep (y ",") (fun a => pr_label (fst a) ++ pr (snd a)) args ++ trail b) with (pr_args args b) in *.
      change (forallb (fun a => label_ok (fst a) && wf (snd a)) args) with (forallb wf_arg args) in *.
      size. cbn [app p_posts y w]. ev. names. rewrite <- !app_assoc.
      rewrite p_targs_pr by (assumption || reflexivity || lia). cbn [obind open_g app]. ev.
      rewrite args_rt by (assumption || lia). cbn [obind].
      rewrite IH by (assumption || lia). reflexivity.
    - change (sep (y ",") (fun a => pr_label (fst a) ++ pr (snd a)) args ++ trail b) with (pr_args args b) in *.
      change (forallb (fun a => label_ok (fst a) && wf (snd a)) args) with (forallb wf_arg args) in *.
      size. cbn [app p_posts y w]. ev. names. cbn [open_g]. ev.
      rewrite args_rt by (assumption || lia). cbn [obind].
      rewrite IH by (assumption || lia). reflexivity.
    - size. cbn [app p_posts]. ev. rewrite expr_all by (assumption || lia). cbn [obind].
      rewrite IH by (assumption || lia). reflexivity.
  Qed.

  Lemma atom_rt : forall e r f, wf e = true ->
    match e with DPost _ _ | DEq _ _ _ | DSet _ _ | DNeg _ => false | _ => true end = true ->
    tts_size (pr e) <= S m -> aend e r = true -> 10 * tts_size (pr e) + 3 <= f ->
    p_atom f (pr e ++ r) = Some (e, r).
  Proof.
    intros e r f W A M R F. destruct f as [|f]; [lia|].
    destruct e as [n|a b|s|e|n ts|n ts args b|ts|x body|h ps|neg a b|a b]; try discriminate A; cbn [pr wf] in *; bools.
    - cbn [app p_atom w]. names. cbn [aend] in R.
      destruct (stop2_cases r R) as [->|(s & q & -> & H)]; [reflexivity|].
      destruct q as [|[[]|] q]; try reflexivity. destruct H as [->|[->|[->|[->|[->| ->]]]]]; reflexivity.
    - cbn [app p_atom w y]. names. ev. names. reflexivity.
    - reflexivity.
    - cbn [app p_atom w]. rewrite (dhead_numeric n), (dhead_const n) by assumption.
      rewrite H. cbn [aend] in R. size. rewrite p_targs_pr by (assumption || lia). reflexivity.
    - change (sep (y ",") (fun a => pr_label (fst a) ++ pr (snd a)) args ++ trail b) with (pr_args args b) in *.
      change (forallb (fun a => label_ok (fst a) && wf (snd a)) args) with (forallb wf_arg args) in *.
      size. cbn [app p_atom w]. change (numeric "const") with false. ev. rewrite <- !app_assoc.
      rewrite p_targs_pr by (assumption || reflexivity || lia). cbn [obind open_g app]. ev.
      rewrite args_rt by (assumption || lia). cbn [obind]. names. reflexivity.
    - unfold pr_tys in *. rewrite <- !app_assoc, <- app_comm_cons, <- app_assoc. cbn [p_atom app y]. ev.
      change (T (CS ">")) with (y ">") in *.
      rewrite p_tys_pr; [|assumption|assumption|unfold pr_tys; size; lia]. cbn [obind open_g]. ev. reflexivity.
    - size. cbn [app p_atom]. ev. cbn [open_g]. ev. rewrite stmts_all by (assumption || lia). ev. names. reflexivity.
  Qed.

  Lemma pr_not_minus e r : wf e = true -> match e with DNeg _ => false | _ => true end = true ->
    simple e = true -> eat "-" (pr e ++ r) = None.
  Proof.
    intros W N S. destruct e as [| | | | | | | |h ps| |]; try discriminate; cbn [pr wf] in *; bools; try reflexivity.
    destruct h; try discriminate; reflexivity.
  Qed.

  Lemma unary_rt : forall e r f, wf e = true -> simple e = true -> tts_size (pr e) <= S m -> stop2 r = true ->
    10 * tts_size (pr e) + 4 <= f -> p_unary f (pr e ++ r) = Some (e, r).
  Proof.
    intros e r f W S M R F. destruct f as [|f]; [lia|].
    destruct (match e with DNeg _ => true | _ => false end) eqn:N.
    { destruct e as [| | |e| | | | | | |]; try discriminate N. cbn [pr wf] in *. bools. cbn [app p_unary]. ev. size.
      rewrite IHu; [reflexivity|assumption|destruct e; auto; discriminate|lia|assumption|lia]. }
    cbn [p_unary]. rewrite pr_not_minus by (assumption || now destruct e).
    destruct (match e with DPost _ _ => true | _ => false end) eqn:P.
    - destruct e as [| | | | | | | |h ps| |]; try discriminate P. cbn [pr wf] in *. bools. rewrite <- app_assoc. size.
      pose proof (pr_size h H3).
      rewrite atom_rt; [|assumption|now destruct h|lia| |lia].
      + cbn [obind]. rewrite posts_rt by (assumption || lia). destruct ps; [discriminate|reflexivity].
      + destruct h; try discriminate; cbn [aend]; now apply posts_no_lt.
    - rewrite atom_rt; [|assumption|now destruct e|lia| |lia].
      + cbn [obind]. destruct f as [|f]; [lia|]. rewrite posts_end by assumption. reflexivity.
      + destruct e; cbn [aend]; try assumption; now apply stop2_no_lt.
  Qed.

  Lemma expr_rt : forall e r f, wf e = true -> tts_size (pr e) <= S m -> stop r = true ->
    10 * tts_size (pr e) + 5 <= f -> p_expr f (pr e ++ r) = Some (e, r).
  Proof.
    intros e r f W M R F. destruct f as [|f]; [lia|]. destruct (simple e) eqn:Q.
    - cbn [p_expr]. rewrite unary_rt by (assumption || lia || now apply stop_stop2). cbn [obind].
      destruct (stop_cases r R) as [->|(s & q & -> & [->|[->| ->]])]; reflexivity.
    - destruct e as [| | | | | | | | |neg a b|a b]; try discriminate Q; cbn [pr wf] in *; bools; size;
        pose proof (pr_size a ltac:(assumption)); pose proof (pr_size b ltac:(assumption));
        cbn [p_expr]; rewrite <- app_assoc; cbn [app].
      + rewrite IHu; [|assumption|assumption|lia|now destruct neg|lia].
        destruct neg; ev; (rewrite IHu; [reflexivity|assumption|assumption|lia|now apply stop_stop2|lia]).
      + rewrite IHu; [|assumption|assumption|lia|reflexivity|lia]. ev.
        rewrite IHe; [reflexivity|assumption|lia|assumption|lia].
  Qed.

  Lemma expr_semi e r f : wf e = true -> tts_size (pr e) <= m -> 10 * tts_size (pr e) + 5 <= f ->
    p_expr f (pr e ++ y ";" :: r) = Some (e, y ";" :: r).
  Proof. intros. now apply IHe. Qed.

  Lemma pr_not_semi e q : wf e = true -> eat ";" (pr e ++ q) = None.
  Proof.
    intros W. destruct (pr_head e W) as (x & q' & -> & E). cbn [app eat]. destruct x as [[|c|]|]; try reflexivity.
    cbn in *. destruct (String.eqb c ";") eqn:Q; [|reflexivity]. apply String.eqb_eq in Q. now subst.
  Qed.

  Lemma cases_cend cs : cend (flat_map pr_case cs) = true.
  Proof. destruct cs as [|[[e|] b] cs]; reflexivity. Qed.

  Lemma cases_rt : forall cs f, forallb wf_case cs = true -> tts_size (flat_map pr_case cs) <= m ->
    10 * tts_size (flat_map pr_case cs) + 6 <= f -> p_cases f (flat_map pr_case cs) = Some cs.
  Proof.
    induction cs as [|[o b] cs IH]; intros f W M F; (destruct f as [|f]; [lia|]); [reflexivity|].
    cbn [forallb flat_map] in *. bools. unfold wf_case in H. cbn [fst snd] in H. bools.
    unfold pr_case at 1 in M. unfold pr_case at 1 in F. unfold pr_case at 1. cbn [fst snd] in *.
    destruct o as [e|]; size.
    - rewrite <- !app_assoc, <- !app_comm_cons. cbn [p_cases w]. ev. change (T (CS ":")) with (y ":").
      rewrite IHe by (assumption || reflexivity || lia). ev. rewrite IHs by (assumption || apply cases_cend || lia). ev.
      rewrite IH by (assumption || lia). reflexivity.
    - cbn [app]. cbn [p_cases w]. ev.
      rewrite IHs by (assumption || apply cases_cend || lia). ev.
      rewrite IH by (assumption || lia). reflexivity.
  Qed.

  Lemma stmt_rt s r f : wf_st s = true -> tts_size (pr_st s) <= S m -> 10 * tts_size (pr_st s) + 6 <= f ->
    p_stmt f (pr_st s ++ r) = Some (s, r).
  Proof.
    intros W M F. destruct f as [|f]; [lia|].
    destruct s as [x e|e|[e|]|e| |c body|x a b c body|e cs]; cbn [pr_st wf_st] in *; bools; size.
    - cbn [app]. cbn [p_stmt w]. change (skw_of "final") with (Some KFinal). cbn [tl]. ev. rewrite <- app_assoc.
      cbn [app]. change (T (CS ";")) with (y ";").
      rewrite expr_semi by (assumption || lia). ev. names. reflexivity.
    - rewrite <- app_assoc. cbn [app p_stmt]. destruct (pr_head e W) as (x & q & E & HX).
      assert (K : match pr e ++ y ";" :: r with T (CW w) :: _ => skw_of w | _ => None end = None)
        by (rewrite E; cbn [app]; now apply (ehead_skw x (q ++ y ";" :: r))).
      rewrite K. rewrite expr_semi by (assumption || lia). reflexivity.
    - cbn [app]. cbn [p_stmt w]. change (skw_of "return") with (Some KReturn). cbn [tl]. rewrite <- app_assoc.
      rewrite pr_not_semi by assumption. cbn [app]. rewrite expr_semi by (assumption || lia). reflexivity.
    - reflexivity.
    - cbn [app]. cbn [p_stmt w]. change (skw_of "throw") with (Some KThrow). cbn [tl]. rewrite <- app_assoc.
      cbn [app]. rewrite expr_semi by (assumption || lia). reflexivity.
    - reflexivity.
    - cbn [app p_stmt w]. change (skw_of "if") with (Some KIf). cbn [tl open_g]. ev. cbn [open_g]. ev.
      rewrite expr_all by (assumption || lia). ev. rewrite stmts_all by (assumption || lia). reflexivity.
    - cbn [app p_stmt w]. change (skw_of "for") with (Some KFor). cbn [tl open_g]. ev. cbn [open_g]. ev.
      cbn [p_for w y]. rewrite !String.eqb_refl. ev. names. ev. rewrite stmts_all by (assumption || lia). reflexivity.
    - change (flat_map (fun c => match fst c with Some e => w "case" :: pr e | None => [w "default"] end ++ y ":" :: flat_map pr_st (snd c)) cs)
        with (flat_map pr_case cs) in *.
      change (forallb (fun c => match fst c with Some e => wf e | None => true end && forallb wf_st (snd c)) cs)
        with (forallb wf_case cs) in *.
      cbn [app p_stmt w]. change (skw_of "switch") with (Some KSwitch). cbn [tl open_g]. ev. cbn [open_g]. ev.
      rewrite expr_all by (assumption || lia). ev. rewrite cases_rt by (assumption || lia). reflexivity.
  Qed.

  Lemma pr_st_head s : wf_st s = true -> exists x q, pr_st s = x :: q /\ is_w "case" x = false /\ is_w "default" x = false.
  Proof.
    intros W. destruct s as [x e|e|[e|]|e| |c body|x a b c body|e cs]; cbn [pr_st wf_st] in *;
      try (eexists _, _; split; [reflexivity|split; reflexivity]).
    destruct (pr_head e W) as (x & q & -> & E). eexists _, _. split; [reflexivity|].
    split; now apply ehead_word.
  Qed.

  Lemma stmts_rt : forall l r f, forallb wf_st l = true -> tts_size (flat_map pr_st l) <= S m -> cend r = true ->
    10 * tts_size (flat_map pr_st l) + 7 <= f -> p_stmts f (flat_map pr_st l ++ r) = Some (l, r).
  Proof.
    induction l as [|s l IH]; intros r f W M R F; (destruct f as [|f]; [lia|]).
    - cbn [flat_map app p_stmts]. destruct r as [|x r]; [reflexivity|]. cbn [cend] in R. now rewrite R.
    - cbn [forallb flat_map] in *. bools. size. rewrite <- app_assoc.
      destruct (pr_st_head s H) as (x & q & E & X1 & X2).
      assert (P : 1 <= tts_size (pr_st s)) by (rewrite E; apply tts_size_one).
      assert (L : forall A (a b k : A), match pr_st s ++ flat_map pr_st l ++ r with
        | [] => a | x :: _ => if is_w "case" x || is_w "default" x then b else k end = k).
      { intros. rewrite E. cbn [app]. now rewrite X1, X2. }
      cbn [p_stmts]. rewrite L.
      rewrite stmt_rt by (assumption || lia). ev. rewrite IH by (assumption || lia). reflexivity.
  Qed.
End Step.

Lemma all_rt : forall m,
  (forall e r f, wf e = true -> tts_size (pr e) <= m -> stop r = true ->
    10 * tts_size (pr e) + 5 <= f -> p_expr f (pr e ++ r) = Some (e, r)) /\
  (forall e r f, wf e = true -> simple e = true -> tts_size (pr e) <= m -> stop2 r = true ->
    10 * tts_size (pr e) + 4 <= f -> p_unary f (pr e ++ r) = Some (e, r)) /\
  (forall l r f, forallb wf_st l = true -> tts_size (flat_map pr_st l) <= m -> cend r = true ->
    10 * tts_size (flat_map pr_st l) + 7 <= f -> p_stmts f (flat_map pr_st l ++ r) = Some (l, r)).
Proof.
  induction m as [|m (IHe & IHu & IHs)].
  - repeat split.
    1,2: intros e r f W; intros; pose proof (pr_size e W); lia.
    intros [|s l] r f W M R F.
    + destruct f as [|f]; [lia|]. cbn [flat_map app p_stmts]. destruct r as [|x r]; [reflexivity|]. cbn [cend] in R. now rewrite R.
    + cbn [forallb flat_map] in *. bools. destruct (pr_st_head s H) as (x & q & E & _). rewrite E in M. size.
      destruct x; cbn in M; lia.
  - repeat split; [exact (expr_rt m IHe IHu IHs)|exact (unary_rt m IHe IHu IHs)|exact (stmts_rt m IHe IHs)].
Qed.

(** Reading a printed expression gives the expression. *)
Theorem p_expr_pr e r f : wf e = true -> stop r = true -> 10 * tts_size (pr e) + 5 <= f ->
  p_expr f (pr e ++ r) = Some (e, r).
Proof. intros. now apply (proj1 (all_rt (tts_size (pr e)))). Qed.
Theorem p_block_pr l f : forallb wf_st l = true -> 10 * tts_size (flat_map pr_st l) + 7 <= f ->
  p_block f (flat_map pr_st l) = Some l.
Proof.
  intros. unfold p_block. rewrite <- (app_nil_r (flat_map pr_st l)).
  rewrite (proj2 (proj2 (all_rt (tts_size (flat_map pr_st l))))) by auto. reflexivity.
Qed.

(** ** Members and items *)

Definition pr_param (p : dparam) : list tt :=
  match fst p with
  | None => [w "this"; y "."; w (snd p)]
  | Some t => pr_ty t ++ [w (snd p)]
  end.
Definition pr_named (p : dparam) : list tt := w "required" :: pr_param p ++ [y ","].
Definition pr_params (p : dparams) : list tt :=
  match p with
  | PPos l b => sep (y ",") pr_param l ++ trail b
  | PNamed l => [G "{" (flat_map pr_named l)]
  end.
Definition pr_init (ne : string * dex) : list tt := w (fst ne) :: y "=" :: pr (snd ne).
Definition pr_inits (l : list (string * dex)) : list tt := sep (y ",") pr_init l ++ [y ";"].
Definition pr_value (e : option dex) : list tt :=
  match e with Some e => y "=" :: pr e ++ [y ";"] | None => [y ";"] end.
Definition pr_body (b : dbody) : list tt :=
  match b with
  | BArrow e => y "=>" :: pr e ++ [y ";"]
  | BBlock l => [G "{" (flat_map pr_st l)]
  end.
Definition pr_member (m : dmember) : list tt :=
  match m with
  | MAnnot n => [y "@"; w n]
  | MConstCtor n => [w "const"; w n; G "(" []; y ";"]
  | MCtor n ps body =>
      w n :: G "(" (pr_params ps) ::
      match body with Some b => [G "{" (flat_map pr_st b)] | None => [y ";"] end
  | MInitCtor n m is => w n :: y "." :: w m :: G "(" [] :: y ":" :: pr_inits is
  | MStatic n e => w "static" :: w "const" :: w n :: y "=" :: pr e ++ [y ";"]
  | MLate t n => w "late" :: w "final" :: pr_ty t ++ [w n; y ";"]
  | MFinal t n e => w "final" :: match t with Some t => pr_ty t | None => [] end ++ w n :: pr_value e
  | MField t n e => pr_ty t ++ w n :: pr_value e
  | MGet t n e => pr_ty t ++ w "get" :: w n :: y "=>" :: pr e ++ [y ";"]
  | MMeth static t n ps b =>
      (if static then [w "static"] else []) ++ pr_ty t ++ w n :: G "(" (pr_params ps) :: pr_body b
  end.
Definition pr_item (i : ditem) : list tt :=
  match i with
  | DImport s => [w "import"; T (CQ s); y ";"]
  | DConstDecl n e => w "const" :: w n :: y "=" :: pr e ++ [y ";"]
  | DClass n t ms =>
      w "class" :: w n :: match t with Some t => w "implements" :: pr_ty t | None => [] end ++
      [G "{" (flat_map pr_member ms)]
  | DEnum n ns => [w "enum"; w n; G "{" (flat_map (fun n => [w n; y ","]) ns)]
  end.
Definition pr_items (l : list ditem) : list tt := flat_map pr_item l.

Definition wf_param (p : dparam) : bool :=
  dident (snd p) && match fst p with Some t => wf_ty t | None => true end.
Definition wf_params (p : dparams) : bool :=
  match p with
  | PPos l b => forallb wf_param l && comma_ok l b
  | PNamed l => nonempty l && forallb wf_param l
  end.
Definition wf_body (b : dbody) : bool :=
  match b with BArrow e => wf e | BBlock l => forallb wf_st l end.
Definition wf_value (e : option dex) : bool := match e with Some e => wf e | None => true end.
Definition wf_member (m : dmember) : bool :=
  match m with
  | MAnnot n => dident n
  | MConstCtor n => tname n
  | MCtor n ps body =>
      tname n && wf_params ps && match body with Some b => forallb wf_st b | None => true end
  | MInitCtor n m is =>
      tname n && dident m && nonempty is && forallb (fun ne => dident (fst ne) && wf (snd ne)) is
  | MStatic n e => dident n && wf e
  | MLate t n => wf_ty t && dident n
  | MFinal t n e =>
      match t with Some t => wf_ty t | None => match e with Some _ => true | None => false end end
      && dident n && wf_value e
  | MField t n e => wf_ty t && dident n && wf_value e
  | MGet t n e => wf_ty t && dident n && wf e
  | MMeth _ t n ps b => wf_ty t && dident n && wf_params ps && wf_body b
  end.
Definition wf_item (i : ditem) : bool :=
  match i with
  | DImport _ => true
  | DConstDecl n e => dident n && wf e
  | DClass n t ms =>
      tname n && match t with Some t => wf_ty t | None => true end && forallb wf_member ms
  | DEnum n ns => tname n && forallb dident ns
  end.

Lemma thead_not n v : thead n = true -> thead v = false -> String.eqb n v = false.
Proof. intros H V. destruct (String.eqb n v) eqn:E; [|reflexivity]. apply String.eqb_eq in E. subst. congruence. Qed.
Lemma tname_thead n : tname n = true -> thead n = true.
Proof. unfold thead. now intros ->. Qed.
(** How a printed type starts. *)
Lemma pr_ty_head t : wf_ty t = true -> exists n q, pr_ty t = w n :: q /\ thead n = true
  /\ match q with [] => true | x :: _ => is_s "<" x end = true.
Proof.
  destruct t as [n [|a args]]; cbn [wf_ty pr_ty]; intros W; bools; eexists _, _; repeat split; assumption.
Qed.

Lemma p_param_pr p r f : wf_param p = true -> 10 * tts_size (pr_param p) + 2 <= f ->
  p_param f (pr_param p ++ r) = Some (p, r).
Proof.
  destruct p as [[t|] x]; unfold wf_param, pr_param; cbn [fst snd]; intros W F; bools; size.
  - unfold p_param. rewrite <- app_assoc. destruct (pr_ty_head t H0) as (n & q & E & TH & _).
    assert (X : eatw "this" (pr_ty t ++ [w x] ++ r) = None)
      by (rewrite E; cbn [app eatw is_w w]; now rewrite (thead_not n "this" TH eq_refl)).
    rewrite X. rewrite p_ty_pr by (assumption || reflexivity || lia). ev. names. reflexivity.
  - unfold p_param. ev. names. reflexivity.
Qed.
Lemma pr_param_nonempty p : wf_param p = true -> exists x q, pr_param p = x :: q /\ is_g "{" x = false.
Proof.
  destruct p as [[t|] x]; unfold wf_param, pr_param; cbn [fst snd]; intros W; bools.
  - destruct (pr_ty_head t H0) as (n & q & -> & _). eexists _, _. split; reflexivity.
  - eexists _, _. split; reflexivity.
Qed.

Lemma p_pos_pr : forall l b f, forallb wf_param l = true -> comma_ok l b = true ->
  10 * tts_size (sep (y ",") pr_param l ++ trail b) + 6 <= f ->
  p_pos f (sep (y ",") pr_param l ++ trail b) = Some (l, b).
Proof.
  induction l as [|p l IH]; intros b f W C F; (destruct f as [|f]; [lia|]).
  { destruct b; [discriminate|reflexivity]. }
  cbn [forallb] in W. bools.
  assert (NE : forall A (u : A) k q, match pr_param p ++ q with [] => u | _ => k end = k).
  { intros. destruct (pr_param_nonempty p) as (x & q' & -> & _); [assumption|]. reflexivity. }
  destruct l as [|p2 l].
  - cbn [sep] in *. cbn [p_pos]. rewrite NE. size. rewrite p_param_pr by (assumption || lia).
    cbn [obind]. destruct b; reflexivity.
  - rewrite sep_cons in *. rewrite <- !app_assoc in *. cbn [app] in *. size.
    cbn [p_pos]. rewrite NE. rewrite p_param_pr by (assumption || reflexivity || lia). ev. change (T (CS ",")) with (y ",") in *.
    assert (C2 : comma_ok (p2 :: l) b = true) by (now destruct b).
    rewrite IH by (assumption || (size; lia)).
    assert (NE2 : forall A (u : A) k q, match sep (y ",") pr_param (p2 :: l) ++ q with [] => u | _ => k end = k).
    { intros. cbn [forallb] in H0. bools. destruct (pr_param_nonempty p2) as (x & q' & E & _); [assumption|].
      destruct l; [cbn [sep]|rewrite sep_cons]; rewrite E; reflexivity. }
    now rewrite NE2.
Qed.
Lemma p_named_pr : forall l f, forallb wf_param l = true ->
  10 * tts_size (flat_map pr_named l) + 6 <= f -> p_named f (flat_map pr_named l) = Some l.
Proof.
  induction l as [|p l IH]; intros f W F; (destruct f as [|f]; [lia|]); [reflexivity|].
  cbn [forallb flat_map] in *. bools. unfold pr_named at 1 in F. unfold pr_named at 1. size.
  rewrite <- app_comm_cons, <- app_assoc. cbn [p_named w]. ev. rewrite p_param_pr by (assumption || lia). ev.
  rewrite IH by (assumption || lia). reflexivity.
Qed.
Lemma p_params_pr ps f : wf_params ps = true -> 10 * tts_size (pr_params ps) + 6 <= f ->
  p_params f (pr_params ps) = Some ps.
Proof.
  destruct ps as [l b|l]; cbn [wf_params pr_params]; intros W F; bools; unfold p_params.
  - assert (X : open_g "{" (sep (y ",") pr_param l ++ trail b) = None).
    { destruct l as [|p l]; [destruct b; [discriminate|reflexivity]|]. cbn [forallb] in H. bools.
      destruct (pr_param_nonempty p) as (x & q & E & X); [assumption|].
      destruct l; [cbn [sep]|rewrite sep_cons]; rewrite E; cbn [app open_g]; destruct x; try reflexivity; cbn in X; now rewrite X. }
    rewrite X. rewrite p_pos_pr by assumption. reflexivity.
  - cbn [open_g]. ev. size. destruct l as [|p l]; [discriminate|].
    rewrite p_named_pr by (assumption || lia). reflexivity.
Qed.

Lemma p_inits_pr : forall l r f, nonempty l = true -> forallb (fun ne => dident (fst ne) && wf (snd ne)) l = true ->
  10 * tts_size (pr_inits l) <= f -> p_inits f (pr_inits l ++ r) = Some (l, r).
Proof.
  unfold pr_inits. induction l as [|[n e] l IH]; intros r f N W F; [discriminate|].
  destruct f as [|f]; [destruct l; [cbn [sep] in F|rewrite sep_cons in F]; unfold pr_init in F; size; lia|].
  cbn [forallb fst snd] in W. bools. destruct l as [|ne l].
  - cbn [sep] in *. unfold pr_init in *. cbn [fst snd] in *. size. rewrite <- !app_comm_cons, <- app_assoc. cbn [p_inits w app]. ev.
    rewrite p_expr_pr by (assumption || reflexivity || lia). ev. names. reflexivity.
  - rewrite sep_cons in *. unfold pr_init at 1 in F. unfold pr_init at 1. cbn [fst snd] in *. size. rewrite <- !app_comm_cons, <- !app_assoc, <- !app_comm_cons.
    cbn [p_inits w app]. ev. change (T (CS ",")) with (y ",") in *. change (T (CS ";")) with (y ";") in *.
    rewrite <- ?app_assoc, <- ?app_comm_cons, <- ?app_assoc.
    rewrite p_expr_pr by (assumption || reflexivity || lia). ev. names.
    change (T (CS ",")) with (y ",") in *. change (T (CS ";")) with (y ";") in *.
    specialize (IH r f). rewrite <- app_assoc in IH. cbn [app] in IH.
    rewrite IH; [reflexivity|reflexivity|assumption|size; lia].
Qed.

Lemma p_init_pr e r f : wf_value e = true -> 10 * tts_size (pr_value e) + 5 <= f ->
  p_init f (pr_value e ++ r) = Some (e, r).
Proof.
  destruct e as [e|]; cbn [wf_value pr_value]; intros W F; unfold p_init; [|reflexivity].
  size. rewrite <- app_comm_cons, <- app_assoc. cbn [app]. ev. change (T (CS ";")) with (y ";").
  rewrite p_expr_pr by (assumption || reflexivity || lia). reflexivity.
Qed.
Lemma p_body_pr b r f : wf_body b = true -> 10 * tts_size (pr_body b) + 7 <= f ->
  p_body f (pr_body b ++ r) = Some (b, r).
Proof.
  destruct b as [e|l]; cbn [wf_body pr_body]; intros W F; unfold p_body; size.
  - rewrite <- app_comm_cons, <- app_assoc. cbn [app open_g y]. ev. change (T (CS ";")) with (y ";").
    rewrite p_expr_pr by (assumption || reflexivity || lia). reflexivity.
  - cbn [app open_g]. ev. rewrite p_block_pr by (assumption || lia). reflexivity.
Qed.

Lemma p_typed_field f t n e r : wf_ty t = true -> dident n = true -> wf_value e = true ->
  10 * (tts_size (pr_ty t) + tts_size (pr_value e)) + 7 <= f ->
  p_typed f false (pr_ty t ++ w n :: pr_value e ++ r) = Some (MField t n e, r).
Proof.
  intros. unfold p_typed. rewrite p_ty_pr by (assumption || reflexivity || lia). ev. cbn [p_word]. ev.
  assert (X : open_g "(" (pr_value e ++ r) = None) by (destruct e; reflexivity). rewrite X.
  assert (Y : p_word (pr_value e ++ r) = None) by (destruct e; reflexivity). rewrite Y.
  rewrite p_init_pr by (assumption || lia). ev. names. reflexivity.
Qed.
Lemma p_typed_get f t n e r : wf_ty t = true -> dident n = true -> wf e = true ->
  10 * (tts_size (pr_ty t) + tts_size (pr e)) + 7 <= f ->
  p_typed f false (pr_ty t ++ w "get" :: w n :: y "=>" :: pr e ++ y ";" :: r) = Some (MGet t n e, r).
Proof.
  intros. unfold p_typed. rewrite p_ty_pr by (assumption || reflexivity || lia). ev. cbn [p_word open_g]. ev.
  cbn [p_word]. ev. change (T (CS ";")) with (y ";"). rewrite p_expr_pr by (assumption || reflexivity || lia). ev. names. reflexivity.
Qed.
Lemma p_typed_meth f static t n ps b r : wf_ty t = true -> dident n = true -> wf_params ps = true -> wf_body b = true ->
  10 * (tts_size (pr_ty t) + tts_size (pr_params ps) + tts_size (pr_body b)) + 7 <= f ->
  p_typed f static (pr_ty t ++ w n :: G "(" (pr_params ps) :: pr_body b ++ r) = Some (MMeth static t n ps b, r).
Proof.
  intros. unfold p_typed. rewrite p_ty_pr by (assumption || reflexivity || lia). ev. cbn [p_word open_g]. ev. cbn [open_g]. ev.
  unfold p_method. rewrite p_params_pr by (assumption || lia). ev. rewrite p_body_pr by (assumption || lia). ev. names. reflexivity.
Qed.

(** A member that starts with a type is read by [p_typed]. *)
Lemma p_member_typed f t n q : wf_ty t = true ->
  p_member f (pr_ty t ++ w n :: q) = p_typed f false (pr_ty t ++ w n :: q).
Proof.
  intros W. destruct (pr_ty_head t W) as (v & u & E & TH & U). rewrite E. cbn [app p_member w].
  rewrite !(thead_not v) by (assumption || reflexivity).
  destruct u as [|x u]; cbn [app]; [reflexivity|]. destruct x as [[|c|]|]; try discriminate U.
  cbn in U. apply String.eqb_eq in U. subst. reflexivity.
Qed.

Ltac rot := rewrite <- ?app_comm_cons, <- ?app_assoc; cbn [app]; rewrite <- ?app_comm_cons, <- ?app_assoc; cbn [app].
Ltac foldy := change (T (CS ";")) with (y ";") in *; change (T (CS "=")) with (y "=") in *.

Lemma p_member_pr m r f : wf_member m = true -> 10 * tts_size (pr_member m) <= f ->
  p_member f (pr_member m ++ r) = Some (m, r).
Proof.
  destruct m as [n|n|n ps body|n m is|n e|t n|t n e|t n e|t n e|static t n ps b]; cbn [wf_member pr_member]; intros W F; bools; size.
  - cbn [app p_member y w p_word]. ev. names. reflexivity.
  - cbn [app p_member w]. ev. cbn [p_word]. ev. cbn [open_g]. ev. names. reflexivity.
  - cbn [app p_member w]. rewrite !(thead_not n) by (reflexivity || now apply tname_thead). cbn [open_g]. ev.
    rewrite p_params_pr by (assumption || lia). ev. names. destruct body as [b|]; size; cbn [app open_g y].
    + ev. rewrite p_block_pr by (assumption || lia). reflexivity.
    + ev. reflexivity.
  - cbn [app p_member w]. rewrite !(thead_not n) by (reflexivity || now apply tname_thead). cbn [open_g y]. ev.
    cbn [p_word]. ev. cbn [open_g]. ev. rewrite p_inits_pr by (assumption || lia). ev. names. reflexivity.
  - rot. cbn [p_member w]. ev. cbn [p_word]. ev. foldy. rewrite p_expr_pr by (assumption || reflexivity || lia). ev. names. reflexivity.
  - rot. cbn [p_member w]. ev. rewrite p_ty_pr by (assumption || reflexivity || lia). ev. cbn [p_word]. ev. names. reflexivity.
  - destruct t as [t|].
    + rot. cbn [p_member w]. ev. destruct (pr_ty_head t H) as (v & u & E & TH & U).
      assert (X : forall A (a : A) (k : A), match pr_ty t ++ w n :: pr_value e ++ r with
        | T (CW n0) :: T (CS c) :: r' => if String.eqb c "=" then a else k | _ => k end = k).
      { intros. rewrite E. cbn [app w]. destruct u as [|x u]; [reflexivity|]. cbn [app].
        destruct x as [[|c|]|]; try reflexivity. cbn in U. apply String.eqb_eq in U. now subst. }
      assert (Y : p_ty f (pr_ty t ++ w n :: pr_value e ++ r) = Some (t, w n :: pr_value e ++ r))
        by (apply p_ty_pr; (assumption || reflexivity || lia)).
      rewrite E in *. cbn [app w] in *. destruct u as [|x u]; cbn [app] in *.
      * rewrite Y. ev. cbn [p_word]. ev. rewrite p_init_pr by (assumption || lia). ev. names. reflexivity.
      * destruct x as [[|c|]|]; try discriminate U. cbn in U. apply String.eqb_eq in U. subst. ev.
        rewrite Y. ev. cbn [p_word]. ev. rewrite p_init_pr by (assumption || lia). ev. names. reflexivity.
    + destruct e as [e|]; [|discriminate]. cbn [pr_value wf_value] in *. rot. cbn [p_member w]. ev. size. foldy.
      rewrite p_expr_pr by (assumption || reflexivity || lia). ev. names. reflexivity.
  - rot. rewrite p_member_typed by assumption. apply p_typed_field; (assumption || lia).
  - rot. rewrite p_member_typed by assumption. apply p_typed_get; (assumption || lia).
  - destruct static; rot.
    + cbn [p_member w]. ev. destruct (pr_ty_head t H) as (v & u & E & TH & U).
      assert (X : eatw "const" (pr_ty t ++ w n :: G "(" (pr_params ps) :: pr_body b ++ r) = None)
        by (rewrite E; cbn [app eatw is_w w]; now rewrite (thead_not v "const" TH eq_refl)).
      rewrite X. size. apply p_typed_meth; (assumption || lia).
    + size. rewrite p_member_typed by assumption. apply p_typed_meth; (assumption || lia).
Qed.

Lemma pr_member_nonempty m : wf_member m = true -> exists x q, pr_member m = x :: q.
Proof.
  destruct m as [n|n|n ps body|n m is|n e|t n|t n e|t n e|t n e|static t n ps b]; cbn [wf_member pr_member]; intros W; bools; cbn [app]; eauto.
  - destruct (pr_ty_head t H) as (v & u & -> & _). cbn. eauto.
  - destruct (pr_ty_head t H) as (v & u & -> & _). cbn. eauto.
  - destruct static; cbn [app]; eauto. destruct (pr_ty_head t H) as (v & u & -> & _). cbn. eauto.
Qed.
Lemma p_members_pr : forall l f, forallb wf_member l = true ->
  10 * tts_size (flat_map pr_member l) + 6 <= f -> p_members f (flat_map pr_member l) = Some l.
Proof.
  induction l as [|m l IH]; intros f W F; (destruct f as [|f]; [lia|]); [reflexivity|].
  cbn [forallb flat_map] in *. bools. size. destruct (pr_member_nonempty m H) as (x & q & E).
  assert (NE : forall A (u : A) k q, match pr_member m ++ q with [] => u | _ => k end = k) by (intros; rewrite E; reflexivity).
  assert (P : 1 <= tts_size (pr_member m)) by (rewrite E; apply tts_size_one).
  cbn [p_members]. rewrite NE. rewrite p_member_pr by (assumption || lia). ev. rewrite IH by (assumption || lia). reflexivity.
Qed.

Lemma p_names_pr : forall l, forallb dident l = true -> p_names (flat_map (fun n => [w n; y ","]) l) = Some l.
Proof.
  induction l as [|n l IH]; intros W; [reflexivity|]. cbn [forallb] in W. bools. cbn [flat_map app p_names w y]. ev. names.
  rewrite IH by assumption. reflexivity.
Qed.

Lemma p_item_pr i r f : wf_item i = true -> 10 * tts_size (pr_item i) <= f ->
  p_item f (pr_item i ++ r) = Some (i, r).
Proof.
  destruct i as [s|n e|n t ms|n ns]; cbn [wf_item pr_item]; intros W F; bools; unfold p_item; size.
  - reflexivity.
  - rot. cbn [p_word w]. ev. cbn [p_word]. ev. foldy. rewrite p_expr_pr by (assumption || reflexivity || lia). ev. names. reflexivity.
  - destruct t as [t|]; rot; cbn [p_word w]; ev; cbn [p_word]; ev; size.
    + rewrite p_ty_pr by (assumption || reflexivity || lia). ev. cbn [open_g]. ev.
      rewrite p_members_pr by (assumption || lia). ev. names. reflexivity.
    + cbn [open_g]. ev. rewrite p_members_pr by (assumption || lia). ev. names. reflexivity.
  - cbn [app p_word w]. ev. cbn [p_word]. ev. cbn [open_g]. ev. foldy. 
    change (fun n0 => [T (CW n0); T (CS ",")]) with (fun n0 => [w n0; y ","]).
    rewrite p_names_pr by assumption. ev. names. reflexivity.
Qed.

Lemma p_items_pr : forall l f, forallb wf_item l = true ->
  10 * tts_size (pr_items l) + 6 <= f -> p_items f (pr_items l) = Some l.
Proof.
  unfold pr_items. induction l as [|i l IH]; intros f W F; (destruct f as [|f]; [lia|]); [reflexivity|].
  cbn [forallb flat_map] in *. bools. size.
  assert (E : exists x q, pr_item i = x :: q) by (destruct i; cbn [pr_item]; eauto). destruct E as (x & q & E).
  assert (NE : forall A (u : A) k q, match pr_item i ++ q with [] => u | _ => k end = k) by (intros; rewrite E; reflexivity).
  assert (P : 1 <= tts_size (pr_item i)) by (rewrite E; apply tts_size_one).
  cbn [p_items]. rewrite NE. rewrite p_item_pr by (assumption || lia). ev. rewrite IH by (assumption || lia). reflexivity.
Qed.

(** ** Brackets *)

Lemma sep_forallb {A} (P : tt -> bool) c (prf : A -> list tt) l : P c = true ->
  (forall a, In a l -> forallb P (prf a) = true) -> forallb P (sep c prf l) = true.
Proof.
  intros C. induction l as [|a l IH]; intros H; [reflexivity|]. destruct l as [|b l].
  - cbn. apply H. now left.
  - rewrite sep_cons, forallb_app. cbn [forallb]. rewrite C, IH by (intros; apply H; now right).
    rewrite H by now left. reflexivity.
Qed.
Lemma flat_map_forallb {A} (P : tt -> bool) (prf : A -> list tt) l :
  (forall a, In a l -> forallb P (prf a) = true) -> forallb P (flat_map prf l) = true.
Proof.
  induction l as [|a l IH]; intros H; [reflexivity|]. cbn. rewrite forallb_app, H by now left.
  rewrite IH by (intros; apply H; now right). reflexivity.
Qed.
Lemma trail_ok b : forallb tt_ok (trail b) = true.
Proof. now destruct b. Qed.
Lemma pr_ty_ok : forall t, forallb tt_ok (pr_ty t) = true.
Proof.
  fix IH 1. intros [n [|a args]]; cbn [pr_ty]; [reflexivity|].
  assert (L : forall l, forallb tt_ok (sep (y ",") pr_ty l) = true).
  { induction l as [|b l IHl]; [reflexivity|]. destruct l as [|c l]; [apply IH|].
    rewrite sep_cons, forallb_app. cbn [forallb]. now rewrite IH, IHl. }
  cbn [forallb w y tt_ok]. rewrite forallb_app, L. reflexivity.
Qed.
Lemma pr_tys_ok l : forallb tt_ok (pr_tys l) = true.
Proof. unfold pr_tys. cbn [forallb]. rewrite forallb_app, sep_forallb; auto using pr_ty_ok. Qed.
Lemma pr_targs_ok l : forallb tt_ok (pr_targs l) = true.
Proof. destruct l; [reflexivity|apply pr_tys_ok]. Qed.
Lemma pr_label_ok n : forallb tt_ok (pr_label n) = true.
Proof. now destruct n. Qed.

Ltac oks := repeat (rewrite ?forallb_app, ?pr_ty_ok, ?pr_tys_ok, ?pr_targs_ok, ?trail_ok, ?pr_label_ok; cbn [forallb w y tt_ok open_ok Ascii.eqb Bool.eqb orb andb leaf_ok opener closer String.eqb negb]).

Lemma pr_ok : forall e, forallb tt_ok (pr e) = true
with pr_post_ok : forall p, forallb tt_ok (pr_post p) = true
with pr_st_ok : forall s, forallb tt_ok (pr_st s) = true.
Proof.
  - assert (L : forall l, forallb tt_ok (sep (y ",") (fun a : option string * dex => pr_label (fst a) ++ pr (snd a)) l) = true).
    { induction l as [|[n b] l IHl]; [reflexivity|]. destruct l as [|c l]; [cbn [sep fst snd]; oks; apply pr_ok|].
      rewrite sep_cons. cbn [fst snd]. oks. now rewrite pr_ok, IHl. }
    assert (B : forall l, forallb tt_ok (flat_map pr_st l) = true).
    { induction l as [|s l IH]; [reflexivity|]. cbn [flat_map]. oks. now rewrite pr_st_ok. }
    intros e. destruct e; cbn [pr]; try reflexivity; oks; rewrite ?L, ?pr_ok, ?B; try reflexivity.
    + induction ps as [|p ps IH]; [reflexivity|]. cbn [flat_map]. oks. now rewrite pr_post_ok.
    + destruct neg; oks; reflexivity.
  - assert (L : forall l, forallb tt_ok (sep (y ",") (fun a : option string * dex => pr_label (fst a) ++ pr (snd a)) l) = true).
    { induction l as [|[n b] l IHl]; [reflexivity|]. destruct l as [|c l]; [cbn [sep fst snd]; oks; apply pr_ok|].
      rewrite sep_cons. cbn [fst snd]. oks. now rewrite pr_ok, IHl. }
    intros [f|args b|m ts args b|m args b|e]; cbn [pr_post]; oks; rewrite ?L, ?pr_ok; reflexivity.
  - assert (B : forall l, forallb tt_ok (flat_map pr_st l) = true).
    { induction l as [|s l IH]; [reflexivity|]. cbn [flat_map]. oks. now rewrite pr_st_ok. }
    intros [x e|e|[e|]|e| |c body|x a b c body|e cs]; cbn [pr_st]; oks; rewrite ?pr_ok, ?B; try reflexivity.
    oks. induction cs as [|[o b] cs IH]; [reflexivity|]. cbn [flat_map fst snd]. destruct o; oks; rewrite ?pr_ok, B; oks; exact IH.
Qed.
Lemma pr_sts_ok l : forallb tt_ok (flat_map pr_st l) = true.
Proof. apply flat_map_forallb. intros. apply pr_st_ok. Qed.
Lemma pr_param_ok p : forallb tt_ok (pr_param p) = true.
Proof. destruct p as [[t|] x]; unfold pr_param; cbn [fst snd]; oks; reflexivity. Qed.
Lemma pr_params_ok ps : forallb tt_ok (pr_params ps) = true.
Proof.
  destruct ps as [l b|l]; cbn [pr_params]; oks.
  - rewrite sep_forallb; auto using pr_param_ok.
  - rewrite flat_map_forallb; [reflexivity|]. intros p _. unfold pr_named. oks. now rewrite pr_param_ok.
Qed.
Lemma pr_member_ok m : forallb tt_ok (pr_member m) = true.
Proof.
  assert (V : forall e, forallb tt_ok (pr_value e) = true) by (intros [e|]; cbn [pr_value]; oks; rewrite ?pr_ok; reflexivity).
  destruct m as [n|n|n ps body|n m is|n e|t n|t n e|t n e|t n e|static t n ps b]; cbn [pr_member]; oks; rewrite ?pr_params_ok, ?pr_ok, ?V; try reflexivity.
  - destruct body; oks; rewrite ?pr_sts_ok; reflexivity.
  - unfold pr_inits. oks. rewrite sep_forallb; [reflexivity|reflexivity|]. intros [a e] _. unfold pr_init. oks. apply pr_ok.
  - destruct t; oks; reflexivity.
  - destruct static, b; cbn [pr_body]; oks; rewrite ?pr_ok, ?pr_sts_ok; reflexivity.
Qed.
Lemma pr_item_ok i : forallb tt_ok (pr_item i) = true.
Proof.
  destruct i as [s|n e|n t ms|n ns]; cbn [pr_item]; oks; rewrite ?pr_ok; try reflexivity.
  - destruct t; oks; (rewrite flat_map_forallb; [reflexivity|]); auto using pr_member_ok.
  - rewrite flat_map_forallb; [reflexivity|]. reflexivity.
Qed.

(** A text whose tokens are those of a list of items is read as that list. *)
Theorem dart_file_pr s l : forallb wf_item l = true ->
  code_tokens dart_quotes s = Some (flat (pr_items l)) -> dart_file s = Some l.
Proof.
  intros W E. unfold dart_file. rewrite E. cbn [obind].
  rewrite group_of_flat.
  - cbn [obind]. apply p_items_pr; auto. lia.
  - apply flat_map_forallb. auto using pr_item_ok.
Qed.
