(** The token groups of a Swift syntax tree, and: parsing them gives the tree back. *)
Require Import Coq.Strings.String Coq.Strings.Ascii.
Require Import Coq.NArith.NArith Coq.Lists.List Coq.Bool.Bool Coq.Arith.PeanoNat Coq.Arith.Wf_nat Coq.micromega.Lia.
Require Import Verif.Code.
Require Verif.KotlinSyntax Verif.KotlinPrint.
Require Import Verif.SwiftSyntax.
Import KotlinSyntax(digitc, numeric, among, open_g).
Import KotlinPrint(w, y, sep, eat_y, eat_other, eatw_w, size_w, size_y, size_T, forallb_flat_map, sep_ok, after_ty, eat_lt_none, next, next_open).
Import ListNotations.
Local Open Scope string_scope.
Local Open Scope list_scope.

Fixpoint pr_ty (t : sty) : list tt :=
  match t with
  | STy n [] => [w n]
  | STy n args => w n :: y "<" :: sep (y ",") pr_ty args ++ [y ">"]
  | SArr t => [G "[" (pr_ty t)]
  end.
Definition pr_targs (l : list sty) : list tt := match l with [] => [] | _ => y "<" :: sep (y ",") pr_ty l ++ [y ">"] end.

Definition pr_label (n : option string) : list tt := match n with Some n => [w n; y ":"] | None => [] end.
Fixpoint pr_ex (e : sex) : list tt :=
  let args l := [G "(" (sep (y ",") (fun a => pr_label (fst a) ++ pr_ex (snd a)) l)] in
  match e with
  | QNum n => [w n]
  | QFloat a b => [w a; y "."; w b]
  | QStr s => [T (CQ s)]
  | QName n => [w n]
  | QList => [G "[" []]
  | QCall n l => w n :: args l
  | QMeth n ts m l => w n :: pr_targs ts ++ [y "."; w m] ++ args l
  | QCase c => [y "."; w c]
  | QCaseCall c l => [y "."; w c] ++ args l
  end.
Definition pr_arg (a : option string * sex) : list tt := pr_label (fst a) ++ pr_ex (snd a).
Definition pr_args (l : list (option string * sex)) : list tt := [G "(" (sep (y ",") pr_arg l)].

Fixpoint pr_decl (d : sdecl) : list tt :=
  match d with
  | ZStruct n b => [w "struct"; w n; G "{" (flat_map pr_decl b)]
  | ZEnum n b => [w "enum"; w n; G "{" (flat_map pr_decl b)]
  | ZVar n t => [w "var"; w n; y ":"] ++ pr_ty t
  | ZLet n t e => [w "static"; w "let"; w n; y ":"] ++ pr_ty t ++ y "=" :: pr_ex e
  | ZFunc static n t e =>
      (if static then [w "static"] else []) ++ [w "func"; w n; G "(" []; y "->"] ++ pr_ty t ++ [G "{" (w "return" :: pr_ex e)]
  | ZCase n [] => [w "case"; w n]
  | ZCase n ts => [w "case"; w n; G "(" (sep (y ",") pr_ty ts)]
  end.

(** ** Well-formed trees *)

Fixpoint wf_ty (t : sty) : bool := match t with STy n args => sident n && forallb wf_ty args | SArr t => wf_ty t end.
Definition wf_label (n : option string) : bool := match n with Some n => sident n | None => true end.
Fixpoint wf_ex (e : sex) : bool :=
  let args := forallb (fun a => wf_label (fst a) && wf_ex (snd a)) in
  match e with
  | QNum n => numeric n
  | QFloat a b => numeric a && numeric b
  | QStr _ | QList => true
  | QName n => shead n
  | QCall n l => shead n && args l
  | QMeth n ts m l => shead n && forallb wf_ty ts && sident m && args l
  | QCase c => sident c
  | QCaseCall c l => sident c && args l
  end.
Definition wf_arg (a : option string * sex) : bool := wf_label (fst a) && wf_ex (snd a).
Fixpoint wf_decl (d : sdecl) : bool :=
  match d with
  | ZStruct n b | ZEnum n b => sident n && forallb wf_decl b
  | ZVar n t => sident n && wf_ty t
  | ZLet n t e | ZFunc _ n t e => sident n && wf_ty t && wf_ex e
  | ZCase n ts => sident n && forallb wf_ty ts
  end.

(** ** Reading printed trees *)

Ltac sizes := rewrite ?tts_size_app, ?tts_size_cons, ?tts_size_app, ?tts_size_cons, ?size_w, ?size_y, ?size_T, ?tt_size_G in *; change (tts_size []) with 0 in *.

(** What may follow an expression. *)
Definition after_ex (r : list tt) : bool :=
  match r with
  | T (CS s) :: _ => negb (String.eqb s ".") && negb (String.eqb s ":") && negb (String.eqb s "<")
  | G o _ :: _ => negb (Ascii.eqb o "(")
  | _ => true
  end.

Lemma pr_ty_pos t : 1 <= tts_size (pr_ty t).
Proof. destruct t as [n [|a l]|t]; cbn [pr_ty]; sizes; lia. Qed.

Lemma read_ty_all n : (forall t f r, tts_size (pr_ty t) <= n -> wf_ty t = true -> after_ty r = true -> 2 * n <= f -> p_ty f (pr_ty t ++ r) = Some (t, r)).
Proof.
  induction n as [n IH] using lt_wf_ind. intros t f r L W A F. pose proof (pr_ty_pos t) as P. destruct f as [|f]; [lia|].
  destruct t as [m args|t].
  2: { cbn [pr_ty] in *. cbn [wf_ty] in W. cbn [app p_ty open_g Ascii.eqb Bool.eqb obind]. sizes.
       rewrite <- (app_nil_r (pr_ty t)) at 1. rewrite (IH (tts_size (pr_ty t))); [reflexivity|lia|lia|assumption|reflexivity|lia]. }
  cbn [wf_ty] in W. apply andb_true_iff in W as [W1 W2]. destruct args as [|a l].
  - cbn [pr_ty app p_ty w]. rewrite W1, (eat_lt_none r A). reflexivity.
  - cbn [pr_ty] in L. cbn [pr_ty p_ty app w]. rewrite W1.
    rewrite <- app_assoc. change (y "<" :: sep (y ",") pr_ty (a :: l) ++ [y ">"] ++ r) with (y "<" :: (sep (y ",") pr_ty (a :: l) ++ [y ">"] ++ r)).
    rewrite eat_y.
    assert (X : forall l g, l <> [] -> forallb wf_ty l = true -> tts_size (sep (y ",") pr_ty l) < n -> 2 * tts_size (sep (y ",") pr_ty l) + 1 <= g ->
      p_tys g (sep (y ",") pr_ty l ++ [y ">"] ++ r) = Some (l, r)).
    { clear - IH. induction l as [|t l IHl]; intros g N W L G; [congruence|]. cbn [forallb] in W. apply andb_true_iff in W as [W1 W2].
      destruct g as [|g]; [lia|]. destruct l as [|t2 l].
      - cbn [sep] in *. cbn [p_tys]. rewrite (IH (tts_size (pr_ty t))); try assumption; try reflexivity; try lia; cbn [obind app]; now rewrite eat_y.
      - change (sep (y ",") pr_ty (t :: t2 :: l)) with (pr_ty t ++ y "," :: sep (y ",") pr_ty (t2 :: l)) in *.
        rewrite <- app_assoc. cbn [p_tys]. sizes. pose proof (pr_ty_pos t).
        rewrite (IH (tts_size (pr_ty t))); try assumption; try reflexivity; try lia. cbn [obind app]. rewrite eat_other by discriminate. rewrite eat_y. cbn [obind].
        rewrite IHl; [reflexivity|discriminate|assumption|lia|lia]. }
    sizes. rewrite X; [reflexivity|discriminate|assumption|lia|lia].
Qed.
Lemma read_ty t f r : wf_ty t = true -> after_ty r = true -> 2 * tts_size (pr_ty t) <= f -> p_ty f (pr_ty t ++ r) = Some (t, r).
Proof. intros. now apply (read_ty_all (tts_size (pr_ty t))). Qed.

Lemma read_targs ts f r : forallb wf_ty ts = true -> after_ty r = true -> 2 * tts_size (pr_targs ts) <= f -> p_targs f (pr_targs ts ++ r) = Some (ts, r).
Proof.
  intros W A F. destruct ts as [|t l]; [cbn [pr_targs app]; unfold p_targs; now rewrite eat_lt_none|].
  unfold p_targs, pr_targs in *. cbn [app]. rewrite eat_y, <- app_assoc. sizes.
  assert (X : forall l g, l <> [] -> forallb wf_ty l = true -> 2 * tts_size (sep (y ",") pr_ty l) + 1 <= g ->
    p_tys g (sep (y ",") pr_ty l ++ [y ">"] ++ r) = Some (l, r)).
  { clear. induction l as [|t l IHl]; intros g N W G; [congruence|]. cbn [forallb] in W. apply andb_true_iff in W as [W1 W2].
    destruct g as [|g]; [lia|]. destruct l as [|t2 l].
    - cbn [sep] in *. cbn [p_tys]. rewrite read_ty; try assumption; try reflexivity; try lia.
    - change (sep (y ",") pr_ty (t :: t2 :: l)) with (pr_ty t ++ y "," :: sep (y ",") pr_ty (t2 :: l)) in *.
      rewrite <- app_assoc. cbn [p_tys]. sizes. pose proof (pr_ty_pos t).
      rewrite read_ty; try assumption; try reflexivity; try lia. cbn [obind app]. rewrite eat_other by discriminate. rewrite eat_y. cbn [obind].
      rewrite IHl; [reflexivity|discriminate|assumption|lia]. }
  apply X; [discriminate|assumption|lia].
Qed.

Lemma read_types l : forall f, l <> [] -> forallb wf_ty l = true -> 2 * tts_size (sep (y ",") pr_ty l) + 1 <= f -> p_types f (sep (y ",") pr_ty l) = Some l.
Proof.
  induction l as [|t l IHl]; intros g N W G; [congruence|]. cbn [forallb] in W. apply andb_true_iff in W as [W1 W2].
  destruct g as [|g]; [lia|]. destruct l as [|t2 l].
  - cbn [sep] in *. cbn [p_types]. rewrite <- (app_nil_r (pr_ty t)). rewrite read_ty; [reflexivity|assumption|reflexivity|lia].
  - change (sep (y ",") pr_ty (t :: t2 :: l)) with (pr_ty t ++ y "," :: sep (y ",") pr_ty (t2 :: l)) in *. cbn [p_types]. sizes. pose proof (pr_ty_pos t).
    rewrite read_ty; [|assumption|reflexivity|lia]. cbn [obind]. rewrite eat_y. cbn [obind]. rewrite IHl; [reflexivity|discriminate|assumption|lia].
Qed.

Lemma pr_ex_pos e : 1 <= tts_size (pr_ex e).
Proof. destruct e; cbn [pr_ex app]; sizes; lia. Qed.
Lemma pr_arg_pos a : 1 <= tts_size (pr_arg a).
Proof. destruct a as [o e]. unfold pr_arg. cbn [fst snd]. sizes. pose proof (pr_ex_pos e). lia. Qed.
Lemma numeric_head n : numeric n = true -> shead n = false.
Proof.
  intros N. unfold shead, sident. rewrite N. rewrite andb_false_r. cbn [andb orb]. unfold among. cbn [existsb].
  destruct (String.eqb_spec n "true") as [->|]; [discriminate|]. destruct (String.eqb_spec n "false") as [->|]; [discriminate|].
  destruct (String.eqb_spec n "nil") as [->|]; [discriminate|]. reflexivity.
Qed.
Lemma head_numeric n : shead n = true -> numeric n = false.
Proof. intros H. destruct (numeric n) eqn:E; [|reflexivity]. apply numeric_head in E. congruence. Qed.

Lemma after_ex_open r : after_ex r = true -> open_g "(" r = None /\ eat "." r = None /\ after_ty r = true.
Proof.
  destruct r as [|[[a|a|a]|o g] r]; cbn; try (now repeat split).
  - intros H. rewrite !andb_true_iff, !negb_true_iff in H. destruct H as ((H1 & H2) & H3). now rewrite H1, H3.
  - intros H. apply negb_true_iff in H. now rewrite H.
Qed.
Lemma targs_open ts c r : open_g "(" (pr_targs ts ++ y c :: r) = None.
Proof. now destruct ts. Qed.
Lemma label_none e r : wf_ex e = true -> after_ex r = true -> label_of (pr_ex e ++ r) = None.
Proof.
  intros W A. destruct e as [n|a b|s|n| |n l|n ts m l|c|c l]; cbn [pr_ex app]; try reflexivity.
  1,2: destruct r as [|[[d|d|d]|o g] r]; try reflexivity; cbn [after_ex] in A; rewrite !andb_true_iff, !negb_true_iff in A; destruct A as ((_ & A) & _); cbn [label_of w]; now rewrite A.
  now destruct ts.
Qed.

Lemma read_ex_all n : forall e f r, tts_size (pr_ex e) <= n -> wf_ex e = true -> after_ex r = true -> 3 * n <= f -> p_ex f (pr_ex e ++ r) = Some (e, r).
Proof.
  induction n as [n IH] using lt_wf_ind. intros e f r L W A F. pose proof (pr_ex_pos e) as P. destruct f as [|f]; [lia|].
  assert (X1 : forall l g, l <> [] -> forallb wf_arg l = true -> tts_size (sep (y ",") pr_arg l) < n -> 3 * tts_size (sep (y ",") pr_arg l) + 1 <= g ->
      p_args1 g (sep (y ",") pr_arg l) = Some l).
  { clear - IH. induction l as [|[o e] l IHl]; intros g N W L G; [congruence|]. cbn [forallb] in W. apply andb_true_iff in W as [W1 W2].
    apply andb_true_iff in W1 as [W0 W1]. cbn [fst snd] in W0, W1. destruct g as [|g]; [lia|]. pose proof (pr_ex_pos e) as P.
    assert (S : sep (y ",") pr_arg ((o, e) :: l) = pr_label o ++ pr_ex e ++ match l with [] => [] | _ => y "," :: sep (y ",") pr_arg l end).
    { destruct l; cbn [sep]; unfold pr_arg; cbn [fst snd]; [now rewrite app_nil_r|now rewrite <- app_assoc]. }
    rewrite S in *. set (tail := match l with [] => [] | _ => y "," :: sep (y ",") pr_arg l end) in *. sizes.
    assert (AT : after_ex tail = true) by (subst tail; now destruct l).
    assert (Q : p_ex g (pr_ex e ++ tail) = Some (e, tail)) by (apply (IH (tts_size (pr_ex e))); try assumption; lia).
    assert (Q2 : match tail with [] => Some [(o, e)] | _ => let? r := eat "," tail in let? es := p_args1 g r in Some ((o, e) :: es) end = Some ((o, e) :: l)).
    { subst tail. destruct l as [|z l]; [reflexivity|]. cbv iota beta. sizes. rewrite eat_y. cbn [obind]. rewrite IHl; [reflexivity|discriminate|assumption|lia|lia]. }
    cbn [p_args1]. destruct o as [m|]; cbn [pr_label app].
    - change (label_of (w m :: y ":" :: pr_ex e ++ tail)) with (Some (m, pr_ex e ++ tail)). cbv beta iota. rewrite Q. cbn [obind]. cbn [wf_label] in W0. rewrite W0. cbn [obind]. exact Q2.
    - rewrite label_none by assumption. rewrite Q. cbn [obind]. exact Q2. }
  assert (X : forall l g, forallb wf_arg l = true -> tts_size (sep (y ",") pr_arg l) < n -> 3 * tts_size (sep (y ",") pr_arg l) + 2 <= g ->
      p_args g (sep (y ",") pr_arg l) = Some l).
  { intros l g W0 L0 G0. destruct g as [|g]; [lia|]. destruct l as [|a l]; [reflexivity|]. cbn [p_args].
    rewrite X1; [|discriminate|exact W0|exact L0|lia].
    destruct (sep (y ",") pr_arg (a :: l)) eqn:E; [|reflexivity]. exfalso.
    assert (Y : tts_size (sep (y ",") pr_arg (a :: l)) = 0) by now rewrite E. pose proof (pr_arg_pos a) as PA. destruct l; cbn [sep] in Y; sizes; lia. }
  clear X1.
  destruct e as [m|a b|s|m| |m args|m ts m2 args|c|c args]; cbn [wf_ex] in W.
  - cbn [pr_ex app p_ex w]. rewrite W. destruct r as [|[[a|c|a]|o g] r]; try reflexivity. cbn [after_ex] in A. rewrite !andb_true_iff, !negb_true_iff in A. destruct A as ((A & _) & _).
    rewrite A. cbn [andb]. destruct r as [|[[]|] r]; reflexivity.
  - apply andb_true_iff in W as [W1 W2]. cbn [pr_ex app p_ex w y]. rewrite W1. cbn [String.eqb Ascii.eqb Bool.eqb andb]. now rewrite W2.
  - reflexivity.
  - cbn [pr_ex app p_ex w]. rewrite (head_numeric _ W), W. destruct (after_ex_open r A) as (O1 & O2 & O3). rewrite O1. unfold p_targs. rewrite eat_lt_none by assumption. cbn [obind]. now rewrite O2.
  - reflexivity.
  - apply andb_true_iff in W as [W1 W2]. cbn [pr_ex app p_ex w]. rewrite (head_numeric _ W1), W1. cbn [open_g Ascii.eqb Bool.eqb].
    change (sep (y ",") _ args) with (sep (y ",") pr_arg args). cbn [pr_ex] in L. change (sep (y ",") _ args) with (sep (y ",") pr_arg args) in L. sizes.
    rewrite X; [reflexivity|exact W2|lia|lia].
  - rewrite !andb_true_iff in W. destruct W as (((W1 & W2) & W3) & W4). cbn [pr_ex] in *. change (sep (y ",") _ args) with (sep (y ",") pr_arg args) in *. cbn [app]. rewrite <- !app_assoc. cbn [app p_ex w].
    rewrite (head_numeric _ W1), W1. rewrite targs_open. sizes. rewrite read_targs; [|exact W2|reflexivity|lia]. cbn [obind]. rewrite eat_y. cbn [open_g Ascii.eqb Bool.eqb]. cbn [obind]. rewrite X; [|exact W4|lia|lia]. cbn [obind w]. now rewrite W3.
  - cbn [pr_ex app p_ex w y]. rewrite W. cbn [String.eqb Ascii.eqb Bool.eqb andb]. destruct (after_ex_open r A) as (O1 & O2 & O3). now rewrite O1.
  - apply andb_true_iff in W as [W1 W2]. cbn [pr_ex app] in *. change (sep (y ",") _ args) with (sep (y ",") pr_arg args) in *. cbn [p_ex w y]. rewrite W1. cbn [String.eqb Ascii.eqb Bool.eqb andb open_g]. sizes.
    rewrite X; [reflexivity|exact W2|lia|lia].
Qed.
Lemma read_ex e f r : wf_ex e = true -> after_ex r = true -> 3 * tts_size (pr_ex e) <= f -> p_ex f (pr_ex e ++ r) = Some (e, r).
Proof. intros. now apply (read_ex_all (tts_size (pr_ex e))). Qed.

Lemma read_word n r : sident n = true -> p_word (w n :: r) = Some (n, r).
Proof. intros K. cbn. now rewrite K. Qed.

Lemma next_after_ex r : next r = true -> after_ex r = true.
Proof. destruct r as [|[[]|] r]; cbn; congruence. Qed.
Lemma next_after_ty r : next r = true -> after_ty r = true.
Proof. destruct r as [|[[]|] r]; cbn; congruence. Qed.
Lemma pr_decl_pos d : 1 <= tts_size (pr_decl d).
Proof. destruct d as [| | | |[] n t e|n [|t ts]]; cbn [pr_decl app]; sizes; lia. Qed.
Lemma pr_decl_next d r : next (pr_decl d ++ r) = true.
Proof. destruct d as [| | | |[] n t e|n [|t ts]]; reflexivity. Qed.

Lemma read_func s n t e f r : sident n = true -> wf_ty t = true -> wf_ex e = true -> 2 * tts_size (pr_ty t) + 3 * tts_size (pr_ex e) <= f ->
  p_func f s (w n :: G "(" [] :: y "->" :: pr_ty t ++ G "{" (w "return" :: pr_ex e) :: r) = Some (ZFunc s n t e, r).
Proof.
  intros N W1 W2 F. unfold p_func. rewrite read_word by assumption. cbn [obind open_g Ascii.eqb Bool.eqb]. rewrite eat_y. cbn [obind].
  rewrite read_ty; [|assumption|reflexivity|lia]. cbn [obind open_g Ascii.eqb Bool.eqb]. rewrite eatw_w. cbn [obind].
  rewrite <- (app_nil_r (pr_ex e)). rewrite read_ex; [reflexivity|assumption|reflexivity|lia].
Qed.

Lemma read_decl_all n : forall d f r, tts_size (pr_decl d) <= n -> wf_decl d = true -> next r = true -> 3 * n <= f -> p_decl f (pr_decl d ++ r) = Some (d, r).
Proof.
  induction n as [n IH] using lt_wf_ind. intros d f r L W A F. pose proof (pr_decl_pos d) as P. destruct f as [|f]; [lia|].
  assert (X : forall l g, forallb wf_decl l = true -> tts_size (flat_map pr_decl l) < n -> 3 * tts_size (flat_map pr_decl l) + 1 <= g -> p_decls g (flat_map pr_decl l) = Some l).
  { clear - IH. induction l as [|d l IHl]; intros g W L G; [destruct g; [lia|reflexivity]|]. cbn [forallb] in W. apply andb_true_iff in W as [W1 W2].
    destruct g as [|g]; [lia|]. cbn [flat_map] in *. sizes. pose proof (pr_decl_pos d) as P.
    assert (Q : p_decl g (pr_decl d ++ flat_map pr_decl l) = Some (d, flat_map pr_decl l)).
    { apply (IH (tts_size (pr_decl d))); try assumption; try lia. destruct l as [|d2 l]; [reflexivity|]. cbn [flat_map]. apply pr_decl_next. }
    cbn [p_decls]. rewrite Q. cbn [obind]. rewrite IHl; [|assumption|lia|lia].
    destruct (pr_decl d ++ flat_map pr_decl l) eqn:E; [|reflexivity]. apply app_eq_nil in E as [E _]. rewrite E in P. cbn in P. lia. }
  destruct d as [m b|m b|m t|m t e|s m t e|m ts]; cbn [wf_decl] in W; rewrite ?andb_true_iff in W.
  - destruct W as (W1 & W2). cbn [pr_decl] in *. cbn [app p_decl w]. cbn [String.eqb Ascii.eqb Bool.eqb]. fold (w m). rewrite read_word by assumption. cbn [obind open_g Ascii.eqb Bool.eqb]. sizes.
    rewrite X; [reflexivity|assumption|lia|lia].
  - destruct W as (W1 & W2). cbn [pr_decl] in *. cbn [app p_decl w]. cbn [String.eqb Ascii.eqb Bool.eqb]. fold (w m). rewrite read_word by assumption. cbn [obind open_g Ascii.eqb Bool.eqb]. sizes.
    rewrite X; [reflexivity|assumption|lia|lia].
  - destruct W as (W1 & W2). cbn [pr_decl] in *. cbn [app p_decl w]. cbn [String.eqb Ascii.eqb Bool.eqb]. fold (w m). rewrite read_word by assumption. cbn [obind]. rewrite eat_y. cbn [obind]. sizes.
    rewrite read_ty; [reflexivity|assumption|now apply next_after_ty|lia].
  - destruct W as ((W1 & W2) & W3). cbn [pr_decl] in *. rewrite <- ?app_assoc. cbn [app p_decl w]. cbn [String.eqb Ascii.eqb Bool.eqb]. fold (w "let"). rewrite eatw_w. cbn [obind]. fold (w m). rewrite read_word by assumption.
    cbn [obind]. rewrite eat_y. cbn [obind]. rewrite <- ?app_assoc. cbn [app]. sizes. rewrite read_ty; [|assumption|reflexivity|lia]. cbn [obind]. rewrite eat_y. cbn [obind].
    rewrite read_ex; [reflexivity|assumption|now apply next_after_ex|lia].
  - destruct W as ((W1 & W2) & W3). cbn [pr_decl] in *. rewrite <- ?app_assoc. destruct s; cbn [app p_decl w] in *; cbn [String.eqb Ascii.eqb Bool.eqb] in *; rewrite <- ?app_assoc; cbn [app].
    + change (eatw "let" (w "func" :: ?x)) with (@None (list tt)). fold (w "func"). rewrite eatw_w. cbn [obind]. fold (w m) in *. sizes. sizes. apply read_func; try assumption; lia.
    + fold (w m) in *. sizes. sizes. apply read_func; try assumption; lia.
  - destruct W as (W1 & W2). destruct ts as [|t ts]; cbn [pr_decl] in *; cbn [app p_decl w]; cbn [String.eqb Ascii.eqb Bool.eqb]; fold (w m); rewrite read_word by assumption; cbn [obind].
    + now rewrite next_open.
    + cbn [open_g Ascii.eqb Bool.eqb]. fold (w m) in *. sizes. rewrite read_types; [reflexivity|discriminate|assumption|lia].
Qed.

Lemma read_decls l f : forallb wf_decl l = true -> 3 * tts_size (flat_map pr_decl l) + 1 <= f -> p_decls f (flat_map pr_decl l) = Some l.
Proof.
  revert f. induction l as [|d l IHl]; intros g W G; [destruct g; [lia|reflexivity]|]. cbn [forallb] in W. apply andb_true_iff in W as [W1 W2].
  destruct g as [|g]; [lia|]. cbn [flat_map] in *. sizes. pose proof (pr_decl_pos d) as P.
  assert (Q : p_decl g (pr_decl d ++ flat_map pr_decl l) = Some (d, flat_map pr_decl l)).
  { apply (read_decl_all (tts_size (pr_decl d))); try assumption; try lia. destruct l as [|d2 l]; [reflexivity|]. cbn [flat_map]. apply pr_decl_next. }
  cbn [p_decls]. rewrite Q. cbn [obind]. rewrite IHl; [|assumption|lia].
  destruct (pr_decl d ++ flat_map pr_decl l) eqn:E; [|reflexivity]. apply app_eq_nil in E as [E _]. rewrite E in P. cbn in P. lia.
Qed.

(** No leaf is a bracket. *)
Lemma ty_ok : forall t, forallb tt_ok (pr_ty t) = true.
Proof.
  fix IH 1. intros [n l|t]; [|cbn [pr_ty forallb tt_ok]; rewrite IH; reflexivity]. destruct l as [|a l]; [reflexivity|]. cbn [pr_ty]. cbn [forallb tt_ok w y]. change (leaf_ok (CW n)) with true. change (leaf_ok (CS "<")) with true. cbn [andb].
  rewrite forallb_app, andb_true_iff. split; [|reflexivity]. apply sep_ok. intros x I.
  revert x I. generalize (a :: l). induction l0 as [|z l0 IHl]; intros x I; [destruct I|]. destruct I as [<-|I]; [apply IH|now apply IHl].
Qed.
Lemma targs_ok l : forallb tt_ok (pr_targs l) = true.
Proof. destruct l as [|a l]; [reflexivity|]. unfold pr_targs. cbn [forallb]. rewrite forallb_app, sep_ok; [reflexivity|]. intros; apply ty_ok. Qed.
Lemma ex_ok : forall e, forallb tt_ok (pr_ex e) = true.
Proof.
  fix IH 1.
  assert (X : forall l, forallb tt_ok (sep (y ",") (fun a => pr_label (fst a) ++ pr_ex (snd a)) l) = true).
  { intros l. apply sep_ok. induction l as [|z l IHl]; intros x I; [destruct I|]. destruct I as [<-|I]; [|now apply IHl].
    destruct z as [o e]. cbn [fst snd]. rewrite forallb_app, IH. destruct o; reflexivity. }
  intros [n|a b|s|n| |n args|n ts m args|c|c args]; try reflexivity; cbn [pr_ex forallb tt_ok app w y].
  - rewrite X. reflexivity.
  - rewrite forallb_app, targs_ok. cbn [forallb tt_ok]. rewrite X. reflexivity.
  - rewrite X. reflexivity.
Qed.
Lemma decl_ok : forall d, forallb tt_ok (pr_decl d) = true.
Proof.
  fix IH 1.
  assert (X : forall b, forallb tt_ok (flat_map pr_decl b) = true) by (induction b as [|d b IHb]; [reflexivity|cbn [flat_map]; now rewrite forallb_app, IH, IHb]).
  intros [n b|n b|n t|n t e|s n t e|n ts].
  - cbn [pr_decl forallb tt_ok w]. rewrite X. reflexivity.
  - cbn [pr_decl forallb tt_ok w]. rewrite X. reflexivity.
  - cbn [pr_decl]. rewrite forallb_app, ty_ok. reflexivity.
  - cbn [pr_decl]. rewrite !forallb_app, ty_ok. cbn [forallb]. rewrite ex_ok. reflexivity.
  - cbn [pr_decl]. rewrite !forallb_app, ty_ok. cbn [forallb tt_ok]. rewrite ex_ok. destruct s; reflexivity.
  - destruct ts as [|t ts]; [reflexivity|]. cbn [pr_decl forallb tt_ok w]. rewrite sep_ok; [reflexivity|]. intros; apply ty_ok.
Qed.

(** Reading a text that has the tokens of well-formed declarations. *)
Lemma read_file s ts l : code_tokens swift_quotes s = Some ts -> uncomment false ts = Some (flat (flat_map pr_decl l)) -> forallb wf_decl l = true -> swift_file s = Some l.
Proof.
  intros C U W. unfold swift_file. rewrite C. cbn [obind]. rewrite U. cbn [obind]. rewrite group_of_flat by (apply forallb_flat_map; intros; apply decl_ok). cbn [obind].
  apply read_decls; [exact W|lia].
Qed.
