(** Reading generated code: tokens and bracket groups of a curly-brace language.  Written
    independently of the generators; shared by the readers for Rust and Dart. *)
Require Import Coq.Strings.String Coq.Strings.Ascii.
Require Import Coq.NArith.NArith Coq.Lists.List Coq.Bool.Bool Coq.Arith.PeanoNat Coq.micromega.Lia.
Import ListNotations.
Local Open Scope string_scope.
Local Open Scope list_scope.

(** A word (name, keyword or number), a symbol, or a quoted string. *)
Inductive ctok : Type :=
| CW (w : string)
| CS (s : string)
| CQ (s : string).

Definition code_of (c : ascii) : N := N_of_ascii c.
Definition wordc (c : ascii) : bool :=
  let n := code_of c in
  (((48 <=? n) && (n <=? 57)) || ((65 <=? n) && (n <=? 90)) || ((97 <=? n) && (n <=? 122))
   || (n =? 95))%N.
Definition whitec (c : ascii) : bool :=
  let n := code_of c in ((n =? 32) || (n =? 10) || (n =? 13) || (n =? 9))%N.

(** Symbols of two characters. *)
Definition pairs : list (ascii * ascii) :=
  [("=", ">"); ("-", ">"); ("=", "="); ("!", "="); (":", ":"); (".", "."); ("+", "="); ("?", ".")]%char.
Definition is_pair (c d : ascii) : bool :=
  existsb (fun p => Ascii.eqb (fst p) c && Ascii.eqb (snd p) d) pairs.

Definition one (c : ascii) : string := String c "".

(** Between tokens, in a word, after the first character of a symbol, in a string, after a
    backslash in a string, in a line comment. *)
Inductive lstate : Type :=
| LNone
| LWord (w : string)
| LSym (c : ascii)
| LStr (q : ascii) (s : string)
| LEsc (q : ascii) (s : string)
| LComment.

Section Quotes.
  (** The characters that delimit strings. *)
  Variable quotes : ascii -> bool.

  Definition start (c : ascii) : lstate :=
    if wordc c then LWord (one c)
    else if whitec c then LNone
    else if quotes c then LStr c ""
    else LSym c.

  Definition step (st : lstate) (c : ascii) : list ctok * lstate :=
    match st with
    | LNone => ([], start c)
    | LWord w => if wordc c then ([], LWord (w ++ one c)%string) else ([CW w], start c)
    | LSym d =>
        if is_pair d c then ([CS (String d (one c))], LNone)
        else if Ascii.eqb d "/" && Ascii.eqb c "/" then ([], LComment)
        else ([CS (one d)], start c)
    | LStr q s =>
        if Ascii.eqb c q then ([CQ s], LNone)
        else if Ascii.eqb c "\" then ([], LEsc q (s ++ one c)%string)
        else ([], LStr q (s ++ one c)%string)
    | LEsc q s => ([], LStr q (s ++ one c)%string)
    | LComment => ([], if Ascii.eqb c (ascii_of_nat 10) then LNone else LComment)
    end.

  Fixpoint run (st : lstate) (s : string) : list ctok * lstate :=
    match s with
    | "" => ([], st)
    | String c s' =>
        let '(t, st') := step st c in
        let '(ts, st'') := run st' s' in
        (t ++ ts, st'')
    end.

  Definition flush (st : lstate) : option (list ctok) :=
    match st with
    | LNone | LComment => Some []
    | LWord w => Some [CW w]
    | LSym c => Some [CS (one c)]
    | LStr _ _ | LEsc _ _ => None
    end.

  (** The tokens of a text; none if it ends inside a string. *)
  Definition code_tokens (s : string) : option (list ctok) :=
    let '(ts, st) := run LNone s in
    match flush st with
    | Some us => Some (ts ++ us)
    | None => None
    end.

  Lemma run_cons st c s : run st (String c s) =
    (fst (step st c) ++ fst (run (snd (step st c)) s), snd (run (snd (step st c)) s)).
  Proof. cbn [run]. destruct (step st c) as [t st']. cbn [fst snd]. now destruct (run st' s). Qed.

  Lemma run_app st a b : run st (a ++ b)%string =
    (fst (run st a) ++ fst (run (snd (run st a)) b), snd (run (snd (run st a)) b)).
  Proof.
    revert st. induction a as [|c a IH]; intros st.
    - cbn. now destruct (run st b).
    - change ((String c a ++ b)%string) with (String c (a ++ b)). rewrite !run_cons, IH. cbn [fst snd].
      now rewrite app_assoc.
  Qed.
End Quotes.

(** ** Groups *)

Inductive tt : Type :=
| T (t : ctok)
| G (open : ascii) (l : list tt).

Definition closing (o : ascii) : string :=
  if Ascii.eqb o "(" then ")" else if Ascii.eqb o "{" then "}" else "]".

Definition opener (t : ctok) : option ascii :=
  match t with
  | CS s => if String.eqb s "(" then Some "("%char else if String.eqb s "{" then Some "{"%char
            else if String.eqb s "[" then Some "["%char else None
  | _ => None
  end.
Definition closer (t : ctok) : bool :=
  match t with
  | CS s => String.eqb s ")" || String.eqb s "}" || String.eqb s "]"
  | _ => false
  end.
Definition closes (o : ascii) (t : ctok) : bool :=
  match t with
  | CS s => String.eqb s (closing o)
  | _ => false
  end.

(** [cur] is the current list, reversed; [stack] holds the open brackets with what came before. *)
Fixpoint group_loop (ts : list ctok) (cur : list tt) (stack : list (ascii * list tt))
  : option (list tt) :=
  match ts with
  | [] => match stack with [] => Some (rev cur) | _ => None end
  | t :: ts' =>
      match opener t with
      | Some o => group_loop ts' [] ((o, cur) :: stack)
      | None =>
          if closer t then
            match stack with
            | (o, before) :: stack' =>
                if closes o t then group_loop ts' (G o (rev cur) :: before) stack' else None
            | [] => None
            end
          else group_loop ts' (T t :: cur) stack
      end
  end.
Definition group (ts : list ctok) : option (list tt) := group_loop ts [] [].

(** The tokens of a list of groups. *)
Fixpoint flat1 (x : tt) : list ctok :=
  match x with
  | T t => [t]
  | G o l => CS (one o) :: flat_map flat1 l ++ [CS (closing o)]
  end.
Definition flat (l : list tt) : list ctok := flat_map flat1 l.

Lemma flat1_G o l : flat1 (G o l) = CS (one o) :: flat l ++ [CS (closing o)].
Proof. reflexivity. Qed.

(** No leaf is a bracket. *)
Definition leaf_ok (t : ctok) : bool :=
  match opener t with Some _ => false | None => negb (closer t) end.
Definition open_ok (o : ascii) : bool := Ascii.eqb o "(" || Ascii.eqb o "{" || Ascii.eqb o "[".
Fixpoint tt_ok (x : tt) : bool :=
  match x with
  | T t => leaf_ok t
  | G o l => open_ok o && forallb tt_ok l
  end.

Lemma group_flat : forall x, tt_ok x = true -> forall ts cur st,
  group_loop (flat1 x ++ ts) cur st = group_loop ts (x :: cur) st.
Proof.
  fix IH 1. intros [t|o l] H ts cur st.
  - cbn in H |- *. unfold leaf_ok in H. destruct (opener t); [discriminate|].
    destruct (closer t); [discriminate|]. reflexivity.
  - rewrite flat1_G. cbn [app]. cbn in H. apply andb_true_iff in H as [O L].
    assert (LL : forall l cur st ts, forallb tt_ok l = true ->
      group_loop (flat l ++ ts) cur st = group_loop ts (rev l ++ cur) st).
    { clear - IH. induction l as [|x l IHl]; intros cur st ts H; [reflexivity|].
      cbn in H. apply andb_true_iff in H as [H1 H2]. cbn [flat flat_map]. rewrite <- app_assoc.
      rewrite IH by assumption. unfold flat in IHl. rewrite IHl by assumption. cbn [rev].
      now rewrite <- app_assoc. }
    assert (OP : opener (CS (one o)) = Some o /\ opener (CS (closing o)) = None
                 /\ closer (CS (closing o)) = true /\ closes o (CS (closing o)) = true).
    { unfold open_ok in O. destruct o as [[] [] [] [] [] [] [] []]; try discriminate O; repeat split. }
    destruct OP as (O1 & O2 & O3 & O4). cbn [group_loop]. rewrite O1.
    rewrite <- app_assoc. rewrite LL by assumption. cbn [app group_loop]. rewrite O2, O3, O4.
    rewrite app_nil_r, rev_involutive. reflexivity.
Qed.

Lemma group_of_flat l : forallb tt_ok l = true -> group (flat l) = Some l.
Proof.
  intros H. unfold group. rewrite <- (app_nil_r (flat l)).
  assert (LL : forall l cur ts, forallb tt_ok l = true ->
    group_loop (flat l ++ ts) cur [] = group_loop ts (rev l ++ cur) []).
  { clear. induction l as [|x l IHl]; intros cur ts H; [reflexivity|].
    cbn in H. apply andb_true_iff in H as [H1 H2]. cbn [flat flat_map]. rewrite <- app_assoc.
    rewrite group_flat by assumption. unfold flat in IHl. rewrite IHl by assumption. cbn [rev].
    now rewrite <- app_assoc. }
  rewrite LL by assumption. cbn. rewrite app_nil_r, rev_involutive. reflexivity.
Qed.

(** ** Helpers for the readers *)

Definition is_s (s : string) (x : tt) : bool :=
  match x with T (CS u) => String.eqb u s | _ => false end.
Definition is_w (w : string) (x : tt) : bool :=
  match x with T (CW u) => String.eqb u w | _ => false end.
Definition is_g (o : ascii) (x : tt) : bool :=
  match x with G p _ => Ascii.eqb p o | _ => false end.

(** The rest after an expected symbol or word. *)
Definition eat (s : string) (l : list tt) : option (list tt) :=
  match l with x :: r => if is_s s x then Some r else None | [] => None end.
Definition eatw (w : string) (l : list tt) : option (list tt) :=
  match l with x :: r => if is_w w x then Some r else None | [] => None end.

(** Split at the first element that satisfies [p]. *)
Fixpoint break_at (p : tt -> bool) (l : list tt) : option (list tt * tt * list tt) :=
  match l with
  | [] => None
  | x :: r =>
      if p x then Some ([], x, r)
      else match break_at p r with
           | Some (a, y, b) => Some (x :: a, y, b)
           | None => None
           end
  end.

Lemma break_at_app p a x b : forallb (fun y => negb (p y)) a = true -> p x = true ->
  break_at p (a ++ x :: b) = Some (a, x, b).
Proof.
  intros A X. induction a as [|y a IH]; cbn; [now rewrite X|].
  cbn in A. apply andb_true_iff in A as [A1 A2]. apply negb_true_iff in A1. rewrite A1.
  now rewrite IH.
Qed.
Lemma break_at_none p a : forallb (fun y => negb (p y)) a = true -> break_at p a = None.
Proof.
  intros A. induction a as [|y a IH]; cbn; [reflexivity|].
  cbn in A. apply andb_true_iff in A as [A1 A2]. apply negb_true_iff in A1. rewrite A1.
  now rewrite IH.
Qed.

Definition obind {A B : Type} (x : option A) (f : A -> option B) : option B :=
  match x with Some a => f a | None => None end.
Declare Scope opt_scope.
Notation "'let?' x ':=' a 'in' b" := (obind a (fun x => b))
  (at level 200, x pattern, a at level 100, b at level 200, right associativity) : opt_scope.
Open Scope opt_scope.

(** The number of leaves and groups. *)
Fixpoint tt_size (x : tt) : nat :=
  match x with
  | T _ => 1
  | G _ l => S (list_sum (map tt_size l))
  end.
Definition tts_size (l : list tt) : nat := list_sum (map tt_size l).

Lemma tts_size_app a b : tts_size (a ++ b) = tts_size a + tts_size b.
Proof. unfold tts_size. now rewrite map_app, list_sum_app. Qed.
Lemma tts_size_cons x l : tts_size (x :: l) = tt_size x + tts_size l.
Proof. reflexivity. Qed.
Lemma tt_size_G o l : tt_size (G o l) = S (tts_size l).
Proof. reflexivity. Qed.
