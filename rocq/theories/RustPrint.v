(** The token groups of a Rust syntax tree, and: parsing them gives the tree back. *)
Require Import Coq.Strings.String Coq.Strings.Ascii.
Require Import Coq.NArith.NArith Coq.Lists.List Coq.Bool.Bool Coq.Arith.PeanoNat Coq.Arith.Wf_nat Coq.micromega.Lia.
Require Import Verif.Code Verif.RustSyntax.
Import ListNotations.
Local Open Scope string_scope.
Local Open Scope list_scope.

Definition w (s : string) : tt := T (CW s).
Definition y (s : string) : tt := T (CS s).

(** [x, y, z] with the given separator. *)
Definition sep {A : Type} (c : tt) (pr : A -> list tt) : list A -> list tt :=
  fix sep l :=
    match l with
    | [] => []
    | [a] => pr a
    | a :: l' => pr a ++ c :: sep l'
    end.
Definition trail (b : bool) : list tt := if b then [y ","] else [].

Definition pr_names (l : list string) : list tt := flat_map (fun n => [y "::"; w n]) l.

Fixpoint pr_ty (t : rty) : list tt :=
  match t with
  | RPath [] _ => []
  | RPath (n :: ns) [] => w n :: pr_names ns
  | RPath (n :: ns) args =>
      w n :: pr_names ns ++ y "<" :: sep (y ",") pr_ty args ++ [y ">"]
  | RRef static mut t =>
      y "&" :: (if static then [y "'"; w "static"] else []) ++ (if mut then [w "mut"] else [])
        ++ pr_ty t
  | RUnsafeFn t => w "unsafe" :: w "fn" :: G "(" [] :: y "->" :: pr_ty t
  end.

Definition pr_tys (l : list rty) : list tt := y "<" :: sep (y ",") pr_ty l ++ [y ">"].

Definition pr_seg (s : pseg) : list tt :=
  match s with SName n => [w n] | SArgs l => pr_tys l end.
Definition pr_path (p : list pseg) : list tt :=
  match p with
  | [] => []
  | s :: p' => pr_seg s ++ flat_map (fun s => y "::" :: pr_seg s) p'
  end.

Definition pr_words (l : list string) (b : bool) : list tt :=
  sep (y ",") (fun n => [w n]) l ++ trail b.

Definition pr_pat (p : pat) : list tt :=
  match p with
  | PNum n => [w n]
  | PWild => [w "_"]
  | PPath p => pr_path p
  | PTuple p ns b => pr_path p ++ [G "(" (pr_words ns b)]
  | PStruct p ns => pr_path p ++ [G "{" (pr_words ns (match ns with [] => false | _ => true end))]
  end.

Fixpoint pr (e : ex) : list tt :=
  match e with
  | ENum n => [w n]
  | EFloat a b => [w a; y "."; w b]
  | EStr s => [T (CQ s)]
  | EPath p => pr_path p
  | EStruct p fs =>
      pr_path p ++ [G "{" (flat_map (fun fe => w (fst fe) :: y ":" :: pr (snd fe) ++ [y ","]) fs)]
  | EMacro m args b => [w m; y "!"; G "(" (sep (y ",") pr args ++ trail b)]
  | EUnit => [G "(" []]
  | EBlock k b =>
      match k with BPlain => [] | BUnsafe => [w "unsafe"] | BAsync => [w "async"; w "move"] end
      ++ [G "{" (pr_block b)]
  | EIf c b els =>
      w "if" :: pr c ++ G "{" (pr_block b) ::
      match els with Some b2 => [w "else"; G "{" (pr_block b2)] | None => [] end
  | EIfLet p e b => w "if" :: w "let" :: pr_pat p ++ y "=" :: pr e ++ [G "{" (pr_block b)]
  | EMatch e arms =>
      w "match" :: pr e ++
      [G "{" (flat_map (fun pe => pr_pat (fst pe) ++ y "=>" :: pr (snd pe) ++ [y ","]) arms)]
  | EPost h ps => pr h ++ flat_map pr_post ps
  | EDeref e => y "*" :: pr e
  | ERef m e => y "&" :: (if m then [w "mut"] else []) ++ pr e
  | ENot e => y "!" :: pr e
  | ENeg e => y "-" :: pr e
  | EReturn e => w "return" :: pr e
  | EClosure x e => y "|" :: w x :: y "|" :: pr e
  | EEq a b => pr a ++ y "==" :: pr b
  end
with pr_post (p : post) : list tt :=
  match p with
  | XField f => [y "."; w f]
  | XCall args b => [G "(" (sep (y ",") pr args ++ trail b)]
  | XMeth m args b => [y "."; w m; G "(" (sep (y ",") pr args ++ trail b)]
  end
with pr_st (s : st) : list tt :=
  match s with
  | SLet x e => w "let" :: w x :: y "=" :: pr e ++ [y ";"]
  | SSemi e => pr e ++ [y ";"]
  | SBare e => pr e
  | SFor a b body =>
      w "for" :: w "_" :: w "in" :: pr a ++ y ".." :: pr b ++ [G "{" (pr_block body)]
  end
with pr_block (b : block) : list tt :=
  match b with
  | Blk l t => flat_map pr_st l ++ match t with Some e => pr e | None => [] end
  end.

(** ** Well-formed trees *)

Fixpoint wf_ty (t : rty) : bool :=
  match t with
  | RPath [] _ => false
  | RPath (n :: ns) args =>
      type_head n && forallb ident ns && forallb wf_ty args
  | RRef _ _ t => wf_ty t
  | RUnsafeFn t => wf_ty t
  end.
Definition wf_seg (s : pseg) : bool :=
  match s with SName n => ident n | SArgs l => match l with [] => false | _ => forallb wf_ty l end end.
Definition wf_path (p : list pseg) : bool :=
  match p with SName n :: p' => path_head n && forallb wf_seg p' | _ => false end.

Definition nonempty {A : Type} (l : list A) : bool := match l with [] => false | _ => true end.
(** A trailing comma needs something before it. *)
Definition comma_ok {A : Type} (l : list A) (b : bool) : bool := implb b (nonempty l).

Definition wf_pat (p : pat) : bool :=
  match p with
  | PNum n => numeric n
  | PWild => true
  | PPath p => wf_path p
  | PTuple p ns b => wf_path p && comma_ok ns b && forallb ident ns
  | PStruct p ns => wf_path p && forallb ident ns
  end.

Definition unary (e : ex) : bool :=
  match e with EReturn _ | EClosure _ _ | EEq _ _ => false | _ => true end.
(** What may stand before [.f] or [(..)]. *)
Definition atomic (e : ex) : bool :=
  match e with
  | ENum _ | EFloat _ _ | EStr _ | EPath _ | EStruct _ _ | EMacro _ _ _ | EUnit | EBlock BAsync _ => true
  | _ => false
  end.
Definition no_brace (l : list tt) : bool := forallb (fun x => negb (is_g "{" x)) l.
Definition no_sym (s : string) (l : list tt) : bool := forallb (fun x => negb (is_s s x)) l.
Definition is_field (p : post) : bool := match p with XField _ => true | _ => false end.
(** [x.f (..)] would be read as a method call. *)
Fixpoint posts_ok (l : list post) : bool :=
  match l with
  | XField _ :: ((XCall _ _ :: _) as l') => false
  | _ :: l' => posts_ok l'
  | [] => true
  end.
Definition num_posts_ok (h : ex) (ps : list post) : bool :=
  match h, ps with
  | ENum _, XField f :: _ => negb (numeric f)
  | ENum _, XMeth f _ _ :: _ => negb (numeric f)
  | _, _ => true
  end.

Fixpoint bare_last (l : list st) : bool :=
  match l with
  | [] => false
  | [SBare _] => true
  | _ :: l' => bare_last l'
  end.

Fixpoint wf (e : ex) : bool :=
  match e with
  | ENum n => numeric n
  | EFloat a b => numeric a && numeric b
  | EStr _ => true
  | EPath p => wf_path p
  | EStruct p fs => wf_path p && forallb (fun fe => ident (fst fe) && wf (snd fe)) fs
  | EMacro m args b => ident m && forallb wf args && comma_ok args b
  | EUnit => true
  | EBlock _ b => wf_block b
  | EIf c b els =>
      wf c && no_brace (pr c) && wf_block b &&
      match els with Some b2 => wf_block b2 | None => true end
  | EIfLet p e b =>
      wf_pat p && no_sym "=" (pr_pat p) && no_brace (pr_pat p) && wf e && no_brace (pr e) && wf_block b
  | EMatch e arms =>
      wf e && no_brace (pr e) &&
      forallb (fun pe => wf_pat (fst pe) && no_sym "=>" (pr_pat (fst pe)) && wf (snd pe)) arms
  | EPost h ps =>
      atomic h && wf h && nonempty ps && num_posts_ok h ps && posts_ok ps && forallb wf_post ps
  | EDeref e => unary e && wf e
  | ERef _ e => unary e && wf e
  | ENot e => unary e && wf e
  | ENeg e => unary e && wf e
  | EReturn e => wf e
  | EClosure x e => ident x && wf e
  | EEq a b => unary a && negb (blockish a) && wf a && unary b && wf b
  end
with wf_post (p : post) : bool :=
  match p with
  | XField f => field_name f
  | XCall args b => forallb wf args && comma_ok args b
  | XMeth m args b => ident m && forallb wf args && comma_ok args b
  end
with wf_st (s : st) : bool :=
  match s with
  | SLet x e => ident x && wf e
  | SSemi e => wf e
  | SBare e => wf e && blockish e
  | SFor a b body => wf a && no_brace (pr a) && wf b && no_brace (pr b) && wf_block body
  end
with wf_block (b : block) : bool :=
  match b with
  | Blk l t =>
      forallb wf_st l && match t with Some e => wf e | None => true end &&
      (* a statement without semicolon is followed by something *)
      negb (bare_last l && match t with None => true | Some _ => false end)
  end.

(** ** What may follow *)

Definition not_else (r : list tt) : bool :=
  match r with x :: _ => negb (is_w "else" x) | [] => true end.
Definition stop_sym (s : string) : bool :=
  String.eqb s "," || String.eqb s ";" || String.eqb s "..".
(** Ends an expression. *)
Definition stop (r : list tt) : bool :=
  match r with [] => true | T (CS s) :: _ => stop_sym s | _ => false end.
(** Ends an operand of [==]. *)
Definition stop2 (r : list tt) : bool :=
  match r with [] => true | T (CS s) :: _ => stop_sym s || String.eqb s "==" | _ => false end.

Lemma stop_stop2 r : stop r = true -> stop2 r = true.
Proof.
  destruct r as [|[[| s |]|] r]; cbn; try congruence; try reflexivity. intros ->. reflexivity.
Qed.

Ltac sym_cases H :=
  match type of H with
  | (?a || ?b)%bool = true => apply orb_true_iff in H; destruct H as [H|H]; sym_cases H
  | String.eqb _ _ = true => apply String.eqb_eq in H; subst
  | _ => idtac
  end.

(** Every ending symbol is none of the symbols that continue an expression. *)
Lemma stop2_cases r : stop2 r = true -> r = [] \/ exists s r', r = T (CS s) :: r' /\
  (s = "," \/ s = ";" \/ s = ".." \/ s = "==").
Proof.
  destruct r as [|[[| s |]|] r]; cbn; try discriminate; [now left|]. intros H. right.
  exists s, r. split; [reflexivity|]. unfold stop_sym in H. sym_cases H; auto.
Qed.
Lemma stop_cases r : stop r = true -> r = [] \/ exists s r', r = T (CS s) :: r' /\
  (s = "," \/ s = ";" \/ s = "..").
Proof.
  destruct r as [|[[| s |]|] r]; cbn; try discriminate; [now left|]. intros H. right.
  exists s, r. split; [reflexivity|]. unfold stop_sym in H. sym_cases H; auto.
Qed.

(** ** Types *)

Definition ty_end (r : list tt) : bool :=
  match r with T (CS s) :: _ => negb (String.eqb s "::") && negb (String.eqb s "<") | _ => true end.

Lemma p_names_pr ns r : forallb ident ns = true -> ty_end r = true \/ (exists r', r = y "<" :: r') ->
  p_names (pr_names ns ++ r) = (ns, r).
Proof.
  intros I H. induction ns as [|n ns IH].
  - cbn [pr_names flat_map app]. destruct H as [H|[r' ->]]; [|cbn; now destruct r' as [|[[]|]]].
    destruct r as [|[[| s |]|] r]; try reflexivity. cbn in H |- *.
    apply andb_true_iff in H as [H _]. apply negb_true_iff in H. rewrite H.
    now destruct r as [|[[]|]].
  - cbn [forallb] in I. apply andb_true_iff in I as [I1 I2].
    unfold pr_names in *. cbn [flat_map app y w p_names]. cbn [String.eqb Ascii.eqb Bool.eqb andb].
    now rewrite I1, IH.
Qed.

Lemma sep_cons {A} c (pr : A -> list tt) a b l : sep c pr (a :: b :: l) = pr a ++ c :: sep c pr (b :: l).
Proof. reflexivity. Qed.

Lemma pr_ty_args n ns a args :
  pr_ty (RPath (n :: ns) (a :: args)) = w n :: pr_names ns ++ pr_tys (a :: args).
Proof. reflexivity. Qed.

Lemma tts_size_one x l : 1 <= tts_size (x :: l).
Proof. rewrite tts_size_cons. destruct x; cbn; lia. Qed.

Lemma size_pos_w n : tt_size (w n) = 1. Proof. reflexivity. Qed.
Lemma size_pos_y n : tt_size (y n) = 1. Proof. reflexivity. Qed.

Lemma tts_size_nil : tts_size [] = 0. Proof. reflexivity. Qed.
#[global] Hint Rewrite tts_size_app tts_size_cons tt_size_G size_pos_w size_pos_y tts_size_nil : size.
Ltac size := autorewrite with size in *.

Lemma p_ty_S f l : p_ty (S f) l =
  match l with
      | T (CS c) :: r =>
          if String.eqb c "&" then
            let '(static, r) :=
              match r with
              | T (CS q) :: T (CW w) :: r' =>
                  if String.eqb q "'" && String.eqb w "static" then (true, r') else (false, r)
              | _ => (false, r)
              end in
            let '(mut, r) := match eatw "mut" r with Some r' => (true, r') | None => (false, r) end in
            let? (t, r) := p_ty f r in Some (RRef static mut t, r)
          else None
      | T (CW w) :: r =>
          if String.eqb w "unsafe" then
            match r with
            | T (CW v) :: G o [] :: r' =>
                if String.eqb v "fn" && Ascii.eqb o "(" then
                  let? r := eat "->" r' in
                  let? (t, r) := p_ty f r in Some (RUnsafeFn t, r)
                else None
            | _ => None
            end
          else if type_head w then
            let '(ns, r) := p_names r in
            match eat "<" r with
            | Some r' => let? (args, r) := p_tys f r' in Some (RPath (w :: ns) args, r)
            | None => Some (RPath (w :: ns) [], r)
            end
          else None
      | _ => None
      end.
Proof. reflexivity. Qed.
Lemma p_tys_S f l : p_tys (S f) l =
      let? (t, r) := p_ty f l in
      match eat ">" r with
      | Some r' => Some ([t], r')
      | None =>
          let? r := eat "," r in
          let? (ts, r) := p_tys f r in Some (t :: ts, r)
      end.
Proof. reflexivity. Qed.

Lemma pr_ty_starts t : wf_ty t = true -> exists s r, pr_ty t = w s :: r \/ (s = "&" /\ pr_ty t = y s :: r).
Proof.
  destruct t as [[|n ns] [|a args]| |]; cbn; try discriminate; intros _; eauto.
Qed.

Lemma pr_ty_size t : wf_ty t = true -> 1 <= tts_size (pr_ty t).
Proof.
  intros H. destruct (pr_ty_starts t H) as (s & r & [->|[_ ->]]); apply tts_size_one.
Qed.

(** The argument list, given the types. *)
Lemma p_tys_rt m (IH : forall t r f, wf_ty t = true -> tts_size (pr_ty t) <= m -> ty_end r = true ->
    10 * tts_size (pr_ty t) + 2 <= f -> p_ty f (pr_ty t ++ r) = Some (t, r)) :
  forall l r f, l <> [] -> forallb wf_ty l = true -> tts_size (sep (y ",") pr_ty l) <= m ->
  10 * tts_size (sep (y ",") pr_ty l) + 5 <= f ->
  p_tys f (sep (y ",") pr_ty l ++ y ">" :: r) = Some (l, r).
Proof.
  induction l as [|t l IHl]; intros r f N W M F; [contradiction|].
  cbn [forallb] in W. apply andb_true_iff in W as [W1 W2].
  destruct f as [|f]; [lia|]. rewrite p_tys_S. destruct l as [|u l].
  - cbn [sep] in *. rewrite IH by (assumption || reflexivity || lia). reflexivity.
  - rewrite sep_cons in *. rewrite <- app_assoc. size. cbn [app].
    rewrite IH by (assumption || reflexivity || lia). cbn [obind eat is_s y String.eqb Ascii.eqb Bool.eqb].
    change (T (CS ",")) with (y ",").
    rewrite IHl by (assumption || discriminate || lia). reflexivity.
Qed.

Lemma type_head_unsafe n : type_head n = true -> String.eqb n "unsafe" = false.
Proof. intros H. destruct (String.eqb n "unsafe") eqn:E; [|reflexivity]. apply String.eqb_eq in E. subst. discriminate. Qed.
Lemma type_head_mut n : type_head n = true -> String.eqb n "mut" = false.
Proof. intros H. destruct (String.eqb n "mut") eqn:E; [|reflexivity]. apply String.eqb_eq in E. subst. discriminate. Qed.

Lemma ty_rt : forall m t r f, wf_ty t = true -> tts_size (pr_ty t) <= m -> ty_end r = true ->
    10 * tts_size (pr_ty t) + 2 <= f -> p_ty f (pr_ty t ++ r) = Some (t, r).
Proof.
  induction m as [|m IH]; intros t r f W M R F.
  - pose proof (pr_ty_size t W). lia.
  - destruct f as [|f]; [lia|]. rewrite p_ty_S. destruct t as [[|n ns] args|static mut t|t].
    + discriminate W.
    + cbn [wf_ty] in W. apply andb_true_iff in W as [W1 W2]. apply andb_true_iff in W1 as [W0 Wn].
      pose proof (type_head_unsafe n W0) as W1.
      destruct args as [|a args].
      * cbn [pr_ty app w]. rewrite W1, W0. rewrite p_names_pr by (assumption || now left).
        destruct r as [|[[| s |]|] r]; try reflexivity. cbn in R |- *.
        apply andb_true_iff in R as [_ R]. apply negb_true_iff in R. now rewrite R.
      * rewrite pr_ty_args in *. cbn [app w]. rewrite W1, W0. rewrite <- app_assoc.
        change (T (CW n)) with (w n) in *. unfold pr_tys in *. size.
        rewrite <- app_comm_cons, <- app_assoc.
        rewrite p_names_pr by (assumption || right; eauto). cbn [eat is_s y String.eqb Ascii.eqb Bool.eqb app].
        change (T (CS ",")) with (y ",") in *. change (T (CS ">")) with (y ">") in *.
        rewrite (p_tys_rt m IH) by (assumption || discriminate || lia). reflexivity.
    + cbn [pr_ty app y String.eqb Ascii.eqb Bool.eqb]. cbn [wf_ty] in W.
      cbn [pr_ty] in M, F. size.
      assert (S1 : forall l, (let '(static0, r0) :=
          match (if static then [y "'"; w "static"] else []) ++ (if mut then [w "mut"] else []) ++ pr_ty t ++ r with
          | T (CS q) :: T (CW w0) :: r' =>
              if String.eqb q "'" && String.eqb w0 "static" then (true, r')
              else (false, (if static then [y "'"; w "static"] else []) ++ (if mut then [w "mut"] else []) ++ pr_ty t ++ r)
          | _ => (false, (if static then [y "'"; w "static"] else []) ++ (if mut then [w "mut"] else []) ++ pr_ty t ++ r)
          end in (l static0 r0 : option (rty * list tt))) = l static ((if mut then [w "mut"] else []) ++ pr_ty t ++ r)).
      { intros l. destruct static; [reflexivity|]. cbn [app]. destruct mut.
        - reflexivity.
        - cbn [app]. destruct (pr_ty_starts t W) as (s & q & [E|[-> E]]); rewrite E; cbn [app w y];
          destruct q as [|[[]|] q]; try reflexivity; cbn [app]; destruct r as [|[[]|]]; reflexivity. }
      rewrite <- !app_assoc.
      rewrite (S1 (fun static0 r0 => let '(mut0, r1) := match eatw "mut" r0 with Some r' => (true, r') | None => (false, r0) end in
        let? (t0, r2) := p_ty f r1 in Some (RRef static0 mut0 t0, r2))). cbv beta.
      assert (S2 : eatw "mut" ((if mut then [w "mut"] else []) ++ pr_ty t ++ r) = if mut then Some (pr_ty t ++ r) else None).
      { destruct mut; [reflexivity|]. cbn [app].
        destruct t as [[|n ns] args|s1 m1 t|t]; [discriminate| |reflexivity|reflexivity].
        cbn [wf_ty] in W. apply andb_true_iff in W as [W1 _]. apply andb_true_iff in W1 as [W1 _].
        apply type_head_mut in W1. destruct args; cbn [pr_ty app eatw is_w w]; now rewrite W1. }
      rewrite S2. destruct mut; cbn [app] in *.
      * rewrite IH by (assumption || (size; lia)). reflexivity.
      * rewrite IH by (assumption || (size; lia)). reflexivity.
    + cbn [pr_ty app w y] in *. cbn [wf_ty] in W. size. cbn [String.eqb Ascii.eqb Bool.eqb andb eat is_s obind].
      cbn [is_s y String.eqb Ascii.eqb Bool.eqb obind].
      rewrite IH by (assumption || lia). reflexivity.
Qed.

Lemma p_ty_pr t r f : wf_ty t = true -> ty_end r = true -> 10 * tts_size (pr_ty t) + 2 <= f ->
  p_ty f (pr_ty t ++ r) = Some (t, r).
Proof. intros. now apply (ty_rt (tts_size (pr_ty t))). Qed.
Lemma p_tys_pr l r f : l <> [] -> forallb wf_ty l = true -> 10 * tts_size (pr_tys l) <= f ->
  p_tys f (sep (y ",") pr_ty l ++ y ">" :: r) = Some (l, r).
Proof.
  intros N W F. apply (p_tys_rt (tts_size (sep (y ",") pr_ty l)) (ty_rt _)); auto.
  unfold pr_tys in F. size. lia.
Qed.

(** ** Paths and patterns *)

Definition no_colons (r : list tt) : bool := match r with T (CS s) :: _ => negb (String.eqb s "::") | _ => true end.
Definition pr_segs (ps : list pseg) : list tt := flat_map (fun s => y "::" :: pr_seg s) ps.

Lemma p_segs_pr ps r f : forallb wf_seg ps = true -> no_colons r = true -> 10 * tts_size (pr_segs ps) + 1 <= f ->
  p_segs f (pr_segs ps ++ r) = Some (ps, r).
Proof.
  revert f. induction ps as [|s ps IH]; intros f W R F.
  - destruct f as [|f]; [lia|]. cbn. destruct r as [|[[| s |]|] r]; try reflexivity.
    cbn in R |- *. apply negb_true_iff in R. now rewrite R.
  - cbn [forallb] in W. apply andb_true_iff in W as [W1 W2]. destruct f as [|f]; [lia|].
    destruct s as [n|l].
    + cbn [pr_segs flat_map pr_seg app] in *. size. cbn [p_segs eat is_s y w String.eqb Ascii.eqb Bool.eqb].
      fold (pr_segs ps) in *. cbn [wf_seg] in W1. rewrite W1. rewrite IH by (assumption || lia). reflexivity.
    + cbn [pr_segs flat_map pr_seg pr_tys app] in *. fold (pr_segs ps) in *. size.
      cbn [p_segs eat is_s y w String.eqb Ascii.eqb Bool.eqb]. rewrite <- !app_assoc. cbn [app].
      cbn [wf_seg] in W1. destruct l as [|t l]; [discriminate|].
      change (T (CS ",")) with (y ",") in *.
      rewrite p_tys_pr by (discriminate || assumption || (unfold pr_tys; size; cbn [tt_size tts_size map list_sum fold_right] in *; lia)).
      cbn [obind]. rewrite IH by (assumption || lia). reflexivity.
Qed.

Lemma pr_path_cons n ps : pr_path (SName n :: ps) = w n :: pr_segs ps.
Proof. reflexivity. Qed.

Lemma p_words_pr ns b : forallb ident ns = true -> comma_ok ns b = true -> p_words (pr_words ns b) = Some (ns, b).
Proof.
  unfold pr_words. induction ns as [|n ns IH]; intros I C.
  - destruct b; [discriminate|reflexivity].
  - cbn [forallb] in I. apply andb_true_iff in I as [I1 I2]. destruct ns as [|n2 ns].
    + destruct b; cbn; now rewrite I1.
    + rewrite sep_cons, <- app_assoc.
      assert (C' : comma_ok (n2 :: ns) b = true) by (destruct b; reflexivity).
      specialize (IH I2 C').
      assert (E : exists x l, sep (y ",") (fun n0 => [w n0]) (n2 :: ns) ++ trail b = x :: l)
        by (destruct ns; cbn; eauto).
      destruct E as (x & l & E). cbn [app]. rewrite E in *. unfold w, y.
      assert (U : forall n x r, p_words (T (CW n) :: x :: r) =
        if is_s "," x && ident n then match r with [] => Some ([n], true)
        | _ => let? (ns, b) := p_words r in Some (n :: ns, b) end else None) by reflexivity.
      rewrite U. cbn [is_s String.eqb Ascii.eqb Bool.eqb andb]. now rewrite I1, IH.
Qed.

Lemma path_head_spec n : path_head n = true -> kw_of n = None /\ numeric n = false.
Proof. unfold path_head. destruct (kw_of n); [discriminate|]. intros H. now apply negb_true_iff in H. Qed.
Lemma path_head_blank n : path_head n = true -> String.eqb n "_" = false.
Proof. destruct (String.eqb n "_") eqn:E; [|reflexivity]. apply String.eqb_eq in E. subst. discriminate. Qed.

Lemma p_pat_pr p f : wf_pat p = true -> 10 * tts_size (pr_pat p) + 1 <= f -> p_pat f (pr_pat p) = Some p.
Proof.
  intros W F.
  assert (PP : forall p r, wf_path p = true -> no_colons r = true -> 10 * tts_size (pr_path p) <= f ->
    exists n ps, p = SName n :: ps /\ pr_path p ++ r = T (CW n) :: pr_segs ps ++ r /\ numeric n = false
      /\ String.eqb n "_" = false /\ kw_of n = None /\ p_segs f (pr_segs ps ++ r) = Some (ps, r)).
  { intros q r Wq R Fq. destruct q as [|[n|] q]; try discriminate. cbn [wf_path] in Wq.
    apply andb_true_iff in Wq as [W1 W2]. pose proof (path_head_blank n W1) as B. apply path_head_spec in W1 as [K Nu].
    exists n, q. rewrite pr_path_cons in *. size. repeat split; auto.
    apply p_segs_pr; auto. cbn in Fq. lia. }
  destruct p as [n| |p|p ns b|p ns]; cbn [wf_pat pr_pat] in *.
  - cbn. now rewrite W.
  - reflexivity.
  - rewrite <- (app_nil_r (pr_path p)). destruct (PP p [] W eq_refl) as (n & ps & -> & E & Nu & B & K & S); [lia|].
    rewrite E. unfold p_pat. rewrite Nu, B, K, S. reflexivity.
  - apply andb_true_iff in W as [W I]. apply andb_true_iff in W as [W C]. size.
    destruct (PP p [G "(" (pr_words ns b)] W eq_refl) as (n & ps & -> & E & Nu & B & K & S); [lia|].
    rewrite E. unfold p_pat. rewrite Nu, B, K, S. cbn [obind]. rewrite p_words_pr by assumption. reflexivity.
  - apply andb_true_iff in W as [W I]. size. set (b := match ns with [] => false | _ => true end).
    destruct (PP p [G "{" (pr_words ns b)] W eq_refl) as (n & ps & -> & E & Nu & B & K & S); [lia|].
    rewrite E. unfold p_pat. rewrite Nu, B, K, S. cbn [obind]. rewrite p_words_pr; [reflexivity|assumption|].
    subst b. now destruct ns.
Qed.

(** ** Expressions *)

Ltac ev := cbn [obind eat eatw is_s is_w is_g y w String.eqb Ascii.eqb Bool.eqb andb orb negb app fst snd].
Ltac evin H := cbn [obind eat eatw is_s is_w is_g y w String.eqb Ascii.eqb Bool.eqb andb orb negb app fst snd] in H.
Ltac bools := repeat match goal with H : (_ && _)%bool = true |- _ => apply andb_true_iff in H; destruct H end.

Lemma ident_path_head n : ident n = true -> path_head n = true.
Proof. unfold ident. intros H. now apply andb_true_iff in H. Qed.

(** How a printed expression starts. *)
Definition head_ok (x : tt) : Prop :=
  is_w "let" x = false /\ is_w "for" x = false /\ is_w "else" x = false /\ is_w "mut" x = false
  /\ is_s "==" x = false /\ is_s ";" x = false.

Lemma path_head_word n : path_head n = true -> head_ok (w n).
Proof.
  intros H. unfold head_ok, w, is_w, is_s.
  repeat split; try reflexivity;
  match goal with |- String.eqb n ?k = false =>
    destruct (String.eqb n k) eqn:E; [apply String.eqb_eq in E; subst; discriminate H|reflexivity] end.
Qed.
Lemma numeric_word n : numeric n = true -> head_ok (w n).
Proof.
  intros H. unfold head_ok, w, is_w, is_s.
  repeat split; try reflexivity;
  match goal with |- String.eqb n ?k = false =>
    destruct (String.eqb n k) eqn:E; [apply String.eqb_eq in E; subst; discriminate H|reflexivity] end.
Qed.

Lemma pr_head : forall m e, tts_size (pr e) <= m -> wf e = true -> exists x l, pr e = x :: l /\ head_ok x.
Proof.
  assert (PP : forall p l, wf_path p = true -> exists x l', pr_path p ++ l = x :: l' /\ head_ok x).
  { intros [|[n|ts] p] l H; try discriminate. cbn [wf_path] in H. apply andb_true_iff in H as [H _].
    rewrite pr_path_cons. exists (w n), (pr_segs p ++ l). split; [reflexivity|]. now apply path_head_word. }
  assert (HK : forall s, In s ["*"; "&"; "!"; "-"; "|"] -> head_ok (y s)).
  { intros s H. cbn in H. repeat (destruct H as [<-|H]; [repeat split|]); contradiction. }
  assert (HW : forall s, In s ["if"; "match"; "unsafe"; "async"; "return"] -> head_ok (w s)).
  { intros s H. cbn in H. repeat (destruct H as [<-|H]; [repeat split|]); contradiction. }
  fix IH 2. intros m e M W.
  destruct e; cbn [pr wf] in *; bools.
  - eexists _, _. split; [reflexivity|]. now apply numeric_word.
  - eexists _, _. split; [reflexivity|]. now apply numeric_word.
  - eexists _, _. split; [reflexivity|]. repeat split.
  - destruct (PP p [] W) as (x & l & E & H). rewrite app_nil_r in E. eauto.
  - eapply PP. assumption.
  - eexists _, _. split; [reflexivity|]. apply path_head_word. now apply ident_path_head.
  - eexists _, _. split; [reflexivity|]. repeat split.
  - destruct k; (eexists _, _; split; [reflexivity|]); first [solve [apply HW; cbn; auto] | repeat split].
  - eexists _, _. split; [reflexivity|]. apply HW; cbn; auto.
  - eexists _, _. split; [reflexivity|]. apply HW; cbn; auto.
  - eexists _, _. split; [reflexivity|]. apply HW; cbn; auto.
  - destruct (IH m e) as (x & l & E & H'); [size; lia|assumption|]. rewrite E. eexists _, _. split; [reflexivity|assumption].
  - eexists _, _. split; [reflexivity|]. apply HK; cbn; auto.
  - eexists _, _. split; [reflexivity|]. apply HK; cbn; auto.
  - eexists _, _. split; [reflexivity|]. apply HK; cbn; auto.
  - eexists _, _. split; [reflexivity|]. apply HK; cbn; auto.
  - eexists _, _. split; [reflexivity|]. apply HW; cbn; auto 10.
  - eexists _, _. split; [reflexivity|]. apply HK; cbn; auto 10.
  - destruct (IH m e1) as (x & l & E & H'); [size; lia|assumption|]. rewrite E. eexists _, _. split; [reflexivity|assumption].
Qed.
Lemma pr_starts e : wf e = true -> exists x l, pr e = x :: l /\ head_ok x.
Proof. now apply (pr_head (tts_size (pr e))). Qed.
Lemma pr_size e : wf e = true -> 1 <= tts_size (pr e).
Proof. intros H. destruct (pr_starts e H) as (x & l & -> & _). apply tts_size_one. Qed.

Definition nb (r : list tt) : bool :=
  match r with x :: _ => negb (is_w "else" x) && negb (is_s "==" x) | [] => true end.
Definition low (e : ex) : bool := match e with EReturn _ | EClosure _ _ => true | _ => false end.
Definition follow (e : ex) (r : list tt) : bool := if blockish e then nb r else stop r.
Definition follow2 (e : ex) (r : list tt) : bool :=
  if blockish e then not_else r else if low e then stop r else stop2 r.

Lemma stop_nb r : stop r = true -> nb r = true.
Proof. intros H. destruct (stop_cases r H) as [->|(s & r' & -> & [->|[->| ->]])]; reflexivity. Qed.
Lemma stop2_not_else r : stop2 r = true -> not_else r = true.
Proof. intros H. destruct (stop2_cases r H) as [->|(s & r' & -> & [->|[->|[->| ->]]])]; reflexivity. Qed.
Lemma stop_follow e r : stop r = true -> follow e r = true.
Proof. unfold follow. intros H. destruct (blockish e); auto using stop_nb. Qed.
Lemma stop2_follow2 e r : unary e = true -> stop2 r = true -> follow2 e r = true.
Proof. unfold follow2. intros U H. destruct (blockish e); auto using stop2_not_else. now destruct e; try discriminate U. Qed.
Lemma follow_follow2 e r : follow e r = true -> follow2 e r = true.
Proof.
  unfold follow, follow2. destruct (blockish e) eqn:B; intros H.
  - destruct r as [|x r]; [reflexivity|]. cbn in *. now apply andb_true_iff in H.
  - destruct (low e); auto using stop_stop2.
Qed.
Lemma follow_no_eq e r : follow e r = true -> eat "==" r = None.
Proof.
  unfold follow. destruct (blockish e); intros H.
  - destruct r as [|x r]; [reflexivity|]. cbn in *. apply andb_true_iff in H as [_ H]. apply negb_true_iff in H. now rewrite H.
  - destruct (stop_cases r H) as [->|(s & r' & -> & [->|[->| ->]])]; reflexivity.
Qed.

Definition is_eq (e : ex) : bool := match e with EEq _ _ => true | _ => false end.

Ltac sd := first [assumption | lia | solve [apply stop_follow; reflexivity] | reflexivity].

Ltac names := repeat match goal with
  | H : ident ?n = true |- context [ident ?n] => rewrite H
  | H : field_name ?n = true |- context [field_name ?n] => rewrite H
  | H : param_name ?n = true |- context [param_name ?n] => rewrite H
  end; cbn [andb negb].
Ltac done := names; reflexivity.

Section Step.
  Variable m : nat.
  Hypothesis IHe : forall e r f, wf e = true -> tts_size (pr e) <= m -> follow e r = true ->
    10 * tts_size (pr e) + 5 <= f -> p_expr f (pr e ++ r) = Some (e, r).
  Hypothesis IHu : forall e r f, wf e = true -> is_eq e = false -> tts_size (pr e) <= m -> follow2 e r = true ->
    10 * tts_size (pr e) + 4 <= f -> p_unary f (pr e ++ r) = Some (e, r).

  Lemma args_rt : forall es b f, forallb wf es = true -> comma_ok es b = true ->
    tts_size (sep (y ",") pr es ++ trail b) <= m -> 10 * tts_size (sep (y ",") pr es ++ trail b) + 6 <= f ->
    p_args f (sep (y ",") pr es ++ trail b) = Some (es, b).
  Proof.
    induction es as [|e es IH]; intros b f W C M F.
    - destruct b; [discriminate|]. destruct f; [lia|]. reflexivity.
    - cbn [forallb] in W. bools. destruct f as [|f]; [lia|].
      destruct (pr_starts e) as (x & l & E & _); [assumption|].
      assert (NE : forall A (a : A) k q, match pr e ++ q with [] => a | _ => k end = k) by (intros; now rewrite E).
      destruct es as [|e2 es].
      + cbn [sep] in *. cbn [p_args]. rewrite NE. destruct b; cbn [trail] in *; size.
        * rewrite IHe by sd. reflexivity.
        * rewrite IHe by sd. reflexivity.
      + rewrite sep_cons in *. rewrite <- !app_assoc in *. cbn [app] in *. size. cbn [p_args]. rewrite NE.
        rewrite IHe by sd. ev.
        change (T (CS ",")) with (y ",") in *.
        assert (C2 : comma_ok (e2 :: es) b = true) by (now destruct b).
        specialize (IH b f). rewrite IH; try assumption; try (size; lia).
        cbn [forallb] in H0. bools. destruct (pr_starts e2) as (x2 & l2 & E2 & _); [assumption|].
        destruct es; [cbn [sep]|rewrite sep_cons]; rewrite E2; reflexivity.
  Qed.

  Lemma inits_rt : forall fs f, forallb (fun fe => ident (fst fe) && wf (snd fe)) fs = true ->
    let l := flat_map (fun fe => w (fst fe) :: y ":" :: pr (snd fe) ++ [y ","]) fs in
    tts_size l <= m -> 10 * tts_size l + 6 <= f -> p_inits f l = Some fs.
  Proof.
    induction fs as [|[n e] fs IH]; intros f W l M F; subst l.
    - destruct f; [lia|]. reflexivity.
    - cbn [forallb fst snd flat_map] in *. bools. destruct f as [|f]; [lia|].
      rewrite <- !app_comm_cons, <- !app_assoc in *. cbn [app] in *. size. cbn [p_inits w].
      ev. change (T (CS ",")) with (y ",") in *. change (T (CS ":")) with (y ":") in *. 
      rewrite IHe by sd. ev.
      change (T (CS ",")) with (y ",") in *. change (T (CS ":")) with (y ":") in *. 
      rewrite IH by (assumption || lia). done.
  Qed.

  Lemma arms_rt : forall arms f,
    forallb (fun pe => wf_pat (fst pe) && no_sym "=>" (pr_pat (fst pe)) && wf (snd pe)) arms = true ->
    let l := flat_map (fun pe => pr_pat (fst pe) ++ y "=>" :: pr (snd pe) ++ [y ","]) arms in
    tts_size l <= m -> 10 * tts_size l + 6 <= f -> p_arms f l = Some arms.
  Proof.
    induction arms as [|[p e] arms IH]; intros f W l M F; subst l.
    - destruct f; [lia|]. reflexivity.
    - cbn [forallb fst snd flat_map] in *. bools. destruct f as [|f]; [lia|].
      rewrite <- !app_assoc, <- !app_comm_cons, <- !app_assoc in *. cbn [app] in *. size. cbn [p_arms].
      assert (NE : forall A (a : A) k q, match pr_pat p ++ y "=>" :: q with [] => a | _ => k end = k)
        by (intros; now destruct (pr_pat p)).
      rewrite NE. rewrite break_at_app by (assumption || reflexivity).
      rewrite p_pat_pr by (assumption || lia). cbn [obind].
      rewrite IHe by sd. ev.
      change (T (CS ",")) with (y ",") in *. change (T (CS "=>")) with (y "=>") in *.
      rewrite IH by (assumption || lia). done.
  Qed.

  Lemma block_rt_k : forall k b f, wf_block b = true -> tts_size (pr_block b) <= k -> k <= m ->
    10 * tts_size (pr_block b) + 6 <= f -> p_block f (pr_block b) = Some b.
  Proof.
    induction k as [k IHk] using lt_wf_ind. intros [l t] f W K KM F.
    assert (M : tts_size (pr_block (Blk l t)) <= m) by lia. destruct l as [|s l].
    - destruct f as [|f]; [lia|]. destruct t as [e|]; [|reflexivity].
      cbn [pr_block flat_map app] in *. cbn [wf_block forallb bare_last] in W. bools.
      destruct (pr_starts e) as (x & q & E & (A1 & A2 & A3 & A4 & A5 & A6)); [assumption|].
      assert (X : p_expr f (pr e) = Some (e, [])).
      { rewrite <- (app_nil_r (pr e)) at 1. apply IHe; sd. }
      rewrite E in *. cbn [p_block eatw]. rewrite A1, A2, X. reflexivity.
    - assert (PB : pr_block (Blk (s :: l) t) = pr_st s ++ pr_block (Blk l t)).
      { cbn [pr_block flat_map]. now rewrite app_assoc. }
      assert (WB : wf_st s = true /\ wf_block (Blk l t) = true /\
        (forall e, s = SBare e -> exists x q, pr_block (Blk l t) = x :: q /\ is_w "else" x = false /\ is_s "==" x = false
           /\ is_s ";" x = false)).
      { cbn [wf_block forallb] in W. bools. split; [assumption|].
        assert (BL : bare_last l = true -> bare_last (s :: l) = true) by (destruct l, s; cbn; auto; discriminate).
        assert (WB : wf_block (Blk l t) = true).
        { cbn [wf_block]. rewrite H2, H1. cbn [andb]. apply negb_true_iff. apply negb_true_iff in H0.
          destruct (bare_last l); [|reflexivity]. rewrite BL in H0 by reflexivity. assumption. }
        split; [exact WB|].
        intros e ->. destruct l as [|s2 l].
        - destruct t as [e2|]; [|discriminate H0]. cbn [pr_block flat_map app].
          destruct (pr_starts e2) as (x & q & E & (A1 & A2 & A3 & A4 & A5 & A6)); [assumption|]. eauto 10.
        - cbn [forallb] in H2. bools. destruct s2 as [x e2|e2|e2|a b body].
          + cbn. repeat econstructor.
          + cbn [pr_block flat_map pr_st wf_st] in *. destruct (pr_starts e2) as (x & q & E & (A1 & A2 & A3 & A4 & A5 & A6)); [assumption|].
            rewrite E. cbn [app]. eauto 10.
          + cbn [pr_block flat_map pr_st wf_st] in *. bools. destruct (pr_starts e2) as (x & q & E & (A1 & A2 & A3 & A4 & A5 & A6)); [assumption|].
            rewrite E. cbn [app]. eauto 10.
          + cbn. repeat econstructor. }
      destruct WB as (Ws & WB & Bare). rewrite PB in *. clear PB W.
      size. assert (P1 : 1 <= tts_size (pr_st s)).
      { destruct s; cbn [pr_st wf_st] in *; bools; size; try lia;
          match goal with H : wf ?e = true |- _ => pose proof (pr_size e H); lia end. }
      destruct f as [|f]; [lia|].
      assert (IH : p_block f (pr_block (Blk l t)) = Some (Blk l t)).
      { apply (IHk (tts_size (pr_block (Blk l t)))); try assumption; lia. }
      destruct s as [x e|e|e|a b body]; cbn [pr_st wf_st] in *; bools.
      + rewrite <- !app_comm_cons, <- !app_assoc in *. cbn [app] in *. size.
        cbn [p_block]. ev. change (T (CS ";")) with (y ";") in *. 
        rewrite IHe by sd. ev. rewrite IH. done.
      + rewrite <- !app_assoc in *. cbn [app] in *. size.
        destruct (pr_starts e) as (x & q & E & (A1 & A2 & A3 & A4 & A5 & A6)); [assumption|].
        assert (X : p_expr f (pr e ++ y ";" :: pr_block (Blk l t)) = Some (e, y ";" :: pr_block (Blk l t))).
        { apply IHe; try assumption; try lia. apply stop_follow; reflexivity. }
        rewrite E in *. cbn [app] in *. cbn [p_block eatw]. rewrite A1, A2, X. ev. rewrite IH. done.
      + destruct (pr_starts e) as (x & q & E & (A1 & A2 & A3 & A4 & A5 & A6)); [assumption|].
        destruct (Bare e eq_refl) as (x2 & q2 & E2 & B1 & B2 & B3).
        assert (X : p_expr f (pr e ++ pr_block (Blk l t)) = Some (e, pr_block (Blk l t))).
        { apply IHe; try assumption; try lia. unfold follow. rewrite H0, E2. cbn. now rewrite B1, B2. }
        rewrite E in *. cbn [app] in *. cbn [p_block eatw]. rewrite A1, A2, X. rewrite E2. cbn [obind eat].
        rewrite B3. rewrite H0. rewrite <- E2. rewrite IH. done.
      + rewrite <- !app_comm_cons, <- !app_assoc in *. cbn [app] in *. size.
        rewrite <- ?app_comm_cons, <- ?app_assoc. cbn [app].
        cbn [p_block]. ev. unfold brace_of.
        change (T (CS "..")) with (y "..") in *.
        replace (pr a ++ y ".." :: pr b ++ G "{" (pr_block body) :: pr_block (Blk l t))
          with ((pr a ++ y ".." :: pr b) ++ G "{" (pr_block body) :: pr_block (Blk l t))
          by (rewrite <- !app_assoc; reflexivity).
        rewrite break_at_app; [|unfold no_brace in *; rewrite forallb_app; cbn [forallb]; repeat match goal with H : forallb _ _ = true |- _ => rewrite H; clear H end; reflexivity|reflexivity].
        cbn [obind]. rewrite IHe by sd. ev.
        assert (X : p_expr f (pr b) = Some (b, [])).
        { rewrite <- (app_nil_r (pr b)) at 1. apply IHe; sd. }
        rewrite X. cbn [obind].
        assert (B : p_block f (pr_block body) = Some body).
        { apply (IHk (tts_size (pr_block body))); try assumption; lia. }
        rewrite B. cbn [obind]. rewrite IH. done.
  Qed.
  Lemma block_rt b f : wf_block b = true -> tts_size (pr_block b) <= m ->
    10 * tts_size (pr_block b) + 6 <= f -> p_block f (pr_block b) = Some b.
  Proof. intros. apply (block_rt_k m); auto. Qed.

  Lemma posts_rt : forall ps r f, posts_ok ps = true -> forallb wf_post ps = true ->
    tts_size (flat_map pr_post ps) <= m -> stop2 r = true -> 10 * tts_size (flat_map pr_post ps) + 3 <= f ->
    p_posts f (flat_map pr_post ps ++ r) = Some (ps, r).
  Proof.
    induction ps as [|p ps IH]; intros r f O W M R F.
    - destruct f as [|f]; [lia|]. cbn [flat_map app].
      destruct (stop2_cases r R) as [->|(s & r' & -> & [->|[->|[->| ->]]])]; reflexivity.
    - cbn [forallb flat_map] in *. bools. destruct f as [|f]; [lia|]. size.
      assert (O' : posts_ok ps = true) by (destruct p; cbn in O; auto; destruct ps as [|[]]; auto; discriminate).
      assert (P1 : 1 <= tts_size (pr_post p)) by (destruct p; cbn [pr_post]; size; lia).
      specialize (IH r f O' ltac:(assumption) ltac:(lia) R ltac:(lia)).
      rewrite <- app_assoc. destruct p as [n|args b|n args b]; cbn [pr_post app wf_post] in *; bools; size.
      + cbn [p_posts]. ev.
        destruct ps as [|[n2|args b|n2 args b] ps].
        * cbn [flat_map app] in *.
          destruct (stop2_cases r R) as [->|(s & r' & -> & [->|[->|[->| ->]]])]; rewrite IH; done.
        * cbn [flat_map app pr_post] in *. ev. change (T (CS ".")) with (y "."). rewrite IH. done.
        * discriminate O.
        * cbn [flat_map app pr_post] in *. ev. change (T (CS ".")) with (y "."). rewrite IH. done.
      + cbn [p_posts]. ev. change (T (CS ",")) with (y ",") in *.
        rewrite args_rt by (assumption || (size; lia)). cbn [obind]. rewrite IH. done.
      + cbn [p_posts]. ev. change (T (CS ",")) with (y ",") in *.
        rewrite args_rt by (assumption || (size; lia)). cbn [obind]. rewrite IH. done.
  Qed.

  (** What may follow an atom: the end of the expression or a postfix. *)
  Definition after_atom (r : list tt) : bool :=
    match r with
    | [] => true
    | T (CS s) :: _ => stop_sym s || String.eqb s "==" || String.eqb s "."
    | G o _ :: _ => Ascii.eqb o "("
    | _ => false
    end.
  Definition num_end (r : list tt) : bool :=
    match r with T (CS c) :: T (CW v) :: _ => negb (String.eqb c "." && numeric v) | _ => true end.

  Lemma after_atom_cases r : after_atom r = true ->
    r = [] \/ (exists s r', r = T (CS s) :: r' /\ (s = "," \/ s = ";" \/ s = ".." \/ s = "==" \/ s = "."))
    \/ (exists g r', r = G "(" g :: r').
  Proof.
    destruct r as [|[[| s |]|o g] r]; cbn; try discriminate; [now left| |]; intros H; right.
    - left. exists s, r. split; [reflexivity|]. unfold stop_sym in H. sym_cases H; auto 10.
    - right. apply Ascii.eqb_eq in H. subst. eauto.
  Qed.

  Lemma atom_rt : forall h r f, atomic h = true -> wf h = true -> tts_size (pr h) <= S m ->
    after_atom r = true -> (match h with ENum _ => num_end r | _ => true end = true) ->
    10 * tts_size (pr h) + 3 <= f -> p_atom f (pr h ++ r) = Some (h, r).
  Proof.
    intros h r f A W M R N F. destruct f as [|f]; [lia|].
    assert (NC : no_colons r = true).
    { destruct (after_atom_cases r R) as [->|[(s & r' & -> & [->|[->|[->|[->| ->]]]])|(g & r' & ->)]]; reflexivity. }
    destruct h; try discriminate A; cbn [pr wf] in *; bools; size.
    - cbn [app p_atom w]. rewrite W. destruct r as [|[[| s |]|] [|[[]|] r]]; try reflexivity.
      cbn in N. apply negb_true_iff in N. now rewrite N.
    - cbn [app p_atom w y]. rewrite H. cbn [String.eqb Ascii.eqb Bool.eqb andb]. now rewrite H0.
    - reflexivity.
    - destruct p as [|[n|] p]; try discriminate W. cbn [wf_path] in W. bools. apply path_head_spec in H as [K Nu].
      rewrite pr_path_cons in *. size. cbn [app p_atom w]. rewrite Nu, K.
      assert (S : p_segs f (pr_segs p ++ r) = Some (p, r)) by (apply p_segs_pr; auto; lia).
      destruct p as [|s p].
      + cbn [pr_segs flat_map app] in *.
        destruct (after_atom_cases r R) as [->|[(s & r' & -> & [->|[->|[->|[->| ->]]]])|(g & r' & ->)]]; ev; try rewrite S; reflexivity.
      + assert (E : exists q, pr_segs (s :: p) ++ r = T (CS "::") :: q) by (cbn; eauto). destruct E as [q E].
        rewrite E in *. ev. rewrite S. cbn [obind].
        destruct (after_atom_cases r R) as [->|[(s' & r' & -> & [->|[->|[->|[->| ->]]]])|(g & r' & ->)]]; reflexivity.
    - destruct p as [|[n|] p]; try discriminate H. cbn [wf_path] in H. bools. apply path_head_spec in H as [K Nu].
      rewrite pr_path_cons in *. size. cbn [app p_atom w]. rewrite Nu, K.
      set (g := flat_map _ fs) in *.
      assert (I : p_inits f g = Some fs) by (apply inits_rt; auto; fold g; lia).
      assert (S : p_segs f (pr_segs p ++ G "{" g :: r) = Some (p, G "{" g :: r)) by (apply p_segs_pr; auto; lia).
      rewrite <- app_assoc. cbn [app].
      destruct p as [|s p].
      + cbn [pr_segs flat_map app] in *. ev. rewrite I. reflexivity.
      + assert (E : exists q, pr_segs (s :: p) ++ G "{" g :: r = T (CS "::") :: q) by (cbn; eauto). destruct E as [q E].
        rewrite E in *. ev. rewrite S. ev. rewrite I. reflexivity.
    - pose proof (path_head_spec _ (ident_path_head _ H)) as [K Nu]. cbn [app p_atom w y]. rewrite Nu, K. ev.
      change (T (CS ",")) with (y ",") in *.
      rewrite args_rt by (assumption || (size; lia)). cbn [obind]. done.
    - reflexivity.
    - destruct k; try discriminate A. cbn [app p_atom w] in *. size. cbn [numeric digitc]. 
      change (numeric "async") with false. change (kw_of "async") with (Some KAsync). ev.
      rewrite block_rt by (assumption || lia). reflexivity.
  Qed.

  Lemma unary_rt : forall e r f, wf e = true -> is_eq e = false -> tts_size (pr e) <= S m -> follow2 e r = true ->
    10 * tts_size (pr e) + 4 <= f -> p_unary f (pr e ++ r) = Some (e, r).
  Proof.
    intros e r f W Q M R F. destruct f as [|f]; [lia|].
    assert (PRE : forall h, wf h = true -> (exists c q, pr h = T (CW c) :: q) \/ (exists c q, pr h = T (CQ c) :: q)
        \/ (exists o g q, pr h = G o g :: q) -> forall r, p_unary (S f) (pr h ++ r) =
       let? (h, r) := p_atom f (pr h ++ r) in
          if blockish h then Some (h, r)
          else
            match h with
            | EReturn _ => Some (h, r)
            | _ =>
                let? (ps, r) := p_posts f r in
                match ps with
                | [] => Some (h, r)
                | _ => Some (EPost h ps, r)
                end
            end).
    { intros h _ [(c & q & ->)|[(c & q & ->)|(o & g & q & ->)]] r'; reflexivity. }
    assert (AT : forall h, atomic h = true -> wf h = true -> (exists c q, pr h = T (CW c) :: q) \/ (exists c q, pr h = T (CQ c) :: q)
        \/ (exists o g q, pr h = G o g :: q)).
    { intros h A Wh. destruct h; try discriminate A; cbn [pr wf] in *; bools;
        try (destruct p as [|[]]; try discriminate; rewrite pr_path_cons); try (destruct k; try discriminate A);
        first [left; do 2 eexists; reflexivity | right; left; do 2 eexists; reflexivity | right; right; do 3 eexists; reflexivity]. }
    destruct (atomic e) eqn:A.
    - rewrite PRE by auto.
      assert (ST : stop2 r = true).
      { unfold follow2 in R. destruct e; try discriminate A; try exact R. destruct k; try discriminate A. exact R. }
      rewrite atom_rt; auto; [| | |lia].
      + cbn [obind]. replace (blockish e) with false by (destruct e; try discriminate A; try reflexivity; destruct k; try discriminate A; reflexivity).
        replace (p_posts f r) with (Some (@nil post, r)) by (symmetry; apply (posts_rt [] r f); auto; cbn; lia).
        destruct e; try discriminate A; reflexivity.
      + destruct (stop2_cases r ST) as [->|(s & r' & -> & [->|[->|[->| ->]]])]; reflexivity.
      + destruct e; auto. destruct (stop2_cases r ST) as [->|(s & r' & -> & [->|[->|[->| ->]]])]; try reflexivity; destruct r' as [|[[]|]]; reflexivity.
    - destruct e; try discriminate A; try discriminate Q; cbn [pr wf] in *; bools; size.
      + (* block *) destruct k; try discriminate A; cbn [app] in *; size.
        * cbn [p_unary]. destruct f as [|f]; [lia|]. cbn [p_atom]. ev. rewrite block_rt by (assumption || lia). reflexivity.
        * cbn [p_unary w]. destruct f as [|f]; [lia|]. cbn [p_atom]. change (numeric "unsafe") with false. change (kw_of "unsafe") with (Some KUnsafe). ev.
          rewrite block_rt by (assumption || lia). reflexivity.
      + (* if *) cbn [app p_unary w]. destruct f as [|f]; [lia|]. cbn [p_atom].
        change (numeric "if") with false. change (kw_of "if") with (Some KIf). cbn match. unfold brace_of.
        rewrite <- app_assoc, <- app_comm_cons. rewrite break_at_app by (assumption || reflexivity). cbn [obind].
        rewrite block_rt by (assumption || lia). cbn [obind].
        destruct (pr_starts e) as (x & q & E & (A1 & A2 & A3 & A4 & A5 & A6)); [assumption|].
        assert (L : eatw "let" (pr e) = None) by (rewrite E; cbn [eatw]; now rewrite A1). rewrite L.
        assert (X : p_expr f (pr e) = Some (e, [])).
        { rewrite <- (app_nil_r (pr e)) at 1. apply IHe; sd. }
        rewrite X. cbn [obind]. destruct els as [b2|].
        * cbn [app] in *. size. ev. rewrite block_rt by (assumption || lia). reflexivity.
        * cbn [app]. unfold follow2 in R. cbn [blockish] in R.
          replace (eatw "else" r) with (@None (list tt)); [reflexivity|].
          destruct r as [|z r]; [reflexivity|]. cbn in R |- *. apply negb_true_iff in R. now rewrite R.
      + (* if let *) unfold w. cbn [app p_unary]. destruct f as [|f]; [lia|]. cbn [p_atom].
        change (numeric "if") with false. change (kw_of "if") with (Some KIf). cbn match. unfold brace_of.
        replace (T (CW "let") :: (pr_pat p ++ y "=" :: pr e ++ [G "{" (pr_block b)]) ++ r)
          with ((T (CW "let") :: pr_pat p ++ y "=" :: pr e) ++ G "{" (pr_block b) :: r)
          by (cbn [app]; rewrite <- !app_assoc; cbn [app]; now rewrite <- app_assoc).
        rewrite break_at_app; [|unfold no_brace in *; cbn [forallb w]; rewrite forallb_app; cbn [forallb]; 
          repeat match goal with H : forallb _ _ = true |- _ => rewrite H; clear H end; reflexivity|reflexivity]. cbn [obind].
        rewrite block_rt by (assumption || lia). ev.
        change (T (CS "=")) with (y "=").
        rewrite break_at_app by (assumption || reflexivity). rewrite p_pat_pr by (assumption || lia). cbn [obind].
        assert (X : p_expr f (pr e) = Some (e, [])).
        { rewrite <- (app_nil_r (pr e)) at 1. apply IHe; sd. }
        rewrite X. reflexivity.
      + (* match *) cbn [app p_unary w]. destruct f as [|f]; [lia|]. cbn [p_atom].
        change (numeric "match") with false. change (kw_of "match") with (Some KMatch). cbn match. unfold brace_of.
        rewrite <- app_assoc. cbn [app]. rewrite break_at_app by (assumption || reflexivity). cbn [obind].
        assert (X : p_expr f (pr e) = Some (e, [])).
        { rewrite <- (app_nil_r (pr e)) at 1. apply IHe; sd. }
        rewrite X. cbn [obind]. rewrite arms_rt by (assumption || lia). reflexivity.
      + (* postfix *) rewrite <- app_assoc. rewrite PRE by auto.
        assert (B : blockish e = false) by (destruct e; try discriminate; try reflexivity; destruct k; try discriminate; reflexivity).
        destruct ps as [|p ps]; [discriminate|].
        assert (P1 : 1 <= tts_size (pr e)) by now apply pr_size.
        assert (P2 : 1 <= tts_size (flat_map pr_post (p :: ps))) by (cbn [flat_map]; size; destruct p; cbn [pr_post]; size; lia).
        rewrite atom_rt; auto; [| |cbn [flat_map]; destruct p; reflexivity| |lia].
        * cbn [obind]. rewrite B. rewrite posts_rt by (assumption || lia). cbn [obind]. destruct e; try discriminate; reflexivity.
        * lia.
        * destruct e; auto. destruct p as [n|args b|n args b]; try reflexivity; cbn in *; try (destruct (numeric n); [discriminate|reflexivity]).
      + (* deref *) cbn [p_unary app]. ev. rewrite IHu; auto; try lia; [destruct e; auto; discriminate|].
        apply stop2_follow2; auto.
      + (* ref *) destruct mut; cbn [app] in *; size; cbn [p_unary y]; ev.
        * rewrite IHu; auto; try lia; [destruct e; auto; discriminate|]. apply stop2_follow2; auto.
        * destruct (pr_starts e) as (x & q & E & (A1 & A2 & A3 & A4 & A5 & A6)); [assumption|].
          assert (L : eatw "mut" (pr e ++ r) = None) by (rewrite E; cbn [eatw app]; now rewrite A4).
          change (match pr e ++ r with x :: r0 => if is_w "mut" x then Some r0 else None | [] => None end) with (eatw "mut" (pr e ++ r)).
          rewrite L.
          rewrite IHu; auto; try lia; [destruct e; auto; discriminate|]. apply stop2_follow2; auto.
      + cbn [p_unary app]. ev. rewrite IHu; auto; try lia; [destruct e; auto; discriminate|].
        apply stop2_follow2; auto.
      + cbn [p_unary app]. ev. rewrite IHu; auto; try lia; [destruct e; auto; discriminate|].
        apply stop2_follow2; auto.
      + (* return *) cbn [p_unary app w]. destruct f as [|f]; [lia|]. cbn [p_atom].
        change (numeric "return") with false. change (kw_of "return") with (Some KReturn). cbn match.
        rewrite IHe; [reflexivity|assumption|lia|apply stop_follow; exact R|lia].
      + (* closure *) cbn [p_unary app]. ev. rewrite IHe; [cbn [obind]; done|assumption|lia|apply stop_follow; exact R|lia].
  Qed.

  Lemma expr_rt : forall e r f, wf e = true -> tts_size (pr e) <= S m -> follow e r = true ->
    10 * tts_size (pr e) + 5 <= f -> p_expr f (pr e ++ r) = Some (e, r).
  Proof.
    intros e r f W M R F. destruct f as [|f]; [lia|]. destruct (is_eq e) eqn:Q.
    - destruct e as [| | | | | | | | | | | | | | | | | |a b]; try discriminate Q. cbn [pr wf] in *. bools. size.
      pose proof (pr_size a ltac:(assumption)). pose proof (pr_size b ltac:(assumption)).
      cbn [p_expr]. rewrite <- app_assoc. cbn [app].
      assert (Qa : is_eq a = false) by (destruct a; auto; discriminate).
      assert (Qb : is_eq b = false) by (destruct b; auto; discriminate).
      rewrite IHu; [|assumption|assumption|lia|apply stop2_follow2; auto|lia]. ev.
      rewrite IHu; [reflexivity|assumption|assumption|lia| |lia].
      apply stop2_follow2; auto. apply stop_stop2. exact R.
    - cbn [p_expr]. rewrite unary_rt; auto; [|now apply follow_follow2|lia]. cbn [obind].
      rewrite (follow_no_eq e r R). reflexivity.
  Qed.
End Step.

Lemma both_rt : forall m,
  (forall e r f, wf e = true -> tts_size (pr e) <= m -> follow e r = true ->
    10 * tts_size (pr e) + 5 <= f -> p_expr f (pr e ++ r) = Some (e, r)) /\
  (forall e r f, wf e = true -> is_eq e = false -> tts_size (pr e) <= m -> follow2 e r = true ->
    10 * tts_size (pr e) + 4 <= f -> p_unary f (pr e ++ r) = Some (e, r)).
Proof.
  induction m as [|m [IHe IHu]].
  - split; intros e r f W; intros; pose proof (pr_size e W); lia.
  - split; [exact (expr_rt m IHe IHu)|exact (unary_rt m IHe IHu)].
Qed.

(** Reading a printed expression gives the expression. *)
Theorem p_expr_pr e r f : wf e = true -> follow e r = true -> 10 * tts_size (pr e) + 5 <= f ->
  p_expr f (pr e ++ r) = Some (e, r).
Proof. intros. now apply (proj1 (both_rt (tts_size (pr e)))). Qed.
Theorem p_block_pr b f : wf_block b = true -> 10 * tts_size (pr_block b) + 6 <= f ->
  p_block f (pr_block b) = Some b.
Proof. intros. now apply (block_rt (tts_size (pr_block b)) (proj1 (both_rt _))). Qed.

(** ** Items *)

Definition pr_field (pub : bool) (nt : string * rty) : list tt :=
  (if pub then [w "pub"] else []) ++ w (fst nt) :: y ":" :: pr_ty (snd nt) ++ [y ","].
Definition pr_fields (pub : bool) (l : list (string * rty)) : list tt := flat_map (pr_field pub) l.
Definition pr_tlist (l : list rty) : list tt := flat_map (fun t => pr_ty t ++ [y ","]) l.
Definition pr_variant (v : variant) : list tt :=
  match v with
  | VUnit n => [w n; y ","]
  | VTuple n l => [w n; G "(" (pr_tlist l); y ","]
  | VStruct n l => [w n; G "{" (pr_fields false l); y ","]
  end.
Definition pr_param (nt : string * rty) : list tt :=
  if String.eqb (fst nt) "self" then [y "&"; w "self"] else w (fst nt) :: y ":" :: pr_ty (snd nt).
Definition pr_params (l : list (string * rty)) (b : bool) : list tt :=
  sep (y ",") pr_param l ++ trail b.
(** From the word [fn] on. *)
Definition pr_fn (f : rfn) : list tt :=
  w "fn" :: w (rf_name f) :: G "(" (pr_params (rf_params f) (rf_trailing f)) ::
  match rf_ret f with Some t => y "->" :: pr_ty t | None => [] end ++
  [G "{" (pr_block (rf_body f))].
Fixpoint pr_item (i : item) : list tt :=
  match i with
  | IAttr inner l => y "#" :: (if inner then [y "!"] else []) ++ [G "[" l]
  | IUse l => w "use" :: l ++ [y ";"]
  | IStruct n None => [w "pub"; w "struct"; w n; y ";"]
  | IStruct n (Some l) => [w "pub"; w "struct"; w n; G "{" (pr_fields true l)]
  | IEnum n l => [w "pub"; w "enum"; w n; G "{" (flat_map pr_variant l)]
  | IImpl tr t fns => w "impl" :: w tr :: w "for" :: pr_ty t ++ [G "{" (flat_map pr_fn fns)]
  | IFn f => w "pub" :: pr_fn f
  | IMod n l => [w "pub"; w "mod"; w n; G "{" (flat_map pr_item l)]
  | IConst n t e =>
      w "pub" :: w "const" :: w n :: y ":" :: pr_ty t ++ y "=" :: pr e ++ [y ";"]
  end.
Definition pr_items (l : list item) : list tt := flat_map pr_item l.

Definition is_self_ref (t : rty) : bool :=
  match t with RRef false false (RPath [n] []) => String.eqb n "Self" | _ => false end.
Definition wf_param (nt : string * rty) : bool :=
  wf_ty (snd nt) && (if String.eqb (fst nt) "self" then is_self_ref (snd nt) else param_name (fst nt)).
Definition wf_fn (f : rfn) : bool :=
  ident (rf_name f) && forallb wf_param (rf_params f) && comma_ok (rf_params f) (rf_trailing f)
  && match rf_ret f with Some t => wf_ty t | None => true end && wf_block (rf_body f).
Definition wf_field (nt : string * rty) : bool := ident (fst nt) && wf_ty (snd nt).
Definition wf_variant (v : variant) : bool :=
  match v with
  | VUnit n => ident n
  | VTuple n l => ident n && forallb wf_ty l
  | VStruct n l => ident n && forallb wf_field l
  end.
Fixpoint wf_item (i : item) : bool :=
  match i with
  | IAttr _ l => forallb tt_ok l
  | IUse l => forallb tt_ok l && no_sym ";" l
  | IStruct n None => ident n
  | IStruct n (Some l) => ident n && forallb wf_field l
  | IEnum n l => ident n && forallb wf_variant l
  | IImpl tr t fns => ident tr && wf_ty t && forallb wf_fn fns
  | IFn f => wf_fn f
  | IMod n l => ident n && forallb wf_item l
  | IConst n t e => ident n && wf_ty t && wf e
  end.

Lemma p_fields_pr pub : forall l f, forallb wf_field l = true ->
  10 * tts_size (pr_fields pub l) + 6 <= f -> p_fields pub f (pr_fields pub l) = Some l.
Proof.
  induction l as [|[n t] l IH]; intros f W F; (destruct f as [|f]; [lia|]); [reflexivity|].
  cbn [forallb] in *. bools. unfold wf_field in H. cbn [fst snd] in H. bools. unfold pr_fields in *. cbn [flat_map] in *. unfold pr_field at 1 in F. unfold pr_field at 1.
  cbn [fst snd] in *. size.
  assert (E : p_fields pub (S f) (((if pub then [w "pub"] else []) ++ w n :: y ":" :: pr_ty t ++ [y ","]) ++ flat_map (pr_field pub) l)
    = let? (t, r) := p_ty f (pr_ty t ++ y "," :: flat_map (pr_field pub) l) in
              let? r := eat "," r in
              let? fs := p_fields pub f r in if ident n then Some ((n, t) :: fs) else None).
  { rewrite <- !app_assoc, <- !app_comm_cons, <- !app_assoc. cbn [app]. destruct pub; reflexivity. }
  rewrite E. rewrite p_ty_pr by (assumption || reflexivity || lia). ev.
  rewrite IH by (assumption || lia). done.
Qed.

Lemma p_tlist_pr : forall l f, forallb wf_ty l = true ->
  10 * tts_size (pr_tlist l) + 6 <= f -> p_tlist f (pr_tlist l) = Some l.
Proof.
  induction l as [|t l IH]; intros f W F; (destruct f as [|f]; [lia|]); [reflexivity|].
  cbn [forallb] in *. bools. unfold pr_tlist in *. cbn [flat_map] in *. size.
  rewrite <- app_assoc. cbn [app p_tlist].
  destruct (pr_ty_starts t) as (s & q & E); [assumption|].
  assert (X : p_ty f (pr_ty t ++ y "," :: flat_map (fun t => pr_ty t ++ [y ","]) l) = Some (t, y "," :: flat_map (fun t => pr_ty t ++ [y ","]) l))
    by (apply p_ty_pr; auto; lia).
  rewrite X. cbn [obind]. destruct E as [E|[_ E]]; rewrite E; ev; rewrite IH by (assumption || lia); reflexivity.
Qed.

Lemma p_variants_pr : forall l f, forallb wf_variant l = true ->
  10 * tts_size (flat_map pr_variant l) + 6 <= f -> p_variants f (flat_map pr_variant l) = Some l.
Proof.
  induction l as [|v l IH]; intros f W F; (destruct f as [|f]; [lia|]); [reflexivity|].
  cbn [forallb flat_map] in *. bools. size. destruct v as [n|n ts|n fs]; cbn [pr_variant wf_variant] in *; bools; size;
    cbn [app p_variants w]; ev; (rewrite IH by (assumption || lia)); cbn [obind]; names.
  - reflexivity.
  - ev. rewrite p_tlist_pr by (assumption || lia). reflexivity.
  - ev. rewrite p_fields_pr by (assumption || lia). reflexivity.
Qed.

Lemma p_params_pr : forall l b f, forallb wf_param l = true -> comma_ok l b = true ->
  10 * tts_size (pr_params l b) + 6 <= f -> p_params f (pr_params l b) = Some (l, b).
Proof.
  unfold pr_params. induction l as [|[n t] l IH]; intros b f W C F; (destruct f as [|f]; [lia|]).
  { destruct b; [discriminate|reflexivity]. }
  cbn [forallb] in W. bools.
  assert (P : forall r, ty_end r = true -> 10 * tts_size (pr_param (n, t)) + 2 <= f ->
    match pr_param (n, t) ++ r with
            | T (CS c) :: T (CW n) :: r =>
                if String.eqb c "&" && String.eqb n "self" then Some (("self", self_ref), r) else None
            | T (CW n) :: r =>
                let? r := eat ":" r in
                let? (t, r) := p_ty f r in if param_name n then Some ((n, t), r) else None
            | _ => None
            end = Some ((n, t), r)).
  { intros r R Fr. unfold wf_param in H. cbn [fst snd] in H. bools. unfold pr_param in *. cbn [fst snd] in *.
    destruct (String.eqb n "self") eqn:E.
    - cbn [app]. ev. apply String.eqb_eq in E. subst. unfold is_self_ref in H1.
      destruct t as [|[] [] [[|n [|]] []| |]|]; try discriminate. apply String.eqb_eq in H1. now subst.
    - size. cbn [app]. ev. rewrite p_ty_pr by (assumption || lia). cbn [obind]. done. }
  assert (NE : forall A (a : A) k q, match pr_param (n, t) ++ q with [] => a | _ => k end = k)
    by (intros; unfold pr_param; cbn [fst snd]; destruct (String.eqb n "self"); reflexivity).
  destruct l as [|nt2 l].
  - cbn [sep] in *. cbn [p_params]. rewrite NE. size. rewrite P; [|destruct b; reflexivity|lia].
    cbn [obind]. destruct b; reflexivity.
  - rewrite sep_cons in *. rewrite <- !app_assoc in *. cbn [app] in *. size.
    cbn [p_params]. rewrite NE. rewrite P by (reflexivity || lia). ev. change (T (CS ",")) with (y ",") in *.
    assert (C2 : comma_ok (nt2 :: l) b = true) by (now destruct b).
    rewrite IH by (assumption || (size; lia)).
    assert (NE2 : forall A (a : A) k q, match sep (y ",") pr_param (nt2 :: l) ++ q with [] => a | _ => k end = k).
    { intros. destruct l; [cbn [sep]|rewrite sep_cons]; unfold pr_param at 1; destruct (String.eqb (fst nt2) "self"); reflexivity. }
    now rewrite NE2.
Qed.

Lemma p_fn_pr fn r f : wf_fn fn = true -> 10 * tts_size (pr_fn fn) <= f ->
  p_fn f (tl (pr_fn fn) ++ r) = Some (fn, r).
Proof.
  intros W F. destruct fn as [n ps tr ret b]. unfold wf_fn, pr_fn in *. cbn [rf_name rf_params rf_trailing rf_ret rf_body tl] in *.
  bools. size. cbn [app p_fn w]. ev. names. rewrite p_params_pr by (assumption || lia). cbn [obind]. destruct ret as [t|].
  - rewrite <- app_assoc. cbn [app]. ev. size. rewrite p_ty_pr by (assumption || reflexivity || lia). ev.
    rewrite p_block_pr by (assumption || lia). reflexivity.
  - cbn [app]. ev. size. rewrite p_block_pr by (assumption || lia). reflexivity.
Qed.
Lemma pr_fn_cons fn : pr_fn fn = w "fn" :: tl (pr_fn fn).
Proof. reflexivity. Qed.

Lemma p_fns_pr : forall l f, forallb wf_fn l = true ->
  10 * tts_size (flat_map pr_fn l) + 6 <= f -> p_fns f (flat_map pr_fn l) = Some l.
Proof.
  induction l as [|fn l IH]; intros f W F; (destruct f as [|f]; [lia|]); [reflexivity|].
  cbn [forallb flat_map] in *. bools. size.
  assert (P : 1 <= tts_size (pr_fn fn)) by (rewrite pr_fn_cons; apply tts_size_one).
  rewrite (pr_fn_cons fn) at 1. cbn [app p_fns]. ev.
  rewrite p_fn_pr by (assumption || lia). cbn [obind]. rewrite IH by (assumption || lia). done.
Qed.

Lemma items_rt : forall k l f, tts_size (pr_items l) <= k -> forallb wf_item l = true ->
  10 * tts_size (pr_items l) + 6 <= f -> p_items f (pr_items l) = Some l.
Proof.
  induction k as [k IHk] using lt_wf_ind. intros [|i l] f K W F; (destruct f as [|f]; [lia|]); [reflexivity|].
  cbn [forallb] in W. bools. unfold pr_items in *. cbn [flat_map] in *. size.
  assert (P1 : 1 <= tts_size (pr_item i)).
  { destruct i as [| |n [|]| | | | |]; cbn [pr_item]; size; lia. }
  assert (IH : p_items f (flat_map pr_item l) = Some l).
  { apply (IHk (tts_size (flat_map pr_item l))); try assumption; lia. }
  destruct i as [inner g|g|n [fs|]|n vs|tr t fns|fn|n ms|n t e]; cbn [pr_item wf_item] in *; bools; size.
  - rewrite <- app_comm_cons. cbn [p_items y]. ev. destruct inner; ev; rewrite IH; done.
  - rewrite <- app_comm_cons, <- app_assoc. cbn [app p_items w]. ev.
    rewrite break_at_app by (assumption || reflexivity). rewrite IH. done.
  - cbn [app p_items w]. ev. names. rewrite p_fields_pr by (assumption || lia). cbn [obind]. rewrite IH. done.
  - cbn [app p_items w]. ev. rewrite IH. done.
  - cbn [app p_items w]. ev. names. rewrite p_variants_pr by (assumption || lia). cbn [obind]. rewrite IH. done.
  - rewrite <- !app_comm_cons, <- app_assoc. cbn [app p_items w]. ev. names.
    rewrite p_ty_pr by (assumption || reflexivity || lia). ev.
    rewrite p_fns_pr by (assumption || lia). cbn [obind]. rewrite IH. done.
  - rewrite pr_fn_cons. rewrite <- !app_comm_cons. cbn [p_items w]. ev.
    rewrite p_fn_pr by (assumption || lia). cbn [obind]. rewrite IH. done.
  - cbn [app p_items w]. ev. names.
    assert (M : p_items f (flat_map pr_item ms) = Some ms).
    { apply (IHk (tts_size (flat_map pr_item ms))); try assumption; lia. }
    rewrite M. cbn [obind]. rewrite IH. done.
  - rewrite <- !app_comm_cons, <- !app_assoc, <- !app_comm_cons, <- !app_assoc. cbn [app p_items w]. ev. names.
    rewrite p_ty_pr by (assumption || reflexivity || lia). ev.
    rewrite p_expr_pr; [|assumption|apply stop_follow; reflexivity|lia]. ev. rewrite IH. done.
Qed.

(** ** Brackets *)

Lemma sep_forallb {A} (P : tt -> bool) c (prf : A -> list tt) l : P c = true ->
  (forall a, In a l -> forallb P (prf a) = true) -> forallb P (sep c prf l) = true.
Proof.
  intros C. induction l as [|a l IH]; intros H; [reflexivity|]. destruct l as [|b l].
  - cbn. apply H. now left.
  - rewrite sep_cons, forallb_app. cbn [forallb]. rewrite C, IH by (intros; apply H; now right).
    rewrite H by now left. reflexivity.
Qed.
Lemma flat_map_forallb {A} (P : tt -> bool) (prf : A -> list tt) l :
  (forall a, In a l -> forallb P (prf a) = true) -> forallb P (flat_map prf l) = true.
Proof.
  induction l as [|a l IH]; intros H; [reflexivity|]. cbn. rewrite forallb_app, H by now left.
  rewrite IH by (intros; apply H; now right). reflexivity.
Qed.
Lemma trail_ok b : forallb tt_ok (trail b) = true.
Proof. now destruct b. Qed.

Lemma pr_names_ok ns : forallb tt_ok (pr_names ns) = true.
Proof. apply flat_map_forallb. reflexivity. Qed.

Lemma pr_ty_ok : forall t, forallb tt_ok (pr_ty t) = true.
Proof.
  fix IH 1. intros [[|n ns] [|a args]|s m t|t]; cbn [pr_ty]; try reflexivity.
  - cbn. apply pr_names_ok.
  - cbn [forallb w tt_ok]. rewrite forallb_app, pr_names_ok. cbn [forallb]. rewrite forallb_app.
    assert (L : forall l, forallb tt_ok (sep (y ",") pr_ty l) = true).
    { induction l as [|b l IHl]; [reflexivity|]. destruct l as [|c l]; [apply IH|].
      rewrite sep_cons, forallb_app. cbn [forallb]. now rewrite IH, IHl. }
    now rewrite L.
  - destruct s, m; cbn; apply IH.
  - cbn. apply IH.
Qed.
Lemma pr_tys_ok l : forallb tt_ok (pr_tys l) = true.
Proof.
  unfold pr_tys. cbn [forallb]. rewrite forallb_app, sep_forallb; auto using pr_ty_ok.
Qed.
Lemma pr_seg_ok s : forallb tt_ok (pr_seg s) = true.
Proof. destruct s; [reflexivity|apply pr_tys_ok]. Qed.
Lemma pr_path_ok p : forallb tt_ok (pr_path p) = true.
Proof.
  destruct p as [|s p]; [reflexivity|]. cbn [pr_path]. rewrite forallb_app, pr_seg_ok.
  apply flat_map_forallb. intros a _. cbn. apply pr_seg_ok.
Qed.
Lemma pr_words_ok ns b : forallb tt_ok (pr_words ns b) = true.
Proof. unfold pr_words. rewrite forallb_app, trail_ok, sep_forallb; auto. Qed.
Lemma pr_pat_ok p : forallb tt_ok (pr_pat p) = true.
Proof.
  destruct p; cbn [pr_pat]; try reflexivity; rewrite ?forallb_app, pr_path_ok; cbn; rewrite ?pr_words_ok; reflexivity.
Qed.

Ltac oks := repeat (rewrite ?forallb_app, ?pr_path_ok, ?pr_pat_ok, ?trail_ok; cbn [forallb w y tt_ok open_ok Ascii.eqb Bool.eqb orb andb leaf_ok opener closer String.eqb negb]).

Lemma pr_ok : forall e, forallb tt_ok (pr e) = true
with pr_post_ok : forall p, forallb tt_ok (pr_post p) = true
with pr_st_ok : forall s, forallb tt_ok (pr_st s) = true
with pr_block_ok : forall b, forallb tt_ok (pr_block b) = true.
Proof.
  - assert (L : forall l, forallb tt_ok (sep (y ",") pr l) = true).
    { induction l as [|b l IHl]; [reflexivity|]. destruct l as [|c l]; [apply pr_ok|].
      rewrite sep_cons, forallb_app. cbn [forallb]. now rewrite pr_ok, IHl. }
    intros e. destruct e; cbn [pr]; try reflexivity.
    + apply pr_path_ok.
    + oks. induction fs as [|[n e] fs IH]; [reflexivity|]. cbn [flat_map fst snd]. oks. rewrite pr_ok. oks. exact IH.
    + oks. now rewrite L.
    + destruct k; oks; now rewrite pr_block_ok.
    + oks. rewrite pr_ok, pr_block_ok. destruct els as [b2|]; oks; [|reflexivity]. now rewrite pr_block_ok.
    + oks. rewrite pr_ok. oks. now rewrite pr_block_ok.
    + oks. rewrite pr_ok. oks. induction arms as [|[p e2] arms IH]; [reflexivity|]. cbn [flat_map fst snd]. oks. rewrite pr_ok. oks. exact IH.
    + oks. rewrite pr_ok. oks. induction ps as [|p ps IH]; [reflexivity|]. cbn [flat_map]. oks. now rewrite pr_post_ok.
    + oks. apply pr_ok.
    + destruct mut; oks; apply pr_ok.
    + oks. apply pr_ok.
    + oks. apply pr_ok.
    + oks. apply pr_ok.
    + oks. apply pr_ok.
    + oks. rewrite !pr_ok. reflexivity.
  - assert (L : forall l, forallb tt_ok (sep (y ",") pr l) = true).
    { induction l as [|b l IHl]; [reflexivity|]. destruct l as [|c l]; [apply pr_ok|].
      rewrite sep_cons, forallb_app. cbn [forallb]. now rewrite pr_ok, IHl. }
    intros [f|args b|m args b]; cbn [pr_post]; oks; rewrite ?L; reflexivity.
  - intros [x e|e|e|a b body]; cbn [pr_st]; oks; rewrite ?pr_ok; oks; rewrite ?pr_ok, ?pr_block_ok; reflexivity.
  - intros [l t]. cbn [pr_block]. oks.
    assert (X : forallb tt_ok (flat_map pr_st l) = true).
    { induction l as [|s l IH]; [reflexivity|]. cbn [flat_map]. oks. now rewrite pr_st_ok. }
    rewrite X. destruct t; [apply pr_ok|reflexivity].
Qed.

Lemma pr_fields_ok pub l : forallb tt_ok (pr_fields pub l) = true.
Proof.
  apply flat_map_forallb. intros [n t] _. unfold pr_field. cbn [fst snd]. destruct pub; oks; rewrite pr_ty_ok; reflexivity.
Qed.
Lemma pr_fn_ok f : forallb tt_ok (pr_fn f) = true.
Proof.
  destruct f as [n ps tr ret b]. unfold pr_fn. cbn [rf_name rf_params rf_trailing rf_ret rf_body]. oks.
  rewrite pr_block_ok. unfold pr_params. oks.
  rewrite sep_forallb; [|reflexivity|]; [destruct ret; oks; rewrite ?pr_ty_ok; reflexivity|].
  intros [n2 t] _. unfold pr_param. cbn [fst snd]. destruct (String.eqb n2 "self"); oks; [reflexivity|apply pr_ty_ok].
Qed.
Lemma pr_item_ok : forall i, wf_item i = true -> forallb tt_ok (pr_item i) = true.
Proof.
  fix IH 1. intros [inner g|g|n [fs|]|n vs|tr t fns|fn|n ms|n t e] W; cbn [pr_item wf_item] in *; bools.
  - destruct inner; oks; now rewrite W.
  - oks. now rewrite H.
  - oks. now rewrite pr_fields_ok.
  - reflexivity.
  - oks. rewrite flat_map_forallb; [reflexivity|]. intros [n2|n2 l|n2 l] _; cbn [pr_variant]; oks; [reflexivity| |].
    + unfold pr_tlist. rewrite flat_map_forallb; [reflexivity|]. intros t _. oks. now rewrite pr_ty_ok.
    + now rewrite pr_fields_ok.
  - oks. rewrite pr_ty_ok. cbn. rewrite flat_map_forallb; [reflexivity|]. auto using pr_fn_ok.
  - oks. apply pr_fn_ok.
  - oks. assert (X : forallb tt_ok (flat_map pr_item ms) = true).
    { induction ms as [|i ms IHm]; [reflexivity|]. cbn [forallb flat_map] in *. bools. oks.
      rewrite IH by assumption. now rewrite IHm. }
    now rewrite X.
  - oks. rewrite pr_ty_ok, pr_ok. reflexivity.
Qed.

(** A text whose tokens are those of a list of items is read as that list. *)
Theorem rust_file_pr s l : forallb wf_item l = true ->
  code_tokens rust_quotes s = Some (flat (pr_items l)) -> rust_file s = Some l.
Proof.
  intros W E. unfold rust_file. rewrite E. cbn [obind].
  rewrite group_of_flat.
  - cbn [obind]. apply (items_rt (tts_size (pr_items l))); auto. lia.
  - apply flat_map_forallb. intros i I. apply pr_item_ok. rewrite forallb_forall in W. auto.
Qed.
