(** The text that the Kotlin generator writes reads back as the declarations of KotlinTree. *)
Require Import Coq.Strings.String Coq.Strings.Ascii.
Require Import Coq.NArith.NArith Coq.ZArith.ZArith Coq.Lists.List Coq.Bool.Bool Coq.Arith.PeanoNat Coq.micromega.Lia.
Require Import Verif.Base Verif.F64 Verif.F64Spec Verif.Ast Verif.Writer Verif.CaseConv Verif.Code Verif.CodeLex Verif.CmdLex Verif.LexSpec Verif.NumText Verif.FloatShape Verif.RustLexedConst.
Require Import Verif.KotlinSyntax Verif.KotlinPrint Verif.KotlinTree Verif.KotlinGen.
Import ListNotations.
Local Open Scope string_scope.
Local Open Scope list_scope.

Notation kclex := (clex kotlin_quotes).
Notation kreads := (CmdLex.reads kotlin_quotes).

(** The writer calls exist, and give these tokens. *)
Definition gives (n : nat) (st : lstate) (r : rcmds) (ts : list ctok) (n' : nat) (st' : lstate) : Prop :=
  exists cs, r = Ok cs /\ kclex n st cs ts n' st'.

Lemma gives_ok n st cs ts m st' : kclex n st cs ts m st' -> gives n st (Ok cs) ts m st'.
Proof. intros H. now exists cs. Qed.
Lemma gives_app n st a ta m st1 b tb k st2 : gives n st a ta m st1 -> gives m st1 b tb k st2 -> gives n st (a +++ b) (ta ++ tb) k st2.
Proof. intros (cs & -> & A) (ds & -> & B). exists (cs ++ ds). split; [reflexivity|]. eapply clex_app; eassumption. Qed.

Lemma nl_quote : kotlin_quotes (ascii_of_nat 10) = false.
Proof. reflexivity. Qed.

Lemma flat_app a b : flat (a ++ b) = flat a ++ flat b.
Proof. apply flat_map_app. Qed.
Lemma flat_cons x l : flat (x :: l) = flat1 x ++ flat l.
Proof. reflexivity. Qed.
Lemma flat_flat_map {A} (f : A -> list tt) l : flat (flat_map f l) = flat_map (fun x => flat (f x)) l.
Proof. induction l as [|x l IH]; [reflexivity|]. cbn [flat_map]. now rewrite flat_app, IH. Qed.

Lemma kname_word n : kname n = true -> word n = true.
Proof. intros H. now apply andb_true_iff in H. Qed.
Lemma kname_ident n : kname n = true -> kident n = true.
Proof. intros H. now apply andb_true_iff in H. Qed.

(** ** Small texts *)

Notation krun := (Code.run kotlin_quotes LNone).

(** A closed literal and what it reads as. *)
Ltac lit := match goal with |- CmdLex.reads _ ?s _ _ => let r := eval vm_compute in (krun s) in
  match r with (?us, ?st) => exact (reads_of kotlin_quotes s us st eq_refl) end end.

Lemma sep_word st n : word n = true -> st = LNone \/ (exists c, st = LSym c) -> st = LNone \/ seps st n = true.
Proof. intros W [->|(c & ->)]; [now left|right; now apply word_seps]. Qed.

(** A text that starts with a letter, a digit or an underscore. *)
Definition wordy (s : string) : bool := match s with "" => false | String c _ => wordc c end.
Lemma word_wordy n : word n = true -> wordy n = true.
Proof. destruct n as [|c n]; [discriminate|]. cbn. intros H. now apply andb_true_iff in H. Qed.
Lemma wordy_app a b : wordy a = true -> wordy (a ++ b)%string = true.
Proof. now destruct a. Qed.
Lemma wordy_sep st s : wordy s = true -> st = LNone \/ (exists c, st = LSym c) -> st = LNone \/ seps st s = true.
Proof. destruct s as [|c s]; [discriminate|]. intros W [->|(d & ->)]; [now left|right]. cbn [seps]. now apply wordc_sep. Qed.

(** ** Types *)

Lemma type_reads : forall t, type_ready t = true ->
  exists s st, generate_type_id t = Ok s /\ kreads s (flat (pr_ty (ktype t))) st /\ done st = true /\ wordy s = true.
Proof.
  fix IH 1. intros t R.
  assert (PLAIN : forall n, kname n = true -> exists s st, Ok n = Ok s /\ kreads s (flat (pr_ty (KTy n []))) st /\ done st = true /\ wordy s = true).
  { intros n K. exists n, (LWord n). apply kname_word in K. split; [reflexivity|]. split; [now apply reads_word|]. split; [reflexivity|now apply word_wordy]. }
  destruct t as [m size sg|m size|m|m|m l|m]; cbn [type_ready] in R.
  - rewrite !orb_true_iff, !Nat.eqb_eq in R. destruct R as [[->| ->]| ->]; destruct sg; now apply PLAIN.
  - rewrite !orb_true_iff, !Nat.eqb_eq in R. destruct R as [->| ->]; now apply PLAIN.
  - now apply PLAIN.
  - now apply PLAIN.
  - rewrite !andb_true_iff in R. destruct R as ((K & N) & R).
    assert (J : l <> [] -> exists ss st, mapM generate_type_id l = Ok ss /\ kreads (join ", " ss) (flat (sep (y ",") pr_ty (map ktype l))) st /\ done st = true /\ wordy (join ", " ss) = true).
    { clear N. induction l as [|t l IHl]; [congruence|]. intros _. cbn [forallb] in R. apply andb_true_iff in R as [R1 R2].
      destruct (IH t R1) as (s & st & G & L & D & W). cbn [mapM map]. rewrite G. cbn [bind]. destruct l as [|t2 l].
      - cbn [mapM bind map sep join]. exists [s], st. now repeat split.
      - destruct (IHl R2 ltac:(discriminate)) as (ss & st' & -> & L' & D' & W'). cbn [bind]. exists (s :: ss), st'. split; [reflexivity|].
        assert (E : join ", " (s :: ss) = (s ++ ", " ++ join ", " ss)%string) by (destruct ss; [discriminate W'|reflexivity]). rewrite E.
        split; [|split; [exact D'|now apply wordy_app]].
        change (sep (y ",") pr_ty (ktype t :: map ktype (t2 :: l))) with (pr_ty (ktype t) ++ y "," :: sep (y ",") pr_ty (map ktype (t2 :: l))).
        rewrite flat_app, flat_cons. eapply reads_app; [exact L| |now apply done_seps].
        eapply reads_app; [lit|exact L'|now left]. }
    destruct J as (ss & st & G & L & D & W); [now destruct l|].
    assert (X : forall i, kname i = true -> exists s st, Ok (i ++ "<" ++ join ", " ss ++ ">")%string = Ok s /\ kreads s (flat (pr_ty (KTy i (map ktype l)))) st /\ done st = true /\ wordy s = true).
    { intros i I. apply kname_word in I. exists (i ++ "<" ++ join ", " ss ++ ">")%string, (LSym ">"). split; [reflexivity|].
      split; [|split; [reflexivity|now apply wordy_app, word_wordy]].
      assert (E : pr_ty (KTy i (map ktype l)) = w i :: y "<" :: sep (y ",") pr_ty (map ktype l) ++ [y ">"]) by (destruct l; [discriminate N|reflexivity]).
      rewrite E, !flat_cons, flat_app. eapply reads_app; [now apply reads_word| |right; reflexivity].
      eapply reads_app; [lit| |right; destruct (join ", " ss) as [|c r]; [discriminate W|]; cbn [append seps]; now apply wordc_sep].
      eapply reads_app; [exact L|lit|now apply done_seps]. }
    cbn [generate_type_id ktype]. rewrite G. cbn [bind]. destruct (String.eqb m "Vec") eqn:V; [|now apply X].
    now apply (X "List").
  - cbn [generate_type_id ktype]. unfold address, among. cbn [existsb]. destruct (String.eqb m "GroupAddress"); [now apply PLAIN|].
    destruct (String.eqb m "CommandsBufferAddress"); [now apply PLAIN|]. now apply PLAIN.
Qed.

Lemma types_reads l : forallb type_ready l = true -> l <> [] ->
  exists ss st, mapM generate_type_id l = Ok ss /\ kreads (join ", " ss) (flat (sep (y ",") pr_ty (map ktype l))) st /\ done st = true /\ wordy (join ", " ss) = true.
Proof.
  induction l as [|t l IHl]; [congruence|]. intros R _. cbn [forallb] in R. apply andb_true_iff in R as [R1 R2].
  destruct (type_reads t R1) as (s & st & G & L & D & W). cbn [mapM map]. rewrite G. cbn [bind]. destruct l as [|t2 l].
  - cbn [mapM bind map sep join]. exists [s], st. now repeat split.
  - destruct (IHl R2 ltac:(discriminate)) as (ss & st' & -> & L' & D' & W'). cbn [bind]. exists (s :: ss), st'. split; [reflexivity|].
    assert (E : join ", " (s :: ss) = (s ++ ", " ++ join ", " ss)%string) by (destruct ss; [discriminate W'|reflexivity]). rewrite E.
    split; [|split; [exact D'|now apply wordy_app]].
    change (sep (y ",") pr_ty (ktype t :: map ktype (t2 :: l))) with (pr_ty (ktype t) ++ y "," :: sep (y ",") pr_ty (map ktype (t2 :: l))).
    rewrite flat_app, flat_cons. eapply reads_app; [exact L| |now apply done_seps].
    eapply reads_app; [lit|exact L'|now left].
Qed.

(** ** Defaults and literals *)

(** A text that stands for an expression. *)
Definition stands (r : res string) (e : kex) : Prop := exists s st, r = Ok s /\ kreads s (flat (pr_ex e)) st /\ done st = true.

Lemma stands_word n e : word n = true -> pr_ex e = [KotlinPrint.w n] -> stands (Ok n) e.
Proof. intros W E. exists n, (LWord n). split; [reflexivity|]. rewrite E. split; [now apply reads_word|reflexivity]. Qed.
Ltac closed_text := eexists _, _; split; [reflexivity|]; split; [lit|reflexivity].

Lemma default_stands t : type_ready t = true -> stands (generate_default_const_value t) (kdefault t).
Proof.
  destruct t as [m size sg|m size|m|m|m l|m]; cbn [type_ready]; intros R.
  - rewrite !orb_true_iff, !Nat.eqb_eq in R. destruct R as [[->| ->]| ->]; destruct sg; now apply stands_word.
  - rewrite !orb_true_iff, !Nat.eqb_eq in R. destruct R as [->| ->]; [now apply stands_word|closed_text].
  - now apply stands_word.
  - now apply stands_word.
  - rewrite !andb_true_iff in R. destruct R as ((K & N) & R). cbn [generate_default_const_value kdefault]. destruct (String.eqb m "Vec"); [closed_text|].
    destruct (types_reads l R) as (ss & st & -> & L & D & W); [now destruct l|]. cbn [bind]. apply kname_word in K.
    eexists _, (LSym ")"). split; [reflexivity|]. split; [|reflexivity].
    assert (E : pr_ex (XMeth m "createDefault" (map ktype l) []) =
      KotlinPrint.w m :: y "." :: KotlinPrint.w "createDefault" :: y "<" :: sep (y ",") pr_ty (map ktype l) ++ [y ">"; G "(" []])
      by (destruct l; [discriminate N|]; cbn [pr_ex pr_targs map app]; now rewrite <- app_assoc).
    rewrite E, flat_cons. eapply reads_app; [now apply reads_word| |right; reflexivity].
    change (flat (y "." :: KotlinPrint.w "createDefault" :: y "<" :: sep (y ",") pr_ty (map ktype l) ++ [y ">"; G "(" []]))
      with ([CS "."; CW "createDefault"; CS "<"] ++ flat (sep (y ",") pr_ty (map ktype l) ++ [y ">"; G "(" []])).
    rewrite flat_app. eapply reads_app; [lit| |right; destruct (join ", " ss) as [|c r]; [discriminate W|]; cbn [append seps]; now apply wordc_sep].
    eapply reads_app; [exact L|lit|now apply done_seps].
  - cbn [generate_default_const_value kdefault]. destruct (String.eqb m "String"); [closed_text|]. destruct (String.eqb m "Vec"); [closed_text|]. apply kname_word in R.
    eexists _, (LSym ")"). split; [reflexivity|]. split; [|reflexivity]. eapply (reads_app _ _ [CW m]); [now apply reads_word|lit|right; reflexivity].
Qed.

Lemma finite_is_double x : finite_double x = true -> exists m e, x = F64Fin m e /\ double m e.
Proof.
  destruct x as [m e|]; [|discriminate]. cbn [finite_double]. rewrite !andb_true_iff, orb_true_iff. intros (((A & B) & C) & D). exists m, e. split; [reflexivity|].
  unfold double. split; [now apply N.ltb_lt|]. split; [lia|]. destruct D as [D|D]; [left; now apply N.leb_le|right; now apply Z.eqb_eq].
Qed.
Lemma at_point_digits a b : all_chars digitb a = true -> at_point (a ++ "." ++ b)%string = (a, b).
Proof.
  induction a as [|c a IH]; [reflexivity|]. cbn [all_chars append at_point]. intros H. apply andb_true_iff in H as [H1 H2].
  destruct (Ascii.eqb_spec c "."); [subst; discriminate|]. change (String "." b) with ("." ++ b)%string. now rewrite IH.
Qed.
(** The two parts of a finite double. *)
Lemma float_parts_spec x : finite_double x = true -> exists a b, float_parts x = (a, b) /\ show_float x = (a ++ "." ++ b)%string /\
  all_chars digitb a = true /\ a <> "" /\ all_chars digitb b = true /\ b <> "" /\ f64_of_dec (positional 10 (a ++ b)) (- Z.of_nat (String.length b)) = x.
Proof.
  intros F. destruct (finite_is_double x F) as (m & e & -> & D). destruct (float_text_shape m e D) as (a & b & S & A & AN & B & BN & V & I). exists a, b.
  split; [|split; [exact S|now repeat split]]. unfold float_parts. unfold float_shown in S.
  destruct (f64_is_integral (F64Fin m e)) eqn:E; [destruct (I eq_refl) as [<- <-]; reflexivity|]. rewrite S. now apply at_point_digits.
Qed.

Lemma show_Z_word z : (0 <= z)%Z -> word (show_Z z) = true.
Proof. destruct z as [|p|p]; [reflexivity| |lia]. intros _. cbn [show_Z]. apply digits_words; [apply show_N_digits|apply show_N_nonempty]. Qed.

Lemma literal_stands t l a : type_ready t = true -> literal_ready t l = true -> stands (generate_const_value t (ConstLiteral l a)) (kliteral t l).
Proof.
  intros T R. destruct l as [s|z|x|b].
  - cbn [literal_ready] in R. exists (dq ++ s ++ dq)%string, LNone. split; [reflexivity|]. split; [|reflexivity]. exists [CQ s]. split; [|reflexivity].
    change [CQ s] with ([] ++ ([] ++ [CQ s])). unfold dq. eapply lexes_app; [reflexivity|]. eapply lexes_app; [now apply (lexes_plain _ _ "")|]. now apply lexes_close.
  - assert (X : forall suf, all_word suf = true -> (0 <= z)%Z -> stands (Ok (show_Z z ++ suf)%string) (XNum (show_Z z ++ suf))).
    { intros suf S Z0. apply stands_word; [|reflexivity]. apply word_app_l; [now apply show_Z_word|exact S]. }
    assert (X0 : (0 <= z)%Z -> stands (Ok (show_Z z)%string) (XNum (show_Z z ++ ""))).
    { intros Z0. rewrite append_nil_s. apply stands_word; [now apply show_Z_word|reflexivity]. }
    destruct t as [m size sg|m size|m|m|m l|m]; try discriminate R.
    + cbn [literal_ready type_ready] in R, T. apply Z.leb_le in R. rewrite !orb_true_iff, !Nat.eqb_eq in T.
      destruct T as [[->| ->]| ->]; destruct sg; cbn [kliteral generate_const_value]; (now apply X) || now apply X0.
    + cbn [literal_ready type_ready] in R, T. apply andb_true_iff in R as [A R]. apply Z.leb_le in R. cbn [kliteral generate_const_value].
      unfold address, among in A. cbn [existsb] in A. rewrite orb_false_r in A. destruct (String.eqb m "GroupAddress"); [now apply X|]. cbn [orb] in A. rewrite A. now apply X.
  - destruct t as [m size sg|m size|m|m|m l|m]; try (destruct x; discriminate R). cbn [literal_ready type_ready] in R, T.
    destruct (float_parts_spec x R) as (c & d & E & S & C & CN & D & DN & _). cbn [kliteral]. rewrite E.
    pose proof (digits_words c C CN) as WC. pose proof (digits_words d D DN) as WD.
    assert (X : forall suf, all_word suf = true -> stands (Ok (c ++ "." ++ (d ++ suf))%string) (XFloat c (d ++ suf))).
    { intros suf SW. eexists _, (LWord (d ++ suf)%string). split; [reflexivity|]. split; [|reflexivity]. cbn [pr_ex flat flat_map flat1 KotlinPrint.w y app].
      pose proof (word_app_l d suf WD SW) as WS. eapply (reads_app _ _ [CW c]); [now apply reads_word| |right; reflexivity].
      eapply (reads_app _ _ [CS "."]); [lit|now apply reads_word|right; now apply word_seps]. }
    rewrite !orb_true_iff, !Nat.eqb_eq in T. destruct T as [->| ->]; cbn [generate_const_value]; rewrite S.
    + rewrite !append_assoc_s. now apply X.
    + specialize (X "" eq_refl). now rewrite append_nil_s in X |- *.
  - destruct t; destruct b; now apply stands_word.
Qed.

(** ** Tokens of the generator *)

Lemma gives_eq n st r ts ts' m st' : gives n st r ts m st' -> ts = ts' -> gives n st r ts' m st'.
Proof. now intros H <-. Qed.
Lemma gives_write n st s ts st' : kreads s ts st' -> (st = LNone \/ seps st s = true) -> gives n st (Ok [Do (Write s)]) ts n st'.
Proof. intros. now apply gives_ok, clex_write. Qed.
Lemma gives_cons n st c cs ta m st1 tb k st2 : kclex n st [c] ta m st1 -> gives m st1 (Ok cs) tb k st2 -> gives n st (Ok (c :: cs)) (ta ++ tb) k st2.
Proof. intros A (ds & [= <-] & B). apply gives_ok. eapply clex_cons; eassumption. Qed.
Lemma gives_nil n st : gives n st (Ok []) [] n st.
Proof. apply gives_ok, clex_nil. Qed.

(** An expression or a type: between tokens at the start, followed by a comma, a blank or a line feed. *)
Definition ends (n : nat) (r : rcmds) (ts : list ctok) : Prop := exists st, gives n LNone r ts n st /\ done st = true.

Lemma ends_type n t : type_ready t = true -> ends n (write_token (KTypeId t)) (flat (pr_ty (ktype t))).
Proof. intros R. destruct (type_reads t R) as (s & st & G & L & D & _). exists st. split; [|exact D]. cbn [write_token]. rewrite G. cbn [bind]. apply gives_write; [exact L|now left]. Qed.
Lemma ends_stands n r e : stands r e -> ends n (let* s := r in Ok [Do (Write s)]) (flat (pr_ex e)).
Proof. intros (s & st & -> & L & D). exists st. split; [|exact D]. cbn [bind]. apply gives_write; [exact L|now left]. Qed.

Lemma clex_gaps n last t : kclex n LNone (gap_cmds last t) [] n LNone.
Proof.
  destruct last as [last|]; [|apply clex_nil]. cbn [gap_cmds]. induction gaps_pairs as [|p l IH]; [apply clex_nil|]. cbn [flat_map].
  change (@nil ctok) with (@nil ctok ++ []). eapply clex_app; [|exact IH]. destruct (_ || _); [|apply clex_nil]. now apply clex_newline.
Qed.
Lemma gives_from n (f : kotlin_ir -> list ctok) l : (forall x, In x l -> gives n LNone (write_token x) (f x) n LNone) ->
  forall last, gives n LNone (write_tokens_from write_token last l) (flat_map f l) n LNone.
Proof.
  intros H. induction l as [|x l IH]; intros last; [apply gives_nil|]. cbn [write_tokens_from flat_map].
  change (f x ++ flat_map f l) with ([] ++ (f x ++ flat_map f l)). eapply gives_app; [apply gives_ok, clex_gaps|].
  eapply gives_app; [apply H; now left|]. apply IH. intros z Z. apply H. now right.
Qed.
(** The same for items that come from a list. *)
Lemma gives_map {A} n (g : A -> kotlin_ir) (p : A -> list tt) l : (forall x, In x l -> gives n LNone (write_token (g x)) (flat (p x)) n LNone) ->
  forall last, gives n LNone (write_tokens_from write_token last (map g l)) (flat (flat_map p l)) n LNone.
Proof.
  intros H. induction l as [|x l IH]; intros last; [apply gives_nil|]. cbn [map write_tokens_from flat_map]. rewrite flat_app.
  change (flat (p x) ++ flat (flat_map p l)) with ([] ++ (flat (p x) ++ flat (flat_map p l))). eapply gives_app; [apply gives_ok, clex_gaps|].
  eapply gives_app; [apply H; now left|]. apply IH. intros z Z. apply H. now right.
Qed.

(** A line: tabs, something, a separator, the line feed. *)
Lemma gives_line n r ts : ends n r ts -> gives n LNone (Ok [Do WriteTabs] +++ r +++ Ok [Do (Write ","); Do NewLine]) (ts ++ [CS ","]) n LNone.
Proof.
  intros (st & G & D). change (ts ++ [CS ","]) with ([] ++ (ts ++ [CS ","] ++ [])). eapply gives_app; [apply gives_ok, clex_tabs|].
  eapply gives_app; [exact G|]. apply gives_ok. eapply clex_cons; [apply clex_write; [lit|now apply done_seps]|]. now apply clex_newline.
Qed.
Lemma gives_line0 n r ts : ends n r ts -> gives n LNone (Ok [Do WriteTabs] +++ r +++ Ok [Do NewLine]) ts n LNone.
Proof.
  intros (st & G & D). change ts with ([] ++ ts). rewrite <- (app_nil_r ts). eapply gives_app; [apply gives_ok, clex_tabs|].
  eapply gives_app; [exact G|]. apply gives_ok. apply clex_newline; [exact nl_quote|]. now apply done_closed.
Qed.

Lemma param_gives n id t : word id = true -> type_ready t = true ->
  gives n LNone (write_token (KDeclaration (KValDeclaration id false (KTypeId t) None) (Some ","))) (flat (pr_param (id, ktype t))) n LNone.
Proof.
  intros W R. eapply gives_eq; [apply gives_line|].
  - destruct (ends_type n t R) as (st & G & D). exists st. split; [|exact D]. cbn [write_token app].
    eapply (gives_app _ _ _ [CW "val"; CW id; CS ":"]).
    + apply gives_ok. change [CW "val"; CW id; CS ":"] with ([CW "val"; CW id] ++ [CS ":"]).
      eapply clex_cons; [apply clex_write; [|now left]; eapply (reads_app _ _ [CW "val"]); [lit|now apply reads_word|now left]|].
      apply clex_write; [lit|right; reflexivity].
    + eapply gives_app; [exact G|apply gives_nil].
  - unfold pr_param. cbn [fst snd]. rewrite flat_app, flat_app, app_nil_r. reflexivity.
Qed.
Lemma named_gives n id t : word (camel id) = true -> type_ready t = true ->
  gives n LNone (write_token (KDeclaration (KAssignArgument id (KDefaulConstValueExpr t)) (Some ","))) (flat (pr_arg (Some (camel id), kdefault t))) n LNone.
Proof.
  intros W R. eapply gives_eq; [apply gives_line|].
  - destruct (ends_stands n _ _ (default_stands t R)) as (st & G & D). exists st. split; [|exact D]. cbn [write_token].
    eapply (gives_app _ _ _ [CW (camel id); CS "="]); [|exact G]. apply gives_write; [|now left]. eapply (reads_app _ _ [CW (camel id)]); [now apply reads_word|lit|right; reflexivity].
  - unfold pr_arg. cbn [fst snd pr_label]. rewrite flat_app, flat_app. reflexivity.
Qed.
Lemma positional_gives n t : type_ready t = true ->
  gives n LNone (write_token (KDeclaration (KDefaulConstValueExpr t) (Some ","))) (flat (pr_arg (None, kdefault t))) n LNone.
Proof.
  intros R. eapply gives_eq; [apply gives_line; apply (ends_stands n _ _ (default_stands t R))|]. unfold pr_arg. cbn [fst snd pr_label app]. now rewrite flat_app.
Qed.

(** [id(..)] with arguments on lines of their own. *)
Lemma call_ends {A} n id (g : A -> kotlin_ir) (p : A -> option string * kex) l : word id = true ->
  (forall x k, In x l -> gives k LNone (write_token (g x)) (flat (pr_arg (p x))) k LNone) ->
  ends n (write_token (KCall id (map g l))) (flat (pr_ex (XCall id (map p l)))).
Proof.
  intros W H. exists (LSym ")"). split; [|reflexivity]. change (pr_ex (XCall id (map p l))) with [KotlinPrint.w id; G "(" (flat_map pr_arg (map p l))]. cbn [write_token].
  change (flat [KotlinPrint.w id; G "(" (flat_map pr_arg (map p l))]) with ([CW id] ++ flat [G "(" (flat_map pr_arg (map p l))]).
  eapply gives_app; [apply gives_write; [now apply reads_word|now left]|]. destruct l as [|x l].
  - cbn [map flat_map]. apply gives_write; [lit|right; reflexivity].
  - change (match map g (x :: l) with [] => ?a | _ => ?b end) with b.
    replace (flat [G "(" (flat_map pr_arg (map p (x :: l)))]) with ([CS "("] ++ flat (flat_map (fun x => pr_arg (p x)) (x :: l)) ++ [CS ")"]).
    2: { rewrite flat_cons, flat1_G. rewrite app_nil_r. cbn [app]. f_equal. f_equal. f_equal. clear. induction (x :: l) as [|z l' IH]; [reflexivity|]. cbn [map flat_map]. now rewrite IH. }
    eapply gives_app.
    + apply gives_ok. change [CS "("] with ([CS "("] ++ ([] ++ [])). eapply clex_cons; [apply clex_write; [lit|right; reflexivity]|].
      eapply clex_cons; [now apply clex_newline|apply clex_push].
    + eapply gives_app; [apply (gives_map (S n) g (fun x => pr_arg (p x))); intros; now apply H|].
      apply gives_ok. change [CS ")"] with ([] ++ ([] ++ [CS ")"])). eapply clex_cons; [apply clex_pop|]. eapply clex_cons; [apply clex_tabs|]. apply clex_write; [lit|now left].
Qed.

(** [: e] and a body. *)
Lemma extends_gives n st e : word e = true -> done st = true -> gives n st (write_extends write_token [KId e]) (flat (pr_supers [e])) n (LWord e).
Proof.
  intros W D. cbn [write_extends write_tokens_separated write_token pr_supers sep]. change (flat (y ":" :: [KotlinPrint.w e])) with ([CS ":"] ++ [CW e]).
  eapply gives_app; [apply gives_write; [lit|now apply done_seps]|]. change [CW e] with ([CW e] ++ ([] ++ [])).
  eapply gives_app; [apply gives_write; [now apply reads_word|now left]|]. eapply gives_app; apply gives_nil.
Qed.
Lemma block_gives {A} n st (g : A -> kotlin_ir) (p : A -> kdecl) l : done st = true ->
  (forall x k, In x l -> gives k LNone (write_token (g x)) (flat (pr_decl (p x))) k LNone) ->
  gives n st (write_body write_token (map g l)) (flat (pr_block (map p l))) n LNone.
Proof.
  intros D H. destruct l as [|x l].
  - cbn [map write_body pr_block]. apply gives_ok. apply clex_newline; [exact nl_quote|]. now apply done_closed.
  - change (write_body write_token (map g (x :: l))) with
      (Ok [Do (Write " {"); Do NewLine; PushTab] +++ write_tokens_from write_token None (map g (x :: l)) +++ Ok [PopTab; Do (Writeln "}")]).
    change (pr_block (map p (x :: l))) with [G "{" (flat_map pr_decl (map p (x :: l)))].
    replace (flat [G "{" (flat_map pr_decl (map p (x :: l)))]) with ([CS "{"] ++ flat (flat_map (fun x => pr_decl (p x)) (x :: l)) ++ [CS "}"]).
    2: { rewrite flat_cons, flat1_G. rewrite app_nil_r. cbn [app]. f_equal. f_equal. f_equal. clear. induction (x :: l) as [|z l' IH]; [reflexivity|]. cbn [map flat_map]. now rewrite IH. }
    eapply gives_app.
    + apply gives_ok. change [CS "{"] with ([CS "{"] ++ ([] ++ [])). eapply clex_cons; [apply clex_write; [lit|now apply done_seps]|].
      eapply clex_cons; [now apply clex_newline|apply clex_push].
    + eapply gives_app; [apply (gives_map (S n) g (fun x => pr_decl (p x))); intros; now apply H|].
      apply gives_ok. change [CS "}"] with ([] ++ [CS "}"]). eapply clex_cons; [apply clex_pop|]. eapply clex_line; [exact nl_quote|lit|reflexivity].
Qed.

(** [fun createDefault(): id = e] inside [companion object]. *)
Lemma companion_gives n id r e : type_ready (TyOther id) = true -> (forall k, ends k (write_token r) (flat (pr_ex e))) ->
  gives n LNone (write_token (KCompanionObject [KFunInline "createDefault" [] (KTypeId (TyOther id)) r])) (flat (pr_decl (hd (YCompanion []) (companion id e)))) n LNone.
Proof.
  intros K H. cbn [companion hd]. cbn [write_token].
  replace (flat (pr_decl (YCompanion [YFun "createDefault" (ktype (TyOther id)) e]))) with
    ([CW "companion"; CW "object"; CS "{"] ++ flat (pr_decl (YFun "createDefault" (ktype (TyOther id)) e)) ++ [CS "}"]).
  2: { cbn [pr_decl flat_map]. rewrite app_nil_r. cbn [app]. rewrite !flat_cons, flat1_G, app_nil_r. reflexivity. }
  eapply gives_app.
  { apply gives_ok. change [CW "companion"; CW "object"; CS "{"] with ([CW "companion"; CW "object"; CS "{"] ++ []). eapply clex_cons; [eapply clex_line; [exact nl_quote|lit|reflexivity]|apply clex_push]. }
  eapply gives_app.
  2: { apply gives_ok. change [CS "}"] with ([] ++ [CS "}"]). eapply clex_cons; [apply clex_pop|]. eapply clex_line; [exact nl_quote|lit|reflexivity]. }
  cbn [write_tokens_from gap_cmds]. rewrite <- (app_nil_l (flat (pr_decl _))). eapply gives_app; [apply gives_nil|].
  rewrite <- (app_nil_r (flat (pr_decl _))). eapply gives_app; [|apply gives_nil]. cbn [write_token write_parameters].
  replace (flat (pr_decl (YFun "createDefault" (ktype (TyOther id)) e))) with
    (([] ++ [CW "fun"; CW "createDefault"; CS "("]) ++ ([] ++ ([CS ")"; CS ":"] ++ flat (pr_ty (ktype (TyOther id))) ++ [CS "="] ++ flat (pr_ex e) ++ []))).
  2: { cbn [pr_decl]. rewrite !flat_app, flat_cons, app_nil_r. reflexivity. }
  destruct (ends_type (S n) (TyOther id) K) as (st1 & G1 & D1). destruct (H (S n)) as (st2 & G2 & D2).
  eapply gives_app. { apply gives_ok. eapply clex_cons; [apply clex_tabs|]. apply clex_write; [lit|now left]. }
  eapply gives_app; [apply gives_nil|]. eapply gives_app; [apply gives_write; [lit|right; reflexivity]|].
  eapply gives_app; [exact G1|]. eapply gives_app; [apply gives_write; [lit|now apply done_seps]|]. eapply gives_app; [exact G2|].
  apply gives_ok. apply clex_newline; [exact nl_quote|now apply done_closed].
Qed.

(** [class id(..) : supers body]; the parameters are lines. *)
Lemma class_gives {A B} n id data (g : A -> kotlin_ir) (p : A -> string * kty) l (sups : list string) (h : B -> kotlin_ir) (q : B -> kdecl) bs :
  word (pascal id) = true -> forallb word sups = true -> (List.length sups <= 1)%nat ->
  (forall x k, In x l -> gives k LNone (write_token (g x)) (flat (pr_param (p x))) k LNone) ->
  (forall x k, In x bs -> gives k LNone (write_token (h x)) (flat (pr_decl (q x))) k LNone) ->
  gives n LNone (write_token (KClass id data (map KId sups) (map g l) (map h bs))) (flat (pr_decl (YClass data (pascal id) (map p l) sups (map q bs)))) n LNone.
Proof.
  intros W WS LS HP HB. cbn [write_token].
  replace (flat (pr_decl (YClass data (pascal id) (map p l) sups (map q bs)))) with
    (((if data then [CW "data"] else []) ++ [CW "class"; CW (pascal id); CS "("]) ++
     (flat (flat_map (fun x => pr_param (p x)) l) ++ [CS ")"]) ++ flat (pr_supers sups) ++ flat (pr_block (map q bs))).
  2: { cbn [pr_decl]. fold (pr_block (map q bs)). rewrite !flat_app. cbn [flat flat_map]. rewrite flat1_G.
       replace (flat_map pr_param (map p l)) with (flat_map (fun x => pr_param (p x)) l) by (clear; induction l as [|x l IH]; [reflexivity|]; cbn [map flat_map]; now rewrite IH).
       rewrite <- !app_assoc. destruct data; cbn [flat flat_map flat1 KotlinPrint.w app]; now rewrite <- !app_assoc. }
  eapply gives_app.
  { apply gives_ok. change ((if data then [CW "data"] else []) ++ [CW "class"; CW (pascal id); CS "("]) with ([] ++ ((if data then [CW "data"] else []) ++ [CW "class"; CW (pascal id); CS "("])).
    eapply clex_cons; [apply clex_tabs|]. eapply clex_app.
    - instantiate (1 := LNone). destruct data; [apply clex_write; [lit|now left]|apply clex_nil].
    - apply clex_write; [|now left]. eapply (reads_app _ _ [CW "class"]); [lit| |now left]. eapply (reads_app _ _ [CW (pascal id)]); [now apply reads_word|lit|right; reflexivity]. }
  eapply gives_app.
  { destruct l as [|x l]; [cbn [map flat_map flat app]; apply gives_write; [lit|right; reflexivity]|].
    change (match map g (x :: l) with [] => ?a | _ => ?b end) with b.
    change (flat (flat_map (fun x0 => pr_param (p x0)) (x :: l)) ++ [CS ")"]) with ([] ++ (flat (flat_map (fun x0 => pr_param (p x0)) (x :: l)) ++ [CS ")"])).
    eapply gives_app.
    { apply gives_ok. change (@nil ctok) with (@nil ctok ++ []). eapply clex_cons; [now apply clex_newline|apply clex_push]. }
    eapply gives_app; [apply (gives_map (S n) g (fun x => pr_param (p x))); intros; now apply HP|].
    apply gives_ok. change [CS ")"] with ([] ++ [CS ")"]). eapply clex_cons; [apply clex_pop|]. apply clex_write; [lit|now left]. }
  assert (S : exists st, gives n (LSym ")") (write_extends write_token (map KId sups)) (flat (pr_supers sups)) n st /\ done st = true).
  { destruct sups as [|e [|e2 sups]]; [exists (LSym ")"); split; [apply gives_nil|reflexivity]| |cbn in LS; lia].
    exists (LWord e). split; [|reflexivity]. cbn [forallb] in WS. apply andb_true_iff in WS as [WS _]. now apply extends_gives. }
  destruct S as (st & S & D). eapply gives_app; [exact S|]. apply block_gives; [exact D|exact HB].
Qed.

(** ** Declarations *)

Lemma kname_type n : kname n = true -> type_ready (TyOther n) = true.
Proof. auto. Qed.

Lemma struct_gives n s : struct_ready s = true -> gives n LNone (write_token (generate_struct_model s true)) (flat (pr_decl (struct_class s))) n LNone.
Proof.
  unfold struct_ready. rewrite !andb_true_iff. intros ((K & P) & F). unfold generate_struct_model, struct_class.
  set (r := KCall (sn_id s) (default_arguments (sn_fields s))). set (e := XCall (sn_id s) (named_defaults (sn_fields s))).
  change [KCompanionObject [KFunInline "createDefault" [] (KTypeId (TyOther (sn_id s))) r]] with (map (fun r => KCompanionObject [KFunInline "createDefault" [] (KTypeId (TyOther (sn_id s))) r]) [r]).
  change (companion (sn_id s) e) with (map (fun _ : kotlin_ir => hd (YCompanion []) (companion (sn_id s) e)) [r]).
  apply (class_gives n (sn_id s) _ _ (fun f => (camel (sf_name f), ktype (sf_type f))) (sn_fields s) []); [now apply kname_word|reflexivity|cbn; lia| |].
  - intros f k I. rewrite forallb_forall in F. specialize (F f I). apply andb_true_iff in F as [F1 F2]. apply param_gives; [now apply kname_word|exact F2].
  - intros x k [<-|[]]. apply companion_gives; [exact K|]. intros k'. unfold r, e, default_arguments, named_defaults.
    apply (call_ends k' (sn_id s) _ (fun f => (Some (camel (sf_name f)), kdefault (sf_type f)))); [now apply kname_word|].
    intros f j I. rewrite forallb_forall in F. specialize (F f I). apply andb_true_iff in F as [F1 F2]. apply named_gives; [now apply kname_word|exact F2].
Qed.

Lemma object_gives {B} n id (sups : list string) (h : B -> kotlin_ir) (q : B -> kdecl) bs :
  word (pascal id) = true -> forallb word sups = true -> (List.length sups <= 1)%nat ->
  (forall x k, In x bs -> gives k LNone (write_token (h x)) (flat (pr_decl (q x))) k LNone) ->
  gives n LNone (write_token (KObject id (map h bs) (map KId sups))) (flat (pr_decl (YObject (pascal id) sups (map q bs)))) n LNone.
Proof.
  intros W WS LS HB. cbn [write_token].
  replace (flat (pr_decl (YObject (pascal id) sups (map q bs)))) with (([] ++ [CW "object"; CW (pascal id)]) ++ flat (pr_supers sups) ++ flat (pr_block (map q bs))).
  2: { cbn [pr_decl]. fold (pr_block (map q bs)). rewrite !flat_app. reflexivity. }
  eapply gives_app.
  { apply gives_ok. eapply clex_cons; [apply clex_tabs|]. apply clex_write; [|now left]. eapply (reads_app _ _ [CW "object"]); [lit|now apply reads_word|now left]. }
  assert (S : exists st, gives n (LWord (pascal id)) (write_extends write_token (map KId sups)) (flat (pr_supers sups)) n st /\ done st = true).
  { destruct sups as [|e [|e2 sups]]; [eexists; split; [apply gives_nil|reflexivity]| |cbn in LS; lia].
    exists (LWord e). split; [|reflexivity]. cbn [forallb] in WS. apply andb_true_iff in WS as [WS _]. now apply extends_gives. }
  destruct S as (st & S & D). eapply gives_app; [exact S|]. apply block_gives; [exact D|exact HB].
Qed.

Lemma numbered_map vs : forall i, numbered i vs = map (fun iv => (("p" ++ show_nat (fst iv))%string, ktype (tf_type (snd iv)))) (enumerate_from i vs).
Proof. induction vs as [|v vs IH]; intros i; [reflexivity|]. cbn [numbered enumerate_from map fst snd]. now rewrite IH. Qed.
Lemma enumerate_in {A} (l : list A) : forall i p, In p (enumerate_from i l) -> In (snd p) l.
Proof. induction l as [|x l IH]; intros i p; [intros []|]. cbn [enumerate_from]. intros [<-|I]; [now left|right; eapply IH; eassumption]. Qed.
Lemma p_word i : word ("p" ++ show_nat i) = true.
Proof. apply word_app_r; [reflexivity|]. apply digits_words; [apply show_N_digits|apply show_N_nonempty]. Qed.

Lemma case_gives n e i : kname (en_id e) = true -> case_ready (en_id e) i = true ->
  gives n LNone (write_token (generate_enum_case e i)) (flat (pr_decl (case_decl (en_id e) i))) n LNone.
Proof.
  intros K R. unfold case_ready in R. rewrite !andb_true_iff in R. destruct R as ((_ & P) & F). apply kname_word in K. apply kname_word in P.
  assert (WS : forallb word [en_id e] = true) by (cbn; now rewrite K).
  destruct i as [p c|p c vs|p c fs]; cbn [item_id] in *; unfold generate_enum_case; cbn [item_id case_decl].
  - apply (object_gives n (en_id e ++ c) [en_id e] (fun x : kotlin_ir => x) (fun _ => YCompanion []) []); [exact P|exact WS|cbn; lia|intros ? ? []].
  - rewrite numbered_map. apply (class_gives n (en_id e ++ c) true _ _ (enumerate vs) [en_id e] (fun x : kotlin_ir => x) (fun _ => YCompanion []) []); [exact P|exact WS|cbn; lia| |intros ? ? []].
    intros [j v] k I. cbn [fst snd]. apply param_gives; [apply p_word|]. apply enumerate_in in I. rewrite forallb_forall in F. exact (F _ I).
  - apply (class_gives n (en_id e ++ c) true _ _ fs [en_id e] (fun x : kotlin_ir => x) (fun _ => YCompanion []) []); [exact P|exact WS|cbn; lia| |intros ? ? []].
    intros f k I. rewrite forallb_forall in F. specialize (F f I). rewrite !andb_true_iff in F. destruct F as ((F1 & _) & F3). apply param_gives; [now apply kname_word|exact F3].
Qed.

Lemma interface_flat id d : flat (pr_decl (YInterface true id [d])) = [CW "sealed"; CW "interface"; CW id; CS "{"] ++ flat (pr_decl d) ++ [CS "}"].
Proof. cbn [pr_decl flat_map]. rewrite app_nil_r. cbn [app]. rewrite !flat_cons, flat1_G. cbn [app flat flat_map]. now rewrite app_nil_r. Qed.
Lemma interface_gives n e : enum_ready e = true -> exists t, generate_enum_interface e = Ok t /\ gives n LNone (write_token t) (flat (pr_decl (enum_interface e))) n LNone.
Proof.
  unfold enum_ready. rewrite !andb_true_iff. intros ((K & N) & F). unfold generate_enum_interface, enum_interface. destruct (en_items e) as [|i items]; [discriminate|].
  cbn [forallb] in F. apply andb_true_iff in F as [R _]. unfold case_ready in R. rewrite !andb_true_iff in R. destruct R as ((C & _) & F).
  eexists. split; [reflexivity|]. set (r := match i with ItemEmpty _ _ => _ | _ => _ end).
  assert (E : forall k, ends k (write_token r) (flat (pr_ex (first_value (en_id e) i)))).
  { intros k. unfold r. destruct i as [p c|p c vs|p c fs]; cbn [item_id first_value] in *.
    - exists (LWord (en_id e ++ c)%string). split; [|reflexivity]. cbn [write_token]. apply gives_write; [apply reads_word; now apply kname_word|now left].
    - apply (call_ends k _ _ (fun v => (None, kdefault (tf_type v)))); [now apply kname_word|]. intros v j I. rewrite forallb_forall in F. now apply positional_gives, F.
    - unfold default_arguments, named_defaults. apply (call_ends k _ _ (fun f => (Some (camel (sf_name f)), kdefault (sf_type f)))); [now apply kname_word|].
      intros f j I. rewrite forallb_forall in F. specialize (F f I). rewrite !andb_true_iff in F. destruct F as ((_ & F2) & F3). apply named_gives; [now apply kname_word|exact F3]. }
  clearbody r. cbn [write_token]. set (comp := KCompanionObject [KFunInline "createDefault" [] (KTypeId (TyOther (en_id e))) r]).
  replace (flat (pr_decl (YInterface true (en_id e) (companion (en_id e) (first_value (en_id e) i))))) with
    (([] ++ [CW "sealed"] ++ ([CW "interface"; CW (en_id e); CS "{"] ++ [])) ++ ([] ++ flat (pr_decl (hd (YCompanion []) (companion (en_id e) (first_value (en_id e) i)))) ++ []) ++ ([] ++ [CS "}"])).
  2: { unfold companion; cbn [hd]. rewrite interface_flat, !app_nil_r. reflexivity. }
  eapply gives_app.
  { apply gives_ok. cbn [app]. eapply (clex_cons _ _ _ _ _ []); [apply clex_tabs|]. eapply (clex_cons _ _ _ _ _ [CW "sealed"]); [apply clex_write; [lit|now left]|].
    eapply (clex_cons _ _ _ _ _ [CW "interface"; CW (en_id e); CS "{"]); [|apply clex_push]. eapply clex_line; [exact nl_quote| |].
    - eapply (reads_app _ _ [CW "interface"]); [lit| |now left]. eapply (reads_app _ _ [CW (en_id e)]); [apply reads_word; now apply kname_word|lit|right; reflexivity].
    - reflexivity. }
  eapply gives_app.
  { cbn [write_tokens_from gap_cmds]. eapply gives_app; [apply gives_nil|]. eapply gives_app; [|apply gives_nil]. now apply companion_gives. }
  apply gives_ok. eapply clex_cons; [apply clex_pop|]. eapply clex_line; [exact nl_quote|lit|reflexivity].
Qed.

(** ** Constants *)

Definition const_item_decl (i : const_item) : kdecl :=
  match i with
  | ConstItemValue n t (ConstLiteral l _) => YConst n (ktype t) (kliteral t l)
  | ConstItemNode c => const_object c
  end.
Definition const_item_ir (i : const_item) : kotlin_ir :=
  match i with
  | ConstItemValue id ty value => KDeclaration (KValDeclaration id true (KTypeId ty) (Some (KConstValueExpr ty value))) None
  | ConstItemNode node => generate_const_block node
  end.

Lemma value_gives n id t l a : word id = true -> type_ready t = true -> literal_ready t l = true ->
  gives n LNone (write_token (const_item_ir (ConstItemValue id t (ConstLiteral l a)))) (flat (pr_decl (YConst id (ktype t) (kliteral t l)))) n LNone.
Proof.
  intros W T R. cbn [const_item_ir]. eapply gives_eq; [apply gives_line0|].
  - destruct (ends_type n t T) as (st & G & D). destruct (ends_stands n _ _ (literal_stands t l a T R)) as (st' & G' & D'). exists st'. split; [|exact D'].
    cbn [write_token]. eapply (gives_app _ _ _ [CW "const"; CW "val"; CW id; CS ":"]).
    + apply gives_ok. cbn [app]. eapply (clex_cons _ _ _ _ _ [CW "const"]); [apply clex_write; [lit|now left]|].
      eapply (clex_cons _ _ _ _ _ [CW "val"; CW id]); [apply clex_write; [|now left]; eapply (reads_app _ _ [CW "val"]); [lit|now apply reads_word|now left]|].
      apply clex_write; [lit|right; reflexivity].
    + eapply gives_app; [exact G|]. eapply (gives_app _ _ _ [CS "="]); [apply gives_write; [lit|now apply done_seps]|exact G'].
  - cbn [pr_decl]. rewrite !flat_app, flat_cons. reflexivity.
Qed.

Lemma const_gives c : const_ready c = true -> forall n, gives n LNone (write_token (generate_const_block c)) (flat (pr_decl (const_object c))) n LNone.
Proof.
  induction c as [id items IH] using const_ind2. intros R n. cbn [const_ready] in R. apply andb_true_iff in R as [K R].
  change (generate_const_block (ConstNode id items)) with (KObject id (map const_item_ir items) (map KId [])).
  change (const_object (ConstNode id items)) with (YObject (pascal id) [] (map const_item_decl items)).
  apply object_gives; [now apply kname_word|reflexivity|cbn; lia|]. intros i k I. rewrite forallb_forall in R. specialize (R i I).
  destruct i as [m t [l a]|c].
  - rewrite !andb_true_iff in R. destruct R as ((R1 & R2) & R3). apply value_gives; [now apply kname_word|assumption|assumption].
  - cbn [const_item_ir const_item_decl]. now apply IH.
Qed.

(** ** Files *)

Lemma gives_list {A} n (g : A -> kotlin_ir) (p : A -> list tt) l : (forall x, In x l -> gives n LNone (write_token (g x)) (flat (p x)) n LNone) ->
  forall last rest ts, (forall last', gives n LNone (write_tokens_from write_token last' rest) ts n LNone) ->
  gives n LNone (write_tokens_from write_token last (map g l ++ rest)) (flat (flat_map p l) ++ ts) n LNone.
Proof.
  intros H. induction l as [|x l IH]; intros last rest ts R; [apply R|]. cbn [map write_tokens_from flat_map app]. rewrite flat_app, <- app_assoc.
  change (flat (p x) ++ flat (flat_map p l) ++ ts) with ([] ++ (flat (p x) ++ (flat (flat_map p l) ++ ts))). eapply gives_app; [apply gives_ok, clex_gaps|].
  eapply gives_app; [apply H; now left|]. apply IH; [|exact R]. intros z Z. apply H. now right.
Qed.

Lemma stringify_reads ts toks l : (forall last, gives 0 LNone (write_tokens_from write_token last ts) (flat (flat_map pr_decl l)) 0 LNone) ->
  toks = ts -> exists text, stringify_tokens toks = Ok text /\ code_tokens kotlin_quotes text = Some (flat (flat_map pr_decl l)).
Proof.
  intros H ->. destruct (H None) as (cs & E & C). unfold stringify_tokens. rewrite E. cbn [bind]. now apply clex_show.
Qed.

Definition node_decls (n : ast_node) : list kdecl := match n with NStruct n => [struct_class n] | NEnum n => enum_decls n | _ => [] end.
Lemma models_gives ast : models_ready ast = true -> exists ts, generate_models ast = Ok ts /\
  forall last, gives 0 LNone (write_tokens_from write_token last ts) (flat (flat_map pr_decl (models_tree ast))) 0 LNone.
Proof.
  intros R. unfold models_ready in R. unfold generate_models.
  assert (X : exists parts, mapM (fun node => match node with NStruct node => Ok [generate_struct_model node true] | NEnum node => generate_enum_model node | _ => Ok [] end) ast = Ok parts /\
    forall last, gives 0 LNone (write_tokens_from write_token last (concat parts)) (flat (flat_map pr_decl (models_tree ast))) 0 LNone).
  { induction ast as [|a ast IH]; [exists []; split; [reflexivity|intros; apply gives_nil]|]. cbn [forallb] in R. apply andb_true_iff in R as [R1 R2].
    destruct (IH R2) as (parts & E & G). cbn [mapM]. rewrite E.
    change (models_tree (a :: ast)) with (node_decls a ++ models_tree ast). rewrite flat_map_app, flat_app.
    destruct a as [e|s|f|d|c]; cbn [bind node_decls flat_map].
    3,4,5: exists ([] :: parts); split; [reflexivity|exact G].
    - (* enum *) destruct (interface_gives 0 e R1) as (t & T & GT). unfold generate_enum_model. rewrite T. cbn [bind].
      exists ((t :: map (generate_enum_case e) (en_items e)) :: parts). split; [reflexivity|]. intros last. cbn [concat app]. cbn [write_tokens_from].
      unfold enum_decls. cbn [flat_map]. rewrite flat_app, <- app_assoc.
      match goal with |- gives _ _ _ ?ts _ _ => change ts with ([] ++ ts) end. eapply gives_app; [apply gives_ok, clex_gaps|]. eapply gives_app; [exact GT|].
      replace (flat_map pr_decl (map (case_decl (en_id e)) (en_items e))) with (flat_map (fun i => pr_decl (case_decl (en_id e) i)) (en_items e))
        by (clear; induction (en_items e) as [|x l IH]; [reflexivity|]; cbn [map flat_map]; now rewrite IH).
      apply gives_list; [|exact G]. unfold enum_ready in R1. rewrite !andb_true_iff in R1. destruct R1 as ((K & _) & F). intros i I. rewrite forallb_forall in F. apply case_gives; [exact K|now apply F].
    - (* struct *) exists ([generate_struct_model s true] :: parts). split; [reflexivity|]. intros last. cbn [concat app write_tokens_from]. rewrite app_nil_r.
      match goal with |- gives _ _ _ ?ts _ _ => change ts with ([] ++ ts) end. eapply gives_app; [apply gives_ok, clex_gaps|].
      eapply gives_app; [now apply struct_gives|]. apply G. }
  destruct X as (parts & -> & G). cbn [bind]. now exists (concat parts).
Qed.

Lemma consts_gives ast : consts_ready ast = true ->
  forall last, gives 0 LNone (write_tokens_from write_token last (generate_consts ast)) (flat (flat_map pr_decl (consts_tree ast))) 0 LNone.
Proof.
  unfold consts_ready, generate_consts. induction ast as [|a ast IH]; intros R last; [apply gives_nil|]. cbn [forallb] in R. apply andb_true_iff in R as [R1 R2].
  destruct a as [e|s|f|d|c]; try exact (IH R2 last). cbn [flat_map app write_tokens_from]. change (consts_tree (NConst c :: ast)) with (const_object c :: consts_tree ast).
  cbn [flat_map]. rewrite flat_app. match goal with |- gives _ _ _ ?ts _ _ => change ts with ([] ++ ts) end. eapply gives_app; [apply gives_ok, clex_gaps|].
  eapply gives_app; [now apply const_gives|]. apply IH, R2.
Qed.

(** ** The trees are well formed *)

Lemma digits_numeric a : all_chars digitb a = true -> a <> "" -> forall s, numeric (a ++ s) = true.
Proof. destruct a as [|c a]; [congruence|]. intros A _ s. cbn [all_chars] in A. apply andb_true_iff in A as [A _]. exact A. Qed.
Lemma khead_ident n : kident n = true -> khead n = true.
Proof. unfold khead. now intros ->. Qed.

Lemma wf_type : forall t, type_ready t = true -> wf_ty (ktype t) = true.
Proof.
  fix IH 1. intros [n size sg|n size|n|n|id l|id] R; cbn [type_ready] in R; cbn [ktype wf_ty forallb].
  - rewrite andb_true_r. rewrite !orb_true_iff, !Nat.eqb_eq in R. destruct R as [[->| ->]| ->]; destruct sg; reflexivity.
  - destruct (Nat.eqb size 4); reflexivity.
  - reflexivity.
  - reflexivity.
  - rewrite !andb_true_iff in R. destruct R as ((K & _) & F). apply andb_true_iff. split; [destruct (String.eqb id "Vec"); [reflexivity|now apply kname_ident]|].
    revert F. induction l as [|t l IHl]; [reflexivity|]. cbn [forallb map]. intros F. apply andb_true_iff in F as [F1 F2]. now rewrite (IH t F1), (IHl F2).
  - destruct (address id); [reflexivity|]. rewrite andb_true_r. now apply kname_ident.
Qed.
Lemma wf_types l : forallb type_ready l = true -> forallb wf_ty (map ktype l) = true.
Proof. intros F. rewrite forallb_forall in *. intros x I. apply in_map_iff in I as (t & <- & I). now apply wf_type, F. Qed.

Lemma wf_default t : type_ready t = true -> wf_ex (kdefault t) = true.
Proof.
  destruct t as [n size sg|n size|n|n|id l|id]; intros R; cbn [type_ready] in R; cbn [kdefault].
  - rewrite !orb_true_iff, !Nat.eqb_eq in R. destruct R as [[->| ->]| ->]; destruct sg; reflexivity.
  - destruct (Nat.eqb size 4); reflexivity.
  - reflexivity.
  - reflexivity.
  - rewrite !andb_true_iff in R. destruct R as ((K & _) & F). destruct (String.eqb id "Vec"); [reflexivity|]. cbn [wf_ex forallb]. rewrite (khead_ident _ (kname_ident _ K)), (wf_types _ F). reflexivity.
  - destruct (String.eqb id "String"); [reflexivity|]. destruct (String.eqb id "Vec"); [reflexivity|]. cbn [wf_ex forallb]. now rewrite (khead_ident _ (kname_ident _ R)).
Qed.

Lemma wf_literal t l : literal_ready t l = true -> wf_ex (kliteral t l) = true.
Proof.
  intros R. destruct l as [s|z|x|b]; cbn [kliteral].
  - reflexivity.
  - cbn [wf_ex]. assert (Z0 : (0 <= z)%Z) by (destruct t; cbn [literal_ready] in R; try discriminate; [|apply andb_true_iff in R as [_ R]]; now apply Z.leb_le in R). clear R.
    destruct z as [|p|p]; [reflexivity| |lia]. apply digits_numeric; cbn [show_Z]; [apply show_N_digits|apply show_N_nonempty].
  - destruct t; cbn [literal_ready] in R; try discriminate. destruct (float_parts_spec x R) as (c & d & E & S & C & CN & D & DN & _). rewrite E. cbn [wf_ex].
    rewrite (digits_numeric d D DN). rewrite <- (append_nil_s c). now rewrite (digits_numeric c C CN).
  - now destruct b.
Qed.

Lemma wf_named fs : (forall f, In f fs -> kname (camel (sf_name f)) = true /\ type_ready (sf_type f) = true) ->
  forallb (fun a => wf_label (fst a) && wf_ex (snd a)) (named_defaults fs) = true.
Proof.
  intros F. apply forallb_forall. intros x I. unfold named_defaults in I. apply in_map_iff in I as (f & <- & I). cbn [fst snd wf_label].
  destruct (F f I) as [K T]. now rewrite (kname_ident _ K), (wf_default _ T).
Qed.
Lemma wf_companion id e : kname id = true -> wf_ex e = true -> forallb wf_decl (companion id e) = true.
Proof. intros K E. unfold companion. cbn [forallb wf_decl]. rewrite (wf_type (TyOther id) K), E. reflexivity. Qed.

Lemma wf_struct s : struct_ready s = true -> wf_decl (struct_class s) = true.
Proof.
  unfold struct_ready. rewrite !andb_true_iff. intros ((K1 & K2) & F). rewrite forallb_forall in F.
  assert (F' : forall f, In f (sn_fields s) -> kname (camel (sf_name f)) = true /\ type_ready (sf_type f) = true) by (intros f I; apply andb_true_iff, F, I).
  unfold struct_class. cbn [wf_decl]. rewrite (kname_ident _ K2). rewrite wf_companion; [|exact K1|].
  - cbn [andb]. rewrite andb_true_r. cbn [forallb]. rewrite andb_true_r. apply forallb_forall. intros p I. apply in_map_iff in I as (f & <- & I). destruct (F' f I) as [K T].
    unfold wf_param. cbn [fst snd]. now rewrite (kname_ident _ K), (wf_type _ T).
  - cbn [wf_ex]. rewrite (khead_ident _ (kname_ident _ K1)). now apply wf_named.
Qed.

Lemma among_prefix i : kident ("p" ++ show_nat i) = true.
Proof.
  unfold kident. cbn [numeric append]. replace (underscores (String "p" (show_nat i))) with false by reflexivity.
  assert (X : among kotlin_reserved (String "p" (show_nat i)) = false).
  { pose proof (show_N_digits (N.of_nat i)) as D. pose proof (show_N_nonempty (N.of_nat i)) as NE. unfold show_nat. destruct (show_N (N.of_nat i)) as [|c r]; [congruence|].
    cbn [all_chars] in D. apply andb_true_iff in D as [D _]. destruct c as [[] [] [] [] [] [] [] []]; try discriminate D; reflexivity. }
  rewrite X. reflexivity.
Qed.

Lemma wf_case e i : kname e = true -> case_ready e i = true -> wf_decl (case_decl e i) = true /\ wf_ex (first_value e i) = true.
Proof.
  intros K. unfold case_ready. rewrite !andb_true_iff. intros ((K1 & K2) & F). destruct i as [a c|a c vs|a c fs]; cbn [item_id] in *; cbn [case_decl first_value wf_decl wf_ex forallb].
  - rewrite (kname_ident _ K2), (kname_ident _ K), (khead_ident _ (kname_ident _ K1)). now split.
  - rewrite (kname_ident _ K2), (kname_ident _ K), (khead_ident _ (kname_ident _ K1)). rewrite forallb_forall in F. split.
    + rewrite !andb_true_r. cbn [andb]. rewrite numbered_map. apply forallb_forall. intros p I. apply in_map_iff in I as ((j & v) & <- & I). unfold wf_param. cbn [fst snd].
      rewrite among_prefix. cbn [andb]. apply wf_type, F. exact (enumerate_in _ _ _ I).
    + cbn [andb]. apply forallb_forall. intros p I. apply in_map_iff in I as (v & <- & I). cbn [fst snd wf_label andb]. apply wf_default, F, I.
  - rewrite (kname_ident _ K2), (kname_ident _ K), (khead_ident _ (kname_ident _ K1)). rewrite forallb_forall in F. split.
    + rewrite !andb_true_r. cbn [andb]. apply forallb_forall. intros p I. apply in_map_iff in I as (f & <- & I). unfold wf_param. cbn [fst snd].
      specialize (F f I). rewrite !andb_true_iff in F. destruct F as ((F1 & _) & F3). now rewrite (kname_ident _ F1), (wf_type _ F3).
    + cbn [andb]. apply wf_named. intros f I. specialize (F f I). rewrite !andb_true_iff in F. destruct F as ((_ & F2) & F3). now split.
Qed.

Lemma wf_models ast : models_ready ast = true -> forallb wf_decl (models_tree ast) = true.
Proof.
  unfold models_ready. induction ast as [|a ast IH]; [reflexivity|]. cbn [forallb]. intros R. apply andb_true_iff in R as [R1 R2].
  change (models_tree (a :: ast)) with (node_decls a ++ models_tree ast). rewrite forallb_app, (IH R2), andb_true_r.
  destruct a as [e|s|f|d|c]; try reflexivity; cbn [node_decls].
  - unfold enum_ready in R1. rewrite !andb_true_iff in R1. destruct R1 as ((K & _) & F). rewrite forallb_forall in F. unfold enum_decls. cbn [forallb]. apply andb_true_iff. split.
    + unfold enum_interface. cbn [wf_decl]. rewrite (kname_ident _ K). cbn [andb]. destruct (en_items e) as [|i l]; [reflexivity|]. apply wf_companion; [exact K|].
      apply wf_case; [exact K|]. apply F. now left.
    + apply forallb_forall. intros p I. apply in_map_iff in I as (i & <- & I). apply wf_case; [exact K|now apply F].
  - cbn [forallb]. now rewrite (wf_struct s R1).
Qed.

Lemma wf_const c : const_ready c = true -> wf_decl (const_object c) = true.
Proof.
  induction c as [id items IH] using const_ind2. cbn [const_ready]. intros R. apply andb_true_iff in R as [K R]. rewrite forallb_forall in R.
  change (const_object (ConstNode id items)) with (YObject (pascal id) [] (map const_item_decl items)). cbn [wf_decl forallb]. rewrite (kname_ident _ K). cbn [andb].
  apply forallb_forall. intros d I. apply in_map_iff in I as (i & <- & I). specialize (R i I). destruct i as [m t [l a]|c]; cbn [const_item_decl wf_decl].
  - rewrite !andb_true_iff in R. destruct R as ((R1 & R2) & R3). now rewrite (kname_ident _ R1), (wf_type _ R2), (wf_literal _ _ R3).
  - now apply IH.
Qed.
Lemma wf_consts ast : consts_ready ast = true -> forallb wf_decl (consts_tree ast) = true.
Proof.
  unfold consts_ready. induction ast as [|a ast IH]; [reflexivity|]. cbn [forallb]. intros R. apply andb_true_iff in R as [R1 R2].
  destruct a as [e|s|f|d|c]; try exact (IH R2). change (consts_tree (NConst c :: ast)) with (const_object c :: consts_tree ast). cbn [forallb]. now rewrite (wf_const c R1), (IH R2).
Qed.

(** ** The files *)

Theorem models_file ast : models_ready ast = true ->
  exists text, (let* tokens := generate_models ast in stringify_tokens tokens) = Ok text /\ kotlin_file text = Some (models_tree ast).
Proof.
  intros R. destruct (models_gives ast R) as (ts & E & G). destruct (stringify_reads ts ts (models_tree ast) G eq_refl) as (text & S & C).
  exists text. rewrite E. cbn [bind]. split; [exact S|]. apply read_file; [exact C|now apply wf_models].
Qed.
Theorem consts_file ast : consts_ready ast = true ->
  exists text, stringify_tokens (generate_consts ast) = Ok text /\ kotlin_file text = Some (consts_tree ast).
Proof.
  intros R. destruct (stringify_reads _ _ (consts_tree ast) (consts_gives ast R) eq_refl) as (text & S & C).
  exists text. split; [exact S|]. apply read_file; [exact C|now apply wf_consts].
Qed.
