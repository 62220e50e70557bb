(** The text that the Swift generator writes reads back as the declarations of SwiftTree. *)
Require Import Coq.Strings.String Coq.Strings.Ascii.
Require Import Coq.NArith.NArith Coq.ZArith.ZArith Coq.Lists.List Coq.Bool.Bool Coq.Arith.PeanoNat Coq.micromega.Lia.
Require Import Verif.Base Verif.F64 Verif.F64Spec Verif.Ast Verif.Writer Verif.CaseConv Verif.Code Verif.CodeLex Verif.CmdLex Verif.LexSpec Verif.NumText Verif.FloatShape Verif.RustLexedConst.
Require Verif.KotlinSyntax Verif.KotlinPrint Verif.KotlinTree Verif.KotlinFile.
Require Import Verif.SwiftSyntax Verif.SwiftPrint Verif.SwiftTree Verif.SwiftGen.
Import KotlinSyntax(numeric, among). Import KotlinPrint(w, y, sep). Import KotlinTree(address, float_parts, literal_ready, finite_double).
Import KotlinFile(flat_app, flat_cons, wordy, word_wordy, wordy_app, float_parts_spec, show_Z_word, digits_numeric).
Import ListNotations.
Local Open Scope string_scope.
Local Open Scope list_scope.

Notation sclex := (clex swift_quotes).
Notation sreads := (CmdLex.reads swift_quotes).

(** ** Comments *)

(** The tokens without the comments, whatever follows. *)
Definition sheds (raw ts : list ctok) : Prop := forall rest, uncomment false (raw ++ rest) = let? r := uncomment false rest in Some (ts ++ r).
Definition calm (t : ctok) : bool := match t with CS s => negb (String.eqb s "/") | _ => true end.
Definition quiet (ts : list ctok) : bool := forallb calm ts.

Lemma sheds_nil : sheds [] [].
Proof. intros rest. cbn [app]. now destruct (uncomment false rest). Qed.
Lemma sheds_app a ta b tb : sheds a ta -> sheds b tb -> sheds (a ++ b) (ta ++ tb).
Proof. intros A B rest. rewrite <- app_assoc, A, B. destruct (uncomment false rest); cbn [obind]; [|reflexivity]. now rewrite app_assoc. Qed.
Lemma sheds_one t : calm t = true -> sheds [t] [t].
Proof.
  intros C rest. cbn [app]. destruct rest as [|u rest]; [reflexivity|]. cbn [uncomment].
  assert (E : two "/" "*" t u = false). { destruct t as [a|a|a]; try reflexivity. cbn [calm] in C. apply negb_true_iff in C. cbn [two]. destruct u; try reflexivity. now rewrite C. }
  rewrite E. reflexivity.
Qed.
Lemma sheds_quiet ts : quiet ts = true -> sheds ts ts.
Proof.
  induction ts as [|t ts IH]; intros Q; [apply sheds_nil|]. cbn [quiet forallb] in Q. apply andb_true_iff in Q as [Q1 Q2].
  change (t :: ts) with ([t] ++ ts). apply sheds_app; [now apply sheds_one|now apply IH].
Qed.
Lemma sheds_comment n : sheds [CS "/"; CS "*"; CW n; CS "*"; CS "/"] [].
Proof. intros rest. cbn [app]. change (uncomment false (CS "/" :: CS "*" :: CW n :: CS "*" :: CS "/" :: rest)) with (uncomment false rest). now destruct (uncomment false rest). Qed.

Lemma quiet_app a b : quiet (a ++ b) = quiet a && quiet b.
Proof. apply forallb_app. Qed.
Lemma quiet_sep {A} (p : A -> list tt) l : (forall x, In x l -> quiet (flat (p x)) = true) -> quiet (flat (sep (y ",") p l)) = true.
Proof.
  intros H. induction l as [|x l IH]; [reflexivity|]. destruct l as [|z l]; [apply H; now left|].
  change (sep (y ",") p (x :: z :: l)) with (p x ++ y "," :: sep (y ",") p (z :: l)). rewrite flat_app, flat_cons, !quiet_app, H by now left.
  cbn [flat1 y quiet forallb calm String.eqb Ascii.eqb Bool.eqb negb andb]. apply IH. intros u U. apply H. now right.
Qed.
Lemma quiet_ty : forall t, quiet (flat (pr_ty t)) = true.
Proof.
  fix IH 1. intros [n l|t].
  - destruct l as [|a l]; [reflexivity|]. cbn [pr_ty]. rewrite !flat_cons, flat_app, !quiet_app.
    rewrite quiet_sep; [reflexivity|]. generalize (a :: l). induction l0 as [|z l0 IHl]; intros x I; [destruct I|]. destruct I as [<-|I]; [apply IH|now apply IHl].
  - cbn [pr_ty]. rewrite flat_cons, flat1_G. cbn [app]. cbn [quiet forallb]. rewrite !forallb_app. fold (quiet (flat (pr_ty t))). rewrite IH. reflexivity.
Qed.
Lemma quiet_targs l : quiet (flat (pr_targs l)) = true.
Proof. destruct l as [|a l]; [reflexivity|]. unfold pr_targs. rewrite flat_cons, flat_app, !quiet_app, quiet_sep; [reflexivity|]. intros; apply quiet_ty. Qed.
Lemma quiet_group o l : quiet (flat l) = true -> calm (CS (one o)) = true -> calm (CS (closing o)) = true -> quiet (flat1 (G o l)) = true.
Proof. intros Q A B. rewrite flat1_G. change (CS (one o) :: flat l ++ [CS (closing o)]) with ([CS (one o)] ++ flat l ++ [CS (closing o)]). rewrite !quiet_app, Q. cbn [quiet forallb]. now rewrite A, B. Qed.
Lemma quiet_ex : forall e, quiet (flat (pr_ex e)) = true.
Proof.
  fix IH 1.
  assert (X : forall l, quiet (flat1 (G "(" (sep (y ",") (fun a => pr_label (fst a) ++ pr_ex (snd a)) l))) = true).
  { intros l. apply quiet_group; try reflexivity. apply quiet_sep. induction l as [|z l IHl]; intros x I; [destruct I|]. destruct I as [<-|I]; [|now apply IHl].
    destruct z as [o e]. cbn [fst snd]. rewrite flat_app, quiet_app, IH. destruct o; reflexivity. }
  intros [n|a b|s|n| |n args|n ts m args|c|c args]; try reflexivity; cbn [pr_ex app]; rewrite ?flat_cons, ?flat_app, ?flat_cons, ?quiet_app, ?X, ?quiet_targs; reflexivity.
Qed.

(** ** Writer calls and tokens *)

(** The writer calls exist, and give these tokens once the comments are dropped. *)
Definition gives (n : nat) (st : lstate) (r : rcmds) (ts : list ctok) (n' : nat) (st' : lstate) : Prop :=
  exists cs raw, r = Ok cs /\ sclex n st cs raw n' st' /\ sheds raw ts.

Lemma gives_ok n st cs ts m st' : quiet ts = true -> sclex n st cs ts m st' -> gives n st (Ok cs) ts m st'.
Proof. intros Q H. exists cs, ts. split; [reflexivity|]. split; [exact H|now apply sheds_quiet]. Qed.
Lemma gives_app n st a ta m st1 b tb k st2 : gives n st a ta m st1 -> gives m st1 b tb k st2 -> gives n st (a +++ b) (ta ++ tb) k st2.
Proof. intros (cs & ra & -> & A & A') (ds & rb & -> & B & B'). exists (cs ++ ds), (ra ++ rb). split; [reflexivity|]. split; [eapply clex_app; eassumption|now apply sheds_app]. Qed.
Lemma gives_eq n st r ts ts' m st' : gives n st r ts m st' -> ts = ts' -> gives n st r ts' m st'.
Proof. now intros H <-. Qed.
Lemma gives_write n st s ts st' : quiet ts = true -> sreads s ts st' -> (st = LNone \/ seps st s = true) -> gives n st (Ok [Do (Write s)]) ts n st'.
Proof. intros. now apply gives_ok, clex_write. Qed.
Lemma gives_nil n st : gives n st (Ok []) [] n st.
Proof. apply gives_ok; [reflexivity|]. apply clex_nil. Qed.
Lemma gives_cons n st c cs ta m st1 tb k st2 : gives n st (Ok [c]) ta m st1 -> gives m st1 (Ok cs) tb k st2 -> gives n st (Ok (c :: cs)) (ta ++ tb) k st2.
Proof. intros A B. change (Ok (c :: cs)) with (Ok [c] +++ Ok cs). eapply gives_app; eassumption. Qed.
Lemma gives_line n s ts st' : quiet ts = true -> sreads s ts st' -> closed st' = true -> gives n LNone (Ok [Do (Writeln s)]) ts n LNone.
Proof. intros Q R C. apply gives_ok; [exact Q|]. eapply clex_line; [reflexivity|exact R|exact C]. Qed.
Lemma gives_tabs n : gives n LNone (Ok [Do WriteTabs]) [] n LNone.
Proof. apply gives_ok; [reflexivity|]. apply clex_tabs. Qed.
Lemma gives_newline n st : closed st = true -> gives n st (Ok [Do NewLine]) [] n LNone.
Proof. intros C. apply gives_ok; [reflexivity|]. now apply clex_newline. Qed.
Lemma gives_push n st : gives n st (Ok [PushTab]) [] (S n) st.
Proof. apply gives_ok; [reflexivity|]. apply clex_push. Qed.
Lemma gives_pop n st : gives (S n) st (Ok [PopTab]) [] n st.
Proof. apply gives_ok; [reflexivity|]. apply clex_pop. Qed.

Lemma sname_word n : sname n = true -> word n = true.
Proof. intros H. now apply andb_true_iff in H. Qed.
Lemma sname_ident n : sname n = true -> sident n = true.
Proof. intros H. now apply andb_true_iff in H. Qed.

(** A closed literal and what it reads as. *)
Ltac lit := match goal with |- CmdLex.reads _ ?s _ _ => let r := eval vm_compute in (Code.run swift_quotes LNone s) in
  match r with (?us, ?st) => exact (reads_of swift_quotes s us st eq_refl) end end.

Lemma gives_comment n id : word id = true -> gives n LNone (Ok [Do (Write ("/* " ++ id ++ " */ "))]) [] n LNone.
Proof.
  intros W. eexists _, _. split; [reflexivity|]. split; [|apply (sheds_comment id)]. apply clex_write; [|now left].
  eapply (reads_app _ _ [CS "/"; CS "*"]); [lit| |now left]. eapply (reads_app _ _ [CW id]); [now apply reads_word|lit|right; reflexivity].
Qed.

(** ** Types *)

(** A text that starts a new token after a symbol. *)
Definition fresh (s : string) : bool := match s with "" => false | String c _ => wordc c || Ascii.eqb c "[" end.
Lemma wordy_fresh s : wordy s = true -> fresh s = true.
Proof. destruct s as [|c s]; [discriminate|]. cbn. now intros ->. Qed.
Lemma fresh_app a b : fresh a = true -> fresh (a ++ b)%string = true.
Proof. now destruct a. Qed.
Lemma fresh_sep s t : fresh s = true -> seps (LSym "<") (s ++ t)%string = true /\ seps (LSym "[") (s ++ t)%string = true.
Proof.
  destruct s as [|c s]; [discriminate|]. cbn [fresh append seps]. intros H. apply orb_true_iff in H as [H|H]; [split; now apply wordc_sep|].
  apply Ascii.eqb_eq in H. subst c. now split.
Qed.

Lemma sep_one {A} (p : A -> list tt) x : sep (y ",") p [x] = p x.
Proof. reflexivity. Qed.

Lemma type_reads : forall t, type_ready t = true ->
  exists s st, generate_type_id t = Ok s /\ sreads s (flat (pr_ty (stype t))) st /\ done st = true /\ fresh s = true.
Proof.
  fix IH 1. intros t R.
  assert (PLAIN : forall n, sname n = true -> exists s st, Ok n = Ok s /\ sreads s (flat (pr_ty (STy n []))) st /\ done st = true /\ fresh s = true).
  { intros n K. exists n, (LWord n). apply sname_word in K. split; [reflexivity|]. split; [now apply reads_word|]. split; [reflexivity|now apply wordy_fresh, word_wordy]. }
  destruct t as [m size sg|m size|m|m|m l|m]; cbn [type_ready] in R.
  - rewrite !orb_true_iff, !Nat.eqb_eq in R. destruct R as [[->| ->]| ->]; destruct sg; now apply PLAIN.
  - rewrite !orb_true_iff, !Nat.eqb_eq in R. destruct R as [->| ->]; now apply PLAIN.
  - now apply PLAIN.
  - now apply PLAIN.
  - rewrite !andb_true_iff in R. destruct R as ((K & R) & N).
    assert (J : l <> [] -> exists ss st, mapM generate_type_id l = Ok ss /\ sreads (join ", " ss) (flat (sep (y ",") pr_ty (map stype l))) st /\ done st = true /\ fresh (join ", " ss) = true).
    { clear N. induction l as [|t l IHl]; [congruence|]. intros _. cbn [forallb] in R. apply andb_true_iff in R as [R1 R2].
      destruct (IH t R1) as (s & st & G & L & D & W). cbn [mapM map]. rewrite G. cbn [bind]. destruct l as [|t2 l].
      - cbn [mapM bind map sep join]. exists [s], st. now repeat split.
      - destruct (IHl R2 ltac:(discriminate)) as (ss & st' & -> & L' & D' & W'). cbn [bind]. exists (s :: ss), st'. split; [reflexivity|].
        assert (E : join ", " (s :: ss) = (s ++ ", " ++ join ", " ss)%string) by (destruct ss; [discriminate W'|reflexivity]). rewrite E.
        split; [|split; [exact D'|now apply fresh_app]].
        change (sep (y ",") pr_ty (stype t :: map stype (t2 :: l))) with (pr_ty (stype t) ++ y "," :: sep (y ",") pr_ty (map stype (t2 :: l))).
        rewrite flat_app, flat_cons. eapply reads_app; [exact L| |now apply done_seps].
        eapply reads_app; [lit|exact L'|now left]. }
    assert (NE : l <> []) by (intros ->; destruct (String.eqb m "Vec"); discriminate N).
    destruct (J NE) as (ss & st & G & L & D & W). cbn [generate_type_id]. rewrite G. cbn [bind]. destruct (String.eqb m "Vec") eqn:V.
    + destruct l as [|t [|t2 l]]; try discriminate N. cbn [stype]. rewrite V. cbn [map] in L. rewrite sep_one in L. cbn [pr_ty]. rewrite flat_cons, flat1_G, app_nil_r.
      eexists _, (LSym "]"). split; [reflexivity|]. split; [|split; reflexivity].
      change (CS (one "[") :: flat (pr_ty (stype t)) ++ [CS (closing "[")]) with ([CS "["] ++ flat (pr_ty (stype t)) ++ [CS "]"]).
      eapply (reads_app _ _ [CS "["]); [lit| |right; now apply fresh_sep]. eapply reads_app; [exact L|lit|now apply done_seps].
    + assert (E : stype (TyGeneric m l) = STy m (map stype l)) by (destruct l as [|t [|t2 l]]; [congruence| |reflexivity]; cbn [stype]; now rewrite V). rewrite E.
      assert (E2 : pr_ty (STy m (map stype l)) = w m :: y "<" :: sep (y ",") pr_ty (map stype l) ++ [y ">"]) by (destruct l; [congruence|reflexivity]). rewrite E2.
      pose proof (sname_word m K) as WM. exists (m ++ "<" ++ join ", " ss ++ ">")%string, (LSym ">"). split; [reflexivity|].
      split; [|split; [reflexivity|apply fresh_app, wordy_fresh; now apply word_wordy]].
      rewrite !flat_cons, flat_app. eapply reads_app; [now apply reads_word| |right; reflexivity].
      eapply reads_app; [lit| |right; now apply fresh_sep]. eapply reads_app; [exact L|lit|now apply done_seps].
  - cbn [generate_type_id stype]. unfold other_type, address, among. cbn [existsb]. destruct (String.eqb m "GroupAddress"); [now apply PLAIN|].
    destruct (String.eqb m "CommandsBufferAddress"); [now apply PLAIN|]. now apply PLAIN.
Qed.

Lemma types_reads l : forallb type_ready l = true -> l <> [] ->
  exists ss st, mapM generate_type_id l = Ok ss /\ sreads (join ", " ss) (flat (sep (y ",") pr_ty (map stype l))) st /\ done st = true /\ fresh (join ", " ss) = true.
Proof.
  induction l as [|t l IHl]; [congruence|]. intros R _. cbn [forallb] in R. apply andb_true_iff in R as [R1 R2].
  destruct (type_reads t R1) as (s & st & G & L & D & W). cbn [mapM map]. rewrite G. cbn [bind]. destruct l as [|t2 l].
  - cbn [mapM bind map sep join]. exists [s], st. now repeat split.
  - destruct (IHl R2 ltac:(discriminate)) as (ss & st' & -> & L' & D' & W'). cbn [bind]. exists (s :: ss), st'. split; [reflexivity|].
    assert (E : join ", " (s :: ss) = (s ++ ", " ++ join ", " ss)%string) by (destruct ss; [discriminate W'|reflexivity]). rewrite E.
    split; [|split; [exact D'|now apply fresh_app]].
    change (sep (y ",") pr_ty (stype t :: map stype (t2 :: l))) with (pr_ty (stype t) ++ y "," :: sep (y ",") pr_ty (map stype (t2 :: l))).
    rewrite flat_app, flat_cons. eapply reads_app; [exact L| |now apply done_seps].
    eapply reads_app; [lit|exact L'|now left].
Qed.

(** ** Defaults and literals *)

(** A text that stands for an expression. *)
Definition stands (r : res string) (e : sex) : Prop := exists s st, r = Ok s /\ sreads s (flat (pr_ex e)) st /\ done st = true.

Lemma stands_word n e : word n = true -> pr_ex e = [w n] -> stands (Ok n) e.
Proof. intros W E. exists n, (LWord n). split; [reflexivity|]. rewrite E. split; [now apply reads_word|reflexivity]. Qed.
Ltac closed_text := eexists _, _; split; [reflexivity|]; split; [lit|reflexivity].

Lemma default_stands t : type_ready t = true -> stands (generate_default_const_value t) (sdefault t).
Proof.
  destruct t as [m size sg|m size|m|m|m l|m]; cbn [type_ready]; intros R.
  - now apply stands_word.
  - now apply stands_word.
  - now apply stands_word.
  - now apply stands_word.
  - rewrite !andb_true_iff in R. destruct R as ((K & R) & N). cbn [generate_default_const_value sdefault]. destruct (String.eqb m "Vec") eqn:V; [closed_text|].
    assert (NE : l <> []) by (intros ->; discriminate N).
    destruct (types_reads l R NE) as (ss & st & -> & L & D & W). cbn [bind]. apply sname_word in K.
    eexists _, (LSym ")"). split; [reflexivity|]. split; [|reflexivity].
    assert (E : pr_ex (QMeth m (map stype l) "createDefault" []) =
      w m :: y "<" :: sep (y ",") pr_ty (map stype l) ++ [y ">"; y "."; w "createDefault"; G "(" []])
      by (destruct l; [congruence|]; cbn [pr_ex pr_targs map app]; rewrite <- app_assoc; reflexivity).
    rewrite E, !flat_cons, flat_app. eapply reads_app; [now apply reads_word| |right; reflexivity].
    eapply reads_app; [lit| |right; now apply fresh_sep]. eapply reads_app; [exact L|lit|now apply done_seps].
  - cbn [generate_default_const_value sdefault]. destruct (String.eqb m "String"); [closed_text|]. destruct (String.eqb m "Vec"); [closed_text|]. apply sname_word in R.
    eexists _, (LSym ")"). split; [reflexivity|]. split; [|reflexivity]. eapply (reads_app _ _ [CW m]); [now apply reads_word|lit|right; reflexivity].
Qed.

Lemma literal_stands t l a : type_ready t = true -> literal_ready t l = true -> stands (generate_const_value (ConstLiteral l a) t) (sliteral t l).
Proof.
  intros T R. destruct l as [s|z|x|b].
  - cbn [literal_ready] in R. exists (dq ++ s ++ dq)%string, LNone. split; [reflexivity|]. split; [|reflexivity]. exists [CQ s]. split; [|reflexivity].
    change [CQ s] with ([] ++ ([] ++ [CQ s])). unfold dq. eapply lexes_app; [reflexivity|]. eapply lexes_app; [now apply (lexes_plain _ _ "")|]. now apply lexes_close.
  - assert (X : (0 <= z)%Z -> stands (Ok (show_Z z)) (QNum (show_Z z))) by (intros Z0; apply stands_word; [now apply show_Z_word|reflexivity]).
    destruct t as [m size sg|m size|m|m|m l|m]; try discriminate R.
    + cbn [literal_ready] in R. apply Z.leb_le in R. now apply X.
    + cbn [literal_ready] in R. apply andb_true_iff in R as [A R]. apply Z.leb_le in R. cbn [sliteral generate_const_value].
      unfold address, among in A. cbn [existsb] in A. rewrite orb_false_r in A. destruct (String.eqb m "GroupAddress"); [now apply X|]. cbn [orb] in A. rewrite A. now apply X.
  - destruct t as [m size sg|m size|m|m|m l|m]; try (destruct x; discriminate R). cbn [literal_ready type_ready] in R, T.
    destruct (float_parts_spec x R) as (c & d & E & S & C & CN & D & DN & _). change (KotlinGen.show_float x) with (show_float x) in S. cbn [sliteral]. rewrite E.
    pose proof (digits_words c C CN) as WC. pose proof (digits_words d D DN) as WD.
    assert (X : forall suf, all_word suf = true -> stands (Ok (c ++ "." ++ (d ++ suf))%string) (QFloat c (d ++ suf))).
    { intros suf SW. eexists _, (LWord (d ++ suf)%string). split; [reflexivity|]. split; [|reflexivity]. cbn [pr_ex flat flat_map flat1 w y app].
      pose proof (word_app_l d suf WD SW) as WS. eapply (reads_app _ _ [CW c]); [now apply reads_word| |right; reflexivity].
      eapply (reads_app _ _ [CS "."]); [lit|now apply reads_word|right; now apply word_seps]. }
    rewrite !orb_true_iff, !Nat.eqb_eq in T. destruct T as [->| ->]; cbn [generate_const_value]; rewrite S.
    + rewrite !append_assoc_s. now apply X.
    + specialize (X "" eq_refl). now rewrite append_nil_s in X |- *.
  - destruct t; destruct b; now apply stands_word.
Qed.

(** ** Tokens of the generator *)

(** An expression or a type: between tokens at the start, followed by a comma, a blank or a line feed. *)
Definition ends (n : nat) (r : rcmds) (ts : list ctok) : Prop := exists st, gives n LNone r ts n st /\ done st = true.

Lemma gives_gaps n last t : gives n LNone (Ok (gap_cmds last t)) [] n LNone.
Proof.
  apply gives_ok; [reflexivity|]. destruct last as [last|]; [|apply clex_nil]. cbn [gap_cmds]. induction gaps_pairs as [|p l IH]; [apply clex_nil|]. cbn [flat_map].
  change (@nil ctok) with (@nil ctok ++ []). eapply clex_app; [|exact IH]. destruct (_ || _); [|apply clex_nil]. now apply clex_newline.
Qed.
Lemma gives_list {A} n (g : A -> swift_ir) (p : A -> list tt) l : (forall x, In x l -> gives n LNone (write_token (g x)) (flat (p x)) n LNone) ->
  forall last rest ts, (forall last', gives n LNone (write_tokens_from write_token last' rest) ts n LNone) ->
  gives n LNone (write_tokens_from write_token last (map g l ++ rest)) (flat (flat_map p l) ++ ts) n LNone.
Proof.
  intros H. induction l as [|x l IH]; intros last rest ts R; [apply R|]. cbn [map write_tokens_from flat_map app]. rewrite flat_app, <- app_assoc.
  change (flat (p x) ++ flat (flat_map p l) ++ ts) with ([] ++ (flat (p x) ++ (flat (flat_map p l) ++ ts))). eapply gives_app; [apply gives_gaps|].
  eapply gives_app; [apply H; now left|]. apply IH; [|exact R]. intros z Z. apply H. now right.
Qed.
Lemma gives_single n t ts : gives n LNone (write_token t) ts n LNone -> forall last, gives n LNone (write_tokens_from write_token last [t]) ts n LNone.
Proof.
  intros H last. cbn [write_tokens_from]. rewrite <- (app_nil_l ts). eapply gives_app; [apply gives_gaps|]. rewrite <- (app_nil_r ts). eapply gives_app; [exact H|apply gives_nil].
Qed.

(** Lines with commas between them. *)
Lemma gives_commas {A} n (g : A -> swift_ir) (p : A -> list tt) l : (forall x, In x l -> ends n (write_token (g x)) (flat (p x))) ->
  gives n LNone (write_tokens_comma_separated write_token (map g l)) (flat (sep (y ",") p l)) n LNone.
Proof.
  intros H. induction l as [|x l IH]; [apply gives_nil|]. cbn [map write_tokens_comma_separated].
  destruct (H x (or_introl eq_refl)) as (st & G & D). assert (HL : forall z, In z l -> ends n (write_token (g z)) (flat (p z))) by (intros z Z; apply H; now right).
  specialize (IH HL). destruct l as [|z l].
  - cbn [map sep]. replace (flat (p x)) with ([] ++ flat (p x) ++ [] ++ []) by (cbn [app]; now rewrite app_nil_r). eapply gives_app; [apply gives_tabs|]. eapply gives_app; [exact G|].
    eapply gives_app; [|exact IH]. cbn [app]. apply gives_newline. now apply done_closed.
  - change (sep (y ",") p (x :: z :: l)) with (p x ++ y "," :: sep (y ",") p (z :: l)). rewrite flat_app, flat_cons.
    rewrite <- (app_nil_l (flat (p x) ++ _)). eapply gives_app; [apply gives_tabs|]. eapply gives_app; [exact G|]. cbn [map] in *.
    eapply gives_app; [|exact IH]. cbn [app]. change (flat1 (y ",")) with ([CS ","] ++ []). eapply gives_cons; [apply gives_write; [reflexivity|lit|now apply done_seps]|now apply gives_newline].
Qed.

Lemma sep_map {A B} (p : B -> list tt) (f : A -> B) l : sep (y ",") p (map f l) = sep (y ",") (fun x => p (f x)) l.
Proof.
  induction l as [|x l IH]; [reflexivity|]. destruct l as [|z l]; [reflexivity|].
  change (sep (y ",") p (map f (x :: z :: l))) with (p (f x) ++ y "," :: sep (y ",") p (map f (z :: l))).
  change (sep (y ",") (fun x0 => p (f x0)) (x :: z :: l)) with (p (f x) ++ y "," :: sep (y ",") (fun x0 => p (f x0)) (z :: l)). now rewrite IH.
Qed.
(** [(..)] with arguments on lines of their own, after a name. *)
Lemma arguments_gives {A} n v (g : A -> swift_ir) (p : A -> option string * sex) l :
  (forall x k, In x l -> ends k (write_token (g x)) (flat (pr_arg (p x)))) ->
  gives n (LWord v) (write_arguments write_token (map g l)) (flat (pr_args (map p l))) n (LSym ")").
Proof.
  intros H. unfold pr_args. destruct l as [|x l].
  - cbn [map sep]. apply gives_write; [reflexivity|lit|right; reflexivity].
  - change (write_arguments write_token (map g (x :: l))) with
      (Ok [Do (Write "("); Do NewLine; PushTab] +++ write_tokens_comma_separated write_token (map g (x :: l)) +++ Ok [PopTab; Do WriteTabs; Do (Write ")")]).
    replace (flat [G "(" (sep (y ",") pr_arg (map p (x :: l)))]) with (([CS "("] ++ [] ++ []) ++ flat (sep (y ",") (fun x => pr_arg (p x)) (x :: l)) ++ ([] ++ [] ++ [CS ")"])).
    2: { rewrite flat_cons, flat1_G, sep_map. cbn [flat flat_map]. rewrite !app_nil_r. reflexivity. }
    eapply gives_app.
    { eapply gives_cons; [apply gives_write; [reflexivity|lit|right; reflexivity]|]. eapply gives_cons; [now apply gives_newline|apply gives_push]. }
    eapply gives_app; [apply gives_commas; intros; now apply H|].
    eapply gives_cons; [apply gives_pop|]. eapply gives_cons; [apply gives_tabs|]. apply gives_write; [reflexivity|lit|now left].
Qed.

Lemma block_gives n head hts (body : list swift_ir) bts : quiet hts = true -> sreads head (hts ++ [CS "{"]) (LSym "{") ->
  (forall last, gives (S n) LNone (write_tokens_from write_token last body) bts (S n) LNone) ->
  gives n LNone (write_block write_token head body) (hts ++ CS "{" :: bts ++ [CS "}"]) n LNone.
Proof.
  intros Q R B. unfold write_block. replace (hts ++ CS "{" :: bts ++ [CS "}"]) with (((hts ++ [CS "{"]) ++ []) ++ bts ++ ([] ++ [CS "}"])) by (rewrite app_nil_r, <- app_assoc; reflexivity).
  eapply gives_app; [eapply gives_cons; [eapply gives_line; [|exact R|reflexivity]; rewrite quiet_app, Q; reflexivity|apply gives_push]|].
  eapply gives_app; [apply B|]. eapply gives_cons; [apply gives_pop|]. eapply gives_line; [reflexivity|lit|reflexivity].
Qed.

(** [static func createDefault() -> id { return e }]. *)
Lemma default_gives n id r e : type_ready (TyOther id) = true -> (forall k, ends k (write_token r) (flat (pr_ex e))) ->
  gives n LNone (write_token (SStructMethod "createDefault" true (TyOther id) [] [SReturnStatement r])) (flat (pr_decl (create_default id e))) n LNone.
Proof.
  intros K H. destruct (type_reads _ K) as (t & st & G & L & D & _). cbn [write_token]. rewrite G. cbn [bind]. unfold create_default.
  replace (flat (pr_decl (ZFunc true "createDefault" (stype (TyOther id)) e))) with
    (([CW "static"; CW "func"; CW "createDefault"; CS "("; CS ")"; CS "->"] ++ flat (pr_ty (stype (TyOther id)))) ++ CS "{" :: (CW "return" :: flat (pr_ex e)) ++ [CS "}"]).
  2: { cbn [pr_decl]. rewrite !flat_app. change (flat [Code.G "{" (w "return" :: pr_ex e)]) with (flat1 (Code.G "{" (w "return" :: pr_ex e)) ++ []). rewrite flat1_G, app_nil_r, <- !app_assoc. reflexivity. }
  apply block_gives.
  - rewrite quiet_app, quiet_ty. reflexivity.
  - change (camel "createDefault") with "createDefault". rewrite <- app_assoc. eapply (reads_app _ _ [CW "static"; CW "func"]); [lit| |now left].
    eapply (reads_app _ _ [CW "createDefault"]); [lit| |right; reflexivity].
    eapply (reads_app _ _ [CS "("; CS ")"; CS "->"]); [lit| |now left]. eapply reads_app; [exact L|lit|now apply done_seps].
  - apply gives_single. destruct (H (S n)) as (st' & G' & D'). cbn [write_token].
    replace (CW "return" :: flat (pr_ex e)) with (([] ++ [CW "return"]) ++ flat (pr_ex e) ++ []) by (rewrite app_nil_r; reflexivity).
    eapply gives_app; [eapply gives_cons; [apply gives_tabs|apply gives_write; [reflexivity|lit|now left]]|]. eapply gives_app; [exact G'|]. apply gives_newline. now apply done_closed.
Qed.

(** ** Declarations *)

Lemma field_gives n id t : word (camel id) = true -> type_ready t = true ->
  gives n LNone (write_token (SStructField id t)) (flat (pr_decl (ZVar (camel id) (stype t)))) n LNone.
Proof.
  intros W R. destruct (type_reads t R) as (s & st & G & L & D & _). cbn [write_token]. rewrite G. cbn [bind]. cbn [pr_decl]. rewrite flat_app.
  apply (gives_line _ _ _ st); [rewrite quiet_app, quiet_ty; reflexivity| |now apply done_closed].
  eapply (reads_app _ _ [CW "var"]); [lit| |now left]. eapply (reads_app _ _ [CW (camel id)]); [now apply reads_word| |right; reflexivity].
  eapply (reads_app _ _ [CS ":"]); [lit|exact L|now left].
Qed.
Lemma named_ends n id t : word (camel id) = true -> type_ready t = true ->
  ends n (write_token (SAssignStructNamedArgument id t None)) (flat (pr_arg (Some (camel id), sdefault t))).
Proof.
  intros W R. destruct (default_stands t R) as (s & st & G & L & D). exists st. split; [|exact D]. cbn [write_token]. rewrite G. cbn [bind]. unfold pr_arg. cbn [fst snd pr_label]. rewrite flat_app.
  apply gives_write; [rewrite quiet_app, quiet_ex; reflexivity| |now left].
  eapply (reads_app _ _ [CW (camel id)]); [now apply reads_word| |right; reflexivity]. eapply (reads_app _ _ [CS ":"]); [lit|exact L|now left].
Qed.
Lemma positional_ends n id t : match id with Some id => word (camel id) | None => true end = true -> type_ready t = true ->
  ends n (write_token (SAssignArgument id t None)) (flat (pr_arg (None, sdefault t))).
Proof.
  intros W R. destruct (default_stands t R) as (s & st & G & L & D). exists st. split; [|exact D]. cbn [write_token]. rewrite G. cbn [bind]. unfold pr_arg. cbn [fst snd pr_label app].
  rewrite <- (app_nil_l (flat _)). eapply (gives_app _ _ _ _ _ LNone); [destruct id; [now apply gives_comment|apply gives_nil]|]. apply gives_write; [apply quiet_ex|exact L|now left].
Qed.
Lemma param_ends n id t : match id with Some id => word id | None => true end = true -> type_ready t = true ->
  ends n (write_token (SEnumCaseType id t)) (flat (pr_ty (stype t))).
Proof.
  intros W R. destruct (type_reads t R) as (s & st & G & L & D & _). exists st. split; [|exact D]. cbn [write_token]. rewrite G. cbn [bind]. destruct id as [id|]; [|apply gives_write; [apply quiet_ty|exact L|now left]].
  eexists _, _. split; [reflexivity|]. split; [|rewrite <- (app_nil_l (flat _)); apply sheds_app; [apply (sheds_comment id)|apply sheds_quiet, quiet_ty]].
  apply clex_write; [|now left]. change ([CS "/"; CS "*"; CW id; CS "*"; CS "/"] ++ flat (pr_ty (stype t))) with ([CS "/"; CS "*"] ++ [CW id] ++ [CS "*"; CS "/"] ++ flat (pr_ty (stype t))).
  eapply (reads_app _ _ [CS "/"; CS "*"]); [lit| |now left]. eapply (reads_app _ _ [CW id]); [now apply reads_word| |right; reflexivity].
  eapply (reads_app _ _ [CS "*"; CS "/"]); [lit|exact L|now left].
Qed.

Lemma struct_flat n b : flat (pr_decl (ZStruct n b)) = [CW "struct"; CW n] ++ CS "{" :: flat (flat_map pr_decl b) ++ [CS "}"].
Proof. cbn [pr_decl]. rewrite !flat_cons, flat1_G. cbn [flat flat_map]. rewrite app_nil_r. reflexivity. Qed.
Lemma enum_flat n b : flat (pr_decl (ZEnum n b)) = [CW "enum"; CW n] ++ CS "{" :: flat (flat_map pr_decl b) ++ [CS "}"].
Proof. cbn [pr_decl]. rewrite !flat_cons, flat1_G. cbn [flat flat_map]. rewrite app_nil_r. reflexivity. Qed.
Lemma flat_map_of {A} (p : A -> sdecl) l : flat_map pr_decl (map p l) = flat_map (fun x => pr_decl (p x)) l.
Proof. induction l as [|x l IH]; [reflexivity|]. cbn [map flat_map]. now rewrite IH. Qed.

Lemma sname_other id : sname id = true -> sname (other_type id) = true.
Proof. intros K. unfold other_type. now destruct (address id). Qed.

Lemma struct_gives n s : struct_ready s = true -> gives n LNone (write_token (generate_struct_model s true)) (flat (pr_decl (struct_decl s))) n LNone.
Proof.
  unfold struct_ready. rewrite !andb_true_iff. intros ((K & P) & F). rewrite forallb_forall in F.
  assert (F' : forall f, In f (sn_fields s) -> word (camel (sf_name f)) = true /\ type_ready (sf_type f) = true).
  { intros f I. specialize (F f I). apply andb_true_iff in F as [F1 F2]. split; [now apply sname_word|exact F2]. }
  unfold generate_struct_model, struct_decl. cbn [write_token]. rewrite struct_flat. pose proof (sname_word _ P) as WP. apply block_gives; [reflexivity| |].
  - eapply (reads_app _ _ [CW "struct"]); [lit| |now left]. eapply (reads_app _ _ [CW (pascal (sn_id s))]); [now apply reads_word|lit|right; reflexivity].
  - intros last. rewrite flat_map_app, flat_map_of. rewrite flat_app. apply gives_list.
    + intros f I. destruct (F' f I). now apply field_gives.
    + apply gives_single. cbn [flat_map]. rewrite app_nil_r. apply default_gives; [exact K|]. intros k. exists (LSym ")"). split; [|reflexivity]. cbn [write_token].
      destruct (type_reads (TyOther (sn_id s)) K) as (t & st & G & L & D & _). rewrite G. cbn [bind].
      assert (E : t = other_type (sn_id s)). { cbn [generate_type_id] in G. unfold other_type, address, among. cbn [existsb].
        destruct (String.eqb (sn_id s) "GroupAddress"); [now injection G|]. destruct (String.eqb (sn_id s) "CommandsBufferAddress"); now injection G. }
      subst t. pose proof (sname_word _ (sname_other _ K)) as WO. cbn [pr_ex]. rewrite flat_cons. eapply gives_app; [apply gives_write; [reflexivity|now apply reads_word|now left]|].
      apply (arguments_gives k (other_type (sn_id s)) _ (fun f => (Some (camel (sf_name f)), sdefault (sf_type f)))). intros f j I. destruct (F' f I). now apply named_ends.
Qed.

Lemma case_flat c ts : ts <> [] -> flat (pr_decl (ZCase c ts)) = [CW "case"; CW c; CS "("] ++ flat (sep (y ",") pr_ty ts) ++ [CS ")"].
Proof. destruct ts as [|t ts]; [congruence|]. intros _. cbn [pr_decl]. rewrite !flat_cons, flat1_G. cbn [flat flat_map]. rewrite app_nil_r. reflexivity. Qed.
(** The parameters of a case with the names in their comments. *)
Definition case_fields (i : enum_item) : list (option string * type_id) :=
  match i with
  | ItemEmpty _ _ => []
  | ItemTuple _ _ vs => map (fun v => (None, tf_type v)) vs
  | ItemStruct _ _ fs => map (fun f => (Some (sf_name f), sf_type f)) fs
  end.
Lemma case_fields_types i : map snd (case_fields i) = case_types i.
Proof. destruct i; [reflexivity| |]; cbn [case_fields case_types]; rewrite map_map; reflexivity. Qed.
Lemma case_parameters_fields i : case_parameters i = map (fun p => SEnumCaseType (fst p) (snd p)) (case_fields i).
Proof. destruct i; [reflexivity| |]; cbn [case_fields case_parameters]; rewrite map_map; reflexivity. Qed.
Lemma case_fields_ready i : case_ready i = true -> forall p, In p (case_fields i) ->
  type_ready (snd p) = true /\ match fst p with Some id => word id | None => true end = true /\ match fst p with Some id => word (camel id) | None => true end = true.
Proof.
  unfold case_ready. rewrite !andb_true_iff. intros ((_ & T) & N) p I. rewrite forallb_forall in T. split; [apply T; rewrite <- case_fields_types; now apply in_map|].
  destruct i as [a c|a c vs|a c fs]; cbn [case_fields] in I; [destruct I| |]; apply in_map_iff in I as (f & <- & I); cbn [fst]; [now split|].
  rewrite forallb_forall in N. specialize (N f I). now apply andb_true_iff in N.
Qed.

Lemma case_gives n i : case_ready i = true ->
  gives n LNone (write_token (SEnumCase (item_id i) (case_parameters i))) (flat (pr_decl (ZCase (camel (item_id i)) (map stype (case_types i))))) n LNone.
Proof.
  intros R. pose proof (case_fields_ready i R) as F. unfold case_ready in R. rewrite !andb_true_iff in R. destruct R as ((K & _) & _). apply sname_word in K.
  cbn [write_token]. rewrite case_parameters_fields, <- case_fields_types. destruct (case_fields i) as [|p l].
  - cbn [map pr_decl]. apply (gives_line _ _ _ (LWord (camel (item_id i)))); [reflexivity| |reflexivity]. eapply (reads_app _ _ [CW "case"]); [lit|now apply reads_word|now left].
  - change (match map (fun p => SEnumCaseType (fst p) (snd p)) (p :: l) with [] => ?a | _ => ?b end) with b. rewrite case_flat by discriminate.
    replace ([CW "case"; CW (camel (item_id i)); CS "("] ++ flat (sep (y ",") pr_ty (map stype (map snd (p :: l)))) ++ [CS ")"]) with
      (([CW "case"; CW (camel (item_id i)); CS "("] ++ []) ++ flat (sep (y ",") (fun p => pr_ty (stype (snd p))) (p :: l)) ++ ([] ++ [CS ")"])).
    2: { rewrite app_nil_r, map_map, sep_map. reflexivity. }
    eapply gives_app.
    { eapply gives_cons; [|apply gives_push]. apply (gives_line _ _ _ (LSym "(")); [reflexivity| |reflexivity]. eapply (reads_app _ _ [CW "case"]); [lit| |now left].
      eapply (reads_app _ _ [CW (camel (item_id i))]); [now apply reads_word|lit|right; reflexivity]. }
    eapply gives_app; [apply gives_commas; intros q Q; destruct (F q Q) as (F1 & F2 & F3); now apply param_ends|].
    eapply gives_cons; [apply gives_pop|]. eapply gives_line; [reflexivity|lit|reflexivity].
Qed.

Lemma first_ends n i : case_ready i = true ->
  ends n (write_token match i with
                      | ItemEmpty _ id => SFieldAccess None id
                      | ItemTuple _ id values => SCall ("." ++ camel id) (map (fun value => SAssignArgument None (tf_type value) None) values)
                      | ItemStruct _ id fields => SCall ("." ++ camel id) (map (fun field => SAssignArgument (Some (sf_name field)) (sf_type field) None) fields)
                      end) (flat (pr_ex (first_value i))).
Proof.
  intros R. pose proof (case_fields_ready i R) as F. unfold case_ready in R. rewrite !andb_true_iff in R. destruct R as ((K & _) & _). apply sname_word in K.
  assert (X : forall c, word (camel c) = true -> sreads ("." ++ camel c) [CS "."; CW (camel c)] (LWord (camel c))).
  { intros c W. eapply (reads_app _ _ [CS "."]); [lit|now apply reads_word|right; now apply word_seps]. }
  assert (Y : forall c l, word (camel c) = true -> (forall p, In p l -> type_ready (snd p) = true /\ match fst p with Some id => word (camel id) | None => true end = true) ->
    ends n (write_token (SCall ("." ++ camel c) (map (fun p => SAssignArgument (fst p) (snd p) None) l))) (flat (pr_ex (QCaseCall (camel c) (map (fun t => (None, sdefault t)) (map snd l)))))).
  { intros c l W H. exists (LSym ")"). split; [|reflexivity]. cbn [write_token pr_ex]. rewrite map_map. rewrite flat_app.
    eapply gives_app; [apply gives_write; [reflexivity|now apply X|now left]|].
    apply (arguments_gives n (camel c) _ (fun p : option string * type_id => (None, sdefault (snd p)))). intros p k I. destruct (H p I). now apply positional_ends. }
  destruct i as [a c|a c vs|a c fs]; cbn [first_value item_id case_types case_fields] in *.
  - exists (LWord (camel c)). split; [|reflexivity]. cbn [write_token]. change (flat (pr_ex (QCase (camel c)))) with ([] ++ [CS "."; CW (camel c)]).
    eapply gives_app; [apply gives_nil|]. apply gives_write; [reflexivity|now apply X|now left].
  - specialize (Y c (map (fun v => (None, tf_type v)) vs) K ltac:(intros p I; destruct (F p I) as (F1 & F2 & F3); now split)). rewrite !map_map in Y. rewrite map_map. exact Y.
  - specialize (Y c (map (fun f => (Some (sf_name f), sf_type f)) fs) K ltac:(intros p I; destruct (F p I) as (F1 & F2 & F3); now split)). rewrite !map_map in Y. rewrite map_map. exact Y.
Qed.

Lemma enum_gives n e : enum_ready e = true -> exists t, generate_enum_model e = Ok t /\ gives n LNone (write_token t) (flat (pr_decl (enum_decl e))) n LNone.
Proof.
  unfold enum_ready. rewrite !andb_true_iff. intros (((K & P) & N) & F). rewrite forallb_forall in F. unfold generate_enum_model, enum_decl. destruct (en_items e) as [|i items]; [discriminate|].
  eexists. split; [reflexivity|]. cbn [write_token]. rewrite enum_flat. pose proof (sname_word _ P) as WP. apply block_gives; [reflexivity| |].
  - eapply (reads_app _ _ [CW "enum"]); [lit| |now left]. eapply (reads_app _ _ [CW (pascal (en_id e))]); [now apply reads_word|lit|right; reflexivity].
  - intros last. rewrite flat_map_app, flat_map_of. rewrite flat_app. apply gives_list.
    + intros c I. now apply case_gives, F.
    + apply gives_single. cbn [flat_map]. rewrite app_nil_r. apply default_gives; [exact K|]. intros k. apply first_ends, F. now left.
Qed.

(** ** Constants *)

Definition const_item_decl (i : const_item) : sdecl :=
  match i with
  | ConstItemValue n t (ConstLiteral l _) => ZLet (camel n) (stype t) (sliteral t l)
  | ConstItemNode c => const_struct c
  end.
Definition const_item_ir (i : const_item) : swift_ir :=
  match i with
  | ConstItemValue id ty value => SStructConstField id ty value
  | ConstItemNode node => generate_const_block node
  end.

Lemma value_gives n id t l a : word (camel id) = true -> type_ready t = true -> literal_ready t l = true ->
  gives n LNone (write_token (SStructConstField id t (ConstLiteral l a))) (flat (pr_decl (ZLet (camel id) (stype t) (sliteral t l)))) n LNone.
Proof.
  intros W T R. destruct (type_reads t T) as (s & st & G & L & D & _). destruct (literal_stands t l a T R) as (v & st' & G' & L' & D'). cbn [write_token]. rewrite G. cbn [bind]. rewrite G'. cbn [bind].
  cbn [pr_decl]. rewrite !flat_app, (flat_cons (y "=")). apply (gives_line _ _ _ st'); [rewrite !quiet_app, quiet_ty, quiet_ex; reflexivity| |now apply done_closed].
  eapply (reads_app _ _ [CW "static"; CW "let"]); [lit| |now left]. eapply (reads_app _ _ [CW (camel id)]); [now apply reads_word| |right; reflexivity].
  eapply (reads_app _ _ [CS ":"]); [lit| |now left]. eapply reads_app; [exact L| |now apply done_seps]. eapply (reads_app _ _ [CS "="]); [lit|exact L'|now left].
Qed.

Lemma const_gives c : const_ready c = true -> forall n, gives n LNone (write_token (generate_const_block c)) (flat (pr_decl (const_struct c))) n LNone.
Proof.
  induction c as [id items IH] using const_ind2. intros R n. cbn [const_ready] in R. apply andb_true_iff in R as [K R]. apply sname_word in K. rewrite forallb_forall in R.
  change (generate_const_block (ConstNode id items)) with (SStruct id (map const_item_ir items)).
  change (const_struct (ConstNode id items)) with (ZStruct (pascal id) (map const_item_decl items)). cbn [write_token]. rewrite struct_flat. apply block_gives; [reflexivity| |].
  - eapply (reads_app _ _ [CW "struct"]); [lit| |now left]. eapply (reads_app _ _ [CW (pascal id)]); [now apply reads_word|lit|right; reflexivity].
  - intros last. rewrite flat_map_of. rewrite <- (app_nil_r (map const_item_ir items)), <- (app_nil_r (flat _)). apply gives_list; [|intros; apply gives_nil].
    intros i I. specialize (R i I). destruct i as [m t [l a]|c].
    + rewrite !andb_true_iff in R. destruct R as ((R1 & R2) & R3). apply value_gives; [now apply sname_word|assumption|assumption].
    + cbn [const_item_ir const_item_decl]. now apply IH.
Qed.

(** ** Files *)

Lemma stringify_reads ts l : (forall last, gives 0 LNone (write_tokens_from write_token last ts) (flat (flat_map pr_decl l)) 0 LNone) ->
  exists text raw, stringify_tokens ts = Ok text /\ code_tokens swift_quotes text = Some raw /\ uncomment false raw = Some (flat (flat_map pr_decl l)).
Proof.
  intros H. destruct (H None) as (cs & raw & E & C & S). unfold stringify_tokens. rewrite E. cbn [bind]. destruct (clex_show _ _ _ C) as (text & T & R). exists text, raw. split; [exact T|]. split; [exact R|].
  specialize (S []). rewrite app_nil_r in S. rewrite S. cbn [uncomment obind]. now rewrite app_nil_r.
Qed.

Definition node_decls (n : ast_node) : list sdecl := match n with NStruct n => [struct_decl n] | NEnum n => [enum_decl n] | _ => [] end.
Lemma models_gives ast : models_ready ast = true -> exists ts, generate_models ast = Ok ts /\
  forall last, gives 0 LNone (write_tokens_from write_token last ts) (flat (flat_map pr_decl (models_tree ast))) 0 LNone.
Proof.
  intros R. unfold models_ready in R. unfold generate_models.
  assert (X : exists parts, mapM (fun node => match node with NStruct node => Ok [generate_struct_model node true] | NEnum node => let* t := generate_enum_model node in Ok [t] | _ => Ok [] end) ast = Ok parts /\
    forall last, gives 0 LNone (write_tokens_from write_token last (concat parts)) (flat (flat_map pr_decl (models_tree ast))) 0 LNone).
  { induction ast as [|a ast IH]; [exists []; split; [reflexivity|intros; apply gives_nil]|]. cbn [forallb] in R. apply andb_true_iff in R as [R1 R2].
    destruct (IH R2) as (parts & E & G). cbn [mapM]. rewrite E.
    change (models_tree (a :: ast)) with (node_decls a ++ models_tree ast). rewrite flat_map_app, flat_app.
    destruct a as [e|s|f|d|c]; cbn [bind node_decls flat_map].
    3,4,5: exists ([] :: parts); split; [reflexivity|exact G].
    - destruct (enum_gives 0 e R1) as (t & -> & GT). cbn [bind]. exists ([t] :: parts). split; [reflexivity|]. intros last. cbn [concat app write_tokens_from]. rewrite app_nil_r.
      match goal with |- gives _ _ _ ?ts _ _ => change ts with ([] ++ ts) end. eapply gives_app; [apply gives_gaps|]. eapply gives_app; [exact GT|]. apply G.
    - exists ([generate_struct_model s true] :: parts). split; [reflexivity|]. intros last. cbn [concat app write_tokens_from]. rewrite app_nil_r.
      match goal with |- gives _ _ _ ?ts _ _ => change ts with ([] ++ ts) end. eapply gives_app; [apply gives_gaps|]. eapply gives_app; [now apply struct_gives|]. apply G. }
  destruct X as (parts & -> & G). cbn [bind]. now exists (concat parts).
Qed.

Lemma consts_gives ast : consts_ready ast = true ->
  forall last, gives 0 LNone (write_tokens_from write_token last (generate_consts ast)) (flat (flat_map pr_decl (consts_tree ast))) 0 LNone.
Proof.
  unfold consts_ready, generate_consts. induction ast as [|a ast IH]; intros R last; [apply gives_nil|]. cbn [forallb] in R. apply andb_true_iff in R as [R1 R2].
  destruct a as [e|s|f|d|c]; try exact (IH R2 last). cbn [flat_map app write_tokens_from]. change (consts_tree (NConst c :: ast)) with (const_struct c :: consts_tree ast).
  cbn [flat_map]. rewrite flat_app. match goal with |- gives _ _ _ ?ts _ _ => change ts with ([] ++ ts) end. eapply gives_app; [apply gives_gaps|].
  eapply gives_app; [now apply const_gives|]. apply IH, R2.
Qed.

(** ** The trees are well formed *)

Lemma shead_ident n : sident n = true -> shead n = true.
Proof. unfold shead. now intros ->. Qed.

Lemma wf_type : forall t, type_ready t = true -> wf_ty (stype t) = true.
Proof.
  fix IH 1. intros [n size sg|n size|n|n|id l|id] R; cbn [type_ready] in R; cbn [stype wf_ty forallb].
  - rewrite andb_true_r. rewrite !orb_true_iff, !Nat.eqb_eq in R. destruct R as [[->| ->]| ->]; destruct sg; reflexivity.
  - destruct (Nat.eqb size 4); reflexivity.
  - reflexivity.
  - rewrite andb_true_r. now apply sname_ident.
  - rewrite !andb_true_iff in R. destruct R as ((K & F) & _).
    assert (X : forallb wf_ty (map stype l) = true).
    { revert F. induction l as [|t l IHl]; [reflexivity|]. cbn [forallb map]. intros F. apply andb_true_iff in F as [F1 F2]. now rewrite (IH t F1), (IHl F2). }
    destruct l as [|t [|t2 l]].
    + cbn. now rewrite (sname_ident _ K).
    + cbn [map forallb] in X. destruct (String.eqb id "Vec"); cbn [wf_ty forallb]; [now rewrite andb_true_r in X|]. now rewrite (sname_ident _ K), X.
    + cbn [wf_ty]. rewrite (sname_ident _ K). exact X.
  - rewrite andb_true_r. apply sname_ident. now apply sname_other.
Qed.
Lemma wf_types l : forallb type_ready l = true -> forallb wf_ty (map stype l) = true.
Proof. intros F. rewrite forallb_forall in *. intros x I. apply in_map_iff in I as (t & <- & I). now apply wf_type, F. Qed.

Lemma wf_default t : type_ready t = true -> wf_ex (sdefault t) = true.
Proof.
  destruct t as [n size sg|n size|n|n|id l|id]; intros R; cbn [type_ready] in R; cbn [sdefault]; try reflexivity.
  - rewrite !andb_true_iff in R. destruct R as ((K & F) & _). destruct (String.eqb id "Vec"); [reflexivity|]. cbn [wf_ex forallb]. rewrite (shead_ident _ (sname_ident _ K)), (wf_types _ F). reflexivity.
  - destruct (String.eqb id "String"); [reflexivity|]. destruct (String.eqb id "Vec"); [reflexivity|]. cbn [wf_ex forallb]. now rewrite (shead_ident _ (sname_ident _ R)).
Qed.

Lemma wf_literal t l : literal_ready t l = true -> wf_ex (sliteral t l) = true.
Proof.
  intros R. destruct l as [s|z|x|b]; cbn [sliteral].
  - reflexivity.
  - cbn [wf_ex]. assert (Z0 : (0 <= z)%Z) by (destruct t; cbn [literal_ready] in R; try discriminate; [|apply andb_true_iff in R as [_ R]]; now apply Z.leb_le in R). clear R.
    destruct z as [|p|p]; [reflexivity| |lia]. rewrite <- (append_nil_s (show_Z _)). apply digits_numeric; cbn [show_Z]; [apply show_N_digits|apply show_N_nonempty].
  - destruct t; cbn [literal_ready] in R; try discriminate. destruct (float_parts_spec x R) as (c & d & E & S & C & CN & D & DN & _). rewrite E. cbn [wf_ex].
    rewrite (digits_numeric d D DN). rewrite <- (append_nil_s c). now rewrite (digits_numeric c C CN).
  - now destruct b.
Qed.

Lemma wf_create id e : sname id = true -> wf_ex e = true -> wf_decl (create_default id e) = true.
Proof. intros K E. unfold create_default. cbn [wf_decl]. rewrite (wf_type (TyOther id) K), E. reflexivity. Qed.
Lemma wf_struct s : struct_ready s = true -> wf_decl (struct_decl s) = true.
Proof.
  unfold struct_ready. rewrite !andb_true_iff. intros ((K1 & K2) & F). rewrite forallb_forall in F.
  assert (F' : forall f, In f (sn_fields s) -> sident (camel (sf_name f)) = true /\ type_ready (sf_type f) = true).
  { intros f I. specialize (F f I). apply andb_true_iff in F as [F1 F2]. split; [now apply sname_ident|exact F2]. }
  unfold struct_decl. cbn [wf_decl]. rewrite (sname_ident _ K2), forallb_app. cbn [forallb]. rewrite wf_create; [|exact K1|].
  - rewrite !andb_true_r. cbn [andb]. apply forallb_forall. intros p I. apply in_map_iff in I as (f & <- & I). destruct (F' f I) as [K T]. cbn [wf_decl]. now rewrite K, (wf_type _ T).
  - cbn [wf_ex]. rewrite (shead_ident _ (sname_ident _ (sname_other _ K1))). cbn [andb]. apply forallb_forall. intros p I. apply in_map_iff in I as (f & <- & I). destruct (F' f I) as [K T].
    cbn [fst snd wf_label]. now rewrite K, (wf_default _ T).
Qed.
Lemma wf_enum e : enum_ready e = true -> wf_decl (enum_decl e) = true.
Proof.
  unfold enum_ready. rewrite !andb_true_iff. intros (((K1 & K2) & N) & F). rewrite forallb_forall in F.
  assert (F' : forall i, In i (en_items e) -> sident (camel (item_id i)) = true /\ forallb type_ready (case_types i) = true).
  { intros i I. specialize (F i I). unfold case_ready in F. rewrite !andb_true_iff in F. destruct F as ((F1 & F2) & _). split; [now apply sname_ident|exact F2]. }
  unfold enum_decl. cbn [wf_decl]. rewrite (sname_ident _ K2), forallb_app. cbn [andb]. apply andb_true_iff. split.
  - apply forallb_forall. intros p I. apply in_map_iff in I as (i & <- & I). destruct (F' i I) as [K T]. cbn [wf_decl]. now rewrite K, (wf_types _ T).
  - destruct (en_items e) as [|i l]; [reflexivity|]. cbn [forallb]. rewrite andb_true_r. apply wf_create; [exact K1|]. destruct (F' i (or_introl eq_refl)) as [K T].
    assert (X : wf_ex (QCaseCall (camel (item_id i)) (map (fun t => (None, sdefault t)) (case_types i))) = true).
    { cbn [wf_ex]. rewrite K. cbn [andb]. rewrite forallb_forall in T. apply forallb_forall. intros p I. apply in_map_iff in I as (t & <- & I). cbn [fst snd wf_label andb]. apply wf_default, T, I. }
    destruct i; cbn [first_value]; [exact K|exact X|exact X].
Qed.
Lemma wf_models ast : models_ready ast = true -> forallb wf_decl (models_tree ast) = true.
Proof.
  unfold models_ready. induction ast as [|a ast IH]; [reflexivity|]. cbn [forallb]. intros R. apply andb_true_iff in R as [R1 R2].
  change (models_tree (a :: ast)) with (node_decls a ++ models_tree ast). rewrite forallb_app, (IH R2), andb_true_r.
  destruct a as [e|s|f|d|c]; try reflexivity; cbn [node_decls forallb]; [now rewrite (wf_enum e R1)|now rewrite (wf_struct s R1)].
Qed.
Lemma wf_const c : const_ready c = true -> wf_decl (const_struct c) = true.
Proof.
  induction c as [id items IH] using const_ind2. cbn [const_ready]. intros R. apply andb_true_iff in R as [K R]. rewrite forallb_forall in R.
  change (const_struct (ConstNode id items)) with (ZStruct (pascal id) (map const_item_decl items)). cbn [wf_decl forallb]. rewrite (sname_ident _ K). cbn [andb].
  apply forallb_forall. intros d I. apply in_map_iff in I as (i & <- & I). specialize (R i I). destruct i as [m t [l a]|c]; cbn [const_item_decl wf_decl].
  - rewrite !andb_true_iff in R. destruct R as ((R1 & R2) & R3). now rewrite (sname_ident _ R1), (wf_type _ R2), (wf_literal _ _ R3).
  - now apply IH.
Qed.
Lemma wf_consts ast : consts_ready ast = true -> forallb wf_decl (consts_tree ast) = true.
Proof.
  unfold consts_ready. induction ast as [|a ast IH]; [reflexivity|]. cbn [forallb]. intros R. apply andb_true_iff in R as [R1 R2].
  destruct a as [e|s|f|d|c]; try exact (IH R2). change (consts_tree (NConst c :: ast)) with (const_struct c :: consts_tree ast). cbn [forallb]. now rewrite (wf_const c R1), (IH R2).
Qed.

Theorem models_file ast : models_ready ast = true ->
  exists text, (let* tokens := generate_models ast in stringify_tokens tokens) = Ok text /\ swift_file text = Some (models_tree ast).
Proof.
  intros R. destruct (models_gives ast R) as (ts & E & G). destruct (stringify_reads ts (models_tree ast) G) as (text & raw & S & C & U).
  exists text. rewrite E. cbn [bind]. split; [exact S|]. eapply read_file; [exact C|exact U|now apply wf_models].
Qed.
Theorem consts_file ast : consts_ready ast = true ->
  exists text, stringify_tokens (generate_consts ast) = Ok text /\ swift_file text = Some (consts_tree ast).
Proof.
  intros R. destruct (stringify_reads _ (consts_tree ast) (consts_gives ast R)) as (text & raw & S & C & U).
  exists text. split; [exact S|]. eapply read_file; [exact C|exact U|now apply wf_consts].
Qed.
