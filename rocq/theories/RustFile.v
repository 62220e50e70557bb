(** Reading a generated Rust file gives its tree. *)
Require Import Coq.Strings.String Coq.Strings.Ascii.
Require Import Coq.NArith.NArith Coq.ZArith.ZArith Coq.Lists.List Coq.Bool.Bool Coq.micromega.Lia.
Require Import Verif.Base Verif.F64 Verif.Ast Verif.Writer Verif.Code Verif.RustSyntax Verif.RustPrint
  Verif.CodeLex Verif.RustGen Verif.RustTree Verif.LexSpec Verif.NumText Verif.RustLexed Verif.RustLexedEnum
  Verif.RustLexedConst Verif.RustLexedRpc.
Import ListNotations.
Local Open Scope string_scope.
Local Open Scope list_scope.

(** ** Grouping loses nothing *)

Fixpoint before (stack : list (ascii * list tt)) : list ctok :=
  match stack with
  | [] => []
  | (o, b) :: stack' => before stack' ++ flat (rev b) ++ [CS (one o)]
  end.
Lemma opener_one t o : opener t = Some o -> t = CS (one o) /\ open_ok o = true.
Proof.
  destruct t as [|s|]; try discriminate. cbn.
  destruct (String.eqb_spec s "("); [intros E; injection E as <-; now subst|].
  destruct (String.eqb_spec s "{"); [intros E; injection E as <-; now subst|].
  destruct (String.eqb_spec s "["); [intros E; injection E as <-; now subst|]. discriminate.
Qed.
Lemma group_loop_flat : forall ts cur stack l, group_loop ts cur stack = Some l ->
  flat l = before stack ++ flat (rev cur) ++ ts.
Proof.
  induction ts as [|t ts IH]; intros cur stack l; cbn [group_loop].
  - destruct stack; [|discriminate]. intros E. injection E as <-. now rewrite app_nil_r.
  - destruct (opener t) as [o|] eqn:O.
    + intros E. rewrite (IH _ _ _ E). apply opener_one in O as [-> _]. cbn [before rev flat flat_map].
      rewrite <- !app_assoc. reflexivity.
    + destruct (closer t).
      * destruct stack as [|[o b] stack]; [discriminate|]. destruct (closes o t) eqn:C; [|discriminate].
        intros E. rewrite (IH _ _ _ E). cbn [before rev]. rewrite flat_app. flats.
        destruct t as [|s|]; try discriminate. cbn [closes] in C. apply String.eqb_eq in C. subst s. reflexivity.
      * intros E. rewrite (IH _ _ _ E). cbn [rev]. rewrite flat_app. flats. reflexivity.
Qed.
Lemma group_flats ts l : group ts = Some l -> flat l = ts.
Proof. intros E. now rewrite (group_loop_flat _ _ _ _ E). Qed.

Lemma group_loop_ok : forall ts cur stack l, group_loop ts cur stack = Some l ->
  forallb tt_ok cur = true -> forallb (fun ob => open_ok (fst ob) && forallb tt_ok (snd ob)) stack = true ->
  forallb tt_ok l = true.
Proof.
  assert (RV : forall c, forallb tt_ok c = true -> forallb tt_ok (rev c) = true).
  { intros c H. rewrite forallb_forall in *. intros x I. apply H. now apply in_rev. }
  induction ts as [|t ts IH]; intros cur stack l; cbn [group_loop].
  - destruct stack; [|discriminate]. intros E C S. injection E as <-. auto.
  - destruct (opener t) as [o|] eqn:O.
    + intros E C S. apply opener_one in O as [_ O]. apply (IH _ _ _ E); [reflexivity|]. cbn [forallb fst snd]. now rewrite O, C.
    + destruct (closer t) eqn:K.
      * destruct stack as [|[o b] stack]; [discriminate|]. destruct (closes o t) eqn:C; [|discriminate].
        intros E X S. cbn [forallb fst snd] in S. rewrite !andb_true_iff in S. destruct S as [[S1 S2] S3].
        apply (IH _ _ _ E); [|assumption]. cbn [forallb]. rewrite S2, andb_true_r. cbn [tt_ok].
        rewrite S1. cbn [andb]. apply (RV cur) in X. exact X.
      * intros E C S. apply (IH _ _ _ E); [|assumption]. cbn [forallb]. rewrite C, andb_true_r. cbn [tt_ok].
        unfold leaf_ok. now rewrite O, K.
Qed.
Lemma group_ok ts l : group ts = Some l -> forallb tt_ok l = true.
Proof. intros E. now apply (group_loop_ok _ _ _ _ E). Qed.

(** ** Dropping final newlines *)

Lemma ends_with_app suf s : ends_with suf s = true -> exists p, s = (p ++ suf)%string.
Proof.
  induction s as [|c s IH]; cbn [ends_with].
  - rewrite orb_false_r. intros E. exists "". now apply String.eqb_eq in E.
  - intros E. apply orb_true_iff in E as [E|E].
    + exists "". now apply String.eqb_eq in E.
    + destruct (IH E) as (p & ->). now exists (String c p).
Qed.
Lemma pop_last_app p c : pop_last (p ++ one c)%string = p.
Proof.
  induction p as [|d p IH]; [reflexivity|]. cbn [append pop_last]. rewrite IH.
  destruct (p ++ one c)%string eqn:E; [|reflexivity]. destruct p; discriminate.
Qed.

Definition quoted (st : lstate) : bool :=
  match st with LStr q _ | LEsc q _ => rust_quotes q | _ => true end.
Lemma run_quoted s : forall st, quoted st = true -> quoted (snd (run rust_quotes st s)) = true.
Proof.
  induction s as [|c s IH]; intros st Q; [exact Q|]. rewrite run_cons. cbn [snd]. apply IH.
  assert (S : quoted (start rust_quotes c) = true).
  { unfold start. destruct (wordc c); [reflexivity|]. destruct (whitec c); [reflexivity|].
    destruct (rust_quotes c) eqn:E; [exact E|reflexivity]. }
  destruct st as [|v|d|q u|q u|]; cbn [step snd quoted] in *; try assumption.
  - destruct (wordc c); [reflexivity|assumption].
  - destruct (is_pair d c); [reflexivity|]. destruct (_ && _); [reflexivity|assumption].
  - destruct (Ascii.eqb c q); [reflexivity|]. destruct (Ascii.eqb c "\"); assumption.
  - destruct (Ascii.eqb c _); reflexivity.
Qed.

(** A text that ends between tokens with two newlines ends between tokens with one. *)
Lemma pop_lexes s ts : rlexes LNone s ts LNone -> ends_with (nl ++ nl) s = true -> rlexes LNone (pop_last s) ts LNone.
Proof.
  intros L E. destruct (ends_with_app _ _ E) as (p & ->).
  replace (p ++ nl ++ nl)%string with ((p ++ nl) ++ nl)%string in * by now rewrite append_assoc_s.
  change (pop_last ((p ++ nl) ++ nl)) with (pop_last ((p ++ nl) ++ one (ascii_of_nat 10))). rewrite pop_last_app.
  unfold lexes in *. rewrite run_app in L. rewrite run_app in L |- *.
  pose proof (run_quoted p LNone eq_refl) as Q.
  destruct (run rust_quotes LNone p) as [t st]. cbn [fst snd] in *.
  destruct (closed st) eqn:C.
  - pose proof (lexes_nl rust_quotes st C eq_refl) as N. unfold lexes in N. rewrite N in *. cbn in L |- *.
    rewrite app_nil_r in L. exact L.
  - destruct st as [|v|d|q u|q u|]; try discriminate C; cbn [quoted] in Q; apply Ascii.eqb_eq in Q; subst q; discriminate L.
Qed.
Lemma pop_blank_lexes s ts : rlexes LNone s ts LNone -> rlexes LNone (pop_blank s) ts LNone.
Proof. intros L. unfold pop_blank. destruct (ends_with _ s) eqn:E; [now apply pop_lexes|assumption]. Qed.
Lemma trim_lexes s ts : rlexes LNone s ts LNone -> rlexes LNone (trim_blank_lines s) ts LNone.
Proof.
  unfold trim_blank_lines. generalize (String.length s). intros n. revert s.
  induction n as [|n IH]; intros s L; [assumption|]. cbn [pop_blanks].
  destruct (ends_with _ s) eqn:E; [|assumption]. apply IH. now apply pop_lexes.
Qed.

(** ** The sections *)

Definition rdecl (n : ast_node) : bool :=
  match n with
  | NStruct n => rstruct n
  | NEnum n => renum n
  | NFn n => rmethod n
  | NConst n => rconst n
  | NDirective _ => true
  end.
(** A path that can be imported: balanced, without semicolon. *)
Definition ruse (v : const_value) : bool :=
  match v with
  | ConstLiteral (StringLit s) _ =>
      let '(ts, st) := run rust_quotes LNone s in
      ends st && match group (ts ++ fin st) with Some l => no_sym ";" l | None => false end
  | _ => false
  end.
Definition rust_ready (ast : list ast_node) : bool :=
  forallb rdecl ast && forallb ruse (find_directive_group_values ast "rust" "use")
  && plain """" (service_id ast).


Lemma pr_items_flat_map {A} (f : A -> list item) l : pr_items (flat_map f l) = flat_map (fun x => pr_items (f x)) l.
Proof. induction l as [|x l IH]; [reflexivity|]. cbn [flat_map]. now rewrite pr_items_app, IH. Qed.

Lemma consts_lexes ast : forallb rdecl ast = true ->
  rlexes LNone (generate_consts ast) (flat (pr_items (consts_tree ast))) LNone.
Proof.
  intros R. rewrite forallb_forall in R. unfold generate_consts, consts_tree. apply pop_blank_lexes. show_rops.
  rewrite pr_items_flat_map. apply rops_loop. intros n I. specialize (R n I). destruct n as [n|n|n|n|n]; try apply rops_nil.
  pose proof (const_block_lexes n R 0). opsq. rewrite pr_items_cons. cbn [pr_items flat_map]. flat_eq.
Qed.
Lemma buffers_lexes ast : forallb rdecl ast = true ->
  rlexes LNone (generate_buffers ast) (flat (pr_items (buffers_tree ast))) LNone.
Proof.
  intros R. rewrite forallb_forall in R. unfold generate_buffers, buffers_tree. apply pop_blank_lexes. show_rops.
  rewrite pr_items_flat_map. apply rops_loop. intros n I. specialize (R n I). destruct n as [n|n|n|n|n]; try apply rops_nil.
  - pose proof (enum_buffers_lexes n R). opsq. rewrite pr_items_cons. cbn [pr_items flat_map]. flat_eq.
  - pose proof (struct_buffers_lexes n R). opsq. rewrite pr_items_cons. cbn [pr_items flat_map]. flat_eq.
Qed.
Lemma models_lexes ast s : forallb rdecl ast = true -> generate_models ast = Ok s ->
  rlexes LNone s (flat (pr_items (models_tree ast))) LNone.
Proof.
  intros R G. unfold generate_models in G.
  match type of G with (let* p := mapM ?f ast in _) = _ =>
    assert (L : forall ps, mapM f ast = Ok ps -> rops (concat ps) (flat (pr_items (models_tree ast)))) end.
  { clear G. induction ast as [|n ast IH]; intros ps M.
    - cbn [mapM] in M. apply Ok_inj in M. subst ps. apply rops_nil.
    - cbn [mapM bind] in M. cbn [forallb] in R. apply andb_true_iff in R as [R1 R2].
      unfold models_tree. cbn [flat_map]. rewrite pr_items_app, flat_app.
      destruct n as [n|n|n|n|n]; cbn [bind] in M.
      + destruct (generate_enum_model n) as [m| |] eqn:Em; try discriminate M. cbn [bind] in M.
        destruct (mapM _ ast) as [qs| |]; try discriminate M. cbn [bind] in M. apply Ok_inj in M. subst ps.
        pose proof (enum_model_lexes n m R1 Em). cbn [concat app]. eapply rops_app with (a := [_]).
        { opsq. cbn [fin]. rewrite !app_nil_r. reflexivity. } now apply IH.
      + destruct (mapM _ ast) as [qs| |]; try discriminate M. cbn [bind] in M. apply Ok_inj in M. subst ps.
        pose proof (struct_model_lexes n true R1). cbn [concat app]. eapply rops_app with (a := [_]).
        { opsq. cbn [fin]. rewrite !app_nil_r. reflexivity. } now apply IH.
      + destruct (mapM _ ast) as [qs| |]; try discriminate M. cbn [bind] in M. apply Ok_inj in M. subst ps. cbn [concat app]. now apply IH.
      + destruct (mapM _ ast) as [qs| |]; try discriminate M. cbn [bind] in M. apply Ok_inj in M. subst ps. cbn [concat app]. now apply IH.
      + destruct (mapM _ ast) as [qs| |]; try discriminate M. cbn [bind] in M. apply Ok_inj in M. subst ps. cbn [concat app]. now apply IH. }
  destruct (mapM _ ast) as [ps| |]; try discriminate G. cbn [bind] in G. apply Ok_inj in G. subst s.
  apply pop_blank_lexes. show_rops. now apply L.
Qed.

Lemma find_fn_in ast n : In n (find_fn_nodes ast) -> In (NFn n) ast.
Proof.
  induction ast as [|a ast IH]; [intros []|]. destruct a; cbn [find_fn_nodes]; try (intros I; right; now apply IH).
  intros [->|I]; [now left|right; now apply IH].
Qed.
Lemma rmethods ast : forallb rdecl ast = true -> forallb rmethod (find_fn_nodes ast) = true.
Proof. rewrite !forallb_forall. intros R n I. exact (R (NFn n) (find_fn_in ast n I)). Qed.
Lemma has_rpc_find ast : has_rpc_methods ast = nil_or (find_fn_nodes ast).
Proof. induction ast as [|a ast IH]; [reflexivity|]. destruct a; cbn; auto. Qed.
Lemma rpc_lexes ast s : forallb rdecl ast = true -> plain """" (service_id ast) = true -> generate_rpc ast = Ok s ->
  rlexes LNone s (flat (pr_items (rpc_tree ast))) LNone.
Proof.
  intros R P G. unfold generate_rpc in G. rewrite has_rpc_find in G.
  destruct (find_fn_nodes ast) as [|n0 ns] eqn:F.
  { cbn in G. apply Ok_inj in G. subst s. unfold rpc_tree. rewrite F. apply lexes_nil. }
  cbn [nil_or] in G. destruct (generate_register_fn ast) as [r| |] eqn:Rg; try discriminate G. cbn [bind] in G. apply Ok_inj in G. subst s.
  pose proof (register_lexes ast r (rmethods ast R) P Rg) as L.
  apply pop_blank_lexes. show_rops.
  assert (T : rpc_tree ast = register_tree (service_id ast) (find_fn_nodes ast) :: flat_map rpc_method_tree (find_fn_nodes ast))
    by (unfold rpc_tree; now rewrite F).
  rewrite T. clear T F n0 ns.
  match goal with |- ops_lexes _ (_ :: flat_map ?f ast) _ =>
    assert (M : rops (flat_map f ast) (flat (pr_items (flat_map rpc_method_tree (find_fn_nodes ast))))) end.
  { clear L P Rg. induction ast as [|a ast IH]; [apply rops_nil|]. cbn [forallb] in R. apply andb_true_iff in R as [R1 R2].
    destruct a as [n|n|n|n|n]; cbn [flat_map find_fn_nodes app]; try (now apply IH).
    rewrite pr_items_app, flat_app. pose proof (rpc_method_lexes n R1). eapply rops_app with (a := [_]); [|now apply IH].
    opsq. cbn [fin]. now rewrite !app_nil_r. }
  rewrite pr_items_cons, flat_app. opsq. cbn [fin]. now rewrite app_nil_r.
Qed.

Lemma use_parts s : (exists t, ruse (ConstLiteral (StringLit s) t) = true) -> exists us st,
  rlexes LNone s us st /\ ends st = true /\ us ++ fin st = flat (use_tokens s) /\
  forallb tt_ok (use_tokens s) = true /\ no_sym ";" (use_tokens s) = true.
Proof.
  intros [t R]. cbn [ruse] in R. unfold use_tokens, code_tokens. destruct (run rust_quotes LNone s) as [us st] eqn:E.
  apply andb_true_iff in R as [R1 R2]. exists us, st. split; [exact E|]. split; [assumption|].
  assert (F : flush st = Some (fin st)).
  { apply ends_closed in R1. destruct st; try discriminate R1; reflexivity. }
  rewrite F. destruct (group (us ++ fin st)) as [l|] eqn:Gr; [|discriminate R2].
  split; [now rewrite (group_flats _ _ Gr)|]. split; [now apply (group_ok _ _ Gr)|assumption].
Qed.

Lemma uses_lexes ast ops : forallb ruse (find_directive_group_values ast "rust" "use") = true ->
  generate_uses ast = Ok ops -> rops ops (flat (pr_items (user_uses ast))).
Proof.
  unfold generate_uses, user_uses. generalize (find_directive_group_values ast "rust" "use"). intros l. revert ops.
  induction l as [|v l IH]; intros ops R G.
  - cbn [mapM] in G. apply Ok_inj in G. subst. apply rops_nil.
  - cbn [forallb] in R. apply andb_true_iff in R as [R1 R2]. cbn [mapM] in G.
    destruct v as [[s| | |] t]; try discriminate R1. cbn [bind] in G.
    destruct (mapM _ l) as [qs| |] eqn:M; try discriminate G. cbn [bind] in G. apply Ok_inj in G. subst ops.
    specialize (IH qs R2 eq_refl). destruct (use_parts s (ex_intro _ t R1)) as (us & st & L & E & U & _).
    cbn [flat_map app]. rewrite pr_items_cons. cbn [pr_item]. opsq. flat_eq.
Qed.

Lemma consts_nodes ast : contains_consts_nodes ast = false -> consts_tree ast = [].
Proof. induction ast as [|a ast IH]; [reflexivity|]. destruct a; cbn; auto; discriminate. Qed.

Lemma file_lexes ast m b r s : rust_ready ast = true -> rust_generate ast m b r = Ok s ->
  rlexes LNone s (flat (pr_items (rust_tree ast m b r))) LNone.
Proof.
  unfold rust_ready. rewrite !andb_true_iff. intros [[R U] P] G. unfold rust_generate in G.
  destruct (generate_uses ast) as [uops| |] eqn:Gu; try discriminate G. cbn [bind] in G.
  destruct (if m then _ else Ok []) as [mops| |] eqn:Gm; try discriminate G. cbn [bind] in G.
  destruct (if r then _ else Ok []) as [rpcops| |] eqn:Gr; try discriminate G. cbn [bind] in G.
  apply Ok_inj in G. subst s. apply trim_lexes. show_rops.
  pose proof (uses_lexes ast uops U Gu) as Lu.
  assert (Lc : rops (if contains_consts_nodes ast then [Writeln ""; Write (generate_consts ast)] else [])
                 (flat (pr_items (consts_tree ast)))).
  { destruct (contains_consts_nodes ast) eqn:C.
    - pose proof (consts_lexes ast R). opsq. cbn [fin app]. now rewrite app_nil_r.
    - rewrite (consts_nodes ast C). apply rops_nil. }
  assert (Lm : rops mops (flat (pr_items (if m then models_tree ast else [])))).
  { destruct m; [|apply Ok_inj in Gm; subst; apply rops_nil].
    destruct (generate_models ast) as [t| |] eqn:E; try discriminate Gm. cbn [bind] in Gm. apply Ok_inj in Gm. subst mops.
    pose proof (models_lexes ast t R E). opsq. cbn [fin app]. now rewrite app_nil_r. }
  assert (Lb : rops (if b then [Writeln ""; Write (generate_buffers ast)] else [])
                 (flat (pr_items (if b then buffers_tree ast else [])))).
  { destruct b; [|apply rops_nil]. pose proof (buffers_lexes ast R). opsq. cbn [fin app]. now rewrite app_nil_r. }
  assert (Lr : rops rpcops (flat (pr_items (if r then rpc_tree ast else [])))).
  { destruct r; [|apply Ok_inj in Gr; subst; apply rops_nil].
    destruct (generate_rpc ast) as [t| |] eqn:E; try discriminate Gr. cbn [bind] in Gr. apply Ok_inj in Gr. subst rpcops.
    pose proof (rpc_lexes ast t R P E). opsq. cbn [fin app]. now rewrite app_nil_r. }
  unfold rust_tree. rewrite !pr_items_app, !flat_app. apply rops_app.
  { unfold rust_prelude. opsq. reflexivity. }
  apply rops_app.
  { unfold rust_lib_uses. replace (negb match find_fn_nodes ast with [] => true | _ => false end)
      with (nil_or (find_fn_nodes ast)) by now destruct (find_fn_nodes ast).
    destruct (r && nil_or (find_fn_nodes ast)); [|destruct b]; opsq; reflexivity. }
  repeat apply rops_app; assumption.
Qed.
