(** The tokens of a generated Dart file are those of its tree. *)
Require Import Coq.Strings.String Coq.Strings.Ascii.
Require Import Coq.NArith.NArith Coq.ZArith.ZArith Coq.Lists.List Coq.Bool.Bool Coq.micromega.Lia.
Require Import Verif.Base Verif.F64 Verif.Ast Verif.Writer Verif.CaseConv Verif.Code Verif.CodeLex Verif.LexSpec
  Verif.NumText Verif.RustLexed.
Require Verif.RustFile.
Require Import Verif.DartSyntax Verif.DartPrint Verif.DartGen Verif.DartTree Verif.DartLexed Verif.DartLexedModel
  Verif.DartLexedEnum Verif.DartLexedBuf Verif.DartLexedRpc.
Import ListNotations.
Local Open Scope string_scope.
Local Open Scope list_scope.

(** ** Dropping final newlines *)

Definition quoted (st : lstate) : bool :=
  match st with LStr q _ | LEsc q _ => dart_quotes q | _ => true end.
Lemma run_quoted s : forall st, quoted st = true -> quoted (snd (run dart_quotes st s)) = true.
Proof.
  induction s as [|c s IH]; intros st Q; [exact Q|]. rewrite run_cons. cbn [snd]. apply IH.
  assert (S : quoted (start dart_quotes c) = true).
  { unfold start. destruct (wordc c); [reflexivity|]. destruct (whitec c); [reflexivity|].
    destruct (dart_quotes c) eqn:E; [exact E|reflexivity]. }
  destruct st as [|v|d|q u|q u|]; cbn [step snd quoted] in *; try assumption.
  - destruct (wordc c); [reflexivity|assumption].
  - destruct (is_pair d c); [reflexivity|]. destruct (_ && _); [reflexivity|assumption].
  - destruct (Ascii.eqb c q); [reflexivity|]. destruct (Ascii.eqb c "\"); assumption.
  - destruct (Ascii.eqb c _); reflexivity.
Qed.
Lemma pop_lexes s ts : dlexes LNone s ts LNone -> ends_with (nl ++ nl) s = true -> dlexes LNone (pop_last s) ts LNone.
Proof.
  intros L E. destruct (RustFile.ends_with_app _ _ E) as (p & ->).
  replace (p ++ nl ++ nl)%string with ((p ++ nl) ++ nl)%string in * by now rewrite append_assoc_s.
  change (pop_last ((p ++ nl) ++ nl)) with (pop_last ((p ++ nl) ++ one (ascii_of_nat 10))). rewrite RustFile.pop_last_app.
  unfold lexes in *. rewrite run_app in L. rewrite run_app in L |- *.
  pose proof (run_quoted p LNone eq_refl) as Q.
  destruct (run dart_quotes LNone p) as [t st]. cbn [fst snd] in *.
  destruct (closed st) eqn:C.
  - pose proof (lexes_nl dart_quotes st C eq_refl) as N. unfold lexes in N. rewrite N in *. cbn in L |- *.
    rewrite app_nil_r in L. exact L.
  - destruct st as [|v|d|q u|q u|]; try discriminate C; cbn [quoted] in Q; apply orb_true_iff in Q as [Q|Q];
      apply Ascii.eqb_eq in Q; subst q; discriminate L.
Qed.
Lemma pop_blank_lexes s ts : dlexes LNone s ts LNone -> dlexes LNone (pop_blank s) ts LNone.
Proof. intros L. unfold pop_blank. destruct (ends_with _ s) eqn:E; [now apply pop_lexes|assumption]. Qed.
Lemma trim_lexes s ts : dlexes LNone s ts LNone -> dlexes LNone (trim_blank_lines s) ts LNone.
Proof.
  unfold trim_blank_lines. generalize (String.length s). intros n. revert s.
  induction n as [|n IH]; intros s L; [assumption|]. cbn [pop_blanks].
  destruct (ends_with _ s) eqn:E; [|assumption]. apply IH. now apply pop_lexes.
Qed.

(** ** The sections *)

Definition ddecl (n : ast_node) : bool :=
  match n with
  | NStruct n => dstruct n
  | NEnum n => denum n
  | NFn n => dmethod n
  | NConst n => dconst n
  | NDirective _ => true
  end.
Definition dimport (v : const_value) : bool :=
  match v with ConstLiteral (StringLit s) _ => plain "'" s | _ => false end.
(** Declarations whose names are Dart names after case conversion, and whose texts need no escapes. *)
Definition dart_ready (ast : list ast_node) : bool :=
  forallb ddecl ast && forallb dimport (find_directive_group_values ast "dart" "import") && drpc ast.

Lemma pr_items_flat_map {A} (f : A -> list ditem) l : pr_items (flat_map f l) = flat_map (fun x => pr_items (f x)) l.
Proof. unfold pr_items. induction l as [|x l IH]; [reflexivity|]. cbn [flat_map]. now rewrite flat_map_app, IH. Qed.
Lemma pr_items_app a b : pr_items (a ++ b) = pr_items a ++ pr_items b.
Proof. apply flat_map_app. Qed.

Lemma consts_section ast : forallb ddecl ast = true ->
  dlexes LNone (generate_consts ast) (flat (pr_items (consts_tree ast))) LNone.
Proof.
  intros R. unfold generate_consts. apply pop_blank_lexes. eapply consts_lexes; [|reflexivity].
  rewrite forallb_forall in *. intros n I. specialize (R n I). now destruct n.
Qed.
Lemma models_section ast s : forallb ddecl ast = true -> generate_models ast = Ok s ->
  dlexes LNone s (flat (pr_items (models_tree ast))) LNone.
Proof.
  intros R G. unfold generate_models in G. apply bind_ok in G as (o & G & E). apply Ok_inj in E. subst s.
  apply pop_blank_lexes. show_dops. unfold models_tree. rewrite pr_items_flat_map. rewrite forallb_forall in R.
  eapply rflat_lexes; [exact G|]. clear G o. intros n o I G. specialize (R n I). cbv beta in G.
  destruct n as [n|n|n|n|n]; try (apply Ok_inj in G; subst o; apply dops_nil).
  - apply bind_ok in G as (s & G & E). apply Ok_inj in E. subst o. pose proof (enum_model_lexes n s R G). opsq. cbn [fin]. now rewrite !app_nil_r.
  - apply Ok_inj in G. subst o. apply andb_true_iff in R as [R1 R2].
    assert (W : word (sn_id n) = true) by (apply andb_true_iff in R1 as [A _]; exact A).
    pose proof (struct_model_lexes n W R2). opsq. cbn [fin]. now rewrite !app_nil_r.
Qed.
Lemma buffers_section ast s : forallb ddecl ast = true -> generate_buffers ast = Ok s ->
  dlexes LNone s (flat (pr_items (buffers_tree ast))) LNone.
Proof.
  intros R G. unfold generate_buffers in G. apply bind_ok in G as (o & G & E). apply Ok_inj in E. subst s.
  apply pop_blank_lexes. show_dops. unfold buffers_tree. rewrite pr_items_flat_map. rewrite forallb_forall in R.
  eapply rflat_lexes; [exact G|]. clear G o. intros n o I G. specialize (R n I). cbv beta in G.
  destruct n as [n|n|n|n|n]; try (apply Ok_inj in G; subst o; apply dops_nil).
  - apply bind_ok in G as (s & G & E). apply Ok_inj in E. subst o. pose proof (enum_buffers_lexes n s R G). opsq. cbn [fin]. now rewrite !app_nil_r.
  - apply bind_ok in G as (s & G & E). apply Ok_inj in E. subst o. pose proof (struct_buffers_lexes n s R G). opsq. cbn [fin]. now rewrite !app_nil_r.
Qed.
Lemma imports_lexes ast ops : forallb dimport (find_directive_group_values ast "dart" "import") = true ->
  generate_imports ast = Ok ops -> dops ops (flat (pr_items (imports_tree ast))).
Proof.
  unfold generate_imports, imports_tree. generalize (find_directive_group_values ast "dart" "import"). intros l. revert ops.
  induction l as [|v l IH]; intros ops R G.
  - cbn [mapM] in G. apply Ok_inj in G. subst. apply dops_nil.
  - cbn [forallb] in R. apply andb_true_iff in R as [R1 R2]. cbn [mapM] in G.
    destruct v as [[s| | |] t]; try discriminate R1. cbn [bind] in G. apply bind_ok in G as (qs & M & E). apply Ok_inj in E. subst ops.
    specialize (IH qs R2 M). cbn [dimport] in R1. cbn [flat_map app]. unfold pr_items in *. cbn [flat_map pr_item app]. opsq. flat_eq.
Qed.
Lemma consts_nodes ast : contains_consts_nodes ast = false -> consts_tree ast = [].
Proof.
  unfold consts_tree. induction ast as [|a ast IH]; [reflexivity|]. destruct a; cbn [contains_consts_nodes flat_map app]; auto; discriminate.
Qed.

Lemma file_lexes ast m b r s : dart_ready ast = true -> dart_generate ast m b r = Ok s ->
  dlexes LNone s (flat (pr_items (dart_tree ast m b r))) LNone.
Proof.
  unfold dart_ready. rewrite !andb_true_iff. intros [[R U] P] G. unfold dart_generate in G.
  apply bind_ok in G as (o & G & E). apply Ok_inj in E. subst s. apply trim_lexes. show_dops.
  apply rapp_ok in G as (o1 & q1 & G1 & G & ->). apply rapp_ok in G as (o2 & q2 & G2 & G & ->).
  apply rapp_ok in G as (o3 & q3 & G3 & G & ->). apply rapp_ok in G as (o4 & q4 & G4 & G & ->).
  apply rapp_ok in G as (o5 & o6 & G5 & G6 & ->).
  assert (SEC : forall on text o t, (forall s, text = Ok s -> dlexes LNone s (flat (pr_items t)) LNone) ->
    (if on : bool then let* s := text in Ok [ Writeln ""; Write s ] else Ok []) = Ok o ->
    dops o (flat (pr_items (if on then t else [])))).
  { intros on text o t L G. destruct on.
    - apply bind_ok in G as (s & G & E). apply Ok_inj in E. subst o. specialize (L s G). opsq. cbn [fin]. now rewrite !app_nil_r.
    - apply Ok_inj in G. subst. apply dops_nil. }
  apply Ok_inj in G1. subst o1. unfold dart_tree. rewrite !pr_items_app, !flat_app. apply dops_app.
  { change (flat (pr_items (lib_imports_tree ast b r))) with ([] ++ flat (pr_items (lib_imports_tree ast b r))).
    apply dops_app; [unfold dart_prelude; opsq; reflexivity|].
    unfold dart_lib_imports, lib_imports_tree. destruct (r && _); [|destruct b]; opsq; reflexivity. }
  apply dops_app; [now apply imports_lexes|]. apply dops_app.
  { assert (X : forall s, Ok (generate_consts ast) = Ok s -> dlexes LNone s (flat (pr_items (consts_tree ast))) LNone).
    { intros s E. apply Ok_inj in E. subst. now apply consts_section. }
    pose proof (SEC _ _ _ _ X G3) as Y. destruct (contains_consts_nodes ast) eqn:C; [exact Y|]. now rewrite (consts_nodes ast C). }
  apply dops_app; [eapply SEC; [|exact G4]; intros s; now apply models_section|].
  apply dops_app; [eapply SEC; [|exact G5]; intros s; now apply buffers_section|].
  eapply SEC; [|exact G6]. intros s. now apply rpc_lexes.
Qed.
