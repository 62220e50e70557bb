(** Reading the generated Rust text, continued: enum buffers and constants. *)
Require Import Coq.Strings.String Coq.Strings.Ascii.
Require Import Coq.NArith.NArith Coq.ZArith.ZArith Coq.Lists.List Coq.Bool.Bool Coq.micromega.Lia.
Require Import Verif.Base Verif.F64 Verif.Ast Verif.Writer Verif.Code Verif.RustSyntax Verif.RustPrint
  Verif.CodeLex Verif.RustGen Verif.RustTree Verif.LexSpec Verif.NumText Verif.RustLexed.
Import ListNotations.
Local Open Scope string_scope.
Local Open Scope list_scope.

Lemma rtype_u32 : rtype u32_type_id = true.
Proof. reflexivity. Qed.

Lemma sep_trail {A B} (f : B -> list tt) (g : A -> B) l :
  flat_map (fun v => f (g v) ++ [y ","]) l = sep (y ",") f (map g l) ++ trail (nil_or l).
Proof.
  destruct l as [|v l]; [reflexivity|]. cbn [nil_or trail]. revert v. induction l as [|v2 l IH]; intros v.
  - cbn. now rewrite app_nil_r.
  - cbn [map] in *. rewrite sep_cons, <- app_assoc. cbn [flat_map app] in *. rewrite <- IH. now rewrite <- !app_assoc.
Qed.

Lemma value_reads_lexes (k : nat) l : forallb rvalue l = true ->
  rops (flat_map (fun value => [ WritelnTab k (generate_read (tf_type value) ++ ",") ]) l)
    (flat (sep (y ",") pr (map (fun v => read_tree (tf_type v)) l) ++ trail (nil_or l))).
Proof.
  intros R. rewrite forallb_forall in R. rewrite <- sep_trail.
  apply rops_loop. intros v I. pose proof (read_lexes _ (R v I)). unchunk. opsq. flat_eq.
Qed.
Lemma value_skips_lexes (k : nat) l : forallb rvalue l = true ->
  rops (flat_map (fun value => [ WritelnTab k (generate_read (tf_type value) ++ ";") ]) l)
    (flat (flat_map pr_st (map (fun f => SSemi (read_tree (tf_type f))) l))).
Proof.
  intros R. rewrite forallb_forall in R. rewrite flat_map_map. apply rops_loop. intros f I.
  pose proof (read_lexes _ (R f I)). unchunk. cbn [pr_st]. opsq. flat_eq.
Qed.

Definition pr_arm (pe : pat * ex) : list tt := pr_pat (fst pe) ++ y "=>" :: pr (snd pe) ++ [y ","].
Lemma pr_arms e arms : pr (EMatch e arms) = w "match" :: pr e ++ [G "{" (flat_map pr_arm arms)].
Proof. reflexivity. Qed.

Lemma enum_read_lexes node : renum node = true ->
  rlexes LNone (generate_enum_buffers_read_from_buffers node) (flat (pr_fn (enum_read_fn node))) LNone.
Proof.
  intros R. unfold renum in R. rewrite !andb_true_iff in R. destruct R as [[N NE] R]. apply rname_word in N.
  unfold generate_enum_buffers_read_from_buffers, enum_read_fn. pose proof (read_lexes _ rtype_u32) as C. unchunk.
  show_rops. unfold unsupported_arm.
  match goal with |- ops_lexes _ (_ ++ flat_map ?f _ ++ _) _ =>
    assert (V : rops (flat_map f (en_items node)) (flat (flat_map pr_arm (map (enum_read_arm (en_id node)) (en_items node))))) end.
  { rewrite flat_map_map. apply rops_loop. rewrite forallb_forall in R. intros i I. specialize (R i I).
    destruct i as [p id|p id vs|p id fs]; cbn [ritem enum_read_arm] in *; unfold pr_arm; cbn [fst snd].
    - apply rname_word in R. opsq. trees. flat_eq.
    - apply andb_true_iff in R as [Ri R]. apply rname_word in Ri. pose proof (value_reads_lexes 4 vs R). opsq. trees. flat_eq.
    - apply andb_true_iff in R as [Ri R]. apply rname_word in Ri. pose proof (reads_lexes 4 fs R). opsq. trees. flat_eq. }
  opsq. unfold pr_fn. cbn [rf_name rf_params rf_trailing rf_ret rf_body pr_block]. rewrite pr_arms, flat_map_app.
  unfold pr_arm at 3. trees. flat_eq.
Qed.

Lemma chunk_num p : chunk (show_N p) (flat (pr (ENum (show_N p)))).
Proof. apply chunk_name, word_show_N. Qed.
Lemma v_word i : word (v_name i) = true.
Proof. apply word_app_l; [reflexivity|apply all_word_show_nat]. Qed.
Lemma chunk_v i : chunk ("v" ++ show_nat i)%string (flat (pr (var (v_name i)))).
Proof. apply chunk_name, v_word. Qed.
Lemma chunk_var n : word n = true -> chunk n (flat (pr (var n))).
Proof. intros W. now apply chunk_name. Qed.

Lemma enumerate_in {A} (l : list A) : forall k iv, In iv (enumerate_from k l) -> In (snd iv) l.
Proof.
  induction l as [|x l IH]; intros k iv I; [destruct I|]. destruct I as [<-|I]; [now left|].
  right. eapply IH, I.
Qed.
Lemma nil_or_enumerate {A} (l : list A) : nil_or (enumerate l) = nil_or l.
Proof. now destruct l. Qed.

Lemma tag_lexes p : chunk (generate_write u32_type_id (show_N p) false) (flat (pr_st (tag_tree p))).
Proof. apply write_lexes; [reflexivity|apply chunk_num]. Qed.

Lemma names_lexes (k : nat) l : forallb rfield l = true ->
  rops (flat_map (fun field => [ WritelnTab k (sf_name field ++ ",") ]) l)
    (flat (sep (y ",") (fun n => [w n]) (map sf_name l) ++ trail (nil_or l))).
Proof.
  intros R. rewrite forallb_forall in R. rewrite <- sep_trail. apply rops_loop. intros f I.
  pose proof (rfield_word f (R f I)). opsq. flat_eq.
Qed.
Lemma v_names_lexes (k : nat) (l : list tuple_field) :
  rops (flat_map (fun iv => [ WritelnTab k ("v" ++ show_nat (fst iv) ++ ",") ]) (enumerate l))
    (flat (sep (y ",") (fun n => [w n]) (map (fun iv => v_name (fst iv)) (enumerate l)) ++ trail (nil_or l))).
Proof. rewrite <- nil_or_enumerate, <- sep_trail. apply rops_loop. intros f I. opsq. unfold v_name. flat_eq. Qed.
Lemma v_writes_lexes (k : nat) l : forallb rvalue l = true ->
  rops (flat_map (fun iv => [ WritelnTab k (generate_write (tf_type (snd iv)) ("v" ++ show_nat (fst iv)) true) ])
          (enumerate l))
    (flat (flat_map pr_st (map (fun iv => write_tree (tf_type (snd iv)) (var (v_name (fst iv))) true) (enumerate l)))).
Proof.
  intros R. rewrite forallb_forall in R. rewrite flat_map_map. apply rops_loop. intros iv I.
  pose proof (write_lexes (tf_type (snd iv)) _ _ true (R _ (enumerate_in _ _ _ I)) (chunk_v (fst iv))).
  unchunk. opsq. flat_eq.
Qed.
Lemma f_writes_lexes (k : nat) l : forallb rfield l = true ->
  rops (flat_map (fun field => [ WritelnTab k (generate_write (sf_type field) (sf_name field) true) ]) l)
    (flat (flat_map pr_st (map (fun f => write_tree (sf_type f) (var (sf_name f)) true) l))).
Proof.
  intros R. rewrite forallb_forall in R. rewrite flat_map_map. apply rops_loop. intros f I.
  pose proof (write_lexes (sf_type f) _ _ true (rfield_type f (R f I)) (chunk_var _ (rfield_word f (R f I)))).
  unchunk. opsq. flat_eq.
Qed.

Lemma names_trail {A} (l : list A) (f : A -> string) :
  match map f l with [] => false | _ => true end = nil_or l.
Proof. now destruct l. Qed.

Lemma enum_write_lexes node : renum node = true ->
  rlexes LNone (generate_enum_buffers_write_to_buffers node) (flat (pr_fn (enum_write_fn node))) LNone.
Proof.
  intros R. unfold renum in R. rewrite !andb_true_iff in R. destruct R as [[N NE] R]. apply rname_word in N.
  unfold generate_enum_buffers_write_to_buffers, enum_write_fn. show_rops.
  match goal with |- ops_lexes _ (_ ++ flat_map ?f _ ++ _) _ =>
    assert (V : rops (flat_map f (en_items node)) (flat (flat_map pr_arm (map (enum_write_arm (en_id node)) (en_items node))))) end.
  { rewrite flat_map_map. apply rops_loop. rewrite forallb_forall in R. intros i I. specialize (R i I).
    pose proof (tag_lexes (item_position i)) as T.
    destruct i as [p id|p id vs|p id fs]; cbn [ritem enum_write_arm item_position] in *; unfold pr_arm; cbn [fst snd]; unchunk.
    - apply rname_word in R. opsq. cbn [pr_pat pr_path pr_seg pr pr_block flat_map]. flat_eq.
    - apply andb_true_iff in R as [Ri R]. apply rname_word in Ri.
      pose proof (v_names_lexes 4 vs). pose proof (v_writes_lexes 4 vs R). opsq.
      cbn [pr_pat pr_path pr_seg pr pr_block flat_map]. unfold pr_words. flat_eq.
    - apply andb_true_iff in R as [Ri R]. apply rname_word in Ri.
      pose proof (names_lexes 4 fs R). pose proof (f_writes_lexes 4 fs R). opsq.
      cbn [pr_pat pr_path pr_seg pr pr_block flat_map]. unfold pr_words. rewrite names_trail. flat_eq. }
  opsq. unfold pr_fn. cbn [rf_name rf_params rf_trailing rf_ret rf_body pr_block]. rewrite pr_arms. trees. flat_eq.
Qed.

Lemma enum_skip_lexes node : renum node = true ->
  rlexes LNone (generate_enum_buffers_skip node) (flat (pr_fn (enum_skip_fn node))) LNone.
Proof.
  intros R. unfold renum in R. rewrite !andb_true_iff in R. destruct R as [[N NE] R]. apply rname_word in N.
  unfold generate_enum_buffers_skip, enum_skip_fn. pose proof (read_lexes _ rtype_u32) as C. unchunk.
  show_rops. unfold unsupported_arm.
  match goal with |- ops_lexes _ (_ ++ flat_map ?f _ ++ _) _ =>
    assert (V : rops (flat_map f (en_items node)) (flat (flat_map pr_arm (map enum_skip_arm (en_items node))))) end.
  { rewrite flat_map_map. apply rops_loop. rewrite forallb_forall in R. intros i I. specialize (R i I).
    destruct i as [p id|p id vs|p id fs]; cbn [ritem enum_skip_arm] in *; unfold pr_arm; cbn [fst snd].
    - opsq. trees. flat_eq.
    - apply andb_true_iff in R as [Ri R]. pose proof (value_skips_lexes 5 vs R). opsq. trees. flat_eq.
    - apply andb_true_iff in R as [Ri R]. pose proof (skips_lexes 5 fs R). opsq. trees. flat_eq. }
  opsq. unfold pr_fn. cbn [rf_name rf_params rf_trailing rf_ret rf_body pr_block pr_st flat_map]. rewrite pr_arms, flat_map_app.
  unfold pr_arm at 3. trees. flat_eq.
Qed.

Lemma enum_buffers_lexes node : renum node = true ->
  rlexes LNone (generate_enum_buffers node) (flat (pr_item (enum_buffers_tree node))) LNone.
Proof.
  intros R. pose proof (enum_read_lexes node R). pose proof (enum_write_lexes node R). pose proof (enum_skip_lexes node R).
  unfold renum in R. rewrite !andb_true_iff in R. destruct R as [[N NE] R]. apply rname_word in N.
  unfold generate_enum_buffers, enum_buffers_tree. show_rops. opsq. cbn [pr_item flat_map pr_ty pr_names ty0]. flat_eq.
Qed.
