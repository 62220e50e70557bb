(** Lemmas behind the theorems of PropertiesGen.v. *)

(** Property theorems about the generated text as a whole: C29, C30, C39 - C43.  After each theorem,
    a concrete case that meets its hypotheses, and its axioms. *)
Require Import Coq.Strings.String Coq.Strings.Ascii.
Require Import Coq.NArith.NArith Coq.ZArith.ZArith Coq.Lists.List Coq.Bool.Bool Coq.micromega.Lia.
Require Import Verif.Base Verif.F64 Verif.Ast Verif.Lexer Verif.LexSpec Verif.LexProofs Verif.LexMore Verif.LexFacts
  Verif.Parser Verif.Grammar Verif.GrammarMore Verif.ParseProofs Verif.Printer Verif.PrintProofs Verif.TextPrinter Verif.Names
  Verif.ParseFacts Verif.Writer Verif.CaseConv Verif.RunFacts.
Require Verif.RustGen Verif.DartGen Verif.SwiftGen Verif.KotlinGen.
Import ListNotations.
Local Open Scope string_scope.

(** ** C29: the end of the file *)
Lemma Ok_eq {A} (a b : A) : Ok a = Ok b -> a = b.
Proof.
  now intros [= ->].
Qed.

(** One line feed at the end, after a character that is not a line feed. *)
Definition one_final_newline (s : string) : Prop :=
  exists t c, s = t ++ String c nl /\ c <> ascii_of_nat 10.

(** Either empty or ending with a line feed. *)
Definition lines (s : string) : Prop := s = "" \/ exists t, s = t ++ nl.

Lemma lines_app a b : lines a -> lines b -> lines (a ++ b).
Proof.
  intros A [->|(t & ->)]; [now rewrite append_nil_s|].
  right.
  exists (a ++ t).
  now rewrite append_assoc_s.
Qed.

Lemma lines_nl s : lines (s ++ nl).
Proof.
  right.
  now exists s.
Qed.

Lemma ends_with_spec suf s : ends_with suf s = true <-> exists t, s = t ++ suf.
Proof.
  induction s as [|c s IH]; cbn [ends_with].
  - rewrite orb_false_r, String.eqb_eq.
  split; [intros <-; now exists ""|].
  intros ([|] & E); [exact E|discriminate].
  - rewrite orb_true_iff, String.eqb_eq, IH.
  split.
  + intros [<-|(t & ->)]; [now exists ""|].
  now exists (String c t).
  + intros ([|d t] & E); [auto|].
  right.
  injection E as -> E.
  now exists t.
Qed.

Lemma pop_last_snoc t c : pop_last (t ++ String c "") = t.
Proof.
  induction t as [|d t IH]; [reflexivity|].
  cbn [append pop_last].
  rewrite IH.
  now destruct t.
Qed.

Lemma two_newlines t : t ++ nl ++ nl = (t ++ nl) ++ nl.
Proof.
  now rewrite append_assoc_s.
Qed.

Lemma pop_blank_lines s : lines s -> lines (pop_blank s).
Proof.
  intros L.
  unfold pop_blank.
  destruct (ends_with (nl ++ nl) s) eqn:E; [|exact L].
  apply ends_with_spec in E as (t & ->).
  rewrite two_newlines.
  unfold nl at 2.
  rewrite pop_last_snoc.
  apply lines_nl.
Qed.

Lemma snoc_cases s : s = "" \/ exists t c, s = t ++ String c "".
Proof.
  induction s as [|c s [->|(t & d & ->)]]; [auto|right..].
  - exists "", c.
  reflexivity.
  - exists (String c t), d.
  reflexivity.
Qed.

Lemma length_app_string a b : String.length (a ++ b) = String.length a + String.length b.
Proof.
  induction a as [|c a IH]; [reflexivity|].
  cbn.
  now rewrite IH.
Qed.

Lemma nls_snoc n : repeat_string nl (S n) = repeat_string nl n ++ nl.
Proof.
  induction n as [|n IH]; [reflexivity|].
  cbn [repeat_string] in IH |- *.
  rewrite IH at 1.
  now rewrite append_assoc_s.
Qed.

Lemma snoc_inj : forall x y (a b : ascii), x ++ String a "" = y ++ String b "" -> a = b.
Proof.
  induction x as [|d x IH]; intros [|e y] a b H; cbn in H; [congruence|destruct y; discriminate|destruct x; discriminate|].
  injection H as _ H.
  eauto.
Qed.

Lemma pop_blanks_one f : forall t c n, (n <= f)%nat -> c <> ascii_of_nat 10 ->
  pop_blanks f (t ++ String c (repeat_string nl (S n))) = t ++ String c nl.
Proof.
  induction f as [|f IH]; intros t c n L C.
  - replace n with 0%nat by lia.
  reflexivity.
  - cbn [pop_blanks].
  destruct n as [|n].
  + destruct (ends_with _ _) eqn:E; [|reflexivity].
  apply ends_with_spec in E as (v & E).
  exfalso.
  cbn [repeat_string] in E.
  rewrite append_nil_s in E.
  change (String c nl) with (String c "" ++ nl) in E.
  rewrite <- append_assoc_s, two_newlines in E.
  apply (f_equal pop_last) in E.
  unfold nl in E.
  rewrite !pop_last_snoc in E.
  apply C.
  eapply snoc_inj.
  exact E.
  + assert (R : t ++ String c (repeat_string nl (S (S n))) = (t ++ String c (repeat_string nl (S n))) ++ nl).
  { rewrite nls_snoc.
  now rewrite append_assoc_s.
  }
      replace (ends_with (nl ++ nl) _) with true.
  * rewrite R.
  unfold nl at 2.
  rewrite pop_last_snoc.
  apply IH; [lia|exact C].
  * symmetry.
  apply ends_with_spec.
  exists (t ++ String c (repeat_string nl n)).
  rewrite R, nls_snoc, !append_assoc_s.
  cbn [append].
  now rewrite append_assoc_s.
Qed.

Lemma last_visible s c : contains_char s c = true -> c <> ascii_of_nat 10 ->
  exists t d n, s = t ++ String d (repeat_string nl n) /\ d <> ascii_of_nat 10.
Proof.
  intros I N.
  induction s as [|x s IH]; [discriminate|].
  cbn in I.
  destruct (contains_char s c) eqn:E.
  - destruct (IH eq_refl) as (t & d & n & -> & D).
  now exists (String x t), d, n.
  - rewrite orb_false_r in I.
  apply Ascii.eqb_eq in I as ->.
  clear IH E.
  assert (H : (exists n, s = repeat_string nl n) \/ exists t d n, s = t ++ String d (repeat_string nl n) /\ d <> ascii_of_nat 10).
  { clear.
  induction s as [|x s [(n & ->)|(t & d & n & -> & D)]].
  - left.
  now exists 0.
  - destruct (ascii_dec x (ascii_of_nat 10)) as [->|X]; [left; now exists (S n)|].
  right.
  now exists "", x, n.
  - right.
  now exists (String x t), d, n.
  }
    destruct H as [(n & ->)|(t & d & n & -> & D)]; [now exists "", c, n|].
  now exists (String c t), d, n.
Qed.

Lemma trim_one s c : lines s -> contains_char s c = true -> c <> ascii_of_nat 10 -> one_final_newline (trim_blank_lines s).
Proof.
  intros L I N.
  destruct (last_visible s c I N) as (t & d & n & -> & D).
  unfold trim_blank_lines, one_final_newline.
  exists t, d.
  split; [|exact D].
  destruct n as [|n].
  2: { apply pop_blanks_one; [|exact D].
  rewrite length_app_string.
  cbn [String.length].
  enough (n <= String.length (repeat_string nl (S n)))%nat by lia.
  clear.
  induction n as [|n IH]; [cbn; lia|].
  rewrite nls_snoc, length_app_string.
  cbn [nl String.length].
  lia.
  }
  exfalso.
  cbn [repeat_string] in L.
  destruct L as [L|(v & L)]; [destruct t; discriminate|].
  apply D.
  unfold nl in L.
  eapply snoc_inj.
  exact L.
Qed.

(** Operations that end a line, or write whole lines. *)
Definition line_op (o : wop) : Prop :=
  match o with
  | Writeln _ | WritelnTab _ _ | NewLine => True
  | Write s => lines s
  | WriteTabs | WriteTab _ _ => False
  end.

Lemma op_lines tab o : line_op o -> lines (op_text tab 0 o).
Proof.
  destruct o as [|s|n s|s| |n s]; cbn; intros H; try contradiction; auto.
  - apply lines_nl.
  - right.
  now exists "".
  - rewrite <- append_assoc_s.
  apply lines_nl.
Qed.

Lemma concat_lines l : (forall s, In s l -> lines s) -> lines (concat_strings l).
Proof.
  induction l as [|s l IH]; intros H; [now left|].
  cbn.
  apply lines_app; [apply H; now left|].
  apply IH.
  intros x I.
  apply H.
  now right.
Qed.

Lemma show_lines ops : Forall line_op ops -> lines (show_ops ops).
Proof.
  intros F.
  unfold show_ops.
  apply concat_lines.
  intros s I.
  apply in_map_iff in I as (o & <- & I).
  apply op_lines.
  rewrite Forall_forall in F.
  now apply F.
Qed.

Lemma show2_lines ops : Forall line_op ops -> lines (show_ops2 ops).
Proof.
  intros F.
  unfold show_ops2.
  apply concat_lines.
  intros s I.
  apply in_map_iff in I as (o & <- & I).
  apply op_lines.
  rewrite Forall_forall in F.
  now apply F.
Qed.

(** Or the last one does. *)
Lemma show2_last ops o : line_op o -> match o with Write "" => False | _ => True end -> (forall s, o = Write s -> s <> "") -> lines (show_ops2 (ops ++ [o])).
Proof.
  intros L _ N.
  unfold show_ops2.
  rewrite map_app.
  assert (E : forall a b, concat_strings (a ++ b) = concat_strings a ++ concat_strings b).
  { induction a as [|x a IH]; intros b; [reflexivity|].
  cbn.
  now rewrite IH, append_assoc_s.
  }
  rewrite E.
  cbn [map concat_strings].
  rewrite append_nil_s.
  right.
  assert (X := op_lines "  " o L).
  destruct X as [X|(t & ->)].
  - exfalso.
  destruct o as [|s|n s|s| |n s]; try contradiction; cbn in X; try discriminate.
  + subst.
  now apply (N "").
  + apply (f_equal String.length) in X.
  rewrite length_app_string in X.
  cbn in X.
  lia.
  + apply (f_equal String.length) in X.
  rewrite !length_app_string in X.
  cbn in X.
  lia.
  - exists (concat_strings (map (op_text "  " 0) ops) ++ t).
  now rewrite append_assoc_s.
Qed.

Lemma show2_snoc ops s : lines (show_ops2 (ops ++ [Writeln s])).
Proof.
  apply show2_last; [exact I|exact I|discriminate].
Qed.

Definition ends_line (ops : list wop) : Prop := exists a s, ops = (a ++ [Writeln s])%list.

Lemma ends_app a b : ends_line b -> ends_line (a ++ b).
Proof.
  intros (c & s & ->).
  exists (a ++ c)%list, s.
  now rewrite app_assoc.
Qed.

Lemma ends_cons x b : ends_line b -> ends_line (x :: b).
Proof.
  intros (c & s & ->).
  now exists (x :: c), s.
Qed.

Lemma flat_map_ops {A} (f : A -> list wop) l : (forall x, In x l -> Forall line_op (f x)) -> Forall line_op (flat_map f l).
Proof.
  induction l as [|x l IH]; intros H; [constructor|].
  cbn.
  apply Forall_app.
  split; [apply H; now left|].
  apply IH.
  intros y I.
  apply H.
  now right.
Qed.

Lemma rust_uses_ops ast l : RustGen.generate_uses ast = Ok l -> Forall line_op l.
Proof.
  unfold RustGen.generate_uses.
  generalize (find_directive_group_values ast "rust" "use").
  intros vs.
  revert l.
  induction vs as [|v vs IH]; intros l; cbn [mapM].
  - intros [= <-].
  constructor.
  - destruct v as [[s|z|x|b] t]; try discriminate.
  cbn [bind].
  destruct (mapM _ vs) as [ys| |]; try discriminate.
  intros [= <-].
  constructor; [exact I|].
  now apply IH.
Qed.

Lemma dart_imports_ops ast l : DartGen.generate_imports ast = Ok l -> Forall line_op l.
Proof.
  unfold DartGen.generate_imports.
  generalize (find_directive_group_values ast "dart" "import").
  intros vs.
  revert l.
  induction vs as [|v vs IH]; intros l; cbn [mapM].
  - intros [= <-].
  constructor.
  - destruct v as [[s|z|x|b] t]; try discriminate.
  cbn [bind].
  destruct (mapM _ vs) as [ys| |]; try discriminate.
  intros [= <-].
  constructor; [exact I|].
  now apply IH.
Qed.

Lemma mapM_ops {A} (f : A -> res (list wop)) l : forall ys, (forall x y, f x = Ok y -> Forall line_op y) -> mapM f l = Ok ys -> Forall line_op (concat ys).
Proof.
  induction l as [|x l IH]; intros ys H; cbn [mapM].
  - intros [= <-].
  constructor.
  - destruct (f x) as [y| |] eqn:F; try discriminate.
  cbn [bind].
  destruct (mapM f l) as [zs| |]; try discriminate.
  intros [= <-].
  cbn.
  apply Forall_app.
  split; [now apply (H x)|].
  now apply IH.
Qed.

Lemma contains_app_l a b c : contains_char a c = true -> contains_char (a ++ b) c = true.
Proof.
  induction a as [|x a IH]; [discriminate|].
  cbn.
  rewrite !orb_true_iff.
  intros [H|H]; auto.
Qed.

Lemma show_ops_app a b : show_ops (a ++ b) = show_ops a ++ show_ops b.
Proof.
  unfold show_ops.
  rewrite map_app.
  induction (map (op_text "    " 0) a) as [|x l IH]; [reflexivity|].
  cbn.
  now rewrite IH, append_assoc_s.
Qed.

Lemma show_ops2_app a b : show_ops2 (a ++ b) = show_ops2 a ++ show_ops2 b.
Proof.
  unfold show_ops2.
  rewrite map_app.
  induction (map (op_text "  " 0) a) as [|x l IH]; [reflexivity|].
  cbn.
  now rewrite IH, append_assoc_s.
Qed.

Ltac lineops := repeat first [ apply Forall_app; split | apply Forall_cons; [try exact Logic.I|] | apply Forall_nil ].

Lemma lem_C29_rust : forall ast models buffers rpc s,
  RustGen.rust_generate ast models buffers rpc = Ok s -> one_final_newline s.
Proof.
  intros ast m b r s.
  unfold RustGen.rust_generate.
  destruct (RustGen.generate_uses ast) as [us| |] eqn:U; try discriminate.
  cbn [bind].
  destruct (if m then _ else _) as [ms| |] eqn:M; try discriminate.
  cbn [bind].
  destruct (if r then _ else _) as [rs| |] eqn:R; try discriminate.
  cbn [bind].
  intros H.
  apply Ok_eq in H as <-.
  assert (MO : Forall line_op ms).
  { destruct m; [|injection M as <-; constructor].
  unfold RustGen.generate_models in M.
  destruct (mapM _ ast) as [ps| |] eqn:P; try discriminate.
  cbn [bind] in M.
  injection M as <-.
  lineops.
  apply pop_blank_lines, show_lines.
  eapply mapM_ops; [|exact P].
  intros [e|st|f|d|c] y E; cbn in E; try (injection E as <-; lineops; fail).
  destruct (RustGen.generate_enum_model e); try discriminate.
  injection E as <-.
  lineops.
  }
  assert (RO : Forall line_op rs).
  { destruct r; [|injection R as <-; constructor].
  unfold RustGen.generate_rpc in R.
  destruct (RustGen.has_rpc_methods ast).
  - destruct (RustGen.generate_register_fn ast); try discriminate.
  cbn [bind] in R.
  injection R as <-.
  lineops.
  apply pop_blank_lines, show_lines.
  lineops.
  apply flat_map_ops.
  intros [e|st|f|d|c] _; lineops.
  - injection R as <-.
  lineops.
  now left.
  }
  apply trim_one with (c := "G"%char); [|rewrite show_ops_app; apply contains_app_l; reflexivity|discriminate].
  apply show_lines.
  apply Forall_app.
  split; [lineops|].
  apply Forall_app.
  split.
  { unfold RustGen.rust_lib_uses.
  destruct (r && _); [lineops|].
  destruct b; lineops.
  }
  apply Forall_app.
  split; [now apply (rust_uses_ops ast)|].
  apply Forall_app.
  split.
  { destruct (contains_consts_nodes ast); lineops.
  apply pop_blank_lines, show_lines, flat_map_ops.
  intros [e|st|f|d|c] _; lineops.
  }
  apply Forall_app.
  split; [exact MO|].
  apply Forall_app.
  split; [|exact RO].
  destruct b; lineops.
  apply pop_blank_lines, show_lines, flat_map_ops.
  intros [e|st|f|d|c] _; lineops.
Qed.

Lemma rapp_ok a b l : DartGen.rapp a b = Ok l -> exists x y, a = Ok x /\ b = Ok y /\ l = (x ++ y)%list.
Proof.
  unfold DartGen.rapp.
  destruct a as [x| |]; try discriminate.
  destruct b as [y| |]; try discriminate.
  intros [= <-].
  now exists x, y.
Qed.

Lemma const_impl_lines : forall c prefix, lines (DartGen.generate_const_class_impl prefix c).
Proof.
  fix IH 1.
  intros [id items] prefix.
  cbn [DartGen.generate_const_class_impl].
  apply show2_lines.
  apply Forall_app.
  split; [lineops|].
  apply Forall_app.
  split; [destruct items; lineops|].
  apply Forall_app.
  split.
  { apply flat_map_ops.
  intros [i t v|n] _; cbn; lineops.
  }
  apply Forall_app.
  split; [lineops|].
  induction items as [|[i t v|n] items IHi]; [constructor|exact IHi|].
  lineops; [apply IH|exact IHi].
Qed.

Lemma struct_model_lines n d : lines (DartGen.generate_struct_model n d true).
Proof.
  unfold DartGen.generate_struct_model.
  destruct (sn_fields n) as [|f fs]; cbn [app].
  - apply show2_lines.
  lineops.
  - match goal with |- lines (show_ops2 ?x) => enough (E2 : ends_line x) by (destruct E2 as (a & z & ->); apply show2_snoc) end.
  repeat first [ exists []; eexists; reflexivity | apply ends_app | apply ends_cons ].
Qed.

Lemma enum_model_lines e s : DartGen.generate_enum_model e = Ok s -> lines s.
Proof.
  unfold DartGen.generate_enum_model.
  destruct (en_items e) as [|d l] eqn:E; [discriminate|].
  intros [= <-].
  apply show2_lines.
  lineops; repeat (apply flat_map_ops; intros ? _); repeat first
    [ match goal with |- Forall _ (match ?x with ItemEmpty _ _ => _ | ItemTuple _ _ _ => _ | ItemStruct _ _ _ => _ end) => destruct x end
    | progress lineops | apply flat_map_ops; intros ? _
    | match goal with |- Forall _ (DartGen.gap_unless_last _ _) => unfold DartGen.gap_unless_last; destruct (DartGen.is_last _ _) end
    | match goal with |- Forall _ (DartGen.factory_ops _ _) => unfold DartGen.factory_ops end ].
  all: apply struct_model_lines.
Qed.

Lemma lem_C29_dart : forall ast models buffers rpc s,
  DartGen.dart_generate ast models buffers rpc = Ok s -> one_final_newline s.
Proof.
  intros ast m b r s.
  unfold DartGen.dart_generate.
  destruct (DartGen.rapp _ _) as [ops| |] eqn:E; try discriminate.
  cbn [bind].
  intros H.
  apply Ok_eq in H as <-.
  apply rapp_ok in E as (p & l1 & P & E & ->).
  apply Ok_eq in P as <-.
  apply rapp_ok in E as (im & l2 & I & E & ->).
  apply rapp_ok in E as (cs & l3 & C & E & ->).
  apply rapp_ok in E as (ms & l4 & M & E & ->).
  apply rapp_ok in E as (bs & rs & B & R & ->).
  apply trim_one with (c := "G"%char); [|rewrite show_ops2_app; apply contains_app_l; reflexivity|discriminate].
  apply show2_lines.
  apply Forall_app.
  split.
  { lineops.
  unfold DartGen.dart_lib_imports.
  destruct (r && _); [lineops|].
  destruct b; lineops.
  }
  apply Forall_app.
  split; [now apply (dart_imports_ops ast)|].
  apply Forall_app.
  split.
  { destruct (contains_consts_nodes ast); [|injection C as <-; constructor].
  cbn [bind] in C.
  injection C as <-.
  lineops.
  apply pop_blank_lines, show2_lines.
  lineops; apply flat_map_ops; intros [e|st|f|d|c] _; lineops.
  - apply show2_lines.
  lineops.
  - apply const_impl_lines.
  }
  apply Forall_app.
  split.
  { destruct m; [|injection M as <-; constructor].
  unfold DartGen.generate_models, DartGen.rflat in M.
  cbn [bind] in M.
  destruct (mapM _ ast) as [ps| |] eqn:P; try discriminate.
  cbn [bind] in M.
  injection M as <-.
  lineops.
  apply pop_blank_lines, show2_lines.
  eapply mapM_ops; [|exact P].
  intros [e|st|f|d|c] y E; cbn [bind] in E; try (injection E as <-; lineops; fail).
  destruct (DartGen.generate_enum_model e) eqn:EM; try discriminate.
  injection E as <-.
  lineops.
  now apply (enum_model_lines e).
  }
  apply Forall_app.
  split.
  { destruct b; [|injection B as <-; constructor].
  unfold DartGen.generate_buffers, DartGen.rflat in B.
  cbn [bind] in B.
  destruct (mapM _ ast) as [ps| |] eqn:P; try discriminate.
  cbn [bind] in B.
  injection B as <-.
  lineops.
  apply pop_blank_lines, show2_lines.
  eapply mapM_ops; [|exact P].
  intros [e|st|f|d|c] y E; cbn [bind] in E; try (injection E as <-; lineops; fail).
  - destruct (DartGen.generate_enum_buffers e) eqn:EM; try discriminate.
  injection E as <-.
  lineops.
  - destruct (DartGen.generate_struct_buffers st) eqn:EM; try discriminate.
  injection E as <-.
  lineops.
  }
  destruct r; [|injection R as <-; constructor].
  unfold DartGen.generate_rpc in R.
  destruct (DartGen.generate_rpc_methods ast) as [t| |] eqn:G; try discriminate.
  cbn [bind] in R.
  injection R as <-.
  lineops.
  apply show2_lines.
  lineops.
  unfold DartGen.generate_rpc_methods in G.
  destruct (find_fn_nodes ast) as [|f fs] eqn:F; [injection G as <-; now left|].
  destruct (DartGen.required_string ast "namespace"); try discriminate.
  destruct (DartGen.required_string ast "id"); try discriminate.
  cbn [bind] in G.
  unfold DartGen.rshow in G.
  destruct (DartGen.rapp _ _) as [ops| |] eqn:E; try discriminate.
  cbn [bind] in G.
  injection G as <-.
  apply rapp_ok in E as (x & y & _ & E & ->).
  apply rapp_ok in E as (y1 & y2 & _ & [= <-] & ->).
  rewrite app_assoc.
  apply show2_snoc.
Qed.

(** ** C30: the section switches *)
Definition on (switch : bool) (text : string) : string := if switch then text else "".

Definition is_method (n : ast_node) : bool := match n with NFn _ => true | _ => false end.

Lemma has_methods ast : negb (match find_fn_nodes ast with [] => true | _ => false end) = existsb is_method ast.
Proof.
  induction ast as [|[e|s|f|d|c] ast IH]; try exact IH; reflexivity.
Qed.

Lemma pop_blanks_nls f : forall s, exists n, pop_blanks f s ++ repeat_string nl n = s.
Proof.
  induction f as [|f IH]; intros s; cbn [pop_blanks]; [exists 0%nat; apply append_nil_s|].
  destruct (ends_with _ s) eqn:E; [|exists 0%nat; apply append_nil_s].
  apply ends_with_spec in E as (t & ->).
  rewrite two_newlines.
  replace (pop_last _) with (t ++ nl) by (symmetry; apply pop_last_snoc).
  destruct (IH (t ++ nl)) as (n & E).
  exists (S n).
  rewrite nls_snoc, <- append_assoc_s, E.
  reflexivity.
Qed.

Definition text_or {A} (f : A -> list wop) (r : res A) : list wop := match r with Ok a => f a | _ => [] end.

Lemma lem_C30_rust : forall ast, exists head rpc_imports buffer_import uses consts M B R,
  forall models buffers rpc s, RustGen.rust_generate ast models buffers rpc = Ok s ->
    one_final_newline s /\
    exists n, s ++ repeat_string nl n =
      head ++ (if rpc && existsb is_method ast then rpc_imports else on buffers buffer_import) ++ uses ++ consts ++
      on models M ++ on buffers B ++ on rpc R.
Proof.
  intros ast.
  exists (show_ops RustGen.rust_prelude).
  exists (show_ops (match RustGen.rust_lib_uses [NFn (mk_fn "" 0 [] None false false)] true true with l => l end)).
  exists (show_ops (RustGen.rust_lib_uses [] true true)).
  exists (show_ops (text_or (fun l => l) (RustGen.generate_uses ast))).
  exists (show_ops (if contains_consts_nodes ast then [ Writeln ""; Write (RustGen.generate_consts ast) ] else [])).
  exists (show_ops (text_or (fun s => [ Writeln ""; Write s ]) (RustGen.generate_models ast))).
  exists (show_ops [ Writeln ""; Write (RustGen.generate_buffers ast) ]).
  exists (show_ops (text_or (fun s => [ Writeln ""; Write s ]) (RustGen.generate_rpc ast))).
  intros m b r s H.
  split; [now apply (lem_C29_rust ast m b r)|].
  unfold RustGen.rust_generate in H.
  destruct (RustGen.generate_uses ast) as [us| |] eqn:U; try discriminate.
  cbn [bind] in H.
  destruct (if m then _ else _) as [ms| |] eqn:M; try discriminate.
  cbn [bind] in H.
  destruct (if r then _ else _) as [rs| |] eqn:R; try discriminate.
  cbn [bind] in H.
  apply Ok_eq in H as <-.
  unfold trim_blank_lines.
  match goal with |- exists n, pop_blanks ?f ?t ++ _ = _ => destruct (pop_blanks_nls f t) as (n & E) end.
  exists n.
  rewrite E.
  clear E.
  rewrite !show_ops_app.
  f_equal.
  f_equal.
  { unfold RustGen.rust_lib_uses.
  rewrite !has_methods.
  cbn [existsb is_method orb andb].
  destruct (r && existsb is_method ast); [reflexivity|].
  now destruct b.
  }
  f_equal.
  f_equal.
  f_equal.
  { destruct m; [|now injection M as <-].
  destruct (RustGen.generate_models ast); try discriminate.
  cbn [bind] in M.
  now apply Ok_eq in M as <-.
  }
  f_equal.
  { now destruct b.
  }
  destruct r; [|now injection R as <-].
  destruct (RustGen.generate_rpc ast); try discriminate.
  cbn [bind] in R.
  now apply Ok_eq in R as <-.
Qed.

Lemma lem_C30_dart : forall ast, exists head rpc_imports buffer_imports imports consts M B R,
  forall models buffers rpc s, DartGen.dart_generate ast models buffers rpc = Ok s ->
    one_final_newline s /\
    exists n, s ++ repeat_string nl n =
      head ++ (if rpc && existsb is_method ast then rpc_imports else on buffers buffer_imports) ++ imports ++ consts ++
      on models M ++ on buffers B ++ on rpc R.
Proof.
  intros ast.
  exists (show_ops2 DartGen.dart_prelude).
  exists (show_ops2 (match DartGen.dart_lib_imports [NFn (mk_fn "" 0 [] None false false)] true true with l => l end)).
  exists (show_ops2 (DartGen.dart_lib_imports [] true true)).
  exists (show_ops2 (text_or (fun l => l) (DartGen.generate_imports ast))).
  exists (show_ops2 (if contains_consts_nodes ast then [ Writeln ""; Write (DartGen.generate_consts ast) ] else [])).
  exists (show_ops2 (text_or (fun s => [ Writeln ""; Write s ]) (DartGen.generate_models ast))).
  exists (show_ops2 (text_or (fun s => [ Writeln ""; Write s ]) (DartGen.generate_buffers ast))).
  exists (show_ops2 (text_or (fun s => [ Writeln ""; Write s ]) (DartGen.generate_rpc ast))).
  intros m b r s H.
  split; [now apply (lem_C29_dart ast m b r)|].
  unfold DartGen.dart_generate in H.
  destruct (DartGen.rapp _ _) as [ops| |] eqn:E; try discriminate.
  cbn [bind] in H.
  apply Ok_eq in H as <-.
  apply rapp_ok in E as (p & l1 & P & E & ->).
  apply Ok_eq in P as <-.
  apply rapp_ok in E as (im & l2 & I & E & ->).
  apply rapp_ok in E as (cs & l3 & C & E & ->).
  apply rapp_ok in E as (ms & l4 & M & E & ->).
  apply rapp_ok in E as (bs & rs & B & R & ->).
  unfold trim_blank_lines.
  match goal with |- exists n, pop_blanks ?f ?t ++ _ = _ => destruct (pop_blanks_nls f t) as (n & E) end.
  exists n.
  rewrite E.
  clear E.
  rewrite !show_ops2_app, append_assoc_s.
  f_equal.
  f_equal.
  { unfold DartGen.dart_lib_imports.
  rewrite !has_methods.
  cbn [existsb is_method orb andb].
  destruct (r && existsb is_method ast); [reflexivity|].
  now destruct b.
  }
  rewrite I.
  cbn [text_or].
  f_equal.
  f_equal.
  { destruct (contains_consts_nodes ast); [|now injection C as <-].
  cbn [bind] in C.
  now apply Ok_eq in C as <-.
  }
  f_equal.
  { destruct m; [|now injection M as <-].
  destruct (DartGen.generate_models ast); try discriminate.
  cbn [bind] in M.
  now apply Ok_eq in M as <-.
  }
  f_equal.
  { destruct b; [|now injection B as <-].
  destruct (DartGen.generate_buffers ast); try discriminate.
  cbn [bind] in B.
  now apply Ok_eq in B as <-.
  }
  destruct r; [|now injection R as <-].
  destruct (DartGen.generate_rpc ast); try discriminate.
  cbn [bind] in R.
  now apply Ok_eq in R as <-.
Qed.

(** A text that occurs in another. *)
Fixpoint occurs (needle s : string) : bool :=
  String.prefix needle s || match s with EmptyString => false | String _ s' => occurs needle s' end.

(** ** C39: indentation *)
(** Executed from any writer, the calls do not panic and leave the indentation level and the tab text as they
    were.  Since this includes a writer at level zero, the level never goes below its starting value. *)
Definition balanced (cs : list wcmd) : Prop :=
  forall w, exists w', run_cmds cs w = Ok w' /\ w_const_tabs w' = w_const_tabs w /\ w_tab w' = w_tab w.

Lemma run_cmds_app a b w : run_cmds (a ++ b) w = (let* w' := run_cmds a w in run_cmds b w').
Proof.
  revert w.
  induction a as [|c a IH]; intros w; [reflexivity|].
  cbn.
  destruct (exec_cmd c w); cbn; auto.
Qed.

Lemma balanced_nil : balanced [].
Proof.
  intros w.
  now exists w.
Qed.

Lemma balanced_app a b : balanced a -> balanced b -> balanced (a ++ b).
Proof.
  intros A B w.
  destruct (A w) as (w1 & R1 & N1 & T1).
  destruct (B w1) as (w2 & R2 & N2 & T2).
  exists w2.
  rewrite run_cmds_app, R1.
  cbn [bind].
  repeat split; congruence.
Qed.

Lemma balanced_do o cs : balanced cs -> balanced (Do o :: cs).
Proof.
  intros B w.
  destruct (B (exec_op o w)) as (w' & R & N & T).
  now exists w'.
Qed.

Lemma balanced_tab a b : balanced a -> balanced b -> balanced (PushTab :: a ++ PopTab :: b).
Proof.
  intros A B w.
  destruct (A (push_tab w)) as (w1 & R1 & N1 & T1).
  cbn [push_tab w_const_tabs w_tab] in N1, T1.
  destruct (B (mk_writer (w_res w1) (w_tab w1) (w_const_tabs w))) as (w2 & R2 & N2 & T2).
  exists w2.
  cbn [run_cmds exec_cmd bind].
  rewrite run_cmds_app, R1.
  cbn [bind run_cmds exec_cmd].
  unfold pop_tab.
  rewrite N1.
  cbn [bind].
  rewrite R2.
  cbn [w_const_tabs w_tab] in N2, T2.
  repeat split; congruence.
Qed.

Definition balanced_res (r : res (list wcmd)) : Prop := forall cs, r = Ok cs -> balanced cs.

Lemma balanced_ok cs : balanced cs -> balanced_res (Ok cs).
Proof.
  intros B c H.
  now apply Ok_eq in H as <-.
Qed.

Lemma balanced_bind {A} (r : res A) f : (forall a, balanced_res (f a)) -> balanced_res (bind r f).
Proof.
  intros H.
  destruct r as [a| |]; [apply H|intros ? ?; discriminate..].
Qed.

Lemma swift_app a b : balanced_res a -> balanced_res b -> balanced_res (SwiftGen.capp a b).
Proof.
  intros A B cs.
  unfold SwiftGen.capp.
  destruct a as [x| |]; try discriminate.
  destruct b as [y| |]; try discriminate.
  intros H.
  apply Ok_eq in H as <-.
  apply balanced_app; [now apply A|now apply B].
Qed.

Lemma kotlin_app a b : balanced_res a -> balanced_res b -> balanced_res (KotlinGen.capp a b).
Proof.
  intros A B cs.
  unfold KotlinGen.capp.
  destruct a as [x| |]; try discriminate.
  destruct b as [y| |]; try discriminate.
  intros H.
  apply Ok_eq in H as <-.
  apply balanced_app; [now apply A|now apply B].
Qed.

(** [pre ++ PushTab ++ r ++ PopTab ++ post]. *)
Lemma swift_tab pre post r : balanced pre -> balanced post -> balanced_res r ->
  balanced_res (SwiftGen.capp (Ok (pre ++ [PushTab])%list) (SwiftGen.capp r (Ok (PopTab :: post)))).
Proof.
  intros P Q R cs.
  unfold SwiftGen.capp.
  destruct r as [x| |]; cbn [bind]; try discriminate.
  intros H.
  apply Ok_eq in H as <-.
  rewrite <- app_assoc.
  apply balanced_app; [exact P|].
  cbn [app].
  apply balanced_tab; [now apply R|exact Q].
Qed.

Lemma kotlin_tab pre post r : balanced pre -> balanced post -> balanced_res r ->
  balanced_res (KotlinGen.capp (Ok (pre ++ [PushTab])%list) (KotlinGen.capp r (Ok (PopTab :: post)))).
Proof.
  intros P Q R cs.
  unfold KotlinGen.capp.
  destruct r as [x| |]; cbn [bind]; try discriminate.
  intros H.
  apply Ok_eq in H as <-.
  rewrite <- app_assoc.
  apply balanced_app; [exact P|].
  cbn [app].
  apply balanced_tab; [now apply R|exact Q].
Qed.

Ltac dos := repeat first [ exact balanced_nil | apply balanced_do | apply balanced_app
  | match goal with |- balanced (match ?x with _ => _ end) => destruct x end ].

Lemma swift_gap l t : balanced (SwiftGen.gap_cmds l t).
Proof.
  destruct l as [l|]; [|dos].
  unfold SwiftGen.gap_cmds.
  induction SwiftGen.gaps_pairs as [|p ps IH]; cbn [flat_map]; [dos|].
  dos; exact IH.
Qed.

Lemma kotlin_gap l t : balanced (KotlinGen.gap_cmds l t).
Proof.
  destruct l as [l|]; [|dos].
  unfold KotlinGen.gap_cmds.
  induction KotlinGen.gaps_pairs as [|p ps IH]; cbn [flat_map]; [dos|].
  dos; exact IH.
Qed.

Section Swift.

Variable f : SwiftGen.swift_ir -> res (list wcmd).

Lemma swift_tokens l ts : Forall (fun t => balanced_res (f t)) ts -> balanced_res (SwiftGen.write_tokens_from f l ts).
Proof.
  intros F.
  revert l.
  induction F as [|t ts T _ IH]; intros l; cbn [SwiftGen.write_tokens_from]; [apply balanced_ok; dos|].
  apply swift_app; [apply balanced_ok, swift_gap|].
  apply swift_app; [exact T|apply IH].
Qed.

Lemma swift_commas ts : Forall (fun t => balanced_res (f t)) ts -> balanced_res (SwiftGen.write_tokens_comma_separated f ts).
Proof.
  induction 1 as [|t ts T _ IH]; cbn [SwiftGen.write_tokens_comma_separated]; [apply balanced_ok; dos|].
  apply swift_app; [apply balanced_ok; dos|].
  apply swift_app; [exact T|].
  apply swift_app; [apply balanced_ok; dos|exact IH].
Qed.

Lemma swift_arguments ts : Forall (fun t => balanced_res (f t)) ts -> balanced_res (SwiftGen.write_arguments f ts).
Proof.
  intros F.
  unfold SwiftGen.write_arguments.
  destruct ts as [|t ts]; [apply balanced_ok; dos|].
  apply (swift_tab [Do (Write "("); Do NewLine]); [dos..|].
  now apply swift_commas.
Qed.

Lemma swift_block h ts : Forall (fun t => balanced_res (f t)) ts -> balanced_res (SwiftGen.write_block f h ts).
Proof.
  intros F.
  apply (swift_tab [Do (Writeln h)]); [dos..|].
  now apply swift_tokens.
Qed.

End Swift.

Ltac each IH := match goal with |- Forall _ ?l => clear - IH; induction l; constructor; [apply IH|assumption] end.

Lemma swift_token : forall t, balanced_res (SwiftGen.write_token t).
Proof.
  fix IH 1.
  intros [id body|id body|id ps|id ty|inst fd|id ty v|id ty|id st rt args body|id nm ty|body|ty body|id ty v|id ty v|ty m|id args]; cbn [SwiftGen.write_token].
  - apply swift_block.
  each IH.
  - apply swift_block.
  each IH.
  - assert (F : Forall (fun t => balanced_res (SwiftGen.write_token t)) ps) by each IH.
  destruct ps as [|p ps]; [apply balanced_ok; dos|].
  apply (swift_tab [Do (Writeln _)]); [dos..|].
  now apply swift_commas.
  - apply balanced_bind.
  intros s.
  destruct id; apply balanced_ok; dos.
  - apply swift_app; [|apply balanced_ok; dos].
  destruct inst as [t|]; [apply IH|apply balanced_ok; dos].
  - apply balanced_bind.
  intros s.
  apply balanced_bind.
  intros s2.
  apply balanced_ok.
  dos.
  - apply balanced_bind.
  intros s.
  apply balanced_ok.
  dos.
  - apply balanced_bind.
  intros s.
  apply swift_block.
  each IH.
  - apply balanced_ok.
  dos.
  - apply swift_app; [apply balanced_ok; dos|].
  apply swift_app; [apply IH|apply balanced_ok; dos].
  - apply balanced_bind.
  intros s.
  apply swift_app; [apply balanced_ok; dos|].
  apply swift_arguments.
  each IH.
  - destruct v as [v|]; [apply swift_app; [apply balanced_ok; dos|apply IH]|].
  apply balanced_bind.
  intros s.
  apply balanced_ok.
  dos.
  - apply swift_app; [apply balanced_ok; dos|].
  destruct v as [v|]; [apply IH|].
  apply balanced_bind.
  intros s.
  apply balanced_ok.
  dos.
  - apply balanced_ok.
  dos.
  - apply swift_app; [apply balanced_ok; dos|].
  apply swift_arguments.
  each IH.
Qed.

Section Kotlin.

Variable f : KotlinGen.kotlin_ir -> res (list wcmd).

Lemma kotlin_tokens l ts : Forall (fun t => balanced_res (f t)) ts -> balanced_res (KotlinGen.write_tokens_from f l ts).
Proof.
  intros F.
  revert l.
  induction F as [|t ts T _ IH]; intros l; cbn [KotlinGen.write_tokens_from]; [apply balanced_ok; dos|].
  apply kotlin_app; [apply balanced_ok, kotlin_gap|].
  apply kotlin_app; [exact T|apply IH].
Qed.

Lemma kotlin_separated ts s : Forall (fun t => balanced_res (f t)) ts -> balanced_res (KotlinGen.write_tokens_separated f ts s).
Proof.
  induction 1 as [|t ts T _ IH]; cbn [KotlinGen.write_tokens_separated]; [apply balanced_ok; dos|].
  apply kotlin_app; [exact T|].
  apply kotlin_app; [apply balanced_ok; dos|exact IH].
Qed.

Lemma kotlin_extends ts : Forall (fun t => balanced_res (f t)) ts -> balanced_res (KotlinGen.write_extends f ts).
Proof.
  intros F.
  unfold KotlinGen.write_extends.
  destruct ts as [|t ts]; [apply balanced_ok; dos|].
  apply kotlin_app; [apply balanced_ok; dos|].
  now apply kotlin_separated.
Qed.

Lemma kotlin_body ts : Forall (fun t => balanced_res (f t)) ts -> balanced_res (KotlinGen.write_body f ts).
Proof.
  intros F.
  unfold KotlinGen.write_body.
  destruct ts as [|t ts]; [apply balanced_ok; dos|].
  apply (kotlin_tab [Do (Write " {"); Do NewLine]); [dos..|].
  now apply kotlin_tokens.
Qed.

Lemma kotlin_parameters ts : Forall (fun t => balanced_res (f t)) ts -> balanced_res (KotlinGen.write_parameters f ts).
Proof.
  intros F.
  unfold KotlinGen.write_parameters.
  destruct ts as [|t ts]; [apply balanced_ok; dos|].
  apply (kotlin_tab [Do NewLine]); [dos..|].
  now apply kotlin_tokens.
Qed.

End Kotlin.

Lemma kotlin_token : forall t, balanced_res (KotlinGen.write_token t).
Proof.
  fix IH 1.
  intros [id body ex|id dc ex fields body|id sl body|id|id ct ty v|body sep|ty|ty v|ty|body| |id args rt body|id args rt body|id args|id v];
    cbn [KotlinGen.write_token]; try (apply balanced_ok; dos; fail).
  - apply kotlin_app; [apply balanced_ok; dos|].
  apply kotlin_app; [apply kotlin_extends; each IH|apply kotlin_body; each IH].
  - apply kotlin_app; [apply balanced_ok; dos|].
  assert (F : Forall (fun t => balanced_res (KotlinGen.write_token t)) fields) by each IH.
  apply kotlin_app.
  + destruct fields as [|p ps]; [apply balanced_ok; dos|].
  apply (kotlin_tab [Do NewLine]); [dos..|].
  now apply kotlin_tokens.
  + apply kotlin_app; [apply kotlin_extends; each IH|apply kotlin_body; each IH].
  - match goal with |- balanced_res (KotlinGen.capp (Ok ?x) _) =>
      replace x with ((Do WriteTabs :: (if sl then [Do (Write "sealed ")] else []) ++ [Do (Writeln ("interface " ++ id ++ " {"))]) ++ [PushTab])%list end.
  + apply kotlin_tab; [dos..|].
  apply kotlin_tokens.
  each IH.
  + now destruct sl.
  - apply kotlin_app; [apply balanced_ok; dos|].
  apply kotlin_app; [apply IH|].
  destruct v as [v|]; [|apply balanced_ok; dos].
  apply kotlin_app; [apply balanced_ok; dos|].
  apply IH.
  - apply kotlin_app; [apply balanced_ok; dos|].
  apply kotlin_app; [apply IH|apply balanced_ok; dos].
  - apply balanced_bind.
  intros s.
  apply balanced_ok.
  dos.
  - apply balanced_bind.
  intros s.
  apply balanced_ok.
  dos.
  - apply balanced_bind.
  intros s.
  apply balanced_ok.
  dos.
  - apply (kotlin_tab [Do (Writeln _)]); [dos..|].
  apply kotlin_tokens.
  each IH.
  - apply kotlin_app; [apply balanced_ok; dos|].
  apply kotlin_app; [apply kotlin_parameters; each IH|].
  apply kotlin_app; [apply balanced_ok; dos|].
  apply kotlin_app; [apply IH|].
  apply kotlin_app; [apply balanced_ok; dos|].
  apply kotlin_app; [apply IH|apply balanced_ok; dos].
  - apply kotlin_app; [apply balanced_ok; dos|].
  apply kotlin_app; [apply kotlin_parameters; each IH|].
  apply kotlin_app; [apply balanced_ok; dos|].
  apply kotlin_app; [apply IH|].
  apply (kotlin_tab [Do (Write " {"); Do NewLine]); [dos..|].
  apply kotlin_tokens.
  each IH.
  - apply kotlin_app; [apply balanced_ok; dos|].
  assert (F : Forall (fun t => balanced_res (KotlinGen.write_token t)) args) by each IH.
  destruct args as [|p ps]; [apply balanced_ok; dos|].
  apply (kotlin_tab [Do (Write "("); Do NewLine]); [dos..|].
  now apply kotlin_tokens.
  - apply kotlin_app; [apply balanced_ok; dos|apply IH].
Qed.

Lemma lem_C39_swift : forall tokens cs, SwiftGen.write_tokens_from SwiftGen.write_token None tokens = Ok cs -> balanced cs.
Proof.
  intros ts cs.
  apply swift_tokens.
  apply Forall_forall.
  intros t _.
  apply swift_token.
Qed.

Lemma lem_C39_kotlin : forall tokens cs, KotlinGen.write_tokens_from KotlinGen.write_token None tokens = Ok cs -> balanced cs.
Proof.
  intros ts cs.
  apply kotlin_tokens.
  apply Forall_forall.
  intros t _.
  apply kotlin_token.
Qed.

Lemma lem_C39_appending_calls : forall ops, balanced (map Do ops).
Proof.
  induction ops as [|o ops IH]; cbn; dos.
  exact IH.
Qed.

(** ** C43: Swift and Kotlin *)
(** A literal that the declared type can hold, as far as the two printers are concerned: integers are for integer
    types and the two address types, numbers are for floating point types. *)
Inductive fits : literal -> type_id -> Prop :=
| fits_string s t : fits (StringLit s) t
| fits_bool b t : fits (BoolLit b) t
| fits_integer z n size signed : fits (IntLit z) (TyInteger n size signed)
| fits_group z : fits (IntLit z) (TyOther "GroupAddress")
| fits_commands z : fits (IntLit z) (TyOther "CommandsBufferAddress")
| fits_number x n size : fits (NumberLit x) (TyNumber n size).

(** The constants of a block, at any depth, and of a schema. *)
Inductive const_in : const_node -> type_id -> literal -> Prop :=
| const_here id items i t lit a : In (ConstItemValue i t (ConstLiteral lit a)) items -> const_in (ConstNode id items) t lit
| const_below id items c t lit : In (ConstItemNode c) items -> const_in c t lit -> const_in (ConstNode id items) t lit.

Definition misfit (ast : list ast_node) : Prop :=
  exists c t lit, In (NConst c) ast /\ const_in c t lit /\ ~ fits lit t.

Definition misfit_in (c : const_node) : Prop := exists t lit, const_in c t lit /\ ~ fits lit t.

(** [r] panics exactly if [bad]. *)
Definition verdict {A} (r : res A) (bad : Prop) : Prop := (bad /\ r = Panic) \/ (~ bad /\ fine r).

Lemma verdict_fine {A} (r : res A) : fine r -> verdict r False.
Proof.
  right.
  tauto.
Qed.

Lemma verdict_iff {A} (r : res A) p q : verdict r p -> (p <-> q) -> verdict r q.
Proof.
  unfold verdict.
  tauto.
Qed.

Lemma verdict_bind {A B} (r : res A) (f : A -> res B) p q : verdict r p -> (forall a, verdict (f a) q) -> verdict (bind r f) (p \/ q).
Proof.
  intros [[P ->]|[P (a & ->)]] F; [left; cbn; tauto|].
  cbn [bind].
  destruct (F a) as [[Q ->]|[Q X]]; [left|right]; tauto.
Qed.

Lemma swift_verdict_app a b p q : verdict a p -> verdict b q -> verdict (SwiftGen.capp a b) (p \/ q).
Proof.
  intros A B.
  unfold SwiftGen.capp.
  apply verdict_bind; [exact A|].
  intros x.
  apply (verdict_iff _ (q \/ False)); [|tauto].
  apply verdict_bind; [exact B|].
  intros y.
  apply verdict_fine.
  apply fine_ok.
Qed.

Lemma kotlin_verdict_app a b p q : verdict a p -> verdict b q -> verdict (KotlinGen.capp a b) (p \/ q).
Proof.
  intros A B.
  unfold KotlinGen.capp.
  apply verdict_bind; [exact A|].
  intros x.
  apply (verdict_iff _ (q \/ False)); [|tauto].
  apply verdict_bind; [exact B|].
  intros y.
  apply verdict_fine.
  apply fine_ok.
Qed.

Lemma swift_verdict_tokens {A} f (g : A -> _) bad l : forall last, (forall x, In x l -> verdict (f (g x)) (bad x)) ->
  verdict (SwiftGen.write_tokens_from f last (map g l)) (exists x, In x l /\ bad x).
Proof.
  induction l as [|x l IH]; intros last F; cbn [map SwiftGen.write_tokens_from].
  - apply (verdict_iff _ False); [apply verdict_fine; apply fine_ok|].
  split; [tauto|].
  now intros (y & [] & _).
  - eapply verdict_iff.
  + apply swift_verdict_app; [apply verdict_fine; apply fine_ok|].
  apply swift_verdict_app; [apply F; now left|].
  apply IH.
  intros y I.
  apply F.
  now right.
  + split; [intros [[]|[H|(u & I & H)]]; [exists x; cbn; auto|exists u; cbn; auto]|].
  intros (u & [->|I] & H); [tauto|].
  right.
  right.
  eauto.
Qed.

Lemma kotlin_verdict_tokens {A} f (g : A -> _) bad l : forall last, (forall x, In x l -> verdict (f (g x)) (bad x)) ->
  verdict (KotlinGen.write_tokens_from f last (map g l)) (exists x, In x l /\ bad x).
Proof.
  induction l as [|x l IH]; intros last F; cbn [map KotlinGen.write_tokens_from].
  - apply (verdict_iff _ False); [apply verdict_fine; apply fine_ok|].
  split; [tauto|].
  now intros (y & [] & _).
  - eapply verdict_iff.
  + apply kotlin_verdict_app; [apply verdict_fine; apply fine_ok|].
  apply kotlin_verdict_app; [apply F; now left|].
  apply IH.
  intros y I.
  apply F.
  now right.
  + split; [intros [[]|[H|(u & I & H)]]; [exists x; cbn; auto|exists u; cbn; auto]|].
  intros (u & [->|I] & H); [tauto|].
  right.
  right.
  eauto.
Qed.

Lemma sized_all l : (fix all l := match l with [] => True | t :: l' => sized t /\ all l' end) l <-> forall t, In t l -> sized t.
Proof.
  induction l as [|t l IH]; [split; [intros _ ? []|auto]|].
  split.
  - intros [T L] u [->|I]; [exact T|].
  now apply IH.
  - intros H.
  split; [apply H; now left|].
  apply IH.
  intros u I.
  apply H.
  now right.
Qed.

Section TypeInd.

Variable P : type_id -> Prop.

Hypothesis leaf : forall t, match t with TyGeneric _ _ => False | _ => True end -> P t.

Hypothesis node : forall n l, (forall t, In t l -> P t) -> P (TyGeneric n l).

Fixpoint type_ind2 (t : type_id) : P t :=
    match t return P t with
    | TyGeneric n l => node n l ((fix go (l : list type_id) : forall t, In t l -> P t :=
        match l return forall t, In t l -> P t with
        | [] => fun t I => match I with end
        | u :: l' => fun t I => match I with or_introl E => match E in _ = x return P x with eq_refl => type_ind2 u end | or_intror J => go l' t J end
        end) l)
    | TyInteger a b c => leaf (TyInteger a b c) Logic.I
    | TyNumber a b => leaf (TyNumber a b) Logic.I
    | TyBool a => leaf (TyBool a) Logic.I
    | TyChar a => leaf (TyChar a) Logic.I
    | TyOther a => leaf (TyOther a) Logic.I
    end.

End TypeInd.

Lemma mapM_fine {A B} (f : A -> res B) l : (forall x, In x l -> fine (f x)) -> fine (mapM f l).
Proof.
  induction l as [|x l IH]; intros H; [apply fine_ok|].
  cbn [mapM].
  destruct (H x (or_introl eq_refl)) as (y & ->).
  cbn [bind].
  destruct IH as (ys & ->); [intros z I; apply H; now right|].
  apply fine_ok.
Qed.

Ltac sized_cases :=
  match goal with
  | S : (_ = "i8" /\ _) \/ _ |- _ => destruct S as [(_ & -> & ->)|[(_ & -> & ->)|[(_ & -> & ->)|[(_ & -> & ->)|[(_ & -> & ->)|(_ & -> & ->)]]]]]
  | S : (_ = "f32" /\ _) \/ _ |- _ => destruct S as [[_ ->]|[_ ->]]
  end.

Lemma swift_type_fine t : sized t -> fine (SwiftGen.generate_type_id t).
Proof.
  induction t as [t L|n l IH] using type_ind2.
  - destruct t as [n s g|n s|n|n|n l|n]; cbn; try (intros S; try sized_cases; apply fine_ok); try contradiction.
  intros _.
  destruct (String.eqb n "GroupAddress"); [apply fine_ok|].
  destruct (String.eqb n "CommandsBufferAddress"); apply fine_ok.
  - cbn.
  intros [_ S].
  rewrite sized_all in S.
  destruct (mapM_fine SwiftGen.generate_type_id l) as (y & ->); [auto|].
  cbn [bind].
  destruct (String.eqb n "Vec"); apply fine_ok.
Qed.

Lemma kotlin_type_fine t : sized t -> fine (KotlinGen.generate_type_id t).
Proof.
  induction t as [t L|n l IH] using type_ind2.
  - destruct t as [n s g|n s|n|n|n l|n]; cbn; try (intros S; try sized_cases; apply fine_ok); try contradiction.
  intros _.
  destruct (String.eqb n "GroupAddress"); [apply fine_ok|].
  destruct (String.eqb n "CommandsBufferAddress"); apply fine_ok.
  - cbn.
  intros [_ S].
  rewrite sized_all in S.
  destruct (mapM_fine KotlinGen.generate_type_id l) as (y & ->); [auto|].
  cbn [bind].
  destruct (String.eqb n "Vec"); apply fine_ok.
Qed.

Lemma swift_value lit a t : sized t -> verdict (SwiftGen.generate_const_value (ConstLiteral lit a) t) (~ fits lit t).
Proof.
  intros S.
  destruct lit as [s|z|x|b]; cbn; try (right; split; [intros F; apply F; constructor|apply fine_ok]).
  - destruct t as [n k g|n k|n|n|n l|n]; try (left; split; [intros F; inversion F; fail|reflexivity]);
      try (right; split; [intros F; apply F; constructor|apply fine_ok]).
  destruct (String.eqb_spec n "GroupAddress") as [->|N1]; [right; split; [intros F; apply F; constructor|apply fine_ok]|].
  destruct (String.eqb_spec n "CommandsBufferAddress") as [->|N2]; [right; split; [intros F; apply F; constructor|apply fine_ok]|].
  left; split; [intros F; inversion F; congruence|reflexivity].
  - destruct t as [n k g|n k|n|n|n l|n]; try (left; split; [intros F; inversion F; fail|reflexivity]).
  right; split; [intros F; apply F; constructor|].
  cbn in S.
  sized_cases; apply fine_ok.
Qed.

Lemma kotlin_value lit a t : sized t -> verdict (KotlinGen.generate_const_value t (ConstLiteral lit a)) (~ fits lit t).
Proof.
  intros S.
  destruct lit as [s|z|x|b]; cbn; try (right; split; [intros F; apply F; constructor|apply fine_ok]).
  - destruct t as [n k g|n k|n|n|n l|n]; try (left; split; [intros F; inversion F; fail|reflexivity]);
      try (right; split; [intros F; apply F; constructor|]).
  { cbn in S.
  sized_cases; apply fine_ok.
  }
    destruct (String.eqb_spec n "GroupAddress") as [->|N1]; [right; split; [intros F; apply F; constructor|apply fine_ok]|].
  destruct (String.eqb_spec n "CommandsBufferAddress") as [->|N2]; [right; split; [intros F; apply F; constructor|apply fine_ok]|].
  left; split; [intros F; inversion F; congruence|reflexivity].
  - destruct t as [n k g|n k|n|n|n l|n]; try (left; split; [intros F; inversion F; fail|reflexivity]).
  right; split; [intros F; apply F; constructor|].
  cbn in S.
  sized_cases; apply fine_ok.
Qed.

Lemma misfit_node id items : misfit_in (ConstNode id items) <->
  (exists i t lit a, In (ConstItemValue i t (ConstLiteral lit a)) items /\ ~ fits lit t) \/ (exists c, In (ConstItemNode c) items /\ misfit_in c).
Proof.
  split.
  - intros (t & lit & C & N).
  inversion C; subst; [left; eauto 8|right].
  eexists.
  split; [eassumption|].
  now exists t, lit.
  - intros [(i & t & lit & a & I & N)|(c & I & t & lit & C & N)]; exists t, lit; (split; [|exact N]); [eapply const_here|eapply const_below]; eassumption.
Qed.

Definition item_misfit (i : const_item) : Prop :=
  match i with ConstItemValue _ t (ConstLiteral lit _) => ~ fits lit t | ConstItemNode c => misfit_in c end.

Lemma misfit_items id items : misfit_in (ConstNode id items) <-> exists i, In i items /\ item_misfit i.
Proof.
  rewrite misfit_node.
  split.
  - intros [(i & t & lit & a & I & N)|(c & I & M)]; eexists; (split; [exact I|]); assumption.
  - intros ([i t [lit a]|c] & I & M); [left|right]; eauto 8.
Qed.

Section ConstInd2.

Variable P : const_node -> Prop.

Hypothesis step : forall id items, (forall c, In (ConstItemNode c) items -> P c) -> P (ConstNode id items).

Lemma const_induction : forall c, P c.
Proof.
  fix IH 1.
  intros [id items].
  apply step.
  induction items as [|[i t v|c] items IHi]; intros d J; [destruct J|..].
  - destruct J as [E|I]; [discriminate|].
  now apply IHi.
  - destruct J as [E|I]; [injection E as <-; apply IH|now apply IHi].
Qed.

End ConstInd2.

Lemma const_types_sized id items : (forall t, In t (const_types (ConstNode id items)) -> sized t) ->
  (forall i t v, In (ConstItemValue i t v) items -> sized t) /\ (forall c, In (ConstItemNode c) items -> forall t, In t (const_types c) -> sized t).
Proof.
  intros S.
  split.
  - intros i t v I.
  apply S.
  cbn.
  apply in_flat_map.
  eexists.
  split; [exact I|].
  now left.
  - intros c I t T.
  apply S.
  cbn.
  apply in_flat_map.
  eexists.
  split; [exact I|].
  exact T.
Qed.

Lemma swift_const c : (forall t, In t (const_types c) -> sized t) -> verdict (SwiftGen.write_token (SwiftGen.generate_const_block c)) (misfit_in c).
Proof.
  induction c as [id items IH] using const_induction.
  intros S.
  apply const_types_sized in S as [S1 S2].
  cbn [SwiftGen.generate_const_block SwiftGen.write_token].
  unfold SwiftGen.write_block.
  eapply verdict_iff; [apply swift_verdict_app; [apply verdict_fine; apply fine_ok|]; apply swift_verdict_app; [|apply verdict_fine; apply fine_ok]|].
  { apply (swift_verdict_tokens _ _ item_misfit).
  intros [i t [lit a]|c] I; cbn [SwiftGen.write_token item_misfit].
  - apply S1 in I.
  destruct (swift_type_fine t I) as (y & ->).
  cbn [bind].
  eapply verdict_iff; [apply verdict_bind; [now apply swift_value|]; intros v; apply verdict_fine; apply fine_ok|].
  tauto.
  - apply IH; [exact I|].
  now apply S2.
  }
  rewrite misfit_items.
  tauto.
Qed.

Lemma kotlin_const c : (forall t, In t (const_types c) -> sized t) -> verdict (KotlinGen.write_token (KotlinGen.generate_const_block c)) (misfit_in c).
Proof.
  induction c as [id items IH] using const_induction.
  intros S.
  apply const_types_sized in S as [S1 S2].
  cbn [KotlinGen.generate_const_block KotlinGen.write_token].
  unfold KotlinGen.write_extends, KotlinGen.write_body.
  assert (V : verdict (KotlinGen.write_tokens_from KotlinGen.write_token None (map (fun item =>
          match item with
          | ConstItemValue id ty value =>
              KotlinGen.KDeclaration (KotlinGen.KValDeclaration id true (KotlinGen.KTypeId ty) (Some (KotlinGen.KConstValueExpr ty value))) None
          | ConstItemNode node => KotlinGen.generate_const_block node
          end) items)) (misfit_in (ConstNode id items))).
  { eapply verdict_iff; [|symmetry; apply misfit_items].
  apply (kotlin_verdict_tokens _ _ item_misfit).
  intros [i t [lit a]|c] I; cbn [KotlinGen.write_token item_misfit].
  - apply S1 in I.
  destruct (kotlin_type_fine t I) as (y & ->).
  cbn [bind].
  eapply verdict_iff; [repeat first [apply kotlin_verdict_app | apply verdict_fine; apply fine_ok]; apply verdict_bind; [now apply kotlin_value|]; intros v; apply verdict_fine; apply fine_ok|].
  tauto.
  - apply IH; [exact I|].
  now apply S2.
  }
  eapply verdict_iff; [repeat first [apply kotlin_verdict_app | apply verdict_fine; apply fine_ok]|].
  { instantiate (1 := misfit_in (ConstNode id items)).
  destruct items as [|x items]; cbn [map].
  - right.
  split; [|apply fine_ok].
  rewrite misfit_items.
  now intros (i & [] & _).
  - eapply verdict_iff; [apply kotlin_verdict_app; [apply verdict_fine; apply fine_ok|]; apply kotlin_verdict_app; [exact V|apply verdict_fine; apply fine_ok]|].
  tauto.
  }
  tauto.
Qed.

(** Running the calls does not add a panic. *)
Lemma swift_stringify ts p : verdict (SwiftGen.write_tokens_from SwiftGen.write_token None ts) p -> verdict (SwiftGen.stringify_tokens ts) p.
Proof.
  unfold SwiftGen.stringify_tokens.
  intros [[P ->]|[P (cs & E)]]; [left; auto|right].
  split; [exact P|].
  rewrite E.
  cbn [bind].
  destruct (lem_C39_swift ts cs E writer_default) as (w & R & _).
  unfold show_cmds.
  rewrite R.
  apply fine_ok.
Qed.

Lemma kotlin_stringify ts p : verdict (KotlinGen.write_tokens_from KotlinGen.write_token None ts) p -> verdict (KotlinGen.stringify_tokens ts) p.
Proof.
  unfold KotlinGen.stringify_tokens.
  intros [[P ->]|[P (cs & E)]]; [left; auto|right].
  split; [exact P|].
  rewrite E.
  cbn [bind].
  destruct (lem_C39_kotlin ts cs E writer_default) as (w & R & _).
  unfold show_cmds.
  rewrite R.
  apply fine_ok.
Qed.

Fixpoint consts_of (ast : list ast_node) : list const_node :=
  match ast with [] => [] | NConst c :: r => c :: consts_of r | _ :: r => consts_of r end.

Lemma consts_of_in ast c : In c (consts_of ast) <-> In (NConst c) ast.
Proof.
  induction ast as [|[e|s|f|d|k] ast IH]; cbn; rewrite ?IH; split; intros; repeat match goal with H : _ \/ _ |- _ => destruct H end; try discriminate; auto; try congruence; left; congruence.
Qed.

Lemma swift_consts_of ast : SwiftGen.generate_consts ast = map SwiftGen.generate_const_block (consts_of ast).
Proof.
  unfold SwiftGen.generate_consts.
  induction ast as [|[e|s|f|d|k] ast IH]; cbn [flat_map consts_of map app]; [reflexivity|exact IH..|now rewrite IH].
Qed.

Lemma kotlin_consts_of ast : KotlinGen.generate_consts ast = map KotlinGen.generate_const_block (consts_of ast).
Proof.
  unfold KotlinGen.generate_consts.
  induction ast as [|[e|s|f|d|k] ast IH]; cbn [flat_map consts_of map app]; [reflexivity|exact IH..|now rewrite IH].
Qed.

Lemma misfit_of ast : misfit ast <-> exists c, In c (consts_of ast) /\ misfit_in c.
Proof.
  unfold misfit, misfit_in.
  split.
  - intros (c & t & l & I & C & F).
  exists c.
  rewrite consts_of_in.
  eauto.
  - intros (c & I & t & l & C & F).
  rewrite consts_of_in in I.
  eauto 8.
Qed.

Lemma swift_consts_verdict ts ast : parse ts = Ok ast -> verdict (SwiftGen.stringify_tokens (SwiftGen.generate_consts ast)) (misfit ast).
Proof.
  intros P.
  apply swift_stringify.
  rewrite swift_consts_of.
  eapply verdict_iff; [|symmetry; apply misfit_of].
  apply (swift_verdict_tokens _ _ misfit_in).
  intros c I.
  apply swift_const.
  intros t T.
  apply consts_of_in in I.
  eapply lem_C14_types_are_sized; eassumption.
Qed.

Lemma kotlin_consts_verdict ts ast : parse ts = Ok ast -> verdict (KotlinGen.stringify_tokens (KotlinGen.generate_consts ast)) (misfit ast).
Proof.
  intros P.
  apply kotlin_stringify.
  rewrite kotlin_consts_of.
  eapply verdict_iff; [|symmetry; apply misfit_of].
  apply (kotlin_verdict_tokens _ _ misfit_in).
  intros c I.
  apply kotlin_const.
  intros t T.
  apply consts_of_in in I.
  eapply lem_C14_types_are_sized; eassumption.
Qed.

Lemma lem_C43_swift_constants : forall ts ast, parse ts = Ok ast ->
  (SwiftGen.stringify_tokens (SwiftGen.generate_consts ast) = Panic <-> misfit ast) /\
  (~ misfit ast -> exists s, SwiftGen.stringify_tokens (SwiftGen.generate_consts ast) = Ok s).
Proof.
  intros ts ast P.
  destruct (swift_consts_verdict ts ast P) as [[M ->]|[M (s & ->)]]; (split; [split|]); intros H; try discriminate; try tauto.
  eauto.
Qed.

Lemma lem_C43_kotlin_constants : forall ts ast, parse ts = Ok ast ->
  (KotlinGen.stringify_tokens (KotlinGen.generate_consts ast) = Panic <-> misfit ast) /\
  (~ misfit ast -> exists s, KotlinGen.stringify_tokens (KotlinGen.generate_consts ast) = Ok s).
Proof.
  intros ts ast P.
  destruct (kotlin_consts_verdict ts ast P) as [[M ->]|[M (s & ->)]]; (split; [split|]); intros H; try discriminate; try tauto.
  eauto.
Qed.

(** Models never panic. *)
Lemma swift_fine_tokens ts l : (forall t, In t ts -> fine (SwiftGen.write_token t)) -> fine (SwiftGen.write_tokens_from SwiftGen.write_token l ts).
Proof.
  intros F.
  rewrite <- (map_id ts).
  destruct (swift_verdict_tokens SwiftGen.write_token (fun t => t) (fun _ => False) ts l) as [[(x & _ & [])]|[_ H]]; [|exact H].
  intros x I.
  apply verdict_fine.
  now apply F.
Qed.

Lemma kotlin_fine_tokens ts l : (forall t, In t ts -> fine (KotlinGen.write_token t)) -> fine (KotlinGen.write_tokens_from KotlinGen.write_token l ts).
Proof.
  intros F.
  rewrite <- (map_id ts).
  destruct (kotlin_verdict_tokens KotlinGen.write_token (fun t => t) (fun _ => False) ts l) as [[(x & _ & [])]|[_ H]]; [|exact H].
  intros x I.
  apply verdict_fine.
  now apply F.
Qed.

Lemma swift_fine_app a b : fine a -> fine b -> fine (SwiftGen.capp a b).
Proof.
  intros (x & ->) (y & ->).
  now exists (x ++ y)%list.
Qed.

Lemma kotlin_fine_app a b : fine a -> fine b -> fine (KotlinGen.capp a b).
Proof.
  intros (x & ->) (y & ->).
  now exists (x ++ y)%list.
Qed.

Lemma swift_fine_commas ts : (forall t, In t ts -> fine (SwiftGen.write_token t)) -> fine (SwiftGen.write_tokens_comma_separated SwiftGen.write_token ts).
Proof.
  induction ts as [|t ts IH]; intros F; cbn [SwiftGen.write_tokens_comma_separated]; [apply fine_ok|].
  repeat first [apply swift_fine_app | apply fine_ok | apply F; now left].
  apply IH.
  intros u I.
  apply F.
  now right.
Qed.

Lemma swift_fine_arguments ts : (forall t, In t ts -> fine (SwiftGen.write_token t)) -> fine (SwiftGen.write_arguments SwiftGen.write_token ts).
Proof.
  intros F.
  unfold SwiftGen.write_arguments.
  apply swift_fine_commas in F.
  destruct ts; [apply fine_ok|].
  repeat first [exact F | apply swift_fine_app | apply fine_ok].
Qed.

Lemma swift_default_fine t : sized t -> fine (SwiftGen.generate_default_const_value t).
Proof.
  destruct t as [n s g|n s|n|n|n l|n]; cbn; intros S; try apply fine_ok.
  - destruct S as [_ S].
  rewrite sized_all in S.
  destruct (String.eqb n "Vec"); [apply fine_ok|].
  apply fine_bind; [|intros; apply fine_ok].
  apply mapM_fine.
  intros t I.
  now apply swift_type_fine, S.
  - destruct (String.eqb n "String"); [apply fine_ok|].
  destruct (String.eqb n "Vec"); apply fine_ok.
Qed.

Lemma kotlin_default_fine t : sized t -> fine (KotlinGen.generate_default_const_value t).
Proof.
  destruct t as [n s g|n s|n|n|n l|n]; cbn; intros S; try sized_cases; try apply fine_ok.
  - destruct S as [_ S].
  rewrite sized_all in S.
  destruct (String.eqb n "Vec"); [apply fine_ok|].
  apply fine_bind; [|intros; apply fine_ok].
  apply mapM_fine.
  intros t I.
  now apply kotlin_type_fine, S.
  - destruct (String.eqb n "String"); [apply fine_ok|].
  destruct (String.eqb n "Vec"); apply fine_ok.
Qed.

(** A type made of a declared name. *)
Lemma swift_other_fine n : fine (SwiftGen.generate_type_id (TyOther n)).
Proof.
  cbn.
  destruct (String.eqb n "GroupAddress"); [apply fine_ok|].
  destruct (String.eqb n "CommandsBufferAddress"); apply fine_ok.
Qed.

Lemma kotlin_other_fine n : fine (KotlinGen.generate_type_id (TyOther n)).
Proof.
  cbn.
  destruct (String.eqb n "GroupAddress"); [apply fine_ok|].
  destruct (String.eqb n "CommandsBufferAddress"); apply fine_ok.
Qed.

Lemma swift_block_fine h ts : (forall t, In t ts -> fine (SwiftGen.write_token t)) -> fine (SwiftGen.write_block SwiftGen.write_token h ts).
Proof.
  intros F.
  unfold SwiftGen.write_block.
  repeat first [apply swift_fine_app | apply fine_ok].
  now apply swift_fine_tokens.
Qed.

Lemma swift_struct_fine s : (forall t, In t (map sf_type (sn_fields s)) -> sized t) -> fine (SwiftGen.write_token (SwiftGen.generate_struct_model s true)).
Proof.
  intros S.
  unfold SwiftGen.generate_struct_model.
  cbn [SwiftGen.write_token].
  apply swift_block_fine.
  intros t I.
  apply in_app_or in I as [I|[<-|[]]].
  - apply in_map_iff in I as (f & <- & I).
  cbn [SwiftGen.write_token].
  apply fine_bind; [|intros; apply fine_ok].
  apply swift_type_fine, S.
  now apply in_map.
  - cbn [SwiftGen.write_token].
  apply fine_bind; [apply swift_other_fine|].
  intros a.
  apply swift_block_fine.
  intros t [<-|[]].
  cbn [SwiftGen.write_token].
  repeat first [apply swift_fine_app | apply fine_ok].
  apply fine_bind; [apply swift_other_fine|].
  intros b.
  repeat first [apply swift_fine_app | apply fine_ok].
  apply swift_fine_arguments.
  intros t I.
  apply in_map_iff in I as (f & <- & I).
  cbn [SwiftGen.write_token].
  apply fine_bind; [|intros; apply fine_ok].
  apply swift_default_fine, S.
  now apply in_map.
Qed.

Lemma swift_enum_fine e t : (forall t, In t (flat_map item_types (en_items e)) -> sized t) -> SwiftGen.generate_enum_model e = Ok t -> fine (SwiftGen.write_token t).
Proof.
  intros S.
  unfold SwiftGen.generate_enum_model.
  destruct (en_items e) as [|d l] eqn:E; [discriminate|].
  intros H.
  apply Ok_eq in H as <-.
  rewrite <- E in S |- *.
  assert (D : In d (en_items e)) by (rewrite E; now left).
  clear E.
  assert (S2 : forall i t, In i (en_items e) -> In t (item_types i) -> sized t) by (intros i t I J; apply S, in_flat_map; eauto).
  clear S.
  cbn [SwiftGen.write_token].
  apply swift_block_fine.
  intros t I.
  apply in_app_or in I as [I|[<-|[]]].
  - apply in_map_iff in I as (i & <- & I).
  cbn [SwiftGen.write_token].
  assert (F : forall t, In t (SwiftGen.case_parameters i) -> fine (SwiftGen.write_token t)).
  { intros t J.
  destruct i as [p n|p n vs|p n fs]; cbn [SwiftGen.case_parameters] in J; [destruct J|..]; apply in_map_iff in J as (f & <- & J); cbn [SwiftGen.write_token];
        (apply fine_bind; [|intros; apply fine_ok]); apply swift_type_fine; eapply S2; try exact I; cbn; now apply in_map.
  }
    apply swift_fine_commas in F.
  destruct (SwiftGen.case_parameters i); [apply fine_ok|].
  repeat first [exact F | apply swift_fine_app | apply fine_ok].
  - cbn [SwiftGen.write_token].
  apply fine_bind; [apply swift_other_fine|].
  intros a.
  apply swift_block_fine.
  intros t [<-|[]].
  cbn [SwiftGen.write_token].
  repeat first [apply swift_fine_app | apply fine_ok].
  destruct d as [p n|p n vs|p n fs]; cbn [SwiftGen.write_token];
    repeat first [apply swift_fine_app | apply fine_ok]; apply swift_fine_arguments; intros t I; apply in_map_iff in I as (f & <- & I); cbn [SwiftGen.write_token];
    (apply swift_fine_app; [apply fine_ok|]); (apply fine_bind; [|intros; apply fine_ok]); apply swift_default_fine; eapply S2; try exact D; cbn; now apply in_map.
Qed.

Lemma in_concat_map {A B} (f : A -> res (list B)) l : forall ys, mapM f l = Ok ys -> forall y, In y (concat ys) -> exists x z, In x l /\ f x = Ok z /\ In y z.
Proof.
  induction l as [|x l IH]; intros ys; cbn [mapM].
  - intros [= <-] y [].
  - destruct (f x) as [z| |] eqn:F; try discriminate.
  cbn [bind].
  destruct (mapM f l) as [zs| |]; try discriminate.
  intros [= <-] y I.
  cbn in I.
  apply in_app_or in I as [I|I]; [exists x, z; cbn; auto|].
  destruct (IH zs eq_refl y I) as (u & v & J & K & M).
  exists u, v.
  cbn; auto.
Qed.

Lemma lem_C43_swift_models : forall ts ast, parse ts = Ok ast ->
  exists tokens s, SwiftGen.generate_models ast = Ok tokens /\ SwiftGen.stringify_tokens tokens = Ok s.
Proof.
  intros ts ast P.
  unfold SwiftGen.generate_models.
  match goal with |- context [mapM ?f ast] => destruct (mapM_fine f ast) as (ys & E) end.
  { intros [e|s|f|d|c] I; try apply fine_ok.
  unfold SwiftGen.generate_enum_model.
  destruct (en_items e) eqn:N; [|apply fine_ok].
  exfalso.
  exact (lem_C14_enums_have_variants ts ast e P I N).
  }
  rewrite E.
  cbn [bind].
  exists (concat ys).
  assert (F : forall t, In t (concat ys) -> fine (SwiftGen.write_token t)).
  { intros t I.
  destruct (in_concat_map _ _ _ E t I) as (n & z & J & K & M).
  assert (S : forall t, In t (decl_types n) -> sized t) by (intros u U; exact (lem_C14_types_are_sized ts ast n u P J U)).
  destruct n as [e|s|f|d|c]; try (injection K as <-; destruct M; fail).
  - destruct (SwiftGen.generate_enum_model e) as [u| |] eqn:G; try discriminate.
  cbn [bind] in K.
  injection K as <-.
  destruct M as [<-|[]].
  now apply (swift_enum_fine e).
  - injection K as <-.
  destruct M as [<-|[]].
  now apply swift_struct_fine.
  }
  destruct (swift_stringify (concat ys) False) as [[[] _]|[_ (s & R)]].
  { apply verdict_fine, swift_fine_tokens.
  exact F.
  }
  now exists s.
Qed.

Ltac kfine := repeat match goal with |- fine (KotlinGen.capp _ _) => apply kotlin_fine_app | |- fine (Ok _) => apply fine_ok end.

Lemma kotlin_separated_fine ts s : (forall t, In t ts -> fine (KotlinGen.write_token t)) -> fine (KotlinGen.write_tokens_separated KotlinGen.write_token ts s).
Proof.
  induction ts as [|t ts IH]; intros F; cbn [KotlinGen.write_tokens_separated]; [apply fine_ok|].
  kfine; [apply F; now left|].
  apply IH.
  intros u I.
  apply F.
  now right.
Qed.

Lemma kotlin_args_fine id fs : (forall f, In f fs -> sized (sf_type f)) -> fine (KotlinGen.write_token (KotlinGen.KCall id (KotlinGen.default_arguments fs))).
Proof.
  intros S.
  cbn [KotlinGen.write_token].
  kfine.
  assert (F : fine (KotlinGen.write_tokens_from KotlinGen.write_token None (KotlinGen.default_arguments fs))).
  { apply kotlin_fine_tokens.
  intros t I.
  apply in_map_iff in I as (f & <- & I).
  cbn [KotlinGen.write_token].
  kfine.
  apply fine_bind; [|intros; apply fine_ok].
  now apply kotlin_default_fine, S.
  }
  destruct (KotlinGen.default_arguments fs); kfine.
  exact F.
Qed.

Lemma kotlin_vals_fine fs : (forall t, In t fs -> exists n ty, t = KotlinGen.KDeclaration (KotlinGen.KValDeclaration n false (KotlinGen.KTypeId ty) None) (Some ",") /\ sized ty) ->
  fine (KotlinGen.write_tokens_from KotlinGen.write_token None fs).
Proof.
  intros F.
  apply kotlin_fine_tokens.
  intros t I.
  destruct (F t I) as (n & ty & -> & S).
  cbn [KotlinGen.write_token].
  kfine.
  apply fine_bind; [|intros; apply fine_ok].
  now apply kotlin_type_fine.
Qed.

Lemma kotlin_default_fun_fine n body : fine (KotlinGen.write_token body) ->
  fine (KotlinGen.write_token (KotlinGen.KCompanionObject [KotlinGen.KFunInline "createDefault" [] (KotlinGen.KTypeId (TyOther n)) body])).
Proof.
  intros F.
  cbn [KotlinGen.write_token].
  kfine.
  apply kotlin_fine_tokens.
  intros t [<-|[]].
  cbn [KotlinGen.write_token KotlinGen.write_parameters].
  kfine; [|exact F].
  apply fine_bind; [apply kotlin_other_fine|intros; apply fine_ok].
Qed.

Lemma kotlin_body_fine ts : (forall t, In t ts -> fine (KotlinGen.write_token t)) -> fine (KotlinGen.write_body KotlinGen.write_token ts).
Proof.
  intros F.
  unfold KotlinGen.write_body.
  pose proof (kotlin_fine_tokens ts None F) as G.
  destruct ts; [apply fine_ok|].
  kfine.
  exact G.
Qed.

Lemma kotlin_extends_fine ts : (forall t, In t ts -> fine (KotlinGen.write_token t)) -> fine (KotlinGen.write_extends KotlinGen.write_token ts).
Proof.
  intros F.
  unfold KotlinGen.write_extends.
  apply (kotlin_separated_fine ts ", ") in F.
  destruct ts; [apply fine_ok|].
  kfine.
  exact F.
Qed.

Lemma kotlin_class_fine id dc ex fs body :
  (forall t, In t ex -> fine (KotlinGen.write_token t)) -> (forall t, In t body -> fine (KotlinGen.write_token t)) ->
  fine (KotlinGen.write_tokens_from KotlinGen.write_token None fs) -> fine (KotlinGen.write_token (KotlinGen.KClass id dc ex fs body)).
Proof.
  intros E B F.
  cbn [KotlinGen.write_token].
  kfine; [destruct fs; kfine; exact F|now apply kotlin_extends_fine|now apply kotlin_body_fine].
Qed.

Lemma kotlin_struct_fine s : (forall t, In t (map sf_type (sn_fields s)) -> sized t) -> fine (KotlinGen.write_token (KotlinGen.generate_struct_model s true)).
Proof.
  intros S.
  unfold KotlinGen.generate_struct_model.
  apply kotlin_class_fine.
  - intros t [].
  - intros t [<-|[]].
  apply kotlin_default_fun_fine, kotlin_args_fine.
  intros f I.
  apply S.
  now apply in_map.
  - apply kotlin_vals_fine.
  intros t I.
  apply in_map_iff in I as (f & <- & I).
  eexists _, _.
  split; [reflexivity|].
  apply S.
  now apply in_map.
Qed.

Lemma in_enumerate {A} (l : list A) : forall k i x, In (i, x) (enumerate_from k l) -> In x l.
Proof.
  induction l as [|y l IH]; intros k i x; cbn; [tauto|].
  intros [E|H]; [injection E; auto|].
  right.
  eauto.
Qed.

Lemma kotlin_enum_fine e l : (forall t, In t (flat_map item_types (en_items e)) -> sized t) -> KotlinGen.generate_enum_model e = Ok l -> forall t, In t l -> fine (KotlinGen.write_token t).
Proof.
  intros S.
  unfold KotlinGen.generate_enum_model, KotlinGen.generate_enum_interface.
  destruct (en_items e) as [|d r] eqn:E; [discriminate|].
  cbn [bind].
  intros H.
  apply Ok_eq in H as <-.
  rewrite <- E in S |- *.
  assert (D : In d (en_items e)) by (rewrite E; now left).
  clear E.
  assert (S2 : forall i t, In i (en_items e) -> In t (item_types i) -> sized t) by (intros i t I J; apply S, in_flat_map; eauto).
  clear S.
  intros t [<-|I].
  - cbn [KotlinGen.write_token].
  kfine.
  apply kotlin_fine_tokens.
  intros t [<-|[]].
  apply kotlin_default_fun_fine.
  destruct d as [p n|p n vs|p n fs]; [apply fine_ok| |apply kotlin_args_fine; intros f I; eapply S2; [exact D|]; cbn; now apply in_map].
  cbn [KotlinGen.write_token].
  kfine.
  match goal with |- fine (match ?l with _ => _ end) => assert (F : fine (KotlinGen.write_tokens_from KotlinGen.write_token None l)); [|destruct l; kfine; exact F] end.
  apply kotlin_fine_tokens.
  intros t I.
  apply in_map_iff in I as (f & <- & I).
  cbn [KotlinGen.write_token].
  kfine.
  apply fine_bind; [|intros; apply fine_ok].
  apply kotlin_default_fine.
  eapply S2; [exact D|].
  cbn.
  now apply in_map.
  - apply in_map_iff in I as (i & <- & I).
  unfold KotlinGen.generate_enum_case.
  destruct i as [p n|p n vs|p n fs].
  + cbn [KotlinGen.write_token].
  kfine; [apply kotlin_extends_fine; intros t [<-|[]]; apply fine_ok|apply fine_ok].
  + apply kotlin_class_fine; [intros t [<-|[]]; apply fine_ok|intros t []|].
  apply kotlin_vals_fine.
  intros t J.
  apply in_map_iff in J as ([k f] & <- & J).
  eexists _, _.
  split; [reflexivity|].
  eapply S2; [exact I|].
  cbn.
  apply in_map.
  eapply in_enumerate.
  exact J.
  + apply kotlin_class_fine; [intros t [<-|[]]; apply fine_ok|intros t []|].
  apply kotlin_vals_fine.
  intros t J.
  apply in_map_iff in J as (f & <- & J).
  eexists _, _.
  split; [reflexivity|].
  eapply S2; [exact I|].
  cbn.
  now apply in_map.
Qed.

Lemma lem_C43_kotlin_models : forall ts ast, parse ts = Ok ast ->
  exists tokens s, KotlinGen.generate_models ast = Ok tokens /\ KotlinGen.stringify_tokens tokens = Ok s.
Proof.
  intros ts ast P.
  unfold KotlinGen.generate_models.
  match goal with |- context [mapM ?f ast] => destruct (mapM_fine f ast) as (ys & E) end.
  { intros [e|s|f|d|c] I; try apply fine_ok.
  unfold KotlinGen.generate_enum_model, KotlinGen.generate_enum_interface.
  destruct (en_items e) eqn:N; [|apply fine_ok].
  exfalso.
  exact (lem_C14_enums_have_variants ts ast e P I N).
  }
  rewrite E.
  cbn [bind].
  exists (concat ys).
  assert (F : forall t, In t (concat ys) -> fine (KotlinGen.write_token t)).
  { intros t I.
  destruct (in_concat_map _ _ _ E t I) as (n & z & J & K & M).
  assert (S : forall t, In t (decl_types n) -> sized t) by (intros u U; exact (lem_C14_types_are_sized ts ast n u P J U)).
  destruct n as [e|s|f|d|c]; try (injection K as <-; destruct M; fail).
  - now apply (kotlin_enum_fine e z).
  - injection K as <-.
  destruct M as [<-|[]].
  now apply kotlin_struct_fine.
  }
  destruct (kotlin_stringify (concat ys) False) as [[[] _]|[_ (s & R)]].
  { apply verdict_fine, kotlin_fine_tokens.
  exact F.
  }
  now exists s.
Qed.

(** ** C40: type expressions *)
(** A schema with one field, whose type is written as the text. *)
Definition one_field (text : string) : string := "struct S { x: " ++ text ++ " }".

Lemma sym_reads c s ts r : symbolb c = true -> reads s ts r -> reads (String c s) (TSym c :: ts) r.
Proof.
  intros C R.
  change (String c s) with (String c "" ++ s).
  eapply rd_token; [now apply sp_symbol| |exact R].
  now destruct s.
Qed.

Lemma space_reads s ts r : reads s ts r -> reads (String " " s) ts r.
Proof.
  intros R.
  change (String " " s) with (String " " "" ++ s).
  apply rd_blank; [now constructor|exact R].
Qed.

Lemma name_reads n s ts r : is_name n -> LexSpec.stops word_charb s -> reads s ts r -> reads (n ++ s) (TId n :: ts) r.
Proof.
  intros [W N] S R.
  eapply rd_token; [|exact S|exact R].
  constructor; [exact W|].
  now constructor.
Qed.

Lemma type_reads : (forall t, wf_type t -> Forall is_name (type_names t) -> forall s ts r, LexSpec.stops word_charb s -> reads s ts r ->
    reads (RustGen.generate_type_id t ++ s) (print_type t ++ ts)%list r)
  /\ (forall l, wf_types l -> Forall is_name (flat_map type_names l) -> forall s ts r, reads s ts r ->
    reads (join ", " (map RustGen.generate_type_id l) ++ ">" ++ s) (commas (map print_type l) ++ TSym ">" :: ts)%list r).
Proof.
  apply wf_type_mutind.
  - intros n t P N s ts r S R.
  rewrite (plain_print n t P).
  rewrite (plain_names n t P) in N.
  inversion N; subst.
  replace (RustGen.generate_type_id t) with n by (now destruct P).
  now apply name_reads.
  - intros n l W IH N s ts r S R.
  cbn [type_names] in N.
  inversion N; subst.
  cbn [RustGen.generate_type_id print_type].
  rewrite !append_assoc_s.
  cbn [app].
  apply name_reads; [assumption|reflexivity|].
  cbn [append].
  apply sym_reads; [reflexivity|].
  rewrite <- app_assoc.
  cbn [app].
  now apply IH.
  - intros t W IH N s ts r R.
  cbn [flat_map] in N.
  rewrite app_nil_r in N.
  cbn [map join commas].
  apply IH; [exact N|reflexivity|].
  now apply sym_reads.
  - intros t l W IH W2 IHl N s ts r R.
  cbn [flat_map] in N.
  apply Forall_app in N as [N1 N2].
  specialize (IHl N2 s ts r R).
  destruct l as [|u l]; [inversion W2|].
  cbn [map join commas] in *.
  rewrite !append_assoc_s.
  rewrite <- !app_assoc.
  apply IH; [exact N1|reflexivity|].
  cbn [append app].
  apply sym_reads; [reflexivity|].
  apply space_reads.
  try rewrite !append_assoc_s in IHl.
  exact IHl.
Qed.

Lemma type_text_parses t : wf_type t -> Forall is_name (type_names t) ->
  compile_front (one_field (RustGen.generate_type_id t)) = Ok [NStruct (mk_struct "S" [mk_struct_field 0 "x" t] true true)].
Proof.
  intros W N.
  set (s := mk_struct "S" [mk_struct_field 0 "x" t] true true).
  assert (R : reads (one_field (RustGen.generate_type_id t)) (print_decl (mk_style true false) (NStruct s)) "").
  { unfold one_field, s, print_decl.
  cbn [sn_fields sn_id].
  unfold print_fields, print_positioned, leave_out.
  cbn [map fst snd sf_position sf_name sf_type forallb Printer.fits st_implicit st_trailing listed commas counted length seq].
  change (Nlist_eqb [0%N] _) with true.
  cbn [andb].
  unfold print_binding.
  cbn [app].
  change ("struct S { x: " ++ RustGen.generate_type_id t ++ " }") with ("struct" ++ String " " ("S" ++ String " " (String "{" (String " " ("x" ++ String ":" (String " " (RustGen.generate_type_id t ++ " }"))))))).
  eapply rd_token; [apply sp_word; [reflexivity|apply wt_reserved; cbn; tauto]|reflexivity|].
  assert (NS : is_name "S") by (split; [reflexivity|cbn; intros u I; intuition congruence]).
  assert (NX : is_name "x") by (split; [reflexivity|cbn; intros u I; intuition congruence]).
  apply space_reads, name_reads; [exact NS|reflexivity|].
  apply space_reads, sym_reads; [reflexivity|].
  apply space_reads, name_reads; [exact NX|reflexivity|].
  apply sym_reads; [reflexivity|].
  apply space_reads.
  apply type_reads; [exact W|exact N|reflexivity|].
  apply space_reads, sym_reads; [reflexivity|].
  apply rd_nil.
  }
  unfold compile_front.
  rewrite (tokenize_reads _ _ _ R).
  change (tokenize "") with (Ok [TEOF]).
  cbn [bind].
  replace (print_decl (mk_style true false) (NStruct s) ++ [TEOF])%list with (print_schema (mk_style true false) [NStruct s]).
  - apply lem_C09_tokens_round_trip.
  split; [|exact Logic.I].
  split; [|split; reflexivity].
  split; [now left|].
  constructor; [exact W|constructor].
  - unfold print_schema.
  cbn [flat_map].
  now rewrite app_nil_r.
Qed.

Lemma const_type_names : forall c t, In t (const_types c) -> forall n, In n (type_names t) -> In n (const_names c).
Proof.
  intros c.
  induction c as [id items IH] using const_induction.
  intros t T n N.
  cbn in T |- *.
  right.
  apply in_flat_map in T as (i & I & T).
  apply in_flat_map.
  exists i.
  split; [exact I|].
  destruct i as [i u v|c]; cbn in T |- *; [destruct T as [<-|[]]; now right|].
  now apply (IH c I t).
Qed.

Lemma decl_type_names d t : In t (decl_types d) -> forall n, In n (type_names t) -> In n (decl_names d).
Proof.
  intros T n N.
  destruct d as [e|s|f|x|c]; cbn in T |- *.
  - right.
  apply in_flat_map in T as (i & I & T).
  apply in_flat_map.
  exists i.
  split; [exact I|].
  destruct i as [p m|p m l|p m l]; cbn in T |- *; [destruct T|..]; right; apply in_map_iff in T as (f & <- & F); apply in_flat_map; exists f; (split; [exact F|]); [exact N|now right].
  - right.
  apply in_map_iff in T as (f & <- & F).
  apply in_flat_map.
  exists f.
  split; [exact F|].
  now right.
  - right.
  apply in_app_or in T as [T|T]; apply in_or_app.
  + left.
  apply in_map_iff in T as (a & <- & A).
  apply in_flat_map.
  exists a.
  split; [exact A|].
  now right.
  + right.
  destruct (fn_return f); [|destruct T].
  destruct T as [->|[]].
  exact N.
  - destruct T.
  - now apply (const_type_names c t).
Qed.

(** The types a schema text can contain. *)
Definition schema_type (t : type_id) : Prop :=
  exists src ast d, compile_front src = Ok ast /\ In d ast /\ In t (decl_types d).

Lemma schema_type_wf t : schema_type t -> wf_type t /\ Forall is_name (type_names t).
Proof.
  intros (src & ast & d & C & D & T).
  unfold compile_front in C.
  destruct (tokenize src) as [ts| |] eqn:K; try discriminate.
  cbn [bind] in C.
  split.
  - assert (W : wf_schema 0 ast) by (apply (schema_wf 0 ts), parse_iff_grammar, C).
  clear C.
  revert W.
  generalize 0%N.
  induction ast as [|x ast IH]; intros k W; [destruct D|].
  destruct W as [W1 W2].
  destruct D as [->|D]; [|now apply (IH D) in W2].
  apply decl_wf_types in W1.
  rewrite Forall_forall in W1.
  now apply W1.
  - apply Forall_forall.
  intros n N.
  destruct (lem_C14_names_are_words src ts ast n K C) as (_ & W & R); [|split; assumption].
  apply in_flat_map.
  exists d.
  split; [exact D|].
  now apply (decl_type_names d t).
Qed.

Lemma lem_C40_reads_back : forall t, schema_type t ->
  compile_front (one_field (RustGen.generate_type_id t)) = Ok [NStruct (mk_struct "S" [mk_struct_field 0 "x" t] true true)].
Proof.
  intros t H.
  apply schema_type_wf in H as [W N].
  now apply type_text_parses.
Qed.

Lemma lem_C40_injective : forall t u, schema_type t -> schema_type u -> RustGen.generate_type_id t = RustGen.generate_type_id u -> t = u.
Proof.
  intros t u T U E.
  apply lem_C40_reads_back in T.
  apply lem_C40_reads_back in U.
  rewrite E in T.
  rewrite T in U.
  now injection U.
Qed.

Lemma lem_C40_dart_refuted : exists t u, schema_type t /\ schema_type u /\ DartGen.generate_type_id t = DartGen.generate_type_id u /\ t <> u.
Proof.
  exists (TyInteger "i8" 1 true), (TyInteger "u64" 8 false).
  split; [|split; [|split; [reflexivity|discriminate]]].
  - exists "struct S { a: i8 }", [NStruct (mk_struct "S" [mk_struct_field 0 "a" (TyInteger "i8" 1 true)] true true)].
  eexists.
  split; [vm_compute; reflexivity|].
  split; [left; reflexivity|].
  left.
  reflexivity.
  - exists "struct S { a: u64 }", [NStruct (mk_struct "S" [mk_struct_field 0 "a" (TyInteger "u64" 8 false)] true true)].
  eexists.
  split; [vm_compute; reflexivity|].
  split; [left; reflexivity|].
  left.
  reflexivity.
Qed.

(** ** C42: case conversion *)
Fixpoint all_lower (s : string) : Prop :=
  match s with "" => True | String c s' => (97 <= N_of_ascii c <= 122)%N /\ all_lower s' end.

Definition lower_word (w : string) : Prop := w <> "" /\ all_lower w.

(** Lower-case words joined with underscores. *)
Definition snake (n : string) : Prop := exists ws, ws <> [] /\ Forall lower_word ws /\ n = join "_" ws.

Lemma lower_facts c : (97 <= N_of_ascii c <= 122)%N ->
  is_lower c = true /\ is_upper c = false /\ is_digit c = false /\ is_delimiter c = false /\ to_lower c = c /\ is_upper (to_upper c) = true /\ to_lower (to_upper c) = c.
Proof.
  intros H.
  assert (B : ((97 <=? N_of_ascii c) && (N_of_ascii c <=? 122))%N = true) by (rewrite andb_true_iff, !N.leb_le; exact H).
  clear H.
  revert B.
  destruct c as [[] [] [] [] [] [] [] []]; vm_compute; intros B; try discriminate; now (repeat split).
Qed.

Lemma lower_lower w : all_lower w -> map_string to_lower w = w.
Proof.
  induction w as [|c w IH]; [reflexivity|].
  intros [C W].
  cbn.
  apply lower_facts in C as (_ & _ & _ & _ & -> & _).
  now rewrite IH.
Qed.

Lemma rev_append_twice a : forall b c, rev_append_string (rev_append_string a b) c = rev_append_string b (a ++ c).
Proof.
  induction a as [|x a IH]; intros b c; [reflexivity|].
  cbn [rev_append_string append].
  now rewrite IH.
Qed.

Definition quiet (prev : option ascii) : Prop :=
  match prev with None => True | Some p => is_lower p = true \/ is_delimiter p = true end.

Lemma quiet_not prev c r : quiet prev -> (97 <= N_of_ascii c <= 122)%N -> splits_before prev c r = false.
Proof.
  intros Q C.
  apply lower_facts in C as (L & U & D & _).
  destruct prev as [p|]; [|reflexivity].
  cbn.
  unfold is_boundary, is_acronym.
  rewrite L, U, D.
  assert (P : is_digit p = false).
  { cbn in Q.
  revert Q.
  destruct p as [[] [] [] [] [] [] [] []]; vm_compute; intros [Q|Q]; try discriminate; reflexivity.
  }
  rewrite P.
  rewrite !andb_false_r.
  cbn.
  now destruct r.
Qed.

Lemma split_word w : forall prev acc r, all_lower w -> quiet prev ->
  exists prev', quiet prev' /\ split_loop prev acc (w ++ r) = split_loop prev' (rev_append_string w acc) r.
Proof.
  induction w as [|c w IH]; intros prev acc r W Q; [now exists prev|].
  destruct W as [C W].
  cbn [append split_loop].
  pose proof (lower_facts c C) as (L & _ & _ & D & _).
  rewrite D, quiet_not by assumption.
  destruct (IH (Some c) (String c acc) r W) as (p & P & E); [now left|].
  exists p.
  now split.
Qed.

Lemma split_words ws : forall prev, ws <> [] -> Forall lower_word ws -> quiet prev -> split_loop prev "" (join "_" ws) = ws.
Proof.
  induction ws as [|w ws IH]; intros prev N F Q; [congruence|].
  inversion F as [|? ? [_ W] F']; subst.
  destruct ws as [|v ws].
  - cbn [join].
  rewrite <- (append_nil_s w) at 1.
  destruct (split_word w prev "" "" W Q) as (p & _ & ->).
  cbn [split_loop].
  unfold rev_string.
  rewrite rev_append_twice.
  cbn.
  now rewrite append_nil_s.
  - change (join "_" (w :: v :: ws)) with (w ++ "_" ++ join "_" (v :: ws)).
  destruct (split_word w prev "" ("_" ++ join "_" (v :: ws)) W Q) as (p & _ & ->).
  cbn [append split_loop].
  change (is_delimiter "_") with true.
  cbv iota.
  f_equal; [|apply IH; [discriminate|exact F'|now right]].
  unfold rev_string.
  rewrite rev_append_twice.
  cbn.
  now rewrite append_nil_s.
Qed.

Lemma snake_words ws : ws <> [] -> Forall lower_word ws -> words (join "_" ws) = ws.
Proof.
  intros N F.
  unfold words.
  rewrite split_words by (try assumption; exact Logic.I).
  clear N.
  induction F as [|w ws [W _] F IH]; [reflexivity|].
  cbn [filter].
  destruct (String.eqb_spec w ""); [contradiction|].
  cbn.
  now rewrite IH.
Qed.

(** Cutting a camel-case name before every capital letter. *)
Fixpoint cut (s : string) : string * list string :=
  match s with
  | "" => ("", [])
  | String c r => let (w, ws) := cut r in if is_upper c then ("", String (to_lower c) w :: ws) else (String c w, ws)
  end.

Lemma cut_lower w r : all_lower w -> cut (w ++ r) = let (v, ws) := cut r in (w ++ v, ws).
Proof.
  induction w as [|c w IH]; [intros _; cbn; now destruct (cut r)|].
  intros [C W].
  cbn.
  rewrite IH by assumption.
  destruct (cut r).
  apply lower_facts in C as (_ & -> & _).
  reflexivity.
Qed.

Lemma cut_capitals ws : Forall lower_word ws -> cut (concat_strings (map capital ws)) = ("", ws).
Proof.
  induction 1 as [|w ws [N W] F IH]; [reflexivity|].
  destruct w as [|c w]; [congruence|].
  destruct W as [C W].
  cbn [map capital concat_strings append].
  rewrite lower_lower by assumption.
  cbn [cut].
  rewrite cut_lower by assumption.
  rewrite IH, append_nil_s.
  now apply lower_facts in C as (_ & _ & _ & _ & _ & -> & ->).
Qed.

Lemma lem_C42_camel_injective : forall a b, snake a -> snake b -> camel a = camel b -> a = b.
Proof.
  intros a b (ws & N & F & ->) (vs & M & G & ->).
  unfold camel.
  rewrite !snake_words by assumption.
  destruct ws as [|w ws]; [congruence|].
  destruct vs as [|v vs]; [congruence|].
  inversion F as [|? ? [_ W] F']; subst.
  inversion G as [|? ? [_ V] G']; subst.
  unfold lowercase.
  rewrite !lower_lower by assumption.
  intros E.
  apply (f_equal cut) in E.
  rewrite !cut_lower, !cut_capitals, !append_nil_s in E by assumption.
  now injection E as -> ->.
Qed.

Lemma lem_C42_pascal_injective : forall a b, snake a -> snake b -> pascal a = pascal b -> a = b.
Proof.
  intros a b (ws & N & F & ->) (vs & M & G & ->).
  unfold pascal.
  rewrite !snake_words by assumption.
  intros E.
  apply (f_equal cut) in E.
  rewrite !cut_capitals in E by assumption.
  now injection E as ->.
Qed.

Lemma lem_C42_camel_of_snake : forall w ws, Forall lower_word (w :: ws) ->
  camel (join "_" (w :: ws)) = w ++ String.concat "" (map (fun v => match v with "" => "" | String c r => String (ascii_of_N (N_of_ascii c - 32)) r end) ws).
Proof.
  intros w ws F.
  unfold camel.
  rewrite snake_words by (discriminate || assumption).
  inversion F as [|? ? [_ W] F']; subst.
  unfold lowercase.
  rewrite lower_lower by assumption.
  f_equal.
  clear F W.
  assert (CC : forall l, String.concat "" l = concat_strings l).
  { induction l as [|x [|y l] IH]; [reflexivity|cbn; now rewrite append_nil_s|].
  cbn [String.concat concat_strings append] in *.
  now rewrite IH.
  }
  rewrite CC.
  f_equal.
  apply map_ext_in.
  intros v I.
  rewrite Forall_forall in F'.
  destruct (F' v I) as [N V].
  destruct v as [|c v]; [congruence|].
  destruct V as [C V].
  cbn [capital].
  rewrite lower_lower by assumption.
  unfold to_upper.
  now apply lower_facts in C as (-> & _).
Qed.

Lemma lem_C42_refuted : exists src s f g, compile_front src = Ok [NStruct s] /\ sn_fields s = [f; g] /\
  sf_name f <> sf_name g /\ camel (sf_name f) = camel (sf_name g) /\
  exists text, DartGen.dart_generate [NStruct s] true true false = Ok text /\
    occurs ("  int aB;" ++ nl ++ "  int aB;" ++ nl) text = true.
Proof.
  exists "struct S { a_b: i32, aB: i32 }".
  eexists _, _, _.
  split; [vm_compute; reflexivity|].
  split; [reflexivity|].
  split; [discriminate|].
  split; [reflexivity|].
  eexists.
  split; vm_compute; reflexivity.
Qed.
