(** Reading the generated Rust text gives the trees of [RustTree.v]: words, types and lines. *)
Require Import Coq.Strings.String Coq.Strings.Ascii.
Require Import Coq.NArith.NArith Coq.ZArith.ZArith Coq.Lists.List Coq.Bool.Bool Coq.micromega.Lia.
Require Import Verif.Base Verif.F64 Verif.Ast Verif.Writer Verif.Code Verif.RustSyntax Verif.RustPrint
  Verif.CodeLex Verif.RustGen Verif.RustTree Verif.LexSpec Verif.NumText.
Import ListNotations.
Local Open Scope string_scope.
Local Open Scope list_scope.

Notation rlexes := (lexes rust_quotes).
Notation rops := (ops_lexes rust_quotes).

(** ** Words *)

Lemma digit_wordc c : digitb c = true -> wordc c = true.
Proof. destruct c as [[] [] [] [] [] [] [] []]; intros H; vm_compute in H |- *; congruence. Qed.
Lemma digits_word s : all_chars digitb s = true -> all_word s = true.
Proof.
  induction s as [|c s IH]; [reflexivity|]. cbn. intros H. apply andb_true_iff in H as [H1 H2].
  now rewrite digit_wordc, IH.
Qed.
Lemma word_show_N n : word (show_N n) = true.
Proof.
  pose proof (show_N_nonempty n). pose proof (digits_word _ (show_N_digits n)).
  destruct (show_N n); [contradiction|assumption].
Qed.
Lemma word_show_nat n : word (show_nat n) = true.
Proof. apply word_show_N. Qed.
Lemma all_word_show_nat n : all_word (show_nat n) = true.
Proof. apply word_all, word_show_N. Qed.

Fixpoint span_word (s : string) : string * string :=
  match s with
  | "" => ("", "")
  | String c s' => if wordc c then let '(a, b) := span_word s' in (String c a, b) else ("", s)
  end.

Ltac word_tac :=
  first [ assumption | apply word_show_N | apply word_show_nat | apply all_word_show_nat
        | apply word_all; assumption ].

(** ** Pieces of lines: types and values *)

Definition ends (st : lstate) : bool :=
  forallb (sepc st) [","; ";"; ">"; ")"; " "; "("; "."; ":"]%char && closed st.
Definition starts (s : string) : bool :=
  seps (LSym "<") s && seps (LSym "(") s && seps (LSym "*") s.
(** The piece [s] reads as the tokens [ts] in every place the generator puts one. *)
Definition chunk (s : string) (ts : list ctok) : Prop :=
  exists us st, rlexes LNone s us st /\ ends st = true /\ us ++ fin st = ts /\ starts s = true.

Ltac ends_tac :=
  match goal with
  | E : ends ?st = true |- _ =>
      let H := fresh in pose proof E as H; unfold ends in H; cbn [forallb] in H;
      repeat (apply andb_true_iff in H as [? H]); assumption
  end.

Ltac lit_step q st s :=
  let r := eval vm_compute in (run q st s) in
  match r with (?a, ?b) => exact (eq_refl : run q st s = (a, b)) end.

Lemma ends_sep st c : ends st = true -> In c [","; ";"; ">"; ")"; " "; "("; "."; ":"]%char -> sepc st c = true.
Proof.
  intros E I. unfold ends in E. apply andb_true_iff in E as [E _]. rewrite forallb_forall in E. auto.
Qed.
Lemma ends_closed st : ends st = true -> closed st = true.
Proof. intros E. now apply andb_true_iff in E. Qed.
Lemma starts_lt s : starts s = true -> seps (LSym "<") s = true.
Proof. intros E. unfold starts in E. rewrite !andb_true_iff in E. apply E. Qed.
Lemma starts_par s : starts s = true -> seps (LSym "(") s = true.
Proof. intros E. unfold starts in E. rewrite !andb_true_iff in E. apply E. Qed.
Lemma starts_star s : starts s = true -> seps (LSym "*") s = true.
Proof. intros E. unfold starts in E. rewrite !andb_true_iff in E. apply E. Qed.

Ltac sep_tac :=
  first
    [ reflexivity
    | apply word_seps; word_tac
    | apply starts_lt; assumption
    | apply starts_par; assumption
    | apply starts_star; assumption
    | cbn [seps]; apply ends_sep; [assumption|cbn; tauto] ].

Ltac lex_step :=
  lazymatch goal with
  | |- lexes _ _ "" _ _ => apply lexes_nil
  | |- lexes _ _ (?a ++ ?b)%string _ _ => eapply lexes_app
  | |- lexes _ (LStr _ _) (String _ _) _ _ => first [ apply lexes_close | apply lexes_plain; reflexivity ]
  | |- lexes _ (LStr _ _) _ _ _ => apply lexes_plain; assumption
  | |- lexes ?q LNone (String ?c ?r) _ _ => lit_step q LNone (String c r)
  | |- lexes _ LNone ?s _ _ => first [ eassumption | apply lexes_name; word_tac ]
  | |- lexes ?q (LWord ?v) (String ?c ?r) _ _ =>
      let b := eval vm_compute in (wordc c) in
      lazymatch b with
      | true =>
          let p := eval vm_compute in (span_word (String c r)) in
          lazymatch p with
          | (?a, ?b) => change (String c r) with (a ++ b)%string; apply lexes_join; [reflexivity|]
          end
      | false => apply lexes_fin; [reflexivity|]
      end
  | |- lexes _ (LWord _) _ _ _ => apply lexes_word; word_tac
  | |- lexes _ _ _ _ _ => apply lexes_fin; [sep_tac|]
  end.
Ltac lex := unfold dq, nl; repeat lex_step.

(** The tokens of a literal path or name. *)
Lemma lexes_eq q st s ts ts' st' : lexes q st s ts st' -> ts = ts' -> lexes q st s ts' st'.
Proof. now intros H ->. Qed.

Lemma chunk_intro s us st ts : rlexes LNone s us st -> ends st = true -> us ++ fin st = ts ->
  starts s = true -> chunk s ts.
Proof. intros. now exists us, st. Qed.
Lemma chunk_name n : word n = true -> chunk n [CW n].
Proof.
  intros W. eapply chunk_intro; [lex|reflexivity|reflexivity|].
  unfold starts. now rewrite !word_seps.
Qed.

Lemma starts_app a b : starts a = true -> starts (a ++ b)%string = true.
Proof. destruct a; [discriminate|]. exact (fun H => H). Qed.
Lemma starts_word n : word n = true -> starts n = true.
Proof. intros W. unfold starts. now rewrite !word_seps. Qed.

(** Pieces separated by commas. *)
Lemma chunk_join l ts : Forall2 chunk l ts -> l <> [] -> exists us st,
  rlexes LNone (join ", " l) us st /\ ends st = true /\
  us ++ fin st = flat_map (fun t => t) (match ts with [] => [] | t :: r => t :: map (fun t => CS "," :: t) r end)
  /\ starts (join ", " l) = true.
Proof.
  intros F. induction F as [|s t l ts C F IH]; [congruence|]. intros _.
  destruct C as (us & st & L & E & U & S). destruct l as [|s2 l].
  - inversion F; subst. exists us, st. cbn [join map flat_map]. rewrite app_nil_r. auto.
  - destruct IH as (us2 & st2 & L2 & E2 & U2 & S2); [discriminate|]. inversion F as [|? t2 ? ts' C2 F2]; subst.
    eexists _, st2. split.
    { change (join ", " (s :: s2 :: l)) with (s ++ ", " ++ join ", " (s2 :: l))%string. lex. }
    split; [assumption|]. split; [|now apply starts_app].
    cbn [map flat_map] in U2 |- *. rewrite <- !app_assoc. cbn [app]. rewrite U2. now rewrite <- ?app_assoc.
Qed.

(** ** Types *)

Section TypeInd.
  Variable P : type_id -> Prop.
  Hypothesis HI : forall id n s, P (TyInteger id n s).
  Hypothesis HN : forall id n, P (TyNumber id n).
  Hypothesis HB : forall id, P (TyBool id).
  Hypothesis HC : forall id, P (TyChar id).
  Hypothesis HG : forall id l, Forall P l -> P (TyGeneric id l).
  Hypothesis HO : forall id, P (TyOther id).
  Fixpoint type_id_ind2 (t : type_id) : P t :=
    match t with
    | TyInteger id n s => HI id n s
    | TyNumber id n => HN id n
    | TyBool id => HB id
    | TyChar id => HC id
    | TyGeneric id l =>
        HG id l ((fix go (l : list type_id) : Forall P l :=
                    match l with [] => Forall_nil P | t :: l' => Forall_cons t (type_id_ind2 t) (go l') end) l)
    | TyOther id => HO id
    end.
End TypeInd.

(** A name that can be used in Rust. *)
Definition rname (n : string) : bool := word n && ident n.
(** The names of a type can be used, and no argument list is empty. *)
Fixpoint rtype (t : type_id) : bool :=
  match t with
  | TyInteger id _ _ | TyNumber id _ | TyBool id | TyChar id | TyOther id => rname id
  | TyGeneric id l => rname id && nonempty l && forallb rtype l
  end.

Lemma rname_word n : rname n = true -> word n = true.
Proof. intros H. now apply andb_true_iff in H. Qed.
Lemma rname_ident n : rname n = true -> ident n = true.
Proof. intros H. now apply andb_true_iff in H. Qed.

Lemma flat_app a b : flat (a ++ b) = flat a ++ flat b.
Proof. apply flat_map_app. Qed.
Lemma flat_cons x l : flat (x :: l) = flat1 x ++ flat l.
Proof. reflexivity. Qed.
Lemma flat_flat_map {A} (f : A -> list tt) l : flat (flat_map f l) = flat_map (fun x => flat (f x)) l.
Proof. induction l as [|x l IH]; [reflexivity|]. cbn [flat_map]. now rewrite flat_app, IH. Qed.
Lemma flat1_flat_map {A} (f : A -> list tt) l :
  flat_map flat1 (flat_map f l) = flat_map (fun x => flat_map flat1 (f x)) l.
Proof. apply flat_flat_map. Qed.
Lemma flat_map_map {A B C} (f : B -> list C) (g : A -> B) l :
  flat_map f (map g l) = flat_map (fun x => f (g x)) l.
Proof. induction l as [|x l IH]; [reflexivity|]. cbn. now rewrite IH. Qed.
Lemma flat_w n : flat1 (w n) = [CW n]. Proof. reflexivity. Qed.
Lemma flat_y n : flat1 (y n) = [CS n]. Proof. reflexivity. Qed.
Lemma flat_q n : flat1 (T (CQ n)) = [CQ n]. Proof. reflexivity. Qed.
Lemma flat_nil : flat [] = []. Proof. reflexivity. Qed.
#[global] Hint Rewrite flat_app flat_cons @flat_flat_map flat_w flat_y flat_q flat_nil flat1_G : flat.

Lemma flat_sep {A} (pr : A -> list tt) l :
  flat (sep (y ",") pr l) =
  flat_map (fun t => t) (match map (fun a => flat (pr a)) l with [] => [] | t :: r => t :: map (fun t => CS "," :: t) r end).
Proof.
  induction l as [|a l IH]; [reflexivity|]. destruct l as [|b l].
  - cbn. now rewrite app_nil_r.
  - rewrite sep_cons. autorewrite with flat. rewrite IH. cbn [map flat_map]. reflexivity.
Qed.

Lemma map_Forall2 {A B C} (R : B -> C -> Prop) (f : A -> B) (g : A -> C) l :
  (forall x, In x l -> R (f x) (g x)) -> Forall2 R (map f l) (map g l).
Proof.
  induction l as [|x l IH]; intros H; [constructor|]. constructor; [apply H; now left|].
  apply IH. intros z I. apply H. now right.
Qed.

Lemma args_lexes l : l <> [] -> Forall (fun t => chunk (generate_type_id t) (flat (pr_ty (rty_of t)))) l ->
  chunk (join ", " (map generate_type_id l)) (flat (sep (y ",") pr_ty (map rty_of l))).
Proof.
  intros N F. rewrite Forall_forall in F.
  destruct (chunk_join (map generate_type_id l) (map (fun t => flat (pr_ty (rty_of t))) l)) as (us & st & L & E & U & S).
  - now apply map_Forall2.
  - destruct l; [congruence|discriminate].
  - exists us, st. rewrite flat_sep, map_map. auto.
Qed.

Lemma type_lexes t : rtype t = true -> chunk (generate_type_id t) (flat (pr_ty (rty_of t))).
Proof.
  induction t as [id n s|id n|id|id|id l IH|id] using type_id_ind2; cbn [rtype generate_type_id rty_of];
    intros R; try (apply chunk_name; now apply rname_word).
  apply andb_true_iff in R as [R RL]. apply andb_true_iff in R as [R N]. apply rname_word in R.
  assert (NE : l <> []) by (destruct l; [discriminate N|discriminate]).
  assert (C : chunk (join ", " (map generate_type_id l)) (flat (sep (y ",") pr_ty (map rty_of l)))).
  { apply args_lexes; [assumption|]. rewrite Forall_forall in *. rewrite forallb_forall in RL. auto. }
  destruct C as (us & st & L & E & U & S).
  eapply chunk_intro; [lex|reflexivity| |now apply starts_app, starts_word].
  destruct l as [|t l]; [congruence|]. cbn [map] in *. rewrite pr_ty_args. unfold pr_tys, pr_names. cbn [flat_map app].
  autorewrite with flat. rewrite <- U. cbn [app fin]. rewrite <- !app_assoc. reflexivity.
Qed.

Lemma rtype_args id l : rtype (TyGeneric id l) = true ->
  word id = true /\ ident id = true /\ l <> [] /\
  chunk (join ", " (map generate_type_id l)) (flat (sep (y ",") pr_ty (map rty_of l))).
Proof.
  cbn [rtype]. intros R. apply andb_true_iff in R as [R RL]. apply andb_true_iff in R as [R N].
  apply andb_true_iff in R. assert (NE : l <> []) by (destruct l; [discriminate N|discriminate]).
  repeat split; try apply R; [assumption|]. apply args_lexes; [assumption|]. rewrite Forall_forall.
  rewrite forallb_forall in RL. intros t I. apply type_lexes. auto.
Qed.

Ltac unchunk :=
  repeat match goal with
  | H : chunk _ _ |- _ =>
      let us := fresh "us" in let st := fresh "st" in let L := fresh "L" in let E := fresh "E" in
      let U := fresh "U" in let S := fresh "S" in
      destruct H as (us & st & L & E & U & S)
  end.
(** Both sides as one list of tokens. *)
Ltac flats :=
  unfold flat;
  repeat (progress (cbn [flat_map flat1 app fin w y];
                    rewrite ?flat_map_app, ?flat1_flat_map, <- ?app_assoc, ?app_nil_r, ?flat_map_map)).
Ltac flat_eq :=
  flats; repeat match goal with U : _ ++ fin _ = _ |- _ => unfold flat in U; rewrite <- U; clear U end; flats; reflexivity.

Lemma read_lexes t : rtype t = true -> chunk (generate_read t) (flat (pr (read_tree t))).
Proof.
  destruct t as [id n s|id n|id|id|id l|id]; intros R;
    try (cbn [rtype] in R; apply rname_word in R);
    try (eapply chunk_intro; [unfold generate_read; lex|reflexivity|flat_eq|first [reflexivity | now apply starts_app, starts_word]]).
  apply rtype_args in R as (W & I & NE & C). unchunk.
  eapply chunk_intro; [unfold generate_read; lex|reflexivity| |now apply starts_app, starts_word].
  cbn [read_tree assoc_fn pr pr_path pr_seg pr_tys flat_map pr_post sep trail var]. unfold pr_tys. flat_eq.
Qed.
Lemma default_lexes t : rtype t = true -> chunk (generate_default_const t) (flat (pr (default_tree t))).
Proof.
  destruct t as [id n s|id n|id|id|id l|id]; intros R;
    try (cbn [rtype] in R; apply rname_word in R);
    try (eapply chunk_intro; [unfold generate_default_const; lex|reflexivity|flat_eq|first [reflexivity | now apply starts_app, starts_word]]).
  apply rtype_args in R as (W & I & NE & C). unchunk.
  eapply chunk_intro; [unfold generate_default_const; lex|reflexivity| |now apply starts_app, starts_word].
  cbn [default_tree assoc_fn pr pr_path pr_seg pr_tys flat_map pr_post sep trail var]. unfold pr_tys. flat_eq.
Qed.

(** ** Statements *)

Lemma pr_postfix e p : pr (postfix e p) = pr e ++ pr_post p.
Proof.
  destruct e; try (cbn [postfix pr flat_map]; now rewrite app_nil_r).
  cbn [postfix pr]. rewrite flat_map_app. cbn [flat_map]. now rewrite app_nil_r, app_assoc.
Qed.

Lemma write_lexes t a e d : rtype t = true -> chunk a (flat (pr e)) ->
  chunk (generate_write t a d) (flat (pr_st (write_tree t e d))).
Proof.
  intros R C. unchunk.
  destruct t as [id n s|id n|id|id|id l|id];
    try (cbn [rtype] in R; apply rname_word in R);
    try (cbn [generate_write write_tree];
         destruct d; (eapply chunk_intro; [lex|reflexivity| |reflexivity]);
         cbn [pr_st pr pr_path pr_seg flat_map pr_post sep trail var]; flat_eq).
  all: cbn [generate_write write_tree pr_st]; rewrite pr_postfix;
    (eapply chunk_intro; [lex|reflexivity| |now apply starts_app]);
    cbn [pr pr_path pr_seg flat_map pr_post sep trail var]; flat_eq.
Qed.

(** ** Lines *)

Lemma line_op s us st : rlexes LNone s us st -> closed st = true ->
  op_lexes rust_quotes (Writeln s) (us ++ fin st).
Proof. intros L C. now exists us, st. Qed.
Lemma line_tab_op n s us st : rlexes LNone s us st -> closed st = true ->
  op_lexes rust_quotes (WritelnTab n s) (us ++ fin st).
Proof. intros L C. now exists us, st. Qed.
Lemma write_op s us : rlexes LNone s us LNone -> op_lexes rust_quotes (Write s) us.
Proof. exact (fun H => H). Qed.

Lemma rops_eq l ts ts' : rops l ts -> ts = ts' -> rops l ts'.
Proof. now intros H ->. Qed.
Lemma rops_nil : rops [] [].
Proof. apply ops_nil. Qed.
Lemma rops_cons o l t ts : op_lexes rust_quotes o t -> rops l ts -> rops (o :: l) (t ++ ts).
Proof. now apply ops_cons. Qed.
Lemma rops_app a b ta tb : rops a ta -> rops b tb -> rops (a ++ b) (ta ++ tb).
Proof. now apply ops_app. Qed.
(** A loop: the tokens of one round are given. *)
Lemma rops_loop {A} (f : A -> list wop) (g : A -> list tt) l :
  (forall x, In x l -> rops (f x) (flat (g x))) -> rops (flat_map f l) (flat (flat_map g l)).
Proof. intros H. rewrite flat_flat_map. now apply ops_flat_map. Qed.
Lemma show_ops_last l s : show_ops (l ++ [Write s]) = (show_ops l ++ s)%string.
Proof. unfold show_ops. rewrite map_app, concat_strings_app. cbn. now rewrite append_nil_s. Qed.


Ltac close_tac := first [ reflexivity | assumption | apply ends_closed; assumption ].
Ltac ops :=
  lazymatch goal with
  | |- ops_lexes _ [] _ => apply rops_nil
  | |- ops_lexes _ (_ ++ _) _ => eapply rops_app; [ops|ops]
  | |- ops_lexes _ (Write _ :: _) _ => eapply rops_cons; [eapply write_op; first [eassumption | solve [lex]]|ops]
  | |- ops_lexes _ (Writeln _ :: _) _ => eapply rops_cons; [eapply line_op; [first [eassumption|lex]|close_tac]|ops]
  | |- ops_lexes _ (WritelnTab _ _ :: _) _ => eapply rops_cons; [eapply line_tab_op; [first [eassumption|lex]|close_tac]|ops]
  | |- ops_lexes _ _ _ => first [eassumption | idtac]
  end.
Ltac opsq := eapply rops_eq; [ops|].
Lemma show_lexes l ts : rops l ts -> rlexes LNone (show_ops l) ts LNone.
Proof. exact (fun H => H). Qed.
Ltac show_rops := eapply show_lexes.

(** Prints the known part of a tree. *)
Ltac trees :=
  cbn [pr_items pr_item pr_fn pr_params pr_param pr_fields pr_variant pr_tlist pr pr_post pr_st pr_block pr_path pr_seg pr_pat
       pr_words pr_ty pr_names pr_tys sep trail rf_name rf_params rf_trailing rf_ret rf_body fst snd
       flat_map map app var path2 self_ty ty0 mut_ref self_ref default_impl derive_attr variant_default variant_tree String.eqb Ascii.eqb Bool.eqb];
  unfold pr_fn; cbn [pr_params pr_param pr pr_post pr_st pr_block pr_path pr_seg pr_pat
       pr_words pr_ty pr_names pr_tys sep trail rf_name rf_params rf_trailing rf_ret rf_body fst snd
       flat_map map app var path2 self_ty ty0 mut_ref self_ref String.eqb Ascii.eqb Bool.eqb].

(** ** Models *)

Definition rfield (f : struct_field) : bool := rname (sf_name f) && rtype (sf_type f).
Lemma rfield_word f : rfield f = true -> word (sf_name f) = true.
Proof. intros H. apply andb_true_iff in H as [H _]. now apply rname_word. Qed.
Lemma rfield_type f : rfield f = true -> rtype (sf_type f) = true.
Proof. intros H. now apply andb_true_iff in H. Qed.

Ltac field_facts f R :=
  pose proof (rfield_word f R); pose proof (rfield_type f R);
  try pose proof (type_lexes (sf_type f) (rfield_type f R));
  try pose proof (read_lexes (sf_type f) (rfield_type f R));
  try pose proof (default_lexes (sf_type f) (rfield_type f R)).

Lemma struct_params_lexes tab pub l : forallb rfield l = true ->
  rlexes LNone (generate_struct_parameters tab pub l) (flat (pr_fields pub (map field_decl l))) LNone.
Proof.
  intros R. rewrite forallb_forall in R. unfold generate_struct_parameters, pr_fields. show_rops.
  rewrite flat_map_map. apply rops_loop. intros f I. pose proof (type_lexes _ (rfield_type f (R f I))).
  pose proof (rfield_word f (R f I)). unchunk. unfold pr_field, field_decl. cbn [fst snd].
  destruct pub; opsq; flat_eq.
Qed.

Lemma inits_lexes (k : nat) l : forallb rfield l = true ->
  rops (flat_map (fun field =>
      [ WritelnTab k (sf_name field ++ ": " ++ generate_default_const (sf_type field) ++ ",") ]) l)
    (flat (flat_map (fun fe => w (fst fe) :: y ":" :: pr (snd fe) ++ [y ","]) (map field_default l))).
Proof.
  intros R. rewrite forallb_forall in R. rewrite flat_map_map. apply rops_loop. intros f I.
  pose proof (default_lexes _ (rfield_type f (R f I))). pose proof (rfield_word f (R f I)). unchunk.
  unfold field_default. cbn [fst snd]. opsq. flat_eq.
Qed.

Lemma struct_default_lexes node : rname (sn_id node) = true -> forallb rfield (sn_fields node) = true ->
  exists us, rlexes LNone (generate_struct_default node) us (LSym "}") /\
    us ++ [CS "}"] =
    flat (pr_item (default_impl (sn_id node) (EStruct [SName "Self"] (map field_default (sn_fields node))))).
Proof.
  intros N R. apply rname_word in N. pose proof (inits_lexes 3 _ R) as L.
  unfold generate_struct_default.
  change [WritelnTab 2 "}"; WritelnTab 1 "}"; Write "}"]
    with ([WritelnTab 2 "}"; WritelnTab 1 "}"] ++ [Write "}"]).
  rewrite !app_assoc, show_ops_last, <- !app_assoc. eexists. split.
  - eapply lexes_app; [show_rops; ops|lex].
  - trees. flat_eq.
Qed.

Definition rstruct (n : struct_node) : bool := rname (sn_id n) && forallb rfield (sn_fields n).

Lemma struct_model_lexes node d : rstruct node = true ->
  rlexes LNone (generate_struct_model node d) (flat (pr_items (struct_model_tree node d))) LNone.
Proof.
  intros R. apply andb_true_iff in R as [N R]. pose proof (struct_params_lexes 1 true _ R) as P.
  destruct (struct_default_lexes node N R) as (us & L & U). apply rname_word in N.
  unfold generate_struct_model, struct_model_tree. show_rops.
  destruct (sn_fields node) as [|f fs].
  - destruct d; opsq; trees; flat_eq.
  - destruct d; opsq; unfold pr_items; rewrite flat_map_app, flat_app; cbn [flat_map]; rewrite ?app_nil_r, <- ?U; trees; flat_eq.
Qed.

Definition rvalue (v : tuple_field) : bool := rtype (tf_type v).
Definition ritem (i : enum_item) : bool :=
  match i with
  | ItemEmpty _ id => rname id
  | ItemTuple _ id vs => rname id && forallb rvalue vs
  | ItemStruct _ id fs => rname id && forallb rfield fs
  end.
Definition renum (n : enum_node) : bool :=
  rname (en_id n) && nonempty (en_items n) && forallb ritem (en_items n).

Lemma tuple_params_lexes tab l : forallb rvalue l = true ->
  rlexes LNone (generate_tuple_parameters tab l) (flat (pr_tlist (map (fun v => rty_of (tf_type v)) l))) LNone.
Proof.
  intros R. rewrite forallb_forall in R. unfold generate_tuple_parameters, pr_tlist. show_rops.
  rewrite flat_map_map. apply rops_loop. intros v I. pose proof (type_lexes _ (R v I)). unchunk. opsq. flat_eq.
Qed.
Lemma defaults_lexes (k : nat) l : forallb rvalue l = true ->
  rops (flat_map (fun value => [ WritelnTab k (generate_default_const (tf_type value) ++ ",") ]) l)
    (flat (sep (y ",") pr (map (fun v => default_tree (tf_type v)) l) ++ trail (nil_or l))).
Proof.
  intros R. rewrite forallb_forall in R.
  replace (sep (y ",") pr (map (fun v => default_tree (tf_type v)) l) ++ trail (nil_or l))
    with (flat_map (fun v => pr (default_tree (tf_type v)) ++ [y ","]) l).
  - apply rops_loop. intros v I. pose proof (default_lexes _ (R v I)). unchunk. opsq. flat_eq.
  - clear. destruct l as [|v l]; [reflexivity|]. cbn [nil_or trail]. revert v. induction l as [|v2 l IH]; intros v.
    + cbn. now rewrite app_nil_r.
    + cbn [map] in *. rewrite sep_cons, <- app_assoc. cbn [flat_map app] in *. rewrite <- IH. now rewrite <- !app_assoc.
Qed.

Lemma Ok_inj {A} (a b : A) : Ok a = Ok b -> a = b.
Proof. congruence. Qed.
Lemma enum_model_lexes node s : renum node = true -> generate_enum_model node = Ok s ->
  rlexes LNone s (flat (pr_items (enum_model_tree node))) LNone.
Proof.
  intros R G. unfold renum in R. rewrite !andb_true_iff in R. destruct R as [[N NE] R]. apply rname_word in N.
  unfold generate_enum_model in G. unfold enum_model_tree.
  assert (V : rops (flat_map (fun item =>
      match item with
      | ItemEmpty _ id => [ WritelnTab 1 (id ++ ",") ]
      | ItemTuple _ id values =>
          [ WritelnTab 1 (id ++ "(");
            Write (generate_tuple_parameters 2 values);
            WritelnTab 1 ")," ]
      | ItemStruct _ id fields =>
          [ WritelnTab 1 (id ++ " {");
            Write (generate_struct_parameters 2 false fields);
            WritelnTab 1 "}," ]
      end) (en_items node)) (flat (flat_map pr_variant (map variant_tree (en_items node))))).
  { rewrite flat_map_map. apply rops_loop. rewrite forallb_forall in R. intros i I. specialize (R i I).
    destruct i as [p id|p id vs|p id fs]; cbn [ritem variant_tree pr_variant] in *.
    - apply rname_word in R. opsq. flat_eq.
    - apply andb_true_iff in R as [Ri R]. apply rname_word in Ri. pose proof (tuple_params_lexes 2 vs R). opsq. flat_eq.
    - apply andb_true_iff in R as [Ri R]. apply rname_word in Ri. pose proof (struct_params_lexes 2 false fs R). opsq. flat_eq. }
  destruct (en_items node) as [|i items]; [discriminate|]. apply Ok_inj in G. subst s.
  cbn [forallb] in R. apply andb_true_iff in R as [R _].
  destruct i as [p id|p id vs|p id fs]; cbn [ritem] in R; show_rops.
  - apply rname_word in R. opsq. trees. flat_eq.
  - apply andb_true_iff in R as [Ri R]. apply rname_word in Ri. pose proof (defaults_lexes 3 vs R). opsq. trees. flat_eq.
  - apply andb_true_iff in R as [Ri R]. apply rname_word in Ri. pose proof (inits_lexes 3 fs R). opsq. trees. flat_eq.
Qed.

(** ** Buffers *)

Lemma reads_lexes (k : nat) l : forallb rfield l = true ->
  rops (flat_map (fun field =>
      [ WritelnTab k (sf_name field ++ ": " ++ generate_read (sf_type field) ++ ",") ]) l)
    (flat (flat_map (fun fe => w (fst fe) :: y ":" :: pr (snd fe) ++ [y ","]) (map field_read l))).
Proof.
  intros R. rewrite forallb_forall in R. rewrite flat_map_map. apply rops_loop. intros f I.
  pose proof (read_lexes _ (rfield_type f (R f I))). pose proof (rfield_word f (R f I)). unchunk.
  unfold field_read. cbn [fst snd]. opsq. flat_eq.
Qed.
Lemma skips_lexes (k : nat) l : forallb rfield l = true ->
  rops (flat_map (fun field => [ WritelnTab k (generate_read (sf_type field) ++ ";") ]) l)
    (flat (flat_map pr_st (map (fun f => SSemi (read_tree (sf_type f))) l))).
Proof.
  intros R. rewrite forallb_forall in R. rewrite flat_map_map. apply rops_loop. intros f I.
  pose proof (read_lexes _ (rfield_type f (R f I))). unchunk. cbn [pr_st]. opsq. flat_eq.
Qed.
Lemma chunk_self n : word n = true -> chunk ("self." ++ n)%string (flat (pr (self_field n))).
Proof. intros W. eapply chunk_intro; [lex|reflexivity|reflexivity|reflexivity]. Qed.

Lemma struct_buffers_lexes node : rstruct node = true ->
  rlexes LNone (generate_struct_buffers node) (flat (pr_item (struct_buffers_tree node))) LNone.
Proof.
  intros R. apply andb_true_iff in R as [N R]. apply rname_word in N.
  assert (A : rlexes LNone (generate_struct_buffers_read_from_buffers node) (flat (pr_fn (struct_read_fn node))) LNone).
  { pose proof (reads_lexes 3 _ R). unfold generate_struct_buffers_read_from_buffers, struct_read_fn. show_rops.
    destruct (sn_fields node) as [|f fs]; opsq; trees; flat_eq. }
  assert (B : rlexes LNone (generate_struct_buffers_write_to_buffers node) (flat (pr_fn (struct_write_fn node))) LNone).
  { assert (W : rops (flat_map (fun field =>
          [ WritelnTab 2 (generate_write (sf_type field) ("self." ++ sf_name field) false) ]) (sn_fields node))
          (flat (flat_map pr_st (map (fun f => write_tree (sf_type f) (self_field (sf_name f)) false) (sn_fields node))))).
    { rewrite forallb_forall in R. rewrite flat_map_map. apply rops_loop. intros f I.
      pose proof (write_lexes (sf_type f) _ _ false (rfield_type f (R f I)) (chunk_self _ (rfield_word f (R f I)))).
      unchunk. opsq. flat_eq. }
    unfold generate_struct_buffers_write_to_buffers, struct_write_fn. show_rops.
    destruct (sn_fields node) as [|f fs]; opsq; trees; flat_eq. }
  assert (C : rlexes LNone (generate_struct_buffers_skip node) (flat (pr_fn (struct_skip_fn node))) LNone).
  { pose proof (skips_lexes 3 _ R). unfold generate_struct_buffers_skip, struct_skip_fn. show_rops.
    destruct (sn_fields node) as [|f fs]; opsq; trees; flat_eq. }
  unfold generate_struct_buffers, struct_buffers_tree. show_rops. opsq. cbn [pr_item flat_map pr_ty pr_names ty0]. flat_eq.
Qed.
