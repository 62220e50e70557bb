(** Reading the generated Dart text gives the trees of [DartTree.v]: types, values and models. *)
Require Import Coq.Strings.String Coq.Strings.Ascii.
Require Import Coq.NArith.NArith Coq.ZArith.ZArith Coq.Lists.List Coq.Bool.Bool Coq.micromega.Lia.
Require Import Verif.Base Verif.F64 Verif.Ast Verif.Writer Verif.CaseConv Verif.Code Verif.CodeLex Verif.LexSpec
  Verif.NumText Verif.RustLexed.
Require Import Verif.DartSyntax Verif.DartPrint Verif.DartGen Verif.DartTree.
Require Verif.RustTree.
Import ListNotations.
Local Open Scope string_scope.
Local Open Scope list_scope.

Notation dlexes := (lexes dart_quotes).
Notation dops := (ops2_lexes dart_quotes).
Notation nil_or := RustTree.nil_or.

(** The piece [s] reads as the tokens [ts] in every place the generator puts one. *)
Definition dchunk (s : string) (ts : list ctok) : Prop :=
  exists us st, dlexes LNone s us st /\ ends st = true /\ us ++ fin st = ts /\ starts s = true.

Lemma dchunk_intro s us st ts : dlexes LNone s us st -> ends st = true -> us ++ fin st = ts ->
  starts s = true -> dchunk s ts.
Proof. intros. now exists us, st. Qed.
Lemma dchunk_name n : word n = true -> dchunk n [CW n].
Proof.
  intros W. eapply dchunk_intro; [lex|reflexivity|reflexivity|]. now apply starts_word.
Qed.

Lemma dchunk_join l ts : Forall2 dchunk l ts -> l <> [] -> exists us st,
  dlexes LNone (join ", " l) us st /\ ends st = true /\
  us ++ fin st = flat_map (fun t => t) (match ts with [] => [] | t :: r => t :: map (fun t => CS "," :: t) r end)
  /\ starts (join ", " l) = true.
Proof.
  intros F. induction F as [|s t l ts C F IH]; [congruence|]. intros _.
  destruct C as (us & st & L & E & U & S). destruct l as [|s2 l].
  - inversion F; subst. exists us, st. cbn [join map flat_map]. rewrite app_nil_r. auto.
  - destruct IH as (us2 & st2 & L2 & E2 & U2 & S2); [discriminate|]. inversion F as [|? t2 ? ts' C2 F2]; subst.
    eexists _, st2. split.
    { change (join ", " (s :: s2 :: l)) with (s ++ ", " ++ join ", " (s2 :: l))%string. lex. }
    split; [assumption|]. split; [|now apply starts_app].
    cbn [map flat_map] in U2 |- *. rewrite <- !app_assoc. cbn [app]. rewrite U2. now rewrite <- ?app_assoc.
Qed.

(** ** Names and types *)

(** A name of a variable or member, of a type. *)
Definition dname (n : string) : bool := word n && dident n.
Definition dclass (n : string) : bool := word n && tname n.
Fixpoint dtype (t : type_id) : bool :=
  match t with
  | TyInteger _ _ _ | TyNumber _ _ | TyBool _ | TyChar _ => true
  | TyOther id => dclass id
  | TyGeneric id l => dclass id && nonempty l && forallb dtype l
  end.

Lemma dname_word n : dname n = true -> word n = true.
Proof. intros H. now apply andb_true_iff in H. Qed.
Lemma dname_ident n : dname n = true -> dident n = true.
Proof. intros H. now apply andb_true_iff in H. Qed.
Lemma dclass_word n : dclass n = true -> word n = true.
Proof. intros H. now apply andb_true_iff in H. Qed.
Lemma dclass_tname n : dclass n = true -> tname n = true.
Proof. intros H. now apply andb_true_iff in H. Qed.
Lemma list_word id : word id = true -> word (list_name id) = true.
Proof. intros W. unfold list_name. now destruct (String.eqb id "Vec"). Qed.

Lemma dflat_w n : flat1 (w n) = [CW n]. Proof. reflexivity. Qed.
Lemma dflat_y n : flat1 (y n) = [CS n]. Proof. reflexivity. Qed.
#[global] Hint Rewrite dflat_w dflat_y : flat.

Lemma dflat_sep {A} (pr : A -> list tt) l :
  flat (sep (y ",") pr l) =
  flat_map (fun t => t) (match map (fun a => flat (pr a)) l with [] => [] | t :: r => t :: map (fun t => CS "," :: t) r end).
Proof.
  induction l as [|a l IH]; [reflexivity|]. destruct l as [|b l].
  - cbn. now rewrite app_nil_r.
  - rewrite sep_cons. autorewrite with flat. rewrite IH. cbn [map flat_map]. reflexivity.
Qed.

Ltac unchunk :=
  repeat match goal with
  | H : dchunk _ _ |- _ =>
      let us := fresh "us" in let st := fresh "st" in let L := fresh "L" in let E := fresh "E" in
      let U := fresh "U" in let B := fresh "B" in
      destruct H as (us & st & L & E & U & B)
  end.
(** Both sides as one list of tokens. *)
Ltac flats :=
  unfold flat;
  repeat (progress (cbn [flat_map flat1 app fin w y];
                    rewrite ?flat_map_app, ?flat1_flat_map, <- ?app_assoc, ?app_nil_r, ?flat_map_map, ?append_assoc_s)).
Ltac flat_eq :=
  flats; repeat match goal with U : _ ++ fin _ = _ |- _ => unfold flat in U; rewrite <- U; clear U end; flats; reflexivity.

Lemma dargs_lexes l : l <> [] -> Forall (fun t => dchunk (generate_type_id t) (flat (pr_ty (dty_of t)))) l ->
  dchunk (generic_args l) (flat (sep (y ",") pr_ty (map dty_of l))).
Proof.
  intros N F. rewrite Forall_forall in F.
  destruct (dchunk_join (map generate_type_id l) (map (fun t => flat (pr_ty (dty_of t))) l)) as (us & st & L & E & U & S).
  - now apply map_Forall2.
  - destruct l; [congruence|discriminate].
  - exists us, st. rewrite dflat_sep, map_map. auto.
Qed.
Lemma pr_ty_args n a l : pr_ty (DTy n (a :: l)) = w n :: pr_tys (a :: l).
Proof. reflexivity. Qed.
Lemma type_lexes t : dtype t = true -> dchunk (generate_type_id t) (flat (pr_ty (dty_of t))).
Proof.
  induction t as [id n s|id n|id|id|id l IH|id] using type_id_ind2; cbn [dtype generate_type_id dty_of];
    intros R; try (apply dchunk_name; (reflexivity || now apply dclass_word)).
  apply andb_true_iff in R as [R RL]. apply andb_true_iff in R as [R N]. apply dclass_word, list_word in R.
  assert (NE : l <> []) by (destruct l; [discriminate N|discriminate]).
  assert (C : dchunk (generic_args l) (flat (sep (y ",") pr_ty (map dty_of l)))).
  { apply dargs_lexes; [assumption|]. rewrite Forall_forall in *. rewrite forallb_forall in RL. auto. }
  unfold generic_args in C. unchunk.
  eapply dchunk_intro; [lex|reflexivity| |now apply starts_app, starts_word].
  destruct l as [|t l]; [congruence|]. cbn [map] in *. rewrite pr_ty_args. unfold pr_tys. flat_eq.
Qed.
Lemma dtype_args id l : dtype (TyGeneric id l) = true ->
  word id = true /\ l <> [] /\ dchunk (generic_args l) (flat (sep (y ",") pr_ty (map dty_of l))).
Proof.
  cbn [dtype]. intros R. apply andb_true_iff in R as [R RL]. apply andb_true_iff in R as [R N].
  apply dclass_word in R. assert (NE : l <> []) by (destruct l; [discriminate N|discriminate]).
  split; [assumption|]. split; [assumption|]. apply dargs_lexes; [assumption|]. rewrite Forall_forall.
  rewrite forallb_forall in RL. intros t I. apply type_lexes. auto.
Qed.
Lemma ret_lexes t : match t with Some t => dtype t | None => true end = true ->
  dchunk (generate_option_type_id t) (flat (pr_ty (ret_ty t))).
Proof. destruct t as [t|]; intros R; [now apply type_lexes|now apply dchunk_name]. Qed.

(** ** Values *)

Lemma pr_postfix e p : pr (postfix e p) = pr e ++ pr_post p.
Proof.
  destruct e; try (cbn [postfix pr flat_map]; now rewrite app_nil_r).
  cbn [postfix pr]. rewrite flat_map_app. cbn [flat_map]. now rewrite app_nil_r, app_assoc.
Qed.
Lemma pr_field e f : pr (field e f) = pr e ++ [y "."; w f].
Proof. apply pr_postfix. Qed.
Lemma pr_call0 e m : pr (call e m []) = pr e ++ [y "."; w m; G "(" []].
Proof. apply pr_postfix. Qed.
Lemma pr_call1 e m a : pr (call e m [a]) = pr e ++ [y "."; w m; G "(" (pr a)].
Proof.
  unfold call. rewrite pr_postfix. cbn [pr_post map sep pr_label fst snd pr_targs trail app]. now rewrite app_nil_r.
Qed.
Lemma pr_call2 e m a b : pr (call e m [a; b]) = pr e ++ [y "."; w m; G "(" (pr a ++ y "," :: pr b)].
Proof.
  unfold call. rewrite pr_postfix. cbn [pr_post map sep pr_label fst snd pr_targs trail app]. now rewrite app_nil_r.
Qed.
Lemma pr_var n : pr (var n) = [w n].
Proof. reflexivity. Qed.
Lemma pr_const0 n : pr (const0 n) = [w "const"; w n; G "(" []].
Proof. reflexivity. Qed.
Lemma pr_const_args n t ts : pr (DConst n (t :: ts) [] false) = w "const" :: w n :: pr_tys (t :: ts) ++ [G "(" []].
Proof. reflexivity. Qed.
Lemma pr_const_list n t e : pr (DConst n [t] [(None, e)] false) =
  w "const" :: w n :: y "<" :: pr_ty t ++ [y ">"; G "(" (pr e)].
Proof. cbn [pr pr_targs]. unfold pr_tys. cbn [sep pr_label fst snd trail app]. rewrite app_nil_r, <- app_assoc. reflexivity. Qed.
Lemma pr_new n : pr (new n) = [w n; G "(" []].
Proof. reflexivity. Qed.
#[global] Hint Rewrite pr_field pr_call0 pr_call1 pr_call2 pr_var pr_const0 pr_const_list pr_new : dpr.
Ltac prs := autorewrite with dpr.

Lemma vec_elt id l g : vec_element id l = Some g -> l = [g] /\ id = "Vec".
Proof.
  unfold vec_element. destruct l as [|x [|z l]]; try discriminate. destruct (String.eqb_spec id "Vec"); [|discriminate].
  intros E. injection E as <-. auto.
Qed.
Lemma prefix_word t : dtype t = true -> word (generate_class_prefix t) = true.
Proof.
  destruct t as [id n s|id n|id|id|id l|id]; cbn [dtype generate_class_prefix]; intros R; try reflexivity.
  - rewrite !andb_true_iff in R. now apply list_word, dclass_word.
  - now apply dclass_word.
Qed.

(** The generated text of [const NIntoBuffers()] up to the call. *)
Definition codec_text (kind : string) (t : type_id) : string :=
  match t with
  | TyOther id => "const " ++ id ++ kind ++ "()"
  | TyGeneric id l =>
      match vec_element id l with
      | Some g =>
          "const List" ++ kind ++ "<" ++ generate_type_id g ++ ">(const " ++ generate_class_prefix g ++ "IntoBuffers())"
      | None => "const " ++ id ++ kind ++ "<" ++ generic_args l ++ ">()"
      end
  | _ => ""
  end.
Definition codec_ex (kind : string) (t : type_id) : dex :=
  match t with
  | TyOther id => const0 (id ++ kind)
  | TyGeneric id l =>
      match vec_element id l with
      | Some g =>
          DConst ("List" ++ kind) [dty_of g] [(None, const0 (generate_class_prefix g ++ "IntoBuffers"))] false
      | None => DConst (id ++ kind) (map dty_of l) [] false
      end
  | _ => var "null"
  end.
Lemma codec_lexes kind t : dtype t = true -> is_prim t = false -> all_word kind = true ->
  dchunk (codec_text kind t) (flat (pr (codec_ex kind t))).
Proof.
  intros R P K. destruct t as [id n s|id n|id|id|id l|id]; try discriminate P; cbn [codec_text codec_ex].
  - destruct (vec_element id l) as [g|] eqn:V.
    + apply vec_elt in V as [-> ->]. cbn [dtype forallb] in R. rewrite !andb_true_iff in R. destruct R as [_ [R _]].
      pose proof (type_lexes g R). pose proof (prefix_word g R). unchunk.
      eapply dchunk_intro; [lex|reflexivity| |reflexivity]. prs. flat_eq.
    + apply dtype_args in R as (W & NE & C). unchunk. eapply dchunk_intro; [lex|reflexivity| |reflexivity].
      destruct l as [|t l]; [congruence|]. cbn [map] in *. rewrite pr_const_args. unfold pr_tys. flat_eq.
  - cbn [dtype] in R. apply dclass_word in R. eapply dchunk_intro; [lex|reflexivity|prs; flat_eq|reflexivity].
Qed.

Ltac Ok_inv H := apply Ok_inj in H; subst.

Lemma read_text t s : generate_read t = Ok s ->
  if is_prim t then s = ("reader.read" ++ prim_name t ++ "()")%string
  else s = (codec_text "IntoBuffers" t ++ ".read(reader)")%string.
Proof.
  destruct t as [id n sg|id n|id|id|id l|id]; cbn [generate_read is_prim codec_text prim_name]; intros G.
  - destruct n as [|[|[|[|[|[|[|[|[|n]]]]]]]]]; try discriminate G; Ok_inv G; reflexivity.
  - destruct n as [|[|[|[|[|[|[|[|[|n]]]]]]]]]; try discriminate G; Ok_inv G; reflexivity.
  - Ok_inv G. reflexivity.
  - Ok_inv G. reflexivity.
  - destruct (vec_element id l); Ok_inv G; now rewrite !append_assoc_s.
  - Ok_inv G. now rewrite !append_assoc_s.
Qed.
Lemma prim_word t : all_word (prim_name t) = true.
Proof. destruct t as [id n sg|id n|id|id|id l|id]; try reflexivity; cbn; destruct n as [|[|[|[|[|n]]]]]; reflexivity. Qed.
Lemma into_codec_ex t : into_codec t = codec_ex "IntoBuffers" t.
Proof. reflexivity. Qed.
Lemma emplace_codec_ex t : is_string t = false -> emplace_codec t = codec_ex "EmplaceToBuffers" t.
Proof. destruct t; try reflexivity. cbn. now intros ->. Qed.
Lemma emplace_codec_string t : is_string t = true -> emplace_codec t = codec_ex "IntoBuffers" t.
Proof. destruct t; try discriminate. cbn. now intros ->. Qed.

Lemma read_lexes t s : dtype t = true -> generate_read t = Ok s -> dchunk s (flat (pr (read_ex t))).
Proof.
  intros R G. apply read_text in G. unfold read_ex. pose proof (prim_word t). destruct (is_prim t) eqn:P; subst s.
  - eapply dchunk_intro; [lex|reflexivity|prs; flat_eq|reflexivity].
  - pose proof (codec_lexes "IntoBuffers" t R P eq_refl). unchunk. rewrite into_codec_ex.
    eapply dchunk_intro; [lex|reflexivity|prs; flat_eq|now apply starts_app].
Qed.

Lemma default_lexes t : dtype t = true -> dchunk (generate_default_const t) (flat (pr (default_ex t))).
Proof.
  intros R. destruct t as [id n s|id n|id|id|id l|id];
    try (eapply dchunk_intro; [unfold generate_default_const; lex|reflexivity|prs; flat_eq|reflexivity]).
  - apply dtype_args in R as (W & NE & C). apply list_word in W. unchunk. cbn [generate_default_const default_ex].
    eapply dchunk_intro; [lex|reflexivity| |reflexivity]. prs.
    destruct l as [|t l]; [congruence|]. cbn [map] in *. rewrite pr_const_args. unfold pr_tys. flat_eq.
  - cbn [dtype] in R. apply dclass_word in R. cbn [generate_default_const default_ex].
    eapply dchunk_intro; [lex|reflexivity|prs; flat_eq|reflexivity].
Qed.

Lemma write_text t a s : generate_write t a = Ok s ->
  if is_prim t then s = ("writer.write" ++ prim_name t ++ "(" ++ a ++ ");")%string
  else s = (codec_text "IntoBuffers" t ++ ".write(writer, " ++ a ++ ");")%string.
Proof.
  destruct t as [id n sg|id n|id|id|id l|id]; cbn [generate_write is_prim codec_text prim_name]; intros G.
  - destruct n as [|[|[|[|[|[|[|[|[|n]]]]]]]]]; try discriminate G; Ok_inv G; reflexivity.
  - destruct n as [|[|[|[|[|[|[|[|[|n]]]]]]]]]; try discriminate G; Ok_inv G; reflexivity.
  - Ok_inv G. reflexivity.
  - Ok_inv G. reflexivity.
  - destruct (vec_element id l); Ok_inv G; now rewrite !append_assoc_s.
  - Ok_inv G. now rewrite !append_assoc_s.
Qed.
Lemma write_lexes t a e s : dtype t = true -> dchunk a (flat (pr e)) -> generate_write t a = Ok s ->
  dchunk s (flat (pr_st (write_st t e))).
Proof.
  intros R C G. apply write_text in G. unfold write_st. cbn [pr_st]. pose proof (prim_word t).
  destruct (is_prim t) eqn:P; subst s.
  - unchunk. eapply dchunk_intro; [lex|reflexivity|prs; flat_eq|reflexivity].
  - pose proof (codec_lexes "IntoBuffers" t R P eq_refl). unchunk. rewrite into_codec_ex.
    eapply dchunk_intro; [lex|reflexivity|prs; flat_eq|now apply starts_app].
Qed.
Lemma write_emplace_lexes t a e s : dtype t = true -> dchunk a (flat (pr e)) -> generate_write_emplace t a = Ok s ->
  dchunk s (flat (pr_st (write_emplace_st t e))).
Proof.
  intros R C G. unfold write_emplace_st. destruct (is_prim t) eqn:P.
  { apply (write_lexes t a e s R C). now destruct t. }
  assert (T : s = (codec_text (if is_string t then "IntoBuffers" else "EmplaceToBuffers") t ++ ".write(writer, " ++ a ++ ");")%string).
  { destruct t as [id n sg|id n|id|id|id l|id]; try discriminate P; cbn [generate_write_emplace is_string codec_text] in *.
    - destruct (vec_element id l); Ok_inv G; now rewrite !append_assoc_s.
    - destruct (String.eqb id "String"); Ok_inv G; now rewrite !append_assoc_s. }
  assert (X : emplace_codec t = codec_ex (if is_string t then "IntoBuffers" else "EmplaceToBuffers") t).
  { destruct (is_string t) eqn:Q; [now apply emplace_codec_string|now apply emplace_codec_ex]. }
  rewrite X. clear X. subst s. revert C.
  pose proof (codec_lexes (if is_string t then "IntoBuffers" else "EmplaceToBuffers") t R P) as D.
  destruct D as (us & st & L & E & U & S); [now destruct (is_string t)|]. intros C. unchunk. cbn [pr_st].
  eapply dchunk_intro; [lex|reflexivity|prs; flat_eq|now apply starts_app].
Qed.
Lemma read_emplace_lexes t a e s : dtype t = true -> dchunk a (flat (pr e)) -> generate_read_emplace t a = Ok s ->
  dchunk s (flat (pr_st (read_emplace_st t e))).
Proof.
  intros R C G. unfold read_emplace_st. cbn [pr_st]. destruct (is_prim t || is_string t) eqn:P.
  - assert (T : exists r, generate_read t = Ok r /\ s = (a ++ " = " ++ r ++ ";")%string).
    { destruct t as [id n sg|id n|id|id|id l|id]; try discriminate P; cbn [generate_read_emplace is_string is_prim orb] in *.
      1-4: destruct (generate_read _) as [r| |]; try discriminate G; cbn [bind] in G; Ok_inv G; now exists r.
      rewrite P in G. Ok_inv G. eexists. split; [reflexivity|]. now rewrite !append_assoc_s. }
    destruct T as (r & Gr & ->). pose proof (read_lexes t r R Gr). unchunk. cbn [pr].
    eapply dchunk_intro; [lex|reflexivity|flat_eq|now apply starts_app].
  - apply orb_false_iff in P as [P Q].
    assert (T : s = (codec_text "EmplaceToBuffers" t ++ ".read(reader, " ++ a ++ ");")%string).
    { destruct t as [id n sg|id n|id|id|id l|id]; try discriminate P; cbn [generate_read_emplace is_string codec_text] in *.
      - destruct (vec_element id l); Ok_inv G; now rewrite !append_assoc_s.
      - rewrite Q in G. Ok_inv G; now rewrite !append_assoc_s. }
    rewrite emplace_codec_ex by assumption. subst s. pose proof (codec_lexes "EmplaceToBuffers" t R P eq_refl). unchunk.
    eapply dchunk_intro; [lex|reflexivity|prs; flat_eq|now apply starts_app].
Qed.
Lemma skip_lexes t s : dtype t = true -> generate_read_skip t = Ok s -> dchunk s (flat (pr_st (skip_st t))).
Proof.
  intros R G. unfold skip_st. cbn [pr_st]. destruct (is_prim t) eqn:P.
  - assert (T : exists r, generate_read t = Ok r /\ s = (r ++ ";")%string).
    { destruct t as [id n sg|id n|id|id|id l|id]; try discriminate P; cbn [generate_read_skip] in *;
      destruct (generate_read _) as [r| |]; try discriminate G; cbn [bind] in G; Ok_inv G; now exists r. }
    destruct T as (r & Gr & ->). pose proof (read_lexes t r R Gr). unchunk.
    eapply dchunk_intro; [lex|reflexivity|flat_eq|now apply starts_app].
  - assert (T : s = (codec_text "IntoBuffers" t ++ ".skip(reader, 1);")%string).
    { destruct t as [id n sg|id n|id|id|id l|id]; try discriminate P; cbn [generate_read_skip codec_text] in *.
      - destruct (vec_element id l); Ok_inv G; now rewrite !append_assoc_s.
      - Ok_inv G; now rewrite !append_assoc_s. }
    rewrite into_codec_ex. subst s. pose proof (codec_lexes "IntoBuffers" t R P eq_refl). unchunk.
    eapply dchunk_intro; [lex|reflexivity|prs; flat_eq|now apply starts_app].
Qed.
Lemma skip_emplace_lexes t s : dtype t = true -> generate_read_skip_emplace t = Ok s ->
  dchunk s (flat (pr_st (skip_emplace_st t))).
Proof.
  intros R G. unfold skip_emplace_st. cbn [pr_st]. destruct (is_prim t) eqn:P.
  - assert (T : exists r, generate_read t = Ok r /\ s = (r ++ ";")%string).
    { destruct t as [id n sg|id n|id|id|id l|id]; try discriminate P; cbn [generate_read_skip_emplace] in *;
      destruct (generate_read _) as [r| |]; try discriminate G; cbn [bind] in G; Ok_inv G; now exists r. }
    destruct T as (r & Gr & ->). pose proof (read_lexes t r R Gr). unchunk.
    eapply dchunk_intro; [lex|reflexivity|flat_eq|now apply starts_app].
  - assert (T : s = (codec_text (if is_string t then "IntoBuffers" else "EmplaceToBuffers") t ++ ".skip(reader, 1);")%string).
    { destruct t as [id n sg|id n|id|id|id l|id]; try discriminate P; cbn [generate_read_skip_emplace is_string codec_text] in *.
      - destruct (vec_element id l); Ok_inv G; now rewrite !append_assoc_s.
      - destruct (String.eqb id "String"); Ok_inv G; now rewrite !append_assoc_s. }
    assert (X : emplace_codec t = codec_ex (if is_string t then "IntoBuffers" else "EmplaceToBuffers") t).
    { destruct (is_string t) eqn:Q; [now apply emplace_codec_string|now apply emplace_codec_ex]. }
    rewrite X. clear X. subst s.
    destruct (codec_lexes (if is_string t then "IntoBuffers" else "EmplaceToBuffers") t R P) as (us & st & L & E & U & S);
      [now destruct (is_string t)|].
    eapply dchunk_intro; [lex|reflexivity|prs; flat_eq|now apply starts_app].
Qed.
