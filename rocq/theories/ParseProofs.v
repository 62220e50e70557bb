(** The parser accepts exactly the schema grammar and always finishes. *)
Require Import Coq.Strings.String Coq.Strings.Ascii.
Require Import Coq.NArith.NArith Coq.ZArith.ZArith Coq.Lists.List Coq.Bool.Bool Coq.micromega.Lia.
Require Import Verif.Base Verif.F64 Verif.Ast Verif.Lexer Verif.Parser Verif.Grammar.
Import ListNotations.
Local Open Scope string_scope.
Local Open Scope list_scope.

(** ** Tactics *)

(** Decompose a successful computation. *)
Lemma bind_ok {A B} (x : res A) (f : A -> res B) (b : B) :
  bind x f = Ok b -> exists a, x = Ok a /\ f a = Ok b.
Proof. destruct x; try discriminate. eauto. Qed.

Ltac inv_ok H :=
  repeat first
    [ match type of H with
      | Ok _ = Ok _ => injection H as H; subst
      end
    | let a := fresh "a" in let E := fresh "E" in
      apply bind_ok in H as (a & E & H); try destruct a as [a ?] ].

(** ** Single tokens *)

Lemma is_sym_true c ts : is_sym c ts = true <-> next_is (TSym c) ts.
Proof.
  unfold is_sym, next_is. destruct ts as [|[] ts]; cbn; split; try discriminate;
    try (intros (r & [=]); fail).
  - intros H. apply Ascii.eqb_eq in H as ->. eauto.
  - intros (r & [= -> ->]). apply Ascii.eqb_refl.
Qed.

Lemma is_sym_false c ts : is_sym c ts = false <-> ~ next_is (TSym c) ts.
Proof.
  rewrite <- is_sym_true. destruct (is_sym c ts); split; congruence.
Qed.

Lemma is_sym_cons c ts : is_sym c (TSym c :: ts) = true.
Proof. apply is_sym_true. now exists ts. Qed.

Lemma expect_sym_ok c ts u : expect_sym c ts = Ok u -> exists r, ts = TSym c :: r.
Proof.
  unfold expect_sym. destruct (is_sym c ts) eqn:E; try discriminate. intros _.
  now apply is_sym_true in E.
Qed.

Lemma expect_sym_cons c ts : expect_sym c (TSym c :: ts) = Ok tt.
Proof. unfold expect_sym. now rewrite is_sym_cons. Qed.

Lemma expect_id_ok ts n : expect_id ts = Ok n -> exists r, ts = TId n :: r.
Proof. unfold expect_id. destruct ts as [|[] ts]; try discriminate. intros [= ->]. eauto. Qed.

Lemma expect_id_inv ts : expect_id ts = Panic \/ exists n r, ts = TId n :: r /\ expect_id ts = Ok n.
Proof. unfold expect_id. destruct ts as [|[] ts]; eauto. Qed.

Lemma expect_sym_inv c ts :
  expect_sym c ts = Panic \/ exists r, ts = TSym c :: r /\ expect_sym c ts = Ok tt.
Proof.
  unfold expect_sym. destruct (is_sym c ts) eqn:E; [|auto]. apply is_sym_true in E as [r ->].
  right. eauto.
Qed.

Lemma cur_id_dec ts : (exists n r, ts = TId n :: r) \/ ~ next_is_id ts.
Proof.
  destruct ts as [|[] ts]; try (right; intros (n & r & E); discriminate E); left; eauto.
Qed.

(** [match cur ts with TId n => a n | _ => b end], by cases. *)
Lemma match_id {A} ts (a : string -> A) (b : A) :
  match cur ts with TId n => a n | _ => b end =
  match ts with TId n :: _ => a n | _ => b end.
Proof. destruct ts as [|[] ts]; reflexivity. Qed.

Lemma match_id_other {A} ts (a : string -> A) (b : A) : ~ next_is_id ts ->
  match cur ts with TId n => a n | _ => b end = b.
Proof.
  intros N. destruct ts as [|[] ts]; try reflexivity. exfalso. apply N. eexists _, _; reflexivity.
Qed.

Ltac sym_subst :=
  repeat match goal with
  | H : expect_sym _ _ = Ok _ |- _ => apply expect_sym_ok in H as (? & H); cbn [nxt tl] in H; subst
  | H : expect_id _ = Ok _ |- _ => apply expect_id_ok in H as (? & H); cbn [nxt tl] in H; subst
  end; repeat (progress (cbn [nxt tl] in *; subst)).

(** ** Types *)

Lemma named_type_plain n : plain_type n (named_type n).
Proof.
  unfold named_type.
  repeat match goal with
  | |- context [String.eqb n ?k] => destruct (String.eqb_spec n k) as [->|]
  end; constructor; cbn; intuition.
Qed.

Lemma plain_type_named n t : plain_type n t -> t = named_type n.
Proof.
  intros [size sgn H|size H| -> | -> |H].
  - cbn in H. repeat (destruct H as [H|H]; [injection H as <- <- <-; reflexivity|]). destruct H.
  - cbn in H. repeat (destruct H as [H|H]; [injection H as <- <-; reflexivity|]). destruct H.
  - reflexivity.
  - reflexivity.
  - unfold named_type.
    repeat match goal with
    | |- context [String.eqb n ?k] =>
        destruct (String.eqb_spec n k) as [->|]; [exfalso; apply H; cbn; intuition|]
    end. reflexivity.
Qed.

Lemma parse_type_id_S f ts :
  parse_type_id (S f) ts =
  let* name := expect_id ts in
  if is_sym "<" (nxt ts) then parse_generics f name [] (nxt ts)
  else Ok (named_type name, nxt ts).
Proof. reflexivity. Qed.

Lemma parse_generics_S f name acc ts :
  parse_generics (S f) name acc ts =
  match cur (nxt ts) with
  | TId _ =>
      let* (ty, ts) := parse_type_id f (nxt ts) in
      if is_sym ">" ts then Ok (TyGeneric name (acc ++ [ty]), nxt ts)
      else if is_sym "," ts then parse_generics f name (acc ++ [ty]) ts
      else Panic
  | _ => Ok (named_type name, nxt ts)
  end.
Proof. reflexivity. Qed.

Definition generics_result (name : string) (acc : list type_id) (ts : toks) (t : type_id) (r : toks)
  : Prop :=
  (exists l, type_args_g ts l r /\ t = TyGeneric name (acc ++ l))
  \/ (broken_args_g ts r /\ t = named_type name).

Lemma type_sound f :
  (forall ts t r, parse_type_id f ts = Ok (t, r) -> type_g ts t r) /\
  (forall name acc ts t r, parse_generics f name acc ts = Ok (t, r) ->
     generics_result name acc (nxt ts) t r).
Proof.
  induction f as [|f [IH1 IH2]]; [split; discriminate|]. split.
  - intros ts t r H. rewrite parse_type_id_S in H. apply bind_ok in H as (n & E & H).
    sym_subst. destruct (is_sym "<" x) eqn:L.
    + apply is_sym_true in L as [y ->]. apply IH2 in H as [(l & G & ->)|(G & ->)].
      * now constructor.
      * constructor; [assumption|apply named_type_plain].
    + injection H as <- <-. constructor; [now apply is_sym_false|apply named_type_plain].
  - intros name acc ts t r H. rewrite parse_generics_S in H.
    destruct (cur_id_dec (nxt ts)) as [(n & x & E)|N].
    + rewrite E in *. cbn [cur] in H. apply bind_ok in H as ([ty ts'] & E1 & H).
      apply IH1 in E1.
      destruct (is_sym ">" ts') eqn:G.
      { apply is_sym_true in G as [y ->]. injection H as <- <-. left.
        exists [ty]. split; [now constructor|reflexivity]. }
      destruct (is_sym "," ts') eqn:C; [|discriminate].
      apply is_sym_true in C as [y ->]. apply IH2 in H as [(l & G' & ->)|(G' & ->)].
      * left. exists (ty :: l). split; [econstructor; eassumption|]. now rewrite <- app_assoc.
      * right. split; [econstructor; eassumption|reflexivity].
    + rewrite match_id_other in H by assumption. injection H as <- <-.
      right. split; [now constructor|reflexivity].
Qed.

Lemma type_consumes :
  (forall ts t r, type_g ts t r -> List.length r < List.length ts) /\
  (forall ts l r, type_args_g ts l r -> List.length r < List.length ts) /\
  (forall ts r, broken_args_g ts r -> List.length r <= List.length ts).
Proof. apply type_g_mutind; intros; cbn in *; lia. Qed.

Lemma type_complete :
  (forall ts t r, type_g ts t r -> forall f, List.length ts < f ->
     parse_type_id f ts = Ok (t, r)) /\
  (forall ts l r, type_args_g ts l r -> forall f name acc s, S (List.length ts) < f ->
     parse_generics f name acc (s :: ts) = Ok (TyGeneric name (acc ++ l), r)) /\
  (forall ts r, broken_args_g ts r -> forall f name acc s, S (List.length ts) < f ->
     parse_generics f name acc (s :: ts) = Ok (named_type name, r)).
Proof.
  apply type_g_mutind.
  - intros n t r N P [|f] L; [cbn in L; lia|]. rewrite parse_type_id_S. cbn [expect_id cur bind nxt tl].
    apply is_sym_false in N. rewrite N. now rewrite (plain_type_named n t P).
  - intros n ts l r _ IH [|f] L; [cbn in L; lia|]. rewrite parse_type_id_S.
    cbn [expect_id cur bind nxt tl]. rewrite is_sym_cons. rewrite IH by (cbn in L; lia). reflexivity.
  - intros n ts t r _ IH P [|f] L; [cbn in L; lia|]. rewrite parse_type_id_S.
    cbn [expect_id cur bind nxt tl]. rewrite is_sym_cons. rewrite IH by (cbn in L; lia).
    now rewrite (plain_type_named n t P).
  - intros ts t r G IH [|f] name acc s L; [lia|]. rewrite parse_generics_S. cbn [nxt tl].
    assert (exists n x, ts = TId n :: x) as (n & x & ->) by (inversion G; subst; eauto).
    cbn [cur]. rewrite IH by lia. cbn [bind]. rewrite is_sym_cons. reflexivity.
  - intros ts t ts' l r G IH G' IH' [|f] name acc s L; [lia|]. rewrite parse_generics_S. cbn [nxt tl].
    assert (exists n x, ts = TId n :: x) as (n & x & ->) by (inversion G; subst; eauto).
    cbn [cur]. rewrite IH by lia. cbn [bind]. rewrite is_sym_cons.
    replace (is_sym ">" (TSym "," :: ts')) with false by reflexivity.
    apply (proj1 type_consumes) in G. cbn in G, L.
    rewrite IH' by lia. now rewrite <- app_assoc.
  - intros ts N [|f] name acc s L; [lia|]. rewrite parse_generics_S. cbn [nxt tl].
    now rewrite match_id_other by assumption.
  - intros ts t ts' r G IH G' IH' [|f] name acc s L; [lia|]. rewrite parse_generics_S. cbn [nxt tl].
    assert (exists n x, ts = TId n :: x) as (n & x & ->) by (inversion G; subst; eauto).
    cbn [cur]. rewrite IH by lia. cbn [bind]. rewrite is_sym_cons.
    replace (is_sym ">" (TSym "," :: ts')) with false by reflexivity.
    apply (proj1 type_consumes) in G. cbn in G, L.
    rewrite IH' by lia. reflexivity.
Qed.

(** ** Finishing: enough fuel never runs out.  [fin m r]: the result is a panic or leaves a
    strictly shorter (at most equally long) list. *)

Definition fin {A} (strict : bool) (ts : toks) (x : res (A * toks)) : Prop :=
  x = Panic \/ exists a r, x = Ok (a, r) /\
    (if strict then List.length r < List.length ts else List.length r <= List.length ts).

Lemma type_fin f :
  (forall ts, List.length ts < f -> fin true ts (parse_type_id f ts)) /\
  (forall name acc ts, List.length ts < f ->
     fin false (nxt ts) (parse_generics f name acc ts)).
Proof.
  induction f as [|f [IH1 IH2]]; [split; intros; lia|]. split.
  - intros ts L. rewrite parse_type_id_S.
    destruct (expect_id_inv ts) as [E|(n & r & -> & E)]; rewrite E; cbn [bind]; [now left|].
    cbn [nxt tl]. destruct (is_sym "<" r) eqn:S.
    + apply is_sym_true in S as [y ->].
      destruct (IH2 n [] (TSym "<" :: y) ltac:(cbn in *; lia)) as [E'|(t & r & E' & L')].
      * left; assumption.
      * right. exists t, r. cbn in *. split; [assumption|lia].
    + right. eexists _, _. split; [reflexivity|cbn; lia].
  - intros name acc ts L. rewrite parse_generics_S.
    destruct (cur_id_dec (nxt ts)) as [(n & x & E)|N].
    + rewrite E. cbn [cur].
      destruct ts as [|t0 ts]; [discriminate|]. cbn [nxt tl] in E. subst ts. cbn in L.
      destruct (IH1 (TId n :: x) ltac:(cbn; lia)) as [E'|(t & r & E' & L')];
        rewrite E'; cbn [bind]; [now left|].
      destruct (is_sym ">" r) eqn:S.
      { right. eexists _, _. split; [reflexivity|]. destruct r; cbn in *; lia. }
      destruct (is_sym "," r) eqn:C; [|now left].
      destruct (IH2 name (acc ++ [t]) r ltac:(cbn in L'; lia)) as [E''|(t' & r' & E'' & L'')].
      * left; assumption.
      * right. exists t', r'. split; [assumption|]. destruct r; cbn in *; lia.
    + rewrite match_id_other by assumption. right. eexists _, _. split; [reflexivity|lia].
Qed.

(** ** Positions and bindings *)

Lemma parse_position_spec ts :
  parse_position ts = Panic \/ exists p r, parse_position ts = Ok (p, r) /\ pos_g ts p r.
Proof.
  unfold parse_position.
  destruct (expect_sym_inv "#" ts) as [E|(r & -> & E)]; rewrite E; cbn [bind]; [now left|].
  cbn [nxt tl]. destruct (expect_sym_inv "[" r) as [E'|(r' & -> & E')]; rewrite E'; cbn [bind]; [now left|].
  cbn [nxt tl]. destruct r' as [|[] r']; cbn [cur]; try (now left).
  destruct l; try (now left). cbn [nxt tl].
  destruct (expect_sym_inv "]" r') as [E''|(r'' & -> & E'')]; rewrite E''; cbn [bind]; [now left|].
  right. eexists _, _. split; [reflexivity|]. constructor.
Qed.

Lemma parse_position_complete ts p r : pos_g ts p r -> parse_position ts = Ok (p, r).
Proof. intros []. reflexivity. Qed.

Lemma pos_consumes ts p r : pos_g ts p r -> List.length r + 4 = List.length ts.
Proof. intros []. cbn. lia. Qed.

(** ** Comma-separated lists.  [step] models one iteration of such a loop. *)

Section Lists.
  Context {A : Type} (start : toks -> bool) (item : nat -> toks -> res (A * toks)).

  Fixpoint loop (fuel : nat) (ts : toks) : res (list A * toks) :=
    match fuel with
    | O => NoFuel
    | S f =>
        if start ts then
          let* (x, ts) := item f ts in
          if is_sym "," ts then let* (l, ts) := loop f (nxt ts) in Ok (x :: l, ts)
          else Ok ([x], ts)
        else Ok ([], ts)
    end.

  Context (starts : toks -> Prop) (item_g : toks -> A -> toks -> Prop).
  Hypothesis starts_ok : forall ts, start ts = true <-> starts ts.
  Hypothesis item_sound : forall f ts x r, item f ts = Ok (x, r) -> item_g ts x r.
  Hypothesis item_consumes : forall ts x r, item_g ts x r -> List.length r < List.length ts.
  Hypothesis item_complete : forall f ts x r, item_g ts x r -> List.length ts < f ->
    item f ts = Ok (x, r).
  Hypothesis item_fin : forall f ts, List.length ts < f -> start ts = true ->
    fin true ts (item f ts).

  Lemma loop_sound f : forall ts l r, loop f ts = Ok (l, r) -> sep_list_g starts item_g ts l r.
  Proof.
    induction f as [|f IH]; [discriminate|]. intros ts l r H. cbn in H.
    destruct (start ts) eqn:S.
    - apply bind_ok in H as ([x ts'] & E & H). apply item_sound in E.
      destruct (is_sym "," ts') eqn:C.
      + apply is_sym_true in C as [y ->]. apply bind_ok in H as ([l' r'] & E' & H).
        injection H as <- <-. eapply sl_more; [now apply starts_ok|eassumption|now apply IH].
      + injection H as <- <-. apply sl_last; [now apply starts_ok|assumption|now apply is_sym_false].
    - injection H as <- <-. apply sl_stop. rewrite <- starts_ok. congruence.
  Qed.

  Lemma sep_list_consumes ts l r : sep_list_g starts item_g ts l r ->
    List.length r <= List.length ts /\ (l <> [] -> List.length r < List.length ts).
  Proof.
    induction 1 as [ts N|ts x r S I N|ts x ts' l r S I G IH].
    - split; [lia|congruence].
    - apply item_consumes in I. split; [lia|intros; lia].
    - apply item_consumes in I. cbn in I. split; [lia|intros; lia].
  Qed.

  Lemma loop_complete ts l r : sep_list_g starts item_g ts l r ->
    forall f, S (List.length ts) < f -> loop f ts = Ok (l, r).
  Proof.
    induction 1 as [ts N|ts x r S I N|ts x ts' l r S I G IH]; intros [|f] L; try lia; cbn.
    - rewrite <- starts_ok in N. destruct (start ts); [congruence|reflexivity].
    - apply starts_ok in S. rewrite S. rewrite (item_complete f ts x r) by (assumption || lia).
      cbn. apply is_sym_false in N. now rewrite N.
    - apply starts_ok in S. rewrite S.
      rewrite (item_complete f ts x (TSym "," :: ts')) by (assumption || lia).
      cbn [bind]. rewrite is_sym_cons. cbn [nxt tl].
      apply item_consumes in I. cbn in I. rewrite IH by lia. reflexivity.
  Qed.

  Lemma loop_fin f : forall ts, S (List.length ts) < f -> fin false ts (loop f ts).
  Proof.
    induction f as [|f IH]; intros ts L; [lia|]. cbn.
    destruct (start ts) eqn:S; [|right; eexists _, _; split; [reflexivity|lia]].
    destruct (item_fin f ts ltac:(lia) S) as [E|(x & r & E & L')]; rewrite E; cbn [bind]; [now left|].
    destruct (is_sym "," r).
    - destruct (IH (nxt r)) as [E'|(l & r' & E' & L'')]; [destruct r; cbn in *; lia| |];
        rewrite E'; cbn [bind]; [now left|].
      right. eexists _, _. split; [reflexivity|]. destruct r; cbn in *; lia.
    - right. eexists _, _. split; [reflexivity|lia].
  Qed.
End Lists.

Definition start_hash : toks -> bool := is_sym "#".
Definition start_id (ts : toks) : bool := match cur ts with TId _ => true | _ => false end.

Lemma start_hash_ok ts : start_hash ts = true <-> next_is (TSym "#") ts.
Proof. apply is_sym_true. Qed.

Lemma start_id_ok ts : start_id ts = true <-> next_is_id ts.
Proof.
  unfold start_id, next_is_id. destruct ts as [|[] ts]; cbn; split; try discriminate; eauto;
    intros (n & r & E); discriminate E.
Qed.

(** ** The loops of the parser are instances of [loop] *)

Definition binding_item (f : nat) (ts : toks) : res ((string * type_id) * toks) :=
  let* name := expect_id ts in
  let* _ := expect_sym ":" (nxt ts) in
  let* (ty, ts) := parse_type_id f (nxt (nxt ts)) in
  Ok ((name, ty), ts).

Definition pos_item {A} (item : nat -> toks -> res (A * toks)) (f : nat) (ts : toks)
  : res ((N * A) * toks) :=
  let* (p, ts) := parse_position ts in
  let* (x, ts) := item f ts in
  Ok ((p, x), ts).

Definition variant_item (f : nat) (ts : toks) : res ((N -> enum_item) * toks) :=
  let* name := expect_id ts in
  let ts := nxt ts in
  if is_sym "(" ts then
    let* (values, ts) := parse_tuple_parameters f (nxt ts) in
    let* _ := expect_sym ")" ts in
    Ok (fun p => ItemTuple p name values, nxt ts)
  else if is_sym "{" ts then
    let* (fields, ts) := parse_struct_parameters f (nxt ts) in
    let* _ := expect_sym "}" ts in
    Ok (fun p => ItemStruct p name fields, nxt ts)
  else Ok (fun p => ItemEmpty p name, ts).

Definition pair_item (f : nat) (ts : toks) : res (id_value * toks) :=
  let* id := expect_id ts in
  let* _ := expect_sym "=" (nxt ts) in
  let* value := parse_const_value (nxt (nxt ts)) in
  Ok (mk_id_value id value, nxt (nxt (nxt ts))).

(** Rearranging sequenced computations. *)
Lemma bind_assoc {A B C} (x : res A) (f : A -> res B) (g : B -> res C) :
  bind (bind x f) g = bind x (fun a => bind (f a) g).
Proof. destruct x; reflexivity. Qed.

Lemma bind_ext {A B} (x : res A) (f g : A -> res B) :
  (forall a, f a = g a) -> bind x f = bind x g.
Proof. intros H. destruct x; cbn; auto. Qed.

Ltac norm_bind :=
  repeat first [ rewrite bind_assoc | progress cbn [bind] | apply bind_ext; intros [? ?]
               | apply bind_ext; intros ? ].

Lemma struct_wo_loop f : forall pos ts,
  parse_struct_parameters_without_positions f pos ts =
  let* (l, r) := loop start_id binding_item f ts in Ok (map field_of (number_from pos l), r).
Proof.
  induction f as [|f IH]; intros pos ts; [reflexivity|]. cbn [loop].
  cbn [parse_struct_parameters_without_positions]. unfold start_id, binding_item, expect_id.
  destruct ts as [|[] ts]; cbn [cur]; try reflexivity. cbn [bind].
  norm_bind. destruct (is_sym "," _); [|reflexivity].
  rewrite IH. now norm_bind.
Qed.

Lemma struct_w_loop f : forall ts,
  parse_struct_parameters_with_positions f ts =
  let* (l, r) := loop start_hash (pos_item binding_item) f ts in Ok (map field_of l, r).
Proof.
  induction f as [|f IH]; intros ts; [reflexivity|]. cbn [loop].
  cbn [parse_struct_parameters_with_positions]. unfold start_hash, pos_item, binding_item.
  destruct (is_sym "#" ts); [|reflexivity].
  norm_bind. destruct (is_sym "," _); [|reflexivity].
  rewrite IH. now norm_bind.
Qed.

Lemma tuple_wo_loop f : forall pos ts,
  parse_tuple_parameters_without_positions f pos ts =
  let* (l, r) := loop start_id parse_type_id f ts in
  Ok (map tuple_field_of (number_from pos l), r).
Proof.
  induction f as [|f IH]; intros pos ts; [reflexivity|]. cbn [loop].
  cbn [parse_tuple_parameters_without_positions]. unfold start_id.
  destruct ts as [|[] ts]; cbn [cur]; try reflexivity. 
  norm_bind. destruct (is_sym "," _); [|reflexivity].
  rewrite IH. now norm_bind.
Qed.

Lemma tuple_w_loop f : forall ts,
  parse_tuple_parameters_with_positions f ts =
  let* (l, r) := loop start_hash (pos_item parse_type_id) f ts in Ok (map tuple_field_of l, r).
Proof.
  induction f as [|f IH]; intros ts; [reflexivity|]. cbn [loop].
  cbn [parse_tuple_parameters_with_positions]. unfold start_hash, pos_item.
  destruct (is_sym "#" ts); [|reflexivity].
  norm_bind. destruct (is_sym "," _); [|reflexivity].
  rewrite IH. now norm_bind.
Qed.

Lemma parse_enum_item_variant f p name ts :
  parse_enum_item f p name ts =
  let* (v, r) := variant_item f (TId name :: ts) in Ok (v p, r).
Proof.
  unfold parse_enum_item, variant_item, parse_tuple_enum, parse_struct_enum. cbn [expect_id cur bind nxt tl].
  destruct (is_sym "(" ts) eqn:P.
  { unfold expect_sym at 1. rewrite P. now norm_bind. }
  destruct (is_sym "{" ts) eqn:B; [|reflexivity].
  unfold expect_sym at 1. rewrite B. now norm_bind.
Qed.

Lemma enum_wo_loop f : forall pos ts,
  parse_enum_items_without_positions f pos ts =
  let* (l, r) := loop start_id variant_item f ts in
  Ok (map (fun x => snd x (fst x)) (number_from pos l), r).
Proof.
  induction f as [|f IH]; intros pos ts; [reflexivity|]. cbn [loop].
  cbn [parse_enum_items_without_positions]. unfold start_id.
  destruct ts as [|[] ts]; cbn [cur]; try reflexivity. cbn [nxt tl].
  rewrite parse_enum_item_variant.
  norm_bind. destruct (is_sym "," _); [|reflexivity].
  rewrite IH. now norm_bind.
Qed.

Lemma enum_w_loop f : forall ts,
  parse_enum_items_with_positions f ts =
  let* (l, r) := loop start_hash (pos_item variant_item) f ts in
  Ok (map (fun x => snd x (fst x)) l, r).
Proof.
  induction f as [|f IH]; intros ts; [reflexivity|]. cbn [loop].
  cbn [parse_enum_items_with_positions]. unfold start_hash, pos_item.
  destruct (is_sym "#" ts); [|reflexivity].
  rewrite !bind_assoc. apply bind_ext. intros [p ts'].
  rewrite !bind_assoc.
  destruct (expect_id_inv ts') as [E|(n & r & -> & E)].
  { rewrite E. unfold variant_item. rewrite E. reflexivity. }
  rewrite E. cbn [bind nxt tl]. rewrite parse_enum_item_variant.
  norm_bind. destruct (is_sym "," _); [|reflexivity].
  rewrite IH. now norm_bind.
Qed.

Lemma args_loop f : forall ts,
  parse_fn_args f ts =
  let* (l, r) := loop start_id binding_item f ts in Ok (map arg_of l, r).
Proof.
  induction f as [|f IH]; intros ts; [reflexivity|]. cbn [loop].
  cbn [parse_fn_args]. unfold start_id, binding_item, expect_id.
  destruct ts as [|[] ts]; cbn [cur]; try reflexivity. cbn [bind].
  norm_bind. destruct (is_sym "," _); [|reflexivity].
  rewrite IH. now norm_bind.
Qed.

Lemma group_loop f : forall ts,
  parse_group_values f ts = loop start_id pair_item f ts.
Proof.
  induction f as [|f IH]; intros ts; [reflexivity|]. cbn [loop].
  cbn [parse_group_values]. unfold start_id, pair_item, expect_id.
  destruct ts as [|[] ts]; cbn [cur]; try reflexivity. cbn [bind].
  norm_bind. destruct (is_sym "," _); [|reflexivity].
  now rewrite IH.
Qed.

(** What is needed of an element parser. *)
Record good {A} (item : nat -> toks -> res (A * toks)) (item_g : toks -> A -> toks -> Prop) : Prop := {
  good_sound : forall f ts x r, item f ts = Ok (x, r) -> item_g ts x r;
  good_consumes : forall ts x r, item_g ts x r -> List.length r < List.length ts;
  good_complete : forall f ts x r, item_g ts x r -> List.length ts < f -> item f ts = Ok (x, r);
  good_fin : forall f ts, List.length ts < f -> fin true ts (item f ts)
}.

Lemma type_good : good parse_type_id type_g.
Proof.
  split.
  - intros f. apply type_sound.
  - apply type_consumes.
  - intros. now apply (proj1 type_complete).
  - intros f. apply type_fin.
Qed.

Lemma binding_good : good binding_item binding_g.
Proof.
  split.
  - intros f ts [n t] r H. unfold binding_item in H. apply bind_ok in H as (n' & E & H).
    apply bind_ok in H as (u & E' & H). apply bind_ok in H as ([t' r'] & E'' & H).
    injection H as <- <- <-. sym_subst. constructor. now apply (proj1 (type_sound f)) in E''.
  - intros ts x r []. apply (proj1 type_consumes) in H. cbn in *. lia.
  - intros f ts x r [n ts' t r' H] L. unfold binding_item. cbn [expect_id cur bind nxt tl].
    rewrite expect_sym_cons. cbn [bind].
    rewrite (proj1 type_complete _ _ _ H f) by (cbn in L; lia). reflexivity.
  - intros f ts L. unfold binding_item.
    destruct (expect_id_inv ts) as [E|(n & r & -> & E)]; rewrite E; cbn [bind nxt tl]; [now left|].
    destruct (expect_sym_inv ":" r) as [E'|(r' & -> & E')]; rewrite E'; cbn [bind nxt tl]; [now left|].
    destruct (proj1 (type_fin f) r') as [E''|(t & r'' & E'' & L'')]; [cbn in L; lia| |];
      rewrite E''; cbn [bind]; [now left|].
    right. eexists _, _. split; [reflexivity|]. cbn in *. lia.
Qed.

Lemma pos_good {A} item (item_g : toks -> A -> toks -> Prop) : good item item_g ->
  good (pos_item item) (with_pos_g item_g).
Proof.
  intros G. split.
  - intros f ts [p x] r H. unfold pos_item in H. apply bind_ok in H as ([p' ts'] & E & H).
    apply bind_ok in H as ([x' r'] & E' & H). injection H as <- <- <-.
    destruct (parse_position_spec ts) as [E2|(p2 & r2 & E2 & P)]; rewrite E2 in E; [discriminate|].
    injection E as <- <-. econstructor; [eassumption|]. eapply good_sound; eassumption.
  - intros ts x r [ts0 p ts' x' r' P I]. apply pos_consumes in P. apply (good_consumes _ _ G) in I. lia.
  - intros f ts x r [ts0 p ts' x' r' P I] L. unfold pos_item.
    rewrite (parse_position_complete _ _ _ P). cbn [bind]. apply pos_consumes in P.
    rewrite (good_complete _ _ G f _ _ _ I) by lia. reflexivity.
  - intros f ts L. unfold pos_item.
    destruct (parse_position_spec ts) as [E|(p & r & E & P)]; rewrite E; cbn [bind]; [now left|].
    apply pos_consumes in P.
    destruct (good_fin _ _ G f r) as [E'|(x & r' & E' & L')]; [lia| |]; rewrite E'; cbn [bind];
      [now left|].
    right. eexists _, _. split; [reflexivity|]. lia.
Qed.

Definition positioned {A} (item : nat -> toks -> res (A * toks)) (f : nat) (ts : toks)
  : res (list (N * A) * toks) :=
  if is_sym "#" ts then loop start_hash (pos_item item) f ts
  else let* (l, r) := loop start_id item f ts in Ok (number_from 0 l, r).

(** What is needed of a list parser. *)
Record list_good {A} (p : nat -> toks -> res (A * toks)) (g : toks -> A -> toks -> Prop) : Prop := {
  lg_sound : forall f ts x r, p f ts = Ok (x, r) -> g ts x r;
  lg_consumes : forall ts x r, g ts x r -> List.length r <= List.length ts;
  lg_complete : forall f ts x r, g ts x r -> S (List.length ts) < f -> p f ts = Ok (x, r);
  lg_fin : forall f ts, S (List.length ts) < f -> fin false ts (p f ts)
}.

Lemma loop_good {A} start starts item (item_g : toks -> A -> toks -> Prop) :
  (forall ts, start ts = true <-> starts ts) -> good item item_g ->
  list_good (loop start item) (sep_list_g starts item_g).
Proof.
  intros S G. split.
  - intros f ts x r. apply loop_sound; [assumption|apply good_sound; assumption].
  - intros ts x r H. eapply sep_list_consumes in H; [|apply good_consumes with item; assumption].
    apply H.
  - intros f ts x r H L. eapply loop_complete; try eassumption; apply G.
  - intros f ts L. apply loop_fin; [|assumption]. intros. now apply (good_fin _ _ G).
Qed.

Lemma positioned_good {A} item (item_g : toks -> A -> toks -> Prop) : good item item_g ->
  list_good (positioned item) (positioned_g item_g).
Proof.
  intros G.
  pose proof (loop_good _ _ _ _ start_hash_ok (pos_good _ _ G)) as G1.
  pose proof (loop_good _ _ _ _ start_id_ok G) as G2.
  unfold positioned. split.
  - intros f ts x r H. destruct (is_sym "#" ts) eqn:E.
    + apply ps_explicit; [now apply is_sym_true|]. eapply lg_sound; eassumption.
    + apply bind_ok in H as ([l r'] & E' & H). injection H as <- <-.
      apply ps_implicit; [now apply is_sym_false|]. eapply lg_sound; eassumption.
  - intros ts x r [ts' l r' N H|ts' l r' N H].
    + exact (lg_consumes _ _ G1 _ _ _ H).
    + exact (lg_consumes _ _ G2 _ _ _ H).
  - intros f ts x r [ts' l r' N H|ts' l r' N H] L.
    + apply is_sym_true in N. rewrite N. eapply lg_complete; eassumption.
    + apply is_sym_false in N. rewrite N. rewrite (lg_complete _ _ G2 f _ _ _ H L). reflexivity.
  - intros f ts L. destruct (is_sym "#" ts).
    + now apply (lg_fin _ _ G1).
    + destruct (lg_fin _ _ G2 f ts L) as [E|(l & r & E & L')]; rewrite E; cbn [bind]; [now left|].
      right. eexists _, _. split; [reflexivity|assumption].
Qed.

(** Renaming the result of a list parser. *)
Lemma list_good_map {A B} (h : A -> B) p (q : nat -> toks -> res (B * toks)) g
  (g' : toks -> B -> toks -> Prop) :
  list_good p g ->
  (forall f ts, q f ts = let* (x, r) := p f ts in Ok (h x, r)) ->
  (forall ts y r, g' ts y r <-> exists x, g ts x r /\ y = h x) ->
  list_good q g'.
Proof.
  intros G Q E. split.
  - intros f ts y r H. rewrite Q in H. apply bind_ok in H as ([x r'] & H' & H).
    injection H as <- <-. apply E. exists x. split; [|reflexivity]. eapply lg_sound; eassumption.
  - intros ts y r H. apply E in H as (x & H & _). exact (lg_consumes _ _ G _ _ _ H).
  - intros f ts y r H L. apply E in H as (x & H & ->). rewrite Q.
    rewrite (lg_complete _ _ G f _ _ _ H L). reflexivity.
  - intros f ts L. rewrite Q. destruct (lg_fin _ _ G f ts L) as [E'|(x & r & E' & L')];
      rewrite E'; cbn [bind]; [now left|].
    right. eexists _, _. split; [reflexivity|assumption].
Qed.

Lemma fields_good : list_good parse_struct_parameters fields_g.
Proof.
  eapply (list_good_map (map field_of)); [apply (positioned_good _ _ binding_good)| |].
  - intros f ts. unfold parse_struct_parameters, positioned.
    rewrite struct_w_loop, struct_wo_loop. destruct (is_sym "#" ts); [reflexivity|].
    rewrite bind_assoc. apply bind_ext. now intros [l r].
  - intros ts y r. split.
    + intros [ts' l r' H]. eauto.
    + intros (x & H & ->). now constructor.
Qed.

Lemma tuple_good : list_good parse_tuple_parameters tuple_g.
Proof.
  eapply (list_good_map (map tuple_field_of)); [apply (positioned_good _ _ type_good)| |].
  - intros f ts. unfold parse_tuple_parameters, positioned.
    rewrite tuple_w_loop, tuple_wo_loop. destruct (is_sym "#" ts); [reflexivity|].
    rewrite bind_assoc. apply bind_ext. now intros [l r].
  - intros ts y r. split.
    + intros [ts' l r' H]. eauto.
    + intros (x & H & ->). now constructor.
Qed.

Lemma variant_good : good variant_item variant_g.
Proof.
  split.
  - intros f ts v r H. unfold variant_item in H. apply bind_ok in H as (n & E & H). sym_subst.
    destruct (is_sym "(" x) eqn:P.
    { apply is_sym_true in P as [y ->]. cbn [nxt tl] in H.
      apply bind_ok in H as ([l r'] & E & H). apply bind_ok in H as (u & E' & H). sym_subst.
      injection H as <- <-. constructor. eapply (lg_sound _ _ tuple_good); eassumption. }
    destruct (is_sym "{" x) eqn:B.
    { apply is_sym_true in B as [y ->]. cbn [nxt tl] in H.
      apply bind_ok in H as ([l r'] & E & H). apply bind_ok in H as (u & E' & H). sym_subst.
      injection H as <- <-. constructor. eapply (lg_sound _ _ fields_good); eassumption. }
    injection H as <- <-. constructor; now apply is_sym_false.
  - intros ts v r [n r' P B|n ts' l r' H|n ts' l r' H]; cbn.
    + lia.
    + apply (lg_consumes _ _ tuple_good) in H. cbn in H. lia.
    + apply (lg_consumes _ _ fields_good) in H. cbn in H. lia.
  - intros f ts v r [n r' P B|n ts' l r' H|n ts' l r' H] L; unfold variant_item;
      cbn [expect_id cur bind nxt tl].
    + apply is_sym_false in P. apply is_sym_false in B. now rewrite P, B.
    + rewrite is_sym_cons. cbn in L. rewrite (lg_complete _ _ tuple_good f _ _ _ H) by lia.
      cbn [bind]. now rewrite expect_sym_cons.
    + replace (is_sym "(" (TSym "{" :: ts')) with false by reflexivity.
      rewrite is_sym_cons. cbn in L. rewrite (lg_complete _ _ fields_good f _ _ _ H) by lia.
      cbn [bind]. now rewrite expect_sym_cons.
  - intros f ts L. unfold variant_item.
    destruct (expect_id_inv ts) as [E|(n & r & -> & E)]; rewrite E; cbn [bind nxt tl]; [now left|].
    destruct (is_sym "(" r) eqn:P.
    { apply is_sym_true in P as [y ->]. cbn [nxt tl]. cbn in L.
      destruct (lg_fin _ _ tuple_good f y) as [E'|(l & r & E' & L')]; [lia| |];
        rewrite E'; cbn [bind]; [now left|].
      destruct (expect_sym_inv ")" r) as [E''|(r' & -> & E'')]; rewrite E''; cbn [bind nxt tl]; [now left|].
      right. eexists _, _. split; [reflexivity|]. cbn in *. lia. }
    destruct (is_sym "{" r) eqn:B.
    { apply is_sym_true in B as [y ->]. cbn [nxt tl]. cbn in L.
      destruct (lg_fin _ _ fields_good f y) as [E'|(l & r & E' & L')]; [lia| |];
        rewrite E'; cbn [bind]; [now left|].
      destruct (expect_sym_inv "}" r) as [E''|(r' & -> & E'')]; rewrite E''; cbn [bind nxt tl]; [now left|].
      right. eexists _, _. split; [reflexivity|]. cbn in *. lia. }
    right. eexists _, _. split; [reflexivity|]. cbn. lia.
Qed.

Definition parse_variants (f : nat) (ts : toks) : res (list enum_item * toks) :=
  if is_sym "#" ts then parse_enum_items_with_positions f ts
  else parse_enum_items_without_positions f 0 ts.

Lemma variants_good : list_good parse_variants variants_g.
Proof.
  eapply (list_good_map (map (fun x : N * (N -> enum_item) => snd x (fst x))));
    [apply (positioned_good _ _ variant_good)| |].
  - intros f ts. unfold parse_variants, positioned.
    rewrite enum_w_loop, enum_wo_loop. destruct (is_sym "#" ts); [reflexivity|].
    rewrite bind_assoc. apply bind_ext. now intros [l r].
  - intros ts y r. split.
    + intros [ts' l r' H]. eauto.
    + intros (x & H & ->). now constructor.
Qed.

(** ** Literals and directives *)

Lemma parse_const_value_spec ts :
  (parse_const_value ts = Panic) \/
  (exists t r v, ts = t :: r /\ value_g t v /\ parse_const_value ts = Ok v).
Proof.
  unfold parse_const_value. destruct ts as [|[] ts]; cbn; try (now left). right.
  exists (TLit l), ts. destruct l; eexists; (split; [reflexivity|split; [constructor|reflexivity]]).
Qed.

Lemma parse_const_value_ok ts v : parse_const_value ts = Ok v ->
  exists t r, ts = t :: r /\ value_g t v.
Proof.
  intros H. destruct (parse_const_value_spec ts) as [E|(t & r & w & -> & V & E)]; [congruence|].
  assert (v = w) as -> by congruence. eauto.
Qed.

Lemma parse_const_value_cons t v r : value_g t v -> parse_const_value (t :: r) = Ok v.
Proof. intros []; reflexivity. Qed.

Lemma pair_good : good pair_item pair_g.
Proof.
  split.
  - intros f ts v r H. unfold pair_item in H. apply bind_ok in H as (n & E & H).
    apply bind_ok in H as (u & E' & H). apply bind_ok in H as (w & E'' & H). sym_subst.
    apply parse_const_value_ok in E'' as (t & r' & -> & V). cbn [nxt tl] in H.
    injection H as <- <-. now constructor.
  - intros ts v r []. cbn. lia.
  - intros f ts v r [n w val r' H] L. unfold pair_item. cbn [expect_id cur bind nxt tl].
    rewrite expect_sym_cons. cbn [bind]. rewrite (parse_const_value_cons _ _ _ H). reflexivity.
  - intros f ts L. unfold pair_item.
    destruct (expect_id_inv ts) as [E|(n & r & -> & E)]; rewrite E; cbn [bind nxt tl]; [now left|].
    destruct (expect_sym_inv "=" r) as [E'|(r' & -> & E')]; rewrite E'; cbn [bind nxt tl]; [now left|].
    destruct (parse_const_value_spec r') as [E''|(t & r'' & v & -> & V & E'')]; rewrite E''; cbn [bind nxt tl]; [now left|].
    right. eexists _, _. split; [reflexivity|]. cbn. lia.
Qed.

Lemma group_good : list_good parse_group_values (sep_list_g next_is_id pair_g).
Proof.
  pose proof (loop_good _ _ _ _ start_id_ok pair_good) as G. split.
  - intros f ts x r H. rewrite group_loop in H. eapply lg_sound; eassumption.
  - apply (lg_consumes _ _ G).
  - intros f ts x r H L. rewrite group_loop. eapply lg_complete; eassumption.
  - intros f ts L. rewrite group_loop. now apply (lg_fin _ _ G).
Qed.

Lemma args_good : list_good parse_fn_args
  (fun ts y r => exists x, sep_list_g next_is_id binding_g ts x r /\ y = map arg_of x).
Proof.
  eapply (list_good_map (map arg_of)); [apply (loop_good _ _ _ _ start_id_ok binding_good)| |].
  - intros f ts. apply args_loop.
  - reflexivity.
Qed.

(** ** Constant blocks *)

Lemma parse_const_S f ts :
  parse_const (S f) ts =
  let* id := expect_id (nxt ts) in
  let* _ := expect_sym "{" (nxt (nxt ts)) in
  let* (items, ts) := parse_const_items f (nxt (nxt (nxt ts))) in
  let* _ := expect_sym "}" ts in
  Ok (ConstNode id items, nxt ts).
Proof. reflexivity. Qed.

Lemma parse_const_items_S f ts :
  parse_const_items (S f) ts =
  if is_sym "}" ts then Ok ([], ts)
  else
    match cur ts with
    | TEOF => Ok ([], ts)
    | TConst =>
        let* (node, ts) := parse_const f ts in
        let* (items, ts) := parse_const_items f ts in
        Ok (ConstItemNode node :: items, ts)
    | TId id =>
        let* _ := expect_sym ":" (nxt ts) in
        let* (ty, ts) := parse_type_id f (nxt (nxt ts)) in
        let* _ := expect_sym "=" ts in
        let* value := parse_const_value (nxt ts) in
        let* _ := expect_sym ";" (nxt (nxt ts)) in
        let* (items, ts) := parse_const_items f (nxt (nxt (nxt ts))) in
        Ok (ConstItemValue id ty value :: items, ts)
    | _ => Panic
    end.
Proof.
  destruct ts as [|[] ts]; try reflexivity.
  destruct c as [[] [] [] [] [] [] [] []]; reflexivity.
Qed.

Lemma const_sound f :
  (forall ts n r, cur ts = TConst -> parse_const f ts = Ok (n, r) -> const_g ts n r) /\
  (forall ts l r, parse_const_items f ts = Ok (l, TSym "}" :: r) ->
     const_items_g ts l (TSym "}" :: r)).
Proof.
  induction f as [|f [IH1 IH2]]; [split; discriminate|]. split.
  - intros ts n r C H. rewrite parse_const_S in H. apply bind_ok in H as (id & E & H).
    apply bind_ok in H as (u & E' & H). apply bind_ok in H as ([l ts'] & E'' & H).
    apply bind_ok in H as (u' & E3 & H).
    destruct ts as [|t ts]; [discriminate|]. cbn in C. subst t. sym_subst.
    injection H as <- <-. constructor. now apply IH2.
  - intros ts l r H. rewrite parse_const_items_S in H.
    destruct (is_sym "}" ts) eqn:B.
    { injection H as <- ->. now apply ci_stop, is_sym_true. }
    destruct ts as [|[] ts]; cbn [cur] in H; try discriminate.
    + apply bind_ok in H as ([n ts'] & E & H). apply bind_ok in H as ([l' r'] & E' & H).
      injection H as <- ->. eapply ci_node; [apply IH1; [reflexivity|eassumption]|now apply IH2].
    + cbn [nxt tl] in H. apply bind_ok in H as (u & E & H). apply bind_ok in H as ([t ts'] & E1 & H).
      apply bind_ok in H as (u2 & E2 & H). apply bind_ok in H as (v & E3 & H).
      apply bind_ok in H as (u4 & E4 & H). apply bind_ok in H as ([l' r'] & E5 & H).
      injection H as <- ->. sym_subst.
      apply parse_const_value_ok in E3 as (w & x9 & -> & V). cbn [nxt tl] in E4, E5. sym_subst.
      eapply ci_value; [apply (proj1 (type_sound f)); eassumption|eassumption|now apply IH2].
Qed.

Lemma const_consumes :
  (forall ts n r, const_g ts n r -> List.length r + 3 < List.length ts) /\
  (forall ts l r, const_items_g ts l r -> List.length r <= List.length ts).
Proof.
  apply const_g_mutind; intros; cbn in *; try lia.
  apply (proj1 type_consumes) in t0. cbn in t0. lia.
Qed.

Lemma const_complete :
  (forall ts n r, const_g ts n r -> forall f, List.length ts < f -> parse_const f ts = Ok (n, r)) /\
  (forall ts l r, const_items_g ts l r -> forall f, S (List.length ts) < f ->
     parse_const_items f ts = Ok (l, r)).
Proof.
  apply const_g_mutind.
  - intros n ts l r G IH [|f] L; [lia|]. rewrite parse_const_S. cbn [nxt tl expect_id cur bind].
    rewrite expect_sym_cons. cbn [bind]. rewrite IH by (cbn in L; lia). cbn [bind].
    now rewrite expect_sym_cons.
  - intros ts B [|f] L; [lia|]. rewrite parse_const_items_S. apply is_sym_true in B. now rewrite B.
  - intros ts n ts' l r G IH G' IH' [|f] L; [lia|]. rewrite parse_const_items_S.
    pose proof (proj1 const_consumes _ _ _ G) as C.
    assert (exists x, ts = TConst :: x) as [x E] by (inversion G; subst; eauto).
    replace (is_sym "}" ts) with false by (subst; reflexivity).
    replace (cur ts) with TConst by (subst; reflexivity).
    rewrite IH by lia. cbn [bind]. rewrite IH' by lia. reflexivity.
  - intros n ts t v val ts' l r G V G' IH' [|f] L; [lia|]. rewrite parse_const_items_S.
    cbn [is_sym cur nxt tl]. rewrite expect_sym_cons. cbn [bind].
    rewrite (proj1 type_complete _ _ _ G f) by (cbn in L; lia). cbn [bind].
    rewrite expect_sym_cons. cbn [bind nxt tl]. rewrite (parse_const_value_cons _ _ _ V).
    cbn [bind]. rewrite expect_sym_cons. cbn [bind].
    apply (proj1 type_consumes) in G. cbn in G, L.
    rewrite IH' by lia. reflexivity.
Qed.

Lemma const_fin f :
  (forall ts, cur ts = TConst -> List.length ts < f -> fin true ts (parse_const f ts)) /\
  (forall ts, S (List.length ts) < f -> fin false ts (parse_const_items f ts)).
Proof.
  induction f as [|f [IH1 IH2]]; [split; intros; lia|]. split.
  - intros ts C L. rewrite parse_const_S.
    destruct ts as [|t ts]; [discriminate|]. cbn [nxt tl].
    destruct (expect_id_inv ts) as [E|(n & r & -> & E)]; rewrite E; cbn [bind nxt tl]; [now left|].
    destruct (expect_sym_inv "{" r) as [E'|(r' & -> & E')]; rewrite E'; cbn [bind nxt tl]; [now left|].
    cbn in L.
    destruct (IH2 r' ltac:(lia)) as [E2|(l & r2 & E2 & L2)]; rewrite E2; cbn [bind]; [now left|].
    destruct (expect_sym_inv "}" r2) as [E3|(r3 & -> & E3)]; rewrite E3; cbn [bind nxt tl]; [now left|].
    right. eexists _, _. split; [reflexivity|]. cbn in *. lia.
  - intros ts L. rewrite parse_const_items_S.
    destruct (is_sym "}" ts); [right; eexists _, _; split; [reflexivity|lia]|].
    destruct ts as [|[] ts]; cbn [cur]; try (now left);
      try (right; eexists _, _; split; [reflexivity|lia]; fail).
    + destruct (IH1 (TConst :: ts) eq_refl ltac:(lia)) as [E|(n & r & E & L')]; rewrite E; cbn [bind]; [now left|].
      destruct (IH2 r ltac:(lia)) as [E2|(l & r2 & E2 & L2)]; rewrite E2; cbn [bind]; [now left|].
      right. eexists _, _. split; [reflexivity|]. lia.
    + cbn [nxt tl].
      destruct (expect_sym_inv ":" ts) as [E|(r & -> & E)]; rewrite E; cbn [bind nxt tl]; [now left|].
      cbn in L.
      destruct (proj1 (type_fin f) r ltac:(lia)) as [E1|(t & r1 & E1 & L1)]; rewrite E1; cbn [bind nxt tl]; [now left|].
      destruct (expect_sym_inv "=" r1) as [E2|(r2 & -> & E2)]; rewrite E2; cbn [bind nxt tl]; [now left|].
      destruct (parse_const_value_spec r2) as [E3|(w & r3 & v & -> & V & E3)]; rewrite E3; cbn [bind nxt tl]; [now left|].
      destruct (expect_sym_inv ";" r3) as [E4|(r4 & -> & E4)]; rewrite E4; cbn [bind nxt tl]; [now left|].
      cbn in L1.
      destruct (IH2 r4 ltac:(lia)) as [E5|(l & r5 & E5 & L5)]; rewrite E5; cbn [bind]; [now left|].
      right. eexists _, _. split; [reflexivity|]. cbn. lia.
Qed.

(** ** Methods *)

Definition parse_returns (fuel : nat) (ts : toks) : res (option type_id * toks) :=
  if is_sym ";" ts then Ok (None, nxt ts)
  else let* (ty, ts) := parse_return_type fuel ts in Ok (Some ty, ts).

Lemma returns_good : good parse_returns returns_g.
Proof.
  unfold parse_returns, parse_return_type. split.
  - intros f ts x r H. destruct (is_sym ";" ts) eqn:S.
    { apply is_sym_true in S as [y ->]. injection H as <- <-. constructor. }
    rewrite !bind_assoc in H. apply bind_ok in H as (u & E & H). rewrite ?bind_assoc in H.
    apply bind_ok in H as (u1 & E1 & H). rewrite ?bind_assoc in H.
    apply bind_ok in H as ([t r1] & E2 & H). rewrite ?bind_assoc in H.
    apply bind_ok in H as (u2 & E3 & H). sym_subst. cbn in H. injection H as <- <-.
    constructor. apply (proj1 (type_sound f)). assumption.
  - intros ts x r [r'|ts' t r' H]; cbn; [lia|]. apply (proj1 type_consumes) in H. cbn in H. lia.
  - intros f ts x r [r'|ts' t r' H] L.
    + now rewrite is_sym_cons.
    + replace (is_sym ";" (TSym "-" :: TSym ">" :: ts')) with false by reflexivity.
      rewrite expect_sym_cons. cbn [bind nxt tl]. rewrite expect_sym_cons. cbn [bind].
      rewrite (proj1 type_complete _ _ _ H f) by (cbn in L; lia). cbn [bind].
      rewrite expect_sym_cons. reflexivity.
  - intros f ts L. destruct (is_sym ";" ts) eqn:S.
    { apply is_sym_true in S as [y ->]. right. eexists _, _. split; [reflexivity|cbn; lia]. }
    destruct (expect_sym_inv "-" ts) as [E|(r & -> & E)]; rewrite E; cbn [bind nxt tl]; [now left|].
    destruct (expect_sym_inv ">" r) as [E1|(r1 & -> & E1)]; rewrite E1; cbn [bind nxt tl]; [now left|].
    cbn in L.
    destruct (proj1 (type_fin f) r1 ltac:(lia)) as [E2|(t & r2 & E2 & L2)]; rewrite E2; cbn [bind nxt tl]; [now left|].
    destruct (expect_sym_inv ";" r2) as [E3|(r3 & -> & E3)]; rewrite E3; cbn [bind nxt tl]; [now left|].
    right. eexists _, _. split; [reflexivity|]. cbn in *. lia.
Qed.

Definition parse_method (fuel : nat) (async : bool) (ts : toks) (fp : N) : res (fn_node * toks) :=
  match cur ts with
  | TFn =>
      let* id := expect_id (nxt ts) in
      let* _ := expect_sym "(" (nxt (nxt ts)) in
      let* (args, ts) := parse_fn_args fuel (nxt (nxt (nxt ts))) in
      let* _ := expect_sym ")" ts in
      let* (ret, ts) := parse_returns fuel (nxt ts) in
      Ok (mk_fn id fp args ret false async, ts)
  | TRead =>
      let* id := expect_id (nxt ts) in
      let* (ret, ts) := parse_returns fuel (nxt (nxt ts)) in
      Ok (mk_fn id fp [] ret true async, ts)
  | _ => Panic
  end.

Lemma parse_fn_method f a ts fp : cur ts = TFn ->
  parse_fn f a ts fp = let* (n, r) := parse_method f a ts fp in Ok (NFn n, r, (fp + 1)%N).
Proof.
  intros C. unfold parse_fn, parse_method. rewrite C. unfold parse_returns, next_fn_position.
  repeat (rewrite bind_assoc; apply bind_ext; intros ?).
  destruct a2 as [args ts']. rewrite bind_assoc. apply bind_ext. intros _. rewrite bind_assoc.
  destruct (is_sym ";" (nxt ts')); cbn [bind]; [reflexivity|].
  rewrite bind_assoc. apply bind_ext. now intros [t r].
Qed.

Lemma parse_read_method f a ts fp : cur ts = TRead ->
  parse_read f a ts fp = let* (n, r) := parse_method f a ts fp in Ok (NFn n, r, (fp + 1)%N).
Proof.
  intros C. unfold parse_read, parse_method. rewrite C. unfold parse_returns, next_fn_position.
  rewrite bind_assoc; apply bind_ext; intros id. rewrite bind_assoc.
  destruct (is_sym ";" (nxt (nxt ts))); cbn [bind]; [reflexivity|].
  rewrite bind_assoc. apply bind_ext. now intros [t r].
Qed.

Lemma method_sound f a ts fp n r : parse_method f a ts fp = Ok (n, r) -> method_g a fp ts n r.
Proof.
  unfold parse_method. intros H. destruct ts as [|[] ts]; try discriminate; cbn [cur nxt tl] in H.
  - apply bind_ok in H as (id & E & H). apply bind_ok in H as (u & E1 & H).
    apply bind_ok in H as ([args ts1] & E2 & H). apply bind_ok in H as (u3 & E3 & H).
    apply bind_ok in H as ([ret ts2] & E4 & H). sym_subst. injection H as <- <-.
    apply (lg_sound _ _ args_good) in E2 as (l & E2 & ->).
    econstructor; [eassumption|]. now apply (good_sound _ _ returns_good) in E4.
  - apply bind_ok in H as (id & E & H). apply bind_ok in H as ([ret ts2] & E4 & H).
    sym_subst. injection H as <- <-. constructor. now apply (good_sound _ _ returns_good) in E4.
Qed.

Lemma args_consumes ts l r : sep_list_g next_is_id binding_g ts l r -> List.length r <= List.length ts.
Proof.
  intros H. apply (lg_consumes _ _ (loop_good _ _ _ _ start_id_ok binding_good)) in H. assumption.
Qed.

Lemma method_consumes a fp ts n r : method_g a fp ts n r -> List.length r < List.length ts.
Proof.
  intros [id ts' l ts1 ret r' H R|id ts' ret r' R]; apply (good_consumes _ _ returns_good) in R; cbn.
  - apply args_consumes in H. cbn in H. lia.
  - lia.
Qed.

Lemma method_complete f a ts fp n r : method_g a fp ts n r -> List.length ts < f ->
  parse_method f a ts fp = Ok (n, r).
Proof.
  intros [id ts' l ts1 ret r' H R|id ts' ret r' R] L; unfold parse_method; cbn [cur nxt tl expect_id bind].
  - rewrite expect_sym_cons. cbn [bind].
    rewrite (lg_complete _ _ args_good f ts' (map arg_of l) (TSym ")" :: ts1));
      [|exists l; split; [assumption|reflexivity]|cbn in L; lia].
    cbn [bind]. rewrite expect_sym_cons. cbn [bind nxt tl].
    apply args_consumes in H. cbn in H, L.
    rewrite (good_complete _ _ returns_good f _ _ _ R) by lia. reflexivity.
  - cbn in L. rewrite (good_complete _ _ returns_good f _ _ _ R) by lia. reflexivity.
Qed.

Lemma method_fin f a ts fp : List.length ts < f -> fin true ts (parse_method f a ts fp).
Proof.
  intros L. unfold parse_method. destruct ts as [|[] ts]; cbn [cur nxt tl]; try (now left).
  - destruct (expect_id_inv ts) as [E|(n & r & -> & E)]; rewrite E; cbn [bind nxt tl]; [now left|].
    destruct (expect_sym_inv "(" r) as [E1|(r1 & -> & E1)]; rewrite E1; cbn [bind nxt tl]; [now left|].
    cbn in L.
    destruct (lg_fin _ _ args_good f r1 ltac:(lia)) as [E2|(l & r2 & E2 & L2)]; rewrite E2; cbn [bind]; [now left|].
    destruct (expect_sym_inv ")" r2) as [E3|(r3 & -> & E3)]; rewrite E3; cbn [bind nxt tl]; [now left|].
    cbn in L2.
    destruct (good_fin _ _ returns_good f r3 ltac:(lia)) as [E4|(t & r4 & E4 & L4)]; rewrite E4; cbn [bind]; [now left|].
    right. eexists _, _. split; [reflexivity|]. cbn. lia.
  - destruct (expect_id_inv ts) as [E|(n & r & -> & E)]; rewrite E; cbn [bind nxt tl]; [now left|].
    cbn in L.
    destruct (good_fin _ _ returns_good f r ltac:(lia)) as [E4|(t & r4 & E4 & L4)]; rewrite E4; cbn [bind]; [now left|].
    right. eexists _, _. split; [reflexivity|]. cbn. lia.
Qed.

(** ** Directives, structs, enums *)

Lemma directive_sound f ts n r : parse_directive f ts = Ok (n, r) ->
  exists d, n = NDirective d /\ directive_g ts d r.
Proof.
  unfold parse_directive, parse_value_directive, parse_group_directive. intros H.
  apply bind_ok in H as (u & E & H). apply bind_ok in H as (u1 & E1 & H).
  apply bind_ok in H as (id & E2 & H). sym_subst. rename H into H0.
  match type of H0 with context [is_sym "=" ?y] => rename y into z end. rename H0 into H.
  apply bind_ok in H as ([d ts'] & E3 & H).
  apply bind_ok in H as (u4 & E4 & H). injection H as <- <-. apply expect_sym_ok in E4 as (z' & E4).
  exists d. split; [reflexivity|].
  destruct (is_sym "=" z) eqn:Q.
  { apply is_sym_true in Q as [y ->]. cbn [nxt tl] in E3. apply bind_ok in E3 as (v & E5 & E3).
    apply parse_const_value_ok in E5 as (w & x2 & -> & V). injection E3 as <- <-. cbn [nxt tl] in *.
    subst. now constructor. }
  destruct (is_sym "(" z) eqn:P; [|discriminate].
  apply is_sym_true in P as [y ->]. cbn [nxt tl] in E3. apply bind_ok in E3 as ([l ts2] & E5 & E3).
  injection E3 as <- <-. destruct ts2 as [|close ts2]; [discriminate|]. cbn [nxt tl] in *. subst.
  econstructor. apply (lg_sound _ _ group_good) in E5. exact E5.
Qed.

Lemma directive_consumes ts d r : directive_g ts d r -> List.length r < List.length ts.
Proof.
  intros [n v val r' V|n ts' l close r' H]; cbn; [lia|].
  apply (lg_consumes _ _ group_good) in H. cbn in H. lia.
Qed.

Lemma directive_complete f ts d r : directive_g ts d r -> List.length ts < f ->
  parse_directive f ts = Ok (NDirective d, r).
Proof.
  intros [n v val r' V|n ts' l close r' H] L; unfold parse_directive;
    rewrite expect_sym_cons; cbn [bind nxt tl]; rewrite expect_sym_cons; cbn [bind nxt tl expect_id cur].
  - rewrite is_sym_cons. unfold parse_value_directive. cbn [nxt tl].
    rewrite (parse_const_value_cons _ _ _ V). cbn [bind nxt tl]. now rewrite expect_sym_cons.
  - replace (is_sym "=" (TSym "(" :: ts')) with false by reflexivity. rewrite is_sym_cons.
    unfold parse_group_directive. cbn [nxt tl]. cbn in L.
    rewrite (lg_complete _ _ group_good f _ _ _ H) by lia. cbn [bind nxt tl].
    now rewrite expect_sym_cons.
Qed.

Lemma directive_fin f ts : List.length ts < f -> fin true ts (parse_directive f ts).
Proof.
  intros L. unfold parse_directive.
  destruct (expect_sym_inv "#" ts) as [E|(r & -> & E)]; rewrite E; cbn [bind nxt tl]; [now left|].
  destruct (expect_sym_inv "[" r) as [E1|(r1 & -> & E1)]; rewrite E1; cbn [bind nxt tl]; [now left|].
  destruct (expect_id_inv r1) as [E2|(n & r2 & -> & E2)]; rewrite E2; cbn [bind nxt tl]; [now left|].
  cbn in L.
  match goal with |- context [bind ?e _] => assert (F : fin false (TId n :: r2) e) end.
  { destruct (is_sym "=" r2).
    - unfold parse_value_directive.
      destruct (parse_const_value_spec (nxt r2)) as [E3|(w & r3 & v & E3' & V & E3)]; rewrite E3; cbn [bind]; [now left|].
      right. eexists _, _. split; [reflexivity|]. destruct r2; cbn in *; lia.
    - destruct (is_sym "(" r2); [|now left]. unfold parse_group_directive.
      destruct (lg_fin _ _ group_good f (nxt r2)) as [E3|(l & r3 & E3 & L3)];
        [destruct r2; cbn in *; lia| |]; rewrite E3; cbn [bind]; [now left|].
      right. eexists _, _. split; [reflexivity|]. destruct r2; cbn in *; lia. }
  destruct F as [E3|(d & r3 & E3 & L3)]; rewrite E3; cbn [bind]; [now left|].
  destruct (expect_sym_inv "]" (nxt r3)) as [E4|(r4 & E4' & E4)]; rewrite E4; cbn [bind]; [now left|].
  right. eexists _, _. split; [reflexivity|]. destruct r3 as [|? r3]; [discriminate|].
  cbn [nxt tl] in *. subst. cbn in *. lia.
Qed.

Lemma expect_hash_or_id_inv ts :
  (expect_hash_or_id ts = Panic) \/
  (expect_hash_or_id ts = Ok tt /\ (next_is (TSym "#") ts \/ next_is_id ts)).
Proof.
  unfold expect_hash_or_id, next_is, next_is_id. destruct ts as [|[] ts]; cbn; eauto 6.
  destruct c as [[] [] [] [] [] [] [] []]; eauto.
Qed.

Lemma expect_hash_or_id_cons ts : next_is (TSym "#") ts \/ next_is_id ts ->
  expect_hash_or_id ts = Ok tt.
Proof. intros [[r ->]|(n & r & ->)]; reflexivity. Qed.

Lemma struct_sound f k ts n r : parse_struct f ts = Ok (n, r) -> decl_g k ts n r.
Proof.
  unfold parse_struct. intros H. destruct ts as [|[] ts]; try discriminate. cbn [cur nxt tl] in H.
  apply bind_ok in H as (id & E & H). sym_subst.
  destruct (is_sym ";" x) eqn:S.
  { apply is_sym_true in S as [y ->]. injection H as <- <-. constructor. }
  apply bind_ok in H as (u & E1 & H). apply bind_ok in H as (u2 & E2 & H).
  apply bind_ok in H as ([l ts1] & E3 & H). apply bind_ok in H as (u4 & E4 & H). sym_subst.
  injection H as <- <-. apply (lg_sound _ _ fields_good) in E3.
  match type of E2 with expect_hash_or_id ?y = _ =>
    destruct (expect_hash_or_id_inv y) as [E|[_ S']]; [congruence|] end.
  now constructor.
Qed.

Lemma enum_sound f k ts n r : parse_enum f ts = Ok (n, r) -> decl_g k ts n r.
Proof.
  unfold parse_enum, parse_enum_items. intros H. destruct ts as [|[] ts]; try discriminate. cbn [cur nxt tl] in H.
  apply bind_ok in H as (id & E & H). sym_subst.
  apply bind_ok in H as (u & E1 & H). apply bind_ok in H as (u2 & E2 & H).
  apply bind_ok in H as ([l ts1] & E3 & H). apply bind_ok in H as (u4 & E4 & H). sym_subst.
  apply bind_ok in E3 as ([l' ts2] & E3 & E5). injection E5 as <- ->.
  injection H as <- <-. apply (lg_sound _ _ variants_good) in E3.
  match type of E2 with expect_hash_or_id ?y = _ =>
    destruct (expect_hash_or_id_inv y) as [E|[_ S']]; [congruence|] end.
  now constructor.
Qed.

Lemma struct_fin f ts : List.length ts < f -> fin true ts (parse_struct f ts).
Proof.
  intros L. unfold parse_struct. destruct ts as [|[] ts]; cbn [cur nxt tl]; try (now left).
  destruct (expect_id_inv ts) as [E|(n & r & -> & E)]; rewrite E; cbn [bind nxt tl]; [now left|].
  cbn in L. destruct (is_sym ";" r) eqn:S.
  { apply is_sym_true in S as [y ->]. right. eexists _, _. split; [reflexivity|cbn; lia]. }
  destruct (expect_sym_inv "{" r) as [E1|(r1 & -> & E1)]; rewrite E1; cbn [bind nxt tl]; [now left|].
  destruct (expect_hash_or_id_inv r1) as [E2|[E2 _]]; rewrite E2; cbn [bind]; [now left|].
  cbn in L.
  destruct (lg_fin _ _ fields_good f r1 ltac:(lia)) as [E3|(l & r3 & E3 & L3)]; rewrite E3; cbn [bind]; [now left|].
  destruct (expect_sym_inv "}" r3) as [E4|(r4 & -> & E4)]; rewrite E4; cbn [bind nxt tl]; [now left|].
  right. eexists _, _. split; [reflexivity|]. cbn in *. lia.
Qed.

Lemma enum_fin f ts : List.length ts < f -> fin true ts (parse_enum f ts).
Proof.
  intros L. unfold parse_enum, parse_enum_items. destruct ts as [|[] ts]; cbn [cur nxt tl]; try (now left).
  destruct (expect_id_inv ts) as [E|(n & r & -> & E)]; rewrite E; cbn [bind nxt tl]; [now left|].
  destruct (expect_sym_inv "{" r) as [E1|(r1 & -> & E1)]; rewrite E1; cbn [bind nxt tl]; [now left|].
  destruct (expect_hash_or_id_inv r1) as [E2|[E2 _]]; rewrite E2; cbn [bind]; [now left|].
  cbn in L.
  destruct (lg_fin _ _ variants_good f r1 ltac:(lia)) as [E3|(l & r3 & E3 & L3)]; unfold parse_variants in E3;
    rewrite E3; cbn [bind]; [now left|].
  destruct (expect_sym_inv "}" r3) as [E4|(r4 & -> & E4)]; rewrite E4; cbn [bind nxt tl]; [now left|].
  right. eexists _, _. split; [reflexivity|]. cbn in *. lia.
Qed.

(** ** Declarations *)

Lemma parse_node_eq f ts fp :
  parse_node f ts fp =
  let keep (r : res (ast_node * toks)) := let* (n, ts) := r in Ok (n, ts, fp) in
  match cur ts with
  | TStruct => keep (parse_struct f ts)
  | TEnum => keep (parse_enum f ts)
  | TAsync => let* (n, r) := parse_method f true (nxt ts) fp in Ok (NFn n, r, (fp + 1)%N)
  | TFn | TRead => let* (n, r) := parse_method f false ts fp in Ok (NFn n, r, (fp + 1)%N)
  | TConst => keep (let* (n, ts) := parse_const f ts in Ok (NConst n, ts))
  | TSym c => if Ascii.eqb c "#" then keep (parse_directive f ts) else Panic
  | _ => Panic
  end.
Proof.
  destruct ts as [|[] ts]; try reflexivity.
  - apply parse_fn_method. reflexivity.
  - apply parse_read_method. reflexivity.
  - unfold parse_node, parse_async. cbn [cur nxt tl].
    destruct ts as [|[] ts]; try reflexivity; [apply parse_fn_method|apply parse_read_method]; reflexivity.
  - destruct c as [[] [] [] [] [] [] [] []]; reflexivity.
Qed.

Lemma node_sound f ts fp n r fp' : parse_node f ts fp = Ok (n, r, fp') ->
  decl_g fp ts n r /\ fp' = (if is_method n then fp + 1 else fp)%N.
Proof.
  rewrite parse_node_eq. cbn zeta. intros H.
  destruct ts as [|[] ts]; try discriminate; cbn [cur] in H.
  - apply bind_ok in H as ([n' r'] & E & H). injection H as <- <- <-.
    pose proof (struct_sound f fp _ _ _ E) as D. split; [assumption|].
    unfold parse_struct in E. cbn [cur] in E. apply bind_ok in E as (id & _ & E).
    destruct (is_sym ";" _); [injection E as <- <-; reflexivity|].
    apply bind_ok in E as (? & _ & E). apply bind_ok in E as (? & _ & E).
    apply bind_ok in E as ([? ?] & _ & E). apply bind_ok in E as (? & _ & E). now injection E as <- <-.
  - apply bind_ok in H as ([n' r'] & E & H). injection H as <- <- <-.
    pose proof (enum_sound f fp _ _ _ E) as D. split; [assumption|].
    unfold parse_enum, parse_enum_items in E. cbn [cur] in E. apply bind_ok in E as (id & _ & E).
    apply bind_ok in E as (? & _ & E). apply bind_ok in E as (? & _ & E).
    apply bind_ok in E as ([? ?] & E' & E). apply bind_ok in E as (? & _ & E). injection E as <- <-.
    apply bind_ok in E' as ([? ?] & _ & E'). now injection E' as <- <-.
  - apply bind_ok in H as ([n' r'] & E & H). injection H as <- <- <-. split; [|reflexivity].
    apply dc_method. eapply method_sound; eassumption.
  - apply bind_ok in H as ([n' r'] & E & H). injection H as <- <- <-. split; [|reflexivity].
    apply dc_method. eapply method_sound; eassumption.
  - apply bind_ok in H as ([n' r'] & E & H). injection H as <- <- <-. split; [|reflexivity].
    apply dc_async. eapply method_sound; eassumption.
  - apply bind_ok in H as ([n' r'] & E & H). injection H as <- <- <-.
    apply bind_ok in E as ([c r''] & E & H). injection H as <- <-. split; [|reflexivity].
    apply dc_const. eapply (proj1 (const_sound f)); [reflexivity|eassumption].
  - destruct (Ascii.eqb c "#") eqn:C; [|discriminate]. apply Ascii.eqb_eq in C as ->.
    apply bind_ok in H as ([n' r'] & E & H). injection H as <- <- <-.
    apply directive_sound in E as (d & -> & D). split; [|reflexivity]. now apply dc_directive.
Qed.

Lemma decl_consumes k ts n r : decl_g k ts n r -> List.length r < List.length ts.
Proof.
  intros [n' r'|n' ts' l r' S H|n' ts' l r' S H|ts' f r' H|ts' f r' H|ts' n' r' H|ts' d r' H]; cbn.
  - lia.
  - apply (lg_consumes _ _ fields_good) in H. cbn in H. lia.
  - apply (lg_consumes _ _ variants_good) in H. cbn in H. lia.
  - now apply method_consumes in H.
  - apply method_consumes in H. lia.
  - apply (proj1 const_consumes) in H. lia.
  - now apply directive_consumes in H.
Qed.

Lemma node_complete f k ts n r : decl_g k ts n r -> List.length ts < f ->
  parse_node f ts k = Ok (n, r, (if is_method n then k + 1 else k)%N).
Proof.
  intros [n' r'|n' ts' l r' S H|n' ts' l r' S H|ts' g r' H|ts' g r' H|ts' n' r' H|ts' d r' H] L;
    rewrite parse_node_eq; cbn zeta.
  - reflexivity.
  - cbn [cur]. unfold parse_struct. cbn [cur nxt tl expect_id bind].
    replace (is_sym ";" (TSym "{" :: ts')) with false by reflexivity.
    rewrite expect_sym_cons. cbn [bind nxt tl]. rewrite expect_hash_or_id_cons by assumption.
    cbn in L. cbn [bind]. rewrite (lg_complete _ _ fields_good f _ _ _ H) by lia.
    cbn [bind]. now rewrite expect_sym_cons.
  - cbn [cur]. unfold parse_enum, parse_enum_items. cbn [cur nxt tl expect_id bind].
    rewrite expect_sym_cons. cbn [bind nxt tl]. rewrite expect_hash_or_id_cons by assumption.
    cbn in L. cbn [bind].
    pose proof (lg_complete _ _ variants_good f _ _ _ H ltac:(lia)) as E. unfold parse_variants in E.
    rewrite E. cbn [bind]. now rewrite expect_sym_cons.
  - pose proof (method_complete f false ts' k g r' H L) as E.
    inversion H; subst; cbn [cur]; rewrite E; reflexivity.
  - cbn [cur nxt tl]. cbn in L. rewrite (method_complete f true ts' k g r' H) by lia. reflexivity.
  - pose proof (proj1 const_complete _ _ _ H f L) as E.
    inversion H; subst; cbn [cur]; rewrite E; reflexivity.
  - pose proof (directive_complete f ts' d r' H L) as E.
    inversion H; subst; cbn [cur]; rewrite E; reflexivity.
Qed.

Lemma node_fin f ts fp : List.length ts < f ->
  parse_node f ts fp = Panic \/
  exists n r fp', parse_node f ts fp = Ok (n, r, fp') /\ List.length r < List.length ts.
Proof.
  intros L. rewrite parse_node_eq. cbn zeta.
  assert (K : forall (h : ast_node -> N) (p : res (ast_node * toks)), fin true ts p ->
    let x := (let* (n, r) := p in Ok (n, r, h n)) in
    x = Panic \/ exists n r fp', x = Ok (n, r, fp') /\ List.length r < List.length ts).
  { intros h p [E|(n & r & E & L')]; rewrite E; cbn; [now left|]. right. eauto 6. }
  assert (M : forall a ts', fin true ts' (parse_method f a ts' fp) -> List.length ts' <= List.length ts ->
    let x := (let* (n, r) := parse_method f a ts' fp in Ok (NFn n, r, (fp + 1)%N)) in
    x = Panic \/ exists n r fp', x = Ok (n, r, fp') /\ List.length r < List.length ts).
  { intros a ts' [E|(n & r & E & L')] L2; rewrite E; cbn; [now left|]. right.
    eexists _, _, _. split; [reflexivity|lia]. }
  destruct ts as [|[] ts]; cbn [cur]; try (now left).
  - apply (K (fun _ => fp)). now apply struct_fin.
  - apply (K (fun _ => fp)). now apply enum_fin.
  - apply M; [|lia]. now apply method_fin.
  - apply M; [|lia]. now apply method_fin.
  - cbn [nxt tl]. apply M; [|cbn; lia]. apply method_fin. cbn in L. lia.
  - apply (K (fun _ => fp)). destruct (proj1 (const_fin f) (TConst :: ts) eq_refl L) as [E|(c & r & E & L')];
      rewrite E; cbn [bind]; [now left|]. right. eexists _, _. split; [reflexivity|assumption].
  - destruct (Ascii.eqb c "#"); [|now left]. apply (K (fun _ => fp)). now apply directive_fin.
Qed.

(** ** The whole schema *)

Lemma parse_loop_S f inner ts fp :
  parse_loop (S f) inner ts fp =
  match cur ts with
  | TEOF => Ok []
  | _ =>
      let* (node, ts, fp) := parse_node inner ts fp in
      let* nodes := parse_loop f inner ts fp in
      Ok (node :: nodes)
  end.
Proof. reflexivity. Qed.

Lemma cur_eof ts : cur ts = TEOF <-> at_end ts.
Proof.
  unfold at_end, next_is. destruct ts as [|t ts]; cbn; split; eauto.
  - intros ->. eauto.
  - intros [[=]|(r & [= -> _])]. reflexivity.
Qed.

Lemma match_eof {A} ts (a b : A) :
  match cur ts with TEOF => a | _ => b end = if match cur ts with TEOF => true | _ => false end then a else b.
Proof. destruct (cur ts); reflexivity. Qed.

Lemma parse_loop_sound f inner : forall ts fp l, parse_loop f inner ts fp = Ok l -> schema_g fp ts l.
Proof.
  induction f as [|f IH]; [discriminate|]. intros ts fp l H. rewrite parse_loop_S, match_eof in H.
  destruct (match cur ts with TEOF => true | _ => false end) eqn:E.
  - injection H as <-. constructor. apply cur_eof. destruct (cur ts); congruence.
  - apply bind_ok in H as ([[n ts'] fp'] & E' & H). apply bind_ok in H as (l' & E2 & H).
    injection H as <-. apply node_sound in E' as [D ->]. econstructor; [eassumption|]. now apply IH.
Qed.

Lemma decl_not_end k ts n r : decl_g k ts n r -> cur ts <> TEOF.
Proof.
  intros [n' r'|n' ts' l r' S H|n' ts' l r' S H|ts' f r' H|ts' f r' H|ts' n' r' H|ts' d r' H];
    try discriminate; inversion H; discriminate.
Qed.

Lemma parse_loop_complete inner k ts l : schema_g k ts l -> forall f,
  List.length ts < f -> List.length ts < inner -> parse_loop f inner ts k = Ok l.
Proof.
  induction 1 as [k ts E|k ts n ts' l D S IH]; intros [|f] L L'; try lia; rewrite parse_loop_S, match_eof.
  - apply cur_eof in E. now rewrite E.
  - pose proof (decl_not_end _ _ _ _ D) as N. pose proof (decl_consumes _ _ _ _ D) as C.
    replace (match cur ts with TEOF => true | _ => false end) with false by (destruct (cur ts); congruence).
    rewrite (node_complete inner k ts n ts') by assumption. cbn [bind].
    rewrite IH by lia. reflexivity.
Qed.

Lemma parse_loop_fin inner f : forall ts fp, List.length ts < f -> List.length ts < inner ->
  parse_loop f inner ts fp <> NoFuel.
Proof.
  induction f as [|f IH]; intros ts fp L L'; [lia|]. rewrite parse_loop_S, match_eof.
  destruct (match cur ts with TEOF => true | _ => false end); [discriminate|].
  destruct (node_fin inner ts fp L') as [E|(n & r & fp' & E & C)]; rewrite E; cbn [bind]; [discriminate|].
  specialize (IH r fp' ltac:(lia) ltac:(lia)). destruct (parse_loop f inner r fp'); cbn [bind]; congruence.
Qed.

Theorem parse_terminates ts : parse ts <> NoFuel.
Proof. apply parse_loop_fin; cbn; lia. Qed.

Theorem parse_iff_grammar ts l : parse ts = Ok l <-> schema_g 0 ts l.
Proof.
  split.
  - apply parse_loop_sound.
  - intros H. apply parse_loop_complete; [assumption|lia|lia].
Qed.
