(** Facts about the grammar alone: a phrase depends only on its own tokens and on the kind of the
    token after it, and consumes only symbols of the language. *)
Require Import Coq.Strings.String Coq.Strings.Ascii.
Require Import Coq.NArith.NArith Coq.ZArith.ZArith Coq.Lists.List Coq.Bool.Bool Coq.micromega.Lia.
Require Import Verif.F64 Verif.Ast Verif.Grammar.
Import ListNotations.
Local Open Scope string_scope.
Local Open Scope list_scope.

(** The symbols of the schema language. *)
Definition schema_symbols : list ascii :=
  ["{"; "}"; "("; ")"; "["; "]"; "<"; ">"; "#"; ":"; ";"; ","; "="; "-"]%char.

Definition clean_token (t : token) : Prop :=
  match t with
  | TSym c => In c schema_symbols
  | TEOF => False
  | _ => True
  end.
Definition clean (p : toks) : Prop := Forall clean_token p.

Definition same_head (s r : toks) : Prop := hd_error s = hd_error r.

(** [X] is local: it holds of a piece of the input, whatever follows, as long as the next token is
    the same. *)
Definition local {A : Type} (X : toks -> A -> toks -> Prop) (ts : toks) (x : A) (r : toks) : Prop :=
  exists p, ts = p ++ r /\ clean p /\ forall s, same_head s r -> X (p ++ s) x s.

Lemma next_is_same t s r : same_head s r -> next_is t s <-> next_is t r.
Proof.
  unfold same_head, next_is. intros H. split; intros (u & ->); cbn in H.
  - destruct r as [|x r]; cbn in H; [discriminate|]. injection H as <-. eauto.
  - destruct s as [|x s]; cbn in H; [discriminate|]. injection H as ->. eauto.
Qed.

Lemma next_is_id_same s r : same_head s r -> next_is_id s <-> next_is_id r.
Proof.
  unfold same_head, next_is_id. intros H. split; intros (n & u & ->); cbn in H.
  - destruct r as [|x r]; cbn in H; [discriminate|]. injection H as <-. eauto.
  - destruct s as [|x s]; cbn in H; [discriminate|]. injection H as ->. eauto.
Qed.

Lemma same_head_cons t a b : same_head (t :: a) (t :: b).
Proof. reflexivity. Qed.

Lemma same_head_app (p s r : toks) : same_head s r -> same_head (p ++ s) (p ++ r).
Proof. destruct p; [auto|reflexivity]. Qed.

Definition head_only (P : toks -> Prop) : Prop := forall s r, same_head s r -> P s <-> P r.

Lemma head_only_next t : head_only (next_is t).
Proof. intros s r. apply next_is_same. Qed.
Lemma head_only_id : head_only next_is_id.
Proof. intros s r. apply next_is_id_same. Qed.

Ltac clean_tac :=
  repeat match goal with
  | H : clean ?p |- clean ?p => exact H
  | |- clean (_ :: _) => apply Forall_cons; [cbn; tauto|]
  | |- clean (_ ++ _) => apply Forall_app; split
  | |- clean [] => apply Forall_nil
  | |- Forall clean_token ?l => change (clean l)
  | |- _ => eassumption
  end.

Lemma type_local :
  (forall ts t r, type_g ts t r -> local type_g ts t r)
  /\ (forall ts l r, type_args_g ts l r -> local type_args_g ts l r)
  /\ (forall ts r, broken_args_g ts r -> local (fun a (_ : unit) b => broken_args_g a b) ts tt r).
Proof.
  apply type_g_mutind.
  - intros n t r H P. exists [TId n]. split; [reflexivity|]. split; [clean_tac|].
    intros s S. cbn. apply tg_plain; [|assumption]. now rewrite (next_is_same _ _ _ S).
  - intros n ts l r H (p & -> & C & E). exists (TId n :: TSym "<" :: p).
    split; [reflexivity|]. split; [clean_tac|]. intros s S. cbn. apply tg_generic. now apply E.
  - intros n ts t r H (p & -> & C & E) P. exists (TId n :: TSym "<" :: p).
    split; [reflexivity|]. split; [clean_tac|]. intros s S. cbn. apply tg_broken; auto.
  - intros ts t r H (p & -> & C & E). exists (p ++ [TSym ">"]).
    split; [now rewrite <- app_assoc|]. split; [clean_tac|]. intros s S. rewrite <- app_assoc. cbn.
    apply ta_last. apply E. apply same_head_cons.
  - intros ts t ts' l r H (p & -> & C & E) H' (q & -> & C' & E'). exists (p ++ TSym "," :: q).
    split; [now rewrite <- app_assoc|]. split; [clean_tac|]. intros s S. rewrite <- app_assoc. cbn.
    eapply ta_more; [|apply E'; assumption]. apply E. apply same_head_cons.
  - intros ts H. exists []. split; [reflexivity|]. split; [clean_tac|]. intros s S. cbn.
    apply ba_stop. now rewrite (next_is_id_same _ _ S).
  - intros ts t ts' r H (p & -> & C & E) H' (q & -> & C' & E'). exists (p ++ TSym "," :: q).
    split; [now rewrite <- app_assoc|]. split; [clean_tac|]. intros s S. rewrite <- app_assoc. cbn.
    eapply ba_more; [|apply E'; assumption]. apply E. apply same_head_cons.
Qed.

Lemma type_g_local ts t r : type_g ts t r -> local type_g ts t r.
Proof. apply type_local. Qed.

Lemma sep_list_local {A} (starts : toks -> Prop) (item : toks -> A -> toks -> Prop) :
  head_only starts ->
  (forall ts x r, item ts x r -> local item ts x r) ->
  forall ts l r, sep_list_g starts item ts l r -> local (sep_list_g starts item) ts l r.
Proof.
  intros HS HI ts l r H. induction H as [ts N|ts x r S I N|ts x ts' l r S I H IH].
  - exists []. split; [reflexivity|]. split; [clean_tac|]. intros s E. cbn. apply sl_stop.
    now rewrite (HS _ _ E).
  - destruct (HI _ _ _ I) as (p & -> & C & E). exists p. split; [reflexivity|]. split; [assumption|].
    intros s SH. apply sl_last; [|now apply E|].
    + eapply HS; [|exact S]. now apply same_head_app.
    + now rewrite (next_is_same _ _ _ SH).
  - destruct (HI _ _ _ I) as (p & -> & C & E). destruct IH as (q & -> & C' & E').
    exists (p ++ TSym "," :: q). split; [now rewrite <- app_assoc|]. split; [clean_tac|].
    intros s SH. rewrite <- app_assoc. cbn. eapply sl_more; [|apply E, same_head_cons|now apply E'].
    eapply HS; [|exact S]. apply same_head_app. apply same_head_cons.
Qed.

Lemma with_pos_local {A} (item : toks -> A -> toks -> Prop) :
  (forall ts x r, item ts x r -> local item ts x r) ->
  forall ts x r, with_pos_g item ts x r -> local (with_pos_g item) ts x r.
Proof.
  intros HI ts x r H. destruct H as [ts p ts' x r P I]. destruct P as [z r'].
  destruct (HI _ _ _ I) as (q & -> & C & E).
  exists (TSym "#" :: TSym "[" :: TLit (IntLit z) :: TSym "]" :: q).
  split; [reflexivity|]. split; [clean_tac|]. intros s SH. cbn.
  econstructor; [apply pg|now apply E].
Qed.

Lemma positioned_local {A} (item : toks -> A -> toks -> Prop) :
  (forall ts x r, item ts x r -> local item ts x r) ->
  forall ts x r, positioned_g item ts x r -> local (positioned_g item) ts x r.
Proof.
  intros HI ts l r H. destruct H as [ts l r S H|ts l r S H].
  - apply sep_list_local in H; [|apply head_only_next|now apply with_pos_local].
    destruct H as (p & -> & C & E). exists p. split; [reflexivity|]. split; [assumption|].
    intros s SH. apply ps_explicit; [|now apply E].
    rewrite next_is_same; [exact S|now apply same_head_app].
  - apply sep_list_local in H; [|apply head_only_id|assumption].
    destruct H as (p & -> & C & E). exists p. split; [reflexivity|]. split; [assumption|].
    intros s SH. apply ps_implicit; [|now apply E].
    rewrite next_is_same; [exact S|now apply same_head_app].
Qed.

Lemma binding_local ts x r : binding_g ts x r -> local binding_g ts x r.
Proof.
  intros [n ts' t r' H]. destruct (type_g_local _ _ _ H) as (p & -> & C & E).
  exists (TId n :: TSym ":" :: p). split; [reflexivity|]. split; [clean_tac|].
  intros s SH. cbn. constructor. now apply E.
Qed.

Lemma fields_local ts x r : fields_g ts x r -> local fields_g ts x r.
Proof.
  intros [ts' l r' H]. apply positioned_local in H; [|exact binding_local].
  destruct H as (p & -> & C & E). exists p. split; [reflexivity|]. split; [assumption|].
  intros s SH. constructor. now apply E.
Qed.

Lemma tuple_local ts x r : tuple_g ts x r -> local tuple_g ts x r.
Proof.
  intros [ts' l r' H]. apply positioned_local in H; [|exact type_g_local].
  destruct H as (p & -> & C & E). exists p. split; [reflexivity|]. split; [assumption|].
  intros s SH. constructor. now apply E.
Qed.

Lemma variant_local ts x r : variant_g ts x r -> local variant_g ts x r.
Proof.
  intros [n r' H H'|n ts' l r' H|n ts' l r' H].
  - exists [TId n]. split; [reflexivity|]. split; [clean_tac|]. intros s SH. cbn.
    apply vg_empty; now rewrite (next_is_same _ _ _ SH).
  - apply tuple_local in H. destruct H as (p & -> & C & E).
    exists (TId n :: TSym "(" :: p ++ [TSym ")"]).
    split; [cbn; now rewrite <- app_assoc|]. split; [clean_tac|].
    intros s SH. cbn. rewrite <- app_assoc. apply vg_tuple. apply E. apply same_head_cons.
  - apply fields_local in H. destruct H as (p & -> & C & E).
    exists (TId n :: TSym "{" :: p ++ [TSym "}"]).
    split; [cbn; now rewrite <- app_assoc|]. split; [clean_tac|].
    intros s SH. cbn. rewrite <- app_assoc. apply vg_struct. apply E. apply same_head_cons.
Qed.

Lemma variants_local ts x r : variants_g ts x r -> local variants_g ts x r.
Proof.
  intros [ts' l r' H]. apply positioned_local in H; [|exact variant_local].
  destruct H as (p & -> & C & E). exists p. split; [reflexivity|]. split; [assumption|].
  intros s SH. constructor. now apply E.
Qed.

Lemma value_clean v val : value_g v val -> clean_token v.
Proof. intros []; exact I. Qed.

(** Phrases that end with a symbol of their own do not look ahead at all. *)
Definition closed {A : Type} (X : toks -> A -> toks -> Prop) (ts : toks) (x : A) (r : toks) : Prop :=
  exists p c, ts = p ++ TSym c :: r /\ clean (p ++ [TSym c])
              /\ forall s, X (p ++ TSym c :: s) x s.

Lemma const_local :
  (forall ts x r, const_g ts x r -> closed const_g ts x r)
  /\ (forall ts x r, const_items_g ts x r -> local const_items_g ts x r).
Proof.
  apply const_g_mutind.
  - intros n ts l r H (p & -> & C & E). exists (TConst :: TId n :: TSym "{" :: p), "}"%char.
    split; [reflexivity|]. split; [cbn; clean_tac|].
    intros s. cbn. apply cg. apply E. apply same_head_cons.
  - intros ts H. exists []. split; [reflexivity|]. split; [clean_tac|]. intros s SH. cbn.
    apply ci_stop. now rewrite (next_is_same _ _ _ SH).
  - intros ts n ts' l r H (p & c & -> & C & E) H' (q & -> & C' & E').
    exists (p ++ TSym c :: q). split; [now rewrite <- app_assoc|].
    split. { change (TSym c :: q) with ([TSym c] ++ q). rewrite app_assoc. clean_tac. }
    intros s SH. rewrite <- app_assoc. cbn. eapply ci_node; [apply E|now apply E'].
  - intros n ts t v val ts' l r H V H' (q & -> & C' & E').
    apply type_g_local in H. destruct H as (p & -> & C & E).
    exists (TId n :: TSym ":" :: p ++ TSym "=" :: v :: TSym ";" :: q).
    split; [cbn; now rewrite <- app_assoc|]. apply value_clean in V as CV.
    split. { constructor; [exact I|]. constructor; [cbn; tauto|]. apply Forall_app. split; [assumption|].
             constructor; [cbn; tauto|]. constructor; [assumption|]. constructor; [cbn; tauto|assumption]. }
    intros s SH. cbn. rewrite <- app_assoc. cbn.
    eapply ci_value; [|eassumption|now apply E']. apply E. apply same_head_cons.
Qed.

Lemma pair_local ts x r : pair_g ts x r -> local pair_g ts x r.
Proof.
  intros [n v val r' V]. exists [TId n; TSym "="; v]. split; [reflexivity|].
  apply value_clean in V as CV.
  split. { constructor; [exact I|]. constructor; [cbn; tauto|]. constructor; [assumption|constructor]. }
  intros s SH. cbn. now constructor.
Qed.

Lemma returns_closed ts x r : returns_g ts x r -> closed returns_g ts x r.
Proof.
  intros [r'|ts' t r' H].
  - exists [], ";"%char. split; [reflexivity|]. split; [cbn; clean_tac|]. intros s. constructor.
  - apply type_g_local in H. destruct H as (p & -> & C & E).
    exists (TSym "-" :: TSym ">" :: p), ";"%char. split; [reflexivity|]. split; [cbn; clean_tac|].
    intros s. cbn. constructor. apply E. apply same_head_cons.
Qed.

Lemma method_closed a k ts x r : method_g a k ts x r -> closed (method_g a k) ts x r.
Proof.
  intros [n ts' l ts'' ret r' H R|n ts' ret r' R].
  - apply sep_list_local in H; [|apply head_only_id|exact binding_local].
    destruct H as (p & -> & C & E).
    apply returns_closed in R. destruct R as (q & c & -> & C' & E').
    exists (TFn :: TId n :: TSym "(" :: p ++ TSym ")" :: q), c.
    split; [cbn; now rewrite <- app_assoc|].
    split. { cbn. rewrite <- app_assoc. cbn. clean_tac. }
    intros s. cbn. rewrite <- app_assoc. cbn. eapply mg_fn; [|apply E']. apply E, same_head_cons.
  - apply returns_closed in R. destruct R as (q & c & -> & C' & E').
    exists (TRead :: TId n :: q), c. split; [reflexivity|]. split; [cbn; clean_tac|].
    intros s. cbn. constructor. apply E'.
Qed.

(** Except for the unchecked token of a directive group, a declaration consists of tokens of the
    language only. *)
Inductive decl_tokens : toks -> Prop :=
| dt_clean : forall p, clean p -> decl_tokens p
| dt_group : forall n p close, clean p ->
    decl_tokens (TSym "#" :: TSym "[" :: TId n :: TSym "(" :: p ++ [close; TSym "]"]).

Lemma decl_closed k ts x r : decl_g k ts x r ->
  exists p c, ts = p ++ TSym c :: r /\ decl_tokens (p ++ [TSym c]) /\ c <> ascii_of_nat 9
              /\ forall s, decl_g k (p ++ TSym c :: s) x s.
Proof.
  assert (Hc : forall p c, clean (p ++ [TSym c]) -> c <> ascii_of_nat 9).
  { intros p c C ->. apply Forall_app in C as [_ C]. inversion C as [|? ? H _]. cbn in H.
    intuition discriminate. }
  intros [n r'|n ts' l r' S H|n ts' l r' S H|ts' f r' H|ts' f r' H|ts' n r' H|ts' d r' H].
  - exists [TStruct; TId n], ";"%char. split; [reflexivity|]. split; [apply dt_clean; cbn; clean_tac|].
    split; [discriminate|]. intros s. cbn. constructor.
  - apply fields_local in H. destruct H as (p & -> & C & E).
    exists (TStruct :: TId n :: TSym "{" :: p), "}"%char. split; [reflexivity|].
    split; [apply dt_clean; cbn; clean_tac|]. split; [discriminate|]. intros s. cbn. constructor.
    + assert (SH : same_head (p ++ TSym "}" :: s) (p ++ TSym "}" :: r'))
        by (apply same_head_app, same_head_cons).
      now rewrite (next_is_same _ _ _ SH), (next_is_id_same _ _ SH).
    + apply E, same_head_cons.
  - apply variants_local in H. destruct H as (p & -> & C & E).
    exists (TEnum :: TId n :: TSym "{" :: p), "}"%char. split; [reflexivity|].
    split; [apply dt_clean; cbn; clean_tac|]. split; [discriminate|]. intros s. cbn. constructor.
    + assert (SH : same_head (p ++ TSym "}" :: s) (p ++ TSym "}" :: r'))
        by (apply same_head_app, same_head_cons).
      now rewrite (next_is_same _ _ _ SH), (next_is_id_same _ _ SH).
    + apply E, same_head_cons.
  - apply method_closed in H. destruct H as (p & c & -> & C & E).
    exists p, c. split; [reflexivity|]. split; [now apply dt_clean|]. split; [eauto|].
    intros s. now constructor.
  - apply method_closed in H. destruct H as (p & c & -> & C & E).
    exists (TAsync :: p), c. split; [reflexivity|]. split; [apply dt_clean; cbn; clean_tac|].
    split; [eauto|]. intros s. now apply dc_async.
  - destruct const_local as [L _]. apply L in H. destruct H as (p & c & -> & C & E).
    exists p, c. split; [reflexivity|]. split; [now apply dt_clean|]. split; [eauto|].
    intros s. now constructor.
  - destruct H as [n v val r' V|n ts' l close r' H].
    + exists [TSym "#"; TSym "["; TId n; TSym "="; v], "]"%char. split; [reflexivity|].
      apply value_clean in V as CV. split.
      { apply dt_clean. cbn. do 4 (constructor; [cbn; tauto|]). constructor; [assumption|].
        constructor; [cbn; tauto|constructor]. }
      split; [discriminate|]. intros s. cbn. constructor. now constructor.
    + apply sep_list_local in H; [|apply head_only_id|exact pair_local].
      destruct H as (p & -> & C & E).
      exists (TSym "#" :: TSym "[" :: TId n :: TSym "(" :: p ++ [close]), "]"%char.
      split; [cbn; now rewrite <- app_assoc|].
      split. { cbn. rewrite <- app_assoc. cbn. now apply dt_group. }
      split; [discriminate|]. intros s. cbn. rewrite <- app_assoc. cbn. constructor.
      eapply dg_group. apply E, same_head_cons.
Qed.

(** ** Numbers of methods *)

Definition shift_method (d : N) (n : ast_node) : ast_node :=
  match n with
  | NFn f => NFn (mk_fn (fn_id f) (fn_position f + d) (fn_args f) (fn_return f) (fn_is_read f)
                        (fn_is_async f))
  | _ => n
  end.

Definition count_methods (l : list ast_node) : N := N.of_nat (length (filter is_method l)).

Lemma method_shift d a k ts f r : method_g a k ts f r ->
  exists f', shift_method d (NFn f) = NFn f' /\ method_g a (k + d) ts f' r.
Proof. intros [n ts' l ts'' ret r' H R|n ts' ret r' R]; eexists; (split; [reflexivity|]); econstructor; eassumption. Qed.

Lemma decl_shift d k ts x r : decl_g k ts x r -> decl_g (k + d) ts (shift_method d x) r.
Proof.
  intros [n r'|n ts' l r' S H|n ts' l r' S H|ts' f r' H|ts' f r' H|ts' n r' H|ts' e r' H];
    try (cbn; econstructor; eassumption).
  - destruct (method_shift d _ _ _ _ _ H) as (f' & -> & H'). now apply dc_method.
  - destruct (method_shift d _ _ _ _ _ H) as (f' & -> & H'). now apply dc_async.
Qed.

Lemma is_method_shift d x : is_method (shift_method d x) = is_method x.
Proof. now destruct x. Qed.

Lemma schema_shift d : forall k ts l, schema_g k ts l -> schema_g (k + d) ts (map (shift_method d) l).
Proof.
  intros k ts l H. induction H as [k ts E|k ts n ts' l D H IH]; cbn; [now constructor|].
  eapply sg_decl; [apply decl_shift, D|]. rewrite is_method_shift.
  destruct (is_method n); [|assumption].
  now replace (k + d + 1)%N with (k + 1 + d)%N by lia.
Qed.

Lemma app_tail_eof (us : toks) p c r : ~ In TEOF us -> us ++ [TEOF] = p ++ TSym c :: r ->
  exists r', r = r' ++ [TEOF] /\ us = p ++ TSym c :: r'.
Proof.
  intros N. revert p. induction us as [|u us IH]; intros [|x p] E; cbn in E.
  - discriminate.
  - injection E as <- E. now destruct p.
  - injection E as -> <-. exists us. auto.
  - injection E as <- E. destruct (IH (fun H => N (or_intror H)) _ E) as (r' & -> & ->). eauto.
Qed.

Lemma schema_append : forall k ts l, schema_g k ts l ->
  forall us ts2 l2, ts = us ++ [TEOF] -> ~ In TEOF us ->
  schema_g (k + count_methods l) ts2 l2 -> schema_g k (us ++ ts2) (l ++ l2).
Proof.
  intros k ts l H. induction H as [k ts E|k ts n ts' l D H IH]; intros us ts2 l2 -> N H2.
  - destruct us as [|u us]; cbn.
    + unfold count_methods in H2. cbn in H2. now rewrite N.add_0_r in H2.
    + exfalso. destruct E as [E|(r & E)]; [discriminate|]. cbn in E. injection E as -> E.
      apply N. now left.
  - apply decl_closed in D. destruct D as (p & c & E & _ & _ & C).
    apply app_tail_eof in E; [|assumption]. destruct E as (us' & -> & ->).
    rewrite <- app_assoc. cbn. eapply sg_decl; [apply C|]. apply IH; [reflexivity| |].
    + intros I. apply N. apply in_or_app. right. now right.
    + unfold count_methods in *. cbn in H2.
      destruct (is_method n); cbn in H2; [|assumption].
      replace (k + 1 + N.of_nat (length (filter is_method l)))%N
        with (k + N.of_nat (S (length (filter is_method l))))%N by lia.
      assumption.
Qed.

(** A clean prefix splits off: the tokens of an accepted schema. *)
Lemma schema_tokens : forall k ts l, schema_g k ts l ->
  forall us, ts = us ++ [TEOF] -> ~ In TEOF us -> exists ps, us = concat ps /\ Forall decl_tokens ps
    /\ length ps = length l.
Proof.
  intros k ts l H. induction H as [k ts E|k ts n ts' l D H IH]; intros us -> N.
  - exists []. destruct us as [|u us]; [cbn; auto|].
    exfalso. destruct E as [E|(r & E)]; [discriminate|]. cbn in E. injection E as -> E.
    apply N. now left.
  - apply decl_closed in D. destruct D as (p & c & E & T & _ & C).
    apply app_tail_eof in E; [|assumption]. destruct E as (us' & -> & ->).
    destruct (IH us' eq_refl) as (ps & -> & F & Q).
    { intros I. apply N. apply in_or_app. right. now right. }
    exists ((p ++ [TSym c]) :: ps). cbn. rewrite <- app_assoc. cbn. auto.
Qed.

(** A symbol outside the language can only be the unchecked token of a group directive. *)
Lemma foreign_symbol c : ~ In c schema_symbols ->
  forall p, decl_tokens p -> In (TSym c) p ->
  exists n q, clean q /\ p = TSym "#" :: TSym "[" :: TId n :: TSym "(" :: q ++ [TSym c; TSym "]"].
Proof.
  intros NI p D I. assert (K : forall q, clean q -> ~ In (TSym c) q).
  { intros q C J. unfold clean in C. rewrite Forall_forall in C. exact (NI (C _ J)). }
  assert (KK : forall d, In d schema_symbols -> TSym d <> TSym c) by (intros d J [= ->]; auto).
  destruct D as [p C|n q close C]; [exfalso; eapply K; eassumption|].
  cbn in I. destruct I as [I|[I|[I|[I|I]]]]; try discriminate;
    try (exfalso; eapply KK; [|exact I]; cbn; tauto).
  apply in_app_or in I. destruct I as [I|[->|[I|[]]]].
  - exfalso. eapply K; eassumption.
  - exists n, q. auto.
  - exfalso; eapply KK; [|exact I]; cbn; tauto.
Qed.
