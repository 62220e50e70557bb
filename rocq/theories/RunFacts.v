(** Lemmas behind the theorems of PropertiesRun.v. *)

(** Property theorems about the command: C37 (a failed run), C38 (batches), C44 (directive look-ups)
    and about the failures of the two generators it can run: C15, C16.  After each theorem, a
    concrete case that meets its hypotheses, and its axioms. *)
Require Import Coq.Strings.String Coq.Strings.Ascii.
Require Import Coq.NArith.NArith Coq.ZArith.ZArith Coq.Lists.List Coq.Bool.Bool Coq.micromega.Lia.
Require Import Verif.Base Verif.F64 Verif.Ast Verif.Lexer Verif.Parser Verif.ParseFacts Verif.Writer Verif.MainModel.
Require Verif.RustGen Verif.DartGen.
Import ListNotations.
Local Open Scope string_scope.
Local Open Scope list_scope.

(** ** C44: directive look-ups *)
(** The directives [#[id = v]] of a schema in source order, and the pairs [n = v] of its groups
    [#[g(n = v, ...)]]. *)
Definition plain_directives (ast : list ast_node) : list (string * const_value) :=
  flat_map (fun n => match n with NDirective (DirValue id v) => [(id, v)] | _ => [] end) ast.

Definition group_directives (ast : list ast_node) : list (string * string * const_value) :=
  flat_map (fun n => match n with
    | NDirective (DirGroup g l) => map (fun p => (g, iv_id p, iv_value p)) l
    | _ => [] end) ast.

(** [v] is the value of the first occurrence of [k] in [l]. *)
Definition first_value {K} (k : K) (l : list (K * const_value)) (v : const_value) : Prop :=
  exists before after, l = before ++ (k, v) :: after /\ forall u, ~ In (k, u) before.

Lemma first_value_cons {K} (k : K) x l v (D : {k = fst x} + {k <> fst x}) :
  first_value k (x :: l) v <-> (k = fst x /\ v = snd x) \/ (k <> fst x /\ first_value k l v).
Proof.
  split.
  - intros (b & a & E & N).
  destruct b as [|y b]; cbn in E; injection E as -> E.
  + left.
  auto.
  + right.
  split.
  * intros ->.
  apply (N (snd y)).
  left.
  now destruct y.
  * exists b, a.
  split; [exact E|].
  intros u I.
  apply (N u).
  now right.
  - intros [[-> ->]|[NE (b & a & -> & N)]].
  + exists [], l.
  split; [now destruct x|].
  intros u [].
  + exists (x :: b), a.
  split; [reflexivity|].
  intros u [->|I]; [now apply NE|exact (N u I)].
Qed.

Lemma first_value_nil {K} (k : K) v : ~ first_value k [] v.
Proof.
  intros (b & a & E & _).
  destruct b; discriminate.
Qed.

Lemma lem_C44_plain_first : forall ast id v,
  find_directive_value ast id = Some v <-> first_value id (plain_directives ast) v.
Proof.
  induction ast as [|n ast IH]; intros id v.
  - cbn.
  split; [discriminate|].
  intros H.
  now apply first_value_nil in H.
  - destruct n as [e|s|f|[d x|g l]|c]; cbn [find_directive_value plain_directives flat_map app]; try apply IH.
  fold (plain_directives ast).
  rewrite first_value_cons by apply string_dec.
  cbn [fst snd].
  rewrite <- IH.
  destruct (String.eqb_spec id d); split.
  + intros [= ->].
  auto.
  + intros [[_ ->]|[N _]]; [reflexivity|contradiction].
  + auto.
  + intros [[E _]|[_ H]]; [contradiction|exact H].
Qed.

Lemma lem_C44_plain_missing : forall ast id,
  find_directive_value ast id = None <-> forall v, ~ In (NDirective (DirValue id v)) ast.
Proof.
  induction ast as [|n ast IH]; intros id.
  - cbn.
  split; auto.
  - destruct n as [e|s|f|[d x|g l]|c]; cbn [find_directive_value]; try (rewrite IH; split; intros H v; [intros [E|E]; [discriminate|exact (H v E)]|intros E; apply (H v); now right]).
  destruct (String.eqb_spec id d); split.
  + discriminate.
  + intros H.
  subst.
  exfalso.
  apply (H x).
  now left.
  + rewrite IH.
  intros H v [[= E]|E]; [now subst|exact (H v E)].
  + intros H.
  rewrite IH.
  intros v E.
  apply (H v).
  now right.
Qed.

Lemma find_in_group_first l n v : find_in_group l n = Some v <-> first_value n (map (fun p => (iv_id p, iv_value p)) l) v.
Proof.
  induction l as [|p l IH]; cbn [find_in_group map].
  - split; [discriminate|].
  intros H.
  now apply first_value_nil in H.
  - rewrite first_value_cons by apply string_dec.
  cbn [fst snd].
  rewrite <- IH.
  destruct (String.eqb_spec (iv_id p) n); split.
  + intros [= <-].
  auto.
  + intros [[_ ->]|[N _]]; [reflexivity|congruence].
  + intros H.
  right.
  split; [congruence|exact H].
  + intros [[E _]|[_ H]]; [congruence|exact H].
Qed.

Lemma lem_C44_group_all : forall ast g n,
  find_directive_group_values ast g n =
  map snd (filter (fun x => (String.eqb g (fst (fst x)) && String.eqb n (snd (fst x)))%bool) (group_directives ast)).
Proof.
  induction ast as [|x ast IH]; intros g n; [reflexivity|].
  destruct x as [e|s|f|[d v|h l]|c]; cbn [find_directive_group_values group_directives flat_map app]; try apply IH.
  fold (group_directives ast).
  rewrite filter_app, map_app, IH.
  replace (map snd (filter _ (map _ l))) with (if String.eqb g h then find_all_in_group l n else []).
  { destruct (String.eqb g h); reflexivity.
  }
  clear IH.
  induction l as [|p l IH]; [now destruct (String.eqb g h)|].
  cbn [map filter fst snd find_all_in_group].
  rewrite (String.eqb_sym n).
  destruct (String.eqb g h); cbn [andb]; [|exact IH].
  destruct (String.eqb (iv_id p) n); cbn [map snd]; now rewrite IH.
Qed.

Lemma lem_C44_group_first : forall ast g n v,
  find_directive_group_value ast g n = Some v <-> first_value (g, n) (group_directives ast) v.
Proof.
  assert (DEC : forall a b : string * string, {a = b} + {a <> b}).
  { intros [a b] [c d].
  destruct (string_dec a c), (string_dec b d); subst; auto; right; congruence.
  }
  assert (APP : forall k (l1 l2 : list (string * string * const_value)) v,
    first_value k (l1 ++ l2) v <-> first_value k l1 v \/ ((forall u, ~ In (k, u) l1) /\ first_value k l2 v)).
  { intros k l1 l2 v.
  induction l1 as [|x l1 IH]; cbn [app].
  - split.
  + intros H.
  right.
  split; [intros u []|exact H].
  + intros [H|[_ H]]; [now apply first_value_nil in H|exact H].
  - rewrite !first_value_cons by apply DEC.
  rewrite IH.
  split.
  + intros [H|[N [H|[M H]]]]; [auto|auto|].
  right.
  split; [|exact H].
  intros u [->|I]; [now apply N|exact (M u I)].
  + intros [[H|[N H]]|[M H]]; [auto|auto|].
  right.
  split.
  * intros ->.
  apply (M (snd x)).
  left.
  now destruct x.
  * right.
  split; [|exact H].
  intros u I.
  apply (M u).
  now right.
  }
  induction ast as [|x ast IH]; intros g n v.
  - cbn.
  split; [discriminate|].
  intros H.
  now apply first_value_nil in H.
  - destruct x as [e|s|f|[d w|h l]|c]; cbn [find_directive_group_value group_directives flat_map app]; try apply IH.
  fold (group_directives ast).
  rewrite APP, <- IH.
  destruct (String.eqb_spec g h) as [<-|NE].
  + assert (G : forall u, first_value (g, n) (map (fun p => (g, iv_id p, iv_value p)) l) u <-> find_in_group l n = Some u).
  { intros u.
  rewrite find_in_group_first.
  clear - DEC.
  induction l as [|p l IH]; cbn [map].
  - split; intros H; now apply first_value_nil in H.
  - rewrite !first_value_cons by (apply string_dec || apply DEC).
  cbn [fst snd].
  rewrite IH.
  assert (E : (g, n) = (g, iv_id p) <-> n = iv_id p) by (split; congruence).
  now rewrite E.
  }
      rewrite G.
  destruct (find_in_group l n) as [u|] eqn:F; split.
  * auto.
  * intros [H|[M _]]; [exact H|].
  exfalso.
  apply find_in_group_first in F as (b & a & E & _).
  apply (M u).
  assert (I : In (n, u) (map (fun p => (iv_id p, iv_value p)) l)) by (rewrite E, in_app_iff; cbn; auto).
  apply in_map_iff in I as (p & [= <- <-] & I).
  apply in_map_iff.
  now exists p.
  * intros H.
  right.
  split; [|exact H].
  intros u I.
  apply in_map_iff in I as (p & [= <- <-] & I).
  revert F.
  clear - I.
  induction l as [|q l IH]; [destruct I|].
  cbn.
  destruct I as [->|I].
  -- rewrite String.eqb_refl.
  discriminate.
  -- destruct (String.eqb (iv_id q) (iv_id p)); [discriminate|auto].
  * intros [H|[_ H]]; [discriminate|exact H].
  + assert (N : forall u, ~ In (g, n, u) (map (fun p => (h, iv_id p, iv_value p)) l)).
  { intros u I.
  apply in_map_iff in I as (p & [= E _ _] & _).
  congruence.
  }
      split.
  * intros H.
  right.
  auto.
  * intros [H|[_ H]]; [|exact H].
  exfalso.
  destruct H as (b & a & E & _).
  apply (N v).
  rewrite E, in_app_iff.
  cbn.
  auto.
Qed.

(** ** C15, C16: when generation fails *)
Ltac front := repeat match goal with |- context [compile_front ?s] =>
  let a := eval vm_compute in (compile_front s) in replace (compile_front s) with a by (vm_compute; reflexivity) end; cbv iota beta.

Definition is_string (v : const_value) : Prop := exists s t, v = ConstLiteral (StringLit s) t.

(** Some value of the key in some group of the name is not a string. *)
Definition bad_group (ast : list ast_node) (g n : string) : Prop :=
  exists l p, In (NDirective (DirGroup g l)) ast /\ In p l /\ iv_id p = n /\ ~ is_string (iv_value p).

(** The first directive of the name exists and is a string. *)
Definition has_string (ast : list ast_node) (id : string) : Prop :=
  exists v, first_value id (plain_directives ast) v /\ is_string v.

Definition declares_method (ast : list ast_node) : Prop := exists f, In (NFn f) ast.

Lemma is_string_dec v : {is_string v} + {~ is_string v}.
Proof.
  destruct v as [[s|z|x|b] t]; [left; now exists s, t|right; intros (? & ? & ?); discriminate..].
Qed.

Lemma mapM_ok {A B} (f : A -> res B) l : (forall x, In x l -> exists y, f x = Ok y) -> exists ys, mapM f l = Ok ys.
Proof.
  induction l as [|x l IH]; intros H; [now exists []|].
  cbn [mapM].
  destruct (H x (or_introl eq_refl)) as (y & ->).
  destruct IH as (ys & ->); [intros z I; apply H; now right|].
  now exists (y :: ys).
Qed.

Lemma mapM_panic {A B} (f : A -> res B) l : (forall x, In x l -> f x <> NoFuel) ->
  (exists x, In x l /\ f x = Panic) -> mapM f l = Panic.
Proof.
  induction l as [|x l IH]; intros N (y & I & E); [destruct I|].
  cbn [mapM].
  destruct (f x) eqn:F.
  - cbn [bind].
  rewrite IH; [reflexivity| |].
  + intros z J.
  apply N.
  now right.
  + destruct I as [->|I]; [congruence|].
  now exists y.
  - reflexivity.
  - exfalso.
  exact (N x (or_introl eq_refl) F).
Qed.

Lemma bad_group_values ast g n : (exists v, In v (find_directive_group_values ast g n) /\ ~ is_string v) <-> bad_group ast g n.
Proof.
  split.
  - intros (v & I & N).
  rewrite lem_C44_group_all in I.
  apply in_map_iff in I as ([[h m] u] & <- & I).
  apply filter_In in I as [I E].
  cbn [fst snd] in *.
  apply andb_true_iff in E as [E1 E2].
  apply String.eqb_eq in E1, E2.
  subst.
  unfold group_directives in I.
  apply in_flat_map in I as (x & I & J).
  destruct x as [e|s|f|[d w|h' l]|c]; try now destruct J.
  apply in_map_iff in J as (p & [= -> <- <-] & J).
  now exists l, p.
  - intros (l & p & I & J & E & N).
  exists (iv_value p).
  split; [|exact N].
  rewrite lem_C44_group_all.
  apply in_map_iff.
  exists (g, n, iv_value p).
  split; [reflexivity|].
  apply filter_In.
  cbn [fst snd].
  rewrite !String.eqb_refl.
  split; [|reflexivity].
  unfold group_directives.
  apply in_flat_map.
  exists (NDirective (DirGroup g l)).
  split; [exact I|].
  apply in_map_iff.
  exists p.
  now rewrite E.
Qed.

Lemma has_string_find ast id : has_string ast id <-> exists s t, find_directive_value ast id = Some (ConstLiteral (StringLit s) t).
Proof.
  split.
  - intros (v & F & s & t & ->).
  apply lem_C44_plain_first in F.
  eauto.
  - intros (s & t & F).
  exists (ConstLiteral (StringLit s) t).
  split; [now apply lem_C44_plain_first|now exists s, t].
Qed.

Lemma declares_find ast : declares_method ast <-> find_fn_nodes ast <> [].
Proof.
  unfold declares_method.
  induction ast as [|x ast IH].
  - cbn.
  split; [now intros (f & [])|congruence].
  - destruct x as [e|s|f|d|c]; cbn [find_fn_nodes]; try (rewrite <- IH; split; intros (g & H); [destruct H as [H|H]; [discriminate|]; eauto|exists g; now right]).
  split; [discriminate|].
  intros _.
  exists f.
  now left.
Qed.

Lemma has_rpc_declares ast : RustGen.has_rpc_methods ast = true <-> declares_method ast.
Proof.
  rewrite declares_find.
  induction ast as [|x ast IH]; [cbn; split; congruence|].
  destruct x as [e|s|f|d|c]; cbn [RustGen.has_rpc_methods find_fn_nodes]; try exact IH.
  split; [discriminate|reflexivity].
Qed.

Lemma uses_result ast : (bad_group ast "rust" "use" /\ RustGen.generate_uses ast = Panic)
  \/ (~ bad_group ast "rust" "use" /\ exists l, RustGen.generate_uses ast = Ok l).
Proof.
  rewrite <- bad_group_values.
  unfold RustGen.generate_uses.
  set (l := find_directive_group_values ast "rust" "use").
  destruct (Exists_dec (fun v => ~ is_string v) l (fun v => match is_string_dec v with left H => right (fun N => N H) | right H => left H end)) as [E|E].
  - apply Exists_exists in E as (v & I & N).
  left.
  split; [now exists v|].
  apply mapM_panic.
  + intros [[?|?|?|?] ?] _; discriminate.
  + exists v.
  split; [exact I|].
  destruct v as [[s|z|x|b] t]; try reflexivity.
  exfalso.
  apply N.
  now exists s, t.
  - right.
  split.
  + intros (v & I & N).
  apply E, Exists_exists.
  now exists v.
  + apply mapM_ok.
  intros v I.
  destruct (is_string_dec v) as [(s & t & ->)|N]; [eauto|].
  exfalso.
  apply E, Exists_exists.
  now exists v.
Qed.

Lemma imports_result ast : (bad_group ast "dart" "import" /\ DartGen.generate_imports ast = Panic)
  \/ (~ bad_group ast "dart" "import" /\ exists l, DartGen.generate_imports ast = Ok l).
Proof.
  rewrite <- bad_group_values.
  unfold DartGen.generate_imports.
  set (l := find_directive_group_values ast "dart" "import").
  destruct (Exists_dec (fun v => ~ is_string v) l (fun v => match is_string_dec v with left H => right (fun N => N H) | right H => left H end)) as [E|E].
  - apply Exists_exists in E as (v & I & N).
  left.
  split; [now exists v|].
  apply mapM_panic.
  + intros [[?|?|?|?] ?] _; discriminate.
  + exists v.
  split; [exact I|].
  destruct v as [[s|z|x|b] t]; try reflexivity.
  exfalso.
  apply N.
  now exists s, t.
  - right.
  split.
  + intros (v & I & N).
  apply E, Exists_exists.
  now exists v.
  + apply mapM_ok.
  intros v I.
  destruct (is_string_dec v) as [(s & t & ->)|N]; [eauto|].
  exfalso.
  apply E, Exists_exists.
  now exists v.
Qed.

(** An enum without variants: no accepted schema has one. *)
Definition empty_enum (ast : list ast_node) : Prop := exists e, In (NEnum e) ast /\ en_items e = [].

Lemma rust_models_result ast : (empty_enum ast /\ RustGen.generate_models ast = Panic)
  \/ (~ empty_enum ast /\ exists s, RustGen.generate_models ast = Ok s).
Proof.
  set (p := fun n => match n with NEnum e => en_items e = [] | _ => False end).
  assert (D : forall n, {p n} + {~ p n}).
  { intros [[i [|x l]]|?|?|?|?]; cbn; auto; right; discriminate.
  }
  unfold RustGen.generate_models.
  destruct (Exists_dec p ast D) as [E|E].
  - apply Exists_exists in E as (n & I & N).
  left.
  destruct n as [e|?|?|?|?]; try now destruct N.
  split; [now exists e|].
  rewrite mapM_panic; [reflexivity| |].
  + intros [f|?|?|?|?] _; try discriminate.
  unfold RustGen.generate_enum_model.
  destruct (en_items f); discriminate.
  + exists (NEnum e).
  split; [exact I|].
  unfold RustGen.generate_enum_model.
  cbn in N.
  now rewrite N.
  - right.
  split.
  + intros (e & I & N).
  apply E, Exists_exists.
  exists (NEnum e).
  auto.
  + destruct (mapM_ok (fun node => match node with
        | NEnum node => let* s := RustGen.generate_enum_model node in Ok [Writeln s]
        | NStruct node => Ok [Writeln (RustGen.generate_struct_model node true)]
        | _ => Ok [] end) ast) as (ys & M).
  * intros [f|?|?|?|?] I; eauto.
  unfold RustGen.generate_enum_model.
  destruct (en_items f) eqn:F; [|eexists; reflexivity].
  exfalso.
  apply E, Exists_exists.
  now exists (NEnum f).
  * rewrite M.
  eexists.
  reflexivity.
Qed.

Lemma rust_rpc_result ast : (declares_method ast /\ ~ has_string ast "id" /\ RustGen.generate_rpc ast = Panic)
  \/ (~ (declares_method ast /\ ~ has_string ast "id") /\ exists s, RustGen.generate_rpc ast = Ok s).
Proof.
  unfold RustGen.generate_rpc.
  destruct (RustGen.has_rpc_methods ast) eqn:H.
  - apply has_rpc_declares in H.
  unfold RustGen.generate_register_fn.
  destruct (find_directive_value ast "id") as [[[s|z|x|b] t]|] eqn:F.
  2,3,4,5: left; split; [exact H|]; split; [rewrite has_string_find, F; intros (? & ? & ?); discriminate|reflexivity].
  right.
  split; [|eexists; reflexivity].
  intros [_ N].
  apply N, has_string_find.
  rewrite F.
  eauto.
  - right.
  split; [|eauto].
  intros [D _].
  apply has_rpc_declares in D.
  congruence.
Qed.

(** Rust, for every list of declarations. *)
Definition rust_failure (ast : list ast_node) (models rpc : bool) : Prop :=
  bad_group ast "rust" "use" \/ (models = true /\ empty_enum ast)
  \/ (rpc = true /\ declares_method ast /\ ~ has_string ast "id").

Lemma rust_result ast models buffers rpc :
  (rust_failure ast models rpc /\ RustGen.rust_generate ast models buffers rpc = Panic)
  \/ (~ rust_failure ast models rpc /\ exists s, RustGen.rust_generate ast models buffers rpc = Ok s).
Proof.
  unfold rust_failure, RustGen.rust_generate.
  destruct (uses_result ast) as [[U ->]|[U (u & ->)]]; [left; auto|].
  cbn [bind].
  destruct models; [destruct (rust_models_result ast) as [[M ->]|[M (m & ->)]]; [left; split; [tauto|reflexivity]|]|];
    (destruct rpc; [destruct (rust_rpc_result ast) as [(D & N & ->)|[R (r & ->)]]; [left; split; [tauto|reflexivity]|]|]); cbn [bind];
    right; (split; [|eexists; reflexivity]); intros [H|[[H1 H2]|[H1 [H2 H3]]]]; try discriminate; tauto.
Qed.

Lemma lem_C15_rust_fails_exactly : forall ts ast models buffers rpc, parse ts = Ok ast ->
  RustGen.rust_generate ast models buffers rpc = Panic
  <-> bad_group ast "rust" "use" \/ (rpc = true /\ declares_method ast /\ ~ has_string ast "id").
Proof.
  intros ts ast m b r P.
  assert (E : ~ empty_enum ast) by (intros (e & I & N); exact (lem_C14_enums_have_variants ts ast e P I N)).
  destruct (rust_result ast m b r) as [[F ->]|[F (s & ->)]]; unfold rust_failure in F; split; intros H; try discriminate; tauto.
Qed.

Lemma lem_C15_rust_succeeds_otherwise : forall ts ast models buffers rpc, parse ts = Ok ast ->
  RustGen.rust_generate ast models buffers rpc <> Panic ->
  exists s, RustGen.rust_generate ast models buffers rpc = Ok s.
Proof.
  intros ts ast m b r P H.
  destruct (rust_result ast m b r) as [[_ E]|[_ E]]; [contradiction|exact E].
Qed.

(** *** Dart *)
Lemma sized_read t : sized t -> exists s, DartGen.generate_read t = Ok s.
Proof.
  destruct t as [n s g|n s|n|n|n l|n]; cbn.
  - intros [(_ & -> & _)|[(_ & -> & _)|[(_ & -> & _)|[(_ & -> & _)|[(_ & -> & _)|(_ & -> & _)]]]]]; eauto.
  - intros [[_ ->]|[_ ->]]; eauto.
  - eauto.
  - eauto.
  - intros _.
  destruct (DartGen.vec_element n l); eauto.
  - eauto.
Qed.

Lemma sized_write t a : sized t -> exists s, DartGen.generate_write t a = Ok s.
Proof.
  destruct t as [n s g|n s|n|n|n l|n]; cbn.
  - intros [(_ & -> & _)|[(_ & -> & _)|[(_ & -> & _)|[(_ & -> & _)|[(_ & -> & _)|(_ & -> & _)]]]]]; eauto.
  - intros [[_ ->]|[_ ->]]; eauto.
  - eauto.
  - eauto.
  - intros _.
  destruct (DartGen.vec_element n l); eauto.
  - eauto.
Qed.

Ltac other_codec H :=
  match goal with |- exists s, _ ?t = Ok s => idtac | _ => idtac end;
  match type of H with sized ?t => destruct t as [n s g|n s|n|n|n l|n] end.

Lemma sized_read_emplace t a : sized t -> exists s, DartGen.generate_read_emplace t a = Ok s.
Proof.
  intros S.
  assert (R := sized_read t S).
  destruct R as (r & R).
  destruct t; cbn [DartGen.generate_read_emplace]; rewrite ?R; cbn [bind]; eauto.
  - destruct (DartGen.vec_element id generics); eauto.
  - destruct (String.eqb id "String"); eauto.
Qed.

Lemma sized_write_emplace t a : sized t -> exists s, DartGen.generate_write_emplace t a = Ok s.
Proof.
  intros S.
  assert (R := sized_write t a S).
  destruct R as (r & R).
  destruct t; cbn [DartGen.generate_write_emplace]; rewrite ?R; cbn [bind]; eauto.
  - destruct (DartGen.vec_element id generics); eauto.
  - destruct (String.eqb id "String"); eauto.
Qed.

Lemma sized_skip t : sized t -> exists s, DartGen.generate_read_skip t = Ok s.
Proof.
  intros S.
  assert (R := sized_read t S).
  destruct R as (r & R).
  destruct t; cbn [DartGen.generate_read_skip]; rewrite ?R; cbn [bind]; eauto.
  destruct (DartGen.vec_element id generics); eauto.
Qed.

Lemma sized_skip_emplace t : sized t -> exists s, DartGen.generate_read_skip_emplace t = Ok s.
Proof.
  intros S.
  assert (R := sized_read t S).
  destruct R as (r & R).
  destruct t; cbn [DartGen.generate_read_skip_emplace]; rewrite ?R; cbn [bind]; eauto.
  - destruct (DartGen.vec_element id generics); eauto.
  - destruct (String.eqb id "String"); eauto.
Qed.

Definition fine {A} (r : res A) : Prop := exists a, r = Ok a.

Lemma fine_ok {A} (a : A) : fine (Ok a).
Proof.
  now exists a.
Qed.

Lemma fine_app a b : fine a -> fine b -> fine (DartGen.rapp a b).
Proof.
  intros (x & ->) (y & ->).
  eexists.
  reflexivity.
Qed.

Lemma fine_bind {A B} (r : res A) (f : A -> res B) : fine r -> (forall a, fine (f a)) -> fine (bind r f).
Proof.
  intros (x & ->) H.
  apply H.
Qed.

Lemma fine_flat {A} (f : A -> DartGen.rops) l : (forall x, In x l -> fine (f x)) -> fine (DartGen.rflat f l).
Proof.
  intros H.
  unfold DartGen.rflat.
  destruct (mapM_ok f l H) as (y & ->).
  eexists.
  reflexivity.
Qed.

Lemma fine_show r : fine r -> fine (DartGen.rshow r).
Proof.
  intros (x & ->).
  eexists.
  reflexivity.
Qed.

Lemma fine_line n r : fine r -> fine (DartGen.rline n r).
Proof.
  intros (x & ->).
  eexists.
  reflexivity.
Qed.

Ltac fine :=
  repeat (intros; first [ apply fine_ok | assumption | apply fine_show | apply fine_app | apply fine_flat | apply fine_line
        | apply sized_read | apply sized_write | apply sized_read_emplace | apply sized_write_emplace
        | apply sized_skip | apply sized_skip_emplace | apply fine_bind
        | match goal with |- fine (if ?b then _ else _) => destruct b end
        | match goal with |- fine (match ?b with Some _ => _ | None => _ end) => destruct b end ]).

Definition fields_sized (l : list struct_field) : Prop := forall f, In f l -> sized (sf_type f).

Lemma into_fine n : fields_sized (sn_fields n) -> fine (DartGen.generate_struct_into_buffers n).
Proof.
  intros S.
  unfold fields_sized in S.
  unfold DartGen.generate_struct_into_buffers, DartGen.generate_struct_into_buffers_read,
    DartGen.generate_struct_into_buffers_write, DartGen.generate_struct_into_buffers_skip, DartGen.struct_skip.
  fine; now apply S.
Qed.

Lemma emplace_fine n : fields_sized (sn_fields n) -> fine (DartGen.generate_struct_emplace_buffers n).
Proof.
  intros S.
  unfold fields_sized in S.
  unfold DartGen.generate_struct_emplace_buffers, DartGen.generate_struct_emplace_buffers_read,
    DartGen.generate_struct_emplace_buffers_write, DartGen.generate_struct_emplace_buffers_skip, DartGen.struct_skip.
  fine; now apply S.
Qed.

Lemma enumerate_from_in {A} (l : list A) : forall k i x, In (i, x) (enumerate_from k l) -> In x l.
Proof.
  induction l as [|y l IH]; intros k i x; cbn; [tauto|].
  intros [[= _ ->]|I]; [auto|].
  right.
  eapply IH; eassumption.
Qed.

Lemma item_sized e i : (forall t, In t (item_types i) -> sized t) -> fields_sized (sn_fields (DartGen.create_enum_item_struct_ast_node e i)).
Proof.
  intros S f.
  destruct i as [p n|p n l|p n l]; cbn [DartGen.create_enum_item_struct_ast_node sn_fields item_types] in *.
  - intros [].
  - intros I.
  apply in_map_iff in I as ([k x] & <- & I).
  cbn.
  apply S, in_map.
  cbn [snd].
  eapply enumerate_from_in; exact I.
  - intros I.
  now apply S, in_map.
Qed.

Lemma buffers_fine ast : (forall n t, In n ast -> In t (decl_types n) -> sized t) -> fine (DartGen.generate_buffers ast).
Proof.
  intros S.
  unfold DartGen.generate_buffers.
  apply fine_bind; [|fine].
  apply fine_flat.
  intros n I.
  specialize (S n).
  destruct n as [e|s|f|d|c]; try apply fine_ok.
  - apply fine_bind; [|fine].
  unfold DartGen.generate_enum_buffers.
  apply fine_show, fine_app; [|apply fine_ok].
  apply fine_flat.
  intros x Hx.
  apply fine_bind; [|fine].
  apply emplace_fine, item_sized.
  intros t J.
  apply (S t I).
  cbn.
  apply in_flat_map.
  eauto.
  - apply fine_bind; [|fine].
  unfold DartGen.generate_struct_buffers.
  assert (F : fields_sized (sn_fields s)) by (intros f J; apply (S _ I); cbn; now apply in_map).
  apply fine_show, fine_app; [destruct (sn_emplace s)|destruct (sn_into s)]; try apply fine_ok; (apply fine_bind; [|fine]);
      [now apply emplace_fine|now apply into_fine].
Qed.

Lemma method_fine f : (forall t, In t (decl_types (NFn f)) -> sized t) -> fine (DartGen.generate_method f).
Proof.
  intros S.
  cbn [decl_types] in S.
  assert (A : forall a, In a (fn_args f) -> sized (fa_type a)) by (intros a I; apply S, in_or_app; left; now apply in_map).
  assert (R : forall t, fn_return f = Some t -> sized t) by (intros t E; rewrite E in S; apply S, in_or_app; right; now left).
  unfold DartGen.generate_method, DartGen.generate_read_rpc_method, DartGen.generate_async_rpc_method, DartGen.generate_async_rpc_connect_method,
    DartGen.generate_sync_rpc_method, DartGen.write_args.
  destruct (fn_return f) as [t|] eqn:F; fine; auto.
Qed.

Lemma dart_models_result ast : (empty_enum ast /\ DartGen.generate_models ast = Panic)
  \/ (~ empty_enum ast /\ fine (DartGen.generate_models ast)).
Proof.
  set (p := fun n => match n with NEnum e => en_items e = [] | _ => False end).
  assert (D : forall n, {p n} + {~ p n}).
  { intros [[i [|x l]]|?|?|?|?]; cbn; auto; right; discriminate.
  }
  unfold DartGen.generate_models.
  destruct (Exists_dec p ast D) as [E|E].
  - apply Exists_exists in E as (n & I & N).
  left.
  destruct n as [e|?|?|?|?]; try now destruct N.
  split; [now exists e|].
  unfold DartGen.rflat.
  rewrite mapM_panic; [reflexivity| |].
  + intros [f|?|?|?|?] _; try discriminate.
  unfold DartGen.generate_enum_model.
  destruct (en_items f); discriminate.
  + exists (NEnum e).
  split; [exact I|].
  unfold DartGen.generate_enum_model.
  cbn in N.
  now rewrite N.
  - right.
  split.
  + intros (e & I & N).
  apply E, Exists_exists.
  exists (NEnum e).
  auto.
  + apply fine_bind; [|fine].
  apply fine_flat.
  intros [f|?|?|?|?] I; fine.
  unfold DartGen.generate_enum_model.
  destruct (en_items f) eqn:F; [|apply fine_ok].
  exfalso.
  apply E, Exists_exists.
  now exists (NEnum f).
Qed.

Lemma required_result ast k : (~ has_string ast k /\ DartGen.required_string ast k = Panic)
  \/ (has_string ast k /\ fine (DartGen.required_string ast k)).
Proof.
  rewrite has_string_find.
  unfold DartGen.required_string.
  destruct (find_directive_value ast k) as [[[s|z|x|b] t]|].
  - right.
  split; [eauto|apply fine_ok].
  - left.
  split; [intros (? & ? & ?); discriminate|reflexivity].
  - left.
  split; [intros (? & ? & ?); discriminate|reflexivity].
  - left.
  split; [intros (? & ? & ?); discriminate|reflexivity].
  - left.
  split; [intros (? & ? & ?); discriminate|reflexivity].
Qed.

Definition dart_rpc_failure (ast : list ast_node) : Prop :=
  declares_method ast /\ (~ has_string ast "namespace" \/ ~ has_string ast "id").

Lemma in_find_fn ast f : In f (find_fn_nodes ast) -> In (NFn f) ast.
Proof.
  induction ast as [|x ast IH]; cbn; [tauto|].
  destruct x; cbn; auto.
  intros [->|I]; auto.
Qed.

Lemma dart_rpc_result ast : (forall n t, In n ast -> In t (decl_types n) -> sized t) ->
  (dart_rpc_failure ast /\ DartGen.generate_rpc ast = Panic) \/ (~ dart_rpc_failure ast /\ fine (DartGen.generate_rpc ast)).
Proof.
  intros S.
  unfold DartGen.generate_rpc, DartGen.generate_rpc_methods, dart_rpc_failure.
  rewrite declares_find.
  destruct (find_fn_nodes ast) as [|f fs] eqn:F.
  - right.
  split; [tauto|].
  cbn [bind].
  apply fine_ok.
  - destruct (required_result ast "namespace") as [[N ->]|[N (ns & ->)]]; [left; split; [split; [discriminate|auto]|reflexivity]|].
  destruct (required_result ast "id") as [[M ->]|[M (i & ->)]]; [left; split; [split; [discriminate|auto]|reflexivity]|].
  right.
  split; [tauto|].
  cbn [bind].
  apply fine_bind; [|fine].
  apply fine_show, fine_app; [apply fine_ok|].
  apply fine_app; [|apply fine_ok].
  apply fine_flat.
  intros x Hx.
  apply fine_bind; [|fine].
  apply method_fine.
  intros t J.
  apply (S (NFn x)); [|exact J].
  apply in_find_fn.
  rewrite F.
  assumption.
Qed.

Lemma dart_result ast models buffers rpc : (forall n t, In n ast -> In t (decl_types n) -> sized t) -> ~ empty_enum ast ->
  ((bad_group ast "dart" "import" \/ (rpc = true /\ dart_rpc_failure ast)) /\ DartGen.dart_generate ast models buffers rpc = Panic)
  \/ (~ (bad_group ast "dart" "import" \/ (rpc = true /\ dart_rpc_failure ast)) /\ fine (DartGen.dart_generate ast models buffers rpc)).
Proof.
  intros S N.
  unfold DartGen.dart_generate.
  unfold DartGen.rapp at 1.
  destruct (imports_result ast) as [[U ->]|[U (u & ->)]]; [left; auto|].
  destruct (dart_models_result ast) as [[M _]|[_ (m & M)]]; [contradiction|].
  rewrite M.
  destruct (buffers_fine ast S) as (b & B).
  rewrite B.
  destruct rpc; [destruct (dart_rpc_result ast S) as [(D & ->)|[R (r & ->)]]|].
  - left.
  split; [auto|].
  destruct (contains_consts_nodes ast), models, buffers; reflexivity.
  - right.
  split; [tauto|].
  destruct (contains_consts_nodes ast), models, buffers; eexists; reflexivity.
  - right.
  split; [intros [H|[H _]]; [tauto|discriminate]|].
  destruct (contains_consts_nodes ast), models, buffers; eexists; reflexivity.
Qed.

Lemma lem_C16_dart_fails_exactly : forall ts ast models buffers rpc, parse ts = Ok ast ->
  DartGen.dart_generate ast models buffers rpc = Panic
  <-> bad_group ast "dart" "import"
      \/ (rpc = true /\ declares_method ast /\ (~ has_string ast "namespace" \/ ~ has_string ast "id")).
Proof.
  intros ts ast m b r P.
  assert (E : ~ empty_enum ast) by (intros (e & I & N); exact (lem_C14_enums_have_variants ts ast e P I N)).
  destruct (dart_result ast m b r (fun n t => lem_C14_types_are_sized ts ast n t P) E) as [[F ->]|[F (s & ->)]];
    unfold dart_rpc_failure in F; split; intros H; try discriminate; tauto.
Qed.

Lemma lem_C16_dart_succeeds_otherwise : forall ts ast models buffers rpc, parse ts = Ok ast ->
  DartGen.dart_generate ast models buffers rpc <> Panic ->
  exists s, DartGen.dart_generate ast models buffers rpc = Ok s.
Proof.
  intros ts ast m b r P H.
  assert (E : ~ empty_enum ast) by (intros (e & I & N); exact (lem_C14_enums_have_variants ts ast e P I N)).
  destruct (dart_result ast m b r (fun n t => lem_C14_types_are_sized ts ast n t P) E) as [[_ F]|[_ F]]; [contradiction|exact F].
Qed.

(** ** C37: a failed run *)
Lemma translate_no_nofuel c l a b d : translate c l a b d <> NoFuel.
Proof.
  unfold translate.
  destruct (compile_front c) as [ast| |] eqn:F; cbn [bind]; [|discriminate|].
  - unfold compile_front in F.
  destruct (tokenize c) as [ts| |]; try discriminate.
  cbn [bind] in F.
  assert (E : ~ empty_enum ast) by (intros (e & I & N); exact (lem_C14_enums_have_variants ts ast e F I N)).
  destruct l.
  + destruct (rust_result ast (negb a) (negb b) (negb d)) as [[_ ->]|[_ (s & ->)]]; discriminate.
  + destruct (dart_result ast (negb a) (negb b) (negb d) (fun n t => lem_C14_types_are_sized ts ast n t F) E) as [[_ ->]|[_ (s & ->)]]; discriminate.
  - intros _.
  exact (lem_C08_front_end_finishes c F).
Qed.

(** The text to write exists: the input is readable UTF-8 and none of the stages panics. *)
Definition translates (w : world) (input : string) (l : lang) (sm sb sr : bool) (data : string) : Prop :=
  exists contents, w_files w input = Some contents /\ valid_utf8 contents = true /\ translate contents l sm sb sr = Ok data.

Lemma lem_C37_nothing_written_before_success : forall input output l sm sb sr w o w',
  generate input output l sm sb sr w = (o, w') -> (forall data, ~ translates w input l sm sb sr data) ->
  w' = w /\ (o = IoError \/ o = Panicked).
Proof.
  intros i p l sm sb sr w o w' G N.
  unfold generate in G.
  unfold translates in N.
  destruct (w_files w i) as [c|]; [|injection G as <- <-; auto].
  destruct (valid_utf8 c) eqn:V; [|injection G as <- <-; auto].
  assert (NF := translate_no_nofuel c l sm sb sr).
  destruct (translate c l sm sb sr) as [d| |] eqn:T; [|injection G as <- <-; auto|contradiction].
  exfalso.
  apply (N d).
  now exists c.
Qed.

Lemma lem_C37_output_of_a_run : forall input output l sm sb sr w o w' data,
  generate input output l sm sb sr w = (o, w') -> translates w input l sm sb sr data ->
  if String.eqb output "-" then o = Done /\ w_out w' = (w_out w ++ utf8_encode data ++ nl)%string /\ w_files w' = w_files w
  else if w_creatable w output then
    match w_capacity w output with
    | None => o = Done /\ w_files w' output = Some (utf8_encode data)
    | Some n => o = IoError /\ w_files w' output = Some (substring 0 n (utf8_encode data))
    end /\ w_out w' = w_out w
  else o = IoError /\ w' = w.
Proof.
  intros i p l sm sb sr w o w' d G (c & F & V & T).
  unfold generate in G.
  rewrite F, V, T in G.
  unfold emit in G.
  destruct (String.eqb p "-"); [injection G as <- <-; cbn; auto|].
  destruct (w_creatable w p); [|injection G as <- <-; auto].
  cbn [w_capacity set_file] in G.
  destruct (w_capacity w p); injection G as <- <-; cbn; rewrite String.eqb_refl; auto.
Qed.

Lemma lem_C37_other_files_untouched : forall input output l sm sb sr w o w' p,
  generate input output l sm sb sr w = (o, w') -> p <> output -> w_files w' p = w_files w p.
Proof.
  intros i q l sm sb sr w o w' p G N.
  unfold generate, emit in G.
  destruct (w_files w i); [|injection G as <- <-; auto].
  destruct (valid_utf8 _); [|injection G as <- <-; auto].
  destruct (translate _ l sm sb sr); [|injection G as <- <-; auto..].
  destruct (String.eqb q "-"); [injection G as <- <-; auto|].
  destruct (w_creatable w q); [|injection G as <- <-; auto].
  cbn [w_capacity set_file] in G.
  destruct (w_capacity w q); injection G as <- <-; cbn; apply String.eqb_neq in N; rewrite N; auto.
Qed.

Lemma lem_C37_failed_run : forall input output l sm sb sr w o w',
  generate input output l sm sb sr w = (o, w') -> o <> Done -> w_files w' output <> w_files w output ->
  exists data n, translates w input l sm sb sr data /\ w_creatable w output = true /\ w_capacity w output = Some n
    /\ w_files w' output = Some (substring 0 n (utf8_encode data)).
Proof.
  intros i p l sm sb sr w o w' G N D.
  assert (H : (exists data, translates w i l sm sb sr data) \/ forall data, ~ translates w i l sm sb sr data).
  { unfold translates.
  destruct (w_files w i) as [c|]; [|right; intros d (? & ? & _); discriminate].
  destruct (valid_utf8 c) eqn:V; [|right; intros d (? & [= <-] & ? & _); congruence].
  destruct (translate c l sm sb sr) as [d| |] eqn:T; [left; eauto|right; intros d (? & [= <-] & _ & ?); congruence..].
  }
  destruct H as [(d & T)|H].
  - assert (E := lem_C37_output_of_a_run _ _ _ _ _ _ _ _ _ _ G T).
  destruct (String.eqb p "-"); [destruct E as (-> & _ & _); congruence|].
  destruct (w_creatable w p) eqn:C; [|destruct E as [_ ->]; congruence].
  destruct (w_capacity w p) as [n|]; [|destruct E as [[-> _] _]; congruence].
  exists d, n.
  repeat split; tauto.
  - destruct (lem_C37_nothing_written_before_success _ _ _ _ _ _ _ _ _ G H) as [-> _].
  congruence.
Qed.

Definition example_world : world :=
  mk_world (fun p => if String.eqb p "a" then Some "struct A { x: i32 }" else if String.eqb p "b" then Some "struct {" else
                     if String.eqb p "o" then Some "old" else None) "" (fun p => negb (String.eqb p "locked"))
    (fun p => if String.eqb p "full" then Some 5 else None).

(** ** C38: batches *)
Record job := mk_job { j_input : string; j_output : string; j_lang : lang; j_models : bool; j_buffers : bool; j_rpc : bool }.

Definition run_job (j : job) (w : world) : outcome * world :=
  generate (j_input j) (j_output j) (j_lang j) (j_models j) (j_buffers j) (j_rpc j) w.

Definition job_of (dir : string) (l : lang) (p : yaml_params) : job :=
  mk_job (path_join dir (yp_src p)) (path_join dir (yp_dest p)) l (yp_skip_models p) (yp_skip_buffers p) (yp_skip_rpc p).

(** The entries of a configuration: Rust before Dart, in list order. *)
Definition jobs (dir : string) (d : yaml_data) : list job :=
  map (job_of dir Rust) (option_list (yd_rust d)) ++ map (job_of dir Dart) (option_list (yd_dart d)).

(** All jobs of the list succeed, one after the other. *)
Inductive succeed : world -> list job -> world -> Prop :=
| succeed_nil w : succeed w [] w
| succeed_cons w j w1 js w2 : run_job j w = (Done, w1) -> succeed w1 js w2 -> succeed w (j :: js) w2.

Definition stops (w : world) (js : list job) (o : outcome) (w' : world) : Prop :=
  (o = Done /\ succeed w js w')
  \/ exists before j after w1, js = before ++ j :: after /\ succeed w before w1 /\ run_job j w1 = (o, w') /\ o <> Done.

Lemma run_items_stops dir l items : forall w o w', run_items dir l items w = (o, w') -> stops w (map (job_of dir l) items) o w'.
Proof.
  induction items as [|p items IH]; intros w o w' R; cbn [run_items] in R.
  - injection R as <- <-.
  left.
  split; [reflexivity|constructor].
  - change (generate _ _ _ _ _ _ w) with (run_job (job_of dir l p) w) in R.
  destruct (run_job (job_of dir l p) w) as [o1 w1] eqn:G.
  assert (CASE : o1 = Done \/ o1 <> Done) by (destruct o1; auto; right; discriminate).
  destruct CASE as [->|N].
  + destruct (IH _ _ _ R) as [[-> S]|(b & j & a & w2 & E & S & J & N)].
  * left.
  split; [reflexivity|].
  econstructor; eassumption.
  * right.
  exists (job_of dir l p :: b), j, a, w2.
  split; [cbn [map]; now rewrite E|].
  split; [econstructor; eassumption|auto].
  + right.
  exists [], (job_of dir l p), (map (job_of dir l) items), w.
  split; [reflexivity|].
  split; [constructor|].
  destruct o1; try contradiction; injection R as <- <-; auto.
Qed.

Lemma succeed_app w a w1 b w2 : succeed w a w1 -> succeed w1 b w2 -> succeed w (a ++ b) w2.
Proof.
  induction 1 as [|w j w' js w2' G _ IH]; intros S; [exact S|].
  cbn [app].
  econstructor; [exact G|now apply IH].
Qed.

Lemma lem_C38_stops_at_the_first_failure : forall dir data w o w',
  run_yaml dir data w = (o, w') -> stops w (jobs dir data) o w'.
Proof.
  intros dir data w o w' R.
  unfold run_yaml in R.
  destruct (run_items dir Rust (option_list (yd_rust data)) w) as [o1 w1] eqn:R1.
  apply run_items_stops in R1.
  unfold jobs.
  destruct R1 as [[-> S]|(b & j & a & w2 & E & S & J & N)].
  - apply run_items_stops in R.
  destruct R as [[-> S2]|(b & j & a & w2 & E & S2 & J & N)].
  + left.
  split; [reflexivity|].
  eapply succeed_app; eassumption.
  + right.
  exists (map (job_of dir Rust) (option_list (yd_rust data)) ++ b), j, a, w2.
  rewrite E, <- app_assoc.
  split; [reflexivity|].
  split; [eapply succeed_app; eassumption|auto].
  - right.
  exists b, j, (a ++ map (job_of dir Dart) (option_list (yd_dart data))), w2.
  rewrite E, <- app_assoc.
  split; [reflexivity|].
  split; [exact S|].
  destruct o1; try contradiction; injection R as <- <-; auto.
Qed.

Lemma succeed_files w js w' : succeed w js w' -> forall p, ~ In p (map j_output js) -> w_files w' p = w_files w p.
Proof.
  induction 1 as [|w j w1 js w2 G _ IH]; intros p N; [reflexivity|].
  rewrite IH.
  - eapply lem_C37_other_files_untouched; [exact G|].
  intros ->.
  apply N.
  now left.
  - intros I.
  apply N.
  now right.
Qed.

Lemma lem_C38_later_outputs_untouched : forall dir data w o w' before j after w1 p,
  run_yaml dir data w = (o, w') -> jobs dir data = before ++ j :: after ->
  succeed w before w1 -> run_job j w1 = (o, w') -> o <> Done ->
  ~ In p (map j_output (before ++ [j])) -> w_files w' p = w_files w p.
Proof.
  intros dir data w o w' b j a w1 p _ _ S J _ N.
  transitivity (w_files w1 p).
  - eapply lem_C37_other_files_untouched; [exact J|].
  intros ->.
  apply N.
  rewrite map_app, in_app_iff.
  cbn.
  auto.
  - eapply succeed_files; [exact S|].
  intros I.
  apply N.
  rewrite map_app, in_app_iff.
  auto.
Qed.

Lemma lem_C38_earlier_outputs_written : forall w b1 j b2 w', succeed w (b1 ++ j :: b2) w' ->
  j_output j <> "-" -> ~ In (j_output j) (map j_output b2) -> ~ In (j_input j) (map j_output b1) ->
  exists data, translates w (j_input j) (j_lang j) (j_models j) (j_buffers j) (j_rpc j) data
    /\ w_files w' (j_output j) = Some (utf8_encode data).
Proof.
  intros w b1 j b2 w' S D L I.
  revert w S.
  induction b1 as [|k b1 IH]; cbn [app]; intros w S; inversion S as [|? ? w1 ? ? G S']; subst.
  - assert (T : exists data, translates w (j_input j) (j_lang j) (j_models j) (j_buffers j) (j_rpc j) data).
  { unfold run_job, generate in G.
  unfold translates.
  destruct (w_files w (j_input j)) as [c|]; [|discriminate].
  destruct (valid_utf8 c) eqn:V; [|discriminate].
  destruct (translate c _ _ _ _) eqn:T; try discriminate.
  eauto.
  }
    destruct T as (d & T).
  exists d.
  split; [exact T|].
  assert (E := lem_C37_output_of_a_run _ _ _ _ _ _ _ _ _ _ G T).
  apply String.eqb_neq in D.
  rewrite D in E.
  destruct (w_creatable w (j_output j)); [|destruct E; discriminate].
  destruct (w_capacity w (j_output j)); [destruct E as [[E _] _]; discriminate|].
  destruct E as [[_ E] _].
  rewrite <- E.
  eapply succeed_files; eassumption.
  - destruct (IH ltac:(intros H; apply I; now right) _ S') as (d & (c & F & V & T) & W).
  exists d.
  split; [|exact W].
  exists c.
  split; [|auto].
  rewrite <- F.
  symmetry.
  eapply lem_C37_other_files_untouched; [exact G|].
  intros E.
  apply I.
  now left.
Qed.
