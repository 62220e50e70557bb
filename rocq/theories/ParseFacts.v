(** Lemmas behind the theorems of PropertiesParse.v. *)

(** Property theorems about the parser: C07 - C14, and C45 on float literals.  After each theorem,
    a concrete case that meets its hypotheses, and its axioms. *)
Require Import Coq.Strings.String Coq.Strings.Ascii.
Require Import Coq.NArith.NArith Coq.ZArith.ZArith Coq.QArith.QArith Coq.Lists.List Coq.Logic.FinFun Coq.Bool.Bool Coq.micromega.Lia.
Require Import Verif.Base Verif.F64 Verif.F64Spec Verif.F64Proofs Verif.NumText Verif.Ast Verif.Lexer
  Verif.LexSpec Verif.LexProofs Verif.LexMore Verif.LexFacts Verif.Parser Verif.Grammar Verif.GrammarMore
  Verif.ParseProofs Verif.Printer Verif.PrintProofs Verif.Positions Verif.TextPrinter Verif.Names.
Import ListNotations.
Local Open Scope string_scope.
Local Open Scope list_scope.

(** ** C07: what becomes of stray symbols *)
(** The symbols that stand for themselves in the schema language; a tab and a slash are not among
    them. *)
Definition language_symbols : list ascii :=
  ["{"; "}"; "("; ")"; "["; "]"; "<"; ">"; "#"; ":"; ";"; ","; "="; "-"]%char.

(** The only place where another symbol is accepted is that of the closing parenthesis of a
    directive group: [#[name(a = 1, b = 2 c]]. *)
Definition stands_for_parenthesis (t : token) (us : toks) : Prop :=
  exists before n inside after,
    us = before ++ TSym "#" :: TSym "[" :: TId n :: TSym "(" :: inside ++ t :: TSym "]" :: after
    /\ forall c, In (TSym c) inside -> In c language_symbols.

Lemma lem_C07_foreign_symbol : forall s ts l c, tokenize s = Ok ts -> parse ts = Ok l ->
  In (TSym c) ts -> ~ In c language_symbols -> stands_for_parenthesis (TSym c) ts.
Proof.
  intros s ts l c T P I NI.
  destruct (tokenize_eof s ts T) as (us & -> & NE).
  apply parse_iff_grammar in P.
  apply in_app_or in I.
  destruct I as [I|[I|[]]]; [|discriminate].
  destruct (schema_tokens _ _ _ P us eq_refl NE) as (ps & -> & F & _).
  apply in_concat in I as (p & IP & IC).
  apply in_split in IP as (p1 & p2 & ->).
  rewrite Forall_app in F.
  destruct F as [_ F].
  inversion F as [|? ? D _]; subst.
  destruct (foreign_symbol c NI p D IC) as (n & q & CL & ->).
  exists (concat p1), n, q, (concat p2 ++ [TEOF]).
  split.
  - rewrite concat_app.
  cbn [concat].
  rewrite <- !app_assoc.
  cbn.
  rewrite <- !app_assoc.
  reflexivity.
  - intros d J.
  unfold clean in CL.
  rewrite Forall_forall in CL.
  exact (CL _ J).
Qed.

Lemma lem_C07_tab_is_rejected : forall s ts, tokenize s = Ok ts -> In (TSym tab) ts ->
  ~ In (TSym "(") ts -> parse ts = Panic.
Proof.
  intros s ts T I N.
  apply parse_panic.
  intros l P.
  apply parse_iff_grammar in P.
  destruct (lem_C07_foreign_symbol s ts l tab T P I) as (b & n & q & a & -> & _).
  - cbn.
  intuition discriminate.
  - apply N.
  apply in_or_app.
  right.
  cbn.
  tauto.
Qed.

Lemma lem_C07_tab_is_rejected_refuted : exists s ts l,
  tokenize s = Ok ts /\ In (TSym tab) ts /\ parse ts = Ok l.
Proof.
  exists ("#[rust(use = ""x""" ++ String tab "]")%string.
  eexists.
  eexists.
  split; [reflexivity|].
  split; [cbn; tauto|reflexivity].
Qed.

Lemma lem_C08_parse_finishes : forall ts, parse ts <> NoFuel.
Proof.
  exact parse_terminates.
Qed.

Lemma lem_C08_front_end_finishes : forall src, compile_front src <> NoFuel.
Proof.
  intros src.
  unfold compile_front.
  destruct (tokenize src) as [ts| |] eqn:E; cbn [bind].
  - apply parse_terminates.
  - discriminate.
  - exfalso.
  destruct (tokenize_shape src) as [E'|(us & E' & _)]; congruence.
Qed.

Lemma lem_C09_tokens_round_trip : forall st l, wf_schema 0 l -> parse (print_schema st l) = Ok l.
Proof.
  intros st l W.
  apply parse_iff_grammar.
  now apply print_schema_g.
Qed.

(** A text for a schema: every token in a standard spelling, followed by the blank [b]. *)
Definition schema_text (b : string) (st : style) (l : list ast_node) : string :=
  spaced b (flat_map (print_decl st) l).

Lemma lem_C09_text_round_trip : forall b st l, separator b -> wf_schema 0 l ->
  Forall is_name (schema_names l) -> Forall writable_literal (schema_literals l) ->
  compile_front (schema_text b st l) = Ok l.
Proof.
  intros b st l B W NM L.
  unfold compile_front, schema_text.
  rewrite (tokenize_reads _ _ _ (spaced_reads b _ B (print_schema_writable st l NM L))).
  cbn [tokenize bind].
  change (tokenize "") with (Ok [TEOF]).
  cbn [bind].
  now apply lem_C09_tokens_round_trip.
Qed.

Lemma lem_C09_accepted_is_printable : forall ts l st, parse ts = Ok l ->
  wf_schema 0 l /\ parse (print_schema st l) = Ok l.
Proof.
  intros ts l st P.
  assert (W : wf_schema 0 l) by (apply (schema_wf 0 ts), parse_iff_grammar, P).
  split; [assumption|].
  now apply lem_C09_tokens_round_trip.
Qed.

Lemma lem_C09_reformat : forall src l b st, compile_front src = Ok l -> separator b ->
  (forall z, In (IntLit z) (schema_literals l) -> (0 <= z)%Z) ->
  ~ In (NumberLit F64Inf) (schema_literals l) ->
  compile_front (schema_text b st l) = Ok l.
Proof.
  intros src l b st C B ZP FI.
  unfold compile_front in C.
  destruct (tokenize src) as [ts| |] eqn:T; cbn [bind] in C; try discriminate.
  assert (G := C).
  apply parse_iff_grammar in G.
  destruct (schema_in _ _ _ G) as [IN IL].
  pose proof (tokens_ok src ts T) as OK.
  rewrite Forall_forall in OK.
  apply lem_C09_text_round_trip; [assumption|eapply schema_wf, G| |].
  - apply Forall_forall.
  intros n I.
  exact (OK _ (IN n I)).
  - apply Forall_forall.
  intros x I.
  specialize (OK _ (IL x I)).
  destruct x as [s|z|[m e|]|[]]; cbn in *; auto.
  split; [now apply ZP|apply OK].
Qed.

Definition sample : list ast_node :=
  [NDirective (DirValue "namespace" (ConstLiteral (StringLit "demo") (TyOther "String")));
   NStruct (mk_struct "Unit" [] true true);
   NStruct (mk_struct "Pair" [mk_struct_field 7 "a" (TyGeneric "Vec" [TyGeneric "Option" [TyNumber "f32" 4]]);
                              mk_struct_field 3 "b" (TyInteger "u32" 4 false)] true true);
   NEnum (mk_enum "E" [ItemEmpty 0 "A"; ItemTuple 1 "B" [mk_tuple_field 0 (TyChar "char")];
                       ItemStruct 2 "C" [mk_struct_field 0 "x" (TyOther "Pair")]]);
   NFn (mk_fn "f" 0 [mk_fn_arg "p" (TyOther "Pair")] (Some (TyBool "bool")) false true);
   NFn (mk_fn "g" 1 [] (Some (TyOther "E")) true false);
   NConst (ConstNode "K" [ConstItemValue "k" (TyInteger "u8" 1 false) (ConstLiteral (IntLit 255) (TyInteger "i32" 4 true));
                          ConstItemNode (ConstNode "Inner" [])])].

Lemma lem_C10_exactly_the_grammar : forall ts l, parse ts = Ok l <-> schema_g 0 ts l.
Proof.
  exact parse_iff_grammar.
Qed.

Lemma lem_C10_everything_else_panics : forall ts, parse ts = Panic <-> forall l, ~ schema_g 0 ts l.
Proof.
  intros ts.
  split; [|apply parse_panic].
  intros P l G.
  apply parse_iff_grammar in G.
  congruence.
Qed.

Lemma lem_C10_grammar_is_unambiguous : forall ts l l', schema_g 0 ts l -> schema_g 0 ts l' -> l = l'.
Proof.
  intros ts l l' G G'.
  apply parse_iff_grammar in G, G'.
  congruence.
Qed.

(** ** C11 *)
(** Renumber the methods of a schema by adding [d]. *)
Definition renumber (d : N) : list ast_node -> list ast_node :=
  map (fun n => match n with
                | NFn f => NFn (mk_fn (fn_id f) (fn_position f + d) (fn_args f) (fn_return f) (fn_is_read f) (fn_is_async f))
                | _ => n
                end).

Definition methods (l : list ast_node) : list fn_node :=
  flat_map (fun n => match n with NFn f => [f] | _ => [] end) l.

Lemma count_methods_length l : count_methods l = N.of_nat (length (methods l)).
Proof.
  unfold count_methods.
  f_equal.
  induction l as [|[] l IH]; cbn; auto.
Qed.

Lemma lem_C11_concatenation : forall us1 us2 l1 l2, ~ In TEOF us1 ->
  parse (us1 ++ [TEOF]) = Ok l1 -> parse (us2 ++ [TEOF]) = Ok l2 ->
  parse (us1 ++ us2 ++ [TEOF]) = Ok (l1 ++ renumber (N.of_nat (length (methods l1))) l2).
Proof.
  intros us1 us2 l1 l2 N P1 P2.
  apply parse_iff_grammar in P1, P2.
  apply parse_iff_grammar.
  eapply schema_append; [exact P1|reflexivity|assumption|].
  cbn.
  rewrite count_methods_length.
  apply (schema_shift (N.of_nat (length (methods l1)))) in P2.
  exact P2.
Qed.

Lemma lem_C11_texts : forall s1 s2 us1 us2 l1 l2, reads s1 us1 "" -> reads s2 us2 "" ->
  compile_front s1 = Ok l1 -> compile_front s2 = Ok l2 ->
  compile_front (s1 ++ String (ascii_of_nat 10) s2)
    = Ok (l1 ++ renumber (N.of_nat (length (methods l1))) l2).
Proof.
  intros s1 s2 us1 us2 l1 l2 R1 R2.
  unfold compile_front.
  rewrite (tokenize_reads _ _ _ R1), (tokenize_reads _ _ _ R2), (tokenize_reads _ _ _ (reads_two _ _ _ _ R1 R2)).
  change (tokenize "") with (Ok [TEOF]).
  cbn [bind].
  rewrite <- app_assoc.
  apply lem_C11_concatenation.
  intros I.
  assert (T : tokenize s1 = Ok (us1 ++ [TEOF])) by (rewrite (tokenize_reads _ _ _ R1); reflexivity).
  destruct (tokenize_eof _ _ T) as (us & E & NE).
  apply app_inj_tail in E as [<- _].
  contradiction.
Qed.

(** ** C12 *)
Lemma schema_numbers k l : wf_schema k l ->
  map fn_position (methods l) = map (fun i => k + N.of_nat i)%N (seq 0 (length (methods l))).
Proof.
  revert k.
  induction l as [|n l IH]; intros k W; [reflexivity|].
  destruct W as [W WS].
  destruct n as [e|s|f|d|c]; cbn [is_method] in WS; cbn [methods flat_map app]; try (apply IH; assumption).
  change (flat_map (fun n => match n with NFn f => [f] | _ => [] end) l) with (methods l).
  cbn [map length seq].
  destruct W as [P _].
  f_equal; [rewrite P; lia|].
  rewrite (IH _ WS).
  rewrite <- seq_shift, map_map.
  apply map_ext.
  intros i.
  lia.
Qed.

Lemma lem_C12_method_numbers : forall ts l, parse ts = Ok l ->
  map fn_position (methods l) = map N.of_nat (seq 0 (length (methods l))).
Proof.
  intros ts l P.
  apply parse_iff_grammar, schema_wf, schema_numbers in P.
  rewrite P.
  apply map_ext.
  intros i.
  lia.
Qed.

Lemma lem_C12_method_numbers_distinct : forall ts l, parse ts = Ok l ->
  NoDup (map fn_position (methods l)).
Proof.
  intros ts l P.
  rewrite (lem_C12_method_numbers ts l P).
  apply FinFun.Injective_map_NoDup; [intros a b H; lia|apply seq_NoDup].
Qed.

(** ** C13 *)
(** [write_struct], [write_enum], [write_tuple] (Positions.v) write a declaration with an optional
    position in front of each element. *)
Definition all_none (l : list (option Z)) : Prop := forall o, In o l -> o = None.

Definition all_some (l : list (option Z)) : Prop := forall o, In o l -> o <> None.

Inductive position_rule (l : list (option Z)) : option (list N) -> Prop :=
| pr_implicit : all_none l -> position_rule l (Some (map N.of_nat (seq 0 (length l))))
| pr_explicit : forall zs, l = map Some zs -> l <> [] ->
    position_rule l (Some (map (fun z => Z.to_N (z mod 2 ^ 32)) zs))
| pr_mixed : ~ all_none l -> ~ all_some l -> position_rule l None.

Lemma all_without_none l : all_without l = true <-> all_none l.
Proof.
  unfold all_without, all_none.
  rewrite forallb_forall.
  split; intros H o I; specialize (H o I); destruct o; cbn in *; congruence.
Qed.

Lemma all_with_some l : all_with l = true <-> all_some l.
Proof.
  unfold all_with, all_some.
  rewrite forallb_forall.
  split; intros H o I; specialize (H o I); destruct o; cbn in *; congruence.
Qed.

Lemma assigned_rule l : position_rule l (assigned l).
Proof.
  unfold assigned.
  destruct (all_without l) eqn:W.
  - apply pr_implicit.
  now apply all_without_none.
  - destruct (all_with l) eqn:W'.
  + apply all_with_some in W'.
  assert (E : exists zs, l = map Some zs).
  { clear W.
  induction l as [|[z|] l IH].
  - now exists [].
  - destruct IH as (zs & ->); [intros o I; apply W'; now right|].
  now exists (z :: zs).
  - exfalso.
  apply (W' None); [now left|reflexivity].
  }
      destruct E as (zs & ->).
  rewrite map_map.
  apply pr_explicit; [reflexivity|].
  intros E.
  rewrite E in W.
  discriminate.
  + apply pr_mixed; [rewrite <- all_without_none|rewrite <- all_with_some]; congruence.
Qed.

Lemma lem_C13_struct : forall tr n l, l <> [] -> Forall (fun x => wf_type (snd (snd x))) l ->
  exists o, position_rule (map fst l) o
  /\ parse (write_struct tr n l) =
     match o with
     | Some ps => Ok [NStruct (mk_struct n (map field_of (combine ps (map snd l))) true true)]
     | None => Panic
     end.
Proof.
  intros tr n l N W.
  exists (assigned (map fst l)).
  split; [apply assigned_rule|].
  now apply struct_positions.
Qed.

Lemma lem_C13_struct_variant : forall tr n v l, Forall (fun x => wf_type (snd (snd x))) l ->
  exists o, position_rule (map fst l) o
  /\ parse (write_struct_enum tr n v l) =
     match o with
     | Some ps => Ok [NEnum (mk_enum n [ItemStruct 0 v (map field_of (combine ps (map snd l)))])]
     | None => Panic
     end.
Proof.
  intros tr n v l W.
  exists (assigned (map fst l)).
  split; [apply assigned_rule|].
  now apply struct_variant_positions.
Qed.

Lemma lem_C13_tuple_variant : forall tr n v l, Forall (fun x => wf_type (snd x)) l ->
  exists o, position_rule (map fst l) o
  /\ parse (write_tuple_enum tr n v l) =
     match o with
     | Some ps => Ok [NEnum (mk_enum n [ItemTuple 0 v (map tuple_field_of (combine ps (map snd l)))])]
     | None => Panic
     end.
Proof.
  intros tr n v l W.
  exists (assigned (map fst l)).
  split; [apply assigned_rule|].
  now apply tuple_positions.
Qed.

Lemma lem_C13_enum : forall st tr n l, l <> [] -> Forall (fun x => wf_item (snd x)) l ->
  exists o, position_rule (map fst l) o
  /\ parse (write_enum st tr n l) =
     match o with
     | Some ps => Ok [NEnum (mk_enum n (map (fun x => item_at (snd x) (fst x)) (combine ps (map snd l))))]
     | None => Panic
     end.
Proof.
  intros st tr n l N W.
  exists (assigned (map fst l)).
  split; [apply assigned_rule|].
  now apply enum_positions.
Qed.

Lemma lem_C13_rule_is_functional : forall l o o', position_rule l o -> position_rule l o' -> o = o'.
Proof.
  assert (MI : forall a b : list Z, map Some a = map Some b -> a = b).
  { induction a as [|x a IH]; intros [|y b]; cbn; try discriminate; [reflexivity|].
  intros [= -> E].
  f_equal.
  auto.
  }
  intros l o o' [A|zs E N|A B] H'; inversion H' as [A'|zs' E' N'|A' B']; subst; auto; try contradiction.
  - exfalso.
  destruct zs' as [|z zs']; [now apply N'|].
  specialize (A (Some z) (or_introl eq_refl)).
  discriminate.
  - exfalso.
  destruct zs as [|z zs]; [now apply N|].
  specialize (A' (Some z) (or_introl eq_refl)).
  discriminate.
  - apply MI in E'.
  now subst.
  - exfalso.
  apply B'.
  intros q I.
  apply in_map_iff in I as (z & <- & _).
  discriminate.
  - exfalso.
  apply B.
  intros q I.
  apply in_map_iff in I as (z & <- & _).
  discriminate.
Qed.

(** All positions of one list of an accepted schema. *)
Definition item_lists (i : enum_item) : list (list N) :=
  match i with
  | ItemEmpty _ _ => []
  | ItemTuple _ _ l => [map tf_position l]
  | ItemStruct _ _ l => [map sf_position l]
  end.

Definition decl_lists (n : ast_node) : list (list N) :=
  match n with
  | NStruct s => [map sf_position (sn_fields s)]
  | NEnum e => map item_position (en_items e) :: flat_map item_lists (en_items e)
  | _ => []
  end.

Lemma lem_C13_every_list : forall ts l n ps, parse ts = Ok l -> In n l -> In ps (decl_lists n) ->
  (forall p, In p ps -> (p < 2 ^ 32)%N) \/ ps = map N.of_nat (seq 0 (length ps)).
Proof.
  intros ts l n ps P I J.
  apply parse_iff_grammar, schema_wf in P.
  assert (W : exists k, wf_decl k n).
  { clear J.
  revert P I.
  generalize 0%N as k.
  induction l as [|x l IH]; intros k W I; [destruct I|].
  destruct W as [W WS].
  destruct I as [<-|I]; [eauto|].
  eauto.
  }
  destruct W as (k & W).
  assert (Q : wf_positions ps -> (forall p, In p ps -> (p < 2 ^ 32)%N) \/ ps = map N.of_nat (seq 0 (length ps))).
  { intros [A|A]; [left|right; exact A].
  rewrite forallb_forall in A.
  intros p K.
  specialize (A p K).
  unfold fits in A.
  now apply N.ltb_lt.
  }
  apply Q.
  clear Q.
  destruct n as [e|s|f|d|c]; cbn in *; try contradiction.
  - destruct W as [[WP WI] _].
  destruct J as [<-|J]; [assumption|].
  apply in_flat_map in J as (i & II & JI).
  rewrite Forall_forall in WI.
  specialize (WI i II).
  destruct i as [p m|p m fs|p m fs]; cbn in *; [contradiction| |]; destruct JI as [<-|[]]; apply WI.
  - destruct W as [[WP _] _].
  destruct J as [<-|[]].
  assumption.
Qed.

Lemma lem_C14_enums_have_variants : forall ts l e, parse ts = Ok l -> In (NEnum e) l -> en_items e <> [].
Proof.
  intros ts l e P I.
  apply parse_iff_grammar, schema_wf in P.
  revert P I.
  generalize 0%N as k.
  induction l as [|x l IH]; intros k W I; [destruct I|].
  destruct W as [W WS].
  destruct I as [->|I]; [apply W|].
  eapply IH; eassumption.
Qed.

Lemma lem_C14_empty_braces_are_rejected : forall n r,
  parse (TStruct :: TId n :: TSym "{" :: TSym "}" :: r) = Panic
  /\ parse (TEnum :: TId n :: TSym "{" :: TSym "}" :: r) = Panic.
Proof.
  intros n r.
  split; apply parse_panic; intros l H;
    (inversion H as [? ? E|? ? x ts' l' D]; subst; [destruct E as [E|(? & E)]; discriminate|]);
    inversion D as [|? ? ? ? S _|? ? ? ? S _|? ? ? M| |? ? ? M|? ? ? M]; subst; try (inversion M; fail);
    destruct S as [(? & S)|(? & ? & S)]; discriminate.
Qed.

(** Sizes of types, also inside generics. *)
Fixpoint sized (t : type_id) : Prop :=
  match t with
  | TyInteger n s sgn =>
      (n = "i8" /\ s = 1%nat /\ sgn = true) \/ (n = "i32" /\ s = 4%nat /\ sgn = true)
      \/ (n = "i64" /\ s = 8%nat /\ sgn = true) \/ (n = "u8" /\ s = 1%nat /\ sgn = false)
      \/ (n = "u32" /\ s = 4%nat /\ sgn = false) \/ (n = "u64" /\ s = 8%nat /\ sgn = false)
  | TyNumber n s => (n = "f32" /\ s = 4%nat) \/ (n = "f64" /\ s = 8%nat)
  | TyBool n => n = "bool"
  | TyChar n => n = "char"
  | TyGeneric _ l => l <> [] /\ (fix all l := match l with [] => True | t :: l' => sized t /\ all l' end) l
  | TyOther n => ~ In n ["i8"; "i32"; "i64"; "u8"; "u32"; "u64"; "f32"; "f64"; "char"; "bool"]
  end.

Lemma wf_sized : (forall t, wf_type t -> sized t)
  /\ (forall l, wf_types l -> l <> [] /\ (fix all l := match l with [] => True | t :: l' => sized t /\ all l' end) l).
Proof.
  apply wf_type_mutind.
  - intros n t [size sgn I|size I| -> | -> |N]; cbn.
  + cbn in I.
  intuition congruence.
  + cbn in I.
  intuition congruence.
  + reflexivity.
  + reflexivity.
  + exact N.
  - intros n l _ H.
  exact H.
  - intros t _ H.
  split; [discriminate|].
  auto.
  - intros t l _ H _ [_ IH].
  split; [discriminate|].
  auto.
Qed.

(** Every type of a declaration. *)
Definition item_types (i : enum_item) : list type_id :=
  match i with
  | ItemEmpty _ _ => []
  | ItemTuple _ _ l => map tf_type l
  | ItemStruct _ _ l => map sf_type l
  end.

Fixpoint const_types (c : const_node) : list type_id :=
  match c with ConstNode _ l => flat_map const_item_types l end
with const_item_types (i : const_item) : list type_id :=
  match i with
  | ConstItemValue _ t _ => [t]
  | ConstItemNode c => const_types c
  end.

Definition decl_types (n : ast_node) : list type_id :=
  match n with
  | NStruct s => map sf_type (sn_fields s)
  | NEnum e => flat_map item_types (en_items e)
  | NFn f => map fa_type (fn_args f) ++ match fn_return f with Some t => [t] | None => [] end
  | NDirective _ => []
  | NConst c => const_types c
  end.

Lemma const_wf_types : (forall c, wf_const c -> Forall wf_type (const_types c))
  /\ (forall l, wf_const_items l -> Forall wf_type (flat_map const_item_types l)).
Proof.
  apply wf_const_mutind; cbn; auto.
  - intros n l _ H _ H'.
  apply Forall_app.
  auto.
Qed.

Lemma decl_wf_types k n : wf_decl k n -> Forall wf_type (decl_types n).
Proof.
  destruct n as [e|s|f|d|c]; cbn; intros W.
  - destruct W as [[_ W] _].
  apply flat_map_forall.
  eapply Forall_impl; [|exact W].
  intros [p m|p m l|p m l] H; cbn in *; [constructor| |]; destruct H as [_ H]; apply Forall_map; exact H.
  - destruct W as [[_ W] _].
  now apply Forall_map.
  - destruct W as (_ & W & R & _).
  apply Forall_app.
  split; [now apply Forall_map|].
  destruct (fn_return f); auto.
  - constructor.
  - now apply const_wf_types.
Qed.

Lemma lem_C14_types_are_sized : forall ts l n t, parse ts = Ok l -> In n l -> In t (decl_types n) -> sized t.
Proof.
  intros ts l n t P I J.
  apply parse_iff_grammar, schema_wf in P.
  revert P I.
  generalize 0%N as k.
  induction l as [|x l IH]; intros k W I; [destruct I|].
  destruct W as [W WS].
  destruct I as [->|I]; [|eapply IH; eassumption].
  apply decl_wf_types in W.
  rewrite Forall_forall in W.
  apply wf_sized.
  now apply W.
Qed.

Lemma lem_C14_names_are_words : forall src ts l n, tokenize src = Ok ts -> parse ts = Ok l ->
  In n (schema_names l) -> In (TId n) ts /\ is_word n = true /\ forall u, ~ In (n, u) reserved.
Proof.
  intros src ts l n T P I.
  apply parse_iff_grammar in P.
  destruct (schema_in _ _ _ P) as [IN _].
  specialize (IN n I).
  pose proof (tokens_ok src ts T) as OK.
  rewrite Forall_forall in OK.
  split; [assumption|].
  exact (OK _ IN).
Qed.

Lemma lem_C14_literals_are_from_the_source : forall ts l x, parse ts = Ok l ->
  In x (schema_literals l) -> In (TLit x) ts.
Proof.
  intros ts l x P I.
  apply parse_iff_grammar in P.
  destruct (schema_in _ _ _ P) as [_ IL].
  exact (IL x I).
Qed.

Lemma lem_C45_float_literals : forall raw a b r us, float_spelling raw a b ->
  match r with "" => True | String c _ => digitb c = false /\ c <> "_"%char end ->
  tokenize r = Ok us ->
  exists x, tokenize (raw ++ r) = Ok (TLit (NumberLit x) :: us)
    /\ nearest (qN (positional 10 (a ++ b)) / qN (10 ^ N.of_nat (String.length b))) x.
Proof.
  intros raw a b r us S ST T.
  exists (f64_of_dec (positional 10 (a ++ b)) (- Z.of_nat (String.length b))).
  split.
  - rewrite (tokenize_token _ _ _ r (sp_float _ _ _ S)); [rewrite T; reflexivity|].
  destruct r as [|c r]; [exact I|].
  destruct ST as [D U].
  cbn [stops].
  rewrite D.
  cbn [orb].
  destruct (Ascii.eqb_spec c "_"); [contradiction|reflexivity].
  - unfold f64_of_dec.
  destruct (Z.leb_spec 0 (- Z.of_nat (String.length b))) as [L|L].
  + replace (String.length b) with O by lia.
  apply f64_of_ratio_nearest.
  change (pow10N (- Z.of_nat 0)) with 1%N.
  rewrite N.mul_1_r.
  now apply frac_exists.
  + apply f64_of_ratio_nearest.
  unfold pow10N.
  replace (Z.to_N (- - Z.of_nat (String.length b))) with (N.of_nat (String.length b)) by lia.
  apply frac_exists.
  apply N.neq_0_lt_0, N.pow_nonzero.
  discriminate.
Qed.

Lemma lem_C45_nearest_is_unique : forall q x y, nearest q x -> nearest q y -> x = y.
Proof.
  exact nearest_unique.
Qed.
