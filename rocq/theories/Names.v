(** The names and literals of a schema, and where they come from. *)
Require Import Coq.Strings.String Coq.Strings.Ascii.
Require Import Coq.NArith.NArith Coq.ZArith.ZArith Coq.QArith.QArith Coq.Lists.List Coq.Bool.Bool.
Require Import Coq.micromega.Lia Coq.micromega.ZifyBool Coq.micromega.ZifyN Coq.micromega.ZifyNat.
Require Import Verif.Base Verif.F64 Verif.F64Spec Verif.F64Proofs Verif.Ast Verif.Lexer Verif.LexSpec
  Verif.LexProofs Verif.LexMore Verif.NumText Verif.Grammar Verif.GrammarMore
  Verif.Printer Verif.PrintProofs Verif.TextPrinter.
Import ListNotations.
Local Open Scope string_scope.
Local Open Scope list_scope.

Fixpoint type_names (t : type_id) : list string :=
  match t with
  | TyInteger n _ _ | TyNumber n _ | TyBool n | TyChar n | TyOther n => [n]
  | TyGeneric n l => n :: flat_map type_names l
  end.
Definition field_names (f : struct_field) : list string := sf_name f :: type_names (sf_type f).
Definition item_names (i : enum_item) : list string :=
  match i with
  | ItemEmpty _ n => [n]
  | ItemTuple _ n l => n :: flat_map (fun f => type_names (tf_type f)) l
  | ItemStruct _ n l => n :: flat_map field_names l
  end.
Definition value_literal (v : const_value) : literal := match v with ConstLiteral l _ => l end.
Fixpoint const_names (c : const_node) : list string :=
  match c with ConstNode n l => n :: flat_map const_item_names l end
with const_item_names (i : const_item) : list string :=
  match i with
  | ConstItemValue n t _ => n :: type_names t
  | ConstItemNode c => const_names c
  end.
Fixpoint const_literals (c : const_node) : list literal :=
  match c with ConstNode _ l => flat_map const_item_literals l end
with const_item_literals (i : const_item) : list literal :=
  match i with
  | ConstItemValue _ _ v => [value_literal v]
  | ConstItemNode c => const_literals c
  end.
Definition decl_names (n : ast_node) : list string :=
  match n with
  | NStruct s => sn_id s :: flat_map field_names (sn_fields s)
  | NEnum e => en_id e :: flat_map item_names (en_items e)
  | NFn f => fn_id f :: flat_map (fun a => fa_id a :: type_names (fa_type a)) (fn_args f)
             ++ match fn_return f with Some t => type_names t | None => [] end
  | NDirective (DirValue n _) => [n]
  | NDirective (DirGroup n l) => n :: map iv_id l
  | NConst c => const_names c
  end.
Definition decl_literals (n : ast_node) : list literal :=
  match n with
  | NDirective (DirValue _ v) => [value_literal v]
  | NDirective (DirGroup _ l) => map (fun p => value_literal (iv_value p)) l
  | NConst c => const_literals c
  | _ => []
  end.
Definition schema_names (l : list ast_node) : list string := flat_map decl_names l.
Definition schema_literals (l : list ast_node) : list literal := flat_map decl_literals l.

(** ** They all come from the tokens *)

Definition names_in (ns : list string) (ts : toks) : Prop := forall n, In n ns -> In (TId n) ts.
Definition lits_in (ns : list literal) (ts : toks) : Prop := forall n, In n ns -> In (TLit n) ts.

Definition suffix_in (r ts : toks) : Prop := forall t, In t r -> In t ts.

Lemma local_suffix {A} (X : toks -> A -> toks -> Prop) ts x r : local X ts x r -> suffix_in r ts.
Proof. intros (p & -> & _) t I. apply in_or_app. now right. Qed.
Lemma closed_suffix {A} (X : toks -> A -> toks -> Prop) ts x r : closed X ts x r -> suffix_in r ts.
Proof. intros (p & c & -> & _) t I. apply in_or_app. right. now right. Qed.

Lemma plain_names n t : plain_type n t -> type_names t = [n].
Proof. now intros []. Qed.

Lemma type_names_in :
  (forall ts t r, type_g ts t r -> names_in (type_names t) ts)
  /\ (forall ts l r, type_args_g ts l r -> names_in (flat_map type_names l) ts)
  /\ (forall ts r, broken_args_g ts r -> True).
Proof.
  apply type_g_mutind; auto.
  - intros n t r _ P m I. rewrite (plain_names n t P) in I. destruct I as [<-|[]]. now left.
  - intros n ts l r H IH m I. destruct I as [<-|I]; [now left|]. right. right. now apply IH.
  - intros n ts t r _ _ P m I. rewrite (plain_names n t P) in I. destruct I as [<-|[]]. now left.
  - intros ts t r H IH m I. cbn in I. rewrite app_nil_r in I. now apply IH.
  - intros ts t ts' l r H IH H' IH' m I. cbn in I. apply in_app_or in I. destruct I as [I|I]; [now apply IH|].
    apply (local_suffix _ _ _ _ (type_g_local _ _ _ H)). right. now apply IH'.
Qed.

Lemma type_in ts t r n : type_g ts t r -> In n (type_names t) -> In (TId n) ts.
Proof. intros H. exact (proj1 type_names_in _ _ _ H n). Qed.

Lemma sep_list_in {A B} starts (item : toks -> A -> toks -> Prop) (f : A -> list B) (inj : B -> token) :
  (forall ts x r, item ts x r -> suffix_in r ts /\ forall b, In b (f x) -> In (inj b) ts) ->
  forall ts l r, sep_list_g starts item ts l r -> forall b, In b (flat_map f l) -> In (inj b) ts.
Proof.
  intros HI ts l r H. induction H as [ts N|ts x r S I N|ts x ts' l r S I H IH]; intros b J; cbn in J.
  - contradiction.
  - rewrite app_nil_r in J. now apply (HI _ _ _ I).
  - destruct (HI _ _ _ I) as [SU IN]. apply in_app_or in J. destruct J as [J|J]; [auto|].
    apply SU. right. auto.
Qed.

Lemma positioned_in {A} (item : toks -> A -> toks -> Prop) (f : N * A -> list string) :
  (forall ts x r, item ts x r -> suffix_in r ts /\ forall p b, In b (f (p, x)) -> In (TId b) ts) ->
  forall ts l r, positioned_g item ts l r -> names_in (flat_map f l) ts.
Proof.
  intros HI ts l r [ts' l' r' S H|ts' l' r' S H].
  - intros n. revert n. eapply (sep_list_in _ _ f TId); [|exact H].
    intros a [p x] b [? ? ? ? ? PG I]. destruct (HI _ _ _ I) as [SU IN]. inversion PG; subst. split.
    + intros t J. do 4 right. now apply SU.
    + intros n J. do 4 right. eapply IN. exact J.
  - assert (E : forall k n, In n (flat_map f (number_from k l')) ->
                exists p, In n (flat_map (fun x => f (p, x)) l')).
    { clear. induction l' as [|x l' IH]; intros k n J; cbn in J; [contradiction|].
      apply in_app_or in J. destruct J as [J|J].
      - exists k. cbn. apply in_or_app. now left.
      - destruct (IH _ _ J) as (p & J'). exists p. cbn. apply in_or_app. now right. }
    intros n J. destruct (E _ _ J) as (p & J').
    revert n J' J. enough (Q : forall n, In n (flat_map (fun x => f (p, x)) l') -> In (TId n) ts') by (intros; auto).
    eapply (sep_list_in _ _ (fun x => f (p, x)) TId); [|exact H].
    intros a x b I. destruct (HI _ _ _ I) as [SU IN]. split; [assumption|]. intros n. apply IN.
Qed.

Lemma flat_map_map {A B C} (f : B -> list C) (g : A -> B) l :
  flat_map f (map g l) = flat_map (fun x => f (g x)) l.
Proof. induction l as [|x l IH]; [reflexivity|]. cbn. now rewrite IH. Qed.

Lemma binding_names ts x r : binding_g ts x r ->
  suffix_in r ts /\ forall b, In b (fst x :: type_names (snd x)) -> In (TId b) ts.
Proof.
  intros H. split; [apply (local_suffix _ _ _ _ (binding_local _ _ _ H))|].
  destruct H as [n ts' t r' H]. cbn. intros b [<-|J]; [now left|]. right. right. eapply type_in; eassumption.
Qed.

Lemma fields_names ts l r : fields_g ts l r -> names_in (flat_map field_names l) ts.
Proof.
  intros [ts' l' r' H]. rewrite flat_map_map. eapply positioned_in; [|exact H].
  intros a x b I. destruct (binding_names _ _ _ I) as [SU IN]. split; [assumption|]. intros p n. apply IN.
Qed.

Lemma tuple_names ts l r : tuple_g ts l r -> names_in (flat_map (fun f => type_names (tf_type f)) l) ts.
Proof.
  intros [ts' l' r' H]. rewrite flat_map_map. eapply positioned_in; [|exact H].
  intros a x b I. split; [apply (local_suffix _ _ _ _ (type_g_local _ _ _ I))|].
  intros p n J. eapply type_in; eassumption.
Qed.

Lemma variants_names ts l r : variants_g ts l r -> names_in (flat_map item_names l) ts.
Proof.
  intros [ts' l' r' H]. rewrite flat_map_map. eapply positioned_in; [|exact H].
  intros a x b I. split; [apply (local_suffix _ _ _ _ (variant_local _ _ _ I))|].
  intros p n J. destruct I as [m r0 _ _|m ts0 l0 r0 T|m ts0 l0 r0 T]; cbn in J.
  - destruct J as [<-|[]]. now left.
  - destruct J as [<-|J]; [now left|]. right. right. eapply tuple_names; eassumption.
  - destruct J as [<-|J]; [now left|]. right. right. eapply fields_names; eassumption.
Qed.

Lemma value_lit v val : value_g v val -> v = TLit (value_literal val).
Proof. now intros []. Qed.

Lemma const_names_in :
  (forall ts c r, const_g ts c r -> names_in (const_names c) ts /\ lits_in (const_literals c) ts)
  /\ (forall ts l r, const_items_g ts l r ->
        names_in (flat_map const_item_names l) ts /\ lits_in (flat_map const_item_literals l) ts).
Proof.
  apply const_g_mutind.
  - intros n ts l r H [IN IL]. split.
    + intros m [<-|J]; [right; now left|]. do 3 right. now apply IN.
    + intros m J. do 3 right. now apply IL.
  - intros ts _. split; intros n [].
  - intros ts n ts' l r H [IN IL] H' [IN' IL']. destruct const_local as [LC _].
    pose proof (closed_suffix _ _ _ _ (LC _ _ _ H)) as SU. split.
    + intros m J. cbn in J. apply in_app_or in J. destruct J as [J|J]; [now apply IN|]. apply SU. now apply IN'.
    + intros m J. cbn in J. apply in_app_or in J. destruct J as [J|J]; [now apply IL|]. apply SU. now apply IL'.
  - intros n ts t v val ts' l r T V H [IN IL].
    pose proof (local_suffix _ _ _ _ (type_g_local _ _ _ T)) as SU. split.
    + intros m J. cbn in J. destruct J as [<-|J]; [now left|]. apply in_app_or in J. do 2 right.
      destruct J as [J|J]; [eapply type_in; eassumption|]. apply SU. do 3 right. now apply IN.
    + intros m J. cbn in J. do 2 right. destruct J as [<-|J].
      * apply SU. right. left. now rewrite (value_lit _ _ V).
      * apply SU. do 3 right. now apply IL.
Qed.

Lemma returns_names ts o r : returns_g ts o r ->
  names_in (match o with Some t => type_names t | None => [] end) ts.
Proof.
  intros [r'|ts' t r' H]; [intros n []|]. intros n J. do 2 right. eapply type_in; eassumption.
Qed.

Lemma method_names a k ts f r : method_g a k ts f r -> names_in (decl_names (NFn f)) ts.
Proof.
  intros [n ts' l ts'' ret r' H R|n ts' ret r' R] m J; cbn in J.
  - destruct J as [<-|J]; [right; now left|]. do 3 right. apply in_app_or in J. destruct J as [J|J].
    + rewrite flat_map_map in J. cbn in J. eapply (sep_list_in _ _ (fun x => fst x :: type_names (snd x)) TId);
        [|exact H|exact J]. apply binding_names.
    + pose proof (local_suffix _ _ _ _ (sep_list_local _ _ head_only_id binding_local _ _ _ H)) as SU.
      apply SU. right. eapply returns_names; eassumption.
  - destruct J as [<-|J]; [right; now left|]. do 2 right. eapply returns_names; eassumption.
Qed.

Lemma decl_in k ts x r : decl_g k ts x r ->
  names_in (decl_names x) ts /\ lits_in (decl_literals x) ts.
Proof.
  intros [n r'|n ts' l r' S H|n ts' l r' S H|ts' f r' H|ts' f r' H|ts' n r' H|ts' d r' H].
  - split; [|intros m []]. intros m [<-|[]]. right. now left.
  - split; [|intros m []]. intros m [<-|J]; [right; now left|]. do 3 right. eapply fields_names; eassumption.
  - split; [|intros m []]. intros m [<-|J]; [right; now left|]. do 3 right. eapply variants_names; eassumption.
  - split; [|intros m []]. eapply method_names; eassumption.
  - split; [|intros m []]. intros m J. right. eapply method_names; eassumption.
  - eapply const_names_in; eassumption.
  - destruct H as [n v val r' V|n ts' l close r' H].
    + split; intros m [<-|[]]; [do 2 right; now left|]. do 4 right. left. now rewrite (value_lit _ _ V).
    + split.
      * intros m [<-|J]; [do 2 right; now left|]. do 4 right.
        eapply (sep_list_in _ _ (fun p => [iv_id p]) TId); [|exact H|].
        -- intros a p b P. split; [apply (local_suffix _ _ _ _ (pair_local _ _ _ P))|].
           destruct P. intros q [<-|[]]. now left.
        -- clear - J. induction l as [|p l IH]; [contradiction|]. destruct J as [<-|J]; cbn; auto.
      * intros m J. do 4 right.
        eapply (sep_list_in _ _ (fun p => [value_literal (iv_value p)]) TLit); [|exact H|].
        -- intros a p b P. split; [apply (local_suffix _ _ _ _ (pair_local _ _ _ P))|].
           destruct P as [i v val r0 V]. intros q [<-|[]]. do 2 right. left. now rewrite (value_lit _ _ V).
        -- clear - J. cbn in J. induction l as [|p l IH]; [contradiction|]. destruct J as [<-|J]; cbn; auto.
Qed.

Lemma schema_in k ts l : schema_g k ts l ->
  names_in (schema_names l) ts /\ lits_in (schema_literals l) ts.
Proof.
  intros H. induction H as [|k ts n ts' l D H [IN IL]]; [split; intros m []|].
  assert (SU : suffix_in ts' ts).
  { destruct (decl_closed _ _ _ _ D) as (p & c & -> & _). intros t J. apply in_or_app. right. now right. }
  destruct (decl_in _ _ _ _ D) as [DN DL]. split; intros m J; cbn in J; apply in_app_or in J;
    (destruct J as [J|J]; [auto|]); apply SU; auto.
Qed.

(** ** The tokens of a source text *)

Definition is_name (n : string) : Prop := is_word n = true /\ forall u, ~ In (n, u) reserved.

Definition token_ok (t : token) : Prop :=
  match t with
  | TId n => is_name n
  | TLit (StringLit s) => all_chars (fun c => negb (quoteb c)) s = true
  | TLit (IntLit z) => (- 2 ^ 63 <= z < 2 ^ 63)%Z
  | TLit (NumberLit (F64Fin m e)) => double m e
  | TSym c => symbolb c = true \/ c = "/"%char
  | _ => True
  end.

Lemma keyword_or_id_ok w : is_word w = true -> token_ok (keyword_or_id w).
Proof.
  intros W. unfold keyword_or_id.
  repeat match goal with
  | |- context [String.eqb w ?k] => destruct (String.eqb_spec w k) as [->|]; [exact I|]
  end.
  split; [assumption|]. cbn. intros u. intuition congruence.
Qed.

Lemma lex_id_loop_chars : forall s c name rest, lex_id_loop (String c s) = Ok (name, rest) ->
  exists n', name = String c n' /\ all_chars word_charb n' = true.
Proof.
  induction s as [|d s IH]; intros c name rest H; rewrite lex_id_loop_cons in H.
  - injection H as <- <-. exists "". auto.
  - destruct (is_char_id d false) eqn:E.
    + destruct (lex_id_loop (String d s)) as [[nm rs]| |] eqn:L; cbn [bind] in H; try discriminate.
      injection H as <- <-. destruct (IH _ _ _ L) as (n' & -> & A). eexists. split; [reflexivity|].
      cbn. rewrite A, andb_true_r. clear - E. destruct d as [[] [] [] [] [] [] [] []]; exact E || discriminate E || reflexivity.
    + injection H as <- <-. exists "". auto.
Qed.

Lemma lex_string_loop_chars : forall s v rest, lex_string_loop s = Ok (v, rest) ->
  all_chars (fun c => negb (quoteb c)) v = true.
Proof.
  induction s as [|c s IH]; intros v rest H; [discriminate|]. rewrite lex_string_loop_cons in H.
  destruct (Ascii.eqb c quote) eqn:Q; [now injection H as <- <-|].
  destruct s as [|d s]; [discriminate|].
  destruct (lex_string_loop (String d s)) as [[nm rs]| |] eqn:L; cbn [bind] in H; try discriminate.
  injection H as <- <-. cbn. rewrite (IH _ _ eq_refl), andb_true_r.
  clear - Q. destruct c as [[] [] [] [] [] [] [] []]; reflexivity || discriminate Q.
Qed.

Lemma f64_of_dec_double d k m e : f64_of_dec d k = F64Fin m e -> double m e.
Proof.
  unfold f64_of_dec. intros H. destruct (0 <=? k)%Z.
  - apply (nearest_double (qN (d * pow10N k) / qN 1)%Q). rewrite <- H.
    apply f64_of_ratio_nearest, frac_exists. reflexivity.
  - apply (nearest_double (qN d / qN (pow10N (- k)))%Q). rewrite <- H.
    apply f64_of_ratio_nearest, frac_exists, pow10_pos.
Qed.

Lemma parse_f64_double s m e : parse_f64 s = Some (F64Fin m e) -> double m e.
Proof.
  unfold parse_f64. destruct (take_digits s 0 0) as [[v n] s1].
  match goal with |- (let '(_, _) := ?x in _) = _ -> _ => destruct x as [[v2 n2] s2] end.
  destruct (n + n2)%nat; [discriminate|]. destruct (parse_exp s2); [|discriminate].
  intros [= H]. eapply f64_of_dec_double, H.
Qed.

Lemma step_ok s ts r : lex_step s = Step ts r -> Forall token_ok ts.
Proof.
  intros H. pose proof (step_in_range _ _ _ H) as R. revert H.
  destruct s as [|ch s]; [discriminate|]. cbn [lex_step].
  destruct (is_char_id ch true) eqn:CI.
  { unfold lex_id. destruct (lex_id_loop _) as [[name rest]| |] eqn:L; cbn; intros [= <- <-].
    constructor; [|constructor]. apply keyword_or_id_ok. apply lex_id_loop_chars in L as (n' & -> & A).
    cbn. rewrite A, andb_true_r. rewrite <- is_char_id_first. exact CI. }
  destruct (Ascii.eqb ch quote) eqn:CQ.
  { unfold lex_string. destruct (advance _); [discriminate|].
    destruct (lex_string_loop _) as [[v rest]| |] eqn:L; cbn [bind]; try discriminate.
    intros [= <- <-]. constructor; [|constructor]. eapply lex_string_loop_chars, L. }
  destruct (is_char_number ch) eqn:CN.
  { unfold lex_number. destruct (lex_number_loop _ _ _) as [[[[v h] f] rest]| |]; cbn [bind]; try discriminate.
    destruct h.
    - destruct (i64_from_str_radix 16 _) eqn:E; intros [= <- <-]. inversion R. now constructor.
    - destruct f.
      + destruct (parse_f64 v) as [[m e|]|] eqn:E; intros [= <- <-]; constructor; auto.
        * eapply parse_f64_double, E.
        * exact I.
      + destruct (i64_from_str_radix 10 _) eqn:E; intros [= <- <-]. inversion R. now constructor. }
  destruct (_ || _ || _) eqn:CB; [intros [= <- <-]; constructor|].
  destruct (Ascii.eqb ch "/") eqn:CS.
  - rewrite ascii_slash_star. apply Ascii.eqb_eq in CS as ->.
    destruct s as [|d s]; [intros [= <- <-]; repeat constructor; now right|].
    destruct (Ascii.eqb d "/"); [intros [= <- <-]; constructor|].
    destruct (Ascii.eqb d "*"); intros [= <- <-]; [constructor|]. repeat constructor; now right.
  - intros [= <- <-]. constructor; [|constructor]. left.
    clear - CI CQ CN CB CS. destruct ch as [[] [] [] [] [] [] [] []];
      reflexivity || discriminate CI || discriminate CQ || discriminate CN || discriminate CB || discriminate CS.
Qed.

Lemma tokens_ok s ts : tokenize s = Ok ts -> Forall token_ok ts.
Proof.
  apply (tokens_forall token_ok (fun _ => True)); auto.
  - exact I.
  - intros s' us r _ E. split; [eapply step_ok; eassumption|exact I].
Qed.

(** ** Printed schemas are writable when their names and literals are *)

Definition writable_literal (l : literal) : Prop := writable (TLit l).

Ltac wsym := match goal with |- writable (TSym _) => reflexivity | |- writable _ => exact I end.

Lemma commas_forall (P : token -> Prop) l : P (TSym ",") -> Forall (Forall P) l -> Forall P (commas l).
Proof.
  intros C F. induction F as [|x l X F IH]; [constructor|]. destruct l as [|y l]; [exact X|].
  cbn [commas]. apply Forall_app. split; [assumption|]. constructor; assumption.
Qed.
Lemma listed_forall (P : token -> Prop) tr l : P (TSym ",") -> Forall (Forall P) l -> Forall P (listed tr l).
Proof.
  intros C F. destruct tr; [|now apply commas_forall]. cbn.
  induction F as [|x l X F IH]; [constructor|]. rewrite commas_after_cons. apply Forall_app. split; [assumption|].
  constructor; assumption.
Qed.

Lemma print_type_writable : forall t, Forall is_name (type_names t) -> Forall writable (print_type t).
Proof.
  fix IH 1. intros t F. destruct t as [n ? ?|n ?|n|n|n l|n]; cbn in *;
    try (inversion F; subst; constructor; [assumption|constructor]; fail).
  inversion F as [|? ? NM F']; subst. constructor; [exact NM|]. constructor; [wsym|].
  apply Forall_app. split; [|constructor; [wsym|constructor]].
  apply commas_forall; [wsym|]. clear F NM.
  induction l as [|x l IHl]; cbn in *; [constructor|]. apply Forall_app in F' as [F1 F2].
  constructor; [now apply IH|now apply IHl].
Qed.

Lemma print_pos_writable p : (p < 2 ^ 63)%N -> Forall writable (print_pos p).
Proof. intros H. repeat constructor; cbn; try reflexivity; lia. Qed.

Lemma print_positioned_writable st l : Forall (fun x => Forall writable (snd x)) l ->
  Forall writable (print_positioned st l).
Proof.
  intros F. unfold print_positioned. destruct (leave_out st (map fst l)) eqn:L.
  - apply listed_forall; [wsym|]. apply Forall_map. exact F.
  - apply listed_forall; [wsym|]. apply Forall_map. unfold leave_out in L.
    destruct (forallb fits (map fst l)) eqn:B; [|discriminate]. rewrite forallb_forall in B.
    rewrite Forall_forall in *. intros x I. apply Forall_app. split; [|now apply F].
    apply print_pos_writable. specialize (B (fst x) (in_map fst _ _ I)). unfold fits in B. lia.
Qed.

Lemma print_binding_writable n t : is_name n -> Forall is_name (type_names t) ->
  Forall writable (print_binding n t).
Proof. intros N F. constructor; [exact N|]. constructor; [wsym|]. now apply print_type_writable. Qed.

Lemma flat_map_forall {A B} (P : B -> Prop) (f : A -> list B) l :
  Forall P (flat_map f l) <-> Forall (fun x => Forall P (f x)) l.
Proof.
  induction l as [|x l IH]; cbn; [split; constructor|]. rewrite Forall_app, IH. split.
  - intros []. now constructor.
  - intros H. inversion H; auto.
Qed.

Lemma print_fields_writable st l : Forall is_name (flat_map field_names l) -> Forall writable (print_fields st l).
Proof.
  intros F. rewrite flat_map_forall in F. apply print_positioned_writable. apply Forall_map.
  eapply Forall_impl; [|exact F]. intros f NF. inversion NF; subst. now apply print_binding_writable.
Qed.
Lemma print_tuple_writable st l : Forall is_name (flat_map (fun f => type_names (tf_type f)) l) ->
  Forall writable (print_tuple st l).
Proof.
  intros F. rewrite flat_map_forall in F. apply print_positioned_writable. apply Forall_map.
  eapply Forall_impl; [|exact F]. intros f NF. now apply print_type_writable.
Qed.
Lemma print_items_writable st l : Forall is_name (flat_map item_names l) -> Forall writable (print_items st l).
Proof.
  intros F. rewrite flat_map_forall in F. apply print_positioned_writable. apply Forall_map.
  eapply Forall_impl; [|exact F]. intros [p n|p n fs|p n fs] NF; cbn in *; inversion NF as [|? ? NM NF']; subst;
    (constructor; [exact NM|]); [constructor| |]; (constructor; [wsym|]); apply Forall_app; (split; [|constructor; [wsym|constructor]]).
  - now apply print_tuple_writable.
  - now apply print_fields_writable.
Qed.

Lemma print_value_writable v : writable_literal (value_literal v) -> writable (print_value v).
Proof. now destruct v. Qed.

Lemma print_const_writable : forall c, Forall is_name (const_names c) ->
  Forall writable_literal (const_literals c) -> Forall writable (print_const c).
Proof.
  fix IH 1. intros [n l] F L. cbn in *. inversion F as [|? ? NM F']; subst.
  constructor; [wsym|]. constructor; [exact NM|]. constructor; [wsym|].
  apply Forall_app. split; [|constructor; [wsym|constructor]].
  clear F NM. induction l as [|i l IHl]; [constructor|]. cbn in *.
  apply Forall_app in F' as [F1 F2]. apply Forall_app in L as [L1 L2].
  apply Forall_app. split; [|now apply IHl].
  destruct i as [m t v|c]; [|now apply IH]. cbn in F1, L1. inversion F1; inversion L1; subst.
  cbn [print_const_item]. apply Forall_app. split; [now apply print_binding_writable|].
  constructor; [wsym|]. constructor; [now apply print_value_writable|]. constructor; [wsym|constructor].
Qed.

Lemma print_return_writable o :
  Forall is_name (match o with Some t => type_names t | None => [] end) -> Forall writable (print_return o).
Proof.
  destruct o as [t|]; cbn; intros F; [|repeat constructor].
  do 2 (constructor; [wsym|]). apply Forall_app. split; [now apply print_type_writable|repeat constructor].
Qed.

Lemma print_decl_writable st n : Forall is_name (decl_names n) -> Forall writable_literal (decl_literals n) ->
  Forall writable (print_decl st n).
Proof.
  destruct n as [e|s|f|d|c]; cbn [decl_names decl_literals print_decl]; intros F L.
  - inversion F as [|? ? NM F']; subst. constructor; [wsym|]. constructor; [exact NM|]. constructor; [wsym|].
    apply Forall_app. split; [now apply print_items_writable|repeat constructor].
  - inversion F as [|? ? NM F']; subst. destruct (sn_fields s) as [|x l] eqn:E.
    + constructor; [wsym|]. constructor; [exact NM|]. repeat constructor.
    + constructor; [wsym|]. constructor; [exact NM|]. constructor; [wsym|].
      apply Forall_app. split; [now apply print_fields_writable|repeat constructor].
  - inversion F as [|? ? NM F']; subst. apply Forall_app in F' as [FA FR]. unfold print_fn.
    apply Forall_app. split; [destruct (fn_is_async f); repeat constructor|].
    apply Forall_app. split; [|now apply print_return_writable].
    destruct (fn_is_read f).
    + constructor; [wsym|]. constructor; [exact NM|constructor].
    + constructor; [wsym|]. constructor; [exact NM|]. constructor; [wsym|].
      apply Forall_app. split; [|repeat constructor]. apply listed_forall; [wsym|]. apply Forall_map.
      rewrite flat_map_forall in FA. eapply Forall_impl; [|exact FA]. intros a NA. inversion NA; subst.
      now apply print_binding_writable.
  - destruct d as [n v|n l]; cbn in *; inversion F as [|? ? NM F']; subst.
    + do 2 (constructor; [wsym|]). constructor; [exact NM|]. constructor; [wsym|].
      inversion L; subst. constructor; [now apply print_value_writable|repeat constructor].
    + do 2 (constructor; [wsym|]). constructor; [exact NM|]. constructor; [wsym|].
      apply Forall_app. split; [|repeat constructor]. apply listed_forall; [wsym|]. apply Forall_map.
      rewrite Forall_map in L. rewrite Forall_map in F'. rewrite Forall_forall in *.
      intros p I. constructor; [now apply F'|]. constructor; [wsym|].
      constructor; [|constructor]. apply print_value_writable. now apply L.
  - now apply print_const_writable.
Qed.

Lemma print_schema_writable st l : Forall is_name (schema_names l) -> Forall writable_literal (schema_literals l) ->
  Forall writable (flat_map (print_decl st) l).
Proof.
  unfold schema_names, schema_literals. rewrite !flat_map_forall. intros F L. rewrite Forall_forall in *.
  intros n I. apply print_decl_writable; auto.
Qed.
