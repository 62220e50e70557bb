(** The type declarations and [Default] implementations of a generated Rust file: they compile, and [T::default()] is the
    default value of the type. *)
Require Import Coq.Strings.String Coq.Strings.Ascii.
Require Import Coq.NArith.NArith Coq.ZArith.ZArith Coq.Lists.List Coq.Bool.Bool Coq.Arith.PeanoNat Coq.micromega.Lia.
Require Import Verif.Base Verif.Ast Verif.RustSyntax Verif.RustGen Verif.RustTree Verif.RustSem Verif.Wire Verif.RustCodec Verif.Defaults.
Require Verif.RustDefault Verif.RustFine Verif.RustLexed.
Import RustDefault(among, distinct, HUnit, HFields, HCases, shape_of, type_names, default_of, default_names, first_of, default_body, variant_name, find_variant, named, RValue, RStuck, RMore, types_compile, run_default).
Import RustFine(known_type, default_type, payload, item_fields, decl_fine, default_fine, sized_type, taken, rust_fine, is_declared).
Import ListNotations.
Local Open Scope string_scope.
Local Open Scope list_scope.

Lemma among_in l n : among l n = true <-> In n l.
Proof.
  unfold among. rewrite existsb_exists. split; [intros (x & I & E); apply String.eqb_eq in E; now subst|]. intros I. exists n. split; [exact I|apply String.eqb_refl].
Qed.
Lemma not_among l n : among l n = false <-> ~ In n l.
Proof. rewrite <- among_in. now destruct (among l n). Qed.
Lemma distinct_NoDup l : distinct l = true -> NoDup l.
Proof. induction l as [|x l IH]; [constructor|]. cbn [distinct]. rewrite andb_true_iff, negb_true_iff, not_among. intros [A B]. constructor; auto. Qed.
Lemma distinct_app_l l m : distinct (l ++ m) = true -> distinct l = true.
Proof.
  induction l as [|x l IH]; [reflexivity|]. cbn [app distinct]. rewrite !andb_true_iff, !negb_true_iff, !not_among. intros [A B]. split; [|now apply IH]. intros I. apply A, in_or_app. now left.
Qed.

Lemma first_of_app {A B} (f : A -> option B) l m : first_of f (l ++ m) = match first_of f l with Some y => Some y | None => first_of f m end.
Proof. induction l as [|x l IH]; [reflexivity|]. cbn [app first_of]. destruct (f x); [reflexivity|exact IH]. Qed.
Lemma first_of_none {A B} (f : A -> option B) l : (forall x, In x l -> f x = None) -> first_of f l = None.
Proof. induction l as [|x l IH]; intros H; [reflexivity|]. cbn [first_of]. rewrite (H x (or_introl eq_refl)). apply IH. intros z I. apply H. now right. Qed.

(** Items that neither declare a type nor implement [Default]. *)
Definition quiet (i : item) : bool :=
  match i with IStruct _ _ | IEnum _ _ => false | IImpl tr _ _ => negb (String.eqb tr "Default") | _ => true end.
Lemma quiet_shape n i : quiet i = true -> RustDefault.item_shape n i = None.
Proof. destruct i; try discriminate; reflexivity. Qed.
Lemma quiet_default n i : quiet i = true -> RustDefault.item_default n i = None.
Proof. destruct i as [| | | |tr t fns| | |]; try discriminate; try reflexivity. cbn. intros Q. apply negb_true_iff in Q. destruct t as [[|m [|]] [|]| |]; try reflexivity. now rewrite Q. Qed.
Lemma quiet_ok items i : quiet i = true -> RustDefault.item_ok items i = true.
Proof. destruct i as [| | | |tr t fns| | |]; try discriminate; try reflexivity. cbn. intros Q. apply negb_true_iff in Q. now rewrite Q. Qed.
Lemma quiet_names l : forallb quiet l = true -> type_names l = [] /\ default_names l = [] /\ (forall n, shape_of l n = None) /\ (forall n, default_of l n = None).
Proof.
  intros Q. rewrite forallb_forall in Q. split; [|split; [|split]].
  - unfold type_names. induction l as [|i l IH]; [reflexivity|]. cbn [flat_map]. rewrite IH by (intros x I; apply Q; now right). pose proof (Q i (or_introl eq_refl)) as H. now destruct i.
  - unfold default_names. induction l as [|i l IH]; [reflexivity|]. cbn [flat_map]. rewrite IH by (intros x I; apply Q; now right). pose proof (Q i (or_introl eq_refl)) as H.
    destruct i as [| | | |tr t fns| | |]; try reflexivity. cbn in H. apply negb_true_iff in H. destruct t as [[|m [|]] [|]| |]; try reflexivity. now rewrite H.
  - intros n. apply first_of_none. intros i I. apply quiet_shape. now apply Q.
  - intros n. apply first_of_none. intros i I. apply quiet_default. now apply Q.
Qed.

(** ** The items of the sections *)

Definition decl_shape (d : decl) : RustDefault.shape :=
  match d with
  | DStruct s => match sn_fields s with [] => HUnit | l => HFields (map field_decl l) end
  | DEnum e => HCases (map variant_tree (en_items e))
  end.
Definition decl_default (d : decl) : ex :=
  match d with
  | DStruct s => match sn_fields s with [] => var "Self" | l => EStruct [SName "Self"] (map field_default l) end
  | DEnum e => match en_items e with i :: _ => variant_default i | [] => var "Self" end
  end.
Definition default_fns (d : decl) : list rfn := [mk_rfn "default" [] false (Some self_ty) (Blk [] (Some (decl_default d)))].
Definition decl_item (d : decl) : item :=
  match d with
  | DStruct s => IStruct (sn_id s) (match sn_fields s with [] => None | l => Some (map field_decl l) end)
  | DEnum e => IEnum (en_id e) (map variant_tree (en_items e))
  end.
(** The items of a declaration, with or without a default. *)
Definition decl_items (dflt : bool) (d : decl) : list item :=
  [derive_attr; decl_item d] ++ if dflt then [default_impl (decl_name d) (decl_default d)] else [].

Lemma struct_model s b : struct_model_tree s b = decl_items b (DStruct s).
Proof. unfold struct_model_tree, decl_items, decl_item, decl_default. destruct (sn_fields s); reflexivity. Qed.
Lemma enum_model e : en_items e <> [] -> enum_model_tree e = decl_items true (DEnum e).
Proof. unfold enum_model_tree, decl_items, decl_item, decl_default. destruct (en_items e); [congruence|reflexivity]. Qed.

Lemma decl_item_shape n d : RustDefault.item_shape n (decl_item d) = if String.eqb (decl_name d) n then Some (decl_shape d) else None.
Proof. destruct d as [s|e]; cbn; rewrite String.eqb_sym; [|reflexivity]. destruct (sn_fields s); reflexivity. Qed.
Lemma decl_items_shape n b d : shape_of (decl_items b d) n = if String.eqb (decl_name d) n then Some (decl_shape d) else None.
Proof. unfold decl_items, shape_of. cbn [app first_of]. rewrite decl_item_shape. destruct (String.eqb _ n), b; reflexivity. Qed.
Lemma decl_items_default n b d : default_of (decl_items b d) n = if b && String.eqb (decl_name d) n then Some (default_fns d) else None.
Proof.
  unfold decl_items, default_of. cbn [app first_of]. replace (RustDefault.item_default n (decl_item d)) with (@None (list rfn)) by now destruct d.
  destruct b; [|reflexivity]. cbn [andb first_of]. unfold default_impl, ty0. cbn. rewrite String.eqb_sym. destruct (String.eqb _ n); reflexivity.
Qed.
Lemma decl_items_names b d : type_names (decl_items b d) = [decl_name d] /\ default_names (decl_items b d) = if b then [decl_name d] else [].
Proof. destruct d, b; split; reflexivity. Qed.

(** Items of declarations among others. *)
Inductive section : bool -> list decl -> list item -> Prop :=
| se_nil b : section b [] []
| se_quiet b ds i l : quiet i = true -> section b ds l -> section b ds (i :: l)
| se_decl b d ds l : section b ds l -> section b (d :: ds) (decl_items b d ++ l).
Lemma section_app b ds ds' l l' : section b ds l -> section b ds' l' -> section b (ds ++ ds') (l ++ l').
Proof.
  intros A B. induction A as [b|b ds i l Q A IH|b d ds l A IH]; [exact B|cbn [app]; apply se_quiet; [exact Q|now apply IH]|].
  rewrite <- app_assoc. cbn [app]. apply se_decl. now apply IH.
Qed.
Lemma section_quiet b l : forallb quiet l = true -> section b [] l.
Proof. induction l as [|i l IH]; [constructor|]. cbn. rewrite andb_true_iff. intros [A B]. constructor; auto. Qed.

Lemma section_shape b ds l : section b ds l -> forall n, shape_of l n = option_map decl_shape (decl_of n ds).
Proof.
  unfold shape_of. induction 1 as [b|b ds i l Q S IH|b d ds l S IH]; intros n; [reflexivity| |].
  - cbn [first_of]. rewrite (quiet_shape n i Q). apply IH.
  - rewrite first_of_app. change (first_of (RustDefault.item_shape n) (decl_items b d)) with (shape_of (decl_items b d) n). rewrite decl_items_shape. unfold decl_of. cbn [find].
    destruct (String.eqb (decl_name d) n); [reflexivity|]. apply IH.
Qed.
Lemma section_default b ds l : section b ds l -> forall n, default_of l n = if b then option_map default_fns (decl_of n ds) else None.
Proof.
  unfold default_of. induction 1 as [b|b ds i l Q S IH|b d ds l S IH]; intros n; [now destruct b| |].
  - cbn [first_of]. rewrite (quiet_default n i Q). apply IH.
  - rewrite first_of_app. change (first_of (RustDefault.item_default n) (decl_items b d)) with (default_of (decl_items b d) n). rewrite decl_items_default. unfold decl_of. cbn [find].
    destruct b; cbn [andb]; [|apply IH]. destruct (String.eqb (decl_name d) n); [reflexivity|]. apply IH.
Qed.
Lemma type_names_app l m : type_names (l ++ m) = type_names l ++ type_names m.
Proof. apply flat_map_app. Qed.
Lemma default_names_app l m : default_names (l ++ m) = default_names l ++ default_names m.
Proof. apply flat_map_app. Qed.
Lemma section_names b ds l : section b ds l -> type_names l = map decl_name ds /\ default_names l = if b then map decl_name ds else [].
Proof.
  induction 1 as [b|b ds i l Q S [A B]|b d ds l S [A B]]; [now destruct b| |].
  - change (i :: l) with ([i] ++ l). rewrite type_names_app, default_names_app, A, B. destruct (quiet_names [i]) as (-> & -> & _); [cbn; now rewrite Q|]. split; reflexivity.
  - rewrite type_names_app, default_names_app, A, B. destruct (decl_items_names b d) as [-> ->]. now destruct b.
Qed.
Lemma section_items b ds l : section b ds l -> forall i, In i l -> quiet i = true \/ exists d, In d ds /\ (i = decl_item d \/ b = true /\ i = default_impl (decl_name d) (decl_default d)).
Proof.
  induction 1 as [b|b ds i l Q S IH|b d ds l S IH]; intros j J; [destruct J| |].
  - destruct J as [<-|J]; [now left|now apply IH].
  - apply in_app_or in J as [J|J].
    + unfold decl_items in J. destruct J as [<-|[<-|J]]; [left; reflexivity|right; exists d; split; [now left|now left]|].
      destruct b; [|destruct J]. destruct J as [<-|[]]. right. exists d. split; [now left|]. right. split; reflexivity.
    + destruct (IH j J) as [Q|(d' & I & E)]; [now left|]. right. exists d'. split; [now right|exact E].
Qed.

Lemma uses_quiet ast : forallb quiet (user_uses ast) = true.
Proof.
  apply forallb_forall. unfold user_uses. intros i H. apply in_flat_map in H as (v & _ & H). destruct v as [[]]; cbn in H; decompose [or] H; subst; easy.
Qed.
Lemma consts_quiet ast : forallb quiet (consts_tree ast) = true.
Proof.
  apply forallb_forall. unfold consts_tree. intros i H. apply in_flat_map in H as (v & _ & H). destruct v as [| | | |[]]; cbn in H; decompose [or] H; subst; easy.
Qed.
Lemma buffers_quiet ast : forallb quiet (buffers_tree ast) = true.
Proof.
  apply forallb_forall. unfold buffers_tree. intros i H. apply in_flat_map in H as (v & _ & H). destruct v; cbn in H; decompose [or] H; subst; try easy; reflexivity.
Qed.
Lemma models_section ast : (forall e, In (DEnum e) (schema_decls ast) -> en_items e <> []) -> section true (schema_decls ast) (models_tree ast).
Proof.
  unfold models_tree, schema_decls. induction ast as [|a ast IH]; intros H; [constructor|]. cbn [flat_map].
  assert (S : section true (flat_map (fun n => match n with NStruct s => [DStruct s] | NEnum e => [DEnum e] | _ => [] end) ast)
    (flat_map (fun n => match n with NStruct n => struct_model_tree n true | NEnum n => enum_model_tree n | _ => [] end) ast)).
  { apply IH. intros e I. apply H. cbn [flat_map]. apply in_or_app. now right. }
  destruct a as [e|s|f|d|c]; cbn [app]; try exact S.
  - rewrite enum_model; [|apply H; cbn [flat_map]; now left]. now constructor.
  - rewrite struct_model. now constructor.
Qed.
Lemma methods_section nodes : section false (args_decls nodes) (flat_map rpc_method_tree nodes).
Proof.
  unfold args_decls. induction nodes as [|f nodes IH]; [constructor|]. cbn [flat_map]. apply section_app; [|exact IH].
  unfold rpc_method_tree, async_method_tree, sync_method_tree, async_read_method_tree, sync_read_method_tree.
  destruct (fn_is_read f).
  - destruct (fn_is_async f); apply section_quiet; reflexivity.
  - destruct (fn_is_async f); rewrite struct_model; (constructor; apply section_quiet; reflexivity).
Qed.
Lemma rpc_section ast : section false (args_decls (find_fn_nodes ast)) (rpc_tree ast).
Proof.
  unfold rpc_tree. destruct (find_fn_nodes ast) as [|f nodes] eqn:E; [constructor|]. rewrite <- E. constructor; [reflexivity|]. apply methods_section.
Qed.
Lemma buffers_part (b : bool) ast : forallb quiet (if b then buffers_tree ast else []) = true.
Proof. destruct b; [apply buffers_quiet|reflexivity]. Qed.
Lemma app_last6 {A} (a b c d e f g : list A) : a ++ b ++ c ++ d ++ e ++ f ++ g = (a ++ b ++ c ++ d ++ e ++ f) ++ g.
Proof. now rewrite <- !app_assoc. Qed.
Lemma rust_sections ast b r : (forall e, In (DEnum e) (schema_decls ast) -> en_items e <> []) ->
  exists l m, rust_tree ast true b r = l ++ m /\ section true (schema_decls ast) l /\ section false (if r then args_decls (find_fn_nodes ast) else []) m.
Proof.
  intros H. unfold rust_tree. eexists _, _. split; [apply (app_last6 _ _ _ _ _ _ _)|]. split.
  - rewrite <- (app_nil_r (schema_decls ast)). change (schema_decls ast ++ []) with ([] ++ [] ++ [] ++ [] ++ schema_decls ast ++ []).
    repeat apply section_app; try (now apply models_section); apply section_quiet; [reflexivity| |apply uses_quiet|apply consts_quiet|apply buffers_part].
    destruct (r && _); [reflexivity|]. now destruct b.
  - destruct r; [apply rpc_section|constructor].
Qed.

(** ** Compiling and running *)

Section Models.
Variable ast : list ast_node.
Variables b r : bool.
Let ds := schema_decls ast.
Let all := rust_decls ast true r.
Let items := rust_tree ast true b r.
Hypothesis fine : rust_fine ds all = true.

Lemma fine_parts : NoDup (map decl_name all) /\ (forall d, In d all -> ~ In (decl_name d) taken) /\ (forall d, In d all -> decl_fine all d = true) /\
  (forall d, In d ds -> default_fine ds d = true) /\ (forall d, In d all -> sized_type all (S (List.length all)) (TyOther (decl_name d)) = true).
Proof.
  pose proof fine as F. unfold rust_fine in F. rewrite !andb_true_iff in F. destruct F as ((((A & B) & C) & D) & E). rewrite forallb_forall in B, C, D, E.
  split; [now apply distinct_NoDup|]. split; [|split; [exact C|split; [exact D|exact E]]]. intros d I. apply not_among. apply negb_true_iff. now apply B.
Qed.
Lemma all_app : all = ds ++ (if r then args_decls (find_fn_nodes ast) else []).
Proof. reflexivity. Qed.
Lemma in_all d : In d ds -> In d all.
Proof. intros I. rewrite all_app. apply in_or_app. now left. Qed.
Lemma some_items e : In (DEnum e) ds -> en_items e <> [].
Proof.
  intros I. destruct fine_parts as (_ & _ & C & _). specialize (C _ (in_all _ I)). cbn [decl_fine] in C. rewrite !andb_true_iff in C. destruct C as ((C & _) & _). intros H. now rewrite H in C.
Qed.

Lemma shapes n : shape_of items n = option_map decl_shape (decl_of n all).
Proof.
  destruct (rust_sections ast b r some_items) as (l & m & E & S & T). fold items in E. rewrite E. unfold shape_of. rewrite first_of_app.
  pose proof (section_shape _ _ _ S n) as X. unfold shape_of in X. rewrite X. pose proof (section_shape _ _ _ T n) as Y. unfold shape_of in Y. rewrite Y.
  rewrite all_app, decl_of_app. fold ds. destruct (decl_of n ds); reflexivity.
Qed.
Lemma defaults n : default_of items n = option_map default_fns (decl_of n ds).
Proof.
  destruct (rust_sections ast b r some_items) as (l & m & E & S & T). fold items in E. rewrite E. unfold default_of. rewrite first_of_app.
  pose proof (section_default _ _ _ S n) as X. unfold default_of in X. rewrite X. pose proof (section_default _ _ _ T n) as Y. unfold default_of in Y. rewrite Y.
  fold ds. destruct (decl_of n ds); reflexivity.
Qed.
Lemma names_of : type_names items = map decl_name all /\ default_names items = map decl_name ds.
Proof.
  destruct (rust_sections ast b r some_items) as (l & m & E & S & T). fold items in E. rewrite E, type_names_app, default_names_app.
  destruct (section_names _ _ _ S) as [-> ->]. destruct (section_names _ _ _ T) as [-> ->]. rewrite all_app, map_app, app_nil_r. split; reflexivity.
Qed.
Lemma items_in i : In i items -> quiet i = true \/ (exists d, In d all /\ i = decl_item d) \/ (exists d, In d ds /\ i = default_impl (decl_name d) (decl_default d)).
Proof.
  destruct (rust_sections ast b r some_items) as (l & m & E & S & T). fold items in E. rewrite E. intros I. apply in_app_or in I as [I|I].
  - destruct (section_items _ _ _ S i I) as [Q|(d & J & [->|[_ ->]])]; [now left|right; left|right; right]; exists d; split; auto. now apply in_all.
  - destruct (section_items _ _ _ T i I) as [Q|(d & J & [->|[X _]])]; [now left| |discriminate]. right. left. exists d. split; [|reflexivity]. rewrite all_app. apply in_or_app. now right.
Qed.

Lemma find_in (l : list decl) n d : decl_of n l = Some d -> In d l /\ decl_name d = n.
Proof. intros F. apply find_some in F as [I E]. split; [exact I|now apply String.eqb_eq]. Qed.
Lemma in_find (l : list decl) d : NoDup (map decl_name l) -> In d l -> decl_of (decl_name d) l = Some d.
Proof.
  unfold decl_of. induction l as [|e l IH]; intros N I; [destruct I|]. cbn [map] in N. apply NoDup_cons_iff in N as [X N]. cbn [find]. destruct I as [->|I]; [now rewrite String.eqb_refl|].
  destruct (String.eqb_spec (decl_name e) (decl_name d)) as [E|_]; [|now apply IH]. exfalso. apply X. rewrite E. now apply in_map.
Qed.
Lemma not_taken n : In n taken -> decl_of n all = None.
Proof.
  intros I. destruct (decl_of n all) as [d|] eqn:F; [|reflexivity]. exfalso. destruct (find_in _ _ _ F) as [J E]. destruct fine_parts as (_ & T & _). apply (T d J). now rewrite E.
Qed.
Lemma not_taken_ds n : In n taken -> decl_of n ds = None.
Proof. intros I. pose proof (not_taken n I) as H. rewrite all_app, decl_of_app in H. destruct (decl_of n ds); [discriminate|reflexivity]. Qed.
Lemma decl_of_ds n d : decl_of n ds = Some d -> decl_of n all = Some d.
Proof. intros H. now rewrite all_app, decl_of_app, H. Qed.
Lemma declares_taken n : In n taken -> RustDefault.declares items n = false.
Proof. intros I. unfold RustDefault.declares. now rewrite shapes, not_taken. Qed.
Lemma declares_all n d : decl_of n all = Some d -> RustDefault.declares items n = true.
Proof. intros F. unfold RustDefault.declares. now rewrite shapes, F. Qed.
Lemma prim_taken n : is_prim n = true -> In n taken.
Proof. intros H. apply in_or_app. right. now apply among_in. Qed.
Lemma integer_prim n : is_integer n = true -> is_prim n = true.
Proof. unfold is_integer, is_prim, prims. cbn [existsb]. rewrite !orb_true_iff. tauto. Qed.

Lemma known_ok t : known_type all t = true -> RustDefault.known items (rty_of t) = true.
Proof.
  induction t as [n k sg|n k|n|n|g l IH|n] using RustLexed.type_id_ind2; cbn [known_type rty_of RustDefault.known]; intros K.
  - rewrite (integer_prim n K), orb_true_r. reflexivity.
  - rewrite K, orb_true_r. reflexivity.
  - apply String.eqb_eq in K. subst n. rewrite orb_true_r. reflexivity.
  - apply String.eqb_eq in K. subst n. rewrite orb_true_r. reflexivity.
  - destruct l as [|a [|]]; try discriminate K. cbn [map]. apply andb_true_iff in K as [G K]. apply String.eqb_eq in G. subst g. cbn [String.eqb Ascii.eqb Bool.eqb andb]. rewrite (declares_taken "Vec") by (cbn; tauto).
    cbn [negb andb]. apply Forall_inv in IH. now apply IH.
  - apply orb_true_iff in K as [K|K]; [apply orb_true_iff; now right|]. unfold is_declared in K. destruct (decl_of n all) as [d|] eqn:F; [|discriminate]. now rewrite (declares_all n d F).
Qed.

(** Fields by name. *)
Lemma named_map {A B} (k : A -> string) (v : A -> B) (l : list A) x : NoDup (map k l) -> In x l -> named (k x) (map (fun a => (k a, v a)) l) = Some (v x).
Proof.
  unfold named. induction l as [|a l IH]; intros N I; [destruct I|]. cbn [map] in *. apply NoDup_cons_iff in N as [X N]. cbn [find fst].
  destruct I as [->|I]; [now rewrite String.eqb_refl|]. destruct (String.eqb_spec (k a) (k x)) as [E|_]; [|now apply IH]. exfalso. apply X. rewrite E. now apply in_map.
Qed.
Lemma named_decl fs f : NoDup (map sf_name fs) -> In f fs -> named (sf_name f) (map field_decl fs) = Some (rty_of (sf_type f)).
Proof. apply (named_map sf_name (fun f => rty_of (sf_type f))). Qed.
Lemma named_default fs f : NoDup (map sf_name fs) -> In f fs -> named (sf_name f) (map field_default fs) = Some (default_tree (sf_type f)).
Proof. apply (named_map sf_name (fun f => default_tree (sf_type f))). Qed.
Lemma variant_found e i : In (DEnum e) all -> In i (en_items e) -> find_variant (item_name i) (map variant_tree (en_items e)) = Some (variant_tree i).
Proof.
  intros I J. destruct fine_parts as (_ & _ & C & _). specialize (C _ I). cbn [decl_fine] in C. rewrite !andb_true_iff in C. destruct C as ((_ & C) & _). apply distinct_NoDup in C.
  unfold find_variant. induction (en_items e) as [|a l IH]; [destruct J|]. cbn [map] in *. apply NoDup_cons_iff in C as [X C]. cbn [find].
  assert (V : forall k, variant_name (variant_tree k) = item_name k) by (intros []; reflexivity). rewrite V.
  destruct J as [->|J]; [now rewrite String.eqb_refl|]. destruct (String.eqb_spec (item_name a) (item_name i)) as [E|_]; [|now apply IH]. exfalso. apply X. rewrite E. now apply in_map.
Qed.

(** The default expressions. *)
Definition plain (t : type_id) : Prop := exists d, (forall f, default_value ds f t = Some d) /\
  (forall slf, RustDefault.fits items slf (rty_of t) (default_tree t) = true) /\
  (forall text k slf, RustDefault.eval items text (S k) slf (rty_of t) (default_tree t) = RValue (schema_value text d)).
Lemma prim_plain t d v : (forall f, default_value ds f t = Some d) -> match default_tree t with ENum _ | EFloat _ _ => True | EPath [SName x] => x <> "Self" | _ => False end ->
  RustDefault.rty_prim items (rty_of t) (default_tree t) = Some v -> (forall text, v = schema_value text d) -> plain t.
Proof.
  intros V T P E. exists d. split; [exact V|]. destruct (default_tree t) as [w0|x y| |[|[x|] [|]]| | | | | | | | | | | | | | |]; try contradiction; split; intros; cbn [RustDefault.fits RustDefault.eval]; try (rewrite P; f_equal; apply E); try (now rewrite P).
  - apply String.eqb_neq in T. rewrite T. now rewrite P.
  - apply String.eqb_neq in T. rewrite T. rewrite P. f_equal. apply E.
Qed.
Lemma value_prim f t : prim_name t <> None -> default_value ds f t = Some (match t with TyBool _ => Dfalse | _ => Dnumber t end).
Proof. destruct f, t; try reflexivity; intros H; now contradiction H. Qed.

Fixpoint rty_eqb_refl (t : rty) : RustDefault.rty_eqb t t = true.
Proof.
  destruct t as [p l|s m t|t]; cbn [RustDefault.rty_eqb].
  - apply andb_true_iff. split; [induction p as [|x p IH]; [reflexivity|now rewrite String.eqb_refl]|]. induction l as [|x l IH]; [reflexivity|]. now rewrite rty_eqb_refl.
  - now rewrite rty_eqb_refl, !Bool.eqb_reflx.
  - apply rty_eqb_refl.
Qed.

Lemma default_kind t : known_type all t = true -> default_type ds t = true ->
  plain t \/ exists n d, t = TyOther n /\ decl_of n ds = Some d.
Proof.
  intros K D. destruct t as [n k sg|n k|n|n|g l|n]; cbn [known_type default_type] in *; try discriminate D.
  - left. apply (prim_plain _ (Dnumber (TyInteger n k sg)) (vnum n 0)); [intros f; now apply value_prim|exact Logic.I| |reflexivity].
    cbn [rty_of default_tree RustDefault.rty_prim]. unfold RustDefault.prim_value. rewrite declares_taken by (apply prim_taken, integer_prim, K). change (literal "0") with (Some 0%Z). rewrite K.
    apply existsb_exists in K as (m & I & E). apply String.eqb_eq in E. subst m. cbn [In] in I. decompose [or] I; subst; try contradiction; reflexivity.
  - left. apply (prim_plain _ (Dnumber (TyNumber n k)) (vnum n 0)); [intros f; now apply value_prim|exact Logic.I| |reflexivity].
    cbn [rty_of default_tree RustDefault.rty_prim]. unfold RustDefault.prim_value. rewrite declares_taken by (apply prim_taken, K). now rewrite D.
  - left. apply String.eqb_eq in K. subst n. apply (prim_plain _ Dfalse (vnum "bool" 0)); [intros f; now apply value_prim|discriminate| |reflexivity].
    cbn [rty_of default_tree RustDefault.rty_prim var]. unfold RustDefault.prim_value. rewrite declares_taken by (apply prim_taken; reflexivity). reflexivity.
  - left. destruct l as [|a [|]]; try discriminate K. apply andb_true_iff in K as [G _]. apply String.eqb_eq in G. subst g. exists (Dlist a).
    split; [intros []; reflexivity|]. split.
    + intros slf. cbn [rty_of default_tree assoc_fn map RustDefault.fits]. rewrite declares_taken by (cbn; tauto). rewrite rty_eqb_refl. reflexivity.
    + reflexivity.
  - unfold is_declared in D. destruct (decl_of n ds) as [d|] eqn:F; [right; now exists n, d|]. rewrite orb_false_r in D. apply String.eqb_eq in D. subst n. left. exists Dtext. split; [|split].
    + intros f. destruct f; cbn [default_value]; now rewrite F.
    + intros slf. cbn [rty_of default_tree assoc_fn path2 RustDefault.fits]. rewrite declares_taken by (cbn; tauto). reflexivity.
    + intros text k slf. cbn [rty_of default_tree assoc_fn path2 RustDefault.eval]. rewrite declares_taken by (cbn; tauto). reflexivity.
Qed.
Lemma name_not_self n d : decl_of n all = Some d -> String.eqb n "Self" = false.
Proof. intros F. destruct (String.eqb_spec n "Self") as [->|]; [|reflexivity]. rewrite not_taken in F by (cbn; tauto). discriminate. Qed.
Lemma default_fits slf t : known_type all t = true -> default_type ds t = true -> RustDefault.fits items slf (rty_of t) (default_tree t) = true.
Proof.
  intros K D. destruct (default_kind t K D) as [(d & _ & F & _)|(n & d & -> & F)]; [apply F|].
  cbn [rty_of default_tree assoc_fn path2 RustDefault.fits]. pose proof (decl_of_ds n d F) as FA. rewrite (name_not_self n d FA), (declares_all n d FA), defaults, F. cbn. now rewrite String.eqb_refl.
Qed.

(** The parts of a declaration. *)
Lemma struct_parts s : In (DStruct s) all -> distinct (map sf_name (sn_fields s)) = true /\ forall f, In f (sn_fields s) -> known_type all (sf_type f) = true.
Proof. intros I. destruct fine_parts as (_ & _ & C & _). specialize (C _ I). cbn [decl_fine] in C. apply andb_true_iff in C as [A B]. rewrite forallb_forall in B. now split. Qed.
Lemma item_parts e i : In (DEnum e) all -> In i (en_items e) -> distinct (item_fields i) = true /\ forall t, In t (payload i) -> known_type all t = true.
Proof.
  intros I J. destruct fine_parts as (_ & _ & C & _). specialize (C _ I). cbn [decl_fine] in C. apply andb_true_iff in C as [_ C]. rewrite forallb_forall in C. specialize (C i J).
  apply andb_true_iff in C as [A B]. rewrite forallb_forall in B. now split.
Qed.
Lemma struct_defaults s f : In (DStruct s) ds -> In f (sn_fields s) -> default_type ds (sf_type f) = true.
Proof. intros I J. destruct fine_parts as (_ & _ & _ & D & _). specialize (D _ I). cbn [default_fine] in D. rewrite forallb_forall in D. now apply D. Qed.
Lemma first_defaults e : In (DEnum e) ds -> exists i l, en_items e = i :: l /\ forall t, In t (payload i) -> default_type ds t = true.
Proof.
  intros I. destruct fine_parts as (_ & _ & _ & D & _). specialize (D _ I). cbn [default_fine] in D. destruct (en_items e) as [|i l]; [discriminate|]. exists i, l. split; [reflexivity|].
  rewrite forallb_forall in D. exact D.
Qed.

Lemma map_fst_decl fs : map fst (map field_decl fs) = map sf_name fs.
Proof. rewrite map_map. reflexivity. Qed.
Lemma map_fst_default fs : map fst (map field_default fs) = map sf_name fs.
Proof. rewrite map_map. reflexivity. Qed.
Lemma fields_fit slf fs : distinct (map sf_name fs) = true -> (forall f, In f fs -> known_type all (sf_type f) = true) -> (forall f, In f fs -> default_type ds (sf_type f) = true) ->
  Nat.eqb (List.length (map field_default fs)) (List.length (map field_decl fs)) && distinct (map fst (map field_default fs)) &&
  forallb (fun '(x, e) => match named x (map field_decl fs) with Some u => RustDefault.fits items slf u e | None => false end) (map field_default fs) = true.
Proof.
  intros N K D. rewrite !map_length, Nat.eqb_refl, map_fst_default, N. cbn [andb]. apply forallb_forall. intros q Q. apply in_map_iff in Q as (f & <- & I). unfold field_default.
  rewrite named_decl by (auto using distinct_NoDup). now apply default_fits; auto.
Qed.
Lemma each_fit slf ts : (forall t, In t ts -> known_type all t = true) -> (forall t, In t ts -> default_type ds t = true) ->
  RustDefault.each2 (fun a u => RustDefault.fits items slf u a) (map default_tree ts) (map rty_of ts) = true.
Proof.
  induction ts as [|t ts IH]; intros K D; [reflexivity|]. cbn [map RustDefault.each2]. rewrite default_fits by (try apply K; try apply D; now left). cbn [andb]. apply IH; intros; [apply K|apply D]; now right.
Qed.
Lemma decl_default_fits d : In d ds -> RustDefault.fits items (decl_name d) (ty0 (decl_name d)) (decl_default d) = true.
Proof.
  intros I. unfold ty0. pose proof (in_all d I) as IA. destruct fine_parts as (N & _). pose proof (in_find all d N IA) as F. pose proof (shapes (decl_name d)) as H. rewrite F in H. cbn [option_map] in H.
  destruct d as [s|e]; cbn [decl_default decl_shape decl_name ty0] in *.
  - destruct (struct_parts s IA) as [D K]. pose proof (fun f => struct_defaults s f I) as T. destruct (sn_fields s) as [|f0 l] eqn:E.
    + cbn [var RustDefault.fits RustDefault.rty_is]. rewrite H, !String.eqb_refl. reflexivity.
    + cbn [RustDefault.fits RustDefault.rty_is]. rewrite H, !String.eqb_refl. cbn [andb]. now apply fields_fit.
  - destruct (first_defaults e I) as (i & l & E & T). assert (J : In i (en_items e)) by (rewrite E; now left). destruct (item_parts e i IA J) as [D K]. pose proof (variant_found e i IA J) as V. rewrite E.
    destruct i as [a c|a c vs|a c fs]; cbn [variant_default path2 item_name variant_tree payload item_fields] in *; unfold path2.
    + cbn [RustDefault.fits RustDefault.rty_is]. now rewrite H, V, !String.eqb_refl.
    + cbn [RustDefault.fits RustDefault.rty_is]. rewrite H, V, !String.eqb_refl. cbn [andb]. rewrite <- (map_map tf_type default_tree), <- (map_map tf_type rty_of). now apply each_fit.
    + cbn [RustDefault.fits RustDefault.rty_is]. rewrite H, V, !String.eqb_refl. cbn [andb]. apply fields_fit; [exact D| |]; intros f X; [apply K|apply T]; now apply in_map.
Qed.
Lemma decl_item_ok d : In d all -> RustDefault.item_ok items (decl_item d) = true.
Proof.
  intros I. destruct d as [s|e]; cbn [decl_item RustDefault.item_ok].
  - destruct (struct_parts s I) as [D K]. destruct (sn_fields s) as [|f l]; [reflexivity|]. rewrite map_fst_decl, D. cbn [andb]. apply forallb_forall. intros q Q. apply in_map_iff in Q as (g & <- & X). cbn. apply known_ok. now apply K.
  - apply andb_true_iff. split.
    + destruct fine_parts as (_ & _ & C & _). specialize (C _ I). cbn [decl_fine] in C. rewrite !andb_true_iff in C. destruct C as ((_ & C) & _). rewrite map_map. rewrite (map_ext _ item_name); [exact C|now intros []].
    + apply forallb_forall. intros v V. apply in_map_iff in V as (i & <- & J). destruct (item_parts e i I J) as [D K]. destruct i as [a c|a c vs|a c fs]; cbn [variant_tree payload item_fields] in *; [reflexivity| |].
      * apply forallb_forall. intros u U. apply in_map_iff in U as (x & <- & X). apply known_ok, K. now apply in_map.
      * rewrite map_fst_decl, D. cbn [andb]. apply forallb_forall. intros q Q. apply in_map_iff in Q as (g & <- & X). cbn. apply known_ok, K. now apply in_map.
Qed.
Lemma items_ok : forallb (RustDefault.item_ok items) items = true.
Proof.
  apply forallb_forall. intros i I. destruct (items_in i I) as [Q|[(d & J & ->)|(d & J & ->)]]; [now apply quiet_ok|now apply decl_item_ok|].
  unfold default_impl, ty0. cbn [RustDefault.item_ok]. cbn [String.eqb Ascii.eqb Bool.eqb]. destruct fine_parts as (N & _). rewrite (declares_all _ d (in_find all d N (in_all d J))). cbn. now apply decl_default_fits.
Qed.
Lemma sized_ok : forall f t, known_type all t = true -> sized_type all f t = true -> RustDefault.sized items f (rty_of t) = true.
Proof.
  assert (P : forall f n, is_prim n = true -> RustDefault.sized items f (RPath [n] []) = true).
  { intros f n X. destruct f; cbn [RustDefault.sized]; rewrite shapes, not_taken by (now apply prim_taken); reflexivity. }
  assert (G : forall f n t, known_type all t = true -> t = n -> match t with TyOther _ => False | _ => True end -> RustDefault.sized items f (rty_of t) = true).
  { intros f n t K <- X. destruct t as [m k sg|m k|m|m|g l|m]; cbn [known_type rty_of] in *; try contradiction.
    - now apply P, integer_prim.
    - now apply P.
    - apply String.eqb_eq in K. subst m. now apply P.
    - apply String.eqb_eq in K. subst m. now apply P.
    - destruct l as [|a [|]]; try discriminate K. now destruct f. }
  induction f as [|f IH]; intros t K Z; destruct t as [m k sg|m k|m|m|g l|n]; try (now apply (G _ _ _ K eq_refl)); cbn [rty_of RustDefault.sized sized_type] in *; rewrite shapes; destruct (decl_of n all) as [d|] eqn:F; try reflexivity; cbn [option_map].
  - destruct d; discriminate.
  - destruct (find_in _ _ _ F) as [I <-]. destruct d as [s|e]; cbn [decl_shape] in *; rewrite forallb_forall in Z.
    + destruct (struct_parts s I) as [_ P']. destruct (sn_fields s) as [|f0 l] eqn:E; [reflexivity|]. rewrite <- E in *. apply forallb_forall. intros q Q. apply in_map_iff in Q as (x & <- & X). cbn [snd field_decl]. apply IH; auto.
    + apply forallb_forall. intros v V. apply in_map_iff in V as (i & <- & J). destruct (item_parts e i I J) as [_ P']. specialize (Z i J). rewrite forallb_forall in Z.
      destruct i as [a c|a c vs|a c fs]; cbn [variant_tree payload] in *; [reflexivity| |]; apply forallb_forall; intros q Q; apply in_map_iff in Q as (x & <- & X); cbn [snd field_decl]; apply IH; try apply P'; try apply Z; now apply in_map.
Qed.
Lemma all_compiles : types_compile items = true.
Proof.
  destruct names_of as [TN DN]. pose proof fine as F. unfold rust_fine in F. rewrite !andb_true_iff in F. destruct F as ((((A & B) & _) & _) & E). destruct fine_parts as (N & T & _ & _ & Z).
  unfold types_compile. rewrite TN, DN. rewrite !andb_true_iff. split; [split; [split; [split|]|]|].
  - exact A.
  - apply forallb_forall. intros n I. apply in_map_iff in I as (d & <- & I). specialize (T d I). apply negb_true_iff, not_among. intros [X|[X|[]]]; apply T; rewrite <- X; cbn; tauto.
  - rewrite all_app, map_app in A. exact (distinct_app_l _ _ A).
  - apply items_ok.
  - apply forallb_forall. intros n I. apply in_map_iff in I as (d & <- & I). rewrite map_length. apply (sized_ok _ (TyOther (decl_name d))); [|now apply Z].
    cbn [known_type]. unfold is_declared. rewrite (in_find all d N I). apply orb_true_r.
Qed.

(** ** The values *)

Variable text : N.
Definition outcome (o : option dval) : RustDefault.rres := match o with Some d => RValue (schema_value text d) | None => RMore end.
Lemma turns {A B C} (l : list A) (f : C -> RustDefault.rres) (arg : A -> C) (h : A -> option B) (v : B -> val) :
  (forall x, In x l -> f (arg x) = match h x with Some y => RValue (v y) | None => RMore end) ->
  RustDefault.in_turn f (map arg l) = match all_some h l with Some ys => inr (map v ys) | None => inl RMore end.
Proof.
  induction l as [|x l IH]; intros H; [reflexivity|]. cbn [map RustDefault.in_turn all_some]. rewrite (H x) by now left. destruct (h x) as [y|]; [|reflexivity].
  fold (@RustDefault.in_turn C f). rewrite IH by (intros z Z; apply H; now right). fold (@all_some A B h). destruct (all_some h l); reflexivity.
Qed.
Lemma named_fst (value : type_id -> option dval) fs : forall ys, named_values value fs = Some ys -> map fst ys = map sf_name fs.
Proof.
  unfold named_values. induction fs as [|f fs IH]; cbn [all_some]; intros ys H; [inversion H; reflexivity|]. destruct (value (sf_type f)); [|discriminate].
  fold (all_some (fun f => match value (sf_type f) with Some v => Some (sf_name f, v) | None => None end)) in *. destruct (all_some _ fs) as [zs|]; [|discriminate]. inversion H. cbn. now rewrite (IH zs).
Qed.
Lemma combine_named (ys : list (string * dval)) l : l = map fst ys -> combine l (map (fun y => schema_value text (snd y)) ys) = map (fun '(x, d) => (x, schema_value text d)) ys.
Proof. intros ->. induction ys as [|[x d] ys IH]; [reflexivity|]. cbn. now rewrite IH. Qed.
Lemma all_some_map {A B C} (g : A -> B) (h : B -> option C) l : all_some h (map g l) = all_some (fun x => h (g x)) l.
Proof. induction l as [|x l IH]; [reflexivity|]. cbn. destruct (h (g x)); [|reflexivity]. fold (all_some h) (all_some (fun x => h (g x))). now rewrite IH. Qed.

(** The fields of a struct, or of a case. *)
Lemma fields_run k slf f fs (K : list (string * val) -> val) : NoDup (map sf_name fs) ->
  (forall fd, In fd fs -> RustDefault.eval items text k slf (rty_of (sf_type fd)) (default_tree (sf_type fd)) = outcome (default_value ds f (sf_type fd))) ->
  match RustDefault.in_turn (fun p => match named (fst p) (map field_default fs) with Some e => RustDefault.eval items text k slf (snd p) e | None => RStuck end) (map field_decl fs) with
  | inr vs => RValue (K (combine (map fst (map field_decl fs)) vs))
  | inl r => r
  end = match named_values (default_value ds f) fs with Some ys => RValue (K (map (fun '(x, d) => (x, schema_value text d)) ys)) | None => RMore end.
Proof.
  intros N H. unfold named_values. rewrite (turns fs _ field_decl (fun f0 => match default_value ds f (sf_type f0) with Some v => Some (sf_name f0, v) | None => None end) (fun y => schema_value text (snd y))).
  - fold (named_values (default_value ds f) fs). destruct (named_values (default_value ds f) fs) as [ys|] eqn:E; [|reflexivity]. rewrite combine_named; [reflexivity|]. rewrite map_fst_decl. symmetry. now apply (named_fst (default_value ds f)).
  - intros fd I. cbn [fst snd field_decl]. rewrite named_default by assumption. rewrite (H fd I). unfold outcome. destruct (default_value ds f (sf_type fd)); reflexivity.
Qed.

Theorem default_run : forall f t slf, known_type all t = true -> default_type ds t = true ->
  RustDefault.eval items text (S (2 * f)) slf (rty_of t) (default_tree t) = outcome (default_value ds f t).
Proof.
  induction f as [|f IH]; intros t slf K D; (destruct (default_kind t K D) as [(d & V & _ & E)|(n & d & -> & F)]; [rewrite E, V; reflexivity|]).
  - pose proof (decl_of_ds n d F) as FA. cbn [rty_of default_tree assoc_fn]. unfold path2. change (S (2 * 0)) with 1. cbn [RustDefault.eval default_value]. rewrite (name_not_self n d FA), (declares_all n d FA), defaults, F. cbn. now destruct d.
  - pose proof (decl_of_ds n d F) as FA. destruct (find_in _ _ _ FA) as [IA EN]. destruct (find_in _ _ _ F) as [I _]. replace (S (2 * S f)) with (S (S (S (2 * f)))) by lia. remember (S (2 * f)) as k eqn:Ek.
    cbn [rty_of default_tree assoc_fn]. unfold path2. cbn [default_value]. rewrite F. cbn [RustDefault.eval]. rewrite (name_not_self n d FA), (declares_all n d FA), defaults, F. cbn [option_map default_fns default_body rf_name rf_params rf_ret rf_body RustDefault.rty_is].
    change (RustDefault.rty_is "Self" self_ty) with true. cbv iota. pose proof (shapes n) as H. rewrite FA in H. cbn [option_map] in H. destruct d as [s|e]; cbn [decl_default decl_shape] in *.
    + destruct (struct_parts s IA) as [N P]. pose proof (fun f => struct_defaults s f I) as T. destruct (sn_fields s) as [|f0 l] eqn:E; [reflexivity|]. rewrite <- E in *.
      cbn [RustDefault.eval]. rewrite H. rewrite (fields_run k n f (sn_fields s) (vrec n)); [|now apply distinct_NoDup|intros fd J; apply IH; auto]. unfold outcome. destruct (named_values _ _); reflexivity.
    + destruct (first_defaults e I) as (i & l & E & T). assert (J : In i (en_items e)) by (rewrite E; now left). destruct (item_parts e i IA J) as [N P]. pose proof (variant_found e i IA J) as V. rewrite E.
      destruct i as [a c|a c vs|a c fs]; cbn [variant_default item_name variant_tree payload item_fields] in *; unfold path2.
      * reflexivity.
      * cbn [RustDefault.eval]. change (String.eqb "Self" "Self") with true. cbv iota. rewrite H, V.
        assert (X : combine (map (fun v => default_tree (tf_type v)) vs) (map (fun v => rty_of (tf_type v)) vs) = map (fun v => (default_tree (tf_type v), rty_of (tf_type v))) vs).
        { clear. induction vs as [|v vs IH]; [reflexivity|]. cbn. now rewrite IH. }
        rewrite X, (turns vs _ _ (fun v => default_value ds f (tf_type v)) (schema_value text)).
        -- destruct (all_some _ vs); reflexivity.
        -- intros v Y. cbn [fst snd]. apply IH; [apply P|apply T]; now apply in_map.
      * cbn [RustDefault.eval]. rewrite H, V. rewrite (fields_run k n f fs (vcases n c)); [|now apply distinct_NoDup|intros fd Y; apply IH; [apply P|apply T]; now apply in_map]. unfold outcome. destruct (named_values _ _); reflexivity.
Qed.

(** The default of a type of finite size is finite. *)
Lemma all_some_exists {A B} (h : A -> option B) l : (forall x, In x l -> exists y, h x = Some y) -> exists ys, all_some h l = Some ys.
Proof.
  induction l as [|x l IH]; intros H; [now exists []|]. cbn [all_some]. destruct (H x (or_introl eq_refl)) as [y ->]. fold (all_some h). destruct IH as [ys ->]; [intros z Z; apply H; now right|]. eauto.
Qed.
Theorem default_finite : forall f t, known_type all t = true -> default_type ds t = true -> sized_type all f t = true -> exists d, default_value ds f t = Some d.
Proof.
  induction f as [|f IH]; intros t K D Z; (destruct (default_kind t K D) as [(d & V & _)|(n & d & -> & F)]; [exists d; apply V|]); cbn [sized_type] in Z; pose proof (decl_of_ds n d F) as FA; rewrite FA in Z; [destruct d; discriminate|].
  cbn [default_value]. rewrite F. destruct (find_in _ _ _ FA) as [IA EN]. destruct (find_in _ _ _ F) as [I _]. destruct d as [s|e]; rewrite forallb_forall in Z.
  - destruct (struct_parts s IA) as [_ P]. assert (X : exists ys, named_values (default_value ds f) (sn_fields s) = Some ys).
    { unfold named_values. apply all_some_exists. intros fd J. destruct (IH _ (P fd J) (struct_defaults s fd I J) (Z _ J)) as [v E]. rewrite E. eauto. }
    destruct X as [ys ->]. eauto.
  - destruct (first_defaults e I) as (i & l & E & T). assert (J : In i (en_items e)) by (rewrite E; now left). destruct (item_parts e i IA J) as [_ P]. specialize (Z i J). rewrite forallb_forall in Z. rewrite E.
    assert (X : forall t, In t (payload i) -> exists v, default_value ds f t = Some v) by (intros t Y; apply IH; auto).
    destruct i as [a c|a c vs|a c fs]; cbn [payload] in X; [eauto| |].
    + assert (Y : exists ys, all_some (fun v => default_value ds f (tf_type v)) vs = Some ys) by (apply all_some_exists; intros v Q; apply X; now apply in_map). destruct Y as [ys ->]. eauto.
    + assert (Y : exists ys, named_values (default_value ds f) fs = Some ys).
      { unfold named_values. apply all_some_exists. intros fd Q. destruct (X (sf_type fd)) as [v Ev]; [now apply in_map|]. rewrite Ev. eauto. }
      destruct Y as [ys ->]. eauto.
Qed.

Lemma name_ready n : In n (map decl_name ds) -> known_type all (TyOther n) = true /\ default_type ds (TyOther n) = true /\ sized_type all (S (List.length all)) (TyOther n) = true.
Proof.
  intros I. apply in_map_iff in I as (d & <- & I). destruct fine_parts as (N & _ & _ & _ & Z). pose proof (in_find all d N (in_all d I)) as FA.
  assert (F : decl_of (decl_name d) ds = Some d). { apply in_find; [|exact I]. rewrite all_app, map_app in N. clear - N. induction (map decl_name ds) as [|x l IH]; [constructor|]. cbn in N. apply NoDup_cons_iff in N as [A B]. constructor; [|now apply IH]. intros X. apply A, in_or_app. now left. }
  cbn [known_type default_type]. unfold is_declared. rewrite FA, F. rewrite !orb_true_r. split; [reflexivity|]. split; [reflexivity|]. apply Z. now apply in_all.
Qed.
Theorem default_runs f n : In n (map decl_name ds) -> run_default items text (S (2 * f)) n = outcome (default_value ds f (TyOther n)).
Proof. intros I. destruct (name_ready n I) as (K & D & _). now apply (default_run f (TyOther n) ""). Qed.
Theorem default_ends n : In n (map decl_name ds) -> exists d, default_value ds (S (List.length all)) (TyOther n) = Some d /\ run_default items text (S (2 * S (List.length all))) n = RValue (schema_value text d).
Proof.
  intros I. destruct (name_ready n I) as (K & D & Z). destruct (default_finite _ _ K D Z) as [d E]. exists d. split; [exact E|]. rewrite default_runs by exact I. now rewrite E.
Qed.
End Models.
