(** The generated Rust follows the static rules of [RustStatic]. *)
Require Import Coq.Strings.String Coq.Strings.Ascii.
Require Import Coq.NArith.NArith Coq.ZArith.ZArith Coq.Lists.List Coq.Bool.Bool Coq.Arith.PeanoNat.
Require Import Coq.micromega.Lia Coq.Logic.FinFun.
Require Import Verif.Base Verif.Ast Verif.Writer Verif.Code Verif.NumText Verif.RustSyntax Verif.RustGen Verif.RustTree Verif.RustSem Verif.Wire Verif.RustCodec Verif.RustStatic Verif.RustStaticSpec.
Require Verif.RustDefault Verif.RustFine Verif.RustDefaultRuns Verif.RustConst Verif.ConstSpec Verif.ConstRuns.
Import RustDefault(among, distinct, rty_eqb, shape_of, type_names, find_variant, variant_name, named, declares, types_compile, shape, HUnit, HFields, HCases).
Import RustFine(rust_fine, known_type, item_fields, payload).
Import RustConst(mod_names, consts_compile). Import ConstSpec(rust_words, block_names).
Import RustDefaultRuns(among_in, not_among, distinct_NoDup, decl_shape, rty_eqb_refl, shapes, names_of, named_decl, variant_found, struct_parts, item_parts, find_in, in_find, prim_taken, integer_prim).
Import ListNotations.
Local Open Scope string_scope.
Local Open Scope list_scope.

Lemma rust_ty_of t : rust_ty t = rty_of t.
Proof. reflexivity. Qed.

Lemma substring_all s : forall m, String.length s <= m -> substring 0 m s = s.
Proof.
  induction s as [|c s IH]; intros [|m] L; cbn [String.length] in L; try reflexivity; [lia|].
  cbn [substring]. f_equal. apply IH. lia.
Qed.
Lemma prefix_app p s : String.prefix p (p ++ s) = true.
Proof. induction p as [|c p IH]; [destruct s; reflexivity|]. cbn [append String.prefix]. destruct (ascii_dec c c); [exact IH|congruence]. Qed.
Lemma substring_app p s m : String.length s <= m -> substring (String.length p) m (p ++ s) = s.
Proof. intros L. induction p as [|c p IH]; [now apply substring_all|]. cbn [append String.length substring]. exact IH. Qed.
Lemma drop_prefix_app p s : drop_prefix p (p ++ s) = Some s.
Proof.
  unfold drop_prefix. rewrite prefix_app. f_equal. apply substring_app.
  induction p as [|c p IH]; [apply le_n|]. cbn [append String.length]. now apply le_S.
Qed.

Lemma rty_eqb_same t : rty_eqb t t = true.
Proof. apply rty_eqb_refl. Qed.

(** ** Equations *)

Section Equations.
Variable fns : list (string * (list rty * rty * bool)).
Variable ext : list string.
Variable items : list item.
Notation inf := (inf fns ext items). Notation blk := (blk fns ext items). Notation tst := (tst fns ext items).
Notation tpost := (tpost fns ext items). Notation tcall := (tcall fns ext items).
Definition posts (c : ctx) (en : tenv) : list post -> rty * kind -> option (rty * kind) :=
  fix go ps p := match ps with [] => Some p | x :: ps' => match tpost x p c en with Some p' => go ps' p' | None => None end end.
Lemma posts_nil c en q : posts c en [] q = Some q.
Proof. reflexivity. Qed.
Lemma posts_cons c en x ps q : posts c en (x :: ps) q = match tpost x q c en with Some p' => posts c en ps p' | None => None end.
Proof. reflexivity. Qed.
Lemma inf_num w c en : inf (ENum w) c en = match literal w with Some _ => Some (t0 "i32", Temp) | None => None end.
Proof. reflexivity. Qed.
Lemma inf_path p c en : inf (EPath p) c en = path_ty items c p en.
Proof. reflexivity. Qed.
Lemma inf_var n c en : inf (var n) c en = path_ty items c [SName n] en.
Proof. reflexivity. Qed.
Lemma inf_unit c en : inf EUnit c en = Some (unit_ty, Temp).
Proof. reflexivity. Qed.
Lemma inf_struct p fs c en : inf (EStruct p fs) c en =
  match struct_fields items c p with
  | Some (l, t) =>
      if Nat.eqb (List.length fs) (List.length l) && distinct (map fst fs) &&
         forallb (fun '(x, e) => match named x l with Some u => match inf e c en with Some p => fits e (fst p) u && owned p | None => false end | None => false end) fs
      then Some (t, Temp) else None
  | None => None
  end.
Proof. reflexivity. Qed.
Lemma inf_plain b c en : inf (EBlock BPlain b) c en = blk b c en.
Proof. reflexivity. Qed.
Lemma inf_unsafe b c en : inf (EBlock BUnsafe b) c en = blk b (in_unsafe c) en.
Proof. reflexivity. Qed.
Lemma inf_if i b els c en : inf (EIf i b els) c en =
  match inf i c en, blk b c en with
  | Some (t, _), Some p =>
      if rty_eqb t (t0 "bool") && owned p then
        match els with
        | None => if is_unit (fst p) then Some (unit_ty, Temp) else None
        | Some b' => match blk b' c en with Some p' => if owned p' then option_map (fun t => (t, Temp)) (join (fst p) (fst p')) else None | None => None end
        end
      else None
  | _, _ => None
  end.
Proof. reflexivity. Qed.
Lemma inf_iflet s x tr y b c en : inf (EIfLet (PTuple [SName s] [x] tr) (ERef false (EPath [SName y])) b) c en =
  match assoc y en with
  | Some (Some (RPath [o] [t])) =>
      if String.eqb s "Some" && String.eqb o "Option" && bindable items x && (String.eqb x y || negb (among (names_block b) y)) then
        match blk b c ((x, Some (shared t)) :: en) with Some p => if is_unit (fst p) then Some (unit_ty, Temp) else None | None => None end
      else None
  | _ => None
  end.
Proof. reflexivity. Qed.
Lemma inf_match e arms c en : inf (EMatch e arms) c en =
  match inf e c en with
  | Some (t, _) =>
      if exhaustive items t (map fst arms) then
        option_map (fun t => (t, Temp))
          (join_all (map (fun '(p, e) => match pat_env items t p with
                                         | Some en' => match inf e c (en' ++ en) with Some q => if owned q then Some (fst q) else None | None => None end
                                         | None => None
                                         end) arms))
      else None
  | None => None
  end.
Proof. reflexivity. Qed.
Lemma inf_call p args tr ps c en : inf (EPost (EPath p) (XCall args tr :: ps)) c en =
  match tcall (XCall args tr) p c en with Some q => posts c en ps q | None => None end.
Proof. reflexivity. Qed.
Lemma inf_meth p m args tr ps c en : inf (EPost (EPath p) (XMeth m args tr :: ps)) c en =
  match path_ty items c p en with Some q => posts c en (XMeth m args tr :: ps) q | None => None end.
Proof. reflexivity. Qed.
Lemma inf_field p f ps c en : inf (EPost (EPath p) (XField f :: ps)) c en =
  match path_ty items c p en with Some q => posts c en (XField f :: ps) q | None => None end.
Proof. reflexivity. Qed.
Lemma inf_deref e c en : inf (EDeref e) c en = match inf e c en with Some (RRef _ _ _, _) as q => option_map reach q | _ => None end.
Proof. reflexivity. Qed.
Lemma inf_ref m e c en : inf (ERef m e) c en =
  match inf e c en with
  | Some (t, Place mut true _) => if negb m || mut then Some (RRef true m t, Temp) else None
  | _ => None
  end.
Proof. reflexivity. Qed.
Lemma inf_not e c en : inf (ENot e) c en = match inf e c en with Some (t, _) => if rty_eqb t (t0 "bool") then Some (t, Temp) else None | None => None end.
Proof. reflexivity. Qed.
Lemma inf_return e c en : inf (EReturn e) c en =
  match c_ret c, inf e c en with
  | Some r, Some p => if fits e (fst p) r && owned p then Some (never, Temp) else None
  | _, _ => None
  end.
Proof. reflexivity. Qed.
Lemma inf_eq a b c en : inf (EEq a b) c en =
  match inf a c en, inf b c en with
  | Some (t, _), Some (t', _) => if integer t && fits b t' t then Some (t0 "bool", Temp) else None
  | _, _ => None
  end.
Proof. reflexivity. Qed.
Lemma inf_panic s l tr c en : inf (EMacro "panic" (EStr s :: l) tr) c en =
  if match holes s with Some n => Nat.eqb n (List.length l) | None => false end && forallb (fun e => match inf e c en with Some (t, _) => integer t | None => false end) l
  then Some (never, Temp) else None.
Proof. reflexivity. Qed.
Lemma inf_uuid s tr c en : inf (EMacro "uuid" [EStr s] tr) c en = if lib items "uuid" && uuid_text s then Some (uuid_ty, Temp) else None.
Proof. reflexivity. Qed.
Lemma tcall_eq args tr p c en : tcall (XCall args tr) p c en =
  let types ps := if alone en args then args_ty (map (fun e => arg_ty items inf blk c en e) args) ps else None in
  match p with
  | [SName f] =>
      match assoc f en with
      | Some (Some (RUnsafeFn t)) => if c_unsafe c then match args with [] => Some (t, Temp) | _ => None end else None
      | Some _ => None
      | None =>
          if String.eqb f "Some" then
            match map (fun e => inf e c en) args with [Some q] => if owned q then Some (option_of (fst q), Temp) else None | _ => None end
          else
            match maker_of fns ext items c p with
            | Some (ps, r) => match types ps with Some _ => Some (r, Temp) | None => None end
            | None => None
            end
      end
  | _ =>
      match maker_of fns ext items c p with
      | Some (ps, r) => match types ps with Some _ => Some (r, Temp) | None => None end
      | None => None
      end
  end.
Proof. reflexivity. Qed.
Lemma tpost_field f q c en : tpost (XField f) q c en =
  match q with
  | (RPath [n] [t], Temp) => if String.eqb n "Future" && String.eqb f "await" && c_async c then Some (t, Temp) else None
  | _ => let '(t, k) := reach q in option_map (fun u => (u, k)) (field_ty items t f)
  end.
Proof. reflexivity. Qed.
Lemma tpost_meth m args tr q c en : tpost (XMeth m args tr) q c en =
  let '(t, k) := reach q in
  match method_ty ext items t m with
  | Some (change, ps, r) =>
      if (negb change || changeable k) && alone en args && negb (among (flat_map names_ex args) (root_of k)) then
        match args_ty (map (fun e => arg_ty items inf blk c en e) args) ps with Some l => Some (result_ty r l, part_of k (result_ty r l)) | None => None end
      else None
  | None => None
  end.
Proof. reflexivity. Qed.
Lemma tst_let x e c en : tst (SLet x e) c en = match inf e c en with Some p => if owned p && bindable items x then Some ((x, Some (fst p)) :: moved (caps_ex e) en) else None | None => None end.
Proof. reflexivity. Qed.
Lemma tst_semi e c en : tst (SSemi e) c en = match inf e c en with Some p => if owned p then Some (moved (caps_ex e) en) else None | None => None end.
Proof. reflexivity. Qed.
Lemma tst_bare e c en : tst (SBare e) c en = match inf e c en with Some p => if is_unit (fst p) || is_never (fst p) then Some (moved (caps_ex e) en) else None | None => None end.
Proof. reflexivity. Qed.
Lemma tst_for a b body c en : tst (SFor a b body) c en =
  match inf a c en, inf b c en, blk body c en, caps_block body with
  | Some (t, _), Some (u, k), Some p, [] => if integer u && owned (u, k) && fits a t u && is_unit (fst p) then Some en else None
  | _, _, _, _ => None
  end.
Proof. reflexivity. Qed.
Lemma blk_nil t c en : blk (Blk [] t) c en = match t with Some e => match inf e c en with Some p => if owned p then Some (fst p, Temp) else None | None => None end | None => Some (unit_ty, Temp) end.
Proof. reflexivity. Qed.
Lemma blk_cons s l t c en : blk (Blk (s :: l) t) c en = match tst s c en with Some en' => blk (Blk l t) c en' | None => None end.
Proof. reflexivity. Qed.
(** Statements that leave the variables as they are. *)
Lemma blk_keeps l l' t c en : (forall s, In s l -> tst s c en = Some en) -> blk (Blk (l ++ l') t) c en = blk (Blk l' t) c en.
Proof.
  induction l as [|s l IH]; intros H; [reflexivity|]. cbn [app]. rewrite blk_cons, (H s (or_introl eq_refl)). apply IH. intros x I. apply H. now right.
Qed.
Lemma blk_keeps_all l c en : (forall s, In s l -> tst s c en = Some en) -> blk (Blk l None) c en = Some (unit_ty, Temp).
Proof. intros H. rewrite <- (app_nil_r l), blk_keeps; [reflexivity|exact H]. Qed.

Lemma moved_none en : moved [] en = en.
Proof.
  unfold moved. assert (H : forall seen, moved_from [] seen en = en); [|apply H].
  induction en as [|[x t] en IH]; intros seen; [reflexivity|]. cbn [moved_from]. rewrite IH. now destruct t.
Qed.
Lemma alone_nil en : alone en [] = true.
Proof. reflexivity. Qed.
(** One argument that is a variable. *)
Lemma alone_var en x : alone en [var x] = true.
Proof.
  unfold alone, var. cbn [forallb flat_map names_ex path_names app]. destruct (assoc x en) as [[t|]|]; try reflexivity.
  cbn [filter]. rewrite String.eqb_refl. cbn. now rewrite orb_true_r.
Qed.
Definition is_var (e : ex) : bool := match e with EPath [SName _] => true | _ => false end.
Lemma alone_none en l : forallb (fun e => negb (is_var e)) l = true -> alone en l = true.
Proof.
  intros H. unfold alone. apply forallb_forall. intros e I. rewrite forallb_forall in H. specialize (H e I).
  destruct e; try reflexivity. destruct p as [|[x|] [|]]; try reflexivity. discriminate H.
Qed.
Lemma args_each {A} (g : A -> ex) (h : A -> rty) c en l : (forall x, In x l -> arg_ty items inf blk c en (g x) (PVal (h x)) = Some (h x)) ->
  args_ty (map (fun e => arg_ty items inf blk c en e) (map g l)) (map PVal (map h l)) = Some (map h l).
Proof.
  induction l as [|x l IH]; intros H; [reflexivity|]. cbn [map args_ty]. rewrite (H x (or_introl eq_refl)), IH; [reflexivity|]. intros y I. apply H. now right.
Qed.
Lemma arg_val c en e t k : inf e c en = Some (t, k) -> match e with ENum _ => false | _ => true end = true -> owned (t, k) || is_mut t = true -> arg_ty items inf blk c en e (PVal t) = Some t.
Proof. intros E N O. unfold arg_ty. rewrite E, O, andb_true_r. unfold fits. rewrite rty_eqb_same. now destruct e. Qed.
Lemma fits_same e t : match e with ENum _ => false | _ => true end = true -> fits e t t = true.
Proof. intros N. unfold fits. rewrite rty_eqb_same. now destruct e. Qed.
Lemma fits_never e t : match e with ENum _ => false | _ => true end = true -> fits e never t = true.
Proof. intros N. unfold fits. change (is_never never) with true. rewrite orb_true_r. now destruct e. Qed.
Lemma join_same t : join t t = Some t.
Proof. unfold join. now rewrite fits_same. Qed.
Lemma join_nevers l : (forall x, In x l -> x = Some never) -> join_all l = Some never.
Proof. induction l as [|x l IH]; intros H; [reflexivity|]. cbn [join_all]. rewrite (H x (or_introl eq_refl)), IH; [reflexivity|]. intros y I. apply H. now right. Qed.
Lemma join_units l l' : l <> [] -> (forall x, In x l -> x = Some unit_ty) -> join_all l' = Some never -> join_all (l ++ l') = Some unit_ty.
Proof.
  intros N H E. destruct l as [|x l]; [congruence|]. cbn [app join_all]. rewrite (H x (or_introl eq_refl)).
  assert (K : join_all (l ++ l') = Some unit_ty \/ join_all (l ++ l') = Some never).
  { assert (H' : forall y, In y l -> y = Some unit_ty) by (intros y I; apply H; now right). clear - H' E. induction l as [|y l IH]; [right; exact E|]. cbn [app join_all].
    rewrite (H' y (or_introl eq_refl)). destruct (IH (fun z I => H' z (or_intror I))) as [-> | ->]; left; reflexivity. }
  destruct K as [-> | ->]; reflexivity.
Qed.
End Equations.

(** ** The names of a generated file *)

Lemma imported_app l m : imported (l ++ m) = imported l ++ imported m.
Proof. apply flat_map_app. Qed.
Lemma impl_names_app l m : impl_names (l ++ m) = impl_names l ++ impl_names m.
Proof. apply flat_map_app. Qed.
Lemma file_fns_app l m : file_fns (l ++ m) = file_fns l ++ file_fns m.
Proof. apply flat_map_app. Qed.
Lemma unit_structs_app l m : unit_structs (l ++ m) = unit_structs l ++ unit_structs m.
Proof. apply flat_map_app. Qed.
Lemma empty_names_app l m : empty_names (l ++ m) = empty_names l ++ empty_names m.
Proof. apply flat_map_app. Qed.
Lemma section_units b ds l : RustDefaultRuns.section b ds l -> unit_structs l = empty_names ds.
Proof.
  induction 1 as [b|b ds i l Q S IH|b d ds l S IH]; [reflexivity| |].
  - change (i :: l) with ([i] ++ l). rewrite unit_structs_app, IH. destruct i; try reflexivity. discriminate Q.
  - rewrite unit_structs_app, IH. change (d :: ds) with ([d] ++ ds). rewrite empty_names_app. f_equal. destruct d as [s|e]; unfold RustDefaultRuns.decl_items; cbn; [|now destruct b].
    destruct (sn_fields s), b; reflexivity.
Qed.
Lemma derived_app l m n : In n (derived m) -> In n (derived (l ++ m)).
Proof. intros I. induction l as [|i l IH]; [exact I|]. cbn [app derived]. apply in_or_app. now right. Qed.
Lemma section_derived b ds l d : RustDefaultRuns.section b ds l -> In d ds -> forall m, In (decl_name d) (derived (l ++ m)).
Proof.
  induction 1 as [b|b ds i l Q S IH|b e ds l S IH]; intros I m; [destruct I| |].
  - cbn [app derived]. apply in_or_app. right. now apply IH.
  - destruct I as [<-|I].
    + unfold RustDefaultRuns.decl_items. cbn [app derived derive_attr]. apply in_or_app. left. destruct e as [s|e]; now left.
    + rewrite <- app_assoc. apply derived_app. now apply IH.
Qed.

Section Generated.
Variable ast : list ast_node.
Variable r : bool.
Variable ext : list string.
Let ds := schema_decls ast.
Let all := rust_decls ast true r.
Let items := rust_tree ast true true r.
Let fns := user_fns ast r.
Hypothesis fine : rust_fine ds all = true.
Hypothesis code : rust_code_fine ast r ext all = true.
Notation inf := (inf fns ext items). Notation blk := (blk fns ext items). Notation tst := (tst fns ext items).
Notation tpost := (tpost fns ext items). Notation tcall := (tcall fns ext items).

Lemma code_parts : (forall n, In n (map decl_name all ++ block_names ast ++ ext) -> among lib_names n = false) /\
  (forall n, In n ext -> among (map decl_name all ++ block_names ast) n = false) /\
  (forall n, In n local_names -> among (empty_names all) n = false) /\ (forall d, In d all -> RustStaticSpec.decl_fine all d = true).
Proof.
  pose proof code as C. unfold rust_code_fine in C. rewrite !andb_true_iff in C. destruct C as ((((A & B) & L) & D) & _). rewrite forallb_forall in A, B, L, D.
  split; [|split; [|split]]; [intros n I; now apply negb_true_iff, A|intros n I; now apply negb_true_iff, B|intros n I; now apply negb_true_iff, L|exact D].
Qed.
Lemma rpc_parts : r = true -> (forall f, In f (find_fn_nodes ast) -> RustStaticSpec.fn_fine ext all f = true) /\ RustStaticSpec.scope_fine ast = true /\
  distinct ("register_rpc" :: map handler_id (find_fn_nodes ast) ++ empty_names all ++ map fn_id (find_fn_nodes ast)) = true.
Proof.
  intros R. pose proof code as C. unfold rust_code_fine in C. rewrite !andb_true_iff in C. destruct C as (_ & C). rewrite R in C at 1. rewrite !andb_true_iff in C. destruct C as ((A & B) & D). rewrite forallb_forall in A.
  split; [exact A|split; [exact B|exact D]].
Qed.

Lemma lib_free n : In n lib_names -> decl_of n all = None.
Proof.
  intros I. destruct (decl_of n all) as [d|] eqn:E; [|reflexivity]. destruct (find_in _ _ _ E) as [J <-]. destruct code_parts as (A & _).
  apply among_in in I. rewrite A in I; [discriminate|]. apply in_or_app. left. now apply in_map.
Qed.
Lemma lib_undeclared n : among lib_names n = true -> declares items n = false.
Proof. intros I. unfold declares. rewrite (shapes ast true r fine). fold all. rewrite lib_free; [reflexivity|]. now apply among_in. Qed.
Lemma decl_declared d : In d all -> shape_of items (decl_name d) = Some (decl_shape d).
Proof.
  intros I. rewrite (shapes ast true r fine). fold all. rewrite in_find; [reflexivity| |exact I]. apply (RustDefaultRuns.fine_parts ast r fine).
Qed.
Lemma units : unit_structs items = empty_names all.
Proof.
  destruct (RustDefaultRuns.rust_sections ast true r (RustDefaultRuns.some_items ast r fine)) as (l & m & E & S & T). fold items in E. rewrite E, unit_structs_app, (section_units _ _ _ S), (section_units _ _ _ T).
  rewrite <- empty_names_app. reflexivity.
Qed.
Lemma all_derived d : In d all -> among (derived items) (decl_name d) = true.
Proof.
  intros I. apply among_in. destruct (RustDefaultRuns.rust_sections ast true r (RustDefaultRuns.some_items ast r fine)) as (l & m & E & S & T). fold items in E. rewrite E.
  apply in_app_or in I as [I|I]; [now apply (section_derived _ _ _ _ S)|]. apply derived_app. rewrite <- (app_nil_r m). now apply (section_derived _ _ _ _ T).
Qed.
Lemma impls : impl_names items = map decl_name all.
Proof.
  unfold items, rust_tree. rewrite !impl_names_app.
  assert (U : impl_names (if r && nil_or (find_fn_nodes ast) then buffers_use :: runtime_uses else [buffers_use]) = []) by now destruct (r && _).
  assert (V : impl_names (user_uses ast) = []).
  { unfold user_uses. induction (find_directive_group_values ast "rust" "use") as [|v l IH]; [reflexivity|]. cbn [flat_map]. rewrite impl_names_app, IH. now destruct v as [[] ?]. }
  assert (W : impl_names (consts_tree ast) = []).
  { unfold consts_tree. clear. induction ast as [|n l IH]; [reflexivity|]. cbn [flat_map]. rewrite impl_names_app, IH. destruct n as [n|n|n|n|n]; try reflexivity; now destruct n. }
  assert (X : impl_names (models_tree ast) = []).
  { unfold models_tree. clear. induction ast as [|n l IH]; [reflexivity|]. cbn [flat_map]. rewrite impl_names_app, IH. destruct n as [n|n|n|n|n]; try reflexivity.
    all: unfold struct_model_tree, enum_model_tree; try (now destruct (sn_fields n)); now destruct (en_items n). }
  assert (Y : impl_names (buffers_tree ast) = map decl_name ds).
  { unfold buffers_tree, ds, schema_decls. clear. induction ast as [|n l IH]; [reflexivity|]. cbn [flat_map]. rewrite impl_names_app, IH, map_app. now destruct n. }
  assert (Z : impl_names (rpc_tree ast) = map decl_name (args_decls (find_fn_nodes ast))).
  { assert (M : forall l, impl_names (flat_map rpc_method_tree l) = map decl_name (args_decls l)).
    { clear. intros l. induction l as [|g l IH]; [reflexivity|]. cbn [flat_map]. rewrite impl_names_app, IH. unfold args_decls. cbn [flat_map]. rewrite map_app. f_equal. unfold rpc_method_tree, sync_method_tree, async_method_tree, struct_model_tree.
      destruct (fn_is_read g), (fn_is_async g); try reflexivity; destruct (sn_fields (sync_args_struct g)); reflexivity. }
    unfold rpc_tree. destruct (find_fn_nodes ast) as [|f nodes]; [reflexivity|]. exact (M (f :: nodes)). }
  rewrite U, V, W, X, Y. change (impl_names [allow "warnings"; allow "clippy"; allow "unknown_lints"]) with (@nil string). cbn [app]. unfold all, rust_decls. rewrite map_app. f_equal. destruct r; [exact Z|reflexivity].
Qed.
Lemma lib_part n : In n (imported (if r && nil_or (find_fn_nodes ast) then buffers_use :: runtime_uses else [buffers_use])) -> lib items n = true.
Proof. intros I. unfold lib. apply among_in. unfold items, rust_tree. rewrite !imported_app. apply in_or_app. right. apply in_or_app. now left. Qed.
Lemma lib_buffers n : among ["BytesReader"; "BytesWriter"; "IntoVMBuffers"] n = true -> lib items n = true.
Proof. intros I. apply among_in in I. apply lib_part. destruct (r && _); cbn; cbn in I; tauto. Qed.
Lemma lib_runtime n : r = true -> find_fn_nodes ast <> [] -> among ("uuid" :: lib_types) n = true -> lib items n = true.
Proof. intros R N I. apply among_in in I. apply lib_part. rewrite R. destruct (find_fn_nodes ast); [congruence|]. cbn; cbn in I; tauto. Qed.

Lemma bind_ok x : among (empty_names all) x = false -> among lib_names x = false -> bindable items x = true.
Proof.
  intros A B. unfold bindable. rewrite units. apply negb_true_iff, not_among. intros I. apply in_app_or in I as [I|I]; apply among_in in I; congruence.
Qed.
Lemma bind_local x : among local_names x = true -> bindable items x = true.
Proof.
  intros I. destruct code_parts as (_ & _ & L & _). apply among_in in I. apply bind_ok; [now apply L|].
  destruct I as [<-|I]; [reflexivity|]. repeat (destruct I as [<-|I]; [reflexivity|]). destruct I.
Qed.

(** ** Types *)

Lemma prim_lib n : is_prim n = true -> among lib_names n = true.
Proof.
  intros P. apply among_in. unfold lib_names. apply in_or_app. right. apply in_or_app. left. unfold is_prim in P. apply existsb_exists in P as (x & I & E). apply String.eqb_eq in E. now subst.
Qed.
Lemma codec_prim n : is_prim n = true -> codec ext items (RPath [n] []) = true.
Proof. intros P. cbn [codec]. rewrite (lib_buffers "IntoVMBuffers" eq_refl), lib_undeclared by now apply prim_lib. now rewrite P. Qed.
Lemma codec_vec a : codec ext items a = true -> codec ext items (RPath ["Vec"] [a]) = true.
Proof. intros K. cbn [codec]. now rewrite (lib_buffers "IntoVMBuffers" eq_refl), K. Qed.
Lemma codec_known t : codec_type ext all t = true -> codec ext items (rty_of t) = true.
Proof.
  assert (K : forall n, known_type all (TyOther n) = true -> codec ext items (RPath [n] []) = true).
  { intros n K. cbn [known_type] in K. apply orb_true_iff in K as [K|K].
    - apply String.eqb_eq in K. subst n. cbn [codec]. now rewrite (lib_buffers "IntoVMBuffers" eq_refl), (lib_undeclared "String" eq_refl).
    - unfold RustFine.is_declared in K. destruct (decl_of n all) as [d|] eqn:E; [|discriminate]. destruct (find_in _ _ _ E) as [I <-]. cbn [codec].
      rewrite (lib_buffers "IntoVMBuffers" eq_refl). unfold declares. rewrite (decl_declared d I), impls. apply among_in. now apply in_map. }
  revert t. fix IH 1. intros [n z s|n z|n|n|g l|n] H; cbn [codec_type known_type rty_of] in *.
  - now apply codec_prim, integer_prim.
  - now apply codec_prim.
  - apply String.eqb_eq in H. subst n. now apply codec_prim.
  - apply String.eqb_eq in H. subst n. now apply codec_prim.
  - destruct l as [|a [|]]; try discriminate H. apply andb_true_iff in H as [E H]. apply String.eqb_eq in E. subst g. apply codec_vec. now apply IH.
  - apply orb_true_iff in H as [H|H]; [|now apply K]. cbn [codec]. rewrite (lib_buffers "IntoVMBuffers" eq_refl). unfold declares. rewrite (shapes ast true r fine). fold all.
    destruct (decl_of n all) as [d|] eqn:E.
    + destruct (find_in _ _ _ E) as [I <-]. destruct code_parts as (_ & B & _). apply among_in in H. specialize (B _ H). apply not_among in B. destruct B. apply in_or_app. left. now apply in_map.
    + cbn [option_map andb]. apply orb_true_iff. right. apply among_in. right. now apply among_in.
Qed.
Lemma known_codec t : known_type all t = true -> codec_type ext all t = true.
Proof.
  revert t. fix IH 1. intros [n z s|n z|n|n|g l|n] H; try exact H.
  - cbn [codec_type known_type] in *. destruct l as [|a [|]]; try discriminate H. apply andb_true_iff in H as [E H]. rewrite E. now apply IH.
  - cbn [codec_type]. rewrite H. apply orb_true_r.
Qed.

(** ** Reading and writing *)

Definition reader_ty : rty := unique (t0 "BytesReader").
Definition writer_ty : rty := unique (t0 "BytesWriter").
Lemma reader_meth p : is_prim p = true -> method_ty ext items (t0 "BytesReader") ("read_" ++ p) = Some (true, [], Is (t0 p)).
Proof.
  intros P. change (t0 "BytesReader") with (RPath ["BytesReader"] []). unfold method_ty. cbn [String.eqb Ascii.eqb Bool.eqb append]. rewrite (lib_undeclared "BytesReader" eq_refl). unfold method_of. cbn [String.eqb Ascii.eqb Bool.eqb].
  change (String "r" (String "e" (String "a" (String "d" (String "_" p))))) with ("read_" ++ p)%string. now rewrite drop_prefix_app, P.
Qed.
Lemma writer_meth p : is_prim p = true -> method_ty ext items (t0 "BytesWriter") ("write_" ++ p) = Some (true, [PVal (t0 p)], Is unit_ty).
Proof.
  intros P. change (t0 "BytesWriter") with (RPath ["BytesWriter"] []). unfold method_ty.
  assert (E : String.eqb ("write_" ++ p) "write_to_buffers" = false).
  { apply String.eqb_neq. cbn [append]. intros E. injection E as E. subst p. discriminate P. }
  rewrite E. cbn [String.eqb Ascii.eqb Bool.eqb append]. rewrite (lib_undeclared "BytesWriter" eq_refl). unfold method_of. cbn [String.eqb Ascii.eqb Bool.eqb].
  change (String "w" (String "r" (String "i" (String "t" (String "e" (String "_" p)))))) with ("write_" ++ p)%string. now rewrite drop_prefix_app, P.
Qed.
Lemma var_ty x t c en : assoc x en = Some (Some t) -> path_ty items c [SName x] en = Some (t, Place false false x).
Proof. intros E. unfold path_ty. now rewrite E. Qed.
Lemma var_arg x t c en : assoc x en = Some (Some t) -> copy t || is_mut t = true -> arg_ty items inf blk c en (var x) (PVal t) = Some t.
Proof. intros E C. apply (arg_val fns ext items c en _ t (Place false false x)); [now apply var_ty|reflexivity|exact C]. Qed.
Lemma read_prim p c en : is_prim p = true -> assoc "bytes_reader" en = Some (Some reader_ty) ->
  inf (EPost (var "bytes_reader") [XMeth ("read_" ++ p) [] false]) c en = Some (t0 p, Temp).
Proof.
  intros P E. unfold var. rewrite inf_meth, (var_ty _ _ _ _ E), posts_cons, tpost_meth. unfold reader_ty, unique, reach. rewrite (reader_meth p P). reflexivity.
Qed.
Lemma not_self n : codec_type ext all (TyOther n) = true -> among lib_names n = false \/ n = "String".
Proof.
  cbn [codec_type]. intros H. destruct code_parts as (A & _).
  apply orb_true_iff in H as [H|H]; [left; apply A; apply in_or_app; right; apply in_or_app; right; now apply among_in|]. cbn [known_type] in H. apply orb_true_iff in H as [H|H].
  - right. now apply String.eqb_eq in H.
  - left. unfold RustFine.is_declared in H. destruct (decl_of n all) as [d|] eqn:E; [|discriminate]. destruct (find_in _ _ _ E) as [I <-]. apply A. apply in_or_app. left. now apply in_map.
Qed.
Lemma word_other n x : among lib_names n = false -> among lib_names x = true -> String.eqb n x = false.
Proof. intros A B. apply String.eqb_neq. intros ->. congruence. Qed.
Lemma self_name_other c n : among lib_names n = false \/ n = "String" -> self_name c n = n.
Proof. unfold self_name. destruct (c_self c); [|reflexivity]. intros [A| ->]; [|reflexivity]. now rewrite (word_other n "Self" A eq_refl). Qed.
Lemma self_name_decl c d : In d all -> self_name c (decl_name d) = decl_name d.
Proof. intros I. apply self_name_other. left. destruct code_parts as (A & _). apply A. apply in_or_app. left. now apply in_map. Qed.
Lemma variant_shape n v : variant_of items n v = match decl_of n all with Some (DEnum e) => find_variant v (map variant_tree (en_items e)) | _ => None end.
Proof. unfold variant_of. rewrite (shapes ast true r fine). fold all. destruct (decl_of n all) as [[s|e]|]; try reflexivity. cbn. now destruct (sn_fields s). Qed.
Lemma enum_items_fine e i : In (DEnum e) all -> In i (en_items e) -> among ("read_from_buffers" :: rust_words) (item_name i) = false /\ (item_position i < 2 ^ 32)%N /\
  forall x, In x (slot_names i) -> among ("bytes_writer" :: empty_names all ++ lib_names) x = false.
Proof.
  intros I J. destruct code_parts as (_ & _ & _ & D). specialize (D _ I). cbn [RustStaticSpec.decl_fine] in D. rewrite forallb_forall in D. specialize (D i J). rewrite !andb_true_iff in D. destruct D as ((A & B) & C).
  rewrite forallb_forall in C. split; [now apply negb_true_iff|]. split; [now apply N.ltb_lt|]. intros x X. now apply negb_true_iff, C.
Qed.
Lemma no_read_variant n : variant_of items n "read_from_buffers" = None.
Proof.
  rewrite variant_shape. destruct (decl_of n all) as [[s|e]|] eqn:E; try reflexivity. destruct (find_in _ _ _ E) as [I _].
  destruct (find_variant "read_from_buffers" _) as [v|] eqn:F; [|reflexivity]. unfold find_variant in F. apply find_some in F as [F G]. apply in_map_iff in F as (i & <- & J).
  destruct (enum_items_fine e i I J) as (A & _). apply String.eqb_eq in G. replace (variant_name (variant_tree i)) with (item_name i) in G by now destruct i. rewrite G in A. discriminate A.
Qed.
Lemma read_ty t c en : codec_type ext all t = true -> assoc "bytes_reader" en = Some (Some reader_ty) -> inf (read_tree t) c en = Some (rty_of t, Temp).
Proof.
  intros K E. pose proof (codec_known t K) as C.
  assert (A : arg_ty items inf blk c en (var "bytes_reader") (PVal (unique (t0 "BytesReader"))) = Some reader_ty).
  { now apply var_arg. }
  destruct t as [n z s|n z|n|n|g l|n]; cbn [read_tree assoc_fn rty_of] in *.
  - apply read_prim; [now apply integer_prim|exact E].
  - now apply read_prim.
  - apply String.eqb_eq in K. subst n. now apply read_prim.
  - apply String.eqb_eq in K. subst n. now apply read_prim.
  - rewrite inf_call, tcall_eq. cbv zeta. unfold maker_of. rewrite String.eqb_refl, C. cbn [andb]. rewrite alone_var. cbn [map args_ty]. now rewrite A.
  - unfold path2. rewrite inf_call, tcall_eq. cbv zeta. unfold maker_of. rewrite (self_name_other c n (not_self n K)), no_read_variant. rewrite String.eqb_refl. unfold t0 at 1. rewrite C. cbn [andb].
    rewrite alone_var. cbn [map args_ty]. now rewrite A.
Qed.
Lemma caps_read t : caps_ex (read_tree t) = [].
Proof. now destruct t. Qed.
Lemma read_not_var t : is_var (read_tree t) = false.
Proof. now destruct t. Qed.
Lemma read_not_num t : match read_tree t with ENum _ => false | _ => true end = true.
Proof. now destruct t. Qed.
Lemma read_st t c en : codec_type ext all t = true -> assoc "bytes_reader" en = Some (Some reader_ty) -> tst (SSemi (read_tree t)) c en = Some en.
Proof. intros K E. now rewrite tst_semi, read_ty, caps_read, moved_none. Qed.

Lemma alone_one en e : alone en [e] = true.
Proof.
  destruct (is_var e) eqn:V.
  - destruct e; try discriminate V. destruct p as [|[x|] [|]]; try discriminate V. apply alone_var.
  - apply alone_none. cbn. now rewrite V.
Qed.
Definition prim_of (t : type_id) : option string := match t with TyInteger id _ _ | TyNumber id _ | TyBool id | TyChar id => Some id | _ => None end.
Lemma prim_known t p : codec_type ext all t = true -> prim_of t = Some p -> is_prim p = true /\ rty_of t = t0 p.
Proof.
  destruct t as [n z s|n z|n|n|g l|n]; cbn [codec_type known_type prim_of rty_of]; try discriminate; intros K E; injection E as E; subst p; (split; [|reflexivity]).
  - now apply integer_prim.
  - exact K.
  - apply String.eqb_eq in K. now subst n.
  - apply String.eqb_eq in K. now subst n.
Qed.
Lemma copy_prim p : is_prim p = true -> copy (t0 p) = true.
Proof. intros P. unfold copy, t0. now rewrite P. Qed.
Lemma write_prim p e c en t k : is_prim p = true -> assoc "bytes_writer" en = Some (Some writer_ty) -> inf e c en = Some (t, k) -> fits e t (t0 p) = true -> owned (t, k) = true ->
  among (names_ex e) "bytes_writer" = false -> caps_ex e = [] -> tst (SSemi (EPost (var "bytes_writer") [XMeth ("write_" ++ p) [e] false])) c en = Some en.
Proof.
  intros P E I F O N C. rewrite tst_semi. unfold var. rewrite inf_meth, (var_ty _ _ _ _ E), posts_cons, tpost_meth. unfold writer_ty, unique, reach. cbn [root_of]. rewrite (writer_meth p P), alone_one.
  cbn [flat_map]. rewrite app_nil_r, N. cbn [changeable negb orb andb map args_ty]. unfold arg_ty. rewrite I, F, O. cbn [andb orb]. cbn [result_ty part_of unit_ty posts]. cbn [owned snd caps_ex flat_map caps_post app].
  rewrite C. cbn [app]. now rewrite moved_none.
Qed.
(** What is written: a variable, or a field of one. *)
Inductive place_of : ex -> string -> Prop :=
| p_var x : place_of (var x) x
| p_field x f : place_of (EPost (var x) [XField f]) x.
Lemma postfix_ty acc x p c en m args : place_of acc x -> inf acc c en = Some p -> inf (postfix acc (XMeth m args false)) c en = tpost (XMeth m args false) p c en.
Proof.
  intros [y|y f] E.
  - unfold postfix, var in *. rewrite inf_meth. rewrite inf_path in E. rewrite E, posts_cons. now destruct (tpost _ _ _ _).
  - unfold postfix, var in *. rewrite inf_field in E. cbn [app]. rewrite inf_field. destruct (path_ty items c [SName y] en); [|discriminate]. rewrite posts_cons in E |- *. destruct (tpost (XField f) _ _ _); [|discriminate].
    rewrite posts_nil in E. injection E as <-. rewrite posts_cons. now destruct (tpost _ _ _ _).
Qed.
Lemma place_caps acc x : place_of acc x -> caps_ex acc = [] /\ names_ex acc = [x].
Proof. intros [y|y f]; split; reflexivity. Qed.
Lemma write_other t acc x c en u k k' : codec ext items (rty_of t) = true -> assoc "bytes_writer" en = Some (Some writer_ty) -> place_of acc x -> inf acc c en = Some (u, k) ->
  reach (u, k) = (rty_of t, k') -> root_of k' = x -> x <> "bytes_writer" ->
  tst (SSemi (postfix acc (XMeth "write_to_buffers" [var "bytes_writer"] false))) c en = Some en.
Proof.
  intros K E P I R X N. rewrite tst_semi, (postfix_ty acc x _ c en _ _ P I), tpost_meth, R. unfold method_ty. cbn [String.eqb Ascii.eqb Bool.eqb]. rewrite K, alone_one. cbn [negb orb andb flat_map names_ex path_names var app]. rewrite X.
  assert (M : among ["bytes_writer"] x = false) by (apply not_among; intros [Y|[]]; congruence). rewrite M. cbn [negb andb map args_ty].
  unfold writer_ty in E. rewrite (var_arg _ _ c en E eq_refl). cbn [result_ty part_of unit_ty]. cbn [owned snd].
  replace (caps_ex (postfix acc (XMeth "write_to_buffers" [var "bytes_writer"] false))) with (@nil string) by now destruct P.
  now rewrite moved_none.
Qed.
(** A value of the type, or a reference to one: without [deref] a reference only if it is no primitive. *)
Lemma write_ok t acc x (d : bool) c en u : codec_type ext all t = true -> assoc "bytes_writer" en = Some (Some writer_ty) -> place_of acc x -> inf acc c en = Some (u, Place false false x) -> x <> "bytes_writer" ->
  (if d then u = shared (rty_of t) else u = rty_of t \/ (u = shared (rty_of t) /\ prim_of t = None)) -> tst (write_tree t acc d) c en = Some en.
Proof.
  intros K E P I N U. destruct (place_caps acc x P) as [C NM].
  destruct (prim_of t) as [p|] eqn:PT.
  - destruct (prim_known t p K PT) as [PP RT].
    assert (W : write_tree t acc d = SSemi (EPost (var "bytes_writer") [XMeth ("write_" ++ p) [if d then EDeref acc else acc] false])) by (destruct t; cbn in PT; try discriminate PT; injection PT as <-; reflexivity).
    rewrite W. rewrite RT in U. assert (M : among [x] "bytes_writer" = false) by (apply not_among; intros [Y|[]]; congruence). destruct d.
    + apply (write_prim p _ c en (t0 p) (Place false false x)); try assumption.
      * rewrite inf_deref, I. subst u. reflexivity.
      * now apply fits_same.
      * now apply copy_prim.
      * cbn [names_ex]. now rewrite NM.
    + destruct U as [U|[_ U]]; [|discriminate]. subst u. apply (write_prim p _ c en (t0 p) (Place false false x)); try assumption.
      * apply fits_same. now destruct P.
      * now apply copy_prim.
      * now rewrite NM.
  - assert (W : write_tree t acc d = SSemi (postfix acc (XMeth "write_to_buffers" [var "bytes_writer"] false))) by (destruct t; try discriminate PT; reflexivity).
    rewrite W. pose proof (codec_known t K) as CK. assert (V : u = rty_of t \/ u = shared (rty_of t)) by (destruct d; tauto).
    destruct V as [-> | ->].
    + apply (write_other t acc x c en (rty_of t) (Place false false x) (Place false false x)); try assumption; [now destruct t|reflexivity].
    + apply (write_other t acc x c en (shared (rty_of t)) (Place false false x) (Place false false x)); try assumption; reflexivity.
Qed.
Lemma tag_ok p c en : (p < 2 ^ 32)%N -> assoc "bytes_writer" en = Some (Some writer_ty) -> tst (tag_tree p) c en = Some en.
Proof.
  intros L E. unfold tag_tree. cbn [write_tree u32_type_id]. apply (write_prim "u32" _ c en (t0 "i32") Temp); try reflexivity; try assumption.
  - rewrite inf_num, literal_show. reflexivity.
  - unfold fits, number_in, t0. rewrite literal_show. cbn [is_integer]. apply andb_true_iff. split; [reflexivity|]. unfold in_range. cbn. apply andb_true_iff. split; [apply Z.leb_le|apply Z.ltb_lt]; lia.
Qed.

(** ** The codecs *)

Lemma sig_lib n : among ["BytesReader"; "BytesWriter"] n = true -> sig_ty items (mut_ref n) = true.
Proof.
  intros I. unfold mut_ref, ty0. cbn [sig_ty]. rewrite lib_buffers; [|apply among_in in I; apply among_in; cbn in I |- *; tauto]. apply among_in in I. destruct I as [<-|[<-|[]]]; reflexivity.
Qed.
Lemma one_param x n : x = "_" \/ among local_names x = true -> among ["BytesReader"; "BytesWriter"] n = true -> params_fine items [(x, mut_ref n)] = true.
Proof.
  intros X I. unfold params_fine. cbn [forallb fst snd map]. rewrite (sig_lib n I). destruct X as [-> | X]; [reflexivity|]. rewrite (bind_local x X), orb_true_r. cbn [andb]. rewrite andb_true_r.
  cbn [without filter]. destruct (negb _); reflexivity.
Qed.
Lemma two_params x y n m : (x = "_" /\ y = "_") \/ (among local_names x = true /\ among local_names y = true /\ x <> y) -> among ["BytesReader"; "BytesWriter"] n = true -> is_prim m = true ->
  params_fine items [(x, mut_ref n); (y, ty0 m)] = true.
Proof.
  intros X I P. unfold params_fine. cbn [forallb fst snd map]. rewrite (sig_lib n I). unfold ty0. cbn [sig_ty]. rewrite P. cbn [orb]. destruct X as [[-> ->]|(X & Y & N)]; [reflexivity|].
  rewrite (bind_local x X), (bind_local y Y), !orb_true_r. cbn [andb]. rewrite andb_true_r. unfold without. cbn [filter]. destruct (negb (among ["_"] x)), (negb (among ["_"] y)); try reflexivity.
  cbn [distinct among existsb]. apply String.eqb_neq in N. now rewrite N.
Qed.

Section Struct.
Variable s : struct_node.
Hypothesis declared : In (DStruct s) all.
Let n := sn_id s.
Let c := mk_ctx (Some n) (Some (t0 n)) false false.
Let cu := mk_ctx (Some n) (Some unit_ty) false false.
Lemma s_known f : In f (sn_fields s) -> codec_type ext all (sf_type f) = true.
Proof. intros I. apply known_codec. now apply (proj2 (struct_parts ast r fine s declared)). Qed.
Lemma s_distinct : distinct (map sf_name (sn_fields s)) = true.
Proof. apply (struct_parts ast r fine s declared). Qed.
Lemma s_shape : shape_of items n = Some (decl_shape (DStruct s)).
Proof. apply (decl_declared _ declared). Qed.
Lemma s_self c0 : c_self c0 = Some n -> self_name c0 "Self" = n.
Proof. intros E. unfold self_name. now rewrite E. Qed.
Lemma map_fst_read fs : map fst (map field_read fs) = map sf_name fs.
Proof. induction fs as [|f fs IH]; [reflexivity|]. cbn. now rewrite IH. Qed.
Lemma fields_read c0 en fs l : assoc "bytes_reader" en = Some (Some reader_ty) -> (forall f, In f fs -> codec_type ext all (sf_type f) = true) -> distinct (map sf_name fs) = true -> l = map field_decl fs ->
  Nat.eqb (List.length (map field_read fs)) (List.length l) && distinct (map fst (map field_read fs)) &&
  forallb (fun '(x, e) => match named x l with Some u => match inf e c0 en with Some p => fits e (fst p) u && owned p | None => false end | None => false end) (map field_read fs) = true.
Proof.
  intros E K D ->. rewrite !map_length, Nat.eqb_refl, map_fst_read, D. cbn [andb]. apply forallb_forall. intros q Q. apply in_map_iff in Q as (f & <- & I). unfold field_read.
  rewrite (named_decl fs f (distinct_NoDup _ D) I), (read_ty _ _ _ (K f I) E). cbn [fst]. rewrite fits_same by apply read_not_num. reflexivity.
Qed.
Lemma struct_read_ok : trait_fn_ok fns ext items n (struct_read_fn s) = true.
Proof.
  unfold trait_fn_ok, struct_read_fn. destruct (sn_fields s) as [|f0 l] eqn:EF.
  - cbn [rf_name rf_params rf_ret map snd]. cbn [assoc trait_fns String.eqb Ascii.eqb Bool.eqb]. rewrite rty_eqb_same. cbn [filter negb fst String.eqb Ascii.eqb Bool.eqb]. rewrite (one_param "_" "BytesReader" (or_introl eq_refl) eq_refl).
    change (rty_eqb self_ty (t0 "Self")) with true. cbn [andb]. unfold body_ok. cbn [rf_body rf_params param_env flat_map app String.eqb Ascii.eqb Bool.eqb]. change (result_of (Some n) _) with (t0 n). rewrite blk_nil. unfold var. rewrite inf_path.
    assert (A : among lib_names n = false) by (apply code_parts; apply in_or_app; left; apply (in_map decl_name _ _ declared)).
    unfold path_ty. cbn [assoc]. fold n. replace (among ["true"; "false"] n) with false by (symmetry; unfold among, existsb; now rewrite !(word_other n _ A)).
    rewrite (word_other n "None" A eq_refl), (self_name_other _ n (or_introl A)), units.
    assert (B : among (empty_names all) n = true).
    { apply among_in. unfold empty_names. apply in_flat_map. exists (DStruct s). split; [exact declared|]. rewrite EF. now left. }
    rewrite B. cbn [owned snd fst]. now apply fits_same.
  - rewrite <- EF. cbn [rf_name rf_params rf_ret map snd]. cbn [assoc trait_fns String.eqb Ascii.eqb Bool.eqb]. rewrite rty_eqb_same. cbn [filter negb fst String.eqb Ascii.eqb Bool.eqb].
    rewrite (one_param "bytes_reader" "BytesReader" (or_intror eq_refl) eq_refl). change (rty_eqb self_ty (t0 "Self")) with true. cbn [andb]. unfold body_ok. cbn [rf_body rf_params param_env flat_map app String.eqb Ascii.eqb Bool.eqb].
    change (result_of (Some n) _) with (t0 n). change (resolve (Some n) (mut_ref "BytesReader")) with reader_ty. rewrite blk_nil, inf_struct. unfold struct_fields. rewrite s_self, s_shape by reflexivity. cbn [decl_shape]. rewrite EF. rewrite <- EF.
    rewrite fields_read; [|reflexivity|apply s_known|apply s_distinct|reflexivity]. cbn [owned snd fst]. now apply fits_same.
Qed.
Lemma struct_write_ok : trait_fn_ok fns ext items n (struct_write_fn s) = true.
Proof.
  unfold trait_fn_ok, struct_write_fn. destruct (sn_fields s) as [|f0 l] eqn:EF.
  - cbn [rf_name rf_params rf_ret map snd]. cbn [assoc trait_fns String.eqb Ascii.eqb Bool.eqb]. rewrite rty_eqb_same. cbn [filter negb fst String.eqb Ascii.eqb Bool.eqb]. now rewrite (one_param "_" "BytesWriter" (or_introl eq_refl) eq_refl).
  - rewrite <- EF. cbn [rf_name rf_params rf_ret map snd]. cbn [assoc trait_fns String.eqb Ascii.eqb Bool.eqb]. rewrite rty_eqb_same. cbn [filter negb fst String.eqb Ascii.eqb Bool.eqb].
    rewrite (one_param "bytes_writer" "BytesWriter" (or_intror eq_refl) eq_refl). change (rty_eqb unit_ty unit_ty) with true. cbn [andb]. unfold body_ok. cbn [rf_body rf_params param_env flat_map app String.eqb Ascii.eqb Bool.eqb].
    change (result_of (Some n) _) with unit_ty. change (resolve (Some n) (mut_ref "BytesWriter")) with writer_ty. change (resolve (Some n) self_ref) with (shared (t0 n)).
    rewrite blk_keeps_all; [reflexivity|]. intros x X. apply in_map_iff in X as (f & <- & I). apply (write_ok _ _ "self" false _ _ (rty_of (sf_type f))); [now apply s_known|reflexivity|apply p_field| |discriminate|now left].
    unfold self_field, var. rewrite inf_field, (var_ty "self" (shared (t0 n))) by reflexivity. rewrite posts_cons, tpost_field. cbn [shared reach root_of]. unfold field_ty, t0. unfold declares. rewrite s_shape. cbn [decl_shape]. rewrite EF. rewrite <- EF.
    rewrite (named_decl _ f (distinct_NoDup _ s_distinct) I). reflexivity.
Qed.
Lemma struct_skip_ok : trait_fn_ok fns ext items n (struct_skip_fn s) = true.
Proof.
  unfold trait_fn_ok, struct_skip_fn. destruct (sn_fields s) as [|f0 l] eqn:EF.
  - cbn [rf_name rf_params rf_ret map snd]. cbn [assoc trait_fns String.eqb Ascii.eqb Bool.eqb]. rewrite rty_eqb_same. cbn [filter negb fst String.eqb Ascii.eqb Bool.eqb].
    now rewrite (two_params "_" "_" "BytesReader" "u64" (or_introl (conj eq_refl eq_refl)) eq_refl eq_refl).
  - rewrite <- EF. cbn [rf_name rf_params rf_ret map snd]. cbn [assoc trait_fns String.eqb Ascii.eqb Bool.eqb]. rewrite rty_eqb_same. cbn [filter negb fst String.eqb Ascii.eqb Bool.eqb].
    rewrite (two_params "bytes_reader" "count" "BytesReader" "u64"); [|right; split; [reflexivity|split; [reflexivity|discriminate]]|reflexivity|reflexivity].
    change (rty_eqb unit_ty unit_ty) with true. cbn [andb]. unfold body_ok. cbn [rf_body rf_params param_env flat_map app String.eqb Ascii.eqb Bool.eqb].
    change (result_of (Some n) _) with unit_ty. change (resolve (Some n) (mut_ref "BytesReader")) with reader_ty. change (resolve (Some n) (ty0 "u64")) with (t0 "u64"). rewrite blk_cons, tst_for, inf_num.
    change (literal "0") with (Some 0%Z). rewrite inf_var, (var_ty "count" (t0 "u64")) by reflexivity.
    rewrite blk_keeps_all; [|intros x X; apply in_map_iff in X as (f & <- & I); apply read_st; [now apply s_known|reflexivity]].
    replace (caps_block _) with (@nil string); [reflexivity|]. cbn [caps_block]. clear. induction (sn_fields s) as [|f l IH]; [reflexivity|]. cbn [map caps_st]. rewrite caps_read. exact IH.
Qed.
Lemma struct_impl_ok : item_ok fns ext items (struct_buffers_tree s) = true.
Proof.
  unfold struct_buffers_tree, ty0. cbn [item_ok]. change (String.eqb "IntoVMBuffers" "Default") with false. cbv iota. rewrite (lib_buffers "IntoVMBuffers" eq_refl). change (String.eqb "IntoVMBuffers" "IntoVMBuffers") with true.
  unfold declares. fold n. rewrite s_shape. cbn [andb forallb]. rewrite struct_read_ok, struct_write_ok, struct_skip_ok. cbn [map]. unfold struct_read_fn, struct_write_fn, struct_skip_fn. now destruct (sn_fields s).
Qed.
End Struct.

Section Enum.
Variable e : enum_node.
Hypothesis declared : In (DEnum e) all.
Let n := en_id e.
Lemma e_name : among lib_names n = false.
Proof. apply code_parts. apply in_or_app. left. apply (in_map decl_name _ _ declared). Qed.
Lemma e_shape : shape_of items n = Some (HCases (map variant_tree (en_items e))).
Proof. apply (decl_declared _ declared). Qed.
Lemma e_items : en_items e <> [].
Proof.
  pose proof (proj1 (proj2 (proj2 (RustDefaultRuns.fine_parts ast r fine))) _ declared) as F. cbn [RustFine.decl_fine] in F. rewrite !andb_true_iff in F. destruct F as ((F & _) & _). intros H. rewrite H in F. discriminate.
Qed.
Lemma e_variant i : In i (en_items e) -> variant_of items n (item_name i) = Some (variant_tree i).
Proof. intros I. unfold variant_of. rewrite e_shape. apply (variant_found ast r fine e i declared I). Qed.
Lemma e_payload i t : In i (en_items e) -> In t (payload i) -> codec_type ext all t = true.
Proof. intros I T. apply known_codec. now apply (proj2 (item_parts ast r fine e i declared I)). Qed.
Lemma u32_known : codec_type ext all u32_type_id = true.
Proof. reflexivity. Qed.
Lemma position_number i : In i (en_items e) -> number_in (t0 "u32") (show_N (item_position i)) = true.
Proof.
  intros I. destruct (enum_items_fine e i declared I) as (_ & P & _). unfold number_in, t0. rewrite literal_show. apply andb_true_iff. split; [reflexivity|].
  unfold in_range. cbn. apply andb_true_iff. split; [apply Z.leb_le|apply Z.ltb_lt]; lia.
Qed.
Lemma unsupported_ok c en : assoc "value" en = Some (Some (t0 "u32")) ->
  match inf (snd unsupported) c en with Some q => if owned q then Some (fst q) else None | None => None end = Some never.
Proof. intros E. unfold unsupported. cbn [snd]. rewrite inf_panic. cbn [forallb]. unfold var. rewrite inf_path, (var_ty _ _ _ _ E). reflexivity. Qed.
Definition value_env : tenv := [("value", Some (t0 "u32")); ("bytes_reader", Some reader_ty)].
Definition arm_ok (t : rty) (c : ctx) (en : tenv) (a : pat * ex) (u : rty) : Prop :=
  let '(p, x) := a in exists en', pat_env items t p = Some en' /\ exists k, inf x c (en' ++ en) = Some (u, k) /\ owned (u, k) = true.
Lemma arm_joins t c en a u : arm_ok t c en a u ->
  (let '(p, x) := a in match pat_env items t p with Some en' => match inf x c (en' ++ en) with Some q => if owned q then Some (fst q) else None | None => None end | None => None end) = Some u.
Proof. destruct a as [p x]. intros (en' & P & k & I & O). now rewrite P, I, O. Qed.
Definition read_ctx : ctx := mk_ctx (Some n) (Some (t0 n)) false false.
Lemma read_arm_ok i : In i (en_items e) -> arm_ok (t0 "u32") read_ctx value_env (enum_read_arm n i) never.
Proof.
  intros I. pose proof (position_number i I) as P. pose proof (e_variant i I) as V. pose proof (e_payload i) as K. pose proof (self_name_other read_ctx n (or_introl e_name)) as SN.
  assert (R : forall x, match x with ENum _ => false | _ => true end = true -> inf x read_ctx value_env = Some (t0 n, Temp) -> inf (EReturn x) read_ctx value_env = Some (never, Temp)).
  { intros x N E. rewrite inf_return, E. cbn [c_ret read_ctx fst]. rewrite (fits_same x (t0 n) N). reflexivity. }
  destruct i as [p id|p id vs|p id fs]; cbn [enum_read_arm arm_ok item_position item_name variant_tree] in *; exists []; (split; [unfold pat_env, t0 in *; rewrite P; reflexivity|]); exists Temp; (split; [|reflexivity]); cbn [app]; (apply R; [reflexivity|]).
  - unfold path2. rewrite inf_path. unfold path_ty. rewrite SN, V. reflexivity.
  - unfold path2. rewrite inf_call, tcall_eq. cbv zeta. unfold maker_of. rewrite SN, V. rewrite alone_none.
    + rewrite (args_each fns ext items (fun v => read_tree (tf_type v)) (fun v => rty_of (tf_type v))); [reflexivity|]. intros v J. assert (T : codec_type ext all (tf_type v) = true) by (apply K; [exact I|now apply in_map]).
      apply (arg_val fns ext items read_ctx value_env _ _ Temp); [now apply read_ty|apply read_not_num|reflexivity].
    + apply forallb_forall. intros x X. apply in_map_iff in X as (v & <- & J). now rewrite read_not_var.
  - rewrite inf_struct. unfold struct_fields. rewrite SN, V. rewrite fields_read; [reflexivity|reflexivity| | |reflexivity].
    + intros f J. apply K; [exact I|]. now apply (in_map sf_type).
    + apply (proj1 (item_parts ast r fine e _ declared I)).
Qed.
Lemma enum_read_ok : trait_fn_ok fns ext items n (enum_read_fn e) = true.
Proof.
  unfold trait_fn_ok, enum_read_fn. cbn [rf_name rf_params rf_ret map snd]. cbn [assoc trait_fns String.eqb Ascii.eqb Bool.eqb]. rewrite rty_eqb_same. cbn [filter negb fst String.eqb Ascii.eqb Bool.eqb].
  rewrite (one_param "bytes_reader" "BytesReader" (or_intror eq_refl) eq_refl). change (rty_eqb self_ty (t0 "Self")) with true. cbn [andb]. unfold body_ok. cbn [rf_body rf_params param_env flat_map app String.eqb Ascii.eqb Bool.eqb].
  change (result_of (Some n) _) with (t0 n). change (resolve (Some n) (mut_ref "BytesReader")) with reader_ty. fold read_ctx. rewrite blk_cons, tst_let, (read_ty _ _ _ u32_known) by reflexivity.
  rewrite (bind_local "value" eq_refl), caps_read, moved_none. cbn [owned snd andb fst]. rewrite blk_nil, inf_match. rewrite inf_var, (var_ty "value" (t0 "u32")) by reflexivity.
  assert (X : exhaustive items (t0 "u32") (map fst (map (enum_read_arm (en_id e)) (en_items e) ++ [unsupported])) = true).
  { unfold exhaustive. rewrite map_app, existsb_app. cbn [existsb map fst unsupported]. rewrite !orb_true_r. cbn. destruct (map fst (map (enum_read_arm (en_id e)) (en_items e))); reflexivity. }
  rewrite X. change [("value", Some (rty_of u32_type_id)); ("bytes_reader", Some reader_ty)] with value_env. rewrite join_nevers; [now apply fits_never|].
  intros y Y. apply in_map_iff in Y as (a & <- & A). apply in_app_or in A as [A|[<-|[]]].
  - apply in_map_iff in A as (i & <- & I). now apply (arm_joins _ _ _ _ never), read_arm_ok.
  - cbn [unsupported pat_env t0]. now apply unsupported_ok.
Qed.

Definition write_env : tenv := [("self", Some (shared (t0 n))); ("bytes_writer", Some writer_ty)].
Definition write_ctx : ctx := mk_ctx (Some n) (Some unit_ty) false false.
Lemma bound_env (xs : list (string * rty)) x : In x xs -> distinct (map fst xs) = true -> forall en, assoc (fst x) (map (fun '(x, t) => (x, Some (shared t))) xs ++ en) = Some (Some (shared (snd x))).
Proof.
  intros I D en. induction xs as [|[y t] xs IH]; [destruct I|]. cbn [map app assoc distinct fst] in *. apply andb_true_iff in D as [D1 D2]. apply negb_true_iff, not_among in D1. destruct I as [<-|I].
  - cbn [fst snd]. now rewrite String.eqb_refl.
  - destruct (String.eqb_spec (fst x) y) as [E|_]; [|now apply IH]. destruct D1. rewrite <- E. now apply in_map.
Qed.
Lemma free_env (xs : list (string * rty)) y : ~ In y (map fst xs) -> forall en, assoc y (map (fun '(x, t) => (x, Some (shared t))) xs ++ en) = assoc y en.
Proof.
  intros N en. induction xs as [|[x t] xs IH]; [reflexivity|]. cbn [map app assoc fst] in *. destruct (String.eqb_spec y x) as [E|_]; [destruct N; now left|]. apply IH. intros I. apply N. now right.
Qed.
Lemma slots_ok i : In i (en_items e) -> forallb (bindable items) (slot_names i) = true /\ ~ In "bytes_writer" (slot_names i).
Proof.
  intros I. destruct (enum_items_fine e i declared I) as (_ & _ & S). split.
  - apply forallb_forall. intros x X. specialize (S x X). apply not_among in S. apply bind_ok; apply not_among; intros J; apply S; right; apply in_or_app; tauto.
  - intros X. specialize (S _ X). apply not_among in S. apply S. now left.
Qed.
Lemma enum_seq {A} (l : list A) : forall a, map (fun iv => v_name (fst iv)) (enumerate_from a l) = map (fun n => ("v" ++ show_nat n)%string) (seq a (List.length l)).
Proof. induction l as [|x l IH]; intros a; [reflexivity|]. cbn. f_equal. apply IH. Qed.
Lemma enum_combine {A B} (g : A -> B) (l : list A) : forall a, combine (map (fun iv => v_name (fst iv)) (enumerate_from a l)) (map g l) = map (fun iv => (v_name (fst iv), g (snd iv))) (enumerate_from a l).
Proof. induction l as [|x l IH]; intros a; [reflexivity|]. cbn. f_equal. apply IH. Qed.
Lemma slot_inj i j : ("v" ++ show_nat i)%string = ("v" ++ show_nat j)%string -> i = j.
Proof. cbn [append]. intros H. injection H as H. unfold show_nat in H. apply show_N_inj in H. lia. Qed.
Lemma distinct_NoDup' l : NoDup l -> distinct l = true.
Proof. induction 1 as [|x l N D IH]; [reflexivity|]. cbn [distinct]. rewrite IH, andb_true_r. now apply negb_true_iff, not_among. Qed.
Lemma write_arm_ok i : In i (en_items e) -> arm_ok (shared (t0 n)) write_ctx write_env (enum_write_arm n i) unit_ty.
Proof.
  intros I. pose proof (e_variant i I) as V. pose proof (e_payload i) as K. destruct (enum_items_fine e i declared I) as (_ & P & _). destruct (slots_ok i I) as [B W].
  assert (T : forall bs en, map fst bs = slot_names i -> distinct (map fst bs) = true -> en = map (fun '(x, t) => (x, Some (shared t))) bs ++ write_env ->
              (forall l, (forall s, In s l -> exists t x, s = write_tree t (var x) true /\ In (x, rty_of t) bs /\ codec_type ext all t = true) ->
               inf (EBlock BPlain (Blk (tag_tree (item_position i) :: l) None)) write_ctx en = Some (unit_ty, Temp))).
  { intros bs en S D -> l L. assert (WE : assoc "bytes_writer" (map (fun '(x, t) => (x, Some (shared t))) bs ++ write_env) = Some (Some writer_ty)) by (rewrite free_env; [reflexivity|now rewrite S]).
    rewrite inf_plain, blk_cons, (tag_ok _ _ _ P WE). apply blk_keeps_all. intros s J. destruct (L s J) as (t & x & -> & Q & C). apply (write_ok t _ x true _ _ (shared (rty_of t))); [exact C|exact WE|apply p_var| | |reflexivity].
    - unfold var. rewrite inf_path. apply var_ty. exact (bound_env bs (x, rty_of t) Q D write_env).
    - intros ->. apply W. rewrite <- S. exact (in_map fst _ _ Q). }
  destruct i as [p id|p id vs|p id fs]; cbn [enum_write_arm arm_ok item_position item_name variant_tree slot_names payload] in *.
  - exists []. split; [unfold pat_env, shared, t0; rewrite String.eqb_refl, V; reflexivity|]. exists Temp. split; [|reflexivity]. apply (T [] _ eq_refl eq_refl eq_refl). intros s [].
  - set (bs := map (fun iv => (v_name (fst iv), rty_of (tf_type (snd iv)))) (enumerate vs)).
    assert (F : map fst bs = map (fun n => ("v" ++ show_nat n)%string) (seq 0 (List.length vs))).
    { unfold bs. rewrite map_map. cbn [fst]. apply enum_seq. }
    assert (D : distinct (map fst bs) = true).
    { rewrite F. apply distinct_NoDup'. apply Injective_map_NoDup; [intros a b; apply slot_inj|apply seq_NoDup]. }
    exists (map (fun '(x, t) => (x, Some (shared t))) bs). split; [|exists Temp; split; [|reflexivity]].
    + assert (E : map (fun iv : nat * tuple_field => v_name (fst iv)) (enumerate vs) = map fst bs) by (unfold bs; now rewrite map_map). unfold pat_env, shared at 1, t0. rewrite String.eqb_refl. cbn [andb]. rewrite E, D, F, B. cbn [andb]. rewrite V.
      rewrite !map_length, seq_length, Nat.eqb_refl. f_equal. f_equal. rewrite <- F, <- E. apply (enum_combine (fun v => rty_of (tf_type v))).
    + apply (T bs _ F D eq_refl). intros s J. apply in_map_iff in J as (iv & <- & J). exists (tf_type (snd iv)), (v_name (fst iv)). split; [reflexivity|]. split.
      * unfold bs. apply in_map_iff. now exists iv.
      * apply K; [exact I|]. apply in_map. destruct iv as [a v]. revert J. unfold enumerate. generalize 0. clear. induction vs as [|w vs IH]; intros a0 J; [destruct J|]. destruct J as [J|J]; [injection J as _ ->; now left|right; now apply (IH _ J)].
  - pose proof (proj1 (item_parts ast r fine e _ declared I)) as D. cbn [item_fields] in D. assert (F : map fst (map field_decl fs) = map sf_name fs) by (rewrite map_map; reflexivity).
    exists (map (fun '(x, t) => (x, Some (shared t))) (map field_decl fs)). split; [|exists Temp; split; [|reflexivity]].
    + unfold pat_env, shared at 1, t0. rewrite String.eqb_refl, D, B. cbn [andb]. rewrite V, !map_length, Nat.eqb_refl.
      assert (N : forall f, In f fs -> named (sf_name f) (map field_decl fs) = Some (rty_of (sf_type f))) by (intros f J; apply named_decl; [now apply distinct_NoDup|exact J]).
      assert (A : forallb (fun x => match named x (map field_decl fs) with Some _ => true | None => false end) (map sf_name fs) = true).
      { apply forallb_forall. intros x J. apply in_map_iff in J as (f & <- & J). now rewrite (N f J). }
      rewrite A. cbn [andb]. f_equal. rewrite !map_map. apply map_ext_in. intros f J. rewrite (N f J). reflexivity.
    + apply (T (map field_decl fs) _ F); [now rewrite F|reflexivity|]. intros s J. apply in_map_iff in J as (f & <- & J). exists (sf_type f), (sf_name f). split; [reflexivity|]. split; [exact (in_map field_decl _ _ J)|].
      apply K; [exact I|]. now apply (in_map sf_type).
Qed.
Lemma enum_write_ok : trait_fn_ok fns ext items n (enum_write_fn e) = true.
Proof.
  unfold trait_fn_ok, enum_write_fn. cbn [rf_name rf_params rf_ret map snd]. cbn [assoc trait_fns String.eqb Ascii.eqb Bool.eqb]. rewrite rty_eqb_same. cbn [filter negb fst String.eqb Ascii.eqb Bool.eqb].
  rewrite (one_param "bytes_writer" "BytesWriter" (or_intror eq_refl) eq_refl). change (rty_eqb unit_ty unit_ty) with true. cbn [andb]. unfold body_ok. cbn [rf_body rf_params param_env flat_map app String.eqb Ascii.eqb Bool.eqb].
  change (result_of (Some n) _) with unit_ty. change (resolve (Some n) (mut_ref "BytesWriter")) with writer_ty. change (resolve (Some n) self_ref) with (shared (t0 n)). fold write_ctx write_env.
  rewrite blk_nil, inf_match. unfold var. rewrite inf_path, (var_ty "self" (shared (t0 n))) by reflexivity.
  assert (X : exhaustive items (shared (t0 n)) (map fst (map (enum_write_arm (en_id e)) (en_items e))) = true).
  { unfold exhaustive, shared, t0. rewrite e_shape. apply andb_true_iff. split; [pose proof e_items as N; destruct (en_items e); [congruence|reflexivity]|]. apply orb_true_iff. right. apply forallb_forall. intros v J.
    apply in_map_iff in J as (i & <- & J). apply among_in. apply in_flat_map. exists (fst (enum_write_arm (en_id e) i)). split; [apply in_map, in_map, J|]. destruct i; now left. }
  rewrite X.
  assert (Y : join_all (map (fun '(p, x) => match pat_env items (shared (t0 n)) p with Some en' => match inf x write_ctx (en' ++ write_env) with Some q => if owned q then Some (fst q) else None | None => None end | None => None end)
     (map (enum_write_arm (en_id e)) (en_items e))) = Some unit_ty).
  { rewrite <- (app_nil_r (map _ (map _ _))). apply join_units; [pose proof e_items as N; destruct (en_items e); [congruence|discriminate]| |reflexivity].
    intros y Y. apply in_map_iff in Y as (a & <- & A). apply in_map_iff in A as (i & <- & I). now apply (arm_joins _ _ _ _ unit_ty), write_arm_ok. }
  rewrite Y. reflexivity.
Qed.

Definition skip_env : tenv := ("value", Some (t0 "u32")) :: [("bytes_reader", Some reader_ty); ("count", Some (t0 "u64"))].
Lemma skip_arm_ok i : In i (en_items e) -> arm_ok (t0 "u32") write_ctx skip_env (enum_skip_arm i) unit_ty.
Proof.
  intros I. pose proof (position_number i I) as P. pose proof (e_payload i) as K.
  destruct i as [p id|p id vs|p id fs]; cbn [enum_skip_arm arm_ok item_position payload] in *; exists []; (split; [unfold pat_env, t0 in *; rewrite P; reflexivity|]); exists Temp; (split; [|reflexivity]); cbn [app]; [reflexivity| |];
    rewrite inf_plain; apply blk_keeps_all; intros s J; apply in_map_iff in J as (f & <- & J); (apply read_st; [|reflexivity]); (apply K; [exact I|]); now apply (in_map _ _ _ J).
Qed.
Lemma caps_skip i : (let '(p, x) := enum_skip_arm i in without (pat_names p) (caps_ex x)) = [].
Proof.
  assert (H : forall l, (forall s, In s l -> exists t, s = SSemi (read_tree t)) -> caps_block (Blk l None) = []).
  { intros l H. cbn [caps_block]. induction l as [|s l IH]; [reflexivity|]. destruct (H s (or_introl eq_refl)) as (t & ->). cbn [caps_st]. rewrite caps_read. apply IH. intros y Y. apply H. now right. }
  destruct i as [p id|p id vs|p id fs]; cbn [enum_skip_arm pat_names]; [reflexivity| |]; (change (caps_ex (EBlock BPlain ?b)) with (caps_block b)); (rewrite H; [reflexivity|]); intros s J; apply in_map_iff in J as (f & <- & _); eexists; reflexivity.
Qed.
Lemma enum_skip_ok : trait_fn_ok fns ext items n (enum_skip_fn e) = true.
Proof.
  unfold trait_fn_ok, enum_skip_fn. cbn [rf_name rf_params rf_ret map snd]. cbn [assoc trait_fns String.eqb Ascii.eqb Bool.eqb]. rewrite rty_eqb_same. cbn [filter negb fst String.eqb Ascii.eqb Bool.eqb].
  rewrite (two_params "bytes_reader" "count" "BytesReader" "u64"); [|right; split; [reflexivity|split; [reflexivity|discriminate]]|reflexivity|reflexivity].
  change (rty_eqb unit_ty unit_ty) with true. cbn [andb]. unfold body_ok. cbn [rf_body rf_params param_env flat_map app String.eqb Ascii.eqb Bool.eqb].
  change (result_of (Some n) _) with unit_ty. change (resolve (Some n) (mut_ref "BytesReader")) with reader_ty. change (resolve (Some n) (ty0 "u64")) with (t0 "u64"). fold write_ctx. rewrite blk_cons, tst_for, inf_num.
  change (literal "0") with (Some 0%Z). rewrite inf_var, (var_ty "count" (t0 "u64")) by reflexivity.
  rewrite blk_cons, tst_let, (read_ty _ _ _ u32_known) by reflexivity. rewrite (bind_local "value" eq_refl), caps_read, moved_none. cbn [owned snd andb fst]. rewrite blk_nil, inf_match. rewrite inf_var, (var_ty "value" (t0 "u32")) by reflexivity.
  assert (X : exhaustive items (t0 "u32") (map fst (map enum_skip_arm (en_items e) ++ [unsupported])) = true).
  { unfold exhaustive. rewrite map_app, existsb_app. cbn [existsb map fst unsupported]. rewrite !orb_true_r. cbn. destruct (map fst (map enum_skip_arm (en_items e))); reflexivity. }
  rewrite X. change [("value", Some (rty_of u32_type_id)); ("bytes_reader", Some reader_ty); ("count", Some (t0 "u64"))] with skip_env.
  assert (Y : join_all (map (fun '(p, x) => match pat_env items (t0 "u32") p with Some en' => match inf x write_ctx (en' ++ skip_env) with Some q => if owned q then Some (fst q) else None | None => None end | None => None end)
     (map enum_skip_arm (en_items e) ++ [unsupported])) = Some unit_ty).
  { rewrite map_app. apply join_units.
    - pose proof e_items as N. destruct (en_items e); [congruence|discriminate].
    - intros y Y. apply in_map_iff in Y as (a & <- & A). apply in_map_iff in A as (i & <- & I). now apply (arm_joins _ _ _ _ unit_ty), skip_arm_ok.
    - apply join_nevers. intros y [<-|[]]. cbn [unsupported pat_env t0]. now apply unsupported_ok. }
  rewrite Y. replace (caps_block _) with (@nil string); [reflexivity|]. cbn [caps_block caps_st]. rewrite caps_read. cbn [app]. 
  assert (Z : caps_ex (EMatch (var "value") (map enum_skip_arm (en_items e) ++ [unsupported])) = []).
  { change (caps_ex (EMatch ?a ?l)) with (caps_ex a ++ flat_map (fun '(p, e) => without (pat_names p) (caps_ex e)) l). cbn [caps_ex var app]. rewrite flat_map_app. cbn [flat_map unsupported caps_ex pat_names without filter app]. rewrite app_nil_r.
    clear. induction (en_items e) as [|i l IH]; [reflexivity|]. cbn [map flat_map]. rewrite IH. pose proof (caps_skip i) as C. destruct (enum_skip_arm i). now rewrite C. }
  now rewrite Z.
Qed.
Lemma enum_impl_ok : item_ok fns ext items (enum_buffers_tree e) = true.
Proof.
  unfold enum_buffers_tree, ty0. cbn [item_ok]. change (String.eqb "IntoVMBuffers" "Default") with false. cbv iota. rewrite (lib_buffers "IntoVMBuffers" eq_refl). change (String.eqb "IntoVMBuffers" "IntoVMBuffers") with true.
  unfold declares. fold n. rewrite e_shape. cbn [andb forallb]. rewrite enum_read_ok, enum_write_ok, enum_skip_ok. reflexivity.
Qed.
End Enum.

(** ** The handlers *)

Lemma len_app a b : String.length (a ++ b) = (String.length a + String.length b)%nat.
Proof. induction a as [|c a IH]; [reflexivity|]. cbn [append String.length]. now rewrite IH. Qed.
Lemma not_in l x : among l x = false -> ~ In x l.
Proof. intros N I. apply among_in in I. congruence. Qed.
Lemma among_app a b x : among (a ++ b) x = among a x || among b x.
Proof. unfold among. apply existsb_app. Qed.
Lemma last_two {A} (l : list A) x y d : last (l ++ [x; y]) d = y.
Proof. induction l as [|a l IH]; [reflexivity|]. cbn [app last]. destruct (l ++ [x; y]) eqn:E; [now destruct l|exact IH]. Qed.
Lemma without_in xs l x : among xs x = true -> among (without xs l) x = false.
Proof. intros I. apply not_among. intros J. unfold without in J. apply filter_In in J as [_ J]. now rewrite I in J. Qed.
Lemma moved_from_keeps l en x t : assoc x en = Some (Some t) -> among l x && negb (copy t) = false -> forall seen, assoc x (moved_from l seen en) = Some (Some t).
Proof.
  intros E M. induction en as [|[y u] en IH]; intros seen; [discriminate|]. cbn [assoc moved_from] in *. destruct (String.eqb_spec x y) as [->|N]; [|now apply IH].
  injection E as ->. destruct (among l y); [|reflexivity]. cbn [andb] in *. rewrite M, andb_false_r. reflexivity.
Qed.
Lemma nodup_tail {A} (l m : list A) : NoDup (l ++ m) -> NoDup m.
Proof. induction l as [|a l IH]; [auto|]. cbn [app]. intros N. apply NoDup_cons_iff in N as [_ N]. now apply IH. Qed.
Lemma moved_keeps l en x t : assoc x en = Some (Some t) -> among l x && negb (copy t) = false -> assoc x (moved l en) = Some (Some t).
Proof. intros E M. now apply moved_from_keeps. Qed.
Lemma meth_lib n m x : among lib_names n = true -> String.eqb m "write_to_buffers" || String.eqb m "clone" = false -> method_of n m = Some x -> method_ty ext items (RPath [n] []) m = Some x.
Proof. intros L M E. apply orb_false_iff in M as [M1 M2]. unfold method_ty. now rewrite M1, M2, lib_undeclared. Qed.
Lemma field_lib n f t : among lib_names n = true -> field_of n f = Some t -> field_ty items (RPath [n] []) f = Some t.
Proof. intros L E. unfold field_ty. now rewrite lib_undeclared. Qed.

Lemma items_fns : file_fns items = file_fns (if r then rpc_tree ast else []).
Proof.
  unfold items, rust_tree. rewrite !file_fns_app.
  assert (U : file_fns (if r && nil_or (find_fn_nodes ast) then buffers_use :: runtime_uses else [buffers_use]) = []) by now destruct (r && _).
  assert (V : file_fns (user_uses ast) = []).
  { unfold user_uses. induction (find_directive_group_values ast "rust" "use") as [|v l IH]; [reflexivity|]. cbn [flat_map]. rewrite file_fns_app, IH. now destruct v as [[] ?]. }
  assert (W : file_fns (consts_tree ast) = []).
  { unfold consts_tree. clear. induction ast as [|n l IH]; [reflexivity|]. cbn [flat_map]. rewrite file_fns_app, IH. destruct n as [n|n|n|n|n]; try reflexivity; now destruct n. }
  assert (X : file_fns (models_tree ast) = []).
  { unfold models_tree. clear. induction ast as [|n l IH]; [reflexivity|]. cbn [flat_map]. rewrite file_fns_app, IH. destruct n as [n|n|n|n|n]; try reflexivity.
    all: unfold struct_model_tree, enum_model_tree; try (now destruct (sn_fields n)); now destruct (en_items n). }
  assert (Y : file_fns (buffers_tree ast) = []).
  { unfold buffers_tree. clear. induction ast as [|n l IH]; [reflexivity|]. cbn [flat_map]. rewrite file_fns_app, IH. now destruct n. }
  rewrite U, V, W, X, Y. reflexivity.
Qed.
Lemma schema_in n d : In n ast -> In d (match n with NStruct s => [DStruct s] | NEnum e => [DEnum e] | _ => [] end) -> In d all.
Proof. intros I J. unfold all, rust_decls. apply in_or_app. left. unfold schema_decls. apply in_flat_map. exists n. now split. Qed.
Lemma word_lib x : among rust_words x = true -> among lib_names x = true.
Proof. intros I. apply among_in in I. apply among_in. unfold lib_names. rewrite ?in_app_iff. tauto. Qed.
(** The names in a type. *)
Lemma decl_item_fine d : In d all -> item_ok fns ext items (RustDefaultRuns.decl_item d) = true.
Proof.
  intros I. destruct code_parts as (_ & _ & _ & F). specialize (F d I). destruct d as [s|e]; cbn [RustDefaultRuns.decl_item item_ok].
  - destruct (sn_fields s) as [|f0 l] eqn:E; [reflexivity|]. rewrite <- E. cbn [decl_fine] in F. apply forallb_forall. intros p J. apply in_map_iff in J as (f & <- & J). rewrite forallb_forall in F. exact (F f J).
  - apply forallb_forall. intros v J. apply in_map_iff in J as (i & <- & J). destruct (enum_items_fine e i I J) as (A & _ & B).
    assert (VN : variant_name (variant_tree i) = item_name i) by now destruct i. rewrite VN.
    assert (A' : among rust_words (item_name i) = false) by (cbn [among existsb] in A; apply orb_false_iff in A; tauto). rewrite A'. cbn [negb andb]. destruct i as [p n|p n l|p n l]; try reflexivity. cbn [variant_tree].
    apply forallb_forall. intros q K. apply in_map_iff in K as (f & <- & K). cbn [fst field_decl]. apply negb_true_iff. destruct (among rust_words (sf_name f)) eqn:X; [|reflexivity].
    apply word_lib in X. specialize (B (sf_name f) (in_map sf_name l f K)). apply among_in in X. apply not_in in B. destruct B. right. apply in_or_app. now right.
Qed.
Lemma rpc_items : find_fn_nodes ast <> [] -> rpc_tree ast = register_tree (service_id ast) (find_fn_nodes ast) :: flat_map rpc_method_tree (find_fn_nodes ast).
Proof. intros N. unfold rpc_tree. destruct (find_fn_nodes ast); [congruence|reflexivity]. Qed.

Section Rpc.
Hypothesis rpc : r = true.
Hypothesis some_fns : find_fn_nodes ast <> [].
Lemma lib_rt n : among ("uuid" :: lib_types) n = true -> lib items n = true.
Proof. now apply lib_runtime. Qed.

Definition memory_ty (s : bool) : rty := RRef s true (t0 "TechPawsRuntimeMemory").
(** The variables that a buffer call uses. *)
Definition ready (s : bool) (en : tenv) : Prop :=
  assoc "memory" en = Some (Some (memory_ty s)) /\ assoc "scope_id" en = Some (Some (t0 "TechPawsScopeId")) /\ assoc "rpc_method_address" en = Some (Some (t0 "RpcMethodAddress")).
Lemma side_ok side c en : among ["Server"; "Client"] side = true -> arg_ty items inf blk c en (path2 "TechPawsRuntimeRpcMethodBuffer" side) (PVal (t0 "TechPawsRuntimeRpcMethodBuffer")) = Some (t0 "TechPawsRuntimeRpcMethodBuffer").
Proof.
  intros S. apply (arg_val fns ext items c en _ _ Temp); [|reflexivity|reflexivity]. unfold path2. rewrite inf_path. unfold path_ty.
  replace (self_name c "TechPawsRuntimeRpcMethodBuffer") with "TechPawsRuntimeRpcMethodBuffer" by (unfold self_name; now destruct (c_self c)).
  rewrite variant_shape, lib_free by (apply among_in; reflexivity). rewrite (lib_rt "TechPawsRuntimeRpcMethodBuffer" eq_refl), S. reflexivity.
Qed.
Lemma buffer_call_ty m side closure c en s a o q t : ready s en -> among ["Server"; "Client"] side = true -> among (names_ex closure) "memory" = false -> is_var closure = false ->
  String.eqb m "write_to_buffers" || String.eqb m "clone" = false ->
  method_of "Scope" m = Some (true, [PVal (t0 "RpcMethodAddress"); PVal (t0 "TechPawsRuntimeRpcMethodBuffer"); PClosure a o], q) ->
  arg_ty items inf blk c en closure (PClosure a o) = Some t -> match result_ty q [t0 "RpcMethodAddress"; t0 "TechPawsRuntimeRpcMethodBuffer"; t] with RRef _ _ _ => false | _ => true end = true ->
  inf (buffer_call m side closure) c en = Some (result_ty q [t0 "RpcMethodAddress"; t0 "TechPawsRuntimeRpcMethodBuffer"; t], Temp).
Proof.
  intros (M & I & A) S N V X E C Q. unfold buffer_call. change (var "memory") with (EPath [SName "memory"]). rewrite inf_meth, (var_ty _ _ _ _ M), posts_cons, tpost_meth. unfold memory_ty, reach. cbn [root_of]. unfold t0 at 1.
  rewrite (meth_lib "TechPawsRuntimeMemory" "get_scope_mut" _ eq_refl eq_refl eq_refl). rewrite alone_one. cbn [changeable negb orb andb flat_map names_ex path_names var app]. change (among ["scope_id"] "memory") with false. cbn [negb andb map args_ty].
  change (EPath [SName "scope_id"]) with (var "scope_id"). rewrite (var_arg _ _ c en I eq_refl). cbn [result_ty part_of unique].
  rewrite posts_cons, tpost_meth. unfold unique, reach, scope_ty. cbn [root_of]. unfold t0 at 1.
  rewrite (meth_lib "Scope" m _ eq_refl X E).
  assert (AL : alone en [var "rpc_method_address"; path2 "TechPawsRuntimeRpcMethodBuffer" side; closure] = true).
  { unfold alone. cbn [forallb var path2]. rewrite A. cbn [is_mut t0 negb orb andb]. destruct closure; try reflexivity. destruct p as [|[x|] [|]]; try reflexivity. discriminate V. }
  rewrite AL. cbn [changeable negb orb andb flat_map names_ex path_names var path2]. rewrite app_nil_r. cbn [app]. 
  assert (NN : among ("rpc_method_address" :: names_ex closure) "memory" = false) by (cbn [among existsb]; exact N). rewrite NN. cbn [negb map args_ty].
  change (EPath [SName "rpc_method_address"]) with (var "rpc_method_address"). rewrite (var_arg _ _ c en A eq_refl). change (EPath [SName "TechPawsRuntimeRpcMethodBuffer"; SName side]) with (path2 "TechPawsRuntimeRpcMethodBuffer" side).
  rewrite (side_ok side c en S), C, posts_nil. f_equal. f_equal. unfold part_of. destruct (result_ty _ _); try reflexivity. discriminate Q.
Qed.
Lemma writer_closure l c en : (forall st, In st l -> forall c0, tst st c0 (("bytes_writer", Some writer_ty) :: en) = Some (("bytes_writer", Some writer_ty) :: en)) ->
  arg_ty items inf blk c en (writer_block l) (PClosure (unique (t0 "BytesWriter")) (Some unit_ty)) = Some unit_ty.
Proof.
  intros H. unfold writer_block, arg_ty. rewrite inf_plain. change (unique (t0 "BytesWriter")) with writer_ty. rewrite blk_keeps_all by (intros st I; now apply H). now rewrite (bind_local "bytes_writer" eq_refl).
Qed.
Lemma write_u8_ok v z c en : literal v = Some z -> in_range "u8" z = true -> assoc "bytes_writer" en = Some (Some writer_ty) -> tst (write_u8 v) c en = Some en.
Proof.
  intros L B E. unfold write_u8. apply (write_prim "u8" (ENum v) c en (t0 "i32") Temp); try reflexivity; try assumption.
  - now rewrite inf_num, L.
  - unfold fits, number_in, t0. now rewrite L, B.
Qed.
Lemma caps_buffer m side closure : caps_ex (buffer_call m side closure) = caps_ex closure.
Proof. unfold buffer_call. cbn [caps_ex caps_post flat_map var path2 app]. now rewrite !app_nil_r. Qed.
(** A call that writes a status and more. *)
Lemma write_call side v z l c en s : ready s en -> among ["Server"; "Client"] side = true -> literal v = Some z -> in_range "u8" z = true ->
  (forall st, In st l -> forall c0, tst st c0 (("bytes_writer", Some writer_ty) :: en) = Some (("bytes_writer", Some writer_ty) :: en)) ->
  among (flat_map names_st l) "memory" = false -> caps_block (Blk l None) = [] ->
  tst (SSemi (buffer_call "rpc_buffer_write" side (writer_block (write_u8 v :: l)))) c en = Some en.
Proof.
  intros RD S L B H N C. rewrite tst_semi.
  rewrite (buffer_call_ty "rpc_buffer_write" side _ c en s (unique (t0 "BytesWriter")) (Some unit_ty) (Is unit_ty) unit_ty RD S); try reflexivity.
  - cbn [owned snd]. rewrite caps_buffer. unfold writer_block. change (caps_ex (EClosure ?x ?e)) with (without [x] (caps_ex e)). change (caps_ex (EBlock BPlain ?b)) with (caps_block b).
    replace (caps_block (Blk (write_u8 v :: l) None)) with (caps_block (Blk l None)) by reflexivity. rewrite C. now rewrite moved_none.
  - unfold writer_block. cbn [names_ex names_block flat_map]. rewrite app_nil_r, among_app, N. reflexivity.
  - apply writer_closure. intros st [<-|I]; [|now apply H]. intros c0. now apply (write_u8_ok v z).
Qed.
Lemma read_u8_ok c en : assoc "bytes_reader" en = Some (Some reader_ty) -> inf read_u8 c en = Some (t0 "u8", Temp).
Proof. intros E. now apply (read_prim "u8"). Qed.
Lemma status_ok c en : assoc "status" en = Some (Some (t0 "u8")) -> inf (EEq (var "status") (ENum "0xFF")) c en = Some (t0 "bool", Temp).
Proof. intros E. rewrite inf_eq. unfold var. rewrite inf_path, (var_ty _ _ _ _ E), inf_num. reflexivity. Qed.

(** All the variables are those of the generated code. *)
Definition locals (en : tenv) : Prop := forallb (fun p => among local_names (fst p)) en = true.
Lemma free_in en x : locals en -> among local_names x = false -> assoc x en = None.
Proof.
  unfold locals. induction en as [|[y t] en IH]; intros L N; [reflexivity|]. cbn [forallb fst assoc] in *. apply andb_true_iff in L as [L1 L2]. destruct (String.eqb_spec x y) as [->|_]; [congruence|]. now apply IH.
Qed.

Section Method.
Variable f : fn_node.
Hypothesis node : In f (find_fn_nodes ast).
Lemma f_fine : (fn_position f < 2 ^ 64)%N /\ among (local_names ++ lib_names) (fn_id f) = false /\ among lib_names (handler_id f) = false /\
  (forall t, fn_return f = Some t -> codec_type ext all t = true /\ (fn_is_read f = true -> prim_of t = None)).
Proof.
  destruct (rpc_parts rpc) as (A & _). specialize (A f node). unfold RustStaticSpec.fn_fine in A. rewrite !andb_true_iff in A. destruct A as (((A & B) & C) & D). split; [now apply N.ltb_lt|]. split; [now apply negb_true_iff|]. split; [now apply negb_true_iff|].
  intros t E. rewrite E in D. apply andb_true_iff in D as [D1 D2]. split; [exact D1|]. intros Q. rewrite Q in D2. destruct t; try reflexivity; discriminate D2.
Qed.
Lemma f_local x : among local_names x = true -> String.eqb (fn_id f) x = false /\ String.eqb x (fn_id f) = false.
Proof.
  intros I. destruct f_fine as (_ & B & _). rewrite among_app in B. apply orb_false_iff in B as [B _]. split; apply String.eqb_neq; intros E; rewrite <- ?E, ?E in *; congruence.
Qed.
Lemma f_lib x : among lib_names x = true -> String.eqb (fn_id f) x = false.
Proof. intros I. destruct f_fine as (_ & B & _). rewrite among_app in B. apply orb_false_iff in B as [_ B]. apply String.eqb_neq. intros E. rewrite E in B. congruence. Qed.
Lemma f_free en : locals en -> assoc (fn_id f) en = None.
Proof. intros L. apply (free_in en _ L). destruct f_fine as (_ & B & _). rewrite among_app in B. now apply orb_false_iff in B. Qed.
Lemma f_user : assoc (fn_id f) fns = Some (snd (user_fn f)).
Proof.
  unfold fns, user_fns. rewrite rpc. destruct (rpc_parts rpc) as (_ & _ & D).
  assert (N : NoDup (map fn_id (find_fn_nodes ast))).
  { apply distinct_NoDup in D. apply NoDup_cons_iff in D as [_ D]. apply nodup_tail in D. now apply nodup_tail in D. }
  revert N node. generalize (find_fn_nodes ast). intros l N I. induction l as [|g l IH]; [destruct I|]. cbn [map assoc]. change (user_fn g) with (fn_id g, snd (user_fn g)). cbn [assoc]. cbn [map] in N. apply NoDup_cons_iff in N as [A B]. destruct I as [->|I].
  - now rewrite String.eqb_refl.
  - destruct (String.eqb_spec (fn_id f) (fn_id g)) as [E|_]; [destruct A; rewrite <- E; now apply in_map|]. now apply IH.
Qed.
Definition ret_ty : rty := match fn_return f with Some t => rty_of t | None => unit_ty end.
Definition args_ty_of : rty := t0 (args_struct_id f).
Definition args_struct : struct_node := if fn_is_async f then async_args_struct f else sync_args_struct f.
Lemma args_name : decl_name (DStruct args_struct) = args_struct_id f.
Proof. unfold args_struct. now destruct (fn_is_async f). Qed.
Lemma args_in : fn_is_read f = false -> In (DStruct args_struct) all.
Proof.
  intros Q. unfold all, rust_decls. rewrite rpc. apply in_or_app. right. unfold args_decls. apply in_flat_map. exists f. split; [exact node|]. rewrite Q. now left.
Qed.
Lemma args_codec : fn_is_read f = false -> codec_type ext all (TyOther (args_struct_id f)) = true.
Proof.
  intros Q. apply known_codec. cbn [known_type]. apply orb_true_iff. right. pose proof (in_find all _ (proj1 (RustDefaultRuns.fine_parts ast r fine)) (args_in Q)) as E. rewrite args_name in E. unfold RustFine.is_declared. now rewrite E.
Qed.
Lemma args_lib : fn_is_read f = false -> among lib_names (args_struct_id f) = false.
Proof. intros Q. rewrite <- args_name. apply code_parts. apply in_or_app. left. now apply in_map, args_in. Qed.
Lemma args_not_never : is_never args_ty_of = false.
Proof. reflexivity. Qed.
Lemma get_args_ty c en s : ready s en -> locals en -> fn_is_read f = false -> inf (get_args_tree f) c en = Some (option_of args_ty_of, Temp).
Proof.
  intros RD L Q. unfold get_args_tree. apply (buffer_call_ty "rpc_buffer_read" "Server" _ c en s reader_ty None OfClosure (option_of args_ty_of) RD); try reflexivity.
  unfold arg_ty. rewrite inf_plain, blk_cons, tst_let, read_u8_ok by reflexivity. rewrite (bind_local "status" eq_refl). cbn [owned snd fst andb]. change (caps_ex read_u8) with (@nil string). rewrite moved_none.
  rewrite blk_nil, inf_if, status_ok by reflexivity. rewrite blk_nil. unfold call1, var at 1. rewrite inf_call, tcall_eq.
  assert (SN : assoc "Some" (("status", Some (t0 "u8")) :: ("bytes_reader", Some reader_ty) :: en) = None) by (apply free_in; [exact L|reflexivity]). rewrite SN. change (String.eqb "Some" "Some") with true. cbv iota. cbn [map].
  change (EPost (path2 (args_struct_id f) "read_from_buffers") [XCall [var "bytes_reader"] false]) with (read_tree (TyOther (args_struct_id f))).
  rewrite read_ty; [|now apply args_codec|reflexivity]. cbn [owned snd fst]. rewrite posts_nil. cbn [owned snd fst]. change (rty_eqb (t0 "bool") (t0 "bool")) with true. cbn [andb].
  rewrite blk_nil. unfold var. rewrite inf_path. unfold path_ty.
  assert (NN : assoc "None" (("status", Some (t0 "u8")) :: ("bytes_reader", Some reader_ty) :: en) = None) by (apply free_in; [exact L|reflexivity]). rewrite NN. cbn [among existsb String.eqb Ascii.eqb Bool.eqb orb owned snd fst].
  assert (J : join (option_of (rty_of (TyOther (args_struct_id f)))) (option_of never) = Some (option_of args_ty_of)) by reflexivity. rewrite J. cbn [option_map owned snd fst]. now rewrite (bind_local "bytes_reader" eq_refl).
Qed.
Lemma caps_get_args : caps_ex (get_args_tree f) = [].
Proof. reflexivity. Qed.
Lemma clear_ok c en s : ready s en -> tst clear_request_tree c en = Some en.
Proof. intros RD. apply (write_call "Server" "0x00" 0%Z [] c en s RD); try reflexivity. intros st []. Qed.
(** The arguments of the call. *)
Lemma arg_ok (u : rty) c en a : fn_is_read f = false -> u = args_ty_of \/ u = shared args_ty_of -> assoc "args" en = Some (Some u) -> In a (fn_args f) ->
  arg_ty items inf blk c en (EPost (var "args") [XMeth "clone" [] false; XField (fa_id a)]) (PVal (rty_of (fa_type a))) = Some (rty_of (fa_type a)).
Proof.
  intros Q U E I. apply (arg_val fns ext items c en _ _ Temp); [|reflexivity|reflexivity]. unfold var. rewrite inf_meth, (var_ty _ _ _ _ E), posts_cons, tpost_meth.
  assert (R : exists k, reach (u, Place false false "args") = (args_ty_of, k)) by (destruct U as [-> | ->]; eexists; reflexivity). destruct R as (k & R). rewrite R.
  assert (M : method_ty ext items args_ty_of "clone" = Some (false, [], Is args_ty_of)).
  { unfold method_ty, args_ty_of, t0. cbn [String.eqb Ascii.eqb Bool.eqb]. rewrite <- args_name. now rewrite (all_derived _ (args_in Q)). }
  rewrite M. cbn [negb orb andb]. rewrite alone_nil. cbn [flat_map among existsb negb andb map args_ty result_ty]. rewrite posts_cons, tpost_field. unfold args_ty_of, t0. cbn [part_of reach].
  unfold field_ty, declares. rewrite <- args_name, (decl_declared _ (args_in Q)).
  assert (SF : exists sf, In sf (sn_fields args_struct) /\ sf_name sf = fa_id a /\ sf_type sf = fa_type a).
  { assert (AF : forall n, exists sf, In sf (args_fields n (fn_args f)) /\ sf_name sf = fa_id a /\ sf_type sf = fa_type a).
    { unfold args_fields. revert I. generalize (fn_args f). intros l. induction l as [|b l IH]; intros I n; [destruct I|]. cbn [enumerate_from map fst snd]. destruct I as [->|I].
      - eexists. split; [now left|]. split; reflexivity.
      - destruct (IH I (S n)) as (sf & J & X). exists sf. split; [now right|exact X]. }
    unfold args_struct. destruct (fn_is_async f); cbn [async_args_struct sync_args_struct sn_fields].
    - destruct (AF 1) as (sf & J & X). exists sf. split; [now right|exact X].
    - apply AF. }
  destruct SF as (sf & J & SN & ST). cbn [decl_shape]. destruct (sn_fields args_struct) as [|f0 l] eqn:EF; [destruct J|]. rewrite <- EF in *. rewrite <- SN, <- ST.
  rewrite (named_decl (sn_fields args_struct) sf); [reflexivity| |exact J]. apply distinct_NoDup, (struct_parts ast r fine args_struct (args_in Q)).
Qed.
Lemma id_ty c en : fn_is_read f = false -> fn_is_async f = true -> assoc "args" en = Some (Some args_ty_of) -> inf (EPost (var "args") [XField "__method_id__"]) c en = Some (t0 "i64", Place false false "args").
Proof.
  intros Q A E. unfold var. rewrite inf_field, (var_ty _ _ _ _ E), posts_cons, tpost_field. unfold args_ty_of, t0. cbn [reach]. unfold field_ty, declares. rewrite <- args_name, (decl_declared _ (args_in Q)). unfold args_struct. rewrite A. reflexivity.
Qed.
Definition after_call (en : tenv) : tenv := match fn_return f with None => en | Some t => ("result", Some (rty_of t)) :: en end.
Lemma call_ok (u : rty) c en : fn_is_read f = false -> locals en -> u = args_ty_of \/ u = shared args_ty_of -> assoc "args" en = Some (Some u) -> c_async c = fn_is_async f ->
  tst (call_tree (fn_is_async f) f) c en = Some (after_call en).
Proof.
  intros Q L U E CA.
  assert (T : inf (EPost (var (fn_id f)) (XCall (map (fun a => EPost (var "args") [XMeth "clone" [] false; XField (fa_id a)]) (fn_args f)) (nil_or (map (fun a => EPost (var "args") [XMeth "clone" [] false; XField (fa_id a)]) (fn_args f))) ::
     (if fn_is_async f then [XField "await"] else []))) c en = Some (ret_ty, Temp)).
  { unfold var at 1. rewrite inf_call, tcall_eq, (f_free en L), (f_lib "Some" eq_refl). unfold maker_of. rewrite f_user. unfold user_fn. rewrite Q. cbn [snd].
    rewrite alone_none by (apply forallb_forall; intros e I; apply in_map_iff in I as (a & <- & _); reflexivity).
    rewrite (args_each fns ext items _ (fun a => rty_of (fa_type a)) c en) by (intros a I; now apply (arg_ok u)).
    destruct (fn_is_async f).
    - rewrite posts_cons, tpost_field. unfold future_of. cbn [String.eqb Ascii.eqb Bool.eqb andb]. now rewrite CA.
    - reflexivity. }
  assert (C : caps_ex (EPost (var (fn_id f)) (XCall (map (fun a => EPost (var "args") [XMeth "clone" [] false; XField (fa_id a)]) (fn_args f)) (nil_or (map (fun a => EPost (var "args") [XMeth "clone" [] false; XField (fa_id a)]) (fn_args f))) ::
     (if fn_is_async f then [XField "await"] else []))) = []).
  { cbn [caps_ex flat_map caps_post var app]. replace (flat_map caps_post (if fn_is_async f then [XField "await"] else [])) with (@nil string) by now destruct (fn_is_async f). rewrite app_nil_r. clear. induction (fn_args f) as [|a l IH]; [reflexivity|exact IH]. }
  unfold call_tree, after_call. unfold ret_ty in T. destruct (fn_return f).
  - rewrite tst_let, T, C, moved_none, (bind_local "result" eq_refl). reflexivity.
  - rewrite tst_semi, T, C, moved_none. reflexivity.
Qed.
Lemma names_call b x : String.eqb (fn_id f) x = false -> x <> "args" -> among (names_st (call_tree b f)) x = false.
Proof.
  intros X A. apply not_among. intros I.
  assert (K : In x (names_ex (EPost (var (fn_id f)) (XCall (map (fun a => EPost (var "args") [XMeth "clone" [] false; XField (fa_id a)]) (fn_args f)) (nil_or (map (fun a => EPost (var "args") [XMeth "clone" [] false; XField (fa_id a)]) (fn_args f))) ::
     (if b then [XField "await"] else []))))) by (unfold call_tree in I; destruct (fn_return f); exact I).
  cbn [names_ex var path_names flat_map names_post app] in K. destruct K as [K|K]; [apply String.eqb_neq in X; congruence|]. apply in_app_or in K as [K|K].
  - apply in_flat_map in K as (e & J & K). apply in_map_iff in J as (a & <- & _). cbn in K. destruct K as [K|[]]. congruence.
  - destruct b; destruct K.
Qed.
Lemma names_result x : x <> "result" -> x <> "bytes_writer" -> among (flat_map names_st (result_tree f)) x = false.
Proof.
  intros X Y. apply not_among. intros I. unfold result_tree in I. destruct (fn_return f) as [t|]; [|destruct I]. cbn [flat_map] in I. rewrite app_nil_r in I. destruct t; cbn in I; destruct I as [I|[I|[]]]; congruence.
Qed.
Lemma caps_result : caps_block (Blk (result_tree f) None) = [].
Proof. unfold result_tree. destruct (fn_return f) as [t|]; [destruct t; reflexivity|reflexivity]. Qed.
Lemma result_writes u c en st : In st (result_tree f) -> (forall t, fn_return f = Some t -> assoc "result" en = Some (Some u) /\ (u = rty_of t \/ (u = shared (rty_of t) /\ prim_of t = None))) ->
  assoc "bytes_writer" en = Some (Some writer_ty) -> tst st c en = Some en.
Proof.
  intros I U E. unfold result_tree in I. destruct f_fine as (_ & _ & _ & RT). destruct (fn_return f) as [t|]; [|destruct I]. destruct I as [<-|[]]. destruct (U t eq_refl) as (V & W).
  apply (write_ok t (var "result") "result" false c en u); try assumption; [now apply RT|constructor| |discriminate]. unfold var. rewrite inf_path. now apply var_ty.
Qed.
(** The parameters of the handlers. *)
Lemma sig_rt n : among lib_types n = true -> sig_ty items (t0 n) = true.
Proof. intros I. unfold t0. cbn [sig_ty]. rewrite I, lib_rt; [now rewrite orb_true_r|]. apply among_in. right. now apply among_in. Qed.
Lemma handler_parts ps b : forallb (fun p => (String.eqb (fst p) "_" || among local_names (fst p)) && sig_ty items (snd p)) ps = true -> distinct (without ["_"] (map fst ([("scope_id", ty0 "TechPawsScopeId")] ++ ps ++ [("rpc_method_address", ty0 "RpcMethodAddress")]))) = true ->
  body_ok fns ext items None (mk_rfn (fn_id f ++ "_rpc_handler") ([("scope_id", ty0 "TechPawsScopeId")] ++ ps ++ [("rpc_method_address", ty0 "RpcMethodAddress")]) true (Some (ty0 "bool")) b) = true ->
  item_ok fns ext items (handler f ps b) = true.
Proof.
  intros P D B. unfold handler. cbn [item_ok]. rewrite B, andb_true_r. cbn [rf_params rf_ret]. apply andb_true_iff. split; [|reflexivity]. unfold params_fine. rewrite D. cbn [andb]. rewrite !forallb_app. cbn [forallb andb].
  rewrite !bind_local by reflexivity. change (ty0 ?n) with (t0 n). rewrite !sig_rt by reflexivity. cbn [orb andb]. rewrite andb_true_r. rewrite orb_true_r. cbn [andb]. rewrite andb_true_r. apply forallb_forall. intros [x t] I. rewrite forallb_forall in P. specialize (P _ I). cbn [fst snd] in P.
  apply andb_true_iff in P as [P1 P2]. rewrite P2, andb_true_r. apply orb_true_iff in P1 as [-> | P1]; [reflexivity|]. now rewrite (bind_local x P1), orb_true_r.
Qed.
Lemma memory_sig : sig_ty items (snd memory_param) = true.
Proof. cbn [snd memory_param mut_ref sig_ty]. now apply sig_rt. Qed.
Lemma async_sig a b : (String.eqb a "_" || among local_names a) = true -> (String.eqb b "_" || among local_names b) = true -> forallb (fun p => (String.eqb (fst p) "_" || among local_names (fst p)) && sig_ty items (snd p)) (async_params a b) = true.
Proof.
  intros A B. cbn [async_params forallb fst]. rewrite A, B, memory_sig. cbn [memory_param snd fst andb RustTree.runtime_fn mut_ref sig_ty]. change (ty0 ?n) with (t0 n). rewrite !sig_rt by reflexivity. reflexivity.
Qed.
Lemma is_some_ok x t c en : assoc x en = Some (Some (option_of t)) -> inf (is_some_tree x) c en = Some (t0 "bool", Temp).
Proof.
  intros E. unfold is_some_tree, var. rewrite inf_meth, (var_ty _ _ _ _ E), posts_cons, tpost_meth. unfold option_of, reach. unfold method_ty. cbn [String.eqb Ascii.eqb Bool.eqb andb negb orb]. rewrite alone_nil. reflexivity.
Qed.
Let c0 := mk_ctx None (Some (t0 "bool")) false false.

(** ** A [fn] *)
Definition sync_env : tenv := [("scope_id", Some (t0 "TechPawsScopeId")); ("memory", Some (memory_ty false)); ("rpc_method_address", Some (t0 "RpcMethodAddress"))].
Lemma result_env en t : fn_return f = Some t -> assoc "result" (("bytes_writer", Some writer_ty) :: after_call en) = Some (Some ret_ty) /\ (ret_ty = rty_of t \/ (ret_ty = shared (rty_of t) /\ prim_of t = None)).
Proof. intros E. unfold after_call, ret_ty. rewrite E. split; [reflexivity|now left]. Qed.
Lemma ready_after s en : ready s en -> ready s (after_call en).
Proof. intros RD. unfold after_call. destruct (fn_return f); [|exact RD]. destruct RD as (A & B & C). unfold ready. cbn [assoc String.eqb Ascii.eqb Bool.eqb]. now repeat split. Qed.
Lemma moved_arg x t b en : assoc x en = Some (Some t) -> assoc x (moved (caps_ex (if_some x b)) en) = Some (Some t).
Proof. intros E. apply moved_keeps; [exact E|]. unfold if_some. cbn [caps_ex var app pat_names]. rewrite without_in; [reflexivity|]. cbn [among existsb]. now rewrite String.eqb_refl. Qed.
Lemma sync_handler_ok : fn_is_read f = false -> fn_is_async f = false -> exists b, last (sync_method_tree f) (IUse []) = handler f [memory_param] b /\ item_ok fns ext items (handler f [memory_param] b) = true.
Proof.
  intros Q AS. unfold sync_method_tree. rewrite last_two. eexists. split; [reflexivity|]. apply handler_parts; [cbn [forallb fst memory_param]; rewrite memory_sig; reflexivity|reflexivity|].
  unfold body_ok. cbn [rf_body rf_params]. change (param_env None _) with sync_env. change (result_of None _) with (t0 "bool"). fold c0.
  assert (RD : ready false sync_env) by now repeat split.
  rewrite blk_cons, tst_let, (get_args_ty c0 sync_env false RD eq_refl Q). rewrite caps_get_args, moved_none, (bind_local "args" eq_refl). cbn [owned snd fst andb].
  set (e1 := ("args", Some (option_of args_ty_of)) :: sync_env). set (e2 := ("args", Some (shared args_ty_of)) :: e1). assert (R1 : ready false e2) by now repeat split.
  assert (CT : tst (call_tree false f) c0 e2 = Some (after_call e2)) by (rewrite <- AS at 1; now apply (call_ok (shared args_ty_of) c0 e2 Q eq_refl (or_intror eq_refl))).
  rewrite blk_cons, tst_bare. unfold if_some, var at 1. rewrite inf_iflet. change (assoc "args" e1) with (Some (Some (option_of args_ty_of))). unfold option_of at 1. cbv iota beta. rewrite (bind_local "args" eq_refl). cbn [String.eqb Ascii.eqb Bool.eqb andb orb].
  fold e2. rewrite blk_cons, (clear_ok c0 _ false R1), blk_cons, CT.
  rewrite blk_cons, (write_call "Client" "0xFF" 255%Z (result_tree f) c0 _ false (ready_after _ _ R1) eq_refl eq_refl eq_refl).
  - rewrite blk_nil. change (is_unit (fst (unit_ty, Temp))) with true. cbv match beta. change (is_unit (fst (unit_ty, Temp))) with true. cbn [orb]. rewrite blk_nil, (is_some_ok "args" args_ty_of).
    + reflexivity.
    + now apply moved_arg.
  - intros st I c1. apply (result_writes ret_ty c1 _ st I); [now apply result_env|reflexivity].
  - apply names_result; discriminate.
  - apply caps_result.
Qed.
(** ** An [async fn] *)
Definition async_env : tenv :=
  [("scope_id", Some (t0 "TechPawsScopeId")); ("runtime_as_mut", Some RustTree.runtime_fn); ("memory", Some (memory_ty false)); ("async_context", Some (unique (t0 "TechPawsRuntimeAsyncContext"))); ("rpc_method_address", Some (t0 "RpcMethodAddress"))].
Lemma let_memory_ok c en : assoc "runtime_as_mut" en = Some (Some RustTree.runtime_fn) -> tst let_memory c en = Some (("memory", Some (memory_ty true)) :: en).
Proof.
  intros E. unfold let_memory. rewrite tst_let, inf_unsafe, blk_nil, inf_ref. unfold var. rewrite inf_call, tcall_eq, E. cbn [RustTree.runtime_fn in_unsafe c_unsafe]. rewrite posts_cons, tpost_field. cbn [reach root_of]. unfold ty0. rewrite (field_lib "TechPawsRuntime" "memory" _ eq_refl eq_refl). cbn [option_map]. rewrite posts_nil.
  cbn [negb orb owned snd fst]. rewrite (bind_local "memory" eq_refl). cbn [andb caps_ex caps_block flat_map caps_post app]. now rewrite moved_none.
Qed.
Lemma spawn_ok l t c en k : assoc "async_context" en = Some (Some (unique (t0 "TechPawsRuntimeAsyncContext"))) -> blk (Blk l t) (in_async c) (held en) = Some (unit_ty, k) -> among (names_block (Blk l t)) "async_context" = false ->
  tst (spawn_tree l t) c en = Some (moved (names_block (Blk l t)) en).
Proof.
  intros E B N. unfold spawn_tree. rewrite tst_semi. unfold var. rewrite inf_field, (var_ty _ _ _ _ E), posts_cons, tpost_field. unfold unique, reach, t0. cbn [root_of]. rewrite (field_lib "TechPawsRuntimeAsyncContext" "async_spawner" _ eq_refl eq_refl). cbn [option_map].
  rewrite posts_cons, tpost_meth. unfold spawner_ty, t0. cbn [reach]. rewrite (meth_lib "Spawner" "spawn" _ eq_refl eq_refl eq_refl), alone_one. cbn [changeable negb orb andb flat_map root_of]. rewrite app_nil_r. change (names_ex (EBlock BAsync ?b)) with (names_block b). rewrite N. cbn [negb map args_ty]. unfold arg_ty. rewrite B.
  change (is_unit unit_ty) with true. cbn [result_ty]. rewrite posts_nil. cbn [part_of unit_ty t0 owned snd]. 
  replace (caps_ex (EPost (EPath [SName "async_context"]) [XField "async_spawner"; XMeth "spawn" [EBlock BAsync (Blk l t)] false])) with (names_block (Blk l t)); [reflexivity|].
  change (caps_ex (EPost (EPath [SName "async_context"]) [XField "async_spawner"; XMeth "spawn" [EBlock BAsync (Blk l t)] false])) with ((names_block (Blk l t) ++ []) ++ []). now rewrite !app_nil_r.
Qed.
Lemma names_cons s l t x : among (names_block (Blk (s :: l) t)) x = among (names_st s) x || among (names_block (Blk l t)) x.
Proof. cbn [names_block flat_map]. now rewrite <- app_assoc, among_app. Qed.
Lemma names_write side v l x : among ["memory"; "scope_id"; "rpc_method_address"; "bytes_writer"] x = false -> among (names_st (SSemi (buffer_call "rpc_buffer_write" side (writer_block (write_u8 v :: l))))) x = among (flat_map names_st l) x.
Proof.
  intros N. cbn [names_st buffer_call names_ex var path2 path_names flat_map names_post app writer_block names_block write_u8]. rewrite !app_nil_r. cbn [among existsb] in *.
  rewrite !orb_false_iff in N. destruct N as (A & B & C & D & _). now rewrite A, B, C, D.
Qed.
Lemma async_handler_ok : fn_is_read f = false -> fn_is_async f = true -> exists b, last (async_method_tree f) (IUse []) = handler f (async_params "runtime_as_mut" "async_context") b /\ item_ok fns ext items (handler f (async_params "runtime_as_mut" "async_context") b) = true.
Proof.
  intros Q AS. unfold async_method_tree. rewrite last_two. eexists. split; [reflexivity|]. apply handler_parts; [now apply async_sig|reflexivity|].
  unfold body_ok. cbn [rf_body rf_params]. change (param_env None _) with async_env. change (result_of None _) with (t0 "bool"). fold c0.
  assert (RD : ready false async_env) by now repeat split.
  rewrite blk_cons, tst_let, (get_args_ty c0 async_env false RD eq_refl Q). rewrite caps_get_args, moved_none, (bind_local "args" eq_refl). cbn [owned snd fst andb].
  set (e1 := ("args", Some (option_of args_ty_of)) :: async_env). set (e2 := ("args", Some (shared args_ty_of)) :: e1). assert (R1 : ready false e2) by now repeat split.
  rewrite blk_cons, tst_bare.
  assert (IF : inf (if_some "args" (Blk
             [clear_request_tree;
              SLet "args" (EPost (var "args") [XMeth "clone" [] false]);
              spawn_tree
                [let_memory;
                 call_tree true f;
                 SSemi (buffer_call "rpc_buffer_write" "Client"
                   (writer_block
                     (write_u8 "0xFF" ::
                      SSemi (EPost (var "bytes_writer")
                        [XMeth "write_i64" [EPost (var "args") [XField "__method_id__"]] false]) ::
                      result_tree f)))] None] None)) c0 e1 = Some (unit_ty, Temp)).
  { unfold if_some, var at 1. rewrite inf_iflet. change (assoc "args" e1) with (Some (Some (option_of args_ty_of))). unfold option_of at 1. cbv iota beta. rewrite (bind_local "args" eq_refl). cbn [String.eqb Ascii.eqb Bool.eqb andb orb].
    fold e2. rewrite blk_cons, (clear_ok c0 _ false R1), blk_cons, tst_let.
    assert (CL : inf (EPost (var "args") [XMeth "clone" [] false]) c0 e2 = Some (args_ty_of, Temp)).
    { unfold var. rewrite inf_meth, (var_ty "args" (shared args_ty_of) c0 e2 eq_refl), posts_cons, tpost_meth. unfold shared, reach. cbn [root_of].
      assert (M : method_ty ext items args_ty_of "clone" = Some (false, [], Is args_ty_of)).
      { unfold method_ty, args_ty_of, t0. cbn [String.eqb Ascii.eqb Bool.eqb]. rewrite <- args_name. now rewrite (all_derived _ (args_in Q)). }
      rewrite M. cbn [negb orb andb]. rewrite alone_nil. reflexivity. }
    rewrite CL, (bind_local "args" eq_refl). cbn [owned snd fst andb]. change (caps_ex (EPost (var "args") [XMeth "clone" [] false])) with (@nil string). rewrite moved_none.
    set (e3 := ("args", Some args_ty_of) :: e2).
    set (h := held e3). assert (HA : assoc "args" h = Some (Some args_ty_of)) by reflexivity.
    set (e4 := ("memory", Some (memory_ty true)) :: h). assert (R4 : ready true e4) by now repeat split.
    assert (CT : tst (call_tree true f) (in_async c0) e4 = Some (after_call e4)) by (rewrite <- AS at 1; now apply (call_ok args_ty_of (in_async c0) e4 Q eq_refl (or_introl eq_refl))).
    assert (HR : assoc "args" (after_call e4) = Some (Some args_ty_of)) by (unfold after_call; destruct (fn_return f); reflexivity).
    rewrite blk_cons.
    rewrite (spawn_ok _ None c0 e3 Temp eq_refl).
    - now rewrite blk_nil.
    - fold h. rewrite blk_cons, (let_memory_ok (in_async c0) h eq_refl). fold e4. rewrite blk_cons, CT, blk_cons.
      rewrite (write_call "Client" "0xFF" 255%Z _ (in_async c0) _ true (ready_after _ _ R4) eq_refl eq_refl eq_refl); [reflexivity| | |].
      + intros st [<-|I] c1.
        * apply (write_prim "i64" _ c1 _ (t0 "i64") (Place false false "args")); try reflexivity. apply (id_ty c1 _ Q AS). exact HR.
        * apply (result_writes ret_ty c1 _ st I); [now apply result_env|reflexivity].
      + cbn [flat_map]. rewrite among_app, names_result by discriminate. reflexivity.
      + exact caps_result.
    - rewrite !names_cons, names_call, names_write by (try reflexivity; try discriminate; now apply f_local). cbn [flat_map]. rewrite among_app, names_result by discriminate. reflexivity. }
  rewrite IF. change (is_unit (fst (unit_ty, Temp))) with true. cbn [orb]. rewrite blk_nil, (is_some_ok "args" args_ty_of); [reflexivity|]. now apply moved_arg.
Qed.

(** ** A [read] *)
Lemma read_call c en : fn_is_read f = true -> locals en -> (fn_is_async f = true -> c_async c = true) ->
  inf (EPost (var (fn_id f)) (XCall [] false :: if fn_is_async f then [XField "await"] else [])) c en = Some (option_of ret_ty, Temp).
Proof.
  intros Q L CA. unfold var at 1. rewrite inf_call, tcall_eq, (f_free en L), (f_lib "Some" eq_refl). unfold maker_of. rewrite f_user. unfold user_fn. rewrite Q. cbn [snd map]. rewrite alone_nil. cbn [args_ty].
  destruct (fn_is_async f).
  - rewrite posts_cons, tpost_field. unfold future_of. cbn [String.eqb Ascii.eqb Bool.eqb andb]. now rewrite CA.
  - reflexivity.
Qed.
Lemma read_result en t : fn_is_read f = true -> fn_return f = Some t -> assoc "result" (("bytes_writer", Some writer_ty) :: ("result", Some (shared ret_ty)) :: en) = Some (Some (shared ret_ty)) /\ (shared ret_ty = rty_of t \/ (shared ret_ty = shared (rty_of t) /\ prim_of t = None)).
Proof. intros Q E. split; [reflexivity|]. right. destruct f_fine as (_ & _ & _ & RT). unfold ret_ty. rewrite E. split; [reflexivity|]. now apply RT. Qed.
Lemma sync_read_ok : fn_is_read f = true -> fn_is_async f = false -> exists b, sync_read_method_tree f = [handler f (async_params "_" "_") b] /\ item_ok fns ext items (handler f (async_params "_" "_") b) = true.
Proof.
  intros Q AS. unfold sync_read_method_tree. eexists. split; [reflexivity|]. apply handler_parts; [now apply async_sig|reflexivity|].
  unfold body_ok. cbn [rf_body rf_params]. change (param_env None _) with sync_env. change (result_of None _) with (t0 "bool"). fold c0.
  pose proof (read_call c0 sync_env Q eq_refl) as RC. rewrite AS in RC. specialize (RC ltac:(discriminate)).
  rewrite blk_cons, tst_let, RC, (bind_local "result" eq_refl). cbn [owned snd fst andb]. change (caps_ex (EPost (var (fn_id f)) [XCall [] false])) with (@nil string). rewrite moved_none.
  set (e1 := ("result", Some (option_of ret_ty)) :: sync_env). set (e2 := ("result", Some (shared ret_ty)) :: e1). assert (R1 : ready false e2) by now repeat split.
  rewrite blk_cons, tst_bare. unfold if_some, var at 1. rewrite inf_iflet. change (assoc "result" e1) with (Some (Some (option_of ret_ty))). unfold option_of at 1. cbv iota beta. rewrite (bind_local "result" eq_refl). cbn [String.eqb Ascii.eqb Bool.eqb andb orb].
  fold e2. rewrite blk_cons, (write_call "Client" "0xFF" 255%Z (result_tree f) c0 _ false R1 eq_refl eq_refl eq_refl).
  - rewrite blk_nil. change (is_unit (fst (unit_ty, Temp))) with true. cbv match beta. change (is_unit (fst (unit_ty, Temp))) with true. cbn [orb]. rewrite blk_nil, (is_some_ok "result" ret_ty); [reflexivity|]. now apply moved_arg.
  - intros st I c1. apply (result_writes (shared ret_ty) c1 _ st I); [intros t E; now apply (read_result [])|reflexivity].
  - apply names_result; discriminate.
  - apply caps_result.
Qed.
Lemma async_read_ok : fn_is_read f = true -> fn_is_async f = true -> exists b, async_read_method_tree f = [handler f (async_params "runtime_as_mut" "async_context") b] /\ item_ok fns ext items (handler f (async_params "runtime_as_mut" "async_context") b) = true.
Proof.
  intros Q AS. unfold async_read_method_tree. eexists. split; [reflexivity|]. apply handler_parts; [now apply async_sig|reflexivity|].
  unfold body_ok. cbn [rf_body rf_params]. change (param_env None _) with async_env. change (result_of None _) with (t0 "bool"). fold c0.
  assert (RD : ready false async_env) by now repeat split.
  rewrite blk_cons, tst_let.
  rewrite (buffer_call_ty "rpc_buffer_read" "Server" _ c0 async_env false reader_ty None OfClosure (t0 "bool") RD); try reflexivity.
  2: { unfold arg_ty. rewrite inf_plain, blk_cons, tst_let, read_u8_ok by reflexivity. rewrite (bind_local "status" eq_refl). cbn [owned snd fst andb]. change (caps_ex read_u8) with (@nil string). rewrite moved_none.
       rewrite blk_nil, status_ok by reflexivity. cbn [owned snd fst]. now rewrite (bind_local "bytes_reader" eq_refl). }
  rewrite (bind_local "is_busy" eq_refl). cbn [result_ty last owned snd fst andb]. rewrite caps_buffer. change (caps_ex (EClosure _ _)) with (@nil string). rewrite moved_none.
  set (e1 := ("is_busy", Some (t0 "bool")) :: async_env). assert (R1 : ready false e1) by now repeat split.
  rewrite blk_cons, tst_bare, inf_if, inf_not. unfold var at 1. rewrite inf_path, (var_ty "is_busy" (t0 "bool") c0 e1 eq_refl). change (rty_eqb (t0 "bool") (t0 "bool")) with true. cbv iota beta.
  set (h := held e1). set (h1 := ("result", Some (option_of ret_ty)) :: h). set (h2 := ("result", Some (shared ret_ty)) :: h1). set (h3 := ("memory", Some (memory_ty true)) :: h2). assert (R3 : ready true h3) by now repeat split.
  pose proof (read_call (in_async c0) h Q eq_refl) as RC. rewrite AS in RC. specialize (RC (fun _ => eq_refl)).
  rewrite blk_cons, (write_call "Server" "0xFF" 255%Z [] c0 e1 false R1 eq_refl eq_refl eq_refl) by (try reflexivity; intros st []). rewrite blk_cons.
  rewrite (spawn_ok _ _ c0 e1 Temp eq_refl).
  - rewrite blk_nil. change (rty_eqb (t0 "bool") (t0 "bool") && owned (unit_ty, Temp)) with true. cbv match beta. change (is_unit (fst (unit_ty, Temp))) with true. cbv match beta. change (is_unit (fst (unit_ty, Temp))) with true. cbn [orb].
    rewrite blk_nil, inf_not. unfold var at 1. rewrite inf_path.
    assert (BZ : forall l, assoc "is_busy" (moved l e1) = Some (Some (t0 "bool"))) by (intros l; apply moved_keeps; [reflexivity|cbn; apply andb_false_r]).
    rewrite (var_ty "is_busy" (t0 "bool") c0 _ (BZ _)). reflexivity.
  - fold h. rewrite blk_cons, tst_let, RC, (bind_local "result" eq_refl). cbn [owned snd fst andb]. change (caps_ex (EPost (var (fn_id f)) [XCall [] false; XField "await"])) with (@nil string). rewrite moved_none. fold h1. rewrite blk_nil.
    unfold if_some, var at 1. rewrite inf_iflet. change (assoc "result" h1) with (Some (Some (option_of ret_ty))). unfold option_of at 1. cbv iota beta. rewrite (bind_local "result" eq_refl). cbn [String.eqb Ascii.eqb Bool.eqb andb orb]. fold h2.
    rewrite blk_cons, (let_memory_ok (in_async c0) h2 eq_refl). fold h3. rewrite blk_cons, (write_call "Client" "0xFF" 255%Z (result_tree f) (in_async c0) _ true R3 eq_refl eq_refl eq_refl).
    + rewrite blk_cons, (write_call "Server" "0x00" 0%Z [] (in_async c0) h3 true R3 eq_refl eq_refl eq_refl) by (try reflexivity; intros st []). reflexivity.
    + intros st I c1. apply (result_writes (shared ret_ty) c1 _ st I); [intros t E; now apply (read_result [])|reflexivity].
    + apply names_result; discriminate.
    + apply caps_result.
  - rewrite names_cons. cbn [names_st names_ex var path_names flat_map names_post app]. cbn [among existsb]. rewrite (proj2 (f_local "async_context" eq_refl)). cbn [orb]. 
    change (names_block (Blk [] (Some ?e))) with (names_ex e). change (names_ex (if_some "result" ?b)) with ("result" :: names_block b). change (among ("result" :: ?l) "async_context") with (among l "async_context").
    rewrite !names_cons, !names_write, names_result by (try reflexivity; discriminate). reflexivity.
Qed.
End Method.

(** ** Registration *)

Lemma handler_long f x : (String.length x < 12)%nat -> String.eqb (handler_id f) x = false /\ String.eqb x (handler_id f) = false.
Proof.
  intros L. assert (N : handler_id f <> x).
  { intros E. apply (f_equal String.length) in E. unfold handler_id in E. rewrite len_app in E. cbn [String.length] in E. lia. }
  split; apply String.eqb_neq; congruence.
Qed.
Lemma lib_user n : among lib_names n = true -> assoc n fns = None.
Proof.
  intros I. unfold fns, user_fns. rewrite rpc. destruct (rpc_parts rpc) as (A & _). revert A. generalize (find_fn_nodes ast). intros l A. induction l as [|g l IH]; [reflexivity|]. cbn [map]. change (user_fn g) with (fn_id g, snd (user_fn g)). cbn [assoc].
  specialize (A g (or_introl eq_refl)) as G. unfold RustStaticSpec.fn_fine in G. rewrite !andb_true_iff in G. destruct G as (((_ & G) & _) & _). apply negb_true_iff in G. rewrite among_app in G. apply orb_false_iff in G as [_ G].
  destruct (String.eqb_spec n (fn_id g)) as [E|_]; [rewrite <- E in G; congruence|]. apply IH. intros f J. apply A. now right.
Qed.
Definition params_of (f : fn_node) : list rty := if fn_is_read f || fn_is_async f then async_handler else sync_handler.
Lemma model_fns s b : file_fns (struct_model_tree s b) = [].
Proof. unfold struct_model_tree. destruct (sn_fields s), b; reflexivity. Qed.
Lemma method_fns f : exists g, file_fns (rpc_method_tree f) = [(handler_id f, g)] /\ map snd (rf_params g) = params_of f /\ rf_ret g = Some (t0 "bool").
Proof.
  unfold rpc_method_tree, params_of, sync_method_tree, async_method_tree, sync_read_method_tree, async_read_method_tree.
  destruct (fn_is_read f), (fn_is_async f); rewrite ?file_fns_app, ?model_fns; eexists; (split; [reflexivity|split; reflexivity]).
Qed.
Lemma nodes_fns l : map fst (file_fns (flat_map rpc_method_tree l)) = map handler_id l.
Proof. induction l as [|f l IH]; [reflexivity|]. cbn [flat_map map]. rewrite file_fns_app, map_app, IH. destruct (method_fns f) as (g & -> & _). reflexivity. Qed.
Lemma nodes_found l f : NoDup (map handler_id l) -> In f l -> exists g, assoc (handler_id f) (file_fns (flat_map rpc_method_tree l)) = Some g /\ map snd (rf_params g) = params_of f /\ rf_ret g = Some (t0 "bool").
Proof.
  induction l as [|f' l IH]; intros N I; [destruct I|]. cbn [map flat_map] in *. apply NoDup_cons_iff in N as [A N]. rewrite file_fns_app. destruct (method_fns f') as (g & -> & G). cbn [app assoc]. destruct I as [->|I].
  - exists g. now rewrite String.eqb_refl.
  - destruct (String.eqb_spec (handler_id f) (handler_id f')) as [E|_]; [destruct A; rewrite <- E; now apply in_map|]. now apply IH.
Qed.
Lemma found f : In f (find_fn_nodes ast) -> exists g, assoc (handler_id f) (file_fns items) = Some g /\ map snd (rf_params g) = params_of f /\ rf_ret g = Some (t0 "bool").
Proof.
  intros I. rewrite items_fns, rpc, (rpc_items some_fns). destruct (rpc_parts rpc) as (_ & _ & D). change (distinct ("register_rpc" :: ?l)) with (negb (among l "register_rpc") && distinct l) in D. apply andb_true_iff in D as [A D]. apply negb_true_iff in A.
  apply RustDefaultRuns.distinct_app_l, distinct_NoDup in D. destruct (nodes_found (find_fn_nodes ast) f D I) as (g & G & P). exists g. split; [|exact P].
  change (file_fns (register_tree ?a ?b :: ?l)) with (("register_rpc", match register_tree a b with IFn g => g | _ => mk_rfn "" [] false None (Blk [] None) end) :: file_fns l). cbn [assoc].
  destruct (String.eqb_spec (handler_id f) "register_rpc") as [X|_]; [|exact G]. rewrite among_app in A. apply orb_false_iff in A as [A _]. assert (J : among (map handler_id (find_fn_nodes ast)) "register_rpc" = true) by (apply among_in; rewrite <- X; now apply in_map). congruence.
Qed.
Definition reg_env : tenv := [("scope_id", Some (t0 "TechPawsScopeId")); ("runtime", Some (unique (t0 "TechPawsRuntime"))); ("addr", Some (shared (t0 "TechPawsRpcAddress")))].
Lemma registration f group m c : In f (find_fn_nodes ast) -> among ["sync_group_address"; "async_group_address"; "read_group_address"] group = true ->
  (m = if fn_is_read f || fn_is_async f then "register_async_rpc_method" else "register_sync_rpc_method") ->
  tst (SSemi (EPost (var "runtime") [XMeth m [EPost (var "addr") [XField group]; var "scope_id"; call1 "RpcMethodAddress" [ENum (show_N (fn_position f))]; var (fn_id f ++ "_rpc_handler")] true])) c reg_env = Some reg_env.
Proof.
  intros I G M. rewrite tst_semi. unfold var at 1. rewrite inf_meth, (var_ty "runtime" (unique (t0 "TechPawsRuntime")) c reg_env eq_refl), posts_cons, tpost_meth. unfold unique, reach. cbn [root_of].
  assert (MM : method_ty ext items (t0 "TechPawsRuntime") m = Some (true, [PVal group_ty; PVal (t0 "TechPawsScopeId"); PVal (t0 "RpcMethodAddress"); PHandler (params_of f)], Is unit_ty)).
  { unfold params_of. subst m. destruct (fn_is_read f || fn_is_async f); now apply (meth_lib "TechPawsRuntime"). }
  rewrite MM. cbn [changeable negb orb]. change (fn_id f ++ "_rpc_handler")%string with (handler_id f).
  assert (HN : forall x, (String.length x < 12)%nat -> String.eqb (handler_id f) x = false /\ String.eqb x (handler_id f) = false) by (intros x; apply handler_long).
  assert (HE : assoc (handler_id f) reg_env = None) by (unfold reg_env; cbn [assoc]; rewrite !(fun x L => proj1 (HN x L)) by (cbn; lia); reflexivity).
  assert (AL : alone reg_env [EPost (var "addr") [XField group]; var "scope_id"; call1 "RpcMethodAddress" [ENum (show_N (fn_position f))]; var (handler_id f)] = true).
  { unfold alone. cbn [forallb var call1]. rewrite HE. reflexivity. }
  rewrite AL. cbn [andb].
  assert (NM : among (flat_map names_ex [EPost (var "addr") [XField group]; var "scope_id"; call1 "RpcMethodAddress" [ENum (show_N (fn_position f))]; var (handler_id f)]) "runtime" = false).
  { cbn [flat_map names_ex var call1 path_names names_post app among existsb]. rewrite (proj2 (HN "runtime" ltac:(cbn; lia))). reflexivity. }
  rewrite NM. cbn [negb map args_ty].
  assert (A1 : arg_ty items inf blk c reg_env (EPost (var "addr") [XField group]) (PVal group_ty) = Some group_ty).
  { apply (arg_val fns ext items c reg_env _ _ (Place false false "addr")); [|reflexivity|reflexivity]. unfold var. rewrite inf_field, (var_ty "addr" (shared (t0 "TechPawsRpcAddress")) c reg_env eq_refl), posts_cons, tpost_field. unfold shared, reach. cbn [root_of]. unfold t0 at 1.
    rewrite (field_lib "TechPawsRpcAddress" group group_ty eq_refl); [reflexivity|]. apply among_in in G. destruct G as [<-|[<-|[<-|[]]]]; reflexivity. }
  assert (A3 : arg_ty items inf blk c reg_env (call1 "RpcMethodAddress" [ENum (show_N (fn_position f))]) (PVal (t0 "RpcMethodAddress")) = Some (t0 "RpcMethodAddress")).
  { apply (arg_val fns ext items c reg_env _ _ Temp); [|reflexivity|reflexivity]. unfold call1, var. rewrite inf_call, tcall_eq. change (assoc "RpcMethodAddress" reg_env) with (@None (option rty)). change (String.eqb "RpcMethodAddress" "Some") with false. cbv match beta. unfold maker_of.
    rewrite lib_user by reflexivity. rewrite (lib_rt "RpcMethodAddress" eq_refl). cbn [String.eqb Ascii.eqb Bool.eqb andb]. rewrite alone_one. cbn [map args_ty]. unfold arg_ty. rewrite inf_num, literal_show. destruct (f_fine f I) as (B & _).
    assert (FT : fits (ENum (show_N (fn_position f))) (t0 "i32") (t0 "u64") = true).
    { unfold fits, number_in, t0. rewrite literal_show. cbn [is_integer]. apply andb_true_iff. split; [reflexivity|]. unfold in_range. cbn. apply andb_true_iff. split; [apply Z.leb_le|apply Z.ltb_lt]; lia. }
    rewrite FT. reflexivity. }
  assert (A4 : arg_ty items inf blk c reg_env (var (handler_id f)) (PHandler (params_of f)) = Some unit_ty).
  { unfold arg_ty, var. rewrite HE. destruct (found f I) as (g & -> & GP & GR). rewrite GP, GR, !rty_eqb_same. reflexivity. }
  rewrite A1, (var_arg "scope_id" (t0 "TechPawsScopeId") c reg_env eq_refl eq_refl), A3, A4. cbn [result_ty]. rewrite posts_nil. cbn [part_of unit_ty t0 owned snd].
  replace (caps_ex _) with (@nil string) by reflexivity. now rewrite moved_none.
Qed.
Lemma runtime_memory k c en : tpost (XField "memory") (unique (t0 "TechPawsRuntime"), k) c en = Some (t0 "TechPawsRuntimeMemory", Place true false (root_of k)).
Proof. rewrite tpost_field. unfold unique, t0. cbn [reach]. now rewrite (field_lib "TechPawsRuntime" "memory" _ eq_refl eq_refl). Qed.
Lemma add_scope c : tpost (XMeth "add_scope" [var "scope_id"] false) (t0 "TechPawsRuntimeMemory", Place true false "runtime") c reg_env = Some (unit_ty, Temp).
Proof.
  rewrite tpost_meth. unfold t0. cbn [reach]. rewrite (meth_lib "TechPawsRuntimeMemory" "add_scope" _ eq_refl eq_refl eq_refl), alone_one. cbn [changeable negb orb andb flat_map names_ex var path_names app root_of]. change (among ["scope_id"] "runtime") with false. cbn [negb map args_ty].
  change (EPath [SName "scope_id"]) with (var "scope_id"). now rewrite (var_arg "scope_id" (t0 "TechPawsScopeId") c reg_env eq_refl eq_refl).
Qed.
Lemma register_ok : item_ok fns ext items (register_tree (service_id ast) (find_fn_nodes ast)) = true.
Proof.
  unfold register_tree. cbn [item_ok rf_params rf_ret]. apply andb_true_iff. split.
  - apply andb_true_iff. split; [|reflexivity]. unfold params_fine. cbn [map fst without filter forallb]. rewrite !bind_local by reflexivity. cbn [mut_ref sig_ty]. change (ty0 ?n) with (t0 n). rewrite !sig_rt by reflexivity. reflexivity.
  - unfold body_ok. cbn [rf_body rf_params]. change (result_of None _) with unit_ty. set (c := mk_ctx None _ _ _). set (en := param_env None _).
    cbn [app]. rewrite blk_cons, tst_let. unfold call1, var at 1. rewrite inf_call, tcall_eq. change (assoc "TechPawsScopeId" en) with (@None (option rty)). change (String.eqb "TechPawsScopeId" "Some") with false. cbv match beta. unfold maker_of.
    rewrite lib_user by reflexivity. rewrite (lib_rt "TechPawsScopeId" eq_refl). cbn [String.eqb Ascii.eqb Bool.eqb andb]. rewrite alone_one. cbn [map args_ty].
    assert (U : arg_ty items inf blk c en (EMacro "uuid" [EStr (service_id ast)] false) (PVal uuid_ty) = Some uuid_ty).
    { apply (arg_val fns ext items c en _ _ Temp); [|reflexivity|reflexivity]. rewrite inf_uuid, (lib_rt "uuid" eq_refl). destruct (rpc_parts rpc) as (_ & S & _). unfold RustStaticSpec.scope_fine in S. unfold service_id.
      destruct (find_fn_nodes ast) as [|f0 l]; [congruence|]. destruct (find_directive_value ast "id") as [[[]]|]; try discriminate S. now rewrite S. }
    rewrite U, posts_nil, (bind_local "scope_id" eq_refl). cbn [owned snd fst andb]. replace (caps_ex _) with (@nil string) by reflexivity. rewrite moved_none. change (("scope_id", Some (t0 "TechPawsScopeId")) :: en) with reg_env.
    cbn [app]. rewrite blk_cons, tst_semi. unfold var at 1. rewrite inf_field, (var_ty "runtime" (unique (t0 "TechPawsRuntime")) c reg_env eq_refl), posts_cons, runtime_memory, posts_cons. cbn [root_of]. rewrite add_scope, posts_nil.
    cbn [owned snd unit_ty t0]. replace (caps_ex _) with (@nil string) by reflexivity. rewrite moved_none.
    rewrite blk_keeps_all; [reflexivity|]. intros s I. apply in_map_iff in I as (f & <- & I). destruct (fn_is_read f) eqn:Q; [|destruct (fn_is_async f) eqn:A]; apply (registration f _ _ c I); try reflexivity; now rewrite ?Q, ?A.
Qed.

Lemma struct_impl s : In (DStruct s) all -> item_ok fns ext items (struct_buffers_tree s) = true.
Proof. intros I. now apply struct_impl_ok. Qed.
Lemma model_ok s : In (DStruct s) all -> forall b i, In i (struct_model_tree s b) -> item_ok fns ext items i = true.
Proof.
  intros I b i J. rewrite RustDefaultRuns.struct_model in J. unfold RustDefaultRuns.decl_items in J. destruct J as [<-|[<-|J]]; [reflexivity| |destruct b; [destruct J as [<-|[]]; reflexivity|destruct J]]. now apply (decl_item_fine (DStruct s)).
Qed.
Lemma method_ok f i : In f (find_fn_nodes ast) -> In i (rpc_method_tree f) -> item_ok fns ext items i = true.
Proof.
  intros I J. unfold rpc_method_tree in J. destruct (fn_is_read f) eqn:Q.
  - destruct (fn_is_async f) eqn:A.
    + destruct (async_read_ok f I Q A) as (b & E & K). rewrite E in J. destruct J as [<-|[]]. exact K.
    + destruct (sync_read_ok f I Q A) as (b & E & K). rewrite E in J. destruct J as [<-|[]]. exact K.
  - pose proof (args_in f I Q) as D. unfold args_struct in D. destruct (fn_is_async f) eqn:A.
    + destruct (async_handler_ok f I Q A) as (b & E & K). unfold async_method_tree in J, E. rewrite last_two in E. apply in_app_or in J as [J|[<-|[<-|[]]]]; [now apply (model_ok _ D false)|now apply struct_impl|]. now rewrite E.
    + destruct (sync_handler_ok f I Q A) as (b & E & K). unfold sync_method_tree in J, E. rewrite last_two in E. apply in_app_or in J as [J|[<-|[<-|[]]]]; [now apply (model_ok _ D false)|now apply struct_impl|]. now rewrite E.
Qed.
End Rpc.

(** ** The whole file *)

Lemma item_ok_all i : In i items -> item_ok fns ext items i = true.
Proof.
  intros I. unfold items, rust_tree in I. rewrite !in_app_iff in I. destruct I as [I|[I|[I|[I|[I|[I|I]]]]]].
  - destruct I as [<-|[<-|[<-|[]]]]; reflexivity.
  - destruct (r && nil_or (find_fn_nodes ast)); [destruct I as [<-|[<-|[<-|[]]]]; reflexivity|destruct I as [<-|[]]; reflexivity].
  - unfold user_uses in I. apply in_flat_map in I as (v & _ & I). destruct v as [[] ?]; try destruct I as [<-|[]]; try destruct I. reflexivity.
  - unfold consts_tree in I. apply in_flat_map in I as (n & _ & I). destruct n as [n|n|n|n|n]; try destruct I as [<-|[]]; try destruct I. now destruct n.
  - unfold models_tree in I. apply in_flat_map in I as (n & A & I). destruct n as [e|s|n|n|n]; try destruct I as [<-|[]]; try destruct I; try destruct H.
    + assert (D : In (DEnum e) all) by (apply (schema_in (NEnum e)); [exact A|now left]).
      pose proof (RustDefaultRuns.some_items ast r fine e) as SI. rewrite RustDefaultRuns.enum_model in I by (apply SI; unfold schema_decls; apply in_flat_map; exists (NEnum e); split; [exact A|now left]). destruct I as [<-|[<-|[<-|[]]]]; try reflexivity. now apply (decl_item_fine (DEnum e)).
    + assert (D : In (DStruct s) all) by (apply (schema_in (NStruct s)); [exact A|now left]). now apply (model_ok s D true).
  - unfold buffers_tree in I. apply in_flat_map in I as (n & A & I). destruct n as [e|s|n|n|n]; try destruct I as [<-|[]]; try destruct I.
    + apply enum_impl_ok. apply (schema_in (NEnum e)); [exact A|now left].
    + apply struct_impl_ok. apply (schema_in (NStruct s)); [exact A|now left].
  - assert (R : r = true) by (destruct r; [reflexivity|destruct I]). rewrite R in I.
    assert (N : find_fn_nodes ast <> []) by (intros N; unfold rpc_tree in I; rewrite N in I; destruct I). rewrite (rpc_items N) in I. destruct I as [<-|I].
    + now apply register_ok.
    + apply in_flat_map in I as (f & A & I). now apply (method_ok R N f).
Qed.

Lemma fn_names : map fst (file_fns items) = if r then match find_fn_nodes ast with [] => [] | l => "register_rpc" :: map handler_id l end else [].
Proof.
  rewrite items_fns. destruct r; [|reflexivity]. unfold rpc_tree. destruct (find_fn_nodes ast) as [|f l]; [reflexivity|]. change (file_fns (register_tree ?a ?b :: ?l)) with (("register_rpc", match register_tree a b with IFn g => g | _ => mk_rfn "" [] false None (Blk [] None) end) :: file_fns l).
  cbn [map fst]. f_equal. exact (nodes_fns (f :: l)).
Qed.
Lemma user_names : map fst fns = if r then map fn_id (find_fn_nodes ast) else [].
Proof. unfold fns, user_fns. destruct r; [|reflexivity]. now rewrite map_map. Qed.
Lemma file_compiles : consts_compile items = true -> compiles fns ext items = true.
Proof.
  intros CC. destruct (names_of ast true r fine) as [TN _]. fold items all in TN. destruct code_parts as (A & B & _ & _).
  assert (MN : mod_names items = block_names ast) by apply ConstRuns.file_mods.
  assert (FN : forall n, In n (map fst (file_fns items)) -> among lib_names n = false).
  { rewrite fn_names. intros n I. destruct (Bool.bool_dec r true) as [R|R].
    - rewrite R in I. destruct (rpc_parts R) as (F & _ & _).
      assert (H : n = "register_rpc" \/ In n (map handler_id (find_fn_nodes ast))) by (destruct (find_fn_nodes ast); [destruct I|destruct I as [<-|I]; [now left|now right]]).
      destruct H as [->|H]; [reflexivity|]. apply in_map_iff in H as (f & <- & J). specialize (F f J). unfold RustStaticSpec.fn_fine in F. rewrite !andb_true_iff in F. destruct F as ((_ & F) & _). now apply negb_true_iff.
    - apply Bool.not_true_is_false in R. rewrite R in I. destruct I. }
  assert (DI : distinct (map fst (file_fns items) ++ unit_structs items ++ map fst fns) = true).
  { rewrite fn_names, user_names, units. destruct (Bool.bool_dec r true) as [R|R].
    - destruct (rpc_parts R) as (_ & _ & D). rewrite R. destruct (find_fn_nodes ast) as [|f l]; [|exact D]. cbn [map app] in D |- *. change (distinct ("register_rpc" :: ?l)) with (negb (among l "register_rpc") && distinct l) in D. now apply andb_true_iff in D.
    - apply Bool.not_true_is_false in R. pose proof code as C. unfold rust_code_fine in C. rewrite !andb_true_iff in C. destruct C as (_ & C). rewrite R in C at 1. rewrite R. now rewrite app_nil_r. }
  unfold compiles. rewrite (RustDefaultRuns.all_compiles ast true r fine : types_compile items = true), CC, DI. cbn [andb]. rewrite TN, MN, impls. rewrite !andb_true_iff. repeat split.
  - apply forallb_forall. intros n I. apply negb_true_iff. apply in_app_or in I as [I|I]; [apply A; apply in_or_app; now left|]. apply in_app_or in I as [I|I]; [apply A; apply in_or_app; right; apply in_or_app; now left|].
    apply in_app_or in I as [I|I]; [now apply FN|]. apply A. apply in_or_app. right. apply in_or_app. now right.
  - apply forallb_forall. intros n I. apply negb_true_iff. now apply B.
  - pose proof fine as F. unfold rust_fine in F. rewrite !andb_true_iff in F. tauto.
  - apply forallb_forall. intros n I. apply in_map_iff in I as (d & <- & I). now apply all_derived.
  - apply forallb_forall. exact item_ok_all.
Qed.
End Generated.
