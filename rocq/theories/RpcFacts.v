(** Lemmas behind the theorems of PropertiesRpc.v. *)

(** Property theorems about the generated Rust remote-call code: C31 (registration), C32 (synchronous calls), C33 (served once),
    C34 (identity of asynchronous responses), C35 (blocked reads), C36 (references).  The generated text is read back as a Rust
    file and that file is run by the interpreter of RustSem.  After each theorem, a concrete case that meets its hypotheses,
    and its axioms. *)
Require Import Coq.Strings.String Coq.Strings.Ascii.
Require Import Coq.NArith.NArith Coq.ZArith.ZArith Coq.Lists.List Coq.Bool.Bool Coq.Arith.PeanoNat.
Require Import Coq.micromega.Lia Coq.micromega.ZifyBool Coq.micromega.ZifyN Coq.micromega.ZifyNat.
Require Import Verif.Base Verif.Ast Verif.Lexer Verif.Parser Verif.ParseFacts Verif.Code Verif.NumText Verif.RustSyntax Verif.RustGen Verif.RustTree Verif.RustFile Verif.RustWf Verif.RustSem Verif.Wire Verif.RustCodec
  Verif.RustRpc Verif.CodecFacts.
Import ListNotations.
Local Open Scope string_scope.
Local Open Scope list_scope.

(** ** Conditions on the names of a schema with methods *)
(** No two types and no two methods share a name; no method has the name of a local name or of a library function that its handler
    uses; no type is called [None] or like a handler. *)
Definition handler_name (node : fn_node) : string := (fn_id node ++ "_rpc_handler")%string.

Definition rpc_ok (ast : list ast_node) (buffers : bool) : bool :=
  let ds := rust_decls ast buffers true in
  let nodes := find_fn_nodes ast in
  nodupb (map decl_name ds) && nodupb (map fn_id nodes) &&
  forallb (fun n => negb (existsb (String.eqb (fn_id n))
    ["args"; "memory"; "scope_id"; "rpc_method_address"; "runtime_as_mut"; "async_context"; "result"; "is_busy"; "Some"; "TechPawsScopeId"; "RpcMethodAddress"])) nodes &&
  forallb (fun d => negb (existsb (String.eqb (decl_name d)) ("None" :: map handler_name nodes))) ds.

(** ** Finding the functions of a generated file *)
Definition fn_item (f : string) (i : item) : bool := match i with IFn g => String.eqb (rf_name g) f | _ => false end.

Definition not_fn (i : item) : Prop := match i with IFn _ => False | _ => True end.

Lemma find_app' {A} (p : A -> bool) l m : find p (l ++ m) = match find p l with Some x => Some x | None => find p m end.
Proof.
  induction l as [|x l IH]; [reflexivity|].
  cbn.
  destruct (p x); [reflexivity|exact IH].
Qed.

Lemma find_no_fn f l : Forall not_fn l -> find (fn_item f) l = None.
Proof.
  induction 1 as [|i l H _ IH]; [reflexivity|].
  cbn.
  destruct i; try exact IH.
  destruct H.
Qed.

Lemma no_fn_flat {A} (f : A -> list item) l : (forall a, Forall not_fn (f a)) -> Forall not_fn (flat_map f l).
Proof.
  intros H.
  induction l as [|a l IH]; [constructor|].
  cbn.
  apply Forall_app.
  auto.
Qed.

Lemma no_fn_struct s d : Forall not_fn (struct_model_tree s d).
Proof.
  unfold struct_model_tree.
  destruct (sn_fields s); destruct d; repeat constructor.
Qed.

Lemma no_fn_enum e : Forall not_fn (enum_model_tree e).
Proof.
  unfold enum_model_tree.
  destruct (en_items e); repeat constructor.
Qed.

Lemma no_fn_prefix ast (m b r : bool) : Forall not_fn (
  [allow "warnings"; allow "clippy"; allow "unknown_lints"] ++
  (if r && nil_or (find_fn_nodes ast) then buffers_use :: runtime_uses else if b then [buffers_use] else []) ++
  user_uses ast ++ consts_tree ast ++ (if m then models_tree ast else []) ++ (if b then buffers_tree ast else [])).
Proof.
  repeat (apply Forall_app; split).
  - repeat constructor.
  - destruct (r && _); [repeat constructor|].
  destruct b; repeat constructor.
  - unfold user_uses.
  apply no_fn_flat.
  intros [[]]; repeat constructor.
  - unfold consts_tree.
  apply no_fn_flat.
  intros [| | | |[]]; repeat constructor.
  - destruct m; [|constructor].
  unfold models_tree.
  apply no_fn_flat.
  intros []; try constructor; [apply no_fn_enum|apply no_fn_struct].
  - destruct b; [|constructor].
  unfold buffers_tree.
  apply no_fn_flat.
  intros []; repeat constructor.
Qed.

Lemma find_tree f ast m b : find (fn_item f) (rust_tree ast m b true) = find (fn_item f) (rpc_tree ast).
Proof.
  unfold rust_tree.
  rewrite !app_assoc.
  rewrite find_app'.
  rewrite <- !app_assoc.
  rewrite find_no_fn; [reflexivity|].
  apply (no_fn_prefix ast m b true).
Qed.

Lemma method_tree_split node : exists l, rpc_method_tree node = l ++ [IFn (the_handler node)] /\ Forall not_fn l /\ rf_name (the_handler node) = handler_name node.
Proof.
  unfold the_handler, rpc_method_tree.
  destruct (fn_is_read node), (fn_is_async node).
  - exists [].
  repeat constructor.
  - exists [].
  repeat constructor.
  - exists (struct_model_tree (async_args_struct node) false ++ [struct_buffers_tree (async_args_struct node)]).
  unfold async_method_tree.
  change [?x; ?y] with ([x] ++ [y]).
  rewrite app_assoc, last_app1.
  split; [reflexivity|].
  split; [|reflexivity].
  apply Forall_app.
  split; [apply no_fn_struct|repeat constructor].
  - exists (struct_model_tree (sync_args_struct node) false ++ [struct_buffers_tree (sync_args_struct node)]).
  unfold sync_method_tree.
  change [?x; ?y] with ([x] ++ [y]).
  rewrite app_assoc, last_app1.
  split; [reflexivity|].
  split; [|reflexivity].
  apply Forall_app.
  split; [apply no_fn_struct|repeat constructor].
Qed.

Lemma length_append a b : String.length (a ++ b) = String.length a + String.length b.
Proof.
  induction a as [|c a IH]; [reflexivity|].
  cbn [append String.length Nat.add].
  now rewrite IH.
Qed.

Lemma append_cancel a b c : (a ++ c = b ++ c)%string -> a = b.
Proof.
  intros E.
  assert (L : String.length a = String.length b) by (apply (f_equal String.length) in E; rewrite !length_append in E; lia).
  revert b L E.
  induction a as [|x a IH]; intros [|y b] L E; try discriminate L; [reflexivity|].
  cbn [append] in E.
  injection E as -> E.
  f_equal.
  apply IH; [cbn in L; lia|exact E].
Qed.

Lemma not_register node : handler_name node <> "register_rpc".
Proof.
  unfold handler_name.
  intros E.
  pose proof (f_equal String.length E) as L.
  rewrite length_append in L.
  cbn in L.
  destruct (fn_id node); [discriminate E|cbn in L; lia].
Qed.

Lemma not_none node : handler_name node <> "None".
Proof.
  unfold handler_name.
  intros E.
  apply (f_equal String.length) in E.
  rewrite length_append in E.
  cbn in E.
  lia.
Qed.

Lemma find_methods f nodes : NoDup (map fn_id nodes) ->
  find (fn_item f) (flat_map rpc_method_tree nodes) =
  option_map (fun n => IFn (the_handler n)) (find (fun n => String.eqb (handler_name n) f) nodes).
Proof.
  induction nodes as [|n nodes IH]; intros N; [reflexivity|].
  cbn [flat_map find].
  cbn [map] in N.
  apply NoDup_cons_iff in N as [_ N].
  rewrite find_app'.
  destruct (method_tree_split n) as (l & -> & F & RN).
  rewrite find_app', (find_no_fn f l F).
  cbn [find fn_item].
  rewrite RN.
  destruct (String.eqb (handler_name n) f); [reflexivity|now apply IH].
Qed.

Lemma find_method_node nodes node : NoDup (map fn_id nodes) -> In node nodes ->
  find (fun n => String.eqb (handler_name n) (handler_name node)) nodes = Some node.
Proof.
  induction nodes as [|n nodes IH]; intros N I; [destruct I|].
  cbn [find].
  cbn [map] in N.
  apply NoDup_cons_iff in N as [A N].
  destruct (String.eqb_spec (handler_name n) (handler_name node)) as [E|NE].
  - f_equal.
  destruct I as [->|I]; [reflexivity|].
  exfalso.
  apply A.
  apply append_cancel in E.
  rewrite E.
  now apply in_map.
  - destruct I as [->|I]; [now destruct NE|now apply IH].
Qed.

(** What the conditions give. *)
Record service_file (ast : list ast_node) (buffers : bool) (items : list item) : Prop := mk_file
  { f_impls : forall n, find_impl n items = option_map decl_fns (decl_of n (rust_decls ast buffers true));
    f_handler : forall node, In node (find_fn_nodes ast) -> find_fn items (handler_name node) = Some (the_handler node);
    f_register : find_fn_nodes ast <> [] -> exists g, register_tree (service_id ast) (find_fn_nodes ast) = IFn g /\ find_fn items "register_rpc" = Some g;
    f_has : forall node, In node (find_fn_nodes ast) -> has_fn items (handler_name node) = true;
    f_none : no_none items;
    f_names : NoDup (map decl_name (rust_decls ast buffers true));
    f_callable : forall node, In node (find_fn_nodes ast) -> callable (fn_id node);
    f_free : forall node, In node (find_fn_nodes ast) -> has_impl items (handler_name node) = false }.

Lemma has_fn_find items f : has_fn items f = match find (fn_item f) items with Some _ => true | None => false end.
Proof.
  unfold has_fn.
  induction items as [|i l IH]; [reflexivity|].
  cbn [existsb find].
  change (match i with IFn g => String.eqb (rf_name g) f | _ => false end) with (fn_item f i).
  destruct (fn_item f i); [reflexivity|exact IH].
Qed.

Lemma find_fn_find items f : find_fn items f = match find (fn_item f) items with Some (IFn g) => Some g | _ => None end.
Proof.
  reflexivity.
Qed.

Lemma decl_of_none n ds : ~ In n (map decl_name ds) -> decl_of n ds = None.
Proof.
  intros N.
  induction ds as [|d ds IH]; [reflexivity|].
  unfold decl_of in *.
  cbn [find].
  cbn [map] in N.
  destruct (String.eqb_spec (decl_name d) n) as [E|]; [exfalso; apply N; now left|].
  apply IH.
  intros I.
  apply N.
  now right.
Qed.

Lemma decl_of_member d ds : NoDup (map decl_name ds) -> In d ds -> decl_of (decl_name d) ds = Some d.
Proof.
  intros N I.
  induction ds as [|e ds IH]; [destruct I|].
  unfold decl_of in *.
  cbn [find].
  cbn [map] in N.
  apply NoDup_cons_iff in N as [A N].
  destruct (String.eqb_spec (decl_name e) (decl_name d)) as [E|NE].
  - destruct I as [->|I]; [reflexivity|].
  exfalso.
  apply A.
  rewrite E.
  now apply in_map.
  - destruct I as [->|I]; [now destruct NE|now apply IH].
Qed.

Lemma a_service_file ast models buffers items : rust_ready ast = true -> file_items ast models buffers true items -> rpc_ok ast buffers = true ->
  service_file ast buffers items.
Proof.
  intros RD F O.
  pose proof (file_impls ast _ _ _ items RD F) as I.
  destruct F as (text & G & F).
  pose proof (rust_file_generated ast models buffers true text RD G) as X.
  rewrite F in X.
  injection X as ->.
  unfold rpc_ok in O.
  rewrite !andb_true_iff in O.
  destruct O as [[[O1 O2] O3] O4].
  apply nodupb_NoDup in O1.
  apply nodupb_NoDup in O2.
  rewrite forallb_forall in O3, O4.
  assert (FH : forall node, In node (find_fn_nodes ast) -> find (fn_item (handler_name node)) (rust_tree ast models buffers true) = Some (IFn (the_handler node))).
  { intros node IN.
  rewrite find_tree.
  unfold rpc_tree.
  destruct (find_fn_nodes ast) as [|n0 l0] eqn:E; [destruct IN|].
  rewrite <- E in *.
  clear E n0 l0.
  assert (RT : find (fn_item (handler_name node)) (register_tree (service_id ast) (find_fn_nodes ast) :: flat_map rpc_method_tree (find_fn_nodes ast)) = find (fn_item (handler_name node)) (flat_map rpc_method_tree (find_fn_nodes ast))).
  { cbn [find].
  unfold register_tree at 1.
  cbn [fn_item rf_name].
  destruct (String.eqb_spec "register_rpc" (handler_name node)) as [E|]; [|reflexivity].
  now destruct (not_register node).
  }
    rewrite RT, find_methods by exact O2.
  rewrite find_method_node by assumption.
  reflexivity.
  }
  assert (NI : forall x, In x ("None" :: map handler_name (find_fn_nodes ast)) -> has_impl (rust_tree ast models buffers true) x = false).
  { intros x IX.
  unfold has_impl.
  rewrite I, decl_of_none; [reflexivity|].
  intros IN.
  apply in_map_iff in IN as (d & <- & IN).
  specialize (O4 d IN).
  apply negb_true_iff in O4.
  apply existsb_eqb_not_in in O4.
  contradiction.
  }
  constructor.
  - exact I.
  - intros node IN.
  rewrite find_fn_find, (FH node IN).
  reflexivity.
  - intros NE.
  eexists.
  split; [reflexivity|].
  rewrite find_fn_find, find_tree.
  unfold rpc_tree.
  destruct (find_fn_nodes ast); [now destruct NE|].
  reflexivity.
  - intros node IN.
  rewrite has_fn_find, (FH node IN).
  reflexivity.
  - split; [apply NI; now left|].
  rewrite has_fn_find, find_tree.
  unfold rpc_tree.
  destruct (find_fn_nodes ast) as [|n0 l0] eqn:E; [reflexivity|].
  rewrite <- E in *.
  clear E n0 l0.
  assert (RT : find (fn_item "None") (register_tree (service_id ast) (find_fn_nodes ast) :: flat_map rpc_method_tree (find_fn_nodes ast)) = find (fn_item "None") (flat_map rpc_method_tree (find_fn_nodes ast))) by reflexivity.
  rewrite RT, find_methods by exact O2.
  destruct (find _ (find_fn_nodes ast)) as [n|] eqn:E; [|reflexivity].
  apply find_some in E as [_ E].
  apply String.eqb_eq in E.
  now destruct (not_none n).
  - exact O1.
  - intros node IN.
  specialize (O3 node IN).
  apply negb_true_iff in O3.
  now apply existsb_eqb_not_in in O3.
  - intros node IN.
  apply NI.
  right.
  now apply in_map.
Qed.

(** ** Registration *)
(** A schema for the concrete cases. *)
Definition c31_schema : string :=
  "#[id = ""svc""] #[namespace = ""test""] struct Point { x: i32, y: u8 } fn move_by(from: Point, dx: i32) -> Point; fn ping(); async fn later(n: u8) -> i64; read where_am_i -> Point; async read next_point -> Point; read count -> i32;".

Definition c31_ast : list ast_node := parsed c31_schema.

Definition c31_items : list item := rust_tree c31_ast true true true.

Definition c31_node (f : string) : fn_node :=
  match find (fun n => String.eqb (fn_id n) f) (find_fn_nodes c31_ast) with Some n => n | None => mk_fn "" 0 [] None false false end.

Definition c31_point (x y : Z) : val := vrec "Point" [("x", vnum "i32" x); ("y", vnum "u8" y)].

(** A service: [move_by] returns a fixed point, [later] a number, [next_point] nothing the first time. *)
Definition c31_service : service := mk_service
  (fun n f vs => if String.eqb f "move_by" then Some (c31_point 5 6) else if String.eqb f "ping" then Some vunit
    else if String.eqb f "later" then Some (vnum "i64" 77) else if String.eqb f "where_am_i" then Some (vopt (Some (c31_point 1 2)))
    else if String.eqb f "count" then Some (vopt (Some (vnum "i32" 3))) else Some (vopt (if Nat.eqb n 0 then None else Some (c31_point 8 9))))
  (fun f => existsb (String.eqb f) ["later"; "next_point"]).

Definition c31_state (b : bytes) : state := mk_state [] [] (fun _ _ side => if String.eqb side "Server" then b else []) [] [] [] [].

(** The scope of the service, and one registration per method: under its number, with its own handler, in the group of its kind. *)
Definition registration (node : fn_node) (sc : string) : string * string * string * Z * string :=
  (if fn_is_read node then ("register_async_rpc_method", "read_group_address", sc, Z.of_N (fn_position node), handler_name node)
   else if fn_is_async node then ("register_async_rpc_method", "async_group_address", sc, Z.of_N (fn_position node), handler_name node)
   else ("register_sync_rpc_method", "sync_group_address", sc, Z.of_N (fn_position node), handler_name node)).

Lemma run_registrations R V items K sc nodes : (forall n, In n nodes -> has_fn items (handler_name n) = true) -> (forall n, In n nodes -> has_impl items (handler_name n) = false) ->
  forall s, let en := [("scope_id", vscope sc); ("runtime", vref vruntime); ("addr", vref vaddresses)] in
  chain (fun st e => ev_st R V items K "" st e)
    (map (fun node =>
        let '(group, m) :=
          if fn_is_read node then ("read_group_address", "register_async_rpc_method")
          else if fn_is_async node then ("async_group_address", "register_async_rpc_method")
          else ("sync_group_address", "register_sync_rpc_method") in
        SSemi (EPost (var "runtime")
          [XMeth m [EPost (var "addr") [XField group]; var "scope_id";
                    call1 "RpcMethodAddress" [ENum (show_N (fn_position node))];
                    var (fn_id node ++ "_rpc_handler")] true])) nodes) en s =
  Done en (set_regs (s_regs s ++ map (fun n => registration n sc) nodes) s).
Proof.
  intros H N s en.
  revert s.
  induction nodes as [|n nodes IH]; intros s.
  - cbn.
  rewrite app_nil_r.
  destruct s; reflexivity.
  - cbn [map].
  assert (E : forall g m, m = "register_async_rpc_method" \/ m = "register_sync_rpc_method" ->
      ev R V items K "" (EPost (var "runtime")
          [XMeth m [EPost (var "addr") [XField g]; var "scope_id"; call1 "RpcMethodAddress" [ENum (show_N (fn_position n))]; var (fn_id n ++ "_rpc_handler")] true]) en s =
      Done vunit (set_regs (s_regs s ++ [(m, g, sc, Z.of_N (fn_position n), handler_name n)]) s)).
  { intros g m M.
  assert (LN : ev R V items K "" (var (handler_name n)) en s = Done (vfn (handler_name n)) s).
  { change (ev R V items K "" (var (handler_name n)) en s) with (name_value items "" en (handler_name n) s).
  unfold name_value.
  assert (Q : forall x, String.length x < 12 -> String.eqb (handler_name n) x = false).
  { intros x L.
  apply String.eqb_neq.
  intros E.
  apply (f_equal String.length) in E.
  unfold handler_name in E.
  rewrite length_append in E.
  cbn in E.
  lia.
  }
        unfold en.
  cbn [lookup].
  rewrite (Q "scope_id"), (Q "runtime"), (Q "addr"), (Q "true"), (Q "false"), (Q "Self") by (cbn; lia).
  rewrite (N n) by now left.
  rewrite (H n) by now left.
  reflexivity.
  }
      assert (LA : ev R V items K "" (call1 "RpcMethodAddress" [ENum (show_N (fn_position n))]) en s = Done (vmethod (Z.of_N (fn_position n))) s).
  { change (ev R V items K "" (call1 "RpcMethodAddress" [ENum (show_N (fn_position n))]) en s) with
          (bind (bind (bind (of_opt (literal (show_N (fn_position n)))) (fun z => ret (vint z))) (fun b => bind (ret []) (fun bs => ret (b :: bs))))
            (fun vs => bind (call_path V K "" en [SName "RpcMethodAddress"] vs) ret) s).
  rewrite literal_show.
  reflexivity.
  }
      change (ev R V items K "" (EPost (var "runtime") [XMeth m ?l true]) en s) with
        (bind (ev R V items K "" (var "runtime") en) (fun v => bind (bind (mapMM (fun e => ev R V items K "" e en) l) (fun vs => method R K m v vs)) ret) s).
  rewrite (bind_done _ _ s (vref vruntime) s) by reflexivity.
  rewrite bind_ret.
  assert (A : mapMM (fun e => ev R V items K "" e en) [EPost (var "addr") [XField g]; var "scope_id"; call1 "RpcMethodAddress" [ENum (show_N (fn_position n))]; var (handler_name n)] s =
        Done [vgroup g; vscope sc; vmethod (Z.of_N (fn_position n)); vfn (handler_name n)] s).
  { apply mapMM_values.
  constructor; [reflexivity|].
  constructor; [reflexivity|].
  constructor; [exact LA|].
  constructor; [exact LN|].
  constructor.
  }
      unfold handler_name in A at 1.
  rewrite (bind_done _ _ _ _ _ A).
  destruct M as [-> | ->]; reflexivity.
  }
    destruct (fn_is_read n) eqn:RD; [|destruct (fn_is_async n) eqn:AS].
  + cbv iota beta.
  erewrite stmts_semi by (apply E; auto).
  rewrite IH by (intros; (apply H || apply N); now right).
  cbn [map].
  unfold registration at 2.
  rewrite RD.
  cbn.
  rewrite <- app_assoc.
  reflexivity.
  + cbv iota beta.
  erewrite stmts_semi by (apply E; auto).
  rewrite IH by (intros; (apply H || apply N); now right).
  cbn [map].
  unfold registration at 2.
  rewrite RD, AS.
  cbn.
  rewrite <- app_assoc.
  reflexivity.
  + cbv iota beta.
  erewrite stmts_semi by (apply E; auto).
  rewrite IH by (intros; (apply H || apply N); now right).
  cbn [map].
  unfold registration at 2.
  rewrite RD, AS.
  cbn.
  rewrite <- app_assoc.
  reflexivity.
Qed.

Lemma has_methods ast : find_fn_nodes ast <> [] -> has_rpc_methods ast = true.
Proof.
  unfold has_rpc_methods, find_fn_nodes.
  induction ast as [|n ast IH]; intros NE; [now destruct NE|].
  cbn [existsb flat_map].
  destruct n; cbn [orb]; try (apply IH; exact NE).
  reflexivity.
Qed.

Lemma lem_C31_registration : forall ast models buffers items R V fuel q,
  rust_ready ast = true -> file_items ast models buffers true items -> rpc_ok ast buffers = true -> find_fn_nodes ast <> [] ->
  exists sc ty, find_directive_value ast "id" = Some (ConstLiteral (StringLit sc) ty) /\
  call_fn R V items fuel "register_rpc" [vref vruntime; vref vaddresses] q =
  Done vunit (set_regs (s_regs q ++ map (fun n => registration n sc) (find_fn_nodes ast)) (set_scopes (s_scopes q ++ [sc]) q)).
Proof.
  intros ast models buffers items R V fuel q RD F O NE.
  pose proof (a_service_file ast models buffers items RD F O) as [_ _ FR FH _ _ _ FF].
  destruct F as (text & G & _).
  assert (ID : exists sc ty, find_directive_value ast "id" = Some (ConstLiteral (StringLit sc) ty)).
  { unfold rust_generate in G.
  destruct (generate_uses ast); try discriminate G.
  cbn beta iota in G.
  destruct (generate_rpc ast) eqn:E; [|destruct models; [destruct (generate_models ast)|]; discriminate G..].
  unfold generate_rpc in E.
  rewrite (has_methods ast NE) in E.
  unfold generate_register_fn in E.
  destruct (find_directive_value ast "id") as [[[] ty]|]; try discriminate E; eauto.
  }
  destruct ID as (sc & ty & ID).
  exists sc, ty.
  split; [exact ID|].
  destruct (FR NE) as (g & RT & FG).
  unfold call_fn.
  rewrite FG.
  unfold register_tree in RT.
  injection RT as <-.
  unfold run_fn.
  cbn [rf_params rf_body params String.eqb Ascii.eqb Bool.eqb].
  unfold body.
  set (K := calls_upto R V items fuel).
  set (en := [("runtime", vref vruntime); ("addr", vref vaddresses)]).
  erewrite block_none; [reflexivity|].
  cbn [app].
  assert (SI : service_id ast = sc) by (unfold service_id; now rewrite ID).
  rewrite SI.
  rewrite (stmts_let R V items K "scope_id" _ _ en q (vscope sc) q) by reflexivity.
  rewrite (stmts_semi R V items K _ _ (("scope_id", vscope sc) :: en) q vunit (set_scopes (s_scopes q ++ [sc]) q)) by reflexivity.
  exact (run_registrations R V items K sc (find_fn_nodes ast) FH FF (set_scopes (s_scopes q ++ [sc]) q)).
Qed.

Lemma methods_nodes ast : methods ast = find_fn_nodes ast.
Proof.
  induction ast as [|n l IH]; [reflexivity|].
  cbn.
  rewrite <- IH.
  now destruct n.
Qed.

Lemma lem_C31_numbers_distinct : forall ts ast models buffers items R V fuel q q' r,
  parse ts = Ok ast -> rust_ready ast = true -> file_items ast models buffers true items -> rpc_ok ast buffers = true -> find_fn_nodes ast <> [] ->
  s_regs q = [] -> call_fn R V items fuel "register_rpc" [vref vruntime; vref vaddresses] q = Done r q' ->
  NoDup (map (fun '(_, _, _, a, _) => a) (s_regs q')) /\ NoDup (map (fun '(_, _, _, _, h) => h) (s_regs q')) /\
  List.length (s_regs q') = List.length (find_fn_nodes ast).
Proof.
  intros ts ast models buffers items R V fuel q q' r PA RD F O NE E0 E.
  destruct (lem_C31_registration ast models buffers items R V fuel q RD F O NE) as (sc & ty & _ & X).
  rewrite X in E.
  injection E as <- <-.
  cbn [s_regs set_regs].
  rewrite E0.
  cbn [app].
  rewrite !map_map, map_length.
  assert (A : forall n, (let '(_, _, _, a, _) := registration n sc in a) = Z.of_N (fn_position n)) by (intros n; unfold registration; destruct (fn_is_read n), (fn_is_async n); reflexivity).
  assert (B : forall n, (let '(_, _, _, _, h) := registration n sc in h) = handler_name n) by (intros n; unfold registration; destruct (fn_is_read n), (fn_is_async n); reflexivity).
  rewrite (map_ext _ _ A), (map_ext _ _ B).
  repeat split.
  - rewrite <- map_map.
  apply Coq.Logic.FinFun.Injective_map_NoDup; [intros x y H; lia|].
  rewrite <- methods_nodes.
  exact (lem_C12_method_numbers_distinct ts ast PA).
  - unfold rpc_ok in O.
  rewrite !andb_true_iff in O.
  destruct O as [[[_ O2] _] _].
  apply nodupb_NoDup in O2.
  rewrite (map_ext _ (fun n => (fn_id n ++ "_rpc_handler")%string) (fun n => eq_refl)).
  rewrite <- (map_map fn_id (fun x => (x ++ "_rpc_handler")%string)).
  apply Coq.Logic.FinFun.Injective_map_NoDup; [|exact O2].
  intros x y H.
  exact (append_cancel _ _ _ H).
Qed.

(** ** Requests *)
(** The values passed to a method, and the bytes of a request: the status 255 and the arguments in order. *)
Definition arguments (R : runtime) (ds : list decl) (node : fn_node) (vs : list val) : bool :=
  all2 (fun v a => typed R ds v (fa_type a)) vs (fn_args node).

Definition request_bytes (R : runtime) (ds : list decl) (vs : list val) : bytes := rt_put R "u8" 255 ++ flat_map (wire R ds) vs.

(** An asynchronous request carries the identity of the call. *)
Definition async_request_bytes (R : runtime) (ds : list decl) (id : Z) (vs : list val) : bytes :=
  rt_put R "u8" 255 ++ rt_put R "i64" id ++ flat_map (wire R ds) vs.

(** A result of the method: of its return type. *)
Definition is_result (R : runtime) (ds : list decl) (node : fn_node) (v : val) : bool :=
  match fn_return node with Some ty => typed R ds v ty | None => true end.

Definition response_bytes (R : runtime) (ds : list decl) (node : fn_node) (v : val) : bytes :=
  match fn_return node with Some _ => wire R ds v | None => [] end.

Lemma args_fields_names start args : map sf_name (args_fields start args) = map fa_id args.
Proof.
  unfold args_fields.
  rewrite map_map.
  cbn [sf_name].
  revert start.
  induction args as [|x l IH]; intros start; [reflexivity|].
  cbn.
  now rewrite IH.
Qed.

Lemma args_typed R ds start args vs : all2 (fun v a => typed R ds v (fa_type a)) vs args = true ->
  all2 (fun '(x, v) f => String.eqb x (sf_name f) && typed R ds v (sf_type f)) (combine (map fa_id args) vs) (args_fields start args) = true.
Proof.
  unfold args_fields.
  revert start vs.
  induction args as [|x l IH]; intros start [|v vs] H; try discriminate H; [reflexivity|].
  cbn in H |- *.
  apply andb_true_iff in H as [H1 H2].
  rewrite String.eqb_refl, H1.
  cbn [andb].
  apply IH.
  exact H2.
Qed.

Lemma snd_combine {A B} (l : list A) (m : list B) : List.length l = List.length m -> map snd (combine l m) = m.
Proof.
  revert m.
  induction l as [|a l IH]; intros [|b m] H; try discriminate H; [reflexivity|].
  cbn in *.
  f_equal.
  apply IH.
  lia.
Qed.

Lemma fst_combine {A B} (l : list A) (m : list B) : List.length l = List.length m -> map fst (combine l m) = l.
Proof.
  revert m.
  induction l as [|a l IH]; intros [|b m] H; try discriminate H; [reflexivity|].
  cbn in *.
  f_equal.
  apply IH.
  lia.
Qed.

Lemma lookup_args args vs x v : NoDup (map fa_id args) -> In (x, v) (combine args vs) -> lookup (fa_id x) (combine (map fa_id args) vs) = Some v.
Proof.
  intros N I.
  apply lookup_combine; [exact N|].
  clear N.
  revert vs I.
  induction args as [|y l IH]; intros [|w vs] I; cbn in I |- *; try contradiction.
  destruct I as [[= -> ->]|I]; auto.
Qed.

Lemma passes_args node vs pre : List.length vs = List.length (fn_args node) -> NoDup (map fa_id (fn_args node)) ->
  (forall x, In x (map fst pre) -> ~ In x (map fa_id (fn_args node))) ->
  passes node (pre ++ combine (map fa_id (fn_args node)) vs) vs.
Proof.
  intros L N P.
  unfold passes.
  assert (H : forall x v, In (x, v) (combine (fn_args node) vs) -> lookup (fa_id x) (pre ++ combine (map fa_id (fn_args node)) vs) = Some v).
  { intros x v I.
  rewrite lookup_app_r; [now apply lookup_args|].
  apply in_combine_l in I.
  induction pre as [|[y w] pre IH]; [reflexivity|].
  cbn [lookup].
  destruct (String.eqb_spec (fa_id x) y) as [E|].
  - exfalso.
  apply (P y); [now left|].
  rewrite <- E.
  now apply in_map.
  - apply IH.
  intros z J.
  apply P.
  now right.
  }
  set (e := pre ++ combine (map fa_id (fn_args node)) vs) in *.
  clearbody e.
  clear P N.
  revert vs L H.
  generalize (fn_args node).
  intros args.
  induction args as [|x l IH]; intros [|v vs] L H; try discriminate L; constructor.
  - apply H.
  now left.
  - apply IH; [cbn in L; lia|].
  intros y w I.
  apply H.
  now right.
Qed.

Section Served.

Variables (ast : list ast_node) (models buffers : bool) (items : list item) (R : runtime) (V : service) (fuel : nat).

Let ds := rust_decls ast buffers true.

Let K := calls_upto R V items fuel.

Hypothesis RD : rust_ready ast = true.

Hypothesis F : file_items ast models buffers true items.

Hypothesis O : codecs_ok ds = true.

Hypothesis D : codecs_distinct ds = true.

Hypothesis P : rpc_ok ast buffers = true.

Hypothesis L : lawful R.

Lemma args_decl node : In node (find_fn_nodes ast) -> fn_is_read node = false ->
  decl_of (args_struct_id node) ds = Some (DStruct (if fn_is_async node then async_args_struct node else sync_args_struct node)).
Proof.
  intros I NR.
  pose proof (a_service_file ast models buffers items RD F P) as SF.
  pose proof (decl_of_member (DStruct (if fn_is_async node then async_args_struct node else sync_args_struct node)) ds (f_names _ _ _ SF)) as X.
  assert (J : In (DStruct (if fn_is_async node then async_args_struct node else sync_args_struct node)) ds).
  { unfold ds, rust_decls.
  apply in_app_iff.
  right.
  unfold args_decls.
  apply in_flat_map.
  exists node.
  split; [exact I|].
  rewrite NR.
  now left.
  }
  specialize (X J).
  cbn [decl_name] in X.
  now destruct (fn_is_async node).
Qed.

Lemma oks : forallb decl_ok ds = true /\ forallb positions_fit ds = true.
Proof.
  unfold codecs_ok in O.
  now apply andb_true_iff in O.
Qed.

Lemma args_nodup node : In node (find_fn_nodes ast) -> fn_is_read node = false -> NoDup (map fa_id (fn_args node)).
Proof.
  intros I NR.
  destruct oks as [OK _].
  pose proof (args_decl node I NR) as A.
  apply decl_of_in in A as [A _].
  rewrite forallb_forall in OK.
  specialize (OK _ A).
  unfold decl_ok in OK.
  rewrite !andb_true_iff in OK.
  destruct OK as [_ OK].
  apply nodupb_NoDup in OK.
  destruct (fn_is_async node); cbn in OK.
  - apply NoDup_cons_iff in OK as [_ OK].
  now rewrite args_fields_names in OK.
  - now rewrite args_fields_names in OK.
Qed.

Lemma args_not_id node : In node (find_fn_nodes ast) -> fn_is_read node = false -> fn_is_async node = true -> ~ In "__method_id__" (map fa_id (fn_args node)).
Proof.
  intros I NR AS.
  destruct oks as [OK _].
  pose proof (args_decl node I NR) as A.
  apply decl_of_in in A as [A _].
  rewrite forallb_forall in OK.
  specialize (OK _ A).
  unfold decl_ok in OK.
  rewrite !andb_true_iff in OK.
  destruct OK as [_ OK].
  apply nodupb_NoDup in OK.
  rewrite AS in OK.
  cbn in OK.
  apply NoDup_cons_iff in OK as [OK _].
  now rewrite args_fields_names in OK.
Qed.

Lemma K_clean : clean K.
Proof.
  apply clean_upto.
Qed.

Lemma read_args node n0 rest q : In node (find_fn_nodes ast) -> fn_is_read node = false ->
  typed R ds (vrec (args_struct_id node) n0) (TyOther (args_struct_id node)) = true -> depth (vrec (args_struct_id node) n0) <= fuel ->
  c_read K (ty0 (args_struct_id node)) (set_rd (flat_map (fun '(_, v) => wire R ds v) n0 ++ rest) q) = Done (vrec (args_struct_id node) n0) (set_rd rest q).
Proof.
  intros I NR T DP.
  destruct oks as [OK FT].
  exact (read_values R V items ds (f_impls _ _ _ (a_service_file ast models buffers items RD F P)) OK L FT D fuel (vrec (args_struct_id node) n0) (TyOther (args_struct_id node)) T DP q rest).
Qed.

Lemma sync_request node vs rest q sc a : In node (find_fn_nodes ast) -> is_sync node -> arguments R ds node vs = true ->
  (forall v, In v vs -> depth v < fuel) -> fuel > 0 ->
  s_mem q sc a "Server" = request_bytes R ds vs ++ rest ->
  request R K node q sc a (combine (map fa_id (fn_args node)) vs) vs.
Proof.
  intros I [NR NA] A DP FU M.
  pose proof (all2_length _ _ _ A) as LE.
  assert (LC : List.length (map fa_id (fn_args node)) = List.length vs) by (rewrite map_length; congruence).
  pose proof (args_decl node I NR) as DE.
  rewrite NA in DE.
  assert (T : typed R ds (vrec (args_struct_id node) (combine (map fa_id (fn_args node)) vs)) (TyOther (args_struct_id node)) = true).
  { cbn [typed].
  rewrite DE.
  rewrite String.eqb_refl.
  cbn [andb sync_args_struct sn_fields].
  now apply args_typed.
  }
  assert (DD : depth (vrec (args_struct_id node) (combine (map fa_id (fn_args node)) vs)) <= fuel).
  { cbn [depth].
  assert (X : map (fun '(_, v) => depth v) (combine (map fa_id (fn_args node)) vs) = map depth vs) by (rewrite <- (snd_combine (map fa_id (fn_args node)) vs LC) at 2; rewrite map_map; apply map_ext; now intros [x v]).
  rewrite X.
  clear X.
  enough (list_max (map depth vs) < fuel) by lia.
  clear - DP FU.
  induction vs as [|v vs IH]; cbn; [lia|].
  pose proof (DP v (or_introl eq_refl)).
  specialize (IH (fun x I => DP x (or_intror I))).
  unfold list_max in IH.
  lia.
  }
  exists (flat_map (wire R ds) vs ++ rest), rest.
  split; [|split].
  - rewrite M.
  unfold request_bytes.
  rewrite <- app_assoc.
  apply (law_prim R L); reflexivity.
  - rewrite <- (snd_combine (map fa_id (fn_args node)) vs LC) at 1.
  rewrite <- wire_fields.
  now apply read_args.
  - apply (passes_args node vs []); [congruence|now apply args_nodup|intros ? []].
Qed.

Lemma async_request node id vs rest q sc a : In node (find_fn_nodes ast) -> is_async node -> in_range "i64" id = true -> arguments R ds node vs = true ->
  (forall v, In v vs -> depth v < fuel) -> fuel > 1 ->
  s_mem q sc a "Server" = async_request_bytes R ds id vs ++ rest ->
  request R K node q sc a (("__method_id__", vnum "i64" id) :: combine (map fa_id (fn_args node)) vs) vs.
Proof.
  intros I [NR NA] IR A DP FU M.
  pose proof (all2_length _ _ _ A) as LE.
  assert (LC : List.length (map fa_id (fn_args node)) = List.length vs) by (rewrite map_length; congruence).
  pose proof (args_decl node I NR) as DE.
  rewrite NA in DE.
  set (fs := ("__method_id__", vnum "i64" id) :: combine (map fa_id (fn_args node)) vs).
  assert (T : typed R ds (vrec (args_struct_id node) fs) (TyOther (args_struct_id node)) = true).
  { cbn [typed].
  rewrite DE.
  rewrite String.eqb_refl.
  cbn [andb async_args_struct sn_fields fs all2 sf_name sf_type typed prim_name String.eqb Ascii.eqb Bool.eqb].
  change (is_prim "i64") with true.
  rewrite IR.
  cbn [andb].
  now apply args_typed.
  }
  assert (DD : depth (vrec (args_struct_id node) fs) <= fuel).
  { cbn [depth fs map].
  assert (X : map (fun '(_, v) => depth v) (combine (map fa_id (fn_args node)) vs) = map depth vs) by (rewrite <- (snd_combine (map fa_id (fn_args node)) vs LC) at 2; rewrite map_map; apply map_ext; now intros [x v]).
  rewrite X.
  clear X.
  enough (list_max (1 :: map depth vs) < fuel) by (cbn [list_max fold_right] in *; lia).
  enough (list_max (map depth vs) < fuel) by (unfold list_max in *; cbn [fold_right]; lia).
  clear - DP FU.
  induction vs as [|v vs IH]; cbn; [lia|].
  pose proof (DP v (or_introl eq_refl)).
  specialize (IH (fun x I => DP x (or_intror I))).
  unfold list_max in IH.
  lia.
  }
  exists (rt_put R "i64" id ++ flat_map (wire R ds) vs ++ rest), rest.
  split; [|split].
  - rewrite M.
  unfold async_request_bytes.
  rewrite <- !app_assoc.
  apply (law_prim R L); reflexivity.
  - assert (W : rt_put R "i64" id ++ flat_map (wire R ds) vs ++ rest = flat_map (fun '(_, v) => wire R ds v) fs ++ rest).
  { unfold fs.
  cbn [flat_map wire].
  rewrite <- !app_assoc.
  do 2 f_equal.
  rewrite wire_fields.
  now rewrite snd_combine.
  }
    rewrite W.
  now apply read_args.
  - apply (passes_args node vs [("__method_id__", vnum "i64" id)]); [congruence|now apply args_nodup|].
  intros x [<-|[]].
  now apply args_not_id.
Qed.

Lemma returns_result node v : is_result R ds node v = true -> depth v <= fuel -> returns R K ds node v.
Proof.
  intros T DP.
  unfold returns, is_result in *.
  destruct (fn_return node); [|exact Logic.I].
  split; [exact T|].
  intros _.
  destruct oks as [OK FT].
  exact (write_values R V items ds (f_impls _ _ _ (a_service_file ast models buffers items RD F P)) OK FT fuel v t T DP).
Qed.

Lemma cleared_idle q sc a : idle R (put_buffer sc a "Server" (rt_put R "u8" 0) q) sc a.
Proof.
  exists 0%Z.
  eexists.
  split; [|discriminate].
  rewrite get_put.
  unfold overlay.
  now apply (law_prim R L).
Qed.

Lemma handler_runs node vs : In node (find_fn_nodes ast) -> forall q,
  call_fn R V items fuel (handler_name node) vs q = run_fn R V items K "" (the_handler node) vs q.
Proof.
  intros I q.
  unfold call_fn.
  now rewrite (f_handler _ _ _ (a_service_file ast models buffers items RD F P) node I).
Qed.

End Served.

(** ** Synchronous calls *)
(** The generated file and the names in it, as in the codec theorems, with the conditions on names of methods. *)
Definition rpc_file (ast : list ast_node) (models buffers : bool) (items : list item) : Prop :=
  rust_ready ast = true /\ file_items ast models buffers true items /\
  codecs_ok (rust_decls ast buffers true) = true /\ codecs_distinct (rust_decls ast buffers true) = true /\ rpc_ok ast buffers = true.

(** Values within the fuel. *)
Definition within (fuel : nat) (vs : list val) : Prop := forall v, In v vs -> depth v + 1 < fuel.

Lemma lem_C32_sync_call : forall ast models buffers items R V node vs v rest fuel q sc a,
  let ds := rust_decls ast buffers true in
  rpc_file ast models buffers items -> lawful R ->
  In node (find_fn_nodes ast) -> fn_is_read node = false -> fn_is_async node = false -> sv_async V (fn_id node) = false ->
  arguments R ds node vs = true -> within fuel (v :: vs) ->
  s_mem q sc a "Server" = request_bytes R ds vs ++ rest ->
  sv_call V (List.length (s_log q)) (fn_id node) vs = Some v -> is_result R ds node v = true ->
  exists q' mem old old', call_fn R V items fuel (handler_name node) (sync_args sc a) q = Done (bool_val true) q' /\
    s_log q' = s_log q ++ [mk_called (fn_id node) vs mem] /\
    mem sc a "Server" = rt_put R "u8" 0 ++ old /\ mem sc a "Client" = s_mem q sc a "Client" /\
    s_mem q' sc a "Server" = rt_put R "u8" 0 ++ old /\
    s_mem q' sc a "Client" = rt_put R "u8" 255 ++ response_bytes R ds node v ++ old' /\
    (forall sc' a' side, (sc', a') <> (sc, a) \/ (side <> "Server" /\ side <> "Client") -> s_mem q' sc' a' side = s_mem q sc' a' side) /\
    s_rd q' = s_rd q /\ s_wr q' = s_wr q /\ s_tasks q' = s_tasks q /\ s_scopes q' = s_scopes q /\ s_regs q' = s_regs q.
Proof.
  intros ast models buffers items R V node vs v rest fuel q sc a ds (RD & F & O & D & P) L I NR NA AS A W M CV T.
  assert (DV : depth v <= fuel) by (specialize (W v (or_introl eq_refl)); lia).
  assert (DVS : forall x, In x vs -> depth x < fuel) by (intros x J; specialize (W x (or_intror J)); lia).
  assert (FU : fuel > 0) by (specialize (W v (or_introl eq_refl)); lia).
  pose proof (a_service_file ast models buffers items RD F P) as SF.
  pose proof (sync_request ast models buffers items R V fuel RD F O D P L node vs rest q sc a I (conj NR NA) A DVS FU M) as RQ.
  pose proof (returns_result ast models buffers items R V fuel RD F O P node v T DV) as RT.
  pose proof (sync_serves R V items (calls_upto R V items fuel) (K_clean items R V fuel) ds node sc a q _ vs v (f_none _ _ _ SF) (conj NR NA) (f_callable _ _ _ SF node I) AS RQ CV RT) as E.
  eexists _, _, _, _.
  split; [rewrite (handler_runs ast models buffers items R V fuel RD F P node _ I); exact E|].
  split; [reflexivity|].
  split; [apply get_put|].
  split; [apply get_put_other; congruence|].
  split; [rewrite get_put_other by congruence; apply get_put|].
  split; [rewrite get_put; unfold overlay; rewrite <- app_assoc; reflexivity|].
  split; [|repeat split].
  intros sc' a' side H.
  rewrite get_put_other by (destruct H; [congruence|intros [= ]; tauto]).
  cbn [logged s_mem set_log].
  apply get_put_other.
  destruct H; [congruence|intros [= ]; tauto].
Qed.

Lemma c31_file : rpc_file c31_ast true true c31_items.
Proof.
  split; [vm_compute; reflexivity|].
  split; [eexists; split; vm_compute; reflexivity|].
  split; [vm_compute; reflexivity|].
  split; vm_compute; reflexivity.
Qed.

Lemma lem_C32_sync_call_panics : forall ast models buffers items R V node vs rest fuel q sc a,
  let ds := rust_decls ast buffers true in
  rpc_file ast models buffers items -> lawful R ->
  In node (find_fn_nodes ast) -> fn_is_read node = false -> fn_is_async node = false ->
  arguments R ds node vs = true -> within fuel vs -> fuel > 0 ->
  s_mem q sc a "Server" = request_bytes R ds vs ++ rest ->
  sv_call V (List.length (s_log q)) (fn_id node) vs = None ->
  call_fn R V items fuel (handler_name node) (sync_args sc a) q = Panics.
Proof.
  intros ast models buffers items R V node vs rest fuel q sc a ds (RD & F & O & D & P) L I NR NA A W FU M CV.
  assert (DVS : forall x, In x vs -> depth x < fuel) by (intros x J; specialize (W x J); lia).
  pose proof (a_service_file ast models buffers items RD F P) as SF.
  pose proof (sync_request ast models buffers items R V fuel RD F O D P L node vs rest q sc a I (conj NR NA) A DVS FU M) as RQ.
  rewrite (handler_runs ast models buffers items R V fuel RD F P node _ I).
  exact (sync_panics R V items (calls_upto R V items fuel) (K_clean items R V fuel) node sc a q _ vs (f_none _ _ _ SF) (conj NR NA) (f_callable _ _ _ SF node I) RQ CV).
Qed.

(** ** Repeated runs *)
(** A history from [s]: runs of the handler, each with the state it started in and its outcome, and steps of the rest of the
    system, which keep the request buffer of the method.  A run that does not return ends the history. *)
Inductive history (run : M val) (kept : state -> bytes) : state -> list (state * out val) -> Prop :=
| h_end s : history run kept s []
| h_env s s' l : kept s' = kept s -> history run kept s' l -> history run kept s l
| h_run s v s' l : run s = Done v s' -> history run kept s' l -> history run kept s ((s, run s) :: l)
| h_stop s : (forall v s', run s <> Done v s') -> history run kept s [(s, run s)].

Lemma history_idle run kept s l (p : bytes -> Prop) : (forall s, p (kept s) -> run s = Done (bool_val false) s) ->
  p (kept s) -> history run kept s l -> Forall (fun '(s, o) => o = Done (bool_val false) s) l.
Proof.
  intros H I Y.
  induction Y as [s|s s' l E _ IH|s v s' l E _ IH|s N].
  - constructor.
  - apply IH.
  now rewrite E.
  - rewrite H in E by assumption.
  injection E as <- <-.
  constructor; [now apply H|now apply IH].
  - exfalso.
  now apply (N _ _ (H s I)).
Qed.

Lemma lem_C33_sync_once : forall ast models buffers items R V node vs v rest fuel q q' sc a r l,
  let ds := rust_decls ast buffers true in
  rpc_file ast models buffers items -> lawful R ->
  In node (find_fn_nodes ast) -> fn_is_read node = false -> fn_is_async node = false -> sv_async V (fn_id node) = false ->
  arguments R ds node vs = true -> within fuel (v :: vs) ->
  s_mem q sc a "Server" = request_bytes R ds vs ++ rest ->
  sv_call V (List.length (s_log q)) (fn_id node) vs = Some v -> is_result R ds node v = true ->
  let run := call_fn R V items fuel (handler_name node) (sync_args sc a) in
  run q = Done r q' -> history run (fun s => s_mem s sc a "Server") q' l ->
  Forall (fun '(s, o) => o = Done (bool_val false) s) l.
Proof.
  intros ast models buffers items R V node vs v rest fuel q q' sc a r l ds RF L I NR NA AS A W M CV T run E H.
  destruct (lem_C32_sync_call ast models buffers items R V node vs v rest fuel q sc a RF L I NR NA AS A W M CV T) as (q'' & mem & old & old' & E' & _ & _ & _ & S & _).
  unfold run in E.
  rewrite E' in E.
  injection E as <- <-.
  apply (history_idle run (fun s => s_mem s sc a "Server") q'' l (fun b => exists z rest, rt_get R "u8" b = Some (z, rest) /\ z <> 255%Z)).
  - intros s J.
  unfold run.
  destruct RF as (RD & F & O & D & P).
  rewrite (handler_runs ast models buffers items R V fuel RD F P node _ I).
  pose proof (a_service_file ast models buffers items RD F P) as SF.
  apply (sync_idle R V items _ (K_clean items R V fuel)); [exact (f_none _ _ _ SF)|now split|exact J].
  - rewrite S.
  exists 0%Z, old.
  split; [now apply (law_prim R L)|discriminate].
  - exact H.
Qed.

Lemma lem_C33_idle : forall ast models buffers items R V node fuel q sc a l,
  rpc_file ast models buffers items -> In node (find_fn_nodes ast) -> fn_is_read node = false ->
  (exists z rest, rt_get R "u8" (s_mem q sc a "Server") = Some (z, rest) /\ z <> 255%Z) ->
  let args := if fn_is_async node then async_args sc a else sync_args sc a in
  history (call_fn R V items fuel (handler_name node) args) (fun s => s_mem s sc a "Server") q l ->
  Forall (fun '(s, o) => o = Done (bool_val false) s) l.
Proof.
  intros ast models buffers items R V node fuel q sc a l (RD & F & O & D & P) I NR Z args H.
  pose proof (a_service_file ast models buffers items RD F P) as SF.
  apply (history_idle (call_fn R V items fuel (handler_name node) args) (fun s => s_mem s sc a "Server") q l (fun b => exists z rest, rt_get R "u8" b = Some (z, rest) /\ z <> 255%Z)); [|exact Z|exact H].
  intros s J.
  rewrite (handler_runs ast models buffers items R V fuel RD F P node _ I).
  unfold args.
  destruct (fn_is_async node) eqn:NA.
  - apply (async_idle R V items _ (K_clean items R V fuel)); [exact (f_none _ _ _ SF)|now split|exact J].
  - apply (sync_idle R V items _ (K_clean items R V fuel)); [exact (f_none _ _ _ SF)|now split|exact J].
Qed.

Lemma lem_C34_async_identity : forall ast models buffers items R V node id vs rest fuel q sc a,
  let ds := rust_decls ast buffers true in
  rpc_file ast models buffers items -> lawful R ->
  In node (find_fn_nodes ast) -> fn_is_read node = false -> fn_is_async node = true -> sv_async V (fn_id node) = true ->
  in_range "i64" id = true -> arguments R ds node vs = true -> within fuel vs -> fuel > 1 ->
  s_mem q sc a "Server" = async_request_bytes R ds id vs ++ rest ->
  exists q' old task, call_fn R V items fuel (handler_name node) (async_args sc a) q = Done (bool_val true) q' /\
    s_tasks q' = s_tasks q ++ [task] /\ s_log q' = s_log q /\
    s_mem q' sc a "Server" = rt_put R "u8" 0 ++ old /\
    (forall sc' a' side, (sc', a', side) <> (sc, a, "Server") -> s_mem q' sc' a' side = s_mem q sc' a' side) /\
    forall q2 i v, nth_error (s_tasks q2) i = Some task ->
      sv_call V (List.length (s_log q2)) (fn_id node) vs = Some v -> is_result R ds node v = true -> depth v <= fuel ->
      exists q3 old', complete R V items fuel i q2 = Done vunit q3 /\
        s_tasks q3 = firstn i (s_tasks q2) ++ skipn (S i) (s_tasks q2) /\
        s_log q3 = s_log q2 ++ [mk_called (fn_id node) vs (s_mem q2)] /\
        s_mem q3 sc a "Client" = rt_put R "u8" 255 ++ rt_put R "i64" id ++ response_bytes R ds node v ++ old' /\
        (forall sc' a' side, (sc', a', side) <> (sc, a, "Client") -> s_mem q3 sc' a' side = s_mem q2 sc' a' side).
Proof.
  intros ast models buffers items R V node id vs rest fuel q sc a ds (RD & F & O & D & P) L I NR NA AS IR A W FU M.
  assert (DVS : forall x, In x vs -> depth x < fuel) by (intros x J; specialize (W x J); lia).
  pose proof (a_service_file ast models buffers items RD F P) as SF.
  pose proof (async_request ast models buffers items R V fuel RD F O D P L node id vs rest q sc a I (conj NR NA) IR A DVS FU M) as RQ.
  pose proof (async_accepts R V items (calls_upto R V items fuel) (K_clean items R V fuel) node sc a q _ vs (f_none _ _ _ SF) (conj NR NA) RQ) as E.
  eexists _, _, _.
  split; [rewrite (handler_runs ast models buffers items R V fuel RD F P node _ I); exact E|].
  split; [reflexivity|].
  split; [reflexivity|].
  split; [apply get_put|].
  split; [intros sc' a' side H; now apply get_put_other|].
  intros q2 i v N CV T DV.
  unfold complete.
  rewrite N.
  unfold async_task at 1.
  pose proof (returns_result ast models buffers items R V fuel RD F O P node v T DV) as RT.
  destruct RQ as (_ & _ & _ & _ & PA).
  pose proof (async_completes R V items (calls_upto R V items fuel) ds node sc a (set_tasks (firstn i (s_tasks q2) ++ skipn (S i) (s_tasks q2)) q2)
    (("__method_id__", vnum "i64" id) :: combine (map fa_id (fn_args node)) vs) vs v id
    (f_callable _ _ _ SF node I) AS eq_refl PA CV RT) as E2.
  unfold async_task in E2.
  cbn [fst snd] in E2.
  eexists _, _.
  split; [exact E2|].
  split; [reflexivity|].
  split; [reflexivity|].
  split; [rewrite get_put; unfold overlay; rewrite <- !app_assoc; reflexivity|].
  intros sc' a' side H.
  now rewrite get_put_other.
Qed.

Lemma lem_C33_async_once : forall ast models buffers items R V node id vs rest fuel q q' sc a r l,
  let ds := rust_decls ast buffers true in
  rpc_file ast models buffers items -> lawful R ->
  In node (find_fn_nodes ast) -> fn_is_read node = false -> fn_is_async node = true -> sv_async V (fn_id node) = true ->
  in_range "i64" id = true -> arguments R ds node vs = true -> within fuel vs -> fuel > 1 ->
  s_mem q sc a "Server" = async_request_bytes R ds id vs ++ rest ->
  let run := call_fn R V items fuel (handler_name node) (async_args sc a) in
  run q = Done r q' -> history run (fun s => s_mem s sc a "Server") q' l ->
  Forall (fun '(s, o) => o = Done (bool_val false) s) l.
Proof.
  intros ast models buffers items R V node id vs rest fuel q q' sc a r l ds RF L I NR NA AS IR A W FU M run E H.
  destruct (lem_C34_async_identity ast models buffers items R V node id vs rest fuel q sc a RF L I NR NA AS IR A W FU M) as (q'' & old & task & E' & _ & _ & S & _).
  unfold run in E.
  rewrite E' in E.
  injection E as <- <-.
  pose proof (lem_C33_idle ast models buffers items R V node fuel q'' sc a l RF I NR) as X.
  rewrite NA in X.
  apply X; [|exact H].
  rewrite S.
  exists 0%Z, old.
  split; [now apply (law_prim R L)|discriminate].
Qed.

Lemma lem_C35_none_blocks : forall ast models buffers items R V node z rest fuel q sc a,
  rpc_file ast models buffers items -> lawful R ->
  In node (find_fn_nodes ast) -> fn_is_read node = true -> fn_is_async node = true -> sv_async V (fn_id node) = true ->
  rt_get R "u8" (s_mem q sc a "Server") = Some (z, rest) -> z <> 255%Z ->
  let run := call_fn R V items fuel (handler_name node) (async_args sc a) in
  exists q' task, run q = Done (bool_val true) q' /\ s_tasks q' = s_tasks q ++ [task] /\ s_log q' = s_log q /\
    forall q2 i, nth_error (s_tasks q2) i = Some task -> s_mem q2 sc a "Server" = s_mem q' sc a "Server" ->
      sv_call V (List.length (s_log q2)) (fn_id node) [] = Some (vopt None) ->
      exists q3, complete R V items fuel i q2 = Done vunit q3 /\ s_mem q3 = s_mem q2 /\
        s_log q3 = s_log q2 ++ [mk_called (fn_id node) [] (s_mem q2)] /\
        forall l, history run (fun s => s_mem s sc a "Server") q3 l -> Forall (fun '(s, o) => o = Done (bool_val false) s) l.
Proof.
  intros ast models buffers items R V node z rest fuel q sc a (RD & F & O & D & P) L I RE NA AS G Z run.
  pose proof (a_service_file ast models buffers items RD F P) as SF.
  pose proof (fun s z rest => async_read_run R V items (calls_upto R V items fuel) node sc a s z rest (conj RE NA)) as E.
  pose proof (E q z rest G) as E1.
  apply Z.eqb_neq in Z.
  rewrite Z in E1.
  eexists _, _.
  split; [unfold run; rewrite (handler_runs ast models buffers items R V fuel RD F P node _ I); exact E1|].
  split; [reflexivity|].
  split; [reflexivity|].
  intros q2 i N SV CV.
  pose proof (read_completes R V items (calls_upto R V items fuel) (rust_decls ast buffers true) node sc a (set_tasks (firstn i (s_tasks q2) ++ skipn (S i) (s_tasks q2)) q2) None
    (f_callable _ _ _ SF node I) AS CV Logic.I) as E2.
  unfold read_task in E2.
  cbn [fst snd] in E2.
  eexists.
  split; [unfold complete; rewrite N; unfold read_task; exact E2|].
  split; [reflexivity|].
  split; [reflexivity|].
  intros l H.
  eapply (history_idle run (fun s => s_mem s sc a "Server") _ l (fun b => exists rest, rt_get R "u8" b = Some (255%Z, rest))); [| |exact H].
  - intros s [r J].
  unfold run.
  rewrite (handler_runs ast models buffers items R V fuel RD F P node _ I).
  now rewrite (E s 255%Z r J).
  - cbn [logged s_mem set_log set_tasks].
  rewrite SV.
  cbn [spawned s_mem set_tasks].
  rewrite get_put.
  eexists.
  now apply (law_prim R L).
Qed.

Lemma lem_C35_some_releases : forall ast models buffers items R V node z rest fuel q sc a,
  let ds := rust_decls ast buffers true in
  rpc_file ast models buffers items -> lawful R ->
  In node (find_fn_nodes ast) -> fn_is_read node = true -> fn_is_async node = true -> sv_async V (fn_id node) = true ->
  match fn_return node with Some ty => prim_name ty = None | None => True end ->
  rt_get R "u8" (s_mem q sc a "Server") = Some (z, rest) -> z <> 255%Z ->
  let run := call_fn R V items fuel (handler_name node) (async_args sc a) in
  exists q' task, run q = Done (bool_val true) q' /\ s_tasks q' = s_tasks q ++ [task] /\ s_log q' = s_log q /\
    (forall l, history run (fun s => s_mem s sc a "Server") q' l -> Forall (fun '(s, o) => o = Done (bool_val false) s) l) /\
    forall q2 i v, nth_error (s_tasks q2) i = Some task ->
      sv_call V (List.length (s_log q2)) (fn_id node) [] = Some (vopt (Some v)) -> is_result R ds node v = true -> depth v <= fuel ->
      exists q3 q4 old, complete R V items fuel i q2 = Done vunit q3 /\
        s_log q3 = s_log q2 ++ [mk_called (fn_id node) [] (s_mem q2)] /\
        s_mem q3 sc a "Client" = rt_put R "u8" 255 ++ response_bytes R ds node v ++ old /\
        run q3 = Done (bool_val true) q4 /\ s_tasks q4 = s_tasks q3 ++ [task].
Proof.
  intros ast models buffers items R V node z rest fuel q sc a ds (RD & F & O & D & P) L I RE NA AS SE G Z run.
  pose proof (a_service_file ast models buffers items RD F P) as SF.
  pose proof (fun s z rest => async_read_run R V items (calls_upto R V items fuel) node sc a s z rest (conj RE NA)) as E.
  pose proof (E q z rest G) as E1.
  apply Z.eqb_neq in Z.
  rewrite Z in E1.
  eexists _, _.
  split; [unfold run; rewrite (handler_runs ast models buffers items R V fuel RD F P node _ I); exact E1|].
  split; [reflexivity|].
  split; [reflexivity|].
  split.
  { intros l H.
  eapply (history_idle run (fun s => s_mem s sc a "Server") _ l (fun b => exists rest, rt_get R "u8" b = Some (255%Z, rest))); [| |exact H].
  - intros s [r J].
  unfold run.
  rewrite (handler_runs ast models buffers items R V fuel RD F P node _ I).
  now rewrite (E s 255%Z r J).
  - cbn [spawned s_mem set_tasks].
  rewrite get_put.
  eexists.
  now apply (law_prim R L).
  }
  intros q2 i v N CV T DV.
  pose proof (read_completes R V items (calls_upto R V items fuel) (rust_decls ast buffers true) node sc a (set_tasks (firstn i (s_tasks q2) ++ skipn (S i) (s_tasks q2)) q2) (Some v)
    (f_callable _ _ _ SF node I) AS CV (conj SE (returns_result ast models buffers items R V fuel RD F O P node v T DV))) as E2.
  unfold read_task in E2.
  cbn [fst snd] in E2.
  eexists _, _, _.
  split; [unfold complete; rewrite N; unfold read_task; exact E2|].
  split; [reflexivity|].
  split.
  { rewrite get_put_other by congruence.
  rewrite get_put.
  unfold overlay.
  rewrite <- !app_assoc.
  reflexivity.
  }
  split; [|shelve].
  unfold run.
  rewrite (handler_runs ast models buffers items R V fuel RD F P node _ I).
  erewrite (E _ 0%Z (skipn (List.length (rt_put R "u8" 0)) (s_mem q2 sc a "Server"))); [reflexivity|].
  rewrite get_put.
  unfold overlay.
  rewrite get_put_other by congruence.
  cbn [logged s_mem set_log set_tasks].
  now apply (law_prim R L).
  Unshelve.
  reflexivity.
Qed.

Lemma lem_C36_read_runs : forall ast models buffers items R V node o fuel q sc a,
  let ds := rust_decls ast buffers true in
  rpc_file ast models buffers items ->
  In node (find_fn_nodes ast) -> fn_is_read node = true -> fn_is_async node = false -> sv_async V (fn_id node) = false ->
  match fn_return node with Some ty => prim_name ty = None | None => True end ->
  sv_call V (List.length (s_log q)) (fn_id node) [] = Some (vopt o) ->
  match o with Some v => is_result R ds node v = true /\ depth v <= fuel | None => True end ->
  exists q' old, call_fn R V items fuel (handler_name node) (async_args sc a) q = Done (bool_val (match o with Some _ => true | None => false end)) q' /\
    s_log q' = s_log q ++ [mk_called (fn_id node) [] (s_mem q)] /\
    s_mem q' sc a "Client" = match o with Some v => rt_put R "u8" 255 ++ response_bytes R ds node v | None => [] end ++ old /\
    (forall sc' a' side, (sc', a', side) <> (sc, a, "Client") -> s_mem q' sc' a' side = s_mem q sc' a' side).
Proof.
  intros ast models buffers items R V node o fuel q sc a ds (RD & F & O & D & P) I RE NA AS SE CV T.
  pose proof (a_service_file ast models buffers items RD F P) as SF.
  assert (RT : match o with Some v => sendable node /\ returns R (calls_upto R V items fuel) ds node v | None => True end).
  { destruct o as [v|]; [|exact Logic.I].
  split; [exact SE|].
  now apply (returns_result ast models buffers items R V fuel RD F O P).
  }
  pose proof (sync_read_run R V items (calls_upto R V items fuel) ds node sc a q o (conj RE NA) (f_callable _ _ _ SF node I) AS CV RT) as E.
  rewrite (handler_runs ast models buffers items R V fuel RD F P node _ I).
  destruct o as [v|].
  - eexists _, _.
  split; [exact E|].
  split; [reflexivity|].
  split; [rewrite get_put; reflexivity|].
  intros sc' a' side H.
  now rewrite get_put_other.
  - eexists _, _.
  split; [exact E|].
  split; [reflexivity|].
  split; reflexivity.
Qed.

Lemma lem_C36_primitive_read_stuck : forall ast models buffers items R V node ty v fuel q sc a,
  rpc_file ast models buffers items ->
  In node (find_fn_nodes ast) -> fn_is_read node = true -> fn_is_async node = false -> sv_async V (fn_id node) = false ->
  fn_return node = Some ty -> prim_name ty <> None ->
  sv_call V (List.length (s_log q)) (fn_id node) [] = Some (vopt (Some v)) -> typed R (rust_decls ast buffers true) v ty = true ->
  call_fn R V items fuel (handler_name node) (async_args sc a) q = Stuck.
Proof.
  intros ast models buffers items R V node ty v fuel q sc a (RD & F & O & D & P) I RE NA AS RT PR CV T.
  pose proof (a_service_file ast models buffers items RD F P) as SF.
  rewrite (handler_runs ast models buffers items R V fuel RD F P node _ I).
  eapply (sync_read_stuck R V items (calls_upto R V items fuel)); eauto using K_clean.
  - now split.
  - exact (f_callable _ _ _ SF node I).
Qed.

Lemma lem_C36_primitive_async_read_stuck : forall ast models buffers items R V node ty z rest fuel q sc a,
  rpc_file ast models buffers items ->
  In node (find_fn_nodes ast) -> fn_is_read node = true -> fn_is_async node = true -> sv_async V (fn_id node) = true ->
  fn_return node = Some ty -> prim_name ty <> None ->
  rt_get R "u8" (s_mem q sc a "Server") = Some (z, rest) -> z <> 255%Z ->
  exists q' task, call_fn R V items fuel (handler_name node) (async_args sc a) q = Done (bool_val true) q' /\ s_tasks q' = s_tasks q ++ [task] /\
    forall q2 i v, nth_error (s_tasks q2) i = Some task -> sv_call V (List.length (s_log q2)) (fn_id node) [] = Some (vopt (Some v)) ->
      typed R (rust_decls ast buffers true) v ty = true -> complete R V items fuel i q2 = Stuck.
Proof.
  intros ast models buffers items R V node ty z rest fuel q sc a (RD & F & O & D & P) I RE NA AS RT PR G Z.
  pose proof (a_service_file ast models buffers items RD F P) as SF.
  pose proof (async_read_run R V items (calls_upto R V items fuel) node sc a q z rest (conj RE NA) G) as E.
  apply Z.eqb_neq in Z.
  rewrite Z in E.
  eexists _, _.
  split; [rewrite (handler_runs ast models buffers items R V fuel RD F P node _ I); exact E|].
  split; [reflexivity|].
  intros q2 i v N CV T.
  unfold complete.
  rewrite N.
  unfold read_task.
  pose proof (read_task_stuck R V items (calls_upto R V items fuel) (rust_decls ast buffers true) node sc a (set_tasks (firstn i (s_tasks q2) ++ skipn (S i) (s_tasks q2)) q2) ty v
    (f_callable _ _ _ SF node I) AS CV RT PR T) as E2.
  unfold read_task in E2.
  cbn [fst snd] in E2.
  exact E2.
Qed.
