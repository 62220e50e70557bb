(** The syntax trees of the generated Rust files.  [RustLexed.v] proves that reading the generated
    text gives exactly these trees; the meaning of the code is then defined on trees. *)
Require Import Coq.Strings.String Coq.Strings.Ascii.
Require Import Coq.NArith.NArith Coq.ZArith.ZArith Coq.Lists.List Coq.Bool.Bool.
Require Import Verif.Base Verif.F64 Verif.Ast Verif.Writer Verif.Code Verif.RustSyntax Verif.RustPrint.
Require Import Verif.RustGen.
Import ListNotations.
Local Open Scope string_scope.
Local Open Scope list_scope.

Fixpoint rty_of (t : type_id) : rty :=
  match t with
  | TyInteger id _ _ | TyNumber id _ | TyBool id | TyChar id | TyOther id => RPath [id] []
  | TyGeneric id l => RPath [id] (map rty_of l)
  end.

Definition var (n : string) : ex := EPath [SName n].
Definition path2 (a b : string) : ex := EPath [SName a; SName b].
Definition nil_or (A : Type) (l : list A) : bool := match l with [] => false | _ => true end.
Arguments nil_or {A} l.

(** The path of a type in an expression: [A::f] or [A::<T, U>::f]. *)
Definition assoc_fn (t : type_id) (f : string) : ex :=
  match t with
  | TyGeneric id l => EPath [SName id; SArgs (map rty_of l); SName f]
  | TyInteger id _ _ | TyNumber id _ | TyBool id | TyChar id | TyOther id => path2 id f
  end.

Definition read_tree (t : type_id) : ex :=
  match t with
  | TyInteger id _ _ | TyNumber id _ | TyBool id | TyChar id =>
      EPost (var "bytes_reader") [XMeth ("read_" ++ id) [] false]
  | TyOther _ | TyGeneric _ _ =>
      EPost (assoc_fn t "read_from_buffers") [XCall [var "bytes_reader"] false]
  end.

(** One more postfix. *)
Definition postfix (e : ex) (p : post) : ex :=
  match e with
  | EPost h ps => EPost h (ps ++ [p])
  | _ => EPost e [p]
  end.

Definition write_tree (t : type_id) (accessor : ex) (deref : bool) : st :=
  match t with
  | TyInteger id _ _ | TyNumber id _ | TyBool id | TyChar id =>
      SSemi (EPost (var "bytes_writer")
               [XMeth ("write_" ++ id) [if deref then EDeref accessor else accessor] false])
  | TyOther _ | TyGeneric _ _ =>
      SSemi (postfix accessor (XMeth "write_to_buffers" [var "bytes_writer"] false))
  end.

Definition default_tree (t : type_id) : ex :=
  match t with
  | TyInteger _ _ _ | TyChar _ => ENum "0"
  | TyNumber _ _ => EFloat "0" "0"
  | TyBool _ => var "false"
  | TyOther _ | TyGeneric _ _ => EPost (assoc_fn t "default") [XCall [] false]
  end.

Definition self_ty : rty := RPath ["Self"] [].
Definition ty0 (n : string) : rty := RPath [n] [].
Definition mut_ref (n : string) : rty := RRef false true (ty0 n).

Definition derive_attr : item :=
  IAttr false [w "derive"; G "(" [w "Debug"; y ","; w "Clone"; y ","; w "PartialEq"]].

Definition field_decl (f : struct_field) : string * rty := (sf_name f, rty_of (sf_type f)).
Definition field_default (f : struct_field) : string * ex := (sf_name f, default_tree (sf_type f)).
Definition field_read (f : struct_field) : string * ex := (sf_name f, read_tree (sf_type f)).

Definition default_impl (id : string) (e : ex) : item :=
  IImpl "Default" (ty0 id) [mk_rfn "default" [] false (Some self_ty) (Blk [] (Some e))].

(** Models *)

Definition struct_model_tree (node : struct_node) (generate_default : bool) : list item :=
  match sn_fields node with
  | [] =>
      [derive_attr; IStruct (sn_id node) None] ++
      (if generate_default then [default_impl (sn_id node) (var "Self")] else [])
  | fields =>
      [derive_attr; IStruct (sn_id node) (Some (map field_decl fields))] ++
      (if generate_default
       then [default_impl (sn_id node) (EStruct [SName "Self"] (map field_default fields))] else [])
  end.

Definition variant_tree (i : enum_item) : variant :=
  match i with
  | ItemEmpty _ id => VUnit id
  | ItemTuple _ id values => VTuple id (map (fun v => rty_of (tf_type v)) values)
  | ItemStruct _ id fields => VStruct id (map field_decl fields)
  end.
Definition variant_default (i : enum_item) : ex :=
  match i with
  | ItemEmpty _ id => path2 "Self" id
  | ItemTuple _ id values =>
      EPost (path2 "Self" id) [XCall (map (fun v => default_tree (tf_type v)) values) (nil_or values)]
  | ItemStruct _ id fields => EStruct [SName "Self"; SName id] (map field_default fields)
  end.
Definition enum_model_tree (node : enum_node) : list item :=
  match en_items node with
  | [] => []
  | first :: _ =>
      [derive_attr; IEnum (en_id node) (map variant_tree (en_items node));
       default_impl (en_id node) (variant_default first)]
  end.

(** Buffers *)

Definition struct_read_fn (node : struct_node) : rfn :=
  match sn_fields node with
  | [] =>
      mk_rfn "read_from_buffers" [("_", mut_ref "BytesReader")] false (Some self_ty)
        (Blk [] (Some (var (sn_id node))))
  | fields =>
      mk_rfn "read_from_buffers" [("bytes_reader", mut_ref "BytesReader")] false (Some self_ty)
        (Blk [] (Some (EStruct [SName "Self"] (map field_read fields))))
  end.
Definition self_field (f : string) : ex := EPost (var "self") [XField f].
Definition struct_write_fn (node : struct_node) : rfn :=
  match sn_fields node with
  | [] =>
      mk_rfn "write_to_buffers" [("self", self_ref); ("_", mut_ref "BytesWriter")] false None
        (Blk [] None)
  | fields =>
      mk_rfn "write_to_buffers" [("self", self_ref); ("bytes_writer", mut_ref "BytesWriter")] false None
        (Blk (map (fun f => write_tree (sf_type f) (self_field (sf_name f)) false) fields) None)
  end.
Definition struct_skip_fn (node : struct_node) : rfn :=
  match sn_fields node with
  | [] =>
      mk_rfn "skip_in_buffers" [("_", mut_ref "BytesReader"); ("_", ty0 "u64")] false None (Blk [] None)
  | fields =>
      mk_rfn "skip_in_buffers" [("bytes_reader", mut_ref "BytesReader"); ("count", ty0 "u64")] false None
        (Blk [SFor (ENum "0") (var "count")
                (Blk (map (fun f => SSemi (read_tree (sf_type f))) fields) None)] None)
  end.
Definition struct_buffers_tree (node : struct_node) : item :=
  IImpl "IntoVMBuffers" (ty0 (sn_id node))
    [struct_read_fn node; struct_write_fn node; struct_skip_fn node].

Definition unsupported : pat * ex :=
  (PWild, EMacro "panic" [EStr "Unsupported enum value: {}"; var "value"] false).

Definition enum_read_arm (en : string) (i : enum_item) : pat * ex :=
  match i with
  | ItemEmpty position id => (PNum (show_N position), EReturn (path2 en id))
  | ItemTuple position id values =>
      (PNum (show_N position),
       EReturn (EPost (path2 en id) [XCall (map (fun v => read_tree (tf_type v)) values) (nil_or values)]))
  | ItemStruct position id fields =>
      (PNum (show_N position), EReturn (EStruct [SName en; SName id] (map field_read fields)))
  end.
Definition enum_read_fn (node : enum_node) : rfn :=
  mk_rfn "read_from_buffers" [("bytes_reader", mut_ref "BytesReader")] false (Some self_ty)
    (Blk [SLet "value" (read_tree u32_type_id)]
       (Some (EMatch (var "value") (map (enum_read_arm (en_id node)) (en_items node) ++ [unsupported])))).

Definition tag_tree (position : N) : st := write_tree u32_type_id (ENum (show_N position)) false.
Definition v_name (i : nat) : string := "v" ++ show_nat i.
Definition enum_write_arm (en : string) (i : enum_item) : pat * ex :=
  match i with
  | ItemEmpty position id =>
      (PPath [SName en; SName id], EBlock BPlain (Blk [tag_tree position] None))
  | ItemTuple position id values =>
      (PTuple [SName en; SName id] (map (fun iv => v_name (fst iv)) (enumerate values)) (nil_or values),
       EBlock BPlain (Blk (tag_tree position ::
         map (fun iv => write_tree (tf_type (snd iv)) (var (v_name (fst iv))) true) (enumerate values))
         None))
  | ItemStruct position id fields =>
      (PStruct [SName en; SName id] (map sf_name fields),
       EBlock BPlain (Blk (tag_tree position ::
         map (fun f => write_tree (sf_type f) (var (sf_name f)) true) fields) None))
  end.
Definition enum_write_fn (node : enum_node) : rfn :=
  mk_rfn "write_to_buffers" [("self", self_ref); ("bytes_writer", mut_ref "BytesWriter")] false None
    (Blk [] (Some (EMatch (var "self") (map (enum_write_arm (en_id node)) (en_items node))))).

Definition enum_skip_arm (i : enum_item) : pat * ex :=
  match i with
  | ItemEmpty position _ => (PNum (show_N position), EUnit)
  | ItemTuple position _ values =>
      (PNum (show_N position),
       EBlock BPlain (Blk (map (fun v => SSemi (read_tree (tf_type v))) values) None))
  | ItemStruct position _ fields =>
      (PNum (show_N position),
       EBlock BPlain (Blk (map (fun f => SSemi (read_tree (sf_type f))) fields) None))
  end.
Definition enum_skip_fn (node : enum_node) : rfn :=
  mk_rfn "skip_in_buffers" [("bytes_reader", mut_ref "BytesReader"); ("count", ty0 "u64")] false None
    (Blk [SFor (ENum "0") (var "count")
            (Blk [SLet "value" (read_tree u32_type_id)]
               (Some (EMatch (var "value") (map enum_skip_arm (en_items node) ++ [unsupported]))))] None).
Definition enum_buffers_tree (node : enum_node) : item :=
  IImpl "IntoVMBuffers" (ty0 (en_id node)) [enum_read_fn node; enum_write_fn node; enum_skip_fn node].

(** Constants *)

Fixpoint digits_upto_dot (s : string) : string * option string :=
  match s with
  | "" => ("", None)
  | String c s' =>
      if Ascii.eqb c "." then ("", Some s')
      else let '(a, b) := digits_upto_dot s' in (String c a, b)
  end.
(** A printed number as an expression. *)
Definition unsigned_tree (s : string) : ex :=
  match digits_upto_dot s with (a, None) => ENum a | (a, Some b) => EFloat a b end.
Definition number_tree (s : string) : ex :=
  match s with
  | String c s' => if Ascii.eqb c "-" then ENeg (unsigned_tree s') else unsigned_tree s
  | "" => unsigned_tree s
  end.
Definition const_value_tree (v : const_value) : ex :=
  match v with
  | ConstLiteral (StringLit s) _ => EStr s
  | ConstLiteral (IntLit z) _ => number_tree (show_Z z)
  | ConstLiteral (NumberLit x) _ => number_tree (show_f64 x)
  | ConstLiteral (BoolLit b) _ => var (show_bool b)
  end.
Definition runtime_path (n : string) : list pseg := [SName "tech_paws_runtime"; SName n].
Definition const_tree (id : string) (ty : type_id) (v : const_value) : item :=
  let plain := IConst id (rty_of ty) (const_value_tree v) in
  let wrapped n :=
    IConst id (RPath ["tech_paws_runtime"; n] [])
      (EPost (EPath (runtime_path n)) [XCall [const_value_tree v] false]) in
  match ty with
  | TyOther n =>
      if String.eqb n "GroupAddress" then wrapped "GroupAddress"
      else if String.eqb n "CommandsBufferAddress" then wrapped "CommandsBufferAddress"
      else plain
  | _ => plain
  end.
Fixpoint const_block_tree (node : const_node) : item :=
  match node with
  | ConstNode id items =>
      IMod id (map (fun i =>
        match i with
        | ConstItemValue id ty v => const_tree id ty v
        | ConstItemNode n => const_block_tree n
        end) items)
  end.

(** Remote calls *)

Definition call1 (f : string) (args : list ex) : ex := EPost (var f) [XCall args false].
Definition buffer_call (m : string) (side : string) (closure : ex) : ex :=
  EPost (var "memory")
    [XMeth "get_scope_mut" [var "scope_id"] false;
     XMeth m [var "rpc_method_address"; path2 "TechPawsRuntimeRpcMethodBuffer" side; closure] true].
Definition writer_block (l : list st) : ex := EClosure "bytes_writer" (EBlock BPlain (Blk l None)).
Definition write_u8 (v : string) : st :=
  SSemi (EPost (var "bytes_writer") [XMeth "write_u8" [ENum v] false]).
Definition read_u8 : ex := EPost (var "bytes_reader") [XMeth "read_u8" [] false].

Definition get_args_tree (node : fn_node) : ex :=
  buffer_call "rpc_buffer_read" "Server"
    (EClosure "bytes_reader" (EBlock BPlain
      (Blk [SLet "status" read_u8]
         (Some (EIf (EEq (var "status") (ENum "0xFF"))
            (Blk [] (Some (call1 "Some"
               [EPost (path2 (args_struct_id node) "read_from_buffers") [XCall [var "bytes_reader"] false]])))
            (Some (Blk [] (Some (var "None"))))))))).
Definition clear_request_tree : st :=
  SSemi (buffer_call "rpc_buffer_write" "Server" (writer_block [write_u8 "0x00"])).
Definition if_some (x : string) (b : block) : ex :=
  EIfLet (PTuple [SName "Some"] [x] false) (ERef false (var x)) b.

Definition call_tree (await : bool) (node : fn_node) : st :=
  let args := map (fun a => EPost (var "args") [XMeth "clone" [] false; XField (fa_id a)]) (fn_args node) in
  let e := EPost (var (fn_id node))
             (XCall args (nil_or args) :: if await then [XField "await"] else []) in
  match fn_return node with None => SSemi e | Some _ => SLet "result" e end.
Definition result_tree (node : fn_node) : list st :=
  match fn_return node with Some ty => [write_tree ty (var "result") false] | None => [] end.

Definition handler (node : fn_node) (params : list (string * rty)) (b : block) : item :=
  IFn (mk_rfn (fn_id node ++ "_rpc_handler")
         ([("scope_id", ty0 "TechPawsScopeId")] ++ params ++ [("rpc_method_address", ty0 "RpcMethodAddress")])
         true (Some (ty0 "bool")) b).
Definition is_some_tree (x : string) : ex := EPost (var x) [XMeth "is_some" [] false].
Definition memory_param : string * rty := ("memory", mut_ref "TechPawsRuntimeMemory").
Definition runtime_fn : rty := RUnsafeFn (RRef true true (ty0 "TechPawsRuntime")).
Definition async_params (r c : string) : list (string * rty) :=
  [(r, runtime_fn); memory_param; (c, mut_ref "TechPawsRuntimeAsyncContext")].

Definition sync_method_tree (node : fn_node) : list item :=
  struct_model_tree (sync_args_struct node) false ++
  [struct_buffers_tree (sync_args_struct node);
   handler node [memory_param]
     (Blk [SLet "args" (get_args_tree node);
           SBare (if_some "args" (Blk
             [clear_request_tree;
              call_tree false node;
              SSemi (buffer_call "rpc_buffer_write" "Client"
                (writer_block (write_u8 "0xFF" :: result_tree node)))] None))]
        (Some (is_some_tree "args")))].

Definition spawn_tree (l : list st) (t : option ex) : st :=
  SSemi (EPost (var "async_context")
    [XField "async_spawner"; XMeth "spawn" [EBlock BAsync (Blk l t)] false]).
Definition let_memory : st :=
  SLet "memory" (EBlock BUnsafe (Blk [] (Some
    (ERef true (EPost (var "runtime_as_mut") [XCall [] false; XField "memory"]))))).

Definition async_method_tree (node : fn_node) : list item :=
  struct_model_tree (async_args_struct node) false ++
  [struct_buffers_tree (async_args_struct node);
   handler node (async_params "runtime_as_mut" "async_context")
     (Blk [SLet "args" (get_args_tree node);
           SBare (if_some "args" (Blk
             [clear_request_tree;
              SLet "args" (EPost (var "args") [XMeth "clone" [] false]);
              spawn_tree
                [let_memory;
                 call_tree true node;
                 SSemi (buffer_call "rpc_buffer_write" "Client"
                   (writer_block
                     (write_u8 "0xFF" ::
                      SSemi (EPost (var "bytes_writer")
                        [XMeth "write_i64" [EPost (var "args") [XField "__method_id__"]] false]) ::
                      result_tree node)))] None] None))]
        (Some (is_some_tree "args")))].

Definition sync_read_method_tree (node : fn_node) : list item :=
  [handler node (async_params "_" "_")
     (Blk [SLet "result" (EPost (var (fn_id node)) [XCall [] false]);
           SBare (if_some "result" (Blk
             [SSemi (buffer_call "rpc_buffer_write" "Client"
                (writer_block (write_u8 "0xFF" :: result_tree node)))] None))]
        (Some (is_some_tree "result")))].

Definition async_read_method_tree (node : fn_node) : list item :=
  [handler node (async_params "runtime_as_mut" "async_context")
     (Blk [SLet "is_busy" (buffer_call "rpc_buffer_read" "Server"
             (EClosure "bytes_reader" (EBlock BPlain
               (Blk [SLet "status" read_u8] (Some (EEq (var "status") (ENum "0xFF")))))));
           SBare (EIf (ENot (var "is_busy")) (Blk
             [SSemi (buffer_call "rpc_buffer_write" "Server" (writer_block [write_u8 "0xFF"]));
              spawn_tree
                [SLet "result" (EPost (var (fn_id node)) [XCall [] false; XField "await"])]
                (Some (if_some "result" (Blk
                   [let_memory;
                    SSemi (buffer_call "rpc_buffer_write" "Client"
                      (writer_block (write_u8 "0xFF" :: result_tree node)));
                    SSemi (buffer_call "rpc_buffer_write" "Server" (writer_block [write_u8 "0x00"]))]
                   None)))] None) None)]
        (Some (ENot (var "is_busy"))))].

Definition rpc_method_tree (node : fn_node) : list item :=
  if fn_is_read node then
    if fn_is_async node then async_read_method_tree node else sync_read_method_tree node
  else if fn_is_async node then async_method_tree node else sync_method_tree node.

Definition register_tree (id : string) (nodes : list fn_node) : item :=
  IFn (mk_rfn "register_rpc" [("runtime", mut_ref "TechPawsRuntime");
                              ("addr", RRef false false (ty0 "TechPawsRpcAddress"))] false None
    (Blk ([SLet "scope_id" (call1 "TechPawsScopeId" [EMacro "uuid" [EStr id] false]);
           SSemi (EPost (var "runtime") [XField "memory"; XMeth "add_scope" [var "scope_id"] false])] ++
      map (fun node =>
        let '(group, m) :=
          if fn_is_read node then ("read_group_address", "register_async_rpc_method")
          else if fn_is_async node then ("async_group_address", "register_async_rpc_method")
          else ("sync_group_address", "register_sync_rpc_method") in
        SSemi (EPost (var "runtime")
          [XMeth m [EPost (var "addr") [XField group]; var "scope_id";
                    call1 "RpcMethodAddress" [ENum (show_N (fn_position node))];
                    var (fn_id node ++ "_rpc_handler")] true])) nodes) None)).

(** The whole file *)

Definition models_tree (ast : list ast_node) : list item :=
  flat_map (fun n => match n with
                     | NStruct n => struct_model_tree n true
                     | NEnum n => enum_model_tree n
                     | _ => []
                     end) ast.
Definition buffers_tree (ast : list ast_node) : list item :=
  flat_map (fun n => match n with
                     | NStruct n => [struct_buffers_tree n]
                     | NEnum n => [enum_buffers_tree n]
                     | _ => []
                     end) ast.
Definition consts_tree (ast : list ast_node) : list item :=
  flat_map (fun n => match n with NConst n => [const_block_tree n] | _ => [] end) ast.
Definition service_id (ast : list ast_node) : string :=
  match find_directive_value ast "id" with Some (ConstLiteral (StringLit id) _) => id | _ => "" end.
Definition rpc_tree (ast : list ast_node) : list item :=
  match find_fn_nodes ast with
  | [] => []
  | nodes => register_tree (service_id ast) nodes :: flat_map rpc_method_tree nodes
  end.

Definition allow (l : string) : item := IAttr true [w "allow"; G "(" [w l]].
Definition buffers_use : item :=
  IUse [w "tech_paws_buffers"; y "::"; G "{" [w "BytesReader"; y ","; w "BytesWriter"; y ","; w "IntoVMBuffers"]].
Definition runtime_uses : list item :=
  [IUse [w "tech_paws_runtime"; y "::"; G "{"
      [w "memory"; y "::"; w "TechPawsRuntimeMemory"; y ","; w "RpcMethodAddress"; y ",";
       w "TechPawsRpcAddress"; y ","; w "TechPawsRuntime"; y ","; w "TechPawsRuntimeAsyncContext"; y ",";
       w "TechPawsRuntimeRpcMethodBuffer"; y ","; w "TechPawsScopeId"; y ","]];
   IUse [w "uuid"; y "::"; w "uuid"]].
(** The tokens of an imported path. *)
Definition use_tokens (s : string) : list tt :=
  match code_tokens rust_quotes s with
  | Some ts => match group ts with Some l => l | None => [] end
  | None => []
  end.
Definition user_uses (ast : list ast_node) : list item :=
  flat_map (fun v => match v with ConstLiteral (StringLit s) _ => [IUse (use_tokens s)] | _ => [] end)
    (find_directive_group_values ast "rust" "use").

Definition rust_tree (ast : list ast_node) (models buffers rpc : bool) : list item :=
  [allow "warnings"; allow "clippy"; allow "unknown_lints"] ++
  (if rpc && nil_or (find_fn_nodes ast) then buffers_use :: runtime_uses
   else if buffers then [buffers_use] else []) ++
  user_uses ast ++
  consts_tree ast ++
  (if models then models_tree ast else []) ++
  (if buffers then buffers_tree ast else []) ++
  (if rpc then rpc_tree ast else []).
