(** The syntax trees of the generated Dart files.  [DartFile.v] proves that reading the generated
    text gives exactly these trees; the meaning of the code is then defined on trees. *)
Require Import Coq.Strings.String Coq.Strings.Ascii.
Require Import Coq.NArith.NArith Coq.ZArith.ZArith Coq.Lists.List Coq.Bool.Bool.
Require Import Verif.Base Verif.F64 Verif.Ast Verif.Writer Verif.CaseConv Verif.Code Verif.DartSyntax Verif.DartPrint.
Require Import Verif.DartGen.
Require Verif.RustTree.
Import ListNotations.
Local Open Scope string_scope.
Local Open Scope list_scope.

Definition ty0 (n : string) : dty := DTy n [].
Definition var (n : string) : dex := DName n [].

Fixpoint dty_of (t : type_id) : dty :=
  match t with
  | TyInteger _ _ _ => ty0 "int"
  | TyNumber _ _ => ty0 "double"
  | TyBool _ => ty0 "bool"
  | TyChar _ => ty0 "int"
  | TyOther id => ty0 id
  | TyGeneric id l => DTy (list_name id) (map dty_of l)
  end.
Definition ret_ty (t : option type_id) : dty :=
  match t with Some t => dty_of t | None => ty0 "void" end.

(** One more postfix. *)
Definition postfix (e : dex) (p : dpost) : dex :=
  match e with
  | DPost h ps => DPost h (ps ++ [p])
  | _ => DPost e [p]
  end.
Definition field (e : dex) (f : string) : dex := postfix e (XField f).
Definition call (e : dex) (m : string) (args : list dex) : dex :=
  postfix e (XMeth m [] (map (fun a => (None, a)) args) false).
Definition new (c : string) : dex := DPost (var c) [XCall [] false].
Definition const0 (c : string) : dex := DConst c [] [] false.

(** The codec objects: [const FooIntoBuffers()] and so on. *)
Definition into_codec (t : type_id) : dex :=
  match t with
  | TyOther id => const0 (id ++ "IntoBuffers")
  | TyGeneric id l =>
      match vec_element id l with
      | Some g =>
          DConst "ListIntoBuffers" [dty_of g]
            [(None, const0 (generate_class_prefix g ++ "IntoBuffers"))] false
      | None => DConst (id ++ "IntoBuffers") (map dty_of l) [] false
      end
  | _ => var "null"
  end.
Definition emplace_codec (t : type_id) : dex :=
  match t with
  | TyOther id =>
      if String.eqb id "String" then const0 (id ++ "IntoBuffers") else const0 (id ++ "EmplaceToBuffers")
  | TyGeneric id l =>
      match vec_element id l with
      | Some g =>
          DConst "ListEmplaceToBuffers" [dty_of g]
            [(None, const0 (generate_class_prefix g ++ "IntoBuffers"))] false
      | None => DConst (id ++ "EmplaceToBuffers") (map dty_of l) [] false
      end
  | _ => var "null"
  end.

(** The suffix of the [BytesReader] and [BytesWriter] methods of a primitive. *)
Definition prim_name (t : type_id) : string :=
  match t with
  | TyInteger _ 1 _ | TyChar _ => "Int8"
  | TyInteger _ 4 _ => "Int32"
  | TyInteger _ _ _ => "Int64"
  | TyNumber _ 4 => "Float"
  | TyNumber _ _ => "Double"
  | _ => "Bool"
  end.

Definition is_prim (t : type_id) : bool :=
  match t with TyOther _ | TyGeneric _ _ => false | _ => true end.
Definition is_string (t : type_id) : bool :=
  match t with TyOther id => String.eqb id "String" | _ => false end.

Definition read_ex (t : type_id) : dex :=
  if is_prim t then call (var "reader") ("read" ++ prim_name t) []
  else call (into_codec t) "read" [var "reader"].
Definition write_st (t : type_id) (a : dex) : dst :=
  DExpr (if is_prim t then call (var "writer") ("write" ++ prim_name t) [a]
         else call (into_codec t) "write" [var "writer"; a]).
Definition read_emplace_st (t : type_id) (a : dex) : dst :=
  DExpr (if is_prim t || is_string t then DSet a (read_ex t)
         else call (emplace_codec t) "read" [var "reader"; a]).
Definition write_emplace_st (t : type_id) (a : dex) : dst :=
  if is_prim t then write_st t a
  else DExpr (call (emplace_codec t) "write" [var "writer"; a]).
Definition skip_st (t : type_id) : dst :=
  DExpr (if is_prim t then read_ex t else call (into_codec t) "skip" [var "reader"; DNum "1"]).
Definition skip_emplace_st (t : type_id) : dst :=
  DExpr (if is_prim t then read_ex t else call (emplace_codec t) "skip" [var "reader"; DNum "1"]).

Definition default_ex (t : type_id) : dex :=
  match t with
  | TyInteger _ _ _ | TyChar _ => DNum "0"
  | TyNumber _ _ => DFloat "0" "0"
  | TyBool _ => var "false"
  | TyOther id => call (const0 (id ++ "BuffersFactory")) "createDefault" []
  | TyGeneric id l =>
      call (DConst (list_name id ++ "BuffersFactory") (map dty_of l) [] false) "createDefault" []
  end.

(** ** Models *)

Definition override : dmember := MAnnot "override".
Definition fname (f : struct_field) : string := camel (sf_name f).

Definition factory_class (id : string) (e : dex) : ditem :=
  DClass (id ++ "BuffersFactory") (Some (DTy "BuffersFactory" [ty0 id]))
    [ MConstCtor (id ++ "BuffersFactory");
      override;
      MMeth false (ty0 id) "createDefault" (PPos [] false) (BArrow e) ].

Definition struct_model_tree (node : struct_node) : list ditem :=
  let id := sn_id node in
  match sn_fields node with
  | [] => [ DClass id None [MConstCtor id]; factory_class id (const0 id) ]
  | fields =>
      [ DClass id None
          (map (fun f => MField (dty_of (sf_type f)) (fname f) None) fields ++
           [ MCtor id (PNamed (map (fun f => (None, fname f)) fields)) None;
             MInitCtor id "createDefault" (map (fun f => (fname f, default_ex (sf_type f))) fields) ]);
        factory_class id (call (var id) "createDefault" []) ]
  end.

Definition value_of (enum item : string) : dex := field (var (enum ++ "Value")) (camel item).
Definition v_name (i : nat) : string := "v" ++ show_nat i.
Definition tuple_params (vs : list tuple_field) : dparams :=
  PPos (map (fun iv => (Some (dty_of (tf_type (snd iv))), v_name (fst iv))) (enumerate vs))
       (RustTree.nil_or vs).
Definition struct_params (fs : list struct_field) : dparams :=
  PNamed (map (fun f => (Some (dty_of (sf_type f)), fname f)) fs).
(** The names of the fields of an item's class. *)
Definition item_names (i : enum_item) : list string :=
  match i with
  | ItemEmpty _ _ => []
  | ItemTuple _ _ vs => map (fun iv => v_name (fst iv)) (enumerate vs)
  | ItemStruct _ _ fs => map fname fs
  end.
Definition item_params (i : enum_item) : dparams :=
  match i with
  | ItemEmpty _ _ => PPos [] false
  | ItemTuple _ _ vs => tuple_params vs
  | ItemStruct _ _ fs => struct_params fs
  end.
Definition set_st (a b : dex) : dst := DExpr (DSet a b).

Definition item_default (enum : string) (i : enum_item) : dex :=
  match i with
  | ItemEmpty _ id => const0 (enum ++ id)
  | ItemTuple _ id _ | ItemStruct _ id _ => call (var (enum ++ id)) "createDefault" []
  end.
Definition to_method (enum : string) (i : enum_item) : dmember :=
  MMeth false (ty0 "void") ("to" ++ pascal (item_id i)) (item_params i)
    match i with
    | ItemEmpty _ id => BArrow (DSet (var "value") (value_of enum id))
    | _ =>
        BBlock (set_st (var "value") (value_of enum (item_id i)) ::
                map (fun n => set_st (field (var (camel (item_id i))) n) (var n)) (item_names i))
    end.
Definition is_method (enum : string) (i : enum_item) : dmember :=
  MMeth false (ty0 "bool") ("is" ++ pascal (item_id i)) (PPos [] false)
    (BArrow (DEq false (var "value") (value_of enum (item_id i)))).
Definition create_method (enum : string) (i : enum_item) : dmember :=
  MMeth true (ty0 enum) ("create" ++ pascal (item_id i)) (item_params i)
    (BBlock (
       [ DFinal "model" (new enum);
         set_st (field (var "model") "value") (value_of enum (item_id i)) ] ++
       map (fun n => set_st (field (field (var "model") (camel (item_id i))) n) (var n)) (item_names i) ++
       [ DReturn (Some (var "model")) ])).

Definition enum_model_tree (node : enum_node) : list ditem :=
  let id := en_id node in
  match en_items node with
  | [] => []
  | first :: _ =>
      [ DEnum (id ++ "Value") (map (fun i => camel (item_id i)) (en_items node));
        DClass id None
          (MField (ty0 (id ++ "Value")) "value" (Some (value_of id (item_id first))) ::
           map (fun i => MField (ty0 (id ++ item_id i)) (camel (item_id i)) (Some (item_default id i)))
               (en_items node) ++
           map (to_method id) (en_items node) ++
           map (is_method id) (en_items node) ++
           map (create_method id) (en_items node));
        factory_class id (new id) ] ++
      flat_map (fun i => struct_model_tree (create_enum_item_struct_ast_node node i)) (en_items node)
  end.

(** ** Buffers *)

Definition reader_param : dparam := (Some (ty0 "BytesReader"), "reader").
Definition writer_param : dparam := (Some (ty0 "BytesWriter"), "writer").
Definition model_param (id : string) : dparam := (Some (ty0 id), "model").
Definition read_meth (t : string) (ps : list dparam) (body : list dst) : dmember :=
  MMeth false (ty0 t) "read" (PPos ps false) (BBlock body).
Definition write_meth (id : string) (body : list dst) : dmember :=
  MMeth false (ty0 "void") "write" (PPos [writer_param; model_param id] false) (BBlock body).
Definition skip_meth (body : list dst) : dmember :=
  MMeth false (ty0 "void") "skip" (PPos [reader_param; (Some (ty0 "int"), "count")] false) (BBlock body).
(** The codec class of [id]; [kind] is IntoBuffers or EmplaceToBuffers. *)
Definition codec_class (kind id : string) (r wr s : dmember) : ditem :=
  DClass (id ++ kind) (Some (DTy kind [ty0 id]))
    [ MConstCtor (id ++ kind); override; r; override; wr; override; s ].

Definition model_field (f : struct_field) : dex := field (var "model") (fname f).
Definition count_loop (body : list dst) : dst := DFor "i" "0" "count" "1" body.

Definition struct_into_read (node : struct_node) : dmember :=
  read_meth (sn_id node) [reader_param]
    (map (fun f => DFinal (fname f) (read_ex (sf_type f))) (sn_fields node) ++
     [ DReturn (Some (DPost (var (sn_id node))
         [XCall (map (fun f => (Some (fname f), var (fname f))) (sn_fields node))
                (RustTree.nil_or (sn_fields node))])) ]).
Definition struct_into_write (node : struct_node) : dmember :=
  write_meth (sn_id node) (map (fun f => write_st (sf_type f) (model_field f)) (sn_fields node)).
Definition struct_skip_meth (skip : type_id -> dst) (node : struct_node) : dmember :=
  skip_meth
    (map (fun f => skip (sf_type f)) (filter (fun f => is_other (sf_type f)) (sn_fields node)) ++
     [ count_loop (map (fun f => skip (sf_type f))
                       (filter (fun f => negb (is_other (sf_type f))) (sn_fields node))) ]).
Definition struct_into_class (node : struct_node) : ditem :=
  codec_class "IntoBuffers" (sn_id node) (struct_into_read node) (struct_into_write node)
    (struct_skip_meth skip_st node).

Definition struct_emplace_read (node : struct_node) : dmember :=
  read_meth "void" [reader_param; model_param (sn_id node)]
    (map (fun f => read_emplace_st (sf_type f) (model_field f)) (sn_fields node)).
Definition struct_emplace_write (node : struct_node) : dmember :=
  write_meth (sn_id node) (map (fun f => write_emplace_st (sf_type f) (model_field f)) (sn_fields node)).
Definition struct_emplace_class (node : struct_node) : ditem :=
  codec_class "EmplaceToBuffers" (sn_id node) (struct_emplace_read node) (struct_emplace_write node)
    (struct_skip_meth skip_emplace_st node).
Definition struct_buffers_tree (node : struct_node) : list ditem :=
  (if sn_emplace node then [struct_emplace_class node] else []) ++
  (if sn_into node then [struct_into_class node] else []).

Definition read_tag : dst := DFinal "value" (call (var "reader") "readInt32" []).
Definition unsupported : option dex * list dst :=
  (None, [ DThrow (DPost (var "StateError")
             [XCall [(None, DStr "Unsupported enum value: $value")] false]) ]).
Definition item_codec (enum : string) (i : enum_item) : dex :=
  const0 (enum ++ item_id i ++ "EmplaceToBuffers").
Definition tag (i : enum_item) : dex := DNum (show_N (item_position i)).
Definition model_item (i : enum_item) : dex := field (var "model") (camel (item_id i)).
Definition set_value (enum : string) (i : enum_item) : dst :=
  set_st (field (var "model") "value") (value_of enum (item_id i)).

Definition enum_into_read_meth (node : enum_node) : dmember :=
  let id := en_id node in
  read_meth id [reader_param]
    [ read_tag;
      DSwitch (var "value")
        (map (fun i =>
           (Some (tag i),
            [ DFinal "model" (new id);
              set_value id i;
              DExpr (call (item_codec id i) "read" [var "reader"; model_item i]);
              DReturn (Some (var "model")) ])) (en_items node) ++ [unsupported]) ].
Definition enum_emplace_read_meth (node : enum_node) : dmember :=
  let id := en_id node in
  read_meth "void" [reader_param; model_param id]
    [ read_tag;
      DSwitch (var "value")
        (map (fun i =>
           (Some (tag i),
            [ set_value id i;
              DExpr (call (item_codec id i) "read" [var "reader"; model_item i]);
              DReturn None ])) (en_items node) ++ [unsupported]) ].
Definition enum_write_meth (node : enum_node) : dmember :=
  let id := en_id node in
  write_meth id
    [ DSwitch (field (var "model") "value")
        (map (fun i =>
           (Some (value_of id (item_id i)),
            [ DExpr (call (var "writer") "writeInt32" [tag i]);
              DExpr (call (item_codec id i) "write" [var "writer"; model_item i]);
              DReturn None ])) (en_items node)) ].
Definition enum_skip_meth (node : enum_node) : dmember :=
  let id := en_id node in
  skip_meth
    [ count_loop
        [ read_tag;
          DSwitch (var "value")
            (map (fun i =>
               (Some (tag i),
                [ DExpr (call (item_codec id i) "skip" [var "reader"; DNum "1"]);
                  DBreak ])) (en_items node) ++ [unsupported]) ] ].
Definition enum_into_class (node : enum_node) : ditem :=
  codec_class "IntoBuffers" (en_id node) (enum_into_read_meth node) (enum_write_meth node)
    (enum_skip_meth node).
Definition enum_emplace_class (node : enum_node) : ditem :=
  codec_class "EmplaceToBuffers" (en_id node) (enum_emplace_read_meth node) (enum_write_meth node)
    (enum_skip_meth node).
Definition enum_buffers_tree (node : enum_node) : list ditem :=
  map (fun i => struct_emplace_class (create_enum_item_struct_ast_node node i)) (en_items node) ++
  [ enum_into_class node; enum_emplace_class node ].

Definition models_tree (ast : list ast_node) : list ditem :=
  flat_map (fun n => match n with
                     | NStruct n => struct_model_tree n
                     | NEnum n => enum_model_tree n
                     | _ => []
                     end) ast.
Definition buffers_tree (ast : list ast_node) : list ditem :=
  flat_map (fun n => match n with
                     | NStruct n => struct_buffers_tree n
                     | NEnum n => enum_buffers_tree n
                     | _ => []
                     end) ast.

(** ** Constants *)

Definition unsigned_ex (s : string) : dex :=
  match RustTree.digits_upto_dot s with
  | (a, Some b) => DFloat a b
  | (a, None) => DNum a
  end.
Definition number_ex (s : string) : dex :=
  match s with
  | String c s' => if Ascii.eqb c "-" then DNeg (unsigned_ex s') else unsigned_ex s
  | "" => DNum ""
  end.
Definition const_value_ex (v : const_value) : dex :=
  match v with
  | ConstLiteral (StringLit s) _ => DStr s
  | ConstLiteral (IntLit z) _ => number_ex (show_Z z)
  | ConstLiteral (NumberLit x) _ => number_ex (show_f64 x)
  | ConstLiteral (BoolLit b) _ => var (show_bool b)
  end.
Definition const_dty (t : type_id) : dty :=
  match t with
  | TyOther id =>
      if String.eqb id "GroupAddress" || String.eqb id "CommandsBufferAddress" then ty0 "int"
      else dty_of t
  | _ => dty_of t
  end.
Definition const_member (prefix id : string) (i : const_item) : dmember :=
  match i with
  | ConstItemValue n ty v => MFinal (Some (const_dty ty)) (camel n) (Some (const_value_ex v))
  | ConstItemNode child =>
      MFinal None (camel (const_id child))
        (Some (const0 ("_" ++ prefix ++ pascal id ++ pascal (const_id child))))
  end.
Fixpoint const_classes (prefix : string) (c : const_node) : list ditem :=
  match c with
  | ConstNode id items =>
      DClass ("_" ++ prefix ++ pascal id) None
        (MConstCtor ("_" ++ prefix ++ pascal id) :: map (const_member prefix id) items) ::
      flat_map (fun i => match i with
                         | ConstItemValue _ _ _ => []
                         | ConstItemNode n => const_classes (prefix ++ pascal id)%string n
                         end) items
  end.
Definition consts_tree (ast : list ast_node) : list ditem :=
  flat_map (fun n => match n with
                     | NConst c => [DConstDecl (camel (const_id c)) (new ("_" ++ pascal (const_id c)))]
                     | _ => []
                     end) ast ++
  flat_map (fun n => match n with NConst c => const_classes "" c | _ => [] end) ast.

(** ** The client *)

Definition scheduler : dex := var "_scheduler".
Definition args3 (node : fn_node) (side : string) (f : dex) : list (option string * dex) :=
  [ (None, var "_scopeId");
    (None, DNum (show_N (fn_position node)));
    (None, field (var "TechPawsRuntimeRpcMethodBuffer") side);
    (None, f) ].
Definition scall (m : string) (ts : list dty) (args : list (option string * dex)) : dex :=
  DPost scheduler [XMeth m ts args true].
Definition has_data : dex := DPost (var "TechPawsRpcBufferStatus") [XField "hasData"; XField "value"].
Definition put_status : dst := DExpr (call (var "writer") "writeInt8" [has_data]).
Definition arg_writes (node : fn_node) : list dst :=
  map (fun a => write_st (fa_type a) (var (camel (fa_id a)))) (fn_args node).
Definition get_status : dst := DFinal "status" (call (var "reader") "readInt8" []).
Definition method_params (node : fn_node) : dparams :=
  match fn_args node with
  | [] => PPos [] false
  | l => PNamed (map (fun a => (Some (dty_of (fa_type a)), camel (fa_id a))) l)
  end.

Definition sync_method (node : fn_node) : dmember :=
  MMeth false (ret_ty (fn_return node)) (camel (fn_id node)) (method_params node)
    (BBlock (
      [ DExpr (scall "syncWrite" [] (args3 node "server" (DFun "writer" (put_status :: arg_writes node))));
        DExpr (call scheduler "loopSyncGroup" []) ] ++
      match fn_return node with
      | None => []
      | Some t =>
          [ DFinal "result" (scall "syncRead" [dty_of t] (args3 node "client" (DFun "reader"
              [ get_status;
                DIf (DEq true (var "status") has_data)
                  [DThrow (DPost (var "StateError") [XCall [(None, DStr "No data")] false])];
                DReturn (Some (read_ex t)) ])));
            DReturn (Some (var "result")) ]
      end)).

Definition connect_method (node : fn_node) (rest : list dst) : dmember :=
  MMeth false (ty0 "void") ("_connect" ++ pascal (fn_id node)) (PPos [] false)
    (BBlock [ set_st (var (var_read_task node))
        (scall "read" [] (args3 node "client" (DFun "reader" (
          [ get_status; DIf (DEq true (var "status") has_data) [DReturn None] ] ++ rest)))) ]).

Definition completer_at (node : fn_node) : dpost := XIndex (var "methodId").
Definition async_connect_rest (node : fn_node) : list dst :=
  let completers := var_method_completers node in
  DFinal "methodId" (call (var "reader") "readInt64" []) ::
  match fn_return node with
  | Some t =>
      [ DFinal "result" (read_ex t);
        DExpr (DPost (var completers) [XIndex (var "methodId"); XOpt "complete" [(None, var "result")] false]) ]
  | None =>
      [ DExpr (DPost (var completers) [XIndex (var "methodId"); XOpt "complete" [] false]) ]
  end ++
  [ DExpr (call (var completers) "remove" [var "methodId"]) ].
Definition async_method (node : fn_node) : dmember :=
  let last := var_last_method_id node in
  MMeth false (DTy "Future" [ret_ty (fn_return node)]) (camel (fn_id node)) (method_params node)
    (BBlock
      [ DFinal "methodId" (var last);
        set_st (var last) (DPost (var "rotateMethodId") [XCall [(None, var last)] false]);
        DExpr (scall "write" [] (args3 node "server" (DFun "writer" (
          [ put_status; DExpr (call (var "writer") "writeInt64" [var "methodId"]) ] ++ arg_writes node))));
        DFinal "completer" (DPost (DName "Completer" [ret_ty (fn_return node)]) [XCall [] false]);
        set_st (DPost (var (var_method_completers node)) [XIndex (var "methodId")]) (var "completer");
        DReturn (Some (field (var "completer") "future")) ]).
Definition read_rest (node : fn_node) : list dst :=
  match fn_return node with
  | Some t =>
      [ DFinal "result" (read_ex t);
        DExpr (call (var (var_read_stream_controller node)) "add" [var "result"]) ]
  | None => [ DExpr (call (var (var_read_stream_controller node)) "add" [var "null"]) ]
  end.
Definition method_members (node : fn_node) : list dmember :=
  if fn_is_read node then [connect_method node (read_rest node)]
  else if fn_is_async node then [connect_method node (async_connect_rest node); async_method node]
  else [sync_method node].

Definition var_members (node : fn_node) : list dmember :=
  (if fn_is_async node && negb (fn_is_read node) then
     [ MField (ty0 "int") (var_last_method_id node) (Some (DNum "0"));
       MFinal None (var_method_completers node)
         (Some (DMap [ty0 "int"; DTy "Completer" [ret_ty (fn_return node)]])) ] else []) ++
  (if is_async_or_read node then
     [ MLate (ty0 "TechPawsRuntimeRpcReadTask") (var_read_task node) ] else []) ++
  (if fn_is_read node then
     [ MFinal None (var_read_stream_controller node)
         (Some (DPost (DName "StreamController" [ret_ty (fn_return node)])
                  [XMeth "broadcast" [] [] false])) ] else []).
Definition getter_members (node : fn_node) : list dmember :=
  if fn_is_read node then
    [ MGet (DTy "Stream" [ret_ty (fn_return node)]) (camel (fn_id node))
        (field (var (var_read_stream_controller node)) "stream") ]
  else [].
Definition connect_call (node : fn_node) : list dst :=
  if is_async_or_read node then [DExpr (new ("_connect" ++ pascal (fn_id node)))] else [].
Definition disconnect_sts (node : fn_node) : list dst :=
  (if is_async_or_read node then
     [ DExpr (call scheduler "disconnect" [var (var_read_task node)]) ] else []) ++
  (if fn_is_read node then
     [ DExpr (call (var (var_read_stream_controller node)) "close" []) ] else []).

Definition client_class (namespace id : string) (nodes : list fn_node) : ditem :=
  let name := (pascal namespace ++ "RpcClient")%string in
  DClass name None (
    [ MCtor name (PPos [(None, "_scheduler")] false)
        match flat_map connect_call nodes with [] => None | l => Some l end;
      MFinal (Some (ty0 "TechPawsRuntimeRpcScheduler")) "_scheduler" None;
      MStatic "_scopeId" (DStr id) ] ++
    flat_map var_members nodes ++
    flat_map getter_members nodes ++
    [ MMeth false (ty0 "void") "disconnect" (PPos [] false) (BBlock (flat_map disconnect_sts nodes)) ] ++
    flat_map method_members nodes).
Definition rpc_tree (ast : list ast_node) : list ditem :=
  match find_fn_nodes ast with
  | [] => []
  | nodes =>
      match required_string ast "namespace", required_string ast "id" with
      | Ok namespace, Ok id => [client_class namespace id nodes]
      | _, _ => []
      end
  end.

(** ** The file *)

Definition lib_imports_tree (ast : list ast_node) (buffers rpc : bool) : list ditem :=
  if rpc && negb (match find_fn_nodes ast with [] => true | _ => false end) then
    map DImport ["dart:async"; "dart:convert"; "package:tech_paws_buffers/tech_paws_buffers.dart";
      "package:tech_paws_buffers/primitives.dart"; "package:tech_paws_runtime/scheduler.dart";
      "package:tech_paws_runtime/tech_paws_runtime.dart"]
  else if buffers then
    map DImport ["package:tech_paws_buffers/tech_paws_buffers.dart";
      "package:tech_paws_buffers/primitives.dart"]
  else [].
Definition imports_tree (ast : list ast_node) : list ditem :=
  flat_map (fun v => match v with ConstLiteral (StringLit s) _ => [DImport s] | _ => [] end)
    (find_directive_group_values ast "dart" "import").
Definition dart_tree (ast : list ast_node) (models buffers rpc : bool) : list ditem :=
  lib_imports_tree ast buffers rpc ++ imports_tree ast ++ consts_tree ast ++
  (if models then models_tree ast else []) ++
  (if buffers then buffers_tree ast else []) ++
  (if rpc then rpc_tree ast else []).
