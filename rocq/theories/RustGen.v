(** Model of the Rust generator: src/rust_generator.rs and src/rust/*.rs.  Every function returns
    the exact text the Rust function returns; [show_ops] is a [Writer::default()] on which the
    listed calls were made.  [for] loops are [flat_map]s of writer calls. *)
Require Import Coq.Strings.String Coq.Strings.Ascii.
Require Import Coq.NArith.NArith Coq.ZArith.ZArith Coq.Lists.List Coq.Bool.Bool.
Require Import Verif.Base Verif.F64 Verif.Ast Verif.Writer.
Import ListNotations.
Local Open Scope string_scope.

(** src/rust_generator.rs:175-198 [generate_type_id]. *)
Fixpoint generate_type_id (t : type_id) : string :=
  match t with
  | TyInteger id _ _ => id
  | TyNumber id _ => id
  | TyBool id => id
  | TyChar id => id
  | TyOther id => id
  | TyGeneric id generics => id ++ "<" ++ join ", " (map generate_type_id generics) ++ ">"
  end.

(** src/rust_generator.rs:200-212 [generate_const_value]. *)
Definition generate_const_value (v : const_value) : string :=
  match v with
  | ConstLiteral lit _ =>
      match lit with
      | StringLit value => dq ++ value ++ dq
      | IntLit value => show_Z value
      | NumberLit value => show_f64 value
      | BoolLit value => show_bool value
      end
  end.

(** src/rust_generator.rs:214-237 [generate_read]. *)
Definition generate_read (t : type_id) : string :=
  match t with
  | TyInteger id _ _ => "bytes_reader.read_" ++ id ++ "()"
  | TyNumber id _ => "bytes_reader.read_" ++ id ++ "()"
  | TyBool id => "bytes_reader.read_" ++ id ++ "()"
  | TyChar id => "bytes_reader.read_" ++ id ++ "()"
  | TyOther id => id ++ "::read_from_buffers(bytes_reader)"
  | TyGeneric id generics =>
      id ++ "::<" ++ join ", " (map generate_type_id generics)
         ++ ">::read_from_buffers(bytes_reader)"
  end.

(** src/rust_generator.rs:239-261 [generate_write]. *)
Definition generate_write (t : type_id) (accessor : string) (deref : bool) : string :=
  let primitive_accessor := if deref then "*" ++ accessor else accessor in
  match t with
  | TyInteger id _ _ => "bytes_writer.write_" ++ id ++ "(" ++ primitive_accessor ++ ");"
  | TyNumber id _ => "bytes_writer.write_" ++ id ++ "(" ++ primitive_accessor ++ ");"
  | TyBool id => "bytes_writer.write_" ++ id ++ "(" ++ primitive_accessor ++ ");"
  | TyChar id => "bytes_writer.write_" ++ id ++ "(" ++ primitive_accessor ++ ");"
  | TyOther _ => accessor ++ ".write_to_buffers(bytes_writer);"
  | TyGeneric _ _ => accessor ++ ".write_to_buffers(bytes_writer);"
  end.

(** src/rust_generator.rs:263-286 [generate_default_const]. *)
Definition generate_default_const (t : type_id) : string :=
  match t with
  | TyInteger _ _ _ => "0"
  | TyNumber _ _ => "0.0"
  | TyBool _ => "false"
  | TyChar _ => "0"
  | TyOther id => id ++ "::default()"
  | TyGeneric id generics =>
      id ++ "::<" ++ join ", " (map generate_type_id generics) ++ ">::default()"
  end.

(** src/rust/struct_models.rs:37-60 [generate_struct_default]. *)
Definition generate_struct_default (node : struct_node) : string :=
  show_ops (
    [ Writeln ("impl Default for " ++ sn_id node ++ " {");
      WritelnTab 1 "fn default() -> Self {";
      WritelnTab 2 "Self {" ] ++
    flat_map (fun field =>
      [ WritelnTab 3 (sf_name field ++ ": " ++ generate_default_const (sf_type field) ++ ",") ])
      (sn_fields node) ++
    [ WritelnTab 2 "}";
      WritelnTab 1 "}";
      Write "}" ])%list.

(** src/rust/struct_models.rs:62-80 [generate_struct_parameters]. *)
Definition generate_struct_parameters (tab : nat) (is_pub : bool) (params : list struct_field)
  : string :=
  show_ops (
    flat_map (fun param =>
      let ty := generate_type_id (sf_type param) in
      if is_pub then [ WritelnTab tab ("pub " ++ sf_name param ++ ": " ++ ty ++ ",") ]
      else [ WritelnTab tab (sf_name param ++ ": " ++ ty ++ ",") ])
      params).

(** src/rust/struct_models.rs:7-35 [generate_struct_model]. *)
Definition generate_struct_model (node : struct_node) (generate_default : bool) : string :=
  show_ops (
    match sn_fields node with
    | [] =>
        [ Writeln "#[derive(Debug, Clone, PartialEq)]";
          Writeln ("pub struct " ++ sn_id node ++ ";") ] ++
        (if generate_default then
          [ Writeln "";
            Writeln ("impl Default for " ++ sn_id node ++ " {");
            WritelnTab 1 "fn default() -> Self {";
            WritelnTab 2 "Self";
            WritelnTab 1 "}";
            Writeln "}" ]
        else [])
    | _ =>
        [ Writeln "#[derive(Debug, Clone, PartialEq)]";
          Writeln ("pub struct " ++ sn_id node ++ " {");
          Write (generate_struct_parameters 1 true (sn_fields node));
          Writeln "}" ] ++
        (if generate_default then
          [ Writeln "";
            Writeln (generate_struct_default node) ]
        else [])
    end)%list.

(** src/rust/enum_models.rs:96-105 [generate_tuple_parameters]. *)
Definition generate_tuple_parameters (tab : nat) (params : list tuple_field) : string :=
  show_ops (
    flat_map (fun param => [ WritelnTab tab (generate_type_id (tf_type param) ++ ",") ]) params).

(** src/rust/enum_models.rs:9-94 [generate_enum_model]; [items.first().unwrap()] of line 49 panics
    on an enum without items. *)
Definition generate_enum_model (node : enum_node) : res string :=
  let head := (
    [ Writeln "#[derive(Debug, Clone, PartialEq)]";
      Writeln ("pub enum " ++ en_id node ++ " {") ] ++
    flat_map (fun item =>
      match item with
      | ItemEmpty _ id => [ WritelnTab 1 (id ++ ",") ]
      | ItemTuple _ id values =>
          [ WritelnTab 1 (id ++ "(");
            Write (generate_tuple_parameters 2 values);
            WritelnTab 1 ")," ]
      | ItemStruct _ id fields =>
          [ WritelnTab 1 (id ++ " {");
            Write (generate_struct_parameters 2 false fields);
            WritelnTab 1 "}," ]
      end) (en_items node) ++
    [ Writeln "}";
      Writeln "";
      Writeln ("impl Default for " ++ en_id node ++ " {");
      WritelnTab 1 "fn default() -> Self {" ])%list in
  match en_items node with
  | [] => Panic
  | default_item :: _ =>
      Ok (show_ops (
        head ++
        match default_item with
        | ItemEmpty _ id => [ WritelnTab 2 ("Self::" ++ id) ]
        | ItemTuple _ id values =>
            [ WritelnTab 2 ("Self::" ++ id ++ "(") ] ++
            flat_map (fun value =>
              [ WritelnTab 3 (generate_default_const (tf_type value) ++ ",") ]) values ++
            [ WritelnTab 2 ")" ]
        | ItemStruct _ id fields =>
            [ WritelnTab 2 ("Self::" ++ id ++ " {") ] ++
            flat_map (fun field =>
              [ WritelnTab 3
                  (sf_name field ++ ": " ++ generate_default_const (sf_type field) ++ ",") ])
              fields ++
            [ WritelnTab 2 "}" ]
        end ++
        [ WritelnTab 1 "}";
          Writeln "}" ]))
  end%list.

(** src/rust/struct_buffers.rs:23-50 [generate_struct_buffers_read_from_buffers]. *)
Definition generate_struct_buffers_read_from_buffers (node : struct_node) : string :=
  show_ops (
    match sn_fields node with
    | [] =>
        [ WritelnTab 1 "fn read_from_buffers(_: &mut BytesReader) -> Self {";
          WritelnTab 2 (sn_id node);
          WritelnTab 1 "}" ]
    | _ =>
        [ WritelnTab 1 "fn read_from_buffers(bytes_reader: &mut BytesReader) -> Self {";
          WritelnTab 2 "Self {" ] ++
        flat_map (fun field =>
          [ WritelnTab 3 (sf_name field ++ ": " ++ generate_read (sf_type field) ++ ",") ])
          (sn_fields node) ++
        [ WritelnTab 2 "}";
          WritelnTab 1 "}" ]
    end)%list.

(** src/rust/struct_buffers.rs:52-74 [generate_struct_buffers_write_to_buffers]. *)
Definition generate_struct_buffers_write_to_buffers (node : struct_node) : string :=
  show_ops (
    match sn_fields node with
    | [] => [ WritelnTab 1 "fn write_to_buffers(&self, _: &mut BytesWriter) {}" ]
    | _ =>
        [ WritelnTab 1 "fn write_to_buffers(&self, bytes_writer: &mut BytesWriter) {" ] ++
        flat_map (fun field =>
          [ WritelnTab 2 (generate_write (sf_type field) ("self." ++ sf_name field) false) ])
          (sn_fields node) ++
        [ WritelnTab 1 "}" ]
    end)%list.

(** src/rust/struct_buffers.rs:76-97 [generate_struct_buffers_skip]. *)
Definition generate_struct_buffers_skip (node : struct_node) : string :=
  show_ops (
    match sn_fields node with
    | [] => [ WritelnTab 1 "fn skip_in_buffers(_: &mut BytesReader, _: u64) {}" ]
    | _ =>
        [ WritelnTab 1 "fn skip_in_buffers(bytes_reader: &mut BytesReader, count: u64) {";
          WritelnTab 2 "for _ in 0..count {" ] ++
        flat_map (fun field => [ WritelnTab 3 (generate_read (sf_type field) ++ ";") ])
          (sn_fields node) ++
        [ WritelnTab 2 "}";
          WritelnTab 1 "}" ]
    end)%list.

(** src/rust/struct_buffers.rs:7-21 [generate_struct_buffers]. *)
Definition generate_struct_buffers (node : struct_node) : string :=
  show_ops
    [ Writeln ("impl IntoVMBuffers for " ++ sn_id node ++ " {");
      Write (generate_struct_buffers_read_from_buffers node);
      Writeln "";
      Write (generate_struct_buffers_write_to_buffers node);
      Writeln "";
      Write (generate_struct_buffers_skip node);
      Writeln "}" ].

Definition unsupported_arm : string :=
  "_ => panic!(" ++ dq ++ "Unsupported enum value: {}" ++ dq ++ ", value),".

(** src/rust/enum_buffers.rs:17-77 [generate_enum_buffers_read_from_buffers]. *)
Definition generate_enum_buffers_read_from_buffers (node : enum_node) : string :=
  show_ops (
    [ WritelnTab 1 "fn read_from_buffers(bytes_reader: &mut BytesReader) -> Self {";
      WritelnTab 2 ("let value = " ++ generate_read u32_type_id ++ ";");
      Writeln "";
      WritelnTab 2 "match value {" ] ++
    flat_map (fun item =>
      match item with
      | ItemEmpty position id =>
          [ WritelnTab 3 (show_N position ++ " => return " ++ en_id node ++ "::" ++ id ++ ",") ]
      | ItemTuple position id values =>
          [ WritelnTab 3 (show_N position ++ " => return " ++ en_id node ++ "::" ++ id ++ "(") ] ++
          flat_map (fun value => [ WritelnTab 4 (generate_read (tf_type value) ++ ",") ]) values ++
          [ WritelnTab 3 ")," ]
      | ItemStruct position id fields =>
          [ WritelnTab 3 (show_N position ++ " => return " ++ en_id node ++ "::" ++ id ++ " {") ] ++
          flat_map (fun field =>
            [ WritelnTab 4 (sf_name field ++ ": " ++ generate_read (sf_type field) ++ ",") ])
            fields ++
          [ WritelnTab 3 "}," ]
      end) (en_items node) ++
    [ WritelnTab 3 unsupported_arm;
      WritelnTab 2 "}";
      WritelnTab 1 "}" ])%list.

(** src/rust/enum_buffers.rs:79-153 [generate_enum_buffers_write_to_buffers]. *)
Definition generate_enum_buffers_write_to_buffers (node : enum_node) : string :=
  show_ops (
    [ WritelnTab 1 "fn write_to_buffers(&self, bytes_writer: &mut BytesWriter) {";
      WritelnTab 2 "match self {" ] ++
    flat_map (fun item =>
      match item with
      | ItemEmpty position id =>
          [ WritelnTab 3 (en_id node ++ "::" ++ id ++ " => {");
            WritelnTab 4 (generate_write u32_type_id (show_N position) false);
            WritelnTab 3 "}," ]
      | ItemTuple position id values =>
          [ WritelnTab 3 (en_id node ++ "::" ++ id ++ "(") ] ++
          flat_map (fun iv => [ WritelnTab 4 ("v" ++ show_nat (fst iv) ++ ",") ])
            (enumerate values) ++
          [ WritelnTab 3 ") => {";
            WritelnTab 4 (generate_write u32_type_id (show_N position) false) ] ++
          flat_map (fun iv =>
            [ WritelnTab 4 (generate_write (tf_type (snd iv)) ("v" ++ show_nat (fst iv)) true) ])
            (enumerate values) ++
          [ WritelnTab 3 "}," ]
      | ItemStruct position id fields =>
          [ WritelnTab 3 (en_id node ++ "::" ++ id ++ " {") ] ++
          flat_map (fun field => [ WritelnTab 4 (sf_name field ++ ",") ]) fields ++
          [ WritelnTab 3 "} => {";
            WritelnTab 4 (generate_write u32_type_id (show_N position) false) ] ++
          flat_map (fun field =>
            [ WritelnTab 4 (generate_write (sf_type field) (sf_name field) true) ]) fields ++
          [ WritelnTab 3 "}," ]
      end) (en_items node) ++
    [ WritelnTab 2 "}";
      WritelnTab 1 "}" ])%list.

(** src/rust/enum_buffers.rs:155-216 [generate_enum_buffers_skip]. *)
Definition generate_enum_buffers_skip (node : enum_node) : string :=
  show_ops (
    [ WritelnTab 1 "fn skip_in_buffers(bytes_reader: &mut BytesReader, count: u64) {";
      WritelnTab 2 "for _ in 0..count {";
      WritelnTab 3 ("let value = " ++ generate_read u32_type_id ++ ";");
      Writeln "";
      WritelnTab 3 "match value {" ] ++
    flat_map (fun item =>
      match item with
      | ItemEmpty position _ => [ WritelnTab 4 (show_N position ++ " => (),") ]
      | ItemTuple position _ values =>
          [ WritelnTab 4 (show_N position ++ " => {") ] ++
          flat_map (fun value => [ WritelnTab 5 (generate_read (tf_type value) ++ ";") ]) values ++
          [ WritelnTab 4 "}," ]
      | ItemStruct position _ fields =>
          [ WritelnTab 4 (show_N position ++ " => {") ] ++
          flat_map (fun field => [ WritelnTab 5 (generate_read (sf_type field) ++ ";") ]) fields ++
          [ WritelnTab 4 "}," ]
      end) (en_items node) ++
    [ WritelnTab 4 unsupported_arm;
      WritelnTab 3 "}";
      WritelnTab 2 "}";
      WritelnTab 1 "}" ])%list.

(** src/rust/enum_buffers.rs:3-15 [generate_enum_buffers]. *)
Definition generate_enum_buffers (node : enum_node) : string :=
  show_ops
    [ Writeln ("impl IntoVMBuffers for " ++ en_id node ++ " {");
      Write (generate_enum_buffers_read_from_buffers node);
      Writeln "";
      Write (generate_enum_buffers_write_to_buffers node);
      Writeln "";
      Write (generate_enum_buffers_skip node);
      Writeln "}" ].

(** src/rust/consts.rs:25-41: the printed type and value of a constant. *)
Definition const_type_and_value (ty : type_id) (value : const_value) : string * string :=
  let const_value := generate_const_value value in
  let generated_type_id := generate_type_id ty in
  match ty with
  | TyOther id =>
      if String.eqb id "GroupAddress" then
        ("tech_paws_runtime::GroupAddress",
         "tech_paws_runtime::GroupAddress(" ++ const_value ++ ")")
      else if String.eqb id "CommandsBufferAddress" then
        ("tech_paws_runtime::CommandsBufferAddress",
         "tech_paws_runtime::CommandsBufferAddress(" ++ const_value ++ ")")
      else (generated_type_id, const_value)
  | _ => (generated_type_id, const_value)
  end.

(** src/rust/consts.rs:8-64 [generate_const_block]; [items] is the loop of lines 16-59 with its two
    flags. *)
Fixpoint generate_const_block (tab : nat) (node : const_node) : string :=
  match node with
  | ConstNode id items =>
      show_ops (
        [ WritelnTab tab ("pub mod " ++ id ++ " {") ] ++
        (fix loop (items : list const_item) (is_first is_value : bool) : list wop :=
          match items with
          | [] => []
          | item :: rest =>
              match item with
              | ConstItemValue id ty value =>
                  let '(t, v) := const_type_and_value ty value in
                  (if negb is_value && negb is_first then [ Writeln "" ] else []) ++
                  [ WritelnTab (tab + 1) ("pub const " ++ id ++ ": " ++ t ++ " = " ++ v ++ ";") ] ++
                  loop rest false true
              | ConstItemNode node =>
                  (if is_value && negb is_first then [ Writeln "" ] else []) ++
                  [ Write (generate_const_block (tab + 1) node) ] ++
                  loop rest false false
              end
          end) items true false ++
        [ WritelnTab tab "}" ])%list
  end.

(** src/rust/rpc.rs:10-13, the status bytes. *)
Definition RPC_NEW_DATA_STATUS : string := "0xFF".
Definition RPC_NO_DATA_STATUS : string := "0x00".
Definition RPC_READ_BUSY_STATUS : string := "0xFF".
Definition RPC_READ_FREE_STATUS : string := "0x00".

(** src/rust/rpc.rs:29-74 [generate_register_fn]. *)
Definition generate_register_fn (ast : list ast_node) : res string :=
  match find_directive_value ast "id" with
  | Some (ConstLiteral (StringLit id) _) =>
      Ok (show_ops (
        [ Writeln "pub fn register_rpc(runtime: &mut TechPawsRuntime, addr: &TechPawsRpcAddress) {";
          WritelnTab 1 ("let scope_id = TechPawsScopeId(uuid!(" ++ dq ++ id ++ dq ++ "));");
          WritelnTab 1 "runtime.memory.add_scope(scope_id);" ] ++
        flat_map (fun node =>
          let '(group_address, register_method) :=
            if fn_is_read node then ("addr.read_group_address", "register_async_rpc_method")
            else if fn_is_async node then
              ("addr.async_group_address", "register_async_rpc_method")
            else ("addr.sync_group_address", "register_sync_rpc_method") in
          [ WritelnTab 1 ("runtime." ++ register_method ++ "(");
            WritelnTab 2 (group_address ++ ",");
            WritelnTab 2 "scope_id,";
            WritelnTab 2 ("RpcMethodAddress(" ++ show_N (fn_position node) ++ "),");
            WritelnTab 2 (fn_id node ++ "_rpc_handler,");
            WritelnTab 1 ");" ]) (find_fn_nodes ast) ++
        [ Writeln "}" ]))%list
  | _ => Panic
  end.

(** src/rust/rpc.rs:79, 190: the name of the argument struct. *)
Definition args_struct_id (node : fn_node) : string := "__" ++ fn_id node ++ "_rpc_args__".

(** src/rust/rpc.rs:82-88 and 202-208: arguments as struct fields, positions from [start]. *)
Definition args_fields (start : nat) (args : list fn_arg) : list struct_field :=
  map (fun ia => mk_struct_field (N.of_nat (fst ia)) (fa_id (snd ia)) (fa_type (snd ia)))
    (enumerate_from start args).

(** src/rust/rpc.rs:90-95: argument struct of a sync method. *)
Definition sync_args_struct (node : fn_node) : struct_node :=
  mk_struct (args_struct_id node) (args_fields 0 (fn_args node)) false true.

(** src/rust/rpc.rs:193-215: argument struct of an async method. *)
Definition async_args_struct (node : fn_node) : struct_node :=
  mk_struct (args_struct_id node)
    (mk_struct_field 0 "__method_id__" (TyNumber "i64" 8) :: args_fields 1 (fn_args node))
    false true.

(** src/rust/rpc.rs:106-126 and 231-251: reading the arguments. *)
Definition get_args_ops (node : fn_node) : list wop :=
  [ WritelnTab 1 "let args = memory.get_scope_mut(scope_id).rpc_buffer_read(";
    WritelnTab 2 "rpc_method_address,";
    WritelnTab 2 "TechPawsRuntimeRpcMethodBuffer::Server,";
    WritelnTab 2 "|bytes_reader| {";
    WritelnTab 3 "let status = bytes_reader.read_u8();";
    Writeln "";
    WritelnTab 3 ("if status == " ++ RPC_NEW_DATA_STATUS ++ " {");
    WritelnTab 4 ("Some(" ++ args_struct_id node ++ "::read_from_buffers(bytes_reader))");
    WritelnTab 3 "} else {";
    WritelnTab 4 "None";
    WritelnTab 3 "}";
    WritelnTab 2 "},";
    WritelnTab 1 ");";
    Writeln "" ].

(** src/rust/rpc.rs:128-140 and 253-265: clearing the request status. *)
Definition clear_request_ops : list wop :=
  [ WritelnTab 1 "if let Some(args) = &args {";
    WritelnTab 2 "memory.get_scope_mut(scope_id).rpc_buffer_write(";
    WritelnTab 3 "rpc_method_address,";
    WritelnTab 3 "TechPawsRuntimeRpcMethodBuffer::Server,";
    WritelnTab 3 "|bytes_writer| {";
    WritelnTab 4 ("bytes_writer.write_u8(" ++ RPC_NO_DATA_STATUS ++ ");");
    WritelnTab 3 "},";
    WritelnTab 2 ");";
    Writeln "" ].

(** src/rust/rpc.rs:142-160 (with suffix "" and tab 2) and 272-290 (with suffix ".await" and tab 3):
    the call of the server function. *)
Definition call_ops (tab : nat) (await : string) (node : fn_node) : list wop :=
  let bind := if is_none (fn_return node) then "" else "let result = " in
  match fn_args node with
  | [] => [ WritelnTab tab (bind ++ fn_id node ++ "()" ++ await ++ ";") ]
  | _ =>
      [ WritelnTab tab (bind ++ fn_id node ++ "(") ] ++
      flat_map (fun arg => [ WritelnTab (tab + 1) ("args.clone()." ++ fa_id arg ++ ",") ])
        (fn_args node) ++
      [ WritelnTab tab (")" ++ await ++ ";") ]
  end%list.

(** [if let Some(return_type_id) = &node.return_type_id { writer.writeln_tab(tab, ...) }]. *)
Definition write_result_ops (tab : nat) (node : fn_node) : list wop :=
  match fn_return node with
  | Some ty => [ WritelnTab tab (generate_write ty "result" false) ]
  | None => []
  end.

(** src/rust/rpc.rs:76-185 [generate_sync_rpc_method]. *)
Definition generate_sync_rpc_method (node : fn_node) : string :=
  show_ops (
    [ Writeln (generate_struct_model (sync_args_struct node) false);
      Writeln (generate_struct_buffers (sync_args_struct node));
      Writeln ("pub fn " ++ fn_id node ++ "_rpc_handler(");
      WritelnTab 1 "scope_id: TechPawsScopeId,";
      WritelnTab 1 "memory: &mut TechPawsRuntimeMemory,";
      WritelnTab 1 "rpc_method_address: RpcMethodAddress,";
      Writeln ") -> bool {" ] ++
    get_args_ops node ++
    clear_request_ops ++
    call_ops 2 "" node ++
    [ Writeln "";
      WritelnTab 2 "memory.get_scope_mut(scope_id).rpc_buffer_write(";
      WritelnTab 3 "rpc_method_address,";
      WritelnTab 3 "TechPawsRuntimeRpcMethodBuffer::Client,";
      WritelnTab 3 "|bytes_writer| {";
      WritelnTab 4 ("bytes_writer.write_u8(" ++ RPC_NEW_DATA_STATUS ++ ");") ] ++
    write_result_ops 4 node ++
    [ WritelnTab 3 "},";
      WritelnTab 2 ");";
      WritelnTab 1 "}";
      Writeln "";
      WritelnTab 1 "args.is_some()";
      Writeln "}" ])%list.

(** src/rust/rpc.rs:187-318 [generate_async_rpc_method]. *)
Definition generate_async_rpc_method (node : fn_node) : string :=
  show_ops (
    [ Writeln (generate_struct_model (async_args_struct node) false);
      Writeln (generate_struct_buffers (async_args_struct node));
      Writeln ("pub fn " ++ fn_id node ++ "_rpc_handler(");
      WritelnTab 1 "scope_id: TechPawsScopeId,";
      WritelnTab 1 "runtime_as_mut: unsafe fn() -> &'static mut TechPawsRuntime,";
      WritelnTab 1 "memory: &mut TechPawsRuntimeMemory,";
      WritelnTab 1 "async_context: &mut TechPawsRuntimeAsyncContext,";
      WritelnTab 1 "rpc_method_address: RpcMethodAddress,";
      Writeln ") -> bool {" ] ++
    get_args_ops node ++
    clear_request_ops ++
    [ WritelnTab 2 "let args = args.clone();";
      Writeln "";
      WritelnTab 2 "async_context.async_spawner.spawn(async move {";
      WritelnTab 3 "let memory = unsafe { &mut runtime_as_mut().memory };" ] ++
    call_ops 3 ".await" node ++
    [ Writeln "";
      WritelnTab 3 "memory.get_scope_mut(scope_id).rpc_buffer_write(";
      WritelnTab 4 "rpc_method_address,";
      WritelnTab 4 "TechPawsRuntimeRpcMethodBuffer::Client,";
      WritelnTab 4 "|bytes_writer| {";
      WritelnTab 5 ("bytes_writer.write_u8(" ++ RPC_NEW_DATA_STATUS ++ ");");
      WritelnTab 5 "bytes_writer.write_i64(args.__method_id__);" ] ++
    write_result_ops 5 node ++
    [ WritelnTab 4 "},";
      WritelnTab 3 ");";
      WritelnTab 2 "});";
      WritelnTab 1 "}";
      Writeln "";
      WritelnTab 1 "args.is_some()";
      Writeln "}" ])%list.

(** src/rust/rpc.rs:320-356 [generate_sync_read_rpc_method]. *)
Definition generate_sync_read_rpc_method (node : fn_node) : string :=
  show_ops (
    [ Writeln ("pub fn " ++ fn_id node ++ "_rpc_handler(");
      WritelnTab 1 "scope_id: TechPawsScopeId,";
      WritelnTab 1 "_: unsafe fn() -> &'static mut TechPawsRuntime,";
      WritelnTab 1 "memory: &mut TechPawsRuntimeMemory,";
      WritelnTab 1 "_: &mut TechPawsRuntimeAsyncContext,";
      WritelnTab 1 "rpc_method_address: RpcMethodAddress,";
      Writeln ") -> bool {";
      WritelnTab 1 ("let result = " ++ fn_id node ++ "();");
      Writeln "";
      WritelnTab 1 "if let Some(result) = &result {";
      WritelnTab 2 "memory.get_scope_mut(scope_id).rpc_buffer_write(";
      WritelnTab 3 "rpc_method_address,";
      WritelnTab 3 "TechPawsRuntimeRpcMethodBuffer::Client,";
      WritelnTab 3 "|bytes_writer| {";
      WritelnTab 4 ("bytes_writer.write_u8(" ++ RPC_NEW_DATA_STATUS ++ ");") ] ++
    write_result_ops 4 node ++
    [ WritelnTab 3 "},";
      WritelnTab 2 ");";
      WritelnTab 1 "}";
      Writeln "";
      WritelnTab 1 "result.is_some()";
      Writeln "}" ])%list.

(** src/rust/rpc.rs:358-435 [generate_async_read_rpc_method]. *)
Definition generate_async_read_rpc_method (node : fn_node) : string :=
  show_ops (
    [ Writeln ("pub fn " ++ fn_id node ++ "_rpc_handler(");
      WritelnTab 1 "scope_id: TechPawsScopeId,";
      WritelnTab 1 "runtime_as_mut: unsafe fn() -> &'static mut TechPawsRuntime,";
      WritelnTab 1 "memory: &mut TechPawsRuntimeMemory,";
      WritelnTab 1 "async_context: &mut TechPawsRuntimeAsyncContext,";
      WritelnTab 1 "rpc_method_address: RpcMethodAddress,";
      Writeln ") -> bool {";
      WritelnTab 1 "let is_busy = memory.get_scope_mut(scope_id).rpc_buffer_read(";
      WritelnTab 2 "rpc_method_address,";
      WritelnTab 2 "TechPawsRuntimeRpcMethodBuffer::Server,";
      WritelnTab 2 "|bytes_reader| {";
      WritelnTab 3 "let status = bytes_reader.read_u8();";
      WritelnTab 3 ("status == " ++ RPC_READ_BUSY_STATUS);
      WritelnTab 2 "},";
      WritelnTab 1 ");";
      Writeln "";
      WritelnTab 1 "if !is_busy {";
      WritelnTab 2 "memory.get_scope_mut(scope_id).rpc_buffer_write(";
      WritelnTab 3 "rpc_method_address,";
      WritelnTab 3 "TechPawsRuntimeRpcMethodBuffer::Server,";
      WritelnTab 3 "|bytes_writer| {";
      WritelnTab 4 ("bytes_writer.write_u8(" ++ RPC_READ_BUSY_STATUS ++ ");");
      WritelnTab 3 "},";
      WritelnTab 2 ");";
      Writeln "";
      WritelnTab 2 "async_context.async_spawner.spawn(async move {";
      WritelnTab 3 ("let result = " ++ fn_id node ++ "().await;");
      Writeln "";
      WritelnTab 3 "if let Some(result) = &result {";
      WritelnTab 4 "let memory = unsafe { &mut runtime_as_mut().memory };";
      WritelnTab 4 "memory.get_scope_mut(scope_id).rpc_buffer_write(";
      WritelnTab 5 "rpc_method_address,";
      WritelnTab 5 "TechPawsRuntimeRpcMethodBuffer::Client,";
      WritelnTab 5 "|bytes_writer| {";
      WritelnTab 6 ("bytes_writer.write_u8(" ++ RPC_NEW_DATA_STATUS ++ ");") ] ++
    write_result_ops 6 node ++
    [ WritelnTab 5 "},";
      WritelnTab 4 ");";
      WritelnTab 4 "memory.get_scope_mut(scope_id).rpc_buffer_write(";
      WritelnTab 5 "rpc_method_address,";
      WritelnTab 5 "TechPawsRuntimeRpcMethodBuffer::Server,";
      WritelnTab 5 "|bytes_writer| {";
      WritelnTab 6 ("bytes_writer.write_u8(" ++ RPC_READ_FREE_STATUS ++ ");");
      WritelnTab 5 "},";
      WritelnTab 4 ");";
      WritelnTab 3 "}";
      WritelnTab 2 "});";
      WritelnTab 1 "}";
      Writeln "";
      WritelnTab 1 "!is_busy";
      Writeln "}" ])%list.

(** src/rust/rpc.rs:15-27 [generate_rpc_method]. *)
Definition generate_rpc_method (node : fn_node) : string :=
  if fn_is_read node then
    if fn_is_async node then generate_async_read_rpc_method node
    else generate_sync_read_rpc_method node
  else if fn_is_async node then generate_async_rpc_method node
  else generate_sync_rpc_method node.

(** src/rust_generator.rs:81-101 [generate_models]. *)
Definition generate_models (ast : list ast_node) : res string :=
  let* parts :=
    mapM (fun node =>
      match node with
      | NStruct node => Ok [ Writeln (generate_struct_model node true) ]
      | NEnum node => let* s := generate_enum_model node in Ok [ Writeln s ]
      | _ => Ok []
      end) ast in
  Ok (pop_blank (show_ops (concat parts))).

(** src/rust_generator.rs:103-123 [generate_buffers]. *)
Definition generate_buffers (ast : list ast_node) : string :=
  pop_blank (show_ops (
    flat_map (fun node =>
      match node with
      | NStruct node => [ Writeln (generate_struct_buffers node) ]
      | NEnum node => [ Writeln (generate_enum_buffers node) ]
      | _ => []
      end) ast)).

(** src/rust_generator.rs:129-134: whether a method is declared. *)
Fixpoint has_rpc_methods (ast : list ast_node) : bool :=
  match ast with
  | [] => false
  | NFn _ :: _ => true
  | _ :: rest => has_rpc_methods rest
  end.

(** src/rust_generator.rs:125-155 [generate_rpc]. *)
Definition generate_rpc (ast : list ast_node) : res string :=
  if has_rpc_methods ast then
    let* reg := generate_register_fn ast in
    Ok (pop_blank (show_ops (
      Writeln reg ::
      flat_map (fun node =>
        match node with
        | NFn node => [ Writeln (generate_rpc_method node) ]
        | _ => []
        end) ast)))
  else Ok "".

(** src/rust_generator.rs:157-173 [generate_consts]. *)
Definition generate_consts (ast : list ast_node) : string :=
  pop_blank (show_ops (
    flat_map (fun node =>
      match node with
      | NConst node => [ Writeln (generate_const_block 0 node) ]
      | _ => []
      end) ast)).

(** src/rust_generator.rs:37-50, the imports. *)
Definition generate_uses (ast : list ast_node) : res (list wop) :=
  mapM (fun import =>
    match import with
    | ConstLiteral (StringLit value) _ => Ok (Writeln ("use " ++ value ++ ";"))
    | _ => Panic
    end) (find_directive_group_values ast "rust" "use").

(** src/rust_generator.rs:13-18, the fixed first lines. *)
Definition rust_prelude : list wop :=
  [ Writeln "// GENERATED, DO NOT EDIT";
    Writeln "";
    Writeln "#![allow(warnings)]";
    Writeln "#![allow(clippy)]";
    Writeln "#![allow(unknown_lints)]";
    Writeln "" ].

(** src/rust_generator.rs:20-35, the library imports. *)
Definition rust_lib_uses (ast : list ast_node) (buffers rpc : bool) : list wop :=
  if rpc && negb (match find_fn_nodes ast with [] => true | _ => false end) then
    [ Writeln "use tech_paws_buffers::{BytesReader, BytesWriter, IntoVMBuffers};";
      Writeln "use tech_paws_runtime::{";
      WritelnTab 1 "memory::TechPawsRuntimeMemory, RpcMethodAddress, TechPawsRpcAddress, TechPawsRuntime,";
      WritelnTab 1 "TechPawsRuntimeAsyncContext, TechPawsRuntimeRpcMethodBuffer, TechPawsScopeId,";
      Writeln "};";
      Writeln "use uuid::uuid;" ]
  else if buffers then
    [ Writeln "use tech_paws_buffers::{BytesReader, BytesWriter, IntoVMBuffers};" ]
  else [].

(** src/rust_generator.rs:10-79 [generate]. *)
Definition rust_generate (ast : list ast_node) (models buffers rpc : bool) : res string :=
  let* uses := generate_uses ast in
  let consts :=
    if contains_consts_nodes ast then [ Writeln ""; Write (generate_consts ast) ] else [] in
  let* models_ops :=
    if models then let* s := generate_models ast in Ok [ Writeln ""; Write s ] else Ok [] in
  let buffers_ops := if buffers then [ Writeln ""; Write (generate_buffers ast) ] else [] in
  let* rpc_ops :=
    if rpc then let* s := generate_rpc ast in Ok [ Writeln ""; Write s ] else Ok [] in
  Ok (trim_blank_lines (show_ops (
    rust_prelude ++ rust_lib_uses ast buffers rpc ++ uses ++ consts ++ models_ops ++
    buffers_ops ++ rpc_ops)))%list.
