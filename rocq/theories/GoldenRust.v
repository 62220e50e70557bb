(** Conformance tests, not proofs: the model reproduces the expected outputs stored in
    /repo/test_resources, from the inputs stored there, exactly as the unit tests of
    src/rust_generator.rs:289-406 do.  The texts are copies of the files named in the comments. *)
Require Import Coq.Strings.String Coq.Lists.List.
Require Import Verif.Base Verif.Ast Verif.Lexer Verif.Parser Verif.RustGen.
Local Open Scope string_scope.

Definition check (gen : list ast_node -> res string) (src expected : string) : bool :=
  match compile_front src with
  | Ok ast => match gen ast with Ok s => String.eqb s expected | _ => false end
  | _ => false
  end.

(* test_resources/empty.tpb *)
Definition f_empty_tpb : string :=
"".

(* test_resources/rust/empty.rs *)
Definition f_rust_empty_rs : string :=
"// GENERATED, DO NOT EDIT

#![allow(warnings)]
#![allow(clippy)]
#![allow(unknown_lints)]

use tech_paws_buffers::{BytesReader, BytesWriter, IntoVMBuffers};
".

Example golden_rust_empty_rs :
  check (fun ast => rust_generate ast true true true) f_empty_tpb f_rust_empty_rs = true.
Proof. vm_compute. reflexivity. Qed.

(* test_resources/struct.tpb *)
Definition f_struct_tpb : string :=
"struct Empty;

struct ViewData {
    delta_time: f32,
    view_width: f32,
    view_height: f32,
    touch_start_x: f32,
    touch_start_y: f32,
    last_touch_x: f32,
    last_touch_y: f32,
    touch_x: f32,
    touch_y: f32,
}

struct Test {
    #[1] touch_x: f32,
    #[2] touch_y: f32,
    #[3] touch_status: TouchStatus,
}

struct GenericType {
    items: Vec<Test>,
    table: LinearTable<f32, Test>,
}
".

(* test_resources/rust/struct_models.rs *)
Definition f_rust_struct_models_rs : string :=
"#[derive(Debug, Clone, PartialEq)]
pub struct Empty;

impl Default for Empty {
    fn default() -> Self {
        Self
    }
}

#[derive(Debug, Clone, PartialEq)]
pub struct ViewData {
    pub delta_time: f32,
    pub view_width: f32,
    pub view_height: f32,
    pub touch_start_x: f32,
    pub touch_start_y: f32,
    pub last_touch_x: f32,
    pub last_touch_y: f32,
    pub touch_x: f32,
    pub touch_y: f32,
}

impl Default for ViewData {
    fn default() -> Self {
        Self {
            delta_time: 0.0,
            view_width: 0.0,
            view_height: 0.0,
            touch_start_x: 0.0,
            touch_start_y: 0.0,
            last_touch_x: 0.0,
            last_touch_y: 0.0,
            touch_x: 0.0,
            touch_y: 0.0,
        }
    }
}

#[derive(Debug, Clone, PartialEq)]
pub struct Test {
    pub touch_x: f32,
    pub touch_y: f32,
    pub touch_status: TouchStatus,
}

impl Default for Test {
    fn default() -> Self {
        Self {
            touch_x: 0.0,
            touch_y: 0.0,
            touch_status: TouchStatus::default(),
        }
    }
}

#[derive(Debug, Clone, PartialEq)]
pub struct GenericType {
    pub items: Vec<Test>,
    pub table: LinearTable<f32, Test>,
}

impl Default for GenericType {
    fn default() -> Self {
        Self {
            items: Vec::<Test>::default(),
            table: LinearTable::<f32, Test>::default(),
        }
    }
}
".

Example golden_rust_struct_models_rs :
  check (generate_models) f_struct_tpb f_rust_struct_models_rs = true.
Proof. vm_compute. reflexivity. Qed.

(* test_resources/enum.tpb *)
Definition f_enum_tpb : string :=
"enum MyEnum {
    #[1] Idle,
    #[2] Move {
        #[1] x: f64,
        #[2] y: f64,
    },
    #[3] Update(#[1] f64, #[2] f64, #[4] String),
}

enum MyEnumWithoutPositions {
    Option1(u64),
    Option2 { name: String },
    Option3,
    Option4,
}
".

(* test_resources/rust/enum_models.rs *)
Definition f_rust_enum_models_rs : string :=
"#[derive(Debug, Clone, PartialEq)]
pub enum MyEnum {
    Idle,
    Move {
        x: f64,
        y: f64,
    },
    Update(
        f64,
        f64,
        String,
    ),
}

impl Default for MyEnum {
    fn default() -> Self {
        Self::Idle
    }
}

#[derive(Debug, Clone, PartialEq)]
pub enum MyEnumWithoutPositions {
    Option1(
        u64,
    ),
    Option2 {
        name: String,
    },
    Option3,
    Option4,
}

impl Default for MyEnumWithoutPositions {
    fn default() -> Self {
        Self::Option1(
            0,
        )
    }
}
".

Example golden_rust_enum_models_rs :
  check (generate_models) f_enum_tpb f_rust_enum_models_rs = true.
Proof. vm_compute. reflexivity. Qed.

(* test_resources/rust/struct_buffers.rs *)
Definition f_rust_struct_buffers_rs : string :=
"impl IntoVMBuffers for Empty {
    fn read_from_buffers(_: &mut BytesReader) -> Self {
        Empty
    }

    fn write_to_buffers(&self, _: &mut BytesWriter) {}

    fn skip_in_buffers(_: &mut BytesReader, _: u64) {}
}

impl IntoVMBuffers for ViewData {
    fn read_from_buffers(bytes_reader: &mut BytesReader) -> Self {
        Self {
            delta_time: bytes_reader.read_f32(),
            view_width: bytes_reader.read_f32(),
            view_height: bytes_reader.read_f32(),
            touch_start_x: bytes_reader.read_f32(),
            touch_start_y: bytes_reader.read_f32(),
            last_touch_x: bytes_reader.read_f32(),
            last_touch_y: bytes_reader.read_f32(),
            touch_x: bytes_reader.read_f32(),
            touch_y: bytes_reader.read_f32(),
        }
    }

    fn write_to_buffers(&self, bytes_writer: &mut BytesWriter) {
        bytes_writer.write_f32(self.delta_time);
        bytes_writer.write_f32(self.view_width);
        bytes_writer.write_f32(self.view_height);
        bytes_writer.write_f32(self.touch_start_x);
        bytes_writer.write_f32(self.touch_start_y);
        bytes_writer.write_f32(self.last_touch_x);
        bytes_writer.write_f32(self.last_touch_y);
        bytes_writer.write_f32(self.touch_x);
        bytes_writer.write_f32(self.touch_y);
    }

    fn skip_in_buffers(bytes_reader: &mut BytesReader, count: u64) {
        for _ in 0..count {
            bytes_reader.read_f32();
            bytes_reader.read_f32();
            bytes_reader.read_f32();
            bytes_reader.read_f32();
            bytes_reader.read_f32();
            bytes_reader.read_f32();
            bytes_reader.read_f32();
            bytes_reader.read_f32();
            bytes_reader.read_f32();
        }
    }
}

impl IntoVMBuffers for Test {
    fn read_from_buffers(bytes_reader: &mut BytesReader) -> Self {
        Self {
            touch_x: bytes_reader.read_f32(),
            touch_y: bytes_reader.read_f32(),
            touch_status: TouchStatus::read_from_buffers(bytes_reader),
        }
    }

    fn write_to_buffers(&self, bytes_writer: &mut BytesWriter) {
        bytes_writer.write_f32(self.touch_x);
        bytes_writer.write_f32(self.touch_y);
        self.touch_status.write_to_buffers(bytes_writer);
    }

    fn skip_in_buffers(bytes_reader: &mut BytesReader, count: u64) {
        for _ in 0..count {
            bytes_reader.read_f32();
            bytes_reader.read_f32();
            TouchStatus::read_from_buffers(bytes_reader);
        }
    }
}

impl IntoVMBuffers for GenericType {
    fn read_from_buffers(bytes_reader: &mut BytesReader) -> Self {
        Self {
            items: Vec::<Test>::read_from_buffers(bytes_reader),
            table: LinearTable::<f32, Test>::read_from_buffers(bytes_reader),
        }
    }

    fn write_to_buffers(&self, bytes_writer: &mut BytesWriter) {
        self.items.write_to_buffers(bytes_writer);
        self.table.write_to_buffers(bytes_writer);
    }

    fn skip_in_buffers(bytes_reader: &mut BytesReader, count: u64) {
        for _ in 0..count {
            Vec::<Test>::read_from_buffers(bytes_reader);
            LinearTable::<f32, Test>::read_from_buffers(bytes_reader);
        }
    }
}
".

Example golden_rust_struct_buffers_rs :
  check (fun ast => Ok (generate_buffers ast)) f_struct_tpb f_rust_struct_buffers_rs = true.
Proof. vm_compute. reflexivity. Qed.

(* test_resources/rust/enum_buffers.rs *)
Definition f_rust_enum_buffers_rs : string :=
"impl IntoVMBuffers for MyEnum {
    fn read_from_buffers(bytes_reader: &mut BytesReader) -> Self {
        let value = bytes_reader.read_u32();

        match value {
            1 => return MyEnum::Idle,
            2 => return MyEnum::Move {
                x: bytes_reader.read_f64(),
                y: bytes_reader.read_f64(),
            },
            3 => return MyEnum::Update(
                bytes_reader.read_f64(),
                bytes_reader.read_f64(),
                String::read_from_buffers(bytes_reader),
            ),
            _ => panic!(""Unsupported enum value: {}"", value),
        }
    }

    fn write_to_buffers(&self, bytes_writer: &mut BytesWriter) {
        match self {
            MyEnum::Idle => {
                bytes_writer.write_u32(1);
            },
            MyEnum::Move {
                x,
                y,
            } => {
                bytes_writer.write_u32(2);
                bytes_writer.write_f64(*x);
                bytes_writer.write_f64(*y);
            },
            MyEnum::Update(
                v0,
                v1,
                v2,
            ) => {
                bytes_writer.write_u32(3);
                bytes_writer.write_f64(*v0);
                bytes_writer.write_f64(*v1);
                v2.write_to_buffers(bytes_writer);
            },
        }
    }

    fn skip_in_buffers(bytes_reader: &mut BytesReader, count: u64) {
        for _ in 0..count {
            let value = bytes_reader.read_u32();

            match value {
                1 => (),
                2 => {
                    bytes_reader.read_f64();
                    bytes_reader.read_f64();
                },
                3 => {
                    bytes_reader.read_f64();
                    bytes_reader.read_f64();
                    String::read_from_buffers(bytes_reader);
                },
                _ => panic!(""Unsupported enum value: {}"", value),
            }
        }
    }
}

impl IntoVMBuffers for MyEnumWithoutPositions {
    fn read_from_buffers(bytes_reader: &mut BytesReader) -> Self {
        let value = bytes_reader.read_u32();

        match value {
            0 => return MyEnumWithoutPositions::Option1(
                bytes_reader.read_u64(),
            ),
            1 => return MyEnumWithoutPositions::Option2 {
                name: String::read_from_buffers(bytes_reader),
            },
            2 => return MyEnumWithoutPositions::Option3,
            3 => return MyEnumWithoutPositions::Option4,
            _ => panic!(""Unsupported enum value: {}"", value),
        }
    }

    fn write_to_buffers(&self, bytes_writer: &mut BytesWriter) {
        match self {
            MyEnumWithoutPositions::Option1(
                v0,
            ) => {
                bytes_writer.write_u32(0);
                bytes_writer.write_u64(*v0);
            },
            MyEnumWithoutPositions::Option2 {
                name,
            } => {
                bytes_writer.write_u32(1);
                name.write_to_buffers(bytes_writer);
            },
            MyEnumWithoutPositions::Option3 => {
                bytes_writer.write_u32(2);
            },
            MyEnumWithoutPositions::Option4 => {
                bytes_writer.write_u32(3);
            },
        }
    }

    fn skip_in_buffers(bytes_reader: &mut BytesReader, count: u64) {
        for _ in 0..count {
            let value = bytes_reader.read_u32();

            match value {
                0 => {
                    bytes_reader.read_u64();
                },
                1 => {
                    String::read_from_buffers(bytes_reader);
                },
                2 => (),
                3 => (),
                _ => panic!(""Unsupported enum value: {}"", value),
            }
        }
    }
}
".

Example golden_rust_enum_buffers_rs :
  check (fun ast => Ok (generate_buffers ast)) f_enum_tpb f_rust_enum_buffers_rs = true.
Proof. vm_compute. reflexivity. Qed.

(* test_resources/rpc_sync_methods.tpb *)
Definition f_rpc_sync_methods_tpb : string :=
"#[id = ""4de616f8-12c5-4d2c-8d48-9c5fb038991f""]
#[namespace = ""examples_sync""]

fn print_hello_world();

fn hello_world() -> String;

fn say_hello(name: String) -> String;

fn sum(a: i32, b: f32, c: f64) -> f64;
".

(* test_resources/rust/rpc_sync_methods.rs *)
Definition f_rust_rpc_sync_methods_rs : string :=
"pub fn register_rpc(runtime: &mut TechPawsRuntime, addr: &TechPawsRpcAddress) {
    let scope_id = TechPawsScopeId(uuid!(""4de616f8-12c5-4d2c-8d48-9c5fb038991f""));
    runtime.memory.add_scope(scope_id);
    runtime.register_sync_rpc_method(
        addr.sync_group_address,
        scope_id,
        RpcMethodAddress(0),
        print_hello_world_rpc_handler,
    );
    runtime.register_sync_rpc_method(
        addr.sync_group_address,
        scope_id,
        RpcMethodAddress(1),
        hello_world_rpc_handler,
    );
    runtime.register_sync_rpc_method(
        addr.sync_group_address,
        scope_id,
        RpcMethodAddress(2),
        say_hello_rpc_handler,
    );
    runtime.register_sync_rpc_method(
        addr.sync_group_address,
        scope_id,
        RpcMethodAddress(3),
        sum_rpc_handler,
    );
}

#[derive(Debug, Clone, PartialEq)]
pub struct __print_hello_world_rpc_args__;

impl IntoVMBuffers for __print_hello_world_rpc_args__ {
    fn read_from_buffers(_: &mut BytesReader) -> Self {
        __print_hello_world_rpc_args__
    }

    fn write_to_buffers(&self, _: &mut BytesWriter) {}

    fn skip_in_buffers(_: &mut BytesReader, _: u64) {}
}

pub fn print_hello_world_rpc_handler(
    scope_id: TechPawsScopeId,
    memory: &mut TechPawsRuntimeMemory,
    rpc_method_address: RpcMethodAddress,
) -> bool {
    let args = memory.get_scope_mut(scope_id).rpc_buffer_read(
        rpc_method_address,
        TechPawsRuntimeRpcMethodBuffer::Server,
        |bytes_reader| {
            let status = bytes_reader.read_u8();

            if status == 0xFF {
                Some(__print_hello_world_rpc_args__::read_from_buffers(bytes_reader))
            } else {
                None
            }
        },
    );

    if let Some(args) = &args {
        memory.get_scope_mut(scope_id).rpc_buffer_write(
            rpc_method_address,
            TechPawsRuntimeRpcMethodBuffer::Server,
            |bytes_writer| {
                bytes_writer.write_u8(0x00);
            },
        );

        print_hello_world();

        memory.get_scope_mut(scope_id).rpc_buffer_write(
            rpc_method_address,
            TechPawsRuntimeRpcMethodBuffer::Client,
            |bytes_writer| {
                bytes_writer.write_u8(0xFF);
            },
        );
    }

    args.is_some()
}

#[derive(Debug, Clone, PartialEq)]
pub struct __hello_world_rpc_args__;

impl IntoVMBuffers for __hello_world_rpc_args__ {
    fn read_from_buffers(_: &mut BytesReader) -> Self {
        __hello_world_rpc_args__
    }

    fn write_to_buffers(&self, _: &mut BytesWriter) {}

    fn skip_in_buffers(_: &mut BytesReader, _: u64) {}
}

pub fn hello_world_rpc_handler(
    scope_id: TechPawsScopeId,
    memory: &mut TechPawsRuntimeMemory,
    rpc_method_address: RpcMethodAddress,
) -> bool {
    let args = memory.get_scope_mut(scope_id).rpc_buffer_read(
        rpc_method_address,
        TechPawsRuntimeRpcMethodBuffer::Server,
        |bytes_reader| {
            let status = bytes_reader.read_u8();

            if status == 0xFF {
                Some(__hello_world_rpc_args__::read_from_buffers(bytes_reader))
            } else {
                None
            }
        },
    );

    if let Some(args) = &args {
        memory.get_scope_mut(scope_id).rpc_buffer_write(
            rpc_method_address,
            TechPawsRuntimeRpcMethodBuffer::Server,
            |bytes_writer| {
                bytes_writer.write_u8(0x00);
            },
        );

        let result = hello_world();

        memory.get_scope_mut(scope_id).rpc_buffer_write(
            rpc_method_address,
            TechPawsRuntimeRpcMethodBuffer::Client,
            |bytes_writer| {
                bytes_writer.write_u8(0xFF);
                result.write_to_buffers(bytes_writer);
            },
        );
    }

    args.is_some()
}

#[derive(Debug, Clone, PartialEq)]
pub struct __say_hello_rpc_args__ {
    pub name: String,
}

impl IntoVMBuffers for __say_hello_rpc_args__ {
    fn read_from_buffers(bytes_reader: &mut BytesReader) -> Self {
        Self {
            name: String::read_from_buffers(bytes_reader),
        }
    }

    fn write_to_buffers(&self, bytes_writer: &mut BytesWriter) {
        self.name.write_to_buffers(bytes_writer);
    }

    fn skip_in_buffers(bytes_reader: &mut BytesReader, count: u64) {
        for _ in 0..count {
            String::read_from_buffers(bytes_reader);
        }
    }
}

pub fn say_hello_rpc_handler(
    scope_id: TechPawsScopeId,
    memory: &mut TechPawsRuntimeMemory,
    rpc_method_address: RpcMethodAddress,
) -> bool {
    let args = memory.get_scope_mut(scope_id).rpc_buffer_read(
        rpc_method_address,
        TechPawsRuntimeRpcMethodBuffer::Server,
        |bytes_reader| {
            let status = bytes_reader.read_u8();

            if status == 0xFF {
                Some(__say_hello_rpc_args__::read_from_buffers(bytes_reader))
            } else {
                None
            }
        },
    );

    if let Some(args) = &args {
        memory.get_scope_mut(scope_id).rpc_buffer_write(
            rpc_method_address,
            TechPawsRuntimeRpcMethodBuffer::Server,
            |bytes_writer| {
                bytes_writer.write_u8(0x00);
            },
        );

        let result = say_hello(
            args.clone().name,
        );

        memory.get_scope_mut(scope_id).rpc_buffer_write(
            rpc_method_address,
            TechPawsRuntimeRpcMethodBuffer::Client,
            |bytes_writer| {
                bytes_writer.write_u8(0xFF);
                result.write_to_buffers(bytes_writer);
            },
        );
    }

    args.is_some()
}

#[derive(Debug, Clone, PartialEq)]
pub struct __sum_rpc_args__ {
    pub a: i32,
    pub b: f32,
    pub c: f64,
}

impl IntoVMBuffers for __sum_rpc_args__ {
    fn read_from_buffers(bytes_reader: &mut BytesReader) -> Self {
        Self {
            a: bytes_reader.read_i32(),
            b: bytes_reader.read_f32(),
            c: bytes_reader.read_f64(),
        }
    }

    fn write_to_buffers(&self, bytes_writer: &mut BytesWriter) {
        bytes_writer.write_i32(self.a);
        bytes_writer.write_f32(self.b);
        bytes_writer.write_f64(self.c);
    }

    fn skip_in_buffers(bytes_reader: &mut BytesReader, count: u64) {
        for _ in 0..count {
            bytes_reader.read_i32();
            bytes_reader.read_f32();
            bytes_reader.read_f64();
        }
    }
}

pub fn sum_rpc_handler(
    scope_id: TechPawsScopeId,
    memory: &mut TechPawsRuntimeMemory,
    rpc_method_address: RpcMethodAddress,
) -> bool {
    let args = memory.get_scope_mut(scope_id).rpc_buffer_read(
        rpc_method_address,
        TechPawsRuntimeRpcMethodBuffer::Server,
        |bytes_reader| {
            let status = bytes_reader.read_u8();

            if status == 0xFF {
                Some(__sum_rpc_args__::read_from_buffers(bytes_reader))
            } else {
                None
            }
        },
    );

    if let Some(args) = &args {
        memory.get_scope_mut(scope_id).rpc_buffer_write(
            rpc_method_address,
            TechPawsRuntimeRpcMethodBuffer::Server,
            |bytes_writer| {
                bytes_writer.write_u8(0x00);
            },
        );

        let result = sum(
            args.clone().a,
            args.clone().b,
            args.clone().c,
        );

        memory.get_scope_mut(scope_id).rpc_buffer_write(
            rpc_method_address,
            TechPawsRuntimeRpcMethodBuffer::Client,
            |bytes_writer| {
                bytes_writer.write_u8(0xFF);
                bytes_writer.write_f64(result);
            },
        );
    }

    args.is_some()
}
".

Example golden_rust_rpc_sync_methods_rs :
  check (generate_rpc) f_rpc_sync_methods_tpb f_rust_rpc_sync_methods_rs = true.
Proof. vm_compute. reflexivity. Qed.

(* test_resources/rpc_async_methods.tpb *)
Definition f_rpc_async_methods_tpb : string :=
"#[id = ""106c2228-ff3b-45c5-8a55-db9c0537f275""]
#[namespace = ""examples_async""]

async fn print_hello_world();

async fn hello_world() -> String;

async fn say_hello(name: String) -> String;

async fn sum(a: i32, b: f32, c: f64) -> f64;
".

(* test_resources/rust/rpc_async_methods.rs *)
Definition f_rust_rpc_async_methods_rs : string :=
"pub fn register_rpc(runtime: &mut TechPawsRuntime, addr: &TechPawsRpcAddress) {
    let scope_id = TechPawsScopeId(uuid!(""106c2228-ff3b-45c5-8a55-db9c0537f275""));
    runtime.memory.add_scope(scope_id);
    runtime.register_async_rpc_method(
        addr.async_group_address,
        scope_id,
        RpcMethodAddress(0),
        print_hello_world_rpc_handler,
    );
    runtime.register_async_rpc_method(
        addr.async_group_address,
        scope_id,
        RpcMethodAddress(1),
        hello_world_rpc_handler,
    );
    runtime.register_async_rpc_method(
        addr.async_group_address,
        scope_id,
        RpcMethodAddress(2),
        say_hello_rpc_handler,
    );
    runtime.register_async_rpc_method(
        addr.async_group_address,
        scope_id,
        RpcMethodAddress(3),
        sum_rpc_handler,
    );
}

#[derive(Debug, Clone, PartialEq)]
pub struct __print_hello_world_rpc_args__ {
    pub __method_id__: i64,
}

impl IntoVMBuffers for __print_hello_world_rpc_args__ {
    fn read_from_buffers(bytes_reader: &mut BytesReader) -> Self {
        Self {
            __method_id__: bytes_reader.read_i64(),
        }
    }

    fn write_to_buffers(&self, bytes_writer: &mut BytesWriter) {
        bytes_writer.write_i64(self.__method_id__);
    }

    fn skip_in_buffers(bytes_reader: &mut BytesReader, count: u64) {
        for _ in 0..count {
            bytes_reader.read_i64();
        }
    }
}

pub fn print_hello_world_rpc_handler(
    scope_id: TechPawsScopeId,
    runtime_as_mut: unsafe fn() -> &'static mut TechPawsRuntime,
    memory: &mut TechPawsRuntimeMemory,
    async_context: &mut TechPawsRuntimeAsyncContext,
    rpc_method_address: RpcMethodAddress,
) -> bool {
    let args = memory.get_scope_mut(scope_id).rpc_buffer_read(
        rpc_method_address,
        TechPawsRuntimeRpcMethodBuffer::Server,
        |bytes_reader| {
            let status = bytes_reader.read_u8();

            if status == 0xFF {
                Some(__print_hello_world_rpc_args__::read_from_buffers(bytes_reader))
            } else {
                None
            }
        },
    );

    if let Some(args) = &args {
        memory.get_scope_mut(scope_id).rpc_buffer_write(
            rpc_method_address,
            TechPawsRuntimeRpcMethodBuffer::Server,
            |bytes_writer| {
                bytes_writer.write_u8(0x00);
            },
        );

        let args = args.clone();

        async_context.async_spawner.spawn(async move {
            let memory = unsafe { &mut runtime_as_mut().memory };
            print_hello_world().await;

            memory.get_scope_mut(scope_id).rpc_buffer_write(
                rpc_method_address,
                TechPawsRuntimeRpcMethodBuffer::Client,
                |bytes_writer| {
                    bytes_writer.write_u8(0xFF);
                    bytes_writer.write_i64(args.__method_id__);
                },
            );
        });
    }

    args.is_some()
}

#[derive(Debug, Clone, PartialEq)]
pub struct __hello_world_rpc_args__ {
    pub __method_id__: i64,
}

impl IntoVMBuffers for __hello_world_rpc_args__ {
    fn read_from_buffers(bytes_reader: &mut BytesReader) -> Self {
        Self {
            __method_id__: bytes_reader.read_i64(),
        }
    }

    fn write_to_buffers(&self, bytes_writer: &mut BytesWriter) {
        bytes_writer.write_i64(self.__method_id__);
    }

    fn skip_in_buffers(bytes_reader: &mut BytesReader, count: u64) {
        for _ in 0..count {
            bytes_reader.read_i64();
        }
    }
}

pub fn hello_world_rpc_handler(
    scope_id: TechPawsScopeId,
    runtime_as_mut: unsafe fn() -> &'static mut TechPawsRuntime,
    memory: &mut TechPawsRuntimeMemory,
    async_context: &mut TechPawsRuntimeAsyncContext,
    rpc_method_address: RpcMethodAddress,
) -> bool {
    let args = memory.get_scope_mut(scope_id).rpc_buffer_read(
        rpc_method_address,
        TechPawsRuntimeRpcMethodBuffer::Server,
        |bytes_reader| {
            let status = bytes_reader.read_u8();

            if status == 0xFF {
                Some(__hello_world_rpc_args__::read_from_buffers(bytes_reader))
            } else {
                None
            }
        },
    );

    if let Some(args) = &args {
        memory.get_scope_mut(scope_id).rpc_buffer_write(
            rpc_method_address,
            TechPawsRuntimeRpcMethodBuffer::Server,
            |bytes_writer| {
                bytes_writer.write_u8(0x00);
            },
        );

        let args = args.clone();

        async_context.async_spawner.spawn(async move {
            let memory = unsafe { &mut runtime_as_mut().memory };
            let result = hello_world().await;

            memory.get_scope_mut(scope_id).rpc_buffer_write(
                rpc_method_address,
                TechPawsRuntimeRpcMethodBuffer::Client,
                |bytes_writer| {
                    bytes_writer.write_u8(0xFF);
                    bytes_writer.write_i64(args.__method_id__);
                    result.write_to_buffers(bytes_writer);
                },
            );
        });
    }

    args.is_some()
}

#[derive(Debug, Clone, PartialEq)]
pub struct __say_hello_rpc_args__ {
    pub __method_id__: i64,
    pub name: String,
}

impl IntoVMBuffers for __say_hello_rpc_args__ {
    fn read_from_buffers(bytes_reader: &mut BytesReader) -> Self {
        Self {
            __method_id__: bytes_reader.read_i64(),
            name: String::read_from_buffers(bytes_reader),
        }
    }

    fn write_to_buffers(&self, bytes_writer: &mut BytesWriter) {
        bytes_writer.write_i64(self.__method_id__);
        self.name.write_to_buffers(bytes_writer);
    }

    fn skip_in_buffers(bytes_reader: &mut BytesReader, count: u64) {
        for _ in 0..count {
            bytes_reader.read_i64();
            String::read_from_buffers(bytes_reader);
        }
    }
}

pub fn say_hello_rpc_handler(
    scope_id: TechPawsScopeId,
    runtime_as_mut: unsafe fn() -> &'static mut TechPawsRuntime,
    memory: &mut TechPawsRuntimeMemory,
    async_context: &mut TechPawsRuntimeAsyncContext,
    rpc_method_address: RpcMethodAddress,
) -> bool {
    let args = memory.get_scope_mut(scope_id).rpc_buffer_read(
        rpc_method_address,
        TechPawsRuntimeRpcMethodBuffer::Server,
        |bytes_reader| {
            let status = bytes_reader.read_u8();

            if status == 0xFF {
                Some(__say_hello_rpc_args__::read_from_buffers(bytes_reader))
            } else {
                None
            }
        },
    );

    if let Some(args) = &args {
        memory.get_scope_mut(scope_id).rpc_buffer_write(
            rpc_method_address,
            TechPawsRuntimeRpcMethodBuffer::Server,
            |bytes_writer| {
                bytes_writer.write_u8(0x00);
            },
        );

        let args = args.clone();

        async_context.async_spawner.spawn(async move {
            let memory = unsafe { &mut runtime_as_mut().memory };
            let result = say_hello(
                args.clone().name,
            ).await;

            memory.get_scope_mut(scope_id).rpc_buffer_write(
                rpc_method_address,
                TechPawsRuntimeRpcMethodBuffer::Client,
                |bytes_writer| {
                    bytes_writer.write_u8(0xFF);
                    bytes_writer.write_i64(args.__method_id__);
                    result.write_to_buffers(bytes_writer);
                },
            );
        });
    }

    args.is_some()
}

#[derive(Debug, Clone, PartialEq)]
pub struct __sum_rpc_args__ {
    pub __method_id__: i64,
    pub a: i32,
    pub b: f32,
    pub c: f64,
}

impl IntoVMBuffers for __sum_rpc_args__ {
    fn read_from_buffers(bytes_reader: &mut BytesReader) -> Self {
        Self {
            __method_id__: bytes_reader.read_i64(),
            a: bytes_reader.read_i32(),
            b: bytes_reader.read_f32(),
            c: bytes_reader.read_f64(),
        }
    }

    fn write_to_buffers(&self, bytes_writer: &mut BytesWriter) {
        bytes_writer.write_i64(self.__method_id__);
        bytes_writer.write_i32(self.a);
        bytes_writer.write_f32(self.b);
        bytes_writer.write_f64(self.c);
    }

    fn skip_in_buffers(bytes_reader: &mut BytesReader, count: u64) {
        for _ in 0..count {
            bytes_reader.read_i64();
            bytes_reader.read_i32();
            bytes_reader.read_f32();
            bytes_reader.read_f64();
        }
    }
}

pub fn sum_rpc_handler(
    scope_id: TechPawsScopeId,
    runtime_as_mut: unsafe fn() -> &'static mut TechPawsRuntime,
    memory: &mut TechPawsRuntimeMemory,
    async_context: &mut TechPawsRuntimeAsyncContext,
    rpc_method_address: RpcMethodAddress,
) -> bool {
    let args = memory.get_scope_mut(scope_id).rpc_buffer_read(
        rpc_method_address,
        TechPawsRuntimeRpcMethodBuffer::Server,
        |bytes_reader| {
            let status = bytes_reader.read_u8();

            if status == 0xFF {
                Some(__sum_rpc_args__::read_from_buffers(bytes_reader))
            } else {
                None
            }
        },
    );

    if let Some(args) = &args {
        memory.get_scope_mut(scope_id).rpc_buffer_write(
            rpc_method_address,
            TechPawsRuntimeRpcMethodBuffer::Server,
            |bytes_writer| {
                bytes_writer.write_u8(0x00);
            },
        );

        let args = args.clone();

        async_context.async_spawner.spawn(async move {
            let memory = unsafe { &mut runtime_as_mut().memory };
            let result = sum(
                args.clone().a,
                args.clone().b,
                args.clone().c,
            ).await;

            memory.get_scope_mut(scope_id).rpc_buffer_write(
                rpc_method_address,
                TechPawsRuntimeRpcMethodBuffer::Client,
                |bytes_writer| {
                    bytes_writer.write_u8(0xFF);
                    bytes_writer.write_i64(args.__method_id__);
                    bytes_writer.write_f64(result);
                },
            );
        });
    }

    args.is_some()
}
".

Example golden_rust_rpc_async_methods_rs :
  check (generate_rpc) f_rpc_async_methods_tpb f_rust_rpc_async_methods_rs = true.
Proof. vm_compute. reflexivity. Qed.

(* test_resources/rpc_read_methods.tpb *)
Definition f_rpc_read_methods_tpb : string :=
"#[id = ""723ca727-6a66-43a7-bfcc-b8ad94eac9be""]
#[namespace = ""examples_read""]

read counter;

read theme -> String;

async read async_trigger;

async read async_hello_read -> String;
".

(* test_resources/rust/rpc_read_methods.rs *)
Definition f_rust_rpc_read_methods_rs : string :=
"pub fn register_rpc(runtime: &mut TechPawsRuntime, addr: &TechPawsRpcAddress) {
    let scope_id = TechPawsScopeId(uuid!(""723ca727-6a66-43a7-bfcc-b8ad94eac9be""));
    runtime.memory.add_scope(scope_id);
    runtime.register_async_rpc_method(
        addr.read_group_address,
        scope_id,
        RpcMethodAddress(0),
        counter_rpc_handler,
    );
    runtime.register_async_rpc_method(
        addr.read_group_address,
        scope_id,
        RpcMethodAddress(1),
        theme_rpc_handler,
    );
    runtime.register_async_rpc_method(
        addr.read_group_address,
        scope_id,
        RpcMethodAddress(2),
        async_trigger_rpc_handler,
    );
    runtime.register_async_rpc_method(
        addr.read_group_address,
        scope_id,
        RpcMethodAddress(3),
        async_hello_read_rpc_handler,
    );
}

pub fn counter_rpc_handler(
    scope_id: TechPawsScopeId,
    _: unsafe fn() -> &'static mut TechPawsRuntime,
    memory: &mut TechPawsRuntimeMemory,
    _: &mut TechPawsRuntimeAsyncContext,
    rpc_method_address: RpcMethodAddress,
) -> bool {
    let result = counter();

    if let Some(result) = &result {
        memory.get_scope_mut(scope_id).rpc_buffer_write(
            rpc_method_address,
            TechPawsRuntimeRpcMethodBuffer::Client,
            |bytes_writer| {
                bytes_writer.write_u8(0xFF);
            },
        );
    }

    result.is_some()
}

pub fn theme_rpc_handler(
    scope_id: TechPawsScopeId,
    _: unsafe fn() -> &'static mut TechPawsRuntime,
    memory: &mut TechPawsRuntimeMemory,
    _: &mut TechPawsRuntimeAsyncContext,
    rpc_method_address: RpcMethodAddress,
) -> bool {
    let result = theme();

    if let Some(result) = &result {
        memory.get_scope_mut(scope_id).rpc_buffer_write(
            rpc_method_address,
            TechPawsRuntimeRpcMethodBuffer::Client,
            |bytes_writer| {
                bytes_writer.write_u8(0xFF);
                result.write_to_buffers(bytes_writer);
            },
        );
    }

    result.is_some()
}

pub fn async_trigger_rpc_handler(
    scope_id: TechPawsScopeId,
    runtime_as_mut: unsafe fn() -> &'static mut TechPawsRuntime,
    memory: &mut TechPawsRuntimeMemory,
    async_context: &mut TechPawsRuntimeAsyncContext,
    rpc_method_address: RpcMethodAddress,
) -> bool {
    let is_busy = memory.get_scope_mut(scope_id).rpc_buffer_read(
        rpc_method_address,
        TechPawsRuntimeRpcMethodBuffer::Server,
        |bytes_reader| {
            let status = bytes_reader.read_u8();
            status == 0xFF
        },
    );

    if !is_busy {
        memory.get_scope_mut(scope_id).rpc_buffer_write(
            rpc_method_address,
            TechPawsRuntimeRpcMethodBuffer::Server,
            |bytes_writer| {
                bytes_writer.write_u8(0xFF);
            },
        );

        async_context.async_spawner.spawn(async move {
            let result = async_trigger().await;

            if let Some(result) = &result {
                let memory = unsafe { &mut runtime_as_mut().memory };
                memory.get_scope_mut(scope_id).rpc_buffer_write(
                    rpc_method_address,
                    TechPawsRuntimeRpcMethodBuffer::Client,
                    |bytes_writer| {
                        bytes_writer.write_u8(0xFF);
                    },
                );
                memory.get_scope_mut(scope_id).rpc_buffer_write(
                    rpc_method_address,
                    TechPawsRuntimeRpcMethodBuffer::Server,
                    |bytes_writer| {
                        bytes_writer.write_u8(0x00);
                    },
                );
            }
        });
    }

    !is_busy
}

pub fn async_hello_read_rpc_handler(
    scope_id: TechPawsScopeId,
    runtime_as_mut: unsafe fn() -> &'static mut TechPawsRuntime,
    memory: &mut TechPawsRuntimeMemory,
    async_context: &mut TechPawsRuntimeAsyncContext,
    rpc_method_address: RpcMethodAddress,
) -> bool {
    let is_busy = memory.get_scope_mut(scope_id).rpc_buffer_read(
        rpc_method_address,
        TechPawsRuntimeRpcMethodBuffer::Server,
        |bytes_reader| {
            let status = bytes_reader.read_u8();
            status == 0xFF
        },
    );

    if !is_busy {
        memory.get_scope_mut(scope_id).rpc_buffer_write(
            rpc_method_address,
            TechPawsRuntimeRpcMethodBuffer::Server,
            |bytes_writer| {
                bytes_writer.write_u8(0xFF);
            },
        );

        async_context.async_spawner.spawn(async move {
            let result = async_hello_read().await;

            if let Some(result) = &result {
                let memory = unsafe { &mut runtime_as_mut().memory };
                memory.get_scope_mut(scope_id).rpc_buffer_write(
                    rpc_method_address,
                    TechPawsRuntimeRpcMethodBuffer::Client,
                    |bytes_writer| {
                        bytes_writer.write_u8(0xFF);
                        result.write_to_buffers(bytes_writer);
                    },
                );
                memory.get_scope_mut(scope_id).rpc_buffer_write(
                    rpc_method_address,
                    TechPawsRuntimeRpcMethodBuffer::Server,
                    |bytes_writer| {
                        bytes_writer.write_u8(0x00);
                    },
                );
            }
        });
    }

    !is_busy
}
".

Example golden_rust_rpc_read_methods_rs :
  check (generate_rpc) f_rpc_read_methods_tpb f_rust_rpc_read_methods_rs = true.
Proof. vm_compute. reflexivity. Qed.

(* test_resources/rpc_methods.tpb *)
Definition f_rpc_methods_tpb : string :=
"#[id = ""4de616f8-12c5-4d2c-8d48-9c5fb038991f""]
#[namespace = ""test""]

fn print_hello_world();

fn hello_world() -> String;

fn say_hello(name: String) -> String;

fn sum(a: i32, b: f32, c: f64);

async fn print_hello_world_async();

async fn hello_world_async() -> String;

async fn say_hello_async(name: String) -> String;

async fn sum_async(a: i32, b: f32, c: f64) -> f64;

read trigger;

read theme -> Theme;

async read trigger_async;

async read theme_async -> Theme;
".

(* test_resources/rust/rpc_methods.rs *)
Definition f_rust_rpc_methods_rs : string :=
"pub fn register_rpc(runtime: &mut TechPawsRuntime, addr: &TechPawsRpcAddress) {
    let scope_id = TechPawsScopeId(uuid!(""4de616f8-12c5-4d2c-8d48-9c5fb038991f""));
    runtime.memory.add_scope(scope_id);
    runtime.register_sync_rpc_method(
        addr.sync_group_address,
        scope_id,
        RpcMethodAddress(0),
        print_hello_world_rpc_handler,
    );
    runtime.register_sync_rpc_method(
        addr.sync_group_address,
        scope_id,
        RpcMethodAddress(1),
        hello_world_rpc_handler,
    );
    runtime.register_sync_rpc_method(
        addr.sync_group_address,
        scope_id,
        RpcMethodAddress(2),
        say_hello_rpc_handler,
    );
    runtime.register_sync_rpc_method(
        addr.sync_group_address,
        scope_id,
        RpcMethodAddress(3),
        sum_rpc_handler,
    );
    runtime.register_async_rpc_method(
        addr.async_group_address,
        scope_id,
        RpcMethodAddress(4),
        print_hello_world_async_rpc_handler,
    );
    runtime.register_async_rpc_method(
        addr.async_group_address,
        scope_id,
        RpcMethodAddress(5),
        hello_world_async_rpc_handler,
    );
    runtime.register_async_rpc_method(
        addr.async_group_address,
        scope_id,
        RpcMethodAddress(6),
        say_hello_async_rpc_handler,
    );
    runtime.register_async_rpc_method(
        addr.async_group_address,
        scope_id,
        RpcMethodAddress(7),
        sum_async_rpc_handler,
    );
    runtime.register_async_rpc_method(
        addr.read_group_address,
        scope_id,
        RpcMethodAddress(8),
        trigger_rpc_handler,
    );
    runtime.register_async_rpc_method(
        addr.read_group_address,
        scope_id,
        RpcMethodAddress(9),
        theme_rpc_handler,
    );
    runtime.register_async_rpc_method(
        addr.read_group_address,
        scope_id,
        RpcMethodAddress(10),
        trigger_async_rpc_handler,
    );
    runtime.register_async_rpc_method(
        addr.read_group_address,
        scope_id,
        RpcMethodAddress(11),
        theme_async_rpc_handler,
    );
}

#[derive(Debug, Clone, PartialEq)]
pub struct __print_hello_world_rpc_args__;

impl IntoVMBuffers for __print_hello_world_rpc_args__ {
    fn read_from_buffers(_: &mut BytesReader) -> Self {
        __print_hello_world_rpc_args__
    }

    fn write_to_buffers(&self, _: &mut BytesWriter) {}

    fn skip_in_buffers(_: &mut BytesReader, _: u64) {}
}

pub fn print_hello_world_rpc_handler(
    scope_id: TechPawsScopeId,
    memory: &mut TechPawsRuntimeMemory,
    rpc_method_address: RpcMethodAddress,
) -> bool {
    let args = memory.get_scope_mut(scope_id).rpc_buffer_read(
        rpc_method_address,
        TechPawsRuntimeRpcMethodBuffer::Server,
        |bytes_reader| {
            let status = bytes_reader.read_u8();

            if status == 0xFF {
                Some(__print_hello_world_rpc_args__::read_from_buffers(bytes_reader))
            } else {
                None
            }
        },
    );

    if let Some(args) = &args {
        memory.get_scope_mut(scope_id).rpc_buffer_write(
            rpc_method_address,
            TechPawsRuntimeRpcMethodBuffer::Server,
            |bytes_writer| {
                bytes_writer.write_u8(0x00);
            },
        );

        print_hello_world();

        memory.get_scope_mut(scope_id).rpc_buffer_write(
            rpc_method_address,
            TechPawsRuntimeRpcMethodBuffer::Client,
            |bytes_writer| {
                bytes_writer.write_u8(0xFF);
            },
        );
    }

    args.is_some()
}

#[derive(Debug, Clone, PartialEq)]
pub struct __hello_world_rpc_args__;

impl IntoVMBuffers for __hello_world_rpc_args__ {
    fn read_from_buffers(_: &mut BytesReader) -> Self {
        __hello_world_rpc_args__
    }

    fn write_to_buffers(&self, _: &mut BytesWriter) {}

    fn skip_in_buffers(_: &mut BytesReader, _: u64) {}
}

pub fn hello_world_rpc_handler(
    scope_id: TechPawsScopeId,
    memory: &mut TechPawsRuntimeMemory,
    rpc_method_address: RpcMethodAddress,
) -> bool {
    let args = memory.get_scope_mut(scope_id).rpc_buffer_read(
        rpc_method_address,
        TechPawsRuntimeRpcMethodBuffer::Server,
        |bytes_reader| {
            let status = bytes_reader.read_u8();

            if status == 0xFF {
                Some(__hello_world_rpc_args__::read_from_buffers(bytes_reader))
            } else {
                None
            }
        },
    );

    if let Some(args) = &args {
        memory.get_scope_mut(scope_id).rpc_buffer_write(
            rpc_method_address,
            TechPawsRuntimeRpcMethodBuffer::Server,
            |bytes_writer| {
                bytes_writer.write_u8(0x00);
            },
        );

        let result = hello_world();

        memory.get_scope_mut(scope_id).rpc_buffer_write(
            rpc_method_address,
            TechPawsRuntimeRpcMethodBuffer::Client,
            |bytes_writer| {
                bytes_writer.write_u8(0xFF);
                result.write_to_buffers(bytes_writer);
            },
        );
    }

    args.is_some()
}

#[derive(Debug, Clone, PartialEq)]
pub struct __say_hello_rpc_args__ {
    pub name: String,
}

impl IntoVMBuffers for __say_hello_rpc_args__ {
    fn read_from_buffers(bytes_reader: &mut BytesReader) -> Self {
        Self {
            name: String::read_from_buffers(bytes_reader),
        }
    }

    fn write_to_buffers(&self, bytes_writer: &mut BytesWriter) {
        self.name.write_to_buffers(bytes_writer);
    }

    fn skip_in_buffers(bytes_reader: &mut BytesReader, count: u64) {
        for _ in 0..count {
            String::read_from_buffers(bytes_reader);
        }
    }
}

pub fn say_hello_rpc_handler(
    scope_id: TechPawsScopeId,
    memory: &mut TechPawsRuntimeMemory,
    rpc_method_address: RpcMethodAddress,
) -> bool {
    let args = memory.get_scope_mut(scope_id).rpc_buffer_read(
        rpc_method_address,
        TechPawsRuntimeRpcMethodBuffer::Server,
        |bytes_reader| {
            let status = bytes_reader.read_u8();

            if status == 0xFF {
                Some(__say_hello_rpc_args__::read_from_buffers(bytes_reader))
            } else {
                None
            }
        },
    );

    if let Some(args) = &args {
        memory.get_scope_mut(scope_id).rpc_buffer_write(
            rpc_method_address,
            TechPawsRuntimeRpcMethodBuffer::Server,
            |bytes_writer| {
                bytes_writer.write_u8(0x00);
            },
        );

        let result = say_hello(
            args.clone().name,
        );

        memory.get_scope_mut(scope_id).rpc_buffer_write(
            rpc_method_address,
            TechPawsRuntimeRpcMethodBuffer::Client,
            |bytes_writer| {
                bytes_writer.write_u8(0xFF);
                result.write_to_buffers(bytes_writer);
            },
        );
    }

    args.is_some()
}

#[derive(Debug, Clone, PartialEq)]
pub struct __sum_rpc_args__ {
    pub a: i32,
    pub b: f32,
    pub c: f64,
}

impl IntoVMBuffers for __sum_rpc_args__ {
    fn read_from_buffers(bytes_reader: &mut BytesReader) -> Self {
        Self {
            a: bytes_reader.read_i32(),
            b: bytes_reader.read_f32(),
            c: bytes_reader.read_f64(),
        }
    }

    fn write_to_buffers(&self, bytes_writer: &mut BytesWriter) {
        bytes_writer.write_i32(self.a);
        bytes_writer.write_f32(self.b);
        bytes_writer.write_f64(self.c);
    }

    fn skip_in_buffers(bytes_reader: &mut BytesReader, count: u64) {
        for _ in 0..count {
            bytes_reader.read_i32();
            bytes_reader.read_f32();
            bytes_reader.read_f64();
        }
    }
}

pub fn sum_rpc_handler(
    scope_id: TechPawsScopeId,
    memory: &mut TechPawsRuntimeMemory,
    rpc_method_address: RpcMethodAddress,
) -> bool {
    let args = memory.get_scope_mut(scope_id).rpc_buffer_read(
        rpc_method_address,
        TechPawsRuntimeRpcMethodBuffer::Server,
        |bytes_reader| {
            let status = bytes_reader.read_u8();

            if status == 0xFF {
                Some(__sum_rpc_args__::read_from_buffers(bytes_reader))
            } else {
                None
            }
        },
    );

    if let Some(args) = &args {
        memory.get_scope_mut(scope_id).rpc_buffer_write(
            rpc_method_address,
            TechPawsRuntimeRpcMethodBuffer::Server,
            |bytes_writer| {
                bytes_writer.write_u8(0x00);
            },
        );

        sum(
            args.clone().a,
            args.clone().b,
            args.clone().c,
        );

        memory.get_scope_mut(scope_id).rpc_buffer_write(
            rpc_method_address,
            TechPawsRuntimeRpcMethodBuffer::Client,
            |bytes_writer| {
                bytes_writer.write_u8(0xFF);
            },
        );
    }

    args.is_some()
}

#[derive(Debug, Clone, PartialEq)]
pub struct __print_hello_world_async_rpc_args__ {
    pub __method_id__: i64,
}

impl IntoVMBuffers for __print_hello_world_async_rpc_args__ {
    fn read_from_buffers(bytes_reader: &mut BytesReader) -> Self {
        Self {
            __method_id__: bytes_reader.read_i64(),
        }
    }

    fn write_to_buffers(&self, bytes_writer: &mut BytesWriter) {
        bytes_writer.write_i64(self.__method_id__);
    }

    fn skip_in_buffers(bytes_reader: &mut BytesReader, count: u64) {
        for _ in 0..count {
            bytes_reader.read_i64();
        }
    }
}

pub fn print_hello_world_async_rpc_handler(
    scope_id: TechPawsScopeId,
    runtime_as_mut: unsafe fn() -> &'static mut TechPawsRuntime,
    memory: &mut TechPawsRuntimeMemory,
    async_context: &mut TechPawsRuntimeAsyncContext,
    rpc_method_address: RpcMethodAddress,
) -> bool {
    let args = memory.get_scope_mut(scope_id).rpc_buffer_read(
        rpc_method_address,
        TechPawsRuntimeRpcMethodBuffer::Server,
        |bytes_reader| {
            let status = bytes_reader.read_u8();

            if status == 0xFF {
                Some(__print_hello_world_async_rpc_args__::read_from_buffers(bytes_reader))
            } else {
                None
            }
        },
    );

    if let Some(args) = &args {
        memory.get_scope_mut(scope_id).rpc_buffer_write(
            rpc_method_address,
            TechPawsRuntimeRpcMethodBuffer::Server,
            |bytes_writer| {
                bytes_writer.write_u8(0x00);
            },
        );

        let args = args.clone();

        async_context.async_spawner.spawn(async move {
            let memory = unsafe { &mut runtime_as_mut().memory };
            print_hello_world_async().await;

            memory.get_scope_mut(scope_id).rpc_buffer_write(
                rpc_method_address,
                TechPawsRuntimeRpcMethodBuffer::Client,
                |bytes_writer| {
                    bytes_writer.write_u8(0xFF);
                    bytes_writer.write_i64(args.__method_id__);
                },
            );
        });
    }

    args.is_some()
}

#[derive(Debug, Clone, PartialEq)]
pub struct __hello_world_async_rpc_args__ {
    pub __method_id__: i64,
}

impl IntoVMBuffers for __hello_world_async_rpc_args__ {
    fn read_from_buffers(bytes_reader: &mut BytesReader) -> Self {
        Self {
            __method_id__: bytes_reader.read_i64(),
        }
    }

    fn write_to_buffers(&self, bytes_writer: &mut BytesWriter) {
        bytes_writer.write_i64(self.__method_id__);
    }

    fn skip_in_buffers(bytes_reader: &mut BytesReader, count: u64) {
        for _ in 0..count {
            bytes_reader.read_i64();
        }
    }
}

pub fn hello_world_async_rpc_handler(
    scope_id: TechPawsScopeId,
    runtime_as_mut: unsafe fn() -> &'static mut TechPawsRuntime,
    memory: &mut TechPawsRuntimeMemory,
    async_context: &mut TechPawsRuntimeAsyncContext,
    rpc_method_address: RpcMethodAddress,
) -> bool {
    let args = memory.get_scope_mut(scope_id).rpc_buffer_read(
        rpc_method_address,
        TechPawsRuntimeRpcMethodBuffer::Server,
        |bytes_reader| {
            let status = bytes_reader.read_u8();

            if status == 0xFF {
                Some(__hello_world_async_rpc_args__::read_from_buffers(bytes_reader))
            } else {
                None
            }
        },
    );

    if let Some(args) = &args {
        memory.get_scope_mut(scope_id).rpc_buffer_write(
            rpc_method_address,
            TechPawsRuntimeRpcMethodBuffer::Server,
            |bytes_writer| {
                bytes_writer.write_u8(0x00);
            },
        );

        let args = args.clone();

        async_context.async_spawner.spawn(async move {
            let memory = unsafe { &mut runtime_as_mut().memory };
            let result = hello_world_async().await;

            memory.get_scope_mut(scope_id).rpc_buffer_write(
                rpc_method_address,
                TechPawsRuntimeRpcMethodBuffer::Client,
                |bytes_writer| {
                    bytes_writer.write_u8(0xFF);
                    bytes_writer.write_i64(args.__method_id__);
                    result.write_to_buffers(bytes_writer);
                },
            );
        });
    }

    args.is_some()
}

#[derive(Debug, Clone, PartialEq)]
pub struct __say_hello_async_rpc_args__ {
    pub __method_id__: i64,
    pub name: String,
}

impl IntoVMBuffers for __say_hello_async_rpc_args__ {
    fn read_from_buffers(bytes_reader: &mut BytesReader) -> Self {
        Self {
            __method_id__: bytes_reader.read_i64(),
            name: String::read_from_buffers(bytes_reader),
        }
    }

    fn write_to_buffers(&self, bytes_writer: &mut BytesWriter) {
        bytes_writer.write_i64(self.__method_id__);
        self.name.write_to_buffers(bytes_writer);
    }

    fn skip_in_buffers(bytes_reader: &mut BytesReader, count: u64) {
        for _ in 0..count {
            bytes_reader.read_i64();
            String::read_from_buffers(bytes_reader);
        }
    }
}

pub fn say_hello_async_rpc_handler(
    scope_id: TechPawsScopeId,
    runtime_as_mut: unsafe fn() -> &'static mut TechPawsRuntime,
    memory: &mut TechPawsRuntimeMemory,
    async_context: &mut TechPawsRuntimeAsyncContext,
    rpc_method_address: RpcMethodAddress,
) -> bool {
    let args = memory.get_scope_mut(scope_id).rpc_buffer_read(
        rpc_method_address,
        TechPawsRuntimeRpcMethodBuffer::Server,
        |bytes_reader| {
            let status = bytes_reader.read_u8();

            if status == 0xFF {
                Some(__say_hello_async_rpc_args__::read_from_buffers(bytes_reader))
            } else {
                None
            }
        },
    );

    if let Some(args) = &args {
        memory.get_scope_mut(scope_id).rpc_buffer_write(
            rpc_method_address,
            TechPawsRuntimeRpcMethodBuffer::Server,
            |bytes_writer| {
                bytes_writer.write_u8(0x00);
            },
        );

        let args = args.clone();

        async_context.async_spawner.spawn(async move {
            let memory = unsafe { &mut runtime_as_mut().memory };
            let result = say_hello_async(
                args.clone().name,
            ).await;

            memory.get_scope_mut(scope_id).rpc_buffer_write(
                rpc_method_address,
                TechPawsRuntimeRpcMethodBuffer::Client,
                |bytes_writer| {
                    bytes_writer.write_u8(0xFF);
                    bytes_writer.write_i64(args.__method_id__);
                    result.write_to_buffers(bytes_writer);
                },
            );
        });
    }

    args.is_some()
}

#[derive(Debug, Clone, PartialEq)]
pub struct __sum_async_rpc_args__ {
    pub __method_id__: i64,
    pub a: i32,
    pub b: f32,
    pub c: f64,
}

impl IntoVMBuffers for __sum_async_rpc_args__ {
    fn read_from_buffers(bytes_reader: &mut BytesReader) -> Self {
        Self {
            __method_id__: bytes_reader.read_i64(),
            a: bytes_reader.read_i32(),
            b: bytes_reader.read_f32(),
            c: bytes_reader.read_f64(),
        }
    }

    fn write_to_buffers(&self, bytes_writer: &mut BytesWriter) {
        bytes_writer.write_i64(self.__method_id__);
        bytes_writer.write_i32(self.a);
        bytes_writer.write_f32(self.b);
        bytes_writer.write_f64(self.c);
    }

    fn skip_in_buffers(bytes_reader: &mut BytesReader, count: u64) {
        for _ in 0..count {
            bytes_reader.read_i64();
            bytes_reader.read_i32();
            bytes_reader.read_f32();
            bytes_reader.read_f64();
        }
    }
}

pub fn sum_async_rpc_handler(
    scope_id: TechPawsScopeId,
    runtime_as_mut: unsafe fn() -> &'static mut TechPawsRuntime,
    memory: &mut TechPawsRuntimeMemory,
    async_context: &mut TechPawsRuntimeAsyncContext,
    rpc_method_address: RpcMethodAddress,
) -> bool {
    let args = memory.get_scope_mut(scope_id).rpc_buffer_read(
        rpc_method_address,
        TechPawsRuntimeRpcMethodBuffer::Server,
        |bytes_reader| {
            let status = bytes_reader.read_u8();

            if status == 0xFF {
                Some(__sum_async_rpc_args__::read_from_buffers(bytes_reader))
            } else {
                None
            }
        },
    );

    if let Some(args) = &args {
        memory.get_scope_mut(scope_id).rpc_buffer_write(
            rpc_method_address,
            TechPawsRuntimeRpcMethodBuffer::Server,
            |bytes_writer| {
                bytes_writer.write_u8(0x00);
            },
        );

        let args = args.clone();

        async_context.async_spawner.spawn(async move {
            let memory = unsafe { &mut runtime_as_mut().memory };
            let result = sum_async(
                args.clone().a,
                args.clone().b,
                args.clone().c,
            ).await;

            memory.get_scope_mut(scope_id).rpc_buffer_write(
                rpc_method_address,
                TechPawsRuntimeRpcMethodBuffer::Client,
                |bytes_writer| {
                    bytes_writer.write_u8(0xFF);
                    bytes_writer.write_i64(args.__method_id__);
                    bytes_writer.write_f64(result);
                },
            );
        });
    }

    args.is_some()
}

pub fn trigger_rpc_handler(
    scope_id: TechPawsScopeId,
    _: unsafe fn() -> &'static mut TechPawsRuntime,
    memory: &mut TechPawsRuntimeMemory,
    _: &mut TechPawsRuntimeAsyncContext,
    rpc_method_address: RpcMethodAddress,
) -> bool {
    let result = trigger();

    if let Some(result) = &result {
        memory.get_scope_mut(scope_id).rpc_buffer_write(
            rpc_method_address,
            TechPawsRuntimeRpcMethodBuffer::Client,
            |bytes_writer| {
                bytes_writer.write_u8(0xFF);
            },
        );
    }

    result.is_some()
}

pub fn theme_rpc_handler(
    scope_id: TechPawsScopeId,
    _: unsafe fn() -> &'static mut TechPawsRuntime,
    memory: &mut TechPawsRuntimeMemory,
    _: &mut TechPawsRuntimeAsyncContext,
    rpc_method_address: RpcMethodAddress,
) -> bool {
    let result = theme();

    if let Some(result) = &result {
        memory.get_scope_mut(scope_id).rpc_buffer_write(
            rpc_method_address,
            TechPawsRuntimeRpcMethodBuffer::Client,
            |bytes_writer| {
                bytes_writer.write_u8(0xFF);
                result.write_to_buffers(bytes_writer);
            },
        );
    }

    result.is_some()
}

pub fn trigger_async_rpc_handler(
    scope_id: TechPawsScopeId,
    runtime_as_mut: unsafe fn() -> &'static mut TechPawsRuntime,
    memory: &mut TechPawsRuntimeMemory,
    async_context: &mut TechPawsRuntimeAsyncContext,
    rpc_method_address: RpcMethodAddress,
) -> bool {
    let is_busy = memory.get_scope_mut(scope_id).rpc_buffer_read(
        rpc_method_address,
        TechPawsRuntimeRpcMethodBuffer::Server,
        |bytes_reader| {
            let status = bytes_reader.read_u8();
            status == 0xFF
        },
    );

    if !is_busy {
        memory.get_scope_mut(scope_id).rpc_buffer_write(
            rpc_method_address,
            TechPawsRuntimeRpcMethodBuffer::Server,
            |bytes_writer| {
                bytes_writer.write_u8(0xFF);
            },
        );

        async_context.async_spawner.spawn(async move {
            let result = trigger_async().await;

            if let Some(result) = &result {
                let memory = unsafe { &mut runtime_as_mut().memory };
                memory.get_scope_mut(scope_id).rpc_buffer_write(
                    rpc_method_address,
                    TechPawsRuntimeRpcMethodBuffer::Client,
                    |bytes_writer| {
                        bytes_writer.write_u8(0xFF);
                    },
                );
                memory.get_scope_mut(scope_id).rpc_buffer_write(
                    rpc_method_address,
                    TechPawsRuntimeRpcMethodBuffer::Server,
                    |bytes_writer| {
                        bytes_writer.write_u8(0x00);
                    },
                );
            }
        });
    }

    !is_busy
}

pub fn theme_async_rpc_handler(
    scope_id: TechPawsScopeId,
    runtime_as_mut: unsafe fn() -> &'static mut TechPawsRuntime,
    memory: &mut TechPawsRuntimeMemory,
    async_context: &mut TechPawsRuntimeAsyncContext,
    rpc_method_address: RpcMethodAddress,
) -> bool {
    let is_busy = memory.get_scope_mut(scope_id).rpc_buffer_read(
        rpc_method_address,
        TechPawsRuntimeRpcMethodBuffer::Server,
        |bytes_reader| {
            let status = bytes_reader.read_u8();
            status == 0xFF
        },
    );

    if !is_busy {
        memory.get_scope_mut(scope_id).rpc_buffer_write(
            rpc_method_address,
            TechPawsRuntimeRpcMethodBuffer::Server,
            |bytes_writer| {
                bytes_writer.write_u8(0xFF);
            },
        );

        async_context.async_spawner.spawn(async move {
            let result = theme_async().await;

            if let Some(result) = &result {
                let memory = unsafe { &mut runtime_as_mut().memory };
                memory.get_scope_mut(scope_id).rpc_buffer_write(
                    rpc_method_address,
                    TechPawsRuntimeRpcMethodBuffer::Client,
                    |bytes_writer| {
                        bytes_writer.write_u8(0xFF);
                        result.write_to_buffers(bytes_writer);
                    },
                );
                memory.get_scope_mut(scope_id).rpc_buffer_write(
                    rpc_method_address,
                    TechPawsRuntimeRpcMethodBuffer::Server,
                    |bytes_writer| {
                        bytes_writer.write_u8(0x00);
                    },
                );
            }
        });
    }

    !is_busy
}
".

Example golden_rust_rpc_methods_rs :
  check (generate_rpc) f_rpc_methods_tpb f_rust_rpc_methods_rs = true.
Proof. vm_compute. reflexivity. Qed.

(* test_resources/consts.tpb *)
Definition f_consts_tpb : string :=
"const commands {
    DRAW_LINES: u64 = 0x0002_0001;
    DRAW_PATH: u64 = 0x0002_0002;
    DRAW_QUADS: u64 = 0x0002_0003;
    DRAW_CENTERED_QUADS: u64 = 0x0002_0004;
    DRAW_TEXTS: u64 = 0x0002_0005;
    SET_COLOR_PIPELINE: u64 = 0x0002_0006;
    SET_TEXTURE_PIPELINE: u64 = 0x0002_0007;
    DRAW_CIRCLES: u64 = 0x0002_0008;
    DRAW_HOLLOW_CIRCLES: u64 = 0x0002_0009;
}

const addr {
    SOME_VALUE: String = ""Hello World!"";

    const groups {
        MAIN: GroupAddress = 0;
        MAIN_RENDER: GroupAddress = 1;
        RPC: GroupAddress = 2;
        RPC_SYNC: GroupAddress = 3;
        RPC_READ: GroupAddress = 4;
    }

    DELTA_TIME: f64 = 16.6;
    FLAG: bool = true;

    const commands_buffers {
        WIN1_MAIN_RENDER: CommandsBufferAddress = 0;
    }
}
".

(* test_resources/rust/consts.rs *)
Definition f_rust_consts_rs : string :=
"pub mod commands {
    pub const DRAW_LINES: u64 = 131073;
    pub const DRAW_PATH: u64 = 131074;
    pub const DRAW_QUADS: u64 = 131075;
    pub const DRAW_CENTERED_QUADS: u64 = 131076;
    pub const DRAW_TEXTS: u64 = 131077;
    pub const SET_COLOR_PIPELINE: u64 = 131078;
    pub const SET_TEXTURE_PIPELINE: u64 = 131079;
    pub const DRAW_CIRCLES: u64 = 131080;
    pub const DRAW_HOLLOW_CIRCLES: u64 = 131081;
}

pub mod addr {
    pub const SOME_VALUE: String = ""Hello World!"";

    pub mod groups {
        pub const MAIN: tech_paws_runtime::GroupAddress = tech_paws_runtime::GroupAddress(0);
        pub const MAIN_RENDER: tech_paws_runtime::GroupAddress = tech_paws_runtime::GroupAddress(1);
        pub const RPC: tech_paws_runtime::GroupAddress = tech_paws_runtime::GroupAddress(2);
        pub const RPC_SYNC: tech_paws_runtime::GroupAddress = tech_paws_runtime::GroupAddress(3);
        pub const RPC_READ: tech_paws_runtime::GroupAddress = tech_paws_runtime::GroupAddress(4);
    }

    pub const DELTA_TIME: f64 = 16.6;
    pub const FLAG: bool = true;

    pub mod commands_buffers {
        pub const WIN1_MAIN_RENDER: tech_paws_runtime::CommandsBufferAddress = tech_paws_runtime::CommandsBufferAddress(0);
    }
}
".

Example golden_rust_consts_rs :
  check (fun ast => Ok (generate_consts ast)) f_consts_tpb f_rust_consts_rs = true.
Proof. vm_compute. reflexivity. Qed.
