(** Lemmas behind the theorems of PropertiesRustStatic.v. *)

(** The generated Rust file compiles (C57). *)
Require Import Coq.Strings.String Coq.Strings.Ascii.
Require Import Coq.NArith.NArith Coq.Lists.List Coq.Bool.Bool Coq.Arith.PeanoNat.
Require Import Verif.Base Verif.Ast Verif.Wire Verif.RustSyntax Verif.RustTree Verif.RustFile Verif.RustCodec Verif.CodecFacts Verif.RustStatic Verif.RustStaticSpec.
Require Verif.Parser Verif.RustGen Verif.RustWf Verif.RustFine Verif.RustDefault Verif.ConstSpec Verif.ConstFacts Verif.DefaultFacts Verif.RustStaticCode Verif.DartStaticFacts Verif.GoldenRust.
Import Parser(compile_front).
Import RustGen(rust_generate).
Import RustFine(rust_fine).
Import RustDefault(type_names).
Import ConstSpec(rust_consts_fine).
Import DartStaticFacts(replaced, lines).
Import DefaultFacts(rust_items_tree).
Import ListNotations.
Local Open Scope string_scope.
Local Open Scope list_scope.

Lemma lem_C57_compiles : forall ast rpc ext items,
  rust_ready ast = true -> file_items ast true true rpc items -> rust_fine (schema_decls ast) (rust_decls ast true rpc) = true ->
  rust_consts_fine ast (type_names items) = true -> rust_code_fine ast rpc ext (rust_decls ast true rpc) = true ->
  compiles (user_fns ast rpc) ext items = true.
Proof.
  intros ast rpc ext items RD FI RF CF CO.
  destruct (ConstFacts.lem_C53_rust_constants ast true true rpc items RD FI CF) as (CC & _).
  destruct FI as (text & G & F).
  pose proof (RustWf.rust_file_generated ast true true rpc text RD G) as X.
  rewrite F in X.
  injection X as ->.
  now apply RustStaticCode.file_compiles.
Qed.

(** The file of a schema, if there is one. *)
Definition c57_file (src : string) : list ast_node * list item :=
  match compile_front src with Ok ast => (ast, rust_tree ast true true true) | _ => ([], []) end.

Definition c57_holds (ext : list string) (src : string) : bool :=
  let (ast, items) := c57_file src in
  rust_ready ast && match rust_generate ast true true true with Ok _ => true | _ => false end && rust_fine (schema_decls ast) (rust_decls ast true true) &&
  rust_consts_fine ast (type_names items) && rust_code_fine ast true ext (rust_decls ast true true).

Definition c57_rpc (s : string) : string := ("#[id = ""d7e5c1ab-8a4b-4e10-9a38-6b1d5ff3e0a2""] #[namespace = ""test""] " ++ s)%string.

Definition c57_src : string :=
  c57_rpc "const limits { TOP: i32 = 7; const names { FIRST: u8 = 1; } } struct Line { from: Point, tags: Vec<Point>, name: String, mode: Mode, on: bool } enum Mode { Near(Point, u64), Far { line: Vec<Line>, at: Point }, Off } struct Point { x: i32, y: f64, z: f32 } struct Nothing; fn shift(line: Line, by: i64) -> Line; fn ping(); async fn later(mode: Mode, all: Vec<String>) -> u8; async fn nothing(); read last -> Vec<f64>; async read next -> Theme; read quiet -> Mode;".

(** Without the conditions on the names and types the files need not compile: sources that are accepted, that mention no
    types from elsewhere, and whose Rust files are well formed. *)
Definition c57_bad : list string :=
  [ c57_rpc "read last -> u8;"; c57_rpc "async read last -> bool;"; "#[id = ""svc""] #[namespace = ""test""] fn put();"; c57_rpc "fn args() -> u8;"; c57_rpc "fn memory();"; c57_rpc "fn Some();"; c57_rpc "fn register_rpc();";
    c57_rpc "fn put(); fn put_rpc_handler();"; c57_rpc "fn put(); async fn put();"; c57_rpc "fn put(x: u8, x: u8);"; c57_rpc "async fn put(__method_id__: u8);"; c57_rpc "struct put; fn put();"; c57_rpc "struct status; fn put();";
    c57_rpc "struct RpcMethodAddress { x: u8 } fn put();"; c57_rpc "fn put() -> Point;"; "struct BytesReader { x: u8 }"; "struct Option { x: u8 }"; "struct Vec { x: u8 }"; "struct u8 { x: u16 }"; "struct Point { x: u8, x: u8 }"; "struct Line { from: Point }";
    "struct Point { x: Point }"; "struct Point { x: char }"; "enum Mode { On { bytes_writer: u8 } }"; "enum Mode { On { Nothing: u8 } } struct Nothing;"; "enum Mode { read_from_buffers(u8) } struct Point { m: Mode }"; "enum Mode { Off, Off }"; "enum Mode { On { x: u8, x: u8 } }";
    "struct value; enum Mode { Off }"; "const limits { TOP: u8 = 256; }"; "struct limits { x: u8 } const limits { TOP: u8 = 3; }" ].

Lemma lem_C57_compiles_refuted : forall src, In src c57_bad -> exists ast items, compile_front src = Ok ast /\ file_items ast true true true items /\ compiles (user_fns ast true) [] items = false.
Proof.
  assert (H : forallb (fun src => match compile_front src with Ok ast => rust_ready ast && match rust_generate ast true true true with Ok _ => true | _ => false end && negb (compiles (user_fns ast true) [] (rust_tree ast true true true)) | _ => false end) c57_bad = true)
    by (vm_compute; reflexivity).
  rewrite forallb_forall in H.
  intros src I.
  specialize (H src I).
  destruct (compile_front src) as [ast| |]; try discriminate H.
  rewrite !andb_true_iff, negb_true_iff in H.
  destruct H as ((RD & G) & C).
  exists ast, (rust_tree ast true true true).
  split; [reflexivity|].
  split; [now apply rust_items_tree|exact C].
Qed.

Definition c57_whole : string := c57_rpc "struct Point { x: u32, name: String, tags: Vec<u8> } struct Nothing; enum Mode { Off, Level(u8, Point), Area { at: Point, on: bool } } const limits { TOP: u8 = 3; } fn move_to(p: Point, by: f64) -> Point; async fn load(id: u32) -> u8; read state -> Mode; async read later -> Vec<Point>;".

(** Edits of a generated file, each of which makes it wrong: the first occurrence of a text and what replaces it ("~" is a new line). *)
Definition c57_edits : list (string * string) :=
  [ ("use tech_paws_buffers::{BytesReader, BytesWriter, IntoVMBuffers};", "use tech_paws_buffers::{BytesReader, BytesWriter};");
    ("use tech_paws_buffers::{BytesReader, BytesWriter, IntoVMBuffers};", "use tech_paws_buffers::{BytesReader, IntoVMBuffers};");
    ("use uuid::uuid;~", "");
    ("TechPawsRuntimeAsyncContext, TechPaws", "TechPaws");
    ("TechPawsRuntimeRpcMethodBuffer, ", "");
    (", RpcMethodAddress, ", ", ");
    ("#[derive(Debug, Clone, PartialEq)]~pub struct Point", "#[derive(Debug, PartialEq)]~pub struct Point");
    ("#[derive(Debug, Clone, PartialEq)]~pub enum", "pub enum");
    ("#[derive(Debug, Clone, PartialEq)]~pub struct __load", "#[derive(Debug, PartialEq)]~pub struct __load");
    ("pub mod limits", "pub mod Point");
    ("pub struct Nothing;", "pub struct Nothing;~pub struct Nothing;");
    ("pub struct Nothing;", "pub struct Nothing { pub x: u8, }");
    ("pub struct Nothing;", "pub struct value;");
    ("pub x: u32,", "pub x: u32, pub x: u32,");
    ("pub x: u32,", "pub x: u64,");
    ("pub name: String,", "pub name: Str,");
    ("pub tags: Vec<u8>,~", "pub tags: Vec<u8>,~ pub more: u8,~");
    ("impl IntoVMBuffers for Point", "impl IntoVMBuffers for Mode");
    ("impl IntoVMBuffers for Point", "impl IntoVMBuffers for Pint");
    ("impl IntoVMBuffers for Point", "impl FromVMBuffers for Point");
    ("fn read_from_buffers(bytes_reader: &mut BytesReader) -> Self {", "fn read_from_buffers(bytes_reader: &BytesReader) -> Self {");
    ("fn read_from_buffers(bytes_reader: &mut BytesReader) -> Self {", "fn read_from_buffers(bytes_reader: &mut BytesWriter) -> Self {");
    ("fn read_from_buffers(bytes_reader: &mut BytesReader) -> Self {", "fn read_from_buffers(bytes_reader: &mut BytesReader) {");
    ("fn read_from_buffers(bytes_reader: &mut BytesReader) -> Self {", "fn read_from_buffers(reader: &mut BytesReader) -> Self {");
    ("fn read_from_buffers(bytes_reader: &mut BytesReader) -> Self {", "fn read_buffers(bytes_reader: &mut BytesReader) -> Self {");
    ("x: bytes_reader.read_u32(),", "x: bytes_reader.read_u64(),");
    ("x: bytes_reader.read_u32(),", "x: bytes_reader.read_u32(), x: bytes_reader.read_u32(),");
    ("x: bytes_reader.read_u32(),~", "");
    ("x: bytes_reader.read_u32(),", "y: bytes_reader.read_u32(),");
    ("x: bytes_reader.read_u32(),", "x: bytes_reader.read_u32,");
    ("x: bytes_reader.read_u32(),", "x: bytes_reader.read_u32(1),");
    ("x: bytes_reader.read_u32(),", "x: reader.read_u32(),");
    ("x: bytes_reader.read_u32(),", "x: u32::read_from_bytes(bytes_reader),");
    ("name: String::read_from_buffers(bytes_reader),", "name: Strin::read_from_buffers(bytes_reader),");
    ("name: String::read_from_buffers(bytes_reader),", "name: String::read_from_buffers(),");
    ("name: String::read_from_buffers(bytes_reader),", "name: Point::read_from_buffers(bytes_reader),");
    ("tags: Vec::<u8>::read_from_buffers(bytes_reader),", "tags: Vec::<u16>::read_from_buffers(bytes_reader),");
    ("tags: Vec::<u8>::read_from_buffers(bytes_reader),", "tags: List::<u8>::read_from_buffers(bytes_reader),");
    ("fn write_to_buffers(&self, bytes_writer: &mut BytesWriter) {", "fn write_to_buffers(bytes_writer: &mut BytesWriter) {");
    ("fn write_to_buffers(&self, bytes_writer: &mut BytesWriter) {", "fn write_to_buffers(&self, bytes_writer: &BytesWriter) {");
    ("bytes_writer.write_u32(self.x);", "bytes_writer.write_u64(self.x);");
    ("bytes_writer.write_u32(self.x);", "bytes_writer.write_u32(self.y);");
    ("bytes_writer.write_u32(self.x);", "bytes_writer.write_u32(x);");
    ("bytes_writer.write_u32(self.x);", "bytes_writer.write_u32(*self.x);");
    ("bytes_writer.write_u32(self.x);", "bytes_writer.write_u32();");
    ("bytes_writer.write_u32(self.x);", "bytes_reader.write_u32(self.x);");
    ("bytes_writer.write_u32(self.x);", "self.x.write_to_buffers(self.x);");
    ("self.name.write_to_buffers(bytes_writer);", "self.name.write_to_buffers();");
    ("self.name.write_to_buffers(bytes_writer);", "self.name.write_to_buffers(self);");
    ("self.name.write_to_buffers(bytes_writer);", "let name = self.name;");
    ("self.name.write_to_buffers(bytes_writer);", "self.name.write_to_buffer(bytes_writer);");
    ("for _ in 0..count {", "for _ in 0..bytes_reader {");
    ("for _ in 0..count {", "for _ in 0..n {");
    ("bytes_reader.read_u32();~            String::", "bytes_reader.read_u33();~            String::");
    ("String::read_from_buffers(bytes_reader);~", "Strin::read_from_buffers(bytes_reader);~");
    ("        Nothing~", "        Nothing2~");
    ("        Nothing~", "        Point~");
    ("        Nothing~", "");
    ("fn skip_in_buffers(_: &mut BytesReader, _: u64) {}~", "");
    ("fn skip_in_buffers(_: &mut BytesReader, _: u64) {}", "fn skip_in_buffers(_: &mut BytesReader) {}");
    ("fn skip_in_buffers(_: &mut BytesReader, _: u64) {}", "fn skip_in_buffers(_: &mut BytesReader, _: u32) {}");
    ("fn skip_in_buffers(_: &mut BytesReader, _: u64) {}", "fn skip_in_buffers(_: &mut BytesReader, _: u64) {}~ fn skip_in_buffers(_: &mut BytesReader, _: u64) {}");
    ("let value = bytes_reader.read_u32();", "let value = bytes_reader.read_bool();");
    ("let value = bytes_reader.read_u32();", "let val = bytes_reader.read_u32();");
    ("let value = bytes_reader.read_u32();", "let bytes_reader = bytes_reader.read_u32();");
    ("0 => return Mode::Off,", "0 => return Mode::On,");
    ("0 => return Mode::Off,", "0 => return Nothing,");
    ("0 => return Mode::Off,", "0 => return Mode::Level,");
    ("0 => return Mode::Off,", "4294967296 => return Mode::Off,");
    ("0 => return Mode::Off,", "0 => Point::default(),");
    ("1 => return Mode::Level(~                bytes_reader.read_u8(),~", "1 => return Mode::Level(~");
    ("1 => return Mode::Level(~                bytes_reader.read_u8(),~", "1 => return Mode::Level(~bytes_reader.read_u16(),~");
    ("2 => return Mode::Area {", "2 => return Mode::Level {");
    ("2 => return Mode::Area {~                at: Point::read_from_buffers(bytes_reader),~", "2 => return Mode::Area {~");
    ("_ => panic!(", "3 => panic!(");
    ("enum value: {}"", value)", "enum value: {}"")");
    ("enum value: {}"", value)", "enum value: {}"", bytes_reader)");
    ("enum value: {}"", value)", "enum value: {}"", number)");
    ("enum value: {}"", value)", "enum value: {x}"", value)");
    ("Mode::Off => {~                bytes_writer.write_u32(0);~            },~", "");
    ("Mode::Off => {", "Mode::On => {");
    ("Mode::Off => {", "Mode::Off {} => {");
    ("Mode::Off => {", "Point::Off => {");
    ("                v0,~                v1,~            ) =>", "                v0,~            ) =>");
    ("                v0,~                v1,~            ) =>", "                v0,~                v0,~            ) =>");
    ("                v0,~                v1,~            ) =>", "                v1,~                v0,~            ) =>");
    ("                v0,~                v1,~            ) =>", "                v0,~                Nothing,~            ) =>");
    ("bytes_writer.write_u8(*v0);", "bytes_writer.write_u8(v0);");
    ("bytes_writer.write_u8(*v0);", "bytes_writer.write_u16(*v0);");
    ("bytes_writer.write_u8(*v0);", "bytes_writer.write_u8(*v2);");
    ("bytes_writer.write_u8(*v0);", "bytes_writer.write_u8(256);");
    ("bytes_writer.write_u32(1);", "bytes_writer.write_u32(4294967296);");
    ("v1.write_to_buffers(bytes_writer);", "bytes_writer.write_to_buffers(bytes_writer);");
    ("v1.write_to_buffers(bytes_writer);", "bytes_writer.write_u32(*v1);");
    ("                at,~                on,~", "                at,~");
    ("                at,~                on,~", "                at,~                off,~");
    ("bytes_writer.write_bool(*on);", "bytes_writer.write_bool(on);");
    ("bytes_writer.write_bool(*on);", "bytes_writer.write_u8(*on);");
    ("0 => (),", "0 => 1,");
    ("d7e5c1ab-8a4b-4e10-9a38-6b1d5ff3e0a2", "d7e5c1ab-8a4b-4e10-9a38-6b1d5ff3e0a");
    ("d7e5c1ab-8a4b-4e10-9a38-6b1d5ff3e0a2", "g7e5c1ab-8a4b-4e10-9a38-6b1d5ff3e0a2");
    ("runtime: &mut TechPawsRuntime,", "runtime: &TechPawsRuntime,");
    ("runtime: &mut TechPawsRuntime,", "runtime: &mut Runtime,");
    ("addr: &TechPawsRpcAddress", "runtime: &TechPawsRpcAddress");
    ("runtime.memory.add_scope(scope_id);", "runtime.memory.add_scope(scope);");
    ("runtime.memory.add_scope(scope_id);", "runtime.add_scope(scope_id);");
    ("let scope_id = TechPawsScopeId(", "let scope_id = RpcMethodAddress(");
    ("runtime.register_sync_rpc_method(", "runtime.register_async_rpc_method(");
    ("addr.sync_group_address,", "addr.group_address,");
    ("        scope_id,~        RpcMethodAddress(0),~", "        RpcMethodAddress(0),~        scope_id,~");
    ("        RpcMethodAddress(0),~", "        0,~");
    ("RpcMethodAddress(0)", "RpcMethodAddress(18446744073709551616)");
    ("        move_to_rpc_handler,~", "        move_to,~");
    ("        move_to_rpc_handler,~", "        load_rpc_handler,~");
    ("        move_to_rpc_handler,~", "");
    ("        load_rpc_handler,~", "        move_to_rpc_handler,~");
    ("pub fn move_to_rpc_handler(", "pub fn load_rpc_handler(");
    ("pub fn move_to_rpc_handler(", "pub fn move_to(");
    ("    scope_id: TechPawsScopeId,~    memory: &mut TechPawsRuntimeMemory,~", "    memory: &mut TechPawsRuntimeMemory,~");
    ("    scope_id: TechPawsScopeId,~    memory: &mut TechPawsRuntimeMemory,~", "    scope_id: TechPawsScopeId,~    memory: &TechPawsRuntimeMemory,~");
    ("    rpc_method_address: RpcMethodAddress,~) -> bool {", "    rpc_method_address: RpcMethodAddress,~) {");
    ("    rpc_method_address: RpcMethodAddress,~) -> bool {", "    rpc_method_address: RpcMethodAddress,~) -> u8 {");
    ("let args = memory.get_scope_mut(scope_id)", "let args = memory.get_scope(scope_id)");
    ("let args = memory.get_scope_mut(scope_id)", "let args = memory.get_scope_mut(memory)");
    ("let args = memory.get_scope_mut(scope_id)", "let args = memory");
    ("let args = memory.get_scope_mut(scope_id)", "let none = memory.get_scope_mut(scope_id)");
    ("let args = memory.get_scope_mut(scope_id).rpc_buffer_read(", "let args = memory.get_scope_mut(scope_id).rpc_buffer_write(");
    ("        rpc_method_address,~        TechPawsRuntimeRpcMethodBuffer::Server,~        |bytes_reader| {", "        TechPawsRuntimeRpcMethodBuffer::Server,~        |bytes_reader| {");
    ("TechPawsRuntimeRpcMethodBuffer::Server", "TechPawsRuntimeRpcMethodBuffer::Other");
    ("|bytes_reader| {~            let status", "|reader| {~            let status");
    ("|bytes_reader| {~            let status = bytes_reader.read_u8();", "|bytes_reader| {~            let status = memory.get_scope_mut(scope_id);");
    ("let status = bytes_reader.read_u8();", "let status = bytes_reader.read_bool();");
    ("status == 0xFF", "status == 0x100");
    ("status == 0xFF", "stat == 0xFF");
    ("if status == 0xFF {", "if status {");
    ("Some(__move_to_rpc_args__::read_from_buffers(bytes_reader))", "__move_to_rpc_args__::read_from_buffers(bytes_reader)");
    ("Some(__move_to_rpc_args__::read_from_buffers(bytes_reader))", "Some(__load_rpc_args__::read_from_buffers(bytes_reader))");
    ("Some(__move_to_rpc_args__::read_from_buffers(bytes_reader))", "return false");
    ("                None~", "                0~");
    ("if let Some(args) = &args {", "if let Some(args) = &arg {");
    ("if let Some(args) = &args {", "if let Some(request) = &args {");
    ("if let Some(args) = &args {", "if let Some(args) = args {");
    ("            |bytes_writer| {~                bytes_writer.write_u8(0x00);", "            |bytes_writer| {~                bytes_writer.write_u8(0x1FF);");
    ("let result = move_to(", "let result = move_from(");
    ("let result = move_to(", "let result = load(");
    ("let result = move_to(~            args.clone().p,~            args.clone().by,~        );", "let result = move_to(args.clone().p);");
    ("let result = move_to(~            args.clone().p,~            args.clone().by,~        );", "let result = move_to(args.clone().by, args.clone().p);");
    ("let result = move_to(~            args.clone().p,~            args.clone().by,~        );", "move_to(args.clone().p, args.clone().by);");
    ("            args.clone().p,~", "            args.p,~");
    ("            args.clone().p,~", "            args.clone().q,~");
    ("            args.clone().p,~            args.clone().by,~        );", "            args.clone().p,~            args.clone().by,~        ).await;");
    ("result.write_to_buffers(bytes_writer);", "result.write_to_buffers(args);");
    ("result.write_to_buffers(bytes_writer);", "bytes_writer.write_u8(result);");
    ("result.write_to_buffers(bytes_writer);", "memory.write_to_buffers(bytes_writer);");
    ("    args.is_some()~}~", "    args.is_none()~}~");
    ("    args.is_some()~}~", "    args~}~");
    ("    args.is_some()~}~", "}~");
    ("pub __method_id__: i64,", "pub __method_id__: u64,");
    ("runtime_as_mut: unsafe fn() -> &'static mut TechPawsRuntime,", "runtime_as_mut: unsafe fn() -> &mut TechPawsRuntime,");
    ("runtime_as_mut: unsafe fn() -> &'static mut TechPawsRuntime,", "runtime: unsafe fn() -> &'static mut TechPawsRuntime,");
    ("        let args = args.clone();~", "");
    ("async_context.async_spawner.spawn(async move {", "async_context.async_spawner.run(async move {");
    ("async_context.async_spawner.spawn(async move {", "async_context.spawner.spawn(async move {");
    ("            let memory = unsafe { &mut runtime_as_mut().memory };~            let result", "            let result");
    ("unsafe { &mut runtime_as_mut().memory }", "unsafe { runtime_as_mut().memory }");
    ("unsafe { &mut runtime_as_mut().memory }", "unsafe { &runtime_as_mut().memory }");
    ("unsafe { &mut runtime_as_mut().memory }", "&mut runtime_as_mut().memory");
    ("unsafe { &mut runtime_as_mut().memory }", "unsafe { &mut runtime_as_mut().scope }");
    ("let result = load(~                args.clone().id,~            ).await;", "let result = load(~                args.clone().id,~            );");
    ("bytes_writer.write_i64(args.__method_id__);", "bytes_writer.write_u64(args.__method_id__);");
    ("bytes_writer.write_u8(result);", "bytes_writer.write_u8(*result);");
    ("bytes_writer.write_u8(result);", "result.write_to_buffers(bytes_writer, bytes_writer);");
    ("let result = state();", "let result = state(scope_id);");
    ("let result = state();", "let result = state().await;");
    ("let result = state();", "let result = later();");
    ("    let result = state();~", "");
    ("    result.is_some()~}~", "    result~}~");
    ("let is_busy = memory", "let busy = memory");
    ("            status == 0xFF~        },", "            status~        },");
    ("    if !is_busy {", "    if !memory {");
    ("    if !is_busy {", "    if is_busy == 1 {");
    ("let result = later().await;", "let result = later();");
    ("if let Some(result) = &result {~                let memory", "if let Some(result) = &memory {~                let memory");
    ("                let memory = unsafe { &mut runtime_as_mut().memory };~                memory", "                memory");
    ("    !is_busy~}~", "    !result~}~");
    ("    !is_busy~}~", "    !is_busy;~}~") ].

Lemma lem_C57_rules : exists ast text, compile_front c57_whole = Ok ast /\ rust_generate ast true true true = Ok text /\
  (exists items, rust_file text = Some items /\ compiles (user_fns ast true) [] items = true) /\
  forall old new, In (old, new) c57_edits -> exists items, rust_file (replaced (lines old) (lines new) text) = Some items /\ compiles (user_fns ast true) [] items = false.
Proof.
  pose (ast := match compile_front c57_whole with Ok ast => ast | _ => [] end).
  pose (text := match rust_generate ast true true true with Ok text => text | _ => "" end).
  assert (H : match compile_front c57_whole with Ok _ => match rust_generate ast true true true with Ok _ => match rust_file text with Some items => compiles (user_fns ast true) [] items | None => false end | _ => false end | _ => false end = true)
    by (vm_compute; reflexivity).
  assert (K : forallb (fun '(old, new) => match rust_file (replaced (lines old) (lines new) text) with Some items => negb (compiles (user_fns ast true) [] items) | None => false end) c57_edits = true)
    by (vm_compute; reflexivity).
  exists ast, text.
  destruct (compile_front c57_whole) as [a| |] eqn:F; try discriminate H.
  split; [reflexivity|].
  unfold text in *.
  destruct (rust_generate ast true true true) as [t| |]; try discriminate H.
  split; [reflexivity|].
  split.
  - destruct (rust_file t) as [items|]; [|discriminate H].
  now exists items.
  - intros old new I.
  rewrite forallb_forall in K.
  specialize (K _ I).
  cbn beta iota in K.
  destruct (rust_file (replaced (lines old) (lines new) t)) as [items|]; [|discriminate K].
  exists items.
  split; [reflexivity|now apply negb_true_iff].
Qed.
