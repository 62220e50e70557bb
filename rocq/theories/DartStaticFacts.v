(** The generated Dart file compiles (C56): lemmas behind the theorems of PropertiesDartStatic.v. *)
Require Import Coq.Strings.String Coq.Strings.Ascii.
Require Import Coq.NArith.NArith Coq.Lists.List Coq.Bool.Bool Coq.Arith.PeanoNat.
Require Import Verif.Base Verif.Ast Verif.CaseConv Verif.Wire Verif.DartSyntax Verif.DartTree Verif.DartFile Verif.DartFacts Verif.DartStatic Verif.DartStaticSpec.
Require Verif.DartWf Verif.Parser Verif.ConstSpec Verif.ConstFacts Verif.DartConst Verif.DartRun Verif.DartRpc Verif.DartCodec Verif.DartLexed Verif.DartLexedEnum Verif.DartLexedModel Verif.DartLexedRpc Verif.DartGen Verif.DartStaticCode Verif.GoldenDart.
Import Parser(compile_front).
Import ConstSpec(dart_consts_fine).
Import DartRun(top_names).
Import ListNotations.
Local Open Scope string_scope.
Local Open Scope list_scope.

Lemma const_class_ok ext items : forall c prefix i, In i (const_classes prefix c) -> static_item ext items i = true.
Proof.
  fix IH 1.
  intros [id l] prefix i [<-|I].
  - cbn [static_item].
  apply orb_true_iff.
  left.
  unfold DartConst.holder.
  cbn [existsb orb forallb andb].
  apply forallb_forall.
  intros m J.
  apply in_map_iff in J as (k & <- & _).
  now destruct k.
  - cbn [const_classes] in I.
  induction l as [|k l IHl]; [destruct I|].
  cbn [flat_map] in I.
  apply in_app_or in I as [I|I]; [|exact (IHl I)].
  destruct k as [n t v|n]; [destruct I|].
  exact (IH n _ i I).
Qed.

Lemma lem_C56_compiles : forall ast rpc ext items,
  dart_ready ast = true -> dart_items ast rpc items -> dart_codecs_ok ast items = true -> dart_consts_fine ast (top_names items) = true ->
  dart_fine ast ext items = true -> compiles ext items = true.
Proof.
  intros ast rpc ext items RD DI CO CF F.
  destruct (dart_section ast rpc items RD DI CO) as (has & nd & _ & okd).
  destruct (ConstFacts.lem_C53_dart_constants ast rpc items RD DI CF) as (CC & _).
  unfold dart_fine in F.
  rewrite !andb_true_iff in F.
  destruct F as ((((tf & names) & fine) & ff) & sf).
  pose proof RD as RR.
  unfold dart_ready in RR.
  rewrite !andb_true_iff in RR.
  destruct RR as ((DD & _) & RP).
  rewrite forallb_forall in DD.
  unfold compiles.
  rewrite CC, andb_true_r.
  apply andb_true_iff.
  split.
  { unfold tops_fine in tf.
  rewrite !andb_true_iff in tf.
  destruct tf as ((T & _) & _).
  rewrite forallb_app in T.
  now apply andb_true_iff in T as [T _].
  }
  assert (DS : forall d i, In d (schema_decls ast) -> In i (DartCodec.decl_items d) -> static_item ext items i = true).
  { intros d i ID II.
  pose proof ID as J.
  unfold schema_decls in J.
  apply in_flat_map in J as (n & IN & J).
  specialize (DD n IN).
  destruct n as [e|s| | |]; try destruct J as [<-|[]]; try destruct J.
  - cbn [ddecl] in DD.
  unfold DartLexedEnum.denum in DD.
  apply andb_true_iff in DD as [_ D].
  apply (DartStaticCode.enum_items_okay ast ext items has nd tf okd fine names e ID); [|exact II].
  intros k K.
  rewrite forallb_forall in D.
  specialize (D k K).
  unfold DartLexedEnum.ditem_ok, DartLexed.dname in D.
  rewrite !andb_true_iff in D.
  tauto.
  - cbn [ddecl] in DD.
  unfold DartLexedModel.dstruct in DD.
  apply andb_true_iff in DD as [D _].
  unfold DartLexed.dclass, tname in D.
  rewrite !andb_true_iff in D.
  destruct D as (_ & D & _).
  exact (DartStaticCode.struct_items_okay ast ext items has nd tf okd fine names s i D ID II).
  }
  apply forallb_forall.
  intros i I.
  pose proof I as IN.
  destruct DI as (text & G & FI).
  pose proof (DartWf.dart_file_generated ast true true rpc text RD G) as X.
  rewrite FI in X.
  injection X as X.
  rewrite X in I.
  unfold dart_tree in I.
  rewrite !in_app_iff in I.
  destruct I as [I|[I|[I|[I|[I|I]]]]].
  - unfold lib_imports_tree in I.
  destruct (rpc && _); [|]; apply in_map_iff in I as (s & <- & _); reflexivity.
  - unfold imports_tree in I.
  apply in_flat_map in I as (v & _ & I).
  destruct v as [[| | |] t]; try destruct I; [subst i; reflexivity|contradiction].
  - unfold consts_tree in I.
  apply in_app_or in I as [I|I]; apply in_flat_map in I as (n & _ & I); destruct n as [| | | |c].
  1,2,3,4,6,7,8,9: now destruct I.
  + now destruct I as [<-|[]].
  + now apply const_class_ok with c "".
  - unfold models_tree in I.
  apply in_flat_map in I as (n & N & I).
  destruct n as [e|s| | |]; try destruct I.
  + apply (DS (Wire.DEnum e)); [apply in_flat_map; eexists; split; [exact N|now left]|].
  unfold DartCodec.decl_items.
  apply in_or_app.
  now left.
  + apply (DS (Wire.DStruct s)); [apply in_flat_map; eexists; split; [exact N|now left]|].
  unfold DartCodec.decl_items.
  apply in_or_app.
  now left.
  - unfold buffers_tree in I.
  apply in_flat_map in I as (n & N & I).
  destruct n as [e|s| | |]; try destruct I.
  + apply (DS (Wire.DEnum e)); [apply in_flat_map; eexists; split; [exact N|now left]|].
  unfold DartCodec.decl_items.
  apply in_or_app.
  now right.
  + apply (DS (Wire.DStruct s)); [apply in_flat_map; eexists; split; [exact N|now left]|].
  unfold DartCodec.decl_items.
  apply in_or_app.
  now right.
  - destruct rpc; [|destruct I].
  unfold rpc_tree in I.
  unfold DartLexedRpc.drpc in RP.
  unfold scope_fine in sf.
  destruct (find_fn_nodes ast) as [|f l] eqn:FN; [destruct I|].
  rewrite <- FN in *.
  destruct (DartGen.required_string ast "namespace") as [ns| |]; [|destruct I|destruct I].
  destruct (DartGen.required_string ast "id") as [id| |] eqn:EI; [|destruct I|destruct I].
  destruct I as [<-|[]].
  rewrite DartRpc.client_class_members in *.
  unfold DartGen.required_string in EI.
  destruct (find_directive_value ast "id") as [[[| | |] t]|]; try discriminate EI.
  injection EI as ->.
  exact (DartStaticCode.client_okay ast ext items has nd tf okd fine names _ id (find_fn_nodes ast) IN ff sf).
Qed.

(** The file of a schema, if there is one. *)
Definition c56_file (src : string) : list ast_node * list ditem :=
  match compile_front src with Ok ast => (ast, dart_tree ast true true true) | _ => ([], []) end.

Definition c56_holds (ext : list string) (src : string) : bool :=
  let (ast, items) := c56_file src in
  dart_ready ast && match DartGen.dart_generate ast true true true with Ok _ => true | _ => false end && dart_codecs_ok ast items &&
  dart_consts_fine ast (top_names items) && dart_fine ast ext items.

Definition c56_src : string :=
  "#[id = ""svc""] #[namespace = ""test""] const limits { TOP: i32 = 7; const names { FIRST: String = ""one""; } } struct Line { from: Point, tags: Vec<Point>, name: String, mode: Mode, on: bool, theme: Theme } enum Mode { Near(Point, u64), Far { line: Vec<Line>, at: Point }, Off } struct Point { x: i32, y: f64, z: f32 } struct Nothing; fn shift(line: Line, by: i64) -> Line; fn ping(); async fn later(mode: Mode, all: Vec<String>) -> Point; async fn nothing(); read last -> Vec<f64>; async read next -> Theme;".

(** Without the conditions on the names and types the files need not compile: sources that are accepted, that mention no
    types from elsewhere, and whose Dart files are well formed. *)
Definition c56_rpc (s : string) : string := ("#[id = ""svc""] #[namespace = ""test""] " ++ s)%string.

Definition c56_bad : list string :=
  [ "struct Point { to_string: u32 }"; "struct Point { double: f32 }"; "struct Point { x_y: u8, xY: u8 }"; "struct Point { reader: u8 }";
    "struct List { all: Vec<u8> }"; "struct Grid { rows: Vec<Vec<u8>> }"; "struct Line { from: Point }"; "struct IntoBuffers { x: u8 }"; "struct ModeOff { x: u8 } enum Mode { Off }";
    "enum Mode { Index, Off }"; "enum Mode { Values, Off }"; "enum Mode { String(u8), Off }"; "enum Mode { Value(u8) }"; "enum Mode { On() }"; "enum Mode { On { value: u8 } }"; "enum Mode { On { model: u8 } }";
    "const limits { TOP: i32 = ""x""; }"; c56_rpc "fn disconnect();"; c56_rpc "fn to_string();"; c56_rpc "fn int(x: u8);"; c56_rpc "fn put(writer: u8);"; c56_rpc "fn put(x: u8, x: u8);"; c56_rpc "read last -> u8; fn last();";
    c56_rpc "struct Completer { x: u8 } async fn put();"; "#[id = ""a$b""] #[namespace = ""test""] fn put();" ].

Lemma lem_C56_compiles_refuted : forall src, In src c56_bad -> exists ast items, compile_front src = Ok ast /\ dart_items ast true items /\ compiles [] items = false.
Proof.
  assert (H : forallb (fun src => match compile_front src with Ok ast => dart_ready ast && match DartGen.dart_generate ast true true true with Ok _ => true | _ => false end && negb (compiles [] (dart_tree ast true true true)) | _ => false end) c56_bad = true)
    by (vm_compute; reflexivity).
  rewrite forallb_forall in H.
  intros src I.
  specialize (H src I).
  destruct (compile_front src) as [ast| |]; try discriminate H.
  rewrite !andb_true_iff, negb_true_iff in H.
  destruct H as ((RD & G) & C).
  exists ast, (dart_tree ast true true true).
  split; [reflexivity|].
  split; [now apply dart_items_tree|exact C].
Qed.

(** Edits of a generated file, each of which makes it wrong: the first occurrence of a text and what replaces it ("~" is a new line). *)
Fixpoint replaced (old new s : string) : string :=
  if String.prefix old s then (new ++ substring (String.length old) (String.length s) s)%string
  else match s with String c s' => String c (replaced old new s') | "" => "" end.
Fixpoint lines (s : string) : string :=
  match s with String c s' => String (if Ascii.eqb c "~" then "010" else c) (lines s') | "" => "" end.
Definition c56_whole : string := c56_rpc "struct Point { x: u32, rate: f64, name: String, tags: Vec<u8>, on: bool } enum Mode { Off, Level(u8), Area { at: Point } } const limits { TOP: u8 = 3; } fn move_to(p: Point, by: f64) -> Point; async fn load(id: u32) -> Point; read state -> Mode; async fn ping();".
Definition c56_edits : list (string * string) :=
  [("int x;", "Point2 x;"); ("int x;", "void x;"); ("int x;", "int x; int x;"); ("int x;", "int hashCode;"); ("int x;", "int Point;");
    ("int x;", "int x = true;"); ("int x;", "List x;"); ("int x;", "int<int> x;"); ("bool on;~", "bool on;~  int more;~");
    ("required this.on,", "required this.on, required this.on,"); ("required this.on,", "required this.off,"); ("    required this.on,~", "");
    ("rate = 0.0,", "rate = 0.0, rate = 0.0,"); ("rate = 0.0,", ""); ("x = 0,", "x = 0.0,"); ("x = 0,", "x = false,");
    ("x = 0,", "x = 9223372036854775808,"); ("x = 0,", "x = rate,"); ("x = 0,", "z = 0, x = 0,");
    ("const StringBuffersFactory().createDefault(),", "const StringBuffersFactory().makeDefault(),");
    ("const StringBuffersFactory().createDefault(),", "const StringFactory().createDefault(),");
    ("const ListBuffersFactory<int>().createDefault()", "const ListBuffersFactory<bool>().createDefault()");
    ("const ListBuffersFactory<int>().createDefault()", "const ListBuffersFactory().createDefault()");
    ("class PointBuffersFactory implements BuffersFactory<Point> {", "class PointBuffersFactory implements BuffersFactory<Mode> {");
    ("class PointBuffersFactory implements BuffersFactory<Point> {", "class PointBuffersFactory implements Factory<Point> {");
    ("Point createDefault() => Point.createDefault();", "Point makeDefault() => Point.createDefault();");
    ("Point createDefault() => Point.createDefault();", "Mode createDefault() => Mode();");
    ("Point createDefault() => Point.createDefault();", "Point createDefault() => Mode();");
    ("Point createDefault() => Point.createDefault();", "Point createDefault() => Point();");
    ("Point createDefault() => Point.createDefault();", "Point createDefault(int x) => Point.createDefault();");
    ("Point createDefault() => Point.createDefault();", "Point createDefault() => Point.createDefault(1);");
    ("const PointBuffersFactory();~", "const OtherBuffersFactory();~"); ("@override", "@overrides"); ("  level,~  area,", "  level,~  level,");
    ("  level,~  area,", "  level,~  values,"); ("ModeValue value = ModeValue.off;", "ModeValue value = ModeValue.on;");
    ("ModeValue value = ModeValue.off;", "ModeValue value = 0;"); ("ModeValue value = ModeValue.off;", "ModeValue value;");
    ("void toOff() => value = ModeValue.off;", "void toOff() => value = 1;");
    ("void toOff() => value = ModeValue.off;", "static void toOff() => value = ModeValue.off;");
    ("void toOff() => value = ModeValue.off;", "void toOff() => other = ModeValue.off;");
    ("    int v0,~  ) {~    value", "    bool v0,~  ) {~    value"); ("    int v0,~  ) {~    value", "    int v1,~  ) {~    value");
    ("    int v0,~  ) {~    value", "    int v0,~    int v0,~  ) {~    value");
    ("required Point at,~  }) {~    value", "required Mode at,~  }) {~    value"); ("bool isOff() =>", "int isOff() =>");
    ("value == ModeValue.off", "value == ModeValue.on"); ("final model = Mode();", "final model = Mode(1);");
    ("final model = Mode();", "final model = Modes();"); ("final model = Mode();", "final Mode = Mode();");
    ("final model = Mode();", "final model = Mode(); final model = Mode();");
    ("    model.value = ModeValue.off;~    return model;", "    model = Mode();~    return model;");
    ("    model.value = ModeValue.off;~    return model;", "    model.value = ModeValue.off;~    return;");
    ("    model.value = ModeValue.off;~    return model;", "    model.value = ModeValue.off;~");
    ("    model.value = ModeValue.off;~    return model;", "    model.value = ModeValue.off;~    return model.value;");
    ("  const ModeOff();~", "  const ModeOff();~  int x;~"); ("class ModeOff {", "class Mode {"); ("class ModeOff {", "class Completer {");
    ("const ModeOff();~  ModeLevel", "const ModeLevel();~  ModeLevel"); ("model.rate = reader.readDouble();", "model.rate = reader.readInt32();");
    ("model.rate = reader.readDouble();", "model.speed = reader.readDouble();");
    ("model.rate = reader.readDouble();", "model.rate = reader.readWord();");
    ("model.rate = reader.readDouble();", "model.rate = writer.readDouble();");
    ("model.rate = reader.readDouble();", "model.rate = reader.readDouble(1);");
    ("model.rate = reader.readDouble();", "reader.readDouble() = model.rate;");
    ("const ListEmplaceToBuffers<int>(const IntIntoBuffers()).read(reader, model.tags);", "const ListEmplaceToBuffers<int>(const BoolIntoBuffers()).read(reader, model.tags);");
    ("const ListEmplaceToBuffers<int>(const IntIntoBuffers()).read(reader, model.tags);", "const ListEmplaceToBuffers<int>().read(reader, model.tags);");
    ("const ListEmplaceToBuffers<int>(const IntIntoBuffers()).read(reader, model.tags);", "const ListEmplaceToBuffers<int>(const IntIntoBuffers()).read(reader);");
    ("const ListEmplaceToBuffers<int>(const IntIntoBuffers()).read(reader, model.tags);", "const ListIntoBuffers<int>(const IntIntoBuffers()).read(reader, model.tags);");
    ("const ListEmplaceToBuffers<int>(const IntIntoBuffers()).read(reader, model.tags);", "const ListEmplaceToBuffers<Tag>(const IntIntoBuffers()).read(reader, model.tags);");
    ("writer.writeDouble(model.rate);", "writer.writeDouble(model.on);"); ("writer.writeDouble(model.rate);", "writer.writeDouble(rate);");
    ("void write(BytesWriter writer, Point model) {", "void write(BytesWriter writer, Mode model) {");
    ("void write(BytesWriter writer, Point model) {", "int write(BytesWriter writer, Point model) {");
    ("void write(BytesWriter writer, Point model) {", "void put(BytesWriter writer, Point model) {");
    ("void write(BytesWriter writer, Point model) {", "static void write(BytesWriter writer, Point model) {"); ("i < count;", "i < counts;");
    ("int count) {~    const String", "bool count) {~    const String"); ("final x = reader.readInt32();", "final x = x;");
    ("final x = reader.readInt32();", "final reader = reader.readInt32();"); ("      name: name,~", "");
    ("      name: name,~", "      name: name, name: name,~"); ("      name: name,~", "      label: name,~");
    ("      name: name,~", "      name: tags,~"); ("case 1:~        final", "case 0:~        final");
    ("case 1:~        final", "case false:~        final"); ("case 1:~        final", "case ModeValue.level:~        final");
    ("        return model;~~      case 1:", "~      case 1:"); ("        return model;~~      case 1:", "        break;~~      case 1:");
    ("~      default:~        throw StateError('Unsupported enum value: $value');~", "");
    ("throw StateError('Unsupported enum value: $value');", "throw StateError('Unsupported enum value: $val');");
    ("throw StateError('Unsupported enum value: $value');", "throw StateError(value);");
    ("throw StateError('Unsupported enum value: $value');", "throw null;"); ("throw StateError('Unsupported enum value: $value');", "return;");
    ("case ModeValue.level:~        writer.writeInt32(1);~        const ModeLevelEmplaceToBuffers().write(writer, model.level);~        return;~~      ", "");
    ("case ModeValue.level:~        writer", "case ModeValue.off:~        writer");
    ("case ModeValue.level:~        writer", "case ModeValue.on:~        writer"); ("this._scheduler", "this._other");
    ("_connectLoad();", "_connectLoads();"); ("_connectLoad();", "_connectLoad(1);");
    ("static const _scopeId = 'svc';", "static const _scopeId = 'svc$x';"); ("static const _scopeId = 'svc';", "static const _scopeId = 1;");
    ("int _lastLoadMethodId = 0;", "int _lastLoadMethodId = true;"); ("int _lastLoadMethodId = 0;", "final int _lastLoadMethodId = 0;");
    ("<int, Completer<Point>>{}", "<int, Completer<Points>>{}"); ("<int, Completer<Point>>{}", "<int, Completer<Mode>>{}");
    ("StreamController<Mode>.broadcast()", "StreamController<Point>.broadcast()");
    ("StreamController<Mode>.broadcast()", "StreamController<Mode>.other()"); ("Stream<Mode> get state", "Stream<Point> get state");
    ("Stream<Mode> get state", "Stream<Mode> get load"); ("_readStateStreamController.close();", "_readStateStreamController.end();");
    ("_scheduler.disconnect(_readLoadTask);", "_scheduler.disconnect(_scopeId);"); ("required double by,", "required double _by,");
    ("_scopeId,~      0,", "0,~      _scopeId,"); ("TechPawsRuntimeRpcMethodBuffer.server", "TechPawsRuntimeRpcMethodBuffer.both");
    ("(writer) {~        writer.writeInt8(TechPawsRpcBufferStatus.hasData.value);~        const", "(writer) {~        writer.writeInt8(TechPawsRpcBufferStatus.hasData);~        const");
    ("(writer) {~        writer.writeInt8(TechPawsRpcBufferStatus.hasData.value);~        const", "(other) {~        writer.writeInt8(TechPawsRpcBufferStatus.hasData.value);~        const");
    ("const PointIntoBuffers().write(writer, p);", "const PointIntoBuffers().write(writer, by);");
    ("const PointIntoBuffers().write(writer, p);", "const ModeIntoBuffers().write(writer, p);");
    ("_scheduler.syncRead<Point>", "_scheduler.syncRead<Mode>"); ("_scheduler.syncRead<Point>", "_scheduler.syncRead");
    ("if (status != TechPawsRpcBufferStatus.hasData.value) {~          throw", "if (status) {~          throw");
    ("return const PointIntoBuffers().read(reader);~", "const PointIntoBuffers().read(reader);~"); ("return result;", "return status;");
    ("return result;", "return reader;"); ("_readLoadTask = _scheduler.read(", "_readLoadTask = _scheduler.write(");
    ("final methodId = reader.readInt64();~", ""); ("?.complete(result)", ".complete(result)"); ("?.complete(result)", "?.complete(methodId)");
    ("_loadCompleters[methodId] = completer;", "_loadCompleters[methodId] = methodId;");
    ("_loadCompleters[methodId] = completer;", "_loadCompleters[completer] = completer;");
    ("_loadCompleters[methodId] = completer;", "_loadCompleters = completer;"); ("rotateMethodId(_lastLoadMethodId)", "rotateMethodId()");
    ("rotateMethodId(_lastLoadMethodId)", "rotateMethodId(_scopeId)"); ("Completer<Point>();", "Completer<Mode>();");
    ("Future<Point> load(", "Future<Mode> load("); ("Future<Point> load(", "Point load("); ("const _Limits();~~", "const Limits();~~");
    ("const limits = _Limits();", "const limits = _Other();"); ("const limits = _Limits();", "const Point = _Limits();");
    ("final int top = 3;", "final int top = 3.5;"); ("final int top = 3;", "final String top = 3;") ].

Lemma lem_C56_rules : exists ast text, compile_front c56_whole = Ok ast /\ DartGen.dart_generate ast true true true = Ok text /\
  (exists items, dart_file text = Some items /\ compiles [] items = true) /\
  forall old new, In (old, new) c56_edits -> exists items, dart_file (replaced (lines old) (lines new) text) = Some items /\ compiles [] items = false.
Proof.
  pose (ast := match compile_front c56_whole with Ok ast => ast | _ => [] end).
  pose (text := match DartGen.dart_generate ast true true true with Ok text => text | _ => "" end).
  assert (H : match compile_front c56_whole with Ok _ => match DartGen.dart_generate ast true true true with Ok _ => match dart_file text with Some items => compiles [] items | None => false end | _ => false end | _ => false end = true)
    by (vm_compute; reflexivity).
  assert (K : forallb (fun '(old, new) => match dart_file (replaced (lines old) (lines new) text) with Some items => negb (compiles [] items) | None => false end) c56_edits = true)
    by (vm_compute; reflexivity).
  exists ast, text.
  destruct (compile_front c56_whole) as [a| |] eqn:F; try discriminate H.
  split; [reflexivity|].
  unfold text in *.
  destruct (DartGen.dart_generate ast true true true) as [t| |]; try discriminate H.
  split; [reflexivity|].
  split.
  - destruct (dart_file t) as [items|]; [|discriminate H].
    now exists items.
  - intros old new I.
    rewrite forallb_forall in K.
    specialize (K _ I).
    cbn beta iota in K.
    destruct (dart_file (replaced (lines old) (lines new) t)) as [items|]; [|discriminate K].
    exists items.
    split; [reflexivity|now apply negb_true_iff].
Qed.
