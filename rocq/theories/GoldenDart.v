(** Conformance tests, not proofs: the model reproduces the expected outputs stored in
    /repo/test_resources, from the inputs stored there, exactly as the unit tests of
    src/dart_generator.rs:868-1012 do.  The texts are copies of the files named in the comments. *)
Require Import Coq.Strings.String Coq.Lists.List.
Require Import Verif.Base Verif.Ast Verif.Lexer Verif.Parser Verif.DartGen.
Local Open Scope string_scope.

Definition check (gen : list ast_node -> res string) (src expected : string) : bool :=
  match compile_front src with
  | Ok ast => match gen ast with Ok s => String.eqb s expected | _ => false end
  | _ => false
  end.

(* test_resources/empty.tpb *)
Definition f_empty_tpb : string :=
"".

(* test_resources/dart/empty.dart *)
Definition f_dart_empty_dart : string :=
"// GENERATED, DO NOT EDIT
// ignore_for_file: unused_import

import 'package:tech_paws_buffers/tech_paws_buffers.dart';
import 'package:tech_paws_buffers/primitives.dart';
".

Example golden_dart_empty_dart :
  check (fun ast => dart_generate ast true true true) f_empty_tpb f_dart_empty_dart = true.
Proof. vm_compute. reflexivity. Qed.

(* test_resources/struct.tpb *)
Definition f_struct_tpb : string :=
"struct Empty;

struct ViewData {
    delta_time: f32,
    view_width: f32,
    view_height: f32,
    touch_start_x: f32,
    touch_start_y: f32,
    last_touch_x: f32,
    last_touch_y: f32,
    touch_x: f32,
    touch_y: f32,
}

struct Test {
    #[1] touch_x: f32,
    #[2] touch_y: f32,
    #[3] touch_status: TouchStatus,
}

struct GenericType {
    items: Vec<Test>,
    table: LinearTable<f32, Test>,
}
".

(* test_resources/dart/struct_models.dart *)
Definition f_dart_struct_models_dart : string :=
"class Empty {
  const Empty();
}

class EmptyBuffersFactory implements BuffersFactory<Empty> {
  const EmptyBuffersFactory();

  @override
  Empty createDefault() => const Empty();
}

class ViewData {
  double deltaTime;
  double viewWidth;
  double viewHeight;
  double touchStartX;
  double touchStartY;
  double lastTouchX;
  double lastTouchY;
  double touchX;
  double touchY;

  ViewData({
    required this.deltaTime,
    required this.viewWidth,
    required this.viewHeight,
    required this.touchStartX,
    required this.touchStartY,
    required this.lastTouchX,
    required this.lastTouchY,
    required this.touchX,
    required this.touchY,
  });

  ViewData.createDefault()
      : deltaTime = 0.0,
        viewWidth = 0.0,
        viewHeight = 0.0,
        touchStartX = 0.0,
        touchStartY = 0.0,
        lastTouchX = 0.0,
        lastTouchY = 0.0,
        touchX = 0.0,
        touchY = 0.0;
}

class ViewDataBuffersFactory implements BuffersFactory<ViewData> {
  const ViewDataBuffersFactory();

  @override
  ViewData createDefault() => ViewData.createDefault();
}

class Test {
  double touchX;
  double touchY;
  TouchStatus touchStatus;

  Test({
    required this.touchX,
    required this.touchY,
    required this.touchStatus,
  });

  Test.createDefault()
      : touchX = 0.0,
        touchY = 0.0,
        touchStatus = const TouchStatusBuffersFactory().createDefault();
}

class TestBuffersFactory implements BuffersFactory<Test> {
  const TestBuffersFactory();

  @override
  Test createDefault() => Test.createDefault();
}

class GenericType {
  List<Test> items;
  LinearTable<double, Test> table;

  GenericType({
    required this.items,
    required this.table,
  });

  GenericType.createDefault()
      : items = const ListBuffersFactory<Test>().createDefault(),
        table = const LinearTableBuffersFactory<double, Test>().createDefault();
}

class GenericTypeBuffersFactory implements BuffersFactory<GenericType> {
  const GenericTypeBuffersFactory();

  @override
  GenericType createDefault() => GenericType.createDefault();
}
".

Example golden_dart_struct_models_dart :
  check (generate_models) f_struct_tpb f_dart_struct_models_dart = true.
Proof. vm_compute. reflexivity. Qed.

(* test_resources/enum.tpb *)
Definition f_enum_tpb : string :=
"enum MyEnum {
    #[1] Idle,
    #[2] Move {
        #[1] x: f64,
        #[2] y: f64,
    },
    #[3] Update(#[1] f64, #[2] f64, #[4] String),
}

enum MyEnumWithoutPositions {
    Option1(u64),
    Option2 { name: String },
    Option3,
    Option4,
}
".

(* test_resources/dart/enum_models.dart *)
Definition f_dart_enum_models_dart : string :=
"enum MyEnumValue {
  idle,
  move,
  update,
}

class MyEnum {
  MyEnumValue value = MyEnumValue.idle;
  MyEnumIdle idle = const MyEnumIdle();
  MyEnumMove move = MyEnumMove.createDefault();
  MyEnumUpdate update = MyEnumUpdate.createDefault();

  void toIdle() => value = MyEnumValue.idle;

  void toMove({
    required double x,
    required double y,
  }) {
    value = MyEnumValue.move;
    move.x = x;
    move.y = y;
  }

  void toUpdate(
    double v0,
    double v1,
    String v2,
  ) {
    value = MyEnumValue.update;
    update.v0 = v0;
    update.v1 = v1;
    update.v2 = v2;
  }

  bool isIdle() => value == MyEnumValue.idle;
  bool isMove() => value == MyEnumValue.move;
  bool isUpdate() => value == MyEnumValue.update;

  static MyEnum createIdle() {
    final model = MyEnum();
    model.value = MyEnumValue.idle;
    return model;
  }

  static MyEnum createMove({
    required double x,
    required double y,
  }) {
    final model = MyEnum();
    model.value = MyEnumValue.move;
    model.move.x = x;
    model.move.y = y;
    return model;
  }

  static MyEnum createUpdate(
    double v0,
    double v1,
    String v2,
  ) {
    final model = MyEnum();
    model.value = MyEnumValue.update;
    model.update.v0 = v0;
    model.update.v1 = v1;
    model.update.v2 = v2;
    return model;
  }
}

class MyEnumBuffersFactory implements BuffersFactory<MyEnum> {
  const MyEnumBuffersFactory();

  @override
  MyEnum createDefault() => MyEnum();
}

class MyEnumIdle {
  const MyEnumIdle();
}

class MyEnumIdleBuffersFactory implements BuffersFactory<MyEnumIdle> {
  const MyEnumIdleBuffersFactory();

  @override
  MyEnumIdle createDefault() => const MyEnumIdle();
}

class MyEnumMove {
  double x;
  double y;

  MyEnumMove({
    required this.x,
    required this.y,
  });

  MyEnumMove.createDefault()
      : x = 0.0,
        y = 0.0;
}

class MyEnumMoveBuffersFactory implements BuffersFactory<MyEnumMove> {
  const MyEnumMoveBuffersFactory();

  @override
  MyEnumMove createDefault() => MyEnumMove.createDefault();
}

class MyEnumUpdate {
  double v0;
  double v1;
  String v2;

  MyEnumUpdate({
    required this.v0,
    required this.v1,
    required this.v2,
  });

  MyEnumUpdate.createDefault()
      : v0 = 0.0,
        v1 = 0.0,
        v2 = const StringBuffersFactory().createDefault();
}

class MyEnumUpdateBuffersFactory implements BuffersFactory<MyEnumUpdate> {
  const MyEnumUpdateBuffersFactory();

  @override
  MyEnumUpdate createDefault() => MyEnumUpdate.createDefault();
}
enum MyEnumWithoutPositionsValue {
  option1,
  option2,
  option3,
  option4,
}

class MyEnumWithoutPositions {
  MyEnumWithoutPositionsValue value = MyEnumWithoutPositionsValue.option1;
  MyEnumWithoutPositionsOption1 option1 = MyEnumWithoutPositionsOption1.createDefault();
  MyEnumWithoutPositionsOption2 option2 = MyEnumWithoutPositionsOption2.createDefault();
  MyEnumWithoutPositionsOption3 option3 = const MyEnumWithoutPositionsOption3();
  MyEnumWithoutPositionsOption4 option4 = const MyEnumWithoutPositionsOption4();

  void toOption1(
    int v0,
  ) {
    value = MyEnumWithoutPositionsValue.option1;
    option1.v0 = v0;
  }

  void toOption2({
    required String name,
  }) {
    value = MyEnumWithoutPositionsValue.option2;
    option2.name = name;
  }

  void toOption3() => value = MyEnumWithoutPositionsValue.option3;

  void toOption4() => value = MyEnumWithoutPositionsValue.option4;

  bool isOption1() => value == MyEnumWithoutPositionsValue.option1;
  bool isOption2() => value == MyEnumWithoutPositionsValue.option2;
  bool isOption3() => value == MyEnumWithoutPositionsValue.option3;
  bool isOption4() => value == MyEnumWithoutPositionsValue.option4;

  static MyEnumWithoutPositions createOption1(
    int v0,
  ) {
    final model = MyEnumWithoutPositions();
    model.value = MyEnumWithoutPositionsValue.option1;
    model.option1.v0 = v0;
    return model;
  }

  static MyEnumWithoutPositions createOption2({
    required String name,
  }) {
    final model = MyEnumWithoutPositions();
    model.value = MyEnumWithoutPositionsValue.option2;
    model.option2.name = name;
    return model;
  }

  static MyEnumWithoutPositions createOption3() {
    final model = MyEnumWithoutPositions();
    model.value = MyEnumWithoutPositionsValue.option3;
    return model;
  }

  static MyEnumWithoutPositions createOption4() {
    final model = MyEnumWithoutPositions();
    model.value = MyEnumWithoutPositionsValue.option4;
    return model;
  }
}

class MyEnumWithoutPositionsBuffersFactory implements BuffersFactory<MyEnumWithoutPositions> {
  const MyEnumWithoutPositionsBuffersFactory();

  @override
  MyEnumWithoutPositions createDefault() => MyEnumWithoutPositions();
}

class MyEnumWithoutPositionsOption1 {
  int v0;

  MyEnumWithoutPositionsOption1({
    required this.v0,
  });

  MyEnumWithoutPositionsOption1.createDefault()
      : v0 = 0;
}

class MyEnumWithoutPositionsOption1BuffersFactory implements BuffersFactory<MyEnumWithoutPositionsOption1> {
  const MyEnumWithoutPositionsOption1BuffersFactory();

  @override
  MyEnumWithoutPositionsOption1 createDefault() => MyEnumWithoutPositionsOption1.createDefault();
}

class MyEnumWithoutPositionsOption2 {
  String name;

  MyEnumWithoutPositionsOption2({
    required this.name,
  });

  MyEnumWithoutPositionsOption2.createDefault()
      : name = const StringBuffersFactory().createDefault();
}

class MyEnumWithoutPositionsOption2BuffersFactory implements BuffersFactory<MyEnumWithoutPositionsOption2> {
  const MyEnumWithoutPositionsOption2BuffersFactory();

  @override
  MyEnumWithoutPositionsOption2 createDefault() => MyEnumWithoutPositionsOption2.createDefault();
}

class MyEnumWithoutPositionsOption3 {
  const MyEnumWithoutPositionsOption3();
}

class MyEnumWithoutPositionsOption3BuffersFactory implements BuffersFactory<MyEnumWithoutPositionsOption3> {
  const MyEnumWithoutPositionsOption3BuffersFactory();

  @override
  MyEnumWithoutPositionsOption3 createDefault() => const MyEnumWithoutPositionsOption3();
}

class MyEnumWithoutPositionsOption4 {
  const MyEnumWithoutPositionsOption4();
}

class MyEnumWithoutPositionsOption4BuffersFactory implements BuffersFactory<MyEnumWithoutPositionsOption4> {
  const MyEnumWithoutPositionsOption4BuffersFactory();

  @override
  MyEnumWithoutPositionsOption4 createDefault() => const MyEnumWithoutPositionsOption4();
}
".

Example golden_dart_enum_models_dart :
  check (generate_models) f_enum_tpb f_dart_enum_models_dart = true.
Proof. vm_compute. reflexivity. Qed.

(* test_resources/dart/struct_buffers.dart *)
Definition f_dart_struct_buffers_dart : string :=
"class EmptyEmplaceToBuffers implements EmplaceToBuffers<Empty> {
  const EmptyEmplaceToBuffers();

  @override
  void read(BytesReader reader, Empty model) {
  }

  @override
  void write(BytesWriter writer, Empty model) {
  }

  @override
  void skip(BytesReader reader, int count) {
    for (int i = 0; i < count; i += 1) {
    }
  }
}

class EmptyIntoBuffers implements IntoBuffers<Empty> {
  const EmptyIntoBuffers();

  @override
  Empty read(BytesReader reader) {

    return Empty(
    );
  }

  @override
  void write(BytesWriter writer, Empty model) {
  }

  @override
  void skip(BytesReader reader, int count) {
    for (int i = 0; i < count; i += 1) {
    }
  }
}

class ViewDataEmplaceToBuffers implements EmplaceToBuffers<ViewData> {
  const ViewDataEmplaceToBuffers();

  @override
  void read(BytesReader reader, ViewData model) {
    model.deltaTime = reader.readFloat();
    model.viewWidth = reader.readFloat();
    model.viewHeight = reader.readFloat();
    model.touchStartX = reader.readFloat();
    model.touchStartY = reader.readFloat();
    model.lastTouchX = reader.readFloat();
    model.lastTouchY = reader.readFloat();
    model.touchX = reader.readFloat();
    model.touchY = reader.readFloat();
  }

  @override
  void write(BytesWriter writer, ViewData model) {
    writer.writeFloat(model.deltaTime);
    writer.writeFloat(model.viewWidth);
    writer.writeFloat(model.viewHeight);
    writer.writeFloat(model.touchStartX);
    writer.writeFloat(model.touchStartY);
    writer.writeFloat(model.lastTouchX);
    writer.writeFloat(model.lastTouchY);
    writer.writeFloat(model.touchX);
    writer.writeFloat(model.touchY);
  }

  @override
  void skip(BytesReader reader, int count) {
    for (int i = 0; i < count; i += 1) {
      reader.readFloat();
      reader.readFloat();
      reader.readFloat();
      reader.readFloat();
      reader.readFloat();
      reader.readFloat();
      reader.readFloat();
      reader.readFloat();
      reader.readFloat();
    }
  }
}

class ViewDataIntoBuffers implements IntoBuffers<ViewData> {
  const ViewDataIntoBuffers();

  @override
  ViewData read(BytesReader reader) {
    final deltaTime = reader.readFloat();
    final viewWidth = reader.readFloat();
    final viewHeight = reader.readFloat();
    final touchStartX = reader.readFloat();
    final touchStartY = reader.readFloat();
    final lastTouchX = reader.readFloat();
    final lastTouchY = reader.readFloat();
    final touchX = reader.readFloat();
    final touchY = reader.readFloat();

    return ViewData(
      deltaTime: deltaTime,
      viewWidth: viewWidth,
      viewHeight: viewHeight,
      touchStartX: touchStartX,
      touchStartY: touchStartY,
      lastTouchX: lastTouchX,
      lastTouchY: lastTouchY,
      touchX: touchX,
      touchY: touchY,
    );
  }

  @override
  void write(BytesWriter writer, ViewData model) {
    writer.writeFloat(model.deltaTime);
    writer.writeFloat(model.viewWidth);
    writer.writeFloat(model.viewHeight);
    writer.writeFloat(model.touchStartX);
    writer.writeFloat(model.touchStartY);
    writer.writeFloat(model.lastTouchX);
    writer.writeFloat(model.lastTouchY);
    writer.writeFloat(model.touchX);
    writer.writeFloat(model.touchY);
  }

  @override
  void skip(BytesReader reader, int count) {
    for (int i = 0; i < count; i += 1) {
      reader.readFloat();
      reader.readFloat();
      reader.readFloat();
      reader.readFloat();
      reader.readFloat();
      reader.readFloat();
      reader.readFloat();
      reader.readFloat();
      reader.readFloat();
    }
  }
}

class TestEmplaceToBuffers implements EmplaceToBuffers<Test> {
  const TestEmplaceToBuffers();

  @override
  void read(BytesReader reader, Test model) {
    model.touchX = reader.readFloat();
    model.touchY = reader.readFloat();
    const TouchStatusEmplaceToBuffers().read(reader, model.touchStatus);
  }

  @override
  void write(BytesWriter writer, Test model) {
    writer.writeFloat(model.touchX);
    writer.writeFloat(model.touchY);
    const TouchStatusEmplaceToBuffers().write(writer, model.touchStatus);
  }

  @override
  void skip(BytesReader reader, int count) {
    const TouchStatusEmplaceToBuffers().skip(reader, 1);

    for (int i = 0; i < count; i += 1) {
      reader.readFloat();
      reader.readFloat();
    }
  }
}

class TestIntoBuffers implements IntoBuffers<Test> {
  const TestIntoBuffers();

  @override
  Test read(BytesReader reader) {
    final touchX = reader.readFloat();
    final touchY = reader.readFloat();
    final touchStatus = const TouchStatusIntoBuffers().read(reader);

    return Test(
      touchX: touchX,
      touchY: touchY,
      touchStatus: touchStatus,
    );
  }

  @override
  void write(BytesWriter writer, Test model) {
    writer.writeFloat(model.touchX);
    writer.writeFloat(model.touchY);
    const TouchStatusIntoBuffers().write(writer, model.touchStatus);
  }

  @override
  void skip(BytesReader reader, int count) {
    const TouchStatusIntoBuffers().skip(reader, 1);

    for (int i = 0; i < count; i += 1) {
      reader.readFloat();
      reader.readFloat();
    }
  }
}

class GenericTypeEmplaceToBuffers implements EmplaceToBuffers<GenericType> {
  const GenericTypeEmplaceToBuffers();

  @override
  void read(BytesReader reader, GenericType model) {
    const ListEmplaceToBuffers<Test>(const TestIntoBuffers()).read(reader, model.items);
    const LinearTableEmplaceToBuffers<double, Test>().read(reader, model.table);
  }

  @override
  void write(BytesWriter writer, GenericType model) {
    const ListEmplaceToBuffers<Test>(const TestIntoBuffers()).write(writer, model.items);
    const LinearTableEmplaceToBuffers<double, Test>().write(writer, model.table);
  }

  @override
  void skip(BytesReader reader, int count) {
    for (int i = 0; i < count; i += 1) {
      const ListEmplaceToBuffers<Test>(const TestIntoBuffers()).skip(reader, 1);
      const LinearTableEmplaceToBuffers<double, Test>().skip(reader, 1);
    }
  }
}

class GenericTypeIntoBuffers implements IntoBuffers<GenericType> {
  const GenericTypeIntoBuffers();

  @override
  GenericType read(BytesReader reader) {
    final items = const ListIntoBuffers<Test>(const TestIntoBuffers()).read(reader);
    final table = const LinearTableIntoBuffers<double, Test>().read(reader);

    return GenericType(
      items: items,
      table: table,
    );
  }

  @override
  void write(BytesWriter writer, GenericType model) {
    const ListIntoBuffers<Test>(const TestIntoBuffers()).write(writer, model.items);
    const LinearTableIntoBuffers<double, Test>().write(writer, model.table);
  }

  @override
  void skip(BytesReader reader, int count) {
    for (int i = 0; i < count; i += 1) {
      const ListIntoBuffers<Test>(const TestIntoBuffers()).skip(reader, 1);
      const LinearTableIntoBuffers<double, Test>().skip(reader, 1);
    }
  }
}
".

Example golden_dart_struct_buffers_dart :
  check (generate_buffers) f_struct_tpb f_dart_struct_buffers_dart = true.
Proof. vm_compute. reflexivity. Qed.

(* test_resources/dart/enum_buffers.dart *)
Definition f_dart_enum_buffers_dart : string :=
"class MyEnumIdleEmplaceToBuffers implements EmplaceToBuffers<MyEnumIdle> {
  const MyEnumIdleEmplaceToBuffers();

  @override
  void read(BytesReader reader, MyEnumIdle model) {
  }

  @override
  void write(BytesWriter writer, MyEnumIdle model) {
  }

  @override
  void skip(BytesReader reader, int count) {
    for (int i = 0; i < count; i += 1) {
    }
  }
}

class MyEnumMoveEmplaceToBuffers implements EmplaceToBuffers<MyEnumMove> {
  const MyEnumMoveEmplaceToBuffers();

  @override
  void read(BytesReader reader, MyEnumMove model) {
    model.x = reader.readDouble();
    model.y = reader.readDouble();
  }

  @override
  void write(BytesWriter writer, MyEnumMove model) {
    writer.writeDouble(model.x);
    writer.writeDouble(model.y);
  }

  @override
  void skip(BytesReader reader, int count) {
    for (int i = 0; i < count; i += 1) {
      reader.readDouble();
      reader.readDouble();
    }
  }
}

class MyEnumUpdateEmplaceToBuffers implements EmplaceToBuffers<MyEnumUpdate> {
  const MyEnumUpdateEmplaceToBuffers();

  @override
  void read(BytesReader reader, MyEnumUpdate model) {
    model.v0 = reader.readDouble();
    model.v1 = reader.readDouble();
    model.v2 = const StringIntoBuffers().read(reader);
  }

  @override
  void write(BytesWriter writer, MyEnumUpdate model) {
    writer.writeDouble(model.v0);
    writer.writeDouble(model.v1);
    const StringIntoBuffers().write(writer, model.v2);
  }

  @override
  void skip(BytesReader reader, int count) {
    const StringIntoBuffers().skip(reader, 1);

    for (int i = 0; i < count; i += 1) {
      reader.readDouble();
      reader.readDouble();
    }
  }
}

class MyEnumIntoBuffers implements IntoBuffers<MyEnum> {
  const MyEnumIntoBuffers();

  @override
  MyEnum read(BytesReader reader) {
    final value = reader.readInt32();

    switch (value) {
      case 1:
        final model = MyEnum();
        model.value = MyEnumValue.idle;
        const MyEnumIdleEmplaceToBuffers().read(reader, model.idle);
        return model;

      case 2:
        final model = MyEnum();
        model.value = MyEnumValue.move;
        const MyEnumMoveEmplaceToBuffers().read(reader, model.move);
        return model;

      case 3:
        final model = MyEnum();
        model.value = MyEnumValue.update;
        const MyEnumUpdateEmplaceToBuffers().read(reader, model.update);
        return model;

      default:
        throw StateError('Unsupported enum value: $value');
    }
  }

  @override
  void write(BytesWriter writer, MyEnum model) {
    switch (model.value) {
      case MyEnumValue.idle:
        writer.writeInt32(1);
        const MyEnumIdleEmplaceToBuffers().write(writer, model.idle);
        return;

      case MyEnumValue.move:
        writer.writeInt32(2);
        const MyEnumMoveEmplaceToBuffers().write(writer, model.move);
        return;

      case MyEnumValue.update:
        writer.writeInt32(3);
        const MyEnumUpdateEmplaceToBuffers().write(writer, model.update);
        return;
    }
  }

  @override
  void skip(BytesReader reader, int count) {
    for (int i = 0; i < count; i += 1) {
      final value = reader.readInt32();

      switch (value) {
        case 1:
          const MyEnumIdleEmplaceToBuffers().skip(reader, 1);
          break;

        case 2:
          const MyEnumMoveEmplaceToBuffers().skip(reader, 1);
          break;

        case 3:
          const MyEnumUpdateEmplaceToBuffers().skip(reader, 1);
          break;

        default:
          throw StateError('Unsupported enum value: $value');
      }
    }
  }
}

class MyEnumEmplaceToBuffers implements EmplaceToBuffers<MyEnum> {
  const MyEnumEmplaceToBuffers();

  @override
  void read(BytesReader reader, MyEnum model) {
    final value = reader.readInt32();

    switch (value) {
      case 1:
        model.value = MyEnumValue.idle;
        const MyEnumIdleEmplaceToBuffers().read(reader, model.idle);
        return;

      case 2:
        model.value = MyEnumValue.move;
        const MyEnumMoveEmplaceToBuffers().read(reader, model.move);
        return;

      case 3:
        model.value = MyEnumValue.update;
        const MyEnumUpdateEmplaceToBuffers().read(reader, model.update);
        return;

      default:
        throw StateError('Unsupported enum value: $value');
    }
  }

  @override
  void write(BytesWriter writer, MyEnum model) {
    switch (model.value) {
      case MyEnumValue.idle:
        writer.writeInt32(1);
        const MyEnumIdleEmplaceToBuffers().write(writer, model.idle);
        return;

      case MyEnumValue.move:
        writer.writeInt32(2);
        const MyEnumMoveEmplaceToBuffers().write(writer, model.move);
        return;

      case MyEnumValue.update:
        writer.writeInt32(3);
        const MyEnumUpdateEmplaceToBuffers().write(writer, model.update);
        return;
    }
  }

  @override
  void skip(BytesReader reader, int count) {
    for (int i = 0; i < count; i += 1) {
      final value = reader.readInt32();

      switch (value) {
        case 1:
          const MyEnumIdleEmplaceToBuffers().skip(reader, 1);
          break;

        case 2:
          const MyEnumMoveEmplaceToBuffers().skip(reader, 1);
          break;

        case 3:
          const MyEnumUpdateEmplaceToBuffers().skip(reader, 1);
          break;

        default:
          throw StateError('Unsupported enum value: $value');
      }
    }
  }
}

class MyEnumWithoutPositionsOption1EmplaceToBuffers implements EmplaceToBuffers<MyEnumWithoutPositionsOption1> {
  const MyEnumWithoutPositionsOption1EmplaceToBuffers();

  @override
  void read(BytesReader reader, MyEnumWithoutPositionsOption1 model) {
    model.v0 = reader.readInt64();
  }

  @override
  void write(BytesWriter writer, MyEnumWithoutPositionsOption1 model) {
    writer.writeInt64(model.v0);
  }

  @override
  void skip(BytesReader reader, int count) {
    for (int i = 0; i < count; i += 1) {
      reader.readInt64();
    }
  }
}

class MyEnumWithoutPositionsOption2EmplaceToBuffers implements EmplaceToBuffers<MyEnumWithoutPositionsOption2> {
  const MyEnumWithoutPositionsOption2EmplaceToBuffers();

  @override
  void read(BytesReader reader, MyEnumWithoutPositionsOption2 model) {
    model.name = const StringIntoBuffers().read(reader);
  }

  @override
  void write(BytesWriter writer, MyEnumWithoutPositionsOption2 model) {
    const StringIntoBuffers().write(writer, model.name);
  }

  @override
  void skip(BytesReader reader, int count) {
    const StringIntoBuffers().skip(reader, 1);

    for (int i = 0; i < count; i += 1) {
    }
  }
}

class MyEnumWithoutPositionsOption3EmplaceToBuffers implements EmplaceToBuffers<MyEnumWithoutPositionsOption3> {
  const MyEnumWithoutPositionsOption3EmplaceToBuffers();

  @override
  void read(BytesReader reader, MyEnumWithoutPositionsOption3 model) {
  }

  @override
  void write(BytesWriter writer, MyEnumWithoutPositionsOption3 model) {
  }

  @override
  void skip(BytesReader reader, int count) {
    for (int i = 0; i < count; i += 1) {
    }
  }
}

class MyEnumWithoutPositionsOption4EmplaceToBuffers implements EmplaceToBuffers<MyEnumWithoutPositionsOption4> {
  const MyEnumWithoutPositionsOption4EmplaceToBuffers();

  @override
  void read(BytesReader reader, MyEnumWithoutPositionsOption4 model) {
  }

  @override
  void write(BytesWriter writer, MyEnumWithoutPositionsOption4 model) {
  }

  @override
  void skip(BytesReader reader, int count) {
    for (int i = 0; i < count; i += 1) {
    }
  }
}

class MyEnumWithoutPositionsIntoBuffers implements IntoBuffers<MyEnumWithoutPositions> {
  const MyEnumWithoutPositionsIntoBuffers();

  @override
  MyEnumWithoutPositions read(BytesReader reader) {
    final value = reader.readInt32();

    switch (value) {
      case 0:
        final model = MyEnumWithoutPositions();
        model.value = MyEnumWithoutPositionsValue.option1;
        const MyEnumWithoutPositionsOption1EmplaceToBuffers().read(reader, model.option1);
        return model;

      case 1:
        final model = MyEnumWithoutPositions();
        model.value = MyEnumWithoutPositionsValue.option2;
        const MyEnumWithoutPositionsOption2EmplaceToBuffers().read(reader, model.option2);
        return model;

      case 2:
        final model = MyEnumWithoutPositions();
        model.value = MyEnumWithoutPositionsValue.option3;
        const MyEnumWithoutPositionsOption3EmplaceToBuffers().read(reader, model.option3);
        return model;

      case 3:
        final model = MyEnumWithoutPositions();
        model.value = MyEnumWithoutPositionsValue.option4;
        const MyEnumWithoutPositionsOption4EmplaceToBuffers().read(reader, model.option4);
        return model;

      default:
        throw StateError('Unsupported enum value: $value');
    }
  }

  @override
  void write(BytesWriter writer, MyEnumWithoutPositions model) {
    switch (model.value) {
      case MyEnumWithoutPositionsValue.option1:
        writer.writeInt32(0);
        const MyEnumWithoutPositionsOption1EmplaceToBuffers().write(writer, model.option1);
        return;

      case MyEnumWithoutPositionsValue.option2:
        writer.writeInt32(1);
        const MyEnumWithoutPositionsOption2EmplaceToBuffers().write(writer, model.option2);
        return;

      case MyEnumWithoutPositionsValue.option3:
        writer.writeInt32(2);
        const MyEnumWithoutPositionsOption3EmplaceToBuffers().write(writer, model.option3);
        return;

      case MyEnumWithoutPositionsValue.option4:
        writer.writeInt32(3);
        const MyEnumWithoutPositionsOption4EmplaceToBuffers().write(writer, model.option4);
        return;
    }
  }

  @override
  void skip(BytesReader reader, int count) {
    for (int i = 0; i < count; i += 1) {
      final value = reader.readInt32();

      switch (value) {
        case 0:
          const MyEnumWithoutPositionsOption1EmplaceToBuffers().skip(reader, 1);
          break;

        case 1:
          const MyEnumWithoutPositionsOption2EmplaceToBuffers().skip(reader, 1);
          break;

        case 2:
          const MyEnumWithoutPositionsOption3EmplaceToBuffers().skip(reader, 1);
          break;

        case 3:
          const MyEnumWithoutPositionsOption4EmplaceToBuffers().skip(reader, 1);
          break;

        default:
          throw StateError('Unsupported enum value: $value');
      }
    }
  }
}

class MyEnumWithoutPositionsEmplaceToBuffers implements EmplaceToBuffers<MyEnumWithoutPositions> {
  const MyEnumWithoutPositionsEmplaceToBuffers();

  @override
  void read(BytesReader reader, MyEnumWithoutPositions model) {
    final value = reader.readInt32();

    switch (value) {
      case 0:
        model.value = MyEnumWithoutPositionsValue.option1;
        const MyEnumWithoutPositionsOption1EmplaceToBuffers().read(reader, model.option1);
        return;

      case 1:
        model.value = MyEnumWithoutPositionsValue.option2;
        const MyEnumWithoutPositionsOption2EmplaceToBuffers().read(reader, model.option2);
        return;

      case 2:
        model.value = MyEnumWithoutPositionsValue.option3;
        const MyEnumWithoutPositionsOption3EmplaceToBuffers().read(reader, model.option3);
        return;

      case 3:
        model.value = MyEnumWithoutPositionsValue.option4;
        const MyEnumWithoutPositionsOption4EmplaceToBuffers().read(reader, model.option4);
        return;

      default:
        throw StateError('Unsupported enum value: $value');
    }
  }

  @override
  void write(BytesWriter writer, MyEnumWithoutPositions model) {
    switch (model.value) {
      case MyEnumWithoutPositionsValue.option1:
        writer.writeInt32(0);
        const MyEnumWithoutPositionsOption1EmplaceToBuffers().write(writer, model.option1);
        return;

      case MyEnumWithoutPositionsValue.option2:
        writer.writeInt32(1);
        const MyEnumWithoutPositionsOption2EmplaceToBuffers().write(writer, model.option2);
        return;

      case MyEnumWithoutPositionsValue.option3:
        writer.writeInt32(2);
        const MyEnumWithoutPositionsOption3EmplaceToBuffers().write(writer, model.option3);
        return;

      case MyEnumWithoutPositionsValue.option4:
        writer.writeInt32(3);
        const MyEnumWithoutPositionsOption4EmplaceToBuffers().write(writer, model.option4);
        return;
    }
  }

  @override
  void skip(BytesReader reader, int count) {
    for (int i = 0; i < count; i += 1) {
      final value = reader.readInt32();

      switch (value) {
        case 0:
          const MyEnumWithoutPositionsOption1EmplaceToBuffers().skip(reader, 1);
          break;

        case 1:
          const MyEnumWithoutPositionsOption2EmplaceToBuffers().skip(reader, 1);
          break;

        case 2:
          const MyEnumWithoutPositionsOption3EmplaceToBuffers().skip(reader, 1);
          break;

        case 3:
          const MyEnumWithoutPositionsOption4EmplaceToBuffers().skip(reader, 1);
          break;

        default:
          throw StateError('Unsupported enum value: $value');
      }
    }
  }
}
".

Example golden_dart_enum_buffers_dart :
  check (generate_buffers) f_enum_tpb f_dart_enum_buffers_dart = true.
Proof. vm_compute. reflexivity. Qed.

(* test_resources/rpc_sync_methods.tpb *)
Definition f_rpc_sync_methods_tpb : string :=
"#[id = ""4de616f8-12c5-4d2c-8d48-9c5fb038991f""]
#[namespace = ""examples_sync""]

fn print_hello_world();

fn hello_world() -> String;

fn say_hello(name: String) -> String;

fn sum(a: i32, b: f32, c: f64) -> f64;
".

(* test_resources/dart/rpc_sync_methods.dart *)
Definition f_dart_rpc_sync_methods_dart : string :=
"class ExamplesSyncRpcClient {
  ExamplesSyncRpcClient(this._scheduler);

  final TechPawsRuntimeRpcScheduler _scheduler;
  static const _scopeId = '4de616f8-12c5-4d2c-8d48-9c5fb038991f';

  void disconnect() {
  }

  void printHelloWorld() {
    _scheduler.syncWrite(
      _scopeId,
      0,
      TechPawsRuntimeRpcMethodBuffer.server,
      (writer) {
        writer.writeInt8(TechPawsRpcBufferStatus.hasData.value);
      },
    );

    _scheduler.loopSyncGroup();

  }

  String helloWorld() {
    _scheduler.syncWrite(
      _scopeId,
      1,
      TechPawsRuntimeRpcMethodBuffer.server,
      (writer) {
        writer.writeInt8(TechPawsRpcBufferStatus.hasData.value);
      },
    );

    _scheduler.loopSyncGroup();

    final result = _scheduler.syncRead<String>(
      _scopeId,
      1,
      TechPawsRuntimeRpcMethodBuffer.client,
      (reader) {
        final status = reader.readInt8();

        if (status != TechPawsRpcBufferStatus.hasData.value) {
          throw StateError('No data');
        }

        return const StringIntoBuffers().read(reader);
      },
    );

    return result;
  }

  String sayHello({
    required String name,
  }) {
    _scheduler.syncWrite(
      _scopeId,
      2,
      TechPawsRuntimeRpcMethodBuffer.server,
      (writer) {
        writer.writeInt8(TechPawsRpcBufferStatus.hasData.value);
        const StringIntoBuffers().write(writer, name);
      },
    );

    _scheduler.loopSyncGroup();

    final result = _scheduler.syncRead<String>(
      _scopeId,
      2,
      TechPawsRuntimeRpcMethodBuffer.client,
      (reader) {
        final status = reader.readInt8();

        if (status != TechPawsRpcBufferStatus.hasData.value) {
          throw StateError('No data');
        }

        return const StringIntoBuffers().read(reader);
      },
    );

    return result;
  }

  double sum({
    required int a,
    required double b,
    required double c,
  }) {
    _scheduler.syncWrite(
      _scopeId,
      3,
      TechPawsRuntimeRpcMethodBuffer.server,
      (writer) {
        writer.writeInt8(TechPawsRpcBufferStatus.hasData.value);
        writer.writeInt32(a);
        writer.writeFloat(b);
        writer.writeDouble(c);
      },
    );

    _scheduler.loopSyncGroup();

    final result = _scheduler.syncRead<double>(
      _scopeId,
      3,
      TechPawsRuntimeRpcMethodBuffer.client,
      (reader) {
        final status = reader.readInt8();

        if (status != TechPawsRpcBufferStatus.hasData.value) {
          throw StateError('No data');
        }

        return reader.readDouble();
      },
    );

    return result;
  }
}
".

Example golden_dart_rpc_sync_methods_dart :
  check (generate_rpc) f_rpc_sync_methods_tpb f_dart_rpc_sync_methods_dart = true.
Proof. vm_compute. reflexivity. Qed.

(* test_resources/rpc_async_methods.tpb *)
Definition f_rpc_async_methods_tpb : string :=
"#[id = ""106c2228-ff3b-45c5-8a55-db9c0537f275""]
#[namespace = ""examples_async""]

async fn print_hello_world();

async fn hello_world() -> String;

async fn say_hello(name: String) -> String;

async fn sum(a: i32, b: f32, c: f64) -> f64;
".

(* test_resources/dart/rpc_async_methods.dart *)
Definition f_dart_rpc_async_methods_dart : string :=
"class ExamplesAsyncRpcClient {
  ExamplesAsyncRpcClient(this._scheduler) {
    _connectPrintHelloWorld();
    _connectHelloWorld();
    _connectSayHello();
    _connectSum();
  }

  final TechPawsRuntimeRpcScheduler _scheduler;
  static const _scopeId = '106c2228-ff3b-45c5-8a55-db9c0537f275';

  int _lastPrintHelloWorldMethodId = 0;
  final _printHelloWorldCompleters = <int, Completer<void>>{};
  late final TechPawsRuntimeRpcReadTask _readPrintHelloWorldTask;

  int _lastHelloWorldMethodId = 0;
  final _helloWorldCompleters = <int, Completer<String>>{};
  late final TechPawsRuntimeRpcReadTask _readHelloWorldTask;

  int _lastSayHelloMethodId = 0;
  final _sayHelloCompleters = <int, Completer<String>>{};
  late final TechPawsRuntimeRpcReadTask _readSayHelloTask;

  int _lastSumMethodId = 0;
  final _sumCompleters = <int, Completer<double>>{};
  late final TechPawsRuntimeRpcReadTask _readSumTask;

  void disconnect() {
    _scheduler.disconnect(_readPrintHelloWorldTask);
    _scheduler.disconnect(_readHelloWorldTask);
    _scheduler.disconnect(_readSayHelloTask);
    _scheduler.disconnect(_readSumTask);
  }

  void _connectPrintHelloWorld() {
    _readPrintHelloWorldTask = _scheduler.read(
      _scopeId,
      0,
      TechPawsRuntimeRpcMethodBuffer.client,
      (reader) {
        final status = reader.readInt8();

        if (status != TechPawsRpcBufferStatus.hasData.value) {
          return;
        }

        final methodId = reader.readInt64();

        _printHelloWorldCompleters[methodId]?.complete();
        _printHelloWorldCompleters.remove(methodId);
      },
    );
  }

  Future<void> printHelloWorld() {
    final methodId = _lastPrintHelloWorldMethodId;
    _lastPrintHelloWorldMethodId = rotateMethodId(_lastPrintHelloWorldMethodId);

    _scheduler.write(
      _scopeId,
      0,
      TechPawsRuntimeRpcMethodBuffer.server,
      (writer) {
        writer.writeInt8(TechPawsRpcBufferStatus.hasData.value);
        writer.writeInt64(methodId);
      },
    );

    final completer = Completer<void>();
    _printHelloWorldCompleters[methodId] = completer;

    return completer.future;
  }

  void _connectHelloWorld() {
    _readHelloWorldTask = _scheduler.read(
      _scopeId,
      1,
      TechPawsRuntimeRpcMethodBuffer.client,
      (reader) {
        final status = reader.readInt8();

        if (status != TechPawsRpcBufferStatus.hasData.value) {
          return;
        }

        final methodId = reader.readInt64();
        final result = const StringIntoBuffers().read(reader);

        _helloWorldCompleters[methodId]?.complete(result);
        _helloWorldCompleters.remove(methodId);
      },
    );
  }

  Future<String> helloWorld() {
    final methodId = _lastHelloWorldMethodId;
    _lastHelloWorldMethodId = rotateMethodId(_lastHelloWorldMethodId);

    _scheduler.write(
      _scopeId,
      1,
      TechPawsRuntimeRpcMethodBuffer.server,
      (writer) {
        writer.writeInt8(TechPawsRpcBufferStatus.hasData.value);
        writer.writeInt64(methodId);
      },
    );

    final completer = Completer<String>();
    _helloWorldCompleters[methodId] = completer;

    return completer.future;
  }

  void _connectSayHello() {
    _readSayHelloTask = _scheduler.read(
      _scopeId,
      2,
      TechPawsRuntimeRpcMethodBuffer.client,
      (reader) {
        final status = reader.readInt8();

        if (status != TechPawsRpcBufferStatus.hasData.value) {
          return;
        }

        final methodId = reader.readInt64();
        final result = const StringIntoBuffers().read(reader);

        _sayHelloCompleters[methodId]?.complete(result);
        _sayHelloCompleters.remove(methodId);
      },
    );
  }

  Future<String> sayHello({
    required String name,
  }) {
    final methodId = _lastSayHelloMethodId;
    _lastSayHelloMethodId = rotateMethodId(_lastSayHelloMethodId);

    _scheduler.write(
      _scopeId,
      2,
      TechPawsRuntimeRpcMethodBuffer.server,
      (writer) {
        writer.writeInt8(TechPawsRpcBufferStatus.hasData.value);
        writer.writeInt64(methodId);
        const StringIntoBuffers().write(writer, name);
      },
    );

    final completer = Completer<String>();
    _sayHelloCompleters[methodId] = completer;

    return completer.future;
  }

  void _connectSum() {
    _readSumTask = _scheduler.read(
      _scopeId,
      3,
      TechPawsRuntimeRpcMethodBuffer.client,
      (reader) {
        final status = reader.readInt8();

        if (status != TechPawsRpcBufferStatus.hasData.value) {
          return;
        }

        final methodId = reader.readInt64();
        final result = reader.readDouble();

        _sumCompleters[methodId]?.complete(result);
        _sumCompleters.remove(methodId);
      },
    );
  }

  Future<double> sum({
    required int a,
    required double b,
    required double c,
  }) {
    final methodId = _lastSumMethodId;
    _lastSumMethodId = rotateMethodId(_lastSumMethodId);

    _scheduler.write(
      _scopeId,
      3,
      TechPawsRuntimeRpcMethodBuffer.server,
      (writer) {
        writer.writeInt8(TechPawsRpcBufferStatus.hasData.value);
        writer.writeInt64(methodId);
        writer.writeInt32(a);
        writer.writeFloat(b);
        writer.writeDouble(c);
      },
    );

    final completer = Completer<double>();
    _sumCompleters[methodId] = completer;

    return completer.future;
  }
}
".

Example golden_dart_rpc_async_methods_dart :
  check (generate_rpc) f_rpc_async_methods_tpb f_dart_rpc_async_methods_dart = true.
Proof. vm_compute. reflexivity. Qed.

(* test_resources/rpc_read_methods.tpb *)
Definition f_rpc_read_methods_tpb : string :=
"#[id = ""723ca727-6a66-43a7-bfcc-b8ad94eac9be""]
#[namespace = ""examples_read""]

read counter;

read theme -> String;

async read async_trigger;

async read async_hello_read -> String;
".

(* test_resources/dart/rpc_read_methods.dart *)
Definition f_dart_rpc_read_methods_dart : string :=
"class ExamplesReadRpcClient {
  ExamplesReadRpcClient(this._scheduler) {
    _connectCounter();
    _connectTheme();
    _connectAsyncTrigger();
    _connectAsyncHelloRead();
  }

  final TechPawsRuntimeRpcScheduler _scheduler;
  static const _scopeId = '723ca727-6a66-43a7-bfcc-b8ad94eac9be';

  late final TechPawsRuntimeRpcReadTask _readCounterTask;
  final _readCounterStreamController = StreamController<void>.broadcast();

  late final TechPawsRuntimeRpcReadTask _readThemeTask;
  final _readThemeStreamController = StreamController<String>.broadcast();

  late final TechPawsRuntimeRpcReadTask _readAsyncTriggerTask;
  final _readAsyncTriggerStreamController = StreamController<void>.broadcast();

  late final TechPawsRuntimeRpcReadTask _readAsyncHelloReadTask;
  final _readAsyncHelloReadStreamController = StreamController<String>.broadcast();

  Stream<void> get counter => _readCounterStreamController.stream;

  Stream<String> get theme => _readThemeStreamController.stream;

  Stream<void> get asyncTrigger => _readAsyncTriggerStreamController.stream;

  Stream<String> get asyncHelloRead => _readAsyncHelloReadStreamController.stream;

  void disconnect() {
    _scheduler.disconnect(_readCounterTask);
    _readCounterStreamController.close();
    _scheduler.disconnect(_readThemeTask);
    _readThemeStreamController.close();
    _scheduler.disconnect(_readAsyncTriggerTask);
    _readAsyncTriggerStreamController.close();
    _scheduler.disconnect(_readAsyncHelloReadTask);
    _readAsyncHelloReadStreamController.close();
  }

  void _connectCounter() {
    _readCounterTask = _scheduler.read(
      _scopeId,
      0,
      TechPawsRuntimeRpcMethodBuffer.client,
      (reader) {
        final status = reader.readInt8();

        if (status != TechPawsRpcBufferStatus.hasData.value) {
          return;
        }

        _readCounterStreamController.add(null);
      },
    );
  }

  void _connectTheme() {
    _readThemeTask = _scheduler.read(
      _scopeId,
      1,
      TechPawsRuntimeRpcMethodBuffer.client,
      (reader) {
        final status = reader.readInt8();

        if (status != TechPawsRpcBufferStatus.hasData.value) {
          return;
        }

        final result = const StringIntoBuffers().read(reader);
        _readThemeStreamController.add(result);
      },
    );
  }

  void _connectAsyncTrigger() {
    _readAsyncTriggerTask = _scheduler.read(
      _scopeId,
      2,
      TechPawsRuntimeRpcMethodBuffer.client,
      (reader) {
        final status = reader.readInt8();

        if (status != TechPawsRpcBufferStatus.hasData.value) {
          return;
        }

        _readAsyncTriggerStreamController.add(null);
      },
    );
  }

  void _connectAsyncHelloRead() {
    _readAsyncHelloReadTask = _scheduler.read(
      _scopeId,
      3,
      TechPawsRuntimeRpcMethodBuffer.client,
      (reader) {
        final status = reader.readInt8();

        if (status != TechPawsRpcBufferStatus.hasData.value) {
          return;
        }

        final result = const StringIntoBuffers().read(reader);
        _readAsyncHelloReadStreamController.add(result);
      },
    );
  }
}
".

Example golden_dart_rpc_read_methods_dart :
  check (generate_rpc) f_rpc_read_methods_tpb f_dart_rpc_read_methods_dart = true.
Proof. vm_compute. reflexivity. Qed.

(* test_resources/rpc_methods.tpb *)
Definition f_rpc_methods_tpb : string :=
"#[id = ""4de616f8-12c5-4d2c-8d48-9c5fb038991f""]
#[namespace = ""test""]

fn print_hello_world();

fn hello_world() -> String;

fn say_hello(name: String) -> String;

fn sum(a: i32, b: f32, c: f64);

async fn print_hello_world_async();

async fn hello_world_async() -> String;

async fn say_hello_async(name: String) -> String;

async fn sum_async(a: i32, b: f32, c: f64) -> f64;

read trigger;

read theme -> Theme;

async read trigger_async;

async read theme_async -> Theme;
".

(* test_resources/dart/rpc_methods.dart *)
Definition f_dart_rpc_methods_dart : string :=
"class TestRpcClient {
  TestRpcClient(this._scheduler) {
    _connectPrintHelloWorldAsync();
    _connectHelloWorldAsync();
    _connectSayHelloAsync();
    _connectSumAsync();
    _connectTrigger();
    _connectTheme();
    _connectTriggerAsync();
    _connectThemeAsync();
  }

  final TechPawsRuntimeRpcScheduler _scheduler;
  static const _scopeId = '4de616f8-12c5-4d2c-8d48-9c5fb038991f';

  int _lastPrintHelloWorldAsyncMethodId = 0;
  final _printHelloWorldAsyncCompleters = <int, Completer<void>>{};
  late final TechPawsRuntimeRpcReadTask _readPrintHelloWorldAsyncTask;

  int _lastHelloWorldAsyncMethodId = 0;
  final _helloWorldAsyncCompleters = <int, Completer<String>>{};
  late final TechPawsRuntimeRpcReadTask _readHelloWorldAsyncTask;

  int _lastSayHelloAsyncMethodId = 0;
  final _sayHelloAsyncCompleters = <int, Completer<String>>{};
  late final TechPawsRuntimeRpcReadTask _readSayHelloAsyncTask;

  int _lastSumAsyncMethodId = 0;
  final _sumAsyncCompleters = <int, Completer<double>>{};
  late final TechPawsRuntimeRpcReadTask _readSumAsyncTask;

  late final TechPawsRuntimeRpcReadTask _readTriggerTask;
  final _readTriggerStreamController = StreamController<void>.broadcast();

  late final TechPawsRuntimeRpcReadTask _readThemeTask;
  final _readThemeStreamController = StreamController<Theme>.broadcast();

  late final TechPawsRuntimeRpcReadTask _readTriggerAsyncTask;
  final _readTriggerAsyncStreamController = StreamController<void>.broadcast();

  late final TechPawsRuntimeRpcReadTask _readThemeAsyncTask;
  final _readThemeAsyncStreamController = StreamController<Theme>.broadcast();

  Stream<void> get trigger => _readTriggerStreamController.stream;

  Stream<Theme> get theme => _readThemeStreamController.stream;

  Stream<void> get triggerAsync => _readTriggerAsyncStreamController.stream;

  Stream<Theme> get themeAsync => _readThemeAsyncStreamController.stream;

  void disconnect() {
    _scheduler.disconnect(_readPrintHelloWorldAsyncTask);
    _scheduler.disconnect(_readHelloWorldAsyncTask);
    _scheduler.disconnect(_readSayHelloAsyncTask);
    _scheduler.disconnect(_readSumAsyncTask);
    _scheduler.disconnect(_readTriggerTask);
    _readTriggerStreamController.close();
    _scheduler.disconnect(_readThemeTask);
    _readThemeStreamController.close();
    _scheduler.disconnect(_readTriggerAsyncTask);
    _readTriggerAsyncStreamController.close();
    _scheduler.disconnect(_readThemeAsyncTask);
    _readThemeAsyncStreamController.close();
  }

  void printHelloWorld() {
    _scheduler.syncWrite(
      _scopeId,
      0,
      TechPawsRuntimeRpcMethodBuffer.server,
      (writer) {
        writer.writeInt8(TechPawsRpcBufferStatus.hasData.value);
      },
    );

    _scheduler.loopSyncGroup();

  }

  String helloWorld() {
    _scheduler.syncWrite(
      _scopeId,
      1,
      TechPawsRuntimeRpcMethodBuffer.server,
      (writer) {
        writer.writeInt8(TechPawsRpcBufferStatus.hasData.value);
      },
    );

    _scheduler.loopSyncGroup();

    final result = _scheduler.syncRead<String>(
      _scopeId,
      1,
      TechPawsRuntimeRpcMethodBuffer.client,
      (reader) {
        final status = reader.readInt8();

        if (status != TechPawsRpcBufferStatus.hasData.value) {
          throw StateError('No data');
        }

        return const StringIntoBuffers().read(reader);
      },
    );

    return result;
  }

  String sayHello({
    required String name,
  }) {
    _scheduler.syncWrite(
      _scopeId,
      2,
      TechPawsRuntimeRpcMethodBuffer.server,
      (writer) {
        writer.writeInt8(TechPawsRpcBufferStatus.hasData.value);
        const StringIntoBuffers().write(writer, name);
      },
    );

    _scheduler.loopSyncGroup();

    final result = _scheduler.syncRead<String>(
      _scopeId,
      2,
      TechPawsRuntimeRpcMethodBuffer.client,
      (reader) {
        final status = reader.readInt8();

        if (status != TechPawsRpcBufferStatus.hasData.value) {
          throw StateError('No data');
        }

        return const StringIntoBuffers().read(reader);
      },
    );

    return result;
  }

  void sum({
    required int a,
    required double b,
    required double c,
  }) {
    _scheduler.syncWrite(
      _scopeId,
      3,
      TechPawsRuntimeRpcMethodBuffer.server,
      (writer) {
        writer.writeInt8(TechPawsRpcBufferStatus.hasData.value);
        writer.writeInt32(a);
        writer.writeFloat(b);
        writer.writeDouble(c);
      },
    );

    _scheduler.loopSyncGroup();

  }

  void _connectPrintHelloWorldAsync() {
    _readPrintHelloWorldAsyncTask = _scheduler.read(
      _scopeId,
      4,
      TechPawsRuntimeRpcMethodBuffer.client,
      (reader) {
        final status = reader.readInt8();

        if (status != TechPawsRpcBufferStatus.hasData.value) {
          return;
        }

        final methodId = reader.readInt64();

        _printHelloWorldAsyncCompleters[methodId]?.complete();
        _printHelloWorldAsyncCompleters.remove(methodId);
      },
    );
  }

  Future<void> printHelloWorldAsync() {
    final methodId = _lastPrintHelloWorldAsyncMethodId;
    _lastPrintHelloWorldAsyncMethodId = rotateMethodId(_lastPrintHelloWorldAsyncMethodId);

    _scheduler.write(
      _scopeId,
      4,
      TechPawsRuntimeRpcMethodBuffer.server,
      (writer) {
        writer.writeInt8(TechPawsRpcBufferStatus.hasData.value);
        writer.writeInt64(methodId);
      },
    );

    final completer = Completer<void>();
    _printHelloWorldAsyncCompleters[methodId] = completer;

    return completer.future;
  }

  void _connectHelloWorldAsync() {
    _readHelloWorldAsyncTask = _scheduler.read(
      _scopeId,
      5,
      TechPawsRuntimeRpcMethodBuffer.client,
      (reader) {
        final status = reader.readInt8();

        if (status != TechPawsRpcBufferStatus.hasData.value) {
          return;
        }

        final methodId = reader.readInt64();
        final result = const StringIntoBuffers().read(reader);

        _helloWorldAsyncCompleters[methodId]?.complete(result);
        _helloWorldAsyncCompleters.remove(methodId);
      },
    );
  }

  Future<String> helloWorldAsync() {
    final methodId = _lastHelloWorldAsyncMethodId;
    _lastHelloWorldAsyncMethodId = rotateMethodId(_lastHelloWorldAsyncMethodId);

    _scheduler.write(
      _scopeId,
      5,
      TechPawsRuntimeRpcMethodBuffer.server,
      (writer) {
        writer.writeInt8(TechPawsRpcBufferStatus.hasData.value);
        writer.writeInt64(methodId);
      },
    );

    final completer = Completer<String>();
    _helloWorldAsyncCompleters[methodId] = completer;

    return completer.future;
  }

  void _connectSayHelloAsync() {
    _readSayHelloAsyncTask = _scheduler.read(
      _scopeId,
      6,
      TechPawsRuntimeRpcMethodBuffer.client,
      (reader) {
        final status = reader.readInt8();

        if (status != TechPawsRpcBufferStatus.hasData.value) {
          return;
        }

        final methodId = reader.readInt64();
        final result = const StringIntoBuffers().read(reader);

        _sayHelloAsyncCompleters[methodId]?.complete(result);
        _sayHelloAsyncCompleters.remove(methodId);
      },
    );
  }

  Future<String> sayHelloAsync({
    required String name,
  }) {
    final methodId = _lastSayHelloAsyncMethodId;
    _lastSayHelloAsyncMethodId = rotateMethodId(_lastSayHelloAsyncMethodId);

    _scheduler.write(
      _scopeId,
      6,
      TechPawsRuntimeRpcMethodBuffer.server,
      (writer) {
        writer.writeInt8(TechPawsRpcBufferStatus.hasData.value);
        writer.writeInt64(methodId);
        const StringIntoBuffers().write(writer, name);
      },
    );

    final completer = Completer<String>();
    _sayHelloAsyncCompleters[methodId] = completer;

    return completer.future;
  }

  void _connectSumAsync() {
    _readSumAsyncTask = _scheduler.read(
      _scopeId,
      7,
      TechPawsRuntimeRpcMethodBuffer.client,
      (reader) {
        final status = reader.readInt8();

        if (status != TechPawsRpcBufferStatus.hasData.value) {
          return;
        }

        final methodId = reader.readInt64();
        final result = reader.readDouble();

        _sumAsyncCompleters[methodId]?.complete(result);
        _sumAsyncCompleters.remove(methodId);
      },
    );
  }

  Future<double> sumAsync({
    required int a,
    required double b,
    required double c,
  }) {
    final methodId = _lastSumAsyncMethodId;
    _lastSumAsyncMethodId = rotateMethodId(_lastSumAsyncMethodId);

    _scheduler.write(
      _scopeId,
      7,
      TechPawsRuntimeRpcMethodBuffer.server,
      (writer) {
        writer.writeInt8(TechPawsRpcBufferStatus.hasData.value);
        writer.writeInt64(methodId);
        writer.writeInt32(a);
        writer.writeFloat(b);
        writer.writeDouble(c);
      },
    );

    final completer = Completer<double>();
    _sumAsyncCompleters[methodId] = completer;

    return completer.future;
  }

  void _connectTrigger() {
    _readTriggerTask = _scheduler.read(
      _scopeId,
      8,
      TechPawsRuntimeRpcMethodBuffer.client,
      (reader) {
        final status = reader.readInt8();

        if (status != TechPawsRpcBufferStatus.hasData.value) {
          return;
        }

        _readTriggerStreamController.add(null);
      },
    );
  }

  void _connectTheme() {
    _readThemeTask = _scheduler.read(
      _scopeId,
      9,
      TechPawsRuntimeRpcMethodBuffer.client,
      (reader) {
        final status = reader.readInt8();

        if (status != TechPawsRpcBufferStatus.hasData.value) {
          return;
        }

        final result = const ThemeIntoBuffers().read(reader);
        _readThemeStreamController.add(result);
      },
    );
  }

  void _connectTriggerAsync() {
    _readTriggerAsyncTask = _scheduler.read(
      _scopeId,
      10,
      TechPawsRuntimeRpcMethodBuffer.client,
      (reader) {
        final status = reader.readInt8();

        if (status != TechPawsRpcBufferStatus.hasData.value) {
          return;
        }

        _readTriggerAsyncStreamController.add(null);
      },
    );
  }

  void _connectThemeAsync() {
    _readThemeAsyncTask = _scheduler.read(
      _scopeId,
      11,
      TechPawsRuntimeRpcMethodBuffer.client,
      (reader) {
        final status = reader.readInt8();

        if (status != TechPawsRpcBufferStatus.hasData.value) {
          return;
        }

        final result = const ThemeIntoBuffers().read(reader);
        _readThemeAsyncStreamController.add(result);
      },
    );
  }
}
".

Example golden_dart_rpc_methods_dart :
  check (generate_rpc) f_rpc_methods_tpb f_dart_rpc_methods_dart = true.
Proof. vm_compute. reflexivity. Qed.

(* test_resources/consts.tpb *)
Definition f_consts_tpb : string :=
"const commands {
    DRAW_LINES: u64 = 0x0002_0001;
    DRAW_PATH: u64 = 0x0002_0002;
    DRAW_QUADS: u64 = 0x0002_0003;
    DRAW_CENTERED_QUADS: u64 = 0x0002_0004;
    DRAW_TEXTS: u64 = 0x0002_0005;
    SET_COLOR_PIPELINE: u64 = 0x0002_0006;
    SET_TEXTURE_PIPELINE: u64 = 0x0002_0007;
    DRAW_CIRCLES: u64 = 0x0002_0008;
    DRAW_HOLLOW_CIRCLES: u64 = 0x0002_0009;
}

const addr {
    SOME_VALUE: String = ""Hello World!"";

    const groups {
        MAIN: GroupAddress = 0;
        MAIN_RENDER: GroupAddress = 1;
        RPC: GroupAddress = 2;
        RPC_SYNC: GroupAddress = 3;
        RPC_READ: GroupAddress = 4;
    }

    DELTA_TIME: f64 = 16.6;
    FLAG: bool = true;

    const commands_buffers {
        WIN1_MAIN_RENDER: CommandsBufferAddress = 0;
    }
}
".

(* test_resources/dart/consts.dart *)
Definition f_dart_consts_dart : string :=
"const commands = _Commands();
const addr = _Addr();

class _Commands {
  const _Commands();

  final int drawLines = 131073;
  final int drawPath = 131074;
  final int drawQuads = 131075;
  final int drawCenteredQuads = 131076;
  final int drawTexts = 131077;
  final int setColorPipeline = 131078;
  final int setTexturePipeline = 131079;
  final int drawCircles = 131080;
  final int drawHollowCircles = 131081;
}

class _Addr {
  const _Addr();

  final String someValue = ""Hello World!"";
  final groups = const _AddrGroups();
  final double deltaTime = 16.6;
  final bool flag = true;
  final commandsBuffers = const _AddrCommandsBuffers();
}

class _AddrGroups {
  const _AddrGroups();

  final int main = 0;
  final int mainRender = 1;
  final int rpc = 2;
  final int rpcSync = 3;
  final int rpcRead = 4;
}

class _AddrCommandsBuffers {
  const _AddrCommandsBuffers();

  final int win1MainRender = 0;
}
".

Example golden_dart_consts_dart :
  check (fun ast => Ok (generate_consts ast)) f_consts_tpb f_dart_consts_dart = true.
Proof. vm_compute. reflexivity. Qed.
