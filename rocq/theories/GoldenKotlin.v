(** Conformance tests, not proofs: the model reproduces the expected outputs stored in
    /repo/test_resources, from the inputs stored there, exactly as the unit tests of
    src/kotlin/generator.rs:259-424 do.  The texts are copies of the files named in the comments. *)
Require Import Coq.Strings.String Coq.Lists.List.
Require Import Verif.Base Verif.Ast Verif.Lexer Verif.Parser Verif.KotlinGen.
Local Open Scope string_scope.

Definition check (gen : list ast_node -> res string) (src expected : string) : bool :=
  match compile_front src with
  | Ok ast => match gen ast with Ok s => String.eqb s expected | _ => false end
  | _ => false
  end.

(* test_resources/consts.tpb *)
Definition f_consts_tpb : string :=
"const commands {
    DRAW_LINES: u64 = 0x0002_0001;
    DRAW_PATH: u64 = 0x0002_0002;
    DRAW_QUADS: u64 = 0x0002_0003;
    DRAW_CENTERED_QUADS: u64 = 0x0002_0004;
    DRAW_TEXTS: u64 = 0x0002_0005;
    SET_COLOR_PIPELINE: u64 = 0x0002_0006;
    SET_TEXTURE_PIPELINE: u64 = 0x0002_0007;
    DRAW_CIRCLES: u64 = 0x0002_0008;
    DRAW_HOLLOW_CIRCLES: u64 = 0x0002_0009;
}

const addr {
    SOME_VALUE: String = ""Hello World!"";

    const groups {
        MAIN: GroupAddress = 0;
        MAIN_RENDER: GroupAddress = 1;
        RPC: GroupAddress = 2;
        RPC_SYNC: GroupAddress = 3;
        RPC_READ: GroupAddress = 4;
    }

    DELTA_TIME: f64 = 16.6;
    FLAG: bool = true;

    const commands_buffers {
        WIN1_MAIN_RENDER: CommandsBufferAddress = 0;
    }
}
".

(* test_resources/kotlin/consts.kt *)
Definition f_kotlin_consts_kt : string :=
"object Commands {
    const val DRAW_LINES: ULong = 131073UL
    const val DRAW_PATH: ULong = 131074UL
    const val DRAW_QUADS: ULong = 131075UL
    const val DRAW_CENTERED_QUADS: ULong = 131076UL
    const val DRAW_TEXTS: ULong = 131077UL
    const val SET_COLOR_PIPELINE: ULong = 131078UL
    const val SET_TEXTURE_PIPELINE: ULong = 131079UL
    const val DRAW_CIRCLES: ULong = 131080UL
    const val DRAW_HOLLOW_CIRCLES: ULong = 131081UL
}

object Addr {
    const val SOME_VALUE: String = ""Hello World!""

    object Groups {
        const val MAIN: ULong = 0UL
        const val MAIN_RENDER: ULong = 1UL
        const val RPC: ULong = 2UL
        const val RPC_SYNC: ULong = 3UL
        const val RPC_READ: ULong = 4UL
    }

    const val DELTA_TIME: Double = 16.6
    const val FLAG: Boolean = true

    object CommandsBuffers {
        const val WIN1_MAIN_RENDER: ULong = 0UL
    }
}
".

Example golden_kotlin_consts_kt :
  check (fun ast => stringify_tokens (generate_consts ast)) f_consts_tpb f_kotlin_consts_kt = true.
Proof. vm_compute. reflexivity. Qed.

(* test_resources/struct_empty.tpb *)
Definition f_struct_empty_tpb : string :=
"struct Empty;
".

(* test_resources/kotlin/struct_empty.kt *)
Definition f_kotlin_struct_empty_kt : string :=
"class Empty() {
    companion object {
        fun createDefault(): Empty = Empty()
    }
}
".

Example golden_kotlin_struct_empty_kt :
  check (fun ast => let* t := generate_models ast in stringify_tokens t) f_struct_empty_tpb f_kotlin_struct_empty_kt = true.
Proof. vm_compute. reflexivity. Qed.

(* test_resources/struct_basic.tpb *)
Definition f_struct_basic_tpb : string :=
"struct ViewData {
    delta_time: f32,
    view_width: f32,
    view_height: f32,
    touch_start_x: f32,
    touch_start_y: f32,
    last_touch_x: f32,
    last_touch_y: f32,
    touch_x: f32,
    touch_y: f32,
}
".

(* test_resources/kotlin/struct_basic.kt *)
Definition f_kotlin_struct_basic_kt : string :=
"data class ViewData(
    val deltaTime: Float,
    val viewWidth: Float,
    val viewHeight: Float,
    val touchStartX: Float,
    val touchStartY: Float,
    val lastTouchX: Float,
    val lastTouchY: Float,
    val touchX: Float,
    val touchY: Float,
) {
    companion object {
        fun createDefault(): ViewData = ViewData(
            deltaTime = 0f,
            viewWidth = 0f,
            viewHeight = 0f,
            touchStartX = 0f,
            touchStartY = 0f,
            lastTouchX = 0f,
            lastTouchY = 0f,
            touchX = 0f,
            touchY = 0f,
        )
    }
}
".

Example golden_kotlin_struct_basic_kt :
  check (fun ast => let* t := generate_models ast in stringify_tokens t) f_struct_basic_tpb f_kotlin_struct_basic_kt = true.
Proof. vm_compute. reflexivity. Qed.

(* test_resources/struct_with_positions.tpb *)
Definition f_struct_with_positions_tpb : string :=
"struct Test {
    #[1] touch_x: f32,
    #[2] touch_y: f32,
    #[3] touch_status: TouchStatus,
}
".

(* test_resources/kotlin/struct_with_positions.kt *)
Definition f_kotlin_struct_with_positions_kt : string :=
"data class Test(
    val touchX: Float,
    val touchY: Float,
    val touchStatus: TouchStatus,
) {
    companion object {
        fun createDefault(): Test = Test(
            touchX = 0f,
            touchY = 0f,
            touchStatus = TouchStatus.createDefault(),
        )
    }
}
".

Example golden_kotlin_struct_with_positions_kt :
  check (fun ast => let* t := generate_models ast in stringify_tokens t) f_struct_with_positions_tpb f_kotlin_struct_with_positions_kt = true.
Proof. vm_compute. reflexivity. Qed.

(* test_resources/struct_generics.tpb *)
Definition f_struct_generics_tpb : string :=
"struct GenericType {
    items: Vec<Test>,
    table: LinearTable<f32, Test>,
}
".

(* test_resources/kotlin/struct_generics.kt *)
Definition f_kotlin_struct_generics_kt : string :=
"data class GenericType(
    val items: List<Test>,
    val table: LinearTable<Float, Test>,
) {
    companion object {
        fun createDefault(): GenericType = GenericType(
            items = listOf(),
            table = LinearTable.createDefault<Float, Test>(),
        )
    }
}
".

Example golden_kotlin_struct_generics_kt :
  check (fun ast => let* t := generate_models ast in stringify_tokens t) f_struct_generics_tpb f_kotlin_struct_generics_kt = true.
Proof. vm_compute. reflexivity. Qed.

(* test_resources/struct.tpb *)
Definition f_struct_tpb : string :=
"struct Empty;

struct ViewData {
    delta_time: f32,
    view_width: f32,
    view_height: f32,
    touch_start_x: f32,
    touch_start_y: f32,
    last_touch_x: f32,
    last_touch_y: f32,
    touch_x: f32,
    touch_y: f32,
}

struct Test {
    #[1] touch_x: f32,
    #[2] touch_y: f32,
    #[3] touch_status: TouchStatus,
}

struct GenericType {
    items: Vec<Test>,
    table: LinearTable<f32, Test>,
}
".

(* test_resources/kotlin/struct_models.kt *)
Definition f_kotlin_struct_models_kt : string :=
"class Empty() {
    companion object {
        fun createDefault(): Empty = Empty()
    }
}

data class ViewData(
    val deltaTime: Float,
    val viewWidth: Float,
    val viewHeight: Float,
    val touchStartX: Float,
    val touchStartY: Float,
    val lastTouchX: Float,
    val lastTouchY: Float,
    val touchX: Float,
    val touchY: Float,
) {
    companion object {
        fun createDefault(): ViewData = ViewData(
            deltaTime = 0f,
            viewWidth = 0f,
            viewHeight = 0f,
            touchStartX = 0f,
            touchStartY = 0f,
            lastTouchX = 0f,
            lastTouchY = 0f,
            touchX = 0f,
            touchY = 0f,
        )
    }
}

data class Test(
    val touchX: Float,
    val touchY: Float,
    val touchStatus: TouchStatus,
) {
    companion object {
        fun createDefault(): Test = Test(
            touchX = 0f,
            touchY = 0f,
            touchStatus = TouchStatus.createDefault(),
        )
    }
}

data class GenericType(
    val items: List<Test>,
    val table: LinearTable<Float, Test>,
) {
    companion object {
        fun createDefault(): GenericType = GenericType(
            items = listOf(),
            table = LinearTable.createDefault<Float, Test>(),
        )
    }
}
".

Example golden_kotlin_struct_models_kt :
  check (fun ast => let* t := generate_models ast in stringify_tokens t) f_struct_tpb f_kotlin_struct_models_kt = true.
Proof. vm_compute. reflexivity. Qed.

(* test_resources/enum_basic.tpb *)
Definition f_enum_basic_tpb : string :=
"enum MyEnumWithoutPositions {
    Option1(u64),
    Option2 { name: String },
    Option3,
    Option4,
}
".

(* test_resources/kotlin/enum_basic.kt *)
Definition f_kotlin_enum_basic_kt : string :=
"sealed interface MyEnumWithoutPositions {
    companion object {
        fun createDefault(): MyEnumWithoutPositions = MyEnumWithoutPositionsOption1(
            0UL,
        )
    }
}

data class MyEnumWithoutPositionsOption1(
    val p0: ULong,
) : MyEnumWithoutPositions

data class MyEnumWithoutPositionsOption2(
    val name: String,
) : MyEnumWithoutPositions

object MyEnumWithoutPositionsOption3 : MyEnumWithoutPositions

object MyEnumWithoutPositionsOption4 : MyEnumWithoutPositions
".

Example golden_kotlin_enum_basic_kt :
  check (fun ast => let* t := generate_models ast in stringify_tokens t) f_enum_basic_tpb f_kotlin_enum_basic_kt = true.
Proof. vm_compute. reflexivity. Qed.

(* test_resources/enum_with_positions.tpb *)
Definition f_enum_with_positions_tpb : string :=
"enum MyEnum {
    #[1] Idle,
    #[2] Move {
        #[1] x: f64,
        #[2] y: f64,
    },
    #[3] Update(#[1] f64, #[2] f64, #[4] String),
}
".

(* test_resources/kotlin/enum_with_positions.kt *)
Definition f_kotlin_enum_with_positions_kt : string :=
"sealed interface MyEnum {
    companion object {
        fun createDefault(): MyEnum = MyEnumIdle
    }
}

object MyEnumIdle : MyEnum

data class MyEnumMove(
    val x: Double,
    val y: Double,
) : MyEnum

data class MyEnumUpdate(
    val p0: Double,
    val p1: Double,
    val p2: String,
) : MyEnum
".

Example golden_kotlin_enum_with_positions_kt :
  check (fun ast => let* t := generate_models ast in stringify_tokens t) f_enum_with_positions_tpb f_kotlin_enum_with_positions_kt = true.
Proof. vm_compute. reflexivity. Qed.

(* test_resources/enum_with_many_default_arguments.tpb *)
Definition f_enum_with_many_default_arguments_tpb : string :=
"enum MyEnumWithManyArguments {
    Option1(u64, u64, u64),
    Option2 { name: String },
    Option3,
    Option4,
}
".

(* test_resources/kotlin/enum_with_many_default_arguments.kt *)
Definition f_kotlin_enum_with_many_default_arguments_kt : string :=
"sealed interface MyEnumWithManyArguments {
    companion object {
        fun createDefault(): MyEnumWithManyArguments = MyEnumWithManyArgumentsOption1(
            0UL,
            0UL,
            0UL,
        )
    }
}

data class MyEnumWithManyArgumentsOption1(
    val p0: ULong,
    val p1: ULong,
    val p2: ULong,
) : MyEnumWithManyArguments

data class MyEnumWithManyArgumentsOption2(
    val name: String,
) : MyEnumWithManyArguments

object MyEnumWithManyArgumentsOption3 : MyEnumWithManyArguments

object MyEnumWithManyArgumentsOption4 : MyEnumWithManyArguments
".

Example golden_kotlin_enum_with_many_default_arguments_kt :
  check (fun ast => let* t := generate_models ast in stringify_tokens t) f_enum_with_many_default_arguments_tpb f_kotlin_enum_with_many_default_arguments_kt = true.
Proof. vm_compute. reflexivity. Qed.

(* test_resources/enum_with_named_default_arguments.tpb *)
Definition f_enum_with_named_default_arguments_tpb : string :=
"enum MyEnumWithNamedArguments {
    Option1 {
        name: String,
        value: f32,
        bytes: Vec<u8>
    },
    Option2(u64, u64, u64),
    Option3,
    Option4,
}
".

(* test_resources/kotlin/enum_with_named_default_arguments.kt *)
Definition f_kotlin_enum_with_named_default_arguments_kt : string :=
"sealed interface MyEnumWithNamedArguments {
    companion object {
        fun createDefault(): MyEnumWithNamedArguments = MyEnumWithNamedArgumentsOption1(
            name = """",
            value = 0f,
            bytes = listOf(),
        )
    }
}

data class MyEnumWithNamedArgumentsOption1(
    val name: String,
    val value: Float,
    val bytes: List<UByte>,
) : MyEnumWithNamedArguments

data class MyEnumWithNamedArgumentsOption2(
    val p0: ULong,
    val p1: ULong,
    val p2: ULong,
) : MyEnumWithNamedArguments

object MyEnumWithNamedArgumentsOption3 : MyEnumWithNamedArguments

object MyEnumWithNamedArgumentsOption4 : MyEnumWithNamedArguments
".

Example golden_kotlin_enum_with_named_default_arguments_kt :
  check (fun ast => let* t := generate_models ast in stringify_tokens t) f_enum_with_named_default_arguments_tpb f_kotlin_enum_with_named_default_arguments_kt = true.
Proof. vm_compute. reflexivity. Qed.

(* test_resources/enum_extended.tpb *)
Definition f_enum_extended_tpb : string :=
"enum MyEnum {
    #[1] Idle,
    #[2] Move {
        #[1] x: f64,
        #[2] y: f64,
    },
    #[3] Update(#[1] f64, #[2] f64, #[4] String),
}

enum MyEnumWithoutPositions {
    Option1(u64),
    Option2 { name: String },
    Option3,
    Option4,
}

enum MyEnumWithManyArguments {
    Option1(u64, u64, u64),
    Option2 { name: String },
    Option3,
    Option4,
}

enum MyEnumWithNamedArguments {
    Option1 {
        name: String,
        value: f32,
        bytes: Vec<u8>
    },
    Option2(u64, u64, u64),
    Option3,
    Option4,
}
".

(* test_resources/kotlin/enum_extended.kt *)
Definition f_kotlin_enum_extended_kt : string :=
"sealed interface MyEnum {
    companion object {
        fun createDefault(): MyEnum = MyEnumIdle
    }
}

object MyEnumIdle : MyEnum

data class MyEnumMove(
    val x: Double,
    val y: Double,
) : MyEnum

data class MyEnumUpdate(
    val p0: Double,
    val p1: Double,
    val p2: String,
) : MyEnum

sealed interface MyEnumWithoutPositions {
    companion object {
        fun createDefault(): MyEnumWithoutPositions = MyEnumWithoutPositionsOption1(
            0UL,
        )
    }
}

data class MyEnumWithoutPositionsOption1(
    val p0: ULong,
) : MyEnumWithoutPositions

data class MyEnumWithoutPositionsOption2(
    val name: String,
) : MyEnumWithoutPositions

object MyEnumWithoutPositionsOption3 : MyEnumWithoutPositions

object MyEnumWithoutPositionsOption4 : MyEnumWithoutPositions

sealed interface MyEnumWithManyArguments {
    companion object {
        fun createDefault(): MyEnumWithManyArguments = MyEnumWithManyArgumentsOption1(
            0UL,
            0UL,
            0UL,
        )
    }
}

data class MyEnumWithManyArgumentsOption1(
    val p0: ULong,
    val p1: ULong,
    val p2: ULong,
) : MyEnumWithManyArguments

data class MyEnumWithManyArgumentsOption2(
    val name: String,
) : MyEnumWithManyArguments

object MyEnumWithManyArgumentsOption3 : MyEnumWithManyArguments

object MyEnumWithManyArgumentsOption4 : MyEnumWithManyArguments

sealed interface MyEnumWithNamedArguments {
    companion object {
        fun createDefault(): MyEnumWithNamedArguments = MyEnumWithNamedArgumentsOption1(
            name = """",
            value = 0f,
            bytes = listOf(),
        )
    }
}

data class MyEnumWithNamedArgumentsOption1(
    val name: String,
    val value: Float,
    val bytes: List<UByte>,
) : MyEnumWithNamedArguments

data class MyEnumWithNamedArgumentsOption2(
    val p0: ULong,
    val p1: ULong,
    val p2: ULong,
) : MyEnumWithNamedArguments

object MyEnumWithNamedArgumentsOption3 : MyEnumWithNamedArguments

object MyEnumWithNamedArgumentsOption4 : MyEnumWithNamedArguments
".

Example golden_kotlin_enum_extended_kt :
  check (fun ast => let* t := generate_models ast in stringify_tokens t) f_enum_extended_tpb f_kotlin_enum_extended_kt = true.
Proof. vm_compute. reflexivity. Qed.
