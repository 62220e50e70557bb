(** Conformance tests, not proofs: the model reproduces the expected outputs stored in
    /repo/test_resources, from the inputs stored there, exactly as the unit tests of
    src/swift/generator.rs:203-307 do.  The texts are copies of the files named in the comments. *)
Require Import Coq.Strings.String Coq.Lists.List.
Require Import Verif.Base Verif.Ast Verif.Lexer Verif.Parser Verif.SwiftGen.
Local Open Scope string_scope.

Definition check (gen : list ast_node -> res string) (src expected : string) : bool :=
  match compile_front src with
  | Ok ast => match gen ast with Ok s => String.eqb s expected | _ => false end
  | _ => false
  end.

(* test_resources/consts.tpb *)
Definition f_consts_tpb : string :=
"const commands {
    DRAW_LINES: u64 = 0x0002_0001;
    DRAW_PATH: u64 = 0x0002_0002;
    DRAW_QUADS: u64 = 0x0002_0003;
    DRAW_CENTERED_QUADS: u64 = 0x0002_0004;
    DRAW_TEXTS: u64 = 0x0002_0005;
    SET_COLOR_PIPELINE: u64 = 0x0002_0006;
    SET_TEXTURE_PIPELINE: u64 = 0x0002_0007;
    DRAW_CIRCLES: u64 = 0x0002_0008;
    DRAW_HOLLOW_CIRCLES: u64 = 0x0002_0009;
}

const addr {
    SOME_VALUE: String = ""Hello World!"";

    const groups {
        MAIN: GroupAddress = 0;
        MAIN_RENDER: GroupAddress = 1;
        RPC: GroupAddress = 2;
        RPC_SYNC: GroupAddress = 3;
        RPC_READ: GroupAddress = 4;
    }

    DELTA_TIME: f64 = 16.6;
    FLAG: bool = true;

    const commands_buffers {
        WIN1_MAIN_RENDER: CommandsBufferAddress = 0;
    }
}
".

(* test_resources/swift/consts.swift *)
Definition f_swift_consts_swift : string :=
"struct Commands {
    static let drawLines: UInt64 = 131073
    static let drawPath: UInt64 = 131074
    static let drawQuads: UInt64 = 131075
    static let drawCenteredQuads: UInt64 = 131076
    static let drawTexts: UInt64 = 131077
    static let setColorPipeline: UInt64 = 131078
    static let setTexturePipeline: UInt64 = 131079
    static let drawCircles: UInt64 = 131080
    static let drawHollowCircles: UInt64 = 131081
}

struct Addr {
    static let someValue: String = ""Hello World!""

    struct Groups {
        static let main: UInt64 = 0
        static let mainRender: UInt64 = 1
        static let rpc: UInt64 = 2
        static let rpcSync: UInt64 = 3
        static let rpcRead: UInt64 = 4
    }

    static let deltaTime: Double = 16.6
    static let flag: Bool = true

    struct CommandsBuffers {
        static let win1MainRender: UInt64 = 0
    }
}
".

Example golden_swift_consts_swift :
  check (fun ast => stringify_tokens (generate_consts ast)) f_consts_tpb f_swift_consts_swift = true.
Proof. vm_compute. reflexivity. Qed.

(* test_resources/struct_empty.tpb *)
Definition f_struct_empty_tpb : string :=
"struct Empty;
".

(* test_resources/swift/struct_empty.swift *)
Definition f_swift_struct_empty_swift : string :=
"struct Empty {
    static func createDefault() -> Empty {
        return Empty()
    }
}
".

Example golden_swift_struct_empty_swift :
  check (fun ast => let* t := generate_models ast in stringify_tokens t) f_struct_empty_tpb f_swift_struct_empty_swift = true.
Proof. vm_compute. reflexivity. Qed.

(* test_resources/struct_basic.tpb *)
Definition f_struct_basic_tpb : string :=
"struct ViewData {
    delta_time: f32,
    view_width: f32,
    view_height: f32,
    touch_start_x: f32,
    touch_start_y: f32,
    last_touch_x: f32,
    last_touch_y: f32,
    touch_x: f32,
    touch_y: f32,
}
".

(* test_resources/swift/struct_basic.swift *)
Definition f_swift_struct_basic_swift : string :=
"struct ViewData {
    var deltaTime: Float
    var viewWidth: Float
    var viewHeight: Float
    var touchStartX: Float
    var touchStartY: Float
    var lastTouchX: Float
    var lastTouchY: Float
    var touchX: Float
    var touchY: Float

    static func createDefault() -> ViewData {
        return ViewData(
            deltaTime: 0,
            viewWidth: 0,
            viewHeight: 0,
            touchStartX: 0,
            touchStartY: 0,
            lastTouchX: 0,
            lastTouchY: 0,
            touchX: 0,
            touchY: 0
        )
    }
}
".

Example golden_swift_struct_basic_swift :
  check (fun ast => let* t := generate_models ast in stringify_tokens t) f_struct_basic_tpb f_swift_struct_basic_swift = true.
Proof. vm_compute. reflexivity. Qed.

(* test_resources/struct_with_positions.tpb *)
Definition f_struct_with_positions_tpb : string :=
"struct Test {
    #[1] touch_x: f32,
    #[2] touch_y: f32,
    #[3] touch_status: TouchStatus,
}
".

(* test_resources/swift/struct_with_positions.swift *)
Definition f_swift_struct_with_positions_swift : string :=
"struct Test {
    var touchX: Float
    var touchY: Float
    var touchStatus: TouchStatus

    static func createDefault() -> Test {
        return Test(
            touchX: 0,
            touchY: 0,
            touchStatus: TouchStatus.createDefault()
        )
    }
}
".

Example golden_swift_struct_with_positions_swift :
  check (fun ast => let* t := generate_models ast in stringify_tokens t) f_struct_with_positions_tpb f_swift_struct_with_positions_swift = true.
Proof. vm_compute. reflexivity. Qed.

(* test_resources/struct_generics.tpb *)
Definition f_struct_generics_tpb : string :=
"struct GenericType {
    items: Vec<Test>,
    table: LinearTable<f32, Test>,
}
".

(* test_resources/swift/struct_generics.swift *)
Definition f_swift_struct_generics_swift : string :=
"struct GenericType {
    var items: [Test]
    var table: LinearTable<Float, Test>

    static func createDefault() -> GenericType {
        return GenericType(
            items: [],
            table: LinearTable<Float, Test>.createDefault()
        )
    }
}
".

Example golden_swift_struct_generics_swift :
  check (fun ast => let* t := generate_models ast in stringify_tokens t) f_struct_generics_tpb f_swift_struct_generics_swift = true.
Proof. vm_compute. reflexivity. Qed.

(* test_resources/struct.tpb *)
Definition f_struct_tpb : string :=
"struct Empty;

struct ViewData {
    delta_time: f32,
    view_width: f32,
    view_height: f32,
    touch_start_x: f32,
    touch_start_y: f32,
    last_touch_x: f32,
    last_touch_y: f32,
    touch_x: f32,
    touch_y: f32,
}

struct Test {
    #[1] touch_x: f32,
    #[2] touch_y: f32,
    #[3] touch_status: TouchStatus,
}

struct GenericType {
    items: Vec<Test>,
    table: LinearTable<f32, Test>,
}
".

(* test_resources/swift/struct_models.swift *)
Definition f_swift_struct_models_swift : string :=
"struct Empty {
    static func createDefault() -> Empty {
        return Empty()
    }
}

struct ViewData {
    var deltaTime: Float
    var viewWidth: Float
    var viewHeight: Float
    var touchStartX: Float
    var touchStartY: Float
    var lastTouchX: Float
    var lastTouchY: Float
    var touchX: Float
    var touchY: Float

    static func createDefault() -> ViewData {
        return ViewData(
            deltaTime: 0,
            viewWidth: 0,
            viewHeight: 0,
            touchStartX: 0,
            touchStartY: 0,
            lastTouchX: 0,
            lastTouchY: 0,
            touchX: 0,
            touchY: 0
        )
    }
}

struct Test {
    var touchX: Float
    var touchY: Float
    var touchStatus: TouchStatus

    static func createDefault() -> Test {
        return Test(
            touchX: 0,
            touchY: 0,
            touchStatus: TouchStatus.createDefault()
        )
    }
}

struct GenericType {
    var items: [Test]
    var table: LinearTable<Float, Test>

    static func createDefault() -> GenericType {
        return GenericType(
            items: [],
            table: LinearTable<Float, Test>.createDefault()
        )
    }
}
".

Example golden_swift_struct_models_swift :
  check (fun ast => let* t := generate_models ast in stringify_tokens t) f_struct_tpb f_swift_struct_models_swift = true.
Proof. vm_compute. reflexivity. Qed.

(* test_resources/enum_extended.tpb *)
Definition f_enum_extended_tpb : string :=
"enum MyEnum {
    #[1] Idle,
    #[2] Move {
        #[1] x: f64,
        #[2] y: f64,
    },
    #[3] Update(#[1] f64, #[2] f64, #[4] String),
}

enum MyEnumWithoutPositions {
    Option1(u64),
    Option2 { name: String },
    Option3,
    Option4,
}

enum MyEnumWithManyArguments {
    Option1(u64, u64, u64),
    Option2 { name: String },
    Option3,
    Option4,
}

enum MyEnumWithNamedArguments {
    Option1 {
        name: String,
        value: f32,
        bytes: Vec<u8>
    },
    Option2(u64, u64, u64),
    Option3,
    Option4,
}
".

(* test_resources/swift/enum_models.swift *)
Definition f_swift_enum_models_swift : string :=
"enum MyEnum {
    case idle
    case move(
        /* x */ Double,
        /* y */ Double
    )
    case update(
        Double,
        Double,
        String
    )

    static func createDefault() -> MyEnum {
        return .idle
    }
}

enum MyEnumWithoutPositions {
    case option1(
        UInt64
    )
    case option2(
        /* name */ String
    )
    case option3
    case option4

    static func createDefault() -> MyEnumWithoutPositions {
        return .option1(
            0
        )
    }
}

enum MyEnumWithManyArguments {
    case option1(
        UInt64,
        UInt64,
        UInt64
    )
    case option2(
        /* name */ String
    )
    case option3
    case option4

    static func createDefault() -> MyEnumWithManyArguments {
        return .option1(
            0,
            0,
            0
        )
    }
}

enum MyEnumWithNamedArguments {
    case option1(
        /* name */ String,
        /* value */ Float,
        /* bytes */ [UInt8]
    )
    case option2(
        UInt64,
        UInt64,
        UInt64
    )
    case option3
    case option4

    static func createDefault() -> MyEnumWithNamedArguments {
        return .option1(
            /* name */ """",
            /* value */ 0,
            /* bytes */ []
        )
    }
}
".

Example golden_swift_enum_models_swift :
  check (fun ast => let* t := generate_models ast in stringify_tokens t) f_enum_extended_tpb f_swift_enum_models_swift = true.
Proof. vm_compute. reflexivity. Qed.
