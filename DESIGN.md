# Machine-checked model of tech-paws-buffers (Rocq/Coq 8.16.1)

Target: `/repo` (`tech-paws-buffers`), a schema compiler: source text -> tokens ->
declarations -> Rust, Dart, Swift and Kotlin source text.  Nothing in `/repo` is built or
run; the model was written by reading the Rust source.

## 1. Layout (rocq/theories)

Models of code in `/repo`.  Every definition cites file and lines.

| file | models | how |
|---|---|---|
| `Base.v` | result type, text helpers | a panic is the value `Panic`; running out of fuel is the separate value `NoFuel`, and C01/C08 prove it never occurs |
| `Ast.v` | `src/ast.rs`, token and literal types of `src/lexer.rs` | inductive types, look-up helpers |
| `Lexer.v` | `src/lexer.rs` 30-272 | text = list of bytes; a reader is the remaining suffix |
| `Parser.v` | `src/parser.rs` 4-717 | a token cursor is the remaining suffix; loops carry fuel |
| `Writer.v` | `src/writer.rs` | writer calls are values; running a list of them gives the text |
| `RustGen.v`, `DartGen.v` | `src/rust_generator.rs`, `src/rust/*.rs`, `src/dart_generator.rs`, `src/dart/*.rs` | function by function, exact output text |
| `SwiftGen.v`, `KotlinGen.v` | `src/swift/*.rs`, `src/kotlin/*.rs` | same; these two cannot be reached from the command line |
| `MainModel.v`, `MainCmd.v` | `src/main.rs` 29-180 | the commands over an abstract file system; the YAML parser is an arbitrary function |
| `Golden*.v` | - | tests, not proofs: the model reproduces the expected files of `/repo/test_resources` |

Models of code outside `/repo` (trusted).

| file | models |
|---|---|
| `F64.v` | `str::parse::<f64>` and `Display for f64` of the Rust standard library, non-negative doubles (proved correctly rounded against `F64Spec.v`) |
| `MainCmd.v` | `Path::parent`, `Path::join` of the Rust standard library on Unix |
| `CaseConv.v` | `to_case(Camel)`, `to_case(Pascal)` of the crate convert_case 0.5.0 |
| `Code.v`, `RustSyntax.v` | a reader for the part of Rust the generated files use (tokens, groups, recursive descent), written from the Rust grammar |
| `RustSem.v` | the meaning of the trees that reader returns: an interpreter with evaluation order, early return, panics, shadowing, default binding modes, automatic references |
| `RustDefault.v` | which type declarations and `Default` implementations of those Rust files compile, and the value of `T::default()`; no imported types |
| `RustConst.v`, `DartConst.v` | which modules (Rust) and objects (Dart) of constants compile, and the types and values of the constants; literals only |
| `DartSyntax.v` | a reader for the part of Dart the generated files use, written from the Dart grammar |
| `KotlinSyntax.v` | a reader for the part of Kotlin the generated files use, written from the Kotlin grammar; line breaks count as blanks |
| `KotlinSem.v` | which of those files compile, and what their expressions evaluate to |
| `SwiftSyntax.v` | a reader for the part of Swift the generated files use, written from the Swift grammar; line breaks count as blanks, comments are dropped |
| `SwiftSem.v` | which of those files compile (including that structs and enums are of finite size), and what their expressions evaluate to |
| `DartSem.v` | the meaning of those Dart trees: an interpreter with a heap of mutable objects, constructors, initialisers, closures, `switch`, `throw`, `late` fields |

Specifications, independent of the models: `LexSpec.v` (spellings), `Grammar.v` (schema grammar, accepted
malformed forms as separate rules), `Printer.v`/`TextPrinter.v` (writing a schema), `F64Spec.v` (nearest double),
`Wire.v` (values of a type and their bytes), `DartWire.v` (which Dart object represents a value, its bytes, which objects
can be filled in place, when two buffer packages agree), `Defaults.v` (the default value of a type, for all languages),
`KotlinTree.v` (the Kotlin declarations of a schema), `KotlinCheck.v` (which schemas should compile, Kotlin values), `SwiftTree.v`, `SwiftCheck.v` (the same for Swift), `Single.v` (numbers of single precision and correct rounding to them), `ConstSpec.v` (values of constants, which constants should compile), `SameSpec.v` (Kotlin and Swift values as plain numbers, truth values and texts), `OutSpec.v` (files on disk as compilers read them), `RustFine.v` (which schemas should give
Rust types and defaults that compile), `EvolveSpec.v` (when a schema is a later version of another).

Proofs: `LexProofs LexMore NumText GrammarMore ParseProofs PrintProofs Positions Names` (front end),
`CodeLex RustPrint RustTree RustLexed* RustFile RustWf RustRead` (a generated Rust file reads back as its tree:
`rust_file_generated`), `RustCodec` (running the codecs of that tree),
`RustRpc` (running its handlers and tasks), `DartPrint DartTree DartLexed* DartFile DartWf` (a generated Dart file reads back
as its tree), `DartRun DartShape DartCodec` (running its codecs), `DartAgree` (Rust bytes = Dart bytes), `DartRpc` (running its client), `KotlinPrint CmdLex FloatShape KotlinFile` (a generated Kotlin file reads back as its tree), `KotlinRuns KotlinConsts` (it
compiles and gives the right values), `SwiftPrint SwiftFile SwiftRuns SwiftConsts` (the same for Swift), `RustDefaultRuns` (Rust defaults), `ConstRuns DartConstRuns` (constants), `*Facts.v` (the lemmas behind the
property files).  `Properties*.v` hold only the property theorems, each beside a concrete case and `Print Assumptions`.

## 2. How the properties are stated

* C01-C07, C45: about `tokenize` on all byte strings, against `LexSpec.reads`.
* C08-C14: the parser accepts exactly `Grammar.v` and finishes; printing then parsing is the identity.
* C15, C16, C43: when the generators fail.  C37, C38, C44: the command line and the directive look-ups.
* C17-C20, C25: the generated *text* is read by the Rust reader and the resulting file is run by the interpreter
  on a byte buffer.  `read_value`, `write_value` and `skip_values` are the calls a user of the generated code would
  make.  The results are compared with `Wire.v`.
* C20-C24, C46: likewise for Dart: the generated text is read by the Dart reader and its classes are run on a heap and a
  byte buffer.  `dart_call` calls a method of a generated codec.  `rep` relates heap objects to values, `shaped` says which
  objects the in-place reader may be given, `changes` which objects may change.
* C31-C36: the generated text is read by the Rust reader and its handlers, registration function and spawned tasks are
  run by the interpreter, from any state: buffers, earlier calls, pending tasks.  The service functions are an arbitrary
  function of the number of earlier calls, the name and the arguments; it may fail.  `history` is any number of later runs
  with arbitrary steps of the rest of the system in between.
* C31, C32, C34, C47, C48, client side: the generated Dart text is read by the Dart reader; its client is constructed, its
  methods are called and the callbacks it gave to the scheduler are run, from any state.  `shows` is the invariant of a client:
  which calls are pending, what its streams hold, which tasks it owns.  The round-trip theorems run both
  generated files: the request bytes of the client are what the Rust handler finds, and the response bytes of the handler are
  what the client finds; everything else in both states is arbitrary.
* C49: the classes of enums in the same Dart files.  `passed` says which arguments stand for the fields of a case (named ones
  in any order), `complete` that an object has all the fields and parts its class declares.
* C50: the generated Kotlin text is read by the Kotlin reader; `compiles` checks the declarations, `run_default` runs
  `createDefault`, `constant` finds a constant and its value; a `Float` is rounded to single precision (`Single.v`).  The theorem gives the
  result for every number of steps.
* C51: the same for Swift, with its own reader and rules.
* C52: the Rust text is read back and its types and `Default` implementations are checked and run by `RustDefault`; the Dart
  factories are run on a heap.  `Defaults.schema_value` is the value both are compared with.
* C53: both texts are read back; `consts_compile` checks the constants, `constant` finds a constant by its path, with its type and
  value.  `ConstSpec.const_val` is the value both are compared with; an `f32` of Rust is compared with `ConstSpec.rust_val`, the nearest
  number of single precision (`Single.v`).
* C54: files generated from two schemas run on each other's bytes; `EvolveSpec.grown` relates the two schemas by their declarations
  alone.  The proofs are in `EvolveRust` and `EvolveDart`.
* C55: the client file of one schema calls the server file of another, in the semantics and with the runtimes of C31 to C36 and C47;
  `EvolveSpec.appended` relates the methods of the two.  What is refused is in `EvolveRpc` (the client throws) and `EvolveServer` (the
  handler panics).
* C56: the Dart text is read back (C21); `DartStatic.compiles` checks the static rules of the language on the tree: scopes, types of
  expressions, arguments of calls, members of classes, interfaces, fields that are set, exhaustive switches, paths that return.
  `DartStaticSpec.dart_fine` is the condition on the names and types of the schema; the proofs are in `DartStaticCode`.
* C57: the Rust text is read back (C17); `RustStatic.compiles` checks the static rules of the language on the tree: scopes, types of
  expressions, arguments of calls, traits, exhaustive matches, moves, exclusive borrows, references that leave a block, `unsafe`, `async`.
  `RustStaticSpec.rust_code_fine` is the condition on the names and types of the schema, `user_fns` are the functions that the user provides;
  the proofs are in `RustStaticCode`.  The semantics of C17 to C36 (`RustSem`) has no types and runs handlers that C57 shows not to compile
  (a `read` of a number); C57 says for which schemas those theorems speak of files that compile.
* C58: the constants of the four generated texts, found as in C50, C51 and C53, are compared with each other by `SameSpec.kotlin_means` and
  `swift_means`; `ParseFacts.sized` (C14) gives that an `f32` is the type of four bytes.
  `C58_kotlin_types` and `C58_swift_types` compare the types of constants by name with the tables of `SameTypesSpec`, not with the sizes and
  signs of the tree.
* C59: whole runs of the program (`MainCmd.run_command`): the output files are decoded from UTF-8 (`OutSpec.utf8_decode`) and read by the readers
  of Rust and Dart; the two trees are then the subjects of C24, C32, C56 and C57.  `apart` asks that the outputs of a configuration are different
  files and none is a source; paths that are spelled differently count as different files.
* C60: runs of configurations compared with each other: in worlds with the same sources, one after the other, with entries in another order.
* C61: the defaults run as in C50, C51 and C52 are compared with each other by `SameDefSpec.kotlin_same` and `swift_same`, relations between values of
  two languages; Dart's is compared with the value of Rust by `rep` (C21).
* C62: `Utf8Spec.is_text` is UTF-8 as the Unicode standard defines it, by encoding; `MainModel.valid_utf8`, the condition of `read_to_string` (a function
  of the standard library of Rust), is proved to be the same.
* C63: `CaseSpec.cased` says for each letter of a name what becomes of it, from the letters before and after it; `CaseConv`, which collects words as the
  crate convert_case does, is proved to give the same.
* C64: the converse of C17 and C18, on arbitrary bytes; the buffer package is any that is `lawful` (`Wire`) and `StrictSpec.strict`.
  `C64_skipped` says the same of skipping (with C19), `C64_dart` that Dart reads such a buffer as the same value (with C24).
* C65: types of fields and cases, by the names in the tables of `FieldSpec`; the generated texts are read back by the readers of the four
  languages.  Sizes and signs, by which the generators decide, follow from C14.
* C66: `DeclaredSpec.v` lists the types that a schema declares and those that a file of each language declares. The theorems
  compare these lists, so that nothing is dropped, added or moved; the trees come from the readers of the languages.
* C67: `WholeSpec.v` says which parts of a schema the bytes depend on. From equal texts the theorem concludes that these parts are
  equal, by way of the reader of Rust; it speaks of files with models and codecs and without methods.
  `C67_rust_kinds` and `C67_dart_kinds` are equalities of whole texts; the Dart one is of schemas that the parser accepts, because
  Dart looks at two flags of structs that the parser always sets. `C67_kotlin_kinds` and `C67_swift_kinds` are equalities of the token lists
  from which the text is made.
* C26: equality of whole generated files.  C27, C28: literals read back by small independent readers.
* C29, C30, C39-C42: structure of the generated text, injectivity and its failures with witnesses.

Hypotheses of the codec theorems, all decidable and checked on the concrete cases: `rust_ready` (names are words that are
not Rust keywords), `codecs_ok` (no two declarations of the same name, no repeated field, no field or case whose
name captures a name the generated code uses), positions below 2^32, `codecs_distinct` (no shared positions).
The remote-call theorems add `rpc_ok` (no two methods of the same name; no method named like a local name of its handler; no type
named `None`).  The Dart theorems ask for `dart_ready` and `dart_codecs_ok` (the same restrictions with Dart's reserved
names and the local names of the generated Dart methods); the client theorems add `client_ok` (distinct member names, no argument
named like a local name of the client); C49 adds `methods_ok`, `creates_ok`, `turns_ok` (no two methods of the same name, no field named like
a name its method uses).  C50 asks for `kotlin_fine`, `consts_fine`: names in Pascal case, not taken by the language, declared once; no characters or
addresses where a default is written; numbers in the range of their types.  C51 asks for `swift_fine`, `consts_fine`: the same, and types of finite
size, no `f32` constants, no member named like a type.  C52 asks for `rust_fine`: declared types only, names declared once and not those of the
language, finite size, no character where a default is written; and `zeros`: the float literal `0.0` is zero.  C53 asks for
`rust_consts_fine` (no strings, no whole floating-point numbers, numbers in range, names declared once and not those of the language) and
`dart_consts_fine` (numbers in range, floating-point numbers that are whole below 2^53, text without `$`, quotes and backslashes, names that
stay different in camel case and are not those of the language or of every object).  C54 asks for both versions what C17 and C21 ask, that
the cases of an enum have different names, and in Dart that an enum has a case and the later file declares the earlier classes; C55 asks the same of both versions, and what C32, C34 and
C47 ask of servers and clients (`services`), and that a method has the same number in both (`kept_method`).
C56 asks for what C21 and C53 ask, and `dart_fine`: declared names are distinct and not those of the libraries that the file uses; types are
declared or imported; no lists of generic types, no tuple cases without values; members and arguments have different names, not those of every object, of
the members of their class or of the local names of their method; the text of a scope has no `$`, quote or backslash.
C57 asks for what C52 and C53 ask, and `rust_code_fine`: names of types, modules, methods and handlers are distinct and not those of the libraries;
no type without fields, and no method, is named like a variable of the generated code; case and method numbers fit; results of methods are declared or imported
types; a `read` returns no number or truth value; the id of a scope with methods is a UUID.  C58 asks for what C50, C51 and C53 ask of constants.
`C18_field_hides_writer_refuted` and `C18_shared_position` show what happens without them.

## 3. Trusted base

1. Coq's kernel (8.16.1) and its standard library.
2. Axioms: none.  `Print Assumptions` of every theorem in `Properties*.v` answers `Closed under the global context`.
3. The reading of the Rust source: the definitions cite file and lines.
4. The models of code that is not in `/repo`, listed above.
5. The run-time crate `tech_paws_buffers` (byte readers and writers, container codecs, RPC memory, scheduler) is
   a record (`RustSem.runtime`) that the codec theorems quantify over; `Wire.lawful` states what they assume
   of it (a primitive reads back what it wrote, whatever follows; likewise the container codecs), and
   `le_runtime`/`le_lawful` is a little-endian instance, so the assumptions are satisfiable.
   The Dart package is likewise the record `DartSem.druntime` with the laws `DartWire.dlawful`; `DartWire.agree` (C24 only)
   says that the two packages use the same bytes for each primitive.  `le_dart`, `le_dlawful`, `le_agree` are instances.
   For C56 the types of what the generated Dart uses of the packages and of the Dart libraries are tables in `DartStatic`
   (`known`, `lib_codec`, `interface`, `lib_member`); the types imported by the user are the parameter `ext`.
   For C57 the types of what the generated Rust uses of the crates and of the standard library are tables in `RustStatic` (`lib_types`, `field_of`,
   `method_of`, `maker_of`, `trait_fns`, `uuid_text`); the types imported by the user are `ext`, the functions of the user `fns`.
   Traits other than `Debug`, `Clone`, `PartialEq`, `IntoVMBuffers` (as `Send`) and the layout of modules and crates are not checked.
   The buffers of a method are byte strings per scope, method and side; writing overwrites a prefix and keeps the rest.
   `rd_has_data` is the number of `TechPawsRpcBufferStatus.hasData`; the round trips assume -1 (`same_status`, the signed
   reading of the byte 255 that the Rust side uses), and `C32_client_status` shows that calls fail for any other number.
   `rd_loop` is what `loopSyncGroup()` does to the buffers; `C32_round_trip` assumes that it leaves the response of the handler.
   The scheduler keeps the callbacks of `scheduler.read` until they are disconnected and runs one with a reader at the start of its buffer.
   A spawned task runs as one step, at any later time and in any order; it starts from the values captured when it was spawned.

Not modelled: Kotlin's and Swift's type inference, overloads, imports and types of the host program (a file that uses an undeclared type does not compile here), access levels; clap argument parsing, logging, YAML parsing (`run_command` takes it as an argument), directories, links and
permissions beyond two oracles of `MainModel.world`; the Rust borrow checker and type inference (the interpreter gets
stuck on ill-typed code instead); Dart's static types, and the lookup order of a class name used by `const` against a local variable of the same name (the
interpreter takes the class); 32-bit overflow of the position counter in the parser; the run-time crate itself.
