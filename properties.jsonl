{"id": "C01", "title": "Tokenizing always finishes and ends with one end marker", "statement": "Tokenizing any source text finishes, either with a panic or with a token stream; in a produced stream the end-of-file token occurs exactly once, as the last token, and reading past it keeps returning end-of-file.", "quantifier": "for every byte string given as source text", "why_tests_cant": "Unit tests lex a handful of strings; non-termination or a missing end marker could hide in any unlisted combination of characters, comments and literals.", "anchors": ["src/lexer.rs:Lexer::tokenize", "src/lexer.rs:Lexer::next_token", "src/lexer.rs:Lexer::current_token", "src/lexer.rs:StringReader"]}
{"id": "C02", "title": "Layout between tokens is irrelevant", "statement": "Writing any sequence of tokens with any mixture of spaces, line feeds, carriage returns and line comments between them gives back exactly that sequence of tokens.", "quantifier": "for every list of printable tokens and every choice of separators between them", "why_tests_cant": "The space of layouts is infinite; a test fixes one layout.", "anchors": ["src/lexer.rs:Lexer::tokenize", "src/lexer.rs:lex_single_line_comment"]}
{"id": "C03", "title": "Block comments are ignored exactly when their closing mark is seen", "statement": "A block comment disappears from the token stream and the text after it is lexed normally when its body has no star (or the stars in it are consumed pairwise); the shortest forms /**/ and bodies ending in an extra star are not recognised as closed and swallow the following declarations without any error.", "quantifier": "for every comment body and every following text", "why_tests_cant": "A test shows one comment; it cannot say which of infinitely many bodies are closed where the user closed them.", "anchors": ["src/lexer.rs:lex_multi_line_comment", "src/lexer.rs:Lexer::tokenize"]}
{"id": "C04", "title": "Words are read whole and keywords are recognised exactly", "statement": "A maximal run of letters, digits and underscores that does not start with a digit becomes one token: the keyword token or boolean literal if it is exactly that word, otherwise an identifier with exactly those characters.", "quantifier": "for every word over the identifier alphabet and every continuation not starting with an identifier character", "why_tests_cant": "Infinitely many words and continuations.", "anchors": ["src/lexer.rs:lex_id", "src/lexer.rs:is_char_id"]}
{"id": "C05", "title": "Integer literals denote the number the user wrote", "statement": "A decimal or upper-case hexadecimal literal, with single underscores between digits allowed, yields the integer it denotes if that is below 2^63, and is rejected (panic) otherwise; no literal yields a wrapped value, and none yields a negative one unless the source contains an underscore followed by a minus sign (such as 0x_-F, which is read as -15).", "quantifier": "for every digit string and every continuation that ends a number", "why_tests_cant": "Boundary and overflow behaviour over unbounded digit strings.", "anchors": ["src/lexer.rs:lex_number"]}
{"id": "C06", "title": "String literals keep ASCII text and distort everything else", "statement": "A string literal without a quote inside yields exactly the characters between the quotes when they are ASCII, also across the final UTF-8 encoding of the output; a literal containing a byte above 127 never keeps its bytes.", "quantifier": "for every byte string between quotes", "why_tests_cant": "Tests use short ASCII samples.", "anchors": ["src/lexer.rs:lex_string", "src/lexer.rs:StringReader", "src/main.rs:generate"]}
{"id": "C07", "title": "Stray slashes and tabs are never silently dropped", "statement": "A tab outside strings and comments becomes a symbol token, so a schema containing one between tokens is rejected by the parser, except where it stands for the closing parenthesis of a directive group, which the parser never looks at; a lone slash becomes two slash symbols and the character after it disappears from the stream.", "quantifier": "for every surrounding text", "why_tests_cant": "Requires reasoning about all continuations.", "anchors": ["src/lexer.rs:Lexer::tokenize"]}
{"id": "C08", "title": "Parsing always finishes", "statement": "Parsing any token stream finishes, with a list of declarations or a panic; no input makes the parser loop.", "quantifier": "for every token list", "why_tests_cant": "Non-termination cannot be excluded by finitely many runs.", "anchors": ["src/parser.rs:parse", "src/parser.rs:parse_struct", "src/parser.rs:parse_enum", "src/parser.rs:parse_const", "src/parser.rs:parse_type_id", "src/parser.rs:parse_directive"]}
{"id": "C09", "title": "Every well-formed schema can be written and is read back unchanged", "statement": "Printing any well-formed list of declarations in the schema syntax and parsing the result gives the same declarations: names, order, field types, positions, constant values, directives and method signatures.", "quantifier": "for every well-formed list of declarations", "why_tests_cant": "The set of schemas is infinite; golden files cover about ten.", "anchors": ["src/parser.rs:parse", "src/parser.rs:parse_struct", "src/parser.rs:parse_enum", "src/parser.rs:parse_fn", "src/parser.rs:parse_read", "src/parser.rs:parse_const", "src/parser.rs:parse_directive"]}
{"id": "C10", "title": "The parser accepts only sentences of the schema grammar", "statement": "Whenever parsing succeeds, the token stream is derivable in a declarative grammar and the result is the one the derivation assigns; the grammar lists explicitly the malformed generic forms that are accepted.", "quantifier": "for every token list", "why_tests_cant": "Acceptance of wrong inputs is a universally quantified negative.", "anchors": ["src/parser.rs:parse", "src/parser.rs:parse_type_id", "src/parser.rs:parse_group_directive"]}
{"id": "C11", "title": "Declarations are independent and appending is stable", "statement": "If two schema texts parse on their own, their concatenation parses to the concatenation of both results with the method numbers of the second part shifted by the number of methods of the first; in particular appending declarations never changes earlier ones.", "quantifier": "for every pair of accepted token streams", "why_tests_cant": "Quantifies over all pairs of schemas.", "anchors": ["src/parser.rs:parse", "src/lexer.rs:Lexer::next_fn_poisition"]}
{"id": "C12", "title": "RPC method numbers are consecutive, distinct and in declaration order", "statement": "The methods of a parsed schema (sync, async and read alike) carry the numbers 0,1,2,... in source order, with no gaps or duplicates.", "quantifier": "for every accepted token stream", "why_tests_cant": "Must hold for every schema size and mixture of kinds.", "anchors": ["src/lexer.rs:Lexer::next_fn_poisition", "src/parser.rs:parse_fn", "src/parser.rs:parse_read"]}
{"id": "C13", "title": "Field, variant and tuple positions follow one rule", "statement": "In each parameter list or enum, either every element carries an explicit #[n] and gets n modulo 2^32, or none does and they get 0,1,2,... in order; a mixture is rejected.", "quantifier": "for every accepted token stream and every list in the result", "why_tests_cant": "Universal over all lists; truncation appears only above 2^32.", "anchors": ["src/parser.rs:parse_position", "src/parser.rs:parse_enum_items_with_positions", "src/parser.rs:parse_enum_items_without_positions", "src/parser.rs:parse_struct_parameters", "src/parser.rs:parse_tuple_parameters"]}
{"id": "C14", "title": "Parsed declarations are never degenerate", "statement": "Every enum in a parsed schema has at least one variant and every braced struct at least one field, all integer types have size 1, 4 or 8 and all float types size 4 or 8, and every type name, also inside generics, is an identifier.", "quantifier": "for every accepted token stream", "why_tests_cant": "It is the invariant the generators silently rely on, over all schemas.", "anchors": ["src/parser.rs:parse_struct", "src/parser.rs:parse_enum", "src/parser.rs:parse_type_id", "src/rust/enum_models.rs:generate_default"]}
{"id": "C15", "title": "Rust generation fails only for a bad directive", "statement": "For a parsed schema, generating Rust panics exactly when some #[rust(use = ...)] value is not a string, or the RPC part is requested, the schema declares at least one method and its first id directive is missing or not a string.", "quantifier": "for every accepted token stream and every choice of sections", "why_tests_cant": "Panic-freedom over all schemas.", "anchors": ["src/rust_generator.rs:generate", "src/rust/rpc.rs:generate_register_fn"]}
{"id": "C16", "title": "Dart generation fails only for missing directives", "statement": "For a parsed schema, generating Dart panics exactly when some #[dart(import = ...)] value is not a string, or the RPC part is requested, the schema declares at least one method and the namespace or id directive is missing or not a string.", "quantifier": "for every accepted token stream and every choice of sections", "why_tests_cant": "Panic-freedom over all schemas and all type sizes.", "anchors": ["src/dart_generator.rs:generate", "src/dart_generator.rs:generate_read", "src/dart/rpc.rs:generate_rpc"]}
{"id": "C17", "title": "Rust struct codecs round-trip", "statement": "Reading with the generated Rust reader what the generated Rust writer wrote for a struct value, followed by any bytes, returns the value and leaves exactly those following bytes.", "quantifier": "for every struct declaration, every value of it and every trailing byte string, for every runtime whose primitive codecs round-trip", "why_tests_cant": "Infinitely many declarations, values and remainders; the repository's tests only compare text.", "anchors": ["src/rust/struct_buffers.rs:generate_struct_buffers", "src/rust/struct_buffers.rs:generate_struct_read", "src/rust/struct_buffers.rs:generate_struct_write", "src/rust_generator.rs:generate_read", "src/rust_generator.rs:generate_write"]}
{"id": "C18", "title": "Rust enum codecs round-trip exactly when positions are distinct", "statement": "For an enum whose variants have pairwise distinct positions, reading what was written gives back the variant and its fields and leaves the rest; if two variants share a position, some written value is read back as a different variant or fails.", "quantifier": "for every enum declaration, value and trailing bytes", "why_tests_cant": "Same as above; duplicate positions are not rejected by the parser and no test covers them.", "anchors": ["src/rust/enum_buffers.rs:generate_enum_buffers"]}
{"id": "C19", "title": "Rust skipping consumes exactly what reading consumes", "statement": "The generated Rust skip with count n moves the reader to the same place as reading n values of the type in a row.", "quantifier": "for every type of a schema, every count and every buffer on which the reads succeed", "why_tests_cant": "All counts, all types.", "anchors": ["src/rust/struct_buffers.rs:generate_struct_skip", "src/rust/enum_buffers.rs:generate_enum_buffers"]}
{"id": "C20", "title": "Unknown enum tags are rejected", "statement": "If the first word of a buffer is a tag that no variant of the enum carries, the generated Rust and Dart readers fail instead of producing a value.", "quantifier": "for every enum, every tag that is not a position and every remaining bytes", "why_tests_cant": "All 2^32 tags and all enums.", "anchors": ["src/rust/enum_buffers.rs:generate_enum_buffers", "src/dart/enum_into_buffers.rs"]}
{"id": "C21", "title": "Dart value codecs round-trip", "statement": "Reading with the generated Dart IntoBuffers reader what its writer wrote gives back the value and leaves the following bytes, for structs and for enums with distinct positions below 2^31.", "quantifier": "for every declaration, value and trailing bytes", "why_tests_cant": "Infinitely many declarations and values.", "anchors": ["src/dart/struct_into_buffers.rs", "src/dart/enum_into_buffers.rs", "src/dart_generator.rs:generate_read", "src/dart_generator.rs:generate_write"]}
{"id": "C22", "title": "Dart in-place codecs agree with the value codecs", "statement": "The generated EmplaceToBuffers writer writes the same bytes as the IntoBuffers writer, and its reader fills the target object with exactly the value that the IntoBuffers reader returns, whatever the target held before, provided its parts are not shared.", "quantifier": "for every declaration, value and previous target contents", "why_tests_cant": "Must hold for arbitrary previous state of the target object.", "anchors": ["src/dart/struct_emplace_to_buffers.rs", "src/dart/enum_emplace_buffers.rs", "src/dart_generator.rs:generate_read_emplace", "src/dart_generator.rs:generate_write_emplace"]}
{"id": "C23", "title": "Dart skipping: where it agrees with reading and where not", "statement": "The generated Dart struct skip with count n consumes what n reads consume when the struct has no user-typed field; with user-typed fields it skips them once and first, so it differs from reading for some counts and some field orders.", "quantifier": "for every struct, count and buffer", "why_tests_cant": "Equality over all buffers and counts; the failure needs a specific mixture of field kinds.", "anchors": ["src/dart/struct_into_buffers.rs:generate_skip", "src/dart/struct_emplace_to_buffers.rs:generate_skip", "src/dart_generator.rs:generate_read_skip"]}
{"id": "C24", "title": "Rust and Dart agree on the wire format", "statement": "For the same schema the generated Rust writer and the generated Dart writer produce the same bytes for corresponding values, so that each side reads what the other wrote; integers correspond modulo their width, hence unsigned values from the upper half arrive negative in Dart. The exceptions are chars, which Dart writes as one byte, and lists of numbers, for which Dart uses one codec whatever the width.", "quantifier": "for every schema, type and pair of corresponding values", "why_tests_cant": "Cross-language, all types and values; no test in the repository runs generated code.", "anchors": ["src/rust_generator.rs:generate_write", "src/rust_generator.rs:generate_read", "src/dart_generator.rs:generate_write", "src/dart_generator.rs:generate_read", "src/rust/struct_buffers.rs", "src/rust/enum_buffers.rs"]}
{"id": "C25", "title": "Reordering variants with explicit positions keeps the wire format", "statement": "Permuting the variants of an enum that keep their explicit distinct positions changes neither the bytes written for any value nor the value read from any buffer.", "quantifier": "for every enum, permutation, value and buffer", "why_tests_cant": "All permutations.", "anchors": ["src/rust/enum_buffers.rs:generate_enum_buffers"]}
{"id": "C26", "title": "Positions of struct fields do not influence the wire layout", "statement": "The bytes a generated codec writes for a struct depend only on the textual order and types of the fields, never on their #[n] positions; hence reordering positioned fields changes the layout.", "quantifier": "for every struct and every reassignment of positions", "why_tests_cant": "A universally quantified independence.", "anchors": ["src/rust/struct_buffers.rs:generate_struct_write", "src/dart/struct_into_buffers.rs"]}
{"id": "C27", "title": "Constants keep their value in every target", "statement": "The expression generated for a constant, read back as a literal, denotes the declared value: integers, finite floats, booleans and strings without special characters, in Rust (where the constants of the whole file are exactly the declared ones) and in Dart.", "quantifier": "for every constant declaration", "why_tests_cant": "All literals.", "anchors": ["src/rust_generator.rs:generate_const_value", "src/rust/consts.rs", "src/dart/consts.rs", "src/dart_generator.rs:generate_const_value"]}
{"id": "C28", "title": "Float constants are printed exactly, but integral ones are not Rust floats", "statement": "The decimal text generated for a float constant parses back to the same 64-bit float; for an integral float the Rust text has no decimal point and is therefore an integer literal.", "quantifier": "for every finite float a literal can denote", "why_tests_cant": "All doubles.", "anchors": ["src/rust_generator.rs:generate_const_value", "src/dart_generator.rs:generate_const_value", "src/swift/generator.rs", "src/kotlin/generator.rs"]}
{"id": "C29", "title": "Generated files end with exactly one line feed", "statement": "Output of the Rust and Dart generators ends with exactly one newline, never with a blank line.", "quantifier": "for every list of declarations and every choice of sections", "why_tests_cant": "All schemas.", "anchors": ["src/rust_generator.rs:generate", "src/dart_generator.rs:generate", "src/writer.rs:Writer"]}
{"id": "C30", "title": "Section switches are independent", "statement": "Switching a section (models, buffers, rpc) off removes exactly the text of that section and leaves all other generated text unchanged, except for the fixed import lines, which are chosen by the switches between two texts that do not depend on the rest; with all off only header, imports, use lines and constants remain.", "quantifier": "for every schema and every combination of switches", "why_tests_cant": "All schemas, all combinations.", "anchors": ["src/rust_generator.rs:generate", "src/dart_generator.rs:generate", "src/main.rs:Args"]}
{"id": "C31", "title": "Client and server agree on method numbers", "statement": "The method number under which the generated Rust code registers the handler of a method equals the number the generated Dart client uses for that method, and no two methods share one.", "quantifier": "for every accepted schema", "why_tests_cant": "All schemas; each language is only tested against its own golden text.", "anchors": ["src/rust/rpc.rs:generate_register_fn", "src/dart/rpc.rs"]}
{"id": "C32", "title": "A synchronous call returns the result of the server function", "statement": "After the generated Dart client wrote a request and the generated Rust handler ran once, the client's reader obtains exactly the result of the server function on exactly the arguments passed.", "quantifier": "for every sync method, every server function, all arguments and all previous buffer contents", "why_tests_cant": "All functions, arguments and stale buffer contents.", "anchors": ["src/rust/rpc.rs:generate_sync_rpc_method", "src/dart/rpc.rs"]}
{"id": "C33", "title": "A request is served at most once", "statement": "The generated handler clears the request flag before it calls the server function, so running the handler again without a new request calls nothing and leaves both buffers unchanged.", "quantifier": "for every method, buffer contents and number of repeated runs", "why_tests_cant": "Any number of repetitions and any contents.", "anchors": ["src/rust/rpc.rs:generate_sync_rpc_method", "src/rust/rpc.rs:generate_async_rpc_method"]}
{"id": "C34", "title": "Asynchronous responses carry the identity of their request", "statement": "The response that a generated asynchronous handler writes starts with the call identity of the request it answers, and the generated client completes exactly the pending call with that identity.", "quantifier": "for every set of pending calls and every order of completion", "why_tests_cant": "All interleavings.", "anchors": ["src/rust/rpc.rs:generate_async_rpc_method", "src/dart/rpc.rs"]}
{"id": "C35", "title": "An asynchronous read that yields nothing blocks the method forever", "statement": "The generated async-read handler releases its busy flag only when the server function returned a value; after a call that returned none, no later run of the handler ever calls the function again.", "quantifier": "for every sequence of later handler runs", "why_tests_cant": "A statement about all future executions.", "anchors": ["src/rust/rpc.rs:generate_async_read_method"]}
{"id": "C36", "title": "Generated Rust handlers pass references only where references are expected", "statement": "Arguments of generated write calls have the type the call expects, except that a read method returning a primitive passes a reference to the primitive writer.", "quantifier": "for every method signature", "why_tests_cant": "All signatures; the tests never compile generated code.", "anchors": ["src/rust/rpc.rs:generate_sync_read_method", "src/rust/rpc.rs:generate_async_read_method", "src/rust_generator.rs:generate_write"]}
{"id": "C37", "title": "A failed run leaves all files alone", "statement": "If reading, lexing, parsing or generating fails for an input, the output file is neither created nor truncated; only a failure of the final write can leave it truncated.", "quantifier": "for every file system state and every input", "why_tests_cant": "All failures at all points.", "anchors": ["src/main.rs:generate"]}
{"id": "C38", "title": "A batch stops at the first failure and has written exactly the earlier outputs", "statement": "Processing a configuration handles Rust entries before Dart entries in list order; on the first failing entry everything before it is written and nothing after it.", "quantifier": "for every configuration and file system state", "why_tests_cant": "All configurations.", "anchors": ["src/main.rs:main", "src/main.rs:generate"]}
{"id": "C39", "title": "Generated indentation never underflows", "statement": "In every generator the indentation level is never decreased below zero and returns to its starting value.", "quantifier": "for every schema", "why_tests_cant": "All nesting structures.", "anchors": ["src/writer.rs:Writer::pop_tab", "src/swift/generator.rs", "src/kotlin/generator.rs"]}
{"id": "C40", "title": "Type expressions are printed unambiguously", "statement": "Different schema types are printed as different Rust type expressions, and the printed expression read back gives the type.", "quantifier": "for every pair of types a schema can contain", "why_tests_cant": "All nested generics.", "anchors": ["src/rust_generator.rs:generate_type_id"]}
{"id": "C41", "title": "Dart list codecs forget the element width", "statement": "The codec expression generated in Dart for a list of integers is the same for every integer width, so lists of different integer types are not distinguishable on the Dart side.", "quantifier": "for every generic type over integer elements", "why_tests_cant": "Compares output over pairs of schemas.", "anchors": ["src/dart_generator.rs:generate_type_id_class_prefix", "src/dart_generator.rs:generate_read", "src/dart_generator.rs:generate_write"]}
{"id": "C42", "title": "Case conversion can merge distinct names", "statement": "Names made of lower-case words separated by underscores are converted injectively to Dart names, but distinct schema names in general are not, and two fields merged this way give one Dart field.", "quantifier": "for every pair of names", "why_tests_cant": "All pairs of names.", "anchors": ["src/dart_generator.rs:generate_struct_model", "src/dart/rpc.rs"]}
{"id": "C43", "title": "Kotlin and Swift defaults and literals are total on well-typed constants", "statement": "Generating Kotlin or Swift constants for a parsed schema panics exactly when some constant's literal does not fit its declared type; generating Kotlin or Swift models for a parsed schema never panics.", "quantifier": "for every accepted schema", "why_tests_cant": "All schemas.", "anchors": ["src/kotlin/ir.rs", "src/kotlin/generator.rs", "src/swift/ir.rs", "src/swift/generator.rs"]}
{"id": "C44", "title": "Directives: which occurrence wins", "statement": "Looking up a plain directive or a group value returns the first matching occurrence in the schema; looking up all values of a group returns every occurrence in source order, across repeated groups.", "quantifier": "for every list of declarations", "why_tests_cant": "All lists.", "anchors": ["src/ast.rs:find_directive_value", "src/ast.rs:find_directive_group_value", "src/ast.rs:find_directive_group_values"]}
{"id": "C45", "title": "Float literals denote the nearest double", "statement": "A decimal literal with a point, with single underscores between digits allowed, yields the 64-bit float nearest to the number written, the one with an even significand in case of a tie, and infinity from the midpoint above the largest float; that float is unique.", "quantifier": "for every float spelling and every continuation that ends a number", "why_tests_cant": "All digit strings; rounding errors hide in rare ties.", "anchors": ["src/lexer.rs:lex_number"]}
{"id": "C46", "title": "Generated Dart default factories build complete, unshared objects", "statement": "Calling createDefault of a generated Dart class terminates, allocates only new objects, changes no existing object, and returns an object every part of which exists, has the declared class, and occurs once, so that it can serve as the target of the in-place reader.", "quantifier": "for every declaration whose defaults do not refer to themselves, and every heap", "why_tests_cant": "All declaration graphs, and sharing in a heap is invisible to text comparison.", "anchors": ["src/dart_generator.rs:generate_struct_model", "src/dart_generator.rs:generate_enum_model", "src/dart_generator.rs:generate_default_const"]}
{"id": "C47", "title": "Streams of read methods deliver what the server function returned", "statement": "When the generated handler of a read method writes a value returned by the server function, the generated Dart client adds exactly that value to the stream of that method and to no other; on a closed stream it throws; a buffer without data changes nothing; because the client never clears the status, running its task twice on the same buffer adds the value twice.", "quantifier": "for every read method, every value, every state of the client and all buffer contents after the value", "why_tests_cant": "All values, stream contents and interleavings of several streams.", "anchors": ["src/dart/rpc.rs", "src/rust/rpc.rs:generate_sync_read_rpc_method"]}
{"id": "C48", "title": "Disconnecting a client stops exactly its own tasks", "statement": "disconnect() of the generated Dart client removes every task of the client from the scheduler and closes every stream of the client; it touches no other task, no other object, no pending call and no value already on a stream.", "quantifier": "for every client in every reachable state, whatever other clients exist", "why_tests_cant": "All numbers of methods and states.", "anchors": ["src/dart/rpc.rs"]}
{"id": "C49", "title": "Methods of generated Dart enum classes", "statement": "For every enum class in the generated Dart file: E() gives a complete object; E.createX(fields) gives a new complete object that represents the case X with those fields and writes as the bytes of that value; e.toX(fields) turns any complete object of the class into that case and changes nothing but the object and its part for X; e.isX() is true exactly when the object represents the case X.", "quantifier": "for every schema whose codecs and methods compile, every enum, case, field values, argument order and heap", "why_tests_cant": "All schemas and heaps; calls with unusual field names fail although the text looks right.", "anchors": ["src/dart_generator.rs:generate_enum_model", "src/dart/enum_models.rs:create_enum_item_struct_ast_node"]}
{"id": "C50", "title": "Generated Kotlin compiles and its defaults and constants have the declared values", "statement": "The generated Kotlin text reads back as exactly the declarations of the schema. It compiles; createDefault of every declared type gives the default value of the type (zeros, false, empty texts and lists, the first case) and fails to return exactly when the type contains itself; the objects of constants hold exactly the declared constants with their types and values. Accepted schemas whose Kotlin does not compile exist (characters, addresses, names not in Pascal case, empty cases, clashing names, values out of range).", "quantifier": "for every schema accepted by kotlin_fine or consts_fine, every declared type, every depth and every path of constants", "why_tests_cant": "All schemas and nesting depths; the expected files are compared only as text and are never compiled.", "anchors": ["src/kotlin/generator.rs:generate_models", "src/kotlin/generator.rs:generate_consts", "src/kotlin/ir.rs:stringify_tokens"]}
{"id": "C51", "title": "Generated Swift compiles and its defaults and constants have the declared values", "statement": "The generated Swift text reads back as exactly the declarations of the schema. It compiles; createDefault of every declared type returns the default value of the type (zeros, false, empty texts and arrays, the first case); the structs of constants hold exactly the declared constants with their types and values. Accepted schemas whose Swift does not compile exist (characters, addresses, names not in Pascal case, recursive structs and enums, empty cases, clashing names, 32-bit float constants, values out of range).", "quantifier": "for every schema accepted by swift_fine or consts_fine, every declared type, every depth and every path of constants", "why_tests_cant": "All schemas and nesting depths; the expected files are compared only as text and are never compiled.", "anchors": ["src/swift/generator.rs:generate_models", "src/swift/generator.rs:generate_consts", "src/swift/ir.rs:stringify_tokens"]}
{"id": "C52", "title": "Default values agree between Rust and Dart", "statement": "The type declarations and Default implementations of a generated Rust file compile; T::default() of every type of the schema ends and is the default value of the type (zeros, false, empty text and lists, the first case). createDefault of the generated Dart factory makes, of new objects only, an object that represents the same value, and both are written as the same bytes. Accepted schemas whose Rust types or defaults do not compile exist (characters, types that contain themselves, names used twice, names of the language).", "quantifier": "for every schema accepted by rust_fine and the Dart conditions, every declared type, every heap, every pair of agreeing buffer packages", "why_tests_cant": "All schemas and nesting depths; the expected files are compared only as text, and no test runs a default in either language.", "anchors": ["src/rust_generator.rs", "src/rust/struct_models.rs", "src/rust/enum_models.rs", "src/dart_generator.rs:generate_default_const"]}
{"id": "C53", "title": "Constants of the generated Rust and Dart compile and agree", "statement": "The constants of a generated Rust file compile and are exactly the declared ones, each under its path with its type and value; the same holds of the generated Dart file with the names in camel case; a constant has the same value in both, except that an f32 has it exactly if the number is one of single precision (Dart keeps a double, so 0.1 differs). Accepted schemas whose constants do not compile exist, among them the repository's own test schema for Rust (strings, whole floating-point numbers, numbers out of range, clashing names) and others for Dart (large whole floating-point numbers, dollar signs, names that become the same in camel case, names of the language).", "quantifier": "for every schema whose constants rust_consts_fine and dart_consts_fine accept, every block nesting, path, type and literal", "why_tests_cant": "All schemas; the expected files are compared only as text and never compiled: the expected Rust file of the test suite is itself not valid Rust.", "anchors": ["src/rust/consts.rs", "src/dart/consts.rs", "src/rust_generator.rs:generate_const_value", "src/dart_generator.rs:generate_const_value"]}
{"id": "C54", "title": "Two versions of a schema read each other's data, or refuse it", "statement": "A later version of a schema keeps every declaration, the fields of structs in order, and every case of an enum with its position and payload; it may add types and cases and reorder declarations. Then files generated from both versions write the same bytes for every value of the earlier version and both read them back; data of the later version that is no value of the earlier one is refused by the earlier reader (panic in Rust, StateError in Dart, for new and for filled objects), never misread; the same holds between Rust of one version and Dart of the other. A field appended to a struct that nothing mentions is left unread by the earlier reader. Any other change can be misread: a field added to a nested struct, reordered fields, cases inserted with implicit positions, a reused position.", "quantifier": "for every pair of schemas in the relation, every value of the later version, every pair of lawful buffer packages, every state, rest of input and target object", "why_tests_cant": "All pairs of schemas; every test generates one schema, and no test runs the generated code.", "anchors": ["src/rust/struct_buffers.rs", "src/rust/enum_buffers.rs", "src/dart/struct_into_buffers.rs", "src/dart/enum_into_buffers.rs", "src/dart/enum_emplace_buffers.rs", "src/parser.rs"]}
{"id": "C55", "title": "Clients and servers of two versions of a schema work together, or refuse", "statement": "Methods appended at the end of a schema keep the numbers of the earlier ones, and the later server registers the earlier handlers for them. If the later version keeps the methods and keeps their types as in the previous property, then a client generated from either version calls the server generated from the other: the server function runs once with exactly the arguments of the call, and the client gets exactly its result, for synchronous and asynchronous calls and for read streams. A result that the earlier version has no value for makes the earlier client throw a StateError; an argument that it has no value for makes the earlier handler panic without running the function. A method inserted before others is not covered: the call of an earlier client then runs another function without any sign of it.", "quantifier": "for every pair of schemas in the relation, every kept method, every argument and result, every pair of lawful and agreeing runtimes, every client and server state", "why_tests_cant": "All pairs of schemas and all executions; every test generates one schema, and no test runs the generated client or server.", "anchors": ["src/parser.rs", "src/rust/rpc.rs", "src/dart/rpc.rs"]}
{"id": "C56", "title": "The generated Dart file compiles", "statement": "For every schema whose names and types pass stated, decidable conditions, the Dart file generated from it obeys the static rules of the language: names are declared once, differ from those of the libraries where these are used, and are in scope; every expression, argument, assignment and return has the type that is asked for; calls pass the parameters of the constructor or method called; classes implement their interfaces; constructors set every field; switches cover their cases; every path of a function with a result returns or throws. This covers models, factories, codecs, constants and the remote client. Without the conditions accepted schemas give files that do not compile, each for a stated reason.", "quantifier": "all syntax trees accepted by the front end that meet the conditions, all sets of types imported from elsewhere, with and without a client", "why_tests_cant": "The tests compare generated text with stored text and never run the Dart compiler; whether a file compiles depends on the combination of all the names and types of a schema, of which the stored files show a few.", "anchors": ["src/dart_generator.rs", "src/dart/generator.rs", "src/dart/consts.rs", "src/dart/enum_models.rs", "src/dart/enum_into_buffers.rs", "src/dart/enum_emplace_buffers.rs", "src/dart/struct_into_buffers.rs", "src/dart/struct_emplace_to_buffers.rs", "src/dart/rpc.rs"]}
{"id": "C57", "title": "The generated Rust file compiles", "statement": "For every schema whose names and types pass stated, decidable conditions, the Rust file generated from it obeys the static rules of the language: names are declared once, differ from those of the libraries where these are used, and are in scope; every expression, argument, field and result has the type that is asked for, with references and dereferences where they are needed; matches are exhaustive; impls have the functions of their trait; types that are cloned derive Clone; nothing is used after it has been moved; no exclusive reference is used twice in a call or leaves the block that holds it; unsafe functions are called in unsafe blocks and await stands in async ones. This covers models, codecs, constants, registration and the handlers of remote methods, given the functions that the user provides. Without the conditions accepted schemas give files that do not compile, each for a stated reason; one is a read method that returns a number.", "quantifier": "all syntax trees accepted by the front end that meet the conditions, all sets of types imported from elsewhere, with and without remote methods", "why_tests_cant": "The tests compare generated text with stored text and do not compile it; whether a file compiles depends on the combination of all the names and types of a schema, of which the stored files show a few.", "anchors": ["src/rust_generator.rs", "src/rust/consts.rs", "src/rust/enum_models.rs", "src/rust/enum_buffers.rs", "src/rust/struct_models.rs", "src/rust/struct_buffers.rs", "src/rust/rpc.rs"]}
{"id": "C58", "title": "A constant has the same value in Rust, Dart, Kotlin and Swift", "statement": "Where the constants of a schema compile in two of the generated languages, both have the same constants under the converted paths, a path leads to one constant, and its value is the same number, truth value or text: in Rust and Kotlin always, also for f32, which both round to single precision; in Dart and Swift always; in Dart and Kotlin exactly if the constant is not an f32 that has to be rounded (0.1 differs). Where they compile in all four, each constant has one value, that of its literal. Its type in Kotlin and in Swift is the one that belongs to the name of its type in the schema (u64 is ULong and UInt64).", "quantifier": "for every source accepted by the front end whose constants compile in the languages compared, every block nesting, path, type and literal", "why_tests_cant": "All schemas and numbers; every test compares the text of one language with a stored file and never evaluates a constant.", "anchors": ["src/rust/consts.rs", "src/dart/consts.rs", "src/kotlin/generator.rs:generate_consts", "src/swift/generator.rs:generate_consts"]}
{"id": "C59", "title": "From the command and the schema file to the bytes that the generated files exchange", "statement": "After a successful run of a configuration whose outputs are different files and no sources, the bytes at each output, decoded and read as Rust or Dart, are the file generated from the source of its entry. If one schema has a Rust and a Dart entry, both files on disk compile under the conditions of C56 and C57, and for every value each file writes the same bytes and reads what the other wrote; a call of the client on disk runs the function of the server on disk once, with exactly its arguments, and gives exactly its result. The command for one file ends well whenever the schema can be translated and the output written, and changes nothing else.", "quantifier": "for every configuration, every set of files, every schema accepted by the front end, all values and states, all pairs of agreeing buffer packages", "why_tests_cant": "No test runs the program, and none compiles or runs what it generates; the claim combines the command line, the front end, both generators and the meaning of both generated files.", "anchors": ["src/main.rs:main", "src/main.rs:generate", "src/lexer.rs", "src/parser.rs", "src/rust_generator.rs", "src/dart_generator.rs"]}
{"id": "C60", "title": "Runs of a configuration depend on its sources alone and can be repeated and reordered", "statement": "If the outputs of a configuration are different files and none is a source: the run succeeds exactly if every source can be translated and every output written; it leaves in each output the translation of its source and everything else as it was; in any other world with the same sources it succeeds as well and leaves the same outputs, whatever they held before; a second run changes nothing; the same entries in another order leave the same files. If an output is a source, a second run can fail; if two entries have one output, the order matters.", "quantifier": "for every configuration, every order of its entries, all contents of all files, all sets of files that can be written", "why_tests_cant": "All worlds and configurations; no test runs the program.", "anchors": ["src/main.rs:main", "src/main.rs:generate"]}
{"id": "C61", "title": "The default of a type is the same value in Rust, Dart, Kotlin and Swift", "statement": "Where the types of a schema compile in Rust and in Kotlin or Swift, the defaults of every struct and enum end in both with a value, and the values are the same: the same fields in order under the converted names, the same case of an enum, the same numbers, truth values, empty lists and empty texts. Where they compile in Rust, Kotlin and Swift, all three agree, and so does createDefault of the generated Dart, which makes new objects that represent this value and changes no object that existed.", "quantifier": "for every source accepted by the front end whose types compile in the languages compared, every declared type, every value of the empty text, all heaps and states of Dart", "why_tests_cant": "All schemas; the tests compare generated text with stored text and never run a default in any language.", "anchors": ["src/rust/struct_models.rs", "src/rust/enum_models.rs", "src/dart_generator.rs", "src/kotlin/generator.rs", "src/swift/generator.rs"]}
{"id": "C62", "title": "Exactly the files that are UTF-8 are read, and what is written is UTF-8", "statement": "The check that decides whether a file is read accepts a sequence of bytes exactly if it is the UTF-8 encoding of a sequence of Unicode scalar values, which is then the only one. A command whose schema or configuration file is missing or not UTF-8 ends with an error and changes nothing; with a schema that is UTF-8 an error means that the output could not be written. Whatever a successful command writes, to a file or to standard output, is UTF-8, so it can be read again; a write that breaks off can leave a file that is not.", "quantifier": "for every sequence of bytes, every command and every set of files", "why_tests_cant": "All sequences of bytes; no test reads a file that is not ASCII, and none runs the program.", "anchors": ["src/main.rs:generate", "src/main.rs:main"]}
{"id": "C63", "title": "Names are converted to camel and Pascal case letter by letter, and lose gaps and case only", "statement": "For every name, Pascal case drops spaces, hyphens and underscores, makes the first letter of each word capital and all others small, where a word starts after a gap, between letters and digits, at a capital after a small letter and at the last of several capitals before a small letter; camel case differs in its first letter alone, which is small. So both merge the same names, and names that are merged differ in gaps and case only. Converted names are not stable: a_b_c becomes aBC, and that aBc.", "quantifier": "for every text", "why_tests_cant": "All names; the stored files show some dozens of names, nearly all of them in one case.", "anchors": ["src/dart_generator.rs", "src/dart/consts.rs", "src/kotlin/generator.rs", "src/swift/generator.rs"]}
{"id": "C64", "title": "Generated Rust readers accept exactly the wire format", "statement": "Whatever bytes a generated Rust reader is given: if it gives a value, this is a value of the type, the bytes consumed are exactly those that the writer writes for it, and nothing else has changed; it gives a value with some rest exactly if the bytes are those of the value followed by the rest. So the bytes of a value never start with those of another value of its type, a buffer that breaks off inside of a value gives no value, and a value that is read and written again keeps its bytes. Skipping passes over the bytes of as many values, and Dart reads what Rust accepts as the same value, where the packages agree. This holds for buffer packages whose own codecs read only what they write; with another package values come out that are none of the type.", "quantifier": "for every schema accepted by the front end that meets the conditions, every type, every sequence of bytes, every strict buffer package", "why_tests_cant": "All byte sequences; the tests never run a generated reader, and a test could only give it bytes that somebody thought of.", "anchors": ["src/rust/struct_buffers.rs", "src/rust/enum_buffers.rs", "src/rust_generator.rs"]}
{"id": "C65", "title": "Fields have the corresponding types in Rust, Dart, Kotlin and Swift", "statement": "Every struct of an accepted schema is a struct or class of each generated language with the same fields in the same order, and the type of each field is the one that belongs to its type in the schema: by its name in a table (u64 is u64, int, ULong and UInt64), lists and other generic types with the corresponding arguments at every depth, other types by their own names, addresses as 64-bit numbers in Kotlin and Swift. The same holds of the values of the cases of an enum. A type has only one corresponding type. Characters are the exception in Swift, where the name char is written, which is no type of the language.", "quantifier": "for every accepted schema whose names are names of the language, every struct and case, every type of any depth whose lists have one type of elements", "why_tests_cant": "All schemas and all nested types; the tests compare a few generated files with stored text.", "anchors": ["src/rust_generator.rs:175-198", "src/dart_generator.rs:547-575", "src/kotlin/ir.rs:327-370", "src/swift/ir.rs:289-332"]}
{"id": "C66", "title": "Generated files declare exactly the types of the schema, in order", "statement": "The models that are generated for a schema, read back by a reader of the language, declare the structs and enums of the schema with all their fields and cases, in the order of the schema, and no other type: in Rust the structs and the enums that have cases, followed, if methods are generated, by one struct for the arguments of each method that is not read, in Swift all of them under names in pascal case with members in camel case, in Kotlin a class per struct and an interface followed by one class or object per case for an enum, in Dart a class per struct and, for an enum with cases, an enumeration of the cases, a class and one class per case. A Dart file has besides only private classes for constants and at most one client class, and only if methods are generated.", "quantifier": "every schema (list of declarations of any length) whose names and types are readable in the language, every file generated from it", "why_tests_cant": "Whether something is missing, doubled, moved or added depends on the whole list of declarations: a test of one schema cannot show that no node of another schema is dropped between others or emits an additional type.", "anchors": ["src/rust_generator.rs:81-101", "src/dart_generator.rs:81-99", "src/kotlin/generator.rs:54-66", "src/swift/generator.rs:46-58"]}
{"id": "C67", "title": "The generated Rust file determines the types of the schema", "statement": "If the same Rust file of models and codecs is generated from two schemas, both have the same structs and enums in the same order, with the same names and types of fields, the same cases with the same values, and the same numbers of cases: everything that the bytes of values depend on. So no two schemas with different formats are translated to one file. Conversely, the text of the Rust models and codecs is made from these parts alone, and the whole Rust file and the whole Dart file from the types, methods, constants and directives, each kind in its order: how the kinds are mixed does not matter. The same holds of the models and constants of Kotlin and Swift. The Kotlin models do not determine the types: the numbers of cases are missing there.", "quantifier": "every pair of sources accepted by the front end whose names are readable in Rust, of any length, all nestings of types", "why_tests_cant": "It is a claim about all pairs of schemas: a test shows the file of one schema, and can never exclude that another schema with another format gives the same file.", "anchors": ["src/rust_generator.rs:81-123", "src/rust_generator.rs:generate_type_id", "src/rust/enum_buffers.rs", "src/kotlin/generator.rs:54-66"]}
