{
 "claims": [
  {
   "property": "C01",
   "status": "proved",
   "theorems": [
    "C01_tokenize_finishes",
    "C01_one_eof_at_the_end",
    "C01_reading_past_the_end"
   ],
   "note": ""
  },
  {
   "property": "C02",
   "status": "proved",
   "theorems": [
    "C02_layout_is_irrelevant",
    "C02_layout_then_anything",
    "C02_same_tokens_same_stream"
   ],
   "note": ""
  },
  {
   "property": "C03",
   "status": "proved",
   "theorems": [
    "C03_plain_comment_disappears",
    "C03_comment_decides",
    "C03_odd_stars_close",
    "C03_even_stars_do_not_close",
    "C03_empty_comment_swallows"
   ],
   "note": ""
  },
  {
   "property": "C04",
   "status": "proved",
   "theorems": [
    "C04_words",
    "C04_word_token_unique"
   ],
   "note": ""
  },
  {
   "property": "C05",
   "status": "proved",
   "theorems": [
    "C05_integer_literals",
    "C05_literals_in_range",
    "C05_literals_not_negative",
    "C05_literals_not_negative_refuted"
   ],
   "note": "C05_literals_not_negative_refuted shows the exception named in the statement: 0x_-F is read as -15."
  },
  {
   "property": "C06",
   "status": "proved",
   "theorems": [
    "C06_string_literals",
    "C06_unclosed_string_is_rejected",
    "C06_bytes_survive_iff_ascii",
    "C06_encoding_is_local"
   ],
   "note": ""
  },
  {
   "property": "C07",
   "status": "proved",
   "theorems": [
    "C07_tab_is_a_symbol",
    "C07_lone_slash",
    "C07_slash_at_the_end",
    "C07_foreign_symbol",
    "C07_tab_is_rejected",
    "C07_tab_is_rejected_refuted"
   ],
   "note": "C07_tab_is_rejected_refuted: a tab is accepted where the unchecked closing parenthesis of a directive group stands; C07_foreign_symbol says this is the only place."
  },
  {
   "property": "C08",
   "status": "proved",
   "theorems": [
    "C08_parse_finishes",
    "C08_front_end_finishes"
   ],
   "note": ""
  },
  {
   "property": "C09",
   "status": "proved",
   "theorems": [
    "C09_tokens_round_trip",
    "C09_text_round_trip",
    "C09_accepted_is_printable",
    "C09_reformat"
   ],
   "note": "Token level and text level, for every style (positions left out or written, trailing commas) and every layout. C09_reformat covers every accepted source text whose integer constants are not negative and whose floats are finite."
  },
  {
   "property": "C10",
   "status": "proved",
   "theorems": [
    "C10_exactly_the_grammar",
    "C10_everything_else_panics",
    "C10_grammar_is_unambiguous"
   ],
   "note": "Equivalence with the grammar of Grammar.v; rules marked MALFORMED list the odd forms that are accepted."
  },
  {
   "property": "C11",
   "status": "proved",
   "theorems": [
    "C11_concatenation",
    "C11_texts"
   ],
   "note": ""
  },
  {
   "property": "C12",
   "status": "proved",
   "theorems": [
    "C12_method_numbers",
    "C12_method_numbers_distinct"
   ],
   "note": ""
  },
  {
   "property": "C13",
   "status": "proved",
   "theorems": [
    "C13_struct",
    "C13_struct_variant",
    "C13_tuple_variant",
    "C13_enum",
    "C13_rule_is_functional",
    "C13_every_list"
   ],
   "note": ""
  },
  {
   "property": "C14",
   "status": "proved",
   "theorems": [
    "C14_enums_have_variants",
    "C14_empty_braces_are_rejected",
    "C14_types_are_sized",
    "C14_names_are_words",
    "C14_literals_are_from_the_source"
   ],
   "note": ""
  },
  {
   "property": "C15",
   "status": "proved",
   "theorems": [
    "C15_rust_fails_exactly",
    "C15_rust_succeeds_otherwise"
   ],
   "note": ""
  },
  {
   "property": "C16",
   "status": "proved",
   "theorems": [
    "C16_dart_fails_exactly",
    "C16_dart_succeeds_otherwise"
   ],
   "note": ""
  },
  {
   "property": "C17",
   "status": "proved",
   "theorems": [
    "C17_round_trip",
    "C17_struct_round_trip"
   ],
   "note": "The generated text is read back by the Rust reader and run by the interpreter RustSem.v, for schemas that rust_ready and codecs_ok accept (no reserved names, no duplicate fields, positions below 2^32). The byte codecs of primitives, foreign types and containers are the runtime record, with the laws of Wire.lawful; le_runtime is an instance."
  },
  {
   "property": "C18",
   "status": "proved",
   "theorems": [
    "C18_enum_round_trip",
    "C18_enum_bytes",
    "C18_shared_position",
    "C18_field_hides_writer_refuted"
   ],
   "note": "C18_shared_position is the converse; C18_field_hides_writer_refuted shows why the names of codecs_ok are excluded."
  },
  {
   "property": "C19",
   "status": "proved",
   "theorems": [
    "C19_skip_is_reading",
    "C19_skip_written"
   ],
   "note": ""
  },
  {
   "property": "C20",
   "status": "proved",
   "theorems": [
    "C20_rust_unknown_tag_panics",
    "C20_dart_unknown_tag_throws"
   ],
   "note": "Rust and Dart; the Dart skip methods too."
  },
  {
   "property": "C21",
   "status": "proved",
   "theorems": [
    "C21_round_trip",
    "C21_bytes",
    "C21_one_value"
   ],
   "note": "The generated Dart text is read back by the Dart reader and run by the interpreter DartSem.v, for schemas that dart_ready and dart_codecs_ok accept. Objects live on a heap; rep says which heap object represents which value. The byte codecs of the Dart buffers package are the druntime record, characterised by its laws."
  },
  {
   "property": "C22",
   "status": "proved",
   "theorems": [
    "C22_same_bytes",
    "C22_fills",
    "C22_shared_target_refuted"
   ],
   "note": "The target must have the shape of its type and no shared parts; C22_shared_target_refuted shows why."
  },
  {
   "property": "C23",
   "status": "proved",
   "theorems": [
    "C23_plain",
    "C23_once",
    "C23_struct_consumes",
    "C23_count_refuted",
    "C23_zero_refuted",
    "C23_order_refuted",
    "C23_bulk_list_refuted"
   ],
   "note": "C23_plain: agreement with reading; C23_struct_consumes: exactly what a struct skip consumes; C23_count_refuted, C23_zero_refuted, C23_order_refuted and C23_bulk_list_refuted exhibit the differences."
  },
  {
   "property": "C24",
   "status": "proved",
   "theorems": [
    "C24_same_bytes",
    "C24_integers",
    "C24_number_lists_refuted",
    "C24_char_refuted"
   ],
   "note": "For values without chars and without lists of primitives (portable), given that the two buffer packages agree on each primitive (agree). C24_char_refuted and C24_number_lists_refuted show that the two exceptions cannot be removed."
  },
  {
   "property": "C25",
   "status": "proved",
   "theorems": [
    "C25_reading",
    "C25_writing"
   ],
   "note": "Rust codecs; case names must be distinct for the writers."
  },
  {
   "property": "C26",
   "status": "proved",
   "theorems": [
    "C26_same_rust_file",
    "C26_same_dart_file"
   ],
   "note": "Equality of the whole generated file, Rust and Dart; that the layout follows the textual order is C17_struct_round_trip."
  },
  {
   "property": "C27",
   "status": "proved",
   "theorems": [
    "C27_rust",
    "C27_dart"
   ],
   "note": "Rust: whole file, read back by the Rust reader, for schemas without Rust-reserved names, special characters in strings, or infinite floats (rust_ready). Dart: the text of every constant expression."
  },
  {
   "property": "C28",
   "status": "proved",
   "theorems": [
    "C28_exact",
    "C28_swift_kotlin",
    "C28_literals",
    "C28_rust_float_refuted",
    "C28_overflow_refuted"
   ],
   "note": "C28_rust_float_refuted and C28_overflow_refuted exhibit the two bad texts: 16 for a float and inf."
  },
  {
   "property": "C29",
   "status": "proved",
   "theorems": [
    "C29_rust",
    "C29_dart"
   ],
   "note": ""
  },
  {
   "property": "C30",
   "status": "proved",
   "theorems": [
    "C30_rust",
    "C30_dart"
   ],
   "note": ""
  },
  {
   "property": "C31",
   "status": "proved",
   "theorems": [
    "C31_new_client",
    "C31_same_numbers",
    "C31_registration",
    "C31_numbers_distinct"
   ],
   "note": "C31_registration: running register_rpc of the generated Rust file registers every method once, in order, under its position, with its own handler. C31_numbers_distinct: numbers and handlers are pairwise distinct. C31_same_numbers: the generated Dart client uses the number its handler is registered under, for its tasks, its requests and its responses."
  },
  {
   "property": "C32",
   "status": "proved",
   "theorems": [
    "C32_client_call",
    "C32_round_trip",
    "C32_client_status",
    "C32_sync_call",
    "C32_sync_call_panics"
   ],
   "note": "C32_round_trip runs both generated files end to end. It assumes that the two packages use the same bytes for primitives (agree), that the Dart package reads the has-data flag as -1 (same_status; C32_client_status shows the call fails otherwise), that the values are portable (C24: no lists of narrow integers or floats) and that loopSyncGroup runs the handler."
  },
  {
   "property": "C33",
   "status": "proved",
   "theorems": [
    "C33_sync_once",
    "C33_idle",
    "C33_async_once"
   ],
   "note": "Synchronous and asynchronous methods; any number of later runs, interleaved with any steps that keep the request buffer."
  },
  {
   "property": "C34",
   "status": "proved",
   "theorems": [
    "C34_client_call",
    "C34_client_answer",
    "C34_any_order",
    "C34_round_trip",
    "C34_client_idle",
    "C34_every_response_arrives_refuted",
    "C34_async_identity"
   ],
   "note": "C34_async_identity (handler), C34_client_call, C34_client_answer, C34_any_order (client; each response is read before the next one of the same method is written), C34_round_trip (both, with arbitrary other activity in between). C34_every_response_arrives_refuted: if the server completes two calls of one method before the client reads, the first response is overwritten and its call stays pending for ever."
  },
  {
   "property": "C35",
   "status": "proved",
   "theorems": [
    "C35_none_blocks",
    "C35_some_releases"
   ],
   "note": "Both directions: blocked after None, released after Some."
  },
  {
   "property": "C36",
   "status": "proved",
   "theorems": [
    "C36_read_runs",
    "C36_primitive_read_stuck",
    "C36_primitive_async_read_stuck"
   ],
   "note": "A primitive-returning read is stuck (C36_primitive_*_stuck); other reads run (C36_read_runs, C35_some_releases), non-read methods run (C32_sync_call, C34_async_identity), codecs run (C17, C18)."
  },
  {
   "property": "C37",
   "status": "proved",
   "theorems": [
    "C37_nothing_written_before_success",
    "C37_output_of_a_run",
    "C37_other_files_untouched",
    "C37_failed_run"
   ],
   "note": ""
  },
  {
   "property": "C38",
   "status": "proved",
   "theorems": [
    "C38_paths",
    "C38_standard_output",
    "C38_config_directory",
    "C38_config",
    "C38_joined",
    "C38_stops_at_the_first_failure",
    "C38_later_outputs_untouched",
    "C38_earlier_outputs_written"
   ],
   "note": "C38_config covers main on a parsed configuration; C38_paths, C38_joined and C38_config_directory say which files it names. YAML parsing is an arbitrary function."
  },
  {
   "property": "C39",
   "status": "proved",
   "theorems": [
    "C39_swift",
    "C39_kotlin",
    "C39_appending_calls"
   ],
   "note": ""
  },
  {
   "property": "C40",
   "status": "proved",
   "theorems": [
    "C40_reads_back",
    "C40_injective",
    "C40_dart_refuted"
   ],
   "note": "C40_dart_refuted: Dart type expressions are not injective."
  },
  {
   "property": "C41",
   "status": "proved",
   "theorems": [
    "C41_same_file",
    "C41_lists",
    "C41_scalars"
   ],
   "note": ""
  },
  {
   "property": "C42",
   "status": "proved",
   "theorems": [
    "C42_camel_injective",
    "C42_pascal_injective",
    "C42_camel_of_snake",
    "C42_refuted"
   ],
   "note": "C42_refuted: two fields of one struct merged in the Dart text."
  },
  {
   "property": "C43",
   "status": "proved",
   "theorems": [
    "C43_swift_constants",
    "C43_kotlin_constants",
    "C43_swift_models",
    "C43_kotlin_models"
   ],
   "note": ""
  },
  {
   "property": "C44",
   "status": "proved",
   "theorems": [
    "C44_plain_first",
    "C44_plain_missing",
    "C44_group_all",
    "C44_group_first"
   ],
   "note": ""
  },
  {
   "property": "C45",
   "status": "proved",
   "theorems": [
    "C45_float_literals",
    "C45_nearest_is_unique"
   ],
   "note": ""
  },
  {
   "property": "C46",
   "status": "proved",
   "theorems": [
    "C46_default_targets"
   ],
   "note": ""
  },
  {
   "property": "C47",
   "status": "proved",
   "theorems": [
    "C47_stream_adds",
    "C47_read_round_trip",
    "C47_async_read_round_trip",
    "C47_repeated_read"
   ],
   "note": "Round trips for reads whose return type is not a primitive; a primitive read has no running handler (C36)."
  },
  {
   "property": "C48",
   "status": "proved",
   "theorems": [
    "C48_disconnect"
   ],
   "note": ""
  },
  {
   "property": "C49",
   "status": "proved",
   "theorems": [
    "C49_new",
    "C49_create",
    "C49_to",
    "C49_is",
    "C49_parameter_names_refuted"
   ],
   "note": "Needs creates_ok/turns_ok: no field named like a name the method uses. C49_parameter_names_refuted shows that this cannot be dropped."
  },
  {
   "property": "C50",
   "status": "proved",
   "theorems": [
    "C50_models_read",
    "C50_consts_read",
    "C50_defaults",
    "C50_constants",
    "C50_terminates_refuted",
    "C50_compiles_refuted",
    "C50_constants_compile_refuted"
   ],
   "note": "C50_defaults and C50_constants hold for schemas that kotlin_fine and consts_fine accept. C50_compiles_refuted, C50_constants_compile_refuted and C50_terminates_refuted show accepted schemas outside of them whose Kotlin does not compile or never returns. A Float constant is rounded to single precision. The generators of Kotlin are not reachable from the command line."
  },
  {
   "property": "C51",
   "status": "proved",
   "theorems": [
    "C51_models_read",
    "C51_consts_read",
    "C51_defaults",
    "C51_constants",
    "C51_compiles_refuted",
    "C51_constants_compile_refuted"
   ],
   "note": "C51_defaults and C51_constants hold for schemas that swift_fine and consts_fine accept. C51_compiles_refuted and C51_constants_compile_refuted show accepted schemas outside of them whose Swift does not compile. The generators of Swift are not reachable from the command line."
  },
  {
   "property": "C52",
   "status": "proved",
   "theorems": [
    "C52_rust_defaults",
    "C52_compiles_refuted",
    "C52_dart_default",
    "C52_same_default"
   ],
   "note": "C52_rust_defaults holds for schemas that rust_fine accepts; C52_compiles_refuted shows accepted schemas outside of it whose Rust does not compile. C52_dart_default and C52_same_default assume of the libraries that 0.0 is the float zero (zeros), and C52_same_default, for the bytes, that the default value is portable (no char, no list of numbers), as C24 does. Kotlin and Swift are compared with the same default values in C50 and C51."
  },
  {
   "property": "C53",
   "status": "proved",
   "theorems": [
    "C53_rust_constants",
    "C53_rust_compiles_refuted",
    "C53_dart_constants",
    "C53_dart_compiles_refuted",
    "C53_same_constants",
    "C53_same_single_refuted"
   ],
   "note": "C53_rust_constants and C53_dart_constants hold for schemas that rust_consts_fine and dart_consts_fine accept. C53_rust_compiles_refuted (with test_resources/consts.tpb) and C53_dart_compiles_refuted show accepted schemas outside of them that do not compile. Rust rounds an f32 literal correctly to 32 bits (Single.v, proved nearest with ties to even); C53_same_single_refuted shows an f32 constant that differs between Rust and Dart. Kotlin and Swift constants: C50, C51. Imported names are not looked at."
  },
  {
   "property": "C54",
   "status": "proved",
   "theorems": [
    "C54_rust_older_data",
    "C54_rust_newer_data",
    "C54_appended_fields",
    "C54_nested_field_refuted",
    "C54_field_order_refuted",
    "C54_implicit_position_refuted",
    "C54_reused_position_refuted",
    "C54_dart_older_data",
    "C54_dart_newer_data",
    "C54_across"
   ],
   "note": "rust_version and dart_version collect the hypotheses of C17 and C21 and add that the cases of an enum have different names (and, in Dart, that old enums have a case). The Dart theorems ask that the later file declares the classes of the earlier one (incl), and C54_across that the value is portable, as in C24. The _refuted theorems exhibit pairs of accepted schemas, outside the relation, where the earlier reader returns a wrong value."
  },
  {
   "property": "C55",
   "status": "proved",
   "theorems": [
    "C55_same_numbers",
    "C55_registered",
    "C55_old_client",
    "C55_new_client",
    "C55_new_client_refused",
    "C55_old_client_async",
    "C55_new_client_async",
    "C55_old_client_read",
    "C55_new_client_read",
    "C55_old_client_async_read",
    "C55_new_client_async_read",
    "C55_inserted_refuted"
   ],
   "note": "services collects what C32, C34 and C47 ask of the server file and the client file of each version, with the conditions of C54 on the two; kept_method says that a method and its number are in both and that C54's relation holds for its types, in the declarations of either language. The synchronous theorems take, as C32 does, what the loop of the runtime does as a hypothesis. C55_inserted_refuted shows that the order of methods matters."
  },
  {
   "property": "C56",
   "status": "proved",
   "theorems": [
    "C56_compiles",
    "C56_compiles_refuted"
   ],
   "note": "compiles (DartStatic.v) is a checker for the static rules of Dart on the trees that dart_file reads from the generated text; it is written without reference to the generator and is at places stricter than Dart. What the generated code uses of tech_paws_buffers, tech_paws_runtime and the Dart libraries (known, lib_codec, interface, lib_member) and the types imported from elsewhere (ext) are part of the trusted base. The hypotheses are those of C21 and C53 and dart_fine. C56_compiles_refuted lists accepted sources outside of them whose files do not compile."
  },
  {
   "property": "C57",
   "status": "proved",
   "theorems": [
    "C57_compiles",
    "C57_compiles_refuted"
   ],
   "note": "compiles (RustStatic.v) is a checker for the static rules of Rust on the trees that rust_file reads from the generated text, with types, places, moves and exclusive borrows; it is written without reference to the generator and is at places stricter than Rust. What the generated code uses of tech_paws_buffers, tech_paws_runtime, uuid and the standard library (lib_types, field_of, method_of, maker_of, trait_fns) and the functions and types of the user (fns, ext) are part of the trusted base. The hypotheses are those of C52 and C53 and rust_code_fine. C57_compiles_refuted lists accepted sources outside of them whose files do not compile, among them every read of a number (src/rust/rpc.rs:333-344, 400-412); C57_rules lists edits of a generated file that the rules refuse."
  },
  {
   "property": "C58",
   "status": "proved",
   "theorems": [
    "C58_rust_kotlin",
    "C58_dart_swift",
    "C58_dart_kotlin",
    "C58_dart_kotlin_refuted",
    "C58_same_constants",
    "C58_kotlin_types",
    "C58_swift_types"
   ],
   "note": "Built on C50_constants, C51_constants, C53_rust_constants and C53_dart_constants, so the conditions are theirs: no strings in Rust, no f32 in Swift, no negative numbers. C58_dart_kotlin_refuted shows the f32 constant 0.1, which Kotlin rounds to single precision and Dart does not. C58_kotlin_types and C58_swift_types compare types by name with tables of their own."
  },
  {
   "property": "C59",
   "status": "proved",
   "theorems": [
    "C59_outputs",
    "C59_config",
    "C59_config_call",
    "C59_generate_rust",
    "C59_generate_dart"
   ],
   "note": "C59_outputs, C59_config and C59_config_call assume that the run of the configuration succeeded (when it does is C37 and C38); C59_generate_rust and C59_generate_dart prove that a run for one file succeeds. Files are a function of the path text, so two spellings of one path are two files. The conditions on the schema are those of C24, C32, C56 and C57."
  },
  {
   "property": "C60",
   "status": "proved",
   "theorems": [
    "C60_succeeds_exactly",
    "C60_result",
    "C60_sources_only",
    "C60_again",
    "C60_again_refuted",
    "C60_any_order",
    "C60_any_order_refuted"
   ],
   "note": "apart: the outputs are pairwise different, none is a source or standard output. C60_again_refuted and C60_any_order_refuted show what happens without it. The parser of the configuration is an arbitrary function; files are a function of the path text."
  },
  {
   "property": "C61",
   "status": "proved",
   "theorems": [
    "C61_rust_kotlin",
    "C61_rust_swift",
    "C61_same_defaults"
   ],
   "note": "Built on C50_defaults, C51_defaults and C52, so the conditions are theirs. kotlin_same and swift_same compare values of two languages and know neither the schema nor the generators. C61_apart lists pairs of values that they tell apart."
  },
  {
   "property": "C62",
   "status": "proved",
   "theorems": [
    "C62_utf8",
    "C62_one_text",
    "C62_refused",
    "C62_read",
    "C62_written",
    "C62_written_refuted"
   ],
   "note": "Added because a changed valid_utf8 went unnoticed by all other theorems. is_text is the definition of the Unicode standard. C62_written_refuted: after an error while writing, the file on disk can break off inside of a letter."
  },
  {
   "property": "C63",
   "status": "proved",
   "theorems": [
    "C63_conversions",
    "C63_same_merges",
    "C63_merged",
    "C63_letters",
    "C63_stable_refuted"
   ],
   "note": "Added because a conversion that ignores acronyms was noticed by an example only. The conversions belong to the crate convert_case, which is not in /repo; CaseConv transcribes its documented behaviour and CaseSpec states it letter by letter."
  },
  {
   "property": "C64",
   "status": "proved",
   "theorems": [
    "C64_reads_wire",
    "C64_exactly",
    "C64_prefix_free",
    "C64_truncated",
    "C64_forwarded",
    "C64_reads_wire_refuted",
    "C64_skipped",
    "C64_dart"
   ],
   "note": "strict is an assumption on the buffer package (tech_paws_buffers, not in /repo), met by StrictSpec.le_strict and not by Wire.le_runtime (C64_reads_wire_refuted: a truth value of 2). plain_types asks that no type is called Self or like a primitive type and that generic types have arguments. A reader that gives no value panics or runs out of fuel. C64_dart asks what C24 asks: packages that agree and a portable value."
  },
  {
   "property": "C65",
   "status": "proved",
   "theorems": [
    "C65_rust",
    "C65_kotlin",
    "C65_swift",
    "C65_dart",
    "C65_one_type",
    "C65_swift_refuted"
   ],
   "note": "The readiness conditions ask that names are words that are no keywords of the language. C65_swift leaves out types with characters; C65_swift_refuted shows why. Names of fields are converted by camel (C63), those of Rust and of Kotlin cases are kept."
  },
  {
   "property": "C66",
   "status": "proved",
   "theorems": [
    "C66_rust",
    "C66_swift",
    "C66_kotlin",
    "C66_dart"
   ],
   "note": "The readiness conditions ask that names are words that are no keywords of the language. Factory and codec classes of Dart, which implement an interface of the package, are not counted; what they do is C20 to C24."
  },
  {
   "property": "C67",
   "status": "proved",
   "theorems": [
    "C67_rust_file",
    "C67_rust_text",
    "C67_rust_kinds",
    "C67_dart_kinds",
    "C67_kotlin_kinds",
    "C67_swift_kinds",
    "C67_kotlin_refuted"
   ],
   "note": "Files with models and codecs, without methods. The readiness condition asks that names are words that are no keywords of Rust. C67_kotlin_refuted shows that Kotlin models leave out the numbers of cases."
  }
 ]
}