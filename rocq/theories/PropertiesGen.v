(** Property theorems about the generated text as a whole: C29, C30, C39 - C43.  After each theorem,
    a concrete case that meets its hypotheses, and its axioms. *)
Require Import Coq.Strings.String Coq.Strings.Ascii.
Require Import Coq.NArith.NArith Coq.ZArith.ZArith Coq.Lists.List Coq.Bool.Bool Coq.micromega.Lia.
Require Import Verif.Base Verif.F64 Verif.Ast Verif.Lexer Verif.LexSpec Verif.LexProofs Verif.LexMore Verif.LexFacts
  Verif.Parser Verif.Grammar Verif.GrammarMore Verif.ParseProofs Verif.Printer Verif.PrintProofs Verif.TextPrinter Verif.Names
  Verif.ParseFacts Verif.Writer Verif.CaseConv Verif.RunFacts.
Require Verif.RustGen Verif.DartGen Verif.SwiftGen Verif.KotlinGen.
Require Import Verif.GenFacts.
Import ListNotations.
Local Open Scope string_scope.

Theorem C29_rust : forall ast models buffers rpc s,
  RustGen.rust_generate ast models buffers rpc = Ok s -> one_final_newline s.
Proof. exact lem_C29_rust. Qed.

Theorem C29_dart : forall ast models buffers rpc s,
  DartGen.dart_generate ast models buffers rpc = Ok s -> one_final_newline s.
Proof. exact lem_C29_dart. Qed.
Example C29_case :
  match compile_front "struct A { x: i32 } enum B { C(i64) } const K { k: bool = true; }" with
  | Ok ast => match RustGen.rust_generate ast true true true, DartGen.dart_generate ast true true true with
    | Ok s, Ok t => (500 <? String.length s)%nat = true /\ ends_with ("}" ++ nl) s = true /\ ends_with ("}" ++ nl) t = true
    | _, _ => False end
  | _ => False
  end.
Proof.
  vm_compute.
  repeat split.
Qed.
Print Assumptions C29_rust.
Print Assumptions C29_dart.

(** The output, up to blank lines cut at its end, is made of pieces that do not depend on the switches: the
    switches only decide which pieces appear.  The import lines are chosen among two texts. *)
Theorem C30_rust : forall ast, exists head rpc_imports buffer_import uses consts M B R,
  forall models buffers rpc s, RustGen.rust_generate ast models buffers rpc = Ok s ->
    one_final_newline s /\
    exists n, s ++ repeat_string nl n =
      head ++ (if rpc && existsb is_method ast then rpc_imports else on buffers buffer_import) ++ uses ++ consts ++
      on models M ++ on buffers B ++ on rpc R.
Proof. exact lem_C30_rust. Qed.

Theorem C30_dart : forall ast, exists head rpc_imports buffer_imports imports consts M B R,
  forall models buffers rpc s, DartGen.dart_generate ast models buffers rpc = Ok s ->
    one_final_newline s /\
    exists n, s ++ repeat_string nl n =
      head ++ (if rpc && existsb is_method ast then rpc_imports else on buffers buffer_imports) ++ imports ++ consts ++
      on models M ++ on buffers B ++ on rpc R.
Proof. exact lem_C30_dart. Qed.
Example C30_case :
  match compile_front "struct A { x: i32 } #[namespace = ""n""] #[id = ""i""] fn f() -> A;" with
  | Ok ast =>
      let check (m b r : bool) :=
        match RustGen.rust_generate ast m b r with
        | Ok s => Bool.eqb (occurs "pub struct A" s) m && Bool.eqb (occurs "impl IntoVMBuffers for A" s) b && Bool.eqb (occurs "pub fn f_rpc_handler" s) r
        | _ => false end in
      forallb (fun m => forallb (fun b => forallb (check m b) [true; false]) [true; false]) [true; false] = true
  | _ => False
  end.
Proof.
  vm_compute.
  reflexivity.
Qed.
Print Assumptions C30_rust.
Print Assumptions C30_dart.

(** Whatever token list the Swift or Kotlin printer accepts, its writer calls are balanced. *)
Theorem C39_swift : forall tokens cs, SwiftGen.write_tokens_from SwiftGen.write_token None tokens = Ok cs -> balanced cs.
Proof. exact lem_C39_swift. Qed.

Theorem C39_kotlin : forall tokens cs, KotlinGen.write_tokens_from KotlinGen.write_token None tokens = Ok cs -> balanced cs.
Proof. exact lem_C39_kotlin. Qed.

(** The Rust and Dart generators only append: no list of their calls changes the level. *)
Theorem C39_appending_calls : forall ops, balanced (map Do ops).
Proof. exact lem_C39_appending_calls. Qed.
Example C39_case :
  match compile_front "const A { x: i32 = 1; const B { y: bool = true; } }" with
  | Ok ast => match SwiftGen.write_tokens_from SwiftGen.write_token None (SwiftGen.generate_consts ast) with
    | Ok cs => (2 <=? length (filter (fun c => match c with PushTab => true | _ => false end) cs))%nat = true
    | _ => False end
  | _ => False
  end.
Proof.
  vm_compute.
  reflexivity.
Qed.

(** Lists of calls that are not balanced. *)
Example C39_unbalanced : ~ balanced [PushTab] /\ ~ balanced [PopTab; PushTab].
Proof.
  split; intros B; destruct (B writer_default) as (w & R & N & _); [injection R as <-; discriminate N|discriminate R].
Qed.
Print Assumptions C39_swift.
Print Assumptions C39_kotlin.
Print Assumptions C39_appending_calls.

Theorem C43_swift_constants : forall ts ast, parse ts = Ok ast ->
  (SwiftGen.stringify_tokens (SwiftGen.generate_consts ast) = Panic <-> misfit ast) /\
  (~ misfit ast -> exists s, SwiftGen.stringify_tokens (SwiftGen.generate_consts ast) = Ok s).
Proof. exact lem_C43_swift_constants. Qed.

Theorem C43_kotlin_constants : forall ts ast, parse ts = Ok ast ->
  (KotlinGen.stringify_tokens (KotlinGen.generate_consts ast) = Panic <-> misfit ast) /\
  (~ misfit ast -> exists s, KotlinGen.stringify_tokens (KotlinGen.generate_consts ast) = Ok s).
Proof. exact lem_C43_kotlin_constants. Qed.

Theorem C43_swift_models : forall ts ast, parse ts = Ok ast ->
  exists tokens s, SwiftGen.generate_models ast = Ok tokens /\ SwiftGen.stringify_tokens tokens = Ok s.
Proof. exact lem_C43_swift_models. Qed.

Theorem C43_kotlin_models : forall ts ast, parse ts = Ok ast ->
  exists tokens s, KotlinGen.generate_models ast = Ok tokens /\ KotlinGen.stringify_tokens tokens = Ok s.
Proof. exact lem_C43_kotlin_models. Qed.

(** A schema with a constant that does not fit, inside a nested block, and one where all fit. *)
Example C43_case :
  match compile_front "const A { x: i32 = 1; const B { y: f64 = 1; } }", compile_front "const A { x: i32 = 1; const B { y: f64 = 1.5; } } struct S { a: Vec<Map<i8, f32>> }" with
  | Ok bad, Ok good =>
      misfit bad /\ SwiftGen.stringify_tokens (SwiftGen.generate_consts bad) = Panic /\ KotlinGen.stringify_tokens (KotlinGen.generate_consts bad) = Panic
      /\ (exists s, SwiftGen.stringify_tokens (SwiftGen.generate_consts good) = Ok s) /\ (exists s, KotlinGen.stringify_tokens (KotlinGen.generate_consts good) = Ok s)
  | _, _ => False
  end.
Proof.
  front.
  front.
  split; [|split; [|split; [|split]]]; try (vm_compute; reflexivity); try (vm_compute; eexists; reflexivity).
  eexists _, _, _.
  split; [now left|].
  split; [eapply const_below; [right; now left|]; eapply const_here; now left|].
  intros F.
  inversion F.
Qed.
Print Assumptions C43_swift_constants.
Print Assumptions C43_kotlin_constants.
Print Assumptions C43_swift_models.
Print Assumptions C43_kotlin_models.

(** Reading the printed type back with the schema parser gives the type. *)
Theorem C40_reads_back : forall t, schema_type t ->
  compile_front (one_field (RustGen.generate_type_id t)) = Ok [NStruct (mk_struct "S" [mk_struct_field 0 "x" t] true true)].
Proof. exact lem_C40_reads_back. Qed.

Theorem C40_injective : forall t u, schema_type t -> schema_type u -> RustGen.generate_type_id t = RustGen.generate_type_id u -> t = u.
Proof. exact lem_C40_injective. Qed.

(** The Dart printer is not injective. *)
Theorem C40_dart_refuted : exists t u, schema_type t /\ schema_type u /\ DartGen.generate_type_id t = DartGen.generate_type_id u /\ t <> u.
Proof. exact lem_C40_dart_refuted. Qed.
Example C40_case : schema_type (TyGeneric "Vec" [TyGeneric "Map" [TyInteger "i8" 1 true; TyOther "A"]])
  /\ RustGen.generate_type_id (TyGeneric "Vec" [TyGeneric "Map" [TyInteger "i8" 1 true; TyOther "A"]]) = "Vec<Map<i8, A>>".
Proof.
  split; [|reflexivity].
  exists "struct S { a: Vec<Map<i8,A>> }", [NStruct (mk_struct "S" [mk_struct_field 0 "a" (TyGeneric "Vec" [TyGeneric "Map" [TyInteger "i8" 1 true; TyOther "A"]])] true true)].
  eexists.
  split; [vm_compute; reflexivity|].
  split; [left; reflexivity|].
  left.
  reflexivity.
Qed.
Print Assumptions C40_reads_back.
Print Assumptions C40_injective.
Print Assumptions C40_dart_refuted.

Theorem C42_camel_injective : forall a b, snake a -> snake b -> camel a = camel b -> a = b.
Proof. exact lem_C42_camel_injective. Qed.

Theorem C42_pascal_injective : forall a b, snake a -> snake b -> pascal a = pascal b -> a = b.
Proof. exact lem_C42_pascal_injective. Qed.

(** What the conversion gives on such names. *)
Theorem C42_camel_of_snake : forall w ws, Forall lower_word (w :: ws) ->
  camel (join "_" (w :: ws)) = w ++ String.concat "" (map (fun v => match v with "" => "" | String c r => String (ascii_of_N (N_of_ascii c - 32)) r end) ws).
Proof. exact lem_C42_camel_of_snake. Qed.

(** In general names are merged, and an accepted schema can have two fields that become one Dart field. *)
Theorem C42_refuted : exists src s f g, compile_front src = Ok [NStruct s] /\ sn_fields s = [f; g] /\
  sf_name f <> sf_name g /\ camel (sf_name f) = camel (sf_name g) /\
  exists text, DartGen.dart_generate [NStruct s] true true false = Ok text /\
    occurs ("  int aB;" ++ nl ++ "  int aB;" ++ nl) text = true.
Proof. exact lem_C42_refuted. Qed.
Example C42_case : snake "say_hello_world" /\ snake "b" /\ ~ snake "aB" /\ camel "say_hello_world" = "sayHelloWorld" /\ pascal "say_hello_world" = "SayHelloWorld".
Proof.
  split; [exists ["say"; "hello"; "world"]|split; [exists ["b"]|split; [|split; reflexivity]]].
  1,2: split; [discriminate|]; split; [|reflexivity]; repeat constructor; try discriminate; cbn; lia.
  intros ([|w [|v ws]] & N & F & E); [congruence|..]; inversion F as [|? ? [_ W] F']; subst; cbn [join] in E.
  - subst w.
  cbn in W.
  lia.
  - destruct w as [|c [|d w]]; cbn in E; [discriminate|discriminate|].
  injection E as <- <- E.
  cbn in W.
  lia.
Qed.
Print Assumptions C42_camel_injective.
Print Assumptions C42_pascal_injective.
Print Assumptions C42_camel_of_snake.
Print Assumptions C42_refuted.
