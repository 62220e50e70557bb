(** Property theorems about the command: C37 (a failed run), C38 (batches), C44 (directive look-ups)
    and about the failures of the two generators it can run: C15, C16.  After each theorem, a
    concrete case that meets its hypotheses, and its axioms. *)
Require Import Coq.Strings.String Coq.Strings.Ascii.
Require Import Coq.NArith.NArith Coq.ZArith.ZArith Coq.Lists.List Coq.Bool.Bool Coq.micromega.Lia.
Require Import Verif.Base Verif.F64 Verif.Ast Verif.Lexer Verif.Parser Verif.ParseFacts Verif.Writer Verif.MainModel.
Require Verif.RustGen Verif.DartGen.
Require Import Verif.RunFacts.
Import ListNotations.
Local Open Scope string_scope.
Local Open Scope list_scope.

Theorem C44_plain_first : forall ast id v,
  find_directive_value ast id = Some v <-> first_value id (plain_directives ast) v.
Proof. exact lem_C44_plain_first. Qed.

Theorem C44_plain_missing : forall ast id,
  find_directive_value ast id = None <-> forall v, ~ In (NDirective (DirValue id v)) ast.
Proof. exact lem_C44_plain_missing. Qed.

(** All values of a key, over all groups of the name, in source order. *)
Theorem C44_group_all : forall ast g n,
  find_directive_group_values ast g n =
  map snd (filter (fun x => (String.eqb g (fst (fst x)) && String.eqb n (snd (fst x)))%bool) (group_directives ast)).
Proof. exact lem_C44_group_all. Qed.

(** The single look-up gives the first of them. *)
Theorem C44_group_first : forall ast g n v,
  find_directive_group_value ast g n = Some v <-> first_value (g, n) (group_directives ast) v.
Proof. exact lem_C44_group_first. Qed.
Example C44_case :
  let num z := ConstLiteral (IntLit (Z.of_nat z)) (TyInteger "i64" 8 true) in
  let ast := [NDirective (DirGroup "rust" [mk_id_value "use" (num 1); mk_id_value "x" (num 2); mk_id_value "use" (num 3)]);
              NDirective (DirValue "id" (num 4)); NDirective (DirGroup "dart" [mk_id_value "use" (num 5)]);
              NDirective (DirGroup "rust" [mk_id_value "use" (num 6)]); NDirective (DirValue "id" (num 7))] in
  find_directive_value ast "id" = Some (num 4) /\ find_directive_group_value ast "rust" "use" = Some (num 1)
  /\ find_directive_group_values ast "rust" "use" = [num 1; num 3; num 6] /\ find_directive_value ast "rust" = None.
Proof.
  repeat split.
Qed.
Print Assumptions C44_plain_first.
Print Assumptions C44_plain_missing.
Print Assumptions C44_group_all.
Print Assumptions C44_group_first.

Theorem C15_rust_fails_exactly : forall ts ast models buffers rpc, parse ts = Ok ast ->
  RustGen.rust_generate ast models buffers rpc = Panic
  <-> bad_group ast "rust" "use" \/ (rpc = true /\ declares_method ast /\ ~ has_string ast "id").
Proof. exact lem_C15_rust_fails_exactly. Qed.

Theorem C15_rust_succeeds_otherwise : forall ts ast models buffers rpc, parse ts = Ok ast ->
  RustGen.rust_generate ast models buffers rpc <> Panic ->
  exists s, RustGen.rust_generate ast models buffers rpc = Ok s.
Proof. exact lem_C15_rust_succeeds_otherwise. Qed.
Example C15_case :
  match compile_front "#[rust(use = ""a::b"", use = 5)] fn f();", compile_front "#[id = 1] #[id = ""x""] fn f();" with
  | Ok a, Ok b => bad_group a "rust" "use" /\ RustGen.rust_generate a false false false = Panic
      /\ declares_method b /\ ~ has_string b "id" /\ RustGen.rust_generate b true true true = Panic
      /\ is_ok (RustGen.rust_generate b true true false) = true
  | _, _ => False
  end.
Proof.
  front.
  split; [|split; [reflexivity|split; [|split; [|split; reflexivity]]]].
  - eexists _, (mk_id_value "use" _).
  split; [left; reflexivity|].
  cbn.
  split; [right; left; reflexivity|].
  split; [reflexivity|].
  intros (? & ? & ?).
  discriminate.
  - eexists.
  right.
  right.
  left.
  reflexivity.
  - rewrite has_string_find.
  cbn.
  intros (? & ? & ?).
  discriminate.
Qed.
Print Assumptions C15_rust_fails_exactly.
Print Assumptions C15_rust_succeeds_otherwise.

Theorem C16_dart_fails_exactly : forall ts ast models buffers rpc, parse ts = Ok ast ->
  DartGen.dart_generate ast models buffers rpc = Panic
  <-> bad_group ast "dart" "import"
      \/ (rpc = true /\ declares_method ast /\ (~ has_string ast "namespace" \/ ~ has_string ast "id")).
Proof. exact lem_C16_dart_fails_exactly. Qed.

Theorem C16_dart_succeeds_otherwise : forall ts ast models buffers rpc, parse ts = Ok ast ->
  DartGen.dart_generate ast models buffers rpc <> Panic ->
  exists s, DartGen.dart_generate ast models buffers rpc = Ok s.
Proof. exact lem_C16_dart_succeeds_otherwise. Qed.
Example C16_case :
  match compile_front "#[dart(import = true)] struct S { a: Vec<u8> }", compile_front "#[namespace = ""n""] read f -> i64;" with
  | Ok a, Ok b => bad_group a "dart" "import" /\ DartGen.dart_generate a false false false = Panic
      /\ declares_method b /\ ~ has_string b "id" /\ DartGen.dart_generate b true true true = Panic
      /\ is_ok (DartGen.dart_generate b true true false) = true
  | _, _ => False
  end.
Proof.
  front.
  split; [|split; [reflexivity|split; [|split; [|split; reflexivity]]]].
  - eexists _, (mk_id_value "import" _).
  split; [left; reflexivity|].
  cbn.
  split; [left; reflexivity|].
  split; [reflexivity|].
  intros (? & ? & ?).
  discriminate.
  - eexists.
  right.
  left.
  reflexivity.
  - rewrite has_string_find.
  cbn.
  intros (? & ? & ?).
  discriminate.
Qed.
Print Assumptions C16_dart_fails_exactly.
Print Assumptions C16_dart_succeeds_otherwise.

(** If there is no text to write, nothing at all changes. *)
Theorem C37_nothing_written_before_success : forall input output l sm sb sr w o w',
  generate input output l sm sb sr w = (o, w') -> (forall data, ~ translates w input l sm sb sr data) ->
  w' = w /\ (o = IoError \/ o = Panicked).
Proof. exact lem_C37_nothing_written_before_success. Qed.

(** If there is, all of it is written, unless the output file cannot be created or written to. *)
Theorem C37_output_of_a_run : forall input output l sm sb sr w o w' data,
  generate input output l sm sb sr w = (o, w') -> translates w input l sm sb sr data ->
  if String.eqb output "-" then o = Done /\ w_out w' = (w_out w ++ utf8_encode data ++ nl)%string /\ w_files w' = w_files w
  else if w_creatable w output then
    match w_capacity w output with
    | None => o = Done /\ w_files w' output = Some (utf8_encode data)
    | Some n => o = IoError /\ w_files w' output = Some (substring 0 n (utf8_encode data))
    end /\ w_out w' = w_out w
  else o = IoError /\ w' = w.
Proof. exact lem_C37_output_of_a_run. Qed.

(** No other file is ever touched. *)
Theorem C37_other_files_untouched : forall input output l sm sb sr w o w' p,
  generate input output l sm sb sr w = (o, w') -> p <> output -> w_files w' p = w_files w p.
Proof. exact lem_C37_other_files_untouched. Qed.

(** Hence a failed run that leaves the output file in a new state has failed in the final write. *)
Theorem C37_failed_run : forall input output l sm sb sr w o w',
  generate input output l sm sb sr w = (o, w') -> o <> Done -> w_files w' output <> w_files w output ->
  exists data n, translates w input l sm sb sr data /\ w_creatable w output = true /\ w_capacity w output = Some n
    /\ w_files w' output = Some (substring 0 n (utf8_encode data)).
Proof. exact lem_C37_failed_run. Qed.
Example C37_case :
  (exists d, translates example_world "a" Rust false false true d)
  /\ (forall d, ~ translates example_world "b" Dart false false false d)
  /\ fst (generate "b" "o" Dart false false false example_world) = Panicked
  /\ fst (generate "none" "o" Rust false false false example_world) = IoError
  /\ fst (generate "a" "locked" Rust false false false example_world) = IoError
  /\ (let '(o, w) := generate "a" "full" Rust false false false example_world in o = IoError /\ w_files w "full" = Some "// GE")
  /\ (let '(o, w) := generate "a" "o" Rust true true true example_world in o = Done /\ w_files w "o" <> Some "old").
Proof.
  split; [|split].
  - unfold translates.
  eexists _, _.
  split; [reflexivity|].
  split; [reflexivity|].
  vm_compute.
  reflexivity.
  - intros d (c & [= <-] & _ & H).
  vm_compute in H.
  discriminate.
  - vm_compute.
  repeat split; discriminate.
Qed.
Print Assumptions C37_nothing_written_before_success.
Print Assumptions C37_output_of_a_run.
Print Assumptions C37_other_files_untouched.
Print Assumptions C37_failed_run.

Theorem C38_stops_at_the_first_failure : forall dir data w o w',
  run_yaml dir data w = (o, w') -> stops w (jobs dir data) o w'.
Proof. exact lem_C38_stops_at_the_first_failure. Qed.

(** Files of entries after the failing one keep their old contents. *)
Theorem C38_later_outputs_untouched : forall dir data w o w' before j after w1 p,
  run_yaml dir data w = (o, w') -> jobs dir data = before ++ j :: after ->
  succeed w before w1 -> run_job j w1 = (o, w') -> o <> Done ->
  ~ In p (map j_output (before ++ [j])) -> w_files w' p = w_files w p.
Proof. exact lem_C38_later_outputs_untouched. Qed.

(** And each earlier output holds the translation of its source, if no job writes to a source and
    no later job to this output. *)
Theorem C38_earlier_outputs_written : forall w b1 j b2 w', succeed w (b1 ++ j :: b2) w' ->
  j_output j <> "-" -> ~ In (j_output j) (map j_output b2) -> ~ In (j_input j) (map j_output b1) ->
  exists data, translates w (j_input j) (j_lang j) (j_models j) (j_buffers j) (j_rpc j) data
    /\ w_files w' (j_output j) = Some (utf8_encode data).
Proof. exact lem_C38_earlier_outputs_written. Qed.
Example C38_case :
  let p s d := mk_yaml_params s d false false false in
  let data := {| yd_dart := Some [p "a" "z"]; yd_rust := Some [p "a" "x"; p "b" "y"] |} in
  exists w1 w', run_yaml "" data example_world = (Panicked, w')
    /\ jobs "" data = [mk_job "a" "x" Rust false false false] ++ mk_job "b" "y" Rust false false false :: [mk_job "a" "z" Dart false false false]
    /\ succeed example_world [mk_job "a" "x" Rust false false false] w1
    /\ run_job (mk_job "b" "y" Rust false false false) w1 = (Panicked, w')
    /\ w_files w' "x" <> None /\ w_files w' "y" = None /\ w_files w' "z" = None.
Proof.
  eexists _, _.
  split; [|split; [reflexivity|split; [|split]]].
  - vm_compute.
  reflexivity.
  - econstructor; [vm_compute; reflexivity|constructor].
  - vm_compute.
  reflexivity.
  - repeat split.
  cbn.
  discriminate.
Qed.
Print Assumptions C38_stops_at_the_first_failure.
Print Assumptions C38_later_outputs_untouched.
Print Assumptions C38_earlier_outputs_written.
