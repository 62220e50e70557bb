(** Property theorems about whole runs of the program, C59: from the files of schemas and the command to the bytes that the
    generated files exchange.  The outputs are read from the disk as the compilers of Rust and Dart read them.
    After each theorem, a concrete case that meets its hypotheses, and its axioms. *)
Require Import Coq.Strings.String Coq.Strings.Ascii.
Require Import Coq.NArith.NArith Coq.ZArith.ZArith Coq.Lists.List Coq.Bool.Bool Coq.Arith.PeanoNat.
Require Import Coq.micromega.Lia Coq.micromega.ZifyN.
Require Import Verif.MainModel Verif.MainCmd Verif.OutSpec.
Require Import Verif.Base Verif.Ast Verif.Lexer Verif.Parser Verif.CaseConv Verif.RustTree Verif.RustFile Verif.RustWf Verif.RustSem Verif.Wire Verif.RustCodec Verif.CodecFacts Verif.RustRpc Verif.RpcFacts.
Require Import Verif.DartSyntax Verif.DartTree Verif.DartFile Verif.DartWf Verif.DartSem Verif.DartWire Verif.DartRun Verif.DartShape Verif.DartCodec Verif.DartAgree Verif.DartFacts Verif.DartRpc Verif.DartRpcFacts.
Require Verif.RustGen Verif.DartGen Verif.RustSyntax Verif.RunFacts Verif.MainFacts Verif.RustFine Verif.RustDefault Verif.ConstSpec Verif.RustStatic Verif.RustStaticSpec Verif.RustStaticFacts Verif.DartStatic Verif.DartStaticSpec Verif.DartStaticFacts Verif.DefaultFacts.
Require Import Verif.OutFacts.
Import RunFacts(job, j_input, j_output, j_lang, j_models, j_buffers, j_rpc, mk_job, job_of, jobs, translates, succeed, bad_group, has_string).
Import RustFine(rust_fine).
Import RustDefault(type_names).
Import ConstSpec(rust_consts_fine, dart_consts_fine).
Import RustStaticSpec(rust_code_fine, user_fns).
Import DartStaticSpec(dart_fine).
Import DefaultFacts(rust_items_tree).
Import ListNotations.
Local Open Scope string_scope.
Local Open Scope list_scope.

(** After a run of a configuration, each output is the Rust file, or the Dart file, generated from the source of its entry. *)
Theorem C59_outputs : forall parse path w w' dir data,
  run_command parse (CYaml path) w = (MainModel.Done, w') -> configured parse w path dir data -> apart (jobs dir data) ->
  (forall r src ast, (exists l, yd_rust data = Some l /\ In r l) -> w_files w (path_join dir (yp_src r)) = Some src -> compile_front src = Ok ast -> rust_ready ast = true ->
     exists items, rust_file_at w' (path_join dir (yp_dest r)) items /\ file_items ast (negb (yp_skip_models r)) (negb (yp_skip_buffers r)) (negb (yp_skip_rpc r)) items) /\
  (forall r src ast, (exists l, yd_dart data = Some l /\ In r l) -> w_files w (path_join dir (yp_src r)) = Some src -> compile_front src = Ok ast -> dart_ready ast = true ->
     yp_skip_models r = false -> yp_skip_buffers r = false ->
     exists items, dart_file_at w' (path_join dir (yp_dest r)) items /\ dart_items ast (negb (yp_skip_rpc r)) items).
Proof. exact lem_C59_outputs. Qed.
Print Assumptions C59_outputs.
Example C59_outputs_case : let w := c59_world c17_schema in let parse := fun _ => Some (c59_data true) in
  fst (run_command parse (CYaml "conf/all.yaml") w) = MainModel.Done /\ configured parse w "conf/all.yaml" "conf" (c59_data true) /\ apart (jobs "conf" (c59_data true)) /\
  w_files w "conf/shape.tpb" = Some c17_schema /\ compile_front c17_schema = Ok c21_ast /\ rust_ready c21_ast = true /\ dart_ready c21_ast = true /\
  path_join "conf" "out/shape.dart" = "conf/out/shape.dart" /\
  (exists items, rust_file_at (snd (run_command parse (CYaml "conf/all.yaml") w)) "conf/shape.rs" items /\ file_items c21_ast true true false items) /\
  (exists items, rust_file_at (snd (run_command parse (CYaml "conf/all.yaml") w)) "conf/point.rs" items).
Proof.
  cbv zeta.
  assert (R : fst (run_command (fun _ => Some (c59_data true)) (CYaml "conf/all.yaml") (c59_world c17_schema)) = MainModel.Done) by (vm_compute; reflexivity).
  split; [exact R|].
  split; [apply c59_configured|].
  split; [apply c59_apart|].
  split; [reflexivity|].
  split; [vm_compute; reflexivity|].
  split; [vm_compute; reflexivity|].
  split; [vm_compute; reflexivity|].
  split; [reflexivity|].
  destruct (run_command (fun _ => Some (c59_data true)) (CYaml "conf/all.yaml") (c59_world c17_schema)) as [o w'] eqn:E.
  cbn [fst] in R.
  subst o.
  cbn [snd].
  destruct (C59_outputs _ _ _ _ _ _ E (c59_configured c17_schema true) (c59_apart true)) as (H & _).
  split; [apply (H (c59_entry "shape.rs" true) c17_schema c21_ast); [eexists; split; [reflexivity|now left]|reflexivity|vm_compute; reflexivity|vm_compute; reflexivity]|].
  destruct (H (mk_yaml_params "../point.tpb" "point.rs" false true true) "struct Point { x: i32 }" (parsed "struct Point { x: i32 }")) as (items & K & _); [eexists; split; [reflexivity|right; now left]|reflexivity|vm_compute; reflexivity|vm_compute; reflexivity|].
  now exists items.
Qed.

(** One schema, a Rust entry and a Dart entry: the two files on disk compile, and each reads the bytes that the other writes. *)
Theorem C59_config : forall parse path w w' dir data r d src ast,
  run_command parse (CYaml path) w = (MainModel.Done, w') -> configured parse w path dir data -> apart (jobs dir data) ->
  (exists l, yd_rust data = Some l /\ In r l) -> yp_skip_models r = false -> yp_skip_buffers r = false ->
  (exists l, yd_dart data = Some l /\ In d l) -> yp_skip_models d = false -> yp_skip_buffers d = false ->
  w_files w (path_join dir (yp_src r)) = Some src -> w_files w (path_join dir (yp_src d)) = Some src -> compile_front src = Ok ast ->
  rust_ready ast = true -> dart_ready ast = true ->
  let rpc := negb (yp_skip_rpc r) in let rds := rust_decls ast true rpc in let ds := schema_decls ast in
  exists rust_items items, rust_file_at w' (path_join dir (yp_dest r)) rust_items /\ dart_file_at w' (path_join dir (yp_dest d)) items /\
    (forall ext, rust_fine ds rds = true -> rust_consts_fine ast (type_names rust_items) = true -> rust_code_fine ast rpc ext rds = true ->
       RustStatic.compiles (user_fns ast rpc) ext rust_items = true) /\
    (forall ext, dart_codecs_ok ast items = true -> dart_consts_fine ast (top_names items) = true -> dart_fine ast ext items = true -> DartStatic.compiles ext items = true) /\
    (forall R V D U cd v m fuel dfuel, codecs_ok rds = true -> codecs_distinct rds = true -> dart_codecs_ok ast items = true ->
       lawful R -> dlawful D U -> agree R D U ->
       declared ds m = true -> typed R rds v (TyOther m) = true -> dtyped U ds (top_names items) cd v (TyOther m) = true -> portable ds v (TyOther m) = true ->
       depth v <= fuel -> 3 * depth v + 3 * cd + 3 <= dfuel ->
       exists bs,
         (forall q, write_value R V rust_items fuel v q = Done RustSem.ok (set_wr (s_wr q ++ bs) q)) /\
         (forall P s x, rep U ds P (d_heap s) x v (TyOther m) -> dart_call D items dfuel (m ++ "IntoBuffers") "write" [dwriter; x] s = DDone dnull (set_dwr (d_wr s ++ bs) s)) /\
         (forall q rest, read_value R V rust_items fuel (RustTree.ty0 m) (set_rd (bs ++ rest) q) = Done v (set_rd rest q)) /\
         (forall s rest, exists x h',
            dart_call D items dfuel (m ++ "IntoBuffers") "read" [dreader] (set_drd (bs ++ rest) s) = DDone x (set_heap h' (set_drd rest s)) /\
            changes (d_heap s) h' [] /\ rep U ds (fresh (d_heap s) h') h' x v (TyOther m))).
Proof. exact lem_C59_config. Qed.
Print Assumptions C59_config.
Example C59_config_case : let w := c59_world c17_schema in let parse := fun _ => Some (c59_data true) in
  let rds := rust_decls c21_ast true false in let ds := schema_decls c21_ast in
  fst (run_command parse (CYaml "conf/all.yaml") w) = MainModel.Done /\ configured parse w "conf/all.yaml" "conf" (c59_data true) /\ apart (jobs "conf" (c59_data true)) /\
  rust_fine ds rds = true /\ rust_consts_fine c21_ast (type_names (rust_tree c21_ast true true false)) = true /\ rust_code_fine c21_ast false [] rds = true /\
  dart_codecs_ok c21_ast c21_items = true /\ dart_consts_fine c21_ast (top_names c21_items) = true /\ dart_fine c21_ast [] c21_items = true /\
  codecs_ok rds = true /\ codecs_distinct rds = true /\ agree le_runtime c21_dart le_support /\
  typed le_runtime rds c21_shape (TyOther "Shape") = true /\ dtyped le_support ds (top_names c21_items) 4 c21_shape (TyOther "Shape") = true /\ portable ds c21_shape (TyOther "Shape") = true.
Proof.
  cbv zeta.
  split; [vm_compute; reflexivity|].
  split; [apply c59_configured|].
  split; [apply c59_apart|].
  do 8 (split; [vm_compute; reflexivity|]).
  split; [apply le_agree|].
  repeat (split; [vm_compute; reflexivity|]).
  vm_compute; reflexivity.
Qed.

(** With remote methods: the Dart file on disk is a client of the Rust file on disk.  A call runs the server function once, with
    exactly the arguments of the call, and gives exactly the value that it returned, whatever the buffers held before. *)
Theorem C59_config_call : forall parse path w w' dir data r d src ast C sc R V D U cd node fuel dfuel a W s q P k vs ws v,
  run_command parse (CYaml path) w = (MainModel.Done, w') -> configured parse w path dir data -> apart (jobs dir data) ->
  (exists l, yd_rust data = Some l /\ In r l) -> yp_skip_buffers r = false -> yp_skip_rpc r = false ->
  (exists l, yd_dart data = Some l /\ In d l) -> yp_skip_models d = false -> yp_skip_buffers d = false -> yp_skip_rpc d = false ->
  w_files w (path_join dir (yp_src r)) = Some src -> w_files w (path_join dir (yp_src d)) = Some src -> compile_front src = Ok ast ->
  rust_ready ast = true -> dart_ready ast = true ->
  let nodes := find_fn_nodes ast in let rds := rust_decls ast true true in let ds := schema_decls ast in let addr := Z.of_N (fn_position node) in
  exists rust_items items, rust_file_at w' (path_join dir (yp_dest r)) rust_items /\ dart_file_at w' (path_join dir (yp_dest d)) items /\
    (codecs_ok rds = true -> codecs_distinct rds = true -> rpc_ok ast true = true -> client_file ast items C sc ->
     lawful R -> dlawful D U -> agree R D U -> same_status D ->
     In node nodes -> fn_is_read node = false -> fn_is_async node = false -> sv_async V (fn_id node) = false ->
     arguments R rds node vs = true -> passed U items ds cd P (d_heap s) k vs ws (fn_args node) -> args_portable ds node vs = true ->
     is_result R rds node v = true -> dart_returns U ds items cd node v = true -> result_portable ds node v = true ->
     RpcFacts.within fuel (v :: vs) -> 2 * k + 5 <= dfuel -> 3 * depth v + 3 * cd + 5 <= dfuel ->
     shows C sc nodes (d_heap s) (d_tasks s) a W ->
     sv_call V (List.length (s_log q)) (fn_id node) vs = Some v ->
     (forall mem x q', call_fn R V rust_items fuel (handler_name node) (sync_args sc addr) (set_mem mem q) = Done x q' ->
       exists mem', rd_loop D (d_loops s) mem = Some mem' /\ mem' sc addr "Client" = s_mem q' sc addr "Client") ->
     exists x h' mem mem' q',
       rd_loop D (d_loops s) mem = Some mem' /\
       call_fn R V rust_items fuel (handler_name node) (sync_args sc addr) (set_mem mem q) = Done (bool_val true) q' /\
       (exists m, s_log q' = s_log q ++ [mk_called (fn_id node) vs m]) /\
       client_call D items dfuel a node ws s = DDone x (set_heap h' (set_loops (S (d_loops s)) (set_dmem mem' s))) /\
       changes (d_heap s) h' [] /\ returned U ds node v (d_heap s) h' x).
Proof. exact lem_C59_config_call. Qed.
Print Assumptions C59_config_call.
Example C59_config_call_case : let w := c59_world c31_schema in let parse := fun _ => Some (c59_data false) in
  fst (run_command parse (CYaml "conf/all.yaml") w) = MainModel.Done /\ configured parse w "conf/all.yaml" "conf" (c59_data false) /\ apart (jobs "conf" (c59_data false)) /\
  compile_front c31_schema = Ok c31_ast /\ rpc_file c31_ast true true c31_items /\ client_file c31_ast DartRpcFacts.c31_dart "TestRpcClient" "svc".
Proof.
  cbv zeta.
  split; [vm_compute; reflexivity|].
  split; [apply c59_configured|].
  split; [apply c59_apart|].
  split; [vm_compute; reflexivity|].
  split; [exact c31_file|].
  exact DartRpcFacts.c31_client.
Qed.

(** The command for one file: for a schema that can be translated, an output file that can be written, it ends well, the output is
    the Rust file of the schema, it compiles under the conditions of C57, and nothing else has changed. *)
Theorem C59_generate_rust : forall parse input output sr w o w' src ast,
  run_command parse (CGenerate input output Rust false false sr) w = (o, w') ->
  w_files w input = Some src -> valid_utf8 src = true -> compile_front src = Ok ast -> rust_ready ast = true ->
  ~ bad_group ast "rust" "use" -> (sr = true \/ has_string ast "id" \/ (forall f, ~ In (NFn f) ast)) ->
  output <> "-" -> w_creatable w output = true -> w_capacity w output = None ->
  o = MainModel.Done /\ (forall p, p <> output -> w_files w' p = w_files w p) /\ w_out w' = w_out w /\
  exists items, rust_file_at w' output items /\ file_items ast true true (negb sr) items /\
    forall ext, rust_fine (schema_decls ast) (rust_decls ast true (negb sr)) = true -> rust_consts_fine ast (type_names items) = true ->
      rust_code_fine ast (negb sr) ext (rust_decls ast true (negb sr)) = true -> RustStatic.compiles (user_fns ast (negb sr)) ext items = true.
Proof. exact lem_C59_generate_rust. Qed.
Print Assumptions C59_generate_rust.
Example C59_generate_rust_case : let src := RustStaticFacts.c57_src in let w := c59_world src in
  fst (run_command (fun _ => None) (CGenerate "conf/shape.tpb" "a.rs" Rust false false false) w) = MainModel.Done /\ valid_utf8 src = true /\
  (exists ast, compile_front src = Ok ast /\ has_string ast "id" /\ ~ bad_group ast "rust" "use") /\ RustStaticFacts.c57_holds ["Theme"] src = true.
Proof.
  cbv zeta.
  split; [vm_compute; reflexivity|].
  split; [vm_compute; reflexivity|].
  split; [|vm_compute; reflexivity].
  destruct (compile_front RustStaticFacts.c57_src) as [ast| |] eqn:E; [|vm_compute in E; discriminate E..].
  exists ast.
  split; [reflexivity|].
  assert (X : RustGen.rust_generate ast true true true <> Panic) by (vm_compute in E; injection E as <-; vm_compute; discriminate).
  assert (H : has_string ast "id") by (vm_compute in E; injection E as <-; eexists; split; [apply RunFacts.lem_C44_plain_first; vm_compute; reflexivity|eexists; eexists; reflexivity]).
  unfold compile_front in E.
  destruct (tokenize RustStaticFacts.c57_src) as [ts| |]; try discriminate E.
  cbn [bind] in E.
  split; [exact H|].
  intros B.
  apply X, (RunFacts.lem_C15_rust_fails_exactly ts ast true true true E).
  now left.
Qed.

Theorem C59_generate_dart : forall parse input output sr w o w' src ast,
  run_command parse (CGenerate input output Dart false false sr) w = (o, w') ->
  w_files w input = Some src -> valid_utf8 src = true -> compile_front src = Ok ast -> dart_ready ast = true ->
  ~ bad_group ast "dart" "import" -> (sr = true \/ has_string ast "namespace" /\ has_string ast "id" \/ (forall f, ~ In (NFn f) ast)) ->
  output <> "-" -> w_creatable w output = true -> w_capacity w output = None ->
  o = MainModel.Done /\ (forall p, p <> output -> w_files w' p = w_files w p) /\ w_out w' = w_out w /\
  exists items, dart_file_at w' output items /\ dart_items ast (negb sr) items /\
    forall ext, dart_codecs_ok ast items = true -> dart_consts_fine ast (top_names items) = true -> dart_fine ast ext items = true -> DartStatic.compiles ext items = true.
Proof. exact lem_C59_generate_dart. Qed.
Print Assumptions C59_generate_dart.
Example C59_generate_dart_case : let src := DartStaticFacts.c56_src in let w := c59_world src in
  fst (run_command (fun _ => None) (CGenerate "conf/shape.tpb" "a.dart" Dart false false false) w) = MainModel.Done /\ valid_utf8 src = true /\
  (exists ast, compile_front src = Ok ast /\ dart_ready ast = true) /\ DartStaticFacts.c56_holds ["Theme"] src = true.
Proof.
  cbv zeta.
  split; [vm_compute; reflexivity|].
  split; [vm_compute; reflexivity|].
  split; [|vm_compute; reflexivity].
  destruct (compile_front DartStaticFacts.c56_src) as [ast| |] eqn:E; [|vm_compute in E; discriminate E..].
  exists ast.
  split; [reflexivity|].
  vm_compute in E.
  injection E as <-.
  vm_compute.
  reflexivity.
Qed.
