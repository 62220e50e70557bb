(** Lemmas behind the theorems of PropertiesOut.v. *)

(** Property theorems about whole runs of the program, C59: from the files of schemas and the command to the bytes that the
    generated files exchange.  The outputs are read from the disk as the compilers of Rust and Dart read them.
    After each theorem, a concrete case that meets its hypotheses, and its axioms. *)
Require Import Coq.Strings.String Coq.Strings.Ascii.
Require Import Coq.NArith.NArith Coq.ZArith.ZArith Coq.Lists.List Coq.Bool.Bool Coq.Arith.PeanoNat.
Require Import Coq.micromega.Lia Coq.micromega.ZifyN.
Require Import Verif.MainModel Verif.MainCmd Verif.OutSpec.
Require Import Verif.Base Verif.Ast Verif.Lexer Verif.Parser Verif.CaseConv Verif.RustTree Verif.RustFile Verif.RustWf Verif.RustSem Verif.Wire Verif.RustCodec Verif.CodecFacts Verif.RustRpc Verif.RpcFacts.
Require Import Verif.DartSyntax Verif.DartTree Verif.DartFile Verif.DartWf Verif.DartSem Verif.DartWire Verif.DartRun Verif.DartShape Verif.DartCodec Verif.DartAgree Verif.DartFacts Verif.DartRpc Verif.DartRpcFacts.
Require Verif.RustGen Verif.DartGen Verif.RustSyntax Verif.RunFacts Verif.MainFacts Verif.RustFine Verif.RustDefault Verif.ConstSpec Verif.RustStatic Verif.RustStaticSpec Verif.RustStaticFacts Verif.DartStatic Verif.DartStaticSpec Verif.DartStaticFacts Verif.DefaultFacts.
Import RunFacts(job, j_input, j_output, j_lang, j_models, j_buffers, j_rpc, mk_job, job_of, jobs, translates, succeed, bad_group, has_string).
Import RustFine(rust_fine).
Import RustDefault(type_names).
Import ConstSpec(rust_consts_fine, dart_consts_fine).
Import RustStaticSpec(rust_code_fine, user_fns).
Import DartStaticSpec(dart_fine).
Import DefaultFacts(rust_items_tree).
Import ListNotations.
Local Open Scope string_scope.
Local Open Scope list_scope.

(** ** C59: whole runs *)
Lemma decode_encode s : utf8_decode (utf8_encode s) = Some s.
Proof.
  induction s as [|c s IH]; [reflexivity|].
  cbn [utf8_encode].
  assert (L : (N_of_ascii c < 256)%N) by (destruct c as [[][][][][][][][]]; reflexivity).
  assert (AN : forall k, (k < 256)%N -> N_of_ascii (ascii_of_N k) = k) by (intros k; apply N_ascii_embedding).
  destruct (N_of_ascii c <? 128)%N eqn:E; cbn [utf8_decode].
  - rewrite E, IH.
  reflexivity.
  - apply N.ltb_ge in E.
  assert (D : (2 <= N_of_ascii c / 64 <= 3)%N).
  { split; [apply N.div_le_lower_bound; lia|].
  apply N.lt_succ_r, N.div_lt_upper_bound; lia.
  }
    pose proof (N.mod_lt (N_of_ascii c) 64 ltac:(lia)) as M.
  rewrite !AN by lia.
  assert (X1 : (192 + N_of_ascii c / 64 <? 128)%N = false) by (apply N.ltb_ge; lia).
  assert (X2 : ((194 <=? 192 + N_of_ascii c / 64) && (192 + N_of_ascii c / 64 <=? 195))%N = true) by (apply andb_true_iff; split; apply N.leb_le; lia).
  assert (X3 : ((128 <=? 128 + N_of_ascii c mod 64) && (128 + N_of_ascii c mod 64 <? 192))%N = true) by (apply andb_true_iff; split; [apply N.leb_le|apply N.ltb_lt]; lia).
  rewrite X1, X2, X3, IH.
  cbn [option_map].
  do 2 f_equal.
  replace ((192 + N_of_ascii c / 64 - 192) * 64 + (128 + N_of_ascii c mod 64 - 128))%N with (N_of_ascii c); [apply ascii_N_embedding|].
  pose proof (N.div_mod (N_of_ascii c) 64 ltac:(lia)).
  lia.
Qed.

(** The outputs are different files, none of them is a source, none is standard output. *)
Definition apart (js : list job) : Prop :=
  NoDup (map j_output js) /\ ~ In "-" (map j_output js) /\ (forall j k, In j js -> In k js -> j_input j <> j_output k).

(** What the configuration at [path] says: the entries [data], whose paths start in [dir]. *)
Definition configured (parse : string -> option yaml_data) (w : world) (path dir : string) (data : yaml_data) : Prop :=
  exists text, w_files w path = Some text /\ parse text = Some data /\ path_parent path = Some dir.

Lemma config_output parse path w w' dir data j : run_command parse (CYaml path) w = (MainModel.Done, w') -> configured parse w path dir data -> apart (jobs dir data) -> In j (jobs dir data) ->
  exists text, translates w (j_input j) (j_lang j) (j_models j) (j_buffers j) (j_rpc j) text /\ w_files w' (j_output j) = Some (utf8_encode text).
Proof.
  intros R (text & F & P & D) (N & O & S) I.
  unfold run_command in R.
  rewrite F, P, D in R.
  destruct (valid_utf8 text); [|discriminate R].
  destruct (RunFacts.lem_C38_stops_at_the_first_failure dir data w _ w' R) as [[_ X]|(? & ? & ? & ? & _ & _ & _ & X)]; [|now contradiction X].
  apply in_split in I as (b1 & b2 & E).
  rewrite E in X, N, O, S.
  apply (RunFacts.lem_C38_earlier_outputs_written w b1 j b2 w' X).
  - intros Q.
  apply O.
  rewrite <- Q.
  apply in_map, in_elt.
  - rewrite map_app in N.
  cbn [map] in N.
  apply NoDup_remove_2 in N.
  intros Q.
  apply N, in_app_iff.
  now right.
  - intros Q.
  apply in_map_iff in Q as (k & Q & K).
  apply (S j k); [apply in_elt|apply in_app_iff; now left|now symmetry].
Qed.

Lemma rust_translates w input sm sb sr src ast text : w_files w input = Some src -> compile_front src = Ok ast -> translates w input Rust sm sb sr text -> RustGen.rust_generate ast (negb sm) (negb sb) (negb sr) = Ok text.
Proof.
  intros F C (c & F' & _ & T).
  rewrite F in F'.
  injection F' as <-.
  unfold translate in T.
  rewrite C in T.
  exact T.
Qed.

Lemma dart_translates w input sm sb sr src ast text : w_files w input = Some src -> compile_front src = Ok ast -> translates w input Dart sm sb sr text -> DartGen.dart_generate ast (negb sm) (negb sb) (negb sr) = Ok text.
Proof.
  intros F C (c & F' & _ & T).
  rewrite F in F'.
  injection F' as <-.
  unfold translate in T.
  rewrite C in T.
  exact T.
Qed.

Lemma rust_job dir data r : (exists l, yd_rust data = Some l /\ In r l) -> In (job_of dir Rust r) (jobs dir data).
Proof.
  intros (l & E & I).
  unfold jobs.
  rewrite E.
  apply in_app_iff.
  left.
  now apply in_map.
Qed.

Lemma dart_job dir data r : (exists l, yd_dart data = Some l /\ In r l) -> In (job_of dir Dart r) (jobs dir data).
Proof.
  intros (l & E & I).
  unfold jobs.
  rewrite E.
  apply in_app_iff.
  right.
  now apply in_map.
Qed.

(** A world with a configuration in a directory and a schema beside it. *)
Definition c59_entry (dest : string) (sr : bool) : yaml_params := mk_yaml_params "shape.tpb" dest false false sr.

Definition c59_data (sr : bool) : yaml_data := mk_yaml_data (Some [c59_entry "out/shape.dart" sr]) (Some [c59_entry "shape.rs" sr; mk_yaml_params "../point.tpb" "point.rs" false true true]).

Definition c59_world (schema : string) : world :=
  mk_world (fun p => if String.eqb p "conf/all.yaml" then Some "rust: ..." else if String.eqb p "conf/shape.tpb" then Some schema else if String.eqb p "conf/../point.tpb" then Some "struct Point { x: i32 }" else None)
    "" (fun _ => true) (fun _ => None).

Lemma c59_apart sr : apart (jobs "conf" (c59_data sr)).
Proof.
  split; [|split].
  - repeat constructor; cbn; intuition discriminate.
  - cbn.
  intuition discriminate.
  - cbn.
  intros j k [<-|[<-|[<-|[]]]] [<-|[<-|[<-|[]]]]; discriminate.
Qed.

Lemma c59_configured schema sr : configured (fun _ => Some (c59_data sr)) (c59_world schema) "conf/all.yaml" "conf" (c59_data sr).
Proof.
  exists "rust: ...".
  repeat split.
Qed.

Lemma lem_C59_outputs : forall parse path w w' dir data,
  run_command parse (CYaml path) w = (MainModel.Done, w') -> configured parse w path dir data -> apart (jobs dir data) ->
  (forall r src ast, (exists l, yd_rust data = Some l /\ In r l) -> w_files w (path_join dir (yp_src r)) = Some src -> compile_front src = Ok ast -> rust_ready ast = true ->
     exists items, rust_file_at w' (path_join dir (yp_dest r)) items /\ file_items ast (negb (yp_skip_models r)) (negb (yp_skip_buffers r)) (negb (yp_skip_rpc r)) items) /\
  (forall r src ast, (exists l, yd_dart data = Some l /\ In r l) -> w_files w (path_join dir (yp_src r)) = Some src -> compile_front src = Ok ast -> dart_ready ast = true ->
     yp_skip_models r = false -> yp_skip_buffers r = false ->
     exists items, dart_file_at w' (path_join dir (yp_dest r)) items /\ dart_items ast (negb (yp_skip_rpc r)) items).
Proof.
  intros parse path w w' dir data R C A.
  split.
  - intros r src ast I F P RD.
  destruct (config_output parse path w w' dir data _ R C A (rust_job dir data r I)) as (text & T & O).
  cbn [job_of j_input j_output j_lang j_models j_buffers j_rpc] in T, O.
  pose proof (rust_translates _ _ _ _ _ _ _ _ F P T) as G.
  pose proof (rust_file_generated ast _ _ _ text RD G) as K.
  eexists.
  split; [exists (utf8_encode text), text; split; [exact O|]; split; [apply decode_encode|exact K]|exists text; split; [exact G|exact K]].
  - intros r src ast I F P RD SM SB.
  destruct (config_output parse path w w' dir data _ R C A (dart_job dir data r I)) as (text & T & O).
  cbn [job_of j_input j_output j_lang j_models j_buffers j_rpc] in T, O.
  rewrite SM, SB in T.
  pose proof (dart_translates _ _ _ _ _ _ _ _ F P T) as G.
  pose proof (dart_file_generated ast _ _ _ text RD G) as K.
  eexists.
  split; [exists (utf8_encode text), text; split; [exact O|]; split; [apply decode_encode|exact K]|exists text; split; [exact G|exact K]].
Qed.

Lemma lem_C59_config : forall parse path w w' dir data r d src ast,
  run_command parse (CYaml path) w = (MainModel.Done, w') -> configured parse w path dir data -> apart (jobs dir data) ->
  (exists l, yd_rust data = Some l /\ In r l) -> yp_skip_models r = false -> yp_skip_buffers r = false ->
  (exists l, yd_dart data = Some l /\ In d l) -> yp_skip_models d = false -> yp_skip_buffers d = false ->
  w_files w (path_join dir (yp_src r)) = Some src -> w_files w (path_join dir (yp_src d)) = Some src -> compile_front src = Ok ast ->
  rust_ready ast = true -> dart_ready ast = true ->
  let rpc := negb (yp_skip_rpc r) in let rds := rust_decls ast true rpc in let ds := schema_decls ast in
  exists rust_items items, rust_file_at w' (path_join dir (yp_dest r)) rust_items /\ dart_file_at w' (path_join dir (yp_dest d)) items /\
    (forall ext, rust_fine ds rds = true -> rust_consts_fine ast (type_names rust_items) = true -> rust_code_fine ast rpc ext rds = true ->
       RustStatic.compiles (user_fns ast rpc) ext rust_items = true) /\
    (forall ext, dart_codecs_ok ast items = true -> dart_consts_fine ast (top_names items) = true -> dart_fine ast ext items = true -> DartStatic.compiles ext items = true) /\
    (forall R V D U cd v m fuel dfuel, codecs_ok rds = true -> codecs_distinct rds = true -> dart_codecs_ok ast items = true ->
       lawful R -> dlawful D U -> agree R D U ->
       declared ds m = true -> typed R rds v (TyOther m) = true -> dtyped U ds (top_names items) cd v (TyOther m) = true -> portable ds v (TyOther m) = true ->
       depth v <= fuel -> 3 * depth v + 3 * cd + 3 <= dfuel ->
       exists bs,
         (forall q, write_value R V rust_items fuel v q = Done RustSem.ok (set_wr (s_wr q ++ bs) q)) /\
         (forall P s x, rep U ds P (d_heap s) x v (TyOther m) -> dart_call D items dfuel (m ++ "IntoBuffers") "write" [dwriter; x] s = DDone dnull (set_dwr (d_wr s ++ bs) s)) /\
         (forall q rest, read_value R V rust_items fuel (RustTree.ty0 m) (set_rd (bs ++ rest) q) = Done v (set_rd rest q)) /\
         (forall s rest, exists x h',
            dart_call D items dfuel (m ++ "IntoBuffers") "read" [dreader] (set_drd (bs ++ rest) s) = DDone x (set_heap h' (set_drd rest s)) /\
            changes (d_heap s) h' [] /\ rep U ds (fresh (d_heap s) h') h' x v (TyOther m))).
Proof.
  intros parse path w w' dir data r d src ast RUN C A IR RM RB ID DM DB FR FD P RR DR rpc rds ds.
  destruct (lem_C59_outputs parse path w w' dir data RUN C A) as (HR & HD).
  destruct (HR r src ast IR FR P RR) as (ri & RA & RI).
  destruct (HD d src ast ID FD P DR DM DB) as (di & DA & DI).
  rewrite RM, RB in RI.
  cbn [negb] in RI.
  fold rpc in RI.
  exists ri, di.
  split; [exact RA|].
  split; [exact DA|].
  split; [|split].
  - intros ext F CF CO.
  exact (RustStaticFacts.lem_C57_compiles ast rpc ext ri RR RI F CF CO).
  - intros ext CK CF DF.
  exact (DartStaticFacts.lem_C56_compiles ast (negb (yp_skip_rpc d)) ext di DR DI CK CF DF).
  - intros R V D U cd v m fuel dfuel CK CD DK LR LD AG DE TY DT PO F1 F2.
  exact (lem_C24_same_bytes ast true rpc (negb (yp_skip_rpc d)) ri di R V D U cd v m fuel dfuel RR RI CK CD DR DI DK LR LD AG DE TY DT PO F1 F2).
Qed.

Lemma lem_C59_config_call : forall parse path w w' dir data r d src ast C sc R V D U cd node fuel dfuel a W s q P k vs ws v,
  run_command parse (CYaml path) w = (MainModel.Done, w') -> configured parse w path dir data -> apart (jobs dir data) ->
  (exists l, yd_rust data = Some l /\ In r l) -> yp_skip_buffers r = false -> yp_skip_rpc r = false ->
  (exists l, yd_dart data = Some l /\ In d l) -> yp_skip_models d = false -> yp_skip_buffers d = false -> yp_skip_rpc d = false ->
  w_files w (path_join dir (yp_src r)) = Some src -> w_files w (path_join dir (yp_src d)) = Some src -> compile_front src = Ok ast ->
  rust_ready ast = true -> dart_ready ast = true ->
  let nodes := find_fn_nodes ast in let rds := rust_decls ast true true in let ds := schema_decls ast in let addr := Z.of_N (fn_position node) in
  exists rust_items items, rust_file_at w' (path_join dir (yp_dest r)) rust_items /\ dart_file_at w' (path_join dir (yp_dest d)) items /\
    (codecs_ok rds = true -> codecs_distinct rds = true -> rpc_ok ast true = true -> client_file ast items C sc ->
     lawful R -> dlawful D U -> agree R D U -> same_status D ->
     In node nodes -> fn_is_read node = false -> fn_is_async node = false -> sv_async V (fn_id node) = false ->
     arguments R rds node vs = true -> passed U items ds cd P (d_heap s) k vs ws (fn_args node) -> args_portable ds node vs = true ->
     is_result R rds node v = true -> dart_returns U ds items cd node v = true -> result_portable ds node v = true ->
     RpcFacts.within fuel (v :: vs) -> 2 * k + 5 <= dfuel -> 3 * depth v + 3 * cd + 5 <= dfuel ->
     shows C sc nodes (d_heap s) (d_tasks s) a W ->
     sv_call V (List.length (s_log q)) (fn_id node) vs = Some v ->
     (forall mem x q', call_fn R V rust_items fuel (handler_name node) (sync_args sc addr) (set_mem mem q) = Done x q' ->
       exists mem', rd_loop D (d_loops s) mem = Some mem' /\ mem' sc addr "Client" = s_mem q' sc addr "Client") ->
     exists x h' mem mem' q',
       rd_loop D (d_loops s) mem = Some mem' /\
       call_fn R V rust_items fuel (handler_name node) (sync_args sc addr) (set_mem mem q) = Done (bool_val true) q' /\
       (exists m, s_log q' = s_log q ++ [mk_called (fn_id node) vs m]) /\
       client_call D items dfuel a node ws s = DDone x (set_heap h' (set_loops (S (d_loops s)) (set_dmem mem' s))) /\
       changes (d_heap s) h' [] /\ returned U ds node v (d_heap s) h' x).
Proof.
  intros parse path w w' dir data r d src ast C sc R V D U cd node fuel dfuel a W s q P k vs ws v RUN CF A IR RB RP ID DM DB DP FR FD PA RR DR nodes rds ds addr.
  destruct (lem_C59_outputs parse path w w' dir data RUN CF A) as (HR & HD).
  destruct (HR r src ast IR FR PA RR) as (ri & RA & RI).
  destruct (HD d src ast ID FD PA DR DM DB) as (di & DA & DI).
  rewrite RB, RP in RI.
  cbn [negb] in RI.
  exists ri, di.
  split; [exact RA|].
  split; [exact DA|].
  intros CK CD RO CL LR LD AG SS I NR NA SA AR PS AP RES DRT RPO F1 F2 F3 SH SV LOOP.
  apply (DartRpcFacts.lem_C32_round_trip ast (negb (yp_skip_models r)) ri di C sc R V D U cd node fuel dfuel a W s q P k vs ws v); try assumption.
  split; [exact RR|].
  split; [exact RI|].
  split; [exact CK|].
  split; [exact CD|exact RO].
Qed.

Lemma lem_C59_generate_rust : forall parse input output sr w o w' src ast,
  run_command parse (CGenerate input output Rust false false sr) w = (o, w') ->
  w_files w input = Some src -> valid_utf8 src = true -> compile_front src = Ok ast -> rust_ready ast = true ->
  ~ bad_group ast "rust" "use" -> (sr = true \/ has_string ast "id" \/ (forall f, ~ In (NFn f) ast)) ->
  output <> "-" -> w_creatable w output = true -> w_capacity w output = None ->
  o = MainModel.Done /\ (forall p, p <> output -> w_files w' p = w_files w p) /\ w_out w' = w_out w /\
  exists items, rust_file_at w' output items /\ file_items ast true true (negb sr) items /\
    forall ext, rust_fine (schema_decls ast) (rust_decls ast true (negb sr)) = true -> rust_consts_fine ast (type_names items) = true ->
      rust_code_fine ast (negb sr) ext (rust_decls ast true (negb sr)) = true -> RustStatic.compiles (user_fns ast (negb sr)) ext items = true.
Proof.
  intros parse input output sr w o w' src ast RUN F V P RR NB ID NO CR CA.
  cbn [run_command] in RUN.
  pose proof P as P'.
  unfold compile_front in P'.
  destruct (tokenize src) as [ts| |]; try discriminate P'.
  cbn [bind] in P'.
  assert (NP : RustGen.rust_generate ast true true (negb sr) <> Panic).
  { intros X.
  apply (RunFacts.lem_C15_rust_fails_exactly ts ast true true (negb sr) P') in X as [X|(X & (f & I) & N)]; [contradiction|].
  destruct ID as [->|[ID|ID]]; [discriminate X|contradiction|exact (ID f I)].
  }
  destruct (RunFacts.lem_C15_rust_succeeds_otherwise ts ast true true (negb sr) P' NP) as (text & G).
  assert (T : translates w input Rust false false sr text).
  { exists src.
  split; [exact F|].
  split; [exact V|].
  unfold translate.
  rewrite P.
  exact G.
  }
  pose proof (RunFacts.lem_C37_output_of_a_run input output Rust false false sr w o w' text RUN T) as X.
  destruct (String.eqb_spec output "-") as [E|_]; [contradiction|].
  rewrite CR, CA in X.
  destruct X as ((-> & O) & OUT).
  split; [reflexivity|].
  split; [intros p N; exact (RunFacts.lem_C37_other_files_untouched input output Rust false false sr w MainModel.Done w' p RUN N)|].
  split; [exact OUT|].
  pose proof (rust_file_generated ast true true (negb sr) text RR G) as K.
  assert (I : file_items ast true true (negb sr) (rust_tree ast true true (negb sr))) by (exists text; split; [exact G|exact K]).
  eexists.
  split; [exists (utf8_encode text), text; split; [exact O|]; split; [apply decode_encode|exact K]|].
  split; [exact I|].
  intros ext RF CF CO.
  exact (RustStaticFacts.lem_C57_compiles ast (negb sr) ext _ RR I RF CF CO).
Qed.

Lemma lem_C59_generate_dart : forall parse input output sr w o w' src ast,
  run_command parse (CGenerate input output Dart false false sr) w = (o, w') ->
  w_files w input = Some src -> valid_utf8 src = true -> compile_front src = Ok ast -> dart_ready ast = true ->
  ~ bad_group ast "dart" "import" -> (sr = true \/ has_string ast "namespace" /\ has_string ast "id" \/ (forall f, ~ In (NFn f) ast)) ->
  output <> "-" -> w_creatable w output = true -> w_capacity w output = None ->
  o = MainModel.Done /\ (forall p, p <> output -> w_files w' p = w_files w p) /\ w_out w' = w_out w /\
  exists items, dart_file_at w' output items /\ dart_items ast (negb sr) items /\
    forall ext, dart_codecs_ok ast items = true -> dart_consts_fine ast (top_names items) = true -> dart_fine ast ext items = true -> DartStatic.compiles ext items = true.
Proof.
  intros parse input output sr w o w' src ast RUN F V P RR NB ID NO CR CA.
  cbn [run_command] in RUN.
  pose proof P as P'.
  unfold compile_front in P'.
  destruct (tokenize src) as [ts| |]; try discriminate P'.
  cbn [bind] in P'.
  assert (NP : DartGen.dart_generate ast true true (negb sr) <> Panic).
  { intros X.
  apply (RunFacts.lem_C16_dart_fails_exactly ts ast true true (negb sr) P') in X as [X|(X & (f & I) & N)]; [contradiction|].
  destruct ID as [->|[(ID & ID')|ID]]; [discriminate X|destruct N; contradiction|exact (ID f I)].
  }
  destruct (RunFacts.lem_C16_dart_succeeds_otherwise ts ast true true (negb sr) P' NP) as (text & G).
  assert (T : translates w input Dart false false sr text).
  { exists src.
  split; [exact F|].
  split; [exact V|].
  unfold translate.
  rewrite P.
  exact G.
  }
  pose proof (RunFacts.lem_C37_output_of_a_run input output Dart false false sr w o w' text RUN T) as X.
  destruct (String.eqb_spec output "-") as [E|_]; [contradiction|].
  rewrite CR, CA in X.
  destruct X as ((-> & O) & OUT).
  split; [reflexivity|].
  split; [intros p N; exact (RunFacts.lem_C37_other_files_untouched input output Dart false false sr w MainModel.Done w' p RUN N)|].
  split; [exact OUT|].
  pose proof (dart_file_generated ast true true (negb sr) text RR G) as K.
  assert (I : dart_items ast (negb sr) (dart_tree ast true true (negb sr))) by (exists text; split; [exact G|exact K]).
  eexists.
  split; [exists (utf8_encode text), text; split; [exact O|]; split; [apply decode_encode|exact K]|].
  split; [exact I|].
  intros ext CK CF DF.
  exact (DartStaticFacts.lem_C56_compiles ast (negb sr) ext _ RR I CK CF DF).
Qed.
