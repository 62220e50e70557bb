(** Model of src/main.rs:29-48, 78-180.

    Not modelled: argument parsing (clap), logging, the YAML parser (the model starts from
    [YamlData]), directories, links and permissions beyond the two oracles of [world].  Paths are
    texts; two different texts name two different files. *)
Require Import Coq.Strings.String Coq.Strings.Ascii.
Require Import Coq.NArith.NArith Coq.Lists.List Coq.Bool.Bool.
Require Import Verif.Base Verif.Ast Verif.Lexer Verif.Parser.
Require Verif.RustGen Verif.DartGen.
Import ListNotations.
Local Open Scope string_scope.

(** src/main.rs:78-82 [enum Lang]. *)
Inductive lang := Rust | Dart.

(** The outside of the process.  [w_creatable p] tells whether [File::create(p)] succeeds;
    [w_capacity p] is [None] if [write_all] to [p] succeeds and [Some n] if it fails after [n]
    bytes.  [w_out] is what was printed to standard output. *)
Record world := mk_world
  { w_files : string -> option string;
    w_out : string;
    w_creatable : string -> bool;
    w_capacity : string -> option nat }.

Inductive outcome :=
| Done      (* Ok(()) *)
| IoError   (* Err(_), exit code 1 *)
| Panicked  (* a panic, exit code 101 *)
| Stuck     (* a model loop without fuel; excluded by a theorem *).

(** Bytes 0x80-0xBF. *)
Definition is_cont (c : ascii) : bool := let n := N_of_ascii c in ((128 <=? n) && (n <? 192))%N.

(** Well-formed UTF-8, the condition under which [read_to_string] succeeds (src/main.rs:162). *)
Fixpoint valid_utf8 (s : string) : bool :=
  match s with
  | "" => true
  | String a s1 =>
      let n := N_of_ascii a in
      if (n <? 128)%N then valid_utf8 s1
      else
        match s1 with
        | "" => false
        | String b s2 =>
            let m := N_of_ascii b in
            if ((194 <=? n) && (n <? 224))%N then is_cont b && valid_utf8 s2
            else
              match s2 with
              | "" => false
              | String c s3 =>
                  if ((224 <=? n) && (n <? 240))%N then
                    is_cont b && (if (n =? 224)%N then (160 <=? m)%N else true)
                      && (if (n =? 237)%N then (m <? 160)%N else true)
                      && is_cont c && valid_utf8 s3
                  else
                    match s3 with
                    | "" => false
                    | String d s4 =>
                        ((240 <=? n) && (n <? 245))%N
                          && is_cont b && (if (n =? 240)%N then (144 <=? m)%N else true)
                          && (if (n =? 244)%N then (m <? 144)%N else true)
                          && is_cont c && is_cont d && valid_utf8 s4
                    end
              end
        end
  end.

Definition set_file (w : world) (path content : string) : world :=
  mk_world (fun p => if String.eqb p path then Some content else w_files w p)
    (w_out w) (w_creatable w) (w_capacity w).

Definition print_out (w : world) (text : string) : world :=
  mk_world (w_files w) (w_out w ++ text) (w_creatable w) (w_capacity w).

(** src/main.rs:164-170: from the text of the input file to the generated text. *)
Definition translate (contents : string) (l : lang) (skip_models skip_buffers skip_rpc : bool)
  : res string :=
  let* ast := compile_front contents in
  match l with
  | Rust => RustGen.rust_generate ast (negb skip_models) (negb skip_buffers) (negb skip_rpc)
  | Dart => DartGen.dart_generate ast (negb skip_models) (negb skip_buffers) (negb skip_rpc)
  end.

(** src/main.rs:172-177: where the text goes.  [File::create] truncates before writing. *)
Definition emit (output data : string) (w : world) : outcome * world :=
  if String.eqb output "-" then (Done, print_out w (utf8_encode data ++ nl))
  else if w_creatable w output then
    let w := set_file w output "" in
    match w_capacity w output with
    | None => (Done, set_file w output (utf8_encode data))
    | Some n => (IoError, set_file w output (substring 0 n (utf8_encode data)))
    end
  else (IoError, w).

(** src/main.rs:152-180 [generate]. *)
Definition generate (input output : string) (l : lang) (skip_models skip_buffers skip_rpc : bool)
  (w : world) : outcome * world :=
  match w_files w input with
  | None => (IoError, w)
  | Some contents =>
      if valid_utf8 contents then
        match translate contents l skip_models skip_buffers skip_rpc with
        | Ok data => emit output data w
        | Panic => (Panicked, w)
        | NoFuel => (Stuck, w)
        end
      else (IoError, w)
  end.

(** src/main.rs:35-48 [struct YamlParams]. *)
Record yaml_params := mk_yaml_params
  { yp_src : string; yp_dest : string;
    yp_skip_models : bool; yp_skip_buffers : bool; yp_skip_rpc : bool }.

(** src/main.rs:29-33 [struct YamlData]. *)
Record yaml_data := mk_yaml_data
  { yd_dart : option (list yaml_params); yd_rust : option (list yaml_params) }.

Definition starts_with_slash (s : string) : bool :=
  match s with String c _ => Ascii.eqb c "/" | "" => false end.

(** [working_dir.join(p)] on Unix, src/main.rs:111-112, 130-131. *)
Definition path_join (dir p : string) : string :=
  if starts_with_slash p then p
  else if String.eqb dir "" then p
  else if ends_with "/" dir then dir ++ p
  else dir ++ "/" ++ p.

(** src/main.rs:110-125 and 129-144: the items of one language, in order; [?] stops at the first
    error, a panic ends the process. *)
Fixpoint run_items (dir : string) (l : lang) (items : list yaml_params) (w : world)
  : outcome * world :=
  match items with
  | [] => (Done, w)
  | item :: rest =>
      match generate (path_join dir (yp_src item)) (path_join dir (yp_dest item)) l
              (yp_skip_models item) (yp_skip_buffers item) (yp_skip_rpc item) w with
      | (Done, w') => run_items dir l rest w'
      | (o, w') => (o, w')
      end
  end.

Definition option_list {A : Type} (o : option (list A)) : list A :=
  match o with Some l => l | None => [] end.

(** src/main.rs:107-146, the Yaml command after the configuration was parsed. *)
Definition run_yaml (dir : string) (data : yaml_data) (w : world) : outcome * world :=
  match run_items dir Rust (option_list (yd_rust data)) w with
  | (Done, w') => run_items dir Dart (option_list (yd_dart data)) w'
  | (o, w') => (o, w')
  end.
