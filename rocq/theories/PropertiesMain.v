(** Property theorems about the command line: C38 (which files a configuration names, and what running it does).
    After each theorem, a concrete case, and its axioms. *)
Require Import Coq.Strings.String Coq.Strings.Ascii.
Require Import Coq.NArith.NArith Coq.Lists.List Coq.Bool.Bool Coq.micromega.Lia.
Require Import Verif.Base Verif.MainModel Verif.MainCmd Verif.RunFacts.
Require Import Verif.MainFacts.
Import ListNotations.
Local Open Scope string_scope.
Local Open Scope list_scope.

(** A file named in a configuration is taken relative to the directory of the configuration, unless it is absolute. *)
Theorem C38_paths : forall dir p,
  components (path_join dir p) = (if absolute p then components p else components dir ++ components p) /\
  absolute (path_join dir p) = (absolute p || absolute dir)%bool.
Proof. exact lem_C38_paths. Qed.
Example C38_paths_case : path_join "a/b" "../c.tpb" = "a/b/../c.tpb" /\ path_join "a/" "x" = "a/x" /\ path_join "a" "/x" = "/x" /\ path_join "" "-" = "-" /\ path_join "a" "-" = "a/-".
Proof.
  repeat split; reflexivity.
Qed.
Print Assumptions C38_paths.

(** Only a configuration that was given without a directory can send an output to standard output. *)
Theorem C38_standard_output : forall dir p, path_join dir p = "-" <-> dir = "" /\ p = "-".
Proof. exact lem_C38_standard_output. Qed.
Print Assumptions C38_standard_output.

(** The directory of a configuration file: without the last name of its path.  There is none only for the root and the empty path. *)
Theorem C38_config_directory : forall p,
  match path_parent p with
  | Some dir => components dir = removelast (components p) /\ absolute dir = absolute p
  | None => components p = [] /\ (p = "" \/ absolute p = true)
  end.
Proof. exact lem_C38_config_directory. Qed.
Example C38_config_directory_case : map path_parent ["conf/a.yaml"; "a.yaml"; "/a.yaml"; "x//./a.yaml/."; "./a.yaml"; "../y"; "/"; ""] =
  [Some "conf"; Some ""; Some "/"; Some "x"; Some "."; Some ".."; None; None].
Proof.
  vm_compute.
  reflexivity.
Qed.
Print Assumptions C38_config_directory.

(** Running a configuration: nothing happens if it cannot be read or parsed; otherwise its entries run, Rust before Dart, up to the
    first failure, each with its files relative to the directory of the configuration. *)
Theorem C38_config : forall parse path w o w', run_command parse (CYaml path) w = (o, w') ->
  match w_files w path with
  | None => o = IoError /\ w' = w
  | Some text =>
      if valid_utf8 text then
        match parse text with
        | None => o = Panicked /\ w' = w
        | Some data =>
            (components path = [] /\ o = Panicked /\ w' = w) \/
            exists dir, components dir = removelast (components path) /\ absolute dir = absolute path /\ stops w (jobs dir data) o w' /\
              forall j, In j (jobs dir data) -> exists item,
                (j_lang j = Rust /\ (exists l, yd_rust data = Some l /\ In item l) \/ j_lang j = Dart /\ (exists l, yd_dart data = Some l /\ In item l)) /\
                (j_models j, j_buffers j, j_rpc j) = (yp_skip_models item, yp_skip_buffers item, yp_skip_rpc item) /\
                components (j_input j) = (if absolute (yp_src item) then components (yp_src item) else removelast (components path) ++ components (yp_src item)) /\
                components (j_output j) = (if absolute (yp_dest item) then components (yp_dest item) else removelast (components path) ++ components (yp_dest item))
        end
      else o = IoError /\ w' = w
  end.
Proof. exact lem_C38_config. Qed.

(** A configuration in a directory, with one Rust entry whose source is missing. *)
Example C38_config_case :
  let data := {| yd_dart := Some [mk_yaml_params "a" "z" false false false]; yd_rust := Some [mk_yaml_params "../a" "x" false false false; mk_yaml_params "b" "y" false false false] |} in
  let w := set_file (set_file example_world "conf/all.yaml" "rust:") "conf/../a" "struct A { x: i32 }" in
  let '(o, w') := run_command (fun _ => Some data) (CYaml "conf/all.yaml") w in
  o = IoError /\ w_files w' "conf/x" <> None /\ w_files w' "conf/y" = None /\ w_files w' "conf/z" = None /\ w_files w' "x" = w_files w "x".
Proof.
  vm_compute.
  repeat split; discriminate || reflexivity.
Qed.
Print Assumptions C38_config.
