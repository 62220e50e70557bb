(** Model of src/main.rs:50-76 (the commands) and 84-150 [main] after argument parsing.

    Not modelled: argument parsing (clap) and logging.  [serde_yaml::from_str] is the argument [parse] of [run_command]; [None] stands
    for its error, on which [unwrap] panics (src/main.rs:106). *)
Require Import Coq.Strings.String Coq.Strings.Ascii.
Require Import Coq.NArith.NArith Coq.Lists.List Coq.Bool.Bool.
Require Import Verif.Base Verif.MainModel.
Import ListNotations.
Local Open Scope string_scope.
Local Open Scope list_scope.

Definition slash : ascii := "/".
Definition dot : ascii := ".".

(** A path read from its end, without the separators and the dots in its last place: [Components] of the standard library skips them.
    The root is kept. *)
Fixpoint drop_tail (r : list ascii) : list ascii :=
  match r with
  | [] => []
  | c :: t =>
      if Ascii.eqb c slash then match t with [] => r | _ => drop_tail t end
      else if Ascii.eqb c dot then match t with d :: _ => if Ascii.eqb d slash then drop_tail t else r | [] => r end
      else r
  end.
(** Without its last component. *)
Fixpoint drop_name (r : list ascii) : list ascii :=
  match r with
  | [] => []
  | c :: t => if Ascii.eqb c slash then r else drop_name t
  end.
(** [Path::parent] on Unix, used in src/main.rs:107. *)
Definition path_parent (p : string) : option string :=
  let r := drop_tail (rev (list_ascii_of_string p)) in
  match r with
  | [] => None
  | c :: t => if Ascii.eqb c slash && match t with [] => true | _ => false end then None else Some (string_of_list_ascii (rev (drop_tail (drop_name r))))
  end.

(** src/main.rs:50-76 [enum Commands]. *)
Inductive command :=
| CGenerate (input output : string) (l : lang) (skip_models skip_buffers skip_rpc : bool)
| CYaml (path : string).

(** src/main.rs:84-150 [main].  For the Yaml command: the file is read, parsed, its directory is taken, then the items run. *)
Definition run_command (parse : string -> option yaml_data) (c : command) (w : world) : outcome * world :=
  match c with
  | CGenerate input output l sm sb sr => generate input output l sm sb sr w
  | CYaml path =>
      match w_files w path with
      | None => (IoError, w)
      | Some contents =>
          if valid_utf8 contents then
            match parse contents with
            | None => (Panicked, w)
            | Some data =>
                match path_parent path with
                | None => (Panicked, w)
                | Some dir => run_yaml dir data w
                end
            end
          else (IoError, w)
      end
  end.
