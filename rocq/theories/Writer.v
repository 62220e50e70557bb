(** Model of src/writer.rs:1-62. *)
Require Import Coq.Strings.String Coq.Strings.Ascii Coq.Lists.List.
Require Import Coq.Bool.Bool.
Require Import Verif.Base.
Import ListNotations.
Local Open Scope string_scope.

(** src/writer.rs:1-5 [struct Writer]. *)
Record writer := mk_writer { w_res : string; w_tab : string; w_const_tabs : nat }.

(** src/writer.rs:8-14 [Writer::new]. *)
Definition writer_new (tab_size : nat) : writer := mk_writer "" (repeat_string " " tab_size) 0.

(** src/writer.rs:58-62 [Writer::default]. *)
Definition writer_default : writer := writer_new 4.

(** src/writer.rs:28-55: the calls that only append text. *)
Inductive wop : Type :=
| WriteTabs                            (* write_tabs,  28-30 *)
| Write (data : string)                (* write,       32-34 *)
| WriteTab (tab : nat) (data : string) (* write_tab,   36-39 *)
| Writeln (data : string)              (* writeln,     41-45 *)
| NewLine                              (* new_line,    47-49 *)
| WritelnTab (tab : nat) (data : string) (* writeln_tab, 51-55 *).

(** The text a call appends, given the tab text and the current number of constant tabs. *)
Definition op_text (tab : string) (const_tabs : nat) (o : wop) : string :=
  match o with
  | WriteTabs => repeat_string tab const_tabs
  | Write data => data
  | WriteTab n data => repeat_string tab (const_tabs + n) ++ data
  | Writeln data => repeat_string tab const_tabs ++ data ++ nl
  | NewLine => nl
  | WritelnTab n data => repeat_string tab (const_tabs + n) ++ data ++ nl
  end.

(** Executing one appending call: [self.res += ...]. *)
Definition exec_op (o : wop) (w : writer) : writer :=
  mk_writer (w_res w ++ op_text (w_tab w) (w_const_tabs w) o) (w_tab w) (w_const_tabs w).

(** src/writer.rs:16-18 [push_tab]. *)
Definition push_tab (w : writer) : writer :=
  mk_writer (w_res w) (w_tab w) (S (w_const_tabs w)).

(** src/writer.rs:20-22 [pop_tab]: subtraction below zero panics (overflow checks on). *)
Definition pop_tab (w : writer) : res writer :=
  match w_const_tabs w with
  | O => Panic
  | S n => Ok (mk_writer (w_res w) (w_tab w) n)
  end.

(** [writer.show().to_string()] after a sequence of appending calls on [Writer::default()]; the
    Rust and Dart generators never call [push_tab].  [show_ops_exec] below states that this is
    the text the calls leave in the writer. *)
Definition show_ops (ops : list wop) : string :=
  concat_strings (map (op_text "    " 0) ops).

(** The same for [Writer::new(2)], used by the Dart generator. *)
Definition show_ops2 (ops : list wop) : string :=
  concat_strings (map (op_text "  " 0) ops).

(** Writers with [push_tab] and [pop_tab] (the Swift and Kotlin generators). *)
Inductive wcmd : Type :=
| Do (o : wop)
| PushTab
| PopTab.

Definition exec_cmd (c : wcmd) (w : writer) : res writer :=
  match c with
  | Do o => Ok (exec_op o w)
  | PushTab => Ok (push_tab w)
  | PopTab => pop_tab w
  end.

Fixpoint run_cmds (cs : list wcmd) (w : writer) : res writer :=
  match cs with
  | [] => Ok w
  | c :: cs' => let* w' := exec_cmd c w in run_cmds cs' w'
  end.

(** [writer.show().to_string()] after the calls, from [Writer::default()]. *)
Definition show_cmds (cs : list wcmd) : res string :=
  let* w := run_cmds cs writer_default in Ok (w_res w).

(** [for (i, x) in l.iter().enumerate()]. *)
Fixpoint enumerate_from {A : Type} (i : nat) (l : list A) : list (nat * A) :=
  match l with
  | [] => []
  | x :: l' => (i, x) :: enumerate_from (S i) l'
  end.
Definition enumerate {A : Type} (l : list A) : list (nat * A) := enumerate_from 0 l.

(** [format!("{}", b)] for a bool. *)
Definition show_bool (b : bool) : string := if b then "true" else "false".

Definition is_none {A : Type} (o : option A) : bool :=
  match o with None => true | Some _ => false end.

(** [if res.ends_with("\n\n") { res.pop(); }], src/rust_generator.rs:96-98, src/dart_generator.rs:94-96 and others. *)
Definition pop_blank (s : string) : string :=
  if ends_with (nl ++ nl) s then pop_last s else s.

(** [while res.ends_with("\n\n") { res.pop(); }], src/rust_generator.rs:74-76 and src/dart_generator.rs:74-76: at most as many
    rounds as there are characters. *)
Fixpoint pop_blanks (fuel : nat) (s : string) : string :=
  match fuel with
  | O => s
  | S f => if ends_with (nl ++ nl) s then pop_blanks f (pop_last s) else s
  end.
Definition trim_blank_lines (s : string) : string := pop_blanks (String.length s) s.

(** The shortcut [show_ops] is the state machine. *)
Lemma append_assoc_s : forall a b c : string, (a ++ b) ++ c = a ++ (b ++ c).
Proof. induction a; simpl; intros; [ reflexivity | now rewrite IHa ]. Qed.

Lemma append_nil_s : forall a : string, a ++ "" = a.
Proof. induction a; simpl; [ reflexivity | now rewrite IHa ]. Qed.

Lemma fold_exec_ops : forall ops w,
  fold_left (fun w o => exec_op o w) ops w =
  mk_writer (w_res w ++ concat_strings (map (op_text (w_tab w) (w_const_tabs w)) ops))
            (w_tab w) (w_const_tabs w).
Proof.
  induction ops as [|o ops IH]; intros [r t n]; simpl.
  - now rewrite append_nil_s.
  - rewrite IH. simpl. now rewrite append_assoc_s.
Qed.

Lemma show_ops_exec : forall ops,
  w_res (fold_left (fun w o => exec_op o w) ops writer_default) = show_ops ops.
Proof. intros ops. rewrite fold_exec_ops. reflexivity. Qed.

Lemma show_ops2_exec : forall ops,
  w_res (fold_left (fun w o => exec_op o w) ops (writer_new 2)) = show_ops2 ops.
Proof. intros ops. rewrite fold_exec_ops. reflexivity. Qed.
