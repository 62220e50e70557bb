(** A reader for the part of Swift that the generated files use: syntax trees and a recursive-descent parser over token
    groups.  Written from the Swift grammar; nothing here refers to the generator.  Line breaks are treated as blanks. *)
Require Import Coq.Strings.String Coq.Strings.Ascii.
Require Import Coq.NArith.NArith Coq.Lists.List Coq.Bool.Bool Coq.Arith.PeanoNat Coq.micromega.Lia.
Require Import Verif.Code.
Require Verif.KotlinSyntax.
Import KotlinSyntax(digitc, numeric, among, open_g).
Import ListNotations.
Local Open Scope string_scope.
Local Open Scope list_scope.

(** ** Trees *)

(** [N<T, U>] and [[T]]. *)
Inductive sty : Type :=
| STy (n : string) (args : list sty)
| SArr (t : sty).

(** A number, [a.b], a string, a name, the empty array literal, [n(args)], [n<ts>.m(args)], [.c] and [.c(args)]. *)
Inductive sex : Type :=
| QNum (w : string)
| QFloat (a b : string)
| QStr (s : string)
| QName (n : string)
| QList
| QCall (n : string) (args : list (option string * sex))
| QMeth (n : string) (targs : list sty) (m : string) (args : list (option string * sex))
| QCase (c : string)
| QCaseCall (c : string) (args : list (option string * sex)).

(** [struct n { body }], [enum n { body }], [var n: t], [static let n: t = e], [static func n() -> t { return e }],
    [case n] and [case n(t, ..)]. *)
Inductive sdecl : Type :=
| ZStruct (n : string) (body : list sdecl)
| ZEnum (n : string) (body : list sdecl)
| ZVar (n : string) (t : sty)
| ZLet (n : string) (t : sty) (e : sex)
| ZFunc (static : bool) (n : string) (t : sty) (e : sex)
| ZCase (n : string) (ts : list sty).

(** ** Comments *)

(** The tokens without [/* .. */]; none if a comment is not closed. *)
Definition two (a b : string) (t u : ctok) : bool :=
  match t, u with CS c, CS d => String.eqb c a && String.eqb d b | _, _ => false end.
Fixpoint uncomment (inside : bool) (l : list ctok) : option (list ctok) :=
  match l with
  | [] => if inside then None else Some []
  | t :: r =>
      match r with
      | u :: r' =>
          if inside then if two "*" "/" t u then uncomment false r' else uncomment true r
          else if two "/" "*" t u then uncomment true r'
          else let? ts := uncomment false r in Some (t :: ts)
      | [] => if inside then None else Some [t]
      end
  end.

(** ** Words *)

(** The words of Swift that are reserved everywhere. *)
Definition swift_reserved : list string :=
  ["associatedtype"; "class"; "deinit"; "enum"; "extension"; "fileprivate"; "func"; "import"; "init"; "inout"; "internal";
   "let"; "operator"; "precedencegroup"; "private"; "protocol"; "public"; "rethrows"; "static"; "struct"; "subscript";
   "typealias"; "var"; "break"; "case"; "catch"; "continue"; "default"; "defer"; "do"; "else"; "fallthrough"; "for";
   "guard"; "if"; "in"; "repeat"; "return"; "throw"; "switch"; "where"; "while"; "Any"; "as"; "false"; "is"; "nil";
   "self"; "Self"; "super"; "throws"; "true"; "try"; "_"].

Definition sident (w : string) : bool := negb (among swift_reserved w) && negb (numeric w).
(** A word that can start an expression. *)
Definition shead (w : string) : bool := sident w || among ["true"; "false"; "nil"] w.

(** ** Types *)

Fixpoint p_ty (f : nat) (l : list tt) : option (sty * list tt) :=
  match f with
  | 0 => None
  | S f' =>
      match l with
      | T (CW w) :: r =>
          if sident w then
            match eat "<" r with
            | Some r' => let? (args, r) := p_tys f' r' in Some (STy w args, r)
            | None => Some (STy w [], r)
            end
          else None
      | _ =>
          let? (g, r) := open_g "[" l in
          let? (t, r') := p_ty f' g in
          match r' with [] => Some (SArr t, r) | _ => None end
      end
  end
(** One or more types up to and including the closing [>]. *)
with p_tys (f : nat) (l : list tt) : option (list sty * list tt) :=
  match f with
  | 0 => None
  | S f' =>
      let? (t, r) := p_ty f' l in
      match eat ">" r with
      | Some r' => Some ([t], r')
      | None =>
          let? r := eat "," r in
          let? (ts, r) := p_tys f' r in Some (t :: ts, r)
      end
  end.
Definition p_targs (f : nat) (l : list tt) : option (list sty * list tt) :=
  match eat "<" l with
  | Some r => p_tys f r
  | None => Some ([], l)
  end.

(** ** Expressions *)

(** [n: ..] at the start. *)
Definition label_of (l : list tt) : option (string * list tt) :=
  match l with
  | T (CW n) :: T (CS c) :: r => if String.eqb c ":" then Some (n, r) else None
  | _ => None
  end.

Fixpoint p_ex (f : nat) (l : list tt) : option (sex * list tt) :=
  match f with
  | 0 => None
  | S f' =>
      match l with
      | T (CQ s) :: r => Some (QStr s, r)
      | G o g :: r => if Ascii.eqb o "[" then match g with [] => Some (QList, r) | _ => None end else None
      | T (CS c) :: T (CW m) :: r =>
          if String.eqb c "." && sident m then
            match open_g "(" r with
            | Some (g, r) => let? es := p_args f' g in Some (QCaseCall m es, r)
            | None => Some (QCase m, r)
            end
          else None
      | T (CW w) :: r =>
          if numeric w then
            match r with
            | T (CS c) :: T (CW v) :: r' =>
                if String.eqb c "." && numeric v then Some (QFloat w v, r') else Some (QNum w, r)
            | _ => Some (QNum w, r)
            end
          else if shead w then
            match open_g "(" r with
            | Some (g, r) => let? es := p_args f' g in Some (QCall w es, r)
            | None =>
                let? (ts, r) := p_targs f' r in
                match eat "." r with
                | Some (T (CW m) :: r) =>
                    let? (g, r) := open_g "(" r in
                    let? es := p_args f' g in
                    if sident m then Some (QMeth w ts m es, r) else None
                | Some _ => None
                | None => match ts with [] => Some (QName w, r) | _ => None end
                end
            end
          else None
      | _ => None
      end
  end
(** Comma-separated arguments, the whole list; no comma may follow the last one. *)
with p_args (f : nat) (l : list tt) : option (list (option string * sex)) :=
  match f with
  | 0 => None
  | S f' => match l with [] => Some [] | _ => p_args1 f' l end
  end
with p_args1 (f : nat) (l : list tt) : option (list (option string * sex)) :=
  match f with
  | 0 => None
  | S f' =>
      let? (a, r) :=
        match label_of l with
        | Some (n, r) =>
            let? (e, r) := p_ex f' r in if sident n then Some ((Some n, e), r) else None
        | None => let? (e, r) := p_ex f' l in Some ((None, e), r)
        end in
      match r with
      | [] => Some [a]
      | _ => let? r := eat "," r in let? es := p_args1 f' r in Some (a :: es)
      end
  end.

(** ** Declarations *)

Definition p_word (l : list tt) : option (string * list tt) :=
  match l with T (CW n) :: r => if sident n then Some (n, r) else None | _ => None end.

(** Types separated by commas, the whole list, one or more. *)
Fixpoint p_types (f : nat) (l : list tt) : option (list sty) :=
  match f with
  | 0 => None
  | S f' =>
      let? (t, r) := p_ty f' l in
      match r with
      | [] => Some [t]
      | _ => let? r := eat "," r in let? ts := p_types f' r in Some (t :: ts)
      end
  end.

(** [n() -> t { return e }]. *)
Definition p_func (f : nat) (static : bool) (l : list tt) : option (sdecl * list tt) :=
  let? (n, r) := p_word l in
  let? (g, r) := open_g "(" r in
  let? r := eat "->" r in
  let? (t, r) := p_ty f r in
  let? (b, r) := open_g "{" r in
  let? b := eatw "return" b in
  let? (e, b) := p_ex f b in
  match g, b with [], [] => Some (ZFunc static n t e, r) | _, _ => None end.

Fixpoint p_decl (f : nat) (l : list tt) : option (sdecl * list tt) :=
  match f with
  | 0 => None
  | S f' =>
      match l with
      | T (CW w) :: r =>
          if String.eqb w "struct" then
            let? (n, r) := p_word r in
            let? (g, r) := open_g "{" r in
            let? b := p_decls f' g in Some (ZStruct n b, r)
          else if String.eqb w "enum" then
            let? (n, r) := p_word r in
            let? (g, r) := open_g "{" r in
            let? b := p_decls f' g in Some (ZEnum n b, r)
          else if String.eqb w "var" then
            let? (n, r) := p_word r in
            let? r := eat ":" r in
            let? (t, r) := p_ty f' r in Some (ZVar n t, r)
          else if String.eqb w "case" then
            let? (n, r) := p_word r in
            match open_g "(" r with
            | Some (g, r) => let? ts := p_types f' g in Some (ZCase n ts, r)
            | None => Some (ZCase n [], r)
            end
          else if String.eqb w "func" then p_func f' false r
          else if String.eqb w "static" then
            match eatw "let" r with
            | Some r =>
                let? (n, r) := p_word r in
                let? r := eat ":" r in
                let? (t, r) := p_ty f' r in
                let? r := eat "=" r in
                let? (e, r) := p_ex f' r in Some (ZLet n t e, r)
            | None => let? r := eatw "func" r in p_func f' true r
            end
          else None
      | _ => None
      end
  end
with p_decls (f : nat) (l : list tt) : option (list sdecl) :=
  match f with
  | 0 => None
  | S f' =>
      match l with
      | [] => Some []
      | _ =>
          let? (d, r) := p_decl f' l in
          let? ds := p_decls f' r in Some (d :: ds)
      end
  end.

Definition swift_quotes (c : ascii) : bool := Ascii.eqb c (ascii_of_nat 34).

(** Reading a Swift source text. *)
Definition swift_file (s : string) : option (list sdecl) :=
  let? ts := code_tokens swift_quotes s in
  let? ts := uncomment false ts in
  let? l := group ts in
  p_decls (10 * tts_size l + 10) l.
