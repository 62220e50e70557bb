(** A reader for the part of Kotlin that the generated files use: syntax trees and a
    recursive-descent parser over token groups.  Written from the Kotlin grammar; nothing here
    refers to the generator.  Line breaks are treated as blanks. *)
Require Import Coq.Strings.String Coq.Strings.Ascii.
Require Import Coq.NArith.NArith Coq.Lists.List Coq.Bool.Bool Coq.Arith.PeanoNat Coq.micromega.Lia.
Require Import Verif.Code.
Import ListNotations.
Local Open Scope string_scope.
Local Open Scope list_scope.

(** ** Trees *)

(** [N<T, U>]. *)
Inductive kty : Type :=
| KTy (n : string) (args : list kty).

(** A number (with its suffix), [a.b], a string, a name, [n(args)], [n.m<ts>(args)]. *)
Inductive kex : Type :=
| XNum (w : string)
| XFloat (a b : string)
| XStr (s : string)
| XName (n : string)
| XCall (n : string) (args : list (option string * kex))
| XMeth (n m : string) (targs : list kty) (args : list (option string * kex)).

(** [fun n(): t = e], [const val n: t = e], [object n : supers { body }],
    [data class n(val p: t, ..) : supers { body }], [sealed interface n { body }],
    [companion object { body }]. *)
Inductive kdecl : Type :=
| YFun (n : string) (t : kty) (e : kex)
| YConst (n : string) (t : kty) (e : kex)
| YObject (n : string) (supers : list string) (body : list kdecl)
| YClass (data : bool) (n : string) (params : list (string * kty)) (supers : list string) (body : list kdecl)
| YInterface (sealed : bool) (n : string) (body : list kdecl)
| YCompanion (body : list kdecl).

(** ** Words *)

(** The hard keywords of Kotlin. *)
Definition kotlin_reserved : list string :=
  ["as"; "break"; "class"; "continue"; "do"; "else"; "false"; "for"; "fun"; "if"; "in"; "interface";
   "is"; "null"; "object"; "package"; "return"; "super"; "this"; "throw"; "true"; "try"; "typealias";
   "typeof"; "val"; "var"; "when"; "while"].

Definition digitc (c : ascii) : bool := ((48 <=? code_of c) && (code_of c <=? 57))%N.
Definition numeric (w : string) : bool := match w with String c _ => digitc c | "" => false end.
Definition among (l : list string) (w : string) : bool := existsb (String.eqb w) l.

Fixpoint underscores (w : string) : bool := match w with "" => true | String c w' => Ascii.eqb c "_" && underscores w' end.

(** A name (those of underscores only are reserved), and a word that can start an expression. *)
Definition kident (w : string) : bool := negb (among kotlin_reserved w) && negb (numeric w) && negb (underscores w).
Definition khead (w : string) : bool := kident w || among ["true"; "false"; "null"] w.

(** ** Types *)

Fixpoint p_ty (f : nat) (l : list tt) : option (kty * list tt) :=
  match f with
  | 0 => None
  | S f' =>
      match l with
      | T (CW w) :: r =>
          if kident w then
            match eat "<" r with
            | Some r' => let? (args, r) := p_tys f' r' in Some (KTy w args, r)
            | None => Some (KTy w [], r)
            end
          else None
      | _ => None
      end
  end
(** One or more types up to and including the closing [>]. *)
with p_tys (f : nat) (l : list tt) : option (list kty * list tt) :=
  match f with
  | 0 => None
  | S f' =>
      let? (t, r) := p_ty f' l in
      match eat ">" r with
      | Some r' => Some ([t], r')
      | None =>
          let? r := eat "," r in
          let? (ts, r) := p_tys f' r in Some (t :: ts, r)
      end
  end.
Definition p_targs (f : nat) (l : list tt) : option (list kty * list tt) :=
  match eat "<" l with
  | Some r => p_tys f r
  | None => Some ([], l)
  end.

(** ** Expressions *)

(** The bracketed list at the start. *)
Definition open_g (o : ascii) (l : list tt) : option (list tt * list tt) :=
  match l with
  | G p g :: r => if Ascii.eqb p o then Some (g, r) else None
  | _ => None
  end.
(** [n = ..] at the start. *)
Definition label_of (l : list tt) : option (string * list tt) :=
  match l with
  | T (CW n) :: T (CS c) :: r => if String.eqb c "=" then Some (n, r) else None
  | _ => None
  end.

Fixpoint p_ex (f : nat) (l : list tt) : option (kex * list tt) :=
  match f with
  | 0 => None
  | S f' =>
      match l with
      | T (CQ s) :: r => Some (XStr s, r)
      | T (CW w) :: r =>
          if numeric w then
            match r with
            | T (CS c) :: T (CW v) :: r' =>
                if String.eqb c "." && numeric v then Some (XFloat w v, r') else Some (XNum w, r)
            | _ => Some (XNum w, r)
            end
          else if khead w then
            match open_g "(" r with
            | Some (g, r) => let? es := p_args f' g in Some (XCall w es, r)
            | None =>
                match eat "." r with
                | Some (T (CW m) :: r) =>
                    let? (ts, r) := p_targs f' r in
                    let? (g, r) := open_g "(" r in
                    let? es := p_args f' g in
                    if kident m then Some (XMeth w m ts es, r) else None
                | Some _ => None
                | None => Some (XName w, r)
                end
            end
          else None
      | _ => None
      end
  end
(** Comma-separated arguments, the whole list; a comma may follow the last one. *)
with p_args (f : nat) (l : list tt) : option (list (option string * kex)) :=
  match f with
  | 0 => None
  | S f' =>
      match l with
      | [] => Some []
      | _ =>
          let? (a, r) :=
            match label_of l with
            | Some (n, r) =>
                let? (e, r) := p_ex f' r in if kident n then Some ((Some n, e), r) else None
            | None => let? (e, r) := p_ex f' l in Some ((None, e), r)
            end in
          match r with
          | [] => Some [a]
          | _ => let? r := eat "," r in let? es := p_args f' r in Some (a :: es)
          end
      end
  end.

(** ** Declarations *)

Definition p_word (l : list tt) : option (string * list tt) :=
  match l with T (CW n) :: r => if kident n then Some (n, r) else None | _ => None end.

(** [val n: t,] repeated, the whole list; the last comma may be missing. *)
Fixpoint p_params (f : nat) (l : list tt) : option (list (string * kty)) :=
  match f with
  | 0 => None
  | S f' =>
      match l with
      | [] => Some []
      | _ =>
          let? r := eatw "val" l in
          let? (n, r) := p_word r in
          let? r := eat ":" r in
          let? (t, r) := p_ty f' r in
          match r with
          | [] => Some [(n, t)]
          | _ => let? r := eat "," r in let? ps := p_params f' r in Some ((n, t) :: ps)
          end
      end
  end.

(** [n, m, ..], one or more. *)
Fixpoint p_names (f : nat) (l : list tt) : option (list string * list tt) :=
  match f with
  | 0 => None
  | S f' =>
      let? (n, r) := p_word l in
      match eat "," r with
      | Some r => let? (ns, r) := p_names f' r in Some (n :: ns, r)
      | None => Some ([n], r)
      end
  end.
(** [: n, m] or nothing. *)
Definition p_supers (f : nat) (l : list tt) : option (list string * list tt) :=
  match eat ":" l with
  | Some r => p_names f r
  | None => Some ([], l)
  end.

(** [n: t = e]. *)
Definition p_typed (f : nat) (l : list tt) : option (kty * kex * list tt) :=
  let? r := eat ":" l in
  let? (t, r) := p_ty f r in
  let? r := eat "=" r in
  let? (e, r) := p_ex f r in Some (t, e, r).

Fixpoint p_decl (f : nat) (l : list tt) : option (kdecl * list tt) :=
  match f with
  | 0 => None
  | S f' =>
      let body l :=
        match open_g "{" l with
        | Some (g, r) => let? b := p_decls f' g in Some (b, r)
        | None => Some ([], l)
        end in
      let cls data l :=
        let? (n, r) := p_word l in
        let? (g, r) := open_g "(" r in
        let? ps := p_params f' g in
        let? (ss, r) := p_supers f' r in
        let? (b, r) := body r in Some (YClass data n ps ss b, r) in
      let itf sealed l :=
        let? (n, r) := p_word l in
        let? (b, r) := body r in Some (YInterface sealed n b, r) in
      match l with
      | T (CW w) :: r =>
          if String.eqb w "fun" then
            let? (n, r) := p_word r in
            let? (g, r) := open_g "(" r in
            let? (t, e, r) := p_typed f' r in
            match g with [] => Some (YFun n t e, r) | _ => None end
          else if String.eqb w "const" then
            let? r := eatw "val" r in
            let? (n, r) := p_word r in
            let? (t, e, r) := p_typed f' r in Some (YConst n t e, r)
          else if String.eqb w "object" then
            let? (n, r) := p_word r in
            let? (ss, r) := p_supers f' r in
            let? (b, r) := body r in Some (YObject n ss b, r)
          else if String.eqb w "companion" then
            let? r := eatw "object" r in
            let? (b, r) := body r in Some (YCompanion b, r)
          else if String.eqb w "class" then cls false r
          else if String.eqb w "data" then let? r := eatw "class" r in cls true r
          else if String.eqb w "interface" then itf false r
          else if String.eqb w "sealed" then let? r := eatw "interface" r in itf true r
          else None
      | _ => None
      end
  end
with p_decls (f : nat) (l : list tt) : option (list kdecl) :=
  match f with
  | 0 => None
  | S f' =>
      match l with
      | [] => Some []
      | _ =>
          let? (d, r) := p_decl f' l in
          let? ds := p_decls f' r in Some (d :: ds)
      end
  end.

Definition kotlin_quotes (c : ascii) : bool := Ascii.eqb c (ascii_of_nat 34).

(** Reading a Kotlin source text. *)
Definition kotlin_file (s : string) : option (list kdecl) :=
  let? ts := code_tokens kotlin_quotes s in
  let? l := group ts in
  p_decls (10 * tts_size l + 10) l.
