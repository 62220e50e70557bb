(** A reader for the part of Dart that the generated files use: syntax trees and a
    recursive-descent parser over token groups.  Written from the Dart grammar; nothing here refers
    to the generator. *)
Require Import Coq.Strings.String Coq.Strings.Ascii.
Require Import Coq.NArith.NArith Coq.Lists.List Coq.Bool.Bool Coq.Arith.PeanoNat Coq.micromega.Lia.
Require Import Verif.Code.
Import ListNotations.
Local Open Scope string_scope.
Local Open Scope list_scope.

(** ** Trees *)

(** [N<T, U>]. *)
Inductive dty : Type :=
| DTy (n : string) (args : list dty).

(** Expressions, what may follow an expression, statements.  An argument is an expression with or
    without a label; a flag says that the argument list ends with a comma. *)
Inductive dex : Type :=
| DNum (w : string)
| DFloat (a b : string)
| DStr (s : string)
| DNeg (e : dex)
| DName (n : string) (targs : list dty)
| DConst (n : string) (targs : list dty) (args : list (option string * dex)) (trailing : bool)
| DMap (targs : list dty)
| DFun (x : string) (body : list dst)
| DPost (h : dex) (ps : list dpost)
| DEq (neg : bool) (a b : dex)
| DSet (a b : dex)
with dpost : Type :=
| XField (f : string)
| XCall (args : list (option string * dex)) (trailing : bool)
| XMeth (m : string) (targs : list dty) (args : list (option string * dex)) (trailing : bool)
| XOpt (m : string) (args : list (option string * dex)) (trailing : bool)
| XIndex (e : dex)
with dst : Type :=
| DFinal (x : string) (e : dex)
| DExpr (e : dex)
| DReturn (e : option dex)
| DThrow (e : dex)
| DBreak
| DIf (c : dex) (body : list dst)
| DFor (x a b c : string) (body : list dst)
| DSwitch (e : dex) (cases : list (option dex * list dst)).

(** A parameter: [T x] or [this.x]; positional, or named and required. *)
Definition dparam : Type := (option dty * string)%type.
Inductive dparams : Type :=
| PPos (l : list dparam) (trailing : bool)
| PNamed (l : list dparam).

Inductive dbody : Type :=
| BArrow (e : dex)
| BBlock (l : list dst).

Inductive dmember : Type :=
| MAnnot (n : string)
| MConstCtor (n : string)
| MCtor (n : string) (ps : dparams) (body : option (list dst))
| MInitCtor (n m : string) (inits : list (string * dex))
| MStatic (n : string) (e : dex)
| MLate (t : dty) (n : string)
| MFinal (t : option dty) (n : string) (e : option dex)
| MField (t : dty) (n : string) (e : option dex)
| MGet (t : dty) (n : string) (e : dex)
| MMeth (static : bool) (t : dty) (n : string) (ps : dparams) (body : dbody).

Inductive ditem : Type :=
| DImport (s : string)
| DConstDecl (n : string) (e : dex)
| DClass (n : string) (impl : option dty) (ms : list dmember)
| DEnum (n : string) (names : list string).

(** ** Words *)

(** The reserved words of Dart. *)
Definition dart_reserved : list string :=
  ["assert"; "break"; "case"; "catch"; "class"; "const"; "continue"; "default"; "do"; "else"; "enum";
   "extends"; "false"; "final"; "finally"; "for"; "if"; "in"; "is"; "new"; "null"; "rethrow";
   "return"; "super"; "switch"; "this"; "throw"; "true"; "try"; "var"; "void"; "while"; "with"].
(** The words that cannot name a type. *)
Definition dart_builtin : list string :=
  ["abstract"; "as"; "covariant"; "deferred"; "dynamic"; "export"; "extension"; "external";
   "factory"; "Function"; "get"; "implements"; "import"; "interface"; "late"; "library"; "mixin";
   "operator"; "part"; "required"; "set"; "static"; "typedef"].

Definition digitc (c : ascii) : bool :=
  ((48 <=? code_of c) && (code_of c <=? 57))%N.
Definition numeric (w : string) : bool :=
  match w with String c _ => digitc c | "" => false end.
Definition among (l : list string) (w : string) : bool := existsb (String.eqb w) l.

(** A name of a variable or member. *)
Definition dident (w : string) : bool := negb (among dart_reserved w) && negb (numeric w).
(** A name that can stand in an expression. *)
Definition dhead (w : string) : bool := dident w || among ["true"; "false"; "null"; "this"] w.
(** A name that can be declared as a type, and one that can stand in a type. *)
Definition tname (w : string) : bool := dident w && negb (among dart_builtin w).
Definition thead (w : string) : bool := tname w || String.eqb w "void".

Inductive skw : Type := KFinal | KReturn | KThrow | KBreak | KIf | KFor | KSwitch.
Definition skw_of (w : string) : option skw :=
  if String.eqb w "final" then Some KFinal
  else if String.eqb w "return" then Some KReturn
  else if String.eqb w "throw" then Some KThrow
  else if String.eqb w "break" then Some KBreak
  else if String.eqb w "if" then Some KIf
  else if String.eqb w "for" then Some KFor
  else if String.eqb w "switch" then Some KSwitch
  else None.

(** ** Types *)

Fixpoint p_ty (f : nat) (l : list tt) : option (dty * list tt) :=
  match f with
  | 0 => None
  | S f' =>
      match l with
      | T (CW w) :: r =>
          if thead w then
            match eat "<" r with
            | Some r' => let? (args, r) := p_tys f' r' in Some (DTy w args, r)
            | None => Some (DTy w [], r)
            end
          else None
      | _ => None
      end
  end
(** One or more types up to and including the closing [>]. *)
with p_tys (f : nat) (l : list tt) : option (list dty * list tt) :=
  match f with
  | 0 => None
  | S f' =>
      let? (t, r) := p_ty f' l in
      match eat ">" r with
      | Some r' => Some ([t], r')
      | None =>
          let? r := eat "," r in
          let? (ts, r) := p_tys f' r in Some (t :: ts, r)
      end
  end.

(** Type arguments, if there are any. *)
Definition p_targs (f : nat) (l : list tt) : option (list dty * list tt) :=
  match eat "<" l with
  | Some r => p_tys f r
  | None => Some ([], l)
  end.

(** ** Expressions and statements *)

(** [n: ..] at the start. *)
Definition label_of (l : list tt) : option (string * list tt) :=
  match l with
  | T (CW n) :: T (CS c) :: r => if String.eqb c ":" then Some (n, r) else None
  | _ => None
  end.

(** The bracketed list at the start. *)
Definition open_g (o : ascii) (l : list tt) : option (list tt * list tt) :=
  match l with
  | G p g :: r => if Ascii.eqb p o then Some (g, r) else None
  | _ => None
  end.

(** [int x = a; x < b; x += c], the whole list. *)
Definition p_for (g : list tt) : option (string * string * string * string) :=
  match g with
  | [T (CW ty); T (CW x); T (CS c1); T (CW a); T (CS c2); T (CW x2); T (CS c3); T (CW b); T (CS c4);
     T (CW x3); T (CS c5); T (CW c)] =>
      if String.eqb ty "int" && String.eqb c1 "=" && String.eqb c2 ";" && String.eqb c3 "<"
         && String.eqb c4 ";" && String.eqb c5 "+=" && String.eqb x2 x && String.eqb x3 x
         && dident x && numeric a && dident b && numeric c
      then Some (x, a, b, c) else None
  | _ => None
  end.

Fixpoint p_expr (f : nat) (l : list tt) : option (dex * list tt) :=
  match f with
  | 0 => None
  | S f' =>
      let? (a, r) := p_unary f' l in
      match eat "==" r with
      | Some r => let? (b, r) := p_unary f' r in Some (DEq false a b, r)
      | None =>
          match eat "!=" r with
          | Some r => let? (b, r) := p_unary f' r in Some (DEq true a b, r)
          | None =>
              match eat "=" r with
              | Some r => let? (b, r) := p_expr f' r in Some (DSet a b, r)
              | None => Some (a, r)
              end
          end
      end
  end
with p_unary (f : nat) (l : list tt) : option (dex * list tt) :=
  match f with
  | 0 => None
  | S f' =>
      match eat "-" l with
      | Some r => let? (e, r) := p_unary f' r in Some (DNeg e, r)
      | None =>
          let? (h, r) := p_atom f' l in
          let? (ps, r) := p_posts f' r in
          match ps with
          | [] => Some (h, r)
          | _ => Some (DPost h ps, r)
          end
      end
  end
with p_atom (f : nat) (l : list tt) : option (dex * list tt) :=
  match f with
  | 0 => None
  | S f' =>
      match l with
      | T (CQ s) :: r => Some (DStr s, r)
      | T (CS c) :: r =>
          if String.eqb c "<" then
            let? (ts, r) := p_tys f' r in
            let? (g, r) := open_g "{" r in
            match g with [] => Some (DMap ts, r) | _ => None end
          else None
      | G o g :: r =>
          if Ascii.eqb o "(" then
            match g with
            | [T (CW x)] =>
                let? (b, r) := open_g "{" r in
                let? (ss, rest) := p_stmts f' b in
                match rest with
                | [] => if dident x then Some (DFun x ss, r) else None
                | _ => None
                end
            | _ => None
            end
          else None
      | T (CW w) :: r =>
          if numeric w then
            match r with
            | T (CS c) :: T (CW v) :: r' =>
                if String.eqb c "." && numeric v then Some (DFloat w v, r') else Some (DNum w, r)
            | _ => Some (DNum w, r)
            end
          else if String.eqb w "const" then
            match r with
            | T (CW n) :: r =>
                let? (ts, r) := p_targs f' r in
                let? (g, r) := open_g "(" r in
                let? (es, b) := p_args f' g in
                if tname n then Some (DConst n ts es b, r) else None
            | _ => None
            end
          else if dhead w then
            let? (ts, r) := p_targs f' r in Some (DName w ts, r)
          else None
      | [] => None
      end
  end
with p_posts (f : nat) (l : list tt) : option (list dpost * list tt) :=
  match f with
  | 0 => None
  | S f' =>
      match l with
      | T (CS c) :: r =>
          if String.eqb c "." then
            match r with
            | T (CW m) :: r =>
                if negb (dident m) then None
                else
                  let? (ts, r) := p_targs f' r in
                  match open_g "(" r with
                  | Some (g, r) =>
                      let? (es, b) := p_args f' g in
                      let? (ps, r) := p_posts f' r in Some (XMeth m ts es b :: ps, r)
                  | None =>
                      match ts with
                      | [] => let? (ps, r) := p_posts f' r in Some (XField m :: ps, r)
                      | _ => None
                      end
                  end
            | _ => None
            end
          else if String.eqb c "?." then
            match r with
            | T (CW m) :: r =>
                if negb (dident m) then None
                else
                  let? (g, r) := open_g "(" r in
                  let? (es, b) := p_args f' g in
                  let? (ps, r) := p_posts f' r in Some (XOpt m es b :: ps, r)
            | _ => None
            end
          else Some ([], l)
      | G o g :: r =>
          if Ascii.eqb o "(" then
            let? (es, b) := p_args f' g in
            let? (ps, r) := p_posts f' r in Some (XCall es b :: ps, r)
          else if Ascii.eqb o "[" then
            let? (e, rest) := p_expr f' g in
            match rest with
            | [] => let? (ps, r) := p_posts f' r in Some (XIndex e :: ps, r)
            | _ => None
            end
          else Some ([], l)
      | _ => Some ([], l)
      end
  end
(** Comma-separated arguments, the whole list. *)
with p_args (f : nat) (l : list tt) : option (list (option string * dex) * bool) :=
  match f with
  | 0 => None
  | S f' =>
      match l with
      | [] => Some ([], false)
      | _ =>
          let? (a, r) :=
            match label_of l with
            | Some (n, r) =>
                let? (e, r) := p_expr f' r in if dident n then Some ((Some n, e), r) else None
            | None => let? (e, r) := p_expr f' l in Some ((None, e), r)
            end in
          match r with
          | [] => Some ([a], false)
          | _ =>
              let? r := eat "," r in
              match r with
              | [] => Some ([a], true)
              | _ => let? (es, b) := p_args f' r in Some (a :: es, b)
              end
          end
      end
  end
(** Statements up to the end of the list or the next [case] or [default]. *)
with p_stmts (f : nat) (l : list tt) : option (list dst * list tt) :=
  match f with
  | 0 => None
  | S f' =>
      match l with
      | [] => Some ([], [])
      | x :: _ =>
          if is_w "case" x || is_w "default" x then Some ([], l)
          else
            let? (s, r) := p_stmt f' l in
            let? (ss, r) := p_stmts f' r in Some (s :: ss, r)
      end
  end
with p_stmt (f : nat) (l : list tt) : option (dst * list tt) :=
  match f with
  | 0 => None
  | S f' =>
      match match l with T (CW w) :: _ => skw_of w | _ => None end with
      | None =>
          let? (e, r) := p_expr f' l in
          let? r := eat ";" r in Some (DExpr e, r)
      | Some k =>
          let r := tl l in
          match k with
          | KFinal =>
              match r with
              | T (CW x) :: r =>
                  let? r := eat "=" r in
                  let? (e, r) := p_expr f' r in
                  let? r := eat ";" r in
                  if dident x then Some (DFinal x e, r) else None
              | _ => None
              end
          | KReturn =>
              match eat ";" r with
              | Some r => Some (DReturn None, r)
              | None =>
                  let? (e, r) := p_expr f' r in
                  let? r := eat ";" r in Some (DReturn (Some e), r)
              end
          | KThrow =>
              let? (e, r) := p_expr f' r in
              let? r := eat ";" r in Some (DThrow e, r)
          | KBreak => let? r := eat ";" r in Some (DBreak, r)
          | KIf =>
              let? (g, r) := open_g "(" r in
              let? (b, r) := open_g "{" r in
              let? (e, rest) := p_expr f' g in
              let? (ss, rest2) := p_stmts f' b in
              match rest, rest2 with
              | [], [] => Some (DIf e ss, r)
              | _, _ => None
              end
          | KFor =>
              let? (g, r) := open_g "(" r in
              let? (b, r) := open_g "{" r in
              let? (x, a, n, c) := p_for g in
              let? (ss, rest2) := p_stmts f' b in
              match rest2 with
              | [] => Some (DFor x a n c ss, r)
              | _ => None
              end
          | KSwitch =>
              let? (g, r) := open_g "(" r in
              let? (b, r) := open_g "{" r in
              let? (e, rest) := p_expr f' g in
              let? cs := p_cases f' b in
              match rest with
              | [] => Some (DSwitch e cs, r)
              | _ => None
              end
          end
      end
  end
(** The inside of a [switch], the whole list. *)
with p_cases (f : nat) (l : list tt) : option (list (option dex * list dst)) :=
  match f with
  | 0 => None
  | S f' =>
      match l with
      | [] => Some []
      | _ =>
          match eatw "case" l with
          | Some r =>
              let? (e, r) := p_expr f' r in
              let? r := eat ":" r in
              let? (ss, r) := p_stmts f' r in
              let? cs := p_cases f' r in Some ((Some e, ss) :: cs)
          | None =>
              let? r := eatw "default" l in
              let? r := eat ":" r in
              let? (ss, r) := p_stmts f' r in
              let? cs := p_cases f' r in Some ((None, ss) :: cs)
          end
      end
  end.

(** Statements, the whole list. *)
Definition p_block (f : nat) (l : list tt) : option (list dst) :=
  let? (ss, r) := p_stmts f l in
  match r with [] => Some ss | _ => None end.

(** ** Members *)

(** [T x] or [this.x]. *)
Definition p_param (f : nat) (l : list tt) : option (dparam * list tt) :=
  match eatw "this" l with
  | Some r =>
      let? r := eat "." r in
      match r with
      | T (CW x) :: r => if dident x then Some ((None, x), r) else None
      | _ => None
      end
  | None =>
      let? (t, r) := p_ty f l in
      match r with
      | T (CW x) :: r => if dident x then Some ((Some t, x), r) else None
      | _ => None
      end
  end.
(** The whole list. *)
Fixpoint p_pos (f : nat) (l : list tt) : option (list dparam * bool) :=
  match f with
  | 0 => None
  | S f' =>
      match l with
      | [] => Some ([], false)
      | _ =>
          let? (p, r) := p_param f' l in
          match r with
          | [] => Some ([p], false)
          | _ =>
              let? r := eat "," r in
              match r with
              | [] => Some ([p], true)
              | _ => let? (ps, b) := p_pos f' r in Some (p :: ps, b)
              end
          end
      end
  end.
(** [required p,] repeated, the whole list. *)
Fixpoint p_named (f : nat) (l : list tt) : option (list dparam) :=
  match f with
  | 0 => None
  | S f' =>
      match l with
      | [] => Some []
      | _ =>
          let? r := eatw "required" l in
          let? (p, r) := p_param f' r in
          let? r := eat "," r in
          let? ps := p_named f' r in Some (p :: ps)
      end
  end.
Definition p_params (f : nat) (l : list tt) : option dparams :=
  match open_g "{" l with
  | Some (g, []) => match g with [] => None | _ => let? ps := p_named f g in Some (PNamed ps) end
  | Some (_, _ :: _) => None
  | None => let? (ps, b) := p_pos f l in Some (PPos ps b)
  end.

(** [a = e, b = e;]. *)
Fixpoint p_inits (f : nat) (l : list tt) : option (list (string * dex) * list tt) :=
  match f with
  | 0 => None
  | S f' =>
      match l with
      | T (CW n) :: r =>
          let? r := eat "=" r in
          let? (e, r) := p_expr f' r in
          if negb (dident n) then None
          else
            match eat ";" r with
            | Some r => Some ([(n, e)], r)
            | None =>
                let? r := eat "," r in
                let? (is, r) := p_inits f' r in Some ((n, e) :: is, r)
            end
      | _ => None
      end
  end.

(** [= e;] or [;]. *)
Definition p_init (f : nat) (l : list tt) : option (option dex * list tt) :=
  match eat ";" l with
  | Some r => Some (None, r)
  | None =>
      let? r := eat "=" l in
      let? (e, r) := p_expr f r in
      let? r := eat ";" r in Some (Some e, r)
  end.

Definition p_body (f : nat) (l : list tt) : option (dbody * list tt) :=
  match open_g "{" l with
  | Some (g, r) => let? b := p_block f g in Some (BBlock b, r)
  | None =>
      let? r := eat "=>" l in
      let? (e, r) := p_expr f r in
      let? r := eat ";" r in Some (BArrow e, r)
  end.

(** A word at the start. *)
Definition p_word (l : list tt) : option (string * list tt) :=
  match l with T (CW n) :: r => Some (n, r) | _ => None end.

(** A method, after its type and name. *)
Definition p_method (f : nat) (static : bool) (t : dty) (n : string) (g r : list tt)
  : option (dmember * list tt) :=
  let? ps := p_params f g in
  let? (b, r) := p_body f r in
  if dident n then Some (MMeth static t n ps b, r) else None.

(** A member that starts with a type. *)
Definition p_typed (f : nat) (static : bool) (l : list tt) : option (dmember * list tt) :=
  let? (t, r) := p_ty f l in
  let? (n, r) := p_word r in
  match open_g "(" r with
  | Some (g, r) => p_method f static t n g r
  | None =>
      if static then None
      else
        match p_word r with
        | Some (m, r) =>
            let? r := eat "=>" r in
            let? (e, r) := p_expr f r in
            let? r := eat ";" r in
            if String.eqb n "get" && dident m then Some (MGet t m e, r) else None
        | None =>
            let? (e, r) := p_init f r in if dident n then Some (MField t n e, r) else None
        end
  end.

Definition p_member (f : nat) (l : list tt) : option (dmember * list tt) :=
  match l with
  | T (CS c) :: r =>
      let? (n, r) := p_word r in
      if String.eqb c "@" && dident n then Some (MAnnot n, r) else None
  | T (CW w) :: r =>
      if String.eqb w "const" then
        let? (n, r) := p_word r in
        let? (g, r) := open_g "(" r in
        let? r := eat ";" r in
        match g with [] => if tname n then Some (MConstCtor n, r) else None | _ => None end
      else if String.eqb w "static" then
        match eatw "const" r with
        | Some r =>
            let? (n, r) := p_word r in
            let? r := eat "=" r in
            let? (e, r) := p_expr f r in
            let? r := eat ";" r in if dident n then Some (MStatic n e, r) else None
        | None => p_typed f true r
        end
      else if String.eqb w "late" then
        let? r := eatw "final" r in
        let? (t, r) := p_ty f r in
        let? (n, r) := p_word r in
        let? r := eat ";" r in if dident n then Some (MLate t n, r) else None
      else if String.eqb w "final" then
        match r with
        | T (CW n) :: T (CS c) :: r' =>
            if String.eqb c "=" then
              let? (e, r) := p_expr f r' in
              let? r := eat ";" r in if dident n then Some (MFinal None n (Some e), r) else None
            else
              let? (t, r) := p_ty f r in
              let? (n, r) := p_word r in
              let? (e, r) := p_init f r in if dident n then Some (MFinal (Some t) n e, r) else None
        | _ =>
            let? (t, r) := p_ty f r in
            let? (n, r) := p_word r in
            let? (e, r) := p_init f r in if dident n then Some (MFinal (Some t) n e, r) else None
        end
      else
        match open_g "(" r with
        | Some (g, r) =>
            let? ps := p_params f g in
            if negb (tname w) then None
            else
              match open_g "{" r with
              | Some (b, r) => let? b := p_block f b in Some (MCtor w ps (Some b), r)
              | None => let? r := eat ";" r in Some (MCtor w ps None, r)
              end
        | None =>
            match eat "." r with
            | Some r =>
                let? (m, r) := p_word r in
                let? (g, r) := open_g "(" r in
                let? r := eat ":" r in
                let? (is, r) := p_inits f r in
                match g with
                | [] => if tname w && dident m then Some (MInitCtor w m is, r) else None
                | _ => None
                end
            | None => p_typed f false l
            end
        end
  | _ => None
  end.

Fixpoint p_members (f : nat) (l : list tt) : option (list dmember) :=
  match f with
  | 0 => None
  | S f' =>
      match l with
      | [] => Some []
      | _ =>
          let? (m, r) := p_member f' l in
          let? ms := p_members f' r in Some (m :: ms)
      end
  end.

(** [n,] repeated, the whole list. *)
Fixpoint p_names (l : list tt) : option (list string) :=
  match l with
  | [] => Some []
  | T (CW n) :: T (CS c) :: r =>
      if String.eqb c "," && dident n then let? ns := p_names r in Some (n :: ns) else None
  | _ => None
  end.

(** ** Files *)

Definition p_item (f : nat) (l : list tt) : option (ditem * list tt) :=
  let? (w, r) := p_word l in
  if String.eqb w "import" then
    match r with
    | T (CQ s) :: r => let? r := eat ";" r in Some (DImport s, r)
    | _ => None
    end
  else
    let? (n, r) := p_word r in
    if String.eqb w "const" then
      let? r := eat "=" r in
      let? (e, r) := p_expr f r in
      let? r := eat ";" r in if dident n then Some (DConstDecl n e, r) else None
    else if String.eqb w "class" then
      let? (t, r) :=
        match eatw "implements" r with
        | Some r => let? (t, r) := p_ty f r in Some (Some t, r)
        | None => Some (None, r)
        end in
      let? (g, r) := open_g "{" r in
      let? ms := p_members f g in if tname n then Some (DClass n t ms, r) else None
    else if String.eqb w "enum" then
      let? (g, r) := open_g "{" r in
      let? ns := p_names g in if tname n then Some (DEnum n ns, r) else None
    else None.

Fixpoint p_items (f : nat) (l : list tt) : option (list ditem) :=
  match f with
  | 0 => None
  | S f' =>
      match l with
      | [] => Some []
      | _ =>
          let? (i, r) := p_item f' l in
          let? is := p_items f' r in Some (i :: is)
      end
  end.

Definition dart_quotes (c : ascii) : bool :=
  Ascii.eqb c (ascii_of_nat 34) || Ascii.eqb c (ascii_of_nat 39).

(** Reading a Dart source text. *)
Definition dart_file (s : string) : option (list ditem) :=
  let? ts := code_tokens dart_quotes s in
  let? l := group ts in
  p_items (10 * tts_size l + 10) l.
