(** A reader for the part of Rust that the generated files use: syntax trees, a recursive-descent
    parser over token groups, a printer, and the proof that parsing a printed tree gives the tree.
    Written from the Rust grammar; nothing here refers to the generator. *)
Require Import Coq.Strings.String Coq.Strings.Ascii.
Require Import Coq.NArith.NArith Coq.Lists.List Coq.Bool.Bool Coq.Arith.PeanoNat Coq.micromega.Lia.
Require Import Verif.Code.
Import ListNotations.
Local Open Scope string_scope.
Local Open Scope list_scope.

(** ** Trees *)

(** [a::b<T, U>], [&'static mut T], [unsafe fn() -> T]. *)
Inductive rty : Type :=
| RPath (segs : list string) (args : list rty)
| RRef (static mut : bool) (t : rty)
| RUnsafeFn (t : rty).

(** The parts of a path expression: a name, or [<T, U>]. *)
Inductive pseg : Type :=
| SName (n : string)
| SArgs (l : list rty).

Inductive pat : Type :=
| PNum (w : string)
| PWild
| PPath (p : list pseg)
| PTuple (p : list pseg) (names : list string) (trailing : bool)
| PStruct (p : list pseg) (names : list string).

Inductive bkind : Type := BPlain | BUnsafe | BAsync.

(** Expressions, what may follow an expression ([.f], [(..)], [.m(..)]), statements, blocks.
    A flag [trailing] says that the argument list ends with a comma. *)
Inductive ex : Type :=
| ENum (w : string)
| EFloat (a b : string)
| EStr (s : string)
| EPath (p : list pseg)
| EStruct (p : list pseg) (fs : list (string * ex))
| EMacro (m : string) (args : list ex) (trailing : bool)
| EUnit
| EBlock (k : bkind) (b : block)
| EIf (c : ex) (b : block) (els : option block)
| EIfLet (p : pat) (e : ex) (b : block)
| EMatch (e : ex) (arms : list (pat * ex))
| EPost (h : ex) (ps : list post)
| EDeref (e : ex)
| ERef (mut : bool) (e : ex)
| ENot (e : ex)
| ENeg (e : ex)
| EReturn (e : ex)
| EClosure (x : string) (e : ex)
| EEq (a b : ex)
with post : Type :=
| XField (f : string)
| XCall (args : list ex) (trailing : bool)
| XMeth (m : string) (args : list ex) (trailing : bool)
with st : Type :=
| SLet (x : string) (e : ex)
| SSemi (e : ex)
| SBare (e : ex)
| SFor (a b : ex) (body : block)
with block : Type :=
| Blk (l : list st) (tail : option ex).

Record rfn := mk_rfn
  { rf_name : string; rf_params : list (string * rty); rf_trailing : bool; rf_ret : option rty;
    rf_body : block }.

Inductive variant : Type :=
| VUnit (n : string)
| VTuple (n : string) (l : list rty)
| VStruct (n : string) (l : list (string * rty)).

Inductive item : Type :=
| IAttr (inner : bool) (l : list tt)
| IUse (l : list tt)
| IStruct (n : string) (fields : option (list (string * rty)))
| IEnum (n : string) (l : list variant)
| IImpl (tr : string) (t : rty) (fns : list rfn)
| IFn (f : rfn)
| IMod (n : string) (l : list item)
| IConst (n : string) (t : rty) (e : ex).

(** ** Words *)

Inductive kw : Type :=
| KIf | KElse | KMatch | KReturn | KUnsafe | KAsync | KFor | KLet | KOther.

(** The other reserved words of Rust, except [self], [Self], [true] and [false], which the reader
    treats as names. *)
Definition rust_reserved : list string :=
  ["as"; "break"; "const"; "continue"; "crate"; "dyn"; "enum"; "extern"; "fn"; "impl"; "in"; "loop";
   "mod"; "move"; "mut"; "pub"; "ref"; "static"; "struct"; "super"; "trait"; "type"; "use"; "where";
   "while"; "abstract"; "become"; "box"; "do"; "final"; "macro"; "override"; "priv"; "typeof";
   "unsized"; "virtual"; "yield"; "try"; "await"; "_"].

Definition kw_of (w : string) : option kw :=
  if String.eqb w "if" then Some KIf
  else if String.eqb w "else" then Some KElse
  else if String.eqb w "match" then Some KMatch
  else if String.eqb w "return" then Some KReturn
  else if String.eqb w "unsafe" then Some KUnsafe
  else if String.eqb w "async" then Some KAsync
  else if String.eqb w "for" then Some KFor
  else if String.eqb w "let" then Some KLet
  else if existsb (String.eqb w) rust_reserved then Some KOther
  else None.

Definition digitc (c : ascii) : bool :=
  ((48 <=? code_of c) && (code_of c <=? 57))%N.
Definition numeric (w : string) : bool :=
  match w with String c _ => digitc c | "" => false end.

(** The first name of a path: a word that is neither reserved nor a number. *)
Definition path_head (w : string) : bool :=
  match kw_of w with Some _ => false | None => negb (numeric w) end.
(** A name that can be declared. *)
Definition ident (w : string) : bool :=
  path_head w && negb (existsb (String.eqb w) ["self"; "Self"; "true"; "false"]).
Definition type_head (w : string) : bool := ident w || String.eqb w "Self".
Definition field_name (w : string) : bool := ident w || String.eqb w "await".
Definition param_name (w : string) : bool := ident w || String.eqb w "_".

(** ** Types *)

(** The names after a name, each preceded by [::]. *)
Fixpoint p_names (l : list tt) : list string * list tt :=
  match l with
  | T (CS c) :: T (CW n) :: r =>
      if String.eqb c "::" && ident n then let '(ns, r') := p_names r in (n :: ns, r') else ([], l)
  | _ => ([], l)
  end.

Fixpoint p_ty (f : nat) (l : list tt) : option (rty * list tt) :=
  match f with
  | 0 => None
  | S f' =>
      match l with
      | T (CS c) :: r =>
          if String.eqb c "&" then
            let '(static, r) :=
              match r with
              | T (CS q) :: T (CW w) :: r' =>
                  if String.eqb q "'" && String.eqb w "static" then (true, r') else (false, r)
              | _ => (false, r)
              end in
            let '(mut, r) := match eatw "mut" r with Some r' => (true, r') | None => (false, r) end in
            let? (t, r) := p_ty f' r in Some (RRef static mut t, r)
          else None
      | T (CW w) :: r =>
          if String.eqb w "unsafe" then
            match r with
            | T (CW v) :: G o [] :: r' =>
                if String.eqb v "fn" && Ascii.eqb o "(" then
                  let? r := eat "->" r' in
                  let? (t, r) := p_ty f' r in Some (RUnsafeFn t, r)
                else None
            | _ => None
            end
          else if type_head w then
            let '(ns, r) := p_names r in
            match eat "<" r with
            | Some r' => let? (args, r) := p_tys f' r' in Some (RPath (w :: ns) args, r)
            | None => Some (RPath (w :: ns) [], r)
            end
          else None
      | _ => None
      end
  end
(** One or more types up to and including the closing [>]. *)
with p_tys (f : nat) (l : list tt) : option (list rty * list tt) :=
  match f with
  | 0 => None
  | S f' =>
      let? (t, r) := p_ty f' l in
      match eat ">" r with
      | Some r' => Some ([t], r')
      | None =>
          let? r := eat "," r in
          let? (ts, r) := p_tys f' r in Some (t :: ts, r)
      end
  end.

(** ** Paths and patterns *)

Fixpoint p_segs (f : nat) (l : list tt) : option (list pseg * list tt) :=
  match f with
  | 0 => None
  | S f' =>
      match eat "::" l with
      | Some r =>
          match eat "<" r with
          | Some r =>
              let? (ts, r) := p_tys f' r in
              let? (ps, r) := p_segs f' r in Some (SArgs ts :: ps, r)
          | None =>
              match r with
              | T (CW n) :: r =>
                  if ident n then let? (ps, r) := p_segs f' r in Some (SName n :: ps, r) else None
              | _ => None
              end
          end
      | None => Some ([], l)
      end
  end.

(** A comma-separated list of words, the whole list. *)
Fixpoint p_words (l : list tt) : option (list string * bool) :=
  match l with
  | [] => Some ([], false)
  | T (CW n) :: [] => if ident n then Some ([n], false) else None
  | T (CW n) :: x :: r =>
      if is_s "," x && ident n then
        match r with
        | [] => Some ([n], true)
        | _ => let? (ns, b) := p_words r in Some (n :: ns, b)
        end
      else None
  | _ => None
  end.

(** A pattern, the whole list. *)
Definition p_pat (f : nat) (l : list tt) : option pat :=
  match l with
  | T (CW w) :: r =>
      if numeric w then match r with [] => Some (PNum w) | _ => None end
      else if String.eqb w "_" then match r with [] => Some PWild | _ => None end
      else
        match kw_of w with
        | Some _ => None
        | None =>
            let? (ps, r) := p_segs f r in
            match r with
            | [] => Some (PPath (SName w :: ps))
            | [G o g] =>
                let? (ns, b) := p_words g in
                if Ascii.eqb o "(" then Some (PTuple (SName w :: ps) ns b)
                else if Ascii.eqb o "{" then Some (PStruct (SName w :: ps) ns)
                else None
            | _ => None
            end
        end
  | _ => None
  end.

(** ** Expressions *)

(** Expressions that end with their closing brace and need no semicolon. *)
Definition blockish (e : ex) : bool :=
  match e with
  | EBlock BPlain _ | EBlock BUnsafe _ | EIf _ _ _ | EIfLet _ _ _ | EMatch _ _ => true
  | _ => false
  end.

Definition brace_of (l : list tt) : option (list tt * list tt * list tt) :=
  match break_at (is_g "{") l with
  | Some (a, G _ g, b) => Some (a, g, b)
  | _ => None
  end.

Fixpoint p_expr (f : nat) (l : list tt) : option (ex * list tt) :=
  match f with
  | 0 => None
  | S f' =>
      let? (a, r) := p_unary f' l in
      match eat "==" r with
      | Some r => let? (b, r) := p_unary f' r in Some (EEq a b, r)
      | None => Some (a, r)
      end
  end
with p_unary (f : nat) (l : list tt) : option (ex * list tt) :=
  match f with
  | 0 => None
  | S f' =>
      match l with
      | T (CS c) :: r =>
          if String.eqb c "*" then let? (e, r) := p_unary f' r in Some (EDeref e, r)
          else if String.eqb c "&" then
            match eatw "mut" r with
            | Some r => let? (e, r) := p_unary f' r in Some (ERef true e, r)
            | None => let? (e, r) := p_unary f' r in Some (ERef false e, r)
            end
          else if String.eqb c "!" then let? (e, r) := p_unary f' r in Some (ENot e, r)
          else if String.eqb c "-" then let? (e, r) := p_unary f' r in Some (ENeg e, r)
          else if String.eqb c "|" then
            match r with
            | T (CW x) :: r =>
                let? r := eat "|" r in
                let? (e, r) := p_expr f' r in
                if ident x then Some (EClosure x e, r) else None
            | _ => None
            end
          else None
      | _ =>
          let? (h, r) := p_atom f' l in
          if blockish h then Some (h, r)
          else
            match h with
            | EReturn _ => Some (h, r)
            | _ =>
                let? (ps, r) := p_posts f' r in
                match ps with
                | [] => Some (h, r)
                | _ => Some (EPost h ps, r)
                end
            end
      end
  end
with p_atom (f : nat) (l : list tt) : option (ex * list tt) :=
  match f with
  | 0 => None
  | S f' =>
      match l with
      | T (CQ s) :: r => Some (EStr s, r)
      | G o g :: r =>
          if Ascii.eqb o "(" then match g with [] => Some (EUnit, r) | _ => None end
          else if Ascii.eqb o "{" then let? b := p_block f' g in Some (EBlock BPlain b, r)
          else None
      | T (CW w) :: r =>
          if numeric w then
            match r with
            | T (CS c) :: T (CW v) :: r' =>
                if String.eqb c "." && numeric v then Some (EFloat w v, r') else Some (ENum w, r)
            | _ => Some (ENum w, r)
            end
          else
            match kw_of w with
            | Some KReturn => let? (e, r) := p_expr f' r in Some (EReturn e, r)
            | Some KUnsafe =>
                match r with
                | G o g :: r =>
                    if Ascii.eqb o "{" then let? b := p_block f' g in Some (EBlock BUnsafe b, r)
                    else None
                | _ => None
                end
            | Some KAsync =>
                let? r := eatw "move" r in
                match r with
                | G o g :: r =>
                    if Ascii.eqb o "{" then let? b := p_block f' g in Some (EBlock BAsync b, r)
                    else None
                | _ => None
                end
            | Some KIf =>
                let? (a, g, r) := brace_of r in
                let? b := p_block f' g in
                match eatw "let" a with
                | Some a =>
                    match break_at (is_s "=") a with
                    | Some (pa, _, ea) =>
                        let? p := p_pat f' pa in
                        let? (e, rest) := p_expr f' ea in
                        match rest with [] => Some (EIfLet p e b, r) | _ => None end
                    | None => None
                    end
                | None =>
                    let? (c, rest) := p_expr f' a in
                    match rest with
                    | [] =>
                        match eatw "else" r with
                        | Some (G o g :: r) =>
                            if Ascii.eqb o "{" then
                              let? b2 := p_block f' g in Some (EIf c b (Some b2), r)
                            else None
                        | Some _ => None
                        | None => Some (EIf c b None, r)
                        end
                    | _ => None
                    end
                end
            | Some KMatch =>
                let? (a, g, r) := brace_of r in
                let? (e, rest) := p_expr f' a in
                match rest with
                | [] => let? arms := p_arms f' g in Some (EMatch e arms, r)
                | _ => None
                end
            | Some _ => None
            | None =>
                match r with
                | T (CS c) :: r' =>
                    if String.eqb c "!" then
                      match r' with
                      | G o g :: r =>
                          if Ascii.eqb o "(" then
                            let? (es, b) := p_args f' g in
                            if ident w then Some (EMacro w es b, r) else None
                          else None
                      | _ => None
                      end
                    else
                      let? (ps, r) := p_segs f' r in
                      match r with
                      | G o g :: r'' =>
                          if Ascii.eqb o "{" then
                            let? fs := p_inits f' g in Some (EStruct (SName w :: ps) fs, r'')
                          else Some (EPath (SName w :: ps), r)
                      | _ => Some (EPath (SName w :: ps), r)
                      end
                | G o g :: r'' =>
                    if Ascii.eqb o "{" then
                      let? fs := p_inits f' g in Some (EStruct [SName w] fs, r'')
                    else Some (EPath [SName w], r)
                | _ => Some (EPath [SName w], r)
                end
            end
      | _ => None
      end
  end
with p_posts (f : nat) (l : list tt) : option (list post * list tt) :=
  match f with
  | 0 => None
  | S f' =>
      match l with
      | T (CS c) :: r =>
          if String.eqb c "." then
            match r with
            | T (CW m) :: G o g :: r' =>
                if Ascii.eqb o "(" then
                  let? (es, b) := p_args f' g in
                  let? (ps, r) := p_posts f' r' in
                  if ident m then Some (XMeth m es b :: ps, r) else None
                else None
            | T (CW m) :: r' =>
                let? (ps, r) := p_posts f' r' in
                if field_name m then Some (XField m :: ps, r) else None
            | _ => None
            end
          else Some ([], l)
      | G o g :: r =>
          if Ascii.eqb o "(" then
            let? (es, b) := p_args f' g in
            let? (ps, r) := p_posts f' r in Some (XCall es b :: ps, r)
          else Some ([], l)
      | _ => Some ([], l)
      end
  end
(** Comma-separated expressions, the whole list. *)
with p_args (f : nat) (l : list tt) : option (list ex * bool) :=
  match f with
  | 0 => None
  | S f' =>
      match l with
      | [] => Some ([], false)
      | _ =>
          let? (e, r) := p_expr f' l in
          match r with
          | [] => Some ([e], false)
          | _ =>
              let? r := eat "," r in
              match r with
              | [] => Some ([e], true)
              | _ => let? (es, b) := p_args f' r in Some (e :: es, b)
              end
          end
      end
  end
(** [f: e,] repeated, the whole list. *)
with p_inits (f : nat) (l : list tt) : option (list (string * ex)) :=
  match f with
  | 0 => None
  | S f' =>
      match l with
      | [] => Some []
      | T (CW n) :: r =>
          let? r := eat ":" r in
          let? (e, r) := p_expr f' r in
          if ident n then
            match r with
            | [] => Some [(n, e)]
            | _ =>
                let? r := eat "," r in
                let? fs := p_inits f' r in Some ((n, e) :: fs)
            end
          else None
      | _ => None
      end
  end
(** [p => e,] repeated, the whole list. *)
with p_arms (f : nat) (l : list tt) : option (list (pat * ex)) :=
  match f with
  | 0 => None
  | S f' =>
      match l with
      | [] => Some []
      | _ =>
          match break_at (is_s "=>") l with
          | Some (pa, _, r) =>
              let? p := p_pat f' pa in
              let? (e, r) := p_expr f' r in
              match r with
              | [] => Some [(p, e)]
              | _ =>
                  let? r := eat "," r in
                  let? arms := p_arms f' r in Some ((p, e) :: arms)
              end
          | None => None
          end
      end
  end
(** The inside of a block, the whole list. *)
with p_block (f : nat) (l : list tt) : option block :=
  match f with
  | 0 => None
  | S f' =>
      match l with
      | [] => Some (Blk [] None)
      | _ =>
          match eatw "let" l with
          | Some r =>
              match r with
              | T (CW x) :: r =>
                  let? r := eat "=" r in
                  let? (e, r) := p_expr f' r in
                  let? r := eat ";" r in
                  let? b := p_block f' r in
                  if ident x then match b with Blk ss t => Some (Blk (SLet x e :: ss) t) end else None
              | _ => None
              end
          | None =>
              match eatw "for" l with
              | Some r =>
                  let? r := eatw "_" r in
                  let? r := eatw "in" r in
                  let? (h, g, r) := brace_of r in
                  let? (a, h) := p_expr f' h in
                  let? h := eat ".." h in
                  let? (b, h) := p_expr f' h in
                  match h with
                  | [] =>
                      let? body := p_block f' g in
                      let? blk := p_block f' r in
                      match blk with Blk ss t => Some (Blk (SFor a b body :: ss) t) end
                  | _ => None
                  end
              | None =>
                  let? (e, r) := p_expr f' l in
                  match r with
                  | [] => Some (Blk [] (Some e))
                  | _ =>
                      match eat ";" r with
                      | Some r =>
                          let? b := p_block f' r in
                          match b with Blk ss t => Some (Blk (SSemi e :: ss) t) end
                      | None =>
                          if blockish e then
                            let? b := p_block f' r in
                            match b with Blk ss t => Some (Blk (SBare e :: ss) t) end
                          else None
                      end
                  end
              end
          end
      end
  end.

(** ** Items *)

(** [pub f: T,] repeated (without [pub] inside a variant), the whole list. *)
Fixpoint p_fields (pub : bool) (f : nat) (l : list tt) : option (list (string * rty)) :=
  match f with
  | 0 => None
  | S f' =>
      match l with
      | [] => Some []
      | _ =>
          let? r := if pub then eatw "pub" l else Some l in
          match r with
          | T (CW n) :: r =>
              let? r := eat ":" r in
              let? (t, r) := p_ty f' r in
              let? r := eat "," r in
              let? fs := p_fields pub f' r in if ident n then Some ((n, t) :: fs) else None
          | _ => None
          end
      end
  end.

(** [T,] repeated, the whole list. *)
Fixpoint p_tlist (f : nat) (l : list tt) : option (list rty) :=
  match f with
  | 0 => None
  | S f' =>
      match l with
      | [] => Some []
      | _ =>
          let? (t, r) := p_ty f' l in
          let? r := eat "," r in
          let? ts := p_tlist f' r in Some (t :: ts)
      end
  end.

Fixpoint p_variants (f : nat) (l : list tt) : option (list variant) :=
  match f with
  | 0 => None
  | S f' =>
      match l with
      | [] => Some []
      | T (CW n) :: G o g :: r =>
          let? r := eat "," r in
          let? vs := p_variants f' r in
          if negb (ident n) then None
          else if Ascii.eqb o "(" then let? ts := p_tlist f' g in Some (VTuple n ts :: vs)
          else if Ascii.eqb o "{" then let? fs := p_fields false f' g in Some (VStruct n fs :: vs)
          else None
      | T (CW n) :: r =>
          let? r := eat "," r in
          let? vs := p_variants f' r in if ident n then Some (VUnit n :: vs) else None
      | _ => None
      end
  end.

Definition self_ref : rty := RRef false false (RPath ["Self"] []).

(** The parameters of a function: [&self] and [x: T], the whole list. *)
Fixpoint p_params (f : nat) (l : list tt) : option (list (string * rty) * bool) :=
  match f with
  | 0 => None
  | S f' =>
      match l with
      | [] => Some ([], false)
      | _ =>
          let? (p, r) :=
            match l with
            | T (CS c) :: T (CW n) :: r =>
                if String.eqb c "&" && String.eqb n "self" then Some (("self", self_ref), r) else None
            | T (CW n) :: r =>
                let? r := eat ":" r in
                let? (t, r) := p_ty f' r in if param_name n then Some ((n, t), r) else None
            | _ => None
            end in
          match r with
          | [] => Some ([p], false)
          | _ =>
              let? r := eat "," r in
              match r with
              | [] => Some ([p], true)
              | _ => let? (ps, b) := p_params f' r in Some (p :: ps, b)
              end
          end
      end
  end.

(** After the word [fn]. *)
Definition p_fn (f : nat) (l : list tt) : option (rfn * list tt) :=
  match l with
  | T (CW n) :: G o g :: r =>
      if Ascii.eqb o "(" && ident n then
        let? (ps, tr) := p_params f g in
        let? (ret, r) :=
          match eat "->" r with
          | Some r => let? (t, r) := p_ty f r in Some (Some t, r)
          | None => Some (None, r)
          end in
        match r with
        | G o g :: r =>
            if Ascii.eqb o "{" then let? b := p_block f g in Some (mk_rfn n ps tr ret b, r) else None
        | _ => None
        end
      else None
  | _ => None
  end.

Fixpoint p_fns (f : nat) (l : list tt) : option (list rfn) :=
  match f with
  | 0 => None
  | S f' =>
      match l with
      | [] => Some []
      | _ =>
          let? r := eatw "fn" l in
          let? (fn, r) := p_fn f' r in
          let? fns := p_fns f' r in Some (fn :: fns)
      end
  end.

Fixpoint p_items (f : nat) (l : list tt) : option (list item) :=
  match f with
  | 0 => None
  | S f' =>
      match l with
      | [] => Some []
      | T (CS c) :: r =>
          if String.eqb c "#" then
            let '(inner, r) := match eat "!" r with Some r => (true, r) | None => (false, r) end in
            match r with
            | G o g :: r =>
                if Ascii.eqb o "[" then
                  let? is := p_items f' r in Some (IAttr inner g :: is)
                else None
            | _ => None
            end
          else None
      | T (CW w) :: r =>
          if String.eqb w "use" then
            match break_at (is_s ";") r with
            | Some (a, _, r) => let? is := p_items f' r in Some (IUse a :: is)
            | None => None
            end
          else if String.eqb w "impl" then
            match r with
            | T (CW tr) :: T (CW w2) :: r =>
                if String.eqb w2 "for" && ident tr then
                  let? (t, r) := p_ty f' r in
                  match r with
                  | G o g :: r =>
                      if Ascii.eqb o "{" then
                        let? fns := p_fns f' g in
                        let? is := p_items f' r in Some (IImpl tr t fns :: is)
                      else None
                  | _ => None
                  end
                else None
            | _ => None
            end
          else if String.eqb w "pub" then
            match r with
            | T (CW k) :: r =>
                if String.eqb k "fn" then
                  let? (fn, r) := p_fn f' r in
                  let? is := p_items f' r in Some (IFn fn :: is)
                else
                  match r with
                  | T (CW n) :: r =>
                      if negb (ident n) then None
                      else if String.eqb k "const" then
                        let? r := eat ":" r in
                        let? (t, r) := p_ty f' r in
                        let? r := eat "=" r in
                        let? (e, r) := p_expr f' r in
                        let? r := eat ";" r in
                        let? is := p_items f' r in Some (IConst n t e :: is)
                      else
                        match r with
                        | G o g :: r =>
                            if Ascii.eqb o "{" then
                              if String.eqb k "struct" then
                                let? fs := p_fields true f' g in
                                let? is := p_items f' r in Some (IStruct n (Some fs) :: is)
                              else if String.eqb k "enum" then
                                let? vs := p_variants f' g in
                                let? is := p_items f' r in Some (IEnum n vs :: is)
                              else if String.eqb k "mod" then
                                let? ms := p_items f' g in
                                let? is := p_items f' r in Some (IMod n ms :: is)
                              else None
                            else None
                        | _ =>
                            if String.eqb k "struct" then
                              let? r := eat ";" r in
                              let? is := p_items f' r in Some (IStruct n None :: is)
                            else None
                        end
                  | _ => None
                  end
            | _ => None
            end
          else None
      | _ => None
      end
  end.

Definition rust_quotes (c : ascii) : bool := Ascii.eqb c (ascii_of_nat 34).

(** Reading a Rust source text. *)
Definition rust_file (s : string) : option (list item) :=
  let? ts := code_tokens rust_quotes s in
  let? l := group ts in
  p_items (10 * tts_size l + 10) l.
