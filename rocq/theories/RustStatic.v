(** The static rules of Rust for the trees that [rust_file] (RustSyntax.v) reads: names, types, borrowing and moving in the
    codecs and handlers.  Written from the Rust language rules; nothing here refers to the generator.  A file that passes
    compiles; the rules are at places stricter than those of Rust.  Types and [Default] implementations are the subject of
    [RustDefault], constants that of [RustConst].

    Simplifications: the type of an expression is inferred from its parts, that of a literal by the place where it stands;
    [!] is the type of an expression that does not return, and stands for the unknown type of [None].  A value that is not
    [Copy] is never moved out of a variable, except into an [async move] block.  No argument of a method call mentions the
    variable its receiver starts from.  A reference is taken in the head of an [if let] and behind ['static] references
    only.

    The crates tech_paws_buffers, tech_paws_runtime and uuid are not part of /repo.  What the generated code uses of them
    is given by [lib_types], [field_of], [method_of], [maker_of], [trait_fns], [uuid_text].  [fns] are the functions that
    the user provides, with their parameters, their result and whether they are asynchronous.  These belong to the trusted
    base.  [ext] are the types with codecs that the user imports; the types of the file are not made of them (see
    [RustDefault]).  Other imports of the user are assumed not to clash with the names of the file. *)
Require Import Coq.Strings.String Coq.Strings.Ascii.
Require Import Coq.NArith.NArith Coq.ZArith.ZArith Coq.Lists.List Coq.Bool.Bool Coq.Arith.PeanoNat.
Require Import Verif.Code Verif.RustSyntax Verif.RustSem.
Require Verif.RustDefault Verif.RustConst Verif.ConstSpec.
Import RustDefault(among, distinct, rty_eqb, shape_of, type_names, find_variant, variant_name, named, declares, types_compile, shape, HUnit, HFields, HCases).
Import RustConst(mod_names, consts_compile). Import ConstSpec(rust_words).
Import ListNotations.
Local Open Scope string_scope.
Local Open Scope list_scope.

(** ** Types *)

Definition t0 (n : string) : rty := RPath [n] [].
Definition unit_ty : rty := t0 "()".
Definition never : rty := t0 "!".
Definition option_of (t : rty) : rty := RPath ["Option"] [t].
Definition future_of (t : rty) : rty := RPath ["Future"] [t].
Definition shared (t : rty) : rty := RRef false false t.
Definition unique (t : rty) : rty := RRef false true t.

Fixpoint assoc {A} (x : string) (l : list (string * A)) : option A :=
  match l with [] => None | (y, a) :: l' => if String.eqb x y then Some a else assoc x l' end.

(** ** The libraries *)

(** The types that a file imports. *)
Definition lib_types : list string :=
  ["BytesReader"; "BytesWriter"; "TechPawsRuntimeMemory"; "RpcMethodAddress"; "TechPawsRpcAddress"; "TechPawsRuntime"; "TechPawsRuntimeAsyncContext";
   "TechPawsRuntimeRpcMethodBuffer"; "TechPawsScopeId"].
(** The types that a file does not name. *)
Definition scope_ty : rty := t0 "Scope".
Definition spawner_ty : rty := t0 "Spawner".
Definition group_ty : rty := t0 "GroupAddress".
Definition uuid_ty : rty := t0 "Uuid".
(** Names with a meaning, from the libraries and the language. *)
Definition lib_names : list string :=
  lib_types ++ prims ++ ["IntoVMBuffers"; "uuid"; "panic"; "String"; "Vec"; "Option"; "Some"; "None"; "Default"; "Clone"; "Debug"; "PartialEq"; "Future"; "Scope"; "Spawner"; "GroupAddress"; "Uuid"; "str"; "()"; "!"] ++ rust_words.

(** The hexadecimal digits of a UUID, with hyphens or without. *)
Definition hexb (c : ascii) : bool := let n := nat_of_ascii c in
  ((48 <=? n) && (n <=? 57) || (65 <=? n) && (n <=? 70) || (97 <=? n) && (n <=? 102))%nat.
Fixpoint hexes (n : nat) (s : string) : option string :=
  match n, s with
  | 0, _ => Some s
  | S n', String c s' => if hexb c then hexes n' s' else None
  | _, "" => None
  end.
Fixpoint hex_groups (l : list nat) (s : string) : bool :=
  match l with
  | [] => false
  | [n] => match hexes n s with Some "" => true | _ => false end
  | n :: l' => match hexes n s with Some (String c s') => Ascii.eqb c "-" && hex_groups l' s' | _ => false end
  end.
Definition uuid_text (s : string) : bool := hex_groups [32] s || hex_groups [8; 4; 4; 4; 12] s.

(** The parameters of methods and functions: a value, a closure with the type of its parameter and, if it is fixed, of its
    result, an [async move] block, a handler. *)
Inductive par : Type :=
| PVal (t : rty)
| PClosure (a : rty) (r : option rty)
| PAsync
| PHandler (ps : list rty).
(** The result: a type, or the result of the closure that is the last argument. *)
Inductive res_ty : Type := Is (t : rty) | OfClosure.

Definition field_of (n f : string) : option rty :=
  if String.eqb n "TechPawsRuntime" then assoc f [("memory", t0 "TechPawsRuntimeMemory")]
  else if String.eqb n "TechPawsRuntimeAsyncContext" then assoc f [("async_spawner", spawner_ty)]
  else if String.eqb n "TechPawsRpcAddress" then assoc f [("sync_group_address", group_ty); ("async_group_address", group_ty); ("read_group_address", group_ty)]
  else None.
Definition drop_prefix (p s : string) : option string :=
  if String.prefix p s then Some (substring (String.length p) (String.length s) s) else None.
Definition runtime_fn : rty := RUnsafeFn (RRef true true (t0 "TechPawsRuntime")).
Definition sync_handler : list rty := [t0 "TechPawsScopeId"; unique (t0 "TechPawsRuntimeMemory"); t0 "RpcMethodAddress"].
Definition async_handler : list rty :=
  [t0 "TechPawsScopeId"; runtime_fn; unique (t0 "TechPawsRuntimeMemory"); unique (t0 "TechPawsRuntimeAsyncContext"); t0 "RpcMethodAddress"].
(** Whether it changes its receiver, its parameters, its result. *)
Definition method_of (n m : string) : option (bool * list par * res_ty) :=
  if String.eqb n "BytesReader" then
    match drop_prefix "read_" m with Some p => if is_prim p then Some (true, [], Is (t0 p)) else None | None => None end
  else if String.eqb n "BytesWriter" then
    match drop_prefix "write_" m with Some p => if is_prim p then Some (true, [PVal (t0 p)], Is unit_ty) else None | None => None end
  else if String.eqb n "TechPawsRuntimeMemory" then
    assoc m [("get_scope_mut", (true, [PVal (t0 "TechPawsScopeId")], Is (unique scope_ty))); ("add_scope", (true, [PVal (t0 "TechPawsScopeId")], Is unit_ty))]
  else if String.eqb n "Scope" then
    assoc m
      [ ("rpc_buffer_read", (true, [PVal (t0 "RpcMethodAddress"); PVal (t0 "TechPawsRuntimeRpcMethodBuffer"); PClosure (unique (t0 "BytesReader")) None], OfClosure));
        ("rpc_buffer_write", (true, [PVal (t0 "RpcMethodAddress"); PVal (t0 "TechPawsRuntimeRpcMethodBuffer"); PClosure (unique (t0 "BytesWriter")) (Some unit_ty)], Is unit_ty)) ]
  else if String.eqb n "Spawner" then assoc m [("spawn", (true, [PAsync], Is unit_ty))]
  else if String.eqb n "TechPawsRuntime" then
    let args h := [PVal group_ty; PVal (t0 "TechPawsScopeId"); PVal (t0 "RpcMethodAddress"); PHandler h] in
    assoc m [("register_sync_rpc_method", (true, args sync_handler, Is unit_ty)); ("register_async_rpc_method", (true, args async_handler, Is unit_ty))]
  else None.
(** The trait [IntoVMBuffers]. *)
Definition trait_fns : list (string * (list rty * rty)) :=
  [ ("read_from_buffers", ([unique (t0 "BytesReader")], t0 "Self"));
    ("write_to_buffers", ([self_ref; unique (t0 "BytesWriter")], unit_ty));
    ("skip_in_buffers", ([unique (t0 "BytesReader"); t0 "u64"], unit_ty)) ].

(** ** Names that occur, and names that occur in [async] blocks *)

Definition path_names (p : list pseg) : list string := match p with [SName n] => [n] | _ => [] end.
Fixpoint names_ex (e : ex) : list string :=
  match e with
  | ENum _ | EFloat _ _ | EStr _ | EUnit => []
  | EPath p => path_names p
  | EStruct _ fs => flat_map (fun '(_, e) => names_ex e) fs
  | EMacro _ l _ => flat_map names_ex l
  | EBlock _ b => names_block b
  | EIf c b els => names_ex c ++ names_block b ++ match els with Some b => names_block b | None => [] end
  | EIfLet _ e b => names_ex e ++ names_block b
  | EMatch e arms => names_ex e ++ flat_map (fun '(_, e) => names_ex e) arms
  | EPost h ps => names_ex h ++ flat_map names_post ps
  | EDeref e | ERef _ e | ENot e | ENeg e | EReturn e | EClosure _ e => names_ex e
  | EEq a b => names_ex a ++ names_ex b
  end
with names_post (x : post) : list string :=
  match x with XField _ => [] | XCall l _ | XMeth _ l _ => flat_map names_ex l end
with names_st (s : st) : list string :=
  match s with SLet _ e | SSemi e | SBare e => names_ex e | SFor a b body => names_ex a ++ names_ex b ++ names_block body end
with names_block (b : block) : list string :=
  match b with Blk l t => flat_map names_st l ++ match t with Some e => names_ex e | None => [] end end.

Definition without (xs l : list string) : list string := filter (fun n => negb (among xs n)) l.
Definition pat_names (p : pat) : list string := match p with PTuple _ l _ | PStruct _ l => l | _ => [] end.
Fixpoint caps_ex (e : ex) : list string :=
  match e with
  | ENum _ | EFloat _ _ | EStr _ | EUnit | EPath _ => []
  | EStruct _ fs => flat_map (fun '(_, e) => caps_ex e) fs
  | EMacro _ l _ => flat_map caps_ex l
  | EBlock BAsync b => names_block b
  | EBlock _ b => caps_block b
  | EIf c b els => caps_ex c ++ caps_block b ++ match els with Some b => caps_block b | None => [] end
  | EIfLet p e b => caps_ex e ++ without (pat_names p) (caps_block b)
  | EMatch e arms => caps_ex e ++ flat_map (fun '(p, e) => without (pat_names p) (caps_ex e)) arms
  | EPost h ps => caps_ex h ++ flat_map caps_post ps
  | EDeref e | ERef _ e | ENot e | ENeg e | EReturn e => caps_ex e
  | EClosure x e => without [x] (caps_ex e)
  | EEq a b => caps_ex a ++ caps_ex b
  end
with caps_post (x : post) : list string :=
  match x with XField _ => [] | XCall l _ | XMeth _ l _ => flat_map caps_ex l end
with caps_st (s : st) : list string :=
  match s with SLet _ e | SSemi e | SBare e => caps_ex e | SFor a b body => caps_ex a ++ caps_ex b ++ caps_block body end
with caps_block (b : block) : list string :=
  match b with
  | Blk l t =>
      (fix go l := match l with
                   | [] => match t with Some e => caps_ex e | None => [] end
                   | s :: l' => caps_st s ++ match s with SLet x _ => without [x] (go l') | _ => go l' end
                   end) l
  end.

(** ** The file *)

(** Variables: the type, or [None] for one that has been moved. *)
Definition tenv := list (string * option rty).
(** What [Self] is, what [return] returns, whether [unsafe] functions may be called, whether [.await] may be used. *)
Record ctx := mk_ctx { c_self : option string; c_ret : option rty; c_unsafe : bool; c_async : bool }.
(** The value of an expression: a temporary, or a place, which can be changed or not, lives behind a ['static] reference or
    not, and starts from a variable. *)
Inductive kind : Type := Temp | Place (mut static : bool) (root : string).

Section File.
Variable fns : list (string * (list rty * rty * bool)).
Variable ext : list string.
Variable items : list item.

Definition words (l : list tt) : list string := flat_map (fun t => match t with T (CW n) => [n] | G _ l => flat_map (fun t => match t with T (CW n) => [n] | _ => [] end) l | _ => [] end) l.
Definition imported : list string := flat_map (fun i => match i with IUse l => words l | _ => [] end) items.
Definition impl_names : list string :=
  flat_map (fun i => match i with IImpl tr (RPath [n] []) _ => if String.eqb tr "IntoVMBuffers" then [n] else [] | _ => [] end) items.
Definition file_fns : list (string * rfn) := flat_map (fun i => match i with IFn f => [(rf_name f, f)] | _ => [] end) items.
Definition unit_structs : list string := flat_map (fun i => match i with IStruct n None => [n] | _ => [] end) items.
(** The types that derive what the others need of them. *)
Fixpoint derived (l : list item) : list string :=
  match l with
  | [] => []
  | i :: l' =>
      match i, l' with
      | IAttr false a, (IStruct n _ | IEnum n _) :: _ => if forallb (among (words a)) ["derive"; "Debug"; "Clone"; "PartialEq"] then [n] else []
      | _, _ => []
      end ++ derived l'
  end.

Definition is_mut (t : rty) : bool := match t with RRef _ m _ => m | _ => false end.
Definition lib (n : string) : bool := among imported n.
Definition copy (t : rty) : bool :=
  match t with
  | RPath [n] [] => is_prim n || among ["()"; "!"; "TechPawsScopeId"; "RpcMethodAddress"; "GroupAddress"; "TechPawsRuntimeRpcMethodBuffer"; "Uuid"] n
  | RRef _ m _ => negb m
  | RUnsafeFn _ => true
  | _ => false
  end.
Fixpoint static_ty (t : rty) : bool :=
  match t with
  | RPath _ l => forallb static_ty l
  | RRef s _ _ => s
  | RUnsafeFn _ => true
  end.
(** Types with codecs. *)
Fixpoint codec (t : rty) : bool :=
  lib "IntoVMBuffers" &&
  match t with
  | RPath [n] [] => if declares items n then among impl_names n else is_prim n || among ("String" :: ext) n
  | RPath [n] [a] => String.eqb n "Vec" && codec a
  | _ => false
  end.
(** Types in signatures. *)
Fixpoint sig_ty (t : rty) : bool :=
  match t with
  | RPath [n] [] => is_prim n || (among lib_types n && lib n)
  | RPath _ _ => false
  | RRef _ _ t | RUnsafeFn t => sig_ty t
  end.
Definition resolve (slf : option string) (t : rty) : rty :=
  match slf, t with
  | Some s, RPath [n] [] => if String.eqb n "Self" then t0 s else t
  | Some s, RRef a b (RPath [n] []) => if String.eqb n "Self" then RRef a b (t0 s) else t
  | _, _ => t
  end.
Definition self_name (c : ctx) (n : string) : string := match c_self c with Some s => if String.eqb n "Self" then s else n | None => n end.

Definition is_never (t : rty) : bool := rty_eqb t never.
Definition is_unit (t : rty) : bool := rty_eqb t unit_ty.
Definition integer (t : rty) : bool := match t with RPath [n] [] => is_integer n | _ => false end.
Definition number_in (t : rty) (w : string) : bool :=
  match t, literal w with RPath [n] [], Some z => is_integer n && in_range n z | _, _ => false end.
(** [have] where [want] is expected. *)
Definition fits (e : ex) (have want : rty) : bool :=
  match e with
  | ENum w => number_in want w
  | _ => rty_eqb have want || is_never have || match have, want with RPath [o] [t], RPath [o'] [_] => String.eqb o "Option" && String.eqb o' "Option" && is_never t | _, _ => false end
  end.
Definition join (a b : rty) : option rty := if fits EUnit a b then Some b else if fits EUnit b a then Some a else None.
(** Used as a value: it is a temporary, or it is copied. *)
Definition owned (p : rty * kind) : bool := match snd p with Temp => true | Place _ _ _ => copy (fst p) end.
(** A variable can have this name. *)
Definition bindable (x : string) : bool := negb (among (unit_structs ++ lib_names) x).

Definition root_of (k : kind) : string := match k with Place _ _ r => r | Temp => "" end.
(** Following references. *)
Definition reach (p : rty * kind) : rty * kind := match p with (RRef s m t, k) => (t, Place m s (root_of k)) | _ => p end.
(** What a method of a place returns: a reference is still part of the place. *)
Definition part_of (k : kind) (t : rty) : kind := match t with RRef false _ _ => Place false false (root_of k) | _ => Temp end.
Definition field_ty (t : rty) (f : string) : option rty :=
  match t with
  | RPath [n] [] => if declares items n then match shape_of items n with Some (HFields l) => named f l | _ => None end else field_of n f
  | _ => None
  end.
Definition changeable (k : kind) : bool := match k with Temp => true | Place m _ _ => m end.
Definition method_ty (t : rty) (m : string) : option (bool * list par * res_ty) :=
  if String.eqb m "write_to_buffers" then if codec t then Some (false, [PVal (unique (t0 "BytesWriter"))], Is unit_ty) else None
  else if String.eqb m "clone" then match t with RPath [n] [] => if among (derived items) n then Some (false, [], Is t) else None | _ => None end
  else
    match t with
    | RPath [n] [a] => if String.eqb n "Option" && String.eqb m "is_some" then Some (false, [], Is (t0 "bool")) else None
    | RPath [n] [] => if declares items n then None else method_of n m
    | _ => None
    end.
Definition variant_of (n v : string) : option variant :=
  match shape_of items n with Some (HCases vs) => find_variant v vs | _ => None end.

(** [p(..)] for a path that is no variable. *)
Definition maker_of (c : ctx) (p : list pseg) : option (list par * rty) :=
  match p with
  | [SName f] =>
      match assoc f fns with
      | Some (ps, r, a) => Some (map PVal ps, if a then future_of r else r)
      | None =>
          if String.eqb f "TechPawsScopeId" && lib f then Some ([PVal uuid_ty], t0 f)
          else if String.eqb f "RpcMethodAddress" && lib f then Some ([PVal (t0 "u64")], t0 f)
          else None
      end
  | [SName a; SName f] =>
      let a := self_name c a in
      match variant_of a f with
      | Some (VTuple _ ts) => Some (map PVal ts, t0 a)
      | Some _ => None
      | None => if String.eqb f "read_from_buffers" && codec (t0 a) then Some ([PVal (unique (t0 "BytesReader"))], t0 a) else None
      end
  | [SName g; SArgs l; SName f] =>
      if String.eqb f "read_from_buffers" && codec (RPath [g] l) then Some ([PVal (unique (t0 "BytesReader"))], RPath [g] l) else None
  | _ => None
  end.
Definition path_ty (c : ctx) (p : list pseg) (en : tenv) : option (rty * kind) :=
  match p with
  | [SName n] =>
      match assoc n en with
      | Some (Some t) => Some (t, Place false false n)
      | Some None => None
      | None =>
          if among ["true"; "false"] n then Some (t0 "bool", Temp)
          else if String.eqb n "None" then Some (option_of never, Temp)
          else let n := self_name c n in if among unit_structs n then Some (t0 n, Temp) else None
      end
  | [SName a; SName b] =>
      let a := self_name c a in
      match variant_of a b with
      | Some (VUnit _) => Some (t0 a, Temp)
      | Some _ => None
      | None => if String.eqb a "TechPawsRuntimeRpcMethodBuffer" && lib a && among ["Server"; "Client"] b then Some (t0 a, Temp) else None
      end
  | _ => None
  end.
Definition struct_fields (c : ctx) (p : list pseg) : option (list (string * rty) * rty) :=
  match p with
  | [SName n] => let n := self_name c n in match shape_of items n with Some (HFields l) => Some (l, t0 n) | _ => None end
  | [SName a; SName b] => let a := self_name c a in match variant_of a b with Some (VStruct _ l) => Some (l, t0 a) | _ => None end
  | _ => None
  end.

(** The variables of a pattern, for a value of this type. *)
Definition pat_env (t : rty) (p : pat) : option tenv :=
  match t with
  | RRef _ _ (RPath [n] []) =>
      let var x t := (x, Some (shared t)) in
      match p with
      | PPath [SName a; SName b] => if String.eqb a n then match variant_of a b with Some (VUnit _) => Some [] | _ => None end else None
      | PTuple [SName a; SName b] xs _ =>
          if String.eqb a n && distinct xs && forallb bindable xs then
            match variant_of a b with Some (VTuple _ ts) => if Nat.eqb (List.length xs) (List.length ts) then Some (map (fun '(x, t) => var x t) (combine xs ts)) else None | _ => None end
          else None
      | PStruct [SName a; SName b] xs =>
          if String.eqb a n && distinct xs && forallb bindable xs then
            match variant_of a b with
            | Some (VStruct _ l) =>
                if Nat.eqb (List.length xs) (List.length l) && forallb (fun x => match named x l with Some _ => true | None => false end) xs
                then Some (map (fun x => (x, option_map shared (named x l))) xs) else None
            | _ => None
            end
          else None
      | PWild => Some []
      | _ => None
      end
  | _ => match p with PNum w => if number_in t w then Some [] else None | PWild => Some [] | _ => None end
  end.
Definition pat_case (p : pat) : list string := match p with PPath [_; SName b] | PTuple [_; SName b] _ _ | PStruct [_; SName b] _ => [b] | _ => [] end.
Definition exhaustive (t : rty) (ps : list pat) : bool :=
  match ps with [] => false | _ => true end &&
  (existsb (fun p => match p with PWild => true | _ => false end) ps ||
   match t with
   | RRef _ _ (RPath [n] []) => match shape_of items n with Some (HCases vs) => forallb (fun v => among (flat_map pat_case ps) (variant_name v)) vs | _ => false end
   | _ => false
   end).

Fixpoint moved_from (l seen : list string) (en : tenv) : tenv :=
  match en with
  | [] => []
  | (x, t) :: en' =>
      (x, match t with Some u => if among l x && negb (among seen x) && negb (copy u) then None else t | None => None end) :: moved_from l (x :: seen) en'
  end.
(** These variables have been moved. *)
Definition moved (l : list string) (en : tenv) : tenv := moved_from l [] en.
Definition held (en : tenv) : tenv := map (fun '(x, t) => (x, match t with Some u => if static_ty u then t else None | None => None end)) en.

Definition infers := ex -> ctx -> tenv -> option (rty * kind).
Definition runs := block -> ctx -> tenv -> option (rty * kind).
Definition inner (c : ctx) : ctx := mk_ctx (c_self c) None (c_unsafe c) false.
Definition in_async (c : ctx) : ctx := mk_ctx (c_self c) None false true.
Definition in_unsafe (c : ctx) : ctx := mk_ctx (c_self c) (c_ret c) true (c_async c).
(** An argument for a parameter: its type. *)
Definition arg_ty (inf : infers) (blk : runs) (c : ctx) (en : tenv) (e : ex) (p : par) : option rty :=
  match p with
  | PVal want =>
      match inf e c en with
      | Some (t, k) => if fits e t want && (owned (t, k) || is_mut t) then Some want else None
      | None => None
      end
  | PClosure a r =>
      match e with
      | EClosure x body =>
          match inf body (inner c) ((x, Some a) :: en) with
          | Some p => if bindable x && owned p && match r with Some u => fits body (fst p) u | None => true end then Some (fst p) else None
          | None => None
          end
      | _ => None
      end
  | PAsync =>
      match e with
      | EBlock BAsync b => match blk b (in_async c) (held en) with Some (t, _) => if is_unit t then Some t else None | None => None end
      | _ => None
      end
  | PHandler ps =>
      match e with
      | EPath [SName f] =>
          match assoc f en, assoc f file_fns with
          | None, Some g =>
              if rty_eqb (RPath [] (map snd (rf_params g))) (RPath [] ps) && match rf_ret g with Some t => rty_eqb t (t0 "bool") | None => false end
              then Some unit_ty else None
          | _, _ => None
          end
      | _ => None
      end
  end.
Fixpoint args_ty (fs : list (par -> option rty)) (ps : list par) : option (list rty) :=
  match fs, ps with
  | [], [] => Some []
  | f :: fs', p :: ps' => match f p, args_ty fs' ps' with Some t, Some l => Some (t :: l) | _, _ => None end
  | _, _ => None
  end.
(** A [&mut] variable that is an argument is lent to the call; no other argument mentions it. *)
Definition alone (en : tenv) (args : list ex) : bool :=
  forallb (fun e => match e with
                    | EPath [SName x] =>
                        match assoc x en with
                        | Some (Some t) => negb (is_mut t) || Nat.eqb (List.length (filter (String.eqb x) (flat_map names_ex args))) 1
                        | _ => true
                        end
                    | _ => true
                    end) args.
Definition result_ty (r : res_ty) (l : list rty) : rty := match r with Is t => t | OfClosure => last l unit_ty end.
(** The number of [{}] in a text without other braces. *)
Fixpoint holes (s : string) : option nat :=
  match s with
  | "" => Some 0
  | String c s' =>
      if Ascii.eqb c "{" then match s' with String "}" s'' => option_map S (holes s'') | _ => None end
      else if Ascii.eqb c "}" then None else holes s'
  end.
Fixpoint join_all (l : list (option rty)) : option rty :=
  match l with
  | [] => Some never
  | Some t :: l' => match join_all l' with Some u => join t u | None => None end
  | None :: _ => None
  end.
(** A block: statement after statement. *)
Definition chain (step : st -> tenv -> option tenv) (tail : tenv -> option (rty * kind)) : list st -> tenv -> option (rty * kind) :=
  fix go l en := match l with [] => tail en | s :: l' => match step s en with Some en' => go l' en' | None => None end end.

Fixpoint inf (e : ex) (c : ctx) (en : tenv) {struct e} : option (rty * kind) :=
  match e with
  | ENum w => match literal w with Some _ => Some (t0 "i32", Temp) | None => None end
  | EFloat _ _ | ENeg _ | EClosure _ _ => None
  | EStr _ => Some (RRef true false (t0 "str"), Temp)
  | EUnit => Some (unit_ty, Temp)
  | EPath p => path_ty c p en
  | EStruct p fs =>
      match struct_fields c p with
      | Some (l, t) =>
          if Nat.eqb (List.length fs) (List.length l) && distinct (map fst fs) &&
             forallb (fun '(x, e) => match named x l with Some u => match inf e c en with Some p => fits e (fst p) u && owned p | None => false end | None => false end) fs
          then Some (t, Temp) else None
      | None => None
      end
  | EMacro m l _ =>
      match l with
      | EStr s :: l' =>
          if String.eqb m "panic" then
            if match holes s with Some n => Nat.eqb n (List.length l') | None => false end && forallb (fun e => match inf e c en with Some (t, _) => integer t | None => false end) l' then Some (never, Temp) else None
          else if String.eqb m "uuid" && lib m && uuid_text s then match l' with [] => Some (uuid_ty, Temp) | _ => None end
          else None
      | _ => None
      end
  | EBlock BPlain b => blk b c en
  | EBlock BUnsafe b => blk b (in_unsafe c) en
  | EBlock BAsync _ => None
  | EIf i b els =>
      match inf i c en, blk b c en with
      | Some (t, _), Some p =>
          if rty_eqb t (t0 "bool") && owned p then
            match els with
            | None => if is_unit (fst p) then Some (unit_ty, Temp) else None
            | Some b' => match blk b' c en with Some p' => if owned p' then option_map (fun t => (t, Temp)) (join (fst p) (fst p')) else None | None => None end
            end
          else None
      | _, _ => None
      end
  | EIfLet (PTuple [SName s] [x] _) (ERef false (EPath [SName y])) b =>
      match assoc y en with
      | Some (Some (RPath [o] [t])) =>
          if String.eqb s "Some" && String.eqb o "Option" && bindable x && (String.eqb x y || negb (among (names_block b) y)) then
            match blk b c ((x, Some (shared t)) :: en) with Some p => if is_unit (fst p) then Some (unit_ty, Temp) else None | None => None end
          else None
      | _ => None
      end
  | EIfLet _ _ _ => None
  | EMatch e arms =>
      match inf e c en with
      | Some (t, _) =>
          if exhaustive t (map fst arms) then
            option_map (fun t => (t, Temp))
              (join_all (map (fun '(p, e) => match pat_env t p with
                                             | Some en' => match inf e c (en' ++ en) with Some q => if owned q then Some (fst q) else None | None => None end
                                             | None => None
                                             end) arms))
          else None
      | None => None
      end
  | EPost h ps =>
      let go := fix go ps p := match ps with [] => Some p | x :: ps' => match tpost x p c en with Some p' => go ps' p' | None => None end end in
      match h, ps with
      | EPath p, (XCall _ _ as x) :: ps' => match tcall x p c en with Some q => go ps' q | None => None end
      | _, _ => match inf h c en with Some q => go ps q | None => None end
      end
  | EDeref e => match inf e c en with Some (RRef _ _ _, _) as q => option_map reach q | _ => None end
  | ERef m e =>
      match inf e c en with
      | Some (t, Place mut true _) => if negb m || mut then Some (RRef true m t, Temp) else None
      | _ => None
      end
  | ENot e => match inf e c en with Some (t, _) => if rty_eqb t (t0 "bool") then Some (t, Temp) else None | None => None end
  | EReturn e =>
      match c_ret c, inf e c en with
      | Some r, Some p => if fits e (fst p) r && owned p then Some (never, Temp) else None
      | _, _ => None
      end
  | EEq a b =>
      match inf a c en, inf b c en with
      | Some (t, _), Some (t', _) => if integer t && fits b t' t then Some (t0 "bool", Temp) else None
      | _, _ => None
      end
  end
(** [p(..)]. *)
with tcall (x : post) (p : list pseg) (c : ctx) (en : tenv) {struct x} : option (rty * kind) :=
  match x with
  | XCall args _ =>
      let types ps := if alone en args then args_ty (map (fun e => arg_ty inf blk c en e) args) ps else None in
      match p with
      | [SName f] =>
          match assoc f en with
          | Some (Some (RUnsafeFn t)) => if c_unsafe c then match args with [] => Some (t, Temp) | _ => None end else None
          | Some _ => None
          | None =>
              if String.eqb f "Some" then
                match map (fun e => inf e c en) args with [Some q] => if owned q then Some (option_of (fst q), Temp) else None | _ => None end
              else
                match maker_of c p with
                | Some (ps, r) => match types ps with Some _ => Some (r, Temp) | None => None end
                | None => None
                end
          end
      | _ =>
          match maker_of c p with
          | Some (ps, r) => match types ps with Some _ => Some (r, Temp) | None => None end
          | None => None
          end
      end
  | _ => None
  end
(** [q.f] and [q.m(..)]. *)
with tpost (x : post) (q : rty * kind) (c : ctx) (en : tenv) {struct x} : option (rty * kind) :=
  match x with
  | XCall _ _ => None
  | XField f =>
      match q with
      | (RPath [n] [t], Temp) => if String.eqb n "Future" && String.eqb f "await" && c_async c then Some (t, Temp) else None
      | _ => let '(t, k) := reach q in option_map (fun u => (u, k)) (field_ty t f)
      end
  | XMeth m args _ =>
      let '(t, k) := reach q in
      match method_ty t m with
      | Some (change, ps, r) =>
          if (negb change || changeable k) && alone en args && negb (among (flat_map names_ex args) (root_of k)) then
            match args_ty (map (fun e => arg_ty inf blk c en e) args) ps with Some l => Some (result_ty r l, part_of k (result_ty r l)) | None => None end
          else None
      | None => None
      end
  end
(** The variables after a statement. *)
with tst (s : st) (c : ctx) (en : tenv) {struct s} : option tenv :=
  match s with
  | SLet x e => match inf e c en with Some p => if owned p && bindable x then Some ((x, Some (fst p)) :: moved (caps_ex e) en) else None | None => None end
  | SSemi e => match inf e c en with Some p => if owned p then Some (moved (caps_ex e) en) else None | None => None end
  | SBare e => match inf e c en with Some p => if is_unit (fst p) || is_never (fst p) then Some (moved (caps_ex e) en) else None | None => None end
  | SFor a b body =>
      match inf a c en, inf b c en, blk body c en, caps_block body with
      | Some (t, _), Some (u, k), Some p, [] => if integer u && owned (u, k) && fits a t u && is_unit (fst p) then Some en else None
      | _, _, _, _ => None
      end
  end
with blk (b : block) (c : ctx) (en : tenv) {struct b} : option (rty * kind) :=
  match b with
  | Blk l t =>
      chain (fun s en => tst s c en)
        (fun en => match t with
                   | Some e => match inf e c en with Some p => if owned p then Some (fst p, Temp) else None | None => None end
                   | None => Some (unit_ty, Temp)
                   end) l en
  end.

(** ** Functions and items *)

Definition param_env (slf : option string) (ps : list (string * rty)) : tenv :=
  flat_map (fun '(x, t) => if String.eqb x "_" then [] else [(x, Some (resolve slf t))]) ps.
Definition result_of (slf : option string) (f : rfn) : rty := match rf_ret f with Some t => resolve slf t | None => unit_ty end.
Definition body_ok (slf : option string) (f : rfn) : bool :=
  let r := result_of slf f in
  match blk (rf_body f) (mk_ctx slf (Some r) false false) (param_env slf (rf_params f)) with
  | Some (t, _) => fits EUnit t r
  | None => false
  end.
Definition params_fine (ps : list (string * rty)) : bool :=
  distinct (without ["_"] (map fst ps)) && forallb (fun '(x, t) => (String.eqb x "_" || bindable x) && sig_ty t) ps.
(** A function of [impl IntoVMBuffers for n]. *)
Definition trait_fn_ok (n : string) (f : rfn) : bool :=
  match assoc (rf_name f) trait_fns with
  | Some (ts, r) =>
      rty_eqb (RPath [] (map snd (rf_params f))) (RPath [] ts) && rty_eqb (match rf_ret f with Some t => t | None => unit_ty end) r &&
      params_fine (filter (fun p => negb (String.eqb (fst p) "self")) (rf_params f)) && body_ok (Some n) f
  | None => false
  end.
Definition item_ok (i : item) : bool :=
  match i with
  | IStruct _ (Some l) => forallb (fun p => negb (among rust_words (fst p))) l
  | IEnum _ vs => forallb (fun v => negb (among rust_words (variant_name v)) && match v with VStruct _ l => forallb (fun p => negb (among rust_words (fst p))) l | _ => true end) vs
  | IImpl tr t l =>
      if String.eqb tr "Default" then true
      else
        String.eqb tr "IntoVMBuffers" && lib tr &&
        match t with
        | RPath [n] [] => declares items n && Nat.eqb (List.length l) (List.length trait_fns) && distinct (map rf_name l) && forallb (trait_fn_ok n) l
        | _ => false
        end
  | IFn f => params_fine (rf_params f) && match rf_ret f with Some (RRef _ _ _) => false | Some t => sig_ty t | None => true end && body_ok None f
  | _ => true
  end.
(** The file compiles. *)
Definition compiles : bool :=
  types_compile items && consts_compile items &&
  forallb (fun n => negb (among lib_names n)) (type_names items ++ mod_names items ++ map fst file_fns ++ ext) &&
  forallb (fun n => negb (among (type_names items ++ mod_names items) n)) ext &&
  distinct (map fst file_fns ++ unit_structs ++ map fst fns) && distinct impl_names && forallb (among (derived items)) (type_names items) &&
  forallb item_ok items.
End File.
