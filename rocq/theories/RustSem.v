(** The meaning of the Rust files that the generator writes: an interpreter for the trees that
    [rust_file] (RustSyntax.v) reads.  Written from the Rust reference; nothing here refers to the
    generator.

    What is modelled: evaluation order, early return, panics, shadowing, structs, enum values, pattern
    matching with default binding modes (a pattern on a reference binds references), automatic
    dereferencing of receivers and of field accesses (but not of arguments), dispatch to the [impl]s
    of the file.  Ill-typed code is [Stuck].  Not modelled: the borrow checker and type inference
    beyond "an integer literal takes the type its use asks for".

    The crates tech_paws_buffers and tech_paws_runtime are not part of /repo.  What the generated
    code uses of them is the record [runtime] and the functions [buffer_method], [spawn] and
    [method] below; they belong to the trusted base. *)
Require Import Coq.Strings.String Coq.Strings.Ascii.
Require Import Coq.NArith.NArith Coq.ZArith.ZArith Coq.Lists.List Coq.Bool.Bool.
Require Import Verif.Code Verif.RustSyntax.
Import ListNotations.
Local Open Scope string_scope.
Local Open Scope list_scope.

Definition bytes := list ascii.
(** The result of what is done only for its effect. *)
Inductive done : Set := ok.

(** ** Values *)

Inductive val : Type :=
| vnum (ty : string) (z : Z)        (* a number of type [ty]; f32 and f64 by bit pattern, char by code, bool by 0 and 1 *)
| vint (z : Z)                      (* an integer literal *)
| vunit
| vrec (n : string) (fs : list (string * val))             (* struct *)
| vcase (e c : string)                                     (* enum values *)
| vcaset (e c : string) (l : list val)
| vcases (e c : string) (fs : list (string * val))
| vbox (g : string) (shape : N) (l : list val)             (* value of a library type G<..>: its own data, the contained values *)
| vext (n : string) (x : N)                                (* value of a type declared elsewhere *)
| vopt (o : option val)
| vref (v : val)
| vfut (v : val)                                           (* the future that completes with [v] *)
| vstr (s : string)
| vreader | vwriter | vmemory | vruntime | vcontext | vspawner | vaddresses
| vasmut                                                   (* the function runtime_as_mut *)
| vscope (s : string) | vscoped (s : string) | vmethod (a : Z) | vgroup (s : string)
| vfn (f : string).

Definition env := list (string * val).
Fixpoint lookup (x : string) (l : list (string * val)) : option val :=
  match l with
  | [] => None
  | (y, v) :: l' => if String.eqb x y then Some v else lookup x l'
  end.

(** ** The libraries *)

Definition prims : list string := ["i8"; "i32"; "i64"; "u8"; "u32"; "u64"; "f32"; "f64"; "char"; "bool"].
Definition is_prim (t : string) : bool := existsb (String.eqb t) prims.

(** The numbers of a primitive type. *)
Definition in_range (t : string) (z : Z) : bool :=
  (if String.eqb t "i8" then (- 2 ^ 7 <=? z) && (z <? 2 ^ 7)
   else if String.eqb t "i32" then (- 2 ^ 31 <=? z) && (z <? 2 ^ 31)
   else if String.eqb t "i64" then (- 2 ^ 63 <=? z) && (z <? 2 ^ 63)
   else if String.eqb t "u8" then (0 <=? z) && (z <? 2 ^ 8)
   else if String.eqb t "u32" || String.eqb t "f32" then (0 <=? z) && (z <? 2 ^ 32)
   else if String.eqb t "u64" || String.eqb t "f64" then (0 <=? z) && (z <? 2 ^ 64)
   else if String.eqb t "char" then ((0 <=? z) && (z <? 55296)) || ((57344 <=? z) && (z <? 1114112))
   else if String.eqb t "bool" then (0 <=? z) && (z <? 2)
   else false)%Z.
Definition is_integer (t : string) : bool :=
  existsb (String.eqb t) ["i8"; "i32"; "i64"; "u8"; "u32"; "u64"].

(** The codecs of tech_paws_buffers.  [rt_put t z] are the bytes [BytesWriter::write_t] appends,
    [rt_get] is [BytesReader::read_t] ([None]: it panics).  [rt_ext_put], [rt_ext_get]: the
    [IntoVMBuffers] of a type that the file does not define.  A generic library type is written as
    its own data (a length, say) followed by the contained values; [rt_slots] tells from that data
    which type argument each contained value has. *)
Record runtime := mk_runtime
  { rt_put : string -> Z -> bytes;
    rt_get : string -> bytes -> option (Z * bytes);
    rt_ext_ok : string -> N -> bool;
    rt_ext_put : string -> N -> bytes;
    rt_ext_get : string -> bytes -> option (N * bytes);
    rt_head_ok : string -> N -> bool;
    rt_head_put : string -> N -> bytes;
    rt_head_get : string -> bytes -> option (N * bytes);
    rt_slots : string -> N -> list nat }.

(** ** States and outcomes *)

(** A call of a function of the service: its name, its arguments, the buffers at that moment. *)
Record called := mk_called { cl_fn : string; cl_args : list val; cl_mem : string -> Z -> string -> bytes }.
Record state := mk_state
  { s_rd : bytes;                                      (* what the current reader has left *)
    s_wr : bytes;                                      (* what the current writer has written *)
    s_mem : string -> Z -> string -> bytes;            (* buffers: scope, method, side *)
    s_log : list called;                               (* calls of the functions the service implements *)
    s_tasks : list (env * block);                      (* spawned and not yet completed *)
    s_scopes : list string;                            (* add_scope *)
    s_regs : list (string * string * string * Z * string) (* register_*_rpc_method: method, group, scope, address, handler *) }.

Inductive out (A : Type) : Type :=
| Done (a : A) (s : state)
| Returned (v : val) (s : state)
| Panics
| Stuck
| NoFuel.
Arguments Done {A}. Arguments Returned {A}. Arguments Panics {A}. Arguments Stuck {A}. Arguments NoFuel {A}.

Definition M (A : Type) : Type := state -> out A.
Definition ret {A} (a : A) : M A := fun s => Done a s.
Definition stuck {A} : M A := fun _ => Stuck.
Definition panics {A} : M A := fun _ => Panics.
Definition bind {A B} (m : M A) (k : A -> M B) : M B := fun s =>
  match m s with
  | Done a s' => k a s'
  | Returned v s' => Returned v s'
  | Panics => Panics
  | Stuck => Stuck
  | NoFuel => NoFuel
  end.
Notation "'do' x <- a ; b" := (bind a (fun x => b)) (at level 200, x pattern, a at level 100, b at level 200).

(** A function body or closure: [return] gives its value. *)
Definition body (m : M val) : M val := fun s =>
  match m s with Returned v s' => Done v s' | r => r end.

Definition mapMM {A B} (f : A -> M B) : list A -> M (list B) :=
  fix go l :=
    match l with
    | [] => ret []
    | a :: l' => do b <- f a; do bs <- go l'; ret (b :: bs)
    end.
Definition chain {A B} (f : A -> B -> M B) : list A -> B -> M B :=
  fix go l b :=
    match l with
    | [] => ret b
    | a :: l' => do b' <- f a b; go l' b'
    end.
(** [0..n] times. *)
Fixpoint times (n : nat) (m : M done) : M done :=
  match n with
  | 0 => ret ok
  | S n' => do _ <- m; times n' m
  end.

Definition set_rd (b : bytes) (s : state) : state :=
  mk_state b (s_wr s) (s_mem s) (s_log s) (s_tasks s) (s_scopes s) (s_regs s).
Definition set_wr (b : bytes) (s : state) : state :=
  mk_state (s_rd s) b (s_mem s) (s_log s) (s_tasks s) (s_scopes s) (s_regs s).
Definition set_mem (m : string -> Z -> string -> bytes) (s : state) : state :=
  mk_state (s_rd s) (s_wr s) m (s_log s) (s_tasks s) (s_scopes s) (s_regs s).
Definition set_log (l : list called) (s : state) : state :=
  mk_state (s_rd s) (s_wr s) (s_mem s) l (s_tasks s) (s_scopes s) (s_regs s).
Definition set_tasks (l : list (env * block)) (s : state) : state :=
  mk_state (s_rd s) (s_wr s) (s_mem s) (s_log s) l (s_scopes s) (s_regs s).
Definition set_scopes (l : list string) (s : state) : state :=
  mk_state (s_rd s) (s_wr s) (s_mem s) (s_log s) (s_tasks s) l (s_regs s).
Definition set_regs (l : list (string * string * string * Z * string)) (s : state) : state :=
  mk_state (s_rd s) (s_wr s) (s_mem s) (s_log s) (s_tasks s) (s_scopes s) l.

Definition upd_mem (m : string -> Z -> string -> bytes) (sc : string) (a : Z) (side : string) (b : bytes) :=
  fun sc' a' side' =>
    if String.eqb sc' sc && Z.eqb a' a && String.eqb side' side then b else m sc' a' side'.

(** ** Numbers *)

Definition hex_digit (c : ascii) : option Z :=
  let n := Z.of_N (N_of_ascii c) in
  (if (48 <=? n) && (n <=? 57) then Some (n - 48)
   else if (65 <=? n) && (n <=? 70) then Some (n - 55)
   else if (97 <=? n) && (n <=? 102) then Some (n - 87)
   else None)%Z.
Fixpoint digits (base acc : Z) (s : string) : option Z :=
  match s with
  | "" => Some acc
  | String c s' =>
      match hex_digit c with
      | Some d => if (d <? base)%Z then digits base (base * acc + d) s' else None
      | None => None
      end
  end.
(** An integer literal: decimal, or hexadecimal after [0x]. *)
Definition literal (w : string) : option Z :=
  match w with
  | "" => None
  | String "0" (String "x" (String c s)) => digits 16 0 (String c s)
  | _ => digits 10 0 w
  end.

(** ** The interpreter *)

Fixpoint deref (v : val) : val := match v with vref v' => deref v' | _ => v end.
Definition of_opt {A} (o : option A) : M A := match o with Some a => ret a | None => stuck end.
Definition bool_val (b : bool) : val := vnum "bool" (if b then 1 else 0).

(** The functions that the implementation of the service provides: the value of the n-th call ([None]:
    it panics), and which of them are async. *)
Record service := mk_service
  { sv_call : nat -> string -> list val -> option val;
    sv_async : string -> bool }.

Section Interpreter.
Variable R : runtime.
Variable V : service.
Variable items : list item.

(** The methods of [impl IntoVMBuffers for n]. *)
Definition impl_of (n : string) (i : item) : option (list rfn) :=
  match i with
  | IImpl tr (RPath [m] []) fns =>
      if String.eqb tr "IntoVMBuffers" && String.eqb m n then Some fns else None
  | _ => None
  end.
Fixpoint find_impl (n : string) (l : list item) : option (list rfn) :=
  match l with
  | [] => None
  | i :: l' => match impl_of n i with Some fns => Some fns | None => find_impl n l' end
  end.
Definition find_method (n m : string) : option rfn :=
  match find_impl n items with
  | Some fns => find (fun f => String.eqb (rf_name f) m) fns
  | None => None
  end.
Definition has_impl (n : string) : bool := match find_impl n items with Some _ => true | None => false end.
Definition has_fn (f : string) : bool :=
  existsb (fun i => match i with IFn g => String.eqb (rf_name g) f | _ => false end) items.

Definition method_prim (pre m : string) : option string :=
  find (fun t => String.eqb m (pre ++ t)) prims.

(** [bytes_reader.read_t()]. *)
Definition read_prim (t : string) : M val := fun s =>
  match rt_get R t (s_rd s) with
  | Some (z, rest) => Done (vnum t z) (set_rd rest s)
  | None => Panics
  end.
Definition emit (b : bytes) : M done := fun s => Done ok (set_wr (s_wr s ++ b) s).
(** [bytes_writer.write_t(a)]: the argument has type [t]; a reference is not a number. *)
Definition write_prim (t : string) (a : val) : M done :=
  match a with
  | vnum t' z => if String.eqb t t' then emit (rt_put R t z) else stuck
  | vint z => if is_integer t && in_range t z then emit (rt_put R t z) else stuck
  | _ => stuck
  end.

(** Patterns.  [m] wraps what is bound: references under a reference. *)
Fixpoint bind_names (m : val -> val) (names : list string) (vs : list val) : option env :=
  match names, vs with
  | [], [] => Some []
  | x :: names', v :: vs' =>
      match bind_names m names' vs' with Some e => Some ((x, m v) :: e) | None => None end
  | _, _ => None
  end.
Fixpoint bind_fields (m : val -> val) (names : list string) (fs : list (string * val)) : option env :=
  match names with
  | [] => Some []
  | x :: names' =>
      match lookup x fs, bind_fields m names' fs with
      | Some v, Some e => Some ((x, m v) :: e)
      | _, _ => None
      end
  end.
(** [Some None]: the pattern does not match; [None]: it does not fit the type. *)
Definition match_pat (p : pat) (v : val) : option (option env) :=
  let m := match v with vref _ => vref | _ => fun x => x end in
  match p, deref v with
  | PWild, _ => Some (Some [])
  | PNum w, vnum t z =>
      match literal w with
      | Some k => if is_integer t && in_range t k then Some (if Z.eqb k z then Some [] else None) else None
      | None => None
      end
  | PPath [SName e; SName c], vcase e' c' =>
      if String.eqb e e' then Some (if String.eqb c c' then Some [] else None) else None
  | PTuple [SName e; SName c] names _, vcaset e' c' l =>
      if String.eqb e e' then
        if String.eqb c c' then
          match bind_names m names l with Some en => Some (Some en) | None => None end
        else Some None
      else None
  | PStruct [SName e; SName c] names, vcases e' c' fs =>
      if String.eqb e e' then
        if String.eqb c c' then
          if Nat.eqb (List.length names) (List.length fs) then
            match bind_fields m names fs with Some en => Some (Some en) | None => None end
          else None
        else Some None
      else None
  | PPath [SName e; SName _], vcaset e' _ _
  | PPath [SName e; SName _], vcases e' _ _
  | PTuple [SName e; SName _] _ _, vcase e' _
  | PTuple [SName e; SName _] _ _, vcases e' _ _
  | PStruct [SName e; SName _] _, vcase e' _
  | PStruct [SName e; SName _] _, vcaset e' _ _ =>
      if String.eqb e e' then Some None else None
  | PTuple [SName s] [x] _, vopt o =>
      if String.eqb s "Some" then Some (match o with Some v' => Some [(x, m v')] | None => None end) else None
  | _, _ => None
  end.

(** What a call may run: reading and writing a value of a type with [IntoVMBuffers]. *)
Record calls := mk_calls { c_read : rty -> M val; c_write : val -> M done }.

Definition resolve (slf n : string) : string := if String.eqb n "Self" then slf else n.

(** A path of one name. *)
Definition name_value (slf : string) (en : env) (n : string) : M val :=
  match lookup n en with
  | Some v => ret v
  | None =>
      if String.eqb n "true" then ret (bool_val true)
      else if String.eqb n "false" then ret (bool_val false)
      else if String.eqb n "Self" then ret (vrec slf [])
      else if has_impl n then ret (vrec n [])
      else if has_fn n then ret (vfn n)
      else if String.eqb n "None" then ret (vopt None)
      else stuck
  end.

Definition field (f : string) (v : val) : M val :=
  match v with
  | vfut v' => if String.eqb f "await" then ret v' else stuck
  | _ =>
      match deref v with
      | vrec _ fs => of_opt (lookup f fs)
      | vruntime => if String.eqb f "memory" then ret vmemory else stuck
      | vcontext => if String.eqb f "async_spawner" then ret vspawner else stuck
      | vaddresses => ret (vgroup f)
      | _ => stuck
      end
  end.

Definition service_call (f : string) (vs : list val) : M val := fun s =>
  match sv_call V (List.length (s_log s)) f vs with
  | Some v => Done (if sv_async V f then vfut v else v) (set_log (s_log s ++ [mk_called f vs (s_mem s)]) s)
  | None => Panics
  end.

(** A call of a value. *)
Definition call_value (v : val) (vs : list val) : M val :=
  match v, vs with
  | vasmut, [] => ret (vref vruntime)
  | _, _ => stuck
  end.

(** A call of a path. *)
Definition call_path (K : calls) (slf : string) (en : env) (p : list pseg) (vs : list val) : M val :=
  match p with
  | [SName f] =>
      match lookup f en with
      | Some v => call_value v vs
      | None =>
          if String.eqb f "Some" then match vs with [v] => ret (vopt (Some v)) | _ => stuck end
          else if String.eqb f "TechPawsScopeId" then match vs with [vstr u] => ret (vscope u) | _ => stuck end
          else if String.eqb f "RpcMethodAddress" then match vs with [vint z] => ret (vmethod z) | _ => stuck end
          else service_call f vs
      end
  | [SName t; SName f] =>
      if String.eqb f "read_from_buffers" then
        match vs with
        | [v] => match deref v with vreader => c_read K (RPath [resolve slf t] []) | _ => stuck end
        | _ => stuck
        end
      else ret (vcaset (resolve slf t) f vs)
  | [SName t; SArgs l; SName f] =>
      if String.eqb f "read_from_buffers" then
        match vs with
        | [v] => match deref v with vreader => c_read K (RPath [resolve slf t] l) | _ => stuck end
        | _ => stuck
        end
      else stuck
  | _ => stuck
  end.

Definition register (m : string) (vs : list val) : M val :=
  match vs with
  | [vgroup g; vscope sc; vmethod a; vfn h] =>
      if String.eqb m "register_sync_rpc_method" || String.eqb m "register_async_rpc_method" then
        fun s => Done vunit (set_regs (s_regs s ++ [(m, g, sc, a, h)]) s)
      else stuck
  | _ => stuck
  end.

(** A method call; the receiver is dereferenced as often as needed. *)
Definition method (K : calls) (m : string) (v : val) (vs : list val) : M val :=
  match deref v with
  | vreader =>
      match method_prim "read_" m, vs with
      | Some t, [] => read_prim t
      | _, _ => stuck
      end
  | vwriter =>
      match method_prim "write_" m, vs with
      | Some t, [a] => do _ <- write_prim t a; ret vunit
      | _, _ => stuck
      end
  | vopt o =>
      if String.eqb m "is_some" then
        match vs with [] => ret (bool_val (match o with Some _ => true | None => false end)) | _ => stuck end
      else stuck
  | vmemory =>
      match vs with
      | [vscope sc] =>
          if String.eqb m "get_scope_mut" then ret (vscoped sc)
          else if String.eqb m "add_scope" then fun s => Done vunit (set_scopes (s_scopes s ++ [sc]) s)
          else stuck
      | _ => stuck
      end
  | vruntime => register m vs
  | v' =>
      if String.eqb m "write_to_buffers" then
        match vs with
        | [w] => match deref w with vwriter => do _ <- c_write K v'; ret vunit | _ => stuck end
        | _ => stuck
        end
      else if String.eqb m "clone" then match vs with [] => ret v' | _ => stuck end
      else stuck
  end.

(** [scope.rpc_buffer_read(address, side, closure)]: the closure gets a reader at the start of the
    buffer.  [rpc_buffer_write]: the closure gets a writer at the start of the buffer; bytes behind
    what it writes keep their value. *)
Definition buffer_method (m : string) (v a sd : val) (closure : val -> M val) : M val :=
  match deref v, a, sd with
  | vscoped sc, vmethod z, vcase e side =>
      if String.eqb e "TechPawsRuntimeRpcMethodBuffer" then
        if String.eqb m "rpc_buffer_read" then fun s =>
          match body (closure (vref vreader)) (set_rd (s_mem s sc z side) s) with
          | Done r s' => Done r (set_rd (s_rd s) s')
          | Returned _ _ => Stuck
          | Panics => Panics
          | Stuck => Stuck
          | NoFuel => NoFuel
          end
        else if String.eqb m "rpc_buffer_write" then fun s =>
          match body (closure (vref vwriter)) (set_wr [] s) with
          | Done r s' =>
              let old := s_mem s' sc z side in
              Done r (set_wr (s_wr s)
                (set_mem (upd_mem (s_mem s') sc z side (s_wr s' ++ skipn (List.length (s_wr s')) old)) s'))
          | Returned _ _ => Stuck
          | Panics => Panics
          | Stuck => Stuck
          | NoFuel => NoFuel
          end
        else stuck
      else stuck
  | _, _, _ => stuck
  end.

(** [spawner.spawn(async move { .. })]. *)
Definition spawn (m : string) (v : val) (en : env) (b : block) : M val :=
  match deref v with
  | vspawner =>
      if String.eqb m "spawn" then fun s => Done vunit (set_tasks (s_tasks s ++ [(en, b)]) s) else stuck
  | _ => stuck
  end.

Definition num_eq (a b : val) : M val :=
  match a, b with
  | vnum t x, vint y | vint y, vnum t x =>
      if is_integer t && in_range t y then ret (bool_val (Z.eqb x y)) else stuck
  | vnum t x, vnum u y => if String.eqb t u && is_integer t then ret (bool_val (Z.eqb x y)) else stuck
  | _, _ => stuck
  end.

Definition choose {B} (v : val) (k : pat -> B -> env -> M val) : list (pat * B) -> M val :=
  fix go arms :=
    match arms with
    | [] => stuck
    | (p, e) :: arms' =>
        match match_pat p v with
        | Some (Some en) => k p e en
        | Some None => go arms'
        | None => stuck
        end
    end.

Section Code.
Variable K : calls.
Variable slf : string.

Fixpoint ev (e : ex) (en : env) {struct e} : M val :=
  match e with
  | ENum w => do z <- of_opt (literal w); ret (vint z)
  | EStr s => ret (vstr s)
  | EPath [SName n] => name_value slf en n
  | EPath [SName e; SName c] => ret (vcase (resolve slf e) c)
  | EPath _ => stuck
  | EStruct [SName n] fs =>
      do vs <- mapMM (fun '(x, e) => do v <- ev e en; ret (x, v)) fs; ret (vrec (resolve slf n) vs)
  | EStruct [SName n; SName c] fs =>
      do vs <- mapMM (fun '(x, e) => do v <- ev e en; ret (x, v)) fs; ret (vcases (resolve slf n) c vs)
  | EStruct _ _ => stuck
  | EMacro m args _ =>
      if String.eqb m "panic" then do _ <- mapMM (fun e => ev e en) args; panics
      else if String.eqb m "uuid" then match args with [EStr u] => ret (vstr u) | _ => stuck end
      else stuck
  | EUnit => ret vunit
  | EBlock BAsync _ => stuck
  | EBlock _ b => ev_block b en
  | EIf c b els =>
      do v <- ev c en;
      match v with
      | vnum "bool" 1 => ev_block b en
      | vnum "bool" 0 => match els with Some b' => ev_block b' en | None => ret vunit end
      | _ => stuck
      end
  | EIfLet p e b =>
      do v <- ev e en;
      match match_pat p v with
      | Some (Some en') => ev_block b (en' ++ en)
      | Some None => ret vunit
      | None => stuck
      end
  | EMatch e arms => do v <- ev e en; choose v (fun _ e' en' => ev e' (en' ++ en)) arms
  | EPost (EPath p) (XCall args _ :: ps) =>
      do vs <- mapMM (fun e => ev e en) args;
      do v <- call_path K slf en p vs;
      chain (fun p v => ev_post p v en) ps v
  | EPost h ps => do v <- ev h en; chain (fun p v => ev_post p v en) ps v
  | EDeref e => do v <- ev e en; match v with vref v' => ret v' | _ => stuck end
  | ERef _ e => do v <- ev e en; ret (vref v)
  | ENot e =>
      do v <- ev e en;
      match v with
      | vnum "bool" 1 => ret (bool_val false)
      | vnum "bool" 0 => ret (bool_val true)
      | _ => stuck
      end
  | EReturn e => do v <- ev e en; fun s => Returned v s
  | EEq a b => do x <- ev a en; do y <- ev b en; num_eq x y
  | EFloat _ _ | ENeg _ | EClosure _ _ => stuck
  end
with ev_post (p : post) (v : val) (en : env) {struct p} : M val :=
  match p with
  | XField f => field f v
  | XCall args _ => do vs <- mapMM (fun e => ev e en) args; call_value v vs
  | XMeth m args _ =>
      match args with
      | [a; sd; EClosure x e] =>
          do av <- ev a en; do sv <- ev sd en;
          buffer_method m v av sv (fun h => ev e ((x, h) :: en))
      | [EBlock BAsync b] => spawn m v en b
      | _ => do vs <- mapMM (fun e => ev e en) args; method K m v vs
      end
  end
with ev_st (s : st) (en : env) {struct s} : M env :=
  match s with
  | SLet x e => do v <- ev e en; ret ((x, v) :: en)
  | SSemi e => do _ <- ev e en; ret en
  | SBare e => do _ <- ev e en; ret en
  | SFor a b l =>
      do x <- ev a en; do y <- ev b en;
      match x, y with
      | vint x, vnum t y =>
          if is_integer t then
            do _ <- times (Z.to_nat (y - x)) (do _ <- ev_block l en; ret ok); ret en
          else stuck
      | _, _ => stuck
      end
  end
with ev_block (b : block) (en : env) {struct b} : M val :=
  match b with
  | Blk l tail =>
      do en' <- chain (fun s e => ev_st s e) l en;
      match tail with Some e => ev e en' | None => ret vunit end
  end.

(** A call of a function of the file with the given arguments. *)
Fixpoint params (ps : list (string * rty)) (vs : list val) : option env :=
  match ps, vs with
  | [], [] => Some []
  | (x, _) :: ps', v :: vs' =>
      match params ps' vs' with
      | Some e => Some (if String.eqb x "_" then e else (x, v) :: e)
      | None => None
      end
  | _, _ => None
  end.
Definition run_fn (f : rfn) (vs : list val) : M val :=
  match params (rf_params f) vs with
  | Some en => body (ev_block (rf_body f) en)
  | None => stuck
  end.
End Code.

(** [T::read_from_buffers(bytes_reader)]. *)
Definition read_with (K : calls) (t : rty) : M val :=
  match t with
  | RPath [n] [] =>
      match find_method n "read_from_buffers" with
      | Some f => run_fn K n f [vref vreader]
      | None =>
          if has_impl n then stuck
          else if is_prim n then read_prim n
          else fun s =>
            match rt_ext_get R n (s_rd s) with
            | Some (x, rest) => Done (vext n x) (set_rd rest s)
            | None => Panics
            end
      end
  | RPath [g] args => fun s =>
      match rt_head_get R g (s_rd s) with
      | Some (k, rest) =>
          (do l <- mapMM (fun i => match nth_error args i with Some t => c_read K t | None => stuck end)
                     (rt_slots R g k);
           ret (vbox g k l)) (set_rd rest s)
      | None => Panics
      end
  | _ => stuck
  end.

(** [v.write_to_buffers(bytes_writer)]. *)
Definition write_with (K : calls) (v : val) : M done :=
  match v with
  | vrec n _ | vcase n _ | vcaset n _ _ | vcases n _ _ =>
      match find_method n "write_to_buffers" with
      | Some f => do _ <- run_fn K n f [vref v; vref vwriter]; ret ok
      | None => stuck
      end
  | vnum t z => emit (rt_put R t z)
  | vext n x => emit (rt_ext_put R n x)
  | vbox g k l =>
      do _ <- emit (rt_head_put R g k); do _ <- mapMM (c_write K) l; ret ok
  | _ => stuck
  end.

(** [n] bounds the depth of nested calls. *)
Fixpoint calls_upto (n : nat) : calls :=
  match n with
  | 0 => mk_calls (fun _ _ => NoFuel) (fun _ _ => NoFuel)
  | S n' => mk_calls (read_with (calls_upto n')) (write_with (calls_upto n'))
  end.

Definition read_value (n : nat) (t : rty) : M val := c_read (calls_upto n) t.
Definition write_value (n : nat) (v : val) : M done := c_write (calls_upto n) v.

(** [T::skip_in_buffers(bytes_reader, count)] of a type the file defines. *)
Definition skip_values (n : nat) (t : string) (count : Z) : M done :=
  match find_method t "skip_in_buffers" with
  | Some f => do _ <- run_fn (calls_upto n) t f [vref vreader; vnum "u64" count]; ret ok
  | None => stuck
  end.

(** A call of a free function of the file. *)
Definition find_fn (f : string) : option rfn :=
  match find (fun i => match i with IFn g => String.eqb (rf_name g) f | _ => false end) items with
  | Some (IFn g) => Some g
  | _ => None
  end.
Definition call_fn (n : nat) (f : string) (vs : list val) : M val :=
  match find_fn f with
  | Some g => run_fn (calls_upto n) "" g vs
  | None => stuck
  end.

(** The i-th spawned task runs to its end. *)
Definition complete (n i : nat) : M val := fun s =>
  match nth_error (s_tasks s) i with
  | Some (en, b) =>
      body (ev_block (calls_upto n) "" b en)
        (set_tasks (firstn i (s_tasks s) ++ skipn (S i) (s_tasks s)) s)
  | None => Stuck
  end.
End Interpreter.
