(** The meaning of the Dart files that the generator writes: an interpreter for the trees that
    [dart_file] (DartSyntax.v) reads.  Written from the Dart language specification; nothing here
    refers to the generator.

    What is modelled: evaluation order, mutable objects and references (a heap), field initialisers,
    generative constructors with [this.x] parameters and with initialiser lists, static methods,
    getters, implicit [this], constants, closures, [switch] without fall through, early return,
    [throw], uninitialised [late] fields.  Ill-typed code and code outside of this fragment is [Stuck].
    Not modelled: static types (a type annotation is not looked at), asynchronous gaps.

    The packages tech_paws_buffers and tech_paws_runtime are not part of /repo.  What the generated
    code uses of them is the record [druntime] and the functions [reader_method], [writer_method],
    [codec_method], [list_method] and [scheduler_method] below; they belong to the trusted base.  A
    value of a class that is declared elsewhere is a mutable object with a number as its content,
    except that a [String] is immutable. *)
Require Import Coq.Strings.String Coq.Strings.Ascii.
Require Import Coq.NArith.NArith Coq.ZArith.ZArith Coq.Lists.List Coq.Bool.Bool.
Require Import Verif.Code Verif.DartSyntax.
Require Verif.RustSem.
Import ListNotations.
Local Open Scope string_scope.
Local Open Scope list_scope.

Notation bytes := RustSem.bytes (only parsing).
Notation literal := RustSem.literal (only parsing).
Notation upd_mem := RustSem.upd_mem (only parsing).

(** ** Values and the heap *)

Inductive dval : Type :=
| dint (z : Z)
| ddbl (z : Z)                                         (* a double, by bit pattern *)
| dbool (b : bool)
| dnull
| dtext (s : string)                                   (* a string literal *)
| dstr (x : N)                                         (* a String that came from elsewhere *)
| dref (a : nat)                                       (* an object in the heap *)
| dobj (n : string) (ts : list dty) (args : list dval) (* an object without mutable fields *)
| dmem (e m : string)                                  (* a member of an enum *)
| dfun (x : string) (body : list dst) (en : list (string * dval)) (this : option (dval * string))
| derr (n : string)                                    (* an error that can be thrown *)
| dtask (n : nat)                                      (* a handle to a read task of the scheduler *)
| dreader | dwriter | dsched
| dlate.                                               (* what a late field holds before it is set *)

Definition denv := list (string * dval).
Definition dargs := list (option string * dval).

Inductive cell : Type :=
| CObj (c : string) (fs : list (string * dval))
| CList (l : list dval)
| CExt (t : dty) (x : N)                               (* an object of a class declared elsewhere *)
| CDone (o : option dval)                              (* a Completer and its future *)
| CMap (l : list (Z * dval))
| CStream (l : list dval) (is_open : bool).

Fixpoint lookup (x : string) (l : list (string * dval)) : option dval :=
  match l with
  | [] => None
  | (y, v) :: l' => if String.eqb x y then Some v else lookup x l'
  end.
(** Changes the value of a field that exists. *)
Fixpoint set_key (x : string) (v : dval) (l : list (string * dval)) : option (list (string * dval)) :=
  match l with
  | [] => None
  | (y, w) :: l' =>
      if String.eqb x y then Some ((y, v) :: l')
      else match set_key x v l' with Some l'' => Some ((y, w) :: l'') | None => None end
  end.
Definition heap := list cell.
Fixpoint set_cell (a : nat) (c : cell) (h : heap) : heap :=
  match h, a with
  | [], _ => []
  | _ :: h', 0 => c :: h'
  | d :: h', S a' => d :: set_cell a' c h'
  end.

(** ** The libraries *)

(** The numbers behind [BytesReader.readX] and [BytesWriter.writeX] with X one of [dart_prims], and
    behind the codecs of [dart_elements]; doubles by bit pattern, bools as 0 and 1. *)
Definition dart_prims : list string := ["Int8"; "Int32"; "Int64"; "Float"; "Double"; "Bool"].
Definition dart_elements : list string := ["Int"; "Double"; "Bool"].

Record druntime := mk_druntime
  { rd_put : string -> Z -> bytes;                    (* writer.writeX(v) *)
    rd_get : string -> bytes -> option (Z * bytes);   (* reader.readX(); [None]: it throws *)
    rd_eput : string -> Z -> bytes;                   (* const XIntoBuffers().write(writer, v) *)
    rd_eget : string -> bytes -> option (Z * bytes);
    rd_ext_put : dty -> N -> bytes;                   (* the codecs of a class that is declared elsewhere *)
    rd_ext_get : dty -> bytes -> option (N * bytes);
    rd_ext_new : dty -> N;                            (* its factory *)
    rd_len_put : nat -> bytes;                        (* the length of a list *)
    rd_len_get : bytes -> option (nat * bytes);
    rd_bulk : bool;                                   (* skipping a list skips its elements by one call *)
    rd_float : string -> string -> Z;                 (* the double a.b *)
    rd_neg : Z -> Z;                                  (* the double -x *)
    rd_has_data : Z;                                  (* TechPawsRpcBufferStatus.hasData.value *)
    rd_rotate : Z -> Z;                               (* rotateMethodId *)
    rd_loop : nat -> (string -> Z -> string -> bytes) -> option (string -> Z -> string -> bytes) }.
                                                      (* what the n-th loopSyncGroup() does to the buffers *)

(** ** States and outcomes *)

(** A task of [scheduler.read]: the buffer and the callback. *)
Record task := mk_task { tk_scope : string; tk_address : Z; tk_side : string; tk_fun : dval }.
Record dstate := mk_dstate
  { d_heap : heap;
    d_rd : bytes;                                     (* what the current reader has left *)
    d_wr : bytes;                                     (* what the current writer has written *)
    d_mem : string -> Z -> string -> bytes;           (* buffers: scope, method, side *)
    d_loops : nat;                                    (* how often loopSyncGroup() has been called *)
    d_tasks : list (option task) }.                   (* [None]: disconnected *)
Definition set_heap (h : heap) (s : dstate) := mk_dstate h (d_rd s) (d_wr s) (d_mem s) (d_loops s) (d_tasks s).
Definition set_drd (b : bytes) (s : dstate) := mk_dstate (d_heap s) b (d_wr s) (d_mem s) (d_loops s) (d_tasks s).
Definition set_dwr (b : bytes) (s : dstate) := mk_dstate (d_heap s) (d_rd s) b (d_mem s) (d_loops s) (d_tasks s).
Definition set_dmem (m : string -> Z -> string -> bytes) (s : dstate) :=
  mk_dstate (d_heap s) (d_rd s) (d_wr s) m (d_loops s) (d_tasks s).
Definition set_loops (n : nat) (s : dstate) := mk_dstate (d_heap s) (d_rd s) (d_wr s) (d_mem s) n (d_tasks s).
Definition set_dtasks (l : list (option task)) (s : dstate) :=
  mk_dstate (d_heap s) (d_rd s) (d_wr s) (d_mem s) (d_loops s) l.

Inductive dout (A : Type) : Type :=
| DDone (a : A) (s : dstate)
| DReturned (v : dval) (s : dstate)
| DBreaks (s : dstate)
| DThrows (e : string)
| DStuck
| DNoFuel.
Arguments DDone {A}. Arguments DReturned {A}. Arguments DBreaks {A}. Arguments DThrows {A}.
Arguments DStuck {A}. Arguments DNoFuel {A}.

Definition dM (A : Type) : Type := dstate -> dout A.
Definition dret {A} (a : A) : dM A := fun s => DDone a s.
Definition dstuck {A} : dM A := fun _ => DStuck.
Definition dthrow {A} (e : string) : dM A := fun _ => DThrows e.
Definition dbind {A B} (m : dM A) (k : A -> dM B) : dM B := fun s =>
  match m s with
  | DDone a s' => k a s'
  | DReturned v s' => DReturned v s'
  | DBreaks s' => DBreaks s'
  | DThrows e => DThrows e
  | DStuck => DStuck
  | DNoFuel => DNoFuel
  end.
Notation "'dd' x <- a ; b" := (dbind a (fun x => b)) (at level 200, x pattern, a at level 100, b at level 200).
Definition dof {A} (o : option A) : dM A := match o with Some a => dret a | None => dstuck end.
(** A function body: [return] gives its value, and [break] cannot leave it. *)
Definition dbody_of (m : dM dval) : dM dval := fun s =>
  match m s with DReturned v s' => DDone v s' | DBreaks _ => DStuck | r => r end.

Definition dmapM {A B} (f : A -> dM B) : list A -> dM (list B) :=
  fix go l :=
    match l with
    | [] => dret []
    | a :: l' => dd b <- f a; dd bs <- go l'; dret (b :: bs)
    end.
Definition dchain {A B} (f : A -> B -> dM B) : list A -> B -> dM B :=
  fix go l b :=
    match l with
    | [] => dret b
    | a :: l' => dd b' <- f a b; go l' b'
    end.
Fixpoint dtimes (n : nat) (m : dM RustSem.done) : dM RustSem.done :=
  match n with
  | 0 => dret RustSem.ok
  | S n' => dd _ <- m; dtimes n' m
  end.
(** [for (var i = a; i < b; i += c)]: the loop variable in each of the rounds. *)
Fixpoint counter (n : nat) (a c : Z) : list Z :=
  match n with 0 => [] | S n' => a :: counter n' (a + c)%Z c end.
Definition rounds (a b c : Z) : list Z := counter (Z.to_nat ((b - a + c - 1) / c)) a c.

Definition alloc (c : cell) : dM dval := fun s =>
  DDone (dref (List.length (d_heap s))) (set_heap (d_heap s ++ [c]) s).
Definition get_cell (a : nat) : dM cell := fun s =>
  match nth_error (d_heap s) a with Some c => DDone c s | None => DStuck end.
Definition put_cell (a : nat) (c : cell) : dM RustSem.done := fun s => DDone RustSem.ok (set_heap (set_cell a c (d_heap s)) s).

(** What precedes a suffix. *)
Fixpoint strip (suf s : string) : option string :=
  if String.eqb s suf then Some ""
  else match s with
       | "" => None
       | String c s' => match strip suf s' with Some p => Some (String c p) | None => None end
       end.

(** ** Classes of the file *)

Fixpoint find_class (n : string) (l : list ditem) : option (list dmember) :=
  match l with
  | [] => None
  | DClass m _ ms :: l' => if String.eqb m n then Some ms else find_class n l'
  | _ :: l' => find_class n l'
  end.
Fixpoint find_enum (n : string) (l : list ditem) : option (list string) :=
  match l with
  | [] => None
  | DEnum m names :: l' => if String.eqb m n then Some names else find_enum n l'
  | _ :: l' => find_enum n l'
  end.
Fixpoint find_const (n : string) (l : list ditem) : option dex :=
  match l with
  | [] => None
  | DConstDecl m e :: l' => if String.eqb m n then Some e else find_const n l'
  | _ :: l' => find_const n l'
  end.
Fixpoint find_meth (static : bool) (m : string) (ms : list dmember) : option (dparams * dbody) :=
  match ms with
  | [] => None
  | MMeth st _ n ps b :: ms' =>
      if Bool.eqb st static && String.eqb n m then Some (ps, b) else find_meth static m ms'
  | _ :: ms' => find_meth static m ms'
  end.
Fixpoint find_getter (m : string) (ms : list dmember) : option dex :=
  match ms with
  | [] => None
  | MGet _ n e :: ms' => if String.eqb n m then Some e else find_getter m ms'
  | _ :: ms' => find_getter m ms'
  end.
Fixpoint find_static (m : string) (ms : list dmember) : option dex :=
  match ms with
  | [] => None
  | MStatic n e :: ms' => if String.eqb n m then Some e else find_static m ms'
  | _ :: ms' => find_static m ms'
  end.
Fixpoint find_final (m : string) (ms : list dmember) : option dex :=
  match ms with
  | [] => None
  | MFinal _ n (Some e) :: ms' => if String.eqb n m then Some e else find_final m ms'
  | _ :: ms' => find_final m ms'
  end.
Inductive ctor : Type := CtorConst | Ctor (ps : dparams) (body : option (list dst)) | CtorNone.
Fixpoint find_ctor (ms : list dmember) : ctor :=
  match ms with
  | [] => CtorNone
  | MConstCtor _ :: _ => CtorConst
  | MCtor _ ps b :: _ => Ctor ps b
  | _ :: ms' => find_ctor ms'
  end.
Fixpoint find_init (m : string) (ms : list dmember) : option (list (string * dex)) :=
  match ms with
  | [] => None
  | MInitCtor _ n inits :: ms' => if String.eqb n m then Some inits else find_init m ms'
  | _ :: ms' => find_init m ms'
  end.
(** The instance fields with their initialisers. *)
Definition instance_fields (ms : list dmember) : list (string * option dex) :=
  flat_map (fun m => match m with
                     | MLate _ n => [(n, None)]
                     | MFinal _ n e | MField _ n e => [(n, e)]
                     | _ => []
                     end) ms.

(** The arguments of a call by the names of the parameters. *)
Fixpoint bind_pos (ps : list dparam) (vs : dargs) : option denv :=
  match ps, vs with
  | [], [] => Some []
  | (_, x) :: ps', (None, v) :: vs' => match bind_pos ps' vs' with Some e => Some ((x, v) :: e) | None => None end
  | _, _ => None
  end.
Fixpoint labelled (x : string) (vs : dargs) : option dval :=
  match vs with
  | [] => None
  | (Some y, v) :: vs' => if String.eqb x y then Some v else labelled x vs'
  | (None, _) :: vs' => labelled x vs'
  end.
Fixpoint bind_named (ps : list dparam) (vs : dargs) : option denv :=
  match ps with
  | [] => Some []
  | (_, x) :: ps' =>
      match labelled x vs, bind_named ps' vs with Some v, Some e => Some ((x, v) :: e) | _, _ => None end
  end.
Definition bind_params (ps : dparams) (vs : dargs) : option denv :=
  match ps with
  | PPos l _ => bind_pos l vs
  | PNamed l => if Nat.eqb (List.length l) (List.length vs) then bind_named l vs else None
  end.
Definition is_this (p : dparam) : bool := match fst p with None => true | Some _ => false end.
Definition param_list (ps : dparams) : list dparam := match ps with PPos l _ => l | PNamed l => l end.

Definition pos (vs : list dval) : dargs := map (fun v => (None, v)) vs.

(** ** The interpreter *)

Section Interpreter.
Variable D : druntime.
Variable items : list ditem.

Definition has_class (n : string) : bool := match find_class n items with Some _ => true | None => false end.

(** What an expression may run that is not part of it. *)
Record dcalls := mk_dcalls
  { k_method : dval -> string -> dargs -> dM dval;          (* a method call *)
    k_invoke : dval -> string -> string -> dargs -> dM dval;  (* the method of a class of the file *)
    k_new : string -> dargs -> dM dval;                     (* C(..) *)
    k_static : string -> string -> dargs -> dM dval;        (* C.m(..): static method or named constructor *)
    k_eval : option (dval * string) -> dex -> dM dval;      (* an initialiser or getter *)
    k_apply : dval -> list dval -> dM dval }.               (* a closure *)

Definition prim_of (pre m : string) : option string := find (fun t => String.eqb m (pre ++ t)) dart_prims.
Definition prim_val (p : string) (z : Z) : dval :=
  if String.eqb p "Bool" then dbool (Z.eqb z 1)
  else if String.eqb p "Float" || String.eqb p "Double" then ddbl z
  else dint z.
Definition prim_num (p : string) (v : dval) : option Z :=
  match v with
  | dbool b => if String.eqb p "Bool" then Some (if b then 1 else 0)%Z else None
  | ddbl z => if String.eqb p "Float" || String.eqb p "Double" then Some z else None
  | dint z => if String.eqb p "Bool" || String.eqb p "Float" || String.eqb p "Double" then None else Some z
  | _ => None
  end.
(** Reads something with the current reader; emits bytes with the current writer. *)
Definition take {A} (f : bytes -> option (A * bytes)) : dM A := fun s =>
  match f (d_rd s) with Some (a, rest) => DDone a (set_drd rest s) | None => DThrows "RangeError" end.
Definition demit (b : bytes) : dM RustSem.done := fun s => DDone RustSem.ok (set_dwr (d_wr s ++ b) s).

Definition reader_method (m : string) (vs : dargs) : dM dval :=
  match prim_of "read" m, vs with
  | Some p, [] => dd z <- take (rd_get D p); dret (prim_val p z)
  | _, _ => dstuck
  end.
Definition writer_method (m : string) (vs : dargs) : dM dval :=
  match prim_of "write" m, vs with
  | Some p, [(None, v)] => match prim_num p v with Some z => dd _ <- demit (rd_put D p z); dret dnull | None => dstuck end
  | _, _ => dstuck
  end.

(** The codecs and factories that the file does not declare. *)
Definition into_method (n : string) (ts : list dty) (m : string) (vs : dargs) : dM dval :=
  if existsb (String.eqb n) dart_elements then
    match vs with
    | [(None, dreader)] =>
        if String.eqb m "read" then dd z <- take (rd_eget D n); dret (prim_val n z) else dstuck
    | [(None, dwriter); (None, v)] =>
        if String.eqb m "write" then
          match prim_num n v with Some z => dd _ <- demit (rd_eput D n z); dret dnull | None => dstuck end
        else dstuck
    | [(None, dreader); (None, dint k)] =>
        if String.eqb m "skip" then
          dd _ <- dtimes (Z.to_nat k) (dd _ <- take (rd_eget D n); dret RustSem.ok); dret dnull
        else dstuck
    | _ => dstuck
    end
  else
    match vs with
    | [(None, dreader)] =>
        if String.eqb m "read" then
          dd x <- take (rd_ext_get D (DTy n ts));
          if String.eqb n "String" then dret (dstr x) else alloc (CExt (DTy n ts) x)
        else dstuck
    | [(None, dwriter); (None, v)] =>
        if String.eqb m "write" then
          match v with
          | dstr x =>
              if String.eqb n "String" then dd _ <- demit (rd_ext_put D (DTy n ts) x); dret dnull else dstuck
          | dref a =>
              dd c <- get_cell a;
              match c with
              | CExt (DTy n' _) x => if String.eqb n' n then dd _ <- demit (rd_ext_put D (DTy n ts) x); dret dnull else dstuck
              | _ => dstuck
              end
          | _ => dstuck
          end
        else dstuck
    | [(None, dreader); (None, dint k)] =>
        if String.eqb m "skip" then
          dd _ <- dtimes (Z.to_nat k) (dd _ <- take (rd_ext_get D (DTy n ts)); dret RustSem.ok); dret dnull
        else dstuck
    | _ => dstuck
    end.
Definition emplace_method (n : string) (ts : list dty) (m : string) (vs : dargs) : dM dval :=
  match vs with
  | [(None, dreader); (None, dref a)] =>
      if String.eqb m "read" then
        dd c <- get_cell a;
        match c with
        | CExt (DTy n' ts') _ =>
            if String.eqb n' n then
              dd x <- take (rd_ext_get D (DTy n ts)); dd _ <- put_cell a (CExt (DTy n' ts') x); dret dnull
            else dstuck
        | _ => dstuck
        end
      else dstuck
  | _ => if String.eqb m "read" then dstuck else into_method n ts m vs
  end.

(** ListIntoBuffers and ListEmplaceToBuffers: the length, then the elements by the codec [c]. *)
Definition list_method (K : dcalls) (emplace : bool) (c : dval) (m : string) (vs : dargs) : dM dval :=
  match vs with
  | [(None, dreader)] =>
      if String.eqb m "read" && negb emplace then
        dd n <- take (rd_len_get D);
        dd l <- dmapM (fun _ => k_method K c "read" (pos [dreader])) (repeat RustSem.ok n);
        alloc (CList l)
      else dstuck
  | [(None, dreader); (None, dref a)] =>
      if String.eqb m "read" && emplace then
        dd d <- get_cell a;
        match d with
        | CList _ =>
            dd n <- take (rd_len_get D);
            dd l <- dmapM (fun _ => k_method K c "read" (pos [dreader])) (repeat RustSem.ok n);
            dd _ <- put_cell a (CList l); dret dnull
        | _ => dstuck
        end
      else dstuck
  | [(None, dwriter); (None, dref a)] =>
      if String.eqb m "write" then
        dd d <- get_cell a;
        match d with
        | CList l =>
            dd _ <- demit (rd_len_put D (List.length l));
            dd _ <- dmapM (fun v => k_method K c "write" (pos [dwriter; v])) l; dret dnull
        | _ => dstuck
        end
      else dstuck
  | [(None, dreader); (None, dint k)] =>
      if String.eqb m "skip" then
        dd _ <- dtimes (Z.to_nat k)
          (dd n <- take (rd_len_get D);
           if rd_bulk D then dd _ <- k_method K c "skip" (pos [dreader; dint (Z.of_nat n)]); dret RustSem.ok
           else dtimes n (dd _ <- k_method K c "skip" (pos [dreader; dint 1]); dret RustSem.ok));
        dret dnull
      else dstuck
  | _ => dstuck
  end.
Definition codec_method (K : dcalls) (n : string) (ts : list dty) (args : list dval) (m : string) (vs : dargs) : dM dval :=
  if String.eqb n "ListIntoBuffers" then match args with [c] => list_method K false c m vs | _ => dstuck end
  else if String.eqb n "ListEmplaceToBuffers" then match args with [c] => list_method K true c m vs | _ => dstuck end
  else if String.eqb n "ListBuffersFactory" then
    if String.eqb m "createDefault" then match vs, args with [], [] => alloc (CList []) | _, _ => dstuck end else dstuck
  else match args with
  | [] =>
      match strip "IntoBuffers" n with
      | Some p => into_method p ts m vs
      | None =>
          match strip "EmplaceToBuffers" n with
          | Some p => emplace_method p ts m vs
          | None =>
              match strip "BuffersFactory" n with
              | Some p =>
                  if String.eqb m "createDefault" then
                    match vs with
                    | [] => if String.eqb p "String" then dret (dstr (rd_ext_new D (DTy p ts)))
                            else alloc (CExt (DTy p ts) (rd_ext_new D (DTy p ts)))
                    | _ => dstuck
                    end
                  else dstuck
              | None => dstuck
              end
          end
      end
  | _ => dstuck
  end.

(** The scheduler of tech_paws_runtime.  A callback that writes gets a writer at the start of the
    buffer; bytes behind what it writes keep their value.  [write] runs its callback at once.  [read]
    registers its callback; [run_task] below is one run of it. *)
Definition side_of (m : string) : option string :=
  if String.eqb m "server" then Some "Server" else if String.eqb m "client" then Some "Client" else None.
Definition with_reader (b : bytes) (m : dM dval) : dM dval := fun s =>
  match m (set_drd b s) with
  | DDone v s' => DDone v (set_drd (d_rd s) s')
  | r => r
  end.
Definition with_writer (sc : string) (z : Z) (side : string) (m : dM dval) : dM dval := fun s =>
  match m (set_dwr [] s) with
  | DDone v s' =>
      DDone v (set_dwr (d_wr s) (set_dmem
        (upd_mem (d_mem s') sc z side (d_wr s' ++ skipn (List.length (d_wr s')) (d_mem s' sc z side))) s'))
  | r => r
  end.
Definition scheduler_method (K : dcalls) (m : string) (vs : dargs) : dM dval :=
  match vs with
  | [] =>
      if String.eqb m "loopSyncGroup" then fun s =>
        match rd_loop D (d_loops s) (d_mem s) with
        | Some mem => DDone dnull (set_loops (S (d_loops s)) (set_dmem mem s))
        | None => DThrows "ServerError"
        end
      else dstuck
  | [(None, dtask n)] =>
      if String.eqb m "disconnect" then fun s =>
        DDone dnull (set_dtasks (firstn n (d_tasks s) ++ [None] ++ skipn (S n) (d_tasks s)) s)
      else dstuck
  | [(None, dtext sc); (None, dint z); (None, dmem e side); (None, f)] =>
      match (if String.eqb e "TechPawsRuntimeRpcMethodBuffer" then side_of side else None) with
      | Some sd =>
          if String.eqb m "syncWrite" || String.eqb m "write" then
            with_writer sc z sd (dd _ <- k_apply K f [dwriter]; dret dnull)
          else if String.eqb m "syncRead" then fun s =>
            with_reader (d_mem s sc z sd) (k_apply K f [dreader]) s
          else if String.eqb m "read" then fun s =>
            DDone (dtask (List.length (d_tasks s))) (set_dtasks (d_tasks s ++ [Some (mk_task sc z sd f)]) s)
          else dstuck
      | None => dstuck
      end
  | _ => dstuck
  end.

(** The objects of dart:core and dart:async. *)
Fixpoint map_get (k : Z) (l : list (Z * dval)) : option dval :=
  match l with [] => None | (j, v) :: l' => if Z.eqb j k then Some v else map_get k l' end.
Definition map_remove (k : Z) (l : list (Z * dval)) : list (Z * dval) := filter (fun p => negb (Z.eqb (fst p) k)) l.
Definition map_put (k : Z) (v : dval) (l : list (Z * dval)) : list (Z * dval) := map_remove k l ++ [(k, v)].

Definition method (K : dcalls) (v : dval) (m : string) (vs : dargs) : dM dval :=
  match v with
  | dreader => reader_method m vs
  | dwriter => writer_method m vs
  | dsched => scheduler_method K m vs
  | dobj n ts args => if has_class n then k_invoke K v n m vs else codec_method K n ts args m vs
  | dref a =>
      dd c <- get_cell a;
      match c with
      | CObj n _ => k_invoke K v n m vs
      | CDone None =>
          if String.eqb m "complete" then
            match vs with
            | [] => dd _ <- put_cell a (CDone (Some dnull)); dret dnull
            | [(None, w)] => dd _ <- put_cell a (CDone (Some w)); dret dnull
            | _ => dstuck
            end
          else dstuck
      | CDone (Some _) => if String.eqb m "complete" then dthrow "StateError" else dstuck
      | CMap l =>
          match vs with
          | [(None, dint k)] =>
              if String.eqb m "remove" then
                dd _ <- put_cell a (CMap (map_remove k l));
                dret (match map_get k l with Some w => w | None => dnull end)
              else dstuck
          | _ => dstuck
          end
      | CStream l o =>
          match vs with
          | [(None, w)] =>
              if String.eqb m "add" then
                if o then dd _ <- put_cell a (CStream (l ++ [w]) true); dret dnull else dthrow "StateError"
              else dstuck
          | [] => if String.eqb m "close" then dd _ <- put_cell a (CStream l false); dret dnull else dstuck
          | _ => dstuck
          end
      | _ => dstuck
      end
  | _ => dstuck
  end.

Definition get_field (K : dcalls) (f : string) (v : dval) : dM dval :=
  match v with
  | dref a =>
      dd c <- get_cell a;
      match c with
      | CObj n fs =>
          match lookup f fs with
          | Some dlate => dthrow "LateInitializationError"
          | Some w => dret w
          | None =>
              match find_class n items with
              | Some ms => match find_getter f ms with Some e => k_eval K (Some (v, n)) e | None => dstuck end
              | None => dstuck
              end
          end
      | CDone _ => if String.eqb f "future" then dret v else dstuck
      | CStream _ _ => if String.eqb f "stream" then dret v else dstuck
      | _ => dstuck
      end
  | dobj n _ _ =>
      match find_class n items with
      | Some ms => match find_final f ms with Some e => k_eval K None e | None => dstuck end
      | None => dstuck
      end
  | dmem e m =>
      if String.eqb e "TechPawsRpcBufferStatus" && String.eqb m "hasData" && String.eqb f "value" then
        dret (dint (rd_has_data D))
      else dstuck
  | _ => dstuck
  end.
Definition set_field (f : string) (v w : dval) : dM dval :=
  match v with
  | dref a =>
      dd c <- get_cell a;
      match c with
      | CObj n fs => match set_key f w fs with Some fs' => dd _ <- put_cell a (CObj n fs'); dret w | None => dstuck end
      | _ => dstuck
      end
  | _ => dstuck
  end.
Definition get_index (v k : dval) : dM dval :=
  match v, k with
  | dref a, dint z =>
      dd c <- get_cell a;
      match c with CMap l => dret (match map_get z l with Some w => w | None => dnull end) | _ => dstuck end
  | _, _ => dstuck
  end.
Definition set_index (v k w : dval) : dM dval :=
  match v, k with
  | dref a, dint z =>
      dd c <- get_cell a;
      match c with CMap l => dd _ <- put_cell a (CMap (map_put z w l)); dret w | _ => dstuck end
  | _, _ => dstuck
  end.

(** [N.f] for a name N that is no variable. *)
Definition static_field (n f : string) : dM dval :=
  match find_enum n items with
  | Some names => if existsb (String.eqb f) names then dret (dmem n f) else dstuck
  | None =>
      if has_class n then dstuck
      else if (String.eqb n "TechPawsRuntimeRpcMethodBuffer" && match side_of f with Some _ => true | None => false end)
           || (String.eqb n "TechPawsRpcBufferStatus" && String.eqb f "hasData")
      then dret (dmem n f) else dstuck
  end.

Definition dequal (a b : dval) : option bool :=
  match a, b with
  | dint x, dint y => Some (Z.eqb x y)
  | dbool x, dbool y => Some (Bool.eqb x y)
  | dmem e x, dmem f y => if String.eqb e f then Some (String.eqb x y) else None
  | _, _ => None
  end.

Section Code.
Variable K : dcalls.
(** The receiver of the running method and its class. *)
Variable this : option (dval * string).

(** The class whose members are in scope. *)
Definition own_members : list dmember :=
  match this with Some (_, c) => match find_class c items with Some ms => ms | None => [] end | None => [] end.

(** A name: a variable, else a field of [this], a static member of its class, a constant of the file;
    [None] if it is none of these. *)
Definition name_value (n : string) (en : denv) : dM (option dval) :=
  match lookup n en with
  | Some v => dret (Some v)
  | None =>
      if String.eqb n "null" then dret (Some dnull)
      else if String.eqb n "true" then dret (Some (dbool true))
      else if String.eqb n "false" then dret (Some (dbool false))
      else
        let outer :=
          match find_static n own_members with
          | Some e => dd v <- k_eval K None e; dret (Some v)
          | None =>
              match find_const n items with
              | Some e => dd v <- k_eval K None e; dret (Some v)
              | None => dret None
              end
          end in
        match this with
        | Some (dref a, _) =>
            dd c <- get_cell a;
            match c with
            | CObj _ fs =>
                match lookup n fs with
                | Some dlate => dthrow "LateInitializationError"
                | Some v => dret (Some v)
                | None => outer
                end
            | _ => dstuck
            end
        | _ => outer
        end
  end.
(** [x = v] where x is a field of [this]; variables are final. *)
Definition set_name (n : string) (en : denv) (v : dval) : dM dval :=
  match lookup n en, this with
  | None, Some (w, _) => set_field n w v
  | _, _ => dstuck
  end.

(** [f(..)]. *)
Definition call_name (n : string) (vs : dargs) : dM dval :=
  match find_meth false n own_members, this with
  | Some _, Some (v, c) => k_invoke K v c n vs
  | _, _ =>
      if has_class n then k_new K n vs
      else match vs with
      | [(None, dtext _)] => if String.eqb n "StateError" then dret (derr n) else dstuck
      | [(None, dint z)] => if String.eqb n "rotateMethodId" then dret (dint (rd_rotate D z)) else dstuck
      | [] => if String.eqb n "Completer" then alloc (CDone None) else dstuck
      | _ => dstuck
      end
  end.
(** [N.m(..)]. *)
Definition call_static (n m : string) (vs : dargs) : dM dval :=
  if has_class n then k_static K n m vs
  else match vs with
  | [] => if String.eqb n "StreamController" && String.eqb m "broadcast" then alloc (CStream [] true) else dstuck
  | _ => dstuck
  end.

Definition is_name (e : dex) : option string := match e with DName n _ => Some n | _ => None end.

Fixpoint ev (e : dex) (en : denv) {struct e} : dM dval :=
  match e with
  | DNum w => dd z <- dof (literal w); dret (dint z)
  | DFloat a b => dret (ddbl (rd_float D a b))
  | DStr s => dret (dtext s)
  | DNeg e =>
      dd v <- ev e en;
      match v with dint z => dret (dint (- z)) | ddbl z => dret (ddbl (rd_neg D z)) | _ => dstuck end
  | DName n _ => dd o <- name_value n en; dof o
  | DConst n ts args _ =>
      dd vs <- dmapM (fun '(l, e) => dd v <- ev e en; dret (l, v)) args;
      if has_class n then k_new K n vs
      else if forallb (fun '(l, _) => match l with None => true | Some _ => false end) vs then dret (dobj n ts (map snd vs))
      else dstuck
  | DMap _ => alloc (CMap [])
  | DFun x body => dret (dfun x body en this)
  | DPost h ps =>
      match is_name h with
      | None => dd v <- ev h en; dchain (fun p v => ev_post p v en) ps v
      | Some n =>
          dd o <- name_value n en;
          match o, ps with
          | Some v, _ => dchain (fun p v => ev_post p v en) ps v
          | None, p :: ps' => dd v <- ev_named n p en; dchain (fun p v => ev_post p v en) ps' v
          | None, [] => dstuck
          end
      end
  | DEq neg a b =>
      dd x <- ev a en; dd y <- ev b en;
      dd r <- dof (dequal x y); dret (dbool (if neg then negb r else r))
  | DSet a b =>
      match a with
      | DName n _ => dd w <- ev b en; set_name n en w
      | DPost h ps =>
          dd v <- ev h en;
          (fix go (ps : list dpost) (v : dval) : dM dval :=
             match ps with
             | [] => dstuck
             | [p] =>
                 match p with
                 | XField f => dd w <- ev b en; set_field f v w
                 | XIndex i => dd k <- ev i en; dd w <- ev b en; set_index v k w
                 | _ => dstuck
                 end
             | p :: ps' => dd v' <- ev_post p v en; go ps' v'
             end) ps v
      | _ => dstuck
      end
  end
with ev_post (p : dpost) (v : dval) (en : denv) {struct p} : dM dval :=
  match p with
  | XField f => get_field K f v
  | XCall _ _ => dstuck
  | XMeth m _ args _ =>
      dd vs <- dmapM (fun '(l, e) => dd v <- ev e en; dret (l, v)) args; method K v m vs
  | XOpt m args _ =>
      match v with
      | dnull => dret dnull
      | _ => dd vs <- dmapM (fun '(l, e) => dd v <- ev e en; dret (l, v)) args; method K v m vs
      end
  | XIndex e => dd k <- ev e en; get_index v k
  end
with ev_named (n : string) (p : dpost) (en : denv) {struct p} : dM dval :=
  match p with
  | XField f => static_field n f
  | XCall args _ =>
      dd vs <- dmapM (fun '(l, e) => dd v <- ev e en; dret (l, v)) args; call_name n vs
  | XMeth m _ args _ =>
      dd vs <- dmapM (fun '(l, e) => dd v <- ev e en; dret (l, v)) args; call_static n m vs
  | _ => dstuck
  end.
Fixpoint ev_st (s : dst) (en : denv) {struct s} : dM denv :=
  match s with
  | DFinal x e =>
      match lookup x en with
      | Some _ => dstuck
      | None => dd v <- ev e en; dret ((x, v) :: en)
      end
  | DExpr e => dd _ <- ev e en; dret en
  | DReturn None => fun s => DReturned dnull s
  | DReturn (Some e) => dd v <- ev e en; fun s => DReturned v s
  | DThrow e => dd v <- ev e en; match v with derr n => dthrow n | _ => dstuck end
  | DBreak => fun s => DBreaks s
  | DIf c body =>
      dd v <- ev c en;
      match v with
      | dbool true => dd _ <- dchain (fun s e => ev_st s e) body en; dret en
      | dbool false => dret en
      | _ => dstuck
      end
  | DFor x a b c body =>
      match lookup x en, lookup b en, literal a, literal c with
      | None, Some (dint n), Some a, Some c =>
          if (0 <? c)%Z then
            dd _ <- dmapM (fun i => dchain (fun s e => ev_st s e) body ((x, dint i) :: en)) (rounds a n c); dret en
          else dstuck
      | _, _, _, _ => dstuck
      end
  | DSwitch e cases =>
      dd v <- ev e en;
      (fix go (l : list (option dex * list dst)) : dM denv :=
         match l with
         | [] => dret en
         | (None, body) :: l' =>
             match l' with
             | [] => fun s => match dchain (fun s e => ev_st s e) body en s with
                              | DBreaks s' => DDone en s' | DDone _ s' => DDone en s' | r => r end
             | _ => dstuck
             end
         | (Some c, body) :: l' =>
             dd w <- ev c en;
             dd b <- dof (dequal v w);
             if (b : bool) then fun s => match dchain (fun s e => ev_st s e) body en s with
                                | DBreaks s' => DDone en s' | DDone _ _ => DStuck | r => r end
             else go l'
         end) cases
  end.
Definition ev_body (b : dbody) (en : denv) : dM dval :=
  match b with
  | BArrow e => ev e en
  | BBlock l => dbody_of (dd _ <- dchain (fun s e => ev_st s e) l en; dret dnull)
  end.
End Code.

(** ** Calls *)

(** The fields of a new object. *)
Definition field_values (fs : list (string * option dex)) (vals : list (string * dval)) : list (string * dval) :=
  map (fun '(n, _) => (n, match lookup n vals with Some v => v | None => dlate end)) fs.
Definition initialisers (K : dcalls) (fs : list (string * option dex)) : dM (list (string * dval)) :=
  dmapM (fun '(n, e) => dd v <- ev K None e []; dret (n, v))
    (flat_map (fun '(n, o) => match o with Some e => [(n, e)] | None => [] end) fs).

Definition new_with (K : dcalls) (c : string) (vs : dargs) : dM dval :=
  match find_class c items with
  | None => dstuck
  | Some ms =>
      match find_ctor ms with
      | CtorConst => match vs with [] => dret (dobj c [] []) | _ => dstuck end
      | Ctor ps body =>
          match (if forallb is_this (param_list ps) then bind_params ps vs else None) with
          | Some formals =>
              dd inits <- initialisers K (instance_fields ms);
              dd v <- alloc (CObj c (field_values (instance_fields ms) (formals ++ inits)));
              match body with
              | Some l => dd _ <- ev_body K (Some (v, c)) (BBlock l) []; dret v
              | None => dret v
              end
          | None => dstuck
          end
      | CtorNone =>
          match vs with
          | [] =>
              dd inits <- initialisers K (instance_fields ms);
              alloc (CObj c (field_values (instance_fields ms) inits))
          | _ => dstuck
          end
      end
  end.
Definition static_with (K : dcalls) (c m : string) (vs : dargs) : dM dval :=
  match find_class c items with
  | None => dstuck
  | Some ms =>
      match find_meth true m ms with
      | Some (ps, b) =>
          match bind_params ps vs with Some en => ev_body K None b en | None => dstuck end
      | None =>
          match find_init m ms, vs with
          | Some inits, [] =>
              dd vals <- dmapM (fun '(n, e) => dd v <- ev K None e []; dret (n, v)) inits;
              alloc (CObj c (field_values (instance_fields ms) vals))
          | _, _ => dstuck
          end
      end
  end.
Definition invoke_with (K : dcalls) (v : dval) (c m : string) (vs : dargs) : dM dval :=
  match find_class c items with
  | None => dstuck
  | Some ms =>
      match find_meth false m ms with
      | Some (ps, b) =>
          match bind_params ps vs with Some en => ev_body K (Some (v, c)) b en | None => dstuck end
      | None => dstuck
      end
  end.
Definition apply_with (K : dcalls) (f : dval) (vs : list dval) : dM dval :=
  match f, vs with
  | dfun x body en this, [v] => ev_body K this (BBlock body) ((x, v) :: en)
  | _, _ => dstuck
  end.

(** [n] bounds the depth of nested calls. *)
Fixpoint dcalls_upto (n : nat) : dcalls :=
  match n with
  | 0 => mk_dcalls (fun _ _ _ _ => DNoFuel) (fun _ _ _ _ _ => DNoFuel) (fun _ _ _ => DNoFuel)
           (fun _ _ _ _ => DNoFuel) (fun _ _ _ => DNoFuel) (fun _ _ _ => DNoFuel)
  | S n' =>
      let K := dcalls_upto n' in
      mk_dcalls (method K) (invoke_with K) (new_with K) (static_with K)
        (fun this e => ev K this e []) (apply_with K)
  end.

(** One run of the n-th task of the scheduler. *)
Definition run_task (fuel n : nat) : dM dval := fun s =>
  match nth_error (d_tasks s) n with
  | Some (Some t) =>
      with_reader (d_mem s (tk_scope t) (tk_address t) (tk_side t)) (k_apply (dcalls_upto fuel) (tk_fun t) [dreader]) s
  | _ => DStuck
  end.

(** What a program outside of the file can do with it: [const C<ts>(args).m(vs)], [C(vs)], [C.m(vs)], [v.m(vs)]. *)
Definition call_method (fuel : nat) (v : dval) (m : string) (vs : dargs) : dM dval := k_method (dcalls_upto fuel) v m vs.
Definition call_new (fuel : nat) (c : string) (vs : dargs) : dM dval := k_new (dcalls_upto fuel) c vs.
Definition call_static_of (fuel : nat) (c m : string) (vs : dargs) : dM dval := k_static (dcalls_upto fuel) c m vs.
End Interpreter.
