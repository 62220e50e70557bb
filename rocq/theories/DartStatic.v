(** The static rules of Dart for the trees that [dart_file] (DartSyntax.v) reads: names and scopes, types, assignments,
    calls, constructors, interfaces, the flow of statements.  Written from the Dart language specification; nothing here
    refers to the generator.  A file that passes compiles; the rules are at places stricter than those of Dart.

    Simplifications: type inference is that of the constructs that occur; generic types are invariant; a reassigned
    parameter keeps its declared type; a local function has one parameter.  Reserved words as names are refused already
    by [dart_file].

    The packages tech_paws_buffers and tech_paws_runtime are not part of /repo.  What the generated code uses of them is
    given by [known], [lib_codec], [interface] and [lib_member].  [ext] are the classes that other imported files declare,
    each with its codecs and its factory.  These belong to the trusted base. *)
Require Import Coq.Strings.String Coq.Strings.Ascii.
Require Import Coq.NArith.NArith Coq.Lists.List Coq.Bool.Bool Coq.Arith.PeanoNat.
Require Import Verif.Code Verif.LexSpec Verif.DartSyntax.
Require Verif.ConstSpec Verif.DartConst Verif.RustDefault Verif.DartRun.
Require Verif.DartSem.
Import DartSem(find_class, find_enum, find_const, dart_prims, prim_of, strip, param_list, is_this).
Import ConstSpec(dart_plain, dart_object). Import RustDefault(distinct). Import DartRun(top_names).
Import DartConst(digits_only, member_names, holder).
Import ListNotations.
Local Open Scope string_scope.
Local Open Scope list_scope.

(** ** Types *)

Definition t0 (n : string) : dty := DTy n [].
Fixpoint same_ty (a b : dty) {struct a} : bool :=
  match a, b with
  | DTy n l, DTy m k =>
      String.eqb n m &&
      (fix go l k := match l, k with
                     | [], [] => true
                     | x :: l', y :: k' => same_ty x y && go l' k'
                     | _, _ => false
                     end) l k
  end.
(** [T?], the type of null, and the type of a function with one parameter. *)
Definition nullable (t : dty) : dty := DTy "?" [t].
Definition null_ty : dty := t0 "Null".
Definition fun_ty (a r : dty) : dty := DTy "Function" [a; r].

Definition head_of (t : dty) : string := match t with DTy n _ => n end.
Fixpoint assoc {A} (x : string) (l : list (string * A)) : option A :=
  match l with [] => None | (y, a) :: l' => if String.eqb x y then Some a else assoc x l' end.

(** A member: a variable with its type, and whether it can be set; a method with the types of its positional, optional
    positional and required named parameters and of its result. *)
Inductive mem : Type :=
| Var (t : dty) (set : bool)
| Fun (ps opt : list dty) (named : list (string * dty)) (r : dty).

(** ** The libraries *)

Definition plain_types : list string :=
  ["int"; "double"; "bool"; "String"; "void"; "Object"; "BytesReader"; "BytesWriter"; "StateError"; "TechPawsRuntimeRpcScheduler";
   "TechPawsRuntimeRpcReadTask"; "TechPawsRuntimeRpcMethodBuffer"; "TechPawsRpcBufferStatus"].
Definition generic_types : list string := ["List"; "Future"; "Stream"; "Completer"; "StreamController"].
Definition kinds : list string := ["IntoBuffers"; "EmplaceToBuffers"; "BuffersFactory"].
(** The names of the libraries that the code below gives a meaning. *)
Definition known : list string :=
  plain_types ++ generic_types ++ kinds ++
  ["Map"; "Null"; "Function"; "?"; "override"; "rotateMethodId"; "IntIntoBuffers"; "DoubleIntoBuffers"; "BoolIntoBuffers"; "StringIntoBuffers";
   "StringBuffersFactory"; "ListIntoBuffers"; "ListEmplaceToBuffers"; "ListBuffersFactory"].

Definition prim_ty (p : string) : dty :=
  if String.eqb p "Bool" then t0 "bool" else if String.eqb p "Float" || String.eqb p "Double" then t0 "double" else t0 "int".

(** The interfaces that codecs and factories implement. *)
Definition interface (i : dty) : list (string * mem) :=
  match i with
  | DTy k [t] =>
      let others := [("write", Fun [t0 "BytesWriter"; t] [] [] (t0 "void")); ("skip", Fun [t0 "BytesReader"; t0 "int"] [] [] (t0 "void"))] in
      if String.eqb k "IntoBuffers" then ("read", Fun [t0 "BytesReader"] [] [] t) :: others
      else if String.eqb k "EmplaceToBuffers" then ("read", Fun [t0 "BytesReader"; t] [] [] (t0 "void")) :: others
      else if String.eqb k "BuffersFactory" then [("createDefault", Fun [] [] [] t)]
      else []
  | _ => []
  end.

Definition scheduler_args (f : dty) : list dty := [t0 "String"; t0 "int"; t0 "TechPawsRuntimeRpcMethodBuffer"; f].
Definition lib_member (n : string) (ts : list dty) (m : string) (targs : list dty) : option mem :=
  match ts, targs with
  | [], [] =>
      if String.eqb n "BytesReader" then option_map (fun p => Fun [] [] [] (prim_ty p)) (prim_of "read" m)
      else if String.eqb n "BytesWriter" then option_map (fun p => Fun [prim_ty p] [] [] (t0 "void")) (prim_of "write" m)
      else if String.eqb n "TechPawsRpcBufferStatus" then assoc m [("value", Var (t0 "int") false)]
      else if String.eqb n "TechPawsRuntimeRpcScheduler" then
        assoc m
          [ ("syncWrite", Fun (scheduler_args (fun_ty (t0 "BytesWriter") (t0 "void"))) [] [] (t0 "void"));
            ("write", Fun (scheduler_args (fun_ty (t0 "BytesWriter") (t0 "void"))) [] [] (t0 "void"));
            ("read", Fun (scheduler_args (fun_ty (t0 "BytesReader") (t0 "void"))) [] [] (t0 "TechPawsRuntimeRpcReadTask"));
            ("loopSyncGroup", Fun [] [] [] (t0 "void"));
            ("disconnect", Fun [t0 "TechPawsRuntimeRpcReadTask"] [] [] (t0 "void")) ]
      else None
  | [], [t] =>
      if String.eqb n "TechPawsRuntimeRpcScheduler" && String.eqb m "syncRead"
      then Some (Fun (scheduler_args (fun_ty (t0 "BytesReader") t)) [] [] t) else None
  | [t], [] =>
      if String.eqb n "Completer" then assoc m [("complete", Fun [] [t] [] (t0 "void")); ("future", Var (DTy "Future" [t]) false)]
      else if String.eqb n "StreamController" then
        assoc m [("add", Fun [t] [] [] (t0 "void")); ("close", Fun [] [] [] (DTy "Future" [t0 "Object"])); ("stream", Var (DTy "Stream" [t]) false)]
      else None
  | [_; v], [] => if String.eqb n "Map" then assoc m [("remove", Fun [t0 "Object"] [] [] (nullable v))] else None
  | _, _ => None
  end.

(** ** Names *)

(** Variables: the type, and whether it can be set; [None] where a variable of the block is not declared yet. *)
Definition tenv := list (string * option (dty * bool)).

Section File.
Variable ext : list string.
Variable items : list ditem.

(** A codec class of the libraries: what it implements. *)
Definition lib_codec (c : string) (ts : list dty) : option dty :=
  if among known c then
    match ts with
    | [] => assoc c [("IntIntoBuffers", DTy "IntoBuffers" [t0 "int"]); ("DoubleIntoBuffers", DTy "IntoBuffers" [t0 "double"]);
                     ("BoolIntoBuffers", DTy "IntoBuffers" [t0 "bool"]); ("StringIntoBuffers", DTy "IntoBuffers" [t0 "String"]);
                     ("StringBuffersFactory", DTy "BuffersFactory" [t0 "String"])]
    | [t] => assoc c [("ListIntoBuffers", DTy "IntoBuffers" [DTy "List" [t]]); ("ListEmplaceToBuffers", DTy "EmplaceToBuffers" [DTy "List" [t]]);
                      ("ListBuffersFactory", DTy "BuffersFactory" [DTy "List" [t]])]
    | _ => None
    end
  else
    let foreign k p := if among ext p then Some (DTy k [DTy p ts]) else None in
    match strip "IntoBuffers" c with
    | Some p => foreign "IntoBuffers" p
    | None =>
        match strip "EmplaceToBuffers" c with
        | Some p => foreign "EmplaceToBuffers" p
        | None => match strip "BuffersFactory" c with Some p => foreign "BuffersFactory" p | None => None end
        end
    end.
(** The parameters of its constructor. *)
Definition codec_params (c : string) (ts : list dty) : list dty :=
  if among ["ListIntoBuffers"; "ListEmplaceToBuffers"] c then [DTy "IntoBuffers" ts] else [].

(** The class of the file with this name. *)
Fixpoint class_of (n : string) (l : list ditem) : option (option dty * list dmember) :=
  match l with
  | [] => None
  | DClass m i ms :: l' => if String.eqb m n then Some (i, ms) else class_of n l'
  | _ :: l' => class_of n l'
  end.

(** A type outside of any class. *)
Fixpoint type_known (t : dty) : bool :=
  match t with
  | DTy n l =>
      forallb type_known l &&
      if among (top_names items) n then
        match l, class_of n items, find_enum n items with [], Some _, _ | [], _, Some _ => true | _, _, _ => false end
      else if among plain_types n then match l with [] => true | _ => false end
      else if among generic_types n then match l with [_] => true | _ => false end
      else if String.eqb n "Map" then match l with [_; _] => true | _ => false end
      else if among kinds n then match l with [_] => true | _ => false end
      else among ext n
  end.

(** The type of a variable by its initialiser. *)
Definition init_ty (e : dex) : option dty :=
  match e with
  | DStr _ => Some (t0 "String")
  | DConst n ts _ _ | DPost (DName n ts) [XCall _ _] | DPost (DName n ts) [XMeth _ _ _ _] => Some (DTy n ts)
  | DMap [k; v] => Some (DTy "Map" [k; v])
  | _ => None
  end.
Fixpoint field_ty (x : string) (ms : list dmember) : option (dty * bool) :=
  match ms with
  | [] => None
  | MField t n _ :: ms' | MLate t n :: ms' => if String.eqb x n then Some (t, true) else field_ty x ms'
  | MFinal (Some t) n _ :: ms' => if String.eqb x n then Some (t, false) else field_ty x ms'
  | MFinal None n (Some e) :: ms' => if String.eqb x n then option_map (fun t => (t, false)) (init_ty e) else field_ty x ms'
  | _ :: ms' => field_ty x ms'
  end.
Definition param_ty (ms : list dmember) (p : dparam) : option (string * dty) :=
  match p with
  | (Some t, x) => Some (x, t)
  | (None, x) => option_map (fun f => (x, fst f)) (field_ty x ms)
  end.
Fixpoint all_some {A} (l : list (option A)) : option (list A) :=
  match l with
  | [] => Some []
  | Some a :: l' => option_map (cons a) (all_some l')
  | None :: _ => None
  end.
Definition signature (ms : list dmember) (ps : dparams) (r : dty) : option mem :=
  match ps with
  | PPos l _ => option_map (fun ts => Fun (map snd ts) [] [] r) (all_some (map (param_ty ms) l))
  | PNamed l => option_map (fun ts => Fun [] [] ts r) (all_some (map (param_ty ms) l))
  end.
(** The members of an object and of a class. *)
Fixpoint inst_member (all : list dmember) (m : string) (ms : list dmember) : option mem :=
  match ms with
  | [] => None
  | MGet t n _ :: ms' => if String.eqb m n then Some (Var t false) else inst_member all m ms'
  | MMeth false r n ps _ :: ms' => if String.eqb m n then signature all ps r else inst_member all m ms'
  | _ :: ms' => inst_member all m ms'
  end.
Definition object_member (ms : list dmember) (m : string) : option mem :=
  match field_ty m ms with Some (t, s) => Some (Var t s) | None => inst_member ms m ms end.
Fixpoint class_member (all : list dmember) (m : string) (ms : list dmember) : option mem :=
  match ms with
  | [] => None
  | MStatic n e :: ms' => if String.eqb m n then option_map (fun t => Var t false) (init_ty e) else class_member all m ms'
  | MMeth true r n ps _ :: ms' => if String.eqb m n then signature all ps r else class_member all m ms'
  | _ :: ms' => class_member all m ms'
  end.
(** The constructors: without a name, and with one. *)
Fixpoint ctor_of (all : list dmember) (c : string) (ms : list dmember) : option mem :=
  match ms with
  | [] => if existsb (fun m => match m with MInitCtor _ _ _ => true | _ => false end) all then None else Some (Fun [] [] [] (t0 c))
  | MConstCtor _ :: _ => Some (Fun [] [] [] (t0 c))
  | MCtor _ ps _ :: _ => signature all ps (t0 c)
  | _ :: ms' => ctor_of all c ms'
  end.
Fixpoint named_ctor (c m : string) (ms : list dmember) : option mem :=
  match ms with
  | [] => None
  | MInitCtor _ n _ :: ms' => if String.eqb m n then Some (Fun [] [] [] (t0 c)) else named_ctor c m ms'
  | _ :: ms' => named_ctor c m ms'
  end.
Definition has_const_ctor (ms : list dmember) : bool := existsb (fun m => match m with MConstCtor _ => true | _ => false end) ms.

(** [x.m] for an [x] of type [t]. *)
Definition member_of (t : dty) (m : string) (targs : list dty) : option mem :=
  match t with
  | DTy n ts =>
      if among (top_names items) n then
        match ts, targs, class_of n items with [], [], Some (_, ms) => object_member ms m | _, _, _ => None end
      else
        match lib_codec n ts with
        | Some i => match targs with [] => assoc m (interface i) | _ => None end
        | None => lib_member n ts m targs
        end
  end.
(** [N.m] for a class or enum [N]. *)
Definition static_of (n : string) (ts : list dty) (m : string) : option mem :=
  if among (top_names items) n then
    match ts, class_of n items, find_enum n items with
    | [], Some (_, ms), _ => match class_member ms m ms with Some s => Some s | None => named_ctor n m ms end
    | [], _, Some names => if among names m then Some (Var (t0 n) false) else None
    | _, _, _ => None
    end
  else
    match ts with
    | [] =>
        if (String.eqb n "TechPawsRuntimeRpcMethodBuffer" && among ["server"; "client"] m) || (String.eqb n "TechPawsRpcBufferStatus" && String.eqb m "hasData")
        then Some (Var (t0 n) false) else None
    | [t] => if String.eqb n "StreamController" && String.eqb m "broadcast" then Some (Fun [] [] [] (DTy n ts)) else None
    | _ => None
    end.
(** [N(..)]. *)
Definition maker_of (n : string) (ts : list dty) : option mem :=
  if among (top_names items) n then
    match ts, class_of n items with [], Some (_, ms) => ctor_of ms n ms | _, _ => None end
  else
    match ts with
    | [] =>
        if String.eqb n "StateError" then Some (Fun [t0 "String"] [] [] (t0 n))
        else if String.eqb n "rotateMethodId" then Some (Fun [t0 "int"] [] [] (t0 "int"))
        else None
    | [t] => if String.eqb n "Completer" then Some (Fun [] [] [] (DTy n ts)) else None
    | _ => None
    end.
(** [const N(..)]. *)
Definition const_of (n : string) (ts : list dty) : option mem :=
  if among (top_names items) n then
    match ts, class_of n items with [], Some (_, ms) => if has_const_ctor ms then Some (Fun [] [] [] (t0 n)) else None | _, _ => None end
  else match lib_codec n ts with Some _ => Some (Fun (codec_params n ts) [] [] (DTy n ts)) | None => None end.

(** What the class of a type implements. *)
Definition implemented (t : dty) : option dty :=
  match t with
  | DTy n ts =>
      if among (top_names items) n then match ts, class_of n items with [], Some (i, _) => i | _, _ => None end
      else lib_codec n ts
  end.
Definition subtype (a b : dty) : bool :=
  same_ty a b || among ["Object"; "void"] (head_of b) && negb (among ["?"; "Null"; "void"] (head_of a)) ||
  (String.eqb (head_of b) "void" && same_ty a null_ty) ||
  match b with DTy n [b'] => String.eqb n "?" && (same_ty a null_ty || same_ty a b') | _ => false end ||
  match implemented a with Some i => same_ty i b | None => false end.

(** A call with arguments, each with a label or without and with the types it can have. *)
Definition targ : Type := (option string * (dty -> bool))%type.
Fixpoint positional_ok (ps opt : list dty) (args : list targ) : bool :=
  match ps, args with
  | p :: ps', (None, f) :: args' => f p && positional_ok ps' opt args'
  | [], [] => true
  | [], (None, f) :: args' =>
      match opt with o :: opt' => f o && match args' with [] => true | _ => false end | [] => false end
  | _, _ => false
  end.
Definition call_ok (s : mem) (args : list targ) : option dty :=
  match s with
  | Var _ _ => None
  | Fun ps opt [] r => if positional_ok ps opt args then Some r else None
  | Fun ps opt named r =>
      match ps with
      | [] =>
          if Nat.eqb (List.length args) (List.length named) && distinct (map fst named) &&
             forallb (fun '(x, t) => existsb (fun a => match a with (Some y, f) => String.eqb x y && f t | _ => false end) args) named
          then Some r else None
      | _ => None
      end
  end.

Section Code.
(** The class whose members are in scope, and whether there is a [this]. *)
Variable ms : list dmember.
Variable inst : bool.

Definition hidden (n : string) (en : tenv) : bool := match assoc n en with Some _ => true | None => among (member_names ms) n end.
(** A type in the code: its names are not hidden by variables or members. *)
Fixpoint visible_ty (en : tenv) (t : dty) : bool := match t with DTy n l => negb (hidden n en) && forallb (visible_ty en) l end.
Definition type_ok (en : tenv) (t : dty) : bool := type_known t && visible_ty en t.

(** A name: a place with the type of its value and the type it can be set to, a name of another kind, an error. *)
Definition place : Type := (dty * option dty)%type.
Inductive named : Type := Place (p : place) | Other | Wrong.
Definition place_of (t : dty) (s : bool) : place := (t, if s then Some t else None).
Definition own (n : string) : option (bool * mem) :=
  match class_member ms n ms with
  | Some m => Some (true, m)
  | None => match object_member ms n with Some m => Some (inst, m) | None => None end
  end.
Definition name_ty (n : string) (en : tenv) : named :=
  match assoc n en with
  | Some (Some (t, s)) => Place (place_of t s)
  | Some None => Wrong
  | None =>
      if String.eqb n "null" then Place (null_ty, None)
      else if among ["true"; "false"] n then Place (t0 "bool", None)
      else
        match own n with
        | Some (true, Var t s) => Place (place_of t s)
        | Some (true, _) => Other
        | Some (false, _) => Wrong
        | None =>
            match find_const n items with
            | Some e => match init_ty e with Some t => Place (t, None) | None => Wrong end
            | None => Other
            end
        end
  end.

(** The names of [$name] in a string; none of [${] and escapes. *)
Definition identc (c : ascii) : bool := let n := nat_of_ascii c in
  ((48 <=? n) && (n <=? 57) || (65 <=? n) && (n <=? 90) || (97 <=? n) && (n <=? 122) || (n =? 95))%nat.
Fixpoint word_at (s : string) : string := match s with String c s' => if identc c then String c (word_at s') else "" | "" => "" end.
Fixpoint dollars (s : string) : list string :=
  match s with
  | "" => []
  | String c s' => if Ascii.eqb c "$" then word_at s' :: dollars s' else dollars s'
  end.
Definition no_escapes (s : string) : bool := dart_plain (String.concat "" (map (fun c => if Ascii.eqb c "$" then "" else String c "") (list_ascii_of_string s))).
Definition text_ok (s : string) (en : tenv) : bool :=
  no_escapes s && forallb (fun n => match name_ty n en with Place _ => true | _ => false end) (dollars s).

Definition int_literal (e : dex) : bool := match e with DNum _ => true | _ => false end.
Definition is_const (e : dex) : bool := match e with DNum _ | DFloat _ _ | DConst _ _ _ _ => true | _ => false end.
(** [have] where [want] is expected. *)
Definition fits (e : dex) (have want : dty) : bool := subtype have want || (int_literal e && same_ty want (t0 "double")).

Inductive flow : Type := Goes | Breaks | Exits.
Definition locals (l : list dst) : list string := flat_map (fun s => match s with DFinal x _ => [x] | _ => [] end) l.
(** A block: its variables are hidden until they are declared. *)
Definition chain (f : dst -> tenv -> option (tenv * flow)) : list dst -> tenv -> option flow :=
  fix go l en :=
    match l with
    | [] => Some Goes
    | s :: l' =>
        match f s en with
        | Some (en', w) => match go l' en' with Some w' => Some (match w with Goes => w' | _ => w end) | None => None end
        | None => None
        end
    end.
Definition block (f : dst -> tenv -> option (tenv * flow)) (l : list dst) (en : tenv) : option flow :=
  if distinct (locals l) then chain f l (map (fun x => (x, None)) (locals l) ++ en) else None.

(** The labels of a [switch]: numbers, or all the members of an enum. *)
Definition label (e : dex) : option string :=
  match e with DNum w => Some w | DPost (DName _ []) [XField f] => Some f | _ => None end.
Definition covers (t : dty) (labels : list (option string)) : bool :=
  existsb (fun l => match l with None => true | Some _ => false end) labels ||
  match t with
  | DTy n [] => match find_enum n items with Some names => forallb (fun x => existsb (fun l => match l with Some y => String.eqb x y | None => false end) labels) names | None => false end
  | _ => false
  end.
Definition labels_ok (l : list (option dex)) : bool :=
  let ls := flat_map (fun o => match o with Some e => match label e with Some x => [x] | None => [] end | None => [] end) l in
  distinct ls && forallb (fun o => match o with Some e => match label e with Some _ => true | None => false end | None => true end) l &&
  forallb (fun o => match o with Some _ => true | None => false end) (removelast l).

(** An argument where [want] is expected. *)
Definition arg_ok (tx : dex -> tenv -> option place) (ts : dst -> dty -> tenv -> option (tenv * flow)) (en : tenv) (e : dex) (want : dty) : bool :=
  match e with
  | DFun x body =>
      match want with
      | DTy n [a; r] =>
          String.eqb n "Function" &&
          match block (fun s en => ts s r en) body ((x, Some (a, true)) :: en) with
          | Some Exits => true
          | Some Goes => String.eqb (head_of r) "void"
          | _ => false
          end
      | _ => false
      end
  | _ => match tx e en with Some (t, _) => fits e t want | None => false end
  end.
Definition args_ok (tx : dex -> tenv -> option place) (ts : dst -> dty -> tenv -> option (tenv * flow)) (en : tenv) (s : option mem) (args : list (option string * dex)) : option dty :=
  match s with
  | Some s => call_ok s (map (fun a => (fst a, arg_ok tx ts en (snd a))) args)
  | None => None
  end.
Definition value (o : option dty) : option place := option_map (fun t => (t, None)) o.

Fixpoint tex (e : dex) (en : tenv) {struct e} : option place :=
  match e with
  | DNum w => if digits_only w && (positional 10 w <? 2 ^ 63)%N then Some (t0 "int", None) else None
  | DFloat a b => if digits_only a && digits_only b then Some (t0 "double", None) else None
  | DStr s => if text_ok s en then Some (t0 "String", None) else None
  | DNeg e => match tex e en with Some (t, _) => if among ["int"; "double"] (head_of t) then Some (t, None) else None | None => None end
  | DName n [] => match name_ty n en with Place p => Some p | _ => None end
  | DName _ _ => None
  | DConst n ts args _ =>
      if negb (hidden n en) && forallb (type_ok en) ts && forallb (fun '(_, e) => is_const e) args then
        value (args_ok tex tst en (const_of n ts) args)
      else None
  | DMap [k; v] => if type_ok en k && type_ok en v then Some (DTy "Map" [k; v], None) else None
  | DMap _ => None
  | DFun _ _ => None
  | DPost h ps =>
      let go := fix go ps p := match ps with [] => Some p | x :: ps' => match tpost x p en with Some p' => go ps' p' | None => None end end in
      match h with
      | DName n ts =>
          match name_ty n en, ts, ps with
          | Place p, [], _ => go ps p
          | Other, _, x :: ps' =>
              if forallb (type_ok en) ts then match tnamed n ts x en with Some p => go ps' p | None => None end else None
          | _, _, _ => None
          end
      | _ => match tex h en with Some p => go ps p | None => None end
      end
  | DEq _ a b => match tex a en, tex b en with Some _, Some _ => Some (t0 "bool", None) | _, _ => None end
  | DSet a b =>
      match tex a en, tex b en with
      | Some (_, Some w), Some (t, _) => if fits b t w then Some (t, None) else None
      | _, _ => None
      end
  end
with tpost (x : dpost) (p : place) (en : tenv) {struct x} : option place :=
  match x with
  | XField f => match member_of (fst p) f [] with Some (Var t s) => Some (place_of t s) | _ => None end
  | XCall _ _ => None
  | XMeth m ts args _ =>
      if forallb (type_ok en) ts then
        value (args_ok tex tst en (member_of (fst p) m ts) args)
      else None
  | XOpt m args _ =>
      match fst p with
      | DTy n [t] => if String.eqb n "?" then value (option_map nullable (args_ok tex tst en (member_of t m []) args)) else None
      | _ => None
      end
  | XIndex e =>
      match fst p with
      | DTy n [k; v] => if String.eqb n "Map" && arg_ok tex tst en e k then Some (nullable v, Some v) else None
      | _ => None
      end
  end
(** [N.x], [N(..)], [N.m(..)] and [m(..)] for a name that is no variable. *)
with tnamed (n : string) (ts : list dty) (x : dpost) (en : tenv) {struct x} : option place :=
  match x with
  | XField f => if hidden n en then None else match static_of n ts f with Some (Var t s) => Some (place_of t s) | _ => None end
  | XCall args _ =>
      value (args_ok tex tst en
        (match own n with Some (true, m) => match ts with [] => Some m | _ => None end | Some (false, _) => None | None => maker_of n ts end) args)
  | XMeth m [] args _ =>
      if hidden n en then None
      else value (args_ok tex tst en (static_of n ts m) args)
  | _ => None
  end
(** A statement in a function with the result [r]: what is declared after it, and where it leads. *)
with tst (s : dst) (r : dty) (en : tenv) {struct s} : option (tenv * flow) :=
  match s with
  | DFinal x e => match tex e en with Some (t, _) => if String.eqb (head_of t) "void" then None else Some ((x, Some (t, false)) :: en, Goes) | None => None end
  | DExpr e => match tex e en with Some _ => Some (en, Goes) | None => None end
  | DReturn None => if String.eqb (head_of r) "void" then Some (en, Exits) else None
  | DReturn (Some e) =>
      match tex e en with Some (t, _) => if negb (String.eqb (head_of r) "void") && fits e t r then Some (en, Exits) else None | None => None end
  | DThrow e => match tex e en with Some (t, _) => if subtype t (t0 "Object") then Some (en, Exits) else None | None => None end
  | DBreak => Some (en, Breaks)
  | DIf c body =>
      match tex c en with
      | Some (t, _) =>
          if same_ty t (t0 "bool") then
            match block (fun s en => tst s r en) body en with Some Breaks => None | Some _ => Some (en, Goes) | None => None end
          else None
      | None => None
      end
  | DFor x a b c body =>
      match name_ty b en with
      | Place (t, _) =>
          if same_ty t (t0 "int") && digits_only a && digits_only c then
            match block (fun s en => tst s r en) body ((x, Some (t0 "int", true)) :: en) with Some _ => Some (en, Goes) | None => None end
          else None
      | _ => None
      end
  | DSwitch e cases =>
      match tex e en with
      | Some (t, _) =>
          let flows := map (fun '(o, body) => block (fun s en => tst s r en) body en) cases in
          if labels_ok (map fst cases) && covers t (map (fun '(o, _) => match o with Some c => label c | None => None end) cases) &&
             forallb (fun '(o, _) => match o with Some c => match tex c en with Some (t', _) => same_ty t' t | None => false end | None => true end) cases &&
             forallb (fun w => match w with Some Breaks | Some Exits => true | _ => false end) flows
          then
            Some (en, if forallb (fun w => match w with Some Exits => true | _ => false end) flows then Exits else Goes)
          else None
      | None => None
      end
  end.

(** ** Members *)

Definition body_ok (b : dbody) (r : dty) (en : tenv) : bool :=
  match b with
  | BArrow e => match tex e en with Some (t, _) => String.eqb (head_of r) "void" || fits e t r | None => false end
  | BBlock l =>
      match block (fun s en => tst s r en) l en with
      | Some Exits => true
      | Some Goes => String.eqb (head_of r) "void"
      | _ => false
      end
  end.
Definition param_env (ps : dparams) : tenv :=
  flat_map (fun p => match fst p with Some t => [(snd p, Some (t, true))] | None => [] end) (param_list ps).
Definition private (n : string) : bool := match n with String c _ => Ascii.eqb c "_" | "" => false end.
Definition params_ok (ps : dparams) : bool :=
  distinct (map snd (param_list ps)) &&
  forallb (fun p => match fst p with Some t => type_ok [] t && negb (String.eqb (head_of t) "void") | None => true end) (param_list ps) &&
  match ps with PNamed l => negb (existsb (fun p => private (snd p)) l) | _ => true end.
End Code.

(** The fields that a constructor has to set. *)
Definition open_fields (ms : list dmember) : list string :=
  flat_map (fun m => match m with MField _ n None | MFinal _ n None => [n] | _ => [] end) ms.
Definition member_ok (c : string) (ms : list dmember) (m : dmember) : bool :=
  match m with
  | MAnnot n => String.eqb n "override" && negb (among (member_names ms) n)
  | MConstCtor n =>
      String.eqb n c && match open_fields ms with [] => true | _ => false end &&
      forallb (fun m => match m with MField _ _ _ | MLate _ _ => false | MFinal _ _ (Some e) => is_const e | _ => true end) ms
  | MCtor n ps b =>
      String.eqb n c && params_ok ms ps && forallb is_this (param_list ps) &&
      forallb (fun x => among (map snd (param_list ps)) x) (open_fields ms) && forallb (fun p => among (open_fields ms) (snd p)) (param_list ps) &&
      match b with Some l => body_ok ms true (BBlock l) (t0 "void") [] | None => true end
  | MInitCtor n m inits =>
      String.eqb n c && negb (among (flat_map (fun x => match x with MStatic n _ | MMeth true _ n _ _ => [n] | _ => [] end) ms) m) &&
      distinct (map fst inits) && forallb (fun x => among (map fst inits) x) (open_fields ms) &&
      forallb (fun '(x, e) => among (open_fields ms) x &&
        match field_ty x ms, tex ms false e [] with Some (t, _), Some (t', _) => fits e t' t | _, _ => false end) inits
  | MStatic n e => match init_ty e, tex ms false e [] with Some t, Some (t', _) => same_ty t t' | _, _ => false end
  | MLate t n => type_ok ms [] t && negb (String.eqb (head_of t) "void")
  | MFinal (Some t) n None => type_ok ms [] t && negb (String.eqb (head_of t) "void")
  | MFinal (Some t) n (Some e) => type_ok ms [] t && match tex ms false e [] with Some (t', _) => fits e t' t | None => false end
  | MFinal None n (Some e) => match init_ty e, tex ms false e [] with Some t, Some (t', _) => same_ty t t' | _, _ => false end
  | MFinal None n None => false
  | MField t n None => type_ok ms [] t && negb (String.eqb (head_of t) "void")
  | MField t n (Some e) => type_ok ms [] t && match tex ms false e [] with Some (t', _) => fits e t' t | None => false end
  | MGet t n e => type_ok ms [] t && match tex ms true e [] with Some (t', _) => fits e t' t | None => false end
  | MMeth static r n ps b =>
      type_ok ms [] r && params_ok ms ps && negb (existsb is_this (param_list ps)) && body_ok ms (negb static) b r (param_env ps)
  end.
Definition same_mem (a b : mem) : bool :=
  let same l k := match l, k with
                  | Fun ps opt named r, Fun ps' opt' named' r' => same_ty (DTy "" (r :: ps)) (DTy "" (r' :: ps'))
                  | _, _ => false
                  end in
  match a, b with
  | Fun _ [] [] _, Fun _ [] [] _ => same a b
  | _, _ => false
  end.
(** Each method of the interface is there. *)
Definition implements_ok (ms : list dmember) (i : dty) : bool :=
  match interface i with
  | [] => false
  | l => forallb (fun '(n, s) => match object_member ms n with Some s' => same_mem s s' | None => false end) l
  end.
Definition ctor_names (ms : list dmember) : list string :=
  flat_map (fun m => match m with MConstCtor _ | MCtor _ _ _ => [""] | MInitCtor _ n _ => [n] | _ => [] end) ms.
Definition class_ok (c : string) (i : option dty) (ms : list dmember) : bool :=
  distinct (member_names ms) && distinct (ctor_names ms) &&
  forallb (fun n => negb (among (c :: dart_object) n)) (member_names ms) &&
  (match open_fields ms with [] => true | _ => match ctor_names ms with [] => false | _ => true end end) &&
  forallb (member_ok c ms) ms &&
  match i with Some t => type_ok ms [] t && implements_ok ms t | None => true end.
Definition static_item (i : ditem) : bool :=
  match i with
  | DClass c i ms => match i with None => holder ms | Some _ => false end || class_ok c i ms
  | DEnum n names => negb (match names with [] => true | _ => false end) && distinct names && forallb (fun x => negb (among (n :: "index" :: "values" :: dart_object) x)) names
  | _ => true
  end.
(** The file compiles: the constants by the rules of [DartConst]. *)
Definition compiles : bool :=
  forallb (fun n => negb (among (top_names items) n)) known && DartConst.consts_compile items && forallb static_item items.
End File.
