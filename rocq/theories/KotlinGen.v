(** Model of the Kotlin generator: src/kotlin/generator.rs:1-257 and src/kotlin/ir.rs:1-453.
    Writing a token is a list of writer calls ([wcmd] of Writer.v); [show_cmds] runs them on
    [Writer::default()].  [panic!] and [unwrap] on [None] are [Panic]. *)
Require Import Coq.Strings.String Coq.Strings.Ascii.
Require Import Coq.NArith.NArith Coq.ZArith.ZArith Coq.Lists.List Coq.Bool.Bool.
Require Import Verif.Base Verif.F64 Verif.Ast Verif.Writer Verif.CaseConv.
Import ListNotations.
Local Open Scope string_scope.

(** src/kotlin/ir.rs:10-70 [enum KotlinIR]. *)
Inductive kotlin_ir : Type :=
| KObject (id : string) (body extends : list kotlin_ir)
| KClass (id : string) (is_data_class : bool) (extends fields body : list kotlin_ir)
| KInterface (id : string) (is_sealed : bool) (body : list kotlin_ir)
| KId (id : string)
| KValDeclaration (id : string) (is_const : bool) (ty : kotlin_ir) (value : option kotlin_ir)
| KDeclaration (body : kotlin_ir) (separator : option string)
| KTypeId (ty : type_id)
| KConstValueExpr (ty : type_id) (value : const_value)
| KDefaulConstValueExpr (ty : type_id)
| KCompanionObject (body : list kotlin_ir)
| KGap
| KFunInline (id : string) (arguments : list kotlin_ir) (return_type body : kotlin_ir)
| KFun (id : string) (arguments : list kotlin_ir) (return_type : kotlin_ir) (body : list kotlin_ir)
| KCall (id : string) (arguments : list kotlin_ir)
| KAssignArgument (id : string) (value : kotlin_ir).

(** The variant names that [IntoStaticStr] gives, src/kotlin/ir.rs:10, 106-107. *)
Definition kind (t : kotlin_ir) : string :=
  match t with
  | KObject _ _ _ => "Object"
  | KClass _ _ _ _ _ => "Class"
  | KInterface _ _ _ => "Interface"
  | KId _ => "Id"
  | KValDeclaration _ _ _ _ => "ValDeclaration"
  | KDeclaration _ _ => "Declaration"
  | KTypeId _ => "TypeId"
  | KConstValueExpr _ _ => "ConstValueExpr"
  | KDefaulConstValueExpr _ => "DefaulConstValueExpr"
  | KCompanionObject _ => "CompanionObject"
  | KGap => "Gap"
  | KFunInline _ _ _ _ => "FunInline"
  | KFun _ _ _ _ => "Fun"
  | KCall _ _ => "Call"
  | KAssignArgument _ _ => "AssignArgument"
  end.

(** src/kotlin/ir.rs:94-102. *)
Definition gaps_pairs : list (string * string) :=
  [ ("Object", "Object"); ("Object", "Declaration"); ("Object", "Class"); ("Class", "Declaration");
    ("Class", "Class"); ("Class", "Interface"); ("Object", "Interface") ].

(** src/kotlin/ir.rs:104-114: the blank lines between two neighbours. *)
Definition gap_cmds (last_token : option string) (token : string) : list wcmd :=
  match last_token with
  | None => []
  | Some last =>
      flat_map (fun pair =>
        if (String.eqb (fst pair) last && String.eqb (snd pair) token)
           || (String.eqb (snd pair) last && String.eqb (fst pair) token)
        then [ Do NewLine ] else []) gaps_pairs
  end.

(** src/kotlin/ir.rs:327-370 [generate_type_id]. *)
Fixpoint generate_type_id (t : type_id) : res string :=
  match t with
  | TyInteger _ size signed =>
      match size, signed with
      | 1, true => Ok "Byte"
      | 4, true => Ok "Int"
      | 8, true => Ok "Long"
      | 1, false => Ok "UByte"
      | 4, false => Ok "UInt"
      | 8, false => Ok "ULong"
      | _, _ => Panic
      end
  | TyNumber _ size =>
      match size with
      | 4 => Ok "Float"
      | 8 => Ok "Double"
      | _ => Panic
      end
  | TyBool _ => Ok "Boolean"
  | TyChar _ => Ok "Char"
  | TyOther id =>
      if String.eqb id "GroupAddress" then Ok "ULong"
      else if String.eqb id "CommandsBufferAddress" then Ok "ULong"
      else Ok id
  | TyGeneric id generics =>
      let* args := mapM generate_type_id generics in
      if String.eqb id "Vec" then Ok ("List<" ++ join ", " args ++ ">")
      else Ok (id ++ "<" ++ join ", " args ++ ">")
  end.

(** [format!("{}.0", value)] if [value.floor() == value], else [format!("{}", value)]; infinity is
    its own floor. *)
Definition show_float (value : f64) : string :=
  if f64_is_integral value then show_f64 value ++ ".0" else show_f64 value.

(** src/kotlin/ir.rs:372-415 [generate_const_value]. *)
Definition generate_const_value (t : type_id) (node : const_value) : res string :=
  match node with
  | ConstLiteral lit _ =>
      match lit with
      | StringLit value => Ok (dq ++ value ++ dq)
      | IntLit value =>
          match t with
          | TyOther id =>
              if String.eqb id "GroupAddress" then Ok (show_Z value ++ "UL")
              else if String.eqb id "CommandsBufferAddress" then Ok (show_Z value ++ "UL")
              else Panic
          | TyInteger _ size signed =>
              match size, signed with
              | 1, true => Ok (show_Z value)
              | 4, true => Ok (show_Z value)
              | 8, true => Ok (show_Z value ++ "L")
              | 1, false => Ok (show_Z value ++ "U")
              | 4, false => Ok (show_Z value ++ "U")
              | 8, false => Ok (show_Z value ++ "UL")
              | _, _ => Panic
              end
          | _ => Panic
          end
      | NumberLit value =>
          match t with
          | TyNumber _ size =>
              match size with
              | 4 => Ok (show_float value ++ "f")
              | 8 => Ok (show_float value)
              | _ => Panic
              end
          | _ => Panic
          end
      | BoolLit value => Ok (show_bool value)
      end
  end.

(** src/kotlin/ir.rs:417-453 [generate_default_const_value]. *)
Definition generate_default_const_value (t : type_id) : res string :=
  match t with
  | TyInteger _ size signed =>
      match size, signed with
      | 1, true => Ok "0"
      | 4, true => Ok "0"
      | 8, true => Ok "0L"
      | 1, false => Ok "0U"
      | 4, false => Ok "0U"
      | 8, false => Ok "0UL"
      | _, _ => Panic
      end
  | TyNumber _ size =>
      match size with
      | 4 => Ok "0f"
      | 8 => Ok "0.0"
      | _ => Panic
      end
  | TyBool _ => Ok "false"
  | TyChar _ => Ok "0"
  | TyOther id =>
      if String.eqb id "String" then Ok (dq ++ dq)
      else if String.eqb id "Vec" then Ok "listOf()"
      else Ok (id ++ ".createDefault()")
  | TyGeneric id generics =>
      if String.eqb id "Vec" then Ok "listOf()"
      else let* args := mapM generate_type_id generics in
           Ok (id ++ ".createDefault<" ++ join ", " args ++ ">()")
  end.

(** Writer calls of which the arguments may panic. *)
Definition rcmds := res (list wcmd).
Definition capp (a b : rcmds) : rcmds := let* x := a in let* y := b in Ok (x ++ y)%list.
Infix "+++" := capp (at level 60, right associativity).

Section Tokens.
  (** [write_token], the function being defined. *)
  Variable write_token : kotlin_ir -> rcmds.

  (** src/kotlin/ir.rs:90-119 [write_tokens]. *)
  Fixpoint write_tokens_from (last_token : option string) (tokens : list kotlin_ir) : rcmds :=
    match tokens with
    | [] => Ok []
    | token :: rest =>
        Ok (gap_cmds last_token (kind token)) +++
        write_token token +++
        write_tokens_from (Some (kind token)) rest
    end.

  (** src/kotlin/ir.rs:78-88 [write_tokens_separated]. *)
  Fixpoint write_tokens_separated (tokens : list kotlin_ir) (separator : string) : rcmds :=
    match tokens with
    | [] => Ok []
    | token :: rest =>
        write_token token +++
        Ok match rest with [] => [] | _ => [ Do (Write separator) ] end +++
        write_tokens_separated rest separator
    end.

  (** src/kotlin/ir.rs:129-132 and 212-215. *)
  Definition write_extends (extends : list kotlin_ir) : rcmds :=
    match extends with
    | [] => Ok []
    | _ => Ok [ Do (Write " : ") ] +++ write_tokens_separated extends ", "
    end.

  (** src/kotlin/ir.rs:134-143 and 217-226. *)
  Definition write_body (body : list kotlin_ir) : rcmds :=
    match body with
    | [] => Ok [ Do NewLine ]
    | _ =>
        Ok [ Do (Write " {"); Do NewLine; PushTab ] +++
        write_tokens_from None body +++
        Ok [ PopTab; Do (Writeln "}") ]
    end.

  (** src/kotlin/ir.rs:262-268 and 286-292. *)
  Definition write_parameters (arguments : list kotlin_ir) : rcmds :=
    match arguments with
    | [] => Ok []
    | _ =>
        Ok [ Do NewLine; PushTab ] +++
        write_tokens_from None arguments +++
        Ok [ PopTab; Do NewLine ]
    end.
End Tokens.

(** src/kotlin/ir.rs:121-325 [write_token]. *)
Fixpoint write_token (token : kotlin_ir) : rcmds :=
  match token with
  | KGap => Ok [ Do NewLine ]
  | KId id => Ok [ Do (Write id) ]
  | KObject id body extends =>
      Ok [ Do WriteTabs; Do (Write ("object " ++ pascal id)) ] +++
      write_extends write_token extends +++
      write_body write_token body
  | KDeclaration body separator =>
      Ok [ Do WriteTabs ] +++
      write_token body +++
      Ok (match separator with Some s => [ Do (Write s) ] | None => [] end ++ [ Do NewLine ])%list
  | KValDeclaration id is_const ty value =>
      Ok ((if is_const then [ Do (Write "const ") ] else []) ++
          [ Do (Write ("val " ++ id)); Do (Write ": ") ])%list +++
      write_token ty +++
      match value with
      | Some value => Ok [ Do (Write " = ") ] +++ write_token value
      | None => Ok []
      end
  | KTypeId ty => let* t := generate_type_id ty in Ok [ Do (Write t) ]
  | KConstValueExpr ty value => let* v := generate_const_value ty value in Ok [ Do (Write v) ]
  | KDefaulConstValueExpr ty => let* v := generate_default_const_value ty in Ok [ Do (Write v) ]
  | KClass id is_data_class extends fields body =>
      Ok ([ Do WriteTabs ] ++
          (if is_data_class then [ Do (Write "data ") ] else []) ++
          [ Do (Write ("class " ++ pascal id ++ "(")) ])%list +++
      match fields with
      | [] => Ok [ Do (Write ")") ]
      | _ =>
          Ok [ Do NewLine; PushTab ] +++
          write_tokens_from write_token None fields +++
          Ok [ PopTab; Do (Write ")") ]
      end +++
      write_extends write_token extends +++
      write_body write_token body
  | KInterface id is_sealed body =>
      Ok ([ Do WriteTabs ] ++
          (if is_sealed then [ Do (Write "sealed ") ] else []) ++
          [ Do (Writeln ("interface " ++ id ++ " {")); PushTab ])%list +++
      write_tokens_from write_token None body +++
      Ok [ PopTab; Do (Writeln "}") ]
  | KCompanionObject body =>
      Ok [ Do (Writeln "companion object {"); PushTab ] +++
      write_tokens_from write_token None body +++
      Ok [ PopTab; Do (Writeln "}") ]
  | KFunInline id arguments return_type body =>
      Ok [ Do WriteTabs; Do (Write ("fun " ++ id ++ "(")) ] +++
      write_parameters write_token arguments +++
      Ok [ Do (Write "): ") ] +++
      write_token return_type +++
      Ok [ Do (Write " = ") ] +++
      write_token body +++
      Ok [ Do NewLine ]
  | KFun id arguments return_type body =>
      Ok [ Do WriteTabs; Do (Write ("fun " ++ id ++ "(")) ] +++
      write_parameters write_token arguments +++
      Ok [ Do (Write "): ") ] +++
      write_token return_type +++
      Ok [ Do (Write " {"); Do NewLine; PushTab ] +++
      write_tokens_from write_token None body +++
      Ok [ PopTab; Do NewLine ]
  | KCall id arguments =>
      Ok [ Do (Write id) ] +++
      match arguments with
      | [] => Ok [ Do (Write "()") ]
      | _ =>
          Ok [ Do (Write "("); Do NewLine; PushTab ] +++
          write_tokens_from write_token None arguments +++
          Ok [ PopTab; Do WriteTabs; Do (Write ")") ]
      end
  | KAssignArgument id value => Ok [ Do (Write (camel id ++ " = ")) ] +++ write_token value
  end.

(** src/kotlin/ir.rs:72-76 [stringify_tokens]. *)
Definition stringify_tokens (tokens : list kotlin_ir) : res string :=
  let* cmds := write_tokens_from write_token None tokens in show_cmds cmds.

(** src/kotlin/generator.rs:22-52 [generate_const_block]. *)
Fixpoint generate_const_block (node : const_node) : kotlin_ir :=
  match node with
  | ConstNode id items =>
      KObject id
        (map (fun item =>
          match item with
          | ConstItemValue id ty value =>
              KDeclaration (KValDeclaration id true (KTypeId ty) (Some (KConstValueExpr ty value)))
                None
          | ConstItemNode node => generate_const_block node
          end) items) []
  end.

(** src/kotlin/generator.rs:10-20 [generate_consts]. *)
Definition generate_consts (ast : list ast_node) : list kotlin_ir :=
  flat_map (fun node =>
    match node with NConst node => [ generate_const_block node ] | _ => [] end) ast.

(** src/kotlin/generator.rs:80-136 [generate_enum_case]. *)
Definition generate_enum_case (enum : enum_node) (case : enum_item) : kotlin_ir :=
  let case_id := en_id enum ++ item_id case in
  match case with
  | ItemEmpty _ _ => KObject case_id [] [ KId (en_id enum) ]
  | ItemTuple _ _ values =>
      KClass case_id true [ KId (en_id enum) ]
        (map (fun iv =>
           KDeclaration
             (KValDeclaration ("p" ++ show_nat (fst iv)) false (KTypeId (tf_type (snd iv))) None)
             (Some ",")) (enumerate values)) []
  | ItemStruct _ _ fields =>
      KClass case_id true [ KId (en_id enum) ]
        (map (fun field =>
           KDeclaration (KValDeclaration (sf_name field) false (KTypeId (sf_type field)) None)
             (Some ",")) fields) []
  end.

(** src/kotlin/generator.rs:170-178 and 225-233: named default arguments. *)
Definition default_arguments (fields : list struct_field) : list kotlin_ir :=
  map (fun field =>
    KDeclaration (KAssignArgument (sf_name field) (KDefaulConstValueExpr (sf_type field)))
      (Some ",")) fields.

(** src/kotlin/generator.rs:138-200 [generate_enum_interface]; [first().unwrap()] of line 143
    panics on an enum without items. *)
Definition generate_enum_interface (node : enum_node) : res kotlin_ir :=
  match en_items node with
  | [] => Panic
  | first_case :: _ =>
      let first_case_id := en_id node ++ item_id first_case in
      Ok (KInterface (en_id node) true
        [ KCompanionObject
            [ KFunInline "createDefault" [] (KTypeId (TyOther (en_id node)))
                match first_case with
                | ItemEmpty _ _ => KId first_case_id
                | ItemTuple _ _ values =>
                    KCall first_case_id
                      (map (fun value =>
                         KDeclaration (KDefaulConstValueExpr (tf_type value)) (Some ",")) values)
                | ItemStruct _ _ fields => KCall first_case_id (default_arguments fields)
                end ] ])
  end.

(** src/kotlin/generator.rs:68-78 [generate_enum_model]. *)
Definition generate_enum_model (node : enum_node) : res (list kotlin_ir) :=
  let* interface := generate_enum_interface node in
  Ok (interface :: map (generate_enum_case node) (en_items node)).

(** src/kotlin/generator.rs:202-257 [generate_struct_model]. *)
Definition generate_struct_model (node : struct_node) (generate_default : bool) : kotlin_ir :=
  KClass (sn_id node)
    (match sn_fields node with [] => false | _ => true end) []
    (map (fun field =>
       KDeclaration (KValDeclaration (camel (sf_name field)) false (KTypeId (sf_type field)) None)
         (Some ",")) (sn_fields node))
    (if generate_default then
       [ KCompanionObject
           [ KFunInline "createDefault" [] (KTypeId (TyOther (sn_id node)))
               (KCall (sn_id node) (default_arguments (sn_fields node))) ] ]
     else []).

(** src/kotlin/generator.rs:54-66 [generate_models]. *)
Definition generate_models (ast : list ast_node) : res (list kotlin_ir) :=
  let* parts :=
    mapM (fun node =>
      match node with
      | NStruct node => Ok [ generate_struct_model node true ]
      | NEnum node => generate_enum_model node
      | _ => Ok []
      end) ast in
  Ok (concat parts).
