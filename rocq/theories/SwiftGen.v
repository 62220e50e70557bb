(** Model of the Swift generator: src/swift/generator.rs:1-201 and src/swift/ir.rs:1-399.  Writing
    a token is a list of writer calls ([wcmd] of Writer.v, with [push_tab] and [pop_tab]);
    [show_cmds] runs them on [Writer::default()].  [panic!] and [unwrap] on [None] are [Panic]. *)
Require Import Coq.Strings.String Coq.Strings.Ascii.
Require Import Coq.NArith.NArith Coq.ZArith.ZArith Coq.Lists.List Coq.Bool.Bool.
Require Import Verif.Base Verif.F64 Verif.Ast Verif.Writer Verif.CaseConv.
Import ListNotations.
Local Open Scope string_scope.

(** src/swift/ir.rs:10-78 [enum SwiftIR]. *)
Inductive swift_ir : Type :=
| SStruct (id : string) (body : list swift_ir)
| SEnum (id : string) (body : list swift_ir)
| SEnumCase (id : string) (parameters : list swift_ir)
| SEnumCaseType (id : option string) (ty : type_id)
| SFieldAccess (instance : option swift_ir) (field : string)
| SStructConstField (id : string) (ty : type_id) (value : const_value)
| SStructField (id : string) (ty : type_id)
| SStructMethod (id : string) (is_static : bool) (return_type : type_id)
    (arguments body : list swift_ir)
| SFunctionArgument (id : string) (named : bool) (ty : type_id)
| SReturnStatement (body : swift_ir)
| SNewInstance (ty : type_id) (body : list swift_ir)
| SAssignStructNamedArgument (id : string) (ty : type_id) (value : option swift_ir)
| SAssignArgument (id : option string) (ty : type_id) (value : option swift_ir)
| SStaticCall (ty : type_id) (method : swift_ir)
| SCall (id : string) (arguments : list swift_ir).

(** The variant names that [IntoStaticStr] gives, src/swift/ir.rs:10, 118-119. *)
Definition kind (t : swift_ir) : string :=
  match t with
  | SStruct _ _ => "Struct"
  | SEnum _ _ => "Enum"
  | SEnumCase _ _ => "EnumCase"
  | SEnumCaseType _ _ => "EnumCaseType"
  | SFieldAccess _ _ => "FieldAccess"
  | SStructConstField _ _ _ => "StructConstField"
  | SStructField _ _ => "StructField"
  | SStructMethod _ _ _ _ _ => "StructMethod"
  | SFunctionArgument _ _ _ => "FunctionArgument"
  | SReturnStatement _ => "ReturnStatement"
  | SNewInstance _ _ => "NewInstance"
  | SAssignStructNamedArgument _ _ _ => "AssignStructNamedArgument"
  | SAssignArgument _ _ _ => "AssignArgument"
  | SStaticCall _ _ => "StaticCall"
  | SCall _ _ => "Call"
  end.

(** src/swift/ir.rs:104-114. *)
Definition gaps_pairs : list (string * string) :=
  [ ("Struct", "Struct"); ("Struct", "Enum"); ("Enum", "Enum"); ("Struct", "StructConstField");
    ("Struct", "StructField"); ("StructMethod", "StructMethod");
    ("StructMethod", "StructConstField"); ("StructMethod", "StructField");
    ("StructMethod", "EnumCase") ].

(** src/swift/ir.rs:116-126: the blank lines between two neighbours. *)
Definition gap_cmds (last_token : option string) (token : string) : list wcmd :=
  match last_token with
  | None => []
  | Some last =>
      flat_map (fun pair =>
        if (String.eqb (fst pair) last && String.eqb (snd pair) token)
           || (String.eqb (snd pair) last && String.eqb (fst pair) token)
        then [ Do NewLine ] else []) gaps_pairs
  end.

(** src/swift/ir.rs:289-332 [generate_type_id]. *)
Fixpoint generate_type_id (t : type_id) : res string :=
  match t with
  | TyInteger _ size signed =>
      match size, signed with
      | 1, true => Ok "Int8"
      | 4, true => Ok "Int32"
      | 8, true => Ok "Int64"
      | 1, false => Ok "UInt8"
      | 4, false => Ok "UInt32"
      | 8, false => Ok "UInt64"
      | _, _ => Panic
      end
  | TyNumber _ size =>
      match size with
      | 4 => Ok "Float"
      | 8 => Ok "Double"
      | _ => Panic
      end
  | TyBool _ => Ok "Bool"
  | TyChar id => Ok id
  | TyOther id =>
      if String.eqb id "GroupAddress" then Ok "UInt64"
      else if String.eqb id "CommandsBufferAddress" then Ok "UInt64"
      else Ok id
  | TyGeneric id generics =>
      let* args := mapM generate_type_id generics in
      if String.eqb id "Vec" then Ok ("[" ++ join ", " args ++ "]")
      else Ok (id ++ "<" ++ join ", " args ++ ">")
  end.

(** [format!("{}.0", value)] if [value.floor() == value], else [format!("{}", value)]; infinity is
    its own floor. *)
Definition show_float (value : f64) : string :=
  if f64_is_integral value then show_f64 value ++ ".0" else show_f64 value.

(** src/swift/ir.rs:334-369 [generate_const_value]. *)
Definition generate_const_value (node : const_value) (t : type_id) : res string :=
  match node with
  | ConstLiteral lit _ =>
      match lit with
      | StringLit value => Ok (dq ++ value ++ dq)
      | IntLit value =>
          match t with
          | TyOther id =>
              if String.eqb id "GroupAddress" then Ok (show_Z value)
              else if String.eqb id "CommandsBufferAddress" then Ok (show_Z value)
              else Panic
          | TyInteger _ _ _ => Ok (show_Z value)
          | _ => Panic
          end
      | NumberLit value =>
          match t with
          | TyNumber _ size =>
              match size with
              | 4 => Ok (show_float value ++ "f")
              | 8 => Ok (show_float value)
              | _ => Panic
              end
          | _ => Panic
          end
      | BoolLit value => Ok (show_bool value)
      end
  end.

(** src/swift/ir.rs:371-399 [generate_default_const_value]. *)
Definition generate_default_const_value (t : type_id) : res string :=
  match t with
  | TyInteger _ _ _ => Ok "0"
  | TyNumber _ _ => Ok "0"
  | TyBool _ => Ok "false"
  | TyChar _ => Ok "0"
  | TyOther id =>
      if String.eqb id "String" then Ok (dq ++ dq)
      else if String.eqb id "Vec" then Ok "[]"
      else Ok (id ++ ".createDefault()")
  | TyGeneric id generics =>
      if String.eqb id "Vec" then Ok "[]"
      else let* args := mapM generate_type_id generics in
           Ok (id ++ "<" ++ join ", " args ++ ">.createDefault()")
  end.

(** Writer calls of which the arguments may panic. *)
Definition rcmds := res (list wcmd).
Definition capp (a b : rcmds) : rcmds := let* x := a in let* y := b in Ok (x ++ y)%list.
Infix "+++" := capp (at level 60, right associativity).

Section Tokens.
  (** [write_token], the function being defined. *)
  Variable write_token : swift_ir -> rcmds.

  (** src/swift/ir.rs:100-131 [write_tokens]. *)
  Fixpoint write_tokens_from (last_token : option string) (tokens : list swift_ir) : rcmds :=
    match tokens with
    | [] => Ok []
    | token :: rest =>
        Ok (gap_cmds last_token (kind token)) +++
        write_token token +++
        write_tokens_from (Some (kind token)) rest
    end.

  (** src/swift/ir.rs:86-98 [write_tokens_comma_separated]. *)
  Fixpoint write_tokens_comma_separated (tokens : list swift_ir) : rcmds :=
    match tokens with
    | [] => Ok []
    | token :: rest =>
        Ok [ Do WriteTabs ] +++
        write_token token +++
        Ok (match rest with [] => [] | _ => [ Do (Write ",") ] end ++ [ Do NewLine ])%list +++
        write_tokens_comma_separated rest
    end.

  (** src/swift/ir.rs:195-205 and 241-251: a parenthesised argument list. *)
  Definition write_arguments (arguments : list swift_ir) : rcmds :=
    match arguments with
    | [] => Ok [ Do (Write "()") ]
    | _ =>
        Ok [ Do (Write "("); Do NewLine; PushTab ] +++
        write_tokens_comma_separated arguments +++
        Ok [ PopTab; Do WriteTabs; Do (Write ")") ]
    end.

  (** [writer.writeln(head); writer.push_tab(); write_tokens(writer, body); writer.pop_tab();
      writer.writeln("}")]. *)
  Definition write_block (head : string) (body : list swift_ir) : rcmds :=
    Ok [ Do (Writeln head); PushTab ] +++
    write_tokens_from None body +++
    Ok [ PopTab; Do (Writeln "}") ].
End Tokens.

(** src/swift/ir.rs:133-287 [write_token]. *)
Fixpoint write_token (token : swift_ir) : rcmds :=
  match token with
  | SStruct id body => write_block write_token ("struct " ++ pascal id ++ " {") body
  | SStructConstField id ty value =>
      let* t := generate_type_id ty in
      let* v := generate_const_value value ty in
      Ok [ Do (Writeln ("static let " ++ camel id ++ ": " ++ t ++ " = " ++ v)) ]
  | SStructField id ty =>
      let* t := generate_type_id ty in
      Ok [ Do (Writeln ("var " ++ camel id ++ ": " ++ t)) ]
  | SStructMethod id is_static return_type _ body =>
      let* t := generate_type_id return_type in
      let func := if is_static then "static func " else "func " in
      write_block write_token (func ++ camel id ++ "() -> " ++ t ++ " {") body
  | SFunctionArgument _ _ _ => Ok []
  | SReturnStatement body =>
      Ok [ Do WriteTabs; Do (Write "return ") ] +++ write_token body +++ Ok [ Do NewLine ]
  | SNewInstance ty body =>
      let* t := generate_type_id ty in
      Ok [ Do (Write t) ] +++ write_arguments write_token body
  | SAssignStructNamedArgument id ty value =>
      match value with
      | Some value => Ok [ Do (Write (camel id ++ ": ")) ] +++ write_token value
      | None =>
          let* v := generate_default_const_value ty in
          Ok [ Do (Write (camel id ++ ": " ++ v)) ]
      end
  | SAssignArgument id ty value =>
      Ok (match id with Some id => [ Do (Write ("/* " ++ camel id ++ " */ ")) ] | None => [] end) +++
      match value with
      | Some value => write_token value
      | None => let* v := generate_default_const_value ty in Ok [ Do (Write v) ]
      end
  | SStaticCall _ _ => Ok []
  | SCall id arguments => Ok [ Do (Write id) ] +++ write_arguments write_token arguments
  | SEnum id body => write_block write_token ("enum " ++ pascal id ++ " {") body
  | SEnumCase id parameters =>
      match parameters with
      | [] => Ok [ Do (Writeln ("case " ++ camel id)) ]
      | _ =>
          Ok [ Do (Writeln ("case " ++ camel id ++ "(")); PushTab ] +++
          write_tokens_comma_separated write_token parameters +++
          Ok [ PopTab; Do (Writeln ")") ]
      end
  | SEnumCaseType id ty =>
      let* t := generate_type_id ty in
      match id with
      | Some id => Ok [ Do (Write ("/* " ++ id ++ " */ " ++ t)) ]
      | None => Ok [ Do (Write t) ]
      end
  | SFieldAccess instance field =>
      match instance with
      | Some instance => write_token instance
      | None => Ok []
      end +++ Ok [ Do (Write ("." ++ camel field)) ]
  end.

(** src/swift/ir.rs:80-84 [stringify_tokens]. *)
Definition stringify_tokens (tokens : list swift_ir) : res string :=
  let* cmds := write_tokens_from write_token None tokens in show_cmds cmds.

(** src/swift/generator.rs:22-44 [generate_const_block]. *)
Fixpoint generate_const_block (node : const_node) : swift_ir :=
  match node with
  | ConstNode id items =>
      SStruct id
        (map (fun item =>
          match item with
          | ConstItemValue id ty value => SStructConstField id ty value
          | ConstItemNode node => generate_const_block node
          end) items)
  end.

(** src/swift/generator.rs:10-20 [generate_consts]. *)
Definition generate_consts (ast : list ast_node) : list swift_ir :=
  flat_map (fun node =>
    match node with NConst node => [ generate_const_block node ] | _ => [] end) ast.

(** src/swift/generator.rs:155-201 [generate_struct_model]. *)
Definition generate_struct_model (node : struct_node) (generate_default : bool) : swift_ir :=
  SStruct (sn_id node)
    (map (fun field => SStructField (sf_name field) (sf_type field)) (sn_fields node) ++
     (if generate_default then
        [ SStructMethod "createDefault" true (TyOther (sn_id node)) []
            [ SReturnStatement
                (SNewInstance (TyOther (sn_id node))
                   (map (fun field =>
                      SAssignStructNamedArgument (sf_name field) (sf_type field) None)
                      (sn_fields node))) ] ]
      else []))%list.

(** src/swift/generator.rs:66-84: the parameters of a case. *)
Definition case_parameters (case : enum_item) : list swift_ir :=
  match case with
  | ItemTuple _ _ values => map (fun value => SEnumCaseType None (tf_type value)) values
  | ItemStruct _ _ fields =>
      map (fun field => SEnumCaseType (Some (sf_name field)) (sf_type field)) fields
  | ItemEmpty _ _ => []
  end.

(** src/swift/generator.rs:60-153 [generate_enum_model]; [first().unwrap()] of line 98 panics on an
    enum without items. *)
Definition generate_enum_model (node : enum_node) : res swift_ir :=
  match en_items node with
  | [] => Panic
  | first_case :: _ =>
      Ok (SEnum (en_id node)
        (map (fun case => SEnumCase (item_id case) (case_parameters case)) (en_items node) ++
         [ SStructMethod "createDefault" true (TyOther (en_id node)) []
             [ SReturnStatement
                 match first_case with
                 | ItemEmpty _ id => SFieldAccess None id
                 | ItemTuple _ id values =>
                     SCall ("." ++ camel id)
                       (map (fun value => SAssignArgument None (tf_type value) None) values)
                 | ItemStruct _ id fields =>
                     SCall ("." ++ camel id)
                       (map (fun field =>
                          SAssignArgument (Some (sf_name field)) (sf_type field) None) fields)
                 end ] ])%list)
  end.

(** src/swift/generator.rs:46-58 [generate_models]. *)
Definition generate_models (ast : list ast_node) : res (list swift_ir) :=
  let* parts :=
    mapM (fun node =>
      match node with
      | NStruct node => Ok [ generate_struct_model node true ]
      | NEnum node => let* t := generate_enum_model node in Ok [ t ]
      | _ => Ok []
      end) ast in
  Ok (concat parts).
