(** Model of the Dart generator: src/dart_generator.rs and src/dart/*.rs.  Every function returns
    the exact text the Rust function returns; [show_ops2] is a [Writer::new(2)] on which the listed
    calls were made.  [panic!], [expect] and [unwrap] on a missing value are [Panic]. *)
Require Import Coq.Strings.String Coq.Strings.Ascii.
Require Import Coq.NArith.NArith Coq.ZArith.ZArith Coq.Lists.List Coq.Bool.Bool.
Require Import Verif.Base Verif.F64 Verif.Ast Verif.Writer Verif.CaseConv.
Import ListNotations.
Local Open Scope string_scope.

(** Writer calls of which the arguments may panic. *)
Definition rops := res (list wop).
Definition rapp (a b : rops) : rops := let* x := a in let* y := b in Ok (x ++ y)%list.
Infix "+++" := rapp (at level 60, right associativity).
Definition rflat {A : Type} (f : A -> rops) (l : list A) : rops :=
  let* parts := mapM f l in Ok (concat parts).
Definition rshow (r : rops) : res string := let* ops := r in Ok (show_ops2 ops).

(** [writer.writeln_tab(tab, &s)] where computing [s] may panic. *)
Definition rline (tab : nat) (s : res string) : rops := let* t := s in Ok [ WritelnTab tab t ].

(** src/dart_generator.rs:533-545 [generate_const_value]. *)
Definition generate_const_value (v : const_value) : string :=
  match v with
  | ConstLiteral lit _ =>
      match lit with
      | StringLit value => dq ++ value ++ dq
      | IntLit value => show_Z value
      | NumberLit value => show_f64 value
      | BoolLit value => show_bool value
      end
  end.

(** src/dart_generator.rs:559-562, 588-591, 660-663. *)
Definition list_name (id : string) : string := if String.eqb id "Vec" then "List" else id.

(** src/dart_generator.rs:547-575 [generate_type_id]. *)
Fixpoint generate_type_id (t : type_id) : string :=
  match t with
  | TyInteger _ _ _ => "int"
  | TyNumber _ _ => "double"
  | TyBool _ => "bool"
  | TyChar _ => "int"
  | TyOther id => id
  | TyGeneric id generics =>
      list_name id ++ "<" ++ join ", " (map generate_type_id generics) ++ ">"
  end.

(** src/dart_generator.rs:577-593 [generate_class_prefix]. *)
Definition generate_class_prefix (t : type_id) : string :=
  match t with
  | TyInteger _ _ _ => "Int"
  | TyNumber _ _ => "Double"
  | TyBool _ => "Bool"
  | TyChar _ => "Int"
  | TyOther id => id
  | TyGeneric id _ => list_name id
  end.

(** src/dart_generator.rs:595-600 [generate_option_type_id]. *)
Definition generate_option_type_id (t : option type_id) : string :=
  match t with
  | Some t => generate_type_id t
  | None => "void"
  end.

Definition generic_args (generics : list type_id) : string :=
  join ", " (map generate_type_id generics).

(** The guard [id == "Vec" && generics.len() == 1] of the codec functions: the element type. *)
Definition vec_element (id : string) (generics : list type_id) : option type_id :=
  match generics with
  | [generic] => if String.eqb id "Vec" then Some generic else None
  | _ => None
  end.

(** src/dart_generator.rs:602-644 [generate_read]. *)
Definition generate_read (t : type_id) : res string :=
  match t with
  | TyInteger _ size _ =>
      match size with
      | 1 => Ok "reader.readInt8()"
      | 4 => Ok "reader.readInt32()"
      | 8 => Ok "reader.readInt64()"
      | _ => Panic
      end
  | TyNumber _ size =>
      match size with
      | 4 => Ok "reader.readFloat()"
      | 8 => Ok "reader.readDouble()"
      | _ => Panic
      end
  | TyBool _ => Ok "reader.readBool()"
  | TyChar _ => Ok "reader.readInt8()"
  | TyOther id => Ok ("const " ++ id ++ "IntoBuffers().read(reader)")
  | TyGeneric id generics =>
      match vec_element id generics with
      | Some generic =>
          Ok ("const ListIntoBuffers<" ++ generate_type_id generic ++ ">(const "
                ++ generate_class_prefix generic ++ "IntoBuffers()).read(reader)")
      | None => Ok ("const " ++ id ++ "IntoBuffers<" ++ generic_args generics ++ ">().read(reader)")
      end
  end.

(** src/dart_generator.rs:646-675 [generate_default_const]. *)
Definition generate_default_const (t : type_id) : string :=
  match t with
  | TyInteger _ _ _ => "0"
  | TyNumber _ _ => "0.0"
  | TyBool _ => "false"
  | TyChar _ => "0"
  | TyOther id => "const " ++ id ++ "BuffersFactory().createDefault()"
  | TyGeneric id generics =>
      "const " ++ list_name id ++ "BuffersFactory<" ++ generic_args generics
        ++ ">().createDefault()"
  end.

(** src/dart_generator.rs:677-709 [generate_read_emplace]. *)
Definition generate_read_emplace (t : type_id) (accessor : string) : res string :=
  match t with
  | TyOther id =>
      if String.eqb id "String" then
        Ok (accessor ++ " = const " ++ id ++ "IntoBuffers().read(reader);")
      else Ok ("const " ++ id ++ "EmplaceToBuffers().read(reader, " ++ accessor ++ ");")
  | TyGeneric id generics =>
      match vec_element id generics with
      | Some generic =>
          Ok ("const ListEmplaceToBuffers<" ++ generate_type_id generic ++ ">(const "
                ++ generate_class_prefix generic ++ "IntoBuffers()).read(reader, "
                ++ accessor ++ ");")
      | None =>
          Ok ("const " ++ id ++ "EmplaceToBuffers<" ++ generic_args generics
                ++ ">().read(reader, " ++ accessor ++ ");")
      end
  | _ => let* r := generate_read t in Ok (accessor ++ " = " ++ r ++ ";")
  end.

(** src/dart_generator.rs:711-737 [generate_read_skip]. *)
Definition generate_read_skip (t : type_id) : res string :=
  match t with
  | TyOther id => Ok ("const " ++ id ++ "IntoBuffers().skip(reader, 1);")
  | TyGeneric id generics =>
      match vec_element id generics with
      | Some generic =>
          Ok ("const ListIntoBuffers<" ++ generate_type_id generic ++ ">(const "
                ++ generate_class_prefix generic ++ "IntoBuffers()).skip(reader, 1);")
      | None =>
          Ok ("const " ++ id ++ "IntoBuffers<" ++ generic_args generics ++ ">().skip(reader, 1);")
      end
  | _ => let* r := generate_read t in Ok (r ++ ";")
  end.

(** src/dart_generator.rs:739-769 [generate_read_skip_emplace]. *)
Definition generate_read_skip_emplace (t : type_id) : res string :=
  match t with
  | TyOther id =>
      if String.eqb id "String" then Ok ("const " ++ id ++ "IntoBuffers().skip(reader, 1);")
      else Ok ("const " ++ id ++ "EmplaceToBuffers().skip(reader, 1);")
  | TyGeneric id generics =>
      match vec_element id generics with
      | Some generic =>
          Ok ("const ListEmplaceToBuffers<" ++ generate_type_id generic ++ ">(const "
                ++ generate_class_prefix generic ++ "IntoBuffers()).skip(reader, 1);")
      | None =>
          Ok ("const " ++ id ++ "EmplaceToBuffers<" ++ generic_args generics
                ++ ">().skip(reader, 1);")
      end
  | _ => let* r := generate_read t in Ok (r ++ ";")
  end.

(** src/dart_generator.rs:771-815 [generate_write]. *)
Definition generate_write (t : type_id) (accessor : string) : res string :=
  match t with
  | TyInteger _ size _ =>
      match size with
      | 1 => Ok ("writer.writeInt8(" ++ accessor ++ ");")
      | 4 => Ok ("writer.writeInt32(" ++ accessor ++ ");")
      | 8 => Ok ("writer.writeInt64(" ++ accessor ++ ");")
      | _ => Panic
      end
  | TyNumber _ size =>
      match size with
      | 4 => Ok ("writer.writeFloat(" ++ accessor ++ ");")
      | 8 => Ok ("writer.writeDouble(" ++ accessor ++ ");")
      | _ => Panic
      end
  | TyBool _ => Ok ("writer.writeBool(" ++ accessor ++ ");")
  | TyChar _ => Ok ("writer.writeInt8(" ++ accessor ++ ");")
  | TyOther id => Ok ("const " ++ id ++ "IntoBuffers().write(writer, " ++ accessor ++ ");")
  | TyGeneric id generics =>
      match vec_element id generics with
      | Some generic =>
          Ok ("const ListIntoBuffers<" ++ generate_type_id generic ++ ">(const "
                ++ generate_class_prefix generic ++ "IntoBuffers()).write(writer, "
                ++ accessor ++ ");")
      | None =>
          Ok ("const " ++ id ++ "IntoBuffers<" ++ generic_args generics ++ ">().write(writer, "
                ++ accessor ++ ");")
      end
  end.

(** src/dart_generator.rs:817-852 [generate_write_emplace]. *)
Definition generate_write_emplace (t : type_id) (accessor : string) : res string :=
  match t with
  | TyOther id =>
      if String.eqb id "String" then
        Ok ("const " ++ id ++ "IntoBuffers().write(writer, " ++ accessor ++ ");")
      else Ok ("const " ++ id ++ "EmplaceToBuffers().write(writer, " ++ accessor ++ ");")
  | TyGeneric id generics =>
      match vec_element id generics with
      | Some generic =>
          Ok ("const ListEmplaceToBuffers<" ++ generate_type_id generic ++ ">(const "
                ++ generate_class_prefix generic ++ "IntoBuffers()).write(writer, "
                ++ accessor ++ ");")
      | None =>
          Ok ("const " ++ id ++ "EmplaceToBuffers<" ++ generic_args generics
                ++ ">().write(writer, " ++ accessor ++ ");")
      end
  | _ => generate_write t accessor
  end.

(** src/dart_generator.rs:140-151 and 204-218: the factory class; [expr] is the value made. *)
Definition factory_ops (id expr : string) : list wop :=
  [ Writeln ("class " ++ id ++ "BuffersFactory implements BuffersFactory<" ++ id ++ "> {");
    WritelnTab 1 ("const " ++ id ++ "BuffersFactory();");
    Writeln "";
    WritelnTab 1 "@override";
    WritelnTab 1 (id ++ " createDefault() => " ++ expr ++ ";");
    Writeln "}" ].

(** [idx == l.len() - 1] in a loop over a non-empty [l]. *)
Definition is_last {A : Type} (idx : nat) (l : list A) : bool := Nat.eqb (S idx) (length l).

(** src/dart_generator.rs:129-224 [generate_struct_model]. *)
Definition generate_struct_model (node : struct_node) (def : string) (generate_default : bool)
  : string :=
  show_ops2 (
    [ Writeln ("class " ++ sn_id node ++ def ++ " {") ] ++
    match sn_fields node with
    | [] =>
        [ WritelnTab 1 ("const " ++ sn_id node ++ "();");
          Writeln "}" ] ++
        (if generate_default then
          [ Writeln "" ] ++ factory_ops (sn_id node) ("const " ++ sn_id node ++ "()")
        else [])
    | fields =>
        flat_map (fun param =>
          [ WritelnTab 1 (generate_type_id (sf_type param) ++ " " ++ camel (sf_name param) ++ ";") ])
          fields ++
        [ Writeln "";
          WritelnTab 1 (sn_id node ++ "({") ] ++
        flat_map (fun param =>
          [ WritelnTab 2 ("required this." ++ camel (sf_name param) ++ ",") ]) fields ++
        [ WritelnTab 1 "});" ] ++
        (if generate_default then
          [ Writeln "";
            WritelnTab 1 (sn_id node ++ ".createDefault()");
            WriteTab 3 ": " ] ++
          flat_map (fun ifield =>
            [ Write (camel (sf_name (snd ifield)) ++ " = "
                       ++ generate_default_const (sf_type (snd ifield))) ] ++
            (if is_last (fst ifield) fields then [ Writeln ";" ]
             else [ Writeln ","; WriteTab 3 "  " ])) (enumerate fields) ++
          [ Writeln "}";
            Writeln "" ] ++
          factory_ops (sn_id node) (sn_id node ++ ".createDefault()")
        else [ Writeln "}" ])
    end)%list.

(** src/dart/enum_models.rs:3-55 [create_enum_item_struct_ast_node]. *)
Definition create_enum_item_struct_ast_node (node : enum_node) (item_node : enum_item)
  : struct_node :=
  match item_node with
  | ItemEmpty _ id => mk_struct (en_id node ++ id) [] true true
  | ItemTuple _ id values =>
      mk_struct (en_id node ++ id)
        (map (fun iv => mk_struct_field (N.of_nat (fst iv)) ("v" ++ show_nat (fst iv))
                          (tf_type (snd iv))) (enumerate values)) true true
  | ItemStruct _ id fields => mk_struct (en_id node ++ id) fields true true
  end.

(** [if item_idx != node.items.len() - 1 { writer.writeln("") }]. *)
Definition gap_unless_last {A : Type} (idx : nat) (l : list A) : list wop :=
  if is_last idx l then [] else [ Writeln "" ].

(** src/dart_generator.rs:272-284: the initial value of the field of one item. *)
Definition item_factory (node : enum_node) (item : enum_item) : string :=
  match item with
  | ItemEmpty _ id => "const " ++ en_id node ++ id ++ "()"
  | ItemTuple _ id _ => en_id node ++ id ++ ".createDefault()"
  | ItemStruct _ id _ => en_id node ++ id ++ ".createDefault()"
  end.

(** src/dart_generator.rs:240-531 [generate_enum_model]; [expect] of line 258 panics on an enum
    without items. *)
Definition generate_enum_model (node : enum_node) : res string :=
  match en_items node with
  | [] => Panic
  | default_union_value :: _ =>
      Ok (show_ops2 (
        (* 244-251 *)
        [ Writeln ("enum " ++ en_id node ++ "Value {") ] ++
        flat_map (fun item => [ WritelnTab 1 (camel (item_id item) ++ ",") ]) (en_items node) ++
        [ Writeln "}";
          Writeln "" ] ++
        (* 254-296 *)
        [ Writeln ("class " ++ en_id node ++ " {");
          WritelnTab 1 (en_id node ++ "Value value = " ++ en_id node ++ "Value."
                          ++ camel (item_id default_union_value) ++ ";") ] ++
        flat_map (fun item =>
          [ WritelnTab 1 (en_id node ++ item_id item ++ " " ++ camel (item_id item) ++ " = "
                            ++ item_factory node item ++ ";") ]) (en_items node) ++
        (* 301-378 *)
        [ Writeln "" ] ++
        flat_map (fun iitem =>
          match snd iitem with
          | ItemEmpty _ id =>
              [ WritelnTab 1 ("void to" ++ pascal id ++ "() => value = " ++ en_id node ++ "Value."
                                ++ camel id ++ ";") ]
          | ItemTuple _ id values =>
              [ WritelnTab 1 ("void to" ++ pascal id ++ "(") ] ++
              flat_map (fun iv =>
                [ WritelnTab 2 (generate_type_id (tf_type (snd iv)) ++ " v" ++ show_nat (fst iv)
                                  ++ ",") ]) (enumerate values) ++
              [ WritelnTab 1 ") {";
                WritelnTab 2 ("value = " ++ en_id node ++ "Value." ++ camel id ++ ";") ] ++
              flat_map (fun iv =>
                [ WritelnTab 2 (camel id ++ ".v" ++ show_nat (fst iv) ++ " = v" ++ show_nat (fst iv)
                                  ++ ";") ]) (enumerate values) ++
              [ WritelnTab 1 "}" ]
          | ItemStruct _ id fields =>
              [ WritelnTab 1 ("void to" ++ pascal id ++ "({") ] ++
              flat_map (fun field =>
                [ WritelnTab 2 ("required " ++ generate_type_id (sf_type field) ++ " "
                                  ++ camel (sf_name field) ++ ",") ]) fields ++
              [ WritelnTab 1 "}) {";
                WritelnTab 2 ("value = " ++ en_id node ++ "Value." ++ camel id ++ ";") ] ++
              flat_map (fun field =>
                [ WritelnTab 2 (camel id ++ "." ++ camel (sf_name field) ++ " = "
                                  ++ camel (sf_name field) ++ ";") ]) fields ++
              [ WritelnTab 1 "}" ]
          end ++
          gap_unless_last (fst iitem) (en_items node)) (enumerate (en_items node)) ++
        (* 381-393 *)
        [ Writeln "" ] ++
        flat_map (fun item =>
          [ WritelnTab 1 ("bool is" ++ pascal (item_id item) ++ "() => value == " ++ en_id node
                            ++ "Value." ++ camel (item_id item) ++ ";") ]) (en_items node) ++
        (* 397-501 *)
        [ Writeln "" ] ++
        flat_map (fun iitem =>
          match snd iitem with
          | ItemEmpty _ id =>
              [ WritelnTab 1 ("static " ++ en_id node ++ " create" ++ pascal id ++ "() {");
                WritelnTab 2 ("final model = " ++ en_id node ++ "();");
                WritelnTab 2 ("model.value = " ++ en_id node ++ "Value." ++ camel id ++ ";");
                WritelnTab 2 "return model;";
                WritelnTab 1 "}" ]
          | ItemTuple _ id values =>
              [ WritelnTab 1 ("static " ++ en_id node ++ " create" ++ pascal id ++ "(") ] ++
              flat_map (fun iv =>
                [ WritelnTab 2 (generate_type_id (tf_type (snd iv)) ++ " v" ++ show_nat (fst iv)
                                  ++ ",") ]) (enumerate values) ++
              [ WritelnTab 1 ") {";
                WritelnTab 2 ("final model = " ++ en_id node ++ "();");
                WritelnTab 2 ("model.value = " ++ en_id node ++ "Value." ++ camel id ++ ";") ] ++
              flat_map (fun iv =>
                [ WritelnTab 2 ("model." ++ camel id ++ ".v" ++ show_nat (fst iv) ++ " = v"
                                  ++ show_nat (fst iv) ++ ";") ]) (enumerate values) ++
              [ WritelnTab 2 "return model;";
                WritelnTab 1 "}" ]
          | ItemStruct _ id fields =>
              [ WritelnTab 1 ("static " ++ en_id node ++ " create" ++ pascal id ++ "({") ] ++
              flat_map (fun field =>
                [ WritelnTab 2 ("required " ++ generate_type_id (sf_type field) ++ " "
                                  ++ camel (sf_name field) ++ ",") ]) fields ++
              [ WritelnTab 1 "}) {";
                WritelnTab 2 ("final model = " ++ en_id node ++ "();");
                WritelnTab 2 ("model.value = " ++ en_id node ++ "Value." ++ camel id ++ ";") ] ++
              flat_map (fun field =>
                [ WritelnTab 2 ("model." ++ camel id ++ "." ++ camel (sf_name field) ++ " = "
                                  ++ camel (sf_name field) ++ ";") ]) fields ++
              [ WritelnTab 2 "return model;";
                WritelnTab 1 "}" ]
          end ++
          gap_unless_last (fst iitem) (en_items node)) (enumerate (en_items node)) ++
        (* 505-518 *)
        [ Writeln "}";
          Writeln "" ] ++
        factory_ops (en_id node) (en_id node ++ "()") ++
        [ Writeln "" ] ++
        (* 521-528 *)
        flat_map (fun iitem =>
          [ Write (generate_struct_model (create_enum_item_struct_ast_node node (snd iitem)) "" true)
          ] ++
          gap_unless_last (fst iitem) (en_items node)) (enumerate (en_items node))))%list
  end.

Definition is_other (t : type_id) : bool :=
  match t with TyOther _ => true | _ => false end.

(** src/dart/struct_into_buffers.rs:29-65 [generate_struct_into_buffers_read]. *)
Definition generate_struct_into_buffers_read (node : struct_node) : res string :=
  rshow (
    Ok [ WritelnTab 1 "@override";
         WritelnTab 1 (sn_id node ++ " read(BytesReader reader) {") ] +++
    rflat (fun field =>
      let* r := generate_read (sf_type field) in
      Ok [ WritelnTab 2 ("final " ++ camel (sf_name field) ++ " = " ++ r ++ ";") ])
      (sn_fields node) +++
    Ok ([ Writeln "";
          WritelnTab 2 ("return " ++ sn_id node ++ "(") ] ++
        flat_map (fun field =>
          [ WritelnTab 3 (camel (sf_name field) ++ ": " ++ camel (sf_name field) ++ ",") ])
          (sn_fields node) ++
        [ WritelnTab 2 ");";
          WritelnTab 1 "}" ])%list).

(** src/dart/struct_into_buffers.rs:67-89 [generate_struct_into_buffers_write]. *)
Definition generate_struct_into_buffers_write (node : struct_node) : res string :=
  rshow (
    Ok [ WritelnTab 1 "@override";
         WritelnTab 1 ("void write(BytesWriter writer, " ++ sn_id node ++ " model) {") ] +++
    rflat (fun field =>
      rline 2 (generate_write (sf_type field) ("model." ++ camel (sf_name field))))
      (sn_fields node) +++
    Ok [ WritelnTab 1 "}" ]).

(** src/dart/struct_into_buffers.rs:91-124 and src/dart/struct_emplace_to_buffers.rs:77-110, with
    [skip_text] being [generate_read_skip] and [generate_read_skip_emplace]. *)
Definition struct_skip (skip_text : type_id -> res string) (node : struct_node) : res string :=
  rshow (
    Ok [ WritelnTab 1 "@override";
         WritelnTab 1 "void skip(BytesReader reader, int count) {" ] +++
    rflat (fun field =>
      if is_other (sf_type field) then rline 2 (skip_text (sf_type field)) else Ok [])
      (sn_fields node) +++
    Ok ((if existsb (fun field => is_other (sf_type field)) (sn_fields node)
         then [ Writeln "" ] else []) ++
        [ WritelnTab 2 "for (int i = 0; i < count; i += 1) {" ])%list +++
    rflat (fun field =>
      if is_other (sf_type field) then Ok [] else rline 3 (skip_text (sf_type field)))
      (sn_fields node) +++
    Ok [ WritelnTab 2 "}";
         WritelnTab 1 "}" ]).

Definition generate_struct_into_buffers_skip : struct_node -> res string :=
  struct_skip generate_read_skip.

(** src/dart/struct_into_buffers.rs:9-27 [generate_struct_into_buffers]. *)
Definition generate_struct_into_buffers (node : struct_node) : res string :=
  let* r := generate_struct_into_buffers_read node in
  let* w := generate_struct_into_buffers_write node in
  let* s := generate_struct_into_buffers_skip node in
  Ok (show_ops2
    [ Writeln ("class " ++ sn_id node ++ "IntoBuffers implements IntoBuffers<" ++ sn_id node
                 ++ "> {");
      WritelnTab 1 ("const " ++ sn_id node ++ "IntoBuffers();");
      Writeln "";
      Writeln r;
      Writeln w;
      Write s;
      Write "}" ]).

(** src/dart/struct_emplace_to_buffers.rs:29-51 [generate_struct_emplace_buffers_read]. *)
Definition generate_struct_emplace_buffers_read (node : struct_node) : res string :=
  rshow (
    Ok [ WritelnTab 1 "@override";
         WritelnTab 1 ("void read(BytesReader reader, " ++ sn_id node ++ " model) {") ] +++
    rflat (fun field =>
      rline 2 (generate_read_emplace (sf_type field) ("model." ++ camel (sf_name field))))
      (sn_fields node) +++
    Ok [ WritelnTab 1 "}" ]).

(** src/dart/struct_emplace_to_buffers.rs:53-75 [generate_struct_emplace_buffers_write]. *)
Definition generate_struct_emplace_buffers_write (node : struct_node) : res string :=
  rshow (
    Ok [ WritelnTab 1 "@override";
         WritelnTab 1 ("void write(BytesWriter writer, " ++ sn_id node ++ " model) {") ] +++
    rflat (fun field =>
      rline 2 (generate_write_emplace (sf_type field) ("model." ++ camel (sf_name field))))
      (sn_fields node) +++
    Ok [ WritelnTab 1 "}" ]).

Definition generate_struct_emplace_buffers_skip : struct_node -> res string :=
  struct_skip generate_read_skip_emplace.

(** src/dart/struct_emplace_to_buffers.rs:9-27 [generate_struct_emplace_buffers]. *)
Definition generate_struct_emplace_buffers (node : struct_node) : res string :=
  let* r := generate_struct_emplace_buffers_read node in
  let* w := generate_struct_emplace_buffers_write node in
  let* s := generate_struct_emplace_buffers_skip node in
  Ok (show_ops2
    [ Writeln ("class " ++ sn_id node ++ "EmplaceToBuffers implements EmplaceToBuffers<"
                 ++ sn_id node ++ "> {");
      WritelnTab 1 ("const " ++ sn_id node ++ "EmplaceToBuffers();");
      Writeln "";
      Writeln r;
      Writeln w;
      Write s;
      Writeln "}" ]).

(** src/dart_generator.rs:226-238 [generate_struct_buffers]. *)
Definition generate_struct_buffers (node : struct_node) : res string :=
  rshow (
    (if sn_emplace node then
       let* s := generate_struct_emplace_buffers node in Ok [ Writeln s ] else Ok []) +++
    (if sn_into node then
       let* s := generate_struct_into_buffers node in Ok [ Writeln s ] else Ok [])).

Definition unsupported_default (tab : nat) : list wop :=
  [ WritelnTab tab "default:";
    WritelnTab (S tab) "throw StateError('Unsupported enum value: $value');" ].

(** src/dart/enum_into_buffers.rs:24-65 [generate_read]. *)
Definition enum_into_read (node : enum_node) : string :=
  show_ops2 (
    [ WritelnTab 1 "@override";
      WritelnTab 1 (en_id node ++ " read(BytesReader reader) {");
      WritelnTab 2 "final value = reader.readInt32();";
      Writeln "";
      WritelnTab 2 "switch (value) {" ] ++
    flat_map (fun item =>
      [ WritelnTab 3 ("case " ++ show_N (item_position item) ++ ":");
        WritelnTab 4 ("final model = " ++ en_id node ++ "();");
        WritelnTab 4 ("model.value = " ++ en_id node ++ "Value." ++ camel (item_id item) ++ ";");
        WritelnTab 4 ("const " ++ en_id node ++ item_id item
                        ++ "EmplaceToBuffers().read(reader, model." ++ camel (item_id item) ++ ");");
        WritelnTab 4 "return model;";
        Writeln "" ]) (en_items node) ++
    unsupported_default 3 ++
    [ WritelnTab 2 "}";
      WritelnTab 1 "}" ])%list.

(** src/dart/enum_into_buffers.rs:67-103 and src/dart/enum_emplace_buffers.rs:75-111
    [generate_write], the same text. *)
Definition enum_write (node : enum_node) : string :=
  show_ops2 (
    [ WritelnTab 1 "@override";
      WritelnTab 1 ("void write(BytesWriter writer, " ++ en_id node ++ " model) {");
      WritelnTab 2 "switch (model.value) {" ] ++
    flat_map (fun iitem =>
      let item := snd iitem in
      [ WritelnTab 3 ("case " ++ en_id node ++ "Value." ++ camel (item_id item) ++ ":");
        WritelnTab 4 ("writer.writeInt32(" ++ show_N (item_position item) ++ ");");
        WritelnTab 4 ("const " ++ en_id node ++ item_id item
                        ++ "EmplaceToBuffers().write(writer, model." ++ camel (item_id item)
                        ++ ");");
        WritelnTab 4 "return;" ] ++
      gap_unless_last (fst iitem) (en_items node)) (enumerate (en_items node)) ++
    [ WritelnTab 2 "}";
      WritelnTab 1 "}" ])%list.

(** src/dart/enum_into_buffers.rs:105-138 and src/dart/enum_emplace_buffers.rs:113-146
    [generate_skip], the same text. *)
Definition enum_skip (node : enum_node) : string :=
  show_ops2 (
    [ WritelnTab 1 "@override";
      WritelnTab 1 "void skip(BytesReader reader, int count) {";
      WritelnTab 2 "for (int i = 0; i < count; i += 1) {";
      WritelnTab 3 "final value = reader.readInt32();";
      Writeln "";
      WritelnTab 3 "switch (value) {" ] ++
    flat_map (fun item =>
      [ WritelnTab 4 ("case " ++ show_N (item_position item) ++ ":");
        WritelnTab 5 ("const " ++ en_id node ++ item_id item
                        ++ "EmplaceToBuffers().skip(reader, 1);");
        WritelnTab 5 "break;";
        Writeln "" ]) (en_items node) ++
    unsupported_default 4 ++
    [ WritelnTab 3 "}";
      WritelnTab 2 "}";
      WritelnTab 1 "}" ])%list.

(** src/dart/enum_into_buffers.rs:6-22 [generate_enum_into_buffers]. *)
Definition generate_enum_into_buffers (node : enum_node) : string :=
  show_ops2
    [ Writeln ("class " ++ en_id node ++ "IntoBuffers implements IntoBuffers<" ++ en_id node
                 ++ "> {");
      WritelnTab 1 ("const " ++ en_id node ++ "IntoBuffers();");
      Writeln "";
      Writeln (enum_into_read node);
      Writeln (enum_write node);
      Write (enum_skip node);
      Writeln "}" ].

(** src/dart/enum_emplace_buffers.rs:30-73 [generate_read]. *)
Definition enum_emplace_read (node : enum_node) : string :=
  show_ops2 (
    [ WritelnTab 1 "@override";
      WritelnTab 1 ("void read(BytesReader reader, " ++ en_id node ++ " model) {");
      WritelnTab 2 "final value = reader.readInt32();";
      Writeln "";
      WritelnTab 2 "switch (value) {" ] ++
    flat_map (fun item =>
      [ WritelnTab 3 ("case " ++ show_N (item_position item) ++ ":");
        WritelnTab 4 ("model.value = " ++ en_id node ++ "Value." ++ camel (item_id item) ++ ";");
        WritelnTab 4 ("const " ++ en_id node ++ item_id item
                        ++ "EmplaceToBuffers().read(reader, model." ++ camel (item_id item) ++ ");");
        WritelnTab 4 "return;";
        Writeln "" ]) (en_items node) ++
    unsupported_default 3 ++
    [ WritelnTab 2 "}";
      WritelnTab 1 "}" ])%list.

(** src/dart/enum_emplace_buffers.rs:6-28 [generate_enum_emplace_buffers]. *)
Definition generate_enum_emplace_buffers (node : enum_node) : string :=
  show_ops2
    [ Writeln ("class " ++ en_id node ++ "EmplaceToBuffers implements EmplaceToBuffers<"
                 ++ en_id node ++ "> {");
      WritelnTab 1 ("const " ++ en_id node ++ "EmplaceToBuffers();");
      Writeln "";
      Writeln (enum_emplace_read node);
      Writeln (enum_write node);
      Write (enum_skip node);
      Writeln "}" ].

(** src/dart_generator.rs:854-866 [generate_enum_buffers]. *)
Definition generate_enum_buffers (node : enum_node) : res string :=
  rshow (
    rflat (fun item =>
      let* s := generate_struct_emplace_buffers (create_enum_item_struct_ast_node node item) in
      Ok [ Writeln s ]) (en_items node) +++
    Ok [ Writeln (generate_enum_into_buffers node);
         Write (generate_enum_emplace_buffers node) ]).

(** src/dart_generator.rs:81-99 [generate_models]. *)
Definition generate_models (ast : list ast_node) : res string :=
  let* ops :=
    rflat (fun node =>
      match node with
      | NStruct node => Ok [ Writeln (generate_struct_model node "" true) ]
      | NEnum node => let* s := generate_enum_model node in Ok [ Write s ]
      | _ => Ok []
      end) ast in
  Ok (pop_blank (show_ops2 ops)).

(** src/dart_generator.rs:101-119 [generate_buffers]. *)
Definition generate_buffers (ast : list ast_node) : res string :=
  let* ops :=
    rflat (fun node =>
      match node with
      | NStruct node => let* s := generate_struct_buffers node in Ok [ Writeln s ]
      | NEnum node => let* s := generate_enum_buffers node in Ok [ Writeln s ]
      | _ => Ok []
      end) ast in
  Ok (pop_blank (show_ops2 ops)).

Definition const_id (node : const_node) : string :=
  match node with ConstNode id _ => id end.

(** src/dart/consts.rs:35-54 [generate_const_class_decls]. *)
Definition generate_const_class_decls (node : const_node) : string :=
  show_ops2
    [ WritelnTab 0 ("const " ++ camel (const_id node) ++ " = _" ++ pascal (const_id node) ++ "();") ].

(** src/dart/consts.rs:79-86: the printed type of a constant. *)
Definition const_type (t : type_id) : string :=
  match t with
  | TyOther id =>
      if String.eqb id "GroupAddress" then "int"
      else if String.eqb id "CommandsBufferAddress" then "int"
      else generate_type_id t
  | _ => generate_type_id t
  end.

(** src/dart/consts.rs:77-108: one line of a constants class. *)
Definition const_item_ops (prefix id : string) (item : const_item) : list wop :=
  match item with
  | ConstItemValue item_id ty value =>
      [ WritelnTab 1 ("final " ++ const_type ty ++ " " ++ camel item_id ++ " = "
                        ++ generate_const_value value ++ ";") ]
  | ConstItemNode child =>
      [ WritelnTab 1 ("final " ++ camel (const_id child) ++ " = const _" ++ prefix ++ pascal id
                        ++ pascal (const_id child) ++ "();") ]
  end.

(** src/dart/consts.rs:56-123 [generate_const_class_impl]. *)
Fixpoint generate_const_class_impl (prefix : string) (node : const_node) : string :=
  match node with
  | ConstNode id items =>
      show_ops2 (
        [ Writeln ("class _" ++ prefix ++ pascal id ++ " {");
          WritelnTab 1 ("const _" ++ prefix ++ pascal id ++ "();") ] ++
        match items with [] => [] | _ => [ Writeln "" ] end ++
        flat_map (const_item_ops prefix id) items ++
        [ Writeln "}" ] ++
        (fix children (items : list const_item) : list wop :=
          match items with
          | [] => []
          | ConstItemValue _ _ _ :: rest => children rest
          | ConstItemNode node :: rest =>
              [ Writeln ""; Write (generate_const_class_impl (prefix ++ pascal id)%string node) ] ++
              children rest
          end) items)%list
  end.

(** src/dart/consts.rs:10-33 [generate_consts]. *)
Definition generate_consts (ast : list ast_node) : string :=
  pop_blank (show_ops2 (
    flat_map (fun node =>
      match node with NConst node => [ Write (generate_const_class_decls node) ] | _ => [] end) ast ++
    flat_map (fun node =>
      match node with
      | NConst node => [ Writeln ""; Write (generate_const_class_impl "" node) ]
      | _ => []
      end) ast)%list).

(** src/dart/rpc.rs:10-24, the names of the client's variables. *)
Definition var_last_method_id (node : fn_node) : string :=
  "_last" ++ pascal (fn_id node) ++ "MethodId".
Definition var_method_completers (node : fn_node) : string :=
  "_" ++ camel (fn_id node) ++ "Completers".
Definition var_read_task (node : fn_node) : string := "_read" ++ pascal (fn_id node) ++ "Task".
Definition var_read_stream_controller (node : fn_node) : string :=
  "_read" ++ pascal (fn_id node) ++ "StreamController".

Definition is_async_or_read (node : fn_node) : bool := fn_is_async node || fn_is_read node.

(** src/dart/rpc.rs:170-180 [generate_constructor]. *)
Definition generate_constructor (nodes : list fn_node) : string :=
  show_ops2 (
    flat_map (fun node =>
      if is_async_or_read node then [ WritelnTab 2 ("_connect" ++ pascal (fn_id node) ++ "();") ]
      else []) nodes).

(** src/dart/rpc.rs:182-203 [generate_disconnect]. *)
Definition generate_disconnect (nodes : list fn_node) : string :=
  show_ops2 (
    [ WritelnTab 1 "void disconnect() {" ] ++
    flat_map (fun node =>
      (if is_async_or_read node then
         [ WritelnTab 2 ("_scheduler.disconnect(" ++ var_read_task node ++ ");") ] else []) ++
      (if fn_is_read node then [ WritelnTab 2 (var_read_stream_controller node ++ ".close();") ]
       else [])) nodes ++
    [ WritelnTab 1 "}" ])%list.

(** src/dart/rpc.rs:276-291 [generate_fn_args]. *)
Definition generate_fn_args (node : fn_node) : string :=
  show_ops2 (
    flat_map (fun arg =>
      [ WritelnTab 2 ("required " ++ generate_type_id (fa_type arg) ++ " " ++ camel (fa_id arg)
                        ++ ",") ]) (fn_args node)).

(** src/dart/rpc.rs:209-221 and 299-319: the first lines of a client method. *)
Definition method_head (return_type : string) (node : fn_node) : list wop :=
  match fn_args node with
  | [] => [ WritelnTab 1 (return_type ++ " " ++ camel (fn_id node) ++ "() {") ]
  | _ =>
      [ WritelnTab 1 (return_type ++ " " ++ camel (fn_id node) ++ "({");
        Write (generate_fn_args node);
        WritelnTab 1 "}) {" ]
  end.

(** src/dart/rpc.rs:233-238 and 341-346: writing the arguments. *)
Definition write_args (node : fn_node) : rops :=
  rflat (fun arg => rline 4 (generate_write (fa_type arg) (camel (fa_id arg)))) (fn_args node).

(** src/dart/rpc.rs:205-274 [generate_sync_rpc_method]. *)
Definition generate_sync_rpc_method (node : fn_node) : res string :=
  rshow (
    Ok (method_head (generate_option_type_id (fn_return node)) node ++
        [ WritelnTab 2 "_scheduler.syncWrite(";
          WritelnTab 3 "_scopeId,";
          WritelnTab 3 (show_N (fn_position node) ++ ",");
          WritelnTab 3 "TechPawsRuntimeRpcMethodBuffer.server,";
          WritelnTab 3 "(writer) {";
          WritelnTab 4 "writer.writeInt8(TechPawsRpcBufferStatus.hasData.value);" ])%list +++
    write_args node +++
    Ok [ WritelnTab 3 "},";
         WritelnTab 2 ");";
         Writeln "";
         WritelnTab 2 "_scheduler.loopSyncGroup();";
         Writeln "" ] +++
    match fn_return node with
    | Some return_type_id =>
        let* r := generate_read return_type_id in
        Ok [ WritelnTab 2 ("final result = _scheduler.syncRead<" ++ generate_type_id return_type_id
                             ++ ">(");
             WritelnTab 3 "_scopeId,";
             WritelnTab 3 (show_N (fn_position node) ++ ",");
             WritelnTab 3 "TechPawsRuntimeRpcMethodBuffer.client,";
             WritelnTab 3 "(reader) {";
             WritelnTab 4 "final status = reader.readInt8();";
             Writeln "";
             WritelnTab 4 "if (status != TechPawsRpcBufferStatus.hasData.value) {";
             WritelnTab 5 "throw StateError('No data');";
             WritelnTab 4 "}";
             Writeln "";
             WritelnTab 4 ("return " ++ r ++ ";");
             WritelnTab 3 "},";
             WritelnTab 2 ");";
             Writeln "";
             WritelnTab 2 "return result;" ]
    | None => Ok []
    end +++
    Ok [ WritelnTab 1 "}" ]).

(** src/dart/rpc.rs:373-388 and 427-442: the first lines of a connect method. *)
Definition connect_head (node : fn_node) : list wop :=
  [ WritelnTab 1 ("void _connect" ++ pascal (fn_id node) ++ "() {");
    WritelnTab 2 (var_read_task node ++ " = _scheduler.read(");
    WritelnTab 3 "_scopeId,";
    WritelnTab 3 (show_N (fn_position node) ++ ",");
    WritelnTab 3 "TechPawsRuntimeRpcMethodBuffer.client,";
    WritelnTab 3 "(reader) {";
    WritelnTab 4 "final status = reader.readInt8();";
    Writeln "";
    WritelnTab 4 "if (status != TechPawsRpcBufferStatus.hasData.value) {";
    WritelnTab 5 "return;";
    WritelnTab 4 "}";
    Writeln "" ].

(** src/dart/rpc.rs:370-422 [generate_async_rpc_connect_method]. *)
Definition generate_async_rpc_connect_method (node : fn_node) : res string :=
  rshow (
    Ok (connect_head node ++ [ WritelnTab 4 "final methodId = reader.readInt64();" ])%list +++
    match fn_return node with
    | Some return_type_id =>
        let* r := generate_read return_type_id in
        Ok [ WritelnTab 4 ("final result = " ++ r ++ ";");
             Writeln "";
             WritelnTab 4 (var_method_completers node ++ "[methodId]?.complete(result);") ]
    | None =>
        Ok [ Writeln "";
             WritelnTab 4 (var_method_completers node ++ "[methodId]?.complete();") ]
    end +++
    Ok [ WritelnTab 4 (var_method_completers node ++ ".remove(methodId);");
         WritelnTab 3 "},";
         WritelnTab 2 ");";
         WritelnTab 1 "}" ]).

(** src/dart/rpc.rs:293-368 [generate_async_rpc_method]. *)
Definition generate_async_rpc_method (node : fn_node) : res string :=
  rshow (
    (let* c := generate_async_rpc_connect_method node in Ok [ Writeln c ]) +++
    Ok (method_head ("Future<" ++ generate_option_type_id (fn_return node) ++ ">") node ++
        [ WritelnTab 2 ("final methodId = " ++ var_last_method_id node ++ ";");
          WritelnTab 2 (var_last_method_id node ++ " = rotateMethodId(" ++ var_last_method_id node
                          ++ ");");
          Writeln "";
          WritelnTab 2 "_scheduler.write(";
          WritelnTab 3 "_scopeId,";
          WritelnTab 3 (show_N (fn_position node) ++ ",");
          WritelnTab 3 "TechPawsRuntimeRpcMethodBuffer.server,";
          WritelnTab 3 "(writer) {";
          WritelnTab 4 "writer.writeInt8(TechPawsRpcBufferStatus.hasData.value);";
          WritelnTab 4 "writer.writeInt64(methodId);" ])%list +++
    write_args node +++
    Ok [ WritelnTab 3 "},";
         WritelnTab 2 ");";
         Writeln "";
         WritelnTab 2 ("final completer = Completer<" ++ generate_option_type_id (fn_return node)
                         ++ ">();");
         WritelnTab 2 (var_method_completers node ++ "[methodId] = completer;");
         Writeln "";
         WritelnTab 2 "return completer.future;";
         WritelnTab 1 "}" ]).

(** src/dart/rpc.rs:424-466 [generate_read_rpc_method]. *)
Definition generate_read_rpc_method (node : fn_node) : res string :=
  rshow (
    Ok (connect_head node) +++
    match fn_return node with
    | Some return_type_id =>
        let* r := generate_read return_type_id in
        Ok [ WritelnTab 4 ("final result = " ++ r ++ ";");
             WritelnTab 4 (var_read_stream_controller node ++ ".add(result);") ]
    | None => Ok [ WritelnTab 4 (var_read_stream_controller node ++ ".add(null);") ]
    end +++
    Ok [ WritelnTab 3 "},";
         WritelnTab 2 ");";
         WritelnTab 1 "}" ]).

(** src/dart/rpc.rs:150-157: the text of one client method. *)
Definition generate_method (node : fn_node) : res string :=
  if fn_is_read node then generate_read_rpc_method node
  else if fn_is_async node then generate_async_rpc_method node
  else generate_sync_rpc_method node.

(** src/dart/rpc.rs:88-125: the variables of one method. *)
Definition method_vars (node : fn_node) : list wop :=
  ((if is_async_or_read node then [ Writeln "" ] else []) ++
   (if fn_is_async node && negb (fn_is_read node) then
      [ WritelnTab 1 ("int " ++ var_last_method_id node ++ " = 0;");
        WritelnTab 1 ("final " ++ var_method_completers node ++ " = <int, Completer<"
                        ++ generate_option_type_id (fn_return node) ++ ">>{};") ] else []) ++
   (if is_async_or_read node then
      [ WritelnTab 1 ("late final TechPawsRuntimeRpcReadTask " ++ var_read_task node ++ ";") ]
    else []) ++
   (if fn_is_read node then
      [ WritelnTab 1 ("final " ++ var_read_stream_controller node ++ " = StreamController<"
                        ++ generate_option_type_id (fn_return node) ++ ">.broadcast();") ]
    else []))%list.

(** src/dart/rpc.rs:127-141: the getter of one read method. *)
Definition method_getter (node : fn_node) : list wop :=
  if fn_is_read node then
    [ Writeln "";
      WritelnTab 1 ("Stream<" ++ generate_option_type_id (fn_return node) ++ "> get "
                      ++ camel (fn_id node) ++ " => " ++ var_read_stream_controller node
                      ++ ".stream;") ]
  else [].

(** [find_directive_value(ast, key).expect(..)] and its string, src/dart/rpc.rs:35-55. *)
Definition required_string (ast : list ast_node) (key : string) : res string :=
  match find_directive_value ast key with
  | Some (ConstLiteral (StringLit value) _) => Ok value
  | _ => Panic
  end.

(** src/dart/rpc.rs:26-168 [generate_rpc_methods]. *)
Definition generate_rpc_methods (ast : list ast_node) : res string :=
  let fn_nodes := find_fn_nodes ast in
  match fn_nodes with
  | [] => Ok ""
  | first :: _ =>
      let* namespace := required_string ast "namespace" in
      let* id := required_string ast "id" in
      let constructor := generate_constructor fn_nodes in
      let last_position := fn_position (last fn_nodes first) in
      rshow (
        Ok ([ Writeln ("class " ++ pascal namespace ++ "RpcClient {") ] ++
            (if String.eqb constructor "" then
               [ WritelnTab 1 (pascal namespace ++ "RpcClient(this._scheduler);") ]
             else
               [ WritelnTab 1 (pascal namespace ++ "RpcClient(this._scheduler) {");
                 Write constructor;
                 WritelnTab 1 "}" ]) ++
            [ Writeln "";
              WritelnTab 1 "final TechPawsRuntimeRpcScheduler _scheduler;";
              WritelnTab 1 ("static const _scopeId = '" ++ id ++ "';") ] ++
            flat_map method_vars fn_nodes ++
            flat_map method_getter fn_nodes ++
            [ Writeln "";
              Write (generate_disconnect fn_nodes) ] ++
            (if Nat.ltb 1 (length fn_nodes) then [ Writeln "" ] else []))%list +++
        rflat (fun node =>
          let* method := generate_method node in
          Ok ([ Write method ] ++
              (if N.eqb (fn_position node) last_position then [] else [ Writeln "" ]))%list)
          fn_nodes +++
        Ok [ Writeln "}" ])
  end.

(** src/dart_generator.rs:121-127 [generate_rpc]. *)
Definition generate_rpc (ast : list ast_node) : res string :=
  let* s := generate_rpc_methods ast in Ok (show_ops2 [ Write s ]).

(** src/dart_generator.rs:37-50, the imports. *)
Definition generate_imports (ast : list ast_node) : res (list wop) :=
  mapM (fun import =>
    match import with
    | ConstLiteral (StringLit value) _ => Ok (Writeln ("import '" ++ value ++ "';"))
    | _ => Panic
    end) (find_directive_group_values ast "dart" "import").

(** src/dart_generator.rs:20-22, the fixed first lines. *)
Definition dart_prelude : list wop :=
  [ Writeln "// GENERATED, DO NOT EDIT";
    Writeln "// ignore_for_file: unused_import";
    Writeln "" ].

(** src/dart_generator.rs:24-35, the library imports. *)
Definition dart_lib_imports (ast : list ast_node) (buffers rpc : bool) : list wop :=
  if rpc && negb (match find_fn_nodes ast with [] => true | _ => false end) then
    [ Writeln "import 'dart:async';";
      Writeln "import 'dart:convert';";
      Writeln "";
      Writeln "import 'package:tech_paws_buffers/tech_paws_buffers.dart';";
      Writeln "import 'package:tech_paws_buffers/primitives.dart';";
      Writeln "import 'package:tech_paws_runtime/scheduler.dart';";
      Writeln "import 'package:tech_paws_runtime/tech_paws_runtime.dart';" ]
  else if buffers then
    [ Writeln "import 'package:tech_paws_buffers/tech_paws_buffers.dart';";
      Writeln "import 'package:tech_paws_buffers/primitives.dart';" ]
  else [].

(** src/dart_generator.rs:17-79 [generate]. *)
Definition dart_generate (ast : list ast_node) (models buffers rpc : bool) : res string :=
  let section (on : bool) (text : res string) : rops :=
    if on then let* s := text in Ok [ Writeln ""; Write s ] else Ok [] in
  let* ops :=
    Ok (dart_prelude ++ dart_lib_imports ast buffers rpc)%list +++
    generate_imports ast +++
    section (contains_consts_nodes ast) (Ok (generate_consts ast)) +++
    section models (generate_models ast) +++
    section buffers (generate_buffers ast) +++
    section rpc (generate_rpc ast) in
  Ok (trim_blank_lines (show_ops2 ops)).
