(** Lemmas behind the theorems of PropertiesSameDef.v. *)

(** Property theorems about default values in all generated languages, C61: the default of a type is the same in Rust, Dart,
    Kotlin and Swift.  The texts are read back and run by the rules of RustDefault, DartSem, KotlinSem and SwiftSem.
    After each theorem, a concrete case that meets its hypotheses, and its axioms. *)
Require Import Coq.Strings.String Coq.Strings.Ascii.
Require Import Coq.NArith.NArith Coq.ZArith.ZArith Coq.Lists.List Coq.Bool.Bool Coq.Arith.PeanoNat.
Require Import Coq.micromega.Lia.
Require Import Verif.Base Verif.F64 Verif.Ast Verif.Lexer Verif.Parser Verif.CaseConv Verif.Code Verif.RustSyntax Verif.RustGen Verif.RustTree Verif.RustFile Verif.RustWf Verif.RustSem Verif.Wire Verif.RustCodec Verif.CodecFacts.
Require Import Verif.DartSyntax Verif.DartGen Verif.DartTree Verif.DartFile Verif.DartWf Verif.DartSem Verif.DartWire Verif.DartRun Verif.DartShape Verif.DartCodec Verif.DartAgree Verif.DartFacts.
Require Verif.Defaults Verif.RustDefault Verif.RustFine Verif.DefaultFacts Verif.ParseFacts.
Require Verif.KotlinSyntax Verif.KotlinTree Verif.KotlinSem Verif.KotlinCheck Verif.KotlinFacts.
Require Verif.SwiftSyntax Verif.SwiftTree Verif.SwiftSem Verif.SwiftCheck Verif.SwiftFacts.
Require Import Verif.SameDefSpec.
Import Defaults(default_value, schema_value, all_some, named_values).
Import RustDefault(types_compile, run_default, RValue, RMore).
Import RustFine(rust_fine).
Import DefaultFacts(schema_names, rust_items_tree, lem_C52_rust_defaults, lem_C52_dart_default).
Import KotlinFacts(kotlin_models).
Import KotlinSyntax(kotlin_file).
Import KotlinCheck(kotlin_fine, kotlin_of).
Import SwiftFacts(swift_models).
Import SwiftSyntax(swift_file).
Import SwiftCheck(swift_fine, swift_of).
Import ListNotations.
Local Open Scope string_scope.
Local Open Scope list_scope.

(** ** C61: defaults in all languages *)
Definition c61_src : string :=
  "struct Line { from: Point, to_all: Vec<Point>, label: String, style: Style, visible: bool } struct Point { x: f32, y: f64, z_index: i32, id: u64, b: u8 } enum Style { Dashed { width: u32, gap: Point }, Dots(i64, Vec<u8>), Plain } enum Side { Left(Point, i8), Right } enum Mode { Fast, Slow(String) } struct Nothing;".

Definition c61_ast : list ast_node := Eval vm_compute in match compile_front c61_src with Ok a => a | _ => [] end.

Definition c61_rust : list item := Eval vm_compute in rust_tree c61_ast true true true.

Definition c61_dart : list ditem := Eval vm_compute in dart_tree c61_ast true true false.

(** Types of which a default is a number, a truth value, a text, a list or a declared value. *)
Definition default_of (t : type_id) : Prop := match t with TyOther _ => True | TyChar _ => False | _ => ParseFacts.sized t end.

Definition all_defaults (ds : list decl) : Prop :=
  (forall s, In (Wire.DStruct s) ds -> Forall (fun f => default_of (sf_type f)) (sn_fields s)) /\
  (forall e i l, In (Wire.DEnum e) ds -> en_items e = i :: l -> Forall default_of (RustFine.payload i)).

Lemma all_some_each {A B} (f : A -> option B) (P : B -> Prop) l : forall m, all_some f l = Some m ->
  (forall x y, In x l -> f x = Some y -> P y) -> Forall P m.
Proof.
  induction l as [|x l IH]; intros m E H; cbn [all_some] in E.
  - injection E as <-.
  constructor.
  - destruct (f x) as [y|] eqn:F; [|discriminate].
  change ((fix go (l0 : list A) : option (list B) :=
           match l0 with
           | [] => Some []
           | x0 :: l' => match f x0, go l' with Some y0, Some ys => Some (y0 :: ys) | _, _ => None end
           end) l) with (all_some f l) in E.
  destruct (all_some f l) as [ys|] eqn:G; [|discriminate].
  injection E as <-.
  constructor; [now apply (H x); [left|]|].
  apply IH; [reflexivity|].
  intros a b I.
  apply H.
  now right.
Qed.

Lemma decl_of_in n ds d : decl_of n ds = Some d -> In d ds.
Proof.
  unfold decl_of.
  apply find_some.
Qed.

Lemma forall2_map {A B C} (R : B -> C -> Prop) (f : A -> B) (g : A -> C) l : Forall (fun x => R (f x) (g x)) l -> Forall2 R (map f l) (map g l).
Proof.
  induction 1; cbn [map]; constructor; assumption.
Qed.

Lemma in_places_names i l : map fst (KotlinCheck.in_places i l) = map (fun i => ("p" ++ show_nat i)%string) (seq i (List.length l)).
Proof.
  revert i.
  induction l as [|v l IH]; intros i; [reflexivity|].
  cbn [KotlinCheck.in_places map seq List.length fst].
  now rewrite IH.
Qed.

Lemma in_places_values i l : map snd (KotlinCheck.in_places i l) = l.
Proof.
  revert i.
  induction l as [|v l IH]; intros i; [reflexivity|].
  cbn [KotlinCheck.in_places map snd].
  now rewrite IH.
Qed.

(** The images of a default value in the languages are the same. *)
Lemma images empty ds f : all_defaults ds -> forall t d, default_of t -> default_value ds f t = Some d ->
  kotlin_same empty (schema_value empty d) (kotlin_of d) /\ swift_same empty (schema_value empty d) (swift_of d).
Proof.
  intros (HS & HE).
  induction f as [|f IH]; intros t d SZ E.
  - destruct t as [n s g|n s|n|n|n l|n]; cbn [default_value] in E; cbn [default_of ParseFacts.sized] in SZ.
  + injection E as <-.
  cbn [schema_value prim_name kotlin_of swift_of].
  change 0%Z with (Z.of_N 0).
  split; [apply ks_whole|apply ws_whole]; destruct SZ as [(-> & -> & ->)|[(-> & -> & ->)|[(-> & -> & ->)|[(-> & -> & ->)|[(-> & -> & ->)|(-> & -> & ->)]]]]]; cbn; tauto.
  + injection E as <-.
  cbn [schema_value prim_name].
  destruct SZ as [(-> & ->)|(-> & ->)]; cbn [kotlin_of swift_of]; (split; [apply ks_zero|apply ws_zero]); cbn; tauto.
  + injection E as <-.
  split; [exact (ks_truth empty false)|exact (ws_truth empty false)].
  + destruct SZ.
  + destruct l as [|a [|]]; try discriminate.
  destruct (String.eqb n "Vec"); [|discriminate].
  injection E as <-.
  split; [exact (ks_list empty _ [] [] (Forall2_nil _))|exact (ws_list empty _ [] [] (Forall2_nil _))].
  + destruct (decl_of n ds) as [[]|]; try discriminate.
  destruct (String.eqb n "String"); [|discriminate].
  injection E as <-.
  split; constructor.
  - destruct t as [n s g|n s|n|n|n l|n]; cbn [default_value] in E; cbn [default_of ParseFacts.sized] in SZ.
  + injection E as <-.
  cbn [schema_value prim_name kotlin_of swift_of].
  change 0%Z with (Z.of_N 0).
  split; [apply ks_whole|apply ws_whole]; destruct SZ as [(-> & -> & ->)|[(-> & -> & ->)|[(-> & -> & ->)|[(-> & -> & ->)|[(-> & -> & ->)|(-> & -> & ->)]]]]]; cbn; tauto.
  + injection E as <-.
  cbn [schema_value prim_name].
  destruct SZ as [(-> & ->)|(-> & ->)]; cbn [kotlin_of swift_of]; (split; [apply ks_zero|apply ws_zero]); cbn; tauto.
  + injection E as <-.
  split; [exact (ks_truth empty false)|exact (ws_truth empty false)].
  + destruct SZ.
  + destruct l as [|a [|]]; try discriminate.
  destruct (String.eqb n "Vec"); [|discriminate].
  injection E as <-.
  split; [exact (ks_list empty _ [] [] (Forall2_nil _))|exact (ws_list empty _ [] [] (Forall2_nil _))].
  + destruct (decl_of n ds) as [[s|e]|] eqn:DO.
  * apply decl_of_in in DO.
  specialize (HS s DO).
  destruct (named_values (default_value ds f) (sn_fields s)) as [fs|] eqn:NV; [|discriminate].
  injection E as <-.
  unfold named_values in NV.
  assert (G : Forall (fun x => kotlin_same empty (schema_value empty (snd x)) (kotlin_of (snd x)) /\ swift_same empty (schema_value empty (snd x)) (swift_of (snd x))) fs).
  { apply (all_some_each _ _ _ _ NV).
  intros x y I Y.
  destruct (default_value ds f (sf_type x)) as [v|] eqn:V; [|discriminate].
  injection Y as <-.
  cbn [snd].
  apply (IH (sf_type x)); [|exact V].
  rewrite Forall_forall in HS.
  now apply HS.
  }
        cbn [schema_value kotlin_of swift_of].
  split; [apply ks_struct|apply ws_struct]; apply forall2_map; (eapply Forall_impl; [|exact G]); intros [x v] [K W]; cbn [fst snd] in *; split; try reflexivity; assumption.
  * apply decl_of_in in DO.
  destruct (en_items e) as [|[p c|p c vs|p c fs] l] eqn:EI; try discriminate.
  -- injection E as <-.
  split; constructor.
  -- specialize (HE e _ _ DO EI).
  destruct (all_some _ vs) as [ws|] eqn:NV; [|discriminate].
  injection E as <-.
  assert (G : Forall (fun x => kotlin_same empty (schema_value empty x) (kotlin_of x) /\ swift_same empty (schema_value empty x) (swift_of x)) ws).
  { apply (all_some_each _ _ _ _ NV).
  intros x y I Y.
  apply (IH (tf_type x)); [|exact Y].
  rewrite Forall_forall in HE.
  apply HE.
  now apply in_map.
  }
           cbn [schema_value kotlin_of swift_of].
  split.
  ++ apply ks_tuple; [rewrite in_places_names, !map_length; reflexivity|].
  rewrite in_places_values.
  apply forall2_map.
  eapply Forall_impl; [|exact G].
  now intros x [K _].
  ++ apply ws_tuple, forall2_map.
  eapply Forall_impl; [|exact G].
  now intros x [_ W].
  -- specialize (HE e _ _ DO EI).
  destruct (named_values (default_value ds f) fs) as [gs|] eqn:NV; [|discriminate].
  injection E as <-.
  unfold named_values in NV.
  assert (G : Forall (fun x => kotlin_same empty (schema_value empty (snd x)) (kotlin_of (snd x)) /\ swift_same empty (schema_value empty (snd x)) (swift_of (snd x))) gs).
  { apply (all_some_each _ _ _ _ NV).
  intros x y I Y.
  destruct (default_value ds f (sf_type x)) as [v|] eqn:V; [|discriminate].
  injection Y as <-.
  cbn [snd].
  apply (IH (sf_type x)); [|exact V].
  rewrite Forall_forall in HE.
  apply HE.
  now apply in_map.
  }
           cbn [schema_value kotlin_of swift_of].
  split; [apply ks_record|apply ws_record]; apply forall2_map; (eapply Forall_impl; [|exact G]); intros [x v] [K W]; cbn [fst snd] in *; try split; try reflexivity; assumption.
  * destruct (String.eqb n "String"); [|discriminate].
  injection E as <-.
  split; constructor.
Qed.

Lemma in_schema_decls ast d : In d (schema_decls ast) -> match d with Wire.DStruct s => In (NStruct s) ast | Wire.DEnum e => In (NEnum e) ast end.
Proof.
  unfold schema_decls.
  intros I.
  apply in_flat_map in I as (n & I & J).
  destruct n; cbn in J; try contradiction; destruct J as [<-|[]]; exact I.
Qed.

Lemma parsed_defaults src ast all : compile_front src = Ok ast -> rust_fine (schema_decls ast) all = true -> all_defaults (schema_decls ast).
Proof.
  unfold compile_front.
  destruct (tokenize src) as [ts| |]; try discriminate.
  cbn [bind].
  intros P F.
  unfold rust_fine in F.
  rewrite !andb_true_iff in F.
  destruct F as ((_ & F) & _).
  rewrite forallb_forall in F.
  split.
  - intros s I.
  pose proof (F _ I) as G.
  cbn [RustFine.default_fine] in G.
  rewrite forallb_forall in G.
  apply Forall_forall.
  intros f J.
  assert (SZ : ParseFacts.sized (sf_type f)).
  { apply (ParseFacts.lem_C14_types_are_sized ts ast (NStruct s) _ P (in_schema_decls _ _ I)).
  cbn [ParseFacts.decl_types].
  now apply in_map.
  }
    specialize (G f J).
  unfold default_of.
  destruct (sf_type f); try exact SZ; [discriminate G|exact Logic.I].
  - intros e i l I EI.
  pose proof (F _ I) as G.
  cbn [RustFine.default_fine] in G.
  rewrite EI, forallb_forall in G.
  apply Forall_forall.
  intros t J.
  assert (SZ : ParseFacts.sized t).
  { apply (ParseFacts.lem_C14_types_are_sized ts ast (NEnum e) _ P (in_schema_decls _ _ I)).
  cbn [ParseFacts.decl_types].
  apply in_flat_map.
  exists i.
  rewrite EI.
  split; [now left|exact J].
  }
    specialize (G t J).
  unfold default_of.
  destruct t; try exact SZ; [discriminate G|exact Logic.I].
Qed.

Lemma names_swift ast : SwiftCheck.swift_names ast = schema_names ast.
Proof.
  unfold SwiftCheck.swift_names, schema_names, schema_decls.
  induction ast as [|n ast IH]; [reflexivity|].
  cbn [flat_map].
  rewrite map_app, <- IH.
  now destruct n.
Qed.

Lemma name_declared ast m : In m (schema_names ast) -> decl_of m (schema_decls ast) <> None.
Proof.
  unfold schema_names.
  intros I.
  apply in_map_iff in I as (x & X & J).
  unfold decl_of.
  intros N.
  apply (find_none _ _ N) in J.
  rewrite X, String.eqb_refl in J.
  discriminate.
Qed.

Definition c61_point : val := vrec "Point" [("x", vnum "f32" 0); ("y", vnum "f64" 0); ("z_index", vnum "i32" 0); ("id", vnum "u64" 0); ("b", vnum "u8" 0)].

Definition c61_line : val :=
  vrec "Line" [("from", c61_point); ("to_all", vbox "Vec" 0 []); ("label", vext "String" 0); ("style", vcases "Style" "Dashed" [("width", vnum "u32" 0); ("gap", c61_point)]); ("visible", vnum "bool" 0)].

Lemma lem_C61_rust_kotlin : forall src ast buffers rpc rust_file text m,
  compile_front src = Ok ast -> rust_ready ast = true -> file_items ast true buffers rpc rust_file -> rust_fine (schema_decls ast) (rust_decls ast true rpc) = true ->
  kotlin_fine ast = true -> In m (schema_names ast) ->
  exists ktext kotlin f v k,
    kotlin_models ast = Ok ktext /\ kotlin_file ktext = Some kotlin /\ KotlinSem.compiles kotlin = true /\
    run_default rust_file text f m = RValue v /\ KotlinSem.run_default kotlin f m = KotlinSem.KValue k /\ kotlin_same text v k.
Proof.
  intros src ast buffers rpc rust_file text m P RR RF RFI KF I.
  destruct (lem_C52_rust_defaults ast buffers rpc rust_file text RR RF RFI) as (_ & _ & RD).
  destruct (RD m I) as (f & d & V & RV).
  destruct (KotlinFacts.lem_C50_defaults ast KF) as (ktext & kotlin & K1 & K2 & K3 & KD).
  exists ktext, kotlin, (2 * f + 1), (schema_value text d), (kotlin_of d).
  destruct (images text _ f (parsed_defaults src ast _ P RFI) (TyOther m) d Logic.I V) as [KS _].
  split; [exact K1|].
  split; [exact K2|].
  split; [exact K3|].
  split; [exact RV|].
  split; [rewrite (KD m f (name_declared _ _ I)); now rewrite V|exact KS].
Qed.

Lemma lem_C61_rust_swift : forall src ast buffers rpc rust_file text m,
  compile_front src = Ok ast -> rust_ready ast = true -> file_items ast true buffers rpc rust_file -> rust_fine (schema_decls ast) (rust_decls ast true rpc) = true ->
  swift_fine ast = true -> In m (schema_names ast) ->
  exists stext swift f v w,
    swift_models ast = Ok stext /\ swift_file stext = Some swift /\ SwiftSem.compiles swift = true /\
    run_default rust_file text f m = RValue v /\ SwiftSem.run_default swift f m = SwiftSem.SValue w /\ swift_same text v w.
Proof.
  intros src ast buffers rpc rust_file text m P RR RF RFI SF I.
  destruct (lem_C52_rust_defaults ast buffers rpc rust_file text RR RF RFI) as (_ & _ & RD).
  destruct (RD m I) as (f & d & V & RV).
  destruct (SwiftFacts.lem_C51_defaults ast SF) as (stext & swift & S1 & S2 & S3 & SD & _).
  exists stext, swift, (2 * f + 1), (schema_value text d), (swift_of d).
  destruct (images text _ f (parsed_defaults src ast _ P RFI) (TyOther m) d Logic.I V) as [_ WS].
  split; [exact S1|].
  split; [exact S2|].
  split; [exact S3|].
  split; [exact RV|].
  split; [rewrite (SD m f); [now rewrite V|now rewrite names_swift]|exact WS].
Qed.

Lemma lem_C61_same_defaults : forall src ast buffers rust_rpc rust_file D m,
  let ds := schema_decls ast in
  let text := rd_ext_new D (DTy "String" []) in
  compile_front src = Ok ast -> rust_ready ast = true -> file_items ast true buffers rust_rpc rust_file -> rust_fine ds (rust_decls ast true rust_rpc) = true ->
  kotlin_fine ast = true -> swift_fine ast = true -> In m (schema_names ast) ->
  exists ktext kotlin stext swift f v k w,
    kotlin_models ast = Ok ktext /\ kotlin_file ktext = Some kotlin /\ KotlinSem.compiles kotlin = true /\
    swift_models ast = Ok stext /\ swift_file stext = Some swift /\ SwiftSem.compiles swift = true /\
    run_default rust_file text f m = RValue v /\ KotlinSem.run_default kotlin f m = KotlinSem.KValue k /\ SwiftSem.run_default swift f m = SwiftSem.SValue w /\
    kotlin_same text v k /\ swift_same text v w /\
    (forall U dart_rpc items cd dfuel s, dart_ready ast = true -> dart_items ast dart_rpc items -> dart_codecs_ok ast items = true -> zeros D U ds ->
       creatable ds (top_names items) cd (TyOther m) = true -> 3 * cd + 1 <= dfuel ->
       exists o h, dart_call D items dfuel (m ++ "BuffersFactory") "createDefault" [] s = DDone o (set_heap h s) /\
         changes (d_heap s) h [] /\ rep U ds (fresh (d_heap s) h) h o v (TyOther m)).
Proof.
  intros src ast buffers rust_rpc rust_file D m ds text P RR RF RFI KF SF I.
  destruct (lem_C52_rust_defaults ast buffers rust_rpc rust_file text RR RF RFI) as (_ & _ & RD).
  destruct (RD m I) as (f & d & V & RV).
  destruct (KotlinFacts.lem_C50_defaults ast KF) as (ktext & kotlin & K1 & K2 & K3 & KD).
  destruct (SwiftFacts.lem_C51_defaults ast SF) as (stext & swift & S1 & S2 & S3 & SD & _).
  pose proof (name_declared _ _ I) as DC.
  fold ds in DC.
  exists ktext, kotlin, stext, swift, (2 * f + 1), (schema_value text d), (kotlin_of d), (swift_of d).
  destruct (images text ds f (parsed_defaults src ast _ P RFI) (TyOther m) d Logic.I V) as [KS WS].
  split; [exact K1|].
  split; [exact K2|].
  split; [exact K3|].
  split; [exact S1|].
  split; [exact S2|].
  split; [exact S3|].
  split; [exact RV|].
  split; [rewrite (KD m f DC); now rewrite V|].
  split; [rewrite (SD m f); [now rewrite V|now rewrite names_swift]|].
  split; [exact KS|].
  split; [exact WS|].
  intros U dart_rpc items cd dfuel s DR DI DO Z C FU.
  destruct (lem_C52_dart_default ast dart_rpc items D U m cd f d dfuel s DR DI DO Z) as (o & h & H); [|exact C|exact V|exact FU|].
  - unfold declared.
  fold ds.
  destruct (decl_of m ds); [reflexivity|congruence].
  - exists o, h.
  exact H.
Qed.
