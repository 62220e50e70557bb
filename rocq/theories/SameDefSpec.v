(** When a value of a schema type and a Kotlin or Swift value are the same; independent of the generators and of how defaults
    are computed.  Names are converted as in the other properties about Kotlin and Swift. *)
Require Import Coq.Strings.String.
Require Import Coq.NArith.NArith Coq.ZArith.ZArith Coq.Lists.List.
Require Import Verif.Base Verif.F64 Verif.CaseConv Verif.RustSem.
Require Verif.KotlinSem Verif.SwiftSem.
Import ListNotations.
Local Open Scope string_scope.
Local Open Scope list_scope.

(** Number types of the schema and of the two languages. *)
Definition kotlin_whole : list (string * string) :=
  [("i8", "Byte"); ("i32", "Int"); ("i64", "Long"); ("u8", "UByte"); ("u32", "UInt"); ("u64", "ULong")].
Definition swift_whole : list (string * string) :=
  [("i8", "Int8"); ("i32", "Int32"); ("i64", "Int64"); ("u8", "UInt8"); ("u32", "UInt32"); ("u64", "UInt64")].
Definition real_types : list (string * string) := [("f32", "Float"); ("f64", "Double")].

Section Same.
(** The text that stands for the empty one; other texts come from outside and are not compared. *)
Variable empty : N.

(** Floating-point numbers are bit patterns on the left, so only zero is compared. *)
Inductive kotlin_same : val -> KotlinSem.kval -> Prop :=
| ks_whole p t n : In (p, t) kotlin_whole -> kotlin_same (vnum p (Z.of_N n)) (KotlinSem.VWhole t n)
| ks_zero p t e : In (p, t) real_types -> kotlin_same (vnum p 0) (KotlinSem.VReal t (F64Fin 0 e))
| ks_truth (b : bool) : kotlin_same (vnum "bool" (if b then 1 else 0)%Z) (KotlinSem.VTruth b)
| ks_text : kotlin_same (vext "String" empty) (KotlinSem.VText "")
| ks_list t l ks : Forall2 kotlin_same l ks -> kotlin_same (vbox "Vec" (N.of_nat (List.length l)) l) (KotlinSem.VList t ks)
| ks_struct n fs ps : Forall2 (fun f p => fst p = camel (fst f) /\ kotlin_same (snd f) (snd p)) fs ps -> kotlin_same (vrec n fs) (KotlinSem.VNew n ps)
| ks_plain e c : kotlin_same (vcase e c) (KotlinSem.VObject (e ++ c)%string)
| ks_tuple e c l ps : map fst ps = map (fun i => ("p" ++ show_nat i)%string) (seq 0 (List.length l)) -> Forall2 kotlin_same l (map snd ps) ->
    kotlin_same (vcaset e c l) (KotlinSem.VNew (e ++ c)%string ps)
| ks_record e c fs ps : Forall2 (fun f p => fst p = fst f /\ kotlin_same (snd f) (snd p)) fs ps -> kotlin_same (vcases e c fs) (KotlinSem.VNew (e ++ c)%string ps).

Inductive swift_same : val -> SwiftSem.wval -> Prop :=
| ws_whole p t n : In (p, t) swift_whole -> swift_same (vnum p (Z.of_N n)) (SwiftSem.WWhole t n)
| ws_zero p t e : In (p, t) real_types -> swift_same (vnum p 0) (SwiftSem.WReal t (F64Fin 0 e))
| ws_truth (b : bool) : swift_same (vnum "bool" (if b then 1 else 0)%Z) (SwiftSem.WTruth b)
| ws_text : swift_same (vext "String" empty) (SwiftSem.WText "")
| ws_list t l ks : Forall2 swift_same l ks -> swift_same (vbox "Vec" (N.of_nat (List.length l)) l) (SwiftSem.WArray t ks)
| ws_struct n fs ps : Forall2 (fun f p => fst p = camel (fst f) /\ swift_same (snd f) (snd p)) fs ps -> swift_same (vrec n fs) (SwiftSem.WStruct n ps)
| ws_plain e c : swift_same (vcase e c) (SwiftSem.WCase e (camel c) [])
| ws_tuple e c l ks : Forall2 swift_same l ks -> swift_same (vcaset e c l) (SwiftSem.WCase e (camel c) ks)
| ws_record e c fs ks : Forall2 (fun f k => swift_same (snd f) k) fs ks -> swift_same (vcases e c fs) (SwiftSem.WCase e (camel c) ks).
End Same.
