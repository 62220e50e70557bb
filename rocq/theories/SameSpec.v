(** The values of constants in Kotlin and Swift as plain numbers, booleans and texts, to compare them with those in Rust
    and Dart; independent of the generators. *)
Require Import Coq.Strings.String Coq.ZArith.ZArith.
Require Import Verif.ConstSpec.
Require Verif.KotlinSem Verif.SwiftSem.
Import KotlinSem(kval, VWhole, VReal, VTruth, VText). Import SwiftSem(wval, WWhole, WReal, WTruth, WText).

Definition kotlin_means (v : kval) : option cval :=
  match v with
  | VWhole _ n => Some (CInt (Z.of_N n))
  | VReal _ x => Some (CReal x)
  | VTruth b => Some (CTruth b)
  | VText s => Some (CText s)
  | _ => None
  end.
Definition swift_means (v : wval) : option cval :=
  match v with
  | WWhole _ n => Some (CInt (Z.of_N n))
  | WReal _ x => Some (CReal x)
  | WTruth b => Some (CTruth b)
  | WText s => Some (CText s)
  | _ => None
  end.
