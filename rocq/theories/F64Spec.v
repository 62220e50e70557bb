(** What a correctly rounded float is, independently of F64.v's algorithm: among all doubles, one
    that is nearest to the given rational number, with an even significand in case of a tie, and
    infinity from the midpoint above the largest double. *)
Require Import Coq.NArith.NArith Coq.ZArith.ZArith Coq.QArith.QArith Coq.QArith.Qabs Coq.QArith.Qpower.
Require Import Verif.F64.
Local Open Scope Q_scope.

Definition qN (n : N) : Q := inject_Z (Z.of_N n).
Definition two : Q := inject_Z 2.
Definition ten : Q := inject_Z 10.

(** The number m * 2^e. *)
Definition value (m : N) (e : Z) : Q := qN m * two ^ e.

(** The finite non-negative doubles (IEEE 754 binary64): 53-bit significands, exponents from -1074
    to 971; the significand has its top bit set unless the exponent is the smallest. *)
Definition double (m : N) (e : Z) : Prop :=
  (m < 2 ^ 53)%N /\ (-1074 <= e <= 971)%Z /\ ((2 ^ 52 <= m)%N \/ e = (-1074)%Z).

(** Halfway between the largest double and 2^1024. *)
Definition overflow_limit : Q := inject_Z (2 ^ 54 - 1) * two ^ 970.

Definition distance (m : N) (e : Z) (r : Q) : Q := Qabs (value m e - r).

Inductive nearest (r : Q) : f64 -> Prop :=
| ne_fin : forall m e, double m e -> r < overflow_limit ->
    (forall m' e', double m' e' -> distance m e r <= distance m' e' r) ->
    (forall m' e', double m' e' -> distance m e r == distance m' e' r ->
       (m' = m /\ e' = e) \/ N.even m = true) ->
    nearest r (F64Fin m e)
| ne_inf : overflow_limit <= r -> nearest r F64Inf.
