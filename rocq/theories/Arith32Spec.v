(** The numbers of IEEE 754 binary32: §3.3 and §3.4, with 24 bits and exponents from -149 to 104 *)
From Coq Require Import QArith Qabs.
From Verif Require Import LesterFloat Arith32.
Local Open Scope Q_scope.

Definition finite32 (q : Q) : Prop := exists m e : Z, (Z.abs m < 2 ^ 24)%Z /\ (-149 <= e <= 104)%Z /\ q == inject_Z m * pow2 e.
Definition number32 (q : Q) : Prop := finite32 q \/ q == infinity \/ q == - infinity \/ q == nan.
(** §4.3.1 roundTiesToEven: the nearest number, of two the even one; infinite from the middle between the
    largest number and 2^128 *)
Definition too_large : Q := pow2 128 - pow2 103.
Definition nearest32 (exact r : Q) : Prop :=
  (Qabs exact < too_large -> finite32 r /\ forall x, finite32 x -> Qabs (r - exact) <= Qabs (x - exact) /\
     (Qabs (r - exact) == Qabs (x - exact) -> x == r \/ exists m e : Z, r == inject_Z (2 * m) * pow2 e /\ Qabs (x - r) == pow2 e)) /\
  (too_large <= exact -> r == infinity) /\ (exact <= - too_large -> r == - infinity).
