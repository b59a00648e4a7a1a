(** Rust's [f32] (IEEE 754 binary32) for the sizes that fonts hand over to the PDF writer. *)
From Coq Require Import QArith.
From Verif Require Import LesterFloat.
Local Open Scope Q_scope.

(** fonts/mod.rs:171-176 and pdf/object.rs:107: the result of a division or multiplication of [f32] whose
    exact result is [q] — the nearest number of 24 bits, the even one of two.  Simplification: nothing
    overflows here, since a 16-bit integer divided by another and times 1000 is below 2^128; and there
    is only one zero. *)
Definition round32_positive (q : Q) : Q :=
  let unit_exponent := Z.max (exponent q - 23) (-149) in
  inject_Z (nearest_even (q / pow2 unit_exponent)) * pow2 unit_exponent.
(** fonts/mod.rs:171-176 and pdf/object.rs:107, for any sign *)
Definition round32 (q : Q) : Q :=
  Qred (match Qcompare q 0 with
        | Gt => round32_positive q
        | Lt => - round32_positive (- q)
        | Eq => 0
        end).
