(** * Binary floating point (IEEE 754 binary64, Rust's [f64]), as much of it
    as lester/src/poppler.rs needs: products, quotients, [ceil] and the
    conversion to [i32].

    Values are exact rationals.  The sign of zero is left out: nothing in
    lester can see it. *)

From Coq Require Import List NArith ZArith QArith Qabs Qround Qpower Bool.

Local Open Scope Z_scope.

(** [f64]: lester/src/poppler.rs lines 129-143 and 215-217 use it for page
    sizes and scales. *)
Inductive f64 :=
| FNan
| FInf (negative : bool)
| FVal (q : Q).

(** The powers of two, with any integer exponent; part of the arithmetic of
    lester/src/poppler.rs lines 142, 180-181, 188 and 217. *)
Definition pow2 (e : Z) : Q := Qpower (2 # 1) e.

(** The integer nearest to [q]; the even one of two that are equally near
    (IEEE 754 roundTiesToEven, the mode of every Rust operation, for
    lester/src/poppler.rs lines 142, 180-181, 188 and 217). *)
Definition nearest_even (q : Q) : Z :=
  let below := Qfloor q in
  match Qcompare (q - inject_Z below) (1 # 2) with
  | Lt => below
  | Gt => below + 1
  | Eq => if Z.even below then below else below + 1
  end.

(** The exponent of the binade of a positive rational:
    [pow2 (exponent q) <= q < pow2 (exponent q + 1)]; for the same lines. *)
Definition exponent (q : Q) : Z :=
  let guess := Z.log2 (Qnum q) - Z.log2 (Zpos (Qden q)) in
  if Qle_bool (pow2 guess) q then guess else guess - 1.

(** Rounding of a positive rational to 53 significant bits, with the
    exponents of the smallest numbers limited (IEEE 754 binary64); for the
    same lines. *)
Definition round_positive (q : Q) : Q :=
  let unit_exponent := Z.max (exponent q - 52) (-1074) in
  (inject_Z (nearest_even (q / pow2 unit_exponent)) * pow2 unit_exponent)%Q.

(** Rounding of any rational, for the same lines. *)
(** Part of the arithmetic of lester/src/poppler.rs lines 142, 180-181, 188 and 217. *)
Definition round_rational (q : Q) : Q :=
  match Qcompare q 0 with
  | Gt => round_positive q
  | Lt => (- round_positive (- q))%Q
  | Eq => 0%Q
  end.

(** The result of an operation whose exact result is [q]: rounded, and
    infinite when that is 2^1024 or more (for the same lines). *)
Definition round64 (q : Q) : f64 :=
  let rounded := Qred (round_rational q) in
  if Qle_bool (pow2 1024) (Qabs rounded)
  then FInf (match Qcompare rounded 0 with Lt => true | _ => false end)
  else FVal rounded.

(** Sign of a rational, for products with an infinity
    (lester/src/poppler.rs lines 142, 180-181 and 188). *)
Definition is_negative (q : Q) : bool :=
  match Qcompare q 0 with Lt => true | _ => false end.

(** [a * b] (lester/src/poppler.rs lines 142, 180-181 and 188). *)
Definition fmul (a b : f64) : f64 :=
  match a, b with
  | FNan, _ | _, FNan => FNan
  | FInf s, FInf t => FInf (xorb s t)
  | FInf s, FVal q | FVal q, FInf s =>
      match Qcompare q 0 with
      | Eq => FNan
      | _ => FInf (xorb s (is_negative q))
      end
  | FVal p, FVal q => round64 (p * q)
  end.

(** [a / b] for numbers that are not zero or infinite
    (lester/src/poppler.rs line 217). *)
Definition fdiv_finite (p q : Q) : f64 := round64 (p / q).

(** [f64::ceil] (lester/src/poppler.rs lines 180-181). *)
Definition fceil (a : f64) : f64 :=
  match a with
  | FVal q => FVal (inject_Z (Qceiling q))
  | _ => a
  end.

(** [a < b] against a number: false for a NaN
    (lester/src/convert.rs line 88). *)
Definition flt_q (a : f64) (q : Q) : bool :=
  match a with
  | FNan => false
  | FInf negative => negative
  | FVal p => match Qcompare p q with Lt => true | _ => false end
  end.

(** [a > b] against a number: false for a NaN
    (lester/src/convert.rs line 88). *)
Definition fgt_q (a : f64) (q : Q) : bool :=
  match a with
  | FNan => false
  | FInf negative => negb negative
  | FVal p => match Qcompare p q with Gt => true | _ => false end
  end.

(** [a as i32] (lester/src/convert.rs line 91): towards zero, within the range of [i32], and 0 for a NaN
    (the Rust reference, since 1.45.  Earlier compilers, such as those of the
    time of this code, leave the value of an out-of-range cast undefined). *)
Definition as_i32 (a : f64) : Z :=
  match a with
  | FNan => 0
  | FInf negative => if negative then - 2147483648 else 2147483647
  | FVal q =>
      let towards_zero := if is_negative q then Qceiling q else Qfloor q in
      Z.max (- 2147483648) (Z.min 2147483647 towards_zero)
  end.
