(** The arithmetic of lengths: Rust's [f32] operations as style/values/length.rs:102-187 uses them,
    left open, and two of them: exact rationals and IEEE 754 binary32. *)
From Coq Require Import QArith Qminmax Qabs.
From Verif Require Import LesterFloat Float32.
Local Open Scope Q_scope.

(** style/values/length.rs:107-111 [max], 113-117 [min], 124-128 [Neg], 131-138 and 149-153 [Add], 140-147
    and 155-159 [Sub], 161-177 [Mul], 179-187 [Div]; [==] is derived (length.rs:8-11), [>] is at
    layout/flow/inline.rs:281 and [>=] at layout/positioned.rs:209.  [a_lit] is what a literal such as
    [1.2] at inline.rs:302 stands for.  Numbers are rationals.  Those of [f32] that are not rationals
    can be represented by rationals that are not in [f32]: see [f32] below. *)
Record arith : Type := mkArith {
  a_add : Q -> Q -> Q; a_sub : Q -> Q -> Q; a_mul : Q -> Q -> Q; a_div : Q -> Q -> Q; a_neg : Q -> Q;
  a_max : Q -> Q -> Q; a_min : Q -> Q -> Q;
  a_gt : Q -> Q -> bool; a_ge : Q -> Q -> bool; a_eq : Q -> Q -> bool;
  a_lit : Q -> Q }.

(** What the models in Layout.v and Paint.v compute with: style/values/length.rs:102-187 without rounding *)
Definition exact : arith :=
  mkArith Qplus Qminus Qmult Qdiv Qopp Qmax Qmin
    (fun a b => negb (Qle_bool a b)) (fun a b => Qle_bool b a) Qeq_bool (fun q => q).

(** IEEE 754 binary32.  The largest finite number is 2^128 - 2^104.  Infinity is represented by 2^128, its
    negative by -2^128 and not-a-number by 2^129.  Simplification: there is only one zero. *)
Definition infinity : Q := pow2 128.
(** not-a-number, of the [px: f32] at style/values/length.rs:8-11 *)
Definition nan : Q := pow2 129.
(** [f32::is_nan], for the operations at length.rs:102-187 *)
Definition is_nan (q : Q) : bool := Qeq_bool q nan.
(** [f32::is_infinite], likewise *)
Definition is_infinite (q : Q) : bool := Qeq_bool (Qabs q) infinity.
(** The result of an operation whose exact result is [q] (IEEE 754 §4.3.1 and §7.4: what rounds to 2^128 or
    more is infinite) *)
Definition rounded (q : Q) : Q :=
  let r := round32 q in
  if Qle_bool infinity r then infinity else if Qle_bool r (- infinity) then - infinity else r.
(** Positive, negative or zero *)
Definition sign (q : Q) : Q := match Qcompare q 0 with Gt => 1 | Lt => -1 | Eq => 0 end.
(** [+] of [f32]: length.rs:135 *)
Definition f32_add (a b : Q) : Q :=
  if is_nan a || is_nan b then nan
  else if is_infinite a then if is_infinite b && negb (Qeq_bool a b) then nan else a
  else if is_infinite b then b
  else rounded (a + b).
(** [-]: length.rs:127 *)
Definition f32_neg (a : Q) : Q := if is_nan a then nan else - a.
(** [a - b]: length.rs:144 *)
Definition f32_sub (a b : Q) : Q := f32_add a (f32_neg b).
(** [*]: length.rs:161-177 *)
Definition f32_mul (a b : Q) : Q :=
  if is_nan a || is_nan b then nan
  else if is_infinite a || is_infinite b then
    if Qeq_bool (sign a * sign b) 0 then nan else sign a * sign b * infinity
  else rounded (a * b).
(** The sign of a quotient by zero depends on the sign of the zero: layout divides by 2 alone. *)
Definition f32_div (a b : Q) : Q :=
  if is_nan a || is_nan b then nan
  else if is_infinite a then if is_infinite b then nan else sign a * (if Qle_bool 0 b then 1 else -1) * infinity
  else if is_infinite b then 0
  else if Qeq_bool b 0 then if Qeq_bool a 0 then nan else sign a * infinity
  else rounded (a / b).
(** [f32::max] and [f32::min] ignore a not-a-number. *)
Definition f32_max (a b : Q) : Q := if is_nan a then b else if is_nan b then a else Qmax a b.
(** [f32::min]: length.rs:115 *)
Definition f32_min (a b : Q) : Q := if is_nan a then b else if is_nan b then a else Qmin a b.
(** Comparisons with a not-a-number are false.  layout/flow/inline.rs:281, layout/positioned.rs:209 *)
Definition f32_compare (test : Q -> Q -> bool) (a b : Q) : bool := negb (is_nan a || is_nan b) && test a b.
(** The arithmetic of the [Length]s of /repo: length.rs:7-11 *)
Definition f32 : arith :=
  mkArith f32_add f32_sub f32_mul f32_div f32_neg f32_max f32_min
    (f32_compare (fun a b => negb (Qle_bool a b))) (f32_compare (fun a b => Qle_bool b a)) (f32_compare Qeq_bool)
    rounded.
