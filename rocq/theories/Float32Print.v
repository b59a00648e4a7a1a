(** Printing Rust's [f32] as decimals, for victor/src/pdf/object.rs:156 with the crate dtoa. *)
From Coq Require Import QArith.
From Verif Require Import Base LesterFloat Float32 PdfObject Dtoa32.
Local Open Scope N_scope.

(** ** Decimals *)
(** The digits and the sign of a decimal, as an integer (the [f32]s of convert.rs:144-240) *)
Definition dec_m (d : dec) : Z :=
  let n := fold_left (fun acc x => acc * 10 + x) (d_digits d) 0 in
  if d_neg d then (- Z.of_N n)%Z else Z.of_N n.
(** The number that a decimal stands for: the [f32]s of convert.rs:144-240 *)
Definition dec_q (d : dec) : Q := (inject_Z (dec_m d) * Qpower (10 # 1) (d_exp d))%Q.
(** The digits of a number, as in pdf/object.rs:156 *)
Definition digits_of (n : N) : list N :=
  if n =? 0 then [] else map (fun b => b - 48) (itoa n).
(** The decimal [m * 10^e], as in pdf/object.rs:156 *)
Definition dec_of_Z (m e : Z) : dec := mkDec (m <? 0)%Z (digits_of (Z.to_N (Z.abs m))) e.
(** Unary minus: convert.rs:16 *)
Definition dec_neg (d : dec) : dec := mkDec (negb (d_neg d)) (d_digits d) (d_exp d).

(** ** Numbers *)
Local Open Scope Z_scope.
(** [m * 2^e], with all its digits *)
Definition exact_decimal (m e : Z) : dec :=
  if 0 <=? e then dec_of_Z (m * 2 ^ e) 0 else dec_of_Z (m * 5 ^ (- e)) e.
(** [dtoa::write] for a positive number, pdf/object.rs:156: zero and Grisu2.  Simplification: what is not
    below 2^128, infinity for [f32], is printed with all its digits. *)
Definition print32_positive (q : Q) : dec :=
  let r := round32 q in
  if Qeq_bool r 0 then dec_zero
  else if Qle_bool (pow2 128) r then
    let unit_exponent := Z.max (exponent q - 23) (-149) in
    exact_decimal (nearest_even (q / pow2 unit_exponent)) unit_exponent
  else
    match grisu2 r with
    | Some (digits, k) => mkDec false (map Z.to_N digits) k
    | None => dec_zero (* does not happen: see C80_numbers_read *)
    end.
(** A number computed exactly, as an [f32], printed *)
Definition print32 (q : Q) : dec :=
  match Qcompare q 0 with
  | Gt => print32_positive q
  | Lt => dec_neg (print32_positive (- q))
  | Eq => dec_zero
  end.
