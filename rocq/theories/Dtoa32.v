(** The crate dtoa 0.4 for [f32], which victor/src/pdf/object.rs:156 calls: the digits of a number by the
    algorithm Grisu2 (Loitsch 2010) in 32-bit arithmetic.  The crate is not part of /repo: its functions are
    given by name; tests/alice.pdf has about a thousand numbers printed by it (see AliceExpected.v). *)
From Coq Require Import QArith Qround.
From Verif Require Import Base LesterFloat Float32 PdfObject.
Local Open Scope Z_scope.

(** [DiyFp]: [fp_f * 2^fp_e], [fp_f] a [u32]; for pdf/object.rs:156 *)
Record diyfp : Type := mkDiy { fp_f : Z; fp_e : Z }.
(** The bit of an [f32] that is not stored; for pdf/object.rs:156 *)
Definition hidden_bit : Z := 2 ^ 23.
(** [DiyFp::from] of an [f32] above zero, given as a rational; for pdf/object.rs:156 *)
Definition diy_of (q : Q) : diyfp :=
  let e := Z.max (exponent q - 23) (-149) in mkDiy (nearest_even (q / pow2 e)) e.
(** [DiyFp::normalize], and [normalize_boundary], which shifts by as much; for pdf/object.rs:156 *)
Definition normalize (v : diyfp) : diyfp :=
  let leading_zeros := 31 - Z.log2 (fp_f v) in mkDiy (Z.shiftl (fp_f v) leading_zeros) (fp_e v - leading_zeros).
(** [DiyFp::normalized_boundaries]: halfway to the number below, and to the one above; for pdf/object.rs:156 *)
Definition normalized_boundaries (v : diyfp) : diyfp * diyfp :=
  let pl := normalize (mkDiy (Z.shiftl (fp_f v) 1 + 1) (fp_e v - 1)) in
  let mi := if fp_f v =? hidden_bit then mkDiy (Z.shiftl (fp_f v) 2 - 1) (fp_e v - 2)
            else mkDiy (Z.shiftl (fp_f v) 1 - 1) (fp_e v - 1) in
  (mkDiy (Z.shiftl (fp_f mi) (fp_e mi - fp_e pl)) (fp_e pl), pl).
(** [CACHED_POWERS_F_32] and [CACHED_POWERS_E_32]: the powers of ten from -36 in steps of eight, as [DiyFp].
    Simplification: there may not be a twelfth, which is for numbers below 2^-144 alone.  For
    pdf/object.rs:156 *)
Definition CACHED_POWERS : list diyfp :=
  [ mkDiy 0xaa242499 (-151); mkDiy 0xfd87b5f3 (-125); mkDiy 0xbce50865 (-98); mkDiy 0x8cbccc09 (-71);
    mkDiy 0xd1b71759 (-45); mkDiy 0x9c400000 (-18); mkDiy 0xe8d4a510 8; mkDiy 0xad78ebc6 35;
    mkDiy 0x813f3979 62; mkDiy 0xc097ce7c 88; mkDiy 0x8f7e32ce 115; mkDiy 0xd5d238a5 141 ].
(** The power of ten of the first of them; for pdf/object.rs:156 *)
Definition min_power : Z := -36.
(** [get_cached_power]: one of them, and the power of ten it takes back; for pdf/object.rs:156.
    Simplification: the product, an [f64], is exact here; it is not close enough to an integer for the
    difference to be seen. *)
Definition get_cached_power (e : Z) : diyfp * Z :=
  let k := Qceiling (inject_Z (3 - 32 - e) * (30102999566398120 # 100000000000000000)) - (min_power + 1) in
  let index := Z.shiftr k 3 + 1 in
  (nth (Z.to_nat index) CACHED_POWERS (mkDiy 0 0), - (min_power + index * 8)).
(** [DiyFp::mul]: the upper half of the product, rounded; for pdf/object.rs:156 *)
Definition diy_mul (a b : diyfp) : diyfp :=
  mkDiy (Z.shiftr (fp_f a * fp_f b + 2 ^ 31) 32) (fp_e a + fp_e b + 32).

(** [u32] arithmetic that may overflow; for pdf/object.rs:156 *)
Definition u32 (x : Z) : option Z := if (0 <=? x) && (x <? 2 ^ 32) then Some x else None.

(** [grisu_round]: the last digit made smaller as long as the number stays inside and gets closer; the digit.
    It ends within the fuel: see Dtoa32Proofs.v.  For pdf/object.rs:156 *)
Fixpoint grisu_round (fuel : nat) (last delta rest ten_kappa wp_w : Z) : option Z :=
  match fuel with
  | O => None
  | S fuel =>
      if (rest <? wp_w) && (ten_kappa <=? delta - rest) &&
         ((rest + ten_kappa <? wp_w) || (rest + ten_kappa - wp_w <? wp_w - rest))
      then if last =? 0 then None else grisu_round fuel (last - 1) delta (rest + ten_kappa) ten_kappa wp_w
      else Some last
  end.
(** [grisu_round] on the digits so far, the last one first, and the power of ten with them; for
    pdf/object.rs:156 *)
Definition finish (buffer : list Z) (kappa delta rest ten_kappa wp_w : Z) : option (list Z * Z) :=
  match buffer with
  | [] => None
  | last :: r => option_map (fun last => (rev (last :: r), kappa)) (grisu_round 11 last delta rest ten_kappa wp_w)
  end.
(** A digit appended to the buffer, unless it is a zero at the start; for pdf/object.rs:156 *)
Definition push_digit (d : Z) (buffer : list Z) : list Z :=
  match buffer with [] => if d =? 0 then [] else [d] | _ => d :: buffer end.

(** [digit_gen]; for pdf/object.rs:156 *)
Section DigitGen.
(** The shift [-one.e], [one.f] being [2^shift]; and [wp_w], from the number to its upper end *)
Variables shift wp_w : Z.
(** The loop for the digits after the point; for pdf/object.rs:156 *)
Fixpoint fraction_digits (fuel : nat) (p2 delta kappa : Z) (buffer : list Z) : option (list Z * Z) :=
  match fuel with
  | O => None
  | S fuel =>
      match u32 (p2 * 10), u32 (delta * 10) with
      | Some p2, Some delta =>
          let buffer := push_digit (Z.shiftr p2 shift) buffer in
          let p2 := Z.land p2 (2 ^ shift - 1) in
          let kappa := kappa - 1 in
          if p2 <? delta then
            match u32 (wp_w * (if - kappa <? 9 then 10 ^ (- kappa) else 0)) with
            | Some wp_w => finish buffer kappa delta p2 (2 ^ shift) wp_w
            | None => None
            end
          else fraction_digits fuel p2 delta kappa buffer
      | _, _ => None
      end
  end.
(** The loop for the digits before the point, [kappa] of which are left; for pdf/object.rs:156 *)
Fixpoint integer_digits (kappa : nat) (p1 p2 delta : Z) (buffer : list Z) : option (list Z * Z) :=
  match kappa with
  | O => fraction_digits 11 p2 delta 0 buffer
  | S kappa =>
      let pow := 10 ^ Z.of_nat kappa in
      let buffer := push_digit (p1 / pow) buffer in
      let p1 := p1 mod pow in
      let tmp := Z.shiftl p1 shift + p2 in
      if tmp <=? delta then finish buffer (Z.of_nat kappa) delta tmp (Z.shiftl pow shift) wp_w
      else integer_digits kappa p1 p2 delta buffer
  end.
End DigitGen.
(** [count_decimal_digit32], of a number below 10^9; for pdf/object.rs:156 *)
Definition count_decimal_digit32 (n : Z) : nat :=
  if n <? 10 then 1 else if n <? 100 then 2 else if n <? 1000 then 3 else if n <? 10000 then 4
  else if n <? 100000 then 5 else if n <? 1000000 then 6 else if n <? 10000000 then 7
  else if n <? 100000000 then 8 else 9.
(** [digit_gen]: the digits of a number that is at most [delta] below [mp], close to [w]; for
    pdf/object.rs:156 *)
Definition digit_gen (w mp : diyfp) (delta : Z) : option (list Z * Z) :=
  let shift := - fp_e mp in
  let p1 := Z.shiftr (fp_f mp) shift in
  let p2 := Z.land (fp_f mp) (2 ^ shift - 1) in
  integer_digits shift (fp_f mp - fp_f w) (count_decimal_digit32 p1) p1 p2 delta [].
(** [grisu2]: the digits of an [f32] above zero and the power of ten of the last one; for pdf/object.rs:156 *)
Definition grisu2 (q : Q) : option (list Z * Z) :=
  let v := diy_of q in
  let (w_m, w_p) := normalized_boundaries v in
  let (c_mk, k) := get_cached_power (fp_e w_p) in
  let w := diy_mul (normalize v) c_mk in
  let wp := diy_mul w_p c_mk in
  let wm := diy_mul w_m c_mk in
  let wm := mkDiy (fp_f wm + 1) (fp_e wm) in
  let wp := mkDiy (fp_f wp - 1) (fp_e wp) in
  option_map (fun r => (fst r, k + snd r)) (digit_gen w wp (fp_f wp - fp_f wm)).
