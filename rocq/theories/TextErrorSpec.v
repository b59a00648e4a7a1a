(** How far binary32 numbers of plain text can be from what they stand for *)
From Coq Require Import QArith Qabs.
From Verif Require Import Base LesterFloat TextPlain TextPlainSpec Arith32 Arith32Spec.
Local Open Scope Q_scope.

(** An error of [k] units in the twenty-third binary digit *)
Definition units (k : nat) : Q := Z.of_nat k # 8388608.
(** The smallest positive number *)
Definition tiniest : Q := pow2 (-149).
Definition sum (l : list Q) : Q := fold_right Qplus 0 l.
(** A finite number that is not negative *)
Definition length32 (q : Q) : Prop := finite32 q /\ 0 <= q.
(** Lists of less than a million, sums of less than 2^126: about 10^38 *)
Definition bounded (count : nat) (q : Q) : Prop := (Z.of_nat count < 2 ^ 20)%Z /\ q < pow2 126.
(** The exact width of words *)
Definition widths (l : list word) : Q := sum (map w_width l).
Definition lengths (l : list word) : Prop := Forall (fun w => length32 (w_width w)) l.
(** Inches have 25.4 mm and 96 pixels. *)
Definition pixels (mm : Q) : Q := mm * (960 # 254).
