(** How far rounding can take widths from exact ones, and texts whose lines it cannot change *)
From Coq Require Import QArith.
From Verif Require Import Base PdfConvert InlineSpec LesterFloat Arith32 RoundedLinesSpec.
Local Open Scope Q_scope.

(** 2^-23 *)
Definition unit_ : Q := 1 # 8388608.
Definition count (n : nat) : Q := inject_Z (Z.of_nat n).
(** What [n] sums and a product can be wrong by, if the exact result is [x] *)
Definition slack (n : nat) (x : Q) : Q := count (S n) * unit_ * x + pow2 (-149).
(** A part of a text that can be a line of it: it begins at the start or after a space, and ends at the end
    or before a space. *)
Definition possible_line (text l : list N) : Prop :=
  exists a c, text = a ++ l ++ c /\ (a = [] \/ exists a', a = a' ++ [space]) /\ (c = [] \/ exists c', c = space :: c').
(** None of them is about as wide as there is room. *)
Definition decided (glyph_id : N -> res font_error N) (glyph_width : N -> res font_error Q) (available font_size : Q) (text : list N) : Prop :=
  forall l gs w, possible_line text l -> adds_up exact glyph_id glyph_width 0 l gs w ->
    font_size * w + slack (length l) (font_size * w) <= available \/ available < font_size * w - slack (length l) (font_size * w).
