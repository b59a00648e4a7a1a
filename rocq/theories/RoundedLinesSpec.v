(** Lines of text as wide as their letters added up one after the other in some arithmetic, and what that
    arithmetic has to be like, apart from how layout is done. *)
From Coq Require Import QArith.
From Verif Require Import Base PdfConvert LayoutTree InlineSpec Arith32 Arith32Spec.
Local Open Scope Q_scope.

Section Arith.
Variable ar : arith.
Section Font.
(** The lookups made in the font *)
Variable glyph_id : N -> res font_error N.
Variable glyph_width : N -> res font_error Q.
(** [adds_up w text glyphs w']: from [w], the letters of [text] lead to [w']. *)
Inductive adds_up : Q -> list N -> list N -> Q -> Prop :=
| au_nil : forall w, adds_up w [] [] w
| au_cons : forall w ch text g gs gw w', glyph_id ch = Ok g -> glyph_width g = Ok gw -> adds_up (a_add ar w gw) text gs w' ->
    adds_up w (ch :: text) (g :: gs) w'.
(** A text that is not too wide *)
Definition fits_in (available font_size : Q) (text : list N) : Prop :=
  exists gs w, adds_up 0 text gs w /\ a_gt ar (a_mul ar font_size w) available = false.
(** A way of breaking a text at some of its spaces (a last one may be left out) such that no line is too
    wide that could be broken *)
Definition broken_in (available font_size : Q) (text : list N) (lines : list (list N)) : Prop :=
  lines <> [] /\ (text = joined lines \/ text = joined lines ++ [space]) /\
  Forall (fun l => fits_in available font_size l \/ unbreakable l) lines.
(** A line with the glyphs of its text *)
Definition line_with (text : list N) (f : fragment) : Prop := exists w, adds_up 0 text (glyphs_in f) w.
End Font.

(** [n] heights one after the other *)
Fixpoint stacked (h : Q) (n : nat) : Q := match n with O => 0 | S n => a_add ar (stacked h n) h end.

(** An arithmetic in which sums and products do not get smaller when what is added and multiplied gets
    larger.  [width] are its numbers that are not negative, [font_size] those that letters can be large,
    and [room] those that a line can be wide. *)
Record orderly (width font_size room : Q -> Prop) : Prop := {
  od_zero : width 0;
  od_add : forall a b, width a -> width b -> width (a_add ar a b) /\ a <= a_add ar a b;
  od_add_le : forall a a' b b', width a -> width a' -> width b -> width b' -> a <= a' -> b <= b' -> a_add ar a b <= a_add ar a' b';
  od_mul : forall s a, font_size s -> width a -> width (a_mul ar s a);
  od_mul_le : forall s s' a a', font_size s -> font_size s' -> width a -> width a' -> s <= s' -> a <= a' -> a_mul ar s a <= a_mul ar s' a';
  od_gt : forall a a' r r', width a -> width a' -> room r -> room r' -> a <= a' -> r' <= r -> a_gt ar a r = true -> a_gt ar a' r' = true;
  od_sub : forall r x, room r -> a_gt ar x (a_sub ar r 0) = a_gt ar x r;
  od_max : forall a, width a -> width (a_max ar 0 a) /\ a_max ar 0 a == a;
  od_lit : width (a_lit ar (12 # 10)) }.
End Arith.

(** Numbers of [f32] that are not negative, with infinity *)
Definition width32 (q : Q) : Prop := number32 q /\ 0 <= q <= infinity.
Definition size32 (q : Q) : Prop := finite32 q /\ 0 < q.
(** All of them that are ordered *)
Definition room32 (q : Q) : Prop := number32 q /\ q <= infinity.
