(** CSS Writing Modes §6.4: how flow-relative directions map to physical ones, stated apart from the
    model's functions. *)
From Coq Require Import QArith.
From Verif Require Import Base Geom.
Local Open Scope Q_scope.

Inductive side := Top | Right_ | Bottom | Left_.
Definition opposite (s : side) : side :=
  match s with Top => Bottom | Bottom => Top | Left_ => Right_ | Right_ => Left_ end.
Definition physical {A} (s : psides A) (d : side) : A :=
  match d with Top => ptop s | Right_ => pright s | Bottom => pbottom s | Left_ => pleft s end.
(** The side at which the blocks of a container begin: "rl" means from right to left *)
Definition block_start_side (m : writing_mode) : side :=
  match m with HorizontalTb => Top | VerticalRl | SidewaysRl => Right_ | VerticalLr | SidewaysLr => Left_ end.
(** The side at which left-to-right text begins: lines are turned clockwise, except in sideways-lr *)
Definition line_left_side (m : writing_mode) : side :=
  match m with HorizontalTb => Left_ | SidewaysLr => Bottom | VerticalRl | VerticalLr | SidewaysRl => Top end.
Definition inline_start_side (m : writing_mode) (d : direction) : side :=
  match d with Ltr => line_left_side m | Rtl => opposite (line_left_side m) end.
(** The inline axis is horizontal if its sides are the left and the right. *)
Definition horizontal (s : side) : Prop := s = Left_ \/ s = Right_.

(** The far edges of a rectangle *)
Definition inline_far (r : rect Q) : Q := v_inline (start_corner r) + v_inline (size r).
Definition block_far (r : rect Q) : Q := v_block (start_corner r) + v_block (size r).
