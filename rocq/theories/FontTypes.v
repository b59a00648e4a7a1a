(** victor/src/fonts/types.rs: how tags are shown and dates of fonts converted.  Nothing calls either yet. *)
From Coq Require Import ZArith.
From Verif Require Import Base.
Local Open Scope Z_scope.

(** types.rs:23-31: [Debug] of a [Tag], the four bytes of which are given *)
Definition tag_debug (tag : bytes) : bytes := map (fun b => if ((32 <=? b) && (b <=? 126))%N then b else 63%N) tag.

(** [std::time::SystemTime] where it is an [i64] number of seconds since 1970 (Unix).  Simplification: fractions
    of a second are left out, there are none here.  [None] is a panic of [+] or [-] on overflow. *)
Definition in_i64 (x : Z) : bool := (- 2 ^ 63 <=? x) && (x <? 2 ^ 63).
(** [+] of a [SystemTime] and a [Duration]: types.rs:42 *)
Definition time_add (t duration : Z) : option Z := if in_i64 (t + duration) then Some (t + duration) else None.
(** [-]: types.rs:38 and 44 *)
Definition time_sub (t duration : Z) : option Z := if in_i64 (t - duration) then Some (t - duration) else None.
(** [SystemTime::UNIX_EPOCH]: types.rs:38 *)
Definition UNIX_EPOCH : Z := 0.
(** Negation of an [i64], which panics on overflow or wraps *)
Definition i64_neg (overflow_checks : bool) (x : Z) : option Z :=
  if in_i64 (- x) then Some (- x) else if overflow_checks then None else Some (- x - 2 ^ 64).
(** [as u64] of an [i64] *)
Definition as_u64 (x : Z) : Z := x mod 2 ^ 64.
(** types.rs:33-47: [SystemTime::from] a [LongDateTime] *)
Definition system_time (overflow_checks : bool) (instant : Z) : option Z :=
  match time_sub UNIX_EPOCH 2082844800 with
  | None => None
  | Some truetype_epoch =>
      if 0 <=? instant then time_add truetype_epoch (as_u64 instant)
      else match i64_neg overflow_checks instant with
           | None => None
           | Some n => time_sub truetype_epoch (as_u64 n)
           end
  end.
