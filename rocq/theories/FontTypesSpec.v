(** The Gregorian calendar, extended to all years, and what is printable *)
From Coq Require Import ZArith List.
Local Open Scope Z_scope.
Import ListNotations.

Record date : Type := mkDate { year : Z; month : Z; day : Z }.
(** Every fourth year has 366 days, but of the hundredth ones only every fourth. *)
Definition leap (y : Z) : bool := (y mod 4 =? 0) && (negb (y mod 100 =? 0) || (y mod 400 =? 0)).
Definition month_days (y m : Z) : Z :=
  match m with 2 => if leap y then 29 else 28 | 4 | 6 | 9 | 11 => 30 | _ => 31 end.
Definition valid (d : date) : Prop := 1 <= month d <= 12 /\ 1 <= day d <= month_days (year d) (month d).
Definition next_day (d : date) : date :=
  if day d <? month_days (year d) (month d) then mkDate (year d) (month d) (day d + 1)
  else if month d <? 12 then mkDate (year d) (month d + 1) 1 else mkDate (year d + 1) 1 1.
(** The number of days from one date to a later one or, negative, to an earlier one *)
Inductive days : date -> date -> Z -> Prop :=
| days_none : forall a, valid a -> days a a 0
| days_later : forall a b n, days a b n -> days a (next_day b) (n + 1)
| days_earlier : forall a b n, valid b -> days a (next_day b) (n + 1) -> days a b n.
(** A moment: a date and the number of seconds since midnight UTC, and how long after another midnight it is *)
Definition seconds_after (epoch d : date) (s x : Z) : Prop := 0 <= s < 86400 /\ exists n, days epoch d n /\ x = 86400 * n + s.
