(** The numbers that a style sheet is written with *)
From Coq Require Import QArith.
From Verif Require Import Base Dom StyleValues StyleProperties StyleCascade.

Section Numbers.
Variable P : Q -> Prop.
(** cssparser hands numbers over as [f32] *)
Definition token_number (t : token) : Prop :=
  match t with TDimension v _ | TNumber v | TPercentage v => P v | _ => True end.
Definition item_numbers (i : item) : Prop := match i with Item _ ts => Forall token_number ts | BadItem => True end.
Definition rule_numbers {selector} (r : source_rule selector) : Prop :=
  match r with StyleRule _ body => Forall item_numbers body | BadRule => True end.
End Numbers.
