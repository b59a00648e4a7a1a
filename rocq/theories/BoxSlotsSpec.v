(** Which elements are looked at when boxes are built, and what is to be stored in them. *)
From Verif Require Import Base Dom DomSpec StyleValues StyleProperties StyleSpec BoxTree BoxSlots.

Section Document.
Variable d : document.
Variable has_style : nat -> computed_values -> computed_values -> Prop.
(** Those that are among [ts], the children of an element of style [parent], or in one of them that is
    displayed *)
Inductive met (parent : computed_values) (ts : list tree) : nat -> computed_values -> Prop :=
| met_here : forall i sub s, In (T i sub) ts -> is_element (data (node_at d i)) -> has_style i parent s -> met parent ts i s
| met_inside : forall i sub s e s', In (T i sub) ts -> is_element (data (node_at d i)) -> has_style i parent s ->
    get s display_ <> DisplayNone -> met s sub e s' -> met parent ts e s'.

(** Nothing is held, and what is not displayed has no box. *)
Definition at_rest (parent : computed_values) (ts : list tree) (st : storage) : Prop :=
  forall e, borrowed (st e) = false /\ (forall s, met parent ts e s -> get s display_ = DisplayNone -> has_box (st e) = false).
(** Every displayed element has a box; the storage of other elements is as before. *)
Definition all_stored (parent : computed_values) (ts : list tree) (st0 st : storage) : Prop :=
  forall e, (forall s, met parent ts e s -> get s display_ <> DisplayNone -> has_box (st e) = true) /\
            ((forall s, met parent ts e s -> get s display_ = DisplayNone) -> st e = st0 e).
End Document.
