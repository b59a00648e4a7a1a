(** What the relations between elements mean on a document tree. *)
From Verif Require Import Base Dom DomSpec.

(** The first element of a list of nodes *)
Inductive first_element (d : document) : list nat -> option nat -> Prop :=
| fe_none : first_element d [] None
| fe_here : forall i l, is_element (data (node_at d i)) -> first_element d (i :: l) (Some i)
| fe_skip : forall i l o, ~ is_element (data (node_at d i)) -> first_element d l o -> first_element d (i :: l) o.

(** selectors-4, :empty: no element and no text among the children *)
Definition no_content (d : document) (l : list nat) : Prop :=
  forall i, In i l -> ~ is_element (data (node_at d i)) /\ forall t, data (node_at d i) = DText t -> t = [].

(** The white space of HTML, and the words of an attribute *)
Definition is_space (b : N) : Prop := b = 32%N \/ b = 9%N \/ b = 10%N \/ b = 12%N \/ b = 13%N.
Definition spaceless (w : bytes) : Prop := w <> [] /\ forall b, In b w -> ~ is_space b.
(** [w] stands between white space or the ends. *)
Definition has_word (w v : bytes) : Prop :=
  exists l r, v = l ++ w ++ r /\
    (l = [] \/ exists l' b, l = l' ++ [b] /\ is_space b) /\ (r = [] \/ exists b r', r = b :: r' /\ is_space b).
