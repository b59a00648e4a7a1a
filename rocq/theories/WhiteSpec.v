(** When two texts, and the contents of two blocks, differ in white space only *)
From Verif Require Import Base Dom StyleValues StyleProperties LayoutTree BoxTreeSpec.

(** The same once every run of white space is one space *)
Definition same_text (t t' : list N) : Prop := collapse false t = collapse false t'.

(** ** White space in contents *)
(** Whether a space would follow a space, or come first, after this text *)
Definition spaced (before : bool) (t : list N) : bool := match rev t with [] => before | c :: _ => (c =? 32)%N end.
(** Block-level and in normal flow *)
Definition in_flow_block (s : computed_values) : bool :=
  match get s display_, get s position_, get s float_ with
  | OutsideInside Block _, Absolute, _ => false
  | OutsideInside Block _, _, FloatNone => true
  | _, _, _ => false
  end.
(** … after this content: out-of-flow elements do not count, and a paragraph starts after a block. *)
Definition passed (before : bool) (c : content) : bool :=
  match c with
  | CText _ t => spaced before t
  | CBox s _ inside => if is_inline s then spaced before (flat_map inline_text inside) else if in_flow_block s then true else before
  end.
(** Contents without the spaces that follow a space or come first, in a block or in an inline element, with just spaces for white space *)
Fixpoint tight (before : bool) (c : content) : content :=
  match c with
  | CText s t => CText s (collapse before t)
  | CBox s e inside => CBox s e
      ((fix all (before : bool) (l : list content) : list content :=
          match l with [] => [] | c :: r => tight before c :: all (passed before (tight before c)) r end) true inside)
  end.
Fixpoint tight_all (before : bool) (l : list content) : list content :=
  match l with [] => [] | c :: r => tight before c :: tight_all (passed before (tight before c)) r end.
(** One character at a time, whatever node an element is *)
Fixpoint letters (c : content) : list content :=
  match c with
  | CText s t => map (fun ch => CText s [ch]) t
  | CBox s _ inside => [CBox s 0 (flat_map letters inside)]
  end.
(** The contents of two blocks are the same but for such spaces, and for how text is cut into nodes. *)
Definition same_but_spaces (cs cs' : list content) : Prop := flat_map letters (tight_all true cs) = flat_map letters (tight_all true cs').
