(** What layout needs of its arithmetic, and text without its widths. *)
From Coq Require Import QArith.
From Verif Require Import Base PdfConvert Arith32 InlineSpec.

(** Zero is what it is with [f32]. *)
Definition zero_ok (ar : arith) : Prop := a_eq ar (a_add ar 0%Q 0%Q) 0%Q = true /\ a_eq ar 0%Q 0%Q = true.
(** [shows text glyphs]: glyphs of the text, without some of its spaces *)
Definition shows (glyph_id : N -> res font_error N) (text gs : list N) : Prop :=
  exists t, some_spaces_left_out text t /\ Forall2 (fun ch g => glyph_id ch = Ok g) t gs.
(** The glyphs that a page is asked to show *)
Definition asked_glyphs (rs : list request) : list N :=
  flat_map (fun r => match r with ShowText _ gs _ _ _ => gs | _ => [] end) rs.
