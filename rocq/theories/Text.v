(** Model of victor/src/text.rs.  The font of a segment is a parameter: the two lookups
    [Font::glyph_id] and [Font::glyph_width] that shaping makes.  [f32] is the exact rational. *)
From Coq Require Import QArith.
From Verif Require Import Base PdfConvert.
Local Open Scope Q_scope.
Local Open Scope res_scope.

(** text.rs:5-10 [ShapedSegment], without the font *)
Record shaped : Type := mkShaped { glyphs : list N; advance_width : Q }.
(** text.rs:12-15 [ShapedSegmentState] *)
Record shaped_state : Type := mkShapedState { st_glyphs : nat; st_advance_width : Q }.

(** text.rs:36-42 *)
Definition new_with_naive_shaping : shaped := mkShaped [] 0.
(** text.rs:55-60 *)
Definition save (s : shaped) : shaped_state := mkShapedState (List.length (glyphs s)) (advance_width s).
(** text.rs:62-65; [Vec::truncate] is [firstn] *)
Definition restore (s : shaped) (st : shaped_state) : shaped :=
  mkShaped (firstn (st_glyphs st) (glyphs s)) (st_advance_width st).

Section Font.
Variable glyph_id : N -> res font_error N.
Variable glyph_width : N -> res font_error Q.

(** text.rs:48-53; on an error nothing has been changed *)
Definition append_char (s : shaped) (ch : N) : res font_error shaped :=
  id <- glyph_id ch ;;
  w <- glyph_width id ;;
  Ok (mkShaped (glyphs s ++ [id]) (advance_width s + w)).
(** text.rs:44-46: the segment after the call and how it ended; an error leaves the characters
    before it appended *)
Fixpoint append (s : shaped) (text : list N) : shaped * res font_error unit :=
  match text with
  | [] => (s, Ok tt)
  | ch :: r =>
      match append_char s ch with
      | Ok s => append s r
      | Err e => (s, Err e)
      | Panic => (s, Panic)
      end
  end.
(** text.rs:30-34 *)
Definition naive_shape (text : list N) : res font_error shaped :=
  match append new_with_naive_shaping text with
  | (s, Ok tt) => Ok s
  | (_, Err e) => Err e
  | (_, Panic) => Panic
  end.
End Font.
