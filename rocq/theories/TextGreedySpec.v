(** Other ways of breaking a text into lines *)
From Coq Require Import QArith.
From Verif Require Import Base LesterFloat FontCmap PdfConvert TextPlain TextPlainSpec Arith32 Arith32Spec TextPlainArithSpec.
Local Open Scope Q_scope.

(** Lines that have all words in order, each of which fits (an only word, or only words without a width before
    it, always do) and ends where the text requires the end of a line, if not before *)
Definition broken_into (ar : arith) (avail : Q) (ws : list word) (lines : list (list word)) : Prop :=
  concat lines = ws /\
  Forall (fun l => fits_by ar avail l /\ forall a w b, l = a ++ w :: b -> b <> [] -> w_hard w = false) lines.
(** The text without some words, or with narrower ones; words that end a line stay. *)
Inductive less_text (ar : arith) : list word -> list word -> Prop :=
| lt_nil : less_text ar [] []
| lt_word : forall w w' a b, a_gt ar (w_width w) (w_width w') = false -> w_hard w = w_hard w' -> less_text ar a b -> less_text ar (w :: a) (w' :: b)
| lt_without : forall w' a b, w_hard w' = false -> less_text ar a b -> less_text ar a (w' :: b).
(** The number of lines, with that of the words after the last line end *)
Definition line_count (ls : list (list word * bool)) (rest : list word) : nat :=
  List.length ls + match rest with [] => 0 | _ => 1 end.
(** Finite numbers that are not negative, and infinity *)
Definition amount32 (q : Q) : Prop := (finite32 q /\ 0 <= q) \/ q == infinity.
(** A style that leaves as much room, for letters that are not larger *)
Record roomier (s s' : plain_style) : Prop := mkRoomier {
  ro_width : ps_page_width s' <= ps_page_width s; ro_height : ps_page_height s' <= ps_page_height s;
  ro_size : ps_font_size s <= ps_font_size s'; ro_font : ps_font s = ps_font s';
  ro_margin : ps_page_margin s = ps_page_margin s'; ro_line_height : ps_line_height s = ps_line_height s' }.
(** Sizes of sheets and text that are finite and far from overflow *)
Definition usual (s : plain_style) : Prop :=
  Forall (fun q => finite32 q /\ 0 <= q /\ q < pow2 100) [ps_page_width s; ps_page_height s; ps_page_margin s; ps_line_height s; ps_font_size s] /\
  0 < ps_font_size s /\ forall g w, f_glyph_width (ps_font s) g = Ok w -> finite32 w /\ 0 <= w.
