(** Line boxes and what is in them (CSS 2 §9.4.2, §10.8; CSS Text §5), stated apart from the model's
    functions. *)
From Coq Require Import QArith.
From Verif Require Import Base Dom StyleValues StyleProperties PdfConvert Geom Text LayoutTree.
Local Open Scope Q_scope.

Section Font.
(** The lookups made in the font: the glyph of a character and its advance width in em *)
Variable glyph_id : N -> res font_error N.
Variable glyph_width : N -> res font_error Q.

(** [shapes text glyphs width] *)
Inductive shapes : list N -> list N -> Q -> Prop :=
| shapes_nil : shapes [] [] 0
| shapes_cons : forall ch text g gs w width,
    glyph_id ch = Ok g -> glyph_width g = Ok w -> shapes text gs width ->
    shapes (ch :: text) (g :: gs) (w + width).

(** ** Breaking text into lines *)
Definition space : N := 32%N.
(** A text with no place to break it *)
Definition unbreakable (text : list N) : Prop := ~ In space text.
Definition fits (available font_size : Q) (text : list N) : Prop :=
  exists gs width, shapes text gs width /\ font_size * width <= available.
Definition too_wide (available font_size : Q) (text : list N) : Prop :=
  exists gs width, shapes text gs width /\ available < font_size * width.
(** A text breaks after its last word that fits.  [rest] comes on the next lines; the space where it
    breaks disappears. *)
Inductive first_line (available font_size : Q) : list N -> list N -> list N -> Prop :=
(** It goes on with a word that does not fit any more … *)
| line_of_words : forall line word rest,
    (forall l r, line = l ++ space :: r -> fits available font_size l) ->
    fits available font_size line ->
    unbreakable word -> (rest = [] \/ exists r, rest = space :: r) ->
    too_wide available font_size (line ++ space :: word) ->
    first_line available font_size (line ++ space :: word ++ rest) line (word ++ rest)
(** … or starts with one that does not, which is on a line alone. *)
| line_of_one_word : forall word rest,
    unbreakable word -> too_wide available font_size word ->
    first_line available font_size (word ++ space :: rest) word rest
(** Everything fits, or is one word. *)
| line_of_all : forall line,
    (forall l r, line = l ++ space :: r -> fits available font_size l) ->
    fits available font_size line \/ (unbreakable line /\ too_wide available font_size line) ->
    first_line available font_size line line [].
(** The lines of a text *)
Inductive text_lines (available font_size : Q) : list N -> list (list N) -> Prop :=
| last_line : forall text line, first_line available font_size text line [] -> text_lines available font_size text [line]
| more_lines : forall text line rest lines,
    first_line available font_size text line rest -> rest <> [] -> text_lines available font_size rest lines ->
    text_lines available font_size text (line :: lines).

(** The lines with the spaces between them put back *)
Fixpoint joined (lines : list (list N)) : list N :=
  match lines with
  | [] => []
  | [l] => l
  | l :: r => l ++ space :: joined r
  end.
(** [some_spaces_left_out a b]: [b] is [a] without some of its spaces. *)
Inductive some_spaces_left_out : list N -> list N -> Prop :=
| left_nil : some_spaces_left_out [] []
| left_keep : forall ch a b, some_spaces_left_out a b -> some_spaces_left_out (ch :: a) (ch :: b)
| left_out : forall a b, some_spaces_left_out a b -> some_spaces_left_out (space :: a) b.

(** ** Inline boxes *)
(** The text of a box, and the glyphs of a fragment, in order; text of boxes out of the flow is not
    part of it. *)
Fixpoint text_in (b : inline_level_box) : list N :=
  match b with
  | InlineBox _ _ _ children => flat_map text_in children
  | TextRun _ text => text
  | InlineAbsolutelyPositionedBox _ _ | InlineFloatBox _ _ => []
  end.
Fixpoint glyphs_in (f : fragment) : list N :=
  match f with
  | FBox _ children => flat_map glyphs_in children
  | FAnonymous _ _ children => flat_map glyphs_in children
  | FText _ _ sh => glyphs sh
  end.

(** What is on a line, and where it ends *)
Definition line : Type := list fragment * Q.
(** One thing after the other: the first line of the second goes on with the last line of the first. *)
Fixpoint join (a b : list line) : list line :=
  match a, b with
  | [], _ => b
  | [(f, _)], (g, e) :: b => (f ++ g, e) :: b
  | l :: a, b => l :: join a b
  end.
(** The height a fragment takes up on its line *)
Definition outer_height (f : fragment) : Q :=
  match f with
  | FBox b _ => v_block (size (bf_content_rect b)) + block_sum (bf_padding b) + block_sum (bf_border b) + block_sum (bf_margin b)
  | FAnonymous r _ _ => v_block (size r)
  | FText _ r _ => v_block (size r)
  end.
(** [h] is the height of the tallest fragment. *)
Definition tallest (l : list fragment) (h : Q) : Prop :=
  0 <= h /\ (forall f, In f l -> outer_height f <= h) /\ (h == 0 \/ exists f, In f l /\ outer_height f == h).

(** A length or a percentage of [w] *)
Definition part_of (w : Q) (l : lp) (x : Q) : Prop :=
  match l with LpLength px => x == px | LpPercentage p => x == w * p end.
Definition part_or_auto_of (w : Q) (l : lpa) (auto x : Q) : Prop :=
  match l with LpaLength px => x == px | LpaPercentage p => x == w * p | LpaAuto => x == auto end.
(** CSS 2 §9.4.3: where a relatively positioned box is moved; [w] is the size of its containing block. *)
Definition moved_from (style : computed_values) (w : Q) (start_ end_ : lpa) (x : Q) : Prop :=
  match get style position_ with
  | Relative =>
      match start_ with
      | LpaAuto => exists y, part_or_auto_of w end_ 0 y /\ x == - y
      | _ => part_or_auto_of w start_ 0 x
      end
  | _ => x == 0
  end.
(** The same downwards; percentages are left out here. *)
Definition moved_down (style : computed_values) (y : Q) : Prop :=
  match get style position_ with
  | Relative =>
      match get style top_, get style bottom_ with
      | LpaLength l, _ => y == l
      | LpaAuto, LpaLength l => y == - l
      | LpaAuto, LpaAuto => y == 0
      | _, _ => True
      end
  | _ => y == 0
  end.
(** The edges of a fragment of an inline box: [first] and [last] tell whether it has the start and the end. *)
Definition edges (w : Q) (style : computed_values) (first last : bool) (b : box_fragment) : Prop :=
  let start_ (p q : Prop) := if first then p else q in
  let end_ (p q : Prop) := if last then p else q in
  start_ (part_of w (get style padding_left) (inline_start (bf_padding b))) (inline_start (bf_padding b) == 0) /\
  start_ (part_of w (get style border_left_width) (inline_start (bf_border b))) (inline_start (bf_border b) == 0) /\
  start_ (part_or_auto_of w (get style margin_left) 0 (inline_start (bf_margin b))) (inline_start (bf_margin b) == 0) /\
  end_ (part_of w (get style padding_right) (inline_end (bf_padding b))) (inline_end (bf_padding b) == 0) /\
  end_ (part_of w (get style border_right_width) (inline_end (bf_border b))) (inline_end (bf_border b) == 0) /\
  end_ (part_or_auto_of w (get style margin_right) 0 (inline_end (bf_margin b))) (inline_end (bf_margin b) == 0) /\
  part_of w (get style padding_top) (block_start (bf_padding b)) /\
  part_of w (get style border_top_width) (block_start (bf_border b)) /\
  part_or_auto_of w (get style margin_top) 0 (block_start (bf_margin b)) /\
  part_of w (get style padding_bottom) (block_end (bf_padding b)) /\
  part_of w (get style border_bottom_width) (block_end (bf_border b)) /\
  part_or_auto_of w (get style margin_bottom) 0 (block_end (bf_margin b)).
Definition before (b : box_fragment) : Q :=
  inline_start (bf_padding b) + inline_start (bf_border b) + inline_start (bf_margin b).
Definition after (b : box_fragment) : Q :=
  inline_end (bf_padding b) + inline_end (bf_border b) + inline_end (bf_margin b).
Definition left_of (b : box_fragment) : Q := v_inline (start_corner (bf_content_rect b)).
Definition top_of_box (b : box_fragment) : Q := v_block (start_corner (bf_content_rect b)).
Definition width_of (b : box_fragment) : Q := v_inline (size (bf_content_rect b)).
Definition height_of (b : box_fragment) : Q := v_block (size (bf_content_rect b)).

(** The fragment of a text on a line: it starts at [p] on the line, and at [left_] in its parent.  The
    height of a line of text is 1.2 em. *)
Definition text_line (style : computed_values) (left_ p : Q) (text : list N) (l : line) : Prop :=
  exists r sh width, fst l = [FText style r sh] /\ shapes text (glyphs sh) width /\ advance_width sh == width /\
    v_inline (start_corner r) == left_ /\ v_block (start_corner r) == 0 /\
    v_inline (size r) == get style font_size * width /\ v_block (size r) == get style font_size * (12 # 10) /\
    snd l == p + get style font_size * width.

(** The fragments of an inline box on the lines after the first.  The start of the content is the edge of
    the line.  An offset of a relatively positioned
    box is applied to the block axis only, and the height may be larger than that of the contents:
    see the refutations of C53. *)
Definition next_box_line (w : Q) (style : computed_values) (last : bool) (content l : line) : Prop :=
  exists b offset, fst l = [FBox b (fst content)] /\ bf_style b = style /\ edges w style false last b /\
    moved_down style offset /\
    left_of b == 0 /\
    top_of_box b == block_start (bf_padding b) + block_start (bf_border b) + block_start (bf_margin b) + offset /\
    width_of b == snd content /\
    (exists t, tallest (fst content) t /\ t <= height_of b) /\
    snd l == snd content + after b.
(** On the first line: the box starts at [p], and its parent's content at [base].  The width is wrong if
    the content of the parent does not start at the edge of the line, or there is an offset: see the
    refutations of C53. *)
Definition first_box_line (w base p : Q) (style : computed_values) (first last : bool) (content l : line) : Prop :=
  exists b dx dy, fst l = [FBox b (fst content)] /\ bf_style b = style /\ edges w style first last b /\
    moved_from style w (get style left_) (get style right_) dx /\
    moved_down style dy /\
    left_of b == p + before b - base + dx /\
    top_of_box b == block_start (bf_padding b) + block_start (bf_border b) + block_start (bf_margin b) + dy /\
    (base == dx -> width_of b == snd content - (p + before b)) /\
    tallest (fst content) (height_of b) /\
    snd l == snd content + after b.
(** The lines after the first; only the last one has the end edge, if the box tree says so. *)
Inductive next_box_lines (w : Q) (style : computed_values) (last : bool) : list line -> list line -> Prop :=
| nbl_nil : next_box_lines w style last [] []
| nbl_last : forall content l, next_box_line w style last content l -> next_box_lines w style last [content] [l]
| nbl_cons : forall content l contents ls,
    contents <> [] -> next_box_line w style false content l -> next_box_lines w style last contents ls ->
    next_box_lines w style last (content :: contents) (l :: ls).

Definition is_nil {A} (l : list A) : bool := match l with [] => true | _ => false end.

(** [inline_ok w base p b lines]: the box [b], in a containing block of width [w], starts at the
    position [p] of a line; [base] is where the content of its parent starts on that line.  [lines] are
    the fragments it adds to that line and the following ones. *)
Inductive inline_ok (w : Q) : Q -> Q -> inline_level_box -> list line -> Prop :=
| i_text : forall base p style text first texts l ls,
    text_lines (w - p) (get style font_size) text (first :: texts) ->
    text_line style (p - base) p first l ->
    Forall2 (text_line style 0 0) texts ls ->
    inline_ok w base p (TextRun style text) (l :: ls)
| i_box : forall base p style first last children start_ content contents l ls,
    first_box_line w base p style first (last && is_nil contents) content l ->
    (exists b, fst l = [FBox b (fst content)] /\ start_ == p + before b) ->
    inlines_ok w start_ start_ children (content :: contents) ->
    next_box_lines w style last contents ls ->
    inline_ok w base p (InlineBox style first last children) (l :: ls)
| i_abspos : forall base p style contents, inline_ok w base p (InlineAbsolutelyPositionedBox style contents) [([], p)]
| i_float : forall base p style contents, inline_ok w base p (InlineFloatBox style contents) [([], p)]
with inlines_ok (w : Q) : Q -> Q -> list inline_level_box -> list line -> Prop :=
| is_none_left : forall base p, inlines_ok w base p [] [([], p)]
| is_one_more : forall base p b boxes ls q e ls',
    inline_ok w base p b ls ->
    (exists f, List.last ls ([], 0) = (f, q)) ->
    (if is_nil (tl ls) then e == base else e == 0) ->
    inlines_ok w e q boxes ls' ->
    inlines_ok w base p (b :: boxes) (join ls ls').

(** The line boxes of an inline formatting context *)
Definition line_boxes_ok (w : Q) (boxes : list inline_level_box) (frs : list fragment) : Prop :=
  exists lines, inlines_ok w 0 0 boxes lines /\
    Forall2 (fun l f => exists r mode, f = FAnonymous r mode (fst l) /\ tallest (fst l) (v_block (size r))) lines frs.
End Font.
