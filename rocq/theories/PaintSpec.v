(** What a page shows: the fragments at their absolute positions, as marks of the PDF page, and the order
    of the text. *)
From Coq Require Import QArith Qabs.
From Verif Require Import Base Dom StyleValues StyleProperties PdfObject PdfObjectSpec PdfConvert PdfConvertSpec Geom Text LayoutTree BoxTreeSpec InlineSpec.
Local Open Scope Q_scope.

(** ** Numbers *)
(** Up to the precision of 32-bit floating point numbers printed as decimals: 24 bits twice *)
Definition near (x exact : Q) : Prop := Qabs (x - exact) <= Qabs exact * (1 # 8000000).
(** Multiplied by 3/4 and printed again *)
Definition near_size (x exact : Q) : Prop := Qabs (x - exact) <= Qabs exact * (1 # 3000000) + (1 # 1000000000000000000000).
(** Zero, or 2e-5 <= |q| <= 1e19 *)
Definition ordinary (q : Q) : Prop := q == 0 \/ (1 # 50000) <= Qabs q /\ Qabs q <= inject_Z (10 ^ 19).
(** Conversion of numbers to [f32], printed as decimals *)
Definition rounding (round : Q -> dec) : Prop :=
  forall q, ordinary q -> wf_dec (round q) /\ near (dec_value (round q)) q.

(** ** Fragments on the page *)
(** Each fragment with those that contain it, outermost first, in the order of the tree *)
Fixpoint with_ancestors (above : list fragment) (f : fragment) : list (list fragment * fragment) :=
  (above, f) ::
  match f with
  | FBox _ children | FAnonymous _ _ children => flat_map (with_ancestors (above ++ [f])) children
  | FText _ _ _ => []
  end.
Definition all_fragments (l : list fragment) : list (list fragment * fragment) := flat_map (with_ancestors []) l.
(** The corner of the content of a fragment is relative to that of its parent. *)
Definition corner (f : fragment) : Q * Q :=
  let r := match f with FBox b _ => bf_content_rect b | FAnonymous r _ _ => r | FText _ r _ => r end in
  (v_inline (start_corner r), v_block (start_corner r)).
Definition total (l : list Q) : Q := fold_right Qplus 0 l.
Definition left_edge (above : list fragment) (f : fragment) : Q := total (map (fun g => fst (corner g)) (above ++ [f])).
Definition top_edge (above : list fragment) (f : fragment) : Q := total (map (fun g => snd (corner g)) (above ++ [f])).

(** CSS Color: 'currentcolor' is the value of the property 'color'. *)
Definition background (s : computed_values) : rgba :=
  match get s background_color with Rgba c => c | CurrentColor => get s color_ end.
Definition fraction (n : N) : Q := inject_Z (Z.of_N n) / 255.
Definition in_color (c : rgba) (rgb : Q * Q * Q) (a : Q) : Prop :=
  let '(r, g, b) := rgb in
  near r (fraction (red c)) /\ near g (fraction (green c)) /\ near b (fraction (blue c)) /\
  Qabs (a - fraction (alpha c)) <= (1 # 64000) + (1 # 8000000).
(** Pixels to points, with the origin at the top left corner of the page; PDF has y upwards. *)
Definition at_pixels (p : Q * Q) (x y : Q) : Prop := fst p == x * (3 # 4) /\ snd p == - (y * (3 # 4)).

Section Font.
Variable file : bytes.
Variable vera : font.
(** The marks of one fragment, apart from those of the fragments in it *)
Inductive marks_of : list fragment * fragment -> list mark -> Prop :=
(** A background is a rectangle: the border box. *)
| mk_background : forall above b children x y w h p1 p2 p3 p4 rgb a,
    (0 < alpha (background (bf_style b)))%N ->
    near x (left_edge above (FBox b children) - inline_start (bf_padding b) - inline_start (bf_border b)) ->
    near y (top_edge above (FBox b children) - block_start (bf_padding b) - block_start (bf_border b)) ->
    near w (v_inline (size (bf_content_rect b)) + inline_start (bf_padding b) + inline_end (bf_padding b) +
            inline_start (bf_border b) + inline_end (bf_border b)) ->
    near h (v_block (size (bf_content_rect b)) + block_start (bf_padding b) + block_end (bf_padding b) +
            block_start (bf_border b) + block_end (bf_border b)) ->
    at_pixels p1 x y -> at_pixels p2 (x + w) y -> at_pixels p3 (x + w) (y + h) -> at_pixels p4 x (y + h) ->
    in_color (background (bf_style b)) rgb a ->
    marks_of (above, FBox b children) [MFill [p1; p2; p3; p4] rgb a]
| mk_transparent : forall above b children, alpha (background (bf_style b)) = 0%N -> marks_of (above, FBox b children) []
| mk_anonymous : forall above r mode children, marks_of (above, FAnonymous r mode children) []
(** Upright glyphs with their baseline one ascent below the top of the text *)
| mk_text : forall above s r t v m codes rgb a fs x y fv,
    near fs (get s font_size) -> near x (left_edge above (FText s r t)) ->
    near y (top_edge above (FText s r t) + get s font_size * f_ascender vera) ->
    ma m == fs * (3 # 4) -> mb m == 0 -> mc m == 0 -> md m == fs * (3 # 4) -> at_pixels (me m, mf m) x y ->
    utf16be_units codes = Some (glyphs t) -> in_color (get s color_) rgb a ->
    read_font file v = Some fv -> represents vera fv ->
    marks_of (above, FText s r t) [MText v m codes rgb a].
(** The marks of a page: those of each fragment, one after the other *)
Definition page_shows (frs : list fragment) (ms : list mark) : Prop :=
  exists each, Forall2 marks_of (all_fragments frs) each /\ ms = concat each.
End Font.

(** ** What can be drawn *)
(** Everything written to the file is of an ordinary size. *)
Definition byte_color (c : rgba) : Prop := (red c <= 255 /\ green c <= 255 /\ blue c <= 255 /\ alpha c <= 255)%N.
Definition drawable (vera : font) (p : list fragment * fragment) : Prop :=
  match p with
  | (above, FBox b children) =>
      (0 < alpha (background (bf_style b)))%N -> byte_color (background (bf_style b)) /\
      ordinary (left_edge above (FBox b children) - inline_start (bf_padding b) - inline_start (bf_border b)) /\
      ordinary (top_edge above (FBox b children) - block_start (bf_padding b) - block_start (bf_border b)) /\
      ordinary (v_inline (size (bf_content_rect b)) + inline_start (bf_padding b) + inline_end (bf_padding b) +
                inline_start (bf_border b) + inline_end (bf_border b)) /\
      ordinary (v_block (size (bf_content_rect b)) + block_start (bf_padding b) + block_end (bf_padding b) +
                block_start (bf_border b) + block_end (bf_border b))
  | (above, FAnonymous _ _ _) => True
  | (above, FText s r t) =>
      byte_color (get s color_) /\ ordinary (get s font_size) /\ ordinary (left_edge above (FText s r t)) /\
      ordinary (top_edge above (FText s r t) + get s font_size * f_ascender vera) /\
      Forall (fun g => (g < 65536)%N) (glyphs t)
  end.
(** Left to right and top to bottom *)
Definition upright (p : list fragment * fragment) : Prop :=
  match p with (_, FAnonymous _ mode _) => mode = (HorizontalTb, Ltr) | _ => True end.
Definition has_text (frs : list fragment) : Prop := exists above s r t, In (above, FText s r t) (all_fragments frs).

(** ** The order of text *)
(** The text of boxes in normal flow, and that of absolutely positioned ones which is painted after the
    contents of the block-level box they are positioned in.  Floats are missing. *)
Definition is_relative (s : computed_values) : bool := match get s position_ with Relative => true | _ => false end.
Definition both (l : list (list N * list N)) : list N * list N := (flat_map fst l, flat_map snd l).
Definition after (p : list N * list N) : list N := fst p ++ snd p.
Fixpoint container_order (c : block_container) : list N * list N :=
  match c with
  | BlockLevelBoxes l => both (map block_order l)
  | InlineFormattingContext l => both (map inline_order l)
  end
with block_order (b : block_level_box) : list N * list N :=
  match b with
  | SameFormattingContextBlock s c => if is_relative s then (after (container_order c), []) else container_order c
  | Independent s c => if is_relative s then (after (context_order c), []) else context_order c
  | OutOfFlowAbsolutelyPositionedBox _ c => ([], after (context_order c))
  | OutOfFlowFloatBox _ _ => ([], [])
  end
with context_order (c : block_formatting_context) : list N * list N := match c with BFC c _ => container_order c end
with inline_order (b : inline_level_box) : list N * list N :=
  match b with
  | TextRun _ t => (t, [])
  | InlineBox _ _ _ children => both (map inline_order children)
  | InlineAbsolutelyPositionedBox _ c => ([], after (context_order c))
  | InlineFloatBox _ _ => ([], [])
  end.
(** The same for the contents of a document *)
Definition is_float (s : computed_values) : bool := match get s float_ with FloatNone => false | _ => true end.
Fixpoint content_order (c : content) : list N * list N :=
  match c with
  | CText _ t => (t, [])
  | CBox s _ inside =>
      let o := both (map content_order inside) in
      if is_inline s then o (* in normal flow: CSS 2 §9.7 *)
      else match get s position_ with
           | Absolute => ([], after o)
           | _ => if is_float s then ([], []) else if is_relative s then (after o, []) else o
           end
  end.
(** A whole document with a root element of style [s] and these contents *)
Definition document_order (s : computed_values) (cs : list content) : list N :=
  match get s position_, get s display_ with
  | _, DisplayNone => []
  | Absolute, _ => after (both (map content_order cs))
  | _, _ => if is_float s then [] else after (both (map content_order cs))
  end.

(** The styles of boxes, at any depth *)
Inductive boxed_in : list content -> computed_values -> Prop :=
| bi_here : forall cs s e inside, In (CBox s e inside) cs -> boxed_in cs s
| bi_inside : forall cs s e inside s', In (CBox s e inside) cs -> boxed_in inside s' -> boxed_in cs s'.

(** [prints text glyphs]: glyphs of the text, without some of its spaces *)
Section Glyphs.
Variable glyph_id : N -> res font_error N.
Variable glyph_width : N -> res font_error Q.
Definition prints (text gs : list N) : Prop :=
  exists t w, some_spaces_left_out text t /\ shapes glyph_id glyph_width t gs w.
End Glyphs.
(** The glyphs shown on a page, in order *)
Definition shown_glyphs (ms : list mark) : option (list N) :=
  fold_right (fun m rest => match m, rest with
    | MText _ _ codes _ _, Some r => match utf16be_units codes with Some gs => Some (gs ++ r) | None => None end
    | MFill _ _ _, _ => rest
    | _, None => None
    end) (Some []) ms.
