(** More room: other ways of breaking a text into lines, and what it means that nothing gets lower or
    taller, apart from how layout is done. *)
From Coq Require Import QArith.
From Verif Require Import Base Dom StyleValues StyleProperties PdfConvert Geom Text LayoutTree LayoutSpec InlineSpec.
Local Open Scope Q_scope.

(** ** Lines *)
Section Font.
(** The lookups made in the font *)
Variable glyph_id : N -> res font_error N.
Variable glyph_width : N -> res font_error Q.
(** A way of breaking a text at some of its spaces (a last one may be left out) such that no line is too
    wide that could be broken *)
Definition broken_text (available font_size : Q) (text : list N) (lines : list (list N)) : Prop :=
  lines <> [] /\ (text = joined lines \/ text = joined lines ++ [space]) /\
  Forall (fun l => fits glyph_id glyph_width available font_size l \/ unbreakable l) lines.
End Font.

(** ** Boxes whose vertical lengths do not depend on the width of what they are in *)
Definition fixed (l : lp) : Prop := match l with LpLength _ => True | LpPercentage _ => False end.
Definition fixed_or_auto (l : lpa) : Prop := match l with LpaPercentage _ => False | _ => True end.
Definition not_negative_part (l : lpa) : Prop := match l with LpaPercentage p => 0 <= p | _ => True end.
Definition steady_style (s : computed_values) : Prop :=
  Forall fixed [get s padding_top; get s padding_right; get s padding_bottom; get s padding_left] /\
  Forall fixed [get s border_top_width; get s border_right_width; get s border_bottom_width; get s border_left_width] /\
  Forall fixed_or_auto [get s margin_top; get s margin_right; get s margin_bottom; get s margin_left] /\
  not_negative_part (get s width).
Definition not_in_flow (b : inline_level_box) : Prop :=
  match b with InlineAbsolutelyPositionedBox _ _ | InlineFloatBox _ _ => True | _ => False end.
(** At most one text, in an element or beside boxes that are not in flow *)
Definition one_text (l : list inline_level_box) : Prop :=
  Forall not_in_flow l \/
  exists before style text after, l = before ++ TextRun style text :: after /\ Forall not_in_flow (before ++ after) /\ 0 <= get style font_size.
Inductive steady : block_container -> Prop :=
| sd_blocks : forall l, Forall steady_block l -> steady (BlockLevelBoxes l)
| sd_text : forall l, one_text l -> steady (InlineFormattingContext l)
with steady_block : block_level_box -> Prop :=
| sd_same : forall s c, steady_style s -> steady c -> steady_block (SameFormattingContextBlock s c)
| sd_independent : forall s c fl, steady_style s -> steady c -> steady_block (Independent s (BFC c fl))
| sd_absolute : forall s c, steady_block (OutOfFlowAbsolutelyPositionedBox s c)
| sd_float : forall s c, steady_block (OutOfFlowFloatBox s c).

(** ** [higher f g]: [f] begins no lower than [g], is not taller, and so on for what is in it in flow *)
Definition line_of_height (h : Q) (f : fragment) : Prop :=
  match f with FAnonymous r _ _ => v_block (size r) == h | _ => False end.
Inductive higher : fragment -> fragment -> Prop :=
| hi_box : forall b c b' c',
    content_top b <= content_top b' -> content_height b <= content_height b' ->
    pb_start b == pb_start b' -> pb_end b == pb_end b' -> inside_higher c c' ->
    higher (FBox b c) (FBox b' c')
(** Marks the place of a box that is not in flow *)
| hi_place : forall r mode r' mode',
    v_block (start_corner r) <= v_block (start_corner r') -> higher (FAnonymous r mode []) (FAnonymous r' mode' [])
(** The fragments in a box are those in flow and those that are positioned in it. *)
with inside_higher : list fragment -> list fragment -> Prop :=
| ih_blocks : forall flow flow' absolute absolute',
    blocks_higher flow flow' -> inside_higher (flow ++ absolute) (flow' ++ absolute')
| ih_lines : forall h lines lines' absolute absolute',
    (length lines <= length lines')%nat -> 0 <= h -> Forall (line_of_height h) (lines ++ lines') ->
    inside_higher (lines ++ absolute) (lines' ++ absolute')
with blocks_higher : list fragment -> list fragment -> Prop :=
| bh_nil : blocks_higher [] []
| bh_cons : forall f f' l l', higher f f' -> blocks_higher l l' -> blocks_higher (f :: l) (f' :: l').
