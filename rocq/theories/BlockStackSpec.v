(** Boxes in normal flow do not overlap: what that means, apart from how layout is done. *)
From Coq Require Import QArith.
From Verif Require Import Base Dom StyleValues StyleProperties PdfConvert Geom Text LayoutTree LayoutSpec.
Local Open Scope Q_scope.

(** The border box of a fragment, seen from the content box of its parent *)
Definition border_top (b : box_fragment) : Q := content_top b - pb_start b.
Definition border_height (b : box_fragment) : Q := pb_start b + content_height b + pb_end b.
Definition border_bottom (b : box_fragment) : Q := border_top b + border_height b.
Definition line_top (r : rect Q) : Q := v_block (start_corner r).
Definition line_bottom (r : rect Q) : Q := v_block (start_corner r) + v_block (size r).

(** [stacked y l]: going through [l], each border box and each line begins at or below the end of the one
    before it, the first one at or below [y].  An anonymous fragment with nothing in it marks the place
    of a box that is out of flow. *)
Inductive stacked : Q -> list fragment -> Prop :=
| st_nil : forall y, stacked y []
| st_place : forall y r mode l, stacked y l -> stacked y (FAnonymous r mode [] :: l)
| st_line : forall y r mode children l,
    y <= line_top r -> 0 <= v_block (size r) -> stacked (line_bottom r) l -> stacked y (FAnonymous r mode children :: l)
| st_box : forall y b children l,
    y <= border_top b -> stacked (border_bottom b) l -> stacked y (FBox b children :: l).
(** [f] ends at or above [z].  An empty box whose margins collapse through it may be lower: nothing of it
    is to be seen. *)
Definition ends_above (z : Q) (f : fragment) : Prop :=
  match f with
  | FBox b _ => 0 < border_height b -> border_bottom b <= z
  | FAnonymous _ _ [] => True
  | FAnonymous r _ _ => line_bottom r <= z
  | FText _ _ _ => False
  end.
(** In every box of [l] the children are stacked, and inside its content box if its height is [auto]. *)
Inductive tidy : list fragment -> Prop :=
| td_nil : tidy []
| td_anonymous : forall r mode children l, tidy l -> tidy (FAnonymous r mode children :: l)
| td_box : forall b children l,
    0 <= pb_start b -> 0 <= content_height b -> 0 <= pb_end b ->
    stacked 0 children -> (get (bf_style b) height = LpaAuto -> Forall (ends_above (content_height b)) children) ->
    tidy children -> tidy l -> tidy (FBox b children :: l).

(** The boxes this is about: those in flow are not moved by relative positioning, and have no negative
    heights, margins, padding or borders in the block axis, nor percentages there (see
    [C86_percentage_refuted]).  [P] is required of their [height]. *)
Definition length_or_none (l : lpa) : Prop :=
  match l with LpaLength x => 0 <= x | LpaPercentage _ => False | LpaAuto => True end.
Definition length_only (l : lp) : Prop := match l with LpLength x => 0 <= x | LpPercentage _ => False end.
Definition not_moved_style (P : lpa -> Prop) (s : computed_values) : Prop :=
  get s position_ <> Relative /\ P (get s height) /\
  length_or_none (get s margin_top) /\ length_or_none (get s margin_bottom) /\
  length_only (get s padding_top) /\ length_only (get s padding_bottom) /\
  length_only (get s border_top_width) /\ length_only (get s border_bottom_width).
Definition height_not_negative (l : lpa) : Prop :=
  match l with LpaLength x => 0 <= x | LpaPercentage p => 0 <= p | LpaAuto => True end.
Inductive all_flowing (P : lpa -> Prop) : block_container -> Prop :=
| af_blocks : forall l, Forall (flowing P) l -> all_flowing P (BlockLevelBoxes l)
| af_inlines : forall l, all_flowing P (InlineFormattingContext l)
with flowing (P : lpa -> Prop) : block_level_box -> Prop :=
| fl_same : forall s c, not_moved_style P s -> all_flowing P c -> flowing P (SameFormattingContextBlock s c)
| fl_independent : forall s c fl, not_moved_style P s -> all_flowing P c -> flowing P (Independent s (BFC c fl))
| fl_absolute : forall s c, flowing P (OutOfFlowAbsolutelyPositionedBox s c)
| fl_float : forall s c, flowing P (OutOfFlowFloatBox s c).

(** [appears l path t z]: following [path] into [l] leads to a border box or a line that goes from [t] to
    [z], counted from the content box [l] is in. *)
Inductive appears : list fragment -> list nat -> Q -> Q -> Prop :=
| ap_box : forall l i b children, nth_error l i = Some (FBox b children) -> appears l [i] (border_top b) (border_bottom b)
| ap_line : forall l i r mode children, nth_error l i = Some (FAnonymous r mode children) -> children <> [] ->
    appears l [i] (line_top r) (line_bottom r)
| ap_inside : forall l i b children path t z, nth_error l i = Some (FBox b children) -> appears children path t z ->
    appears l (i :: path) (content_top b + t) (content_top b + z).
(** The one comes before the other in the tree, and neither is inside the other. *)
Inductive comes_before : list nat -> list nat -> Prop :=
| cb_here : forall i j p q, (i < j)%nat -> comes_before (i :: p) (j :: q)
| cb_inside : forall i p q, comes_before p q -> comes_before (i :: p) (i :: q).
