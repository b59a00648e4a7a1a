(** What is meant by the normal flow of a page (CSS 2 §9.3: floats and absolutely positioned boxes are out of it) *)
From Coq Require Import QArith.
From Verif Require Import Base StyleValues StyleProperties Geom Text LayoutTree Layout.
Local Open Scope Q_scope.

(** ** Boxes without the ones that are out of flow *)
Fixpoint flow_inline (b : inline_level_box) : list inline_level_box :=
  match b with
  | InlineBox style first last l => [InlineBox style first last (flat_map flow_inline l)]
  | TextRun style text => [TextRun style text]
  | InlineAbsolutelyPositionedBox _ _ | InlineFloatBox _ _ => []
  end.
Fixpoint flow_container (c : block_container) : block_container :=
  match c with
  | BlockLevelBoxes l => BlockLevelBoxes (flat_map flow_block l)
  | InlineFormattingContext l => InlineFormattingContext (flat_map flow_inline l)
  end
with flow_block (b : block_level_box) : list block_level_box :=
  match b with
  | SameFormattingContextBlock style c => [SameFormattingContextBlock style (flow_container c)]
  | Independent style c => [Independent style (flow_root c)]
  | OutOfFlowAbsolutelyPositionedBox _ _ | OutOfFlowFloatBox _ _ => []
  end
with flow_root (c : block_formatting_context) : block_formatting_context :=
  match c with BFC c _ => BFC (flow_container c) false end.

(** ** Fragments *)
(** After its children a relatively positioned box may have one more fragment, with the boxes that are positioned with respect to it. *)
Definition positioned_in (style : computed_values) (extra : list fragment) : Prop :=
  extra = [] \/ get style position_ = Relative /\ exists r mode boxes, extra = [FAnonymous r mode boxes].
(** The second list is the first without what is not in flow: empty fragments of no size, and the boxes of [positioned_in].
    Lines are all the same, and so is everything about the boxes that are left. *)
Inductive same_flow : list fragment -> list fragment -> Prop :=
| sf_nil : same_flow [] []
| sf_skip : forall r mode l l', v_inline (size r) == 0 -> v_block (size r) == 0 -> same_flow l l' -> same_flow (FAnonymous r mode [] :: l) l'
| sf_box : forall b c c' extra l l', same_inside c c' -> positioned_in (bf_style b) extra -> same_flow l l' ->
    same_flow (FBox b (c ++ extra) :: l) (FBox b c' :: l')
with same_inside : list fragment -> list fragment -> Prop :=
| si_lines : forall lines, same_inside lines lines
| si_blocks : forall l l', same_flow l l' -> same_inside l l'.
