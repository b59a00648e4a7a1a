(** Model of the data of victor/src/layout: the box tree, fragments and collapsed margins, and what
    layout reads from computed values. *)
From Coq Require Import QArith Qminmax.
From Verif Require Import Base Dom StyleValues StyleProperties Geom Text.
Local Open Scope Q_scope.

(** ** What layout reads from a style: style/properties/mod.rs *)
(** 32-35 *)
Definition style_writing_mode (c : computed_values) : wmode := (HorizontalTb, Ltr).
(** 37-45 *)
Definition box_offsets (c : computed_values) : sides lpa :=
  to_flow_relative (mkPsides (get c top_) (get c left_) (get c bottom_) (get c right_)) (style_writing_mode c).
(** 47-53 *)
Definition box_size (c : computed_values) : vec2 lpa :=
  size_to_flow_relative (mkPvec (get c width) (get c height)) (style_writing_mode c).
(** 55-63 *)
Definition style_padding (c : computed_values) : sides lp :=
  to_flow_relative (mkPsides (get c padding_top) (get c padding_left) (get c padding_bottom) (get c padding_right))
    (style_writing_mode c).
(** 65-73 *)
Definition style_border_width (c : computed_values) : sides lp :=
  to_flow_relative (mkPsides (get c border_top_width) (get c border_left_width) (get c border_bottom_width)
    (get c border_right_width)) (style_writing_mode c).
(** 75-83 *)
Definition style_margin (c : computed_values) : sides lpa :=
  to_flow_relative (mkPsides (get c margin_top) (get c margin_left) (get c margin_bottom) (get c margin_right))
    (style_writing_mode c).
(** 85-90 *)
Definition to_rgba (c : computed_values) (k : color) : rgba :=
  match k with Rgba r => r | CurrentColor => get c color_ end.

(** style/values/length.rs:228-234 *)
Definition non_auto (l : lpa) : option lp :=
  match l with LpaLength px => Some (LpLength px) | LpaPercentage p => Some (LpPercentage p) | LpaAuto => None end.
(** length.rs:253-258 *)
Definition loa_map (f : Q -> Q) (l : length_or_auto) : length_or_auto :=
  match l with Length px => Length (f px) | Auto => Auto end.

(** geom.rs:232-248 *)
Definition lp_sides_relative_to (s : sides lp) (basis : Q) : sides Q := smap (fun l => lp_relative_to l basis) s.
(** geom.rs:238-242 *)
Definition lpa_sides_relative_to (s : sides lpa) (basis : Q) : sides length_or_auto :=
  smap (fun l => lpa_relative_to l basis) s.
(** [auto_is]: geom.rs:244-248 *)
Definition sides_auto_is (s : sides length_or_auto) (auto_value : Q) : sides Q :=
  smap (fun l => auto_is l auto_value) s.

(** ** Collapsed margins: layout/fragments.rs *)
(** 32-36 *)
Record collapsed_margin : Type := mkCM { max_positive : Q; min_negative : Q }.
(** 26-30 *)
Record collapsed_block_margins : Type :=
  mkCBM { collapsed_through : bool; cm_start : collapsed_margin; cm_end : collapsed_margin }.
(** 88-93 *)
Definition cm_zero : collapsed_margin := mkCM 0 0.
(** 95-100 *)
Definition cm_new (margin : Q) : collapsed_margin := mkCM (Qmax margin 0) (Qmin margin 0).
(** 102-111: [adjoin], [adjoin_assign] *)
Definition adjoin (a b : collapsed_margin) : collapsed_margin :=
  mkCM (Qmax (max_positive a) (max_positive b)) (Qmin (min_negative a) (min_negative b)).
(** 113-115 *)
Definition solve (m : collapsed_margin) : Q := max_positive m + min_negative m.
(** 69-85 *)
Definition cbm_from_margin (margin : sides Q) : collapsed_block_margins :=
  mkCBM false (cm_new (block_start margin)) (cm_new (block_end margin)).
(** layout/fragments.rs:78-84 *)
Definition cbm_zero : collapsed_block_margins := mkCBM false cm_zero cm_zero.

(** ** Fragments: layout/fragments.rs *)
(** 10-24 [BoxFragment], without its children *)
Record box_fragment : Type := mkBoxFragment {
  bf_style : computed_values;
  bf_content_rect : rect Q;
  bf_padding : sides Q; bf_border : sides Q; bf_margin : sides Q;
  bf_margins : collapsed_block_margins }.
(** 4-8 [Fragment], 38-43 [AnonymousFragment], 45-49 [TextFragment] *)
Inductive fragment : Type :=
| FBox (b : box_fragment) (children : list fragment)
| FAnonymous (r : rect Q) (mode : wmode) (children : list fragment)
| FText (parent_style : computed_values) (content_rect : rect Q) (text : shaped).
(** 51-59 *)
Definition no_op (mode : wmode) : fragment := FAnonymous rzero mode [].
(** 61-67 *)
Definition border_rect (b : box_fragment) : rect Q :=
  inflate (inflate (bf_content_rect b) (bf_padding b)) (bf_border b).

(** ** The box tree *)
(** layout/flow/mod.rs:16-41, layout/flow/inline.rs:5-36, layout/flow/float.rs:3-7,
    layout/positioned.rs:4-8, layout/mod.rs:24-32.  [ReplacedContent] (layout/replaced.rs:4-7) has no
    values, so the variants that hold one are left out and an [IndependentFormattingContext] is a
    [BlockFormattingContext].  [Arc]s are their contents.  A [String] is its list of characters. *)
Inductive block_container : Type :=
| BlockLevelBoxes (boxes : list block_level_box)
| InlineFormattingContext (boxes : list inline_level_box)
with block_level_box : Type :=
| SameFormattingContextBlock (style : computed_values) (contents : block_container)
| OutOfFlowAbsolutelyPositionedBox (style : computed_values) (contents : block_formatting_context)
| OutOfFlowFloatBox (style : computed_values) (contents : block_formatting_context)
| Independent (style : computed_values) (contents : block_formatting_context)
with block_formatting_context : Type :=
| BFC (contents : block_container) (contains_floats : bool)
with inline_level_box : Type :=
| InlineBox (style : computed_values) (first_fragment last_fragment : bool) (children : list inline_level_box)
| TextRun (parent_style : computed_values) (text : list N)
| InlineAbsolutelyPositionedBox (style : computed_values) (contents : block_formatting_context)
| InlineFloatBox (style : computed_values) (contents : block_formatting_context).

(** layout/mod.rs:94-98 *)
Record containing_block : Type := mkCB { cb_inline_size : Q; cb_block_size : length_or_auto; cb_mode : wmode }.
(** layout/mod.rs:100-103 *)
Record definite_containing_block : Type := mkDCB { dcb_size : vec2 Q; dcb_mode : wmode }.
(** layout/flow/mod.rs:42-46 *)
Record flow_children : Type := mkFC {
  fc_fragments : list fragment; fc_block_size : Q; fc_margins : collapsed_block_margins }.

(** layout/positioned.rs:26-32 *)
Inductive abs_offsets : Type :=
| StaticStart (start : Q)
| OffStart (start : lp)
| OffEnd (end_ : lp)
| OffBoth (start end_ : lp).
(** layout/positioned.rs:10-25.  The reference to the box is its style and what laying out its
    contents gives: [absolutely_positioned_box.contents.layout(cb, 0, &mut vec![])] (positioned.rs:258-263
    is its only use), which returns the fragments and the absolutely positioned fragments collected;
    [None] is a panic. *)
Inductive abspos_fragment : Type := mkAbspos {
  ap_style : computed_values;
  ap_contents : containing_block -> option (flow_children * list abspos_fragment);
  ap_tree_rank : nat;
  ap_inline_start : abs_offsets;
  ap_inline_size : lpa;
  ap_block_start : abs_offsets;
  ap_block_size : lpa }.
