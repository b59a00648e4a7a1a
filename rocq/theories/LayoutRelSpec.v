(** Two layouts compared: boxes and fragments that are the same but for their styles and lengths. *)
From Coq Require Import QArith.
From Verif Require Import Base Dom StyleValues StyleProperties Geom Text LayoutTree.
Local Open Scope Q_scope.

(** Both are there and related, or neither is *)
Inductive both {A B} (r : A -> B -> Prop) : option A -> option B -> Prop :=
| both_none : both r None None
| both_some : forall a b, r a b -> both r (Some a) (Some b).

Section Rel.
(** How styles are related, and lengths, and widths of text in a font of size 1 *)
Variable S : computed_values -> computed_values -> Prop.
Variable R : Q -> Q -> Prop.
Variable E : Q -> Q -> Prop.

(** *** Boxes *)
Inductive same_containers : block_container -> block_container -> Prop :=
| same_blocks : forall l l', Forall2 same_blocks_of l l' -> same_containers (BlockLevelBoxes l) (BlockLevelBoxes l')
| same_inlines : forall l l', Forall2 same_inlines_of l l' -> same_containers (InlineFormattingContext l) (InlineFormattingContext l')
with same_blocks_of : block_level_box -> block_level_box -> Prop :=
| same_in_flow : forall s s' c c', S s s' -> same_containers c c' -> same_blocks_of (SameFormattingContextBlock s c) (SameFormattingContextBlock s' c')
| same_absolute : forall s s' c c', S s s' -> same_contexts c c' -> same_blocks_of (OutOfFlowAbsolutelyPositionedBox s c) (OutOfFlowAbsolutelyPositionedBox s' c')
| same_float : forall s s' c c', S s s' -> same_contexts c c' -> same_blocks_of (OutOfFlowFloatBox s c) (OutOfFlowFloatBox s' c')
| same_independent : forall s s' c c', S s s' -> same_contexts c c' -> same_blocks_of (Independent s c) (Independent s' c')
with same_contexts : block_formatting_context -> block_formatting_context -> Prop :=
| same_bfc : forall c c' floats, same_containers c c' -> same_contexts (BFC c floats) (BFC c' floats)
with same_inlines_of : inline_level_box -> inline_level_box -> Prop :=
| same_inline : forall s s' first last l l', S s s' -> Forall2 same_inlines_of l l' -> same_inlines_of (InlineBox s first last l) (InlineBox s' first last l')
| same_text : forall s s' t, S s s' -> same_inlines_of (TextRun s t) (TextRun s' t)
| same_inline_absolute : forall s s' c c', S s s' -> same_contexts c c' -> same_inlines_of (InlineAbsolutelyPositionedBox s c) (InlineAbsolutelyPositionedBox s' c')
| same_inline_float : forall s s' c c', S s s' -> same_contexts c c' -> same_inlines_of (InlineFloatBox s c) (InlineFloatBox s' c').

(** *** Fragments *)
Definition vecs (a b : vec2 Q) : Prop := R (v_inline a) (v_inline b) /\ R (v_block a) (v_block b).
Definition rects (a b : rect Q) : Prop := vecs (start_corner a) (start_corner b) /\ vecs (size a) (size b).
Definition sides4 {A} (r : A -> A -> Prop) (a b : sides A) : Prop :=
  r (inline_start a) (inline_start b) /\ r (inline_end a) (inline_end b) /\ r (block_start a) (block_start b) /\ r (block_end a) (block_end b).
Definition margins (a b : collapsed_margin) : Prop := R (max_positive a) (max_positive b) /\ R (min_negative a) (min_negative b).
Definition block_margins (a b : collapsed_block_margins) : Prop :=
  collapsed_through a = collapsed_through b /\ margins (cm_start a) (cm_start b) /\ margins (cm_end a) (cm_end b).
Definition box_fragments (a b : box_fragment) : Prop :=
  S (bf_style a) (bf_style b) /\ rects (bf_content_rect a) (bf_content_rect b) /\
  sides4 R (bf_padding a) (bf_padding b) /\ sides4 R (bf_border a) (bf_border b) /\ sides4 R (bf_margin a) (bf_margin b) /\
  block_margins (bf_margins a) (bf_margins b).
Definition texts (a b : shaped) : Prop := glyphs a = glyphs b /\ E (advance_width a) (advance_width b).
Inductive same_fragments : fragment -> fragment -> Prop :=
| same_box : forall b b' l l', box_fragments b b' -> Forall2 same_fragments l l' -> same_fragments (FBox b l) (FBox b' l')
| same_anonymous : forall r r' m l l', rects r r' -> Forall2 same_fragments l l' -> same_fragments (FAnonymous r m l) (FAnonymous r' m l')
| same_text_fragment : forall s s' r r' t t', S s s' -> rects r r' -> texts t t' -> same_fragments (FText s r t) (FText s' r' t').
End Rel.

(** *** Values of properties *)
Definition lpas (R : Q -> Q -> Prop) (a b : lpa) : Prop :=
  match a, b with
  | LpaLength x, LpaLength y => R x y
  | LpaPercentage p, LpaPercentage q => p = q
  | LpaAuto, LpaAuto => True
  | _, _ => False
  end.
Definition lps (R : Q -> Q -> Prop) (a b : lp) : Prop :=
  match a, b with
  | LpLength x, LpLength y => R x y
  | LpPercentage p, LpPercentage q => p = q
  | _, _ => False
  end.
(** Lengths are related, all the rest is the same. *)
Definition values (R : Q -> Q -> Prop) (k : kind) : computed_kind k -> computed_kind k -> Prop :=
  match k return computed_kind k -> computed_kind k -> Prop with
  | KFontSize => R
  | KLpa => lpas R
  | KLp | KLineWidth => lps R
  | _ => eq
  end.
Definition styles (R : Q -> Q -> Prop) (s s' : computed_values) : Prop :=
  specified_display s = specified_display s' /\ forall p, values R (kind_of p) (get s p) (get s' p).
(** Layout in the same way, but for lengths *)
Definition layout_longhands : list longhand :=
  [font_size; position_; top_; left_; bottom_; right_; width; height; margin_top; margin_left; margin_bottom; margin_right;
   padding_top; padding_left; padding_bottom; padding_right;
   border_top_width; border_left_width; border_bottom_width; border_right_width].
Definition laid_out_as (R : Q -> Q -> Prop) (s s' : computed_values) : Prop :=
  specified_display s = specified_display s' /\ forall p, In p layout_longhands -> values R (kind_of p) (get s p) (get s' p).

(** *** Zoom *)
Definition zoom_lpa (k : Q) (v : lpa) : lpa := match v with LpaLength x => LpaLength (k * x) | v => v end.
Definition zoom_lp (k : Q) (v : lp) : lp := match v with LpLength x => LpLength (k * x) | v => v end.
Definition zoom_value (k : Q) (kd : kind) : computed_kind kd -> computed_kind kd :=
  match kd return computed_kind kd -> computed_kind kd with
  | KFontSize => fun v => k * v
  | KLpa => zoom_lpa k
  | KLp | KLineWidth => zoom_lp k
  | _ => fun v => v
  end.
Definition zoom_style (k : Q) (s : computed_values) : computed_values :=
  mkComputed (fun p => zoom_value k (kind_of p) (get s p)) (specified_display s).
Fixpoint zoom_container (k : Q) (c : block_container) : block_container :=
  match c with
  | BlockLevelBoxes l => BlockLevelBoxes (map (zoom_block k) l)
  | InlineFormattingContext l => InlineFormattingContext (map (zoom_inline k) l)
  end
with zoom_block (k : Q) (b : block_level_box) : block_level_box :=
  match b with
  | SameFormattingContextBlock s c => SameFormattingContextBlock (zoom_style k s) (zoom_container k c)
  | OutOfFlowAbsolutelyPositionedBox s c => OutOfFlowAbsolutelyPositionedBox (zoom_style k s) (zoom_context k c)
  | OutOfFlowFloatBox s c => OutOfFlowFloatBox (zoom_style k s) (zoom_context k c)
  | Independent s c => Independent (zoom_style k s) (zoom_context k c)
  end
with zoom_context (k : Q) (c : block_formatting_context) : block_formatting_context :=
  match c with BFC c f => BFC (zoom_container k c) f end
with zoom_inline (k : Q) (b : inline_level_box) : inline_level_box :=
  match b with
  | InlineBox s f l children => InlineBox (zoom_style k s) f l (map (zoom_inline k) children)
  | TextRun s t => TextRun (zoom_style k s) t
  | InlineAbsolutelyPositionedBox s c => InlineAbsolutelyPositionedBox (zoom_style k s) (zoom_context k c)
  | InlineFloatBox s c => InlineFloatBox (zoom_style k s) (zoom_context k c)
  end.
(** *** The properties that layout depends on *)
Definition same_for_layout (s s' : computed_values) : Prop :=
  specified_display s = specified_display s' /\ forall p, In p layout_longhands -> get s p = get s' p.
(** Those that the page depends on: two more *)
Definition same_for_page (s s' : computed_values) : Prop :=
  same_for_layout s s' /\ get s color_ = get s' color_ /\ get s background_color = get s' background_color.
(** *** The numbers in fragments and styles *)
Section Numbers.
Variable P : Q -> Prop.
Definition vec_numbers (v : vec2 Q) : Prop := P (v_inline v) /\ P (v_block v).
Definition rect_numbers (r : rect Q) : Prop := vec_numbers (start_corner r) /\ vec_numbers (size r).
Definition sides_numbers (s : sides Q) : Prop := P (inline_start s) /\ P (inline_end s) /\ P (block_start s) /\ P (block_end s).
Fixpoint fragment_numbers (f : fragment) : Prop :=
  match f with
  | FBox b l => rect_numbers (bf_content_rect b) /\ sides_numbers (bf_padding b) /\ sides_numbers (bf_border b) /\ sides_numbers (bf_margin b) /\
      fold_right and True (map fragment_numbers l)
  | FAnonymous r _ l => rect_numbers r /\ fold_right and True (map fragment_numbers l)
  | FText _ r t => rect_numbers r /\ P (advance_width t)
  end.
Definition value_numbers (k : kind) : computed_kind k -> Prop :=
  match k return computed_kind k -> Prop with
  | KFontSize => P
  | KLpa => fun v => match v with LpaLength x => P x | _ => True end
  | KLp | KLineWidth => fun v => match v with LpLength x => P x | _ => True end
  | _ => fun _ => True
  end.
Definition style_numbers (s : computed_values) : Prop := forall p, value_numbers (kind_of p) (get s p).
End Numbers.
(** All styles of a box tree *)
Definition every_style (S : computed_values -> Prop) (root : block_formatting_context) : Prop :=
  same_contexts (fun s s' => s = s' /\ S s) root root.
