(** Which boxes a document generates. *)
From Verif Require Import Base Dom DomSpec FontCmap StyleValues StyleProperties StyleSpec LayoutTree.

(** ** What there is to display *)
(** Text with the style of the element it is in, and elements with their style *)
Inductive content := CText (style : computed_values) (text : list N) | CBox (style : computed_values) (e : nat) (inside : list content).

(** A string of bytes is the UTF-8 of these characters. *)
Definition encodes (t : bytes) (cs : list N) : Prop := Forall (fun c => is_char c = true) cs /\ flat_map utf8 cs = t.

Section Document.
Variable d : document.
(** The style of an element, given that of its parent *)
Variable has_style : nat -> computed_values -> computed_values -> Prop.
(** Children of an element of style [parent]: comments and the like show nothing, nor does an element with
    display none; display contents shows what is in the element instead of the element. *)
Inductive shows (parent : computed_values) : list tree -> list content -> Prop :=
| sh_nil : shows parent [] []
| sh_text : forall i ts r t cs out, data (node_at d i) = DText t -> encodes t cs -> shows parent r out ->
    shows parent (T i ts :: r) (CText parent cs :: out)
| sh_other : forall i ts r out, ~ is_text d i -> ~ is_element (data (node_at d i)) -> shows parent r out ->
    shows parent (T i ts :: r) out
| sh_none : forall i ts r s out, is_element (data (node_at d i)) -> has_style i parent s ->
    get s display_ = DisplayNone -> shows parent r out -> shows parent (T i ts :: r) out
| sh_contents : forall i ts r s inside out, is_element (data (node_at d i)) -> has_style i parent s ->
    get s display_ = Contents -> shows s ts inside -> shows parent r out -> shows parent (T i ts :: r) (inside ++ out)
| sh_box : forall i ts r s outer inner inside out, is_element (data (node_at d i)) -> has_style i parent s ->
    get s display_ = OutsideInside outer inner -> shows s ts inside -> shows parent r out ->
    shows parent (T i ts :: r) (CBox s i inside :: out).
End Document.

(** ** Kinds of boxes *)
Definition inline_style (s : computed_values) : Prop := get s display_ = OutsideInside Inline Flow.
Definition absolute_style (s : computed_values) : Prop :=
  (exists i, get s display_ = OutsideInside Block i) /\ get s position_ = Absolute.
Definition float_style (s : computed_values) : Prop :=
  (exists i, get s display_ = OutsideInside Block i) /\ get s position_ <> Absolute /\ get s float_ <> FloatNone.
Definition block_style (i : display_inside) (s : computed_values) : Prop :=
  get s display_ = OutsideInside Block i /\ get s position_ <> Absolute /\ get s float_ = FloatNone.

(** ** White space *)
Definition is_space (c : N) : bool := existsb (N.eqb c) [32; 9; 10; 12; 13]%N.
(** CSS 2 §16.6.1 for 'white-space: normal': every white space character is a space, and a space that
    follows a space goes away. *)
Fixpoint collapse (after_space : bool) (t : list N) : list N :=
  match t with
  | [] => []
  | c :: r =>
      if is_space c then if after_space then collapse true r else 32%N :: collapse true r
      else c :: collapse false r
  end.
(** The text of the boxes of a paragraph, without that of out-of-flow boxes *)
Fixpoint run_text (x : inline_level_box) : list N :=
  match x with
  | TextRun _ t => t
  | InlineBox _ _ _ children => flat_map run_text children
  | InlineAbsolutelyPositionedBox _ _ | InlineFloatBox _ _ => []
  end.
Definition text_so_far (l : list inline_level_box) : list N := flat_map run_text l.
(** At the start, or right after a space *)
Definition after_space (t : list N) : bool := match rev t with [] => true | c :: _ => (c =? 32)%N end.

(** Text is put at the end: nothing if there is none, in the text run that is there, or in a new one. *)
Inductive text_added (style : computed_values) : list inline_level_box -> list N -> list inline_level_box -> Prop :=
| ta_none : forall l, text_added style l [] l
| ta_more : forall l s t new, new <> [] -> text_added style (l ++ [TextRun s t]) new (l ++ [TextRun s (t ++ new)])
| ta_new : forall l new, new <> [] -> (forall k s t, l <> k ++ [TextRun s t]) -> text_added style l new (l ++ [TextRun style new]).

(** ** Paragraphs and blocks *)
(** Block-level content in normal flow *)
Definition block_content (c : content) : Prop :=
  match c with CText _ _ => False | CBox s _ _ => exists i, block_style i s end.
Definition out_of_flow_content (c : content) : Prop :=
  match c with CText _ _ => False | CBox s _ _ => absolute_style s \/ float_style s end.
(** What a paragraph starts with *)
Definition starts_paragraph (c : content) : Prop :=
  match c with CText _ t => exists ch, In ch t /\ is_space ch = false | CBox s _ _ => inline_style s end.
Definition blank (c : content) : Prop :=
  match c with CText _ t => forall ch, In ch t -> is_space ch = true | CBox _ _ _ => False end.

(** The contents of a block in pieces: paragraphs, each up to the next block-level content in normal flow
    or to the end, and boxes *)
Inductive piece := PParagraph (cs : list content) | PBox (c : content).
Inductive pieces : list content -> list piece -> Prop :=
| pc_nil : pieces [] []
| pc_blank : forall c r ps, blank c -> pieces r ps -> pieces (c :: r) ps
| pc_box : forall c r ps, block_content c \/ out_of_flow_content c -> pieces r ps -> pieces (c :: r) (PBox c :: ps)
| pc_paragraph : forall c p r ps, starts_paragraph c -> (forall x, In x p -> ~ block_content x) ->
    match r with [] => True | x :: _ => block_content x end -> pieces r ps ->
    pieces ((c :: p) ++ r) (PParagraph (c :: p) :: ps).

(** A float that belongs to the same formatting context: not in an out-of-flow box or a flow-root *)
Inductive floats_in : list content -> Prop :=
| fi_here : forall cs s e inside, In (CBox s e inside) cs -> float_style s -> floats_in cs
| fi_inside : forall cs s e inside, In (CBox s e inside) cs -> inline_style s \/ block_style Flow s -> floats_in inside -> floats_in cs.

(** An anonymous box inherits what is inherited; everything else has its initial value. *)
Definition anonymous_style (parent a : computed_values) : Prop :=
  forall p, exists v, css_default (Some parent) p v /\ adjusted a p v.

(** The inline-level boxes of a paragraph, or of an inline box *)
Inductive level : list content -> list inline_level_box -> Prop :=
| lv_nil : level [] []
| lv_text : forall cs l s t l', level cs l -> text_added s l (collapse (after_space (text_so_far l)) t) l' ->
    level (cs ++ [CText s t]) l'
| lv_inline : forall cs l s e inside boxes, level cs l -> inline_style s -> level inside boxes ->
    level (cs ++ [CBox s e inside]) (l ++ [InlineBox s true true boxes])
| lv_absolute : forall cs l s e inside c, level cs l -> absolute_style s -> context s inside c ->
    level (cs ++ [CBox s e inside]) (l ++ [InlineAbsolutelyPositionedBox s c])
| lv_float : forall cs l s e inside c, level cs l -> float_style s -> context s inside c ->
    level (cs ++ [CBox s e inside]) (l ++ [InlineFloatBox s c])
(** The contents of a block of style [s]: one paragraph, or block-level boxes *)
with container : computed_values -> list content -> block_container -> Prop :=
| cn_inlines : forall s cs p l, pieces cs [PParagraph p] -> level p l -> container s cs (InlineFormattingContext l)
| cn_blocks : forall s cs ps a boxes, pieces cs ps -> (forall p, ps <> [PParagraph p]) -> anonymous_style s a ->
    block_boxes a ps boxes -> container s cs (BlockLevelBoxes boxes)
with context : computed_values -> list content -> block_formatting_context -> Prop :=
| cx : forall s cs c floats, container s cs c -> (floats = true <-> floats_in cs) -> context s cs (BFC c floats)
(** One box for each piece; paragraphs among blocks are in anonymous blocks. *)
with block_boxes : computed_values -> list piece -> list block_level_box -> Prop :=
| bb_nil : forall a, block_boxes a [] []
| bb_paragraph : forall a p l ps bs, level p l -> block_boxes a ps bs ->
    block_boxes a (PParagraph p :: ps) (SameFormattingContextBlock a (InlineFormattingContext l) :: bs)
| bb_block : forall a s e inside c ps bs, block_style Flow s -> container s inside c -> block_boxes a ps bs ->
    block_boxes a (PBox (CBox s e inside) :: ps) (SameFormattingContextBlock s c :: bs)
| bb_root : forall a s e inside c ps bs, block_style FlowRoot s -> context s inside c -> block_boxes a ps bs ->
    block_boxes a (PBox (CBox s e inside) :: ps) (Independent s c :: bs)
| bb_absolute : forall a s e inside c ps bs, absolute_style s -> context s inside c -> block_boxes a ps bs ->
    block_boxes a (PBox (CBox s e inside) :: ps) (OutOfFlowAbsolutelyPositionedBox s c :: bs)
| bb_float : forall a s e inside c ps bs, float_style s -> context s inside c -> block_boxes a ps bs ->
    block_boxes a (PBox (CBox s e inside) :: ps) (OutOfFlowFloatBox s c :: bs).

(** ** What cannot be built: an inline-block, or a block in normal flow right inside an inline element *)
Inductive unbuildable : list content -> Prop :=
| ub_inline_block : forall cs s e inside, In (CBox s e inside) cs -> get s display_ = OutsideInside Inline FlowRoot -> unbuildable cs
| ub_block_in_inline : forall cs s e inside c, In (CBox s e inside) cs -> inline_style s -> In c inside -> block_content c ->
    unbuildable cs
| ub_deeper : forall cs s e inside, In (CBox s e inside) cs -> unbuildable inside -> unbuildable cs.

(** ** Text *)
Definition is_inline (s : computed_values) : bool :=
  match get s display_ with OutsideInside Inline _ => true | _ => false end.
(** The text of a paragraph as it is in the document, without that of out-of-flow elements *)
Fixpoint inline_text (c : content) : list N :=
  match c with CText _ t => t | CBox s _ inside => if is_inline s then flat_map inline_text inside else [] end.
(** The same without the white space at the start of each inline element *)
Fixpoint drop_spaces (t : list N) : list N :=
  match t with [] => [] | c :: r => if is_space c then drop_spaces r else t end.
Fixpoint kept_text (c : content) : list N :=
  match c with CText _ t => t | CBox s _ inside => if is_inline s then drop_spaces (flat_map kept_text inside) else [] end.
(** No inline element starts with white space. *)
Inductive no_leading_space : content -> Prop :=
| nl_text : forall s t, no_leading_space (CText s t)
| nl_out : forall s e inside, is_inline s = false -> no_leading_space (CBox s e inside)
| nl_inline : forall s e inside, Forall no_leading_space inside ->
    match flat_map inline_text inside with [] => True | c :: _ => is_space c = false end -> no_leading_space (CBox s e inside).
(** No white space but single spaces between other characters, or one at the end *)
Definition neat (t : list N) : Prop :=
  (forall c, In c t -> is_space c = true -> c = 32%N) /\ (forall r, t <> 32%N :: r) /\ (forall a b, t <> a ++ 32%N :: 32%N :: b).
Definition nonspace (t : list N) : list N := filter (fun c => negb (is_space c)) t.
(** All text *)
Fixpoint content_text (c : content) : list N :=
  match c with CText _ t => t | CBox _ _ inside => flat_map content_text inside end.
Fixpoint container_text (c : block_container) : list N :=
  match c with
  | BlockLevelBoxes l => flat_map block_text l
  | InlineFormattingContext l => flat_map whole_text l
  end
with block_text (b : block_level_box) : list N :=
  match b with
  | SameFormattingContextBlock _ c => container_text c
  | OutOfFlowAbsolutelyPositionedBox _ c | OutOfFlowFloatBox _ c | Independent _ c => context_text c
  end
with context_text (c : block_formatting_context) : list N := match c with BFC c _ => container_text c end
with whole_text (i : inline_level_box) : list N :=
  match i with
  | TextRun _ t => t
  | InlineBox _ _ _ children => flat_map whole_text children
  | InlineAbsolutelyPositionedBox _ c | InlineFloatBox _ c => context_text c
  end.

(** ** Shape *)
(** Paragraphs and text runs are not empty, inline boxes are whole, text runs are not side by side, and
    the text of each paragraph is neat. *)
Definition apart (l : list inline_level_box) : Prop := forall a s t s' t' b, l <> a ++ TextRun s t :: TextRun s' t' :: b.
Inductive tidy_container : block_container -> Prop :=
| td_blocks : forall l, Forall tidy_block l -> tidy_container (BlockLevelBoxes l)
| td_inlines : forall l, l <> [] -> apart l -> Forall tidy_inline l -> neat (text_so_far l) -> tidy_container (InlineFormattingContext l)
with tidy_block : block_level_box -> Prop :=
| td_same : forall s c, tidy_container c -> tidy_block (SameFormattingContextBlock s c)
| td_absolute : forall s c f, tidy_container c -> tidy_block (OutOfFlowAbsolutelyPositionedBox s (BFC c f))
| td_float : forall s c f, tidy_container c -> tidy_block (OutOfFlowFloatBox s (BFC c f))
| td_independent : forall s c f, tidy_container c -> tidy_block (Independent s (BFC c f))
with tidy_inline : inline_level_box -> Prop :=
| td_text : forall s t, t <> [] -> tidy_inline (TextRun s t)
| td_inline : forall s l, apart l -> Forall tidy_inline l -> tidy_inline (InlineBox s true true l)
| td_inline_absolute : forall s c f, tidy_container c -> tidy_inline (InlineAbsolutelyPositionedBox s (BFC c f))
| td_inline_float : forall s c f, tidy_container c -> tidy_inline (InlineFloatBox s (BFC c f)).

(** ** The root element: a float, an absolutely positioned box, or a block whatever its display *)
Inductive root_boxes : computed_values -> block_formatting_context -> list block_level_box -> bool -> Prop :=
| rb_absolute : forall s c, get s position_ = Absolute -> root_boxes s c [OutOfFlowAbsolutelyPositionedBox s c] false
| rb_float : forall s c, get s position_ <> Absolute -> get s float_ <> FloatNone -> root_boxes s c [OutOfFlowFloatBox s c] true
| rb_block : forall s c, get s position_ <> Absolute -> get s float_ = FloatNone -> root_boxes s c [Independent s c] false.

(** ** Where paragraphs are *)
(** An out-of-flow element of a paragraph, maybe in inline elements *)
Inductive out_in : list content -> content -> Prop :=
| oi_here : forall p c, In c p -> out_of_flow_content c -> out_in p c
| oi_inline : forall p s e inside c, In (CBox s e inside) p -> inline_style s -> out_in inside c -> out_in p c.
(** The paragraphs of these contents and of the boxes in them *)
Inductive paragraph_of : list content -> list content -> Prop :=
| po_here : forall cs ps p, pieces cs ps -> In (PParagraph p) ps -> paragraph_of cs p
| po_box : forall cs ps s e inside p, pieces cs ps -> In (PBox (CBox s e inside)) ps -> paragraph_of inside p -> paragraph_of cs p
| po_out : forall cs ps q s e inside p, pieces cs ps -> In (PParagraph q) ps -> out_in q (CBox s e inside) ->
    paragraph_of inside p -> paragraph_of cs p.
(** The inline formatting contexts of a box tree *)
Inductive ifc_container : block_container -> list inline_level_box -> Prop :=
| ic_here : forall l, ifc_container (InlineFormattingContext l) l
| ic_inlines : forall l k, ifc_inlines l k -> ifc_container (InlineFormattingContext l) k
| ic_blocks : forall l b k, In b l -> ifc_block b k -> ifc_container (BlockLevelBoxes l) k
with ifc_block : block_level_box -> list inline_level_box -> Prop :=
| ib_same : forall s c k, ifc_container c k -> ifc_block (SameFormattingContextBlock s c) k
| ib_absolute : forall s c f k, ifc_container c k -> ifc_block (OutOfFlowAbsolutelyPositionedBox s (BFC c f)) k
| ib_float : forall s c f k, ifc_container c k -> ifc_block (OutOfFlowFloatBox s (BFC c f)) k
| ib_independent : forall s c f k, ifc_container c k -> ifc_block (Independent s (BFC c f)) k
with ifc_inlines : list inline_level_box -> list inline_level_box -> Prop :=
| ii_inline : forall l s first last children k, In (InlineBox s first last children) l -> ifc_inlines children k -> ifc_inlines l k
| ii_absolute : forall l s c f k, In (InlineAbsolutelyPositionedBox s (BFC c f)) l -> ifc_container c k -> ifc_inlines l k
| ii_float : forall l s c f k, In (InlineFloatBox s (BFC c f)) l -> ifc_container c k -> ifc_inlines l k.
