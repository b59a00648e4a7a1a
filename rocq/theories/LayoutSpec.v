(** What CSS 2 says about layout, stated apart from the model's functions. *)
From Coq Require Import QArith Qminmax.
From Verif Require Import Base Dom StyleValues StyleProperties PdfConvert Geom Text LayoutTree.
From Verif Require InlineSpec.
Local Open Scope Q_scope.

(** ** Collapsing margins (CSS 2 §8.3.1) *)
(** The greatest of the margins if there is a positive one, otherwise 0 *)
Definition greatest_positive (l : list Q) (p : Q) : Prop :=
  0 <= p /\ (forall m, In m l -> m <= p) /\ (p == 0 \/ exists m, In m l /\ m == p).
(** The least of the margins if there is a negative one, otherwise 0 *)
Definition least_negative (l : list Q) (n : Q) : Prop :=
  n <= 0 /\ (forall m, In m l -> n <= m) /\ (n == 0 \/ exists m, In m l /\ m == n).
Definition collapses_to (l : list Q) (r : Q) : Prop :=
  exists p n, greatest_positive l p /\ least_negative l n /\ r == p + n.

(** The same as a function *)
Definition collapse (l : list Q) : Q := fold_right Qmax 0 l + fold_right Qmin 0 l.

(** ** The block axis *)
(** Going down the page one meets margins, which collapse when nothing separates them, and heights. *)
Inductive item := Margin (m : Q) | Height (h : Q).
(** The distance from the beginning to the end of [l]; [run] is the margins met just before, [None]
    if they are not part of this distance (they collapse with something before it). *)
Fixpoint distance (run : option (list Q)) (l : list item) : Q :=
  match l with
  | [] => match run with None => 0 | Some ms => collapse ms end
  | Margin m :: r => distance (match run with None => None | Some ms => Some (m :: ms) end) r
  | Height h :: r => match run with None => 0 | Some ms => collapse ms end + h + distance (Some []) r
  end.
(** The margins at the beginning, before any height *)
Fixpoint leading (l : list item) : list Q :=
  match l with Margin m :: r => m :: leading r | _ => [] end.
(** Without the margins at the end *)
Fixpoint strip (l : list item) : list item :=
  match l with
  | [] => []
  | i :: r => match i, strip r with Margin _, [] => [] | _, r => i :: r end
  end.
(** Padding and border, which separate margins unless they are zero *)
Definition solid (q : Q) : list item := if Qeq_bool q 0 then [] else [Height q].
Definition run_of (pb : Q) : option (list Q) := if Qeq_bool pb 0 then None else Some [].

(** CSS 2 §10.5: a percentage of an [auto] height is [auto] *)
Definition used_height (cb_height : length_or_auto) (style : computed_values) : length_or_auto :=
  match get style height, cb_height with
  | LpaLength l, _ => Length l
  | LpaPercentage p, Length h => Length (h * p)
  | _, _ => Auto
  end.

Definition pb_start (b : box_fragment) : Q := block_start (bf_padding b) + block_start (bf_border b).
Definition pb_end (b : box_fragment) : Q := block_end (bf_padding b) + block_end (bf_border b).
Definition content_height (b : box_fragment) : Q := v_block (size (bf_content_rect b)).
Definition content_top (b : box_fragment) : Q := v_block (start_corner (bf_content_rect b)).

(** Line boxes are stacked with nothing in between, starting at [y] and ending at [z]; none has a negative
    height. *)
Inductive lines_ok : Q -> list fragment -> Q -> Prop :=
| lines_nil : forall y z, y == z -> lines_ok y [] z
| lines_cons : forall y r mode children l z,
    v_block (start_corner r) == y -> v_inline (start_corner r) == 0 -> 0 <= v_block (size r) ->
    lines_ok (y + v_block (size r)) l z ->
    lines_ok y (FAnonymous r mode children :: l) z.

(** CSS 2 §9.4.3: how far a box is moved from its place by its offsets; percentages are left out here. *)
Definition relative_offset (style : computed_values) (start end_ : lpa) (o : Q) : Prop :=
  match get style position_ with
  | Relative =>
      match start, end_ with
      | LpaLength l, _ => o == l
      | LpaAuto, LpaLength l => o == - l
      | LpaAuto, LpaAuto => o == 0
      | _, _ => True
      end
  | _ => o == 0
  end.

(** Where a fragment is put, given what is [before] it in its container and the margins [top] that
    collapse with its own top margin: its border box comes after both, except for the offset of a
    relatively positioned box. *)
Definition placed (run : option (list Q)) (before : list item) (f : fragment) (top : list Q) : Prop :=
  match f with
  | FBox b _ =>
      exists offset, relative_offset (bf_style b) (get (bf_style b) top_) (get (bf_style b) bottom_) offset /\
      content_top b == distance run (before ++ map Margin top) + pb_start b + offset
  | FAnonymous r _ _ => v_block (start_corner r) == distance run (strip before)
  | FText _ _ _ => False
  end.

(** [block_ok h b f top items]: [f] is a fragment of [b] in a container of height [h], [items] is what
    it adds to the flow, and [top] the margins that collapse with its top margin (itself included).
    Only a relatively positioned box has [extra] fragments, those of absolutely positioned boxes (see
    [positioned_in_container]). *)
Inductive block_ok : length_or_auto -> block_level_box -> fragment -> list Q -> list item -> Prop :=
| ok_abspos : forall h style contents r mode,
    block_ok h (OutOfFlowAbsolutelyPositionedBox style contents) (FAnonymous r mode []) [] []
| ok_float : forall h style contents r mode,
    block_ok h (OutOfFlowFloatBox style contents) (FAnonymous r mode []) [] []
| ok_same : forall h style contents b children extra inner,
    bf_style b = style -> (get style position_ <> Relative -> extra = []) ->
    container_ok (used_height h style) contents (run_of (pb_start b)) children inner ->
    (forall x, used_height h style = Length x -> content_height b == x) ->
    (used_height h style = Auto ->
     content_height b == distance (run_of (pb_start b)) (if Qeq_bool (pb_end b) 0 then strip inner else inner)) ->
    block_ok h (SameFormattingContextBlock style contents) (FBox b (children ++ extra))
      (block_start (bf_margin b) :: if Qeq_bool (pb_start b) 0 then leading inner else [])
      (match used_height h style with
       | Auto =>
           Margin (block_start (bf_margin b)) :: solid (pb_start b) ++ inner ++ solid (pb_end b) ++
           [Margin (block_end (bf_margin b))]
       | Length _ =>
           Margin (block_start (bf_margin b)) ::
           (if Qeq_bool (pb_start b) 0 then map Margin (leading inner) else []) ++
           [Height (pb_start b + content_height b + pb_end b); Margin (block_end (bf_margin b))]
       end)
| ok_independent : forall h style contents floats b children extra inner,
    bf_style b = style -> (get style position_ <> Relative -> extra = []) ->
    container_ok (used_height h style) contents (Some []) children inner ->
    (forall x, used_height h style = Length x -> content_height b == x) ->
    (used_height h style = Auto -> content_height b == distance (Some []) inner) ->
    block_ok h (Independent style (BFC contents floats)) (FBox b (children ++ extra))
      [block_start (bf_margin b)]
      [Margin (block_start (bf_margin b)); Height (pb_start b + content_height b + pb_end b);
       Margin (block_end (bf_margin b))]
(** [container_ok h c run frs items]: [frs] are the fragments of the contents of [c] and [items] what
    they add up to; [run] tells whether the first margins collapse with those of the container. *)
with container_ok : length_or_auto -> block_container -> option (list Q) -> list fragment -> list item -> Prop :=
| ok_blocks : forall h l run frs items,
    children_ok h run [] l frs items -> container_ok h (BlockLevelBoxes l) run frs items
| ok_lines : forall h l run frs y,
    lines_ok 0 frs y -> container_ok h (InlineFormattingContext l) run frs [Height y]
with children_ok : length_or_auto -> option (list Q) -> list item -> list block_level_box -> list fragment ->
                   list item -> Prop :=
| ok_nil : forall h run before, children_ok h run before [] [] before
| ok_cons : forall h run before b l f frs top items all,
    block_ok h b f top items ->
    placed run before f top ->
    children_ok h run (before ++ items) l frs all ->
    children_ok h run before (b :: l) (f :: frs) all.

(** ** The inline axis (CSS 2 §8.3, §8.4, §10.3.3) *)
(** Percentages refer to the width [w] of the containing block, also for vertical padding and margins. *)
Definition of_width (w : Q) (l : lp) (x : Q) : Prop :=
  match l with LpLength px => x == px | LpPercentage p => x == w * p end.
(** The used value [x] of a margin; [auto] says what is required of it if it is [auto]. *)
Definition margin_of_width (w : Q) (l : lpa) (auto : Q -> Prop) (x : Q) : Prop :=
  match l with LpaLength px => x == px | LpaPercentage p => x == w * p | LpaAuto => auto x end.
Definition zero (x : Q) : Prop := x == 0.
Definition any (x : Q) : Prop := True.

Definition edges_ok (w : Q) (b : box_fragment) : Prop :=
  let s := bf_style b in
  of_width w (get s padding_left) (inline_start (bf_padding b)) /\
  of_width w (get s padding_right) (inline_end (bf_padding b)) /\
  of_width w (get s padding_top) (block_start (bf_padding b)) /\
  of_width w (get s padding_bottom) (block_end (bf_padding b)) /\
  of_width w (get s border_left_width) (inline_start (bf_border b)) /\
  of_width w (get s border_right_width) (inline_end (bf_border b)) /\
  of_width w (get s border_top_width) (block_start (bf_border b)) /\
  of_width w (get s border_bottom_width) (block_end (bf_border b)) /\
  margin_of_width w (get s margin_top) zero (block_start (bf_margin b)) /\
  margin_of_width w (get s margin_bottom) zero (block_end (bf_margin b)).

Definition content_width (b : box_fragment) : Q := v_inline (size (bf_content_rect b)).
Definition content_left (b : box_fragment) : Q := v_inline (start_corner (bf_content_rect b)).
(** Of the seven values that should add up to the width of the containing block *)
Definition total_width (b : box_fragment) : Q :=
  inline_start (bf_margin b) + inline_start (bf_border b) + inline_start (bf_padding b) + content_width b +
  inline_end (bf_padding b) + inline_end (bf_border b) + inline_end (bf_margin b).

(** §10.3.3, apart from the sum.  If [width] is [auto], [auto] margins are 0.  If neither [width] nor the
    left margin is [auto], the right margin follows from the sum whatever its value. *)
Definition widths_ok (w : Q) (b : box_fragment) : Prop :=
  let s := bf_style b in
  match get s width with
  | LpaAuto =>
      margin_of_width w (get s margin_left) zero (inline_start (bf_margin b)) /\
      margin_of_width w (get s margin_right) zero (inline_end (bf_margin b))
  | LpaLength px => content_width b == px
  | LpaPercentage p => content_width b == w * p
  end /\
  margin_of_width w (get s margin_left) any (inline_start (bf_margin b)) /\
  match get s margin_left, get s margin_right with
  | LpaAuto, LpaAuto => inline_start (bf_margin b) == inline_end (bf_margin b)
  | LpaAuto, r => margin_of_width w r any (inline_end (bf_margin b))
  | _, _ => True
  end.
(** The case the code gets right: the margin it leaves out of the sum is zero *)
Definition sum_applies (w : Q) (style : computed_values) : Prop :=
  get style width = LpaAuto \/
  match get style margin_left, get style margin_right with
  | LpaAuto, LpaAuto => True
  | LpaAuto, r => margin_of_width w r any 0
  | l, _ => margin_of_width w l any 0
  end.

(** The fragment of an in-flow block-level box in a containing block of width [w] *)
Inductive in_flow_width : Q -> computed_values -> box_fragment -> Prop :=
| ifw : forall w style b offset,
    bf_style b = style -> edges_ok w b -> widths_ok w b ->
    (sum_applies w style -> total_width b == w) ->
    relative_offset style (get style left_) (get style right_) offset ->
    content_left b == inline_start (bf_margin b) + inline_start (bf_border b) + inline_start (bf_padding b) + offset ->
    in_flow_width w style b.

Section Font.
(** The lookups made in the font *)
Variable glyph_id : N -> res font_error N.
Variable glyph_width : N -> res font_error Q.

(** [in_width_block w b f]: [f] is a fragment of [b] laid out in a containing block of width [w]. *)
Inductive in_width_block : Q -> block_level_box -> fragment -> Prop :=
| iw_abspos : forall w style contents r mode,
    v_inline (start_corner r) == 0 -> v_inline (size r) == 0 ->
    in_width_block w (OutOfFlowAbsolutelyPositionedBox style contents) (FAnonymous r mode [])
| iw_float : forall w style contents r mode,
    v_inline (start_corner r) == 0 -> v_inline (size r) == 0 ->
    in_width_block w (OutOfFlowFloatBox style contents) (FAnonymous r mode [])
| iw_same : forall w style contents b children extra,
    in_flow_width w style b -> (get style position_ <> Relative -> extra = []) ->
    in_width_container (content_width b) contents children ->
    in_width_block w (SameFormattingContextBlock style contents) (FBox b (children ++ extra))
| iw_independent : forall w style contents floats b children extra,
    in_flow_width w style b -> (get style position_ <> Relative -> extra = []) ->
    in_width_container (content_width b) contents children ->
    in_width_block w (Independent style (BFC contents floats)) (FBox b (children ++ extra))
with in_width_container : Q -> block_container -> list fragment -> Prop :=
| iw_blocks : forall w l frs, in_width_children w l frs -> in_width_container w (BlockLevelBoxes l) frs
| iw_lines : forall w l frs,
    (forall f, In f frs -> exists r mode children, f = FAnonymous r mode children /\
       v_inline (start_corner r) == 0 /\ v_inline (size r) == w) ->
    InlineSpec.line_boxes_ok glyph_id glyph_width w l frs ->
    in_width_container w (InlineFormattingContext l) frs
with in_width_children : Q -> list block_level_box -> list fragment -> Prop :=
| iw_nil : forall w, in_width_children w [] []
| iw_cons : forall w b l f frs,
    in_width_block w b f -> in_width_children w l frs -> in_width_children w (b :: l) (f :: frs).

(** ** Absolutely positioned boxes (CSS 2 §10.3.7, §10.6.4) *)
Definition is_auto (l : lpa) : Prop := l = LpaAuto.
(** A length, or a percentage of [c] *)
Definition value_of (c : Q) (l : lpa) (x : Q) : Prop := margin_of_width c l any x.
(** One axis of a box in a containing block of size [c]; percentages of margins refer to [w].  The used
    values are, in order, the offset [s], the margin [m], the content size [z] with [pb] for padding and
    borders, the other margin [n] and the other offset [e].  [static] is where the margin edge would be
    if the box were not positioned.  [negative_margins] is what the margins have to be when both are
    [auto] and there is less than no room for them. *)
Definition axis_ok (c w static pb : Q) (negative_margins : Q -> Q -> Prop) (start_ end_ size_ mstart mend : lpa) (s m z n e : Q) : Prop :=
  s + m + pb + z + n + e == c /\
  value_of c start_ s /\
  value_of c size_ z /\
  value_of w mstart m /\ value_of w mend n /\
  (is_auto start_ -> is_auto end_ -> s == static) /\
  (is_auto start_ \/ is_auto size_ \/ is_auto mstart \/ is_auto mend -> value_of c end_ e) /\
  (is_auto start_ \/ is_auto end_ \/ is_auto size_ -> margin_of_width w mstart zero m /\ margin_of_width w mend zero n) /\
  (is_auto mstart -> is_auto mend -> ~ is_auto start_ -> ~ is_auto end_ -> ~ is_auto size_ ->
   (0 <= m + n -> m == n) /\ (m + n < 0 -> negative_margins m n)).

(** The used values of the inline and block axes of a fragment in a containing block of size [w], [h].
    CSS has an [auto] width shrink to fit its contents if an offset is [auto]; here it takes all the room
    there is, so that the [auto] offset that is not given by the static position is zero. *)
Definition outer_left (b : box_fragment) : Q :=
  content_left b - inline_start (bf_padding b) - inline_start (bf_border b) - inline_start (bf_margin b).
Definition outer_top (b : box_fragment) : Q := content_top b - pb_start b - block_start (bf_margin b).
Definition inline_axis_ok (w static : Q) (b : box_fragment) : Prop :=
  let st := bf_style b in
  exists e,
  axis_ok w w static (inline_start (bf_padding b) + inline_start (bf_border b) + inline_end (bf_padding b) + inline_end (bf_border b))
    (fun m _ => m == 0) (get st left_) (get st right_) (get st width) (get st margin_left) (get st margin_right)
    (outer_left b) (inline_start (bf_margin b)) (content_width b) (inline_end (bf_margin b)) e /\
  (is_auto (get st width) -> is_auto (get st right_) -> e == 0) /\
  (is_auto (get st width) -> is_auto (get st left_) -> ~ is_auto (get st right_) -> outer_left b == 0).
Definition block_axis_ok (w h static : Q) (b : box_fragment) : Prop :=
  let st := bf_style b in
  exists e,
  axis_ok h w static (pb_start b + pb_end b)
    Qeq (get st top_) (get st bottom_) (get st height) (get st margin_top) (get st margin_bottom)
    (outer_top b) (block_start (bf_margin b)) (content_height b) (block_end (bf_margin b)) e.

(** ** Containing blocks and static positions of absolutely positioned boxes (CSS 2 §10.1, §10.3.7) *)
Definition absolute_box : Type := computed_values * block_formatting_context.
(** The absolutely positioned boxes among some inline boxes, in tree order *)
Fixpoint absolutes_in_inline (b : inline_level_box) : list absolute_box :=
  match b with
  | InlineBox _ _ _ children => flat_map absolutes_in_inline children
  | InlineAbsolutelyPositionedBox s c => [(s, c)]
  | TextRun _ _ | InlineFloatBox _ _ => []
  end.
Definition moved_by (dx dy : Q) (p q : absolute_box * (Q * Q)) : Prop :=
  fst q = fst p /\ fst (snd q) == fst (snd p) + dx /\ snd (snd q) == snd (snd p) + dy.
(** [y] is where one of the lines starts *)
Definition top_of_a_line (frs : list fragment) (y : Q) : Prop :=
  exists r mode children, In (FAnonymous r mode children) frs /\ v_block (start_corner r) == y.
(** [absolutes_in_container c frs l]: [l] are the absolutely positioned boxes of [c], in tree order, that
    have no positioned ancestor within [c], with the place each would have in normal flow, relative to
    the content box of the container; [frs] are its fragments.  A box that would be a block starts at the
    edge; the inline position of one that would be inline is not specified here.  (CSS counts relatively
    positioned inline boxes among the positioned ancestors.) *)
Inductive absolutes_in_container : block_container -> list fragment -> list (absolute_box * (Q * Q)) -> Prop :=
| s_blocks : forall l frs places,
    absolutes_in_children l frs places -> absolutes_in_container (BlockLevelBoxes l) frs places
| s_lines : forall l frs places,
    map fst places = flat_map absolutes_in_inline l ->
    Forall (fun p => top_of_a_line frs (snd (snd p)) /\
      forall inside, specified_display (fst (fst p)) = OutsideInside Block inside -> fst (snd p) == 0) places ->
    absolutes_in_container (InlineFormattingContext l) frs places
with absolutes_in_children : list block_level_box -> list fragment -> list (absolute_box * (Q * Q)) -> Prop :=
| s_nil : absolutes_in_children [] [] []
| s_cons : forall b l f frs p q,
    absolutes_in_block b f p -> absolutes_in_children l frs q -> absolutes_in_children (b :: l) (f :: frs) (p ++ q)
with absolutes_in_block : block_level_box -> fragment -> list (absolute_box * (Q * Q)) -> Prop :=
| s_abspos : forall style contents r mode x y,
    v_inline (start_corner r) == x -> v_block (start_corner r) == y ->
    absolutes_in_block (OutOfFlowAbsolutelyPositionedBox style contents) (FAnonymous r mode []) [((style, contents), (x, y))]
| s_float : forall style contents r mode,
    absolutes_in_block (OutOfFlowFloatBox style contents) (FAnonymous r mode []) []
| s_relative : forall style contents b children,
    get style position_ = Relative -> absolutes_in_block (SameFormattingContextBlock style contents) (FBox b children) []
| s_relative_independent : forall style contents b children,
    get style position_ = Relative -> absolutes_in_block (Independent style contents) (FBox b children) []
| s_same : forall style contents b children extra inner places,
    get style position_ <> Relative -> absolutes_in_container contents children inner ->
    Forall2 (moved_by (content_left b) (content_top b)) inner places ->
    absolutes_in_block (SameFormattingContextBlock style contents) (FBox b (children ++ extra)) places
| s_independent : forall style contents floats b children extra inner places,
    get style position_ <> Relative -> absolutes_in_container contents children inner ->
    Forall2 (moved_by (content_left b) (content_top b)) inner places ->
    absolutes_in_block (Independent style (BFC contents floats)) (FBox b (children ++ extra)) places.

Definition padding_and_border_ok (w : Q) (b : box_fragment) : Prop :=
  let s := bf_style b in
  of_width w (get s padding_left) (inline_start (bf_padding b)) /\
  of_width w (get s padding_right) (inline_end (bf_padding b)) /\
  of_width w (get s padding_top) (block_start (bf_padding b)) /\
  of_width w (get s padding_bottom) (block_end (bf_padding b)) /\
  of_width w (get s border_left_width) (inline_start (bf_border b)) /\
  of_width w (get s border_right_width) (inline_end (bf_border b)) /\
  of_width w (get s border_top_width) (block_start (bf_border b)) /\
  of_width w (get s border_bottom_width) (block_end (bf_border b)).
Definition is_length (l : lpa) : Prop := match l with LpaPercentage _ => False | _ => True end.
(** The cases in which the code does not mix up the axes; see [C47_…_refuted] *)
Definition inline_axis_applies (w h : Q) (s : computed_values) : Prop :=
  w == h \/ is_auto (get s right_) \/ ~ is_auto (get s left_).
Definition block_axis_applies (w h : Q) (s : computed_values) : Prop :=
  w == h \/
  (is_length (get s top_) /\ is_length (get s bottom_) /\ is_length (get s height) /\
   (is_auto (get s top_) \/ is_auto (get s bottom_) \/
    (~ is_auto (get s height) /\ ~ is_auto (get s margin_top) /\ ~ is_auto (get s margin_bottom)))).

(** [positioned w h (box, (x, y)) f]: [f] is a fragment of the absolutely positioned [box] whose containing
    block has the size [w], [h] and whose static position is [x], [y]. *)
Inductive positioned : Q -> Q -> absolute_box * (Q * Q) -> fragment -> Prop :=
| a_box : forall w h style contents floats b children extra inner x y given places,
    bf_style b = style ->
    padding_and_border_ok w b ->
    (inline_axis_applies w h style -> inline_axis_ok w x b) ->
    (block_axis_applies w h style -> block_axis_ok w h y b) ->
    in_width_container (content_width b) contents children ->
    container_ok given contents (Some []) children inner ->
    (given = Auto <-> is_auto (get style height) /\ (is_auto (get style top_) \/ is_auto (get style bottom_))) ->
    (given = Auto -> content_height b == distance (Some []) inner) ->
    (forall x, given = Length x -> content_height b == x) ->
    positioned_in_container contents children ->
    absolutes_in_container contents children places ->
    containing_block_of b places extra ->
    positioned w h ((style, BFC contents floats), (x, y)) (FBox b (children ++ extra))
(** The fragments added to a positioned box: those of its absolutely positioned descendants, in a
    fragment that covers its padding box *)
with containing_block_of : box_fragment -> list (absolute_box * (Q * Q)) -> list fragment -> Prop :=
| a_none : forall b, containing_block_of b [] []
| a_some : forall b boxes r mode frs,
    boxes <> [] ->
    v_inline (start_corner r) == - inline_start (bf_padding b) ->
    v_block (start_corner r) == - block_start (bf_padding b) ->
    v_inline (size r) == inline_start (bf_padding b) + content_width b + inline_end (bf_padding b) ->
    v_block (size r) == block_start (bf_padding b) + content_height b + block_end (bf_padding b) ->
    Forall2 (positioned (v_inline (size r)) (v_block (size r))) boxes frs ->
    containing_block_of b boxes [FAnonymous r mode frs]
(** The fragments of a box in normal flow *)
with positioned_in_block : block_level_box -> fragment -> Prop :=
| a_abspos : forall style contents r mode,
    positioned_in_block (OutOfFlowAbsolutelyPositionedBox style contents) (FAnonymous r mode [])
| a_float : forall style contents r mode,
    positioned_in_block (OutOfFlowFloatBox style contents) (FAnonymous r mode [])
| a_same : forall style contents b children extra places,
    positioned_in_container contents children ->
    (get style position_ <> Relative -> places = []) ->
    (get style position_ = Relative -> absolutes_in_container contents children places) ->
    containing_block_of b places extra ->
    positioned_in_block (SameFormattingContextBlock style contents) (FBox b (children ++ extra))
| a_independent : forall style contents floats b children extra places,
    positioned_in_container contents children ->
    (get style position_ <> Relative -> places = []) ->
    (get style position_ = Relative -> absolutes_in_container contents children places) ->
    containing_block_of b places extra ->
    positioned_in_block (Independent style (BFC contents floats)) (FBox b (children ++ extra))
with positioned_in_container : block_container -> list fragment -> Prop :=
| a_blocks : forall l frs, Forall2 positioned_in_block l frs -> positioned_in_container (BlockLevelBoxes l) frs
| a_lines : forall l frs, positioned_in_container (InlineFormattingContext l) frs.
End Font.

(** ** Boxes whose layout is defined *)
(** Every absolutely positioned box that comes among inlines has a specified display that generates a box. *)
Inductive displayed_container : block_container -> Prop :=
| d_blocks : forall l, Forall displayed_block l -> displayed_container (BlockLevelBoxes l)
| d_inlines : forall l, Forall displayed_inline l -> displayed_container (InlineFormattingContext l)
with displayed_block : block_level_box -> Prop :=
| d_same : forall s c, displayed_container c -> displayed_block (SameFormattingContextBlock s c)
| d_abspos : forall s c, displayed_context c -> displayed_block (OutOfFlowAbsolutelyPositionedBox s c)
| d_float : forall s c, displayed_block (OutOfFlowFloatBox s c)
| d_independent : forall s c, displayed_context c -> displayed_block (Independent s c)
with displayed_context : block_formatting_context -> Prop :=
| d_bfc : forall c floats, displayed_container c -> displayed_context (BFC c floats)
with displayed_inline : inline_level_box -> Prop :=
| d_inline : forall s first last children, Forall displayed_inline children -> displayed_inline (InlineBox s first last children)
| d_text : forall s t, displayed_inline (TextRun s t)
| d_inline_abspos : forall s c outside inside,
    specified_display s = OutsideInside outside inside -> displayed_context c ->
    displayed_inline (InlineAbsolutelyPositionedBox s c)
| d_inline_float : forall s c, displayed_inline (InlineFloatBox s c).
