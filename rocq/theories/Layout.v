(** Model of victor/src/layout: positioned.rs, mod.rs, flow/mod.rs, flow/inline.rs and the layout half
    of flow/root.rs.  [None] is a panic.  [&mut Vec<AbsolutelyPositionedFragment>] is passed in and
    returned.  [FloatContext] has no fields: whether there is one is a [bool].
    The rayon iterators are their sequential meaning; see [mapfold_reduce_into] for the one whose
    meaning is not obvious.  Simplification: lengths are exact; LayoutArith.v is the same layout in any arithmetic. *)
From Coq Require Import QArith Qminmax.
From Verif Require Import Base Dom StyleValues StyleProperties PdfConvert Geom Text LayoutTree.
Local Open Scope Q_scope.

Declare Scope opt_scope.
Notation "x <- r ;; k" := (match r with Some x => k | None => None end)
  (at level 61, r at next level, right associativity) : opt_scope.
Notation "' x <- r ;; k" := (match r with Some x => k | None => None end)
  (at level 61, x pattern, r at next level, right associativity) : opt_scope.
Local Open Scope opt_scope.

(** [==] of modes in the assertions at layout/flow/mod.rs:356-359, positioned.rs:252-255 *)
Definition wmode_eqb (a b : wmode) : bool :=
  match a, b with
  | (HorizontalTb, x), (HorizontalTb, y) | (VerticalRl, x), (VerticalRl, y) | (VerticalLr, x), (VerticalLr, y)
  | (SidewaysRl, x), (SidewaysRl, y) | (SidewaysLr, x), (SidewaysLr, y) =>
      match x, y with Ltr, Ltr | Rtl, Rtl => true | _, _ => false end
  | _, _ => false
  end.

(** ** layout/mod.rs *)
(** 114-120 *)
Definition adjust (start end_ : length_or_auto) : Q :=
  match start, end_ with
  | Auto, Auto => 0
  | Auto, Length e => - e
  | Length s, _ => s
  end.
(** 105-130 *)
Definition relative_adjustement (style : computed_values) (inline_size : Q) (block_size : length_or_auto) : vec2 Q :=
  if is_relatively_positioned (get style position_) then
    let block_size := auto_is block_size 0 in
    let o := map_inline_and_block_axes (fun v => lpa_relative_to v inline_size) (fun v => lpa_relative_to v block_size)
               (box_offsets style) in
    mkVec (adjust (inline_start o) (inline_end o)) (adjust (block_start o) (block_end o))
  else vzero.

(** ** layout/positioned.rs *)
(** 47-60 *)
Definition absolute_box_offsets (initial_static_start : Q) (start end_ : lpa) : abs_offsets :=
  match non_auto start, non_auto end_ with
  | None, None => StaticStart initial_static_start
  | Some s, Some e => OffBoth s e
  | None, Some e => OffEnd e
  | Some s, None => OffStart s
  end.
(** 34-82 [AbsolutelyPositionedBox::layout] *)
Definition abspos_box_layout (style : computed_values)
    (contents : containing_block -> option (flow_children * list abspos_fragment))
    (initial_start_corner : vec2 Q) (tree_rank : nat) : abspos_fragment :=
  let o := box_offsets style in
  let s := box_size style in
  mkAbspos style contents tree_rank
    (absolute_box_offsets (v_inline initial_start_corner) (inline_start o) (inline_end o)) (v_inline s)
    (absolute_box_offsets (v_block initial_start_corner) (block_start o) (block_end o)) (v_block s).

(** 125-128 *)
Inductive anchor := AnchorStart (l : Q) | AnchorEnd (l : Q).
(** 130-199 *)
Definition solve_axis (containing_size padding_border_sum : Q) (cm_start cm_end : length_or_auto)
    (solve_margins : Q -> Q * Q) (offsets : abs_offsets) (size_ : lpa) : anchor * length_or_auto * Q * Q :=
  let size_ := lpa_relative_to size_ containing_size in
  match offsets with
  | StaticStart start => (AnchorStart start, size_, auto_is cm_start 0, auto_is cm_end 0)
  | OffStart start => (AnchorStart (lp_relative_to start containing_size), size_, auto_is cm_start 0, auto_is cm_end 0)
  | OffEnd e => (AnchorEnd (lp_relative_to e containing_size), size_, auto_is cm_start 0, auto_is cm_end 0)
  | OffBoth start e =>
      let start := lp_relative_to start containing_size in
      let e := lp_relative_to e containing_size in
      let margin_start := auto_is cm_start 0 in
      let margin_end := auto_is cm_end 0 in
      match size_ with
      | Length size_ =>
          let margins := containing_size - start - e - padding_border_sum - size_ in
          let '(margin_start, margin_end) :=
            match cm_start, cm_end with
            | Auto, Auto => solve_margins margins
            | Auto, Length e => (margins - e, margin_end)
            | Length s, Auto => (margin_start, margins - s)
            | Length _, Length _ => (margin_start, margin_end)
            end in
          (AnchorStart start, Length size_, margin_start, margin_end)
      | Auto =>
          (AnchorStart start, Length (containing_size - start - e - padding_border_sum - margin_start - margin_end),
           margin_start, margin_end)
      end
  end.
(** 208-214 *)
Definition inline_solve_margins (margins : Q) : Q * Q :=
  if Qle_bool 0 margins then (margins / 2, margins / 2) else (0, margins).
(** 223 *)
Definition block_solve_margins (margins : Q) : Q * Q := (margins / 2, margins / 2).

(** A list of results, or a panic if one panicked *)
Section MapOption.
Context {A B : Type}.
Variable f : A -> option B.
(** [collect] of an iterator that may panic: positioned.rs:105-112 *)
Fixpoint map_option (l : list A) : option (list B) :=
  match l with
  | [] => Some []
  | a :: r => b <- f a ;; bs <- map_option r ;; Some (b :: bs)
  end.
End MapOption.
(** 85-113; [lay] is [AbsolutelyPositionedFragment::layout] *)
Definition in_positioned_containing_block {A} (lay : definite_containing_block -> A -> option fragment)
    (absolute : list A) (fragments : list fragment) (content_rect_size : vec2 Q) (padding : sides Q) (mode : wmode) :
    option (list fragment) :=
  match absolute with
  | [] => Some fragments
  | _ =>
      let padding_rect := inflate (mkRect vzero content_rect_size) padding in
      children <- map_option (lay (mkDCB (size padding_rect) mode)) absolute ;;
      Some (fragments ++ [FAnonymous padding_rect mode children])
  end.
(** 115-303 [AbsolutelyPositionedFragment::layout] *)
Fixpoint abspos_layout (a : abspos_fragment) (cb : definite_containing_block) : option fragment :=
  match a with
  | mkAbspos style contents _ a_inline_start a_inline_size a_block_start a_block_size =>
      let cbis := v_inline (dcb_size cb) in
      let cbbs := v_block (dcb_size cb) in
      let padding := lp_sides_relative_to (style_padding style) cbis in
      let border := lp_sides_relative_to (style_border_width style) cbis in
      let computed_margin := lpa_sides_relative_to (style_margin style) cbis in
      let pb := sadd padding border in
      let '(inline_anchor, inline_size, margin_inline_start, margin_inline_end) :=
        solve_axis cbis (inline_sum pb) (inline_start computed_margin) (inline_end computed_margin)
          inline_solve_margins a_inline_start a_inline_size in
      let '(block_anchor, block_size, margin_block_start, margin_block_end) :=
        solve_axis cbis (block_sum pb) (block_start computed_margin) (block_end computed_margin)
          block_solve_margins a_block_start a_block_size in
      let margin := mkSides margin_inline_start margin_inline_end margin_block_start margin_block_end in
      let inline_size := auto_is inline_size
        (match inline_anchor with
         | AnchorStart start => cbis - start - inline_sum pb - inline_sum margin
         | AnchorEnd e => cbis - e - inline_sum pb - inline_sum margin
         end) in
      let cb_children := mkCB inline_size block_size (style_writing_mode style) in
      if wmode_eqb (dcb_mode cb) (cb_mode cb_children) then
        '(fc, abspos) <- contents cb_children ;;
        let inline_start_ := match inline_anchor with
          | AnchorStart start => start + inline_start pb + inline_start margin
          | AnchorEnd e => cbbs - e - inline_end pb - inline_end margin - inline_size
          end in
        let block_size := auto_is block_size (fc_block_size fc) in
        let block_start_ := match block_anchor with
          | AnchorStart start => start + block_start pb + block_start margin
          | AnchorEnd e => cbbs - e - block_end pb - block_end margin - block_size
          end in
        let content_rect := mkRect (mkVec inline_start_ block_start_) (mkVec inline_size block_size) in
        children <- in_positioned_containing_block (fun cb a => abspos_layout a cb) abspos (fc_fragments fc)
                      (size content_rect) padding (cb_mode cb_children) ;;
        Some (FBox (mkBoxFragment style content_rect padding border margin cbm_zero) children)
      else None
  end.

(** 306-328: the rank is looked up in [child_fragments], out of range panics, as does text *)
Definition add_static (o : abs_offsets) (l : Q) : abs_offsets :=
  match o with StaticStart start => StaticStart (start + l) | o => o end.
(** positioned.rs:311-327, one fragment *)
Definition adjust_static_position (child_fragments : list fragment) (tree_rank_in_parent : nat) (a : abspos_fragment) :
    option abspos_fragment :=
  r <- match nth_error child_fragments (ap_tree_rank a) with
       | Some (FBox b _) => Some (bf_content_rect b)
       | Some (FAnonymous r _ _) => Some r
       | _ => None
       end ;;
  Some (mkAbspos (ap_style a) (ap_contents a) tree_rank_in_parent
          (add_static (ap_inline_start a) (v_inline (start_corner r))) (ap_inline_size a)
          (add_static (ap_block_start a) (v_block (start_corner r))) (ap_block_size a)).
(** positioned.rs:306-328 *)
Definition adjust_static_positions (l : list abspos_fragment) (child_fragments : list fragment)
    (tree_rank_in_parent : nat) : option (list abspos_fragment) :=
  map_option (adjust_static_position child_fragments tree_rank_in_parent) l.

(** ** layout/flow/mod.rs: block-level children *)
(** 163-168 *)
Record placement_state : Type := mkPS {
  next_collapses_with_parent_start : bool;
  start_margin : collapsed_margin;
  current_margin : collapsed_margin;
  current_position : Q }.
(** layout/flow/mod.rs:139 and 156: [start_corner.block +=] *)
Definition move_block (r : rect Q) (l : Q) : rect Q :=
  mkRect (mkVec (v_inline (start_corner r)) (v_block (start_corner r) + l)) (size r).
(** layout/flow/mod.rs:139: the fragment with it changed *)
Definition with_content_rect (b : box_fragment) (r : rect Q) : box_fragment :=
  mkBoxFragment (bf_style b) r (bf_padding b) (bf_border b) (bf_margin b) (bf_margins b).
(** 114-161 *)
Definition place_block_level_fragment (f : fragment) (s : placement_state) : option (fragment * placement_state) :=
  match f with
  | FBox b children =>
      let m := bf_margins b in
      let fragment_block_size := block_sum (bf_padding b) + block_sum (bf_border b) + v_block (size (bf_content_rect b)) in
      let rest (s : placement_state) :=
        let moved := FBox (with_content_rect b
                       (move_block (bf_content_rect b) (solve (current_margin s) + current_position s))) children in
        if collapsed_through m then
          Some (moved, mkPS (next_collapses_with_parent_start s) (start_margin s)
                         (adjoin (current_margin s) (cm_end m)) (current_position s))
        else
          Some (moved, mkPS (next_collapses_with_parent_start s) (start_margin s) (cm_end m)
                         (current_position s + (solve (current_margin s) + fragment_block_size))) in
      if next_collapses_with_parent_start s then
        if Qeq_bool (solve (current_margin s)) 0 then
          let start := adjoin (start_margin s) (cm_start m) in
          if collapsed_through m then
            Some (FBox b children, mkPS true (adjoin start (cm_end m)) (current_margin s) (current_position s))
          else rest (mkPS false start (current_margin s) (current_position s))
        else None
      else rest (mkPS false (start_margin s) (adjoin (current_margin s) (cm_start m)) (current_position s))
  | FAnonymous r mode children =>
      match children with
      | [] =>
          if Qeq_bool (v_block (size r)) 0
          then Some (FAnonymous (move_block r (current_position s)) mode children, s)
          else None
      | _ => None
      end
  | FText _ _ _ => None
  end.
(** 216-218 *)
Fixpoint place_all (l : list fragment) (s : placement_state) : option (list fragment * placement_state) :=
  match l with
  | [] => Some ([], s)
  | f :: r =>
      '(f, s) <- place_block_level_fragment f s ;;
      '(r, s) <- place_all r s ;;
      Some (f :: r, s)
  end.

(** One call of the closure at lines 203-210 for one child, without its arguments: index and vector *)
Definition task : Type := nat -> list abspos_fragment -> option (fragment * list abspos_fragment).
(** 198-215, as rayon and [rayon_croissant::mapfold_reduce_into] may run it: the items are split at
    any point, any number of times; the left part goes on with the given vector and the right part
    starts with a new, empty one, which is then appended. *)
Inductive schedule := Sequential | Split (at_ : nat) (left_ right_ : schedule).
(** layout/flow/mod.rs:198-215: one part, in order *)
Fixpoint run_tasks (i : nat) (l : list task) (acc : list abspos_fragment) : option (list fragment * list abspos_fragment) :=
  match l with
  | [] => Some ([], acc)
  | k :: r =>
      '(f, acc) <- k i acc ;;
      '(fs, acc) <- run_tasks (S i) r acc ;;
      Some (f :: fs, acc)
  end.
(** layout/flow/mod.rs:198-215: the parts *)
Fixpoint mapfold_reduce_into (t : schedule) (i : nat) (l : list task) (acc : list abspos_fragment) :
    option (list fragment * list abspos_fragment) :=
  match t with
  | Sequential => run_tasks i l acc
  | Split n t1 t2 =>
      '(fs1, acc1) <- mapfold_reduce_into t1 i (firstn n l) acc ;;
      '(fs2, acc2) <- mapfold_reduce_into t2 (i + List.length (firstn n l)) (skipn n l) [] ;;
      Some (fs1 ++ fs2, acc1 ++ acc2)
  end.

Section Children.
Variable B : Type.
(** [box_.layout(containing_block, tree_rank, absolutely_positioned_fragments, float_context)] *)
Variable lay : nat -> B -> list abspos_fragment -> option (fragment * list abspos_fragment).

(** 183-196: layout and placement of one child after the other *)
Fixpoint layout_and_place (i : nat) (l : list B) (acc : list abspos_fragment) (s : placement_state) :
    option (list fragment * list abspos_fragment * placement_state) :=
  match l with
  | [] => Some ([], acc, s)
  | b :: r =>
      '(f, acc) <- lay i b acc ;;
      '(f, s) <- place_block_level_fragment f s ;;
      '(fs, acc, s) <- layout_and_place (S i) r acc s ;;
      Some (f :: fs, acc, s)
  end.
(** 106-237; [t] is how the parallel iterator happens to run *)
Definition layout_block_level_children (t : schedule) (child_boxes : list B) (tree_rank : nat) (acc : list abspos_fragment)
    (float_context : bool) (collapsible_with_parent_start_margin : bool) :
    option (flow_children * list abspos_fragment) :=
  let abspos_so_far := List.length acc in
  let s := mkPS collapsible_with_parent_start_margin cm_zero cm_zero 0 in
  '(fragments, acc, s) <-
    (if float_context then layout_and_place 0 child_boxes acc s
     else
       '(fs, acc) <- mapfold_reduce_into t 0 (map (fun b i acc => lay i b acc) child_boxes) acc ;;
       '(fs, s) <- place_all fs s ;;
       Some (fs, acc, s)) ;;
  adjusted <- adjust_static_positions (skipn abspos_so_far acc) fragments tree_rank ;;
  Some (mkFC fragments (current_position s)
          (mkCBM (next_collapses_with_parent_start s) (start_margin s) (current_margin s)),
        firstn abspos_so_far acc ++ adjusted).
End Children.
Arguments layout_block_level_children {B}.
Arguments layout_and_place {B}.

(** How every parallel iterator of a layout happens to run; a list of numbers tells them apart.  layout/flow/mod.rs:198-215 *)
Definition oracle : Type := list nat -> schedule.
(** The part of it that is for one child (layout/flow/mod.rs:203-210) *)
Definition sub_oracle (o : oracle) (i : nat) : oracle := fun path => o (i :: path).

(** 292-296 *)
Inductive block_level_kind := SameFormattingContext | EstablishesAnIndependentFormattingContext.
(** [==] of [BlockLevelKind]: layout/flow/mod.rs:292-296 *)
Definition is_same (k : block_level_kind) : bool :=
  match k with SameFormattingContext => true | _ => false end.
(** 318-341: the margins of the inline axis when the inline size is not auto *)
Definition solve_inline_margins (inline_margins : Q) (m : sides length_or_auto) : sides length_or_auto :=
  match inline_start m, inline_end m with
  | Auto, Auto => mkSides (Length (inline_margins / 2)) (Length (inline_margins / 2)) (block_start m) (block_end m)
  | Auto, e => mkSides (Length inline_margins) e (block_start m) (block_end m)
  | s, Auto => mkSides s (Length inline_margins) (block_start m) (block_end m)
  | s, _ => mkSides s (Length inline_margins) (block_start m) (block_end m)
  end.
(** 298-439 *)
Definition layout_in_flow_non_replaced_block_level (cb : containing_block) (acc : list abspos_fragment)
    (style : computed_values) (kind : block_level_kind)
    (layout_contents : containing_block -> list abspos_fragment -> bool -> option (flow_children * list abspos_fragment)) :
    option (fragment * list abspos_fragment) :=
  let cbis := cb_inline_size cb in
  let padding := lp_sides_relative_to (style_padding style) cbis in
  let border := lp_sides_relative_to (style_border_width style) cbis in
  let computed_margin := lpa_sides_relative_to (style_margin style) cbis in
  let pb := sadd padding border in
  let box_size_ := box_size style in
  let inline_size := lpa_relative_to (v_inline box_size_) cbis in
  let computed_margin :=
    match inline_size with
    | Length is_ => solve_inline_margins (cbis - is_ - inline_sum pb) computed_margin
    | Auto => computed_margin
    end in
  let margin := sides_auto_is computed_margin 0 in
  let collapsed := cbm_from_margin margin in
  let inline_size := auto_is inline_size (cbis - inline_sum pb - inline_sum margin) in
  let block_size :=
    match v_block box_size_ with
    | LpaLength l => Length l
    | LpaPercentage p => loa_map (fun cbbs => cbbs * p) (cb_block_size cb)
    | LpaAuto => Auto
    end in
  let cb_children := mkCB inline_size block_size (style_writing_mode style) in
  if wmode_eqb (cb_mode cb) (cb_mode cb_children) then
    let start_can_collapse := is_same kind && Qeq_bool (block_start pb) 0 in
    let end_can_collapse :=
      is_same kind && Qeq_bool (block_end pb) 0 && (match block_size with Auto => true | Length _ => false end) in
    let relative := is_relatively_positioned (get style position_) in
    '(fc, collected) <- layout_contents cb_children (if relative then [] else acc) start_can_collapse ;;
    let in_children := fc_margins fc in
    let '(start, in_children) :=
      if start_can_collapse then
        let start := adjoin (cm_start collapsed) (cm_start in_children) in
        if collapsed_through in_children
        then (adjoin start (cm_end in_children), mkCBM (collapsed_through in_children) (cm_start in_children) cm_zero)
        else (start, in_children)
      else (cm_start collapsed, in_children) in
    let '(end_, fc_size) :=
      if end_can_collapse then (adjoin (cm_end collapsed) (cm_end in_children), fc_block_size fc)
      else (cm_end collapsed, fc_block_size fc + solve (cm_end in_children)) in
    let collapsed :=
      mkCBM (start_can_collapse && end_can_collapse && collapsed_through in_children) start end_ in
    let rel := relative_adjustement style inline_size block_size in
    let block_size := auto_is block_size fc_size in
    let content_rect :=
      mkRect (mkVec (inline_start pb + v_inline rel + inline_start margin) (block_start pb + v_block rel))
             (mkVec inline_size block_size) in
    children <-
      (if relative
       then in_positioned_containing_block (fun cb a => abspos_layout a cb) collected (fc_fragments fc)
              (size content_rect) padding (cb_mode cb_children)
       else Some (fc_fragments fc)) ;;
    Some (FBox (mkBoxFragment style content_rect padding border margin collapsed) children,
          if relative then acc else collected)
  else None.

(** ** layout/flow/inline.rs *)
(** 38-43 [InlineNestingLevelState]; [remaining_boxes] is the recursion of [inline_boxes_layout] *)
Record nesting_level : Type := mkNL { nl_fragments : list fragment; nl_inline_start : Q; nl_max_block_size : Q }.
(** 45-53 *)
Record partial_inline_box : Type := mkPartial {
  pi_style : computed_values;
  pi_start_corner : vec2 Q;
  pi_padding : sides Q; pi_border : sides Q; pi_margin : sides Q;
  pi_last : bool;
  pi_parent : nesting_level }.
(** 63-66 *)
Record lines_boxes : Type := mkLB { lb_boxes : list fragment; lb_next_position : Q }.
(** 55-61; the top of the stack comes first *)
Record ifc_state : Type := mkIFC {
  ifc_lines : lines_boxes;
  ifc_position : Q;
  ifc_stack : list partial_inline_box;
  ifc_current : nesting_level }.

(** 149-173 *)
Definition finish_line (lb : lines_boxes) (top : nesting_level) (cb : containing_block) : lines_boxes * nesting_level :=
  let start_corner_ := mkVec 0 (lb_next_position lb) in
  let size_ := mkVec (cb_inline_size cb) (nl_max_block_size top) in
  (mkLB (lb_boxes lb ++ [FAnonymous (mkRect start_corner_ size_) (cb_mode cb) (nl_fragments top)])
        (lb_next_position lb + v_block size_),
   mkNL [] (nl_inline_start top) 0).

(** inline.rs:328-336: assignment to [inline_start] *)
Definition set_inline_start (s : sides Q) (l : Q) : sides Q := mkSides l (inline_end s) (block_start s) (block_end s).
(** inline.rs:252-254: assignment to [inline_end] *)
Definition set_inline_end (s : sides Q) (l : Q) : sides Q := mkSides (inline_start s) l (block_start s) (block_end s).

(** 175-222 *)
Definition start_layout (cb : containing_block) (style : computed_values) (first_fragment last_fragment : bool)
    (s : ifc_state) : partial_inline_box * ifc_state :=
  let cbis := cb_inline_size cb in
  let padding := lp_sides_relative_to (style_padding style) cbis in
  let border := lp_sides_relative_to (style_border_width style) cbis in
  let margin := sides_auto_is (lpa_sides_relative_to (style_margin style) cbis) 0 in
  let '(position, pad, bor, mar) :=
    if first_fragment
    then (ifc_position s + (inline_start padding + inline_start border + inline_start margin), padding, border, margin)
    else (ifc_position s, set_inline_start padding 0, set_inline_start border 0, set_inline_start margin 0) in
  let start_corner_ :=
    mkVec (position - nl_inline_start (ifc_current s)) (block_start pad + block_start bor + block_start mar) in
  let start_corner_ := vadd start_corner_ (relative_adjustement style (cb_inline_size cb) (cb_block_size cb)) in
  (mkPartial style start_corner_ pad bor mar last_fragment (ifc_current s),
   mkIFC (ifc_lines s) position (ifc_stack s) (mkNL [] position 0)).

(** 224-268: the partial box, the nesting level and the inline position afterwards *)
Definition finish_layout (p : partial_inline_box) (nl : nesting_level) (inline_position : Q) (at_line_break : bool) :
    partial_inline_box * nesting_level * Q :=
  let content_rect :=
    mkRect (pi_start_corner p) (mkVec (inline_position - v_inline (pi_start_corner p)) (nl_max_block_size nl)) in
  let last_fragment := pi_last p && negb at_line_break in
  let '(position, pad, bor, mar) :=
    if last_fragment
    then (inline_position + (inline_end (pi_padding p) + inline_end (pi_border p) + inline_end (pi_margin p)),
          pi_padding p, pi_border p, pi_margin p)
    else (inline_position, set_inline_end (pi_padding p) 0, set_inline_end (pi_border p) 0, set_inline_end (pi_margin p) 0) in
  let f := FBox (mkBoxFragment (pi_style p) content_rect pad bor mar cbm_zero) (nl_fragments nl) in
  let parent := pi_parent p in
  let parent := mkNL (nl_fragments parent ++ [f]) (nl_inline_start parent)
    (Qmax (nl_max_block_size parent)
       (v_block (size content_rect) + block_sum pad + block_sum bor + block_sum mar)) in
  (mkPartial (pi_style p) (pi_start_corner p) (pi_padding p) (pi_border p) (pi_margin p) (pi_last p) parent,
   mkNL [] (nl_inline_start nl) (nl_max_block_size nl), position).

(** 328-341: the new line, from the innermost level [nl] outwards *)
Definition after_break (p : partial_inline_box) : partial_inline_box :=
  mkPartial (pi_style p) (mkVec 0 (v_block (pi_start_corner p)))
    (set_inline_start (pi_padding p) 0) (set_inline_start (pi_border p) 0) (set_inline_start (pi_margin p) 0) (pi_last p)
    (mkNL (nl_fragments (pi_parent p)) 0 (nl_max_block_size (pi_parent p))).
(** inline.rs:328-341: the level above changed *)
Definition set_parent (p : partial_inline_box) (nl : nesting_level) : partial_inline_box :=
  mkPartial (pi_style p) (pi_start_corner p) (pi_padding p) (pi_border p) (pi_margin p) (pi_last p) nl.
(** inline.rs:328-341, the loop over the stack *)
Fixpoint break_levels (cb : containing_block) (stack : list partial_inline_box) (nl : nesting_level) (position : Q)
    (lb : lines_boxes) : nesting_level * list partial_inline_box * lines_boxes :=
  match stack with
  | [] => let (lb, nl) := finish_line lb nl cb in (nl, [], lb)
  | p :: rest =>
      let '(p, nl, position) := finish_layout p nl position true in
      let p := after_break p in
      let '(parent, rest, lb) := break_levels cb rest (pi_parent p) position lb in
      (nl, set_parent p parent :: rest, lb)
  end.
(** inline.rs:328-341 *)
Definition new_line (cb : containing_block) (s : ifc_state) : ifc_state :=
  let current := mkNL (nl_fragments (ifc_current s)) 0 (nl_max_block_size (ifc_current s)) in
  let '(current, stack, lb) := break_levels cb (ifc_stack s) current (ifc_position s) (ifc_lines s) in
  mkIFC lb 0 stack current.

Section Font.
(** [BITSTREAM_VERA_SANS] through the lookups made by shaping *)
Variable glyph_id : N -> res font_error N.
Variable glyph_width : N -> res font_error Q.

(** 274-298: the characters put on one line and the ones left; [None] is the panic of [unwrap] *)
Fixpoint fill_line (available font_size_ : Q) (chars : list N) (shaped_ : shaped)
    (last_break_opportunity : option (shaped_state * list N)) : option (shaped * list N) :=
  let too_wide := negb (Qle_bool (font_size_ * advance_width shaped_) available) in
  match chars with
  | [] =>
      if too_wide then
        match last_break_opportunity with
        | Some (state, iter) => Some (restore shaped_ state, iter)
        | None => Some (shaped_, [])
        end
      else Some (shaped_, [])
  | ch :: rest =>
      if (ch =? 32)%N && too_wide then
        match last_break_opportunity with
        | Some (state, iter) => Some (restore shaped_ state, iter)
        | None => Some (shaped_, rest)
        end
      else
        let last_break_opportunity := if (ch =? 32)%N then Some (save shaped_, rest) else last_break_opportunity in
        match append_char glyph_id glyph_width shaped_ ch with
        | Ok shaped_ => fill_line available font_size_ rest shaped_ last_break_opportunity
        | _ => None
        end
  end.
(** 299-324: the text fragment of one line *)
Definition push_text (style : computed_values) (shaped_ : shaped) (s : ifc_state) : ifc_state :=
  let inline_size := get style font_size * advance_width shaped_ in
  let line_height := get style font_size * (12 # 10) in
  let cur := ifc_current s in
  let content_rect := mkRect (mkVec (ifc_position s - nl_inline_start cur) 0) (mkVec inline_size line_height) in
  mkIFC (ifc_lines s) (ifc_position s + inline_size) (ifc_stack s)
    (mkNL (nl_fragments cur ++ [FText style content_rect shaped_]) (nl_inline_start cur)
          (Qmax (nl_max_block_size cur) line_height)).
(** 270-345; every turn of the loop consumes a character, so [fuel] bounds the number of turns
    (see [text_run_fuel]) *)
Fixpoint text_run_lines (fuel : nat) (cb : containing_block) (style : computed_values) (available : Q) (chars : list N)
    (s : ifc_state) : option ifc_state :=
  match fuel with
  | O => None
  | S fuel =>
      '(shaped_, chars) <- fill_line available (get style font_size) chars new_with_naive_shaping None ;;
      let s := push_text style shaped_ s in
      match chars with
      | [] => Some s
      | _ => text_run_lines fuel cb style available chars (new_line cb s)
      end
  end.
(** inline.rs:270-345 *)
Definition text_run_layout (cb : containing_block) (style : computed_values) (text : list N) (s : ifc_state) :
    option ifc_state :=
  text_run_lines (S (List.length text)) cb style (cb_inline_size cb - ifc_position s) text s.

(** 103-118: where an absolutely positioned box among inlines starts *)
Definition initial_corner (style : computed_values) (s : ifc_state) : option (vec2 Q) :=
  match specified_display style with
  | OutsideInside outside _ =>
      Some (mkVec (match outside with Inline => ifc_position s | Block => 0 end) (lb_next_position (ifc_lines s)))
  | Contents | DisplayNone => None
  end.

(** ** The layout of boxes *)
Section InlineBoxes.
Variable one : inline_level_box -> ifc_state -> list abspos_fragment -> option (ifc_state * list abspos_fragment).
(** inline.rs:90-134, for the boxes of one level *)
Fixpoint inline_boxes_layout (l : list inline_level_box) (s : ifc_state) (acc : list abspos_fragment) :
    option (ifc_state * list abspos_fragment) :=
  match l with
  | [] => Some (s, acc)
  | b :: r => '(s, acc) <- one b s acc ;; inline_boxes_layout r s acc
  end.
End InlineBoxes.

(** flow/mod.rs:81-104 [BlockContainer::layout], 239-290 [BlockLevelBox::layout], 51-79
    [BlockFormattingContext::layout] with layout/mod.rs:66-92, and inline.rs:68-147
    [InlineFormattingContext::layout].  The loop of the latter with its stack of iterators is the
    recursion on inline boxes: reaching the end of an iterator pops the last partial box. *)
Fixpoint block_container_layout (o : oracle) (c : block_container) (cb : containing_block) (tree_rank : nat)
    (acc : list abspos_fragment) (float_context collapsible_with_parent_start_margin : bool) {struct c} :
    option (flow_children * list abspos_fragment) :=
  match c with
  | BlockLevelBoxes l =>
      layout_block_level_children (fun i b acc => block_level_box_layout (sub_oracle o i) b cb i acc float_context)
        (o []) l tree_rank acc float_context collapsible_with_parent_start_margin
  | InlineFormattingContext l =>
      let s := mkIFC (mkLB [] 0) 0 [] (mkNL [] 0 0) in
      '(s, acc) <- inline_boxes_layout (fun b s acc => inline_level_box_layout o b cb tree_rank s acc) l s acc ;;
      let (lb, _) := finish_line (ifc_lines s) (ifc_current s) cb in
      Some (mkFC (lb_boxes lb) (lb_next_position lb) cbm_zero, acc)
  end
with block_level_box_layout (o : oracle) (b : block_level_box) (cb : containing_block) (tree_rank : nat)
    (acc : list abspos_fragment) (float_context : bool) {struct b} : option (fragment * list abspos_fragment) :=
  match b with
  | SameFormattingContextBlock style contents =>
      layout_in_flow_non_replaced_block_level cb acc style SameFormattingContext
        (fun cb acc collapsible => block_container_layout o contents cb tree_rank acc float_context collapsible)
  | Independent style contents =>
      layout_in_flow_non_replaced_block_level cb acc style EstablishesAnIndependentFormattingContext
        (fun cb acc _ => bfc_layout o contents cb tree_rank acc)
  | OutOfFlowAbsolutelyPositionedBox style contents =>
      Some (no_op (cb_mode cb),
            acc ++ [abspos_box_layout style (fun cb => bfc_layout o contents cb 0 []) vzero tree_rank])
  | OutOfFlowFloatBox _ _ => Some (no_op (cb_mode cb), acc)
  end
with bfc_layout (o : oracle) (b : block_formatting_context) (cb : containing_block) (tree_rank : nat)
    (acc : list abspos_fragment) {struct b} : option (flow_children * list abspos_fragment) :=
  match b with
  | BFC contents contains_floats =>
      '(fc, acc) <- block_container_layout o contents cb tree_rank acc contains_floats false ;;
      Some (mkFC (fc_fragments fc) (fc_block_size fc + solve (cm_end (fc_margins fc)))
              (mkCBM false (cm_start (fc_margins fc)) cm_zero), acc)
  end
with inline_level_box_layout (o : oracle) (b : inline_level_box) (cb : containing_block) (tree_rank : nat) (s : ifc_state)
    (acc : list abspos_fragment) {struct b} : option (ifc_state * list abspos_fragment) :=
  match b with
  | InlineBox style first_fragment last_fragment children =>
      let (p, s) := start_layout cb style first_fragment last_fragment s in
      let s := mkIFC (ifc_lines s) (ifc_position s) (p :: ifc_stack s) (ifc_current s) in
      '(s, acc) <- inline_boxes_layout (fun b s acc => inline_level_box_layout o b cb tree_rank s acc) children s acc ;;
      match ifc_stack s with
      | [] => None
      | p :: stack =>
          let '(p, _, position) := finish_layout p (ifc_current s) (ifc_position s) false in
          Some (mkIFC (ifc_lines s) position stack (pi_parent p), acc)
      end
  | TextRun style text => s <- text_run_layout cb style text s ;; Some (s, acc)
  | InlineAbsolutelyPositionedBox style contents =>
      corner <- initial_corner style s ;;
      Some (s, acc ++ [abspos_box_layout style (fun cb => bfc_layout (sub_oracle o (List.length acc)) contents cb 0 []) corner tree_rank])
  | InlineFloatBox _ _ => Some (s, acc)
  end.

(** flow/root.rs:87-121 [BoxTreeRoot::layout] *)
Definition box_tree_root_layout (o : oracle) (root : block_formatting_context) (viewport : vec2 Q) : option (list fragment) :=
  let mode := (HorizontalTb, Ltr) in
  '(fc, abspos) <- bfc_layout o root (mkCB (v_inline viewport) (Length (v_block viewport)) mode) 0 [] ;;
  more <- map_option (fun a => abspos_layout a (mkDCB viewport mode)) abspos ;;
  Some (fc_fragments fc ++ more).
End Font.
