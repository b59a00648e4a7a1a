(** Layout and painting in an arithmetic that is left open: geom.rs, style/values/length.rs, layout and
    paint.rs again, operation by operation in the order of the code.  Layout.v and Paint.v are the case of
    exact numbers (see LayoutArithProofs.v); here the operations of [f32] may round, overflow or give
    no number at all.  [None] is a panic.  What does not compute is that of the other files. *)
From Coq Require Import QArith.
From Verif Require Import Base Dom StyleValues StyleProperties StyleCascade BoxTree PdfObject PdfConvert Geom Text LayoutTree Layout Paint Arith32.
Local Open Scope Q_scope.
Local Open Scope opt_scope.

Section Arith.
Variable ar : arith.
Local Notation "a +. b" := (a_add ar a b) (at level 50, left associativity).
Local Notation "a -. b" := (a_sub ar a b) (at level 50, left associativity).
Local Notation "a *. b" := (a_mul ar a b) (at level 40, left associativity).
Local Notation "a /. b" := (a_div ar a b) (at level 40, left associativity).

(** ** geom.rs *)
(** geom.rs:51-63 *)
Definition padd_in (a b : pvec Q) : pvec Q := mkPvec (x_ a +. x_ b) (y_ a +. y_ b).
(** geom.rs:80-102: [Add] and [AddAssign] *)
Definition vadd_in (a b : vec2 Q) : vec2 Q := mkVec (v_inline a +. v_inline b) (v_block a +. v_block b).
(** geom.rs:207-219 *)
Definition inline_sum_in (s : sides Q) : Q := inline_start s +. inline_end s.
(** geom.rs:214-219 *)
Definition block_sum_in (s : sides Q) : Q := block_start s +. block_end s.
(** geom.rs:250-264 *)
Definition sadd_in (a b : sides Q) : sides Q :=
  mkSides (inline_start a +. inline_start b) (inline_end a +. inline_end b)
          (block_start a +. block_start b) (block_end a +. block_end b).

(** geom.rs:266-282 *)
Definition inflate_in (r : rect Q) (s : sides Q) : rect Q :=
  mkRect
    (mkVec (v_inline (start_corner r) -. inline_start s) (v_block (start_corner r) -. block_start s))
    (mkVec (v_inline (size r) +. inline_sum_in s) (v_block (size r) +. block_sum_in s)).
(** geom.rs:311-321 *)
Definition translate_in (r : prect Q) (by_ : pvec Q) : prect Q := mkPrect (padd_in (top_left r) by_) (psize r).

(** ** style/values/length.rs *)
(** 209-216 *)
Definition lp_relative_to_in (x : lp) (reference : Q) : Q :=
  match x with LpLength l => l | LpPercentage p => reference *. p end.
(** 236-242 *)
Definition lpa_relative_to_in (x : lpa) (reference : Q) : length_or_auto :=
  match x with LpaLength l => Length l | LpaPercentage p => Length (reference *. p) | LpaAuto => Auto end.
(** geom.rs:232-248 *)
Definition lp_sides_relative_to_in (s : sides lp) (basis : Q) : sides Q := smap (fun l => lp_relative_to_in l basis) s.
(** geom.rs:238-242 *)
Definition lpa_sides_relative_to_in (s : sides lpa) (basis : Q) : sides length_or_auto :=
  smap (fun l => lpa_relative_to_in l basis) s.

(** ** layout/fragments.rs *)
(** 95-100 *)
Definition cm_new_in (margin : Q) : collapsed_margin := mkCM (a_max ar margin 0) (a_min ar margin 0).
(** 102-111: [adjoin], [adjoin_assign] *)
Definition adjoin_in (a b : collapsed_margin) : collapsed_margin :=
  mkCM (a_max ar (max_positive a) (max_positive b)) (a_min ar (min_negative a) (min_negative b)).
(** 113-115 *)
Definition solve_in (m : collapsed_margin) : Q := max_positive m +. min_negative m.
(** 69-85 *)
Definition cbm_from_margin_in (margin : sides Q) : collapsed_block_margins :=
  mkCBM false (cm_new_in (block_start margin)) (cm_new_in (block_end margin)).
(** 61-67 *)
Definition border_rect_in (b : box_fragment) : rect Q :=
  inflate_in (inflate_in (bf_content_rect b) (bf_padding b)) (bf_border b).

(** ** layout/mod.rs *)
(** 114-120 *)
Definition adjust_in (start end_ : length_or_auto) : Q :=
  match start, end_ with
  | Auto, Auto => 0
  | Auto, Length e => a_neg ar e
  | Length s, _ => s
  end.
(** 105-130 *)
Definition relative_adjustement_in (style : computed_values) (inline_size : Q) (block_size : length_or_auto) : vec2 Q :=
  if is_relatively_positioned (get style position_) then
    let block_size := auto_is block_size 0 in
    let o := map_inline_and_block_axes (fun v => lpa_relative_to_in v inline_size) (fun v => lpa_relative_to_in v block_size)
               (box_offsets style) in
    mkVec (adjust_in (inline_start o) (inline_end o)) (adjust_in (block_start o) (block_end o))
  else vzero.

(** ** layout/positioned.rs *)
(** 130-199 *)
Definition solve_axis_in (containing_size padding_border_sum : Q) (cm_start cm_end : length_or_auto)
    (solve_margins : Q -> Q * Q) (offsets : abs_offsets) (size_ : lpa) : anchor * length_or_auto * Q * Q :=
  let size_ := lpa_relative_to_in size_ containing_size in
  match offsets with
  | StaticStart start => (AnchorStart start, size_, auto_is cm_start 0, auto_is cm_end 0)
  | OffStart start => (AnchorStart (lp_relative_to_in start containing_size), size_, auto_is cm_start 0, auto_is cm_end 0)
  | OffEnd e => (AnchorEnd (lp_relative_to_in e containing_size), size_, auto_is cm_start 0, auto_is cm_end 0)
  | OffBoth start e =>
      let start := lp_relative_to_in start containing_size in
      let e := lp_relative_to_in e containing_size in
      let margin_start := auto_is cm_start 0 in
      let margin_end := auto_is cm_end 0 in
      match size_ with
      | Length size_ =>
          let margins := containing_size -. start -. e -. padding_border_sum -. size_ in
          let '(margin_start, margin_end) :=
            match cm_start, cm_end with
            | Auto, Auto => solve_margins margins
            | Auto, Length e => (margins -. e, margin_end)
            | Length s, Auto => (margin_start, margins -. s)
            | Length _, Length _ => (margin_start, margin_end)
            end in
          (AnchorStart start, Length size_, margin_start, margin_end)
      | Auto =>
          (AnchorStart start, Length (containing_size -. start -. e -. padding_border_sum -. margin_start -. margin_end),
           margin_start, margin_end)
      end
  end.
(** 208-214 *)
Definition inline_solve_margins_in (margins : Q) : Q * Q :=
  if a_ge ar margins 0 then (margins /. 2, margins /. 2) else (0, margins).
(** 223 *)
Definition block_solve_margins_in (margins : Q) : Q * Q := (margins /. 2, margins /. 2).

(** 85-113; [lay] is [AbsolutelyPositionedFragment::layout] *)
Definition in_positioned_containing_block_in {A} (lay : definite_containing_block -> A -> option fragment)
    (absolute : list A) (fragments : list fragment) (content_rect_size : vec2 Q) (padding : sides Q) (mode : wmode) :
    option (list fragment) :=
  match absolute with
  | [] => Some fragments
  | _ =>
      let padding_rect := inflate_in (mkRect vzero content_rect_size) padding in
      children <- map_option (lay (mkDCB (size padding_rect) mode)) absolute ;;
      Some (fragments ++ [FAnonymous padding_rect mode children])
  end.
(** 115-303 [AbsolutelyPositionedFragment::layout] *)
Fixpoint abspos_layout_in (a : abspos_fragment) (cb : definite_containing_block) : option fragment :=
  match a with
  | mkAbspos style contents _ a_inline_start a_inline_size a_block_start a_block_size =>
      let cbis := v_inline (dcb_size cb) in
      let cbbs := v_block (dcb_size cb) in
      let padding := lp_sides_relative_to_in (style_padding style) cbis in
      let border := lp_sides_relative_to_in (style_border_width style) cbis in
      let computed_margin := lpa_sides_relative_to_in (style_margin style) cbis in
      let pb := sadd_in padding border in
      let '(inline_anchor, inline_size, margin_inline_start, margin_inline_end) :=
        solve_axis_in cbis (inline_sum_in pb) (inline_start computed_margin) (inline_end computed_margin)
          inline_solve_margins_in a_inline_start a_inline_size in
      let '(block_anchor, block_size, margin_block_start, margin_block_end) :=
        solve_axis_in cbis (block_sum_in pb) (block_start computed_margin) (block_end computed_margin)
          block_solve_margins_in a_block_start a_block_size in
      let margin := mkSides margin_inline_start margin_inline_end margin_block_start margin_block_end in
      let inline_size := auto_is inline_size
        (match inline_anchor with
         | AnchorStart start => cbis -. start -. inline_sum_in pb -. inline_sum_in margin
         | AnchorEnd e => cbis -. e -. inline_sum_in pb -. inline_sum_in margin
         end) in
      let cb_children := mkCB inline_size block_size (style_writing_mode style) in
      if wmode_eqb (dcb_mode cb) (cb_mode cb_children) then
        '(fc, abspos) <- contents cb_children ;;
        let inline_start_ := match inline_anchor with
          | AnchorStart start => start +. inline_start pb +. inline_start margin
          | AnchorEnd e => cbbs -. e -. inline_end pb -. inline_end margin -. inline_size
          end in
        let block_size := auto_is block_size (fc_block_size fc) in
        let block_start_ := match block_anchor with
          | AnchorStart start => start +. block_start pb +. block_start margin
          | AnchorEnd e => cbbs -. e -. block_end pb -. block_end margin -. block_size
          end in
        let content_rect := mkRect (mkVec inline_start_ block_start_) (mkVec inline_size block_size) in
        children <- in_positioned_containing_block_in (fun cb a => abspos_layout_in a cb) abspos (fc_fragments fc)
                      (size content_rect) padding (cb_mode cb_children) ;;
        Some (FBox (mkBoxFragment style content_rect padding border margin cbm_zero) children)
      else None
  end.

(** 306-328: the rank is looked up in [child_fragments], out of range panics, as does text *)
Definition add_static_in (o : abs_offsets) (l : Q) : abs_offsets :=
  match o with StaticStart start => StaticStart (start +. l) | o => o end.
(** positioned.rs:311-327, one fragment *)
Definition adjust_static_position_in (child_fragments : list fragment) (tree_rank_in_parent : nat) (a : abspos_fragment) :
    option abspos_fragment :=
  r <- match nth_error child_fragments (ap_tree_rank a) with
       | Some (FBox b _) => Some (bf_content_rect b)
       | Some (FAnonymous r _ _) => Some r
       | _ => None
       end ;;
  Some (mkAbspos (ap_style a) (ap_contents a) tree_rank_in_parent
          (add_static_in (ap_inline_start a) (v_inline (start_corner r))) (ap_inline_size a)
          (add_static_in (ap_block_start a) (v_block (start_corner r))) (ap_block_size a)).
(** positioned.rs:306-328 *)
Definition adjust_static_positions_in (l : list abspos_fragment) (child_fragments : list fragment)
    (tree_rank_in_parent : nat) : option (list abspos_fragment) :=
  map_option (adjust_static_position_in child_fragments tree_rank_in_parent) l.

(** ** layout/flow/mod.rs: block-level children  [start_corner.block +=]: 139 and 156 *)
Definition move_block_in (r : rect Q) (l : Q) : rect Q :=
  mkRect (mkVec (v_inline (start_corner r)) (v_block (start_corner r) +. l)) (size r).
(** 114-161 *)
Definition place_block_level_fragment_in (f : fragment) (s : placement_state) : option (fragment * placement_state) :=
  match f with
  | FBox b children =>
      let m := bf_margins b in
      let fragment_block_size := block_sum_in (bf_padding b) +. block_sum_in (bf_border b) +. v_block (size (bf_content_rect b)) in
      let rest (s : placement_state) :=
        let moved := FBox (with_content_rect b
                       (move_block_in (bf_content_rect b) (solve_in (current_margin s) +. current_position s))) children in
        if collapsed_through m then
          Some (moved, mkPS (next_collapses_with_parent_start s) (start_margin s)
                         (adjoin_in (current_margin s) (cm_end m)) (current_position s))
        else
          Some (moved, mkPS (next_collapses_with_parent_start s) (start_margin s) (cm_end m)
                         (current_position s +. (solve_in (current_margin s) +. fragment_block_size))) in
      if next_collapses_with_parent_start s then
        if a_eq ar (solve_in (current_margin s)) 0 then
          let start := adjoin_in (start_margin s) (cm_start m) in
          if collapsed_through m then
            Some (FBox b children, mkPS true (adjoin_in start (cm_end m)) (current_margin s) (current_position s))
          else rest (mkPS false start (current_margin s) (current_position s))
        else None
      else rest (mkPS false (start_margin s) (adjoin_in (current_margin s) (cm_start m)) (current_position s))
  | FAnonymous r mode children =>
      match children with
      | [] =>
          if a_eq ar (v_block (size r)) 0
          then Some (FAnonymous (move_block_in r (current_position s)) mode children, s)
          else None
      | _ => None
      end
  | FText _ _ _ => None
  end.
(** 216-218 *)
Fixpoint place_all_in (l : list fragment) (s : placement_state) : option (list fragment * placement_state) :=
  match l with
  | [] => Some ([], s)
  | f :: r =>
      '(f, s) <- place_block_level_fragment_in f s ;;
      '(r, s) <- place_all_in r s ;;
      Some (f :: r, s)
  end.

Section Children.
Variable B : Type.
(** [box_.layout(containing_block, tree_rank, absolutely_positioned_fragments, float_context)] *)
Variable lay : nat -> B -> list abspos_fragment -> option (fragment * list abspos_fragment).

(** 183-196: layout and placement of one child after the other *)
Fixpoint layout_and_place_in (i : nat) (l : list B) (acc : list abspos_fragment) (s : placement_state) :
    option (list fragment * list abspos_fragment * placement_state) :=
  match l with
  | [] => Some ([], acc, s)
  | b :: r =>
      '(f, acc) <- lay i b acc ;;
      '(f, s) <- place_block_level_fragment_in f s ;;
      '(fs, acc, s) <- layout_and_place_in (S i) r acc s ;;
      Some (f :: fs, acc, s)
  end.
(** 106-237; [t] is how the parallel iterator happens to run *)
Definition layout_block_level_children_in (t : schedule) (child_boxes : list B) (tree_rank : nat) (acc : list abspos_fragment)
    (float_context : bool) (collapsible_with_parent_start_margin : bool) :
    option (flow_children * list abspos_fragment) :=
  let abspos_so_far := List.length acc in
  let s := mkPS collapsible_with_parent_start_margin cm_zero cm_zero 0 in
  '(fragments, acc, s) <-
    (if float_context then layout_and_place_in 0 child_boxes acc s
     else
       '(fs, acc) <- mapfold_reduce_into t 0 (map (fun b i acc => lay i b acc) child_boxes) acc ;;
       '(fs, s) <- place_all_in fs s ;;
       Some (fs, acc, s)) ;;
  adjusted <- adjust_static_positions_in (skipn abspos_so_far acc) fragments tree_rank ;;
  Some (mkFC fragments (current_position s)
          (mkCBM (next_collapses_with_parent_start s) (start_margin s) (current_margin s)),
        firstn abspos_so_far acc ++ adjusted).
End Children.
Arguments layout_block_level_children_in {B}.
Arguments layout_and_place_in {B}.

(** 318-341: the margins of the inline axis when the inline size is not auto *)
Definition solve_inline_margins_in (inline_margins : Q) (m : sides length_or_auto) : sides length_or_auto :=
  match inline_start m, inline_end m with
  | Auto, Auto => mkSides (Length (inline_margins /. 2)) (Length (inline_margins /. 2)) (block_start m) (block_end m)
  | Auto, e => mkSides (Length inline_margins) e (block_start m) (block_end m)
  | s, Auto => mkSides s (Length inline_margins) (block_start m) (block_end m)
  | s, _ => mkSides s (Length inline_margins) (block_start m) (block_end m)
  end.
(** 298-439 *)
Definition layout_in_flow_non_replaced_block_level_in (cb : containing_block) (acc : list abspos_fragment)
    (style : computed_values) (kind : block_level_kind)
    (layout_contents : containing_block -> list abspos_fragment -> bool -> option (flow_children * list abspos_fragment)) :
    option (fragment * list abspos_fragment) :=
  let cbis := cb_inline_size cb in
  let padding := lp_sides_relative_to_in (style_padding style) cbis in
  let border := lp_sides_relative_to_in (style_border_width style) cbis in
  let computed_margin := lpa_sides_relative_to_in (style_margin style) cbis in
  let pb := sadd_in padding border in
  let box_size_ := box_size style in
  let inline_size := lpa_relative_to_in (v_inline box_size_) cbis in
  let computed_margin :=
    match inline_size with
    | Length is_ => solve_inline_margins_in (cbis -. is_ -. inline_sum_in pb) computed_margin
    | Auto => computed_margin
    end in
  let margin := sides_auto_is computed_margin 0 in
  let collapsed := cbm_from_margin_in margin in
  let inline_size := auto_is inline_size (cbis -. inline_sum_in pb -. inline_sum_in margin) in
  let block_size :=
    match v_block box_size_ with
    | LpaLength l => Length l
    | LpaPercentage p => loa_map (fun cbbs => cbbs *. p) (cb_block_size cb)
    | LpaAuto => Auto
    end in
  let cb_children := mkCB inline_size block_size (style_writing_mode style) in
  if wmode_eqb (cb_mode cb) (cb_mode cb_children) then
    let start_can_collapse := is_same kind && a_eq ar (block_start pb) 0 in
    let end_can_collapse :=
      is_same kind && a_eq ar (block_end pb) 0 && (match block_size with Auto => true | Length _ => false end) in
    let relative := is_relatively_positioned (get style position_) in
    '(fc, collected) <- layout_contents cb_children (if relative then [] else acc) start_can_collapse ;;
    let in_children := fc_margins fc in
    let '(start, in_children) :=
      if start_can_collapse then
        let start := adjoin_in (cm_start collapsed) (cm_start in_children) in
        if collapsed_through in_children
        then (adjoin_in start (cm_end in_children), mkCBM (collapsed_through in_children) (cm_start in_children) cm_zero)
        else (start, in_children)
      else (cm_start collapsed, in_children) in
    let '(end_, fc_size) :=
      if end_can_collapse then (adjoin_in (cm_end collapsed) (cm_end in_children), fc_block_size fc)
      else (cm_end collapsed, fc_block_size fc +. solve_in (cm_end in_children)) in
    let collapsed :=
      mkCBM (start_can_collapse && end_can_collapse && collapsed_through in_children) start end_ in
    let rel := relative_adjustement_in style inline_size block_size in
    let block_size := auto_is block_size fc_size in
    let content_rect :=
      mkRect (mkVec (inline_start pb +. v_inline rel +. inline_start margin) (block_start pb +. v_block rel))
             (mkVec inline_size block_size) in
    children <-
      (if relative
       then in_positioned_containing_block_in (fun cb a => abspos_layout_in a cb) collected (fc_fragments fc)
              (size content_rect) padding (cb_mode cb_children)
       else Some (fc_fragments fc)) ;;
    Some (FBox (mkBoxFragment style content_rect padding border margin collapsed) children,
          if relative then acc else collected)
  else None.

(** ** layout/flow/inline.rs *)
(** 149-173 *)
Definition finish_line_in (lb : lines_boxes) (top : nesting_level) (cb : containing_block) : lines_boxes * nesting_level :=
  let start_corner_ := mkVec 0 (lb_next_position lb) in
  let size_ := mkVec (cb_inline_size cb) (nl_max_block_size top) in
  (mkLB (lb_boxes lb ++ [FAnonymous (mkRect start_corner_ size_) (cb_mode cb) (nl_fragments top)])
        (lb_next_position lb +. v_block size_),
   mkNL [] (nl_inline_start top) 0).

(** 175-222 *)
Definition start_layout_in (cb : containing_block) (style : computed_values) (first_fragment last_fragment : bool)
    (s : ifc_state) : partial_inline_box * ifc_state :=
  let cbis := cb_inline_size cb in
  let padding := lp_sides_relative_to_in (style_padding style) cbis in
  let border := lp_sides_relative_to_in (style_border_width style) cbis in
  let margin := sides_auto_is (lpa_sides_relative_to_in (style_margin style) cbis) 0 in
  let '(position, pad, bor, mar) :=
    if first_fragment
    then (ifc_position s +. (inline_start padding +. inline_start border +. inline_start margin), padding, border, margin)
    else (ifc_position s, set_inline_start padding 0, set_inline_start border 0, set_inline_start margin 0) in
  let start_corner_ :=
    mkVec (position -. nl_inline_start (ifc_current s)) (block_start pad +. block_start bor +. block_start mar) in
  let start_corner_ := vadd_in start_corner_ (relative_adjustement_in style (cb_inline_size cb) (cb_block_size cb)) in
  (mkPartial style start_corner_ pad bor mar last_fragment (ifc_current s),
   mkIFC (ifc_lines s) position (ifc_stack s) (mkNL [] position 0)).

(** 224-268: the partial box, the nesting level and the inline position afterwards *)
Definition finish_layout_in (p : partial_inline_box) (nl : nesting_level) (inline_position : Q) (at_line_break : bool) :
    partial_inline_box * nesting_level * Q :=
  let content_rect :=
    mkRect (pi_start_corner p) (mkVec (inline_position -. v_inline (pi_start_corner p)) (nl_max_block_size nl)) in
  let last_fragment := pi_last p && negb at_line_break in
  let '(position, pad, bor, mar) :=
    if last_fragment
    then (inline_position +. (inline_end (pi_padding p) +. inline_end (pi_border p) +. inline_end (pi_margin p)),
          pi_padding p, pi_border p, pi_margin p)
    else (inline_position, set_inline_end (pi_padding p) 0, set_inline_end (pi_border p) 0, set_inline_end (pi_margin p) 0) in
  let f := FBox (mkBoxFragment (pi_style p) content_rect pad bor mar cbm_zero) (nl_fragments nl) in
  let parent := pi_parent p in
  let parent := mkNL (nl_fragments parent ++ [f]) (nl_inline_start parent)
    (a_max ar (nl_max_block_size parent)
       (v_block (size content_rect) +. block_sum_in pad +. block_sum_in bor +. block_sum_in mar)) in
  (mkPartial (pi_style p) (pi_start_corner p) (pi_padding p) (pi_border p) (pi_margin p) (pi_last p) parent,
   mkNL [] (nl_inline_start nl) (nl_max_block_size nl), position).

(** 328-341: the new line, from the innermost level [nl] outwards *)
Fixpoint break_levels_in (cb : containing_block) (stack : list partial_inline_box) (nl : nesting_level) (position : Q)
    (lb : lines_boxes) : nesting_level * list partial_inline_box * lines_boxes :=
  match stack with
  | [] => let (lb, nl) := finish_line_in lb nl cb in (nl, [], lb)
  | p :: rest =>
      let '(p, nl, position) := finish_layout_in p nl position true in
      let p := after_break p in
      let '(parent, rest, lb) := break_levels_in cb rest (pi_parent p) position lb in
      (nl, set_parent p parent :: rest, lb)
  end.
(** inline.rs:328-341 *)
Definition new_line_in (cb : containing_block) (s : ifc_state) : ifc_state :=
  let current := mkNL (nl_fragments (ifc_current s)) 0 (nl_max_block_size (ifc_current s)) in
  let '(current, stack, lb) := break_levels_in cb (ifc_stack s) current (ifc_position s) (ifc_lines s) in
  mkIFC lb 0 stack current.

Section Font.
(** [BITSTREAM_VERA_SANS] through the lookups made by shaping *)
Variable glyph_id : N -> res font_error N.
Variable glyph_width : N -> res font_error Q.

(** text.rs:48-53; on an error nothing has been changed *)
Definition append_char_in (s : shaped) (ch : N) : res font_error shaped :=
  bind (glyph_id ch) (fun id => bind (glyph_width id) (fun w => Ok (mkShaped (glyphs s ++ [id]) (advance_width s +. w)))).

(** layout/flow/inline.rs:274-298: the characters put on one line and the ones left; [None] is the panic of [unwrap] *)
Fixpoint fill_line_in (available font_size_ : Q) (chars : list N) (shaped_ : shaped)
    (last_break_opportunity : option (shaped_state * list N)) : option (shaped * list N) :=
  let too_wide := a_gt ar (font_size_ *. advance_width shaped_) available in
  match chars with
  | [] =>
      if too_wide then
        match last_break_opportunity with
        | Some (state, iter) => Some (restore shaped_ state, iter)
        | None => Some (shaped_, [])
        end
      else Some (shaped_, [])
  | ch :: rest =>
      if (ch =? 32)%N && too_wide then
        match last_break_opportunity with
        | Some (state, iter) => Some (restore shaped_ state, iter)
        | None => Some (shaped_, rest)
        end
      else
        let last_break_opportunity := if (ch =? 32)%N then Some (save shaped_, rest) else last_break_opportunity in
        match append_char_in shaped_ ch with
        | Ok shaped_ => fill_line_in available font_size_ rest shaped_ last_break_opportunity
        | _ => None
        end
  end.
(** 299-324: the text fragment of one line *)
Definition push_text_in (style : computed_values) (shaped_ : shaped) (s : ifc_state) : ifc_state :=
  let inline_size := get style font_size *. advance_width shaped_ in
  let line_height := get style font_size *. a_lit ar (12 # 10) in
  let cur := ifc_current s in
  let content_rect := mkRect (mkVec (ifc_position s -. nl_inline_start cur) 0) (mkVec inline_size line_height) in
  mkIFC (ifc_lines s) (ifc_position s +. inline_size) (ifc_stack s)
    (mkNL (nl_fragments cur ++ [FText style content_rect shaped_]) (nl_inline_start cur)
          (a_max ar (nl_max_block_size cur) line_height)).
(** 270-345; every turn of the loop consumes a character, so [fuel] bounds the number of turns
    (see [text_run_fuel]) *)
Fixpoint text_run_lines_in (fuel : nat) (cb : containing_block) (style : computed_values) (available : Q) (chars : list N)
    (s : ifc_state) : option ifc_state :=
  match fuel with
  | O => None
  | S fuel =>
      '(shaped_, chars) <- fill_line_in available (get style font_size) chars new_with_naive_shaping None ;;
      let s := push_text_in style shaped_ s in
      match chars with
      | [] => Some s
      | _ => text_run_lines_in fuel cb style available chars (new_line_in cb s)
      end
  end.
(** inline.rs:270-345 *)
Definition text_run_layout_in (cb : containing_block) (style : computed_values) (text : list N) (s : ifc_state) :
    option ifc_state :=
  text_run_lines_in (S (List.length text)) cb style (cb_inline_size cb -. ifc_position s) text s.

(** flow/mod.rs:81-104 [BlockContainer::layout], 239-290 [BlockLevelBox::layout], 51-79
    [BlockFormattingContext::layout] with layout/mod.rs:66-92, and inline.rs:68-147
    [InlineFormattingContext::layout].  The loop of the latter with its stack of iterators is the
    recursion on inline boxes: reaching the end of an iterator pops the last partial box. *)
Fixpoint block_container_layout_in (o : oracle) (c : block_container) (cb : containing_block) (tree_rank : nat)
    (acc : list abspos_fragment) (float_context collapsible_with_parent_start_margin : bool) {struct c} :
    option (flow_children * list abspos_fragment) :=
  match c with
  | BlockLevelBoxes l =>
      layout_block_level_children_in (fun i b acc => block_level_box_layout_in (sub_oracle o i) b cb i acc float_context)
        (o []) l tree_rank acc float_context collapsible_with_parent_start_margin
  | InlineFormattingContext l =>
      let s := mkIFC (mkLB [] 0) 0 [] (mkNL [] 0 0) in
      '(s, acc) <- inline_boxes_layout (fun b s acc => inline_level_box_layout_in o b cb tree_rank s acc) l s acc ;;
      let (lb, _) := finish_line_in (ifc_lines s) (ifc_current s) cb in
      Some (mkFC (lb_boxes lb) (lb_next_position lb) cbm_zero, acc)
  end
with block_level_box_layout_in (o : oracle) (b : block_level_box) (cb : containing_block) (tree_rank : nat)
    (acc : list abspos_fragment) (float_context : bool) {struct b} : option (fragment * list abspos_fragment) :=
  match b with
  | SameFormattingContextBlock style contents =>
      layout_in_flow_non_replaced_block_level_in cb acc style SameFormattingContext
        (fun cb acc collapsible => block_container_layout_in o contents cb tree_rank acc float_context collapsible)
  | Independent style contents =>
      layout_in_flow_non_replaced_block_level_in cb acc style EstablishesAnIndependentFormattingContext
        (fun cb acc _ => bfc_layout_in o contents cb tree_rank acc)
  | OutOfFlowAbsolutelyPositionedBox style contents =>
      Some (no_op (cb_mode cb),
            acc ++ [abspos_box_layout style (fun cb => bfc_layout_in o contents cb 0 []) vzero tree_rank])
  | OutOfFlowFloatBox _ _ => Some (no_op (cb_mode cb), acc)
  end
with bfc_layout_in (o : oracle) (b : block_formatting_context) (cb : containing_block) (tree_rank : nat)
    (acc : list abspos_fragment) {struct b} : option (flow_children * list abspos_fragment) :=
  match b with
  | BFC contents contains_floats =>
      '(fc, acc) <- block_container_layout_in o contents cb tree_rank acc contains_floats false ;;
      Some (mkFC (fc_fragments fc) (fc_block_size fc +. solve_in (cm_end (fc_margins fc)))
              (mkCBM false (cm_start (fc_margins fc)) cm_zero), acc)
  end
with inline_level_box_layout_in (o : oracle) (b : inline_level_box) (cb : containing_block) (tree_rank : nat) (s : ifc_state)
    (acc : list abspos_fragment) {struct b} : option (ifc_state * list abspos_fragment) :=
  match b with
  | InlineBox style first_fragment last_fragment children =>
      let (p, s) := start_layout_in cb style first_fragment last_fragment s in
      let s := mkIFC (ifc_lines s) (ifc_position s) (p :: ifc_stack s) (ifc_current s) in
      '(s, acc) <- inline_boxes_layout (fun b s acc => inline_level_box_layout_in o b cb tree_rank s acc) children s acc ;;
      match ifc_stack s with
      | [] => None
      | p :: stack =>
          let '(p, _, position) := finish_layout_in p (ifc_current s) (ifc_position s) false in
          Some (mkIFC (ifc_lines s) position stack (pi_parent p), acc)
      end
  | TextRun style text => s <- text_run_layout_in cb style text s ;; Some (s, acc)
  | InlineAbsolutelyPositionedBox style contents =>
      corner <- initial_corner style s ;;
      Some (s, acc ++ [abspos_box_layout style (fun cb => bfc_layout_in (sub_oracle o (List.length acc)) contents cb 0 []) corner tree_rank])
  | InlineFloatBox _ _ => Some (s, acc)
  end.

(** flow/root.rs:87-121 [BoxTreeRoot::layout] *)
Definition box_tree_root_layout_in (o : oracle) (root : block_formatting_context) (viewport : vec2 Q) : option (list fragment) :=
  let mode := (HorizontalTb, Ltr) in
  '(fc, abspos) <- bfc_layout_in o root (mkCB (v_inline viewport) (Length (v_block viewport)) mode) 0 [] ;;
  more <- map_option (fun a => abspos_layout_in a (mkDCB viewport mode)) abspos ;;
  Some (fc_fragments fc ++ more).
End Font.

(** ** paint.rs *)
Section Paint.
(** Conversion of [f32] to decimals, and the font: see Paint.v *)
Variable round : Q -> dec.
Variable vera : font.
(** paint.rs:36-68 [Fragment::paint_onto] and 70-90 [BoxFragment::paint_onto].  The page with the
    document it borrows is passed in and returned; [None] is a panic of [to_physical] or [unwrap]. *)
Fixpoint paint_onto_in (f : fragment) (st : doc * page) (containing_block : prect Q) : option (doc * page) :=
  let paint_children :=
    fix go (l : list fragment) (st : doc * page) (cb : prect Q) : option (doc * page) :=
      match l with
      | [] => Some st
      | child :: r => st <- paint_onto_in child st cb ;; go r st cb
      end in
  match f with
  | FBox b children =>
      let background_color := to_rgba (bf_style b) (get (bf_style b) background_color) in
      st <- (if (0 <? alpha background_color)%N then
               r <- to_physical (border_rect_in b) (style_writing_mode (bf_style b)) ;;
               let (d, p) := set_color (fst st) (snd st) (rgba_into round background_color) in
               let rect := translate_in r (top_left containing_block) in
               Some (d, paint_rectangle p (round (x_ (top_left rect))) (round (y_ (top_left rect)))
                          (round (x_ (psize rect))) (round (y_ (psize rect))))
             else Some st) ;;
      r <- to_physical (bf_content_rect b) (style_writing_mode (bf_style b)) ;;
      paint_children children st (translate_in r (top_left containing_block))
  | FAnonymous rect mode children =>
      r <- to_physical rect mode ;;
      paint_children children st (translate_in r (top_left containing_block))
  | FText parent_style content_rect text =>
      r <- to_physical content_rect (style_writing_mode parent_style) ;;
      let origin := top_left (translate_in r (top_left containing_block)) in
      let ascender := get parent_style font_size *. f_ascender vera in
      let origin := mkPvec (x_ origin) (y_ origin +. ascender) in
      let (d, p) := set_color (fst st) (snd st) (rgba_into round (get parent_style color_)) in
      match show_text d p vera (glyphs text) (round (get parent_style font_size)) (round (x_ origin)) (round (y_ origin)) with
      | (d, p, Ok _) => Some (d, p)
      | _ => None
      end
  end.
(** paint.rs:28-30 *)
Fixpoint paint_fragments_in (l : list fragment) (st : doc * page) (containing_block : prect Q) : option (doc * page) :=
  match l with
  | [] => Some st
  | f :: r => st <- paint_onto_in f st containing_block ;; paint_fragments_in r st containing_block
  end.
(** paint.rs:11-32, from the fragments on *)
Definition fragments_to_pdf_bytes_in (fragments : list fragment) : option bytes :=
  let containing_block := mkPrect (mkPvec 0 0) (mkPvec PAGE_WIDTH PAGE_HEIGHT) in
  '(d, p) <- paint_fragments_in fragments (doc_new, page_new (round PAGE_WIDTH) (round PAGE_HEIGHT)) containing_block ;;
  Some (doc_write (page_drop d p)).
(** *** The whole *)
(** The parts of other libraries: see StyleCascade.v and BoxTree.v *)
Variable parse_color : parser color.
Variable selector : Type.
Variable specificity : selector -> N.
Variable matches : selector -> document -> nat -> bool.
Variable items_of : bytes -> list item.
Variable rules_of : bytes -> list (source_rule selector).
Variable user_agent : list (source_rule selector).
(** fonts/mod.rs:170-195: [glyph_id] and [glyph_width] of the font *)
Variable glyph_id : N -> res font_error N.
(** How the parallel iterators of layout happen to run *)
Variable o : oracle.
(** layout/flow/root.rs:3-10 [Document::layout] and paint.rs:8-34 [Document::to_pdf_bytes] *)
Definition to_pdf_bytes_in (d : document) : option bytes :=
  match box_tree_root_construct parse_color selector specificity matches items_of rules_of user_agent d with
  | Ok (boxes, _) =>
      fragments <- box_tree_root_layout_in glyph_id (f_glyph_width vera) o boxes (mkVec PAGE_WIDTH PAGE_HEIGHT) ;;
      fragments_to_pdf_bytes_in fragments
  | _ => None
  end.
End Paint.
End Arith.
Arguments layout_block_level_children_in _ {B}.
Arguments layout_and_place_in _ {B}.
