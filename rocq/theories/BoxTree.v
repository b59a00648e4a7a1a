(** Model of the construction of the box tree: victor/src/layout/dom_traversal.rs, flow/construct.rs, the
    first half of flow/root.rs, and [IndependentFormattingContext::construct] of layout/mod.rs.
    [ReplacedContent] has no values (layout/replaced.rs:4-7, [for_element] gives [None]) and
    [pseudo_element_style] gives [None] (dom_traversal.rs:224-233), so the [Contents] of a box are always
    those of an element: a [node_id].  [Arc]s are their contents.
    Boxes are also stored in the elements ([LayoutDataForElement], element_data.rs), where nothing reads
    them.  What is done to that storage is recorded as a list of steps. *)
From Verif Require Import Base Dom StyleValues StyleProperties StyleCascade LayoutTree.
Local Open Scope res_scope.

(** ** What is done to the storage in the elements *)
(** dom_traversal.rs: line 111 stores [LayoutBox::DisplayContents]; [element_box_slot] (283-288) borrows
    the storage and clears it; [BoxSlot::set] (259-263) stores a box and ends the borrow;
    [unset_boxes_in_subtree] (312-343) *)
Inductive slot_event :=
| SlotContents (e : node_id)
| SlotAcquire (e : node_id)
| SlotSet (e : node_id)
| SlotUnset (e : node_id).
(** Events in order; [Par] is several lists of steps that rayon may run at the same time.  construct.rs:142-156 *)
Inductive step := Ev (e : slot_event) | Par (branches : list (list step)).

(** ** Text *)
(** [str::chars] of the standard library, on valid UTF-8 *)
Fixpoint chars (s : bytes) : list N :=
  match s with
  | [] => []
  | a :: r =>
      if (a <? 128)%N then a :: chars r else
      match r with
      | [] => []
      | b :: r =>
          if (a <? 224)%N then (64 * (a - 192) + (b - 128))%N :: chars r else
          match r with
          | [] => []
          | c :: r =>
              if (a <? 240)%N then (4096 * (a - 224) + 64 * (b - 128) + (c - 128))%N :: chars r else
              match r with
              | [] => []
              | e :: r => (262144 * (a - 240) + 4096 * (b - 128) + 64 * (c - 128) + (e - 128))%N :: chars r
              end
          end
      end
  end.
(** [char::is_ascii_whitespace].  construct.rs:233 and 237 test bytes; in UTF-8 a byte below 128 is a
    character of its own. *)
Definition is_ascii_whitespace (c : N) : bool :=
  ((c =? 32) || (c =? 9) || (c =? 10) || (c =? 12) || (c =? 13))%N.
(** [Iterator::position]: construct.rs:233 and 237 *)
Fixpoint position (f : N -> bool) (l : list N) : option nat :=
  match l with
  | [] => None
  | c :: r => if f c then Some 0 else match position f r with Some i => Some (S i) | None => None end
  end.
(** [str::trim_start_matches]: construct.rs:291 *)
Fixpoint trim_start (l : list N) : list N :=
  match l with
  | [] => []
  | c :: r => if is_ascii_whitespace c then trim_start r else l
  end.
(** The last element, for construct.rs:274 *)
Fixpoint last_opt {A} (l : list A) : option A :=
  match l with [] => None | [x] => Some x | _ :: r => last_opt r end.
(** [str::ends_with(' ')]: construct.rs:274 *)
Definition ends_with_space (l : list N) : bool := match last_opt l with Some c => (c =? 32)%N | None => false end.

(** construct.rs:232-246.  Each turn takes at least the character at [i], so the length of the input
    is enough fuel; without fuel nothing more is pushed. *)
Fixpoint push_collapsed (fuel : nat) (input : list N) : list N :=
  match fuel with
  | O => []
  | S fuel =>
      match position is_ascii_whitespace input with
      | Some i =>
          let rest := skipn i input in
          firstn i input ++ [32%N] ++
          match position (fun c => negb (is_ascii_whitespace c)) rest with
          | Some i => push_collapsed fuel (skipn i rest)
          | None => []
          end
      | None => input
      end
  end.

(** ** The builder: construct.rs *)
(** inline.rs:24-29 *)
Record inline_box : Type := mkInlineBox {
  ib_style : computed_values; ib_first : bool; ib_last : bool; ib_children : list inline_level_box }.
(** construct.rs:324: the box made of it *)
Definition to_box (i : inline_box) : inline_level_box := InlineBox (ib_style i) (ib_first i) (ib_last i) (ib_children i).
(** construct.rs:46-49 *)
Inductive intermediate_container :=
| IntermediateInlines (l : list inline_level_box)
| Deferred (contents : node_id).
(** 17-37, without [display_inside]: [IndependentFormattingContext::construct], where it ends up, does
    the same for each value. *)
Inductive intermediate_box :=
| IntermediateSame (style : computed_values) (contents : intermediate_container)
| IntermediateIndependent (style : computed_values) (contents : node_id)
| IntermediateAbsolute (style : computed_values) (contents : node_id)
| IntermediateFloat (style : computed_values) (contents : node_id).
(** A [BoxSlot]: that of an element, or [BoxSlot::dummy()]: dom_traversal.rs:245-247 *)
Definition slot : Type := option node_id.
(** 55-104; the top of the stack comes first.  [b_steps] is what was done to the storage. *)
Record builder : Type := mkBuilder {
  b_style : computed_values;
  b_blocks : list (intermediate_box * slot);
  b_inlines : list inline_level_box;
  b_stack : list inline_box;
  b_anonymous : option computed_values;
  b_floats : bool;
  b_steps : list step }.
(** Assignment to [block_level_boxes] (construct.rs:55-104) *)
Definition set_blocks v b := mkBuilder (b_style b) v (b_inlines b) (b_stack b) (b_anonymous b) (b_floats b) (b_steps b).
(** Assignment to [ongoing_inline_formatting_context] (55-104) *)
Definition set_inlines v b := mkBuilder (b_style b) (b_blocks b) v (b_stack b) (b_anonymous b) (b_floats b) (b_steps b).
(** Assignment to [ongoing_inline_boxes_stack] (55-104) *)
Definition set_stack v b := mkBuilder (b_style b) (b_blocks b) (b_inlines b) v (b_anonymous b) (b_floats b) (b_steps b).
(** Assignment to [anonymous_style] (55-104) *)
Definition set_anonymous v b := mkBuilder (b_style b) (b_blocks b) (b_inlines b) (b_stack b) v (b_floats b) (b_steps b).
(** Assignment to [contains_floats] (55-104) *)
Definition set_floats v b := mkBuilder (b_style b) (b_blocks b) (b_inlines b) (b_stack b) (b_anonymous b) v (b_steps b).
(** What is done to the storage, here kept in the builder (55-104) *)
Definition add_steps v b := mkBuilder (b_style b) (b_blocks b) (b_inlines b) (b_stack b) (b_anonymous b) (b_floats b) (b_steps b ++ v).
(** [self.block_level_boxes.push]: 407, 423, 456, 501 *)
Definition push_block (x : intermediate_box) (s : slot) b := set_blocks (b_blocks b ++ [(x, s)]) b.
(** One event: dom_traversal.rs:111 *)
Definition log (e : slot_event) b := add_steps [Ev e] b.
(** [BoxSlot::set]: dom_traversal.rs:259-263 *)
Definition set_slot (s : slot) : list step := match s with Some e => [Ev (SlotSet e)] | None => [] end.

(** 112-120 *)
Definition builder_new (style : computed_values) : builder := mkBuilder style [] [] [] None false [].

(** 504-509 *)
Definition current_inline_level_boxes (b : builder) : list inline_level_box :=
  match b_stack b with
  | last :: _ => ib_children last
  | [] => b_inlines b
  end.
(** Assignment through that reference: 504-509 *)
Definition set_current (l : list inline_level_box) (b : builder) : builder :=
  match b_stack b with
  | last :: r => set_stack (mkInlineBox (ib_style last) (ib_first last) (ib_last last) l :: r) b
  | [] => set_inlines l b
  end.
(** [self.current_inline_level_boxes().push]: 332, 436, 467 *)
Definition push_inline (x : inline_level_box) (b : builder) : builder :=
  set_current (current_inline_level_boxes b ++ [x]) b.
(** [Vec::is_empty]: 131 and 511-517 *)
Definition is_empty {A} (l : list A) : bool := match l with [] => true | _ => false end.
(** 511-517 *)
Definition has_ongoing_inline_formatting_context (b : builder) : bool :=
  negb (is_empty (b_inlines b)) || negb (is_empty (b_stack b)).

(** 270-290: from the last box back; the stack of iterators is recursion.  [None]: there was nothing to
    stop at. *)
Fixpoint look_back (x : inline_level_box) : option bool :=
  match x with
  | TextRun _ text => Some (negb (ends_with_space text))
  | InlineAbsolutelyPositionedBox _ _ | InlineFloatBox _ _ => None
  | InlineBox _ _ _ children =>
      (fix from_the_end (l : list inline_level_box) : option bool :=
         match l with
         | [] => None
         | x :: r => match from_the_end r with Some p => Some p | None => look_back x end
         end) children
  end.
(** 270-290 for the boxes of one level *)
Definition look_back_list : list inline_level_box -> option bool :=
  fix from_the_end (l : list inline_level_box) : option bool :=
    match l with
    | [] => None
    | x :: r => match from_the_end r with Some p => Some p | None => look_back x end
    end.
(** 264-293 *)
Definition handle_leading_whitespace (b : builder) (text : list N) : bool * list N :=
  match text with
  | c :: _ =>
      if is_ascii_whitespace c then
        (match look_back_list (current_inline_level_boxes b) with Some p => p | None => false end, trim_start text)
      else (false, text)
  | [] => (false, text)
  end.
(** 218-254: append to the text run at the end, or make one *)
Fixpoint append_text (l : list inline_level_box) (style : computed_values) (text : list N) : list inline_level_box :=
  match l with
  | [] => [TextRun style text]
  | [TextRun s t] => [TextRun s (t ++ text)]
  | x :: r => x :: append_text r style text
  end.
(** 194-256 *)
Definition handle_text (b : builder) (input : list N) (parent_style : computed_values) : builder :=
  let '(leading_whitespace, input) := handle_leading_whitespace b input in
  if leading_whitespace || negb (is_empty input) then
    let text := (if leading_whitespace then [32%N] else []) ++ push_collapsed (List.length input) input in
    set_current (append_text (current_inline_level_boxes b) parent_style text) b
  else b.

(** 472-502 *)
Definition end_ongoing_inline_formatting_context (b : builder) : result builder :=
  _ <- assert (is_empty (b_stack b)) ;;
  match b_inlines b with
  | [] => Ok b
  | l =>
      let anonymous := match b_anonymous b with
                       | Some s => s
                       | None => anonymous_inheriting_from (Some (b_style b))
                       end in
      Ok (push_block (IntermediateSame anonymous (IntermediateInlines l)) None
            (set_inlines [] (set_anonymous (Some anonymous) b)))
  end.

(** 370-375 *)
Fixpoint fragmented_inline (fragment : inline_level_box) (parents : list inline_box) : inline_level_box :=
  match parents with
  | [] => fragment
  | p :: r => fragmented_inline (InlineBox (ib_style p) (ib_first p) false (ib_children p ++ [fragment])) r
  end.
(** 348-380 *)
Definition split_ongoing (b : builder) : builder :=
  match b_stack b with
  | [] => b
  | last :: parents =>
      set_inlines (b_inlines b ++ [fragmented_inline (InlineBox (ib_style last) (ib_first last) false (ib_children last)) parents])
        (set_stack (map (fun i => mkInlineBox (ib_style i) false (ib_last i) []) (b_stack b)) b)
  end.
(** 336-408 *)
Definition handle_block_level_element (b : builder) (style : computed_values) (inside : display_inside)
    (contents : node_id) (s : slot) : result builder :=
  let b := split_ongoing b in
  b <- end_ongoing_inline_formatting_context b ;;
  let intermediate := match inside with
                      | Flow => IntermediateSame style (Deferred contents)
                      | FlowRoot => IntermediateIndependent style contents
                      end in
  Ok (push_block intermediate s b).

Section Recursion.
(** [NonReplacedContents::traverse] and [BlockContainer::construct], called on descendants *)
Variable traverse : builder -> node_id -> computed_values -> result builder.
Variable construct : computed_values -> node_id -> result (block_container * bool * list step).

(** construct.rs:4-14, layout/mod.rs:39-57 *)
Definition bfc_construct (style : computed_values) (contents : node_id) : result (block_formatting_context * list step) :=
  r <- construct style contents ;;
  let '(c, contains_floats, w) := r in Ok (BFC c contains_floats, w).

(** construct.rs:295-334 *)
Definition handle_inline_level_element (b : builder) (style : computed_values) (inside : display_inside)
    (contents : node_id) : result builder :=
  match inside with
  | Flow =>
      let b := set_stack (mkInlineBox style true false [] :: b_stack b) b in
      b <- traverse b contents style ;;
      match b_stack b with
      | [] => Panic
      | i :: r =>
          Ok (push_inline (InlineBox (ib_style i) (ib_first i) true (ib_children i)) (set_stack r b))
      end
  | FlowRoot => Panic
  end.
(** 410-439 *)
Definition handle_absolutely_positioned_element (b : builder) (style : computed_values) (contents : node_id) (s : slot) :
    result builder :=
  if has_ongoing_inline_formatting_context b then
    r <- bfc_construct style contents ;;
    let '(c, w) := r in
    Ok (add_steps (w ++ set_slot s) (push_inline (InlineAbsolutelyPositionedBox style c) b))
  else Ok (push_block (IntermediateAbsolute style contents) s b).
(** 441-470 *)
Definition handle_float_element (b : builder) (style : computed_values) (contents : node_id) (s : slot) :
    result builder :=
  let b := set_floats true b in
  if has_ongoing_inline_formatting_context b then
    r <- bfc_construct style contents ;;
    let '(c, w) := r in
    Ok (add_steps (w ++ set_slot s) (push_inline (InlineFloatBox style c) b))
  else Ok (push_block (IntermediateFloat style contents) s b).
(** 162-192 *)
Definition handle_element (b : builder) (style : computed_values) (outside : display_outside) (inside : display_inside)
    (contents : node_id) (s : slot) : result builder :=
  match outside with
  | Inline => b <- handle_inline_level_element b style inside contents ;; Ok (add_steps (set_slot s) b)
  | Block =>
      if is_absolutely_positioned (get style position_) then handle_absolutely_positioned_element b style contents s
      else if is_floating (get style float_) then handle_float_element b style contents s
      else handle_block_level_element b style inside contents s
  end.

(** 584-605 *)
Definition finish_container (c : intermediate_container) (style : computed_values) :
    result (block_container * bool * list step) :=
  match c with
  | Deferred contents => construct style contents
  | IntermediateInlines l => Ok (InlineFormattingContext l, false, [])
  end.
(** 520-582 *)
Definition finish_box (x : intermediate_box) : result (block_level_box * bool * list step) :=
  match x with
  | IntermediateSame style contents =>
      r <- finish_container contents style ;;
      let '(c, contains_floats, w) := r in Ok (SameFormattingContextBlock style c, contains_floats, w)
  | IntermediateIndependent style contents =>
      r <- bfc_construct style contents ;; let '(c, w) := r in Ok (Independent style c, false, w)
  | IntermediateAbsolute style contents =>
      r <- bfc_construct style contents ;; let '(c, w) := r in Ok (OutOfFlowAbsolutelyPositionedBox style c, false, w)
  | IntermediateFloat style contents =>
      r <- bfc_construct style contents ;; let '(c, w) := r in Ok (OutOfFlowFloatBox style c, true, w)
  end.
(** 142-156: the boxes in order, whether one of them contains floats, and what each branch does.
    [|=] on booleans may be grouped in any way. *)
Fixpoint finish_boxes (l : list (intermediate_box * slot)) : result (list block_level_box * bool * list (list step)) :=
  match l with
  | [] => Ok ([], false, [])
  | (x, s) :: r =>
      a <- finish_box x ;;
      let '(box, f, w) := a in
      rest <- finish_boxes r ;;
      let '(boxes, fs, ws) := rest in
      Ok (box :: boxes, f || fs, (w ++ set_slot s) :: ws)
  end.
(** 122-157, after the traversal *)
Definition build (b : builder) : result (block_container * bool * list step) :=
  _ <- assert (is_empty (b_stack b)) ;;
  if negb (is_empty (b_inlines b)) && is_empty (b_blocks b)
  then Ok (InlineFormattingContext (b_inlines b), b_floats b, b_steps b)
  else
    b <- (if is_empty (b_inlines b) then Ok b else end_ongoing_inline_formatting_context b) ;;
    r <- finish_boxes (b_blocks b) ;;
    let '(boxes, f, ws) := r in
    Ok (BlockLevelBoxes boxes, b_floats b || f, b_steps b ++ [Par ws]).
End Recursion.

Section Document.
Variable d : document.
(** [style_for_element] with the style sheets of the context *)
Variable style_of : node_id -> option computed_values -> result computed_values.

(** The loop of dom_traversal.rs:53-89, with [traverse_element] (91-125), and construct.rs:107-158.
    The fuel bounds the depth of calls and turns; running out is [Panic]. *)
Fixpoint children_loop (fuel : nat) (b : builder) (next : option node_id) (parent_style : computed_values) {struct fuel} :
    result builder :=
  match next with
  | None => Ok b
  | Some child =>
      match fuel with
      | O => Panic
      | S fuel =>
          nd <- index d child ;;
          b <- match data nd with
               | DDocument | DDoctype _ _ _ | DComment _ | DProcessingInstruction _ _ => Ok b
               | DText contents => Ok (handle_text b (chars contents) parent_style)
               | DElement _ =>
                   style <- style_of child (Some parent_style) ;;
                   match get style display_ with
                   | DisplayNone => Ok (log (SlotUnset child) b)
                   | Contents => children_loop fuel (log (SlotContents child) b) (first_child nd) style
                   | OutsideInside outside inside =>
                       handle_element
                         (fun b e style => nd <- index d e ;; children_loop fuel b (first_child nd) style)
                         (construct fuel)
                         (log (SlotAcquire child) b) style outside inside child (Some child)
                   end
               end ;;
          children_loop fuel b (next_sibling nd) parent_style
      end
  end
with construct (fuel : nat) (style : computed_values) (contents : node_id) {struct fuel} :
    result (block_container * bool * list step) :=
  match fuel with
  | O => Panic
  | S fuel =>
      nd <- index d contents ;;
      b <- children_loop fuel (builder_new style) (first_child nd) style ;;
      build (construct fuel) b
  end.
(** Enough: see [construct_ok] in BoxTreeProofs.v; dom_traversal.rs:53-89 *)
Definition enough_fuel : nat := 2 * List.length (nodes d) + 1.

(** root.rs:31-85 *)
Definition construct_for_root_element (root : node_id) (style : computed_values) :
    result (bool * list block_level_box * list step) :=
  match get style display_ with
  | DisplayNone => Ok (false, [], [])
  | _ =>
      r <- bfc_construct (construct enough_fuel) style root ;;
      let '(contents, w) := r in
      Ok (if is_absolutely_positioned (get style position_)
          then (false, [OutOfFlowAbsolutelyPositionedBox style contents], w)
          else if is_floating (get style float_)
          then (true, [OutOfFlowFloatBox style contents], w)
          else (false, [Independent style contents], w))
  end.
End Document.

Section Sheets.
(** As in StyleCascade.v; [rules_of] is cssparser's splitting of a style sheet into rules. *)
Variable parse_color : parser color.
Variable selector : Type.
Variable specificity : selector -> N.
Variable matches : selector -> document -> node_id -> bool.
Variable items_of : bytes -> list item.
Variable rules_of : bytes -> list (source_rule selector).
(** cascade.rs:16-22, the source of the user-agent style sheet *)
Variable user_agent : list (source_rule selector).

(** cascade.rs:16-22 and dom/mod.rs:47-60 *)
Definition user_agent_stylesheet : result (style_set selector) :=
  s <- add_stylesheet parse_color selector [] user_agent ;; Ok (finish selector specificity s).
(** dom/mod.rs:47-60 *)
Definition parse_stylesheets (d : document) : result (style_set selector) :=
  texts <- stylesheets d ;;
  s <- add_stylesheets parse_color selector [] (map rules_of texts) ;;
  Ok (finish selector specificity s).
(** root.rs:15-28 *)
Definition box_tree_root_construct (d : document) : result (block_formatting_context * list step) :=
  ua <- user_agent_stylesheet ;;
  author <- parse_stylesheets d ;;
  let style_of := style_for_element parse_color selector matches items_of ua author d in
  root <- root_element d ;;
  style <- style_of root None ;;
  r <- construct_for_root_element d style_of root style ;;
  let '(contains_floats, boxes, w) := r in
  Ok (BFC (BlockLevelBoxes boxes) contains_floats, w).
End Sheets.
