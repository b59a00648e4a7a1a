(** Model of the storage of boxes in the elements: victor/src/layout/element_data.rs, [BoxSlot] and
    [unset_boxes_in_subtree] of layout/dom_traversal.rs.  BoxTree.v gives the steps; here they run, those of
    different branches of a parallel iterator in any order.  There are no pseudo-elements, and which box
    is stored does not matter here. *)
From Verif Require Import Base Dom BoxTree.
Local Open Scope nat_scope.
Local Open Scope res_scope.

(** element_data.rs:4-7 and the [AtomicRefCell] around it (dom/mod.rs:243): whether someone holds a mutable
    borrow, and whether [self_box] is [Some]. *)
Record cell : Type := mkCell { borrowed : bool; has_box : bool }.
(** The [layout_data] of every element: dom/mod.rs:243 *)
Definition storage : Type := node_id -> cell.
(** Assignment to one of them: dom_traversal.rs:111 and 259-263 *)
Definition update (st : storage) (e : node_id) (c : cell) : storage := fun x => if x =? e then c else st x.
(** dom/html.rs:114, [Default] of element_data.rs:3-7: nothing is stored at first *)
Definition empty_storage : storage := fun _ => mkCell false false.

(** dom_traversal.rs: 111, [BoxSlot::new] (250-253) on [element_box_slot] (283-288), [set] (259-263) and
    the end of the borrow.  [None]: [borrow_mut] panics.  [SlotUnset] is below. *)
Definition do_event (st : storage) (ev : slot_event) : option storage :=
  match ev with
  | SlotContents e => if borrowed (st e) then None else Some (update st e (mkCell false true))
  | SlotAcquire e => if borrowed (st e) then None else Some (update st e (mkCell true false))
  | SlotSet e => Some (update st e (mkCell false true))
  | SlotUnset e => Some st
  end.

(** One turn of the outer loop of [unset_boxes_in_subtree] (dom_traversal.rs:314-342) *)
Inductive turn :=
| Return
| At (n : node_id)
| Spin.
Section Document.
Variable d : document.
(** 327-341.  [node] is not assigned in the inner loop, so its second turn and the later ones look at the
    same parent; if that has no next sibling they go on for ever. *)
Definition find_next (base n : node_id) (nd : node) : result turn :=
  match next_sibling nd with
  | Some s => Ok (if n =? base then Return else At s)
  | None =>
      match parent nd with
      | None => Panic
      | Some p =>
          pn <- index d p ;;
          match next_sibling pn with
          | Some s => Ok (if p =? base then Return else At s)
          | None => Ok Spin
          end
      end
  end.
(** 315-341 *)
Definition unset_turn (base n : node_id) (st : storage) : result (storage * turn) :=
  nd <- index d n ;;
  match data nd with
  | DElement _ =>
      if borrowed (st n) then Panic
      else
        let st' := update st n (mkCell false false) in
        match has_box (st n), first_child nd with
        | true, Some child => Ok (st', At child)
        | _, _ => t <- find_next base n nd ;; Ok (st', t)
        end
  | _ => t <- find_next base n nd ;; Ok (st, t)
  end.

(** Threads.  [Walk]: in the loop above, about to look at [node].  [Spinning]: in its inner loop for ever.
    [Join]: the branches of a parallel iterator, and what comes after it.  Parallel iterators: layout/flow/construct.rs:142-156 *)
Inductive process :=
| Steps (l : list step)
| Walk (base node : node_id) (l : list step)
| Spinning (base : node_id) (l : list step)
| Join (branches : list process) (l : list step).
(** One move of one thread.  [None]: it panics.  The loop is that of dom_traversal.rs:314-342 *)
Inductive move : storage -> process -> option (storage * process) -> Prop :=
| mv_event : forall st ev l, (forall e, ev <> SlotUnset e) ->
    move st (Steps (Ev ev :: l)) (match do_event st ev with Some st' => Some (st', Steps l) | None => None end)
| mv_unset : forall st e l, move st (Steps (Ev (SlotUnset e) :: l)) (Some (st, Walk e e l))
| mv_turn : forall st base n l,
    move st (Walk base n l)
      (match unset_turn base n st with
       | Ok (st', Return) => Some (st', Steps l)
       | Ok (st', At m) => Some (st', Walk base m l)
       | Ok (st', Spin) => Some (st', Spinning base l)
       | _ => None
       end)
| mv_spin : forall st base l, move st (Spinning base l) (Some (st, Spinning base l))
| mv_fork : forall st bs l, move st (Steps (Par bs :: l)) (Some (st, Join (map Steps bs) l))
| mv_branch : forall st a p b l o, move st p o ->
    move st (Join (a ++ p :: b) l) (match o with Some (st', p') => Some (st', Join (a ++ p' :: b) l) | None => None end)
| mv_join : forall st ps l, Forall (eq (Steps [])) ps -> move st (Join ps l) (Some (st, Steps l)).
(** Several moves  of the threads of layout/flow/construct.rs:142-156 *)
Inductive moves : nat -> storage -> process -> storage -> process -> Prop :=
| ms_none : forall st p, moves 0 st p st p
| ms_more : forall n st p st1 p1 st2 p2, moves n st p st1 p1 -> move st1 p1 (Some (st2, p2)) -> moves (S n) st p st2 p2.
End Document.
