(** Layout does not depend on how its parallel parts are scheduled. *)
From Coq Require Import QArith Qminmax Lqa FunctionalExtensionality.
From Verif Require Import Base Dom StyleValues StyleProperties PdfConvert Geom Text LayoutTree Layout LayoutSpec LayoutProofs LayoutBlockProofs.
Local Open Scope Q_scope.

(** What is added to the vector does not depend on what is in it. *)
Definition frame {A} (acc : list abspos_fragment) (r : option (A * list abspos_fragment)) : option (A * list abspos_fragment) :=
  match r with Some (x, new) => Some (x, acc ++ new) | None => None end.
Lemma frame_nil : forall A (r : option (A * list abspos_fragment)), frame [] r = r.
Proof. intros A [[x new]|]; reflexivity. Qed.
Lemma frame_app : forall A a b (r : option (A * list abspos_fragment)), frame a (frame b r) = frame (a ++ b) r.
Proof. intros A a b [[x new]|]; cbn [frame]; [rewrite app_assoc|]; reflexivity. Qed.

Section Children.
Variable B : Type.
Variables lay lay' : nat -> B -> list abspos_fragment -> option (fragment * list abspos_fragment).

Lemma each_ext : forall l i acc, (forall b, In b l -> forall i acc, lay i b acc = lay' i b acc) ->
  layout_each lay i l acc = layout_each lay' i l acc.
Proof.
  induction l as [|b l IH]; intros i acc H; cbn [layout_each]; [reflexivity|].
  rewrite (H b (or_introl eq_refl)). destruct (lay' i b acc) as [[f a]|]; [|reflexivity].
  rewrite IH; [reflexivity|]. intros b' Hb. apply H. right; exact Hb.
Qed.
Lemma each_frame : forall l i acc, (forall b, In b l -> forall i acc, lay i b acc = frame acc (lay i b [])) ->
  layout_each lay i l acc = frame acc (layout_each lay i l []).
Proof.
  induction l as [|b l IH]; intros i acc H; cbn [layout_each].
  - cbn [frame]. rewrite app_nil_r. reflexivity.
  - rewrite (H b (or_introl eq_refl)). destruct (lay i b []) as [[f n]|]; cbn [frame]; [|reflexivity].
    assert (H' : forall b, In b l -> forall i acc, lay i b acc = frame acc (lay i b [])) by (intros b' Hb; apply H; right; exact Hb).
    rewrite (IH (S i) (acc ++ n) H'), (IH (S i) n H').
    destruct (layout_each lay (S i) l []) as [[fs n']|]; cbn [frame]; [rewrite app_assoc|]; reflexivity.
Qed.
Lemma each_app : forall l1 l2 i acc,
  layout_each lay i (l1 ++ l2) acc =
  match layout_each lay i l1 acc with
  | Some (fs1, acc) => match layout_each lay (i + List.length l1) l2 acc with Some (fs2, acc) => Some (fs1 ++ fs2, acc) | None => None end
  | None => None
  end.
Proof.
  induction l1 as [|b l1 IH]; intros l2 i acc; cbn [app layout_each List.length].
  - rewrite Nat.add_0_r. destruct (layout_each lay i l2 acc) as [[fs a]|]; reflexivity.
  - destruct (lay i b acc) as [[f a]|]; [|reflexivity]. rewrite IH.
    replace (S i + List.length l1)%nat with (i + S (List.length l1))%nat by lia.
    destruct (layout_each lay (S i) l1 a) as [[fs1 a1]|]; [|reflexivity].
    destruct (layout_each lay (i + S (List.length l1)) l2 a1) as [[fs2 a2]|]; reflexivity.
Qed.
(** Any schedule gives what one child after the other gives. *)
Lemma mapfold_each : forall t l i acc, (forall b, In b l -> forall i acc, lay i b acc = frame acc (lay i b [])) ->
  mapfold_reduce_into t i (map (fun b i acc => lay i b acc) l) acc = layout_each lay i l acc.
Proof.
  induction t as [|n t1 IH1 t2 IH2]; intros l i acc H; cbn [mapfold_reduce_into].
  - apply run_tasks_each.
  - rewrite firstn_map, skipn_map.
    assert (H1 : forall b, In b (firstn n l) -> forall i acc, lay i b acc = frame acc (lay i b [])).
    { intros b Hb. apply H. rewrite <- (firstn_skipn n l). apply in_or_app. left; exact Hb. }
    assert (H2 : forall b, In b (skipn n l) -> forall i acc, lay i b acc = frame acc (lay i b [])).
    { intros b Hb. apply H. rewrite <- (firstn_skipn n l). apply in_or_app. right; exact Hb. }
    rewrite (IH1 _ i acc H1). replace (layout_each lay i l acc) with (layout_each lay i (firstn n l ++ skipn n l) acc) by (rewrite firstn_skipn; reflexivity). rewrite each_app, map_length.
    destruct (layout_each lay i (firstn n l) acc) as [[fs1 acc1]|]; [|reflexivity].
    rewrite (IH2 _ _ [] H2). rewrite (each_frame (skipn n l) (i + List.length (firstn n l)) acc1 H2).
    destruct (layout_each lay (i + List.length (firstn n l)) (skipn n l) []) as [[fs2 acc2]|]; reflexivity.
Qed.
End Children.

Lemma children_frame : forall B (lay lay' : nat -> B -> _ -> _) t t' l rank acc fl fl' coll,
  (forall b, In b l -> forall i acc, lay i b acc = frame acc (lay' i b [])) ->
  (forall b, In b l -> forall i acc, lay' i b acc = frame acc (lay' i b [])) ->
  layout_block_level_children lay t l rank acc fl coll =
  frame acc (layout_block_level_children lay' t' l rank [] fl' coll).
Proof.
  intros B lay lay' t t' l rank acc fl fl' coll H H'.
  assert (He : forall b, In b l -> forall i acc, lay i b acc = lay' i b acc).
  { intros b Hb i a. rewrite (H b Hb), <- (H' b Hb). reflexivity. }
  assert (Hl : forall b, In b l -> forall i acc, lay i b acc = frame acc (lay i b [])).
  { intros b Hb i a. rewrite (He b Hb i []). apply H. exact Hb. }
  unfold layout_block_level_children.
  set (s0 := mkPS coll cm_zero cm_zero 0).
  assert (E1 : (if fl then layout_and_place lay 0 l acc s0
                else match mapfold_reduce_into t 0 (map (fun b i acc => lay i b acc) l) acc with
                     | Some (fs, acc) => match place_all fs s0 with Some (fs, s) => Some (fs, acc, s) | None => None end
                     | None => None end) =
               match layout_each lay 0 l acc with
               | Some (fs, acc) => match place_all fs s0 with Some (fs, s) => Some (fs, acc, s) | None => None end
               | None => None end).
  { destruct fl; [apply layout_and_place_same|]. rewrite mapfold_each; [reflexivity|exact Hl]. }
  assert (E2 : (if fl' then layout_and_place lay' 0 l [] s0
                else match mapfold_reduce_into t' 0 (map (fun b i acc => lay' i b acc) l) [] with
                     | Some (fs, acc) => match place_all fs s0 with Some (fs, s) => Some (fs, acc, s) | None => None end
                     | None => None end) =
               match layout_each lay' 0 l [] with
               | Some (fs, acc) => match place_all fs s0 with Some (fs, s) => Some (fs, acc, s) | None => None end
               | None => None end).
  { destruct fl'; [apply layout_and_place_same|]. rewrite mapfold_each; [reflexivity|exact H']. }
  rewrite E1, E2, (each_ext B lay lay' l 0 acc He), (each_frame B lay' l 0 acc H').
  destruct (layout_each lay' 0 l []) as [[fs new]|]; cbn [frame]; [|reflexivity].
  destruct (place_all fs s0) as [[frs s]|]; [|reflexivity].
  rewrite skipn_app, skipn_all, Nat.sub_diag, firstn_app, firstn_all, Nat.sub_diag. cbn [app skipn firstn List.length]. rewrite app_nil_r.
  destruct (adjust_static_positions new frs rank); reflexivity.
Qed.

Lemma in_flow_frame : forall cb acc style kind lc lc',
  (forall cb acc coll, lc cb acc coll = frame acc (lc' cb [] coll)) ->
  layout_in_flow_non_replaced_block_level cb acc style kind lc =
  frame acc (layout_in_flow_non_replaced_block_level cb [] style kind lc').
Proof.
  intros cb acc style kind lc lc' H. unfold layout_in_flow_non_replaced_block_level.
  destruct (wmode_eqb _ _); [|reflexivity]. rewrite H.
  set (relative := is_relatively_positioned (get style position_)).
  replace (if relative then [] else []) with (@nil abspos_fragment) by (destruct relative; reflexivity).
  destruct (lc' _ [] _) as [[fc new]|]; cbn [frame]; [|reflexivity].
  destruct (if is_same kind && Qeq_bool _ 0 then _ else _) as [start ic].
  destruct (if (is_same kind && Qeq_bool _ 0 && _)%bool then _ else _) as [end_ sz].
  destruct relative; cbn [app].
  - destruct (in_positioned_containing_block _ _ _ _ _ _); cbn [frame]; [rewrite app_nil_r|]; reflexivity.
  - reflexivity.
Qed.

Section Font.
Variable glyph_id : N -> res font_error N.
Variable glyph_width : N -> res font_error Q.
Notation bcl := (block_container_layout glyph_id glyph_width).
Notation bll := (block_level_box_layout glyph_id glyph_width).
Notation fcl := (bfc_layout glyph_id glyph_width).
Notation ill := (inline_level_box_layout glyph_id glyph_width).

Definition Sc (c : block_container) : Prop := forall o o' cb rank acc fl fl' coll,
  bcl o c cb rank acc fl coll = frame acc (bcl o' c cb rank [] fl' coll).
Definition Sb (b : block_level_box) : Prop := forall o o' cb rank acc fl fl',
  bll o b cb rank acc fl = frame acc (bll o' b cb rank [] fl').
Definition Sf (c : block_formatting_context) : Prop := forall o o' cb rank acc,
  fcl o c cb rank acc = frame acc (fcl o' c cb rank []).
Definition Si (b : inline_level_box) : Prop := forall o o' cb rank s acc,
  ill o b cb rank s acc = frame acc (ill o' b cb rank s []).

Lemma inlines_frame : forall (one one' : inline_level_box -> _ -> _ -> _) l s acc,
  (forall b, In b l -> forall s acc, one b s acc = frame acc (one' b s [])) ->
  (forall b, In b l -> forall s acc, one' b s acc = frame acc (one' b s [])) ->
  inline_boxes_layout one l s acc = frame acc (inline_boxes_layout one' l s []).
Proof.
  intros one one'. induction l as [|b l IH]; intros s acc H H'; cbn [inline_boxes_layout].
  - cbn [frame]. rewrite app_nil_r. reflexivity.
  - rewrite (H b (or_introl eq_refl)). destruct (one' b s []) as [[s1 n]|]; cbn [frame]; [|reflexivity].
    assert (H1 : forall b, In b l -> forall s acc, one b s acc = frame acc (one' b s [])) by (intros b' Hb; apply H; right; exact Hb).
    assert (H2 : forall b, In b l -> forall s acc, one' b s acc = frame acc (one' b s [])) by (intros b' Hb; apply H'; right; exact Hb).
    rewrite (IH s1 (acc ++ n) H1 H2).
    assert (E : inline_boxes_layout one' l s1 n = frame n (inline_boxes_layout one' l s1 [])).
    { clear - H2. revert s1 n. induction l as [|b l IH]; intros s1 n; cbn [inline_boxes_layout].
      - cbn [frame]. rewrite app_nil_r. reflexivity.
      - rewrite (H2 b (or_introl eq_refl)). destruct (one' b s1 []) as [[s2 n2]|]; cbn [frame]; [|reflexivity].
        specialize (IH (fun b' Hb => H2 b' (or_intror Hb))). rewrite (IH s2 (n ++ n2)), (IH s2 n2), frame_app. reflexivity. }
    rewrite E, frame_app. reflexivity.
Qed.

Theorem schedules : (forall c, Sc c) /\ (forall b, Sb b) /\ (forall c, Sf c) /\ (forall b, Si b).
Proof.
  apply boxes_ind.
  - intros l HF o o' cb rank acc fl fl' coll. rewrite !bcl_blocks. rewrite Forall_forall in HF.
    apply children_frame.
    + intros b Hb i a. apply (HF b Hb).
    + intros b Hb i a. apply (HF b Hb).
  - intros l HF o o' cb rank acc fl fl' coll. rewrite !bcl_inlines. rewrite Forall_forall in HF.
    rewrite (inlines_frame _ (fun b s acc => ill o' b cb rank s acc) l _ acc).
    + destruct (inline_boxes_layout (fun b s acc => ill o' b cb rank s acc) l _ []) as [[s new]|]; cbn [frame]; [|reflexivity].
      destruct (finish_line (ifc_lines s) (ifc_current s) cb). reflexivity.
    + intros b Hb s a. apply (HF b Hb).
    + intros b Hb s a. apply (HF b Hb).
  - intros s c Hc o o' cb rank acc fl fl'. rewrite !bll_same. apply in_flow_frame. intros cb' a coll. apply Hc.
  - intros s c Hc o o' cb rank acc fl fl'.
    change (Some (no_op (cb_mode cb), acc ++ [abspos_box_layout s (fun cb => fcl o c cb 0%nat []) vzero rank]) =
            Some (no_op (cb_mode cb), acc ++ [abspos_box_layout s (fun cb => fcl o' c cb 0%nat []) vzero rank])).
    replace (fun cb => fcl o c cb 0%nat []) with (fun cb => fcl o' c cb 0%nat []); [reflexivity|].
    extensionality cb'. rewrite (Hc o o' cb' 0%nat []), frame_nil. reflexivity.
  - intros s c Hc o o' cb rank acc fl fl'. change (Some (no_op (cb_mode cb), acc) = Some (no_op (cb_mode cb), acc ++ [])).
    rewrite app_nil_r. reflexivity.
  - intros s c Hc o o' cb rank acc fl fl'. rewrite !bll_independent. apply in_flow_frame. intros cb' a coll. apply Hc.
  - intros c f Hc o o' cb rank acc. rewrite !fcl_bfc. rewrite (Hc o o' cb rank acc f f false).
    destruct (bcl o' c cb rank [] f false) as [[fc new]|]; reflexivity.
  - intros st fi la children HF o o' cb rank s acc. rewrite !ill_inline. rewrite Forall_forall in HF.
    destruct (start_layout cb st fi la s) as [p s1].
    rewrite (inlines_frame _ (fun b s acc => ill o' b cb rank s acc) children _ acc).
    + destruct (inline_boxes_layout (fun b s acc => ill o' b cb rank s acc) children _ []) as [[s2 new]|]; cbn [frame]; [|reflexivity].
      destruct (ifc_stack s2) as [|q stack]; [reflexivity|].
      destruct (finish_layout q (ifc_current s2) (ifc_position s2) false) as [[q' nl] pos]. reflexivity.
    + intros b Hb s2 a. apply (HF b Hb).
    + intros b Hb s2 a. apply (HF b Hb).
  - intros s t o o' cb rank st acc.
    change (match text_run_layout glyph_id glyph_width cb s t st with Some s => Some (s, acc) | None => None end =
      frame acc (match text_run_layout glyph_id glyph_width cb s t st with Some s => Some (s, []) | None => None end)).
    destruct (text_run_layout glyph_id glyph_width cb s t st); cbn [frame]; [rewrite app_nil_r|]; reflexivity.
  - intros s c Hc o o' cb rank st acc.
    change (match initial_corner s st with
            | Some corner => Some (st, acc ++ [abspos_box_layout s (fun cb => fcl (sub_oracle o (List.length acc)) c cb 0%nat []) corner rank])
            | None => None end =
       frame acc (match initial_corner s st with
            | Some corner => Some (st, [abspos_box_layout s (fun cb => fcl (sub_oracle o' 0) c cb 0%nat []) corner rank])
            | None => None end)).
    replace (fun cb => fcl (sub_oracle o (List.length acc)) c cb 0%nat []) with (fun cb => fcl (sub_oracle o' 0) c cb 0%nat []).
    + destruct (initial_corner s st); reflexivity.
    + extensionality cb'. rewrite (Hc (sub_oracle o (List.length acc)) (sub_oracle o' 0) cb' 0%nat []), frame_nil. reflexivity.
  - intros s c Hc o o' cb rank st acc. change (Some (st, acc) = Some (st, acc ++ [])). rewrite app_nil_r. reflexivity.
Qed.

Lemma root_schedule : forall o o' root viewport,
  box_tree_root_layout glyph_id glyph_width o root viewport = box_tree_root_layout glyph_id glyph_width o' root viewport.
Proof.
  intros o o' root viewport. unfold box_tree_root_layout. destruct schedules as (_ & _ & Hf & _).
  rewrite (Hf root o o' _ 0%nat []), frame_nil. reflexivity.
Qed.
End Font.
