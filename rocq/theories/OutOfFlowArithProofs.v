(** What is out of flow does not change what is in flow, in any arithmetic: OutOfFlowProofs.v with the functions of LayoutArith.v *)
From Coq Require Import QArith Lqa Lia.
From Verif Require Import Base Dom StyleValues StyleProperties PdfConvert Geom Text LayoutTree Layout LayoutSpec LayoutProofs Arith32 LayoutArith.
From Verif Require LayoutArithProofs.
From Verif Require Import WiderProofs OutOfFlowSpec.
Import LayoutArithProofs (bcl_blocks, bcl_inlines, bll_same, bll_independent, fcl_bfc, ill_inline).
Local Open Scope Q_scope.

Section Arith.
Variable ar : arith.

(** ** Placing *)
Lemma place_children : forall b c s g t, (place_block_level_fragment_in ar) (FBox b c) s = Some (g, t) ->
  exists b1, g = FBox b1 c /\ bf_style b1 = bf_style b /\ forall c', (place_block_level_fragment_in ar) (FBox b c') s = Some (FBox b1 c', t).
Proof.
  intros b c s g t H. cbn [place_block_level_fragment_in] in H.
  destruct (next_collapses_with_parent_start s) eqn:En.
  - destruct (a_eq ar ((solve_in ar) (current_margin s)) 0) eqn:Eq; [|discriminate H]. destruct (collapsed_through (bf_margins b)) eqn:Ec; injection H as <- <-;
      (eexists; split; [reflexivity|split; [reflexivity|intros c'; cbn [place_block_level_fragment_in]; rewrite En, Eq, Ec; reflexivity]]).
  - destruct (collapsed_through (bf_margins b)) eqn:Ec; injection H as <- <-;
      (eexists; split; [reflexivity|split; [reflexivity|intros c'; cbn [place_block_level_fragment_in]; rewrite En, Ec; reflexivity]]).
Qed.
Lemma place_flow : forall l l', same_flow l l' -> forall s g t, (place_all_in ar) l s = Some (g, t) ->
  exists g', same_flow g g' /\ (place_all_in ar) l' s = Some (g', t).
Proof.
  intros l l' F. induction F as [|r mode l l' Z1 Z2 F IH|b c c' extra l l' I P F IH]; intros s g t H; cbn [place_all_in] in H.
  - injection H as <- <-. exists []. split; [constructor|reflexivity].
  - cbn [place_block_level_fragment_in] in H. destruct (a_eq ar (v_block (size r)) 0); [|discriminate H].
    destruct ((place_all_in ar) l s) as [[g1 t1]|] eqn:E; [|discriminate H]. injection H as <- <-. destruct (IH _ _ _ E) as (g' & G1 & G2).
    exists g'. split; [|exact G2]. constructor; [exact Z1|exact Z2|exact G1].
  - destruct ((place_block_level_fragment_in ar) (FBox b (c ++ extra)) s) as [[f s1]|] eqn:E; [|discriminate H]. apply place_children in E as (b1 & -> & E2 & E3).
    destruct ((place_all_in ar) l s1) as [[g1 t1]|] eqn:E4; [|discriminate H]. injection H as <- <-. destruct (IH _ _ _ E4) as (g' & G1 & G2).
    exists (FBox b1 c' :: g'). split; [constructor; [exact I|rewrite E2; exact P|exact G1]|]. cbn [place_all_in]. rewrite E3, G2. reflexivity.
Qed.

(** ** Children that collect nothing *)
Section Quiet.
Variable B : Type.
Variable lay : nat -> B -> list abspos_fragment -> option (fragment * list abspos_fragment).
Definition quiet (b : B) (f : fragment) : Prop := forall i acc, lay i b acc = Some (f, acc).
Lemma run_quiet : forall l fs, Forall2 quiet l fs -> forall i acc, run_tasks i (map (fun b i acc => lay i b acc) l) acc = Some (fs, acc).
Proof. intros l fs F. induction F as [|b f l fs H F IH]; intros i acc; cbn [map run_tasks]; [reflexivity|]. rewrite H, IH. reflexivity. Qed.
Lemma firstn_quiet : forall n l fs, Forall2 quiet l fs -> Forall2 quiet (firstn n l) (firstn n fs).
Proof. induction n as [|n IH]; intros l fs F; [constructor|]. destruct F; cbn [firstn]; [constructor|constructor; [assumption|apply IH; assumption]]. Qed.
Lemma skipn_quiet : forall n l fs, Forall2 quiet l fs -> Forall2 quiet (skipn n l) (skipn n fs).
Proof. induction n as [|n IH]; intros l fs F; [exact F|]. destruct F; cbn [skipn]; [constructor|apply IH; assumption]. Qed.
Lemma mapfold_quiet : forall t l fs, Forall2 quiet l fs -> forall i acc, mapfold_reduce_into t i (map (fun b i acc => lay i b acc) l) acc = Some (fs, acc).
Proof.
  induction t as [|n t1 IH1 t2 IH2]; intros l fs F i acc; cbn [mapfold_reduce_into]; [apply run_quiet; exact F|].
  rewrite firstn_map, skipn_map, (IH1 _ _ (firstn_quiet n _ _ F)), (IH2 _ _ (skipn_quiet n _ _ F)), firstn_skipn, app_nil_r. reflexivity.
Qed.
Lemma layout_and_place_quiet : forall l fs, Forall2 quiet l fs -> forall i acc s g t, (place_all_in ar) fs s = Some (g, t) -> (layout_and_place_in ar) lay i l acc s = Some (g, acc, t).
Proof.
  intros l fs F. induction F as [|b f l fs H F IH]; intros i acc s g t P; cbn [layout_and_place_in place_all_in] in *; [injection P as <- <-; reflexivity|].
  rewrite H. destruct ((place_block_level_fragment_in ar) f s) as [[f1 s1]|]; [|discriminate P]. destruct ((place_all_in ar) fs s1) as [[g1 t1]|] eqn:E; [|discriminate P].
  injection P as <- <-. rewrite (IH _ _ _ _ _ E). reflexivity.
Qed.
Lemma children_quiet : forall t l fs, Forall2 quiet l fs -> forall rank acc fl coll g s, (place_all_in ar) fs (mkPS coll cm_zero cm_zero 0) = Some (g, s) ->
  (layout_block_level_children_in ar) lay t l rank acc fl coll =
    Some (mkFC g (current_position s) (mkCBM (next_collapses_with_parent_start s) (start_margin s) (current_margin s)), acc).
Proof.
  intros t l fs F rank acc fl coll g s P. unfold layout_block_level_children_in.
  replace (if fl then _ else _) with (Some (g, acc, s)).
  - rewrite skipn_all. cbn [adjust_static_positions_in map_option]. rewrite firstn_all, app_nil_r. reflexivity.
  - destruct fl; [rewrite (layout_and_place_quiet _ _ F _ _ _ _ _ P); reflexivity|]. rewrite (mapfold_quiet _ _ _ F), P. reflexivity.
Qed.
End Quiet.
Arguments quiet {B}.

(** ** Which fragments the children are *)
Lemma layout_and_place_made : forall B (lay : nat -> B -> list abspos_fragment -> option (fragment * list abspos_fragment)) l i acc s fs acc' s',
  (layout_and_place_in ar) lay i l acc s = Some (fs, acc', s') -> exists gs, Forall2 (made_by lay) l gs /\ (place_all_in ar) gs s = Some (fs, s').
Proof.
  intros B lay l. induction l as [|b l IH]; intros i acc s fs acc' s' H; cbn [layout_and_place_in] in H; [injection H as <- <- <-; exists []; split; [constructor|reflexivity]|].
  destruct (lay i b acc) as [[f acc1]|] eqn:E; [|discriminate H]. destruct ((place_block_level_fragment_in ar) f s) as [[f1 s1]|] eqn:E1; [|discriminate H].
  destruct ((layout_and_place_in ar) lay (S i) l acc1 s1) as [[[fs1 acc2] s2]|] eqn:E2; [|discriminate H]. injection H as <- <- <-. destruct (IH _ _ _ _ _ _ E2) as (gs & G1 & G2).
  exists (f :: gs). split; [constructor; [exists i, acc, acc1; exact E|exact G1]|]. cbn [place_all_in]. rewrite E1, G2. reflexivity.
Qed.
Lemma children_made : forall B (lay : nat -> B -> list abspos_fragment -> option (fragment * list abspos_fragment)) t l rank acc fl coll fc acc',
  (layout_block_level_children_in ar) lay t l rank acc fl coll = Some (fc, acc') ->
  exists gs s, Forall2 (made_by lay) l gs /\ (place_all_in ar) gs (mkPS coll cm_zero cm_zero 0) = Some (fc_fragments fc, s) /\
    fc_block_size fc = current_position s /\ fc_margins fc = mkCBM (next_collapses_with_parent_start s) (start_margin s) (current_margin s).
Proof.
  intros B lay t l rank acc fl coll fc acc' H. unfold layout_block_level_children_in in H. destruct fl.
  - destruct ((layout_and_place_in ar) _ _ _ _ _) as [[[fs acc1] s]|] eqn:E; [|discriminate H]. apply layout_and_place_made in E as (gs & G1 & G2).
    destruct ((adjust_static_positions_in ar) _ _ _) as [adj|]; [|discriminate H]. injection H as <- <-. exists gs, s. split; [exact G1|]. split; [exact G2|]. split; reflexivity.
  - destruct (mapfold_reduce_into _ _ _ _) as [[gs acc1]|] eqn:E; [|discriminate H]. apply mapfold_made in E. destruct ((place_all_in ar) gs _) as [[fs s]|] eqn:P; [|discriminate H].
    destruct ((adjust_static_positions_in ar) _ _ _) as [adj|]; [|discriminate H]. injection H as <- <-. exists gs, s. split; [exact E|]. split; [exact P|]. split; reflexivity.
Qed.

(** ** Blocks *)
Definition box_flow (f f' : fragment) : Prop :=
  exists b c c' extra, f = FBox b (c ++ extra) /\ f' = FBox b c' /\ same_inside c c' /\ positioned_in (bf_style b) extra.
Lemma in_flow_quiet : forall X cb acc style kind lc (lc' : X -> containing_block -> list abspos_fragment -> bool -> option (flow_children * list abspos_fragment)) f acc',
  (forall cb a coll fc a', lc cb a coll = Some (fc, a') ->
     exists fs', same_inside (fc_fragments fc) fs' /\ forall x acc0, lc' x cb acc0 coll = Some (mkFC fs' (fc_block_size fc) (fc_margins fc), acc0)) ->
  (layout_in_flow_non_replaced_block_level_in ar) cb acc style kind lc = Some (f, acc') ->
  exists f', box_flow f f' /\ forall x acc0, (layout_in_flow_non_replaced_block_level_in ar) cb acc0 style kind (lc' x) = Some (f', acc0).
Proof.
  intros X cb acc style kind lc lc' f acc' IH H. unfold layout_in_flow_non_replaced_block_level_in in H.
  unfold layout_in_flow_non_replaced_block_level_in. destruct (wmode_eqb _ _); [|discriminate H].
  destruct (lc _ _ _) as [[fc coll]|] eqn:E; [|discriminate H]. apply IH in E as (fs' & I & E).
  destruct (if is_same kind && a_eq ar _ 0 then _ else _) as [start ic] eqn:E1.
  destruct (if (is_same kind && a_eq ar _ 0 && _)%bool then _ else _) as [end_ sz] eqn:E2.
  eexists (FBox (mkBoxFragment style _ _ _ _ _) fs'). split.
  2:{ intros x acc0. rewrite E. cbn [fc_margins fc_block_size fc_fragments]. rewrite E1, E2.
      destruct (is_relatively_positioned (get style position_)); reflexivity. }
  destruct (is_relatively_positioned (get style position_)) eqn:R.
  - destruct coll as [|a coll]; cbn [in_positioned_containing_block_in] in H.
    + injection H as <- _. eexists _, (fc_fragments fc), _, []. rewrite app_nil_r. split; [reflexivity|]. split; [reflexivity|]. split; [exact I|]. left. reflexivity.
    + destruct (map_option _ (a :: coll)) as [boxes|]; [|discriminate H]. injection H as <- _.
      eexists _, _, _, _. split; [reflexivity|]. split; [reflexivity|]. split; [exact I|]. right. cbn [bf_style]. split; [destruct (get style position_); try discriminate R; reflexivity|].
      eexists _, _, _. reflexivity.
  - injection H as <- _. eexists _, (fc_fragments fc), _, []. rewrite app_nil_r. split; [reflexivity|]. split; [reflexivity|]. split; [exact I|]. left. reflexivity.
Qed.

Section Font.
Variable glyph_id : N -> res font_error N.
Variable glyph_width : N -> res font_error Q.
Notation bcl := ((block_container_layout_in ar) glyph_id glyph_width).
Notation bll := ((block_level_box_layout_in ar) glyph_id glyph_width).
Notation fcl := ((bfc_layout_in ar) glyph_id glyph_width).
Notation ill := ((inline_level_box_layout_in ar) glyph_id glyph_width).

Definition Oc (c : block_container) : Prop := forall o cb rank acc fl coll fc acc', bcl o c cb rank acc fl coll = Some (fc, acc') ->
  exists fs', same_inside (fc_fragments fc) fs' /\
    forall o' rank' acc0 fl', bcl o' (flow_container c) cb rank' acc0 fl' coll = Some (mkFC fs' (fc_block_size fc) (fc_margins fc), acc0).
Definition Ob (b : block_level_box) : Prop := forall o cb rank acc fl f acc', bll o b cb rank acc fl = Some (f, acc') ->
  (flow_block b = [] /\ f = no_op (cb_mode cb)) \/
  exists b' f', flow_block b = [b'] /\ box_flow f f' /\ forall o' rank' acc0 fl', bll o' b' cb rank' acc0 fl' = Some (f', acc0).
Definition Of (c : block_formatting_context) : Prop := forall o cb rank acc fc acc', fcl o c cb rank acc = Some (fc, acc') ->
  exists fs', same_inside (fc_fragments fc) fs' /\
    forall o' rank' acc0, fcl o' (flow_root c) cb rank' acc0 = Some (mkFC fs' (fc_block_size fc) (fc_margins fc), acc0).
Definition Oi (b : inline_level_box) : Prop := forall o cb rank s acc s' acc', ill o b cb rank s acc = Some (s', acc') ->
  forall o' rank' acc0, inline_boxes_layout (fun b s acc => ill o' b cb rank' s acc) (flow_inline b) s acc0 = Some (s', acc0).

Lemma inlines_app : forall (one : inline_level_box -> ifc_state -> list abspos_fragment -> option (ifc_state * list abspos_fragment)) l l' s acc,
  inline_boxes_layout one (l ++ l') s acc = match inline_boxes_layout one l s acc with Some (s, acc) => inline_boxes_layout one l' s acc | None => None end.
Proof. intros one l. induction l as [|b l IH]; intros l' s acc; cbn [app inline_boxes_layout]; [reflexivity|]. destruct (one b s acc) as [[s1 a1]|]; [apply IH|reflexivity]. Qed.
Lemma inlines_quiet : forall o cb rank l, (forall b, In b l -> Oi b) -> forall s acc s' acc',
  inline_boxes_layout (fun b s acc => ill o b cb rank s acc) l s acc = Some (s', acc') ->
  forall o' rank' acc0, inline_boxes_layout (fun b s acc => ill o' b cb rank' s acc) (flat_map flow_inline l) s acc0 = Some (s', acc0).
Proof.
  intros o cb rank l. induction l as [|b l IH]; intros HF s acc s' acc' H o' rank' acc0; cbn [inline_boxes_layout flat_map] in *; [injection H as <- <-; reflexivity|].
  destruct (ill o b cb rank s acc) as [[s1 a1]|] eqn:E; [|discriminate H]. rewrite inlines_app, (HF b (or_introl eq_refl) _ _ _ _ _ _ _ E).
  exact (IH (fun b Hb => HF b (or_intror Hb)) _ _ _ _ H _ _ _).
Qed.
Lemma blocks_quiet : forall o cb fl l gs, (forall b, In b l -> Ob b) ->
  Forall2 (made_by (fun i b acc => bll (sub_oracle o i) b cb i acc fl)) l gs ->
  exists gs', same_flow gs gs' /\ forall o' fl', Forall2 (quiet (fun i b acc => bll (sub_oracle o' i) b cb i acc fl')) (flat_map flow_block l) gs'.
Proof.
  intros o cb fl l gs HF M. induction M as [|b f l gs (i & a & a' & H) M IH]; [exists []; split; [constructor|intros; constructor]|].
  destruct (IH (fun b Hb => HF b (or_intror Hb))) as (gs' & G1 & G2). cbn [flat_map].
  destruct (HF b (or_introl eq_refl) _ _ _ _ _ _ _ H) as [[E ->]|(b' & f' & E & (b1 & c & c' & extra & -> & -> & I & P) & Q)]; rewrite E; cbn [app].
  - exists gs'. split; [|exact G2]. constructor; [reflexivity|reflexivity|exact G1].
  - exists (FBox b1 c' :: gs'). split; [constructor; assumption|]. intros o' fl'. constructor; [|apply G2]. intros j acc0. apply Q.
Qed.

Lemma flow_same : (forall c, Oc c) /\ (forall b, Ob b) /\ (forall c, Of c) /\ (forall b, Oi b).
Proof.
  apply boxes_ind.
  - intros l HF o cb rank acc fl coll fc acc' H. rewrite Forall_forall in HF. rewrite bcl_blocks in H.
    apply children_made in H as (gs & s & G1 & G2 & G3 & G4). destruct (blocks_quiet _ _ _ _ _ HF G1) as (gs' & F1 & F2).
    destruct (place_flow _ _ F1 _ _ _ G2) as (fs' & P1 & P2). exists fs'. split; [apply si_blocks; exact P1|].
    intros o' rank' acc0 fl'. cbn [flow_container]. rewrite bcl_blocks, G3, G4. exact (children_quiet _ _ _ _ _ (F2 o' fl') _ _ _ _ _ _ P2).
  - intros l HF o cb rank acc fl coll fc acc' H. rewrite Forall_forall in HF. rewrite bcl_inlines in H.
    destruct (inline_boxes_layout _ l _ acc) as [[s a]|] eqn:E; [|discriminate H]. pose proof (inlines_quiet _ _ _ _ HF _ _ _ _ E) as Q.
    exists (fc_fragments fc). split; [apply si_lines|]. intros o' rank' acc0 fl'. cbn [flow_container]. rewrite bcl_inlines, Q.
    destruct ((finish_line_in ar) _ _ cb) as [lb nl]. injection H as <- _. reflexivity.
  - intros style c IH o cb rank acc fl f acc' H. rewrite bll_same in H. right.
    apply (in_flow_quiet (oracle * nat * bool) _ _ _ _ _ (fun x cb acc coll => bcl (fst (fst x)) (flow_container c) cb (snd (fst x)) acc (snd x) coll)) in H as (f' & F & Q).
    + exists (SameFormattingContextBlock style (flow_container c)), f'. split; [reflexivity|]. split; [exact F|]. intros o' rank' acc0 fl'. rewrite bll_same. exact (Q (o', rank', fl') acc0).
    + intros cb1 a coll fc a' E. destruct (IH _ _ _ _ _ _ _ _ E) as (fs' & I & Q). exists fs'. split; [exact I|]. intros x acc0. apply Q.
  - intros style c _ o cb rank acc fl f acc' H. left. cbn [block_level_box_layout_in] in H. injection H as <- _. split; reflexivity.
  - intros style c _ o cb rank acc fl f acc' H. left. cbn [block_level_box_layout_in] in H. injection H as <- _. split; reflexivity.
  - intros style c IH o cb rank acc fl f acc' H. rewrite bll_independent in H. right.
    apply (in_flow_quiet (oracle * nat) _ _ _ _ _ (fun x cb acc _ => fcl (fst x) (flow_root c) cb (snd x) acc)) in H as (f' & F & Q).
    + exists (Independent style (flow_root c)), f'. split; [reflexivity|]. split; [exact F|]. intros o' rank' acc0 fl'. rewrite bll_independent. exact (Q (o', rank') acc0).
    + intros cb1 a coll fc a' E. destruct (IH _ _ _ _ _ _ E) as (fs' & I & Q). exists fs'. split; [exact I|]. intros x acc0. apply Q.
  - intros c fl IH o cb rank acc fc acc' H. rewrite fcl_bfc in H. destruct (bcl o c cb rank acc fl false) as [[fc1 a1]|] eqn:E; [|discriminate H]. injection H as <- _.
    destruct (IH _ _ _ _ _ _ _ _ E) as (fs' & I & Q). exists fs'. split; [exact I|]. intros o' rank' acc0. cbn [flow_root]. rewrite fcl_bfc, Q. reflexivity.
  - intros style first last l HF o cb rank s acc s' acc' H o' rank' acc0. rewrite Forall_forall in HF. cbn [flow_inline inline_boxes_layout]. rewrite ill_inline in H |- *.
    destruct ((start_layout_in ar) cb style first last s) as [p s1]. destruct (inline_boxes_layout _ l _ acc) as [[s2 a]|] eqn:E; [|discriminate H].
    rewrite (inlines_quiet _ _ _ _ HF _ _ _ _ E). destruct (ifc_stack s2) as [|p2 st]; [discriminate H|]. destruct ((finish_layout_in ar) _ _ _ _) as [[p3 nl] pos]. injection H as <- _. reflexivity.
  - intros style text o cb rank s acc s' acc' H o' rank' acc0. cbn [flow_inline inline_boxes_layout]. cbn [inline_level_box_layout_in] in H |- *.
    destruct ((text_run_layout_in ar) _ _ cb style text s); [|discriminate H]. injection H as <- _. reflexivity.
  - intros style c _ o cb rank s acc s' acc' H o' rank' acc0. cbn [flow_inline inline_boxes_layout]. cbn [inline_level_box_layout_in] in H.
    destruct (initial_corner style s); [|discriminate H]. assert (E : s' = s) by congruence. rewrite E. reflexivity.
  - intros style c _ o cb rank s acc s' acc' H o' rank' acc0. cbn [flow_inline inline_boxes_layout]. cbn [inline_level_box_layout_in] in H. injection H as <- _. reflexivity.
Qed.
End Font.
End Arith.
