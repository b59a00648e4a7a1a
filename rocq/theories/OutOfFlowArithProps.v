(** Property C92 in the arithmetic of the program: floats and positioned boxes do not change the normal flow *)
From Coq Require Import QArith.
From Verif Require Import Base Dom StyleValues StyleProperties PdfConvert Geom Text LayoutTree Layout LayoutSpec Arith32 LayoutArith LayoutProps.
From Verif Require Import OutOfFlowSpec OutOfFlowProps OutOfFlowArithProofs.
Local Open Scope Q_scope.

Lemma abspos_box_in : forall ar a cb f, abspos_layout_in ar a cb = Some f -> exists b c, f = FBox b c.
Proof.
  intros ar [style contents rank i1 i2 b1 b2] cb f H. cbn [abspos_layout_in] in H.
  repeat match type of H with
  | context [solve_axis_in ar ?a ?b ?c ?d ?e ?f ?g] => destruct (solve_axis_in ar a b c d e f g) as [[[? ?] ?] ?]
  | (let '(_, _) := ?x in _) = _ => destruct x
  | match ?x with _ => _ end = Some _ => destruct x; try discriminate H
  end; injection H as <-; eexists _, _; reflexivity.
Qed.

Section Arith.
(** Any arithmetic: exact, or with the rounding of [f32] *)
Variable ar : arith.
Variable glyph_id : N -> res font_error N.
Variable glyph_width : N -> res font_error Q.
Notation layout := (box_tree_root_layout_in ar glyph_id glyph_width).
Notation bcl := (block_container_layout_in ar glyph_id glyph_width).

Theorem C92_page_rounded : forall o o' root viewport frs, layout o root viewport = Some frs ->
  exists flow more flow', frs = flow ++ more /\ Forall (fun f => exists b c, f = FBox b c) more /\
    layout o' (flow_root root) viewport = Some flow' /\ same_inside flow flow'.
Proof.
  intros o o' root viewport frs H. unfold box_tree_root_layout_in in H. destruct (bfc_layout_in _ _ _ o root _ _ _) as [[fc abspos]|] eqn:E; [|discriminate H].
  apply (proj1 (proj2 (proj2 (flow_same ar glyph_id glyph_width)))) in E as (fs' & I & Q).
  destruct (map_option _ abspos) as [more|] eqn:M; [|discriminate H]. injection H as <-. exists (fc_fragments fc), more, fs'. split; [reflexivity|].
  split; [refine (all_boxes _ _ _ _ M); intros a f Ha; exact (abspos_box_in _ _ _ _ Ha)|]. split; [|exact I].
  unfold box_tree_root_layout_in. rewrite Q. cbn [map_option fc_fragments]. rewrite app_nil_r. reflexivity.
Qed.
Theorem C92_two_pages_rounded : forall o1 o2 root1 root2 viewport frs1 frs2, flow_root root1 = flow_root root2 ->
  layout o1 root1 viewport = Some frs1 -> layout o2 root2 viewport = Some frs2 ->
  exists flow1 more1 flow2 more2 flow, frs1 = flow1 ++ more1 /\ frs2 = flow2 ++ more2 /\ same_inside flow1 flow /\ same_inside flow2 flow /\
    layout o1 (flow_root root1) viewport = Some flow.
Proof.
  intros o1 o2 root1 root2 viewport frs1 frs2 E H1 H2. destruct (C92_page_rounded o1 o1 _ _ _ H1) as (f1 & m1 & g1 & -> & _ & L1 & S1). destruct (C92_page_rounded o2 o1 _ _ _ H2) as (f2 & m2 & g2 & -> & _ & L2 & S2).
  rewrite <- E, L1 in L2. injection L2 as <-. exists f1, m1, f2, m2, g1. repeat split; assumption.
Qed.
Theorem C92_container_rounded : forall o o' c cb rank rank' acc acc0 fl fl' coll fc acc', bcl o c cb rank acc fl coll = Some (fc, acc') ->
  exists fc', bcl o' (flow_container c) cb rank' acc0 fl' coll = Some (fc', acc0) /\
    fc_block_size fc' = fc_block_size fc /\ fc_margins fc' = fc_margins fc /\ same_inside (fc_fragments fc) (fc_fragments fc').
Proof.
  intros o o' c cb rank rank' acc acc0 fl fl' coll fc acc' H. apply (proj1 (flow_same ar glyph_id glyph_width)) in H as (fs' & I & Q).
  eexists. split; [apply Q|]. split; [reflexivity|]. split; [reflexivity|]. exact I.
Qed.
End Arith.

(** ** Example: the page of C92_example in [f32], where a line is not 19.2 high *)
Example C92_example_rounded :
  let lay32 := box_tree_root_layout_in f32 ex_glyph_id ex_glyph_width ex_oracle in
  all_places (lay32 (flow_root adverts) ex_viewport) =
    [[0; 30; 5033165 # 262144; 0; 0; 5033165 # 262144; 0; 0; 5033165 # 262144; 0; 0; 5033165 # 262144; 24; 0; 5033165 # 262144];
     [0; 12897485 # 262144; 5033165 # 262144; 0; 0; 5033165 # 262144; 0; 0; 5033165 # 262144]] /\
  exists frs, lay32 adverts ex_viewport = Some frs.
Proof.
  cbv zeta. split; [vm_compute; reflexivity|].
  assert (T : match box_tree_root_layout_in f32 ex_glyph_id ex_glyph_width ex_oracle adverts ex_viewport with Some _ => true | None => false end = true) by (vm_compute; reflexivity).
  destruct (box_tree_root_layout_in f32 ex_glyph_id ex_glyph_width ex_oracle adverts ex_viewport) as [frs|]; [exists frs; reflexivity|discriminate T].
Qed.

Print Assumptions C92_page_rounded.
Print Assumptions C92_two_pages_rounded.
Print Assumptions C92_container_rounded.
