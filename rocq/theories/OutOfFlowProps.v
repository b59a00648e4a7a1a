(** Property C92: floats and positioned boxes do not change the normal flow *)
From Coq Require Import QArith Lqa Lia.
From Verif Require Import Base Dom StyleValues StyleProperties PdfConvert Geom Text LayoutTree Layout LayoutSpec LayoutProofs LayoutBlockProofs LayoutProps.
From Verif Require Import InlineProps OutOfFlowSpec OutOfFlowProofs.
Local Open Scope Q_scope.

Lemma abspos_box : forall a cb f, abspos_layout a cb = Some f -> exists b c, f = FBox b c.
Proof.
  intros [style contents rank i1 i2 b1 b2] cb f H. cbn [abspos_layout] in H.
  repeat match type of H with
  | context [solve_axis ?a ?b ?c ?d ?e ?f ?g] => destruct (solve_axis a b c d e f g) as [[[? ?] ?] ?]
  | (let '(_, _) := ?x in _) = _ => destruct x
  | match ?x with _ => _ end = Some _ => destruct x; try discriminate H
  end; injection H as <-; eexists _, _; reflexivity.
Qed.
Lemma all_boxes : forall (lay : abspos_fragment -> option fragment) l more, (forall a f, lay a = Some f -> exists b c, f = FBox b c) -> map_option lay l = Some more -> Forall (fun f => exists b c, f = FBox b c) more.
Proof.
  intros lay l. induction l as [|a l IH]; intros more HL H; cbn [map_option] in H; [injection H as <-; constructor|].
  destruct (lay a) as [f|] eqn:E; [|discriminate H]. destruct (map_option lay l) as [m|]; [|discriminate H]. injection H as <-. constructor; [exact (HL _ _ E)|exact (IH _ HL eq_refl)].
Qed.

Section Font.
Variable glyph_id : N -> res font_error N.
Variable glyph_width : N -> res font_error Q.
Notation layout := (box_tree_root_layout glyph_id glyph_width).
Notation bcl := (block_container_layout glyph_id glyph_width).

(** A page is its normal flow, then boxes.  The flow is that of the page with no float and no absolutely positioned box in it, at any depth:
    all blocks, lines and letters have the same places, sizes, margins and styles.  Without those boxes nothing comes after it. *)
Theorem C92_page : forall o o' root viewport frs, layout o root viewport = Some frs ->
  exists flow more flow', frs = flow ++ more /\ Forall (fun f => exists b c, f = FBox b c) more /\
    layout o' (flow_root root) viewport = Some flow' /\ same_inside flow flow'.
Proof.
  intros o o' root viewport frs H. unfold box_tree_root_layout in H. destruct (bfc_layout _ _ o root _ _ _) as [[fc abspos]|] eqn:E; [|discriminate H].
  apply (proj1 (proj2 (proj2 (flow_same glyph_id glyph_width)))) in E as (fs' & I & Q).
  destruct (map_option _ abspos) as [more|] eqn:M; [|discriminate H]. injection H as <-. exists (fc_fragments fc), more, fs'. split; [reflexivity|].
  split; [refine (all_boxes _ _ _ _ M); intros a f Ha; exact (abspos_box _ _ _ Ha)|]. split; [|exact I].
  unfold box_tree_root_layout. rewrite Q. cbn [map_option fc_fragments]. rewrite app_nil_r. reflexivity.
Qed.
(** So two pages that differ in those boxes only have the same flow. *)
Theorem C92_two_pages : forall o1 o2 root1 root2 viewport frs1 frs2, flow_root root1 = flow_root root2 ->
  layout o1 root1 viewport = Some frs1 -> layout o2 root2 viewport = Some frs2 ->
  exists flow1 more1 flow2 more2 flow, frs1 = flow1 ++ more1 /\ frs2 = flow2 ++ more2 /\ same_inside flow1 flow /\ same_inside flow2 flow /\
    layout o1 (flow_root root1) viewport = Some flow.
Proof.
  intros o1 o2 root1 root2 viewport frs1 frs2 E H1 H2. destruct (C92_page o1 o1 _ _ _ H1) as (f1 & m1 & g1 & -> & _ & L1 & S1). destruct (C92_page o2 o1 _ _ _ H2) as (f2 & m2 & g2 & -> & _ & L2 & S2).
  rewrite <- E, L1 in L2. injection L2 as <-. exists f1, m1, f2, m2, g1. repeat split; assumption.
Qed.
(** In every container: it is as high, and its margins collapse in the same way. *)
Theorem C92_container : forall o o' c cb rank rank' acc acc0 fl fl' coll fc acc', bcl o c cb rank acc fl coll = Some (fc, acc') ->
  exists fc', bcl o' (flow_container c) cb rank' acc0 fl' coll = Some (fc', acc0) /\
    fc_block_size fc' = fc_block_size fc /\ fc_margins fc' = fc_margins fc /\ same_inside (fc_fragments fc) (fc_fragments fc').
Proof.
  intros o o' c cb rank rank' acc acc0 fl fl' coll fc acc' H. apply (proj1 (flow_same glyph_id glyph_width)) in H as (fs' & I & Q).
  eexists. split; [apply Q|]. split; [reflexivity|]. split; [reflexivity|]. exact I.
Qed.
End Font.

(** ** Example *)
Definition float_block (style : computed_values) (l : list block_level_box) : block_level_box := OutOfFlowFloatBox style (BFC (BlockLevelBoxes l) false).
Definition adverts : block_formatting_context :=
  BFC (BlockLevelBoxes [
    absolute (set top_ (LpaLength 3) plain) [block plain []];
    block (set position_ Relative (set margin_top (LpaLength 20) plain))
      [float_block plain [block (set height (LpaLength 90) plain) []];
       SameFormattingContextBlock (set margin_top (LpaLength 30) plain)
         (InlineFormattingContext [TextRun plain (t "aa "); InlineAbsolutelyPositionedBox plain (page [block (set width (LpaLength 70) plain) []]); TextRun plain (t "bbb c"); InlineFloatBox plain (page [])]);
       absolute (set left_ (LpaPercentage (1 # 2)) plain) []];
    SameFormattingContextBlock plain (InlineFormattingContext [TextRun plain (t "d")])]) true.
(** Places and heights of all fragments *)
Fixpoint places (f : fragment) : list Q :=
  match f with
  | FBox b l => Qred (content_left b) :: Qred (content_top b) :: Qred (content_height b) :: flat_map places l
  | FAnonymous r _ l => Qred (v_inline (start_corner r)) :: Qred (v_block (start_corner r)) :: Qred (v_block (size r)) :: flat_map places l
  | FText _ r _ => [Qred (v_inline (start_corner r)); Qred (v_block (start_corner r)); Qred (v_block (size r))]
  end.
Definition all_places (r : option (list fragment)) : list (list Q) := match r with Some l => map places l | None => [] end.
Example C92_example :
  all_places (lay (flow_root adverts) ex_viewport) =
    [[0; 30; 96 # 5; 0; 0; 96 # 5; 0; 0; 96 # 5; 0; 0; 96 # 5; 24; 0; 96 # 5]; [0; 246 # 5; 96 # 5; 0; 0; 96 # 5; 0; 0; 96 # 5]] /\
  all_places (lay adverts ex_viewport) =
    [[0; 0; 0];
     [0; 30; 96 # 5; 0; 0; 0; 0; 0; 96 # 5; 0; 0; 96 # 5; 0; 0; 96 # 5; 24; 0; 96 # 5; 0; 96 # 5; 0; 0; 0; 96 # 5; 24; 0; 0; 0; 0; 0; 100; 96 # 5; 0];
     [0; 246 # 5; 96 # 5; 0; 0; 96 # 5; 0; 0; 96 # 5]; [0; 3; 0; 0; 0; 0]] /\
  (exists frs, lay adverts ex_viewport = Some frs /\ exists flow more flow', frs = flow ++ more /\ Forall (fun f => exists b c, f = FBox b c) more /\
    lay (flow_root adverts) ex_viewport = Some flow' /\ same_inside flow flow').
Proof.
  split; [vm_compute; reflexivity|]. split; [vm_compute; reflexivity|].
  assert (T : match lay adverts ex_viewport with Some _ => true | None => false end = true) by (vm_compute; reflexivity).
  destruct (lay adverts ex_viewport) as [frs|] eqn:E; [|discriminate T]. exists frs. split; [reflexivity|].
  exact (C92_page ex_glyph_id ex_glyph_width ex_oracle ex_oracle adverts ex_viewport frs E).
Qed.

Print Assumptions C92_page.
Print Assumptions C92_two_pages.
Print Assumptions C92_container.
