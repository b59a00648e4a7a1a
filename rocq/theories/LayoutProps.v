(** Properties of layout: geometry, margins, normal flow, positioning. *)
From Coq Require Import QArith Qminmax Lqa.
From Verif Require Import Base Dom StyleValues StyleProperties StyleCascade PdfConvert Geom GeomSpec Text LayoutTree Layout LayoutSpec LayoutProofs LayoutBlockProofs LayoutWidthProofs LayoutScheduleProofs LayoutAbsoluteProofs LayoutTotalProofs.
Local Open Scope Q_scope.

(** ** C43 *)
Theorem C43_sides : forall A (s : psides A) m d,
  block_start (to_flow_relative s (m, d)) = physical s (block_start_side m) /\
  block_end (to_flow_relative s (m, d)) = physical s (opposite (block_start_side m)) /\
  inline_start (to_flow_relative s (m, d)) = physical s (inline_start_side m d) /\
  inline_end (to_flow_relative s (m, d)) = physical s (opposite (inline_start_side m d)).
Proof. intros A s [] []; repeat split. Qed.
Theorem C43_corner : forall A (s : psides A) m d,
  sides_start_corner (to_flow_relative s (m, d)) = mkVec (physical s (inline_start_side m d)) (physical s (block_start_side m)).
Proof. intros A s [] []; reflexivity. Qed.
Theorem C43_sizes : forall A (v : pvec A) m d,
  (horizontal (inline_start_side m d) -> v_inline (size_to_flow_relative v (m, d)) = x_ v /\ v_block (size_to_flow_relative v (m, d)) = y_ v) /\
  (~ horizontal (inline_start_side m d) -> v_inline (size_to_flow_relative v (m, d)) = y_ v /\ v_block (size_to_flow_relative v (m, d)) = x_ v) /\
  size_to_physical (size_to_flow_relative v (m, d)) (m, d) = v.
Proof.
  intros A [x y] m d. unfold horizontal. destruct m, d; cbn [inline_start_side line_left_side opposite size_to_flow_relative size_to_physical v_inline v_block x_ y_];
    (split; [intros H|split; [intros H|reflexivity]]); try (split; reflexivity); exfalso; try (destruct H; discriminate); try (apply H; left; reflexivity); apply H; right; reflexivity.
Qed.
Theorem C43_sizes_back : forall A (v : vec2 A) mode, size_to_flow_relative (size_to_physical v mode) mode = v.
Proof. intros A [i b] [[] []]; reflexivity. Qed.
(** Growing a rectangle moves its four edges outwards by the four widths. *)
Theorem C43_inflate : forall r s,
  v_inline (start_corner (inflate r s)) == v_inline (start_corner r) - inline_start s /\
  v_block (start_corner (inflate r s)) == v_block (start_corner r) - block_start s /\
  inline_far (inflate r s) == inline_far r + inline_end s /\
  block_far (inflate r s) == block_far r + block_end s.
Proof. intros r s. unfold inline_far, block_far, inflate, inline_sum, block_sum. cbn [start_corner size v_inline v_block]. repeat (split; [lra|]). lra. Qed.
(** The border box of a fragment: its content box with padding and border around it *)
Theorem C43_border_box : forall b,
  v_inline (start_corner (border_rect b)) == content_left b - (inline_start (bf_padding b) + inline_start (bf_border b)) /\
  v_block (start_corner (border_rect b)) == content_top b - pb_start b /\
  inline_far (border_rect b) == content_left b + content_width b + (inline_end (bf_padding b) + inline_end (bf_border b)) /\
  block_far (border_rect b) == content_top b + content_height b + pb_end b.
Proof.
  intros b. unfold border_rect, inline_far, block_far, inflate, inline_sum, block_sum, content_left, content_top, content_width, content_height, pb_start, pb_end.
  cbn [start_corner size v_inline v_block]. repeat (split; [lra|]). lra.
Qed.
Example C43_example : to_flow_relative (mkPsides 1 2 3 4) (SidewaysLr, Ltr) = mkSides 3 1 2 4 /\
  horizontal (inline_start_side HorizontalTb Rtl) /\ ~ horizontal (inline_start_side VerticalRl Ltr).
Proof. split; [reflexivity|]. split; [right; reflexivity|]. intros [H|H]; discriminate H. Qed.

(** ** C44 *)
(** However margins are adjoined, in any order and grouping *)
Inductive adjoined : Type := One (m : Q) | Both (a b : adjoined) | Nothing.
Fixpoint margins_of (a : adjoined) : list Q :=
  match a with One m => [m] | Both a b => margins_of a ++ margins_of b | Nothing => [] end.
Fixpoint margin_of (a : adjoined) : collapsed_margin :=
  match a with One m => cm_new m | Both a b => adjoin (margin_of a) (margin_of b) | Nothing => cm_zero end.
Theorem C44_collapse : forall a, collapses_to (margins_of a) (solve (margin_of a)).
Proof.
  intros a. assert (H : rep (margins_of a) (margin_of a)).
  { induction a; cbn [margins_of margin_of]; [apply rep_new|apply rep_adjoin; assumption|apply rep_nil]. }
  destruct H as [H1 H2]. exists (top_of (margins_of a)), (bottom_of (margins_of a)). split; [|split].
  - split; [apply top_nonneg|]. clear. induction (margins_of a) as [|m l IH]; cbn [top_of fold_right].
    + split; [intros m []|left; reflexivity].
    + fold (top_of l). destruct IH as [I1 I2]. split.
      * intros k [<-|Hk]; [apply Q.le_max_l|]. pose proof (Q.le_max_r m (top_of l)). specialize (I1 k Hk). lra.
      * destruct (max_case m (top_of l)) as [[h e]|[h e]].
        -- destruct I2 as [I2|(k & Hk & I2)]; [left; lra|right]. exists k. split; [right; exact Hk|]. lra.
        -- right. exists m. split; [left; reflexivity|]. lra.
  - split; [apply bottom_nonpos|]. clear. induction (margins_of a) as [|m l IH]; cbn [bottom_of fold_right].
    + split; [intros m []|left; reflexivity].
    + fold (bottom_of l). destruct IH as [I1 I2]. split.
      * intros k [<-|Hk]; [apply Q.le_min_l|]. pose proof (Q.le_min_r m (bottom_of l)). specialize (I1 k Hk). lra.
      * destruct (min_case m (bottom_of l)) as [[h e]|[h e]].
        -- right. exists m. split; [left; reflexivity|]. lra.
        -- destruct I2 as [I2|(k & Hk & I2)]; [left; lra|right]. exists k. split; [right; exact Hk|]. lra.
  - unfold solve. rewrite H1, H2. reflexivity.
Qed.
(** There is only one such value. *)
Theorem C44_unique : forall l l' r r', (forall m, In m l <-> In m l') -> collapses_to l r -> collapses_to l' r' -> r == r'.
Proof.
  intros l l' r r' Hl (p & n & (P1 & P2 & P3) & (N1 & N2 & N3) & ->) (p' & n' & (P1' & P2' & P3') & (N1' & N2' & N3') & ->).
  assert (p == p').
  { apply Qle_antisym.
    - destruct P3 as [P3|(m & Hm & P3)]; [lra|]. apply Hl in Hm. specialize (P2' m Hm). lra.
    - destruct P3' as [P3'|(m & Hm & P3')]; [lra|]. apply Hl in Hm. specialize (P2 m Hm). lra. }
  assert (n == n').
  { apply Qle_antisym.
    - destruct N3' as [N3'|(m & Hm & N3')]; [lra|]. apply Hl in Hm. specialize (N2 m Hm). lra.
    - destruct N3 as [N3|(m & Hm & N3)]; [lra|]. apply Hl in Hm. specialize (N2' m Hm). lra. }
  lra.
Qed.
Example C44_example : solve (margin_of (Both (One 10) (Both (One (-5)) (Both (One 20) (One (-8)))))) == 12.
Proof. reflexivity. Qed.

(** ** A document *)
Section Font.
Variable glyph_id : N -> res font_error N.
Variable glyph_width : N -> res font_error Q.
Notation layout := (box_tree_root_layout glyph_id glyph_width).
Notation in_width_container := (in_width_container glyph_id glyph_width).
Notation positioned := (positioned glyph_id glyph_width).
Notation positioned_in_container := (positioned_in_container glyph_id glyph_width).


(** The fragments of a document: those of the normal flow, then those of the absolutely positioned boxes
    with no positioned ancestor *)
Lemma document : forall o contents floats viewport frs,
  layout o (BFC contents floats) viewport = Some frs ->
  exists flow absolute inner places, frs = flow ++ absolute /\
    in_width_container (v_inline viewport) contents flow /\
    container_ok (Length (v_block viewport)) contents (Some []) flow inner /\
    positioned_in_container contents flow /\ absolutes_in_container contents flow places /\
    Forall2 (positioned (v_inline viewport) (v_block viewport)) places absolute.
Proof.
  intros o contents floats viewport frs H. unfold box_tree_root_layout in H.
  destruct (bfc_layout _ _ o _ _ 0%nat []) as [[fc new]|] eqn:E; [|discriminate H].
  destruct (map_option _ new) as [more|] eqn:Em; [|discriminate H]. injection H as <-.
  destruct (all_laid_out glyph_id glyph_width) as (_ & _ & Hq & _). specialize (Hq (BFC contents floats) _ _ _ _ _ _ E). destruct Hq as (inner & Hok & _).
  destruct (all_widths glyph_id glyph_width) as (_ & _ & Hw & _). specialize (Hw (BFC contents floats) _ _ _ _ _ _ E).
  destruct (all_absolutes glyph_id glyph_width) as (_ & _ & Ha & _). destruct (Ha (BFC contents floats)) as (_ & Hb).
  destruct (Hb _ _ _ _ _ _ E) as (places & new' & En & Hn & Hi & Hp). cbn [app] in En. subst new'.
  exists (fc_fragments fc), more, inner, places. split; [reflexivity|]. split; [exact Hw|]. split; [exact Hok|]. split; [exact Hp|]. split; [exact Hi|].
  exact (all_positioned glyph_id glyph_width _ _ _ _ _ Hn Em).
Qed.

(** ** C45 *)
Theorem C45_widths : forall o contents floats viewport frs,
  layout o (BFC contents floats) viewport = Some frs ->
  exists flow absolute, frs = flow ++ absolute /\ in_width_container (v_inline viewport) contents flow.
Proof.
  intros o contents floats viewport frs H. destruct (document _ _ _ _ _ H) as (flow & absolute & inner & places & H1 & H2 & _).
  exists flow, absolute. split; assumption.
Qed.

(** ** C46 *)
Theorem C46_heights : forall o contents floats viewport frs,
  layout o (BFC contents floats) viewport = Some frs ->
  exists flow absolute items, frs = flow ++ absolute /\
    container_ok (Length (v_block viewport)) contents (Some []) flow items.
Proof.
  intros o contents floats viewport frs H. destruct (document _ _ _ _ _ H) as (flow & absolute & inner & places & H1 & _ & H3 & _).
  exists flow, absolute, inner. split; assumption.
Qed.

(** ** C47 *)
Theorem C47_used_values : forall o style contents floats corner rank w h mode f,
  abspos_layout (abspos_box_layout style (fun cb => bfc_layout glyph_id glyph_width o (BFC contents floats) cb 0%nat []) corner rank)
    (mkDCB (mkVec w h) mode) = Some f ->
  exists b children extra items given, f = FBox b (children ++ extra) /\ bf_style b = style /\
    padding_and_border_ok w b /\
    (inline_axis_applies w h style -> inline_axis_ok w (v_inline corner) b) /\
    (block_axis_applies w h style -> block_axis_ok w h (v_block corner) b) /\
    in_width_container (content_width b) contents children /\
    container_ok given contents (Some []) children items /\
    (given = Auto <-> is_auto (get style height) /\ (is_auto (get style top_) \/ is_auto (get style bottom_))) /\
    (given = Auto -> content_height b == distance (Some []) items) /\
    (forall x, given = Length x -> content_height b == x).
Proof.
  intros o style contents floats corner rank w h mode f H.
  destruct (all_absolutes glyph_id glyph_width) as (_ & _ & Ha & _). destruct (Ha (BFC contents floats)) as (Hl & _).
  specialize (Hl style o corner rank _ f _ _ H (Qeq_refl _) (Qeq_refl _)). cbn [dcb_size v_inline v_block] in Hl.
  inversion Hl as [? ? ? ? ? b children extra inner ? ? given places E1 E2 E3 E4 E5 E6 E7 E8 E9 E10 E11 E12]; subst.
  exists b, children, extra, inner, given. repeat (split; [first [reflexivity|assumption]|]). assumption.
Qed.

(** ** C48 *)
Theorem C48_containing_blocks : forall o contents floats viewport frs,
  layout o (BFC contents floats) viewport = Some frs ->
  exists flow absolute places, frs = flow ++ absolute /\
    positioned_in_container contents flow /\ absolutes_in_container contents flow places /\
    Forall2 (positioned (v_inline viewport) (v_block viewport)) places absolute.
Proof.
  intros o contents floats viewport frs H. destruct (document _ _ _ _ _ H) as (flow & absolute & inner & places & H1 & _ & _ & H4 & H5 & H6).
  exists flow, absolute, places. repeat (split; [assumption|]). assumption.
Qed.

(** ** C49 *)
Theorem C49_schedules : forall o o' root viewport, layout o root viewport = layout o' root viewport.
Proof. apply root_schedule. Qed.

(** ** C50 *)
Theorem C50_no_panic : (forall ch, exists id w, glyph_id ch = Ok id /\ glyph_width id = Ok w) ->
  forall o root viewport, displayed_context root -> exists frs, layout o root viewport = Some frs.
Proof. intros H o root viewport Hd. exact (root_total glyph_id glyph_width H o root viewport Hd). Qed.
End Font.

(** ** Examples and findings *)
(** Every character has a glyph half as wide as the font size. *)
Definition ex_glyph_id : N -> res font_error N := fun ch => Ok ch.
Definition ex_glyph_width : N -> res font_error Q := fun _ => Ok (1#2).
Definition ex_oracle : oracle := fun _ => Sequential.
Notation lay := (box_tree_root_layout ex_glyph_id ex_glyph_width ex_oracle).
(** A style with no margin, border or padding *)
Definition plain : computed_values := anonymous_inheriting_from None.
Definition block (style : computed_values) (l : list block_level_box) : block_level_box :=
  SameFormattingContextBlock style (BlockLevelBoxes l).
Definition absolute (style : computed_values) (l : list block_level_box) : block_level_box :=
  OutOfFlowAbsolutelyPositionedBox style (BFC (BlockLevelBoxes l) false).
Definition page (l : list block_level_box) : block_formatting_context := BFC (BlockLevelBoxes l) false.
Definition a_text : list inline_level_box := [TextRun plain [97; 98; 32; 99]%N].
Definition lines_block (style : computed_values) : block_level_box :=
  SameFormattingContextBlock style (InlineFormattingContext a_text).

(** Every property at once: margins, padding, borders, text, relative and absolute positions *)
Definition ex_page : block_formatting_context :=
  page [block (set margin_top (LpaLength 20) (set padding_left (LpPercentage (1#10)) plain))
          [lines_block (set margin_top (LpaLength 30) plain);
           absolute (set width (LpaLength 40) plain) [lines_block plain]];
        block (set position_ Relative (set top_ (LpaLength 5) (set height (LpaLength 50) plain)))
          [absolute (set top_ (LpaLength 1) (set left_ (LpaPercentage (1#2)) plain)) [lines_block plain]]].
Definition ex_viewport : vec2 Q := mkVec 200 100.
Example ex_page_has_a_layout : exists frs, lay ex_page ex_viewport = Some frs /\ length frs = 3%nat.
Proof. vm_compute. eexists. split; reflexivity. Qed.
Example ex_page_displayed : displayed_context ex_page.
Proof.
  unfold ex_page, page, block, absolute, lines_block, a_text.
  repeat first [apply d_bfc|apply d_blocks|apply d_inlines|apply d_same|apply d_abspos|apply d_text|apply Forall_cons|apply Forall_nil].
Qed.
Example ex_glyphs : forall ch, exists id w, ex_glyph_id ch = Ok id /\ ex_glyph_width id = Ok w.
Proof. intros ch. exists ch, (1#2). split; reflexivity. Qed.

(** An absolutely positioned box with no displayable specified display panics, so the hypothesis of C50
    is needed. *)
Example C50_example : lay (BFC (InlineFormattingContext [InlineAbsolutelyPositionedBox (mkComputed (get plain) DisplayNone) (page [])]) false) ex_viewport = None.
Proof. reflexivity. Qed.

(** The only fragment of a document, or the first *)
Definition first_box (o : option (list fragment)) : option box_fragment :=
  match o with Some (FBox b _ :: _) => Some b | _ => None end.
Definition nth_box (n : nat) (o : option (list fragment)) : option box_fragment :=
  match o with Some l => match nth_error l n with Some (FBox b _) => Some b | _ => None end | None => None end.
Definition fails (o : option box_fragment) (test : box_fragment -> bool) : bool :=
  match o with Some b => negb (test b) | None => false end.
Lemma nth_box_spec : forall n o test, fails (nth_box n o) test = true ->
  exists frs b children, o = Some frs /\ nth_error frs n = Some (FBox b children) /\ test b = false.
Proof.
  intros n [frs|] test H; [|discriminate H]. cbn [nth_box] in H. destruct (nth_error frs n) as [[b children| |]|] eqn:E; try discriminate H.
  exists frs, b, children. split; [reflexivity|]. split; [exact E|]. cbn [fails] in H. destruct (test b); [discriminate H|reflexivity].
Qed.
Lemma Qeq_bool_no : forall x y, Qeq_bool x y = false -> ~ x == y.
Proof. intros x y H E. apply Qeq_bool_iff in E. congruence. Qed.

(** CSS 2 §10.3.3: "if all of the above have a computed value other than auto, the values are said to be
    over-constrained and … margin-right is ignored and the value is calculated so as to make the equality
    true".  The left margin is left out: a box of width 100 with a left margin of 10 takes up 210 of 200. *)
Theorem C45_sum_refuted : exists style contents viewport frs b children,
  lay (page [SameFormattingContextBlock style contents]) viewport = Some frs /\
  nth_error frs 0 = Some (FBox b children) /\ ~ total_width b == v_inline viewport.
Proof.
  exists (set width (LpaLength 100) (set margin_left (LpaLength 10) plain)), (BlockLevelBoxes []), ex_viewport.
  destruct (nth_box_spec 0 (lay (page [SameFormattingContextBlock (set width (LpaLength 100) (set margin_left (LpaLength 10) plain)) (BlockLevelBoxes [])]) ex_viewport)
    (fun b => Qeq_bool (total_width b) (v_inline ex_viewport)) ltac:(vm_compute; reflexivity)) as (frs & b & children & H1 & H2 & H3).
  exists frs, b, children. split; [exact H1|]. split; [exact H2|]. apply Qeq_bool_no, H3.
Qed.
(** §10.3.3: auto margins are zero if the other values are larger than the containing block, and a used
    width is never negative.  Two auto margins become negative, and so does the width. *)
Theorem C45_negative_refuted : exists style style' contents viewport frs b children b' children',
  get style margin_left = LpaAuto /\ get style width = LpaLength 300 /\ get style' width = LpaAuto /\
  lay (page [SameFormattingContextBlock style contents; SameFormattingContextBlock style' contents]) viewport = Some frs /\
  nth_error frs 0 = Some (FBox b children) /\ inline_start (bf_margin b) < 0 /\
  nth_error frs 1 = Some (FBox b' children') /\ content_width b' < 0.
Proof.
  set (s := set width (LpaLength 300) (set margin_left LpaAuto (set margin_right LpaAuto plain))).
  set (s' := set padding_left (LpLength 300) plain).
  exists s, s', (BlockLevelBoxes []), ex_viewport.
  set (l := lay _ _).
  destruct (nth_box_spec 0 l (fun b => Qle_bool 0 (inline_start (bf_margin b))) ltac:(vm_compute; reflexivity)) as (frs & b & children & H1 & H2 & H3).
  destruct (nth_box_spec 1 l (fun b => Qle_bool 0 (content_width b)) ltac:(vm_compute; reflexivity)) as (frs' & b' & children' & H1' & H2' & H3').
  rewrite H1 in H1'. injection H1' as <-. exists frs, b, children, b', children'.
  split; [reflexivity|]. split; [reflexivity|]. split; [reflexivity|]. split; [exact H1|]. split; [exact H2|]. split.
  { apply Qnot_le_lt. intros H. apply Qle_bool_iff in H. congruence. }
  split; [exact H2'|]. apply Qnot_le_lt. intros H. apply Qle_bool_iff in H. congruence.
Qed.
(** CSS 2 §9.3.2: percentages of left refer to the width of the containing block.  They refer to the
    width of the box itself. *)
Theorem C45_relative_percentage_refuted : exists style contents viewport frs b children p,
  get style position_ = Relative /\ get style left_ = LpaPercentage p /\
  lay (page [SameFormattingContextBlock style contents]) viewport = Some frs /\
  nth_error frs 0 = Some (FBox b children) /\
  ~ content_left b == inline_start (bf_margin b) + inline_start (bf_border b) + inline_start (bf_padding b) + v_inline viewport * p.
Proof.
  set (s := set width (LpaLength 100) (set position_ Relative (set left_ (LpaPercentage (1#2)) plain))).
  exists s, (BlockLevelBoxes []), ex_viewport. set (l := lay _ _).
  destruct (nth_box_spec 0 l (fun b => Qeq_bool (content_left b) (inline_start (bf_margin b) + inline_start (bf_border b) + inline_start (bf_padding b) + v_inline ex_viewport * (1#2)))
    ltac:(vm_compute; reflexivity)) as (frs & b & children & H1 & H2 & H3).
  exists frs, b, children, (1#2). split; [reflexivity|]. split; [reflexivity|]. split; [exact H1|]. split; [exact H2|]. apply Qeq_bool_no, H3.
Qed.

(** CSS 2 §8.3.1: the margins of a box with a zero height and nothing in it are adjoining, be the height
    given or auto.  If it is given they are not: the next box is at 30 instead of 20. *)
Theorem C46_zero_height_refuted : exists style style' viewport frs b children m,
  get style height = LpaLength 0 /\ get style margin_top = LpaLength 10 /\ get style margin_bottom = LpaLength 20 /\
  get style' margin_top = LpaLength 0 /\ get style' position_ = Static /\
  lay (page [block style []; block style' []]) viewport = Some frs /\
  nth_error frs 1 = Some (FBox b children) /\ pb_start b == 0 /\
  collapses_to [10; 20; 0] m /\ ~ content_top b == m.
Proof.
  set (s := set height (LpaLength 0) (set margin_top (LpaLength 10) (set margin_bottom (LpaLength 20) plain))).
  set (s' := set height (LpaLength 10) plain).
  exists s, s', ex_viewport. set (l := lay _ _).
  destruct (nth_box_spec 1 l (fun b => (Qeq_bool (content_top b) 20 || negb (Qeq_bool (pb_start b) 0))%bool) ltac:(vm_compute; reflexivity)) as (frs & b & children & H1 & H2 & H3).
  apply Bool.orb_false_iff in H3. destruct H3 as [H3 H4]. apply Bool.negb_false_iff, Qeq_bool_iff in H4.
  exists frs, b, children, 20. repeat (split; [first [reflexivity|assumption]|]). split; [|apply Qeq_bool_no; exact H3].
  exact (C44_collapse (Both (One 10) (Both (One 20) (One 0)))).
Qed.

(** CSS 2 §10.6.4: the vertical values of an absolutely positioned box add up to the height of its
    containing block, to which percentages refer as well.  They add up to its width. *)
Theorem C47_block_axis_refuted : exists style viewport frs b children,
  get style top_ = LpaLength 0 /\ get style bottom_ = LpaLength 0 /\ get style height = LpaAuto /\
  lay (page [absolute style []]) viewport = Some frs /\
  nth_error frs 1 = Some (FBox b children) /\
  ~ outer_top b + block_start (bf_margin b) + pb_start b + content_height b + pb_end b + block_end (bf_margin b) + 0 == v_block viewport.
Proof.
  set (s := set top_ (LpaLength 0) (set bottom_ (LpaLength 0) plain)).
  exists s, ex_viewport. set (l := lay _ _).
  destruct (nth_box_spec 1 l (fun b => Qeq_bool (outer_top b + block_start (bf_margin b) + pb_start b + content_height b + pb_end b + block_end (bf_margin b) + 0) (v_block ex_viewport))
    ltac:(vm_compute; reflexivity)) as (frs & b & children & H1 & H2 & H3).
  exists frs, b, children. repeat (split; [first [reflexivity|assumption]|]). apply Qeq_bool_no, H3.
Qed.
(** §10.3.7: with left auto and right 0 the box ends at the right edge of its containing block.  Its
    place is counted from the height of the containing block instead. *)
Theorem C47_right_refuted : exists style viewport frs b children,
  get style left_ = LpaAuto /\ get style right_ = LpaLength 0 /\ get style width = LpaLength 50 /\
  lay (page [absolute style []]) viewport = Some frs /\
  nth_error frs 1 = Some (FBox b children) /\ ~ outer_left b + total_width b + 0 == v_inline viewport.
Proof.
  set (s := set right_ (LpaLength 0) (set width (LpaLength 50) plain)).
  exists s, ex_viewport. set (l := lay _ _).
  destruct (nth_box_spec 1 l (fun b => Qeq_bool (outer_left b + total_width b + 0) (v_inline ex_viewport)) ltac:(vm_compute; reflexivity)) as (frs & b & children & H1 & H2 & H3).
  exists frs, b, children. repeat (split; [first [reflexivity|assumption]|]). apply Qeq_bool_no, H3.
Qed.
Example C47_example : let s := set left_ (LpaLength 10) (set top_ (LpaLength 20) plain) in
  inline_axis_applies 200 100 s /\ block_axis_applies 200 100 s /\
  ~ inline_axis_applies 200 100 (set right_ (LpaLength 0) plain).
Proof.
  split; [right; left; reflexivity|]. split.
  - right. split; [exact I|]. split; [exact I|]. split; [exact I|]. right. left. reflexivity.
  - intros [H|[H|H]]; [discriminate H|discriminate H|apply H; reflexivity].
Qed.

(** §10.3.7: with left and right auto the box is where it would be in normal flow, at the edge of the
    content box of its parent if it comes first.  When the parent is its containing block it is at the
    edge of the padding box. *)
Definition nested_test (style style' : computed_values) : bool :=
  match lay (page [block style [absolute style' []]]) ex_viewport with
  | Some [FBox b [_; FAnonymous r _ [FBox a _]]] =>
      (Qeq_bool (v_inline (start_corner r)) (- inline_start (bf_padding b)) &&
       negb (Qeq_bool (v_inline (start_corner r) + outer_left a) 0))%bool
  | _ => false
  end.
Theorem C48_static_position_refuted : exists style style' viewport b place r mode a children,
  get style position_ = Relative /\ get style' left_ = LpaAuto /\ get style' right_ = LpaAuto /\
  lay (page [block style [absolute style' []]]) viewport = Some [FBox b [place; FAnonymous r mode [FBox a children]]] /\
  v_inline (start_corner r) == - inline_start (bf_padding b) /\
  ~ v_inline (start_corner r) + outer_left a == 0.
Proof.
  set (s := set position_ Relative (set padding_left (LpLength 10) plain)).
  exists s, plain, ex_viewport. assert (T : nested_test s plain = true) by (vm_compute; reflexivity). unfold nested_test in T.
  destruct (lay _ _) as [[|[b [|p [|[|r mode [|[a ch| |] [|]]|] [|]]]| |] [|]]|]; try discriminate T.
  apply Bool.andb_true_iff in T. destruct T as [T1 T2]. exists b, p, r, mode, a, ch. repeat (split; [reflexivity|]).
  split; [apply Qeq_bool_iff, T1|]. apply Qeq_bool_no, Bool.negb_true_iff, T2.
Qed.
(** §10.1: the containing block of an absolutely positioned box is formed by the nearest positioned
    ancestor, which may be an inline box.  A relatively positioned inline box is passed over: here its
    padding box starts at 30. *)
Definition inline_test (style style' : computed_values) : bool :=
  match lay (BFC (InlineFormattingContext [InlineBox style true true [InlineAbsolutelyPositionedBox style' (page [])]]) false) ex_viewport with
  | Some [FAnonymous r _ [FBox b []]; FBox a _] =>
      (Qeq_bool (v_inline (start_corner r)) 0 && Qeq_bool (content_left b - inline_start (bf_padding b)) 30 && Qeq_bool (outer_left a) 0)%bool
  | _ => false
  end.
Theorem C48_inline_refuted : exists style style' viewport r mode b a children,
  get style position_ = Relative /\ get style' left_ = LpaLength 0 /\
  lay (BFC (InlineFormattingContext [InlineBox style true true [InlineAbsolutelyPositionedBox style' (page [])]]) false) viewport =
    Some [FAnonymous r mode [FBox b []]; FBox a children] /\
  v_inline (start_corner r) == 0 /\ content_left b - inline_start (bf_padding b) == 30 /\ outer_left a == 0.
Proof.
  set (s := set position_ Relative (set margin_left (LpaLength 30) plain)). set (s' := set left_ (LpaLength 0) plain).
  exists s, s', ex_viewport. assert (T : inline_test s s' = true) by (vm_compute; reflexivity). unfold inline_test in T.
  destruct (lay _ _) as [[|[|r mode [|[b [|]| |] [|]]|] [|[a ch| |] [|]]]|]; try discriminate T.
  apply Bool.andb_true_iff in T. destruct T as [T T3]. apply Bool.andb_true_iff in T. destruct T as [T1 T2].
  exists r, mode, b, a, ch. repeat (split; [reflexivity|]). repeat split; apply Qeq_bool_iff; assumption.
Qed.

(** ** Nothing but the standard library's functional extensionality is assumed (C45 to C50). *)
Print Assumptions C43_sides.
Print Assumptions C43_corner.
Print Assumptions C43_sizes.
Print Assumptions C43_sizes_back.
Print Assumptions C43_inflate.
Print Assumptions C43_border_box.
Print Assumptions C44_collapse.
Print Assumptions C44_unique.
Print Assumptions C45_widths.
Print Assumptions C45_sum_refuted.
Print Assumptions C45_negative_refuted.
Print Assumptions C45_relative_percentage_refuted.
Print Assumptions C46_heights.
Print Assumptions C46_zero_height_refuted.
Print Assumptions C47_used_values.
Print Assumptions C47_block_axis_refuted.
Print Assumptions C47_right_refuted.
Print Assumptions C48_containing_blocks.
Print Assumptions C48_static_position_refuted.
Print Assumptions C48_inline_refuted.
Print Assumptions C49_schedules.
Print Assumptions C50_no_panic.
