(** Properties C76 to C78: layouts compared *)
From Coq Require Import QArith Qabs Qminmax Lqa.
From Verif Require Import StyleProofs PaintProps PdfObject PdfConvert LayoutProps Base Dom StyleValues StyleProperties Geom Text LayoutTree Layout LayoutSpec LayoutProofs
  LesterFloat LesterFloatProofs Float32 Float32Proofs Float32PrintProofs Arith32 Arith32Spec Arith32Proofs LayoutArith LayoutArithProofs LayoutRelSpec LayoutRelProofs.
Local Open Scope nat_scope.

(** What layout reads of styles *)
Lemma reads_layout : forall R s s', laid_out_as R s s' -> reads R s s'.
Proof.
  intros R s s' [D H].
  assert (G : forall p, In p layout_longhands -> values R (kind_of p) (get s p) (get s' p)) by exact H.
  pose proof (G font_size) as H1. pose proof (G position_) as H2. pose proof (G width) as H3. pose proof (G height) as H4.
  constructor; [| | | | | | | |exact D];
    repeat match goal with |- sides4 _ _ _ => split | |- _ /\ _ => split end;
    cbn [box_offsets box_size style_padding style_border_width style_margin to_flow_relative size_to_flow_relative style_writing_mode fst
         ptop pleft pbottom pright x_ y_ inline_start inline_end block_start block_end v_inline v_block];
    match goal with
    | |- _ (get s ?p) _ => exact (G p ltac:(unfold layout_longhands; auto 30 using in_eq, in_cons))
    | |- get s ?p = _ => exact (G p ltac:(unfold layout_longhands; auto 30 using in_eq, in_cons))
    end.
Qed.
Lemma styles_layout : forall R s s', styles R s s' -> laid_out_as R s s'.
Proof. intros R s s' [D H]. split; [exact D|]. intros p _. apply H. Qed.

(** ** C76: zoom *)
Definition scaled (k x y : Q) : Prop := (y == k * x)%Q.
Definition exact_laws : forall k : Q, (0 < k)%Q -> respects exact exact (scaled k) Qeq.
Proof.
  intros k Hk.
  assert (Le : forall x x' y y', (y == k * x -> y' == k * x' -> (x <= x' <-> y <= y'))%Q).
  { intros x x' y y' H H'. rewrite H, H'. split; intros L; [apply Qmult_le_l; assumption|apply Qmult_le_l in L; assumption]. }
  assert (Lb : forall x x' y y', scaled k x y -> scaled k x' y' -> Qle_bool x x' = Qle_bool y y').
  { intros x x' y y' H H'. pose proof (Le x x' y y' H H'). destruct (Qle_bool x x') eqn:A, (Qle_bool y y') eqn:B; try reflexivity.
    - apply Qle_bool_iff in A. apply H0 in A. apply Qle_bool_iff in A. congruence.
    - apply Qle_bool_iff in B. apply H0 in B. apply Qle_bool_iff in B. congruence. }
  assert (Z : scaled k 0 0) by (unfold scaled; ring).
  constructor; unfold exact; cbn [a_add a_sub a_mul a_div a_neg a_max a_min a_gt a_ge a_eq a_lit].
  - exact Z.
  - intros a a' b b' H H'. unfold scaled in *. rewrite H, H'. ring.
  - intros a a' b b' H H'. unfold scaled in *. rewrite H, H'. ring.
  - intros a a' H. unfold scaled in *. rewrite H. ring.
  - intros a a' b b' H H'. pose proof (Le a b a' b' H H') as L. pose proof (Le b a b' a' H' H) as L'. unfold scaled in *.
    destruct (max_case a b) as [[h e]|[h e]]; rewrite e; destruct (max_case a' b') as [[h' e']|[h' e']]; rewrite e'; try assumption.
    + apply L in h. assert (a' == b')%Q by lra. rewrite H0. exact H'.
    + apply L' in h. assert (a' == b')%Q by lra. rewrite <- H0. exact H.
  - intros a a' b b' H H'. pose proof (Le a b a' b' H H') as L. pose proof (Le b a b' a' H' H) as L'. unfold scaled in *.
    destruct (min_case a b) as [[h e]|[h e]]; rewrite e; destruct (min_case a' b') as [[h' e']|[h' e']]; rewrite e'; try assumption.
    + apply L in h. assert (a' == b')%Q by lra. rewrite <- H0. exact H.
    + apply L' in h. assert (a' == b')%Q by lra. rewrite H0. exact H'.
  - intros a a' H. unfold scaled in *. rewrite H. field.
  - intros a a' p H. unfold scaled in *. rewrite H. ring.
  - intros a a' b b' H H'. unfold scaled in *. rewrite H, H'. ring.
  - intros a a' H. unfold scaled in *. rewrite H. ring.
  - intros a a' b b' H H'. rewrite (Lb a b a' b' H H'). reflexivity.
  - intros a a' H. apply Lb; assumption.
  - intros a a' H. pose proof (Le a 0 a' 0 H Z)%Q. pose proof (Le 0 a 0 a' Z H)%Q.
    destruct (Qeq_bool a 0) eqn:A, (Qeq_bool a' 0) eqn:B; try reflexivity.
    + apply Qeq_bool_iff in A. assert (a' == 0)%Q by (unfold scaled in H; rewrite H, A; ring). apply Qeq_bool_iff in H2. congruence.
    + apply Qeq_bool_iff in B. assert (a == 0)%Q by lra. apply Qeq_bool_iff in H2. congruence.
  - reflexivity.
  - intros a a' b b' H H'. rewrite H, H'. reflexivity.
Qed.

Section Zoom.
Variable glyph_id : N -> res font_error N.
Variable glyph_width : N -> res font_error Q.
Notation zoomed k := (same_contexts (styles (scaled k))).
(** If all lengths of the styles and the viewport are multiplied by the same positive number, so are all
    those of the fragments, and nothing else changes. *)
Theorem C76_zoom : forall k, (0 < k)%Q -> forall o o' root root' viewport viewport', zoomed k root root' -> vecs (scaled k) viewport viewport' ->
  both (Forall2 (same_fragments (styles (scaled k)) (scaled k) Qeq))
    (box_tree_root_layout glyph_id glyph_width o root viewport) (box_tree_root_layout glyph_id glyph_width o' root' viewport').
Proof.
  intros k Hk o o' root root' vp vp' H Hv. rewrite <- (exact_root glyph_id glyph_width o root vp), <- (exact_root glyph_id glyph_width o' root' vp'). rewrite (root_schedule exact glyph_id glyph_width o' o root' vp').
  apply (related_root exact exact _ _ _ (exact_laws k Hk)); [|intros id; destruct (glyph_width id); reflexivity|exact H|exact Hv].
  intros s s' Hs. apply reads_layout. apply styles_layout. exact Hs.
Qed.
End Zoom.
(** The zoomed boxes: every length of every style multiplied *)
Lemma zoom_value_scaled : forall k kd v, values (scaled k) kd v (zoom_value k kd v).
Proof. intros k [] v; try reflexivity; cbn in *; destruct v; reflexivity. Qed.
Lemma zoom_style_scaled : forall k s, styles (scaled k) s (zoom_style k s).
Proof. intros k s. split; [reflexivity|]. intros p. apply zoom_value_scaled. Qed.
Lemma Forall_map_2 : forall A (r : A -> A -> Prop) f l, Forall (fun x => r x (f x)) l -> Forall2 r l (map f l).
Proof. intros A r f l H. induction H; constructor; assumption. Qed.
Lemma zoom_boxes : forall k,
  (forall c, same_containers (styles (scaled k)) c (zoom_container k c)) /\ (forall b, same_blocks_of (styles (scaled k)) b (zoom_block k b)) /\
  (forall c, same_contexts (styles (scaled k)) c (zoom_context k c)) /\ (forall b, same_inlines_of (styles (scaled k)) b (zoom_inline k b)).
Proof.
  intros k. apply boxes_ind.
  - intros l H. apply same_blocks, Forall_map_2, H.
  - intros l H. apply same_inlines, Forall_map_2, H.
  - intros s c H. apply same_in_flow; [apply zoom_style_scaled|exact H].
  - intros s c H. apply same_absolute; [apply zoom_style_scaled|exact H].
  - intros s c H. apply same_float; [apply zoom_style_scaled|exact H].
  - intros s c H. apply same_independent; [apply zoom_style_scaled|exact H].
  - intros c f H. apply same_bfc. exact H.
  - intros s f l c H. apply same_inline; [apply zoom_style_scaled|apply Forall_map_2, H].
  - intros s t. apply same_text. apply zoom_style_scaled.
  - intros s c H. apply same_inline_absolute; [apply zoom_style_scaled|exact H].
  - intros s c H. apply same_inline_float; [apply zoom_style_scaled|exact H].
Qed.
Definition zoom_vec (k : Q) (v : vec2 Q) : vec2 Q := mkVec (k * v_inline v)%Q (k * v_block v)%Q.


(** *** Examples and findings *)
Lemma ex_widths : forall k : Q, vecs (scaled k) ex_viewport (zoom_vec k ex_viewport).
Proof. intros k. split; reflexivity. Qed.
Definition second_width (o : option (list fragment)) : option Q :=
  match nth_box 1 o with Some b => Some (Qred (v_inline (size (bf_content_rect b)))) | None => None end.
Example C76_example : (0 < 3 # 2)%Q /\ same_contexts (styles (scaled (3 # 2))) ex_page (zoom_context (3 # 2) ex_page) /\
  vecs (scaled (3 # 2)) ex_viewport (zoom_vec (3 # 2) ex_viewport) /\
  second_width (lay ex_page ex_viewport) = Some 200%Q /\ second_width (lay (zoom_context (3 # 2) ex_page) (zoom_vec (3 # 2) ex_viewport)) = Some 300%Q.
Proof. split; [reflexivity|]. split; [apply zoom_boxes|]. split; [apply ex_widths|]. split; vm_compute; reflexivity. Qed.
(** In [f32] a paragraph can break into lines elsewhere when zoomed, and elsewhere than by exact numbers: the
    product of the size of the font and of the width of a glyph is just above that of the line. *)
Definition odd_size : Q := 8389524 # 8388608.
Definition odd_advance : Q := 16775385 # 16777216.
Definition odd_width (id : N) : res font_error Q := Ok (if (id =? 97)%N then odd_advance else 0%Q).
Definition odd_page : block_formatting_context :=
  page [SameFormattingContextBlock plain (InlineFormattingContext [TextRun (set font_size odd_size plain) [97; 32; 98]%N])].
Definition odd_viewport : vec2 Q := mkVec 1%Q 1%Q.
Definition count_lines (o : option (list fragment)) : option nat :=
  match o with Some (FBox _ l :: _) => Some (List.length l) | _ => None end.
Definition odd_lines (ar : arith) (k : Q) : option nat :=
  count_lines (box_tree_root_layout_in ar ex_glyph_id odd_width ex_oracle (zoom_context k odd_page) (zoom_vec k odd_viewport)).
Lemma odd_style_numbers : forall P : Q -> Prop, P 0%Q -> P odd_size -> P 16%Q -> style_numbers P (set font_size odd_size plain) /\ style_numbers P plain.
Proof. intros P H0 H1 H2. split; intros p; destruct p; vm_compute; auto. Qed.
Lemma odd_zoomed_numbers : forall P : Q -> Prop, P 0%Q -> P (3 * odd_size)%Q -> P (3 * 16)%Q ->
  style_numbers P (zoom_style 3 (set font_size odd_size plain)) /\ style_numbers P (zoom_style 3 plain).
Proof. intros P H0 H1 H2. split; intros p; destruct p; vm_compute; auto. Qed.
Lemma same_count : forall S R E a b, both (Forall2 (same_fragments S R E)) a b -> count_lines a = count_lines b.
Proof.
  intros S R E a b [|l l' H]; [reflexivity|]. destruct H as [|f f' l l' Hf]; [reflexivity|]. destruct Hf as [b0 b0' k k' _ Hk| |]; [|reflexivity|reflexivity].
  cbn [count_lines]. f_equal. induction Hk; cbn [List.length]; congruence.
Qed.
Lemma whole32 : forall m, (Z.abs m < 2 ^ 24)%Z -> number32 (inject_Z m).
Proof. intros m H. left. exists m, 0%Z. split; [exact H|]. split; [Lia.lia|]. rewrite <- (Qmult_1_r (inject_Z m)) at 1. reflexivity. Qed.
Lemma odd_page_numbers : every_style (style_numbers number32) odd_page /\ every_style (style_numbers number32) (zoom_context 3 odd_page).
Proof.
  assert (H1 : number32 odd_size) by (left; exists 8389524%Z, (-23)%Z; repeat split; discriminate).
  assert (H2 : number32 (3 * odd_size)%Q) by (left; exists 12584286%Z, (-22)%Z; repeat split; discriminate).
  destruct (odd_style_numbers number32 (whole32 0 ltac:(reflexivity)) H1 (whole32 16 ltac:(reflexivity))) as [A B].
  destruct (odd_zoomed_numbers number32 (whole32 0 ltac:(reflexivity)) H2 (whole32 48 ltac:(reflexivity))) as [C D].
  split; apply same_bfc, same_blocks; (constructor; [|constructor]); apply same_in_flow; [split; [reflexivity|assumption]| |split; [reflexivity|assumption]|];
    apply same_inlines; (constructor; [|constructor]); apply same_text; split; [reflexivity|assumption|reflexivity|assumption].
Qed.
Theorem C76_f32_refuted : exists glyph_width root viewport k, (0 < k)%Q /\
  every_style (style_numbers number32) root /\ every_style (style_numbers number32) (zoom_context k root) /\
  vec_numbers number32 viewport /\ vec_numbers number32 (zoom_vec k viewport) /\ (forall id w, glyph_width id = Ok w -> number32 w) /\
  ~ both (Forall2 (same_fragments (styles (scaled k)) (scaled k) Qeq))
    (box_tree_root_layout_in f32 ex_glyph_id glyph_width ex_oracle root viewport)
    (box_tree_root_layout_in f32 ex_glyph_id glyph_width ex_oracle (zoom_context k root) (zoom_vec k viewport)).
Proof.
  exists odd_width, odd_page, odd_viewport, 3%Q. split; [reflexivity|]. destruct odd_page_numbers as [N1 N2]. split; [exact N1|]. split; [exact N2|].
  split; [split; apply (whole32 1); reflexivity|]. split; [split; apply (whole32 3); reflexivity|]. split.
  - intros id w H. unfold odd_width in H. injection H as <-. destruct (id =? 97)%N; [|apply (whole32 0); reflexivity].
    left. exists 16775385%Z, (-24)%Z. repeat split; discriminate.
  - intros H. apply same_count in H. revert H. vm_compute. discriminate.
Qed.
(** Nor are lines broken where exact numbers would have them broken. *)
Theorem C76_rounding_refuted : exists glyph_width root viewport, every_style (style_numbers number32) root /\
  ~ both (Forall2 (same_fragments eq (fun _ _ => True) (fun _ _ => True)))
    (box_tree_root_layout_in f32 ex_glyph_id glyph_width ex_oracle root viewport)
    (box_tree_root_layout_in exact ex_glyph_id glyph_width ex_oracle root viewport).
Proof.
  exists odd_width, odd_page, odd_viewport. split; [exact (proj1 odd_page_numbers)|].
  intros H. apply same_count in H. revert H. vm_compute. discriminate.
Qed.

(** ** C77: what layout depends on *)
Lemma values_eq : forall kd (v v' : computed_kind kd), v = v' -> values eq kd v v'.
Proof. intros kd v v' <-. destruct kd; try reflexivity; cbn in *; destruct v; reflexivity. Qed.
Lemma eq_laws : forall ar, respects ar ar eq eq.
Proof. intros ar. constructor; intros; subst; reflexivity. Qed.
(** Styles that agree on twenty properties and on the specified display are laid out alike, whatever the
    arithmetic, the font and the schedule. *)
Theorem C77_noninterference : forall ar glyph_id glyph_width o o' root root' viewport, same_contexts same_for_layout root root' ->
  both (Forall2 (same_fragments same_for_layout eq eq))
    (box_tree_root_layout_in ar glyph_id glyph_width o root viewport) (box_tree_root_layout_in ar glyph_id glyph_width o' root' viewport).
Proof.
  intros ar gid gw o o' root root' vp H. rewrite (root_schedule ar gid gw o' o root' vp).
  apply (related_root ar ar _ _ _ (eq_laws ar)); [|intros id; destruct (gw id); reflexivity|exact H|split; reflexivity].
  intros s s' [D G]. apply reads_layout. split; [exact D|]. intros p Hp. apply values_eq, G, Hp.
Qed.
(** Each of the twenty is needed: there are boxes whose styles differ by it alone that are laid out differently,
    also by exact numbers. *)
Definition differ_at (p : longhand) (s s' : computed_values) : Prop :=
  specified_display s = specified_display s' /\ forall q, q <> p -> get s q = get s' q.
(** The numbers of fragments *)
Definition rect_list (r : rect Q) : list Q := [v_inline (start_corner r); v_block (start_corner r); v_inline (size r); v_block (size r)].
Definition sides_list (s : sides Q) : list Q := [inline_start s; inline_end s; block_start s; block_end s].
Fixpoint number_list (f : fragment) : list Q :=
  match f with
  | FBox b l => rect_list (bf_content_rect b) ++ sides_list (bf_padding b) ++ sides_list (bf_border b) ++ sides_list (bf_margin b) ++ flat_map number_list l
  | FAnonymous r _ l => rect_list r ++ flat_map number_list l
  | FText _ r _ => rect_list r
  end.
Definition layout_list (o : option (list fragment)) : list Q := match o with Some l => flat_map number_list l | None => [] end.
Section Lists.
Variable S : computed_values -> computed_values -> Prop.
Lemma rect_lists : forall r r', rects Qeq r r' -> Forall2 Qeq (rect_list r) (rect_list r').
Proof. intros r r' [[H1 H2] [H3 H4]]. repeat constructor; assumption. Qed.
Lemma sides_lists : forall r r', sides4 Qeq r r' -> Forall2 Qeq (sides_list r) (sides_list r').
Proof. intros r r' (H1 & H2 & H3 & H4). repeat constructor; assumption. Qed.
Fixpoint fragment_lists (f f' : fragment) (H : same_fragments S Qeq Qeq f f') {struct H} : Forall2 Qeq (number_list f) (number_list f').
Proof.
  assert (L : forall l l', Forall2 (same_fragments S Qeq Qeq) l l' -> Forall2 Qeq (flat_map number_list l) (flat_map number_list l')).
  { fix go 3. intros l l' [|x x' k k' Hx Hk]; cbn [flat_map]; [constructor|]. apply Forall2_app; [apply fragment_lists; exact Hx|apply go; exact Hk]. }
  destruct H as [b b' l l' (_ & H1 & H2 & H3 & H4 & _) Hl|r r' m l l' H1 Hl|s s' r r' t t' _ H1 _]; cbn [number_list].
  - repeat (apply Forall2_app; [solve [apply rect_lists; assumption|apply sides_lists; assumption]|]). apply L, Hl.
  - apply Forall2_app; [apply rect_lists; assumption|apply L, Hl].
  - apply rect_lists. assumption.
Qed.
Lemma layout_lists : forall a b, both (Forall2 (same_fragments S Qeq Qeq)) a b -> Forall2 Qeq (layout_list a) (layout_list b).
Proof.
  intros a b [|l l' H]; [constructor|]. cbn [layout_list]. induction H; cbn [flat_map]; [constructor|]. apply Forall2_app; [apply fragment_lists; assumption|assumption].
Qed.
End Lists.
Fixpoint equal_lists (a b : list Q) : bool :=
  match a, b with
  | [], [] => true
  | x :: a, y :: b => Qeq_bool x y && equal_lists a b
  | _, _ => false
  end.
Lemma equal_lists_ok : forall a b, Forall2 Qeq a b -> equal_lists a b = true.
Proof. intros a b H. induction H; [reflexivity|]. cbn [equal_lists]. rewrite IHForall2, Bool.andb_true_r. apply Qeq_bool_iff. assumption. Qed.
(** A box with the style, in another that is moved, with an absolutely positioned box in it *)
Definition away : computed_values := set padding_top (LpLength 7) (set padding_left (LpLength 3) plain).
Definition test_page (s : computed_values) : block_formatting_context :=
  page [block away [block s [OutOfFlowAbsolutelyPositionedBox s (BFC (InlineFormattingContext [TextRun s [97]%N]) false)]]].
Lemma test_pages : forall (S : computed_values -> computed_values -> Prop) s s', S away away -> S s s' -> same_contexts S (test_page s) (test_page s').
Proof.
  intros S s s' A H. unfold test_page, page, block.
  repeat first [apply same_bfc|apply same_blocks|apply same_inlines|apply same_in_flow|apply same_absolute|apply same_text|apply Forall2_cons|apply Forall2_nil|assumption].
Qed.
Definition differs_at (p : longhand) : Prop := exists root root', same_contexts (differ_at p) root root' /\
  ~ both (Forall2 (same_fragments (fun _ _ => True) Qeq Qeq)) (lay root ex_viewport) (lay root' ex_viewport).
Lemma needed_by : forall p s v, equal_lists (layout_list (lay (test_page s) ex_viewport)) (layout_list (lay (test_page (set p v s)) ex_viewport)) = false -> differs_at p.
Proof.
  intros p s v H. exists (test_page s), (test_page (set p v s)). split.
  - apply test_pages; split; try reflexivity. intros q Hq. symmetry. apply get_set_other. congruence.
  - intros B. apply layout_lists, equal_lists_ok in B. congruence.
Qed.
Theorem C77_needed : forall p, In p layout_longhands -> differs_at p.
Proof.
  assert (T : Forall differs_at layout_longhands); [|rewrite Forall_forall in T; exact T]. unfold layout_longhands.
  constructor; [apply (needed_by font_size plain 20%Q); vm_compute; reflexivity|].
  constructor; [apply (needed_by position_ (set top_ (LpaLength 0) plain) Relative); vm_compute; reflexivity|].
  constructor; [apply (needed_by top_ plain (LpaLength 1)); vm_compute; reflexivity|].
  constructor; [apply (needed_by left_ plain (LpaLength 1)); vm_compute; reflexivity|].
  constructor; [apply (needed_by bottom_ plain (LpaLength 1)); vm_compute; reflexivity|].
  constructor; [apply (needed_by right_ plain (LpaLength 1)); vm_compute; reflexivity|].
  constructor; [apply (needed_by width plain (LpaLength 1)); vm_compute; reflexivity|].
  constructor; [apply (needed_by height plain (LpaLength 1)); vm_compute; reflexivity|].
  constructor; [apply (needed_by margin_top plain (LpaLength 1)); vm_compute; reflexivity|].
  constructor; [apply (needed_by margin_left plain (LpaLength 1)); vm_compute; reflexivity|].
  constructor; [apply (needed_by margin_bottom plain (LpaLength 1)); vm_compute; reflexivity|].
  constructor; [apply (needed_by margin_right plain (LpaLength 1)); vm_compute; reflexivity|].
  constructor; [apply (needed_by padding_top plain (LpLength 1)); vm_compute; reflexivity|].
  constructor; [apply (needed_by padding_left plain (LpLength 1)); vm_compute; reflexivity|].
  constructor; [apply (needed_by padding_bottom plain (LpLength 1)); vm_compute; reflexivity|].
  constructor; [apply (needed_by padding_right plain (LpLength 1)); vm_compute; reflexivity|].
  constructor; [apply (needed_by border_top_width plain (LpLength 1)); vm_compute; reflexivity|].
  constructor; [apply (needed_by border_left_width plain (LpLength 1)); vm_compute; reflexivity|].
  constructor; [apply (needed_by border_bottom_width plain (LpLength 1)); vm_compute; reflexivity|].
  constructor; [apply (needed_by border_right_width plain (LpLength 1)); vm_compute; reflexivity|].
  constructor.
Qed.
(** The specified display, too: it is that of an absolutely positioned box before it was made a block. *)
Definition inline_test (d : display) : block_formatting_context :=
  BFC (InlineFormattingContext [TextRun plain [97]%N; InlineAbsolutelyPositionedBox (mkComputed (get plain) d) (page [])]) false.
Theorem C77_display_needed : exists root root', same_contexts (fun s s' => forall p, get s p = get s' p) root root' /\
  ~ both (Forall2 (same_fragments (fun _ _ => True) Qeq Qeq)) (lay root ex_viewport) (lay root' ex_viewport).
Proof.
  exists (inline_test (OutsideInside StyleValues.Block Flow)), (inline_test (OutsideInside StyleValues.Inline Flow)). split.
  - apply same_bfc, same_inlines. constructor; [apply same_text; reflexivity|]. constructor; [|constructor].
    apply same_inline_absolute; [reflexivity|]. apply same_bfc, same_blocks. constructor.
  - intros B. apply layout_lists, equal_lists_ok in B. revert B. vm_compute. discriminate.
Qed.
(** *** Pages *)
Section Paint.
Variable ar : arith.
Variable round : Q -> dec.
Variable vera : font.
Lemma same_page_layout : forall s s', same_for_page s s' -> laid_out_as eq s s'.
Proof. intros s s' [[D G] _]. split; [exact D|]. intros p Hp. apply values_eq, G, Hp. Qed.
Lemma rects_eq : forall r r', rects eq r r' -> r = r'.
Proof. intros [[a b] [c d]] [[a' b'] [c' d']] [[H1 H2] [H3 H4]]. cbn in *. subst. reflexivity. Qed.
Lemma sides_eq : forall r r' : sides Q, sides4 eq r r' -> r = r'.
Proof. intros [a b c d] [a' b' c' d'] (H1 & H2 & H3 & H4). cbn in *. subst. reflexivity. Qed.
Notation same := (same_fragments same_for_page eq eq).
Lemma same_border : forall b b', bf_content_rect b = bf_content_rect b' -> bf_padding b = bf_padding b' -> bf_border b = bf_border b' -> border_rect_in ar b = border_rect_in ar b'.
Proof. intros b b' H1 H2 H3. unfold border_rect_in. rewrite H1, H2, H3. reflexivity. Qed.
Fixpoint same_paint (f f' : fragment) (H : same f f') {struct H} : forall st cb, paint_onto_in ar round vera f st cb = paint_onto_in ar round vera f' st cb.
Proof.
  assert (L : forall l l', Forall2 same l l' -> forall st cb,
    (fix go (l : list fragment) (st : doc * PdfConvert.page) (cb : prect Q) : option (doc * PdfConvert.page) :=
      match l with
      | [] => Some st
      | child :: r => match paint_onto_in ar round vera child st cb with Some st => go r st cb | None => None end
      end) l st cb =
    (fix go (l : list fragment) (st : doc * PdfConvert.page) (cb : prect Q) : option (doc * PdfConvert.page) :=
      match l with
      | [] => Some st
      | child :: r => match paint_onto_in ar round vera child st cb with Some st => go r st cb | None => None end
      end) l' st cb).
  { fix go 3. intros l l' [|x x' k k' Hx Hk] st cb; [reflexivity|]. rewrite (same_paint x x' Hx st cb). destruct (paint_onto_in ar round vera x' st cb); [apply go; exact Hk|reflexivity]. }
  destruct H as [b b' l l' ((_ & C & B) & H1 & H2 & H3 & H4 & _) Hl|r r' m l l' H1 Hl|s s' r r' t t' ((D & G) & C & B) H1 [T _]]; intros st cb; cbn [paint_onto_in].
  - apply rects_eq in H1. apply sides_eq in H2, H3. rewrite (same_border b b' H1 H2 H3). unfold to_rgba. rewrite B, C, H1.
    change (style_writing_mode (bf_style b')) with (style_writing_mode (bf_style b)).
    destruct (if (0 <? _)%N then _ else _) as [st'|]; [|reflexivity]. destruct (to_physical _ _); [|reflexivity]. apply L, Hl.
  - apply rects_eq in H1. subst r'. destruct (to_physical r m); [|reflexivity]. apply L, Hl.
  - apply rects_eq in H1. subst r'. change (style_writing_mode s') with (style_writing_mode s). destruct (to_physical r (style_writing_mode s)); [|reflexivity].
    rewrite C, T, (G font_size (or_introl eq_refl)). reflexivity.
Qed.
Lemma same_pages : forall l l', Forall2 same l l' -> forall st cb, paint_fragments_in ar round vera l st cb = paint_fragments_in ar round vera l' st cb.
Proof.
  intros l l' H. induction H as [|f f' l l' Hf Hl IH]; intros st cb; cbn [paint_fragments_in]; [reflexivity|].
  rewrite (same_paint f f' Hf st cb). destruct (paint_onto_in ar round vera f' st cb); [apply IH|reflexivity].
Qed.
(** layout and painting of boxes: layout/flow/root.rs:14-20 and paint.rs:11-32 *)
Variable glyph_id : N -> res font_error N.
Definition paint_boxes (o : oracle) (root : block_formatting_context) (viewport : vec2 Q) : option bytes :=
  match box_tree_root_layout_in ar glyph_id (f_glyph_width vera) o root viewport with
  | Some fragments => fragments_to_pdf_bytes_in ar round vera fragments
  | None => None
  end.
(** The file depends on two more properties at most: on none of those of borders but their widths. *)
Theorem C77_page : forall o o' root root' viewport, same_contexts same_for_page root root' ->
  paint_boxes o root viewport = paint_boxes o' root' viewport.
Proof.
  intros o o' root root' vp H. unfold paint_boxes. rewrite (root_schedule ar glyph_id (f_glyph_width vera) o' o root' vp).
  assert (B : both (Forall2 same) (box_tree_root_layout_in ar glyph_id (f_glyph_width vera) o root vp) (box_tree_root_layout_in ar glyph_id (f_glyph_width vera) o root' vp)).
  { apply (related_root ar ar _ _ _ (eq_laws ar)); [|intros id; destruct (f_glyph_width vera id); reflexivity|exact H|split; reflexivity].
    intros s s' Hs. apply reads_layout, same_page_layout, Hs. }
  destruct B as [|l l' B]; [reflexivity|]. unfold fragments_to_pdf_bytes_in. rewrite (same_pages l l' B). reflexivity.
Qed.
End Paint.
(** *** Examples and findings *)
(** Other colours and styles of borders, in boxes with borders *)
Definition bordered : computed_values := set border_top_width (LpLength 5) (set border_top_style LineSolid (set background_color (Rgba BLACK) plain)).
Definition other_borders (s : computed_values) : computed_values :=
  set border_top_color (Rgba (mkRgba 255 0 0 255)) (set border_top_style LineNone (set border_left_color (Rgba (mkRgba 0 255 0 255)) (set border_left_style LineSolid s))).
Example C77_example : same_contexts same_for_page (test_page bordered) (test_page (other_borders bordered)) /\
  same_contexts same_for_layout (test_page bordered) (test_page (set color_ (mkRgba 255 0 0 255) (other_borders bordered))) /\
  get bordered border_top_color <> get (other_borders bordered) border_top_color /\
  (exists bytes, paint_boxes f32 ex_round ex_vera ex_glyph_id ex_oracle (test_page bordered) ex_viewport = Some bytes).
Proof.
  split; [|split; [|split]].
  - apply test_pages; (split; [split; [reflexivity|]|split; reflexivity]); intros p Hp; [reflexivity|].
    unfold layout_longhands in Hp. cbn [In] in Hp. repeat (destruct Hp as [<-|Hp]; [reflexivity|]). destruct Hp.
  - apply test_pages; (split; [reflexivity|]); intros p Hp; [reflexivity|].
    unfold layout_longhands in Hp. cbn [In] in Hp. repeat (destruct Hp as [<-|Hp]; [reflexivity|]). destruct Hp.
  - vm_compute. discriminate.
  - destruct (paint_boxes f32 ex_round ex_vera ex_glyph_id ex_oracle (test_page bordered) ex_viewport) eqn:E; [eexists; reflexivity|].
    exfalso. revert E. vm_compute. discriminate.
Qed.
(** The two colours are needed. *)
Theorem C77_colors_needed : forall p, In p [color_; background_color] -> exists root root', same_contexts (differ_at p) root root' /\
  paint_boxes exact ex_round ex_vera ex_glyph_id ex_oracle root ex_viewport <> paint_boxes exact ex_round ex_vera ex_glyph_id ex_oracle root' ex_viewport.
Proof.
  assert (T : forall p s v, paint_boxes exact ex_round ex_vera ex_glyph_id ex_oracle (test_page s) ex_viewport <> paint_boxes exact ex_round ex_vera ex_glyph_id ex_oracle (test_page (set p v s)) ex_viewport ->
    exists root root', same_contexts (differ_at p) root root' /\
    paint_boxes exact ex_round ex_vera ex_glyph_id ex_oracle root ex_viewport <> paint_boxes exact ex_round ex_vera ex_glyph_id ex_oracle root' ex_viewport).
  { intros p s v H. exists (test_page s), (test_page (set p v s)). split; [|exact H].
    apply test_pages; split; try reflexivity. intros q Hq. symmetry. apply get_set_other. congruence. }
  intros p [<-|[<-|[]]].
  - apply (T color_ plain (mkRgba 255 0 0 255)). vm_compute. discriminate.
  - apply (T background_color plain (Rgba BLACK)). vm_compute. discriminate.
Qed.

(** ** C78: binary32 *)
(** The operations on numbers of binary32: the number nearest to the exact result *)
Theorem C78_operations : forall a b, finite32 a -> finite32 b ->
  nearest32 (a + b) (a_add f32 a b) /\ nearest32 (a - b) (a_sub f32 a b) /\ nearest32 (a * b) (a_mul f32 a b) /\
  (~ (b == 0)%Q -> nearest32 (a / b) (a_div f32 a b)) /\ a_neg f32 a = (- a)%Q /\
  (forall m, m = a_max f32 a b -> (a <= m)%Q /\ (b <= m)%Q /\ (m = a \/ m = b)) /\
  (forall m, m = a_min f32 a b -> (m <= a)%Q /\ (m <= b)%Q /\ (m = a \/ m = b)) /\
  (a_gt f32 a b = true <-> (b < a)%Q) /\ (a_ge f32 a b = true <-> (b <= a)%Q) /\ (a_eq f32 a b = true <-> (a == b)%Q).
Proof.
  intros a b A B. pose proof (finite_not_nan a A) as Na. pose proof (finite_not_nan b B) as Nb.
  cbn [a_add a_sub a_mul a_div a_neg a_max a_min a_gt a_ge a_eq f32]. unfold f32_neg, f32_max, f32_min, f32_compare. rewrite Na, Nb. cbn [orb negb andb].
  split; [apply f32_add_nearest; assumption|]. split; [apply f32_sub_nearest; assumption|]. split; [apply f32_mul_nearest; assumption|].
  split; [intros N; apply f32_div_nearest; assumption|]. split; [reflexivity|].
  split; [intros m ->; split; [apply Q.le_max_l|split; [apply Q.le_max_r|apply Qmax_or]]|].
  split; [intros m ->; split; [apply Q.le_min_l|split; [apply Q.le_min_r|apply Qmin_or]]|].
  split; [|split; [apply Qle_bool_iff|apply Qeq_bool_iff]].
  rewrite Bool.negb_true_iff. split; intros H.
  - apply Qnot_le_lt. intros L. apply Qle_bool_iff in L. congruence.
  - destruct (Qle_bool a b) eqn:E; [|reflexivity]. apply Qle_bool_iff in E. lra.
Qed.
(** Not-a-number: §6.2 and §5.11; [f32::max] and [f32::min] are maxNum and minNum of §5.3.1 *)
Theorem C78_nan : forall a b, number32 a -> number32 b -> (a == nan)%Q \/ (b == nan)%Q ->
  a_add f32 a b = nan /\ a_sub f32 a b = nan /\ a_mul f32 a b = nan /\ a_div f32 a b = nan /\ a_neg f32 nan = nan /\
  a_gt f32 a b = false /\ a_ge f32 a b = false /\ a_eq f32 a b = false /\
  ((a == nan)%Q -> a_max f32 a b = b /\ a_min f32 a b = b) /\
  (~ (a == nan)%Q -> a_max f32 a b = a /\ a_min f32 a b = a).
Proof.
  intros a b Ha Hb H. assert (I : forall q, is_nan q = true <-> (q == nan)%Q) by (intros q; apply Qeq_bool_iff).
  assert (E : (is_nan a || is_nan b)%bool = true) by (apply Bool.orb_true_iff; rewrite !I; exact H).
  assert (En : (is_nan a || is_nan (f32_neg b))%bool = true).
  { apply Bool.orb_true_iff. apply Bool.orb_true_iff in E as [E|E]; [left; exact E|right]. unfold f32_neg. rewrite E. reflexivity. }
  cbn [a_add a_sub a_mul a_div a_neg a_gt a_ge a_eq a_max a_min f32]. unfold f32_sub, f32_add, f32_mul, f32_div, f32_compare, f32_max, f32_min. rewrite E, En.
  repeat (split; [reflexivity|]). split; intros N.
  - apply I in N. rewrite N. split; reflexivity.
  - destruct (is_nan a) eqn:A; [destruct N; apply I; exact A|]. cbn [orb] in E. rewrite E. split; reflexivity.
Qed.
(** Infinities: §6.1 and §7.2 *)
Local Open Scope Q_scope.
Theorem C78_infinity : forall x, finite32 x ->
  a_add f32 infinity x = infinity /\ a_add f32 x infinity = infinity /\ a_sub f32 x infinity = (- infinity)%Q /\ a_sub f32 infinity x = infinity /\
  a_add f32 infinity infinity = infinity /\ a_sub f32 infinity infinity = nan /\ a_add f32 infinity (- infinity) = nan /\
  (a_mul f32 infinity 0 = nan /\ a_mul f32 0 infinity = nan) /\ ((0 < x)%Q -> a_mul f32 infinity x == infinity /\ a_mul f32 x infinity == infinity) /\
  ((x < 0)%Q -> a_mul f32 infinity x == - infinity /\ a_mul f32 x infinity == - infinity) /\
  a_div f32 x infinity = 0 /\ a_div f32 infinity infinity = nan /\ a_div f32 0 0 = nan /\ ((0 < x)%Q -> a_div f32 infinity x == infinity /\ a_div f32 x 0 == infinity) /\
  a_gt f32 infinity x = true /\ a_gt f32 x (- infinity) = true /\ a_gt f32 infinity infinity = false /\ a_ge f32 infinity infinity = true /\
  a_max f32 infinity x = infinity /\ a_min f32 infinity x = x /\ a_neg f32 infinity = (- infinity)%Q.
Proof.
  intros x F. pose proof (finite_not_nan x F) as N. pose proof (finite32_below x F) as B.
  assert (L : (- infinity < x < infinity)%Q). { pose proof (Qle_Qabs x). pose proof (Qle_Qabs (- x)) as X. rewrite Qabs_opp in X. lra. }
  assert (Fi : is_infinite x = false). { apply Bool.not_true_iff_false. intros X. apply Qeq_bool_iff in X. lra. }
  assert (Nx : is_nan (f32_neg x) = false /\ is_infinite (f32_neg x) = false).
  { unfold f32_neg. rewrite N. split.
    - apply Bool.not_true_iff_false. intros X. apply Qeq_bool_iff in X. assert (nan == infinity + infinity)%Q by reflexivity. assert (0 < infinity)%Q by reflexivity. lra.
    - unfold is_infinite. rewrite Qabs_opp. exact Fi. }
  destruct Nx as [Nx Nf].
  assert (I1 : is_nan infinity = false) by reflexivity. assert (I2 : is_infinite infinity = true) by reflexivity.
  assert (I3 : is_nan (- infinity) = false) by reflexivity. assert (I4 : is_infinite (- infinity) = true) by reflexivity.
  cbn [a_add a_sub a_mul a_div a_neg a_gt a_ge a_eq a_max a_min f32].
  assert (S1 : (0 < x)%Q -> sign x = 1). { intros P. unfold sign. rewrite (proj1 (Qgt_alt _ _) P). reflexivity. }
  assert (S2 : (x < 0)%Q -> sign x = (-1)). { intros P. unfold sign. rewrite (proj1 (Qlt_alt _ _) P). reflexivity. }
  repeat match goal with |- _ /\ _ => split end;
    try (unfold f32_sub, f32_add, f32_compare; rewrite ?N, ?Nx, ?I1, ?I3, ?Fi, ?Nf, ?I2, ?I4; reflexivity).
  - intros P. unfold f32_mul. rewrite N, I1, I2, Fi, (S1 P). cbn [orb]. split; reflexivity.
  - intros P. unfold f32_mul. rewrite N, I1, I2, Fi, (S2 P). cbn [orb]. split; reflexivity.
  - unfold f32_div. rewrite N, I1, Fi, I2. reflexivity.
  - intros P. unfold f32_div. rewrite N, I1, I2, Fi. cbn [orb]. split.
    + destruct (Qle_bool 0 x) eqn:E; [reflexivity|]. assert (0 <= x)%Q by lra. apply Qle_bool_iff in H. congruence.
    + change (is_nan 0) with false. change (is_infinite 0) with false. cbn [orb]. change (Qeq_bool 0 0) with true. cbv iota. destruct (Qeq_bool x 0) eqn:E; [apply Qeq_bool_iff in E; lra|]. rewrite (S1 P). reflexivity.
  - unfold f32_compare. rewrite N, I1. cbn [orb negb andb]. destruct (Qle_bool infinity x) eqn:E; [apply Qle_bool_iff in E; lra|reflexivity].
  - unfold f32_compare. rewrite N, I3. cbn [orb negb andb]. destruct (Qle_bool x (- infinity)) eqn:E; [apply Qle_bool_iff in E; lra|reflexivity].
  - unfold f32_max. rewrite N, I1. unfold Qmax, GenericMinMax.gmax. destruct (infinity ?= x)%Q eqn:E; try reflexivity. apply Qlt_alt in E. lra.
  - unfold f32_min. rewrite N, I1. unfold Qmin, GenericMinMax.gmin. destruct (infinity ?= x)%Q eqn:E; try reflexivity; [apply Qeq_alt in E|apply Qlt_alt in E]; lra.
Qed.
Local Close Scope Q_scope.
Theorem C78_literal : forall q, nearest32 q (a_lit f32 q).
Proof. exact rounded_nearest. Qed.
(** There is one nearest number. *)
Theorem C78_unique : forall q r r', nearest32 q r -> nearest32 q r' -> (r == r')%Q.
Proof.
  intros q r r' (H1 & H2 & H3) (H1' & H2' & H3').
  destruct (Qlt_le_dec q too_large) as [L|L]; [|rewrite (H2 L), (H2' L); reflexivity].
  destruct (Qlt_le_dec (- too_large)%Q q) as [G|G]; [|rewrite (H3 G), (H3' G); reflexivity].
  assert (A : (Qabs q < too_large)%Q) by (destruct (abs_cases q) as [[_ E]|[_ E]]; rewrite E; lra).
  destruct (H1 A) as [F N]. destruct (H1' A) as [F' N']. destruct (N r' F') as [N1 N2]. destruct (N' r F) as [N1' N2'].
  assert (E : (Qabs (r - q) == Qabs (r' - q))%Q) by lra.
  destruct (N2 E) as [X|(m & e & X1 & X2)]; [rewrite X; reflexivity|]. destruct (N2' ltac:(lra)) as [X|(m' & e' & X1' & X2')]; [exact X|].
  exfalso. assert (D : (Qabs (r' - r) == Qabs (r - r'))%Q) by (rewrite <- Qabs_opp; apply Qabs_wd; ring).
  assert (Ee : e = e').
  { destruct (Z.lt_trichotomy e e') as [K|[K|K]]; [|exact K|]; apply pow2_lt in K; lra. }
  subst e'. pose proof (pow2_pos e) as Pe.
  assert (W : (Qabs (inject_Z (2 * m' - 2 * m)) == 1)%Q).
  { rewrite X1, X1' in X2. setoid_replace (inject_Z (2 * m') * pow2 e - inject_Z (2 * m) * pow2 e)%Q with (inject_Z (2 * m' - 2 * m) * pow2 e)%Q in X2.
    - rewrite Qabs_Qmult, (Qabs_pos (pow2 e)) in X2 by lra. rewrite <- (Qmult_1_l (pow2 e)) in X2 at 2. apply Qmult_inj_r in X2; [exact X2|lra].
    - unfold Zminus. rewrite inject_Z_plus, inject_Z_opp. ring. }
  unfold Qabs, inject_Z, Qeq in W. cbn [Qnum Qden] in W. Lia.lia.
Qed.

(** Layout in [f32] is made of numbers of binary32 if the lengths in the styles, the viewport and the widths of
    glyphs are. *)
Definition this_number (x y : Q) : Prop := x = y /\ number32 x.
Lemma f32_laws : respects f32 f32 this_number this_number.
Proof.
  constructor; unfold this_number; intros;
    repeat match goal with H : _ /\ _ |- _ => destruct H; subst end;
    try (split; [reflexivity|]); try reflexivity; cbn [a_add a_sub a_mul a_div a_neg a_max a_min f32].
  all: try apply number32_zero. all: auto using f32_add_number, f32_mul_number, f32_div_number, f32_neg_number, f32_max_number, f32_min_number.
  apply f32_add_number.
Qed.
Definition this_style (s s' : computed_values) : Prop := s = s' /\ style_numbers number32 s.
Lemma this_style_reads : forall s s', this_style s s' -> reads this_number s s'.
Proof.
  intros s s' [<- H]. apply reads_layout, styles_layout. split; [reflexivity|]. intros p. specialize (H p).
  destruct p; cbn [kind_of values value_numbers lpas lps] in *; try reflexivity; try (split; [reflexivity|exact H]);
    match goal with |- lpas _ ?v _ => destruct v | |- lps _ ?v _ => destruct v end; cbn [lpas lps]; try reflexivity; try exact I; (split; [reflexivity|exact H]).
Qed.
Section FragmentNumbers.
Notation same := (same_fragments this_style this_number this_number).
Lemma rects_numbers : forall r r', rects this_number r r' -> rect_numbers number32 r.
Proof. intros r r' [[[_ H1] [_ H2]] [[_ H3] [_ H4]]]. repeat split; assumption. Qed.
Lemma sides4_numbers : forall r r', sides4 this_number r r' -> sides_numbers number32 r.
Proof. intros r r' ([_ H1] & [_ H2] & [_ H3] & [_ H4]). repeat split; assumption. Qed.
Fixpoint same_numbers (f f' : fragment) (H : same f f') {struct H} : fragment_numbers number32 f.
Proof.
  assert (L : forall l l', Forall2 same l l' -> fold_right and True (map (fragment_numbers number32) l)).
  { fix go 3. intros l l' [|x x' k k' Hx Hk]; cbn [map fold_right]; [exact I|]. split; [exact (same_numbers x x' Hx)|exact (go k k' Hk)]. }
  destruct H as [b b' l l' (_ & H1 & H2 & H3 & H4 & _) Hl|r r' m l l' H1 Hl|s s' r r' t t' _ H1 [_ [_ H2]]]; cbn [fragment_numbers].
  - split; [exact (rects_numbers _ _ H1)|]. split; [exact (sides4_numbers _ _ H2)|]. split; [exact (sides4_numbers _ _ H3)|]. split; [exact (sides4_numbers _ _ H4)|exact (L _ _ Hl)].
  - split; [exact (rects_numbers _ _ H1)|exact (L _ _ Hl)].
  - split; [exact (rects_numbers _ _ H1)|exact H2].
Qed.
End FragmentNumbers.
Theorem C78_layout : forall glyph_id glyph_width o root viewport frs,
  every_style (style_numbers number32) root -> vec_numbers number32 viewport -> (forall id w, glyph_width id = Ok w -> number32 w) ->
  box_tree_root_layout_in f32 glyph_id glyph_width o root viewport = Some frs -> Forall (fragment_numbers number32) frs.
Proof.
  intros gid gw o root vp frs Hr [V1 V2] Hw L.
  assert (B : both (Forall2 (same_fragments this_style this_number this_number)) (box_tree_root_layout_in f32 gid gw o root vp) (box_tree_root_layout_in f32 gid gw o root vp)).
  { apply (related_root f32 f32 _ _ _ f32_laws); [exact this_style_reads| |exact Hr|repeat split; assumption].
    intros id. destruct (gw id) as [w|e|] eqn:E; [split; [reflexivity|exact (Hw id w E)]|reflexivity|exact I]. }
  rewrite L in B. inversion B as [|? ? F]; subst. clear B L. revert F. generalize frs at 2 as frs'. intros frs' F. induction F as [|f f' l l' Hf Hl IH]; constructor; [exact (same_numbers f f' Hf)|exact IH].
Qed.
Example C78_example : every_style (style_numbers number32) odd_page /\ vec_numbers number32 odd_viewport /\
  (forall id w, odd_width id = Ok w -> number32 w) /\
  (exists frs, box_tree_root_layout_in f32 ex_glyph_id odd_width ex_oracle odd_page odd_viewport = Some frs) /\
  finite32 odd_size /\ finite32 odd_advance /\ a_mul f32 odd_size odd_advance = 1%Q /\ ~ (odd_size * odd_advance == 1)%Q.
Proof.
  split; [exact (proj1 odd_page_numbers)|]. split; [split; apply (whole32 1); reflexivity|]. split; [|split; [|split; [|split; [|split]]]].
  - intros id w H. unfold odd_width in H. injection H as <-. destruct (id =? 97)%N; [|apply (whole32 0); reflexivity].
    left. exists 16775385%Z, (-24)%Z. repeat split; discriminate.
  - destruct (box_tree_root_layout_in f32 ex_glyph_id odd_width ex_oracle odd_page odd_viewport) eqn:E; [eexists; reflexivity|]. exfalso. revert E. vm_compute. discriminate.
  - exists 8389524%Z, (-23)%Z. repeat split; discriminate.
  - exists 16775385%Z, (-24)%Z. repeat split; discriminate.
  - vm_compute. reflexivity.
  - vm_compute. discriminate.
Qed.

Print Assumptions C76_zoom.
Print Assumptions C76_f32_refuted.
Print Assumptions C76_rounding_refuted.
Print Assumptions C77_noninterference.
Print Assumptions C77_needed.
Print Assumptions C77_display_needed.
Print Assumptions C77_page.
Print Assumptions C77_colors_needed.
Print Assumptions C78_operations.
Print Assumptions C78_nan.
Print Assumptions C78_infinity.
Print Assumptions C78_literal.
Print Assumptions C78_unique.
Print Assumptions C78_layout.
