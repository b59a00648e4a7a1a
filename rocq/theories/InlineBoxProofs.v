(** The lines of inline boxes: proofs *)
From Coq Require Import QArith Qminmax Lqa.
From Verif Require Import Base Dom StyleValues StyleProperties PdfConvert Geom Text LayoutTree Layout LayoutSpec LayoutProofs LayoutBlockProofs InlineSpec InlineProofs.
Local Open Scope Q_scope.

(** ** The state as it advances through lines *)
Definition max_height (m : Q) (frs : list fragment) : Q := fold_left (fun m f => Qmax m (outer_height f)) frs m.
Definition pushed (s : ifc_state) (frs : list fragment) (e : Q) : ifc_state :=
  mkIFC (ifc_lines s) e (ifc_stack s)
    (mkNL (nl_fragments (ifc_current s) ++ frs) (nl_inline_start (ifc_current s)) (max_height (nl_max_block_size (ifc_current s)) frs)).
Fixpoint advance (cb : containing_block) (s : ifc_state) (lines : list line) : ifc_state :=
  match lines with
  | [] => s
  | [(f, e)] => pushed s f e
  | (f, e) :: r => advance cb (new_line cb (pushed s f e)) r
  end.
Lemma advance_cons : forall cb s f e l r, advance cb s ((f, e) :: l :: r) = advance cb (new_line cb (pushed s f e)) (l :: r).
Proof. reflexivity. Qed.
Lemma pushed_pushed : forall s f e g e', pushed (pushed s f e) g e' = pushed s (f ++ g) e'.
Proof.
  intros s f e g e'. unfold pushed. cbn [ifc_lines ifc_stack ifc_current nl_fragments nl_inline_start nl_max_block_size].
  rewrite app_assoc. unfold max_height. rewrite fold_left_app. reflexivity.
Qed.
Lemma advance_join : forall cb a b s, a <> [] -> b <> [] -> advance cb s (join a b) = advance cb (advance cb s a) b.
Proof.
  intros cb. induction a as [|[f e] a IH]; intros b s Na Nb; [congruence|]. destruct a as [|l a].
  - destruct b as [|[g e'] b]; [congruence|]. cbn [join]. destruct b as [|l b].
    + cbn [advance]. symmetry. apply pushed_pushed.
    + rewrite !advance_cons. cbn [advance]. rewrite <- pushed_pushed with (e := e). reflexivity.
  - change (join ((f, e) :: l :: a) b) with ((f, e) :: join (l :: a) b). specialize (IH b (new_line cb (pushed s f e)) ltac:(discriminate) Nb).
    assert (exists l' r, join (l :: a) b = l' :: r) as (l' & r & E).
    { destruct l as [f0 e0]. destruct a as [|l1 a]; [destruct b as [|[g1 e1] b]; [congruence|]|]; cbn [join]; eauto. }
    rewrite E in *. rewrite !advance_cons. exact IH.
Qed.

(** ** New lines *)
Lemma break_levels_start : forall cb stack nl p lb nl' st lb', break_levels cb stack nl p lb = (nl', st, lb') -> nl_inline_start nl' = nl_inline_start nl /\ nl_fragments nl' = [].
Proof.
  intros cb [|q stack] nl p lb nl' st lb' H; cbn [break_levels] in H.
  - injection H as <- <- <-. split; reflexivity.
  - unfold finish_layout in H. rewrite Bool.andb_false_r in H. cbn [nl_inline_start nl_fragments] in H.
    destruct (break_levels cb stack _ p lb) as [[parent rest] lb0]. injection H as <- <- <-. split; reflexivity.
Qed.
Lemma new_line_start : forall cb s, nl_inline_start (ifc_current (new_line cb s)) = 0 /\ ifc_position (new_line cb s) = 0 /\ nl_fragments (ifc_current (new_line cb s)) = [].
Proof.
  intros cb s. unfold new_line. destruct (break_levels cb _ _ _ _) as [[nl st] lb] eqn:E. apply break_levels_start in E as [E1 E2].
  cbn [ifc_current ifc_position]. split; [exact E1|]. split; [reflexivity|exact E2].
Qed.
Lemma advance_end : forall cb lines s, lines <> [] ->
  (exists f, List.last lines ([], 0) = (f, ifc_position (advance cb s lines))) /\
  nl_inline_start (ifc_current (advance cb s lines)) = (if is_nil (tl lines) then nl_inline_start (ifc_current s) else 0).
Proof.
  intros cb. induction lines as [|[f e] lines IH]; intros s N; [congruence|]. destruct lines as [|l r].
  - split; [exists f; reflexivity|reflexivity].
  - rewrite advance_cons. destruct (IH (new_line cb (pushed s f e)) ltac:(discriminate)) as [I1 I2]. split; [exact I1|].
    rewrite I2. cbn [tl is_nil]. destruct r; cbn [tl is_nil]; [apply new_line_start|reflexivity].
Qed.

(** ** The fragments of an inline box *)
Definition wrap (p : partial_inline_box) (m : Q) (last_ : bool) (content : line) : line :=
  let frs := fst content in
  let e := snd content in
  let pad := if last_ then pi_padding p else set_inline_end (pi_padding p) 0 in
  let bor := if last_ then pi_border p else set_inline_end (pi_border p) 0 in
  let mar := if last_ then pi_margin p else set_inline_end (pi_margin p) 0 in
  ([FBox (mkBoxFragment (pi_style p) (mkRect (pi_start_corner p) (mkVec (e - v_inline (pi_start_corner p)) (max_height m frs))) pad bor mar cbm_zero) frs],
   if last_ then e + (inline_end (pi_padding p) + inline_end (pi_border p) + inline_end (pi_margin p)) else e).
Definition next_partial (p : partial_inline_box) : partial_inline_box :=
  mkPartial (pi_style p) (mkVec 0 (v_block (pi_start_corner p)))
    (set_inline_start (pi_padding p) 0) (set_inline_start (pi_border p) 0) (set_inline_start (pi_margin p) 0) (pi_last p) (pi_parent p).
Fixpoint wraps (p : partial_inline_box) (m : Q) (contents : list line) : list line :=
  match contents with
  | [] => []
  | [c] => [wrap p m (pi_last p) c]
  | c :: r => wrap p m false c :: wraps (next_partial p) (max_height m (fst c)) r
  end.
Lemma wraps_cons : forall p m c c' r, wraps p m (c :: c' :: r) = wrap p m false c :: wraps (next_partial p) (max_height m (fst c)) (c' :: r).
Proof. reflexivity. Qed.
Lemma wraps_parent : forall contents p m nl, wraps (set_parent p nl) m contents = wraps p m contents.
Proof.
  induction contents as [|c contents IH]; intros p m nl; [reflexivity|]. destruct contents as [|c' r]; [reflexivity|].
  rewrite !wraps_cons. f_equal. change (next_partial (set_parent p nl)) with (set_parent (next_partial p) nl). apply IH.
Qed.

Definition pop (s : ifc_state) : option ifc_state :=
  match ifc_stack s with
  | [] => None
  | p :: stack =>
      let '(p, _, position) := finish_layout p (ifc_current s) (ifc_position s) false in
      Some (mkIFC (ifc_lines s) position stack (pi_parent p))
  end.
(** A state in which [p] has just been opened *)
Definition opened (t : ifc_state) (p : partial_inline_box) (start m pos : Q) : ifc_state :=
  mkIFC (ifc_lines t) pos (set_parent p (ifc_current t) :: ifc_stack t) (mkNL [] start m).
Lemma nest_one : forall t p start m pos f e, pop (pushed (opened t p start m pos) f e) = Some (pushed t (fst (wrap p m (pi_last p) (f, e))) (snd (wrap p m (pi_last p) (f, e)))).
Proof.
  intros t p start m pos f e. unfold pop, pushed, opened, wrap, finish_layout, set_parent.
  cbn [ifc_stack ifc_current ifc_lines ifc_position nl_fragments nl_inline_start nl_max_block_size app pi_last pi_padding pi_border pi_margin pi_style pi_start_corner pi_parent fst snd].
  rewrite Bool.andb_true_r. destruct (pi_last p); cbn [pi_parent]; reflexivity.
Qed.
Lemma nest_break : forall cb t p start m pos f e,
  new_line cb (pushed (opened t p start m pos) f e) =
  opened (new_line cb (pushed t (fst (wrap p m false (f, e))) (snd (wrap p m false (f, e))))) (next_partial p) 0 (max_height m f) 0.
Proof.
  intros cb t p start m pos f e. unfold new_line, pushed, opened, wrap, set_parent.
  cbn [ifc_stack ifc_current ifc_lines ifc_position nl_fragments nl_inline_start nl_max_block_size app fst snd].
  cbn [break_levels]. unfold finish_layout. rewrite Bool.andb_false_r.
  cbn [pi_last pi_padding pi_border pi_margin pi_style pi_start_corner pi_parent after_break nl_fragments nl_max_block_size nl_inline_start].
  unfold max_height at 4. cbn [fold_left].
  match goal with |- context [break_levels cb (ifc_stack t) ?nl e (ifc_lines t)] => destruct (break_levels cb (ifc_stack t) nl e (ifc_lines t)) as [[parent rest] lb] eqn:E end.
  cbn [outer_height bf_content_rect bf_padding bf_border bf_margin size v_block] in *.
  match goal with |- context [break_levels cb (ifc_stack t) ?nl e (ifc_lines t)] => replace (break_levels cb (ifc_stack t) nl e (ifc_lines t)) with (parent, rest, lb) end.
  reflexivity.
Qed.
Lemma nest : forall cb contents t p start m pos, contents <> [] ->
  pop (advance cb (opened t p start m pos) contents) = Some (advance cb t (wraps p m contents)).
Proof.
  intros cb. induction contents as [|[f e] contents IH]; intros t p start m pos N; [congruence|]. destruct contents as [|c r].
  - exact (nest_one t p start m pos f e).
  - rewrite advance_cons, nest_break, IH by discriminate. f_equal. rewrite wraps_cons. cbn [fst].
    destruct (wrap p m false (f, e)) as [f' e'] eqn:E. cbn [fst snd].
    destruct (wraps (next_partial p) (max_height m f) (c :: r)) as [|l' r'] eqn:E'; [destruct r; discriminate E'|]. reflexivity.
Qed.

(** ** Heights *)
Lemma max_height_tallest : forall frs m, (forall f, In f frs -> outer_height f <= max_height m frs) /\ m <= max_height m frs /\
  (max_height m frs == m \/ exists f, In f frs /\ outer_height f == max_height m frs).
Proof.
  unfold max_height. induction frs as [|f frs IH]; intros m; cbn [fold_left].
  - split; [intros f []|]. split; [lra|]. left. reflexivity.
  - destruct (IH (Qmax m (outer_height f))) as (I1 & I2 & I3). pose proof (Q.le_max_l m (outer_height f)). pose proof (Q.le_max_r m (outer_height f)).
    split; [intros g [<-|Hg]; [lra|exact (I1 g Hg)]|]. split; [lra|]. destruct I3 as [I3|(g & Hg & I3)].
    + destruct (max_case m (outer_height f)) as [[h e]|[h e]].
      * right. exists f. split; [left; reflexivity|]. lra.
      * left. lra.
    + right. exists g. split; [right; exact Hg|exact I3].
Qed.
Lemma tallest_zero : forall frs, tallest frs (max_height 0 frs).
Proof.
  intros frs. destruct (max_height_tallest frs 0) as (H1 & H2 & H3). split; [exact H2|]. split; [exact H1|]. exact H3.
Qed.
Lemma tallest_below : forall frs m, 0 <= m -> exists t, tallest frs t /\ t <= max_height m frs.
Proof.
  intros frs m Hm. exists (max_height 0 frs). split; [apply tallest_zero|]. destruct (max_height_tallest frs m) as (H1 & H2 & H3).
  destruct (tallest_zero frs) as (T1 & T2 & [T3|(f & Hf & T3)]); [lra|]. specialize (H1 f Hf). lra.
Qed.

(** ** The boxes on their lines *)
Definition box_of (p : partial_inline_box) : box_fragment :=
  mkBoxFragment (pi_style p) rzero (pi_padding p) (pi_border p) (pi_margin p) cbm_zero.
Definition tops (p : partial_inline_box) : Q := block_start (pi_padding p) + block_start (pi_border p) + block_start (pi_margin p).
Definition opened_ok (w : Q) (style : computed_values) (first last_ : bool) (p : partial_inline_box) (dy : Q) : Prop :=
  pi_style p = style /\ pi_last p = last_ /\ edges w style first true (box_of p) /\ moved_down style dy /\ v_block (pi_start_corner p) == tops p + dy.
Lemma opened_next : forall w style first last_ p dy, opened_ok w style first last_ p dy -> opened_ok w style false last_ (next_partial p) dy.
Proof.
  intros w style first last_ p dy (H1 & H2 & H3 & H4 & H5). split; [exact H1|]. split; [exact H2|]. split; [|split; [exact H4|exact H5]].
  unfold edges, box_of in *. cbn [bf_padding bf_border bf_margin next_partial pi_padding pi_border pi_margin set_inline_start inline_start inline_end block_start block_end] in *.
  destruct H3 as (A1 & A2 & A3 & A). split; [reflexivity|]. split; [reflexivity|]. split; [reflexivity|]. exact A.
Qed.
Lemma wrap_edges : forall w style first (last_ : bool) p, edges w style first true (box_of p) -> forall r c,
  edges w style first last_ (mkBoxFragment (pi_style p) r (if last_ then pi_padding p else set_inline_end (pi_padding p) 0)
    (if last_ then pi_border p else set_inline_end (pi_border p) 0) (if last_ then pi_margin p else set_inline_end (pi_margin p) 0) c).
Proof.
  intros w style first [] p H r c; unfold edges, box_of in *; cbn [bf_padding bf_border bf_margin] in *; [exact H|].
  cbn [set_inline_end inline_start inline_end block_start block_end]. destruct H as (A1 & A2 & A3 & A4 & A5 & A6 & A).
  split; [exact A1|]. split; [exact A2|]. split; [exact A3|]. split; [reflexivity|]. split; [reflexivity|]. split; [reflexivity|]. exact A.
Qed.
Lemma wrap_after : forall p m last_ (c : line) b f, fst (wrap p m last_ c) = [FBox b f] -> snd (wrap p m last_ c) == snd c + after b.
Proof.
  intros p m last_ c b f H. unfold wrap in *. cbn [fst snd] in *. injection H as <- _. unfold after. cbn [bf_padding bf_border bf_margin].
  destruct last_; [lra|]. cbn [set_inline_end inline_end]. lra.
Qed.
Lemma wrap_next : forall w style p m (last_ : bool) lf c dy, opened_ok w style false lf p dy -> v_inline (pi_start_corner p) == 0 -> 0 <= m ->
  next_box_line w style last_ c (wrap p m last_ c).
Proof.
  intros w style p m last_ lf c dy (H1 & H2 & H3 & H4 & H5) Hc Hm. eexists. exists dy. split; [reflexivity|]. split; [exact H1|].
  split; [apply wrap_edges; exact H3|]. split; [exact H4|]. split; [exact Hc|]. split.
  { unfold top_of_box, tops in *. cbn [bf_content_rect start_corner bf_padding bf_border bf_margin]. destruct last_; exact H5. }
  split; [unfold width_of; cbn [bf_content_rect size v_inline]; lra|]. split; [|apply (wrap_after p m last_ c _ (fst c)); reflexivity].
  unfold height_of. cbn [bf_content_rect size v_block]. apply tallest_below. exact Hm.
Qed.
Lemma wraps_next : forall w style last_ contents p m dy, opened_ok w style false last_ p dy -> v_inline (pi_start_corner p) == 0 -> 0 <= m ->
  next_box_lines w style last_ contents (wraps p m contents).
Proof.
  intros w style last_. induction contents as [|c contents IH]; intros p m dy H Hc Hm; [constructor|]. destruct contents as [|c' r].
  - cbn [wraps]. apply nbl_last. destruct H as (H1 & H2 & H3). rewrite H2. apply (wrap_next w style p m last_ last_ c dy); [split; [exact H1|split; [exact H2|exact H3]]|exact Hc|exact Hm].
  - rewrite wraps_cons. apply nbl_cons; [discriminate|apply (wrap_next w style p m false last_ c dy H Hc Hm)|].
    apply (IH (next_partial p) (max_height m (fst c)) dy); [exact (opened_next _ _ _ _ _ _ H)|reflexivity|].
    destruct (max_height_tallest (fst c) m) as (_ & G & _). lra.
Qed.
Lemma wraps_first : forall w style first last_ contents c p dx dy base start,
  opened_ok w style first last_ p dy -> moved_from style w (get style left_) (get style right_) dx ->
  v_inline (pi_start_corner p) == start + before (box_of p) - base + dx ->
  exists l ls, wraps p 0 (c :: contents) = l :: ls /\
    first_box_line w base start style first (last_ && is_nil contents) c l /\
    (exists b, fst l = [FBox b (fst c)] /\ before b = before (box_of p)) /\
    next_box_lines w style last_ contents ls.
Proof.
  intros w style first last_ contents c p dx dy base start H Hd Hc.
  assert (G : first_box_line w base start style first (last_ && is_nil contents) c (wrap p 0 (last_ && is_nil contents) c)).
  { destruct H as (H1 & H2 & H3 & H4 & H5). eexists. exists dx, dy. split; [reflexivity|]. split; [exact H1|]. split; [apply wrap_edges; exact H3|].
    split; [exact Hd|]. split; [exact H4|]. set (lb := (last_ && is_nil contents)%bool). split.
    { unfold left_of, before in *. cbn [bf_content_rect start_corner bf_padding bf_border bf_margin box_of] in *. destruct lb; exact Hc. }
    split.
    { unfold top_of_box, tops in *. cbn [bf_content_rect start_corner bf_padding bf_border bf_margin]. destruct lb; exact H5. }
    split.
    { intros E. unfold width_of, before in *. cbn [bf_content_rect size v_inline bf_padding bf_border bf_margin box_of] in *. destruct lb; cbn [set_inline_end inline_start]; lra. }
    split; [apply tallest_zero|apply (wrap_after p 0 lb c _ (fst c)); reflexivity]. }
  destruct contents as [|c' r].
  - exists (wrap p 0 (pi_last p) c), []. split; [reflexivity|]. cbn [is_nil] in G. rewrite Bool.andb_true_r in G. destruct (H) as (_ & H2 & _). cbn [is_nil]. rewrite Bool.andb_true_r, H2.
    split; [exact G|]. split; [|constructor]. eexists. split; [reflexivity|]. unfold before. cbn [bf_padding bf_border bf_margin box_of]. destruct last_; reflexivity.
  - rewrite wraps_cons. do 2 eexists. split; [reflexivity|]. cbn [is_nil] in *. rewrite Bool.andb_false_r in *. split; [exact G|]. split; [eexists; split; [reflexivity|reflexivity]|].
    apply (wraps_next w style last_ (c' :: r) (next_partial p) (max_height 0 (fst c)) dy); [exact (opened_next _ _ _ _ _ _ H)|reflexivity|].
    destruct (max_height_tallest (fst c) 0) as (_ & G' & _). exact G'.
Qed.

Section Font.
Variable glyph_id : N -> res font_error N.
Variable glyph_width : N -> res font_error Q.
Notation inline_ok := (inline_ok glyph_id glyph_width).
Notation inlines_ok := (inlines_ok glyph_id glyph_width).
Notation ill := (inline_level_box_layout glyph_id glyph_width).

(** ** Text *)
Definition text_fragment (style : computed_values) (sh : shaped) (base p : Q) : line :=
  ([FText style (mkRect (mkVec (p - base) 0) (mkVec (get style font_size * advance_width sh) (get style font_size * (12 # 10)))) sh],
   p + get style font_size * advance_width sh).
Lemma push_text_pushed : forall style sh s,
  push_text style sh s = pushed s (fst (text_fragment style sh (nl_inline_start (ifc_current s)) (ifc_position s)))
    (snd (text_fragment style sh (nl_inline_start (ifc_current s)) (ifc_position s))).
Proof. intros. reflexivity. Qed.
Lemma text_fragment_ok : forall style sh base p text, holds glyph_id glyph_width text sh ->
  text_line glyph_id glyph_width style (p - base) p text (text_fragment style sh base p).
Proof.
  intros style sh base p text (w & H1 & H2). eexists _, sh, w. split; [reflexivity|]. split; [exact H1|]. split; [exact H2|].
  cbn [start_corner size v_inline v_block text_fragment snd]. split; [lra|]. split; [lra|]. rewrite H2. split; [lra|]. split; lra.
Qed.
Lemma text_line_eq : forall style l l' p text x, l == l' -> text_line glyph_id glyph_width style l p text x -> text_line glyph_id glyph_width style l' p text x.
Proof.
  intros style l l' p text x E (r & sh & w & H1 & H2 & H3 & H4 & H5). exists r, sh, w. repeat (split; [assumption|]). split; [lra|exact H5].
Qed.
Lemma text_run_lines_ok : forall cb style av fuel chars s s',
  text_run_lines glyph_id glyph_width fuel cb style av chars s = Some s' ->
  exists first texts l ls, text_lines glyph_id glyph_width av (get style font_size) chars (first :: texts) /\
    text_line glyph_id glyph_width style (ifc_position s - nl_inline_start (ifc_current s)) (ifc_position s) first l /\
    Forall2 (text_line glyph_id glyph_width style 0 0) texts ls /\ s' = advance cb s (l :: ls).
Proof.
  intros cb style av. induction fuel as [|fuel IH]; intros chars s s' H; cbn [text_run_lines] in H; [discriminate H|].
  destruct (fill_line glyph_id glyph_width av (get style font_size) chars new_with_naive_shaping None) as [[sh rest]|] eqn:E; [|discriminate H].
  apply fill_line_starts in E as (line0 & HL & HS).
  pose proof (text_fragment_ok style sh (nl_inline_start (ifc_current s)) (ifc_position s) line0 HS) as T.
  rewrite push_text_pushed in H. set (tf := text_fragment style sh (nl_inline_start (ifc_current s)) (ifc_position s)) in *.
  destruct rest as [|c rest].
  - injection H as <-. exists line0, [], tf, []. split; [apply last_line; exact HL|]. split; [exact T|]. split; [constructor|]. reflexivity.
  - apply IH in H as (first & texts & l & ls & H1 & H2 & H3 & ->). destruct (new_line_start cb (pushed s (fst tf) (snd tf))) as (N1 & N2 & N3).
    rewrite N1, N2 in H2. exists line0, (first :: texts), tf, (l :: ls).
    split; [apply (more_lines _ _ _ _ _ _ (c :: rest)); [exact HL|discriminate|exact H1]|]. split; [exact T|].
    split; [constructor; [apply (text_line_eq style (0 - 0) 0); [lra|exact H2]|exact H3]|]. reflexivity.
Qed.

(** ** Starting an inline box *)
Lemma part_of_lp : forall w l, part_of w l (lp_relative_to l w).
Proof. intros w [px|p]; cbn [part_of lp_relative_to]; lra. Qed.
Lemma part_of_lpa : forall w l, part_or_auto_of w l 0 (auto_is (lpa_relative_to l w) 0).
Proof. intros w [px|p|]; cbn [part_or_auto_of lpa_relative_to auto_is]; lra. Qed.
Lemma rel_inline : forall style w h, moved_from style w (get style left_) (get style right_) (v_inline (relative_adjustement style w h)).
Proof.
  intros style w h. unfold relative_adjustement, moved_from. destruct (get style position_); try reflexivity.
  cbn [is_relatively_positioned v_inline].
  change (inline_start (map_inline_and_block_axes (fun v => lpa_relative_to v w) (fun u => lpa_relative_to u (auto_is h 0)) (box_offsets style)))
    with (lpa_relative_to (get style left_) w).
  change (inline_end (map_inline_and_block_axes (fun v => lpa_relative_to v w) (fun u => lpa_relative_to u (auto_is h 0)) (box_offsets style)))
    with (lpa_relative_to (get style right_) w).
  destruct (get style left_) as [l|l|]; cbn [lpa_relative_to adjust part_or_auto_of]; [lra|lra|].
  destruct (get style right_) as [r|r|]; cbn [lpa_relative_to adjust part_or_auto_of]; [exists r|exists (w * r)|exists 0]; split; lra.
Qed.
Lemma rel_block : forall style w h, moved_down style (v_block (relative_adjustement style w h)).
Proof.
  intros style w h. unfold relative_adjustement, moved_down. destruct (get style position_); try reflexivity.
  cbn [is_relatively_positioned v_block].
  change (block_start (map_inline_and_block_axes (fun v => lpa_relative_to v w) (fun u => lpa_relative_to u (auto_is h 0)) (box_offsets style)))
    with (lpa_relative_to (get style top_) (auto_is h 0)).
  change (block_end (map_inline_and_block_axes (fun v => lpa_relative_to v w) (fun u => lpa_relative_to u (auto_is h 0)) (box_offsets style)))
    with (lpa_relative_to (get style bottom_) (auto_is h 0)).
  destruct (get style top_) as [l|l|], (get style bottom_) as [r|r|]; cbn [lpa_relative_to adjust]; try exact I; lra.
Qed.
Lemma start_layout_ok : forall cb style fi la s p s1, start_layout cb style fi la s = (p, s1) ->
  exists dx dy,
  moved_from style (cb_inline_size cb) (get style left_) (get style right_) dx /\
  opened_ok (cb_inline_size cb) style fi la p dy /\
  v_inline (pi_start_corner p) == ifc_position s + before (box_of p) - nl_inline_start (ifc_current s) + dx /\
  ifc_position s1 == ifc_position s + before (box_of p) /\
  mkIFC (ifc_lines s1) (ifc_position s1) (p :: ifc_stack s1) (ifc_current s1) = opened s p (ifc_position s1) 0 (ifc_position s1).
Proof.
  intros cb style fi la s p s1 H. unfold start_layout in H.
  set (rel := relative_adjustement style (cb_inline_size cb) (cb_block_size cb)) in H. exists (v_inline rel), (v_block rel).
  pose proof (rel_inline style (cb_inline_size cb) (cb_block_size cb)) as R1. fold rel in R1.
  pose proof (rel_block style (cb_inline_size cb) (cb_block_size cb)) as R2. fold rel in R2.
  split; [exact R1|].
  set (w := cb_inline_size cb) in *.
  assert (E : edges w style true true (mkBoxFragment style rzero (lp_sides_relative_to (style_padding style) w) (lp_sides_relative_to (style_border_width style) w)
    (sides_auto_is (lpa_sides_relative_to (style_margin style) w) 0) cbm_zero)).
  { unfold edges. cbn [bf_padding bf_border bf_margin].
    repeat split; first [exact (part_of_lp w _) | exact (part_of_lpa w _)]. }
  set (pad := lp_sides_relative_to (style_padding style) w) in *. set (bor := lp_sides_relative_to (style_border_width style) w) in *.
  set (mar := sides_auto_is (lpa_sides_relative_to (style_margin style) w) 0) in *.
  destruct fi; apply pair_equal_spec in H as [<- <-].
  - split.
    { split; [reflexivity|]. split; [reflexivity|]. split; [exact E|]. split; [exact R2|]. unfold tops. cbn [pi_start_corner vadd v_block pi_padding pi_border pi_margin]. lra. }
    unfold before. cbn [pi_start_corner vadd v_inline box_of bf_padding bf_border bf_margin pi_padding pi_border pi_margin ifc_position]. split; [lra|]. split; [lra|reflexivity].
  - split.
    { split; [reflexivity|]. split; [reflexivity|]. split.
      { unfold edges in *. cbn [bf_padding bf_border bf_margin box_of pi_padding pi_border pi_margin set_inline_start inline_start inline_end block_start block_end] in *.
        destruct E as (_ & _ & _ & E). split; [reflexivity|]. split; [reflexivity|]. split; [reflexivity|]. exact E. }
      split; [exact R2|]. unfold tops. cbn [pi_start_corner vadd v_block pi_padding pi_border pi_margin]. lra. }
    unfold before. cbn [pi_start_corner vadd v_inline box_of bf_padding bf_border bf_margin pi_padding pi_border pi_margin ifc_position set_inline_start inline_start]. split; [lra|]. split; [lra|reflexivity].
Qed.

(** ** All boxes *)
Definition inline_good (b : inline_level_box) : Prop := forall o cb rank s acc s' acc',
  ill o b cb rank s acc = Some (s', acc') ->
  exists lines, lines <> [] /\ s' = advance cb s lines /\
    inline_ok (cb_inline_size cb) (nl_inline_start (ifc_current s)) (ifc_position s) b lines.
Lemma pushed_nil : forall s, pushed s [] (ifc_position s) = s.
Proof.
  intros [lb p st [f i m]]. unfold pushed. cbn [ifc_lines ifc_position ifc_stack ifc_current nl_fragments nl_inline_start nl_max_block_size max_height fold_left].
  rewrite app_nil_r. reflexivity.
Qed.
Lemma join_nonempty : forall a b, a <> [] -> join a b <> [].
Proof. intros [|[f e] [|l a]] [|[g e'] b] H; cbn [join]; congruence. Qed.
Lemma inlines_good : forall boxes o cb rank s acc s' acc', Forall inline_good boxes ->
  inline_boxes_layout (fun b s acc => ill o b cb rank s acc) boxes s acc = Some (s', acc') ->
  exists lines, lines <> [] /\ s' = advance cb s lines /\
    inlines_ok (cb_inline_size cb) (nl_inline_start (ifc_current s)) (ifc_position s) boxes lines.
Proof.
  induction boxes as [|b boxes IH]; intros o cb rank s acc s' acc' HF H; cbn [inline_boxes_layout] in H.
  - injection H as <- _. exists [([], ifc_position s)]. split; [discriminate|]. split; [symmetry; apply pushed_nil|]. constructor.
  - inversion HF as [|x y Hb HF']; subst. destruct (ill o b cb rank s acc) as [[s1 acc1]|] eqn:E; [|discriminate H].
    apply Hb in E as (lines & N & -> & HL). apply (IH _ _ _ _ _ _ _ HF') in H as (lines' & N' & -> & HL').
    exists (join lines lines'). split; [apply join_nonempty; exact N|]. split; [symmetry; apply advance_join; assumption|].
    destruct (advance_end cb lines s N) as [A1 A2]. rewrite A2 in HL'. eapply is_one_more; [exact HL|exact A1| |]. 2: exact HL'.
    destruct lines as [|l0 [|l1 lr]]; reflexivity.
Qed.
Lemma all_inlines_good : forall b, inline_good b.
Proof.
  refine (proj2 (proj2 (proj2 (boxes_ind (fun _ => True) (fun _ => True) (fun _ => True) inline_good _ _ _ _ _ _ _ _ _ _ _)))); try (intros; exact I).
  - intros st fi la children HF o cb rank s acc s' acc' H. rewrite ill_inline in H.
    destruct (start_layout cb st fi la s) as [p s1] eqn:Es. apply start_layout_ok in Es as (dx & dy & Hdx & Hop & Hc & Hp & Eo). rewrite Eo in H.
    destruct (inline_boxes_layout _ children _ acc) as [[s2 acc2]|] eqn:E; [|discriminate H].
    apply (inlines_good children) in E as (contents & N & -> & HL); [|exact HF].
    assert (HP : pop (advance cb (opened s p (ifc_position s1) 0 (ifc_position s1)) contents) = Some s').
    { unfold pop. destruct (ifc_stack (advance cb (opened s p (ifc_position s1) 0 (ifc_position s1)) contents)) as [|q stack]; [discriminate H|].
      destruct (finish_layout q _ _ false) as [[q' nl] pos]. injection H as <- _. reflexivity. }
    rewrite nest in HP by exact N. injection HP as <-. destruct contents as [|c contents]; [congruence|].
    destruct (wraps_first (cb_inline_size cb) st fi la contents c p dx dy (nl_inline_start (ifc_current s)) (ifc_position s) Hop Hdx Hc) as (l & ls & -> & W1 & W2 & W3).
    exists (l :: ls). split; [discriminate|]. split; [reflexivity|].
    destruct W2 as (b & Eb & Ebb). cbn [opened ifc_current ifc_position nl_inline_start] in HL.
    apply (i_box _ _ _ _ _ _ _ _ _ (ifc_position s1) c contents); [exact W1| |exact HL|exact W3].
    exists b. split; [exact Eb|]. rewrite Ebb. exact Hp.
  - intros st text o cb rank s acc s' acc' H. change (ill o (TextRun st text) cb rank s acc) with
      (match text_run_layout glyph_id glyph_width cb st text s with Some s => Some (s, acc) | None => None end) in H.
    destruct (text_run_layout glyph_id glyph_width cb st text s) as [s1|] eqn:E; [|discriminate H]. injection H as <- _.
    apply text_run_lines_ok in E as (first & texts & l & ls & H1 & H2 & H3 & ->). exists (l :: ls). split; [discriminate|]. split; [reflexivity|].
    apply (i_text _ _ _ _ _ _ _ first texts); assumption.
  - intros st c _ o cb rank s acc s' acc' H.
    assert (s' = s) as -> by (cbn [inline_level_box_layout] in H; destruct (initial_corner st s); [injection H as <- _; reflexivity|discriminate H]).
    exists [([], ifc_position s)]. split; [discriminate|]. split; [symmetry; apply pushed_nil|]. constructor.
  - intros st c _ o cb rank s acc s' acc' H. cbn [inline_level_box_layout] in H. injection H as <- _.
    exists [([], ifc_position s)]. split; [discriminate|]. split; [symmetry; apply pushed_nil|]. constructor.
Qed.

(** ** The line boxes *)
Lemma advance_lines : forall cb lines s, ifc_stack s = [] -> nl_fragments (ifc_current s) = [] -> nl_max_block_size (ifc_current s) = 0 -> lines <> [] ->
  let s' := advance cb s lines in
  exists frs, lb_boxes (fst (finish_line (ifc_lines s') (ifc_current s') cb)) = lb_boxes (ifc_lines s) ++ frs /\
    Forall2 (fun (l : line) f => exists r mode, f = FAnonymous r mode (fst l) /\ tallest (fst l) (v_block (size r))) lines frs.
Proof.
  intros cb. induction lines as [|[f e] lines IH]; intros s H1 H2 H3 N; [congruence|]. destruct lines as [|l r].
  - cbn [advance finish_line fst lb_boxes pushed ifc_lines ifc_current nl_fragments nl_max_block_size]. eexists. split; [reflexivity|].
    constructor; [|constructor]. do 2 eexists. rewrite H2. split; [reflexivity|]. cbn [size v_block fst]. rewrite H3. apply tallest_zero.
  - rewrite advance_cons. cbv zeta. set (t := new_line cb (pushed s f e)).
    assert (T : ifc_stack t = [] /\ nl_fragments (ifc_current t) = [] /\ nl_max_block_size (ifc_current t) = 0 /\
      exists fr, lb_boxes (ifc_lines t) = lb_boxes (ifc_lines s) ++ [fr] /\ exists r mode, fr = FAnonymous r mode f /\ tallest f (v_block (size r))).
    { unfold t, new_line, pushed. cbn [ifc_stack ifc_lines ifc_current ifc_position nl_fragments nl_max_block_size]. rewrite H1, H2, H3. cbn [break_levels finish_line app].
      cbn [ifc_stack ifc_current nl_fragments nl_max_block_size ifc_lines lb_boxes]. repeat (split; [reflexivity|]). eexists. split; [reflexivity|].
      do 2 eexists. split; [reflexivity|]. cbn [size v_block]. apply tallest_zero. }
    destruct T as (T1 & T2 & T3 & fr & T4 & T5). destruct (IH t T1 T2 T3 ltac:(discriminate)) as (frs & F1 & F2).
    exists (fr :: frs). split; [etransitivity; [exact F1|]; rewrite T4, <- app_assoc; reflexivity|]. constructor; [exact T5|exact F2].
Qed.
Lemma context_lines : forall o l cb rank acc s acc',
  inline_boxes_layout (fun b s acc => ill o b cb rank s acc) l (mkIFC (mkLB [] 0) 0 [] (mkNL [] 0 0)) acc = Some (s, acc') ->
  line_boxes_ok glyph_id glyph_width (cb_inline_size cb) l (lb_boxes (fst (finish_line (ifc_lines s) (ifc_current s) cb))).
Proof.
  intros o l cb rank acc s acc' H. apply inlines_good in H as (lines & N & -> & HL).
  - destruct (advance_lines cb lines (mkIFC (mkLB [] 0) 0 [] (mkNL [] 0 0)) eq_refl eq_refl eq_refl N) as (frs & F1 & F2).
    exists lines. split; [exact HL|]. rewrite F1. exact F2.
  - apply Forall_forall. intros b _. apply all_inlines_good.
Qed.
End Font.
