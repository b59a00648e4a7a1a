(** Properties of line breaking and inline boxes *)
From Coq Require Import QArith Qminmax Lqa.
From Verif Require Import Base Dom StyleValues StyleProperties PdfConvert Geom Text LayoutTree Layout LayoutSpec LayoutProofs LayoutBlockProofs.
From Verif Require Import InlineSpec InlineProofs InlineBoxProofs InlineLineProofs LayoutProps.
Local Open Scope Q_scope.

Section Font.
Variable glyph_id : N -> res font_error N.
Variable glyph_width : N -> res font_error Q.
Notation bcl := (block_container_layout glyph_id glyph_width).
Notation shapes := (shapes glyph_id glyph_width).
Notation fits := (fits glyph_id glyph_width).
Notation too_wide := (too_wide glyph_id glyph_width).
Notation text_lines := (text_lines glyph_id glyph_width).

Lemma container_lines : forall o l cb rank acc fl coll fc acc',
  bcl o (InlineFormattingContext l) cb rank acc fl coll = Some (fc, acc') ->
  line_boxes_ok glyph_id glyph_width (cb_inline_size cb) l (fc_fragments fc).
Proof.
  intros o l cb rank acc fl coll fc acc' H. rewrite bcl_inlines in H. destruct (inline_boxes_layout _ l _ acc) as [[s acc2]|] eqn:E; [|discriminate H].
  apply context_lines in E. destruct (finish_line (ifc_lines s) (ifc_current s) cb) as [lb nl]. injection H as <- _. exact E.
Qed.
Lemma fits_eq : forall av av' fs t, av == av' -> fits av fs t -> fits av' fs t.
Proof. intros av av' fs t E (gs & w & H1 & H2). exists gs, w. split; [exact H1|lra]. Qed.
Lemma too_wide_eq : forall av av' fs t, av == av' -> too_wide av fs t -> too_wide av' fs t.
Proof. intros av av' fs t E (gs & w & H1 & H2). exists gs, w. split; [exact H1|lra]. Qed.
Lemma first_line_eq : forall av av' fs t l r, av == av' -> first_line glyph_id glyph_width av fs t l r -> first_line glyph_id glyph_width av' fs t l r.
Proof.
  intros av av' fs t l0 r0 E [line word rest H1 H2 H3 H4 H5|word rest H1 H2|line H1 H2].
  - apply line_of_words; try assumption; [intros l r X; apply (fits_eq av); eauto|apply (fits_eq av); assumption|apply (too_wide_eq av); assumption].
  - apply line_of_one_word; [assumption|apply (too_wide_eq av); assumption].
  - apply line_of_all; [intros l r X; apply (fits_eq av); eauto|]. destruct H2 as [H2|[H2 H3]]; [left; apply (fits_eq av); assumption|right; split; [assumption|apply (too_wide_eq av); assumption]].
Qed.
Lemma text_lines_eq : forall av av' fs t ls, av == av' -> text_lines av fs t ls -> text_lines av' fs t ls.
Proof.
  intros av av' fs t ls E H. induction H as [t l H|t l rest lines H N H' IH].
  - apply last_line. apply (first_line_eq av); assumption.
  - apply (more_lines _ _ _ _ _ _ rest); [apply (first_line_eq av); assumption|assumption|exact IH].
Qed.

Lemma forall2_compose : forall {A B C} {P : A -> B -> Prop} {Q : B -> C -> Prop} (R : A -> C -> Prop) a b c,
  Forall2 P a b -> Forall2 Q b c -> (forall x y z, P x y -> Q y z -> R x z) -> Forall2 R a c.
Proof.
  intros A B C P Q R a b c H. revert c. induction H as [|x y a b HP H IH]; intros c H' HR; inversion H' as [|y' z b' c' HQ H'']; subst; constructor; [exact (HR _ _ _ HP HQ)|exact (IH _ H'' HR)].
Qed.

(** A text in a container of any width is broken greedily at its spaces. *)
Theorem C52_line_breaking : forall o style text cb rank acc fl coll fc acc',
  bcl o (InlineFormattingContext [TextRun style text]) cb rank acc fl coll = Some (fc, acc') ->
  let fs := get style font_size in
  let w := cb_inline_size cb in
  exists lines, text_lines w fs text lines /\
    (forall lines', text_lines w fs text lines' -> lines' = lines) /\
    (text = joined lines \/ text = joined lines ++ [space]) /\
    Forall (fun l => fits w fs l \/ (unbreakable l /\ too_wide w fs l)) lines /\
    Forall2 (fun l f => exists r mode r' sh width, f = FAnonymous r mode [FText style r' sh] /\
      shapes l (glyphs sh) width /\
      v_inline (start_corner r') == 0 /\ v_block (start_corner r') == 0 /\ v_inline (size r') == fs * width /\
      v_block (size r') == fs * (12 # 10)) lines (fc_fragments fc).
Proof.
  intros o style text cb rank acc fl coll fc acc' H fs w. apply container_lines in H as (lines & H & HF).
  inversion H as [|base p b boxes ls q e ls' Hb (f0 & Hq) He Hr]; subst. inversion Hr; subst.
  assert (J : forall ls : list line, (exists f, List.last ls ([], 0) = (f, q)) -> ls <> [] -> map fst (join ls [([], q)]) = map fst ls).
  { clear. induction ls as [|[f e] ls IH]; intros Hl N; [congruence|]. destruct ls as [|l r]; [cbn [join map fst]; rewrite app_nil_r; reflexivity|].
    change (join ((f, e) :: l :: r) [([], q)]) with ((f, e) :: join (l :: r) [([], q)]). cbn [map fst]. f_equal. apply IH; [exact Hl|discriminate]. }
  inversion Hb as [base p style' text' first texts l ls0 H1 H2 H3| | |]; subst.
  apply (text_lines_eq _ w) in H1; [|unfold w; lra]. exists (first :: texts). split; [exact H1|]. split; [intros lines' H'; exact (text_lines_fun _ _ _ _ _ _ H' _ H1)|].
  split; [exact (text_lines_joined _ _ _ _ _ _ H1)|]. split; [exact (text_lines_fit _ _ _ _ _ _ H1)|].
  specialize (J (l :: ls0) (ex_intro _ f0 Hq) ltac:(discriminate)). clear H Hr Hb He Hq.
  assert (HF' : Forall2 (fun l f => exists r mode, f = FAnonymous r mode l) (map fst (join (l :: ls0) [([], q)])) (fc_fragments fc)).
  { clear - HF. induction HF as [|x f xs fs (r & mode & -> & _) HF IH]; cbn [map]; constructor; [|exact IH]. exists r, mode. reflexivity. }
  rewrite J in HF'. clear J HF.
  assert (HT : Forall2 (fun t l => exists r' sh width, l = [FText style r' sh] /\ shapes t (glyphs sh) width /\
      v_inline (start_corner r') == 0 /\ v_block (start_corner r') == 0 /\ v_inline (size r') == fs * width /\
      v_block (size r') == fs * (12 # 10)) (first :: texts) (map fst (l :: ls0))).
  { assert (K : forall x p t l, x == 0 -> text_line glyph_id glyph_width style x p t l -> exists r' sh width, fst l = [FText style r' sh] /\ shapes t (glyphs sh) width /\
      v_inline (start_corner r') == 0 /\ v_block (start_corner r') == 0 /\ v_inline (size r') == fs * width /\ v_block (size r') == fs * (12 # 10)).
    { intros x p t l' Hx (r & sh & width & E & E1 & E2 & E3 & E4 & E5 & E6 & E7). exists r, sh, width. split; [exact E|]. split; [exact E1|]. split; [lra|]. split; [exact E4|]. split; assumption. }
    cbn [map]. constructor; [apply (K (0 - 0) 0); [lra|exact H2]|]. clear - H3 K. induction H3 as [|t l texts ls H H3 IH]; cbn [map]; constructor; [apply (K 0 0); [lra|exact H]|exact IH]. }
  apply (forall2_compose _ _ _ _ HT HF'). intros t1 l1 f1 (r' & sh & width & -> & HT1) (r & mode & ->).
  exists r, mode, r', sh, width. split; [reflexivity|exact HT1].
Qed.

(** The lines of every inline formatting context are as described by [line_boxes_ok]. *)
Theorem C53_inline_boxes : forall o l cb rank acc fl coll fc acc',
  bcl o (InlineFormattingContext l) cb rank acc fl coll = Some (fc, acc') ->
  line_boxes_ok glyph_id glyph_width (cb_inline_size cb) l (fc_fragments fc).
Proof. exact container_lines. Qed.

(** Its text comes in order and nothing of it is lost but spaces. *)
Theorem C53_text_is_kept : forall o l cb rank acc fl coll fc acc',
  bcl o (InlineFormattingContext l) cb rank acc fl coll = Some (fc, acc') ->
  exists t width, some_spaces_left_out (flat_map text_in l) t /\ shapes t (flat_map glyphs_in (fc_fragments fc)) width.
Proof. intros o l cb rank acc fl coll fc acc' H. apply container_lines in H. exact (boxes_kept _ _ _ _ _ H). Qed.
End Font.

(** ** Examples and findings *)
Definition ex_mode : wmode := (HorizontalTb, Ltr).
Notation context l w := (block_container_layout ex_glyph_id ex_glyph_width ex_oracle (InlineFormattingContext l) (mkCB w Auto ex_mode) 0 [] false false).
(** "abc de", and so on *)
Definition t (s : string) : list N := bs s.
(** The fragment at a place in the tree *)
Fixpoint at_path (path : list nat) (frs : list fragment) : option fragment :=
  match path with
  | [] => None
  | n :: path =>
      match nth_error frs n, path with
      | Some f, [] => Some f
      | Some (FBox _ c), _ | Some (FAnonymous _ _ c), _ => at_path path c
      | _, _ => None
      end
  end.
Definition box_at (r : option (flow_children * list abspos_fragment)) (path : list nat) (test : box_fragment -> list fragment -> bool) : bool :=
  match r with Some (fc, _) => match at_path path (fc_fragments fc) with Some (FBox b c) => test b c | _ => false end | None => false end.
Lemma box_at_spec : forall r path test, box_at r path test = true ->
  exists fc acc b c, r = Some (fc, acc) /\ at_path path (fc_fragments fc) = Some (FBox b c) /\ test b c = true.
Proof.
  intros [[fc acc]|] path test H; [|discriminate H]. cbn [box_at] in H. destruct (at_path path (fc_fragments fc)) as [[b c| |]|] eqn:E; try discriminate H.
  exists fc, acc, b, c. split; [reflexivity|]. split; [exact E|exact H].
Qed.
Definition text_at (r : option (flow_children * list abspos_fragment)) (path : list nat) (test : rect Q -> shaped -> bool) : bool :=
  match r with Some (fc, _) => match at_path path (fc_fragments fc) with Some (FText _ q sh) => test q sh | _ => false end | None => false end.
Lemma text_at_spec : forall r path test, text_at r path test = true ->
  exists fc acc s q sh, r = Some (fc, acc) /\ at_path path (fc_fragments fc) = Some (FText s q sh) /\ test q sh = true.
Proof.
  intros [[fc acc]|] path test H; [|discriminate H]. cbn [text_at] in H. destruct (at_path path (fc_fragments fc)) as [[b c| |s q sh]|] eqn:E; try discriminate H.
  exists fc, acc, s, q, sh. split; [reflexivity|]. split; [exact E|exact H].
Qed.
Definition inline (s : computed_values) (l : list inline_level_box) : inline_level_box := InlineBox s true true l.

(** Every character is 8 wide: "aaaa bbbb c" in a width of 80 has the lines "aaaa bbbb" and "c". *)
Definition glyphs_of_lines (r : option (flow_children * list abspos_fragment)) : list (list N) :=
  match r with Some (fc, _) => map glyphs_in (fc_fragments fc) | None => [] end.
Example C52_example : glyphs_of_lines (context [TextRun plain (t "aaaa bbbb c")] 80) = [t "aaaa bbbb"; t "c"].
Proof. vm_compute. reflexivity. Qed.
Example C52_example_long_words : glyphs_of_lines (context [TextRun plain (t "aaaaaa b cccccc ")] 40) = [t "aaaaaa"; t "b"; t "cccccc"].
Proof. vm_compute. reflexivity. Qed.
Example C53_example : glyphs_of_lines (context [TextRun plain (t "aa "); inline (set padding_left (LpLength 8) plain) [TextRun plain (t "bb cc"); inline plain [TextRun plain (t " dd")]]] 48) =
  [t "aa bb"; t "cc dd"].
Proof. vm_compute. reflexivity. Qed.

(** Widths in the example font *)
Definition ex_width (l : list N) : Q := fold_right (fun _ x => (1 # 2) + x) 0 l.
Lemma ex_shapes : forall l, shapes ex_glyph_id ex_glyph_width l l (ex_width l).
Proof. induction l as [|c l IH]; [constructor|]. cbn [ex_width fold_right]. econstructor; [reflexivity|reflexivity|exact IH]. Qed.
Lemma ex_fits : forall l w fs, Qle_bool (fs * ex_width l) w = true -> fits ex_glyph_id ex_glyph_width w fs l.
Proof. intros l w fs H. exists l, (ex_width l). split; [apply ex_shapes|]. apply Qle_bool_iff. exact H. Qed.

Definition glyphs_test (r : option (flow_children * list abspos_fragment)) (lines : list (list N)) : bool :=
  match r with Some (fc, _) => if list_eq_dec (list_eq_dec N.eq_dec) (map glyphs_in (fc_fragments fc)) lines then true else false | None => false end.
Lemma glyphs_test_spec : forall r lines, glyphs_test r lines = true -> exists fc acc, r = Some (fc, acc) /\ map glyphs_in (fc_fragments fc) = lines.
Proof. intros [[fc acc]|] lines H; [|discriminate H]. exists fc, acc. split; [reflexivity|]. cbn [glyphs_test] in H. destruct (list_eq_dec _ _ _) as [E|E]; [exact E|discriminate H]. Qed.

(** CSS Text §5: each line is filled as long as there is room.  The room on the lines after the first is
    taken to be what the first line has: after a box that starts 60 into a line of 100, "bbbb" and "cc" are on
    different lines although both fit. *)
Theorem C52_room_refuted : exists style text w fc acc,
  context [inline style [TextRun plain text]] w = Some (fc, acc) /\
  map glyphs_in (fc_fragments fc) = [t "aaaa"; t "bbbb"; t "cc"] /\
  fits ex_glyph_id ex_glyph_width w (get plain font_size) (t "bbbb cc").
Proof.
  exists (set padding_left (LpLength 60) plain), (t "aaaa bbbb cc"), 100.
  destruct (glyphs_test_spec (context [inline (set padding_left (LpLength 60) plain) [TextRun plain (t "aaaa bbbb cc")]] 100) [t "aaaa"; t "bbbb"; t "cc"] ltac:(vm_compute; reflexivity)) as (fc & acc & H1 & H2).
  exists fc, acc. split; [exact H1|]. split; [exact H2|]. apply ex_fits. vm_compute. reflexivity.
Qed.
(** CSS Text §5.1: a line can be broken between the boxes of a line, too, if there is a space.  It is not:
    "bbbb" after "aaaa " overflows a line of 48. *)
Theorem C52_overflow_refuted : exists l w fc acc s q sh,
  context l w = Some (fc, acc) /\ l = [TextRun plain (t "aaaa "); TextRun plain (t "bbbb")] /\
  at_path [0; 1]%nat (fc_fragments fc) = Some (FText s q sh) /\
  fits ex_glyph_id ex_glyph_width w (get plain font_size) (t "bbbb") /\
  w < v_inline (start_corner q) + v_inline (size q).
Proof.
  exists [TextRun plain (t "aaaa "); TextRun plain (t "bbbb")], 48.
  destruct (text_at_spec (context [TextRun plain (t "aaaa "); TextRun plain (t "bbbb")] 48) [0; 1]%nat
    (fun q _ => negb (Qle_bool (v_inline (start_corner q) + v_inline (size q)) 48)) ltac:(vm_compute; reflexivity)) as (fc & acc & s & q & sh & H1 & H2 & H3).
  exists fc, acc, s, q, sh. split; [exact H1|]. split; [reflexivity|]. split; [exact H2|]. split; [apply ex_fits; vm_compute; reflexivity|].
  apply Qnot_le_lt. intros H. apply Qle_bool_iff in H. rewrite H in H3. discriminate H3.
Qed.

(** CSS 2 §10.3.1: the width of an inline box is that of its contents.  That of a box in another one that
    does not start at the edge is larger: here by the padding of the outer box. *)
Definition text_width (f : fragment) : Q := match f with FText _ q _ => v_inline (size q) | _ => 0 end.
Theorem C53_width_refuted : exists outer inner text w fc acc b f,
  context [inline outer [inline inner [TextRun plain text]]] w = Some (fc, acc) /\
  at_path [0; 0; 0]%nat (fc_fragments fc) = Some (FBox b [f]) /\
  ~ width_of b == text_width f.
Proof.
  exists (set padding_left (LpLength 10) plain), plain, (t "aa"), 100.
  destruct (box_at_spec (context [inline (set padding_left (LpLength 10) plain) [inline plain [TextRun plain (t "aa")]]] 100) [0; 0; 0]%nat
    (fun b c => match c with [f] => negb (Qeq_bool (width_of b) (text_width f)) | _ => false end) ltac:(vm_compute; reflexivity)) as (fc & acc & b & c & H1 & H2 & H3).
  destruct c as [|f [|g c]]; try discriminate H3. exists fc, acc, b, f. split; [exact H1|]. split; [exact H2|].
  intros E. apply Qeq_bool_iff in E. rewrite E in H3. discriminate H3.
Qed.
(** CSS 2 §9.4.3: a relatively positioned box is moved as it is.  Its width shrinks by its offset. *)
Theorem C53_relative_width_refuted : exists style text w fc acc b f,
  get style position_ = Relative /\
  context [inline style [TextRun plain text]] w = Some (fc, acc) /\
  at_path [0; 0]%nat (fc_fragments fc) = Some (FBox b [f]) /\
  ~ width_of b == text_width f.
Proof.
  set (s := set position_ Relative (set left_ (LpaLength 10) plain)).
  exists s, (t "aa"), 100.
  destruct (box_at_spec (context [inline s [TextRun plain (t "aa")]] 100) [0; 0]%nat
    (fun b c => match c with [f] => negb (Qeq_bool (width_of b) (text_width f)) | _ => false end) ltac:(vm_compute; reflexivity)) as (fc & acc & b & c & H1 & H2 & H3).
  destruct c as [|f [|g c]]; try discriminate H3. exists fc, acc, b, f. split; [reflexivity|]. split; [exact H1|]. split; [exact H2|].
  intros E. apply Qeq_bool_iff in E. rewrite E in H3. discriminate H3.
Qed.
(** §9.4.3: all its fragments are moved.  Those after the first line are not moved sideways. *)
Theorem C53_relative_lines_refuted : exists style text w fc acc b c,
  get style position_ = Relative /\ get style left_ = LpaLength 10 /\
  context [inline style [TextRun plain text]] w = Some (fc, acc) /\
  at_path [1; 0]%nat (fc_fragments fc) = Some (FBox b c) /\
  left_of b == 0.
Proof.
  set (s := set position_ Relative (set left_ (LpaLength 10) plain)).
  exists s, (t "aaaa bbbb"), 40.
  destruct (box_at_spec (context [inline s [TextRun plain (t "aaaa bbbb")]] 40) [1; 0]%nat
    (fun b c => Qeq_bool (left_of b) 0) ltac:(vm_compute; reflexivity)) as (fc & acc & b & c & H1 & H2 & H3).
  exists fc, acc, b, c. split; [reflexivity|]. split; [reflexivity|]. split; [exact H1|]. split; [exact H2|]. apply Qeq_bool_iff. exact H3.
Qed.
(** CSS 2 §10.6.1: the height of a fragment of an inline box comes from its font and what is in it.  Something
    tall on the first line makes the fragment on the next line as tall. *)
Theorem C53_height_refuted : exists tall text w fc acc b c h,
  context [inline plain [inline tall [TextRun plain (t "a")]; TextRun plain text]] w = Some (fc, acc) /\
  at_path [1; 0]%nat (fc_fragments fc) = Some (FBox b c) /\ tallest c h /\ h < height_of b.
Proof.
  set (s := set padding_top (LpLength 50) plain).
  exists s, (t " aaaa bbbb"), 64.
  destruct (box_at_spec (context [inline plain [inline s [TextRun plain (t "a")]; TextRun plain (t " aaaa bbbb")]] 64) [1; 0]%nat
    (fun b c => match c with [f] => Qle_bool 0 (outer_height f) && negb (Qle_bool (height_of b) (outer_height f)) | _ => false end) ltac:(vm_compute; reflexivity)) as (fc & acc & b & c & H1 & H2 & H3).
  destruct c as [|f [|g c]]; try discriminate H3. apply Bool.andb_true_iff in H3 as [H3 H4].
  exists fc, acc, b, [f], (outer_height f). split; [exact H1|]. split; [exact H2|]. split.
  - split; [apply Qle_bool_iff; exact H3|]. split; [intros g [<-|[]]; lra|]. right. exists f. split; [left; reflexivity|reflexivity].
  - apply Qnot_le_lt. intros H. apply Qle_bool_iff in H. rewrite H in H4. discriminate H4.
Qed.

Print Assumptions C52_line_breaking.
Print Assumptions C52_room_refuted.
Print Assumptions C52_overflow_refuted.
Print Assumptions C53_inline_boxes.
Print Assumptions C53_text_is_kept.
Print Assumptions C53_width_refuted.
Print Assumptions C53_relative_width_refuted.
Print Assumptions C53_relative_lines_refuted.
Print Assumptions C53_height_refuted.
