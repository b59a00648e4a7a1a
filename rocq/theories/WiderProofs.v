(** With more room there are no more lines, and nothing gets lower or taller. *)
From Coq Require Import QArith Qminmax Lqa Lia.
From Verif Require Import Base Dom StyleValues StyleProperties PdfConvert Geom Text LayoutTree Layout LayoutSpec LayoutProofs LayoutBlockProofs.
From Verif Require Import InlineSpec InlineProofs InlineBoxProofs InlineLineProofs WiderSpec.
Local Open Scope Q_scope.

(** ** Lines *)
Section Lines.
Variable glyph_id : N -> res font_error N.
Variable glyph_width : N -> res font_error Q.
Notation shapes := (shapes glyph_id glyph_width).
Notation fits := (fits glyph_id glyph_width).
Notation too_wide := (too_wide glyph_id glyph_width).
Notation first_line := (first_line glyph_id glyph_width).
Notation text_lines := (text_lines glyph_id glyph_width).
Notation broken_text := (broken_text glyph_id glyph_width).
Hypothesis widths : forall g w, glyph_width g = Ok w -> 0 <= w.

Lemma shapes_not_negative : forall t gs w, shapes t gs w -> 0 <= w.
Proof. induction 1 as [|ch t g gs w width H1 H2 H IH]; [lra|]. specialize (widths _ _ H2). lra. Qed.
Lemma fits_part : forall av fs a b c, 0 <= fs -> fits av fs (a ++ b ++ c) -> fits av fs b.
Proof.
  intros av fs a b c F (gs & w & H & L). apply shapes_split in H as (g1 & w1 & g2 & w2 & H1 & H2 & _ & E2).
  apply shapes_split in H2 as (g3 & w3 & g4 & w4 & H3 & H4 & _ & E4). exists g3, w3. split; [exact H3|].
  pose proof (shapes_not_negative _ _ _ H1). pose proof (shapes_not_negative _ _ _ H4).
  assert (fs * w3 <= fs * w). { rewrite !(Qmult_comm fs). apply Qmult_le_compat_r; [|exact F]. rewrite E2, E4. lra. } lra.
Qed.
Lemma has_space : forall (a b : list N), ~ unbreakable (a ++ space :: b).
Proof. intros a b H. apply H. apply in_or_app. right. left. reflexivity. Qed.
Definition after_space (p : list N) : Prop := p = [] \/ exists q, p = q ++ [space].

(** A line goes no further than the first one made, even if it begins earlier. *)
Lemma first_line_longest : forall av fs pre text line rest o, 0 <= fs -> first_line av fs text line rest -> rest <> [] ->
  breaks text o -> fits av fs (pre ++ o) \/ unbreakable (pre ++ o) ->
  exists p, text = o ++ space :: p ++ rest /\ after_space p.
Proof.
  intros av fs pre text line rest o F H N B O. apply first_line_by_stop in H.
  assert (S : forall stop, stops glyph_id glyph_width av fs text stop -> o = stop /\ unbreakable stop \/ exists r, stop = o ++ space :: r).
  { intros stop (S1 & S2 & S3). destruct (breaks_order _ _ _ B S1) as [E|[(r & E)|(r & E)]].
    - left. split; [exact E|]. subst o. destruct O as [O|O].
      + exfalso. rewrite <- (app_nil_r stop) in O at 1. apply fits_part in O; [|exact F]. exact (fits_not_too_wide _ _ _ _ _ O S2).
      + intros I. apply O. apply in_or_app. right. exact I.
    - exfalso. subst o. destruct O as [O|O].
      + apply fits_part in O; [|exact F]. exact (fits_not_too_wide _ _ _ _ _ O S2).
      + rewrite app_assoc in O. exact (has_space _ _ O).
    - right. exists r. exact E. }
  destruct H as [word aft S1 U T R|S1 U T|A1 A2 A3].
  - destruct (S _ S1) as [[_ V]|(r & E)]; [exfalso; exact (has_space _ _ V)|].
    destruct (words_prefix _ _ _ _ U E) as [-> |(r' & ->)].
    + exists []. split; [rewrite T, R; reflexivity|left; reflexivity].
    + exists (r' ++ [space]). split; [rewrite T, R, <- !app_assoc; reflexivity|right; exists r'; reflexivity].
  - destruct (S _ S1) as [[-> _]|(r & ->)]; [|exfalso; exact (has_space _ _ U)].
    destruct T as [[_ T]|T]; [contradiction|]. exists []. split; [exact T|left; reflexivity].
  - contradiction.
Qed.
(** Where the end of the first of some lines is *)
Lemma cut : forall (pre text o after : list N), after_space pre -> pre ++ text = o ++ after -> (after = [] \/ exists t, after = space :: t) ->
  (exists p, after = space :: p ++ text /\ after_space p) \/ (exists o', o = pre ++ o' /\ text = o' ++ after).
Proof.
  intros pre text o after Hp E Ha. apply app_eq_app in E as (m & [[-> E]|[-> E]]).
  - destruct m as [|c m].
    + right. exists []. rewrite !app_nil_r. cbn [app] in E |- *. split; [reflexivity|symmetry; exact E].
    + left. destruct Ha as [->|(t & ->)]; [discriminate E|]. cbn [app] in E. injection E as <- ->. exists m. split; [reflexivity|].
      destruct Hp as [Hp|(q & Hp)]; [destruct o; discriminate Hp|]. destruct m as [|x m] using rev_ind; [left; reflexivity|]. right. exists m.
      change (o ++ space :: m ++ [x]) with (o ++ (space :: m) ++ [x]) in Hp. rewrite app_assoc in Hp. apply app_inj_tail in Hp as [_ ->]. reflexivity.
  - right. exists m. split; [reflexivity|exact E].
Qed.
Lemma fewest : forall av fs text lines, 0 <= fs -> text_lines av fs text lines -> forall other pre, after_space pre -> other <> [] ->
  pre ++ text = joined other \/ pre ++ text = joined other ++ [space] ->
  Forall (fun l => fits av fs l \/ unbreakable l) other -> (length lines <= length other)%nat.
Proof.
  intros av fs text lines F H. induction H as [text l H|text l rest lines H N H' IH].
  { intros [|o other] pre _ No _ _; [contradiction|]. cbn [length]. lia. }
  induction other as [|o other IHo]; intros pre Hp No E Ho; [contradiction|]. apply Forall_cons_iff in Ho as [Ho1 Ho2].
  assert (Cut : exists after, pre ++ text = o ++ after /\
     (after = [] \/ exists t, after = space :: t /\ ((other = [] /\ t = []) \/ (other <> [] /\ (t = joined other \/ t = joined other ++ [space]))))).
  { destruct other as [|o2 other].
    - cbn [joined] in E. destruct E as [E|E]; [exists []; split; [rewrite app_nil_r; exact E|left; reflexivity]|].
      exists [space]. split; [exact E|]. right. exists []. split; [reflexivity|]. left. split; reflexivity.
    - change (joined (o :: o2 :: other)) with (o ++ space :: joined (o2 :: other)) in E. destruct E as [E|E].
      + exists (space :: joined (o2 :: other)). split; [exact E|]. right. eexists. split; [reflexivity|]. right. split; [discriminate|left; reflexivity].
      + exists (space :: joined (o2 :: other) ++ [space]). split; [rewrite E, <- app_assoc; reflexivity|]. right. eexists. split; [reflexivity|]. right. split; [discriminate|right; reflexivity]. }
  destruct Cut as (after & E' & Ha).
  assert (Tn : forall p, p ++ text <> []).
  { intros p X. apply app_eq_nil in X as [_ X]. subst text. pose proof (first_line_kept _ _ _ _ _ _ _ H) as [K|[_ K]]; [destruct l; discriminate K|contradiction]. }
  destruct (cut pre text o after Hp E') as [(p & -> & Sp)|(o' & -> & T)].
  { destruct Ha as [Ha|(t & Ha & _)]; [left; exact Ha|right; exists t; exact Ha]. }
  - (* the line ends before the text begins *)
    destruct Ha as [Ha|(t & Ha & Hr)]; [discriminate Ha|]. injection Ha as Ha. destruct Hr as [[_ Hr]|[No' Hr]]; [exfalso; exact (Tn p (eq_trans Ha Hr))|].
    cbn [length]. apply Nat.le_trans with (length other); [|lia]. apply (IHo p Sp No'); [rewrite Ha; exact Hr|exact Ho2].
  - assert (B : breaks text o'). { destruct Ha as [->|(t & -> & _)]; [left; rewrite app_nil_r in T; exact T|right; exists t; exact T]. }
    destruct (first_line_longest av fs pre text l rest o' F H N B Ho1) as (p & T2 & Sp).
    rewrite T2 in T. apply app_inv_head in T. destruct Ha as [->|(t & -> & Hr)]; [discriminate T|]. injection T as T.
    destruct Hr as [[_ ->]|[No' Hr]]; [apply app_eq_nil in T as [_ T]; contradiction|].
    cbn [length]. apply le_n_S. apply (IH other p Sp No'); [rewrite T; exact Hr|exact Ho2].
Qed.
Lemma fewest_lines : forall av fs text lines other, 0 <= fs -> text_lines av fs text lines -> broken_text av fs text other -> (length lines <= length other)%nat.
Proof. intros av fs text lines other F H (N & E & O). apply (fewest av fs text lines F H other []); [left; reflexivity|exact N|exact E|exact O]. Qed.
Lemma lines_broken : forall av fs text lines, text_lines av fs text lines -> broken_text av fs text lines.
Proof.
  intros av fs text lines H. split; [destruct H; discriminate|]. split; [exact (text_lines_joined _ _ _ _ _ _ H)|].
  eapply Forall_impl; [|exact (text_lines_fit _ _ _ _ _ _ H)]. intros l [K|[K _]]; [left|right]; exact K.
Qed.
Lemma broken_wider : forall av av' fs fs' text lines, av' <= av -> fs <= fs' -> broken_text av' fs' text lines -> broken_text av fs text lines.
Proof.
  intros av av' fs fs' text lines L Lf (N & E & O). split; [exact N|]. split; [exact E|]. eapply Forall_impl; [|exact O].
  intros l [(gs & w & H1 & H2)|K]; [left|right; exact K]. exists gs, w. split; [exact H1|]. pose proof (shapes_not_negative _ _ _ H1).
  assert (fs * w <= fs' * w) by (apply Qmult_le_compat_r; assumption). lra.
Qed.
Lemma no_more_lines : forall av av' fs fs' text lines lines', 0 <= fs -> av' <= av -> fs <= fs' ->
  text_lines av fs text lines -> text_lines av' fs' text lines' -> (length lines <= length lines')%nat.
Proof. intros av av' fs fs' text lines lines' F L Lf H H'. apply (fewest_lines av fs text); [exact F|exact H|]. apply (broken_wider av av' fs fs' text lines' L Lf). apply lines_broken. exact H'. Qed.
End Lines.

(** ** The lines of one text *)
Section Heights.
Variable glyph_id : N -> res font_error N.
Variable glyph_width : N -> res font_error Q.
Notation bcl := (block_container_layout glyph_id glyph_width).
Notation bll := (block_level_box_layout glyph_id glyph_width).
Notation fcl := (bfc_layout glyph_id glyph_width).
Notation text_lines := (text_lines glyph_id glyph_width).
Definition nat_Q (n : nat) : Q := inject_Z (Z.of_nat n).
Lemma nat_Q_S : forall n, nat_Q (S n) == nat_Q n + 1.
Proof. intros n. unfold nat_Q. rewrite Nat2Z.inj_succ, <- Z.add_1_r, inject_Z_plus. reflexivity. Qed.
Lemma nat_Q_mono : forall m n, (m <= n)%nat -> nat_Q m <= nat_Q n.
Proof. intros m n H. unfold nat_Q. rewrite <- Zle_Qle. lia. Qed.

Lemma run_count : forall cb style av fuel chars s s', 0 <= get style font_size * (12 # 10) -> ifc_stack s = [] -> nl_max_block_size (ifc_current s) == 0 ->
  text_run_lines glyph_id glyph_width fuel cb style av chars s = Some s' ->
  exists lines ls, text_lines av (get style font_size) chars lines /\ ifc_stack s' = [] /\
    lb_boxes (ifc_lines s') = lb_boxes (ifc_lines s) ++ ls /\ length lines = S (length ls) /\
    Forall (line_of_height (get style font_size * (12 # 10))) ls /\
    lb_next_position (ifc_lines s') == lb_next_position (ifc_lines s) + nat_Q (length ls) * (get style font_size * (12 # 10)) /\
    nl_max_block_size (ifc_current s') == get style font_size * (12 # 10).
Proof.
  intros cb style av fuel. induction fuel as [|fuel IH]; intros chars s s' P St Mx H; cbn [text_run_lines] in H; [discriminate H|].
  destruct (fill_line _ _ _ _ _ _ _) as [[sh rest]|] eqn:E; [|discriminate H].
  apply fill_line_starts in E as (line0 & HL & _).
  assert (M : nl_max_block_size (ifc_current (push_text style sh s)) == get style font_size * (12 # 10)).
  { unfold push_text. cbn [ifc_current nl_max_block_size]. rewrite Mx. apply Q.max_r. exact P. }
  assert (St' : ifc_stack (push_text style sh s) = []) by exact St.
  assert (Ln : ifc_lines (push_text style sh s) = ifc_lines s) by reflexivity.
  destruct rest as [|c rest].
  - injection H as <-. exists [line0], []. split; [apply last_line; exact HL|]. split; [exact St'|]. rewrite Ln, app_nil_r. split; [reflexivity|]. split; [reflexivity|].
    split; [constructor|]. split; [unfold nat_Q; cbn [length Z.of_nat inject_Z]; ring|exact M].
  - set (s1 := push_text style sh s) in *. clearbody s1.
    assert (K : exists f, ifc_stack (new_line cb s1) = [] /\ nl_max_block_size (ifc_current (new_line cb s1)) == 0 /\
       lb_boxes (ifc_lines (new_line cb s1)) = lb_boxes (ifc_lines s) ++ [f] /\ line_of_height (get style font_size * (12 # 10)) f /\
       lb_next_position (ifc_lines (new_line cb s1)) == lb_next_position (ifc_lines s) + get style font_size * (12 # 10)).
    { unfold new_line. rewrite St'. cbn [break_levels]. unfold finish_line. cbn [ifc_stack ifc_current nl_max_block_size ifc_lines lb_boxes lb_next_position].
      eexists. split; [reflexivity|]. split; [reflexivity|]. rewrite Ln. split; [reflexivity|]. cbn [line_of_height size v_block nl_max_block_size]. rewrite M. split; reflexivity. }
    destruct K as (f & K1 & K2 & K3 & K4 & K5).
    destruct (IH _ _ _ P K1 K2 H) as (lines & ls & H1 & H2 & H3 & H4 & H5 & H6 & H7).
    exists (line0 :: lines), (f :: ls). split; [apply (more_lines _ _ _ _ _ _ (c :: rest)); [exact HL|discriminate|exact H1]|].
    split; [exact H2|]. split; [rewrite H3, K3, <- app_assoc; reflexivity|]. split; [cbn [length]; rewrite H4; reflexivity|]. split; [constructor; assumption|].
    split; [|exact H7]. rewrite H6, K5. change (length (f :: ls)) with (S (length ls)). rewrite nat_Q_S. ring.
Qed.
Lemma out_of_flow_skipped : forall o cb rank l s acc s' acc', Forall not_in_flow l ->
  inline_boxes_layout (fun b s acc => inline_level_box_layout glyph_id glyph_width o b cb rank s acc) l s acc = Some (s', acc') -> s' = s.
Proof.
  intros o cb rank l. induction l as [|b l IH]; intros s acc s' acc' Hl H; cbn [inline_boxes_layout] in H; [congruence|].
  apply Forall_cons_iff in Hl as [Hb Hl]. destruct b as [? ? ? ?|? ?|style contents|? ?]; cbn [not_in_flow] in Hb; try contradiction.
  - change (inline_level_box_layout glyph_id glyph_width o (InlineAbsolutelyPositionedBox style contents) cb rank s acc) with
      (match initial_corner style s with Some corner => Some (s, acc ++ [abspos_box_layout style (fun cb => fcl (sub_oracle o (List.length acc)) contents cb 0%nat []) corner rank]) | None => None end) in H.
    destruct (initial_corner style s) as [corner|]; [|discriminate H]. exact (IH _ _ _ _ Hl H).
  - exact (IH _ _ _ _ Hl H).
Qed.
Lemma inline_boxes_app : forall one a b s acc, inline_boxes_layout one (a ++ b) s acc =
  match inline_boxes_layout one a s acc with Some (s, acc) => inline_boxes_layout one b s acc | None => None end.
Proof.
  intros one a. induction a as [|x a IH]; intros b s acc; cbn [app inline_boxes_layout]; [reflexivity|]. destruct (one x s acc) as [[s1 acc1]|]; [apply IH|reflexivity].
Qed.
(** The lines of a container with at most one text *)
Lemma text_container : forall o l cb rank acc fl coll fc acc', one_text l -> bcl o (InlineFormattingContext l) cb rank acc fl coll = Some (fc, acc') ->
  fc_margins fc = cbm_zero /\
  ((Forall not_in_flow l /\ length (fc_fragments fc) = 1%nat /\ Forall (line_of_height 0) (fc_fragments fc) /\ fc_block_size fc == 0) \/
   exists before style text after lines, l = before ++ TextRun style text :: after /\ Forall not_in_flow (before ++ after) /\ 0 <= get style font_size /\
     text_lines (cb_inline_size cb - 0) (get style font_size) text lines /\
     length lines = length (fc_fragments fc) /\ Forall (line_of_height (get style font_size * (12 # 10))) (fc_fragments fc) /\
     fc_block_size fc == nat_Q (length lines) * (get style font_size * (12 # 10))).
Proof.
  intros o l cb rank acc fl coll fc acc' Hl H. rewrite bcl_inlines in H. destruct (inline_boxes_layout _ l _ acc) as [[s acc2]|] eqn:E; [|discriminate H].
  destruct Hl as [Hl|(before & style & text & after & El & Hl & P)].
  - apply out_of_flow_skipped in E; [|exact Hl]. subst s. unfold finish_line in H. cbn [ifc_lines ifc_current lb_boxes lb_next_position nl_max_block_size nl_fragments app] in H.
    injection H as <- <-. split; [reflexivity|]. left. split; [exact Hl|]. cbn [fc_fragments fc_block_size]. split; [reflexivity|]. split; [constructor; [reflexivity|constructor]|reflexivity].
  - assert (Hba := Hl). apply Forall_app in Hl as [Hb Ha]. rewrite El, inline_boxes_app in E.
    destruct (inline_boxes_layout _ before _ acc) as [[s1 acc1]|] eqn:E1; [|discriminate E]. apply out_of_flow_skipped in E1; [|exact Hb]. subst s1. cbn [inline_boxes_layout] in E.
    change (inline_level_box_layout glyph_id glyph_width o (TextRun style text) cb rank (mkIFC (mkLB [] 0) 0 [] (mkNL [] 0 0)) acc1) with
      (match text_run_layout glyph_id glyph_width cb style text (mkIFC (mkLB [] 0) 0 [] (mkNL [] 0 0)) with Some s => Some (s, acc1) | None => None end) in E.
    destruct (text_run_layout _ _ _ _ _ _) as [s1|] eqn:E2; [|discriminate E]. apply out_of_flow_skipped in E; [|exact Ha]. subst s1. unfold text_run_layout in E2.
    apply run_count in E2 as (lines & ls & H1 & H2 & H3 & H4 & H5 & H6 & H7); [|lra|reflexivity|reflexivity].
    unfold finish_line in H. injection H as <- <-. split; [reflexivity|]. right. exists before, style, text, after, lines. split; [exact El|]. split; [exact Hba|]. split; [exact P|].
    split; [exact H1|]. cbn [fc_fragments fc_block_size lb_boxes lb_next_position v_block]. cbn [ifc_lines lb_boxes app] in H3. rewrite H3.
    split; [rewrite app_length; cbn [length]; lia|]. split; [apply Forall_app; split; [exact H5|constructor; [exact H7|constructor]]|].
    rewrite H6, H7, H4, nat_Q_S. cbn [ifc_lines lb_next_position]. lra.
Qed.

Lemma one_text_same : forall before style text after before' style' text' after',
  before ++ TextRun style text :: after = before' ++ TextRun style' text' :: after' -> Forall not_in_flow (before ++ after) -> Forall not_in_flow (before' ++ after') ->
  style = style' /\ text = text'.
Proof.
  intros before style text after. induction before as [|b before IH]; intros before' style' text' after' E H H'; destruct before' as [|b' before']; cbn [app] in *.
  - injection E as -> -> _. split; reflexivity.
  - injection E as E _. apply Forall_cons_iff in H' as [H' _]. rewrite <- E in H'. contradiction.
  - injection E as E _. apply Forall_cons_iff in H as [H _]. rewrite E in H. contradiction.
  - injection E as _ E. apply Forall_cons_iff in H as [_ H]. apply Forall_cons_iff in H' as [_ H']. exact (IH _ _ _ _ E H H').
Qed.

(** ** Boxes *)
Hypothesis widths : forall g w, glyph_width g = Ok w -> 0 <= w.
Definition flow_higher (l l' : list fragment) : Prop :=
  blocks_higher l l' \/ exists h, (length l <= length l')%nat /\ 0 <= h /\ Forall (line_of_height h) (l ++ l').
Lemma inside_flow : forall l l' a a', flow_higher l l' -> inside_higher (l ++ a) (l' ++ a').
Proof. intros l l' a a' [H|(h & H1 & H2 & H3)]; [apply ih_blocks; exact H|exact (ih_lines h l l' a a' H1 H2 H3)]. Qed.
(** The contents of one box, laid out with more and with less room *)
Definition roomier (fc fc' : flow_children) : Prop :=
  fc_margins fc = fc_margins fc' /\ fc_block_size fc <= fc_block_size fc' /\ flow_higher (fc_fragments fc) (fc_fragments fc').
Definition same_margins (f f' : fragment) : Prop :=
  match f, f' with
  | FBox b _, FBox b' _ => bf_margins b = bf_margins b' /\ block_sum (bf_padding b) + block_sum (bf_border b) == block_sum (bf_padding b') + block_sum (bf_border b')
  | FBox _ _, _ | _, FBox _ _ => False
  | _, _ => True
  end.
Definition wider_block (f f' : fragment) : Prop := higher f f' /\ same_margins f f'.
Definition wider_cb (cb cb' : containing_block) : Prop := cb_inline_size cb' <= cb_inline_size cb /\ cb_block_size cb = cb_block_size cb'.

Lemma text_roomier : forall o o' l cb cb' rank rank' acc acc' fl fl' coll coll' fc fc' acc2 acc2', one_text l -> wider_cb cb cb' ->
  bcl o (InlineFormattingContext l) cb rank acc fl coll = Some (fc, acc2) -> bcl o' (InlineFormattingContext l) cb' rank' acc' fl' coll' = Some (fc', acc2') -> roomier fc fc'.
Proof.
  intros o o' l cb cb' rank rank' acc acc' fl fl' coll coll' fc fc' acc2 acc2' Hl [W _] H H'.
  apply (text_container _ _ _ _ _ _ _ _ _ Hl) in H as [M H]. apply (text_container _ _ _ _ _ _ _ _ _ Hl) in H' as [M' H']. split; [congruence|].
  assert (No : forall before style text after, l = before ++ TextRun style text :: after -> Forall not_in_flow l -> False).
  { intros before style text after -> X. apply Forall_app in X as [_ X]. apply Forall_cons_iff in X as [X _]. contradiction. }
  destruct H as [(N & L & A & Z)|(before & style & text & after & lines & E & N & P & T & L & A & Z)], H' as [(N' & L' & A' & Z')|(before' & style' & text' & after' & lines' & E' & N' & P' & T' & L' & A' & Z')].
  - split; [lra|]. right. exists 0. split; [lia|]. split; [lra|]. apply Forall_app. split; assumption.
  - exfalso. exact (No _ _ _ _ E' N).
  - exfalso. exact (No _ _ _ _ E N').
  - rewrite E in E'. destruct (one_text_same _ _ _ _ _ _ _ _ E' N N') as [<- <-].
    assert (W' : cb_inline_size cb' - 0 <= cb_inline_size cb - 0) by lra.
    pose proof (no_more_lines glyph_id glyph_width widths _ _ _ _ _ _ _ P W' (Qle_refl _) T T') as LL.
    split; [rewrite Z, Z'; apply Qmult_le_compat_r; [apply nat_Q_mono; exact LL|lra]|]. right. exists (get style font_size * (12 # 10)). split; [lia|]. split; [lra|]. apply Forall_app. split; assumption.
Qed.

(** *** Placing children *)
Definition wider_state (s s' : placement_state) : Prop :=
  next_collapses_with_parent_start s = next_collapses_with_parent_start s' /\ start_margin s = start_margin s' /\ current_margin s = current_margin s' /\
  current_position s <= current_position s'.
Lemma higher_moved : forall b c b' c' d d', d <= d' -> wider_block (FBox b c) (FBox b' c') ->
  wider_block (FBox (with_content_rect b (move_block (bf_content_rect b) d)) c) (FBox (with_content_rect b' (move_block (bf_content_rect b') d')) c').
Proof.
  intros b c b' c' d d' D [H S]. split; [|exact S]. inversion H as [b0 c0 b1 c1 H1 H2 H3 H4 H5|]; subst. apply hi_box; [|exact H2|exact H3|exact H4|exact H5].
  unfold content_top in *. cbn [with_content_rect bf_content_rect move_block start_corner v_block]. lra.
Qed.
Lemma place_wider : forall f f' s s' g t g' t', wider_block f f' -> wider_state s s' ->
  place_block_level_fragment f s = Some (g, t) -> place_block_level_fragment f' s' = Some (g', t') -> wider_block g g' /\ wider_state t t'.
Proof.
  intros f f' s s' g t g' t' W Hs H H'. destruct Hs as (S1 & S2 & S3 & S4). destruct W as [Hh Sm]. destruct f as [b c|r mode c|]; destruct f' as [b' c'|r' mode' c'|]; try (inversion Hh; fail); try contradiction.
  - destruct Sm as [Sm Sp].
    assert (Hz : v_block (size (bf_content_rect b)) <= v_block (size (bf_content_rect b'))) by (inversion Hh; assumption).
    assert (W : wider_block (FBox b c) (FBox b' c')) by (split; [exact Hh|split; assumption]).
    cbn [place_block_level_fragment] in H, H'. rewrite <- Sm, <- S1, <- S2, <- S3 in H'. clear Hh.
    destruct (next_collapses_with_parent_start s).
    + destruct (Qeq_bool (solve (current_margin s)) 0); [|discriminate H]. destruct (collapsed_through (bf_margins b)).
      * injection H as <- <-. injection H' as <- <-. split; [exact W|]. repeat split; assumption.
      * injection H as <- <-. injection H' as <- <-. cbn [current_margin current_position]. split; [apply higher_moved; [lra|exact W]|].
        repeat split. cbn [current_position]. lra.
    + cbn [next_collapses_with_parent_start start_margin current_margin current_position] in H, H'. destruct (collapsed_through (bf_margins b)).
      * injection H as <- <-. injection H' as <- <-. split; [apply higher_moved; [lra|exact W]|]. repeat split. exact S4.
      * injection H as <- <-. injection H' as <- <-. split; [apply higher_moved; [lra|exact W]|]. repeat split. cbn [current_position]. lra.
  - inversion Hh as [|r0 m0 r1 m1 Hr]; subst. cbn [place_block_level_fragment] in H, H'.
    destruct (Qeq_bool (v_block (size r)) 0); [|discriminate H]. destruct (Qeq_bool (v_block (size r')) 0); [|discriminate H']. injection H as <- <-. injection H' as <- <-.
    split; [|repeat split; assumption]. split; [|exact I]. apply hi_place. cbn [move_block start_corner v_block]. lra.
Qed.
Lemma place_all_wider : forall l l', Forall2 wider_block l l' -> forall s s' g t g' t', wider_state s s' ->
  place_all l s = Some (g, t) -> place_all l' s' = Some (g', t') -> blocks_higher g g' /\ wider_state t t'.
Proof.
  intros l l' F. induction F as [|f f' l l' Hf F IH]; intros s s' g t g' t' Hs H H'; cbn [place_all] in H, H'.
  - injection H as <- <-. injection H' as <- <-. split; [constructor|exact Hs].
  - destruct (place_block_level_fragment f s) as [[f1 s1]|] eqn:E; [|discriminate H]. destruct (place_block_level_fragment f' s') as [[f1' s1']|] eqn:E'; [|discriminate H'].
    destruct (place_wider _ _ _ _ _ _ _ _ Hf Hs E E') as [W1 W2].
    destruct (place_all l s1) as [[r1 s2]|] eqn:R; [|discriminate H]. destruct (place_all l' s1') as [[r1' s2']|] eqn:R'; [|discriminate H'].
    injection H as <- <-. injection H' as <- <-. destruct (IH _ _ _ _ _ _ W2 R R') as [I1 I2]. split; [constructor; [exact (proj1 W1)|exact I1]|exact I2].
Qed.
Definition made_by {B} (lay : nat -> B -> list abspos_fragment -> option (fragment * list abspos_fragment)) (b : B) (f : fragment) : Prop :=
  exists i acc acc', lay i b acc = Some (f, acc').
Lemma run_made : forall B (lay : nat -> B -> list abspos_fragment -> option (fragment * list abspos_fragment)) l i acc fs acc',
  run_tasks i (map (fun b i acc => lay i b acc) l) acc = Some (fs, acc') -> Forall2 (made_by lay) l fs.
Proof.
  intros B lay l. induction l as [|b l IH]; intros i acc fs acc' H; cbn [map run_tasks] in H; [injection H as <- <-; constructor|].
  destruct (lay i b acc) as [[f acc1]|] eqn:E; [|discriminate H]. destruct (run_tasks _ _ acc1) as [[fs1 acc2]|] eqn:E2; [|discriminate H]. injection H as <- <-.
  constructor; [exists i, acc, acc1; exact E|exact (IH _ _ _ _ E2)].
Qed.
Lemma mapfold_made : forall B (lay : nat -> B -> list abspos_fragment -> option (fragment * list abspos_fragment)) t l i acc fs acc',
  mapfold_reduce_into t i (map (fun b i acc => lay i b acc) l) acc = Some (fs, acc') -> Forall2 (made_by lay) l fs.
Proof.
  intros B lay t. induction t as [|n t1 IH1 t2 IH2]; intros l i acc fs acc' H; cbn [mapfold_reduce_into] in H; [exact (run_made _ _ _ _ _ _ _ H)|].
  rewrite firstn_map, skipn_map in H. destruct (mapfold_reduce_into t1 _ _ _) as [[fs1 acc1]|] eqn:E1; [|discriminate H]. destruct (mapfold_reduce_into t2 _ _ _) as [[fs2 acc2]|] eqn:E2; [|discriminate H].
  injection H as <- <-. rewrite <- (firstn_skipn n l). apply Forall2_app; [exact (IH1 _ _ _ _ _ E1)|exact (IH2 _ _ _ _ _ E2)].
Qed.
Lemma layout_and_place_made : forall B (lay : nat -> B -> list abspos_fragment -> option (fragment * list abspos_fragment)) l i acc s fs acc' s',
  layout_and_place lay i l acc s = Some (fs, acc', s') -> exists gs, Forall2 (made_by lay) l gs /\ place_all gs s = Some (fs, s').
Proof.
  intros B lay l. induction l as [|b l IH]; intros i acc s fs acc' s' H; cbn [layout_and_place] in H; [injection H as <- <- <-; exists []; split; [constructor|reflexivity]|].
  destruct (lay i b acc) as [[f acc1]|] eqn:E; [|discriminate H]. destruct (place_block_level_fragment f s) as [[f1 s1]|] eqn:E1; [|discriminate H].
  destruct (layout_and_place lay (S i) l acc1 s1) as [[[fs1 acc2] s2]|] eqn:E2; [|discriminate H]. injection H as <- <- <-. destruct (IH _ _ _ _ _ _ E2) as (gs & G1 & G2).
  exists (f :: gs). split; [constructor; [exists i, acc, acc1; exact E|exact G1]|]. cbn [place_all]. rewrite E1, G2. reflexivity.
Qed.
Lemma children_made : forall B (lay : nat -> B -> list abspos_fragment -> option (fragment * list abspos_fragment)) t l rank acc fl coll fc acc',
  layout_block_level_children lay t l rank acc fl coll = Some (fc, acc') ->
  exists gs s, Forall2 (made_by lay) l gs /\ place_all gs (mkPS coll cm_zero cm_zero 0) = Some (fc_fragments fc, s) /\
    fc_block_size fc = current_position s /\ fc_margins fc = mkCBM (next_collapses_with_parent_start s) (start_margin s) (current_margin s).
Proof.
  intros B lay t l rank acc fl coll fc acc' H. unfold layout_block_level_children in H. destruct fl.
  - destruct (layout_and_place _ _ _ _ _) as [[[fs acc1] s]|] eqn:E; [|discriminate H]. apply layout_and_place_made in E as (gs & G1 & G2).
    destruct (adjust_static_positions _ _ _) as [adj|]; [|discriminate H]. injection H as <- <-. exists gs, s. split; [exact G1|]. split; [exact G2|]. split; reflexivity.
  - destruct (mapfold_reduce_into _ _ _ _) as [[gs acc1]|] eqn:E; [|discriminate H]. apply mapfold_made in E. destruct (place_all gs _) as [[fs s]|] eqn:P; [|discriminate H].
    destruct (adjust_static_positions _ _ _) as [adj|]; [|discriminate H]. injection H as <- <-. exists gs, s. split; [exact E|]. split; [exact P|]. split; reflexivity.
Qed.

(** *** Blocks *)
Definition inner_width (style : computed_values) (w : Q) : Q :=
  auto_is (lpa_relative_to (get style width) w)
    (w - inline_sum (sadd (lp_sides_relative_to (style_padding style) w) (lp_sides_relative_to (style_border_width style) w)) -
     inline_sum (sides_auto_is (lpa_sides_relative_to (style_margin style) w) 0)).
Definition own_height (style : computed_values) (h : length_or_auto) : length_or_auto :=
  match get style height with LpaLength l => Length l | LpaPercentage p => loa_map (fun q => q * p) h | LpaAuto => Auto end.
Definition margins_made (sc ec : bool) (top bottom : Q) (m : collapsed_block_margins) : collapsed_block_margins :=
  mkCBM (sc && ec && collapsed_through m)
    (if sc then if collapsed_through m then adjoin (adjoin (cm_new top) (cm_start m)) (cm_end m) else adjoin (cm_new top) (cm_start m) else cm_new top)
    (if ec then adjoin (cm_new bottom) (if sc && collapsed_through m then cm_zero else cm_end m) else cm_new bottom).
Definition height_made (sc ec : bool) (m : collapsed_block_margins) (size_ : Q) : Q :=
  if ec then size_ else size_ + solve (if sc && collapsed_through m then cm_zero else cm_end m).
Lemma in_flow_shape : forall cb acc style kind lc f acc',
  layout_in_flow_non_replaced_block_level cb acc style kind lc = Some (f, acc') ->
  let w := cb_inline_size cb in let h := own_height style (cb_block_size cb) in
  let P := lp_sides_relative_to (style_padding style) w in let B := lp_sides_relative_to (style_border_width style) w in
  let sc := is_same kind && Qeq_bool (block_start P + block_start B) 0 in
  let ec := is_same kind && Qeq_bool (block_end P + block_end B) 0 && (match h with Auto => true | Length _ => false end) in
  exists fc acc1 acc2 extra ic mi mj,
    let top := auto_is (lpa_relative_to (get style margin_top) w) 0 in let bottom := auto_is (lpa_relative_to (get style margin_bottom) w) 0 in
    lc (mkCB (inner_width style w) h (HorizontalTb, Ltr)) acc1 sc = Some (fc, acc2) /\
    f = FBox (mkBoxFragment style (mkRect (mkVec ic (block_start P + block_start B + v_block (relative_adjustement style (inner_width style w) h)))
                (mkVec (inner_width style w) (auto_is h (height_made sc ec (fc_margins fc) (fc_block_size fc)))))
             P B (mkSides mi mj top bottom) (margins_made sc ec top bottom (fc_margins fc))) (fc_fragments fc ++ extra).
Proof.
  intros cb acc style kind lc f acc' H w h P B sc ec. unfold layout_in_flow_non_replaced_block_level in H. fold w in H. fold P in H. fold B in H.
  set (cm := match lpa_relative_to (v_inline (box_size style)) w with Length _ => _ | Auto => _ end) in H.
  assert (Eh : match v_block (box_size style) with LpaLength l => Length l | LpaPercentage p => loa_map (fun cbbs => cbbs * p) (cb_block_size cb) | LpaAuto => Auto end = h) by reflexivity.
  rewrite Eh in H. set (M := sides_auto_is cm 0) in H.
  assert (Mt : block_start M = auto_is (lpa_relative_to (get style margin_top) w) 0 /\ block_end M = auto_is (lpa_relative_to (get style margin_bottom) w) 0).
  { unfold M, cm. destruct (lpa_relative_to (v_inline (box_size style)) w); [|split; reflexivity]. unfold solve_inline_margins.
    destruct (inline_start (lpa_sides_relative_to (style_margin style) w)), (inline_end (lpa_sides_relative_to (style_margin style) w)); split; reflexivity. }
  assert (Ew : auto_is (lpa_relative_to (v_inline (box_size style)) w) (w - inline_sum (sadd P B) - inline_sum M) = inner_width style w).
  { unfold inner_width. change (v_inline (box_size style)) with (get style width). fold P B. unfold M, cm. change (v_inline (box_size style)) with (get style width).
    destruct (lpa_relative_to (get style width) w); reflexivity. }
  rewrite Ew in H. destruct Mt as [Mt Mb]. clearbody M. clear cm Ew Eh. set (iw := inner_width style w) in *. clearbody iw.
  cbn [cb_mode] in H. destruct (wmode_eqb _ _) in H; [|discriminate H].
  change (block_start (sadd P B)) with (block_start P + block_start B) in H. change (block_end (sadd P B)) with (block_end P + block_end B) in H.
  fold sc in H. fold ec in H.
  change (style_writing_mode style) with (HorizontalTb, Ltr) in H. set (relative := is_relatively_positioned (get style position_)) in H.
  set (acc1 := if relative then [] else acc) in H.
  destruct (lc _ acc1 sc) as [[fc acc2]|] eqn:El; [|discriminate H].
  destruct M as [mi mj mt mb]. cbn [block_start block_end] in Mt, Mb. subst mt mb. cbn [cbm_from_margin cm_start cm_end block_start block_end] in H.
  set (top := auto_is (lpa_relative_to (get style margin_top) w) 0) in *. set (bottom := auto_is (lpa_relative_to (get style margin_bottom) w) 0) in *.
  assert (K : exists kids acc3, f = FBox (mkBoxFragment style (mkRect (mkVec (inline_start (sadd P B) + v_inline (relative_adjustement style iw h) + mi)
                  (block_start P + block_start B + v_block (relative_adjustement style iw h)))
                (mkVec iw (auto_is h (height_made sc ec (fc_margins fc) (fc_block_size fc)))))
             P B (mkSides mi mj top bottom) (margins_made sc ec top bottom (fc_margins fc))) kids /\ acc3 = acc' /\ exists extra, kids = fc_fragments fc ++ extra).
  { destruct (fc_margins fc) as [ct ms me]. cbn [collapsed_through cm_start cm_end] in H.
    assert (F : forall sz ml, (match (if relative then in_positioned_containing_block (fun cb a => abspos_layout a cb) acc2 (fc_fragments fc) sz P (HorizontalTb, Ltr) else Some (fc_fragments fc)) with
       | Some children => Some (FBox ml children, if relative then acc else acc2) | None => None end) = Some (f, acc') -> exists kids, f = FBox ml kids /\ exists extra, kids = fc_fragments fc ++ extra).
    { intros sz ml X. destruct relative.
      - unfold in_positioned_containing_block in X. destruct acc2 as [|a acc2].
        + injection X as <- _. exists (fc_fragments fc). split; [reflexivity|]. exists []. rewrite app_nil_r. reflexivity.
        + destruct (map_option _ _) as [ch|]; [|discriminate X]. injection X as <- _. eexists. split; [reflexivity|]. eexists. reflexivity.
      - injection X as <- _. exists (fc_fragments fc). split; [reflexivity|]. exists []. rewrite app_nil_r. reflexivity. }
    unfold margins_made, height_made. cbn [collapsed_through cm_start cm_end].
    destruct sc, ec, ct; cbn [andb collapsed_through cm_start cm_end] in H |- *; apply F in H as (kids & -> & K); exists kids, acc'; (split; [reflexivity|split; [reflexivity|exact K]]). }
  destruct K as (kids & acc3 & Kf & _ & extra & ->). exists fc, acc1, acc2, extra, (inline_start (sadd P B) + v_inline (relative_adjustement style iw h) + mi), mi, mj.
  split; [exact El|exact Kf].
Qed.
Lemma fixed_same : forall l w w', fixed l -> lp_relative_to l w = lp_relative_to l w'.
Proof. intros [q|p] w w' H; [reflexivity|contradiction]. Qed.
Lemma fixed_auto_same : forall l w w', fixed_or_auto l -> lpa_relative_to l w = lpa_relative_to l w'.
Proof. intros [q|p|] w w' H; [reflexivity|contradiction|reflexivity]. Qed.
Lemma steady_shape : forall cb cb' acc acc2 style kind lc lc' f f' acc' acc2', steady_style style -> wider_cb cb cb' ->
  (forall cb1 cb1' a a' c fc fc' b b', wider_cb cb1 cb1' -> lc cb1 a c = Some (fc, b) -> lc' cb1' a' c = Some (fc', b') -> roomier fc fc') ->
  layout_in_flow_non_replaced_block_level cb acc style kind lc = Some (f, acc') ->
  layout_in_flow_non_replaced_block_level cb' acc2 style kind lc' = Some (f', acc2') -> wider_block f f'.
Proof.
  intros cb cb' acc acc2 style kind lc lc' f f' acc' acc2' (SP & SB & SM & SW) [W Hh] HL H H'. apply in_flow_shape in H, H'.
  rewrite !Forall_cons_iff in SP, SB, SM. destruct SP as (p1 & p2 & p3 & p4 & _). destruct SB as (b1 & b2 & b3 & b4 & _). destruct SM as (m1 & m2 & m3 & m4 & _).
  rewrite <- Hh in H'. set (h := own_height style (cb_block_size cb)) in *.
  set (w := cb_inline_size cb) in *. set (w' := cb_inline_size cb') in *.
  assert (EP : lp_sides_relative_to (style_padding style) w' = lp_sides_relative_to (style_padding style) w).
  { unfold lp_sides_relative_to, smap, style_padding. cbn [to_flow_relative style_writing_mode inline_start inline_end block_start block_end].
    f_equal; apply fixed_same; assumption. }
  assert (EB : lp_sides_relative_to (style_border_width style) w' = lp_sides_relative_to (style_border_width style) w).
  { unfold lp_sides_relative_to, smap, style_border_width. cbn [to_flow_relative style_writing_mode inline_start inline_end block_start block_end]. f_equal; apply fixed_same; assumption. }
  assert (EM : lpa_sides_relative_to (style_margin style) w' = lpa_sides_relative_to (style_margin style) w).
  { unfold lpa_sides_relative_to, smap, style_margin. cbn [to_flow_relative style_writing_mode inline_start inline_end block_start block_end]. f_equal; apply fixed_auto_same; assumption. }
  assert (EW : inner_width style w' <= inner_width style w).
  { unfold inner_width. rewrite EP, EB, EM. destruct (get style width) as [q|p|]; cbn [lpa_relative_to auto_is not_negative_part] in *; [lra| |lra].
    apply Qmult_le_compat_r; assumption. }
  assert (ER : v_block (relative_adjustement style (inner_width style w') h) = v_block (relative_adjustement style (inner_width style w) h)).
  { unfold relative_adjustement. destruct (is_relatively_positioned _); reflexivity. }
  rewrite EP, EB, ER, (fixed_auto_same (get style margin_top) w' w m1), (fixed_auto_same (get style margin_bottom) w' w m3) in H'.
  set (P := lp_sides_relative_to (style_padding style) w) in *. set (B := lp_sides_relative_to (style_border_width style) w) in *.
  set (sc := is_same kind && Qeq_bool (block_start P + block_start B) 0) in *. set (ec := is_same kind && _ && _) in *.
  destruct H as (fc & a1 & a2 & extra & ic & mi & mj & Hl & ->). destruct H' as (fc' & a1' & a2' & extra' & ic' & mi' & mj' & Hl' & ->).
  assert (Wc : wider_cb (mkCB (inner_width style w) h (HorizontalTb, Ltr)) (mkCB (inner_width style w') h (HorizontalTb, Ltr))) by (split; [exact EW|reflexivity]).
  destruct (HL _ _ _ _ _ _ _ _ _ Wc Hl Hl') as (R1 & R2 & R3). rewrite <- R1. split; [|split; reflexivity].
  apply hi_box; [apply Qle_refl| |reflexivity|reflexivity|apply inside_flow; exact R3].
  unfold content_height. cbn [bf_content_rect size v_block]. unfold height_made. destruct h; cbn [auto_is]; [apply Qle_refl|]. destruct ec; [exact R2|lra].
Qed.

Notation Pc := (fun c => forall o o' cb cb' rank rank' acc acc2 fl fl' coll fc fc' acc' acc2', steady c -> wider_cb cb cb' ->
  bcl o c cb rank acc fl coll = Some (fc, acc') -> bcl o' c cb' rank' acc2 fl' coll = Some (fc', acc2') -> roomier fc fc').
Notation Pb := (fun b => forall o o' cb cb' rank rank' acc acc2 fl fl' f f' acc' acc2', steady_block b -> wider_cb cb cb' ->
  bll o b cb rank acc fl = Some (f, acc') -> bll o' b cb' rank' acc2 fl' = Some (f', acc2') -> wider_block f f').
Notation Pf := (fun b => match b with BFC c fl0 => forall o o' cb cb' rank rank' acc acc2 fc fc' acc' acc2', steady c -> wider_cb cb cb' ->
  fcl o (BFC c fl0) cb rank acc = Some (fc, acc') -> fcl o' (BFC c fl0) cb' rank' acc2 = Some (fc', acc2') -> roomier fc fc' end).
Lemma made_wider : forall B (lay lay' : nat -> B -> list abspos_fragment -> option (fragment * list abspos_fragment)) l,
  (forall b i i' a a' f f' c c', In b l -> lay i b a = Some (f, c) -> lay' i' b a' = Some (f', c') -> wider_block f f') ->
  forall gs gs', Forall2 (made_by lay) l gs -> Forall2 (made_by lay') l gs' -> Forall2 wider_block gs gs'.
Proof.
  intros B lay lay' l. induction l as [|b l IH]; intros Hb gs gs' H H'; inversion H as [|? g ? gs1 (i & a & c & Hi) H1]; subst; inversion H' as [|? g' ? gs1' (i' & a' & c' & Hi') H1']; subst; constructor.
  - exact (Hb _ _ _ _ _ _ _ _ _ (or_introl eq_refl) Hi Hi').
  - apply IH; [|assumption..]. intros b0 j j' a0 a0' f f' d d' Hin. apply Hb. right. exact Hin.
Qed.
Lemma wider : (forall c, Pc c) /\ (forall b, Pb b) /\ (forall b, Pf b) /\ (forall b : inline_level_box, True).
Proof.
  apply (boxes_ind Pc Pb Pf (fun _ => True)); try (intros; exact I).
  - (* blocks *) intros l HF o o' cb cb' rank rank' acc acc2 fl fl' coll fc fc' acc' acc2' S W H H'. inversion S as [l0 Sl|]; subst. rewrite bcl_blocks in H, H'.
    apply children_made in H as (gs & s & G1 & G2 & G3 & G4). apply children_made in H' as (gs' & s' & G1' & G2' & G3' & G4').
    assert (F : Forall2 wider_block gs gs').
    { refine (made_wider _ _ _ l _ gs gs' G1 G1'). intros b i i' a a' f f' c c' Hin E E'. rewrite Forall_forall in HF, Sl. exact (HF b Hin _ _ _ _ _ _ _ _ _ _ _ _ _ _ (Sl b Hin) W E E'). }
    assert (Ws : wider_state (mkPS coll cm_zero cm_zero 0) (mkPS coll cm_zero cm_zero 0)) by (repeat split; apply Qle_refl).
    destruct (place_all_wider _ _ F _ _ _ _ _ _ Ws G2 G2') as [B1 (T1 & T2 & T3 & T4)].
    split; [rewrite G4, G4', T1, T2, T3; reflexivity|]. split; [rewrite G3, G3'; exact T4|left; exact B1].
  - (* lines *) intros l _ o o' cb cb' rank rank' acc acc2 fl fl' coll fc fc' acc' acc2' S W H H'. inversion S as [|l0 Sl]; subst. exact (text_roomier _ _ _ _ _ _ _ _ _ _ _ _ _ _ _ _ _ Sl W H H').
  - intros style c IH o o' cb cb' rank rank' acc acc2 fl fl' f f' acc' acc2' S W H H'. inversion S as [s0 c0 Ss Sc| | |]; subst. rewrite bll_same in H, H'.
    refine (steady_shape _ _ _ _ _ _ _ _ _ _ _ _ Ss W _ H H'). intros cb1 cb1' a a' coll fc fc' b b' W1 E E'. exact (IH _ _ _ _ _ _ _ _ _ _ _ _ _ _ _ Sc W1 E E').
  - intros style contents _ o o' cb cb' rank rank' acc acc2 fl fl' f f' acc' acc2' S W H H'. cbn [block_level_box_layout] in H, H'. injection H as <- _. injection H' as <- _.
    split; [|exact I]. apply hi_place. apply Qle_refl.
  - intros style contents _ o o' cb cb' rank rank' acc acc2 fl fl' f f' acc' acc2' S W H H'. cbn [block_level_box_layout] in H, H'. injection H as <- _. injection H' as <- _.
    split; [|exact I]. apply hi_place. apply Qle_refl.
  - intros style contents IH o o' cb cb' rank rank' acc acc2 fl fl' f f' acc' acc2' S W H H'. inversion S as [|s0 c0 fl0 Ss Sc| |]; subst. rewrite bll_independent in H, H'.
    refine (steady_shape _ _ _ _ _ _ _ _ _ _ _ _ Ss W _ H H'). intros cb1 cb1' a a' coll fc fc' b b' W1 E E'. exact (IH _ _ _ _ _ _ _ _ _ _ _ _ Sc W1 E E').
  - intros c fl0 IH o o' cb cb' rank rank' acc acc2 fc fc' acc' acc2' S W H H'. rewrite fcl_bfc in H, H'.
    destruct (bcl o c cb rank acc fl0 false) as [[fc1 acc1]|] eqn:E; [|discriminate H]. destruct (bcl o' c cb' rank' acc2 fl0 false) as [[fc1' acc1']|] eqn:E'; [|discriminate H'].
    injection H as <- _. injection H' as <- _. destruct (IH _ _ _ _ _ _ _ _ _ _ _ _ _ _ _ S W E E') as (R1 & R2 & R3). split; [cbn [fc_margins]; rewrite R1; reflexivity|].
    split; [cbn [fc_block_size]; rewrite R1; lra|exact R3].
Qed.
End Heights.
