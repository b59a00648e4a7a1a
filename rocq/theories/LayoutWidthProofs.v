(** Proofs about the inline axis of block-level boxes. *)
From Coq Require Import QArith Qminmax Lqa.
From Verif Require Import Base Dom StyleValues StyleProperties PdfConvert Geom Text LayoutTree Layout LayoutSpec LayoutProofs LayoutBlockProofs InlineBoxProofs.
Local Open Scope Q_scope.

(** Placement changes nothing but the position in the block axis. *)
Definition moved (f f' : fragment) : Prop :=
  match f, f' with
  | FBox b c, FBox b' c' =>
      c = c' /\ bf_style b = bf_style b' /\ bf_padding b = bf_padding b' /\ bf_border b = bf_border b' /\ bf_margin b = bf_margin b' /\
      size (bf_content_rect b) = size (bf_content_rect b') /\ content_left b = content_left b'
  | FAnonymous r m c, FAnonymous r' m' c' =>
      m = m' /\ c = c' /\ size r = size r' /\ v_inline (start_corner r) = v_inline (start_corner r')
  | _, _ => False
  end.
Lemma place_moved : forall f s f' s', place_block_level_fragment f s = Some (f', s') -> moved f f'.
Proof.
  intros f s f' s' H. destruct f as [b c|r m c|]; cbn [place_block_level_fragment] in H; [| |discriminate H].
  - assert (K : forall r, moved (FBox b c) (FBox (with_content_rect b (move_block (bf_content_rect b) r)) c)).
    { intros r. cbn. repeat (split; [reflexivity|]). reflexivity. }
    assert (K0 : moved (FBox b c) (FBox b c)) by (cbn; repeat (split; [reflexivity|]); reflexivity).
    destruct (next_collapses_with_parent_start s); [destruct (Qeq_bool _ 0); [|discriminate H]|];
      destruct (collapsed_through (bf_margins b)); injection H as <- _; first [exact K0|apply K].
  - destruct c; [|discriminate H]. destruct (Qeq_bool _ 0); [|discriminate H]. injection H as <- _.
    cbn. repeat (split; [reflexivity|]). reflexivity.
Qed.
Lemma place_all_moved : forall l s l' s', place_all l s = Some (l', s') -> Forall2 moved l l'.
Proof.
  induction l as [|f l IH]; intros s l' s' H; cbn [place_all] in H.
  - injection H as <- _. constructor.
  - destruct (place_block_level_fragment f s) as [[f1 s1]|] eqn:E; [|discriminate H].
    destruct (place_all l s1) as [[l1 s2]|] eqn:E1; [|discriminate H]. injection H as <- _.
    constructor; [eapply place_moved; exact E|eapply IH; exact E1].
Qed.

Lemma in_flow_width_moved : forall w style b b', in_flow_width w style b ->
  bf_style b = bf_style b' -> bf_padding b = bf_padding b' -> bf_border b = bf_border b' -> bf_margin b = bf_margin b' ->
  size (bf_content_rect b) = size (bf_content_rect b') -> content_left b = content_left b' -> in_flow_width w style b'.
Proof.
  intros w style b b' H E1 E2 E3 E4 E5 E6. inversion H; subst. econstructor.
  - symmetry; exact E1.
  - unfold edges_ok in *. rewrite <- E1, <- E2, <- E3, <- E4. assumption.
  - unfold widths_ok, content_width in *. rewrite <- E1, <- E4, <- E5. assumption.
  - unfold total_width, content_width in *. rewrite <- E2, <- E3, <- E4, <- E5. assumption.
  - eassumption.
  - rewrite <- E6, <- E2, <- E3, <- E4. assumption.
Qed.
Lemma smap_start : forall A B (f : A -> B) s, inline_start (smap f s) = f (inline_start s).
Proof. reflexivity. Qed.
Lemma smap_end : forall A B (f : A -> B) s, inline_end (smap f s) = f (inline_end s).
Proof. reflexivity. Qed.

Section Font.
Variable glyph_id : N -> res font_error N.
Variable glyph_width : N -> res font_error Q.
Notation bcl := (block_container_layout glyph_id glyph_width).
Notation bll := (block_level_box_layout glyph_id glyph_width).
Notation fcl := (bfc_layout glyph_id glyph_width).
Notation in_width_block := (in_width_block glyph_id glyph_width).
Notation in_width_children := (in_width_children glyph_id glyph_width).
Notation in_width_container := (in_width_container glyph_id glyph_width).

Lemma in_width_moved : forall w bx f f', moved f f' -> in_width_block w bx f -> in_width_block w bx f'.
Proof.
  intros w bx f f' Hm H. destruct f as [b c|r m c|], f' as [b' c'|r' m' c'|]; cbn [moved] in Hm; try contradiction.
  - destruct Hm as (-> & E1 & E2 & E3 & E4 & E5 & E6). inversion H; subst.
    + constructor; [eapply in_flow_width_moved; eassumption|assumption|]. unfold content_width in *. rewrite <- E5. assumption.
    + constructor; [eapply in_flow_width_moved; eassumption|assumption|]. unfold content_width in *. rewrite <- E5. assumption.
  - destruct Hm as (-> & -> & E1 & E2). inversion H; subst; constructor; rewrite <- ?E1, <- ?E2; assumption.
Qed.


Lemma children_width : forall w l frs, Forall2 (in_width_block w) l frs -> in_width_children w l frs.
Proof. intros w l frs H. induction H; constructor; assumption. Qed.
Lemma blocks_width : forall w lay t l rank acc fl (coll : bool) fc acc',
  (forall b, In b l -> forall i acc f acc', lay i b acc = Some (f, acc') -> in_width_block w b f) ->
  layout_block_level_children lay t l rank acc fl coll = Some (fc, acc') ->
  in_width_container w (BlockLevelBoxes l) (fc_fragments fc).
Proof.
  intros w lay t l rank acc fl coll fc acc' HP H. unfold layout_block_level_children in H.
  set (s0 := mkPS coll cm_zero cm_zero 0) in H.
  assert (E : exists fs s1, Forall2 (in_width_block w) l fs /\ place_all fs s0 = Some (fc_fragments fc, s1)).
  { destruct fl.
    - rewrite layout_and_place_same in H. destruct (layout_each lay 0 l acc) as [[fs acc1]|] eqn:Ele; [|discriminate H].
      destruct (place_all fs s0) as [[frs s1]|] eqn:Epl; [|discriminate H].
      destruct (adjust_static_positions (skipn (Datatypes.length acc) acc1) frs rank) as [adj|]; [|discriminate H].
      injection H as <- _. exists fs, s1. split; [|exact Epl].
      exact (layout_each_forall _ lay (in_width_block w) l 0 acc fs acc1 HP Ele).
    - destruct (mapfold_reduce_into t 0 (map (fun b i acc => lay i b acc) l) acc) as [[fs acc1]|] eqn:Ele; [|discriminate H].
      destruct (place_all fs s0) as [[frs s1]|] eqn:Epl; [|discriminate H].
      destruct (adjust_static_positions (skipn (Datatypes.length acc) acc1) frs rank) as [adj|]; [|discriminate H].
      injection H as <- _. exists fs, s1. split; [|exact Epl].
      exact (mapfold_forall _ lay (in_width_block w) t l 0 acc fs acc1 HP Ele). }
  destruct E as (fs & s1 & HF & E2). constructor. apply children_width.
  pose proof (place_all_moved fs s0 _ s1 E2) as HM.
  clear - HF HM. revert fs HF HM. generalize (fc_fragments fc) as frs. intros frs fs HF. revert frs.
  induction HF; intros frs HM; inversion HM; subst; constructor.
  - eapply in_width_moved; eassumption.
  - apply IHHF. assumption.
Qed.

(** Line boxes are as wide as the containing block. *)
Definition line_of (w : Q) (f : fragment) : Prop :=
  exists r mode children, f = FAnonymous r mode children /\ v_inline (start_corner r) == 0 /\ v_inline (size r) == w.
Definition widths_state_ok (w : Q) (lb : lines_boxes) : Prop := forall f, In f (lb_boxes lb) -> line_of w f.
Lemma finish_line_width : forall lb nl cb, widths_state_ok (cb_inline_size cb) lb ->
  widths_state_ok (cb_inline_size cb) (fst (finish_line lb nl cb)).
Proof.
  intros lb nl cb H f Hf. unfold finish_line in Hf. cbn [fst lb_boxes] in Hf. apply in_app_or in Hf as [Hf|[<-|[]]]; [apply H; exact Hf|].
  eexists. eexists. eexists. split; [reflexivity|split; reflexivity].
Qed.
Lemma break_levels_width : forall cb stack nl pos lb nl' st' lb',
  widths_state_ok (cb_inline_size cb) lb -> break_levels cb stack nl pos lb = (nl', st', lb') -> widths_state_ok (cb_inline_size cb) lb'.
Proof.
  intros cb. induction stack as [|p stack IH]; intros nl pos lb nl' st' lb' Hl H; cbn [break_levels] in H.
  - pose proof (finish_line_width lb nl cb Hl) as K. destruct (finish_line lb nl cb) as [lb1 nl1]. injection H as _ _ <-. exact K.
  - destruct (finish_layout p nl pos true) as [[p1 nl1] pos1].
    destruct (break_levels cb stack (pi_parent (after_break p1)) pos1 lb) as [[par rest] lb1] eqn:E.
    injection H as _ _ <-. eapply IH; [exact Hl|exact E].
Qed.
Lemma text_run_lines_width : forall fuel cb style avail chars s s',
  widths_state_ok (cb_inline_size cb) (ifc_lines s) -> text_run_lines glyph_id glyph_width fuel cb style avail chars s = Some s' ->
  widths_state_ok (cb_inline_size cb) (ifc_lines s').
Proof.
  induction fuel as [|fuel IH]; intros cb style avail chars s s' Hl H; cbn [text_run_lines] in H; [discriminate H|].
  destruct (fill_line _ _ _ _ chars _ _) as [[sh rest]|]; [|discriminate H].
  destruct rest as [|c rest].
  - injection H as <-. exact Hl.
  - eapply IH; [|exact H]. unfold new_line.
    destruct (break_levels cb (ifc_stack (push_text style sh s)) _ _ (ifc_lines (push_text style sh s))) as [[cur st] lb] eqn:E.
    cbn [ifc_lines]. eapply break_levels_width; [|exact E]. exact Hl.
Qed.

Definition Wc (c : block_container) : Prop := forall o cb rank acc fl coll fc acc',
  bcl o c cb rank acc fl coll = Some (fc, acc') -> in_width_container (cb_inline_size cb) c (fc_fragments fc).
Definition Wb (b : block_level_box) : Prop := forall o cb rank acc fl f acc',
  bll o b cb rank acc fl = Some (f, acc') -> in_width_block (cb_inline_size cb) b f.
Definition Wf (c : block_formatting_context) : Prop := forall o cb rank acc fc acc',
  fcl o c cb rank acc = Some (fc, acc') ->
  match c with BFC contents _ => in_width_container (cb_inline_size cb) contents (fc_fragments fc) end.
Definition Wi (b : inline_level_box) : Prop := forall o cb rank s acc s' acc',
  widths_state_ok (cb_inline_size cb) (ifc_lines s) ->
  inline_level_box_layout glyph_id glyph_width o b cb rank s acc = Some (s', acc') ->
  widths_state_ok (cb_inline_size cb) (ifc_lines s').

(** The inline axis of [layout_in_flow_non_replaced_block_level] *)
Lemma in_flow_width_inv : forall cb acc style kind lc f acc',
  layout_in_flow_non_replaced_block_level cb acc style kind lc = Some (f, acc') ->
  exists b fc acc1 acc2 extra h mode sc,
    f = FBox b (fc_fragments fc ++ extra) /\ (get style position_ <> Relative -> extra = []) /\
    lc (mkCB (content_width b) h mode) acc1 sc = Some (fc, acc2) /\ in_flow_width (cb_inline_size cb) style b.
Proof.
  intros cb acc style kind lc f acc' H. unfold layout_in_flow_non_replaced_block_level in H.
  set (w := cb_inline_size cb) in *.
  set (pad := lp_sides_relative_to (style_padding style) w) in H.
  set (bor := lp_sides_relative_to (style_border_width style) w) in H.
  set (mar := sides_auto_is _ 0) in H.
  set (is_ := auto_is _ _) in H.
  set (h := match v_block (box_size style) with LpaLength l => Length l
          | LpaPercentage p => loa_map (fun cbbs => cbbs * p) (cb_block_size cb) | LpaAuto => Auto end) in H.
  cbn [cb_mode] in H. destruct (wmode_eqb _ _) in H; [|discriminate H].
  set (sc := is_same kind && Qeq_bool (block_start (sadd pad bor)) 0) in H.
  set (ec := is_same kind && Qeq_bool (block_end (sadd pad bor)) 0 && _) in H.
  set (rel := relative_adjustement style is_ h) in H.
  assert (Hrel : relative_offset style (get style left_) (get style right_) (v_inline rel)).
  { unfold rel, relative_adjustement, relative_offset. destruct (get style position_); try reflexivity.
    cbn [is_relatively_positioned v_inline].
    change (inline_start (map_inline_and_block_axes (fun v => lpa_relative_to v is_) (fun u => lpa_relative_to u (auto_is h 0)) (box_offsets style)))
      with (lpa_relative_to (get style left_) is_).
    change (inline_end (map_inline_and_block_axes (fun v => lpa_relative_to v is_) (fun u => lpa_relative_to u (auto_is h 0)) (box_offsets style)))
      with (lpa_relative_to (get style right_) is_).
    destruct (get style left_), (get style right_); cbn [lpa_relative_to adjust]; try exact I; reflexivity. }
  set (relative := is_relatively_positioned (get style position_)) in H.
  destruct (lc _ _ sc) as [[fc acc2]|] eqn:El; [|discriminate H].
  destruct (if sc then _ else _) as [start in_children] in H.
  destruct (if ec then _ else _) as [end_ fc_size] in H.
  set (collapsed := mkCBM _ start end_) in H.
  set (cr := mkRect _ _) in H.
  set (b := mkBoxFragment style cr pad bor mar collapsed) in H.
  assert (Hx : exists extra, (get style position_ <> Relative -> extra = []) /\ f = FBox b (fc_fragments fc ++ extra)).
  { unfold relative, is_relatively_positioned in H. destruct (get style position_) eqn:Er;
      try (injection H as <- _; exists []; split; [intros _; reflexivity|]; rewrite app_nil_r; reflexivity).
    - destruct (in_positioned_containing_block _ _ _ _ _ _) as [ch|] eqn:Ec; [|discriminate H]. injection H as <- _.
      unfold in_positioned_containing_block in Ec. destruct acc2 as [|a acc2].
      + injection Ec as <-. exists []. rewrite app_nil_r. split; reflexivity.
      + destruct (map_option _ _); [|discriminate Ec]. injection Ec as <-. eexists. split; [intros F; contradiction F; reflexivity|reflexivity]. }
  destruct Hx as (extra & Hextra & ->). clear H.
  exists b, fc. eexists. eexists. exists extra. eexists. eexists. eexists. split; [reflexivity|]. split; [exact Hextra|]. split; [exact El|].
  assert (Hlp : forall l x, lp_relative_to l w = x -> of_width w l x).
  { intros l x <-. destruct l; reflexivity. }
  assert (Hm : forall l a x, l <> LpaAuto -> auto_is (lpa_relative_to l w) a = x -> forall P, margin_of_width w l P x).
  { intros l a x Hl <- P. destruct l; [reflexivity|reflexivity|contradiction Hl; reflexivity]. }
  assert (Hmz : forall l x, auto_is (lpa_relative_to l w) 0 = x -> margin_of_width w l zero x).
  { intros l x <-. destruct l; reflexivity. }
  assert (Hb : block_start mar = auto_is (lpa_relative_to (get style margin_top) w) 0 /\
               block_end mar = auto_is (lpa_relative_to (get style margin_bottom) w) 0).
  { unfold mar. destruct (lpa_relative_to (v_inline (box_size style)) w); [|split; reflexivity].
    unfold solve_inline_margins. destruct (inline_start (lpa_sides_relative_to (style_margin style) w)), (inline_end (lpa_sides_relative_to (style_margin style) w)); split; reflexivity. }
  destruct Hb as [Hb1 Hb2].
  assert (Ht : total_width b = inline_start mar + inline_start bor + inline_start pad + is_ + inline_end pad + inline_end bor + inline_end mar) by reflexivity.
  assert (Hp : inline_sum (sadd pad bor) = (inline_start pad + inline_start bor) + (inline_end pad + inline_end bor)) by reflexivity.
  econstructor; [reflexivity| | | |exact Hrel|].
  - unfold edges_ok. cbv zeta. cbn [b bf_style bf_padding bf_border bf_margin].
    repeat (split; [first [apply Hlp; reflexivity|apply Hmz; symmetry; assumption]|]). apply Hmz; symmetry; assumption.
  - unfold widths_ok. cbv zeta. cbn [b bf_style bf_margin]. change (content_width b) with is_.
    unfold is_. unfold mar. change (v_inline (box_size style)) with (get style width).
    change (inline_start (lpa_sides_relative_to (style_margin style) w)) with (lpa_relative_to (get style margin_left) w).
    destruct (get style width) as [px|p|]; cbn [lpa_relative_to auto_is]; unfold solve_inline_margins, sides_auto_is;
      rewrite ?smap_start, ?smap_end;
      change (inline_start (lpa_sides_relative_to (style_margin style) w)) with (lpa_relative_to (get style margin_left) w);
      change (inline_end (lpa_sides_relative_to (style_margin style) w)) with (lpa_relative_to (get style margin_right) w);
      destruct (get style margin_left), (get style margin_right);
      cbn [lpa_relative_to auto_is margin_of_width inline_start inline_end smap zero any]; unfold zero, any;
      repeat match goal with |- _ /\ _ => split end; try exact I; reflexivity.
  - intros Hs. rewrite Ht. unfold sum_applies in Hs. unfold is_. change (v_inline (box_size style)) with (get style width).
    destruct (get style width) eqn:Ew; cbn [lpa_relative_to auto_is].
    + destruct Hs as [Hs|Hs]; [discriminate Hs|]. unfold mar. change (v_inline (box_size style)) with (get style width). rewrite Ew. cbn [lpa_relative_to].
      rewrite Hp. unfold solve_inline_margins, sides_auto_is.
      change (inline_start (lpa_sides_relative_to (style_margin style) w)) with (lpa_relative_to (get style margin_left) w).
      change (inline_end (lpa_sides_relative_to (style_margin style) w)) with (lpa_relative_to (get style margin_right) w).
      destruct (get style margin_left), (get style margin_right); cbn [lpa_relative_to auto_is margin_of_width] in *; cbn [smap inline_start inline_end auto_is]; try lra; field.
    + destruct Hs as [Hs|Hs]; [discriminate Hs|]. unfold mar. change (v_inline (box_size style)) with (get style width). rewrite Ew. cbn [lpa_relative_to].
      rewrite Hp. unfold solve_inline_margins, sides_auto_is.
      change (inline_start (lpa_sides_relative_to (style_margin style) w)) with (lpa_relative_to (get style margin_left) w).
      change (inline_end (lpa_sides_relative_to (style_margin style) w)) with (lpa_relative_to (get style margin_right) w).
      destruct (get style margin_left), (get style margin_right); cbn [lpa_relative_to auto_is margin_of_width] in *; cbn [smap inline_start inline_end auto_is]; try lra; field.
    + rewrite Hp. unfold inline_sum. lra.
  - unfold content_left, b, cr. cbn [bf_content_rect start_corner v_inline bf_margin bf_border bf_padding]. cbn [sadd inline_start]. lra.
Qed.

Theorem all_widths : (forall c, Wc c) /\ (forall b, Wb b) /\ (forall c, Wf c) /\ (forall b, Wi b).
Proof.
  apply boxes_ind.
  - intros l HF o cb rank acc fl coll fc acc' H. rewrite bcl_blocks in H. eapply blocks_width; [|exact H].
    intros b Hb i acc1 f acc2 E. rewrite Forall_forall in HF. exact (HF b Hb (sub_oracle o i) cb i acc1 fl f acc2 E).
  - intros l HF o cb rank acc fl coll fc acc' H. rewrite bcl_inlines in H.
    destruct (inline_boxes_layout _ l _ acc) as [[s2 acc2]|] eqn:E; [|discriminate H].
    assert (Hl2 : widths_state_ok (cb_inline_size cb) (ifc_lines s2)).
    { eapply (inline_boxes_inv _ (fun s => widths_state_ok (cb_inline_size cb) (ifc_lines s))); [| |exact E].
      - intros b Hb s3 acc3 s4 acc4 H3 H4. rewrite Forall_forall in HF. exact (HF b Hb o cb rank s3 acc3 s4 acc4 H3 H4).
      - intros f []. }
    pose proof (finish_line_width (ifc_lines s2) (ifc_current s2) cb Hl2) as Hl3.
    pose proof (context_lines glyph_id glyph_width o l cb rank acc s2 acc2 E) as Hl4.
    destruct (finish_line (ifc_lines s2) (ifc_current s2) cb) as [lb nl]. cbn [fst] in Hl3, Hl4. injection H as <- _.
    constructor; [exact Hl3|exact Hl4].
  - intros s c Hc o cb rank acc fl f acc' H. rewrite bll_same in H.
    destruct (in_flow_width_inv _ _ _ _ _ _ _ H) as (b & fc & acc1 & acc2 & extra & h & mode & sc & -> & Hx & El & Hw).
    constructor; [exact Hw|exact Hx|]. exact (Hc _ _ _ _ _ _ _ _ El).
  - intros s c _ o cb rank acc fl f acc' H. injection H as <- _. constructor; reflexivity.
  - intros s c _ o cb rank acc fl f acc' H. injection H as <- _. constructor; reflexivity.
  - intros s [c fl0] Hc o cb rank acc fl f acc' H. rewrite bll_independent in H.
    destruct (in_flow_width_inv _ _ _ _ _ _ _ H) as (b & fc & acc1 & acc2 & extra & h & mode & sc & -> & Hx & El & Hw).
    constructor; [exact Hw|exact Hx|]. exact (Hc _ _ _ _ _ _ El).
  - intros c f Hc o cb rank acc fc acc' H. rewrite fcl_bfc in H.
    destruct (bcl o c cb rank acc f false) as [[fc1 acc1]|] eqn:E; [|discriminate H]. injection H as <- _.
    exact (Hc _ _ _ _ _ _ _ _ E).
  - intros st fi la children HF o cb rank s acc s' acc' Hl H. rewrite ill_inline in H.
    destruct (start_layout cb st fi la s) as [p s1] eqn:Es.
    assert (Hl1 : widths_state_ok (cb_inline_size cb) (ifc_lines s1)).
    { unfold start_layout in Es. destruct fi; injection Es as _ <-; exact Hl. }
    destruct (inline_boxes_layout _ children _ acc) as [[s2 acc2]|] eqn:E; [|discriminate H].
    assert (Hl2 : widths_state_ok (cb_inline_size cb) (ifc_lines s2)).
    { eapply (inline_boxes_inv _ (fun s => widths_state_ok (cb_inline_size cb) (ifc_lines s))); [| |exact E]; [|exact Hl1].
      intros b Hb s3 acc3 s4 acc4 H3 H4. rewrite Forall_forall in HF. exact (HF b Hb o cb rank s3 acc3 s4 acc4 H3 H4). }
    destruct (ifc_stack s2) as [|q stack]; [discriminate H|].
    destruct (finish_layout q (ifc_current s2) (ifc_position s2) false) as [[q' nl] pos].
    injection H as <- _. exact Hl2.
  - intros s t o cb rank st acc st' acc' Hl H.
    change (match text_run_layout glyph_id glyph_width cb s t st with Some s => Some (s, acc) | None => None end = Some (st', acc')) in H.
    destruct (text_run_layout glyph_id glyph_width cb s t st) as [s1|] eqn:E; [|discriminate H]. injection H as <- _.
    unfold text_run_layout in E. eapply text_run_lines_width; [exact Hl|exact E].
  - intros s c _ o cb rank st acc st' acc' Hl H. cbn in H. destruct (initial_corner s st); [|discriminate H]. injection H as <- _. exact Hl.
  - intros s c _ o cb rank st acc st' acc' Hl H. injection H as <- _. exact Hl.
Qed.
End Font.
