(** The text of a page, and that all fragments are upright. *)
From Coq Require Import QArith Permutation.
From Verif Require Import Base Dom StyleValues StyleProperties StyleSpec PdfObject PdfConvert Geom Text LayoutTree Layout LayoutProofs LayoutBlockProofs
  LayoutScheduleProofs BoxTreeSpec InlineSpec InlineProofs InlineLineProofs InlineBoxProofs BoxShapeProofs PaintSpec.
From Verif Require InlineProps BoxTreeProofs.
Local Open Scope nat_scope.

Definition HL : wmode := (HorizontalTb, Ltr).
Inductive up : fragment -> Prop :=
| up_box : forall b l, Forall up l -> up (FBox b l)
| up_anon : forall r l, Forall up l -> up (FAnonymous r HL l)
| up_text : forall s r t, up (FText s r t).
Lemma up_upright : forall f, up f -> forall above, Forall upright (with_ancestors above f).
Proof.
  fix IH 2. intros f H above. destruct H as [b l H|r l H|s r t]; cbn [with_ancestors]; (constructor; [exact I || reflexivity|]); [| |constructor].
  - generalize (above ++ [FBox b l]). intros a. induction H as [|f l Hf Hl IHl]; cbn [flat_map]; [constructor|]. apply Forall_app. split; [apply IH; exact Hf|exact IHl].
  - generalize (above ++ [FAnonymous r HL l]). intros a. induction H as [|f l Hf Hl IHl]; cbn [flat_map]; [constructor|]. apply Forall_app. split; [apply IH; exact Hf|exact IHl].
Qed.
Lemma all_upright : forall frs, Forall up frs -> Forall upright (all_fragments frs).
Proof. intros frs H. unfold all_fragments. induction H; cbn [flat_map]; [constructor|]. apply Forall_app. split; [apply up_upright; assumption|assumption]. Qed.

Section Font.
Variable glyph_id : N -> res font_error N.
Variable glyph_width : N -> res font_error Q.
Notation bcl := (block_container_layout glyph_id glyph_width).
Notation bll := (block_level_box_layout glyph_id glyph_width).
Notation fcl := (bfc_layout glyph_id glyph_width).
Notation ill := (inline_level_box_layout glyph_id glyph_width).
Notation prints := (prints glyph_id glyph_width).

Lemma left_out_app : forall a b c d, some_spaces_left_out a b -> some_spaces_left_out c d -> some_spaces_left_out (a ++ c) (b ++ d).
Proof. intros a b c d H H2. induction H; cbn [app]; [exact H2|constructor; assumption..]. Qed.
Lemma shapes_app' : forall a ga wa b gb wb, shapes glyph_id glyph_width a ga wa -> shapes glyph_id glyph_width b gb wb ->
  exists w, shapes glyph_id glyph_width (a ++ b) (ga ++ gb) w.
Proof.
  intros a ga wa b gb wb H H2. induction H; cbn [app]; [eauto|]. destruct IHshapes as (w' & H'). eexists. econstructor; eassumption.
Qed.
Lemma prints_nil : prints [] [].
Proof. exists [], 0%Q. split; constructor. Qed.
Lemma prints_app : forall a ga b gb, prints a ga -> prints b gb -> prints (a ++ b) (ga ++ gb).
Proof.
  intros a ga b gb (t & w & H1 & H2) (t' & w' & H3 & H4). destruct (shapes_app' _ _ _ _ _ _ H2 H4) as (w2 & H5).
  exists (t ++ t'), w2. split; [apply left_out_app; assumption|exact H5].
Qed.

Definition ok (t : list N) (frs : list fragment) : Prop := Forall up frs /\ prints t (flat_map glyphs_in frs).
Lemma ok_nil : ok [] [].
Proof. split; [constructor|exact prints_nil]. Qed.
Lemma ok_app : forall t f t' f', ok t f -> ok t' f' -> ok (t ++ t') (f ++ f').
Proof.
  intros t f t' f' [H1 H2] [H3 H4]. split; [apply Forall_app; split; assumption|]. rewrite flat_map_app. apply prints_app; assumption.
Qed.
Lemma ok_anon : forall t r frs, ok t frs -> ok t [FAnonymous r HL frs].
Proof. intros t r frs [H1 H2]. split; [constructor; [constructor; exact H1|constructor]|]. cbn [flat_map glyphs_in]. rewrite app_nil_r. exact H2. Qed.
Lemma ok_box : forall t b frs, ok t frs -> ok t [FBox b frs].
Proof. intros t r frs [H1 H2]. split; [constructor; [constructor; exact H1|constructor]|]. cbn [flat_map glyphs_in]. rewrite app_nil_r. exact H2. Qed.

(** ** Absolutely positioned boxes *)
Definition bears (t : list N) (a : abspos_fragment) : Prop :=
  forall r i b dcb f, dcb_mode dcb = HL ->
    abspos_layout (mkAbspos (ap_style a) (ap_contents a) r i (ap_inline_size a) b (ap_block_size a)) dcb = Some f -> ok t [f].
Definition bear (t : list N) (l : list abspos_fragment) : Prop := exists outs, Forall2 bears outs l /\ concat outs = t.
Lemma bear_nil : bear [] [].
Proof. exists []. split; [constructor|reflexivity]. Qed.
Lemma bear_one : forall t a, bears t a -> bear t [a].
Proof. intros t a H. exists [t]. split; [constructor; [exact H|constructor]|]. cbn [concat]. apply app_nil_r. Qed.
Lemma bear_app : forall t l t' l', bear t l -> bear t' l' -> bear (t ++ t') (l ++ l').
Proof.
  intros t l t' l' (o & H1 & <-) (o' & H3 & <-). exists (o ++ o'). split; [apply Forall2_app; assumption|apply concat_app].
Qed.
Lemma bear_laid_out : forall dcb, dcb_mode dcb = HL -> forall l t frs, bear t l -> map_option (fun a => abspos_layout a dcb) l = Some frs -> ok t frs.
Proof.
  intros dcb Hd l t frs (outs & F & <-) E. revert frs E. induction F as [|o a outs l Ha F IH]; intros frs E; cbn [map_option concat] in *.
  - injection E as <-. exact ok_nil.
  - destruct (abspos_layout a dcb) as [f|] eqn:Ef; [|discriminate E]. destruct (map_option _ l) as [fs|]; [|discriminate E]. injection E as <-.
    change (f :: fs) with ([f] ++ fs). apply ok_app; [|apply IH; reflexivity].
    apply (Ha (ap_tree_rank a) (ap_inline_start a) (ap_block_start a) dcb f Hd). destruct a; exact Ef.
Qed.
Lemma positioned_ok : forall t t' l frs sz pad ch, ok t frs -> bear t' l ->
  in_positioned_containing_block (fun cb a => abspos_layout a cb) l frs sz pad HL = Some ch -> ok (t ++ t') ch.
Proof.
  intros t t' l frs sz pad ch H B E. unfold in_positioned_containing_block in E. destruct l as [|a l].
  - injection E as <-. destruct B as (outs & F & <-). inversion F; subst. cbn [concat]. rewrite app_nil_r. exact H.
  - destruct (map_option _ (a :: l)) as [c|] eqn:Ec; [|discriminate E]. injection E as <-.
    apply ok_app; [exact H|]. apply ok_anon. refine (bear_laid_out _ _ _ _ _ B Ec). reflexivity.
Qed.
Lemma abspos_bears : forall t t' style contents r i isz b bsz,
  (forall cb fc new, cb_mode cb = HL -> contents cb = Some (fc, new) -> ok t (fc_fragments fc) /\ bear t' new) ->
  bears (t ++ t') (mkAbspos style contents r i isz b bsz).
Proof.
  intros t t' style contents r i isz b bsz H r' i' b' dcb f Hd E. cbn [ap_style ap_contents ap_inline_size ap_block_size abspos_layout] in E.
  destruct (solve_axis _ _ _ _ _ i' _) as [[[ia is1] mil] mir]. destruct (solve_axis _ _ _ _ _ b' _) as [[[ba bs1] mbs] mbe].
  set (cbc := mkCB _ _ _) in E. destruct (wmode_eqb _ _); [|discriminate E].
  destruct (contents cbc) as [[fc new]|] eqn:Ec; [|discriminate E]. destruct (H cbc fc new eq_refl Ec) as [Hf Hn].
  change (cb_mode cbc) with HL in E. destruct (in_positioned_containing_block _ _ _ _ _ _) as [ch|] eqn:Ep in E; [|discriminate E].
  injection E as <-. apply ok_box. exact (positioned_ok _ _ _ _ _ _ _ Hf Hn Ep).
Qed.
Lemma adjust_bears : forall frs rank a a' t, bears t a -> adjust_static_position frs rank a = Some a' -> bears t a'.
Proof.
  intros frs rank a a' t H E. unfold adjust_static_position in E. destruct (match nth_error frs (ap_tree_rank a) with Some _ => _ | None => _ end); [|discriminate E].
  injection E as <-. exact H.
Qed.
Lemma adjust_bear : forall frs rank l l' t, bear t l -> adjust_static_positions l frs rank = Some l' -> bear t l'.
Proof.
  intros frs rank l l' t (outs & F & <-) E. exists outs. split; [|reflexivity]. unfold adjust_static_positions in E. revert l' E.
  induction F as [|o a outs l Ha F IH]; intros l' E; cbn [map_option] in E; [injection E as <-; constructor|].
  destruct (adjust_static_position frs rank a) as [a'|] eqn:Ea; [|discriminate E]. destruct (map_option _ l) as [l2|]; [|discriminate E]. injection E as <-.
  constructor; [exact (adjust_bears _ _ _ _ _ Ha Ea)|apply IH; reflexivity].
Qed.

(** ** Placement *)
Lemma place_same : forall f s f' s', place_block_level_fragment f s = Some (f', s') -> glyphs_in f' = glyphs_in f /\ (up f -> up f').
Proof.
  intros f s f' s' E. unfold place_block_level_fragment in E. destruct f as [b ch|r m ch|]; [| |discriminate E].
  - assert (K : forall r, glyphs_in (FBox (with_content_rect b r) ch) = glyphs_in (FBox b ch) /\ (up (FBox b ch) -> up (FBox (with_content_rect b r) ch))).
    { intros r. split; [reflexivity|]. intros H. inversion H; subst. constructor. assumption. }
    destruct (next_collapses_with_parent_start s).
    + destruct (Qeq_bool _ _); [|discriminate E]. destruct (collapsed_through (bf_margins b)).
      * injection E as <- _. split; [reflexivity|auto].
      * injection E as <- _. apply K.
    + destruct (collapsed_through (bf_margins b)); injection E as <- _; apply K.
  - destruct ch; [|discriminate E]. destruct (Qeq_bool _ _); [|discriminate E]. injection E as <- _. split; [reflexivity|]. intros H. inversion H; subst. constructor. constructor.
Qed.
Lemma place_all_same : forall t l s l' s', ok t l -> place_all l s = Some (l', s') -> ok t l'.
Proof.
  intros t l s l' s' [H1 H2] E.
  assert (K : flat_map glyphs_in l' = flat_map glyphs_in l /\ (Forall up l -> Forall up l')).
  { clear - E. revert s l' s' E. induction l as [|f l IH]; intros s l' s' E; cbn [place_all] in E.
    - injection E as <- _. auto.
    - destruct (place_block_level_fragment f s) as [[f1 s1]|] eqn:E1; [|discriminate E].
      destruct (place_all l s1) as [[l1 s2]|] eqn:E2; [|discriminate E]. injection E as <- _.
      apply place_same in E1 as [G U]. destruct (IH _ _ _ E2) as [G2 U2]. cbn [flat_map]. rewrite G, G2. split; [reflexivity|].
      intros H. inversion H; subst. constructor; auto. }
  destruct K as [K1 K2]. split; [auto|]. rewrite K1. exact H2.
Qed.

(** ** Boxes *)
Definition Rc (c : block_container) : Prop := forall o cb rank fl coll fc new, cb_mode cb = HL ->
  bcl o c cb rank [] fl coll = Some (fc, new) -> ok (fst (container_order c)) (fc_fragments fc) /\ bear (snd (container_order c)) new.
Definition Rb (b : block_level_box) : Prop := forall o cb rank fl f new, cb_mode cb = HL ->
  bll o b cb rank [] fl = Some (f, new) -> ok (fst (block_order b)) [f] /\ bear (snd (block_order b)) new.
Definition Rf (c : block_formatting_context) : Prop := forall o cb rank fc new, cb_mode cb = HL ->
  fcl o c cb rank [] = Some (fc, new) -> ok (fst (context_order c)) (fc_fragments fc) /\ bear (snd (context_order c)) new.
(** Of inline-level boxes: what is in the state is upright, and the absolutely positioned boxes *)
Definition Ri (b : inline_level_box) : Prop := forall o cb rank s s' new,
  ill o b cb rank s [] = Some (s', new) -> bear (snd (inline_order b)) new.

Lemma each_ok : forall (lay : nat -> block_level_box -> _ -> _) l i frs new,
  (forall b, In b l -> forall i acc, lay i b acc = frame acc (lay i b [])) ->
  (forall b, In b l -> forall i f new, lay i b [] = Some (f, new) -> ok (fst (block_order b)) [f] /\ bear (snd (block_order b)) new) ->
  layout_each lay i l [] = Some (frs, new) ->
  ok (flat_map fst (map block_order l)) frs /\ bear (flat_map snd (map block_order l)) new.
Proof.
  intros lay l. induction l as [|b l IH]; intros i frs new Hf H E; cbn [layout_each map flat_map] in *.
  - injection E as <- <-. split; [exact ok_nil|exact bear_nil].
  - destruct (lay i b []) as [[f n1]|] eqn:E1; [|discriminate E].
    assert (E2 : layout_each lay (S i) l n1 = frame n1 (layout_each lay (S i) l [])) by (apply each_frame; intros b' Hb'; apply Hf; right; exact Hb').
    rewrite E2 in E. destruct (layout_each lay (S i) l []) as [[fs n2]|] eqn:E3; [|discriminate E]. cbn [frame] in E. injection E as <- <-.
    destruct (H b (or_introl eq_refl) i f n1 E1) as [H1 H2].
    destruct (IH (S i) fs n2 (fun b' Hb => Hf b' (or_intror Hb)) (fun b' Hb => H b' (or_intror Hb)) E3) as [H3 H4].
    split; [exact (ok_app _ _ _ _ H1 H3)|exact (bear_app _ _ _ _ H2 H4)].
Qed.
Lemma blocks_ok : forall (lay : nat -> block_level_box -> _ -> _) t l rank fl coll fc new,
  (forall b, In b l -> forall i acc, lay i b acc = frame acc (lay i b [])) ->
  (forall b, In b l -> forall i f new, lay i b [] = Some (f, new) -> ok (fst (block_order b)) [f] /\ bear (snd (block_order b)) new) ->
  layout_block_level_children lay t l rank [] fl coll = Some (fc, new) ->
  ok (flat_map fst (map block_order l)) (fc_fragments fc) /\ bear (flat_map snd (map block_order l)) new.
Proof.
  intros lay t l rank fl coll fc new Hf H E. unfold layout_block_level_children in E.
  set (s0 := mkPS coll cm_zero cm_zero 0%Q) in E.
  assert (E1 : (if fl then layout_and_place lay 0 l [] s0
                else match mapfold_reduce_into t 0 (map (fun b i acc => lay i b acc) l) [] with
                     | Some (fs, acc) => match place_all fs s0 with Some (fs, s) => Some (fs, acc, s) | None => None end
                     | None => None end) =
               match layout_each lay 0 l [] with
               | Some (fs, acc) => match place_all fs s0 with Some (fs, s) => Some (fs, acc, s) | None => None end
               | None => None end).
  { destruct fl; [apply layout_and_place_same|]. rewrite mapfold_each; [reflexivity|exact Hf]. }
  rewrite E1 in E. clear E1. destruct (layout_each lay 0 l []) as [[frs news]|] eqn:E1; [|discriminate E].
  destruct (place_all frs s0) as [[frs' s']|] eqn:E2; [|discriminate E]. cbn [List.length skipn firstn] in E.
  destruct (adjust_static_positions news frs' rank) as [adj|] eqn:E3; [|discriminate E]. injection E as <- <-. cbn [fc_fragments app].
  destruct (each_ok lay l 0 frs news Hf H E1) as [H1 H2]. split; [exact (place_all_same _ _ _ _ _ H1 E2)|exact (adjust_bear _ _ _ _ _ H2 E3)].
Qed.
Lemma in_flow_ok : forall t t' cb style kind lc f new, cb_mode cb = HL ->
  (forall cb coll fc new, cb_mode cb = HL -> lc cb [] coll = Some (fc, new) -> ok t (fc_fragments fc) /\ bear t' new) ->
  layout_in_flow_non_replaced_block_level cb [] style kind lc = Some (f, new) ->
  let o := if is_relative style then (t ++ t', []) else (t, t') in ok (fst o) [f] /\ bear (snd o) new.
Proof.
  intros t t' cb style kind lc f new Hm H E. unfold layout_in_flow_non_replaced_block_level in E.
  set (cbc := mkCB _ _ _) in E. rewrite Hm in E. change (wmode_eqb HL (cb_mode cbc)) with true in E. cbn iota in E.
  change (cb_mode cbc) with HL in E. set (sc := (is_same kind && _)%bool) in E.
  change (is_relatively_positioned (get style position_)) with (is_relative style) in E.
  replace (if is_relative style then [] else []) with (@nil abspos_fragment) in E by (destruct (is_relative style); reflexivity).
  destruct (lc cbc [] sc) as [[fc n]|] eqn:El; [|discriminate E]. destruct (H cbc sc fc n eq_refl El) as [H1 H2].
  destruct (if sc then _ else _) as [start ic] in E. destruct (if (is_same kind && _ && _)%bool then _ else _) as [end_ fsz] in E.
  destruct (is_relative style).
  - destruct (in_positioned_containing_block _ _ _ _ _ _) as [ch|] eqn:Ep in E; [|discriminate E]. injection E as <- <-. cbn [fst snd].
    split; [apply ok_box; exact (positioned_ok _ _ _ _ _ _ _ H1 H2 Ep)|exact bear_nil].
  - injection E as <- <-. split; [apply ok_box; exact H1|exact H2].
Qed.
Lemma inlines_bear : forall (one : inline_level_box -> _ -> _ -> _) l s s' new,
  (forall b, In b l -> forall s acc, one b s acc = frame acc (one b s [])) ->
  (forall b, In b l -> forall s s' new, one b s [] = Some (s', new) -> bear (snd (inline_order b)) new) ->
  inline_boxes_layout one l s [] = Some (s', new) -> bear (flat_map snd (map inline_order l)) new.
Proof.
  intros one. induction l as [|b l IH]; intros s s' new Hf H E; cbn [inline_boxes_layout map flat_map] in *.
  - injection E as <- <-. exact bear_nil.
  - destruct (one b s []) as [[s1 n1]|] eqn:E1; [|discriminate E].
    rewrite (inlines_frame one one l s1 n1) in E by (intros b' Hb s2 a; apply Hf; right; exact Hb).
    destruct (inline_boxes_layout one l s1 []) as [[s2 n2]|] eqn:E2; [|discriminate E]. cbn [frame] in E. injection E as <- <-.
    apply bear_app; [exact (H b (or_introl eq_refl) _ _ _ E1)|].
    exact (IH s1 s2 n2 (fun b' Hb => Hf b' (or_intror Hb)) (fun b' Hb => H b' (or_intror Hb)) E2).
Qed.

(** *** Lines are upright *)
Definition level_up (nl : nesting_level) : Prop := Forall up (nl_fragments nl).
Definition state_up (s : ifc_state) : Prop :=
  Forall up (lb_boxes (ifc_lines s)) /\ Forall (fun p => level_up (pi_parent p)) (ifc_stack s) /\ level_up (ifc_current s).
Lemma finish_layout_up : forall p nl pos br p' nl' pos', finish_layout p nl pos br = (p', nl', pos') ->
  level_up (pi_parent p) -> level_up nl -> level_up (pi_parent p') /\ level_up nl'.
Proof.
  intros p nl pos br p' nl' pos' E Hp Hn. unfold finish_layout in E.
  destruct (if (_ && _)%bool then _ else _) as [[[a b] c] e] in E. injection E as <- <- _. split; [|constructor].
  unfold level_up. cbn [pi_parent nl_fragments]. apply Forall_app. split; [exact Hp|]. constructor; [constructor; exact Hn|constructor].
Qed.
Lemma break_up : forall cb, cb_mode cb = HL -> forall stack nl pos lb nl' st lb', break_levels cb stack nl pos lb = (nl', st, lb') ->
  Forall (fun p => level_up (pi_parent p)) stack -> level_up nl -> Forall up (lb_boxes lb) ->
  level_up nl' /\ Forall (fun p => level_up (pi_parent p)) st /\ Forall up (lb_boxes lb').
Proof.
  intros cb Hm. induction stack as [|p stack IH]; intros nl pos lb nl' st lb' E Hs Hn Hl; cbn [break_levels] in E.
  - unfold finish_line in E. injection E as <- <- <-. split; [constructor|]. split; [constructor|]. cbn [lb_boxes]. apply Forall_app. split; [exact Hl|].
    rewrite Hm. constructor; [constructor; exact Hn|constructor].
  - destruct (finish_layout p nl pos true) as [[p1 nl1] pos1] eqn:Ef. inversion Hs; subst.
    destruct (finish_layout_up _ _ _ _ _ _ _ Ef H1 Hn) as [Hp1 Hn1].
    destruct (break_levels cb stack (pi_parent (after_break p1)) pos1 lb) as [[par rest] lb1] eqn:Eb. injection E as <- <- <-.
    destruct (IH _ _ _ _ _ _ Eb H2 Hp1 Hl) as (H4 & H5 & H6). split; [exact Hn1|]. split; [constructor; [exact H4|exact H5]|exact H6].
Qed.
Lemma text_up : forall cb, cb_mode cb = HL -> forall fuel st av chars s s', state_up s ->
  text_run_lines glyph_id glyph_width fuel cb st av chars s = Some s' -> state_up s'.
Proof.
  intros cb Hm. induction fuel as [|fuel IH]; intros st av chars s s' H E; cbn [text_run_lines] in E; [discriminate E|].
  destruct (fill_line _ _ _ _ _ _ _) as [[sh rest]|]; [|discriminate E].
  assert (Hp : state_up (push_text st sh s)).
  { destruct H as (H1 & H2 & H3). split; [exact H1|]. split; [exact H2|]. unfold level_up. cbn [push_text ifc_current nl_fragments]. apply Forall_app. split; [exact H3|].
    constructor; constructor. }
  destruct rest as [|c rest]; [injection E as <-; exact Hp|]. apply (IH _ _ _ _ _) in E; [exact E|].
  destruct Hp as (H1 & H2 & H3). unfold new_line. destruct (break_levels _ _ _ _ _) as [[cur stk] lb] eqn:Eb.
  apply (break_up cb Hm) in Eb as (B1 & B2 & B3); [|assumption..]. split; [exact B3|]. split; [exact B2|exact B1].
Qed.
Definition Ui (b : inline_level_box) : Prop := forall o cb rank s acc s' acc', cb_mode cb = HL -> state_up s ->
  ill o b cb rank s acc = Some (s', acc') -> state_up s'.
Lemma inlines_up : forall o cb rank l s acc s' acc', cb_mode cb = HL -> Forall Ui l -> state_up s ->
  inline_boxes_layout (fun b s acc => ill o b cb rank s acc) l s acc = Some (s', acc') -> state_up s'.
Proof.
  intros o cb rank. induction l as [|b l IH]; intros s acc s' acc' Hm H Hs E; cbn [inline_boxes_layout] in E.
  - injection E as <- _. exact Hs.
  - destruct (ill o b cb rank s acc) as [[s1 a1]|] eqn:E1; [|discriminate E]. inversion H; subst. apply (IH s1 a1 s' acc' Hm H3); [|exact E].
    exact (H2 _ _ _ _ _ _ _ Hm Hs E1).
Qed.
Lemma all_inlines_up : forall b, Ui b.
Proof.
  refine (proj2 (proj2 (proj2 (boxes_ind (fun _ => True) (fun _ => True) (fun _ => True) Ui _ _ _ _ _ _ _ _ _ _ _)))); try (intros; exact I).
  - intros st fi la children HF o cb rank s acc s' acc' Hm Hs E. rewrite ill_inline in E.
    destruct (start_layout cb st fi la s) as [p s1] eqn:Es.
    assert (H1 : state_up (mkIFC (ifc_lines s1) (ifc_position s1) (p :: ifc_stack s1) (ifc_current s1))).
    { unfold start_layout in Es. destruct (if fi then _ else _) as [[[a b] c] e] in Es. injection Es as <- <-. destruct Hs as (H1 & H2 & H3).
      split; [exact H1|]. cbn [ifc_lines ifc_stack ifc_current]. split; [constructor; [exact H3|exact H2]|constructor]. }
    destruct (inline_boxes_layout _ children _ acc) as [[s2 acc2]|] eqn:E2; [|discriminate E].
    apply inlines_up in E2 as (H3 & H4 & H5); [|exact Hm|exact HF|exact H1]. destruct (ifc_stack s2) as [|q stack]; [discriminate E|].
    destruct (finish_layout q (ifc_current s2) (ifc_position s2) false) as [[q' nl] pos] eqn:Ef. injection E as <- _.
    inversion H4; subst. apply finish_layout_up in Ef as [H8 _]; [|assumption..]. split; [exact H3|]. split; assumption.
  - intros st text o cb rank s acc s' acc' Hm Hs E. change (ill o (TextRun st text) cb rank s acc) with
      (match text_run_layout glyph_id glyph_width cb st text s with Some s => Some (s, acc) | None => None end) in E.
    destruct (text_run_layout glyph_id glyph_width cb st text s) as [s1|] eqn:E1; [|discriminate E]. injection E as <- _. exact (text_up cb Hm _ _ _ _ _ _ Hs E1).
  - intros st c _ o cb rank s acc s' acc' Hm Hs E. cbn [inline_level_box_layout] in E. destruct (initial_corner st s); [|discriminate E]. injection E as <- _. exact Hs.
  - intros st c _ o cb rank s acc s' acc' Hm Hs E. cbn [inline_level_box_layout] in E. injection E as <- _. exact Hs.
Qed.

Lemma inline_order_text : forall b, fst (inline_order b) = text_in b.
Proof.
  refine (proj2 (proj2 (proj2 (boxes_ind (fun _ => True) (fun _ => True) (fun _ => True) _ _ _ _ _ _ _ _ _ _ _ _)))); try (intros; exact I); try reflexivity.
  intros s f l children H. cbn [inline_order text_in both fst]. induction H as [|b children Hb H IH]; [reflexivity|]. cbn [map flat_map]. rewrite Hb, IH. reflexivity.
Qed.
Lemma inlines_order_text : forall l, flat_map fst (map inline_order l) = flat_map text_in l.
Proof. induction l as [|b l IH]; [reflexivity|]. cbn [map flat_map]. rewrite inline_order_text, IH. reflexivity. Qed.

Lemma orders : (forall c, Rc c) /\ (forall b, Rb b) /\ (forall c, Rf c) /\ (forall b, Ri b).
Proof.
  destruct (schedules glyph_id glyph_width) as (Sc & Sb & Sf & Si). apply boxes_ind.
  - (* blocks *) intros l HF o cb rank fl coll fc new Hm E. rewrite bcl_blocks in E.
    refine (blocks_ok _ _ _ _ _ _ _ _ _ _ E).
    + intros b Hb i acc. apply Sb.
    + intros b Hb i f n E1. rewrite Forall_forall in HF. exact (HF b Hb _ _ _ _ _ _ Hm E1).
  - (* inlines *) intros l HF o cb rank fl coll fc new Hm E. cbn [container_order both fst snd]. rewrite inlines_order_text.
    pose proof (InlineProps.C53_text_is_kept glyph_id glyph_width _ _ _ _ _ _ _ _ _ E) as K. rewrite bcl_inlines in E.
    destruct (inline_boxes_layout _ l _ []) as [[s n]|] eqn:E1; [|discriminate E]. pose proof E1 as E2.
    apply inlines_up in E1 as (H1 & H2 & H3); [|exact Hm| |].
    2: { apply Forall_forall. intros b _. apply all_inlines_up. }
    2: { split; [constructor|]. split; constructor. }
    unfold finish_line in E. injection E as <- <-. cbn [fc_fragments lb_boxes] in *. split; [split; [|exact K]|].
    + apply Forall_app. split; [exact H1|]. rewrite Hm. constructor; [constructor; exact H3|constructor].
    + refine (inlines_bear _ _ _ _ _ _ _ E2).
      * intros b Hb s1 acc. apply Si.
      * intros b Hb s1 s2 n2 E3. rewrite Forall_forall in HF. exact (HF b Hb _ _ _ _ _ _ E3).
  - intros st c IH o cb rank fl f new Hm E. rewrite bll_same in E. cbn [block_order].
    refine (_ (in_flow_ok (fst (container_order c)) (snd (container_order c)) _ _ _ _ _ _ Hm _ E)).
    + destruct (container_order c) as [a b] eqn:Ec. unfold after. cbn [fst snd]. tauto.
    + intros cb' coll fc n Hm' E'. exact (IH _ _ _ _ _ _ _ Hm' E').
  - intros st c IH o cb rank fl f new Hm E.
    change (Some (no_op (cb_mode cb), [abspos_box_layout st (fun cb => fcl o c cb 0 []) vzero rank]) = Some (f, new)) in E.
    injection E as <- <-. cbn [block_order fst snd]. split; [rewrite Hm; exact (ok_anon [] _ [] ok_nil)|]. apply bear_one.
    apply abspos_bears. intros cb' fc n Hm' E'. exact (IH _ _ _ _ _ Hm' E').
  - intros st c IH o cb rank fl f new Hm E. injection E as <- <-. cbn [block_order fst snd]. rewrite Hm. split; [exact (ok_anon [] _ [] ok_nil)|exact bear_nil].
  - intros st c IH o cb rank fl f new Hm E. rewrite bll_independent in E. cbn [block_order].
    refine (_ (in_flow_ok (fst (context_order c)) (snd (context_order c)) _ _ _ _ _ _ Hm _ E)).
    + destruct (context_order c) as [a b] eqn:Ec. unfold after. cbn [fst snd]. tauto.
    + intros cb' coll fc n Hm' E'. exact (IH _ _ _ _ _ Hm' E').
  - intros c f IH o cb rank fc new Hm E. rewrite fcl_bfc in E. destruct (bcl o c cb rank [] f false) as [[fc1 n]|] eqn:E1; [|discriminate E].
    injection E as <- <-. cbn [context_order fc_fragments]. exact (IH _ _ _ _ _ _ _ Hm E1).
  - intros st fi la children HF o cb rank s s' new E. rewrite ill_inline in E. destruct (start_layout cb st fi la s) as [p s1].
    destruct (inline_boxes_layout _ children _ []) as [[s2 n]|] eqn:E1; [|discriminate E].
    assert (new = n) as ->. { destruct (ifc_stack s2) as [|q stack]; [discriminate E|]. destruct (finish_layout _ _ _ _) as [[? ?] ?] in E. injection E as _ <-. reflexivity. }
    cbn [inline_order both snd]. refine (inlines_bear _ _ _ _ _ _ _ E1).
    + intros b Hb s3 acc. apply Si.
    + intros b Hb s3 s4 n2 E3. rewrite Forall_forall in HF. exact (HF b Hb _ _ _ _ _ _ E3).
  - intros st text o cb rank s s' new E. change (ill o (TextRun st text) cb rank s []) with
      (match text_run_layout glyph_id glyph_width cb st text s with Some s => Some (s, @nil abspos_fragment) | None => None end) in E.
    destruct (text_run_layout _ _ _ _ _ _); [|discriminate E]. injection E as _ <-. exact bear_nil.
  - intros st c IH o cb rank s s' new E. cbn [inline_level_box_layout] in E. destruct (initial_corner st s) as [corner|]; [|discriminate E].
    injection E as _ <-. cbn [inline_order snd app]. apply bear_one. apply abspos_bears. intros cb' fc n Hm' E'. exact (IH _ _ _ _ _ Hm' E').
  - intros st c IH o cb rank s s' new E. cbn [inline_level_box_layout] in E. injection E as _ <-. exact bear_nil.
Qed.
Theorem root_order : forall o root viewport frs, box_tree_root_layout glyph_id glyph_width o root viewport = Some frs ->
  ok (after (context_order root)) frs.
Proof.
  intros o root viewport frs E. unfold box_tree_root_layout in E. destruct (fcl o root _ 0 []) as [[fc new]|] eqn:E1; [|discriminate E].
  apply (proj1 (proj2 (proj2 orders))) in E1 as [H1 H2]; [|reflexivity].
  destruct (map_option _ new) as [more|] eqn:E2; [|discriminate E]. injection E as <-. unfold after.
  apply ok_app; [exact H1|]. refine (bear_laid_out _ _ _ _ _ H2 E2). reflexivity.
Qed.
End Font.

(** ** Document order *)
Definition same (p q : list N * list N) : Prop := nonspace (fst p) = nonspace (fst q) /\ nonspace (snd p) = nonspace (snd q).
Lemma same_refl : forall p, same p p. Proof. split; reflexivity. Qed.
Lemma same_after : forall p q, same p q -> nonspace (after p) = nonspace (after q).
Proof. intros p q [H1 H2]. unfold after. rewrite !nonspace_app, H1, H2. reflexivity. Qed.
Lemma same_later : forall p q, same p q -> same ([], after p) ([], after q).
Proof. intros p q H. split; [reflexivity|apply same_after; exact H]. Qed.
Lemma same_now : forall p q, same p q -> same (after p, []) (after q, []).
Proof. intros p q H. split; [apply same_after; exact H|reflexivity]. Qed.
Lemma same_app : forall a b c e, same (both a) (both b) -> same (both c) (both e) -> same (both (a ++ c)) (both (b ++ e)).
Proof. intros a b c e [H1 H2] [H3 H4]. split; cbn [both fst snd] in *; rewrite !flat_map_app, !nonspace_app; congruence. Qed.
Lemma same_one : forall a b, same a b -> same (both [a]) (both [b]).
Proof. intros [a a'] [b b'] [H1 H2]. split; cbn [both fst snd flat_map] in *; rewrite !app_nil_r; assumption. Qed.
Lemma both_one : forall a, both [a] = a.
Proof. intros [a b]. unfold both. cbn [flat_map fst snd]. rewrite !app_nil_r. reflexivity. Qed.
Lemma added_order : forall s l new l', text_added s l new l' -> both (map inline_order l') = both (map inline_order l ++ [(new, [])]).
Proof.
  intros s l new l' H. unfold both. inversion H; subst; rewrite ?map_app; cbn [map inline_order]; rewrite !flat_map_app; cbn [flat_map fst snd];
    rewrite ?app_nil_r, <- ?app_assoc; reflexivity.
Qed.
Definition piece_order (p : piece) : list N * list N :=
  match p with PParagraph cs => both (map content_order cs) | PBox c => content_order c end.
Lemma pieces_order : forall cs ps, pieces cs ps -> same (both (map piece_order ps)) (both (map content_order cs)).
Proof.
  intros cs ps H. induction H as [|c r ps B H IH|c r ps B H IH|c p r ps S1 S2 S3 H IH]; [apply same_refl|..].
  - change (map content_order (c :: r)) with ([content_order c] ++ map content_order r).
    apply (same_app [] [content_order c] (map piece_order ps) (map content_order r)); [|exact IH].
    destruct c as [s t|]; [|destruct B]. pose proof (nonspace_blank _ B) as E. cbn [content_text] in E.
    split; cbn [both map flat_map content_order fst snd]; [rewrite app_nil_r, E|]; reflexivity.
  - apply (same_app [content_order c] [content_order c] (map piece_order ps) (map content_order r)); [apply same_refl|exact IH].
  - rewrite map_app. apply (same_app [piece_order (PParagraph (c :: p))] (map content_order (c :: p)) (map piece_order ps) (map content_order r)); [|exact IH].
    rewrite both_one. apply same_refl.
Qed.
Lemma absolute_order : forall s e inside, absolute_style s -> content_order (CBox s e inside) = ([], after (both (map content_order inside))).
Proof. intros s e inside [[i H] H2]. cbn [content_order]. unfold is_inline. rewrite H, H2. reflexivity. Qed.
Lemma float_order : forall s e inside, float_style s -> content_order (CBox s e inside) = ([], []).
Proof.
  intros s e inside ([i H] & H2 & H3). cbn [content_order]. unfold is_inline. rewrite H. unfold is_float.
  destruct (get s position_); try (exfalso; congruence); destruct (get s float_); congruence.
Qed.
Lemma block_order' : forall s k e inside, block_style k s ->
  content_order (CBox s e inside) = if is_relative s then (after (both (map content_order inside)), []) else both (map content_order inside).
Proof.
  intros s k e inside (H & H2 & H3). cbn [content_order]. unfold is_inline. rewrite H. unfold is_float. rewrite H3.
  destruct (get s position_); congruence.
Qed.
Lemma inline_order' : forall s e inside, inline_style s -> content_order (CBox s e inside) = both (map content_order inside).
Proof. intros s e inside H. cbn [content_order]. unfold is_inline. rewrite H. reflexivity. Qed.
Lemma anonymous_static : forall p a, anonymous_style p a -> is_relative a = false.
Proof.
  intros p a H. destruct (H position_) as (v & [_ D] & A). unfold is_relative. cbn [adjusted] in A. rewrite A, D; [reflexivity|].
  unfold css_inherited. cbn. intros K. intuition discriminate.
Qed.
Lemma order_kept :
  (forall cs l, level cs l -> same (both (map inline_order l)) (both (map content_order cs))) /\
  (forall s cs c, container s cs c -> same (container_order c) (both (map content_order cs))) /\
  (forall s cs c, context s cs c -> same (context_order c) (both (map content_order cs))) /\
  (forall a ps bs, block_boxes a ps bs -> is_relative a = false -> same (both (map block_order bs)) (both (map piece_order ps))).
Proof.
  assert (C1 : forall a b r q, same a b -> same (both r) (both q) -> same (both (a :: r)) (both (b :: q))).
  { intros a b r q H1 H2. apply (same_app [a] [b] r q); [apply same_one; exact H1|exact H2]. }
  apply BoxTreeProofs.spec_induct.
  - apply same_refl.
  - intros cs l s t l' _ IH A. rewrite (added_order _ _ _ _ A), map_app. apply same_app; [exact IH|]. apply same_one.
    split; [apply nonspace_collapse|reflexivity].
  - intros cs l s e inside boxes _ IH Hs _ IH2. rewrite !map_app. apply same_app; [exact IH|]. apply same_one.
    rewrite inline_order' by exact Hs. exact IH2.
  - intros cs l s e inside c _ IH Hs _ IH2. rewrite !map_app. apply same_app; [exact IH|]. apply same_one.
    rewrite absolute_order by exact Hs. apply same_later. exact IH2.
  - intros cs l s e inside c _ IH Hs _ IH2. rewrite !map_app. apply same_app; [exact IH|]. apply same_one.
    rewrite float_order by exact Hs. apply same_refl.
  - intros s cs p l P _ IH. pose proof (pieces_order _ _ P) as K. cbn [map piece_order] in K. rewrite both_one in K.
    destruct IH as [I1 I2], K as [K1 K2]. split; cbn [container_order]; congruence.
  - intros s cs ps a boxes P _ An _ IH. pose proof (pieces_order _ _ P) as [K1 K2]. destruct (IH (anonymous_static _ _ An)) as [I1 I2].
    split; cbn [container_order]; congruence.
  - intros s cs c f _ IH _. exact IH.
  - intros a _. apply same_refl.
  - intros a p l ps bs _ IH _ IH2 Ha. cbn [map]. apply C1; [|exact (IH2 Ha)]. cbn [block_order container_order piece_order]. rewrite Ha. exact IH.
  - intros a s e inside c ps bs Hs _ IH _ IH2 Ha. cbn [map]. apply C1; [|exact (IH2 Ha)]. cbn [block_order piece_order].
    rewrite (block_order' _ _ _ _ Hs). destruct (is_relative s); [apply same_now|]; exact IH.
  - intros a s e inside c ps bs Hs _ IH _ IH2 Ha. cbn [map]. apply C1; [|exact (IH2 Ha)]. cbn [block_order piece_order].
    rewrite (block_order' _ _ _ _ Hs). destruct (is_relative s); [apply same_now|]; exact IH.
  - intros a s e inside c ps bs Hs _ IH _ IH2 Ha. cbn [map]. apply C1; [|exact (IH2 Ha)]. cbn [block_order piece_order].
    rewrite absolute_order by exact Hs. apply same_later. exact IH.
  - intros a s e inside c ps bs Hs _ IH _ IH2 Ha. cbn [map]. apply C1; [|exact (IH2 Ha)]. cbn [block_order piece_order].
    rewrite float_order by exact Hs. apply same_refl.
Qed.
Lemma root_same : forall s cs c boxes f, get s display_ <> DisplayNone -> context s cs c -> root_boxes s c boxes f ->
  nonspace (after (context_order (BFC (BlockLevelBoxes boxes) f))) = nonspace (document_order s cs).
Proof.
  intros s cs c boxes f Hd Hc Hr. apply (proj1 (proj2 (proj2 order_kept))) in Hc. pose proof (same_after _ _ Hc) as K. unfold document_order.
  cbn [context_order container_order].
  inversion Hr; subst; cbn [map]; rewrite both_one; cbn [block_order].
  - rewrite H. unfold after at 1. cbn [fst snd app]. rewrite K. destruct (get s display_); [congruence|reflexivity..].
  - assert (F : is_float s = true) by (unfold is_float; destruct (get s float_); congruence). rewrite F.
    destruct (get s position_), (get s display_); try congruence; reflexivity.
  - assert (F : is_float s = false) by (unfold is_float; rewrite H0; reflexivity). rewrite F.
    assert (K2 : nonspace (after (if is_relative s then (after (context_order c), []) else context_order c)) = nonspace (after (both (map content_order cs)))).
    { destruct (is_relative s); [|exact K]. unfold after at 1. cbn [fst snd]. rewrite app_nil_r. exact K. }
    rewrite K2. destruct (get s position_), (get s display_); try congruence; reflexivity.
Qed.
Lemma left_out_nonspace : forall a b, some_spaces_left_out a b -> nonspace a = nonspace b.
Proof.
  intros a b H. induction H; [reflexivity|..]; unfold nonspace in *; cbn [filter].
  - rewrite IHsome_spaces_left_out. reflexivity.
  - exact IHsome_spaces_left_out.
Qed.
