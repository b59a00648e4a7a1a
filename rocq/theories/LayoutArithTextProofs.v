(** The text of a page with any arithmetic, and that all fragments are upright. *)
From Coq Require Import QArith Permutation.
From Verif Require Import Base Dom StyleValues StyleProperties StyleSpec PdfObject PdfConvert Geom Text LayoutTree Layout LayoutProofs LayoutBlockProofs
  LayoutScheduleProofs BoxTreeSpec InlineSpec InlineProofs BoxShapeProofs PaintSpec PaintTextProofs Arith32 LayoutArith LayoutArithSpec LayoutArithProofs.
Local Open Scope nat_scope.

Section Arith.
Variable ar : arith.
(** Upright, and texts have the size of their letters *)
Definition text_size (s : computed_values) (r : rect Q) (t : shaped) : Prop :=
  size r = mkVec (a_mul ar (get s font_size) (advance_width t)) (a_mul ar (get s font_size) (a_lit ar (12 # 10))).
Inductive up : fragment -> Prop :=
| up_box : forall b l, Forall up l -> up (FBox b l)
| up_anon : forall r l, Forall up l -> up (FAnonymous r HL l)
| up_text : forall s r t, text_size s r t -> up (FText s r t).
Lemma up_up : forall f, up f -> PaintTextProofs.up f.
Proof.
  fix IH 2. intros f H. destruct H as [b l H|r l H|s r t _]; constructor; (induction H as [|f l Hf Hl IHl]; constructor; [apply IH; exact Hf|exact IHl]).
Qed.
Definition sized (p : list fragment * fragment) : Prop := match snd p with FText s r t => text_size s r t | _ => True end.
Lemma up_sized : forall f, up f -> forall above, Forall sized (with_ancestors above f).
Proof.
  fix IH 2. intros f H above. destruct H as [b l H|r l H|s r t H]; cbn [with_ancestors]; (constructor; [exact I || exact H|]); [| |constructor].
  - generalize (above ++ [FBox b l]). intros a. induction H as [|f l Hf Hl IHl]; cbn [flat_map]; [constructor|]. apply Forall_app. split; [apply IH; exact Hf|exact IHl].
  - generalize (above ++ [FAnonymous r HL l]). intros a. induction H as [|f l Hf Hl IHl]; cbn [flat_map]; [constructor|]. apply Forall_app. split; [apply IH; exact Hf|exact IHl].
Qed.
Section Font.
Variable glyph_id : N -> res font_error N.
Variable glyph_width : N -> res font_error Q.
Notation bcl := ((block_container_layout_in ar) glyph_id glyph_width).
Notation bll := ((block_level_box_layout_in ar) glyph_id glyph_width).
Notation fcl := ((bfc_layout_in ar) glyph_id glyph_width).
Notation ill := ((inline_level_box_layout_in ar) glyph_id glyph_width).
Notation shows := (shows glyph_id).
Notation ids := (Forall2 (fun ch g => glyph_id ch = Ok g)).

Lemma shows_nil : shows [] [].
Proof. exists []. split; constructor. Qed.
Lemma shows_app : forall a ga b gb, shows a ga -> shows b gb -> shows (a ++ b) (ga ++ gb).
Proof.
  intros a ga b gb (t & H1 & H2) (t' & H3 & H4). exists (t ++ t'). split; [apply left_out_app; assumption|apply Forall2_app; assumption].
Qed.
Lemma left_out_refl : forall a, some_spaces_left_out a a.
Proof. induction a; constructor; assumption. Qed.

Lemma ids_length : forall t gs, ids t gs -> List.length t = List.length gs.
Proof. intros t gs H. induction H; cbn [List.length]; congruence. Qed.

(** ** Lines *)
Lemma append_ids : forall sh ch sh' t, append_char_in ar glyph_id glyph_width sh ch = Ok sh' -> ids t (glyphs sh) -> ids (t ++ [ch]) (glyphs sh').
Proof.
  intros sh ch sh' t E H. unfold append_char_in in E. destruct (glyph_id ch) as [id| |] eqn:Ei; [|discriminate E..]. cbn [bind] in E.
  destruct (glyph_width id) as [w| |]; [|discriminate E..]. cbn [bind] in E. injection E as <-. cbn [glyphs]. apply Forall2_app; [exact H|].
  constructor; [exact Ei|constructor].
Qed.
Definition opportunity (t chars : list N) (last : option (shaped_state * list N)) : Prop :=
  match last with
  | Some (st, iter) => exists line word, t = line ++ 32%N :: word /\ iter = word ++ chars /\ st_glyphs st = List.length line
  | None => True
  end.
Lemma restore_ids : forall sh st line t, ids (line ++ t) (glyphs sh) -> st_glyphs st = List.length line -> ids line (glyphs (restore sh st)).
Proof.
  intros sh st line t H E. apply Forall2_app_inv_l in H as (g1 & g2 & H1 & _ & Eg). unfold restore. cbn [glyphs]. rewrite E, Eg, (ids_length _ _ H1).
  rewrite firstn_app, firstn_all, Nat.sub_diag. cbn [firstn]. rewrite app_nil_r. exact H1.
Qed.
Lemma fill_ids : forall chars av fs sh last t sh' rest, ids t (glyphs sh) -> opportunity t chars last ->
  fill_line_in ar glyph_id glyph_width av fs chars sh last = Some (sh', rest) ->
  exists line, ids line (glyphs sh') /\ (t ++ chars = line ++ rest \/ t ++ chars = line ++ 32%N :: rest).
Proof.
  assert (B : forall chars sh last t sh' rest, ids t (glyphs sh) -> opportunity t chars last ->
    match last with Some (st, iter) => Some (restore sh st, iter) | None => None end = Some (sh', rest) ->
    exists line, ids line (glyphs sh') /\ (t ++ chars = line ++ rest \/ t ++ chars = line ++ 32%N :: rest)).
  { intros chars sh last t sh' rest H Ho E. destruct last as [[st iter]|]; [|discriminate E]. injection E as <- <-.
    destruct Ho as (line & word & -> & -> & El). exists line. split; [exact (restore_ids _ _ _ _ H El)|]. right. rewrite <- app_assoc. reflexivity. }
  induction chars as [|ch chars IH]; intros av fs sh last t sh' rest H Ho E; cbn [fill_line_in] in E.
  - assert (D : Some (sh, []) = Some (sh', rest) -> exists line, ids line (glyphs sh') /\ (t ++ [] = line ++ rest \/ t ++ [] = line ++ 32%N :: rest)).
    { intros D. injection D as <- <-. exists t. split; [exact H|left; reflexivity]. }
    destruct (a_gt _ _ _); [|exact (D E)]. destruct last as [[st iter]|]; [|exact (D E)]. exact (B [] sh (Some (st, iter)) t sh' rest H Ho E).
  - destruct (N.eqb_spec ch 32) as [->|Hch]; cbn [andb] in E.
    + destruct (a_gt _ _ _).
      * destruct last as [[st iter]|]; [exact (B (32%N :: chars) sh (Some (st, iter)) t sh' rest H Ho E)|]. injection E as <- <-. exists t. split; [exact H|right; reflexivity].
      * destruct (append_char_in ar glyph_id glyph_width sh 32) as [sh1| |] eqn:Ea; [|discriminate E..].
        destruct (IH av fs sh1 (Some (save sh, chars)) (t ++ [32%N]) sh' rest (append_ids _ _ _ _ Ea H)) as (line & H1 & H2); [|exact E|].
        { exists t, []. split; [reflexivity|]. split; [reflexivity|]. cbn [save st_glyphs]. symmetry. exact (ids_length _ _ H). }
        exists line. split; [exact H1|]. rewrite <- !app_assoc in H2. exact H2.
    + destruct (append_char_in ar glyph_id glyph_width sh ch) as [sh1| |] eqn:Ea; [|discriminate E..].
      destruct (IH av fs sh1 last (t ++ [ch]) sh' rest (append_ids _ _ _ _ Ea H)) as (line & H1 & H2); [|exact E|].
      { destruct last as [[st iter]|]; [|exact I]. destruct Ho as (line & word & -> & -> & El). exists line, (word ++ [ch]). rewrite <- !app_assoc. split; [reflexivity|]. split; [reflexivity|exact El]. }
      exists line. split; [exact H1|]. rewrite <- !app_assoc in H2. exact H2.
Qed.

(** Everything in the state, in the order of the text *)
Definition level_glyphs (nl : nesting_level) : list N := flat_map glyphs_in (nl_fragments nl).
Definition stack_glyphs (l : list partial_inline_box) : list N := flat_map (fun p => level_glyphs (pi_parent p)) (rev l).
Definition state_glyphs (s : ifc_state) : list N :=
  flat_map glyphs_in (lb_boxes (ifc_lines s)) ++ stack_glyphs (ifc_stack s) ++ level_glyphs (ifc_current s).
Lemma stack_cons : forall p l, stack_glyphs (p :: l) = stack_glyphs l ++ level_glyphs (pi_parent p).
Proof. intros p l. unfold stack_glyphs. cbn [rev]. rewrite flat_map_app. cbn [flat_map]. rewrite app_nil_r. reflexivity. Qed.
Lemma finish_layout_glyphs : forall p nl pos br p' nl' pos', finish_layout_in ar p nl pos br = (p', nl', pos') ->
  level_glyphs (pi_parent p') = level_glyphs (pi_parent p) ++ level_glyphs nl /\ level_glyphs nl' = [].
Proof.
  intros p nl pos br p' nl' pos' E. unfold finish_layout_in in E.
  destruct (if (_ && _)%bool then _ else _) as [[[a b] c] e] in E. injection E as <- <- _. split; [|reflexivity].
  unfold level_glyphs. cbn [pi_parent nl_fragments]. rewrite flat_map_app. cbn [flat_map glyphs_in]. rewrite app_nil_r. reflexivity.
Qed.
Lemma break_glyphs : forall cb stack nl pos lb nl' st lb', break_levels_in ar cb stack nl pos lb = (nl', st, lb') ->
  flat_map glyphs_in (lb_boxes lb') = flat_map glyphs_in (lb_boxes lb) ++ stack_glyphs stack ++ level_glyphs nl /\
  level_glyphs nl' = [] /\ stack_glyphs st = [].
Proof.
  intros cb. induction stack as [|p stack IH]; intros nl pos lb nl' st lb' E; cbn [break_levels_in] in E.
  - unfold finish_line_in in E. injection E as <- <- <-. split; [|split; reflexivity]. cbn [lb_boxes]. rewrite flat_map_app. cbn [flat_map glyphs_in].
    rewrite app_nil_r. reflexivity.
  - destruct (finish_layout_in ar p nl pos true) as [[p1 nl1] pos1] eqn:Ef. apply finish_layout_glyphs in Ef as [G1 G2].
    destruct (break_levels_in ar cb stack (pi_parent (after_break p1)) pos1 lb) as [[par rest] lb1] eqn:Eb. injection E as <- <- <-.
    destruct (IH _ _ _ _ _ _ Eb) as (H1 & H2 & H3). split; [|split; [exact G2|]].
    + rewrite H1. change (level_glyphs (pi_parent (after_break p1))) with (level_glyphs (pi_parent p1)). rewrite G1, stack_cons, <- !app_assoc. reflexivity.
    + rewrite stack_cons. change (pi_parent (set_parent (after_break p1) par)) with par. rewrite H2, H3. reflexivity.
Qed.
Lemma new_line_glyphs : forall cb s, state_glyphs (new_line_in ar cb s) = state_glyphs s.
Proof.
  intros cb s. unfold new_line_in. destruct (break_levels_in _ _ _ _ _ _) as [[cur stk] lb] eqn:Eb. apply break_glyphs in Eb as (H1 & H2 & H3).
  unfold state_glyphs. cbn [ifc_lines ifc_stack ifc_current]. rewrite H1, H2, H3, !app_nil_r. reflexivity.
Qed.
Lemma push_glyphs : forall st sh s, state_glyphs (push_text_in ar st sh s) = state_glyphs s ++ glyphs sh.
Proof.
  intros st sh s. unfold state_glyphs, push_text_in, level_glyphs. cbn [ifc_lines ifc_stack ifc_current nl_fragments]. rewrite flat_map_app. cbn [flat_map glyphs_in].
  rewrite app_nil_r, <- !app_assoc. reflexivity.
Qed.
Lemma text_glyphs : forall fuel cb st av chars s s', text_run_lines_in ar glyph_id glyph_width fuel cb st av chars s = Some s' ->
  exists gs, state_glyphs s' = state_glyphs s ++ gs /\ shows chars gs /\ List.length (ifc_stack s') = List.length (ifc_stack s).
Proof.
  induction fuel as [|fuel IH]; intros cb st av chars s s' E; cbn [text_run_lines_in] in E; [discriminate E|].
  destruct (fill_line_in _ _ _ _ _ _ _ _) as [[sh rest]|] eqn:Ef; [|discriminate E].
  destruct (fill_ids chars av (get st font_size) new_with_naive_shaping None [] sh rest (Forall2_nil _) I Ef) as (line & H1 & H2). cbn [app] in H2.
  assert (K : exists gs, state_glyphs s' = state_glyphs (push_text_in ar st sh s) ++ gs /\ shows rest gs /\ List.length (ifc_stack s') = List.length (ifc_stack s)).
  { destruct rest as [|c rest].
    - injection E as <-. exists []. split; [rewrite app_nil_r; reflexivity|]. split; [exact shows_nil|reflexivity].
    - destruct (IH _ _ _ _ _ _ E) as (gs & H3 & H4 & H5). exists gs. rewrite new_line_glyphs in H3. rewrite new_line_stack in H5. split; [exact H3|]. split; [exact H4|exact H5]. }
  destruct K as (gs & K1 & K2 & K3). exists (glyphs sh ++ gs). rewrite K1, push_glyphs, <- app_assoc. split; [reflexivity|]. split; [|exact K3].
  assert (L : shows line (glyphs sh)) by (exists line; split; [apply left_out_refl|exact H1]).
  destruct H2 as [->| ->]; [apply shows_app; assumption|]. apply shows_app; [exact L|]. destruct K2 as (t & L1 & L2). exists t. split; [apply left_out; exact L1|exact L2].
Qed.
Definition Gi (b : inline_level_box) : Prop := forall o cb rank s acc s' acc', ill o b cb rank s acc = Some (s', acc') ->
  exists gs, state_glyphs s' = state_glyphs s ++ gs /\ shows (text_in b) gs /\ List.length (ifc_stack s') = List.length (ifc_stack s).
Lemma inlines_glyphs : forall o cb rank l s acc s' acc', Forall Gi l ->
  inline_boxes_layout (fun b s acc => ill o b cb rank s acc) l s acc = Some (s', acc') ->
  exists gs, state_glyphs s' = state_glyphs s ++ gs /\ shows (flat_map text_in l) gs /\ List.length (ifc_stack s') = List.length (ifc_stack s).
Proof.
  intros o cb rank. induction l as [|b l IH]; intros s acc s' acc' H E; cbn [inline_boxes_layout flat_map] in *.
  - injection E as <- _. exists []. split; [rewrite app_nil_r; reflexivity|]. split; [exact shows_nil|reflexivity].
  - destruct (ill o b cb rank s acc) as [[s1 a1]|] eqn:E1; [|discriminate E]. inversion H as [|? ? Hb Hl]; subst.
    destruct (Hb _ _ _ _ _ _ _ E1) as (g1 & H1 & H2 & L1). destruct (IH _ _ _ _ Hl E) as (g2 & H3 & H4 & L2).
    exists (g1 ++ g2). rewrite H3, H1, <- app_assoc. split; [reflexivity|]. split; [apply shows_app; assumption|congruence].
Qed.
Lemma all_inlines_glyphs : forall b, Gi b.
Proof.
  refine (proj2 (proj2 (proj2 (boxes_ind (fun _ => True) (fun _ => True) (fun _ => True) Gi _ _ _ _ _ _ _ _ _ _ _)))); try (intros; exact I).
  - intros st fi la children HF o cb rank s acc s' acc' E. rewrite ill_inline in E.
    destruct (start_layout_in ar cb st fi la s) as [p s1] eqn:Es.
    destruct (inline_boxes_layout _ children _ acc) as [[s2 acc2]|] eqn:E2; [|discriminate E].
    apply inlines_glyphs in E2 as (gs & H1 & H2 & L); [|exact HF]. exists gs.
    destruct (ifc_stack s2) as [|q stack] eqn:Eq; [discriminate E|].
    destruct (finish_layout_in ar q (ifc_current s2) (ifc_position s2) false) as [[q' nl] pos] eqn:Ef. injection E as <- _.
    apply finish_layout_glyphs in Ef as [G1 _]. unfold start_layout_in in Es. destruct (if fi then _ else _) as [[[a b] c] e] in Es. injection Es as <- <-.
    cbn [ifc_stack List.length] in L. split; [|split; [exact H2|cbn [ifc_stack]; lia]].
    unfold state_glyphs in *. cbn [ifc_lines ifc_stack ifc_current] in *. rewrite Eq in H1. rewrite !stack_cons in H1. cbn [pi_parent] in H1. rewrite G1.
    rewrite <- !app_assoc in *. rewrite H1. unfold level_glyphs. cbn [nl_fragments flat_map app]. reflexivity.
  - intros st text o cb rank s acc s' acc' E. change (ill o (TextRun st text) cb rank s acc) with
      (match text_run_layout_in ar glyph_id glyph_width cb st text s with Some s => Some (s, acc) | None => None end) in E.
    destruct (text_run_layout_in ar glyph_id glyph_width cb st text s) as [s1|] eqn:E1; [|discriminate E]. injection E as <- _. exact (text_glyphs _ _ _ _ _ _ _ E1).
  - intros st c _ o cb rank s acc s' acc' E. cbn [inline_level_box_layout_in] in E. destruct (initial_corner st s); [|discriminate E]. injection E as <- _.
    exists []. split; [rewrite app_nil_r; reflexivity|]. split; [exact shows_nil|reflexivity].
  - intros st c _ o cb rank s acc s' acc' E. cbn [inline_level_box_layout_in] in E. injection E as <- _.
    exists []. split; [rewrite app_nil_r; reflexivity|]. split; [exact shows_nil|reflexivity].
Qed.

Definition ok (t : list N) (frs : list fragment) : Prop := Forall up frs /\ shows t (flat_map glyphs_in frs).
Lemma ok_nil : ok [] [].
Proof. split; [constructor|exact shows_nil]. Qed.
Lemma ok_app : forall t f t' f', ok t f -> ok t' f' -> ok (t ++ t') (f ++ f').
Proof.
  intros t f t' f' [H1 H2] [H3 H4]. split; [apply Forall_app; split; assumption|]. rewrite flat_map_app. apply shows_app; assumption.
Qed.
Lemma ok_anon : forall t r frs, ok t frs -> ok t [FAnonymous r HL frs].
Proof. intros t r frs [H1 H2]. split; [constructor; [constructor; exact H1|constructor]|]. cbn [flat_map glyphs_in]. rewrite app_nil_r. exact H2. Qed.
Lemma ok_box : forall t b frs, ok t frs -> ok t [FBox b frs].
Proof. intros t r frs [H1 H2]. split; [constructor; [constructor; exact H1|constructor]|]. cbn [flat_map glyphs_in]. rewrite app_nil_r. exact H2. Qed.

(** ** Absolutely positioned boxes *)
Definition bears (t : list N) (a : abspos_fragment) : Prop :=
  forall r i b dcb f, dcb_mode dcb = HL ->
    (abspos_layout_in ar) (mkAbspos (ap_style a) (ap_contents a) r i (ap_inline_size a) b (ap_block_size a)) dcb = Some f -> ok t [f].
Definition bear (t : list N) (l : list abspos_fragment) : Prop := exists outs, Forall2 bears outs l /\ concat outs = t.
Lemma bear_nil : bear [] [].
Proof. exists []. split; [constructor|reflexivity]. Qed.
Lemma bear_one : forall t a, bears t a -> bear t [a].
Proof. intros t a H. exists [t]. split; [constructor; [exact H|constructor]|]. cbn [concat]. apply app_nil_r. Qed.
Lemma bear_app : forall t l t' l', bear t l -> bear t' l' -> bear (t ++ t') (l ++ l').
Proof.
  intros t l t' l' (o & H1 & <-) (o' & H3 & <-). exists (o ++ o'). split; [apply Forall2_app; assumption|apply concat_app].
Qed.
Lemma bear_laid_out : forall dcb, dcb_mode dcb = HL -> forall l t frs, bear t l -> map_option (fun a => (abspos_layout_in ar) a dcb) l = Some frs -> ok t frs.
Proof.
  intros dcb Hd l t frs (outs & F & <-) E. revert frs E. induction F as [|o a outs l Ha F IH]; intros frs E; cbn [map_option concat] in *.
  - injection E as <-. exact ok_nil.
  - destruct ((abspos_layout_in ar) a dcb) as [f|] eqn:Ef; [|discriminate E]. destruct (map_option _ l) as [fs|]; [|discriminate E]. injection E as <-.
    change (f :: fs) with ([f] ++ fs). apply ok_app; [|apply IH; reflexivity].
    apply (Ha (ap_tree_rank a) (ap_inline_start a) (ap_block_start a) dcb f Hd). destruct a; exact Ef.
Qed.
Lemma positioned_ok : forall t t' l frs sz pad ch, ok t frs -> bear t' l ->
  (in_positioned_containing_block_in ar) (fun cb a => (abspos_layout_in ar) a cb) l frs sz pad HL = Some ch -> ok (t ++ t') ch.
Proof.
  intros t t' l frs sz pad ch H B E. unfold in_positioned_containing_block_in in E. destruct l as [|a l].
  - injection E as <-. destruct B as (outs & F & <-). inversion F; subst. cbn [concat]. rewrite app_nil_r. exact H.
  - destruct (map_option _ (a :: l)) as [c|] eqn:Ec; [|discriminate E]. injection E as <-.
    apply ok_app; [exact H|]. apply ok_anon. refine (bear_laid_out _ _ _ _ _ B Ec). reflexivity.
Qed.
Lemma abspos_bears : forall t t' style contents r i isz b bsz,
  (forall cb fc new, cb_mode cb = HL -> contents cb = Some (fc, new) -> ok t (fc_fragments fc) /\ bear t' new) ->
  bears (t ++ t') (mkAbspos style contents r i isz b bsz).
Proof.
  intros t t' style contents r i isz b bsz H r' i' b' dcb f Hd E. cbn [ap_style ap_contents ap_inline_size ap_block_size abspos_layout_in] in E.
  destruct ((solve_axis_in ar) _ _ _ _ _ i' _) as [[[ia is1] mil] mir]. destruct ((solve_axis_in ar) _ _ _ _ _ b' _) as [[[ba bs1] mbs] mbe].
  set (cbc := mkCB _ _ _) in E. destruct (wmode_eqb _ _); [|discriminate E].
  destruct (contents cbc) as [[fc new]|] eqn:Ec; [|discriminate E]. destruct (H cbc fc new eq_refl Ec) as [Hf Hn].
  change (cb_mode cbc) with HL in E. destruct ((in_positioned_containing_block_in ar) _ _ _ _ _ _) as [ch|] eqn:Ep in E; [|discriminate E].
  injection E as <-. apply ok_box. exact (positioned_ok _ _ _ _ _ _ _ Hf Hn Ep).
Qed.
Lemma adjust_bears : forall frs rank a a' t, bears t a -> (adjust_static_position_in ar) frs rank a = Some a' -> bears t a'.
Proof.
  intros frs rank a a' t H E. unfold adjust_static_position_in in E. destruct (match nth_error frs (ap_tree_rank a) with Some _ => _ | None => _ end); [|discriminate E].
  injection E as <-. exact H.
Qed.
Lemma adjust_bear : forall frs rank l l' t, bear t l -> (adjust_static_positions_in ar) l frs rank = Some l' -> bear t l'.
Proof.
  intros frs rank l l' t (outs & F & <-) E. exists outs. split; [|reflexivity]. unfold adjust_static_positions_in in E. revert l' E.
  induction F as [|o a outs l Ha F IH]; intros l' E; cbn [map_option] in E; [injection E as <-; constructor|].
  destruct ((adjust_static_position_in ar) frs rank a) as [a'|] eqn:Ea; [|discriminate E]. destruct (map_option _ l) as [l2|]; [|discriminate E]. injection E as <-.
  constructor; [exact (adjust_bears _ _ _ _ _ Ha Ea)|apply IH; reflexivity].
Qed.

(** ** Placement *)
Lemma place_same : forall f s f' s', (place_block_level_fragment_in ar) f s = Some (f', s') -> glyphs_in f' = glyphs_in f /\ (up f -> up f').
Proof.
  intros f s f' s' E. unfold place_block_level_fragment_in in E. destruct f as [b ch|r m ch|]; [| |discriminate E].
  - assert (K : forall r, glyphs_in (FBox (with_content_rect b r) ch) = glyphs_in (FBox b ch) /\ (up (FBox b ch) -> up (FBox (with_content_rect b r) ch))).
    { intros r. split; [reflexivity|]. intros H. inversion H; subst. constructor. assumption. }
    destruct (next_collapses_with_parent_start s).
    + destruct (a_eq ar _ _); [|discriminate E]. destruct (collapsed_through (bf_margins b)).
      * injection E as <- _. split; [reflexivity|auto].
      * injection E as <- _. apply K.
    + destruct (collapsed_through (bf_margins b)); injection E as <- _; apply K.
  - destruct ch; [|discriminate E]. destruct (a_eq ar _ _); [|discriminate E]. injection E as <- _. split; [reflexivity|]. intros H. inversion H; subst. constructor. constructor.
Qed.
Lemma place_all_same : forall t l s l' s', ok t l -> (place_all_in ar) l s = Some (l', s') -> ok t l'.
Proof.
  intros t l s l' s' [H1 H2] E.
  assert (K : flat_map glyphs_in l' = flat_map glyphs_in l /\ (Forall up l -> Forall up l')).
  { clear - E. revert s l' s' E. induction l as [|f l IH]; intros s l' s' E; cbn [place_all_in] in E.
    - injection E as <- _. auto.
    - destruct ((place_block_level_fragment_in ar) f s) as [[f1 s1]|] eqn:E1; [|discriminate E].
      destruct ((place_all_in ar) l s1) as [[l1 s2]|] eqn:E2; [|discriminate E]. injection E as <- _.
      apply place_same in E1 as [G U]. destruct (IH _ _ _ E2) as [G2 U2]. cbn [flat_map]. rewrite G, G2. split; [reflexivity|].
      intros H. inversion H; subst. constructor; auto. }
  destruct K as [K1 K2]. split; [auto|]. rewrite K1. exact H2.
Qed.

(** ** Boxes *)
Definition Rc (c : block_container) : Prop := forall o cb rank fl coll fc new, cb_mode cb = HL ->
  bcl o c cb rank [] fl coll = Some (fc, new) -> ok (fst (container_order c)) (fc_fragments fc) /\ bear (snd (container_order c)) new.
Definition Rb (b : block_level_box) : Prop := forall o cb rank fl f new, cb_mode cb = HL ->
  bll o b cb rank [] fl = Some (f, new) -> ok (fst (block_order b)) [f] /\ bear (snd (block_order b)) new.
Definition Rf (c : block_formatting_context) : Prop := forall o cb rank fc new, cb_mode cb = HL ->
  fcl o c cb rank [] = Some (fc, new) -> ok (fst (context_order c)) (fc_fragments fc) /\ bear (snd (context_order c)) new.
(** Of inline-level boxes: what is in the state is upright, and the absolutely positioned boxes *)
Definition Ri (b : inline_level_box) : Prop := forall o cb rank s s' new,
  ill o b cb rank s [] = Some (s', new) -> bear (snd (inline_order b)) new.

Lemma each_ok : forall (lay : nat -> block_level_box -> _ -> _) l i frs new,
  (forall b, In b l -> forall i acc, lay i b acc = frame acc (lay i b [])) ->
  (forall b, In b l -> forall i f new, lay i b [] = Some (f, new) -> ok (fst (block_order b)) [f] /\ bear (snd (block_order b)) new) ->
  layout_each lay i l [] = Some (frs, new) ->
  ok (flat_map fst (map block_order l)) frs /\ bear (flat_map snd (map block_order l)) new.
Proof.
  intros lay l. induction l as [|b l IH]; intros i frs new Hf H E; cbn [layout_each map flat_map] in *.
  - injection E as <- <-. split; [exact ok_nil|exact bear_nil].
  - destruct (lay i b []) as [[f n1]|] eqn:E1; [|discriminate E].
    assert (E2 : layout_each lay (S i) l n1 = frame n1 (layout_each lay (S i) l [])) by (apply each_frame; intros b' Hb'; apply Hf; right; exact Hb').
    rewrite E2 in E. destruct (layout_each lay (S i) l []) as [[fs n2]|] eqn:E3; [|discriminate E]. cbn [frame] in E. injection E as <- <-.
    destruct (H b (or_introl eq_refl) i f n1 E1) as [H1 H2].
    destruct (IH (S i) fs n2 (fun b' Hb => Hf b' (or_intror Hb)) (fun b' Hb => H b' (or_intror Hb)) E3) as [H3 H4].
    split; [exact (ok_app _ _ _ _ H1 H3)|exact (bear_app _ _ _ _ H2 H4)].
Qed.
Lemma blocks_ok : forall (lay : nat -> block_level_box -> _ -> _) t l rank fl coll fc new,
  (forall b, In b l -> forall i acc, lay i b acc = frame acc (lay i b [])) ->
  (forall b, In b l -> forall i f new, lay i b [] = Some (f, new) -> ok (fst (block_order b)) [f] /\ bear (snd (block_order b)) new) ->
  (layout_block_level_children_in ar) lay t l rank [] fl coll = Some (fc, new) ->
  ok (flat_map fst (map block_order l)) (fc_fragments fc) /\ bear (flat_map snd (map block_order l)) new.
Proof.
  intros lay t l rank fl coll fc new Hf H E. unfold layout_block_level_children_in in E.
  set (s0 := mkPS coll cm_zero cm_zero 0%Q) in E.
  assert (E1 : (if fl then (layout_and_place_in ar) lay 0 l [] s0
                else match mapfold_reduce_into t 0 (map (fun b i acc => lay i b acc) l) [] with
                     | Some (fs, acc) => match (place_all_in ar) fs s0 with Some (fs, s) => Some (fs, acc, s) | None => None end
                     | None => None end) =
               match layout_each lay 0 l [] with
               | Some (fs, acc) => match (place_all_in ar) fs s0 with Some (fs, s) => Some (fs, acc, s) | None => None end
               | None => None end).
  { destruct fl; [apply layout_and_place_same|]. rewrite mapfold_each; [reflexivity|exact Hf]. }
  rewrite E1 in E. clear E1. destruct (layout_each lay 0 l []) as [[frs news]|] eqn:E1; [|discriminate E].
  destruct ((place_all_in ar) frs s0) as [[frs' s']|] eqn:E2; [|discriminate E]. cbn [List.length skipn firstn] in E.
  destruct ((adjust_static_positions_in ar) news frs' rank) as [adj|] eqn:E3; [|discriminate E]. injection E as <- <-. cbn [fc_fragments app].
  destruct (each_ok lay l 0 frs news Hf H E1) as [H1 H2]. split; [exact (place_all_same _ _ _ _ _ H1 E2)|exact (adjust_bear _ _ _ _ _ H2 E3)].
Qed.
Lemma in_flow_ok : forall t t' cb style kind lc f new, cb_mode cb = HL ->
  (forall cb coll fc new, cb_mode cb = HL -> lc cb [] coll = Some (fc, new) -> ok t (fc_fragments fc) /\ bear t' new) ->
  (layout_in_flow_non_replaced_block_level_in ar) cb [] style kind lc = Some (f, new) ->
  let o := if is_relative style then (t ++ t', []) else (t, t') in ok (fst o) [f] /\ bear (snd o) new.
Proof.
  intros t t' cb style kind lc f new Hm H E. unfold layout_in_flow_non_replaced_block_level_in in E.
  set (cbc := mkCB _ _ _) in E. rewrite Hm in E. change (wmode_eqb HL (cb_mode cbc)) with true in E. cbn iota in E.
  change (cb_mode cbc) with HL in E. set (sc := (is_same kind && _)%bool) in E.
  change (is_relatively_positioned (get style position_)) with (is_relative style) in E.
  replace (if is_relative style then [] else []) with (@nil abspos_fragment) in E by (destruct (is_relative style); reflexivity).
  destruct (lc cbc [] sc) as [[fc n]|] eqn:El; [|discriminate E]. destruct (H cbc sc fc n eq_refl El) as [H1 H2].
  destruct (if sc then _ else _) as [start ic] in E. destruct (if (is_same kind && _ && _)%bool then _ else _) as [end_ fsz] in E.
  destruct (is_relative style).
  - destruct ((in_positioned_containing_block_in ar) _ _ _ _ _ _) as [ch|] eqn:Ep in E; [|discriminate E]. injection E as <- <-. cbn [fst snd].
    split; [apply ok_box; exact (positioned_ok _ _ _ _ _ _ _ H1 H2 Ep)|exact bear_nil].
  - injection E as <- <-. split; [apply ok_box; exact H1|exact H2].
Qed.
Lemma inlines_bear : forall (one : inline_level_box -> _ -> _ -> _) l s s' new,
  (forall b, In b l -> forall s acc, one b s acc = frame acc (one b s [])) ->
  (forall b, In b l -> forall s s' new, one b s [] = Some (s', new) -> bear (snd (inline_order b)) new) ->
  inline_boxes_layout one l s [] = Some (s', new) -> bear (flat_map snd (map inline_order l)) new.
Proof.
  intros one. induction l as [|b l IH]; intros s s' new Hf H E; cbn [inline_boxes_layout map flat_map] in *.
  - injection E as <- <-. exact bear_nil.
  - destruct (one b s []) as [[s1 n1]|] eqn:E1; [|discriminate E].
    rewrite (inlines_frame one one l s1 n1) in E by (intros b' Hb s2 a; apply Hf; right; exact Hb).
    destruct (inline_boxes_layout one l s1 []) as [[s2 n2]|] eqn:E2; [|discriminate E]. cbn [frame] in E. injection E as <- <-.
    apply bear_app; [exact (H b (or_introl eq_refl) _ _ _ E1)|].
    exact (IH s1 s2 n2 (fun b' Hb => Hf b' (or_intror Hb)) (fun b' Hb => H b' (or_intror Hb)) E2).
Qed.

(** *** Lines are upright *)
Definition level_up (nl : nesting_level) : Prop := Forall up (nl_fragments nl).
Definition state_up (s : ifc_state) : Prop :=
  Forall up (lb_boxes (ifc_lines s)) /\ Forall (fun p => level_up (pi_parent p)) (ifc_stack s) /\ level_up (ifc_current s).
Lemma finish_layout_up : forall p nl pos br p' nl' pos', (finish_layout_in ar) p nl pos br = (p', nl', pos') ->
  level_up (pi_parent p) -> level_up nl -> level_up (pi_parent p') /\ level_up nl'.
Proof.
  intros p nl pos br p' nl' pos' E Hp Hn. unfold finish_layout_in in E.
  destruct (if (_ && _)%bool then _ else _) as [[[a b] c] e] in E. injection E as <- <- _. split; [|constructor].
  unfold level_up. cbn [pi_parent nl_fragments]. apply Forall_app. split; [exact Hp|]. constructor; [constructor; exact Hn|constructor].
Qed.
Lemma break_up : forall cb, cb_mode cb = HL -> forall stack nl pos lb nl' st lb', (break_levels_in ar) cb stack nl pos lb = (nl', st, lb') ->
  Forall (fun p => level_up (pi_parent p)) stack -> level_up nl -> Forall up (lb_boxes lb) ->
  level_up nl' /\ Forall (fun p => level_up (pi_parent p)) st /\ Forall up (lb_boxes lb').
Proof.
  intros cb Hm. induction stack as [|p stack IH]; intros nl pos lb nl' st lb' E Hs Hn Hl; cbn [break_levels_in] in E.
  - unfold finish_line_in in E. injection E as <- <- <-. split; [constructor|]. split; [constructor|]. cbn [lb_boxes]. apply Forall_app. split; [exact Hl|].
    rewrite Hm. constructor; [constructor; exact Hn|constructor].
  - destruct ((finish_layout_in ar) p nl pos true) as [[p1 nl1] pos1] eqn:Ef. inversion Hs; subst.
    destruct (finish_layout_up _ _ _ _ _ _ _ Ef H1 Hn) as [Hp1 Hn1].
    destruct ((break_levels_in ar) cb stack (pi_parent (after_break p1)) pos1 lb) as [[par rest] lb1] eqn:Eb. injection E as <- <- <-.
    destruct (IH _ _ _ _ _ _ Eb H2 Hp1 Hl) as (H4 & H5 & H6). split; [exact Hn1|]. split; [constructor; [exact H4|exact H5]|exact H6].
Qed.
Lemma text_up : forall cb, cb_mode cb = HL -> forall fuel st av chars s s', state_up s ->
  (text_run_lines_in ar) glyph_id glyph_width fuel cb st av chars s = Some s' -> state_up s'.
Proof.
  intros cb Hm. induction fuel as [|fuel IH]; intros st av chars s s' H E; cbn [text_run_lines_in] in E; [discriminate E|].
  destruct ((fill_line_in ar) _ _ _ _ _ _ _) as [[sh rest]|]; [|discriminate E].
  assert (Hp : state_up ((push_text_in ar) st sh s)).
  { destruct H as (H1 & H2 & H3). split; [exact H1|]. split; [exact H2|]. unfold level_up. cbn [push_text_in ifc_current nl_fragments]. apply Forall_app. split; [exact H3|].
    constructor; [|constructor]. apply up_text. reflexivity. }
  destruct rest as [|c rest]; [injection E as <-; exact Hp|]. apply (IH _ _ _ _ _) in E; [exact E|].
  destruct Hp as (H1 & H2 & H3). unfold new_line_in. destruct ((break_levels_in ar) _ _ _ _ _) as [[cur stk] lb] eqn:Eb.
  apply (break_up cb Hm) in Eb as (B1 & B2 & B3); [|assumption..]. split; [exact B3|]. split; [exact B2|exact B1].
Qed.
Definition Ui (b : inline_level_box) : Prop := forall o cb rank s acc s' acc', cb_mode cb = HL -> state_up s ->
  ill o b cb rank s acc = Some (s', acc') -> state_up s'.
Lemma inlines_up : forall o cb rank l s acc s' acc', cb_mode cb = HL -> Forall Ui l -> state_up s ->
  inline_boxes_layout (fun b s acc => ill o b cb rank s acc) l s acc = Some (s', acc') -> state_up s'.
Proof.
  intros o cb rank. induction l as [|b l IH]; intros s acc s' acc' Hm H Hs E; cbn [inline_boxes_layout] in E.
  - injection E as <- _. exact Hs.
  - destruct (ill o b cb rank s acc) as [[s1 a1]|] eqn:E1; [|discriminate E]. inversion H; subst. apply (IH s1 a1 s' acc' Hm H3); [|exact E].
    exact (H2 _ _ _ _ _ _ _ Hm Hs E1).
Qed.
Lemma all_inlines_up : forall b, Ui b.
Proof.
  refine (proj2 (proj2 (proj2 (boxes_ind (fun _ => True) (fun _ => True) (fun _ => True) Ui _ _ _ _ _ _ _ _ _ _ _)))); try (intros; exact I).
  - intros st fi la children HF o cb rank s acc s' acc' Hm Hs E. rewrite ill_inline in E.
    destruct ((start_layout_in ar) cb st fi la s) as [p s1] eqn:Es.
    assert (H1 : state_up (mkIFC (ifc_lines s1) (ifc_position s1) (p :: ifc_stack s1) (ifc_current s1))).
    { unfold start_layout_in in Es. destruct (if fi then _ else _) as [[[a b] c] e] in Es. injection Es as <- <-. destruct Hs as (H1 & H2 & H3).
      split; [exact H1|]. cbn [ifc_lines ifc_stack ifc_current]. split; [constructor; [exact H3|exact H2]|constructor]. }
    destruct (inline_boxes_layout _ children _ acc) as [[s2 acc2]|] eqn:E2; [|discriminate E].
    apply inlines_up in E2 as (H3 & H4 & H5); [|exact Hm|exact HF|exact H1]. destruct (ifc_stack s2) as [|q stack]; [discriminate E|].
    destruct ((finish_layout_in ar) q (ifc_current s2) (ifc_position s2) false) as [[q' nl] pos] eqn:Ef. injection E as <- _.
    inversion H4; subst. apply finish_layout_up in Ef as [H8 _]; [|assumption..]. split; [exact H3|]. split; assumption.
  - intros st text o cb rank s acc s' acc' Hm Hs E. change (ill o (TextRun st text) cb rank s acc) with
      (match (text_run_layout_in ar) glyph_id glyph_width cb st text s with Some s => Some (s, acc) | None => None end) in E.
    destruct ((text_run_layout_in ar) glyph_id glyph_width cb st text s) as [s1|] eqn:E1; [|discriminate E]. injection E as <- _. exact (text_up cb Hm _ _ _ _ _ _ Hs E1).
  - intros st c _ o cb rank s acc s' acc' Hm Hs E. cbn [inline_level_box_layout_in] in E. destruct (initial_corner st s); [|discriminate E]. injection E as <- _. exact Hs.
  - intros st c _ o cb rank s acc s' acc' Hm Hs E. cbn [inline_level_box_layout_in] in E. injection E as <- _. exact Hs.
Qed.

Lemma orders : (forall c, Rc c) /\ (forall b, Rb b) /\ (forall c, Rf c) /\ (forall b, Ri b).
Proof.
  destruct (schedules ar glyph_id glyph_width) as (Sc & Sb & Sf & Si). apply boxes_ind.
  - (* blocks *) intros l HF o cb rank fl coll fc new Hm E. rewrite bcl_blocks in E.
    refine (blocks_ok _ _ _ _ _ _ _ _ _ _ E).
    + intros b Hb i acc. apply Sb.
    + intros b Hb i f n E1. rewrite Forall_forall in HF. exact (HF b Hb _ _ _ _ _ _ Hm E1).
  - (* inlines *) intros l HF o cb rank fl coll fc new Hm E. cbn [container_order both fst snd]. rewrite inlines_order_text.
    rewrite bcl_inlines in E.
    destruct (inline_boxes_layout _ l _ []) as [[s n]|] eqn:E1; [|discriminate E]. pose proof E1 as E2. pose proof E1 as E0.
    apply inlines_glyphs in E0 as (gs & G1 & G2 & L); [|apply Forall_forall; intros b _; apply all_inlines_glyphs].
    destruct (ifc_stack s) as [|? ?] eqn:Es in L; [|discriminate L].
    apply inlines_up in E1 as (H1 & H2 & H3); [|exact Hm| |].
    2: { apply Forall_forall. intros b _. apply all_inlines_up. }
    2: { split; [constructor|]. split; constructor. }
    unfold finish_line_in in E. injection E as <- <-. cbn [fc_fragments lb_boxes] in *. split; [split|].
    + apply Forall_app. split; [exact H1|]. rewrite Hm. constructor; [constructor; exact H3|constructor].
    + rewrite flat_map_app. cbn [flat_map glyphs_in]. rewrite app_nil_r. unfold state_glyphs in G1. rewrite Es in G1. cbn in G1. unfold level_glyphs in G1. rewrite G1. exact G2.
    + refine (inlines_bear _ _ _ _ _ _ _ E2).
      * intros b Hb s1 acc. apply Si.
      * intros b Hb s1 s2 n2 E3. rewrite Forall_forall in HF. exact (HF b Hb _ _ _ _ _ _ E3).
  - intros st c IH o cb rank fl f new Hm E. rewrite bll_same in E. cbn [block_order].
    refine (_ (in_flow_ok (fst (container_order c)) (snd (container_order c)) _ _ _ _ _ _ Hm _ E)).
    + destruct (container_order c) as [a b] eqn:Ec. unfold after. cbn [fst snd]. tauto.
    + intros cb' coll fc n Hm' E'. exact (IH _ _ _ _ _ _ _ Hm' E').
  - intros st c IH o cb rank fl f new Hm E.
    change (Some (no_op (cb_mode cb), [abspos_box_layout st (fun cb => fcl o c cb 0 []) vzero rank]) = Some (f, new)) in E.
    injection E as <- <-. cbn [block_order fst snd]. split; [rewrite Hm; exact (ok_anon [] _ [] ok_nil)|]. apply bear_one.
    apply abspos_bears. intros cb' fc n Hm' E'. exact (IH _ _ _ _ _ Hm' E').
  - intros st c IH o cb rank fl f new Hm E. injection E as <- <-. cbn [block_order fst snd]. rewrite Hm. split; [exact (ok_anon [] _ [] ok_nil)|exact bear_nil].
  - intros st c IH o cb rank fl f new Hm E. rewrite bll_independent in E. cbn [block_order].
    refine (_ (in_flow_ok (fst (context_order c)) (snd (context_order c)) _ _ _ _ _ _ Hm _ E)).
    + destruct (context_order c) as [a b] eqn:Ec. unfold after. cbn [fst snd]. tauto.
    + intros cb' coll fc n Hm' E'. exact (IH _ _ _ _ _ Hm' E').
  - intros c f IH o cb rank fc new Hm E. rewrite fcl_bfc in E. destruct (bcl o c cb rank [] f false) as [[fc1 n]|] eqn:E1; [|discriminate E].
    injection E as <- <-. cbn [context_order fc_fragments]. exact (IH _ _ _ _ _ _ _ Hm E1).
  - intros st fi la children HF o cb rank s s' new E. rewrite ill_inline in E. destruct ((start_layout_in ar) cb st fi la s) as [p s1].
    destruct (inline_boxes_layout _ children _ []) as [[s2 n]|] eqn:E1; [|discriminate E].
    assert (new = n) as ->. { destruct (ifc_stack s2) as [|q stack]; [discriminate E|]. destruct ((finish_layout_in ar) _ _ _ _) as [[? ?] ?] in E. injection E as _ <-. reflexivity. }
    cbn [inline_order both snd]. refine (inlines_bear _ _ _ _ _ _ _ E1).
    + intros b Hb s3 acc. apply Si.
    + intros b Hb s3 s4 n2 E3. rewrite Forall_forall in HF. exact (HF b Hb _ _ _ _ _ _ E3).
  - intros st text o cb rank s s' new E. change (ill o (TextRun st text) cb rank s []) with
      (match (text_run_layout_in ar) glyph_id glyph_width cb st text s with Some s => Some (s, @nil abspos_fragment) | None => None end) in E.
    destruct ((text_run_layout_in ar) _ _ _ _ _ _); [|discriminate E]. injection E as _ <-. exact bear_nil.
  - intros st c IH o cb rank s s' new E. cbn [inline_level_box_layout_in] in E. destruct (initial_corner st s) as [corner|]; [|discriminate E].
    injection E as _ <-. cbn [inline_order snd app]. apply bear_one. apply abspos_bears. intros cb' fc n Hm' E'. exact (IH _ _ _ _ _ Hm' E').
  - intros st c IH o cb rank s s' new E. cbn [inline_level_box_layout_in] in E. injection E as _ <-. exact bear_nil.
Qed.
Lemma root_fine : forall o root viewport frs, (box_tree_root_layout_in ar) glyph_id glyph_width o root viewport = Some frs ->
  ok (after (context_order root)) frs.
Proof.
  intros o root viewport frs E. unfold box_tree_root_layout_in in E. destruct (fcl o root _ 0 []) as [[fc new]|] eqn:E1; [|discriminate E].
  apply (proj1 (proj2 (proj2 orders))) in E1 as [H1 H2]; [|reflexivity].
  destruct (map_option _ new) as [more|] eqn:E2; [|discriminate E]. injection E as <-. unfold after.
  apply ok_app; [exact H1|]. refine (bear_laid_out _ _ _ _ _ H2 E2). reflexivity.
Qed.
Theorem root_order : forall o root viewport frs, (box_tree_root_layout_in ar) glyph_id glyph_width o root viewport = Some frs ->
  Forall PaintTextProofs.up frs /\ shows (after (context_order root)) (flat_map glyphs_in frs).
Proof.
  intros o root viewport frs E. apply root_fine in E as [H1 H2]. split; [|exact H2]. revert H1. apply Forall_impl. apply up_up.
Qed.
Theorem root_sized : forall o root viewport frs, (box_tree_root_layout_in ar) glyph_id glyph_width o root viewport = Some frs -> Forall sized (all_fragments frs).
Proof.
  intros o root viewport frs E. apply root_fine in E as [H _]. unfold all_fragments. induction H; cbn [flat_map]; [constructor|]. apply Forall_app. split; [apply up_sized; assumption|assumption].
Qed.
End Font.
End Arith.
