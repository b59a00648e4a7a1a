(** Layout with any arithmetic: it does not panic and does not depend on the schedule. *)
From Coq Require Import QArith Lqa FunctionalExtensionality.
From Verif Require Import Base Dom StyleValues StyleProperties StyleCascade BoxTree PdfObject PdfConvert Geom Text LayoutTree Layout LayoutSpec LayoutProofs LayoutBlockProofs
  LayoutScheduleProofs Paint Arith32 LayoutArith LayoutArithSpec.
From Verif Require LayoutTotalProofs.
Local Open Scope nat_scope.

Section Arith.
Variable ar : arith.

(** Layout then placement, or both at once *)
Lemma layout_and_place_eq : forall B (lay : nat -> B -> _ -> _) l i acc s,
  (layout_and_place_in ar) lay i l acc s =
  match layout_each lay i l acc with
  | Some (fs, acc) => match (place_all_in ar) fs s with Some (fs, s) => Some (fs, acc, s) | None => None end
  | None => None
  end \/
  ((layout_and_place_in ar) lay i l acc s = None /\
   match layout_each lay i l acc with
   | Some (fs, acc) => match (place_all_in ar) fs s with Some (fs, s) => Some (fs, acc, s) | None => None end
   | None => None
   end = None).
Proof.
  intros B lay. induction l as [|b l IH]; intros i acc s; cbn [layout_and_place_in layout_each].
  - left. reflexivity.
  - destruct (lay i b acc) as [[f acc1]|]; [|left; reflexivity].
    destruct ((place_block_level_fragment_in ar) f s) as [[f1 s1]|] eqn:Ep.
    + destruct (IH (S i) acc1 s1) as [E|[E1 E2]].
      * left. rewrite E. destruct (layout_each lay (S i) l acc1) as [[fs acc2]|]; [|reflexivity].
        cbn [place_all_in]. rewrite Ep. destruct ((place_all_in ar) fs s1) as [[fs' s2]|]; reflexivity.
      * right. rewrite E1. split; [reflexivity|]. destruct (layout_each lay (S i) l acc1) as [[fs acc2]|]; [|reflexivity].
        cbn [place_all_in]. rewrite Ep. destruct ((place_all_in ar) fs s1) as [[fs' s2]|]; [discriminate E2|reflexivity].
    + right. split; [reflexivity|]. destruct (layout_each lay (S i) l acc1) as [[fs acc2]|]; [|reflexivity].
      cbn [place_all_in]. rewrite Ep. reflexivity.
Qed.
Lemma layout_and_place_same : forall B (lay : nat -> B -> _ -> _) l i acc s,
  (layout_and_place_in ar) lay i l acc s =
  match layout_each lay i l acc with
  | Some (fs, acc) => match (place_all_in ar) fs s with Some (fs, s) => Some (fs, acc, s) | None => None end
  | None => None
  end.
Proof. intros. destruct (layout_and_place_eq B lay l i acc s) as [E|[E1 E2]]; [exact E|]. rewrite E1, E2. reflexivity. Qed.

Lemma children_frame : forall B (lay lay' : nat -> B -> _ -> _) t t' l rank acc fl fl' coll,
  (forall b, In b l -> forall i acc, lay i b acc = frame acc (lay' i b [])) ->
  (forall b, In b l -> forall i acc, lay' i b acc = frame acc (lay' i b [])) ->
  (layout_block_level_children_in ar) lay t l rank acc fl coll =
  frame acc ((layout_block_level_children_in ar) lay' t' l rank [] fl' coll).
Proof.
  intros B lay lay' t t' l rank acc fl fl' coll H H'.
  assert (He : forall b, In b l -> forall i acc, lay i b acc = lay' i b acc).
  { intros b Hb i a. rewrite (H b Hb), <- (H' b Hb). reflexivity. }
  assert (Hl : forall b, In b l -> forall i acc, lay i b acc = frame acc (lay i b [])).
  { intros b Hb i a. rewrite (He b Hb i []). apply H. exact Hb. }
  unfold layout_block_level_children_in.
  set (s0 := mkPS coll cm_zero cm_zero 0).
  assert (E1 : (if fl then (layout_and_place_in ar) lay 0 l acc s0
                else match mapfold_reduce_into t 0 (map (fun b i acc => lay i b acc) l) acc with
                     | Some (fs, acc) => match (place_all_in ar) fs s0 with Some (fs, s) => Some (fs, acc, s) | None => None end
                     | None => None end) =
               match layout_each lay 0 l acc with
               | Some (fs, acc) => match (place_all_in ar) fs s0 with Some (fs, s) => Some (fs, acc, s) | None => None end
               | None => None end).
  { destruct fl; [apply layout_and_place_same|]. rewrite mapfold_each; [reflexivity|exact Hl]. }
  assert (E2 : (if fl' then (layout_and_place_in ar) lay' 0 l [] s0
                else match mapfold_reduce_into t' 0 (map (fun b i acc => lay' i b acc) l) [] with
                     | Some (fs, acc) => match (place_all_in ar) fs s0 with Some (fs, s) => Some (fs, acc, s) | None => None end
                     | None => None end) =
               match layout_each lay' 0 l [] with
               | Some (fs, acc) => match (place_all_in ar) fs s0 with Some (fs, s) => Some (fs, acc, s) | None => None end
               | None => None end).
  { destruct fl'; [apply layout_and_place_same|]. rewrite mapfold_each; [reflexivity|exact H']. }
  rewrite E1, E2, (each_ext B lay lay' l 0 acc He), (each_frame B lay' l 0 acc H').
  destruct (layout_each lay' 0 l []) as [[fs new]|]; cbn [frame]; [|reflexivity].
  destruct ((place_all_in ar) fs s0) as [[frs s]|]; [|reflexivity].
  rewrite skipn_app, skipn_all, Nat.sub_diag, firstn_app, firstn_all, Nat.sub_diag. cbn [app skipn firstn List.length]. rewrite app_nil_r.
  destruct ((adjust_static_positions_in ar) new frs rank); reflexivity.
Qed.

Lemma in_flow_frame : forall cb acc style kind lc lc',
  (forall cb acc coll, lc cb acc coll = frame acc (lc' cb [] coll)) ->
  (layout_in_flow_non_replaced_block_level_in ar) cb acc style kind lc =
  frame acc ((layout_in_flow_non_replaced_block_level_in ar) cb [] style kind lc').
Proof.
  intros cb acc style kind lc lc' H. unfold layout_in_flow_non_replaced_block_level_in.
  destruct (wmode_eqb _ _); [|reflexivity]. rewrite H.
  set (relative := is_relatively_positioned (get style position_)).
  replace (if relative then [] else []) with (@nil abspos_fragment) by (destruct relative; reflexivity).
  destruct (lc' _ [] _) as [[fc new]|]; cbn [frame]; [|reflexivity].
  destruct (if is_same kind && a_eq ar _ 0 then _ else _) as [start ic].
  destruct (if (is_same kind && a_eq ar _ 0 && _)%bool then _ else _) as [end_ sz].
  destruct relative; cbn [app].
  - destruct ((in_positioned_containing_block_in ar) _ _ _ _ _ _); cbn [frame]; [rewrite app_nil_r|]; reflexivity.
  - reflexivity.
Qed.

Section Font.
Variable glyph_id : N -> res font_error N.
Variable glyph_width : N -> res font_error Q.
Notation bcl := ((block_container_layout_in ar) glyph_id glyph_width).
Notation bll := ((block_level_box_layout_in ar) glyph_id glyph_width).
Notation fcl := ((bfc_layout_in ar) glyph_id glyph_width).
Notation ill := ((inline_level_box_layout_in ar) glyph_id glyph_width).

Lemma bcl_blocks : forall o l cb rank acc fl coll, bcl o (BlockLevelBoxes l) cb rank acc fl coll =
  (layout_block_level_children_in ar) (fun i b acc => bll (sub_oracle o i) b cb i acc fl) (o []) l rank acc fl coll.
Proof. reflexivity. Qed.
Lemma bcl_inlines : forall o l cb rank acc fl coll, bcl o (InlineFormattingContext l) cb rank acc fl coll =
  match inline_boxes_layout (fun b s acc => (inline_level_box_layout_in ar) glyph_id glyph_width o b cb rank s acc) l
          (mkIFC (mkLB [] 0) 0 [] (mkNL [] 0 0)) acc with
  | Some (s, acc) => let (lb, _) := (finish_line_in ar) (ifc_lines s) (ifc_current s) cb in
      Some (mkFC (lb_boxes lb) (lb_next_position lb) cbm_zero, acc)
  | None => None end.
Proof. reflexivity. Qed.
Lemma bll_same : forall o style contents cb rank acc fl, bll o (SameFormattingContextBlock style contents) cb rank acc fl =
  (layout_in_flow_non_replaced_block_level_in ar) cb acc style SameFormattingContext
    (fun cb acc collapsible => bcl o contents cb rank acc fl collapsible).
Proof. reflexivity. Qed.
Lemma bll_independent : forall o style contents cb rank acc fl, bll o (Independent style contents) cb rank acc fl =
  (layout_in_flow_non_replaced_block_level_in ar) cb acc style EstablishesAnIndependentFormattingContext
    (fun cb acc _ => fcl o contents cb rank acc).
Proof. reflexivity. Qed.
Lemma fcl_bfc : forall o c f cb rank acc, fcl o (BFC c f) cb rank acc =
  match bcl o c cb rank acc f false with
  | Some (fc, acc) => Some (mkFC (fc_fragments fc) (a_add ar (fc_block_size fc) ((solve_in ar) (cm_end (fc_margins fc))))
              (mkCBM false (cm_start (fc_margins fc)) cm_zero), acc)
  | None => None end.
Proof. reflexivity. Qed.
Lemma ill_inline : forall o st fi la children cb rank s acc,
  (inline_level_box_layout_in ar) glyph_id glyph_width o (InlineBox st fi la children) cb rank s acc =
  let (p, s) := (start_layout_in ar) cb st fi la s in
  match inline_boxes_layout (fun b s acc => (inline_level_box_layout_in ar) glyph_id glyph_width o b cb rank s acc) children
          (mkIFC (ifc_lines s) (ifc_position s) (p :: ifc_stack s) (ifc_current s)) acc with
  | Some (s, acc) => match ifc_stack s with
      | [] => None
      | p :: stack =>
          let '(p, _, position) := (finish_layout_in ar) p (ifc_current s) (ifc_position s) false in
          Some (mkIFC (ifc_lines s) position stack (pi_parent p), acc)
      end
  | None => None end.
Proof. reflexivity. Qed.


Definition Sc (c : block_container) : Prop := forall o o' cb rank acc fl fl' coll,
  bcl o c cb rank acc fl coll = frame acc (bcl o' c cb rank [] fl' coll).
Definition Sb (b : block_level_box) : Prop := forall o o' cb rank acc fl fl',
  bll o b cb rank acc fl = frame acc (bll o' b cb rank [] fl').
Definition Sf (c : block_formatting_context) : Prop := forall o o' cb rank acc,
  fcl o c cb rank acc = frame acc (fcl o' c cb rank []).
Definition Si (b : inline_level_box) : Prop := forall o o' cb rank s acc,
  ill o b cb rank s acc = frame acc (ill o' b cb rank s []).

Theorem schedules : (forall c, Sc c) /\ (forall b, Sb b) /\ (forall c, Sf c) /\ (forall b, Si b).
Proof.
  apply boxes_ind.
  - intros l HF o o' cb rank acc fl fl' coll. rewrite !bcl_blocks. rewrite Forall_forall in HF.
    apply children_frame.
    + intros b Hb i a. apply (HF b Hb).
    + intros b Hb i a. apply (HF b Hb).
  - intros l HF o o' cb rank acc fl fl' coll. rewrite !bcl_inlines. rewrite Forall_forall in HF.
    rewrite (inlines_frame _ (fun b s acc => ill o' b cb rank s acc) l _ acc).
    + destruct (inline_boxes_layout (fun b s acc => ill o' b cb rank s acc) l _ []) as [[s new]|]; cbn [frame]; [|reflexivity].
      destruct ((finish_line_in ar) (ifc_lines s) (ifc_current s) cb). reflexivity.
    + intros b Hb s a. apply (HF b Hb).
    + intros b Hb s a. apply (HF b Hb).
  - intros s c Hc o o' cb rank acc fl fl'. rewrite !bll_same. apply in_flow_frame. intros cb' a coll. apply Hc.
  - intros s c Hc o o' cb rank acc fl fl'.
    change (Some (no_op (cb_mode cb), acc ++ [abspos_box_layout s (fun cb => fcl o c cb 0%nat []) vzero rank]) =
            Some (no_op (cb_mode cb), acc ++ [abspos_box_layout s (fun cb => fcl o' c cb 0%nat []) vzero rank])).
    replace (fun cb => fcl o c cb 0%nat []) with (fun cb => fcl o' c cb 0%nat []); [reflexivity|].
    extensionality cb'. rewrite (Hc o o' cb' 0%nat []), frame_nil. reflexivity.
  - intros s c Hc o o' cb rank acc fl fl'. change (Some (no_op (cb_mode cb), acc) = Some (no_op (cb_mode cb), acc ++ [])).
    rewrite app_nil_r. reflexivity.
  - intros s c Hc o o' cb rank acc fl fl'. rewrite !bll_independent. apply in_flow_frame. intros cb' a coll. apply Hc.
  - intros c f Hc o o' cb rank acc. rewrite !fcl_bfc. rewrite (Hc o o' cb rank acc f f false).
    destruct (bcl o' c cb rank [] f false) as [[fc new]|]; reflexivity.
  - intros st fi la children HF o o' cb rank s acc. rewrite !ill_inline. rewrite Forall_forall in HF.
    destruct ((start_layout_in ar) cb st fi la s) as [p s1].
    rewrite (inlines_frame _ (fun b s acc => ill o' b cb rank s acc) children _ acc).
    + destruct (inline_boxes_layout (fun b s acc => ill o' b cb rank s acc) children _ []) as [[s2 new]|]; cbn [frame]; [|reflexivity].
      destruct (ifc_stack s2) as [|q stack]; [reflexivity|].
      destruct ((finish_layout_in ar) q (ifc_current s2) (ifc_position s2) false) as [[q' nl] pos]. reflexivity.
    + intros b Hb s2 a. apply (HF b Hb).
    + intros b Hb s2 a. apply (HF b Hb).
  - intros s t o o' cb rank st acc.
    change (match (text_run_layout_in ar) glyph_id glyph_width cb s t st with Some s => Some (s, acc) | None => None end =
      frame acc (match (text_run_layout_in ar) glyph_id glyph_width cb s t st with Some s => Some (s, []) | None => None end)).
    destruct ((text_run_layout_in ar) glyph_id glyph_width cb s t st); cbn [frame]; [rewrite app_nil_r|]; reflexivity.
  - intros s c Hc o o' cb rank st acc.
    change (match initial_corner s st with
            | Some corner => Some (st, acc ++ [abspos_box_layout s (fun cb => fcl (sub_oracle o (List.length acc)) c cb 0%nat []) corner rank])
            | None => None end =
       frame acc (match initial_corner s st with
            | Some corner => Some (st, [abspos_box_layout s (fun cb => fcl (sub_oracle o' 0) c cb 0%nat []) corner rank])
            | None => None end)).
    replace (fun cb => fcl (sub_oracle o (List.length acc)) c cb 0%nat []) with (fun cb => fcl (sub_oracle o' 0) c cb 0%nat []).
    + destruct (initial_corner s st); reflexivity.
    + extensionality cb'. rewrite (Hc (sub_oracle o (List.length acc)) (sub_oracle o' 0) cb' 0%nat []), frame_nil. reflexivity.
  - intros s c Hc o o' cb rank st acc. change (Some (st, acc) = Some (st, acc ++ [])). rewrite app_nil_r. reflexivity.
Qed.

Lemma root_schedule : forall o o' root viewport,
  (box_tree_root_layout_in ar) glyph_id glyph_width o root viewport = (box_tree_root_layout_in ar) glyph_id glyph_width o' root viewport.
Proof.
  intros o o' root viewport. unfold box_tree_root_layout_in. destruct schedules as (_ & _ & Hf & _).
  rewrite (Hf root o o' _ 0%nat []), frame_nil. reflexivity.
Qed.

(** ** No panic *)
Hypothesis zero : zero_ok ar.
Hypothesis glyphs : forall ch, exists id w, glyph_id ch = Ok id /\ glyph_width id = Ok w.
Notation HL := LayoutTotalProofs.HL.
(** ** Text *)
Lemma append_char_ok : forall s ch, exists s', (append_char_in ar) glyph_id glyph_width s ch = Ok s'.
Proof. intros s ch. destruct (glyphs ch) as (id & w & E1 & E2). unfold append_char_in. rewrite E1. cbn [bind]. rewrite E2. eexists. reflexivity. Qed.
Lemma fill_line_ok : forall chars n av fs sh last, (List.length chars <= n) ->
  (match last with Some (_, iter) => List.length iter <= n | None => True end) ->
  exists sh' rest, (fill_line_in ar) glyph_id glyph_width av fs chars sh last = Some (sh', rest) /\ List.length rest <= n.
Proof.
  induction chars as [|ch chars IH]; intros n av fs sh last Hn Hl; cbn [fill_line_in].
  - destruct (a_gt _ _ _).
    + destruct last as [[st iter]|]; eexists; eexists; (split; [reflexivity|]); [exact Hl|cbn; lia].
    + eexists; eexists; (split; [reflexivity|]); cbn; lia.
  - cbn [List.length] in Hn. destruct (_ && _)%bool.
    + destruct last as [[st iter]|]; eexists; eexists; (split; [reflexivity|]); [exact Hl|lia].
    + destruct (append_char_ok sh ch) as (sh' & E). rewrite E. apply IH; [lia|]. destruct (ch =? 32)%N; [lia|exact Hl].
Qed.
Lemma fill_line_shorter : forall chars av fs sh,
  exists sh' rest, (fill_line_in ar) glyph_id glyph_width av fs chars sh None = Some (sh', rest) /\ (rest = [] \/ List.length rest < List.length chars).
Proof.
  intros chars av fs sh. destruct chars as [|ch chars].
  - cbn [fill_line_in]. destruct (a_gt _ _ _); eexists; eexists; (split; [reflexivity|left; reflexivity]).
  - cbn [fill_line_in]. destruct (_ && _)%bool.
    + eexists; eexists; (split; [reflexivity|right; cbn [List.length]; lia]).
    + destruct (append_char_ok sh ch) as (sh1 & E). rewrite E.
      destruct (fill_line_ok chars (List.length chars) av fs sh1 (if (ch =? 32)%N then Some (save sh, chars) else None)) as (sh' & rest & E2 & H2); [lia|destruct (ch =? 32)%N; [lia|exact I]|].
      exists sh', rest. split; [exact E2|right; cbn [List.length]; lia].
Qed.

Lemma break_stack : forall cb stack nl pos lb, List.length (snd (fst ((break_levels_in ar) cb stack nl pos lb))) = List.length stack.
Proof.
  intros cb. induction stack as [|p stack IH]; intros nl pos lb; cbn [break_levels_in].
  - destruct ((finish_line_in ar) lb nl cb). reflexivity.
  - destruct ((finish_layout_in ar) p nl pos true) as [[p1 nl1] pos1].
    specialize (IH (pi_parent (after_break p1)) pos1 lb). destruct ((break_levels_in ar) cb stack (pi_parent (after_break p1)) pos1 lb) as [[par rest] lb1].
    cbn [fst snd List.length] in *. rewrite IH. reflexivity.
Qed.
Lemma new_line_stack : forall cb s, List.length (ifc_stack ((new_line_in ar) cb s)) = List.length (ifc_stack s).
Proof.
  intros cb s. unfold new_line_in. pose proof (break_stack cb (ifc_stack s) (mkNL (nl_fragments (ifc_current s)) 0%Q (nl_max_block_size (ifc_current s))) (ifc_position s) (ifc_lines s)) as H.
  destruct ((break_levels_in ar) _ _ _ _ _) as [[cur st] lb]. exact H.
Qed.
Lemma text_ok : forall fuel cb st av chars s, List.length chars < fuel ->
  exists s', (text_run_lines_in ar) glyph_id glyph_width fuel cb st av chars s = Some s' /\ List.length (ifc_stack s') = List.length (ifc_stack s).
Proof.
  induction fuel as [|fuel IH]; intros cb st av chars s H; [lia|]. cbn [text_run_lines_in].
  destruct (fill_line_shorter chars av (get st font_size) new_with_naive_shaping) as (sh & rest & E & Hr). rewrite E.
  destruct rest as [|c rest].
  - eexists. split; reflexivity.
  - destruct Hr as [Hr|Hr]; [discriminate Hr|].
    destruct (IH cb st av (c :: rest) ((new_line_in ar) cb ((push_text_in ar) st sh s))) as (s' & E' & Hs); [lia|].
    exists s'. split; [exact E'|]. rewrite Hs, new_line_stack. reflexivity.
Qed.

(** ** Placement *)
Definition placeable (f : fragment) : Prop :=
  match f with
  | FBox _ _ => True
  | FAnonymous r _ ch => ch = [] /\ v_block (size r) = 0%Q
  | FText _ _ _ => False
  end.
Definition ready_to_place (s : placement_state) : Prop :=
  next_collapses_with_parent_start s = true -> current_margin s = cm_zero.
Definition not_text (f : fragment) : Prop := match f with FText _ _ _ => False | _ => True end.
Lemma place_ok : forall f s, placeable f -> ready_to_place s ->
  exists f' s', (place_block_level_fragment_in ar) f s = Some (f', s') /\ not_text f' /\ ready_to_place s'.
Proof.
  intros f s Hf Hs. unfold place_block_level_fragment_in, ready_to_place in *. destruct f as [b ch|r m ch|]; [| |contradiction].
  - destruct (next_collapses_with_parent_start s) eqn:E.
    + rewrite (Hs eq_refl). cbn [solve_in cm_zero max_positive min_negative].
      unfold solve_in. cbn [max_positive min_negative cm_zero]. rewrite (proj1 zero).
      destruct (collapsed_through (bf_margins b)); eexists; eexists; (split; [reflexivity|]); (split; [exact I|]); cbn; [reflexivity|discriminate].
    + destruct (collapsed_through (bf_margins b)); eexists; eexists; (split; [reflexivity|]); (split; [exact I|]); cbn; discriminate.
  - destruct Hf as [-> Hz]. rewrite Hz, (proj2 zero). eexists. eexists. split; [reflexivity|]. split; [exact I|exact Hs].
Qed.
Lemma place_all_total : forall l s, Forall placeable l -> ready_to_place s ->
  exists l' s', (place_all_in ar) l s = Some (l', s') /\ Forall not_text l' /\ List.length l' = List.length l.
Proof.
  induction l as [|f l IH]; intros s Hl Hs; cbn [place_all_in].
  - exists [], s. split; [reflexivity|]. split; [constructor|reflexivity].
  - inversion Hl as [|? ? Hf Hr]; subst. destruct (place_ok f s Hf Hs) as (f' & s1 & E & Hn & Hs1). rewrite E.
    destruct (IH s1 Hr Hs1) as (l' & s2 & E2 & Hn2 & Hlen). rewrite E2. exists (f' :: l'), s2. split; [reflexivity|]. split; [constructor; assumption|].
    cbn [List.length]. rewrite Hlen. reflexivity.
Qed.

(** ** Absolutely positioned fragments *)
Definition ready (a : abspos_fragment) : Prop :=
  forall dcb, dcb_mode dcb = HL -> exists f, (abspos_layout_in ar) a dcb = Some f.
Lemma adjust_ready : forall frs rank a, ap_tree_rank a < List.length frs -> Forall not_text frs ->
  (forall x y, ready (mkAbspos (ap_style a) (ap_contents a) rank ((add_static_in ar) (ap_inline_start a) x) (ap_inline_size a)
     ((add_static_in ar) (ap_block_start a) y) (ap_block_size a))) ->
  exists a', (adjust_static_position_in ar) frs rank a = Some a' /\ ap_tree_rank a' = rank /\ ready a'.
Proof.
  intros frs rank a Hr Hn Ha. unfold adjust_static_position_in.
  destruct (nth_error frs (ap_tree_rank a)) as [f|] eqn:E; [|apply nth_error_None in E; lia].
  apply nth_error_In in E. rewrite Forall_forall in Hn. specialize (Hn f E).
  destruct f; [| |contradiction]; eexists; (split; [reflexivity|]); (split; [reflexivity|apply Ha]).
Qed.
(** A fragment that can be laid out wherever it is *)
Definition movable (rank : nat) (a : abspos_fragment) : Prop :=
  ap_tree_rank a = rank /\
  forall r i b, ready (mkAbspos (ap_style a) (ap_contents a) r i (ap_inline_size a) b (ap_block_size a)).
Lemma movable_ready : forall rank a, movable rank a -> ready a.
Proof. intros rank a [_ H]. specialize (H (ap_tree_rank a) (ap_inline_start a) (ap_block_start a)). destruct a; exact H. Qed.
Lemma adjust_movable : forall frs rank rank' a, rank < List.length frs -> Forall not_text frs -> movable rank a ->
  exists a', (adjust_static_position_in ar) frs rank' a = Some a' /\ movable rank' a'.
Proof.
  intros frs rank rank' a Hr Hn [Hk Ha]. subst rank. unfold adjust_static_position_in.
  destruct (nth_error frs (ap_tree_rank a)) as [f|] eqn:E; [|apply nth_error_None in E; lia].
  apply nth_error_In in E. rewrite Forall_forall in Hn. specialize (Hn f E).
  destruct f; [| |contradiction]; eexists; (split; [reflexivity|]); (split; [reflexivity|]); intros; apply Ha.
Qed.
Lemma map_option_total : forall A B (f : A -> option B) (P : B -> Prop) l, (forall a, In a l -> exists b, f a = Some b /\ P b) ->
  exists r, map_option f l = Some r /\ Forall P r.
Proof.
  intros A B f P. induction l as [|a l IH]; intros H; cbn [map_option].
  - exists []. split; [reflexivity|constructor].
  - destruct (H a (or_introl eq_refl)) as (b & E & Hb). rewrite E. destruct (IH (fun a' Ha => H a' (or_intror Ha))) as (r & Er & Hr). rewrite Er.
    exists (b :: r). split; [reflexivity|constructor; assumption].
Qed.
Lemma positioned_total : forall l frs sz pad, Forall ready l ->
  exists ch, (in_positioned_containing_block_in ar) (fun cb a => (abspos_layout_in ar) a cb) l frs sz pad HL = Some ch.
Proof.
  intros l frs sz pad H. unfold in_positioned_containing_block_in. destruct l as [|a l]; [eexists; reflexivity|].
  destruct (map_option_total _ _ (fun a => (abspos_layout_in ar) a (mkDCB (size ((inflate_in ar) (mkRect vzero sz) pad)) HL)) (fun _ => True) (a :: l)) as (r & Er & _).
  - rewrite Forall_forall in H. intros a' Ha. destruct (H a' Ha (mkDCB (size ((inflate_in ar) (mkRect vzero sz) pad)) HL) eq_refl) as (f & E). exists f. split; [exact E|exact I].
  - rewrite Er. eexists. reflexivity.
Qed.

Lemma abspos_ready : forall style contents r i isz b bsz,
  (forall cb, cb_mode cb = HL -> exists fc new, contents cb = Some (fc, new) /\ Forall ready new) ->
  ready (mkAbspos style contents r i isz b bsz).
Proof.
  intros style contents r i isz b bsz H dcb Hm. cbn [abspos_layout_in].
  destruct ((solve_axis_in ar) _ _ _ _ _ i _) as [[[ia is1] mil] mir]. destruct ((solve_axis_in ar) _ _ _ _ _ b _) as [[[ba bs1] mbs] mbe].
  set (cbc := mkCB _ _ _). cbn [cb_mode]. rewrite Hm. change (wmode_eqb HL (cb_mode cbc)) with true. cbn iota.
  destruct (H cbc eq_refl) as (fc & new & E & Hn). rewrite E.
  change (cb_mode cbc) with HL. cbn [size].
  match goal with |- context [in_positioned_containing_block_in ar _ _ _ ?sz ?pad _] =>
    destruct (positioned_total new (fc_fragments fc) sz pad Hn) as (ch & Ech) end.
  rewrite Ech. eexists. reflexivity.
Qed.

(** ** Boxes *)
Definition Nc (c : block_container) : Prop := displayed_container c -> forall o cb rank fl coll, cb_mode cb = HL ->
  exists fc new, bcl o c cb rank [] fl coll = Some (fc, new) /\ Forall (movable rank) new.
Definition Nb (b : block_level_box) : Prop := displayed_block b -> forall o cb rank fl, cb_mode cb = HL ->
  exists f new, bll o b cb rank [] fl = Some (f, new) /\ Forall (movable rank) new /\ placeable f.
Definition Nf (c : block_formatting_context) : Prop := displayed_context c -> forall o cb rank, cb_mode cb = HL ->
  exists fc new, fcl o c cb rank [] = Some (fc, new) /\ Forall (movable rank) new.
Definition Ni (b : inline_level_box) : Prop := displayed_inline b -> forall o cb rank s, cb_mode cb = HL ->
  exists s' new, ill o b cb rank s [] = Some (s', new) /\ Forall (movable rank) new /\
    List.length (ifc_stack s') = List.length (ifc_stack s).

Lemma each_total : forall (lay : nat -> block_level_box -> _ -> _) l i acc,
  (forall b, In b l -> forall i acc, lay i b acc = frame acc (lay i b [])) ->
  (forall b, In b l -> forall i, exists f new, lay i b [] = Some (f, new) /\ Forall (movable i) new /\ placeable f) ->
  exists frs news, layout_each lay i l acc = Some (frs, acc ++ news) /\ Forall placeable frs /\ List.length frs = List.length l /\
    Forall (fun a => exists k, k < i + List.length l /\ movable k a) news.
Proof.
  intros lay l. induction l as [|b l IH]; intros i acc Hf H; cbn [layout_each].
  - exists [], []. rewrite app_nil_r. split; [reflexivity|]. split; [constructor|]. split; [reflexivity|constructor].
  - rewrite (Hf b (or_introl eq_refl)). destruct (H b (or_introl eq_refl) i) as (f & n1 & E1 & Hn1 & Hp). rewrite E1. cbn [frame].
    destruct (IH (S i) (acc ++ n1) (fun b' Hb => Hf b' (or_intror Hb)) (fun b' Hb => H b' (or_intror Hb))) as (frs & n2 & E2 & Hp2 & Hlen & Hn2).
    rewrite E2. exists (f :: frs), (n1 ++ n2). rewrite app_assoc. split; [reflexivity|]. split; [constructor; assumption|].
    cbn [List.length]. split; [rewrite Hlen; reflexivity|]. apply Forall_app. split.
    + eapply Forall_impl; [|exact Hn1]. intros a Ha. exists i. split; [lia|exact Ha].
    + eapply Forall_impl; [|exact Hn2]. intros a (k & Hk & Ha). exists k. split; [lia|exact Ha].
Qed.
Lemma blocks_total : forall (lay : nat -> block_level_box -> _ -> _) t l rank fl coll,
  (forall b, In b l -> forall i acc, lay i b acc = frame acc (lay i b [])) ->
  (forall b, In b l -> forall i, exists f new, lay i b [] = Some (f, new) /\ Forall (movable i) new /\ placeable f) ->
  exists fc new, (layout_block_level_children_in ar) lay t l rank [] fl coll = Some (fc, new) /\ Forall (movable rank) new.
Proof.
  intros lay t l rank fl coll Hf H. unfold layout_block_level_children_in.
  set (s0 := mkPS coll cm_zero cm_zero 0%Q).
  assert (E1 : (if fl then (layout_and_place_in ar) lay 0 l [] s0
                else match mapfold_reduce_into t 0 (map (fun b i acc => lay i b acc) l) [] with
                     | Some (fs, acc) => match (place_all_in ar) fs s0 with Some (fs, s) => Some (fs, acc, s) | None => None end
                     | None => None end) =
               match layout_each lay 0 l [] with
               | Some (fs, acc) => match (place_all_in ar) fs s0 with Some (fs, s) => Some (fs, acc, s) | None => None end
               | None => None end).
  { destruct fl; [apply layout_and_place_same|]. rewrite mapfold_each; [reflexivity|exact Hf]. }
  rewrite E1. clear E1. destruct (each_total lay l 0 [] Hf H) as (frs & news & E & Hp & Hlen & Hn). rewrite E. cbn [app].
  destruct (place_all_total frs s0 Hp (fun _ => eq_refl)) as (frs' & s' & E2 & Ht & Hlen2). rewrite E2. cbn [List.length skipn firstn].
  destruct (map_option_total _ _ ((adjust_static_position_in ar) frs' rank) (movable rank) news) as (adj & Ea & Ha).
  - rewrite Forall_forall in Hn. intros a Ha. destruct (Hn a Ha) as (k & Hk & Hm). apply (adjust_movable frs' k rank a); [lia|exact Ht|exact Hm].
  - unfold adjust_static_positions_in. rewrite Ea. eexists. eexists. split; [reflexivity|exact Ha].
Qed.
Lemma in_flow_total : forall cb style kind lc rank, cb_mode cb = HL ->
  (forall cb coll, cb_mode cb = HL -> exists fc new, lc cb [] coll = Some (fc, new) /\ Forall (movable rank) new) ->
  exists f new, (layout_in_flow_non_replaced_block_level_in ar) cb [] style kind lc = Some (f, new) /\ Forall (movable rank) new /\ placeable f.
Proof.
  intros cb style kind lc rank Hm H. unfold layout_in_flow_non_replaced_block_level_in.
  set (cbc := mkCB _ _ _). rewrite Hm. change (wmode_eqb HL (cb_mode cbc)) with true. cbn iota.
  change (cb_mode cbc) with HL.
  set (sc := (is_same kind && _)%bool). set (relative := is_relatively_positioned _).
  replace (if relative then [] else []) with (@nil abspos_fragment) by (destruct relative; reflexivity).
  destruct (H cbc sc eq_refl) as (fc & new & E & Hn). rewrite E.
  destruct (if sc then _ else _) as [start ic]. destruct (if (is_same kind && _ && _)%bool then _ else _) as [end_ fsz].
  destruct relative.
  - match goal with |- context [(in_positioned_containing_block_in ar) _ _ _ ?sz ?pad _] =>
      destruct (positioned_total new (fc_fragments fc) sz pad) as (ch & Ech) end.
    + eapply Forall_impl; [|exact Hn]. intros a. apply movable_ready.
    + rewrite Ech. eexists. eexists. split; [reflexivity|]. split; [constructor|exact I].
  - eexists. eexists. split; [reflexivity|]. split; [exact Hn|exact I].
Qed.
Lemma inlines_total : forall (one : inline_level_box -> _ -> _ -> _) rank l s,
  (forall b, In b l -> forall s acc, one b s acc = frame acc (one b s [])) ->
  (forall b, In b l -> forall s, exists s' new, one b s [] = Some (s', new) /\ Forall (movable rank) new /\
    List.length (ifc_stack s') = List.length (ifc_stack s)) ->
  exists s' new, inline_boxes_layout one l s [] = Some (s', new) /\ Forall (movable rank) new /\
    List.length (ifc_stack s') = List.length (ifc_stack s).
Proof.
  intros one rank. induction l as [|b l IH]; intros s Hf H; cbn [inline_boxes_layout].
  - exists s, []. split; [reflexivity|]. split; [constructor|reflexivity].
  - destruct (H b (or_introl eq_refl) s) as (s1 & n1 & E1 & Hn1 & Hs1). rewrite E1.
    rewrite (inlines_frame one one l s1 n1) by (intros b' Hb s' a; apply Hf; right; exact Hb).
    destruct (IH s1 (fun b' Hb => Hf b' (or_intror Hb)) (fun b' Hb => H b' (or_intror Hb))) as (s2 & n2 & E2 & Hn2 & Hs2).
    rewrite E2. cbn [frame]. exists s2, (n1 ++ n2). split; [reflexivity|]. split; [apply Forall_app; split; assumption|]. rewrite Hs2. exact Hs1.
Qed.
Lemma context_ready : forall c o rank s corner, Nf c -> displayed_context c ->
  movable rank (abspos_box_layout s (fun cb => fcl o c cb 0 []) corner rank).
Proof.
  intros c o rank s corner Hc Hd. split; [reflexivity|]. intros r i b. cbn [ap_style ap_contents ap_inline_size ap_block_size abspos_box_layout].
  apply abspos_ready. intros cb Hcb. destruct (Hc Hd o cb 0 Hcb) as (fc & new & E & Hn). exists fc, new. split; [exact E|].
  eapply Forall_impl; [|exact Hn]. intros a. apply movable_ready.
Qed.

Theorem total : (forall c, Nc c) /\ (forall b, Nb b) /\ (forall c, Nf c) /\ (forall b, Ni b).
Proof.
  destruct schedules as (_ & Sb & _ & Si).
  apply boxes_ind.
  - intros l HF Hd o cb rank fl coll Hm. rewrite bcl_blocks. rewrite Forall_forall in HF. inversion Hd as [? Hl|]; subst. rewrite Forall_forall in Hl.
    apply blocks_total.
    + intros b Hb i acc. apply Sb.
    + intros b Hb i. exact (HF b Hb (Hl b Hb) (sub_oracle o i) cb i fl Hm).
  - intros l HF Hd o cb rank fl coll Hm. rewrite bcl_inlines. rewrite Forall_forall in HF. inversion Hd as [|? Hl]; subst. rewrite Forall_forall in Hl.
    destruct (inlines_total (fun b s acc => ill o b cb rank s acc) rank l (mkIFC (mkLB [] 0%Q) 0%Q [] (mkNL [] 0%Q 0%Q))) as (s' & new & E & Hn & _).
    + intros b Hb s acc. apply Si.
    + intros b Hb s. exact (HF b Hb (Hl b Hb) o cb rank s Hm).
    + rewrite E. destruct ((finish_line_in ar) _ _ _). eexists. eexists. split; [reflexivity|exact Hn].
  - intros s c Hc Hd o cb rank fl Hm. rewrite bll_same. inversion Hd; subst. apply in_flow_total; [exact Hm|]. intros cb' coll Hm'. apply Hc; assumption.
  - intros s c Hc Hd o cb rank fl Hm. inversion Hd; subst.
    change (exists f new, Some (no_op (cb_mode cb), [] ++ [abspos_box_layout s (fun cb => fcl o c cb 0 []) vzero rank]) = Some (f, new) /\ Forall (movable rank) new /\ placeable f).
    eexists. eexists. split; [reflexivity|]. split; [|split; reflexivity]. constructor; [|constructor]. apply context_ready; assumption.
  - intros s c Hc Hd o cb rank fl Hm.
    change (exists f new, Some (no_op (cb_mode cb), []) = Some (f, new) /\ Forall (movable rank) new /\ placeable f).
    eexists. eexists. split; [reflexivity|]. split; [constructor|split; reflexivity].
  - intros s c Hc Hd o cb rank fl Hm. rewrite bll_independent. inversion Hd; subst. apply in_flow_total; [exact Hm|]. intros cb' coll Hm'. apply Hc; assumption.
  - intros c f Hc Hd o cb rank Hm. rewrite fcl_bfc. inversion Hd; subst. destruct (Hc H0 o cb rank f false Hm) as (fc & new & E & Hn). rewrite E.
    eexists. eexists. split; [reflexivity|exact Hn].
  - intros st fi la children HF Hd o cb rank s Hm. rewrite ill_inline. rewrite Forall_forall in HF. inversion Hd as [? ? ? ? Hl| | |]; subst. rewrite Forall_forall in Hl.
    assert (El : ifc_stack (snd ((start_layout_in ar) cb st fi la s)) = ifc_stack s) by (unfold start_layout_in; destruct fi; reflexivity).
    destruct ((start_layout_in ar) cb st fi la s) as [p s1]. cbn [snd] in El.
    destruct (inlines_total (fun b s acc => ill o b cb rank s acc) rank children (mkIFC (ifc_lines s1) (ifc_position s1) (p :: ifc_stack s1) (ifc_current s1))) as (s' & new & E & Hn & Hs).
    + intros b Hb s' acc. apply Si.
    + intros b Hb s'. exact (HF b Hb (Hl b Hb) o cb rank s' Hm).
    + rewrite E. cbn [ifc_stack List.length] in Hs. destruct (ifc_stack s') as [|q stack]; [discriminate Hs|].
      destruct ((finish_layout_in ar) q (ifc_current s') (ifc_position s') false) as [[q' nl] pos]. eexists. eexists. split; [reflexivity|].
      split; [exact Hn|]. cbn [ifc_stack List.length] in *. rewrite El in Hs. lia.
  - intros st t Hd o cb rank s Hm.
    destruct (text_ok (S (List.length t)) cb st (a_sub ar (cb_inline_size cb) (ifc_position s)) t s) as (s' & E & Hs); [lia|].
    change (exists s' new, match (text_run_layout_in ar) glyph_id glyph_width cb st t s with Some s => Some (s, []) | None => None end = Some (s', new) /\
      Forall (movable rank) new /\ List.length (ifc_stack s') = List.length (ifc_stack s)).
    unfold text_run_layout_in. rewrite E. eexists. eexists. split; [reflexivity|]. split; [constructor|exact Hs].
  - intros st c Hc Hd o cb rank s Hm. inversion Hd as [| |? ? out ins Hs Hc'|]; subst.
    change (exists s' new, match initial_corner st s with
            | Some corner => Some (s, [] ++ [abspos_box_layout st (fun cb => fcl (sub_oracle o (List.length (@nil abspos_fragment))) c cb 0 []) corner rank])
            | None => None end = Some (s', new) /\ Forall (movable rank) new /\ List.length (ifc_stack s') = List.length (ifc_stack s)).
    unfold initial_corner. rewrite Hs. eexists. eexists. split; [reflexivity|]. split; [|reflexivity]. constructor; [|constructor]. apply context_ready; assumption.
  - intros st c Hc Hd o cb rank s Hm.
    change (exists s' new, Some (s, []) = Some (s', new) /\ Forall (movable rank) new /\ List.length (ifc_stack s') = List.length (ifc_stack s)).
    eexists. eexists. split; [reflexivity|]. split; [constructor|reflexivity].
Qed.

Lemma root_total : forall o root viewport, displayed_context root ->
  exists frs, (box_tree_root_layout_in ar) glyph_id glyph_width o root viewport = Some frs.
Proof.
  intros o root viewport Hd. unfold box_tree_root_layout_in. destruct total as (_ & _ & Hf & _).
  destruct (Hf root Hd o (mkCB (v_inline viewport) (Length (v_block viewport)) (HorizontalTb, Ltr)) 0 eq_refl) as (fc & new & E & Hn). rewrite E.
  destruct (map_option_total _ _ (fun a => (abspos_layout_in ar) a (mkDCB viewport (HorizontalTb, Ltr))) (fun _ => True) new) as (r & Er & _).
  - rewrite Forall_forall in Hn. intros a Ha. destruct (movable_ready _ _ (Hn a Ha) (mkDCB viewport (HorizontalTb, Ltr)) eq_refl) as (f & Ef).
    exists f. split; [exact Ef|exact I].
  - rewrite Er. eexists. reflexivity.
Qed.
End Font.
End Arith.

(** ** With exact arithmetic *)
Lemma exact_root : forall glyph_id glyph_width o root viewport,
  box_tree_root_layout_in exact glyph_id glyph_width o root viewport = box_tree_root_layout glyph_id glyph_width o root viewport.
Proof. reflexivity. Qed.
Lemma exact_paint : forall round vera frs, fragments_to_pdf_bytes_in exact round vera frs = fragments_to_pdf_bytes round vera frs.
Proof. reflexivity. Qed.
Lemma exact_pdf : forall round vera pc sel sp m io ro ua g o d,
  to_pdf_bytes_in exact round vera pc sel sp m io ro ua g o d = to_pdf_bytes round vera pc sel sp m io ro ua g o d.
Proof.
  intros. unfold to_pdf_bytes_in, to_pdf_bytes. destruct (box_tree_root_construct pc sel sp m io ro ua d) as [[boxes u]| |]; [|reflexivity..].
  rewrite exact_root. destruct (box_tree_root_layout _ _ _ _ _); [apply exact_paint|reflexivity].
Qed.
