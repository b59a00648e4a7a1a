(** Layout does not panic. *)
From Coq Require Import QArith Qminmax Lqa.
From Verif Require Import Base Dom StyleValues StyleProperties PdfConvert Geom Text LayoutTree Layout LayoutSpec LayoutProofs LayoutBlockProofs LayoutScheduleProofs.
Local Open Scope nat_scope.

Definition HL : wmode := (HorizontalTb, Ltr).

Section Font.
Variable glyph_id : N -> res font_error N.
Variable glyph_width : N -> res font_error Q.
Hypothesis glyphs : forall ch, exists id w, glyph_id ch = Ok id /\ glyph_width id = Ok w.
Notation bcl := (block_container_layout glyph_id glyph_width).
Notation bll := (block_level_box_layout glyph_id glyph_width).
Notation fcl := (bfc_layout glyph_id glyph_width).
Notation ill := (inline_level_box_layout glyph_id glyph_width).

(** ** Text *)
Lemma append_char_ok : forall s ch, exists s', append_char glyph_id glyph_width s ch = Ok s'.
Proof. intros s ch. destruct (glyphs ch) as (id & w & E1 & E2). unfold append_char. rewrite E1. cbn [bind]. rewrite E2. eexists. reflexivity. Qed.
Lemma fill_line_ok : forall chars n av fs sh last, (List.length chars <= n) ->
  (match last with Some (_, iter) => List.length iter <= n | None => True end) ->
  exists sh' rest, fill_line glyph_id glyph_width av fs chars sh last = Some (sh', rest) /\ List.length rest <= n.
Proof.
  induction chars as [|ch chars IH]; intros n av fs sh last Hn Hl; cbn [fill_line].
  - destruct (negb _).
    + destruct last as [[st iter]|]; eexists; eexists; (split; [reflexivity|]); [exact Hl|cbn; lia].
    + eexists; eexists; (split; [reflexivity|]); cbn; lia.
  - cbn [List.length] in Hn. destruct (_ && _)%bool.
    + destruct last as [[st iter]|]; eexists; eexists; (split; [reflexivity|]); [exact Hl|lia].
    + destruct (append_char_ok sh ch) as (sh' & E). rewrite E. apply IH; [lia|]. destruct (ch =? 32)%N; [lia|exact Hl].
Qed.
Lemma fill_line_shorter : forall chars av fs sh,
  exists sh' rest, fill_line glyph_id glyph_width av fs chars sh None = Some (sh', rest) /\ (rest = [] \/ List.length rest < List.length chars).
Proof.
  intros chars av fs sh. destruct chars as [|ch chars].
  - cbn [fill_line]. destruct (negb _); eexists; eexists; (split; [reflexivity|left; reflexivity]).
  - cbn [fill_line]. destruct (_ && _)%bool.
    + eexists; eexists; (split; [reflexivity|right; cbn [List.length]; lia]).
    + destruct (append_char_ok sh ch) as (sh1 & E). rewrite E.
      destruct (fill_line_ok chars (List.length chars) av fs sh1 (if (ch =? 32)%N then Some (save sh, chars) else None)) as (sh' & rest & E2 & H2); [lia|destruct (ch =? 32)%N; [lia|exact I]|].
      exists sh', rest. split; [exact E2|right; cbn [List.length]; lia].
Qed.

Lemma break_stack : forall cb stack nl pos lb, List.length (snd (fst (break_levels cb stack nl pos lb))) = List.length stack.
Proof.
  intros cb. induction stack as [|p stack IH]; intros nl pos lb; cbn [break_levels].
  - destruct (finish_line lb nl cb). reflexivity.
  - destruct (finish_layout p nl pos true) as [[p1 nl1] pos1].
    specialize (IH (pi_parent (after_break p1)) pos1 lb). destruct (break_levels cb stack (pi_parent (after_break p1)) pos1 lb) as [[par rest] lb1].
    cbn [fst snd List.length] in *. rewrite IH. reflexivity.
Qed.
Lemma new_line_stack : forall cb s, List.length (ifc_stack (new_line cb s)) = List.length (ifc_stack s).
Proof.
  intros cb s. unfold new_line. pose proof (break_stack cb (ifc_stack s) (mkNL (nl_fragments (ifc_current s)) 0%Q (nl_max_block_size (ifc_current s))) (ifc_position s) (ifc_lines s)) as H.
  destruct (break_levels _ _ _ _ _) as [[cur st] lb]. exact H.
Qed.
Lemma text_ok : forall fuel cb st av chars s, List.length chars < fuel ->
  exists s', text_run_lines glyph_id glyph_width fuel cb st av chars s = Some s' /\ List.length (ifc_stack s') = List.length (ifc_stack s).
Proof.
  induction fuel as [|fuel IH]; intros cb st av chars s H; [lia|]. cbn [text_run_lines].
  destruct (fill_line_shorter chars av (get st font_size) new_with_naive_shaping) as (sh & rest & E & Hr). rewrite E.
  destruct rest as [|c rest].
  - eexists. split; reflexivity.
  - destruct Hr as [Hr|Hr]; [discriminate Hr|].
    destruct (IH cb st av (c :: rest) (new_line cb (push_text st sh s))) as (s' & E' & Hs); [lia|].
    exists s'. split; [exact E'|]. rewrite Hs, new_line_stack. reflexivity.
Qed.

(** ** Placement *)
Definition placeable (f : fragment) : Prop :=
  match f with
  | FBox _ _ => True
  | FAnonymous r _ ch => ch = [] /\ (v_block (size r) == 0)%Q
  | FText _ _ _ => False
  end.
Definition ready_to_place (s : placement_state) : Prop :=
  next_collapses_with_parent_start s = true -> current_margin s = cm_zero.
Definition not_text (f : fragment) : Prop := match f with FText _ _ _ => False | _ => True end.
Lemma place_ok : forall f s, placeable f -> ready_to_place s ->
  exists f' s', place_block_level_fragment f s = Some (f', s') /\ not_text f' /\ ready_to_place s'.
Proof.
  intros f s Hf Hs. unfold place_block_level_fragment, ready_to_place in *. destruct f as [b ch|r m ch|]; [| |contradiction].
  - destruct (next_collapses_with_parent_start s) eqn:E.
    + rewrite (Hs eq_refl). cbn [solve cm_zero max_positive min_negative].
      change (Qeq_bool (0 + 0) 0) with true. cbn iota.
      destruct (collapsed_through (bf_margins b)); eexists; eexists; (split; [reflexivity|]); (split; [exact I|]); cbn; [reflexivity|discriminate].
    + destruct (collapsed_through (bf_margins b)); eexists; eexists; (split; [reflexivity|]); (split; [exact I|]); cbn; discriminate.
  - destruct Hf as [-> Hz]. apply Qeq_bool_iff in Hz. rewrite Hz. eexists. eexists. split; [reflexivity|]. split; [exact I|exact Hs].
Qed.
Lemma place_all_total : forall l s, Forall placeable l -> ready_to_place s ->
  exists l' s', place_all l s = Some (l', s') /\ Forall not_text l' /\ List.length l' = List.length l.
Proof.
  induction l as [|f l IH]; intros s Hl Hs; cbn [place_all].
  - exists [], s. split; [reflexivity|]. split; [constructor|reflexivity].
  - inversion Hl as [|? ? Hf Hr]; subst. destruct (place_ok f s Hf Hs) as (f' & s1 & E & Hn & Hs1). rewrite E.
    destruct (IH s1 Hr Hs1) as (l' & s2 & E2 & Hn2 & Hlen). rewrite E2. exists (f' :: l'), s2. split; [reflexivity|]. split; [constructor; assumption|].
    cbn [List.length]. rewrite Hlen. reflexivity.
Qed.

(** ** Absolutely positioned fragments *)
Definition ready (a : abspos_fragment) : Prop :=
  forall dcb, dcb_mode dcb = HL -> exists f, abspos_layout a dcb = Some f.
Lemma adjust_ready : forall frs rank a, ap_tree_rank a < List.length frs -> Forall not_text frs ->
  (forall x y, ready (mkAbspos (ap_style a) (ap_contents a) rank (add_static (ap_inline_start a) x) (ap_inline_size a)
     (add_static (ap_block_start a) y) (ap_block_size a))) ->
  exists a', adjust_static_position frs rank a = Some a' /\ ap_tree_rank a' = rank /\ ready a'.
Proof.
  intros frs rank a Hr Hn Ha. unfold adjust_static_position.
  destruct (nth_error frs (ap_tree_rank a)) as [f|] eqn:E; [|apply nth_error_None in E; lia].
  apply nth_error_In in E. rewrite Forall_forall in Hn. specialize (Hn f E).
  destruct f; [| |contradiction]; eexists; (split; [reflexivity|]); (split; [reflexivity|apply Ha]).
Qed.
(** A fragment that can be laid out wherever it is *)
Definition movable (rank : nat) (a : abspos_fragment) : Prop :=
  ap_tree_rank a = rank /\
  forall r i b, ready (mkAbspos (ap_style a) (ap_contents a) r i (ap_inline_size a) b (ap_block_size a)).
Lemma movable_ready : forall rank a, movable rank a -> ready a.
Proof. intros rank a [_ H]. specialize (H (ap_tree_rank a) (ap_inline_start a) (ap_block_start a)). destruct a; exact H. Qed.
Lemma adjust_movable : forall frs rank rank' a, rank < List.length frs -> Forall not_text frs -> movable rank a ->
  exists a', adjust_static_position frs rank' a = Some a' /\ movable rank' a'.
Proof.
  intros frs rank rank' a Hr Hn [Hk Ha]. subst rank. unfold adjust_static_position.
  destruct (nth_error frs (ap_tree_rank a)) as [f|] eqn:E; [|apply nth_error_None in E; lia].
  apply nth_error_In in E. rewrite Forall_forall in Hn. specialize (Hn f E).
  destruct f; [| |contradiction]; eexists; (split; [reflexivity|]); (split; [reflexivity|]); intros; apply Ha.
Qed.
Lemma map_option_total : forall A B (f : A -> option B) (P : B -> Prop) l, (forall a, In a l -> exists b, f a = Some b /\ P b) ->
  exists r, map_option f l = Some r /\ Forall P r.
Proof.
  intros A B f P. induction l as [|a l IH]; intros H; cbn [map_option].
  - exists []. split; [reflexivity|constructor].
  - destruct (H a (or_introl eq_refl)) as (b & E & Hb). rewrite E. destruct (IH (fun a' Ha => H a' (or_intror Ha))) as (r & Er & Hr). rewrite Er.
    exists (b :: r). split; [reflexivity|constructor; assumption].
Qed.
Lemma positioned_total : forall l frs sz pad, Forall ready l ->
  exists ch, in_positioned_containing_block (fun cb a => abspos_layout a cb) l frs sz pad HL = Some ch.
Proof.
  intros l frs sz pad H. unfold in_positioned_containing_block. destruct l as [|a l]; [eexists; reflexivity|].
  destruct (map_option_total _ _ (fun a => abspos_layout a (mkDCB (size (inflate (mkRect vzero sz) pad)) HL)) (fun _ => True) (a :: l)) as (r & Er & _).
  - rewrite Forall_forall in H. intros a' Ha. destruct (H a' Ha (mkDCB (size (inflate (mkRect vzero sz) pad)) HL) eq_refl) as (f & E). exists f. split; [exact E|exact I].
  - rewrite Er. eexists. reflexivity.
Qed.

Lemma abspos_ready : forall style contents r i isz b bsz,
  (forall cb, cb_mode cb = HL -> exists fc new, contents cb = Some (fc, new) /\ Forall ready new) ->
  ready (mkAbspos style contents r i isz b bsz).
Proof.
  intros style contents r i isz b bsz H dcb Hm. cbn [abspos_layout].
  destruct (solve_axis _ _ _ _ _ i _) as [[[ia is1] mil] mir]. destruct (solve_axis _ _ _ _ _ b _) as [[[ba bs1] mbs] mbe].
  set (cbc := mkCB _ _ _). cbn [cb_mode]. rewrite Hm. change (wmode_eqb HL (cb_mode cbc)) with true. cbn iota.
  destruct (H cbc eq_refl) as (fc & new & E & Hn). rewrite E.
  destruct (positioned_total new (fc_fragments fc) (mkVec (auto_is is1 match ia with AnchorStart start => (v_inline (dcb_size dcb) - start - inline_sum (sadd (lp_sides_relative_to (style_padding style) (v_inline (dcb_size dcb))) (lp_sides_relative_to (style_border_width style) (v_inline (dcb_size dcb)))) - inline_sum (mkSides mil mir mbs mbe))%Q | AnchorEnd e => (v_inline (dcb_size dcb) - e - inline_sum (sadd (lp_sides_relative_to (style_padding style) (v_inline (dcb_size dcb))) (lp_sides_relative_to (style_border_width style) (v_inline (dcb_size dcb)))) - inline_sum (mkSides mil mir mbs mbe))%Q end) (auto_is bs1 (fc_block_size fc))) (lp_sides_relative_to (style_padding style) (v_inline (dcb_size dcb))) Hn) as (ch & Ech).
  change (cb_mode cbc) with HL. cbn [size]. rewrite Ech. eexists. reflexivity.
Qed.

(** ** Boxes *)
Definition Nc (c : block_container) : Prop := displayed_container c -> forall o cb rank fl coll, cb_mode cb = HL ->
  exists fc new, bcl o c cb rank [] fl coll = Some (fc, new) /\ Forall (movable rank) new.
Definition Nb (b : block_level_box) : Prop := displayed_block b -> forall o cb rank fl, cb_mode cb = HL ->
  exists f new, bll o b cb rank [] fl = Some (f, new) /\ Forall (movable rank) new /\ placeable f.
Definition Nf (c : block_formatting_context) : Prop := displayed_context c -> forall o cb rank, cb_mode cb = HL ->
  exists fc new, fcl o c cb rank [] = Some (fc, new) /\ Forall (movable rank) new.
Definition Ni (b : inline_level_box) : Prop := displayed_inline b -> forall o cb rank s, cb_mode cb = HL ->
  exists s' new, ill o b cb rank s [] = Some (s', new) /\ Forall (movable rank) new /\
    List.length (ifc_stack s') = List.length (ifc_stack s).

Lemma each_total : forall (lay : nat -> block_level_box -> _ -> _) l i acc,
  (forall b, In b l -> forall i acc, lay i b acc = frame acc (lay i b [])) ->
  (forall b, In b l -> forall i, exists f new, lay i b [] = Some (f, new) /\ Forall (movable i) new /\ placeable f) ->
  exists frs news, layout_each lay i l acc = Some (frs, acc ++ news) /\ Forall placeable frs /\ List.length frs = List.length l /\
    Forall (fun a => exists k, k < i + List.length l /\ movable k a) news.
Proof.
  intros lay l. induction l as [|b l IH]; intros i acc Hf H; cbn [layout_each].
  - exists [], []. rewrite app_nil_r. split; [reflexivity|]. split; [constructor|]. split; [reflexivity|constructor].
  - rewrite (Hf b (or_introl eq_refl)). destruct (H b (or_introl eq_refl) i) as (f & n1 & E1 & Hn1 & Hp). rewrite E1. cbn [frame].
    destruct (IH (S i) (acc ++ n1) (fun b' Hb => Hf b' (or_intror Hb)) (fun b' Hb => H b' (or_intror Hb))) as (frs & n2 & E2 & Hp2 & Hlen & Hn2).
    rewrite E2. exists (f :: frs), (n1 ++ n2). rewrite app_assoc. split; [reflexivity|]. split; [constructor; assumption|].
    cbn [List.length]. split; [rewrite Hlen; reflexivity|]. apply Forall_app. split.
    + eapply Forall_impl; [|exact Hn1]. intros a Ha. exists i. split; [lia|exact Ha].
    + eapply Forall_impl; [|exact Hn2]. intros a (k & Hk & Ha). exists k. split; [lia|exact Ha].
Qed.
Lemma blocks_total : forall (lay : nat -> block_level_box -> _ -> _) t l rank fl coll,
  (forall b, In b l -> forall i acc, lay i b acc = frame acc (lay i b [])) ->
  (forall b, In b l -> forall i, exists f new, lay i b [] = Some (f, new) /\ Forall (movable i) new /\ placeable f) ->
  exists fc new, layout_block_level_children lay t l rank [] fl coll = Some (fc, new) /\ Forall (movable rank) new.
Proof.
  intros lay t l rank fl coll Hf H. unfold layout_block_level_children.
  set (s0 := mkPS coll cm_zero cm_zero 0%Q).
  assert (E1 : (if fl then layout_and_place lay 0 l [] s0
                else match mapfold_reduce_into t 0 (map (fun b i acc => lay i b acc) l) [] with
                     | Some (fs, acc) => match place_all fs s0 with Some (fs, s) => Some (fs, acc, s) | None => None end
                     | None => None end) =
               match layout_each lay 0 l [] with
               | Some (fs, acc) => match place_all fs s0 with Some (fs, s) => Some (fs, acc, s) | None => None end
               | None => None end).
  { destruct fl; [apply layout_and_place_same|]. rewrite mapfold_each; [reflexivity|exact Hf]. }
  rewrite E1. clear E1. destruct (each_total lay l 0 [] Hf H) as (frs & news & E & Hp & Hlen & Hn). rewrite E. cbn [app].
  destruct (place_all_total frs s0 Hp (fun _ => eq_refl)) as (frs' & s' & E2 & Ht & Hlen2). rewrite E2. cbn [List.length skipn firstn].
  destruct (map_option_total _ _ (adjust_static_position frs' rank) (movable rank) news) as (adj & Ea & Ha).
  - rewrite Forall_forall in Hn. intros a Ha. destruct (Hn a Ha) as (k & Hk & Hm). apply (adjust_movable frs' k rank a); [lia|exact Ht|exact Hm].
  - unfold adjust_static_positions. rewrite Ea. eexists. eexists. split; [reflexivity|exact Ha].
Qed.
Lemma in_flow_total : forall cb style kind lc rank, cb_mode cb = HL ->
  (forall cb coll, cb_mode cb = HL -> exists fc new, lc cb [] coll = Some (fc, new) /\ Forall (movable rank) new) ->
  exists f new, layout_in_flow_non_replaced_block_level cb [] style kind lc = Some (f, new) /\ Forall (movable rank) new /\ placeable f.
Proof.
  intros cb style kind lc rank Hm H. unfold layout_in_flow_non_replaced_block_level.
  set (cbc := mkCB _ _ _). rewrite Hm. change (wmode_eqb HL (cb_mode cbc)) with true. cbn iota.
  change (cb_mode cbc) with HL.
  set (sc := (is_same kind && _)%bool). set (relative := is_relatively_positioned _).
  replace (if relative then [] else []) with (@nil abspos_fragment) by (destruct relative; reflexivity).
  destruct (H cbc sc eq_refl) as (fc & new & E & Hn). rewrite E.
  destruct (if sc then _ else _) as [start ic]. destruct (if (is_same kind && _ && _)%bool then _ else _) as [end_ fsz].
  destruct relative.
  - match goal with |- context [in_positioned_containing_block _ _ _ ?sz ?pad _] =>
      destruct (positioned_total new (fc_fragments fc) sz pad) as (ch & Ech) end.
    + eapply Forall_impl; [|exact Hn]. intros a. apply movable_ready.
    + rewrite Ech. eexists. eexists. split; [reflexivity|]. split; [constructor|exact I].
  - eexists. eexists. split; [reflexivity|]. split; [exact Hn|exact I].
Qed.
Lemma inlines_total : forall (one : inline_level_box -> _ -> _ -> _) rank l s,
  (forall b, In b l -> forall s acc, one b s acc = frame acc (one b s [])) ->
  (forall b, In b l -> forall s, exists s' new, one b s [] = Some (s', new) /\ Forall (movable rank) new /\
    List.length (ifc_stack s') = List.length (ifc_stack s)) ->
  exists s' new, inline_boxes_layout one l s [] = Some (s', new) /\ Forall (movable rank) new /\
    List.length (ifc_stack s') = List.length (ifc_stack s).
Proof.
  intros one rank. induction l as [|b l IH]; intros s Hf H; cbn [inline_boxes_layout].
  - exists s, []. split; [reflexivity|]. split; [constructor|reflexivity].
  - destruct (H b (or_introl eq_refl) s) as (s1 & n1 & E1 & Hn1 & Hs1). rewrite E1.
    rewrite (inlines_frame one one l s1 n1) by (intros b' Hb s' a; apply Hf; right; exact Hb).
    destruct (IH s1 (fun b' Hb => Hf b' (or_intror Hb)) (fun b' Hb => H b' (or_intror Hb))) as (s2 & n2 & E2 & Hn2 & Hs2).
    rewrite E2. cbn [frame]. exists s2, (n1 ++ n2). split; [reflexivity|]. split; [apply Forall_app; split; assumption|]. rewrite Hs2. exact Hs1.
Qed.
Lemma context_ready : forall c o rank s corner, Nf c -> displayed_context c ->
  movable rank (abspos_box_layout s (fun cb => fcl o c cb 0 []) corner rank).
Proof.
  intros c o rank s corner Hc Hd. split; [reflexivity|]. intros r i b. cbn [ap_style ap_contents ap_inline_size ap_block_size abspos_box_layout].
  apply abspos_ready. intros cb Hcb. destruct (Hc Hd o cb 0 Hcb) as (fc & new & E & Hn). exists fc, new. split; [exact E|].
  eapply Forall_impl; [|exact Hn]. intros a. apply movable_ready.
Qed.

Theorem total : (forall c, Nc c) /\ (forall b, Nb b) /\ (forall c, Nf c) /\ (forall b, Ni b).
Proof.
  destruct (schedules glyph_id glyph_width) as (_ & Sb & _ & Si).
  apply boxes_ind.
  - intros l HF Hd o cb rank fl coll Hm. rewrite bcl_blocks. rewrite Forall_forall in HF. inversion Hd as [? Hl|]; subst. rewrite Forall_forall in Hl.
    apply blocks_total.
    + intros b Hb i acc. apply Sb.
    + intros b Hb i. exact (HF b Hb (Hl b Hb) (sub_oracle o i) cb i fl Hm).
  - intros l HF Hd o cb rank fl coll Hm. rewrite bcl_inlines. rewrite Forall_forall in HF. inversion Hd as [|? Hl]; subst. rewrite Forall_forall in Hl.
    destruct (inlines_total (fun b s acc => ill o b cb rank s acc) rank l (mkIFC (mkLB [] 0%Q) 0%Q [] (mkNL [] 0%Q 0%Q))) as (s' & new & E & Hn & _).
    + intros b Hb s acc. apply Si.
    + intros b Hb s. exact (HF b Hb (Hl b Hb) o cb rank s Hm).
    + rewrite E. destruct (finish_line _ _ _). eexists. eexists. split; [reflexivity|exact Hn].
  - intros s c Hc Hd o cb rank fl Hm. rewrite bll_same. inversion Hd; subst. apply in_flow_total; [exact Hm|]. intros cb' coll Hm'. apply Hc; assumption.
  - intros s c Hc Hd o cb rank fl Hm. inversion Hd; subst.
    change (exists f new, Some (no_op (cb_mode cb), [] ++ [abspos_box_layout s (fun cb => fcl o c cb 0 []) vzero rank]) = Some (f, new) /\ Forall (movable rank) new /\ placeable f).
    eexists. eexists. split; [reflexivity|]. split; [|split; reflexivity]. constructor; [|constructor]. apply context_ready; assumption.
  - intros s c Hc Hd o cb rank fl Hm.
    change (exists f new, Some (no_op (cb_mode cb), []) = Some (f, new) /\ Forall (movable rank) new /\ placeable f).
    eexists. eexists. split; [reflexivity|]. split; [constructor|split; reflexivity].
  - intros s c Hc Hd o cb rank fl Hm. rewrite bll_independent. inversion Hd; subst. apply in_flow_total; [exact Hm|]. intros cb' coll Hm'. apply Hc; assumption.
  - intros c f Hc Hd o cb rank Hm. rewrite fcl_bfc. inversion Hd; subst. destruct (Hc H0 o cb rank f false Hm) as (fc & new & E & Hn). rewrite E.
    eexists. eexists. split; [reflexivity|exact Hn].
  - intros st fi la children HF Hd o cb rank s Hm. rewrite ill_inline. rewrite Forall_forall in HF. inversion Hd as [? ? ? ? Hl| | |]; subst. rewrite Forall_forall in Hl.
    assert (El : ifc_stack (snd (start_layout cb st fi la s)) = ifc_stack s) by (unfold start_layout; destruct fi; reflexivity).
    destruct (start_layout cb st fi la s) as [p s1]. cbn [snd] in El.
    destruct (inlines_total (fun b s acc => ill o b cb rank s acc) rank children (mkIFC (ifc_lines s1) (ifc_position s1) (p :: ifc_stack s1) (ifc_current s1))) as (s' & new & E & Hn & Hs).
    + intros b Hb s' acc. apply Si.
    + intros b Hb s'. exact (HF b Hb (Hl b Hb) o cb rank s' Hm).
    + rewrite E. cbn [ifc_stack List.length] in Hs. destruct (ifc_stack s') as [|q stack]; [discriminate Hs|].
      destruct (finish_layout q (ifc_current s') (ifc_position s') false) as [[q' nl] pos]. eexists. eexists. split; [reflexivity|].
      split; [exact Hn|]. cbn [ifc_stack List.length] in *. rewrite El in Hs. lia.
  - intros st t Hd o cb rank s Hm.
    destruct (text_ok (S (List.length t)) cb st (cb_inline_size cb - ifc_position s)%Q t s) as (s' & E & Hs); [lia|].
    change (exists s' new, match text_run_layout glyph_id glyph_width cb st t s with Some s => Some (s, []) | None => None end = Some (s', new) /\
      Forall (movable rank) new /\ List.length (ifc_stack s') = List.length (ifc_stack s)).
    unfold text_run_layout. rewrite E. eexists. eexists. split; [reflexivity|]. split; [constructor|exact Hs].
  - intros st c Hc Hd o cb rank s Hm. inversion Hd as [| |? ? out ins Hs Hc'|]; subst.
    change (exists s' new, match initial_corner st s with
            | Some corner => Some (s, [] ++ [abspos_box_layout st (fun cb => fcl (sub_oracle o (List.length (@nil abspos_fragment))) c cb 0 []) corner rank])
            | None => None end = Some (s', new) /\ Forall (movable rank) new /\ List.length (ifc_stack s') = List.length (ifc_stack s)).
    unfold initial_corner. rewrite Hs. eexists. eexists. split; [reflexivity|]. split; [|reflexivity]. constructor; [|constructor]. apply context_ready; assumption.
  - intros st c Hc Hd o cb rank s Hm.
    change (exists s' new, Some (s, []) = Some (s', new) /\ Forall (movable rank) new /\ List.length (ifc_stack s') = List.length (ifc_stack s)).
    eexists. eexists. split; [reflexivity|]. split; [constructor|reflexivity].
Qed.

Lemma root_total : forall o root viewport, displayed_context root ->
  exists frs, box_tree_root_layout glyph_id glyph_width o root viewport = Some frs.
Proof.
  intros o root viewport Hd. unfold box_tree_root_layout. destruct total as (_ & _ & Hf & _).
  destruct (Hf root Hd o (mkCB (v_inline viewport) (Length (v_block viewport)) (HorizontalTb, Ltr)) 0 eq_refl) as (fc & new & E & Hn). rewrite E.
  destruct (map_option_total _ _ (fun a => abspos_layout a (mkDCB viewport (HorizontalTb, Ltr))) (fun _ => True) new) as (r & Er & _).
  - rewrite Forall_forall in Hn. intros a Ha. destruct (movable_ready _ _ (Hn a Ha) (mkDCB viewport (HorizontalTb, Ltr)) eq_refl) as (f & Ef).
    exists f. split; [exact Ef|exact I].
  - rewrite Er. eexists. reflexivity.
Qed.
End Font.
