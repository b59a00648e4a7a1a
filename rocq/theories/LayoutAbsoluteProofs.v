(** Proofs about absolutely positioned boxes. *)
From Coq Require Import QArith Qminmax Lqa.
From Verif Require Import Base Dom StyleValues StyleProperties PdfConvert Geom Text LayoutTree Layout LayoutSpec LayoutProofs LayoutBlockProofs LayoutWidthProofs LayoutScheduleProofs.
Local Open Scope Q_scope.

(** ** One axis *)
Lemma rel_auto : forall l c, lpa_relative_to l c = Auto <-> is_auto l.
Proof. intros l c. unfold is_auto. destruct l; cbn [lpa_relative_to]; split; intros H; try discriminate H; reflexivity. Qed.
Definition loa_of (l : length_or_auto) (auto : Q -> Prop) (x : Q) : Prop := match l with Length v => x == v | Auto => auto x end.
Lemma rel_value : forall c l P x, margin_of_width c l P x <-> loa_of (lpa_relative_to l c) P x.
Proof. intros c l P x. destruct l; reflexivity. Qed.
Definition isA (l : length_or_auto) : Prop := l = Auto.
Definition axis_loa (c static pb : Q) (neg : Q -> Q -> Prop) (start_ end_ size_ ms me : length_or_auto) (s m z n e : Q) : Prop :=
  s + m + pb + z + n + e == c /\
  loa_of start_ any s /\ loa_of size_ any z /\ loa_of ms any m /\ loa_of me any n /\
  (isA start_ -> isA end_ -> s == static) /\
  (isA start_ \/ isA size_ \/ isA ms \/ isA me -> loa_of end_ any e) /\
  (isA start_ \/ isA end_ \/ isA size_ -> loa_of ms zero m /\ loa_of me zero n) /\
  (isA ms -> isA me -> ~ isA start_ -> ~ isA end_ -> ~ isA size_ -> (0 <= m + n -> m == n) /\ (m + n < 0 -> neg m n)).
Lemma value_basis : forall c k l P x, k == c \/ is_length l -> loa_of (lpa_relative_to l k) P x -> margin_of_width c l P x.
Proof.
  intros c k l P x H Hl. destruct l; cbn [lpa_relative_to loa_of margin_of_width is_length] in *; [exact Hl| |exact Hl].
  destruct H as [H|[]]. rewrite Hl, H. reflexivity.
Qed.
Lemma axis_loa_ok : forall c k w static pb neg start_ end_ size_ ms me s m z n e,
  k == c \/ (is_length start_ /\ is_length end_ /\ is_length size_) ->
  axis_loa c static pb neg (lpa_relative_to start_ k) (lpa_relative_to end_ k) (lpa_relative_to size_ k)
    (lpa_relative_to ms w) (lpa_relative_to me w) s m z n e ->
  axis_ok c w static pb neg start_ end_ size_ ms me s m z n e.
Proof.
  intros c k w static pb neg start_ end_ size_ ms me s m z n e Hk H. unfold axis_loa, isA in H. unfold axis_ok, value_of.
  rewrite !rel_auto in H. destruct H as (H1 & H2 & H3 & H4 & H5 & H6 & H7 & H8 & H9).
  split; [exact H1|]. split; [apply (value_basis c k); [tauto|exact H2]|]. split; [apply (value_basis c k); [tauto|exact H3]|].
  split; [apply rel_value; exact H4|]. split; [apply rel_value; exact H5|]. split; [exact H6|].
  split; [intros Ha; apply (value_basis c k); [tauto|exact (H7 Ha)]|].
  split; [intros Ha; split; apply rel_value; apply H8; exact Ha|]. exact H9.
Qed.

Definition margins_ok (solve_margins : Q -> Q * Q) (neg : Q -> Q -> Prop) : Prop :=
  forall x, fst (solve_margins x) + snd (solve_margins x) == x /\
    (0 <= x -> fst (solve_margins x) == snd (solve_margins x)) /\ (x < 0 -> neg (fst (solve_margins x)) (snd (solve_margins x))).
Lemma inline_margins_ok : margins_ok inline_solve_margins (fun m _ => m == 0).
Proof.
  intros x. unfold inline_solve_margins. destruct (Qle_bool 0 x) eqn:E.
  - apply Qle_bool_iff in E. cbn [fst snd]. split; [field|]. split; [reflexivity|]. intros. lra.
  - assert (~ 0 <= x) by (intros H; apply Qle_bool_iff in H; rewrite H in E; discriminate E). cbn [fst snd]. split; [lra|].
    split; [intros; lra|]. reflexivity.
Qed.
Lemma block_margins_ok : margins_ok block_solve_margins Qeq.
Proof. intros x. unfold block_solve_margins. cbn [fst snd]. split; [field|]. split; reflexivity. Qed.
Ltac ax := repeat match goal with
  | |- _ /\ _ => split
  | |- _ <-> _ => split
  | |- ~ _ => intro
  | |- _ -> _ => intro
  | H : _ \/ _ |- _ => destruct H
  | H : _ /\ _ |- _ => destruct H
  | H : Length _ = Auto |- _ => discriminate H
  | H : Auto <> Auto |- _ => contradiction (H eq_refl)
  end; unfold loa_of, any, zero in *; cbn [auto_is] in *; try exact I; try reflexivity; try lra; auto.

(** What [solve_axis] gives for the offsets of a style: [k] is the size used for percentages *)
Lemma solve_axis_loa : forall k static pb ms me sm start_ end_ size_ neg filler anchor_ sz m n,
  margins_ok sm neg ->
  solve_axis k pb ms me sm (absolute_box_offsets static start_ end_) size_ = (anchor_, sz, m, n) ->
  forall c s z e,
  (c == k \/ (is_auto start_ \/ is_auto end_ \/ (~ is_auto size_ /\ ms <> Auto /\ me <> Auto))) ->
  z = auto_is sz filler ->
  s == match anchor_ with AnchorStart s => s | AnchorEnd e => c - e - n - z - pb - m end ->
  e == c - s - m - pb - z - n ->
  axis_loa c static pb neg (lpa_relative_to start_ k) (lpa_relative_to end_ k) (lpa_relative_to size_ k) ms me s m z n e /\
  (sz = Auto <-> is_auto size_ /\ (is_auto start_ \/ is_auto end_)).
Proof.
  intros k static pb ms me sm start_ end_ size_ neg filler anchor_ sz m n Hsm H c s z e Happ -> Hse He.
  assert (Hs : is_auto start_ <-> isA (lpa_relative_to start_ k)) by (unfold isA; rewrite rel_auto; reflexivity).
  assert (Hn : is_auto end_ <-> isA (lpa_relative_to end_ k)) by (unfold isA; rewrite rel_auto; reflexivity).
  assert (Hz : is_auto size_ <-> isA (lpa_relative_to size_ k)) by (unfold isA; rewrite rel_auto; reflexivity).
  rewrite Hs, Hn, Hz in *. clear Hs Hn Hz.
  assert (E : absolute_box_offsets static start_ end_ =
     match non_auto start_, non_auto end_ with
     | None, None => StaticStart static | Some s, Some e => OffBoth s e | None, Some e => OffEnd e | Some s, None => OffStart s end) by reflexivity.
  assert (Ns : lpa_relative_to start_ k = match non_auto start_ with Some l => Length (lp_relative_to l k) | None => Auto end) by (destruct start_; reflexivity).
  assert (Ne : lpa_relative_to end_ k = match non_auto end_ with Some l => Length (lp_relative_to l k) | None => Auto end) by (destruct end_; reflexivity).
  rewrite Ns, Ne in *. rewrite E in H. clear Ns Ne E. unfold solve_axis in H.
  set (zz := lpa_relative_to size_ k) in *. clearbody zz.
  destruct (non_auto start_) as [ls|], (non_auto end_) as [le|]; cbn [isA] in *; unfold axis_loa, isA in *.
  1: destruct zz as [zv|]; [destruct ms as [mv|], me as [nv|]|].
  4: { cbn [auto_is] in H. destruct (Hsm (k - lp_relative_to ls k - lp_relative_to le k - pb - zv)) as (S1 & S2 & S3).
       destruct (sm _) as [m0 n0]. cbn [fst snd] in *. injection H as <- <- <- <-. cbn [auto_is] in *.
       assert (Hck : c == k) by ax. clear Happ.
       repeat match goal with |- _ /\ _ => split end; try solve [ax].
       intros _ _ _ _ _. split; [intros; apply S2; lra|intros; apply S3; lra]. }
  1-3: cbn [auto_is] in H; injection H as <- <- <- <-; cbn [auto_is] in *; try (assert (Hck : c == k) by ax; clear Happ); ax.
  all: try destruct zz as [zv|]; cbn [auto_is] in H; injection H as <- <- <- <-; cbn [auto_is] in *;
    destruct ms as [mv|], me as [nv|]; cbn [auto_is] in *; ax.
Qed.

(** ** The collected boxes *)
Section Font.
Variable glyph_id : N -> res font_error N.
Variable glyph_width : N -> res font_error Q.
Notation bcl := (block_container_layout glyph_id glyph_width).
Notation bll := (block_level_box_layout glyph_id glyph_width).
Notation fcl := (bfc_layout glyph_id glyph_width).
Notation ill := (inline_level_box_layout glyph_id glyph_width).
Notation in_width_container := (in_width_container glyph_id glyph_width).
Notation positioned := (positioned glyph_id glyph_width).
Notation containing_block_of := (containing_block_of glyph_id glyph_width).
Notation positioned_in_block := (positioned_in_block glyph_id glyph_width).
Notation positioned_in_container := (positioned_in_container glyph_id glyph_width).

Definition laid_out_absolute (s : computed_values) (c : block_formatting_context) (o : oracle) (corner : vec2 Q) (rank : nat) : abspos_fragment :=
  abspos_box_layout s (fun cb => fcl o c cb 0%nat []) corner rank.
Definition lays_out (c : block_formatting_context) : Prop := forall s o corner rank dcb f x y,
  abspos_layout (laid_out_absolute s c o corner rank) dcb = Some f ->
  v_inline corner == x -> v_block corner == y ->
  positioned (v_inline (dcb_size dcb)) (v_block (dcb_size dcb)) ((s, c), (x, y)) f.
Definition collected (rank : nat) (p : absolute_box * (Q * Q)) (a : abspos_fragment) : Prop :=
  (exists o corner, a = laid_out_absolute (fst (fst p)) (snd (fst p)) o corner rank /\
     v_inline corner == fst (snd p) /\ v_block corner == snd (snd p)) /\ lays_out (snd (fst p)).

(** Moving a static position *)
Lemma static_offsets : forall static start_ end_ d,
  add_static (absolute_box_offsets static start_ end_) d = absolute_box_offsets (static + d) start_ end_.
Proof. intros static start_ end_ d. destruct start_, end_; reflexivity. Qed.
Definition start_of (f : fragment) : Q * Q :=
  match f with
  | FBox b _ => (content_left b, content_top b)
  | FAnonymous r _ _ | FText _ r _ => (v_inline (start_corner r), v_block (start_corner r))
  end.
Definition move_place (d : Q * Q) (p : absolute_box * (Q * Q)) : absolute_box * (Q * Q) :=
  (fst p, (fst (snd p) + fst d, snd (snd p) + snd d)).
Lemma adjust_collected : forall frs f rank rank' p a a', nth_error frs rank = Some f -> collected rank p a ->
  adjust_static_position frs rank' a = Some a' -> collected rank' (move_place (start_of f) p) a'.
Proof.
  intros frs f rank rank' p a a' Hf ((o & corner & -> & Hx & Hy) & Hl) H. split; [|exact Hl]. unfold adjust_static_position in H.
  change (ap_tree_rank (laid_out_absolute (fst (fst p)) (snd (fst p)) o corner rank)) with rank in H. rewrite Hf in H.
  assert (Hr : exists r, match f with FBox b _ => Some (bf_content_rect b) | FAnonymous r _ _ => Some r | _ => None end = Some r /\
     start_of f = (v_inline (start_corner r), v_block (start_corner r))).
  { destruct f; [eexists; split; reflexivity|eexists; split; reflexivity|discriminate H]. }
  destruct Hr as (r & Er & ->). rewrite Er in H. injection H as <-.
  exists o, (mkVec (v_inline corner + v_inline (start_corner r)) (v_block corner + v_block (start_corner r))).
  split; [|split].
  - unfold laid_out_absolute, abspos_box_layout. cbn [ap_style ap_contents ap_inline_start ap_inline_size ap_block_start ap_block_size].
    rewrite !static_offsets. reflexivity.
  - cbn [move_place fst snd v_inline]. rewrite Hx. reflexivity.
  - cbn [move_place fst snd v_block]. rewrite Hy. reflexivity.
Qed.
Lemma adjust_all_collected : forall frs f rank rank' places l l', nth_error frs rank = Some f ->
  Forall2 (collected rank) places l -> adjust_static_positions l frs rank' = Some l' ->
  Forall2 (collected rank') (map (move_place (start_of f)) places) l'.
Proof.
  intros frs f rank rank' places l l' Hf H. revert l'. unfold adjust_static_positions. induction H as [|b a boxes l Hb Hr IH]; intros l' E; cbn [map_option] in E.
  - injection E as <-. constructor.
  - destruct (adjust_static_position frs rank' a) as [a'|] eqn:Ea; [|discriminate E].
    destruct (map_option _ l) as [l1|]; [|discriminate E]. injection E as <-. constructor; [exact (adjust_collected _ _ _ _ _ _ _ Hf Hb Ea)|].
    apply IH. reflexivity.
Qed.
Lemma move_place_moved : forall d places, Forall2 (moved_by (fst d) (snd d)) places (map (move_place d) places).
Proof. intros d places. induction places as [|p l IH]; cbn [map]; constructor; [|exact IH]. split; [reflexivity|]. split; reflexivity. Qed.
Lemma map_option_app : forall A B (f : A -> option B) a b r, map_option f (a ++ b) = Some r ->
  exists ra rb, r = ra ++ rb /\ map_option f a = Some ra /\ map_option f b = Some rb.
Proof.
  intros A B f. induction a as [|x a IH]; intros b r H; cbn [app map_option] in H |- *.
  - exists [], r. split; [reflexivity|]. split; [reflexivity|exact H].
  - destruct (f x) as [y|]; [|discriminate H]. destruct (map_option f (a ++ b)) as [r1|] eqn:E; [|discriminate H]. injection H as <-.
    destruct (IH _ _ E) as (ra & rb & -> & Ha & Hb). exists (y :: ra), rb. rewrite Ha. split; [reflexivity|]. split; [reflexivity|exact Hb].
Qed.

(** ** Positioned containing blocks *)
Lemma all_positioned : forall rank places l dcb frs, Forall2 (collected rank) places l ->
  map_option ((fun cb a => abspos_layout a cb) dcb) l = Some frs ->
  Forall2 (positioned (v_inline (dcb_size dcb)) (v_block (dcb_size dcb))) places frs.
Proof.
  intros rank places l dcb frs H. revert frs. induction H as [|b a boxes l Hb Hr IH]; intros frs E; cbn [map_option] in E.
  - injection E as <-. constructor.
  - destruct (abspos_layout a dcb) as [f|] eqn:Ea; [|discriminate E].
    destruct (map_option _ l) as [l1|]; [|discriminate E]. injection E as <-. constructor; [|apply IH; reflexivity].
    destruct Hb as ((o & corner & -> & Hx & Hy) & Hl). destruct b as [[s c] [x y]]. exact (Hl _ _ _ _ _ _ _ _ Ea Hx Hy).
Qed.
Lemma containing_block_added : forall rank places l frs sz pad mode children b,
  Forall2 (collected rank) places l ->
  in_positioned_containing_block (fun cb a => abspos_layout a cb) l frs sz pad mode = Some children ->
  size (bf_content_rect b) = sz -> bf_padding b = pad ->
  exists extra, children = frs ++ extra /\ containing_block_of b places extra.
Proof.
  intros rank places l frs sz pad mode children b H E Hsz Hp. unfold in_positioned_containing_block in E.
  destruct l as [|a l].
  - injection E as <-. inversion H. exists []. split; [symmetry; apply app_nil_r|constructor].
  - destruct (map_option _ (a :: l)) as [frs'|] eqn:Em; [|discriminate E]. injection E as <-.
    eexists. split; [reflexivity|]. pose proof (all_positioned _ _ _ _ _ H Em) as Hf. cbn [dcb_size] in Hf. subst sz pad.
    constructor; [intros ->; inversion H| | | | |exact Hf].
    + unfold inflate, content_width. cbn [start_corner size v_inline v_block vzero]. lra.
    + unfold inflate, content_width. cbn [start_corner size v_inline v_block vzero]. lra.
    + unfold inflate, content_width, inline_sum. cbn [start_corner size v_inline v_block vzero]. lra.
    + unfold inflate, content_height, block_sum. cbn [start_corner size v_inline v_block vzero]. lra.
Qed.

(** ** The layout of an absolutely positioned box *)
(** Fragments that differ in their place *)
Definition same_but_moved (f g : fragment) : Prop :=
  match f, g with
  | FBox _ ch, FBox _ ch' => ch' = ch
  | FAnonymous _ _ ch, FAnonymous _ _ ch' => ch' = ch
  | _, _ => False
  end.
(** Places relative to the box itself *)
Definition inner_absolutes (b : block_level_box) (f : fragment) (places : list (absolute_box * (Q * Q))) : Prop :=
  forall g places', same_but_moved f g -> Forall2 (moved_by (fst (start_of g)) (snd (start_of g))) places places' ->
  absolutes_in_block b g places'.

Definition Ac (c : block_container) : Prop := forall o cb rank acc fl coll fc acc',
  bcl o c cb rank acc fl coll = Some (fc, acc') ->
  exists places new, acc' = acc ++ new /\ Forall2 (collected rank) places new /\
    absolutes_in_container c (fc_fragments fc) places /\ positioned_in_container c (fc_fragments fc).
Definition Ab (b : block_level_box) : Prop := forall o cb rank acc fl f acc',
  bll o b cb rank acc fl = Some (f, acc') ->
  exists places new, acc' = acc ++ new /\ Forall2 (collected rank) places new /\
    inner_absolutes b f places /\ positioned_in_block b f.
Definition Af (c : block_formatting_context) : Prop :=
  lays_out c /\
  match c with BFC contents _ => forall o cb rank acc fc acc',
    fcl o c cb rank acc = Some (fc, acc') ->
    exists places new, acc' = acc ++ new /\ Forall2 (collected rank) places new /\
      absolutes_in_container contents (fc_fragments fc) places /\ positioned_in_container contents (fc_fragments fc)
  end.
(** [y] is where a finished line starts, or the line being filled *)
Definition tops (lb : lines_boxes) (y : Q) : Prop := top_of_a_line (lb_boxes lb) y \/ lb_next_position lb == y.
Definition grows (lb lb' : lines_boxes) : Prop := forall y, tops lb y -> tops lb' y.
Definition inline_place (lb : lines_boxes) (p : absolute_box * (Q * Q)) : Prop :=
  tops lb (snd (snd p)) /\
  forall inside, specified_display (fst (fst p)) = OutsideInside Block inside -> fst (snd p) == 0.
Definition Ai (b : inline_level_box) : Prop := forall o cb rank s acc s' acc',
  ill o b cb rank s acc = Some (s', acc') ->
  grows (ifc_lines s) (ifc_lines s') /\
  exists places new, acc' = acc ++ new /\ Forall2 (collected rank) places new /\
    map fst places = absolutes_in_inline b /\ Forall (inline_place (ifc_lines s')) places.

Lemma bfc_collected : forall contents fl, Ac contents -> forall o cb rank acc fc acc',
  fcl o (BFC contents fl) cb rank acc = Some (fc, acc') ->
  exists places new, acc' = acc ++ new /\ Forall2 (collected rank) places new /\
    absolutes_in_container contents (fc_fragments fc) places /\ positioned_in_container contents (fc_fragments fc).
Proof.
  intros contents fl Hc o cb rank acc fc acc' H. rewrite fcl_bfc in H.
  destruct (bcl o contents cb rank acc fl false) as [[fc1 acc1]|] eqn:E; [|discriminate H]. injection H as <- <-.
  exact (Hc _ _ _ _ _ _ _ _ E).
Qed.

Lemma bfc_lays_out : forall contents fl, Ac contents -> lays_out (BFC contents fl).
Proof.
  intros contents fl Hc st o corner rank dcb f x0 y0 H Hx0 Hy0.
  unfold laid_out_absolute, abspos_box_layout in H. cbn [abspos_layout] in H.
  set (w := v_inline (dcb_size dcb)) in *. set (h := v_block (dcb_size dcb)) in *.
  change (v_inline (box_size st)) with (get st width) in H.
  change (v_block (box_size st)) with (get st height) in H.
  change (inline_start (box_offsets st)) with (get st left_) in H.
  change (inline_end (box_offsets st)) with (get st right_) in H.
  change (block_start (box_offsets st)) with (get st top_) in H.
  change (block_end (box_offsets st)) with (get st bottom_) in H.
  change (inline_start (lpa_sides_relative_to (style_margin st) w)) with (lpa_relative_to (get st margin_left) w) in H.
  change (inline_end (lpa_sides_relative_to (style_margin st) w)) with (lpa_relative_to (get st margin_right) w) in H.
  change (block_start (lpa_sides_relative_to (style_margin st) w)) with (lpa_relative_to (get st margin_top) w) in H.
  change (block_end (lpa_sides_relative_to (style_margin st) w)) with (lpa_relative_to (get st margin_bottom) w) in H.
  set (pad := lp_sides_relative_to (style_padding st) w) in H.
  set (bor := lp_sides_relative_to (style_border_width st) w) in H.
  destruct (solve_axis w (inline_sum (sadd pad bor)) _ _ _ _ _) as [[[ia isz] mil] mir] eqn:Ei.
  destruct (solve_axis w (block_sum (sadd pad bor)) _ _ _ _ _) as [[[ba bsz] mbs] mbe] eqn:Eb.
  set (mar := mkSides mil mir mbs mbe) in H.
  set (filler := match ia with AnchorStart start => w - start - inline_sum (sadd pad bor) - inline_sum mar
         | AnchorEnd e => w - e - inline_sum (sadd pad bor) - inline_sum mar end) in H.
  cbn [cb_mode] in H. destruct (wmode_eqb _ _) in H; [|discriminate H].
  destruct (fcl o (BFC contents fl) (mkCB (auto_is isz filler) bsz (style_writing_mode st)) 0%nat []) as [[fc new]|] eqn:Ef; [|discriminate H].
  set (cr := mkRect _ _) in H.
  destruct (in_positioned_containing_block _ _ _ _ _ _) as [children|] eqn:Ec; [|discriminate H]. injection H as <-.
  destruct (bfc_collected contents fl Hc _ _ _ _ _ _ Ef) as (places & new' & En & Hcol & Hplaces & Hpos). cbn [app] in En. subst new'.
  set (b := mkBoxFragment st cr pad bor mar cbm_zero).
  destruct (containing_block_added _ _ _ _ _ _ _ _ b Hcol Ec eq_refl eq_refl) as (extra & -> & Hcb).
  destruct (all_laid_out glyph_id glyph_width) as (_ & _ & Hq & _). specialize (Hq (BFC contents fl) _ _ _ _ _ _ Ef). cbn beta iota in Hq.
  destruct Hq as (inner & Hok & _ & _ & Hsz). cbn [cb_block_size] in Hok.
  destruct (all_widths glyph_id glyph_width) as (_ & _ & Hw & _). specialize (Hw (BFC contents fl) _ _ _ _ _ _ Ef). cbn beta iota in Hw. cbn [cb_inline_size] in Hw.
  assert (Hlp : forall l x, lp_relative_to l w = x -> of_width w l x) by (intros l x <-; destruct l; reflexivity).
  assert (Hbs : bsz = Auto <-> is_auto (get st height) /\ (is_auto (get st top_) \/ is_auto (get st bottom_))).
  { refine (proj2 (solve_axis_loa w _ _ _ _ _ _ _ _ _ 0 _ _ _ _ block_margins_ok Eb w _ _ _ (or_introl (Qeq_refl _)) eq_refl (Qeq_refl _) (Qeq_refl _))). }
  apply (a_box _ _ w h st contents fl b (fc_fragments fc) extra inner x0 y0 bsz places).
  - reflexivity.
  - unfold padding_and_border_ok. cbv zeta. cbn [b bf_style bf_padding bf_border].
    repeat (split; [apply Hlp; reflexivity|]). apply Hlp; reflexivity.
  - intros Happ. unfold inline_axis_ok. cbv zeta. change (bf_style b) with st.
    set (z := content_width b). set (s := outer_left b).
    assert (Hs : s == match ia with AnchorStart s => s | AnchorEnd e => w - e - mir - z - inline_sum (sadd pad bor) - mil end).
    { unfold s, outer_left, content_left, b, cr, mar. cbn [bf_content_rect start_corner v_inline bf_padding bf_border bf_margin inline_start].
      destruct ia as [x|x].
      - cbn [sadd inline_start]. lra.
      - assert (Hwh : w == h).
        { destruct Happ as [Happ|Happ]; [exact Happ|exfalso]. clear - Ei Happ. unfold solve_axis, absolute_box_offsets, is_auto in *.
          destruct (get st left_) as [u|u|], (get st right_) as [v|v|], (lpa_relative_to (get st width) w) as [zz|],
            (lpa_relative_to (get st margin_left) w), (lpa_relative_to (get st margin_right) w); cbn [non_auto] in Ei;
            try discriminate Ei; try (destruct Happ as [Happ|Happ]; [discriminate Happ|apply Happ; reflexivity]);
            destruct (inline_solve_margins _) in Ei; discriminate Ei. }
        change z with (auto_is isz filler). unfold inline_sum. cbn [sadd inline_start inline_end]. unfold h in Hwh |- *. fold h. fold h in Hwh. lra. }
    exists (w - s - mil - inline_sum (sadd pad bor) - z - mir).
    assert (Hpb : inline_start (bf_padding b) + inline_start (bf_border b) + inline_end (bf_padding b) + inline_end (bf_border b) == inline_sum (sadd pad bor)).
    { unfold inline_sum, b. cbn [sadd bf_padding bf_border inline_start inline_end]. lra. }
    destruct (solve_axis_loa w _ _ _ _ _ _ _ _ _ filler _ _ _ _ inline_margins_ok Ei w s z _ (or_introl (Qeq_refl _)) eq_refl Hs (Qeq_refl _)) as [Hax Hi].
    split; [|split].
    + apply (axis_loa_ok w w). left; reflexivity. unfold axis_loa in Hax |- *. change (inline_start (bf_margin b)) with mil. change (inline_end (bf_margin b)) with mir.
      destruct Hax as (H1 & H2 & H3 & H4 & H5 & H6 & Hax). rewrite Hx0 in H6. split; [rewrite Hpb; exact H1|]. repeat (split; [assumption|]). exact Hax.
    + intros Hw1 Hr1. assert (Hia : isz = Auto) by (apply Hi; tauto). unfold z, content_width, b, cr. cbn [bf_content_rect size v_inline]. rewrite Hia. cbn [auto_is].
      destruct ia as [x|x].
      * rewrite Hs. unfold filler, inline_sum, mar. cbn [inline_start inline_end]. lra.
      * exfalso. clear - Ei Hw1 Hr1. unfold is_auto in *. rewrite Hw1, Hr1 in Ei. unfold solve_axis, absolute_box_offsets in Ei.
        destruct (get st left_); discriminate Ei.
    + intros Hw1 Hl1 Hr1. assert (Hia : isz = Auto) by (apply Hi; tauto).
      assert (Hz : z = filler) by (unfold z, content_width, b, cr; cbn [bf_content_rect size v_inline]; rewrite Hia; reflexivity).
      destruct ia as [x|x].
      * exfalso. clear - Ei Hl1 Hr1. unfold is_auto in *. rewrite Hl1 in Ei. unfold solve_axis, absolute_box_offsets in Ei.
        destruct (get st right_); try discriminate Ei. apply Hr1; reflexivity.
      * rewrite Hs, Hz. unfold filler, inline_sum, mar. cbn [inline_start inline_end]. lra.
  - intros Happ. unfold block_axis_ok. cbv zeta. change (bf_style b) with st.
    set (z := content_height b). set (s := outer_top b).
    assert (Hs : s == match ba with AnchorStart s => s | AnchorEnd e => h - e - mbe - z - block_sum (sadd pad bor) - mbs end).
    { unfold s, outer_top, content_top, pb_start, b, cr, mar. cbn [bf_content_rect start_corner v_block bf_padding bf_border bf_margin block_start].
      change z with (auto_is bsz (fc_block_size fc)).
      destruct ba as [x|x]; unfold block_sum; cbn [sadd block_start block_end]; lra. }
    exists (h - s - mbs - block_sum (sadd pad bor) - z - mbe).
    assert (Hpb : pb_start b + pb_end b == block_sum (sadd pad bor)).
    { unfold block_sum, pb_start, pb_end, b. cbn [sadd bf_padding bf_border block_start block_end]. lra. }
    assert (Happ' : h == w \/ (is_auto (get st top_) \/ is_auto (get st bottom_) \/
       (~ is_auto (get st height) /\ lpa_relative_to (get st margin_top) w <> Auto /\ lpa_relative_to (get st margin_bottom) w <> Auto))).
    { rewrite !rel_auto. destruct Happ as [Happ|Happ]; [left; lra|right; tauto]. }
    destruct (solve_axis_loa w _ _ _ _ _ _ _ _ _ (fc_block_size fc) _ _ _ _ block_margins_ok Eb h s z _ Happ' eq_refl Hs (Qeq_refl _)) as [Hax Hi].
    apply (axis_loa_ok h w). { destruct Happ as [Happ|Happ]; [left; lra|right; tauto]. }
    unfold axis_loa in Hax |- *. change (block_start (bf_margin b)) with mbs. change (block_end (bf_margin b)) with mbe.
    destruct Hax as (H1 & H2 & H3 & H4 & H5 & H6 & Hax). rewrite Hy0 in H6. split; [rewrite Hpb; exact H1|]. repeat (split; [assumption|]). exact Hax.
  - exact Hw.
  - exact Hok.
  - exact Hbs.
  - intros E. unfold content_height, b, cr. cbn [bf_content_rect size v_block]. rewrite E. exact Hsz.
  - intros x E. unfold content_height, b, cr. cbn [bf_content_rect size v_block]. rewrite E. reflexivity.
  - exact Hpos.
  - exact Hplaces.
  - exact Hcb.
Qed.

(** ** Boxes in normal flow *)
Lemma containing_block_same : forall b b' boxes extra,
  size (bf_content_rect b') = size (bf_content_rect b) -> bf_padding b' = bf_padding b ->
  containing_block_of b boxes extra -> containing_block_of b' boxes extra.
Proof.
  intros b b' boxes extra Hs Hp H. inversion H; subst.
  - constructor.
  - constructor; unfold content_width, content_height in *; rewrite ?Hs, ?Hp; assumption.
Qed.
Lemma place_same : forall f s f' s', place_block_level_fragment f s = Some (f', s') -> same_but_moved f f'.
Proof.
  intros f s f' s' H. unfold place_block_level_fragment in H. destruct f as [b ch|r m ch|]; [| |discriminate H].
  - destruct (next_collapses_with_parent_start s).
    + destruct (Qeq_bool _ 0); [|discriminate H]. destruct (collapsed_through (bf_margins b)); injection H as <- _; reflexivity.
    + destruct (collapsed_through (bf_margins b)); injection H as <- _; reflexivity.
  - destruct ch; [|discriminate H]. destruct (Qeq_bool _ 0); [|discriminate H]. injection H as <- _. reflexivity.
Qed.
Lemma same_trans : forall f g h, same_but_moved f g -> same_but_moved g h -> same_but_moved f h.
Proof. intros [b c|r m c|st r t] [b1 c1|r1 m1 c1|st1 r1 t1] [b2 c2|r2 m2 c2|st2 r2 t2] H1 H2; cbn [same_but_moved] in *; try contradiction; congruence. Qed.
Lemma inner_moved : forall b f g places, inner_absolutes b f places -> same_but_moved f g -> inner_absolutes b g places.
Proof. intros b f g places H Hs h places' Hh. apply H. exact (same_trans _ _ _ Hs Hh). Qed.
Lemma moved_in_block : forall bx f s f' s', positioned_in_block bx f -> place_block_level_fragment f s = Some (f', s') -> positioned_in_block bx f'.
Proof.
  intros bx f s f' s' Hp H. unfold place_block_level_fragment in H. destruct f as [b ch|r m ch|]; [| |discriminate H].
  - assert (Hm : forall r, size r = size (bf_content_rect b) -> positioned_in_block bx (FBox (with_content_rect b r) ch)).
    { intros r Hr. inversion Hp; subst; econstructor; try eassumption; eapply containing_block_same; try eassumption; reflexivity || exact Hr. }
    destruct (next_collapses_with_parent_start s).
    + destruct (Qeq_bool _ 0); [|discriminate H]. destruct (collapsed_through (bf_margins b)); [injection H as <- _; exact Hp|].
      injection H as <- _. apply Hm. reflexivity.
    + destruct (collapsed_through (bf_margins b)); injection H as <- _; apply Hm; reflexivity.
  - destruct ch; [|discriminate H]. destruct (Qeq_bool _ 0); [|discriminate H]. injection H as <- _. inversion Hp; subst; constructor.
Qed.

(** The children from rank [i] on, and what they have collected *)
Inductive each_ok : nat -> list block_level_box -> list fragment -> list abspos_fragment -> Prop :=
| eo_nil : forall i, each_ok i [] [] []
| eo_cons : forall i b l f frs places new news,
    Forall2 (collected i) places new -> inner_absolutes b f places -> positioned_in_block b f ->
    each_ok (S i) l frs news -> each_ok i (b :: l) (f :: frs) (new ++ news).
Lemma placed_each : forall i l frs news s frs' s', each_ok i l frs news -> place_all frs s = Some (frs', s') -> each_ok i l frs' news.
Proof.
  intros i l frs news s frs' s' H. revert s frs' s'. induction H as [i|i b l f frs places new news Hc Hi Hp Hr IH]; intros s frs' s' E; cbn [place_all] in E.
  - injection E as <- _. constructor.
  - destruct (place_block_level_fragment f s) as [[f1 s1]|] eqn:E1; [|discriminate E].
    destruct (place_all frs s1) as [[fr2 s2]|] eqn:E2; [|discriminate E]. injection E as <- _.
    econstructor; [exact Hc|exact (inner_moved _ _ _ _ Hi (place_same _ _ _ _ E1))|exact (moved_in_block _ _ _ _ _ Hp E1)|exact (IH _ _ _ E2)].
Qed.
Lemma each_collected : forall lay l i acc frs acc',
  (forall b, In b l -> forall i acc f acc', lay i b acc = Some (f, acc') ->
     exists places new, acc' = acc ++ new /\ Forall2 (collected i) places new /\ inner_absolutes b f places /\ positioned_in_block b f) ->
  layout_each lay i l acc = Some (frs, acc') ->
  exists news, acc' = acc ++ news /\ each_ok i l frs news.
Proof.
  intros lay l. induction l as [|b l IH]; intros i acc frs acc' H E; cbn [layout_each] in E.
  - injection E as <- <-. exists []. split; [symmetry; apply app_nil_r|constructor].
  - destruct (lay i b acc) as [[f a1]|] eqn:E1; [|discriminate E].
    destruct (layout_each lay (S i) l a1) as [[fs a2]|] eqn:E2; [|discriminate E]. injection E as <- <-.
    destruct (H b (or_introl eq_refl) _ _ _ _ E1) as (places & n1 & -> & Hn1 & Hi & Hp).
    destruct (IH _ _ _ _ (fun b' Hb => H b' (or_intror Hb)) E2) as (n2 & -> & Hn2).
    exists (n1 ++ n2). split; [symmetry; apply app_assoc|]. econstructor; eassumption.
Qed.
Lemma same_refl : forall b f, positioned_in_block b f -> same_but_moved f f.
Proof. intros b f H. inversion H; reflexivity. Qed.
Lemma adjust_each : forall i l frs news, each_ok i l frs news -> forall pre rank adj, List.length pre = i ->
  adjust_static_positions news (pre ++ frs) rank = Some adj ->
  exists places, Forall2 (collected rank) places adj /\ absolutes_in_children l frs places /\ Forall2 positioned_in_block l frs.
Proof.
  intros i l frs news H. induction H as [i|i b l f frs places new news Hc Hi Hp Hr IH]; intros pre rank adj Hlen E.
  - injection E as <-. exists []. split; [constructor|]. split; constructor.
  - apply map_option_app in E. destruct E as (a1 & a2 & -> & E1 & E2).
    assert (Hn : nth_error (pre ++ f :: frs) i = Some f).
    { rewrite nth_error_app2 by (rewrite Hlen; apply le_n). rewrite Hlen, Nat.sub_diag. reflexivity. }
    pose proof (adjust_all_collected _ _ _ _ _ _ _ Hn Hc E1) as H1.
    replace (pre ++ f :: frs) with ((pre ++ [f]) ++ frs) in E2 by (rewrite <- app_assoc; reflexivity).
    destruct (IH (pre ++ [f]) rank a2) as (p2 & H2 & H3 & H4).
    { rewrite app_length, Hlen. cbn [List.length]. rewrite Nat.add_1_r. reflexivity. }
    { exact E2. }
    eexists. split; [apply Forall2_app; [exact H1|exact H2]|]. split; [|constructor; assumption].
    constructor; [|exact H3]. apply Hi; [exact (same_refl _ _ Hp)|apply move_place_moved].
Qed.

Lemma blocks_collected : forall lay t l rank acc fl coll fc acc',
  (forall b, In b l -> forall i acc, lay i b acc = frame acc (lay i b [])) ->
  (forall b, In b l -> forall i acc f acc', lay i b acc = Some (f, acc') ->
     exists places new, acc' = acc ++ new /\ Forall2 (collected i) places new /\ inner_absolutes b f places /\ positioned_in_block b f) ->
  layout_block_level_children lay t l rank acc fl coll = Some (fc, acc') ->
  exists places new, acc' = acc ++ new /\ Forall2 (collected rank) places new /\
    absolutes_in_children l (fc_fragments fc) places /\ Forall2 positioned_in_block l (fc_fragments fc).
Proof.
  intros lay t l rank acc fl coll fc acc' Hfr H E. unfold layout_block_level_children in E.
  set (s0 := mkPS coll cm_zero cm_zero 0) in E.
  assert (E1 : (if fl then layout_and_place lay 0 l acc s0
                else match mapfold_reduce_into t 0 (map (fun b i acc => lay i b acc) l) acc with
                     | Some (fs, acc) => match place_all fs s0 with Some (fs, s) => Some (fs, acc, s) | None => None end
                     | None => None end) =
               match layout_each lay 0 l acc with
               | Some (fs, acc) => match place_all fs s0 with Some (fs, s) => Some (fs, acc, s) | None => None end
               | None => None end).
  { destruct fl; [apply layout_and_place_same|]. rewrite mapfold_each; [reflexivity|exact Hfr]. }
  rewrite E1 in E. clear E1.
  destruct (layout_each lay 0 l acc) as [[fs a1]|] eqn:Ee; [|discriminate E].
  destruct (place_all fs s0) as [[frs s]|] eqn:Ep; [|discriminate E].
  destruct (each_collected _ _ _ _ _ _ H Ee) as (news & -> & Hn).
  rewrite skipn_app, skipn_all, Nat.sub_diag, firstn_app, firstn_all, Nat.sub_diag in E. cbn [app skipn firstn] in E. rewrite app_nil_r in E.
  destruct (adjust_static_positions news frs rank) as [adj|] eqn:Ea; [|discriminate E]. injection E as <- <-. cbn [fc_fragments].
  destruct (adjust_each _ _ _ _ (placed_each _ _ _ _ _ _ _ Hn Ep) [] rank adj eq_refl Ea) as (places & H1 & H2 & H3).
  exists places, adj. split; [reflexivity|]. split; [exact H1|]. split; [exact H2|exact H3].
Qed.

Lemma in_flow_collected : forall cb acc style kind lc rank f acc' contents,
  (forall cb acc coll fc acc', lc cb acc coll = Some (fc, acc') ->
     exists places new, acc' = acc ++ new /\ Forall2 (collected rank) places new /\
       absolutes_in_container contents (fc_fragments fc) places /\ positioned_in_container contents (fc_fragments fc)) ->
  layout_in_flow_non_replaced_block_level cb acc style kind lc = Some (f, acc') ->
  exists b children extra new inner, f = FBox b (children ++ extra) /\ acc' = acc ++ new /\
    absolutes_in_container contents children inner /\
    positioned_in_container contents children /\
    ((get style position_ = Relative /\ new = [] /\ containing_block_of b inner extra) \/
     (get style position_ <> Relative /\ extra = [] /\ Forall2 (collected rank) inner new)).
Proof.
  intros cb acc style kind lc rank f acc' contents Hc H. unfold layout_in_flow_non_replaced_block_level in H.
  set (w := cb_inline_size cb) in *.
  set (pad := lp_sides_relative_to (style_padding style) w) in H.
  set (bor := lp_sides_relative_to (style_border_width style) w) in H.
  set (mar := sides_auto_is _ 0) in H.
  set (is_ := auto_is _ _) in H.
  set (h := match v_block (box_size style) with LpaLength l => Length l
          | LpaPercentage p => loa_map (fun cbbs => cbbs * p) (cb_block_size cb) | LpaAuto => Auto end) in H.
  cbn [cb_mode] in H. destruct (wmode_eqb _ _) in H; [|discriminate H].
  set (sc := is_same kind && Qeq_bool (block_start (sadd pad bor)) 0) in H.
  set (ec := is_same kind && Qeq_bool (block_end (sadd pad bor)) 0 && _) in H.
  set (relative := is_relatively_positioned (get style position_)) in H.
  destruct (lc _ _ sc) as [[fc acc2]|] eqn:El; [|discriminate H].
  destruct (if sc then _ else _) as [start in_children] in H.
  destruct (if ec then _ else _) as [end_ fc_size] in H.
  set (collapsed := mkCBM _ start end_) in H.
  set (cr := mkRect _ _) in H.
  set (b := mkBoxFragment style cr pad bor mar collapsed) in H.
  destruct (Hc _ _ _ _ _ El) as (places & new & -> & Hn & Hi & Hp). unfold relative in *. clear relative.
  destruct (get style position_) eqn:Epos; cbn [is_relatively_positioned] in H.
  - injection H as <- <-. exists b, (fc_fragments fc), [], new, places. rewrite app_nil_r. split; [reflexivity|]. split; [reflexivity|].
    split; [exact Hi|]. split; [exact Hp|]. right. split; [discriminate|]. split; [reflexivity|exact Hn].
  - cbn [app] in H. destruct (in_positioned_containing_block _ _ _ _ _ _) as [ch|] eqn:Ec; [|discriminate H]. injection H as <- <-.
    destruct (containing_block_added _ _ _ _ _ _ _ _ b Hn Ec eq_refl eq_refl) as (extra & -> & Hcb).
    exists b, (fc_fragments fc), extra, [], places. rewrite app_nil_r. split; [reflexivity|]. split; [reflexivity|].
    split; [exact Hi|]. split; [exact Hp|]. left. split; [reflexivity|]. split; [reflexivity|exact Hcb].
  - injection H as <- <-. exists b, (fc_fragments fc), [], new, places. rewrite app_nil_r. split; [reflexivity|]. split; [reflexivity|].
    split; [exact Hi|]. split; [exact Hp|]. right. split; [discriminate|]. split; [reflexivity|exact Hn].
Qed.

(** ** Lines *)
Lemma grows_refl : forall lb, grows lb lb.
Proof. intros lb y H. exact H. Qed.
Lemma grows_trans : forall a b c, grows a b -> grows b c -> grows a c.
Proof. intros a b c H1 H2 y H. apply H2, H1, H. Qed.
Lemma finish_line_top : forall lb nl cb y, tops lb y -> top_of_a_line (lb_boxes (fst (finish_line lb nl cb))) y.
Proof.
  intros lb nl cb y H. unfold finish_line. cbn [fst lb_boxes]. destruct H as [(r & m & ch & Hin & Hr)|H].
  - exists r, m, ch. split; [apply in_or_app; left; exact Hin|exact Hr].
  - eexists. eexists. eexists. split; [apply in_or_app; right; left; reflexivity|]. exact H.
Qed.
Lemma break_grows : forall cb stack nl pos lb, grows lb (snd (break_levels cb stack nl pos lb)).
Proof.
  intros cb. induction stack as [|p stack IH]; intros nl pos lb; cbn [break_levels].
  - intros y H. pose proof (finish_line_top lb nl cb y H) as E. destruct (finish_line lb nl cb) as [lb' nl']. left. exact E.
  - destruct (finish_layout p nl pos true) as [[p1 nl1] pos1].
    specialize (IH (pi_parent (after_break p1)) pos1 lb). destruct (break_levels cb stack (pi_parent (after_break p1)) pos1 lb) as [[par rest] lb1]. exact IH.
Qed.
Lemma new_line_grows : forall cb s, grows (ifc_lines s) (ifc_lines (new_line cb s)).
Proof.
  intros cb s. unfold new_line. pose proof (break_grows cb (ifc_stack s) (mkNL (nl_fragments (ifc_current s)) 0 (nl_max_block_size (ifc_current s))) (ifc_position s) (ifc_lines s)) as H.
  destruct (break_levels _ _ _ _ _) as [[cur st] lb]. exact H.
Qed.
Lemma text_grows : forall fuel cb st av chars s s', text_run_lines glyph_id glyph_width fuel cb st av chars s = Some s' ->
  grows (ifc_lines s) (ifc_lines s').
Proof.
  induction fuel as [|fuel IH]; intros cb st av chars s s' H; cbn [text_run_lines] in H; [discriminate H|].
  destruct (fill_line _ _ _ _ _ _ _) as [[sh rest]|]; [|discriminate H]. destruct rest as [|c rest].
  - injection H as <-. apply grows_refl.
  - apply IH in H. eapply grows_trans; [|exact H]. eapply grows_trans; [|apply new_line_grows]. apply grows_refl.
Qed.
Lemma inline_place_grows : forall a b p, grows a b -> inline_place a p -> inline_place b p.
Proof. intros a b p H (H1 & H2). split; [apply H, H1|exact H2]. Qed.

Lemma inlines_collected : forall (one : inline_level_box -> _ -> _ -> _) rank l s acc s' acc',
  (forall b, In b l -> forall s acc s' acc', one b s acc = Some (s', acc') ->
     grows (ifc_lines s) (ifc_lines s') /\
     exists places new, acc' = acc ++ new /\ Forall2 (collected rank) places new /\
       map fst places = absolutes_in_inline b /\ Forall (inline_place (ifc_lines s')) places) ->
  inline_boxes_layout one l s acc = Some (s', acc') ->
  grows (ifc_lines s) (ifc_lines s') /\
  exists places new, acc' = acc ++ new /\ Forall2 (collected rank) places new /\
    map fst places = flat_map absolutes_in_inline l /\ Forall (inline_place (ifc_lines s')) places.
Proof.
  intros one rank. induction l as [|b l IH]; intros s acc s' acc' H E; cbn [inline_boxes_layout] in E.
  - injection E as <- <-. split; [apply grows_refl|]. exists [], []. split; [symmetry; apply app_nil_r|]. split; [constructor|]. split; [reflexivity|constructor].
  - destruct (one b s acc) as [[s1 a1]|] eqn:E1; [|discriminate E].
    destruct (H b (or_introl eq_refl) _ _ _ _ E1) as (G1 & p1 & n1 & -> & Hn1 & Hm1 & Hp1).
    destruct (IH _ _ _ _ (fun b' Hb => H b' (or_intror Hb)) E) as (G2 & p2 & n2 & -> & Hn2 & Hm2 & Hp2).
    split; [exact (grows_trans _ _ _ G1 G2)|]. exists (p1 ++ p2), (n1 ++ n2). split; [symmetry; apply app_assoc|]. split; [apply Forall2_app; assumption|].
    cbn [flat_map]. rewrite map_app, Hm1, Hm2. split; [reflexivity|]. apply Forall_app. split; [|exact Hp2].
    eapply Forall_impl; [|exact Hp1]. intros p. apply inline_place_grows. exact G2.
Qed.

Theorem all_absolutes : (forall c, Ac c) /\ (forall b, Ab b) /\ (forall c, Af c) /\ (forall b, Ai b).
Proof.
  apply boxes_ind.
  - intros l HF o cb rank acc fl coll fc acc' H. rewrite bcl_blocks in H. rewrite Forall_forall in HF.
    destruct (schedules glyph_id glyph_width) as (_ & Hs & _).
    destruct (blocks_collected _ _ _ _ _ _ _ _ _ (fun b _ i a => Hs b (sub_oracle o i) (sub_oracle o i) cb i a fl fl)
      (fun b Hb i a f a' E => HF b Hb _ _ _ _ _ _ _ E) H) as (places & new & E & Hn & Hi & Hp).
    exists places, new. split; [exact E|]. split; [exact Hn|]. split; constructor; assumption.
  - intros l HF o cb rank acc fl coll fc acc' H. rewrite bcl_inlines in H. rewrite Forall_forall in HF.
    destruct (inline_boxes_layout _ l _ acc) as [[s2 acc2]|] eqn:E; [|discriminate H].
    pose proof (finish_line_top (ifc_lines s2) (ifc_current s2) cb) as Ht.
    destruct (finish_line (ifc_lines s2) (ifc_current s2) cb) as [lb nl]. injection H as <- <-. cbn [fst fc_fragments] in *.
    destruct (inlines_collected _ rank _ _ _ _ _ (fun b Hb s a s' a' E => HF b Hb _ _ _ _ _ _ _ E) E) as (_ & places & new & -> & Hn & Hm & Hp).
    exists places, new. split; [reflexivity|]. split; [exact Hn|]. split; constructor; [exact Hm|].
    eapply Forall_impl; [|exact Hp]. intros p (H1 & H2). split; [apply Ht; exact H1|exact H2].
  - intros st c Hc o cb rank acc fl f acc' H. rewrite bll_same in H.
    destruct (in_flow_collected _ _ _ _ _ rank _ _ c (fun cb a coll fc a' E => Hc _ _ _ _ _ _ _ _ E) H)
      as (b & ch & ex & new & inner & -> & -> & Hi & Hp & [(Hr & -> & Hcb)|(Hr & -> & Hn)]).
    + exists [], []. split; [reflexivity|]. split; [constructor|]. split; [|econstructor; [exact Hp|intros Hx; contradiction|intros _; exact Hi|exact Hcb]].
      intros g places' Hg Hf. destruct g; cbn [same_but_moved] in Hg; try contradiction. inversion Hf. constructor. exact Hr.
    + exists inner, new. split; [reflexivity|]. split; [exact Hn|]. split; [|apply a_same with (places := []); [exact Hp|reflexivity|intros Hx; contradiction|constructor]].
      intros g places' Hg Hf. destruct g; cbn [same_but_moved] in Hg; try contradiction. subst. apply s_same with (inner := inner); [exact Hr|exact Hi|exact Hf].
  - intros st c Hc o cb rank acc fl f acc' H. injection H as <- <-. exists [((st, c), (0, 0))]. eexists. split; [reflexivity|]. split; [|split; [|constructor]].
    + constructor; [|constructor]. split; [|exact (proj1 Hc)]. exists o, vzero. split; [reflexivity|]. split; reflexivity.
    + intros g places' Hg Hf. destruct g as [|r m ch|]; cbn [same_but_moved no_op] in Hg; try contradiction. subst ch.
      inversion Hf as [|p q l l' (H1 & H2 & H3) Hl]; subst. inversion Hl; subst. destruct q as [[a b] [x y]]. cbn [fst snd start_of] in *. injection H1 as -> ->.
      constructor; lra.
  - intros st c Hc o cb rank acc fl f acc' H. injection H as <- <-. exists [], []. split; [symmetry; apply app_nil_r|]. split; [constructor|]. split; [|constructor].
    intros g places' Hg Hf. destruct g as [|r m ch|]; cbn [same_but_moved no_op] in Hg; try contradiction. subst ch. inversion Hf. constructor.
  - intros st c Hc o cb rank acc fl f acc' H. rewrite bll_independent in H. destruct c as [contents floats]. destruct Hc as [_ Hc].
    destruct (in_flow_collected _ _ _ _ _ rank _ _ contents (fun cb a coll fc a' E => Hc _ _ _ _ _ _ E) H)
      as (b & ch & ex & new & inner & -> & -> & Hi & Hp & [(Hr & -> & Hcb)|(Hr & -> & Hn)]).
    + exists [], []. split; [reflexivity|]. split; [constructor|]. split; [|econstructor; [exact Hp|intros Hx; contradiction|intros _; exact Hi|exact Hcb]].
      intros g places' Hg Hf. destruct g; cbn [same_but_moved] in Hg; try contradiction. inversion Hf. constructor. exact Hr.
    + exists inner, new. split; [reflexivity|]. split; [exact Hn|]. split; [|apply a_independent with (places := []); [exact Hp|reflexivity|intros Hx; contradiction|constructor]].
      intros g places' Hg Hf. destruct g; cbn [same_but_moved] in Hg; try contradiction. subst. apply s_independent with (inner := inner); [exact Hr|exact Hi|exact Hf].
  - intros c fl Hc. split; [exact (bfc_lays_out c fl Hc)|exact (bfc_collected c fl Hc)].
  - intros st fi la children HF o cb rank s acc s' acc' H. rewrite ill_inline in H. rewrite Forall_forall in HF.
    assert (El : ifc_lines (snd (start_layout cb st fi la s)) = ifc_lines s) by (unfold start_layout; destruct fi; reflexivity).
    destruct (start_layout cb st fi la s) as [p s1]. cbn [snd] in El.
    destruct (inline_boxes_layout _ children _ acc) as [[s2 acc2]|] eqn:E; [|discriminate H].
    destruct (inlines_collected _ rank _ _ _ _ _ (fun b Hb s a s' a' E => HF b Hb _ _ _ _ _ _ _ E) E) as (G & places & new & -> & Hn & Hm & Hp).
    cbn [ifc_lines] in G. rewrite El in G.
    destruct (ifc_stack s2) as [|q stack]; [discriminate H|].
    destruct (finish_layout q (ifc_current s2) (ifc_position s2) false) as [[q' nl] pos]. injection H as <- <-. cbn [ifc_lines].
    split; [exact G|]. exists places, new. split; [reflexivity|]. split; [exact Hn|]. split; [exact Hm|exact Hp].
  - intros st t o cb rank s acc s' acc' H.
    change (match text_run_layout glyph_id glyph_width cb st t s with Some s => Some (s, acc) | None => None end = Some (s', acc')) in H.
    destruct (text_run_layout glyph_id glyph_width cb st t s) as [s1|] eqn:E; [|discriminate H]. injection H as <- <-.
    split; [exact (text_grows _ _ _ _ _ _ _ E)|]. exists [], []. split; [symmetry; apply app_nil_r|]. split; [constructor|]. split; [reflexivity|constructor].
  - intros st c Hc o cb rank s acc s' acc' H.
    change (match initial_corner st s with
            | Some corner => Some (s, acc ++ [abspos_box_layout st (fun cb => fcl (sub_oracle o (List.length acc)) c cb 0%nat []) corner rank])
            | None => None end = Some (s', acc')) in H.
    destruct (initial_corner st s) as [corner|] eqn:Ecn; [|discriminate H]. injection H as <- <-. split; [apply grows_refl|].
    exists [((st, c), (v_inline corner, v_block corner))]. eexists. split; [reflexivity|].
    split; [|split; [reflexivity|]].
    + constructor; [|constructor]. split; [|exact (proj1 Hc)]. eexists. exists corner. split; [reflexivity|]. split; reflexivity.
    + constructor; [|constructor]. unfold initial_corner in Ecn. unfold inline_place. cbn [fst snd].
      destruct (specified_display st) as [| |out ins] eqn:Ed; try discriminate Ecn. injection Ecn as <-. cbn [v_inline v_block].
      split; [right; reflexivity|]. intros ins2 Hd. injection Hd as -> ->. reflexivity.
  - intros st c Hc o cb rank s acc s' acc' H. injection H as <- <-. split; [apply grows_refl|].
    exists [], []. split; [symmetry; apply app_nil_r|]. split; [constructor|]. split; [reflexivity|constructor].
Qed.
End Font.
