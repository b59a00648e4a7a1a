(** Property C99: how far rounding takes widths and heights of text, and when it cannot change the lines *)
From Coq Require Import QArith Qminmax Qabs Lqa Lia.
From Verif Require Import Base Dom StyleValues StyleProperties PdfConvert Geom Text LayoutTree Layout LayoutSpec LayoutProps InlineSpec.
From Verif Require Import FontParsing FontCmap FontSpec FontProofs FontCmapProofs VeraFile VeraProofs VeraProps.
From Verif Require Import LesterFloat LesterFloatProofs Float32 Float32Proofs Arith32 Arith32Spec Arith32Proofs LayoutArith LayoutArithProofs RoundedLinesSpec RoundedLinesProofs RoundedLinesProps RoundingSpec RoundingProofs.
Local Open Scope Q_scope.

Section Font.
Variable glyph_id : N -> res font_error N.
Variable glyph_width : N -> res font_error Q.
Hypothesis widths : forall g w, glyph_width g = Ok w -> finite32 w /\ 0 <= w <= pow2 64.
Notation bcl ar := (block_container_layout_in ar glyph_id glyph_width).
(** ** Widths *)
(** The width of a text of [n] letters is wrong by no more than [n] parts of 2^23 … *)
Theorem C99_sum : forall text gs w gs' W, (Z.of_nat (length text) < 8388608)%Z ->
  adds_up f32 glyph_id glyph_width 0 text gs w -> adds_up exact glyph_id glyph_width 0 text gs' W ->
  finite32 w /\ Qabs (w - W) <= count (length text) * unit_ * W.
Proof.
  intros text gs w gs' W L H H'. assert (Hc : count (0 + length text) <= enough).
  { cbn [plus]. unfold count, enough. change 8388608 with (inject_Z 8388608). rewrite <- Zle_Qle. lia. }
  destruct (adds_near glyph_id glyph_width widths _ _ _ _ H 0 0 gs' W H' near_start Hc) as (F & _ & _ & E). split; [exact F|exact E].
Qed.
(** … and in pixels by one more, apart from underflow. *)
Theorem C99_width : forall fs text gs w gs' W, (Z.of_nat (length text) < 8388608)%Z -> size32 fs -> fs * W <= pow2 100 ->
  adds_up f32 glyph_id glyph_width 0 text gs w -> adds_up exact glyph_id glyph_width 0 text gs' W ->
  Qabs (a_mul f32 fs w - fs * W) <= slack (length text) (fs * W).
Proof.
  intros fs text gs w gs' W L Hs U H H'. assert (Hc : count (length text) <= enough).
  { unfold count, enough. change 8388608 with (inject_Z 8388608). rewrite <- Zle_Qle. lia. }
  destruct (product_near glyph_id glyph_width widths fs Hs text gs w gs' W Hc H H') as (P & B & B2 & M).
  cbn [f32 a_mul]. rewrite M. assert (T : 2 * pow2 100 < too_large) by (vm_compute; reflexivity).
  assert (Lt : fs * w < too_large) by lra. pose proof (rounded_error _ (proj1 B2) Lt) as E. apply abs_le in E.
  assert (Sl : slack (length text) (fs * W) == count (length text) * unit_ * (fs * W) + unit_ * (fs * W) + pow2 (-149)) by (unfold slack; rewrite count_S; ring).
  assert (H150 : pow2 (-149) == 2 * pow2 (-150)) by reflexivity. assert (P150 : 0 < pow2 (-150)) by (vm_compute; reflexivity).
  apply abs_le. rewrite Sl. unfold unit_ in *. lra.
Qed.

(** ** Lines *)
(** If no possible line is about as wide as there is room, the lines are those of exact arithmetic, and the
    height is wrong by no more than [2 n + 2] parts of 2^23 for [n] lines, apart from underflow. *)
Theorem C99_lines : forall o o' style text cb cb' rank rank' acc acc2 fl fl' coll coll' fc fc' acc' acc2',
  (Z.of_nat (length text) < 8388608)%Z -> finite32 (cb_inline_size cb) -> cb_inline_size cb' = cb_inline_size cb ->
  size32 (get style font_size) -> get style font_size <= pow2 63 ->
  decided glyph_id glyph_width (cb_inline_size cb) (get style font_size) text ->
  bcl f32 o (InlineFormattingContext [TextRun style text]) cb rank acc fl coll = Some (fc, acc') ->
  bcl exact o' (InlineFormattingContext [TextRun style text]) cb' rank' acc2 fl' coll' = Some (fc', acc2') ->
  map glyphs_in (fc_fragments fc) = map glyphs_in (fc_fragments fc') /\
  let n := length (fc_fragments fc) in
  fc_block_size fc' == count n * (get style font_size * (12 # 10)) /\
  Qabs (fc_block_size fc - fc_block_size fc') <= count (2 * n + 2) * unit_ * fc_block_size fc' + count n * pow2 (-149).
Proof.
  intros o o' style text cb cb' rank rank' acc acc2 fl fl' coll coll' fc fc' acc' acc2' L Fr Ecb Hs U D H H'.
  assert (Hr : room32 (cb_inline_size cb)) by (split; [left; exact Fr|pose proof (finite_bounds _ Fr); lra]).
  destruct (lines_in f32 glyph_id glyph_width _ _ _ f32_orderly _ _ _ _ _ _ _ _ _ _ Hr H) as (lines & T & F & E & Z).
  destruct (lines_in exact glyph_id glyph_width _ _ _ exact_orderly _ _ _ _ _ _ _ _ _ _ I H') as (lines' & T' & F' & E' & Z'). rewrite Ecb in T'.
  assert (X : lines = lines').
  { apply (lines1_fun _ _ (fit_not_wide exact glyph_id glyph_width (cb_inline_size cb) (get style font_size)) text); [|exact T'].
    refine (lines1_same _ _ _ _ text _ _ _ _ T _); [| |exists []; split; [reflexivity|left; reflexivity]].
    - intros l Hl. exact (fit_same glyph_id glyph_width widths _ _ Fr Hs text L D l Hl).
    - intros l Hl. exact (wide_same glyph_id glyph_width widths _ _ Fr Hs text L D l Hl). }
  subst lines'. split.
  - clear - F F'. revert F'. generalize (fc_fragments fc'). induction F as [|l f ls fs [w Hw] F IH]; intros fs' F'; inversion F' as [|l' f' ls' fs2 [w' Hw'] F2]; subst; [reflexivity|].
    cbn [map]. f_equal; [|exact (IH _ F2)]. destruct (adds_other glyph_id glyph_width f32 exact _ _ _ _ Hw 0) as (v & Hv).
    exact (proj1 (adds_fun exact glyph_id glyph_width _ _ _ _ Hv _ _ Hw')).
  - cbv zeta. rewrite <- E.
    assert (Hp : 0 <= get style font_size * (12 # 10)) by (destruct Hs; lra).
    assert (Zx : fc_block_size fc' == count (length lines) * (get style font_size * (12 # 10))).
    { rewrite Z', stacked_exact. cbn [exact a_max a_mul a_lit]. rewrite Q.max_r by exact Hp. reflexivity. }
    split; [exact Zx|]. rewrite Zx, Z. cbn [f32 a_max a_mul a_lit]. apply block_near; [exact Hs|exact U|].
    destruct (lines1_ways _ _ _ _ T) as (_ & J & _). pose proof (joined_length lines) as Jl.
    assert (Lj : (length (joined lines) <= length text)%nat) by (destruct J as [-> | ->]; [|rewrite app_length]; lia).
    unfold count, enough. change 8388608 with (inject_Z 8388608). rewrite <- Zle_Qle. lia.
Qed.
End Font.
(** The widths of the glyphs of Vera.ttf are such numbers. *)
Theorem C99_vera : forall m pf, parse_font m vera_ttf = Ok pf -> forall g w, FontCmap.glyph_width m pf g = Ok w -> finite32 w /\ 0 <= w <= pow2 64.
Proof.
  intros m pf H g w W. destruct (as_vera m pf H) as [Hb Hv]. destruct (vera_glyph_width m pf Hb Hv g) as (a & A & W').
  assert (E : w = to_ems pf (Z.of_N a)) by congruence. destruct Hv as (_ & _ & Hu & _). unfold to_ems in E. rewrite Hu in E.
  assert (L : (a < 65536)%N) by (apply (u16_at_bound _ _ _ vera_wf A)).
  assert (V : (Z.of_N a # 2048) == inject_Z (Z.of_N a) * pow2 (-11)) by (unfold Qeq, Qmult, inject_Z, pow2; cbn; lia).
  assert (Ew : w == Z.of_N a # 2048) by (rewrite E, (round32_comp _ _ V), round32_exact, <- V by lia; reflexivity).
  split.
  - exists (Z.of_N a), (-11)%Z. split; [lia|]. split; [lia|]. rewrite Ew. exact V.
  - rewrite Ew. split; [unfold Qle; cbn [Qnum Qden]; lia|]. apply Qle_trans with (64 # 1); [unfold Qle; cbn [Qnum Qden]; lia|vm_compute; discriminate].
Qed.

(** ** Example *)
(** Letters 8 wide in lines of 60 *)
Lemma ex_sum : forall w l gs W, adds_up exact ex_glyph_id ex_glyph_width w l gs W -> W == w + count (length l) * (1 # 2).
Proof.
  intros w l gs W H. induction H as [w|w ch t g gs gw w' H1 H2 H IH]; [unfold count; cbn; ring|]. cbn [length]. rewrite count_S, IH. cbn [exact a_add].
  assert (E : gw = 1 # 2) by (unfold ex_glyph_width in H2; congruence). rewrite E. ring.
Qed.
Example C99_example : decided ex_glyph_id ex_glyph_width 60 16 (bs "a bb ccc dd") /\ finite32 60 /\ size32 (get plain font_size) /\ get plain font_size = 16 /\
  (forall g w, ex_glyph_width g = Ok w -> finite32 w /\ 0 <= w <= pow2 64) /\
  forall ar, In ar [f32; exact] ->
    match block_container_layout_in ar ex_glyph_id ex_glyph_width ex_oracle (InlineFormattingContext [TextRun plain (bs "a bb ccc dd")]) (mkCB 60 (Length 100) (HorizontalTb, Ltr)) 0 [] false false with
    | Some (fc, _) => map glyphs_in (fc_fragments fc) = [bs "a bb"; bs "ccc dd"]
    | None => False
    end.
Proof.
  split; [|split; [exists 60%Z, 0%Z; repeat split; lia|split; [split; [exists 16%Z, 0%Z; repeat split; lia|reflexivity]|split; [reflexivity|split]]]].
  - intros l gs w (a & c & E & _) H. apply ex_sum in H.
    assert (L : (length l <= 11)%nat) by (apply (f_equal (@length N)) in E; rewrite !app_length in E; change (length (bs "a bb ccc dd")) with 11%nat in E; lia).
    assert (X : 16 * w == 8 * count (length l)) by (rewrite H; ring). unfold slack. rewrite X. clear H X E. revert L. generalize (length l). intros n L.
    assert (S : pow2 (-149) <= 1 # 1000) by (vm_compute; discriminate).
    do 12 (destruct n as [|n]; [unfold count, unit_; cbn [Z.of_nat Pos.of_succ_nat Pos.succ]; unfold inject_Z; first [left; lra|right; lra]|]). lia.
  - intros g w H. assert (E : w = 1 # 2) by (unfold ex_glyph_width in H; congruence). subst w. split; [|split; vm_compute; discriminate]. exists 1%Z, (-1)%Z. repeat split; lia.
  - intros ar [<-|[<-|[]]]; vm_compute; reflexivity.
Qed.
Print Assumptions C99_sum.
Print Assumptions C99_width.
Print Assumptions C99_lines.
Print Assumptions C99_vera.
