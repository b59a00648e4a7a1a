(** Property C98: also with rounding, texts have as few lines as can be *)
From Coq Require Import QArith Qminmax Lqa Lia.
From Verif Require Import Base Dom StyleValues StyleProperties PdfConvert Geom Text LayoutTree Layout LayoutSpec LayoutProps InlineSpec.
From Verif Require Import FontParsing FontCmap FontSpec FontProofs FontCmapProofs VeraFile VeraProofs VeraProps.
From Verif Require Import LesterFloat Float32 Float32Proofs Arith32 Arith32Spec Arith32Proofs LayoutArith LayoutArithProofs RoundedLinesSpec RoundedLinesProofs.
Local Open Scope Q_scope.

(** In [f32], and in exact arithmetic, a sum or product of larger numbers is not smaller. *)
Theorem C98_orderly : orderly f32 width32 size32 room32 /\ orderly exact (fun q => 0 <= q) (fun q => 0 <= q) (fun _ => True).
Proof. split; [exact f32_orderly|exact exact_orderly]. Qed.

Section Font.
Variable ar : arith.
Variable glyph_id : N -> res font_error N.
Variable glyph_width : N -> res font_error Q.
Notation bcl := (block_container_layout_in ar glyph_id glyph_width).
Notation broken := (broken_in ar glyph_id glyph_width).
Variables width_ size_ room_ : Q -> Prop.
Hypothesis od : orderly ar width_ size_ room_.
Hypothesis widths : forall g w, glyph_width g = Ok w -> width_ w.
Lemma lines_in : forall o style text cb rank acc fl coll fc acc', room_ (cb_inline_size cb) ->
  bcl o (InlineFormattingContext [TextRun style text]) cb rank acc fl coll = Some (fc, acc') ->
  exists lines, lines1 (fits_in ar glyph_id glyph_width (cb_inline_size cb) (get style font_size)) (wide_in ar glyph_id glyph_width (cb_inline_size cb) (get style font_size)) text lines /\
    Forall2 (line_with ar glyph_id glyph_width) lines (fc_fragments fc) /\ length lines = length (fc_fragments fc) /\
    fc_block_size fc = stacked ar (a_max ar 0 (a_mul ar (get style font_size) (a_lit ar (12 # 10)))) (length lines).
Proof.
  intros o style text cb rank acc fl coll fc acc' Hr H. destruct (text_container_in _ _ _ _ _ _ _ _ _ _ _ _ _ H) as (lines & H1 & H2 & H3).
  exists lines. split; [|split; [exact H2|split; [|exact H3]]].
  - revert H1. apply lines1_impl; intros t; [apply (sub_zero_fits ar glyph_id glyph_width _ _ _ od); exact Hr|apply (sub_zero_wide ar glyph_id glyph_width _ _ _ od); exact Hr].
  - clear - H2. induction H2; cbn [length]; congruence.
Qed.
(** The lines of a text in a block are one of the ways of breaking it, with the glyphs of each part … *)
Theorem C98_lines : forall o style text cb rank acc fl coll fc acc', room_ (cb_inline_size cb) ->
  bcl o (InlineFormattingContext [TextRun style text]) cb rank acc fl coll = Some (fc, acc') ->
  exists lines, broken (cb_inline_size cb) (get style font_size) text lines /\ Forall2 (line_with ar glyph_id glyph_width) lines (fc_fragments fc).
Proof.
  intros o style text cb rank acc fl coll fc acc' Hr H. destruct (lines_in _ _ _ _ _ _ _ _ _ _ Hr H) as (lines & T & F & _). exists lines. split; [|exact F].
  exact (lines1_ways _ _ _ _ T).
Qed.
(** … and none has fewer lines. *)
Theorem C98_fewest : forall o style text cb rank acc fl coll fc acc' other, room_ (cb_inline_size cb) -> size_ (get style font_size) ->
  bcl o (InlineFormattingContext [TextRun style text]) cb rank acc fl coll = Some (fc, acc') ->
  broken (cb_inline_size cb) (get style font_size) text other -> (length (fc_fragments fc) <= length other)%nat.
Proof.
  intros o style text cb rank acc fl coll fc acc' other Hr Hs H O. destruct (lines_in _ _ _ _ _ _ _ _ _ _ Hr H) as (lines & T & _ & <- & _).
  apply (fewest_ways _ _ (fit_not_wide ar glyph_id glyph_width (cb_inline_size cb) (get style font_size))
    (fits_part_in ar glyph_id glyph_width _ _ _ od widths _ _ Hr Hs) _ _ _ T O).
Qed.
(** In a wider block or smaller letters, it has no more lines and is not taller. *)
Theorem C98_text : forall o o' style style' text cb cb' rank rank' acc acc2 fl fl' coll coll' fc fc' acc' acc2',
  room_ (cb_inline_size cb) -> room_ (cb_inline_size cb') -> size_ (get style font_size) -> size_ (get style' font_size) ->
  get style font_size <= get style' font_size -> cb_inline_size cb' <= cb_inline_size cb ->
  bcl o (InlineFormattingContext [TextRun style text]) cb rank acc fl coll = Some (fc, acc') ->
  bcl o' (InlineFormattingContext [TextRun style' text]) cb' rank' acc2 fl' coll' = Some (fc', acc2') ->
  (length (fc_fragments fc) <= length (fc_fragments fc'))%nat /\ fc_block_size fc <= fc_block_size fc'.
Proof.
  intros o o' style style' text cb cb' rank rank' acc acc2 fl fl' coll coll' fc fc' acc' acc2' Hr Hr' Hs Hs' L W H H'.
  destruct (lines_in _ _ _ _ _ _ _ _ _ _ Hr H) as (lines & T & _ & E & Z). destruct (lines_in _ _ _ _ _ _ _ _ _ _ Hr' H') as (lines' & T' & _ & E' & Z').
  assert (K : (length lines <= length lines')%nat).
  { apply (fewest_ways _ _ (fit_not_wide ar glyph_id glyph_width (cb_inline_size cb) (get style font_size))
      (fits_part_in ar glyph_id glyph_width _ _ _ od widths _ _ Hr Hs) _ _ _ T).
    destruct (lines1_ways _ _ _ _ T') as (N & J & F). split; [exact N|]. split; [exact J|]. eapply Forall_impl; [|exact F].
    intros l [K|K]; [left|right; exact K]. exact (fits_more ar glyph_id glyph_width _ _ _ od widths _ _ _ _ _ Hr Hr' Hs Hs' W L K). }
  split; [lia|]. rewrite Z, Z'. pose proof (od_lit _ _ _ _ od) as Li.
  pose proof (od_mul _ _ _ _ od _ _ Hs Li) as M. pose proof (od_mul _ _ _ _ od _ _ Hs' Li) as M'.
  destruct (od_max _ _ _ _ od _ M) as [X1 X2]. destruct (od_max _ _ _ _ od _ M') as [X1' X2'].
  apply (stacked_le ar _ _ _ od); [exact X1|exact X1'| |exact K]. rewrite X2, X2'. apply (od_mul_le _ _ _ _ od); try assumption. lra.
Qed.
End Font.
(** All of it in the arithmetic of the program *)
Theorem C98_f32 : forall glyph_id glyph_width, (forall g w, glyph_width g = Ok w -> width32 w) ->
  forall o style text cb rank acc fl coll fc acc', room32 (cb_inline_size cb) -> size32 (get style font_size) ->
  block_container_layout_in f32 glyph_id glyph_width o (InlineFormattingContext [TextRun style text]) cb rank acc fl coll = Some (fc, acc') ->
  (exists lines, broken_in f32 glyph_id glyph_width (cb_inline_size cb) (get style font_size) text lines /\
     Forall2 (line_with f32 glyph_id glyph_width) lines (fc_fragments fc)) /\
  forall other, broken_in f32 glyph_id glyph_width (cb_inline_size cb) (get style font_size) text other -> (length (fc_fragments fc) <= length other)%nat.
Proof.
  intros glyph_id glyph_width W o style text cb rank acc fl coll fc acc' Hr Hs H. split.
  - exact (C98_lines f32 glyph_id glyph_width _ _ _ f32_orderly _ _ _ _ _ _ _ _ _ _ Hr H).
  - intros other O. exact (C98_fewest f32 glyph_id glyph_width _ _ _ f32_orderly W _ _ _ _ _ _ _ _ _ _ _ Hr Hs H O).
Qed.

(** The widths of the glyphs of Vera.ttf are such numbers. *)
Theorem C98_vera : forall m pf, parse_font m vera_ttf = Ok pf -> forall g w, FontCmap.glyph_width m pf g = Ok w -> width32 w.
Proof.
  intros m pf H g w W. destruct (as_vera m pf H) as [Hb Hv]. destruct (vera_glyph_width m pf Hb Hv g) as (a & A & W').
  assert (E : w = to_ems pf (Z.of_N a)) by congruence. destruct Hv as (_ & _ & Hu & _). unfold to_ems in E. rewrite Hu in E.
  assert (L : (a < 65536)%N) by (apply (u16_at_bound _ _ _ vera_wf A)).
  assert (V : (Z.of_N a # 2048) == inject_Z (Z.of_N a) * pow2 (-11)) by (unfold Qeq, Qmult, inject_Z, pow2; cbn; lia).
  assert (F : finite32 w).
  { exists (Z.of_N a), (-11)%Z. split; [lia|]. split; [lia|]. rewrite E, (round32_comp _ _ V). apply round32_exact; lia. }
  split; [left; exact F|]. split; [|pose proof (finite_bounds _ F); lra]. rewrite E, (round32_comp _ _ V), round32_exact, <- V by lia.
  unfold Qle. cbn [Qnum Qden]. lia.
Qed.

(** ** Example and finding *)
(** Letters 1 em wide; the rest a little more than half of the last bit of 1 *)
Definition tiny : Q := pow2 (-24) + pow2 (-30).
Definition near_width (g : N) : res font_error Q := if (97 =? g)%N then Ok 1 else Ok tiny.
Definition near_id (ch : N) : res font_error N := Ok ch.
Definition one_px : computed_values := set font_size 1 plain.
Definition near_block (ar : arith) (text : list N) (w : Q) : option (list (list N)) :=
  match block_container_layout_in ar near_id near_width ex_oracle (InlineFormattingContext [TextRun one_px text]) (mkCB w (Length 100) (HorizontalTb, Ltr)) 0 [] false false with
  | Some (fc, _) => Some (map glyphs_in (fc_fragments fc))
  | None => None
  end.
Lemma near_widths : forall g w, near_width g = Ok w -> width32 w.
Proof.
  intros g w H. unfold near_width in H. pose proof infinity_pos.
  assert (F : finite32 w /\ 0 <= w).
  { destruct (97 =? g)%N; injection H as <-; [split; [exists 1%Z, 0%Z; repeat split; lia|lra]|]. split; [|vm_compute; discriminate].
    exists 65%Z, (-30)%Z. split; [lia|]. split; [lia|]. vm_compute. reflexivity. }
  destruct F as [F P]. split; [left; exact F|]. pose proof (finite_bounds _ F). lra.
Qed.
Example C98_example : size32 (get one_px font_size) /\ room32 (1 + pow2 (-22)) /\
  near_block f32 (bs "a bb a") (1 + pow2 (-22)) = Some [bs "a"; bs "bb a"] /\
  broken_in f32 near_id near_width (1 + pow2 (-22)) 1 (bs "a bb a") [bs "a"; bs "bb"; bs "a"].
Proof.
  split; [split; [exists 1%Z, 0%Z; repeat split; lia|reflexivity]|]. split; [split; [left; exists 4194305%Z, (-22)%Z; repeat split; try lia; vm_compute; reflexivity|vm_compute; discriminate]|].
  split; [vm_compute; reflexivity|]. split; [discriminate|]. split; [left; reflexivity|]. repeat (constructor; [right; vm_compute; intuition discriminate|]). constructor.
Qed.
(** Without rounding there may be fewer lines. *)
Theorem C98_rounding_refuted : exists text w one two three, (forall g q, near_width g = Ok q -> finite32 q) /\ finite32 w /\
  near_block exact text w = Some [one] /\ near_block f32 text w = Some [two; three].
Proof.
  exists (bs "a bb"), (1 + pow2 (-22)), (bs "a bb"), (bs "a"), (bs "bb").
  split; [|split; [exists 4194305%Z, (-22)%Z; repeat split; try lia; vm_compute; reflexivity|split; vm_compute; reflexivity]].
  intros g q H. unfold near_width in H. destruct (97 =? g)%N; injection H as <-; [exists 1%Z, 0%Z; repeat split; lia|].
  exists 65%Z, (-30)%Z. split; [lia|]. split; [lia|]. vm_compute. reflexivity.
Qed.
Print Assumptions C98_orderly.
Print Assumptions C98_lines.
Print Assumptions C98_fewest.
Print Assumptions C98_text.
Print Assumptions C98_f32.
Print Assumptions C98_vera.
Print Assumptions C98_rounding_refuted.
