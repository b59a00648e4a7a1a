(** Property C90: texts have as few lines as can be, and with more room nothing gets lower or taller *)
From Coq Require Import QArith Qminmax Lqa Lia.
From Verif Require Import Base Dom StyleValues StyleProperties PdfConvert Geom Text LayoutTree Layout LayoutSpec LayoutProofs LayoutBlockProofs LayoutProps.
From Verif Require Import InlineSpec InlineProofs InlineBoxProofs InlineLineProofs InlineProps WiderSpec WiderProofs.
Local Open Scope Q_scope.

Section Font.
Variable glyph_id : N -> res font_error N.
Variable glyph_width : N -> res font_error Q.
Notation bcl := (block_container_layout glyph_id glyph_width).
Notation layout := (box_tree_root_layout glyph_id glyph_width).
Notation broken_text := (broken_text glyph_id glyph_width).
(** No letter has a negative width; that of a glyph is an unsigned number in font files. *)
Hypothesis widths : forall g w, glyph_width g = Ok w -> 0 <= w.

Lemma lines_of_text : forall o style text cb rank acc fl coll fc acc', 0 <= get style font_size ->
  bcl o (InlineFormattingContext [TextRun style text]) cb rank acc fl coll = Some (fc, acc') ->
  exists lines, InlineSpec.text_lines glyph_id glyph_width (cb_inline_size cb) (get style font_size) text lines /\ length lines = length (fc_fragments fc) /\
    fc_block_size fc == inject_Z (Z.of_nat (length lines)) * (get style font_size * (12 # 10)).
Proof.
  intros o style text cb rank acc fl coll fc acc' P H.
  assert (O : one_text [TextRun style text]) by (right; exists [], style, text, []; split; [reflexivity|split; [constructor|exact P]]).
  apply (text_container glyph_id glyph_width _ _ _ _ _ _ _ _ _ O) in H as [_ [(N & _)|(before & style' & text' & after & lines & E & N & _ & T & L & _ & Z)]].
  - apply Forall_cons_iff in N as [N _]. contradiction.
  - destruct (one_text_same [] style text [] before style' text' after E (Forall_nil _) N) as [<- <-].
    exists lines. split; [|split; [exact L|exact Z]]. apply (text_lines_eq _ _ (cb_inline_size cb - 0)); [ring|exact T].
Qed.
(** ** Lines *)
(** The lines of a text in a block are one of the ways of breaking it … *)
Theorem C90_lines : forall o style text cb rank acc fl coll fc acc', 0 <= get style font_size ->
  bcl o (InlineFormattingContext [TextRun style text]) cb rank acc fl coll = Some (fc, acc') ->
  exists lines, broken_text (cb_inline_size cb) (get style font_size) text lines /\ length lines = length (fc_fragments fc).
Proof.
  intros o style text cb rank acc fl coll fc acc' P H. destruct (lines_of_text _ _ _ _ _ _ _ _ _ _ P H) as (lines & T & L & _). exists lines. split; [|exact L]. apply lines_broken. exact T.
Qed.
(** … and none has fewer lines. *)
Theorem C90_fewest : forall o style text cb rank acc fl coll fc acc' other, 0 <= get style font_size ->
  bcl o (InlineFormattingContext [TextRun style text]) cb rank acc fl coll = Some (fc, acc') ->
  broken_text (cb_inline_size cb) (get style font_size) text other -> (length (fc_fragments fc) <= length other)%nat.
Proof.
  intros o style text cb rank acc fl coll fc acc' other P H O. destruct (lines_of_text _ _ _ _ _ _ _ _ _ _ P H) as (lines & T & <- & _).
  exact (fewest_lines glyph_id glyph_width widths _ _ _ _ _ P T O).
Qed.
(** In a wider block or smaller letters, it has no more lines and is not taller. *)
Theorem C90_text : forall o o' style style' text cb cb' rank rank' acc acc2 fl fl' coll coll' fc fc' acc' acc2',
  0 <= get style font_size -> get style font_size <= get style' font_size -> cb_inline_size cb' <= cb_inline_size cb ->
  bcl o (InlineFormattingContext [TextRun style text]) cb rank acc fl coll = Some (fc, acc') ->
  bcl o' (InlineFormattingContext [TextRun style' text]) cb' rank' acc2 fl' coll' = Some (fc', acc2') ->
  (length (fc_fragments fc) <= length (fc_fragments fc'))%nat /\ fc_block_size fc <= fc_block_size fc'.
Proof.
  intros o o' style style' text cb cb' rank rank' acc acc2 fl fl' coll coll' fc fc' acc' acc2' P L W H H'.
  destruct (lines_of_text _ _ _ _ _ _ _ _ _ _ P H) as (lines & T & E & Z). assert (P' : 0 <= get style' font_size) by lra.
  destruct (lines_of_text _ _ _ _ _ _ _ _ _ _ P' H') as (lines' & T' & E' & Z').
  pose proof (no_more_lines glyph_id glyph_width widths _ _ _ _ _ _ _ P W L T T') as K. split; [lia|]. rewrite Z, Z'.
  assert (K' : inject_Z (Z.of_nat (length lines)) <= inject_Z (Z.of_nat (length lines'))) by (rewrite <- Zle_Qle; lia).
  assert (K0 : 0 <= inject_Z (Z.of_nat (length lines))) by (rewrite <- (Zle_Qle 0); lia).
  apply Qle_trans with (inject_Z (Z.of_nat (length lines)) * (get style' font_size * (12 # 10))).
  - rewrite !(Qmult_comm (inject_Z _)). apply Qmult_le_compat_r; [lra|exact K0].
  - apply Qmult_le_compat_r; [exact K'|lra].
Qed.

(** ** Pages *)
(** On a wider page, no box in flow is lower or taller, and no text has more lines, if no vertical length is
    a percentage of a width and each block has at most one text. *)
Theorem C90_page : forall o o' contents floats w w' h frs frs', w' <= w -> steady contents ->
  layout o (BFC contents floats) (mkVec w h) = Some frs -> layout o' (BFC contents floats) (mkVec w' h) = Some frs' ->
  inside_higher frs frs'.
Proof.
  intros o o' contents floats w w' h frs frs' W S H H'. unfold box_tree_root_layout in H, H'. cbn [v_inline v_block] in H, H'.
  destruct (bfc_layout _ _ o _ _ _ _) as [[fc acc]|] eqn:E; [|discriminate H]. destruct (bfc_layout _ _ o' _ _ _ _) as [[fc' acc']|] eqn:E'; [|discriminate H'].
  destruct (map_option _ acc) as [more|]; [|discriminate H]. destruct (map_option _ acc') as [more'|]; [|discriminate H']. injection H as <-. injection H' as <-.
  destruct (wider glyph_id glyph_width widths) as (_ & _ & K & _). apply inside_flow.
  assert (Wc : wider_cb (mkCB w (Length h) (HorizontalTb, Ltr)) (mkCB w' (Length h) (HorizontalTb, Ltr))) by (split; [exact W|reflexivity]).
  exact (proj2 (proj2 (K (BFC contents floats) _ _ _ _ _ _ _ _ _ _ _ _ S Wc E E'))).
Qed.
(** So is the height of a document, or of what is in a box that is not in flow. *)
Theorem C90_height : forall o o' contents floats w w' h mode mode' rank rank' acc acc2 fc fc' acc' acc2', w' <= w -> steady contents ->
  bfc_layout glyph_id glyph_width o (BFC contents floats) (mkCB w h mode) rank acc = Some (fc, acc') ->
  bfc_layout glyph_id glyph_width o' (BFC contents floats) (mkCB w' h mode') rank' acc2 = Some (fc', acc2') -> fc_block_size fc <= fc_block_size fc'.
Proof.
  intros o o' contents floats w w' h mode mode' rank rank' acc acc2 fc fc' acc' acc2' W S H H'. destruct (wider glyph_id glyph_width widths) as (_ & _ & K & _).
  assert (Wc : wider_cb (mkCB w h mode) (mkCB w' h mode')) by (split; [exact W|reflexivity]).
  exact (proj1 (proj2 (K (BFC contents floats) _ _ _ _ _ _ _ _ _ _ _ _ S Wc H H'))).
Qed.
End Font.

(** ** Examples *)
Lemma ex_widths : forall g w, ex_glyph_width g = Ok w -> 0 <= w.
Proof. intros g w H. injection H as <-. discriminate. Qed.
(** Each letter is 8 wide: on lines of 56, "a bb cccc dd" takes two lines; breaking it earlier, three. *)
Example C90_fewest_example : glyphs_of_lines (context [TextRun plain (t "a bb ccc dd")] 56) = [t "a bb"; t "ccc dd"] /\
  broken_text ex_glyph_id ex_glyph_width 56 (get plain font_size) (t "a bb ccc dd") [t "a"; t "bb ccc"; t "dd"].
Proof.
  split; [vm_compute; reflexivity|]. split; [discriminate|]. split; [left; reflexivity|].
  repeat (constructor; [left; apply ex_fits; vm_compute; reflexivity|]). constructor.
Qed.
(** Margins, borders, a percentage for a width, a box that is not in flow and two texts *)
Definition essay : block_container :=
  BlockLevelBoxes [
    SameFormattingContextBlock (set margin_top (LpaLength 20) (set width (LpaPercentage (1 # 2)) plain)) (InlineFormattingContext [TextRun plain (t "aaaa bb cccc d")]);
    absolute plain [];
    block (set padding_top (LpLength 5) (set margin_top (LpaLength (-10)) plain))
      [SameFormattingContextBlock plain (InlineFormattingContext [TextRun plain (t "aaa bbb ccc")])]].
Lemma plain_steady : steady_style plain.
Proof. split; [|split; [|split]]; repeat (constructor; [exact I|]); try constructor; exact I. Qed.
Lemma essay_steady : steady essay.
Proof.
  assert (T : forall s, one_text [TextRun plain s]) by (intros s; right; exists [], plain, s, []; split; [reflexivity|split; [constructor|discriminate]]).
  constructor. constructor; [|constructor; [constructor|constructor; [|constructor]]].
  - constructor; [|constructor; apply T]. split; [|split; [|split]]; repeat (constructor; [exact I|]); try constructor. vm_compute. discriminate.
  - constructor; [split; [|split; [|split]]; repeat (constructor; [exact I|]); try constructor; exact I|].
    constructor. constructor; [|constructor]. constructor; [exact plain_steady|]. constructor. apply T.
Qed.
(** The second block begins at 34.2 on a page of 224 and at 91.8 on one of 48; the last box is not in flow. *)
Definition tops (r : option (list fragment)) : list Q :=
  match r with Some l => flat_map (fun f => match f with FBox b _ => [Qred (content_top b); Qred (content_height b)] | _ => [] end) l | None => [] end.
Example C90_page_example :
  tops (lay (BFC essay false) (mkVec 224 100)) = [20; 96 # 5; 171 # 5; 96 # 5; 196 # 5; 0] /\
  tops (lay (BFC essay false) (mkVec 48 100)) = [20; 384 # 5; 459 # 5; 288 # 5; 484 # 5; 0] /\
  forall frs frs', lay (BFC essay false) (mkVec 224 100) = Some frs -> lay (BFC essay false) (mkVec 48 100) = Some frs' -> inside_higher frs frs'.
Proof.
  split; [vm_compute; reflexivity|]. split; [vm_compute; reflexivity|]. intros frs frs'.
  apply (C90_page ex_glyph_id ex_glyph_width ex_widths ex_oracle ex_oracle essay false 224 48 100); [discriminate|exact essay_steady].
Qed.

(** ** Where this fails *)
(** The room for all lines of a text is what is left on the line where it starts.  So a text after another one
    may have more lines in a wider block: 5 of 48 and 8 of 64. *)
Theorem C90_inlines_refuted : exists l w w' fc fc' acc acc', w' <= w /\
  l = [TextRun plain (t "aaaa bb "); inline plain [TextRun plain (t "c d e f g h i j")]] /\
  context l w = Some (fc, acc) /\ context l w' = Some (fc', acc') /\
  length (fc_fragments fc) = 8%nat /\ length (fc_fragments fc') = 5%nat /\ fc_block_size fc' < fc_block_size fc.
Proof.
  set (l := [TextRun plain (t "aaaa bb "); inline plain [TextRun plain (t "c d e f g h i j")]]). exists l, 64, 48.
  assert (T : match context l 64, context l 48 with
    | Some (fc, _), Some (fc', _) => Nat.eqb (length (fc_fragments fc)) 8 && Nat.eqb (length (fc_fragments fc')) 5 && negb (Qle_bool (fc_block_size fc) (fc_block_size fc'))
    | _, _ => false end = true) by (vm_compute; reflexivity).
  destruct (context l 64) as [[fc acc]|]; [|discriminate T]. destruct (context l 48) as [[fc' acc']|]; [|discriminate T].
  apply Bool.andb_true_iff in T as [T T3]. apply Bool.andb_true_iff in T as [T1 T2]. apply Nat.eqb_eq in T1, T2.
  exists fc, fc', acc, acc'. split; [discriminate|]. split; [reflexivity|]. split; [reflexivity|]. split; [reflexivity|]. split; [exact T1|]. split; [exact T2|].
  apply Qnot_le_lt. intros K. apply Qle_bool_iff in K. rewrite K in T3. discriminate T3.
Qed.
(** CSS 2 §8.4: percentages of padding refer to the width, so with those boxes do get lower. *)
Theorem C90_percentage_refuted : exists style w w' b b' c c', w' <= w /\ get style padding_top = LpPercentage (1 # 10) /\
  lay (page [block style []]) (mkVec w 100) = Some [FBox b c] /\ lay (page [block style []]) (mkVec w' 100) = Some [FBox b' c'] /\ content_top b' < content_top b.
Proof.
  set (s := set padding_top (LpPercentage (1 # 10)) plain). exists s, 200, 100.
  assert (T : match lay (page [block s []]) (mkVec 200 100), lay (page [block s []]) (mkVec 100 100) with
    | Some [FBox b _], Some [FBox b' _] => negb (Qle_bool (content_top b) (content_top b')) | _, _ => false end = true) by (vm_compute; reflexivity).
  destruct (lay _ (mkVec 200 100)) as [[|[b c| |] [|]]|]; try discriminate T. destruct (lay _ (mkVec 100 100)) as [[|[b' c'| |] [|]]|]; try discriminate T.
  exists b, b', c, c'. split; [discriminate|]. split; [reflexivity|]. split; [reflexivity|]. split; [reflexivity|].
  apply Qnot_le_lt. intros K. apply Qle_bool_iff in K. rewrite K in T. discriminate T.
Qed.

Print Assumptions C90_lines.
Print Assumptions C90_fewest.
Print Assumptions C90_text.
Print Assumptions C90_page.
Print Assumptions C90_height.
Print Assumptions C90_inlines_refuted.
Print Assumptions C90_percentage_refuted.
