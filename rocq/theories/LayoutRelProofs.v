(** Layouts of related boxes are related, if the operations on lengths keep lengths related. *)
From Coq Require Import QArith.
From Verif Require Import Base Dom StyleValues StyleProperties BoxTree PdfConvert Geom Text LayoutTree Layout LayoutProofs Arith32 LayoutArith LayoutRelSpec.
Local Open Scope nat_scope.

Definition loas (R : Q -> Q -> Prop) (a b : length_or_auto) : Prop :=
  match a, b with Length x, Length y => R x y | Auto, Auto => True | _, _ => False end.
(** What layout reads of styles is related. *)
Record reads (R : Q -> Q -> Prop) (s s' : computed_values) : Prop := {
  r_padding : sides4 (lps R) (style_padding s) (style_padding s');
  r_border : sides4 (lps R) (style_border_width s) (style_border_width s');
  r_margin : sides4 (lpas R) (style_margin s) (style_margin s');
  r_offsets : sides4 (lpas R) (box_offsets s) (box_offsets s');
  r_inline_size : lpas R (v_inline (box_size s)) (v_inline (box_size s'));
  r_block_size : lpas R (v_block (box_size s)) (v_block (box_size s'));
  r_font_size : R (get s font_size) (get s' font_size);
  r_position : get s position_ = get s' position_;
  r_display : specified_display s = specified_display s' }.
(** The operations keep lengths related. *)
Record respects (ar ar' : arith) (R E : Q -> Q -> Prop) : Prop := {
  k_zero : R 0%Q 0%Q;
  k_add : forall a a' b b', R a a' -> R b b' -> R (a_add ar a b) (a_add ar' a' b');
  k_sub : forall a a' b b', R a a' -> R b b' -> R (a_sub ar a b) (a_sub ar' a' b');
  k_neg : forall a a', R a a' -> R (a_neg ar a) (a_neg ar' a');
  k_max : forall a a' b b', R a a' -> R b b' -> R (a_max ar a b) (a_max ar' a' b');
  k_min : forall a a' b b', R a a' -> R b b' -> R (a_min ar a b) (a_min ar' a' b');
  k_half : forall a a', R a a' -> R (a_div ar a 2%Q) (a_div ar' a' 2%Q);
  k_percent : forall a a' p, R a a' -> R (a_mul ar a p) (a_mul ar' a' p);
  k_em : forall a a' b b', R a a' -> E b b' -> R (a_mul ar a b) (a_mul ar' a' b');
  k_lit : forall a a', R a a' -> R (a_mul ar a (a_lit ar (12 # 10))) (a_mul ar' a' (a_lit ar' (12 # 10)));
  k_gt : forall a a' b b', R a a' -> R b b' -> a_gt ar a b = a_gt ar' a' b';
  k_ge : forall a a', R a a' -> a_ge ar a 0 = a_ge ar' a' 0;
  k_eq : forall a a', R a a' -> a_eq ar a 0 = a_eq ar' a' 0;
  k_em_zero : E 0%Q 0%Q;
  k_em_add : forall a a' b b', E a a' -> E b b' -> E (a_add ar a b) (a_add ar' a' b') }.

Section Rel.
Variables ar ar' : arith.
Variable S : computed_values -> computed_values -> Prop.
Variables R E : Q -> Q -> Prop.
Hypothesis K : respects ar ar' R E.
Hypothesis read : forall s s', S s s' -> reads R s s'.
Notation vecs := (vecs R).
Notation rects := (rects R).
Notation margins := (margins R).
Notation block_margins := (block_margins R).
Notation frags := (same_fragments S R E).
Notation texts := (texts E).
Let h_zero := k_zero _ _ _ _ K.
Let h_add := k_add _ _ _ _ K.
Let h_sub := k_sub _ _ _ _ K.
Let h_neg := k_neg _ _ _ _ K.
Let h_max := k_max _ _ _ _ K.
Let h_min := k_min _ _ _ _ K.
Let h_half := k_half _ _ _ _ K.
Let h_percent := k_percent _ _ _ _ K.
Let h_em := k_em _ _ _ _ K.
Let h_lit := k_lit _ _ _ _ K.
Let h_em_zero := k_em_zero _ _ _ _ K.
Let h_em_add := k_em_add _ _ _ _ K.
Local Hint Resolve h_zero h_add h_sub h_neg h_max h_min h_half h_percent h_em h_lit h_em_zero h_em_add : core.
Local Hint Resolve Forall2_app : core.

Ltac spread := repeat match goal with H : _ /\ _ |- _ => destruct H | H : exists _, _ |- _ => destruct H end.
Ltac rel := repeat match goal with |- _ /\ _ => split end; cbn; eauto 12.
Ltac un := unfold LayoutRelSpec.rects, LayoutRelSpec.vecs, LayoutRelSpec.block_margins, LayoutRelSpec.margins, box_fragments, sides4 in *; spread.

(** ** Geometry *)
Lemma vadd_rel : forall a a' b b', vecs a a' -> vecs b b' -> vecs (vadd_in ar a b) (vadd_in ar' a' b').
Proof. intros. un. rel. Qed.
Lemma vzero_rel : vecs vzero vzero.
Proof. un. rel. Qed.
Lemma rzero_rel : rects rzero rzero.
Proof. un. rel. Qed.
Lemma inline_sum_rel : forall a a', sides4 R a a' -> R (inline_sum_in ar a) (inline_sum_in ar' a').
Proof. intros. un. unfold inline_sum_in. rel. Qed.
Lemma block_sum_rel : forall a a', sides4 R a a' -> R (block_sum_in ar a) (block_sum_in ar' a').
Proof. intros. un. unfold block_sum_in. rel. Qed.
Local Hint Resolve vadd_rel vzero_rel rzero_rel inline_sum_rel block_sum_rel : core.
Lemma sadd_rel : forall a a' b b', sides4 R a a' -> sides4 R b b' -> sides4 R (sadd_in ar a b) (sadd_in ar' a' b').
Proof. intros. un. rel. Qed.
Lemma inflate_rel : forall a a' b b', rects a a' -> sides4 R b b' -> rects (inflate_in ar a b) (inflate_in ar' a' b').
Proof. intros. assert (I := inline_sum_rel _ _ H0). assert (B := block_sum_rel _ _ H0). un. rel. Qed.
Local Hint Resolve sadd_rel inflate_rel : core.
Lemma lp_rel : forall x x' q q', lps R x x' -> R q q' -> R (lp_relative_to_in ar x q) (lp_relative_to_in ar' x' q').
Proof. intros [l|p] [l'|p'] q q' H Hq; try contradiction; cbn in *; [exact H|subst; auto]. Qed.
Lemma lpa_rel : forall x x' q q', lpas R x x' -> R q q' -> loas R (lpa_relative_to_in ar x q) (lpa_relative_to_in ar' x' q').
Proof. intros [l|p|] [l'|p'|] q q' H Hq; try contradiction; cbn in *; [exact H|subst; auto|exact I]. Qed.
Local Hint Resolve lp_rel lpa_rel : core.
Lemma lp_sides_rel : forall x x' q q', sides4 (lps R) x x' -> R q q' -> sides4 R (lp_sides_relative_to_in ar x q) (lp_sides_relative_to_in ar' x' q').
Proof. intros. un. rel. Qed.
Lemma lpa_sides_rel : forall x x' q q', sides4 (lpas R) x x' -> R q q' -> sides4 (loas R) (lpa_sides_relative_to_in ar x q) (lpa_sides_relative_to_in ar' x' q').
Proof. intros. un. rel. Qed.
Lemma auto_is_rel : forall x x' q q', loas R x x' -> R q q' -> R (auto_is x q) (auto_is x' q').
Proof. intros [l|] [l'|] q q' H Hq; try contradiction; exact H || exact Hq. Qed.
Local Hint Resolve lp_sides_rel lpa_sides_rel auto_is_rel : core.
Lemma sides_auto_rel : forall x x' q q', sides4 (loas R) x x' -> R q q' -> sides4 R (sides_auto_is x q) (sides_auto_is x' q').
Proof. intros. un. rel. Qed.
Local Hint Resolve sides_auto_rel : core.

(** ** Margins *)
Lemma cm_new_rel : forall a a', R a a' -> margins (cm_new_in ar a) (cm_new_in ar' a').
Proof. intros. un. rel. Qed.
Lemma cm_zero_rel : margins cm_zero cm_zero.
Proof. un. rel. Qed.
Lemma adjoin_rel : forall a a' b b', margins a a' -> margins b b' -> margins (adjoin_in ar a b) (adjoin_in ar' a' b').
Proof. intros. un. rel. Qed.
Lemma solve_rel : forall a a', margins a a' -> R (solve_in ar a) (solve_in ar' a').
Proof. intros. un. unfold solve_in. rel. Qed.
Local Hint Resolve cm_new_rel cm_zero_rel adjoin_rel solve_rel : core.
Lemma cbm_from_rel : forall a a', sides4 R a a' -> block_margins (cbm_from_margin_in ar a) (cbm_from_margin_in ar' a').
Proof. intros a a' (H1 & H2 & H3 & H4). split; [reflexivity|]. split; cbn; auto. Qed.
Lemma cbm_zero_rel : block_margins cbm_zero cbm_zero.
Proof. split; [reflexivity|]. split; cbn; auto. Qed.
Local Hint Resolve cbm_from_rel cbm_zero_rel : core.

(** ** Positions *)
Lemma adjust_rel : forall a a' b b', loas R a a' -> loas R b b' -> R (adjust_in ar a b) (adjust_in ar' a' b').
Proof. intros [x|] [x'|] [y|] [y'|] Ha Hb; try contradiction; cbn in *; auto. Qed.
Local Hint Resolve adjust_rel : core.
Lemma relative_rel : forall s s' i i' b b', S s s' -> R i i' -> loas R b b' ->
  vecs (relative_adjustement_in ar s i b) (relative_adjustement_in ar' s' i' b').
Proof.
  intros s s' i i' b b' Hs Hi Hb. unfold relative_adjustement_in. destruct (read _ _ Hs). rewrite <- r_position0.
  destruct (is_relatively_positioned _); [|auto]. destruct r_offsets0 as (O1 & O2 & O3 & O4).
  assert (R 0%Q 0%Q) by eauto. un. rel.
Qed.
Definition offsets (a b : abs_offsets) : Prop :=
  match a, b with
  | StaticStart x, StaticStart y => R x y
  | OffStart x, OffStart y => lps R x y
  | OffEnd x, OffEnd y => lps R x y
  | OffBoth x y, OffBoth x' y' => lps R x x' /\ lps R y y'
  | _, _ => False
  end.
Definition anchors (a b : anchor) : Prop :=
  match a, b with AnchorStart x, AnchorStart y => R x y | AnchorEnd x, AnchorEnd y => R x y | _, _ => False end.
Definition pairs (a b : Q * Q) : Prop := R (fst a) (fst b) /\ R (snd a) (snd b).
Lemma solve_axis_rel : forall c c' p p' s s' e e' f f' o o' z z',
  R c c' -> R p p' -> loas R s s' -> loas R e e' -> (forall m m', R m m' -> pairs (f m) (f' m')) -> offsets o o' -> lpas R z z' ->
  let r := solve_axis_in ar c p s e f o z in let r' := solve_axis_in ar' c' p' s' e' f' o' z' in
  anchors (fst (fst (fst r))) (fst (fst (fst r'))) /\ loas R (snd (fst (fst r))) (snd (fst (fst r'))) /\ R (snd (fst r)) (snd (fst r')) /\ R (snd r) (snd r').
Proof.
  intros c c' p p' s s' e e' f f' o o' z z' Hc Hp Hs He Hf Ho Hz. cbv zeta. unfold solve_axis_in.
  assert (Z : R 0%Q 0%Q) by eauto.
  assert (Hz' := lpa_rel _ _ _ _ Hz Hc). assert (As := auto_is_rel _ _ _ _ Hs Z). assert (Ae := auto_is_rel _ _ _ _ He Z).
  destruct o as [x|x|x|x y], o' as [x'|x'|x'|x' y']; try contradiction; try solve [rel].
  destruct Ho as [Hx Hy]. assert (Lx := lp_rel _ _ _ _ Hx Hc). assert (Ly := lp_rel _ _ _ _ Hy Hc).
  destruct (lpa_relative_to_in ar z c) as [l|], (lpa_relative_to_in ar' z' c') as [l'|]; try contradiction.
  - destruct s as [s|], s' as [s'|]; try contradiction; destruct e as [e|], e' as [e'|]; try contradiction; try solve [rel].
    set (m := a_sub ar _ l). set (m' := a_sub ar' _ l'). assert (Hm : R m m') by (unfold m, m'; cbn in Hz'; auto 12).
    specialize (Hf m m' Hm). destruct (f m), (f' m'). destruct Hf as [H1 H2]. rel.
  - rel.
Qed.
Lemma inline_solve_rel : forall m m', R m m' -> pairs (inline_solve_margins_in ar m) (inline_solve_margins_in ar' m').
Proof. intros m m' H. unfold inline_solve_margins_in. rewrite (k_ge _ _ _ _ K m m' H). destruct (a_ge _ _ _); split; cbn; eauto. Qed.
Lemma block_solve_rel : forall m m', R m m' -> pairs (block_solve_margins_in ar m) (block_solve_margins_in ar' m').
Proof. intros m m' H. split; cbn; eauto. Qed.
Local Hint Resolve inline_solve_rel block_solve_rel : core.

Definition containing (a b : containing_block) : Prop := R (cb_inline_size a) (cb_inline_size b) /\ loas R (cb_block_size a) (cb_block_size b) /\ cb_mode a = cb_mode b.
Definition definite (a b : definite_containing_block) : Prop := vecs (dcb_size a) (dcb_size b) /\ dcb_mode a = dcb_mode b.
Definition flows (a b : flow_children) : Prop := Forall2 frags (fc_fragments a) (fc_fragments b) /\ R (fc_block_size a) (fc_block_size b) /\ block_margins (fc_margins a) (fc_margins b).

Lemma map_both : forall A B A' B' (f : A -> option B) (f' : A' -> option B') (P : A -> A' -> Prop) (Q : B -> B' -> Prop) l l',
  Forall2 P l l' -> (forall a a', P a a' -> both Q (f a) (f' a')) -> both (Forall2 Q) (map_option f l) (map_option f' l').
Proof.
  intros A B A' B' f f' P Q l l' H Hf. induction H as [|a a' l l' Ha Hl IH]; cbn [map_option]; [constructor; constructor|].
  destruct (Hf a a' Ha); [constructor|]. destruct IH; constructor. constructor; assumption.
Qed.
Lemma positioned_rel : forall A A' (lay : definite_containing_block -> A -> option fragment) (lay' : definite_containing_block -> A' -> option fragment) (P : A -> A' -> Prop) l l' fs fs' z z' p p' m,
  (forall cb cb' a a', definite cb cb' -> P a a' -> both frags (lay cb a) (lay' cb' a')) ->
  Forall2 P l l' -> Forall2 frags fs fs' -> vecs z z' -> sides4 R p p' ->
  both (Forall2 frags) (in_positioned_containing_block_in ar lay l fs z p m) (in_positioned_containing_block_in ar' lay' l' fs' z' p' m).
Proof.
  intros A A' lay lay' P l l' fs fs' z z' p p' m Hl HP Hf Hz Hp. unfold in_positioned_containing_block_in.
  destruct HP as [|a a' l l' Ha Hr]; [constructor; exact Hf|].
  assert (Hi : rects (inflate_in ar (mkRect vzero z) p) (inflate_in ar' (mkRect vzero z') p')) by (apply inflate_rel; [split; cbn; auto|exact Hp]).
  set (r := inflate_in ar _ _) in *. set (r' := inflate_in ar' _ _) in *.
  assert (M : both (Forall2 frags) (map_option (lay (mkDCB (size r) m)) (a :: l)) (map_option (lay' (mkDCB (size r') m)) (a' :: l'))).
  { apply (map_both _ _ _ _ _ _ P); [constructor; assumption|]. intros x x' Hx. apply Hl; [|exact Hx]. split; [exact (proj2 Hi)|reflexivity]. }
  destruct M; constructor. apply Forall2_app; [exact Hf|]. constructor; [|constructor]. constructor; assumption.
Qed.

(** Absolutely positioned boxes, wherever they are *)
Definition absolutes (a a' : abspos_fragment) : Prop :=
  ap_tree_rank a = ap_tree_rank a' /\ offsets (ap_inline_start a) (ap_inline_start a') /\ offsets (ap_block_start a) (ap_block_start a') /\
  forall r r' i i' b b' cb cb', offsets i i' -> offsets b b' -> definite cb cb' ->
    both frags (abspos_layout_in ar (mkAbspos (ap_style a) (ap_contents a) r i (ap_inline_size a) b (ap_block_size a)) cb)
               (abspos_layout_in ar' (mkAbspos (ap_style a') (ap_contents a') r' i' (ap_inline_size a') b' (ap_block_size a')) cb').
Lemma absolutes_laid : forall a a' cb cb', absolutes a a' -> definite cb cb' -> both frags (abspos_layout_in ar a cb) (abspos_layout_in ar' a' cb').
Proof. intros [] [] cb cb' (H1 & H2 & H3 & H4) H. cbn in *. apply (H4 0 0); assumption. Qed.
Definition contents_rel (c c' : containing_block -> option (flow_children * list abspos_fragment)) : Prop :=
  forall cb cb', containing cb cb' -> both (fun x y => flows (fst x) (fst y) /\ Forall2 absolutes (snd x) (snd y)) (c cb) (c' cb').
Lemma abspos_rel : forall s s' c c' i i' iz iz' b b' bz bz' r r' cb cb', S s s' -> contents_rel c c' ->
  offsets i i' -> offsets b b' -> lpas R iz iz' -> lpas R bz bz' -> definite cb cb' ->
  both frags (abspos_layout_in ar (mkAbspos s c r i iz b bz) cb) (abspos_layout_in ar' (mkAbspos s' c' r' i' iz' b' bz') cb').
Proof.
  intros s s' c c' i i' iz iz' b b' bz bz' r r' cb cb' Hs Hc Hi Hb Hiz Hbz [[Hd1 Hd2] Hm].
  assert (Z : R 0%Q 0%Q) by eauto.
  cbn [abspos_layout_in]. destruct (read _ _ Hs).
  assert (P := lp_sides_rel _ _ _ _ r_padding0 Hd1). assert (B := lp_sides_rel _ _ _ _ r_border0 Hd1). assert (M := lpa_sides_rel _ _ _ _ r_margin0 Hd1).
  assert (PB := sadd_rel _ _ _ _ P B).
  set (cbis := v_inline (dcb_size cb)) in *. set (cbis' := v_inline (dcb_size cb')) in *.
  set (pad := lp_sides_relative_to_in ar (style_padding s) cbis) in *. set (pad' := lp_sides_relative_to_in ar' (style_padding s') cbis') in *.
  set (bor := lp_sides_relative_to_in ar (style_border_width s) cbis) in *. set (bor' := lp_sides_relative_to_in ar' (style_border_width s') cbis') in *.
  set (mar := lpa_sides_relative_to_in ar (style_margin s) cbis) in *. set (mar' := lpa_sides_relative_to_in ar' (style_margin s') cbis') in *.
  set (pb := sadd_in ar pad bor) in *. set (pb' := sadd_in ar' pad' bor') in *.
  assert (A1 := solve_axis_rel _ _ _ _ _ _ _ _ _ _ _ _ _ _ Hd1 (inline_sum_rel _ _ PB) (proj1 M) (proj1 (proj2 M)) inline_solve_rel Hi Hiz).
  assert (A2 := solve_axis_rel _ _ _ _ _ _ _ _ _ _ _ _ _ _ Hd1 (block_sum_rel _ _ PB) (proj1 (proj2 (proj2 M))) (proj2 (proj2 (proj2 M))) block_solve_rel Hb Hbz).
  cbv zeta in A1, A2.
  destruct (solve_axis_in ar cbis (inline_sum_in ar pb) _ _ _ _ _) as [[[a1 z1] m1] m2]. destruct (solve_axis_in ar' cbis' (inline_sum_in ar' pb') _ _ _ _ _) as [[[a1' z1'] m1'] m2'].
  destruct (solve_axis_in ar cbis (block_sum_in ar pb) _ _ _ _ _) as [[[a2 z2] m3] m4]. destruct (solve_axis_in ar' cbis' (block_sum_in ar' pb') _ _ _ _ _) as [[[a2' z2'] m3'] m4'].
  cbn [fst snd] in A1, A2. destruct A1 as (An1 & Z1 & M1 & M2), A2 as (An2 & Z2 & M3 & M4).
  assert (MM : sides4 R (mkSides m1 m2 m3 m4) (mkSides m1' m2' m3' m4')) by (repeat split; assumption).
  set (mg := mkSides m1 m2 m3 m4) in *. set (mg' := mkSides m1' m2' m3' m4') in *.
  assert (IS : R (auto_is z1 match a1 with
         | AnchorStart start => a_sub ar (a_sub ar (a_sub ar cbis start) (inline_sum_in ar pb)) (inline_sum_in ar mg)
         | AnchorEnd e => a_sub ar (a_sub ar (a_sub ar cbis e) (inline_sum_in ar pb)) (inline_sum_in ar mg) end)
       (auto_is z1' match a1' with
         | AnchorStart start => a_sub ar' (a_sub ar' (a_sub ar' cbis' start) (inline_sum_in ar' pb')) (inline_sum_in ar' mg')
         | AnchorEnd e => a_sub ar' (a_sub ar' (a_sub ar' cbis' e) (inline_sum_in ar' pb')) (inline_sum_in ar' mg') end)).
  { apply auto_is_rel; [exact Z1|]. destruct a1, a1'; try contradiction; cbn in An1; auto 12. }
  set (isz := auto_is z1 _) in *. set (isz' := auto_is z1' _) in *.
  change (cb_mode (mkCB isz z2 (style_writing_mode s))) with (style_writing_mode s). change (cb_mode (mkCB isz' z2' (style_writing_mode s'))) with (style_writing_mode s').
  change (style_writing_mode s') with (style_writing_mode s). rewrite <- Hm. destruct (wmode_eqb _ _); [|constructor].
  specialize (Hc (mkCB isz z2 (style_writing_mode s)) (mkCB isz' z2' (style_writing_mode s))).
  destruct Hc as [|[fc ab] [fc' ab'] [[F1 [F2 F3]] Hab]]; [repeat split; cbn; assumption|constructor|]. cbn [fst snd] in *.
  assert (BS := auto_is_rel _ _ _ _ Z2 F2).
  set (bs := auto_is z2 _) in *. set (bs' := auto_is z2' _) in *. pose proof PB as (Q1 & Q2 & Q3 & Q4). pose proof MM as (N1 & N2 & N3 & N4).
  match goal with |- both _ (match in_positioned_containing_block_in _ _ _ _ (size ?x) _ _ with _ => _ end) (match in_positioned_containing_block_in _ _ _ _ (size ?y) _ _ with _ => _ end) => assert (CR : rects x y) end.
  { split; split; cbn [start_corner size v_inline v_block]; [| |exact IS|exact BS].
    - destruct a1, a1'; try contradiction; cbn in An1; auto 12.
    - destruct a2, a2'; try contradiction; cbn in An2; auto 12. }
  assert (X := positioned_rel _ _ (fun cb a => abspos_layout_in ar a cb) (fun cb a => abspos_layout_in ar' a cb) absolutes ab ab' (fc_fragments fc) (fc_fragments fc') _ _ pad pad' (style_writing_mode s)
     (fun cb cb' a a' H1 H2 => absolutes_laid a a' cb cb' H2 H1) Hab F1 (proj2 CR) P).
  destruct X; constructor. constructor; [|assumption]. repeat split; cbn [bf_style bf_content_rect bf_padding bf_border bf_margin bf_margins]; try assumption; try apply CR; try apply P; try apply B; eauto.
Qed.

(** ** Placement *)
Definition states (a b : placement_state) : Prop :=
  next_collapses_with_parent_start a = next_collapses_with_parent_start b /\ margins (start_margin a) (start_margin b) /\
  margins (current_margin a) (current_margin b) /\ R (current_position a) (current_position b).
Definition two {A A' B B'} (P : A -> A' -> Prop) (Q : B -> B' -> Prop) (x : A * B) (y : A' * B') : Prop := P (fst x) (fst y) /\ Q (snd x) (snd y).
Lemma move_rel : forall r r' l l', rects r r' -> R l l' -> rects (move_block_in ar r l) (move_block_in ar' r' l').
Proof. intros. un. rel. Qed.
Lemma place_rel : forall f f' s s', frags f f' -> states s s' ->
  both (two frags states) (place_block_level_fragment_in ar f s) (place_block_level_fragment_in ar' f' s').
Proof.
  intros f f' [n st cur pos] [n' st' cur' pos'] Hf (H1 & H2 & H3 & H4). cbn in H1, H2, H3, H4. subst n'.
  destruct Hf as [b b' l l' Hb Hl|r r' m l l' Hr Hl|]; [| |constructor].
  - cbn [place_block_level_fragment_in next_collapses_with_parent_start start_margin current_margin current_position].
    pose proof Hb as (B1 & B2 & B3 & B4 & B5 & B6 & B7 & B8). rewrite <- B6.
    rewrite (k_eq _ _ _ _ K _ _ (solve_rel _ _ H3)).
    assert (Sz : R (a_add ar (a_add ar (block_sum_in ar (bf_padding b)) (block_sum_in ar (bf_border b))) (v_block (size (bf_content_rect b))))
                   (a_add ar' (a_add ar' (block_sum_in ar' (bf_padding b')) (block_sum_in ar' (bf_border b'))) (v_block (size (bf_content_rect b')))))
      by (destruct B2 as [_ [_ B2]]; auto 12).
    assert (Mv : forall c c', margins c c' -> box_fragments S R (with_content_rect b (move_block_in ar (bf_content_rect b) (a_add ar (solve_in ar c) pos)))
                                             (with_content_rect b' (move_block_in ar' (bf_content_rect b') (a_add ar' (solve_in ar' c') pos')))).
    { intros c c' Hc. unfold box_fragments, with_content_rect. cbn [bf_style bf_content_rect bf_padding bf_border bf_margin bf_margins].
      split; [exact B1|]. split; [apply move_rel; auto|]. split; [exact B3|]. split; [exact B4|]. split; [exact B5|]. split; [exact B6|split; assumption]. }
    assert (SS : forall n a a' c c' q q', margins a a' -> margins c c' -> R q q' -> states (mkPS n a c q) (mkPS n a' c' q')) by (intros; split; [reflexivity|split; [assumption|split; assumption]]).
    destruct n; [destruct (a_eq _ _ _); [|constructor]|]; destruct (collapsed_through (bf_margins b)); constructor;
      (split; cbn [fst snd]; [constructor; [|exact Hl]|apply SS]); auto 12.
  - cbn [place_block_level_fragment_in current_position]. destruct Hl; [|constructor]. rewrite (k_eq _ _ _ _ K _ _ (proj2 (proj2 Hr))).
    destruct (a_eq _ _ _); constructor. split; cbn [fst snd].
    + constructor; [apply move_rel; assumption|constructor].
    + repeat split; cbn; try assumption; try apply H2; apply H3.
Qed.
Lemma place_all_rel : forall l l', Forall2 frags l l' -> forall s s', states s s' -> both (two (Forall2 frags) states) (place_all_in ar l s) (place_all_in ar' l' s').
Proof.
  intros l l' H. induction H as [|f f' l l' Hf Hl IH]; intros s s' Hs; cbn [place_all_in]; [constructor; split; [constructor|exact Hs]|].
  destruct (place_rel f f' s s' Hf Hs) as [|[g s1] [g' s1'] [Hg Hs1]]; [constructor|]. cbn [fst snd] in *.
  destruct (IH s1 s1' Hs1) as [|[gs s2] [gs' s2'] [Hgs Hs2]]; constructor. split; [constructor; assumption|exact Hs2].
Qed.
Lemma adjust_static_rel : forall frs frs' k a a', Forall2 frags frs frs' -> absolutes a a' ->
  both absolutes (adjust_static_position_in ar frs k a) (adjust_static_position_in ar' frs' k a').
Proof.
  intros frs frs' k a a' HF (A1 & A2 & A3 & A4). unfold adjust_static_position_in. rewrite <- A1.
  assert (N : both frags (nth_error frs (ap_tree_rank a)) (nth_error frs' (ap_tree_rank a))).
  { generalize (ap_tree_rank a). induction HF as [|f f' l l' Hf Hl IH]; intros [|n]; cbn [nth_error]; try constructor; [exact Hf|apply IH]. }
  assert (X : forall x x' o o', R x x' -> offsets o o' -> offsets (add_static_in ar o x) (add_static_in ar' o' x')).
  { intros x x' [y|y|y|y z] [y'|y'|y'|y' z'] Hx Ho; try contradiction; cbn in *; auto. }
  destruct N as [|f f' Hf]; [constructor|].
  destruct Hf as [b b' l l' Hb Hl|r r' m l l' Hr Hl|]; [| |constructor]; constructor.
  - destruct Hb as (_ & [[B1 B2] _] & _). split; [reflexivity|]. split; [apply X; assumption|]. split; [apply X; assumption|]. cbn [ap_style ap_contents ap_inline_size ap_block_size]. exact A4.
  - destruct Hr as [[B1 B2] _]. split; [reflexivity|]. split; [apply X; assumption|]. split; [apply X; assumption|]. cbn [ap_style ap_contents ap_inline_size ap_block_size]. exact A4.
Qed.

Lemma forall2_length : forall A B (P : A -> B -> Prop) l l', Forall2 P l l' -> List.length l = List.length l'.
Proof. intros A B P l l' H. induction H; cbn; auto. Qed.
Lemma forall2_firstn : forall A B (P : A -> B -> Prop) n l l', Forall2 P l l' -> Forall2 P (firstn n l) (firstn n l').
Proof. induction n; intros l l' H; destruct H; cbn [firstn]; constructor; auto. Qed.
Lemma forall2_skipn : forall A B (P : A -> B -> Prop) n l l', Forall2 P l l' -> Forall2 P (skipn n l) (skipn n l').
Proof. induction n; intros l l' H; destruct H; cbn [skipn]; auto; constructor; auto. Qed.

(** ** Children *)
Notation abss := (Forall2 absolutes).
Definition tasks (k k' : task) : Prop := forall i acc acc', abss acc acc' -> both (two frags abss) (k i acc) (k' i acc').
Lemma run_tasks_rel : forall l l', Forall2 tasks l l' -> forall i acc acc', abss acc acc' ->
  both (two (Forall2 frags) abss) (run_tasks i l acc) (run_tasks i l' acc').
Proof.
  intros l l' H. induction H as [|k k' l l' Hk Hl IH]; intros i acc acc' Ha; cbn [run_tasks]; [constructor; split; [constructor|exact Ha]|].
  destruct (Hk i acc acc' Ha) as [|[f a1] [f' a1'] [Hf Ha1]]; [constructor|]. cbn [fst snd] in *.
  destruct (IH (Datatypes.S i) a1 a1' Ha1) as [|[fs a2] [fs' a2'] [Hfs Ha2]]; constructor. split; [constructor; assumption|exact Ha2].
Qed.
Lemma mapfold_rel : forall t l l', Forall2 tasks l l' -> forall i acc acc', abss acc acc' ->
  both (two (Forall2 frags) abss) (mapfold_reduce_into t i l acc) (mapfold_reduce_into t i l' acc').
Proof.
  induction t as [|n t1 IH1 t2 IH2]; intros l l' H i acc acc' Ha; cbn [mapfold_reduce_into]; [apply run_tasks_rel; assumption|].
  destruct (IH1 _ _ (forall2_firstn _ _ _ n _ _ H) i acc acc' Ha) as [|[f1 a1] [f1' a1'] [Hf Ha1]]; [constructor|]. cbn [fst snd] in *.
  rewrite (forall2_length _ _ _ _ _ (forall2_firstn _ _ _ n _ _ H)).
  destruct (IH2 _ _ (forall2_skipn _ _ _ n _ _ H) (i + List.length (firstn n l')) [] [] (Forall2_nil _)) as [|[f2 a2] [f2' a2'] [Hf2 Ha2]]; constructor.
  split; cbn [fst snd] in *; apply Forall2_app; assumption.
Qed.
Lemma Forall2_impl_rel : forall A B (P Q : A -> B -> Prop) l l', (forall a b, P a b -> Q a b) -> Forall2 P l l' -> Forall2 Q l l'.
Proof. intros A B P Q l l' H F. induction F; constructor; auto. Qed.
Section Children.
Variables B B' : Type.
Variable lay : nat -> B -> list abspos_fragment -> option (fragment * list abspos_fragment).
Variable lay' : nat -> B' -> list abspos_fragment -> option (fragment * list abspos_fragment).
Lemma lay_place_rel : forall l l', Forall2 (fun b b' => tasks (fun i acc => lay i b acc) (fun i acc => lay' i b' acc)) l l' ->
  forall i acc acc' s s', abss acc acc' -> states s s' ->
  both (two (two (Forall2 frags) abss) states) (layout_and_place_in ar lay i l acc s) (layout_and_place_in ar' lay' i l' acc' s').
Proof.
  intros l l' H. induction H as [|b b' l l' Hb Hl IH]; intros i acc acc' s s' Ha Hs; cbn [layout_and_place_in]; [constructor; repeat split; cbn; try constructor; try assumption; apply Hs|].
  destruct (Hb i acc acc' Ha) as [|[f a1] [f' a1'] [Hf Ha1]]; [constructor|]. cbn [fst snd] in *.
  destruct (place_rel f f' s s' Hf Hs) as [|[g s1] [g' s1'] [Hg Hs1]]; [constructor|]. cbn [fst snd] in *.
  destruct (IH (Datatypes.S i) a1 a1' s1 s1' Ha1 Hs1) as [|[[fs a2] s2] [[fs' a2'] s2'] [[Hfs Ha2] Hs2]]; constructor. cbn [fst snd] in *.
  split; [split; [constructor; assumption|exact Ha2]|exact Hs2].
Qed.
Lemma children_rel : forall l l', Forall2 (fun b b' => tasks (fun i acc => lay i b acc) (fun i acc => lay' i b' acc)) l l' ->
  forall t rank acc acc' fl coll, abss acc acc' ->
  both (two flows abss) (layout_block_level_children_in ar lay t l rank acc fl coll) (layout_block_level_children_in ar' lay' t l' rank acc' fl coll).
Proof.
  intros l l' H t rank acc acc' fl coll Ha. unfold layout_block_level_children_in.
  assert (Z : states (mkPS coll cm_zero cm_zero 0) (mkPS coll cm_zero cm_zero 0)) by (repeat split; cbn; auto).
  match goal with |- both _ (match ?x with _ => _ end) (match ?y with _ => _ end) =>
    assert (M : both (two (two (Forall2 frags) abss) states) x y) end.
  { destruct fl; [apply lay_place_rel; assumption|].
    assert (T : Forall2 tasks (map (fun b i acc => lay i b acc) l) (map (fun b i acc => lay' i b acc) l')).
    { clear -H. induction H; cbn [map]; constructor; auto. }
    destruct (mapfold_rel t _ _ T 0 acc acc' Ha) as [|[fs a1] [fs' a1'] [Hfs Ha1]]; [constructor|]. cbn [fst snd] in *.
    destruct (place_all_rel fs fs' Hfs _ _ Z) as [|[gs s1] [gs' s1'] [Hg Hs1]]; constructor. repeat split; try assumption; apply Hs1. }
  destruct M as [|[[fs a1] s1] [[fs' a1'] s1'] [[Hfs Ha1] Hs1]]; [constructor|]. cbn [fst snd] in *.
  rewrite (forall2_length _ _ _ _ _ Ha).
  assert (J : both abss (adjust_static_positions_in ar (skipn (List.length acc') a1) fs rank) (adjust_static_positions_in ar' (skipn (List.length acc') a1') fs' rank)).
  { apply (map_both _ _ _ _ _ _ absolutes); [apply forall2_skipn; exact Ha1|]. intros a a' Hx. apply adjust_static_rel; assumption. }
  destruct J as [|ad ad' Had]; constructor. destruct Hs1 as (S1 & S2 & S3 & S4). split; cbn [fst snd].
  - split; [exact Hfs|]. split; [exact S4|]. split; [exact S1|]. split; assumption.
  - apply Forall2_app; [apply forall2_firstn; exact Ha1|exact Had].
Qed.
End Children.

(** ** Blocks *)
Lemma solve_inline_rel : forall q q' m m', R q q' -> sides4 (loas R) m m' -> sides4 (loas R) (solve_inline_margins_in ar q m) (solve_inline_margins_in ar' q' m').
Proof.
  intros q q' [a b c d] [a' b' c' d'] Hq (H1 & H2 & H3 & H4). cbn [inline_start inline_end block_start block_end] in *.
  unfold solve_inline_margins_in. cbn [inline_start inline_end block_start block_end].
  destruct a, a'; try contradiction; destruct b, b'; try contradiction; repeat split; cbn [inline_start inline_end block_start block_end]; try assumption; cbn; auto.
Qed.
Lemma in_flow_rel : forall cb cb' acc acc' s s' kind lc lc', containing cb cb' -> abss acc acc' -> S s s' ->
  (forall cb cb' acc acc' coll, containing cb cb' -> abss acc acc' -> both (two flows abss) (lc cb acc coll) (lc' cb' acc' coll)) ->
  both (two frags abss) (layout_in_flow_non_replaced_block_level_in ar cb acc s kind lc) (layout_in_flow_non_replaced_block_level_in ar' cb' acc' s' kind lc').
Proof.
  intros cb cb' acc acc' s s' kind lc lc' (C1 & C2 & C3) Ha Hs Hl. unfold layout_in_flow_non_replaced_block_level_in.
  assert (Z : R 0%Q 0%Q) by auto. destruct (read _ _ Hs).
  assert (P := lp_sides_rel _ _ _ _ r_padding0 C1). assert (Bo := lp_sides_rel _ _ _ _ r_border0 C1). assert (M := lpa_sides_rel _ _ _ _ r_margin0 C1).
  assert (PB := sadd_rel _ _ _ _ P Bo). assert (I := lpa_rel _ _ _ _ r_inline_size0 C1).
  set (cbis := cb_inline_size cb) in *. set (cbis' := cb_inline_size cb') in *.
  set (pad := lp_sides_relative_to_in ar (style_padding s) cbis) in *. set (pad' := lp_sides_relative_to_in ar' (style_padding s') cbis') in *.
  set (bor := lp_sides_relative_to_in ar (style_border_width s) cbis) in *. set (bor' := lp_sides_relative_to_in ar' (style_border_width s') cbis') in *.
  set (mar := lpa_sides_relative_to_in ar (style_margin s) cbis) in *. set (mar' := lpa_sides_relative_to_in ar' (style_margin s') cbis') in *.
  set (pb := sadd_in ar pad bor) in *. set (pb' := sadd_in ar' pad' bor') in *.
  set (z := lpa_relative_to_in ar _ _) in *. set (z' := lpa_relative_to_in ar' _ _) in *.
  set (m1 := match z with Length _ => _ | Auto => mar end). set (m1' := match z' with Length _ => _ | Auto => mar' end).
  assert (M1 : sides4 (loas R) m1 m1').
  { unfold m1, m1'. destruct z, z'; try contradiction; [|exact M]. apply solve_inline_rel; [cbn in I; auto 12|exact M]. }
  assert (M2 := sides_auto_rel _ _ _ _ M1 Z). set (mg := sides_auto_is m1 0) in *. set (mg' := sides_auto_is m1' 0) in *.
  assert (CM := cbm_from_rel _ _ M2).
  assert (IS : R (auto_is z (a_sub ar (a_sub ar cbis (inline_sum_in ar pb)) (inline_sum_in ar mg))) (auto_is z' (a_sub ar' (a_sub ar' cbis' (inline_sum_in ar' pb')) (inline_sum_in ar' mg')))) by auto 12.
  set (isz := auto_is z _) in *. set (isz' := auto_is z' _) in *.
  set (bz := match v_block (box_size s) with LpaLength l => Length l | LpaPercentage p => _ | LpaAuto => Auto end).
  set (bz' := match v_block (box_size s') with LpaLength l => Length l | LpaPercentage p => _ | LpaAuto => Auto end).
  assert (BZ : loas R bz bz').
  { unfold bz, bz'. destruct (v_block (box_size s)) as [x|x|], (v_block (box_size s')) as [y|y|]; try contradiction; cbn in *; auto. subst y.
    destruct (cb_block_size cb), (cb_block_size cb'); try contradiction; cbn in *; auto. }
  cbn [cb_mode]. change (style_writing_mode s') with (style_writing_mode s). rewrite <- C3. destruct (wmode_eqb _ _); [|constructor].
  pose proof PB as (Q1 & Q2 & Q3 & Q4). pose proof M2 as (N1 & N2 & N3 & N4).
  rewrite <- (k_eq _ _ _ _ K _ _ Q3), <- (k_eq _ _ _ _ K _ _ Q4), <- r_position0.
  replace (match bz' with Auto => true | Length _ => false end) with (match bz with Auto => true | Length _ => false end) by (destruct bz, bz'; try contradiction; reflexivity).
  set (rela := is_relatively_positioned (get s position_)). set (sc := (is_same kind && a_eq ar (block_start pb) 0)%bool). set (ec := (is_same kind && a_eq ar (block_end pb) 0 && _)%bool).
  assert (Hacc : abss (if rela then [] else acc) (if rela then [] else acc')) by (destruct rela; [constructor|exact Ha]).
  destruct (Hl (mkCB isz bz (style_writing_mode s)) (mkCB isz' bz' (style_writing_mode s)) _ _ sc (conj IS (conj BZ eq_refl)) Hacc) as [|[fc col] [fc' col'] [[F1 [F2 (F3 & F4 & F5)]] Hcol]]; [constructor|].
  cbn [fst snd] in *. destruct CM as (K1 & K2 & K3).
  match goal with |- both _ (let '(_, _) := ?x in _) (let '(_, _) := ?y in _) => set (st := x); set (st' := y); assert (ST : two margins block_margins st st') end.
  { unfold st, st'. destruct sc; [|split; cbn [fst snd]; [exact K2|repeat split; try assumption; apply F4 || apply F5]]. rewrite <- F3. destruct (collapsed_through (fc_margins fc)) eqn:Et; split; cbn [fst snd]; auto.
    - split; [cbn; congruence|]. split; cbn; [exact F4|auto].
    - split; [cbn; congruence|]. split; assumption. }
  clearbody st st'. destruct st as [st ic], st' as [st' ic']. destruct ST as [ST (I1 & I2 & I3)]. cbn [fst snd] in ST, I1, I2, I3.
  match goal with |- both _ (let '(_, _) := ?x in _) (let '(_, _) := ?y in _) => set (en := x); set (en' := y); assert (EN : two margins R en en') end.
  { unfold en, en'. destruct ec; split; cbn [fst snd]; auto. }
  clearbody en en'. destruct en as [en fs], en' as [en' fs']. destruct EN as [EN1 EN2]. cbn [fst snd] in EN1, EN2.
  assert (RA := relative_rel s s' isz isz' bz bz' Hs IS BZ). destruct RA as [RA1 RA2].
  assert (BS := auto_is_rel _ _ _ _ BZ EN2). set (bs := auto_is bz fs) in *. set (bs' := auto_is bz' fs') in *.
  match goal with |- context [mkRect ?x ?y] => set (cr := mkRect x y) end.
  match goal with |- context [mkRect ?x ?y] => set (cr' := mkRect x y) end.
  assert (CR : rects cr cr') by (unfold cr, cr'; split; split; cbn [start_corner size v_inline v_block]; auto 12).
  match goal with |- both _ (match ?x with Some _ => _ | None => _ end) (match ?y with Some _ => _ | None => _ end) => assert (CH : both (Forall2 frags) x y) end.
  { destruct rela; [|constructor; exact F1]. apply (positioned_rel _ _ _ _ absolutes); try assumption; [|exact (proj2 CR)]. intros. apply absolutes_laid; assumption. }
  destruct CH as [|ch ch' CH]; constructor. split; cbn [fst snd].
  - constructor; [|exact CH]. split; [exact Hs|]. split; [exact CR|]. split; [exact P|]. split; [exact Bo|]. split; [exact M2|].
    split; [cbn; rewrite I1; reflexivity|]. split; [exact ST|exact EN1].
  - destruct rela; assumption.
Qed.

(** ** Lines *)
Definition levels (a b : nesting_level) : Prop := Forall2 frags (nl_fragments a) (nl_fragments b) /\ R (nl_inline_start a) (nl_inline_start b) /\ R (nl_max_block_size a) (nl_max_block_size b).
Definition partials (a b : partial_inline_box) : Prop :=
  S (pi_style a) (pi_style b) /\ vecs (pi_start_corner a) (pi_start_corner b) /\ sides4 R (pi_padding a) (pi_padding b) /\ sides4 R (pi_border a) (pi_border b) /\
  sides4 R (pi_margin a) (pi_margin b) /\ pi_last a = pi_last b /\ levels (pi_parent a) (pi_parent b).
Definition liness (a b : lines_boxes) : Prop := Forall2 frags (lb_boxes a) (lb_boxes b) /\ R (lb_next_position a) (lb_next_position b).
Definition inlines (a b : ifc_state) : Prop :=
  liness (ifc_lines a) (ifc_lines b) /\ R (ifc_position a) (ifc_position b) /\ Forall2 partials (ifc_stack a) (ifc_stack b) /\ levels (ifc_current a) (ifc_current b).
Lemma set_start_rel : forall a a', sides4 R a a' -> sides4 R (set_inline_start a 0) (set_inline_start a' 0).
Proof. intros. un. rel. Qed.
Lemma set_end_rel : forall a a', sides4 R a a' -> sides4 R (set_inline_end a 0) (set_inline_end a' 0).
Proof. intros. un. rel. Qed.
Local Hint Resolve set_start_rel set_end_rel : core.
Lemma finish_line_rel : forall a a' l l' cb cb', liness a a' -> levels l l' -> containing cb cb' ->
  two liness levels (finish_line_in ar a l cb) (finish_line_in ar' a' l' cb').
Proof.
  intros a a' l l' cb cb' [A1 A2] (L1 & L2 & L3) (C1 & C2 & C3). unfold finish_line_in. split; cbn [fst snd].
  - split; cbn; [|auto]. apply Forall2_app; [exact A1|]. constructor; [|constructor]. rewrite C3. constructor; [split; split; cbn; auto|exact L1].
  - split; cbn; [constructor|]. split; auto.
Qed.
Lemma start_layout_rel : forall cb cb' s s' f la st st', containing cb cb' -> S s s' -> inlines st st' ->
  two partials inlines (start_layout_in ar cb s f la st) (start_layout_in ar' cb' s' f la st').
Proof.
  intros cb cb' s s' f la st st' (C1 & C2 & C3) Hs (I1 & I2 & I3 & I4). unfold start_layout_in. destruct (read _ _ Hs).
  assert (Z : R 0%Q 0%Q) by auto.
  assert (P := lp_sides_rel _ _ _ _ r_padding0 C1). assert (Bo := lp_sides_rel _ _ _ _ r_border0 C1). assert (M := sides_auto_rel _ _ _ _ (lpa_sides_rel _ _ _ _ r_margin0 C1) Z).
  assert (RA := relative_rel s s' _ _ _ _ Hs C1 C2).
  set (pad := lp_sides_relative_to_in ar (style_padding s) _) in *. set (pad' := lp_sides_relative_to_in ar' (style_padding s') _) in *.
  set (bor := lp_sides_relative_to_in ar (style_border_width s) _) in *. set (bor' := lp_sides_relative_to_in ar' (style_border_width s') _) in *.
  set (mar := sides_auto_is _ 0) in *. set (mar' := sides_auto_is (lpa_sides_relative_to_in ar' _ _) 0) in *.
  set (ra := relative_adjustement_in ar _ _ _) in *. set (ra' := relative_adjustement_in ar' _ _ _) in *. clearbody ra ra'.
  assert (G : forall pos pos' p p' b b' m m', R pos pos' -> sides4 R p p' -> sides4 R b b' -> sides4 R m m' ->
     two partials inlines
      (mkPartial s (vadd_in ar (mkVec (a_sub ar pos (nl_inline_start (ifc_current st))) (a_add ar (a_add ar (block_start p) (block_start b)) (block_start m))) ra) p b m la (ifc_current st),
       mkIFC (ifc_lines st) pos (ifc_stack st) (mkNL [] pos 0))
      (mkPartial s' (vadd_in ar' (mkVec (a_sub ar' pos' (nl_inline_start (ifc_current st'))) (a_add ar' (a_add ar' (block_start p') (block_start b')) (block_start m'))) ra') p' b' m' la (ifc_current st'),
       mkIFC (ifc_lines st') pos' (ifc_stack st') (mkNL [] pos' 0))).
  { intros pos pos' p p' b b' m m' Hp Hpp Hb Hm. split; cbn [fst snd].
    - split; [exact Hs|]. split.
      + apply vadd_rel; [|exact RA]. pose proof I4 as (_ & J & _). pose proof Hpp as (_ & _ & J1 & _). pose proof Hb as (_ & _ & J2 & _). pose proof Hm as (_ & _ & J3 & _). split; cbn; auto.
      + split; [exact Hpp|]. split; [exact Hb|]. split; [exact Hm|]. split; [reflexivity|exact I4].
    - split; [exact I1|]. split; [exact Hp|]. split; [exact I3|]. split; cbn; [constructor|]. split; auto. }
  destruct f; apply G; auto. pose proof P as (P1 & _). pose proof Bo as (P2 & _). pose proof M as (P3 & _). auto 12.
Qed.
Lemma finish_layout_rel : forall p p' l l' q q' br, partials p p' -> levels l l' -> R q q' ->
  two (two partials levels) R (finish_layout_in ar p l q br) (finish_layout_in ar' p' l' q' br).
Proof.
  intros p p' l l' q q' br (P1 & P2 & P3 & P4 & P5 & P6 & P7) HL Hq. unfold finish_layout_in. rewrite <- P6.
  assert (CR : rects (mkRect (pi_start_corner p) (mkVec (a_sub ar q (v_inline (pi_start_corner p))) (nl_max_block_size l)))
                     (mkRect (pi_start_corner p') (mkVec (a_sub ar' q' (v_inline (pi_start_corner p'))) (nl_max_block_size l')))).
  { split; [exact P2|]. destruct P2, HL as (_ & _ & L3). split; cbn; auto. }
  match type of CR with LayoutRelSpec.rects _ ?x ?y => set (cr := x) in *; set (cr' := y) in * end.
  assert (G : forall pos pos' pa pa' b b' m m', R pos pos' -> sides4 R pa pa' -> sides4 R b b' -> sides4 R m m' ->
     two (two partials levels) R
      (mkPartial (pi_style p) (pi_start_corner p) (pi_padding p) (pi_border p) (pi_margin p) (pi_last p)
         (mkNL (nl_fragments (pi_parent p) ++ [FBox (mkBoxFragment (pi_style p) cr pa b m cbm_zero) (nl_fragments l)]) (nl_inline_start (pi_parent p))
            (a_max ar (nl_max_block_size (pi_parent p)) (a_add ar (a_add ar (a_add ar (v_block (size cr)) (block_sum_in ar pa)) (block_sum_in ar b)) (block_sum_in ar m)))),
       mkNL [] (nl_inline_start l) (nl_max_block_size l), pos)
      (mkPartial (pi_style p') (pi_start_corner p') (pi_padding p') (pi_border p') (pi_margin p') (pi_last p)
         (mkNL (nl_fragments (pi_parent p') ++ [FBox (mkBoxFragment (pi_style p') cr' pa' b' m' cbm_zero) (nl_fragments l')]) (nl_inline_start (pi_parent p'))
            (a_max ar' (nl_max_block_size (pi_parent p')) (a_add ar' (a_add ar' (a_add ar' (v_block (size cr')) (block_sum_in ar' pa')) (block_sum_in ar' b')) (block_sum_in ar' m')))),
       mkNL [] (nl_inline_start l') (nl_max_block_size l'), pos')).
  { intros pos pos' pa pa' b b' m m' H1 H2 H3 H4. destruct HL as (L1 & L2 & L3). destruct P7 as (J1 & J2 & J3). split; [split|exact H1]; cbn [fst snd].
    - split; [exact P1|]. split; [exact P2|]. split; [exact P3|]. split; [exact P4|]. split; [exact P5|]. split; [reflexivity|]. split; [|split].
      + cbn. apply Forall2_app; [exact J1|]. constructor; [|constructor]. constructor; [|exact L1]. split; [exact P1|]. split; [exact CR|]. split; [exact H2|]. split; [exact H3|]. split; [exact H4|]. exact cbm_zero_rel.
      + exact J2.
      + cbn [pi_parent nl_max_block_size]. pose proof (proj2 (proj2 CR)). auto 12.
    - split; cbn; [constructor|]. split; assumption. }
  destruct (pi_last p && negb br)%bool; apply G; auto.
  pose proof P3 as (_ & Q1 & _). pose proof P4 as (_ & Q2 & _). pose proof P5 as (_ & Q3 & _). auto 12.
Qed.
Lemma after_break_rel : forall p p', partials p p' -> partials (after_break p) (after_break p').
Proof.
  intros p p' (P1 & [P2 P2'] & P3 & P4 & P5 & P6 & (J1 & J2 & J3)). unfold after_break. split; [exact P1|]. split; [split; cbn; auto|].
  cbn [pi_padding pi_border pi_margin pi_last pi_parent]. split; [auto|]. split; [auto|]. split; [auto|]. split; [exact P6|]. split; [exact J1|]. split; cbn; auto.
Qed.
Lemma break_levels_rel : forall cb cb', containing cb cb' -> forall st st', Forall2 partials st st' -> forall l l' q q' lb lb', levels l l' -> R q q' -> liness lb lb' ->
  two (two levels (Forall2 partials)) liness (break_levels_in ar cb st l q lb) (break_levels_in ar' cb' st' l' q' lb').
Proof.
  intros cb cb' Hcb st st' H. induction H as [|p p' st st' Hp Hst IH]; intros l l' q q' lb lb' Hl Hq Hlb; cbn [break_levels_in].
  - pose proof (finish_line_rel lb lb' l l' cb cb' Hlb Hl Hcb) as [F1 F2]. destruct (finish_line_in ar lb l cb), (finish_line_in ar' lb' l' cb'). repeat split; cbn in *; try constructor; try apply F1; apply F2.
  - pose proof (finish_layout_rel p p' l l' q q' true Hp Hl Hq) as F. destruct (finish_layout_in ar p l q true) as [[p1 l1] q1], (finish_layout_in ar' p' l' q' true) as [[p1' l1'] q1'].
    destruct F as [[F1 F2] F3]. cbn [fst snd] in F1, F2, F3. apply after_break_rel in F1.
    pose proof F1 as (G1 & G2 & G3 & G4 & G5 & G6 & G7).
    specialize (IH (pi_parent (after_break p1)) (pi_parent (after_break p1')) q1 q1' lb lb' G7 F3 Hlb).
    destruct (break_levels_in ar cb st _ _ _) as [[pa re] lb1], (break_levels_in ar' cb' st' _ _ _) as [[pa' re'] lb1']. destruct IH as [[I1 I2] I3]. cbn [fst snd] in I1, I2, I3.
    split; [split|exact I3]; cbn [fst snd]; [exact F2|]. constructor; [|exact I2]. split; [exact G1|]. split; [exact G2|]. split; [exact G3|]. split; [exact G4|]. split; [exact G5|]. split; [exact G6|]. exact I1.
Qed.
Lemma new_line_rel : forall cb cb' s s', containing cb cb' -> inlines s s' -> inlines (new_line_in ar cb s) (new_line_in ar' cb' s').
Proof.
  intros cb cb' s s' Hcb (I1 & I2 & I3 & (J1 & J2 & J3)). unfold new_line_in.
  assert (L : levels (mkNL (nl_fragments (ifc_current s)) 0 (nl_max_block_size (ifc_current s))) (mkNL (nl_fragments (ifc_current s')) 0 (nl_max_block_size (ifc_current s')))) by (split; cbn; auto).
  pose proof (break_levels_rel cb cb' Hcb _ _ I3 _ _ _ _ _ _ L I2 I1) as B.
  destruct (break_levels_in ar cb _ _ _ _) as [[c st] lb], (break_levels_in ar' cb' _ _ _ _) as [[c' st'] lb']. destruct B as [[B1 B2] B3]. cbn [fst snd] in *.
  split; [exact B3|]. split; [cbn; auto|]. split; assumption.
Qed.

(** ** Text *)
Section Font.
Variable glyph_id : N -> res font_error N.
Variables glyph_width glyph_width' : N -> res font_error Q.
Hypothesis widths : forall id, match glyph_width id, glyph_width' id with Ok w, Ok w' => E w w' | Err e, Err e' => e = e' | Panic, Panic => True | _, _ => False end.
Definition saved (a b : option (shaped_state * list N)) : Prop :=
  match a, b with
  | Some (a, l), Some (b, l') => l = l' /\ st_glyphs a = st_glyphs b /\ E (st_advance_width a) (st_advance_width b)
  | None, None => True
  | _, _ => False
  end.
Lemma fill_line_rel : forall chars av av' fs fs' sh sh' la la', R av av' -> R fs fs' -> texts sh sh' -> saved la la' ->
  both (two texts eq) (fill_line_in ar glyph_id glyph_width av fs chars sh la) (fill_line_in ar' glyph_id glyph_width' av' fs' chars sh' la').
Proof.
  assert (Rs : forall sh sh' a b, texts sh sh' -> st_glyphs a = st_glyphs b -> E (st_advance_width a) (st_advance_width b) -> texts (restore sh a) (restore sh' b)).
  { intros sh sh' a b [T1 T2] Hg He. unfold restore. split; cbn; [rewrite T1, Hg; reflexivity|exact He]. }
  induction chars as [|ch chars IH]; intros av av' fs fs' sh sh' la la' Hav Hfs Hsh Hla; cbn [fill_line_in];
    rewrite <- (k_gt _ _ _ _ K (a_mul ar fs (advance_width sh)) (a_mul ar' fs' (advance_width sh')) av av') by (destruct Hsh; auto).
  - destruct (a_gt _ _ _); [|constructor; split; [exact Hsh|reflexivity]].
    destruct la as [[a l]|], la' as [[b l']|]; try contradiction; constructor; [|split; [exact Hsh|reflexivity]].
    destruct Hla as (-> & H1 & H2). split; [apply Rs; assumption|reflexivity].
  - destruct (_ && _)%bool.
    + destruct la as [[a l]|], la' as [[b l']|]; try contradiction; constructor; [|split; [exact Hsh|reflexivity]].
      destruct Hla as (-> & H1 & H2). split; [apply Rs; assumption|reflexivity].
    + unfold append_char_in. destruct (glyph_id ch) as [id|e|]; cbn [bind]; [|constructor|constructor].
      specialize (widths id). destruct (glyph_width id) as [w|e|], (glyph_width' id) as [w'|e'|]; try contradiction; cbn [bind]; [|constructor|constructor].
      destruct Hsh as [T1 T2]. apply IH; [exact Hav|exact Hfs|split; cbn; [rewrite T1; reflexivity|auto]|].
      destruct (ch =? 32)%N; [|exact Hla]. cbn. split; [reflexivity|]. rewrite T1. split; [reflexivity|exact T2].
Qed.
Lemma push_text_rel : forall s s' t t' st st', S s s' -> texts t t' -> inlines st st' -> inlines (push_text_in ar s t st) (push_text_in ar' s' t' st').
Proof.
  intros s s' t t' st st' Hs [T1 T2] (I1 & I2 & I3 & (J1 & J2 & J3)). unfold push_text_in. destruct (read _ _ Hs).
  split; [exact I1|]. split; [cbn; auto|]. split; [exact I3|]. split; [|split; cbn; auto].
  cbn. apply Forall2_app; [exact J1|]. constructor; [|constructor]. constructor; [exact Hs|split; split; cbn; auto|split; assumption].
Qed.
Lemma text_lines_rel : forall fuel cb cb' s s' av av' chars st st', containing cb cb' -> S s s' -> R av av' -> inlines st st' ->
  both inlines (text_run_lines_in ar glyph_id glyph_width fuel cb s av chars st) (text_run_lines_in ar' glyph_id glyph_width' fuel cb' s' av' chars st').
Proof.
  induction fuel as [|fuel IH]; intros cb cb' s s' av av' chars st st' Hcb Hs Hav Hst; cbn [text_run_lines_in]; [constructor|].
  assert (T : texts new_with_naive_shaping new_with_naive_shaping) by (split; cbn; auto).
  destruct (fill_line_rel chars av av' _ _ _ _ None None Hav (r_font_size _ _ _ (read _ _ Hs)) T I) as [|[sh rest] [sh' rest'] [F1 F2]]; [constructor|].
  cbn [fst snd] in *. subst rest'. assert (P := push_text_rel s s' sh sh' st st' Hs F1 Hst).
  destruct rest; [constructor; exact P|]. apply IH; [exact Hcb|exact Hs|exact Hav|apply new_line_rel; assumption].
Qed.

(** ** Boxes *)
Notation bcl := (block_container_layout_in ar glyph_id glyph_width).
Notation bcl' := (block_container_layout_in ar' glyph_id glyph_width').
Notation bll := (block_level_box_layout_in ar glyph_id glyph_width).
Notation bll' := (block_level_box_layout_in ar' glyph_id glyph_width').
Notation fcl := (bfc_layout_in ar glyph_id glyph_width).
Notation fcl' := (bfc_layout_in ar' glyph_id glyph_width').
Notation ill := (inline_level_box_layout_in ar glyph_id glyph_width).
Notation ill' := (inline_level_box_layout_in ar' glyph_id glyph_width').
Definition Rc (c : block_container) : Prop := forall c', same_containers S c c' -> forall o cb cb' rank acc acc' fl coll, containing cb cb' -> abss acc acc' ->
  both (two flows abss) (bcl o c cb rank acc fl coll) (bcl' o c' cb' rank acc' fl coll).
Definition Rb (b : block_level_box) : Prop := forall b', same_blocks_of S b b' -> forall o cb cb' rank acc acc' fl, containing cb cb' -> abss acc acc' ->
  both (two frags abss) (bll o b cb rank acc fl) (bll' o b' cb' rank acc' fl).
Definition Rf (c : block_formatting_context) : Prop := forall c', same_contexts S c c' -> forall o cb cb' rank acc acc', containing cb cb' -> abss acc acc' ->
  both (two flows abss) (fcl o c cb rank acc) (fcl' o c' cb' rank acc').
Definition Ri (b : inline_level_box) : Prop := forall b', same_inlines_of S b b' -> forall o cb cb' rank s s' acc acc', containing cb cb' -> inlines s s' -> abss acc acc' ->
  both (two inlines abss) (ill o b cb rank s acc) (ill' o b' cb' rank s' acc').
Lemma inline_list_rel : forall one one' l l' (P : inline_level_box -> inline_level_box -> Prop),
  (forall b b' s s' acc acc', In b l -> P b b' -> inlines s s' -> abss acc acc' -> both (two inlines abss) (one b s acc) (one' b' s' acc')) ->
  Forall2 P l l' -> forall s s' acc acc', inlines s s' -> abss acc acc' -> both (two inlines abss) (inline_boxes_layout one l s acc) (inline_boxes_layout one' l' s' acc').
Proof.
  intros one one' l l' P Ho H. induction H as [|b b' l l' Hb Hl IH]; intros s s' acc acc' Hs Ha; cbn [inline_boxes_layout]; [constructor; split; assumption|].
  destruct (Ho b b' s s' acc acc' (or_introl eq_refl) Hb Hs Ha) as [|[s1 a1] [s1' a1'] [H1 H2]]; [constructor|]. cbn [fst snd] in *.
  apply IH; [|assumption|assumption]. intros. apply Ho; try assumption. right. assumption.
Qed.
Lemma abs_box_rel : forall s s' c c' k k' rank, S s s' -> contents_rel c c' -> vecs k k' -> absolutes (abspos_box_layout s c k rank) (abspos_box_layout s' c' k' rank).
Proof.
  intros s s' c c' k k' rank Hs Hc [K1 K2]. destruct (read _ _ Hs). destruct r_offsets0 as (O1 & O2 & O3 & O4).
  assert (X : forall q q' a a' b b', R q q' -> lpas R a a' -> lpas R b b' -> offsets (absolute_box_offsets q a b) (absolute_box_offsets q' a' b')).
  { intros q q' [x|x|] [x'|x'|] [y|y|] [y'|y'|] Hq Ha Hb; try contradiction; cbn in *; auto. }
  unfold abspos_box_layout. split; [reflexivity|]. split; [apply X; assumption|]. split; [apply X; assumption|].
  cbn [ap_style ap_contents ap_inline_size ap_block_size]. intros. apply abspos_rel; assumption.
Qed.
Lemma forall2_in_rel : forall A B (P : A -> B -> Prop) (Q : A -> Prop) l l', Forall2 P l l' -> Forall Q l -> Forall2 (fun a b => P a b /\ Q a) l l'.
Proof. intros A B P Q l l' H. induction H; intros F; [constructor|]. inversion F; subst. constructor; auto. Qed.
Theorem related : (forall c, Rc c) /\ (forall b, Rb b) /\ (forall c, Rf c) /\ (forall b, Ri b).
Proof.
  apply boxes_ind.
  - intros l HF c' Hs o cb cb' rank acc acc' fl coll Hcb Ha. inversion Hs as [? l' H2|]; subst.
    change (both (two flows abss) (layout_block_level_children_in ar (fun i b acc => bll (sub_oracle o i) b cb i acc fl) (o []) l rank acc fl coll)
      (layout_block_level_children_in ar' (fun i b acc => bll' (sub_oracle o i) b cb' i acc fl) (o []) l' rank acc' fl coll)).
    apply children_rel; [|exact Ha]. eapply Forall2_impl_rel. 2: exact (forall2_in_rel _ _ _ _ _ _ H2 HF).
    intros b b' [Hb Hr] i a a' Hx. apply Hr; assumption.
  - intros l HF c' Hs o cb cb' rank acc acc' fl coll Hcb Ha. inversion Hs as [|? l' H2]; subst.
    change (both (two flows abss)
      (match inline_boxes_layout (fun b s acc => ill o b cb rank s acc) l (mkIFC (mkLB [] 0) 0 [] (mkNL [] 0 0)) acc with
       | Some (s, acc) => let (lb, _) := finish_line_in ar (ifc_lines s) (ifc_current s) cb in Some (mkFC (lb_boxes lb) (lb_next_position lb) cbm_zero, acc)
       | None => None end)
      (match inline_boxes_layout (fun b s acc => ill' o b cb' rank s acc) l' (mkIFC (mkLB [] 0) 0 [] (mkNL [] 0 0)) acc' with
       | Some (s, acc) => let (lb, _) := finish_line_in ar' (ifc_lines s) (ifc_current s) cb' in Some (mkFC (lb_boxes lb) (lb_next_position lb) cbm_zero, acc)
       | None => None end)).
    assert (I0 : inlines (mkIFC (mkLB [] 0) 0 [] (mkNL [] 0 0)) (mkIFC (mkLB [] 0) 0 [] (mkNL [] 0 0))) by (repeat split; cbn; auto).
    rewrite Forall_forall in HF.
    destruct (inline_list_rel (fun b s acc => ill o b cb rank s acc) (fun b s acc => ill' o b cb' rank s acc) l l' (same_inlines_of S)
      (fun b b' s s' acc acc' Hin Hb Hs Ha => HF b Hin b' Hb o cb cb' rank s s' acc acc' Hcb Hs Ha) H2 _ _ acc acc' I0 Ha) as [|[s a1] [s' a1'] [S1 S2]]; [constructor|].
    cbn [fst snd] in *. destruct S1 as (I1 & I2 & I3 & I4). pose proof (finish_line_rel _ _ _ _ _ _ I1 I4 Hcb) as [F1 F2].
    destruct (finish_line_in ar _ _ _) as [lb nl], (finish_line_in ar' _ _ _) as [lb' nl']. destruct F1 as [F1 F1']. constructor. split; [|exact S2]. split; [exact F1|]. split; [exact F1'|exact cbm_zero_rel].
  - intros s c Hc b' Hs o cb cb' rank acc acc' fl Hcb Ha. inversion Hs; subst.
    match goal with |- both _ _ (bll' o (SameFormattingContextBlock ?x ?y) _ _ _ _) =>
    change (both (two frags abss) (layout_in_flow_non_replaced_block_level_in ar cb acc s SameFormattingContext (fun cb acc coll => bcl o c cb rank acc fl coll))
      (layout_in_flow_non_replaced_block_level_in ar' cb' acc' x SameFormattingContext (fun cb acc coll => bcl' o y cb rank acc fl coll))) end.
    apply in_flow_rel; try assumption. intros. apply Hc; assumption.
  - intros s c Hc b' Hs o cb cb' rank acc acc' fl Hcb Ha. inversion Hs; subst.
    match goal with |- both _ _ (bll' o (OutOfFlowAbsolutelyPositionedBox ?x ?y) _ _ _ _) =>
    change (both (two frags abss) (Some (no_op (cb_mode cb), acc ++ [abspos_box_layout s (fun cb => fcl o c cb 0 []) vzero rank]))
      (Some (no_op (cb_mode cb'), acc' ++ [abspos_box_layout x (fun cb => fcl' o y cb 0 []) vzero rank]))) end.
    constructor. destruct Hcb as (C1 & C2 & C3). split; cbn [fst snd].
    + rewrite C3. constructor; [apply rzero_rel|constructor].
    + apply Forall2_app; [exact Ha|]. constructor; [|constructor]. apply abs_box_rel; [assumption| |apply vzero_rel]. intros x x' Hx. apply Hc; [assumption|exact Hx|constructor].
  - intros s c Hc b' Hs o cb cb' rank acc acc' fl Hcb Ha. inversion Hs; subst.
    change (both (two frags abss) (Some (no_op (cb_mode cb), acc)) (Some (no_op (cb_mode cb'), acc'))).
    constructor. destruct Hcb as (C1 & C2 & C3). split; cbn [fst snd]; [|exact Ha]. rewrite C3. constructor; [apply rzero_rel|constructor].
  - intros s c Hc b' Hs o cb cb' rank acc acc' fl Hcb Ha. inversion Hs; subst.
    match goal with |- both _ _ (bll' o (Independent ?x ?y) _ _ _ _) =>
    change (both (two frags abss) (layout_in_flow_non_replaced_block_level_in ar cb acc s EstablishesAnIndependentFormattingContext (fun cb acc _ => fcl o c cb rank acc))
      (layout_in_flow_non_replaced_block_level_in ar' cb' acc' x EstablishesAnIndependentFormattingContext (fun cb acc _ => fcl' o y cb rank acc))) end.
    apply in_flow_rel; try assumption. intros. apply Hc; assumption.
  - intros c f Hc c' Hs o cb cb' rank acc acc' Hcb Ha. inversion Hs as [? c1 ? H2]; subst.
    change (both (two flows abss)
      (match bcl o c cb rank acc f false with
       | Some (fc, acc) => Some (mkFC (fc_fragments fc) (a_add ar (fc_block_size fc) (solve_in ar (cm_end (fc_margins fc)))) (mkCBM false (cm_start (fc_margins fc)) cm_zero), acc)
       | None => None end)
      (match bcl' o c1 cb' rank acc' f false with
       | Some (fc, acc) => Some (mkFC (fc_fragments fc) (a_add ar' (fc_block_size fc) (solve_in ar' (cm_end (fc_margins fc)))) (mkCBM false (cm_start (fc_margins fc)) cm_zero), acc)
       | None => None end)).
    destruct (Hc c1 H2 o cb cb' rank acc acc' f false Hcb Ha) as [|[fc a1] [fc' a1'] [(F1 & F2 & F3 & F4 & F5) Ha1]]; [constructor|]. cbn [fst snd] in *.
    constructor. split; [|exact Ha1]. split; [exact F1|]. split; [cbn; auto|]. split; [reflexivity|]. split; [exact F4|apply cm_zero_rel].
  - intros st fi la children HF b' Hs o cb cb' rank s s' acc acc' Hcb Hst Ha. inversion Hs as [? st' ? ? ? l' Hs1 H2| | |]; subst.
    change (both (two inlines abss)
      (let (p, s) := start_layout_in ar cb st fi la s in
       match inline_boxes_layout (fun b s acc => ill o b cb rank s acc) children (mkIFC (ifc_lines s) (ifc_position s) (p :: ifc_stack s) (ifc_current s)) acc with
       | Some (s, acc) => match ifc_stack s with
         | [] => None
         | p :: stack => let '(p, _, position) := finish_layout_in ar p (ifc_current s) (ifc_position s) false in Some (mkIFC (ifc_lines s) position stack (pi_parent p), acc)
         end
       | None => None end)
      (let (p, s) := start_layout_in ar' cb' st' fi la s' in
       match inline_boxes_layout (fun b s acc => ill' o b cb' rank s acc) l' (mkIFC (ifc_lines s) (ifc_position s) (p :: ifc_stack s) (ifc_current s)) acc' with
       | Some (s, acc) => match ifc_stack s with
         | [] => None
         | p :: stack => let '(p, _, position) := finish_layout_in ar' p (ifc_current s) (ifc_position s) false in Some (mkIFC (ifc_lines s) position stack (pi_parent p), acc)
         end
       | None => None end)).
    pose proof (start_layout_rel cb cb' st st' fi la s s' Hcb Hs1 Hst) as P0. destruct (start_layout_in ar cb st fi la s) as [p s1], (start_layout_in ar' cb' st' fi la s') as [p' s1'].
    destruct P0 as [P0 (I1 & I2 & I3 & I4)]. cbn [fst snd] in *. rewrite Forall_forall in HF.
    assert (I0 : inlines (mkIFC (ifc_lines s1) (ifc_position s1) (p :: ifc_stack s1) (ifc_current s1)) (mkIFC (ifc_lines s1') (ifc_position s1') (p' :: ifc_stack s1') (ifc_current s1'))).
    { split; [exact I1|]. split; [exact I2|]. split; [constructor; assumption|exact I4]. }
    destruct (inline_list_rel (fun b s acc => ill o b cb rank s acc) (fun b s acc => ill' o b cb' rank s acc) children l' (same_inlines_of S)
      (fun b b' s s' acc acc' Hin Hb Hs Ha => HF b Hin b' Hb o cb cb' rank s s' acc acc' Hcb Hs Ha) H2 _ _ acc acc' I0 Ha) as [|[s2 a1] [s2' a1'] [(J1 & J2 & J3 & J4) Ha1]]; [constructor|].
    cbn [fst snd] in *. destruct J3 as [|q q' stack stack' Hq Hst2]; [constructor|].
    pose proof (finish_layout_rel q q' _ _ _ _ false Hq J4 J2) as F. destruct (finish_layout_in ar q _ _ _) as [[q1 l1] x1], (finish_layout_in ar' q' _ _ _) as [[q1' l1'] x1']. destruct F as [[F1 F2] F3]. cbn [fst snd] in *.
    constructor. split; [|exact Ha1]. split; [exact J1|]. split; [exact F3|]. split; [exact Hst2|]. destruct F1 as (_ & _ & _ & _ & _ & _ & F1). exact F1.
  - intros st t b' Hs o cb cb' rank s s' acc acc' Hcb Hst Ha. inversion Hs as [|? st' ? Hs1| |]; subst.
    change (both (two inlines abss)
      (match text_run_lines_in ar glyph_id glyph_width (Datatypes.S (List.length t)) cb st (a_sub ar (cb_inline_size cb) (ifc_position s)) t s with Some s => Some (s, acc) | None => None end)
      (match text_run_lines_in ar' glyph_id glyph_width' (Datatypes.S (List.length t)) cb' st' (a_sub ar' (cb_inline_size cb') (ifc_position s')) t s' with Some s => Some (s, acc') | None => None end)).
    assert (Av : R (a_sub ar (cb_inline_size cb) (ifc_position s)) (a_sub ar' (cb_inline_size cb') (ifc_position s'))) by (destruct Hcb, Hst as (_ & I2 & _); auto).
    destruct (text_lines_rel (Datatypes.S (List.length t)) cb cb' st st' _ _ t s s' Hcb Hs1 Av Hst); constructor. split; assumption.
  - intros st c Hc b' Hs o cb cb' rank s s' acc acc' Hcb Hst Ha. inversion Hs as [| |? st' ? c1 Hs1 H2|]; subst.
    change (both (two inlines abss)
      (match initial_corner st s with
       | Some corner => Some (s, acc ++ [abspos_box_layout st (fun cb => fcl (sub_oracle o (List.length acc)) c cb 0 []) corner rank]) | None => None end)
      (match initial_corner st' s' with
       | Some corner => Some (s', acc' ++ [abspos_box_layout st' (fun cb => fcl' (sub_oracle o (List.length acc')) c1 cb 0 []) corner rank]) | None => None end)).
    unfold initial_corner. rewrite <- (r_display _ _ _ (read _ _ Hs1)). destruct (specified_display st) as [| |out ins]; [constructor|constructor|].
    constructor. split; [exact Hst|]. apply Forall2_app; [exact Ha|]. constructor; [|constructor]. destruct Hst as ([I1 I1'] & I2 & I3 & I4). apply abs_box_rel; [exact Hs1| |].
    + rewrite (forall2_length _ _ _ _ _ Ha). intros x x' Hx. apply Hc; [exact H2|exact Hx|constructor].
    + split; cbn; [destruct out; auto|exact I1'].
  - intros st c Hc b' Hs o cb cb' rank s s' acc acc' Hcb Hst Ha. inversion Hs; subst. change (both (two inlines abss) (Some (s, acc)) (Some (s', acc'))). constructor. split; assumption.
Qed.
Theorem related_root : forall root root' o vp vp', same_contexts S root root' -> vecs vp vp' ->
  both (Forall2 frags) (box_tree_root_layout_in ar glyph_id glyph_width o root vp) (box_tree_root_layout_in ar' glyph_id glyph_width' o root' vp').
Proof.
  intros root root' o vp vp' H Hv. unfold box_tree_root_layout_in. destruct related as (_ & _ & Rf & _).
  assert (C : containing (mkCB (v_inline vp) (Length (v_block vp)) (HorizontalTb, Ltr)) (mkCB (v_inline vp') (Length (v_block vp')) (HorizontalTb, Ltr))) by (destruct Hv; repeat split; assumption).
  destruct (Rf root root' H o _ _ 0 [] [] C (Forall2_nil _)) as [|[fc a1] [fc' a1'] [(F1 & _) Ha1]]; [constructor|]. cbn [fst snd] in *.
  assert (M : both (Forall2 frags) (map_option (fun a => abspos_layout_in ar a (mkDCB vp (HorizontalTb, Ltr))) a1) (map_option (fun a => abspos_layout_in ar' a (mkDCB vp' (HorizontalTb, Ltr))) a1')).
  { apply (map_both _ _ _ _ _ _ absolutes); [exact Ha1|]. intros a a' Ha. apply absolutes_laid; [exact Ha|]. split; [exact Hv|reflexivity]. }
  destruct M; constructor. apply Forall2_app; assumption.
Qed.
End Font.
End Rel.
