(** Proofs that boxes in normal flow do not overlap *)
From Coq Require Import QArith Qminmax Lqa Lia.
From Verif Require Import Base Dom StyleValues StyleProperties PdfConvert Geom Text LayoutTree Layout LayoutSpec LayoutProofs LayoutBlockProofs BlockStackSpec.
Local Open Scope Q_scope.

(** ** Distances without anything negative *)
Definition item_ok (i : item) : Prop := match i with Margin m => 0 <= m | Height h => 0 <= h end.
Definition run_ok (run : option (list Q)) : Prop := match run with None => True | Some ms => Forall (Qle 0) ms end.
Lemma collapse_mono : forall m ms, 0 <= m -> Forall (Qle 0) ms -> 0 <= collapse ms /\ collapse ms <= collapse (m :: ms).
Proof.
  intros m ms Hm H. assert (B : forall l, Forall (Qle 0) l -> fold_right Qmin 0 l == 0).
  { induction l as [|x l IH]; intros F; cbn [fold_right]; [reflexivity|]. apply Forall_cons_iff in F as [F1 F2].
    rewrite (IH F2). apply Q.min_r. exact F1. }
  unfold collapse. rewrite (B ms H), (B (m :: ms) (Forall_cons _ Hm H)). cbn [fold_right].
  pose proof (Q.le_max_r m (fold_right Qmax 0 ms)). fold (top_of ms) in *. pose proof (top_nonneg ms). split; lra.
Qed.
Lemma run_value_nonneg : forall run, run_ok run -> 0 <= run_value run.
Proof.
  intros [ms|] H; [|apply Qle_refl]. destruct (collapse_mono 0 ms (Qle_refl 0) H) as [K _]. exact K.
Qed.
Lemma distance_more : forall l run, run_ok run -> Forall item_ok l -> run_value run <= distance run l.
Proof.
  induction l as [|i l IH]; intros run Hr H.
  - destruct run; apply Qle_refl.
  - apply Forall_cons_iff in H as [H1 H2]. destruct i as [m|h]; cbn [distance item_ok] in *.
    + destruct run as [ms|].
      * eapply Qle_trans; [apply (collapse_mono m ms H1 Hr)|]. apply (IH (Some (m :: ms))); [constructor; assumption|exact H2].
      * apply (IH None I H2).
    + pose proof (IH (Some []) (Forall_nil _) H2) as K. cbn [run_value] in K. rewrite collapse_nil in K.
      change (match run with None => 0 | Some ms => collapse ms end) with (run_value run). lra.
Qed.
Lemma distance_mono : forall a b run, run_ok run -> Forall item_ok a -> Forall item_ok b -> distance run a <= distance run (a ++ b).
Proof.
  induction a as [|i a IH]; intros b run Hr Ha Hb; cbn [app].
  - change (run_value run <= distance run b). apply distance_more; assumption.
  - apply Forall_cons_iff in Ha as [H1 H2]. destruct i as [m|h]; cbn [distance item_ok] in *.
    + apply IH; [destruct run; [constructor; assumption|exact I]|assumption|assumption].
    + pose proof (IH b (Some []) (Forall_nil _) H2 Hb). lra.
Qed.
Lemma margins_ok : forall t, Forall (Qle 0) t -> Forall item_ok (map Margin t).
Proof. intros t H. apply Forall_map. exact H. Qed.
Lemma strip_ok : forall l, Forall item_ok l -> Forall item_ok (strip l).
Proof. intros l H. rewrite (strip_trailing l) in H. apply Forall_app in H as [H _]. exact H. Qed.
Lemma strip_less : forall run l, run_ok run -> Forall item_ok l -> distance run (strip l) <= distance run l.
Proof.
  intros run l Hr H. rewrite (strip_trailing l) at 2. rewrite (strip_trailing l) in H. apply Forall_app in H as [H1 H2].
  apply distance_mono; assumption.
Qed.
Lemma strip_mono : forall run a b, run_ok run -> Forall item_ok a -> Forall item_ok b ->
  distance run (strip a) <= distance run (strip (a ++ b)).
Proof.
  intros run a b Hr Ha Hb. rewrite strip_app. pose proof (strip_ok b Hb) as Hs. destruct (strip b) as [|i s]; [apply Qle_refl|].
  eapply Qle_trans; [apply strip_less; assumption|]. apply distance_mono; assumption.
Qed.
Lemma leading_ok : forall l, Forall item_ok l -> Forall (Qle 0) (leading l).
Proof.
  induction l as [|[m|h] l IH]; intros H; cbn [leading]; [constructor| |constructor]. apply Forall_cons_iff in H as [H1 H2].
  constructor; [exact H1|exact (IH H2)].
Qed.
Lemma solid_ok : forall q, 0 <= q -> Forall item_ok (solid q).
Proof. intros q H. unfold solid. destruct (Qeq_bool q 0); repeat constructor. exact H. Qed.

(** Where a box begins and ends, by what it adds to the flow *)
Definition fits (h : Q) (top : list Q) (items : list item) : Prop :=
  forall run before, run_ok run -> Forall item_ok before ->
  distance run (before ++ map Margin top) + h <= distance run (before ++ items) /\
  (0 < h -> distance run (before ++ map Margin top) + h <= distance run (strip (before ++ items))).
Lemma fits_fixed : forall h top mb, 0 <= h -> 0 <= mb ->
  fits h top (map Margin top ++ [Height h; Margin mb]).
Proof.
  intros h top mb Hh Hm run before Hr Hb.
  assert (E : forall r, before ++ map Margin top ++ Height h :: r = (before ++ map Margin top) ++ Height h :: r) by (intros; apply app_assoc).
  rewrite E. change [Height h; Margin mb] with (Height h :: map Margin [mb]).
  rewrite strip_height, !distance_height, distance_margins_some. cbn [distance app]. rewrite collapse_nil.
  destruct (collapse_mono mb [] Hm (Forall_nil _)) as [_ K]. rewrite collapse_nil in K. split; [lra|intros _; lra].
Qed.
(** A height in [rest] ends the margins [top]; what is below [h] follows it. *)
Lemma fits_height : forall top k rest h, 0 <= k ->
  Forall item_ok rest -> h <= k + distance (Some []) (strip rest) ->
  fits h top (map Margin top ++ Height k :: rest).
Proof.
  intros top k rest h Hk Hrest Hh run before Hr Hb.
  pose proof (strip_less (Some []) rest (Forall_nil _) Hrest) as K.
  rewrite (app_assoc before (map Margin top)). split.
  - rewrite distance_height. lra.
  - intros _. rewrite strip_app. cbn [strip]. rewrite distance_height. lra.
Qed.
Lemma run_of_ok : forall q, run_ok (run_of q).
Proof. intros q. unfold run_of. destruct (Qeq_bool q 0); [exact I|constructor]. Qed.
Lemma fits_auto : forall mt mb ps pe c inner,
  0 <= mt -> 0 <= mb -> 0 <= ps -> 0 <= pe -> Forall item_ok inner ->
  c == distance (run_of ps) (if Qeq_bool pe 0 then strip inner else inner) ->
  fits (ps + c + pe) (mt :: if Qeq_bool ps 0 then leading inner else [])
    (Margin mt :: solid ps ++ inner ++ solid pe ++ [Margin mb]).
Proof.
  intros mt mb ps pe c inner Hmt Hmb Hps Hpe Hi Hc.
  assert (Hend : Forall item_ok (solid pe ++ [Margin mb])).
  { apply Forall_app. split; [apply solid_ok, Hpe|]. constructor; [exact Hmb|constructor]. }
  assert (Hstrip : forall pre, pre ++ solid pe ++ [Margin mb] = pre ++ [Margin mb] \/ True) by (intros; right; exact I).
  (* what comes after the first height, without the last margins *)
  assert (Htail : forall r, Forall item_ok r ->
    distance (Some []) (if Qeq_bool pe 0 then strip r else r) + pe <= distance (Some []) (strip (r ++ solid pe ++ [Margin mb]))).
  { intros r Hok. unfold solid. destruct (Qeq_bool pe 0) eqn:B.
    - apply Qeq_bool_iff in B. cbn [app]. rewrite strip_app. cbn [strip]. rewrite B, Qplus_0_r. apply Qle_refl.
    - cbn [app]. rewrite strip_app. cbn [strip]. rewrite distance_height. cbn [distance]. rewrite collapse_nil. lra. }
  destruct (Qeq_bool ps 0) eqn:B.
  - assert (Er : run_of ps = None) by (unfold run_of; rewrite B; reflexivity). rewrite Er in Hc.
    assert (Es : solid ps = []) by (unfold solid; rewrite B; reflexivity). rewrite Es. cbn [app]. apply Qeq_bool_iff in B.
    destruct (strip inner) as [|i0 s0] eqn:Ei.
    + destruct (no_heights inner Ei) as [En _].
      assert (Hc0 : c == 0).
      { rewrite Hc. destruct (Qeq_bool pe 0); [reflexivity|]. rewrite En. apply distance_margins_none. }
      unfold solid. destruct (Qeq_bool pe 0) eqn:Bp.
      * apply Qeq_bool_iff in Bp. cbn [app]. intros run before Hr Hb. split.
        -- assert (E0 : ps + c + pe == 0) by lra. rewrite E0, Qplus_0_r.
           replace (before ++ Margin mt :: inner ++ [Margin mb]) with ((before ++ map Margin (mt :: leading inner)) ++ [Margin mb]).
           ++ apply distance_mono; [exact Hr| |constructor; [exact Hmb|constructor]].
              apply Forall_app. split; [exact Hb|]. apply margins_ok. constructor; [exact Hmt|apply leading_ok, Hi].
           ++ rewrite <- app_assoc. cbn [map app]. rewrite <- En. reflexivity.
        -- intros F. lra.
      * cbn [app]. replace (Margin mt :: inner ++ [Height pe; Margin mb]) with (map Margin (mt :: leading inner) ++ Height pe :: [Margin mb]).
        -- apply fits_height; [exact Hpe|constructor; [exact Hmb|constructor]|]. cbn [strip distance]. rewrite collapse_nil. lra.
        -- cbn [map app]. rewrite <- En. reflexivity.
    + destruct (leading_split inner) as (h & r & E); [rewrite Ei; discriminate|].
      assert (Hr : Forall item_ok (Height h :: r)) by (rewrite E in Hi; apply Forall_app in Hi as [_ Hi]; exact Hi).
      apply Forall_cons_iff in Hr as [Hh Hr]. cbn [item_ok] in Hh.
      replace (Margin mt :: inner ++ solid pe ++ [Margin mb]) with (map Margin (mt :: leading inner) ++ Height h :: (r ++ solid pe ++ [Margin mb])).
      * apply fits_height; [exact Hh|apply Forall_app; split; [exact Hr|exact Hend]|].
        pose proof (Htail r Hr) as T.
        assert (Ec : c == h + distance (Some []) (if Qeq_bool pe 0 then strip r else r)).
        { rewrite Hc. destruct (Qeq_bool pe 0).
          - rewrite <- Ei, E, strip_app. cbn [strip]. rewrite distance_height, distance_margins_none. lra.
          - rewrite E, distance_height, distance_margins_none. lra. }
        lra.
      * rewrite E at 2. cbn [map app]. rewrite <- app_assoc. reflexivity.
  - assert (Er : run_of ps = Some []) by (unfold run_of; rewrite B; reflexivity). rewrite Er in Hc.
    assert (Es : solid ps = [Height ps]) by (unfold solid; rewrite B; reflexivity). rewrite Es.
    change (Margin mt :: [Height ps] ++ inner ++ solid pe ++ [Margin mb]) with (map Margin [mt] ++ Height ps :: inner ++ solid pe ++ [Margin mb]).
    apply fits_height; [exact Hps|apply Forall_app; split; assumption|]. pose proof (Htail inner Hi). lra.
Qed.

(** ** Lines *)
Lemma lines_stacked : forall y l z, lines_ok y l z ->
  y <= z /\ tidy l /\ (forall y', y' <= y -> stacked y' l) /\ Forall (ends_above z) l.
Proof.
  intros y l z H. induction H as [y z E|y r mode children l z E1 E2 E3 H IH].
  - split; [lra|]. split; [constructor|]. split; [intros; constructor|constructor].
  - destruct IH as (I1 & I2 & I3 & I4). split; [lra|]. split; [constructor; exact I2|]. split.
    + intros y' Hy. apply st_line; [unfold line_top; lra|exact E3|]. apply I3. unfold line_bottom. lra.
    + constructor; [|exact I4]. cbn [ends_above]. destruct children; [exact I|]. unfold line_bottom. lra.
Qed.
Lemma ends_above_weaken : forall z z' l, z <= z' -> Forall (ends_above z) l -> Forall (ends_above z') l.
Proof.
  intros z z' l H F. eapply Forall_impl; [|exact F]. intros [b c|r m [|f c]|] K; cbn [ends_above] in *; [|exact I| |exact K].
  - intros P. specialize (K P). lra.
  - lra.
Qed.

Scheme block_ok_min := Minimality for block_ok Sort Prop
  with container_ok_min := Minimality for container_ok Sort Prop
  with children_ok_min := Minimality for children_ok Sort Prop.
Combined Scheme oks_ind from block_ok_min, container_ok_min, children_ok_min.

Definition given_ok (h : length_or_auto) : Prop := match h with Length x => 0 <= x | Auto => True end.
Section Font.
Variable glyph_id : N -> res font_error N.
Variable glyph_width : N -> res font_error Q.
Notation in_width_block := (in_width_block glyph_id glyph_width).
Notation in_width_children := (in_width_children glyph_id glyph_width).
Notation in_width_container := (in_width_container glyph_id glyph_width).
Section Height.
Variable P : lpa -> Prop.
Hypothesis HP : forall l, P l -> height_not_negative l.

Definition block_fits (h : length_or_auto) (b : block_level_box) (f : fragment) (top : list Q) (items : list item) : Prop :=
  forall w, in_width_block w b f -> flowing P b -> given_ok h ->
  Forall item_ok items /\ Forall (Qle 0) top /\ tidy [f] /\
  match f with
  | FBox bf _ => fits (border_height bf) top items /\ get (bf_style bf) position_ <> Relative /\ P (get (bf_style bf) height)
  | FAnonymous _ _ children => children = []
  | FText _ _ _ => False
  end.
Definition container_fits (h : length_or_auto) (c : block_container) (run : option (list Q)) (frs : list fragment) (items : list item) : Prop :=
  forall w, in_width_container w c frs -> all_flowing P c -> given_ok h -> is_run run ->
  Forall item_ok items /\ stacked 0 frs /\ tidy frs /\ Forall (ends_above (distance run (strip items))) frs.
Definition children_fit (h : length_or_auto) (run : option (list Q)) (before : list item) (l : list block_level_box)
    (frs : list fragment) (items : list item) : Prop :=
  forall w, in_width_children w l frs -> Forall (flowing P) l -> given_ok h -> run_ok run -> Forall item_ok before ->
  (exists rest, items = before ++ rest) /\ Forall item_ok items /\ tidy frs /\
  (forall y, y <= distance run before -> stacked y frs) /\ Forall (ends_above (distance run (strip items))) frs.

Lemma used_height_ok : forall h s, given_ok h -> P (get s height) -> given_ok (used_height h s).
Proof.
  intros h s Hh Hp. apply HP in Hp. unfold used_height. destruct (get s height) as [x|p|]; [exact Hp| |destruct h; exact I].
  destruct h as [x|]; [|exact I]. cbn [given_ok height_not_negative] in *. apply Qmult_le_0_compat; assumption.
Qed.
Lemma edges_not_negative : forall w s b, in_flow_width w s b -> not_moved_style P s ->
  0 <= pb_start b /\ 0 <= pb_end b /\ 0 <= block_start (bf_margin b) /\ 0 <= block_end (bf_margin b) /\ bf_style b = s.
Proof.
  intros w s b H (_ & _ & M1 & M2 & P1 & P2 & B1 & B2). inversion H as [? ? ? o E1 E2 E3 E4 E5 E6]; subst. clear H.
  destruct E2 as (_ & _ & X1 & X2 & _ & _ & X3 & X4 & X5 & X6).
  assert (Hm : forall l x, length_or_none l -> margin_of_width w l zero x -> 0 <= x).
  { intros [a|a|] x; cbn [length_or_none margin_of_width]; intros A B; [rewrite B; exact A|contradiction|unfold zero in B; rewrite B; apply Qle_refl]. }
  assert (Hl : forall l x, length_only l -> of_width w l x -> 0 <= x).
  { intros [a|a] x; cbn [length_only of_width]; intros A B; [rewrite B; exact A|contradiction]. }
  pose proof (Hl _ _ P1 X1). pose proof (Hl _ _ P2 X2). pose proof (Hl _ _ B1 X3). pose proof (Hl _ _ B2 X4).
  pose proof (Hm _ _ M1 X5). pose proof (Hm _ _ M2 X6). unfold pb_start, pb_end. repeat split; lra.
Qed.
Lemma is_run_ok : forall run, is_run run -> run_ok run /\ run_value run == 0.
Proof. intros run [->| ->]; split; try exact I; try constructor; try reflexivity. Qed.

Lemma flow_fits :
  (forall h b f top items, block_ok h b f top items -> block_fits h b f top items) /\
  (forall h c run frs items, container_ok h c run frs items -> container_fits h c run frs items) /\
  (forall h run before l frs items, children_ok h run before l frs items -> children_fit h run before l frs items).
Proof.
  apply oks_ind.
  - intros h s c r mode w _ _ _. split; [constructor|]. split; [constructor|]. split; [constructor; constructor|reflexivity].
  - intros h s c r mode w _ _ _. split; [constructor|]. split; [constructor|]. split; [constructor; constructor|reflexivity].
  - intros h s c b children extra inner Es Hx _ IH Hl Ha w Hw Hf Hh.
    inversion Hf as [? ? Hs Hc| | |]; subst. pose proof (Hx (proj1 Hs)) as ->. inversion Hw as [| |? ? ? ? children' extra' W1 W2 W3 W4 W5 W6|]; subst.
    pose proof (W2 (proj1 Hs)) as ->. rewrite app_nil_r in *. subst children'. rewrite ?app_nil_r in W3. rewrite ?app_nil_r. clear Hx W2.
    destruct (edges_not_negative _ _ _ W1 Hs) as (K1 & K2 & K3 & K4 & _).
    pose proof (used_height_ok h _ Hh (proj1 (proj2 Hs))) as Hu.
    assert (Hir : is_run (run_of (pb_start b))) by (unfold run_of; destruct (Qeq_bool (pb_start b) 0); [left|right]; reflexivity).
    destruct (IH _ W3 Hc Hu Hir) as (I1 & I2 & I3 & I4).
    destruct (is_run_ok _ Hir) as [Hrok Hr0].
    assert (Hch : 0 <= content_height b).
    { destruct (used_height h (bf_style b)) as [x|] eqn:Eu.
      - rewrite (Hl x eq_refl). exact Hu.
      - rewrite (Ha eq_refl). apply Qle_trans with (run_value (run_of (pb_start b))); [lra|].
        destruct (Qeq_bool (pb_end b) 0); apply distance_more; try assumption. apply strip_ok, I1. }
    assert (Htop : Forall (Qle 0) (block_start (bf_margin b) :: (if Qeq_bool (pb_start b) 0 then leading inner else []))).
    { constructor; [exact K3|]. destruct (Qeq_bool (pb_start b) 0); [apply leading_ok, I1|constructor]. }
    split; [|split; [exact Htop|]; split].
    + destruct (used_height h (bf_style b)).
      * constructor; [exact K3|]. apply Forall_app. split.
        -- destruct (Qeq_bool (pb_start b) 0); [apply margins_ok, leading_ok, I1|constructor].
        -- constructor; [cbn [item_ok]; lra|]. constructor; [exact K4|constructor].
      * constructor; [exact K3|]. repeat (apply Forall_app; split); try (apply solid_ok; assumption); try assumption.
        constructor; [exact K4|constructor].
    + constructor; try assumption; [|constructor]. intros Eh.
      assert (Eu : used_height h (bf_style b) = Auto) by (unfold used_height; rewrite Eh; destruct h; reflexivity).
      eapply ends_above_weaken; [|exact I4]. rewrite (Ha Eu). destruct (Qeq_bool (pb_end b) 0); [apply Qle_refl|apply strip_less; assumption].
    + split; [|split; [apply Hs|apply Hs]]. destruct (used_height h (bf_style b)) eqn:Eu.
      * pose proof (fits_fixed (border_height b) (block_start (bf_margin b) :: (if Qeq_bool (pb_start b) 0 then leading inner else [])) (block_end (bf_margin b))) as F.
        cbn [map app] in F. replace (if Qeq_bool (pb_start b) 0 then map Margin (leading inner) else [])
          with (map Margin (if Qeq_bool (pb_start b) 0 then leading inner else [])) by (destruct (Qeq_bool (pb_start b) 0); reflexivity).
        apply F; [unfold border_height; lra|exact K4].
      * apply fits_auto; try assumption. exact (Ha eq_refl).
  - intros h s c fl b children extra inner Es Hx _ IH Hl Ha w Hw Hf Hh.
    inversion Hf as [|? ? ? Hs Hc| |]; subst. pose proof (Hx (proj1 Hs)) as ->. inversion Hw as [| | |? ? ? ? ? children' extra' W1 W2 W3 W4 W5 W6]; subst.
    pose proof (W2 (proj1 Hs)) as ->. rewrite app_nil_r in *. subst children'. rewrite ?app_nil_r in W3. rewrite ?app_nil_r. clear Hx W2.
    destruct (edges_not_negative _ _ _ W1 Hs) as (K1 & K2 & K3 & K4 & _).
    pose proof (used_height_ok h _ Hh (proj1 (proj2 Hs))) as Hu.
    destruct (IH _ W3 Hc Hu (or_intror eq_refl)) as (I1 & I2 & I3 & I4).
    assert (Hrok : run_ok (Some [])) by constructor.
    assert (Hch : 0 <= content_height b).
    { destruct (used_height h (bf_style b)) as [x|] eqn:Eu.
      - rewrite (Hl x eq_refl). exact Hu.
      - rewrite (Ha eq_refl). exact (distance_more inner (Some []) Hrok I1). }
    split; [|split; [constructor; [exact K3|constructor]|]; split].
    + constructor; [exact K3|]. constructor; [cbn [item_ok]; lra|]. constructor; [exact K4|constructor].
    + constructor; try assumption; [|constructor]. intros Eh.
      assert (Eu : used_height h (bf_style b) = Auto) by (unfold used_height; rewrite Eh; destruct h; reflexivity).
      eapply ends_above_weaken; [|exact I4]. rewrite (Ha Eu). apply strip_less; assumption.
    + split; [|split; [apply Hs|apply Hs]].
      apply (fits_fixed (border_height b) [block_start (bf_margin b)]); [unfold border_height; lra|exact K4].
  - intros h l run frs items _ IH w Hw Hf Hh Hr. inversion Hw; subst. inversion Hf; subst. destruct (is_run_ok _ Hr) as [Hrok Hr0].
    match goal with K : in_width_children _ _ _ |- _ => destruct (IH w K ltac:(assumption) Hh Hrok (Forall_nil _)) as (_ & I1 & I2 & I3 & I4) end.
    split; [exact I1|]. split; [|split; [exact I2|exact I4]]. apply I3. change (0 <= run_value run). lra.
  - intros h l run frs y Hy w _ _ _ Hr. destruct (lines_stacked _ _ _ Hy) as (L1 & L2 & L3 & L4).
    split; [constructor; [exact L1|constructor]|]. split; [apply L3, Qle_refl|]. split; [exact L2|].
    eapply ends_above_weaken; [|exact L4]. destruct (is_run_ok _ Hr) as [_ Hr0]. unfold run_value in Hr0. cbn [strip distance].
    rewrite Hr0, collapse_nil. lra.
  - intros h run before w _ _ _ Hr Hb. split; [exists []; symmetry; apply app_nil_r|]. split; [exact Hb|]. split; [constructor|].
    split; [intros; constructor|constructor].
  - intros h run before b l f frs top items all _ IHb Hp _ IH w Hw Hf Hh Hr Hb.
    inversion Hw; subst. apply Forall_cons_iff in Hf as [Hf1 Hf2].
    destruct (IHb w ltac:(assumption) Hf1 Hh) as (B1 & B2 & B3 & B4).
    assert (Hbi : Forall item_ok (before ++ items)) by (apply Forall_app; split; assumption).
    destruct (IH w ltac:(assumption) Hf2 Hh Hr Hbi) as ((rest & ->) & I1 & I2 & I3 & I4).
    split; [exists (items ++ rest); symmetry; apply app_assoc|]. split; [exact I1|].
    assert (Hrest : Forall item_ok rest) by (apply Forall_app in I1 as [_ I1]; exact I1).
    destruct f as [bf ch|r mode ch|]; [| |contradiction].
    + destruct B4 as (F & Hn & _). destruct (F run before Hr Hb) as [F1 F2].
      assert (Et : border_top bf == distance run (before ++ map Margin top)).
      { cbn [placed] in Hp. destruct Hp as (o & O1 & O2). unfold relative_offset in O1. unfold border_top.
        assert (o == 0) by (destruct (get (bf_style bf) position_); try exact O1; contradiction Hn; reflexivity). lra. }
      inversion B3; subst. split; [constructor; assumption|]. split.
      * intros y Hy. apply st_box.
        -- rewrite Et. eapply Qle_trans; [exact Hy|]. apply distance_mono; [exact Hr|exact Hb|apply margins_ok, B2].
        -- apply I3. unfold border_bottom. rewrite Et. exact F1.
      * constructor; [|exact I4]. cbn [ends_above]. intros Hpos. unfold border_bottom. rewrite Et.
        eapply Qle_trans; [exact (F2 Hpos)|]. apply strip_mono; assumption.
    + subst ch. split; [constructor; exact I2|]. split.
      * intros y Hy. apply st_place. apply I3. eapply Qle_trans; [exact Hy|]. apply distance_mono; assumption.
      * constructor; [exact I|exact I4].
Qed.
End Height.

End Font.

(** ** Nothing overlaps *)

(** The heights of all boxes are [auto] *)
Inductive heights_auto : list fragment -> Prop :=
| ha_nil : heights_auto []
| ha_anonymous : forall r mode children l, heights_auto l -> heights_auto (FAnonymous r mode children :: l)
| ha_box : forall b children l, get (bf_style b) height = LpaAuto -> heights_auto children -> heights_auto l ->
    heights_auto (FBox b children :: l).
Lemma heights_fit :
  (forall h b f top items, block_ok h b f top items -> flowing (eq LpaAuto) b -> heights_auto [f]) /\
  (forall h c run frs items, container_ok h c run frs items -> all_flowing (eq LpaAuto) c -> heights_auto frs) /\
  (forall h run before l frs items, children_ok h run before l frs items -> Forall (flowing (eq LpaAuto)) l -> heights_auto frs).
Proof.
  apply oks_ind.
  - intros. constructor. constructor.
  - intros. constructor. constructor.
  - intros h s c b children extra inner Es Hx _ IH _ _ Hf. inversion Hf as [? ? Hs Hc| | |]; subst. rewrite (Hx (proj1 Hs)), app_nil_r.
    constructor; [symmetry; apply Hs|exact (IH Hc)|constructor].
  - intros h s c fl b children extra inner Es Hx _ IH _ _ Hf. inversion Hf as [|? ? ? Hs Hc| |]; subst. rewrite (Hx (proj1 Hs)), app_nil_r.
    constructor; [symmetry; apply Hs|exact (IH Hc)|constructor].
  - intros h l run frs items _ IH Hf. inversion Hf; subst. apply IH. assumption.
  - intros h l run frs y Hy _. induction Hy; constructor. assumption.
  - intros. constructor.
  - intros h run before b l f frs top items all _ IHb Hp _ IH Hf. apply Forall_cons_iff in Hf as [H1 H2].
    specialize (IHb H1). specialize (IH H2). inversion IHb; subst; constructor; assumption.
Qed.
Lemma ends_above_nth : forall l i f z, Forall (ends_above z) l -> nth_error l i = Some f -> ends_above z f.
Proof. intros l i f z F H. rewrite Forall_forall in F. apply F. eapply nth_error_In. exact H. Qed.
Lemma tidy_nth : forall l i b children, tidy l -> nth_error l i = Some (FBox b children) ->
  0 <= pb_start b /\ 0 <= content_height b /\ 0 <= pb_end b /\ stacked 0 children /\
  (get (bf_style b) height = LpaAuto -> Forall (ends_above (content_height b)) children) /\ tidy children.
Proof.
  intros l i b children H. revert i. induction H as [|r m c l H IH|b' c l H1 H2 H3 H4 H5 H6 _ H7 IH]; intros [|i] E; cbn [nth_error] in E; try discriminate E.
  - exact (IH i E).
  - injection E as -> ->. repeat (split; [assumption|]). assumption.
  - exact (IH i E).
Qed.
Lemma heights_auto_nth : forall l i b children, heights_auto l -> nth_error l i = Some (FBox b children) ->
  get (bf_style b) height = LpaAuto /\ heights_auto children.
Proof.
  intros l i b children H. revert i. induction H as [|r m c l H IH|b' c l H1 H2 _ H3 IH]; intros [|i] E; cbn [nth_error] in E; try discriminate E.
  - exact (IH i E).
  - injection E as -> ->. split; assumption.
  - exact (IH i E).
Qed.
Definition fragment_top (f : fragment) : Q :=
  match f with FBox b _ => border_top b | FAnonymous r _ _ => line_top r | FText _ _ _ => 0 end.
Definition fragment_bottom (f : fragment) : Q :=
  match f with FBox b _ => border_bottom b | FAnonymous r _ _ => line_bottom r | FText _ _ _ => 0 end.
Definition visible (f : fragment) : Prop := match f with FBox _ _ => True | FAnonymous _ _ c => c <> [] | FText _ _ _ => False end.
Lemma stacked_nth : forall l y i f, stacked y l -> tidy l -> nth_error l i = Some f -> visible f ->
  y <= fragment_top f /\ fragment_top f <= fragment_bottom f.
Proof.
  intros l y i f H. revert i f. induction H as [y|y r m l H IH|y r m c l H1 H2 H IH|y b c l H1 H IH]; intros i f T E V.
  - destruct i; discriminate E.
  - inversion T; subst. destruct i as [|i]; cbn [nth_error] in E; [injection E as <-; contradiction V; reflexivity|]. exact (IH i f ltac:(assumption) E V).
  - inversion T; subst. destruct i as [|i]; cbn [nth_error] in E.
    + injection E as <-. cbn [fragment_top fragment_bottom]. split; [exact H1|]. unfold line_top, line_bottom. lra.
    + destruct (IH i f ltac:(assumption) E V) as [K1 K2]. split; [|exact K2]. unfold line_top, line_bottom in *. lra.
  - inversion T; subst. destruct i as [|i]; cbn [nth_error] in E.
    + injection E as <-. cbn [fragment_top fragment_bottom]. split; [exact H1|]. unfold border_bottom, border_height. lra.
    + destruct (IH i f ltac:(assumption) E V) as [K1 K2]. split; [|exact K2]. unfold border_bottom, border_height in *. lra.
Qed.
Lemma stacked_order : forall l y i j f g, stacked y l -> tidy l -> (i < j)%nat -> nth_error l i = Some f -> nth_error l j = Some g ->
  visible f -> visible g -> fragment_bottom f <= fragment_top g.
Proof.
  intros l y i j f g H. revert i j f g. induction H as [y|y r m l H IH|y r m c l H1 H2 H IH|y b c l H1 H IH]; intros i j f g T L Ei Ej Vf Vg.
  - destruct i; discriminate Ei.
  - inversion T; subst. destruct j as [|j]; [lia|]. destruct i as [|i]; cbn [nth_error] in Ei, Ej; [injection Ei as <-; contradiction Vf; reflexivity|].
    apply (IH i j f g); try assumption; lia.
  - inversion T; subst. destruct j as [|j]; [lia|]. destruct i as [|i]; cbn [nth_error] in Ei, Ej.
    + injection Ei as <-. apply (stacked_nth l _ j g H); assumption.
    + apply (IH i j f g); try assumption; lia.
  - inversion T; subst. destruct j as [|j]; [lia|]. destruct i as [|i]; cbn [nth_error] in Ei, Ej.
    + injection Ei as <-. apply (stacked_nth l _ j g H); assumption.
    + apply (IH i j f g); try assumption; lia.
Qed.
(** What is inside begins no higher, and ends no lower. *)
Lemma appears_below : forall l p t z, appears l p t z -> forall y, stacked y l -> tidy l -> y <= t.
Proof.
  intros l p t z H. induction H as [l i b c E|l i r m c E V|l i b c p t z E H IH]; intros y S T.
  - exact (proj1 (stacked_nth l y i (FBox b c) S T E I)).
  - exact (proj1 (stacked_nth l y i (FAnonymous r m c) S T E V)).
  - pose proof (proj1 (stacked_nth l y i (FBox b c) S T E I)) as K. cbn [fragment_top] in K.
    destruct (tidy_nth l i b c T E) as (T1 & T2 & T3 & T4 & T5 & T6). specialize (IH 0 T4 T6). unfold border_top in K. lra.
Qed.
Lemma appears_first : forall l i p t z, appears l (i :: p) t z -> forall y, stacked y l -> tidy l ->
  exists f, nth_error l i = Some f /\ visible f /\ fragment_top f <= t.
Proof.
  intros l i p t z H y S T. inversion H as [? ? b c E|? ? r m c E V|? ? b c ? t' z' E H']; subst.
  - exists (FBox b c). split; [exact E|]. split; [exact I|apply Qle_refl].
  - exists (FAnonymous r m c). split; [exact E|]. split; [exact V|apply Qle_refl].
  - exists (FBox b c). split; [exact E|]. split; [exact I|]. destruct (tidy_nth l i b c T E) as (T1 & T2 & T3 & T4 & T5 & T6).
    pose proof (appears_below c p t' z' H' 0 T4 T6). cbn [fragment_top]. unfold border_top. lra.
Qed.
Lemma appears_above : forall l p t z, appears l p t z -> forall y Z, stacked y l -> tidy l -> heights_auto l ->
  Forall (ends_above Z) l -> t < z -> z <= Z.
Proof.
  intros l p t z H. induction H as [l i b c E|l i r m c E V|l i b c p t z E H IH]; intros y Z S T A F L.
  - pose proof (ends_above_nth _ _ _ _ F E) as K. cbn [ends_above] in K. apply K. unfold border_bottom in L. lra.
  - pose proof (ends_above_nth _ _ _ _ F E) as K. cbn [ends_above] in K. destruct c; [contradiction V; reflexivity|exact K].
  - destruct (tidy_nth l i b c T E) as (T1 & T2 & T3 & T4 & T5 & T6). destruct (heights_auto_nth l i b c A E) as [A1 A2].
    pose proof (appears_below c p t z H 0 T4 T6) as K0.
    pose proof (IH 0 (content_height b) T4 T6 A2 (T5 A1) ltac:(lra)) as K1.
    pose proof (ends_above_nth _ _ _ _ F E) as K. cbn [ends_above] in K. unfold border_bottom, border_top, border_height in K.
    assert (0 < pb_start b + content_height b + pb_end b) by lra. specialize (K ltac:(assumption)). lra.
Qed.
Lemma appears_last : forall l i p t z, appears l (i :: p) t z -> forall y, stacked y l -> tidy l -> heights_auto l -> t < z ->
  exists f, nth_error l i = Some f /\ visible f /\ z <= fragment_bottom f.
Proof.
  intros l i p t z H y S T A L. inversion H as [? ? b c E|? ? r m c E V|? ? b c ? t' z' E H']; subst.
  - exists (FBox b c). split; [exact E|]. split; [exact I|apply Qle_refl].
  - exists (FAnonymous r m c). split; [exact E|]. split; [exact V|apply Qle_refl].
  - exists (FBox b c). split; [exact E|]. split; [exact I|]. destruct (tidy_nth l i b c T E) as (T1 & T2 & T3 & T4 & T5 & T6).
    destruct (heights_auto_nth l i b c A E) as [A1 A2].
    pose proof (appears_above c p t' z' H' 0 (content_height b) T4 T6 A2 (T5 A1) ltac:(lra)).
    cbn [fragment_bottom]. unfold border_bottom, border_top, border_height. lra.
Qed.
Lemma no_overlap : forall l p q t z t' z', appears l p t z -> appears l q t' z' -> comes_before p q ->
  forall y, stacked y l -> tidy l -> heights_auto l -> t < z -> z <= t'.
Proof.
  intros l p q t z t' z' Hp Hq B. revert l t z t' z' Hp Hq. induction B as [i j p q L|i p q B IH]; intros l t z t' z' Hp Hq y S T A Lt.
  - destruct (appears_last l i p t z Hp y S T A Lt) as (f & E1 & V1 & K1).
    destruct (appears_first l j q t' z' Hq y S T) as (g & E2 & V2 & K2).
    pose proof (stacked_order l y i j f g S T L E1 E2 V1 V2). lra.
  - inversion Hp as [| |? ? b c ? t1 z1 E H1]; subst; try solve [inversion B].
    inversion Hq as [| |? ? b' c' ? t2 z2 E' H2]; subst; try solve [inversion B].
    rewrite E in E'. injection E' as <- <-. destruct (tidy_nth l i b c T E) as (_ & _ & _ & T4 & T5 & T6).
    destruct (heights_auto_nth l i b c A E) as [A1 A2]. pose proof (IH c t1 z1 t2 z2 H1 H2 0 T4 T6 A2 ltac:(lra)). lra.
Qed.
