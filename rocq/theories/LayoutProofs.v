(** Proofs about margins and the block axis. *)
From Coq Require Import QArith Qminmax Lqa.
From Verif Require Import Base Dom StyleValues StyleProperties PdfConvert Geom Text LayoutTree Layout LayoutSpec.
Local Open Scope Q_scope.

(** ** Induction on boxes *)
Section BoxInd.
Variable Pc : block_container -> Prop.
Variable Pb : block_level_box -> Prop.
Variable Pf : block_formatting_context -> Prop.
Variable Pi : inline_level_box -> Prop.
Hypothesis Hblocks : forall l, Forall Pb l -> Pc (BlockLevelBoxes l).
Hypothesis Hinlines : forall l, Forall Pi l -> Pc (InlineFormattingContext l).
Hypothesis Hsame : forall s c, Pc c -> Pb (SameFormattingContextBlock s c).
Hypothesis Habs : forall s c, Pf c -> Pb (OutOfFlowAbsolutelyPositionedBox s c).
Hypothesis Hfloat : forall s c, Pf c -> Pb (OutOfFlowFloatBox s c).
Hypothesis Hindep : forall s c, Pf c -> Pb (Independent s c).
Hypothesis Hbfc : forall c f, Pc c -> Pf (BFC c f).
Hypothesis Hinline : forall s f l children, Forall Pi children -> Pi (InlineBox s f l children).
Hypothesis Htext : forall s t, Pi (TextRun s t).
Hypothesis Hiabs : forall s c, Pf c -> Pi (InlineAbsolutelyPositionedBox s c).
Hypothesis Hifloat : forall s c, Pf c -> Pi (InlineFloatBox s c).
Fixpoint container_ind (c : block_container) : Pc c :=
  match c with
  | BlockLevelBoxes l =>
      Hblocks l ((fix go l : Forall Pb l :=
        match l with [] => Forall_nil _ | b :: r => Forall_cons b (block_box_ind b) (go r) end) l)
  | InlineFormattingContext l =>
      Hinlines l ((fix go l : Forall Pi l :=
        match l with [] => Forall_nil _ | b :: r => Forall_cons b (inline_box_ind b) (go r) end) l)
  end
with block_box_ind (b : block_level_box) : Pb b :=
  match b with
  | SameFormattingContextBlock s c => Hsame s c (container_ind c)
  | OutOfFlowAbsolutelyPositionedBox s c => Habs s c (bfc_ind c)
  | OutOfFlowFloatBox s c => Hfloat s c (bfc_ind c)
  | Independent s c => Hindep s c (bfc_ind c)
  end
with bfc_ind (c : block_formatting_context) : Pf c :=
  match c with BFC c f => Hbfc c f (container_ind c) end
with inline_box_ind (b : inline_level_box) : Pi b :=
  match b with
  | InlineBox s f l children =>
      Hinline s f l children ((fix go l : Forall Pi l :=
        match l with [] => Forall_nil _ | b :: r => Forall_cons b (inline_box_ind b) (go r) end) children)
  | TextRun s t => Htext s t
  | InlineAbsolutelyPositionedBox s c => Hiabs s c (bfc_ind c)
  | InlineFloatBox s c => Hifloat s c (bfc_ind c)
  end.
Lemma boxes_ind : (forall c, Pc c) /\ (forall b, Pb b) /\ (forall c, Pf c) /\ (forall b, Pi b).
Proof. split; [|split; [|split]]. exact container_ind. exact block_box_ind. exact bfc_ind. exact inline_box_ind. Qed.
End BoxInd.

(** ** Margins *)
Definition top_of (l : list Q) : Q := fold_right Qmax 0 l.
Definition bottom_of (l : list Q) : Q := fold_right Qmin 0 l.
Definition rep (l : list Q) (m : collapsed_margin) : Prop :=
  max_positive m == top_of l /\ min_negative m == bottom_of l.

Lemma top_nonneg : forall l, 0 <= top_of l.
Proof. induction l as [|m l IH]; cbn [top_of fold_right]. lra. fold (top_of l). pose proof (Q.le_max_r m (top_of l)). lra. Qed.
Lemma bottom_nonpos : forall l, bottom_of l <= 0.
Proof. induction l as [|m l IH]; cbn [bottom_of fold_right]. lra. fold (bottom_of l). pose proof (Q.le_min_r m (bottom_of l)). lra. Qed.

Lemma max_case : forall a b, (a <= b /\ Qmax a b == b) \/ (b <= a /\ Qmax a b == a).
Proof. intros a b. destruct (Qlt_le_dec a b) as [h|h]. left; split; [lra|apply Q.max_r; lra]. right; split; [lra|apply Q.max_l; lra]. Qed.
Lemma min_case : forall a b, (a <= b /\ Qmin a b == a) \/ (b <= a /\ Qmin a b == b).
Proof. intros a b. destruct (Qlt_le_dec a b) as [h|h]. left; split; [lra|apply Q.min_l; lra]. right; split; [lra|apply Q.min_r; lra]. Qed.

Ltac qmm :=
  repeat match goal with
  | |- context [Qmax ?a ?b] => let h := fresh "h" in destruct (max_case a b) as [h|h]; let e := fresh "e" in destruct h as [h e]; rewrite ?e; clear e
  | |- context [Qmin ?a ?b] => let h := fresh "h" in destruct (min_case a b) as [h|h]; let e := fresh "e" in destruct h as [h e]; rewrite ?e; clear e
  end; try lra.

Lemma top_app : forall a b, top_of (a ++ b) == Qmax (top_of a) (top_of b).
Proof.
  induction a as [|m a IH]; intros b.
  - cbn [app top_of fold_right]. pose proof (top_nonneg b). symmetry. apply Q.max_r. exact H.
  - cbn [app]. change (top_of (m :: a ++ b)) with (Qmax m (top_of (a ++ b))).
    change (top_of (m :: a)) with (Qmax m (top_of a)). rewrite IH. apply Q.max_assoc.
Qed.
Lemma bottom_app : forall a b, bottom_of (a ++ b) == Qmin (bottom_of a) (bottom_of b).
Proof.
  induction a as [|m a IH]; intros b.
  - cbn [app bottom_of fold_right]. pose proof (bottom_nonpos b). symmetry. apply Q.min_r. exact H.
  - cbn [app]. change (bottom_of (m :: a ++ b)) with (Qmin m (bottom_of (a ++ b))).
    change (bottom_of (m :: a)) with (Qmin m (bottom_of a)). rewrite IH. apply Q.min_assoc.
Qed.
Lemma rep_nil : rep [] cm_zero.
Proof. split; reflexivity. Qed.
Lemma rep_new : forall m, rep [m] (cm_new m).
Proof. intros. split; reflexivity. Qed.
Lemma rep_adjoin : forall a b x y, rep a x -> rep b y -> rep (a ++ b) (adjoin x y).
Proof.
  intros a b x y (H1 & H2) (H3 & H4). split; cbn [adjoin max_positive min_negative].
  - rewrite H1, H3. symmetry. apply top_app.
  - rewrite H2, H4. symmetry. apply bottom_app.
Qed.
Lemma rep_solve : forall a x, rep a x -> solve x == collapse a.
Proof. intros a x (H1 & H2). unfold solve, collapse. fold (top_of a) (bottom_of a). rewrite H1, H2. reflexivity. Qed.
Lemma collapse_app_comm : forall a b, collapse (a ++ b) == collapse (b ++ a).
Proof.
  intros. unfold collapse. fold (top_of (a ++ b)) (top_of (b ++ a)) (bottom_of (a ++ b)) (bottom_of (b ++ a)).
  rewrite !top_app, !bottom_app. rewrite (Q.max_comm (top_of b)), (Q.min_comm (bottom_of b)). reflexivity.
Qed.
Lemma rep_comm : forall a b x, rep (a ++ b) x -> rep (b ++ a) x.
Proof.
  intros a b x (H1 & H2). split.
  - rewrite H1, !top_app. apply Q.max_comm.
  - rewrite H2, !bottom_app. apply Q.min_comm.
Qed.

(** ** Distances *)
Definition run_value (run : option (list Q)) : Q := match run with None => 0 | Some ms => collapse ms end.
Definition run_eq (a b : option (list Q)) : Prop :=
  match a, b with
  | None, None => True
  | Some x, Some y => top_of x == top_of y /\ bottom_of x == bottom_of y
  | _, _ => False
  end.
Lemma run_eq_value : forall a b, run_eq a b -> run_value a == run_value b.
Proof.
  intros [x|] [y|] H; cbn in H |- *; try contradiction; [|reflexivity].
  destruct H as [H1 H2]. unfold collapse. fold (top_of x) (top_of y) (bottom_of x) (bottom_of y). rewrite H1, H2. reflexivity.
Qed.
Lemma distance_run_eq : forall l a b, run_eq a b -> distance a l == distance b l.
Proof.
  induction l as [|i l IH]; intros a b H; cbn [distance].
  - exact (run_eq_value a b H).
  - destruct i as [m|h].
    + apply IH. destruct a as [x|], b as [y|]; cbn [run_eq] in H |- *; try contradiction; [|exact I].
      destruct H as [H1 H2]. split.
      * change (Qmax m (top_of x) == Qmax m (top_of y)). rewrite H1. reflexivity.
      * change (Qmin m (bottom_of x) == Qmin m (bottom_of y)). rewrite H2. reflexivity.
    + pose proof (run_eq_value a b H) as E. unfold run_value in E. rewrite E. reflexivity.
Qed.
Lemma distance_height : forall a run h r,
  distance run (a ++ Height h :: r) == distance run a + h + distance (Some []) r.
Proof.
  induction a as [|i a IH]; intros run h r; cbn [app distance].
  - reflexivity.
  - destruct i as [m|k].
    + apply IH.
    + rewrite IH. lra.
Qed.
Lemma distance_margins_none : forall t, distance None (map Margin t) == 0.
Proof. induction t as [|m t IH]; cbn [map distance]. reflexivity. exact IH. Qed.
Lemma distance_margins_some : forall t ms, distance (Some ms) (map Margin t) == collapse (t ++ ms).
Proof.
  induction t as [|m t IH]; intros ms; cbn [map distance app].
  - reflexivity.
  - rewrite IH. unfold collapse. change (fold_right Qmax 0) with top_of. change (fold_right Qmin 0) with bottom_of.
    change (top_of (m :: t ++ ms)) with (Qmax m (top_of (t ++ ms))).
    change (bottom_of (m :: t ++ ms)) with (Qmin m (bottom_of (t ++ ms))).
    rewrite !top_app, !bottom_app.
    change (top_of (m :: ms)) with (Qmax m (top_of ms)). change (bottom_of (m :: ms)) with (Qmin m (bottom_of ms)).
    rewrite !Q.max_assoc, !Q.min_assoc. rewrite (Q.max_comm (top_of t) m), (Q.min_comm (bottom_of t) m). reflexivity.
Qed.
Lemma distance_margins_first : forall t ms r,
  distance (Some ms) (map Margin t ++ Height r :: []) == collapse (t ++ ms) + r.
Proof. intros. rewrite distance_height, distance_margins_some. cbn [distance]. unfold collapse at 2. cbn [fold_right]. lra. Qed.

(** The end of a list of items: [l] is [s] and then the margins [t], [s] ending with a height *)
Definition ends_in_height (s : list item) : Prop := s = [] \/ exists s' h, s = s' ++ [Height h].
Fixpoint trailing (l : list item) : list Q :=
  match l with
  | [] => []
  | i :: r => match i, strip r with Margin m, [] => m :: trailing r | _, _ => trailing r end
  end.
Lemma strip_trailing : forall l, l = strip l ++ map Margin (trailing l).
Proof.
  induction l as [|i l IH]; cbn [strip trailing]; [reflexivity|].
  destruct i as [m|h].
  - destruct (strip l) as [|x xs] eqn:E; cbn [app map].
    + rewrite IH at 1. reflexivity.
    + rewrite IH at 1. reflexivity.
  - cbn [app]. rewrite IH at 1. reflexivity.
Qed.
Lemma strip_ends : forall l, ends_in_height (strip l).
Proof.
  induction l as [|i l IH]; cbn [strip]; [left; reflexivity|].
  destruct IH as [E|(s & h & E)].
  - destruct i as [m|h]; rewrite E; [left; reflexivity|right; exists [], h; reflexivity].
  - right. destruct i as [m|k]; rewrite E.
    + destruct (s ++ [Height h]) eqn:F; [destruct s; discriminate F|]. exists (Margin m :: s), h. cbn [app]. rewrite F. reflexivity.
    + exists (Height k :: s), h. reflexivity.
Qed.
Lemma strip_margins : forall t, strip (map Margin t) = [].
Proof. induction t as [|m t IH]; cbn [map strip]; [reflexivity|]. rewrite IH. reflexivity. Qed.
Lemma trailing_margins : forall t, trailing (map Margin t) = t.
Proof. induction t as [|m t IH]; cbn [map trailing]; [reflexivity|]. rewrite strip_margins, IH. reflexivity. Qed.
Lemma strip_height : forall a h t, strip (a ++ Height h :: map Margin t) = a ++ [Height h].
Proof.
  induction a as [|i a IH]; intros h t; cbn [app strip].
  - rewrite strip_margins. reflexivity.
  - rewrite IH. destruct i; [destruct (a ++ [Height h]) eqn:E; [destruct a; discriminate E|]|]; reflexivity.
Qed.
Lemma trailing_height : forall a h t, trailing (a ++ Height h :: map Margin t) = t.
Proof.
  induction a as [|i a IH]; intros h t; cbn [app trailing].
  - apply trailing_margins.
  - rewrite IH, strip_height. destruct i; [destruct (a ++ [Height h]) eqn:E; [destruct a; discriminate E|]|]; reflexivity.
Qed.
Lemma leading_margins : forall t, leading (map Margin t) = t.
Proof. induction t as [|m t IH]; cbn [map leading]; [reflexivity|]. rewrite IH. reflexivity. Qed.
Lemma leading_app_height : forall t h r, leading (map Margin t ++ Height h :: r) = t.
Proof. induction t as [|m t IH]; intros; cbn [map app leading]; [reflexivity|]. rewrite IH. reflexivity. Qed.
Lemma leading_split : forall l, strip l <> [] -> exists h r, l = map Margin (leading l) ++ Height h :: r.
Proof.
  induction l as [|i l IH]; intros H; [contradiction H; reflexivity|].
  destruct i as [m|h].
  - cbn [strip] in H. destruct (strip l) eqn:E; [contradiction H; reflexivity|].
    destruct IH as (h & r & F); [discriminate|]. exists h, r. cbn [leading map app]. rewrite F at 1. reflexivity.
  - exists h, l. reflexivity.
Qed.
Lemma no_heights : forall l, strip l = [] -> l = map Margin (leading l) /\ trailing l = leading l.
Proof.
  intros l H. pose proof (strip_trailing l) as E. rewrite H in E. cbn [app] in E.
  rewrite E. rewrite leading_margins, trailing_margins. split; reflexivity.
Qed.
Lemma leading_app_no : forall a b, strip a = [] -> leading (a ++ b) = leading a ++ leading b.
Proof.
  intros a b H. destruct (no_heights a H) as [E _]. rewrite E. rewrite leading_margins.
  generalize (leading a). intro t. induction t as [|m t IH]; cbn [map app leading]; [reflexivity|]. rewrite IH. reflexivity.
Qed.
Lemma leading_app_yes : forall a b, strip a <> [] -> leading (a ++ b) = leading a.
Proof.
  intros a b H. destruct (leading_split a H) as (h & r & E). rewrite E at 1.
  rewrite <- app_assoc. cbn [app]. apply leading_app_height.
Qed.
Lemma strip_app : forall a b, strip (a ++ b) = match strip b with [] => strip a | _ => a ++ strip b end.
Proof.
  intros a b. rewrite (strip_trailing b) at 1. destruct (strip_ends b) as [E|(s & h & E)]; rewrite E.
  - cbn [app]. rewrite (strip_trailing a) at 1. rewrite <- app_assoc, <- map_app.
    destruct (strip_ends a) as [F|(s & h & F)]; rewrite F.
    + cbn [app]. apply strip_margins.
    + rewrite <- app_assoc. cbn [app]. apply strip_height.
  - destruct (s ++ [Height h]) eqn:F; [destruct s; discriminate F|]. rewrite <- F.
    rewrite <- app_assoc. cbn [app]. rewrite app_assoc. rewrite strip_height. rewrite <- app_assoc. reflexivity.
Qed.
Lemma trailing_app : forall a b, trailing (a ++ b) = match strip b with [] => trailing a ++ trailing b | _ => trailing b end.
Proof.
  intros a b. rewrite (strip_trailing b) at 1. destruct (strip_ends b) as [E|(s & h & E)]; rewrite E.
  - cbn [app]. rewrite (strip_trailing a) at 1. rewrite <- app_assoc, <- map_app.
    destruct (strip_ends a) as [F|(s & h & F)]; rewrite F.
    + cbn [app]. apply trailing_margins.
    + rewrite <- app_assoc. cbn [app]. apply trailing_height.
  - destruct (s ++ [Height h]) eqn:F; [destruct s; discriminate F|]. rewrite <- F.
    rewrite <- app_assoc. cbn [app]. rewrite app_assoc. apply trailing_height.
Qed.
(** The distance to the end of [l] and of more margins *)
Lemma distance_end : forall run l t,
  run = Some [] \/ strip l <> [] ->
  distance run (l ++ map Margin t) == distance run (strip l) + collapse (trailing l ++ t).
Proof.
  intros run l t H. rewrite (strip_trailing l) at 1. rewrite <- app_assoc, <- map_app.
  destruct (strip_ends l) as [E|(s & h & E)]; rewrite E.
  - destruct H as [->|H]; [|contradiction].
    cbn [app distance]. rewrite distance_margins_some, app_nil_r. unfold collapse at 2. cbn [fold_right]. lra.
  - rewrite <- app_assoc. cbn [app]. rewrite !distance_height, distance_margins_some, app_nil_r. cbn [distance].
    unfold collapse at 2. cbn [fold_right]. lra.
Qed.
