(** White space that does not show makes no difference to boxes. *)
From Coq Require Import Lia.
From Verif Require Import Base Dom DomSpec FontCmap StyleValues StyleProperties LayoutTree BoxTree BoxTreeSpec BoxTextProofs BoxTreeProofs BoxShapeProofs WhiteSpec.
Local Open Scope nat_scope.

(** ** Texts *)
Lemma collapse_twice : forall t b, collapse b (collapse b t) = collapse b t.
Proof.
  induction t as [|c t IH]; intros b; [reflexivity|]. cbn [collapse]. destruct (is_space c) eqn:E.
  - destruct b; [apply IH|]. cbn [collapse]. rewrite space_32. f_equal. apply IH.
  - cbn [collapse]. rewrite E. f_equal. apply IH.
Qed.
Lemma collapse_strip : forall t, collapse true t = match collapse false t with c :: r => if (c =? 32)%N then r else c :: r | [] => [] end.
Proof.
  intros [|c t]; [reflexivity|]. cbn [collapse]. destruct (is_space c) eqn:E; [reflexivity|]. rewrite (nonspace_not_32 c E). reflexivity.
Qed.
Lemma same_text_any : forall t t' b, same_text t t' -> collapse b t = collapse b t'.
Proof. intros t t' [|] H; [|exact H]. rewrite !collapse_strip, H. reflexivity. Qed.
Lemma spaced_collapse : forall t b, spaced b (collapse b t) = ends b t.
Proof. intros t b. exact (after_collapse t b). Qed.
Lemma spaced_app : forall a b t, spaced b (a ++ t) = spaced (spaced b a) t.
Proof. intros a b t. unfold spaced. rewrite rev_app_distr. destruct (rev t); reflexivity. Qed.
Lemma collapse_app' : forall x b y, collapse b (x ++ y) = collapse b x ++ collapse (spaced b (collapse b x)) y.
Proof. intros x b y. rewrite spaced_collapse. apply collapse_app. Qed.
Lemma same_text_app : forall a a' b b', same_text a a' -> same_text b b' -> same_text (a ++ b) (a' ++ b').
Proof.
  intros a a' b b' Ha Hb. unfold same_text in *. rewrite !collapse_app', Ha. f_equal. apply same_text_any. exact Hb.
Qed.
Lemma same_text_nil : forall t t', same_text t t' -> (t = [] <-> t' = []).
Proof. intros t t' H. rewrite <- (collapse_false_nil t), <- (collapse_false_nil t'), H. reflexivity. Qed.
(** Characters and their bytes *)
Lemma high_nonspace : forall b, (128 <= b)%N -> is_space b = false.
Proof. intros b H. unfold is_space. cbn [existsb]. repeat (rewrite (proj2 (N.eqb_neq _ _)) by lia). reflexivity. Qed.
Lemma utf8_space : forall c, is_space c = true -> utf8 c = [c].
Proof.
  intros c H. unfold is_space in H. cbn [existsb] in H. rewrite !orb_true_iff, !N.eqb_eq in H.
  destruct H as [->|[->|[->|[->|[->|H]]]]]; [reflexivity..|discriminate H].
Qed.
Ltac over128 := match goal with |- (128 <= _ + ?x)%N => generalize x; intros ?; lia end.
Lemma utf8_nonspace : forall c, is_space c = false -> utf8 c <> [] /\ forall b, In b (utf8 c) -> is_space b = false.
Proof.
  intros c H. unfold utf8. destruct (c <? 128)%N; [split; [discriminate|]; intros b [<-|[]]; exact H|].
  destruct (c <? 2048)%N; [split; [discriminate|]; intros b [<-|[<-|[]]]; apply high_nonspace; over128|].
  destruct (c <? 65536)%N; (split; [discriminate|]).
  - intros b [<-|[<-|[<-|[]]]]; apply high_nonspace; over128.
  - intros b [<-|[<-|[<-|[<-|[]]]]]; apply high_nonspace; over128.
Qed.
Lemma collapse_utf8 : forall u b, collapse b (flat_map utf8 u) = flat_map utf8 (collapse b u).
Proof.
  induction u as [|c u IH]; intros b; [reflexivity|]. cbn [flat_map collapse]. destruct (is_space c) eqn:E.
  - rewrite (utf8_space c E). cbn [app collapse]. rewrite E. destruct b; [apply IH|]. cbn [flat_map]. rewrite IH. reflexivity.
  - destruct (utf8_nonspace c E) as [N Hb]. rewrite (collapse_nonspace (utf8 c) _ b Hb N). cbn [flat_map]. rewrite IH. reflexivity.
Qed.
Lemma collapse_chars : forall u b, Forall (fun c => is_char c = true) u -> Forall (fun c => is_char c = true) (collapse b u).
Proof.
  induction u as [|c u IH]; intros b F; [constructor|]. apply Forall_cons_iff in F as [Fc F]. cbn [collapse].
  destruct (is_space c); [destruct b|]; [auto|constructor; [reflexivity|auto]|constructor; [exact Fc|auto]].
Qed.
Lemma same_text_chars : forall t t' u u', same_text t t' -> encodes t u -> encodes t' u' -> same_text u u'.
Proof.
  intros t t' u u' H [F <-] [F' <-]. unfold same_text in *. rewrite !collapse_utf8 in H.
  apply (encodes_unique (flat_map utf8 (collapse false u))); split; try (apply collapse_chars; assumption); [reflexivity|symmetry; exact H].
Qed.

(** ** Contents *)
Lemma tight_box : forall b s e inside, tight b (CBox s e inside) = CBox s e (tight_all true inside).
Proof. reflexivity. Qed.
Definition left_after (b : bool) (l : list content) : bool := fold_left passed l b.
Lemma tight_all_app : forall a b r, tight_all b (a ++ r) = tight_all b a ++ tight_all (left_after b (tight_all b a)) r.
Proof. induction a as [|x a IH]; intros b r; [reflexivity|]. cbn [app tight_all]. rewrite IH. reflexivity. Qed.
Lemma in_flow_block_ok : forall s, in_flow_block s = true <-> exists i, block_style i s.
Proof.
  intros s. unfold in_flow_block, block_style. split.
  - intros H. destruct (get s display_) as [| |[|] i]; try discriminate H. exists i. split; [reflexivity|].
    destruct (get s position_); destruct (get s float_); try discriminate H; (split; [discriminate|reflexivity]).
  - intros (i & -> & P & ->). destruct (get s position_); [reflexivity|reflexivity|contradiction].
Qed.
Lemma left_inline : forall l b, (forall x, In x l -> ~ block_content x) -> left_after b l = spaced b (flat_map inline_text l).
Proof.
  induction l as [|x l IH]; intros b H; [reflexivity|]. cbn [left_after fold_left flat_map]. rewrite spaced_app.
  change (fold_left passed l (passed b x)) with (left_after (passed b x) l). rewrite IH by (intros y I; apply H; right; exact I). f_equal.
  destruct x as [s t|s e i]; cbn [passed inline_text]; [reflexivity|]. destruct (is_inline s); [reflexivity|].
  destruct (in_flow_block s) eqn:E; [|reflexivity]. apply in_flow_block_ok in E. destruct (H _ (or_introl eq_refl) E).
Qed.
Lemma tight_not_block : forall x b, block_content (tight b x) <-> block_content x.
Proof. intros [s t|s e i] b; [reflexivity|]. rewrite tight_box. reflexivity. Qed.
Lemma tight_all_in : forall l b y, In y (tight_all b l) -> exists x b', In x l /\ y = tight b' x.
Proof.
  induction l as [|x l IH]; intros b y I; [destruct I|]. cbn [tight_all] in I. destruct I as [<-|I]; [exists x, b; split; [left|]; reflexivity|].
  destruct (IH _ _ I) as (z & b' & Iz & E). exists z, b'. split; [right; exact Iz|exact E].
Qed.
Lemma in_tight_all : forall l b x, In x l -> exists b', In (tight b' x) (tight_all b l).
Proof.
  induction l as [|y l IH]; intros b x I; [destruct I|]. cbn [tight_all]. destruct I as [<-|I]; [exists b; left; reflexivity|].
  destruct (IH (passed b (tight b y)) x I) as (b' & I'). exists b'. right. exact I'.
Qed.
Lemma in_tight_box : forall cs b s e i, In (CBox s e i) (tight_all b cs) -> exists i', In (CBox s e i') cs /\ i = tight_all true i'.
Proof.
  intros cs b s e i H. apply tight_all_in in H as ([s' t|s' e' i'] & b' & Ic & E); [discriminate E|]. rewrite tight_box in E. injection E as <- <- ->. eauto.
Qed.
Lemma in_box_tight : forall cs b s e i, In (CBox s e i) cs -> In (CBox s e (tight_all true i)) (tight_all b cs).
Proof. intros cs b s e i H. destruct (in_tight_all cs b _ H) as (b' & I). exact I. Qed.
Lemma floats_tight : forall cs b, floats_in (tight_all b cs) <-> floats_in cs.
Proof.
  intros cs b. split; intros H.
  - remember (tight_all b cs) as l eqn:E. revert cs b E. induction H as [l s e i I Hs|l s e i I Hs H IH]; intros cs b ->.
    + apply in_tight_box in I as (i' & I & _). exact (fi_here _ _ _ _ I Hs).
    + apply in_tight_box in I as (i' & I & ->). exact (fi_inside _ _ _ _ I Hs (IH _ _ eq_refl)).
  - revert b. induction H as [cs s e i I Hs|cs s e i I Hs H IH]; intros b.
    + exact (fi_here _ _ _ _ (in_box_tight _ b _ _ _ I) Hs).
    + exact (fi_inside _ _ _ _ (in_box_tight _ b _ _ _ I) Hs (IH true)).
Qed.
Lemma unbuildable_tight : forall cs b, unbuildable (tight_all b cs) <-> unbuildable cs.
Proof.
  intros cs b. split; intros H.
  - remember (tight_all b cs) as l eqn:E. revert cs b E. induction H as [l s e i I Hs|l s e i c I Hs Ic Hc|l s e i I H IH]; intros cs b ->;
      apply in_tight_box in I as (i' & I & ->).
    + exact (ub_inline_block _ _ _ _ I Hs).
    + apply tight_all_in in Ic as (x & b' & Ix & ->). apply tight_not_block in Hc. exact (ub_block_in_inline _ _ _ _ _ I Hs Ix Hc).
    + exact (ub_deeper _ _ _ _ I (IH _ _ eq_refl)).
  - revert b. induction H as [cs s e i I Hs|cs s e i c I Hs Ic Hc|cs s e i I H IH]; intros b; apply (in_box_tight _ b) in I.
    + exact (ub_inline_block _ _ _ _ I Hs).
    + destruct (in_tight_all i true c Ic) as (b' & I'). apply (ub_block_in_inline _ _ _ _ _ I Hs I'). apply tight_not_block. exact Hc.
    + exact (ub_deeper _ _ _ _ I (IH true)).
Qed.
(** Pieces *)
Definition tight_piece (p : piece) : piece := match p with PParagraph l => PParagraph (tight_all true l) | PBox c => PBox (tight true c) end.
Lemma collapse_has : forall t b, (exists ch, In ch t /\ is_space ch = false) -> exists ch, In ch (collapse b t) /\ is_space ch = false.
Proof.
  induction t as [|c t IH]; intros b (ch & I & N); [destruct I|]. cbn [collapse]. destruct (is_space c) eqn:E.
  - assert (X : exists ch, In ch t /\ is_space ch = false) by (destruct I as [->|I]; [congruence|eauto]).
    destruct (IH true X) as (k & Ik & Nk). destruct b; exists k; (split; [|exact Nk]); [exact Ik|right; exact Ik].
  - exists c. split; [left; reflexivity|exact E].
Qed.
Lemma pieces_tight : forall cs ps, pieces cs ps -> forall b, (b = true \/ match cs with [] => True | x :: _ => block_content x end) ->
  pieces (tight_all b cs) (map tight_piece ps).
Proof.
  intros cs ps H. induction H as [|c r ps B H IH|c r ps B H IH|c p r ps S1 S2 S3 H IH]; intros b Hb.
  - apply pc_nil.
  - destruct c as [s t|s e i]; [|destruct B]. destruct Hb as [->|[]]. cbn [tight_all tight]. cbn [blank] in B.
    rewrite (proj2 (BoxTextProofs.collapse_nil t) B). apply pc_blank; [intros ch []|]. apply IH. left. reflexivity.
  - destruct c as [s t|s e i]; [destruct B as [[]|[]]|]. cbn [tight_all map tight_piece]. rewrite !tight_box. apply pc_box; [exact B|]. apply IH. left.
    cbn [passed]. destruct B as [B|B].
    + rewrite (proj2 (in_flow_block_ok s) B). assert (is_inline s = false) as ->; [|reflexivity]. destruct B as (k & Bd & _). unfold is_inline. rewrite Bd. reflexivity.
    + assert (is_inline s = false) as ->. { destruct B as [[(k & Bd) _]|[(k & Bd) _]]; unfold is_inline; rewrite Bd; reflexivity. }
      destruct Hb as [->|Hb]; [destruct (in_flow_block s); reflexivity|]. apply in_flow_block_ok in Hb. rewrite Hb. reflexivity.
  - assert (b = true) as ->. { destruct Hb as [->|Hb]; [reflexivity|]. exfalso. cbn [app] in Hb. apply (starts_box c S1). left. exact Hb. }
    rewrite tight_all_app. cbn [map tight_piece]. cbn [tight_all]. apply pc_paragraph.
    + destruct c as [s t|s e i]; [exact (collapse_has t true S1)|exact S1].
    + intros y I. apply tight_all_in in I as (x & b' & Ix & ->). rewrite tight_not_block. exact (S2 x Ix).
    + destruct r as [|x r]; [exact I|]. cbn [tight_all]. apply tight_not_block. exact S3.
    + apply IH. destruct r as [|x r]; right; [exact I|exact S3].
Qed.
(** The same boxes *)
Lemma out_not_inline : forall s, absolute_style s \/ float_style s -> is_inline s = false.
Proof. intros s [[(k & Bd) _]|[(k & Bd) _]]; unfold is_inline; rewrite Bd; reflexivity. Qed.
Lemma out_not_block : forall s e i, absolute_style s \/ float_style s -> ~ block_content (CBox s e i).
Proof. intros s e i [[_ P]|[_ [_ P]]] (k & B1 & B2 & B3); contradiction. Qed.
Lemma inline_not_block : forall s e i, inline_style s -> ~ block_content (CBox s e i).
Proof. intros s e i H (k & B & _). unfold inline_style in H. congruence. Qed.
Definition level_ok (cs : list content) (l : list inline_level_box) : Prop :=
  level (tight_all true cs) l /\ flat_map inline_text (tight_all true cs) = text_so_far l /\ forall x, In x (tight_all true cs) -> ~ block_content x.
Lemma level_ok_snoc : forall cs l x l', level_ok cs l ->
  let y := tight (after_space (text_so_far l)) x in
  ~ block_content x -> text_so_far l' = text_so_far l ++ inline_text y ->
  level (tight_all true cs ++ [y]) l' -> level_ok (cs ++ [x]) l'.
Proof.
  intros cs l x l' (Lv & Tx & Nb) y Nx Ty Ly.
  assert (E : tight_all true (cs ++ [x]) = tight_all true cs ++ [y]).
  { rewrite tight_all_app. cbn [tight_all]. rewrite (left_inline _ true Nb), Tx. reflexivity. }
  unfold level_ok. rewrite E. split; [exact Ly|]. split.
  - rewrite flat_map_app. cbn [flat_map]. rewrite app_nil_r, Tx, Ty. reflexivity.
  - intros z I. apply in_app_or in I as [I|[<-|[]]]; [exact (Nb z I)|]. unfold y. rewrite tight_not_block. exact Nx.
Qed.
Lemma text_added_so_far : forall s l a l', text_added s l a l' -> text_so_far l' = text_so_far l ++ a.
Proof.
  intros s l a l' H. unfold text_so_far. destruct H as [l|l s0 t0 new _|l new _ _].
  - rewrite app_nil_r. reflexivity.
  - rewrite !flat_map_app. cbn [flat_map run_text]. rewrite !app_nil_r, app_assoc. reflexivity.
  - rewrite flat_map_app. cbn [flat_map run_text]. rewrite app_nil_r. reflexivity.
Qed.
Lemma boxes_tight :
  (forall cs l, level cs l -> level_ok cs l) /\
  (forall s cs c, container s cs c -> container s (tight_all true cs) c) /\
  (forall s cs c, context s cs c -> context s (tight_all true cs) c) /\
  (forall a ps l, block_boxes a ps l -> block_boxes a (map tight_piece ps) l).
Proof.
  apply spec_induct.
  - split; [apply lv_nil|]. split; [reflexivity|intros x []].
  - intros cs l s t l' _ IH A. apply (level_ok_snoc cs l _ l' IH).
    + intros [].
    + cbn [tight inline_text]. exact (text_added_so_far _ _ _ _ A).
    + cbn [tight]. apply (lv_text _ l); [exact (proj1 IH)|]. rewrite collapse_twice. exact A.
  - intros cs l s e i b _ IH Hs _ (IL & IT & _). assert (Hi : is_inline s = true) by (unfold is_inline; rewrite Hs; reflexivity).
    assert (T : text_so_far (l ++ [InlineBox s true true b]) = text_so_far l ++ inline_text (tight (after_space (text_so_far l)) (CBox s e i))).
    { rewrite tight_box. cbn [inline_text]. rewrite Hi, IT. unfold text_so_far. rewrite flat_map_app. cbn [flat_map run_text]. rewrite app_nil_r. reflexivity. }
    apply (level_ok_snoc cs l _ _ IH); [exact (inline_not_block s e i Hs)|exact T|].
    + rewrite tight_box. apply lv_inline; [exact (proj1 IH)|exact Hs|exact IL].
  - intros cs l s e i c _ IH Hs _ IHb. assert (Hi : is_inline s = false) by (apply out_not_inline; left; exact Hs).
    assert (T : text_so_far (l ++ [InlineAbsolutelyPositionedBox s c]) = text_so_far l ++ inline_text (tight (after_space (text_so_far l)) (CBox s e i))).
    { rewrite tight_box. cbn [inline_text]. rewrite Hi. unfold text_so_far. rewrite flat_map_app. reflexivity. }
    apply (level_ok_snoc cs l _ _ IH); [apply out_not_block; left; exact Hs|exact T|].
    + rewrite tight_box. apply lv_absolute; [exact (proj1 IH)|exact Hs|exact IHb].
  - intros cs l s e i c _ IH Hs _ IHb. assert (Hi : is_inline s = false) by (apply out_not_inline; right; exact Hs).
    assert (T : text_so_far (l ++ [InlineFloatBox s c]) = text_so_far l ++ inline_text (tight (after_space (text_so_far l)) (CBox s e i))).
    { rewrite tight_box. cbn [inline_text]. rewrite Hi. unfold text_so_far. rewrite flat_map_app. reflexivity. }
    apply (level_ok_snoc cs l _ _ IH); [apply out_not_block; right; exact Hs|exact T|].
    + rewrite tight_box. apply lv_float; [exact (proj1 IH)|exact Hs|exact IHb].
  - intros s cs p l P _ IH. apply (cn_inlines _ _ (tight_all true p)); [|exact (proj1 IH)].
    exact (pieces_tight _ _ P true (or_introl eq_refl)).
  - intros s cs ps a boxes P N A _ IH. apply (cn_blocks _ _ (map tight_piece ps) a); [exact (pieces_tight _ _ P true (or_introl eq_refl))| |exact A|exact IH].
    intros p E. destruct ps as [|[q|c] [|x ps]]; try discriminate E. exact (N q eq_refl).
  - intros s cs c f _ IH Hf. apply cx; [exact IH|]. rewrite floats_tight. exact Hf.
  - intros a. apply bb_nil.
  - intros a p l ps bs _ IHp _ IH. cbn [map tight_piece]. apply bb_paragraph; [exact (proj1 IHp)|exact IH].
  - intros a s e i c ps bs Hs _ IHp _ IH. cbn [map tight_piece]. rewrite tight_box. apply bb_block; auto.
  - intros a s e i c ps bs Hs _ IHp _ IH. cbn [map tight_piece]. rewrite tight_box. apply bb_root; auto.
  - intros a s e i c ps bs Hs _ IHp _ IH. cbn [map tight_piece]. rewrite tight_box. apply bb_absolute; auto.
  - intros a s e i c ps bs Hs _ IHp _ IH. cbn [map tight_piece]. rewrite tight_box. apply bb_float; auto.
Qed.

(** ** The same but for spaces, wherever it is *)
Definition respaced (cs cs' : list content) : Prop :=
  forall b, flat_map letters (tight_all b cs) = flat_map letters (tight_all b cs') /\ left_after b (tight_all b cs) = left_after b (tight_all b cs').
Lemma respaced_same : forall cs cs', respaced cs cs' -> same_but_spaces cs cs'.
Proof. intros cs cs' H. exact (proj1 (H true)). Qed.
Lemma respaced_refl : forall cs, respaced cs cs.
Proof. intros cs b. split; reflexivity. Qed.
Lemma left_after_app : forall a r b, left_after b (a ++ r) = left_after (left_after b a) r.
Proof. intros a r b. unfold left_after. apply fold_left_app. Qed.
Lemma respaced_app : forall a a' r r', respaced a a' -> respaced r r' -> respaced (a ++ r) (a' ++ r').
Proof.
  intros a a' r r' Ha Hr b. destruct (Ha b) as [A1 A2]. rewrite !tight_all_app, !flat_map_app, !left_after_app, A1, A2.
  destruct (Hr (left_after b (tight_all b a'))) as [R1 R2]. rewrite R1, R2. split; reflexivity.
Qed.
Lemma inline_letters : forall l, flat_map inline_text (flat_map letters l) = flat_map inline_text l.
Proof.
  assert (K : forall c, flat_map inline_text (letters c) = inline_text c).
  { apply content_induct.
    - intros s t. cbn [letters inline_text]. induction t as [|ch t IH]; [reflexivity|]. cbn [map flat_map inline_text app]. rewrite IH. reflexivity.
    - intros s e i IH. cbn [letters flat_map inline_text]. rewrite app_nil_r. destruct (is_inline s); [|reflexivity].
      induction IH as [|x l Hx _ IHl]; [reflexivity|]. cbn [flat_map]. rewrite flat_map_app, Hx, IHl. reflexivity. }
  induction l as [|x l IH]; [reflexivity|]. cbn [flat_map]. rewrite flat_map_app, K, IH. reflexivity.
Qed.
Lemma respaced_box : forall s e e' i i', same_but_spaces i i' -> respaced [CBox s e i] [CBox s e' i'].
Proof.
  intros s e e' i i' H b. cbn [tight_all]. rewrite !tight_box. cbn [flat_map letters]. unfold same_but_spaces in H. rewrite H. split; [reflexivity|].
  unfold left_after. cbn [fold_left passed]. rewrite <- (inline_letters (tight_all true i)), <- (inline_letters (tight_all true i')), H. reflexivity.
Qed.
Lemma tight_texts : forall s us b, flat_map letters (tight_all b (map (CText s) us)) = map (fun ch => CText s [ch]) (collapse b (concat us)) /\
  left_after b (tight_all b (map (CText s) us)) = spaced b (collapse b (concat us)).
Proof.
  intros s. induction us as [|u us IH]; intros b; [split; reflexivity|]. cbn [map tight_all tight passed flat_map letters concat].
  destruct (IH (spaced b (collapse b u))) as [I1 I2]. rewrite collapse_app', map_app, spaced_app, I1. split; [reflexivity|].
  unfold left_after. cbn [fold_left passed]. exact I2.
Qed.
Lemma respaced_texts : forall s us us', same_text (concat us) (concat us') -> respaced (map (CText s) us) (map (CText s) us').
Proof.
  intros s us us' H b. destruct (tight_texts s us b) as [T1 T2]. destruct (tight_texts s us' b) as [T1' T2'].
  rewrite T1, T2, T1', T2', (same_text_any _ _ b H). split; reflexivity.
Qed.
