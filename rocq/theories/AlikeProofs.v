(** Documents that differ in comments only have the same boxes. *)
From Coq Require Import Lia.
From Verif Require Import Base Dom DomSpec DomProofs DomTreeProofs DomWalkProofs FontCmap StyleValues StyleProperties StyleCascade StyleSpec
  StyleSelectors StyleSelectorSpec StyleSelectorProofs LayoutTree BoxTree BoxTreeSpec BoxTextProofs BoxTreeProofs BoxShapeProofs UserAgent WhiteSpec WhiteProofs AlikeSpec AlikeDomProofs.
Local Open Scope nat_scope.

(** ** Letters *)
Lemma text_added_split : forall s l a b l', text_added s l (a ++ b) l' -> exists l1, text_added s l a l1 /\ text_added s l1 b l'.
Proof.
  intros s l a b l' H. destruct a as [|x a].
  { exists l. split; [apply ta_none|exact H]. }
  destruct b as [|y b].
  { rewrite app_nil_r in H. exists l'. split; [exact H|apply ta_none]. }
  remember ((x :: a) ++ y :: b) as t eqn:Et. destruct H as [l|l s0 t0 new Hn|l new Hn Hl].
  - discriminate Et.
  - subst new. exists (l ++ [TextRun s0 (t0 ++ x :: a)]). split; [apply ta_more; discriminate|].
    rewrite app_assoc. apply ta_more. discriminate.
  - subst new. exists (l ++ [TextRun s (x :: a)]). split; [apply ta_new; [discriminate|exact Hl]|]. apply ta_more. discriminate.
Qed.
Lemma text_so_far_added : forall s l a l', text_added s l a l' -> text_so_far l' = text_so_far l ++ a.
Proof.
  intros s l a l' H. unfold text_so_far. destruct H as [l|l s0 t0 new _|l new _ _].
  - rewrite app_nil_r. reflexivity.
  - rewrite !flat_map_app. cbn [flat_map run_text]. rewrite !app_nil_r, app_assoc. reflexivity.
  - rewrite flat_map_app. cbn [flat_map run_text]. rewrite app_nil_r. reflexivity.
Qed.
Lemma collapse_cons : forall b c t, collapse b (c :: t) = collapse b [c] ++ collapse (is_space c) t.
Proof. intros b c t. cbn [collapse]. destruct (is_space c); [destruct b|]; reflexivity. Qed.
Lemma after_space_snoc : forall t c, after_space (t ++ [c]) = (c =? 32)%N.
Proof. intros t c. unfold after_space. rewrite rev_app_distr. reflexivity. Qed.
Lemma not_space : forall c, is_space c = false -> (c =? 32)%N = false.
Proof. intros c H. unfold is_space in H. cbn [existsb] in H. apply orb_false_iff in H as [H _]. exact H. Qed.
Lemma letters_level : forall s t cs l l', level cs l -> text_added s l (collapse (after_space (text_so_far l)) t) l' ->
  level (cs ++ map (fun c => CText s [c]) t) l'.
Proof.
  intros s t. induction t as [|c t IH]; intros cs l l' H A.
  - cbn [map collapse] in *. rewrite app_nil_r. inversion A; subst; try congruence. 
  - rewrite collapse_cons in A. apply text_added_split in A as (l1 & A1 & A2). cbn [map].
    replace (cs ++ CText s [c] :: map (fun c => CText s [c]) t) with ((cs ++ [CText s [c]]) ++ map (fun c => CText s [c]) t)
      by (rewrite <- app_assoc; reflexivity).
    apply (IH _ l1); [exact (lv_text _ _ _ _ _ H A1)|].
    assert (X : after_space (text_so_far l1) = is_space c); [|rewrite X; exact A2].
    rewrite (text_so_far_added _ _ _ _ A1). cbn [collapse]. destruct (is_space c) eqn:Sc.
    + destruct (after_space (text_so_far l)) eqn:As; [rewrite app_nil_r; exact As|]. rewrite after_space_snoc. reflexivity.
    + rewrite after_space_snoc. apply not_space. exact Sc.
Qed.
Lemma level_blank : forall sp l, Forall blank sp -> level sp l -> l = [].
Proof.
  intros sp l B H. induction H as [|cs l s t l' H IH A|cs l s e i b H IH| cs l s e i c H IH|cs l s e i c H IH] ; [reflexivity| | | |];
    apply Forall_app in B as [B1 B2]; rewrite (IH B1) in *; inversion B2 as [|? ? Bl _]; subst.
  - cbn [blank] in Bl. change (text_so_far []) with (@nil N) in A. cbn [after_space rev] in A. unfold after_space in A. cbn [rev] in A.
    assert (X : collapse true t = []).
    { clear - Bl. induction t as [|c t IH]; [reflexivity|]. cbn [collapse]. rewrite (Bl c (or_introl eq_refl)). apply IH. intros ch I. apply Bl. right. exact I. }
    rewrite X in A. inversion A; subst; congruence.
  - destruct Bl.
  - destruct Bl.
  - destruct Bl.
Qed.
Lemma nil_or_snoc : forall {A} (l : list A), l = [] \/ exists k x, l = k ++ [x].
Proof. intros A l. destruct l as [|y l] using rev_ind; [left; reflexivity|right; eauto]. Qed.
Lemma level_skip : forall sp q l, Forall blank sp -> level (sp ++ q) l -> level q l.
Proof.
  intros sp q l B H. remember (sp ++ q) as all eqn:E. revert q E.
  assert (K : forall q x cs, cs ++ [x] = sp ++ q -> (q = [] /\ Forall blank (cs ++ [x])) \/ exists q', q = q' ++ [x] /\ cs = sp ++ q').
  { intros q x cs E. destruct (nil_or_snoc q) as [->|(q' & y & ->)].
    - left. rewrite app_nil_r in E. rewrite E. auto.
    - right. rewrite app_assoc in E. apply app_inj_tail in E as [E ->]. eauto. }
  induction H as [|cs l s t l' H IH A|cs l s e i b H IH Hs L _| cs l s e i c H IH Hs C|cs l s e i c H IH Hs C]; intros q E.
  - symmetry in E. apply app_eq_nil in E as [_ ->]. apply lv_nil.
  - destruct (K _ _ _ E) as [(-> & Bl)|(q' & -> & ->)].
    + rewrite (level_blank _ _ Bl (lv_text _ _ _ _ _ H A)). apply lv_nil.
    + apply (lv_text _ l); [apply IH; reflexivity|exact A].
  - destruct (K _ _ _ E) as [(-> & Bl)|(q' & -> & ->)].
    + apply Forall_app in Bl as [_ Bl]. inversion Bl as [|? ? B0 _]; subst; destruct B0.
    + apply lv_inline; auto.
  - destruct (K _ _ _ E) as [(-> & Bl)|(q' & -> & ->)].
    + apply Forall_app in Bl as [_ Bl]. inversion Bl as [|? ? B0 _]; subst; destruct B0.
    + apply lv_absolute; auto.
  - destruct (K _ _ _ E) as [(-> & Bl)|(q' & -> & ->)].
    + apply Forall_app in Bl as [_ Bl]. inversion Bl as [|? ? B0 _]; subst; destruct B0.
    + apply lv_float; auto.
Qed.

(** ** Pieces of letters *)
Lemma letters_block : forall c, block_content c -> exists c', letters c = [c'] /\ block_content c'.
Proof. intros [s t|s e i] H; [destruct H|]. cbn [letters]. eexists. split; [reflexivity|exact H]. Qed.
Lemma letters_not_block : forall c x, ~ block_content c -> In x (letters c) -> ~ block_content x.
Proof.
  intros [s t|s e i] x H I; cbn [letters] in I.
  - apply in_map_iff in I as (ch & <- & _). intros [].
  - destruct I as [<-|[]]. exact H.
Qed.
Lemma pieces_blanks : forall sp r ps, Forall blank sp -> pieces r ps -> pieces (sp ++ r) ps.
Proof. intros sp r ps B H. induction B as [|c sp B _ IH]; [exact H|]. cbn [app]. apply pc_blank; assumption. Qed.
(** Blanks before the first letter *)
Lemma letters_start : forall c, starts_paragraph c -> exists sp x r, letters c = sp ++ x :: r /\ Forall blank sp /\ starts_paragraph x.
Proof.
  intros [s t|s e i] H; cbn [letters].
  - cbn [starts_paragraph] in H. induction t as [|ch t IH]; [destruct H as (? & [] & _)|]. cbn [map].
    destruct (is_space ch) eqn:S.
    + destruct IH as (sp & x & r & E & B & X).
      { destruct H as (c & [<-|I] & N); [congruence|eauto]. }
      exists (CText s [ch] :: sp), x, r. rewrite E. split; [reflexivity|]. split; [|exact X]. constructor; [|exact B].
      intros c [<-|[]]. exact S.
    + exists [], (CText s [ch]), (map (fun c => CText s [c]) t). split; [reflexivity|]. split; [constructor|].
      exists ch. split; [left; reflexivity|exact S].
  - exists [], (CBox s 0 (flat_map letters i)), []. split; [reflexivity|]. split; [constructor|exact H].
Qed.
Lemma letters_blank : forall c, blank c -> Forall blank (letters c).
Proof.
  intros [s t|s e i] H; [|destruct H]. cbn [letters]. apply Forall_forall. intros x I. apply in_map_iff in I as (ch & <- & I).
  intros c [<-|[]]. exact (H ch I).
Qed.
(** A piece, and the same in letters *)
Inductive piece_letters : piece -> piece -> Prop :=
| pl_paragraph : forall p q sp, flat_map letters p = sp ++ q -> Forall blank sp -> piece_letters (PParagraph p) (PParagraph q)
| pl_box : forall s e i, piece_letters (PBox (CBox s e i)) (PBox (CBox s 0 (flat_map letters i))).
Lemma pieces_letters : forall cs ps, pieces cs ps -> exists ps', pieces (flat_map letters cs) ps' /\ Forall2 piece_letters ps ps'.
Proof.
  intros cs ps H. induction H as [|c r ps B H IH|c r ps B H IH|c p r ps S1 S2 S3 H IH].
  - exists []. split; [apply pc_nil|constructor].
  - destruct IH as (ps' & P & F). exists ps'. split; [|exact F]. cbn [flat_map]. apply pieces_blanks; [apply letters_blank; exact B|exact P].
  - destruct IH as (ps' & P & F). destruct c as [s t|s e i]; [destruct B as [[]|[]]|].
    exists (PBox (CBox s 0 (flat_map letters i)) :: ps'). split; [|constructor; [constructor|exact F]].
    cbn [flat_map letters app]. apply pc_box; [exact B|exact P].
  - destruct IH as (ps' & P & F). destruct (letters_start c S1) as (sp & x & l & E & B & X).
    exists (PParagraph (x :: l ++ flat_map letters p) :: ps'). split.
    + rewrite flat_map_app. cbn [flat_map]. rewrite E, <- !app_assoc. apply pieces_blanks; [exact B|].
      replace ((x :: l) ++ flat_map letters p ++ flat_map letters r) with ((x :: l ++ flat_map letters p) ++ flat_map letters r)
        by (cbn [app]; rewrite <- app_assoc; reflexivity).
      apply pc_paragraph; [exact X| | |exact P].
      * intros y I. apply in_app_or in I as [I|I].
        -- apply (letters_not_block c); [intros K; apply (starts_box c S1); left; exact K|]. rewrite E. apply in_or_app. right. right. exact I.
        -- apply in_flat_map in I as (z & Iz & I). exact (letters_not_block z y (S2 z Iz) I).
      * destruct r as [|y r]; [exact I|]. destruct (letters_block y S3) as (y' & Ey & By). cbn [flat_map]. rewrite Ey. exact By.
    + constructor; [|exact F]. apply (pl_paragraph _ _ sp); [|exact B]. cbn [flat_map]. rewrite E, <- app_assoc. reflexivity.
Qed.
Lemma in_letters_box : forall cs s e i, In (CBox s e i) (flat_map letters cs) -> exists e' i', In (CBox s e' i') cs /\ e = 0 /\ i = flat_map letters i'.
Proof.
  intros cs s e i H. apply in_flat_map in H as ([s' t|s' e' i'] & Ic & H); cbn [letters] in H.
  - apply in_map_iff in H as (ch & E & _). discriminate E.
  - destruct H as [E|[]]. injection E as <- <- <-. eauto.
Qed.
Lemma in_box_letters : forall cs s e i, In (CBox s e i) cs -> In (CBox s 0 (flat_map letters i)) (flat_map letters cs).
Proof. intros cs s e i H. apply in_flat_map. eexists. split; [exact H|]. left. reflexivity. Qed.
Lemma floats_letters : forall cs, floats_in (flat_map letters cs) <-> floats_in cs.
Proof.
  intros cs. split; intros H.
  - remember (flat_map letters cs) as l eqn:E. revert cs E. induction H as [l s e i I Hs|l s e i I Hs H IH]; intros cs ->.
    + apply in_letters_box in I as (e' & i' & I & _). exact (fi_here _ _ _ _ I Hs).
    + apply in_letters_box in I as (e' & i' & I & _ & ->). exact (fi_inside _ _ _ _ I Hs (IH _ eq_refl)).
  - induction H as [cs s e i I Hs|cs s e i I Hs H IH].
    + exact (fi_here _ _ _ _ (in_box_letters _ _ _ _ I) Hs).
    + exact (fi_inside _ _ _ _ (in_box_letters _ _ _ _ I) Hs IH).
Qed.
Lemma unbuildable_letters : forall cs, unbuildable (flat_map letters cs) <-> unbuildable cs.
Proof.
  intros cs. split; intros H.
  - remember (flat_map letters cs) as l eqn:E. revert cs E. induction H as [l s e i I Hs|l s e i c I Hs Ic Hc|l s e i I H IH]; intros cs ->;
      apply in_letters_box in I as (e' & i' & I & _ & ->).
    + exact (ub_inline_block _ _ _ _ I Hs).
    + apply in_flat_map in Ic as (x & Ix & Ic). destruct x as [s' t|s' e'' i'']; cbn [letters] in Ic.
      { apply in_map_iff in Ic as (ch & <- & _). destruct Hc. }
      destruct Ic as [<-|[]]. exact (ub_block_in_inline _ _ _ _ _ I Hs Ix Hc).
    + exact (ub_deeper _ _ _ _ I (IH _ eq_refl)).
  - induction H as [cs s e i I Hs|cs s e i c I Hs Ic Hc|cs s e i I H IH]; apply in_box_letters in I.
    + exact (ub_inline_block _ _ _ _ I Hs).
    + destruct c as [s' t|s' e' i']; [destruct Hc|]. exact (ub_block_in_inline _ _ _ _ _ I Hs (in_box_letters _ _ _ _ Ic) Hc).
    + exact (ub_deeper _ _ _ _ I IH).
Qed.
(** The same boxes *)
Lemma boxes_letters :
  (forall cs l, level cs l -> level (flat_map letters cs) l) /\
  (forall s cs c, container s cs c -> container s (flat_map letters cs) c) /\
  (forall s cs c, context s cs c -> context s (flat_map letters cs) c) /\
  (forall a ps l, block_boxes a ps l -> forall ps', Forall2 piece_letters ps ps' -> block_boxes a ps' l).
Proof.
  apply spec_induct.
  - apply lv_nil.
  - intros cs l s t l' _ IH A. rewrite flat_map_app. cbn [flat_map letters]. rewrite app_nil_r. exact (letters_level s t _ l l' IH A).
  - intros cs l s e i b _ IH Hs _ IHb. rewrite flat_map_app. cbn [flat_map letters app]. apply lv_inline; assumption.
  - intros cs l s e i c _ IH Hs _ IHb. rewrite flat_map_app. cbn [flat_map letters app]. apply lv_absolute; assumption.
  - intros cs l s e i c _ IH Hs _ IHb. rewrite flat_map_app. cbn [flat_map letters app]. apply lv_float; assumption.
  - intros s cs p l P _ IH. apply pieces_letters in P as (ps' & P & F). inversion F as [|? y ? r X F']; subst. inversion F'; subst.
    inversion X as [? q sp E B|]; subst. apply (cn_inlines _ _ q); [exact P|]. rewrite E in IH. exact (level_skip sp q l B IH).
  - intros s cs ps a boxes P N A _ IH. apply pieces_letters in P as (ps' & P & F). apply (cn_blocks _ _ ps' a); [exact P| |exact A|exact (IH _ F)].
    intros p ->. inversion F as [|x ? l ? X F']; subst. inversion F'; subst. inversion X; subst. eapply N. reflexivity.
  - intros s cs c f _ IH Hf. apply cx; [exact IH|]. rewrite floats_letters. exact Hf.
  - intros a ps' F. inversion F; subst. apply bb_nil.
  - intros a p l ps bs _ IHp _ IH ps' F. inversion F as [|? y ? r X F']; subst. inversion X as [? q sp E B|]; subst.
    apply bb_paragraph; [|exact (IH _ F')]. rewrite E in IHp. exact (level_skip sp q l B IHp).
  - intros a s e i c ps bs Hs _ IHp _ IH ps' F. inversion F as [|? y ? r X F']; subst. inversion X; subst. apply bb_block; auto.
  - intros a s e i c ps bs Hs _ IHp _ IH ps' F. inversion F as [|? y ? r X F']; subst. inversion X; subst. apply bb_root; auto.
  - intros a s e i c ps bs Hs _ IHp _ IH ps' F. inversion F as [|? y ? r X F']; subst. inversion X; subst. apply bb_absolute; auto.
  - intros a s e i c ps bs Hs _ IHp _ IH ps' F. inversion F as [|? y ? r X F']; subst. inversion X; subst. apply bb_float; auto.
Qed.

(** ** What alike documents show *)
Section Styles.
Variable parse_color : parser color.
Variable selector : Type.
Variable matches : selector -> document -> nat -> bool.
Variable items_of : bytes -> list StyleCascade.item.
Variables (d d' : document) (kids kids' : nat -> list nat) (hidden : nat -> nat -> Prop).
Hypothesis Hm : forall sel x x', twins d d' kids kids' hidden x x' -> matches sel d x = matches sel d' x'.
Lemma push_same : forall (ss : style_set selector) x x', twins d d' kids kids' hidden x x' -> push_matching selector matches ss d x = push_matching selector matches ss d' x'.
Proof.
  intros ss x x' T. unfold push_matching. f_equal. apply filter_ext. intros r. apply Hm. exact T.
Qed.
Lemma style_same : forall ua author x x' p, twins d d' kids kids' hidden x x' ->
  style_for_element parse_color selector matches items_of ua author d x p = style_for_element parse_color selector matches items_of ua author d' x' p.
Proof.
  intros ua author x x' p T. destruct (twins_same _ _ _ _ _ _ _ T) as [S _]. destruct (same_range _ _ _ _ S) as [B B'].
  destruct S as (e & e' & D & D' & En & El & Ea). unfold style_for_element. rewrite (index_ok d x B), (index_ok d' x' B'). cbn [bind].
  unfold as_element. rewrite D, D', (push_same ua x x' T), (push_same author x x' T), En, (get_attr_same e e' _ Ea). reflexivity.
Qed.
End Styles.

Section Shows.
Variables (d d' : document) (kids kids' : nat -> list nat) (hidden : nat -> nat -> Prop).
Variables style style' : nat -> computed_values -> computed_values -> Prop.
Hypothesis Hs : forall x x' p s, twins d d' kids kids' hidden x x' -> style x p s -> style' x' p s.
(** Hidden elements are not displayed *)
Hypothesis Hh : forall x x' p s, hidden x x' -> style x p s -> get s display_ = DisplayNone.
Hypothesis Hu : forall i t, data (node_at d' i) = DText t -> exists cs, encodes t cs.
Lemma encodes_cat : forall a b ca cb, encodes a ca -> encodes b cb -> encodes (a ++ b) (ca ++ cb).
Proof.
  intros a b ca cb [Fa Ea] [Fb Eb]. split; [apply Forall_app; auto|]. rewrite flat_map_app, Ea, Eb. reflexivity.
Qed.
Lemma shows_app_inv : forall dd st s a b cs, shows dd st s (a ++ b) cs -> exists ca cb, shows dd st s a ca /\ shows dd st s b cb /\ cs = ca ++ cb.
Proof.
  intros dd st s a b cs H. remember (a ++ b) as l eqn:E. revert a E.
  assert (nil_case : forall s b cs, shows dd st s b cs -> exists ca cb, shows dd st s [] ca /\ shows dd st s b cb /\ cs = ca ++ cb).
  { intros s0 b0 cs0 H0. exists [], cs0. split; [constructor|]. auto. }
  induction H as [ps|ps i ts r t ch out D En H IH|ps i ts r out N1 N2 H IH|ps i ts r s out El St Di H IH
    |ps i ts r s inside out El St Di H1 IH1 H IH|ps i ts r s o k inside out El St Di H1 IH1 H IH]; intros a E.
  - symmetry in E. apply app_eq_nil in E as [-> ->]. exists [], []. repeat split; constructor.
  - destruct a as [|x a]; cbn [app] in E; [subst b; apply nil_case; eapply sh_text; eassumption|]. injection E as <- ->.
    destruct (IH a eq_refl) as (ca & cb & Ha & Hb & ->). exists (CText ps ch :: ca), cb. split; [eapply sh_text; eassumption|]. auto.
  - destruct a as [|x a]; cbn [app] in E; [subst b; apply nil_case; eapply sh_other; eassumption|]. injection E as <- ->.
    destruct (IH a eq_refl) as (ca & cb & Ha & Hb & ->). exists ca, cb. split; [eapply sh_other; eassumption|]. auto.
  - destruct a as [|x a]; cbn [app] in E; [subst b; apply nil_case; eapply sh_none; eassumption|]. injection E as <- ->.
    destruct (IH a eq_refl) as (ca & cb & Ha & Hb & ->). exists ca, cb. split; [eapply sh_none; eassumption|]. auto.
  - destruct a as [|x a]; cbn [app] in E; [subst b; apply nil_case; eapply sh_contents; eassumption|]. injection E as <- ->.
    destruct (IH a eq_refl) as (ca & cb & Ha & Hb & ->). exists (inside ++ ca), cb. split; [eapply sh_contents; eassumption|].
    split; [exact Hb|]. rewrite app_assoc. reflexivity.
  - destruct a as [|x a]; cbn [app] in E; [subst b; apply nil_case; eapply sh_box; eassumption|]. injection E as <- ->.
    destruct (IH a eq_refl) as (ca & cb & Ha & Hb & ->). exists (CBox s i inside :: ca), cb. split; [eapply sh_box; eassumption|]. auto.
Qed.
Lemma shows_app : forall dd st s a b ca cb, shows dd st s a ca -> shows dd st s b cb -> shows dd st s (a ++ b) (ca ++ cb).
Proof.
  intros dd st s a b ca cb H Hb.
  induction H as [ps|ps i ts r t ch out D En H IH|ps i ts r out N1 N2 H IH|ps i ts r s out El St Di H IH
    |ps i ts r s inside out El St Di H1 IH1 H IH|ps i ts r s o k inside out El St Di H1 IH1 H IH]; cbn [app].
  - exact Hb.
  - eapply sh_text; eauto.
  - eapply sh_other; eauto.
  - eapply sh_none; eauto.
  - rewrite <- app_assoc. eapply sh_contents; eauto.
  - eapply sh_box; eauto.
Qed.
Lemma bare_shows : forall dd st s ts cs, bare dd (map root ts) -> shows dd st s ts cs ->
  exists us, encodes (texts_of dd (map root ts)) (concat us) /\ cs = map (CText s) us.
Proof.
  intros dd st s ts cs B H.
  induction H as [ps|ps i ts r t ch out D En H IH|ps i ts r out N1 N2 H IH|ps i ts r s out El St Di H IH
    |ps i ts r s inside out El St Di H1 IH1 H IH|ps i ts r s o k inside out El St Di H1 IH1 H IH].
  - exists []. split; [split; [constructor|reflexivity]|reflexivity].
  - destruct IH as (us & Eu & ->). { intros x I. apply B. right. exact I. }
    exists (ch :: us). split; [|reflexivity].
    unfold texts_of in *. cbn [map flat_map DomSpec.root concat]. unfold text_of at 1. rewrite D. apply encodes_cat; assumption.
  - destruct IH as (us & Eu & L). { intros x I. apply B. right. exact I. }
    exists us. split; [|exact L]. unfold texts_of in *. cbn [map flat_map DomSpec.root]. unfold text_of at 1.
    destruct (data (node_at dd i)) eqn:D; try exact Eu. exfalso. apply N1. eexists. exact D.
  - destruct (B i (or_introl eq_refl) El).
  - destruct (B i (or_introl eq_refl) El).
  - destruct (B i (or_introl eq_refl) El).
Qed.
Lemma bare_total : forall st s ts, bare d' (map root ts) -> exists cs, shows d' st s ts cs.
Proof.
  intros st s ts B. induction ts as [|[i ts'] ts IH]; [exists []; constructor|].
  destruct IH as (cs & H). { intros x I. apply B. right. exact I. }
  pose proof (B i (or_introl eq_refl)) as N. destruct (data (node_at d' i)) eqn:D.
  3: { destruct (Hu i _ D) as (ch & E). exists (CText s ch :: cs). eapply sh_text; eassumption. }
  4: destruct (N I).
  all: exists cs; apply sh_other; [intros [t Dt]; congruence|rewrite D; intros []|exact H].
Qed.
Lemma map_app_inv : forall {A B} (f : A -> B) l a b, map f l = a ++ b -> exists la lb, l = la ++ lb /\ map f la = a /\ map f lb = b.
Proof.
  intros A B f l a. revert l. induction a as [|x a IH]; intros l b E.
  - exists [], l. auto.
  - destruct l as [|y l]; [discriminate E|]. cbn [map app] in E. injection E as <- E. destruct (IH l b E) as (la & lb & -> & <- & <-).
    exists (y :: la), lb. auto.
Qed.
Lemma shows_alike : forall l l', alike d d' kids kids' hidden l l' -> forall p p' a a' ts ts' s cs,
  (forall y y', placed d d' kids kids' hidden p p' y y' -> twins d d' kids kids' hidden y y') ->
  kids p = a ++ l -> kids' p' = a' ++ l' -> alike d d' kids kids' hidden a a' ->
  map root ts = l -> Forall (subtree kids) ts -> map root ts' = l' -> Forall (subtree kids') ts' ->
  shows d style s ts cs -> exists cs', shows d' style' s ts' cs' /\ respaced cs cs'.
Proof.
  intros l l' H. induction H as [|l l' r r' N N' E H IH|x x' r r' S K IHK H IH|x x' r r' S Hd Em H IH];
    intros p p' a a' ts ts' s cs Up Ek Ek' Ha Et Ft Et' Ft' Sh.
  - apply map_eq_nil in Et. apply map_eq_nil in Et'. subst. inversion Sh; subst. exists []. split; [constructor|apply respaced_refl].
  - apply map_app_inv in Et as (t1 & t2 & -> & E1 & E2). apply map_app_inv in Et' as (t1' & t2' & -> & E1' & E2').
    apply Forall_app in Ft as [F1 F2]. apply Forall_app in Ft' as [F1' F2'].
    apply shows_app_inv in Sh as (c1 & c2 & S1 & S2 & ->).
    destruct (IH p p' (a ++ l) (a' ++ l') t2 t2' s c2) as (c2' & S2' & L2); try assumption.
    { rewrite <- app_assoc. exact Ek. } { rewrite <- app_assoc. exact Ek'. }
    { apply alike_app; [exact Ha|]. rewrite <- (app_nil_r l), <- (app_nil_r l'). apply al_text; [exact N|exact N'|exact E|apply al_nil]. }
    destruct (bare_total style' s t1') as (c1' & S1'). { rewrite E1'. exact N'. }
    destruct (bare_shows d style s t1 c1) as (us & Eu & ->). { rewrite E1. exact N. } { exact S1. }
    destruct (bare_shows d' style' s t1' c1') as (us' & Eu' & ->). { rewrite E1'. exact N'. } { exact S1'. }
    exists (map (CText s) us' ++ c2'). split; [apply shows_app; assumption|]. rewrite E1 in Eu. rewrite E1' in Eu'.
    apply respaced_app; [|exact L2]. apply respaced_texts. exact (same_text_chars _ _ _ _ E Eu Eu').
  - destruct ts as [|[i ti] ts]; [discriminate Et|]. cbn [map DomSpec.root] in Et. injection Et as -> Et.
    destruct ts' as [|[i' ti'] ts']; [discriminate Et'|]. cbn [map DomSpec.root] in Et'. injection Et' as -> Et'.
    apply Forall_cons_iff in Ft as [F1 F2]. apply Forall_cons_iff in Ft' as [F1' F2'].
    assert (In' : inside d d' kids kids' hidden x x') by (left; exact K).
    assert (T : twins d d' kids kids' hidden x x').
    { apply Up. exists a, r, a', r'. auto 7. }
    assert (Rest : forall out, shows d style s ts out -> exists out', shows d' style' s ts' out' /\ respaced out out').
    { intros out So. apply (IH p p' (a ++ [x]) (a' ++ [x']) ts ts' s out); try assumption.
      - rewrite <- app_assoc. exact Ek.
      - rewrite <- app_assoc. exact Ek'.
      - apply alike_app; [exact Ha|]. apply alike_same; [exact S|exact In'|apply al_nil]. }
    inversion F1 as [? ? Kx Fx]; subst. inversion F1' as [? ? Kx' Fx']; subst.
    assert (Inside : forall s2 out, shows d style s2 ti out -> exists out', shows d' style' s2 ti' out' /\ respaced out out').
    { intros s2 out So. apply (IHK x x' [] [] ti ti' s2 out); try assumption; try reflexivity; try (symmetry; assumption).
      - intros y y' P. exact (tw_in _ _ _ _ _ x x' y y' T P).
      - apply al_nil. }
    destruct S as (e & e' & D & D' & _). assert (El' : is_element (data (node_at d' x'))) by (rewrite D'; exact I).
    inversion Sh as [|? ? ? t ch out Dt Ec So|? ? ? out N1 N2 So|? ? ? s2 out El St Di So|? ? ? s2 inside out El St Di Si So|? ? ? s2 o k inside out El St Di Si So]; subst.
    + congruence.
    + rewrite D in N2. destruct (N2 I).
    + destruct (Rest _ So) as (out' & So' & L). exists out'. split; [|exact L]. eapply sh_none; [exact El'|exact (Hs _ _ _ _ T St)|exact Di|exact So'].
    + destruct (Rest _ So) as (out' & So' & L). destruct (Inside _ _ Si) as (in' & Si' & Li). exists (in' ++ out').
      split; [eapply sh_contents; [exact El'|exact (Hs _ _ _ _ T St)|exact Di|exact Si'|exact So']|]. apply respaced_app; assumption.
    + destruct (Rest _ So) as (out' & So' & L). destruct (Inside _ _ Si) as (in' & Si' & Li). exists (CBox s2 x' in' :: out').
      split; [eapply sh_box; [exact El'|exact (Hs _ _ _ _ T St)|exact Di|exact Si'|exact So']|]. apply (respaced_app [_] [_]); [|exact L]. apply respaced_box, respaced_same. exact Li.
  - destruct ts as [|[i ti] ts]; [discriminate Et|]. cbn [map DomSpec.root] in Et. injection Et as -> Et.
    destruct ts' as [|[i' ti'] ts']; [discriminate Et'|]. cbn [map DomSpec.root] in Et'. injection Et' as -> Et'.
    apply Forall_cons_iff in Ft as [F1 F2]. apply Forall_cons_iff in Ft' as [F1' F2'].
    assert (In' : inside d d' kids kids' hidden x x') by (right; auto).
    assert (T : twins d d' kids kids' hidden x x').
    { apply Up. exists a, r, a', r'. auto 7. }
    assert (Rest : forall out, shows d style s ts out -> exists out', shows d' style' s ts' out' /\ respaced out out').
    { intros out So. apply (IH p p' (a ++ [x]) (a' ++ [x']) ts ts' s out); try assumption.
      - rewrite <- app_assoc. exact Ek.
      - rewrite <- app_assoc. exact Ek'.
      - apply alike_app; [exact Ha|]. apply alike_same; [exact S|exact In'|apply al_nil]. }
    destruct S as (e & e' & D & D' & _). assert (El' : is_element (data (node_at d' x'))) by (rewrite D'; exact I).
    inversion Sh as [|? ? ? t ch out Dt Ec So|? ? ? out N1 N2 So|? ? ? s2 out El St Di So|? ? ? s2 inn out El St Di Si So|? ? ? s2 o k inn out El St Di Si So]; subst.
    + congruence.
    + rewrite D in N2. destruct (N2 I).
    + destruct (Rest _ So) as (out' & So' & L). exists out'. split; [|exact L]. eapply sh_none; [exact El'|exact (Hs _ _ _ _ T St)|exact Di|exact So'].
    + rewrite (Hh _ _ _ _ Hd St) in Di. discriminate Di.
    + rewrite (Hh _ _ _ _ Hd St) in Di. discriminate Di.
Qed.
End Shows.

(** The selectors of UserAgent.v *)
Lemma ua_matches_alike : forall other (om : other -> document -> nat -> bool) d d' kids kids' hidden, through_interface om ->
  doc_forest d kids -> doc_forest d' kids' -> forall sel x x', twins d d' kids kids' hidden x x' -> ua_matches other om sel d x = ua_matches other om sel d' x'.
Proof.
  intros other om d d' kids kids' hidden Hi Hf Hf' [l|o] x x' T; cbn [ua_matches].
  - pose proof (proj1 (twins_same _ _ _ _ _ _ _ T)) as S. induction l as [|p l IH]; [reflexivity|]. cbn [forallb]. rewrite IH. f_equal.
    destruct p as [n|n|n v c]; cbn [part_matches].
    + rewrite (proj1 (AlikeDomProofs.names _ _ _ _ S)). reflexivity.
    + rewrite (attributes _ _ _ _ _ _ _ S). reflexivity.
    + rewrite (attributes _ _ _ _ _ _ _ S). reflexivity.
  - exact (matches_alike om d d' kids kids' hidden Hi Hf Hf' o x x' T).
Qed.
