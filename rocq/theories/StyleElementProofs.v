(** Proofs about the style of an element in a document. *)
From Coq Require Import QArith Sorting.Permutation Sorting.Sorted.
From Verif Require Import Base Dom DomSpec DomProofs DomTreeProofs DomWalkProofs DomStyleProofs
  StyleValues StyleProperties StyleCascade StyleSpec StyleElementSpec StyleProofs StyleValueProofs.
Local Open Scope nat_scope.

Lemma parse_block_means : forall pc l b, parse_block pc l = Ok b -> exists out, block_means pc l out /\ holds b out.
Proof.
  intros pc l b H. destruct (means_exists pc l) as [out B].
  - intros i I T. rewrite (block_trailing pc l i I T) in H. discriminate H.
  - exists out. split; [exact B|]. destruct (block_means_ok pc l out B) as (b' & E & [L _] & C). rewrite E in H. injection H as <-. split; auto.
Qed.
Lemma block_means_det : forall pc l a b, block_means pc l a -> block_means pc l b -> a = b.
Proof. intros pc l a b A B. apply means_effects in A as [-> _]. apply means_effects in B as [-> _]. reflexivity. Qed.

Lemma counts_iff : forall ns, styled_namespace ns = true <-> counts ns.
Proof.
  intro ns. unfold styled_namespace, counts. rewrite !orb_true_iff, !bytes_eqb_eq. unfold ns_html, ns_svg, ns_mathml. tauto.
Qed.

Lemma loses_irrefl : forall a, ~ loses_to a a.
Proof. intro a. unfold loses_to. cbn zeta. lia. Qed.
Lemma loses_trans : forall a b c, loses_to a b -> loses_to b c -> loses_to a c.
Proof. intros a b c. unfold loses_to. cbn zeta. lia. Qed.
Lemma loses_asym : forall a b, loses_to a b -> ~ loses_to b a.
Proof. intros a b. unfold loses_to. cbn zeta. lia. Qed.
Lemma wins_unique : forall occ a b, wins occ a -> wins occ b -> target (o_declaration a) = target (o_declaration b) -> a = b.
Proof.
  intros occ a b [A1 A2] [B1 B2] E. destruct (A2 b B1 (eq_sym E)) as [-> |L]; [reflexivity|].
  destruct (B2 a A1 E) as [-> |L']; [reflexivity|]. exfalso. eapply loses_asym; eauto.
Qed.

Section Element.
Variable pc : parser color.
Variable selector : Type.
Variable specificity : selector -> N.
Variable matches : selector -> document -> nat -> bool.
Variable items_of : bytes -> list item.

Lemma style_ok : forall ua_sheets author_sheets ua author d n parent c,
  add_stylesheets pc selector [] ua_sheets = Ok ua -> add_stylesheets pc selector [] author_sheets = Ok author ->
  style_for_element pc selector matches items_of (finish selector specificity ua) (finish selector specificity author) d n parent = Ok c ->
  exists e attr, data (node_at d n) = DElement e /\ style_attribute pc items_of e attr /\
    css_style (occurs selector specificity (fun s => matches s d n) ua author attr) parent c.
Proof.
  intros us as_ ua author d n parent c Hu Ha H. apply add_stylesheets_ok in Hu; [|constructor]. apply add_stylesheets_ok in Ha; [|constructor].
  pose proof (push_matching_ok selector specificity matches ua d n Hu) as Pu.
  pose proof (push_matching_ok selector specificity matches author d n Ha) as Pa.
  unfold style_for_element in H. unfold index in H. unfold node_at. destruct (nth_error (nodes d) n) as [nd|] eqn:N; [|discriminate H].
  rewrite (nth_error_nth _ _ _ N). cbn [bind] in H. unfold as_element in H. destruct (data nd) as [| | | |e|]; try discriminate H.
  exists e. cbn [m_ua m_author] in H.
  assert (Main : forall attr, match attr with Some b => summary_complete b | None => True end ->
    Ok (E := Empty_set) (computed_new parent (Some (mkMatching (push_matching selector matches (finish selector specificity ua) d n)
       (push_matching selector matches (finish selector specificity author) d n ++ match attr with Some b => [b] | None => [] end)))) = Ok c ->
    style_attribute pc items_of e attr ->
    exists attr, DElement e = DElement e /\ style_attribute pc items_of e attr /\
    css_style (occurs selector specificity (fun s => matches s d n) ua author attr) parent c).
  { intros attr W E A. injection E as <-. exists attr. split; [reflexivity|]. split; [exact A|]. apply computed_new_ok; cbn [m_ua m_author]; [exact Pu| |].
    - apply Forall_app. split; [exact Pa|]. destruct attr; [constructor; [exact W|constructor]|constructor].
    - apply in_order_occs. }
  destruct (styled_namespace (q_ns (e_name e))) eqn:NS.
  - apply counts_iff in NS. destruct (get_attr e (bs "style")) as [v|] eqn:G.
    + destruct (parse_block pc (items_of v)) as [b|x|] eqn:B; [|destruct x|discriminate H]. cbn [bind] in H.
      destruct (parse_block_means pc (items_of v) b B) as (out & M & Ho). apply (Main (Some b)); [apply (parse_block_ok _ _ _ B)|exact H|].
      eapply sa_some; eauto. apply get_attr_first. exact G.
    + cbn [bind] in H. apply (Main None); [exact I|rewrite app_nil_r; exact H|]. constructor. right. apply get_attr_first. exact G.
  - cbn [bind] in H. apply (Main None); [exact I|rewrite app_nil_r; exact H|]. constructor. left. intro C. apply counts_iff in C. congruence.
Qed.

Lemma style_total : forall ua author d n e parent, n < List.length (nodes d) -> data (node_at d n) = DElement e ->
  (forall v i, counts (q_ns (e_name e)) -> first_attr (bs "style") (e_attrs e) (Some v) -> In i (items_of v) -> ~ trailing pc i) ->
  exists c, style_for_element pc selector matches items_of ua author d n parent = Ok c.
Proof.
  intros ua author d n e parent B D T. unfold style_for_element. rewrite (index_ok d n B). cbn [bind]. unfold as_element. rewrite D.
  destruct (styled_namespace (q_ns (e_name e))) eqn:NS; [|eexists; reflexivity].
  destruct (get_attr e (bs "style")) as [v|] eqn:G; [|eexists; reflexivity].
  destruct (means_exists pc (items_of v)) as [out M].
  - intros i I. apply (T v i); [apply counts_iff; exact NS|apply get_attr_first; exact G|exact I].
  - destruct (block_means_ok pc (items_of v) out M) as (b & -> & _). eexists. reflexivity.
Qed.

Lemma holds_map : forall b ds (sels : list selector), holds b ds ->
  Forall2 rule_holds (map (fun x => (x, b)) sels) (map (fun s => (s, ds)) sels).
Proof. induction sels as [|x sels IH]; intro H; cbn [map]; constructor; auto. split; auto. Qed.
Lemma add_stylesheet_means : forall css s s', add_stylesheet pc selector s css = Ok s' ->
  exists out rules, sheet_means pc css out /\ s' = s ++ rules /\ Forall2 rule_holds rules out.
Proof.
  induction css as [|[sels body|] css IH]; intros s s' H; cbn [add_stylesheet] in H.
  - injection H as <-. exists [], []. split; [constructor|]. rewrite app_nil_r. split; [reflexivity|constructor].
  - destruct (parse_block pc body) as [b|x|] eqn:E; [|destruct x|discriminate H]. cbn [bind] in H.
    destruct (parse_block_means pc body b E) as (ds & M & Hb). destruct (IH _ _ H) as (out & rules & S' & -> & F).
    exists (map (fun s => (s, ds)) sels ++ out), (map (fun x => (x, b)) sels ++ rules). split; [constructor; auto|].
    rewrite <- app_assoc. split; [reflexivity|]. apply Forall2_app; [apply holds_map; exact Hb|exact F].
  - destruct (IH _ _ H) as (out & rules & S' & -> & F). exists out, rules. split; [constructor; auto|auto].
Qed.
Lemma add_stylesheets_means : forall l s s', add_stylesheets pc selector s l = Ok s' ->
  exists outs rules, Forall2 (sheet_means pc) l outs /\ s' = s ++ rules /\ Forall2 rule_holds rules (concat outs).
Proof.
  induction l as [|css l IH]; intros s s' H; cbn [add_stylesheets] in H.
  - injection H as <-. exists [], []. rewrite app_nil_r. split; [constructor|split; [reflexivity|constructor]].
  - destruct (add_stylesheet pc selector s css) as [s1|x|] eqn:E; [|destruct x|discriminate H]. cbn [bind] in H.
    destruct (add_stylesheet_means _ _ _ E) as (out & rules & S1 & -> & F1). destruct (IH _ _ H) as (outs & rules2 & S2 & -> & F2).
    exists (out :: outs), (rules ++ rules2). split; [constructor; auto|]. split; [rewrite app_assoc; reflexivity|].
    cbn [concat]. apply Forall2_app; auto.
Qed.
Lemma add_stylesheet_total : forall css out s, sheet_means pc css out ->
  exists rules, add_stylesheet pc selector s css = Ok (s ++ rules) /\ Forall2 rule_holds rules out.
Proof.
  intros css out s M. revert s. induction M as [|sels body r ds out B M IH|r out M IH]; intro s; cbn [add_stylesheet].
  - exists []. rewrite app_nil_r. split; [reflexivity|constructor].
  - destruct (block_means_ok pc body ds B) as (b & -> & [L _] & C). cbn [bind]. destruct (IH (s ++ map (fun x => (x, b)) sels)) as (rules & -> & F).
    eexists. rewrite <- app_assoc. split; [reflexivity|]. apply Forall2_app; [apply holds_map; split; auto|exact F].
  - apply IH.
Qed.
Lemma add_stylesheets_total : forall l outs s, Forall2 (sheet_means pc) l outs ->
  exists rules, add_stylesheets pc selector s l = Ok (s ++ rules) /\ Forall2 rule_holds rules (concat outs).
Proof.
  intros l outs s M. revert s. induction M as [|css out l outs M Ms IH]; intro s; cbn [add_stylesheets].
  - exists []. rewrite app_nil_r. split; [reflexivity|constructor].
  - destruct (add_stylesheet_total css out s M) as (r1 & -> & F1). cbn [bind]. destruct (IH (s ++ r1)) as (r2 & -> & F2).
    exists (r1 ++ r2). rewrite app_assoc. split; [reflexivity|]. cbn [concat]. apply Forall2_app; auto.
Qed.
End Element.

(** ** Consequences for single winners *)
Lemma style_winner : forall occ parent c o, css_style occ parent c -> wins occ o ->
  exists v, gives parent (get c font_size) (o_declaration o) v /\ adjusted c (target (o_declaration o)) v.
Proof.
  intros occ parent c o H W. destruct (H (target (o_declaration o))) as [(o' & v & T & W' & G & A)|[N _]].
  - assert (o' = o) as -> by (eapply wins_unique; eauto). eauto.
  - exfalso. exact (N o (proj1 W) eq_refl).
Qed.
Lemma style_default : forall occ parent c p, css_style occ parent c -> (forall o, occ o -> target (o_declaration o) <> p) ->
  exists v, css_default parent p v /\ adjusted c p v.
Proof.
  intros occ parent c p H N. destruct (H p) as [(o & v & T & [W _] & _)|[_ E]]; [exfalso; exact (N o W T)|exact E].
Qed.
Lemma adjusted_fun : forall c p v w, adjusted c p v -> adjusted c p w -> 
  plain p = true -> v = w.
Proof. intros c p v w A B P. destruct p; try discriminate P; cbn in *; congruence. Qed.
Lemma style_det : forall occ parent a b, css_style occ parent a -> css_style occ parent b ->
  forall p, get a p = get b p.
Proof.
  intros occ parent a b A B.
  assert (L : forall em s q r, css_length em s q -> css_length em s r -> q = r).
  { intros em s q r H1 H2. inversion H1; subst; inversion H2; subst; reflexivity. }
  assert (D : forall p v w, css_default parent p v -> css_default parent p w -> v = w).
  { intros p v w [V1 V2] [W1 W2]. destruct (in_inherited_struct p) eqn:E.
    - apply inherited_ok in E. rewrite V1, W1 by auto. reflexivity.
    - assert (~ css_inherited p) by (intro H; apply inherited_ok in H; congruence). rewrite V2, W2 by auto. reflexivity. }
  assert (C : forall k em col s v w, css_computed k em col s v -> css_computed k em col s w -> v = w).
  { intros k em col s v w V W. destruct k; cbn [css_computed specified_kind computed_kind] in *; try congruence.
    - eapply L; eauto.
    - destruct s; congruence.
    - destruct s; try congruence. destruct V as (q & V & ->), W as (r & W & ->). f_equal. eapply L; eauto.
    - destruct s; try congruence. destruct V as (q & V & ->), W as (r & W & ->). f_equal. eapply L; eauto.
    - destruct s; try congruence. destruct V as (q & V & ->), W as (r & W & ->). f_equal. eapply L; eauto. }
  assert (G : forall own d v w, gives parent own d v -> gives parent own d w -> v = w).
  { intros own [p s|p []] v w V W; cbn [gives target] in *; try congruence; [eapply C; eauto|eapply D; eauto]. }
  assert (Step : forall p, (p = font_size \/ get a font_size = get b font_size) -> exists v, adjusted a p v /\ adjusted b p v).
  { intros p Hp. destruct (A p) as [(o & v & T & W & V & Av)|[N (v & V & Av)]]; destruct (B p) as [(o' & w & T' & W' & V' & Bw)|[N' (w & V' & Bw)]].
    - assert (o = o') by (eapply wins_unique; eauto; congruence). subst o'. subst p.
      assert (v = w); [|subst w; eauto].
      destruct Hp as [Hp|Hp]; [|rewrite Hp in V; eapply G; eauto].
      destruct (o_declaration o) as [q s|q k]; cbn [target] in *; subst; cbn [gives] in *.
      + destruct (longhand_eq_dec font_size font_size); [|congruence]. eapply C; eauto.
      + destruct k; try congruence. eapply D; eauto.
    - exfalso. exact (N' o (proj1 W) T).
    - exfalso. exact (N o' (proj1 W') T').
    - exists v. split; [exact Av|]. rewrite (D p v w V V'). exact Bw. }
  assert (F : get a font_size = get b font_size).
  { destruct (Step font_size (or_introl eq_refl)) as (v & V & W). cbn in V, W. congruence. }
  assert (P : forall p, plain p = true -> get a p = get b p).
  { intros p Hp. destruct (Step p (or_intror F)) as (v & V & W). destruct p; try discriminate Hp; cbn in V, W; congruence. }
  intro p. destruct (plain p) eqn:E; [auto|]. destruct (Step p (or_intror F)) as (v & V & W).
  assert (SW : forall s x y z, side_width s x y -> side_width s x z -> y = z).
  { intros s x y z [Y1 Y2] [Z1 Z2]. destruct s; [rewrite Y1, Z1 by reflexivity; reflexivity|rewrite Y2, Z2 by discriminate; reflexivity]. }
  destruct p; try discriminate E; cbn [adjusted] in V, W.
  - destruct V as (_ & V1 & V2), W as (_ & W1 & W2).
    assert (O : out_of_flow a <-> out_of_flow b) by (unfold out_of_flow; rewrite !P by reflexivity; tauto).
    destruct (is_absolutely_positioned (get a position_) || is_floating (get a float_)) eqn:X.
    + apply not_out_of_flow in X. rewrite (V1 X), (W1 (proj1 O X)). reflexivity.
    + assert (~ out_of_flow a) as Y by (rewrite <- not_out_of_flow; congruence). rewrite (V2 Y), W2 by tauto. reflexivity.
  - eapply SW; [exact V|]. rewrite P by reflexivity. exact W.
  - eapply SW; [exact V|]. rewrite P by reflexivity. exact W.
  - eapply SW; [exact V|]. rewrite P by reflexivity. exact W.
  - eapply SW; [exact V|]. rewrite P by reflexivity. exact W.
Qed.
