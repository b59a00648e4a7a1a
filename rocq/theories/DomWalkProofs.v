(** Traversals, text contents, style elements, root element, attributes *)
From Coq Require Import Relations.
From Verif Require Import Base Dom DomSpec DomProofs DomTreeProofs.
Local Open Scope res_scope.

(** ** Bounds *)
Lemma nodup_bound : forall n (l : list nat), NoDup l -> (forall x, In x l -> x < n) -> length l <= n.
Proof.
  intros n l H B. rewrite <- (seq_length n 0). apply NoDup_incl_length; auto.
  intros x I. apply in_seq. specialize (B x I). lia.
Qed.
Lemma kids_length : forall d kids p, in_forest d kids -> length (kids p) <= length (nodes d).
Proof.
  intros d kids p H. apply nodup_bound; [apply H|]. intros x I. apply (child_bounds d kids p x H I).
Qed.

(** ** Children in order *)
Lemma siblings_ok : forall d kids p r l fuel, in_forest d kids -> kids p = l ++ r -> length r <= fuel ->
  successors fuel d next_sibling (hd_error r) = Ok r.
Proof.
  induction r as [|c r IH]; intros l fuel Hf K L; destruct fuel; cbn [successors hd_error]; auto; [cbn in L; lia|].
  assert (I : In c (kids p)) by (rewrite K; apply in_or_app; right; left; auto).
  rewrite index_ok by (apply (child_bounds d kids p c Hf I)). cbn [bind].
  destruct (proj1 (proj2 (proj2 (proj2 Hf))) p l c r K) as [_ ->].
  rewrite (IH (l ++ [c])); auto; [rewrite K, <- app_assoc; reflexivity|cbn in L; lia].
Qed.
Lemma siblings_kids : forall d kids p c r, in_forest d kids -> kids p = c :: r ->
  node_and_following_siblings d c = Ok (kids p).
Proof.
  intros d kids p c r Hf K. unfold node_and_following_siblings. rewrite K.
  apply (siblings_ok d kids p (c :: r) []); auto. rewrite <- K. apply (kids_length d kids); auto.
Qed.

Lemma text_loop_ok : forall d kids p r l fuel acc, in_forest d kids -> kids p = l ++ r -> length r <= fuel ->
  child_text_loop fuel d (hd_error r) acc = Ok (acc ++ texts_of d r).
Proof.
  induction r as [|c r IH]; intros l fuel acc Hf K L.
  - destruct fuel; cbn; rewrite app_nil_r; auto.
  - destruct fuel; [cbn in L; lia|]. cbn [child_text_loop hd_error].
    assert (I : In c (kids p)) by (rewrite K; apply in_or_app; right; left; auto).
    rewrite index_ok by (apply (child_bounds d kids p c Hf I)). cbn [bind].
    destruct (proj1 (proj2 (proj2 (proj2 Hf))) p l c r K) as [_ ->].
    rewrite (IH (l ++ [c])); auto; [|rewrite K, <- app_assoc; reflexivity|cbn in L; lia].
    unfold texts_of. cbn [flat_map]. unfold as_text, text_of. destruct (data (node_at d c)); auto.
    rewrite <- app_assoc. reflexivity.
Qed.
Lemma child_text_ok : forall d kids p, in_forest d kids -> p < length (nodes d) ->
  child_text_content d p = Ok (texts_of d (kids p)).
Proof.
  intros d kids p Hf Hp. unfold child_text_content. rewrite index_ok by auto. cbn [bind].
  destruct (proj1 (proj2 Hf) p) as [-> _]. rewrite (text_loop_ok d kids p (kids p) []); auto. apply (kids_length d kids). auto.
Qed.

(** ** Ancestors *)
Definition below (kids : nat -> list nat) : nat -> nat -> Prop := clos_trans _ (fun p c => In c (kids p)).
Lemma below_reach : forall kids a b, below kids a b -> reach kids a b.
Proof. intros kids a b H. induction H; [apply rt_step; auto|eapply rt_trans; eauto]. Qed.
Lemma below_irrefl : forall d kids a, in_forest d kids -> ~ below kids a a.
Proof.
  intros d kids a Hf B.
  assert (G : exists y, reach kids a y /\ In a (kids y)).
  { apply clos_trans_tn1 in B. inversion B as [z E Ez|y z E B0 Ez]; subst.
    - exists a. split; [apply rt_refl|exact E].
    - exists y. split; [apply below_reach, clos_tn1_trans; exact B0|exact E]. }
  destruct G as (y & R & E).
  assert (P : parent (node_at d a) = Some y) by (apply (proj1 (proj2 (proj2 Hf))); exact E).
  apply (wf_irrefl_anc d kids a y Hf P). apply (reach_anc d kids); auto.
Qed.
Lemma up_chain : forall d kids fuel i path, in_forest d kids -> i < length (nodes d) ->
  NoDup path -> (forall x, In x path -> below kids i x /\ x < length (nodes d)) ->
  length (nodes d) <= length path + fuel ->
  exists l, successors fuel d parent (Some i) = Ok l /\ up d i l.
Proof.
  induction fuel as [|fuel IH]; intros i path Hf Hi Nd B L.
  - exfalso. assert (H : length (i :: path) <= length (nodes d)); [|cbn in H; lia].
    apply nodup_bound.
    + constructor; auto. intro I. apply B in I as [I _]. eapply below_irrefl; eauto.
    + intros x [<-|I]; [auto|]. apply B. auto.
  - cbn [successors]. rewrite index_ok by auto. cbn [bind]. destruct (parent (node_at d i)) as [p|] eqn:E.
    + assert (I : In i (kids p)) by (apply (proj1 (proj2 (proj2 Hf))); exact E).
      destruct (IH p (i :: path)) as (l & E1 & U); auto.
      * apply (child_bounds d kids p i Hf I).
      * constructor; auto. intro J. apply B in J as [J _]. eapply below_irrefl; eauto.
      * intros x [<-|J].
        -- split; [apply t_step; exact I|auto].
        -- destruct (B _ J). split; auto. eapply t_trans; [apply t_step; exact I|auto].
      * cbn. lia.
      * exists (i :: l). rewrite E1. split; [reflexivity|]. econstructor; eauto.
    + exists [i]. split; [destruct fuel; reflexivity|constructor; auto].
Qed.
Lemma ancestors_ok : forall d kids i, in_forest d kids -> i < length (nodes d) ->
  exists l, node_and_ancestors d i = Ok l /\ up d i l.
Proof. intros d kids i Hf Hi. apply (up_chain d kids _ i []); [auto|auto|apply NoDup_nil|intros x []|apply Nat.le_refl]. Qed.
Lemma up_anc : forall d i l, up d i l -> forall x, In x l <-> inclusive_ancestor d x i.
Proof.
  intros d i l U. induction U as [i E|i p l E U IH]; intro x.
  - split.
    + intros [<-|[]]. constructor.
    + intro R. destruct R; [left; auto|congruence].
  - cbn [In]. rewrite IH. split.
    + intros [<-|R]; [constructor|]. econstructor; eauto.
    + intro R. destruct R as [|b q E' R]; [left; auto|]. right. congruence.
Qed.
Lemma up_det : forall d i l, up d i l -> forall l', up d i l' -> l = l'.
Proof.
  intros d i l U. induction U as [i E|i p l E U IH]; intros l' U'; inversion U'; subst; try congruence.
  f_equal. apply IH. congruence.
Qed.

(** ** Order *)
Definition goes (d : document) (i : nat) (o : option nat) : Prop := exists l, up d i l /\ find_next d l = Ok o.

Lemma goes_ex : forall d kids i, in_forest d kids -> i < length (nodes d) -> exists o, goes d i o.
Proof.
  intros d kids i Hf Hi. destruct (ancestors_ok d kids i Hf Hi) as (l & _ & U).
  assert (T : exists o, find_next d l = Ok o).
  { clear - U Hf Hi. revert Hi. induction U as [i E|i p l E U IH]; intro Hi; cbn [find_next]; rewrite index_ok by auto; cbn [bind].
    - destruct (next_sibling (node_at d i)); eauto.
    - destruct (next_sibling (node_at d i)); eauto. apply IH.
      assert (I : In i (kids p)) by (apply (proj1 (proj2 (proj2 Hf))); exact E). apply (child_bounds d kids p i Hf I). }
  destruct T as [o T]. exists o, l. auto.
Qed.
Lemma goes_sibling : forall d kids i s, in_forest d kids -> i < length (nodes d) -> next_sibling (node_at d i) = Some s -> goes d i (Some s).
Proof.
  intros d kids i s Hf Hi E. destruct (ancestors_ok d kids i Hf Hi) as (l & _ & U). exists l. split; [auto|].
  destruct U; cbn [find_next]; rewrite index_ok by auto; cbn [bind]; rewrite E; reflexivity.
Qed.
Lemma goes_up : forall d kids i p o, in_forest d kids -> In i (kids p) -> next_sibling (node_at d i) = None ->
  goes d p o -> goes d i o.
Proof.
  intros d kids i p o Hf I E (l & U & F). exists (i :: l). split.
  - econstructor; [|exact U]. apply (proj1 (proj2 (proj2 Hf))). exact I.
  - cbn [find_next]. rewrite index_ok by (apply (child_bounds d kids p i Hf I)). cbn [bind]. rewrite E. exact F.
Qed.

Fixpoint tsize (t : tree) : nat := match t with T _ ts => S (list_sum (map tsize ts)) end.

Fixpoint tree_rect' (P : tree -> Prop) (Q : list tree -> Prop) (HT : forall i ts, Q ts -> P (T i ts))
    (Hn : Q []) (Hc : forall t ts, P t -> Q ts -> Q (t :: ts)) (t : tree) : P t :=
  match t with
  | T i ts => HT i ts ((fix go ts : Q ts := match ts with
                          | [] => Hn
                          | t :: ts => Hc t ts (tree_rect' P Q HT Hn Hc t) (go ts)
                          end) ts)
  end.

Lemma size_preorder : forall t, length (preorder t) = tsize t.
Proof.
  apply (tree_rect' (fun t => length (preorder t) = tsize t)
    (fun ts => length (flat_map preorder ts) = list_sum (map tsize ts))).
  - intros i ts H. cbn [preorder tsize length]. congruence.
  - reflexivity.
  - intros t ts Ht Hts. cbn [flat_map map list_sum fold_right]. rewrite app_length. cbn in Hts. unfold list_sum in Hts. lia.
Qed.

Definition then_walk (a : list nat) (r : res Empty_set (list nat)) : res Empty_set (list nat) := l <- r ;; Ok (a ++ l).
Lemma then_app : forall a b r, then_walk a (then_walk b r) = then_walk (a ++ b) r.
Proof. intros a b [l|e|]; cbn; auto. rewrite app_assoc. reflexivity. Qed.

Lemma walk_ok : forall d kids, in_forest d kids -> forall t,
  subtree kids t -> forall fuel o, root t < length (nodes d) -> goes d (root t) o ->
  walk_tree (tsize t + fuel) d (Some (root t)) = then_walk (preorder t) (walk_tree fuel d o).
Proof.
  intros d kids Hf.
  apply (tree_rect' (fun t => subtree kids t -> forall fuel o, root t < length (nodes d) -> goes d (root t) o ->
      walk_tree (tsize t + fuel) d (Some (root t)) = then_walk (preorder t) (walk_tree fuel d o))
    (fun ts => Forall (subtree kids) ts -> forall fuel o p l, kids p = l ++ map root ts -> goes d p o -> ts <> [] ->
      walk_tree (list_sum (map tsize ts) + fuel) d (hd_error (map root ts)) =
      then_walk (flat_map preorder ts) (walk_tree fuel d o))).
  - intros i ts IH St fuel o Hi G. inversion St as [i' ts' K F]; subst. cbn [root] in *.
    change (tsize (T i ts) + fuel) with (S (list_sum (map tsize ts) + fuel)). cbn [walk_tree].
    unfold next_in_tree_order. rewrite index_ok by auto. cbn [bind].
    destruct (proj1 (proj2 Hf) i) as [-> _]. rewrite K. destruct ts as [|t ts].
    + cbn [map hd_error]. destruct (ancestors_ok d kids i Hf Hi) as (l & -> & U). cbn [bind].
      destruct G as (l' & U' & G). rewrite (up_det _ _ _ U _ U'), G. cbn [bind]. cbn.
      destruct (walk_tree fuel d o); reflexivity.
    + specialize (IH F fuel o i []). rewrite K in IH. specialize (IH eq_refl G). cbn [map hd_error] in *.
      cbn [bind]. rewrite IH by discriminate. unfold then_walk. cbn [preorder].
      destruct (walk_tree fuel d o); reflexivity.
  - intros _ fuel o p l _ _ N. contradiction.
  - intros t ts IHt IHts F fuel o p l K G _. inversion F as [|t' ts' Ft Fts]; subst.
    assert (I : In (root t) (kids p)) by (rewrite K; apply in_or_app; right; left; auto).
    assert (B : root t < length (nodes d)) by (apply (child_bounds d kids p _ Hf I)).
    destruct (proj1 (proj2 (proj2 (proj2 Hf))) p l (root t) (map root ts) K) as [_ X].
    change (list_sum (map tsize (t :: ts))) with (tsize t + list_sum (map tsize ts)).
    rewrite <- Nat.add_assoc. cbn [map hd_error flat_map]. destruct ts as [|t2 ts].
    + rewrite (IHt Ft _ o B); [cbn; rewrite app_nil_r; reflexivity|]. eapply goes_up; eauto.
    + rewrite (IHt Ft _ (Some (root t2)) B) by (eapply goes_sibling; eauto).
      specialize (IHts Fts fuel o p (l ++ [root t])). change (hd_error (map root (t2 :: ts))) with (Some (root t2)) in IHts. rewrite IHts; auto; [|rewrite K, <- app_assoc; reflexivity|discriminate].
      apply then_app.
Qed.

Lemma subtree_ex : forall d kids i, in_forest d kids -> exists t, root t = i /\ subtree kids t.
Proof.
  intros d kids i (_ & _ & _ & _ & _ & W). induction (W i) as [i _ IH].
  assert (H : exists ts, map root ts = kids i /\ Forall (subtree kids) ts).
  { assert (G : forall l, (forall c, In c l -> In c (kids i)) -> exists ts, map root ts = l /\ Forall (subtree kids) ts).
    { induction l as [|c l IHl]; intro H; [exists []; split; [reflexivity|constructor]|].
      destruct (IH c) as (t & Rt & St); [apply H; left; auto|].
      destruct IHl as (ts & Rts & Sts); [intros; apply H; right; auto|].
      exists (t :: ts). split; [cbn; congruence|constructor; auto]. }
    apply G. auto. }
  destruct H as (ts & Rts & Sts). exists (T i ts). split; [reflexivity|]. constructor; auto.
Qed.

Lemma preorder_reach : forall kids t, subtree kids t -> forall x, In x (preorder t) <-> reach kids (root t) x.
Proof.
  intros kids.
  apply (tree_rect' (fun t => subtree kids t -> forall x, In x (preorder t) <-> reach kids (root t) x)
    (fun ts => Forall (subtree kids) ts -> forall x, In x (flat_map preorder ts) <-> exists c, In c (map root ts) /\ reach kids c x)).
  - intros i ts IH St x. inversion St as [i' ts' K F]; subst. cbn [preorder root In]. rewrite (IH F x), <- K. split.
    + intros [<-|(c & I & R)]; [apply rt_refl|]. eapply rt_trans; [apply rt_step; exact I|exact R].
    + intro R. apply clos_rt_rt1n in R. destruct R as [|y z E R]; [auto|]. right. exists y. split; [exact E|]. apply clos_rt1n_rt. exact R.
  - intros _ x. cbn. split; [intros []|intros (c & [] & _)].
  - intros t ts IHt IHts F x. inversion F as [|t' ts' Ft Fts]; subst. cbn [flat_map map In]. rewrite in_app_iff, (IHt Ft), (IHts Fts). split.
    + intros [R|(c & I & R)]; eauto.
    + intros (c & [<-|I] & R); eauto.
Qed.

Lemma reach_cmp : forall d kids a b x, in_forest d kids -> reach kids a x -> reach kids b x -> reach kids a b \/ reach kids b a.
Proof.
  intros d kids a b x Hf Ra Rb. apply clos_rt_rtn1 in Ra. induction Ra as [|y z E Ra IH]; [auto|].
  apply clos_rt_rtn1 in Rb. destruct Rb as [|y' z E' Rb].
  - left. eapply rt_trans; [apply clos_rtn1_rt; exact Ra|]. apply rt_step. exact E.
  - apply IH. assert (y = y') as ->.
    { apply (proj1 (proj2 (proj2 Hf))) in E. apply (proj1 (proj2 (proj2 Hf))) in E'. congruence. }
    apply clos_rtn1_rt. exact Rb.
Qed.
Lemma siblings_apart : forall d kids p a b x, in_forest d kids -> In a (kids p) -> In b (kids p) -> a <> b ->
  reach kids a x -> reach kids b x -> False.
Proof.
  intros d kids p.
  assert (H : forall a b, in_forest d kids -> In a (kids p) -> In b (kids p) -> a <> b -> reach kids a b -> False).
  { intros a b Hf Ia Ib N R. apply clos_rt_rtn1 in R. destruct R as [|y z E R]; [auto|].
    assert (y = p) as ->. { apply (proj1 (proj2 (proj2 Hf))) in E. apply (proj1 (proj2 (proj2 Hf))) in Ib. congruence. }
    apply clos_rtn1_rt in R. apply (wf_irrefl_anc d kids a p Hf).
    - apply (proj1 (proj2 (proj2 Hf))). exact Ia.
    - apply (reach_anc d kids); auto. }
  intros a b x Hf Ia Ib N Ra Rb. destruct (reach_cmp d kids a b x Hf Ra Rb) as [R|R]; [apply (H a b)|apply (H b a)]; auto.
Qed.
Lemma nodup_app : forall A (a b : list A), NoDup a -> NoDup b -> (forall x, In x a -> In x b -> False) -> NoDup (a ++ b).
Proof.
  induction a as [|x a IH]; intros b Ha Hb H; cbn; auto. inversion Ha; subst. constructor.
  - rewrite in_app_iff. intros [I|I]; [auto|]. apply (H x); auto. left; auto.
  - apply IH; auto. intros y I J. apply (H y); auto. right; auto.
Qed.
Lemma preorder_nodup : forall d kids, in_forest d kids -> forall t, subtree kids t -> NoDup (preorder t).
Proof.
  intros d kids Hf.
  apply (tree_rect' (fun t => subtree kids t -> NoDup (preorder t))
    (fun ts => Forall (subtree kids) ts -> forall p l, kids p = l ++ map root ts -> NoDup (flat_map preorder ts))).
  - intros i ts IH St. inversion St as [i' ts' K F]; subst. cbn [preorder]. constructor; [|apply (IH F i []); auto].
    rewrite in_flat_map. intros (t & It & Ii). rewrite Forall_forall in F.
    apply (preorder_reach kids t (F t It)) in Ii.
    assert (Ik : In (root t) (kids i)) by (rewrite K; apply in_map; auto).
    apply (below_irrefl d kids i Hf).
    assert (T : forall a b c, In b (kids a) -> reach kids b c -> below kids a c).
    { intros a b c I R. apply clos_rt_rtn1 in R. induction R as [|y z E R IHR]; [apply t_step; exact I|].
      eapply t_trans; [exact IHR|apply t_step; exact E]. }
    eapply T; eauto.
  - intros _ p l _. constructor.
  - intros t ts IHt IHts F p l K. inversion F as [|t' ts' Ft Fts]; subst. cbn [flat_map]. cbn [map] in K. apply nodup_app.
    + auto.
    + apply (IHts Fts p (l ++ [root t])). rewrite K, <- app_assoc. reflexivity.
    + intros x I J. apply (preorder_reach kids t Ft) in I. apply in_flat_map in J as (t2 & I2 & J).
      rewrite Forall_forall in Fts. apply (preorder_reach kids t2 (Fts t2 I2)) in J.
      apply (siblings_apart d kids p (root t) (root t2) x); auto.
      * rewrite K. apply in_or_app. right. left. auto.
      * rewrite K. apply in_or_app. right. right. apply in_map. auto.
      * intro E. pose proof (proj1 Hf p) as Nd. rewrite K in Nd. apply nodup_mid in Nd as (_ & Nr & _).
        apply Nr. rewrite E. apply in_map. auto.
Qed.

Lemma reach_bound : forall d kids a b, in_forest d kids -> a < length (nodes d) -> reach kids a b -> b < length (nodes d).
Proof.
  intros d kids a b Hf Ha R. apply clos_rt_rtn1 in R. destruct R as [|y z E R]; auto.
  apply (child_bounds d kids y z Hf E).
Qed.

Lemma tree_nodes_ok : forall d kids, doc_forest d kids ->
  exists t, root t = document_node_id /\ subtree kids t /\ tree_nodes d = Ok (preorder t) /\ NoDup (preorder t) /\
    forall x, In x (preorder t) <-> inclusive_ancestor d document_node_id x.
Proof.
  intros d kids (Hf & L & Z & O & K0 & D). destruct (subtree_ex d kids document_node_id Hf) as (t & Rt & St).
  exists t. split; [auto|]. split; [auto|].
  pose proof (preorder_nodup d kids Hf t St) as Nd.
  assert (In_ : forall x, In x (preorder t) <-> inclusive_ancestor d document_node_id x).
  { intro x. rewrite (preorder_reach kids t St x), Rt. apply reach_anc. auto. }
  split; [|split; auto]. unfold tree_nodes.
  assert (B1 : document_node_id < length (nodes d)) by (unfold document_node_id; lia).
  assert (Le : tsize t <= length (nodes d)).
  { rewrite <- size_preorder. apply nodup_bound; auto. intros x I. apply (preorder_reach kids t St) in I.
    eapply reach_bound; [exact Hf| |exact I]. rewrite Rt. auto. }
  replace (length (nodes d)) with (tsize t + (length (nodes d) - tsize t)) by lia. rewrite <- Rt in *.
  assert (P1 : parent (node_at d (root t)) = None).
  { destruct (parent (node_at d (root t))) as [q|] eqn:E; auto. exfalso. apply (proj1 (proj2 (proj2 Hf))) in E. eapply O; eauto. }
  rewrite (walk_ok d kids Hf t St _ None).
  - destruct (length (nodes d) - tsize t); cbn; rewrite app_nil_r; reflexivity.
  - auto.
  - exists [root t]. split; [constructor; auto|]. cbn [find_next]. rewrite index_ok by auto. cbn [bind].
    destruct (proj1 (proj2 (proj2 (proj2 (proj2 Hf)))) _ P1) as [_ ->]. reflexivity.
Qed.

(** ** Attributes *)
Lemma bytes_eqb_eq : forall a b, bytes_eqb a b = true <-> a = b.
Proof. intros a b. unfold bytes_eqb. destruct (list_eq_dec N.eq_dec a b); split; intro; congruence. Qed.
Lemma qual_eqb_eq : forall a b, qual_eqb a b = true <-> a = b.
Proof.
  intros [p1 n1 l1] [p2 n2 l2]. unfold qual_eqb. cbn [q_prefix q_ns q_local]. rewrite !andb_true_iff, !bytes_eqb_eq.
  assert (E : option_bytes_eqb p1 p2 = true <-> p1 = p2).
  { destruct p1, p2; cbn; try rewrite bytes_eqb_eq; split; intro; congruence. }
  rewrite E. split; [intros [[-> ->] ->]; auto|]. intro H. injection H as -> -> ->. auto.
Qed.
Lemma get_attr_first : forall e name v, get_attr e name = v <-> first_attr name (e_attrs e) v.
Proof.
  intros e name. unfold get_attr. induction (e_attrs e) as [|a r IH]; intro v; cbn [find].
  - split; [intros <-; constructor|]. intro H. inversion H. auto.
  - destruct (bytes_eqb (q_ns (a_name a)) [] && bytes_eqb (q_local (a_name a)) name) eqn:E.
    + apply andb_true_iff in E as [E1 E2]. apply bytes_eqb_eq in E1, E2. split.
      * intros <-. constructor; auto.
      * intro H. inversion H; subst; auto. tauto.
    + assert (N : ~ (q_ns (a_name a) = [] /\ q_local (a_name a) = name)).
      { intros [E1 E2]. apply bytes_eqb_eq in E1, E2. rewrite E1, E2 in E. discriminate. }
      rewrite IH. split; [intro; constructor; auto|]. intro H. inversion H; subst; auto. tauto.
Qed.
Lemma merge_spec : forall old new a,
  In a (merge_attrs old new) <-> In a old \/ (In a new /\ forall b, In b old -> a_name b <> a_name a).
Proof.
  intros old new a. unfold merge_attrs. rewrite in_app_iff, filter_In, negb_true_iff.
  split; (intros [H|[H1 H2]]; [auto|right; split; [auto|]]).
  - intros b Ib E. apply not_true_iff_false in H2. apply H2. apply existsb_exists. exists b. split; [auto|]. apply qual_eqb_eq. auto.
  - apply not_true_iff_false. intro H. apply existsb_exists in H as (b & Ib & E). apply qual_eqb_eq in E. eapply H2; eauto.
Qed.

(** ** Root element *)
Lemma find_root_skip : forall d l o r, (forall x, In x l -> x < length (nodes d) /\ ignorable (data (node_at d x))) ->
  find_root d (l ++ r) o = find_root d r o.
Proof.
  induction l as [|x l IH]; intros o r H; cbn [app find_root]; auto.
  destruct (H x) as [B I]; [left; auto|]. rewrite index_ok by auto. cbn [bind].
  destruct (data (node_at d x)); try contradiction; apply IH; intros; apply H; right; auto.
Qed.
Lemma root_element_ok : forall d kids l r x, doc_forest d kids -> kids document_node_id = l ++ x :: r ->
  is_element (data (node_at d x)) -> (forall y, In y (l ++ r) -> ignorable (data (node_at d y))) ->
  root_element d = Ok x.
Proof.
  intros d kids l r x (Hf & L & Z & O & K0 & D) K E I. unfold root_element.
  assert (P1 : parent (node_at d document_node_id) = None).
  { destruct (parent (node_at d document_node_id)) as [q|] eqn:Eq; auto. exfalso. apply (proj1 (proj2 (proj2 Hf))) in Eq. eapply O; eauto. }
  rewrite index_ok by (unfold document_node_id; lia). cbn [bind]. rewrite D, P1. cbn [assert is_none bind].
  destruct (proj1 (proj2 (proj2 (proj2 (proj2 Hf)))) _ P1) as [-> ->]. cbn [assert is_none bind].
  destruct (proj1 (proj2 Hf) document_node_id) as [-> _].
  destruct (kids document_node_id) as [|c k] eqn:Ek; [destruct l; discriminate|]. cbn [hd_error].
  rewrite (siblings_kids d kids _ _ _ Hf Ek). cbn [bind]. rewrite Ek, K.
  assert (B : forall y, In y (l ++ x :: r) -> y < length (nodes d)).
  { intros y Iy. apply (child_bounds d kids document_node_id y Hf). rewrite Ek, K. exact Iy. }
  rewrite find_root_skip.
  - cbn [find_root]. rewrite index_ok by (apply B; apply in_or_app; right; left; auto). cbn [bind].
    destruct (data (node_at d x)); try contradiction. cbn [is_none assert bind].
    rewrite <- (app_nil_r r), find_root_skip; [reflexivity|]. intros y Iy. split; [apply B|apply I]; apply in_or_app; [right; right|right]; auto.
  - intros y Iy. split; [apply B|apply I]; apply in_or_app; auto.
Qed.
Lemma root_text_panics : forall d kids x t, doc_forest d kids -> In x (kids document_node_id) ->
  data (node_at d x) = DText t -> root_element d = Panic.
Proof.
  intros d kids x t (Hf & L & Z & O & K0 & D) Ix E. unfold root_element.
  assert (P1 : parent (node_at d document_node_id) = None).
  { destruct (parent (node_at d document_node_id)) as [q|] eqn:Eq; auto. exfalso. apply (proj1 (proj2 (proj2 Hf))) in Eq. eapply O; eauto. }
  rewrite index_ok by (unfold document_node_id; lia). cbn [bind]. rewrite D, P1. cbn [assert is_none bind].
  destruct (proj1 (proj2 (proj2 (proj2 (proj2 Hf)))) _ P1) as [-> ->]. cbn [assert is_none bind].
  destruct (proj1 (proj2 Hf) document_node_id) as [-> _].
  destruct (kids document_node_id) as [|c k] eqn:Ek; [contradiction|]. cbn [hd_error].
  rewrite (siblings_kids d kids _ _ _ Hf Ek). cbn [bind]. rewrite Ek.
  assert (B : forall y, In y (c :: k) -> y < length (nodes d)).
  { intros y Iy. apply (child_bounds d kids document_node_id y Hf). rewrite Ek. exact Iy. }
  assert (P : forall l o, In x l -> (forall y, In y l -> y < length (nodes d)) -> find_root d l o = Panic).
  { induction l as [|y l IH]; intros o I Bl; [contradiction|]. cbn [find_root]. rewrite index_ok by (apply Bl; left; auto). cbn [bind].
    destruct I as [->|I]; [rewrite E; reflexivity|].
    assert (Bl' : forall y, In y l -> y < length (nodes d)) by (intros; apply Bl; right; auto).
    destruct (data (node_at d y)); auto. destruct o; cbn [is_none assert bind]; auto. }
  rewrite P; auto.
Qed.
Lemma find_root_some : forall d l y o, find_root d l (Some y) = Ok o ->
  o = Some y /\ forall z, In z l -> ignorable (data (node_at d z)).
Proof.
  induction l as [|a l IH]; intros y o H; cbn [find_root] in H; [injection H as <-; split; [auto|intros z []]|].
  unfold index in H. destruct (nth_error (nodes d) a) as [n|] eqn:E; [|discriminate]. cbn [bind] in H.
  assert (En : node_at d a = n) by (unfold node_at; apply nth_error_nth; auto).
  destruct (data n) eqn:D; try discriminate; apply IH in H as [-> H]; (split; [auto|]); intros z [<-|I]; auto; rewrite En, D; exact I.
Qed.
Lemma find_root_none : forall d l x, find_root d l None = Ok (Some x) ->
  exists a b, l = a ++ x :: b /\ is_element (data (node_at d x)) /\ forall z, In z (a ++ b) -> ignorable (data (node_at d z)).
Proof.
  induction l as [|y l IH]; intros x H; cbn [find_root] in H; [discriminate|].
  unfold index in H. destruct (nth_error (nodes d) y) as [n|] eqn:E; [|discriminate]. cbn [bind] in H.
  assert (En : node_at d y = n) by (unfold node_at; apply nth_error_nth; auto).
  destruct (data n) eqn:D; try discriminate.
  all: try (apply IH in H as (a & b & -> & El & Ig); exists (y :: a), b; split; [reflexivity|]; split; [auto|];
    intros z [<-|I]; [rewrite En, D; exact Logic.I|auto]).
  apply find_root_some in H as [H Ig]. injection H as <-. exists [], l. split; [reflexivity|]. split; [|exact Ig].
  rewrite En, D. exact I.
Qed.
Lemma root_element_only : forall d kids x, doc_forest d kids -> root_element d = Ok x ->
  exists l r, kids document_node_id = l ++ x :: r /\ is_element (data (node_at d x)) /\
    forall y, In y (l ++ r) -> ignorable (data (node_at d y)).
Proof.
  intros d kids x (Hf & L & Z & O & K0 & D) H. unfold root_element in H.
  rewrite index_ok in H by (unfold document_node_id; lia). cbn [bind] in H.
  assert (P1 : parent (node_at d document_node_id) = None).
  { destruct (parent (node_at d document_node_id)) as [q|] eqn:Eq; auto. exfalso. apply (proj1 (proj2 (proj2 Hf))) in Eq. eapply O; eauto. }
  rewrite D, P1 in H. cbn [assert is_none bind] in H.
  destruct (proj1 (proj2 (proj2 (proj2 (proj2 Hf)))) _ P1) as [Ev En]. rewrite Ev, En in H. cbn [assert is_none bind] in H.
  destruct (proj1 (proj2 Hf) document_node_id) as [Ef _]. rewrite Ef in H.
  destruct (kids document_node_id) as [|c k] eqn:Ek; [discriminate|]. cbn [hd_error] in H.
  rewrite (siblings_kids d kids _ _ _ Hf Ek) in H. cbn [bind] in H. rewrite Ek in H.
  destruct (find_root d (c :: k) None) as [[r|]|e|] eqn:Fr; try discriminate. cbn [bind] in H.
  assert (r = x) as -> by congruence. apply find_root_none in Fr. exact Fr.
Qed.
