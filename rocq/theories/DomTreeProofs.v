(** Effects of the parser's calls, and the invariant they keep *)
From Verif Require Import Base Dom DomSpec DomProofs.
From Coq Require Import Relations.
Local Open Scope res_scope.

Definition links (n : node) := (parent n, next_sibling n, previous_sibling n, first_child n, last_child n).
Lemma in_forest_links : forall d d' kids, (forall j, links (node_at d' j) = links (node_at d j)) ->
  in_forest d kids -> in_forest d' kids.
Proof.
  intros d d' kids E (H1 & H2 & H3 & H4 & H5 & H6). unfold in_forest, child_of in *.
  assert (Ep : forall j, parent (node_at d' j) = parent (node_at d j)) by (intro j; specialize (E j); unfold links in E; congruence).
  assert (En : forall j, next_sibling (node_at d' j) = next_sibling (node_at d j)) by (intro j; specialize (E j); unfold links in E; congruence).
  assert (Ev : forall j, previous_sibling (node_at d' j) = previous_sibling (node_at d j)) by (intro j; specialize (E j); unfold links in E; congruence).
  assert (Ef : forall j, first_child (node_at d' j) = first_child (node_at d j)) by (intro j; specialize (E j); unfold links in E; congruence).
  assert (El : forall j, last_child (node_at d' j) = last_child (node_at d j)) by (intro j; specialize (E j); unfold links in E; congruence).
  split; [auto|]. split; [intro p; rewrite Ef, El; auto|].
  split; [intros p c; rewrite Ep; auto|]. split; [intros p l c r; rewrite Ev, En; apply H4|].
  split; [intros c; rewrite Ep, Ev, En; auto|]. auto.
Qed.

(** ** New nodes *)
Lemma push_at : forall d x j, node_at (fst (new_node d x)) j =
  if j =? length (nodes d) then node_new x else node_at d j.
Proof.
  intros d x j. unfold node_at. cbn [new_node push_node fst nodes]. destruct (Nat.eqb_spec j (length (nodes d))) as [->|N].
  - rewrite app_nth2, Nat.sub_diag by lia. reflexivity.
  - destruct (Nat.lt_ge_cases j (length (nodes d))); [apply app_nth1; auto|].
    rewrite !nth_overflow; auto. rewrite app_length. cbn. lia.
Qed.
Lemma new_node_forest : forall d x kids, in_forest d kids -> in_forest (fst (new_node d x)) kids.
Proof.
  intros d x kids H. eapply in_forest_links; [|exact H]. intro j. rewrite push_at.
  destruct (Nat.eqb_spec j (length (nodes d))) as [->|]; auto. rewrite beyond by lia. reflexivity.
Qed.
Lemma fresh_no_kids : forall d kids, in_forest d kids -> kids (length (nodes d)) = [].
Proof.
  intros d kids H. destruct (kids (length (nodes d))) as [|x r] eqn:E; auto.
  destruct (child_bounds d kids (length (nodes d)) x H); [rewrite E; left; auto|lia].
Qed.
Lemma fresh_not_kid : forall d kids q, in_forest d kids -> ~ In (length (nodes d)) (kids q).
Proof. intros d kids q H I. destruct (child_bounds d kids q _ H I). lia. Qed.
Lemma leaf_anc : forall d kids i p, in_forest d kids -> kids i = [] -> inclusive_ancestor d i p -> i = p.
Proof.
  intros d kids i p Hf E R. apply (reach_anc d kids) in R; [|auto]. apply clos_rt_rt1n in R.
  destruct R as [|y z Hy]; auto. cbv beta in Hy. rewrite E in Hy. contradiction.
Qed.

Lemma append_new : forall d kids p x, in_forest d kids -> p < length (nodes d) ->
  exists d', append (fst (new_node d x)) p (length (nodes d)) = Ok d' /\
    in_forest d' (with_new p (length (nodes d)) (kids p) [] kids) /\
    map data (nodes d') = map data (nodes d) ++ [x] /\ style_elements d' = style_elements d.
Proof.
  intros d kids p x Hf Hp. pose proof (new_node_forest d x kids Hf) as Hf1.
  destruct (append_ok (fst (new_node d x)) kids p (length (nodes d))) as (d' & E & F & S & _); auto.
  - cbn. rewrite app_length. cbn. lia.
  - cbn. rewrite app_length. cbn. lia.
  - intro R. apply (leaf_anc _ kids) in R; auto; [lia|]. apply fresh_no_kids. auto.
  - exists d'. split; [exact E|]. split; [|split].
    + eapply in_forest_ext; [|exact F]. intro q. unfold appended, with_new.
      rewrite !without_absent by (apply fresh_not_kid; auto). destruct (Nat.eqb_spec q p) as [->|]; reflexivity.
    + destruct S as [S _]. rewrite S. cbn. rewrite map_app. reflexivity.
    + destruct S as [_ S]. rewrite S. reflexivity.
Qed.
Lemma insert_new : forall d kids s p l r x, in_forest d kids -> kids p = l ++ s :: r ->
  exists d', insert_before (fst (new_node d x)) s (length (nodes d)) = Ok d' /\
    in_forest d' (with_new p (length (nodes d)) l (s :: r) kids) /\
    map data (nodes d') = map data (nodes d) ++ [x] /\ style_elements d' = style_elements d.
Proof.
  intros d kids s p l r x Hf Kp. pose proof (new_node_forest d x kids Hf) as Hf1.
  assert (Is : In s (kids p)) by (rewrite Kp; apply in_or_app; right; left; auto).
  destruct (child_bounds _ _ _ _ Hf Is) as [Bs Bp].
  destruct (insert_before_ok (fst (new_node d x)) kids s (length (nodes d)) p) as (d' & E & F & S); auto.
  - cbn. rewrite app_length. cbn. lia.
  - apply (proj1 (proj2 (proj2 Hf1))). exact Is.
  - lia.
  - intro R. apply (leaf_anc _ kids) in R; auto; [lia|]. apply fresh_no_kids. auto.
  - exists d'. split; [exact E|]. split; [|split].
    + eapply in_forest_ext; [|exact F]. intro q. unfold inserted, with_new.
      rewrite !without_absent by (apply fresh_not_kid; auto). destruct (Nat.eqb_spec q p) as [->|N].
      * rewrite Kp. apply before_split. destruct Hf as (Nd & _). specialize (Nd p). rewrite Kp in Nd.
        apply nodup_mid in Nd. tauto.
      * apply before_absent. intro I. apply N. destruct Hf as (_ & _ & Pa & _). apply Pa in I. apply Pa in Is. congruence.
    + destruct S as [S _]. rewrite S. cbn. rewrite map_app. reflexivity.
    + destruct S as [_ S]. rewrite S. reflexivity.
Qed.

(** ** Changing data *)
Lemma set_data_ok : forall d kids x v, in_forest d kids -> x < length (nodes d) ->
  exists d', modify d x (set_data v) = Ok d' /\ in_forest d' kids /\ data_set d d' x v.
Proof.
  intros d kids x v Hf Hx. destruct (modify_ok d x (set_data v) Hx) as (d' & E & Q & L & St). exists d'. split; [auto|].
  split.
  - eapply in_forest_links; [|exact Hf]. intro j. rewrite Q. destruct (j =? x); reflexivity.
  - split; [auto|]. split; [auto|]. intro j. rewrite Q. destruct (j =? x); reflexivity.
Qed.

(** ** Inserting text *)
Lemma last_of : forall (l : list nat) x, hd_error (rev l) = Some x -> exists k, l = k ++ [x].
Proof.
  intros l x H. destruct (rev l) as [|y r] eqn:E; [discriminate|]. injection H as ->.
  exists (rev r). rewrite <- (rev_involutive l), E. reflexivity.
Qed.
Lemma text_dec : forall d i, (exists t, data (node_at d i) = DText t) \/ (forall t, data (node_at d i) <> DText t).
Proof. intros d i. destruct (data (node_at d i)); eauto; right; intros; discriminate. Qed.

Lemma append_text_ok : forall d kids p t, in_forest d kids -> p < length (nodes d) ->
  exists d', sink_append d p (AppendText t) = Ok d' /\ text_put d d' kids p (kids p) [] t.
Proof.
  intros d kids p t Hf Hp. unfold sink_append, append_common. rewrite index_ok by auto. cbn [bind].
  pose proof (proj1 (proj2 Hf) p) as [_ El]. rewrite El.
  destruct (append_new d kids p (DText t) Hf Hp) as (d' & E & F & M & St).
  destruct (hd_error (rev (kids p))) as [x|] eqn:Ex.
  - destruct (last_of _ _ Ex) as [k Ek].
    assert (Bx : x < length (nodes d)).
    { apply (child_bounds d kids p x Hf). rewrite Ek. apply in_or_app. right. left. auto. }
    rewrite index_ok by auto. cbn [bind]. destruct (text_dec d x) as [[t0 Et]|Nt].
    + rewrite Et. destruct (set_data_ok d kids x (DText (t0 ++ t)) Hf Bx) as (d1 & E1 & F1 & D1).
      exists d1. split; [exact E1|]. left. exists k, x, t0. auto.
    + exists d'. split; [|right; split; [|auto]].
      * destruct (data (node_at d x)); try exact E. destruct (Nt contents). auto.
      * intros k' x' Ek'. rewrite Ek in Ek'. apply app_inj_tail in Ek' as [_ <-]. intros [t' Ht']. eapply Nt; eauto.
  - exists d'. split; [exact E|]. right. split; [|auto]. intros k x Ek. rewrite Ek, rev_app_distr in Ex. discriminate.
Qed.

Lemma before_text_ok : forall d kids s p l r t, in_forest d kids -> kids p = l ++ s :: r ->
  exists d', append_before_sibling d s (AppendText t) = Ok d' /\ text_put d d' kids p l (s :: r) t.
Proof.
  intros d kids s p l r t Hf Kp. assert (Is : In s (kids p)) by (rewrite Kp; apply in_or_app; right; left; auto).
  destruct (child_bounds _ _ _ _ Hf Is) as [Bs Bp].
  unfold append_before_sibling, append_common. rewrite index_ok by auto. cbn [bind].
  destruct (proj1 (proj2 (proj2 (proj2 Hf))) p l s r Kp) as [Ev _]. rewrite Ev.
  destruct (insert_new d kids s p l r (DText t) Hf Kp) as (d' & E & F & M & St).
  destruct (hd_error (rev l)) as [x|] eqn:Ex.
  - destruct (last_of _ _ Ex) as [k Ek].
    assert (Bx : x < length (nodes d)).
    { apply (child_bounds d kids p x Hf). rewrite Kp, Ek, <- app_assoc. apply in_or_app. right. left. auto. }
    rewrite index_ok by auto. cbn [bind]. destruct (text_dec d x) as [[t0 Et]|Nt].
    + rewrite Et. destruct (set_data_ok d kids x (DText (t0 ++ t)) Hf Bx) as (d1 & E1 & F1 & D1).
      exists d1. split; [exact E1|]. left. exists k, x, t0. auto.
    + exists d'. split; [|right; split; [|auto]].
      * destruct (data (node_at d x)); try exact E. destruct (Nt contents). auto.
      * intros k' x' Ek'. rewrite Ek in Ek'. apply app_inj_tail in Ek' as [_ <-]. intros [t' Ht']. eapply Nt; eauto.
  - exists d'. split; [exact E|]. right. split; [|auto]. intros k x Ek. rewrite Ek, rev_app_distr in Ex. discriminate.
Qed.

(** ** Moving children *)
Lemma reparent_ok : forall d kids i p, in_forest d kids -> i < length (nodes d) -> p < length (nodes d) ->
  (forall c, In c (kids i) -> ~ inclusive_ancestor d c p) ->
  exists d', reparent_children d i p = Ok d' /\ same_data d d' /\
    in_forest d' (match kids i with [] => kids | c :: _ => appended p c kids end).
Proof.
  intros d kids i p Hf Hi Hp Na. unfold reparent_children. rewrite index_ok by auto. cbn [bind].
  pose proof (proj1 (proj2 Hf) i) as [-> _].
  destruct (kids i) as [|c r] eqn:Ek; cbn [hd_error].
  - exists d. destruct (length (nodes d)); (split; [reflexivity|]); split; auto; split; reflexivity.
  - assert (Ic : In c (kids i)) by (rewrite Ek; left; auto).
    destruct (child_bounds _ _ _ _ Hf Ic) as [Bc _].
    destruct (append_ok d kids p c Hf Bc Hp) as (d' & E & F & S & X); [apply Na; left; auto|].
    exists d'. split; [|auto]. destruct (length (nodes d)) as [|m] eqn:En; [lia|]. cbn [reparent_loop].
    rewrite index_ok by lia. cbn [bind].
    assert (Pc : parent (node_at d c) = Some i) by (apply (proj1 (proj2 (proj2 Hf))); exact Ic).
    rewrite Pc. cbn [is_id]. rewrite Nat.eqb_refl. cbn [assert bind]. rewrite E. cbn [bind].
    rewrite index_ok by (rewrite (same_data_length _ _ S); lia). cbn [bind]. rewrite X. destruct m; reflexivity.
Qed.

(** ** The invariant *)
Lemma in_appended : forall p c kids q x, In x (appended p c kids q) -> (In x (kids q) /\ x <> c) \/ (q = p /\ x = c).
Proof.
  intros p c kids q x. unfold appended. destruct (Nat.eqb_spec q p) as [->|].
  - rewrite in_app_iff, without_in. cbn [In]. intuition.
  - rewrite without_in. auto.
Qed.
Lemma in_before : forall s c l x, In x (before s c l) -> In x l \/ x = c.
Proof.
  induction l as [|y l IH]; intros x H; cbn [before] in H; [contradiction|].
  destruct (y =? s); cbn [In] in *; [intuition|]. destruct H as [H|H]; auto. destruct (IH _ H); auto.
Qed.
Lemma in_inserted : forall s c kids q x, In x (inserted s c kids q) -> In x (kids q) \/ (x = c /\ kids q <> []).
Proof.
  intros s c kids q x H. unfold inserted in H. destruct (kids q) as [|y r] eqn:E; [contradiction|].
  apply in_before in H as [H| ->]; [|right; split; [auto|discriminate]]. left. apply without_in in H. tauto.
Qed.
Lemma in_with_new : forall p n l r kids q x, kids p = l ++ r -> In x (with_new p n l r kids q) ->
  In x (kids q) \/ (q = p /\ x = n).
Proof.
  intros p n l r kids q x K. unfold with_new. destruct (Nat.eqb_spec q p) as [->|]; [|auto].
  rewrite K, !in_app_iff. cbn [In]. intuition.
Qed.

Lemma doc_keep : forall d d' kids kids', doc_forest d kids -> in_forest d' kids' ->
  length (nodes d) <= length (nodes d') -> data (node_at d' 1) = DDocument ->
  (forall q x, In x (kids' q) -> (In x (kids q)) \/ (q <> 0 /\ x <> 0 /\ x <> 1)) -> doc_forest d' kids'.
Proof.
  intros d d' kids kids' (F & L & Z & O & K & D) F' L' D' H. split; [auto|]. split; [lia|].
  split; [intros q I; apply H in I as [I|I]; [eapply Z; eauto|tauto]|].
  split; [intros q I; apply H in I as [I|I]; [eapply O; eauto|unfold document_node_id in I; tauto]|].
  split; [|auto]. destruct (kids' 0) as [|x r] eqn:E; auto. exfalso.
  destruct (H 0 x) as [I|I]; [rewrite E; left; auto| |tauto]. rewrite K in I. contradiction.
Qed.
Lemma map_data_at : forall d d' x j, map data (nodes d') = map data (nodes d) ++ [x] ->
  data (node_at d' j) = if j =? length (nodes d) then x else data (node_at d j).
Proof.
  intros d d' x j H. unfold node_at. rewrite <- !(map_nth data), H. cbn [data node_new].
  destruct (Nat.eqb_spec j (length (nodes d))) as [->|N].
  - rewrite app_nth2, map_length, Nat.sub_diag by (rewrite map_length; lia). reflexivity.
  - destruct (Nat.lt_ge_cases j (length (nodes d))); [apply app_nth1; rewrite map_length; auto|].
    rewrite !nth_overflow; auto; rewrite ?app_length, ?map_length; cbn; lia.
Qed.
Lemma map_data_length : forall d d' x, map data (nodes d') = map data (nodes d) ++ [x] ->
  length (nodes d') = S (length (nodes d)).
Proof.
  intros d d' x H. apply (f_equal (@length _)) in H. rewrite app_length, !map_length in H. cbn in H. lia.
Qed.

Lemma put_doc : forall d d' kids p l r t, doc_forest d kids -> kids p = l ++ r -> p <> 0 ->
  text_put d d' kids p l r t -> exists kids', doc_forest d' kids'.
Proof.
  intros d d' kids p l r t Hd K Np P. pose proof Hd as (F & L & Z & O & K0 & D).
  destruct P as [(k & x & t0 & E & Dx & F' & Dl & Ds & Da)|(_ & F' & M & _)].
  - exists kids. eapply doc_keep; [exact Hd|exact F'|lia| |auto]. rewrite Da. unfold document_node_id in D.
    destruct (Nat.eqb_spec 1 x) as [<-|]; [|exact D]. congruence.
  - exists (with_new p (length (nodes d)) l r kids). eapply doc_keep; [exact Hd|exact F'| | |].
    + rewrite (map_data_length _ _ _ M). lia.
    + rewrite (map_data_at _ _ _ _ M). destruct (Nat.eqb_spec 1 (length (nodes d))); [lia|]. exact D.
    + intros q y I. apply in_with_new in I as [I|[-> ->]]; [auto| |auto]. right. lia.
Qed.

Lemma sink_append_doc : forall d kids p c, doc_forest d kids -> valid_append d p c ->
  exists d' kids', sink_append d p c = Ok d' /\ doc_forest d' kids'.
Proof.
  intros d kids p c Hd V. pose proof Hd as (F & L & Z & O & K0 & D). destruct V as [[Vp Vl] V]. destruct c as [c|t].
  - destruct V as ([Vc Vcl] & Vd & Va). destruct (append_ok d kids p c F Vcl Vl Va) as (d' & E & F' & S & _).
    exists d', (appended p c kids). split; [exact E|]. eapply doc_keep; [exact Hd|exact F'| | |].
    + rewrite (same_data_length _ _ S). lia.
    + rewrite (same_data_at _ _ _ S). exact D.
    + intros q x I. apply in_appended in I as [[I _]|[-> ->]]; auto. right. unfold document_node_id in Vd. lia.
  - destruct (append_text_ok d kids p t F Vl) as (d' & E & P).
    destruct (put_doc d d' kids p (kids p) [] t Hd) as [kids' H]; auto; [symmetry; apply app_nil_r|lia|]. eauto.
Qed.
Lemma sink_insert_doc : forall d kids s c, doc_forest d kids -> valid_insert d s c ->
  exists d' kids', append_before_sibling d s c = Ok d' /\ doc_forest d' kids'.
Proof.
  intros d kids s c Hd V. pose proof Hd as (F & L & Z & O & K0 & D). destruct V as [[Vs Vl] (p & Ps & V)].
  assert (Is : In s (kids p)) by (apply (proj1 (proj2 (proj2 F))); exact Ps).
  assert (Np : p <> 0) by (intros ->; rewrite K0 in Is; contradiction).
  destruct c as [c|t].
  - destruct V as [[[Vc Vcl] [Vd Va]] Ncs].
    destruct (insert_before_ok d kids s c p F Vcl Ps Ncs Va) as (d' & E & F' & S).
    exists d', (inserted s c kids). split; [exact E|]. eapply doc_keep; [exact Hd|exact F'| | |].
    + rewrite (same_data_length _ _ S). lia.
    + rewrite (same_data_at _ _ _ S). exact D.
    + intros q x I. apply in_inserted in I as [I|[-> I]]; auto. right. unfold document_node_id in Vd.
      split; [intros ->; contradiction|]. lia.
  - destruct (in_split _ _ Is) as (l & r & Kp).
    destruct (before_text_ok d kids s p l r t F Kp) as (d' & E & P).
    destruct (put_doc d d' kids p l (s :: r) t Hd) as [kids' H]; auto. eauto.
Qed.

Lemma new_node_doc : forall d kids x, doc_forest d kids -> doc_forest (fst (new_node d x)) kids.
Proof.
  intros d kids x Hd. pose proof Hd as (F & L & Z & O & K0 & D).
  eapply doc_keep; [exact Hd|apply new_node_forest; auto| | |auto].
  - cbn. rewrite app_length. lia.
  - rewrite push_at. destruct (Nat.eqb_spec 1 (length (nodes d))); [lia|]. exact D.
Qed.

Lemma do_op_doc : forall d kids o, doc_forest d kids -> valid_op d o ->
  exists d' kids', do_op d o = Ok d' /\ doc_forest d' kids'.
Proof.
  intros d kids o Hd V. pose proof Hd as (F & L & Z & O & K0 & D).
  destruct o; cbn [valid_op do_op] in *.
  - eexists. exists kids. split; [reflexivity|]. unfold create_element. cbn [new_node push_node].
    pose proof (new_node_doc d kids (DElement (mkElement name attrs flag)) Hd) as H.
    destruct (is_html name (bs "style")); exact H.
  - eexists. exists kids. split; [reflexivity|]. apply new_node_doc. auto.
  - eexists. exists kids. split; [reflexivity|]. apply new_node_doc. auto.
  - eapply sink_append_doc; eauto.
  - eapply sink_insert_doc; eauto.
  - destruct V as ([Ve Vl] & V1 & V2). unfold append_based_on_parent_node. rewrite index_ok by auto. cbn [bind].
    destruct (parent (node_at d element)) as [q|] eqn:E; cbn [is_none].
    + eapply sink_insert_doc; eauto. apply V2. discriminate.
    + eapply sink_append_doc; eauto.
  - unfold append_doctype_to_document. destruct (append_new d kids 1 (DDoctype name public_id system_id) F) as (d' & E & F' & M & _);
      [lia|].
    exists d', (with_new 1 (length (nodes d)) (kids 1) [] kids). split; [exact E|].
    eapply doc_keep; [exact Hd|exact F'| | |].
    + rewrite (map_data_length _ _ _ M). lia.
    + rewrite (map_data_at _ _ _ _ M). destruct (Nat.eqb_spec 1 (length (nodes d))); [lia|]. exact D.
    + intros q y I. apply in_with_new in I as [I|[-> ->]]; [auto| |symmetry; apply app_nil_r]. right. lia.
  - destruct V as [[Vt Vl] [e De]]. unfold add_attrs_if_missing. rewrite index_ok by auto. cbn [bind]. rewrite De.
    match goal with |- context [set_data ?v] => destruct (set_data_ok d kids target v F Vl) as (d' & E & F' & Dl & Ds & Da) end.
    exists d', kids. split; [exact E|]. eapply doc_keep; [exact Hd|exact F'|lia| |auto]. rewrite Da.
    destruct (Nat.eqb_spec 1 target) as [<-|]; [|exact D]. unfold document_node_id in D. congruence.
  - destruct V as [Vt Vl]. destruct (detach_ok d kids target F Vl) as (d' & E & F' & S & _).
    exists d', (detached target kids). split; [exact E|]. eapply doc_keep; [exact Hd|exact F'| | |].
    + rewrite (same_data_length _ _ S). lia.
    + rewrite (same_data_at _ _ _ S). exact D.
    + intros q x I. apply without_in in I. tauto.
  - destruct V as ([V1 V2] & [V3 V4] & V5).
    destruct (reparent_ok d kids i new_parent F V2 V4) as (d' & E & S & F').
    { intros c I. apply V5. apply (proj1 (proj2 (proj2 F))). exact I. }
    eexists d', _. split; [exact E|]. eapply doc_keep; [exact Hd|exact F'| | |].
    + rewrite (same_data_length _ _ S). lia.
    + rewrite (same_data_at _ _ _ S). exact D.
    + intros q x I. destruct (kids i) as [|c r] eqn:Ei; [auto|]. apply in_appended in I as [[I _]|[-> ->]]; auto.
      right. split; [lia|]. assert (Ic : In c (kids i)) by (rewrite Ei; left; auto).
      split; intros ->; [apply (Z i)|apply (O i)]; auto.
Qed.

Lemma document_new_doc : doc_forest document_new (fun _ => []).
Proof.
  assert (E : forall j, node_at document_new j = node_new DDocument) by (intros [|[|[|j]]]; reflexivity).
  split; [|split; [cbn; lia|split; [auto|split; [auto|split; reflexivity]]]].
  split; [intro; constructor|]. split; [intro p; rewrite E; auto|].
  split; [intros p c; rewrite E; split; [intros []|discriminate]|].
  split; [intros p l c r H; destruct l; discriminate|].
  split; [intro c; rewrite E; auto|]. intro x. constructor. intros y [].
Qed.

Lemma run_ops_doc : forall ops d kids, doc_forest d kids -> valid_ops d ops ->
  exists d' kids', run_ops d ops = Ok d' /\ doc_forest d' kids'.
Proof.
  induction ops as [|o r IH]; intros d kids Hd V; cbn [run_ops]; [eauto|].
  inversion V as [|o' r' Vo Vr]; subst. destruct (do_op_doc d kids o Hd Vo) as (d1 & k1 & E & H1). rewrite E. cbn [bind].
  eapply IH; eauto.
Qed.

(** ** Links only *)
Lemma siblings_list : forall d kids p r l, in_forest d kids -> kids p = l ++ r -> siblings_from d (hd_error r) r.
Proof.
  induction r as [|c r IH]; intros l Hf K; cbn [siblings_from hd_error]; auto. split; [auto|].
  destruct (proj1 (proj2 (proj2 (proj2 Hf))) p l c r K) as [_ ->].
  apply (IH (l ++ [c])); auto. rewrite K, <- app_assoc. reflexivity.
Qed.
Lemma wf_irrefl_anc : forall d kids a p, in_forest d kids -> parent (node_at d a) = Some p -> ~ inclusive_ancestor d a p.
Proof.
  intros d kids a p Hf Pa R. apply (reach_anc d kids) in R; [|auto].
  assert (I : In a (kids p)) by (apply (proj1 (proj2 (proj2 Hf))); exact Pa).
  destruct Hf as (_ & _ & _ & _ & _ & W).
  assert (T : forall x, Acc (child_of kids) x -> forall y, reach kids x y -> In x (kids y) -> False).
  { clear - W. intros x A. induction A as [x _ IH]. intros y R I. apply clos_rt_rtn1 in R. destruct R as [|y z E R].
    - apply (IH x I x); [apply rt_refl|exact I].
    - apply clos_rtn1_rt in R. apply clos_rt_rt1n in R. destruct R as [|w y E' R].
      + apply (IH z E x); [apply rt_step; exact I|exact E].
      + apply clos_rt1n_rt in R. apply (IH w E' x); [|exact E'].
        eapply rt_trans; [exact R|]. eapply rt_trans; [apply rt_step; exact E|apply rt_step; exact I]. }
  exact (T a (W a) p R I).
Qed.
Lemma forest_well_linked : forall d kids, in_forest d kids -> well_linked d.
Proof.
  intros d kids Hf. pose proof Hf as (Nd & Fl & Pa & Sb & No & W).
  assert (Split : forall a, (exists p l r, kids p = l ++ a :: r) \/ parent (node_at d a) = None).
  { intro a. destruct (parent (node_at d a)) as [p|] eqn:E; auto. left. apply Pa in E. apply in_split in E as (l & r & E). eauto. }
  split; [|split; [|split; [|split; [|auto]]]].
  - intros a b. split; intro H.
    + destruct (Split a) as [(p & l & r & E)|E].
      * destruct (Sb _ _ _ _ E) as [_ X]. rewrite X in H. destruct r as [|y r]; [discriminate|]. injection H as ->.
        destruct (Sb p (l ++ [a]) b r) as [V _]; [rewrite E, <- app_assoc; reflexivity|].
        rewrite V, rev_app_distr. reflexivity.
      * destruct (No _ E). congruence.
    + destruct (Split b) as [(p & l & r & E)|E].
      * destruct (Sb _ _ _ _ E) as [V _]. rewrite V in H. apply last_of in H as [k ->].
        destruct (Sb p k a (b :: r)) as [_ X]; [rewrite E, <- app_assoc; reflexivity|]. exact X.
      * destruct (No _ E). congruence.
  - intros a b H. destruct (Split a) as [(p & l & r & E)|E].
    + destruct (Sb _ _ _ _ E) as [_ X]. rewrite X in H. destruct r as [|y r]; [discriminate|]. injection H as ->.
      transitivity (Some p); [|symmetry]; apply Pa; unfold child_of; rewrite E; apply in_or_app; right; cbn; auto.
    + destruct (No _ E). congruence.
  - intro p. exists (kids p). destruct (Fl p) as [-> ->].
    split; [apply (siblings_list d kids p (kids p) []); auto|]. split; [auto|]. split; [auto|]. intro c. apply Pa.
  - intros a p. apply (wf_irrefl_anc d kids). auto.
Qed.

(** The links determine the child lists. *)
Lemma siblings_det : forall d l1 l2 o, siblings_from d o l1 -> siblings_from d o l2 -> l1 = l2.
Proof.
  induction l1 as [|a l1 IH]; intros [|b l2] o H1 H2; cbn in *; auto; try (destruct H1, H2; congruence); try congruence.
  - destruct H2. congruence.
  - destruct H1. congruence.
  - destruct H1 as [-> H1], H2 as [E H2]. injection E as ->. f_equal. eapply IH; eauto.
Qed.
Lemma kids_unique : forall d k1 k2, in_forest d k1 -> in_forest d k2 -> forall p, k1 p = k2 p.
Proof.
  intros d k1 k2 H1 H2 p. eapply siblings_det.
  - apply (siblings_list d k1 p (k1 p) []); auto.
  - destruct (proj1 (proj2 H1) p) as [E1 _]. destruct (proj1 (proj2 H2) p) as [E2 _]. rewrite <- E1, E2.
    apply (siblings_list d k2 p (k2 p) []); auto.
Qed.

(** ** Texts after an insertion *)
Lemma texts_ext : forall d d' l, (forall j, In j l -> data (node_at d' j) = data (node_at d j)) -> texts_of d' l = texts_of d l.
Proof.
  induction l as [|x l IH]; intro H; auto. unfold texts_of in *. cbn [flat_map]. rewrite IH by (intros; apply H; right; auto).
  unfold text_of. rewrite (H x) by (left; auto). reflexivity.
Qed.
Lemma texts_app : forall d a b, texts_of d (a ++ b) = texts_of d a ++ texts_of d b.
Proof. intros. apply flat_map_app. Qed.
Lemma put_texts : forall d d' kids p l r t, in_forest d kids -> kids p = l ++ r -> text_put d d' kids p l r t ->
  exists kids', in_forest d' kids' /\ texts_of d' (kids' p) = texts_of d l ++ t ++ texts_of d r.
Proof.
  intros d d' kids p l r t Hf K [(k & x & t0 & El & E & F & L & _ & D)|(_ & F & M & _)].
  - exists kids. split; [auto|]. rewrite K, El. pose proof (proj1 Hf p) as Nd. rewrite K, El, <- app_assoc in Nd.
    apply nodup_mid in Nd as (Nk & Nr & _). rewrite !texts_app.
    rewrite (texts_ext d d' k), (texts_ext d d' r).
    + unfold texts_of at 2 5. cbn [flat_map]. unfold text_of. rewrite D, Nat.eqb_refl, E, !app_nil_r, <- !app_assoc. reflexivity.
    + intros j I. rewrite D. destruct (Nat.eqb_spec j x) as [->|]; auto. contradiction.
    + intros j I. rewrite D. destruct (Nat.eqb_spec j x) as [->|]; auto. contradiction.
  - eexists. split; [exact F|]. unfold with_new. rewrite Nat.eqb_refl, texts_app.
    assert (B : forall j, In j (l ++ r) -> j < length (nodes d)).
    { intros j I. rewrite <- K in I. apply (child_bounds d kids p j Hf I). }
    assert (S : forall j, In j (l ++ r) -> data (node_at d' j) = data (node_at d j)).
    { intros j I. rewrite (map_data_at _ _ _ _ M). specialize (B j I). destruct (Nat.eqb_spec j (length (nodes d))); [lia|auto]. }
    rewrite (texts_ext d d' l) by (intros; apply S; apply in_or_app; auto).
    unfold texts_of at 2. cbn [flat_map]. fold (texts_of d' r). rewrite (texts_ext d d' r) by (intros; apply S; apply in_or_app; auto).
    unfold text_of at 1. rewrite (map_data_at _ _ _ _ M), Nat.eqb_refl. reflexivity.
Qed.
