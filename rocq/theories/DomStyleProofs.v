(** Which style sheets and links a document has *)
From Coq Require Import Relations.
From Verif Require Import Base Dom DomSpec DomProofs DomTreeProofs DomWalkProofs.
Local Open Scope res_scope.

(** How one call changes the data *)
Definition data_step (d d' : document) : Prop :=
  same_data d d' \/
  (exists x v, data_set d d' x v /\ html_style v = html_style (data (node_at d x))) \/
  (exists x, map data (nodes d') = map data (nodes d) ++ [x] /\
     style_elements d' = style_elements d ++ (if html_style x then [length (nodes d)] else [])).

Lemma put_step : forall d d' kids p l r t, text_put d d' kids p l r t -> data_step d d'.
Proof.
  intros d d' kids p l r t [(k & x & t0 & _ & E & _ & S)|(_ & _ & M & St)]; right; [left|right].
  - exists x, (DText (t0 ++ t)). split; [exact S|]. rewrite E. reflexivity.
  - exists (DText t). split; [exact M|]. cbn. rewrite app_nil_r. exact St.
Qed.
Lemma sink_append_step : forall d kids p c d', doc_forest d kids -> valid_append d p c ->
  sink_append d p c = Ok d' -> data_step d d'.
Proof.
  intros d kids p c d' (F & L & Z & O & K0 & D) [[Vp Vl] V] E. destruct c as [c|t].
  - destruct V as ([Vc Vcl] & Vd & Va). destruct (append_ok d kids p c F Vcl Vl Va) as (d1 & E1 & _ & S & _).
    cbn in E. assert (d' = d1) as -> by congruence. left. exact S.
  - destruct (append_text_ok d kids p t F Vl) as (d1 & E1 & P).
    assert (d' = d1) as -> by congruence. eapply put_step; eauto.
Qed.
Lemma sink_insert_step : forall d kids s c d', doc_forest d kids -> valid_insert d s c ->
  append_before_sibling d s c = Ok d' -> data_step d d'.
Proof.
  intros d kids s c d' (F & L & Z & O & K0 & D) [[Vs Vl] (p & Ps & V)] E.
  assert (Is : In s (kids p)) by (apply (proj1 (proj2 (proj2 F))); exact Ps).
  destruct c as [c|t].
  - destruct V as [[[Vc Vcl] [Vd Va]] Ncs].
    destruct (insert_before_ok d kids s c p F Vcl Ps Ncs Va) as (d1 & E1 & _ & S).
    cbn in E. assert (d' = d1) as -> by congruence. left. exact S.
  - destruct (in_split _ _ Is) as (l & r & Kp).
    destruct (before_text_ok d kids s p l r t F Kp) as (d1 & E1 & P).
    assert (d' = d1) as -> by congruence. eapply put_step; eauto.
Qed.
Lemma do_op_step : forall d kids o d', doc_forest d kids -> valid_op d o -> do_op d o = Ok d' -> data_step d d'.
Proof.
  intros d kids o d' Hd V E. pose proof Hd as (F & L & Z & O & K0 & D).
  destruct o; cbn [valid_op do_op] in *.
  - assert (d' = fst (create_element d name attrs flag)) as -> by congruence. right. right.
    exists (DElement (mkElement name attrs flag)). unfold create_element, html_style. cbn [new_node push_node fst e_name].
    destruct (is_html name (bs "style")); cbn [nodes style_elements]; rewrite ?app_nil_r, map_app; auto.
  - assert (d' = fst (create_comment d text)) as -> by congruence. right. right. exists (DComment text). cbn. rewrite map_app, app_nil_r. split; reflexivity.
  - assert (d' = fst (create_pi d target x)) as -> by congruence. right. right. exists (DProcessingInstruction target x). cbn. rewrite map_app, app_nil_r. split; reflexivity.
  - eapply sink_append_step; eauto.
  - eapply sink_insert_step; eauto.
  - destruct V as ([Ve Vl] & V1 & V2). unfold append_based_on_parent_node in E. rewrite index_ok in E by auto. cbn [bind] in E.
    destruct (parent (node_at d element)) as [q|] eqn:Ep; cbn [is_none] in E.
    + eapply sink_insert_step; eauto. apply V2. discriminate.
    + eapply sink_append_step; eauto.
  - unfold append_doctype_to_document in E.
    destruct (append_new d kids 1 (DDoctype name public_id system_id) F) as (d1 & E1 & F' & M & St); [lia|].
    cbn [new_node push_node] in E. change (append (fst (new_node d (DDoctype name public_id system_id))) 1 (length (nodes d)) = Ok d') in E.
    assert (d' = d1) as -> by congruence. right. right. eexists. split; [exact M|]. cbn. rewrite app_nil_r. exact St.
  - destruct V as [[Vt Vl] [e De]]. unfold add_attrs_if_missing in E. rewrite index_ok in E by auto. cbn [bind] in E. rewrite De in E.
    match type of E with context [set_data ?v] => destruct (set_data_ok d kids target v F Vl) as (d1 & E1 & F' & S)end.
    assert (d' = d1) as -> by congruence. right. left. eexists target, _. split; [exact S|]. rewrite De. reflexivity.
  - destruct V as [Vt Vl]. destruct (detach_ok d kids target F Vl) as (d1 & E1 & F' & S & _).
    unfold remove_from_parent in E. assert (d' = d1) as -> by congruence. left. exact S.
  - destruct V as ([V1 V2] & [V3 V4] & V5).
    destruct (reparent_ok d kids i new_parent F V2 V4) as (d1 & E1 & S & F').
    { intros c I. apply V5. apply (proj1 (proj2 (proj2 F))). exact I. }
    assert (d' = d1) as -> by congruence. left. exact S.
Qed.

Lemma step_styles : forall d d', data_step d d' -> style_elements d = style_ids d -> style_elements d' = style_ids d'.
Proof.
  intros d d' S H. unfold style_ids. destruct S as [S|[(x & v & (L & St & Da) & E)|(x & M & St)]].
  - rewrite (same_data_length _ _ S), (proj2 S), H. unfold style_ids. apply filter_ext. intro i.
    rewrite (same_data_at _ _ _ S). reflexivity.
  - rewrite L, St, H. unfold style_ids. apply filter_ext. intro i. rewrite Da.
    destruct (Nat.eqb_spec i x) as [->|]; auto.
  - rewrite (map_data_length _ _ _ M), St, H. unfold style_ids. rewrite seq_S, filter_app. cbn [filter app plus].
    rewrite (map_data_at _ _ _ _ M), Nat.eqb_refl. f_equal.
    apply filter_ext_in. intros i I. apply in_seq in I. rewrite (map_data_at _ _ _ _ M).
    destruct (Nat.eqb_spec i (length (nodes d))); [lia|auto].
Qed.
Lemma run_styles : forall ops d kids d', doc_forest d kids -> valid_ops d ops -> run_ops d ops = Ok d' ->
  style_elements d = style_ids d -> style_elements d' = style_ids d'.
Proof.
  induction ops as [|o r IH]; intros d kids d' Hd V E H; cbn [run_ops] in E; [congruence|].
  inversion V as [|o' r' Vo Vr]; subst. destruct (do_op_doc d kids o Hd Vo) as (d1 & k1 & E1 & H1). rewrite E1 in E. cbn [bind] in E.
  eapply IH; eauto. eapply step_styles; eauto. eapply do_op_step; eauto.
Qed.

Lemma style_texts_ok : forall d kids l, in_forest d kids ->
  (forall i, In i l -> i < length (nodes d) /\ html_style (data (node_at d i)) = true) ->
  exists ts, style_texts d l = Ok ts /\ css_texts d kids l ts.
Proof.
  induction l as [|i l IH]; intros Hf H; [exists []; split; [reflexivity|constructor]|].
  destruct IH as (ts & E & C); [auto|intros; apply H; right; auto|]. destruct (H i) as [B S]; [left; auto|].
  cbn [style_texts]. rewrite index_ok by auto. cbn [bind]. unfold as_element.
  destruct (data (node_at d i)) as [| | | |e|] eqn:D; try discriminate.
  destruct (get_attr e (bs "type")) as [v|] eqn:G.
  - destruct (eq_ignore_ascii_case v (bs "text/css")) eqn:Q; cbn [negb].
    + rewrite (child_text_ok d kids) by auto. cbn [bind]. rewrite E. cbn [bind]. eexists. split; [reflexivity|].
      apply ct_css; auto. unfold css_type. rewrite D. intros w Hw. apply get_attr_first in Hw. congruence.
    + exists ts. split; [auto|]. apply ct_other; auto. unfold css_type. rewrite D. intro K. apply get_attr_first in G. rewrite (K v G) in Q. discriminate.
  - rewrite (child_text_ok d kids) by auto. cbn [bind]. rewrite E. cbn [bind]. eexists. split; [reflexivity|].
    apply ct_css; auto. unfold css_type. rewrite D. intros w Hw. apply get_attr_first in Hw. congruence.
Qed.

Lemma link_elements_ok : forall d l, (forall i, In i l -> i < length (nodes d)) ->
  exists r, link_elements d l = Ok r /\ links_of d l r.
Proof.
  induction l as [|i l IH]; intro B; [exists []; split; [reflexivity|constructor]|].
  destruct IH as (r & E & C); [intros; apply B; right; auto|].
  cbn [link_elements]. rewrite index_ok by (apply B; left; auto). cbn [bind]. rewrite E. cbn [bind].
  eexists. split; [reflexivity|]. unfold as_element.
  destruct (data (node_at d i)) as [| | | |e|] eqn:D; try (apply lo_skip; auto; intros; congruence).
  destruct (is_html (e_name e) (bs "link")) eqn:Q.
  - apply andb_true_iff in Q as [Q1 Q2]. apply bytes_eqb_eq in Q1, Q2.
    destruct (get_attr e (bs "rel")) as [rel|] eqn:G1; [destruct (get_attr e (bs "href")) as [href|] eqn:G2|].
    + apply get_attr_first in G1, G2. eapply lo_link; eauto.
    + apply lo_skip; auto. intros e' rel' href' De _ _ _ H2. assert (e' = e) as -> by congruence. apply get_attr_first in H2. congruence.
    + apply lo_skip; auto. intros e' rel' href' De _ _ H2 _. assert (e' = e) as -> by congruence. apply get_attr_first in H2. congruence.
  - apply lo_skip; auto. intros e' rel' href' De H1 H2 _ _. assert (e' = e) as -> by congruence.
    apply not_true_iff_false in Q. apply Q. unfold is_html. rewrite H1, H2. reflexivity.
Qed.
