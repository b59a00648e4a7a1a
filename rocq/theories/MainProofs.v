(** Proofs for whole documents: what html5ever's calls leave, and styles for all elements *)
From Coq Require Import QArith Lia.
From Verif Require Import Base Dom DomSpec DomProofs DomTreeProofs DomWalkProofs DomStyleProofs DomProps
  StyleValues StyleProperties StyleCascade StyleSpec StyleElementSpec StyleElementProofs StyleProofs StyleValueProofs StyleProps
  BoxTree BoxTreeSpec MainSpec.
Local Open Scope nat_scope.

(** ** Texts *)
(** How one call changes the texts *)
Definition text_step (P : bytes -> Prop) (d d' : document) : Prop :=
  same_data d d' \/
  (exists x v, data_set d d' x v /\ forall t, v = DText t -> exists t0 t1, data (node_at d x) = DText t0 /\ t = t0 ++ t1 /\ P t1) \/
  (exists x, map data (nodes d') = map data (nodes d) ++ [x] /\ forall t, x = DText t -> P t).
Lemma put_text_step : forall (P : bytes -> Prop) d d' kids p l r t, P t -> text_put d d' kids p l r t -> text_step P d d'.
Proof.
  intros P d d' kids p l r t Ht [(k & x & t0 & _ & E & _ & S)|(_ & _ & M & St)]; right; [left|right].
  - exists x, (DText (t0 ++ t)). split; [exact S|]. intros t' Et. injection Et as <-. eauto.
  - exists (DText t). split; [exact M|]. intros t' Et. injection Et as <-. exact Ht.
Qed.
Lemma append_texts : forall (P : bytes -> Prop) d kids p c d', doc_forest d kids -> valid_append d p c ->
  (forall t, c = AppendText t -> P t) -> sink_append d p c = Ok d' -> text_step P d d'.
Proof.
  intros P d kids p c d' (F & L & Z & O & K0 & D) [[Vp Vl] V] HP E. destruct c as [c|t].
  - destruct V as ([Vc Vcl] & Vd & Va). destruct (append_ok d kids p c F Vcl Vl Va) as (d1 & E1 & _ & S & _).
    cbn in E. assert (d' = d1) as -> by congruence. left. exact S.
  - destruct (append_text_ok d kids p t F Vl) as (d1 & E1 & Pt).
    assert (d' = d1) as -> by congruence. eapply put_text_step; eauto.
Qed.
Lemma insert_texts : forall (P : bytes -> Prop) d kids s c d', doc_forest d kids -> valid_insert d s c ->
  (forall t, c = AppendText t -> P t) -> append_before_sibling d s c = Ok d' -> text_step P d d'.
Proof.
  intros P d kids s c d' (F & L & Z & O & K0 & D) [[Vs Vl] (p & Ps & V)] HP E.
  assert (Is : In s (kids p)) by (apply (proj1 (proj2 (proj2 F))); exact Ps).
  destruct c as [c|t].
  - destruct V as [[[Vc Vcl] [Vd Va]] Ncs].
    destruct (insert_before_ok d kids s c p F Vcl Ps Ncs Va) as (d1 & E1 & _ & S).
    cbn in E. assert (d' = d1) as -> by congruence. left. exact S.
  - destruct (in_split _ _ Is) as (l & r & Kp).
    destruct (before_text_ok d kids s p l r t F Kp) as (d1 & E1 & Pt).
    assert (d' = d1) as -> by congruence. eapply put_text_step; eauto.
Qed.
Lemma do_op_texts : forall (P : bytes -> Prop) d kids o d', doc_forest d kids -> valid_op d o ->
  (forall t, In t (given_text o) -> P t) -> do_op d o = Ok d' -> text_step P d d'.
Proof.
  intros P d kids o d' Hd V HP E. pose proof Hd as (F & L & Z & O & K0 & D).
  destruct o; cbn [valid_op do_op] in *.
  - assert (d' = fst (create_element d name attrs flag)) as -> by congruence. right. right.
    exists (DElement (mkElement name attrs flag)). split; [|discriminate]. unfold create_element. cbn [new_node push_node fst].
    destruct (is_html name (bs "style")); cbn [nodes]; rewrite map_app; auto.
  - assert (d' = fst (create_comment d text)) as -> by congruence. right. right. exists (DComment text). cbn. rewrite map_app. split; [reflexivity|discriminate].
  - assert (d' = fst (create_pi d target x)) as -> by congruence. right. right. exists (DProcessingInstruction target x). cbn. rewrite map_app. split; [reflexivity|discriminate].
  - eapply append_texts; eauto. intros t ->. apply HP. left. reflexivity.
  - eapply insert_texts; eauto. intros t ->. apply HP. left. reflexivity.
  - destruct V as ([Ve Vl] & V1 & V2). unfold append_based_on_parent_node in E. rewrite index_ok in E by auto. cbn [bind] in E.
    destruct (parent (node_at d element)) as [q|] eqn:Ep; cbn [is_none] in E.
    + eapply insert_texts; eauto; [apply V2; discriminate|]. intros t ->. apply HP. left. reflexivity.
    + eapply append_texts; eauto. intros t ->. apply HP. left. reflexivity.
  - unfold append_doctype_to_document in E.
    destruct (append_new d kids 1 (DDoctype name public_id system_id) F) as (d1 & E1 & F' & M & St); [lia|].
    cbn [new_node push_node] in E. change (append (fst (new_node d (DDoctype name public_id system_id))) 1 (length (nodes d)) = Ok d') in E.
    assert (d' = d1) as -> by congruence. right. right. eexists. split; [exact M|discriminate].
  - destruct V as [[Vt Vl] [e De]]. unfold add_attrs_if_missing in E. rewrite index_ok in E by auto. cbn [bind] in E. rewrite De in E.
    match type of E with context [set_data ?v] => destruct (set_data_ok d kids target v F Vl) as (d1 & E1 & F' & S)end.
    assert (d' = d1) as -> by congruence. right. left. eexists target, _. split; [exact S|discriminate].
  - destruct V as [Vt Vl]. destruct (detach_ok d kids target F Vl) as (d1 & E1 & F' & S & _).
    unfold remove_from_parent in E. assert (d' = d1) as -> by congruence. left. exact S.
  - destruct V as ([V1 V2] & [V3 V4] & V5).
    destruct (reparent_ok d kids i new_parent F V2 V4) as (d1 & E1 & S & F').
    { intros c I. apply V5. apply (proj1 (proj2 (proj2 F))). exact I. }
    assert (d' = d1) as -> by congruence. left. exact S.
Qed.
Section Texts.
Variable P : bytes -> Prop.
Hypothesis P_app : forall a b, P a -> P b -> P (a ++ b).
Lemma step_texts : forall d d', text_step P d d' -> (forall i t, data (node_at d i) = DText t -> P t) ->
  forall i t, data (node_at d' i) = DText t -> P t.
Proof.
  intros d d' [S|[(x & v & (L & St & Da) & E)|(x & M & E)]] H i t Hi.
  - rewrite (same_data_at _ _ _ S) in Hi. eauto.
  - rewrite Da in Hi. destruct (Nat.eqb_spec i x) as [->|]; [|eauto]. destruct (E t Hi) as (t0 & t1 & E0 & -> & P1). eauto.
  - rewrite (map_data_at _ _ _ _ M) in Hi. destruct (i =? length (nodes d)); eauto.
Qed.
Lemma run_texts : forall ops d kids d', doc_forest d kids -> valid_ops d ops ->
  (forall o t, In o ops -> In t (given_text o) -> P t) -> run_ops d ops = Ok d' ->
  (forall i t, data (node_at d i) = DText t -> P t) -> forall i t, data (node_at d' i) = DText t -> P t.
Proof.
  induction ops as [|o r IH]; intros d kids d' Hd V HP E H; cbn [run_ops] in E; [injection E as <-; exact H|].
  inversion V as [|o' r' Vo Vr]; subst. destruct (do_op_doc d kids o Hd Vo) as (d1 & k1 & E1 & H1). rewrite E1 in E. cbn [bind] in E.
  refine (IH d1 k1 d' H1 (Vr d1 E1) _ E _); [intros o' t I; apply HP; right; exact I|].
  apply (step_texts d d1); [|exact H]. eapply do_op_texts; eauto. intros t I. apply (HP o t); [left; reflexivity|exact I].
Qed.
End Texts.
Lemma encodes_app : forall a b, (exists cs, encodes a cs) -> (exists cs, encodes b cs) -> exists cs, encodes (a ++ b) cs.
Proof.
  intros a b (ca & Fa & Ea) (cb & Fb & Eb). exists (ca ++ cb). split; [apply Forall_app; auto|]. rewrite flat_map_app. congruence.
Qed.

(** ** Style sheets *)
Lemma clean_means : forall pc selector (css : list (source_rule selector)), clean_sheet pc css -> exists out, sheet_means pc css out.
Proof.
  intros pc selector css H. induction css as [|[sels body|] css IH].
  - exists []. constructor.
  - destruct IH as (out & M). { intros s b i I. apply (H s b i). right. exact I. }
    destruct (means_exists pc body) as (ds & B). { intros i I. apply (H sels body i); [left; reflexivity|exact I]. }
    eexists. constructor; eauto.
  - destruct IH as (out & M). { intros s b i I. apply (H s b i). right. exact I. }
    exists out. constructor. exact M.
Qed.
Lemma clean_sheets : forall pc selector (l : list (list (source_rule selector))), Forall (clean_sheet pc) l ->
  exists s, add_stylesheets pc selector [] l = Ok s.
Proof.
  intros pc selector l H. assert (X : exists outs, Forall2 (sheet_means pc) l outs).
  { induction H as [|css l C _ (outs & F)]; [exists []; constructor|]. destruct (clean_means pc selector css C) as (out & M). exists (out :: outs). constructor; assumption. }
  destruct X as (outs & F). exact (C29_sheets_parse pc selector l outs F).
Qed.
Lemma dirty_sheets : forall pc selector (l : list (list (source_rule selector))) s css sels body i,
  In css l -> In (StyleRule sels body) css -> In i body -> trailing pc i -> add_stylesheets pc selector s l = Panic.
Proof.
  assert (One : forall pc selector (css : list (source_rule selector)) s sels body i,
    In (StyleRule sels body) css -> In i body -> trailing pc i -> add_stylesheet pc selector s css = Panic).
  { intros pc selector css. induction css as [|r css IH]; intros s sels body i R I T; [contradiction|]. destruct R as [-> |R]; cbn [add_stylesheet].
    - rewrite (proj2 (C40_panics pc body)) by eauto. reflexivity.
    - destruct r as [sels' body'|]; [|eauto]. destruct (parse_block pc body') as [b|x|]; [cbn [bind]; eauto|destruct x|reflexivity]. }
  intros pc selector l. induction l as [|c l IH]; intros s css sels body i C R I T; [contradiction|]. cbn [add_stylesheets].
  destruct C as [-> |C]; [rewrite (One pc selector css s sels body i R I T); reflexivity|].
  destruct (add_stylesheet pc selector s c) as [x|x|]; [cbn [bind]; eauto|destruct x|reflexivity].
Qed.

(** ** Trees *)
Lemma subtree_same : forall k1 k2 : nat -> list nat, (forall p, k1 p = k2 p) ->
  forall t1, subtree k1 t1 -> forall t2, subtree k2 t2 -> root t1 = root t2 -> t1 = t2.
Proof.
  intros k1 k2 K. fix IH 1. intros [i ts] H1 [j us] H2 E. cbn [root] in E. subst j. f_equal.
  inversion H1 as [? ? E1 F1]; subst. inversion H2 as [? ? E2 F2]; subst. rewrite K, E2 in E1. clear H1 H2 E2 K.
  revert us E1 F1 F2. induction ts as [|t ts IHts]; intros [|u us] E F1 F2; cbn [map] in E; try discriminate E; [reflexivity|].
  injection E as Er Es. inversion F1; subst. inversion F2; subst. f_equal; [apply IH; auto|apply IHts; auto].
Qed.
