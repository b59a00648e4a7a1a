(** Proofs about the element relations used in selector matching. *)
From Verif Require Import Base Dom DomSpec DomProofs DomTreeProofs DomWalkProofs StyleSelectors StyleSelectorSpec.

Lemma element_dec : forall n, (exists e, as_element n = Some e /\ data n = DElement e) \/ (as_element n = None /\ ~ is_element (data n)).
Proof.
  intro n. unfold as_element. destruct (data n) eqn:E; try (right; split; [reflexivity|]; intros []). left. eauto.
Qed.
Lemma find_forward : forall d kids p r l fuel x, in_forest d kids -> kids p = l ++ x :: r -> S (length r) <= fuel ->
  exists o, find_element_loop fuel d x next_sibling = Ok o /\ first_element d (x :: r) o.
Proof.
  induction r as [|y r IH]; intros l fuel x F E L; (destruct fuel as [|fuel]; [cbn in L; lia|]); cbn [find_element_loop];
    assert (B : x < length (nodes d)) by (apply (child_bounds d kids p x F); rewrite E; apply in_or_app; right; left; auto);
    rewrite (index_ok d x B); cbn [bind]; destruct (element_dec (node_at d x)) as [(e & -> & D)|[-> D]];
    try (eexists; split; [reflexivity|]; constructor; rewrite D; exact I);
    pose proof (proj1 (proj2 (proj2 (proj2 F))) p l x _ E) as [_ N]; rewrite N; cbn [hd_error].
  - eexists. split; [reflexivity|]. constructor; [exact D|constructor].
  - destruct (IH (l ++ [x]) fuel y F) as (o & H1 & H2); [rewrite E, <- app_assoc; reflexivity|cbn in L; lia|].
    exists o. split; [exact H1|]. apply fe_skip; auto.
Qed.
Lemma find_backward : forall d kids p l x r fuel, in_forest d kids -> kids p = rev l ++ x :: r -> S (length l) <= fuel ->
  exists o, find_element_loop fuel d x previous_sibling = Ok o /\ first_element d (x :: l) o.
Proof.
  induction l as [|y l IH]; intros x r fuel F E L; (destruct fuel as [|fuel]; [cbn in L; lia|]); cbn [find_element_loop];
    assert (B : x < length (nodes d)) by (apply (child_bounds d kids p x F); rewrite E; apply in_or_app; right; left; auto);
    rewrite (index_ok d x B); cbn [bind]; destruct (element_dec (node_at d x)) as [(e & -> & D)|[-> D]];
    try (eexists; split; [reflexivity|]; constructor; rewrite D; exact I);
    pose proof (proj1 (proj2 (proj2 (proj2 F))) p _ x r E) as [N _]; rewrite N, rev_involutive; cbn [hd_error].
  - eexists. split; [reflexivity|]. constructor; [exact D|constructor].
  - destruct (IH y (x :: r) fuel F) as (o & H1 & H2); [rewrite E; cbn [rev]; rewrite <- app_assoc; reflexivity|cbn in L; lia|].
    exists o. split; [exact H1|]. apply fe_skip; auto.
Qed.
Lemma next_sibling_ok : forall d kids p l x r, in_forest d kids -> kids p = l ++ x :: r ->
  exists o, next_sibling_element d x = Ok o /\ first_element d r o.
Proof.
  intros d kids p l x r F E. unfold next_sibling_element.
  assert (B : x < length (nodes d)) by (apply (child_bounds d kids p x F); rewrite E; apply in_or_app; right; left; auto).
  rewrite (index_ok d x B). cbn [bind]. pose proof (proj1 (proj2 (proj2 (proj2 F))) p l x r E) as [_ N]. rewrite N.
  destruct r as [|y r]; cbn [hd_error find_element]; [eexists; split; [reflexivity|constructor]|].
  eapply find_forward with (l := l ++ [x]); [exact F|rewrite E, <- app_assoc; reflexivity|].
  pose proof (kids_length d kids p F) as K. rewrite E, app_length in K. cbn in K. lia.
Qed.
Lemma prev_sibling_ok : forall d kids p l x r, in_forest d kids -> kids p = l ++ x :: r ->
  exists o, prev_sibling_element d x = Ok o /\ first_element d (rev l) o.
Proof.
  intros d kids p l x r F E. unfold prev_sibling_element.
  assert (B : x < length (nodes d)) by (apply (child_bounds d kids p x F); rewrite E; apply in_or_app; right; left; auto).
  rewrite (index_ok d x B). cbn [bind]. pose proof (proj1 (proj2 (proj2 (proj2 F))) p l x r E) as [N _]. rewrite N.
  destruct (rev l) as [|y k] eqn:R; cbn [hd_error find_element]; [eexists; split; [reflexivity|constructor]|].
  assert (l = rev k ++ [y]) as -> by (rewrite <- (rev_involutive l), R; reflexivity).
  eapply find_backward with (r := x :: r); [exact F|rewrite E, <- app_assoc; reflexivity|].
  pose proof (kids_length d kids p F) as K. rewrite E, !app_length, rev_length in K. cbn in K. lia.
Qed.
Lemma top_siblings : forall d kids x, in_forest d kids -> x < length (nodes d) -> parent (node_at d x) = None ->
  next_sibling_element d x = Ok None /\ prev_sibling_element d x = Ok None.
Proof.
  intros d kids x F B P. destruct (proj1 (proj2 (proj2 (proj2 (proj2 F)))) x P) as [V N].
  unfold next_sibling_element, prev_sibling_element. rewrite (index_ok d x B). cbn [bind]. rewrite V, N. split; reflexivity.
Qed.
Lemma parent_element_ok : forall d kids x, in_forest d kids -> x < length (nodes d) ->
  exists o, parent_element d x = Ok o /\
    forall p, o = Some p <-> In x (kids p) /\ is_element (data (node_at d p)).
Proof.
  intros d kids x F B. unfold parent_element. rewrite (index_ok d x B). cbn [bind].
  pose proof (proj1 (proj2 (proj2 F))) as K. unfold child_of in K.
  destruct (parent (node_at d x)) as [q|] eqn:P.
  - assert (Bq : q < length (nodes d)) by (apply (child_bounds d kids q x F), K, P). rewrite (index_ok d q Bq). cbn [bind].
    destruct (element_dec (node_at d q)) as [(e & -> & D)|[-> D]]; eexists; (split; [reflexivity|]); intro p; rewrite K, P.
    + split; [intro H; injection H as <-; rewrite D; split; [reflexivity|exact I]|intros [H _]; exact H].
    + split; [discriminate|]. intros [H H']. injection H as <-. contradiction.
  - eexists. split; [reflexivity|]. intro p. rewrite K, P. split; [discriminate|]. intros [H _]. discriminate H.
Qed.
Lemma empty_loop_ok : forall d kids p r l fuel x, in_forest d kids -> kids p = l ++ x :: r -> S (length r) <= fuel ->
  exists b, is_empty_loop fuel d x = Ok b /\ (b = true <-> no_content d (x :: r)).
Proof.
  induction r as [|y r IH]; intros l fuel x F E L; (destruct fuel as [|fuel]; [cbn in L; lia|]); cbn [is_empty_loop];
    assert (B : x < length (nodes d)) by (apply (child_bounds d kids p x F); rewrite E; apply in_or_app; right; left; auto);
    rewrite (index_ok d x B); cbn [bind];
    pose proof (proj1 (proj2 (proj2 (proj2 F))) p l x _ E) as [_ N]; rewrite N; cbn [hd_error].
  - unfold as_element, as_text. destruct (data (node_at d x)) eqn:D;
      try (eexists; split; [reflexivity|]; split; [intros _ i [<-|[]]; rewrite D; split; [intros []|intros; discriminate]|reflexivity]).
    + destruct contents as [|b t]; eexists; (split; [reflexivity|]).
      * split; [|reflexivity]. intros _ i [<-|[]]. rewrite D. split; [intros []|]. intros t H. congruence.
      * split; [discriminate|]. intro H. destruct (H x (or_introl eq_refl)) as [_ H']. specialize (H' _ D). discriminate H'.
    + eexists. split; [reflexivity|]. split; [discriminate|]. intro H. destruct (H x (or_introl eq_refl)) as [H' _]. exfalso. apply H'. rewrite D. exact I.
  - assert (IH' : exists b, is_empty_loop fuel d y = Ok b /\ (b = true <-> no_content d (y :: r))).
    { eapply (IH (l ++ [x])); [exact F|rewrite E, <- app_assoc; reflexivity|cbn in L; lia]. }
    assert (Step : (~ is_element (data (node_at d x)) /\ forall t, data (node_at d x) = DText t -> t = []) ->
                   exists b, is_empty_loop fuel d y = Ok b /\ (b = true <-> no_content d (x :: y :: r))).
    { intro H. destruct IH' as (b & Hb & Hb'). exists b. split; [exact Hb|]. rewrite Hb'. split.
      - intros G i [<-|I]; auto.
      - intros G i I. apply G. right; auto. }
    unfold as_element, as_text. destruct (data (node_at d x)) eqn:D;
      try (apply Step; split; [intros []|intros; discriminate]).
    + destruct contents as [|b t]; [apply Step; split; [intros []|intros t H; congruence]|].
      eexists; (split; [reflexivity|]). split; [discriminate|]. intro H. destruct (H x (or_introl eq_refl)) as [_ H']. specialize (H' _ D). discriminate H'.
    + eexists. split; [reflexivity|]. split; [discriminate|]. intro H. destruct (H x (or_introl eq_refl)) as [H' _]. exfalso. apply H'. rewrite D. exact I.
Qed.
Lemma is_empty_ok : forall d kids x, in_forest d kids -> x < length (nodes d) ->
  exists b, is_empty d x = Ok b /\ (b = true <-> no_content d (kids x)).
Proof.
  intros d kids x F B. unfold is_empty. rewrite (index_ok d x B). cbn [bind]. destruct (proj1 (proj2 F) x) as [Ef _]. rewrite Ef.
  destruct (kids x) as [|c r] eqn:E; cbn [hd_error].
  - eexists. split; [reflexivity|]. split; [|reflexivity]. intros _ i [].
  - eapply empty_loop_ok with (l := []) (p := x); [exact F|exact E|]. pose proof (kids_length d kids x F) as K. rewrite E in K. exact K.
Qed.
Lemma is_root_ok : forall d kids x, in_forest d kids -> x < length (nodes d) ->
  exists b, is_root d x = Ok b /\ (b = true <-> forall p, In x (kids p) -> ~ is_element (data (node_at d p))).
Proof.
  intros d kids x F B. unfold is_root. destruct (parent_element_ok d kids x F B) as (o & -> & H). cbn [bind].
  eexists. split; [reflexivity|]. destruct o as [p|]; cbn [is_none].
  - split; [discriminate|]. intro G. destruct (proj1 (H p) eq_refl) as [H1 H2]. exfalso. eapply G; eauto.
  - split; [|reflexivity]. intros _ p I E. assert (None = Some p) as C by (apply H; auto). discriminate C.
Qed.

(** ** Attributes *)
Lemma unwrap_ok : forall d x e, x < length (nodes d) -> data (node_at d x) = DElement e -> unwrap_element d x = Ok e.
Proof. intros d x e B D. unfold unwrap_element. rewrite (index_ok d x B). cbn [bind]. unfold as_element. rewrite D. reflexivity. Qed.
Lemma has_id_ok : forall d x e id, x < length (nodes d) -> data (node_at d x) = DElement e ->
  exists b, has_id d x id CaseSensitive = Ok b /\ (b = true <-> first_attr (bs "id") (e_attrs e) (Some id)).
Proof.
  intros d x e id B D. unfold has_id. rewrite (unwrap_ok d x e B D). cbn [bind]. eexists. split; [reflexivity|].
  rewrite <- get_attr_first. destruct (get_attr e (bs "id")) as [v|]; cbn [case_eq].
  - rewrite bytes_eqb_eq. split; [intros ->; reflexivity|congruence].
  - split; discriminate.
Qed.
Lemma has_class_whole : forall d x e class, x < length (nodes d) -> data (node_at d x) = DElement e ->
  exists b, has_class d x class CaseSensitive = Ok b /\ (b = true <-> first_attr (bs "class") (e_attrs e) (Some class)).
Proof.
  intros d x e class B D. unfold has_class. rewrite (unwrap_ok d x e B D). cbn [bind]. eexists. split; [reflexivity|].
  rewrite <- get_attr_first. destruct (get_attr e (bs "class")) as [v|]; cbn [case_eq].
  - rewrite bytes_eqb_eq. split; [intros ->; reflexivity|congruence].
  - split; discriminate.
Qed.
Lemma word_whole : forall w v, spaceless v -> (has_word w v /\ w <> [] <-> w = v).
Proof.
  intros w v [Nv Sv]. split.
  - intros [(l & r & -> & Hl & Hr) Nw]. assert (l = []) as ->.
    { destruct Hl as [-> |(l' & b & -> & Sb)]; auto. exfalso. apply (Sv b); auto. apply in_or_app. left. apply in_or_app. right. left. auto. }
    assert (r = []) as ->.
    { destruct Hr as [-> |(b & r' & -> & Sb)]; auto. exfalso. apply (Sv b); auto. apply in_or_app. right. apply in_or_app. right. left. auto. }
    rewrite app_nil_r. reflexivity.
  - intros <-. split; [|exact Nv]. exists [], []. rewrite app_nil_r. auto.
Qed.
Lemma word_self : forall w, has_word w w.
Proof. intro w. exists [], []. rewrite app_nil_r. auto. Qed.
Lemma first_attr_det : forall name l v, first_attr name l v -> forall w, first_attr name l w -> v = w.
Proof.
  induction 1 as [|a r H1 H2|a r v N H IH]; intros w F; inversion F; subst; auto; exfalso; auto.
Qed.
