(** Such calls make documents that differ in nothing else. *)
From Coq Require Import Permutation Lia.
From Verif Require Import Base Dom DomSpec DomProofs DomTreeProofs DomWalkProofs WhiteSpec WhiteProofs AlikeSpec AlikeDomProofs MarkupSpec.
Local Open Scope res_scope.

Definition both {A B} (R : A -> B -> Prop) (r : result A) (r' : result B) : Prop :=
  match r, r' with Ok x, Ok x' => R x x' | Panic, Panic => True | Err _, Err _ => True | _, _ => False end.
Lemma both_bind : forall A A' B B' (R : A -> A' -> Prop) (S : B -> B' -> Prop) r r' f f', both R r r' -> (forall x x', R x x' -> both S (f x) (f' x')) -> both S (bind r f) (bind r' f').
Proof. intros A A' B B' R S [x|e|] [x'|e'|] f f' H HF; cbn [both bind] in *; try contradiction; auto. Qed.

Section Texts.
Variable same : list N -> list N -> Prop.
Hypothesis same_refl : forall t, same t t.
Hypothesis same_join : forall a a' b b', same a a' -> same b b' -> same (a ++ b) (a' ++ b').
Inductive data_alike : node_data -> node_data -> Prop :=
| da_document : data_alike DDocument DDocument
| da_doctype : forall n p s n' p' s', data_alike (DDoctype n p s) (DDoctype n' p' s')
| da_text : forall t t', same t t' -> data_alike (DText t) (DText t')
| da_comment : forall t t', data_alike (DComment t) (DComment t')
| da_element : forall e e', q_ns (e_name e) = q_ns (e_name e') -> q_local (e_name e) = q_local (e_name e') ->
    Permutation (e_attrs e) (e_attrs e') -> tag_attributes (e_attrs e) -> data_alike (DElement e) (DElement e')
| da_pi : forall t x t' x', data_alike (DProcessingInstruction t x) (DProcessingInstruction t' x').
Definition links (n : node) : option nat * option nat * option nat * option nat * option nat :=
  (parent n, next_sibling n, previous_sibling n, first_child n, last_child n).
Definition node_alike (n n' : node) : Prop := links n = links n' /\ data_alike (data n) (data n').
Definition markup_alike (d d' : document) : Prop := Forall2 node_alike (nodes d) (nodes d') /\ style_elements d = style_elements d'.
Section Two.
Lemma alike_length : forall l l', Forall2 node_alike l l' -> length l = length l'.
Proof. intros l l' F. induction F as [|n n' l l' H F IH]; [reflexivity|]. cbn [length]. rewrite IH. reflexivity. Qed.
Lemma nth_alike : forall l l' i, Forall2 node_alike l l' -> match nth_error l i, nth_error l' i with Some n, Some n' => node_alike n n' | None, None => True | _, _ => False end.
Proof. intros l l' i F. revert i. induction F as [|n n' l l' H F IH]; intros [|i]; cbn [nth_error]; auto. apply IH. Qed.
Lemma index_alike : forall d d' i, markup_alike d d' -> both node_alike (index d i) (index d' i).
Proof. intros d d' i [F _]. unfold index. pose proof (nth_alike _ _ i F) as H. destruct (nth_error (nodes d) i), (nth_error (nodes d') i); exact H. Qed.
Lemma update_alike : forall f f', (forall n n', node_alike n n' -> node_alike (f n) (f' n')) -> forall l l', Forall2 node_alike l l' -> forall i, Forall2 node_alike (update i f l) (update i f' l').
Proof. intros f f' H l l' F. induction F as [|n n' l l' Hn F IH]; intros i; [destruct i; constructor|]. destruct i; cbn [update]; constructor; auto. Qed.
Lemma modify_alike : forall d d' i f f', markup_alike d d' -> (forall n n', node_alike n n' -> node_alike (f n) (f' n')) -> both markup_alike (modify d i f) (modify d' i f').
Proof.
  intros d d' i f f' [F S] H. unfold modify. pose proof (nth_alike _ _ i F) as E. destruct (nth_error (nodes d) i), (nth_error (nodes d') i); try contradiction; [|exact I].
  split; cbn [nodes style_elements]; [apply update_alike; assumption|exact S].
Qed.
Lemma push_alike : forall d d' x x', markup_alike d d' -> data_alike x x' -> markup_alike (fst (new_node d x)) (fst (new_node d' x')) /\ snd (new_node d x) = snd (new_node d' x').
Proof.
  intros d d' x x' [F S] H. cbn [new_node push_node fst snd]. split; [|exact (alike_length _ _ F)]. split; [|exact S]. apply Forall2_app; [exact F|].
  constructor; [|constructor]. split; [reflexivity|exact H].
Qed.
Lemma assert_alike : forall b b', b = b' -> both eq (assert b) (assert b').
Proof. intros b _ <-. destruct b; exact eq_refl || exact I. Qed.

Ltac same_links H := let L := fresh "L" in let D := fresh "D" in destruct H as [L D]; unfold links in L;
  let L1 := fresh "L" in let L2 := fresh "L" in let L3 := fresh "L" in let L4 := fresh "L" in let L5 := fresh "L" in
  assert (L1 := f_equal (fun x => fst (fst (fst (fst x)))) L); assert (L2 := f_equal (fun x => snd (fst (fst (fst x)))) L); assert (L3 := f_equal (fun x => snd (fst (fst x))) L);
  assert (L4 := f_equal (fun x => snd (fst x)) L); assert (L5 := f_equal snd L); cbn [fst snd] in L1, L2, L3, L4, L5; clear L.
Ltac setter := let n := fresh "n" in let n' := fresh "n'" in let H := fresh "H" in intros n n' H; same_links H; split; [unfold links; cbn [set_parent set_next set_previous set_first set_last set_data parent next_sibling previous_sibling first_child last_child data]; congruence|assumption].
Ltac step := first
  [ eapply both_bind; [apply index_alike; eassumption|intros ? ? ?]
  | eapply both_bind; [apply modify_alike; [eassumption|setter]|intros ? ? ?]
  | eapply both_bind; [apply assert_alike|intros ? ? ?]
  | apply modify_alike; [eassumption|setter] ].

Lemma detach_alike : forall d d' i, markup_alike d d' -> both markup_alike (detach d i) (detach d' i).
Proof.
  intros d d' i H. unfold detach. eapply both_bind; [apply index_alike; exact H|]. intros n n' Hn. same_links Hn. rewrite <- L0, <- L1, <- L2.
  step. eapply both_bind with (R := markup_alike).
  - destruct (next_sibling n); [step|]. destruct (parent n); [step|assumption].
  - intros d9 d9' H9. destruct (previous_sibling n); [step|]. destruct (parent n); [step|exact H9].
Qed.
Lemma append_alike : forall d d' p c, markup_alike d d' -> both markup_alike (append d p c) (append d' p c).
Proof.
  intros d d' p c H. unfold append. eapply both_bind; [apply detach_alike; exact H|]. intros d1 d1' H1. step. step. step.
  match goal with N : node_alike _ _ |- _ => same_links N end. rewrite <- L4. eapply both_bind with (R := markup_alike).
  - destruct (last_child x0).
    + step. step. match goal with N : node_alike _ _ |- _ => same_links N end. step; [congruence|]. step.
    + step. match goal with N : node_alike _ _ |- _ => same_links N end. step; [congruence|]. step.
  - intros d9 d9' H9. step.
Qed.
Lemma insert_alike : forall d d' s c, markup_alike d d' -> both markup_alike (insert_before d s c) (insert_before d' s c).
Proof.
  intros d d' s c H. unfold insert_before. eapply both_bind; [apply detach_alike; exact H|]. intros d1 d1' H1.
  eapply both_bind; [apply index_alike; exact H1|]. intros n n' Hn. same_links Hn. rewrite <- L0. step. step.
  eapply both_bind; [apply index_alike; eassumption|]. intros m m' Hm. same_links Hm. rewrite <- L5, <- L7. step. eapply both_bind with (R := markup_alike).
  - destruct (previous_sibling m).
    + step. step. match goal with N : node_alike _ _ |- _ => same_links N end. step; [congruence|]. step.
    + destruct (parent m); [|assumption]. step. match goal with N : node_alike _ _ |- _ => same_links N end. step; [congruence|]. step.
  - intros d9 d9' H9. step.
Qed.
Lemma append_common_alike : forall d d' c c' previous app, given_alike same c c' -> markup_alike d d' ->
  (forall d d', markup_alike d d' -> both eq (previous d) (previous d')) -> (forall d d' i, markup_alike d d' -> both markup_alike (app d i) (app d' i)) ->
  both markup_alike (append_common d c previous app) (append_common d' c' previous app).
Proof.
  intros d d' c c' previous app Hc H HP HA. destruct Hc as [i|t t' Ht]; cbn [append_common]; [apply HA; exact H|].
  assert (N : both markup_alike (let (d, i) := new_node d (DText t) in app d i) (let (d, i) := new_node d' (DText t') in app d i)).
  { destruct (push_alike d d' (DText t) (DText t') H (da_text t t' Ht)) as [P E]. destruct (new_node d (DText t)) as [d1 i1], (new_node d' (DText t')) as [d2 i2]. cbn [fst snd] in P, E. subst i2. apply HA. exact P. }
  eapply both_bind; [apply HP; exact H|]. intros prev _ <-. destruct prev as [i|]; [|exact N].
  eapply both_bind; [apply index_alike; exact H|]. intros n n' [L D]. destruct D; try exact N. apply modify_alike; [exact H|].
  intros m m' Hm. same_links Hm. split; [unfold links; cbn [set_data parent next_sibling previous_sibling first_child last_child]; congruence|]. cbn [set_data data]. constructor. apply same_join; assumption.
Qed.
Lemma sink_append_alike : forall d d' p c c', given_alike same c c' -> markup_alike d d' -> both markup_alike (sink_append d p c) (sink_append d' p c').
Proof.
  intros d d' p c c' Hc H. apply append_common_alike; [exact Hc|exact H| |intros; apply append_alike; assumption]. intros d1 d1' H1. eapply both_bind; [apply index_alike; exact H1|].
  intros n n' Hn. same_links Hn. cbn [both]. assumption.
Qed.
Lemma sink_before_alike : forall d d' s c c', given_alike same c c' -> markup_alike d d' -> both markup_alike (append_before_sibling d s c) (append_before_sibling d' s c').
Proof.
  intros d d' s c c' Hc H. apply append_common_alike; [exact Hc|exact H| |intros; apply insert_alike; assumption]. intros d1 d1' H1. eapply both_bind; [apply index_alike; exact H1|].
  intros n n' Hn. same_links Hn. cbn [both]. assumption.
Qed.
Lemma reparent_alike : forall fuel d d' i p o, markup_alike d d' -> both markup_alike (reparent_loop fuel d i p o) (reparent_loop fuel d' i p o).
Proof.
  induction fuel as [|fuel IH]; intros d d' i p [c|] H; cbn [reparent_loop]; try exact H; [exact I|].
  eapply both_bind; [apply index_alike; exact H|]. intros n n' Hn. same_links Hn. rewrite <- L0. eapply both_bind; [apply assert_alike; reflexivity|]. intros _ _ _.
  eapply both_bind; [apply append_alike; exact H|]. intros d1 d1' H1. eapply both_bind; [apply index_alike; exact H1|]. intros m m' Hm. same_links Hm. rewrite <- L6. apply IH. exact H1.
Qed.

(** *** Attributes *)
Lemma existsb_perm : forall A (f : A -> bool) l l', Permutation l l' -> existsb f l = existsb f l'.
Proof.
  intros A f l l' P. apply Bool.eq_iff_eq_true. rewrite !existsb_exists. split; intros (a & I & E); exists a; (split; [|exact E]); [exact (Permutation_in _ P I)|exact (Permutation_in _ (Permutation_sym P) I)].
Qed.
Lemma filter_perm : forall A (f : A -> bool) l l', Permutation l l' -> Permutation (filter f l) (filter f l').
Proof.
  intros A f l l' P. induction P as [|x l l' P IH|x y l|l1 l2 l3 P1 IH1 P2 IH2]; cbn [filter]; [constructor|destruct (f x); [constructor; exact IH|exact IH]| |exact (perm_trans IH1 IH2)].
  destruct (f x), (f y); try reflexivity. apply perm_swap.
Qed.
Lemma merge_perm : forall l l' m m', Permutation l l' -> Permutation m m' -> Permutation (merge_attrs l m) (merge_attrs l' m').
Proof.
  intros l l' m m' P Q. unfold merge_attrs. apply Permutation_app; [exact P|]. rewrite (filter_ext _ (fun a => negb (existsb (fun e => qual_eqb (a_name e) (a_name a)) l'))).
  - apply filter_perm. exact Q.
  - intros a. f_equal. apply existsb_perm. exact P.
Qed.
Lemma plain_in : forall l n, In n (plain_names l) <-> exists a, In a l /\ q_ns (a_name a) = [] /\ q_local (a_name a) = n.
Proof.
  intros l n. unfold plain_names. rewrite in_flat_map. split; intros (a & I & E).
  - destruct (q_ns (a_name a)) eqn:En; [|destruct E]. destruct E as [E|[]]. exists a. auto.
  - destruct E as [E1 E2]. exists a. split; [exact I|]. rewrite E1. left. exact E2.
Qed.
Lemma nodup_app : forall (A : Type) (l m : list A), NoDup l -> NoDup m -> (forall x, In x l -> ~ In x m) -> NoDup (l ++ m).
Proof.
  intros A l m Hl Hm D. induction Hl as [|x l N Hl IH]; [exact Hm|]. cbn [app]. constructor.
  - intros I. apply in_app_or in I as [I|I]; [contradiction|]. exact (D x (or_introl eq_refl) I).
  - apply IH. intros y I. apply D. right. exact I.
Qed.
Lemma plain_filter : forall f l, NoDup (plain_names l) -> NoDup (plain_names (filter f l)).
Proof.
  intros f l. induction l as [|a l IH]; intros D; [exact D|]. cbn [filter]. assert (D' : NoDup (plain_names l)) by (unfold plain_names in D; cbn [flat_map] in D; destruct (q_ns (a_name a)); [inversion D; assumption|exact D]).
  destruct (f a); [|exact (IH D')]. unfold plain_names. cbn [flat_map]. destruct (q_ns (a_name a)) eqn:En; [|exact (IH D')]. cbn [app]. constructor; [|exact (IH D')].
  intros I. unfold plain_names in D. cbn [flat_map] in D. rewrite En in D. cbn [app] in D. inversion D as [|x r N _]; subst. apply N. apply plain_in in I as (b & I & E). apply filter_In in I as [I _]. apply plain_in. exists b. auto.
Qed.
Lemma merge_tag : forall l m, tag_attributes l -> tag_attributes m -> tag_attributes (merge_attrs l m).
Proof.
  intros l m [D1 P1] [D2 P2]. unfold merge_attrs. split.
  - unfold plain_names. rewrite flat_map_app. apply nodup_app; [exact D1|apply plain_filter; exact D2|].
    intros n I J. apply plain_in in I as (a & I & A1 & A2). apply plain_in in J as (b & J & B1 & B2). apply filter_In in J as [J E]. apply Bool.negb_true_iff in E.
    assert (T : existsb (fun e => qual_eqb (a_name e) (a_name b)) l = true); [|congruence]. apply existsb_exists. exists a. split; [exact I|].
    unfold qual_eqb. rewrite (P1 a I A1), (P2 b J B1), A1, B1, A2, B2. cbn [option_bytes_eqb andb]. unfold bytes_eqb. destruct (list_eq_dec N.eq_dec [] []); [|contradiction]. destruct (list_eq_dec N.eq_dec n n); [reflexivity|contradiction].
  - intros a I. apply in_app_or in I as [I|I]; [exact (P1 a I)|]. apply filter_In in I as [I _]. exact (P2 a I).
Qed.

(** *** All calls *)
Lemma op_alike : forall d d' o o', call_alike same o o' -> markup_alike d d' -> both markup_alike (do_op d o) (do_op d' o').
Proof.
  intros d d' o o' C H. destruct C as [p p' ns local l l' flag flag' P T|t t'|t x t' x'|n p s n' p' s'|t l l' P T|p c c' Hc|s c c' Hc|e p c c' Hc|t|i p]; cbn [do_op].
  - cbn [both]. unfold create_element.
    destruct (push_alike d d' (DElement (mkElement (mkQual p ns local) l flag)) (DElement (mkElement (mkQual p' ns local) l' flag')) H) as [[Q1 Q2] E]; [constructor; [reflexivity|reflexivity|exact P|exact T]|].
    destruct (new_node d _) as [d1 i1], (new_node d' _) as [d2 i2]. cbn [fst snd] in *. subst i2. unfold is_html. cbn [q_ns q_local]. destruct (bytes_eqb ns ns_html && bytes_eqb local (bs "style")); [|split; assumption].
    split; cbn [nodes style_elements]; [exact Q1|rewrite Q2; reflexivity].
  - cbn [both]. unfold create_comment. apply push_alike; [exact H|constructor].
  - cbn [both]. unfold create_pi. apply push_alike; [exact H|constructor].
  - unfold append_doctype_to_document. destruct (push_alike d d' (DDoctype n p s) (DDoctype n' p' s') H) as [Q E]; [constructor|].
    destruct (new_node d _) as [d1 i1], (new_node d' _) as [d2 i2]. cbn [fst snd] in *. subst i2. apply append_alike. exact Q.
  - unfold add_attrs_if_missing. eapply both_bind; [apply index_alike; exact H|]. intros n n' [L D]. destruct D as [| | | |e e' E1 E2 E3 E4|]; try exact I.
    apply modify_alike; [exact H|]. intros m m' Hm. same_links Hm. split; [unfold links; cbn [set_data parent next_sibling previous_sibling first_child last_child]; congruence|]. cbn [set_data data].
    constructor; cbn [e_name e_attrs]; [exact E1|exact E2|apply merge_perm; assumption|apply merge_tag; assumption].
  - apply sink_append_alike; assumption.
  - apply sink_before_alike; assumption.
  - unfold append_based_on_parent_node. eapply both_bind; [apply index_alike; exact H|]. intros n n' Hn. same_links Hn. rewrite <- L0. destruct (is_none (parent n)); [apply sink_append_alike; assumption|apply sink_before_alike; assumption].
  - apply detach_alike. exact H.
  - unfold reparent_children. eapply both_bind; [apply index_alike; exact H|]. intros n n' Hn. same_links Hn. rewrite <- L3. destruct H as [F S]. rewrite <- (alike_length _ _ F). apply reparent_alike. split; assumption.
Qed.
Lemma ops_alike : forall ops ops', Forall2 (call_alike same) ops ops' -> forall d d', markup_alike d d' -> both markup_alike (run_ops d ops) (run_ops d' ops').
Proof.
  intros ops ops' F. induction F as [|o o' ops ops' C F IH]; intros d d' H; cbn [run_ops]; [exact H|]. eapply both_bind; [apply op_alike; eassumption|]. exact IH.
Qed.
Lemma new_alike : markup_alike document_new document_new.
Proof. split; [|reflexivity]. repeat constructor. Qed.

(** ** The documents *)
Lemma at_alike : forall d d' i, markup_alike d d' -> node_alike (node_at d i) (node_at d' i).
Proof.
  intros d d' i [F _]. unfold node_at. revert i. induction F as [|n n' l l' H F IH]; intros [|i]; cbn [nth]; try exact H; try (split; [reflexivity|constructor]). apply IH.
Qed.
Lemma length_alike : forall d d', markup_alike d d' -> length (nodes d) = length (nodes d').
Proof. intros d d' [F _]. exact (alike_length _ _ F). Qed.
Section Documents.
Variables d d' : document.
Hypothesis H : markup_alike d d'.
Lemma parent_alike : forall i, parent (node_at d' i) = parent (node_at d i).
Proof. intros i. destruct (at_alike d d' i H) as [L _]. unfold links in L. congruence. Qed.
Lemma next_alike : forall i, next_sibling (node_at d' i) = next_sibling (node_at d i).
Proof. intros i. destruct (at_alike d d' i H) as [L _]. unfold links in L. congruence. Qed.
Lemma previous_alike : forall i, previous_sibling (node_at d' i) = previous_sibling (node_at d i).
Proof. intros i. destruct (at_alike d d' i H) as [L _]. unfold links in L. congruence. Qed.
Lemma first_alike : forall i, first_child (node_at d' i) = first_child (node_at d i).
Proof. intros i. destruct (at_alike d d' i H) as [L _]. unfold links in L. congruence. Qed.
Lemma last_alike : forall i, last_child (node_at d' i) = last_child (node_at d i).
Proof. intros i. destruct (at_alike d d' i H) as [L _]. unfold links in L. congruence. Qed.
Lemma in_forest_alike : forall kids, in_forest d kids <-> in_forest d' kids.
Proof.
  intros kids. unfold in_forest. split; intros (F1 & F2 & F3 & F4 & F5 & F6); (split; [exact F1|]).
  - split; [intros p; rewrite first_alike, last_alike; apply F2|]. split; [intros p c; rewrite parent_alike; apply F3|].
    split; [intros p l c r E; rewrite previous_alike, next_alike; exact (F4 p l c r E)|]. split; [|exact F6]. intros c. rewrite parent_alike, previous_alike, next_alike. apply F5.
  - split; [intros p; rewrite <- first_alike, <- last_alike; apply F2|]. split; [intros p c; rewrite <- parent_alike; apply F3|].
    split; [intros p l c r E; rewrite <- previous_alike, <- next_alike; exact (F4 p l c r E)|]. split; [|exact F6]. intros c. rewrite <- parent_alike, <- previous_alike, <- next_alike. apply F5.
Qed.
Lemma doc_forest_alike : forall kids, doc_forest d kids -> doc_forest d' kids.
Proof.
  intros kids (F1 & F2 & F3 & F4 & F5 & F6). split; [apply in_forest_alike; exact F1|]. split; [rewrite <- (length_alike d d' H); exact F2|]. split; [exact F3|]. split; [exact F4|]. split; [exact F5|].
  destruct (at_alike d d' document_node_id H) as [_ D]. rewrite F6 in D. inversion D. reflexivity.
Qed.
Lemma element_alike : forall i, is_element (data (node_at d' i)) <-> is_element (data (node_at d i)).
Proof. intros i. destruct (at_alike d d' i H) as [_ D]. destruct D; reflexivity. Qed.
Lemma ignorable_alike : forall i, ignorable (data (node_at d i)) -> ignorable (data (node_at d' i)).
Proof. intros i. destruct (at_alike d d' i H) as [_ D]. destruct D; auto. Qed.
Lemma texts_alike : forall l, same (texts_of d l) (texts_of d' l).
Proof.
  intros l. unfold texts_of. induction l as [|x l IH]; [apply same_refl|]. cbn [flat_map]. apply same_join; [|exact IH]. unfold text_of. destruct (at_alike d d' x H) as [_ D]. destruct D; try apply same_refl. assumption.
Qed.
Lemma nodes_alike : (forall t t', same t t' -> same_text t t') -> forall kids, in_forest d kids -> forall p, alike d d' kids kids none_hidden (kids p) (kids p).
Proof.
  intros Hs kids (_ & _ & _ & _ & _ & Wf) p. induction (Wf p) as [p _ IH].
  assert (G : forall l, (forall x, In x l -> In x (kids p)) -> alike d d' kids kids none_hidden l l).
  2: { apply G. auto. }
  intros l. induction l as [|x l IHl]; intros Inc; [apply al_nil|]. assert (Hl : alike d d' kids kids none_hidden l l) by (apply IHl; intros y Iy; apply Inc; right; exact Iy).
  destruct (at_alike d d' x H) as [_ D]. destruct (data (node_at d x)) as [| | | |e|] eqn:Dx.
  5: { remember (data (node_at d' x)) as dx' eqn:Dx'. inversion D as [| | | |e0 e' E1 E2 E3 E4 X Y|]; subst e0.
    apply al_element; [exists e, e'; split; [exact Dx|split; [congruence|split; [exact E1|split; [exact E2|right; split; [exact E3|exact (proj1 E4)]]]]]| |exact Hl]. apply IH. apply Inc. left. reflexivity. }
  all: change (x :: l) with ([x] ++ l); apply al_text; [intros y [<-|[]]; rewrite Dx; intros []|intros y [<-|[]] K; apply element_alike in K; rewrite Dx in K; destruct K|apply Hs; apply texts_alike|exact Hl].
Qed.
Lemma ancestor_alike : forall a b, inclusive_ancestor d' a b -> inclusive_ancestor d a b.
Proof. intros a b K. induction K as [|b p E K IH]; [apply ia_self|]. rewrite parent_alike in E. exact (ia_up d a b p E IH). Qed.
Lemma exists_alike : forall i, exists_node d i -> exists_node d' i.
Proof. intros i. unfold exists_node. rewrite (length_alike d d' H). auto. Qed.
Lemma movable_alike : forall c p, movable d c p -> movable d' c p.
Proof. intros c p (E & N & A). split; [apply exists_alike; exact E|]. split; [exact N|]. intros K. apply A. apply ancestor_alike. exact K. Qed.
Lemma valid_append_alike : forall p c c', given_alike same c c' -> valid_append d p c -> valid_append d' p c'.
Proof. intros p c c' Hc [E V]. split; [apply exists_alike; exact E|]. destruct Hc; [apply movable_alike; exact V|exact I]. Qed.
Lemma valid_insert_alike : forall p c c', given_alike same c c' -> valid_insert d p c -> valid_insert d' p c'.
Proof. intros s c c' Hc [E (p & P & V)]. split; [apply exists_alike; exact E|]. exists p. rewrite parent_alike. split; [exact P|]. destruct Hc; [|exact I]. destruct V as [V N]. split; [apply movable_alike; exact V|exact N]. Qed.
Lemma valid_op_alike : forall o o', call_alike same o o' -> valid_op d o -> valid_op d' o'.
Proof.
  intros o o' C V. destruct C as [p p' ns local l l' flag flag' P T|t t'|t x t' x'|n p s n' p' s'|t l l' P T|p c c' Hc|s c c' Hc|e p c c' Hc|t|i p]; cbn [valid_op] in *; try exact I.
  - destruct V as [E (e & D)]. split; [apply exists_alike; exact E|]. assert (K : is_element (data (node_at d' t))) by (apply element_alike; rewrite D; exact I). destruct (data (node_at d' t)) as [| | | |e'|]; try contradiction. exists e'. reflexivity.
  - exact (valid_append_alike p c c' Hc V).
  - exact (valid_insert_alike s c c' Hc V).
  - rewrite parent_alike. destruct V as (V1 & V2 & V3). split; [apply exists_alike; exact V1|]. split; intros K; [exact (valid_append_alike p c c' Hc (V2 K))|exact (valid_insert_alike e c c' Hc (V3 K))].
  - apply exists_alike. exact V.
  - destruct V as (V1 & V2 & V3). split; [apply exists_alike; exact V1|]. split; [apply exists_alike; exact V2|]. intros c Ec K. rewrite parent_alike in Ec. exact (V3 c Ec (ancestor_alike _ _ K)).
Qed.
End Documents.
Lemma valid_ops_alike : forall ops ops', Forall2 (call_alike same) ops ops' -> forall d d', markup_alike d d' -> valid_ops d ops -> valid_ops d' ops'.
Proof.
  intros ops ops' F. induction F as [|o o' ops ops' C F IH]; intros d d' H V; [apply vo_nil|]. inversion V as [|o0 r0 Vo Vr]; subst. apply vo_cons; [exact (valid_op_alike d d' H o o' C Vo)|].
  intros d1' E'. pose proof (op_alike d d' o o' C H) as B. rewrite E' in B. destruct (do_op d o) as [d1|e|] eqn:E; cbn [both] in B; try contradiction. exact (IH d1 d1' B (Vr d1 eq_refl)).
Qed.
End Two.
End Texts.

(** With the same texts *)
Lemma join_eq : forall (a a' b b' : list N), a = a' -> b = b' -> a ++ b = a' ++ b'.
Proof. intros a _ b _ <- <-. reflexivity. Qed.
Section Same.
Variables d d' : document.
Hypothesis H : markup_alike eq d d'.
Lemma child_text_alike : forall fuel o t, both eq (child_text_loop fuel d o t) (child_text_loop fuel d' o t).
Proof.
  induction fuel as [|fuel IH]; intros [c|] t; cbn [child_text_loop]; try reflexivity. eapply both_bind; [apply (index_alike eq); exact H|]. intros n n' [L D].
  assert (N : next_sibling n' = next_sibling n) by (unfold links in L; congruence). rewrite N. unfold as_text. destruct D; subst; apply IH.
Qed.
Lemma style_texts_alike : forall ids, both eq (style_texts d ids) (style_texts d' ids).
Proof.
  induction ids as [|i ids IH]; cbn [style_texts]; [reflexivity|]. eapply both_bind; [apply (index_alike eq); exact H|]. intros n n' [L D]. unfold as_element. destruct D as [| | | |e e' E1 E2 E3 E4|]; try exact I.
  assert (G : get_attr e' (bs "type") = get_attr e (bs "type")) by (symmetry; apply get_attr_same; right; split; [exact E3|exact (proj1 E4)]). rewrite G.
  destruct (match get_attr e (bs "type") with Some t => _ | None => false end); [exact IH|].
  apply both_bind with (R := eq).
  - unfold child_text_content. eapply both_bind; [apply (index_alike eq); exact H|]. intros m m' [L2 _]. assert (N : first_child m' = first_child m) by (unfold links in L2; congruence).
    rewrite N, <- (length_alike eq d d' H). apply child_text_alike.
  - intros t _ <-. eapply both_bind; [exact IH|]. intros ts _ <-. reflexivity.
Qed.
Lemma both_eq : forall A (r r' : result A), both eq r r' -> r = r'.
Proof. intros A [x|[]|] [x'|[]|] E; cbn [both] in E; try contradiction; [rewrite E|]; reflexivity. Qed.
Lemma stylesheets_alike : stylesheets d = stylesheets d'.
Proof. apply both_eq. unfold stylesheets. destruct H as [F S]. rewrite <- S. apply style_texts_alike. Qed.
Lemma documents_markup : forall kids, doc_forest d kids -> documents_alike none_hidden d d'.
Proof.
  intros kids Hf. split; [|exact stylesheets_alike]. exists kids, kids. split; [exact Hf|]. split; [apply (doc_forest_alike eq d d' H); exact Hf|]. split; [|intros x x' _ []].
  apply (nodes_alike eq (@eq_refl _) join_eq d d' H); [intros t _ <-; reflexivity|exact (proj1 Hf)].
Qed.
End Same.
(** With texts that differ in the length of runs of white space *)
Lemma documents_respaced : forall d d', markup_alike same_text d d' -> forall kids, doc_forest d kids -> stylesheets d = stylesheets d' -> documents_alike none_hidden d d'.
Proof.
  intros d d' H kids Hf Es. split; [|exact Es]. exists kids, kids. split; [exact Hf|]. split; [apply (doc_forest_alike same_text d d' H); exact Hf|]. split; [|intros x x' _ []].
  apply (nodes_alike same_text (fun t => eq_refl) same_text_app d d' H); [auto|exact (proj1 Hf)].
Qed.
