(** Elements of alike documents cannot be told apart through the [Element] interface. *)
From Coq Require Import Permutation Lia.
From Verif Require Import Base Dom DomSpec DomProofs DomTreeProofs DomWalkProofs StyleSelectors StyleSelectorSpec StyleSelectorProofs UserAgentProofs WhiteSpec WhiteProofs AlikeSpec.
Local Open Scope nat_scope.

(** ** Lists of nodes *)
Section Two.
Variables (d d' : document) (kids kids' : nat -> list nat) (hidden : nat -> nat -> Prop).
Notation A := (alike d d' kids kids' hidden).
Notation inside := (inside d d' kids kids' hidden).
Notation same := (same d d').
Definition bare (d : document) (l : list nat) : Prop := forall x, In x l -> ~ is_element (data (node_at d x)).
Lemma alike_app : forall a a' b b', A a a' -> A b b' -> A (a ++ b) (a' ++ b').
Proof.
  intros a a' b b' H Hb. induction H as [|l l' r r' N N' E H IH|x x' r r' Sx K _ H IH|x x' r r' Sx Hh Em H IH].
  - exact Hb.
  - rewrite <- !app_assoc. apply al_text; assumption.
  - cbn [app]. apply al_element; assumption.
  - cbn [app]. apply al_hidden; assumption.
Qed.
Lemma alike_same : forall x x' r r', same x x' -> inside x x' -> A r r' -> A (x :: r) (x' :: r').
Proof. intros x x' r r' S [K|[Hh E]] H; [apply al_element|apply al_hidden]; assumption. Qed.
Lemma bare_app : forall dd a b, bare dd a -> bare dd b -> bare dd (a ++ b).
Proof. intros dd a b Ha Hb x I. apply in_app_or in I as [I|I]; auto. Qed.
(** The last and the first element *)
Lemma alike_last : forall l l', A l l' -> (bare d l /\ bare d' l') \/
  exists a y b a' y' b', l = a ++ y :: b /\ l' = a' ++ y' :: b' /\ A a a' /\ A b b' /\ bare d b /\ bare d' b' /\ same y y' /\ inside y y'.
Proof.
  intros l l' H. induction H as [|l l' r r' N N' E H IH|x x' r r' Sx K _ H IH|x x' r r' Sx Hh Em H IH].
  - left. split; intros ? [].
  - destruct IH as [(B & B')|(a & y & b & a' & y' & b' & -> & -> & Ha & Hb & B & B' & S & Ky)].
    + left. split; apply bare_app; assumption.
    + right. exists (l ++ a), y, b, (l' ++ a'), y', b'. rewrite <- !app_assoc. split; [reflexivity|]. split; [reflexivity|].
      split; [apply al_text; assumption|auto].
  - right. assert (In' : inside x x') by (left; exact K). destruct IH as [(B & B')|(a & y & b & a' & y' & b' & -> & -> & Ha & Hb & B & B' & S & Ky)].
    + exists [], x, r, [], x', r'. split; [reflexivity|]. split; [reflexivity|]. split; [apply al_nil|auto 6].
    + exists (x :: a), y, b, (x' :: a'), y', b'. split; [reflexivity|]. split; [reflexivity|].
      split; [apply al_element; assumption|auto].
  - right. assert (In' : inside x x') by (right; auto). destruct IH as [(B & B')|(a & y & b & a' & y' & b' & -> & -> & Ha & Hb & B & B' & S & Ky)].
    + exists [], x, r, [], x', r'. split; [reflexivity|]. split; [reflexivity|]. split; [apply al_nil|auto 6].
    + exists (x :: a), y, b, (x' :: a'), y', b'. split; [reflexivity|]. split; [reflexivity|].
      split; [apply al_hidden; assumption|auto].
Qed.
Lemma alike_first : forall l l', A l l' -> (bare d l /\ bare d' l') \/
  exists a y b a' y' b', l = a ++ y :: b /\ l' = a' ++ y' :: b' /\ A a a' /\ A b b' /\ bare d a /\ bare d' a' /\ same y y' /\ inside y y'.
Proof.
  intros l l' H. induction H as [|l l' r r' N N' E H IH|x x' r r' Sx K _ H IH|x x' r r' Sx Hh Em H IH].
  - left. split; intros ? [].
  - destruct IH as [(B & B')|(a & y & b & a' & y' & b' & -> & -> & Ha & Hb & B & B' & S & Ky)].
    + left. split; apply bare_app; assumption.
    + right. exists (l ++ a), y, b, (l' ++ a'), y', b'. rewrite <- !app_assoc. split; [reflexivity|]. split; [reflexivity|].
      split; [apply al_text; assumption|]. split; [exact Hb|]. split; [apply bare_app; assumption|]. split; [apply bare_app; assumption|auto].
  - right. exists [], x, r, [], x', r'. split; [reflexivity|]. split; [reflexivity|]. split; [apply al_nil|]. split; [exact H|].
    split; [intros ? []|]. split; [intros ? []|]. split; [exact Sx|left; exact K].
  - right. exists [], x, r, [], x', r'. split; [reflexivity|]. split; [reflexivity|]. split; [apply al_nil|]. split; [exact H|].
    split; [intros ? []|]. split; [intros ? []|]. split; [exact Sx|right; auto].
Qed.
(** How many elements *)
Definition element_at (dd : document) (x : nat) : bool := match data (node_at dd x) with DElement _ => true | _ => false end.
Definition count (dd : document) (l : list nat) : nat := length (filter (element_at dd) l).
Lemma count_app : forall dd a b, count dd (a ++ b) = count dd a + count dd b.
Proof. intros dd a b. unfold count. rewrite filter_app, app_length. reflexivity. Qed.
Lemma count_bare : forall dd l, bare dd l -> count dd l = 0.
Proof.
  intros dd l B. unfold count. induction l as [|x l IH]; [reflexivity|]. cbn [filter]. unfold element_at at 1.
  pose proof (B x (or_introl eq_refl)) as N. destruct (data (node_at dd x)); try (apply IH; intros y I; apply B; right; exact I).
  destruct (N I).
Qed.
Lemma alike_count : forall l l', A l l' -> count d l = count d' l'.
Proof.
  intros l l' H. induction H as [|l l' r r' N N' E H IH|x x' r r' Sx K _ H IH|x x' r r' Sx Hh Em H IH]; [reflexivity| | |].
  1: rewrite !count_app, (count_bare d l N), (count_bare d' l' N'), IH; reflexivity.
  all: destruct Sx as (e & e' & D & D' & _).
  all: assert (Ex : element_at d x = true) by (unfold element_at; rewrite D; reflexivity).
  all: assert (Ex' : element_at d' x' = true) by (unfold element_at; rewrite D'; reflexivity).
  all: unfold count in *; cbn [filter]; rewrite Ex, Ex'; cbn [length]; rewrite IH; reflexivity.
Qed.
Lemma count_unique : forall dd a x b c y e, a ++ x :: b = c ++ y :: e -> element_at dd x = true -> element_at dd y = true ->
  count dd a = count dd c -> x = y.
Proof.
  intros dd a. induction a as [|z a IH]; intros x b c y e E Hx Hy N.
  - destruct c as [|w c]; cbn [app] in E; [injection E as -> _; reflexivity|]. injection E as -> _. unfold count in N. cbn [filter] in N.
    rewrite Hx in N. discriminate N.
  - destruct c as [|w c]; cbn [app] in E.
    + injection E as -> _. unfold count in N. cbn [filter] in N. rewrite Hy in N. discriminate N.
    + injection E as -> E. apply (IH x b c y e E Hx Hy). unfold count in *. cbn [filter] in N. destruct (element_at dd w); cbn [length] in N; lia.
Qed.
(** :empty *)
Lemma bare_texts : forall dd l, bare dd l -> (no_content dd l <-> texts_of dd l = []).
Proof.
  intros dd l B. unfold no_content, texts_of. split.
  - intros H. induction l as [|x l IH]; [reflexivity|]. cbn [flat_map]. destruct (H x (or_introl eq_refl)) as (_ & T).
    assert (text_of dd x = []) as ->. { unfold text_of. destruct (data (node_at dd x)); try reflexivity. apply T. reflexivity. }
    apply IH; intros y I; [apply B|apply H]; right; exact I.
  - intros H x I. split; [exact (B x I)|]. intros t Ht. clear B. induction l as [|y l IH]; [destruct I|]. cbn [flat_map] in H.
    apply app_eq_nil in H as [H1 H2]. destruct I as [->|I]; [|auto]. unfold text_of in H1. rewrite Ht in H1. exact H1.
Qed.
Lemma no_content_app : forall dd a b, no_content dd (a ++ b) <-> no_content dd a /\ no_content dd b.
Proof.
  intros dd a b. unfold no_content. split.
  - intros H. split; intros i I; apply H; apply in_or_app; auto.
  - intros [Ha Hb] i I. apply in_app_or in I as [I|I]; auto.
Qed.
Lemma alike_empty : forall l l', A l l' -> (no_content d l <-> no_content d' l').
Proof.
  intros l l' H. induction H as [|l l' r r' N N' E H IH|x x' r r' Sx K _ H IH|x x' r r' Sx Hh Em H IH].
  - split; intros _ ? [].
  - rewrite !no_content_app, (bare_texts d l N), (bare_texts d' l' N'), (same_text_nil _ _ E), IH. tauto.
  - destruct Sx as (e & e' & D & D' & _). split; intros C.
    + destruct (C x (or_introl eq_refl)) as [X _]. rewrite D in X. destruct (X I).
    + destruct (C x' (or_introl eq_refl)) as [X _]. rewrite D' in X. destruct (X I).
  - destruct Sx as (e & e' & D & D' & _). split; intros C.
    + destruct (C x (or_introl eq_refl)) as [X _]. rewrite D in X. destruct (X I).
    + destruct (C x' (or_introl eq_refl)) as [X _]. rewrite D' in X. destruct (X I).
Qed.

(** ** The same element in both *)
Notation placed := (placed d d' kids kids' hidden).
Notation twins := (twins d d' kids kids' hidden).
Notation tw_top := (tw_top d d' kids kids' hidden).
Notation tw_in := (tw_in d d' kids kids' hidden).
Lemma twins_same : forall x x', twins x x' -> same x x' /\ inside x x'.
Proof. intros x x' [y y' (a & b & a' & b' & _ & _ & _ & _ & S & K)|p p' y y' _ (a & b & a' & b' & _ & _ & _ & _ & S & K)]; auto. Qed.
Lemma same_range : forall x x', same x x' -> x < length (nodes d) /\ x' < length (nodes d').
Proof. intros x x' (e & e' & D & D' & _). split; eapply in_range; eassumption. Qed.
Lemma same_element : forall x x', same x x' -> is_element (data (node_at d x)) /\ is_element (data (node_at d' x')).
Proof. intros x x' (e & e' & D & D' & _). rewrite D, D'. split; exact I. Qed.

Hypothesis Hf : doc_forest d kids.
Hypothesis Hf' : doc_forest d' kids'.
Lemma parent_one : forall dd k p q x, doc_forest dd k -> In x (k p) -> In x (k q) -> p = q.
Proof.
  intros dd k p q x ((_ & _ & P & _) & _) Hp Hq. apply P in Hp. apply P in Hq. rewrite Hp in Hq. injection Hq. auto.
Qed.
Lemma placed_in : forall p p' x x', placed p p' x x' -> In x (kids p) /\ In x' (kids' p').
Proof. intros p p' x x' (a & b & a' & b' & -> & -> & _). split; apply in_or_app; right; left; reflexivity. Qed.
Lemma document_no_element : forall dd k, doc_forest dd k -> ~ is_element (data (node_at dd document_node_id)).
Proof. intros dd k (_ & _ & _ & _ & _ & D) H. rewrite D in H. exact H. Qed.

(** Going from element to element *)
Definition both (o o' : option nat) : Prop := match o, o' with Some y, Some y' => twins y y' | None, None => True | _, _ => False end.
Lemma go_parent : forall x x', twins x x' -> exists o o', parent_element d x = Ok o /\ parent_element d' x' = Ok o' /\ both o o'.
Proof.
  intros x x' H. pose proof (same_range _ _ (proj1 (twins_same _ _ H))) as [B B'].
  destruct (parent_element_ok d kids x (proj1 Hf) B) as (o & E & Ho). destruct (parent_element_ok d' kids' x' (proj1 Hf') B') as (o' & E' & Ho').
  exists o, o'. split; [exact E|]. split; [exact E'|]. destruct H as [x x' P|p p' x x' T P]; destruct (placed_in _ _ _ _ P) as [Ix Ix'].
  - destruct o as [q|].
    { destruct (proj1 (Ho q) eq_refl) as [I K]. rewrite (parent_one d kids _ _ x Hf I Ix) in K. destruct (document_no_element d kids Hf K). }
    destruct o' as [q|]; [|exact I].
    destruct (proj1 (Ho' q) eq_refl) as [I K]. rewrite (parent_one d' kids' _ _ x' Hf' I Ix') in K. destruct (document_no_element d' kids' Hf' K).
  - destruct (same_element _ _ (proj1 (twins_same _ _ T))) as [El El'].
    rewrite (proj2 (Ho p) (conj Ix El)), (proj2 (Ho' p') (conj Ix' El')). exact T.
Qed.
Lemma first_element_det : forall dd l o o', first_element dd l o -> first_element dd l o' -> o = o'.
Proof. intros dd l o o' H. revert o'. induction H as [|i l E|i l o N H IH]; intros o' H'; inversion H'; subst; auto; contradiction. Qed.
Lemma first_bare : forall dd l, bare dd l -> first_element dd l None.
Proof. intros dd l B. induction l as [|x l IH]; [constructor|]. constructor; [apply B; left; reflexivity|apply IH; intros y I; apply B; right; exact I]. Qed.
Lemma first_after : forall dd a y b, bare dd a -> is_element (data (node_at dd y)) -> first_element dd (a ++ y :: b) (Some y).
Proof.
  intros dd a y b B E. induction a as [|x a IH]; cbn [app]; [constructor; exact E|].
  constructor; [apply B; left; reflexivity|apply IH; intros z I; apply B; right; exact I].
Qed.
Lemma beside : forall x x' p p' a b a' b', (forall y y', placed p p' y y' -> twins y y') ->
  kids p = a ++ x :: b -> kids' p' = a' ++ x' :: b' -> A a a' -> A b b' -> same x x' -> inside x x' ->
  (exists o o', next_sibling_element d x = Ok o /\ next_sibling_element d' x' = Ok o' /\ both o o') /\
  (exists o o', prev_sibling_element d x = Ok o /\ prev_sibling_element d' x' = Ok o' /\ both o o').
Proof.
  intros x x' p p' a b a' b' Up E E' Ha Hb S K. split.
  - destruct (next_sibling_ok d kids p a x b (proj1 Hf) E) as (o & N & F). destruct (next_sibling_ok d' kids' p' a' x' b' (proj1 Hf') E') as (o' & N' & F').
    exists o, o'. split; [exact N|]. split; [exact N'|].
    destruct (alike_first _ _ Hb) as [(B & B')|(b1 & y & b2 & b1' & y' & b2' & -> & -> & H1 & H2 & B & B' & Sy & Ky)].
    + rewrite (first_element_det _ _ _ _ F (first_bare _ _ B)), (first_element_det _ _ _ _ F' (first_bare _ _ B')). exact I.
    + destruct (same_element _ _ Sy) as [El El'].
      rewrite (first_element_det _ _ _ _ F (first_after _ _ _ _ B El)), (first_element_det _ _ _ _ F' (first_after _ _ _ _ B' El')).
      apply Up. exists (a ++ x :: b1), b2, (a' ++ x' :: b1'), b2'. rewrite E, E', <- !app_assoc. split; [reflexivity|]. split; [reflexivity|].
      split; [apply alike_app; [exact Ha|apply alike_same; assumption]|auto].
  - destruct (prev_sibling_ok d kids p a x b (proj1 Hf) E) as (o & N & F). destruct (prev_sibling_ok d' kids' p' a' x' b' (proj1 Hf') E') as (o' & N' & F').
    exists o, o'. split; [exact N|]. split; [exact N'|].
    assert (Rv : forall dd l, bare dd l -> bare dd (rev l)) by (intros dd l B z I; apply B; apply in_rev; exact I).
    destruct (alike_last _ _ Ha) as [(B & B')|(a1 & y & a2 & a1' & y' & a2' & -> & -> & H1 & H2 & B & B' & Sy & Ky)].
    + rewrite (first_element_det _ _ _ _ F (first_bare _ _ (Rv _ _ B))), (first_element_det _ _ _ _ F' (first_bare _ _ (Rv _ _ B'))). exact I.
    + destruct (same_element _ _ Sy) as [El El']. rewrite rev_app_distr in F, F'. cbn [rev] in F, F'. rewrite <- app_assoc in F, F'. cbn [app] in F, F'.
      rewrite (first_element_det _ _ _ _ F (first_after _ _ _ _ (Rv _ _ B) El)), (first_element_det _ _ _ _ F' (first_after _ _ _ _ (Rv _ _ B') El')).
      apply Up. exists a1, (a2 ++ x :: b), a1', (a2' ++ x' :: b'). rewrite E, E', <- !app_assoc. split; [reflexivity|]. split; [reflexivity|].
      split; [exact H1|]. split; [|auto]. apply alike_app; [exact H2|apply alike_same; assumption].
Qed.
Lemma go : forall m x x', twins x x' -> exists o o', moved d m x = Ok o /\ moved d' m x' = Ok o' /\ both o o'.
Proof.
  intros m x x' H. destruct m; cbn [moved]; [exact (go_parent x x' H)| |].
  all: destruct H as [x x' (a & b & a' & b' & E & E' & Ha & Hb & S & K)|p p' x x' T (a & b & a' & b' & E & E' & Ha & Hb & S & K)].
  all: [> destruct (beside x x' document_node_id document_node_id a b a' b' tw_top E E' Ha Hb S K) as [X Y]
        | destruct (beside x x' p p' a b a' b' (fun y y' P => tw_in p p' y y' T P) E E' Ha Hb S K) as [X Y]
        | destruct (beside x x' document_node_id document_node_id a b a' b' tw_top E E' Ha Hb S K) as [X Y]
        | destruct (beside x x' p p' a b a' b' (fun y y' P => tw_in p p' y y' T P) E E' Ha Hb S K) as [X Y]]; assumption.
Qed.
(** Asking about one *)
Lemma unwraps : forall x x', same x x' -> exists e e', unwrap_element d x = Ok e /\ unwrap_element d' x' = Ok e' /\
  q_ns (e_name e) = q_ns (e_name e') /\ q_local (e_name e) = q_local (e_name e') /\ same_attributes (e_attrs e) (e_attrs e').
Proof.
  intros x x' S. destruct (same_range _ _ S) as [B B']. destruct S as (e & e' & D & D' & En & El & Ea). exists e, e'.
  split; [exact (unwrap_ok d x e B D)|]. split; [exact (unwrap_ok d' x' e' B' D')|auto].
Qed.
Definition named (n : bytes) (a : attribute) : bool := bytes_eqb (q_ns (a_name a)) [] && bytes_eqb (q_local (a_name a)) n.
Lemma eqb_bytes : forall a b, bytes_eqb a b = true <-> a = b.
Proof. intros a b. unfold bytes_eqb. destruct (list_eq_dec N.eq_dec a b) as [E|E]; split; intros H; try reflexivity; try exact E; try discriminate H. contradiction. Qed.
Lemma named_in : forall n a, named n a = true <-> q_ns (a_name a) = [] /\ q_local (a_name a) = n.
Proof. intros n a. unfold named. rewrite Bool.andb_true_iff, !eqb_bytes. reflexivity. Qed.
Lemma named_once : forall n l a, NoDup (plain_names l) -> In a l -> named n a = true -> find (named n) l = Some a.
Proof.
  intros n l a. induction l as [|b l IH]; intros D I E; [destruct I|]. cbn [find]. destruct (named n b) eqn:Eb.
  - destruct I as [->|I]; [reflexivity|]. exfalso. apply named_in in E as [E1 E2], Eb as [E3 E4]. unfold plain_names in D. cbn [flat_map] in D. rewrite E3 in D. cbn [app] in D.
    inversion D as [|x r N _]; subst. apply N. apply in_flat_map. exists a. split; [exact I|]. rewrite E1. left. congruence.
  - destruct I as [->|I]; [congruence|]. apply IH; [|exact I|exact E]. unfold plain_names in D. cbn [flat_map] in D. destruct (q_ns (a_name b)); [inversion D; assumption|exact D].
Qed.
Lemma plain_names_permutation : forall l l', Permutation l l' -> Permutation (plain_names l) (plain_names l').
Proof. intros l l' P. apply Permutation_flat_map. exact P. Qed.
Lemma same_attributes_sym : forall l l', same_attributes l l' -> same_attributes l' l.
Proof.
  intros l l' [->|[P D]]; [left; reflexivity|]. right. split; [symmetry; exact P|]. exact (Permutation_NoDup (plain_names_permutation _ _ P) D).
Qed.
Lemma get_attr_same : forall e e' n, same_attributes (e_attrs e) (e_attrs e') -> get_attr e n = get_attr e' n.
Proof.
  intros e e' n [E|[P D]]; unfold get_attr; [rewrite E; reflexivity|]. change (fun a => bytes_eqb (q_ns (a_name a)) [] && bytes_eqb (q_local (a_name a)) n) with (named n).
  destruct (find (named n) (e_attrs e)) as [a|] eqn:F.
  - apply find_some in F as [I E]. rewrite (named_once n (e_attrs e') a); [reflexivity| |exact (Permutation_in _ P I)|exact E]. exact (Permutation_NoDup (plain_names_permutation _ _ P) D).
  - destruct (find (named n) (e_attrs e')) as [a|] eqn:F'; [|reflexivity]. exfalso. apply find_some in F' as [I E]. pose proof (find_none _ _ F a (Permutation_in _ (Permutation_sym P) I)). congruence.
Qed.
Lemma existsb_same : forall f l l', same_attributes l l' -> existsb f l = existsb f l'.
Proof.
  intros f l l' [->|[P _]]; [reflexivity|]. apply Bool.eq_iff_eq_true. rewrite !existsb_exists. split; intros (a & I & E); exists a; (split; [|exact E]); [exact (Permutation_in _ P I)|exact (Permutation_in _ (Permutation_sym P) I)].
Qed.
Lemma names : forall x x', same x x' -> local_name d x = local_name d' x' /\ namespace d x = namespace d' x'.
Proof.
  intros x x' S. destruct (unwraps x x' S) as (e & e' & U & U' & En & El & Ea). unfold local_name, namespace. rewrite U, U'. cbn [bind]. rewrite En, El. auto.
Qed.
Lemma attributes : forall x x' ns n op, same x x' -> attr_matches d x ns n op = attr_matches d' x' ns n op.
Proof.
  intros x x' ns n op S. destruct (unwraps x x' S) as (e & e' & U & U' & En & El & Ea). unfold attr_matches. rewrite U, U'. cbn [bind]. rewrite (existsb_same _ _ _ Ea). reflexivity.
Qed.
Lemma ask : forall q x x', twins x x' -> answered d q x = answered d' q x'.
Proof.
  intros q x x' H. destruct (twins_same _ _ H) as [S K]. destruct (unwraps x x' S) as (e & e' & U & U' & En & El & Ea).
  destruct q as [ns n op| |id c|class c| |]; cbn [answered].
  - apply attributes. exact S.
  - unfold is_link. rewrite U, U'. cbn [bind]. unfold is_html. rewrite En, El, (get_attr_same e e' _ Ea). reflexivity.
  - unfold has_id. rewrite U, U'. cbn [bind]. rewrite (get_attr_same e e' _ Ea). reflexivity.
  - unfold has_class. rewrite U, U'. cbn [bind]. rewrite (get_attr_same e e' _ Ea). reflexivity.
  - destruct (same_range _ _ S) as [B B'].
    destruct (is_empty_ok d kids x (proj1 Hf) B) as (b & E & N). destruct (is_empty_ok d' kids' x' (proj1 Hf') B') as (b' & E' & N').
    rewrite E, E'. f_equal. assert (X : no_content d (kids x) <-> no_content d' (kids' x')) by (destruct K as [K|[_ K]]; [exact (alike_empty _ _ K)|exact K]). destruct b, b'; try reflexivity; exfalso.
    + assert (false = true) by (apply N'; apply X; apply N; reflexivity). discriminate.
    + assert (false = true) by (apply N; apply X; apply N'; reflexivity). discriminate.
  - unfold is_root. destruct (go_parent x x' H) as (o & o' & -> & -> & Bo). cbn [bind]. destruct o, o'; try contradiction; reflexivity.
Qed.
(** No other element is the same *)
Lemma placed_one : forall p p' x x' y', placed p p' x x' -> placed p p' x y' -> x' = y'.
Proof.
  intros p p' x x' y' (a & b & a' & b' & E & E' & Ha & _ & S & _) (c & f & c' & f' & G & G' & Hc & _ & S2 & _).
  assert (a = c) as ->.
  { pose proof (proj1 (proj1 Hf) p) as N. rewrite E in G, N. clear - G N. revert c G. induction a as [|z a IH]; intros c G.
    - destruct c as [|w c]; [reflexivity|]. cbn [app] in *. injection G as -> G. inversion N as [|? ? Ni _]; subst. exfalso. apply Ni.
      apply in_or_app. right. left. reflexivity.
    - destruct c as [|w c]; cbn [app] in *.
      + injection G as -> G. inversion N as [|? ? Ni _]; subst. exfalso. apply Ni. apply in_or_app. right. left. reflexivity.
      + injection G as -> G. f_equal. inversion N; subst. auto. }
  rewrite E' in G'. destruct S as (e & e' & _ & D' & _), S2 as (e2 & e2' & _ & D2' & _).
  apply (count_unique d' a' x' b' c' y' f' G'); [unfold element_at; rewrite D'; reflexivity|unfold element_at; rewrite D2'; reflexivity|].
  rewrite <- (alike_count _ _ Ha), <- (alike_count _ _ Hc). reflexivity.
Qed.
Lemma twins_one : forall x x', twins x x' -> forall y', twins x y' -> x' = y'.
Proof.
  intros x x' H. induction H as [x x' P|p p' x x' T IH P]; intros y' H'; inversion H' as [? ? P' E1 E2|q q' ? ? T' P' E1 E2]; subst;
    destruct (placed_in _ _ _ _ P) as [Ix _], (placed_in _ _ _ _ P') as [Iy _].
  - exact (placed_one _ _ _ _ _ P P').
  - rewrite <- (parent_one d kids _ _ x Hf Ix Iy) in T'. destruct (same_element _ _ (proj1 (twins_same _ _ T'))) as [El _].
    destruct (document_no_element d kids Hf El).
  - rewrite (parent_one d kids _ _ x Hf Ix Iy) in T. destruct (same_element _ _ (proj1 (twins_same _ _ T))) as [El _].
    destruct (document_no_element d kids Hf El).
  - rewrite <- (parent_one d kids _ _ x Hf Ix Iy) in T', P'. rewrite <- (IH _ T') in P'. exact (placed_one _ _ _ _ _ P P').
Qed.
End Two.

(** ** Symmetry *)
Definition flipped (hidden : nat -> nat -> Prop) (x' x : nat) : Prop := hidden x x'.
Lemma same_sym : forall d d' x x', same d d' x x' -> same d' d x' x.
Proof. intros d d' x x' (e & e' & D & D' & En & El & Ea). exists e', e. pose proof (same_attributes_sym _ _ Ea). auto 8. Qed.
Lemma emptiness_sym : forall d d' kids kids' x x', same_emptiness d d' kids kids' x x' -> same_emptiness d' d kids' kids x' x.
Proof. intros d d' kids kids' x x' H. unfold same_emptiness in *. tauto. Qed.
Lemma alike_sym : forall d d' kids kids' hidden l l', alike d d' kids kids' hidden l l' -> alike d' d kids' kids (flipped hidden) l' l.
Proof.
  intros d d' kids kids' hidden l l' H. induction H as [|l l' r r' N N' E H IH|x x' r r' Sx K IHK H IH|x x' r r' Sx Hh Em H IH].
  - apply al_nil.
  - apply al_text; auto. unfold same_text in *. symmetry. exact E.
  - apply al_element; auto using same_sym.
  - apply al_hidden; auto using same_sym, emptiness_sym.
Qed.
Lemma placed_sym : forall d d' kids kids' hidden p p' x x', placed d d' kids kids' hidden p p' x x' -> placed d' d kids' kids (flipped hidden) p' p x' x.
Proof.
  intros d d' kids kids' hidden p p' x x' (a & b & a' & b' & E & E' & Ha & Hb & S & K). exists a', b', a, b.
  split; [exact E'|]. split; [exact E|]. split; [apply alike_sym; exact Ha|]. split; [apply alike_sym; exact Hb|].
  split; [apply same_sym; exact S|]. destruct K as [K|[Hh K]]; [left; apply alike_sym; exact K|right; split; [exact Hh|apply emptiness_sym; exact K]].
Qed.
Lemma twins_sym : forall d d' kids kids' hidden x x', twins d d' kids kids' hidden x x' -> twins d' d kids' kids (flipped hidden) x' x.
Proof.
  intros d d' kids kids' hidden x x' H. induction H as [x x' P|p p' x x' T IH P].
  - apply tw_top. apply placed_sym. exact P.
  - apply (tw_in _ _ _ _ _ p' p); [exact IH|apply placed_sym; exact P].
Qed.

(** ** Programs *)
Section Runs.
Context {state : Type} (step : state -> instruction state).
Lemma forall2_nth : forall {A B} (R : A -> B -> Prop) l l', Forall2 R l l' -> forall i x, nth_error l i = Some x ->
  exists x', nth_error l' i = Some x' /\ R x x'.
Proof.
  intros A B R l l' H. induction H as [|a b l l' Hab H IH]; intros [|i] x E; cbn [nth_error] in *; try discriminate E.
  - injection E as <-. eauto.
  - auto.
Qed.
Lemma runs_alike : forall d d' kids kids' hidden, doc_forest d kids -> doc_forest d' kids' ->
  forall s xs b, runs step d s xs b -> forall xs', Forall2 (twins d d' kids kids' hidden) xs xs' -> runs step d' s xs' b.
Proof.
  intros d d' kids kids' hidden Hf Hf' s xs b H.
  induction H as [s xs b E|s xs m i f n x y b E Ex Em H IH|s xs m i f n x b E Ex Em H IH|s xs q i k x a b E Ex Ea H IH
    |s xs i k x l n b E Ex El En H IH|s xs i j k x y a b E Ex Ey Ea H IH]; intros xs' F.
  - apply rn_answer. exact E.
  - destruct (forall2_nth _ _ _ F i x Ex) as (x' & Ex' & T). destruct (go _ _ _ _ _ Hf Hf' m x x' T) as (o & o' & Eo & Eo' & B).
    rewrite Em in Eo. injection Eo as <-. destruct o' as [y'|]; [|destruct B].
    eapply rn_found; [exact E|exact Ex'|exact Eo'|]. apply IH. apply Forall2_app; [exact F|]. constructor; [exact B|constructor].
  - destruct (forall2_nth _ _ _ F i x Ex) as (x' & Ex' & T). destruct (go _ _ _ _ _ Hf Hf' m x x' T) as (o & o' & Eo & Eo' & B).
    rewrite Em in Eo. injection Eo as <-. destruct o' as [y'|]; [destruct B|].
    eapply rn_none; [exact E|exact Ex'|exact Eo'|]. apply IH. exact F.
  - destruct (forall2_nth _ _ _ F i x Ex) as (x' & Ex' & T). rewrite (ask _ _ _ _ _ Hf Hf' q x x' T) in Ea.
    eapply rn_ask; [exact E|exact Ex'|exact Ea|]. apply IH. exact F.
  - destruct (forall2_nth _ _ _ F i x Ex) as (x' & Ex' & T). destruct (names _ _ x x' (proj1 (twins_same _ _ _ _ _ _ _ T))) as [Nl Nn].
    rewrite Nl in El. rewrite Nn in En. eapply rn_name; [exact E|exact Ex'|exact El|exact En|]. apply IH. exact F.
  - destruct (forall2_nth _ _ _ F i x Ex) as (x' & Ex' & T). destruct (forall2_nth _ _ _ F j y Ey) as (y' & Ey' & T').
    eapply (rn_same _ _ _ _ _ _ _ x' y' a); [exact E|exact Ex'|exact Ey'| |apply IH; exact F]. rewrite Ea. split.
    + intros <-. exact (twins_one _ _ _ _ _ Hf _ _ T _ T').
    + intros <-. exact (twins_one _ _ _ _ _ Hf' _ _ (twins_sym _ _ _ _ _ _ _ T) _ (twins_sym _ _ _ _ _ _ _ T')).
Qed.
Lemma runs_det : forall d s xs b, runs step d s xs b -> forall b', runs step d s xs b' -> b = b'.
Proof.
  intros d s xs b H.
  induction H as [s xs b E|s xs m i f n x y b E Ex Em H IH|s xs m i f n x b E Ex Em H IH|s xs q i k x a b E Ex Ea H IH
    |s xs i k x l n b E Ex El En H IH|s xs i j k x y a b E Ex Ey Ea H IH]; intros b' H';
    destruct H' as [s xs b' E2|s xs m2 i2 f2 n2 x2 y2 b' E2 Ex2 Em2 H2|s xs m2 i2 f2 n2 x2 b' E2 Ex2 Em2 H2|s xs q2 i2 k2 x2 a2 b' E2 Ex2 Ea2 H2
    |s xs i2 k2 x2 l2 n2 b' E2 Ex2 El2 En2 H2|s xs i2 j2 k2 x2 y2 a2 b' E2 Ex2 Ey2 Ea2 H2]; rewrite E in E2; try discriminate E2.
  - injection E2 as <-. reflexivity.
  - injection E2 as <- <- <- <-. rewrite Ex in Ex2. injection Ex2 as <-. rewrite Em in Em2. injection Em2 as <-. auto.
  - injection E2 as <- <- <- <-. rewrite Ex in Ex2. injection Ex2 as <-. rewrite Em in Em2. discriminate Em2.
  - injection E2 as <- <- <- <-. rewrite Ex in Ex2. injection Ex2 as <-. rewrite Em in Em2. discriminate Em2.
  - injection E2 as <- <- <- <-. auto.
  - injection E2 as <- <- <-. rewrite Ex in Ex2. injection Ex2 as <-. rewrite Ea in Ea2. injection Ea2 as <-. auto.
  - injection E2 as <- <-. rewrite Ex in Ex2. injection Ex2 as <-. rewrite El in El2. injection El2 as <-. rewrite En in En2. injection En2 as <-. auto.
  - injection E2 as <- <- <-. rewrite Ex in Ex2. injection Ex2 as <-. rewrite Ey in Ey2. injection Ey2 as <-.
    assert (a2 = a) as -> by (destruct a, a2; try reflexivity; exfalso; intuition congruence). auto.
Qed.
End Runs.
Lemma matches_alike : forall {selector} (matches : selector -> document -> nat -> bool) d d' kids kids' hidden, through_interface matches ->
  doc_forest d kids -> doc_forest d' kids' -> forall sel x x', twins d d' kids kids' hidden x x' -> matches sel d x = matches sel d' x'.
Proof.
  intros selector matches d d' kids kids' hidden (state & step & start & Hm) Hf Hf' sel x x' T.
  destruct (same_element _ _ _ _ (proj1 (twins_same _ _ _ _ _ _ _ T))) as [El El'].
  apply (runs_det step d' (start sel) [x']); [|exact (Hm sel d' kids' x' Hf' El')].
  apply (runs_alike step d d' kids kids' hidden Hf Hf' _ [x]); [exact (Hm sel d kids x Hf El)|]. constructor; [exact T|constructor].
Qed.
