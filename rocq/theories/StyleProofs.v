(** Proofs for the cascade: sorting, application of declarations, the winning declaration. *)
From Coq Require Import QArith Sorting.Permutation Sorting.Sorted Eqdep_dec.
From Verif Require Import Base Dom StyleValues StyleProperties StyleCascade StyleSpec.
Local Open Scope nat_scope.

(** ** Sorting *)
Lemma insert_perm : forall A (key : A -> N) x l, Permutation (x :: l) (insert_by key x l).
Proof.
  induction l as [|y l IH]; cbn [insert_by]; [auto|]. destruct (key x <=? key y)%N; [auto|].
  rewrite perm_swap. apply perm_skip, IH.
Qed.
Lemma insert_in : forall A (key : A -> N) x l y, In y (insert_by key x l) <-> y = x \/ In y l.
Proof.
  intros. split; intro H.
  - apply (Permutation_in _ (Permutation_sym (insert_perm A key x l))) in H. destruct H; auto.
  - apply (Permutation_in _ (insert_perm A key x l)). destruct H; [left|right]; auto.
Qed.
Lemma insert_sorted : forall A (key : A -> N) x l, StronglySorted (fun a b => (key a <= key b)%N) l ->
  StronglySorted (fun a b => (key a <= key b)%N) (insert_by key x l).
Proof.
  induction l as [|y l IH]; intro H; cbn [insert_by]; [repeat constructor|].
  apply StronglySorted_inv in H as [H Hy]. destruct (N.leb_spec (key x) (key y)).
  - constructor; [constructor; auto|]. constructor; [auto|]. eapply Forall_impl; [|exact Hy]. cbn. intros. lia.
  - constructor; [auto|]. apply Forall_forall. intros z Hz. apply insert_in in Hz as [-> |Hz]; [lia|].
    rewrite Forall_forall in Hy. auto.
Qed.
Lemma insert_filter : forall A (key : A -> N) k x l, StronglySorted (fun a b => (key a <= key b)%N) l ->
  filter (fun x => (key x =? k)%N) (insert_by key x l) = filter (fun x => (key x =? k)%N) (x :: l).
Proof.
  induction l as [|y l IH]; intro H; cbn [insert_by]; [auto|]. apply StronglySorted_inv in H as [H Hy].
  destruct (N.leb_spec (key x) (key y)); [auto|]. cbn [filter] in IH |- *. rewrite IH by auto.
  destruct (N.eqb_spec (key y) k); destruct (N.eqb_spec (key x) k); auto. lia.
Qed.
Lemma sort_ok : forall A (key : A -> N) l, stably_sorted key l (sort_by_key key l).
Proof.
  intros A key. induction l as [|x l (P & S' & F)]; unfold sort_by_key; cbn [fold_right].
  - split; [auto|]. split; [constructor|auto].
  - fold (sort_by_key key l). split; [|split].
    + rewrite <- insert_perm. apply perm_skip, P.
    + apply insert_sorted, S'.
    + intro k. rewrite insert_filter by exact S'. cbn [filter]. rewrite F. reflexivity.
Qed.
(** Only one list is stably sorted. *)
Lemma stably_sorted_unique : forall A (key : A -> N) l a b, stably_sorted key l a -> stably_sorted key l b -> a = b.
Proof.
  intros A key l a b (Pa & Sa & Fa) (Pb & Sb & Fb).
  assert (F : forall k, filter (fun x => (key x =? k)%N) a = filter (fun x => (key x =? k)%N) b)
    by (intro k; rewrite Fa, Fb; reflexivity).
  clear l Pa Pb Fa Fb. revert b Sb F. induction a as [|x a IH]; intros [|y b] Sb F; auto.
  - specialize (F (key y)). cbn [filter] in F. rewrite N.eqb_refl in F. discriminate F.
  - specialize (F (key x)). cbn [filter] in F. rewrite N.eqb_refl in F. discriminate F.
  - apply StronglySorted_inv in Sa as [Sa Ha]. apply StronglySorted_inv in Sb as [Sb Hb].
    rewrite Forall_forall in Ha, Hb.
    assert (L1 : (key x <= key y)%N).
    { assert (In y (filter (fun z => (key z =? key y)%N) (x :: a))) as I
        by (rewrite F; cbn [filter]; rewrite N.eqb_refl; left; auto).
      apply filter_In in I as [[-> |I] _]; [lia|auto]. }
    assert (L2 : (key y <= key x)%N).
    { assert (In x (filter (fun z => (key z =? key x)%N) (y :: b))) as I
        by (rewrite <- F; cbn [filter]; rewrite N.eqb_refl; left; auto).
      apply filter_In in I as [[-> |I] _]; [lia|auto]. }
    assert (E : key x = key y) by lia.
    pose proof (F (key x)) as F1. cbn [filter] in F1. rewrite <- E, N.eqb_refl in F1. injection F1 as E1 _. subst y.
    f_equal. apply IH; auto. intro k. pose proof (F k) as Fk. cbn [filter] in Fk. destruct (key x =? k)%N; [|auto].
    injection Fk as Fk. exact Fk.
Qed.

(** ** Setting and getting *)
Lemma get_set_same : forall p v c, get (set p v c) p = v.
Proof.
  intros. unfold set. cbn [get]. destruct (longhand_eq_dec p p) as [e|n]; [|congruence].
  rewrite (UIP_dec longhand_eq_dec e eq_refl). reflexivity.
Qed.
Lemma get_set_other : forall p v c q, p <> q -> get (set p v c) q = get c q.
Proof. intros. unfold set. cbn [get]. destruct (longhand_eq_dec p q) as [e|n]; [congruence|]. reflexivity. Qed.

Definition apply_all (f : phase) (inh : computed_values) (l : list declaration) (c : computed_values) :=
  fold_left (fun c d => phase_cascade f inh d c) l c.

(** The effect of one declaration on longhand [p], in the phase of [p] *)
Definition value_of (inh : computed_values) (own : Q) (d : declaration) : computed (target d) :=
  match d with
  | Declares p s => from_specified (kind_of p) inh (set font_size own inh) s
  | CssWide p k =>
      if match k with Initial => true | Inherit => false | Unset => negb (in_inherited_struct p) end
      then initial_value p else get inh p
  end.
Lemma from_specified_own : forall k inh c, from_specified k inh (set font_size (get c font_size) inh) = from_specified k inh c.
Proof. intros [] inh c; cbn [from_specified]; rewrite ?get_set_same; reflexivity. Qed.

Definition phase_of (p : longhand) : phase := if is_early p then Early else Late.

Lemma cascade_other : forall f inh d c p, target d <> p -> get (phase_cascade f inh d c) p = get c p.
Proof.
  intros [] inh [q v|q k] c p H; cbn [target] in H; cbn [phase_cascade].
  - cbn [if_early_cascade_into]. destruct q; auto. rewrite get_set_other by auto. reflexivity.
  - cbn [if_early_cascade_into]. destruct (is_early q); auto. unfold cascade_css_wide_keyword_into.
    rewrite get_set_other by auto. reflexivity.
  - cbn [if_late_cascade_into]. destruct (is_early q); auto. rewrite get_set_other by auto. reflexivity.
  - cbn [if_late_cascade_into]. destruct (is_early q); auto. unfold cascade_css_wide_keyword_into.
    cbn [negb]. rewrite get_set_other by auto. reflexivity.
Qed.
Lemma cascade_wrong_phase : forall f inh d c, f <> phase_of (target d) -> phase_cascade f inh d c = c.
Proof.
  intros [] inh [q v|q k] c H; cbn [target] in H; unfold phase_of in H; cbn [phase_cascade].
  - cbn [if_early_cascade_into]. destruct q; auto. contradiction H; reflexivity.
  - cbn [if_early_cascade_into]. destruct (is_early q); auto. contradiction H; reflexivity.
  - cbn [if_late_cascade_into]. destruct (is_early q); auto. contradiction H; reflexivity.
  - cbn [if_late_cascade_into]. destruct (is_early q); auto. contradiction H; reflexivity.
Qed.
Lemma cascade_right_phase : forall inh d c,
  get (phase_cascade (phase_of (target d)) inh d c) (target d) = value_of inh (get c font_size) d.
Proof.
  intros inh [q v|q k] c; cbn [target value_of].
  - destruct (is_early q) eqn:E; unfold phase_of; rewrite E; cbn [phase_cascade].
    + destruct q; try discriminate E. cbn [if_early_cascade_into]. rewrite get_set_same. reflexivity.
    + cbn [if_late_cascade_into]. rewrite E, get_set_same. rewrite from_specified_own. reflexivity.
  - unfold phase_of. destruct (is_early q) eqn:E; cbn [phase_cascade if_early_cascade_into if_late_cascade_into]; rewrite E;
      unfold cascade_css_wide_keyword_into; cbn [negb]; rewrite get_set_same; reflexivity.
Qed.

Lemma apply_none : forall f inh p l c, (forall d, In d l -> target d <> p) -> get (apply_all f inh l c) p = get c p.
Proof.
  unfold apply_all. induction l as [|d l IH]; intros c H; [reflexivity|]. cbn [fold_left].
  rewrite IH by (intros; apply H; right; auto). apply cascade_other, H. left; auto.
Qed.
Lemma apply_wrong_phase : forall f inh l c, (forall d, In d l -> f <> phase_of (target d)) -> apply_all f inh l c = c.
Proof.
  unfold apply_all. induction l as [|d l IH]; intros c H; [reflexivity|]. cbn [fold_left].
  rewrite cascade_wrong_phase by (apply H; left; auto). apply IH. intros; apply H; right; auto.
Qed.
Lemma apply_phase_get : forall f inh p l c, f <> phase_of p -> get (apply_all f inh l c) p = get c p.
Proof.
  unfold apply_all. induction l as [|d l IH]; intros c H; [reflexivity|]. cbn [fold_left]. rewrite IH by auto.
  destruct (longhand_eq_dec (target d) p) as [<-|n]; [|apply cascade_other; auto].
  rewrite cascade_wrong_phase by auto. reflexivity.
Qed.
(** The last declaration for a longhand decides. *)
Lemma apply_last : forall f inh l1 d l2 c, f = phase_of (target d) -> (forall x, In x l2 -> target x <> target d) ->
  get (apply_all f inh (l1 ++ d :: l2) c) (target d) = value_of inh (get (apply_all f inh l1 c) font_size) d.
Proof.
  intros f inh l1 d l2 c -> H. unfold apply_all. rewrite fold_left_app. cbn [fold_left].
  change (fold_left _ l2 ?x) with (apply_all (phase_of (target d)) inh l2 x). rewrite apply_none by auto.
  apply cascade_right_phase.
Qed.

(** ** Blocks *)
Definition with_importance (b : declaration_block) (imp : bool) : list declaration :=
  map fst (filter (fun di => Bool.eqb (snd di) imp) (combine (declarations b) (important b))).
Lemma fold_filter : forall f inh imp l c,
  fold_left (fun c di => if Bool.eqb (snd di) imp then phase_cascade f inh (fst di) c else c) l c =
  apply_all f inh (map fst (filter (fun di => Bool.eqb (snd di) imp) l)) c.
Proof.
  unfold apply_all. induction l as [|[d i] l IH]; intro c; [reflexivity|]. cbn [fold_left filter snd fst].
  destruct (Bool.eqb i imp); cbn [map fold_left fst]; apply IH.
Qed.
Lemma combine_nth_error : forall A B (a : list A) (b : list B) k x y,
  nth_error (combine a b) k = Some (x, y) <-> nth_error a k = Some x /\ nth_error b k = Some y.
Proof.
  induction a as [|u a IH]; intros [|v b] k x y; destruct k; cbn [combine nth_error]; try (split; [discriminate|intros [? ?]; discriminate]).
  - split; [intro H; injection H as -> ->; auto|intros [H1 H2]; congruence].
  - apply IH.
Qed.
Lemma block_cascade_apply : forall b (imp : bool) any f inh c, summary_complete b ->
  any = (if imp then any_important b else any_normal b) ->
  block_cascade b imp any f inh c = apply_all f inh (with_importance b imp) c.
Proof.
  intros b imp any f inh c (L & H) ->. unfold block_cascade.
  destruct (select f (if imp then any_important b else any_normal b)) eqn:S'; [apply fold_filter|].
  symmetry. apply apply_wrong_phase. intros d I E. unfold with_importance in I.
  apply in_map_iff in I as ([d' i] & Ed & I). cbn [fst] in Ed. subst d'. apply filter_In in I as [I Ei]. cbn [snd] in Ei.
  apply Bool.eqb_prop in Ei. subst i. apply In_nth_error in I as [k I]. apply combine_nth_error in I as [I1 I2].
  destruct (H _ _ _ I1 I2) as [He Hl]. cbn zeta in He, Hl.
  unfold phase_of in E. destruct (is_early (target d)) eqn:Ee.
  - subst f. cbn [select] in S'. rewrite He in S'; [discriminate S'|]. destruct (target d); try discriminate Ee; reflexivity.
  - subst f. cbn [select] in S'. rewrite Hl in S'; [discriminate S'|]. intro Ef. rewrite Ef in Ee. discriminate Ee.
Qed.
Lemma fold_blocks : forall (imp : bool) f inh l c, Forall summary_complete l ->
  fold_left (fun c b => block_cascade b imp (if imp then any_important b else any_normal b) f inh c) l c =
  apply_all f inh (flat_map (fun b => with_importance b imp) l) c.
Proof.
  induction l as [|b l IH]; intros c H; [reflexivity|]. apply Forall_cons_iff in H as [Hb H]. cbn [fold_left flat_map].
  rewrite block_cascade_apply by auto. rewrite IH by auto. unfold apply_all. rewrite fold_left_app. reflexivity.
Qed.
Definition in_order (m : matching_declarations) : list declaration :=
  flat_map (fun b => with_importance b false) (m_ua m) ++ flat_map (fun b => with_importance b false) (m_author m) ++
  flat_map (fun b => with_importance b true) (m_author m) ++ flat_map (fun b => with_importance b true) (m_ua m).
Lemma cascade_apply : forall m f inh c, Forall summary_complete (m_ua m) -> Forall summary_complete (m_author m) ->
  cascade m f inh c = apply_all f inh (in_order m) c.
Proof.
  intros m f inh c Hu Ha. unfold cascade.
  change (cascade_normal f inh) with (fun c b => block_cascade b false (if false then any_important b else any_normal b) f inh c).
  change (cascade_important f inh) with (fun c b => block_cascade b true (if true then any_important b else any_normal b) f inh c).
  rewrite !fold_blocks by auto. unfold in_order, apply_all. rewrite !fold_left_app. reflexivity.
Qed.

(** ** Occurrences in order *)
Lemma sorted_app : forall A (R : A -> A -> Prop) a b, StronglySorted R a -> StronglySorted R b ->
  (forall x y, In x a -> In y b -> R x y) -> StronglySorted R (a ++ b).
Proof.
  induction a as [|x a IH]; intros b Sa Sb H; [auto|]. apply StronglySorted_inv in Sa as [Sa Ha]. cbn [app].
  constructor; [apply IH; auto; intros; apply H; auto; right; auto|]. apply Forall_app. split; [auto|].
  apply Forall_forall. intros y I. apply H; auto. left; auto.
Qed.
Lemma sorted_flat_map : forall A B (R : A -> A -> Prop) (Q' : B -> B -> Prop) (g : A -> list B) l,
  StronglySorted R l -> (forall a, StronglySorted Q' (g a)) ->
  (forall a b x y, R a b -> In x (g a) -> In y (g b) -> Q' x y) -> StronglySorted Q' (flat_map g l).
Proof.
  induction l as [|a l IH]; intros Sl Sg H; [constructor|]. apply StronglySorted_inv in Sl as [Sl Hl]. cbn [flat_map].
  apply sorted_app; auto. intros x y I J. apply in_flat_map in J as (b & Ib & J). rewrite Forall_forall in Hl. eauto.
Qed.
Lemma sorted_filter : forall A (R : A -> A -> Prop) f l, StronglySorted R l -> StronglySorted R (filter f l).
Proof.
  induction l as [|a l IH]; intro H; [constructor|]. apply StronglySorted_inv in H as [H Ha]. cbn [filter].
  destruct (f a); auto. constructor; auto. apply Forall_forall. intros x I. apply filter_In in I as [I _].
  rewrite Forall_forall in Ha. auto.
Qed.
Lemma sorted_map : forall A B (R : A -> A -> Prop) (Q' : B -> B -> Prop) (g : A -> B) l,
  StronglySorted R l -> (forall a b, R a b -> Q' (g a) (g b)) -> StronglySorted Q' (map g l).
Proof.
  induction l as [|a l IH]; intros H Hg; [constructor|]. apply StronglySorted_inv in H as [H Ha]. cbn [map].
  constructor; auto. apply Forall_forall. intros y I. apply in_map_iff in I as (x & <- & I). rewrite Forall_forall in Ha. auto.
Qed.

(** Numbering a list *)
Definition numbered {A} (i : nat) (l : list A) : list (nat * A) := combine (seq i (List.length l)) l.
Lemma numbered_in : forall A (l : list A) s i x, In (i, x) (numbered s l) <-> s <= i /\ nth_error l (i - s) = Some x.
Proof.
  unfold numbered. induction l as [|y l IH]; intros s i x; cbn [List.length seq combine In].
  - split; [intros []|intros [_ H]; destruct (i - s); discriminate].
  - rewrite IH. split.
    + intros [H|[H1 H2]]; [injection H as -> ->; split; [lia|]; rewrite Nat.sub_diag; reflexivity|].
      split; [lia|]. replace (i - s) with (S (i - S s)) by lia. exact H2.
    + intros [H1 H2]. destruct (Nat.eq_dec i s) as [-> |n].
      * left. rewrite Nat.sub_diag in H2. cbn in H2. injection H2 as ->. reflexivity.
      * right. split; [lia|]. replace (i - s) with (S (i - S s)) in H2 by lia. exact H2.
Qed.
Lemma numbered_sorted : forall A (l : list A) s, StronglySorted (fun a b => fst a < fst b) (numbered s l).
Proof.
  unfold numbered. induction l as [|y l IH]; intro s; cbn [List.length seq combine]; constructor; auto.
  apply Forall_forall. intros [i x] I. change (In (i, x) (numbered (S s) l)) in I. apply numbered_in in I. cbn [fst]. lia.
Qed.
Lemma numbered_snd : forall A (l : list A) s, map snd (numbered s l) = l.
Proof. unfold numbered. induction l as [|y l IH]; intro s; cbn [List.length seq combine map snd]; [auto|]. rewrite IH. reflexivity. Qed.
Lemma filter_map_snd : forall A B (f : B -> bool) (l : list (A * B)),
  map snd (filter (fun x => f (snd x)) l) = filter f (map snd l).
Proof. induction l as [|[a b] l IH]; [auto|]. cbn [filter map snd]. destruct (f b); cbn [map snd]; rewrite IH; auto. Qed.
Lemma insert_map_snd : forall A B (key : B -> N) x (l : list (A * B)),
  map snd (insert_by (fun x => key (snd x)) x l) = insert_by key (snd x) (map snd l).
Proof.
  induction l as [|y l IH]; [auto|]. cbn [insert_by map]. destruct (key (snd x) <=? key (snd y))%N; cbn [map]; [auto|].
  rewrite IH. reflexivity.
Qed.
Lemma sort_map_snd : forall A B (key : B -> N) (l : list (A * B)),
  map snd (sort_by_key (fun x => key (snd x)) l) = sort_by_key key (map snd l).
Proof.
  unfold sort_by_key. induction l as [|x l IH]; [auto|]. cbn [fold_right map]. rewrite insert_map_snd, IH. reflexivity.
Qed.

(** Rules in the order of specificity, then of appearance *)
Definition before_rule {A} (key : A -> N) (a b : nat * A) : Prop :=
  (key (snd a) < key (snd b))%N \/ key (snd a) = key (snd b) /\ fst a < fst b.
Lemma insert_lex : forall A (key : A -> N) x (l : list (nat * A)), StronglySorted (before_rule key) l ->
  (forall y, In y l -> fst x < fst y) -> StronglySorted (before_rule key) (insert_by (fun x => key (snd x)) x l).
Proof.
  induction l as [|y l IH]; intros Sl H; cbn [insert_by]; [repeat constructor|].
  pose proof Sl as Sl'. apply StronglySorted_inv in Sl' as [Sl' Hy]. rewrite Forall_forall in Hy.
  destruct (N.leb_spec (key (snd x)) (key (snd y))).
  - constructor; auto. apply Forall_forall. intros z [<-|I].
    + unfold before_rule. pose proof (H y (or_introl eq_refl)). destruct (N.eq_dec (key (snd x)) (key (snd y))); [right|left]; auto. lia.
    + specialize (Hy z I). unfold before_rule in Hy |- *. pose proof (H z (or_intror I)).
      destruct (N.eq_dec (key (snd x)) (key (snd z))); [right; auto|left; lia].
  - constructor; [apply IH; auto; intros; apply H; right; auto|]. apply Forall_forall. intros z I.
    apply insert_in in I as [-> |I]; [left; auto|auto].
Qed.
Lemma sort_lex : forall A (key : A -> N) (l : list A) s,
  StronglySorted (before_rule key) (sort_by_key (fun x => key (snd x)) (numbered s l)).
Proof.
  unfold numbered, sort_by_key. induction l as [|y l IH]; intro s; cbn [List.length seq combine fold_right]; [constructor|].
  apply insert_lex; auto. intros [i x] I.
  change (In (i, x) (sort_by_key (fun x => key (snd x)) (numbered (S s) l))) in I.
  apply (Permutation_in _ (Permutation_sym (proj1 (sort_ok _ _ _)))) in I. apply numbered_in in I. cbn [fst]. lia.
Qed.

Section Occurrences.
Variable selector : Type.
Variable specificity : selector -> N.
Variable matching : selector -> bool.

Definition block_occs (o : origin) (attr : bool) (spec : N) (rule : nat) (imp : bool) (b : declaration_block) : list occurrence :=
  map (fun x => mkOcc o (snd (snd x)) attr spec rule (fst x) (fst (snd x)))
    (filter (fun x => Bool.eqb (snd (snd x)) imp) (numbered 0 (combine (declarations b) (important b)))).
Lemma block_occs_declarations : forall o attr spec rule imp b,
  map o_declaration (block_occs o attr spec rule imp b) = with_importance b imp.
Proof.
  intros. unfold block_occs, with_importance. rewrite map_map. cbn [o_declaration].
  rewrite <- (map_map snd fst (filter _ (numbered _ _))).
  rewrite (filter_map_snd _ _ (fun x : declaration * bool => Bool.eqb (snd x) imp)). rewrite numbered_snd. reflexivity.
Qed.
Lemma block_occs_in : forall o attr spec rule imp b x, In x (block_occs o attr spec rule imp b) <->
  exists k d, nth_error (declarations b) k = Some d /\ nth_error (important b) k = Some imp /\ x = mkOcc o imp attr spec rule k d.
Proof.
  intros. unfold block_occs. rewrite in_map_iff. split.
  - intros ((k & d & i) & <- & I). apply filter_In in I as [I E]. cbn [fst snd] in *. apply Bool.eqb_prop in E. subst i.
    apply numbered_in in I as [_ I]. rewrite Nat.sub_0_r in I. apply combine_nth_error in I as [I1 I2]. eauto.
  - intros (k & d & I1 & I2 & ->). exists (k, (d, imp)). split; [reflexivity|]. apply filter_In. cbn [fst snd].
    split; [|apply Bool.eqb_reflx]. apply numbered_in. split; [lia|]. rewrite Nat.sub_0_r. apply combine_nth_error. auto.
Qed.
Lemma block_occs_sorted : forall o attr spec rule imp b, StronglySorted loses_to (block_occs o attr spec rule imp b).
Proof.
  intros. unfold block_occs.
  apply (sorted_map _ _ (fun a b : nat * (declaration * bool) => fst a < fst b /\ snd (snd a) = snd (snd b))).
  - match goal with |- StronglySorted _ (filter ?f ?l) =>
      assert (G : StronglySorted (fun a b => fst a < fst b) (filter f l)) by (apply sorted_filter, numbered_sorted);
      assert (E : forall x, In x (filter f l) -> snd (snd x) = imp)
        by (intros x I; apply filter_In in I as [_ I]; apply Bool.eqb_prop in I; exact I);
      revert G E; generalize (filter f l) end.
    induction l as [|x l IH]; intros G E; constructor; apply StronglySorted_inv in G as [G Gx].
    + apply IH; auto. intros; apply E; right; auto.
    + apply Forall_forall. intros y I. rewrite Forall_forall in Gx. split; [auto|]. rewrite !E; auto; [right|left]; auto.
  - intros [k [d i]] [k' [d' i']] [H1 H2]. cbn [fst snd] in *. subst i'. unfold loses_to. cbn. right. split; [auto|].
    right. split; [auto|]. right. split; [auto|]. right. auto.
Qed.

Definition rules_occs (o : origin) (imp : bool) (rules : list (selector * declaration_block)) : list occurrence :=
  flat_map (fun r => block_occs o false (specificity (fst (snd r))) (fst r) imp (snd (snd r)))
    (filter (fun r => matching (fst (snd r)))
       (sort_by_key (fun r => specificity (fst (snd r))) (numbered 0 rules))).
Lemma rules_occs_in : forall o imp rules x, In x (rules_occs o imp rules) <->
  exists i s b k d, nth_error rules i = Some (s, b) /\ matching s = true /\ nth_error (declarations b) k = Some d /\
    nth_error (important b) k = Some imp /\ x = mkOcc o imp false (specificity s) i k d.
Proof.
  intros. unfold rules_occs. rewrite in_flat_map. split.
  - intros ((i & s & b) & I & J). apply filter_In in I as [I M]. cbn [fst snd] in *.
    apply (Permutation_in _ (Permutation_sym (proj1 (sort_ok _ _ _)))) in I. apply numbered_in in I as [_ I].
    rewrite Nat.sub_0_r in I. apply block_occs_in in J as (k & d & J1 & J2 & ->). exists i, s, b, k, d. auto.
  - intros (i & s & b & k & d & I & M & J1 & J2 & ->). exists (i, (s, b)). split.
    + apply filter_In. cbn [fst snd]. split; [|auto]. apply (Permutation_in _ (proj1 (sort_ok _ _ _))).
      apply numbered_in. rewrite Nat.sub_0_r. split; [lia|auto].
    + cbn [fst snd]. apply block_occs_in. eauto.
Qed.
Lemma rules_occs_sorted : forall o imp rules, StronglySorted loses_to (rules_occs o imp rules).
Proof.
  intros. unfold rules_occs.
  apply (sorted_flat_map _ _ (before_rule (fun r : selector * declaration_block => specificity (fst r)))).
  - apply sorted_filter. apply (sort_lex _ (fun r : selector * declaration_block => specificity (fst r))).
  - intros. apply block_occs_sorted.
  - intros (i & s & b) (i' & s' & b') x y R Ix Iy. cbn [fst snd] in *. unfold before_rule in R. cbn [fst snd] in R.
    apply block_occs_in in Ix as (k & d & _ & _ & ->). apply block_occs_in in Iy as (k' & d' & _ & _ & ->).
    unfold loses_to. cbn. right. split; [auto|]. right. split; [auto|]. destruct R as [R|[R1 R2]]; [left; auto|right; auto].
Qed.
Lemma rules_occs_declarations : forall o imp rules (d : document) (n : nat) (matches : selector -> document -> nat -> bool),
  matching = (fun s => matches s d n) ->
  map o_declaration (rules_occs o imp rules) =
  flat_map (fun b => with_importance b imp) (push_matching selector matches (finish selector specificity rules) d n).
Proof.
  intros o imp rules d n matches E. unfold rules_occs, push_matching, finish.
  rewrite <- (numbered_snd _ rules 0) at 2. rewrite <- (sort_map_snd nat _ (fun r : selector * declaration_block => specificity (fst r))).
  replace (fun r : selector * declaration_block => matches (fst r) d n) with (fun r : selector * declaration_block => matching (fst r))
    by (rewrite E; reflexivity).
  rewrite <- (filter_map_snd nat _ (fun r : selector * declaration_block => matching (fst r))).
  match goal with |- map _ (flat_map _ ?l) = flat_map _ (map _ (map _ ?l')) => change l' with l; generalize l end.
  induction l as [|(i & s & b) l IH]; [reflexivity|]. cbn [flat_map map fst snd]. rewrite map_app, IH, block_occs_declarations. reflexivity.
Qed.

Definition author_occs (imp : bool) (author : list (selector * declaration_block)) (attr : option declaration_block) : list occurrence :=
  rules_occs Author imp author ++ match attr with Some b => block_occs Author true 0 0 imp b | None => [] end.
Definition all_occs (ua author : list (selector * declaration_block)) (attr : option declaration_block) : list occurrence :=
  rules_occs UserAgent false ua ++ author_occs false author attr ++ author_occs true author attr ++ rules_occs UserAgent true ua.

Lemma author_occs_in : forall imp author attr x, In x (author_occs imp author attr) ->
  o_origin x = Author /\ o_important x = imp.
Proof.
  intros imp author attr x I. unfold author_occs in I. apply in_app_or in I as [I|I].
  - apply rules_occs_in in I as (i & s & b & k & d & _ & _ & _ & _ & ->). auto.
  - destruct attr as [b|]; [|destruct I]. apply block_occs_in in I as (k & d & _ & _ & ->). auto.
Qed.
Lemma ua_occs_in : forall imp ua x, In x (rules_occs UserAgent imp ua) -> o_origin x = UserAgent /\ o_important x = imp.
Proof. intros imp ua x I. apply rules_occs_in in I as (i & s & b & k & d & _ & _ & _ & _ & ->). auto. Qed.
Lemma author_occs_sorted : forall imp author attr, StronglySorted loses_to (author_occs imp author attr).
Proof.
  intros. unfold author_occs. apply sorted_app.
  - apply rules_occs_sorted.
  - destruct attr; [apply block_occs_sorted|constructor].
  - intros x y I J. destruct attr as [b|]; [|destruct J]. apply rules_occs_in in I as (i & s & b' & k & d & _ & _ & _ & _ & ->).
    apply block_occs_in in J as (k' & d' & _ & _ & ->). unfold loses_to. cbn. right. split; [auto|]. left. lia.
Qed.
Lemma all_occs_sorted : forall ua author attr, StronglySorted loses_to (all_occs ua author attr).
Proof.
  intros. unfold all_occs.
  assert (R : forall x y, rank (o_origin x) (o_important x) < rank (o_origin y) (o_important y) -> loses_to x y)
    by (intros; left; auto).
  apply sorted_app; [apply rules_occs_sorted| |].
  - apply sorted_app; [apply author_occs_sorted| |].
    + apply sorted_app; [apply author_occs_sorted|apply rules_occs_sorted|].
      intros x y I J. apply author_occs_in in I as [I1 I2]. apply ua_occs_in in J as [J1 J2]. apply R. rewrite I1, I2, J1, J2. cbn. lia.
    + intros x y I J. apply author_occs_in in I as [I1 I2]. apply R. rewrite I1, I2. apply in_app_or in J as [J|J];
        [apply author_occs_in in J as [J1 J2]|apply ua_occs_in in J as [J1 J2]]; rewrite J1, J2; cbn; lia.
  - intros x y I J. apply ua_occs_in in I as [I1 I2]. apply R. rewrite I1, I2. apply in_app_or in J as [J|J];
      [|apply in_app_or in J as [J|J]];
      [apply author_occs_in in J as [J1 J2]|apply author_occs_in in J as [J1 J2]|apply ua_occs_in in J as [J1 J2]]; rewrite J1, J2; cbn; lia.
Qed.
Lemma author_in : forall imp author attr x, In x (author_occs imp author attr) <->
  (o_important x = imp /\ o_origin x = Author /\ occurs selector specificity matching [] author attr x).
Proof.
  intros. unfold author_occs. rewrite in_app_iff, rules_occs_in. split.
  - intros [(i & s & b & k & d & H1 & H2 & H3 & H4 & ->)|I]; [split; [auto|]; split; [auto|]; eapply occurs_author; eauto|].
    destruct attr as [b|]; [|destruct I]. apply block_occs_in in I as (k & d & H3 & H4 & ->). split; [auto|]. split; [auto|].
    eapply occurs_attribute; eauto.
  - intros (E & O & H). inversion H as [i s b k d im H1|i s b k d im H1 H2 H3 H4|b k d im H1 H2 H3]; subst x; cbn in E, O; subst im.
    + discriminate O.
    + left. exists i, s, b, k, d. auto.
    + right. subst attr. apply block_occs_in. eauto.
Qed.
Lemma all_occs_in : forall ua author attr x, In x (all_occs ua author attr) <-> occurs selector specificity matching ua author attr x.
Proof.
  intros. unfold all_occs. rewrite !in_app_iff, !author_in, !rules_occs_in. split.
  - intros [H|[H|[H|H]]].
    + destruct H as (i & s & b & k & d & H1 & H2 & H3 & H4 & ->). eapply occurs_ua; eauto.
    + destruct H as (_ & O & H). inversion H; subst x; [discriminate O|eapply occurs_author; eauto|eapply occurs_attribute; eauto].
    + destruct H as (_ & O & H). inversion H; subst x; [discriminate O|eapply occurs_author; eauto|eapply occurs_attribute; eauto].
    + destruct H as (i & s & b & k & d & H1 & H2 & H3 & H4 & ->). eapply occurs_ua; eauto.
  - intro H. destruct H as [i s b k d [] H1 H2 H3 H4|i s b k d [] H1 H2 H3 H4|b k d [] H1 H2 H3].
    + right. right. right. exists i, s, b, k, d. auto.
    + left. exists i, s, b, k, d. auto.
    + right. right. left. split; [auto|]. split; [auto|]. eapply occurs_author; eauto.
    + right. left. split; [auto|]. split; [auto|]. eapply occurs_author; eauto.
    + right. right. left. split; [auto|]. split; [auto|]. eapply occurs_attribute; eauto.
    + right. left. split; [auto|]. split; [auto|]. eapply occurs_attribute; eauto.
Qed.
End Occurrences.

(** The last one for a longhand *)
Lemma split_last : forall A (f : A -> bool) l, (forall x, In x l -> f x = false) \/
  exists l1 x l2, l = l1 ++ x :: l2 /\ f x = true /\ forall y, In y l2 -> f y = false.
Proof.
  induction l as [|a l [IH|(l1 & x & l2 & -> & Hx & H2)]]; [left; intros x []| |].
  - destruct (f a) eqn:E; [right; exists [], a, l; auto|left; intros x [<-|I]; auto].
  - right. exists (a :: l1), x, l2. auto.
Qed.
Lemma sorted_mid : forall A (R : A -> A -> Prop) l1 x l2, StronglySorted R (l1 ++ x :: l2) ->
  (forall y, In y l1 -> R y x) /\ (forall y, In y l2 -> R x y).
Proof.
  induction l1 as [|a l1 IH]; intros x l2 H; cbn [app] in H; apply StronglySorted_inv in H as [H F]; rewrite Forall_forall in F.
  - split; [intros y []|auto].
  - destruct (IH _ _ H) as [IH1 IH2]. split; [|auto]. intros y [<-|I]; auto. apply F, in_or_app. right. left. auto.
Qed.

(** ** Fix-ups *)
Ltac getset := rewrite ?get_set_same; repeat (rewrite get_set_other by discriminate; rewrite ?get_set_same).
Lemma not_out_of_flow : forall c, is_absolutely_positioned (get c position_) || is_floating (get c float_) = true <-> out_of_flow c.
Proof.
  intro c. unfold out_of_flow. destruct (get c position_); destruct (get c float_); cbn; split; auto;
    intros H; try discriminate; intuition congruence.
Qed.
Definition frame (c : computed_values) : computed_values := post_cascade_fixups c.
Definition plain (p : longhand) : bool :=
  match p with display_ | border_top_width | border_left_width | border_bottom_width | border_right_width => false | _ => true end.
Lemma fixups_plain : forall c p, plain p = true -> get (post_cascade_fixups c) p = get c p.
Proof.
  intros c p H. unfold post_cascade_fixups, display_fixup. cbn zeta.
  match goal with |- context [if ?b then _ else _] => destruct b end.
  - destruct p; try discriminate H; cbn [get]; getset; reflexivity.
  - cbn [get]. destruct p; try discriminate H; getset; reflexivity.
Qed.
Lemma display_width : forall c p, p <> display_ -> get (display_fixup c) p = get c p.
Proof.
  intros c p H. unfold display_fixup. cbn zeta. match goal with |- context [if ?b then _ else _] => destruct b end; [|reflexivity].
  rewrite get_set_other by auto. reflexivity.
Qed.
Lemma fixups_width : forall c,
  get (post_cascade_fixups c) border_top_width = line_width_fixup (get c border_top_width) (get c border_top_style) /\
  get (post_cascade_fixups c) border_left_width = line_width_fixup (get c border_left_width) (get c border_left_style) /\
  get (post_cascade_fixups c) border_bottom_width = line_width_fixup (get c border_bottom_width) (get c border_bottom_style) /\
  get (post_cascade_fixups c) border_right_width = line_width_fixup (get c border_right_width) (get c border_right_style).
Proof.
  intro c. unfold post_cascade_fixups. cbn zeta. rewrite !display_width by discriminate.
  split; [|split; [|split]]; getset; reflexivity.
Qed.
Lemma fixups_display : forall c, specified_display (post_cascade_fixups c) = get c display_ /\
  get (post_cascade_fixups c) display_ =
    if is_absolutely_positioned (get c position_) || is_floating (get c float_) then blockify (get c display_) else get c display_.
Proof.
  intro c. unfold post_cascade_fixups. cbn zeta.
  match goal with |- context [display_fixup ?x] => set (y := x) end.
  assert (E : forall p, get y p = get c p \/ In p [border_top_width; border_left_width; border_bottom_width; border_right_width]).
  { intro p. subst y. destruct (in_dec longhand_eq_dec p [border_top_width; border_left_width; border_bottom_width; border_right_width]) as [I|N]; auto.
    left. cbn [In] in N. repeat (rewrite get_set_other by (intro; apply N; auto)). reflexivity. }
  assert (Ep : get y position_ = get c position_) by (destruct (E position_) as [?|[?|[?|[?|[?|[]]]]]]; auto; discriminate).
  assert (Ef : get y float_ = get c float_) by (destruct (E float_) as [?|[?|[?|[?|[?|[]]]]]]; auto; discriminate).
  assert (Ed : get y display_ = get c display_) by (destruct (E display_) as [?|[?|[?|[?|[?|[]]]]]]; auto; discriminate).
  clearbody y. unfold display_fixup. cbn zeta. cbn [get]. rewrite Ep, Ef.
  destruct (is_absolutely_positioned (get c position_) || is_floating (get c float_)) eqn:Eo.
  - split; [cbn; auto|]. rewrite get_set_same. rewrite Ed. reflexivity.
  - cbn. auto.
Qed.
Lemma blockify_block : forall d, blockify d = block_level d.
Proof. intros []; reflexivity. Qed.
Lemma side_width_ok : forall s v, side_width s v (line_width_fixup v s).
Proof. intros [] v; split; intro H; try reflexivity; congruence. Qed.
Lemma fixups_adjusted : forall c p, adjusted (post_cascade_fixups c) p (get c p).
Proof.
  intros c p. destruct (plain p) eqn:E.
  - destruct p; try discriminate E; exact (fixups_plain c _ E).
  - destruct (fixups_width c) as (W1 & W2 & W3 & W4). destruct (fixups_display c) as [D1 D2].
    destruct p; try discriminate E; cbn [adjusted].
    + split; [exact D1|].
      assert (O : is_absolutely_positioned (get c position_) || is_floating (get c float_) = true <-> out_of_flow (post_cascade_fixups c)).
      { rewrite <- not_out_of_flow. rewrite !fixups_plain by reflexivity. reflexivity. }
      rewrite D2. destruct (is_absolutely_positioned (get c position_) || is_floating (get c float_)).
      * split; intro H; [apply blockify_block|]. exfalso. apply H, O. reflexivity.
      * split; intro H; [|reflexivity]. apply O in H. discriminate H.
    + rewrite W1, fixups_plain by reflexivity. apply side_width_ok.
    + rewrite W2, fixups_plain by reflexivity. apply side_width_ok.
    + rewrite W3, fixups_plain by reflexivity. apply side_width_ok.
    + rewrite W4, fixups_plain by reflexivity. apply side_width_ok.
Qed.

(** ** Values *)
Lemma initial_ok : forall p, initial_value p = css_initial p.
Proof. intros []; reflexivity. Qed.
Lemma inherited_ok : forall p, in_inherited_struct p = true <-> css_inherited p.
Proof. unfold css_inherited. intros []; cbn; split; intro H; try discriminate; auto; destruct H; discriminate. Qed.
Definition inherited_of (parent : option computed_values) : computed_values := match parent with Some p => p | None => INITIAL_VALUES end.
Lemma inherits_ok : forall parent p, get (inherited_of parent) p = inherits_from parent p.
Proof. intros [c|] p; cbn; [auto|apply initial_ok]. Qed.
Lemma default_ok : forall parent p, css_default parent p (if in_inherited_struct p then get (inherited_of parent) p else initial_value p).
Proof.
  intros parent p. unfold css_default. destruct (in_inherited_struct p) eqn:E.
  - split; intro H; [apply inherits_ok|]. exfalso. apply H, inherited_ok, E.
  - split; intro H; [|apply initial_ok]. apply inherited_ok in H. congruence.
Qed.
Lemma length_ok : forall em s, css_length em s (length_from_specified em s).
Proof. intros em []; constructor. Qed.
Lemma value_gives : forall parent own d, gives parent own d (value_of (inherited_of parent) own d).
Proof.
  intros parent own [p s|p k]; cbn [gives value_of target].
  - destruct (longhand_eq_dec p font_size) as [-> |n].
    + change (specified font_size) with specified_length in s. cbn [kind_of css_computed from_specified].
      rewrite inherits_ok. destruct s; constructor.
    + destruct p; try congruence; cbn [kind_of css_computed from_specified]; try reflexivity; rewrite ?get_set_same;
        cbn in s; destruct s; cbn; try reflexivity; try (eexists; split; [apply length_ok|reflexivity]).
      rewrite inherits_ok. reflexivity.
  - destruct k.
    + apply inherits_ok.
    + apply initial_ok.
    + generalize (default_ok parent p). destruct (in_inherited_struct p); cbn [negb]; auto.
Qed.

Lemma is_early_font : forall p, is_early p = true -> p = font_size.
Proof. intros []; cbn; intro; congruence. Qed.

(** ** The style of an element *)
Lemma computed_new_ok : forall selector (specificity : selector -> N) (matching : selector -> bool) ua author attr parent m,
  Forall summary_complete (m_ua m) -> Forall summary_complete (m_author m) ->
  map o_declaration (all_occs selector specificity matching ua author attr) = in_order m ->
  css_style (occurs selector specificity matching ua author attr) parent (computed_new parent (Some m)).
Proof.
  intros selector specificity matching ua author attr parent m Hu Ha E p. unfold computed_new. cbn zeta.
  rewrite !cascade_apply by auto. fold (inherited_of parent).
  set (start := mkComputed _ display_initial). set (inh := inherited_of parent).
  set (c1 := apply_all Early inh (in_order m) start). set (c2 := apply_all Late inh (in_order m) c1).
  assert (Ef : get (post_cascade_fixups c2) font_size = get c1 font_size).
  { rewrite fixups_plain by reflexivity. unfold c2. apply apply_phase_get. discriminate. }
  rewrite Ef.
  destruct (split_last _ (fun o => if longhand_eq_dec (target (o_declaration o)) p then true else false)
              (all_occs selector specificity matching ua author attr)) as [H|(l1 & o & l2 & El & Ho & H2)].
  - right. split.
    + intros o I. apply all_occs_in in I. specialize (H o I). cbn in H. destruct (longhand_eq_dec _ _) as [e|n]; [discriminate H|exact n].
    + exists (get c2 p). split; [|apply fixups_adjusted].
      assert (N : forall d, In d (in_order m) -> target d <> p).
      { intros d I. rewrite <- E in I. apply in_map_iff in I as (o & <- & I). specialize (H o I). cbn in H.
        destruct (longhand_eq_dec _ _) as [e|n]; [discriminate H|exact n]. }
      unfold c2, c1. rewrite !apply_none by auto. apply default_ok.
  - left. destruct (longhand_eq_dec (target (o_declaration o)) p) as [<-|n]; [|discriminate Ho].
    exists o, (get c2 (target (o_declaration o))). split; [reflexivity|]. split; [|split].
    + split; [apply all_occs_in; rewrite El; apply in_or_app; right; left; auto|].
      intros o' I T'. apply all_occs_in in I. rewrite El in I. pose proof (all_occs_sorted selector specificity matching ua author attr) as S'.
      rewrite El in S'. apply sorted_mid in S' as [S1 S2]. apply in_app_or in I as [I|[<-|I]]; [right; auto|left; auto|].
      specialize (H2 o' I). destruct (longhand_eq_dec _ _) as [e|n]; [discriminate H2|]. contradiction.
    + assert (Em : in_order m = map o_declaration l1 ++ o_declaration o :: map o_declaration l2)
        by (rewrite <- E, El, map_app; reflexivity).
      assert (N2 : forall x, In x (map o_declaration l2) -> target x <> target (o_declaration o)).
      { intros x I. apply in_map_iff in I as (o' & <- & I). specialize (H2 o' I). destruct (longhand_eq_dec _ _) as [e|n]; [discriminate H2|exact n]. }
      destruct (is_early (target (o_declaration o))) eqn:Ee.
      * unfold c2. rewrite apply_phase_get by (unfold phase_of; rewrite Ee; discriminate). unfold c1. rewrite Em.
        rewrite apply_last; [|unfold phase_of; rewrite Ee; reflexivity|exact N2]. apply is_early_font in Ee.
        assert (V : forall own own', target (o_declaration o) = font_size ->
                  value_of inh own (o_declaration o) = value_of inh own' (o_declaration o)).
        { clear. intros own own' Et. destruct (o_declaration o) as [q s|q k]; [|reflexivity]. cbn [target] in Et. subst q. reflexivity. }
        rewrite <- Em. rewrite (V _ (get c1 font_size) Ee). apply value_gives.
      * unfold c2. rewrite Em. rewrite apply_last; [|unfold phase_of; rewrite Ee; reflexivity|exact N2].
        rewrite apply_phase_get by discriminate. apply value_gives.
    + apply fixups_adjusted.
Qed.

Lemma in_order_occs : forall selector (specificity : selector -> N) (matches : selector -> document -> nat -> bool) ua author attr d n,
  map o_declaration (all_occs selector specificity (fun s => matches s d n) ua author attr) =
  in_order (mkMatching (push_matching selector matches (finish selector specificity ua) d n)
              (push_matching selector matches (finish selector specificity author) d n ++ match attr with Some b => [b] | None => [] end)).
Proof.
  intros. unfold all_occs, author_occs, in_order. cbn [m_ua m_author]. rewrite !map_app, !flat_map_app.
  rewrite !(rules_occs_declarations selector specificity (fun s => matches s d n) _ _ _ d n matches eq_refl).
  destruct attr as [b|]; cbn [flat_map map]; rewrite ?block_occs_declarations, ?app_nil_r; reflexivity.
Qed.

(** ** Parsing keeps the summary *)
Definition grows (b b' : declaration_block) (ds : list declaration) (imp : bool) : Prop :=
  declarations b' = declarations b ++ ds /\ important b' = important b ++ repeat imp (List.length ds).
Lemma phases_in : forall l p, In p l -> (p = font_size -> early (phases_of l) = true) /\ (p <> font_size -> late (phases_of l) = true).
Proof.
  intros l p I. unfold phases_of. cbn. split; intro H.
  - apply existsb_exists. exists p. split; [auto|]. subst p. reflexivity.
  - apply existsb_exists. exists p. split; [auto|]. destruct p; try reflexivity. congruence.
Qed.
Lemma phases_some : forall l p, In p l -> early (phases_of l) || late (phases_of l) = true.
Proof.
  intros l p I. destruct (phases_in l p I) as [H1 H2]. destruct (longhand_eq_dec p font_size) as [e|n].
  - rewrite (H1 e). reflexivity.
  - rewrite (H2 n). apply orb_true_r.
Qed.
Lemma property_parse_targets : forall pc p ts ds ph r, property_parse pc p ts = Some ((ds, ph), r) ->
  map target ds = longhands p /\ ph = phases_of (longhands p).
Proof.
  intros pc [p|s] ts ds ph r H; cbn [property_parse] in H.
  - destruct (parse_kind pc (kind_of p) ts) as [[v r']|]; [|discriminate H]. injection H as <- <- _.
    split; [reflexivity|]. unfold phases_of. cbn. rewrite !orb_false_r. reflexivity.
  - destruct (parse_shorthand pc s ts) as [[ds' r']|] eqn:P; [|discriminate H]. injection H as -> <- _. split; [|reflexivity].
    destruct s; cbn [parse_shorthand] in P.
    1-5: match type of P with context [parse_four_sides ?k ?x] => destruct (parse_four_sides k x) as [[v r0]|] end;
      [|discriminate P]; injection P as <- _; reflexivity.
    + destruct (parse_border_side pc ts) as [[[[] [] []] r0]|]; [..|discriminate P]; injection P as <- _; reflexivity.
    + destruct (parse_background pc ts) as [[[] r0]|]; [..|discriminate P]; injection P as <- _; reflexivity.
Qed.
Lemma longhands_some : forall p, 0 < List.length (longhands p).
Proof. intros [p|[]]; cbn; lia. Qed.

Definition block_ok (b : declaration_block) : Prop :=
  summary_complete b /\
  (early (any_normal b) || late (any_normal b) = negb (forallb (fun x => x) (important b))) /\
  (early (any_important b) || late (any_important b) = negb (forallb negb (important b))).
Lemma forallb_repeat : forall (f : bool -> bool) x n, 0 < n -> forallb f (repeat x n) = f x.
Proof. induction n as [|n IH]; intro H; [lia|]. cbn [repeat forallb]. destruct n; [apply andb_true_r|]. rewrite IH by lia. apply andb_diag. Qed.

Lemma nth_error_repeat' : forall A (x y : A) n k, nth_error (repeat x n) k = Some y -> y = x.
Proof. induction n as [|n IH]; intros k H; destruct k; cbn in H; try discriminate; [congruence|eauto]. Qed.

(** What [parse_value] adds, if it adds something *)
Definition added (pc : parser color) (name : bytes) (ts : list token) : option (list declaration * bool * list token) :=
  match property_data_by_name name with
  | None => None
  | Some data =>
      match match parse_css_wide ts with
            | Some (k, r) => Some (map (fun p => CssWide p k) (longhands data), r)
            | None => match property_parse pc data ts with Some (ds, _, r) => Some (ds, r) | None => None end
            end with
      | None => None
      | Some (ds, r) => match parse_important r with Some r' => Some (ds, true, r') | None => Some (ds, false, r) end
      end
  end.
Lemma parse_value_added : forall pc b name ts, block_ok b ->
  match added pc name ts with
  | None => parse_value pc b name ts = Ok (b, None)
  | Some (ds, imp, r) => exists b', parse_value pc b name ts = Ok (b', Some r) /\ grows b b' ds imp /\ block_ok b' /\ ds <> []
  end.
Proof.
  intros pc b name ts ((L & Hs) & Hn & Hi). unfold added, parse_value.
  destruct (property_data_by_name name) as [data|]; [|reflexivity].
  assert (K : forall ds ph r, map target ds = longhands data -> ph = phases_of (longhands data) ->
    match (match parse_important r with Some r' => Some (ds, true, r') | None => Some (ds, false, r) end) with
    | None => False
    | Some (ds', imp, r') =>
      exists b', (let '(imp, ts) := match parse_important r with Some ts => (true, ts) | None => (false, r) end in
          bind (assert (0 <? List.length ds)) (fun _ =>
          Ok (mkBlock (declarations b ++ ds) (important b ++ repeat imp (List.length ds))
                (if imp then or_phase (any_important b) ph else any_important b)
                (if imp then any_normal b else or_phase (any_normal b) ph), Some ts))) = (Ok (b', Some r') : result _) /\
        grows b b' ds' imp /\ block_ok b' /\ ds' <> []
    end).
  { intros ds ph r T ->.
    assert (Hl : 0 < List.length ds) by (rewrite <- (map_length target), T; apply longhands_some).
    assert (N : ds <> []) by (destruct ds; [cbn in Hl; lia|discriminate]).
    assert (In0 : forall k d, nth_error ds k = Some d -> In (target d) (longhands data)).
    { intros k d I. rewrite <- T. apply in_map. eapply nth_error_In; eauto. }
    assert (Some0 : early (phases_of (longhands data)) || late (phases_of (longhands data)) = true).
    { destruct ds as [|d ds']; [congruence|]. eapply phases_some. apply (In0 0 d). reflexivity. }
    replace (0 <? List.length ds) with true by (symmetry; apply Nat.ltb_lt; auto). cbn [assert bind].
    assert (G : forall imp, summary_complete (mkBlock (declarations b ++ ds) (important b ++ repeat imp (List.length ds))
                (if imp then or_phase (any_important b) (phases_of (longhands data)) else any_important b)
                (if imp then any_normal b else or_phase (any_normal b) (phases_of (longhands data))))).
    { intro imp. split; cbn [declarations important any_important any_normal].
      - rewrite !app_length, repeat_length. lia.
      - intros k d i Hk Hk'. destruct (Nat.lt_ge_cases k (List.length (declarations b))) as [Lk|Lk].
        + rewrite nth_error_app1 in Hk by auto. rewrite nth_error_app1 in Hk' by lia. destruct (Hs k d i Hk Hk') as [E1 E2].
          destruct i, imp; cbn [or_phase early late] in *; (split; intro Ht; [rewrite (E1 Ht)|rewrite (E2 Ht)]; try reflexivity).
        + rewrite nth_error_app2 in Hk by auto. rewrite nth_error_app2 in Hk' by lia. apply nth_error_repeat' in Hk'. subst i.
          destruct (phases_in _ _ (In0 _ _ Hk)) as [E1 E2].
          destruct imp; cbn [or_phase early late]; (split; intro Ht; [rewrite (E1 Ht)|rewrite (E2 Ht)]; apply orb_true_r). }
    assert (O : forall x, (early (or_phase x (phases_of (longhands data))) || late (or_phase x (phases_of (longhands data)))) = true).
    { intro x. cbn [or_phase early late]. destruct (early x), (late x); cbn [orb]; auto; try apply orb_true_r. }
    destruct (parse_important r) as [r'|]; eexists; (split; [reflexivity|]); (split; [split; reflexivity|]); (split; [|exact N]);
      (split; [apply G|]); cbn [important any_normal any_important]; rewrite !forallb_app, !forallb_repeat by auto; cbn [negb];
      rewrite ?andb_false_r, ?andb_true_r; split; auto. }
  destruct (parse_css_wide ts) as [[k r]|].
  - assert (T : map target (map (fun p => CssWide p k) (longhands data)) = longhands data).
    { rewrite map_map. cbn [target]. apply map_id. }
    specialize (K _ _ r T eq_refl). destruct (parse_important r); exact K.
  - destruct (property_parse pc data ts) as [[[ds ph] r]|] eqn:P; [|reflexivity].
    apply property_parse_targets in P as [T ->]. specialize (K _ _ r T eq_refl). destruct (parse_important r); exact K.
Qed.

(** One item: fine, ignored, or a panic *)
Definition item_effect (pc : parser color) (i : item) : option (list declaration * bool * list token) :=
  match i with BadItem => None | Item name ts => added pc name ts end.
Lemma parse_item_effect : forall pc b i, block_ok b ->
  match item_effect pc i with
  | None => parse_item pc b i = Ok b
  | Some (ds, imp, []) => exists b', parse_item pc b i = Ok b' /\ grows b b' ds imp /\ block_ok b'
  | Some (ds, imp, _ :: _) => parse_item pc b i = Panic
  end.
Proof.
  intros pc b i Hb. pose proof Hb as ((L & _) & _). destruct i as [name ts|]; cbn [item_effect].
  - pose proof (parse_value_added pc b name ts Hb) as P. destruct (added pc name ts) as [[[ds imp] r]|].
    + destruct P as (b' & P & G & Hb' & N). unfold parse_item. rewrite P. cbn [bind]. destruct r as [|t r].
      * cbn [bind]. pose proof Hb' as ((L' & _) & _). rewrite L', Nat.eqb_refl. cbn [assert bind]. eauto.
      * destruct G as [-> _]. rewrite app_length. replace (_ =? _) with false; [reflexivity|].
        symmetry. apply Nat.eqb_neq. destruct ds; [congruence|]. cbn. lia.
    + unfold parse_item. rewrite P. cbn [bind]. rewrite Nat.eqb_refl. cbn [assert bind]. rewrite L, Nat.eqb_refl. reflexivity.
  - unfold parse_item. cbn [bind]. rewrite L, Nat.eqb_refl. reflexivity.
Qed.
Lemma default_block_ok : block_ok block_default.
Proof. split; [split; [reflexivity|intros [|k] ? ? H; discriminate H]|split; reflexivity]. Qed.

(** The declarations of a list of items *)
Fixpoint effects (pc : parser color) (l : list item) : list (declaration * bool) :=
  match l with
  | [] => []
  | i :: r => match item_effect pc i with
              | Some (ds, imp, _) => map (fun d => (d, imp)) ds ++ effects pc r
              | None => effects pc r
              end
  end.
Lemma combine_repeat : forall A B (x : B) (l : list A), combine l (repeat x (List.length l)) = map (fun a => (a, x)) l.
Proof. induction l as [|a l IH]; [auto|]. cbn [List.length repeat combine map]. rewrite IH. reflexivity. Qed.
Lemma combine_app' : forall A B (a a' : list A) (b b' : list B), List.length a = List.length b ->
  combine (a ++ a') (b ++ b') = combine a b ++ combine a' b'.
Proof. induction a as [|x a IH]; intros a' [|y b] b' H; try discriminate H; [auto|]. cbn [app combine]. rewrite IH by (cbn in H; lia). reflexivity. Qed.
Lemma parse_items_effects : forall pc l b b', block_ok b -> parse_items pc b l = Ok b' ->
  block_ok b' /\ combine (declarations b') (important b') = combine (declarations b) (important b) ++ effects pc l.
Proof.
  induction l as [|i l IH]; intros b b' Hb H; cbn [parse_items] in H.
  - injection H as <-. rewrite app_nil_r. auto.
  - pose proof (parse_item_effect pc b i Hb) as E. cbn [effects]. destruct (item_effect pc i) as [[[ds imp] [|t r]]|].
    + destruct E as (b1 & E & [G1 G2] & H1). rewrite E in H. cbn [bind] in H. apply IH in H as [H2 H3]; [|exact H1]. split; [exact H2|].
      rewrite H3, G1, G2, combine_app', combine_repeat, app_assoc by apply Hb. reflexivity.
    + rewrite E in H. discriminate H.
    + rewrite E in H. cbn [bind] in H. apply IH; auto.
Qed.
Lemma parse_items_total : forall pc l b, block_ok b -> (forall i ds imp t r, In i l -> item_effect pc i <> Some (ds, imp, t :: r)) ->
  exists b', parse_items pc b l = Ok b'.
Proof.
  induction l as [|i l IH]; intros b Hb H; [eexists; reflexivity|]. cbn [parse_items].
  pose proof (parse_item_effect pc b i Hb) as E. destruct (item_effect pc i) as [[[ds imp] [|t r]]|] eqn:Ei.
  - destruct E as (b1 & E & _ & H1). rewrite E. cbn [bind]. apply IH; auto. intros; apply H; right; auto.
  - exfalso. eapply H; [left; reflexivity|exact Ei].
  - rewrite E. cbn [bind]. apply IH; auto. intros; apply H; right; auto.
Qed.
Lemma parse_items_panics : forall pc l b i ds imp t r, block_ok b -> In i l -> item_effect pc i = Some (ds, imp, t :: r) ->
  parse_items pc b l = Panic.
Proof.
  induction l as [|j l IH]; intros b i ds imp t r Hb I Ei; [destruct I|]. cbn [parse_items].
  pose proof (parse_item_effect pc b j Hb) as E. destruct I as [-> |I].
  - rewrite Ei in E. rewrite E. reflexivity.
  - destruct (item_effect pc j) as [[[ds' imp'] [|t' r']]|].
    + destruct E as (b1 & E & _ & H1). rewrite E. cbn [bind]. eapply IH; eauto.
    + rewrite E. reflexivity.
    + rewrite E. cbn [bind]. eapply IH; eauto.
Qed.
Lemma parse_block_items : forall pc l, parse_block pc l = parse_items pc block_default l.
Proof.
  intros. unfold parse_block. destruct (parse_items pc block_default l) as [b|e|] eqn:E; auto. cbn [bind].
  apply parse_items_effects in E as [((_ & _) & Hn & Hi) _]; [|apply default_block_ok]. rewrite Hn, Hi, !Bool.eqb_reflx. reflexivity.
Qed.
Lemma parse_block_ok : forall pc l b, parse_block pc l = Ok b -> block_ok b.
Proof. intros pc l b H. rewrite parse_block_items in H. eapply parse_items_effects; [|exact H]. apply default_block_ok. Qed.

(** ** Style sets *)
Lemma add_stylesheet_ok : forall pc selector css (s s' : style_set selector), add_stylesheet pc selector s css = Ok s' ->
  Forall (fun r => summary_complete (snd r)) s -> Forall (fun r => summary_complete (snd r)) s'.
Proof.
  induction css as [|[sel body|] css IH]; intros s s' H F; cbn [add_stylesheet] in H.
  - injection H as <-. auto.
  - destruct (parse_block pc body) as [b|e|] eqn:E; [|destruct e|discriminate H]. cbn [bind] in H. eapply IH; [exact H|].
    apply Forall_app. split; [auto|]. apply Forall_map, Forall_forall. intros x _. cbn [snd]. apply (parse_block_ok pc body b E).
  - eauto.
Qed.
Lemma add_stylesheets_ok : forall pc selector l (s s' : style_set selector), add_stylesheets pc selector s l = Ok s' ->
  Forall (fun r => summary_complete (snd r)) s -> Forall (fun r => summary_complete (snd r)) s'.
Proof.
  induction l as [|css l IH]; intros s s' H F; cbn [add_stylesheets] in H.
  - injection H as <-. auto.
  - destruct (add_stylesheet pc selector s css) as [s1|e|] eqn:E; [|destruct e|discriminate H]. cbn [bind] in H.
    eapply IH; [exact H|]. eapply add_stylesheet_ok; eauto.
Qed.
Lemma push_matching_ok : forall selector specificity matches (s : style_set selector) d n,
  Forall (fun r => summary_complete (snd r)) s ->
  Forall summary_complete (push_matching selector matches (finish selector specificity s) d n).
Proof.
  intros selector specificity matches s d n F. unfold push_matching, finish. apply Forall_map, Forall_forall. intros x I.
  apply filter_In in I as [I _]. apply (Permutation_in _ (Permutation_sym (proj1 (sort_ok _ _ _)))) in I.
  rewrite Forall_forall in F. auto.
Qed.
