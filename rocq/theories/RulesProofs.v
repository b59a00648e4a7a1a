(** Proofs about the leading declarations of an author's rules *)
From Coq Require Import QArith Lia Sorting.Sorted.
From Coq Require Import FunctionalExtensionality.
From Verif Require Import Base Dom DomSpec StyleValues StyleProperties StyleCascade StyleSpec StyleElementSpec StyleElementProofs StyleProofs RulesSpec.
Local Open Scope nat_scope.

Section Rules.
Variable selector : Type.
Variable specificity : selector -> N.
Variable matching : selector -> bool.
Notation rule := (selector * list (declaration * bool))%type.
Notation leads := (leads selector specificity matching).
Notation candidates := (candidates selector specificity matching).

Fixpoint in_rule (s : selector) (i k : nat) (ds : list (declaration * bool)) : list occurrence :=
  match ds with [] => [] | (d, imp) :: r => mkOcc Author imp false (specificity s) i k d :: in_rule s i (S k) r end.
Fixpoint in_rules (i : nat) (l : list rule) : list occurrence :=
  match l with [] => [] | (s, ds) :: r => (if matching s then in_rule s i 0 ds else []) ++ in_rules (S i) r end.
Definition sets (p : longhand) (o : occurrence) : bool := if longhand_eq_dec (target (o_declaration o)) p then true else false.
Definition forget (o : occurrence) : bool * N * declaration := (o_important o, o_specificity o, o_declaration o).
Definition before (a b : occurrence) : Prop := o_rule a < o_rule b \/ (o_rule a = o_rule b /\ o_index a < o_index b).

Lemma in_rule_in : forall s i ds k o, In o (in_rule s i k ds) <->
  exists j d imp, nth_error ds j = Some (d, imp) /\ o = mkOcc Author imp false (specificity s) i (k + j) d.
Proof.
  intros s i ds. induction ds as [|[d imp] ds IH]; intros k o; cbn [in_rule In].
  - split; [intros []|]. intros ([|j] & d & imp & E & _); discriminate E.
  - rewrite IH. split.
    + intros [<-|(j & d' & imp' & E & ->)]; [exists 0, d, imp; rewrite Nat.add_0_r; auto|]. exists (S j), d', imp'. rewrite Nat.add_succ_r. auto.
    + intros ([|j] & d' & imp' & E & ->); cbn [nth_error] in E.
      * injection E as -> ->. left. rewrite Nat.add_0_r. reflexivity.
      * right. exists j, d', imp'. rewrite Nat.add_succ_r. auto.
Qed.
Lemma in_rules_in : forall l i o, In o (in_rules i l) <->
  exists j s ds k d imp, nth_error l j = Some (s, ds) /\ matching s = true /\ nth_error ds k = Some (d, imp) /\
    o = mkOcc Author imp false (specificity s) (i + j) k d.
Proof.
  induction l as [|[s ds] l IH]; intros i o; cbn [in_rules].
  - split; [intros []|]. intros ([|j] & s & ds & k & d & imp & E & _); discriminate E.
  - rewrite in_app_iff, IH. split.
    + intros [H|(j & s' & ds' & k & d & imp & E & M & Ek & ->)].
      * destruct (matching s) eqn:M; [|destruct H]. apply in_rule_in in H as (j & d & imp & E & ->).
        exists 0, s, ds, j, d, imp. rewrite Nat.add_0_r. auto.
      * exists (S j), s', ds', k, d, imp. rewrite Nat.add_succ_r. auto.
    + intros ([|j] & s' & ds' & k & d & imp & E & M & Ek & ->); cbn [nth_error] in E.
      * injection E as -> ->. left. rewrite M. apply in_rule_in. exists k, d, imp. rewrite Nat.add_0_r. auto.
      * right. exists j, s', ds', k, d, imp. rewrite Nat.add_succ_r. auto.
Qed.
Lemma sorted_app : forall (R : occurrence -> occurrence -> Prop) a b, StronglySorted R a -> StronglySorted R b ->
  (forall x y, In x a -> In y b -> R x y) -> StronglySorted R (a ++ b).
Proof.
  intros R a b Sa Sb H. induction Sa as [|x a Sa IH F]; [exact Sb|]. cbn [app]. constructor.
  - apply IH. intros y z Iy Iz. apply H; [right; exact Iy|exact Iz].
  - apply Forall_app. split; [exact F|]. apply Forall_forall. intros y Iy. apply H; [left; reflexivity|exact Iy].
Qed.
Lemma in_rule_sorted : forall s i ds k, StronglySorted before (in_rule s i k ds).
Proof.
  intros s i ds. induction ds as [|[d imp] ds IH]; intros k; cbn [in_rule]; constructor; [apply IH|].
  apply Forall_forall. intros o H. apply in_rule_in in H as (j & d' & imp' & _ & ->). right. cbn. lia.
Qed.
Lemma in_rules_sorted : forall l i, StronglySorted before (in_rules i l).
Proof.
  induction l as [|[s ds] l IH]; intros i; cbn [in_rules]; [constructor|]. apply sorted_app; [destruct (matching s); [apply in_rule_sorted|constructor]|apply IH|].
  intros x y Ix Iy. destruct (matching s); [|destruct Ix]. apply in_rule_in in Ix as (j & d & imp & _ & ->).
  apply in_rules_in in Iy as (j' & s' & ds' & k & d' & imp' & _ & _ & _ & ->). left. cbn. lia.
Qed.
Lemma sorted_filter : forall (f : occurrence -> bool) l, StronglySorted before l -> StronglySorted before (filter f l).
Proof.
  intros f l H. induction H as [|x l H IH F]; [constructor|]. cbn [filter]. destruct (f x); [|exact IH]. constructor; [exact IH|].
  apply Forall_forall. intros y I. apply filter_In in I as [I _]. rewrite Forall_forall in F. exact (F y I).
Qed.
Lemma candidates_map : forall p l i, candidates p l = map forget (filter (sets p) (in_rules i l)).
Proof.
  intros p. unfold RulesSpec.candidates. induction l as [|[s ds] l IH]; intros i; [reflexivity|]. cbn [flat_map in_rules].
  rewrite filter_app, map_app, <- IH. f_equal. unfold contributions. cbn [fst snd]. destruct (matching s); [|reflexivity].
  generalize 0. induction ds as [|[d imp] ds IHd]; intros k; [reflexivity|]. cbn [in_rule filter fst]. unfold sets at 1. cbn [o_declaration].
  destruct (longhand_eq_dec (target d) p); cbn [map]; rewrite (IHd (S k)); reflexivity.
Qed.

(** The order of the cascade among an author's rules *)
Definition plain_author (o : occurrence) : Prop := o_origin o = Author /\ o_attribute o = false.
Lemma in_rules_plain : forall l i o, In o (in_rules i l) -> plain_author o.
Proof. intros l i o H. apply in_rules_in in H as (j & s & ds & k & d & imp & _ & _ & _ & ->). split; reflexivity. Qed.
Lemma loses_plain : forall a b, plain_author a -> plain_author b ->
  (loses_to a b <-> weaker (fst (forget a)) (fst (forget b)) \/ (fst (forget a) = fst (forget b) /\ before a b)).
Proof.
  intros [oa ia ta sa ra ka da] [ob ib tb sb rb kb db] [Oa Ta] [Ob Tb]. cbn in Oa, Ta, Ob, Tb. subst.
  unfold loses_to, weaker, before, forget. cbn. destruct ia, ib; cbn; split; intros H.
  all: repeat match goal with H : _ \/ _ |- _ => destruct H | H : _ /\ _ |- _ => destruct H end; try discriminate; try lia.
  all: try (left; right; split; [reflexivity|assumption]).
  all: try (left; left; split; reflexivity).
  all: try match goal with H : (_, _) = (_, _) |- _ => injection H as H; subst end.
  all: try (right; split; [congruence|auto]; fail).
  all: try (left; lia).
  all: right; split; [reflexivity|]; right; split; [reflexivity|]; auto 6.
Qed.
Lemma weaker_irrefl : forall a b, weaker a b -> no_stronger b a -> False.
Proof.
  intros [i s] [i' s']. unfold weaker, no_stronger. cbn. intros [[-> ->]|[-> H]] [[E E']|[E H']]; try discriminate; try congruence; try lia.
Qed.
Lemma strength_total : forall a b, weaker a b \/ no_stronger b a.
Proof.
  intros [i s] [i' s']. unfold weaker, no_stronger. cbn. destruct i, i'; cbn; try (destruct (N.lt_ge_cases s s')); auto.
Qed.
Lemma no_stronger_cases : forall a b, no_stronger a b -> weaker a b \/ a = b.
Proof.
  intros [i s] [i' s']. unfold weaker, no_stronger. cbn. intros [H|[-> H]]; [auto|]. destruct (N.lt_eq_cases s s') as [X _]. destruct (X H) as [L| ->]; auto.
Qed.
Lemma no_stronger_trans : forall a b c, no_stronger a b -> no_stronger b c -> no_stronger a c.
Proof.
  intros [i s] [i' s'] [i'' s'']. unfold no_stronger. cbn. intros [[-> ->]|[-> H]] [[E E']|[E H']]; subst; try discriminate; auto.
  right. split; [reflexivity|lia].
Qed.
Lemma weaker_no_stronger : forall a b, weaker a b -> no_stronger a b.
Proof. intros [i s] [i' s']. unfold weaker, no_stronger. cbn. intros [H|[-> H]]; [auto|]. right. split; [reflexivity|lia]. Qed.
Lemma weaker_trans_l : forall a b c, no_stronger a b -> weaker b c -> weaker a c.
Proof.
  intros [i s] [i' s'] [i'' s'']. unfold weaker, no_stronger. cbn. intros [[-> ->]|[-> H]] [[E E']|[E H']]; subst; try discriminate; auto.
  right. split; [reflexivity|lia].
Qed.

(** A leader is a declaration of the rules that beats all others there. *)
Definition chief (l : list rule) (p : longhand) (o : occurrence) : Prop :=
  In o (in_rules 0 l) /\ target (o_declaration o) = p /\
  forall o', In o' (in_rules 0 l) -> target (o_declaration o') = p -> o' = o \/ loses_to o' o.
Lemma sets_iff : forall p o, sets p o = true <-> target (o_declaration o) = p.
Proof. intros p o. unfold sets. destruct (longhand_eq_dec (target (o_declaration o)) p); split; intros H; congruence. Qed.
Lemma in_sorted : forall a o b x, StronglySorted before (a ++ o :: b) -> (In x a -> before x o) /\ (In x b -> before o x).
Proof.
  intros a o b x H. induction a as [|y a IH]; cbn [app] in H; inversion H as [|? ? S F]; subst.
  - split; [intros []|]. rewrite Forall_forall in F. apply F.
  - destruct (IH S) as [I1 I2]. split; [|exact I2]. intros [->|I]; [|auto]. rewrite Forall_forall in F. apply F. apply in_or_app. right. left. reflexivity.
Qed.
Lemma leads_chief : forall l p imp d, leads l p imp d <-> exists o, chief l p o /\ o_important o = imp /\ o_declaration o = d.
Proof.
  intros l p imp d. pose proof (sorted_filter (sets p) _ (in_rules_sorted l 0)) as So. split.
  - intros (a & sp & b & E & Ha & Hb). rewrite (candidates_map p l 0) in E. apply map_eq_app in E as (la & lb & E & Ea & Eb).
    destruct lb as [|o lb]; [discriminate Eb|]. cbn [map] in Eb. assert (Eo : forget o = (imp, sp, d)) by congruence. assert (Eb' : map forget lb = b) by congruence. clear Eb. subst a b. rewrite E in So.
    assert (Io : In o (filter (sets p) (in_rules 0 l))) by (rewrite E; apply in_or_app; right; left; reflexivity).
    apply filter_In in Io as [Io To]. apply sets_iff in To. unfold forget in Eo.
    assert (Ei : o_important o = imp) by congruence. assert (Es : o_specificity o = sp) by congruence. assert (Ed : o_declaration o = d) by congruence. exists o. split; [|auto].
    split; [exact Io|]. split; [exact To|]. intros x Ix Tx.
    assert (Jx : In x (filter (sets p) (in_rules 0 l))) by (apply filter_In; split; [exact Ix|apply sets_iff; exact Tx]).
    rewrite E in Jx. apply in_app_or in Jx as [Jx|[Jx|Jx]]; [|left; symmetry; exact Jx|]; right;
      apply (loses_plain x o (in_rules_plain _ _ _ Ix) (in_rules_plain _ _ _ Io)); cbn [forget fst]; rewrite Ei, Es.
    + destruct (no_stronger_cases _ _ (Ha (forget x) (in_map forget _ _ Jx))) as [W|Eq]; [left; exact W|right]. split; [exact Eq|exact (proj1 (in_sorted _ _ _ _ So) Jx)].
    + left. exact (Hb (forget x) (in_map forget _ _ Jx)).
  - intros (o & (Io & To & Ho) & <- & <-).
    assert (Jo : In o (filter (sets p) (in_rules 0 l))) by (apply filter_In; split; [exact Io|apply sets_iff; exact To]).
    apply in_split in Jo as (la & lb & E). exists (map forget la), (o_specificity o), (map forget lb).
    split; [rewrite (candidates_map p l 0), E, map_app; reflexivity|]. rewrite E in So.
    assert (K : forall x, In x (la ++ o :: lb) -> x = o \/ (plain_author x /\ loses_to x o)).
    { intros x Ix. rewrite <- E in Ix. apply filter_In in Ix as [Ix Tx]. apply sets_iff in Tx. destruct (Ho x Ix Tx) as [->|L]; [auto|].
      right. split; [exact (in_rules_plain _ _ _ Ix)|exact L]. }
    assert (Ir : forall x, before x x -> False) by (intros x [H|[_ H]]; lia).
    split; intros y Iy; apply in_map_iff in Iy as (x & <- & Ix).
    + destruct (K x) as [->|[Px L]]; [apply in_or_app; left; exact Ix| |].
      * exfalso. exact (Ir o (proj1 (in_sorted _ _ _ _ So) Ix)).
      * apply (loses_plain x o Px (in_rules_plain _ _ _ Io)) in L as [W|[Eq _]]; [apply weaker_no_stronger; exact W|].
        change (o_important o, o_specificity o) with (fst (forget o)). rewrite Eq. unfold no_stronger. right. split; [reflexivity|lia].
    + destruct (K x) as [->|[Px L]]; [apply in_or_app; right; right; exact Ix| |].
      * exfalso. exact (Ir o (proj2 (in_sorted _ _ _ _ So) Ix)).
      * apply (loses_plain x o Px (in_rules_plain _ _ _ Io)) in L as [W|[Eq B]]; [exact W|]. exfalso.
        pose proof (proj2 (in_sorted _ _ _ _ So) Ix) as B'. unfold before in B, B'. lia.
Qed.
Lemma leader_exists : forall l p x, In x (candidates p l) -> exists imp d, leads l p imp d.
Proof.
  intros l p. unfold RulesSpec.leads. generalize (candidates p l) as c.
  induction c as [|[[i s] d] c IH]; intros x []; clear x H.
  1,2: destruct c as [|y c]; [exists i, d, [], s, []; split; [reflexivity|]; split; intros z []|].
  1,2: destruct (IH y (or_introl eq_refl)) as (imp & d' & a & sp & b & E & Ha & Hb); rewrite E in *;
    destruct (strength_total (imp, sp) (i, s)) as [W|W].
  1,3: exists i, d, [], s, (a ++ (imp, sp, d') :: b); split; [reflexivity|]; split; [intros z []|]; intros z Iz;
    apply in_app_or in Iz as [Iz|[<-|Iz]]; [exact (weaker_trans_l _ _ _ (Ha z Iz) W)|exact W|
      exact (weaker_trans_l _ _ _ (weaker_no_stronger _ _ (Hb z Iz)) W)].
  1,2: exists imp, d', ((i, s, d) :: a), sp, b; split; [reflexivity|]; split; [|exact Hb]; intros z [<-|Iz]; [exact W|exact (Ha z Iz)].
Qed.
Lemma chief_exists : forall l p o, In o (in_rules 0 l) -> target (o_declaration o) = p -> exists o', chief l p o'.
Proof.
  intros l p o I T. destruct (leader_exists l p (forget o)) as (imp & d & L).
  { rewrite (candidates_map p l 0). apply in_map. apply filter_In. split; [exact I|apply sets_iff; exact T]. }
  apply leads_chief in L as (o' & C & _). eauto.
Qed.

(** ** With the other origins *)
Variables (ua author author' : list (selector * declaration_block)) (attr : option declaration_block).
Variables l l' : list rule.
Hypothesis Hl : Forall2 rule_holds author l.
Hypothesis Hl' : Forall2 rule_holds author' l'.
Hypothesis Same : same_leaders selector specificity matching l l'.
Notation occ a := (occurs selector specificity matching ua a attr).
Lemma nth_combine : forall A B (a : list A) (b : list B) k x y, nth_error (combine a b) k = Some (x, y) <-> nth_error a k = Some x /\ nth_error b k = Some y.
Proof.
  intros A B a. induction a as [|u a IH]; intros b k x y.
  - cbn [combine]. destruct k; split; [discriminate|intros [H _]; discriminate H|discriminate|intros [H _]; discriminate H].
  - destruct b as [|v b]; cbn [combine].
    + destruct k; split; try discriminate; intros [_ H]; discriminate H.
    + destruct k as [|k]; cbn [nth_error]; [|apply IH]. split; [intros H; injection H as <- <-; auto|intros [H H']; congruence].
Qed.
Lemma author_occurs : forall au m i s b k d imp, Forall2 rule_holds au m -> nth_error au i = Some (s, b) -> matching s = true ->
  nth_error (declarations b) k = Some d -> nth_error (important b) k = Some imp -> In (mkOcc Author imp false (specificity s) i k d) (in_rules 0 m).
Proof.
  intros au m i s b k d imp F E M Ed Ei. apply in_rules_in. revert i E. induction F as [|[s1 b1] [s2 ds] au m [Hs [_ Hd]] F IH]; intros i E; [destruct i; discriminate E|].
  cbn [fst snd] in Hs, Hd. destruct i as [|i]; cbn [nth_error] in E.
  - injection E as -> ->. subst s2. exists 0, s, ds, k, d, imp. split; [reflexivity|]. split; [exact M|]. split; [|reflexivity].
    rewrite <- Hd. apply nth_combine. auto.
  - destruct (IH i E) as (j & s' & ds' & k' & d' & imp' & En & M' & Ek & Eo). exists (S j), s', ds', k', d', imp'. injection Eo as -> Es -> -> -> .
    cbn [nth_error]. repeat split; try assumption. cbn. rewrite Es. reflexivity.
Qed.
Lemma occurs_author_in : forall au m o, Forall2 rule_holds au m -> In o (in_rules 0 m) -> occ au o.
Proof.
  intros au m o F H. apply in_rules_in in H as (j & s & ds & k & d & imp & E & M & Ek & ->). cbn [Nat.add].
  assert (X : exists b, nth_error au j = Some (s, b) /\ combine (declarations b) (important b) = ds).
  { revert j E. induction F as [|[s1 b1] [s2 ds2] au m [Hs [_ Hd]] F IH]; intros j E; [destruct j; discriminate E|]. cbn [fst snd] in Hs, Hd.
    destruct j as [|j]; cbn [nth_error] in *; [|exact (IH j E)]. injection E as -> ->. subst. eauto. }
  destruct X as (b & Eb & <-). apply nth_combine in Ek as [Ed Ei]. eapply occurs_author; eassumption.
Qed.
(** Occurrences that are not the author's rules *)
Definition elsewhere (o : occurrence) : Prop := o_origin o = UserAgent \/ o_attribute o = true.
Lemma occ_split : forall au m o, Forall2 rule_holds au m -> occ au o -> In o (in_rules 0 m) \/ (elsewhere o /\ forall au', occ au' o).
Proof.
  intros au m o F H. destruct H as [i s b k d imp E M Ed Ei|i s b k d imp E M Ed Ei|b k d imp E Ed Ei].
  - right. split; [left; reflexivity|]. intros au'. eapply occurs_ua; eassumption.
  - left. exact (author_occurs au m i s b k d imp F E M Ed Ei).
  - right. split; [right; reflexivity|]. intros au'. eapply occurs_attribute; eassumption.
Qed.
(** Between an author's rule and anything else only importance decides. *)
Lemma loses_elsewhere : forall o a a', elsewhere o -> plain_author a -> plain_author a' -> o_important a = o_important a' ->
  (loses_to a o -> loses_to a' o) /\ (loses_to o a -> loses_to o a').
Proof.
  intros [oo io to so ro ko do] [oa ia ta sa ra ka da] [ob ib tb sb rb kb db] El [Oa Ta] [Ob Tb] Ei. cbn in Oa, Ta, Ob, Tb, Ei. subst.
  unfold elsewhere in El. cbn in El. unfold loses_to. cbn. destruct oo, to, io, ib; cbn; split; intros H; try lia; destruct El; discriminate.
Qed.
Lemma elsewhere_decided : forall o a, elsewhere o -> plain_author a -> o = a -> False.
Proof. intros o a [H|H] [Oa Ta] ->; congruence. Qed.
Lemma chief_same : forall p o, chief l p o -> exists o', chief l' p o' /\ o_important o' = o_important o /\ o_declaration o' = o_declaration o.
Proof. intros p o C. apply leads_chief. apply Same. apply leads_chief. eauto. Qed.
Lemma chief_same' : forall p o, chief l' p o -> exists o', chief l p o' /\ o_important o' = o_important o /\ o_declaration o' = o_declaration o.
Proof. intros p o C. apply leads_chief. apply Same. apply leads_chief. eauto. Qed.
Lemma loses_trans : forall a b c, loses_to a b -> loses_to b c -> loses_to a c.
Proof. intros a b c. unfold loses_to. cbn zeta. lia. Qed.
Lemma wins_same : forall o, wins (occ author) o -> exists o', wins (occ author') o' /\ o_declaration o' = o_declaration o.
Proof.
  intros o [Oo Wo]. destruct (occ_split author l o Hl Oo) as [Io|[El Oe]].
  - (* the author's: the leader *)
    assert (C : chief l (target (o_declaration o)) o).
    { split; [exact Io|]. split; [reflexivity|]. intros x Ix Tx. exact (Wo x (occurs_author_in author l x Hl Ix) Tx). }
    destruct (chief_same _ _ C) as (o' & (I' & T' & W') & Ei & Ed). exists o'. split; [|exact Ed]. split; [exact (occurs_author_in author' l' o' Hl' I')|].
    intros x Ox Tx. destruct (occ_split author' l' x Hl' Ox) as [Ix|[Ex Oe]].
    + apply W'; [exact Ix|congruence].
    + right. apply (proj2 (loses_elsewhere x o o' Ex (in_rules_plain _ _ _ Io) (in_rules_plain _ _ _ I') (eq_sym Ei))).
      destruct (Wo x (Oe author)) as [E|L]; [congruence| |exact L]. destruct (elsewhere_decided x o Ex (in_rules_plain _ _ _ Io) E).
  - exists o. split; [|reflexivity]. split; [apply Oe|]. intros x Ox Tx. destruct (occ_split author' l' x Hl' Ox) as [Ix|[Ex Oe']].
    + right. destruct (chief_exists l' _ x Ix Tx) as (c' & Cc). pose proof Cc as (Ic' & Tc' & Wc').
      destruct (chief_same' _ _ Cc) as (c & (Ic & Tc & _) & Ei & Ed).
      assert (L : loses_to c' o).
      { apply (proj1 (loses_elsewhere o c c' El (in_rules_plain _ _ _ Ic) (in_rules_plain _ _ _ Ic') Ei)).
        destruct (Wo c (occurs_author_in author l c Hl Ic) Tc) as [E|L]; [|exact L]. destruct (elsewhere_decided o c El (in_rules_plain _ _ _ Ic) (eq_sym E)). }
      destruct (Wc' x Ix Tx) as [->|L2]; [exact L|exact (loses_trans _ _ _ L2 L)].
    + exact (Wo x (Oe' author) Tx).
Qed.
Lemma none_same : forall p, (forall o, occ author o -> target (o_declaration o) <> p) -> forall o, occ author' o -> target (o_declaration o) <> p.
Proof.
  intros p N o Oo T. destruct (occ_split author' l' o Hl' Oo) as [Io|[_ Oe]].
  - destruct (chief_exists l' p o Io T) as (c' & Cc). destruct (chief_same' _ _ Cc) as (c & (Ic & Tc & _) & _). exact (N c (occurs_author_in author l c Hl Ic) Tc).
  - exact (N o (Oe author) T).
Qed.
Lemma css_style_same : forall parent c, css_style (occ author) parent c -> css_style (occ author') parent c.
Proof.
  intros parent c H p. destruct (H p) as [(o & v & T & W & G & A)|(N & E)].
  - left. destruct (wins_same o W) as (o' & W' & Ed). exists o'. rewrite Ed. eauto.
  - right. split; [exact (none_same p N)|exact E].
Qed.
End Rules.

(** A style is determined, with the specified display as well. *)
Lemma style_det_all : forall occ parent a b, css_style occ parent a -> css_style occ parent b -> a = b.
Proof.
  intros occ parent a b A B. pose proof (style_det occ parent a b A B) as G.
  assert (D : specified_display a = specified_display b).
  { destruct (A display_) as [(o & v & T & W & V & Av)|[N (v & V & Av)]]; destruct (B display_) as [(o' & w & T' & W' & V' & Bw)|[N' (w & V' & Bw)]].
    - assert (o = o') by (eapply wins_unique; eauto; congruence). subst o'. destruct (o_declaration o) as [q s|q k]; cbn [target] in *; subst q.
      + cbn [gives kind_of css_computed] in V, V'. destruct Av as [-> _], Bw as [-> _]. congruence.
      + destruct Av as [-> _], Bw as [-> _]. destruct k; cbn [gives] in V, V'; try congruence.
        destruct V as [_ V], V' as [_ V']. rewrite V, V' by (intros [X|X]; discriminate X). reflexivity.
    - exfalso. exact (N' o (proj1 W) T).
    - exfalso. exact (N o' (proj1 W') T').
    - destruct Av as [-> _], Bw as [-> _]. destruct V as [_ V], V' as [_ V']. rewrite V, V' by (intros [X|X]; discriminate X). reflexivity. }
  destruct a as [ga da], b as [gb db]. cbn [get specified_display] in *. subst db. f_equal. apply functional_extensionality_dep. exact G.
Qed.
