(** The boxes built are those the document generates. *)
From Verif Require Import Base Dom DomSpec DomProofs DomTreeProofs DomWalkProofs FontCmap StyleValues StyleProperties
  StyleCascade StyleSpec StyleProofs LayoutTree BoxTree BoxTreeSpec BoxTextProofs.
Local Open Scope nat_scope.
Local Open Scope res_scope.

(** ** The specification *)
Scheme level_rec' := Minimality for level Sort Prop
  with container_rec' := Minimality for container Sort Prop
  with context_rec' := Minimality for context Sort Prop
  with block_boxes_rec' := Minimality for block_boxes Sort Prop.
Combined Scheme spec_induct from level_rec', container_rec', context_rec', block_boxes_rec'.

Lemma anonymous_ok : forall s, anonymous_style s (anonymous_inheriting_from (Some s)).
Proof.
  intros s p. unfold anonymous_inheriting_from, computed_new. cbn zeta.
  eexists. split; [exact (default_ok (Some s) p)|].
  match goal with |- adjusted (post_cascade_fixups ?c) _ _ => exact (fixups_adjusted c p) end.
Qed.

Lemma style_kinds : forall s o i, get s display_ = OutsideInside o i ->
  (o = Inline /\ i = FlowRoot /\ get s display_ = OutsideInside Inline FlowRoot) \/
  (o = Inline /\ i = Flow /\ inline_style s) \/
  (o = Block /\ is_absolutely_positioned (get s position_) = true /\ absolute_style s) \/
  (o = Block /\ is_absolutely_positioned (get s position_) = false /\ is_floating (get s float_) = true /\ float_style s) \/
  (o = Block /\ is_absolutely_positioned (get s position_) = false /\ is_floating (get s float_) = false /\ block_style i s).
Proof.
  intros s o i E. unfold inline_style, absolute_style, float_style, block_style. destruct o.
  - destruct i; [right; left|left]; auto.
  - right; right. destruct (get s position_) eqn:P; cbn [is_absolutely_positioned].
    1, 2: right; destruct (get s float_) eqn:F; cbn [is_floating];
      [right; repeat split; auto; discriminate|left; repeat split; eauto; discriminate|left; repeat split; eauto; discriminate].
    left. eauto 6.
Qed.
Lemma inline_not_block : forall s i, inline_style s -> ~ block_style i s.
Proof. intros s i H (E & _). unfold inline_style in H. congruence. Qed.
Lemma absolute_not_block : forall s i, absolute_style s -> ~ block_style i s.
Proof. intros s i (_ & H) (_ & E & _). congruence. Qed.
Lemma float_not_block : forall s i, float_style s -> ~ block_style i s.
Proof. intros s i (_ & _ & H) (_ & _ & E). congruence. Qed.
Lemma inline_not_absolute : forall s, inline_style s -> ~ absolute_style s.
Proof. intros s H ((i & E) & _). unfold inline_style in H. congruence. Qed.
Lemma inline_not_float : forall s, inline_style s -> ~ float_style s.
Proof. intros s H ((i & E) & _). unfold inline_style in H. congruence. Qed.
Lemma absolute_not_float : forall s, absolute_style s -> ~ float_style s.
Proof. intros s (_ & E) (_ & H & _). congruence. Qed.

Lemma unbuildable_incl : forall cs cs', unbuildable cs -> (forall c, In c cs -> In c cs') -> unbuildable cs'.
Proof.
  intros cs cs' H I. inversion H; subst.
  - eapply ub_inline_block; eauto.
  - eapply ub_block_in_inline; eauto.
  - eapply ub_deeper; eauto.
Qed.
Lemma unbuildable_nil : ~ unbuildable [].
Proof. intros U. inversion U; subst; match goal with H : In _ [] |- _ => destruct H end. Qed.
Lemma unbuildable_app : forall a b, unbuildable (a ++ b) -> unbuildable a \/ unbuildable b.
Proof.
  intros a b H. inversion H as [? s e i I E|? s e i c I E I2 B|? s e i I U]; subst; apply in_app_or in I as [I|I].
  all: [> left|right|left|right|left|right].
  1, 2: eapply ub_inline_block; eauto.
  1, 2: eapply ub_block_in_inline; eauto.
  1, 2: eapply ub_deeper; eauto.
Qed.
Lemma unbuildable_one : forall c, unbuildable [c] -> exists s e inside, c = CBox s e inside /\
  (get s display_ = OutsideInside Inline FlowRoot \/ (inline_style s /\ exists c, In c inside /\ block_content c) \/ unbuildable inside).
Proof.
  intros c H. inversion H as [? s e i I E|? s e i x I E I2 B|? s e i I U]; subst; destruct I as [->|[]]; exists s, e, i; split; eauto 6.
Qed.
(** What is in the pieces is in the contents, and conversely up to blank text. *)
Lemma pieces_in : forall cs ps, pieces cs ps -> 
  (forall c, In (PBox c) ps -> In c cs) /\ (forall p c, In (PParagraph p) ps -> In c p -> In c cs) /\
  (forall c, In c cs -> blank c \/ In (PBox c) ps \/ exists p, In (PParagraph p) ps /\ In c p).
Proof.
  intros cs ps H. induction H as [|c r ps B H IH|c r ps B H IH|c p r ps S1 S2 S3 H IH].
  - split; [intros ? []|]. split; [intros ? ? []|intros ? []].
  - destruct IH as (I1 & I2 & I3). split; [intros x I; right; auto|]. split; [intros q x I I'; right; eauto|].
    intros x [<-|I]; auto.
  - destruct IH as (I1 & I2 & I3). split; [intros x [E|I]; [injection E as ->; left; auto|right; auto]|].
    split; [intros q x [E|I] I'; [discriminate E|right; eauto]|].
    intros x [<-|I]; [right; left; left; auto|]. destruct (I3 x I) as [?|[?|(q & ? & ?)]]; [auto|right; left; right; auto|].
    right. right. exists q. split; [right; auto|auto].
  - destruct IH as (I1 & I2 & I3). split; [intros x [E|I]; [discriminate E|apply in_or_app; right; auto]|].
    split; [intros q x [E|I] I'; apply in_or_app; [left; injection E as <-; auto|right; eauto]|].
    intros x I. apply in_app_or in I as [I|I].
    + right. right. exists (c :: p). split; [left; reflexivity|exact I].
    + destruct (I3 x I) as [?|[?|(q & ? & ?)]]; [auto|right; left; right; auto|]. right. right. exists q. split; [right; auto|auto].
Qed.
Lemma blank_buildable : forall c, blank c -> ~ unbuildable [c].
Proof. intros c B U. apply unbuildable_one in U as (s & e & i & -> & _). exact B. Qed.
Lemma not_unbuildable_all : forall cs, (forall c, In c cs -> ~ unbuildable [c]) -> ~ unbuildable cs.
Proof.
  induction cs as [|c r IH]; intros H U.
  - exact (unbuildable_nil U).
  - apply (unbuildable_app [c] r) in U as [U|U]; [apply (H c (or_introl eq_refl) U)|]. apply IH; [|exact U]. intros x I. apply H. right. exact I.
Qed.
Lemma unbuildable_in : forall c cs, In c cs -> unbuildable [c] -> unbuildable cs.
Proof. intros c cs I U. apply (unbuildable_incl _ _ U). intros x [<-|[]]. exact I. Qed.
Lemma buildable_spec :
  (forall cs l, level cs l -> ~ unbuildable cs /\ (forall c, In c cs -> ~ block_content c)) /\
  (forall s cs c, container s cs c -> ~ unbuildable cs) /\
  (forall s cs c, context s cs c -> ~ unbuildable cs) /\
  (forall a ps bs, block_boxes a ps bs ->
     (forall c, In (PBox c) ps -> ~ unbuildable [c]) /\ (forall p, In (PParagraph p) ps -> ~ unbuildable p)).
Proof.
  apply spec_induct.
  - split; [|intros c []]. intros U. exact (unbuildable_nil U).
  - intros cs l s t l' _ [I1 I2] _. split.
    + intros U. apply unbuildable_app in U as [U|U]; [auto|]. apply unbuildable_one in U as (? & ? & ? & E & _). discriminate E.
    + intros c I. apply in_app_or in I as [I|[<-|[]]]; auto.
  - intros cs l s e inside boxes _ [I1 I2] Hs _ [J1 J2]. split.
    + intros U. apply unbuildable_app in U as [U|U]; [auto|]. apply unbuildable_one in U as (s' & e' & i' & E & U).
      injection E as <- <- <-. destruct U as [U|[(_ & c & I & B)|U]]; [unfold inline_style in Hs; congruence|exact (J2 c I B)|auto].
    + intros c I. apply in_app_or in I as [I|[<-|[]]]; auto. intros (i & B). exact (inline_not_block _ _ Hs B).
  - intros cs l s e inside c _ [I1 I2] Hs _ J. split.
    + intros U. apply unbuildable_app in U as [U|U]; [auto|]. apply unbuildable_one in U as (s' & e' & i' & E & U).
      injection E as <- <- <-. destruct U as [U|[(U & _)|U]]; [destruct Hs as ((i & D) & _); congruence| |auto].
      exact (inline_not_absolute _ U Hs).
    + intros x I. apply in_app_or in I as [I|[<-|[]]]; auto. intros (i & B). exact (absolute_not_block _ _ Hs B).
  - intros cs l s e inside c _ [I1 I2] Hs _ J. split.
    + intros U. apply unbuildable_app in U as [U|U]; [auto|]. apply unbuildable_one in U as (s' & e' & i' & E & U).
      injection E as <- <- <-. destruct U as [U|[(U & _)|U]]; [destruct Hs as ((i & D) & _); congruence| |auto].
      exact (inline_not_float _ U Hs).
    + intros x I. apply in_app_or in I as [I|[<-|[]]]; auto. intros (i & B). exact (float_not_block _ _ Hs B).
  - intros s cs p l P _ [I1 _]. apply not_unbuildable_all. intros c I U.
    destruct (proj2 (proj2 (pieces_in _ _ P)) c I) as [B|[B|(q & [E|[]] & I')]].
    + exact (blank_buildable c B U).
    + destruct B as [E|[]]; discriminate E.
    + injection E as <-. exact (I1 (unbuildable_in _ _ I' U)).
  - intros s cs ps a boxes P _ _ _ [I1 I2]. apply not_unbuildable_all. intros c I U.
    destruct (proj2 (proj2 (pieces_in _ _ P)) c I) as [B|[B|(q & I' & Iq)]].
    + exact (blank_buildable c B U).
    + exact (I1 c B U).
    + exact (I2 q I' (unbuildable_in _ _ Iq U)).
  - auto.
  - split; [intros c []|intros p []].
  - intros a p l ps bs _ [I1 _] _ [J1 J2]. split; [intros c [E|I]; [discriminate E|auto]|]. intros q [E|I]; [injection E as <-; auto|auto].
  - intros a s e inside c ps bs Hs _ I _ [J1 J2]. split; [|intros q [E|Iq]; [discriminate E|auto]].
    intros x [E|Ix]; [|auto]. injection E as <-. intros U. apply unbuildable_one in U as (s' & e' & i' & E & U). injection E as <- <- <-.
    destruct U as [U|[(U & _)|U]]; [destruct Hs; congruence|exact (inline_not_block _ _ U Hs)|auto].
  - intros a s e inside c ps bs Hs _ I _ [J1 J2]. split; [|intros q [E|Iq]; [discriminate E|auto]].
    intros x [E|Ix]; [|auto]. injection E as <-. intros U. apply unbuildable_one in U as (s' & e' & i' & E & U). injection E as <- <- <-.
    destruct U as [U|[(U & _)|U]]; [destruct Hs; congruence|exact (inline_not_block _ _ U Hs)|auto].
  - intros a s e inside c ps bs Hs _ I _ [J1 J2]. split; [|intros q [E|Iq]; [discriminate E|auto]].
    intros x [E|Ix]; [|auto]. injection E as <-. intros U. apply unbuildable_one in U as (s' & e' & i' & E & U). injection E as <- <- <-.
    destruct U as [U|[(U & _)|U]]; [destruct Hs as ((i & D) & _); congruence|exact (inline_not_absolute _ U Hs)|auto].
  - intros a s e inside c ps bs Hs _ I _ [J1 J2]. split; [|intros q [E|Iq]; [discriminate E|auto]].
    intros x [E|Ix]; [|auto]. injection E as <-. intros U. apply unbuildable_one in U as (s' & e' & i' & E & U). injection E as <- <- <-.
    destruct U as [U|[(U & _)|U]]; [destruct Hs as ((i & D) & _); congruence|exact (inline_not_float _ U Hs)|auto].
Qed.

(** Text runs are never empty. *)
Lemma level_full : forall cs l, level cs l -> all_full l.
Proof.
  apply (level_rec' (fun _ l => all_full l) (fun _ _ _ => True) (fun _ _ _ => True) (fun _ _ _ => True)); auto.
  - exact I.
  - intros cs l s t l' _ F A. destruct A as [l|l s0 t0 new Hn|l new Hn _].
    + exact F.
    + apply all_full_app in F as [F _]. apply all_full_app. split; [exact F|]. split; [|exact I]. cbn [full_runs]. destruct t0; [exact Hn|discriminate].
    + apply all_full_app. split; [exact F|]. split; [exact Hn|exact I].
  - intros cs l s e inside boxes _ F _ _ F'. apply all_full_app. split; [exact F|]. split; [exact F'|exact I].
  - intros cs l s e inside c _ F _ _ _. apply all_full_app. split; [exact F|]. split; exact I.
  - intros cs l s e inside c _ F _ _ _. apply all_full_app. split; [exact F|]. split; exact I.
Qed.

(** Floats of the inline part *)
Definition near_floats (cs : list content) : Prop :=
  exists s e inside, In (CBox s e inside) cs /\ (float_style s \/ (inline_style s /\ floats_in inside)).
Lemma near_floats_app : forall a b, near_floats (a ++ b) <-> near_floats a \/ near_floats b.
Proof.
  intros a b. split.
  - intros (s & e & i & I & H). apply in_app_or in I as [I|I]; [left|right]; exists s, e, i; auto.
  - intros [(s & e & i & I & H)|(s & e & i & I & H)]; exists s, e, i; (split; [apply in_or_app; auto|exact H]).
Qed.
Lemma near_floats_nil : ~ near_floats [].
Proof. intros (s & e & i & [] & _). Qed.
Lemma floats_in_near : forall cs, floats_in cs <-> near_floats cs \/
  exists s e inside, In (CBox s e inside) cs /\ block_style Flow s /\ floats_in inside.
Proof.
  intros cs. split.
  - intros H. inversion H as [? s e i I F|? s e i I [F|F] G]; subst.
    + left. exists s, e, i. auto.
    + left. exists s, e, i. auto.
    + right. exists s, e, i. auto.
  - intros [(s & e & i & I & [F|(F & G)])|(s & e & i & I & F & G)].
    + eapply fi_here; eauto.
    + eapply fi_inside; eauto.
    + eapply fi_inside; eauto.
Qed.
Lemma floats_no_block : forall cs, (forall c, In c cs -> ~ block_content c) -> (floats_in cs <-> near_floats cs).
Proof.
  intros cs H. rewrite floats_in_near. split; [|auto]. intros [F|(s & e & i & I & B & _)]; [exact F|]. exfalso. apply (H _ I). exists Flow. exact B.
Qed.

(** ** The loop over the children *)
Section Doc.
Variable d : document.
Variable kids : nat -> list nat.
Hypothesis Hf : in_forest d kids.
Variable style_of : node_id -> option computed_values -> result computed_values.
Notation shows' := (shows d (fun i p s => style_of i (Some p) = Ok s)).
Definition size (ts : list tree) : nat := length (flat_map DomSpec.preorder ts).
Lemma size_cons : forall i ts r, size (T i ts :: r) = S (size ts + size r).
Proof. intros. unfold size. cbn [flat_map DomSpec.preorder]. rewrite app_length. cbn [length]. reflexivity. Qed.
Definition sub (e : nat) (ts : list tree) : Prop := subtree kids (T e ts) /\ e < length (nodes d).

Definition trav (fuel : nat) : builder -> node_id -> computed_values -> result builder :=
  fun b e style => nd <- index d e ;; children_loop d style_of fuel b (first_child nd) style.
Lemma trav_ok : forall fuel b e ts style, sub e ts ->
  trav fuel b e style = children_loop d style_of fuel b (hd_error (map root ts)) style.
Proof.
  intros fuel b e ts style (Hs & B). unfold trav. rewrite index_ok by exact B. cbn [bind].
  rewrite (proj1 (proj1 (proj2 Hf) e)). inversion Hs as [? ? E F]; subst. rewrite E. reflexivity.
Qed.

Lemma loop_eq : forall fuel b child ps, children_loop d style_of (S fuel) b (Some child) ps =
  nd <- index d child ;;
  b <- match data nd with
       | DDocument | DDoctype _ _ _ | DComment _ | DProcessingInstruction _ _ => Ok b
       | DText contents => Ok (handle_text b (chars contents) ps)
       | DElement _ =>
           style <- style_of child (Some ps) ;;
           match get style display_ with
           | DisplayNone => Ok (log (SlotUnset child) b)
           | Contents => children_loop d style_of fuel (log (SlotContents child) b) (first_child nd) style
           | OutsideInside outside inside =>
               handle_element (trav fuel) (construct d style_of fuel) (log (SlotAcquire child) b) style outside inside child (Some child)
           end
       end ;;
  children_loop d style_of fuel b (next_sibling nd) ps.
Proof. reflexivity. Qed.
Section Loop.
Variable Inv : list content -> builder -> Prop.
Variable bad : list content -> Prop.
Variable n : nat.
Hypothesis Hlog : forall cs b e, Inv cs b -> Inv cs (log e b).
Hypothesis Hbad : forall cs x, bad cs -> bad (cs ++ x).
Hypothesis Htext : forall cs b s t, Inv cs b -> Inv (cs ++ [CText s t]) (handle_text b t s).
Hypothesis Hbox : forall cs b s i o k ts inside fuel, Inv cs b -> sub i ts -> get s display_ = OutsideInside o k ->
  shows' s ts inside -> size ts < n -> 2 * size ts + 1 <= fuel ->
  (exists b', handle_element (trav fuel) (construct d style_of fuel) b s o k i (Some i) = Ok b' /\ Inv (cs ++ [CBox s i inside]) b') \/
  (handle_element (trav fuel) (construct d style_of fuel) b s o k i (Some i) = Panic /\ bad (cs ++ [CBox s i inside])).

Lemma loop_ok : forall ps ts out, shows' ps ts out -> forall cs b p l fuel, Inv cs b -> kids p = l ++ map root ts ->
  Forall (subtree kids) ts -> size ts <= n -> 2 * size ts <= fuel ->
  (exists b', children_loop d style_of fuel b (hd_error (map root ts)) ps = Ok b' /\ Inv (cs ++ out) b') \/
  (children_loop d style_of fuel b (hd_error (map root ts)) ps = Panic /\ bad (cs ++ out)).
Proof.
  intros ps ts out H.
  induction H as [ps|ps i ts r t ch out D En H IH|ps i ts r out N1 N2 H IH|ps i ts r s out El St Di H IH
    |ps i ts r s inside out El St Di H1 IH1 H IH|ps i ts r s o k inside out El St Di H1 IH1 H IH];
    intros cs b p l fuel HI K Fs Sz Fu.
  1: { left. exists b. rewrite app_nil_r. destruct fuel; auto. }
  all: cbn [map root hd_error] in *; inversion Fs as [|? ? Ft Fr]; subst.
  all: assert (Bi : i < length (nodes d)) by
    (apply (proj1 (child_bounds d kids p i Hf ltac:(rewrite K; apply in_or_app; right; left; reflexivity)))).
  all: rewrite size_cons in *; destruct fuel as [|fuel]; [lia|].
  all: assert (Ns : next_sibling (node_at d i) = hd_error (map root r)) by
    (apply (proj1 (proj2 (proj2 (proj2 Hf))) p l i (map root r) K)).
  all: assert (Fc : first_child (node_at d i) = hd_error (map root ts)) by
    (rewrite (proj1 (proj1 (proj2 Hf) i)); inversion Ft as [? ? E F]; subst; rewrite E; reflexivity).
  all: assert (Ts : kids i = [] ++ map root ts /\ Forall (subtree kids) ts) by (inversion Ft; auto).
  all: assert (Kr : kids p = (l ++ [i]) ++ map root r) by (rewrite <- app_assoc; exact K).
  all: rewrite loop_eq; rewrite index_ok by exact Bi; cbn [bind]; rewrite Ns, ?Fc.
  - rewrite D. cbn [bind]. rewrite (chars_encodes _ _ En).
    destruct (IH (cs ++ [CText ps ch]) (handle_text b ch ps) p (l ++ [i]) fuel (Htext _ _ _ _ HI) Kr Fr ltac:(lia) ltac:(lia)) as [(b' & E & HI')|(E & Hb)].
    + left. exists b'. split; [exact E|]. rewrite <- app_assoc in HI'. exact HI'.
    + right. split; [exact E|]. rewrite <- app_assoc in Hb. exact Hb.
  - destruct (data (node_at d i)) eqn:D; try (exfalso; apply N1; eexists; exact D); try (exfalso; apply N2; exact I);
      cbn [bind]; exact (IH cs b p (l ++ [i]) fuel HI Kr Fr ltac:(lia) ltac:(lia)).
  - destruct (data (node_at d i)) eqn:D; try destruct El. rewrite St. cbn [bind]. rewrite Di. cbn [bind].
    exact (IH cs _ p (l ++ [i]) fuel (Hlog _ _ _ HI) Kr Fr ltac:(lia) ltac:(lia)).
  - destruct (data (node_at d i)) eqn:D; try destruct El. rewrite St. cbn [bind]. rewrite Di.
    destruct Ts as [Ti Fi].
    destruct (IH1 cs (log (SlotContents i) b) i [] fuel (Hlog _ _ _ HI) Ti Fi ltac:(lia) ltac:(lia)) as [(b1 & E & HI')|(E & Hb)]; rewrite E; cbn [bind].
    + rewrite app_assoc. exact (IH _ _ p (l ++ [i]) fuel HI' Kr Fr ltac:(lia) ltac:(lia)).
    + right. split; [reflexivity|]. rewrite app_assoc. apply Hbad. exact Hb.
  - destruct (data (node_at d i)) eqn:D; try destruct El. rewrite St. cbn [bind]. rewrite Di.
    destruct Ts as [Ti Fi].
    destruct (Hbox cs (log (SlotAcquire i) b) s i o k ts inside fuel (Hlog _ _ _ HI) (conj Ft Bi) Di H1 ltac:(lia) ltac:(lia)) as [(b1 & E & HI')|(E & Hb)]; rewrite E; cbn [bind].
    + replace (cs ++ CBox s i inside :: out) with ((cs ++ [CBox s i inside]) ++ out) by (rewrite <- app_assoc; reflexivity).
      exact (IH _ _ p (l ++ [i]) fuel HI' Kr Fr ltac:(lia) ltac:(lia)).
    + right. split; [reflexivity|]. replace (cs ++ CBox s i inside :: out) with ((cs ++ [CBox s i inside]) ++ out) by (rewrite <- app_assoc; reflexivity).
      apply Hbad. exact Hb.
Qed.
End Loop.

(** ** Inside a paragraph *)
(** What one more box does to a builder with an ongoing inline formatting context *)
Definition box_added (b : builder) (x : inline_level_box) (floats : Prop) (b' : builder) : Prop :=
  b_stack b' = b_stack (push_inline x b) /\ b_inlines b' = b_inlines (push_inline x b) /\
  b_blocks b' = b_blocks b /\ b_style b' = b_style b /\ b_anonymous b' = b_anonymous b /\
  (b_floats b' = true <-> b_floats b = true \/ floats).
Definition inner_bad (cs : list content) : Prop := unbuildable cs \/ exists c, In c cs /\ block_content c.
Lemma inner_bad_app : forall cs x, inner_bad cs -> inner_bad (cs ++ x).
Proof.
  intros cs x [U|(c & I & B)].
  - left. apply (unbuildable_incl _ _ U). intros c I. apply in_or_app. auto.
  - right. exists c. split; [apply in_or_app; auto|exact B].
Qed.
(** The builder [b0] after an inline element of style [s] has been opened and [cs] of its contents handled *)
Definition inner (b0 : builder) (s : computed_values) (cs : list content) (b : builder) : Prop :=
  exists l, level cs l /\ b_stack b = mkInlineBox s true false l :: b_stack b0 /\ b_inlines b = b_inlines b0 /\
    b_blocks b = b_blocks b0 /\ b_style b = b_style b0 /\ b_anonymous b = b_anonymous b0 /\
    (b_floats b = true <-> b_floats b0 = true \/ near_floats cs).
Definition inner_outcome (n : nat) : Prop := forall b0 s cs b ts out fuel i, inner b0 s cs b ->
  sub i ts -> shows' s ts out -> size ts < n -> 2 * size ts <= fuel ->
  (exists b', trav fuel b i s = Ok b' /\ inner b0 s (cs ++ out) b') \/ (trav fuel b i s = Panic /\ inner_bad (cs ++ out)).
Definition context_outcome (n : nat) : Prop := forall s e ts cs fuel, sub e ts -> shows' s ts cs -> size ts < n -> 2 * size ts + 1 <= fuel ->
  (exists c f w, construct d style_of fuel s e = Ok (c, f, w) /\ context s cs (BFC c f)) \/
  (construct d style_of fuel s e = Panic /\ unbuildable cs).

Lemma near_one : forall s e inside, near_floats [CBox s e inside] <-> float_style s \/ (inline_style s /\ floats_in inside).
Proof.
  intros s e inside. split.
  - intros (s' & e' & i' & [E|[]] & H). injection E as <- <- <-. exact H.
  - intros H. exists s, e, inside. split; [left; reflexivity|exact H].
Qed.
(** One element in a paragraph *)
Lemma paragraph_box : forall n, inner_outcome n -> context_outcome n ->
  forall b s i o k ts inside fuel, has_ongoing_inline_formatting_context b = true \/ o = Inline -> sub i ts ->
  get s display_ = OutsideInside o k -> (o = Block -> ~ block_style k s) -> shows' s ts inside -> size ts < n -> 2 * size ts + 1 <= fuel ->
  (exists b' x, handle_element (trav fuel) (construct d style_of fuel) b s o k i (Some i) = Ok b' /\
     box_added b x (near_floats [CBox s i inside]) b' /\ forall cs l, level cs l -> level (cs ++ [CBox s i inside]) (l ++ [x])) \/
  (handle_element (trav fuel) (construct d style_of fuel) b s o k i (Some i) = Panic /\ unbuildable [CBox s i inside]).
Proof.
  intros n Hi Hc b s i o k ts inside fuel On Hs Di Nb Sh Sz Fu.
  destruct (style_kinds s o k Di) as [(-> & -> & E)|[(-> & -> & E)|[(-> & E1 & E)|[(-> & E1 & E2 & E)|(-> & E1 & E2 & E)]]]].
  - right. split; [reflexivity|]. eapply ub_inline_block; [left; reflexivity|exact E].
  - cbn [handle_element handle_inline_level_element].
    set (b1 := set_stack (mkInlineBox s true false [] :: b_stack b) b).
    assert (I1 : inner b s [] b1).
    { exists []. split; [apply lv_nil|]. repeat (split; [reflexivity|]). split; [auto|]. intros [H|H]; [exact H|destruct (near_floats_nil H)]. }
    destruct (Hi b s [] b1 ts inside fuel i I1 Hs Sh Sz ltac:(lia)) as [(b2 & E2 & l & Hl & St & Il & Bl & Sy & An & Fl)|(E2 & Hb)]; rewrite E2; cbn [bind].
    + left. rewrite St. cbn [ib_style ib_first ib_children bind]. eexists. exists (InlineBox s true true l). split; [reflexivity|]. split.
      * unfold box_added. cbn [add_steps set_slot b_stack b_inlines b_blocks b_style b_anonymous b_floats].
        cbn [app] in *. rewrite near_one. rewrite <- (floats_no_block inside (proj2 (proj1 buildable_spec _ _ Hl))) in Fl.
        unfold push_inline, set_current, current_inline_level_boxes.
        cbn [set_stack b_stack b_inlines b_blocks b_style b_anonymous b_floats].
        destruct (b_stack b) as [|t r] eqn:Eb; cbn [set_stack set_inlines b_stack b_inlines b_blocks b_style b_anonymous b_floats].
        -- rewrite Il. repeat (split; [first [reflexivity|congruence]|]). rewrite Fl. split; [intros [G|G]; auto|].
           intros [G|[G|(_ & G)]]; auto. destruct (inline_not_float _ E G).
        -- repeat (split; [first [reflexivity|congruence]|]). rewrite Fl. split; [intros [G|G]; auto|].
           intros [G|[G|(_ & G)]]; auto. destruct (inline_not_float _ E G).
      * intros cs l0 L. apply lv_inline; assumption.
    + right. split; [reflexivity|]. cbn [app] in Hb. destruct Hb as [U|(c & I & B)].
      * eapply ub_deeper; [left; reflexivity|exact U].
      * eapply ub_block_in_inline; [left; reflexivity|exact E|exact I|exact B].
  - destruct On as [On|On]; [|discriminate On].
    cbn [handle_element]. rewrite E1. unfold handle_absolutely_positioned_element. rewrite On. unfold bfc_construct.
    destruct (Hc s i ts inside fuel Hs Sh Sz Fu) as [(c & f & w & E2 & Hx)|(E2 & U)]; rewrite E2; cbn [bind].
    + left. eexists. exists (InlineAbsolutelyPositionedBox s (BFC c f)). split; [reflexivity|]. split.
      * unfold box_added. cbn [add_steps b_stack b_inlines b_blocks b_style b_anonymous b_floats]. rewrite near_one.
        unfold push_inline, set_current. destruct (b_stack b); repeat (split; [reflexivity|]);
        (split; [auto|intros [G|[G|(G & _)]]; [exact G|destruct (absolute_not_float _ E G)|destruct (inline_not_absolute _ G E)]]).
      * intros cs l L. apply lv_absolute; assumption.
    + right. split; [reflexivity|]. eapply ub_deeper; [left; reflexivity|exact U].
  - destruct On as [On|On]; [|discriminate On].
    cbn [handle_element]. rewrite E1, E2. unfold handle_float_element.
    replace (has_ongoing_inline_formatting_context (set_floats true b)) with (has_ongoing_inline_formatting_context b) by reflexivity.
    rewrite On. unfold bfc_construct.
    destruct (Hc s i ts inside fuel Hs Sh Sz Fu) as [(c & f & w & E3 & Hx)|(E3 & U)]; rewrite E3; cbn [bind].
    + left. eexists. exists (InlineFloatBox s (BFC c f)). split; [reflexivity|]. split.
      * unfold box_added. cbn [add_steps b_stack b_inlines b_blocks b_style b_anonymous b_floats]. rewrite near_one.
        unfold push_inline, set_current, current_inline_level_boxes. cbn [set_floats b_stack b_inlines].
        destruct (b_stack b); repeat (split; [reflexivity|]); (split; [auto|reflexivity]).
      * intros cs l L. apply lv_float; assumption.
    + right. split; [reflexivity|]. eapply ub_deeper; [left; reflexivity|exact U].
  - destruct (Nb eq_refl E).
Qed.
(** A block in an inline element *)
Lemma block_panics : forall b s k i sl traverse construct, b_stack b <> [] ->
  get s display_ = OutsideInside Block k -> block_style k s ->
  handle_element traverse construct b s Block k i sl = Panic.
Proof.
  intros b s k i sl traverse construct Hb Di (_ & Hp & Hfl). cbn [handle_element].
  assert (is_absolutely_positioned (get s position_) = false) as -> by (destruct (get s position_); try reflexivity; congruence).
  rewrite Hfl. cbn [is_floating]. unfold handle_block_level_element, split_ongoing, end_ongoing_inline_formatting_context.
  destruct (b_stack b) as [|x r] eqn:Eb; [congruence|]. cbn [set_inlines set_stack b_stack]. reflexivity.
Qed.

Lemma push_inline_stack : forall x b top r, b_stack b = top :: r ->
  b_stack (push_inline x b) = mkInlineBox (ib_style top) (ib_first top) (ib_last top) (ib_children top ++ [x]) :: r /\
  b_inlines (push_inline x b) = b_inlines b.
Proof. intros x b top r E. unfold push_inline, set_current, current_inline_level_boxes. rewrite E. auto. Qed.

Lemma inner_step : forall n, (forall m, m < n -> inner_outcome m /\ context_outcome m) -> inner_outcome n.
Proof.
  intros n IH b0 s cs b ts out fuel i HI Hs Sh Sz Fu. rewrite (trav_ok _ _ _ _ _ Hs).
  destruct Hs as (St & Bi). inversion St as [? ? K Fs]; subst.
  destruct (IH (size ts) Sz) as [Hi Hc].
  refine (loop_ok (inner b0 s) inner_bad (size ts) _ inner_bad_app _ _ s ts out Sh cs b i [] fuel HI K Fs (le_n _) Fu).
  - intros cs' b' e (l & H1 & H2 & H3 & H4 & H5 & H6 & H7). exists l. repeat (split; [assumption|]). assumption.
  - intros cs' b' s' t (l & H1 & H2 & H3 & H4 & H5 & H6 & H7). pose proof (level_full _ _ H1) as F.
    assert (C : current_inline_level_boxes b' = l) by (unfold current_inline_level_boxes; rewrite H2; reflexivity).
    pose proof (handle_text_ok b' t s') as HT. cbn zeta in HT. rewrite C in HT. specialize (HT F). rewrite HT.
    assert (Nf : near_floats (cs' ++ [CText s' t]) <-> near_floats cs').
    { rewrite near_floats_app. split; [|auto]. intros [G|(? & ? & ? & [G|[]] & _)]; [exact G|discriminate G]. }
    destruct (collapse (after_space (text_so_far l)) t) as [|c r] eqn:En.
    + exists l. split; [|rewrite Nf; repeat (split; [assumption|]); assumption].
      apply (lv_text cs' l s' t l H1). rewrite En. apply ta_none.
    + exists (append_text l s' (c :: r)). split; [apply (lv_text cs' l s' t _ H1); rewrite En; apply append_text_added; discriminate|].
      rewrite Nf. unfold set_current. rewrite H2. cbn [set_stack b_stack b_inlines b_blocks b_style b_anonymous b_floats ib_style ib_first ib_last].
      repeat (split; [first [reflexivity|assumption]|]). assumption.
  - intros cs' b' s' i' o k ts' inside fuel' (l & H1 & H2 & H3 & H4 & H5 & H6 & H7) Hs' Di Sh' Sz' Fu'.
    assert (Cases : (o = Block /\ block_style k s') \/ (o = Block -> ~ block_style k s')).
    { destruct (style_kinds s' o k Di) as [(-> & _)|[(-> & _)|[(-> & _ & E)|[(-> & _ & _ & E)|(-> & _ & _ & E)]]]].
      - right. discriminate.
      - right. discriminate.
      - right. intros _. exact (absolute_not_block _ _ E).
      - right. intros _. exact (float_not_block _ _ E).
      - left. auto. }
    destruct Cases as [(-> & B)|Nb].
    + right. split.
      * apply block_panics; [rewrite H2; discriminate|exact Di|exact B].
      * right. exists (CBox s' i' inside). split; [apply in_or_app; right; left; reflexivity|exists k; exact B].
    + assert (On : has_ongoing_inline_formatting_context b' = true).
      { unfold has_ongoing_inline_formatting_context. rewrite H2. cbn [is_empty negb]. apply Bool.orb_true_r. }
      destruct (paragraph_box (size ts) Hi Hc b' s' i' o k ts' inside fuel' (or_introl On) Hs' Di Nb Sh' Sz' Fu') as [(b2 & x & E & A & L)|(E & U)].
      * left. exists b2. split; [exact E|]. destruct A as (A1 & A2 & A3 & A4 & A5 & A6). destruct (push_inline_stack x b' _ _ H2) as [P1 P2].
        exists (l ++ [x]). split; [apply L; exact H1|]. rewrite near_floats_app.
        repeat (split; [first [congruence|rewrite A1, P1; reflexivity]|]). rewrite A6, H7. tauto.
      * right. split; [exact E|]. left. apply (unbuildable_incl _ _ U). intros x [<-|[]]. apply in_or_app. right. left. reflexivity.
Qed.

(** ** The contents of a block *)
Section Top.
Variable s : computed_values.
Let a : computed_values := anonymous_inheriting_from (Some s).
Variable n : nat.

Inductive waits : computed_values -> nat -> intermediate_box -> Prop :=
| w_block : forall t e, block_style Flow t -> waits t e (IntermediateSame t (Deferred e))
| w_root : forall t e, block_style FlowRoot t -> waits t e (IntermediateIndependent t e)
| w_absolute : forall t e, absolute_style t -> waits t e (IntermediateAbsolute t e)
| w_float : forall t e, float_style t -> waits t e (IntermediateFloat t e).
Inductive queued : piece -> intermediate_box * slot -> Prop :=
| q_paragraph : forall p l, level p l -> queued (PParagraph p) (IntermediateSame a (IntermediateInlines l), None)
| q_box : forall t e inside ts x, sub e ts -> shows' t ts inside -> size ts < n -> waits t e x ->
    queued (PBox (CBox t e inside)) (x, Some e).
Definition closed (done : list content) (ps : list piece) : Prop :=
  forall r ps', pieces r ps' -> pieces (done ++ r) (ps ++ ps').
Lemma closed_box : forall done ps c, closed done ps -> block_content c \/ out_of_flow_content c -> closed (done ++ [c]) (ps ++ [PBox c]).
Proof.
  intros done ps c H Hc r ps' P. rewrite <- !app_assoc. apply H. cbn [app]. apply pc_box; assumption.
Qed.
Lemma closed_blank : forall done ps c, closed done ps -> blank c -> closed (done ++ [c]) ps.
Proof. intros done ps c H Hc r ps' P. rewrite <- !app_assoc. apply H. cbn [app]. apply pc_blank; assumption. Qed.
Lemma closed_paragraph : forall done ps c p x, closed done ps -> starts_paragraph c -> (forall y, In y p -> ~ block_content y) -> block_content x ->
  closed (done ++ (c :: p) ++ [x]) (ps ++ [PParagraph (c :: p); PBox x]).
Proof.
  intros done ps c p x H Hc Hp Hx r ps' P. rewrite <- !app_assoc. apply H.
  change (pieces ((c :: p) ++ (x :: r)) (PParagraph (c :: p) :: (PBox x :: ps'))). apply pc_paragraph; auto.
  apply pc_box; auto.
Qed.

(** An open paragraph [op], whose boxes are [l] *)
Definition open (op : list content) (l : list inline_level_box) : Prop :=
  (op = [] /\ l = []) \/
  exists c p, op = c :: p /\ starts_paragraph c /\ (forall y, In y p -> ~ block_content y) /\ l <> [] /\ level op l.
Definition top (cs : list content) (b : builder) : Prop :=
  exists done op ps, cs = done ++ op /\ closed done ps /\ (forall p, ps <> [PParagraph p]) /\ Forall2 queued ps (b_blocks b) /\ open op (b_inlines b) /\
    b_stack b = [] /\ b_style b = s /\ (b_anonymous b = None \/ b_anonymous b = Some a) /\
    (b_floats b = true <-> near_floats cs).


Lemma top_log : forall cs b e, top cs b -> top cs (log e b).
Proof. intros cs b e H. exact H. Qed.
Lemma starts_not_block : forall c, starts_paragraph c -> ~ block_content c.
Proof. intros [t ch|t e inside]; [intros _ []|]. intros H (i & B). exact (inline_not_block _ _ H B). Qed.
Lemma closed_nil : closed [] [].
Proof. intros r ps' H. exact H. Qed.
Lemma lone_app : forall ps c (p : list content), ps ++ [PBox c] <> [PParagraph p].
Proof. intros [|x [|y r]] c p H; discriminate H. Qed.

Lemma top_text : forall cs b s' t, top cs b -> top (cs ++ [CText s' t]) (handle_text b t s').
Proof.
  intros cs b s' t (done & op & ps & -> & Cl & Lo & Q & Op & St & Sy & An & Fl).
  assert (C : current_inline_level_boxes b = b_inlines b) by (unfold current_inline_level_boxes; rewrite St; reflexivity).
  assert (F : all_full (b_inlines b)) by (destruct Op as [(_ & ->)|(c & p & _ & _ & _ & _ & L)]; [exact I|exact (level_full _ _ L)]).
  pose proof (handle_text_ok b t s') as HT. cbn zeta in HT. rewrite C in HT. specialize (HT F). rewrite HT. clear HT.
  assert (Nf : near_floats ((done ++ op) ++ [CText s' t]) <-> near_floats (done ++ op)).
  { rewrite near_floats_app. split; [|auto]. intros [G|(? & ? & ? & [G|[]] & _)]; [exact G|discriminate G]. }
  destruct Op as [(-> & El)|(c & p & -> & Sc & Np & Nl & L)].
  - rewrite El. cbn [text_so_far flat_map]. change (after_space []) with true.
    destruct (collapse true t) as [|x r] eqn:En.
    + exists (done ++ [CText s' t]), [], ps. rewrite !app_nil_r. rewrite app_nil_r in Nf, Fl. split; [reflexivity|].
      split; [apply closed_blank; [exact Cl|]; exact (proj1 (collapse_nil t) En)|]. repeat (split; [assumption|]).
      split; [left; auto|]. repeat (split; [assumption|]). rewrite Fl, Nf. reflexivity.
    + exists done, [CText s' t], ps. rewrite app_nil_r in *. split; [reflexivity|].
      unfold set_current. rewrite St. cbn [set_inlines b_blocks b_inlines b_stack b_style b_anonymous b_floats append_text].
      repeat (split; [assumption|]). split; [|repeat (split; [first [reflexivity|assumption]|]); rewrite Fl, Nf; reflexivity].
      right. exists (CText s' t), []. split; [reflexivity|]. split.
      { cbn [starts_paragraph]. destruct (forallb is_space t) eqn:Ef.
        - exfalso. rewrite forallb_forall in Ef. rewrite (proj2 (collapse_nil t) Ef) in En. discriminate En.
        - clear - Ef. induction t as [|y t IH]; [discriminate Ef|]. cbn [forallb] in Ef. destruct (is_space y) eqn:Ey.
          + destruct (IH Ef) as (z & I & Hz). exists z. split; [right; exact I|exact Hz].
          + exists y. split; [left; reflexivity|exact Ey]. }
      split; [intros y []|]. split; [discriminate|].
      apply (lv_text [] [] s' t _ lv_nil). cbn [text_so_far flat_map]. change (after_space []) with true. rewrite En.
      apply (ta_new s' [] (x :: r)); [discriminate|]. intros [|? ?] ? ? H; discriminate H.
  - exists done, ((c :: p) ++ [CText s' t]), ps. split; [rewrite <- app_assoc; reflexivity|].
    destruct (collapse (after_space (text_so_far (b_inlines b))) t) as [|x r] eqn:En.
    + repeat (split; [assumption|]). split; [|repeat (split; [assumption|]); rewrite Fl; symmetry; exact Nf].
      right. exists c, (p ++ [CText s' t]). split; [reflexivity|]. split; [exact Sc|]. split.
      { intros y I. apply in_app_or in I as [I|[<-|[]]]; auto. }
      split; [exact Nl|]. apply (lv_text _ _ s' t _ L). rewrite En. apply ta_none.
    + unfold set_current. rewrite St. cbn [set_inlines b_blocks b_inlines b_stack b_style b_anonymous b_floats].
      repeat (split; [assumption|]). split; [|repeat (split; [assumption|]); rewrite Fl; symmetry; exact Nf].
      right. exists c, (p ++ [CText s' t]). split; [reflexivity|]. split; [exact Sc|]. split.
      { intros y I. apply in_app_or in I as [I|[<-|[]]]; auto. }
      assert (A : text_added s' (b_inlines b) (x :: r) (append_text (b_inlines b) s' (x :: r))) by (apply append_text_added; discriminate).
      split; [|apply (lv_text _ _ s' t _ L); rewrite En; exact A].
      inversion A as [| |]; [|]; intros E; apply app_eq_nil in E as [_ E]; discriminate E.
Qed.

(** A box of a paragraph *)
Lemma top_inline : forall cs b x c b', top cs b -> box_added b x (near_floats [c]) b' ->
  (forall cs l, level cs l -> level (cs ++ [c]) (l ++ [x])) -> ~ block_content c ->
  b_inlines b <> [] \/ starts_paragraph c -> top (cs ++ [c]) b'.
Proof.
  intros cs b x c b' (done & op & ps & -> & Cl & Lo & Q & Op & St & Sy & An & Fl) (A1 & A2 & A3 & A4 & A5 & A6) L Nb Hs.
  unfold push_inline, set_current, current_inline_level_boxes in A1, A2. rewrite St in A1, A2. cbn [set_inlines b_stack b_inlines] in A1, A2.
  exists done, (op ++ [c]), ps. split; [rewrite <- app_assoc; reflexivity|]. split; [exact Cl|]. split; [exact Lo|].
  split; [rewrite A3; exact Q|]. split.
  - right. rewrite A2. destruct Op as [(-> & El)|(y & p & -> & Sc & Np & Nl & Lv)].
    + destruct Hs as [Hs|Hs]; [congruence|]. exists c, []. split; [reflexivity|]. split; [exact Hs|]. split; [intros y []|].
      rewrite El. split; [discriminate|]. apply (L [] []). apply lv_nil.
    + exists y, (p ++ [c]). split; [reflexivity|]. split; [exact Sc|]. split.
      { intros z I. apply in_app_or in I as [I|[<-|[]]]; auto. }
      split; [|apply (L _ _ Lv)]. intros E. apply app_eq_nil in E as [_ E]. discriminate E.
  - split; [rewrite A1; exact St|]. split; [congruence|]. split; [rewrite A5; exact An|].
    rewrite A6, Fl, (near_floats_app (done ++ op) [c]). reflexivity.
Qed.
(** A block *)
Lemma top_block : forall cs b t i k ts inside, top cs b -> sub i ts -> shows' t ts inside -> size ts < n -> block_style k t ->
  exists b', handle_block_level_element b t k i (Some i) = Ok b' /\ top (cs ++ [CBox t i inside]) b'.
Proof.
  intros cs b t i k ts inside (done & op & ps & -> & Cl & Lo & Q & Op & St & Sy & An & Fl) Hs Sh Sz B.
  assert (Nf : near_floats ((done ++ op) ++ [CBox t i inside]) <-> near_floats (done ++ op)).
  { rewrite near_floats_app, near_one. split; [|auto]. intros [G|[G|(G & _)]]; [exact G|destruct (float_not_block _ _ G B)|destruct (inline_not_block _ _ G B)]. }
  assert (Hw : queued (PBox (CBox t i inside)) (match k with Flow => IntermediateSame t (Deferred i) | FlowRoot => IntermediateIndependent t i end, Some i)).
  { apply (q_box t i inside ts); auto. destruct k; constructor; exact B. }
  assert (Hb : block_content (CBox t i inside)) by (exists k; exact B).
  unfold handle_block_level_element, split_ongoing. rewrite St. unfold end_ongoing_inline_formatting_context. rewrite St. cbn [is_empty assert bind].
  destruct Op as [(-> & El)|(c & p & -> & Sc & Np & Nl & L)].
  - rewrite El. cbn [bind]. eexists. split; [reflexivity|]. rewrite app_nil_r in *.
    exists (done ++ [CBox t i inside]), [], (ps ++ [PBox (CBox t i inside)]). split; [rewrite app_nil_r; reflexivity|].
    split; [apply closed_box; auto|]. split; [intros p; apply lone_app|].
    unfold push_block. cbn [set_blocks b_blocks b_inlines b_stack b_style b_anonymous b_floats].
    split; [apply Forall2_app; auto|]. split; [left; auto|]. repeat (split; [assumption|]). rewrite Fl, Nf. reflexivity.
  - destruct (b_inlines b) as [|x r] eqn:El; [congruence|]. cbn [bind]. eexists. split; [reflexivity|].
    exists ((done ++ (c :: p)) ++ [CBox t i inside]), [], (ps ++ [PParagraph (c :: p); PBox (CBox t i inside)]).
    split; [rewrite app_nil_r; reflexivity|]. split; [rewrite <- app_assoc; apply closed_paragraph; auto|].
    split; [intros q E; destruct ps as [|? [|? ?]]; discriminate E|].
    unfold push_block. cbn [set_blocks set_inlines set_anonymous b_blocks b_inlines b_stack b_style b_anonymous b_floats].
    assert (Ea : match b_anonymous b with Some s => s | None => anonymous_inheriting_from (Some (b_style b)) end = a).
    { destruct An as [-> | ->]; [rewrite Sy|]; reflexivity. }
    rewrite Ea. rewrite <- app_assoc. cbn [app].
    split; [apply Forall2_app; [exact Q|]; apply Forall2_cons; [apply q_paragraph; exact L|apply Forall2_cons; auto]|].
    split; [left; auto|]. split; [exact St|]. split; [exact Sy|]. split; [right; reflexivity|]. rewrite Fl. symmetry. exact Nf.
Qed.
(** An out-of-flow box outside paragraphs *)
Lemma top_out : forall cs b t i x f ts inside, top cs b -> b_inlines b = [] -> sub i ts -> shows' t ts inside -> size ts < n ->
  absolute_style t \/ float_style t -> waits t i x -> (f = true <-> float_style t) ->
  top (cs ++ [CBox t i inside]) (push_block x (Some i) (set_floats (f || b_floats b) b)).
Proof.
  intros cs b t i x f ts inside (done & op & ps & -> & Cl & Lo & Q & Op & St & Sy & An & Fl) El Hs Sh Sz Ho Hw Hff.
  destruct Op as [(-> & _)|(c & p & _ & _ & _ & Nl & _)]; [|congruence]. rewrite app_nil_r in *.
  exists (done ++ [CBox t i inside]), [], (ps ++ [PBox (CBox t i inside)]). split; [rewrite app_nil_r; reflexivity|].
  split; [apply closed_box; auto|]. split; [intros p; apply lone_app|].
  unfold push_block. cbn [set_blocks set_floats b_blocks b_inlines b_stack b_style b_anonymous b_floats].
  split; [apply Forall2_app; [exact Q|]; apply Forall2_cons; [|constructor]; apply (q_box t i inside ts); auto|].
  split; [left; auto|]. repeat (split; [assumption|]). rewrite Bool.orb_true_iff, Hff, Fl, near_floats_app, near_one.
  split; [intros [G|G]; auto|]. intros [G|[G|(G & _)]]; auto.
  destruct Ho as [Ho|Ho]; [destruct (inline_not_absolute _ G Ho)|destruct (inline_not_float _ G Ho)].
Qed.
Lemma set_floats_same : forall b, set_floats (b_floats b) b = b.
Proof. intros []. reflexivity. Qed.
Lemma top_box : inner_outcome n -> context_outcome n ->
  forall cs b t i o k ts inside fuel, top cs b -> sub i ts -> get t display_ = OutsideInside o k -> shows' t ts inside ->
  size ts < n -> 2 * size ts + 1 <= fuel ->
  (exists b', handle_element (trav fuel) (construct d style_of fuel) b t o k i (Some i) = Ok b' /\ top (cs ++ [CBox t i inside]) b') \/
  (handle_element (trav fuel) (construct d style_of fuel) b t o k i (Some i) = Panic /\ unbuildable (cs ++ [CBox t i inside])).
Proof.
  intros Hi Hc cs b t i o k ts inside fuel HT Hs Di Sh Sz Fu.
  assert (Up : unbuildable [CBox t i inside] -> unbuildable (cs ++ [CBox t i inside])).
  { intros U. apply (unbuildable_incl _ _ U). intros x I. apply in_or_app. auto. }
  assert (Stk : b_stack b = []) by (destruct HT as (? & ? & ? & _ & _ & _ & _ & _ & E & _); exact E).
  assert (On : has_ongoing_inline_formatting_context b = negb (is_empty (b_inlines b))).
  { unfold has_ongoing_inline_formatting_context. rewrite Stk. apply Bool.orb_false_r. }
  destruct (style_kinds t o k Di) as [(-> & -> & E)|[(-> & -> & E)|[(-> & E1 & E)|[(-> & E1 & E2 & E)|(-> & E1 & E2 & E)]]]].
  - right. split; [reflexivity|]. apply Up. eapply ub_inline_block; [left; reflexivity|exact E].
  - destruct (paragraph_box n Hi Hc b t i Inline Flow ts inside fuel (or_intror eq_refl) Hs Di ltac:(discriminate) Sh Sz Fu) as [(b' & x & E' & A & L)|(E' & U)].
    + left. exists b'. split; [exact E'|]. apply (top_inline cs b x _ b' HT A L); [|right; exact E]. intros (j & B). exact (inline_not_block _ _ E B).
    + right. auto.
  - destruct (is_empty (b_inlines b)) eqn:Ee; cbn [negb] in On.
    + destruct (b_inlines b) eqn:El; [|discriminate Ee]. left. cbn [handle_element]. rewrite E1. unfold handle_absolutely_positioned_element. rewrite On.
      eexists. split; [reflexivity|]. rewrite <- (set_floats_same b).
      apply (top_out cs b t i _ false ts inside HT El Hs Sh Sz (or_introl E)); [constructor; exact E|].
      split; [discriminate|intros G; destruct (absolute_not_float _ E G)].
    + destruct (paragraph_box n Hi Hc b t i Block k ts inside fuel (or_introl On) Hs Di (fun _ => absolute_not_block _ _ E) Sh Sz Fu) as [(b' & x & E' & A & L)|(E' & U)].
      * left. exists b'. split; [exact E'|]. apply (top_inline cs b x _ b' HT A L); [intros (j & B); exact (absolute_not_block _ _ E B)|left].
        intros G. rewrite G in Ee. discriminate Ee.
      * right. auto.
  - destruct (is_empty (b_inlines b)) eqn:Ee; cbn [negb] in On.
    + destruct (b_inlines b) eqn:El; [|discriminate Ee]. left. cbn [handle_element]. rewrite E1, E2. unfold handle_float_element.
      change (has_ongoing_inline_formatting_context (set_floats true b)) with (has_ongoing_inline_formatting_context b). rewrite On.
      eexists. split; [reflexivity|].
      apply (top_out cs b t i _ true ts inside HT El Hs Sh Sz (or_intror E)); [constructor; exact E|]. split; auto.
    + destruct (paragraph_box n Hi Hc b t i Block k ts inside fuel (or_introl On) Hs Di (fun _ => float_not_block _ _ E) Sh Sz Fu) as [(b' & x & E' & A & L)|(E' & U)].
      * left. exists b'. split; [exact E'|]. apply (top_inline cs b x _ b' HT A L); [intros (j & B); exact (float_not_block _ _ E B)|left].
        intros G. rewrite G in Ee. discriminate Ee.
      * right. auto.
  - left. cbn [handle_element]. rewrite E1, E2. apply (top_block cs b t i k ts inside HT Hs Sh Sz E).
Qed.

(** The boxes of the pieces *)
Definition deep_floats (ps : list piece) : Prop :=
  exists t e inside, In (PBox (CBox t e inside)) ps /\ (float_style t \/ (block_style Flow t /\ floats_in inside)).
Lemma finish_ok : context_outcome n -> forall fuel, 2 * n <= fuel -> forall ps l, Forall2 queued ps l ->
  (exists bs f ws, finish_boxes (construct d style_of fuel) l = Ok (bs, f, ws) /\ block_boxes a ps bs /\ (f = true <-> deep_floats ps)) \/
  (finish_boxes (construct d style_of fuel) l = Panic /\ exists c, In (PBox c) ps /\ unbuildable [c]).
Proof.
  intros Hc fuel Fu ps l H. induction H as [|p x ps l Hq H IH].
  { left. exists [], false, []. split; [reflexivity|]. split; [constructor|]. split; [discriminate|]. intros (? & ? & ? & [] & _). }
  cbn [finish_boxes].
  assert (Dq : forall q, deep_floats (q :: ps) <->
    (exists t e inside, q = PBox (CBox t e inside) /\ (float_style t \/ (block_style Flow t /\ floats_in inside))) \/ deep_floats ps).
  { intros q. split.
    - intros (t & e & i & [E|I] & G); [left|right]; exists t, e, i; auto.
    - intros [(t & e & i & E & G)|(t & e & i & I & G)]; exists t, e, i; (split; [|exact G]); [left; auto|right; auto]. }
  inversion Hq as [p0 l0 L|t e inside ts x0 Hs Sh Sz W]; subst.
  - cbn [finish_box finish_container bind]. destruct IH as [(bs & f & ws & -> & Hb & Hf')|(-> & c & I & U)]; cbn [bind].
    + left. do 3 eexists. split; [reflexivity|]. split; [constructor; assumption|]. rewrite Dq. cbn [orb]. rewrite Hf'.
      split; [auto|]. intros [(? & ? & ? & E & _)|G]; [discriminate E|exact G].
    + right. split; [reflexivity|]. exists c. split; [right; exact I|exact U].
  - destruct (Hc t e ts inside fuel Hs Sh Sz ltac:(lia)) as [(c & f0 & w & Ec & Hx)|(Ec & U)].
    2: { right. split; [inversion W; subst; cbn [finish_box finish_container]; unfold bfc_construct; rewrite Ec; reflexivity|].
         exists (CBox t e inside). split; [left; reflexivity|]. eapply ub_deeper; [left; reflexivity|exact U]. }
    inversion Hx as [? ? ? ? Hcn Hfl]; subst.
    assert (Df : forall (g : bool), (g = true <-> float_style t \/ (block_style Flow t /\ floats_in inside)) -> forall fs, (fs = true <-> deep_floats ps) ->
      (g || fs = true <-> deep_floats (PBox (CBox t e inside) :: ps))).
    { intros g Hg fs Hfs. rewrite Bool.orb_true_iff, Dq, Hg, Hfs. split; [intros [G|G]; [left; exists t, e, inside; auto|auto]|].
      intros [(? & ? & ? & E & G)|G]; [left; injection E as <- <- <-; exact G|auto]. }
    inversion W as [? ? B|? ? B|? ? B|? ? B]; subst; cbn [finish_box finish_container]; unfold bfc_construct; rewrite Ec; cbn [bind];
      (destruct IH as [(bs & f & ws & -> & Hb & Hf')|(-> & c' & I & U)]; cbn [bind];
       [left; do 3 eexists; split; [reflexivity|]; split; [constructor; assumption|]; apply (Df _); [|exact Hf']
       |right; split; [reflexivity|]; exists c'; split; [right; exact I|exact U]]).
    + rewrite Hfl. split; [auto|]. intros [G|(_ & G)]; [destruct (float_not_block _ _ G B)|exact G].
    + split; [discriminate|]. intros [G|(G & _)]; [destruct (float_not_block _ _ G B)|destruct G, B; congruence].
    + split; [discriminate|]. intros [G|(G & _)]; [destruct (absolute_not_float _ B G)|destruct (absolute_not_block _ _ B G)].
    + split; [auto|reflexivity].
Qed.
Lemma deep_floats_ok : forall cs ps, pieces cs ps -> (floats_in cs <-> near_floats cs \/ deep_floats ps).
Proof.
  intros cs ps P. destruct (pieces_in _ _ P) as (I1 & I2 & I3). rewrite floats_in_near. split.
  - intros [G|(t & e & i & I & B & G)]; [auto|]. destruct (I3 _ I) as [X|[X|(p & X & Y)]].
    + destruct X.
    + right. exists t, e, i. auto.
    + exfalso. clear - P B X Y. induction P as [|c r ps Hc P IH|c r ps Hc P IH|c q r ps Sc Hq Hr P IH].
      * destruct X.
      * auto.
      * destruct X as [X|X]; [discriminate X|auto].
      * destruct X as [X|X]; [|auto]. injection X as X. subst p. destruct Y as [Y|Y].
        -- subst c. apply (starts_not_block _ Sc). exists Flow. exact B.
        -- apply (Hq _ Y). exists Flow. exact B.
  - intros [G|(t & e & i & I & [G|(B & G)])]; [auto|left; exists t, e, i; auto|right; exists t, e, i; auto].
Qed.
Lemma build_ok : context_outcome n -> forall fuel, 2 * n <= fuel -> forall cs b, top cs b ->
  (exists c f w, build (construct d style_of fuel) b = Ok (c, f, w) /\ context s cs (BFC c f)) \/
  (build (construct d style_of fuel) b = Panic /\ unbuildable cs).
Proof.
  intros Hc fuel Fu cs b (done & op & ps & -> & Cl & Lo & Q & Op & St & Sy & An & Fl). unfold build. rewrite St. cbn [is_empty assert bind].
  assert (Main : forall l qs pr, Forall2 queued (ps ++ pr) (b_blocks b ++ l) -> pieces (done ++ op) (ps ++ pr) ->
    (forall p, ps ++ pr <> [PParagraph p]) ->
    (exists c f w, (r <- finish_boxes (construct d style_of fuel) (b_blocks b ++ l) ;; let '(boxes, f, ws) := r in
        Ok (BlockLevelBoxes boxes, b_floats b || f, qs ++ [Par ws])) = Ok (c, f, w) /\ context s (done ++ op) (BFC c f)) \/
    ((r <- finish_boxes (construct d style_of fuel) (b_blocks b ++ l) ;; let '(boxes, f, ws) := r in
        Ok (BlockLevelBoxes boxes, b_floats b || f, qs ++ [Par ws])) = Panic /\ unbuildable (done ++ op))).
  { intros l qs pr Q' P' Lo'. destruct (finish_ok Hc fuel Fu _ _ Q') as [(bs & f & ws & -> & Hb & Hf')|(-> & c & I & U)]; cbn [bind].
    - left. do 3 eexists. split; [reflexivity|]. constructor.
      + apply (cn_blocks s _ (ps ++ pr) a); auto. apply anonymous_ok.
      + rewrite Bool.orb_true_iff, Fl, Hf'. symmetry. apply deep_floats_ok. exact P'.
    - right. split; [reflexivity|]. apply (unbuildable_in c); [|exact U]. apply (proj1 (pieces_in _ _ P')). exact I. }
  destruct Op as [(-> & El)|(c & p & -> & Sc & Np & Nl & L)].
  - rewrite El. cbn [is_empty negb andb bind]. specialize (Main [] (b_steps b) []). rewrite !(app_nil_r ps), (app_nil_r (b_blocks b)) in Main.
    apply Main; auto. rewrite <- (app_nil_r ps). apply Cl. constructor.
  - assert (P : pieces (done ++ (c :: p)) (ps ++ [PParagraph (c :: p)])).
    { apply Cl. rewrite <- (app_nil_r (c :: p)) at 1. apply pc_paragraph; auto. constructor. }
    destruct (b_inlines b) as [|x r] eqn:El; [congruence|]. cbn [is_empty negb andb].
    destruct (b_blocks b) as [|y z] eqn:Eb; cbn [is_empty].
    + inversion Q; subst ps. left. do 3 eexists. split; [reflexivity|]. constructor.
      * eapply cn_inlines; [exact P|exact L].
      * rewrite Fl, (deep_floats_ok _ _ P). split; [auto|]. intros [G|(? & ? & ? & [G|[]] & _)]; [exact G|discriminate G].
    + unfold end_ongoing_inline_formatting_context. rewrite St, El. cbn [is_empty assert bind].
      unfold push_block. cbn [set_blocks set_inlines set_anonymous b_blocks b_floats b_steps]. rewrite Eb.
      apply (Main _ _ [PParagraph (c :: p)]); auto.
      * apply Forall2_app; [exact Q|]. constructor; [|constructor].
        assert (Ea : match b_anonymous b with Some s => s | None => anonymous_inheriting_from (Some (b_style b)) end = a).
        { destruct An as [-> | ->]; [rewrite Sy|]; reflexivity. }
        rewrite Ea. apply q_paragraph. exact L.
      * intros q E. inversion Q; subst ps. destruct l; discriminate E.
Qed.
End Top.

Lemma context_step : forall n, (forall m, m < n -> inner_outcome m /\ context_outcome m) -> context_outcome n.
Proof.
  intros n IH s e ts cs fuel Hs Sh Sz Fu. destruct fuel as [|fuel]; [lia|].
  assert (construct d style_of (S fuel) s e = b <- trav fuel (builder_new s) e s ;; build (construct d style_of fuel) b) as ->.
  { change (construct d style_of (S fuel) s e) with
      (nd <- index d e ;; b <- children_loop d style_of fuel (builder_new s) (first_child nd) s ;; build (construct d style_of fuel) b).
    unfold trav. destruct (index d e); reflexivity. }
  rewrite (trav_ok _ _ _ _ _ Hs). destruct Hs as (St & Bi). inversion St as [? ? K Fs]; subst.
  destruct (IH (size ts) Sz) as [Hi Hc].
  destruct (loop_ok (top s (size ts)) unbuildable (size ts) (top_log s (size ts))
    ltac:(intros x y U; apply (unbuildable_incl _ _ U); intros z I; apply in_or_app; auto)
    (top_text s (size ts)) (top_box s (size ts) Hi Hc) s ts cs Sh [] (builder_new s) e [] fuel) as [(b & E & HT)|(E & U)].
  - exists [], [], []. split; [reflexivity|]. split; [apply closed_nil|]. split; [discriminate|]. split; [constructor|].
    split; [left; auto|]. split; [reflexivity|]. split; [reflexivity|]. split; [left; reflexivity|]. split; [discriminate|]. intros G. destruct (near_floats_nil G).
  - exact K.
  - exact Fs.
  - lia.
  - lia.
  - rewrite E. cbn [bind]. apply (build_ok s (size ts) Hc fuel ltac:(lia) cs b HT).
  - rewrite E. right. split; [reflexivity|exact U].
Qed.
Lemma outcomes : forall n, inner_outcome n /\ context_outcome n.
Proof.
  intros n. induction n as [n IH] using (well_founded_induction Wf_nat.lt_wf).
  split; [exact (inner_step n IH)|exact (context_step n IH)].
Qed.
(** [BlockContainer::construct] *)
Lemma construct_ok : forall s e ts cs fuel, sub e ts -> shows' s ts cs -> 2 * size ts + 1 <= fuel ->
  (exists c f w, construct d style_of fuel s e = Ok (c, f, w) /\ context s cs (BFC c f)) \/
  (construct d style_of fuel s e = Panic /\ unbuildable cs).
Proof. intros s e ts cs fuel Hs Sh Fu. exact (proj2 (outcomes (S (size ts))) s e ts cs fuel Hs Sh (Nat.lt_succ_diag_r _) Fu). Qed.
End Doc.
