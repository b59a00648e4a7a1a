(** What box construction does to the storage, element by element. *)
From Coq Require Import Permutation.
From Verif Require Import Base Dom DomSpec DomProofs DomTreeProofs DomWalkProofs StyleValues StyleProperties StyleSpec StyleCascade
  LayoutTree BoxTree BoxTreeSpec BoxTreeProofs BoxSlots BoxSlotsSpec BoxSlotsProofs.
Local Open Scope nat_scope.
Local Open Scope res_scope.

(** Equal but for the order of events of different elements *)
Definition onto (x : nat) (ev : slot_event) : bool := element_of ev =? x.
Definition eqv (a b : list slot_event) : Prop := forall x, filter (onto x) a = filter (onto x) b.
Definition within (ids : list nat) (l : list slot_event) : Prop := forall ev, In ev l -> In (element_of ev) ids.
Lemma within_none : forall ids l x, within ids l -> ~ In x ids -> filter (onto x) l = [].
Proof.
  intros ids l x W N. apply filter_none. intros ev I. unfold onto. destruct (Nat.eqb_spec (element_of ev) x) as [E|_]; [|reflexivity].
  exfalso. apply N. rewrite <- E. apply W. exact I.
Qed.
Lemma eqv_within : forall ids a b, eqv a b -> within ids b -> within ids a.
Proof.
  intros ids a b E W ev I. specialize (E (element_of ev)).
  assert (J : In ev (filter (onto (element_of ev)) a)) by (apply filter_In; split; [exact I|apply Nat.eqb_refl]).
  rewrite E in J. apply filter_In in J as [J _]. apply W. exact J.
Qed.
Lemma eqv_refl : forall a, eqv a a.
Proof. intros a x. reflexivity. Qed.
Lemma eqv_trans : forall a b c, eqv a b -> eqv b c -> eqv a c.
Proof. intros a b c H1 H2 x. rewrite H1. apply H2. Qed.
Lemma eqv_app : forall a b a' b', eqv a a' -> eqv b b' -> eqv (a ++ b) (a' ++ b').
Proof. intros a b a' b' H1 H2 x. rewrite !filter_app, H1, H2. reflexivity. Qed.
Lemma within_incl : forall a b l, within a l -> incl a b -> within b l.
Proof. intros a b l W I ev J. apply I, W, J. Qed.
Lemma within_app : forall ids a b, within ids a -> within ids b -> within ids (a ++ b).
Proof. intros ids a b A B ev I. apply in_app_or in I as [I|I]; auto. Qed.
Lemma eqv_swap : forall i a b, within i a -> (forall x, In x i -> forall ev, In ev b -> element_of ev <> x) -> eqv (a ++ b) (b ++ a).
Proof.
  intros i a b W N x. rewrite !filter_app. destruct (in_dec Nat.eq_dec x i) as [I|I].
  - assert (filter (onto x) b = []) as ->; [|rewrite app_nil_r; reflexivity]. apply filter_none. intros ev J. unfold onto.
    destruct (Nat.eqb_spec (element_of ev) x) as [E|_]; [destruct (N x I ev J E)|reflexivity].
  - rewrite (within_none _ _ _ W I), app_nil_r. reflexivity.
Qed.

Section Doc.
Variable d : document.
Variable kids : nat -> list nat.
Hypothesis Hf : in_forest d kids.
Variable style_of : node_id -> option computed_values -> result computed_values.
(** The elements that are met, in document order *)
Inductive tasks (p : computed_values) : list tree -> list (nat * kind) -> Prop :=
| tk_nil : tasks p [] []
| tk_other : forall i ts r l, ~ is_element (data (node_at d i)) -> tasks p r l -> tasks p (T i ts :: r) l
| tk_none : forall i ts r s l, is_element (data (node_at d i)) -> style_of i (Some p) = Ok s ->
    get s display_ = DisplayNone -> tasks p r l -> tasks p (T i ts :: r) ((i, KNone) :: l)
| tk_contents : forall i ts r s l l', is_element (data (node_at d i)) -> style_of i (Some p) = Ok s ->
    get s display_ = Contents -> tasks s ts l -> tasks p r l' -> tasks p (T i ts :: r) ((i, KContents) :: l ++ l')
| tk_box : forall i ts r s o k l l', is_element (data (node_at d i)) -> style_of i (Some p) = Ok s ->
    get s display_ = OutsideInside o k -> tasks s ts l -> tasks p r l' -> tasks p (T i ts :: r) ((i, KBox) :: l ++ l').
Definition ids (l : list (nat * kind)) : list nat := map fst l.
Definition all_ops (l : list (nat * kind)) : list slot_event := flat_map ops l.
Lemma ops_within : forall l, within (ids l) (all_ops l).
Proof.
  intros l ev I. apply in_flat_map in I as ([i k] & I & J). assert (element_of ev = i) as ->.
  { destruct k; cbn [ops] in J; repeat destruct J as [<-|J]; try reflexivity; destruct J. }
  apply (in_map fst) in I. exact I.
Qed.

(** Boxes that wait to be built; an anonymous one does nothing. *)
Definition task : Type := nat * list (nat * kind).
Definition pids (t : task) : list nat := fst t :: ids (snd t).
Definition pops (t : task) : list slot_event := all_ops (snd t) ++ [SlotSet (fst t)].
Definition waits_for (s : computed_values) (e : nat) (x : intermediate_box) : Prop :=
  x = IntermediateSame s (Deferred e) \/ x = IntermediateIndependent s e \/ x = IntermediateAbsolute s e \/ x = IntermediateFloat s e.
Inductive waiting : list (intermediate_box * slot) -> list task -> Prop :=
| wt_nil : waiting [] []
| wt_anonymous : forall s l r ps, waiting r ps -> waiting ((IntermediateSame s (IntermediateInlines l), None) :: r) ps
| wt_element : forall x s e ts l r ps, waits_for s e x -> sub d kids e ts -> tasks s ts l -> NoDup (ids l) -> waiting r ps ->
    waiting ((x, Some e) :: r) ((e, l) :: ps).
Lemma waiting_app : forall a b pa pb, waiting a pa -> waiting b pb -> waiting (a ++ b) (pa ++ pb).
Proof. intros a b pa pb Ha Hb. induction Ha; cbn [app]; try assumption; econstructor; eauto. Qed.
Definition outcome (b b' : builder) (evl : list slot_event) (l : list nat) : Prop :=
  exists w bl pend lw, b_steps b' = b_steps b ++ w /\ b_blocks b' = b_blocks b ++ bl /\ waiting bl pend /\
    Permutation l (lw ++ flat_map pids pend) /\ Forall disj_step w /\ eqv (evs w ++ flat_map pops pend) evl.
Lemma nodup_apart : forall A (a b : list A) x, NoDup (a ++ b) -> In x a -> In x b -> False.
Proof.
  intros A a b x N Ia Ib. induction a as [|y a IH]; [destruct Ia|]. cbn [app] in N. inversion N as [|? ? Ny N']; subst.
  destruct Ia as [->|Ia]; [apply Ny; apply in_or_app; auto|auto].
Qed.
Lemma nodup_parts : forall A (a b : list A), NoDup (a ++ b) -> NoDup a /\ NoDup b.
Proof.
  intros A a b N. induction a as [|y a IH]; [split; [constructor|exact N]|]. cbn [app] in N. inversion N as [|? ? Ny N']; subst.
  destruct (IH N') as [Na Nb]. split; [|exact Nb]. constructor; [|exact Na]. intros I. apply Ny. apply in_or_app. auto.
Qed.
Lemma outcome_app : forall b b1 b2 e1 e2 i1 i2, outcome b b1 e1 i1 -> outcome b1 b2 e2 i2 -> NoDup (i1 ++ i2) ->
  within i1 e1 -> within i2 e2 -> outcome b b2 (e1 ++ e2) (i1 ++ i2).
Proof.
  intros b b1 b2 e1 e2 i1 i2 (w1 & bl1 & p1 & lw1 & S1 & B1 & W1 & P1 & D1 & E1) (w2 & bl2 & p2 & lw2 & S2 & B2 & W2 & P2 & D2 & E2) N H1 H2.
  exists (w1 ++ w2), (bl1 ++ bl2), (p1 ++ p2), (lw1 ++ lw2).
  split; [rewrite S2, S1, <- app_assoc; reflexivity|]. split; [rewrite B2, B1, <- app_assoc; reflexivity|].
  split; [apply waiting_app; assumption|]. split.
  { rewrite P1, P2, flat_map_app. rewrite <- !app_assoc. apply Permutation_app_head. rewrite !app_assoc. apply Permutation_app_tail. apply Permutation_app_comm. }
  split; [apply Forall_app; auto|]. intros x. specialize (E1 x). specialize (E2 x).
  rewrite evs_app, flat_map_app, !filter_app in *. destruct (in_dec Nat.eq_dec x i1) as [I|I].
  - rewrite (within_none _ _ x H2) in E2 by (intros J; exact (nodup_apart _ _ _ x N I J)).
    apply app_eq_nil in E2 as [E2 E3]. rewrite E2, E3, !app_nil_r, (within_none _ _ x H2), app_nil_r by (intros J; exact (nodup_apart _ _ _ x N I J)).
    exact E1.
  - rewrite (within_none _ _ x H1 I) in *. apply app_eq_nil in E1 as [E1 E3]. rewrite E1, E3. exact E2.
Qed.
Lemma outcome_event : forall b ev, outcome b (log ev b) [ev] [element_of ev].
Proof.
  intros b ev. exists [Ev ev], [], [], [element_of ev]. split; [reflexivity|]. split; [symmetry; apply app_nil_r|]. split; [constructor|].
  split; [reflexivity|]. split; [repeat constructor|apply eqv_refl].
Qed.
Lemma outcome_same : forall b b', b_steps b' = b_steps b -> b_blocks b' = b_blocks b -> outcome b b' [] [].
Proof.
  intros b b' S B. exists [], [], [], []. rewrite !app_nil_r. split; [exact S|]. split; [exact B|]. split; [constructor|]. split; [constructor|].
  split; [constructor|apply eqv_refl].
Qed.
Lemma outcome_keep : forall b b1 b2 e i, outcome b b1 e i -> b_steps b2 = b_steps b1 -> b_blocks b2 = b_blocks b1 -> outcome b b2 e i.
Proof.
  intros b b1 b2 e i (w & bl & p & lw & S & B & R) Es Eb. exists w, bl, p, lw. rewrite Es, Eb. auto.
Qed.
Lemma outcome_start : forall b b1 b2 e i, outcome b1 b2 e i -> b_steps b1 = b_steps b -> b_blocks b1 = b_blocks b -> outcome b b2 e i.
Proof. intros b b1 b2 e i (w & bl & p & lw & S & B & R) Es Eb. exists w, bl, p, lw. rewrite <- Es, <- Eb. auto. Qed.
Lemma outcome_eqv : forall b b' e e' i i', outcome b b' e i -> eqv e e' -> Permutation i' i -> outcome b b' e' i'.
Proof.
  intros b b' e e' i i' (w & bl & p & lw & S & B & W & P & D & E) H Hp. exists w, bl, p, lw. repeat (split; [assumption|]).
  split; [rewrite Hp; exact P|]. split; [exact D|]. exact (eqv_trans _ _ _ E H).
Qed.
Lemma set_current_keeps : forall l b, b_steps (set_current l b) = b_steps b /\ b_blocks (set_current l b) = b_blocks b.
Proof. intros l b. unfold set_current. destruct (b_stack b); split; reflexivity. Qed.
Lemma text_keeps : forall b t s, b_steps (handle_text b t s) = b_steps b /\ b_blocks (handle_text b t s) = b_blocks b.
Proof.
  intros b t s. unfold handle_text. destruct (handle_leading_whitespace b t) as [lw t']. destruct (lw || _); [apply set_current_keeps|auto].
Qed.
Lemma split_keeps : forall b, b_steps (split_ongoing b) = b_steps b /\ b_blocks (split_ongoing b) = b_blocks b.
Proof. intros b. unfold split_ongoing. destruct (b_stack b); split; reflexivity. Qed.
Lemma end_outcome : forall b b', end_ongoing_inline_formatting_context b = Ok b' ->
  b_steps b' = b_steps b /\ exists bl, b_blocks b' = b_blocks b ++ bl /\ waiting bl [].
Proof.
  intros b b' H. unfold end_ongoing_inline_formatting_context in H. destruct (is_empty (b_stack b)); [|discriminate H]. cbn [assert bind] in H.
  destruct (b_inlines b) as [|x r].
  - injection H as <-. split; [reflexivity|]. exists []. rewrite app_nil_r. split; [reflexivity|constructor].
  - injection H as <-. split; [reflexivity|]. eexists. split; [reflexivity|]. repeat constructor.
Qed.

Definition loop_claim (fuel : nat) : Prop := forall b ts ps p l0 b' l, tasks ps ts l -> NoDup (ids l) -> kids p = l0 ++ map root ts ->
  Forall (subtree kids) ts -> children_loop d style_of fuel b (hd_error (map root ts)) ps = Ok b' -> outcome b b' (all_ops l) (ids l).
Definition construct_claim (fuel : nat) : Prop := forall s e ts l c f w, sub d kids e ts -> tasks s ts l -> NoDup (ids l) ->
  construct d style_of fuel s e = Ok (c, f, w) -> Forall disj_step w /\ eqv (evs w) (all_ops l).

Lemma acquire_set : forall i l, ~ In i (ids l) -> eqv (SlotAcquire i :: all_ops l ++ [SlotSet i]) (ops (i, KBox) ++ all_ops l).
Proof.
  intros i l N. change (SlotAcquire i :: all_ops l ++ [SlotSet i]) with ([SlotAcquire i] ++ all_ops l ++ [SlotSet i]).
  change (ops (i, KBox) ++ all_ops l) with ([SlotAcquire i] ++ [SlotSet i] ++ all_ops l).
  apply eqv_app; [apply eqv_refl|]. apply (eqv_swap (ids l)); [apply ops_within|].
  intros x I ev [<-|[]] E. cbn [element_of] in E. congruence.
Qed.
Lemma now_outcome : forall b b' i l w, Forall disj_step w -> eqv (evs w) (all_ops l) -> ~ In i (ids l) ->
  b_steps b' = b_steps b ++ [Ev (SlotAcquire i)] ++ w ++ [Ev (SlotSet i)] -> b_blocks b' = b_blocks b ->
  outcome b b' (ops (i, KBox) ++ all_ops l) (i :: ids l).
Proof.
  intros b b' i l w Dw Ew N S B.
  assert (H : outcome b b' (SlotAcquire i :: all_ops l ++ [SlotSet i]) (i :: ids l)); [|exact (outcome_eqv _ _ _ _ _ _ H (acquire_set i l N) (Permutation_refl _))].
  exists ([Ev (SlotAcquire i)] ++ w ++ [Ev (SlotSet i)]), [], [], (i :: ids l). cbn [flat_map]. rewrite !app_nil_r.
  split; [exact S|]. split; [exact B|]. split; [constructor|]. split; [reflexivity|].
  split; [apply Forall_app; split; [repeat constructor|]; apply Forall_app; split; [exact Dw|repeat constructor]|].
  rewrite !evs_app. change (SlotAcquire i :: all_ops l ++ [SlotSet i]) with ([SlotAcquire i] ++ all_ops l ++ [SlotSet i]).
  apply eqv_app; [apply eqv_refl|]. apply eqv_app; [exact Ew|apply eqv_refl].
Qed.
Lemma handle_outcome : forall fuel, loop_claim fuel -> construct_claim fuel -> forall b s o k i ts l b', sub d kids i ts -> tasks s ts l ->
  NoDup (i :: ids l) ->
  handle_element (trav d style_of fuel) (construct d style_of fuel) (log (SlotAcquire i) b) s o k i (Some i) = Ok b' ->
  outcome b b' (ops (i, KBox) ++ all_ops l) (i :: ids l).
Proof.
  intros fuel HL HC b s o k i ts l b' Hs Ht Nd H. inversion Nd as [|? ? Ni Nl]; subst.
  set (b1 := log (SlotAcquire i) b) in *.
  assert (Later : forall x bl, waits_for s i x -> waiting bl [] -> b_steps b' = b_steps b1 -> b_blocks b' = b_blocks b1 ++ bl ++ [(x, Some i)] ->
    outcome b b' (ops (i, KBox) ++ all_ops l) (i :: ids l)).
  { intros x bl Wx Wb S B.
    assert (G : outcome b b' (SlotAcquire i :: all_ops l ++ [SlotSet i]) (i :: ids l)); [|exact (outcome_eqv _ _ _ _ _ _ G (acquire_set i l Ni) (Permutation_refl _))].
    exists [Ev (SlotAcquire i)], (bl ++ [(x, Some i)]), [(i, l)], []. split; [exact S|]. split; [exact B|].
    split; [apply (waiting_app bl _ [] _ Wb); econstructor; eauto; constructor|]. cbn [flat_map app]. rewrite app_nil_r.
    split; [reflexivity|]. split; [repeat constructor|]. unfold pops. cbn [fst snd]. rewrite app_nil_r. apply eqv_refl. }
  assert (Now : forall c f w x, construct d style_of fuel s i = Ok (c, f, w) -> forall b2, b_steps b2 = b_steps b1 -> b_blocks b2 = b_blocks b1 ->
    outcome b (add_steps (w ++ set_slot (Some i)) (push_inline x b2)) (ops (i, KBox) ++ all_ops l) (i :: ids l)).
  { intros c f w x E b2 S B. destruct (HC s i ts l c f w Hs Ht Nl E) as [Dw Ew]. destruct (set_current_keeps (current_inline_level_boxes b2 ++ [x]) b2) as [K1 K2].
    apply (now_outcome _ _ i l w Dw Ew Ni).
    - cbn [add_steps b_steps]. unfold push_inline. rewrite K1, S. cbn [b1 log add_steps b_steps set_slot]. rewrite <- app_assoc. reflexivity.
    - cbn [add_steps b_blocks]. unfold push_inline. rewrite K2, B. reflexivity. }
  destruct o; cbn [handle_element] in H.
  - destruct k; [|discriminate H]. unfold handle_inline_level_element in H.
    set (b2 := set_stack (mkInlineBox s true false [] :: b_stack b1) b1) in *.
    rewrite (trav_ok d kids Hf style_of _ _ _ _ _ Hs) in H. destruct Hs as [St Bi]. inversion St as [? ? K Fs]; subst.
    destruct (children_loop d style_of fuel b2 (hd_error (map root ts)) s) as [b3|x|] eqn:E; [|destruct x|discriminate H]. cbn [bind] in H.
    pose proof (HL b2 ts s i [] b3 l Ht Nl K Fs E) as O2.
    destruct (b_stack b3) as [|ib r] eqn:Es; [discriminate H|]. cbn [bind] in H. injection H as <-.
    set (y := InlineBox (ib_style ib) (ib_first ib) true (ib_children ib)).
    destruct (set_current_keeps (current_inline_level_boxes (set_stack r b3) ++ [y]) (set_stack r b3)) as [K1 K2].
    destruct O2 as (w & bl & p & lw & S & B & W & P & D & E2).
    exists ([Ev (SlotAcquire i)] ++ w ++ [Ev (SlotSet i)]), bl, p, (i :: lw).
    split. { cbn [add_steps b_steps set_slot]. unfold push_inline. rewrite K1. cbn [set_stack b_steps]. rewrite S. cbn [b2 set_stack b1 log add_steps b_steps].
      rewrite <- !app_assoc. reflexivity. }
    split. { cbn [add_steps b_blocks]. unfold push_inline. rewrite K2. cbn [set_stack b_blocks]. exact B. }
    split; [exact W|]. split; [cbn [app]; apply perm_skip; exact P|].
    split; [apply Forall_app; split; [repeat constructor|]; apply Forall_app; split; [exact D|repeat constructor]|].
    apply (fun H => eqv_trans _ _ _ H (acquire_set i l Ni)). intros x. specialize (E2 x).
    change (SlotAcquire i :: all_ops l ++ [SlotSet i]) with ([SlotAcquire i] ++ all_ops l ++ [SlotSet i]).
    rewrite !evs_app. change (evs [Ev (SlotAcquire i)]) with [SlotAcquire i]. change (evs [Ev (SlotSet i)]) with [SlotSet i].
    rewrite !filter_app in *. destruct (Nat.eq_dec x i) as [->|Nx].
    + rewrite (within_none _ _ i (ops_within l) Ni) in *. apply app_eq_nil in E2 as [-> ->]. cbn [app]. rewrite app_nil_r. reflexivity.
    + rewrite !(within_none [i] [SlotSet i] x), !(within_none [i] [SlotAcquire i] x), !app_nil_r; [exact E2|..];
        first [intros ev [<-|[]]; left; reflexivity|intros [E5|[]]; congruence].
  - destruct (is_absolutely_positioned (get s position_)); [|destruct (is_floating (get s float_))].
    + unfold handle_absolutely_positioned_element, bfc_construct in H. destruct (has_ongoing_inline_formatting_context b1).
      * destruct (construct d style_of fuel s i) as [[[c f] w]|x|] eqn:E; [|destruct x|discriminate H]. cbn [bind] in H. injection H as <-.
        apply (Now c f w _ eq_refl); reflexivity.
      * injection H as <-. apply (Later (IntermediateAbsolute s i) []); [right; right; left; reflexivity|constructor|reflexivity|reflexivity].
    + unfold handle_float_element, bfc_construct in H. destruct (has_ongoing_inline_formatting_context (set_floats true b1)).
      * destruct (construct d style_of fuel s i) as [[[c f] w]|x|] eqn:E; [|destruct x|discriminate H]. cbn [bind] in H. injection H as <-.
        apply (Now c f w _ eq_refl); reflexivity.
      * injection H as <-. apply (Later (IntermediateFloat s i) []); [right; right; right; reflexivity|constructor|reflexivity|reflexivity].
    + unfold handle_block_level_element in H. destruct (split_keeps b1) as [K1 K2].
      destruct (end_ongoing_inline_formatting_context (split_ongoing b1)) as [b2|x|] eqn:E; [|destruct x|discriminate H]. cbn [bind] in H. injection H as <-.
      destruct (end_outcome _ _ E) as (S & bl & B & W).
      apply (Later (match k with Flow => IntermediateSame s (Deferred i) | FlowRoot => IntermediateIndependent s i end) bl).
      * destruct k; [left|right; left]; reflexivity.
      * exact W.
      * cbn [push_block set_blocks b_steps]. rewrite S. exact K1.
      * cbn [push_block set_blocks b_blocks]. rewrite B, K2, <- app_assoc. reflexivity.
Qed.

Lemma finish_outcome : forall fuel, construct_claim fuel -> forall bl pend, waiting bl pend -> NoDup (flat_map pids pend) -> forall boxes f ws,
  finish_boxes (construct d style_of fuel) bl = Ok (boxes, f, ws) ->
  Forall (Forall disj_step) ws /\ apart_all element_of (map evs ws) /\ eqv (flat_map evs ws) (flat_map pops pend).
Proof.
  intros fuel HC bl pend W. induction W as [|s l r ps W IH|x s e ts l r ps Wx Hs Ht Nl W IH]; intros N boxes f ws H; cbn [finish_boxes] in H.
  - injection H as <- <- <-. split; [constructor|]. split; [constructor|apply eqv_refl].
  - cbn [finish_box finish_container bind] in H. destruct (finish_boxes _ r) as [[[bs fs] ws']|y|]; [|destruct y|discriminate H]. cbn [bind] in H. injection H as <- <- <-.
    destruct (IH N _ _ _ eq_refl) as (D & A & E). split; [repeat constructor; exact D|]. split; [|exact E].
    cbn [map app evs flat_map set_slot]. constructor; [intros ? ? ? []|exact A].
  - assert (Ex : exists c g w, construct d style_of fuel s e = Ok (c, g, w) /\ exists y h, finish_box (construct d style_of fuel) x = Ok (y, h, w)).
    { destruct (finish_box _ x) as [[[y h] w]|y|] eqn:Ef; [|destruct y|discriminate H].
      destruct Wx as [-> | [-> | [-> | ->]]]; cbn [finish_box finish_container] in Ef; unfold bfc_construct in Ef;
        (destruct (construct d style_of fuel s e) as [[[c g] w']|z|]; [|destruct z|discriminate Ef]); cbn [bind] in Ef; injection Ef as <- <- <-; eauto 8. }
    destruct Ex as (c & g & w & Ec & y & h & Ef). rewrite Ef in H. cbn [bind] in H.
    destruct (finish_boxes _ r) as [[[bs fs] ws']|z|]; [|destruct z|discriminate H]. cbn [bind] in H. injection H as <- <- <-.
    cbn [flat_map] in N. destruct (nodup_parts _ _ _ N) as [_ N2]. destruct (IH N2 _ _ _ eq_refl) as (D & A & E).
    destruct (HC s e ts l c g w Hs Ht Nl Ec) as [Dw Ew].
    assert (Eb : eqv (evs (w ++ set_slot (Some e))) (pops (e, l))).
    { rewrite evs_app. apply eqv_app; [exact Ew|apply eqv_refl]. }
    split; [constructor; [apply Forall_app; split; [exact Dw|repeat constructor]|exact D]|]. cbn [map flat_map].
    split; [|apply eqv_app; assumption]. constructor; [|exact A]. intros u b v Iu Ib Iv Euv.
    assert (Pw : forall t, within (pids t) (pops t)).
    { intros t ev I. apply in_app_or in I as [I|[<-|[]]]; [right; apply ops_within; exact I|left; reflexivity]. }
    assert (W1 : within (pids (e, l)) (evs (w ++ set_slot (Some e)))) by (exact (eqv_within _ _ _ Eb (Pw _))).
    assert (W2 : within (flat_map pids ps) (flat_map evs ws')).
    { apply (eqv_within _ _ _ E). intros ev I. apply in_flat_map in I as (t & It & I). apply in_flat_map. exists t. split; [exact It|apply Pw; exact I]. }
    apply (nodup_apart _ _ _ (element_of u) N); [apply W1; exact Iu|]. rewrite Euv. apply W2.
    apply in_map_iff in Ib as (z & <- & Iz). apply in_flat_map. eauto.
Qed.
Lemma build_outcome : forall fuel, construct_claim fuel -> forall s b evl l, outcome (builder_new s) b evl l -> NoDup l ->
  forall c f w, build (construct d style_of fuel) b = Ok (c, f, w) -> Forall disj_step w /\ eqv (evs w) evl.
Proof.
  intros fuel HC s b evl l (w0 & bl & p & lw & S & B & W & P & D & E) N c f w H. cbn [builder_new b_steps b_blocks app] in S, B.
  unfold build in H. destruct (is_empty (b_stack b)) eqn:Es; [|discriminate H]. cbn [assert bind] in H.
  assert (Np : NoDup (flat_map pids p)) by (apply (nodup_parts _ lw), (Permutation_NoDup P N)).
  assert (Main : forall b' bl', b_steps b' = b_steps b -> b_blocks b' = b_blocks b ++ bl' -> waiting bl' [] ->
    (r <- finish_boxes (construct d style_of fuel) (b_blocks b') ;; let '(boxes, f, ws) := r in
       Ok (BlockLevelBoxes boxes, b_floats b' || f, b_steps b' ++ [Par ws])) = Ok (c, f, w) -> Forall disj_step w /\ eqv (evs w) evl).
  { intros b' bl' S' B' W' H'. assert (Wb : waiting (b_blocks b') p).
    { rewrite B', B. rewrite <- (app_nil_r p). apply waiting_app; assumption. }
    destruct (finish_boxes _ (b_blocks b')) as [[[bs fs] ws]|y|] eqn:Ef; [|destruct y|discriminate H']. cbn [bind] in H'. injection H' as _ _ <-.
    destruct (finish_outcome fuel HC _ _ Wb Np _ _ _ Ef) as (D' & A & E'). rewrite S', S.
    split; [apply Forall_app; split; [exact D|]; repeat constructor; assumption|].
    rewrite evs_app. apply (eqv_trans _ (evs w0 ++ flat_map pops p)); [|exact E]. apply eqv_app; [apply eqv_refl|].
    cbn [evs flat_map events]. rewrite app_nil_r. exact E'. }
  destruct (is_empty (b_inlines b)) eqn:Ei; cbn [negb andb] in H.
  - cbn [bind] in H. apply (Main b []); auto; [symmetry; apply app_nil_r|constructor].
  - destruct (is_empty (b_blocks b)) eqn:Eb.
    + injection H as _ _ <-. rewrite S. split; [exact D|]. destruct (b_blocks b) eqn:Ebb; [|discriminate Eb]. rewrite <- B in W. inversion W; subst.
      cbn [flat_map] in E. rewrite app_nil_r in E. exact E.
    + destruct (end_ongoing_inline_formatting_context b) as [b'|y|] eqn:Ee; [|destruct y|discriminate H]. cbn [bind] in H.
      destruct (end_outcome _ _ Ee) as (S' & bl' & B' & W'). exact (Main b' bl' S' B' W' H).
Qed.
Lemma loop_none : forall fuel b ps, children_loop d style_of fuel b None ps = Ok b.
Proof. destruct fuel; reflexivity. Qed.
Lemma claims : forall fuel, loop_claim fuel /\ construct_claim fuel.
Proof.
  induction fuel as [|fuel [HL HC]].
  { split.
    - intros b ts ps p l0 b' l Ht N K Fs H. destruct ts as [|t ts]; [|discriminate H]. inversion Ht; subst. injection H as <-. apply outcome_same; reflexivity.
    - intros s e ts l c f w Hs Ht N H. discriminate H. }
  split.
  - intros b ts ps p l0 b' l Ht. revert b l0 b'. 
    intros b l0 b' N K Fs H. destruct ts as [|[i ts] r].
    { inversion Ht; subst. injection H as <-. apply outcome_same; reflexivity. }
    cbn [map root hd_error] in *. inversion Fs as [|? ? Ft Fr]; subst.
    assert (Bi : i < length (nodes d)) by (apply (proj1 (child_bounds d kids p i Hf ltac:(rewrite K; apply in_or_app; right; left; reflexivity)))).
    assert (Ns : next_sibling (node_at d i) = hd_error (map root r)) by (apply (proj1 (proj2 (proj2 (proj2 Hf))) p l0 i (map root r) K)).
    assert (Fc : first_child (node_at d i) = hd_error (map root ts)) by
      (rewrite (proj1 (proj1 (proj2 Hf) i)); inversion Ft as [? ? E F]; subst; rewrite E; reflexivity).
    assert (Ts : kids i = [] ++ map root ts /\ Forall (subtree kids) ts) by (inversion Ft; auto).
    assert (Kr : kids p = (l0 ++ [i]) ++ map root r) by (rewrite <- app_assoc; exact K).
    rewrite loop_eq in H; rewrite index_ok in H by exact Bi; cbn [bind] in H; rewrite Ns, Fc in H.
    inversion Ht as [|? ? ? ? Ne Tr|? ? ? s l' El St Di Tr|? ? ? s l1 l2 El St Di T1 Tr|? ? ? s o k l1 l2 El St Di T1 Tr]; subst.
    + destruct (data (node_at d i)) eqn:Dt; try (destruct Ne; exact I); cbn [bind] in H.
      3: { match type of H with children_loop _ _ _ ?x _ _ = _ => match x with handle_text _ ?t _ => destruct (text_keeps b t ps) as [K1 K2] end;
             apply (outcome_start b x); [|exact K1|exact K2]; exact (HL x r ps p _ b' l Tr N Kr Fr H) end. }
      all: exact (HL b r ps p _ b' l Tr N Kr Fr H).
    + destruct (data (node_at d i)) eqn:Dt; try destruct El. rewrite St in H. cbn [bind] in H. rewrite Di in H. cbn [bind] in H.
      change (all_ops ((i, KNone) :: l')) with ([SlotUnset i] ++ all_ops l'). change (ids ((i, KNone) :: l')) with ([i] ++ ids l') in *.
      apply (outcome_app b (log (SlotUnset i) b) b'); [apply (outcome_event b (SlotUnset i))| |exact N|intros ev [<-|[]]; left; reflexivity|apply ops_within].
      exact (HL _ r ps p _ b' l' Tr (proj2 (nodup_parts _ _ _ N)) Kr Fr H).
    + destruct (data (node_at d i)) eqn:Dt; try destruct El. rewrite St in H. cbn [bind] in H. rewrite Di in H. destruct Ts as [Ti Fi].
      destruct (children_loop d style_of fuel (log (SlotContents i) b) (hd_error (map root ts)) s) as [b2|y|] eqn:E2; [|destruct y|discriminate H]. cbn [bind] in H.
      change (all_ops ((i, KContents) :: l1 ++ l2)) with ([SlotContents i] ++ all_ops (l1 ++ l2)).
      change (ids ((i, KContents) :: l1 ++ l2)) with ([i] ++ ids (l1 ++ l2)) in *. destruct (nodup_parts _ _ _ N) as [_ N2].
      apply (outcome_app b (log (SlotContents i) b) b'); [apply (outcome_event b (SlotContents i))| |exact N|intros ev [<-|[]]; left; reflexivity|apply ops_within].
      unfold ids, all_ops in *. rewrite map_app in *. rewrite flat_map_app. destruct (nodup_parts _ _ _ N2) as [N3 N4].
      apply (outcome_app _ b2 b'); [exact (HL _ ts s i [] b2 l1 T1 N3 Ti Fi E2)|exact (HL _ r ps p _ b' l2 Tr N4 Kr Fr H)|exact N2|apply ops_within|apply ops_within].
    + destruct (data (node_at d i)) eqn:Dt; try destruct El. rewrite St in H. cbn [bind] in H. rewrite Di in H.
      match type of H with (b0 <- ?h ;; _) = _ => destruct h as [b2|y|] eqn:E2; [|destruct y|discriminate H] end. cbn [bind] in H.
      assert (E3 : all_ops ((i, KBox) :: l1 ++ l2) = (ops (i, KBox) ++ all_ops l1) ++ all_ops l2).
      { unfold all_ops. cbn [flat_map]. rewrite flat_map_app, app_assoc. reflexivity. }
      assert (E4 : ids ((i, KBox) :: l1 ++ l2) = (i :: ids l1) ++ ids l2) by (unfold ids; cbn [map fst]; rewrite map_app; reflexivity).
      rewrite E3, E4 in *. destruct (nodup_parts _ _ _ N) as [N3 N4].
      apply (outcome_app b b2 b'); [|exact (HL _ r ps p _ b' l2 Tr N4 Kr Fr H)|exact N| |apply ops_within].
      * exact (handle_outcome fuel HL HC b s o k i ts l1 b2 (conj Ft Bi) T1 N3 E2).
      * apply within_app; [intros ev [<-|[<-|[]]]; left; reflexivity|]. apply (within_incl (ids l1)); [apply ops_within|]. intros x I. right. exact I.
  - intros s e ts l c f w Hs Ht N H.
    change (construct d style_of (S fuel) s e) with
      (nd <- index d e ;; b <- children_loop d style_of fuel (builder_new s) (first_child nd) s ;; build (construct d style_of fuel) b) in H.
    assert (E : construct d style_of (S fuel) s e = b <- trav d style_of fuel (builder_new s) e s ;; build (construct d style_of fuel) b).
    { change (construct d style_of (S fuel) s e) with
        (nd <- index d e ;; b <- children_loop d style_of fuel (builder_new s) (first_child nd) s ;; build (construct d style_of fuel) b).
      unfold trav. destruct (index d e); reflexivity. }
    change (construct d style_of (S fuel) s e = Ok (c, f, w)) in H. rewrite E in H. rewrite (trav_ok d kids Hf style_of _ _ _ _ _ Hs) in H.
    destruct (children_loop d style_of fuel (builder_new s) (hd_error (map root ts)) s) as [b|y|] eqn:E2; [|destruct y|discriminate H]. cbn [bind] in H.
    destruct Hs as [St Bi]. inversion St as [? ? K Fs]; subst.
    exact (build_outcome fuel HC s b _ _ (HL _ ts s e [] b l Ht N K Fs E2) N c f w H).
Qed.
End Doc.
