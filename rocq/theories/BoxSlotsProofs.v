(** The storage of boxes: threads that touch different elements do not meet. *)
From Coq Require Import Permutation.
From Verif Require Import Base Dom DomSpec DomProofs DomTreeProofs DomWalkProofs StyleValues StyleProperties StyleSpec StyleCascade
  LayoutTree BoxTree BoxTreeSpec BoxTreeProofs BoxSlots BoxSlotsSpec.
Local Open Scope nat_scope.
Local Open Scope res_scope.

(** ** What is still to be done, element by element *)
Definition element_of (ev : slot_event) : nat :=
  match ev with SlotContents e | SlotAcquire e | SlotSet e | SlotUnset e => e end.
Fixpoint events (s : step) : list slot_event :=
  match s with Ev e => [e] | Par bs => flat_map (fun b => flat_map events b) bs end.
Definition evs (l : list step) : list slot_event := flat_map events l.
Inductive todo := Op (ev : slot_event) | Turn (base n : nat) | Idle (base : nat).
Definition elem (r : todo) : nat := match r with Op ev => element_of ev | Turn b _ | Idle b => b end.
Fixpoint left (p : process) : list todo :=
  match p with
  | Steps l => map Op (evs l)
  | Walk b n l => Turn b n :: map Op (evs l)
  | Spinning b l => Idle b :: map Op (evs l)
  | Join ps l => flat_map left ps ++ map Op (evs l)
  end.
Definition on (x : nat) (r : todo) : bool := elem r =? x.
Definition at_ (x : nat) (p : process) : list todo := filter (on x) (left p).

(** No two of the lists name the same element. *)
Inductive apart_all {A} (f : A -> nat) : list (list A) -> Prop :=
| ap_nil : apart_all f []
| ap_cons : forall a r, (forall x b y, In x a -> In b r -> In y b -> f x <> f y) -> apart_all f r -> apart_all f (a :: r).
Inductive disj_step : step -> Prop :=
| dj_ev : forall e, disj_step (Ev e)
| dj_par : forall bs, Forall (Forall disj_step) bs -> apart_all element_of (map evs bs) -> disj_step (Par bs).
Inductive disj : process -> Prop :=
| dp_steps : forall l, Forall disj_step l -> disj (Steps l)
| dp_walk : forall b n l, Forall disj_step l -> disj (Walk b n l)
| dp_spin : forall b l, Forall disj_step l -> disj (Spinning b l)
| dp_join : forall ps l, Forall disj ps -> apart_all elem (map left ps) -> Forall disj_step l -> disj (Join ps l).

Lemma apart_mid : forall A (f : A -> nat) a p b, apart_all f (a ++ p :: b) ->
  (forall x q y, In x p -> In q (a ++ b) -> In y q -> f x <> f y) /\
  (forall p', (forall y, In y p' -> exists x, In x p /\ f x = f y) -> apart_all f (a ++ p' :: b)).
Proof.
  intros A f a p b. induction a as [|q a IH]; intros H; cbn [app] in *.
  - inversion H as [|? ? H1 H2]; subst. split; [intros x q y Ix Iq Iy; eapply H1; eauto|].
    intros p' Hp. constructor; [|exact H2]. intros x c y Ix Ic Iy. destruct (Hp x Ix) as (z & Iz & <-). eapply H1; eauto.
  - inversion H as [|? ? H1 H2]; subst. destruct (IH H2) as [I1 I2]. split.
    + intros x c y Ix [<-|Ic] Iy.
      * intros E. apply (H1 y p x Iy); [apply in_or_app; right; left; reflexivity|exact Ix|auto].
      * eapply I1; eauto.
    + intros p' Hp. constructor; [|apply I2; exact Hp]. intros x c y Ix Ic Iy. apply in_app_or in Ic as [Ic|[<-|Ic]].
      * apply (H1 x c y Ix); [apply in_or_app; auto|exact Iy].
      * destruct (Hp y Iy) as (z & Iz & <-). apply (H1 x p z Ix); [apply in_or_app; right; left; reflexivity|exact Iz].
      * apply (H1 x c y Ix); [apply in_or_app; right; right; exact Ic|exact Iy].
Qed.
Lemma evs_cons : forall s l, evs (s :: l) = events s ++ evs l.
Proof. reflexivity. Qed.
Lemma evs_app : forall a b, evs (a ++ b) = evs a ++ evs b.
Proof. intros. apply flat_map_app. Qed.
Lemma left_steps : forall bs, flat_map left (map Steps bs) = map Op (flat_map evs bs).
Proof.
  induction bs as [|b bs IH]; [reflexivity|]. cbn [map flat_map left]. rewrite IH. symmetry. apply map_app.
Qed.
Lemma elem_op : forall l, map elem (map Op l) = map element_of l.
Proof. intros. rewrite map_map. reflexivity. Qed.
Lemma apart_map : forall bs, apart_all element_of (map evs bs) -> apart_all elem (map left (map Steps bs)).
Proof.
  induction bs as [|b bs IH]; intros H; cbn [map left] in *; [constructor|]. inversion H as [|? ? H1 H2]; subst.
  constructor; [|apply IH; exact H2]. intros x c y Ix Ic Iy. apply in_map_iff in Ix as (u & <- & Iu).
  rewrite map_map in Ic. apply in_map_iff in Ic as (v & <- & Iv). cbn [left] in Iy. apply in_map_iff in Iy as (z & <- & Iz).
  cbn [elem]. apply (H1 u (evs v) z Iu); [apply in_map; exact Iv|exact Iz].
Qed.

(** What a move does *)
Definition effect (d : document) (st : storage) (r : todo) : option (storage * list todo) :=
  match r with
  | Op (SlotUnset e) => Some (st, [Turn e e])
  | Op ev => match do_event st ev with Some st' => Some (st', []) | None => None end
  | Turn b n =>
      match unset_turn d b n st with
      | Ok (st', Return) => Some (st', [])
      | Ok (st', At m) => Some (st', [Turn b m])
      | Ok (st', Spin) => Some (st', [Idle b])
      | _ => None
      end
  | Idle b => Some (st, [Idle b])
  end.
Fixpoint weight (s : step) : nat :=
  match s with Ev _ => 2 | Par bs => 2 + list_sum (map (fun b => list_sum (map weight b)) bs) end.
Definition weights (l : list step) : nat := list_sum (map weight l).
Lemma weights_cons : forall s l, weights (s :: l) = weight s + weights l.
Proof. reflexivity. Qed.
Fixpoint load (p : process) : nat :=
  match p with
  | Steps l => weights l
  | Walk _ _ l | Spinning _ l => 1 + weights l
  | Join ps l => 1 + list_sum (map load ps) + weights l
  end.
Lemma list_sum_mid : forall a x b, list_sum (a ++ x :: b) = x + list_sum (a ++ b).
Proof. intros. rewrite !list_sum_app. change (list_sum (x :: b)) with (x + list_sum b). lia. Qed.
Lemma filter_none : forall A (f : A -> bool) l, (forall x, In x l -> f x = false) -> filter f l = [].
Proof.
  induction l as [|y l IH]; intros H; [reflexivity|]. cbn [filter]. rewrite (H y (or_introl eq_refl)). apply IH. intros x I. apply H. right. exact I.
Qed.
Lemma filter_elem : forall x (p : process) r rest, at_ x p = r :: rest -> In r (left p) /\ elem r = x.
Proof.
  intros x p r rest E. assert (I : In r (at_ x p)) by (rewrite E; left; reflexivity). apply filter_In in I as [I O]. split; [exact I|].
  apply Nat.eqb_eq. exact O.
Qed.
Lemma on_self : forall r l, filter (on (elem r)) (r :: l) = r :: filter (on (elem r)) l.
Proof. intros r l. cbn [filter]. unfold on at 1. rewrite Nat.eqb_refl. reflexivity. Qed.
Lemma on_other : forall x r l, x <> elem r -> filter (on x) (r :: l) = filter (on x) l.
Proof. intros x r l H. cbn [filter]. unfold on at 1. destruct (Nat.eqb_spec (elem r) x); [congruence|reflexivity]. Qed.

(** The elements a move leaves work for had work before. *)
Lemma fewer : forall p p' x, (forall y, y <> x -> at_ y p' = at_ y p) -> at_ x p <> [] ->
  forall r, In r (left p') -> exists q, In q (left p) /\ elem q = elem r.
Proof.
  intros p p' x H N r I. destruct (Nat.eq_dec (elem r) x) as [->|D].
  - destruct (at_ x p) as [|q l] eqn:E; [congruence|]. exists q. exact (filter_elem _ _ _ _ E).
  - assert (J : In r (at_ (elem r) p)).
    { rewrite <- (H _ D). apply filter_In. split; [exact I|apply Nat.eqb_refl]. }
    apply filter_In in J as [J _]. exists r. auto.
Qed.
Lemma move_proj : forall d st p o, move d st p o -> disj p ->
  (exists p', o = Some (st, p') /\ disj p' /\ (forall x, at_ x p' = at_ x p) /\ load p' < load p) \/
  (exists r rest, at_ (elem r) p = r :: rest /\
     match effect d st r with
     | None => o = None
     | Some (st', rs) => exists p', o = Some (st', p') /\ disj p' /\ at_ (elem r) p' = rs ++ rest /\
         (forall x, x <> elem r -> at_ x p' = at_ x p) /\
         (forall b, r = Turn b b -> rs = [] -> load p' < load p) /\ (forall ev, r = Op ev -> load p' < load p)
     end).
Proof.
  intros d st p o M. induction M as [st ev l Nu|st e l|st base n l|st base l|st bs l|st a p b l o M IH|st ps l F]; intros D.
  - right. exists (Op ev), (filter (on (element_of ev)) (map Op (evs l))). inversion D as [? F| | |]; subst. inversion F as [|? ? _ F']; subst.
    split. { unfold at_. cbn [left elem]. rewrite evs_cons. apply (on_self (Op ev)). }
    assert (Ee : effect d st (Op ev) = match do_event st ev with Some st' => Some (st', []) | None => None end).
    { destruct ev; try reflexivity. destruct (Nu e eq_refl). }
    rewrite Ee. destruct (do_event st ev) as [st'|]; [|reflexivity]. exists (Steps l). split; [reflexivity|]. split; [constructor; exact F'|].
    split; [reflexivity|]. split.
    { intros x Hx. unfold at_. cbn [left]. rewrite evs_cons. symmetry. apply (on_other x (Op ev)). exact Hx. }
    split; [discriminate|]. intros _ _. cbn [load]. rewrite weights_cons. cbn [weight]. lia.
  - right. exists (Op (SlotUnset e)), (filter (on e) (map Op (evs l))). inversion D as [? F| | |]; subst. inversion F as [|? ? _ F']; subst.
    split. { unfold at_. cbn [left]. rewrite evs_cons. apply (on_self (Op (SlotUnset e))). }
    cbn [effect]. exists (Walk e e l). split; [reflexivity|]. split; [constructor; exact F'|]. split.
    { unfold at_. cbn [left]. apply (on_self (Turn e e)). }
    split. { intros x Hx. unfold at_. cbn [left]. rewrite evs_cons. cbn [events app map]. rewrite (on_other x (Op (SlotUnset e))), (on_other x (Turn e e)); [reflexivity|exact Hx|exact Hx]. }
    split; [discriminate|]. intros _ _. cbn [load]. rewrite weights_cons. cbn [weight]. lia.
  - right. exists (Turn base n), (filter (on base) (map Op (evs l))). inversion D as [|? ? ? F| |]; subst.
    split. { unfold at_. cbn [left]. first [apply (on_self (Turn base n))|apply (on_self (Turn base m))|apply (on_self (Idle base))]. }
    cbn [effect]. destruct (unset_turn d base n st) as [[st' [|m|]]|x|]; try reflexivity.
    + exists (Steps l). split; [reflexivity|]. split; [constructor; exact F|]. split; [reflexivity|]. split.
      { intros x Hx. unfold at_. cbn [left]. symmetry. apply (on_other x (Turn base n)). exact Hx. }
      split; [intros; cbn [load]; lia|discriminate].
    + exists (Walk base m l). split; [reflexivity|]. split; [constructor; exact F|].
      split. { unfold at_. cbn [left]. first [apply (on_self (Turn base n))|apply (on_self (Turn base m))|apply (on_self (Idle base))]. }
      split. { intros x Hx. unfold at_. cbn [left]. rewrite (on_other x (Turn base n)) by exact Hx. first [apply (on_other x (Turn base m))|apply (on_other x (Idle base))]; exact Hx. }
      split; [discriminate|discriminate].
    + exists (Spinning base l). split; [reflexivity|]. split; [constructor; exact F|].
      split. { unfold at_. cbn [left]. first [apply (on_self (Turn base n))|apply (on_self (Turn base m))|apply (on_self (Idle base))]. }
      split. { intros x Hx. unfold at_. cbn [left]. rewrite (on_other x (Turn base n)) by exact Hx. first [apply (on_other x (Turn base m))|apply (on_other x (Idle base))]; exact Hx. }
      split; [discriminate|discriminate].
  - right. exists (Idle base), (filter (on base) (map Op (evs l))).
    split. { unfold at_. cbn [left]. first [apply (on_self (Turn base n))|apply (on_self (Turn base m))|apply (on_self (Idle base))]. }
    cbn [effect]. exists (Spinning base l). split; [reflexivity|]. split; [exact D|].
    split. { unfold at_. cbn [left]. first [apply (on_self (Turn base n))|apply (on_self (Turn base m))|apply (on_self (Idle base))]. }
    split; [reflexivity|]. split; discriminate.
  - left. exists (Join (map Steps bs) l). inversion D as [? F| | |]; subst. inversion F as [|? ? Dp F']; subst. inversion Dp as [|? Fb Ap]; subst.
    split; [reflexivity|]. split.
    { constructor; [|apply apart_map; exact Ap|exact F']. apply Forall_map. eapply Forall_impl; [|exact Fb]. intros a H. constructor. exact H. }
    split. { intros x. unfold at_. cbn [left]. rewrite left_steps, evs_cons, map_app. reflexivity. }
    cbn [load]. rewrite weights_cons. cbn [weight]. rewrite map_map.
    assert (map (fun x => load (Steps x)) bs = map (fun b => list_sum (map weight b)) bs) as -> by (apply map_ext; reflexivity). lia.
  - inversion D as [| | |? ? Fp Ap Fl]; subst. apply Forall_app in Fp as [Fa Fp]. inversion Fp as [|? ? Dp Fb]; subst.
    rewrite map_app in Ap. cbn [map] in Ap. destruct (apart_mid _ _ _ _ _ Ap) as [Ap1 Ap2].
    assert (Sp : forall x q, at_ x (Join (a ++ q :: b) l) =
      filter (on x) (flat_map left a) ++ at_ x q ++ filter (on x) (flat_map left b) ++ filter (on x) (map Op (evs l))).
    { intros x q. unfold at_. cbn [left]. rewrite flat_map_app. cbn [flat_map]. rewrite !filter_app, <- !app_assoc. reflexivity. }
    assert (No : forall r, In r (left p) -> filter (on (elem r)) (flat_map left a) = [] /\ filter (on (elem r)) (flat_map left b) = []).
    { intros r Ir. rewrite <- map_app in Ap1. split; apply filter_none; intros y Iy; apply in_flat_map in Iy as (q & Iq & Iy);
        unfold on; (destruct (Nat.eqb_spec (elem y) (elem r)) as [E|_]; [exfalso|reflexivity]);
        apply (Ap1 r (left q) y Ir); auto; apply in_map; apply in_or_app; auto. }
    assert (Re : forall p', disj p' -> (forall y, In y (left p') -> exists x, In x (left p) /\ elem x = elem y) -> disj (Join (a ++ p' :: b) l)).
    { intros p' Dp' Hp'. constructor; [apply Forall_app; split; [exact Fa|constructor; assumption]| |exact Fl].
      rewrite map_app. cbn [map]. apply Ap2. exact Hp'. }
    destruct (IH Dp) as [(p' & -> & Dp' & Sa & Ld)|(r & rest & Er & He)].
    + left. exists (Join (a ++ p' :: b) l). split; [reflexivity|]. split.
      { apply Re; [exact Dp'|]. intros y Iy. exists y. split; [|reflexivity].
        assert (J : In y (at_ (elem y) p)) by (rewrite <- Sa; apply filter_In; split; [exact Iy|apply Nat.eqb_refl]). apply filter_In in J. apply J. }
      split; [intros x; rewrite !Sp, Sa; reflexivity|]. cbn [load]. rewrite !map_app. cbn [map]. rewrite !list_sum_mid. lia.
    + right. destruct (filter_elem _ _ _ _ Er) as [Ir _]. destruct (No r Ir) as [Na Nb].
      exists r, (rest ++ filter (on (elem r)) (map Op (evs l))).
      split. { rewrite Sp, Na, Nb, Er. reflexivity. }
      destruct (effect d st r) as [[st' rs]|]; [|rewrite He; reflexivity].
      destruct He as (p' & -> & Dp' & Ep & Eo & L1 & L2). exists (Join (a ++ p' :: b) l). split; [reflexivity|]. split.
      { apply Re; [exact Dp'|]. apply (fewer p p' (elem r) Eo). rewrite Er. discriminate. }
      split. { rewrite Sp, Na, Nb, Ep. cbn [app]. rewrite <- app_assoc. reflexivity. }
      split; [intros x Hx; rewrite !Sp, (Eo x Hx); reflexivity|].
      split; [intros b0 E1 E2; specialize (L1 b0 E1 E2)|intros ev E1; specialize (L2 ev E1)];
        cbn [load]; rewrite !map_app; cbn [map]; rewrite !list_sum_mid; lia.
  - left. exists (Steps l). inversion D as [| | |? ? Fp Ap Fl]; subst. split; [reflexivity|]. split; [constructor; exact Fl|].
    split. { intros x. unfold at_. cbn [left]. rewrite filter_app. replace (flat_map left ps) with (@nil todo); [reflexivity|].
      clear - F. induction F as [|q ps <- F IH]; [reflexivity|]. cbn [flat_map left evs map app]. exact IH. }
    cbn [load]. lia.
Qed.

(** Threads never wait. *)
Section ProcInd.
Variable P : process -> Prop.
Hypothesis HS : forall l, P (Steps l).
Hypothesis HW : forall b n l, P (Walk b n l).
Hypothesis HP : forall b l, P (Spinning b l).
Hypothesis HJ : forall ps l, Forall P ps -> P (Join ps l).
Fixpoint process_ind' (p : process) : P p :=
  match p with
  | Steps l => HS l
  | Walk b n l => HW b n l
  | Spinning b l => HP b l
  | Join ps l => HJ ps l ((fix go (ps : list process) : Forall P ps := match ps with [] => Forall_nil P | p :: r => Forall_cons p (process_ind' p) (go r) end) ps)
  end.
End ProcInd.
Lemma progress : forall d p, p <> Steps [] -> forall st, exists o, move d st p o.
Proof.
  intros d. apply (process_ind' (fun p => p <> Steps [] -> forall st, exists o, move d st p o)).
  - intros [|[ev|bs] l] N st; [congruence| |eexists; constructor].
    destruct ev; [|eexists; constructor; discriminate|eexists; constructor; discriminate|eexists; apply mv_unset].
    eexists; constructor; discriminate.
  - intros. eexists. constructor.
  - intros. eexists. constructor.
  - intros ps l F _ st.
    assert (Dec : Forall (eq (Steps [])) ps \/ exists a p b, ps = a ++ p :: b /\ p <> Steps []).
    { clear F. induction ps as [|p ps IH]; [left; constructor|].
      assert (E : Steps [] = p \/ p <> Steps []) by (destruct p as [[|? ?]|? ? ?|? ?|? ?]; [left; reflexivity|right; discriminate..]).
      destruct E as [E|E]; [|right; exists [], p, ps; auto].
      destruct IH as [IH|(a & q & b & -> & N)]; [left; constructor; auto|right; exists (p :: a), q, b; auto]. }
    destruct Dec as [Dn|(a & p & b & -> & N)]; [eexists; apply mv_join; exact Dn|].
    apply Forall_app in F as [_ F]. inversion F as [|? ? Hp _]; subst. destruct (Hp N st) as (o & M). eexists. apply mv_branch. exact M.
Qed.

(** ** Elements in their states *)
Inductive kind := KBox | KContents | KNone.
Definition ops (t : nat * kind) : list slot_event :=
  match t with
  | (i, KBox) => [SlotAcquire i; SlotSet i]
  | (i, KContents) => [SlotContents i]
  | (i, KNone) => [SlotUnset i]
  end.
Section Run.
Variable d : document.
Variable kind_of : nat -> option kind.
Variable st0 : storage.
Hypothesis none_sibling : forall e, kind_of e = Some KNone -> e < length (nodes d) /\ next_sibling (node_at d e) <> None /\ is_element (data (node_at d e)).
Definition state_ok (e : nat) (c : cell) (r : list todo) : Prop :=
  match kind_of e with
  | Some KBox => (r = [Op (SlotAcquire e); Op (SlotSet e)] /\ borrowed c = false) \/ r = [Op (SlotSet e)] \/ (r = [] /\ c = mkCell false true)
  | Some KContents => (r = [Op (SlotContents e)] /\ borrowed c = false) \/ (r = [] /\ c = mkCell false true)
  | Some KNone => (r = [Op (SlotUnset e)] \/ r = [Turn e e] \/ r = []) /\ c = mkCell false false
  | None => r = [] /\ c = st0 e
  end.
Definition safe (st : storage) (p : process) : Prop := disj p /\ forall e, state_ok e (st e) (at_ e p).
Lemma update_same : forall st e c, update st e c e = c.
Proof. intros. unfold update. rewrite Nat.eqb_refl. reflexivity. Qed.
Lemma update_other : forall st e c x, x <> e -> update st e c x = st x.
Proof. intros st e c x H. unfold update. destruct (Nat.eqb_spec x e); congruence. Qed.
Lemma safe_move : forall st p o, safe st p -> move d st p o -> exists st' p', o = Some (st', p') /\ safe st' p' /\ load p' < load p.
Proof.
  intros st p o (D & S) M. destruct (move_proj d st p o M D) as [(p' & -> & D' & Sa & L)|(r & rest & Er & He)].
  { exists st, p'. split; [reflexivity|]. split; [|exact L]. split; [exact D'|]. intros e. rewrite Sa. apply S. }
  pose proof (S (elem r)) as Sr. rewrite Er in Sr.
  assert (Go : forall st' rs, effect d st r = Some (st', rs) -> (forall x, x <> elem r -> st' x = st x) -> state_ok (elem r) (st' (elem r)) (rs ++ rest) ->
    (exists b, r = Turn b b /\ rs = []) \/ (exists ev, r = Op ev) ->
    exists st2 p', o = Some (st2, p') /\ safe st2 p' /\ load p' < load p).
  { intros st' rs Ef Ho Hn K. rewrite Ef in He. destruct He as (p' & -> & D' & Ep & Eo & L1 & L2). exists st', p'. split; [reflexivity|].
    split; [|destruct K as [(b & E1 & E2)|(ev & E)]; [exact (L1 b E1 E2)|exact (L2 ev E)]]. split; [exact D'|].
    intros x. destruct (Nat.eq_dec x (elem r)) as [->|N]; [rewrite Ep; exact Hn|]. rewrite (Ho x N), (Eo x N). apply S. }
  unfold state_ok in Sr, Go. destruct (kind_of (elem r)) as [[| |]|] eqn:Ek.
  - destruct Sr as [(E & B)|[E|(E & _)]]; [| |discriminate E].
    + injection E as E1 E2. rewrite E1 in *. cbn [elem element_of] in *.
      apply (Go (update st (elem r) (mkCell true false)) []).
      * cbn [effect do_event]. rewrite B. reflexivity.
      * intros x N. apply update_other. exact N.
      * right. left. exact E2.
      * right. eauto.
    + injection E as E1 E2. rewrite E1 in *. cbn [elem element_of] in *.
      apply (Go (update st (elem r) (mkCell false true)) []).
      * reflexivity.
      * intros x N. apply update_other. exact N.
      * right. right. split; [exact E2|apply update_same].
      * right. eauto.
  - destruct Sr as [(E & B)|(E & _)]; [|discriminate E]. injection E as E1 E2. rewrite E1 in *. cbn [elem element_of] in *.
    apply (Go (update st (elem r) (mkCell false true)) []).
    * cbn [effect do_event]. rewrite B. reflexivity.
    * intros x N. apply update_other. exact N.
    * right. split; [exact E2|apply update_same].
    * right. eauto.
  - destruct Sr as ([E|[E|E]] & C); [| |discriminate E]; injection E as E1 E2; subst rest; rewrite E1 in *; cbn [elem element_of] in *.
    + apply (Go st [Turn (elem r) (elem r)]).
      * reflexivity.
      * reflexivity.
      * auto.
      * right. eauto.
    + destruct (none_sibling _ Ek) as (Bd & Ns & El).
      apply (Go (update st (elem r) (mkCell false false)) []).
      * cbn [effect]. unfold unset_turn, index. rewrite (nth_error_nth' (nodes d) (node_new DDocument) Bd). cbn [bind].
        change (nth (elem r) (nodes d) (node_new DDocument)) with (node_at d (elem r)).
        destruct (data (node_at d (elem r))) eqn:Ed; try destruct El. rewrite C. cbn [borrowed has_box]. unfold find_next.
        destruct (next_sibling (node_at d (elem r))) as [s|]; [|congruence]. rewrite Nat.eqb_refl. cbn [bind]. reflexivity.
      * intros x N. apply update_other. exact N.
      * split; [auto|]. apply update_same.
      * left. eauto.
  - destruct Sr as (E & _). discriminate E.
Qed.
Lemma safe_moves : forall n st p st' p', moves d n st p st' p' -> safe st p -> safe st' p' /\ n + load p' <= load p.
Proof.
  intros n st p st' p' M. induction M as [st p|n st p st1 p1 st2 p2 M IH M1]; intros S; [split; [exact S|lia]|].
  destruct (IH S) as [S1 L]. destruct (safe_move _ _ _ S1 M1) as (st3 & p3 & E & S2 & L2). injection E as <- <-. split; [exact S2|lia].
Qed.
End Run.
