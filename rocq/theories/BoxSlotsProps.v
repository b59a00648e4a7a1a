(** Property C59: the storage of boxes in elements *)
From Coq Require Import QArith Relations Permutation.
From Verif Require Import PdfConvert LayoutProps Base Dom DomSpec DomProofs DomTreeProofs DomWalkProofs DomXml DomXmlSpec DomXmlProofs DomProps FontCmap
  StyleValues StyleProperties StyleCascade StyleSpec StyleProofs StyleElementProofs StyleProps
  LayoutTree Layout LayoutSpec BoxTree BoxTreeSpec BoxTextProofs BoxTreeProofs BoxShapeProofs BoxTreeProps
  BoxSlots BoxSlotsSpec BoxSlotsProofs BoxSlotsTreeProofs.
Local Open Scope nat_scope.
Local Open Scope res_scope.

(** ** From styles to the state of the storage *)
Definition style_kind (s : computed_values) : kind :=
  match get s display_ with DisplayNone => KNone | Contents => KContents | OutsideInside _ _ => KBox end.
Section Doc.
Variable d : document.
Variable style_of : nat -> option computed_values -> result computed_values.
Notation hs := (fun i p s => style_of i (Some p) = Ok s).
Lemma shows_tasks : forall s ts cs, shows d hs s ts cs -> exists l, tasks d style_of s ts l.
Proof.
  intros s ts cs H. induction H as [p|p i ts r t ch out D En H IH|p i ts r out N1 N2 H IH|p i ts r s out El St Di H IH
    |p i ts r s inside out El St Di H1 IH1 H IH|p i ts r s o k inside out El St Di H1 IH1 H IH].
  - exists []. constructor.
  - destruct IH as (l & IH). exists l. constructor; [rewrite D; intros []|exact IH].
  - destruct IH as (l & IH). exists l. constructor; assumption.
  - destruct IH as (l & IH). eexists. eapply tk_none; eauto.
  - destruct IH as (l & IH). destruct IH1 as (l1 & IH1). eexists. eapply tk_contents; eauto.
  - destruct IH as (l & IH). destruct IH1 as (l1 & IH1). eexists. eapply tk_box; eauto.
Qed.
Lemma tasks_ids : forall s ts l, tasks d style_of s ts l -> incl (ids l) (flat_map DomSpec.preorder ts) /\
  (NoDup (flat_map DomSpec.preorder ts) -> NoDup (ids l)).
Proof.
  intros s ts l H. induction H as [p|p i ts r l N H [I1 I2]|p i ts r s l El St Di H [I1 I2]|p i ts r s l l' El St Di H1 [J1 J2] H [I1 I2]|p i ts r s o k l l' El St Di H1 [J1 J2] H [I1 I2]].
  - split; [intros x []|constructor].
  - cbn [flat_map DomSpec.preorder]. split.
    + intros x I. right. apply in_or_app. right. apply I1. exact I.
    + intros N'. cbn [app] in N'. inversion N' as [|? ? _ N2]; subst. apply I2. apply (nodup_parts _ _ _ N2).
  - cbn [flat_map DomSpec.preorder ids map fst app]. split.
    + intros x [<-|I]; [left; reflexivity|]. right. apply in_or_app. right. apply I1. exact I.
    + intros N'. inversion N' as [|? ? Ni N2]; subst. constructor; [|apply I2; apply (nodup_parts _ _ _ N2)].
      intros I. apply Ni. apply in_or_app. right. apply I1. exact I.
  - unfold ids in *. cbn [flat_map DomSpec.preorder map fst app]. rewrite map_app. split.
    + intros x [<-|I]; [left; reflexivity|]. right. apply in_app_or in I as [I|I]; apply in_or_app; [left; apply J1|right; apply I1]; exact I.
    + intros N'. inversion N' as [|? ? Ni N2]; subst. destruct (nodup_parts _ _ _ N2) as [Na Nb]. constructor.
      * intros I. apply Ni. apply in_app_or in I as [I|I]; apply in_or_app; [left; apply J1|right; apply I1]; exact I.
      * apply nodup_app; [auto|auto|]. intros x Ia Ib. exact (nodup_apart _ _ _ x N2 (J1 x Ia) (I1 x Ib)).
  - unfold ids in *. cbn [flat_map DomSpec.preorder map fst app]. rewrite map_app. split.
    + intros x [<-|I]; [left; reflexivity|]. right. apply in_app_or in I as [I|I]; apply in_or_app; [left; apply J1|right; apply I1]; exact I.
    + intros N'. inversion N' as [|? ? Ni N2]; subst. destruct (nodup_parts _ _ _ N2) as [Na Nb]. constructor.
      * intros I. apply Ni. apply in_app_or in I as [I|I]; apply in_or_app; [left; apply J1|right; apply I1]; exact I.
      * apply nodup_app; [auto|auto|]. intros x Ia Ib. exact (nodup_apart _ _ _ x N2 (J1 x Ia) (I1 x Ib)).
Qed.
Lemma met_more : forall p ts ts' e s, incl ts ts' -> met d hs p ts e s -> met d hs p ts' e s.
Proof.
  intros p ts ts' e s I H. destruct H as [i sub s J El St|i sub s e s' J El St Di H].
  - eapply met_here; eauto.
  - eapply met_inside; eauto.
Qed.
Lemma met_cons : forall p i ts r e s, met d hs p (T i ts :: r) e s ->
  (is_element (data (node_at d i)) /\ hs i p s /\ e = i) \/
  (exists t, is_element (data (node_at d i)) /\ hs i p t /\ get t display_ <> DisplayNone /\ met d hs t ts e s) \/ met d hs p r e s.
Proof.
  intros p i ts r e s H. inversion H as [j sub t [E|J] El St|j sub t e' s' [E|J] El St Di H']; subst.
  - injection E as -> ->. left. auto.
  - right. right. eapply met_here; eauto.
  - injection E as -> ->. right. left. exists t. auto.
  - right. right. eapply met_inside; eauto.
Qed.
Lemma tasks_met : forall p ts l, tasks d style_of p ts l ->
  (forall e s, met d hs p ts e s -> In (e, style_kind s) l) /\
  (forall e k, In (e, k) l -> exists s, met d hs p ts e s /\ style_kind s = k).
Proof.
  intros p ts l H.
  induction H as [p|p i ts r l N H [I1 I2]|p i ts r s l El St Di H [I1 I2]|p i ts r s l l' El St Di H1 [J1 J2] H [I1 I2]|p i ts r s o k l l' El St Di H1 [J1 J2] H [I1 I2]].
  - split; [intros e s M; inversion M as [? ? ? []|? ? ? ? ? []]|intros e k []].
  - split.
    + intros e s M. apply met_cons in M as [(A & _)|[(t & A & _)|M]]; [contradiction|contradiction|auto].
    + intros e k J. destruct (I2 e k J) as (s & M & E). exists s. split; [|exact E]. apply (met_more p r); [intros x I; right; exact I|exact M].
  - split.
    + intros e t M. apply met_cons in M as [(_ & A & ->)|[(u & _ & A & B & _)|M]].
      * left. unfold style_kind. assert (t = s) as -> by congruence. rewrite Di. reflexivity.
      * congruence.
      * right. auto.
    + intros e k [E|J].
      * injection E as <- <-. exists s. split; [eapply met_here; eauto; left; reflexivity|]. unfold style_kind. rewrite Di. reflexivity.
      * destruct (I2 e k J) as (t & M & E). exists t. split; [|exact E]. apply (met_more p r); [intros x I; right; exact I|exact M].
  - split.
    + intros e t M. apply met_cons in M as [(_ & A & ->)|[(u & _ & A & B & M)|M]].
      * left. unfold style_kind. assert (t = s) as -> by congruence. rewrite Di. reflexivity.
      * right. apply in_or_app. left. assert (u = s) as -> by congruence. auto.
      * right. apply in_or_app. right. auto.
    + intros e k [E|J]; [|apply in_app_or in J as [J|J]].
      * injection E as <- <-. exists s. split; [eapply met_here; eauto; left; reflexivity|]. unfold style_kind. rewrite Di. reflexivity.
      * destruct (J2 e k J) as (t & M & E). exists t. split; [|exact E]. eapply met_inside; eauto; [left; reflexivity|congruence].
      * destruct (I2 e k J) as (t & M & E). exists t. split; [|exact E]. apply (met_more p r); [intros x I; right; exact I|exact M].
  - split.
    + intros e t M. apply met_cons in M as [(_ & A & ->)|[(u & _ & A & B & M)|M]].
      * left. unfold style_kind. assert (t = s) as -> by congruence. rewrite Di. reflexivity.
      * right. apply in_or_app. left. assert (u = s) as -> by congruence. auto.
      * right. apply in_or_app. right. auto.
    + intros e k' [E|J]; [|apply in_app_or in J as [J|J]].
      * injection E as <- <-. exists s. split; [eapply met_here; eauto; left; reflexivity|]. unfold style_kind. rewrite Di. reflexivity.
      * destruct (J2 e k' J) as (t & M & E). exists t. split; [|exact E]. eapply met_inside; eauto; [left; reflexivity|congruence].
      * destruct (I2 e k' J) as (t & M & E). exists t. split; [|exact E]. apply (met_more p r); [intros x I; right; exact I|exact M].
Qed.
Lemma met_element : forall p ts e s, met d hs p ts e s -> is_element (data (node_at d e)).
Proof. intros p ts e s H. induction H; assumption. Qed.
End Doc.
Fixpoint look_up (l : list (nat * kind)) (e : nat) : option kind :=
  match l with [] => None | (i, k) :: r => if i =? e then Some k else look_up r e end.
Lemma look_up_in : forall l e k, NoDup (ids l) -> (look_up l e = Some k <-> In (e, k) l).
Proof.
  induction l as [|[i j] l IH]; intros e k N; cbn [look_up].
  - split; [discriminate|intros []].
  - unfold ids in N. cbn [map fst] in N. inversion N as [|? ? Ni N']; subst. destruct (Nat.eqb_spec i e) as [->|D].
    + split; [intros E; injection E as <-; left; reflexivity|]. intros [E|I]; [congruence|]. apply (in_map fst) in I. contradiction.
    + rewrite (IH e k N'). split; [right; assumption|]. intros [E|I]; [congruence|exact I].
Qed.
Lemma ops_at : forall l e, NoDup (ids l) -> filter (onto e) (all_ops l) = match look_up l e with Some k => ops (e, k) | None => [] end.
Proof.
  induction l as [|[i k] l IH]; intros e N; [reflexivity|]. unfold ids in N. cbn [map fst] in N. inversion N as [|? ? Ni N']; subst.
  change (all_ops ((i, k) :: l)) with (ops (i, k) ++ all_ops l). rewrite filter_app. cbn [look_up]. destruct (Nat.eqb_spec i e) as [->|D].
  - rewrite (within_none (ids l) (all_ops l) e (ops_within l) Ni), app_nil_r. destruct k; cbn [ops filter]; unfold onto; cbn [element_of]; rewrite !Nat.eqb_refl; reflexivity.
  - rewrite (IH e N'), (within_none [i] (ops (i, k)) e); [reflexivity| |intros [E|[]]; congruence].
    intros ev I. left. destruct k; cbn [ops] in I; repeat destruct I as [<-|I]; try reflexivity; destruct I.
Qed.
Lemma filter_ops : forall l e, filter (on e) (map Op l) = map Op (filter (onto e) l).
Proof.
  induction l as [|ev l IH]; intros e; [reflexivity|]. cbn [map filter]. unfold on at 1, onto at 1. cbn [elem]. rewrite IH. destruct (element_of ev =? e); reflexivity.
Qed.

(** ** C59 *)
(** From storage in which nothing is held and what is not displayed has no box, with every element of
    display none followed by a sibling: in every order of the threads' moves none panics, all come to
    an end after boundedly many moves, and then each displayed element has a box, no other element's
    storage has changed, and nothing is held. *)
Definition all_runs_fine (d : document) (has_style : nat -> computed_values -> computed_values -> Prop) (s : computed_values) (ts : list tree)
    (st0 : storage) (w : list step) : Prop :=
  exists bound, forall n st p, moves d n st0 (Steps w) st p ->
    n <= bound /\ ~ move d st p None /\ (p = Steps [] \/ exists st' p', move d st p (Some (st', p'))) /\
    (p = Steps [] -> at_rest d has_style s ts st /\ all_stored d has_style s ts st0 st).
Theorem C59_storage : forall d kids style_of s e ts cs c f w st0, in_forest d kids -> e < length (nodes d) -> subtree kids (T e ts) ->
  shows d (fun i p s => style_of i (Some p) = Ok s) s ts cs -> construct d style_of (enough_fuel d) s e = Ok (c, f, w) ->
  at_rest d (fun i p s => style_of i (Some p) = Ok s) s ts st0 ->
  (forall i t, met d (fun i p s => style_of i (Some p) = Ok s) s ts i t -> get t display_ = DisplayNone -> next_sibling (node_at d i) <> None) ->
  all_runs_fine d (fun i p s => style_of i (Some p) = Ok s) s ts st0 w.
Proof.
  intros d kids style_of s e ts cs c f w st0 Hf B St Sh E Rest Sib. exists (load (Steps w)).
  destruct (shows_tasks d style_of s ts cs Sh) as (l & Tk). destruct (tasks_ids d style_of s ts l Tk) as [Inc Nd'].
  pose proof (preorder_nodup d kids Hf _ St) as Np. cbn [DomSpec.preorder] in Np. inversion Np as [|? ? _ Np']; subst. specialize (Nd' Np').
  destruct (tasks_met d style_of s ts l Tk) as [M1 M2].
  destruct (proj2 (claims d kids Hf style_of (enough_fuel d)) s e ts l c f w (conj St B) Tk Nd' E) as [Dw Ew].
  assert (Ns : forall i, look_up l i = Some KNone -> i < length (nodes d) /\ next_sibling (node_at d i) <> None /\ is_element (data (node_at d i))).
  { intros i Hi. apply look_up_in in Hi; [|exact Nd']. destruct (M2 i KNone Hi) as (t & Mt & Ek). split; [|split].
    - apply (in_map fst) in Hi. apply Inc in Hi. assert (R : In i (DomSpec.preorder (T e ts))) by (right; exact Hi).
      apply (preorder_reach kids _ St) in R. exact (reach_bound d kids _ i Hf B R).
    - apply (Sib i t Mt). unfold style_kind in Ek. destruct (get t display_); [reflexivity|discriminate Ek|discriminate Ek].
    - apply (met_element _ _ _ _ _ _ Mt). }
  assert (S0 : safe (look_up l) st0 st0 (Steps w)).
  { split; [constructor; exact Dw|]. intros i. unfold at_, state_ok. cbn [left]. rewrite filter_ops, (Ew i), (ops_at l i Nd'). destruct (Rest i) as [Rb Rn].
    destruct (look_up l i) as [[| |]|] eqn:El.
    - left. auto.
    - left. auto.
    - split; [left; reflexivity|]. apply look_up_in in El; [|exact Nd']. destruct (M2 i KNone El) as (t & Mt & Ek).
      assert (Hn : has_box (st0 i) = false) by (apply (Rn t Mt); unfold style_kind in Ek; destruct (get t display_); [reflexivity|discriminate Ek|discriminate Ek]).
      destruct (st0 i) as [x y]. cbn [borrowed has_box] in *. congruence.
    - split; reflexivity. }
  intros n st p Mv. destruct (safe_moves d (look_up l) st0 Ns n _ _ _ _ Mv S0) as [S L]. split; [lia|]. split; [|split].
  - intros M. destruct (safe_move d (look_up l) st0 Ns st p None S M) as (? & ? & X & _). discriminate X.
  - assert (Dp : p = Steps [] \/ p <> Steps []) by (destruct p as [[|? ?]|? ? ?|? ?|? ?]; [left; reflexivity|right; discriminate..]).
    destruct Dp as [Dp|Dp]; [left; exact Dp|right]. destruct (progress d p Dp st) as (o & M).
    destruct (safe_move d (look_up l) st0 Ns st p o S M) as (st' & p' & -> & _). eauto.
  - intros ->. destruct S as [_ S]. assert (S' : forall i, state_ok (look_up l) st0 i (st i) []) by (intros i; exact (S i)). clear S. split.
    + intros i. specialize (S' i). unfold state_ok in S'. split.
      * destruct (look_up l i) as [[| |]|].
        -- destruct S' as [(X & _)|[X|(_ & ->)]]; [discriminate X|discriminate X|reflexivity].
        -- destruct S' as [(X & _)|(_ & ->)]; [discriminate X|reflexivity].
        -- destruct S' as [_ ->]. reflexivity.
        -- destruct S' as [_ ->]. apply Rest.
      * intros t Mt Di. pose proof (M1 i t Mt) as I. unfold style_kind in I. rewrite Di in I. apply look_up_in in I; [|exact Nd']. rewrite I in S'.
        destruct S' as [_ ->]. reflexivity.
    + intros i. specialize (S' i). unfold state_ok in S'. split.
      * intros t Mt Di. pose proof (M1 i t Mt) as I. unfold style_kind in I. apply look_up_in in I; [|exact Nd']. rewrite I in S'.
        destruct (get t display_); [congruence| |].
        -- destruct S' as [(X & _)|(_ & ->)]; [discriminate X|reflexivity].
        -- destruct S' as [(X & _)|[X|(_ & ->)]]; [discriminate X|discriminate X|reflexivity].
      * intros Hn. destruct (look_up l i) as [k|] eqn:El; [|apply S']. pose proof (proj1 (look_up_in l i k Nd') El) as I.
        destruct (M2 i k I) as (t & Mt & Ek). specialize (Hn t Mt). unfold style_kind in Ek. rewrite Hn in Ek. subst k. destruct S' as [_ ->].
        destruct (Rest i) as [Rb Rn]. specialize (Rn t Mt Hn). destruct (st0 i) as [x y]. cbn [borrowed has_box] in *. congruence.
Qed.

(** ** Without a next sibling [unset_boxes_in_subtree] never returns *)
(** Turns of the loop, with anything done to the storage between them *)
Inductive visits (d : document) (base : nat) : nat -> nat -> Prop :=
| vs_here : forall n, visits d base n n
| vs_more : forall n m k st st', visits d base n m -> unset_turn d base m st = Ok (st', At k) -> visits d base n k.
Section Walk.
Variable d : document.
Variable kids : nat -> list nat.
Hypothesis Hf : in_forest d kids.
Definition after (base n : nat) : Prop :=
  exists p a x b y c, kids p = a ++ x :: b ++ y :: c /\ reach kids x base /\ reach kids y n.
Lemma after_apart : forall base n, after base n -> ~ reach kids base n.
Proof.
  intros base n (p & a & x & b & y & c & K & Rx & Ry) R. pose proof (proj1 Hf p) as Nd. rewrite K in Nd.
  apply (siblings_apart d kids p x y n Hf).
  - rewrite K. apply in_or_app. right. left. reflexivity.
  - rewrite K. apply in_or_app. right. right. apply in_or_app. right. left. reflexivity.
  - intros ->. apply nodup_mid in Nd as (_ & Nr & _). apply Nr. apply in_or_app. right. left. reflexivity.
  - eapply rt_trans; [exact Rx|exact R].
  - exact Ry.
Qed.
Lemma sibling_split : forall n s, next_sibling (node_at d n) = Some s -> exists p a c, kids p = a ++ n :: s :: c.
Proof.
  intros n s E. destruct (parent (node_at d n)) as [p|] eqn:Ep.
  - exists p. apply (proj1 (proj2 (proj2 Hf))) in Ep. apply in_split in Ep as (a & r & K). exists a.
    rewrite (proj2 (proj1 (proj2 (proj2 (proj2 Hf))) p a n r K)) in E. destruct r as [|t c]; [discriminate E|]. injection E as ->. exists c. exact K.
  - rewrite (proj2 (proj1 (proj2 (proj2 (proj2 (proj2 Hf)))) n Ep)) in E. discriminate E.
Qed.
Lemma after_sibling : forall base n s, after base n -> next_sibling (node_at d n) = Some s -> after base s.
Proof.
  intros base n s (p & a & x & b & y & c & K & Rx & Ry) E. destruct (sibling_split n s E) as (q & a' & c' & K').
  apply clos_rt_rtn1 in Ry. destruct Ry as [|m z Em R].
  - assert (In y (kids p)) by (rewrite K; apply in_or_app; right; right; apply in_or_app; right; left; reflexivity).
    assert (Ey : next_sibling (node_at d y) = hd_error c).
    { apply (proj1 (proj2 (proj2 (proj2 Hf))) p (a ++ x :: b) y c). rewrite K, <- app_assoc. reflexivity. }
    rewrite E in Ey. destruct c as [|t c]; [discriminate Ey|]. injection Ey as ->.
    exists p, a, x, (b ++ [y]), t, c. split; [rewrite K, <- app_assoc; reflexivity|]. split; [exact Rx|apply rt_refl].
  - exists p, a, x, b, y, c. split; [exact K|]. split; [exact Rx|]. eapply rt_trans; [apply clos_rtn1_rt; exact R|]. apply rt_step.
    assert (m = q) as ->; [|unfold child_of; rewrite K'; apply in_or_app; right; right; left; reflexivity].
    assert (P1 : parent (node_at d z) = Some m) by (apply (proj1 (proj2 (proj2 Hf))); exact Em).
    assert (P2 : parent (node_at d z) = Some q) by (apply (proj1 (proj2 (proj2 Hf))); unfold child_of; rewrite K'; apply in_or_app; right; left; reflexivity).
    congruence.
Qed.
Lemma after_child : forall base n m, after base n -> In m (kids n) -> after base m.
Proof.
  intros base n m (p & a & x & b & y & c & K & Rx & Ry) I. exists p, a, x, b, y, c. split; [exact K|]. split; [exact Rx|].
  eapply rt_trans; [exact Ry|apply rt_step; exact I].
Qed.
Lemma uncle : forall base q s, In base (kids q) -> next_sibling (node_at d q) = Some s -> after base s.
Proof.
  intros base q s I E. destruct (sibling_split q s E) as (p & a & c & K). exists p, a, q, [], s, c. split; [exact K|]. split; [apply rt_step; exact I|apply rt_refl].
Qed.
Lemma after_uncle : forall base n q s, after base n -> In n (kids q) -> next_sibling (node_at d q) = Some s -> after base s.
Proof.
  intros base n q s (p & a & x & b & y & c & K & Rx & Ry) I E. apply clos_rt_rtn1 in Ry. destruct Ry as [|m z Em R].
  - assert (p = q) as <-.
    { assert (P1 : parent (node_at d y) = Some p) by (apply (proj1 (proj2 (proj2 Hf))); unfold child_of; rewrite K; apply in_or_app; right; right; apply in_or_app; right; left; reflexivity).
      apply (proj1 (proj2 (proj2 Hf))) in I. congruence. }
    destruct (sibling_split p s E) as (p' & a' & c' & K'). exists p', a', p, [], s, c'. split; [exact K'|]. split; [|apply rt_refl].
    eapply rt_trans; [|exact Rx]. apply rt_step. unfold child_of. rewrite K. apply in_or_app. right. left. reflexivity.
  - assert (m = q) as ->. { apply (proj1 (proj2 (proj2 Hf))) in Em. apply (proj1 (proj2 (proj2 Hf))) in I. congruence. }
    apply (after_sibling base q s); [|exact E]. exists p, a, x, b, y, c. split; [exact K|]. split; [exact Rx|apply clos_rtn1_rt; exact R].
Qed.
Lemma index_at : forall n nd, index d n = Ok nd -> nd = node_at d n.
Proof.
  intros n nd E. unfold index in E. destruct (nth_error (nodes d) n) as [x|] eqn:Ex; [|discriminate E]. injection E as <-.
  unfold node_at. symmetry. apply nth_error_nth. exact Ex.
Qed.
Lemma turn_after : forall base n st st' t, unset_turn d base n st = Ok (st', t) ->
  after base n \/ (n = base /\ next_sibling (node_at d base) = None /\ has_box (st base) = false) ->
  t <> Return /\ (forall m, t = At m -> after base m).
Proof.
  intros base n st st' t H A. unfold unset_turn in H. destruct (index d n) as [nd|x|] eqn:En; [|destruct x|discriminate H]. cbn [bind] in H.
  pose proof (index_at n nd En). subst nd.
  assert (F : forall t0, find_next d base n (node_at d n) = Ok t0 -> t0 <> Return /\ (forall m, t0 = At m -> after base m)).
  { intros t0 H0. unfold find_next in H0. destruct (next_sibling (node_at d n)) as [s|] eqn:Es.
    - destruct A as [A|(-> & X & _)]; [|congruence]. destruct (Nat.eqb_spec n base) as [->|_].
      { destruct (after_apart _ _ A (rt_refl _ _ _)). }
      injection H0 as <-. split; [discriminate|]. intros m E. injection E as <-. exact (after_sibling _ _ _ A Es).
    - destruct (parent (node_at d n)) as [q|] eqn:Ep; [|discriminate H0]. destruct (index d q) as [qn|x|] eqn:Eq; [|destruct x|discriminate H0]. cbn [bind] in H0.
      pose proof (index_at q qn Eq). subst qn. assert (Iq : In n (kids q)) by (apply (proj1 (proj2 (proj2 Hf))); exact Ep).
      destruct (next_sibling (node_at d q)) as [s|] eqn:Es2; [|injection H0 as <-; split; discriminate].
      assert (Nq : q <> base).
      { intros ->. destruct A as [A|(-> & _)]; [apply (after_apart _ _ A); apply rt_step; exact Iq|].
        apply (below_irrefl d kids base Hf). apply t_step. exact Iq. }
      destruct (Nat.eqb_spec q base) as [X|_]; [contradiction|]. injection H0 as <-. split; [discriminate|]. intros m E. injection E as <-.
      destruct A as [A|(-> & _)]; [exact (after_uncle _ _ _ _ A Iq Es2)|exact (uncle _ _ _ Iq Es2)]. }
  destruct (data (node_at d n)) eqn:Dn;
    try (destruct (find_next d base n (node_at d n)) as [t0|x|] eqn:Ef; [|destruct x|discriminate H]; cbn [bind] in H; injection H as _ <-; exact (F _ eq_refl)).
  destruct (borrowed (st n)); [discriminate H|].
  destruct (has_box (st n)) eqn:Hb;
    [destruct (first_child (node_at d n)) as [ch|] eqn:Ec|]; 
    try (destruct (find_next d base n (node_at d n)) as [t0|x|] eqn:Ef; [|destruct x|discriminate H]; cbn [bind] in H; injection H as _ <-; exact (F _ eq_refl)).
  injection H as _ <-. split; [discriminate|]. intros m E. injection E as <-. destruct A as [A|(-> & _ & X)]; [|congruence].
  apply (after_child _ _ _ A). rewrite (proj1 (proj1 (proj2 Hf) n)) in Ec. destruct (kids n) as [|y l]; [discriminate Ec|]. injection Ec as ->. left. reflexivity.
Qed.
End Walk.
Theorem C59_never_returns : forall d kids base st st1 t, in_forest d kids -> next_sibling (node_at d base) = None -> has_box (st base) = false ->
  unset_turn d base base st = Ok (st1, t) ->
  t <> Return /\ forall m n st2 st3, t = At m -> visits d base m n -> unset_turn d base n st2 <> Ok (st3, Return).
Proof.
  intros d kids base st st1 t Hf Ns Hb H. destruct (turn_after d kids Hf base base st st1 t H (or_intror (conj eq_refl (conj Ns Hb)))) as [N A].
  split; [exact N|]. intros m n st2 st3 -> V. assert (An : after kids base n).
  { induction V as [m|m k j sa sb V IH E]; [apply A; reflexivity|]. destruct (turn_after d kids Hf base k sa sb _ E) as [_ G]; [left; apply IH; assumption|]. apply G. reflexivity. }
  intros E. destruct (turn_after d kids Hf base n st2 st3 Return E (or_introl An)) as [X _]. congruence.
Qed.

(** ** Then construction never ends *)
Section Endless.
Variable d : document.
Variable kids : nat -> list nat.
Hypothesis Hf : in_forest d kids.
Variable base : nat.
Hypothesis last : next_sibling (node_at d base) = None.
Definition stuck (st : storage) (p : process) : Prop :=
  disj p /\ has_box (st base) = false /\
  (at_ base p = [Op (SlotUnset base)] \/ at_ base p = [Turn base base] \/ (exists n, at_ base p = [Turn base n] /\ after kids base n) \/ at_ base p = [Idle base]).
Lemma no_box_turn : forall b n st st' t, unset_turn d b n st = Ok (st', t) -> has_box (st base) = false -> has_box (st' base) = false.
Proof.
  intros b n st st' t H Hb. unfold unset_turn in H. destruct (index d n) as [nd|x|]; [|destruct x|discriminate H]. cbn [bind] in H.
  assert (U : has_box (update st n (mkCell false false) base) = false) by (unfold update; destruct (base =? n); [reflexivity|exact Hb]).
  destruct (data nd);
    try (destruct (find_next d b n nd) as [t0|x|]; [|destruct x|discriminate H]; cbn [bind] in H; injection H as <- _; exact Hb).
  destruct (borrowed (st n)); [discriminate H|]. destruct (has_box (st n)); [destruct (first_child nd) as [ch|]; [injection H as <- _; exact U|]|];
    destruct (find_next d b n nd) as [t0|x|]; try discriminate H; try destruct x; cbn [bind] in H; injection H as <- _; exact U.
Qed.
Lemma no_box_effect : forall st r st' rs, effect d st r = Some (st', rs) -> (elem r = base -> forall ev, r = Op ev -> ev = SlotUnset base) ->
  has_box (st base) = false -> has_box (st' base) = false.
Proof.
  intros st r st' rs H N Hb. destruct r as [ev|b n|b]; cbn [effect] in H.
  - assert (V : forall e c, e <> base -> has_box (update st e c base) = false) by (intros e c D; unfold update; destruct (Nat.eqb_spec base e); [congruence|exact Hb]).
    destruct ev as [e|e|e|e]; cbn [do_event elem element_of] in *; try (destruct (borrowed (st e)); [discriminate H|]); injection H as <- _.
    + apply V. intros E. specialize (N E _ eq_refl). discriminate N.
    + apply V. intros E. specialize (N E _ eq_refl). discriminate N.
    + apply V. intros E. specialize (N E _ eq_refl). discriminate N.
    + exact Hb.
  - destruct (unset_turn d b n st) as [[st1 t]|x|] eqn:E; [|discriminate H..]. pose proof (no_box_turn _ _ _ _ _ E Hb).
    destruct t; injection H as <- _; assumption.
  - injection H as <- _. exact Hb.
Qed.
Lemma stuck_move : forall st p st' p', stuck st p -> move d st p (Some (st', p')) -> stuck st' p'.
Proof.
  intros st p st' p' (D & Hb & S) M. destruct (move_proj d st p _ M D) as [(q & E & Dq & A & _)|(r & rest & Ar & E)].
  { injection E as -> ->. split; [exact Dq|]. split; [exact Hb|]. rewrite A. exact S. }
  destruct (effect d st r) as [[st1 rs]|] eqn:Ee; [|discriminate E]. destruct E as (q & E & Dq & A1 & A2 & _). injection E as <- <-.
  split; [exact Dq|]. destruct (Nat.eq_dec (elem r) base) as [Er|Er].
  - rewrite Er in *. assert (Only : forall x, at_ base p = [x] -> x = r /\ rest = []) by (intros x E; rewrite Ar in E; injection E as -> ->; auto).
    destruct S as [S|[S|[(n & S & An)|S]]]; destruct (Only _ S) as [<- ->]; rewrite app_nil_r in A1.
    + split; [apply (no_box_effect _ _ _ _ Ee); [intros _ ev X; injection X as <-; reflexivity|exact Hb]|]. cbn [effect] in Ee. injection Ee as <- <-. auto.
    + split; [apply (no_box_effect _ _ _ _ Ee); [intros _ ev X; discriminate X|exact Hb]|]. cbn [effect] in Ee.
      destruct (unset_turn d base base st) as [[st2 t]|x|] eqn:Et; [|discriminate Ee..].
      destruct (turn_after d kids Hf _ _ _ _ _ Et (or_intror (conj eq_refl (conj last Hb)))) as [T1 T2].
      destruct t; [congruence|injection Ee as <- <-..]; [right; right; left; eauto|auto].
    + split; [apply (no_box_effect _ _ _ _ Ee); [intros _ ev X; discriminate X|exact Hb]|]. cbn [effect] in Ee.
      destruct (unset_turn d base n st) as [[st2 t]|x|] eqn:Et; [|discriminate Ee..].
      destruct (turn_after d kids Hf _ _ _ _ _ Et (or_introl An)) as [T1 T2].
      destruct t; [congruence|injection Ee as <- <-..]; [right; right; left; eauto|auto].
    + split; [apply (no_box_effect _ _ _ _ Ee); [intros _ ev X; discriminate X|exact Hb]|]. cbn [effect] in Ee. injection Ee as <- <-. auto.
  - split; [apply (no_box_effect _ _ _ _ Ee); [contradiction|exact Hb]|]. rewrite (A2 base); [exact S|congruence].
Qed.
Lemma stuck_moves : forall n st p st' p', moves d n st p st' p' -> stuck st p -> stuck st' p'.
Proof. intros n st p st' p' M S. induction M as [|n st p st1 p1 st2 p2 M IH N]; [exact S|]. exact (stuck_move _ _ _ _ (IH S) N). Qed.
Lemma stuck_on : forall st p, stuck st p -> p <> Steps [].
Proof. intros st p (_ & _ & S) ->. unfold at_ in S. cbn [left evs flat_map map filter] in S. destruct S as [S|[S|[(n & S & _)|S]]]; discriminate S. Qed.
End Endless.
(** An element of display none that is the last child of its parent: no thread order lets construction
    end. *)
Theorem C59_never_ends : forall d kids style_of s e ts cs c f w st0 i t, in_forest d kids -> e < length (nodes d) -> subtree kids (T e ts) ->
  shows d (fun i p s => style_of i (Some p) = Ok s) s ts cs -> construct d style_of (enough_fuel d) s e = Ok (c, f, w) ->
  at_rest d (fun i p s => style_of i (Some p) = Ok s) s ts st0 ->
  met d (fun i p s => style_of i (Some p) = Ok s) s ts i t -> get t display_ = DisplayNone -> next_sibling (node_at d i) = None ->
  forall n st p, moves d n st0 (Steps w) st p -> p <> Steps [].
Proof.
  intros d kids style_of s e ts cs c f w st0 i t Hf B St Sh E Rest Mt Di Ns n st p Mv.
  destruct (shows_tasks d style_of s ts cs Sh) as (l & Tk). destruct (tasks_ids d style_of s ts l Tk) as [Inc Nd'].
  pose proof (preorder_nodup d kids Hf _ St) as Np. cbn [DomSpec.preorder] in Np. inversion Np as [|? ? _ Np']; subst. specialize (Nd' Np').
  destruct (tasks_met d style_of s ts l Tk) as [M1 M2].
  destruct (proj2 (claims d kids Hf style_of (enough_fuel d)) s e ts l c f w (conj St B) Tk Nd' E) as [Dw Ew].
  apply (stuck_on kids i st p). apply (stuck_moves d kids Hf i Ns _ _ _ _ _ Mv). split; [constructor; exact Dw|]. split; [apply (Rest i) with (s := t); assumption|].
  left. unfold at_. cbn [left]. rewrite filter_ops, (Ew i), (ops_at l i Nd').
  pose proof (M1 i t Mt) as I. unfold style_kind in I. rewrite Di in I. apply look_up_in in I; [|exact Nd']. rewrite I. reflexivity.
Qed.
(** All is well exactly if each element of display none that is looked at has a next sibling. *)
Theorem C59_exactly : forall d kids style_of s e ts cs c f w st0, in_forest d kids -> e < length (nodes d) -> subtree kids (T e ts) ->
  shows d (fun i p s => style_of i (Some p) = Ok s) s ts cs -> construct d style_of (enough_fuel d) s e = Ok (c, f, w) ->
  at_rest d (fun i p s => style_of i (Some p) = Ok s) s ts st0 ->
  (all_runs_fine d (fun i p s => style_of i (Some p) = Ok s) s ts st0 w <->
   forall i t, met d (fun i p s => style_of i (Some p) = Ok s) s ts i t -> get t display_ = DisplayNone -> next_sibling (node_at d i) <> None).
Proof.
  intros d kids style_of s e ts cs c f w st0 Hf B St Sh E Rest. split.
  - intros (bound & R) i t Mt Di Ns.
    assert (Go : forall n, exists st p, moves d n st0 (Steps w) st p).
    { induction n as [|n (st & p & IH)]; [exists st0, (Steps w); constructor|]. destruct (R n st p IH) as (_ & _ & [->|(st' & p' & M)] & _).
      - destruct (C59_never_ends _ _ _ _ _ _ _ _ _ _ _ _ _ Hf B St Sh E Rest Mt Di Ns _ _ _ IH eq_refl).
      - exists st', p'. econstructor; eassumption. }
    destruct (Go (S bound)) as (st & p & M). destruct (R _ _ _ M) as (L & _). lia.
  - intros Sib. eapply C59_storage; eassumption.
Qed.

(** ** Documents *)
Section Sheets.
Variable parse_color : parser color.
Variable selector : Type.
Variable specificity : selector -> N.
Variable matches : selector -> document -> nat -> bool.
Variable items_of : bytes -> list StyleCascade.item.
Variable rules_of : bytes -> list (source_rule selector).
Variable user_agent : list (source_rule selector).
Notation style_in ua author d := (style_for_element parse_color selector matches items_of
  (finish selector specificity ua) (finish selector specificity author) d).
Theorem C59_document : forall d root s cs kids ua texts author ts boxes w,
  doc_forest d kids -> add_stylesheets parse_color selector [] [user_agent] = Ok ua ->
  stylesheets d = Ok texts -> add_stylesheets parse_color selector [] (map rules_of texts) = Ok author ->
  root_element d = Ok root -> style_in ua author d root None = Ok s -> get s display_ <> DisplayNone ->
  subtree kids (T root ts) -> shows d (fun i p s => style_in ua author d i (Some p) = Ok s) s ts cs ->
  box_tree_root_construct parse_color selector specificity matches items_of rules_of user_agent d = Ok (boxes, w) ->
  (all_runs_fine d (fun i p s => style_in ua author d i (Some p) = Ok s) s ts empty_storage w <->
   forall i t, met d (fun i p s => style_in ua author d i (Some p) = Ok s) s ts i t -> get t display_ = DisplayNone ->
     next_sibling (node_at d i) <> None).
Proof.
  intros d root s cs kids ua texts author ts boxes w (Hf & _) Eu Et Ea Er Es Ds St Sh E.
  assert (B : root < length (nodes d)).
  { unfold style_for_element in Es. destruct (index d root) as [nd|e|] eqn:Ei; [|destruct e|discriminate Es]. unfold index in Ei.
    destruct (nth_error (nodes d) root) eqn:En; [|discriminate Ei]. apply nth_error_Some. congruence. }
  unfold box_tree_root_construct, user_agent_stylesheet, parse_stylesheets in E. cbn [add_stylesheets] in Eu.
  destruct (add_stylesheet parse_color selector [] user_agent) as [x|e|]; [|destruct e|discriminate Eu]. cbn [bind] in *. injection Eu as ->.
  rewrite Et in E. cbn [bind] in E. rewrite Ea in E. cbn [bind] in E. rewrite Er in E. cbn [bind] in E. rewrite Es in E. cbn [bind] in E.
  unfold construct_for_root_element in E.
  assert (P : forall X : result (bool * list block_level_box * list step), match get s display_ with DisplayNone => Ok (false, [], []) | _ => X end = X) by
    (intros X; destruct (get s display_); congruence).
  rewrite P in E. unfold bfc_construct in E.
  destruct (construct d (style_in ua author d) (enough_fuel d) s root) as [[[c f] w']|x|] eqn:Ec; [|destruct x|discriminate E]. cbn [bind] in E.
  assert (w' = w) as ->. { destruct (is_absolutely_positioned _); [|destruct (is_floating _)]; cbn [bind] in E; injection E as _ <-; reflexivity. }
  eapply C59_exactly; try eassumption. intros x. split; reflexivity.
Qed.
End Sheets.

(** ** Examples *)
(** The elements of display none that are looked at, computed *)
Fixpoint hidden (d : document) (style_of : nat -> option computed_values -> result computed_values) (t : tree) (p : computed_values) : list nat :=
  let (i, ts) := t in
  match style_of i (Some p) with
  | Ok s => match get s display_ with DisplayNone => [i] | _ => flat_map (fun t => hidden d style_of t s) ts end
  | _ => []
  end.
Lemma hidden_met : forall d style_of p ts i t, met d (fun i p s => style_of i (Some p) = Ok s) p ts i t -> get t display_ = DisplayNone ->
  In i (flat_map (fun t => hidden d style_of t p) ts).
Proof.
  intros d style_of p ts i t H Di. induction H as [p ts i sub s I El St|p ts i sub s e s' I El St D H IH].
  - apply in_flat_map. exists (T i sub). split; [exact I|]. cbn [hidden]. rewrite St, Di. left. reflexivity.
  - apply in_flat_map. exists (T i sub). split; [exact I|]. cbn [hidden]. rewrite St. specialize (IH Di). destruct (get s display_); [congruence|exact IH|exact IH].
Qed.
Definition siblings_test (l : list DomXmlSpec.item) : bool :=
  forallb (fun i => match next_sibling (node_at (xml_doc l) i) with Some _ => true | None => false end)
    (flat_map (fun t => hidden (xml_doc l) (box_style (xml_doc l)) t (root_style (xml_doc l))) (xml_trees l)).
Lemma xml_built : forall l, xml_test l = true ->
  exists kids, doc_forest (xml_doc l) kids /\ 2 < length (nodes (xml_doc l)) /\ subtree kids (T 2 (xml_trees l)) /\
    shows (xml_doc l) (fun i p s => box_style (xml_doc l) i (Some p) = Ok s) (root_style (xml_doc l)) (xml_trees l) (xml_shows l).
Proof.
  intros l H. pose proof H as H'. unfold xml_test in H. rewrite !Bool.andb_true_iff in H. destruct H as ((((H1 & H2) & H3) & H4) & H5).
  destruct (C26_xml_mirrors_events l) as (d & kids & E & F & St & _).
  assert (Ed : xml_doc l = d) by (unfold xml_doc; rewrite E; reflexivity).
  exists kids. rewrite Ed. unfold xml_shows, root_style in *. unfold xml_trees in *. rewrite Ed in *.
  destruct (DomXmlSpec.numbered document_node_id (XT DDocument (content_of l))) as [i [|[[|[|[|?]]] ts] [|? ?]]]; try discriminate H1.
  inversion St as [? ? K Fs]; subst i ts0. inversion Fs as [|? ? St2 _]; subst. split; [exact F|]. split.
  { match type of K with kids ?q = _ => apply (child_bounds _ kids q 2 (proj1 F)) end. rewrite K. left. reflexivity. }
  split; [exact St2|].
  destruct (show_list (xml_doc l) (box_style (xml_doc l)) _ ts) as [cs|] eqn:E5; [|discriminate H5]. exact (show_list_sound _ _ _ _ _ E5).
Qed.
(** All hypotheses hold of the document of C54; a run of it fills the storage. *)
Definition run_fine (l : list DomXmlSpec.item) : Prop :=
  match construct (xml_doc l) (box_style (xml_doc l)) (enough_fuel (xml_doc l)) (root_style (xml_doc l)) 2 with
  | Ok (_, _, w) => all_runs_fine (xml_doc l) (fun i p s => box_style (xml_doc l) i (Some p) = Ok s) (root_style (xml_doc l)) (xml_trees l) empty_storage w
  | _ => False
  end.
Example C59_example : run_fine box_items /\
  flat_map (fun t => hidden (xml_doc box_items) (box_style (xml_doc box_items)) t (root_style (xml_doc box_items))) (xml_trees box_items) <> [].
Proof.
  split.
  - destruct (xml_built _ box_test) as (kids & F & B & St & Sh). unfold run_fine.
    assert (T : match construct (xml_doc box_items) (box_style (xml_doc box_items)) (enough_fuel (xml_doc box_items)) (root_style (xml_doc box_items)) 2 with
      | Ok _ => true | _ => false end = true) by (vm_compute; reflexivity).
    destruct (construct _ _ _ _ _) as [[[c f] w]|x|] eqn:E; [|discriminate T..]. 
    apply (C59_storage (xml_doc box_items) kids _ _ 2 _ (xml_shows box_items) c f w empty_storage (proj1 F) B St Sh E).
    + intros x. split; reflexivity.
    + intros i t M D. apply hidden_met in M; [|exact D]. assert (S : siblings_test box_items = true) by (vm_compute; reflexivity).
      unfold siblings_test in S. rewrite forallb_forall in S. specialize (S i M). destruct (next_sibling _); [discriminate|discriminate S].
  - assert (T : match flat_map (fun t => hidden (xml_doc box_items) (box_style (xml_doc box_items)) t (root_style (xml_doc box_items))) (xml_trees box_items) with
      | [] => false | _ => true end = true) by (vm_compute; reflexivity).
    destruct (flat_map _ _); [discriminate T|discriminate].
Qed.

(** *** An element of display none at the end: [<div><n/></div>] is displayed and can be built, but
    construction does not end. *)
Definition last_items : list DomXmlSpec.item := [el "div" [el "n" []]].
Theorem C59_ends_refuted : exists d root s cs boxes w,
  displays ex_color ex_selector snd ex_matches no_items no_rules box_ua d root s cs /\ build_root d = Ok (boxes, w) /\
  forall n st p, moves d n empty_storage (Steps w) st p -> p <> Steps [].
Proof.
  assert (Te : xml_test last_items = true) by (vm_compute; reflexivity). destruct (xml_built _ Te) as (kids & F & B & St & Sh).
  assert (T : match build_root (xml_doc last_items) with Ok (_, w) => w = [Ev (SlotUnset 3); Par []] | _ => False end) by (vm_compute; reflexivity).
  destruct (build_root (xml_doc last_items)) as [[boxes w]|x|] eqn:E; [|destruct T..]. subst w.
  assert (T : match construct (xml_doc last_items) (box_style (xml_doc last_items)) (enough_fuel (xml_doc last_items)) (root_style (xml_doc last_items)) 2 with
    | Ok (_, _, w) => w = [Ev (SlotUnset 3); Par []] | _ => False end) by (vm_compute; reflexivity).
  destruct (construct _ _ _ _ _) as [[[c f] w]|x|] eqn:Ec; [|destruct T..]. subst w.
  assert (T : match box_style (xml_doc last_items) 3 (Some (root_style (xml_doc last_items))) with Ok t => get t display_ = DisplayNone | _ => False end) by (vm_compute; reflexivity).
  destruct (box_style (xml_doc last_items) 3 (Some (root_style (xml_doc last_items)))) as [t|x|] eqn:Es; [|destruct T..].
  do 6 eexists. split; [exact (proj1 (xml_displays _ Te))|]. split; [exact E|].
  apply (C59_never_ends (xml_doc last_items) kids (box_style (xml_doc last_items)) _ 2 _ _ _ _ _ empty_storage 3 t (proj1 F) B St Sh Ec).
  - intros x. split; reflexivity.
  - eapply (met_here _ _ _ _ 3 []); [vm_compute; left; reflexivity|vm_compute; exact I|exact Es].
  - exact T.
  - vm_compute. reflexivity.
Qed.
Example C59_never_returns_example : exists st,
  unset_turn (xml_doc last_items) 3 3 empty_storage = Ok (st, Spin) /\ next_sibling (node_at (xml_doc last_items) 3) = None.
Proof. eexists. split; vm_compute; reflexivity. Qed.

(** *** The outcome depends on the order of the threads: [<div><p><n/></p><p/></div>].  In one order
    [borrow_mut] panics; in another the second [p] loses its box. *)
Definition race_items : list DomXmlSpec.item := [el "div" [el "p" [el "n" []]; el "p" []]].
Definition race_steps : list step :=
  [Ev (SlotAcquire 3); Ev (SlotAcquire 5); Par [[Ev (SlotUnset 4); Par []; Ev (SlotSet 3)]; [Par []; Ev (SlotSet 5)]]].
Definition race_1 : storage := update (update empty_storage 3 (mkCell true false)) 5 (mkCell true false).
Definition race_2 : storage := update race_1 5 (mkCell false true).
Lemma branch_turn : forall d st base n l b r o, unset_turn d base n st = o ->
  move d st (Join (Walk base n l :: b) r)
    match o with
    | Ok (st', Return) => Some (st', Join (Steps l :: b) r)
    | Ok (st', At m) => Some (st', Join (Walk base m l :: b) r)
    | Ok (st', Spin) => Some (st', Join (Spinning base l :: b) r)
    | _ => None
    end.
Proof.
  intros d st base n l b r o E. pose proof (mv_branch d st [] _ b r _ (mv_turn d st base n l)) as M. rewrite E in M.
  destruct o as [[st' [|m|]]|x|]; exact M.
Qed.
Lemma race_runs : forall d,
  unset_turn d 4 4 race_1 = Ok (update race_1 4 (mkCell false false), At 5) ->
  unset_turn d 4 5 (update race_1 4 (mkCell false false)) = Panic ->
  unset_turn d 4 4 race_2 = Ok (update race_2 4 (mkCell false false), At 5) ->
  unset_turn d 4 5 (update race_2 4 (mkCell false false)) = Ok (update (update race_2 4 (mkCell false false)) 5 (mkCell false false), Spin) ->
  (exists n st p, moves d n empty_storage (Steps race_steps) st p /\ move d st p None) /\
  (exists n st p n' st' p', moves d n empty_storage (Steps race_steps) st p /\ has_box (st 5) = true /\ at_ 5 p = [] /\
     moves d n' st p st' p' /\ has_box (st' 5) = false /\ at_ 5 p' = []).
Proof.
  intros d U1 U2 U3 U4.
  assert (M1 : moves d 3 empty_storage (Steps race_steps) race_1 (Join [Steps [Ev (SlotUnset 4); Par []; Ev (SlotSet 3)]; Steps [Par []; Ev (SlotSet 5)]] [])).
  { eapply ms_more; [eapply ms_more; [eapply ms_more; [apply ms_none|]|]|].
    - refine (mv_event d empty_storage (SlotAcquire 3) _ _). discriminate.
    - refine (mv_event d (update empty_storage 3 (mkCell true false)) (SlotAcquire 5) _ _). discriminate.
    - apply mv_fork. }
  split.
  - exists 5. do 2 eexists. split.
    + eapply ms_more; [eapply ms_more; [exact M1|]|].
      * refine (mv_branch d race_1 [] _ _ _ _ (mv_unset d race_1 4 _)).
      * exact (branch_turn _ _ _ _ _ _ _ _ U1).
    + exact (branch_turn _ _ _ _ _ _ _ _ U2).
  - exists 6, race_2, (Join [Steps [Ev (SlotUnset 4); Par []; Ev (SlotSet 3)]; Steps []] []), 3. do 2 eexists. split; [|split; [reflexivity|split; [reflexivity|split]]].
    + eapply ms_more; [eapply ms_more; [eapply ms_more; [exact M1|]|]|].
      * refine (mv_branch d race_1 [_] _ [] _ _ (mv_fork d race_1 [] [Ev (SlotSet 5)])).
      * refine (mv_branch d race_1 [_] _ [] _ _ (mv_join d race_1 [] [Ev (SlotSet 5)] _)). constructor.
      * refine (mv_branch d race_1 [_] _ [] _ _ (mv_event d race_1 (SlotSet 5) [] _)). discriminate.
    + eapply ms_more; [eapply ms_more; [eapply ms_more; [apply ms_none|]|]|].
      * refine (mv_branch d race_2 [] _ _ _ _ (mv_unset d race_2 4 _)).
      * exact (branch_turn _ _ _ _ _ _ _ _ U3).
      * exact (branch_turn _ _ _ _ _ _ _ _ U4).
    + split; reflexivity.
Qed.
Theorem C59_schedule_refuted : exists d root s cs boxes w e,
  displays ex_color ex_selector snd ex_matches no_items no_rules box_ua d root s cs /\ build_root d = Ok (boxes, w) /\
  (exists n st p, moves d n empty_storage (Steps w) st p /\ move d st p None) /\
  (exists n st p n' st' p', moves d n empty_storage (Steps w) st p /\ has_box (st e) = true /\ at_ e p = [] /\
     moves d n' st p st' p' /\ has_box (st' e) = false /\ at_ e p' = []).
Proof.
  assert (Te : xml_test race_items = true) by (vm_compute; reflexivity).
  assert (T : match build_root (xml_doc race_items) with Ok (_, w) => w = race_steps | _ => False end) by (vm_compute; reflexivity).
  assert (U : unset_turn (xml_doc race_items) 4 4 race_1 = Ok (update race_1 4 (mkCell false false), At 5)) by (vm_compute; reflexivity).
  assert (U2 : unset_turn (xml_doc race_items) 4 5 (update race_1 4 (mkCell false false)) = Panic) by (vm_compute; reflexivity).
  assert (U3 : unset_turn (xml_doc race_items) 4 4 race_2 = Ok (update race_2 4 (mkCell false false), At 5)) by (vm_compute; reflexivity).
  assert (U4 : unset_turn (xml_doc race_items) 4 5 (update race_2 4 (mkCell false false)) =
    Ok (update (update race_2 4 (mkCell false false)) 5 (mkCell false false), Spin)) by (vm_compute; reflexivity).
  destruct (build_root (xml_doc race_items)) as [[boxes w]|x|] eqn:E; [|destruct T..]. subst w.
  exists (xml_doc race_items), 2, (root_style (xml_doc race_items)), (xml_shows race_items), boxes, race_steps, 5.
  split; [exact (proj1 (xml_displays _ Te))|]. split; [exact E|]. exact (race_runs _ U U2 U3 U4).
Qed.

Print Assumptions C59_storage.
Print Assumptions C59_never_returns.
Print Assumptions C59_never_ends.
Print Assumptions C59_exactly.
Print Assumptions C59_document.
Print Assumptions C59_ends_refuted.
Print Assumptions C59_schedule_refuted.
