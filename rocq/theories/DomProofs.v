(** The tree operations keep the links an ordered forest. *)
From Verif Require Import Base Dom DomSpec.
From Coq Require Import Relations.
Local Open Scope res_scope.

(** ** Pure link functions *)
Definition is (o : option nat) (j : nat) : bool := match o with Some x => j =? x | None => false end.
Definition nil_ {A} (l : list A) : bool := match l with [] => true | _ => false end.
Record linked (P V X F L : nat -> option nat) (kids : nat -> list nat) : Prop := mkLinked {
  lk_nodup : forall p, NoDup (kids p);
  lk_first : forall p, F p = hd_error (kids p);
  lk_last : forall p, L p = hd_error (rev (kids p));
  lk_parent : forall p c, In c (kids p) <-> P c = Some p;
  lk_sibs : forall p l c r, kids p = l ++ c :: r -> V c = hd_error (rev l) /\ X c = hd_error r;
  lk_none : forall c, P c = None -> V c = None /\ X c = None }.

Lemma is_true : forall o j, is o j = true <-> o = Some j.
Proof.
  intros [x|] j; cbn; [rewrite Nat.eqb_eq|]; split; intro H; try discriminate; try congruence.
Qed.
Lemma is_false : forall o j, o <> Some j -> is o j = false.
Proof. intros o j H. destruct (is o j) eqn:E; auto. apply is_true in E. contradiction. Qed.
Lemma hd_app : forall A (a b : list A), hd_error (a ++ b) = match a with [] => hd_error b | x :: _ => Some x end.
Proof. intros A [|x a] b; reflexivity. Qed.
Lemma hd_in : forall A (l : list A) x, hd_error l = Some x -> In x l.
Proof. intros A [|y l] x H; [discriminate|]. injection H as ->. left; auto. Qed.
Lemma hd_rev_in : forall A (l : list A) x, hd_error (rev l) = Some x -> In x l.
Proof. intros. apply in_rev. apply hd_in. auto. Qed.
Lemma app_split : forall A (l r a b : list A) i, l ++ r = a ++ i :: b ->
  (exists k, l = a ++ i :: k /\ b = k ++ r) \/ (exists k, a = l ++ k /\ r = k ++ i :: b).
Proof.
  induction l as [|x l IH]; intros r a b i H; cbn [app] in H.
  - right. exists a. auto.
  - destruct a as [|y a]; cbn [app] in H; injection H as -> H.
    + left. exists l. auto.
    + destruct (IH _ _ _ _ H) as [(k & -> & ->)|(k & -> & ->)]; [left|right]; exists k; auto.
Qed.
Lemma nodup_mid : forall A (l r : list A) x, NoDup (l ++ x :: r) -> ~ In x l /\ ~ In x r /\ NoDup (l ++ r) /\
  (forall y, In y l -> In y r -> False).
Proof.
  intros A l r x H. pose proof (NoDup_remove_1 _ _ _ H) as H1. pose proof (NoDup_remove_2 _ _ _ H) as H2.
  rewrite in_app_iff in H2. split; [tauto|]. split; [tauto|]. split; [auto|].
  clear H H2. induction l as [|z l IH]; intros y Hl Hr; [contradiction|]. cbn [app] in H1. inversion H1; subst.
  destruct Hl as [->|Hl]; [apply H2; apply in_or_app; auto|eauto].
Qed.
Lemma nodup_insert : forall A (l r : list A) x, NoDup (l ++ r) -> ~ In x (l ++ r) -> NoDup (l ++ x :: r).
Proof.
  induction l as [|y l IH]; intros r x H N; cbn [app] in *; [constructor; auto|]. inversion H; subst.
  constructor; [|apply IH; auto; intro; apply N; right; auto].
  rewrite in_app_iff in *. cbn [In] in *. rewrite in_app_iff in N. intuition congruence.
Qed.

Lemma last_in_tail : forall A (a k : list A) i j, k <> [] -> hd_error (rev (a ++ i :: k)) = Some j -> In j k.
Proof.
  intros A a k i j N H. destruct (exists_last N) as (k' & x & ->). rewrite rev_app_distr in H. cbn [rev] in H.
  rewrite rev_app_distr in H. cbn in H. injection H as ->. apply in_or_app. right. left. auto.
Qed.

Ltac falsify := rewrite is_false by (intro; subst; tauto).

Lemma linked_detach : forall P V X F L kids P' V' X' F' L' kids' c p l r,
  linked P V X F L kids -> kids p = l ++ c :: r ->
  (forall j, P' j = if j =? c then None else P j) ->
  (forall j, V' j = if is (hd_error r) j then hd_error (rev l) else if j =? c then None else V j) ->
  (forall j, X' j = if is (hd_error (rev l)) j then hd_error r else if j =? c then None else X j) ->
  (forall j, L' j = if nil_ r && (j =? p) then hd_error (rev l) else L j) ->
  (forall j, F' j = if nil_ l && (j =? p) then hd_error r else F j) ->
  (forall q, kids' q = if q =? p then l ++ r else kids q) ->
  linked P' V' X' F' L' kids'.
Proof.
  intros P V X F L kids P' V' X' F' L' kids' c p l r K Kp HP HV HX HL HF HK.
  destruct K as [Knd Kf Kl Kpar Ks Kn].
  pose proof (Knd p) as Nd. rewrite Kp in Nd. destruct (nodup_mid _ _ _ _ Nd) as (Nl & Nr & Nlr & Disj).
  assert (Pc : P c = Some p) by (apply Kpar; rewrite Kp; apply in_or_app; right; left; auto).
  assert (Pl : forall y, In y l -> P y = Some p) by (intros; apply Kpar; rewrite Kp; apply in_or_app; auto).
  assert (Pr : forall y, In y r -> P y = Some p) by (intros; apply Kpar; rewrite Kp; apply in_or_app; right; right; auto).
  constructor.
  - intro q. rewrite HK. destruct (Nat.eqb_spec q p); auto.
  - intro q. rewrite HF, HK. destruct (Nat.eqb_spec q p) as [->|]; [|rewrite andb_false_r; auto].
    rewrite andb_true_r, Kf, Kp. destruct l; reflexivity.
  - intro q. rewrite HL, HK. destruct (Nat.eqb_spec q p) as [->|]; [|rewrite andb_false_r; auto].
    rewrite andb_true_r, Kl, Kp. destruct r; [rewrite app_nil_r; auto|].
    cbn [nil_]. rewrite !rev_app_distr. cbn [rev]. rewrite !hd_app. destruct (rev r); reflexivity.
  - intros q i. rewrite HK, HP. destruct (Nat.eqb_spec i c) as [->|Ni].
    + split; [|discriminate]. destruct (Nat.eqb_spec q p) as [->|].
      * rewrite in_app_iff. tauto.
      * intro H. apply Kpar in H. congruence.
    + rewrite <- Kpar. destruct (Nat.eqb_spec q p) as [->|]; [|reflexivity].
      rewrite Kp, !in_app_iff. cbn [In]. intuition congruence.
  - intros q a i b. rewrite HK, HV, HX. destruct (Nat.eqb_spec q p) as [->|Nq]; intro E.
    + assert (Ic : i <> c).
      { intros ->. assert (In c (l ++ r)) by (rewrite E; apply in_or_app; right; left; auto).
        rewrite in_app_iff in H. tauto. }
      destruct (Nat.eqb_spec i c); [contradiction|].
      destruct (app_split _ _ _ _ _ _ E) as [(k & -> & ->)|(k & -> & ->)].
      * assert (Il : In i (a ++ i :: k)) by (apply in_or_app; right; left; auto).
        rewrite is_false by (intro H; apply hd_in in H; eauto).
        destruct (Ks p a i (k ++ c :: r)) as [K1 K2]; [rewrite Kp, <- app_assoc; reflexivity|].
        split; [auto|]. destruct k as [|k0 k].
        -- rewrite rev_app_distr. cbn. rewrite Nat.eqb_refl. reflexivity.
        -- rewrite is_false; [rewrite K2; reflexivity|].
           intro H. apply last_in_tail in H; [|discriminate].
           rewrite <- app_assoc in Nlr. cbn [app] in Nlr. apply nodup_mid in Nlr as (_ & N' & _).
           apply N'. rewrite app_comm_cons, in_app_iff. tauto.
      * assert (Ir : In i (k ++ i :: b)) by (apply in_or_app; right; left; auto).
        rewrite (is_false (hd_error (rev l))) by (intro H; apply hd_rev_in in H; eauto).
        destruct (Ks p (l ++ c :: k) i b) as [K1 K2]; [rewrite Kp, <- app_assoc; reflexivity|].
        split; [|auto]. rewrite !rev_app_distr. destruct k as [|k0 k].
        -- cbn. rewrite Nat.eqb_refl. reflexivity.
        -- rewrite is_false.
           ++ rewrite K1, rev_app_distr. cbn [rev]. rewrite <- !app_assoc, !hd_app.
              destruct (rev k); reflexivity.
           ++ cbn. intro H. injection H as ->. apply (nodup_mid _ l (k ++ i :: b) i) in Nlr.
              rewrite in_app_iff in Nlr. cbn [In] in Nlr. tauto.
    + assert (Pi : P i = Some q) by (apply Kpar; rewrite E; apply in_or_app; right; left; auto).
      destruct (Ks q a i b E) as [K1 K2].
      rewrite is_false by (intro H; apply hd_in, Pr in H; congruence).
      rewrite is_false by (intro H; apply hd_rev_in, Pl in H; congruence).
      destruct (Nat.eqb_spec i c) as [->|]; [congruence|]. auto.
  - intros i. rewrite HP, HV, HX. destruct (Nat.eqb_spec i c) as [->|Ni]; intro H.
    + rewrite is_false by (intro E; apply hd_in in E; tauto).
      rewrite is_false by (intro E; apply hd_rev_in in E; tauto). auto.
    + rewrite is_false by (intro E; apply hd_in, Pr in E; congruence).
      rewrite is_false by (intro E; apply hd_rev_in, Pl in E; congruence). auto.
Qed.

Lemma linked_insert : forall P V X F L kids P' V' X' F' L' kids' c p l r,
  linked P V X F L kids -> kids p = l ++ r -> P c = None ->
  (forall j, P' j = if j =? c then Some p else P j) ->
  (forall j, V' j = if j =? c then hd_error (rev l) else if is (hd_error r) j then Some c else V j) ->
  (forall j, X' j = if j =? c then hd_error r else if is (hd_error (rev l)) j then Some c else X j) ->
  (forall j, L' j = if nil_ r && (j =? p) then Some c else L j) ->
  (forall j, F' j = if nil_ l && (j =? p) then Some c else F j) ->
  (forall q, kids' q = if q =? p then l ++ c :: r else kids q) ->
  linked P' V' X' F' L' kids'.
Proof.
  intros P V X F L kids P' V' X' F' L' kids' c p l r K Kp Pc HP HV HX HL HF HK.
  destruct K as [Knd Kf Kl Kpar Ks Kn].
  pose proof (Knd p) as Nd. rewrite Kp in Nd.
  assert (Nc : forall q, ~ In c (kids q)) by (intros q H; apply Kpar in H; congruence).
  assert (Ncp : ~ In c (l ++ r)) by (rewrite <- Kp; auto).
  assert (Pl : forall y, In y l -> P y = Some p) by (intros; apply Kpar; rewrite Kp; apply in_or_app; auto).
  assert (Pr : forall y, In y r -> P y = Some p) by (intros; apply Kpar; rewrite Kp; apply in_or_app; auto).
  pose proof (nodup_insert _ _ _ _ Nd Ncp) as Nd'.
  constructor.
  - intro q. rewrite HK. destruct (Nat.eqb_spec q p); auto.
  - intro q. rewrite HF, HK. destruct (Nat.eqb_spec q p) as [->|]; [|rewrite andb_false_r; auto].
    rewrite andb_true_r, Kf, Kp. destruct l; reflexivity.
  - intro q. rewrite HL, HK. destruct (Nat.eqb_spec q p) as [->|]; [|rewrite andb_false_r; auto].
    rewrite andb_true_r, Kl, Kp. rewrite !rev_app_distr. cbn [rev]. destruct r; [reflexivity|].
    cbn [nil_ rev]. rewrite !hd_app. destruct (rev r); reflexivity.
  - intros q i. rewrite HK, HP. destruct (Nat.eqb_spec i c) as [->|Ni].
    + destruct (Nat.eqb_spec q p) as [->|].
      * split; [auto|]. intros _. apply in_or_app. right. left. auto.
      * split; intro H; [destruct (Nc q H)|congruence].
    + rewrite <- Kpar. destruct (Nat.eqb_spec q p) as [->|]; [|reflexivity].
      rewrite Kp, !in_app_iff. cbn [In]. intuition congruence.
  - intros q a i b. rewrite HK, HV, HX. destruct (Nat.eqb_spec q p) as [->|Nq]; intro E.
    + destruct (nodup_mid _ _ _ _ Nd') as (Nl & Nr & _ & Disj).
      destruct (Nat.eqb_spec i c) as [->|Ic].
      * assert (a = l /\ b = r) as [-> ->].
        { destruct (app_split _ _ _ _ _ _ E) as [(k & -> & ->)|(k & -> & Ek)].
          - exfalso. apply Nl. apply in_or_app. right. left. auto.
          - destruct k as [|k0 k]; cbn [app] in Ek.
            + rewrite app_nil_r. injection Ek as ->. auto.
            + injection Ek as <- ->. exfalso. apply Nr. apply in_or_app. right. left. auto. }
        auto.
      * destruct (app_split _ _ _ _ _ _ E) as [(k & -> & ->)|(k & -> & Ek)].
        -- assert (Il : In i (a ++ i :: k)) by (apply in_or_app; right; left; auto).
           rewrite (is_false (hd_error r)) by (intro H; apply hd_in in H; eauto).
           destruct (Ks p a i (k ++ r)) as [K1 K2]; [rewrite Kp, <- app_assoc; reflexivity|].
           split; [auto|]. destruct k as [|k0 k].
           ++ rewrite rev_app_distr. cbn. rewrite Nat.eqb_refl. reflexivity.
           ++ rewrite is_false; [rewrite K2; reflexivity|].
              intro H. apply last_in_tail in H; [|discriminate].
              rewrite <- app_assoc in Nd. cbn [app] in Nd. apply nodup_mid in Nd as (_ & N' & _).
              apply N'. rewrite app_comm_cons, in_app_iff. tauto.
        -- destruct k as [|k0 k]; cbn [app] in Ek; injection Ek as -> Ek; [congruence|]. subst r.
           assert (Ir : In i (k ++ i :: b)) by (apply in_or_app; right; left; auto).
           rewrite (is_false (hd_error (rev l))) by (intro H; apply hd_rev_in in H; eauto).
           destruct (Ks p (l ++ k) i b) as [K1 K2]; [rewrite Kp, <- app_assoc; reflexivity|].
           split; [|auto]. rewrite !rev_app_distr. cbn [rev]. destruct k as [|k1 k].
           ++ cbn. rewrite Nat.eqb_refl. reflexivity.
           ++ rewrite is_false.
              ** rewrite K1, rev_app_distr. cbn [rev]. rewrite <- !app_assoc, !hd_app.
                 destruct (rev k); reflexivity.
              ** cbn. intro H. injection H as ->. apply (nodup_mid _ l (k ++ i :: b) i) in Nd.
                 rewrite in_app_iff in Nd. cbn [In] in Nd. tauto.
    + assert (Pi : P i = Some q) by (apply Kpar; rewrite E; apply in_or_app; right; left; auto).
      destruct (Ks q a i b E) as [K1 K2].
      destruct (Nat.eqb_spec i c) as [->|]; [congruence|].
      rewrite is_false by (intro H; apply hd_in, Pr in H; congruence).
      rewrite is_false by (intro H; apply hd_rev_in, Pl in H; congruence). auto.
  - intros i. rewrite HP, HV, HX. destruct (Nat.eqb_spec i c) as [->|Ni]; intro H; [discriminate|].
    rewrite is_false by (intro E; apply hd_in, Pr in E; congruence).
    rewrite is_false by (intro E; apply hd_rev_in, Pl in E; congruence). auto.
Qed.

(** ** Descending ends *)
Definition reach (kids : nat -> list nat) : nat -> nat -> Prop :=
  clos_refl_trans _ (fun p c => In c (kids p)).

Lemma wf_sub : forall kids kids', (forall q c, In c (kids' q) -> In c (kids q)) ->
  well_founded (child_of kids) -> well_founded (child_of kids').
Proof.
  intros kids kids' H W x. induction (W x) as [x _ IH]. constructor. intros y Hy. apply IH. apply H. exact Hy.
Qed.
Lemma wf_insert : forall kids kids' p c, (forall q y, In y (kids' q) -> In y (kids q) \/ (q = p /\ y = c)) ->
  ~ reach kids c p -> well_founded (child_of kids) -> well_founded (child_of kids').
Proof.
  intros kids kids' p c H N W.
  assert (S : forall x, reach kids c x -> Acc (child_of kids') x).
  { intro x. induction (W x) as [x _ IH]. intro R. constructor. intros y Hy.
    destruct (H _ _ Hy) as [Hk|[-> ->]]; [|contradiction]. apply IH; [exact Hk|].
    eapply rt_trans; [exact R|]. apply rt_step. exact Hk. }
  intro x. induction (W x) as [x _ IH]. constructor. intros y Hy.
  destruct (H _ _ Hy) as [Hk|[-> ->]]; [auto|]. apply S. apply rt_refl.
Qed.

(** ** Documents *)
Lemma update_nth : forall A (f : A -> A) l i j x, i < length l ->
  nth j (update i f l) x = if j =? i then f (nth j l x) else nth j l x.
Proof.
  induction l as [|a l IH]; intros i j x H; [cbn in H; lia|].
  destruct i, j; cbn [update nth Nat.eqb]; auto. apply IH. cbn in H. lia.
Qed.
Lemma update_length : forall A (f : A -> A) l i, length (update i f l) = length l.
Proof. induction l as [|a l IH]; intros [|i]; cbn; auto. Qed.

Lemma index_ok : forall d i, i < length (nodes d) -> index d i = Ok (node_at d i).
Proof. intros d i H. unfold index, node_at. rewrite (nth_error_nth' _ (node_new DDocument) H). reflexivity. Qed.

(** [d'] differs from [d] only as [f] says *)
Definition patched (d d' : document) (f : nat -> node -> node) : Prop :=
  (forall j, node_at d' j = f j (node_at d j)) /\ length (nodes d') = length (nodes d) /\
  style_elements d' = style_elements d.
Lemma modify_ok : forall d i f, i < length (nodes d) ->
  exists d', modify d i f = Ok d' /\ patched d d' (fun j n => if j =? i then f n else n).
Proof.
  intros d i f H. unfold modify. rewrite (nth_error_nth' _ (node_new DDocument) H). eexists. split; [reflexivity|].
  split; [|split; [apply update_length|reflexivity]]. intro j. unfold node_at. cbn [nodes]. apply update_nth. auto.
Qed.
Lemma patched_refl : forall d, patched d d (fun _ n => n).
Proof. intro d. repeat split; auto. Qed.
Lemma patched_trans : forall d d' d'' f g, patched d d' f -> patched d' d'' g -> patched d d'' (fun j n => g j (f j n)).
Proof.
  intros d d' d'' f g (A1 & A2 & A3) (B1 & B2 & B3). split; [|split; congruence].
  intro j. rewrite B1, A1. reflexivity.
Qed.
Lemma patched_same_data : forall d d' f, patched d d' f -> (forall j n, data (f j n) = data n) -> same_data d d'.
Proof.
  intros d d' f (A1 & A2 & A3) H. split; [|auto]. apply (nth_ext _ _ DDocument DDocument).
  - rewrite !map_length. auto.
  - intros j _. change DDocument with (data (node_new DDocument)). rewrite !map_nth.
    change (data (node_at d' j) = data (node_at d j)). rewrite A1. auto.
Qed.

Lemma in_forest_linked : forall d kids, in_forest d kids <->
  linked (fun j => parent (node_at d j)) (fun j => previous_sibling (node_at d j)) (fun j => next_sibling (node_at d j))
    (fun j => first_child (node_at d j)) (fun j => last_child (node_at d j)) kids /\ well_founded (child_of kids).
Proof.
  intros d kids. unfold in_forest, child_of. split.
  - intros (H1 & H2 & H3 & H4 & H5 & H6). split; [|auto]. constructor; auto; apply H2.
  - intros [[H1 H2 H3 H4 H5 H6] H7]. split; [exact H1|]. split; [intro p; split; auto|]. auto.
Qed.

Lemma beyond : forall d i, length (nodes d) <= i -> node_at d i = node_new DDocument.
Proof. intros. unfold node_at. apply nth_overflow. auto. Qed.
Lemma child_bounds : forall d kids p c, in_forest d kids -> In c (kids p) -> c < length (nodes d) /\ p < length (nodes d).
Proof.
  intros d kids p c (_ & H2 & H3 & _) H. split.
  - apply (proj1 (H3 p c)) in H. destruct (Nat.lt_ge_cases c (length (nodes d))); auto.
    rewrite beyond in H by auto. discriminate.
  - destruct (Nat.lt_ge_cases p (length (nodes d))); auto. destruct (H2 p) as [E _]. rewrite beyond in E by auto.
    destruct (kids p); [contradiction|discriminate].
Qed.

Lemma without_app : forall c l r, without c (l ++ r) = without c l ++ without c r.
Proof. intros. apply filter_app. Qed.
Lemma without_absent : forall c l, ~ In c l -> without c l = l.
Proof.
  induction l as [|x l IH]; intro H; [auto|]. unfold without. cbn [filter]. fold (without c l).
  destruct (Nat.eqb_spec x c) as [->|]; [destruct H; left; auto|]. cbn [negb]. rewrite IH; auto. intro. apply H. right. auto.
Qed.
Lemma without_mid : forall c l r, NoDup (l ++ c :: r) -> without c (l ++ c :: r) = l ++ r.
Proof.
  intros c l r H. apply nodup_mid in H as (H1 & H2 & _). rewrite without_app. unfold without at 2. cbn [filter].
  rewrite Nat.eqb_refl. cbn [negb]. fold (without c r). rewrite !without_absent; auto.
Qed.
Lemma without_in : forall c l x, In x (without c l) <-> In x l /\ x <> c.
Proof.
  intros. unfold without. rewrite filter_In, negb_true_iff, Nat.eqb_neq. reflexivity.
Qed.

Lemma in_forest_ext : forall d k1 k2, (forall q, k1 q = k2 q) -> in_forest d k1 -> in_forest d k2.
Proof.
  intros d k1 k2 E (H1 & H2 & H3 & H4 & H5 & H6). unfold in_forest, child_of in *.
  split; [intro p; rewrite <- E; auto|]. split; [intro p; rewrite <- E; auto|].
  split; [intros p c; rewrite <- E; auto|]. split; [intros p l c r; rewrite <- E; apply H4|]. split; [auto|].
  assert (E' : forall q c, In c (k2 q) -> In c (k1 q)) by (intros q c; rewrite E; auto). exact (wf_sub _ _ E' H6).
Qed.
Lemma in_forest_nodes : forall d d' kids, (forall j, node_at d' j = node_at d j) -> in_forest d kids -> in_forest d' kids.
Proof.
  intros d d' kids E (H1 & H2 & H3 & H4 & H5 & H6). unfold in_forest, child_of in *.
  split; [auto|]. split; [intro p; rewrite E; auto|].
  split; [intros p c; rewrite E; auto|]. split; [intros p l c r; rewrite E; apply H4|].
  split; [intros c; rewrite E; auto|]. auto.
Qed.

Ltac mstep := match goal with
  | |- context [index ?d ?i] => rewrite (index_ok d i) by (try congruence; lia)
  | |- context [modify ?d ?i ?f] =>
      let d' := fresh "d" in let E := fresh "E" in let Q := fresh "Q" in
      destruct (modify_ok d i f) as (d' & E & Q); [try congruence; try lia|]; rewrite E; clear E
  end; cbn [bind].

Lemma detach_ok : forall d kids c, in_forest d kids -> c < length (nodes d) ->
  exists d', detach d c = Ok d' /\ in_forest d' (detached c kids) /\ same_data d d' /\
    parent (node_at d' c) = None.
Proof.
  intros d kids c Hf Hc. pose proof Hf as Hl. apply in_forest_linked in Hl as [Hl W].
  unfold detach. mstep.
  destruct (parent (node_at d c)) as [p|] eqn:Pc.
  - assert (Ic : In c (kids p)) by (apply (lk_parent _ _ _ _ _ _ Hl); auto).
    destruct (in_split _ _ Ic) as (l & r & Kp).
    destruct (child_bounds _ _ _ _ Hf Ic) as [_ Bp].
    assert (Bl : forall y, In y l -> y < length (nodes d)).
    { intros y Hy. apply (child_bounds d kids p y Hf). rewrite Kp. apply in_or_app. auto. }
    assert (Br : forall y, In y r -> y < length (nodes d)).
    { intros y Hy. apply (child_bounds d kids p y Hf). rewrite Kp. apply in_or_app. right. right. auto. }
    destruct (lk_sibs _ _ _ _ _ _ Hl p l c r Kp) as [-> ->].
    destruct (modify_ok d c (fun n => set_next None (set_previous None (set_parent None n)))) as (d1 & -> & Q1); [auto|].
    cbn [bind]. pose proof Q1 as (_ & L1 & _).
    assert (S2 : exists d2, match hd_error r with
        | Some x => modify d1 x (set_previous (hd_error (rev l)))
        | None => modify d1 p (set_last (hd_error (rev l))) end = Ok d2 /\
        patched d1 d2 (fun j n => if is (hd_error r) j then set_previous (hd_error (rev l)) n
                                  else if nil_ r && (j =? p) then set_last (hd_error (rev l)) n else n)).
    { destruct r as [|x r]; cbn [hd_error is nil_ andb].
      - apply modify_ok. lia.
      - destruct (modify_ok d1 x (set_previous (hd_error (rev l)))) as (d2 & -> & Q2); [|eauto].
        rewrite L1. apply Br. left. auto. }
    cbv beta iota zeta. destruct S2 as (d2 & -> & Q2). cbn [bind]. pose proof Q2 as (_ & L2 & _).
    assert (S3 : exists d3, match hd_error (rev l) with
        | Some x => modify d2 x (set_next (hd_error r))
        | None => modify d2 p (set_first (hd_error r)) end = Ok d3 /\
        patched d2 d3 (fun j n => if is (hd_error (rev l)) j then set_next (hd_error r) n
                                  else if nil_ l && (j =? p) then set_first (hd_error r) n else n)).
    { destruct (hd_error (rev l)) as [x|] eqn:El.
      - destruct l as [|l0 l]; [discriminate|]. cbn [is nil_ andb].
        destruct (modify_ok d2 x (set_next (hd_error r))) as (d3 & -> & Q3); [|eauto].
        rewrite L2, L1. apply Bl. apply hd_rev_in. auto.
      - destruct l as [|l0 l]; [|cbn [rev] in El; rewrite hd_app in El; destruct (rev l); discriminate].
        cbn [is nil_ andb]. apply modify_ok. lia. }
    cbv beta iota zeta. destruct S3 as (d3 & -> & Q3). exists d3. split; [reflexivity|].
    pose proof (patched_trans _ _ _ _ _ (patched_trans _ _ _ _ _ Q1 Q2) Q3) as Q. pose proof Q as (Qa & _).
    split; [|split].
    + apply in_forest_linked. split.
      * eapply linked_detach; [exact Hl|exact Kp|..]; intro j; rewrite ?Qa; cbv beta.
        -- destruct (j =? c), (is (hd_error r) j), (nil_ r && (j =? p)), (is (hd_error (rev l)) j), (nil_ l && (j =? p)); reflexivity.
        -- destruct (j =? c), (is (hd_error r) j), (nil_ r && (j =? p)), (is (hd_error (rev l)) j), (nil_ l && (j =? p)); reflexivity.
        -- destruct (j =? c), (is (hd_error r) j), (nil_ r && (j =? p)), (is (hd_error (rev l)) j), (nil_ l && (j =? p)); reflexivity.
        -- destruct (nil_ r && (j =? p)) eqn:Er.
           ++ apply andb_true_iff in Er as [Er _]. destruct r; [|discriminate]. cbn [hd_error is].
              destruct (j =? c), (is (hd_error (rev l)) j), (nil_ l && (j =? p)); reflexivity.
           ++ destruct (j =? c), (is (hd_error r) j), (is (hd_error (rev l)) j), (nil_ l && (j =? p)); reflexivity.
        -- destruct (nil_ l && (j =? p)) eqn:El.
           ++ apply andb_true_iff in El as [El _]. destruct l; [|discriminate]. cbn [rev hd_error is].
              destruct (j =? c), (is (hd_error r) j), (nil_ r && (j =? p)); reflexivity.
           ++ destruct (j =? c), (is (hd_error r) j), (is (hd_error (rev l)) j), (nil_ r && (j =? p)); reflexivity.
        -- unfold detached. destruct (Nat.eqb_spec j p) as [->|Np].
           ++ rewrite Kp. apply without_mid. rewrite <- Kp. apply (lk_nodup _ _ _ _ _ _ Hl).
           ++ apply without_absent. intro H. apply (lk_parent _ _ _ _ _ _ Hl) in H. congruence.
      * eapply wf_sub; [|exact W]. intros q x Hx. apply without_in in Hx. tauto.
    + eapply patched_same_data; [exact Q|]. intros j n. cbv beta.
      destruct (j =? c), (is (hd_error r) j), (nil_ r && (j =? p)), (is (hd_error (rev l)) j), (nil_ l && (j =? p)); reflexivity.
    + rewrite Qa. cbv beta. rewrite Nat.eqb_refl.
      destruct (is (hd_error r) c), (nil_ r && (c =? p)), (is (hd_error (rev l)) c), (nil_ l && (c =? p)); reflexivity.
  - destruct (lk_none _ _ _ _ _ _ Hl c Pc) as [-> ->]. mstep. exists d0. split; [reflexivity|].
    pose proof Q as (Qa & _).
    assert (Same : forall j, node_at d0 j = node_at d j).
    { intro j. rewrite Qa. destruct (Nat.eqb_spec j c) as [->|]; [|auto].
      destruct (lk_none _ _ _ _ _ _ Hl c Pc) as [E1 E2]. destruct (node_at d c) as [a b e f g h]; cbn in *. subst. reflexivity. }
    split; [|split].
    + apply (in_forest_ext d0 kids).
      * intro q. symmetry. apply without_absent. intro H. apply (lk_parent _ _ _ _ _ _ Hl) in H. congruence.
      * apply (in_forest_nodes d); auto.
    + eapply patched_same_data; [exact Q|]. intros j n. cbv beta. destruct (j =? c); reflexivity.
    + rewrite Same. auto.
Qed.

Lemma same_data_trans : forall a b c, same_data a b -> same_data b c -> same_data a c.
Proof. intros a b c [A1 A2] [B1 B2]. split; congruence. Qed.
Lemma same_data_length : forall d d', same_data d d' -> length (nodes d') = length (nodes d).
Proof. intros d d' [H _]. apply (f_equal (@length node_data)) in H. rewrite !map_length in H. auto. Qed.
Lemma same_data_at : forall d d' i, same_data d d' -> data (node_at d' i) = data (node_at d i).
Proof.
  intros d d' i [H _]. unfold node_at.
  rewrite <- !(map_nth data). rewrite H. reflexivity.
Qed.

Lemma reach_anc : forall d kids a b, in_forest d kids -> (reach kids a b <-> inclusive_ancestor d a b).
Proof.
  intros d kids a b (_ & _ & H3 & _). split.
  - intro R. apply clos_rt_rtn1 in R. induction R as [|y z E R IH]; [constructor|].
    eapply ia_up; [apply H3; exact E|exact IH].
  - intro R. induction R as [|b p E R IH]; [apply rt_refl|].
    eapply rt_trans; [exact IH|]. apply rt_step. apply H3. exact E.
Qed.
Lemma reach_sub : forall kids kids' a b, (forall q c, In c (kids' q) -> In c (kids q)) ->
  reach kids' a b -> reach kids a b.
Proof.
  intros kids kids' a b H R. induction R as [x y E|x|x y z _ IH1 _ IH2]; [apply rt_step; auto|apply rt_refl|].
  eapply rt_trans; eauto.
Qed.

Lemma insert_wf : forall kids kids' c p l r, kids p = l ++ r -> ~ reach kids c p ->
  (forall q, kids' q = if q =? p then l ++ c :: r else kids q) ->
  well_founded (child_of kids) -> well_founded (child_of kids').
Proof.
  intros kids kids' c p l r K N H W. eapply wf_insert; [|exact N|exact W].
  intros q y. rewrite H. destruct (Nat.eqb_spec q p) as [->|]; [|auto]. rewrite K, !in_app_iff. cbn [In].
  intuition congruence.
Qed.

Ltac bools := repeat match goal with
  | |- context [?a =? ?b] => destruct (Nat.eqb_spec a b); try subst; try congruence; try contradiction
  end.

Lemma append_ok : forall d kids p c, in_forest d kids -> c < length (nodes d) -> p < length (nodes d) ->
  ~ inclusive_ancestor d c p ->
  exists d', append d p c = Ok d' /\ in_forest d' (appended p c kids) /\ same_data d d' /\
    next_sibling (node_at d' c) = None.
Proof.
  intros d kids p c Hf Hc Hp Na.
  assert (Npc : p <> c) by (intros ->; apply Na; constructor).
  destruct (detach_ok d kids c Hf Hc) as (d1 & E1 & F1 & S1 & P1).
  unfold append. rewrite E1. cbn [bind].
  pose proof (same_data_length _ _ S1) as L1.
  pose proof F1 as Hl. apply in_forest_linked in Hl as [Hl W].
  assert (Nr : ~ reach (detached c kids) c p).
  { intro R. apply Na. apply (reach_anc d kids); [auto|]. eapply reach_sub; [|exact R].
    intros q x Hx. apply without_in in Hx. tauto. }
  destruct (modify_ok d1 c (set_parent (Some p))) as (d2 & -> & Q2); [lia|]. cbn [bind].
  pose proof Q2 as (Q2a & L2 & _). rewrite index_ok by lia. cbn [bind].
  destruct (modify_ok d2 p (set_last None)) as (d3 & -> & Q3); [lia|]. cbn [bind].
  pose proof Q3 as (Q3a & L3 & _).
  assert (Elast : last_child (node_at d2 p) = hd_error (rev (detached c kids p))).
  { rewrite Q2a. destruct (Nat.eqb_spec p c); [contradiction|]. apply (lk_last _ _ _ _ _ _ Hl). }
  rewrite Elast.
  assert (S4 : exists d4, match hd_error (rev (detached c kids p)) with
     | Some lc =>
         d <- modify d3 c (set_previous (Some lc)) ;;
         nl <- index d lc ;;
         _ <- assert (is_none (next_sibling nl)) ;;
         modify d lc (set_next (Some c))
     | None =>
         np <- index d3 p ;;
         _ <- assert (is_none (first_child np)) ;;
         modify d3 p (set_first (Some c))
     end = Ok d4 /\ patched d3 d4 (fun j n =>
       let n := if (j =? c) && negb (nil_ (detached c kids p)) then set_previous (hd_error (rev (detached c kids p))) n else n in
       let n := if is (hd_error (rev (detached c kids p))) j then set_next (Some c) n else n in
       if nil_ (detached c kids p) && (j =? p) then set_first (Some c) n else n)).
  { destruct (hd_error (rev (detached c kids p))) as [lc|] eqn:El.
    - assert (Hin : In lc (detached c kids p)) by (apply hd_rev_in; auto).
      assert (Blc : lc < length (nodes d1)) by (eapply (child_bounds d1 (detached c kids) p); eassumption).
      assert (Nlc : lc <> c) by (apply without_in in Hin; tauto).
      assert (Nx : next_sibling (node_at d1 lc) = None).
      { destruct (exists_last (l := detached c kids p)) as (l & x & E); [intro E; rewrite E in Hin; contradiction|].
        rewrite E, rev_app_distr in El. cbn in El. injection El as ->.
        destruct (lk_sibs _ _ _ _ _ _ Hl p l lc []) as [_ X]; auto. }
      destruct (modify_ok d3 c (set_previous (Some lc))) as (d4 & -> & Q4); [lia|]. cbn [bind].
      pose proof Q4 as (Q4a & L4 & _). rewrite index_ok by lia. cbn [bind].
      rewrite Q4a, Q3a, Q2a.
      assert (Nn : next_sibling (if lc =? c
        then set_previous (Some lc) (if lc =? p then set_last None (if lc =? c then set_parent (Some p) (node_at d1 lc) else node_at d1 lc)
                                     else if lc =? c then set_parent (Some p) (node_at d1 lc) else node_at d1 lc)
        else if lc =? p then set_last None (if lc =? c then set_parent (Some p) (node_at d1 lc) else node_at d1 lc)
             else if lc =? c then set_parent (Some p) (node_at d1 lc) else node_at d1 lc) = None)
        by (destruct (lc =? c), (lc =? p); exact Nx).
      rewrite Nn. cbn [is_none assert bind].
      destruct (modify_ok d4 lc (set_next (Some c))) as (d5 & -> & Q5); [lia|]. exists d5. split; [reflexivity|].
      pose proof (patched_trans _ _ _ _ _ Q4 Q5) as (A & B). split; [|exact B]. intro j. rewrite A. cbn [is].
      destruct (detached c kids p) as [|y ys] eqn:Ed; [contradiction|]. cbn [nil_ negb andb]. rewrite andb_true_r.
      reflexivity.
    - assert (Ek : detached c kids p = []).
      { destruct (detached c kids p) as [|y ys]; auto. cbn [rev] in El. rewrite hd_app in El. destruct (rev ys); discriminate. }
      rewrite index_ok by lia. cbn [bind]. rewrite Q3a, Q2a.
      assert (Nf : first_child (if p =? p then set_last None (if p =? c then set_parent (Some p) (node_at d1 p) else node_at d1 p)
        else if p =? c then set_parent (Some p) (node_at d1 p) else node_at d1 p) = None).
      { transitivity (first_child (node_at d1 p)); [destruct (p =? p), (p =? c); reflexivity|].
        rewrite (lk_first _ _ _ _ _ _ Hl), Ek. reflexivity. }
      rewrite Nf. cbn [is_none assert bind].
      destruct (modify_ok d3 p (set_first (Some c))) as (d4 & -> & Q4); [lia|]. exists d4. split; [reflexivity|].
      destruct Q4 as (A & B). split; [|exact B]. intro j. rewrite A, Ek. cbn [nil_ negb andb is]. rewrite andb_false_r. reflexivity. }
  destruct S4 as (d4 & -> & Q4). cbn [bind]. pose proof Q4 as (_ & L4 & _).
  destruct (modify_ok d4 p (set_last (Some c))) as (d5 & -> & Q5); [lia|]. exists d5. split; [reflexivity|].
  pose proof (patched_trans _ _ _ _ _ (patched_trans _ _ _ _ _ (patched_trans _ _ _ _ _ Q2 Q3) Q4) Q5) as Q.
  pose proof Q as (Qa & _). cbv beta in Qa.
  assert (Nc : ~ In c (detached c kids p)) by (intro H; apply without_in in H; tauto).
  split; [|split].
  - apply in_forest_linked. split.
    + eapply (linked_insert _ _ _ _ _ (detached c kids) _ _ _ _ _ _ c p (detached c kids p) []);
        [exact Hl|symmetry; apply app_nil_r|exact P1|..]; intro j; rewrite ?Qa; cbv beta zeta; cbn [hd_error is nil_ andb].
      * destruct (j =? c), (j =? p), (is (hd_error (rev (detached c kids p))) j), (nil_ (detached c kids p)); reflexivity.
      * destruct (lk_none _ _ _ _ _ _ Hl c P1) as [Vc _].
        destruct (nil_ (detached c kids p)) eqn:En.
        -- destruct (detached c kids p); [|discriminate]. cbn [rev hd_error is].
           destruct (Nat.eqb_spec j c) as [->|]; destruct (Nat.eqb_spec c p); try destruct (Nat.eqb_spec j p); auto.
        -- destruct (j =? c), (j =? p), (is (hd_error (rev (detached c kids p))) j); reflexivity.
      * destruct (Nat.eqb_spec j c) as [->|].
        -- rewrite is_false by (intro H; apply hd_rev_in in H; contradiction).
           destruct (lk_none _ _ _ _ _ _ Hl c P1) as [_ Xc].
           destruct (c =? p), (nil_ (detached c kids p)); exact Xc.
        -- destruct (j =? p), (is (hd_error (rev (detached c kids p))) j), (nil_ (detached c kids p)); reflexivity.
      * destruct (j =? c), (j =? p), (is (hd_error (rev (detached c kids p))) j), (nil_ (detached c kids p)); reflexivity.
      * destruct (j =? c), (j =? p), (is (hd_error (rev (detached c kids p))) j), (nil_ (detached c kids p)); reflexivity.
      * unfold appended, detached. destruct (Nat.eqb_spec j p) as [->|]; reflexivity.
    + eapply (insert_wf (detached c kids) _ c p (detached c kids p) []); [symmetry; apply app_nil_r|exact Nr| |exact W].
      intro q. unfold appended, detached. destruct (Nat.eqb_spec q p) as [->|]; reflexivity.
  - eapply same_data_trans; [exact S1|]. eapply patched_same_data; [exact Q|]. intros j n. cbv beta zeta.
    destruct (j =? c), (j =? p), (is (hd_error (rev (detached c kids p))) j), (nil_ (detached c kids p)); reflexivity.
  - rewrite Qa. cbv zeta. rewrite is_false by (intro H; apply hd_rev_in in H; contradiction).
    destruct (lk_none _ _ _ _ _ _ Hl c P1) as [_ Xc].
    destruct (c =? c), (c =? p), (nil_ (detached c kids p)); exact Xc.
Qed.

Lemma before_split : forall s c l r, ~ In s l -> before s c (l ++ s :: r) = l ++ c :: s :: r.
Proof.
  induction l as [|x l IH]; intros r H; cbn [app before].
  - rewrite Nat.eqb_refl. reflexivity.
  - destruct (Nat.eqb_spec x s) as [->|]; [destruct H; left; auto|]. rewrite IH; auto. intro. apply H. right. auto.
Qed.
Lemma before_absent : forall s c l, ~ In s l -> before s c l = l.
Proof.
  induction l as [|x l IH]; intros H; cbn [before]; auto.
  destruct (Nat.eqb_spec x s) as [->|]; [destruct H; left; auto|]. rewrite IH; auto. intro. apply H. right. auto.
Qed.

Lemma insert_before_ok : forall d kids s c p, in_forest d kids -> c < length (nodes d) ->
  parent (node_at d s) = Some p -> c <> s -> ~ inclusive_ancestor d c p ->
  exists d', insert_before d s c = Ok d' /\ in_forest d' (inserted s c kids) /\ same_data d d'.
Proof.
  intros d kids s c p Hf Hc Ps Ncs Na.
  assert (Npc : p <> c) by (intros ->; apply Na; constructor).
  assert (Is : In s (kids p)) by (apply (proj1 (proj2 (proj2 Hf))); exact Ps).
  destruct (detach_ok d kids c Hf Hc) as (d1 & E1 & F1 & S1 & P1).
  unfold insert_before. rewrite E1. cbn [bind].
  pose proof (same_data_length _ _ S1) as L1.
  pose proof F1 as Hl. apply in_forest_linked in Hl as [Hl W].
  assert (Is1 : In s (detached c kids p)) by (apply without_in; auto).
  destruct (child_bounds _ _ _ _ F1 Is1) as [Bs Bp].
  assert (Nr : ~ reach (detached c kids) c p).
  { intro R. apply Na. apply (reach_anc d kids); [auto|]. eapply reach_sub; [|exact R].
    intros q x Hx. apply without_in in Hx. tauto. }
  assert (Ps1 : parent (node_at d1 s) = Some p) by (apply (lk_parent _ _ _ _ _ _ Hl); exact Is1).
  destruct (in_split _ _ Is1) as (l & r & Kp).
  assert (Nd : NoDup (l ++ s :: r)) by (rewrite <- Kp; apply (lk_nodup _ _ _ _ _ _ Hl)).
  destruct (nodup_mid _ _ _ _ Nd) as (Nl & _ & _ & _).
  destruct (lk_sibs _ _ _ _ _ _ Hl p l s r Kp) as [Vs _].
  assert (Nc : ~ In c (l ++ s :: r)) by (rewrite <- Kp; intro H; apply without_in in H; tauto).
  rewrite index_ok by lia. cbn [bind]. rewrite Ps1.
  destruct (modify_ok d1 c (set_parent (Some p))) as (d2 & -> & Q2); [lia|]. cbn [bind]. pose proof Q2 as (Q2a & L2 & _).
  destruct (modify_ok d2 c (set_next (Some s))) as (d3 & -> & Q3); [lia|]. cbn [bind]. pose proof Q3 as (Q3a & L3 & _).
  rewrite index_ok by lia. cbn [bind].
  assert (Es : node_at d3 s = node_at d1 s).
  { rewrite Q3a, Q2a. destruct (Nat.eqb_spec s c); [congruence|]. reflexivity. }
  rewrite Es, Vs, Ps1.
  destruct (modify_ok d3 s (set_previous None)) as (d4 & -> & Q4); [lia|]. cbn [bind]. pose proof Q4 as (Q4a & L4 & _).
  assert (S5 : exists d5, match hd_error (rev l) with
     | Some y =>
         d <- modify d4 c (set_previous (Some y)) ;;
         ny <- index d y ;;
         _ <- assert (is_id (next_sibling ny) s) ;;
         modify d y (set_next (Some c))
     | None =>
         np <- index d4 p ;;
         _ <- assert (is_id (first_child np) s) ;;
         modify d4 p (set_first (Some c))
     end = Ok d5 /\ patched d4 d5 (fun j n =>
       let n := if (j =? c) && negb (nil_ l) then set_previous (hd_error (rev l)) n else n in
       let n := if is (hd_error (rev l)) j then set_next (Some c) n else n in
       if nil_ l && (j =? p) then set_first (Some c) n else n)).
  { destruct (hd_error (rev l)) as [y|] eqn:El.
    - assert (Hin : In y l) by (apply hd_rev_in; auto).
      assert (Hin' : In y (detached c kids p)) by (rewrite Kp; apply in_or_app; auto).
      assert (By : y < length (nodes d1)) by (eapply (child_bounds d1 (detached c kids) p); eassumption).
      assert (Ny : y <> c) by (intros ->; apply Nc; apply in_or_app; auto).
      assert (Nys : y <> s) by (intros ->; contradiction).
      assert (Xy : next_sibling (node_at d1 y) = Some s).
      { destruct (exists_last (l := l)) as (l' & x & E); [intros ->; contradiction|].
        rewrite E, rev_app_distr in El. cbn in El. injection El as ->.
        destruct (lk_sibs _ _ _ _ _ _ Hl p l' y (s :: r)) as [_ X]; auto. rewrite Kp, E, <- app_assoc. reflexivity. }
      destruct (modify_ok d4 c (set_previous (Some y))) as (d5 & -> & Q5); [lia|]. cbn [bind].
      pose proof Q5 as (Q5a & L5 & _). rewrite index_ok by lia. cbn [bind].
      assert (Ey : node_at d5 y = node_at d1 y).
      { rewrite Q5a, Q4a, Q3a, Q2a. destruct (Nat.eqb_spec y c); [congruence|]. destruct (Nat.eqb_spec y s); [congruence|]. reflexivity. }
      rewrite Ey, Xy. cbn [is_id]. rewrite Nat.eqb_refl. cbn [assert bind].
      destruct (modify_ok d5 y (set_next (Some c))) as (d6 & -> & Q6); [lia|]. exists d6. split; [reflexivity|].
      pose proof (patched_trans _ _ _ _ _ Q5 Q6) as (A & B). split; [|exact B]. intro j. rewrite A. cbn [is].
      destruct l as [|z l]; [contradiction|]. cbn [nil_ negb andb]. rewrite andb_true_r. reflexivity.
    - assert (l = []) as ->.
      { destruct l as [|z l]; auto. cbn [rev] in El. rewrite hd_app in El. destruct (rev l); discriminate. }
      rewrite index_ok by lia. cbn [bind].
      assert (Ef : first_child (node_at d4 p) = Some s).
      { transitivity (first_child (node_at d1 p)).
        - rewrite Q4a, Q3a, Q2a. destruct (p =? s), (p =? c); reflexivity.
        - rewrite (lk_first _ _ _ _ _ _ Hl), Kp. reflexivity. }
      rewrite Ef. cbn [is_id]. rewrite Nat.eqb_refl. cbn [assert bind].
      destruct (modify_ok d4 p (set_first (Some c))) as (d5 & -> & Q5); [lia|]. exists d5. split; [reflexivity|].
      destruct Q5 as (A & B). split; [|exact B]. intro j. rewrite A. cbn [nil_ negb andb is]. rewrite andb_false_r. reflexivity. }
  destruct S5 as (d5 & -> & Q5). cbn [bind]. pose proof Q5 as (_ & L5 & _).
  destruct (modify_ok d5 s (set_previous (Some c))) as (d6 & -> & Q6); [lia|]. exists d6. split; [reflexivity|].
  pose proof (patched_trans _ _ _ _ _ (patched_trans _ _ _ _ _ (patched_trans _ _ _ _ _ (patched_trans _ _ _ _ _ Q2 Q3) Q4) Q5) Q6) as Q.
  pose proof Q as (Qa & _). cbv beta in Qa.
  assert (Hins : forall q, inserted s c kids q = if q =? p then l ++ c :: s :: r else detached c kids q).
  { intro q. unfold inserted. fold (detached c kids q). destruct (Nat.eqb_spec q p) as [->|Nq].
    - rewrite Kp. apply before_split. auto.
    - apply before_absent. intro H. apply (lk_parent _ _ _ _ _ _ Hl) in H. congruence. }
  destruct (lk_none _ _ _ _ _ _ Hl c P1) as [Vc Xc].
  assert (Nlc : is (hd_error (rev l)) c = false).
  { apply is_false. intro H. apply hd_rev_in in H. apply Nc. apply in_or_app. auto. }
  assert (Nls : is (hd_error (rev l)) s = false).
  { apply is_false. intro H. apply hd_rev_in in H. contradiction. }
  split.
  - apply in_forest_linked. split.
    + eapply (linked_insert _ _ _ _ _ (detached c kids) _ _ _ _ _ _ c p l (s :: r));
        [exact Hl|exact Kp|exact P1|..]; intro j; rewrite ?Qa; cbv beta zeta; cbn [hd_error is nil_ andb].
      * destruct (j =? c), (j =? s), (j =? p), (is (hd_error (rev l)) j), (nil_ l); reflexivity.
      * destruct (Nat.eqb_spec j c) as [->|].
        -- destruct (Nat.eqb_spec c s); [congruence|]. rewrite Nlc.
           destruct l; cbn [nil_ negb andb]; [destruct (c =? p); exact Vc|reflexivity].
        -- destruct (j =? s), (j =? p), (is (hd_error (rev l)) j), (nil_ l); reflexivity.
      * destruct (Nat.eqb_spec j c) as [->|].
        -- rewrite Nlc. destruct (c =? s), (c =? p), (nil_ l); reflexivity.
        -- destruct (j =? s), (j =? p), (is (hd_error (rev l)) j), (nil_ l); reflexivity.
      * destruct (j =? c), (j =? s), (j =? p), (is (hd_error (rev l)) j), (nil_ l); reflexivity.
      * destruct (j =? c), (j =? s), (j =? p), (is (hd_error (rev l)) j), (nil_ l); reflexivity.
      * apply Hins.
    + eapply (insert_wf (detached c kids) _ c p l (s :: r)); [exact Kp|exact Nr|exact Hins|exact W].
  - eapply same_data_trans; [exact S1|]. eapply patched_same_data; [exact Q|]. intros j n. cbv beta zeta.
    destruct (j =? c), (j =? s), (j =? p), (is (hd_error (rev l)) j), (nil_ l); reflexivity.
Qed.
