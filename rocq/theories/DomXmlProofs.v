(** XML documents mirror their events. *)
From Coq Require Import Relations.
From Verif Require Import Base Dom DomSpec DomProofs DomTreeProofs DomWalkProofs DomXml DomXmlSpec.
Local Open Scope res_scope.

Fixpoint numbered_list (i : nat) (l : list xtree) : list tree :=
  match l with [] => [] | x :: r => numbered i x :: numbered_list (i + xsize x) r end.
Lemma numbered_eq : forall i x c, numbered i (XT x c) = T i (numbered_list (S i) c).
Proof. reflexivity. Qed.
Definition xsizes (l : list xtree) : nat := list_sum (map xsize l).
Lemma xsizes_app : forall a b, xsizes (a ++ b) = xsizes a + xsizes b.
Proof. intros. unfold xsizes. rewrite map_app. apply list_sum_app. Qed.
Lemma numbered_app : forall a b i, numbered_list i (a ++ b) = numbered_list i a ++ numbered_list (i + xsizes a) b.
Proof.
  induction a as [|x a IH]; intros b i; cbn [app numbered_list].
  - unfold xsizes. cbn. rewrite Nat.add_0_r. reflexivity.
  - rewrite IH. change (xsizes (x :: a)) with (xsize x + xsizes a). rewrite Nat.add_assoc. reflexivity.
Qed.
Lemma numbered_root : forall i x, root (numbered i x) = i.
Proof. intros i [x c]. reflexivity. Qed.

Fixpoint xtree_rect' (P : xtree -> Prop) (Q : list xtree -> Prop) (HT : forall x c, Q c -> P (XT x c))
    (Hn : Q []) (Hc : forall t ts, P t -> Q ts -> Q (t :: ts)) (t : xtree) : P t :=
  match t with
  | XT x c => HT x c ((fix go ts : Q ts := match ts with
                         | [] => Hn
                         | t :: ts => Hc t ts (xtree_rect' P Q HT Hn Hc t) (go ts)
                         end) c)
  end.
Fixpoint item_rect' (P : item -> Prop) (Q : list item -> Prop)
    (HE : forall n a c, Q c -> P (IElement n a c)) (HT : forall s, P (IText s)) (HD : forall s, P (ICData s))
    (HW : forall s, P (IWhitespace s)) (HC : forall s, P (IComment s)) (HP : forall n x, P (IPi n x))
    (Hn : Q []) (Hc : forall t ts, P t -> Q ts -> Q (t :: ts)) (t : item) : P t :=
  match t with
  | IElement n a c => HE n a c ((fix go ts : Q ts := match ts with
                         | [] => Hn
                         | t :: ts => Hc t ts (item_rect' P Q HE HT HD HW HC HP Hn Hc t) (go ts)
                         end) c)
  | IText s => HT s | ICData s => HD s | IWhitespace s => HW s | IComment s => HC s | IPi n x => HP n x
  end.

Lemma contents_length : forall x, length (contents x) = xsize x.
Proof.
  apply (xtree_rect' (fun x => length (contents x) = xsize x) (fun l => length (flat_map contents l) = xsizes l)).
  - intros x c H. cbn [contents xsize length]. f_equal. exact H.
  - reflexivity.
  - intros t ts H1 H2. cbn [flat_map]. rewrite app_length, H1, H2. reflexivity.
Qed.
Lemma contents_lengths : forall l, length (flat_map contents l) = xsizes l.
Proof. induction l as [|x l IH]; cbn [flat_map]; auto. rewrite app_length, contents_length, IH. reflexivity. Qed.

(** Numbered subtrees only look at their own range. *)
Lemma subtree_frame : forall k1 k2 x i, (forall q, i <= q < i + xsize x -> k2 q = k1 q) ->
  subtree k1 (numbered i x) -> subtree k2 (numbered i x).
Proof.
  intros k1 k2.
  apply (xtree_rect' (fun x => forall i, (forall q, i <= q < i + xsize x -> k2 q = k1 q) ->
      subtree k1 (numbered i x) -> subtree k2 (numbered i x))
    (fun l => forall i, (forall q, i <= q < i + xsizes l -> k2 q = k1 q) ->
      Forall (subtree k1) (numbered_list i l) -> Forall (subtree k2) (numbered_list i l))).
  - intros x c IH i E St. rewrite numbered_eq in *. inversion St as [i' ts K F]; subst. constructor.
    + rewrite E; auto. cbn. lia.
    + apply IH; auto. intros q H. apply E. change (xsize (XT x c)) with (S (xsizes c)). lia.
  - intros i _ _. constructor.
  - intros t ts H1 H2 i E F. cbn [numbered_list] in *. inversion F; subst.
    change (xsizes (t :: ts)) with (xsize t + xsizes ts) in E.
    constructor; [apply H1|apply H2]; auto; intros q Hq; apply E; lia.
Qed.
Lemma subtrees_frame : forall k1 k2 l i, (forall q, i <= q < i + xsizes l -> k2 q = k1 q) ->
  Forall (subtree k1) (numbered_list i l) -> Forall (subtree k2) (numbered_list i l).
Proof.
  induction l as [|x l IH]; intros i E F; cbn [numbered_list] in *; auto. inversion F; subst.
  change (xsizes (x :: l)) with (xsize x + xsizes l) in E.
  constructor; [eapply subtree_frame; [|eassumption]|apply IH; auto]; intros q Hq; apply E; lia.
Qed.

(** ** Adding one more child *)
Definition snoc (l : list xtree) (x : xtree) : list xtree :=
  match rev l, x with
  | XT (DText a) [] :: r, XT (DText b) [] => rev r ++ [XT (DText (a ++ b)) []]
  | _, _ => l ++ [x]
  end.

(** The state while the children of [p] are being read: everything after [p] is below it. *)
Definition open (d : document) (kids : nat -> list nat) (p : nat) (pre : list node_data) (ms : list xtree) : Prop :=
  in_forest d kids /\ length pre = S p /\ map data (nodes d) = pre ++ flat_map contents ms /\
  kids p = map root (numbered_list (S p) ms) /\ Forall (subtree kids) (numbered_list (S p) ms) /\
  (forall a c, In (XT (DText a) c) ms -> c = []) /\
  1 <= p /\ (forall q c, In c (kids q) -> 1 < c).

Lemma open_length : forall d kids p pre ms, open d kids p pre ms -> length (nodes d) = S p + xsizes ms.
Proof.
  intros d kids p pre ms (F & L & M & K & S & _). apply (f_equal (@length _)) in M.
  rewrite app_length, map_length, contents_lengths in M. lia.
Qed.

Lemma push_child_ok : forall d kids p pre ms x, open d kids p pre ms ->
  exists d', push_child d p x = Ok (d', length (nodes d)) /\ style_elements d' = style_elements d /\
    in_forest d' (with_new p (length (nodes d)) (kids p) [] kids) /\ map data (nodes d') = map data (nodes d) ++ [x].
Proof.
  intros d kids p pre ms x Op. pose proof (open_length _ _ _ _ _ Op) as Ln. destruct Op as (F & L & M & K & S & Tl & P1 & Lo).
  destruct (append_new d kids p x F) as (d' & E & F' & M' & St); [lia|].
  exists d'. unfold push_child. cbn [push_node]. change (mkDoc (nodes d ++ [node_new x]) (style_elements d)) with (fst (new_node d x)).
  rewrite E. cbn [lift bind]. auto.
Qed.

(** Leaving an element: its subtree becomes the last child of its parent. *)
Lemma open_close : forall d kids p pre ms x d' kids' c,
  open d kids p pre ms ->
  open d' kids' (length (nodes d)) (map data (nodes d) ++ [x]) c ->
  (forall q, q < length (nodes d) -> kids' q = with_new p (length (nodes d)) (kids p) [] kids q) ->
  (forall a, x = DText a -> c = []) ->
  open d' kids' p pre (ms ++ [XT x c]).
Proof.
  intros d kids p pre ms x d' kids' c Op Oc Fr Tx. pose proof (open_length _ _ _ _ _ Op) as Ln.
  destruct Op as (F & L & M & K & S & Tl & P1 & Lo). destruct Oc as (F' & L' & M' & K' & S' & _ & _ & Lo').
  split; [auto|]. split; [auto|]. split; [|split; [|split; [|split; [|auto]]]].
  - rewrite M', M, flat_map_app. cbn [flat_map contents]. rewrite app_nil_r, <- !app_assoc. reflexivity.
  - rewrite Fr by lia. unfold with_new. rewrite Nat.eqb_refl, numbered_app, map_app, K. cbn [numbered_list map].
    rewrite numbered_root, Ln. reflexivity.
  - rewrite numbered_app. apply Forall_app. split.
    + eapply subtrees_frame; [|exact S]. intros q Hq. rewrite Fr by lia. unfold with_new.
      destruct (Nat.eqb_spec q p); [lia|auto].
    + cbn [numbered_list]. constructor; [|constructor]. rewrite <- Ln, numbered_eq. constructor; auto.
  - intros a y I. apply in_app_iff in I as [I|[I|[]]]; [eauto|]. injection I as -> ->. eauto.
Qed.

Lemma open_text : forall d kids p pre ms s, open d kids p pre ms ->
  exists d' kids', xml_text d p s = Ok d' /\ open d' kids' p pre (snoc ms (XT (DText s) [])) /\
    style_elements d' = style_elements d /\ (forall q, q < p -> kids' q = kids q).
Proof.
  intros d kids p pre ms s Op. pose proof (open_length _ _ _ _ _ Op) as Ln. pose proof Op as (F & L & M & K & St & Tl & P1 & Lo).
  unfold xml_text. rewrite index_ok by lia. cbn [lift bind].
  destruct (proj1 (proj2 F) p) as [_ El]. rewrite El.
  destruct (push_child_ok d kids p pre ms (DText s) Op) as (d' & E & Se & F' & M').
  assert (New : open d' (with_new p (length (nodes d)) (kids p) [] kids) p pre (ms ++ [XT (DText s) []])).
  { eapply open_close; [exact Op| |intros; reflexivity|auto].
    split; [exact F'|]. split; [rewrite app_length, map_length; cbn; lia|].
    split; [rewrite M'; cbn; rewrite app_nil_r; reflexivity|].
    split; [|split; [constructor|split; [intros a c []|split; [lia|]]]].
    - unfold with_new. destruct (Nat.eqb_spec (length (nodes d)) p); [lia|]. rewrite fresh_no_kids; auto.
    - intros q y I. apply in_with_new in I as [I|[_ ->]]; [eauto|lia|symmetry; apply app_nil_r]. }
  assert (Fr : forall q, q < p -> with_new p (length (nodes d)) (kids p) [] kids q = kids q).
  { intros q Hq. unfold with_new. destruct (Nat.eqb_spec q p); [lia|auto]. }
  destruct ms as [|m0 ms0] eqn:Em.
  - rewrite K. cbn [numbered_list map rev hd_error]. rewrite E. cbn [bind]. eexists _, _. split; [reflexivity|]. split; [exact New|]. split; auto.
  - rewrite <- Em in *. destruct (exists_last (l := ms)) as (ms1 & [x c] & Es); [rewrite Em; discriminate|].
    clear m0 ms0 Em. subst ms. rewrite K, numbered_app, map_app. cbn [numbered_list map].
    rewrite rev_app_distr. cbn [rev app hd_error]. rewrite numbered_root.
    rewrite xsizes_app in Ln. change (xsizes [XT x c]) with (S (xsizes c) + 0) in Ln.
    rewrite index_ok by lia. cbn [lift bind].
    assert (Dx : data (node_at d (S p + xsizes ms1)) = x).
    { unfold node_at. rewrite <- (map_nth data), M, flat_map_app.
      rewrite app_nth2 by (rewrite L; lia). rewrite L. rewrite app_nth2 by (rewrite contents_lengths; lia).
      rewrite contents_lengths. replace (S p + xsizes ms1 - S p - xsizes ms1) with 0 by lia. reflexivity. }
    rewrite Dx. unfold snoc. rewrite rev_app_distr. cbn [rev app].
    assert (Other : forall r : res xml_error document,
      r = (di <- push_child d p (DText s);; Ok (fst di)) ->
      exists d'0 kids', r = Ok d'0 /\ open d'0 kids' p pre ((ms1 ++ [XT x c]) ++ [XT (DText s) []]) /\
        style_elements d'0 = style_elements d /\ (forall q, q < p -> kids' q = kids q)).
    { intros r ->. rewrite E. cbn [bind]. eexists _, _. split; [reflexivity|]. split; [exact New|]. split; auto. }
    destruct x as [| |a| | |]; try (apply Other; reflexivity).
    assert (c = []) as ->.
    { (* a text node never has children *)
      apply (Tl a). apply in_or_app. right. left. auto. }
    destruct (set_data_ok d kids (S p + xsizes ms1) (DText (a ++ s)) F) as (d1 & E1 & F1 & L1 & S1 & D1); [lia|].
    exists d1, kids. rewrite E1. cbn [lift]. split; [reflexivity|]. split; [|split; auto].
    rewrite rev_involutive. split; [auto|]. split; [auto|].
    rewrite numbered_app in K, St |- *. cbn [numbered_list numbered] in K, St |- *. split; [|split; [auto|split; [auto|split; [|auto]]]].
    apply (nth_ext _ _ DDocument DDocument).
    + rewrite map_length, L1, app_length, L, contents_lengths, xsizes_app, Ln. cbn. lia.
    + intros j Hj. transitivity (data (node_at d1 j)); [unfold node_at; rewrite <- (map_nth data); reflexivity|]. rewrite D1.
      assert (M1 : data (node_at d j) = nth j (pre ++ flat_map contents ms1 ++ [DText a]) DDocument).
      { unfold node_at. rewrite <- (map_nth data), M, flat_map_app. reflexivity. }
      rewrite M1, flat_map_app. cbn [flat_map contents app]. rewrite !app_assoc.
      assert (La : length (pre ++ flat_map contents ms1) = S p + xsizes ms1) by (rewrite app_length, L, contents_lengths; lia).
      destruct (Nat.eqb_spec j (S p + xsizes ms1)) as [->|N].
      * rewrite app_nth2, La, Nat.sub_diag by lia. reflexivity.
      * rewrite map_length, L1, Ln in Hj. change (xsizes []) with 0 in Hj. rewrite 2!(app_nth1 (pre ++ flat_map contents ms1)) by (rewrite La; lia). reflexivity.
    + intros b y I. apply in_app_iff in I as [I|[I|[]]]; [eapply Tl; apply in_or_app; left; exact I|congruence].
Qed.

(** ** Joining from the left is joining from the right. *)
Lemma snoc_text : forall l s, snoc l (XT (DText s) []) =
  match rev l with XT (DText a) [] :: r => rev r ++ [XT (DText (a ++ s)) []] | _ => l ++ [XT (DText s) []] end.
Proof. intros l s. unfold snoc. destruct (rev l) as [|[[| |a| | |] [|]] r]; reflexivity. Qed.
Lemma snoc_other : forall l x c, (forall a, x <> DText a) -> snoc l (XT x c) = l ++ [XT x c].
Proof.
  intros l x c H. unfold snoc. destruct (rev l) as [|[[| |a| | |] [|]] r]; try reflexivity.
  destruct x; try reflexivity. destruct (H contents). reflexivity.
Qed.

Definition texty (x : xtree) : Prop := exists a, x = XT (DText a) [].
Definition glued (l : list xtree) : list xtree := fold_right join [] l.
Lemma texty_dec : forall x, texty x \/ ~ texty x.
Proof.
  intros [[| |a| | |] [|y c]]; try (right; intros [b H]; discriminate). left. exists a. reflexivity.
Qed.
Lemma join_plain : forall x r, ~ texty x \/ (forall y r', r = y :: r' -> ~ texty y) -> join x r = x :: r.
Proof.
  intros [x c] r H. destruct x; try reflexivity. destruct c; try reflexivity.
  destruct r as [|[y c'] r]; try reflexivity. destruct y; try reflexivity. destruct c'; try reflexivity. exfalso.
  destruct H as [H|H]; [apply H; eexists; reflexivity|]. eapply H; [reflexivity|]. eexists. reflexivity.
Qed.
Lemma join_text : forall a b r, join (XT (DText a) []) (XT (DText b) [] :: r) = XT (DText (a ++ b)) [] :: r.
Proof. reflexivity. Qed.
Lemma snoc_end_text : forall l a b, snoc (l ++ [XT (DText a) []]) (XT (DText b) []) = l ++ [XT (DText (a ++ b)) []].
Proof. intros. rewrite snoc_text, rev_app_distr. cbn [rev app]. rewrite rev_involutive. reflexivity. Qed.
Lemma snoc_end_plain : forall l x, ~ texty x \/ (forall k y, l = k ++ [y] -> ~ texty y) -> snoc l x = l ++ [x].
Proof.
  intros l [x c] H. unfold snoc. destruct (rev l) as [|[y d] r] eqn:E; auto.
  destruct y; auto. destruct d; auto. destruct x; auto. destruct c; auto. exfalso.
  destruct H as [H|H]; [apply H; eexists; reflexivity|].
  apply (H (rev r) (XT (DText contents) [])); [|eexists; reflexivity].
  rewrite <- (rev_involutive l), E. reflexivity.
Qed.

Lemma snoc_one : forall a b, snoc [XT (DText a) []] (XT (DText b) []) = [XT (DText (a ++ b)) []].
Proof. reflexivity. Qed.
Lemma snoc_cons : forall y l x, (l <> [] -> snoc (y :: l) x = y :: snoc l x).
Proof.
  intros y l x N. destruct (exists_last N) as (k & z & ->). rewrite app_comm_cons.
  destruct (texty_dec z) as [[a ->]|Nz].
  - destruct (texty_dec x) as [[b ->]|Nx].
    + rewrite !snoc_end_text. reflexivity.
    + rewrite !snoc_end_plain; auto.
  - rewrite !snoc_end_plain; auto; right; intros k' y' E; apply app_inj_tail in E as [_ <-] || (rewrite app_comm_cons in E; apply app_inj_tail in E as [_ <-]); auto.
Qed.
Lemma snoc_nonempty : forall l x, snoc l x <> [].
Proof.
  intros l [x c] H. unfold snoc in H.
  destruct (rev l) as [|[[| |a| | |] [|]] r]; try (destruct l; discriminate).
  destruct x; try (destruct l; discriminate). destruct c; try (destruct l; discriminate).
  destruct (rev r); discriminate.
Qed.
Lemma snoc_head_plain : forall l x, ~ texty x -> forall y r, snoc l x = y :: r -> l <> [] -> exists r', l = y :: r'.
Proof. intros l x N y r E Ne. rewrite snoc_end_plain in E by auto. destruct l; [contradiction|]. injection E as -> _. eauto. Qed.

Lemma join_snoc : forall y l x, join y (snoc l x) = snoc (join y l) x.
Proof.
  intros y l x. destruct (texty_dec y) as [[a ->]|Ny].
  2: { rewrite !join_plain by auto. destruct l as [|z l]; [|rewrite (snoc_cons y (z :: l)) by discriminate; reflexivity].
       rewrite snoc_end_plain; [|right; intros k w E; destruct k; discriminate E].
       cbn [app]. rewrite (snoc_end_plain [y]); auto. right. intros [|? [|? ?]] w E; try discriminate E. injection E as <-. auto. }
  destruct l as [|z l].
  - rewrite (snoc_end_plain []) by (right; intros [|? ?] w E; discriminate E). cbn [app].
    rewrite (join_plain _ []) by (right; intros ? ? E; discriminate E).
    destruct (texty_dec x) as [[b ->]|Nx].
    + rewrite join_text, snoc_one. reflexivity.
    + rewrite join_plain; [|right; intros w r E; injection E as <- _; auto]. rewrite (snoc_end_plain [_]); auto.
  - destruct (texty_dec z) as [[b ->]|Nz].
    + rewrite join_text. destruct l as [|w l].
      * destruct (texty_dec x) as [[c ->]|Nx].
        -- rewrite !snoc_one, join_text, app_assoc. reflexivity.
        -- rewrite !(snoc_end_plain [_]) by auto. reflexivity.
      * rewrite 2!(snoc_cons _ (w :: l)) by discriminate. reflexivity.
    + rewrite (join_plain _ (z :: l)) by (right; intros ? ? E; injection E as <- _; auto).
      rewrite (snoc_cons _ (z :: l)) by discriminate. apply join_plain. right. intros w r E.
      destruct l as [|v l].
      * destruct (texty_dec x) as [[c ->]|Nx]; (rewrite (snoc_end_plain [z]) in E; [injection E as <- _; auto|]); auto.
        right. intros [|? [|? ?]] u Eu; try discriminate Eu. injection Eu as <-. auto.
      * rewrite (snoc_cons _ (v :: l)) in E by discriminate. injection E as <- _. auto.
Qed.
Lemma glued_snoc : forall l x, glued (l ++ [x]) = snoc (glued l) x.
Proof.
  induction l as [|y l IH]; intro x; unfold glued in *; cbn [app fold_right].
  - rewrite (snoc_end_plain []) by (right; intros [|? ?] w E; discriminate E). destruct x as [[] []]; reflexivity.
  - rewrite IH. apply join_snoc.
Qed.
Lemma snoc_fold : forall l k, fold_left snoc l (glued k) = glued (k ++ l).
Proof.
  induction l as [|x l IH]; intro k; cbn [fold_left]; [rewrite app_nil_r; auto|].
  rewrite <- glued_snoc, IH, <- app_assoc. reflexivity.
Qed.

Lemma snoc_fold0 : forall l, fold_left snoc l [] = glued l.
Proof. intro l. exact (snoc_fold l []). Qed.

(** ** The loop *)
Definition reads (evs : list xml_event) (l : list xtree) : Prop :=
  forall d kids p pre ms anc rest, open d kids p pre ms ->
  exists d' kids', xml_loop (evs ++ rest) d p anc = xml_loop rest d' p anc /\
    open d' kids' p pre (fold_left snoc l ms) /\ style_elements d' = style_elements d /\
    (forall q, q < p -> kids' q = kids q).

Lemma reads_text : forall e s, (e = XCharacters s \/ e = XCData s \/ e = XWhitespace s) -> reads [e] [XT (DText s) []].
Proof.
  intros e s He d kids p pre ms anc rest Op. destruct (open_text d kids p pre ms s Op) as (d' & kids' & E & O' & S' & Fr).
  exists d', kids'. split; [|auto]. destruct He as [->|[->| ->]]; cbn [app xml_loop]; rewrite E; reflexivity.
Qed.
Lemma new_open : forall d kids p pre ms x d', open d kids p pre ms ->
  in_forest d' (with_new p (length (nodes d)) (kids p) [] kids) -> map data (nodes d') = map data (nodes d) ++ [x] ->
  open d' (with_new p (length (nodes d)) (kids p) [] kids) (length (nodes d)) (map data (nodes d) ++ [x]) [].
Proof.
  intros d kids p pre ms x d' Op F' M'. pose proof (open_length _ _ _ _ _ Op) as Ln.
  split; [auto|]. split; [rewrite app_length, map_length; cbn; lia|]. split; [rewrite M', app_nil_r; auto|].
  destruct Op as (F & _ & _ & _ & _ & _ & P1 & Lo).
  split; [|split; [constructor|split; [intros ? ? []|split; [lia|]]]].
  - unfold with_new. destruct (Nat.eqb_spec (length (nodes d)) p); [lia|]. apply fresh_no_kids. auto.
  - intros q y I. apply in_with_new in I as [I|[_ ->]]; [eauto|lia|symmetry; apply app_nil_r].
Qed.

Lemma reads_items : forall l, reads (flat_map events_of l) (flat_map meaning l).
Proof.
  assert (Hn : reads (flat_map events_of []) (flat_map meaning [])).
  { intros d kids p pre ms anc rest Op. exists d, kids. split; [reflexivity|]. split; [exact Op|]. auto. }
  assert (Hc : forall x l, reads (events_of x) (meaning x) -> reads (flat_map events_of l) (flat_map meaning l) ->
    reads (flat_map events_of (x :: l)) (flat_map meaning (x :: l))).
  { intros x l H1 H2 d kids p pre ms anc rest Op. cbn [flat_map].
    destruct (H1 d kids p pre ms anc (flat_map events_of l ++ rest) Op) as (d1 & k1 & E1 & O1 & S1 & F1).
    destruct (H2 d1 k1 p pre _ anc rest O1) as (d2 & k2 & E2 & O2 & S2 & F2).
    exists d2, k2. split; [rewrite <- app_assoc, E1, E2; reflexivity|]. rewrite fold_left_app.
    split; [exact O2|]. split; [congruence|]. intros q Hq. rewrite F2, F1; auto. }
  assert (Hi : forall x, reads (events_of x) (meaning x)).
  { apply (item_rect' (fun x => reads (events_of x) (meaning x)) (fun l => reads (flat_map events_of l) (flat_map meaning l)));
      try (intro s; apply reads_text; tauto); auto.
    - intros n a c IH d kids p pre ms anc rest Op. cbn [events_of meaning].
      destruct (push_child_ok d kids p pre ms (xml_element n a) Op) as (d1 & E1 & S1 & F1 & M1).
      pose proof (open_length _ _ _ _ _ Op) as Ln.
      pose proof (new_open _ _ _ _ _ _ _ Op F1 M1) as O1.
      destruct (IH d1 _ _ _ [] (p :: anc) ([XEnd n] ++ rest) O1) as (d2 & k2 & E2 & O2 & S2 & F2).
      exists d2, k2. split.
      + cbn [app xml_loop]. rewrite E1. cbn [bind fst snd]. rewrite <- app_assoc, E2. reflexivity.
      + cbn [fold_left]. rewrite snoc_other by discriminate. rewrite snoc_fold0 in O2.
        split; [|split; [congruence|]].
        * eapply open_close; [exact Op|exact O2|auto|intros; discriminate].
        * intros q Hq. rewrite F2 by lia. unfold with_new. destruct (Nat.eqb_spec q p); [lia|auto].
    - intros n x d kids p pre ms anc rest Op. cbn [events_of meaning].
      destruct (push_child_ok d kids p pre ms (DProcessingInstruction n match x with Some x => x | None => [] end) Op) as (d1 & E1 & S1 & F1 & M1).
      pose proof (open_length _ _ _ _ _ Op) as Ln.
      pose proof (new_open _ _ _ _ _ _ _ Op F1 M1) as O1.
      eexists d1, _. split; [cbn [app xml_loop]; rewrite E1; reflexivity|].
      cbn [fold_left]. rewrite snoc_other by discriminate.
      split; [eapply open_close; [exact Op|exact O1|auto|intros; discriminate]|]. split; [auto|].
      intros q Hq. unfold with_new. destruct (Nat.eqb_spec q p); [lia|auto]. }
  induction l as [|x l IH]; [exact Hn|]. apply Hc; auto.
Qed.

Lemma parse_xml_ok : forall l, exists d kids,
  parse_xml (XStartDocument :: flat_map events_of l ++ [XEndDocument]) = Ok d /\
  doc_forest d kids /\
  subtree kids (numbered document_node_id (XT DDocument (content_of l))) /\
  map data (nodes d) = DDocument :: contents (XT DDocument (content_of l)) /\ style_elements d = [].
Proof.
  intro l. unfold parse_xml. cbn [xml_loop].
  pose proof document_new_doc as (Hf & _).
  assert (O0 : open document_new (fun _ => []) 1 [DDocument; DDocument] []).
  { split; [exact Hf|]. split; [reflexivity|]. split; [reflexivity|]. split; [reflexivity|]. split; [constructor|].
    split; [intros ? ? []|]. split; [lia|intros ? ? []]. }
  destruct (reads_items l _ _ _ _ _ [] [XEndDocument] O0) as (d & kids & E & Op & St & Fr).
  rewrite snoc_fold0 in Op. change (glued (flat_map meaning l)) with (content_of l) in Op.
  pose proof (open_length _ _ _ _ _ Op) as Ln.
  pose proof Op as (F & _ & M & K & Sb & _ & _ & Lo). exists d, kids. split; [unfold document_node_id; rewrite E; reflexivity|].
  assert (D : data (node_at d document_node_id) = DDocument).
  { unfold node_at. rewrite <- (map_nth data), M. reflexivity. }
  split; [|split; [|split; [|exact St]]].
  - split; [auto|]. split; [lia|]. split; [intros q I; apply Lo in I; lia|].
    split; [intros q I; apply Lo in I; unfold document_node_id in I; lia|]. split; [apply Fr; lia|exact D].
  - rewrite numbered_eq. constructor; auto.
  - rewrite M. reflexivity.
Qed.

(** ** Any events *)
Lemma push_child_doc : forall d kids p x, doc_forest d kids -> 0 < p < length (nodes d) ->
  exists d' kids', push_child d p x = Ok (d', length (nodes d)) /\ doc_forest d' kids' /\
    length (nodes d') = S (length (nodes d)).
Proof.
  intros d kids p x Hd [P0 Hp]. pose proof Hd as (F & L & Z & O & K0 & D).
  destruct (append_new d kids p x F Hp) as (d' & E & F' & M & _).
  exists d'. eexists. split; [|split].
  - unfold push_child. cbn [push_node]. change (mkDoc (nodes d ++ [node_new x]) (style_elements d)) with (fst (new_node d x)).
    rewrite E. reflexivity.
  - eapply doc_keep; [exact Hd|exact F'| | |].
    + rewrite (map_data_length _ _ _ M). lia.
    + rewrite (map_data_at _ _ _ _ M). destruct (Nat.eqb_spec 1 (length (nodes d))); [lia|]. exact D.
    + intros q y I. apply in_with_new in I as [I|[-> ->]]; [auto| |symmetry; apply app_nil_r]. right. lia.
  - apply (map_data_length _ _ _ M).
Qed.
Lemma xml_text_doc : forall d kids p s, doc_forest d kids -> 0 < p < length (nodes d) ->
  exists d' kids', xml_text d p s = Ok d' /\ doc_forest d' kids' /\ length (nodes d) <= length (nodes d').
Proof.
  intros d kids p s Hd Hp. pose proof Hd as (F & L & Z & O & K0 & D).
  destruct (push_child_doc d kids p (DText s) Hd Hp) as (d1 & k1 & E1 & H1 & L1).
  unfold xml_text. rewrite index_ok by lia. cbn [lift bind].
  destruct (proj1 (proj2 F) p) as [_ ->].
  assert (New : exists d' kids', (di <- push_child d p (DText s);; Ok (fst di)) = Ok d' /\ doc_forest d' kids' /\ length (nodes d) <= length (nodes d')).
  { exists d1, k1. rewrite E1. split; [reflexivity|]. split; [auto|lia]. }
  destruct (hd_error (rev (kids p))) as [x|] eqn:Ex; [|exact New]. apply hd_rev_in in Ex.
  destruct (child_bounds d kids p x F Ex) as [Bx _]. rewrite index_ok by auto. cbn [lift bind].
  destruct (data (node_at d x)) eqn:Dx; try exact New.
  destruct (set_data_ok d kids x (DText (contents ++ s)) F Bx) as (d2 & E2 & F2 & L2 & S2 & D2).
  exists d2, kids. rewrite E2. split; [reflexivity|]. split; [|lia].
  eapply doc_keep; [exact Hd|exact F2|lia| |auto]. rewrite D2. unfold document_node_id in D.
  destruct (Nat.eqb_spec 1 x) as [<-|]; [congruence|exact D].
Qed.
Lemma xml_loop_safe : forall evs d kids p anc, doc_forest d kids -> 0 < p < length (nodes d) ->
  Forall (fun a => 0 < a < length (nodes d)) anc -> closes (length anc) evs = true ->
  (exists d' kids', xml_loop evs d p anc = Ok d' /\ doc_forest d' kids') \/ (xml_loop evs d p anc = Err XmlError /\ In XError evs).
Proof.
  induction evs as [|e evs IH]; intros d kids p anc Hd Hp Fa C; cbn [xml_loop].
  - left. eauto.
  - assert (Skip : forall e, (exists d' kids', xml_loop evs d p anc = Ok d' /\ doc_forest d' kids') \/ (xml_loop evs d p anc = Err XmlError /\ In XError evs) ->
      (exists d' kids', xml_loop evs d p anc = Ok d' /\ doc_forest d' kids') \/ (xml_loop evs d p anc = Err XmlError /\ In XError (e :: evs))).
    { intros e0 [H|[H I]]; [auto|right; split; [auto|right; auto]]. }
    assert (Text : forall e s, closes (length anc) evs = true ->
      (exists d' kids', (d <- xml_text d p s;; xml_loop evs d p anc) = Ok d' /\ doc_forest d' kids') \/
      ((d <- xml_text d p s;; xml_loop evs d p anc) = Err XmlError /\ In XError (e :: evs))).
    { intros e0 s C'. destruct (xml_text_doc d kids p s Hd Hp) as (d1 & k1 & -> & H1 & L1). cbn [bind].
      destruct (IH d1 k1 p anc H1) as [H|[H I]]; auto; [lia| |right; split; [auto|right; auto]].
      eapply Forall_impl; [|exact Fa]. intros; cbv beta in *; lia. }
    destruct e; cbn [closes] in C; try (apply Skip; eapply IH; eauto; fail); try (apply Text; exact C).
    + destruct (push_child_doc d kids p (DProcessingInstruction name match data with Some x => x | None => [] end) Hd Hp) as (d1 & k1 & -> & H1 & L1).
      cbn [bind fst]. destruct (IH d1 k1 p anc H1) as [H|[H I]]; auto; [lia| |right; split; [auto|right; auto]].
      eapply Forall_impl; [|exact Fa]. intros; cbv beta in *; lia.
    + destruct (push_child_doc d kids p (xml_element name attributes) Hd Hp) as (d1 & k1 & -> & H1 & L1).
      cbn [bind fst snd]. destruct (IH d1 k1 (length (nodes d)) (p :: anc) H1) as [H|[H I]]; auto; [lia| |right; split; [auto|right; auto]].
      constructor; [lia|]. eapply Forall_impl; [|exact Fa]. intros; cbv beta in *; lia.
    + destruct anc as [|a anc]; [discriminate|]. inversion Fa; subst.
      destruct (IH d kids a anc Hd) as [H|[H I]]; auto. right; split; [auto|right; auto].
    + right. split; [reflexivity|left; auto].
Qed.
Lemma xml_loop_panics : forall evs d kids p anc, doc_forest d kids -> 0 < p < length (nodes d) ->
  Forall (fun a => 0 < a < length (nodes d)) anc -> closes (length anc) evs = false -> ~ In XError evs ->
  xml_loop evs d p anc = Panic.
Proof.
  induction evs as [|e evs IH]; intros d kids p anc Hd Hp Fa C NE; cbn [xml_loop]; [discriminate|].
  assert (NE' : ~ In XError evs) by (intro I; apply NE; right; auto).
  assert (Text : forall s, closes (length anc) evs = false -> (d <- xml_text d p s;; xml_loop evs d p anc) = Panic).
  { intros s C'. destruct (xml_text_doc d kids p s Hd Hp) as (d1 & k1 & -> & H1 & L1). cbn [bind].
    apply (IH d1 k1); auto; [lia|]. eapply Forall_impl; [|exact Fa]. intros; cbv beta in *; lia. }
  destruct e; cbn [closes] in C; try (eapply IH; eauto; fail); try (apply Text; exact C).
  - destruct (push_child_doc d kids p (DProcessingInstruction name match data with Some x => x | None => [] end) Hd Hp) as (d1 & k1 & -> & H1 & L1).
    cbn [bind fst]. apply (IH d1 k1); auto; [lia|]. eapply Forall_impl; [|exact Fa]. intros; cbv beta in *; lia.
  - destruct (push_child_doc d kids p (xml_element name attributes) Hd Hp) as (d1 & k1 & -> & H1 & L1).
    cbn [bind fst snd]. apply (IH d1 k1); auto; [lia|]. constructor; [lia|]. eapply Forall_impl; [|exact Fa]. intros; cbv beta in *; lia.
  - destruct anc as [|a anc]; [reflexivity|]. inversion Fa; subst. apply (IH d kids); auto.
  - destruct NE. left. auto.
Qed.
