(** Pages of XML files *)
From Coq Require Import QArith Lia.
From Verif Require Import Base Dom DomSpec DomProofs DomTreeProofs DomWalkProofs DomXml DomXmlSpec DomXmlProofs DomProps FontCmap
  StyleValues StyleProperties StyleCascade StyleSpec StyleElementSpec StyleElementProofs StyleProps UserAgent UserAgentSpec UserAgentProofs
  LayoutTree BoxTree BoxTreeSpec BoxTreeProofs BoxTreeProps Main MainSpec MainProofs MainProps XmlPageSpec.
Local Open Scope nat_scope.

(** ** Trees *)
Definition go := fix go (i : nat) (l : list xtree) : list tree :=
  match l with [] => [] | x :: r => numbered i x :: go (i + xsize x) r end.
Definition xdata (x : xtree) : node_data := match x with XT y _ => y end.
Lemma numbered_go : forall i y c, numbered i (XT y c) = T i (go (S i) c).
Proof. reflexivity. Qed.
Lemma xsize_contents : forall x, length (contents x) = xsize x.
Proof.
  fix IH 1. intros [y c]. cbn [contents xsize length]. f_equal. induction c as [|x c IHc]; [reflexivity|]. cbn [flat_map map list_sum fold_right].
  rewrite app_length, IH. f_equal. exact IHc.
Qed.
Lemma roots_data : forall (all : list node_data) l a z, all = a ++ flat_map contents l ++ z ->
  Forall2 (fun t x => nth_error all (root t) = Some (xdata x)) (go (length a) l) l.
Proof.
  intros all l. induction l as [|[y c] l IH]; intros a z E; [constructor|]. cbn [go]. rewrite numbered_go. constructor.
  - cbn [root xdata]. rewrite E. cbn [flat_map contents app]. rewrite nth_error_app2, Nat.sub_diag by lia. reflexivity.
  - rewrite <- (xsize_contents (XT y c)), <- app_length. apply (IH _ z). rewrite E. cbn [flat_map]. rewrite !app_assoc. reflexivity.
Qed.

(** ** Items *)
Definition text_ok (y : node_data) : Prop := forall s, y = DText s -> exists u, encodes s u.
Fixpoint ok_tree (x : xtree) : Prop := match x with XT y c => text_ok y /\ (fix all (l : list xtree) : Prop := match l with [] => True | x :: r => ok_tree x /\ all r end) c end.
Definition ok_trees := fix all (l : list xtree) : Prop := match l with [] => True | x :: r => ok_tree x /\ all r end.
Lemma ok_trees_app : forall a b, ok_trees a -> ok_trees b -> ok_trees (a ++ b).
Proof. induction a as [|x a IH]; intros b Ha Hb; [exact Hb|]. destruct Ha as [Hx Ha]. split; [exact Hx|]. exact (IH b Ha Hb). Qed.
Lemma join_ok : forall x r, ok_tree x -> ok_trees r -> ok_trees (join x r).
Proof.
  intros [y c] r Hx Hr. unfold join. destruct y as [| |a| | |]; try (split; assumption). destruct c; [|split; assumption].
  destruct r as [|[[| |b| | |] [|]] r]; try (split; assumption). destruct Hx as [Ha _], Hr as [[Hb _] Hr]. split; [|exact Hr]. split; [|exact I].
  intros s E. assert (s = a ++ b) as -> by congruence. apply encodes_app; [exact (Ha a eq_refl)|exact (Hb b eq_refl)].
Qed.
Lemma joined_ok : forall l, ok_trees l -> ok_trees (fold_right join [] l).
Proof. induction l as [|x l IH]; intros H; [exact I|]. destruct H as [Hx Hl]. cbn [fold_right]. apply join_ok; auto. Qed.
Lemma meaning_ok : forall x, utf8_texts x -> ok_trees (meaning x).
Proof.
  fix IH 1. intros [n a c|s|s|s|s|n x] H; cbn [meaning utf8_texts] in *; try (split; [|exact I]; split; [|exact I]; intros t E; first [discriminate E|assert (t = s) as -> by congruence; exact H]); [|exact I].
  split; [|exact I]. split; [intros s E; discriminate E|]. apply joined_ok. induction c as [|x c IHc]; [exact I|]. destruct H as [Hx Hc]. cbn [flat_map]. apply ok_trees_app; [exact (IH x Hx)|exact (IHc Hc)].
Qed.
Lemma content_ok : forall l, (forall x, In x l -> utf8_texts x) -> ok_trees (content_of l).
Proof.
  intros l H. apply joined_ok. induction l as [|x l IH]; [exact I|]. cbn [flat_map]. apply ok_trees_app; [apply meaning_ok; apply H; left; reflexivity|]. apply IH. intros y I. apply H. right. exact I.
Qed.
Lemma contents_ok : forall x, ok_tree x -> forall y, In y (contents x) -> text_ok y.
Proof.
  fix IH 1. intros [y0 c] [H0 Hc] y Iy. cbn [contents] in Iy. destruct Iy as [<-|Iy]; [exact H0|]. clear H0. induction c as [|x c IHc]; [destruct Iy|]. destruct Hc as [Hx Hc].
  cbn [flat_map] in Iy. apply in_app_or in Iy as [Iy|Iy]; [exact (IH x Hx y Iy)|exact (IHc Hc Iy)].
Qed.
Lemma join_element : forall e c r, join (XT (DElement e) c) r = XT (DElement e) c :: r.
Proof. reflexivity. Qed.
Lemma around_trees : forall l r, Forall around l -> exists p, fold_right join [] (flat_map meaning l ++ r) = p ++ fold_right join [] r /\ Forall (fun x => ignorable (xdata x)) p.
Proof.
  induction l as [|x l IH]; intros r F; [exists []; split; [reflexivity|constructor]|]. inversion F as [|? ? Hx Fl]; subst. destruct (IH r Fl) as (p & E & Fp).
  destruct x as [| | | |s|n y]; try contradiction Hx; cbn [flat_map meaning app].
  - exists p. split; assumption.
  - eexists. cbn [fold_right]. rewrite E. cbn [join]. split; [exact (app_comm_cons p _ _)|]. constructor; [exact I|exact Fp].
Qed.
Lemma file_trees : forall l, xml_file l -> exists p e c q, content_of l = p ++ XT (DElement e) c :: q /\ Forall (fun x => ignorable (xdata x)) p /\ Forall (fun x => ignorable (xdata x)) q.
Proof.
  intros l [(before & n & a & c & after & -> & Fb & Fa) _]. unfold content_of. rewrite flat_map_app. cbn [flat_map meaning app].
  match goal with |- context [flat_map meaning before ++ ?r] => destruct (around_trees before r Fb) as (p & E & Fp) end. destruct (around_trees after [] Fa) as (q & Eq & Fq).
  rewrite app_nil_r in Eq. cbn [fold_right] in E. rewrite join_element in E. rewrite E. rewrite Eq. cbn [fold_right]. rewrite app_nil_r. do 4 eexists. split; [reflexivity|]. split; assumption.
Qed.

(** ** Documents *)
Lemma xml_parsed : forall l, xml_file l -> exists d kids before x after, parse_xml (XStartDocument :: flat_map events_of l ++ [XEndDocument]) = Ok d /\ doc_forest d kids /\
  kids document_node_id = before ++ x :: after /\ is_element (data (node_at d x)) /\ (forall y, In y (before ++ after) -> ignorable (data (node_at d y))) /\
  forall i t, data (node_at d i) = DText t -> exists u, encodes t u.
Proof.
  intros l H. destruct (C26_xml_mirrors_events l) as (d & kids & E & Hf & St & M). destruct (file_trees l H) as (p & e & c & q & Ec & Fp & Fq).
  rewrite numbered_go in St. inversion St as [i ts K _]; subst. cbn [contents] in M.
  assert (At : forall i y, nth_error (map data (nodes d)) i = Some y -> data (node_at d i) = y).
  { intros i y Hn. rewrite nth_error_map in Hn. unfold node_at. destruct (nth_error (nodes d) i) as [n|] eqn:En; cbn [option_map] in Hn; [|discriminate Hn]. rewrite (nth_error_nth _ _ _ En). congruence. }
  pose proof (roots_data (map data (nodes d)) (content_of l) [DDocument; DDocument] [] ltac:(rewrite app_nil_r; exact M)) as R. cbn [length] in R. change (S document_node_id) with 2 in K.
  rewrite Ec in R, K. apply Forall2_app_inv_r in R as (tp & tr & Rp & Rr & Et). inversion Rr as [|te ? tq ? Re Rq]; subst. clear Rr.
  exists d, kids, (map root tp), (root te), (map root tq). split; [exact E|]. split; [exact Hf|]. split.
  { rewrite K, Et, map_app. reflexivity. }
  split; [rewrite (At _ _ Re); exact I|]. split.
  - assert (G : forall ts xs, Forall2 (fun t x => nth_error (map data (nodes d)) (root t) = Some (xdata x)) ts xs -> Forall (fun x => ignorable (xdata x)) xs -> forall y, In y (map root ts) -> ignorable (data (node_at d y))).
    { intros ts0 xs F2. induction F2 as [|t x ts0 xs Ht F2 IH]; intros F y Iy; [destruct Iy|]. inversion F; subst. destruct Iy as [<-|Iy]; [rewrite (At _ _ Ht); assumption|auto]. }
    intros y Iy. apply in_app_or in Iy as [Iy|Iy]; [exact (G tp p Rp Fp y Iy)|exact (G tq q Rq Fq y Iy)].
  - intros i t Dt. assert (Hi : text_ok (data (node_at d i))).
    { unfold node_at. destruct (nth_in_or_default i (nodes d) (node_new DDocument)) as [Hin|Hd].
      - apply (in_map data) in Hin. rewrite M in Hin. destruct Hin as [Hin|[Hin|Hin]]; [rewrite <- Hin; intros s Es; discriminate Es|rewrite <- Hin; intros s Es; discriminate Es|].
        apply in_flat_map in Hin as (x & Ix & Iy). pose proof (content_ok l (proj2 H)) as O. assert (Ox : ok_tree x) by (clear - O Ix; induction (content_of l) as [|z r IH]; [destruct Ix|destruct O as [Oz Or]; destruct Ix as [->|Ix]; [exact Oz|exact (IH Ix Or)]]).
        exact (contents_ok x Ox _ Iy).
      - rewrite Hd. intros s Es. discriminate Es. }
    exact (Hi t Dt).
Qed.

(** ** The same content, the same document *)
Lemma preorder_numbered : forall x i, DomSpec.preorder (numbered i x) = seq i (xsize x).
Proof.
  fix IH 1. intros [y c] i. rewrite numbered_go. cbn [DomSpec.preorder xsize seq]. f_equal. generalize (S i). clear i y. induction c as [|x c IHc]; intros i; [reflexivity|].
  cbn [go flat_map map]. rewrite IH, IHc. cbn [list_sum fold_right]. rewrite seq_app. reflexivity.
Qed.
Lemma subtree_children : forall kids kids' t, subtree kids t -> subtree kids' t -> forall i, In i (DomSpec.preorder t) -> kids i = kids' i.
Proof.
  intros kids kids'. fix IH 2. intros t S S' i I. destruct S as [j ts K F]. inversion S' as [j' ts' K' F']; subst. cbn [DomSpec.preorder] in I. destruct I as [<-|I]; [congruence|].
  clear K K' S'. revert F' I. revert ts F. fix IHl 2. intros ts F F' I. destruct F as [|t ts Ht F]; [destruct I|]. cbn [flat_map] in I. apply in_app_or in I as [I|I].
  - apply (IH t Ht); [inversion F'; assumption|exact I].
  - apply (IHl ts F); [inversion F'; assumption|exact I].
Qed.
Lemma same_kids_same : forall d d' kids kids', in_forest d kids -> in_forest d' kids' -> (forall i, kids i = kids' i) -> map data (nodes d) = map data (nodes d') -> nodes d = nodes d'.
Proof.
  intros d d' kids kids' (_ & F2 & F3 & F4 & F5 & _) (_ & G2 & G3 & G4 & G5 & _) EK M.
  assert (G3' : forall p c, child_of kids c p <-> parent (node_at d' c) = Some p) by (intros p c; rewrite <- G3; unfold child_of; rewrite EK; reflexivity).
  assert (L : length (nodes d) = length (nodes d')) by (rewrite <- (map_length data), M; apply map_length).
  apply (nth_ext _ _ (node_new DDocument) (node_new DDocument) L). intros i Hi. fold (node_at d i). fold (node_at d' i).
  assert (D : data (node_at d i) = data (node_at d' i)) by (unfold node_at; rewrite <- !(map_nth data), M; reflexivity).
  assert (P : parent (node_at d i) = parent (node_at d' i)).
  { destruct (parent (node_at d i)) as [p|] eqn:E; [symmetry; apply G3'; apply F3; exact E|]. destruct (parent (node_at d' i)) as [p|] eqn:E'; [|reflexivity]. apply G3' in E'. apply F3 in E'. congruence. }
  destruct (F2 i) as [Ff Fl], (G2 i) as [Gf Gl]. rewrite <- EK in Gf, Gl.
  assert (S : previous_sibling (node_at d i) = previous_sibling (node_at d' i) /\ next_sibling (node_at d i) = next_sibling (node_at d' i)).
  { destruct (parent (node_at d i)) as [p|] eqn:E.
    - apply F3 in E. unfold child_of in E. apply in_split in E as (l & r & E). destruct (F4 p l i r E). rewrite EK in E. destruct (G4 p l i r E). split; congruence.
    - symmetry in P. destruct (F5 i E), (G5 i P). split; congruence. }
  destruct S. destruct (node_at d i), (node_at d' i). cbn in *. congruence.
Qed.
Lemma xml_same : forall l l', content_of l = content_of l' ->
  parse_xml (XStartDocument :: flat_map events_of l ++ [XEndDocument]) = parse_xml (XStartDocument :: flat_map events_of l' ++ [XEndDocument]).
Proof.
  intros l l' C. destruct (parse_xml_ok l) as (d & kids & -> & Hf & S & M & St). destruct (parse_xml_ok l') as (d' & kids' & -> & Hf' & S' & M' & St'). f_equal.
  rewrite <- C in S', M'. assert (N : nodes d = nodes d').
  { apply (same_kids_same d d' kids kids' (proj1 Hf) (proj1 Hf')); [|congruence]. intros i.
    assert (Len : length (nodes d) = Datatypes.S (xsize (XT DDocument (content_of l)))) by (rewrite <- (map_length data), M; cbn [length]; rewrite xsize_contents; reflexivity).
    assert (Len' : length (nodes d') = length (nodes d)) by (rewrite <- (map_length data), M', <- M; apply map_length).
    destruct i as [|i]; [destruct Hf as (_ & _ & _ & _ & -> & _), Hf' as (_ & _ & _ & _ & -> & _); reflexivity|].
    destruct (Nat.lt_ge_cases (Datatypes.S i) (length (nodes d))) as [Lt|Ge].
    - apply (subtree_children kids kids' _ S S'). rewrite preorder_numbered. apply in_seq. unfold document_node_id. lia.
    - assert (Z : forall dd k, in_forest dd k -> length (nodes dd) <= Datatypes.S i -> k (Datatypes.S i) = []).
      { intros dd k (_ & F2 & _) Ln. destruct (F2 (Datatypes.S i)) as [F _]. unfold node_at in F. rewrite nth_overflow in F by exact Ln. destruct (k (Datatypes.S i)); [reflexivity|discriminate F]. }
      rewrite (Z d kids (proj1 Hf) Ge), (Z d' kids' (proj1 Hf')) by lia. reflexivity. }
  destruct d as [ns ss], d' as [ns' ss']. cbn in N, St, St'. congruence.
Qed.
