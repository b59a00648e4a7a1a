(** Proofs about the user-agent style sheet *)
From Coq Require Import QArith Lia.
From Verif Require Import Base Dom DomSpec DomProofs DomWalkProofs StyleValues StyleProperties StyleCascade StyleSelectors StyleSpec
  StyleElementSpec StyleElementProofs UserAgent UserAgentSpec.
Local Open Scope nat_scope.

Section Sheet.
Variable pc : parser color.
Variable other : Type.
Variable other_specificity : other -> N.
Variable other_matches : other -> document -> nat -> bool.
Notation selector := (ua_selector other).
Notation specificity := (ua_specificity other other_specificity).
Notation matches := (ua_matches other other_matches).

(** The rules of the sheet *)
Definition ua_set : style_set selector :=
  Eval vm_compute in match add_stylesheets pc selector [] [user_agent_css other] with Ok s => s | _ => [] end.
Lemma ua_set_ok : add_stylesheets pc selector [] [user_agent_css other] = Ok ua_set.
Proof. vm_compute. reflexivity. Qed.

(** … with a line for each declaration *)
Definition lines_of (r : selector * declaration_block) : list (list part * declaration * bool) :=
  match fst r with
  | Compound l => map (fun x => (l, fst x, snd x)) (combine (declarations (snd r)) (important (snd r)))
  | Other _ => []
  end.
Definition lines : list (list part * declaration * bool) := flat_map lines_of ua_set.
Definition displays_as (v : display) (imp : bool) (l : list part) : list part * declaration * bool := (l, Declares display_ v, imp).
Definition type_selector (n : bytes) : list part := [LocalName n].
Definition margin_line (p : longhand) (e : kind_of p = KLpa) : list part * declaration * bool :=
  (type_selector (bs "body"), Declares p (@eq_rect_r _ KLpa specified_kind (SALength (SAbsolute 8)) _ e), false).
Definition embed_hidden : list part := [LocalName (bs "embed"); AttributeExists (bs "hidden")].
Lemma lines_eq : lines =
  displays_as DisplayNone false [AttributeExists (bs "hidden")] ::
  map (fun n => displays_as DisplayNone false (type_selector n)) not_displayed ++
  [ displays_as (OutsideInside Inline Flow) false embed_hidden;
    (embed_hidden, Declares height (SALength (SAbsolute 0)), false); (embed_hidden, Declares width (SALength (SAbsolute 0)), false);
    displays_as DisplayNone true [LocalName (bs "input"); AttributeEquals (bs "type") (bs "hidden") AsciiCaseInsensitive] ] ++
  map (fun n => displays_as (OutsideInside Block Flow) false (type_selector n)) (firstn 2 blocks) ++
  [ margin_line margin_top eq_refl; margin_line margin_left eq_refl; margin_line margin_bottom eq_refl; margin_line margin_right eq_refl ] ++
  map (fun n => displays_as (OutsideInside Block Flow) false (type_selector n)) (skipn 2 blocks).
Proof. vm_compute. reflexivity. Qed.

Section Node.
Variable d : document.
Variable n : nat.
Variable e : element_data.
Hypothesis He : data (node_at d n) = DElement e.

Lemma in_range : n < length (nodes d).
Proof.
  destruct (Nat.lt_ge_cases n (length (nodes d))) as [H|H]; [exact H|]. exfalso. revert He. unfold node_at.
  rewrite nth_overflow by exact H. discriminate.
Qed.
Lemma unwrapped : unwrap_element d n = Ok e.
Proof. unfold unwrap_element. rewrite (index_ok d n in_range). cbn [bind]. unfold as_element. rewrite He. reflexivity. Qed.
Definition part_means (p : part) : Prop :=
  match p with
  | LocalName name => local e = name
  | AttributeExists name => exists a, In a (e_attrs e) /\ q_ns (a_name a) = [] /\ q_local (a_name a) = name /\ True
  | AttributeEquals name value c =>
      exists a, In a (e_attrs e) /\ q_ns (a_name a) = [] /\ q_local (a_name a) = name /\ case_eq c value (a_value a) = true
  end.
Lemma attr_means : forall name f, is_true (attr_matches d n (Some []) name f) = true <->
  exists a, In a (e_attrs e) /\ q_ns (a_name a) = [] /\ q_local (a_name a) = name /\ f (a_value a) = true.
Proof.
  intros name f. unfold attr_matches. rewrite unwrapped. cbn [bind is_true]. rewrite existsb_exists. split.
  - intros (a & I & H). apply andb_true_iff in H as [H F]. apply andb_true_iff in H as [L N]. apply bytes_eqb_eq in L, N. exists a. auto.
  - intros (a & I & N & L & F). exists a. split; [exact I|]. rewrite !andb_true_iff, !bytes_eqb_eq. auto.
Qed.
Lemma part_matches_iff : forall p, part_matches p d n = true <-> part_means p.
Proof.
  intros [name|name|name value c]; cbn [part_matches part_means].
  - unfold local_name. rewrite unwrapped. cbn [bind]. apply bytes_eqb_eq.
  - rewrite attr_means. split; intros (a & A & B & C & _); exists a; auto.
  - apply attr_means.
Qed.
Definition all_mean (l : list part) : Prop := Forall part_means l.
Lemma matches_iff : forall l, matches (Compound l) d n = true <-> all_mean l.
Proof.
  intro l. cbn [ua_matches]. unfold all_mean. rewrite forallb_forall, Forall_forall. split; intros H x I.
  - apply part_matches_iff. auto.
  - apply part_matches_iff. auto.
Qed.

Variable author : style_set selector.
Variable attr : option declaration_block.
Notation occ := (occurs selector specificity (fun s => matches s d n) ua_set author attr).

Lemma nth_in_combine : forall (A B : Type) (a : list A) (b : list B) k x y,
  nth_error a k = Some x -> nth_error b k = Some y -> In (x, y) (combine a b).
Proof.
  intros A B a. induction a as [|x0 a IH]; intros [|y0 b] [|k] x y Ha Hb; cbn [nth_error combine] in *; try discriminate.
  - injection Ha as ->. injection Hb as ->. left. reflexivity.
  - right. eapply IH; eauto.
Qed.
Lemma in_combine_nth : forall (A B : Type) (a : list A) (b : list B) x y,
  In (x, y) (combine a b) -> exists k, nth_error a k = Some x /\ nth_error b k = Some y.
Proof.
  intros A B a. induction a as [|x0 a IH]; intros [|y0 b] x y H; cbn [combine] in H; try contradiction.
  destruct H as [H|H]; [injection H as -> ->; exists 0; auto|]. destruct (IH b x y H) as (k & K). exists (S k). exact K.
Qed.
Lemma no_others : forall s b, In (s, b) ua_set -> exists l, s = Compound l.
Proof.
  intros s b H.
  assert (X : Forall (fun r : selector * declaration_block => exists l, fst r = Compound l) ua_set)
    by (unfold ua_set; repeat constructor; eexists; reflexivity).
  rewrite Forall_forall in X. exact (X _ H).
Qed.
(** The occurrences from the sheet are those of the lines *)
Lemma ua_in : forall o, occ o -> o_origin o = UserAgent ->
  exists l, In (l, o_declaration o, o_important o) lines /\ all_mean l /\ o_specificity o = specificity (Compound l) /\ o_attribute o = false.
Proof.
  intros o H. destruct H as [i s b k dd imp H1 H2 H3 H4|i s b k dd imp H1 H2 H3 H4|b k dd imp H1 H2 H3]; intro O; try discriminate O.
  apply nth_error_In in H1. destruct (no_others s b H1) as (l & ->). exists l. cbn [o_declaration o_important o_specificity o_attribute]. split; [|split; [apply matches_iff; exact H2|auto]].
  unfold lines. apply in_flat_map. exists (Compound l, b). split; [exact H1|]. unfold lines_of. cbn [fst snd].
  apply in_map_iff. exists (dd, imp). split; [reflexivity|]. eapply nth_in_combine; eauto.
Qed.
Lemma ua_out : forall l dd imp, In (l, dd, imp) lines -> all_mean l ->
  exists i k, occ (mkOcc UserAgent imp false (specificity (Compound l)) i k dd).
Proof.
  intros l dd imp H M. unfold lines in H. apply in_flat_map in H as ([s b] & I & H). destruct (no_others s b I) as (l' & ->).
  unfold lines_of in H. cbn [fst snd] in H. apply in_map_iff in H as ((x, y) & E & C). inversion E; subst; clear E. cbn [fst snd] in *.
  apply in_combine_nth in C as (k & K1 & K2). apply In_nth_error in I as (i & I). exists i, k.
  eapply occurs_ua; eauto. apply matches_iff. exact M.
Qed.

Lemma first_blocks : forall x, In x (firstn 2 blocks) \/ In x (skipn 2 blocks) <-> In x blocks.
Proof. intro x. rewrite <- in_app_iff, firstn_skipn. reflexivity. Qed.
(** The lines by the longhands they set *)
Inductive display_line : list part -> display -> bool -> Prop :=
| dl_hidden : display_line [AttributeExists (bs "hidden")] DisplayNone false
| dl_none : forall x, In x not_displayed -> display_line (type_selector x) DisplayNone false
| dl_embed : display_line embed_hidden (OutsideInside Inline Flow) false
| dl_input : display_line [LocalName (bs "input"); AttributeEquals (bs "type") (bs "hidden") AsciiCaseInsensitive] DisplayNone true
| dl_block : forall x, In x blocks -> display_line (type_selector x) (OutsideInside Block Flow) false.
Inductive line : list part -> declaration -> bool -> Prop :=
| line_display : forall l v imp, display_line l v imp -> line l (Declares display_ v) imp
| line_height : line embed_hidden (Declares height (SALength (SAbsolute 0))) false
| line_width : line embed_hidden (Declares width (SALength (SAbsolute 0))) false
| line_margin_top : line (type_selector (bs "body")) (Declares margin_top (SALength (SAbsolute 8))) false
| line_margin_left : line (type_selector (bs "body")) (Declares margin_left (SALength (SAbsolute 8))) false
| line_margin_bottom : line (type_selector (bs "body")) (Declares margin_bottom (SALength (SAbsolute 8))) false
| line_margin_right : line (type_selector (bs "body")) (Declares margin_right (SALength (SAbsolute 8))) false.
Lemma lines_iff : forall l dd imp, In (l, dd, imp) lines <-> line l dd imp.
Proof.
  intros l dd imp. rewrite lines_eq. split.
  - intro H. cbn [In] in H. rewrite !in_app_iff, !in_map_iff in H. cbn [In] in H.
    destruct H as [H|[(x & H & I)|[[H|[H|[H|[H|[]]]]]|[(x & H & I)|[[H|[H|[H|[H|[]]]]]|(x & H & I)]]]]];
      unfold displays_as, margin_line in H; inversion H; subst l dd imp; clear H;
      try (constructor; constructor; first [exact I | apply first_blocks; auto]); try (constructor; constructor); constructor.
  - intro H. cbn [In]. rewrite !in_app_iff, !in_map_iff. cbn [In].
    destruct H as [l v imp H| | | | | |].
    + destruct H as [|x I| | |x I].
      * left. reflexivity.
      * right. left. exists x. auto.
      * right. right. left. auto.
      * right. right. left. auto.
      * apply first_blocks in I as [I|I]; right; right; right; [left|right; right]; exists x; auto.
    + right. right. left. auto.
    + right. right. left. auto.
    + do 4 right. left. left. reflexivity.
    + do 4 right. left. right. left. reflexivity.
    + do 4 right. left. right. right. left. reflexivity.
    + do 4 right. left. right. right. right. left. reflexivity.
Qed.

Lemma name_means : forall x, all_mean (type_selector x) <-> local e = x.
Proof. intro x. unfold all_mean, type_selector. split; [intro H; inversion H; subst; assumption|intro H; repeat constructor; exact H]. Qed.
Lemma hidden_means : all_mean [AttributeExists (bs "hidden")] <-> hidden e.
Proof. unfold all_mean. split; [intro H; inversion H; subst; assumption|intro H; repeat constructor; exact H]. Qed.
Lemma embed_means : all_mean embed_hidden <-> local e = bs "embed" /\ hidden e.
Proof.
  unfold all_mean, embed_hidden. split.
  - intro H. inversion H as [|? ? A B]; subst. inversion B as [|? ? C D]; subst. split; [exact A|exact C].
  - intros [A B]. constructor; [exact A|]. constructor; [exact B|constructor].
Qed.
Lemma ignoring_case : forall v, case_eq AsciiCaseInsensitive (bs "hidden") v = true <-> map lower v = bs "hidden".
Proof.
  intro v. cbn [case_eq]. unfold eq_ignore_ascii_case. rewrite bytes_eqb_eq.
  replace (map lower (bs "hidden")) with (bs "hidden") by reflexivity. split; congruence.
Qed.
Lemma input_means :
  all_mean [LocalName (bs "input"); AttributeEquals (bs "type") (bs "hidden") AsciiCaseInsensitive] <-> hidden_input e.
Proof.
  unfold all_mean, hidden_input, has_attribute. split.
  - intro H. inversion H as [|? ? A B]; subst. inversion B as [|? ? C D]; subst. destruct C as (a & X & Y & Z & W). split; [exact A|].
    exists a. apply ignoring_case in W. auto.
  - intros [A (a & X & Y & Z & W)]. constructor; [exact A|]. constructor; [|constructor].
    exists a. apply ignoring_case in W. auto.
Qed.

(** A winner of the sheet is beaten by no other line. *)
Lemma not_beaten : forall o l dd, wins occ o -> o_origin o = UserAgent -> o_important o = false -> o_attribute o = false ->
  (o_specificity o < specificity (Compound l))%N -> In (l, dd, false) lines -> all_mean l ->
  target dd = target (o_declaration o) -> False.
Proof.
  intros o l dd [_ W] O M A S I L T. destruct (ua_out l dd false I L) as (i & k & P).
  destruct (W _ P T) as [E|E].
  - subst o. cbn [o_specificity] in S. lia.
  - unfold loses_to in E. rewrite O, M, A in E. cbn [o_origin o_important o_attribute o_specificity rank attr_rank] in E. lia.
Qed.

Variable parent : option computed_values.
Variable c : computed_values.
Hypothesis Hc : css_style occ parent c.
Notation silent := (author_silent occ).

Lemma display_value : silent display_ -> exists v, ua_display e v /\ adjusted c display_ v.
Proof.
  intro S. destruct (Hc display_) as [(o & v & T & W & G & A)|(No & v & D & A)].
  - destruct (o_origin o) eqn:O; [|exfalso; exact (S o (proj1 W) O T)].
    destruct (ua_in o (proj1 W) O) as (l & I & L & Sp & At). pose proof I as I'. apply lines_iff in I'.
    remember (o_declaration o) as dd eqn:Ed. remember (o_important o) as imp eqn:Ei.
    destruct I' as [l v' imp H| | | | | |]; try discriminate T.
    cbn [target] in *. assert (v = v') by (symmetry; exact G). subst v'. exists v. split; [|exact A].
    assert (NB : imp = false -> forall l2 dd2, In (l2, dd2, false) lines -> all_mean l2 ->
      (specificity (Compound l) < specificity (Compound l2))%N -> target dd2 = display_ -> False).
    { intros Hi l2 dd2 I2 M2 S2 T2. refine (not_beaten o l2 dd2 W O _ At _ I2 M2 _); [congruence|rewrite Sp; exact S2|].
      rewrite T2, <- Ed. reflexivity. }
    destruct H as [|x Ix| | |x Ix].
    + apply hidden_means in L. apply ud_hidden; [|exact L]. intro N.
      apply (NB eq_refl embed_hidden (Declares display_ (OutsideInside Inline Flow))); [apply lines_iff; repeat constructor| |reflexivity|reflexivity].
      apply embed_means. auto.
    + apply name_means in L. apply ud_none. rewrite L. exact Ix.
    + apply embed_means in L as [L1 L2]. apply ud_embed; assumption.
    + apply input_means in L. apply ud_hidden_input. exact L.
    + apply name_means in L. apply ud_block; [rewrite L; exact Ix|]. intro N.
      apply (NB eq_refl [AttributeExists (bs "hidden")] (Declares display_ DisplayNone)); [apply lines_iff; repeat constructor| |reflexivity|reflexivity].
      apply hidden_means. exact N.
  - exists v. split; [|exact A].
    assert (E : v = OutsideInside Inline Flow).
    { apply (proj2 D). intros [X|X]; discriminate X. }
    subst v.
    assert (X : forall l v imp, display_line l v imp -> ~ all_mean l).
    { intros l v imp H M. destruct (ua_out l (Declares display_ v) imp) as (i & k & P); [apply lines_iff; constructor; exact H|exact M|].
      exact (No _ P eq_refl). }
    apply ud_other; intro N.
    + apply (X _ _ _ (dl_none _ N)). apply name_means. reflexivity.
    + apply (X _ _ _ (dl_block _ N)). apply name_means. reflexivity.
    + apply (X _ _ _ dl_hidden). apply hidden_means. exact N.
    + apply (X _ _ _ dl_input). apply input_means. exact N.
Qed.

Lemma hidden_input_value : hidden_input e -> get c display_ = DisplayNone.
Proof.
  intro H. apply input_means in H.
  destruct (ua_out _ _ true (proj2 (lines_iff _ _ _) (line_display _ _ _ dl_input)) H) as (i & k & P).
  assert (F : forall v, v = DisplayNone -> adjusted c display_ v -> get c display_ = DisplayNone).
  { intros v -> [_ [A1 A2]]. cbn [block_level] in A1.
    assert (Dec : out_of_flow c \/ ~ out_of_flow c).
    { unfold out_of_flow. destruct (get c position_); destruct (get c float_); auto;
        right; intros [X|[X|X]]; discriminate X. }
    destruct Dec as [Dec|Dec]; auto. }
  destruct (Hc display_) as [(o & v & T & W & G & A)|(No & _)]; [|exfalso; exact (No _ P eq_refl)].
  assert (Ho : o_origin o = UserAgent /\ o_important o = true).
  { destruct W as [_ W]. destruct (W _ P (eq_sym T)) as [E|E]; [subst o; auto|]. unfold loses_to in E. cbn [o_origin o_important rank] in E.
    destruct (o_origin o), (o_important o); cbn [rank] in E; try lia. auto. }
  destruct Ho as [O M]. destruct (ua_in o (proj1 W) O) as (l & I & _). rewrite M in I. apply lines_iff in I.
  remember (o_declaration o) as dd eqn:Ed. remember true as imp.
  destruct I as [l v' imp H1| | | | | |]; try discriminate Heqimp.
  destruct H1; try discriminate Heqimp. cbn [target] in *. apply (F v); [symmetry; exact G|exact A].
Qed.

Lemma set_line : forall p l s, line l (Declares p s) false ->
  (forall l' dd imp, line l' dd imp -> target dd = p -> dd = Declares p s) -> silent p -> all_mean l ->
  exists w, gives parent (get c font_size) (Declares p s) w /\ adjusted c p w.
Proof.
  intros p l s Hl Only S M. destruct (Hc p) as [(o & w & T & W & G & A)|(No & _)].
  - destruct (o_origin o) eqn:O; [|exfalso; exact (S o (proj1 W) O T)].
    destruct (ua_in o (proj1 W) O) as (l' & I & L & _). apply lines_iff in I. pose proof (Only _ _ _ I T) as Eq.
    revert w G A. rewrite Eq. cbn [target]. intros w G A. exists w. auto.
  - exfalso. destruct (ua_out l _ false (proj2 (lines_iff _ _ _) Hl) M) as (i & k & P). exact (No _ P eq_refl).
Qed.
Lemma not_set : forall p, (forall l dd imp, line l dd imp -> all_mean l -> target dd <> p) -> silent p ->
  exists w, css_default parent p w /\ adjusted c p w.
Proof.
  intros p Only S. destruct (Hc p) as [(o & w & T & W & G & A)|(No & H)]; [|exact H].
  destruct (o_origin o) eqn:O; [|exfalso; exact (S o (proj1 W) O T)].
  destruct (ua_in o (proj1 W) O) as (l' & I & L & _). apply lines_iff in I. exfalso. exact (Only _ _ _ I L T).
Qed.
End Node.
End Sheet.
