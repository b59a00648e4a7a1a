(** Text, shape and uniqueness of the boxes of a document *)
From Coq Require Import FunctionalExtensionality.
From Verif Require Import Base Dom DomSpec DomProofs DomTreeProofs DomWalkProofs FontCmap StyleValues StyleProperties
  StyleCascade StyleSpec StyleProofs StyleElementProofs LayoutTree LayoutSpec BoxTree BoxTreeSpec BoxTextProofs BoxTreeProofs.
Local Open Scope nat_scope.
Local Open Scope res_scope.

(** ** What there is to display is well defined *)
Lemma encodes_unique : forall t a b, encodes t a -> encodes t b -> a = b.
Proof. intros t a b Ha Hb. rewrite <- (chars_encodes _ _ Ha). apply chars_encodes. exact Hb. Qed.
Lemma shows_unique : forall d (has_style : nat -> computed_values -> computed_values -> Prop),
  (forall i p a b, has_style i p a -> has_style i p b -> a = b) ->
  forall s ts a, shows d has_style s ts a -> forall b, shows d has_style s ts b -> a = b.
Proof.
  intros d hs Hu s ts a H.
  induction H as [ps|ps i ts r t ch out D En H IH|ps i ts r out N1 N2 H IH|ps i ts r s out El St Di H IH
    |ps i ts r s inside out El St Di H1 IH1 H IH|ps i ts r s o k inside out El St Di H1 IH1 H IH]; intros b' Hb.
  { inversion Hb. reflexivity. }
  all: inversion Hb; subst.
  all: try match goal with
    | A : ?h ?i ?p ?x, B : ?h ?i ?p ?y |- _ => pose proof (Hu _ _ _ _ A B); subst
    end.
  all: try (match goal with A : get ?s display_ = _, B : get ?s display_ = _ |- _ => rewrite A in B; discriminate B end).
  all: try (match goal with A : data ?n = DText _, B : data ?n = DText _ |- _ => rewrite A in B; injection B as <- end).
  all: try (match goal with A : data ?n = DText _, B : is_element (data ?n) |- _ => rewrite A in B; destruct B end).
  all: try (match goal with A : ~ is_element ?n, B : is_element ?n |- _ => destruct (A B) end).
  all: try (exfalso; match goal with A : ~ is_text _ _ |- _ => apply A; eexists; eassumption end).
  all: try (match goal with A : encodes ?t ?x, B : encodes ?t ?y |- _ => pose proof (encodes_unique _ _ _ A B); subst end).
  - rewrite (IH _ ltac:(eassumption)). reflexivity.
  - auto.
  - auto.
  - rewrite (IH _ ltac:(eassumption)), (IH1 _ ltac:(eassumption)). reflexivity.
  - rewrite (IH _ ltac:(eassumption)), (IH1 _ ltac:(eassumption)). reflexivity.
Qed.
Lemma shows_total : forall d (has_style : nat -> computed_values -> computed_values -> Prop),
  (forall i t, data (node_at d i) = DText t -> exists cs, encodes t cs) ->
  (forall i p, is_element (data (node_at d i)) -> exists s, has_style i p s) ->
  forall ts s, exists cs, shows d has_style s ts cs.
Proof.
  intros d hs Ht Hs.
  assert (Hc : forall t ts, (forall s, exists cs, shows d hs s [t] cs) -> (forall s, exists cs, shows d hs s ts cs) ->
    forall s, exists cs, shows d hs s (t :: ts) cs).
  { intros t ts IHt IHts s. destruct (IHt s) as (a & Ha). destruct (IHts s) as (b & Hb). clear IHt IHts.
    inversion Ha; subst; match goal with H : shows _ _ _ [] _ |- _ => clear H end; eexists.
    - eapply sh_text; eauto.
    - eapply sh_other; eauto.
    - eapply sh_none; eauto.
    - eapply sh_contents; eauto.
    - eapply sh_box; eauto. }
  assert (H1 : forall t s, exists cs, shows d hs s [t] cs).
  { apply (tree_rect' (fun t => forall s, exists cs, shows d hs s [t] cs) (fun ts => forall s, exists cs, shows d hs s ts cs)).
    - intros i ts IH s. destruct (data (node_at d i)) as [|? ? ?|t|?|e|? ?] eqn:D.
      3: { destruct (Ht i t D) as (cs & En). eexists. eapply sh_text; [exact D|exact En|apply sh_nil]. }
      4: { assert (El : is_element (data (node_at d i))) by (rewrite D; exact I).
           destruct (Hs i s El) as (s' & St). destruct (IH s') as (inside & Hin). destruct (get s' display_) as [| |o k] eqn:Di; eexists.
           - eapply sh_none; [exact El|exact St|exact Di|apply sh_nil].
           - eapply sh_contents; [exact El|exact St|exact Di|exact Hin|apply sh_nil].
           - eapply sh_box; [exact El|exact St|exact Di|exact Hin|apply sh_nil]. }
      all: eexists; apply sh_other; [intros (t & E); congruence|rewrite D; intros []|apply sh_nil].
    - intros s. eexists. apply sh_nil.
    - exact Hc. }
  induction ts as [|t ts IH]; [intros s; eexists; apply sh_nil|]. apply Hc; auto.
Qed.

(** ** Uniqueness of the boxes *)
Lemma anonymous_unique : forall s a b, anonymous_style s a -> anonymous_style s b -> a = b.
Proof.
  intros s a b Ha Hb.
  assert (G : forall p, get a p = get b p).
  { apply (style_det (fun _ => False) (Some s)).
    - intros p. right. split; [intros o []|exact (Ha p)].
    - intros p. right. split; [intros o []|exact (Hb p)]. }
  assert (Sd : specified_display a = specified_display b).
  { destruct (Ha display_) as (v & (_ & Dv) & Av & _). destruct (Hb display_) as (w & (_ & Dw) & Aw & _).
    assert (Ni : ~ css_inherited display_) by (intros [E|E]; discriminate E).
    rewrite Av, Aw, (Dv Ni), (Dw Ni). reflexivity. }
  destruct a as [ga sa], b as [gb sb]. cbn [get specified_display] in *. subst. f_equal. extensionality p. apply G.
Qed.
Lemma text_added_unique : forall s l new a b, text_added s l new a -> text_added s l new b -> a = b.
Proof.
  intros s l new a b Ha Hb. inversion Ha; subst; inversion Hb; subst; try congruence.
  - match goal with H : _ ++ [_] = _ ++ [_] |- _ => apply app_inj_tail in H as [-> H]; injection H as -> -> end. reflexivity.
Qed.
Lemma blank_starts : forall c, blank c -> ~ starts_paragraph c.
Proof. intros [s t|s e i]; [|intros []]. intros B (c & I & E). rewrite (B c I) in E. discriminate E. Qed.
Lemma blank_box : forall c, blank c -> ~ (block_content c \/ out_of_flow_content c).
Proof. intros [s t|s e i]; [|intros []]. intros _ [[]|[]]. Qed.
Lemma starts_box : forall c, starts_paragraph c -> ~ (block_content c \/ out_of_flow_content c).
Proof.
  intros [s t|s e i]; [intros _ [[]|[]]|]. intros H [(k & B)|[B|B]];
    [exact (inline_not_block _ _ H B)|exact (inline_not_absolute _ H B)|exact (inline_not_float _ H B)].
Qed.
Lemma paragraph_unique : forall p q r r' : list content,
  (forall x, In x p -> ~ block_content x) -> (forall x, In x q -> ~ block_content x) ->
  match r with [] => True | x :: _ => block_content x end -> match r' with [] => True | x :: _ => block_content x end ->
  p ++ r = q ++ r' -> p = q /\ r = r'.
Proof.
  induction p as [|x p IH]; intros [|y q] r r' Hp Hq Hr Hr' E; cbn [app] in E.
  - auto.
  - subst r. destruct (Hq y (or_introl eq_refl) Hr).
  - subst r'. destruct (Hp x (or_introl eq_refl) Hr').
  - injection E as -> E. destruct (IH q r r') as [-> ->]; auto; intros z I; [apply Hp|apply Hq]; right; exact I.
Qed.
Lemma pieces_unique : forall cs a, pieces cs a -> forall b, pieces cs b -> a = b.
Proof.
  intros cs a H. induction H as [|c r ps B H IH|c r ps B H IH|c p r ps S1 S2 S3 H IH]; intros b Hb.
  - inversion Hb. reflexivity.
  - inversion Hb as [|? ? ? B' H'|? ? ? B' H'|c' p r' ps' S1 S2 S3 H' E]; subst.
    + auto.
    + destruct (blank_box _ B B').
    + destruct (blank_starts _ B S1).
  - inversion Hb as [|? ? ? B' H'|? ? ? B' H'|c' p r' ps' S1 S2 S3 H' E]; subst.
    + destruct (blank_box _ B' B).
    + f_equal. auto.
    + destruct (starts_box _ S1 B).
  - inversion Hb as [|? ? ? B' H'|? ? ? B' H'|c' p' r' ps' S1' S2' S3' H' E]; subst.
    + destruct (blank_starts _ B' S1).
    + destruct (starts_box _ S1 B').
    + destruct (paragraph_unique p' p r' r) as [-> ->]; auto. f_equal. auto.
Qed.
Lemma boxes_unique :
  (forall cs l, level cs l -> forall l', level cs l' -> l = l') /\
  (forall s cs c, container s cs c -> forall c', container s cs c' -> c = c') /\
  (forall s cs c, context s cs c -> forall c', context s cs c' -> c = c') /\
  (forall a ps bs, block_boxes a ps bs -> forall bs', block_boxes a ps bs' -> bs = bs').
Proof.
  apply spec_induct.
  - intros l' H. inversion H as [E|? ? ? ? ? ? ? E|? ? ? ? ? ? ? ? ? E|? ? ? ? ? ? ? ? ? E|? ? ? ? ? ? ? ? ? E]; [reflexivity|..];
      apply app_eq_nil in E as [_ E]; discriminate E.
  - intros cs l s t l1 _ IH A l' H.
    inversion H as [E|cs' l0 s' t' l2 L A' E|cs' l0 s' e' in' bx L K Li E|cs' l0 s' e' in' bx L K Li E|cs' l0 s' e' in' bx L K Li E]; subst;
      try (symmetry in E; apply app_eq_nil in E as [_ E]; discriminate E); apply app_inj_tail in E as [-> E]; try discriminate E.
    injection E as -> ->. rewrite <- (IH _ L) in A'. exact (text_added_unique _ _ _ _ _ A A').
  - intros cs l s e inside boxes _ IH Hs _ IH2 l' H.
    inversion H as [E|cs' l0 s' t' l2 L A' E|cs' l0 s' e' in' bx L K Li E|cs' l0 s' e' in' bx L K Li E|cs' l0 s' e' in' bx L K Li E]; subst;
      try (symmetry in E; apply app_eq_nil in E as [_ E]; discriminate E); apply app_inj_tail in E as [-> E]; try discriminate E; injection E as -> -> ->.
    + rewrite (IH _ L), (IH2 _ Li). reflexivity.
    + destruct (inline_not_absolute _ Hs K).
    + destruct (inline_not_float _ Hs K).
  - intros cs l s e inside c _ IH Hs _ IH2 l' H.
    inversion H as [E|cs' l0 s' t' l2 L A' E|cs' l0 s' e' in' bx L K Li E|cs' l0 s' e' in' bx L K Li E|cs' l0 s' e' in' bx L K Li E]; subst;
      try (symmetry in E; apply app_eq_nil in E as [_ E]; discriminate E); apply app_inj_tail in E as [-> E]; try discriminate E; injection E as -> -> ->.
    + destruct (inline_not_absolute _ K Hs).
    + rewrite (IH _ L), (IH2 _ Li). reflexivity.
    + destruct (absolute_not_float _ Hs K).
  - intros cs l s e inside c _ IH Hs _ IH2 l' H.
    inversion H as [E|cs' l0 s' t' l2 L A' E|cs' l0 s' e' in' bx L K Li E|cs' l0 s' e' in' bx L K Li E|cs' l0 s' e' in' bx L K Li E]; subst;
      try (symmetry in E; apply app_eq_nil in E as [_ E]; discriminate E); apply app_inj_tail in E as [-> E]; try discriminate E; injection E as -> -> ->.
    + destruct (inline_not_float _ K Hs).
    + destruct (absolute_not_float _ K Hs).
    + rewrite (IH _ L), (IH2 _ Li). reflexivity.
  - intros s cs p l P _ IH c' H. inversion H as [? ? p' l' P' L|? ? ps a bs P' N A B]; subst; pose proof (pieces_unique _ _ P _ P') as E.
    + injection E as <-. rewrite (IH _ L). reflexivity.
    + subst. destruct (N p eq_refl).
  - intros s cs ps a boxes P N A _ IH c' H. inversion H as [? ? p' l' P' L|? ? ps' a' bs P' N' A' B]; subst; pose proof (pieces_unique _ _ P _ P') as E.
    + destruct (N p' E).
    + subst. rewrite (anonymous_unique _ _ _ A' A) in B. rewrite (IH _ B). reflexivity.
  - intros s cs c f _ IH Hf c' H. inversion H as [? ? c2 f' C F]; subst. rewrite (IH _ C). f_equal.
    destruct f, f'; try reflexivity; [symmetry; apply F, Hf; reflexivity|apply Hf, F; reflexivity].
  - intros a bs' H. inversion H. reflexivity.
  - intros a p l ps bs _ IH _ IH2 bs' H. inversion H; subst. f_equal; [|auto]. f_equal. f_equal. auto.
  - intros a s e inside c ps bs Hs _ IH _ IH2 bs' H. inversion H; subst.
    + f_equal; [|auto]. f_equal. auto.
    + exfalso. unfold block_style in *. destruct Hs. match goal with H : get _ display_ = _ /\ _ |- _ => destruct H end. congruence.
    + exfalso. eapply absolute_not_block; eauto.
    + exfalso. eapply float_not_block; eauto.
  - intros a s e inside c ps bs Hs _ IH _ IH2 bs' H. inversion H; subst.
    + exfalso. unfold block_style in *. destruct Hs. match goal with H : get _ display_ = _ /\ _ |- _ => destruct H end. congruence.
    + f_equal; [|auto]. f_equal. auto.
    + exfalso. eapply absolute_not_block; eauto.
    + exfalso. eapply float_not_block; eauto.
  - intros a s e inside c ps bs Hs _ IH _ IH2 bs' H. inversion H; subst.
    + exfalso. eapply absolute_not_block; eauto.
    + exfalso. eapply absolute_not_block; eauto.
    + f_equal; [|auto]. f_equal. auto.
    + exfalso. eapply absolute_not_float; eauto.
  - intros a s e inside c ps bs Hs _ IH _ IH2 bs' H. inversion H; subst.
    + exfalso. eapply float_not_block; eauto.
    + exfalso. eapply float_not_block; eauto.
    + exfalso. eapply absolute_not_float; eauto.
    + f_equal; [|auto]. f_equal. auto.
Qed.

(** ** Text *)
Definition ends (b : bool) (t : list N) : bool := match rev t with [] => b | c :: _ => is_space c end.
Lemma ends_cons : forall b c t, ends b (c :: t) = ends (is_space c) t.
Proof. intros b c t. unfold ends. cbn [rev]. destruct (rev t); reflexivity. Qed.
Lemma collapse_app : forall x b y, collapse b (x ++ y) = collapse b x ++ collapse (ends b x) y.
Proof.
  induction x as [|c x IH]; intros b y; [reflexivity|]. cbn [app collapse]. rewrite ends_cons. destruct (is_space c).
  - destruct b; [|cbn [app]; f_equal]; apply IH.
  - cbn [app]. f_equal. apply IH.
Qed.
Definition after (b : bool) (t : list N) : bool := match rev t with [] => b | c :: _ => (c =? 32)%N end.
Lemma after_cons : forall b c t, after b (c :: t) = after (c =? 32)%N t.
Proof. intros b c t. unfold after. cbn [rev]. destruct (rev t); reflexivity. Qed.
Lemma space_32 : is_space 32 = true. Proof. reflexivity. Qed.
Lemma nonspace_not_32 : forall c, is_space c = false -> (c =? 32)%N = false.
Proof. intros c H. destruct (N.eqb_spec c 32) as [->|]; [discriminate H|reflexivity]. Qed.
Lemma after_collapse : forall x b, after b (collapse b x) = ends b x.
Proof.
  induction x as [|c x IH]; intros b; [reflexivity|]. cbn [collapse]. rewrite ends_cons. destruct (is_space c) eqn:E.
  - destruct b; [apply IH|]. rewrite after_cons. apply IH.
  - rewrite after_cons, (nonspace_not_32 c E). apply IH.
Qed.
Lemma collapse_drop : forall b t, collapse b (drop_spaces t) = collapse true t.
Proof.
  intros b t. induction t as [|c t IH]; [reflexivity|]. cbn [drop_spaces]. destruct (is_space c) eqn:E.
  - cbn [collapse]. rewrite E. exact IH.
  - cbn [collapse]. rewrite E. reflexivity.
Qed.
Lemma text_app : forall a b, text_so_far (a ++ b) = text_so_far a ++ text_so_far b.
Proof. intros. unfold text_so_far. apply flat_map_app. Qed.
Lemma text_added_text : forall s l new l', text_added s l new l' -> text_so_far l' = text_so_far l ++ new.
Proof.
  intros s l new l' H. inversion H; subst.
  - rewrite app_nil_r. reflexivity.
  - rewrite !text_app. cbn [text_so_far flat_map run_text]. rewrite !app_nil_r, <- app_assoc. reflexivity.
  - rewrite !text_app. cbn [text_so_far flat_map run_text]. rewrite !app_nil_r. reflexivity.
Qed.
Lemma block_not_inline : forall s i, get s display_ = OutsideInside Block i -> is_inline s = false.
Proof. intros s i E. unfold is_inline. rewrite E. reflexivity. Qed.
Lemma level_text : forall cs l, level cs l -> text_so_far l = collapse true (flat_map kept_text cs).
Proof.
  apply (level_rec' (fun cs l => text_so_far l = collapse true (flat_map kept_text cs)) (fun _ _ _ => True) (fun _ _ _ => True) (fun _ _ _ => True)); auto.
  - intros cs l s t l' _ IH A. rewrite (text_added_text _ _ _ _ A), flat_map_app. cbn [flat_map kept_text]. rewrite app_nil_r.
    rewrite collapse_app, <- IH. f_equal. f_equal. rewrite IH. exact (after_collapse _ true).
  - intros cs l s e inside boxes _ IH Hs _ IH2. rewrite text_app, flat_map_app. cbn [flat_map kept_text]. rewrite app_nil_r.
    assert (is_inline s = true) as -> by (unfold is_inline; rewrite Hs; reflexivity).
    rewrite collapse_app, IH, collapse_drop, <- IH2. cbn [text_so_far flat_map]. rewrite app_nil_r. reflexivity.
  - intros cs l s e inside c _ IH ((i & Hs) & _) _ _. rewrite text_app, flat_map_app. cbn [flat_map kept_text].
    rewrite (block_not_inline s i Hs). cbn [text_so_far flat_map run_text]. rewrite !app_nil_r. exact IH.
  - intros cs l s e inside c _ IH ((i & Hs) & _) _ _. rewrite text_app, flat_map_app. cbn [flat_map kept_text].
    rewrite (block_not_inline s i Hs). cbn [text_so_far flat_map run_text]. rewrite !app_nil_r. exact IH.
Qed.
(** Induction on contents *)
Section Induct.
Variable P : content -> Prop.
Hypothesis Ht : forall s t, P (CText s t).
Hypothesis Hb : forall s e inside, Forall P inside -> P (CBox s e inside).
Fixpoint content_induct (c : content) : P c :=
  match c with
  | CText s t => Ht s t
  | CBox s e inside => Hb s e inside ((fix all l : Forall P l := match l with
                                          | [] => Forall_nil P | x :: r => Forall_cons x (content_induct x) (all r) end) inside)
  end.
End Induct.
Lemma flat_map_eq : forall {A B} (f g : A -> list B) l, Forall (fun x => f x = g x) l -> flat_map f l = flat_map g l.
Proof. intros A B f g l H. induction H as [|x r E H IH]; [reflexivity|]. cbn [flat_map]. rewrite E, IH. reflexivity. Qed.
Lemma kept_all : forall c, no_leading_space c -> kept_text c = inline_text c.
Proof.
  apply (content_induct (fun c => no_leading_space c -> kept_text c = inline_text c)); [reflexivity|].
  intros s e inside IH H. cbn [kept_text inline_text]. destruct (is_inline s) eqn:E; [|reflexivity].
  inversion H as [|? ? ? E'|? ? ? F N]; subst; [congruence|].
  assert (G : flat_map kept_text inside = flat_map inline_text inside).
  { apply flat_map_eq. apply Forall_forall. intros x I. apply (proj1 (Forall_forall _ _) IH x I). apply (proj1 (Forall_forall _ _) F x I). }
  rewrite G. destruct (flat_map inline_text inside) as [|c r]; [reflexivity|]. cbn [drop_spaces]. rewrite N. reflexivity.
Qed.
Lemma kept_all_list : forall cs, Forall no_leading_space cs -> flat_map kept_text cs = flat_map inline_text cs.
Proof. intros cs H. apply flat_map_eq. apply (Forall_impl _ kept_all H). Qed.

Lemma collapse_neat : forall t b, (forall c, In c (collapse b t) -> is_space c = true -> c = 32%N) /\
  (b = true -> forall r, collapse b t <> 32%N :: r) /\ (forall x y, collapse b t <> x ++ 32%N :: 32%N :: y).
Proof.
  induction t as [|c t IH]; intros b.
  { split; [intros c []|]. split; [discriminate|]. intros [|? ?] y H; discriminate H. }
  cbn [collapse]. destruct (is_space c) eqn:E.
  - destruct (IH true) as (I1 & I2 & I3). destruct b; [auto|]. split; [|split; [discriminate|]].
    + intros x [<-|I] Hx; auto.
    + intros [|z x] y H; cbn [app] in H; [injection H as H2; exact (I2 eq_refl _ H2)|injection H as _ H2; exact (I3 _ _ H2)].
  - destruct (IH false) as (I1 & I2 & I3). split; [|split].
    + intros x [<-|I] Hx; [congruence|auto].
    + intros _ r H. injection H as -> _. discriminate E.
    + intros [|z x] y H; cbn [app] in H; injection H as H1 H2; [subst; discriminate E|exact (I3 _ _ H2)].
Qed.
Lemma neat_collapse : forall t, neat (collapse true t).
Proof. intros t. destruct (collapse_neat t true) as (I1 & I2 & I3). split; [exact I1|]. split; [exact (I2 eq_refl)|exact I3]. Qed.

(** *** Nothing is lost *)
Lemma nonspace_app : forall a b, nonspace (a ++ b) = nonspace a ++ nonspace b.
Proof. intros. unfold nonspace. apply filter_app. Qed.
Lemma nonspace_collapse : forall t b, nonspace (collapse b t) = nonspace t.
Proof.
  induction t as [|c t IH]; intros b; [reflexivity|]. cbn [collapse]. unfold nonspace in *. destruct (is_space c) eqn:E.
  - cbn [filter]. rewrite E. cbn [negb]. destruct b; [apply IH|]. cbn [filter]. rewrite space_32. apply IH.
  - cbn [filter]. rewrite E. cbn [negb]. f_equal. apply IH.
Qed.
Definition piece_text (p : piece) : list N :=
  match p with PParagraph cs => flat_map content_text cs | PBox c => content_text c end.
Lemma nonspace_blank : forall c, blank c -> nonspace (content_text c) = [].
Proof.
  intros [s t|]; [|intros []]. cbn [blank content_text]. induction t as [|c t IH]; intros H; [reflexivity|].
  unfold nonspace in *. cbn [filter]. rewrite (H c (or_introl eq_refl)). cbn [negb]. apply IH. intros x I. apply H. right. exact I.
Qed.
Lemma pieces_text : forall cs ps, pieces cs ps -> nonspace (flat_map piece_text ps) = nonspace (flat_map content_text cs).
Proof.
  intros cs ps H. induction H as [|c r ps B H IH|c r ps B H IH|c p r ps S1 S2 S3 H IH]; [reflexivity|..].
  - cbn [flat_map]. rewrite nonspace_app, (nonspace_blank c B). exact IH.
  - cbn [flat_map piece_text]. rewrite !nonspace_app, IH. reflexivity.
  - rewrite flat_map_app, nonspace_app, <- IH. cbn [flat_map]. rewrite nonspace_app. cbn [piece_text flat_map]. reflexivity.
Qed.
Lemma text_added_whole : forall s l new l', text_added s l new l' -> flat_map whole_text l' = flat_map whole_text l ++ new.
Proof.
  intros s l new l' H. inversion H; subst; rewrite ?flat_map_app; cbn [flat_map whole_text]; rewrite ?app_nil_r, <- ?app_assoc; reflexivity.
Qed.
Lemma text_kept :
  (forall cs l, level cs l -> nonspace (flat_map whole_text l) = nonspace (flat_map content_text cs)) /\
  (forall s cs c, container s cs c -> nonspace (container_text c) = nonspace (flat_map content_text cs)) /\
  (forall s cs c, context s cs c -> nonspace (context_text c) = nonspace (flat_map content_text cs)) /\
  (forall a ps bs, block_boxes a ps bs -> nonspace (flat_map block_text bs) = nonspace (flat_map piece_text ps)).
Proof.
  apply spec_induct.
  - reflexivity.
  - intros cs l s t l' _ IH A. rewrite (text_added_whole _ _ _ _ A), flat_map_app, !nonspace_app, IH, nonspace_collapse.
    cbn [flat_map content_text]. rewrite app_nil_r. reflexivity.
  - intros cs l s e inside boxes _ IH _ _ IH2. rewrite !flat_map_app, !nonspace_app, IH. cbn [flat_map whole_text content_text]. rewrite !app_nil_r.
    f_equal. exact IH2.
  - intros cs l s e inside c _ IH _ _ IH2. rewrite !flat_map_app, !nonspace_app, IH. cbn [flat_map whole_text content_text]. rewrite !app_nil_r.
    f_equal. exact IH2.
  - intros cs l s e inside c _ IH _ _ IH2. rewrite !flat_map_app, !nonspace_app, IH. cbn [flat_map whole_text content_text]. rewrite !app_nil_r.
    f_equal. exact IH2.
  - intros s cs p l P _ IH. rewrite <- (pieces_text _ _ P). cbn [container_text flat_map piece_text]. rewrite app_nil_r. exact IH.
  - intros s cs ps a boxes P _ _ _ IH. rewrite <- (pieces_text _ _ P). exact IH.
  - intros s cs c f _ IH _. exact IH.
  - reflexivity.
  - intros a p l ps bs _ IH _ IH2. cbn [flat_map block_text container_text piece_text]. rewrite !nonspace_app, IH, IH2. reflexivity.
  - intros a s e inside c ps bs _ _ IH _ IH2. cbn [flat_map block_text piece_text content_text]. rewrite !nonspace_app, IH, IH2. reflexivity.
  - intros a s e inside c ps bs _ _ IH _ IH2. cbn [flat_map block_text piece_text content_text]. rewrite !nonspace_app, IH, IH2. reflexivity.
  - intros a s e inside c ps bs _ _ IH _ IH2. cbn [flat_map block_text piece_text content_text]. rewrite !nonspace_app, IH, IH2. reflexivity.
  - intros a s e inside c ps bs _ _ IH _ IH2. cbn [flat_map block_text piece_text content_text]. rewrite !nonspace_app, IH, IH2. reflexivity.
Qed.

(** ** Shape *)
Lemma snoc_cases : forall {A} (l : list A), l = [] \/ exists k x, l = k ++ [x].
Proof. intros A l. destruct (rev l) as [|x r] eqn:E; apply (f_equal (@rev A)) in E; rewrite rev_involutive in E; [auto|right]. exists (rev r), x. exact E. Qed.
Lemma apart_snoc : forall l x, apart l -> (forall k s t, l <> k ++ [TextRun s t]) \/ (forall s t, x <> TextRun s t) -> apart (l ++ [x]).
Proof.
  intros l x Ha Hx a s t s' t' b E. destruct (snoc_cases b) as [->|(k & y & ->)].
  - change (a ++ [TextRun s t; TextRun s' t']) with (a ++ [TextRun s t] ++ [TextRun s' t']) in E. rewrite app_assoc in E.
    apply app_inj_tail in E as [E1 E2]. destruct Hx as [Hx|Hx]; [exact (Hx _ _ _ E1)|exact (Hx _ _ E2)].
  - change (a ++ TextRun s t :: TextRun s' t' :: k ++ [y]) with (a ++ (TextRun s t :: TextRun s' t' :: k) ++ [y]) in E.
    rewrite app_assoc in E. apply app_inj_tail in E as [E1 _]. exact (Ha _ _ _ _ _ _ E1).
Qed.
Lemma apart_more : forall l s t t', apart (l ++ [TextRun s t]) -> apart (l ++ [TextRun s t']).
Proof.
  intros l s t t' Ha. apply apart_snoc.
  - intros a s1 t1 s2 t2 b E. subst. apply (Ha a s1 t1 s2 t2 (b ++ [TextRun s t])). rewrite <- app_assoc. reflexivity.
  - left. intros k s1 t1 E. subst. apply (Ha k s1 t1 s t []). rewrite <- app_assoc. reflexivity.
Qed.
Lemma level_starts : forall cs l, level cs l -> (exists c, In c cs /\ starts_paragraph c) -> l <> [].
Proof.
  apply (level_rec' (fun cs l => (exists c, In c cs /\ starts_paragraph c) -> l <> []) (fun _ _ _ => True) (fun _ _ _ => True) (fun _ _ _ => True)); auto.
  - intros (c & [] & _).
  - intros cs l s t l' _ IH A (c & I & Hc) ->. apply in_app_or in I as [I|[<-|[]]].
    + inversion A; subst; try (match goal with E : ?l ++ [_] = [] |- _ => destruct l; discriminate E end). apply IH; eauto.
    + cbn [starts_paragraph] in Hc. destruct Hc as (x & I & Hx).
      remember (collapse (after_space (text_so_far l)) t) as new eqn:En. remember [] as l' eqn:El in A.
      destruct A as [l|l ? ? ? _|l ? _ _]; try (destruct l; discriminate El). subst l.
      symmetry in En. rewrite (proj1 (collapse_nil t) En x I) in Hx. discriminate Hx.
  - intros cs l s e inside boxes _ _ _ _ _ _ E. apply app_eq_nil in E as [_ E]. discriminate E.
  - intros cs l s e inside boxes _ _ _ _ _ _ E. apply app_eq_nil in E as [_ E]. discriminate E.
  - intros cs l s e inside boxes _ _ _ _ _ _ E. apply app_eq_nil in E as [_ E]. discriminate E.
Qed.
Lemma pieces_start : forall cs ps, pieces cs ps -> forall p, In (PParagraph p) ps -> exists c, In c p /\ starts_paragraph c.
Proof.
  intros cs ps H. induction H as [|c r ps B H IH|c r ps B H IH|c p r ps S1 S2 S3 H IH]; intros q I.
  - destruct I.
  - auto.
  - destruct I as [E|I]; [discriminate E|auto].
  - destruct I as [E|I]; [|auto]. injection E as <-. exists c. split; [left; reflexivity|exact S1].
Qed.
Lemma boxes_tidy :
  (forall cs l, level cs l -> Forall tidy_inline l /\ apart l) /\
  (forall s cs c, container s cs c -> tidy_container c) /\
  (forall s cs c, context s cs c -> match c with BFC c _ => tidy_container c end) /\
  (forall a ps bs, block_boxes a ps bs -> (forall p, In (PParagraph p) ps -> exists c, In c p /\ starts_paragraph c) -> Forall tidy_block bs).
Proof.
  apply spec_induct.
  - split; [constructor|]. intros [|? ?] ? ? ? ? ? H; discriminate H.
  - intros cs l s t l' _ [I1 I2] A. remember (collapse (after_space (text_so_far l)) t) as new eqn:En.
    destruct A as [l|k s0 t0 new Hn|l new Hn Hx].
    + auto.
    + apply Forall_app in I1 as [I1 J1]. split; [|exact (apart_more _ _ _ _ I2)]. apply Forall_app. split; [exact I1|].
      constructor; [|constructor]. constructor. intros E. apply app_eq_nil in E as [_ E]. contradiction.
    + split; [|apply apart_snoc; auto]. apply Forall_app. split; [exact I1|]. constructor; [|constructor]. constructor. exact Hn.
  - intros cs l s e inside boxes _ [I1 I2] _ _ [J1 J2]. split; [|apply apart_snoc; [exact I2|right; discriminate]].
    apply Forall_app. split; [exact I1|]. constructor; [|constructor]. constructor; assumption.
  - intros cs l s e inside [c f] _ [I1 I2] _ _ J. split; [|apply apart_snoc; [exact I2|right; discriminate]].
    apply Forall_app. split; [exact I1|]. constructor; [|constructor]. constructor; assumption.
  - intros cs l s e inside [c f] _ [I1 I2] _ _ J. split; [|apply apart_snoc; [exact I2|right; discriminate]].
    apply Forall_app. split; [exact I1|]. constructor; [|constructor]. constructor; assumption.
  - intros s cs p l P L [I1 I2]. constructor; auto.
    + apply (level_starts _ _ L). apply (pieces_start _ _ P). left. reflexivity.
    + rewrite (level_text _ _ L). apply neat_collapse.
  - intros s cs ps a boxes P _ _ _ IH. constructor. apply IH. exact (pieces_start _ _ P).
  - intros s cs c f _ IH _. exact IH.
  - intros a _. constructor.
  - intros a p l ps bs L [I1 I2] _ IH H. constructor; [|apply IH; intros q I; apply H; right; exact I]. constructor. constructor; auto.
    + apply (level_starts _ _ L). apply H. left. reflexivity.
    + rewrite (level_text _ _ L). apply neat_collapse.
  - intros a s e inside c ps bs _ _ J _ IH H. constructor; [|apply IH; intros q I; apply H; right; exact I]. constructor. exact J.
  - intros a s e inside [c f] ps bs _ _ J _ IH H. constructor; [|apply IH; intros q I; apply H; right; exact I]. constructor. exact J.
  - intros a s e inside [c f] ps bs _ _ J _ IH H. constructor; [|apply IH; intros q I; apply H; right; exact I]. constructor. exact J.
  - intros a s e inside [c f] ps bs _ _ J _ IH H. constructor; [|apply IH; intros q I; apply H; right; exact I]. constructor. exact J.
Qed.

(** ** Layout does not reach [unreachable!()] *)
Inductive styled (P : computed_values -> Prop) : content -> Prop :=
| sd_text : forall s t, styled P (CText s t)
| sd_box : forall s e inside, P s -> Forall (styled P) inside -> styled P (CBox s e inside).
Lemma shows_styled : forall d (hs : nat -> computed_values -> computed_values -> Prop) (P : computed_values -> Prop),
  (forall i p s, hs i p s -> P s) -> forall s ts cs, shows d hs s ts cs -> Forall (styled P) cs.
Proof.
  intros d hs P H s ts cs Sh.
  induction Sh as [ps|ps i ts r t ch out D En Sh IH|ps i ts r out N1 N2 Sh IH|ps i ts r s out El St Di Sh IH
    |ps i ts r s inside out El St Di H1 IH1 Sh IH|ps i ts r s o k inside out El St Di H1 IH1 Sh IH].
  - constructor.
  - constructor; [constructor|exact IH].
  - exact IH.
  - exact IH.
  - apply Forall_app. auto.
  - constructor; [|exact IH]. constructor; [exact (H _ _ _ St)|exact IH1].
Qed.
(** A box is generated both before and after the adjustments. *)
Definition generates (s : computed_values) : Prop :=
  forall o i, get s display_ = OutsideInside o i -> exists o' i', specified_display s = OutsideInside o' i'.
Lemma boxes_displayed :
  (forall cs l, level cs l -> Forall (styled generates) cs -> Forall displayed_inline l) /\
  (forall s cs c, container s cs c -> Forall (styled generates) cs -> displayed_container c) /\
  (forall s cs c, context s cs c -> Forall (styled generates) cs -> displayed_context c) /\
  (forall a ps bs, block_boxes a ps bs ->
    (forall c, In (PBox c) ps -> styled generates c) -> (forall p, In (PParagraph p) ps -> Forall (styled generates) p) -> Forall displayed_block bs).
Proof.
  assert (Hp : forall cs ps, pieces cs ps -> Forall (styled generates) cs ->
    (forall c, In (PBox c) ps -> styled generates c) /\ (forall p, In (PParagraph p) ps -> Forall (styled generates) p)).
  { intros cs ps P F. rewrite Forall_forall in F. destruct (pieces_in _ _ P) as (I1 & I2 & _). split; [auto|].
    intros p I. apply Forall_forall. intros c J. eauto. }
  assert (Hi : forall s e i, styled generates (CBox s e i) -> generates s /\ Forall (styled generates) i) by (intros s e i H; inversion H; auto).
  apply spec_induct.
  - constructor.
  - intros cs l s t l' _ IH A F. apply Forall_app in F as [F _]. specialize (IH F). inversion A; subst; auto.
    + apply Forall_app in IH as [IH _]. apply Forall_app. split; [exact IH|]. repeat constructor.
    + apply Forall_app. split; [exact IH|]. repeat constructor.
  - intros cs l s e inside boxes _ IH _ _ J F. apply Forall_app in F as [F1 F2]. inversion F2 as [|? ? F3 _]; subst.
    destruct (Hi _ _ _ F3) as [_ G]. apply Forall_app. split; [auto|]. constructor; [|constructor]. constructor. auto.
  - intros cs l s e inside c _ IH ((k & Hs) & _) _ J F. apply Forall_app in F as [F1 F2]. inversion F2 as [|? ? F3 _]; subst.
    destruct (Hi _ _ _ F3) as [G1 G]. apply Forall_app. split; [auto|]. constructor; [|constructor].
    destruct (G1 _ _ Hs) as (o' & i' & E). econstructor; eauto.
  - intros cs l s e inside c _ IH _ _ J F. apply Forall_app in F as [F1 F2]. apply Forall_app. split; [auto|]. constructor; [|constructor]. constructor.
  - intros s cs p l P _ IH F. constructor. apply IH. apply (proj2 (Hp _ _ P F)). left. reflexivity.
  - intros s cs ps a boxes P _ _ _ IH F. constructor. apply IH; apply (Hp _ _ P F).
  - intros s cs c f _ IH _ F. constructor. auto.
  - constructor.
  - intros a p l ps bs _ IH _ IH2 H1 H2. constructor.
    + constructor. constructor. apply IH. apply H2. left. reflexivity.
    + apply IH2; [intros c I; apply H1|intros q I; apply H2]; right; exact I.
  - intros a s e inside c ps bs _ _ IH _ IH2 H1 H2. constructor.
    + constructor. apply IH. apply (Hi s e). apply H1. left. reflexivity.
    + apply IH2; [intros x I; apply H1|intros q I; apply H2]; right; exact I.
  - intros a s e inside c ps bs _ _ IH _ IH2 H1 H2. constructor.
    + constructor. apply IH. apply (Hi s e). apply H1. left. reflexivity.
    + apply IH2; [intros x I; apply H1|intros q I; apply H2]; right; exact I.
  - intros a s e inside c ps bs _ _ IH _ IH2 H1 H2. constructor.
    + constructor. apply IH. apply (Hi s e). apply H1. left. reflexivity.
    + apply IH2; [intros x I; apply H1|intros q I; apply H2]; right; exact I.
  - intros a s e inside c ps bs _ _ IH _ IH2 H1 H2. constructor.
    + constructor.
    + apply IH2; [intros x I; apply H1|intros q I; apply H2]; right; exact I.
Qed.

(** ** Paragraphs and inline formatting contexts *)
Lemma ifc_app : forall a b k, ifc_inlines (a ++ b) k <-> ifc_inlines a k \/ ifc_inlines b k.
Proof.
  intros a b k. split.
  - intros H. inversion H as [? ? ? ? ? ? I J|? ? ? ? ? I J|? ? ? ? ? I J]; subst; apply in_app_or in I as [I|I];
      [left|right|left|right|left|right]; [eapply ii_inline|eapply ii_inline|eapply ii_absolute|eapply ii_absolute|eapply ii_float|eapply ii_float]; eauto.
  - intros [H|H]; inversion H as [? ? ? ? ? ? I J|? ? ? ? ? I J|? ? ? ? ? I J]; subst;
      (match goal with
       | I : In (InlineBox _ _ _ _) _ |- _ => eapply ii_inline
       | I : In (InlineAbsolutelyPositionedBox _ _) _ |- _ => eapply ii_absolute
       | I : In (InlineFloatBox _ _) _ |- _ => eapply ii_float
       end); eauto; apply in_or_app; eauto.
Qed.
Lemma ifc_text : forall s t k, ~ ifc_inlines [TextRun s t] k.
Proof. intros s t k H. inversion H; subst; match goal with I : In _ [_] |- _ => destruct I as [I|[]]; discriminate I end. Qed.
Lemma ifc_added : forall s l new l' k, text_added s l new l' -> (ifc_inlines l' k <-> ifc_inlines l k).
Proof.
  intros s l new l' k H. destruct H as [l|l s0 t new _|l new _ _]; [reflexivity|rewrite !ifc_app..]; pose proof ifc_text; firstorder.
Qed.
Lemma ifc_one : forall x k, ifc_inlines [x] k <-> match x with
  | TextRun _ _ => False
  | InlineBox _ _ _ c => ifc_inlines c k
  | InlineAbsolutelyPositionedBox _ (BFC c _) | InlineFloatBox _ (BFC c _) => ifc_container c k
  end.
Proof.
  intros x k. split.
  - intros H. inversion H; subst; match goal with I : In _ [_] |- _ => destruct I as [I|[]]; subst end; assumption.
  - destruct x as [s f l c|s t|s [c f]|s [c f]]; intros H.
    + eapply ii_inline; [left; reflexivity|exact H].
    + destruct H.
    + eapply ii_absolute; [left; reflexivity|exact H].
    + eapply ii_float; [left; reflexivity|exact H].
Qed.
Lemma out_in_app : forall a b c, out_in (a ++ b) c <-> out_in a c \/ out_in b c.
Proof.
  intros a b c. split.
  - intros H. inversion H as [? ? I J|? ? ? ? ? I J K]; subst; apply in_app_or in I as [I|I];
      [left|right|left|right]; [apply oi_here; auto|apply oi_here; auto|eapply oi_inline; eauto|eapply oi_inline; eauto].
  - intros [H|H]; inversion H as [? ? I J|? ? ? ? ? I J K]; subst.
    1, 3: apply oi_here; [apply in_or_app; auto|exact J].
    all: eapply oi_inline; [apply in_or_app; eauto|exact J|exact K].
Qed.
Lemma out_in_one : forall s e inside c, out_in [CBox s e inside] c <->
  ((absolute_style s \/ float_style s) /\ c = CBox s e inside) \/ (inline_style s /\ out_in inside c).
Proof.
  intros s e inside c. split.
  - intros H. inversion H as [? ? I J|? ? ? ? ? I J K]; subst; destruct I as [I|[]].
    + subst. left. split; [exact J|reflexivity].
    + injection I as <- <- <-. auto.
  - intros [(H & ->)|(H & O)]; [apply oi_here; [left; reflexivity|exact H]|]. eapply oi_inline; [left; reflexivity|exact H|exact O].
Qed.
Lemma out_in_text : forall s t c, ~ out_in [CText s t] c.
Proof. intros s t c H. inversion H as [? ? I J|? ? ? ? ? I J K]; subst; destruct I as [I|[]]; [subst; destruct J|discriminate I]. Qed.

Definition matched (P : list content -> Prop) (Q : list inline_level_box -> Prop) : Prop :=
  (forall k, Q k -> exists p, P p /\ level p k) /\ (forall p, P p -> exists k, Q k /\ level p k).
Definition paragraph_out (q p : list content) : Prop := exists s e inside, out_in q (CBox s e inside) /\ paragraph_of inside p.
Definition paragraph_piece (ps : list piece) (p : list content) : Prop :=
  In (PParagraph p) ps \/ (exists s e inside, In (PBox (CBox s e inside)) ps /\ paragraph_of inside p) \/
  (exists q, In (PParagraph q) ps /\ paragraph_out q p).
Lemma paragraph_pieces : forall cs ps, pieces cs ps -> forall p, paragraph_of cs p <-> paragraph_piece ps p.
Proof.
  intros cs ps P p. split.
  - intros H. inversion H as [? ps' ? P' I|? ps' s e inside ? P' I J|? ps' q s e inside ? P' I J K]; subst; rewrite (pieces_unique _ _ P _ P').
    + left. exact I.
    + right. left. exists s, e, inside. auto.
    + right. right. exists q. split; [exact I|]. exists s, e, inside. auto.
  - intros [I|[(s & e & inside & I & J)|(q & I & s & e & inside & J & K)]].
    + eapply po_here; eauto.
    + eapply po_box; eauto.
    + eapply po_out; eauto.
Qed.
Lemma matched_iff : forall P P' Q Q', (forall p, P p <-> P' p) -> (forall k, Q k <-> Q' k) -> matched P Q -> matched P' Q'.
Proof.
  intros P P' Q Q' HP HQ [M1 M2]. split.
  - intros k H. destruct (M1 k (proj2 (HQ k) H)) as (p & A & B). exists p. split; [apply HP, A|exact B].
  - intros p H. destruct (M2 p (proj2 (HP p) H)) as (k & A & B). exists k. split; [apply HQ, A|exact B].
Qed.
Lemma matched_or : forall P P' Q Q', matched P Q -> matched P' Q' -> matched (fun p => P p \/ P' p) (fun k => Q k \/ Q' k).
Proof. intros P P' Q Q' [M1 M2] [N1 N2]. split; intros x [H|H]; [apply M1 in H|apply N1 in H|apply M2 in H|apply N2 in H]; destruct H as (y & A & B); exists y; auto. Qed.
Lemma matched_one : forall p l, level p l -> matched (eq p) (eq l).
Proof. intros p l L. split; intros x <-; eauto. Qed.
Lemma matched_none : forall P Q, (forall p, ~ P p) -> (forall k, ~ Q k) -> matched P Q.
Proof. intros P Q HP HQ. split; intros x H; [destruct (HQ x H)|destruct (HP x H)]. Qed.
Lemma out_app : forall a b p, paragraph_out (a ++ b) p <-> paragraph_out a p \/ paragraph_out b p.
Proof.
  intros a b p. split.
  - intros (s & e & i & O & H). apply out_in_app in O as [O|O]; [left|right]; exists s, e, i; auto.
  - intros [(s & e & i & O & H)|(s & e & i & O & H)]; exists s, e, i; (split; [apply out_in_app; auto|exact H]).
Qed.
Lemma out_box : forall s e inside p, absolute_style s \/ float_style s -> (paragraph_out [CBox s e inside] p <-> paragraph_of inside p).
Proof.
  intros s e inside p Hs. split.
  - intros (s' & e' & i' & O & H). apply out_in_one in O as [(_ & E)|(O & _)]; [injection E as -> -> ->; exact H|].
    destruct Hs as [Hs|Hs]; [destruct (inline_not_absolute _ O Hs)|destruct (inline_not_float _ O Hs)].
  - intros H. exists s, e, inside. split; [apply out_in_one; auto|exact H].
Qed.
Lemma out_inline : forall s e inside p, inline_style s -> (paragraph_out [CBox s e inside] p <-> paragraph_out inside p).
Proof.
  intros s e inside p Hs. split.
  - intros (s' & e' & i' & O & H). apply out_in_one in O as [([O|O] & _)|(_ & O)].
    + destruct (inline_not_absolute _ Hs O).
    + destruct (inline_not_float _ Hs O).
    + exists s', e', i'. auto.
  - intros (s' & e' & i' & O & H). exists s', e', i'. split; [apply out_in_one; auto|exact H].
Qed.
Lemma piece_cons : forall x ps p, paragraph_piece (x :: ps) p <-> paragraph_piece [x] p \/ paragraph_piece ps p.
Proof.
  intros x ps p. unfold paragraph_piece. split.
  - intros [[->|I]|[(s & e & i & [->|I] & H)|(q & [->|I] & H)]].
    + left. left. left. reflexivity.
    + right. left. exact I.
    + left. right. left. exists s, e, i. split; [left; reflexivity|exact H].
    + right. right. left. exists s, e, i. auto.
    + left. right. right. exists q. split; [left; reflexivity|exact H].
    + right. right. right. exists q. auto.
  - intros [[[->|[]]|[(s & e & i & [->|[]] & H)|(q & [->|[]] & H)]]|[I|[(s & e & i & I & H)|(q & I & H)]]].
    + left. left. reflexivity.
    + right. left. exists s, e, i. split; [left; reflexivity|exact H].
    + right. right. exists q. split; [left; reflexivity|exact H].
    + left. right. exact I.
    + right. left. exists s, e, i. split; [right; exact I|exact H].
    + right. right. exists q. split; [right; exact I|exact H].
Qed.
Lemma piece_paragraph : forall q p, paragraph_piece [PParagraph q] p <-> q = p \/ paragraph_out q p.
Proof.
  intros q p. unfold paragraph_piece. split.
  - intros [[E|[]]|[(s & e & i & [E|[]] & H)|(q' & [E|[]] & H)]]; [injection E as ->; auto|discriminate E|injection E as ->; auto].
  - intros [->|H]; [left; left; reflexivity|]. right. right. exists q. split; [left; reflexivity|exact H].
Qed.
Lemma piece_box : forall s e i p, paragraph_piece [PBox (CBox s e i)] p <-> paragraph_of i p.
Proof.
  intros s e i p. unfold paragraph_piece. split.
  - intros [[E|[]]|[(s' & e' & i' & [E|[]] & H)|(q' & [E|[]] & H)]]; [discriminate E|injection E as -> -> ->; exact H|discriminate E].
  - intros H. right. left. exists s, e, i. split; [left; reflexivity|exact H].
Qed.
Definition ifc_blocks (l : list block_level_box) (k : list inline_level_box) : Prop := exists b, In b l /\ ifc_block b k.
Lemma blocks_cons : forall b l k, ifc_blocks (b :: l) k <-> ifc_block b k \/ ifc_blocks l k.
Proof.
  intros b l k. split.
  - intros (x & [->|I] & H); [auto|right; exists x; auto].
  - intros [H|(x & I & H)]; [exists b; split; [left; reflexivity|exact H]|exists x; split; [right; exact I|exact H]].
Qed.
Lemma block_one : forall b k, ifc_block b k <-> match b with
  | SameFormattingContextBlock _ c => ifc_container c k
  | OutOfFlowAbsolutelyPositionedBox _ (BFC c _) | OutOfFlowFloatBox _ (BFC c _) | Independent _ (BFC c _) => ifc_container c k
  end.
Proof.
  intros b k. split; [intros H; inversion H; subst; assumption|].
  destruct b as [s c|s [c f]|s [c f]|s [c f]]; intros H; constructor; exact H.
Qed.
Lemma container_one : forall c k, ifc_container c k <-> match c with
  | BlockLevelBoxes l => ifc_blocks l k
  | InlineFormattingContext l => l = k \/ ifc_inlines l k
  end.
Proof.
  intros c k. split.
  - intros H. inversion H; subst; auto. eexists. eauto.
  - destruct c as [l|l]; [intros (b & I & H); eapply ic_blocks; eauto|]. intros [->|H]; [apply ic_here|apply ic_inlines; exact H].
Qed.
Lemma boxes_paragraphs :
  (forall cs l, level cs l -> matched (paragraph_out cs) (ifc_inlines l)) /\
  (forall s cs c, container s cs c -> matched (paragraph_of cs) (ifc_container c)) /\
  (forall s cs c, context s cs c -> match c with BFC c _ => matched (paragraph_of cs) (ifc_container c) end) /\
  (forall a ps bs, block_boxes a ps bs -> matched (paragraph_piece ps) (ifc_blocks bs)).
Proof.
  apply spec_induct.
  - apply matched_none.
    + intros p (s & e & i & O & _). inversion O; subst; match goal with I : In _ [] |- _ => destruct I end.
    + intros k H. inversion H; subst; match goal with I : In _ [] |- _ => destruct I end.
  - intros cs l s t l' _ IH A. refine (matched_iff _ _ _ _ _ _ IH).
    + intros p. rewrite out_app. split; [auto|]. intros [H|(s' & e' & i' & O & _)]; [exact H|destruct (out_in_text _ _ _ O)].
    + intros k. symmetry. exact (ifc_added _ _ _ _ _ A).
  - intros cs l s e inside boxes _ IH Hs _ IH2. refine (matched_iff _ _ _ _ _ _ (matched_or _ _ _ _ IH IH2)).
    + intros p. rewrite out_app, (out_inline s e inside p Hs). reflexivity.
    + intros k. rewrite ifc_app, ifc_one. reflexivity.
  - intros cs l s e inside [c f] _ IH Hs _ IH2. refine (matched_iff _ _ _ _ _ _ (matched_or _ _ _ _ IH IH2)).
    + intros p. rewrite out_app, (out_box s e inside p (or_introl Hs)). reflexivity.
    + intros k. rewrite ifc_app, ifc_one. reflexivity.
  - intros cs l s e inside [c f] _ IH Hs _ IH2. refine (matched_iff _ _ _ _ _ _ (matched_or _ _ _ _ IH IH2)).
    + intros p. rewrite out_app, (out_box s e inside p (or_intror Hs)). reflexivity.
    + intros k. rewrite ifc_app, ifc_one. reflexivity.
  - intros s cs p l P L IH. refine (matched_iff _ _ _ _ _ _ (matched_or _ _ _ _ (matched_one _ _ L) IH)).
    + intros q. rewrite (paragraph_pieces _ _ P q), piece_paragraph. reflexivity.
    + intros k. rewrite container_one. reflexivity.
  - intros s cs ps a boxes P _ _ _ IH. refine (matched_iff _ _ _ _ _ _ IH).
    + intros q. rewrite (paragraph_pieces _ _ P q). reflexivity.
    + intros k. rewrite container_one. reflexivity.
  - intros s cs c f _ IH _. exact IH.
  - intros a. apply matched_none.
    + intros p [[]|[(s & e & i & [] & _)|(q & [] & _)]].
    + intros k (b & [] & _).
  - intros a p l ps bs L IH _ IH2. refine (matched_iff _ _ _ _ _ _ (matched_or _ _ _ _ (matched_or _ _ _ _ (matched_one _ _ L) IH) IH2)).
    + intros q. rewrite piece_cons, piece_paragraph. reflexivity.
    + intros k. rewrite blocks_cons, block_one, container_one. reflexivity.
  - intros a s e inside c ps bs _ _ IH _ IH2. refine (matched_iff _ _ _ _ _ _ (matched_or _ _ _ _ IH IH2)).
    + intros q. rewrite piece_cons, piece_box. reflexivity.
    + intros k. rewrite blocks_cons, block_one. reflexivity.
  - intros a s e inside [c f] ps bs _ _ IH _ IH2. refine (matched_iff _ _ _ _ _ _ (matched_or _ _ _ _ IH IH2)).
    + intros q. rewrite piece_cons, piece_box. reflexivity.
    + intros k. rewrite blocks_cons, block_one. reflexivity.
  - intros a s e inside [c f] ps bs _ _ IH _ IH2. refine (matched_iff _ _ _ _ _ _ (matched_or _ _ _ _ IH IH2)).
    + intros q. rewrite piece_cons, piece_box. reflexivity.
    + intros k. rewrite blocks_cons, block_one. reflexivity.
  - intros a s e inside [c f] ps bs _ _ IH _ IH2. refine (matched_iff _ _ _ _ _ _ (matched_or _ _ _ _ IH IH2)).
    + intros q. rewrite piece_cons, piece_box. reflexivity.
    + intros k. rewrite blocks_cons, block_one. reflexivity.
Qed.
