(** Property C89: of an author's style sheets only the leading declarations count *)
From Coq Require Import QArith Lia.
From Verif Require LesterFloat.
From Verif Require Import PdfObject PdfConvert LayoutProps Base Dom DomSpec DomProofs DomTreeProofs DomWalkProofs DomStyleProofs DomProps
  StyleValues StyleProperties StyleCascade StyleSpec StyleElementSpec StyleElementProofs StyleSelectors StyleSelectorProofs StyleProps UserAgent UserAgentSpec UserAgentProofs UserAgentProps
  Geom Text LayoutTree Layout LayoutSpec BoxTree BoxTreeSpec BoxTreeProofs BoxShapeProofs BoxTreeProps
  Paint Float32Print FontParsing FontCmap VeraFile VeraProofs VeraProps Main MainSpec MainProofs MainProps WhiteSpec WhiteProofs AlikeSpec AlikeDomProofs AlikeProofs AlikeProps
  RulesSpec RulesProofs.
Local Open Scope nat_scope.
Local Open Scope res_scope.

(** ** One element *)
Lemma attribute_det : forall pc items_of e a b, style_attribute pc items_of e a -> style_attribute pc items_of e b ->
  match a, b with
  | None, None => True
  | Some x, Some y => combine (declarations x) (important x) = combine (declarations y) (important y)
  | _, _ => False
  end.
Proof.
  intros pc items_of e a b A B. inversion A as [N|v x ds C F M [_ H]]; subst; inversion B as [N'|v' y ds' C' F' M' [_ H']]; subst.
  - exact I.
  - destruct N as [N|N]; [contradiction|]. pose proof (first_attr_det _ _ _ N _ F') as K. discriminate K.
  - destruct N' as [N|N]; [contradiction|]. pose proof (first_attr_det _ _ _ N _ F) as K. discriminate K.
  - pose proof (first_attr_det _ _ _ F _ F') as K. injection K as <-.
    exact (block_means_det pc _ _ _ M M').
Qed.
(** Two author style sheets with the same leading declarations on an element give it the same style. *)
Theorem C89_style : forall pc selector (specificity : selector -> N) matches items_of ua_sheets sheets sheets' outs outs' ua author author' d x parent,
  add_stylesheets pc selector [] ua_sheets = Ok ua ->
  Forall2 (sheet_means pc) sheets outs -> Forall2 (sheet_means pc) sheets' outs' ->
  add_stylesheets pc selector [] sheets = Ok author -> add_stylesheets pc selector [] sheets' = Ok author' ->
  same_leaders selector specificity (fun s => matches s d x) (concat outs) (concat outs') ->
  style_for_element pc selector matches items_of (finish selector specificity ua) (finish selector specificity author) d x parent =
  style_for_element pc selector matches items_of (finish selector specificity ua) (finish selector specificity author') d x parent.
Proof.
  intros pc selector specificity matches items_of ua_sheets sheets sheets' outs outs' ua author author' d x parent Eu M M' Ea Ea' Sl.
  destruct (add_stylesheets_total pc selector sheets outs [] M) as (r & Er & F). rewrite Ea in Er. cbn [app] in Er. injection Er as <-.
  destruct (add_stylesheets_total pc selector sheets' outs' [] M') as (r' & Er' & F'). rewrite Ea' in Er'. cbn [app] in Er'. injection Er' as <-.
  assert (X : (exists c c', style_for_element pc selector matches items_of (finish selector specificity ua) (finish selector specificity author) d x parent = Ok c /\
      style_for_element pc selector matches items_of (finish selector specificity ua) (finish selector specificity author') d x parent = Ok c') \/
    style_for_element pc selector matches items_of (finish selector specificity ua) (finish selector specificity author) d x parent =
    style_for_element pc selector matches items_of (finish selector specificity ua) (finish selector specificity author') d x parent).
  { unfold style_for_element. destruct (index d x) as [nd|e|]; cbn [bind]; [|right; reflexivity|right; reflexivity].
    destruct (as_element nd) as [e|]; [|right; reflexivity]. destruct (styled_namespace (q_ns (e_name e))); cbn [bind]; [|left; eauto].
    destruct (get_attr e (bs "style")) as [v|]; cbn [bind]; [|left; eauto].
    destruct (parse_block pc (items_of v)) as [b|e'|]; cbn [bind]; [left; eauto|right; reflexivity|right; reflexivity]. }
  destruct X as [(c & c' & E & E')|X]; [|exact X]. rewrite E, E'. f_equal.
  destruct (C28_cascade _ _ _ _ _ _ _ _ _ _ _ _ _ Eu Ea E) as (e & attr & De & At & S).
  destruct (C28_cascade _ _ _ _ _ _ _ _ _ _ _ _ _ Eu Ea' E') as (e' & attr' & De' & At' & S').
  assert (e' = e) as -> by congruence.
  apply (css_style_same selector specificity (fun s => matches s d x) ua author author' attr (concat outs) (concat outs') F F' Sl) in S.
  revert S'. assert (attr_same : forall o, occurs selector specificity (fun s => matches s d x) ua author' attr' o <-> occurs selector specificity (fun s => matches s d x) ua author' attr o).
  2: { intros S'. apply (style_det_all (occurs selector specificity (fun s => matches s d x) ua author' attr) parent); [exact S|].
    intros p. assert (W : forall o, wins (occurs selector specificity (fun s => matches s d x) ua author' attr') o ->
      wins (occurs selector specificity (fun s => matches s d x) ua author' attr) o).
    { intros o [O W]. split; [apply attr_same; exact O|]. intros o' O'. apply W. apply attr_same. exact O'. }
    destruct (S' p) as [(o & v & T & Wo & G & A)|(N & H)].
    - left. exists o, v. auto.
    - right. split; [|exact H]. intros o O. apply N. apply attr_same. exact O. }
  intros o. pose proof (attribute_det pc items_of e attr attr' At At') as K.
  split; intros [i s b k dc imp E1 Mt Ed Ei|i s b k dc imp E1 Mt Ed Ei|b k dc imp E1 Ed Ei];
    [eapply occurs_ua; eassumption|eapply occurs_author; eassumption| |eapply occurs_ua; eassumption|eapply occurs_author; eassumption|].
  - subst attr'. destruct attr as [b0|]; [|destruct K]. assert (J : nth_error (combine (declarations b0) (important b0)) k = Some (dc, imp)) by (rewrite K; apply nth_combine; auto).
    apply nth_combine in J as [J1 J2]. eapply occurs_attribute; [reflexivity|exact J1|exact J2].
  - subst attr. destruct attr' as [b0|]; [|destruct K]. assert (J : nth_error (combine (declarations b0) (important b0)) k = Some (dc, imp)) by (rewrite <- K; apply nth_combine; auto).
    apply nth_combine in J as [J1 J2]. eapply occurs_attribute; [reflexivity|exact J1|exact J2].
Qed.

(** ** What makes no difference *)
Lemma app_split_at : forall A (a : list A) x b u y v, a ++ x :: b = u ++ y :: v ->
  (exists w, a = u ++ y :: w /\ v = w ++ x :: b) \/ (a = u /\ x = y /\ b = v) \/ (exists w, u = a ++ x :: w /\ b = w ++ y :: v).
Proof.
  intros A a. induction a as [|z a IH]; intros x b u y v E.
  - destruct u as [|z' u]; cbn [app] in E; injection E as -> ->; [auto|]. right. right. exists u. auto.
  - destruct u as [|z' u]; cbn [app] in E; injection E as -> E; [left; exists a; auto|]. destruct (IH x b u y v E) as [(w & -> & ->)|[(-> & -> & ->)|(w & -> & ->)]].
    + left. exists w. auto.
    + right. left. auto.
    + right. right. exists w. auto.
Qed.
Section Same.
Variable selector : Type.
Variable specificity : selector -> N.
Variable matching : selector -> bool.
Notation rule := (selector * list (declaration * bool))%type.
Notation same := (same_leaders selector specificity matching).
Notation candidates := (candidates selector specificity matching).
Lemma candidates_same : forall l l', (forall p, candidates p l = candidates p l') -> same l l'.
Proof. intros l l' H p imp d. unfold leads. rewrite (H p). tauto. Qed.
(** Rules whose selector does not match *)
Theorem C89_unmatched : forall l, same l (filter (fun r => matching (fst r)) l).
Proof.
  intros l. apply candidates_same. intros p. unfold RulesSpec.candidates. induction l as [|r l IH]; [reflexivity|]. cbn [flat_map filter].
  destruct (matching (fst r)) eqn:M; cbn [flat_map]; rewrite IH; [reflexivity|]. unfold contributions at 1. rewrite M. reflexivity.
Qed.
(** The order of two declarations of different longhands in one rule *)
Theorem C89_order : forall a s x d imp d' imp' y b, target d <> target d' ->
  same (a ++ (s, x ++ (d, imp) :: (d', imp') :: y) :: b) (a ++ (s, x ++ (d', imp') :: (d, imp) :: y) :: b).
Proof.
  intros a s x d imp d' imp' y b N. apply candidates_same. intros p. unfold RulesSpec.candidates. rewrite !flat_map_app. f_equal. cbn [flat_map]. f_equal.
  unfold contributions. cbn [fst snd]. destruct (matching s); [|reflexivity]. f_equal. rewrite !filter_app. f_equal. cbn [filter fst].
  destruct (longhand_eq_dec (target d) p), (longhand_eq_dec (target d') p); try reflexivity. congruence.
Qed.
(** Whether a block is one rule or two *)
Theorem C89_split : forall a s x y b, same (a ++ (s, x ++ y) :: b) (a ++ (s, x) :: (s, y) :: b).
Proof.
  intros a s x y b. apply candidates_same. intros p. unfold RulesSpec.candidates. rewrite !flat_map_app. f_equal. cbn [flat_map]. rewrite app_assoc. f_equal.
  unfold contributions. cbn [fst snd]. destruct (matching s); [|reflexivity]. rewrite filter_app, map_app. reflexivity.
Qed.
(** The order of two rules that set different longhands *)
Theorem C89_rules_order : forall a r r' b, (forall x y, In x (snd r) -> In y (snd r') -> target (fst x) <> target (fst y)) ->
  same (a ++ r :: r' :: b) (a ++ r' :: r :: b).
Proof.
  intros a r r' b N. apply candidates_same. intros p. unfold RulesSpec.candidates. rewrite !flat_map_app. f_equal. cbn [flat_map]. rewrite !app_assoc. f_equal.
  assert (X : contributions selector specificity matching p r = [] \/ contributions selector specificity matching p r' = []).
  { unfold contributions. destruct (matching (fst r)); [|left; reflexivity]. destruct (matching (fst r')); [|right; reflexivity].
    destruct (filter (fun x => if longhand_eq_dec (target (fst x)) p then true else false) (snd r)) as [|x l] eqn:E; [left; reflexivity|].
    destruct (filter (fun x => if longhand_eq_dec (target (fst x)) p then true else false) (snd r')) as [|y l'] eqn:E'; [right; reflexivity|]. exfalso.
    assert (I : In x (filter (fun x => if longhand_eq_dec (target (fst x)) p then true else false) (snd r))) by (rewrite E; left; reflexivity).
    assert (I' : In y (filter (fun x => if longhand_eq_dec (target (fst x)) p then true else false) (snd r'))) by (rewrite E'; left; reflexivity).
    apply filter_In in I as [I T]. apply filter_In in I' as [I' T']. destruct (longhand_eq_dec (target (fst x)) p), (longhand_eq_dec (target (fst y)) p); try discriminate.
    apply (N x y I I'). congruence. }
  destruct X as [-> | ->]; rewrite ?app_nil_r; reflexivity.
Qed.
(** A declaration that a later one of the same longhand overrides *)
Theorem C89_overridden : forall a s x d imp y b s' ds' d' imp',
  In (s', ds') ((s, y) :: b) -> matching s' = true -> In (d', imp') ds' -> target d' = target d ->
  no_stronger (imp, specificity s) (imp', specificity s') ->
  same (a ++ (s, x ++ (d, imp) :: y) :: b) (a ++ (s, x ++ y) :: b).
Proof.
  intros a s x d imp y b s' ds' d' imp' Is Ms Id Td St p imp0 d0. unfold leads, RulesSpec.candidates.
  assert (E1 : exists u v, flat_map (contributions selector specificity matching p) (a ++ (s, x ++ y) :: b) = u ++ v /\
    (flat_map (contributions selector specificity matching p) (a ++ (s, x ++ (d, imp) :: y) :: b) = u ++ v \/
     (flat_map (contributions selector specificity matching p) (a ++ (s, x ++ (d, imp) :: y) :: b) = u ++ (imp, specificity s, d) :: v /\
      In (imp', specificity s', d') v))).
  { exists (flat_map (contributions selector specificity matching p) (a ++ [(s, x)])), (flat_map (contributions selector specificity matching p) ((s, y) :: b)).
    set (C := contributions selector specificity matching p).
    assert (Ca : forall z1 z2, C (s, z1 ++ z2) = C (s, z1) ++ C (s, z2)).
    { intros z1 z2. unfold C, contributions. cbn [fst snd]. destruct (matching s); [|reflexivity]. rewrite filter_app, map_app. reflexivity. }
    assert (Cd : C (s, (d, imp) :: y) = C (s, y) \/ (C (s, (d, imp) :: y) = (imp, specificity s, d) :: C (s, y) /\ target d = p)).
    { unfold C, contributions. cbn [fst snd filter]. destruct (matching s); [|left; reflexivity].
      destruct (longhand_eq_dec (target d) p) as [T|T]; [right; auto|left; reflexivity]. }
    rewrite !flat_map_app. cbn [flat_map]. rewrite app_nil_r, <- !app_assoc, !Ca, <- !app_assoc. split; [reflexivity|].
    destruct Cd as [-> |[-> T]]; [left; reflexivity|right]. cbn [app]. split; [reflexivity|]. unfold C.
    destruct Is as [Is|Is].
    - injection Is as <- <-. apply in_or_app. left. unfold contributions. cbn [fst snd]. rewrite Ms. apply in_map_iff. exists (d', imp'). split; [reflexivity|]. apply filter_In. split; [exact Id|]. cbn [fst].
      destruct (longhand_eq_dec (target d') p); [reflexivity|congruence].
    - apply in_or_app. right. apply in_flat_map. exists (s', ds'). split; [exact Is|]. unfold contributions. cbn [fst snd]. rewrite Ms. apply in_map_iff. exists (d', imp').
      split; [reflexivity|]. apply filter_In. split; [exact Id|]. cbn [fst]. destruct (longhand_eq_dec (target d') p); [reflexivity|congruence]. }
  destruct E1 as (u & v & -> & [-> |[-> Iv]]); [tauto|]. split.
  - intros (bf & sp & af & E & Hb & Ha). destruct (app_split_at _ _ _ _ _ _ _ E) as [(w & -> & ->)|[(-> & Ec & ->)|(w & -> & ->)]].
    + exists bf, sp, (w ++ v). rewrite <- app_assoc. split; [reflexivity|]. split; [exact Hb|]. intros z Iz. apply Ha. apply in_app_or in Iz as [Iz|Iz]; apply in_or_app; [left|right; right]; exact Iz.
    + exfalso. injection Ec as <- <- <-. exact (weaker_irrefl _ _ (Ha _ Iv) St).
    + exists (u ++ w), sp, af. rewrite <- app_assoc. split; [reflexivity|]. split; [|exact Ha]. intros z Iz. apply Hb. apply in_app_or in Iz as [Iz|Iz]; apply in_or_app; [left|right; right]; exact Iz.
  - intros (bf & sp & af & E & Hb & Ha).
    assert (X : (exists w, u = bf ++ (imp0, sp, d0) :: w /\ af = w ++ v) \/ (exists w, bf = u ++ w /\ v = w ++ (imp0, sp, d0) :: af)).
    { clear - E. revert bf E. induction u as [|z u IH]; intros bf E; [right; exists bf; auto|]. destruct bf as [|z' bf]; cbn [app] in E.
      - assert (z = (imp0, sp, d0)) by congruence. assert (u ++ v = af) by congruence. subst. left. exists u. auto.
      - assert (z = z') by congruence. assert (E' : u ++ v = bf ++ (imp0, sp, d0) :: af) by congruence. subst z'.
        destruct (IH bf E') as [(w & -> & ->)|(w & -> & ->)]; [left|right]; exists w; auto. }
    destruct X as [(w & -> & ->)|(w & -> & ->)].
    + exists bf, sp, (w ++ (imp, specificity s, d) :: v). rewrite <- app_assoc. split; [reflexivity|]. split; [exact Hb|]. intros z Iz.
      apply in_app_or in Iz as [Iz|[<-|Iz]]; [apply Ha; apply in_or_app; auto| |apply Ha; apply in_or_app; auto].
      cbn [fst]. apply (weaker_trans_l _ _ _ St). exact (Ha _ (in_or_app _ _ _ (or_intror Iv))).
    + exists (u ++ (imp, specificity s, d) :: w), sp, af. rewrite <- app_assoc. split; [reflexivity|]. split; [|exact Ha]. intros z Iz.
      apply in_app_or in Iz as [Iz|[<-|Iz]]; [apply Hb; apply in_or_app; auto| |apply Hb; apply in_or_app; auto].
      cbn [fst]. apply (no_stronger_trans _ _ _ St). apply in_app_or in Iv as [Iv|[Iv|Iv]].
      * exact (Hb _ (in_or_app _ _ _ (or_intror Iv))).
      * assert (imp0 = imp') as -> by congruence. assert (sp = specificity s') as -> by congruence. right. split; [reflexivity|cbn; lia].
      * apply weaker_no_stronger. exact (Ha _ Iv).
Qed.
End Same.

Section Program.
Variable parse_color : parser color.
Variable other : Type.
Variable other_specificity : other -> N.
Variable other_matches : other -> document -> nat -> bool.
Variable items_of : bytes -> list StyleCascade.item.
Variable rules_of : bytes -> list (source_rule (ua_selector other)).
Notation displays := (displays parse_color (ua_selector other) (ua_specificity other other_specificity) (ua_matches other other_matches)
  items_of rules_of (user_agent_css other)).
Notation construct_root := (box_tree_root_construct parse_color (ua_selector other) (ua_specificity other other_specificity) (ua_matches other other_matches)
  items_of rules_of (user_agent_css other)).
Notation not_shown := (not_shown parse_color other other_specificity other_matches items_of rules_of).
(** The rules of all style sheets of a document *)
Definition rules_in (d : document) (rules : list (ua_selector other * list (declaration * bool))) : Prop :=
  exists texts outs, stylesheets d = Ok texts /\ Forall2 (sheet_means parse_color) (map rules_of texts) outs /\ rules = concat outs.
(** The same leading declarations on every element *)
Definition same_styling (d : document) (rules rules' : list (ua_selector other * list (declaration * bool))) : Prop :=
  forall x, is_element (data (node_at d x)) ->
    same_leaders (ua_selector other) (ua_specificity other other_specificity) (fun s => ua_matches other other_matches s d x) rules rules'.

(** ** What is displayed *)
Theorem C89_contents : through_interface other_matches -> forall hidden d d' rules rules' root root' s cs,
  elements_alike hidden d d' -> (forall x x', hidden x x' -> not_shown d x) -> rules_in d rules -> rules_in d' rules' -> same_styling d rules rules' ->
  displays d root s cs -> root_element d' = Ok root' ->
  (forall i t, data (node_at d' i) = DText t -> exists u, encodes t u) ->
  exists cs', displays d' root' s cs' /\ same_but_spaces cs cs'.
Proof.
  intros Hi hidden d d' rules rules' root root' s cs (kids & kids' & Hf & Hf' & Al & Nr) Ns (texts0 & outs & Et0 & Ho & ->) (texts' & outs' & Et' & Ho' & ->) Ss
    (k & ua & texts & author & ts & Hk & Eu & Et & Ea & Er & Es & Sub & Sh) Er' Hu.
  assert (texts0 = texts) as -> by congruence.
  apply (subtree_kids k kids _ (kids_unique d k kids (proj1 Hk) (proj1 Hf))) in Sub.
  destruct (C29_sheets_parse _ _ _ _ Ho') as (author' & Ea').
  destruct (contents_alike parse_color other other_specificity other_matches items_of hidden d d' kids kids' root root' ua author author' s ts cs Hf Hf' Al Nr Er Er')
    as (Es' & ts' & cs' & Sub' & Sh' & L); try assumption.
  { intros x x' p c T E.
    rewrite (C89_style parse_color (ua_selector other) (ua_specificity other other_specificity) _ items_of _ _ _ outs outs' ua author author' d x p Eu Ho Ho' Ea Ea') in E.
    - rewrite <- E. symmetry. apply (style_same parse_color (ua_selector other) _ items_of d d' kids kids' hidden); [|exact T].
      exact (ua_matches_alike other other_matches d d' kids kids' hidden Hi Hf Hf').
    - apply Ss. destruct (twins_same _ _ _ _ _ _ _ T) as [Sm _]. exact (proj1 (same_element _ _ _ _ Sm)). }
  { intros x x' p c H E. exact (Ns x x' H ua texts author p c Eu Et Ea E). }
  exists cs'. split; [|exact L]. exists kids', ua, texts', author', ts'. auto 9.
Qed.
Theorem C89_boxes : through_interface other_matches -> forall hidden d d' rules rules' root root' s cs,
  elements_alike hidden d d' -> (forall x x', hidden x x' -> not_shown d x) -> rules_in d rules -> rules_in d' rules' -> same_styling d rules rules' ->
  displays d root s cs -> root_element d' = Ok root' ->
  (forall i t, data (node_at d' i) = DText t -> exists u, encodes t u) ->
  (exists boxes w w', construct_root d = Ok (boxes, w) /\ construct_root d' = Ok (boxes, w')) \/
  (construct_root d = Panic /\ construct_root d' = Panic).
Proof.
  intros Hi hidden d d' rules rules' root root' s cs Al Ns R R' Ss D Er' Hu.
  destruct (C89_contents Hi hidden d d' rules rules' root root' s cs Al Ns R R' Ss D Er' Hu) as (cs' & D' & L).
  exact (boxes_alike parse_color other other_specificity other_matches items_of rules_of d d' root root' s cs cs' D D' L).
Qed.

(** ** The file *)
Variable round : Q -> dec.
Variable m : build.
Variable addr : N.
Notation to_pdf o := (document_to_pdf parse_color other other_specificity other_matches items_of rules_of round m addr o).
(** Two HTML files *)
Theorem C89_html : through_interface other_matches -> forall hidden ops ops' d d' rules rules',
  html5ever_calls ops -> html5ever_calls ops' -> run_ops document_new ops = Ok d -> run_ops document_new ops' = Ok d' ->
  clean_attributes parse_color items_of d -> rules_in d rules -> rules_in d' rules' ->
  elements_alike hidden d d' -> (forall x x', hidden x x' -> not_shown d x) -> same_styling d rules rules' ->
  forall o, to_pdf o d = to_pdf o d'.
Proof.
  intros Hi hidden ops ops' d d' rules rules' H H' E E' Ca R R' Al Ns Ss o.
  assert (Cs : clean_sheets_of parse_color other rules_of d).
  { destruct R as (texts & outs & Et & Ho & _). intros ts t Et2 It sels body i Ir Ii T. assert (ts = texts) as -> by congruence. clear Et Et2.
    assert (Em : exists out, sheet_means parse_color (rules_of t) out).
    { clear - Ho It. revert outs Ho. induction texts as [|u texts IH]; intros outs Ho; [destruct It|]. inversion Ho as [|? out ? outs' M Ms]; subst.
      destruct It as [->|It]; [eauto|exact (IH It outs' Ms)]. }
    destruct Em as (out & M). revert Ir. induction M as [|sels' body' r ds out Bm M IH|r out M IH]; intros Ir; [destruct Ir| |].
    - destruct Ir as [Ir|Ir]; [|exact (IH Ir)]. injection Ir as -> ->. destruct (C40_blocks _ _ _ Bm) as (b & Eb & _).
      assert (P : parse_block parse_color body = Panic) by (apply C40_panics; eauto). congruence.
    - destruct Ir as [Ir|Ir]; [discriminate Ir|exact (IH Ir)]. }
  destruct (C74_displays (fun _ => []) parse_color other other_specificity other_matches items_of rules_of (fun _ => inl []) (fun _ _ => None) ops d H E Cs Ca) as (root & s & cs & D & _).
  destruct (html_root ops' d' H' E') as (root' & Er'). unfold document_to_pdf, document_to_pdf_in.
  destruct (parse_font m vera_ttf) as [pf|e|]; [|reflexivity|reflexivity]. unfold to_pdf_bytes.
  destruct (C89_boxes Hi hidden d d' rules rules' root root' s cs Al Ns R R' Ss D Er' (html_texts ops' d' H' E')) as [(b & w & w' & -> & ->)|(-> & ->)]; reflexivity.
Qed.
End Program.
Print Assumptions C89_style.
Print Assumptions C89_unmatched.
Print Assumptions C89_order.
Print Assumptions C89_split.
Print Assumptions C89_rules_order.
Print Assumptions C89_overridden.
Print Assumptions C89_contents.
Print Assumptions C89_boxes.
Print Assumptions C89_html.

(** ** Examples *)
(** [comment_doc] with the style sheet [nav p { width: 5px } body p { font-size: 10px; font-size: 20px; color: red }], and the same with
    [body p { color: red; font-size: 20px }] *)
Definition long_ops : list sink_op :=
  [ AppendDoctype (bs "html") [] []; CreateElement (h "html") [] false; Append 1 (AppendNode 3);
    CreateElement (h "head") [] false; Append 3 (AppendNode 4);
    CreateElement (h "style") [] false; Append 4 (AppendNode 5); Append 5 (AppendText (bs "long"));
    CreateElement (h "body") [] false; Append 3 (AppendNode 7);
    CreateElement (h "p") [at_ "style" "x"] false; Append 7 (AppendNode 8); Append 8 (AppendText (bs "AB")) ].
Definition short_ops : list sink_op :=
  [ CreateElement (h "html") [] false; Append 1 (AppendNode 2);
    CreateElement (h "head") [] false; Append 2 (AppendNode 3);
    CreateElement (h "style") [] false; Append 3 (AppendNode 4); Append 4 (AppendText (bs "short"));
    CreateElement (h "body") [] false; Append 2 (AppendNode 6);
    CreateElement (h "p") [at_ "style" "x"] false; Append 6 (AppendNode 7); Append 7 (AppendText (bs "AB")) ].
Definition long_doc : document := Eval vm_compute in match run_ops document_new long_ops with Ok d => d | _ => document_new end.
Definition short_doc : document := Eval vm_compute in match run_ops document_new short_ops with Ok d => d | _ => document_new end.
Definition two_rules (t : bytes) : list (source_rule (ua_selector pair_selector)) :=
  if bytes_eqb t (bs "long") then
    [ StyleRule [Other (bs "nav", bs "p")] [Item (bs "width") [px 5]];
      StyleRule [Other (bs "body", bs "p")] [Item (bs "font-size") [px 10]; Item (bs "font-size") [px 20]; Item (bs "color") [id_ "red"]] ]
  else [ StyleRule [Other (bs "body", bs "p")] [Item (bs "color") [id_ "red"]; Item (bs "font-size") [px 20]] ].
Lemma block_parsed : forall pc l b, parse_block pc l = Ok b -> block_means pc l (combine (declarations b) (important b)).
Proof. intros pc l b E. destruct (parse_block_means pc l b E) as (ds & M & [_ <-]). exact M. Qed.
Definition block_of (l : list StyleCascade.item) : list (declaration * bool) :=
  match parse_block ex_color l with Ok b => combine (declarations b) (important b) | _ => [] end.
Lemma block_of_means : forall l, match parse_block ex_color l with Ok _ => True | _ => False end -> block_means ex_color l (block_of l).
Proof. intros l H. unfold block_of. destruct (parse_block ex_color l) as [b|e|] eqn:E; [exact (block_parsed _ _ _ E)|contradiction|contradiction]. Qed.
Definition nav_p : ua_selector pair_selector := Other (bs "nav", bs "p").
Definition body_p : ua_selector pair_selector := Other (bs "body", bs "p").
Definition nav_block := block_of [Item (bs "width") [px 5]].
Definition fs10 : declaration * bool := hd (CssWide width Inherit, true) (block_of [Item (bs "font-size") [px 10]]).
Definition fs20 : declaration * bool := hd (CssWide width Inherit, true) (block_of [Item (bs "font-size") [px 20]]).
Definition red : declaration * bool := hd (CssWide width Inherit, true) (block_of [Item (bs "color") [id_ "red"]]).
Definition long_rules := [(nav_p, nav_block); (body_p, [fs10; fs20; red])].
Definition short_rules := [(body_p, [red; fs20])].
Lemma long_in : rules_in ex_color pair_selector two_rules long_doc long_rules.
Proof.
  exists [bs "long"], [long_rules]. split; [reflexivity|]. split; [|reflexivity]. constructor; [|constructor].
  change (sheet_means ex_color (two_rules (bs "long")) (map (fun s => (s, nav_block)) [nav_p] ++ (map (fun s => (s, [fs10; fs20; red])) [body_p] ++ []))).
  apply sm_rule; [apply block_of_means; vm_compute; exact I|]. apply sm_rule; [|constructor].
  change [fs10; fs20; red] with (block_of [Item (bs "font-size") [px 10]; Item (bs "font-size") [px 20]; Item (bs "color") [id_ "red"]]).
  apply block_of_means; vm_compute; exact I.
Qed.
Lemma short_in : rules_in ex_color pair_selector two_rules short_doc short_rules.
Proof.
  exists [bs "short"], [short_rules]. split; [reflexivity|]. split; [|reflexivity]. constructor; [|constructor].
  change (sheet_means ex_color (two_rules (bs "short")) (map (fun s => (s, [red; fs20])) [body_p] ++ [])).
  apply sm_rule; [|constructor].
  change [red; fs20] with (block_of [Item (bs "color") [id_ "red"]; Item (bs "font-size") [px 20]]). apply block_of_means; vm_compute; exact I.
Qed.
Lemma long_short : same_styling pair_selector (fun _ => 2%N) pair_matches long_doc long_rules short_rules.
Proof.
  intros x El. set (mt := fun s => ua_matches pair_selector pair_matches s long_doc x).
  assert (Nn : mt nav_p = false).
  { unfold mt. do 10 (destruct x as [|x]; [first [destruct El; fail|vm_compute; reflexivity]|]). unfold node_at in El. rewrite nth_overflow in El by (cbn; lia). destruct El. }
  assert (Tr : forall a b c, same_leaders _ (ua_specificity pair_selector (fun _ => 2%N)) mt a b -> same_leaders _ (ua_specificity pair_selector (fun _ => 2%N)) mt b c ->
    same_leaders _ (ua_specificity pair_selector (fun _ => 2%N)) mt a c).
  { intros a b c H1 H2 p i dd. rewrite (H1 p i dd). apply H2. }
  destruct (mt body_p) eqn:Mb.
  - apply (Tr _ [(body_p, [fs10; fs20; red])]).
    { eapply Tr; [apply C89_unmatched|]. unfold long_rules. cbn [filter fst]. rewrite Nn, Mb. intros p i dd. tauto. }
    apply (Tr _ [(body_p, [fs20; red])]).
    { apply (C89_overridden _ _ mt [] body_p [] (fst fs10) false [fs20; red] [] body_p [fs20; red] (fst fs20) false);
        [left; reflexivity|exact Mb|left; reflexivity|reflexivity|right; split; [reflexivity|cbn; lia]]. }
    apply (C89_order _ _ mt [] body_p [] (fst fs20) false (fst red) false [] []). discriminate.
  - eapply Tr; [apply C89_unmatched|]. unfold long_rules. cbn [filter fst]. rewrite Nn, Mb. intros p i dd.
    rewrite (C89_unmatched _ _ mt short_rules p i dd). unfold short_rules. cbn [filter fst]. rewrite Mb. tauto.
Qed.
(** The heads differ in their style sheets. *)
Definition styled_heads (x x' : nat) : Prop := x = 4 /\ x' = 3.
Lemma long_calls : html5ever_calls long_ops.
Proof.
  split; [|split].
  - unfold long_ops. valid_calls.
  - intros o t I. unfold long_ops in I. cbn [In] in I.
    repeat (destruct I as [<-|I]; [cbn [given_text In]; try contradiction|]); [| |contradiction].
    + intros [<-|[]]. exists (bs "long"). split; [repeat constructor|reflexivity].
    + intros [<-|[]]. exists (bs "AB"). split; [repeat constructor|reflexivity].
  - intros d kids E F. assert (d = long_doc) as -> by (vm_compute in E; injection E as <-; reflexivity).
    exists [2], 3, []. split; [apply (kids_links long_doc kids 1 [2; 3] F); reflexivity|]. split; [exact I|intros y [<-|[]]; exact I].
Qed.
Lemma short_calls : html5ever_calls short_ops.
Proof.
  split; [|split].
  - unfold short_ops. valid_calls.
  - intros o t I. unfold short_ops in I. cbn [In] in I.
    repeat (destruct I as [<-|I]; [cbn [given_text In]; try contradiction|]); [| |contradiction].
    + intros [<-|[]]. exists (bs "short"). split; [repeat constructor|reflexivity].
    + intros [<-|[]]. exists (bs "AB"). split; [repeat constructor|reflexivity].
  - intros d kids E F. assert (d = short_doc) as -> by (vm_compute in E; injection E as <-; reflexivity).
    exists [], 2, []. split; [apply (kids_links short_doc kids 1 [2] F); reflexivity|]. split; [exact I|intros y []].
Qed.
Lemma long_alike : elements_alike styled_heads long_doc short_doc.
Proof.
  destruct (run_ops_doc long_ops document_new _ document_new_doc (proj1 long_calls)) as (d & kids & E & Hf).
  assert (d = long_doc) as -> by (vm_compute in E; injection E as <-; reflexivity). clear E.
  destruct (run_ops_doc short_ops document_new _ document_new_doc (proj1 short_calls)) as (d & kids' & E & Hf').
  assert (d = short_doc) as -> by (vm_compute in E; injection E as <-; reflexivity). clear E.
  assert (K : forall i l, first_child (node_at long_doc i) = hd_error l -> chain long_doc l = true -> kids i = l)
    by (intros i l; exact (kids_links long_doc kids i l (proj1 Hf))).
  assert (K' : forall i l, first_child (node_at short_doc i) = hd_error l -> chain short_doc l = true -> kids' i = l)
    by (intros i l; exact (kids_links short_doc kids' i l (proj1 Hf'))).
  exists kids, kids'. split; [exact Hf|]. split; [exact Hf'|]. split.
  2: { unfold document_node_id. rewrite (K 1 [2; 3]) by reflexivity. intros x x' [<-|[<-|[]]] [H _]; discriminate H. }
  unfold document_node_id. rewrite (K 1 [2; 3]), (K' 1 [2]) by reflexivity. change [2; 3] with ([2] ++ [3]). change [2] with ([] ++ [2]) at 2.
  apply al_text; [intros x [<-|[]] []|intros x []|reflexivity|].
  apply al_element; [do 2 eexists; split; [reflexivity|split; [reflexivity|split; [reflexivity|split; [reflexivity|left; reflexivity]]]]| |apply al_nil].
  rewrite (K 3 [4; 7]), (K' 2 [3; 6]) by reflexivity.
  apply al_hidden; [do 2 eexists; split; [reflexivity|split; [reflexivity|split; [reflexivity|split; [reflexivity|left; reflexivity]]]]|split; reflexivity| |].
  - unfold same_emptiness. rewrite (K 4 [5]), (K' 3 [4]) by reflexivity. split; intros C.
    + destruct (C 5 (or_introl eq_refl)) as [X _]. destruct (X I).
    + destruct (C 4 (or_introl eq_refl)) as [X _]. destruct (X I).
  - apply al_element; [do 2 eexists; split; [reflexivity|split; [reflexivity|split; [reflexivity|split; [reflexivity|left; reflexivity]]]]| |apply al_nil]. rewrite (K 7 [8]), (K' 6 [7]) by reflexivity.
    apply al_element; [do 2 eexists; split; [reflexivity|split; [reflexivity|split; [reflexivity|split; [reflexivity|left; reflexivity]]]]| |apply al_nil]. rewrite (K 8 [9]), (K' 7 [8]) by reflexivity.
    apply (al_text _ _ _ _ _ [9] [8] [] []); [intros x [<-|[]] []|intros x [<-|[]] []|reflexivity|apply al_nil].
Qed.
Lemma styled_heads_not_shown : forall x x', styled_heads x x' -> not_shown ex_color pair_selector (fun _ => 2%N) pair_matches main_items two_rules long_doc x.
Proof.
  intros x x' [-> _]. eapply C88_not_shown; [reflexivity| |left; vm_compute; tauto].
  intros texts author attr ua Et Ea At o O Au. vm_compute in Et. injection Et as <-. vm_compute in Ea. injection Ea as <-.
  inversion O as [i s b k dc imp E M Ed Ei|i s b k dc imp E M Ed Ei|b k dc imp E Ed Ei]; subst.
  - discriminate Au.
  - destruct i as [|[|[|i]]]; cbn [nth_error] in E; [| |discriminate E..]; injection E as <- <-; vm_compute in M; discriminate M.
  - inversion At as [|v b' ds Cn F Bm Hl]; subst. inversion F.
Qed.
Lemma long_clean : clean_attributes ex_color main_items long_doc.
Proof.
  assert (X : forall l, parse_block ex_color l <> Panic -> forall i, In i l -> ~ trailing ex_color i).
  { intros l N i I T. apply N. apply C40_panics. eauto. }
  intros n e v i D C F.
  assert (A : e_attrs e = [] \/ e_attrs e = [at_ "style" "x"]).
  { do 10 (destruct n as [|n]; [try discriminate D; vm_compute in D; injection D as <-; auto|]). unfold node_at in D.
    rewrite nth_overflow in D by (cbn; lia). discriminate D. }
  apply X. destruct A as [A|A]; rewrite A in F.
  + inversion F.
  + inversion F; subst; [vm_compute; discriminate|]. match goal with K : first_attr _ [] _ |- _ => inversion K end.
Qed.
Example C89_html_example : forall o,
  document_to_pdf ex_color pair_selector (fun _ => 2%N) pair_matches main_items two_rules print32 Release 0 o long_doc =
  document_to_pdf ex_color pair_selector (fun _ => 2%N) pair_matches main_items two_rules print32 Release 0 o short_doc.
Proof.
  intros o. apply (C89_html ex_color pair_selector (fun _ => 2%N) pair_matches main_items two_rules print32 Release 0 pair_through styled_heads long_ops short_ops long_doc short_doc
    long_rules short_rules long_calls short_calls eq_refl eq_refl long_clean long_in short_in long_alike styled_heads_not_shown long_short o).
Qed.
(** Here the order matters: [color: inherit; color: initial] *)
Example C89_same_longhand : ~ same_leaders nat (fun _ => 1%N) (fun _ => true)
  [(0, [(CssWide color_ Inherit, false); (CssWide color_ Initial, false)])]
  [(0, [(CssWide color_ Initial, false); (CssWide color_ Inherit, false)])].
Proof.
  intros H. destruct (H color_ false (CssWide color_ Initial)) as [H1 _]. destruct H1 as (bf & sp & af & E & Hb & Ha).
  - exists [(false, 1%N, CssWide color_ Inherit)], 1%N, []. split; [reflexivity|]. split; [|intros x []].
    intros x [<-|[]]. right. split; [reflexivity|cbn; lia].
  - vm_compute in E. destruct bf as [|x bf]; [|destruct bf as [|y bf]; [|destruct bf; discriminate E]].
    + cbn [app] in E. assert (Ea : af = [(false, 1%N, CssWide color_ Inherit)]) by congruence. assert (sp = 1%N) by congruence. subst.
      destruct (Ha _ (or_introl eq_refl)) as [[_ X]|[_ X]]; [discriminate X|cbn in X; lia].
    + cbn [app] in E. discriminate E.
Qed.
