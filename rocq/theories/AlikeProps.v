(** Properties C87 and C88: comments, processing instructions, doctypes, and how text is cut into nodes do not show, nor does what is in
    elements that are not displayed *)
From Coq Require Import QArith Lia.
From Verif Require LesterFloat.
From Verif Require Import PdfObject PdfConvert LayoutProps Base Dom DomSpec DomProofs DomTreeProofs DomWalkProofs DomStyleProofs DomProps
  StyleValues StyleProperties StyleCascade StyleSpec StyleElementSpec StyleElementProofs StyleSelectors StyleSelectorProofs StyleProps UserAgent UserAgentSpec UserAgentProofs UserAgentProps
  Geom Text LayoutTree Layout LayoutSpec BoxTree BoxTreeSpec BoxTreeProofs BoxShapeProofs BoxTreeProps
  Paint Float32Print FontParsing FontCmap VeraFile VeraProofs VeraProps Main MainSpec MainProofs MainProps WhiteSpec WhiteProofs AlikeSpec AlikeDomProofs AlikeProofs.
Local Open Scope nat_scope.
Local Open Scope res_scope.

(** ** Selectors *)
(** No program that sees documents through the [Element] interface can tell which of the two it has. *)
Theorem C87_interface : forall (state : Type) (step : state -> instruction state) d d' kids kids' hidden, doc_forest d kids -> doc_forest d' kids' ->
  forall st x x' b, twins d d' kids kids' hidden x x' -> (runs step d st [x] b <-> runs step d' st [x'] b).
Proof.
  intros state step d d' kids kids' hidden Hf Hf' st x x' b T. split; intros R.
  - apply (runs_alike step d d' kids kids' hidden Hf Hf' st [x] b R). constructor; [exact T|constructor].
  - apply (runs_alike step d' d kids' kids (flipped hidden) Hf' Hf st [x'] b R). constructor; [apply twins_sym; exact T|constructor].
Qed.

Lemma html_texts : forall ops d, html5ever_calls ops -> run_ops document_new ops = Ok d ->
  forall i t, data (node_at d i) = DText t -> exists u, encodes t u.
Proof.
  intros ops d (V & U8 & _) E. apply (run_texts (fun t => exists cs, encodes t cs) encodes_app ops document_new _ d document_new_doc V U8 E).
  intros i t H. exfalso. destruct i as [|[|i]]; try discriminate H. unfold node_at in H. rewrite nth_overflow in H by (cbn; lia). discriminate H.
Qed.
Lemma html_root : forall ops d, html5ever_calls ops -> run_ops document_new ops = Ok d -> exists root, root_element d = Ok root.
Proof.
  intros ops d (V & _ & Rt) E. destruct (run_ops_doc ops document_new _ document_new_doc V) as (d' & kids & E' & Hf).
  assert (d' = d) as -> by congruence. destruct (Rt d kids E (proj1 Hf)) as (l & x & r & Ek & He & Hi). exists x.
  exact (C39_root_element d kids l r x Hf Ek He Hi).
Qed.

Section Program.
Variable parse_color : parser color.
Variable other : Type.
Variable other_specificity : other -> N.
Variable other_matches : other -> document -> nat -> bool.
Variable items_of : bytes -> list StyleCascade.item.
Variable rules_of : bytes -> list (source_rule (ua_selector other)).
Notation displays := (displays parse_color (ua_selector other) (ua_specificity other other_specificity) (ua_matches other other_matches)
  items_of rules_of (user_agent_css other)).
Notation construct_root := (box_tree_root_construct parse_color (ua_selector other) (ua_specificity other other_specificity) (ua_matches other other_matches)
  items_of rules_of (user_agent_css other)).

Lemma roots_placed : forall d d' kids kids' hidden root root', doc_forest d kids -> doc_forest d' kids' ->
  alike d d' kids kids' hidden (kids document_node_id) (kids' document_node_id) -> root_element d = Ok root -> root_element d' = Ok root' ->
  placed d d' kids kids' hidden document_node_id document_node_id root root'.
Proof.
  intros d d' kids kids' hidden root root' Hf Hf' H Er Er'.
  destruct (C39_root_element_only d kids root Hf Er) as (l & r & E & El & Ig).
  destruct (C39_root_element_only d' kids' root' Hf' Er') as (l' & r' & E' & El' & Ig').
  destruct (alike_first _ _ _ _ _ _ _ H) as [(B & _)|(a & y & b & a' & y' & b' & Ea & Ea' & Ha & Hb & _ & _ & S & K)].
  { exfalso. apply (B root); [rewrite E; apply in_or_app; right; left; reflexivity|exact El]. }
  assert (X : forall dd (k : list nat) l r a b x y, k = l ++ x :: r -> k = a ++ y :: b -> (forall z, In z (l ++ r) -> ignorable (data (node_at dd z))) ->
    is_element (data (node_at dd y)) -> x = y).
  { intros dd k l0 r0 a0 b0 x z E1 E2 I Ez. assert (In z (l0 ++ x :: r0)) as J by (rewrite <- E1, E2; apply in_or_app; right; left; reflexivity).
    apply in_app_or in J as [J|[J|J]]; [|exact J|].
    - specialize (I z (in_or_app _ _ _ (or_introl J))). destruct (data (node_at dd z)); contradiction.
    - specialize (I z (in_or_app _ _ _ (or_intror J))). destruct (data (node_at dd z)); contradiction. }
  destruct (same_element _ _ _ _ S) as [Ey Ey'].
  rewrite (X d _ l r a b root y E Ea Ig Ey), (X d' _ l' r' a' b' root' y' E' Ea' Ig' Ey').
  exists a, b, a', b'. auto 7.
Qed.

Lemma adjusted_none : forall c, adjusted c display_ DisplayNone -> get c display_ = DisplayNone.
Proof. 
  intros c (_ & A & B). assert (X : out_of_flow c \/ ~ out_of_flow c).
  { unfold out_of_flow. destruct (get c position_); [| |left; left; reflexivity].
    all: destruct (get c float_); [right; intros [K|[K|K]]; discriminate K|left; right; auto..]. }
  destruct X as [X|X]; [exact (A X)|exact (B X)].
Qed.
(** ** What is displayed *)
(** An element that the style sheets of its document do not let show, in whatever surroundings *)
Definition not_shown (d : document) (x : nat) : Prop := forall ua texts author parent c,
  add_stylesheets parse_color (ua_selector other) [] [user_agent_css other] = Ok ua -> stylesheets d = Ok texts ->
  add_stylesheets parse_color (ua_selector other) [] (map rules_of texts) = Ok author ->
  style_for_element parse_color (ua_selector other) (ua_matches other other_matches) items_of
    (finish (ua_selector other) (ua_specificity other other_specificity) ua)
    (finish (ua_selector other) (ua_specificity other other_specificity) author) d x (Some parent) = Ok c ->
  get c display_ = DisplayNone.
Notation style_with ua author d := (style_for_element parse_color (ua_selector other) (ua_matches other other_matches) items_of
    (finish (ua_selector other) (ua_specificity other other_specificity) ua)
    (finish (ua_selector other) (ua_specificity other other_specificity) author) d).
(** With two sets of rules that give the same styles *)
Lemma contents_alike : forall hidden d d' kids kids' root root' ua author author' s ts cs, doc_forest d kids -> doc_forest d' kids' ->
  alike d d' kids kids' hidden (kids document_node_id) (kids' document_node_id) -> (forall x x', In x (kids document_node_id) -> ~ hidden x x') ->
  root_element d = Ok root -> root_element d' = Ok root' ->
  (forall x x' p c, twins d d' kids kids' hidden x x' -> style_with ua author d x p = Ok c -> style_with ua author' d' x' p = Ok c) ->
  (forall x x' p c, hidden x x' -> style_with ua author d x (Some p) = Ok c -> get c display_ = DisplayNone) ->
  (forall i t, data (node_at d' i) = DText t -> exists u, encodes t u) ->
  style_with ua author d root None = Ok s -> subtree kids (T root ts) -> shows d (fun i p s => style_with ua author d i (Some p) = Ok s) s ts cs ->
  style_with ua author' d' root' None = Ok s /\
  exists ts' cs', subtree kids' (T root' ts') /\ shows d' (fun i p s => style_with ua author' d' i (Some p) = Ok s) s ts' cs' /\
    same_but_spaces cs cs'.
Proof.
  intros hidden d d' kids kids' root root' ua author author' s ts cs Hf Hf' Al Nr Er Er' Ss Ns Hu Es Sub Sh.
  pose proof (roots_placed d d' kids kids' hidden root root' Hf Hf' Al Er Er') as P.
  assert (Tw : twins d d' kids kids' hidden root root') by (apply tw_top; exact P).
  split; [exact (Ss root root' None s Tw Es)|].
  destruct (subtree_ex d' kids' root' (proj1 Hf')) as ([r' ts'] & R & Sub'). cbn [DomSpec.root] in R. subst r'.
  inversion Sub as [? ? Kr Fr]; subst. inversion Sub' as [? ? Kr' Fr']; subst.
  destruct (shows_alike d d' kids kids' hidden (fun i p s => style_with ua author d i (Some p) = Ok s) (fun i p s => style_with ua author' d' i (Some p) = Ok s)) with
    (l := kids root) (l' := kids' root') (p := root) (p' := root') (a := @nil nat) (a' := @nil nat) (ts := ts) (ts' := ts') (s := s) (cs := cs)
    as (cs' & Sh' & L); try assumption; try reflexivity; try (symmetry; assumption).
  { intros x x' p s0 T E. exact (Ss x x' (Some p) s0 T E). }
  { destruct (twins_same _ _ _ _ _ _ _ Tw) as (_ & [K|[H _]]); [exact K|]. exfalso. apply (Nr root root'); [|exact H].
    destruct P as (a & b & _ & _ & -> & _). apply in_or_app. right. left. reflexivity. }
  { intros y y' Py. exact (tw_in _ _ _ _ _ root root' y y' Tw Py). }
  { apply al_nil. }
  exists ts', cs'. auto using respaced_same.
Qed.
Lemma subtree_kids : forall k kids t, (forall p, k p = kids p) -> subtree k t -> subtree kids t.
Proof.
  intros k kids t Ku. revert t. fix IH 2. intros t [i l E F]. constructor; [rewrite <- Ku; exact E|].
  clear E. induction F as [|x l Hx F IHF]; constructor; [apply IH; exact Hx|exact IHF].
Qed.
Theorem C88_contents : through_interface other_matches -> forall hidden d d' root root' s cs,
  documents_alike hidden d d' -> (forall x x', hidden x x' -> not_shown d x) -> displays d root s cs -> root_element d' = Ok root' ->
  (forall i t, data (node_at d' i) = DText t -> exists u, encodes t u) ->
  exists cs', displays d' root' s cs' /\ same_but_spaces cs cs'.
Proof.
  intros Hi hidden d d' root root' s cs ((kids & kids' & Hf & Hf' & Al & Nr) & St) Ns (k & ua & texts & author & ts & Hk & Eu & Et & Ea & Er & Es & Sub & Sh) Er' Hu.
  apply (subtree_kids k kids _ (kids_unique d k kids (proj1 Hk) (proj1 Hf))) in Sub.
  destruct (contents_alike hidden d d' kids kids' root root' ua author author s ts cs Hf Hf' Al Nr Er Er') as (Es' & ts' & cs' & Sub' & Sh' & L); try assumption.
  { intros x x' p c T E. rewrite <- E. symmetry. apply (style_same parse_color (ua_selector other) _ items_of d d' kids kids' hidden); [|exact T].
    exact (ua_matches_alike other other_matches d d' kids kids' hidden Hi Hf Hf'). }
  { intros x x' p c H E. exact (Ns x x' H ua texts author p c Eu Et Ea E). }
  exists cs'. split; [|exact L]. exists kids', ua, texts, author, ts'. rewrite <- St. auto 9.
Qed.

(** ** Boxes *)
Theorem C87_boxes_of_letters : forall s cs cs' c c', flat_map letters cs = flat_map letters cs' -> context s cs c -> context s cs' c' -> c = c'.
Proof.
  intros s cs cs' c c' L H H'. apply (C54_boxes_unique s (flat_map letters cs)).
  - exact (proj1 (proj2 (proj2 boxes_letters)) s cs c H).
  - rewrite L. exact (proj1 (proj2 (proj2 boxes_letters)) s cs' c' H').
Qed.
(** White space that does not show *)
Theorem C96_boxes : forall s cs cs' c c', same_but_spaces cs cs' -> context s cs c -> context s cs' c' -> c = c'.
Proof.
  intros s cs cs' c c' L H H'. apply (C87_boxes_of_letters s (tight_all true cs) (tight_all true cs') c c' L).
  - exact (proj1 (proj2 (proj2 boxes_tight)) s cs c H).
  - exact (proj1 (proj2 (proj2 boxes_tight)) s cs' c' H').
Qed.
Lemma boxes_alike : forall d d' root root' s cs cs', displays d root s cs -> displays d' root' s cs' -> same_but_spaces cs cs' ->
  (exists boxes w w', construct_root d = Ok (boxes, w) /\ construct_root d' = Ok (boxes, w')) \/
  (construct_root d = Panic /\ construct_root d' = Panic).
Proof.
  intros d d' root root' s cs cs' D D' L.
  assert (U : unbuildable cs <-> unbuildable cs') by (rewrite <- (unbuildable_tight cs true), <- (unbuildable_tight cs' true), <- unbuildable_letters, L; apply unbuildable_letters).
  destruct (C54_document _ _ _ _ _ _ _ d root s cs D) as [(Dn & E)|[(Dn & Nu & c & b & f & w & E & C & Rb)|(Dn & Ub & E)]];
    destruct (C54_document _ _ _ _ _ _ _ d' root' s cs' D') as [(Dn' & E')|[(Dn' & Nu' & c' & b' & f' & w' & E' & C' & Rb')|(Dn' & Ub' & E')]]; try contradiction; try tauto.
  - left. do 3 eexists. split; [exact E|exact E'].
  - left. rewrite <- (C96_boxes s cs cs' c c' L C C') in Rb'. exists (BFC (BlockLevelBoxes b) f), w, w'. split; [exact E|]. rewrite E'.
    do 3 f_equal; destruct Rb; inversion Rb'; subst; congruence.
Qed.
Theorem C88_boxes : through_interface other_matches -> forall hidden d d' root root' s cs,
  documents_alike hidden d d' -> (forall x x', hidden x x' -> not_shown d x) -> displays d root s cs -> root_element d' = Ok root' ->
  (forall i t, data (node_at d' i) = DText t -> exists u, encodes t u) ->
  (exists boxes w w', construct_root d = Ok (boxes, w) /\ construct_root d' = Ok (boxes, w')) \/
  (construct_root d = Panic /\ construct_root d' = Panic).
Proof.
  intros Hi hidden d d' root root' s cs Al Ns D Er' Hu. destruct (C88_contents Hi hidden d d' root root' s cs Al Ns D Er' Hu) as (cs' & D' & L).
  exact (boxes_alike d d' root root' s cs cs' D D' L).
Qed.

(** ** The file *)
Variable round : Q -> dec.
Variable m : build.
Variable addr : N.
Notation to_pdf o := (document_to_pdf parse_color other other_specificity other_matches items_of rules_of round m addr o).
Theorem C88_page : through_interface other_matches -> forall hidden d d' root root' s cs,
  documents_alike hidden d d' -> (forall x x', hidden x x' -> not_shown d x) -> displays d root s cs -> root_element d' = Ok root' ->
  (forall i t, data (node_at d' i) = DText t -> exists u, encodes t u) ->
  forall o, to_pdf o d = to_pdf o d'.
Proof.
  intros Hi hidden d d' root root' s cs Al Ns D Er' Hu o. unfold document_to_pdf, document_to_pdf_in.
  destruct (parse_font m vera_ttf) as [pf|e|]; [|reflexivity|reflexivity]. unfold to_pdf_bytes.
  destruct (C88_boxes Hi hidden d d' root root' s cs Al Ns D Er' Hu) as [(b & w & w' & -> & ->)|(-> & ->)]; reflexivity.
Qed.
(** Two HTML files *)
Theorem C88_html : through_interface other_matches -> forall hidden ops ops' d d',
  html5ever_calls ops -> html5ever_calls ops' -> run_ops document_new ops = Ok d -> run_ops document_new ops' = Ok d' ->
  clean_sheets_of parse_color other rules_of d -> clean_attributes parse_color items_of d ->
  documents_alike hidden d d' -> (forall x x', hidden x x' -> not_shown d x) -> forall o, to_pdf o d = to_pdf o d'.
Proof.
  intros Hi hidden ops ops' d d' H H' E E' Cs Ca Al Ns.
  destruct (C74_displays (fun _ => []) parse_color other other_specificity other_matches items_of rules_of (fun _ => inl []) (fun _ _ => None) ops d H E Cs Ca) as (root & s & cs & D & _).
  destruct (html_root ops' d' H' E') as (root' & Er'). exact (C88_page Hi hidden d d' root root' s cs Al Ns D Er' (html_texts ops' d' H' E')).
Qed.
(** Elements that do not show, if the author sets no display for them: [head], [script], [title] and so on, hidden ones, and hidden inputs
    whatever the author sets *)
Theorem C88_not_shown : forall d x e, data (node_at d x) = DElement e ->
  (forall texts author attr ua, stylesheets d = Ok texts -> add_stylesheets parse_color (ua_selector other) [] (map rules_of texts) = Ok author ->
     style_attribute parse_color items_of e attr ->
     author_silent (occurs (ua_selector other) (ua_specificity other other_specificity) (fun s => ua_matches other other_matches s d x) ua author attr) display_) ->
  In (local e) not_displayed \/ (local e <> bs "embed" /\ UserAgentSpec.hidden e) -> not_shown d x.
Proof.
  intros d x e De Si Ne ua texts author parent c Eu Et Ea Es.
  destruct (C73_style _ _ _ _ _ _ _ _ _ _ _ _ _ Eu Ea Es De) as (attr & At & S & _).
  destruct (S (Si texts author attr ua Et Ea At)) as (v & Dv & Av).
  assert (v = DisplayNone) as ->.
  { apply (C73_unambiguous e); [exact Dv|]. destruct Ne as [Ne|[Ne Hd]]; [apply ud_none; exact Ne|apply ud_hidden; assumption]. }
  exact (adjusted_none c Av).
Qed.
Theorem C88_hidden_input : forall d x e, data (node_at d x) = DElement e -> hidden_input e -> not_shown d x.
Proof. intros d x e De Hi ua texts author parent c Eu Et Ea Es. exact (C73_hidden_input _ _ _ _ _ _ _ _ _ _ _ _ _ Eu Ea Es De Hi). Qed.

(** ** Comments and such alone *)
Lemma none_shown : forall d x x', none_hidden x x' -> not_shown d x.
Proof. intros d x x' []. Qed.
Theorem C87_contents : through_interface other_matches -> forall d d' root root' s cs,
  documents_alike none_hidden d d' -> displays d root s cs -> root_element d' = Ok root' ->
  (forall i t, data (node_at d' i) = DText t -> exists u, encodes t u) ->
  exists cs', displays d' root' s cs' /\ same_but_spaces cs cs'.
Proof. intros Hi d d' root root' s cs Al D Er' Hu. exact (C88_contents Hi _ d d' root root' s cs Al (none_shown d) D Er' Hu). Qed.
Theorem C87_boxes : through_interface other_matches -> forall d d' root root' s cs,
  documents_alike none_hidden d d' -> displays d root s cs -> root_element d' = Ok root' ->
  (forall i t, data (node_at d' i) = DText t -> exists u, encodes t u) ->
  (exists boxes w w', construct_root d = Ok (boxes, w) /\ construct_root d' = Ok (boxes, w')) \/
  (construct_root d = Panic /\ construct_root d' = Panic).
Proof. intros Hi d d' root root' s cs Al D Er' Hu. exact (C88_boxes Hi _ d d' root root' s cs Al (none_shown d) D Er' Hu). Qed.
Theorem C87_page : through_interface other_matches -> forall d d' root root' s cs,
  documents_alike none_hidden d d' -> displays d root s cs -> root_element d' = Ok root' ->
  (forall i t, data (node_at d' i) = DText t -> exists u, encodes t u) ->
  forall o, to_pdf o d = to_pdf o d'.
Proof. intros Hi d d' root root' s cs Al D Er' Hu. exact (C88_page Hi _ d d' root root' s cs Al (none_shown d) D Er' Hu). Qed.
Theorem C87_html : through_interface other_matches -> forall ops ops' d d',
  html5ever_calls ops -> html5ever_calls ops' -> run_ops document_new ops = Ok d -> run_ops document_new ops' = Ok d' ->
  clean_sheets_of parse_color other rules_of d -> clean_attributes parse_color items_of d ->
  documents_alike none_hidden d d' -> forall o, to_pdf o d = to_pdf o d'.
Proof. intros Hi ops ops' d d' H H' E E' Cs Ca Al. exact (C88_html Hi _ ops ops' d d' H H' E E' Cs Ca Al (none_shown d)). Qed.
End Program.

(** ** Taking away one comment *)
Lemma detached_alike : forall d d' kids c, in_forest d kids -> same_data d d' -> ignorable (data (node_at d c)) ->
  forall p, alike d d' kids (detached c kids) none_hidden (kids p) (detached c kids p).
Proof.
  intros d d' kids c Hf S Hc p. destruct Hf as (_ & _ & _ & _ & _ & Wf). induction (Wf p) as [p _ IH].
  unfold detached at 2. assert (G : forall l, (forall x, In x l -> In x (kids p)) -> alike d d' kids (detached c kids) none_hidden l (without c l)).
  2: { apply G. auto. }
  intros l. induction l as [|x l IHl]; intros Inc; [apply al_nil|]. cbn [without filter].
  assert (Hl : alike d d' kids (detached c kids) none_hidden l (without c l)) by (apply IHl; intros y I; apply Inc; right; exact I).
  destruct (Nat.eqb_spec x c) as [->|N]; cbn [negb].
  - change (c :: l) with ([c] ++ l). change (filter (fun x => negb (x =? c)) l) with ([] ++ without c l). apply al_text; [| |  |exact Hl].
    + intros y [<-|[]] K. destruct (data (node_at d c)); contradiction.
    + intros y [].
    + unfold texts_of. cbn [flat_map]. unfold text_of. destruct (data (node_at d c)); try reflexivity. destruct Hc.
  - change (filter (fun x => negb (x =? c)) l) with (without c l). destruct (data (node_at d x)) as [| | | |e|] eqn:Dx.
    5: { apply al_element; [exists e, e; split; [exact Dx|split; [rewrite (same_data_at d d' x S); exact Dx|split; [reflexivity|split; [reflexivity|left; reflexivity]]]]| |exact Hl].
      apply IH. apply Inc. left. reflexivity. }
    all: change (x :: l) with ([x] ++ l); change (x :: without c l) with ([x] ++ without c l); apply al_text; [intros y [<-|[]]; rewrite Dx; intros []|
      intros y [<-|[]]; rewrite (same_data_at d d' x S), Dx; intros []|unfold texts_of, text_of; cbn [flat_map]; rewrite (same_data_at d d' x S); reflexivity|exact Hl].
Qed.
Lemma detached_texts : forall d d' c l, same_data d d' -> ignorable (data (node_at d c)) -> texts_of d' (without c l) = texts_of d l.
Proof.
  intros d d' c l S Hc. unfold texts_of. induction l as [|x l IH]; [reflexivity|]. cbn [without filter flat_map].
  destruct (Nat.eqb_spec x c) as [->|N]; cbn [negb].
  - change (filter (fun x => negb (x =? c)) l) with (without c l). rewrite IH. unfold text_of. destruct (data (node_at d c)); try reflexivity. destruct Hc.
  - change (filter (fun x => negb (x =? c)) l) with (without c l). cbn [flat_map]. rewrite IH. unfold text_of. rewrite (same_data_at d d' x S). reflexivity.
Qed.
Lemma detached_sheets : forall d d' kids c, same_data d d' -> ignorable (data (node_at d c)) -> forall l a b,
  css_texts d kids l a -> css_texts d' (detached c kids) l b -> a = b.
Proof.
  intros d d' kids c S Hc l a b H. revert b. induction H as [|i l r C H IH|i l r C H IH]; intros b H'.
  - inversion H'. reflexivity.
  - inversion H' as [|? ? r' C' H2|? ? r' C' H2]; subst; rewrite (same_data_at d d' i S) in C'; [|contradiction].
    unfold detached. rewrite (detached_texts d d' c (kids i) S Hc), (IH r' H2). reflexivity.
  - inversion H' as [|? ? r' C' H2|? ? r' C' H2]; subst; rewrite (same_data_at d d' i S) in C'; [contradiction|]. exact (IH b H2).
Qed.
Lemma run_ops_snoc : forall ops d d1 o, run_ops d ops = Ok d1 -> run_ops d (ops ++ [o]) = do_op d1 o.
Proof.
  induction ops as [|x ops IH]; intros d d1 o E; cbn [app run_ops] in *.
  - injection E as ->. destruct (do_op d1 o) as [y|e|]; reflexivity.
  - destruct (do_op d x) as [y|e|]; cbn [bind] in *; [|discriminate E|discriminate E]. exact (IH y d1 o E).
Qed.
Lemma valid_ops_snoc : forall ops d d1 o, valid_ops d ops -> run_ops d ops = Ok d1 -> valid_op d1 o -> valid_ops d (ops ++ [o]).
Proof.
  intros ops d d1 o V. induction V as [d|d x r Vx Vr IH]; intros E Vo; cbn [app run_ops] in *.
  - injection E as ->. apply vo_cons; [exact Vo|]. intros d' _. apply vo_nil.
  - apply vo_cons; [exact Vx|]. intros d' E'. rewrite E' in E. cbn [bind] in E. exact (IH d' E' E Vo).
Qed.
Lemma without_app : forall c a b, without c (a ++ b) = without c a ++ without c b.
Proof. intros c a b. unfold without. apply filter_app. Qed.
(** The same calls and one more, to take the comment away *)
Theorem C87_comment : forall parse_color other other_specificity (other_matches : other -> document -> nat -> bool) items_of rules_of round m addr,
  through_interface other_matches -> forall ops d c, html5ever_calls ops -> run_ops document_new ops = Ok d ->
  clean_sheets_of parse_color other rules_of d -> clean_attributes parse_color items_of d ->
  exists_node d c -> ignorable (data (node_at d c)) ->
  exists d', run_ops document_new (ops ++ [RemoveFromParent c]) = Ok d' /\ parent (node_at d' c) = None /\ forall o,
    document_to_pdf parse_color other other_specificity other_matches items_of rules_of round m addr o d' =
    document_to_pdf parse_color other other_specificity other_matches items_of rules_of round m addr o d.
Proof.
  intros parse_color other osp om items_of rules_of round m addr Hi ops d c H E Cs Ca Ec Ig. pose proof H as (V & U8 & Rt).
  destruct (run_ops_doc ops document_new _ document_new_doc V) as (d0 & kids & E0 & Hf). assert (d0 = d) as -> by congruence. clear E0.
  destruct (detach_ok d kids c (proj1 Hf)) as (d' & Ed & Hf' & S & Pc). { unfold exists_node in Ec. lia. }
  exists d'. rewrite (run_ops_snoc ops document_new d _ E). split; [exact Ed|]. split; [exact Pc|].
  assert (V' : valid_ops document_new (ops ++ [RemoveFromParent c])) by exact (valid_ops_snoc ops document_new d (RemoveFromParent c) V E Ec).
  assert (E' : run_ops document_new (ops ++ [RemoveFromParent c]) = Ok d') by (rewrite (run_ops_snoc ops document_new d _ E); exact Ed).
  assert (Df : doc_forest d' (detached c kids)).
  { destruct (run_ops_doc _ document_new _ document_new_doc V') as (d1 & k1 & E1 & (Hf1 & L1 & Z1 & R1 & K1 & D1)). assert (d1 = d') as -> by congruence.
    pose proof (kids_unique d' k1 (detached c kids) Hf1 Hf') as Ku. split; [exact Hf'|]. split; [exact L1|].
    split; [intros q; rewrite <- Ku; apply Z1|]. split; [intros q; rewrite <- Ku; apply R1|]. split; [rewrite <- Ku; exact K1|exact D1]. }
  destruct (C38_style_elements ops d V E) as (_ & k2 & t2 & Hk2 & Et2 & C2).
  destruct (C38_style_elements _ d' V' E') as (_ & k3 & t3 & Hk3 & Et3 & C3).
  assert (Ids : style_ids d' = style_ids d).
  { unfold style_ids. destruct S as [Sm Ss]. pose proof (map_length data (nodes d')) as L1. pose proof (map_length data (nodes d)) as L2.
    rewrite Sm in L1. rewrite <- L1, L2. apply filter_ext. intros i. rewrite (same_data_at d d' i (conj Sm Ss)). reflexivity. }
  assert (Sh : stylesheets d = stylesheets d').
  { rewrite Et2, Et3. f_equal.
    assert (Cx : forall dd k k' l ts, (forall p, k p = k' p) -> css_texts dd k l ts -> css_texts dd k' l ts).
    { intros dd k k' l ts Ek C. induction C as [|i l r Ct C IH|i l r Ct C IH]; [constructor| |apply ct_other; assumption]. rewrite Ek. apply ct_css; assumption. }
    apply (detached_sheets d d' kids c S Ig (style_ids d)).
    - exact (Cx _ _ _ _ _ (kids_unique d k2 kids Hk2 (proj1 Hf)) C2).
    - rewrite <- Ids. exact (Cx _ _ _ _ _ (kids_unique d' k3 _ Hk3 Hf') C3). }
  intros o. symmetry. apply (C87_html parse_color other osp om items_of rules_of round m addr Hi ops (ops ++ [RemoveFromParent c])); try assumption.
  - split; [exact V'|]. split.
    + intros x t I. apply in_app_or in I as [I|[<-|[]]]; [exact (U8 x t I)|]. cbn [given_text]. intros [].
    + intros d1 k1 E1 Hk1. assert (d1 = d') as -> by congruence. rewrite (kids_unique d' k1 _ Hk1 Hf').
      destruct (Rt d kids E (proj1 Hf)) as (l & x & r & Ek & He & Hig). exists (without c l), x, (without c r).
      assert (Xc : x <> c). { intros ->. destruct (data (node_at d c)); contradiction. }
      split.
      { unfold detached. rewrite Ek, without_app. f_equal. cbn [without filter]. apply Nat.eqb_neq in Xc. rewrite Xc. reflexivity. }
      rewrite (same_data_at d d' x S). split; [exact He|]. intros y I. rewrite (same_data_at d d' y S). apply Hig.
      rewrite <- without_app in I. apply filter_In in I as [I _]. exact I.
  - split; [|exact Sh]. exists kids, (detached c kids). split; [exact Hf|]. split; [exact Df|]. split; [apply detached_alike; [exact (proj1 Hf)|exact S|exact Ig]|intros x x' _ []].
Qed.
Print Assumptions C88_contents.
Print Assumptions C88_boxes.
Print Assumptions C88_page.
Print Assumptions C88_html.
Print Assumptions C88_not_shown.
Print Assumptions C88_hidden_input.
Print Assumptions C87_interface.
Print Assumptions C87_contents.
Print Assumptions C87_boxes_of_letters.
Print Assumptions C96_boxes.
Print Assumptions C87_boxes.
Print Assumptions C87_page.
Print Assumptions C87_html.
Print Assumptions C87_comment.

(** ** Examples *)
(** Descendant selectors, such as [body p]: a program that goes up until it finds the name *)
Definition pair_selector : Type := bytes * bytes.
Definition has_name (n : bytes) (d : document) (x : nat) : bool :=
  match data (node_at d x) with DElement e => bytes_eqb (q_local (e_name e)) n | _ => false end.
Fixpoint above (n : bytes) (d : document) (l : list nat) : bool :=
  match l with
  | [] => false
  | x :: l => match data (node_at d x) with DElement e => if bytes_eqb (q_local (e_name e)) n then true else above n d l | _ => false end
  end.
Definition pair_matches (s : pair_selector) (d : document) (x : nat) : bool :=
  has_name (snd s) d x && match node_and_ancestors d x with Ok (_ :: l) => above (fst s) d l | _ => false end.
Inductive pair_state := PStart (s : pair_selector) | PUp (s : pair_selector) (i : nat) | PCheck (s : pair_selector) (i : nat) | PDone (b : bool).
Definition pair_step (st : pair_state) : instruction pair_state :=
  match st with
  | PStart s => AskName 0 (fun l _ => if bytes_eqb l (snd s) then PUp s 0 else PDone false)
  | PUp s i => Go ToParent i (PCheck s (S i)) (PDone false)
  | PCheck s i => AskName i (fun l _ => if bytes_eqb l (fst s) then PDone true else PUp s i)
  | PDone b => Answer b
  end.
Lemma pair_up : forall s d kids x l, doc_forest d kids -> is_element (data (node_at d x)) -> up d x l -> forall xs i, nth_error xs i = Some x -> length xs = S i ->
  runs pair_step d (PUp s i) xs (match l with _ :: l => above (fst s) d l | [] => false end).
Proof.
  intros s d kids x l Hf El U. revert El. induction U as [x P|x p l P U IH]; intros El xs i Ex L.
  - destruct (data (node_at d x)) as [| | | |e|] eqn:D; try destruct El.
    apply (rn_none _ _ (PUp s i) xs ToParent i (PCheck s (S i)) (PDone false) x); [reflexivity|exact Ex| |apply rn_answer; reflexivity].
    cbn [moved]. unfold parent_element. rewrite (index_ok d x (UserAgentProofs.in_range d x e D)). cbn [bind]. rewrite P. reflexivity.
  - destruct (data (node_at d x)) as [| | | |e|] eqn:D; try destruct El.
    assert (Bp : p < length (nodes d)).
    { destruct (Nat.lt_ge_cases p (length (nodes d))) as [B|B]; [exact B|]. exfalso. destruct Hf as ((_ & Fc & Pr & _) & _).
      apply Pr in P. destruct (Fc p) as [F _]. unfold node_at in F. rewrite nth_overflow in F by exact B. unfold child_of in P. destruct (kids p); [destruct P|discriminate F]. }
    assert (M : moved d ToParent x = Ok (match as_element (node_at d p) with Some _ => Some p | None => None end)).
    { cbn [moved]. unfold parent_element. rewrite (index_ok d x (UserAgentProofs.in_range d x e D)). cbn [bind]. rewrite P, (index_ok d p Bp). cbn [bind].
      destruct (as_element (node_at d p)); reflexivity. }
    assert (Hl : exists r, l = p :: r) by (inversion U; eauto). destruct Hl as (r & ->). cbn [above].
    unfold as_element in M. destruct (data (node_at d p)) as [| | | |ep|] eqn:Dp.
    5: { apply (rn_found _ _ (PUp s i) xs ToParent i (PCheck s (S i)) (PDone false) x p); [reflexivity|exact Ex|exact M|].
      assert (Np : nth_error (xs ++ [p]) (S i) = Some p).
      { rewrite <- L, nth_error_app2 by lia. rewrite Nat.sub_diag. reflexivity. }
      apply (rn_name _ _ (PCheck s (S i)) (xs ++ [p]) (S i) (fun l _ => if bytes_eqb l (fst s) then PDone true else PUp s (S i)) p (q_local (e_name ep)) (q_ns (e_name ep)));
        [reflexivity|exact Np| | |].
      - unfold local_name. rewrite (unwrap_ok d p ep Bp Dp). reflexivity.
      - unfold namespace. rewrite (unwrap_ok d p ep Bp Dp). reflexivity.
      - destruct (bytes_eqb (q_local (e_name ep)) (fst s)); [apply rn_answer; reflexivity|]. apply IH; [exact I|exact Np|].
        rewrite app_length, L. cbn [length]. lia. }
    all: apply (rn_none _ _ (PUp s i) xs ToParent i (PCheck s (S i)) (PDone false) x); [reflexivity|exact Ex|exact M|apply rn_answer; reflexivity].
Qed.
Example pair_through : through_interface pair_matches.
Proof.
  exists pair_state, pair_step, PStart. intros s d kids x Hf El.
  destruct (data (node_at d x)) as [| | | |e|] eqn:D; try destruct El. pose proof (UserAgentProofs.in_range d x e D) as B.
  apply (rn_name _ _ (PStart s) [x] 0 (fun l _ => if bytes_eqb l (snd s) then PUp s 0 else PDone false) x (q_local (e_name e)) (q_ns (e_name e)));
    [reflexivity|reflexivity| | |].
  - unfold local_name. rewrite (unwrap_ok d x e B D). reflexivity.
  - unfold namespace. rewrite (unwrap_ok d x e B D). reflexivity.
  - unfold pair_matches, has_name. rewrite D. destruct (bytes_eqb (q_local (e_name e)) (snd s)); [|apply rn_answer; reflexivity].
    destruct (C23_ancestors d kids x (proj1 Hf) B) as (l & -> & U & _). cbn [andb].
    pose proof (pair_up s d kids x l Hf ltac:(rewrite D; exact I) U [x] 0 eq_refl eq_refl) as R. destruct l; exact R.
Qed.
(** [<!doctype html><html><!--x--><head><style>p{}</style></head><body><p style=x>A<!--y-->B</p></body></html>] *)
Definition comment_ops : list sink_op :=
  [ AppendDoctype (bs "html") [] []; CreateElement (h "html") [] false; Append 1 (AppendNode 3);
    CreateComment (bs "x"); Append 3 (AppendNode 4);
    CreateElement (h "head") [] false; Append 3 (AppendNode 5);
    CreateElement (h "style") [] false; Append 5 (AppendNode 6); Append 6 (AppendText (bs "p{}"));
    CreateElement (h "body") [] false; Append 3 (AppendNode 8);
    CreateElement (h "p") [at_ "style" "x"] false; Append 8 (AppendNode 9);
    Append 9 (AppendText (bs "A")); CreateComment (bs "y"); Append 9 (AppendNode 11); Append 9 (AppendText (bs "B")) ].
(** The same without the doctype and the comments, and text in one piece *)
Definition plain_ops : list sink_op :=
  [ CreateElement (h "html") [] false; Append 1 (AppendNode 2);
    CreateElement (h "head") [] false; Append 2 (AppendNode 3);
    CreateElement (h "style") [] false; Append 3 (AppendNode 4); Append 4 (AppendText (bs "p{}"));
    CreateElement (h "body") [] false; Append 2 (AppendNode 6);
    CreateElement (h "p") [at_ "style" "x"] false; Append 6 (AppendNode 7); Append 7 (AppendText (bs "AB")) ].
Definition comment_doc : document := Eval vm_compute in match run_ops document_new comment_ops with Ok d => d | _ => document_new end.
Definition plain_doc : document := Eval vm_compute in match run_ops document_new plain_ops with Ok d => d | _ => document_new end.
Ltac valid_calls := repeat (first [apply vo_nil
  | vstep; [first [exact I | split; [bound|exact I] | split; [bound|split; [bound|split; [discriminate|nanc]]]]|] ]).
Lemma comment_calls : html5ever_calls comment_ops.
Proof.
  split; [|split].
  - unfold comment_ops. valid_calls.
  - intros o t I. unfold comment_ops in I. cbn [In] in I.
    repeat (destruct I as [<-|I]; [cbn [given_text In]; try contradiction|]); [| | |contradiction].
    + intros [<-|[]]. exists (bs "p{}"). split; [repeat constructor|reflexivity].
    + intros [<-|[]]. exists (bs "A"). split; [repeat constructor|reflexivity].
    + intros [<-|[]]. exists (bs "B"). split; [repeat constructor|reflexivity].
  - intros d kids E F. assert (d = comment_doc) as -> by (vm_compute in E; injection E as <-; reflexivity).
    exists [2], 3, []. split; [apply (kids_links comment_doc kids 1 [2; 3] F); reflexivity|]. split; [exact I|intros y [<-|[]]; exact I].
Qed.
Lemma plain_calls : html5ever_calls plain_ops.
Proof.
  split; [|split].
  - unfold plain_ops. valid_calls.
  - intros o t I. unfold plain_ops in I. cbn [In] in I.
    repeat (destruct I as [<-|I]; [cbn [given_text In]; try contradiction|]); [| |contradiction].
    + intros [<-|[]]. exists (bs "p{}"). split; [repeat constructor|reflexivity].
    + intros [<-|[]]. exists (bs "AB"). split; [repeat constructor|reflexivity].
  - intros d kids E F. assert (d = plain_doc) as -> by (vm_compute in E; injection E as <-; reflexivity).
    exists [], 2, []. split; [apply (kids_links plain_doc kids 1 [2] F); reflexivity|]. split; [exact I|intros y []].
Qed.
Lemma comment_alike : documents_alike none_hidden comment_doc plain_doc.
Proof.
  destruct (run_ops_doc comment_ops document_new _ document_new_doc (proj1 comment_calls)) as (d & kids & E & Hf).
  assert (d = comment_doc) as -> by (vm_compute in E; injection E as <-; reflexivity). clear E.
  destruct (run_ops_doc plain_ops document_new _ document_new_doc (proj1 plain_calls)) as (d & kids' & E & Hf').
  assert (d = plain_doc) as -> by (vm_compute in E; injection E as <-; reflexivity). clear E.
  split; [|reflexivity]. exists kids, kids'. split; [exact Hf|]. split; [exact Hf'|]. split; [|intros x x' _ []].
  assert (K : forall i l, first_child (node_at comment_doc i) = hd_error l -> chain comment_doc l = true -> kids i = l)
    by (intros i l; exact (kids_links comment_doc kids i l (proj1 Hf))).
  assert (K' : forall i l, first_child (node_at plain_doc i) = hd_error l -> chain plain_doc l = true -> kids' i = l)
    by (intros i l; exact (kids_links plain_doc kids' i l (proj1 Hf'))).
  assert (Bare : forall dd l, forallb (fun x => negb (element_at dd x)) l = true -> forall x, In x l -> ~ is_element (data (node_at dd x))).
  { intros dd l B x I El. rewrite forallb_forall in B. specialize (B x I). unfold element_at in B. destruct (data (node_at dd x)); try contradiction. discriminate B. }
  assert (Txt : forall l l' r r', forallb (fun x => negb (element_at comment_doc x)) l = true -> forallb (fun x => negb (element_at plain_doc x)) l' = true ->
    same_text (texts_of comment_doc l) (texts_of plain_doc l') -> alike comment_doc plain_doc kids kids' none_hidden r r' -> alike comment_doc plain_doc kids kids' none_hidden (l ++ r) (l' ++ r')).
  { intros l l' r r' B B' Tx R. apply al_text; [exact (Bare _ _ B)|exact (Bare _ _ B')|exact Tx|exact R]. }
  unfold document_node_id. rewrite (K 1 [2; 3]), (K' 1 [2]) by reflexivity.
  apply (Txt [2] [] [3] [2]); [reflexivity..|]. apply al_element; [do 2 eexists; split; [reflexivity|split; [reflexivity|split; [reflexivity|split; [reflexivity|left; reflexivity]]]]| |apply al_nil].
  rewrite (K 3 [4; 5; 8]), (K' 2 [3; 6]) by reflexivity. apply (Txt [4] [] [5; 8] [3; 6]); [reflexivity..|].
  apply al_element; [do 2 eexists; split; [reflexivity|split; [reflexivity|split; [reflexivity|split; [reflexivity|left; reflexivity]]]]| |].
  - rewrite (K 5 [6]), (K' 3 [4]) by reflexivity. apply al_element; [do 2 eexists; split; [reflexivity|split; [reflexivity|split; [reflexivity|split; [reflexivity|left; reflexivity]]]]| |apply al_nil].
    rewrite (K 6 [7]), (K' 4 [5]) by reflexivity. apply (Txt [7] [5] [] []); [reflexivity..|apply al_nil].
  - apply al_element; [do 2 eexists; split; [reflexivity|split; [reflexivity|split; [reflexivity|split; [reflexivity|left; reflexivity]]]]| |apply al_nil]. rewrite (K 8 [9]), (K' 6 [7]) by reflexivity.
    apply al_element; [do 2 eexists; split; [reflexivity|split; [reflexivity|split; [reflexivity|split; [reflexivity|left; reflexivity]]]]| |apply al_nil]. rewrite (K 9 [10; 11; 12]), (K' 7 [8]) by reflexivity.
    apply (Txt [10; 11; 12] [8] [] []); [reflexivity..|apply al_nil].
Qed.
Definition pair_rules (t : bytes) : list (source_rule (ua_selector pair_selector)) :=
  if bytes_eqb t (bs "p{}") then [StyleRule [Other (bs "body", bs "p")] [Item (bs "color") [id_ "red"]; Item (bs "font-size") [px 20]]] else [].
Notation pair_construct := (box_tree_root_construct ex_color (ua_selector pair_selector) (ua_specificity pair_selector (fun _ => 2%N)) (ua_matches pair_selector pair_matches)
  main_items pair_rules (user_agent_css pair_selector)).
Lemma comment_clean : clean_sheets_of ex_color pair_selector pair_rules comment_doc /\ clean_attributes ex_color main_items comment_doc.
Proof.
  assert (X : forall l, parse_block ex_color l <> Panic -> forall i, In i l -> ~ trailing ex_color i).
  { intros l N i I T. apply N. apply C40_panics. eauto. }
  split.
  - intros ts t E I. vm_compute in E. injection E as <-. destruct I as [<-|[]]. intros sels body i R.
    vm_compute in R. destruct R as [R|[]]. injection R as <- <-. apply X. vm_compute. discriminate.
  - intros n e v i D C F.
    assert (A : e_attrs e = [] \/ e_attrs e = [at_ "style" "x"]).
    { do 13 (destruct n as [|n]; [try discriminate D; vm_compute in D; injection D as <-; auto|]). unfold node_at in D.
      rewrite nth_overflow in D by (cbn; lia). discriminate D. }
    apply X. destruct A as [A|A]; rewrite A in F.
    + inversion F.
    + inversion F; subst; [vm_compute; discriminate|]. match goal with K : first_attr _ [] _ |- _ => inversion K end.
Qed.
Example C87_html_example : (forall o,
  document_to_pdf ex_color pair_selector (fun _ => 2%N) pair_matches main_items pair_rules print32 Release 0 o comment_doc =
  document_to_pdf ex_color pair_selector (fun _ => 2%N) pair_matches main_items pair_rules print32 Release 0 o plain_doc) /\
  match pair_construct comment_doc with Ok (b, _) => context_text b | _ => [] end = bs "AB" /\
  pair_matches (bs "body", bs "p") comment_doc 9 = true /\ pair_matches (bs "head", bs "p") comment_doc 9 = false.
Proof.
  split; [|vm_compute; auto]. intros o.
  apply (C87_html ex_color pair_selector (fun _ => 2%N) pair_matches main_items pair_rules print32 Release 0 pair_through comment_ops plain_ops comment_doc plain_doc
    comment_calls plain_calls eq_refl eq_refl (proj1 comment_clean) (proj2 comment_clean) comment_alike o).
Qed.
Example C87_comment_example : exists d', run_ops document_new (comment_ops ++ [RemoveFromParent 11]) = Ok d' /\ parent (node_at d' 11) = None /\ forall o,
  document_to_pdf ex_color pair_selector (fun _ => 2%N) pair_matches main_items pair_rules print32 Release 0 o d' =
  document_to_pdf ex_color pair_selector (fun _ => 2%N) pair_matches main_items pair_rules print32 Release 0 o comment_doc.
Proof.
  apply (C87_comment ex_color pair_selector (fun _ => 2%N) pair_matches main_items pair_rules print32 Release 0 pair_through comment_ops comment_doc 11
    comment_calls eq_refl (proj1 comment_clean) (proj2 comment_clean)); [unfold exists_node; cbn; lia|exact I].
Qed.
(** [<html><head><style>p{}</style><title>T</title><script>S</script></head><body><p style=x>AB</p></body></html>]: more in the head *)
Definition titled_ops : list sink_op :=
  [ CreateElement (h "html") [] false; Append 1 (AppendNode 2);
    CreateElement (h "head") [] false; Append 2 (AppendNode 3);
    CreateElement (h "style") [] false; Append 3 (AppendNode 4); Append 4 (AppendText (bs "p{}"));
    CreateElement (h "title") [] false; Append 3 (AppendNode 6); Append 6 (AppendText (bs "T"));
    CreateElement (h "script") [] false; Append 3 (AppendNode 8); Append 8 (AppendText (bs "S"));
    CreateElement (h "body") [] false; Append 2 (AppendNode 10);
    CreateElement (h "p") [at_ "style" "x"] false; Append 10 (AppendNode 11); Append 11 (AppendText (bs "AB")) ].
Definition titled_doc : document := Eval vm_compute in match run_ops document_new titled_ops with Ok d => d | _ => document_new end.
Lemma titled_calls : html5ever_calls titled_ops.
Proof.
  split; [|split].
  - unfold titled_ops. valid_calls.
  - intros o t I. unfold titled_ops in I. cbn [In] in I.
    repeat (destruct I as [<-|I]; [cbn [given_text In]; try contradiction|]); [| | | |contradiction].
    + intros [<-|[]]. exists (bs "p{}"). split; [repeat constructor|reflexivity].
    + intros [<-|[]]. exists (bs "T"). split; [repeat constructor|reflexivity].
    + intros [<-|[]]. exists (bs "S"). split; [repeat constructor|reflexivity].
    + intros [<-|[]]. exists (bs "AB"). split; [repeat constructor|reflexivity].
  - intros d kids E F. assert (d = titled_doc) as -> by (vm_compute in E; injection E as <-; reflexivity).
    exists [], 2, []. split; [apply (kids_links titled_doc kids 1 [2] F); reflexivity|]. split; [exact I|intros y []].
Qed.
(** The two heads *)
Definition heads (x x' : nat) : Prop := x = 5 /\ x' = 3.
Lemma titled_alike : documents_alike heads comment_doc titled_doc.
Proof.
  destruct (run_ops_doc comment_ops document_new _ document_new_doc (proj1 comment_calls)) as (d & kids & E & Hf).
  assert (d = comment_doc) as -> by (vm_compute in E; injection E as <-; reflexivity). clear E.
  destruct (run_ops_doc titled_ops document_new _ document_new_doc (proj1 titled_calls)) as (d & kids' & E & Hf').
  assert (d = titled_doc) as -> by (vm_compute in E; injection E as <-; reflexivity). clear E.
  assert (K : forall i l, first_child (node_at comment_doc i) = hd_error l -> chain comment_doc l = true -> kids i = l)
    by (intros i l; exact (kids_links comment_doc kids i l (proj1 Hf))).
  assert (K' : forall i l, first_child (node_at titled_doc i) = hd_error l -> chain titled_doc l = true -> kids' i = l)
    by (intros i l; exact (kids_links titled_doc kids' i l (proj1 Hf'))).
  split; [|reflexivity]. exists kids, kids'. split; [exact Hf|]. split; [exact Hf'|]. split.
  2: { unfold document_node_id. rewrite (K 1 [2; 3]) by reflexivity. intros x x' [<-|[<-|[]]] [H _]; discriminate H. }
  assert (Bare : forall dd l, forallb (fun x => negb (element_at dd x)) l = true -> forall x, In x l -> ~ is_element (data (node_at dd x))).
  { intros dd l B x I El. rewrite forallb_forall in B. specialize (B x I). unfold element_at in B. destruct (data (node_at dd x)); try contradiction. discriminate B. }
  assert (Txt : forall l l' r r', forallb (fun x => negb (element_at comment_doc x)) l = true -> forallb (fun x => negb (element_at titled_doc x)) l' = true ->
    same_text (texts_of comment_doc l) (texts_of titled_doc l') -> alike comment_doc titled_doc kids kids' heads r r' -> alike comment_doc titled_doc kids kids' heads (l ++ r) (l' ++ r')).
  { intros l l' r r' B B' Tx R. apply al_text; [exact (Bare _ _ B)|exact (Bare _ _ B')|exact Tx|exact R]. }
  unfold document_node_id. rewrite (K 1 [2; 3]), (K' 1 [2]) by reflexivity.
  apply (Txt [2] [] [3] [2]); [reflexivity..|]. apply al_element; [do 2 eexists; split; [reflexivity|split; [reflexivity|split; [reflexivity|split; [reflexivity|left; reflexivity]]]]| |apply al_nil].
  rewrite (K 3 [4; 5; 8]), (K' 2 [3; 10]) by reflexivity. apply (Txt [4] [] [5; 8] [3; 10]); [reflexivity..|].
  apply al_hidden; [do 2 eexists; split; [reflexivity|split; [reflexivity|split; [reflexivity|split; [reflexivity|left; reflexivity]]]]|split; reflexivity| |].
  - unfold same_emptiness. rewrite (K 5 [6]), (K' 3 [4; 6; 8]) by reflexivity. split; intros C.
    + destruct (C 6 (or_introl eq_refl)) as [X _]. destruct (X I).
    + destruct (C 4 (or_introl eq_refl)) as [X _]. destruct (X I).
  - apply al_element; [do 2 eexists; split; [reflexivity|split; [reflexivity|split; [reflexivity|split; [reflexivity|left; reflexivity]]]]| |apply al_nil]. rewrite (K 8 [9]), (K' 10 [11]) by reflexivity.
    apply al_element; [do 2 eexists; split; [reflexivity|split; [reflexivity|split; [reflexivity|split; [reflexivity|left; reflexivity]]]]| |apply al_nil]. rewrite (K 9 [10; 11; 12]), (K' 11 [12]) by reflexivity.
    apply (Txt [10; 11; 12] [12] [] []); [reflexivity..|apply al_nil].
Qed.
Lemma heads_not_shown : forall x x', heads x x' -> not_shown ex_color pair_selector (fun _ => 2%N) pair_matches main_items pair_rules comment_doc x.
Proof.
  intros x x' [-> _]. eapply C88_not_shown; [reflexivity| |left; vm_compute; tauto].
  intros texts author attr ua Et Ea At o O Au. vm_compute in Et. injection Et as <-. vm_compute in Ea. injection Ea as <-.
  inversion O as [i s b k dc imp E M Ed Ei|i s b k dc imp E M Ed Ei|b k dc imp E Ed Ei]; subst.
  - discriminate Au.
  - destruct i as [|[|i]]; cbn [nth_error] in E; [|discriminate E..]. injection E as <- <-. vm_compute in M. discriminate M.
  - inversion At as [|v b' ds Cn F Bm Hl]; subst. inversion F.
Qed.
Example C88_html_example : forall o,
  document_to_pdf ex_color pair_selector (fun _ => 2%N) pair_matches main_items pair_rules print32 Release 0 o comment_doc =
  document_to_pdf ex_color pair_selector (fun _ => 2%N) pair_matches main_items pair_rules print32 Release 0 o titled_doc.
Proof.
  intros o.
  apply (C88_html ex_color pair_selector (fun _ => 2%N) pair_matches main_items pair_rules print32 Release 0 pair_through heads comment_ops titled_ops comment_doc titled_doc
    comment_calls titled_calls eq_refl eq_refl (proj1 comment_clean) (proj2 comment_clean) titled_alike heads_not_shown o).
Qed.
(** The condition about the author's style sheets is needed: [head, title { display: block }] shows the title. *)
Definition head_rules (t : bytes) : list (source_rule (ua_selector bytes)) :=
  if bytes_eqb t (bs "p{}") then [StyleRule [Other (bs "head"); Other (bs "title")] [Item (bs "display") [id_ "block"]]] else [].
Example C88_author_shows_head :
  match box_tree_root_construct ex_color (ua_selector bytes) (ua_specificity bytes (fun _ => 1%N)) (ua_matches bytes has_name) main_items head_rules
          (user_agent_css bytes) titled_doc with Ok (b, _) => context_text b | _ => [] end = bs "TAB" /\
  match box_tree_root_construct ex_color (ua_selector bytes) (ua_specificity bytes (fun _ => 1%N)) (ua_matches bytes has_name) main_items head_rules
          (user_agent_css bytes) comment_doc with Ok (b, _) => context_text b | _ => [] end = bs "AB".
Proof. vm_compute. auto. Qed.
