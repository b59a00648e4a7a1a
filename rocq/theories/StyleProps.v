(** Properties C28-C35 and C40-C42: style *)
From Coq Require Import QArith Sorting.Permutation Sorting.Sorted Eqdep_dec.
From Verif Require Import Base Dom Arith32 DomSpec DomProofs DomTreeProofs DomWalkProofs DomStyleProofs DomProps
  StyleValues StyleProperties StyleCascade StyleSelectors StyleSpec StyleElementSpec StyleSelectorSpec
  StyleProofs StyleValueProofs StyleElementProofs StyleSelectorProofs.
Local Open Scope nat_scope.

(** ** An example: a style sheet of each origin and a style attribute *)
Definition ex_color : parser color := fun ts =>
  match ts with
  | TIdent i :: r =>
      if bytes_eqb i (bs "red") then Some (Rgba (mkRgba 255 0 0 255), r)
      else if bytes_eqb i (bs "currentcolor") then Some (CurrentColor, r) else None
  | _ => None
  end.
(** A selector of the example: a local name and a specificity *)
Definition ex_selector : Type := bytes * N.
Definition ex_matches (s : ex_selector) (d : document) (n : nat) : bool :=
  match data (node_at d n) with DElement e => bytes_eqb (q_local (e_name e)) (fst s) | _ => false end.
Definition px (n : Z) : token := TDimension (inject_Z n) (bs "px").
Definition em (n : Z) : token := TDimension (inject_Z n) (bs "EM").
Definition id_ (s : string) : token := TIdent (bs s).
Definition imp_ : list token := [TDelim 33; id_ "Important"].
Definition ex_ua : list (list (source_rule ex_selector)) :=
  [[StyleRule [(bs "p", 1%N)] [Item (bs "display") [id_ "block"]; Item (bs "font-size") ([px 10] ++ imp_)]]].
Definition ex_author : list (list (source_rule ex_selector)) :=
  [[StyleRule [(bs "p", 9%N); (bs "a", 1%N)] [Item (bs "Width") [em 3]; Item (bs "zoom") [px 1]; BadItem];
    BadRule; StyleRule [(bs "p", 1%N)] [Item (bs "width") [px 1]; Item (bs "font-size") [em 2]]];
   [StyleRule [(bs "p", 9%N)] [Item (bs "height") [px 7]; Item (bs "width") [em 4]; Item (bs "color") [id_ "red"]]]].
Definition ex_items (v : bytes) : list item :=
  if bytes_eqb v (bs "x") then [Item (bs "height") [px 8]; Item (bs "margin") [em 1; px 2]; Item (bs "float") [id_ "left"]] else [].
Definition ex_ops : list sink_op :=
  [ CreateElement (h "p") [at_ "class" "a b"; at_ "style" "x"] false; Append 1 (AppendNode 2);
    Append 2 (AppendText (bs "t")); CreateElement (h "a") [at_ "class" "c"] false; Append 2 (AppendNode 4) ].
Definition ex_doc : document := Eval vm_compute in match run_ops document_new ex_ops with Ok d => d | _ => document_new end.
Definition ex_set (l : list (list (source_rule ex_selector))) : style_set ex_selector :=
  match add_stylesheets ex_color ex_selector [] l with Ok s => s | _ => [] end.
Definition ex_style (n : nat) (parent : option computed_values) : result computed_values :=
  style_for_element ex_color ex_selector ex_matches ex_items (finish ex_selector snd (ex_set ex_ua))
    (finish ex_selector snd (ex_set ex_author)) ex_doc n parent.

(** ** C28 *)
Theorem C28_cascade : forall pc selector (specificity : selector -> N) matches items_of ua_sheets author_sheets ua author d n parent c,
  add_stylesheets pc selector [] ua_sheets = Ok ua -> add_stylesheets pc selector [] author_sheets = Ok author ->
  style_for_element pc selector matches items_of (finish selector specificity ua) (finish selector specificity author) d n parent = Ok c ->
  exists e attr, data (node_at d n) = DElement e /\ style_attribute pc items_of e attr /\
    css_style (occurs selector specificity (fun s => matches s d n) ua author attr) parent c.
Proof. exact style_ok. Qed.
(** There is at most one winner for each longhand … *)
Theorem C28_winner_unique : forall occ a b, wins occ a -> wins occ b ->
  target (o_declaration a) = target (o_declaration b) -> a = b.
Proof. exact wins_unique. Qed.
(** … and at most one style. *)
Theorem C28_style_unique : forall occ parent a b, css_style occ parent a -> css_style occ parent b -> forall p, get a p = get b p.
Proof. exact style_det. Qed.
(** Nothing but a value followed by more tokens, in the style attribute, stops the computation. *)
Theorem C28_total : forall pc selector matches items_of ua author d n e parent,
  n < List.length (nodes d) -> data (node_at d n) = DElement e ->
  (forall v i, counts (q_ns (e_name e)) -> first_attr (bs "style") (e_attrs e) (Some v) -> In i (items_of v) -> ~ trailing pc i) ->
  exists c, style_for_element pc selector matches items_of ua author d n parent = Ok c.
Proof. exact style_total. Qed.
Example C28_example :
  match ex_style 2 None with
  | Ok c => (get c font_size, get c width, get c height, get c color_) =
            (10%Q, LpaLength (10 * 4), LpaLength 8, mkRgba 255 0 0 255) /\
            get c display_ = OutsideInside Block Flow /\ get c margin_left = LpaLength 2 /\ get c margin_top = LpaLength (10 * 1)
  | _ => False
  end /\
  (forall v i, counts ns_html -> first_attr (bs "style") [at_ "class" "a b"; at_ "style" "x"] (Some v) -> In i (ex_items v) -> ~ trailing ex_color i).
Proof.
  split; [vm_compute; auto|]. intros v i _ F I.
  assert (X : first_attr (bs "style") [at_ "class" "a b"; at_ "style" "x"] (Some (bs "x"))).
  { apply fa_skip; [intros [_ E]; vm_compute in E; discriminate E|]. apply (fa_here _ (at_ "style" "x")); reflexivity. }
  pose proof (first_attr_det _ _ _ X _ F) as Y. injection Y as <-.
  intro T. apply (block_trailing ex_color _ _ I) in T. vm_compute in T. discriminate T.
Qed.

(** ** C29 *)
Theorem C29_sorting : forall selector (specificity : selector -> N) s,
  stably_sorted (fun r => specificity (fst r)) s (finish selector specificity s) /\
  forall s', stably_sorted (fun r => specificity (fst r)) s s' -> s' = finish selector specificity s.
Proof.
  intros selector specificity s. pose proof (sort_ok _ (fun r : selector * declaration_block => specificity (fst r)) s) as H.
  split; [exact H|]. intros s' H'. eapply stably_sorted_unique; eauto.
Qed.
(** Before sorting the rules stand in the order of the sheets, one for each selector. *)
Theorem C29_document_order : forall pc selector sheets s,
  add_stylesheets pc selector [] sheets = Ok s ->
  exists outs, Forall2 (sheet_means pc) sheets outs /\ Forall2 rule_holds s (concat outs).
Proof.
  intros pc selector sheets s H. destruct (add_stylesheets_means pc selector sheets [] s H) as (outs & rules & M & -> & F). eauto.
Qed.
Theorem C29_sheets_parse : forall pc selector sheets outs,
  Forall2 (@sheet_means pc selector) sheets outs -> exists s, add_stylesheets pc selector [] sheets = Ok s.
Proof.
  intros pc selector sheets outs H. destruct (add_stylesheets_total pc selector sheets outs [] H) as (rules & E & _). eauto.
Qed.
Example C29_example :
  map fst (ex_set ex_author) = [(bs "p", 9%N); (bs "a", 1%N); (bs "p", 1%N); (bs "p", 9%N)] /\
  map (fun r => (fst r, List.length (declarations (snd r)))) (finish ex_selector snd (ex_set ex_author)) =
  [((bs "a", 1%N), 1); ((bs "p", 1%N), 2); ((bs "p", 9%N), 1); ((bs "p", 9%N), 3)].
Proof. vm_compute. auto. Qed.

(** ** C30 *)
Definition kind_dec : forall a b : kind, {a = b} + {a <> b}.
Proof. decide equality. Defined.
Theorem C30_font_size : forall occ parent c o k, css_style occ parent c -> wins occ o ->
  o_declaration o = Declares font_size (SEm k) -> get c font_size = a_mul f32 (inherits_from parent font_size) k.
Proof.
  intros occ parent c o k H W E. destruct (style_winner occ parent c o H W) as (v & G & A). revert v G A. rewrite E. cbn [target gives].
  destruct (longhand_eq_dec font_size font_size) as [_|n]; [|contradiction]. cbn [kind_of css_computed adjusted]. intros v G ->.
  inversion G; subst. reflexivity.
Qed.
(** The offsets, sizes and margins *)
Theorem C30_lengths_or_auto : forall occ parent c o p k (e : kind_of p = KLpa), css_style occ parent c -> wins occ o ->
  o_declaration o = Declares p (@eq_rect_r _ KLpa specified_kind (SALength (SEm k)) _ e) ->
  get c p = @eq_rect_r _ KLpa computed_kind (LpaLength (a_mul f32 (get c font_size) k)) _ e.
Proof.
  intros occ parent c o p k e H W E. destruct (style_winner occ parent c o H W) as (v & G & A). revert v G A. rewrite E. cbn [target gives].
  destruct (longhand_eq_dec p font_size) as [-> |n]; [discriminate e|].
  destruct p; try discriminate e; cbn [kind_of] in e; rewrite (UIP_dec kind_dec e eq_refl); cbn [adjusted css_computed eq_rect_r eq_rect eq_sym];
    intros v G ->; destruct G as (q & L & ->); inversion L; subst; reflexivity.
Qed.
(** The paddings *)
Theorem C30_paddings : forall occ parent c o p k (e : kind_of p = KLp), css_style occ parent c -> wins occ o ->
  o_declaration o = Declares p (@eq_rect_r _ KLp specified_kind (SLength (SEm k)) _ e) ->
  get c p = @eq_rect_r _ KLp computed_kind (LpLength (a_mul f32 (get c font_size) k)) _ e.
Proof.
  intros occ parent c o p k e H W E. destruct (style_winner occ parent c o H W) as (v & G & A). revert v G A. rewrite E. cbn [target gives].
  destruct (longhand_eq_dec p font_size) as [-> |n]; [discriminate e|].
  destruct p; try discriminate e; cbn [kind_of] in e; rewrite (UIP_dec kind_dec e eq_refl); cbn [adjusted css_computed eq_rect_r eq_rect eq_sym];
    intros v G ->; destruct G as (q & L & ->); inversion L; subst; reflexivity.
Qed.
(** The border widths, where there is a border *)
Definition has_border (c : computed_values) (p : longhand) : Prop :=
  match p with
  | border_top_width => get c border_top_style <> LineNone | border_left_width => get c border_left_style <> LineNone
  | border_bottom_width => get c border_bottom_style <> LineNone | border_right_width => get c border_right_style <> LineNone
  | _ => True
  end.
Theorem C30_border_widths : forall occ parent c o p k (e : kind_of p = KLineWidth), css_style occ parent c -> wins occ o ->
  o_declaration o = Declares p (@eq_rect_r _ KLineWidth specified_kind (SLength (SEm k)) _ e) -> has_border c p ->
  get c p = @eq_rect_r _ KLineWidth computed_kind (LpLength (a_mul f32 (get c font_size) k)) _ e.
Proof.
  intros occ parent c o p k e H W E B. destruct (style_winner occ parent c o H W) as (v & G & A). revert v G A. rewrite E. cbn [target gives].
  destruct (longhand_eq_dec p font_size) as [-> |n]; [discriminate e|].
  destruct p; try discriminate e; cbn [kind_of] in e; rewrite (UIP_dec kind_dec e eq_refl); cbn [has_border] in B;
    cbn [adjusted css_computed eq_rect_r eq_rect eq_sym];
    intros v G [_ A]; rewrite (A B); destruct G as (q & L & ->); inversion L; subst; reflexivity.
Qed.
(** In this order-reversed block both rules are at work: 2em of 16px, then 3em of that. *)
Example C30_example :
  match parse_block ex_color [Item (bs "width") [em 3]; Item (bs "padding-top") [em 1]; Item (bs "font-size") [em 2]] with
  | Ok b => let c := computed_new None (Some (mkMatching [] [b])) in
            get c font_size = (16 * 2)%Q /\ get c width = LpaLength (16 * 2 * 3) /\ get c padding_top = LpLength (16 * 2 * 1)
  | _ => False
  end.
Proof. vm_compute. auto. Qed.

(** ** C31 *)
Theorem C31_inherit : forall occ parent c o p, css_style occ parent c -> wins occ o ->
  o_declaration o = CssWide p Inherit -> adjusted c p (inherits_from parent p).
Proof.
  intros occ parent c o p H W E. destruct (style_winner occ parent c o H W) as (v & G & A). revert v G A. rewrite E. cbn [target gives].
  intros v -> A. exact A.
Qed.
Theorem C31_initial : forall occ parent c o p, css_style occ parent c -> wins occ o ->
  o_declaration o = CssWide p Initial -> adjusted c p (css_initial p).
Proof.
  intros occ parent c o p H W E. destruct (style_winner occ parent c o H W) as (v & G & A). revert v G A. rewrite E. cbn [target gives].
  intros v -> A. exact A.
Qed.
Theorem C31_unset : forall occ parent c o p, css_style occ parent c -> wins occ o -> o_declaration o = CssWide p Unset ->
  (css_inherited p -> adjusted c p (inherits_from parent p)) /\ (~ css_inherited p -> adjusted c p (css_initial p)).
Proof.
  intros occ parent c o p H W E. destruct (style_winner occ parent c o H W) as (v & G & A). revert v G A. rewrite E. cbn [target gives].
  intros v [G1 G2] A. split; intro I; [rewrite <- G1|rewrite <- G2]; auto.
Qed.
Theorem C31_no_declaration : forall occ parent c p, css_style occ parent c -> (forall o, occ o -> target (o_declaration o) <> p) ->
  (css_inherited p -> adjusted c p (inherits_from parent p)) /\ (~ css_inherited p -> adjusted c p (css_initial p)).
Proof.
  intros occ parent c p H N. destruct (style_default occ parent c p H N) as (v & [G1 G2] & A).
  split; intro I; [rewrite <- G1|rewrite <- G2]; auto.
Qed.
(** A box without an element *)
Theorem C31_anonymous : forall parent p,
  (css_inherited p -> adjusted (anonymous_inheriting_from parent) p (inherits_from parent p)) /\
  (~ css_inherited p -> adjusted (anonymous_inheriting_from parent) p (css_initial p)).
Proof.
  intros parent p. unfold anonymous_inheriting_from, computed_new. cbn zeta.
  match goal with |- context [post_cascade_fixups ?c] => pose proof (fixups_adjusted c p) as A end. cbn [get] in A.
  pose proof (default_ok parent p) as [D1 D2]. unfold inherited_of in D1, D2. split; intro I; [rewrite <- D1|rewrite <- D2]; auto.
Qed.
Definition ex_parent : computed_values := set width (LpaLength 5) (set color_ (mkRgba 1 2 3 4) INITIAL_VALUES).
Example C31_example :
  match parse_block ex_color [Item (bs "width") [id_ "inherit"]; Item (bs "color") [id_ "initial"]; Item (bs "height") [id_ "unset"]] with
  | Ok b => let c := computed_new (Some ex_parent) (Some (mkMatching [] [b])) in
            get c width = LpaLength 5 /\ get c color_ = mkRgba 0 0 0 255 /\ get c height = LpaAuto
  | _ => False
  end /\
  (let c := anonymous_inheriting_from (Some ex_parent) in get c width = LpaAuto /\ get c color_ = mkRgba 1 2 3 4).
Proof. vm_compute. auto. Qed.

(** ** C32 *)
Theorem C32_one_to_three_values : forall T (parse : parser T) ts vs rest, reads parse ts vs rest -> 1 <= List.length vs <= 3 ->
  exists s, parse_four_sides parse ts = Some (s, rest) /\ css_sides vs s.
Proof. exact sides_three. Qed.
Theorem C32_no_value : forall T (parse : parser T) ts rest, reads parse ts [] rest -> parse_four_sides parse ts = None.
Proof. exact sides_none. Qed.
(** With four values the second is the left side and the fourth the right one: the reverse of CSS. *)
Theorem C32_four_values_swapped : forall T (parse : parser T) ts a b c d vs rest, reads parse ts (a :: b :: c :: d :: vs) rest ->
  exists s ts', parse_four_sides parse ts = Some (s, ts') /\ reads parse ts' vs rest /\
    s_top s = a /\ s_left s = b /\ s_bottom s = c /\ s_right s = d.
Proof.
  intros T parse ts a b c d vs rest R. destruct (sides_four T parse ts a b c d vs rest R) as (ts' & E & R').
  exists (mkSides a b c d), ts'. split; [exact E|]. split; [exact R'|]. cbn. auto.
Qed.
Theorem C32_four_values_refuted : exists ts vs s,
  reads (parse_kind ex_color KLpa) ts vs [] /\ parse_four_sides (parse_kind ex_color KLpa) ts = Some (s, []) /\ ~ css_sides vs s.
Proof.
  exists [px 1; px 2; px 3; px 4], (map (fun n => SALength (SAbsolute (inject_Z n))) [1; 2; 3; 4]%Z). eexists.
  split; [|split; [vm_compute; reflexivity|intro H; inversion H]].
  repeat (eapply reads_one; [vm_compute; reflexivity|]). apply reads_end. reflexivity.
Qed.
(** The five shorthands hand each side to its longhand. *)
Theorem C32_longhands : forall pc ts rest,
  (forall s, parse_four_sides (parse_kind pc KLpa) ts = Some (s, rest) -> parse_shorthand pc margin ts =
     Some ([Declares margin_top (s_top s); Declares margin_left (s_left s); Declares margin_bottom (s_bottom s); Declares margin_right (s_right s)], rest)) /\
  (forall s, parse_four_sides (parse_kind pc KLp) ts = Some (s, rest) -> parse_shorthand pc padding ts =
     Some ([Declares padding_top (s_top s); Declares padding_left (s_left s); Declares padding_bottom (s_bottom s); Declares padding_right (s_right s)], rest)) /\
  (forall s, parse_four_sides (parse_kind pc KLineStyle) ts = Some (s, rest) -> parse_shorthand pc border_style ts =
     Some ([Declares border_top_style (s_top s); Declares border_left_style (s_left s); Declares border_bottom_style (s_bottom s); Declares border_right_style (s_right s)], rest)) /\
  (forall s, parse_four_sides (parse_kind pc KColor) ts = Some (s, rest) -> parse_shorthand pc border_color ts =
     Some ([Declares border_top_color (s_top s); Declares border_left_color (s_left s); Declares border_bottom_color (s_bottom s); Declares border_right_color (s_right s)], rest)) /\
  (forall s, parse_four_sides (parse_kind pc KLineWidth) ts = Some (s, rest) -> parse_shorthand pc border_width ts =
     Some ([Declares border_top_width (s_top s); Declares border_left_width (s_left s); Declares border_bottom_width (s_bottom s); Declares border_right_width (s_right s)], rest)).
Proof.
  intros pc ts rest. split; [|split; [|split; [|split]]]; intros s H; unfold parse_shorthand; rewrite H; reflexivity.
Qed.
Example C32_example : reads (parse_kind ex_color KLpa) ([px 1; em 2] ++ imp_) [SALength (SAbsolute 1); SALength (SEm 2)] imp_.
Proof. repeat (eapply reads_one; [vm_compute; reflexivity|]). apply reads_end. reflexivity. Qed.

(** ** C33 *)
Theorem C33_fixups : forall c p, adjusted (post_cascade_fixups c) p (get c p).
Proof. exact fixups_adjusted. Qed.
(** The root element is not made block-level. *)
Theorem C33_root_refuted : exists d n c,
  root_element d = Ok n /\ style_for_element ex_color ex_selector ex_matches ex_items [] [] d n None = Ok c /\
  get c display_ <> block_level (specified_display c).
Proof. exists page, 3. eexists. split; [reflexivity|]. split; [reflexivity|]. vm_compute. discriminate. Qed.
Example C33_example :
  let c := post_cascade_fixups (set float_ FloatLeft (set border_top_style LineSolid INITIAL_VALUES)) in
  get c border_top_width = LpLength 3 /\ get c border_left_width = LpLength 0 /\
  get c display_ = OutsideInside Block Flow /\ specified_display c = OutsideInside Inline Flow.
Proof. vm_compute. auto. Qed.

(** ** C34 *)
Theorem C34_siblings : forall d kids p l x r, in_forest d kids -> kids p = l ++ x :: r ->
  (exists o, next_sibling_element d x = Ok o /\ first_element d r o) /\
  (exists o, prev_sibling_element d x = Ok o /\ first_element d (rev l) o).
Proof. intros d kids p l x r F E. split; [eapply next_sibling_ok; eauto|eapply prev_sibling_ok; eauto]. Qed.
Theorem C34_top_has_no_siblings : forall d kids x, in_forest d kids -> x < List.length (nodes d) -> (forall p, ~ In x (kids p)) ->
  next_sibling_element d x = Ok None /\ prev_sibling_element d x = Ok None.
Proof.
  intros d kids x F B N. apply (top_siblings d kids x F B). destruct (parent (node_at d x)) as [p|] eqn:P; [|reflexivity].
  exfalso. apply (N p). apply (proj1 (proj2 (proj2 F))). exact P.
Qed.
Theorem C34_parent : forall d kids x, in_forest d kids -> x < List.length (nodes d) ->
  exists o, parent_element d x = Ok o /\ forall p, o = Some p <-> In x (kids p) /\ is_element (data (node_at d p)).
Proof. exact parent_element_ok. Qed.
Theorem C34_empty : forall d kids x, in_forest d kids -> x < List.length (nodes d) ->
  exists b, is_empty d x = Ok b /\ (b = true <-> no_content d (kids x)).
Proof. exact is_empty_ok. Qed.
Theorem C34_root : forall d kids x, in_forest d kids -> x < List.length (nodes d) ->
  exists b, is_root d x = Ok b /\ (b = true <-> forall p, In x (kids p) -> ~ is_element (data (node_at d p))).
Proof. exact is_root_ok. Qed.
Theorem C34_id : forall d x e id, x < List.length (nodes d) -> data (node_at d x) = DElement e ->
  exists b, has_id d x id CaseSensitive = Ok b /\ (b = true <-> first_attr (bs "id") (e_attrs e) (Some id)).
Proof. exact has_id_ok. Qed.
Example C34_example :
  (next_sibling_element page 4, prev_sibling_element page 6, parent_element page 4, parent_element page 3) =
  (Ok (Some 6), Ok (Some 4), Ok (Some 3), Ok None) /\
  (is_empty page 4, is_empty page 6, is_root page 3, is_root page 4) = (Ok true, Ok false, Ok true, Ok false) /\
  has_id ex_doc 2 (bs "x") CaseSensitive = Ok false.
Proof. vm_compute. auto. Qed.

(** ** C35 *)
(** The class is found only if it is a word of the attribute … *)
Theorem C35_sound : forall d x e class v, x < List.length (nodes d) -> data (node_at d x) = DElement e ->
  has_class d x class CaseSensitive = Ok true -> first_attr (bs "class") (e_attrs e) (Some v) -> has_word class v.
Proof.
  intros d x e class v B D H F. destruct (has_class_whole d x e class B D) as (b & E & W). rewrite E in H. injection H as ->.
  pose proof (first_attr_det _ _ _ F _ (proj1 W eq_refl)) as X. injection X as ->. apply word_self.
Qed.
(** … and always if the attribute is a single word … *)
Theorem C35_single_word : forall d x e class v, x < List.length (nodes d) -> data (node_at d x) = DElement e ->
  first_attr (bs "class") (e_attrs e) (Some v) -> spaceless v -> class <> [] ->
  exists b, has_class d x class CaseSensitive = Ok b /\ (b = true <-> has_word class v).
Proof.
  intros d x e class v B D F Sv N. destruct (has_class_whole d x e class B D) as (b & E & W). exists b. split; [exact E|].
  rewrite W. pose proof (word_whole class v Sv) as X. split.
  - intro G. pose proof (first_attr_det _ _ _ F _ G) as Y. injection Y as ->. apply word_self.
  - intro G. assert (class = v) as -> by (apply X; auto). exact F.
Qed.
(** … and never without the attribute. *)
Theorem C35_no_attribute : forall d x e class, x < List.length (nodes d) -> data (node_at d x) = DElement e ->
  first_attr (bs "class") (e_attrs e) None -> has_class d x class CaseSensitive = Ok false.
Proof.
  intros d x e class B D F. destruct (has_class_whole d x e class B D) as (b & E & W). rewrite E. destruct b; [|reflexivity].
  pose proof (first_attr_det _ _ _ F _ (proj1 W eq_refl)) as X. discriminate X.
Qed.
(** With two words in it neither is found. *)
Theorem C35_several_words_refuted : exists d x e class v, x < List.length (nodes d) /\ data (node_at d x) = DElement e /\
  first_attr (bs "class") (e_attrs e) (Some v) /\ spaceless class /\ has_word class v /\
  has_class d x class CaseSensitive = Ok false.
Proof.
  exists ex_doc, 2. eexists. exists (bs "a"), (bs "a b"). split; [cbn; lia|]. split; [reflexivity|].
  split; [|split; [|split; [|reflexivity]]].
  - apply (fa_here (bs "class") (at_ "class" "a b")); reflexivity.
  - split; [discriminate|]. intros b [<-|[]] [H|[H|[H|[H|H]]]]; discriminate H.
  - exists [], (bs " b"). split; [reflexivity|]. split; [auto|]. right. exists 32%N, (bs "b"). split; [reflexivity|left; reflexivity].
Qed.
Example C35_example : has_class ex_doc 4 (bs "c") CaseSensitive = Ok true /\ has_class ex_doc 4 (bs "d") CaseSensitive = Ok false /\
  spaceless (bs "c").
Proof.
  split; [reflexivity|]. split; [reflexivity|]. split; [discriminate|]. intros b [<-|[]] [H|[H|[H|[H|H]]]]; discriminate H.
Qed.

(** ** C40: declaration blocks *)
(** Whatever is ignored is ignored, the rest is kept in order with its importance … *)
Theorem C40_blocks : forall pc l out, block_means pc l out ->
  exists b, parse_block pc l = Ok b /\ holds b out /\ summary_complete b.
Proof.
  intros pc l out B. destruct (block_means_ok pc l out B) as (b & E & Hs & C). exists b. split; [exact E|]. split; [|exact Hs].
  split; [apply Hs|exact C].
Qed.
Theorem C40_items : forall pc i, (exists ds imp, declared pc i ds imp) \/ ignored pc i \/ trailing pc i.
Proof. exact item_cases. Qed.
(** … and there is a panic exactly if something follows a value. *)
Theorem C40_panics : forall pc l, parse_block pc l = Panic <-> exists i, In i l /\ trailing pc i.
Proof.
  intros pc l. split.
  - intro H. destruct (existsb (fun i => match item_effect pc i with Some (_, _, _ :: _) => true | _ => false end) l) eqn:E.
    + apply existsb_exists in E as (i & I & E). exists i. split; [exact I|]. apply trailing_effect.
      destruct (item_effect pc i) as [[[ds imp] [|t r]]|]; try discriminate E. eauto.
    + exfalso. destruct (means_exists pc l) as [out M].
      * intros i I T. apply trailing_effect in T as (ds & imp & t & r & T).
        assert (X : existsb (fun i => match item_effect pc i with Some (_, _, _ :: _) => true | _ => false end) l = true)
          by (apply existsb_exists; exists i; rewrite T; auto).
        congruence.
      * destruct (block_means_ok pc l out M) as (b & B & _). congruence.
  - intros (i & I & T). eapply block_trailing; eauto.
Qed.
(** CSS ignores such a declaration: here [color: red red]. *)
Theorem C40_trailing_refuted : exists l, (exists i, In i l /\ trailing ex_color i) /\ parse_block ex_color l = Panic.
Proof.
  assert (E : parse_block ex_color [Item (bs "color") [id_ "red"; id_ "red"]] = Panic) by reflexivity.
  eexists. split; [apply C40_panics; exact E|exact E].
Qed.
Example C40_example :
  block_means ex_color [Item (bs "COLOR") ([id_ "red"] ++ imp_); BadItem; Item (bs "x") []; Item (bs "top") [id_ "initial"]]
    [(Declares color_ (Rgba (mkRgba 255 0 0 255)), true); (CssWide top_ Initial, false)].
Proof.
  eapply (bm_declared ex_color _ _ [_] true [_]); [|apply bm_ignored; [constructor|apply bm_ignored; [apply ignored_name; reflexivity|]]].
  - eapply declared_item; [reflexivity| |apply (suffix_important (bs "Important")); reflexivity].
    eapply starts_own; [|reflexivity]. intros k i [<-|[<-|[<-|[]]]] E; discriminate E.
  - eapply (bm_declared ex_color _ _ [_] false []); [|constructor]. eapply declared_item; [reflexivity|apply starts_initial|constructor].
Qed.

(** ** C41: property names *)
Theorem C41_names_known : forall name x, map lower name = css_property_name x -> x <> Longhand border_right_color ->
  property_data_by_name name = Some x.
Proof.
  intros name x E N. unfold property_data_by_name. rewrite E. destruct x as [p|s]; [apply names_known; congruence|apply shorthands_known].
Qed.
(** ASCII letters, and nothing else, are the same in upper and lower case. *)
Theorem C41_case : forall b,
  (exists i, nth_error (bs "ABCDEFGHIJKLMNOPQRSTUVWXYZ") i = Some b /\ nth_error (bs "abcdefghijklmnopqrstuvwxyz") i = Some (lower b)) \/
  (~ In b (bs "ABCDEFGHIJKLMNOPQRSTUVWXYZ") /\ lower b = b).
Proof.
  intros b. unfold lower. destruct ((65 <=? b) && (b <=? 90))%N eqn:E.
  - left. apply Bool.andb_true_iff in E. destruct E as [E1 E2]. apply N.leb_le in E1, E2.
    assert (F : forall i, (i < 26)%nat -> nth_error (bs "ABCDEFGHIJKLMNOPQRSTUVWXYZ") i = Some (65 + N.of_nat i)%N /\
      nth_error (bs "abcdefghijklmnopqrstuvwxyz") i = Some (65 + N.of_nat i + 32)%N).
    { intros i Hi. do 26 (destruct i as [|i]; [split; reflexivity|]). lia. }
    exists (N.to_nat (b - 65)). destruct (F (N.to_nat (b - 65))) as [F1 F2]; [lia|]. rewrite F1, F2. split; f_equal; lia.
  - right. split; [|reflexivity]. intros H. apply Bool.andb_false_iff in E. rewrite !N.leb_gt in E.
    assert (G : Forall (fun x => (65 <= x <= 90)%N) (bs "ABCDEFGHIJKLMNOPQRSTUVWXYZ")) by (apply Forall_forall; intros x Hx; cbv in Hx; repeat (destruct Hx as [<-|Hx]; [lia|]); contradiction).
    rewrite Forall_forall in G. specialize (G b H). lia.
Qed.
Theorem C41_only_these_names : forall name x, property_data_by_name name = Some x ->
  map lower name = css_property_name x \/ x = Longhand border_right_color /\ map lower name = bs "border-color-right".
Proof. exact by_name. Qed.
(** The colour of the right border has another name than in CSS. *)
Theorem C41_border_right_color_refuted : property_data_by_name (css_name border_right_color) = None /\
  property_data_by_name (bs "border-color-right") = Some (Longhand border_right_color).
Proof. split; reflexivity. Qed.
Example C41_example : property_data_by_name (bs "Border-Top-Width") = Some (Longhand border_top_width) /\
  property_data_by_name (bs "border") = None.
Proof. split; reflexivity. Qed.

(** ** C42: values *)
(** A value, colours apart, is one token … *)
Theorem C42_one_token : forall pc p ts v r, not_a_color p -> parse_kind pc (kind_of p) ts = Some (v, r) -> exists t, ts = t :: r.
Proof. exact one_token. Qed.
(** … and read as CSS says if it is in lower case, in range, and not a percentage for a border *)
Theorem C42_values : forall pc p t r v, not_a_color p -> lower_case t -> in_range p t ->
  (border_width_side p -> forall q, t <> TPercentage q) ->
  (parse_kind pc (kind_of p) (t :: r) = Some (v, r) <-> css_value p t v).
Proof. exact value_iff. Qed.
(** Each of the three conditions is needed. *)
Theorem C42_case_refuted : exists p t v, css_value p t v /\ in_range p t /\ parse_kind ex_color (kind_of p) [t] = None.
Proof.
  exists display_, (id_ "Block"), (OutsideInside Block Flow). split; [|split; [right; vm_compute; discriminate|reflexivity]].
  right; right; left. split; [exists (bs "Block"); split; reflexivity|reflexivity].
Qed.
Theorem C42_negative_refuted : exists p t v, parse_kind ex_color (kind_of p) [t] = Some (v, []) /\ ~ css_value p t v.
Proof.
  exists padding_top, (px (-1)), (SLength (SAbsolute (inject_Z (-1)))). split; [reflexivity|].
  intros [(l & _ & [[]|R] & _)|(q & E & _)]; [|discriminate E]. apply R. reflexivity.
Qed.
Theorem C42_border_percentage_refuted : exists p t v, parse_kind ex_color (kind_of p) [t] = Some (v, []) /\ in_range p t /\ ~ css_value p t v.
Proof.
  exists border_top_width, (TPercentage 1), (SPercentage 1). split; [reflexivity|]. split; [right; vm_compute; discriminate|].
  intros [(l & _ & _ & E)|[[_ E]|[[_ E]|[_ E]]]]; discriminate E.
Qed.
Example C42_example :
  parse_kind ex_color (kind_of margin_left) [TPercentage (1#2); px 3] = Some (SAPercentage (1#2), [px 3]) /\
  not_a_color margin_left /\ in_range margin_left (TPercentage (1#2)) /\ lower_case (TPercentage (1#2)).
Proof. split; [reflexivity|]. split; [split; discriminate|]. split; [left; exact I|exact I]. Qed.

Print Assumptions C28_cascade.
Print Assumptions C28_winner_unique.
Print Assumptions C28_style_unique.
Print Assumptions C28_total.
Print Assumptions C29_sorting.
Print Assumptions C29_document_order.
Print Assumptions C29_sheets_parse.
Print Assumptions C30_font_size.
Print Assumptions C30_lengths_or_auto.
Print Assumptions C30_paddings.
Print Assumptions C30_border_widths.
Print Assumptions C31_inherit.
Print Assumptions C31_initial.
Print Assumptions C31_unset.
Print Assumptions C31_no_declaration.
Print Assumptions C31_anonymous.
Print Assumptions C32_one_to_three_values.
Print Assumptions C32_no_value.
Print Assumptions C32_four_values_swapped.
Print Assumptions C32_four_values_refuted.
Print Assumptions C32_longhands.
Print Assumptions C33_fixups.
Print Assumptions C33_root_refuted.
Print Assumptions C34_siblings.
Print Assumptions C34_top_has_no_siblings.
Print Assumptions C34_parent.
Print Assumptions C34_empty.
Print Assumptions C34_root.
Print Assumptions C34_id.
Print Assumptions C35_sound.
Print Assumptions C35_single_word.
Print Assumptions C35_no_attribute.
Print Assumptions C35_several_words_refuted.
Print Assumptions C40_blocks.
Print Assumptions C40_items.
Print Assumptions C40_panics.
Print Assumptions C40_trailing_refuted.
Print Assumptions C41_names_known.
Print Assumptions C41_case.
Print Assumptions C41_only_these_names.
Print Assumptions C41_border_right_color_refuted.
Print Assumptions C42_one_token.
Print Assumptions C42_values.
Print Assumptions C42_case_refuted.
Print Assumptions C42_negative_refuted.
Print Assumptions C42_border_percentage_refuted.
