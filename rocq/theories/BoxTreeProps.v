(** Properties C54-C58: construction of the box tree *)
From Coq Require Import QArith.
From Verif Require Import PdfConvert LayoutProps Base Dom DomSpec DomProofs DomTreeProofs DomWalkProofs DomXml DomXmlSpec DomXmlProofs DomProps FontCmap
  StyleValues StyleProperties StyleCascade StyleSpec StyleProofs StyleElementProofs StyleProps
  LayoutTree Layout LayoutSpec BoxTree BoxTreeSpec BoxTextProofs BoxTreeProofs BoxShapeProofs.
Local Open Scope nat_scope.
Local Open Scope res_scope.

(** ** C54 *)
(** A document whose text is UTF-8 and whose elements have styles shows one thing. *)
Theorem C54_contents : forall d (style_of : nat -> option computed_values -> result computed_values) parent ts,
  (forall i t, data (node_at d i) = DText t -> exists cs, encodes t cs) ->
  (forall i p, is_element (data (node_at d i)) -> exists s, style_of i (Some p) = Ok s) ->
  exists! cs, shows d (fun i p s => style_of i (Some p) = Ok s) parent ts cs.
Proof.
  intros d style_of parent ts Ht Hs. destruct (shows_total d _ Ht Hs ts parent) as (cs & H). exists cs. split; [exact H|].
  refine (shows_unique d _ _ _ _ _ H). intros i p a b Ha Hb. rewrite Ha in Hb. injection Hb as <-. reflexivity.
Qed.
Lemma size_bound : forall d kids e ts, in_forest d kids -> subtree kids (T e ts) -> e < length (nodes d) -> size ts <= length (nodes d).
Proof.
  intros d kids e ts Hf St B. pose proof (preorder_nodup d kids Hf _ St) as N. cbn [DomSpec.preorder] in N. inversion N as [|? ? _ N']; subst.
  unfold size. rewrite <- (seq_length (length (nodes d)) 0). apply NoDup_incl_length; [exact N'|].
  intros x I. apply in_seq. split; [lia|]. cbn [Nat.add].
  assert (R : In x (DomSpec.preorder (T e ts))) by (right; exact I).
  apply (preorder_reach kids _ St) in R. exact (reach_bound d kids _ x Hf B R).
Qed.
(** The boxes of an element are those of its contents; construction panics just for contents that
    cannot be built. *)
Theorem C54_boxes : forall d kids style_of s e ts cs, in_forest d kids -> e < length (nodes d) -> subtree kids (T e ts) ->
  shows d (fun i p s => style_of i (Some p) = Ok s) s ts cs ->
  (~ unbuildable cs /\ exists c f w, construct d style_of (enough_fuel d) s e = Ok (c, f, w) /\ context s cs (BFC c f)) \/
  (unbuildable cs /\ construct d style_of (enough_fuel d) s e = Panic).
Proof.
  intros d kids style_of s e ts cs Hf B St Sh. pose proof (size_bound d kids e ts Hf St B) as Sz.
  destruct (construct_ok d kids Hf style_of s e ts cs (enough_fuel d) (conj St B) Sh ltac:(unfold enough_fuel; lia))
    as [(c & f & w & E & H)|(E & U)]; [left|right; auto].
  split; [|exists c, f, w; auto]. exact (proj1 (proj2 (proj2 buildable_spec)) _ _ _ H).
Qed.
(** There is only one way to choose them. *)
Theorem C54_boxes_unique : forall s cs a b, context s cs a -> context s cs b -> a = b.
Proof. intros s cs a b Ha Hb. exact (proj1 (proj2 (proj2 boxes_unique)) s cs a Ha b Hb). Qed.

Section Sheets.
Variable parse_color : parser color.
Variable selector : Type.
Variable specificity : selector -> N.
Variable matches : selector -> document -> nat -> bool.
Variable items_of : bytes -> list StyleCascade.item.
Variable rules_of : bytes -> list (source_rule selector).
Variable user_agent : list (source_rule selector).
Notation style_in ua author d := (style_for_element parse_color selector matches items_of
  (finish selector specificity ua) (finish selector specificity author) d).
(** A whole document with its style sheets.  [s] is the style of the root element and [cs] what is in it. *)
Definition displays (d : document) (root : nat) (s : computed_values) (cs : list content) : Prop :=
  exists kids ua texts author ts,
    doc_forest d kids /\ add_stylesheets parse_color selector [] [user_agent] = Ok ua /\
    stylesheets d = Ok texts /\ add_stylesheets parse_color selector [] (map rules_of texts) = Ok author /\
    root_element d = Ok root /\ style_in ua author d root None = Ok s /\
    subtree kids (T root ts) /\ shows d (fun i p s => style_in ua author d i (Some p) = Ok s) s ts cs.
Notation construct_root := (box_tree_root_construct parse_color selector specificity matches items_of rules_of user_agent).
Lemma displays_boxes : forall d root s cs, displays d root s cs ->
  Forall (styled generates) cs /\
  ((get s display_ = DisplayNone /\ construct_root d = Ok (BFC (BlockLevelBoxes []) false, [])) \/
   (get s display_ <> DisplayNone /\ ~ unbuildable cs /\ exists c boxes f w, construct_root d = Ok (BFC (BlockLevelBoxes boxes) f, w) /\
      context s cs c /\ root_boxes s c boxes f) \/
   (get s display_ <> DisplayNone /\ unbuildable cs /\ construct_root d = Panic)).
Proof.
  intros d root s cs (kids & ua & texts & author & ts & (Hf & _) & Eu & Et & Ea & Er & Es & St & Sh). split.
  { apply (shows_styled _ _ generates) in Sh; [exact Sh|]. intros i p s' E o k Hd.
    destruct (C28_cascade _ _ _ _ _ _ _ _ _ _ _ _ _ Eu Ea E) as (el & attr & _ & _ & C).
    assert (A : exists v : computed display_, adjusted s' display_ v).
    { destruct (C display_) as [(oc & v & T & _ & _ & A)|(_ & v & _ & A)]; [|exists v; exact A].
      clear - T A. revert v A. rewrite T. intros v A. exists v. exact A. }
    destruct A as (v & A1 & A2 & A3). rewrite A1. clear - A2 A3 Hd.
    assert (Dec : out_of_flow s' \/ ~ out_of_flow s').
    { unfold out_of_flow. destruct (get s' position_), (get s' float_); intuition discriminate. }
    destruct Dec as [D|D]; [specialize (A2 D)|specialize (A3 D); rewrite Hd in A3; exists o, k; symmetry; exact A3].
    rewrite Hd in A2. destruct v as [| |o' k']; [discriminate A2|discriminate A2|]. eauto. }
  assert (B : root < length (nodes d)).
  { unfold style_for_element in Es. destruct (index d root) as [nd|e|] eqn:Ei; [|destruct e|discriminate Es]. unfold index in Ei.
    destruct (nth_error (nodes d) root) eqn:En; [|discriminate Ei]. apply nth_error_Some. congruence. }
  assert (Eb : construct_root d = r <- construct_for_root_element d (style_in ua author d) root s ;;
    let '(f, boxes, w) := r in Ok (BFC (BlockLevelBoxes boxes) f, w)).
  { unfold box_tree_root_construct, user_agent_stylesheet, parse_stylesheets. cbn [add_stylesheets] in Eu.
    destruct (add_stylesheet parse_color selector [] user_agent) as [x|e|]; [|destruct e|discriminate Eu]. cbn [bind] in *. injection Eu as ->.
    rewrite Et. cbn [bind]. rewrite Ea. cbn [bind]. rewrite Er. cbn [bind]. rewrite Es. reflexivity. }
  rewrite Eb. unfold construct_for_root_element.
  assert (Hd : get s display_ = DisplayNone \/ get s display_ <> DisplayNone) by (destruct (get s display_); [left; reflexivity|right; discriminate..]).
  destruct Hd as [Hd|Hd]; [left; rewrite Hd; auto|right].
  assert (forall X, match get s display_ with DisplayNone => Ok (false, [], []) | _ => X end = X) as -> by
    (intros X; destruct (get s display_); congruence).
  destruct (C54_boxes d kids (style_in ua author d) s root ts cs Hf B St Sh) as [(Nu & c & f & w & E & H)|(U & E)]; unfold bfc_construct; rewrite E; cbn [bind].
  - left. split; [exact Hd|]. split; [exact Nu|]. exists (BFC c f).
    destruct (get s position_) eqn:P; cbn [is_absolutely_positioned].
    1, 2: destruct (get s float_) eqn:F; cbn [is_floating bind]; do 3 eexists; (split; [reflexivity|]); (split; [exact H|]); constructor; congruence.
    do 3 eexists. split; [reflexivity|]. split; [exact H|]. constructor. exact P.
  - right. auto.
Qed.
Theorem C54_document : forall d root s cs, displays d root s cs ->
  (get s display_ = DisplayNone /\ construct_root d = Ok (BFC (BlockLevelBoxes []) false, [])) \/
  (get s display_ <> DisplayNone /\ ~ unbuildable cs /\ exists c boxes f w, construct_root d = Ok (BFC (BlockLevelBoxes boxes) f, w) /\
     context s cs c /\ root_boxes s c boxes f) \/
  (get s display_ <> DisplayNone /\ unbuildable cs /\ construct_root d = Panic).
Proof. intros d root s cs H. exact (proj2 (displays_boxes d root s cs H)). Qed.

(** ** C58 *)
Variable glyph_id : N -> res font_error N.
Variable glyph_width : N -> res font_error Q.
(** From a document and its style sheets to fragments without a panic, but for what cannot be built *)
Theorem C58_no_panic : (forall ch, exists id w, glyph_id ch = Ok id /\ glyph_width id = Ok w) ->
  forall d root s cs, displays d root s cs -> (get s display_ <> DisplayNone -> ~ unbuildable cs) ->
  exists boxes w, construct_root d = Ok (boxes, w) /\
    forall o viewport, exists frs, box_tree_root_layout glyph_id glyph_width o boxes viewport = Some frs.
Proof.
  intros G d root s cs H Nu. destruct (displays_boxes d root s cs H) as (Sd & [(_ & E)|[(_ & _ & c & boxes & f & w & E & Hc & Hr)|(Nd & U & _)]]).
  - do 2 eexists. split; [exact E|]. intros o viewport. apply C50_no_panic; [exact G|]. repeat constructor.
  - do 2 eexists. split; [exact E|]. intros o viewport. apply C50_no_panic; [exact G|].
    pose proof (proj1 (proj2 (proj2 boxes_displayed)) _ _ _ Hc Sd) as D.
    constructor. constructor. inversion Hr; subst; (constructor; [|constructor]); constructor; exact D.
  - destruct (Nu Nd U).
Qed.
End Sheets.

(** ** C55 *)
(** What an element and its descendants show, the element being of style [s] *)
Definition element_shows d kids (style_of : nat -> option computed_values -> result computed_values) s e cs : Prop :=
  in_forest d kids /\ e < length (nodes d) /\
  exists ts, subtree kids (T e ts) /\ shows d (fun i p s => style_of i (Some p) = Ok s) s ts cs.
Lemma construct_context : forall d kids style_of s e cs c f w, element_shows d kids style_of s e cs ->
  construct d style_of (enough_fuel d) s e = Ok (c, f, w) -> context s cs (BFC c f).
Proof.
  intros d kids style_of s e cs c f w (Hf & B & ts & St & Sh) E.
  destruct (C54_boxes d kids style_of s e ts cs Hf B St Sh) as [(_ & c' & f' & w' & E' & H)|(_ & E')]; rewrite E in E'; [|discriminate E'].
  injection E' as <- <- <-. exact H.
Qed.
(** There is an inline formatting context for each paragraph and the other way around, and its text is that
    of the paragraph with white space collapsed and none at the start of inline elements. *)
Theorem C55_text : forall d kids style_of s e cs c f w, element_shows d kids style_of s e cs ->
  construct d style_of (enough_fuel d) s e = Ok (c, f, w) ->
  (forall l, ifc_container c l -> exists p, paragraph_of cs p /\ text_so_far l = collapse true (flat_map kept_text p)) /\
  (forall p, paragraph_of cs p -> exists l, ifc_container c l /\ text_so_far l = collapse true (flat_map kept_text p)).
Proof.
  intros d kids style_of s e cs c f w H E. pose proof (construct_context _ _ _ _ _ _ _ _ _ H E) as C.
  destruct (proj1 (proj2 (proj2 boxes_paragraphs)) _ _ _ C) as [M1 M2]. split.
  - intros l I. destruct (M1 l I) as (p & P & L). exists p. split; [exact P|exact (level_text _ _ L)].
  - intros p P. destruct (M2 p P) as (l & I & L). exists l. split; [exact I|exact (level_text _ _ L)].
Qed.
(** It is the text CSS asks for if no inline element starts with white space. *)
Theorem C55_css_text : forall d kids style_of s e cs c f w, element_shows d kids style_of s e cs ->
  construct d style_of (enough_fuel d) s e = Ok (c, f, w) ->
  forall p, paragraph_of cs p -> Forall no_leading_space p ->
  exists l, ifc_container c l /\ text_so_far l = collapse true (flat_map inline_text p).
Proof.
  intros d kids style_of s e cs c f w H E p P F. destruct (proj2 (C55_text _ _ _ _ _ _ _ _ _ H E) p P) as (l & I & T).
  exists l. split; [exact I|]. rewrite T, (kept_all_list _ F). reflexivity.
Qed.

(** ** C56 *)
(** All characters but white space are there, in document order. *)
Theorem C56_text_kept : forall d kids style_of s e cs c f w, element_shows d kids style_of s e cs ->
  construct d style_of (enough_fuel d) s e = Ok (c, f, w) ->
  nonspace (container_text c) = nonspace (flat_map content_text cs).
Proof.
  intros d kids style_of s e cs c f w H E.
  exact (proj1 (proj2 (proj2 text_kept)) _ _ _ (construct_context _ _ _ _ _ _ _ _ _ H E)).
Qed.

(** ** C57 *)
Theorem C57_tidy : forall d kids style_of s e cs c f w, element_shows d kids style_of s e cs ->
  construct d style_of (enough_fuel d) s e = Ok (c, f, w) -> tidy_container c.
Proof.
  intros d kids style_of s e cs c f w H E.
  exact (proj1 (proj2 (proj2 boxes_tidy)) _ _ _ (construct_context _ _ _ _ _ _ _ _ _ H E)).
Qed.

(** ** Examples *)
(** What is shown, computed *)
Section Show.
Variable d : document.
Variable style_of : nat -> option computed_values -> result computed_values.
Fixpoint show (t : tree) (s : computed_values) : option (list content) :=
  let (i, ts) := t in
  let inside (s : computed_values) :=
    (fix go (l : list tree) : option (list content) :=
       match l with
       | [] => Some []
       | t :: r => match show t s, go r with Some a, Some b => Some (a ++ b) | _, _ => None end
       end) ts in
  match data (node_at d i) with
  | DText t => if forallb is_char (chars t) && bytes_eqb (flat_map utf8 (chars t)) t then Some [CText s (chars t)] else None
  | DElement _ =>
      match style_of i (Some s) with
      | Ok s' =>
          match get s' display_ with
          | DisplayNone => Some []
          | Contents => inside s'
          | OutsideInside _ _ => match inside s' with Some cs => Some [CBox s' i cs] | None => None end
          end
      | _ => None
      end
  | _ => Some []
  end.
Definition show_list (s : computed_values) : list tree -> option (list content) :=
  fix go (l : list tree) : option (list content) :=
    match l with
    | [] => Some []
    | t :: r => match show t s, go r with Some a, Some b => Some (a ++ b) | _, _ => None end
    end.
Notation shows' := (shows d (fun i p s => style_of i (Some p) = Ok s)).
Lemma shows_cons : forall s t r a b, shows' s [t] a -> shows' s r b -> shows' s (t :: r) (a ++ b).
Proof.
  intros s t r a b Ha Hb. inversion Ha; subst;
    match goal with H : shows _ _ _ [] ?o |- _ => inversion H; subst end; rewrite ?app_nil_r; cbn [app].
  - eapply sh_text; eauto.
  - eapply sh_other; eauto.
  - eapply sh_none; eauto.
  - eapply sh_contents; eauto.
  - eapply sh_box; eauto.
Qed.
Lemma show_sound : forall t s cs, show t s = Some cs -> shows' s [t] cs.
Proof.
  apply (tree_rect' (fun t => forall s cs, show t s = Some cs -> shows' s [t] cs) (fun ts => forall s cs, show_list s ts = Some cs -> shows' s ts cs)).
  - intros i ts IH s cs H. cbn [show] in H. fold (show_list) in H.
    destruct (data (node_at d i)) as [|? ? ?|t|?|e|? ?] eqn:D.
    3: { destruct (forallb is_char (chars t)) eqn:E1; [|discriminate H]. destruct (bytes_eqb (flat_map utf8 (chars t)) t) eqn:E2; [|discriminate H].
         injection H as <-. eapply sh_text; [exact D| |apply sh_nil]. split; [apply Forall_forall; rewrite forallb_forall in E1; exact E1|].
         apply bytes_eqb_eq. exact E2. }
    3: { injection H as <-. apply sh_other; [intros (t & E); congruence|rewrite D; intros []|apply sh_nil]. }
    3: { assert (El : is_element (data (node_at d i))) by (rewrite D; exact I).
         destruct (style_of i (Some s)) as [s'|x|] eqn:St; [|discriminate H|discriminate H].
         destruct (get s' display_) as [| |o k] eqn:Di.
         - injection H as <-. eapply sh_none; [exact El|exact St|exact Di|apply sh_nil].
         - rewrite <- (app_nil_r cs). eapply sh_contents; [exact El|exact St|exact Di|apply IH; exact H|apply sh_nil].
         - match type of H with match ?x with _ => _ end = _ => destruct x as [inside|] eqn:E; [|discriminate H] end. injection H as <-.
           eapply sh_box; [exact El|exact St|exact Di|apply IH; exact E|apply sh_nil]. }
    all: injection H as <-; apply sh_other; [intros (t & E); congruence|rewrite D; intros []|apply sh_nil].
  - intros s cs H. injection H as <-. apply sh_nil.
  - intros t ts IHt IHts s cs H. cbn [show_list] in H. fold (show_list s) in H.
    destruct (show t s) as [a|] eqn:Ea; [|discriminate H]. destruct (show_list s ts) as [b|] eqn:Eb; [|discriminate H]. injection H as <-.
    apply shows_cons; auto.
Qed.
Lemma show_list_sound : forall ts s cs, show_list s ts = Some cs -> shows' s ts cs.
Proof.
  induction ts as [|t ts IH]; intros s cs H.
  - injection H as <-. apply sh_nil.
  - cbn [show_list] in H. fold (show_list s) in H. destruct (show t s) as [a|] eqn:Ea; [|discriminate H].
    destruct (show_list s ts) as [b|] eqn:Eb; [|discriminate H]. injection H as <-. apply shows_cons; [apply show_sound; exact Ea|auto].
Qed.
End Show.

(** Elements by name: [p] and [div] are blocks, [r] is a flow-root, [f] floats, [a] is absolutely positioned,
    [n] is not displayed, [c] is displayed as its contents, in red, [g] is a block on red *)
Definition box_ua : list (source_rule ex_selector) :=
  [ StyleRule [(bs "div", 1%N); (bs "p", 1%N)] [Item (bs "display") [id_ "block"]];
    StyleRule [(bs "r", 1%N)] [Item (bs "display") [id_ "flow-root"]];
    StyleRule [(bs "f", 1%N)] [Item (bs "float") [id_ "left"]];
    StyleRule [(bs "a", 1%N)] [Item (bs "position") [id_ "absolute"]];
    StyleRule [(bs "n", 1%N)] [Item (bs "display") [id_ "none"]];
    StyleRule [(bs "c", 1%N)] [Item (bs "display") [id_ "contents"]; Item (bs "color") [id_ "red"]];
    StyleRule [(bs "g", 1%N)] [Item (bs "display") [id_ "block"]; Item (bs "background-color") [id_ "red"]] ].
Definition no_items (v : bytes) : list StyleCascade.item := [].
Definition no_rules (v : bytes) : list (source_rule ex_selector) := [].
Definition box_style (d : document) : nat -> option computed_values -> result computed_values :=
  style_for_element ex_color ex_selector ex_matches no_items (finish ex_selector snd (ex_set [box_ua])) (finish ex_selector snd []) d.
Definition el (n : string) (l : list DomXmlSpec.item) : DomXmlSpec.item := IElement (xn n) [] l.
Definition tx (s : string) : DomXmlSpec.item := IText (bs s).
Definition xml_doc (l : list DomXmlSpec.item) : document :=
  match parse_xml (XStartDocument :: flat_map events_of l ++ [XEndDocument]) with Ok d => d | _ => document_new end.
Definition root_style (d : document) : computed_values := match box_style d 2 None with Ok s => s | _ => INITIAL_VALUES end.
(** The nodes in the root element of an XML document *)
Definition xml_trees (l : list DomXmlSpec.item) : list tree :=
  match DomXmlSpec.numbered document_node_id (XT DDocument (content_of l)) with T _ [T _ ts] => ts | _ => [] end.
Definition xml_shows (l : list DomXmlSpec.item) : list content :=
  match show_list (xml_doc l) (box_style (xml_doc l)) (root_style (xml_doc l)) (xml_trees l) with Some cs => cs | None => [] end.
(** Everything that has to be computed about an example *)
Definition xml_test (l : list DomXmlSpec.item) : bool :=
  match DomXmlSpec.numbered document_node_id (XT DDocument (content_of l)) with T _ [T 2 _] => true | _ => false end &&
  match stylesheets (xml_doc l) with Ok [] => true | _ => false end &&
  match root_element (xml_doc l) with Ok 2 => true | _ => false end &&
  match box_style (xml_doc l) 2 None with Ok _ => true | _ => false end &&
  match show_list (xml_doc l) (box_style (xml_doc l)) (root_style (xml_doc l)) (xml_trees l) with Some _ => true | None => false end.
Lemma xml_displays : forall l, xml_test l = true ->
  displays ex_color ex_selector snd ex_matches no_items no_rules box_ua (xml_doc l) 2 (root_style (xml_doc l)) (xml_shows l) /\
  exists kids, element_shows (xml_doc l) kids (box_style (xml_doc l)) (root_style (xml_doc l)) 2 (xml_shows l).
Proof.
  intros l H. unfold xml_test in H. rewrite !Bool.andb_true_iff in H. destruct H as ((((H1 & H2) & H3) & H4) & H5).
  destruct (C26_xml_mirrors_events l) as (d & kids & E & F & St & _).
  assert (Ed : xml_doc l = d) by (unfold xml_doc; rewrite E; reflexivity).
  unfold xml_shows, root_style in *. unfold xml_trees in *. rewrite Ed in *.
  destruct (DomXmlSpec.numbered document_node_id (XT DDocument (content_of l))) as [i [|[[|[|[|?]]] ts] [|? ?]]]; try discriminate H1.
  inversion St as [? ? K Fs]; subst i ts0. inversion Fs as [|? ? St2 _]; subst.
  destruct (stylesheets (xml_doc l)) as [[|? ?]|e|] eqn:E2; try discriminate H2.
  destruct (root_element (xml_doc l)) as [[|[|[|?]]]|e|] eqn:E3; try discriminate H3.
  destruct (box_style (xml_doc l) 2 None) as [s|e|] eqn:E4; try discriminate H4.
  destruct (show_list (xml_doc l) (box_style (xml_doc l)) s ts) as [cs|] eqn:E5; [|discriminate H5].
  pose proof (show_list_sound _ _ _ _ _ E5) as Sh. split.
  - exists kids, (ex_set [box_ua]), [], [], ts. split; [exact F|]. split; [vm_compute; reflexivity|]. split; [exact E2|]. split; [reflexivity|].
    split; [exact E3|]. split; [exact E4|]. split; [exact St2|exact Sh].
  - exists kids. split; [exact (proj1 F)|]. split; [|exists ts; auto].
    match type of K with kids ?q = _ => apply (child_bounds _ kids q 2 (proj1 F)) end. rewrite K. left. reflexivity.
Qed.
(** The shape of a box tree *)
Inductive shape := Sh (kind : string) (text : list N) (inside : list shape).
Fixpoint shape_inline (x : inline_level_box) : shape :=
  match x with
  | TextRun _ t => Sh "text" t []
  | InlineBox _ _ _ l => Sh "inline" [] (map shape_inline l)
  | InlineAbsolutelyPositionedBox _ (BFC c _) => Sh "absolute" [] (shape_container c)
  | InlineFloatBox _ (BFC c _) => Sh "float" [] (shape_container c)
  end
with shape_container (c : block_container) : list shape :=
  match c with
  | BlockLevelBoxes l => [Sh "blocks" [] (map shape_block l)]
  | InlineFormattingContext l => [Sh "paragraph" [] (map shape_inline l)]
  end
with shape_block (b : block_level_box) : shape :=
  match b with
  | SameFormattingContextBlock _ c => Sh "block" [] (shape_container c)
  | OutOfFlowAbsolutelyPositionedBox _ (BFC c f) => Sh "absolute" [] (shape_container c)
  | OutOfFlowFloatBox _ (BFC c f) => Sh "float" [] (shape_container c)
  | Independent _ (BFC c f) => Sh (if f then "root with floats" else "root") [] (shape_container c)
  end.
Definition par (l : list shape) : list shape := [Sh "paragraph" [] l].
Definition txt (s : string) : shape := Sh "text" (bs s) [].
Notation build_root := (box_tree_root_construct ex_color ex_selector snd ex_matches no_items no_rules box_ua).
Definition box_items : list DomXmlSpec.item :=
  [el "div" [ tx " "; el "f" [tx "1"]; tx " 2  3 "; el "b" [tx "4 "; el "n" [tx "5"]; tx " 6"; el "f" [tx "7"]]; tx " 8"; el "a" [el "p" []];
              el "c" [el "p" [tx " 9 "; IComment (bs "-"); tx "	0"]]; el "b" []; el "r" [el "c" [el "f" []]]; tx " " ]].
Definition box_shape : list shape :=
  [ Sh "float" [] (par [txt "1"]);
    Sh "block" [] (par [txt "2 3 "; Sh "inline" [] [txt "4 6"; Sh "float" [] (par [txt "7"])]; txt " 8"; Sh "absolute" [] [Sh "blocks" [] [Sh "block" [] [Sh "blocks" [] []]]]]);
    Sh "block" [] (par [txt "9 0"]);
    Sh "block" [] (par [Sh "inline" [] []]);
    Sh "root with floats" [] [Sh "blocks" [] [Sh "float" [] [Sh "blocks" [] []]]] ].
Example box_test : xml_test box_items = true.
Proof. vm_compute. reflexivity. Qed.
Example C54_example :
  displays ex_color ex_selector snd ex_matches no_items no_rules box_ua (xml_doc box_items) 2 (root_style (xml_doc box_items)) (xml_shows box_items) /\
  match build_root (xml_doc box_items) with
  | Ok (BFC c f, _) => (shape_container c, f)
  | _ => ([], true)
  end = ([Sh "blocks" [] [Sh "root with floats" [] [Sh "blocks" [] box_shape]]], false) /\
  ~ unbuildable (xml_shows box_items).
Proof.
  split; [apply (xml_displays _ box_test)|]. split; [vm_compute; reflexivity|].
  destruct (C54_document _ _ _ _ _ _ _ _ _ _ _ (proj1 (xml_displays _ box_test))) as [(_ & E)|[(_ & U & _)|(_ & _ & E)]]; [exfalso|exact U|exfalso].
  - assert (match build_root (xml_doc box_items) with Ok (BFC (BlockLevelBoxes []) _, _) => false | _ => true end = true) as T by (vm_compute; reflexivity).
    rewrite E in T. discriminate T.
  - assert (match build_root (xml_doc box_items) with Panic => false | _ => true end = true) as T by (vm_compute; reflexivity).
    rewrite E in T. discriminate T.
Qed.
Example C54_unique_example : exists! c, context (root_style (xml_doc box_items)) (xml_shows box_items) c.
Proof.
  destruct C54_example as (H & _ & U).
  destruct (C54_document _ _ _ _ _ _ _ _ _ _ _ H) as [(E & _)|[(_ & _ & c & boxes & f & w & _ & C & _)|(_ & B & _)]].
  - assert (T : match get (root_style (xml_doc box_items)) display_ with DisplayNone => false | _ => true end = true) by (vm_compute; reflexivity).
    rewrite E in T. discriminate T.
  - exists c. split; [exact C|]. intros c' C'. exact (C54_boxes_unique _ _ _ _ C C').
  - contradiction.
Qed.
(** The hypotheses of C55, C56 and C57 *)
Example C55_example :
  exists kids c f w, element_shows (xml_doc box_items) kids (box_style (xml_doc box_items)) (root_style (xml_doc box_items)) 2 (xml_shows box_items) /\
    construct (xml_doc box_items) (box_style (xml_doc box_items)) (enough_fuel (xml_doc box_items)) (root_style (xml_doc box_items)) 2 = Ok (c, f, w) /\
    shape_container c = [Sh "blocks" [] box_shape] /\ f = true /\
    container_text c = bs "12 3 4 67 89 0" /\ (exists l, ifc_container c l /\ text_so_far l = bs "2 3 4 6 8").
Proof.
  destruct (xml_displays _ box_test) as (_ & kids & H).
  assert (T : match construct (xml_doc box_items) (box_style (xml_doc box_items)) (enough_fuel (xml_doc box_items)) (root_style (xml_doc box_items)) 2 with
    | Ok (BlockLevelBoxes (_ :: SameFormattingContextBlock _ (InlineFormattingContext l) :: _) as c, f, _) =>
        (shape_container c, f, container_text c, text_so_far l) = ([Sh "blocks" [] box_shape], true, bs "12 3 4 67 89 0", bs "2 3 4 6 8")
    | _ => False
    end) by (vm_compute; reflexivity).
  destruct (construct _ _ _ _ _) as [[[c f] w]|x|]; [|destruct T..]. destruct c as [bs_|]; [|destruct T].
  destruct bs_ as [|x [|y r]]; [destruct T..|]. destruct y as [s [|l]|? ?|? ?|? ?]; [destruct T| |destruct T..].
  exists kids, (BlockLevelBoxes (x :: SameFormattingContextBlock s (InlineFormattingContext l) :: r)), f, w.
  apply pair_equal_spec in T as [T T4]. apply pair_equal_spec in T as [T T3]. apply pair_equal_spec in T as [T1 T2].
  split; [exact H|]. split; [reflexivity|]. split; [exact T1|]. split; [exact T2|]. split; [exact T3|]. exists l. split; [|exact T4].
  eapply ic_blocks; [right; left; reflexivity|]. constructor. apply ic_here.
Qed.
Example C58_example :
  exists frs, match build_root (xml_doc box_items) with
              | Ok (boxes, _) => box_tree_root_layout ex_glyph_id ex_glyph_width ex_oracle boxes (Geom.mkVec 100%Q 100%Q)
              | _ => None
              end = Some frs.
Proof.
  destruct C54_example as (H & _ & U).
  destruct (C58_no_panic _ _ _ _ _ _ _ ex_glyph_id ex_glyph_width ltac:(intros ch; exists ch, (1#2)%Q; auto) _ _ _ _ H (fun _ => U)) as (boxes & w & E & L).
  rewrite E. apply L.
Qed.

(** *** A space at the start of an inline element is lost: [<div>a<b> b</b></div>] *)
Definition space_items : list DomXmlSpec.item := [el "div" [tx "a"; el "b" [tx " b"]]].
Theorem C55_css_text_refuted : exists d kids style_of s e cs l f w p,
  element_shows d kids style_of s e cs /\ construct d style_of (enough_fuel d) s e = Ok (InlineFormattingContext l, f, w) /\
  pieces cs [PParagraph p] /\ text_so_far l = bs "ab" /\ collapse true (flat_map inline_text p) = bs "a b".
Proof.
  assert (Te : xml_test space_items = true) by (vm_compute; reflexivity).
  destruct (xml_displays _ Te) as (_ & kids & H).
  assert (T : match construct (xml_doc space_items) (box_style (xml_doc space_items)) (enough_fuel (xml_doc space_items)) (root_style (xml_doc space_items)) 2 with
    | Ok (InlineFormattingContext l, _, _) => text_so_far l = bs "ab" | _ => False end) by (vm_compute; reflexivity).
  destruct (construct _ _ _ _ _) as [[[[|l] f] w]|x|] eqn:E; [destruct T| |destruct T..].
  exists (xml_doc space_items), kids, (box_style (xml_doc space_items)), (root_style (xml_doc space_items)), 2, (xml_shows space_items), l, f, w, (xml_shows space_items).
  split; [exact H|]. split; [exact E|]. split; [|split; [exact T|vm_compute; reflexivity]].
  assert (T2 : match xml_shows space_items with [CText _ t; CBox s _ _] => (t, is_inline s) = ([97%N], true) | _ => False end) by (vm_compute; reflexivity).
  destruct (xml_shows space_items) as [|[s t|? ? ?] [|[? ?|s' e' i'] [|? ?]]]; try contradiction T2.
  apply pair_equal_spec in T2 as [-> T2]. rewrite <- (app_nil_r [CText s [97%N]; CBox s' e' i']) at 1. apply pc_paragraph.
  - exists 97%N. split; [left; reflexivity|reflexivity].
  - intros x [<-|[]] (k & B). rewrite (block_not_inline s' k (proj1 B)) in T2. discriminate T2.
  - exact I.
  - apply pc_nil.
Qed.

(** *** A block in an inline element: [<div><b><p/></b></div>] *)
Definition block_items : list DomXmlSpec.item := [el "div" [el "b" [el "p" []]]].
Theorem C54_block_in_inline_refuted : exists d root s cs,
  displays ex_color ex_selector snd ex_matches no_items no_rules box_ua d root s cs /\ build_root d = Panic.
Proof.
  assert (Te : xml_test block_items = true) by (vm_compute; reflexivity).
  do 4 eexists. split; [exact (proj1 (xml_displays _ Te))|vm_compute; reflexivity].
Qed.

(** *** Text in an element with display contents may get the style of the text before it:
    [<div>a<c>b</c></div>] *)
Definition contents_items : list DomXmlSpec.item := [el "div" [tx "a"; el "c" [tx "b"]]].
Theorem C57_text_style_refuted : exists d kids style_of s e s1 s2 s3 t f w,
  element_shows d kids style_of s e [CText s1 (bs "a"); CText s2 (bs "b")] /\ get s2 color_ <> get s1 color_ /\
  construct d style_of (enough_fuel d) s e = Ok (InlineFormattingContext [TextRun s3 t], f, w) /\
  t = bs "ab" /\ get s3 color_ = get s1 color_.
Proof.
  assert (Te : xml_test contents_items = true) by (vm_compute; reflexivity).
  destruct (xml_displays _ Te) as (_ & kids & H).
  assert (T : match construct (xml_doc contents_items) (box_style (xml_doc contents_items)) (enough_fuel (xml_doc contents_items)) (root_style (xml_doc contents_items)) 2 with
    | Ok (InlineFormattingContext [TextRun s t], _, _) => (t, get s color_) = (bs "ab", mkRgba 0 0 0 255) | _ => False end) by (vm_compute; reflexivity).
  assert (T2 : match xml_shows contents_items with
    | [CText s1 t1; CText s2 t2] => (t1, t2, get s1 color_, get s2 color_) = (bs "a", bs "b", mkRgba 0 0 0 255, mkRgba 255 0 0 255)
    | _ => False end) by (vm_compute; reflexivity).
  destruct (construct _ _ _ _ _) as [[[[|[|x [|? ?]]] f] w]|x|] eqn:E; [destruct T|destruct T| |destruct x; destruct T|destruct T|destruct T].
  destruct x as [? ? ? ?|s3 t|? ?|? ?]; [destruct T| |destruct T..]. apply pair_equal_spec in T as [T T'].
  destruct (xml_shows contents_items) as [|[s1 t1|? ? ?] [|[s2 t2|? ? ?] [|? ?]]]; try contradiction T2.
  apply pair_equal_spec in T2 as [T2 T3]. apply pair_equal_spec in T2 as [T2 T4]. apply pair_equal_spec in T2 as [-> ->].
  exists (xml_doc contents_items), kids, (box_style (xml_doc contents_items)), (root_style (xml_doc contents_items)), 2, s1, s2, s3, t, f, w.
  split; [exact H|]. split; [rewrite T3, T4; discriminate|]. split; [exact E|]. split; [exact T|]. rewrite T', T4. reflexivity.
Qed.

Print Assumptions C54_contents.
Print Assumptions C54_boxes.
Print Assumptions C54_boxes_unique.
Print Assumptions C54_document.
Print Assumptions C58_no_panic.
Print Assumptions C55_text.
Print Assumptions C55_css_text.
Print Assumptions C56_text_kept.
Print Assumptions C57_tidy.
Print Assumptions C55_css_text_refuted.
Print Assumptions C54_block_in_inline_refuted.
Print Assumptions C57_text_style_refuted.
