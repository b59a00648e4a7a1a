(** Property C97: pages of XML files *)
From Coq Require Import QArith Lia.
From Verif Require LesterFloat.
From Verif Require Import PdfObject PdfObjectSpec PdfConvert PdfConvertSpec LayoutProps Base Dom DomSpec DomProofs DomTreeProofs DomWalkProofs DomXml DomXmlSpec DomProps
  StyleValues StyleProperties StyleCascade StyleSpec StyleElementSpec StyleElementProofs StyleSelectors StyleSelectorProofs StyleProps UserAgent UserAgentSpec UserAgentProofs
  Geom Text LayoutTree Layout LayoutSpec BoxTree BoxTreeSpec BoxTreeProofs BoxTreeProps InlineSpec
  Paint PaintSpec Float32Print FontParsing FontCmap VeraFile VeraProofs VeraProps Main MainSpec MainProofs MainProps WhiteSpec WhiteProofs AlikeSpec AlikeDomProofs AlikeProofs AlikeProps
  Arith32 LayoutArith LayoutArithSpec LayoutArithProofs LayoutArithProps MarkupSpec MarkupProofs MarkupProps MainArith MainArithProps XmlPageSpec XmlPageProofs.
Local Open Scope nat_scope.

Section Program.
Variable ar : arith.
Variable parse_color : parser color.
Variable other : Type.
Variable other_specificity : other -> N.
Variable other_matches : other -> document -> nat -> bool.
Variable items_of : bytes -> list StyleCascade.item.
Variable rules_of : bytes -> list (source_rule (ua_selector other)).
Variable round : Q -> dec.
Variable m : build.
Variable addr : N.
Notation to_pdf o := (document_to_pdf_rounded ar parse_color other other_specificity other_matches items_of rules_of round m addr o).
Notation displays := (displays parse_color (ua_selector other) (ua_specificity other other_specificity) (ua_matches other other_matches)
  items_of rules_of (user_agent_css other)).
Notation parsed l := (parse_xml (XStartDocument :: flat_map events_of l ++ [XEndDocument])).

(** Comments, and how text is written and cut into pieces, do not show even in the document. *)
Theorem C97_same : forall l l', content_of l = content_of l' -> parsed l = parsed l'.
Proof. exact xml_same. Qed.
(** ** What is displayed *)
(** The root element is found, no style sheet of the document counts, and there is exactly one thing to display. *)
Theorem C97_displays : forall l, xml_file l -> exists d, parsed l = Ok d /\ stylesheets d = Ok [] /\
  (clean_attributes parse_color items_of d ->
   exists root s cs, displays d root s cs /\ forall root' s' cs', displays d root' s' cs' -> root' = root /\ s' = s /\ cs' = cs).
Proof.
  intros l H. destruct (xml_parsed l H) as (d & kids & before & root & after & E & Hf & Ek & He & Hi & Utf). exists d. split; [exact E|].
  pose proof (C38_xml l d E) as Et. split; [exact Et|]. intros Ca.
  pose proof (C39_root_element d kids before after root Hf Ek He Hi) as Er.
  set (style := style_for_element parse_color (ua_selector other) (ua_matches other other_matches) items_of
    (finish (ua_selector other) (ua_specificity other other_specificity) (ua_set other))
    (finish (ua_selector other) (ua_specificity other other_specificity) []) d).
  assert (St : forall n p, is_element (data (node_at d n)) -> exists s, style n p = Ok s).
  { intros n p K. destruct (data (node_at d n)) as [| | | |e|] eqn:De; cbn [is_element] in K; try contradiction.
    apply (C28_total _ _ _ _ _ _ d n e p); [exact (UserAgentProofs.in_range d n e De)|exact De|]. intros v i C F I. exact (Ca n e v i De C F I). }
  destruct (St root None He) as (s & Es). destruct (subtree_ex d kids root (proj1 Hf)) as ([root' ts] & R & Sub). cbn [DomSpec.root] in R. subst root'.
  destruct (C54_contents d style s ts Utf) as (cs & Sh & Un). { intros i p K. exact (St i (Some p) K). }
  exists root, s, cs. split.
  { exists kids, (ua_set other), [], [], ts. split; [exact Hf|]. split; [apply ua_set_ok|]. split; [exact Et|]. split; [reflexivity|]. auto 10. }
  intros root' s' cs' (kids' & ua' & texts' & author' & ts' & Hf' & Eu' & Et' & Ea' & Er' & Es' & Sub' & Sh').
  rewrite ua_set_ok in Eu'. injection Eu' as <-. rewrite Et in Et'. injection Et' as <-. cbn [map add_stylesheets] in Ea'. injection Ea' as <-.
  rewrite Er in Er'. injection Er' as <-. fold style in Es', Sh'. rewrite Es in Es'. injection Es' as <-.
  assert (X : T root ts = T root ts').
  { apply (subtree_same kids kids'); auto. apply (kids_unique d); [apply Hf|apply Hf']. }
  injection X as <-. split; [reflexivity|]. split; [reflexivity|]. symmetry. apply Un. exact Sh'.
Qed.

(** ** The file *)
Theorem C97_document : zero_ok ar -> forall l, xml_file l -> exists d, parsed l = Ok d /\
  (clean_attributes parse_color items_of d ->
   exists root s cs, displays d root s cs /\
     (((get s display_ = DisplayNone \/ ~ unbuildable cs) /\ exists pf rs t,
         let file := doc_write (PdfConvert.run [mkPH (round 600%Q) (round 800%Q) rs]) in
         (forall o, to_pdf o d = Some file) /\
         parse_font m vera_ttf = Ok pf /\ nonspace t = nonspace (document_order s cs) /\
         Forall2 (fun ch g => glyph_id m pf ch = Ok g) t (asked_glyphs rs) /\
         (moderate (round 600%Q) -> moderate (round 800%Q) -> Forall clean_request rs -> (N.of_nat (length file) < 2 ^ 32)%N ->
          exists kids page res ms, read_document file = Some (kids, [page], res) /\ paint res (pv_contents page) = Some ms /\
            shown_glyphs ms = Some (asked_glyphs rs))) \/
      (get s display_ <> DisplayNone /\ unbuildable cs /\ forall o, to_pdf o d = None))).
Proof.
  intros Z l H. destruct (C97_displays l H) as (d & E & _ & Dd). exists d. split; [exact E|]. intros Ca. destruct (Dd Ca) as (root & s & cs & D & _).
  exists root, s, cs. split; [exact D|]. destruct C71_parsed as (pf & Hp & _). specialize (Hp m).
  assert (V : forall o, to_pdf o d = to_pdf_bytes_in ar round (pdf_font m addr pf) parse_color (ua_selector other) (ua_specificity other other_specificity)
    (ua_matches other other_matches) items_of rules_of (user_agent_css other) (glyph_id m pf) o d).
  { intros o. unfold document_to_pdf_rounded. rewrite Hp. reflexivity. }
  assert (G : forall ch, exists id w, glyph_id m pf ch = Ok id /\ f_glyph_width (pdf_font m addr pf) id = Ok w).
  { intros c. destruct (C71_glyphs m pf Hp c) as (g & w & _ & G & _ & W & _). exists g, w. split; [exact G|exact W]. }
  assert (K : (get s display_ <> DisplayNone -> ~ unbuildable cs) -> exists pf rs t,
         let file := doc_write (PdfConvert.run [mkPH (round 600%Q) (round 800%Q) rs]) in
         (forall o, to_pdf o d = Some file) /\
         parse_font m vera_ttf = Ok pf /\ nonspace t = nonspace (document_order s cs) /\
         Forall2 (fun ch g => glyph_id m pf ch = Ok g) t (asked_glyphs rs) /\
         (moderate (round 600%Q) -> moderate (round 800%Q) -> Forall clean_request rs -> (N.of_nat (length file) < 2 ^ 32)%N ->
          exists kids page res ms, read_document file = Some (kids, [page], res) /\ paint res (pv_contents page) = Some ms /\
            shown_glyphs ms = Some (asked_glyphs rs))).
  { intros U. destruct (C75_document ar round (pdf_font m addr pf) parse_color (ua_selector other) (ua_specificity other other_specificity) (ua_matches other other_matches)
      items_of rules_of (user_agent_css other) (glyph_id m pf) Z G (proj1 (C71_embeddable m pf Hp addr)) d root s cs D U) as (rs & t & A & B & C & F).
    exists pf, rs, t. cbv zeta. split; [|auto]. intros o. rewrite V. exact (A o). }
  destruct (C54_document _ _ _ _ _ _ _ _ _ _ _ D) as [(Dn & _)|[(Nd & Nu & _)|(Nd & U & P)]].
  - left. split; [left; exact Dn|]. apply K. contradiction.
  - left. split; [right; exact Nu|]. apply K. auto.
  - right. split; [exact Nd|]. split; [exact U|]. intros o. rewrite V. unfold to_pdf_bytes_in. rewrite P. reflexivity.
Qed.
(** The same elements and texts as in an HTML file without style sheets give the same file. *)
Theorem C97_html : through_interface other_matches -> forall hidden l ops d', xml_file l -> html5ever_calls ops -> run_ops document_new ops = Ok d' ->
  exists d, parsed l = Ok d /\ (clean_attributes parse_color items_of d -> documents_alike hidden d d' ->
    (forall x x', hidden x x' -> not_shown parse_color other other_specificity other_matches items_of rules_of d x) -> forall o, to_pdf o d = to_pdf o d').
Proof.
  intros Hi hidden l ops d' H H' E'. destruct (C97_displays l H) as (d & E & _ & Dd). exists d. split; [exact E|]. intros Ca Al Ns. destruct (Dd Ca) as (root & s & cs & D & _).
  destruct (html_root ops d' H' E') as (root' & Er'). intros o.
  exact (C95_page ar parse_color other other_specificity other_matches items_of rules_of round m addr Hi hidden d d' root root' s cs Al Ns D Er' (html_texts ops d' H' E') o).
Qed.
End Program.
Print Assumptions C97_same.
Print Assumptions C97_displays.
Print Assumptions C97_document.
Print Assumptions C97_html.

(** ** Example: [<?x?><!--x--><html xmlns="http://www.w3.org/1999/xhtml" id="r" lang="l" class="c" dir="ltr"><body><p class="c" style="x"><![CDATA[A]]></p></body></html>],
    with the same elements as the HTML file of C93 *)
Definition xh (n : string) : xml_name := mkXName (bs n) (Some ns_html) None.
Definition xhtml_items : list DomXmlSpec.item :=
  [ IPi (bs "x") None; IComment (bs "x");
    IElement (xh "html") [(xn "id", bs "r"); (xn "lang", bs "l"); (xn "class", bs "c"); (xn "dir", bs "ltr")]
      [IElement (xh "body") [] [IElement (xh "p") [(xn "class", bs "c"); (xn "style", bs "x")] [ICData (bs "A")]]] ].
Definition xhtml_doc : document := Eval vm_compute in match parse_xml (XStartDocument :: flat_map events_of xhtml_items ++ [XEndDocument]) with Ok d => d | _ => document_new end.
Lemma xhtml_file : xml_file xhtml_items.
Proof.
  split.
  - exists [IPi (bs "x") None; IComment (bs "x")]. do 4 eexists. split; [reflexivity|]. split; repeat constructor.
  - intros x [<-|[<-|[<-|[]]]]; cbn [utf8_texts]; try exact I. repeat split. exists (bs "A"). split; [repeat constructor|reflexivity].
Qed.
Lemma xhtml_clean : clean_attributes ex_color main_items xhtml_doc.
Proof.
  assert (X : forall l, parse_block ex_color l <> Panic -> forall i, In i l -> ~ trailing ex_color i).
  { intros l N i I T. apply N. apply C40_panics. eauto. }
  intros n e v i D C F.
  assert (A : get_attr e (bs "style") = None \/ get_attr e (bs "style") = Some (bs "x")).
  { do 7 (destruct n as [|n]; [try discriminate D; vm_compute in D; injection D as <-; auto|]). unfold node_at in D.
    rewrite nth_overflow in D by (cbn; lia). discriminate D. }
  apply X. assert (E : v = bs "x"); [|rewrite E; vm_compute; discriminate].
  assert (G : get_attr e (bs "style") = Some v) by (apply get_attr_first; exact F). destruct A as [A|A]; congruence.
Qed.
Example C97_document_example : exists file, forall o,
  document_to_pdf_rounded f32 ex_color pair_selector (fun _ => 2%N) pair_matches main_items pair_rules print32 Release 0 o xhtml_doc = Some file.
Proof.
  destruct (C97_document f32 ex_color pair_selector (fun _ => 2%N) pair_matches main_items pair_rules print32 Release 0 (proj1 C75_f32) xhtml_items xhtml_file) as (d & E & H).
  assert (d = xhtml_doc) as -> by (vm_compute in E; injection E as <-; reflexivity).
  destruct (H xhtml_clean) as (root & s & cs & D & [(_ & pf & rs & t & K & _)|(Nd & U & _)]); [eauto|exfalso].
  destruct (C54_document _ _ _ _ _ _ _ _ _ _ _ D) as [(Dn & _)|[(_ & Nu & _)|(_ & _ & P)]]; [contradiction..|].
  assert (Q : match box_tree_root_construct ex_color (ua_selector pair_selector) (ua_specificity pair_selector (fun _ => 2%N)) (ua_matches pair_selector pair_matches) main_items pair_rules
          (user_agent_css pair_selector) xhtml_doc with Panic => False | _ => True end) by (vm_compute; exact I).
  rewrite P in Q. exact Q.
Qed.
Lemma xhtml_alike : documents_alike none_hidden xhtml_doc tags_doc.
Proof.
  destruct (xml_parsed xhtml_items xhtml_file) as (d & kids & _ & _ & _ & E & Hf & _).
  assert (d = xhtml_doc) as -> by (vm_compute in E; injection E as <-; reflexivity). clear E.
  destruct (run_ops_doc tags_ops document_new _ document_new_doc (proj1 tags_calls)) as (d & kids' & E & Hf').
  assert (d = tags_doc) as -> by (vm_compute in E; injection E as <-; reflexivity). clear E.
  assert (K : forall i l, first_child (node_at xhtml_doc i) = hd_error l -> chain xhtml_doc l = true -> kids i = l)
    by (intros i l; exact (kids_links xhtml_doc kids i l (proj1 Hf))).
  assert (K' : forall i l, first_child (node_at tags_doc i) = hd_error l -> chain tags_doc l = true -> kids' i = l)
    by (intros i l; exact (kids_links tags_doc kids' i l (proj1 Hf'))).
  split; [|reflexivity]. exists kids, kids'. split; [exact Hf|]. split; [exact Hf'|]. split; [|intros x x' _ []].
  assert (Bare : forall dd l, forallb (fun x => negb (element_at dd x)) l = true -> forall x, In x l -> ~ is_element (data (node_at dd x))).
  { intros dd l B x I El. rewrite forallb_forall in B. specialize (B x I). unfold element_at in B. destruct (data (node_at dd x)); try contradiction. discriminate B. }
  assert (Txt : forall l l' r r', forallb (fun x => negb (element_at xhtml_doc x)) l = true -> forallb (fun x => negb (element_at tags_doc x)) l' = true ->
    same_text (texts_of xhtml_doc l) (texts_of tags_doc l') -> alike xhtml_doc tags_doc kids kids' none_hidden r r' -> alike xhtml_doc tags_doc kids kids' none_hidden (l ++ r) (l' ++ r')).
  { intros l l' r r' B B' Tx R. apply al_text; [exact (Bare _ _ B)|exact (Bare _ _ B')|exact Tx|exact R]. }
  unfold document_node_id. rewrite (K 1 [2; 3]), (K' 1 [2; 3]) by reflexivity. apply (Txt [2] [2] [3] [3]); [reflexivity..|].
  apply al_element; [do 2 eexists; split; [reflexivity|split; [reflexivity|split; [reflexivity|split; [reflexivity|left; reflexivity]]]]| |apply al_nil].
  rewrite (K 3 [4]), (K' 3 [4; 5]) by reflexivity. apply (Txt [] [4] [4] [5]); [reflexivity..|].
  apply al_element; [do 2 eexists; split; [reflexivity|split; [reflexivity|split; [reflexivity|split; [reflexivity|left; reflexivity]]]]| |apply al_nil].
  rewrite (K 4 [5]), (K' 5 [6]) by reflexivity.
  apply al_element; [do 2 eexists; split; [reflexivity|split; [reflexivity|split; [reflexivity|split; [reflexivity|left; reflexivity]]]]| |apply al_nil].
  rewrite (K 5 [6]), (K' 6 [7]) by reflexivity. apply (Txt [6] [7] [] []); [reflexivity..|apply al_nil].
Qed.
Example C97_html_example : forall o,
  document_to_pdf_rounded f32 ex_color pair_selector (fun _ => 2%N) pair_matches main_items pair_rules print32 Release 0 o xhtml_doc =
  document_to_pdf_rounded f32 ex_color pair_selector (fun _ => 2%N) pair_matches main_items pair_rules print32 Release 0 o tags_doc.
Proof.
  destruct (C97_html f32 ex_color pair_selector (fun _ => 2%N) pair_matches main_items pair_rules print32 Release 0 pair_through none_hidden xhtml_items tags_ops tags_doc
    xhtml_file tags_calls eq_refl) as (d & E & H).
  assert (d = xhtml_doc) as -> by (vm_compute in E; injection E as <-; reflexivity). apply H; [exact xhtml_clean|exact xhtml_alike|intros x x' []].
Qed.
Example C97_same_example : parse_xml (XStartDocument :: flat_map events_of xhtml_items ++ [XEndDocument]) =
  parse_xml (XStartDocument :: flat_map events_of
    [ IPi (bs "x") None;
      IElement (xh "html") [(xn "id", bs "r"); (xn "lang", bs "l"); (xn "class", bs "c"); (xn "dir", bs "ltr")]
        [IElement (xh "body") [] [IElement (xh "p") [(xn "class", bs "c"); (xn "style", bs "x")] [IText []; IComment (bs "y"); IText (bs "A")]]];
      IComment (bs "z") ] ++ [XEndDocument]).
Proof. apply C97_same. reflexivity. Qed.
