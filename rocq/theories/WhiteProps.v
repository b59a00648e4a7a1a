(** Property C96: white space that does not show *)
From Coq Require Import QArith Permutation Lia.
From Verif Require LesterFloat.
From Verif Require Import PdfObject PdfConvert LayoutProps Base Dom DomSpec DomProofs DomTreeProofs DomWalkProofs DomStyleProofs DomProps
  StyleValues StyleProperties StyleCascade StyleSpec StyleElementSpec StyleElementProofs StyleSelectors StyleSelectorProofs StyleProps UserAgent UserAgentSpec UserAgentProofs UserAgentProps
  Geom Text LayoutTree Layout LayoutSpec BoxTree BoxTreeSpec BoxTreeProofs BoxShapeProofs BoxTreeProps
  Paint Float32Print FontParsing FontCmap VeraFile VeraProofs VeraProps Main MainSpec MainProofs MainProps WhiteSpec WhiteProofs AlikeSpec AlikeDomProofs AlikeProofs AlikeProps
  MarkupSpec MarkupProofs MarkupProps Arith32 LayoutArith LayoutArithProps MainArith MainArithProps.
Local Open Scope nat_scope.
Local Open Scope res_scope.

(** ** Where white space does not show *)
Lemma collapse_blank : forall w, (forall ch, In ch w -> is_space ch = true) -> collapse true w = [].
Proof. induction w as [|c w IH]; intros H; [reflexivity|]. cbn [collapse]. rewrite (H c (or_introl eq_refl)). apply IH. intros ch I. apply H. right. exact I. Qed.
(** More or less of it in a run, or other white space *)
Theorem C96_runs : forall s t t' a r, same_text t t' -> same_but_spaces (a ++ CText s t :: r) (a ++ CText s t' :: r).
Proof.
  intros s t t' a r H. apply respaced_same. apply respaced_app; [apply respaced_refl|]. change (CText s t :: r) with ([CText s t] ++ r). change (CText s t' :: r) with ([CText s t'] ++ r).
  apply respaced_app; [|apply respaced_refl]. apply (respaced_texts s [t] [t']). cbn [concat]. rewrite !app_nil_r. exact H.
Qed.
(** At the start of a block or of an inline element *)
Theorem C96_start : forall s w r, blank (CText s w) -> same_but_spaces (CText s w :: r) r.
Proof. intros s w r B. cbn [blank] in B. unfold same_but_spaces. cbn [tight_all tight]. rewrite (collapse_blank w B). reflexivity. Qed.
Lemma after_one : forall a r, left_after true (tight_all true a) = true -> forall s w, blank (CText s w) -> same_but_spaces (a ++ CText s w :: r) (a ++ r).
Proof.
  intros a r E s w B. unfold same_but_spaces. rewrite !tight_all_app, !flat_map_app, E. f_equal. exact (C96_start s w r B).
Qed.
(** After a block *)
Theorem C96_after_block : forall s w a s' e i r, blank (CText s w) -> block_content (CBox s' e i) ->
  same_but_spaces ((a ++ [CBox s' e i]) ++ CText s w :: r) ((a ++ [CBox s' e i]) ++ r).
Proof.
  intros s w a s' e i r B Bl. apply after_one; [|exact B]. apply in_flow_block_ok in Bl. rewrite tight_all_app, left_after_app. cbn [tight_all]. rewrite tight_box.
  unfold left_after at 1. cbn [fold_left passed]. rewrite Bl. destruct (is_inline s') eqn:E; [|reflexivity]. exfalso. unfold is_inline in E. unfold in_flow_block in Bl.
  destruct (get s' display_) as [| |[|] j]; discriminate Bl || discriminate E.
Qed.
(** After white space *)
Theorem C96_after_space : forall s w a s' t ch r, blank (CText s w) -> is_space ch = true ->
  same_but_spaces ((a ++ [CText s' (t ++ [ch])]) ++ CText s w :: r) ((a ++ [CText s' (t ++ [ch])]) ++ r).
Proof.
  intros s w a s' t ch r B S. apply after_one; [|exact B]. rewrite tight_all_app, left_after_app. cbn [tight_all tight]. unfold left_after at 1. cbn [fold_left passed].
  rewrite spaced_collapse. unfold ends. rewrite rev_app_distr. exact S.
Qed.
(** Inside of elements *)
Theorem C96_inside : forall s e e' i i' a r, same_but_spaces i i' -> same_but_spaces (a ++ CBox s e i :: r) (a ++ CBox s e' i' :: r).
Proof.
  intros s e e' i i' a r H. apply respaced_same. apply respaced_app; [apply respaced_refl|]. change (CBox s e i :: r) with ([CBox s e i] ++ r). change (CBox s e' i' :: r) with ([CBox s e' i'] ++ r).
  apply respaced_app; [|apply respaced_refl]. apply respaced_box. exact H.
Qed.

(** ** Documents *)
Section Documents.
Variable parse_color : parser color.
Variable selector : Type.
Variable specificity_of : selector -> N.
Variable matches_selector : selector -> document -> nat -> bool.
Variable items_of : bytes -> list StyleCascade.item.
Variable rules_of : bytes -> list (source_rule selector).
Variable ua_rules : list (source_rule selector).
Notation construct_root := (box_tree_root_construct parse_color selector specificity_of matches_selector items_of rules_of ua_rules).
Notation displays := (displays parse_color selector specificity_of matches_selector items_of rules_of ua_rules).
(** The boxes are the same, or cannot be built either way. *)
Theorem C96_construct : forall d d' root root' s cs cs', displays d root s cs -> displays d' root' s cs' -> same_but_spaces cs cs' ->
  (exists boxes w w', construct_root d = Ok (boxes, w) /\ construct_root d' = Ok (boxes, w')) \/
  (construct_root d = Panic /\ construct_root d' = Panic).
Proof.
  intros d d' root root' s cs cs' D D' L.
  assert (U : unbuildable cs <-> unbuildable cs') by (rewrite <- (unbuildable_tight cs true), <- (unbuildable_tight cs' true), <- unbuildable_letters, L; apply unbuildable_letters).
  destruct (C54_document _ _ _ _ _ _ _ d root s cs D) as [(Dn & E)|[(Dn & Nu & c & b & f & w & E & C & Rb)|(Dn & Ub & E)]];
    destruct (C54_document _ _ _ _ _ _ _ d' root' s cs' D') as [(Dn' & E')|[(Dn' & Nu' & c' & b' & f' & w' & E' & C' & Rb')|(Dn' & Ub' & E')]]; try contradiction; try tauto.
  - left. do 3 eexists. split; [exact E|exact E'].
  - left. rewrite <- (C96_boxes s cs cs' c c' L C C') in Rb'. exists (BFC (BlockLevelBoxes b) f), w, w'. split; [exact E|]. rewrite E'.
    do 3 f_equal; destruct Rb; inversion Rb'; subst; congruence.
Qed.
(** And so is the file, byte for byte, with exact numbers and with those of the program. *)
Variable ar : arith.
Variable round : Q -> dec.
Variable font : PdfConvert.font.
Variable glyph : N -> Base.res PdfConvert.font_error N.
Theorem C96_page : forall d d' root root' s cs cs', displays d root s cs -> displays d' root' s cs' -> same_but_spaces cs cs' ->
  forall o, to_pdf_bytes_in ar round font parse_color selector specificity_of matches_selector items_of rules_of ua_rules glyph o d =
    to_pdf_bytes_in ar round font parse_color selector specificity_of matches_selector items_of rules_of ua_rules glyph o d'.
Proof.
  intros d d' root root' s cs cs' D D' L o. unfold to_pdf_bytes_in.
  destruct (C96_construct d d' root root' s cs cs' D D' L) as [(b & w & w' & -> & ->)|(-> & ->)]; reflexivity.
Qed.
End Documents.

(** ** Two HTML files whose texts differ in the length of runs of white space, or in what white space it is *)
Section Html.
Variable ar : arith.
Variable parse_color : parser color.
Variable other : Type.
Variable other_specificity : other -> N.
Variable other_matches : other -> document -> nat -> bool.
Variable items_of : bytes -> list StyleCascade.item.
Variable rules_of : bytes -> list (source_rule (ua_selector other)).
Variable round : Q -> dec.
Variable m : build.
Variable addr : N.
Notation to_pdf o := (document_to_pdf_rounded ar parse_color other other_specificity other_matches items_of rules_of round m addr o).
Theorem C96_html : through_interface other_matches -> forall ops ops' d, html5ever_calls ops -> calls_respaced ops ops' ->
  (forall o t, In o ops' -> In t (given_text o) -> exists u, encodes t u) -> run_ops document_new ops = Ok d ->
  clean_sheets_of parse_color other rules_of d -> clean_attributes parse_color items_of d ->
  exists d', run_ops document_new ops' = Ok d' /\ (stylesheets d' = stylesheets d -> forall o, to_pdf o d' = to_pdf o d).
Proof.
  intros Hi ops ops' d H C U E Cs Ca. pose proof (ops_alike same_text same_text_app ops ops' C _ _ (new_alike same_text)) as B. rewrite E in B.
  destruct (run_ops document_new ops') as [d'|e|] eqn:E'; cbn [both] in B; try contradiction. exists d'. split; [reflexivity|]. intros Es o. symmetry.
  destruct (run_ops_doc ops document_new _ document_new_doc (proj1 H)) as (d0 & kids & E0 & Hf). assert (d0 = d) as -> by congruence.
  exact (C95_alike ar parse_color other other_specificity other_matches items_of rules_of round m addr Hi none_hidden ops ops' d d' H
    (html_calls_alike same_text same_text_app ops ops' C H U) E E' Cs Ca (documents_respaced d d' B kids Hf (eq_sym Es))
    (none_shown parse_color other other_specificity other_matches items_of rules_of d) o).
Qed.
End Html.

(** ** White space at the end of a block is kept. *)
Theorem C96_end_refuted : exists s t w c c', blank (CText s w) /\ context s [CText s t] c /\ context s [CText s t; CText s w] c' /\ c <> c'.
Proof.
  exists INITIAL_VALUES, [97%N], [32%N], (BFC (InlineFormattingContext [TextRun INITIAL_VALUES [97%N]]) false), (BFC (InlineFormattingContext [TextRun INITIAL_VALUES [97%N; 32%N]]) false).
  set (s := INITIAL_VALUES).
  assert (St : starts_paragraph (CText s [97%N])) by (exists 97%N; split; [left; reflexivity|reflexivity]).
  assert (L : level [CText s [97%N]] [TextRun s [97%N]]).
  { apply (lv_text [] [] s [97%N]); [constructor|]. apply (ta_new s []); [discriminate|]. intros k s' t' E. destruct k; discriminate E. }
  assert (F : forall l, (forall x, In x l -> exists s t, x = CText s t) -> (false = true <-> floats_in l)).
  { intros l T. split; [discriminate|]. intros K. inversion K as [? ? ? ? I _|? ? ? ? I _ _]; subst; destruct (T _ I) as (? & ? & X); discriminate X. }
  split; [intros ch [<-|[]]; reflexivity|]. split; [|split].
  - apply cx; [|apply F; intros x [<-|[]]; eauto]. apply (cn_inlines _ _ [CText s [97%N]]); [|exact L].
    apply (pc_paragraph _ [] []); [exact St|intros x []|exact I|constructor].
  - apply cx; [|apply F; intros x [<-|[<-|[]]]; eauto]. apply (cn_inlines _ _ [CText s [97%N]; CText s [32%N]]).
    + apply (pc_paragraph _ [CText s [32%N]] []); [exact St|intros x [<-|[]] []|exact I|constructor].
    + apply (lv_text [CText s [97%N]] [TextRun s [97%N]] s [32%N]); [exact L|]. apply (ta_more s [] s [97%N] [32%N]). discriminate.
  - discriminate.
Qed.
Print Assumptions C96_boxes.
Print Assumptions C96_runs.
Print Assumptions C96_start.
Print Assumptions C96_after_block.
Print Assumptions C96_after_space.
Print Assumptions C96_inside.
Print Assumptions C96_construct.
Print Assumptions C96_page.
Print Assumptions C96_html.
Print Assumptions C96_end_refuted.

(** ** Examples *)
(** The page of C54, written on lines of its own with more white space, and with less *)
Definition nl : DomXmlSpec.item := DomXmlSpec.IText [10; 9; 9]%N.
Definition loose_items : list DomXmlSpec.item :=
  [el "div" [ nl; el "p" [nl; tx "1  2"; nl; el "b" [tx "	3  4 "]; tx "  5"; el "f" [nl; tx "6"]; tx " 7"]; nl; el "p" [tx " 8"]; nl; el "r" [nl]; tx "9"]].
Definition tight_items : list DomXmlSpec.item :=
  [el "div" [ el "p" [tx "1 2 "; el "b" [tx "3 4 "]; tx "5"; el "f" [tx "6"]; tx " 7"]; el "p" [tx "8"]; el "r" []; tx "9"]].
Example loose_test : xml_test loose_items = true.
Proof. vm_compute. reflexivity. Qed.
Example tight_test : xml_test tight_items = true.
Proof. vm_compute. reflexivity. Qed.
Lemma loose_style : root_style (xml_doc loose_items) = root_style (xml_doc tight_items).
Proof. vm_compute. reflexivity. Qed.
Lemma loose_tight : same_but_spaces (xml_shows loose_items) (xml_shows tight_items).
Proof. vm_compute. reflexivity. Qed.
Example C96_page_example : forall ar round font glyph o, xml_shows loose_items <> xml_shows tight_items /\
  to_pdf_bytes_in ar round font ex_color ex_selector snd ex_matches no_items no_rules box_ua glyph o (xml_doc loose_items) =
  to_pdf_bytes_in ar round font ex_color ex_selector snd ex_matches no_items no_rules box_ua glyph o (xml_doc tight_items).
Proof.
  intros ar round font glyph o. split; [vm_compute; discriminate|]. apply (C96_page ex_color ex_selector snd ex_matches no_items no_rules box_ua ar round font glyph _ _ 2 2
    (root_style (xml_doc loose_items)) (xml_shows loose_items) (xml_shows tight_items)); [apply (xml_displays _ loose_test)| |exact loose_tight].
  rewrite loose_style. apply (xml_displays _ tight_test).
Qed.
Example C96_construct_example : exists boxes w w', build_root (xml_doc loose_items) = Ok (boxes, w) /\ build_root (xml_doc tight_items) = Ok (boxes, w').
Proof.
  pose proof (proj1 (xml_displays _ tight_test)) as D. rewrite <- loose_style in D.
  destruct (C96_construct ex_color ex_selector snd ex_matches no_items no_rules box_ua _ _ _ _ _ _ _ (proj1 (xml_displays _ loose_test)) D loose_tight) as [H|(E & _)]; [exact H|exfalso].
  assert (match build_root (xml_doc loose_items) with Panic => false | _ => true end = true) as T by (vm_compute; reflexivity). rewrite E in T. discriminate T.
Qed.
Definition a_block : computed_values := set display_ (OutsideInside Block Flow) INITIAL_VALUES.
Example C96_places_example : let s := INITIAL_VALUES in
  same_but_spaces [CText s (bs "a  b")] [CText s [97; 10; 98]%N] /\ same_but_spaces [CText s (bs "  "); CText s (bs "a")] [CText s (bs "a")] /\
  same_but_spaces [CBox a_block 1 []; CText s (bs "  "); CText s (bs "a")] [CBox a_block 1 []; CText s (bs "a")] /\
  same_but_spaces [CText s (bs "a "); CText s (bs "  "); CText s (bs "a")] [CText s (bs "a "); CText s (bs "a")] /\
  same_but_spaces [CBox a_block 1 [CText s (bs " a")]] [CBox a_block 2 [CText s (bs "a")]] /\
  ~ same_but_spaces [CText s (bs "a b")] [CText s (bs "ab")] /\ ~ same_but_spaces [CText s (bs "a ")] [CText s (bs "a")].
Proof.
  cbv zeta. set (s := INITIAL_VALUES). split; [|split; [|split; [|split; [|split; [|split]]]]].
  - apply (C96_runs s (bs "a  b") [97; 10; 98]%N [] []). reflexivity.
  - apply (C96_start s (bs "  ")). intros ch [<-|[<-|[]]]; reflexivity.
  - apply (C96_after_block s (bs "  ") [] a_block 1 []); [intros ch [<-|[<-|[]]]; reflexivity|]. exists Flow. split; [reflexivity|]. split; [discriminate|reflexivity].
  - apply (C96_after_space s (bs "  ") [] s (bs "a") 32%N); [intros ch [<-|[<-|[]]]; reflexivity|reflexivity].
  - apply (C96_inside a_block 1 2 [CText s (bs " a")] [CText s (bs "a")] [] []). reflexivity.
  - vm_compute. discriminate.
  - vm_compute. discriminate.
Qed.
(** The calls of C93, with texts *)
Definition wide_ops : list sink_op := tags_ops ++ [Append 6 (AppendText (bs "  B  C ")); Append 5 (AppendText [10; 10]%N)].
Definition narrow_ops : list sink_op := other_tags_ops ++ [Append 6 (AppendText (bs " B	C ")); Append 5 (AppendText [32]%N)].
Definition wide_doc : document := Eval vm_compute in match run_ops document_new wide_ops with Ok d => d | _ => document_new end.
Definition narrow_doc : document := Eval vm_compute in match run_ops document_new narrow_ops with Ok d => d | _ => document_new end.
Lemma wide_calls : html5ever_calls wide_ops.
Proof.
  split; [|split].
  - unfold wide_ops, tags_ops. cbn [app]. valid_calls. vstep. { split; [bound|]. eexists. reflexivity. } valid_calls.
  - intros o t I. unfold wide_ops, tags_ops in I. cbn [In app] in I.
    repeat (destruct I as [<-|I]; [cbn [given_text In]; try contradiction|]); [| | |contradiction]; intros [<-|[]].
    + exists (bs "A"). split; [repeat constructor|reflexivity].
    + exists (bs "  B  C "). split; [repeat constructor|reflexivity].
    + exists [10; 10]%N. split; [repeat constructor|reflexivity].
  - intros d kids E F. assert (d = wide_doc) as -> by (vm_compute in E; injection E as <-; reflexivity).
    exists [2], 3, []. split; [apply (kids_links wide_doc kids 1 [2; 3] F); reflexivity|]. split; [exact I|intros y [<-|[]]; exact I].
Qed.
Lemma wide_clean : clean_sheets_of ex_color pair_selector pair_rules wide_doc /\ clean_attributes ex_color main_items wide_doc.
Proof.
  assert (X : forall l, parse_block ex_color l <> Panic -> forall i, In i l -> ~ trailing ex_color i).
  { intros l N i I T. apply N. apply C40_panics. eauto. }
  split.
  - intros ts t E I. vm_compute in E. injection E as <-. destruct I.
  - intros n e v i D C F.
    assert (A : get_attr e (bs "style") = None \/ get_attr e (bs "style") = Some (bs "x")).
    { do 9 (destruct n as [|n]; [try discriminate D; vm_compute in D; injection D as <-; auto|]). unfold node_at in D.
      rewrite nth_overflow in D by (cbn; lia). discriminate D. }
    apply X. assert (E : v = bs "x"); [|rewrite E; vm_compute; discriminate].
    assert (G : get_attr e (bs "style") = Some v) by (apply get_attr_first; exact F). destruct A as [A|A]; congruence.
Qed.
Lemma wide_narrow : calls_respaced wide_ops narrow_ops.
Proof.
  apply Forall2_app.
  - assert (K : forall c c', call_alike eq c c' -> call_alike same_text c c').
    { intros c c' H. destruct H; constructor; auto; match goal with H : given_alike _ _ _ |- _ => destruct H end; subst; constructor; reflexivity. }
    pose proof tags_alike as T. unfold calls_alike in T. induction T as [|c c' l l' H T IH]; constructor; auto.
  - repeat constructor.
Qed.
Example C96_html_example : forall o, wide_doc <> narrow_doc /\
  document_to_pdf_rounded f32 ex_color pair_selector (fun _ => 2%N) pair_matches main_items pair_rules print32 Release 0 o narrow_doc =
  document_to_pdf_rounded f32 ex_color pair_selector (fun _ => 2%N) pair_matches main_items pair_rules print32 Release 0 o wide_doc.
Proof.
  intros o. split; [discriminate|].
  destruct (C96_html f32 ex_color pair_selector (fun _ => 2%N) pair_matches main_items pair_rules print32 Release 0 pair_through wide_ops narrow_ops wide_doc
    wide_calls wide_narrow) as (d' & E & H); [|reflexivity|exact (proj1 wide_clean)|exact (proj2 wide_clean)|].
  - intros o' t I. unfold narrow_ops, other_tags_ops in I. cbn [In app] in I.
    repeat (destruct I as [<-|I]; [cbn [given_text In]; try contradiction|]); [| | |contradiction]; intros [<-|[]].
    + exists (bs "A"). split; [repeat constructor|reflexivity].
    + exists (bs " B	C "). split; [repeat constructor|reflexivity].
    + exists [32]%N. split; [repeat constructor|reflexivity].
  - assert (d' = narrow_doc) as -> by (vm_compute in E; injection E as <-; reflexivity). apply H. reflexivity.
Qed.
