(** Property C74: the program as a whole *)
From Coq Require Import QArith Lia.
From Verif Require LesterFloat.
From Verif Require Import PdfObject PdfObjectSpec PdfConvert PdfConvertSpec LayoutProps Base Dom DomSpec DomProofs DomTreeProofs DomWalkProofs DomProps
  StyleValues StyleProperties StyleCascade StyleSpec StyleElementSpec StyleElementProofs StyleProps UserAgent UserAgentSpec UserAgentProofs
  Geom Text LayoutTree Layout LayoutSpec BoxTree BoxTreeSpec BoxTreeProofs BoxTreeProps InlineSpec
  Paint PaintSpec PaintProps Float32 Float32Proofs Float32Print Float32PrintProofs
  FontParsing FontCmap FontSpec VeraFile VeraProofs ExtractSpec VeraProps Main MainSpec MainProofs.
Local Open Scope nat_scope.

Section Program.
Variable html_calls : bytes -> list sink_op.
Variable parse_color : parser color.
Variable other : Type.
Variable other_specificity : other -> N.
Variable other_matches : other -> document -> nat -> bool.
Variable items_of : bytes -> list StyleCascade.item.
Variable rules_of : bytes -> list (source_rule (ua_selector other)).
Variable round : Q -> dec.
Variable m : build.
Variable addr : N.
Variable fs_read : path -> bytes + bytes.
Variable fs_write : path -> bytes -> option bytes.
Notation run o := (victor_main html_calls parse_color other other_specificity other_matches items_of rules_of round m addr o fs_read fs_write).
Notation to_pdf o := (document_to_pdf parse_color other other_specificity other_matches items_of rules_of round m addr o).
Notation displays := (displays parse_color (ua_selector other) (ua_specificity other other_specificity) (ua_matches other other_matches)
  items_of rules_of (user_agent_css other)).
(** The style sheets of a document *)
Definition clean_sheets_of (d : document) : Prop :=
  forall ts t, stylesheets d = Ok ts -> In t ts -> clean_sheet parse_color (rules_of t).

(** ** Arguments and files *)
Theorem C74_usage : forall o args, length args < 3 -> run o args = ([], Failure (bs "Usage: victor input.html output.pdf")).
Proof. intros o [|a [|b [|c r]]] H; cbn [length] in H; try reflexivity. lia. Qed.
(** Otherwise the input is read; at most the output is written, after that; what is written is the PDF file of the document read. *)
Theorem C74_actions : forall o self input output extra acts out, run o (self :: input :: output :: extra) = (acts, out) ->
  (exists e, fs_read input = inr e /\ acts = [Read input] /\ out = Failure e) \/
  exists contents, fs_read input = inl contents /\
    ((out = Panicked /\ acts = [Read input] /\
       forall d, run_ops document_new (html_calls contents) = Ok d -> to_pdf o d = None) \/
     exists d file, run_ops document_new (html_calls contents) = Ok d /\ to_pdf o d = Some file /\ acts = [Read input; Write output file] /\
       (fs_write output file = None -> out = Success) /\ forall e, fs_write output file = Some e -> out = Failure e).
Proof.
  intros o self input output extra acts out H. unfold victor_main in H. cbn [next] in H.
  destruct (fs_read input) as [contents|e] eqn:R; [right|left; injection H as <- <-; eauto].
  exists contents. split; [reflexivity|]. unfold parse_html in H.
  destruct (run_ops document_new (html_calls contents)) as [d|e|] eqn:P.
  - remember (to_pdf o d) as pdf eqn:T. destruct pdf as [file|]; cbn [write_out] in H.
    + right. exists d, file. split; [reflexivity|]. split; [symmetry; exact T|]. injection H as <- <-. split; [reflexivity|].
      split; [intros ->; reflexivity|intros e ->; reflexivity].
    + left. injection H as <- <-. split; [reflexivity|]. split; [reflexivity|]. intros d' E. injection E as <-. symmetry. exact T.
  - left. injection H as <- <-. split; [reflexivity|]. split; [reflexivity|discriminate].
  - left. injection H as <- <-. split; [reflexivity|]. split; [reflexivity|discriminate].
Qed.

(** ** Documents *)
Lemma to_pdf_in_vera : forall pf, parse_font m vera_ttf = Ok pf -> forall o d,
  to_pdf o d = to_pdf_bytes round (pdf_font m addr pf) parse_color (ua_selector other) (ua_specificity other other_specificity)
    (ua_matches other other_matches) items_of rules_of (user_agent_css other) (glyph_id m pf) o d.
Proof. intros pf H o d. unfold document_to_pdf. rewrite H. reflexivity. Qed.
Theorem C74_displays : forall ops d, html5ever_calls ops -> run_ops document_new ops = Ok d -> clean_sheets_of d ->
  clean_attributes parse_color items_of d ->
  exists root s cs, displays d root s cs /\ forall root' s' cs', displays d root' s' cs' -> root' = root /\ s' = s /\ cs' = cs.
Proof.
  intros ops d (V & U8 & Rt) E Cs Ca.
  destruct (run_ops_doc ops document_new _ document_new_doc V) as (d' & kids & E' & Hf).
  assert (d' = d) as -> by congruence. clear E'.
  destruct (C38_style_elements ops d V E) as (_ & kids2 & texts & _ & Et & _).
  destruct (clean_sheets parse_color (ua_selector other) (map rules_of texts)) as (author & Ea).
  { apply Forall_forall. intros css I. apply in_map_iff in I as (t & <- & I). exact (Cs texts t Et I). }
  destruct (Rt d kids E (proj1 Hf)) as (l & root & r & Ek & He & Hi).
  pose proof (C39_root_element d kids l r root Hf Ek He Hi) as Er.
  set (style := style_for_element parse_color (ua_selector other) (ua_matches other other_matches) items_of
    (finish (ua_selector other) (ua_specificity other other_specificity) (ua_set other))
    (finish (ua_selector other) (ua_specificity other other_specificity) author) d).
  assert (St : forall n p, is_element (data (node_at d n)) -> exists s, style n p = Ok s).
  { intros n p H. destruct (data (node_at d n)) as [| | | |e|] eqn:De; cbn [is_element] in H; try contradiction.
    apply (C28_total _ _ _ _ _ _ d n e p); [exact (UserAgentProofs.in_range d n e De)|exact De|]. intros v i C F I. exact (Ca n e v i De C F I). }
  destruct (St root None He) as (s & Es). destruct (subtree_ex d kids root (proj1 Hf)) as ([root' ts] & R & Sub). cbn [DomSpec.root] in R. subst root'.
  assert (Utf : forall i t, data (node_at d i) = DText t -> exists cs, encodes t cs).
  { apply (run_texts (fun t => exists cs, encodes t cs) encodes_app ops document_new _ d document_new_doc V U8 E).
    intros i t H. exfalso. destruct i as [|[|i]]; try discriminate H. unfold node_at in H. rewrite nth_overflow in H by (cbn; lia). discriminate H. }
  destruct (C54_contents d style s ts Utf) as (cs & Sh & Un). { intros i p H. exact (St i (Some p) H). }
  exists root, s, cs. split.
  { exists kids, (ua_set other), texts, author, ts. split; [exact Hf|]. split; [apply ua_set_ok|]. auto 10. }
  intros root' s' cs' (kids' & ua' & texts' & author' & ts' & Hf' & Eu' & Et' & Ea' & Er' & Es' & Sub' & Sh').
  rewrite ua_set_ok in Eu'. injection Eu' as <-. rewrite Et in Et'. injection Et' as <-. rewrite Ea in Ea'. injection Ea' as <-.
  rewrite Er in Er'. injection Er' as <-. fold style in Es', Sh'. rewrite Es in Es'. injection Es' as <-.
  assert (X : T root ts = T root ts').
  { apply (subtree_same kids kids'); auto. apply (kids_unique d); [apply Hf|apply Hf']. }
  injection X as <-. split; [reflexivity|]. split; [reflexivity|]. symmetry. apply Un. exact Sh'.
Qed.
(** From the bytes of an HTML file to those of a PDF file: the program ends without a panic, and the same file is written however
    layout is scheduled, but for contents that cannot be built. *)
Theorem C74_document : forall self input output extra contents,
  fs_read input = inl contents -> html5ever_calls (html_calls contents) ->
  exists d, run_ops document_new (html_calls contents) = Ok d /\
    (clean_sheets_of d -> clean_attributes parse_color items_of d ->
     exists root s cs, displays d root s cs /\
       (((get s display_ = DisplayNone \/ ~ unbuildable cs) /\ exists file, forall o,
           run o (self :: input :: output :: extra) =
           ([Read input; Write output file], match fs_write output file with None => Success | Some e => Failure e end)) \/
        (get s display_ <> DisplayNone /\ unbuildable cs /\ forall o,
           run o (self :: input :: output :: extra) = ([Read input], Panicked)))).
Proof.
  intros self input output extra contents Hr H. destruct (C21_document_is_a_tree _ (proj1 H)) as (d & kids & E & _). exists d. split; [exact E|].
  intros Cs Ca. destruct (C74_displays _ d H E Cs Ca) as (root & s & cs & D & _). exists root, s, cs. split; [exact D|].
  destruct C71_parsed as (pf & Hp & _). specialize (Hp m).
  assert (Run : forall o, run o (self :: input :: output :: extra) = write_out fs_write input output (to_pdf o d)).
  { intros o. unfold victor_main. cbn [next]. rewrite Hr. unfold parse_html. rewrite E. reflexivity. }
  destruct (C54_document _ _ _ _ _ _ _ _ _ _ _ D) as [(Dn & _)|[(Nd & Nu & _)|(Nd & U & P)]].
  - left. split; [left; exact Dn|].
    destruct (C72_document parse_color _ _ _ items_of rules_of (user_agent_css other) m pf addr round Hp d root s cs D) as (frs & file & K); [contradiction|].
    exists file. intros o. rewrite Run, (to_pdf_in_vera pf Hp), (proj2 (K o)). reflexivity.
  - left. split; [right; exact Nu|].
    destruct (C72_document parse_color _ _ _ items_of rules_of (user_agent_css other) m pf addr round Hp d root s cs D) as (frs & file & K); [auto|].
    exists file. intros o. rewrite Run, (to_pdf_in_vera pf Hp), (proj2 (K o)). reflexivity.
  - right. split; [exact Nd|]. split; [exact U|]. intros o. rewrite Run, (to_pdf_in_vera pf Hp). unfold to_pdf_bytes. rewrite P. reflexivity.
Qed.
(** A value followed by something else, anywhere in a style sheet, and the program panics. *)
Theorem C74_trailing : forall o self input output extra contents d texts t sels body i,
  fs_read input = inl contents -> run_ops document_new (html_calls contents) = Ok d -> stylesheets d = Ok texts ->
  In t texts -> In (StyleRule sels body) (rules_of t) -> In i body -> trailing parse_color i ->
  run o (self :: input :: output :: extra) = ([Read input], Panicked).
Proof.
  intros o self input output extra contents d texts t sels body i Hr E Et It Is Ib Tr.
  unfold victor_main. cbn [next]. rewrite Hr. unfold parse_html. rewrite E. destruct C71_parsed as (pf & Hp & _).
  rewrite (to_pdf_in_vera pf (Hp m)). unfold to_pdf_bytes, box_tree_root_construct.
  unfold user_agent_stylesheet, parse_stylesheets.
  pose proof (ua_set_ok parse_color other) as Eu. cbn [add_stylesheets] in Eu.
  destruct (add_stylesheet parse_color (ua_selector other) [] (user_agent_css other)) as [x|e|]; [|destruct e|discriminate Eu]. cbn [bind] in Eu |- *.
  rewrite Et. cbn [bind].
  rewrite (dirty_sheets parse_color (ua_selector other) (map rules_of texts) [] (rules_of t) sels body i); [reflexivity| |exact Is|exact Ib|exact Tr].
  apply in_map. exact It.
Qed.
(** The text can be copied from the file. *)
Theorem C74_text : forall o self input output extra contents d root s cs pf file out, rounding round ->
  fs_read input = inl contents -> run_ops document_new (html_calls contents) = Ok d -> displays d root s cs ->
  parse_font m vera_ttf = Ok pf ->
  run o (self :: input :: output :: extra) = ([Read input; Write output file], out) ->
  (forall frs, laid_out (pdf_font m addr pf) parse_color (ua_selector other) (ua_specificity other other_specificity)
     (ua_matches other other_matches) items_of rules_of (user_agent_css other) (glyph_id m pf) d o frs ->
     Forall (drawable (pdf_font m addr pf)) (all_fragments frs)) ->
  (N.of_nat (length file) < 2 ^ 32)%N ->
  exists kids page rs ms t copied, read_document file = Some (kids, [page], rs) /\ paint rs (pv_contents page) = Some ms /\
    extracted file ms = Some copied /\ Forall2 (recovered (glyph_id m pf)) t copied /\ nonspace t = nonspace (document_order s cs).
Proof.
  intros o self input output extra contents d root s cs pf file out Hr R E D Hp Run Dr B.
  destruct (C71_embeddable m pf Hp addr) as (Em & Cn & Lg).
  assert (W : write_out fs_write input output (to_pdf o d) = ([Read input; Write output file], out)).
  { rewrite <- Run. unfold victor_main. cbn [next]. rewrite R. unfold parse_html. rewrite E. reflexivity. }
  rewrite (to_pdf_in_vera pf Hp) in W. remember (to_pdf_bytes _ _ _ _ _ _ _ _ _ _ o d) as pdf eqn:T.
  destruct pdf as [f|]; cbn [write_out] in W; [|discriminate W]. inversion W; subst f; clear W.
  assert (L : exists frs, laid_out (pdf_font m addr pf) parse_color (ua_selector other) (ua_specificity other other_specificity)
     (ua_matches other other_matches) items_of rules_of (user_agent_css other) (glyph_id m pf) d o frs).
  { symmetry in T. unfold to_pdf_bytes in T. destruct (box_tree_root_construct _ _ _ _ _ _ _ d) as [[boxes w]|e|] eqn:C; [|discriminate T|discriminate T].
    change (mkVec PAGE_WIDTH PAGE_HEIGHT) with (mkVec 600%Q 800%Q) in T.
    destruct (box_tree_root_layout _ _ o boxes (mkVec 600%Q 800%Q)) as [frs|] eqn:Lo; [|discriminate T]. exists frs, boxes, w. auto. }
  destruct L as (frs & L).
  exact (C72_extraction parse_color _ _ _ items_of rules_of (user_agent_css other) round (pdf_font m addr pf) (glyph_id m pf) Hr Cn Lg
    d root s cs o frs file D L (eq_sym T) (Dr frs L) B).
Qed.
End Program.
Print Assumptions C74_usage.
Print Assumptions C74_actions.
Print Assumptions C74_displays.
Print Assumptions C74_document.
Print Assumptions C74_trailing.
Print Assumptions C74_text.

(** ** Examples *)
(** [<html><head><style>p{}</style></head><body><p style=x>Hi é</p></body></html>], and the same with a section and no style *)
Definition main_ops : list sink_op :=
  [ CreateElement (h "html") [] false; Append 1 (AppendNode 2);
    CreateElement (h "head") [] false; Append 2 (AppendNode 3);
    CreateElement (h "style") [] false; Append 3 (AppendNode 4); Append 4 (AppendText (bs "p{}"));
    CreateElement (h "body") [] false; Append 2 (AppendNode 6);
    CreateElement (h "p") [at_ "style" "x"] false; Append 6 (AppendNode 7);
    Append 7 (AppendText (bs "Hi ")); Append 7 (AppendText [195; 169]%N) ].
Definition section_ops : list sink_op :=
  [ CreateElement (h "html") [] false; Append 1 (AppendNode 2);
    CreateElement (h "body") [] false; Append 2 (AppendNode 3);
    CreateElement (h "section") [] false; Append 3 (AppendNode 4);
    CreateElement (h "p") [] false; Append 4 (AppendNode 5); Append 5 (AppendText (bs "Hi")) ].
Definition main_doc : document := Eval vm_compute in match run_ops document_new main_ops with Ok d => d | _ => document_new end.
Definition section_doc : document := Eval vm_compute in match run_ops document_new section_ops with Ok d => d | _ => document_new end.
Lemma one_root : forall d kids x, in_forest d kids -> first_child (node_at d 1) = Some x -> next_sibling (node_at d x) = None ->
  kids document_node_id = [x].
Proof.
  intros d kids x (_ & Fl & _ & Sib & _) F N. destruct (Fl 1) as [F1 _]. rewrite F in F1. unfold document_node_id.
  destruct (kids 1) as [|y r] eqn:K; [discriminate F1|]. injection F1 as <-. destruct (Sib 1 [] x r K) as [_ S]. rewrite N in S.
  destruct r; [reflexivity|discriminate S].
Qed.
Lemma main_calls : html5ever_calls main_ops.
Proof.
  split; [|split].
  - unfold main_ops.
    repeat (first [apply vo_nil
      | vstep; [first [exact I | split; [bound|exact I] | split; [bound|split; [bound|split; [discriminate|nanc]]]]|] ]).
  - intros o t I. unfold main_ops in I. cbn [In] in I.
    repeat (destruct I as [<-|I]; [cbn [given_text In]; try contradiction|]); [| | |contradiction].
    + intros [<-|[]]. exists (bs "p{}"). split; [repeat constructor|reflexivity].
    + intros [<-|[]]. exists (bs "Hi "). split; [repeat constructor|reflexivity].
    + intros [<-|[]]. exists [233]%N. split; [repeat constructor|reflexivity].
  - intros d kids E F. assert (d = main_doc) as -> by (vm_compute in E; injection E as <-; reflexivity).
    exists [], 2, []. split; [apply (one_root main_doc kids 2 F); reflexivity|]. split; [exact I|intros y []].
Qed.
Lemma section_calls : html5ever_calls section_ops.
Proof.
  split; [|split].
  - unfold section_ops.
    repeat (first [apply vo_nil
      | vstep; [first [exact I | split; [bound|exact I] | split; [bound|split; [bound|split; [discriminate|nanc]]]]|] ]).
  - intros o t I. unfold section_ops in I. cbn [In] in I.
    repeat (destruct I as [<-|I]; [cbn [given_text In]; try contradiction|]); [|contradiction].
    intros [<-|[]]. exists (bs "Hi"). split; [repeat constructor|reflexivity].
  - intros d kids E F. assert (d = section_doc) as -> by (vm_compute in E; injection E as <-; reflexivity).
    exists [], 2, []. split; [apply (one_root section_doc kids 2 F); reflexivity|]. split; [exact I|intros y []].
Qed.
(** Parsers for the two pages and their style sheet *)
Definition main_html (b : bytes) : list sink_op := if bytes_eqb b (bs "section") then section_ops else main_ops.
Definition main_rules (t : bytes) : list (source_rule (ua_selector ex_selector)) :=
  if bytes_eqb t (bs "p{}") then [StyleRule [Other (bs "p", 1%N)] [Item (bs "color") [id_ "red"]; Item (bs "font-size") [px 20]]] else [].
Definition main_items (v : bytes) : list StyleCascade.item := if bytes_eqb v (bs "x") then [Item (bs "margin") [em 1; px 2]] else [].
Notation main_run o read write :=
  (victor_main main_html ex_color ex_selector snd ex_matches main_items main_rules print32 Release 0 o read write).
Notation main_construct := (box_tree_root_construct ex_color (ua_selector ex_selector) (ua_specificity ex_selector snd) (ua_matches ex_selector ex_matches)
  main_items main_rules (user_agent_css ex_selector)).
Lemma main_clean : clean_sheets_of ex_color ex_selector main_rules main_doc /\ clean_attributes ex_color main_items main_doc.
Proof.
  assert (X : forall l, parse_block ex_color l <> Panic -> forall i, In i l -> ~ trailing ex_color i).
  { intros l N i I T. apply N. apply C40_panics. eauto. }
  split.
  - intros ts t E I. vm_compute in E. injection E as <-. destruct I as [<-|[]]. intros sels body i R.
    vm_compute in R. destruct R as [R|[]]. injection R as <- <-. apply X. vm_compute. discriminate.
  - intros n e v i D C F. assert (n = 2 \/ n = 3 \/ n = 4 \/ n = 6 \/ n = 7) as Hn.
    { do 9 (destruct n as [|n]; [try discriminate D; auto 10|]). unfold node_at in D. rewrite nth_overflow in D by (cbn; lia). discriminate D. }
    assert (A : e_attrs e = [] \/ e_attrs e = [at_ "style" "x"])
      by (destruct Hn as [-> |[-> |[-> |[-> | ->]]]]; vm_compute in D; injection D as <-; auto).
    apply X. destruct A as [A|A]; rewrite A in F.
    + inversion F.
    + inversion F; subst; [vm_compute; discriminate|]. match goal with K : first_attr _ [] _ |- _ => inversion K end.
Qed.
Example C74_document_example : forall write, write (bs "o") = (fun _ => None) -> exists file, forall o,
  main_run o (fun _ => inl (bs "main")) write [bs "victor"; bs "i"; bs "o"; bs "x"] = ([Read (bs "i"); Write (bs "o") file], Success).
Proof.
  intros write Hw.
  destruct (C74_document main_html ex_color ex_selector snd ex_matches main_items main_rules print32 Release 0 (fun _ => inl (bs "main")) write
    (bs "victor") (bs "i") (bs "o") [bs "x"] (bs "main") eq_refl main_calls) as (d & E & H).
  assert (d = main_doc) as -> by (vm_compute in E; injection E as <-; reflexivity).
  destruct (H (proj1 main_clean) (proj2 main_clean)) as (root & s & cs & D & [(_ & file & K)|(Nd & U & _)]).
  - exists file. intros o. rewrite K, Hw. reflexivity.
  - exfalso. destruct (C54_document _ _ _ _ _ _ _ _ _ _ _ D) as [(Dn & _)|[(_ & Nu & _)|(_ & _ & P)]]; [contradiction..|].
    assert (Q : match main_construct main_doc with Panic => False | _ => True end) by (vm_compute; exact I).
    rewrite P in Q. exact Q.
Qed.
(** A page without any style of its own for which the program ends in a panic *)
Theorem C74_every_page_refuted : exists html contents,
  html5ever_calls (html contents) /\
  (forall d, run_ops document_new (html contents) = Ok d -> stylesheets d = Ok [] /\
     forall n e a, data (node_at d n) = DElement e -> In a (e_attrs e) -> False) /\
  forall o write, victor_main html ex_color ex_selector snd ex_matches main_items main_rules print32 Release 0 o (fun _ => inl contents) write
    [bs "victor"; bs "i"; bs "o"] = ([Read (bs "i")], Panicked).
Proof.
  exists main_html, (bs "section"). split; [exact section_calls|]. split.
  - intros d E. assert (d = section_doc) as -> by (vm_compute in E; injection E as <-; reflexivity). split; [reflexivity|].
    intros n e a D A. do 7 (destruct n as [|n]; [try discriminate D; vm_compute in D; injection D as <-; exact A|]).
    unfold node_at in D. rewrite nth_overflow in D by (cbn; lia). discriminate D.
  - intros o write. unfold victor_main. cbn [next]. unfold parse_html.
    assert (run_ops document_new (main_html (bs "section")) = Ok section_doc) as -> by reflexivity.
    destruct C71_parsed as (pf & Hp & _). rewrite (to_pdf_in_vera ex_color ex_selector snd ex_matches main_items main_rules print32 Release 0 pf (Hp Release) o section_doc). unfold to_pdf_bytes.
    assert (P : main_construct section_doc = Panic) by (vm_compute; reflexivity). rewrite P. reflexivity.
Qed.
(** What is displayed of the first page, and that it can be drawn *)
Fixpoint chain (d : document) (l : list nat) : bool :=
  match l with
  | [] => true
  | x :: r =>
      match next_sibling (node_at d x), r with None, [] => true | Some y, z :: _ => (y =? z) | _, _ => false end && chain d r
  end.
Lemma kids_links : forall d kids p l, in_forest d kids -> first_child (node_at d p) = hd_error l -> chain d l = true -> kids p = l.
Proof.
  intros d kids p l (_ & Fl & _ & Sib & _) F C. destruct (Fl p) as [F1 _]. rewrite F in F1. clear F Fl.
  assert (G : forall l pre rest, kids p = pre ++ rest -> hd_error l = hd_error rest -> chain d l = true -> rest = l).
  { clear l F1 C. induction l as [|x l IH]; intros pre rest K H C; cbn [hd_error] in H.
    - destruct rest; [reflexivity|discriminate H].
    - destruct rest as [|y rest]; [discriminate H|]. injection H as <-. f_equal. cbn [chain] in C. apply andb_true_iff in C as [C1 C2].
      destruct (Sib p pre x rest K) as [_ N]. apply (IH (pre ++ [x]) rest); [rewrite <- app_assoc; exact K| |exact C2].
      rewrite <- N. destruct (next_sibling (node_at d x)) as [y|], l as [|z l]; try discriminate C1; [|reflexivity].
      apply Nat.eqb_eq in C1. subst y. reflexivity. }
  exact (G l [] (kids p) eq_refl F1 C).
Qed.
Definition main_author : style_set (ua_selector ex_selector) :=
  match add_stylesheets ex_color (ua_selector ex_selector) [] (map main_rules [bs "p{}"]) with Ok s => s | _ => [] end.
Definition main_style : nat -> option computed_values -> Dom.result computed_values :=
  style_for_element ex_color (ua_selector ex_selector) (ua_matches ex_selector ex_matches) main_items
    (finish _ (ua_specificity ex_selector snd) (ua_set ex_selector)) (finish _ (ua_specificity ex_selector snd) main_author) main_doc.
Definition the_style (n : nat) (p : option computed_values) : computed_values :=
  match main_style n p with Ok c => c | _ => INITIAL_VALUES end.
Lemma main_style_ok : forall n p, match main_style n p with Ok _ => true | _ => false end = true -> main_style n p = Ok (the_style n p).
Proof. intros n p H. unfold the_style. destruct (main_style n p) as [c|e|]; [reflexivity|discriminate H|discriminate H]. Qed.
Definition html_style_ : computed_values := the_style 2 None.
Definition body_style_ : computed_values := the_style 6 (Some html_style_).
Definition p_style_ : computed_values := the_style 7 (Some body_style_).
Example C74_text_example : rounding print32 /\ exists s cs,
  displays ex_color (ua_selector ex_selector) (ua_specificity ex_selector snd) (ua_matches ex_selector ex_matches)
    main_items main_rules (user_agent_css ex_selector) main_doc 2 s cs /\ document_order s cs = bs "Hi " ++ [233]%N.
Proof.
  split; [exact print32_rounding|].
  exists html_style_, [CBox body_style_ 6 [CBox p_style_ 7 [CText p_style_ (bs "Hi " ++ [233]%N)]]]. split; [|vm_compute; reflexivity].
  destruct (run_ops_doc main_ops document_new _ document_new_doc (proj1 main_calls)) as (d & kids & E & Hf).
  assert (d = main_doc) as -> by (vm_compute in E; injection E as <-; reflexivity).
  exists kids, (ua_set ex_selector), [bs "p{}"], main_author, [T 3 [T 4 [T 5 []]]; T 6 [T 7 [T 8 []]]].
  split; [exact Hf|]. split; [apply ua_set_ok|]. split; [reflexivity|]. split; [reflexivity|]. split; [reflexivity|].
  split; [apply main_style_ok; vm_compute; reflexivity|]. split.
  - assert (K : forall i l, first_child (node_at main_doc i) = hd_error l -> chain main_doc l = true -> kids i = l)
      by (intros i l; exact (kids_links main_doc kids i l (proj1 Hf))).
    repeat first [apply Forall_nil | apply Forall_cons | apply st; [apply K; reflexivity|]].
  - apply (sh_none _ _ _ 3 _ _ (the_style 3 (Some html_style_))); [exact I|apply main_style_ok; vm_compute; reflexivity|vm_compute; reflexivity|].
    eapply (sh_box _ _ _ 6 _ _ body_style_); [exact I|apply main_style_ok; vm_compute; reflexivity|vm_compute; reflexivity| |constructor].
    eapply (sh_box _ _ _ 7 _ _ p_style_); [exact I|apply main_style_ok; vm_compute; reflexivity|vm_compute; reflexivity| |constructor].
    eapply sh_text; [reflexivity| |constructor]. split; [repeat constructor|reflexivity].
Qed.
Print Assumptions C74_every_page_refuted.
