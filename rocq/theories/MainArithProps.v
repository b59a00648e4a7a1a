(** Property C95: the program as a whole, and what does not show, in the arithmetic of the program *)
From Coq Require Import QArith Permutation Lia.
From Verif Require LesterFloat.
From Verif Require Import PdfObject PdfObjectSpec PdfConvert PdfConvertSpec LayoutProps Base Dom DomSpec DomProofs DomTreeProofs DomWalkProofs DomStyleProofs DomProps
  StyleValues StyleProperties StyleCascade StyleSpec StyleElementSpec StyleElementProofs StyleSelectors StyleSelectorProofs StyleProps UserAgent UserAgentSpec UserAgentProofs UserAgentProps
  Geom Text LayoutTree Layout LayoutSpec BoxTree BoxTreeSpec BoxTreeProofs BoxShapeProofs BoxTreeProps InlineSpec
  Paint PaintSpec Float32Print FontParsing FontCmap VeraFile VeraProofs VeraProps Main MainSpec MainProofs MainProps WhiteSpec WhiteProofs AlikeSpec AlikeDomProofs AlikeProofs AlikeProps
  RulesSpec RulesProofs RulesProps MarkupSpec MarkupProofs MarkupProps Arith32 LayoutArith LayoutArithSpec LayoutArithProofs LayoutArithProps MainArith.
Local Open Scope nat_scope.
Local Open Scope res_scope.

Section Program.
Variable ar : arith.
Variable html_calls : bytes -> list sink_op.
Variable parse_color : parser color.
Variable other : Type.
Variable other_specificity : other -> N.
Variable other_matches : other -> document -> nat -> bool.
Variable items_of : bytes -> list StyleCascade.item.
Variable rules_of : bytes -> list (source_rule (ua_selector other)).
Variable round : Q -> dec.
Variable m : build.
Variable addr : N.
Variable fs_read : path -> bytes + bytes.
Variable fs_write : path -> bytes -> option bytes.
Notation run o := (victor_main_in ar html_calls parse_color other other_specificity other_matches items_of rules_of round m addr o fs_read fs_write).
Notation to_pdf o := (document_to_pdf_rounded ar parse_color other other_specificity other_matches items_of rules_of round m addr o).
Notation displays := (displays parse_color (ua_selector other) (ua_specificity other other_specificity) (ua_matches other other_matches)
  items_of rules_of (user_agent_css other)).
Notation not_shown := (not_shown parse_color other other_specificity other_matches items_of rules_of).
Notation rules_in := (rules_in parse_color other rules_of).
Notation same_styling := (same_styling other other_specificity other_matches).

(** ** The program *)
Lemma rounded_in_vera : forall pf, parse_font m vera_ttf = Ok pf -> forall o d,
  to_pdf o d = to_pdf_bytes_in ar round (pdf_font m addr pf) parse_color (ua_selector other) (ua_specificity other other_specificity)
    (ua_matches other other_matches) items_of rules_of (user_agent_css other) (glyph_id m pf) o d.
Proof. intros pf H o d. unfold document_to_pdf_rounded. rewrite H. reflexivity. Qed.
Theorem C95_actions : forall o args acts out, run o args = (acts, out) ->
  (length args < 3 /\ acts = [] /\ out = Failure (bs "Usage: victor input.html output.pdf")) \/
  exists self input output extra, args = self :: input :: output :: extra /\
  ((exists e, fs_read input = inr e /\ acts = [Read input] /\ out = Failure e) \/
   exists contents, fs_read input = inl contents /\
    ((out = Panicked /\ acts = [Read input] /\
       forall d, run_ops document_new (html_calls contents) = Ok d -> to_pdf o d = None) \/
     exists d file, run_ops document_new (html_calls contents) = Ok d /\ to_pdf o d = Some file /\ acts = [Read input; Write output file] /\
       (fs_write output file = None -> out = Success) /\ forall e, fs_write output file = Some e -> out = Failure e)).
Proof.
  intros o args acts out H.
  destruct args as [|self [|input [|output extra]]]; [left; cbn [victor_main_in next] in H; injection H as <- <-; cbn [length]; split; [lia|split; reflexivity]..|].
  right. exists self, input, output, extra. split; [reflexivity|]. unfold victor_main_in in H. cbn [next] in H.
  destruct (fs_read input) as [contents|e] eqn:R; [right|left; injection H as <- <-; eauto].
  exists contents. split; [reflexivity|]. unfold parse_html in H.
  destruct (run_ops document_new (html_calls contents)) as [d|e|] eqn:P.
  - remember (to_pdf o d) as pdf eqn:T. destruct pdf as [file|]; cbn [write_out] in H.
    + right. exists d, file. split; [reflexivity|]. split; [symmetry; exact T|]. injection H as <- <-. split; [reflexivity|].
      split; [intros ->; reflexivity|intros e ->; reflexivity].
    + left. injection H as <- <-. split; [reflexivity|]. split; [reflexivity|]. intros d' E. injection E as <-. symmetry. exact T.
  - left. injection H as <- <-. split; [reflexivity|]. split; [reflexivity|discriminate].
  - left. injection H as <- <-. split; [reflexivity|]. split; [reflexivity|discriminate].
Qed.
(** From the bytes of an HTML file to those of a PDF file.  The glyphs asked for are those of the font for the text of the page, apart from
    spaces; if what is asked for can be written then they are the glyphs on the only page of the file. *)
Theorem C95_document : zero_ok ar -> forall self input output extra contents,
  fs_read input = inl contents -> html5ever_calls (html_calls contents) ->
  exists d, run_ops document_new (html_calls contents) = Ok d /\
    (clean_sheets_of parse_color other rules_of d -> clean_attributes parse_color items_of d ->
     exists root s cs, displays d root s cs /\
       (((get s display_ = DisplayNone \/ ~ unbuildable cs) /\ exists pf rs t,
           let file := doc_write (PdfConvert.run [mkPH (round 600%Q) (round 800%Q) rs]) in
           (forall o, run o (self :: input :: output :: extra) =
              ([Read input; Write output file], match fs_write output file with None => Success | Some e => Failure e end)) /\
           parse_font m vera_ttf = Ok pf /\ nonspace t = nonspace (document_order s cs) /\
           Forall2 (fun ch g => glyph_id m pf ch = Ok g) t (asked_glyphs rs) /\
           (moderate (round 600%Q) -> moderate (round 800%Q) -> Forall clean_request rs -> (N.of_nat (length file) < 2 ^ 32)%N ->
            exists kids page res ms, read_document file = Some (kids, [page], res) /\ paint res (pv_contents page) = Some ms /\
              shown_glyphs ms = Some (asked_glyphs rs))) \/
        (get s display_ <> DisplayNone /\ unbuildable cs /\ forall o,
           run o (self :: input :: output :: extra) = ([Read input], Panicked)))).
Proof.
  intros Z self input output extra contents Hr H. destruct (C21_document_is_a_tree _ (proj1 H)) as (d & kids & E & _). exists d. split; [exact E|].
  intros Cs Ca.
  destruct (C74_displays (fun _ => []) parse_color other other_specificity other_matches items_of rules_of (fun _ => inl []) (fun _ _ => None) _ d H E Cs Ca) as (root & s & cs & D & _).
  exists root, s, cs. split; [exact D|].
  destruct C71_parsed as (pf & Hp & _). specialize (Hp m).
  assert (Run : forall o, run o (self :: input :: output :: extra) = write_out fs_write input output (to_pdf o d)).
  { intros o. unfold victor_main_in. cbn [next]. rewrite Hr. unfold parse_html. rewrite E. reflexivity. }
  assert (G : forall ch, exists id w, glyph_id m pf ch = Ok id /\ f_glyph_width (pdf_font m addr pf) id = Ok w).
  { intros c. destruct (C71_glyphs m pf Hp c) as (g & w & _ & G & _ & W & _). exists g, w. split; [exact G|exact W]. }
  assert (K : (get s display_ <> DisplayNone -> ~ unbuildable cs) -> exists pf rs t,
           let file := doc_write (PdfConvert.run [mkPH (round 600%Q) (round 800%Q) rs]) in
           (forall o, run o (self :: input :: output :: extra) =
              ([Read input; Write output file], match fs_write output file with None => Success | Some e => Failure e end)) /\
           parse_font m vera_ttf = Ok pf /\ nonspace t = nonspace (document_order s cs) /\
           Forall2 (fun ch g => glyph_id m pf ch = Ok g) t (asked_glyphs rs) /\
           (moderate (round 600%Q) -> moderate (round 800%Q) -> Forall clean_request rs -> (N.of_nat (length file) < 2 ^ 32)%N ->
            exists kids page res ms, read_document file = Some (kids, [page], res) /\ paint res (pv_contents page) = Some ms /\
              shown_glyphs ms = Some (asked_glyphs rs))).
  { intros U. destruct (C75_document ar round (pdf_font m addr pf) parse_color (ua_selector other) (ua_specificity other other_specificity) (ua_matches other other_matches)
      items_of rules_of (user_agent_css other) (glyph_id m pf) Z G (proj1 (C71_embeddable m pf Hp addr)) d root s cs D U) as (rs & t & A & B & C & F).
    exists pf, rs, t. cbv zeta. split; [|auto]. intros o. rewrite Run, (rounded_in_vera pf Hp), (A o). reflexivity. }
  destruct (C54_document _ _ _ _ _ _ _ _ _ _ _ D) as [(Dn & _)|[(Nd & Nu & _)|(Nd & U & P)]].
  - left. split; [left; exact Dn|]. apply K. contradiction.
  - left. split; [right; exact Nu|]. apply K. auto.
  - right. split; [exact Nd|]. split; [exact U|]. intros o. rewrite Run, (rounded_in_vera pf Hp). unfold to_pdf_bytes_in. rewrite P. reflexivity.
Qed.

(** ** What does not show *)
Theorem C95_page : through_interface other_matches -> forall hidden d d' root root' s cs,
  documents_alike hidden d d' -> (forall x x', hidden x x' -> not_shown d x) -> displays d root s cs -> root_element d' = Ok root' ->
  (forall i t, data (node_at d' i) = DText t -> exists u, encodes t u) ->
  forall o, to_pdf o d = to_pdf o d'.
Proof.
  intros Hi hidden d d' root root' s cs Al Ns D Er' Hu o. unfold document_to_pdf_rounded, document_to_pdf_with.
  destruct (parse_font m vera_ttf) as [pf|e|]; [|reflexivity|reflexivity]. unfold to_pdf_bytes_in.
  destruct (C88_boxes parse_color other other_specificity other_matches items_of rules_of Hi hidden d d' root root' s cs Al Ns D Er' Hu)
    as [(b & w & w' & -> & ->)|(-> & ->)]; reflexivity.
Qed.
(** Comments and such, and elements that are not displayed (C87, C88) *)
Theorem C95_alike : through_interface other_matches -> forall hidden ops ops' d d',
  html5ever_calls ops -> html5ever_calls ops' -> run_ops document_new ops = Ok d -> run_ops document_new ops' = Ok d' ->
  clean_sheets_of parse_color other rules_of d -> clean_attributes parse_color items_of d ->
  documents_alike hidden d d' -> (forall x x', hidden x x' -> not_shown d x) -> forall o, to_pdf o d = to_pdf o d'.
Proof.
  intros Hi hidden ops ops' d d' H H' E E' Cs Ca Al Ns.
  destruct (C74_displays (fun _ => []) parse_color other other_specificity other_matches items_of rules_of (fun _ => inl []) (fun _ _ => None) ops d H E Cs Ca) as (root & s & cs & D & _).
  destruct (html_root ops' d' H' E') as (root' & Er'). exact (C95_page Hi hidden d d' root root' s cs Al Ns D Er' (html_texts ops' d' H' E')).
Qed.
(** Declarations that do not lead (C89) *)
Theorem C95_rules : through_interface other_matches -> forall hidden ops ops' d d' rules rules',
  html5ever_calls ops -> html5ever_calls ops' -> run_ops document_new ops = Ok d -> run_ops document_new ops' = Ok d' ->
  clean_attributes parse_color items_of d -> rules_in d rules -> rules_in d' rules' ->
  elements_alike hidden d d' -> (forall x x', hidden x x' -> not_shown d x) -> same_styling d rules rules' ->
  forall o, to_pdf o d = to_pdf o d'.
Proof.
  intros Hi hidden ops ops' d d' rules rules' H H' E E' Ca R R' Al Ns Ss o.
  assert (Cs : clean_sheets_of parse_color other rules_of d).
  { destruct R as (texts & outs & Et & Ho & _). intros ts t Et2 It sels body i Ir Ii T. assert (ts = texts) as -> by congruence. clear Et Et2.
    assert (Em : exists out, sheet_means parse_color (rules_of t) out).
    { clear - Ho It. revert outs Ho. induction texts as [|u texts IH]; intros outs Ho; [destruct It|]. inversion Ho as [|? out ? outs' M Ms]; subst.
      destruct It as [->|It]; [eauto|exact (IH It outs' Ms)]. }
    destruct Em as (out & M). revert Ir. induction M as [|sels' body' r ds out Bm M IH|r out M IH]; intros Ir; [destruct Ir| |].
    - destruct Ir as [Ir|Ir]; [|exact (IH Ir)]. injection Ir as -> ->. destruct (C40_blocks _ _ _ Bm) as (b & Eb & _).
      assert (P : parse_block parse_color body = Panic) by (apply C40_panics; eauto). congruence.
    - destruct Ir as [Ir|Ir]; [discriminate Ir|exact (IH Ir)]. }
  destruct (C74_displays (fun _ => []) parse_color other other_specificity other_matches items_of rules_of (fun _ => inl []) (fun _ _ => None) ops d H E Cs Ca) as (root & s & cs & D & _).
  destruct (html_root ops' d' H' E') as (root' & Er'). unfold document_to_pdf_rounded, document_to_pdf_with.
  destruct (parse_font m vera_ttf) as [pf|e|]; [|reflexivity|reflexivity]. unfold to_pdf_bytes_in.
  destruct (C89_boxes parse_color other other_specificity other_matches items_of rules_of Hi hidden d d' rules rules' root root' s cs Al Ns R R' Ss D Er' (html_texts ops' d' H' E'))
    as [(b & w & w' & -> & ->)|(-> & ->)]; reflexivity.
Qed.
(** The order of attributes, and prefixes (C93) *)
Theorem C95_markup : through_interface other_matches -> forall ops ops' d, html5ever_calls ops -> calls_alike ops ops' -> run_ops document_new ops = Ok d ->
  clean_sheets_of parse_color other rules_of d -> clean_attributes parse_color items_of d ->
  exists d', run_ops document_new ops' = Ok d' /\ forall o, to_pdf o d' = to_pdf o d.
Proof.
  intros Hi ops ops' d H C E Cs Ca. destruct (C93_documents ops ops' d C (proj1 H) E) as (d' & E' & Al).
  exists d'. split; [exact E'|]. intros o. symmetry.
  exact (C95_alike Hi none_hidden ops ops' d d' H (C93_calls ops ops' C H) E E' Cs Ca Al (none_shown parse_color other other_specificity other_matches items_of rules_of d) o).
Qed.
End Program.
(** With exact numbers it is the program of Main.v. *)
Theorem C95_exact : forall html_calls parse_color other osp om items_of rules_of round m addr o fs_read fs_write args,
  victor_main_in exact html_calls parse_color other osp om items_of rules_of round m addr o fs_read fs_write args =
  victor_main html_calls parse_color other osp om items_of rules_of round m addr o fs_read fs_write args.
Proof.
  intros. unfold victor_main_in, victor_main. destruct args as [|self [|input [|output extra]]]; cbn [next]; [reflexivity..|].
  destruct (fs_read input) as [contents|e]; [|reflexivity]. destruct (parse_html html_calls contents) as [d|e|]; [|reflexivity..].
  unfold document_to_pdf_rounded, document_to_pdf. destruct (parse_font m vera_ttf) as [pf|e|]; [|reflexivity..].
  cbn [document_to_pdf_with document_to_pdf_in]. rewrite C75_exact_document. reflexivity.
Qed.
Print Assumptions C95_actions.
Print Assumptions C95_document.
Print Assumptions C95_page.
Print Assumptions C95_alike.
Print Assumptions C95_rules.
Print Assumptions C95_markup.
Print Assumptions C95_exact.

(** ** Examples: the pages of C74, C88, C89 and C93 with [f32] *)
Notation main_run_f32 o read write :=
  (victor_main_in f32 main_html ex_color ex_selector snd ex_matches main_items main_rules print32 Release 0 o read write).
Example C95_document_example : forall write, write (bs "o") = (fun _ => None) -> exists file, forall o,
  main_run_f32 o (fun _ => inl (bs "main")) write [bs "victor"; bs "i"; bs "o"; bs "x"] = ([Read (bs "i"); Write (bs "o") file], Success).
Proof.
  intros write Hw.
  destruct (C95_document f32 main_html ex_color ex_selector snd ex_matches main_items main_rules print32 Release 0 (fun _ => inl (bs "main")) write (proj1 C75_f32)
    (bs "victor") (bs "i") (bs "o") [bs "x"] (bs "main") eq_refl main_calls) as (d & E & H).
  assert (d = main_doc) as -> by (vm_compute in E; injection E as <-; reflexivity).
  destruct (H (proj1 main_clean) (proj2 main_clean)) as (root & s & cs & D & [(_ & pf & rs & t & K & _)|(Nd & U & _)]).
  - exists (doc_write (PdfConvert.run [mkPH (print32 600%Q) (print32 800%Q) rs])). intros o. rewrite K, Hw. reflexivity.
  - exfalso. destruct (C54_document _ _ _ _ _ _ _ _ _ _ _ D) as [(Dn & _)|[(_ & Nu & _)|(_ & _ & P)]]; [contradiction..|].
    assert (Q : match main_construct main_doc with Panic => False | _ => True end) by (vm_compute; exact I).
    rewrite P in Q. exact Q.
Qed.
Example C95_actions_example : main_run_f32 (fun _ => Sequential) (fun _ => inr (bs "not found")) (fun _ _ => None) [bs "victor"; bs "i"; bs "o"] = ([Read (bs "i")], Failure (bs "not found")) /\
  main_run_f32 (fun _ => Sequential) (fun _ => inl []) (fun _ _ => None) [bs "victor"; bs "i"] = ([], Failure (bs "Usage: victor input.html output.pdf")).
Proof. split; reflexivity. Qed.
Example C95_alike_example : forall o,
  document_to_pdf_rounded f32 ex_color pair_selector (fun _ => 2%N) pair_matches main_items pair_rules print32 Release 0 o comment_doc =
  document_to_pdf_rounded f32 ex_color pair_selector (fun _ => 2%N) pair_matches main_items pair_rules print32 Release 0 o titled_doc.
Proof.
  intros o.
  apply (C95_alike f32 ex_color pair_selector (fun _ => 2%N) pair_matches main_items pair_rules print32 Release 0 pair_through heads comment_ops titled_ops comment_doc titled_doc
    comment_calls titled_calls eq_refl eq_refl (proj1 comment_clean) (proj2 comment_clean) titled_alike heads_not_shown o).
Qed.
Example C95_rules_example : forall o,
  document_to_pdf_rounded f32 ex_color pair_selector (fun _ => 2%N) pair_matches main_items two_rules print32 Release 0 o long_doc =
  document_to_pdf_rounded f32 ex_color pair_selector (fun _ => 2%N) pair_matches main_items two_rules print32 Release 0 o short_doc.
Proof.
  intros o. apply (C95_rules f32 ex_color pair_selector (fun _ => 2%N) pair_matches main_items two_rules print32 Release 0 pair_through styled_heads long_ops short_ops long_doc short_doc
    long_rules short_rules long_calls short_calls eq_refl eq_refl long_clean long_in short_in long_alike styled_heads_not_shown long_short o).
Qed.
Example C95_markup_example : exists d', run_ops document_new other_tags_ops = Ok d' /\ forall o,
  document_to_pdf_rounded f32 ex_color pair_selector (fun _ => 2%N) pair_matches main_items pair_rules print32 Release 0 o d' =
  document_to_pdf_rounded f32 ex_color pair_selector (fun _ => 2%N) pair_matches main_items pair_rules print32 Release 0 o tags_doc.
Proof.
  exact (C95_markup f32 ex_color pair_selector (fun _ => 2%N) pair_matches main_items pair_rules print32 Release 0 pair_through tags_ops other_tags_ops tags_doc
    tags_calls tags_alike eq_refl (proj1 tags_clean) (proj2 tags_clean)).
Qed.
