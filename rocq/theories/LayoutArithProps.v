(** Property C75: layout and painting whatever the arithmetic *)
From Coq Require Import QArith Qabs.
From Verif Require Import PdfConvert LayoutProps Base Dom StyleValues StyleProperties StyleCascade StyleSpec StyleProps
  PdfObject PdfObjectSpec PdfConvertSpec PdfConvertProofs PdfPagesProofs Geom Text LayoutTree Layout LayoutSpec BoxTree BoxTreeSpec BoxShapeProofs BoxTreeProps InlineSpec
  Paint PaintSpec PaintProofs PaintTextProofs PaintProps LesterFloat Float32 Float32Print Float32PrintProofs
  Arith32 LayoutArith LayoutArithSpec LayoutArithProofs LayoutArithTextProofs LayoutArithPaintProofs.
Local Open Scope nat_scope.

(** ** Two arithmetics *)
(** With exact numbers it is the layout of the other files. *)
Theorem C75_exact : forall glyph_id glyph_width o root viewport,
  box_tree_root_layout_in exact glyph_id glyph_width o root viewport = box_tree_root_layout glyph_id glyph_width o root viewport.
Proof. exact exact_root. Qed.
Theorem C75_exact_document : forall round vera pc sel sp m io ro ua g o d,
  to_pdf_bytes_in exact round vera pc sel sp m io ro ua g o d = to_pdf_bytes round vera pc sel sp m io ro ua g o d.
Proof. exact exact_pdf. Qed.
Theorem C75_f32 : zero_ok f32 /\ zero_ok exact.
Proof. split; split; vm_compute; reflexivity. Qed.

(** ** Boxes *)
Section Boxes.
Variable ar : arith.
Variable glyph_id : N -> res font_error N.
Variable glyph_width : N -> res font_error Q.
Notation layout := (box_tree_root_layout_in ar glyph_id glyph_width).
(** Layout does not depend on how its parallel parts are scheduled. *)
Theorem C75_schedules : forall o o' root viewport, layout o root viewport = layout o' root viewport.
Proof. apply root_schedule. Qed.
(** It does not panic. *)
Theorem C75_no_panic : zero_ok ar -> (forall ch, exists id w, glyph_id ch = Ok id /\ glyph_width id = Ok w) ->
  forall o root viewport, displayed_context root -> exists frs, layout o root viewport = Some frs.
Proof. intros Z G o root viewport Hd. exact (root_total ar glyph_id glyph_width Z G o root viewport Hd). Qed.
(** Every text is as wide as its letters and 1.2 times as high as they are large, in that arithmetic. *)
Theorem C75_text_size : forall o root viewport frs, layout o root viewport = Some frs ->
  forall above s r t, In (above, FText s r t) (all_fragments frs) ->
  v_inline (size r) = a_mul ar (get s font_size) (advance_width t) /\ v_block (size r) = a_mul ar (get s font_size) (a_lit ar (12 # 10)%Q).
Proof.
  intros o root viewport frs L above s r t H. pose proof (root_sized ar _ _ _ _ _ _ L) as S. rewrite Forall_forall in S. specialize (S _ H).
  unfold sized, text_size in S. cbn [snd] in S. rewrite S. split; reflexivity.
Qed.
(** Its fragments are upright and have the text of the boxes, apart from spaces, in the same order. *)
Theorem C75_upright : forall o root viewport frs, layout o root viewport = Some frs -> Forall upright (all_fragments frs).
Proof. intros o root viewport frs L. apply all_upright. exact (proj1 (root_order ar _ _ _ _ _ _ L)). Qed.
Theorem C75_text : forall o root viewport frs, layout o root viewport = Some frs ->
  shows glyph_id (after (context_order root)) (flat_map glyphs_in frs).
Proof. intros o root viewport frs L. exact (proj2 (root_order ar _ _ _ _ _ _ L)). Qed.
End Boxes.

(** ** Documents *)
Section Sheets.
Variable ar : arith.
Variable round : Q -> dec.
Variable vera : font.
Variable parse_color : parser color.
Variable selector : Type.
Variable specificity : selector -> N.
Variable matches : selector -> document -> nat -> bool.
Variable items_of : bytes -> list StyleCascade.item.
Variable rules_of : bytes -> list (source_rule selector).
Variable user_agent : list (source_rule selector).
Variable glyph_id : N -> res font_error N.
Notation displays := (displays parse_color selector specificity matches items_of rules_of user_agent).
Notation construct_root := (box_tree_root_construct parse_color selector specificity matches items_of rules_of user_agent).
Notation to_pdf := (to_pdf_bytes_in ar round vera parse_color selector specificity matches items_of rules_of user_agent glyph_id).
(** A document becomes a file without a panic, the same one however layout is scheduled.  The glyphs asked
    for are those of the text of the document apart from spaces.  If what is asked for can be written then
    they are the glyphs on the only page of the file. *)
Theorem C75_document : zero_ok ar -> (forall ch, exists id w, glyph_id ch = Ok id /\ f_glyph_width vera id = Ok w) -> embeddable vera = true ->
  forall d root s cs, displays d root s cs -> (get s display_ <> DisplayNone -> ~ unbuildable cs) ->
  exists rs t, let file := doc_write (run [mkPH (round 600%Q) (round 800%Q) rs]) in
    (forall o, to_pdf o d = Some file) /\
    nonspace t = nonspace (document_order s cs) /\ Forall2 (fun ch g => glyph_id ch = Ok g) t (asked_glyphs rs) /\
    (moderate (round 600%Q) -> moderate (round 800%Q) -> Forall clean_request rs -> (N.of_nat (length file) < 2 ^ 32)%N ->
     exists kids page res ms, read_document file = Some (kids, [page], res) /\ paint res (pv_contents page) = Some ms /\
       shown_glyphs ms = Some (asked_glyphs rs)).
Proof.
  intros Z G Em d root s cs H U.
  assert (K : exists boxes w, construct_root d = Ok (boxes, w) /\ displayed_context boxes /\
            nonspace (after (context_order boxes)) = nonspace (document_order s cs)).
  { destruct (displays_boxes _ _ _ _ _ _ _ d root s cs H) as (Sd & [(Dn & E)|[(Nd & _ & c & boxes & f & w & E & Hc & Hr)|(Nd & Un & _)]]).
    - do 2 eexists. split; [exact E|]. split; [repeat constructor|]. unfold document_order. rewrite Dn. destruct (get s position_); reflexivity.
    - do 2 eexists. split; [exact E|]. split.
      + pose proof (proj1 (proj2 (proj2 boxes_displayed)) _ _ _ Hc Sd) as D.
        constructor. constructor. inversion Hr; subst; (constructor; [|constructor]); constructor; exact D.
      + exact (root_same s cs c boxes f Nd Hc Hr).
    - destruct (U Nd Un). }
  destruct K as (boxes & w & E & D & T).
  destruct (C75_no_panic ar glyph_id (f_glyph_width vera) Z G (fun _ => Sequential) boxes (mkVec PAGE_WIDTH PAGE_HEIGHT) D) as (frs & L).
  pose proof (root_order ar _ _ _ _ _ _ L) as [P (t & Lo & Sh)].
  exists (page_requests_in ar round vera frs), t. cbv zeta. split; [|split; [|split]].
  - intros o. unfold to_pdf_bytes_in. rewrite E.
    rewrite (C75_schedules ar glyph_id (f_glyph_width vera) o (fun _ => Sequential) boxes (mkVec PAGE_WIDTH PAGE_HEIGHT)), L.
    exact (pdf_bytes_in ar round vera Em frs P).
  - rewrite <- T. symmetry. exact (left_out_nonspace _ _ Lo).
  - rewrite page_requests_glyphs. exact Sh.
  - intros Hw Hh Hc Hl. exact (page_read vera Em _ _ _ Hw Hh Hc (requests_font ar round vera frs) Hl).
Qed.
End Sheets.

(** ** Examples and findings *)
Notation lay_f32 := (box_tree_root_layout_in f32 ex_glyph_id ex_glyph_width ex_oracle).
(** 3 * 2^126: the sum of two is more than [f32] can represent. *)
Definition huge : Q := 3 * pow2 126.
(** Text in a block with huge padding, in lines as wide as infinity is negative, between margins of 10% *)
Definition huge_style : computed_values := set padding_left (LpLength huge) (set padding_right (LpLength huge) plain).
Definition tenth_style : computed_values := set margin_left (LpaPercentage (1 # 10)) (set margin_right (LpaPercentage (1 # 10)) plain).
Definition huge_page : block_formatting_context := page [block huge_style [lines_block tenth_style]].
Fixpoint finite_fragments (f : fragment) : bool :=
  let finite r := forallb (fun q => negb (is_nan q) && negb (is_infinite q))
                    [v_inline (start_corner r); v_block (start_corner r); v_inline (size r); v_block (size r)] in
  match f with
  | FBox b l => finite (bf_content_rect b) && forallb finite_fragments l
  | FAnonymous r _ l => finite r && forallb finite_fragments l
  | FText _ r _ => finite r
  end.
Example C75_example : zero_ok f32 /\ (forall ch, exists id w, ex_glyph_id ch = Ok id /\ ex_glyph_width id = Ok w) /\
  displayed_context ex_page /\ displayed_context huge_page /\
  (exists frs, lay_f32 ex_page (mkVec 200 100)%Q = Some frs /\ forallb finite_fragments frs = true /\ flat_map glyphs_in frs = bs "ab cab cab c") /\
  (exists frs, lay_f32 huge_page (mkVec 200 100)%Q = Some frs /\ flat_map glyphs_in frs = bs "ab c").
Proof.
  split; [exact (proj1 C75_f32)|]. split; [exact ex_glyphs|]. split; [exact ex_page_displayed|]. split.
  - unfold huge_page, page, block, lines_block, a_text.
    repeat first [apply d_bfc|apply d_blocks|apply d_inlines|apply d_same|apply d_text|apply Forall_cons|apply Forall_nil].
  - split.
    + destruct (C75_no_panic f32 ex_glyph_id ex_glyph_width (proj1 C75_f32) ex_glyphs ex_oracle ex_page (mkVec 200 100)%Q ex_page_displayed) as (frs & E).
      assert (T : match lay_f32 ex_page (mkVec 200 100)%Q with Some frs => forallb finite_fragments frs && (if list_eq_dec N.eq_dec (flat_map glyphs_in frs) (bs "ab cab cab c") then true else false) | None => false end = true) by (vm_compute; reflexivity).
      rewrite E in T. exists frs. split; [exact E|]. apply Bool.andb_true_iff in T as [T1 T2]. split; [exact T1|].
      destruct (list_eq_dec N.eq_dec _ _) as [e|]; [exact e|discriminate T2].
    + assert (T : match lay_f32 huge_page (mkVec 200 100)%Q with Some frs => (if list_eq_dec N.eq_dec (flat_map glyphs_in frs) (bs "ab c") then true else false) | None => false end = true) by (vm_compute; reflexivity).
      destruct (lay_f32 huge_page (mkVec 200 100)%Q) as [frs|]; [|discriminate T]. exists frs. split; [reflexivity|].
      destruct (list_eq_dec N.eq_dec _ _) as [e|]; [exact e|discriminate T].
Qed.
(** *** Lengths in a style are finite but those of its fragment are not. *)
Definition first_width (o : option (list fragment)) : option Q :=
  match first_box o with Some b => Some (v_inline (size (bf_content_rect b))) | None => None end.
Definition inner_width (o : option (list fragment)) : option Q :=
  match o with Some (FBox _ (FBox b _ :: _) :: _) => Some (v_inline (size (bf_content_rect b))) | _ => None end.
Theorem C75_finite_refuted : exists root frs, displayed_context root /\ lay_f32 root (mkVec 200 100)%Q = Some frs /\
  first_width (Some frs) = Some (- infinity)%Q /\ inner_width (Some frs) = Some nan.
Proof.
  destruct C75_example as (Z & G & _ & D & _). destruct (C75_no_panic f32 ex_glyph_id ex_glyph_width Z G ex_oracle huge_page (mkVec 200 100)%Q D) as (frs & E).
  exists huge_page, frs. split; [exact D|]. split; [exact E|]. rewrite <- E. split; vm_compute; reflexivity.
Qed.
(** *** If zero were not equal to zero there would be panics. *)
Definition odd_arith : arith :=
  mkArith Qplus Qminus Qmult Qdiv Qopp Qminmax.Qmax Qminmax.Qmin (fun a b => negb (Qle_bool a b)) (fun a b => Qle_bool b a) (fun _ _ => false) (fun q => q).
Theorem C75_without_zero_refuted : exists ar root, displayed_context root /\
  (forall ch, exists id w, ex_glyph_id ch = Ok id /\ ex_glyph_width id = Ok w) /\
  box_tree_root_layout_in ar ex_glyph_id ex_glyph_width ex_oracle root (mkVec 200 100)%Q = None.
Proof. exists odd_arith, ex_page. split; [exact ex_page_displayed|]. split; [exact ex_glyphs|]. vm_compute. reflexivity. Qed.
(** A document: the requests of the one of C60, in [f32] *)
Definition ex_requests : list request := page_requests_in f32 ex_round ex_vera (match build_root (xml_doc paint_items) with
  | Ok (boxes, _) => match lay_f32 boxes (mkVec 600 800)%Q with Some frs => frs | None => [] end | _ => [] end).
(** What can be written, computed *)
Definition moderateb (d : dec) : bool :=
  forallb (fun x => (x <? 10)%N) (d_digits d) && negb (hd 1%N (d_digits d) =? 0)%N &&
  (Qeq_bool (dec_value d) 0 || (Qle_bool (1 # 100000) (Qabs (dec_value d)) && negb (Qle_bool (inject_Z (10 ^ 20)) (Qabs (dec_value d))))).
Lemma moderateb_ok : forall d, moderateb d = true -> moderate d.
Proof.
  intros d H. unfold moderateb in H. rewrite !Bool.andb_true_iff, Bool.orb_true_iff, !Bool.andb_true_iff, !Bool.negb_true_iff in H. destruct H as ((H1 & H2) & H3).
  split; [split|].
  - apply Forall_forall. intros x Hx. rewrite forallb_forall in H1. apply N.ltb_lt. auto.
  - apply N.eqb_neq. exact H2.
  - destruct H3 as [H3|[H3 H4]]; [left; apply dec_value_zero; apply Qeq_bool_iff; exact H3|right]. split; [apply Qle_bool_iff; exact H3|].
    destruct (Qlt_le_dec (Qabs (dec_value d)) (inject_Z (10 ^ 20))) as [L|L]; [exact L|]. apply Qle_bool_iff in L. congruence.
Qed.
Definition cleanb (r : request) : bool :=
  match r with
  | SetColor (r, g, b, a) => moderateb r && moderateb g && moderateb b && moderateb a
  | PaintRectangle x y w h => moderateb x && moderateb y && moderateb w && moderateb h
  | ShowText f gs fs x y => (f_addr f =? f_addr ex_vera)%N && forallb (fun g => (g <? 65536)%N) gs && moderateb fs && moderateb x && moderateb y
  end.
Lemma cleanb_ok : forall frs, forallb cleanb (page_requests_in f32 ex_round ex_vera frs) = true -> Forall clean_request (page_requests_in f32 ex_round ex_vera frs).
Proof.
  intros frs H. rewrite forallb_forall in H. apply Forall_forall. intros r Hr. pose proof (requests_font f32 ex_round ex_vera frs r Hr) as F. specialize (H r Hr).
  destruct r as [[[[r g] b] a]|x y w h|f gs fs x y]; cbn [cleanb clean_request] in *; rewrite !Bool.andb_true_iff in H.
  - destruct H as (((H1 & H2) & H3) & H4). auto using moderateb_ok.
  - destruct H as (((H1 & H2) & H3) & H4). auto using moderateb_ok.
  - destruct H as ((((_ & H1) & H2) & H3) & H4). subst f. split; [exact ex_clean_name|]. split; [|auto using moderateb_ok].
    apply Forall_forall. intros g Hg. rewrite forallb_forall in H1. apply N.ltb_lt. auto.
Qed.
Example C75_document_example :
  ex_displays (xml_doc paint_items) 2 (root_style (xml_doc paint_items)) (xml_shows paint_items) /\ ~ unbuildable (xml_shows paint_items) /\
  embeddable ex_vera = true /\ asked_glyphs ex_requests = bs "a cdb" /\
  moderate (ex_round 600%Q) /\ moderate (ex_round 800%Q) /\ Forall clean_request ex_requests /\
  document_order (root_style (xml_doc paint_items)) (xml_shows paint_items) = bs "a cdb".
Proof.
  destruct C60_document_example as (_ & E & D & U). split; [exact D|]. split; [exact U|]. split; [exact E|]. split; [vm_compute; reflexivity|].
  split; [apply moderateb_ok; vm_compute; reflexivity|]. split; [apply moderateb_ok; vm_compute; reflexivity|].
  split; [apply cleanb_ok; vm_compute; reflexivity|]. vm_compute. reflexivity.
Qed.
Print Assumptions C75_exact.
Print Assumptions C75_exact_document.
Print Assumptions C75_f32.
Print Assumptions C75_schedules.
Print Assumptions C75_no_panic.
Print Assumptions C75_text_size.
Print Assumptions C75_upright.
Print Assumptions C75_text.
Print Assumptions C75_document.
Print Assumptions C75_finite_refuted.
Print Assumptions C75_without_zero_refuted.
