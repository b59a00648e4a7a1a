(** Properties C71 and C72: the font that is part of the program, and copying text from files made with it *)
From Coq Require Import QArith Sorted Lia.
From Verif Require LesterFloat.
From Verif Require Import PdfConvert LayoutProps Base Dom StyleValues StyleProperties StyleCascade StyleSpec StyleProps
  PdfObject PdfObjectSpec PdfConvertSpec Geom Text LayoutTree Layout LayoutSpec BoxTree BoxTreeSpec BoxTreeProps InlineSpec
  Paint PaintSpec PaintProps Float32 Float32Proofs Float32Print Float32PrintProofs
  FontParsing FontCmap FontSpec FontProofs FontCmapProofs FontProps VeraFile VeraProofs ExtractSpec ExtractProofs.
Local Open Scope N_scope.

(** ** C71 *)
(** In both builds Vera.ttf is parsed, with this name and these sizes. *)
Theorem C71_parsed : exists pf, (forall m, parse_font m vera_ttf = Ok pf) /\ pf_bytes pf = vera_ttf /\
  pf_name pf = bs "BitstreamVeraSans-Roman" /\ pf_glyph_count pf = 268 /\ pf_units_per_em pf = 2048 /\
  (pf_ascender pf, pf_descender pf) = (1901, -483)%Z /\
  (pf_min_x pf, pf_min_y pf, pf_max_x pf, pf_max_y pf) = (-375, -483, 2636, 1901)%Z.
Proof.
  destruct (vera_parsed Debug) as (pf & E & Hb & _ & _ & Hu & Hc & Hn & Ha & Hx). exists pf.
  split; [|split; [exact Hb|split; [exact Hn|split; [exact Hc|split; [exact Hu|split; [exact Ha|exact Hx]]]]]].
  intros m. destruct m; [exact E|]. destruct (proj1 C36_debug_agrees vera_ttf) as [P|P]; congruence.
Qed.
Print Assumptions C71_parsed.
Section Font.
Variable m : build.
Variable pf : parsed_font.
Hypothesis H : parse_font m vera_ttf = Ok pf.
Lemma as_vera : pf_bytes pf = vera_ttf /\ parsed_as_vera pf.
Proof. destruct (vera_parsed m) as (pf' & E & Hb & Hv). rewrite H in E. injection E as ->. auto. Qed.
(** Every character has one of the 268 glyphs, and a width that is its advance in the file without rounding. *)
Theorem C71_glyphs : forall c, exists g w advance, glyph_id m pf c = Ok g /\ g < 268 /\ glyph_width m pf g = Ok w /\
  u16_at vera_ttf (46276 + 4 * g) = Some advance /\ (w == inject_Z (Z.of_N advance) / 2048)%Q.
Proof.
  intros c. destruct as_vera as [Hb Hv]. destruct (vera_glyph_id m pf Hb Hv c) as (g & _ & B & G).
  destruct (vera_glyph_width m pf Hb Hv g) as (w & A & W). replace (N.min g 267) with g in A by lia.
  exists g, (to_ems pf (Z.of_N w)), w. split; [exact G|]. split; [exact B|]. split; [exact W|]. split; [exact A|].
  destruct Hv as (_ & _ & Hu & _). unfold to_ems. rewrite Hu.
  assert (L : w < 65536) by (apply (u16_at_bound _ _ _ vera_wf A)).
  assert (V : ((Z.of_N w # 2048) == inject_Z (Z.of_N w) * LesterFloat.pow2 (-11))%Q) by (unfold Qeq, Qmult, inject_Z, LesterFloat.pow2; cbn; lia).
  rewrite (round32_comp _ _ V), round32_exact by lia. rewrite <- V. unfold Qeq, Qdiv, Qmult, Qinv, inject_Z. cbn. lia.
Qed.
(** The font has 256 characters, among them all of ASCII that can be seen, each with a glyph of its own. *)
Theorem C71_characters : exists calls, each_code_point m pf = Ok calls /\ length calls = 256%nat /\
  (forall c g, In (c, g) calls <-> scalar c /\ g <> 0 /\ glyph_id m pf c = Ok g) /\
  (forall c, 32 <= c <= 126 -> In (c, c - 29) calls) /\
  (forall c c' g, In (c, g) calls -> In (c', g) calls -> c = c').
Proof.
  destruct as_vera as [Hb Hv]. destruct (vera_code_points m pf Hb Hv) as (calls & E & S & I). exists calls. split; [exact E|].
  assert (G : forall c g, glyph_id m pf c = Ok g <-> lookup4 vera_ttf vera_segments c = Some g).
  { intros c g. destruct (vera_glyph_id m pf Hb Hv c) as (g' & L & _ & R). rewrite L, R. split; congruence. }
  assert (One : forall c c' g, In (c, g) calls -> In (c', g) calls -> c = c').
  { intros c c' g Hc Hc'. apply I in Hc as (_ & Hz & Hc). apply I in Hc' as (_ & _ & Hc'). rewrite G in Hc, Hc'. exact (vera_one_to_one c c' g Hc Hc' Hz). }
  split; [|split; [exact I|split; [|exact One]]].
  - assert (D : NoDup calls).
    { clear - S. apply (NoDup_map_inv fst). induction S as [|a l S IH F]; [constructor|]. constructor; [|exact IH]. intros K.
      rewrite Forall_forall in F. specialize (F a K). lia. }
    pose proof glyph_pairs_checked as K. apply pair_equal_spec in K as [K N]. apply andb_true_iff in K as [K _].
    assert (D2 : NoDup glyph_pairs).
    { clear - K. induction glyph_pairs as [|[c g] l IH]; [constructor|]. cbn [distinct_glyphs] in K. apply andb_true_iff in K as [K1 K2].
      constructor; [|exact (IH K2)]. intros Hi. rewrite forallb_forall in K1. specialize (K1 _ Hi). cbn [snd] in K1. rewrite N.eqb_refl in K1. discriminate K1. }
    apply Nat.le_antisymm; rewrite <- N; apply NoDup_incl_length; auto.
    + intros [c g] Hc. apply I in Hc as (_ & Hz & Hc). apply G in Hc. exact (glyph_pairs_in c g Hc Hz).
    + intros [c g] Hc. apply I.
      destruct (glyph_pairs_lookup c g Hc) as (Hs & Hz & L). rewrite G. auto.
  - intros c Hc. apply I. split; [left; lia|]. split; [lia|]. apply G. apply vera_ascii. exact Hc.
Qed.

(** The font can be embedded, under a name that is written as it is, and text in it can be copied. *)
Theorem C71_embeddable : forall addr,
  embeddable (pdf_font m addr pf) = true /\ clean_name (f_name (pdf_font m addr pf)) /\ legible (glyph_id m pf) (pdf_font m addr pf).
Proof.
  intros addr. destruct as_vera as [Hb Hv]. split; [exact (vera_embeddable m pf Hb Hv addr)|]. split; [exact (vera_clean_name pf Hv)|].
  destruct (vera_code_points m pf Hb Hv) as (calls & E & S & I).
  assert (Ec : f_code_points (pdf_font m addr pf) = calls) by (unfold pdf_font; cbn [f_code_points]; rewrite E; reflexivity).
  assert (G : forall c g, glyph_id m pf c = Ok g -> lookup4 vera_ttf vera_segments c = Some g).
  { intros c g Hg. destruct (vera_glyph_id m pf Hb Hv c) as (g' & L & _ & R). rewrite L. congruence. }
  unfold legible. rewrite Ec. split; [|split; [|split; [|split]]].
  - clear - S. apply (NoDup_map_inv fst). induction S as [|a l S IH F]; [constructor|]. constructor; [|exact IH]. intros K.
    rewrite Forall_forall in F. specialize (F a K). lia.
  - intros c. destruct (vera_glyph_id m pf Hb Hv c) as (g & _ & B & R). exists g. split; [exact R|]. lia.
  - exact I.
  - intros c g Hg Hz. exact (proj1 (glyph_pairs_lookup c g (glyph_pairs_in c g (G c g Hg) Hz))).
  - intros c c' g Hc Hc' Hz. exact (vera_one_to_one c c' g (G c g Hc) (G c' g Hc') Hz).
Qed.
End Font.
Print Assumptions C71_glyphs.
Print Assumptions C71_characters.
Print Assumptions C71_embeddable.

(** ** C72 *)
Section Sheets.
Variable parse_color : parser color.
Variable selector : Type.
Variable specificity : selector -> N.
Variable matches : selector -> document -> nat -> bool.
Variable items_of : bytes -> list StyleCascade.item.
Variable rules_of : bytes -> list (source_rule selector).
Variable user_agent : list (source_rule selector).
Notation displays := (displays parse_color selector specificity matches items_of rules_of user_agent).
(** The text copied from the page of a document is the text of the document, but for white space, floats, and characters
    that the font does not have; each of the others is copied as itself. *)
Theorem C72_extraction : forall round vera glyph_id, rounding round -> clean_name (f_name vera) -> legible glyph_id vera ->
  forall d root s cs o frs file, displays d root s cs ->
  laid_out vera parse_color selector specificity matches items_of rules_of user_agent glyph_id d o frs ->
  to_pdf_bytes round vera parse_color selector specificity matches items_of rules_of user_agent glyph_id o d = Some file ->
  Forall (drawable vera) (all_fragments frs) -> (N.of_nat (length file) < 2 ^ 32)%N ->
  exists kids page rs ms t copied, read_document file = Some (kids, [page], rs) /\ paint rs (pv_contents page) = Some ms /\
    extracted file ms = Some copied /\ Forall2 (recovered glyph_id) t copied /\ nonspace t = nonspace (document_order s cs).
Proof.
  intros round vera glyph_id Hr Hn Hl d root s cs o frs file Hd L E Dr B.
  destruct (C61_file round vera _ _ _ _ _ _ _ glyph_id Hr Hn d root s cs o frs file Hd L E Dr B)
    as (kids & page & rs & ms & t & gs & width & R & P & S & G & Sh & O).
  destruct (extracted_marks glyph_id vera Hl file frs ms S) as (gs' & G' & X). rewrite G in G'. injection G' as <-.
  exists kids, page, rs, ms, t, (map (characters_of (f_code_points vera)) gs).
  split; [exact R|]. split; [exact P|]. split; [exact X|]. split; [|exact O]. exact (recovered_shapes glyph_id vera Hl _ _ _ _ Sh).
Qed.
(** With Vera.ttf a file is written for each document that is not of the kind that cannot be built, the same for every schedule. *)
Theorem C72_document : forall m pf addr round, parse_font m vera_ttf = Ok pf ->
  forall d root s cs, displays d root s cs -> (get s display_ <> DisplayNone -> ~ unbuildable cs) ->
  exists frs file, forall o,
    laid_out (pdf_font m addr pf) parse_color selector specificity matches items_of rules_of user_agent (glyph_id m pf) d o frs /\
    to_pdf_bytes round (pdf_font m addr pf) parse_color selector specificity matches items_of rules_of user_agent (glyph_id m pf) o d = Some file.
Proof.
  intros m pf addr round H d root s cs Hd U.
  destruct (C60_document round (pdf_font m addr pf) parse_color selector specificity matches items_of rules_of user_agent (glyph_id m pf)) with (d := d) (root := root) (s := s) (cs := cs)
    as (frs & file & _ & K); auto.
  - intros c. destruct (C71_glyphs m pf H c) as (g & w & _ & G & _ & W & _). exists g, w. split; [exact G|exact W].
  - apply (C71_embeddable m pf H addr).
  - exists frs, file. exact K.
Qed.
End Sheets.
Print Assumptions C72_extraction.
Print Assumptions C72_document.

(** ** Examples *)
(** The letter A, a ligature, and a character that the font does not have *)
Example C71_example : exists pf, parse_font Debug vera_ttf = Ok pf /\ glyph_id Debug pf 65 = Ok 36 /\
  (forall w, glyph_width Debug pf 36 = Ok w -> (w == 1401 # 2048)%Q) /\ glyph_id Debug pf 64257 = Ok 192 /\ glyph_id Debug pf 24859 = Ok 0.
Proof.
  destruct (vera_parsed Debug) as (pf & E & Hb & Hv). exists pf. split; [exact E|].
  assert (G : forall c g, lookup4 vera_ttf vera_segments c = Some g -> glyph_id Debug pf c = Ok g).
  { intros c g L. destruct (vera_glyph_id Debug pf Hb Hv c) as (g' & L' & _ & R). congruence. }
  split; [apply G, vera_ascii; lia|]. split; [|split; apply G; rewrite tail_lookup; vm_compute; reflexivity].
  intros w W. destruct (C71_glyphs Debug pf E 65) as (g & w' & a & G1 & _ & G2 & A & Q). rewrite (G 65 36) in G1 by (apply vera_ascii; lia).
  injection G1 as <-. rewrite W in G2. injection G2 as <-. assert (A' : u16_at vera_ttf (46276 + 4 * 36) = Some 1401) by (vm_compute; reflexivity).
  rewrite A' in A. injection A as <-. rewrite Q. reflexivity.
Qed.
(** A font with five characters, and [<div><p>a<a>b</a> zc</p><f>x</f><g>d</g></div>] *)
Definition five (c : N) : res font_error N := Ok (if (c =? 32) || (97 <=? c) && (c <=? 100) then c else 0).
Example five_legible : legible five ex_vera.
Proof.
  split; [repeat constructor; cbn [In]; intuition congruence|].
  assert (F : forall c, five c = Ok c /\ (c = 32 \/ 97 <= c <= 100) \/ five c = Ok 0 /\ ~ (c = 32 \/ 97 <= c <= 100)).
  { intros c. unfold five. destruct (N.eqb_spec c 32), (N.leb_spec 97 c), (N.leb_spec c 100); cbn [andb orb]; (left; split; [reflexivity|lia]) || (right; split; [reflexivity|lia]). }
  split; [|split; [|split]].
  - intros c. destruct (F c) as [[E H]|[E H]]; eexists; (split; [exact E|lia]).
  - intros c g. cbn [ex_vera f_code_points In]. destruct (F c) as [[E H]|[E H]]; rewrite E; split.
    + intros K. assert (g = c) by (intuition congruence). subst g. split; [left; lia|]. split; [lia|reflexivity].
    + intros (_ & _ & K). injection K as <-. assert (X : c = 32 \/ c = 97 \/ c = 98 \/ c = 99 \/ c = 100) by lia. intuition congruence.
    + intros K. exfalso. apply H. assert (X : c = 32 \/ c = 97 \/ c = 98 \/ c = 99 \/ c = 100) by intuition congruence. lia.
    + intros (_ & K & K2). congruence.
  - intros c g. destruct (F c) as [[E H]|[E H]]; rewrite E; intros K Hz; [|congruence]. left. lia.
  - intros c c' g. destruct (F c) as [[E H]|[E H]], (F c') as [[E' H']|[E' H']]; rewrite E, E'; congruence.
Qed.
Definition copy_items : list DomXmlSpec.item :=
  [el "div" [el "p" [tx "a"; el "a" [tx "b"]; tx " zc"]; el "f" [tx "x"]; el "g" [tx "d"]]].
Definition copy_fragments : list fragment :=
  match build_root (xml_doc copy_items) with
  | Ok (boxes, _) => match box_tree_root_layout five ex_glyph_width ex_oracle boxes (mkVec 600%Q 800%Q) with Some frs => frs | None => [] end
  | _ => []
  end.
Definition copied (file : bytes) : option (list (list N)) :=
  match read_document file with
  | Some (_, [page], rs) => match paint rs (pv_contents page) with Some ms => extracted file ms | None => None end
  | _ => None
  end.
Example C72_example :
  rounding ex_round /\ clean_name (f_name ex_vera) /\ legible five ex_vera /\
  displays ex_color ex_selector snd ex_matches no_items no_rules box_ua (xml_doc copy_items) 2 (root_style (xml_doc copy_items)) (xml_shows copy_items) /\
  laid_out ex_vera ex_color ex_selector snd ex_matches no_items no_rules box_ua five (xml_doc copy_items) ex_oracle copy_fragments /\
  Forall (drawable ex_vera) (all_fragments copy_fragments) /\
  document_order (root_style (xml_doc copy_items)) (xml_shows copy_items) = bs "a zcdb" /\
  exists file, to_pdf_bytes ex_round ex_vera ex_color ex_selector snd ex_matches no_items no_rules box_ua five ex_oracle (xml_doc copy_items) = Some file /\
    N.of_nat (length file) < 2 ^ 32 /\ copied file = Some [[97]; [32]; []; [99]; [100]; [98]].
Proof.
  split; [exact ex_rounding|]. split; [exact ex_clean_name|]. split; [exact five_legible|]. split; [apply xml_displays; vm_compute; reflexivity|].
  assert (T : match build_root (xml_doc copy_items) with
              | Ok (boxes, _) => match box_tree_root_layout five ex_glyph_width ex_oracle boxes (mkVec 600%Q 800%Q) with Some _ => true | None => false end
              | _ => false
              end = true) by (vm_compute; reflexivity).
  assert (L : laid_out ex_vera ex_color ex_selector snd ex_matches no_items no_rules box_ua five (xml_doc copy_items) ex_oracle copy_fragments).
  { unfold copy_fragments. destruct (build_root (xml_doc copy_items)) as [[boxes w]|x|] eqn:E; [|discriminate T..].
    destruct (box_tree_root_layout five ex_glyph_width ex_oracle boxes (mkVec 600%Q 800%Q)) as [frs|] eqn:E2; [|discriminate T].
    exists boxes, w. split; [exact E|exact E2]. }
  split; [exact L|]. split.
  { assert (D : forallb drawableb (all_fragments copy_fragments) = true) by (vm_compute; reflexivity).
    apply Forall_forall. intros p Hp. rewrite forallb_forall in D. apply drawableb_ok. exact (D p Hp). }
  split; [vm_compute; reflexivity|].
  assert (X : match fragments_to_pdf_bytes ex_round ex_vera copy_fragments with
              | Some file => (N.of_nat (length file) ?= 2 ^ 32) = Lt /\ copied file = Some [[97]; [32]; []; [99]; [100]; [98]]
              | None => False
              end) by (vm_compute; split; reflexivity).
  destruct (fragments_to_pdf_bytes ex_round ex_vera copy_fragments) as [file|] eqn:E; [|contradiction]. exists file. split; [|exact X].
  destruct L as (boxes & w & E1 & E2). unfold to_pdf_bytes. rewrite E1. change (mkVec PAGE_WIDTH PAGE_HEIGHT) with (mkVec 600%Q 800%Q). rewrite E2. exact E.
Qed.
Example C72_document_example : exists pf, parse_font Release vera_ttf = Ok pf /\
  displays ex_color ex_selector snd ex_matches no_items no_rules box_ua (xml_doc paint_items) 2 (root_style (xml_doc paint_items)) (xml_shows paint_items) /\
  ~ unbuildable (xml_shows paint_items).
Proof.
  destruct (vera_parsed Release) as (pf & E & _). exists pf. split; [exact E|]. exact (proj2 (proj2 C60_document_example)).
Qed.
