(** Properties C60 and C61: what the pages of a document show *)
From Coq Require Import QArith Qpower Qabs Lqa Permutation.
From Verif Require Import PdfConvert LayoutProps Base Dom StyleValues StyleProperties StyleCascade StyleSpec StyleProps
  PdfObject PdfObjectSpec PdfConvertSpec PdfConvertProofs PdfPagesProofs Geom Text LayoutTree Layout LayoutSpec BoxTree BoxTreeSpec BoxShapeProofs BoxTreeProps InlineSpec
  Paint PaintSpec PaintProofs PaintTextProofs Float32Print Float32PrintProofs.
Local Open Scope nat_scope.

Section Page.
Variable round : Q -> dec.
Variable vera : font.

(** ** C60 *)
(** A page cannot be painted just if there is a fragment that is not upright, or text and a font that
    cannot be embedded. *)
Theorem C60_panics : forall frs,
  fragments_to_pdf_bytes round vera frs = None <->
  (exists p, In p (all_fragments frs) /\ ~ upright p) \/ (has_text frs /\ embeddable vera <> true).
Proof.
  intros frs. destruct (fragments_to_pdf_bytes round vera frs) as [file|] eqn:E; (split; [intros H|]).
  - discriminate H.
  - intros H. exfalso. assert (P : Forall (paintable vera) frs) by (apply (unpaintable round); rewrite E; discriminate). rewrite Forall_forall in P.
    destruct H as [(p & Hp & Hu)|((above & s & r & t & Ht) & Hn)].
    + unfold all_fragments in Hp. apply in_flat_map in Hp as (f & Hf & Hp). apply Hu. exact (proj1 (paintable_all vera f [] (P f Hf) p Hp)).
    + unfold all_fragments in Ht. apply in_flat_map in Ht as (f & Hf & Hp). apply Hn.
      exact (proj2 (paintable_all vera f [] (P f Hf) _ Hp) _ _ _ _ eq_refl).
  - assert (Du : forall p, {upright p} + {~ upright p}).
    { intros [a [b l|r m l|st r t]]; cbn [upright]; [left; exact I|destruct m as [w d]; destruct w, d; (left; reflexivity) || (right; discriminate)|left; exact I]. }
    destruct (Forall_Exists_dec upright Du (all_fragments frs)) as [Hu|Hu].
    2: { left. apply Exists_exists in Hu. exact Hu. }
    destruct (embeddable vera) eqn:Em.
    + exfalso. assert (P : Forall (paintable vera) frs) by (apply all_paintable; auto). rewrite (pdf_bytes round vera frs P) in E. discriminate E.
    + right. split; [|discriminate].
      assert (Dt : forall p : list fragment * fragment, {match snd p with FText _ _ _ => False | _ => True end} + {~ match snd p with FText _ _ _ => False | _ => True end}).
      { intros [a [b l|r m l|st r t]]; cbn [snd]; [left; exact I..|right; auto]. }
      destruct (Forall_Exists_dec _ Dt (all_fragments frs)) as [Ht|Ht].
      * exfalso. assert (P : Forall (paintable vera) frs).
        { apply all_paintable; [exact Hu|]. intros (a & st & r & t & Hi). rewrite Forall_forall in Ht. destruct (Ht _ Hi). }
        rewrite (pdf_bytes round vera frs P) in E. discriminate E.
      * apply Exists_exists in Ht as ([a f] & Hi & Hn). cbn [snd] in Hn. destruct f as [b l|r m l|st r t]; [destruct (Hn I)..|]. exists a, st, r, t. exact Hi.
  - reflexivity.
Qed.

Hypothesis Hround : rounding round.
Hypothesis Hname : clean_name (f_name vera).
Lemma at_origin : at_content (mkPvec 0 0)%Q [].
Proof. split; reflexivity. Qed.
Lemma near_scaled : forall d q w, ordinary q -> near (dec_value d) q -> scaled_size (dec_value d) w -> near_size w (q * (3 # 4)).
Proof.
  intros d q w O N S. unfold near, near_size in *. set (v := dec_value d) in *. clearbody v.
  assert (B : (Qabs q <= inject_Z (10 ^ 19))%Q) by (destruct O as [O|[_ O]]; [rewrite O; discriminate|exact O]).
  assert (V : (Qabs v <= Qabs q + Qabs (v - q))%Q). { eapply Qle_trans; [|apply Qabs_triangle]. apply Qle_lteq. right. apply Qabs_wd. ring. }
  pose proof (Qabs_nonneg q) as Q0. change (inject_Z (10 ^ 19)) with (10000000000000000000 # 1)%Q in B.
  assert (K : (Qabs v <= big)%Q) by (change big with (10000000000000000000000 # 1)%Q; lra). pose proof (scaled_close v w K S) as E. unfold pt in E.
  assert (P : (Qabs (v * (3 # 4)) == Qabs v * (3 # 4))%Q) by (rewrite Qabs_Qmult; reflexivity).
  assert (P' : (Qabs (q * (3 # 4)) == Qabs q * (3 # 4))%Q) by (rewrite Qabs_Qmult; reflexivity).
  assert (P2 : (Qabs ((v - q) * (3 # 4)) == Qabs (v - q) * (3 # 4))%Q) by (rewrite Qabs_Qmult; reflexivity).
  assert (D : (Qabs (w - q * (3 # 4)) <= Qabs (w - v * (3 # 4)) + Qabs ((v - q) * (3 # 4)))%Q). { eapply Qle_trans; [|apply Qabs_triangle]. apply Qle_lteq. right. apply Qabs_wd. ring. }
  lra.
Qed.
Lemma near_size_opp : forall x q, near_size (- x) q -> near_size x (- q).
Proof. intros x q H. unfold near_size in *. setoid_replace (x - - q)%Q with (- (- x - q))%Q by ring. rewrite !Qabs_opp. exact H. Qed.
Lemma near_size_eq : forall x q q', (q == q')%Q -> near_size x q -> near_size x q'.
Proof. intros x q q' E H. unfold near_size in *. rewrite <- E. exact H. Qed.
Lemma near_eq_l : forall x x' q, (x == x')%Q -> near x q -> near x' q.
Proof. intros x x' q E H. unfold near in *. rewrite <- E. exact H. Qed.
(** Otherwise it is one page of 450 by 600 points and shows each fragment at its place. *)
Theorem C60_page : forall frs file, fragments_to_pdf_bytes round vera frs = Some file ->
  Forall (drawable vera) (all_fragments frs) -> (N.of_nat (length file) < 2 ^ 32)%N ->
  exists kids page rs ms w h, read_document file = Some (kids, [page], rs) /\
    pv_media_box page = [0%Q; 0%Q; w; h] /\ near_size w 450 /\ near_size h (-600) /\
    paint rs (pv_contents page) = Some ms /\ page_shows file vera frs ms.
Proof.
  intros frs file E Hd L. assert (P : Forall (paintable vera) frs) by (apply (unpaintable round); rewrite E; discriminate).
  rewrite (pdf_bytes round vera frs P) in E. injection E as <-.
  set (ph := mkPH (round PAGE_WIDTH) (round PAGE_HEIGHT) (page_requests round vera frs)) in *.
  assert (Ow : ordinary PAGE_WIDTH) by (right; split; vm_compute; discriminate).
  assert (Oh : ordinary PAGE_HEIGHT) by (right; split; vm_compute; discriminate).
  assert (C : clean_history [ph]).
  { split.
    - constructor; [|constructor]. split; [exact (ordinary_moderate round Hround _ Ow)|]. split; [exact (ordinary_moderate round Hround _ Oh)|].
      cbn [ph ph_requests]. unfold page_requests. unfold all_fragments in Hd. clear - Hround Hname Hd. induction frs as [|f frs IH]; cbn [flat_map] in *; [constructor|].
      apply Forall_app in Hd as [H1 H2]. apply Forall_app. split; [|apply IH; exact H2]. exact (requests_clean round vera Hround Hname f _ [] at_origin H1).
    - intros f g Hf Hg _. assert (K : forall f, In f (fonts_of [ph]) -> f = vera).
      { clear. intros f Hf. unfold fonts_of in Hf. cbn [flat_map] in Hf. rewrite app_nil_r in Hf. apply in_flat_map in Hf as (r & Hr & Hf).
        cbn [ph ph_requests] in Hr. unfold page_requests in Hr. apply in_flat_map in Hr as (fr & _ & Hr).
        assert (G : forall fr o, In r (requests round vera o fr) -> match r with ShowText g _ _ _ _ => g = vera | _ => True end).
        { clear. induction fr using fragment_induction; intros o Hr; cbn [requests] in Hr.
          - apply in_app_or in Hr as [Hr|Hr].
            + unfold box_requests in Hr. destruct (0 <? _)%N; [|destruct Hr]. destruct Hr as [<-|[<-|[]]]; exact I.
            + apply in_flat_map in Hr as (fr & Hf & Hr). rewrite Forall_forall in H. exact (H fr Hf _ Hr).
          - apply in_flat_map in Hr as (fr & Hf & Hr). rewrite Forall_forall in H. exact (H fr Hf _ Hr).
          - destruct Hr as [<-|[<-|[]]]; [exact I|reflexivity]. }
        specialize (G _ _ Hr). destruct r; [destruct Hf..|]. destruct Hf as [<-|[]]. exact G. }
      rewrite (K f Hf), (K g Hg). reflexivity. }
  destruct (document_read [ph] C L) as (kids & pages & rs & R & _ & F). inversion F as [|? pv ? ? ((w & h & Mb & Sw & Sh) & ms & Pt & Hm) F2]; subst. inversion F2; subst. clear F F2.
  exists kids, pv, rs, ms, w, h. split; [exact R|]. split; [exact Mb|]. cbn [ph ph_width ph_height ph_requests] in *.
  split; [|split; [|split; [exact Pt|]]].
  - apply (near_size_eq _ (PAGE_WIDTH * (3 # 4))); [reflexivity|]. exact (near_scaled _ _ _ Ow (proj2 (Hround _ Ow)) Sw).
  - apply (near_size_eq _ (- (PAGE_HEIGHT * (3 # 4)))); [reflexivity|]. apply near_size_opp. exact (near_scaled _ _ _ Oh (proj2 (Hround _ Oh)) Sh).
  - rewrite (wants_all round vera frs P) in Hm. unfold page_shows, all_fragments in *. clear - Hround Hd P Hm. set (file := doc_write _) in *. clearbody file. revert ms Hm.
    induction frs as [|f frs IH]; intros ms Hm; cbn [flat_map] in *.
    + inversion Hm; subst. exists []. split; [constructor|reflexivity].
    + apply Forall_app in Hd as [H1 H2]. inversion P; subst. apply Forall2_app_inv_l in Hm as (m1 & m2 & Hm1 & Hm2 & ->).
      destruct (marks round vera Hround file f H3 _ [] m1 at_origin H1 Hm1) as (e1 & F1 & ->). destruct (IH H2 H4 m2 Hm2) as (e2 & F2 & ->).
      exists (e1 ++ e2). split; [apply Forall2_app; assumption|symmetry; apply concat_app].
Qed.
End Page.

(** The glyphs on a page that shows fragments are those of the fragments. *)
Lemma page_glyphs : forall file vera frs ms, page_shows file vera frs ms -> shown_glyphs ms = Some (flat_map glyphs_in frs).
Proof.
  intros file vera frs ms (each & F & ->).
  set (own := fun p : list fragment * fragment => match snd p with FText _ _ t => glyphs t | _ => [] end).
  assert (A : forall f above, flat_map own (with_ancestors above f) = glyphs_in f).
  { assert (L : forall l above, Forall (fun f => forall above, flat_map own (with_ancestors above f) = glyphs_in f) l ->
      flat_map own (flat_map (with_ancestors above) l) = flat_map glyphs_in l).
    { intros l above H. induction H as [|f l Hf H IH]; cbn [flat_map]; [reflexivity|]. rewrite flat_map_app, Hf, IH. reflexivity. }
    induction f using fragment_induction; intros above; cbn [with_ancestors flat_map own snd glyphs_in app]; [apply L; assumption..|apply app_nil_r]. }
  assert (B : flat_map glyphs_in frs = flat_map own (all_fragments frs)).
  { unfold all_fragments. clear F. induction frs as [|f frs IH]; cbn [flat_map]; [reflexivity|]. rewrite flat_map_app, A, IH. reflexivity. }
  rewrite B. clear A B. induction F as [|p m ps each H F IH]; [reflexivity|]. cbn [concat flat_map].
  inversion H; subst; cbn [app own snd].
  - cbn [shown_glyphs fold_right]. exact IH.
  - exact IH.
  - exact IH.
  - unfold shown_glyphs in *. cbn [fold_right].
    match goal with X : utf16be_units _ = Some _ |- _ => rewrite IH, X end. reflexivity.
Qed.

(** ** C61 *)
(** Styles of the boxes of a document *)
Section Sheets.
Variable round : Q -> dec.
Variable vera : font.
Variable parse_color : parser color.
Variable selector : Type.
Variable specificity : selector -> N.
Variable matches : selector -> document -> nat -> bool.
Variable items_of : bytes -> list StyleCascade.item.
Variable rules_of : bytes -> list (source_rule selector).
Variable user_agent : list (source_rule selector).
Variable glyph_id : N -> res font_error N.
Notation displays := (displays parse_color selector specificity matches items_of rules_of user_agent).
Notation construct_root := (box_tree_root_construct parse_color selector specificity matches items_of rules_of user_agent).
Notation to_pdf := (to_pdf_bytes round vera parse_color selector specificity matches items_of rules_of user_agent glyph_id).
(** The fragments of a document on a page of 600 by 800 pixels *)
Definition laid_out (d : document) (o : oracle) (frs : list fragment) : Prop :=
  exists boxes w, construct_root d = Ok (boxes, w) /\
    box_tree_root_layout glyph_id (f_glyph_width vera) o boxes (mkVec 600%Q 800%Q) = Some frs.

(** All fragments of a document are upright. *)
Theorem C60_upright : forall d o frs, laid_out d o frs -> Forall upright (all_fragments frs).
Proof. intros d o frs (boxes & w & _ & L). apply all_upright. exact (proj1 (root_order _ _ _ _ _ _ L)). Qed.
(** The file of a document is the page of its fragments, and the same however layout is scheduled. *)
Theorem C60_document : (forall ch, exists id w, glyph_id ch = Ok id /\ f_glyph_width vera id = Ok w) -> embeddable vera = true ->
  forall d root s cs, displays d root s cs -> (get s display_ <> DisplayNone -> ~ unbuildable cs) ->
  exists frs file, fragments_to_pdf_bytes round vera frs = Some file /\ forall o, laid_out d o frs /\ to_pdf o d = Some file.
Proof.
  intros G Em d root s cs H U. destruct (C58_no_panic _ _ _ _ _ _ _ _ _ G d root s cs H U) as (boxes & w & E & L).
  destruct (L (fun _ => Sequential) (mkVec 600%Q 800%Q)) as (frs & E2).
  assert (K : forall o, laid_out d o frs). { intros o. exists boxes, w. split; [exact E|]. rewrite <- E2. apply C49_schedules. }
  assert (P : Forall (paintable vera) frs) by (apply all_paintable; [exact (C60_upright _ _ _ (K (fun _ => Sequential)))|intros _; exact Em]).
  exists frs. eexists. split; [exact (pdf_bytes round vera frs P)|]. intros o. split; [apply K|]. unfold to_pdf_bytes. rewrite E.
  destruct (K o) as (b' & w' & E3 & E4). rewrite E in E3. injection E3 as <- <-. change (mkVec PAGE_WIDTH PAGE_HEIGHT) with (mkVec 600%Q 800%Q). rewrite E4.
  apply pdf_bytes. exact P.
Qed.

(** The glyphs of the fragments are those of the text of the document, apart from spaces, with the text
    of absolutely positioned elements after that of the element they are in, and without that of floats. *)
Theorem C61_text : forall d root s cs o frs, displays d root s cs -> laid_out d o frs ->
  exists t width, nonspace t = nonspace (document_order s cs) /\
    shapes glyph_id (f_glyph_width vera) t (flat_map glyphs_in frs) width.
Proof.
  intros d root s cs o frs H (boxes & w & E & L). apply root_order in L as [_ (t & wd & Lo & Sh)].
  exists t, wd. split; [|exact Sh]. rewrite <- (left_out_nonspace _ _ Lo).
  destruct (C54_document _ _ _ _ _ _ _ _ _ _ _ H) as [(Dn & E2)|[(Nd & _ & c & bl & f & w2 & E2 & Hc & Hr)|(_ & _ & E2)]]; rewrite E2 in E; [| |discriminate E].
  - injection E as <- <-. unfold document_order. rewrite Dn. destruct (get s position_); reflexivity.
  - injection E as <- <-. exact (root_same s cs c bl f Nd Hc Hr).
Qed.
(** The same for the file *)
Theorem C61_file : rounding round -> clean_name (f_name vera) ->
  forall d root s cs o frs file, displays d root s cs -> laid_out d o frs -> to_pdf o d = Some file ->
  Forall (drawable vera) (all_fragments frs) -> (N.of_nat (length file) < 2 ^ 32)%N ->
  exists kids page rs ms t gs width, read_document file = Some (kids, [page], rs) /\ paint rs (pv_contents page) = Some ms /\
    page_shows file vera frs ms /\ shown_glyphs ms = Some gs /\
    shapes glyph_id (f_glyph_width vera) t gs width /\ nonspace t = nonspace (document_order s cs).
Proof.
  intros Hr Hn d root s cs o frs file H L E Hd Hl. destruct (C61_text d root s cs o frs H L) as (t & width & Ht & Hs).
  assert (E2 : fragments_to_pdf_bytes round vera frs = Some file).
  { destruct L as (boxes & w & E3 & L). unfold to_pdf_bytes in E. rewrite E3 in E. change (mkVec PAGE_WIDTH PAGE_HEIGHT) with (mkVec 600%Q 800%Q) in E. rewrite L in E. exact E. }
  destruct (C60_page round vera Hr Hn frs file E2 Hd Hl) as (kids & page & rs & ms & w & h & R & _ & _ & _ & P & S).
  exists kids, page, rs, ms, t, (flat_map glyphs_in frs), width. split; [exact R|]. split; [exact P|]. split; [exact S|].
  split; [exact (page_glyphs _ _ _ _ S)|]. split; [exact Hs|exact Ht].
Qed.

(** If nothing floats all of the text is there. *)
Lemma boxed_more : forall c l s, In c l -> boxed_in [c] s -> boxed_in l s.
Proof.
  intros c l s Hc B. inversion B; subst.
  - destruct H as [->|[]]. exact (bi_here _ _ _ _ Hc).
  - destruct H as [->|[]]. exact (bi_inside _ _ _ _ _ Hc H0).
Qed.
Section ContentInd.
Variable P : content -> Prop.
Hypothesis Ht : forall s t, P (CText s t).
Hypothesis Hb : forall s e l, Forall P l -> P (CBox s e l).
Fixpoint content_induction (c : content) : P c :=
  match c with
  | CText s t => Ht s t
  | CBox s e l => Hb s e l ((fix go l : Forall P l := match l with [] => Forall_nil _ | x :: r => Forall_cons x (content_induction x) (go r) end) l)
  end.
End ContentInd.
Lemma both_all : forall l, Forall (fun c => Permutation (after (content_order c)) (content_text c)) l ->
  Permutation (after (both (map content_order l))) (flat_map content_text l).
Proof.
  intros l H. induction H as [|c l Hc H IH]; [constructor|]. unfold after in *. cbn [map both fst snd flat_map] in *.
  rewrite <- Hc, <- IH, <- !app_assoc. apply Permutation_app_head. rewrite !app_assoc. apply Permutation_app_tail. apply Permutation_app_comm.
Qed.
Lemma order_all : forall c, (forall s, boxed_in [c] s -> get s float_ = FloatNone) -> Permutation (after (content_order c)) (content_text c).
Proof.
  induction c as [s t|s e l IH] using content_induction; intros H; cbn [content_order content_text].
  - unfold after. cbn [fst snd]. rewrite app_nil_r. reflexivity.
  - assert (K : Permutation (after (both (map content_order l))) (flat_map content_text l)).
    { apply both_all. rewrite Forall_forall in *. intros c Hc. apply IH; [exact Hc|]. intros s' B. apply H.
      apply (bi_inside _ s e l); [left; reflexivity|]. exact (boxed_more _ _ _ Hc B). }
    assert (F : is_float s = false) by (unfold is_float; rewrite (H s (bi_here [CBox s e l] s e l (or_introl eq_refl))); reflexivity). rewrite F.
    assert (K1 : Permutation (after (after (both (map content_order l)), [])) (flat_map content_text l)).
    { unfold after at 1. cbn [fst snd]. rewrite app_nil_r. exact K. }
    destruct (is_inline s); [exact K|]. destruct (get s position_); try (destruct (is_relative s)); exact K || exact K1.
Qed.
Lemma orders_all : forall cs, (forall s, boxed_in cs s -> get s float_ = FloatNone) -> Permutation (after (both (map content_order cs))) (flat_map content_text cs).
Proof.
  intros cs H. apply both_all. apply Forall_forall. intros c Hc. apply order_all. intros s B. apply H.
  exact (boxed_more _ _ _ Hc B).
Qed.
Lemma nonspace_permutation : forall a b, Permutation a b -> Permutation (nonspace a) (nonspace b).
Proof.
  intros a b H. unfold nonspace. induction H; cbn [filter]; [constructor| | |eapply perm_trans; eassumption].
  - destruct (negb (is_space x)); [constructor|]; assumption.
  - destruct (negb (is_space x)), (negb (is_space y)); try reflexivity. constructor.
Qed.
Theorem C61_all_text : forall d root s cs o frs, displays d root s cs -> laid_out d o frs ->
  get s display_ <> DisplayNone -> get s float_ = FloatNone -> (forall s', boxed_in cs s' -> get s' float_ = FloatNone) ->
  exists t width, Permutation (nonspace t) (nonspace (flat_map content_text cs)) /\
    shapes glyph_id (f_glyph_width vera) t (flat_map glyphs_in frs) width.
Proof.
  intros d root s cs o frs H L Nd F Fs. destruct (C61_text d root s cs o frs H L) as (t & w & E & Sh). exists t, w. split; [|exact Sh].
  rewrite E. apply nonspace_permutation. rewrite <- (orders_all cs Fs). unfold document_order, is_float. rewrite F.
  destruct (get s position_), (get s display_); congruence || reflexivity.
Qed.
(** If nothing is absolutely positioned either, it is in document order. *)
Lemma order_flow : forall c, (forall s, boxed_in [c] s -> get s float_ = FloatNone /\ get s position_ <> Absolute) ->
  content_order c = (content_text c, []).
Proof.
  induction c as [s t|s e l IH] using content_induction; intros H; cbn [content_order content_text]; [reflexivity|].
  assert (K : both (map content_order l) = (flat_map content_text l, [])).
  { assert (H' : Forall (fun c => content_order c = (content_text c, [])) l).
    { rewrite Forall_forall in *. intros c Hc. apply IH; [exact Hc|]. intros s' B. apply H.
      apply (bi_inside _ s e l); [left; reflexivity|]. exact (boxed_more _ _ _ Hc B). }
    clear - H'. induction H' as [|c l Hc H IH]; [reflexivity|]. unfold both in *. apply pair_equal_spec in IH as [I1 I2]. cbn [map flat_map]. rewrite Hc, I1, I2. reflexivity. }
  rewrite K. destruct (H s (bi_here [CBox s e l] s e l (or_introl eq_refl))) as [H1 H2]. unfold is_float. rewrite H1. unfold after. cbn [fst snd]. rewrite app_nil_r.
  destruct (is_inline s); [reflexivity|]. destruct (get s position_); try congruence; destruct (is_relative s); reflexivity.
Qed.
Theorem C61_in_order : forall d root s cs o frs, displays d root s cs -> laid_out d o frs ->
  get s display_ <> DisplayNone -> get s float_ = FloatNone ->
  (forall s', boxed_in cs s' -> get s' float_ = FloatNone /\ get s' position_ <> Absolute) ->
  exists t width, nonspace t = nonspace (flat_map content_text cs) /\
    shapes glyph_id (f_glyph_width vera) t (flat_map glyphs_in frs) width.
Proof.
  intros d root s cs o frs H L Nd F Fs. destruct (C61_text d root s cs o frs H L) as (t & w & E & Sh). exists t, w. split; [|exact Sh].
  rewrite E. assert (K : both (map content_order cs) = (flat_map content_text cs, [])).
  { assert (H' : Forall (fun c => content_order c = (content_text c, [])) cs).
    { apply Forall_forall. intros c Hc. apply order_flow. intros s' B. apply Fs.
      exact (boxed_more _ _ _ Hc B). }
    clear - H'. induction H' as [|c l Hc H IH]; [reflexivity|]. unfold both in *. apply pair_equal_spec in IH as [I1 I2]. cbn [map flat_map]. rewrite Hc, I1, I2. reflexivity. }
  unfold document_order, is_float. rewrite F, K. unfold after. cbn [fst snd]. rewrite app_nil_r.
  destruct (get s position_), (get s display_); congruence || reflexivity.
Qed.
End Sheets.

(** ** Examples *)
(** Decimals as the program prints them: those of the nearest [f32] *)
Definition ex_round : Q -> dec := print32.
Example ex_rounding : rounding ex_round.
Proof. exact print32_rounding. Qed.
Definition ex_vera : font :=
  mkFont 100 (bs "glyf ) endstream") (bs "Vera") (-1 # 5) (-1 # 3) (1 # 1) (4 # 5) (4 # 5) (-1 # 5)
    [(32, 32); (97, 97); (98, 98); (99, 99); (100, 100)]%N None 128 ex_glyph_width.
Example ex_clean_name : clean_name (f_name ex_vera).
Proof.
  split; [repeat constructor|]. intros (a & h1 & h2 & b & E & _). assert (I : In 35%N (f_name ex_vera)) by (rewrite E; apply in_or_app; right; left; reflexivity).
  cbn in I. intuition discriminate.
Qed.
(** What is drawable, computed *)
Definition ordinaryb (q : Q) : bool := Qeq_bool q 0 || (Qle_bool (1 # 50000) (Qabs q) && Qle_bool (Qabs q) (inject_Z (10 ^ 19))).
Lemma ordinaryb_ok : forall q, ordinaryb q = true -> ordinary q.
Proof.
  intros q H. unfold ordinaryb in H. apply Bool.orb_true_iff in H as [H|H]; [left; apply Qeq_bool_iff; exact H|right].
  apply Bool.andb_true_iff in H as [H1 H2]. split; apply Qle_bool_iff; assumption.
Qed.
Definition byte_colorb (c : rgba) : bool := ((red c <=? 255) && (green c <=? 255) && (blue c <=? 255) && (alpha c <=? 255))%N.
Lemma byte_colorb_ok : forall c, byte_colorb c = true -> byte_color c.
Proof. intros c H. unfold byte_colorb in H. rewrite !Bool.andb_true_iff, !N.leb_le in H. unfold byte_color. tauto. Qed.
Definition drawableb (p : list fragment * fragment) : bool :=
  match p with
  | (above, FBox b children) =>
      (alpha (background (bf_style b)) =? 0)%N ||
      (byte_colorb (background (bf_style b)) &&
       ordinaryb (left_edge above (FBox b children) - inline_start (bf_padding b) - inline_start (bf_border b)) &&
       ordinaryb (top_edge above (FBox b children) - block_start (bf_padding b) - block_start (bf_border b)) &&
       ordinaryb (v_inline (size (bf_content_rect b)) + inline_start (bf_padding b) + inline_end (bf_padding b) +
                  inline_start (bf_border b) + inline_end (bf_border b)) &&
       ordinaryb (v_block (size (bf_content_rect b)) + block_start (bf_padding b) + block_end (bf_padding b) +
                  block_start (bf_border b) + block_end (bf_border b)))
  | (above, FAnonymous _ _ _) => true
  | (above, FText s r t) =>
      byte_colorb (get s color_) && ordinaryb (get s font_size) && ordinaryb (left_edge above (FText s r t)) &&
      ordinaryb (top_edge above (FText s r t) + get s font_size * f_ascender ex_vera) && forallb (fun g => (g <? 65536)%N) (glyphs t)
  end.
Lemma drawableb_ok : forall p, drawableb p = true -> drawable ex_vera p.
Proof.
  intros [above [b l|r m l|s r t]] H; cbn [drawable drawableb] in *; [|exact I|].
  - intros P. apply Bool.orb_true_iff in H as [H|H]; [apply N.eqb_eq in H; lia|]. rewrite !Bool.andb_true_iff in H. destruct H as ((((H1 & H2) & H3) & H4) & H5).
    split; [apply byte_colorb_ok; exact H1|]. repeat (split; [apply ordinaryb_ok; assumption|]). apply ordinaryb_ok. assumption.
  - rewrite !Bool.andb_true_iff in H. destruct H as ((((H1 & H2) & H3) & H4) & H5). repeat (split; [auto using byte_colorb_ok, ordinaryb_ok|]).
    apply Forall_forall. intros g Hg. rewrite forallb_forall in H5. apply N.ltb_lt. auto.
Qed.
Notation ex_laid_out := (laid_out ex_vera ex_color ex_selector snd ex_matches no_items no_rules box_ua ex_glyph_id).
Notation ex_to_pdf := (to_pdf_bytes ex_round ex_vera ex_color ex_selector snd ex_matches no_items no_rules box_ua ex_glyph_id).
Notation ex_displays := (displays ex_color ex_selector snd ex_matches no_items no_rules box_ua).
(** Everything that has to be computed about an example *)
Definition fragments_of (l : list DomXmlSpec.item) : list fragment :=
  match build_root (xml_doc l) with
  | Ok (boxes, _) => match box_tree_root_layout ex_glyph_id ex_glyph_width ex_oracle boxes (mkVec 600%Q 800%Q) with Some frs => frs | None => [] end
  | _ => []
  end.
Definition paint_test (l : list DomXmlSpec.item) : bool :=
  xml_test l &&
  match build_root (xml_doc l) with
  | Ok (boxes, _) => match box_tree_root_layout ex_glyph_id ex_glyph_width ex_oracle boxes (mkVec 600%Q 800%Q) with Some _ => true | None => false end
  | _ => false
  end &&
  match fragments_to_pdf_bytes ex_round ex_vera (fragments_of l) with Some file => (N.of_nat (length file) <? 2 ^ 32)%N | None => false end &&
  forallb drawableb (all_fragments (fragments_of l)).
Lemma paint_tested : forall l, paint_test l = true ->
  ex_displays (xml_doc l) 2 (root_style (xml_doc l)) (xml_shows l) /\
  ex_laid_out (xml_doc l) ex_oracle (fragments_of l) /\ Forall (drawable ex_vera) (all_fragments (fragments_of l)) /\
  exists file, ex_to_pdf ex_oracle (xml_doc l) = Some file /\ fragments_to_pdf_bytes ex_round ex_vera (fragments_of l) = Some file /\ (N.of_nat (length file) < 2 ^ 32)%N.
Proof.
  intros l H. unfold paint_test in H. rewrite !Bool.andb_true_iff in H. destruct H as (((H1 & H2) & H3) & H4). split; [apply (xml_displays l H1)|].
  assert (K : ex_laid_out (xml_doc l) ex_oracle (fragments_of l)).
  { unfold fragments_of. destruct (build_root (xml_doc l)) as [[boxes w]|x|] eqn:E; [|discriminate H2..].
    destruct (box_tree_root_layout ex_glyph_id ex_glyph_width ex_oracle boxes (mkVec 600%Q 800%Q)) as [frs|] eqn:E2; [|discriminate H2].
    exists boxes, w. split; [exact E|exact E2]. }
  split; [exact K|]. split.
  - apply Forall_forall. intros p Hp. rewrite forallb_forall in H4. apply drawableb_ok. auto.
  - destruct (fragments_to_pdf_bytes ex_round ex_vera (fragments_of l)) as [file|] eqn:E; [|discriminate H3]. exists file. split; [|split; [reflexivity|apply N.ltb_lt; exact H3]].
    destruct K as (boxes & w & E1 & E2). unfold to_pdf_bytes. rewrite E1. change (mkVec PAGE_WIDTH PAGE_HEIGHT) with (mkVec 600%Q 800%Q). rewrite E2. exact E.
Qed.
(** [<div><p>a<a>b</a> c</p><f>x</f><g>d</g></div>] *)
Definition paint_items : list DomXmlSpec.item :=
  [el "div" [el "p" [tx "a"; el "a" [tx "b"]; tx " c"]; el "f" [tx "x"]; el "g" [tx "d"]]].
Example paint_tests : paint_test paint_items = true.
Proof. vm_compute. reflexivity. Qed.
Definition ex_marks (l : list DomXmlSpec.item) : option (list mark) :=
  match fragments_to_pdf_bytes ex_round ex_vera (fragments_of l) with
  | Some f => match read_document f with Some (_, [page], rs) => paint rs (pv_contents page) | _ => None end
  | None => None
  end.
(** One text after the other, with the red background behind "d", the absolutely positioned text last *)
Example C60_example :
  (exists file, fragments_to_pdf_bytes ex_round ex_vera (fragments_of paint_items) = Some file /\ (N.of_nat (length file) < 2 ^ 32)%N) /\
  Forall (drawable ex_vera) (all_fragments (fragments_of paint_items)) /\ rounding ex_round /\ clean_name (f_name ex_vera) /\
  ex_marks paint_items = Some
    [ MText (PRef 7 0) (mkM 12 0 0 12 0 (-48 # 5)) [0; 97]%N (0, 0, 0)%Q 1; MText (PRef 7 0) (mkM 12 0 0 12 6 (-48 # 5)) [0; 32; 0; 99]%N (0, 0, 0)%Q 1;
      MFill [(0, -72 # 5); (450 # 1, -72 # 5); (450 # 1, -144 # 5); (0, -144 # 5)]%Q (1, 0, 0)%Q 1;
      MText (PRef 7 0) (mkM 12 0 0 12 0 (-24 # 1)) [0; 100]%N (0, 0, 0)%Q 1; MText (PRef 7 0) (mkM 12 0 0 12 6 (-48 # 5)) [0; 98]%N (0, 0, 0)%Q 1 ].
Proof.
  destruct (paint_tested _ paint_tests) as (_ & _ & D & file & _ & E & L). split; [exists file; auto|]. split; [exact D|]. split; [exact ex_rounding|].
  split; [exact ex_clean_name|]. vm_compute. reflexivity.
Qed.
(** Not upright; or text and a font that cannot be embedded *)
Definition ex_bad : font := mkFont 200 (bs "x") (bs "Bad") 0 0 0 0 0 0 [] (Some NoSupportedCmap) 1 ex_glyph_width.
Example C60_panics_example :
  fragments_to_pdf_bytes ex_round ex_vera [FAnonymous (mkRect (mkVec 0 0) (mkVec 1 1))%Q (VerticalRl, Ltr) []] = None /\
  fragments_to_pdf_bytes ex_round ex_bad (fragments_of paint_items) = None /\
  has_text (fragments_of paint_items) /\ embeddable ex_bad <> true.
Proof.
  split; [vm_compute; reflexivity|].
  assert (E : match fragments_to_pdf_bytes ex_round ex_bad (fragments_of paint_items) with None => true | Some _ => false end = true) by (vm_compute; reflexivity).
  destruct (fragments_to_pdf_bytes ex_round ex_bad (fragments_of paint_items)) eqn:F; [discriminate E|]. split; [reflexivity|].
  apply C60_panics in F as [(p & Hp & Hu)|H]; [exfalso|exact H]. apply Hu. destruct (paint_tested _ paint_tests) as (_ & L & _).
  pose proof (C60_upright _ _ _ _ _ _ _ _ _ _ _ _ L) as U. rewrite Forall_forall in U. exact (U p Hp).
Qed.
Lemma built : forall l, match build_root (xml_doc l) with Ok (BFC (BlockLevelBoxes (_ :: _)) _, _) => true | _ => false end = true -> xml_test l = true -> ~ unbuildable (xml_shows l).
Proof.
  intros l T H. destruct (C54_document _ _ _ _ _ _ _ _ _ _ _ (proj1 (xml_displays _ H))) as [(_ & E)|[(_ & U & _)|(_ & _ & E)]]; [|exact U|]; rewrite E in T; discriminate T.
Qed.
Example C60_document_example :
  (forall ch, exists id w, ex_glyph_id ch = Ok id /\ f_glyph_width ex_vera id = Ok w) /\ embeddable ex_vera = true /\
  ex_displays (xml_doc paint_items) 2 (root_style (xml_doc paint_items)) (xml_shows paint_items) /\ ~ unbuildable (xml_shows paint_items).
Proof.
  split; [exact ex_glyphs|]. split; [vm_compute; reflexivity|]. split; [exact (proj1 (paint_tested _ paint_tests))|]. apply built; vm_compute; reflexivity.
Qed.
Example C61_example :
  ex_displays (xml_doc paint_items) 2 (root_style (xml_doc paint_items)) (xml_shows paint_items) /\
  ex_laid_out (xml_doc paint_items) ex_oracle (fragments_of paint_items) /\
  document_order (root_style (xml_doc paint_items)) (xml_shows paint_items) = bs "a cdb" /\
  flat_map glyphs_in (fragments_of paint_items) = bs "a cdb".
Proof. destruct (paint_tested _ paint_tests) as (D & L & _). split; [exact D|]. split; [exact L|]. split; vm_compute; reflexivity. Qed.
(** [<div><p>a <b>b</b></p><g>c</g></div>]: nothing is out of flow. *)
Definition flow_items : list DomXmlSpec.item := [el "div" [el "p" [tx "a "; el "b" [tx "b"]]; el "g" [tx "c"]]].
Fixpoint flow_styles (c : content) : bool :=
  match c with
  | CText _ _ => true
  | CBox s _ l => match get s float_ with FloatNone => true | _ => false end && match get s position_ with Static => true | _ => false end && forallb flow_styles l
  end.
Lemma flow_styles_ok : forall cs s, boxed_in cs s -> forallb flow_styles cs = true -> get s float_ = FloatNone /\ get s position_ = Static.
Proof.
  intros cs s H. induction H; intros T; rewrite forallb_forall in T; specialize (T _ H); cbn [flow_styles] in T; rewrite !Bool.andb_true_iff in T; destruct T as [[T1 T2] T3].
  - destruct (get s float_), (get s position_); try discriminate; auto.
  - auto.
Qed.
Example flow_tests : paint_test flow_items = true /\ forallb flow_styles (xml_shows flow_items) = true.
Proof. split; vm_compute; reflexivity. Qed.
Example C61_in_order_example :
  ex_displays (xml_doc flow_items) 2 (root_style (xml_doc flow_items)) (xml_shows flow_items) /\
  ex_laid_out (xml_doc flow_items) ex_oracle (fragments_of flow_items) /\
  get (root_style (xml_doc flow_items)) display_ <> DisplayNone /\ get (root_style (xml_doc flow_items)) float_ = FloatNone /\
  (forall s, boxed_in (xml_shows flow_items) s -> get s float_ = FloatNone /\ get s position_ <> Absolute) /\
  flat_map content_text (xml_shows flow_items) = bs "a bc" /\ flat_map glyphs_in (fragments_of flow_items) = bs "a bc".
Proof.
  destruct flow_tests as [T F]. destruct (paint_tested _ T) as (D & L & _). split; [exact D|]. split; [exact L|].
  split; [vm_compute; discriminate|]. split; [vm_compute; reflexivity|]. split; [|split; vm_compute; reflexivity].
  intros s H. destruct (flow_styles_ok _ _ H F) as [-> ->]. split; [reflexivity|discriminate].
Qed.

(** *** The text of floats is lost: [<div><f>x</f></div>] *)
Definition float_items : list DomXmlSpec.item := [el "div" [el "f" [tx "x"]]].
Theorem C61_floats_refuted : exists d root s cs frs,
  ex_displays d root s cs /\ ex_laid_out d ex_oracle frs /\ get s display_ <> DisplayNone /\ get s float_ = FloatNone /\
  forall t width, shapes ex_glyph_id (f_glyph_width ex_vera) t (flat_map glyphs_in frs) width ->
    ~ Permutation (nonspace t) (nonspace (flat_map content_text cs)).
Proof.
  assert (T : paint_test float_items = true) by (vm_compute; reflexivity). destruct (paint_tested _ T) as (D & L & _).
  exists (xml_doc float_items), 2, (root_style (xml_doc float_items)), (xml_shows float_items), (fragments_of float_items).
  split; [exact D|]. split; [exact L|]. split; [vm_compute; discriminate|]. split; [vm_compute; reflexivity|].
  intros t width H P. assert (E : flat_map glyphs_in (fragments_of float_items) = []) by (vm_compute; reflexivity). rewrite E in H. inversion H; subst.
  assert (E2 : nonspace (flat_map content_text (xml_shows float_items)) = bs "x") by (vm_compute; reflexivity). rewrite E2 in P.
  apply Permutation_length in P. discriminate P.
Qed.
(** *** CSS 2 appendix E: in normal flow all backgrounds of blocks are painted before any text. *)
Definition backgrounds_first (ms : list mark) : Prop :=
  forall a v m codes rgb al b points rgb' al' c, ms <> a ++ MText v m codes rgb al :: b ++ MFill points rgb' al' :: c.
Lemma text_then_background : forall l, paint_test l = true -> forallb flow_styles (xml_shows l) = true ->
  match ex_marks l with Some [MText _ _ _ _ _; MText _ _ _ _ _; MFill _ _ _; MText _ _ _ _ _] => true | _ => false end = true ->
  exists root s cs frs file kids page rs ms,
  ex_displays (xml_doc l) root s cs /\ (forall s, boxed_in cs s -> get s float_ = FloatNone /\ get s position_ = Static) /\
  ex_laid_out (xml_doc l) ex_oracle frs /\ ex_to_pdf ex_oracle (xml_doc l) = Some file /\
  read_document file = Some (kids, [page], rs) /\ paint rs (pv_contents page) = Some ms /\ ~ backgrounds_first ms.
Proof.
  intros l T F M. destruct (paint_tested l T) as (D & L & Dr & file & E & E2 & Ln). unfold ex_marks in M. rewrite E2 in M.
  destruct (read_document file) as [[[kids [|page [|? ?]]] rs]|] eqn:R; [discriminate M| |discriminate M..].
  destruct (paint rs (pv_contents page)) as [ms|] eqn:P; [|discriminate M].
  exists 2, (root_style (xml_doc l)), (xml_shows l), (fragments_of l), file, kids, page, rs, ms.
  split; [exact D|]. split; [intros s H; exact (flow_styles_ok _ _ H F)|]. split; [exact L|]. split; [exact E|]. split; [exact R|]. split; [exact P|].
  intros B. destruct ms as [|[|v m codes rgb al] [|[|v' m' codes' rgb' al'] [|[points rgb2 al2|] r]]]; try discriminate M.
  exact (B [] v m codes rgb al [MText v' m' codes' rgb' al'] points rgb2 al2 r eq_refl).
Qed.
Example flow_marks : match ex_marks flow_items with Some [MText _ _ _ _ _; MText _ _ _ _ _; MFill _ _ _; MText _ _ _ _ _] => true | _ => false end = true.
Proof. vm_compute. reflexivity. Qed.
Theorem C60_painting_order_refuted : exists d root s cs frs file kids page rs ms,
  ex_displays d root s cs /\ (forall s, boxed_in cs s -> get s float_ = FloatNone /\ get s position_ = Static) /\
  ex_laid_out d ex_oracle frs /\ ex_to_pdf ex_oracle d = Some file /\
  read_document file = Some (kids, [page], rs) /\ paint rs (pv_contents page) = Some ms /\ ~ backgrounds_first ms.
Proof. exists (xml_doc flow_items). exact (text_then_background flow_items (proj1 flow_tests) (proj2 flow_tests) flow_marks). Qed.
Print Assumptions C60_panics.
Print Assumptions C60_page.
Print Assumptions C60_upright.
Print Assumptions C60_document.
Print Assumptions C60_painting_order_refuted.
Print Assumptions C61_text.
Print Assumptions C61_file.
Print Assumptions C61_all_text.
Print Assumptions C61_in_order.
Print Assumptions C61_floats_refuted.
Example C61_file_example :
  rounding ex_round /\ clean_name (f_name ex_vera) /\
  ex_displays (xml_doc paint_items) 2 (root_style (xml_doc paint_items)) (xml_shows paint_items) /\
  ex_laid_out (xml_doc paint_items) ex_oracle (fragments_of paint_items) /\ Forall (drawable ex_vera) (all_fragments (fragments_of paint_items)) /\
  exists file, ex_to_pdf ex_oracle (xml_doc paint_items) = Some file /\ (N.of_nat (length file) < 2 ^ 32)%N.
Proof.
  destruct (paint_tested _ paint_tests) as (D & L & Dr & file & E & _ & Ln). split; [exact ex_rounding|]. split; [exact ex_clean_name|].
  split; [exact D|]. split; [exact L|]. split; [exact Dr|]. exists file. auto.
Qed.
