(** Painting with any arithmetic *)
From Coq Require Import QArith.
From Verif Require Import Base Dom StyleValues StyleProperties PdfObject PdfObjectSpec PdfConvert PdfConvertSpec PdfConvertProofs PdfDocProofs PdfPagesProofs
  Geom Text LayoutTree Layout InlineSpec Paint PaintSpec PaintProofs PaintTextProofs Arith32 LayoutArith LayoutArithSpec.
Local Open Scope nat_scope.

Section Paint.
Variable ar : arith.
Variable round : Q -> dec.
Variable vera : font.
Hypothesis Em : embeddable vera = true.
Notation paint_onto := (paint_onto_in ar round vera).
Notation paint_fragments := (paint_fragments_in ar round vera).

(** ** Requests *)
Definition box_requests_in (b : box_fragment) (o : pvec Q) : list request :=
  if (0 <? alpha (to_rgba (bf_style b) (get (bf_style b) background_color)))%N then
    let c := start_corner (border_rect_in ar b) in
    [SetColor (rgba_into round (to_rgba (bf_style b) (get (bf_style b) background_color)));
     PaintRectangle (round (a_add ar (v_inline c) (x_ o))) (round (a_add ar (v_block c) (y_ o)))
       (round (v_inline (size (border_rect_in ar b)))) (round (v_block (size (border_rect_in ar b))))]
  else [].
Definition text_requests_in (s : computed_values) (r : rect Q) (t : shaped) (o : pvec Q) : list request :=
  [SetColor (rgba_into round (get s color_));
   ShowText vera (glyphs t) (round (get s font_size)) (round (a_add ar (v_inline (start_corner r)) (x_ o)))
     (round (a_add ar (a_add ar (v_block (start_corner r)) (y_ o)) (a_mul ar (get s font_size) (f_ascender vera))))].
Definition moved_in (r : rect Q) (o : pvec Q) : pvec Q := padd_in ar (mkPvec (v_inline (start_corner r)) (v_block (start_corner r))) o.
Fixpoint requests_in (o : pvec Q) (f : fragment) : list request :=
  match f with
  | FBox b l => box_requests_in b o ++ flat_map (requests_in (moved_in (bf_content_rect b) o)) l
  | FAnonymous r _ l => flat_map (requests_in (moved_in r o)) l
  | FText s r t => text_requests_in s r t o
  end.
Lemma paint_box_in : forall b l st cb, paint_onto (FBox b l) st cb =
  paint_fragments l (fold_left do_request (box_requests_in b (top_left cb)) st)
    (translate_in ar (mkPrect (mkPvec (v_inline (start_corner (bf_content_rect b))) (v_block (start_corner (bf_content_rect b))))
       (mkPvec (v_inline (size (bf_content_rect b))) (v_block (size (bf_content_rect b))))) (top_left cb)).
Proof.
  intros b l st cb. cbn [paint_onto_in]. unfold box_requests_in. set (c := to_rgba _ _).
  change (style_writing_mode (bf_style b)) with HL. cbn [to_physical HL].
  assert (E : forall l st cb, (fix go (l0 : list fragment) (st0 : doc * page) (cb0 : prect Q) {struct l0} : option (doc * page) :=
     match l0 with [] => Some st0 | child :: r => match paint_onto child st0 cb0 with Some st1 => go r st1 cb0 | None => None end end) l st cb = paint_fragments l st cb).
  { induction l0 as [|f r IH]; intros st0 cb0; cbn [paint_fragments_in]; [reflexivity|]. destruct (paint_onto f st0 cb0); [apply IH|reflexivity]. }
  destruct (0 <? alpha c)%N.
  - cbn [fold_left]. destruct st as [d p]. cbn [fst snd do_request]. destruct (set_color d p (rgba_into round c)) as [d1 p1]. apply E.
  - cbn [fold_left]. apply E.
Qed.
Lemma paint_anon_in : forall r l st cb, paint_onto (FAnonymous r HL l) st cb =
  paint_fragments l st (translate_in ar (mkPrect (mkPvec (v_inline (start_corner r)) (v_block (start_corner r)))
       (mkPvec (v_inline (size r)) (v_block (size r)))) (top_left cb)).
Proof.
  intros r l st cb. cbn [paint_onto_in HL to_physical size_to_physical].
  set (cb' := translate_in _ _ _). clearbody cb'. revert st. induction l as [|f l IH]; intros st; cbn [paint_fragments_in]; [reflexivity|].
  destruct (paint_onto f st cb'); [apply IH|reflexivity].
Qed.
Lemma paint_text_in : forall s r t st cb, paint_onto (FText s r t) st cb =
  let (d, p) := set_color (fst st) (snd st) (rgba_into round (get s color_)) in
  match show_text d p vera (glyphs t) (round (get s font_size)) (round (a_add ar (v_inline (start_corner r)) (x_ (top_left cb))))
     (round (a_add ar (a_add ar (v_block (start_corner r)) (y_ (top_left cb))) (a_mul ar (get s font_size) (f_ascender vera)))) with
  | (d, p, Ok _) => Some (d, p) | _ => None end.
Proof. reflexivity. Qed.
Lemma paint_requests_in : forall f, up f -> forall st cb,
  paint_onto f st cb = Some (fold_left do_request (requests_in (top_left cb) f) st).
Proof.
  assert (L : forall l, Forall (fun f => up f -> forall st cb, paint_onto f st cb = Some (fold_left do_request (requests_in (top_left cb) f) st)) l ->
    Forall up l -> forall st cb, paint_fragments l st cb = Some (fold_left do_request (flat_map (requests_in (top_left cb)) l) st)).
  { induction l as [|f l IH]; intros H Hp st cb; cbn [paint_fragments_in flat_map]; [reflexivity|].
    inversion H; subst. inversion Hp; subst. rewrite H2, IH by assumption. rewrite fold_left_app. reflexivity. }
  induction f using fragment_induction; intros Hp st cb; inversion Hp; subst.
  - rewrite paint_box_in. cbn [requests_in]. rewrite L by assumption. rewrite fold_left_app. reflexivity.
  - rewrite paint_anon_in. rewrite L by assumption. reflexivity.
  - rewrite paint_text_in. cbn [requests_in]. unfold text_requests_in. cbn [fold_left]. destruct st as [d p]. cbn [fst snd do_request].
    destruct (set_color d p (rgba_into round (get s color_))) as [d1 p1]. cbn [do_request]. unfold show_text.
    destruct (embeddable_added d1 vera Em) as (d2 & k & E). rewrite E. reflexivity.
Qed.
Definition page_requests_in (frs : list fragment) : list request := flat_map (requests_in (mkPvec 0%Q 0%Q)) frs.
Lemma pdf_bytes_in : forall frs, Forall up frs ->
  fragments_to_pdf_bytes_in ar round vera frs = Some (doc_write (run [mkPH (round PAGE_WIDTH) (round PAGE_HEIGHT) (page_requests_in frs)])).
Proof.
  intros frs H. unfold fragments_to_pdf_bytes_in.
  assert (E : forall l, Forall up l -> forall st cb, paint_fragments l st cb = Some (fold_left do_request (flat_map (requests_in (top_left cb)) l) st)).
  { induction l as [|f l IH]; intros Hp st cb; cbn [paint_fragments_in flat_map]; [reflexivity|]. inversion Hp; subst.
    rewrite paint_requests_in, IH by assumption. rewrite fold_left_app. reflexivity. }
  rewrite E by exact H. cbn [top_left].
  unfold run. cbn [fold_left]. unfold do_page. cbn [ph_requests ph_width ph_height].
  fold (page_requests_in frs). destruct (fold_left do_request (page_requests_in frs) _) as [d p]. reflexivity.
Qed.

(** ** Glyphs *)
Lemma asked_app : forall a b, asked_glyphs (a ++ b) = asked_glyphs a ++ asked_glyphs b.
Proof. intros a b. apply flat_map_app. Qed.
Lemma requests_glyphs : forall f o, asked_glyphs (requests_in o f) = glyphs_in f.
Proof.
  assert (L : forall l o, Forall (fun f => forall o, asked_glyphs (requests_in o f) = glyphs_in f) l ->
    asked_glyphs (flat_map (requests_in o) l) = flat_map glyphs_in l).
  { intros l o H. induction H as [|f l Hf H IH]; cbn [flat_map]; [reflexivity|]. rewrite asked_app, Hf, IH. reflexivity. }
  induction f using fragment_induction; intros o; cbn [requests_in glyphs_in].
  - rewrite asked_app, L by assumption. unfold box_requests_in. destruct (0 <? _)%N; reflexivity.
  - apply L. assumption.
  - cbn. apply app_nil_r.
Qed.
Lemma page_requests_glyphs : forall frs, asked_glyphs (page_requests_in frs) = flat_map glyphs_in frs.
Proof.
  unfold page_requests_in. induction frs as [|f l IH]; cbn [flat_map]; [reflexivity|]. rewrite asked_app, requests_glyphs, IH. reflexivity.
Qed.
Lemma requests_font : forall frs r, In r (page_requests_in frs) -> match r with ShowText g _ _ _ _ => g = vera | _ => True end.
Proof.
  intros frs r Hr. apply in_flat_map in Hr as (fr & _ & Hr). revert Hr. generalize (mkPvec 0%Q 0%Q).
  induction fr using fragment_induction; intros o Hr; cbn [requests_in] in Hr.
  - apply in_app_or in Hr as [Hr|Hr].
    + unfold box_requests_in in Hr. destruct (0 <? _)%N; [|destruct Hr]. destruct Hr as [<-|[<-|[]]]; exact I.
    + apply in_flat_map in Hr as (fr & Hf & Hr). rewrite Forall_forall in H. exact (H fr Hf _ Hr).
  - apply in_flat_map in Hr as (fr & Hf & Hr). rewrite Forall_forall in H. exact (H fr Hf _ Hr).
  - destruct Hr as [<-|[<-|[]]]; [exact I|reflexivity].
Qed.
(** Of any requests with that font *)
Lemma wanted_glyphs : forall file rs, (forall r, In r rs -> match r with ShowText g _ _ _ _ => g = vera | _ => True end) ->
  forall rgb a ms, Forall2 (painted_as file) (wants rgb a rs) ms -> shown_glyphs ms = Some (asked_glyphs rs).
Proof.
  intros file. induction rs as [|r rs IH]; intros Hf rgb a ms H.
  - inversion H; subst. reflexivity.
  - specialize (IH (fun r' Hr => Hf r' (or_intror Hr))). pose proof (Hf r (or_introl eq_refl)) as Hr. destruct r as [[[[r g] b] al]|x y w h|f gs fs x y].
    + exact (IH _ _ _ H).
    + inversion H as [|? m ? ms' Hm Hms]; subst. destruct m; [|contradiction Hm]. exact (IH _ _ _ Hms).
    + subst f. cbn [wants] in H. rewrite Em in H. inversion H as [|? m ? ms' Hm Hms]; subst. destruct m as [|v mat codes rgb' a']; [contradiction Hm|].
      destruct Hm as (_ & Hu & _). unfold shown_glyphs in *. cbn [fold_right]. rewrite (IH _ _ _ Hms), Hu. reflexivity.
Qed.
Lemma page_read : forall w h rs, moderate w -> moderate h -> Forall clean_request rs ->
  (forall r, In r rs -> match r with ShowText g _ _ _ _ => g = vera | _ => True end) ->
  let file := doc_write (run [mkPH w h rs]) in (N.of_nat (length file) < 2 ^ 32)%N ->
  exists kids page res ms, read_document file = Some (kids, [page], res) /\ paint res (pv_contents page) = Some ms /\
    shown_glyphs ms = Some (asked_glyphs rs).
Proof.
  intros w h rs Hw Hh Hc Hf file L.
  assert (C : clean_history [mkPH w h rs]).
  { split.
    - constructor; [|constructor]. split; [exact Hw|]. split; [exact Hh|exact Hc].
    - assert (K : forall f, In f (fonts_of [mkPH w h rs]) -> f = vera).
      { clear - Hf. intros f Hi. unfold fonts_of in Hi. cbn [flat_map] in Hi. rewrite app_nil_r in Hi. apply in_flat_map in Hi as (r & Hr & Hi).
        cbn [ph_requests] in Hr. specialize (Hf _ Hr). destruct r; [destruct Hi..|]. destruct Hi as [<-|[]]. exact Hf. }
      intros f g H1 H2 _. rewrite (K f H1), (K g H2). reflexivity. }
  destruct (document_read [mkPH w h rs] C L) as (kids & pages & res & R & _ & F). inversion F as [|? pv ? ? (Mb & ms & Pt & Hm) F2]; subst. inversion F2; subst.
  exists kids, pv, res, ms. split; [exact R|]. split; [exact Pt|]. exact (wanted_glyphs _ _ Hf _ _ _ Hm).
Qed.
End Paint.
