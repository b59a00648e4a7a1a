(** What is painted on the page. *)
From Coq Require Import QArith Qabs Lqa.
From Verif Require Import Base Dom StyleValues StyleProperties PdfObject PdfObjectSpec PdfSyntax PdfSyntaxSpec PdfConvert PdfConvertSpec
  PdfConvertProofs PdfDocProofs PdfPagesProofs Geom Text LayoutTree LayoutProofs Layout Paint PaintSpec.
Local Open Scope nat_scope.

(** ** Fragments *)
Section FragmentInd.
Variable P : fragment -> Prop.
Hypothesis Hbox : forall b l, Forall P l -> P (FBox b l).
Hypothesis Hanon : forall r m l, Forall P l -> P (FAnonymous r m l).
Hypothesis Htext : forall s r t, P (FText s r t).
Fixpoint fragment_induction (f : fragment) : P f :=
  match f with
  | FBox b l => Hbox b l ((fix go l : Forall P l := match l with [] => Forall_nil _ | f :: r => Forall_cons _ (fragment_induction f) (go r) end) l)
  | FAnonymous r m l => Hanon r m l ((fix go l : Forall P l := match l with [] => Forall_nil _ | f :: r => Forall_cons _ (fragment_induction f) (go r) end) l)
  | FText s r t => Htext s r t
  end.
End FragmentInd.

(** ** Fonts that can be embedded *)
Lemma embeddable_added : forall d f, embeddable f = true -> exists d' k, add_font d f = (d', Ok k).
Proof.
  intros d f H. unfold add_font. destruct (assoc (f_addr f) (d_fonts d)); [eauto|].
  unfold embeddable in H. apply andb_prop in H as [H1 H2].
  destruct (f_code_points_result f); [discriminate H1|].
  destruct (add_stream _ _ _) as [pdf1 i1]. destruct (add_dictionary _ _) as [pdf2 i2]. destruct (add_stream pdf2 _ _) as [pdf3 i3].
  destruct (proj2 (glyph_widths_ok (f_glyph_width f) (N.to_nat (f_glyph_count f)) 0)) as (l & E); [exact H2|].
  change (N.of_nat 0) with 0%N in E. rewrite E. destruct (add_dictionary pdf3 _) as [pdf4 i4]. eauto.
Qed.

Section Paint.
Variable round : Q -> dec.
Variable vera : font.
Notation paint_onto := (paint_onto round vera).
Notation paint_fragments := (paint_fragments round vera).

(** ** Requests *)
Definition box_requests (b : box_fragment) (o : pvec Q) : list request :=
  if (0 <? alpha (to_rgba (bf_style b) (get (bf_style b) background_color)))%N then
    let c := start_corner (border_rect b) in
    [SetColor (rgba_into round (to_rgba (bf_style b) (get (bf_style b) background_color)));
     PaintRectangle (round (v_inline c + x_ o)%Q) (round (v_block c + y_ o)%Q)
       (round (v_inline (size (border_rect b)))) (round (v_block (size (border_rect b))))]
  else [].
Definition text_requests (s : computed_values) (r : rect Q) (t : shaped) (o : pvec Q) : list request :=
  [SetColor (rgba_into round (get s color_));
   ShowText vera (glyphs t) (round (get s font_size)) (round (v_inline (start_corner r) + x_ o)%Q)
     (round (v_block (start_corner r) + y_ o + get s font_size * f_ascender vera)%Q)].
Definition moved (r : rect Q) (o : pvec Q) : pvec Q := padd (mkPvec (v_inline (start_corner r)) (v_block (start_corner r))) o.
Fixpoint requests (o : pvec Q) (f : fragment) : list request :=
  match f with
  | FBox b l => box_requests b o ++ flat_map (requests (moved (bf_content_rect b) o)) l
  | FAnonymous r _ l => flat_map (requests (moved r o)) l
  | FText s r t => text_requests s r t o
  end.
Definition HL : wmode := (HorizontalTb, Ltr).

(** Without a panic: all fragments are upright and the font can be embedded if it is used. *)
Inductive paintable : fragment -> Prop :=
| pt_box : forall b l, Forall paintable l -> paintable (FBox b l)
| pt_anon : forall r l, Forall paintable l -> paintable (FAnonymous r HL l)
| pt_text : forall s r t, embeddable vera = true -> paintable (FText s r t).

Lemma paint_box : forall b l st cb, paint_onto (FBox b l) st cb =
  paint_fragments l (fold_left do_request (box_requests b (top_left cb)) st)
    (translate (mkPrect (mkPvec (v_inline (start_corner (bf_content_rect b))) (v_block (start_corner (bf_content_rect b))))
       (mkPvec (v_inline (size (bf_content_rect b))) (v_block (size (bf_content_rect b))))) (top_left cb)).
Proof.
  intros b l st cb. cbn [Paint.paint_onto]. unfold box_requests. set (c := to_rgba _ _).
  change (style_writing_mode (bf_style b)) with HL. cbn [to_physical HL].
  assert (E : forall l st cb, (fix go (l0 : list fragment) (st0 : doc * page) (cb0 : prect Q) {struct l0} : option (doc * page) :=
     match l0 with [] => Some st0 | child :: r => match paint_onto child st0 cb0 with Some st1 => go r st1 cb0 | None => None end end) l st cb = paint_fragments l st cb).
  { induction l0 as [|f r IH]; intros st0 cb0; cbn [Paint.paint_fragments]; [reflexivity|]. destruct (paint_onto f st0 cb0); [apply IH|reflexivity]. }
  destruct (0 <? alpha c)%N.
  - cbn [fold_left]. destruct st as [d p]. cbn [fst snd do_request]. destruct (set_color d p (rgba_into round c)) as [d1 p1]. apply E.
  - cbn [fold_left]. apply E.
Qed.
Lemma paint_anon : forall r l st cb, paint_onto (FAnonymous r HL l) st cb =
  paint_fragments l st (translate (mkPrect (mkPvec (v_inline (start_corner r)) (v_block (start_corner r)))
       (mkPvec (v_inline (size r)) (v_block (size r)))) (top_left cb)).
Proof.
  intros r l st cb. cbn [Paint.paint_onto HL to_physical size_to_physical].
  set (cb' := translate _ _). clearbody cb'. revert st. induction l as [|f l IH]; intros st; cbn [Paint.paint_fragments]; [reflexivity|].
  destruct (paint_onto f st cb'); [apply IH|reflexivity].
Qed.
Lemma paint_text : forall s r t st cb, paint_onto (FText s r t) st cb =
  let (d, p) := set_color (fst st) (snd st) (rgba_into round (get s color_)) in
  match show_text d p vera (glyphs t) (round (get s font_size)) (round (v_inline (start_corner r) + x_ (top_left cb))%Q)
     (round (v_block (start_corner r) + y_ (top_left cb) + get s font_size * f_ascender vera)%Q) with
  | (d, p, Ok _) => Some (d, p) | _ => None end.
Proof. reflexivity. Qed.

Lemma paint_requests : forall f, paintable f -> forall st cb,
  paint_onto f st cb = Some (fold_left do_request (requests (top_left cb) f) st).
Proof.
  assert (L : forall l, Forall (fun f => paintable f -> forall st cb, paint_onto f st cb = Some (fold_left do_request (requests (top_left cb) f) st)) l ->
    Forall paintable l -> forall st cb, paint_fragments l st cb = Some (fold_left do_request (flat_map (requests (top_left cb)) l) st)).
  { induction l as [|f l IH]; intros H Hp st cb; cbn [Paint.paint_fragments flat_map]; [reflexivity|].
    inversion H; subst. inversion Hp; subst. rewrite H2, IH by assumption. rewrite fold_left_app. reflexivity. }
  induction f using fragment_induction; intros Hp st cb; inversion Hp; subst.
  - rewrite paint_box. cbn [requests]. rewrite L by assumption. rewrite fold_left_app. reflexivity.
  - rewrite paint_anon. rewrite L by assumption. reflexivity.
  - rewrite paint_text. cbn [requests]. unfold text_requests. cbn [fold_left]. destruct st as [d p]. cbn [fst snd do_request].
    destruct (set_color d p (rgba_into round (get s color_))) as [d1 p1]. cbn [do_request]. unfold show_text.
    destruct (embeddable_added d1 vera) as (d2 & k & E); [assumption|]. rewrite E. reflexivity.
Qed.
Lemma paint_all_requests : forall l, Forall paintable l -> forall st cb,
  paint_fragments l st cb = Some (fold_left do_request (flat_map (requests (top_left cb)) l) st).
Proof.
  induction l as [|f l IH]; intros Hp st cb; cbn [Paint.paint_fragments flat_map]; [reflexivity|]. inversion Hp; subst.
  rewrite paint_requests, IH by assumption. rewrite fold_left_app. reflexivity.
Qed.
Definition page_requests (frs : list fragment) : list request := flat_map (requests (mkPvec 0%Q 0%Q)) frs.
Lemma pdf_bytes : forall frs, Forall paintable frs ->
  fragments_to_pdf_bytes round vera frs = Some (doc_write (run [mkPH (round PAGE_WIDTH) (round PAGE_HEIGHT) (page_requests frs)])).
Proof.
  intros frs H. unfold fragments_to_pdf_bytes. rewrite paint_all_requests by exact H. cbn [top_left].
  unfold run. cbn [fold_left do_page ph_requests ph_width ph_height]. unfold do_page. cbn [ph_requests ph_width ph_height].
  fold (page_requests frs). destruct (fold_left do_request (page_requests frs) _) as [d p]. reflexivity.
Qed.

(** A panic otherwise *)
Definition font_ok (st : doc * page) : Prop := embeddable vera = true \/ assoc (f_addr vera) (d_fonts (fst st)) = None.
Lemma set_color_fonts : forall d p c, d_fonts (fst (set_color d p c)) = d_fonts d.
Proof.
  intros d p [[[r g] b] a]. unfold set_color. destruct (pg_rgb p) as [[r0 g0] b0]. unfold set_alpha. destruct (negb (dec_eqb _ _)); [|reflexivity].
  destruct (assoc _ _); reflexivity.
Qed.
Lemma not_added : forall d f, embeddable f <> true -> assoc (f_addr f) (d_fonts d) = None -> forall d' k, add_font d f <> (d', Ok k).
Proof.
  intros d f H Ha d' k E. unfold add_font in E. rewrite Ha in E.
  destruct (add_stream _ _ _) as [pdf1 i1]. destruct (add_dictionary _ _) as [pdf2 i2].
  destruct (f_code_points_result f) eqn:Er; [discriminate E|]. destruct (add_stream pdf2 _ _) as [pdf3 i3].
  destruct (glyph_widths _ _ _) as [l| |] eqn:Ew; [|discriminate E..]. apply H. unfold embeddable. rewrite Er. cbn [andb].
  apply (glyph_widths_ok (f_glyph_width f) (N.to_nat (f_glyph_count f)) 0). exists l. exact Ew.
Qed.
Lemma box_requests_fonts : forall b o st, d_fonts (fst (fold_left do_request (box_requests b o) st)) = d_fonts (fst st).
Proof.
  intros b o st. unfold box_requests. destruct (0 <? _)%N; [|reflexivity]. cbn [fold_left]. destruct st as [d p]. cbn [do_request fst].
  pose proof (set_color_fonts d p (rgba_into round (to_rgba (bf_style b) (get (bf_style b) background_color)))) as H.
  destruct (set_color _ _ _) as [d1 p1]. exact H.
Qed.
Lemma painted_paintable : forall f st cb st', font_ok st -> paint_onto f st cb = Some st' -> paintable f /\ font_ok st'.
Proof.
  assert (L : forall l, Forall (fun f => forall st cb st', font_ok st -> paint_onto f st cb = Some st' -> paintable f /\ font_ok st') l ->
    forall st cb st', font_ok st -> paint_fragments l st cb = Some st' -> Forall paintable l /\ font_ok st').
  { induction l as [|f l IH]; intros H st cb st' Hs E; cbn [Paint.paint_fragments] in E.
    - injection E as <-. split; [constructor|exact Hs].
    - inversion H; subst. destruct (paint_onto f st cb) as [st1|] eqn:E1; [|discriminate E]. destruct (H2 _ _ _ Hs E1) as [Hp H1].
      destruct (IH H3 _ _ _ H1 E) as [Hl Hs']. split; [constructor; assumption|exact Hs']. }
  induction f using fragment_induction; intros st cb st' Hs E.
  - rewrite paint_box in E. apply (L l H) in E as [Hl Hs']; [split; [constructor; exact Hl|exact Hs']|].
    unfold font_ok in *. rewrite box_requests_fonts. exact Hs.
  - assert (m = HL) as ->. { cbn [Paint.paint_onto to_physical] in E. destruct m as [[] []]; try discriminate E. reflexivity. }
    rewrite paint_anon in E. apply (L l H) in E as [Hl Hs']; [split; [constructor; exact Hl|exact Hs']|exact Hs].
  - rewrite paint_text in E. destruct st as [d p]. cbn [fst snd] in E.
    pose proof (set_color_fonts d p (rgba_into round (get s color_))) as Hc. destruct (set_color d p _) as [d1 p1]. cbn [fst] in Hc.
    unfold show_text in E. destruct (add_font d1 vera) as [d2 [k| |]] eqn:Ea; [|discriminate E..].
    assert (embeddable vera = true) as He.
    { destruct Hs as [He|Ha]; [exact He|]. destruct (embeddable vera) eqn:Ee; [reflexivity|exfalso].
      cbn [fst] in Ha. rewrite <- Hc in Ha. refine (not_added d1 vera _ Ha d2 k Ea). rewrite Ee. discriminate. }
    split; [constructor; exact He|left; exact He].
Qed.
Lemma unpaintable : forall frs, fragments_to_pdf_bytes round vera frs <> None -> Forall paintable frs.
Proof.
  intros frs H. unfold fragments_to_pdf_bytes in H.
  assert (L : forall l st cb st', font_ok st -> paint_fragments l st cb = Some st' -> Forall paintable l).
  { induction l as [|f l IH]; intros st cb st' Hs E; cbn [Paint.paint_fragments] in E; [constructor|].
    destruct (paint_onto f st cb) as [st1|] eqn:E1; [|discriminate E]. apply painted_paintable in E1 as [Hp H1]; [|exact Hs].
    constructor; [exact Hp|]. exact (IH _ _ _ H1 E). }
  destruct (paint_fragments frs _ _) as [st|] eqn:E; [|contradiction]. refine (L _ _ _ _ _ E). right. reflexivity.
Qed.

(** The same said with the list of all fragments *)
Lemma all_in : forall f above, (forall p, In p (with_ancestors above f) -> upright p) ->
  (forall a s r t, In (a, FText s r t) (with_ancestors above f) -> embeddable vera = true) -> paintable f.
Proof.
  induction f using fragment_induction; intros above Hu Ht.
  - constructor. rewrite Forall_forall in *. intros f Hf. apply (H f Hf (above ++ [FBox b l])).
    + intros p Hp. apply Hu. cbn [with_ancestors]. right. apply in_flat_map. eauto.
    + intros a s r t Hp. apply (Ht a s r t). cbn [with_ancestors]. right. apply in_flat_map. eauto.
  - assert (m = HL) as -> by (specialize (Hu _ (or_introl eq_refl)); exact Hu).
    constructor. rewrite Forall_forall in *. intros f Hf. apply (H f Hf (above ++ [FAnonymous r HL l])).
    + intros p Hp. apply Hu. cbn [with_ancestors]. right. apply in_flat_map. eauto.
    + intros a s r' t Hp. apply (Ht a s r' t). cbn [with_ancestors]. right. apply in_flat_map. eauto.
  - constructor. apply (Ht above s r t). left. reflexivity.
Qed.
Lemma all_paintable : forall frs, Forall upright (all_fragments frs) -> (has_text frs -> embeddable vera = true) -> Forall paintable frs.
Proof.
  intros frs Hu Ht. rewrite Forall_forall in *. intros f Hf. apply (all_in f []).
  - intros p Hp. apply Hu. apply in_flat_map. eauto.
  - intros a s r t Hp. apply Ht. exists a, s, r, t. apply in_flat_map. eauto.
Qed.
Lemma paintable_all : forall f above, paintable f -> forall p, In p (with_ancestors above f) ->
  upright p /\ (forall a s r t, p = (a, FText s r t) -> embeddable vera = true).
Proof.
  induction f using fragment_induction; intros above Hp p Hi; inversion Hp; subst; cbn [with_ancestors] in Hi; (destruct Hi as [<-|Hi]; [split; [exact I || reflexivity|intros a s0 r0 t0 E; try discriminate E; assumption]|]).
  - apply in_flat_map in Hi as (f & Hf & Hi). rewrite Forall_forall in *. exact (H f Hf _ (H1 f Hf) p Hi).
  - apply in_flat_map in Hi as (f & Hf & Hi). rewrite Forall_forall in *. exact (H f Hf _ (H1 f Hf) p Hi).
  - destruct Hi.
Qed.

(** ** Marks *)
Definition fill (c : rgba) (x y w h : Q) : wanted :=
  let v q := dec_value (round q) in
  WFill [ (Qred (pt (v x)), Qred (- pt (v y))); (Qred (pt (v x + v w)), Qred (- pt (v y)));
          (Qred (pt (v x + v w)), Qred (- pt (v y + v h))); (Qred (pt (v x)), Qred (- pt (v y + v h))) ]
        (v (fraction (red c)), v (fraction (green c)), v (fraction (blue c))) (clamp (v (fraction (alpha c)))).
Definition glyph_run (s : computed_values) (gs : list N) (x y : Q) : wanted :=
  let v q := dec_value (round q) in
  let c := get s color_ in
  WText vera (mkM (Qred (pt (v (get s font_size)))) 0 0 (Qred (pt (v (get s font_size)))) (Qred (pt (v x))) (Qred (- pt (v y)))) gs
        (v (fraction (red c)), v (fraction (green c)), v (fraction (blue c))) (clamp (v (fraction (alpha c)))).
Fixpoint wanted_of (o : pvec Q) (f : fragment) : list wanted :=
  match f with
  | FBox b l =>
      (if (0 <? alpha (background (bf_style b)))%N
       then [fill (background (bf_style b)) (v_inline (start_corner (border_rect b)) + x_ o) (v_block (start_corner (border_rect b)) + y_ o)
               (v_inline (size (border_rect b))) (v_block (size (border_rect b)))]
       else []) ++ flat_map (wanted_of (moved (bf_content_rect b) o)) l
  | FAnonymous r _ l => flat_map (wanted_of (moved r o)) l
  | FText s r t => [glyph_run s (glyphs t) (v_inline (start_corner r) + x_ o) (v_block (start_corner r) + y_ o + get s font_size * f_ascender vera)]
  end.
Lemma wants_of : forall f, paintable f -> forall o rgb a rest, exists rgb' a',
  wants rgb a (requests o f ++ rest) = wanted_of o f ++ wants rgb' a' rest.
Proof.
  assert (L : forall l, Forall (fun f => paintable f -> forall o rgb a rest, exists rgb' a', wants rgb a (requests o f ++ rest) = wanted_of o f ++ wants rgb' a' rest) l ->
    Forall paintable l -> forall o rgb a rest, exists rgb' a', wants rgb a (flat_map (requests o) l ++ rest) = flat_map (wanted_of o) l ++ wants rgb' a' rest).
  { induction l as [|f l IH]; intros H Hp o rgb a rest; cbn [flat_map app]; [eauto|]. inversion H; subst. inversion Hp; subst.
    rewrite <- !app_assoc. destruct (H2 H4 o rgb a (flat_map (requests o) l ++ rest)) as (rgb1 & a1 & E1). rewrite E1.
    destruct (IH H3 H5 o rgb1 a1 rest) as (rgb2 & a2 & E2). rewrite E2. exists rgb2, a2. rewrite <- app_assoc. reflexivity. }
  induction f using fragment_induction; intros Hp o rgb a rest; inversion Hp; subst.
  - cbn [requests wanted_of]. unfold box_requests. fold (background (bf_style b)). change (to_rgba (bf_style b) (get (bf_style b) background_color)) with (background (bf_style b)).
    destruct (0 <? alpha (background (bf_style b)))%N; cbn [app].
    + cbn [wants rgba_into].
      match goal with |- context [wants ?r ?al (_ ++ rest)] => destruct (L l H H1 (moved (bf_content_rect b) o) r al rest) as (rgb' & a' & E) end.
      rewrite E. exists rgb', a'. reflexivity.
    + apply (L l H H1).
  - apply (L l H H1).
  - cbn [requests wanted_of text_requests app wants rgba_into]. rewrite H0. cbn [app]. do 2 eexists. reflexivity.
Qed.
Lemma wants_all : forall frs, Forall paintable frs -> forall rgb a, wants rgb a (page_requests frs) = flat_map (wanted_of (mkPvec 0%Q 0%Q)) frs.
Proof.
  unfold page_requests. induction frs as [|f frs IH]; intros Hp rgb a; cbn [flat_map]; [reflexivity|]. inversion Hp; subst.
  destruct (wants_of f H1 (mkPvec 0%Q 0%Q) rgb a (flat_map (requests (mkPvec 0%Q 0%Q)) frs)) as (rgb' & a' & E). rewrite E, IH by assumption. reflexivity.
Qed.

(** ** Numbers *)
Local Open Scope Q_scope.
Lemma near_eq : forall x q q', q == q' -> near x q -> near x q'.
Proof. intros x q q' E H. unfold near in *. rewrite <- E. exact H. Qed.
Lemma ordinary_eq : forall q q', q == q' -> ordinary q -> ordinary q'.
Proof. intros q q' E H. unfold ordinary in *. rewrite <- E. exact H. Qed.
Lemma abs_cases : forall q, (0 <= q /\ Qabs q == q) \/ (q <= 0 /\ Qabs q == - q).
Proof.
  intros q. destruct (Qlt_le_dec q 0) as [H|H]; [right|left].
  - split; [lra|]. apply Qabs_neg. lra.
  - split; [exact H|]. apply Qabs_pos. exact H.
Qed.
Lemma dec_value_zero : forall d, dec_value d == 0 -> dec_value d = 0.
Proof.
  intros d H. unfold dec_value, real_value in *. set (q := inject_Z _ * _) in *. clearbody q.
  rewrite Qred_correct in H. rewrite (Qred_complete q 0 H). reflexivity.
Qed.
Hypothesis Hround : rounding round.
Lemma ordinary_moderate : forall q, ordinary q -> moderate (round q).
Proof.
  intros q H. destruct (Hround q H) as [Hw Hn]. split; [exact Hw|]. unfold near in Hn. set (v := dec_value (round q)) in *.
  destruct H as [H|[H1 H2]].
  - left. apply dec_value_zero. fold v. rewrite H in Hn. assert (Hz : Qabs 0 * (1 # 8000000) == 0) by reflexivity. rewrite Hz in Hn.
    destruct (abs_cases (v - 0)) as [[? E]|[? E]]; rewrite E in Hn; lra.
  - right. change (inject_Z (10 ^ 19)) with (10000000000000000000 # 1) in H2. change (inject_Z (10 ^ 20)) with (100000000000000000000 # 1).
    destruct (abs_cases (v - q)) as [[A1 E1]|[A1 E1]], (abs_cases q) as [[A2 E2]|[A2 E2]], (abs_cases v) as [[A3 E3]|[A3 E3]];
      rewrite E3, ?E1, ?E2 in *; split; lra.
Qed.
Lemma fraction_ordinary : forall n, (n <= 255)%N -> ordinary (fraction n) /\ 0 <= fraction n <= 1.
Proof.
  intros n H. unfold fraction. assert (0 <= inject_Z (Z.of_N n)) by (change 0 with (inject_Z 0); rewrite <- Zle_Qle; lia).
  assert (inject_Z (Z.of_N n) <= 255) by (change 255 with (inject_Z 255); rewrite <- Zle_Qle; lia).
  assert (B : 0 <= inject_Z (Z.of_N n) / 255 <= 1).
  { split; [apply Qle_shift_div_l|apply Qle_shift_div_r]; lra. }
  split; [|exact B]. destruct (N.eq_dec n 0) as [->|Hn]; [left; reflexivity|right].
  assert (1 <= inject_Z (Z.of_N n)) by (change 1 with (inject_Z 1); rewrite <- Zle_Qle; lia).
  assert (1 # 255 <= inject_Z (Z.of_N n) / 255) by (apply Qle_shift_div_l; lra).
  change (inject_Z (10 ^ 19)) with (10000000000000000000 # 1). rewrite Qabs_pos by lra. split; lra.
Qed.
Lemma alpha_near : forall a v n, (n <= 255)%N -> near v (fraction n) -> close_alpha a (clamp v) ->
  Qabs (a - fraction n) <= (1 # 64000) + (1 # 8000000).
Proof.
  intros a v n Hn H Ha. destruct (fraction_ordinary n Hn) as [_ [B1 B2]]. unfold near, close_alpha, clamp in *. set (q := fraction n) in *. clearbody q.
  rewrite (Qabs_pos q B1) in H.
  assert (C : exists c, (if Qle_bool v 0 then 0 else if Qle_bool 1 v then 1 else v) = c /\ - (1 # 8000000) <= c - q <= 1 # 8000000).
  { destruct (Qle_bool v 0) eqn:E1; [exists 0|destruct (Qle_bool 1 v) eqn:E2; [exists 1|exists v]]; (split; [reflexivity|]).
    - apply Qle_bool_iff in E1. destruct (abs_cases (v - q)) as [[A E]|[A E]]; rewrite E in H; lra.
    - apply Qle_bool_iff in E2. destruct (abs_cases (v - q)) as [[A E]|[A E]]; rewrite E in H; lra.
    - destruct (abs_cases (v - q)) as [[A E]|[A E]]; rewrite E in H; lra. }
  destruct C as (c & Ec & C). rewrite Ec in Ha.
  destruct (abs_cases (a - c)) as [[A E]|[A E]]; rewrite E in Ha; destruct (abs_cases (a - q)) as [[A' E']|[A' E']]; rewrite E'; lra.
Qed.
Lemma color_moderate : forall c, byte_color c ->
  moderate (round (fraction (red c))) /\ moderate (round (fraction (green c))) /\ moderate (round (fraction (blue c))) /\ moderate (round (fraction (alpha c))).
Proof. intros c (H1 & H2 & H3 & H4). repeat split; apply ordinary_moderate; apply fraction_ordinary; assumption. Qed.
Lemma color_in : forall c a, byte_color c -> close_alpha a (clamp (dec_value (round (fraction (alpha c))))) ->
  in_color c (dec_value (round (fraction (red c))), dec_value (round (fraction (green c))), dec_value (round (fraction (blue c)))) a.
Proof.
  intros c a (H1 & H2 & H3 & H4) Ha. split; [|split; [|split]]; try (apply Hround; apply fraction_ordinary; assumption).
  apply (alpha_near a _ _ H4 (proj2 (Hround _ (proj1 (fraction_ordinary _ H4)))) Ha).
Qed.

(** ** Positions *)
Definition at_content (o : pvec Q) (above : list fragment) : Prop :=
  x_ o == total (map (fun g => fst (corner g)) above) /\ y_ o == total (map (fun g => snd (corner g)) above).
Lemma total_app : forall l q, total (l ++ [q]) == total l + q.
Proof. induction l as [|a l IH]; intros q; cbn [total fold_right app] in *; [lra|]. unfold total in IH. rewrite IH. ring. Qed.
Lemma edges_at : forall o above f, at_content o above ->
  left_edge above f == fst (corner f) + x_ o /\ top_edge above f == snd (corner f) + y_ o.
Proof.
  intros o above f [Hx Hy]. unfold left_edge, top_edge. rewrite !map_app. cbn [map]. rewrite !total_app, Hx, Hy. split; ring.
Qed.
Lemma moved_at : forall o above f r, at_content o above -> corner f = (v_inline (start_corner r), v_block (start_corner r)) ->
  at_content (moved r o) (above ++ [f]).
Proof.
  intros o above f r [Hx Hy] E. unfold at_content, moved, padd. cbn [x_ y_]. rewrite !map_app. cbn [map]. rewrite !total_app, Hx, Hy, E. cbn [fst snd]. split; ring.
Qed.

(** ** Requests are clean *)
Hypothesis Hname : clean_name (f_name vera).
Lemma requests_clean : forall f o above, at_content o above -> Forall (drawable vera) (with_ancestors above f) ->
  Forall clean_request (requests o f).
Proof.
  assert (L : forall l o above, at_content o above ->
    Forall (fun f => forall o above, at_content o above -> Forall (drawable vera) (with_ancestors above f) -> Forall clean_request (requests o f)) l ->
    Forall (drawable vera) (flat_map (with_ancestors above) l) -> Forall clean_request (flat_map (requests o) l)).
  { induction l as [|f l IH]; intros o above Ho H Hd; cbn [flat_map] in *; [constructor|]. inversion H; subst. apply Forall_app in Hd as [H1 H4].
    apply Forall_app. split; [exact (H2 o above Ho H1)|exact (IH o above Ho H3 H4)]. }
  induction f using fragment_induction; intros o above Ho Hd; cbn [with_ancestors] in Hd; inversion Hd as [|? ? H1 H2]; subst; cbn [requests].
  - apply Forall_app. split; [|exact (L l _ _ (moved_at o above (FBox b l) _ Ho eq_refl) H H2)].
    unfold box_requests. change (to_rgba (bf_style b) (get (bf_style b) background_color)) with (background (bf_style b)).
    destruct (0 <? alpha (background (bf_style b)))%N eqn:Ea; [|constructor].
    apply N.ltb_lt in Ea. destruct (H1 Ea) as (Hc & Hx & Hy & Hw & Hh). destruct (edges_at o above (FBox b l) Ho) as [Ex Ey]. cbn [corner fst snd] in Ex, Ey.
    constructor; [exact (color_moderate _ Hc)|]. constructor; [|constructor]. cbn [clean_request border_rect inflate start_corner size v_inline v_block].
    split; [|split; [|split]]; apply ordinary_moderate; [refine (ordinary_eq _ _ _ Hx)|refine (ordinary_eq _ _ _ Hy)|refine (ordinary_eq _ _ _ Hw)|refine (ordinary_eq _ _ _ Hh)];
      unfold inline_sum, block_sum; rewrite ?Ex, ?Ey; ring.
  - exact (L l _ _ (moved_at o above (FAnonymous r m l) _ Ho eq_refl) H H2).
  - destruct H1 as (Hc & Hf & Hx & Hy & Hg). destruct (edges_at o above (FText s r t) Ho) as [Ex Ey]. cbn [corner fst snd] in Ex, Ey.
    constructor; [exact (color_moderate _ Hc)|]. constructor; [|constructor]. cbn [clean_request].
    split; [exact Hname|]. split; [exact Hg|]. split; [apply ordinary_moderate; exact Hf|].
    split; apply ordinary_moderate; [refine (ordinary_eq _ _ _ Hx)|refine (ordinary_eq _ _ _ Hy)]; rewrite ?Ex, ?Ey; ring.
Qed.

(** ** Marks of fragments *)
Variable file : bytes.
Lemma marks : forall f, paintable f -> forall o above ms, at_content o above -> Forall (drawable vera) (with_ancestors above f) ->
  Forall2 (painted_as file) (wanted_of o f) ms ->
  exists each, Forall2 (marks_of file vera) (with_ancestors above f) each /\ ms = concat each.
Proof.
  assert (L : forall l o above ms, Forall paintable l -> at_content o above ->
    Forall (fun f => paintable f -> forall o above ms, at_content o above -> Forall (drawable vera) (with_ancestors above f) ->
      Forall2 (painted_as file) (wanted_of o f) ms -> exists each, Forall2 (marks_of file vera) (with_ancestors above f) each /\ ms = concat each) l ->
    Forall (drawable vera) (flat_map (with_ancestors above) l) -> Forall2 (painted_as file) (flat_map (wanted_of o) l) ms ->
    exists each, Forall2 (marks_of file vera) (flat_map (with_ancestors above) l) each /\ ms = concat each).
  { induction l as [|f l IH]; intros o above ms Hp Ho H Hd Hm; cbn [flat_map] in *.
    - inversion Hm; subst. exists []. split; [constructor|reflexivity].
    - inversion H; subst. inversion Hp; subst. apply Forall_app in Hd as [Hd1 Hd2]. apply Forall2_app_inv_l in Hm as (m1 & m2 & Hm1 & Hm2 & ->).
      destruct (H2 H4 o above m1 Ho Hd1 Hm1) as (e1 & F1 & ->). destruct (IH o above m2 H5 Ho H3 Hd2 Hm2) as (e2 & F2 & ->).
      exists (e1 ++ e2). split; [apply Forall2_app; assumption|]. rewrite concat_app. reflexivity. }
  induction f using fragment_induction; intros Hp o above ms Ho Hd Hm; cbn [with_ancestors wanted_of] in *; inversion Hd as [|? ? H1 H2]; subst; inversion Hp; subst.
  - apply Forall2_app_inv_l in Hm as (m1 & m2 & Hm1 & Hm2 & ->).
    destruct (L l _ _ _ H3 (moved_at o above (FBox b l) _ Ho eq_refl) H H2 Hm2) as (e2 & F2 & ->). exists (m1 :: e2). split; [|reflexivity].
    constructor; [|exact F2]. destruct (0 <? alpha (background (bf_style b)))%N eqn:Ea.
    + apply N.ltb_lt in Ea. destruct (H1 Ea) as (Hc & Hx & Hy & Hw & Hh). destruct (edges_at o above (FBox b l) Ho) as [Ex Ey]. cbn [corner fst snd] in Ex, Ey.
      inversion Hm1 as [|? m ? ? Hpa Hnil]; subst. inversion Hnil; subst. destruct m as [poly rgb a|]; [|contradiction Hpa].
      destruct Hpa as (-> & -> & Ha). cbn [border_rect inflate start_corner size v_inline v_block].
      set (x := _ - _ - _ + x_ o). set (y := _ - _ - _ + y_ o). set (w := _ + inline_sum (bf_border b)). set (h := _ + block_sum (bf_border b)).
      apply (mk_background file vera above b l (dec_value (round x)) (dec_value (round y)) (dec_value (round w)) (dec_value (round h))).
      * exact Ea.
      * eapply near_eq; [|apply Hround; eapply ordinary_eq; [|exact Hx]]; unfold x; rewrite Ex; ring.
      * eapply near_eq; [|apply Hround; eapply ordinary_eq; [|exact Hy]]; unfold y; rewrite Ey; ring.
      * eapply near_eq; [|apply Hround; eapply ordinary_eq; [|exact Hw]]; unfold w, inline_sum; ring.
      * eapply near_eq; [|apply Hround; eapply ordinary_eq; [|exact Hh]]; unfold h, block_sum; ring.
      * split; cbn [fst snd]; rewrite Qred_correct; unfold pt; ring.
      * split; cbn [fst snd]; rewrite Qred_correct; unfold pt; ring.
      * split; cbn [fst snd]; rewrite Qred_correct; unfold pt; ring.
      * split; cbn [fst snd]; rewrite Qred_correct; unfold pt; ring.
      * apply color_in; assumption.
    + apply N.ltb_ge in Ea. inversion Hm1; subst. apply mk_transparent. lia.
  - destruct (L l _ _ _ H3 (moved_at o above (FAnonymous r HL l) _ Ho eq_refl) H H2 Hm) as (e2 & F2 & ->). exists ([] :: e2). split; [|reflexivity].
    constructor; [apply mk_anonymous|exact F2].
  - inversion Hm as [|? m ? ? Hpa Hnil]; subst. inversion Hnil; subst. destruct m as [|v m codes rgb a]; [contradiction Hpa|].
    destruct Hpa as (-> & Hu & -> & Ha & fv & Hr & Hrep). exists [[MText v (mkM (Qred (pt (dec_value (round (get s font_size))))) 0 0 (Qred (pt (dec_value (round (get s font_size)))))
      (Qred (pt (dec_value (round (v_inline (start_corner r) + x_ o))))) (Qred (- pt (dec_value (round (v_block (start_corner r) + y_ o + get s font_size * f_ascender vera)))))) codes
      (dec_value (round (fraction (red (get s color_)))), dec_value (round (fraction (green (get s color_)))), dec_value (round (fraction (blue (get s color_))))) a]].
    split; [|reflexivity]. constructor; [|constructor].
    destruct H1 as (Hc & Hf & Hx & Hy & Hg). destruct (edges_at o above (FText s r t) Ho) as [Ex Ey]. cbn [corner fst snd] in Ex, Ey.
    apply (mk_text file vera above s r t v _ codes _ a (dec_value (round (get s font_size))) (dec_value (round (v_inline (start_corner r) + x_ o)))
             (dec_value (round (v_block (start_corner r) + y_ o + get s font_size * f_ascender vera))) fv).
    + apply Hround. exact Hf.
    + eapply near_eq; [|apply Hround; eapply ordinary_eq; [|exact Hx]]; rewrite Ex; ring.
    + eapply near_eq; [|apply Hround; eapply ordinary_eq; [|exact Hy]]; rewrite Ey; ring.
    + cbn [ma]. rewrite Qred_correct. reflexivity.
    + reflexivity.
    + reflexivity.
    + cbn [md]. rewrite Qred_correct. reflexivity.
    + split; cbn [fst snd me mf]; rewrite Qred_correct; unfold pt; ring.
    + exact Hu.
    + apply color_in; assumption.
    + exact Hr.
    + exact Hrep.
Qed.
End Paint.
