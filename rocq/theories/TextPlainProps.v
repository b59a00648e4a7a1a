(** Property C62: pages of plain text *)
From Coq Require Import QArith Qabs Lqa.
From Verif Require Import PdfConvert LayoutProps Base FontCmap PdfObject PdfObjectSpec PdfConvertSpec PdfPagesProofs Text InlineSpec
  PaintSpec PaintProofs PaintProps TextPlain TextPlainSpec TextPlainProofs.
Local Open Scope nat_scope.

(** ** The specification does not depend on how numbers are written *)
Lemma fits_in_eq : forall a b l, (a == b)%Q -> fits_in a l -> fits_in b l.
Proof. intros a b l E H x w y El P. rewrite <- E. exact (H x w y El P). Qed.
Lemma in_lines_eq : forall a b ws ls rest, (a == b)%Q -> in_lines a ws ls rest -> in_lines b ws ls rest.
Proof.
  intros a b ws ls rest E H. induction H as [ws F1 F2|l w r ls rest F1 F2 F3 _ IH|l w r ls rest F1 F2 F3 F4 _ IH].
  - apply il_rest; [exact (fits_in_eq a b ws E F1)|exact F2].
  - apply il_hard; try assumption. exact (fits_in_eq a b _ E F1).
  - apply il_soft; try assumption; [exact (fits_in_eq a b _ E F1)|]. rewrite <- E. exact F4.
Qed.
Lemma start_above_eq : forall t b h t' b' h' n, (t == t')%Q -> (b == b')%Q -> (h == h')%Q -> lines_start_above t b h n -> lines_start_above t' b' h' n.
Proof. intros t b h t' b' h' n E1 E2 E3 H i Hi. rewrite <- E1, <- E2, <- E3. exact (H i Hi). Qed.
Lemma in_pages_eq : forall A t b h t' b' h' (ls : list A) ps, (t == t')%Q -> (b == b')%Q -> (h == h')%Q -> in_pages t b h ls ps -> in_pages t' b' h' ls ps.
Proof.
  intros A t b h t' b' h' ls ps E1 E2 E3 H. induction H as [ls F|ls r ps F1 F2 F3 _ IH].
  - apply ip_last. exact (start_above_eq _ _ _ _ _ _ _ E1 E2 E3 F).
  - apply ip_full; try assumption; [exact (start_above_eq _ _ _ _ _ _ _ E1 E2 E3 F2)|]. rewrite <- E1, <- E2, <- E3. exact F3.
Qed.
Definition same_place (p q : Q * Q * word) : Prop := (fst (fst p) == fst (fst q))%Q /\ (snd (fst p) == snd (fst q))%Q /\ snd p = snd q.
Lemma spacing_eq : forall a b j l, (a == b)%Q -> (spacing a j l == spacing b j l)%Q.
Proof.
  intros a b j l E. unfold spacing. assert (Eb : Qle_bool a (line_width (fst l)) = Qle_bool b (line_width (fst l))).
  { apply Bool.eq_iff_eq_true. rewrite !Qle_bool_iff, E. tauto. }
  rewrite Eb. destruct (_ && _); [rewrite E|]; reflexivity.
Qed.
Lemma placed_eq : forall l t a h b l' t' a' h' b' j ls, (l == l')%Q -> (t == t')%Q -> (a == a')%Q -> (h == h')%Q -> (b == b')%Q ->
  Forall2 same_place (placed_page l t a h b j ls) (placed_page l' t' a' h' b' j ls).
Proof.
  intros l t a h b l' t' a' h' b' j ls E1 E2 E3 E4 E5. unfold placed_page. induction (with_before [] ls) as [|nl r IH]; cbn [flat_map]; [constructor|].
  apply Forall2_app; [|exact IH]. clear IH. induction (with_before [] (fst (snd nl))) as [|bw r' IH]; cbn [map]; constructor; [|exact IH].
  split; [|split]; cbn [fst snd]; [|rewrite E2, E4, E5; reflexivity|reflexivity]. rewrite E1, (spacing_eq a a' j _ E3). reflexivity.
Qed.

(** ** Words of lines and pages *)
Lemma in_lines_words : forall a ws ls rest, in_lines a ws ls rest -> flat_map fst ls ++ rest = ws.
Proof.
  intros a ws ls rest H. induction H as [ws F1 F2|l w r ls rest F1 F2 F3 _ IH|l w r ls rest F1 F2 F3 F4 _ IH]; cbn [flat_map fst app]; [reflexivity| |];
    rewrite <- app_assoc, IH; reflexivity.
Qed.
Lemma in_pages_lines : forall A t b h (ls : list A) ps, in_pages t b h ls ps -> concat ps = ls.
Proof. intros A t b h ls ps H. induction H as [ls F|ls r ps F1 F2 F3 _ IH]; cbn [concat]; [apply app_nil_r|rewrite IH; reflexivity]. Qed.
Lemma with_before_snd : forall A (l : list A) b, map snd (with_before b l) = l.
Proof. induction l as [|x l IH]; intros b; cbn [with_before map snd]; [reflexivity|]. rewrite IH. reflexivity. Qed.
Lemma placed_words : forall l t a h b j ls, map snd (placed_page l t a h b j ls) = flat_map fst ls.
Proof.
  intros l t a h b j ls. unfold placed_page. rewrite <- (with_before_snd _ ls []) at 2. induction (with_before [] ls) as [|nl r IH]; cbn [flat_map map]; [reflexivity|].
  rewrite map_app, IH. f_equal. rewrite map_map. cbn [snd]. apply with_before_snd.
Qed.
Lemma in_lines_rest : forall a ws ls rest, in_lines a ws ls rest -> no_hard rest.
Proof. intros a ws ls rest H. induction H; assumption. Qed.
Lemma words_hard : forall glyph_id width fs segs ws, Forall2 (is_word glyph_id width fs) segs ws -> map w_hard ws = map snd segs.
Proof. intros glyph_id width fs segs ws H. induction H as [|s w segs ws Hw _ IH]; [reflexivity|]. cbn [map]. rewrite IH. inversion Hw; subst. reflexivity. Qed.

(** Lines and pages are determined by the words. *)
Lemma fits_in_app : forall a l r, fits_in a (l ++ r) -> fits_in a l.
Proof. intros a l r H x w y E P. apply (H x w (y ++ r)); [|exact P]. rewrite E, <- app_assoc. reflexivity. Qed.
Lemma split_cases : forall A (l l' : list A) r r', l ++ r = l' ++ r' -> (exists m, l' = l ++ m /\ r = m ++ r') \/ (exists x m, l = l' ++ x :: m /\ r' = x :: m ++ r).
Proof.
  intros A. induction l as [|x l IH]; intros l' r r' E; cbn [app] in E; [left; exists l'; auto|].
  destruct l' as [|y l']; cbn [app] in E; [right; exists x, l; subst; auto|]. injection E as -> E.
  destruct (IH _ _ _ E) as [(m & -> & ->)|(z & m & -> & ->)]; [left; exists m; auto|right; exists z, m; auto].
Qed.
Lemma lines_unique : forall a ws ls rest, in_lines a ws ls rest -> forall ls' rest', in_lines a ws ls' rest' -> ls = ls' /\ rest = rest'.
Proof.
  assert (H1 : forall a l w x, no_hard (l ++ w :: x) -> w_hard w = true -> fits_in a l -> False).
  { intros a l w x H E _. rewrite H in E; [discriminate E|]. apply in_or_app. right. left. reflexivity. }
  assert (S1 : forall a l w x, fits_in a (l ++ w :: x) -> (0 < line_width l)%Q -> (a < line_width l + w_width w)%Q -> False).
  { intros a l w x H P L. specialize (H l w x eq_refl P). lra. }
  intros a ws ls rest H. induction H as [ws F1 F2|l w r ls rest F1 F2 F3 H IH|l w r ls rest F1 F2 F3 F4 H IH]; intros ls' rest' H'.
  - inversion H' as [ws' G1 G2|l' w' r' ls2 rest2 G1 G2 G3 G4|l' w' r' ls2 rest2 G1 G2 G3 G4 G5]; subst; [split; reflexivity| |].
    + exfalso. rewrite <- app_assoc in F2. exact (H1 a l' w' r' F2 G3 (fits_in_app _ _ _ G1)).
    + exfalso. exact (S1 a l' w' r' F1 G3 G4).
  - inversion H' as [ws' G1 G2 E0|l' w' r' ls2 rest2 G1 G2 G3 G4 E0|l' w' r' ls2 rest2 G1 G2 G3 G4 G5 E0]; subst.
    + exfalso. rewrite <- app_assoc in G2. exact (H1 a l w r G2 F3 (fits_in_app _ _ _ F1)).
    + rewrite <- !app_assoc in E0. cbn [app] in E0. symmetry in E0. destruct (split_cases _ _ _ _ _ E0) as [([|x m] & E1 & E2)|(x & m & E1 & E2)].
      * rewrite app_nil_r in E1. subst l'. injection E2 as <- <-. destruct (IH _ _ G4) as [-> ->]. split; reflexivity.
      * injection E2 as <- E2. subst l'. exfalso. exact (H1 a l w m G2 F3 (fits_in_app _ _ _ F1)).
      * injection E2 as <- E2. subst l. exfalso. exact (H1 a l' w' m F2 G3 (fits_in_app _ _ _ G1)).
    + rewrite <- app_assoc in E0. cbn [app] in E0. symmetry in E0. destruct (split_cases _ _ _ _ _ E0) as [([|x m] & E1 & E2)|(x & m & E1 & E2)].
      * exfalso. rewrite app_nil_r in E1. subst l'. injection E2 as <- <-. exact (S1 a l w [] F1 G3 G4).
      * injection E2 as <- E2. subst l'. exfalso. exact (H1 a l w m G2 F3 (fits_in_app _ _ _ F1)).
      * injection E2 as <- E2. exfalso. subst l. rewrite <- app_assoc in F1. exact (S1 a l' w' (m ++ [w]) F1 G3 G4).
  - inversion H' as [ws' G1 G2 E0|l' w' r' ls2 rest2 G1 G2 G3 G4 E0|l' w' r' ls2 rest2 G1 G2 G3 G4 G5 E0]; subst.
    + exfalso. exact (S1 a l w r G1 F3 F4).
    + rewrite <- app_assoc in E0. cbn [app] in E0. symmetry in E0. destruct (split_cases _ _ _ _ _ E0) as [([|x m] & E1 & E2)|(x & m & E1 & E2)].
      * exfalso. rewrite app_nil_r in E1. subst l'. injection E2 as <- <-. exact (S1 a l w [] G1 F3 F4).
      * injection E2 as <- E2. exfalso. subst l'. rewrite <- app_assoc in G1. exact (S1 a l w (m ++ [w']) G1 F3 F4).
      * injection E2 as <- E2. subst l. exfalso. exact (H1 a l' w' m F2 G3 (fits_in_app _ _ _ G1)).
    + symmetry in E0. destruct (split_cases _ _ _ _ _ E0) as [([|x m] & E1 & E2)|(x & m & E1 & E2)].
      * rewrite app_nil_r in E1. subst l'. injection E2 as <- <-. destruct (IH _ _ G5) as [-> ->]. split; reflexivity.
      * injection E2 as <- E2. subst l'. exfalso. exact (S1 a l w m G1 F3 F4).
      * injection E2 as <- E2. subst l. exfalso. exact (S1 a l' w' m F1 G3 G4).
Qed.
Lemma pages_unique : forall A t b h (ls : list A) ps, in_pages t b h ls ps -> forall ps', in_pages t b h ls ps' -> ps = ps'.
Proof.
  assert (K : forall t b h n m, lines_start_above t b h n -> 0 < m < n -> (b < t + inject_Z (Z.of_nat m) * h)%Q -> False).
  { intros t b h n m H Hm L. specialize (H m Hm). lra. }
  assert (P : forall A (l : list A), l <> [] -> 0 < length l) by (intros A [|x l] H; [destruct (H eq_refl)|cbn [length]; lia]).
  intros A t b h ls ps H. induction H as [ls F|ls r ps F1 F2 F3 H IH]; intros ps' H'.
  - inversion H' as [ls' G|ls' r' ps2 G1 G2 G3 G4]; subst; [reflexivity|]. exfalso. refine (K _ _ _ _ _ F _ G3). rewrite app_length. specialize (P _ _ G1). lia.
  - inversion H' as [ls' G E|ls' r' ps2 G1 G2 G3 G4 E]; subst.
    + exfalso. refine (K _ _ _ _ _ G _ F3). rewrite app_length. specialize (P _ _ F1). lia.
    + symmetry in E. destruct (split_cases _ _ _ _ _ E) as [([|x m] & E1 & E2)|(x & m & E1 & E2)].
      * rewrite app_nil_r in E1. cbn [app] in E2. subst. rewrite (IH _ G4). reflexivity.
      * exfalso. refine (K _ _ _ _ _ G2 _ F3). subst ls'. rewrite app_length. specialize (P _ _ F1). cbn [length]. lia.
      * exfalso. refine (K _ _ _ _ _ F2 _ G3). subst ls. rewrite app_length. specialize (P _ _ G1). cbn [length]. lia.
Qed.

(** Words of the same text are the same. *)
Definition same_word (w w' : word) : Prop := w_glyphs w = w_glyphs w' /\ (w_width w == w_width w')%Q /\ w_hard w = w_hard w'.
Lemma same_width : forall l l', Forall2 same_word l l' -> (line_width l == line_width l')%Q.
Proof. intros l l' H. unfold line_width. induction H as [|w w' l l' (_ & W & _) _ IH]; cbn [map fold_right]; [reflexivity|]. rewrite W, IH. reflexivity. Qed.
Lemma fits_same : forall a l l', Forall2 same_word l l' -> fits_in a l -> fits_in a l'.
Proof.
  intros a l l' H F x w y E P. subst l'. apply Forall2_app_inv_r in H as (x0 & wy & Hx & Hwy & ->). inversion Hwy as [|w0 ? y0 ? (_ & W & _) Hy]; subst.
  rewrite <- (same_width _ _ Hx) in *. rewrite <- W. exact (F x0 w0 y0 eq_refl P).
Qed.
Lemma no_hard_same : forall l l', Forall2 same_word l l' -> no_hard l -> no_hard l'.
Proof. intros l l' H F. induction H as [|w w' l l' (_ & _ & W) _ IH]; intros x Hx; [destruct Hx|]. destruct Hx as [<-|Hx]; [rewrite <- W; apply F; left; reflexivity|]. apply IH; [|exact Hx]. intros z Hz. apply F. right. exact Hz. Qed.

Section Plain.
Variable round : Q -> dec.
Variable glyph_id : N -> res font_error N.
Variable style : plain_style.
Notation f := (ps_font style).
Notation layout segs := (plain_layout round glyph_id style (text_of segs) (break_positions 0 segs)).
Notation word_of := (is_word glyph_id (f_glyph_width f) (ps_font_size style)).
Notation of_chars segs := (Forall (fun s => Forall (fun c => is_char c = true) (fst s)) segs).

(** ** The sheet *)
Lemma width_eq : (page_width_ style == px (ps_page_width style))%Q. Proof. unfold page_width_, px, Px_per_mm, Px_per_in, Mm_per_in, Qdiv. ring. Qed.
Lemma height_eq : (page_height_ style == px (ps_page_height style))%Q. Proof. unfold page_height_, px, Px_per_mm, Px_per_in, Mm_per_in, Qdiv. ring. Qed.
Lemma margin_eq : (margin_ style == margin style)%Q. Proof. unfold margin_, margin, px, Px_per_mm, Px_per_in, Mm_per_in, Qdiv. ring. Qed.
Lemma min_x_eq : (min_x style == margin style)%Q. Proof. unfold min_x. rewrite margin_eq. ring. Qed.
Lemma min_y_eq : (min_y style == margin style)%Q. Proof. unfold min_y. rewrite margin_eq. ring. Qed.
Lemma max_y_eq : (max_y style == content_bottom style)%Q. Proof. unfold max_y, content_bottom. rewrite margin_eq, height_eq. ring. Qed.
Lemma avail_eq : (available_width style == content_width style)%Q. Proof. unfold available_width, content_width. rewrite margin_eq, width_eq. ring. Qed.
Lemma step_eq : (line_height_ style == line_step style)%Q. Proof. unfold line_height_, line_step, px_per_em, Qdiv. change (/ 1)%Q with 1%Q. ring. Qed.
Lemma baseline_eq : (baseline_y style == line_baseline style)%Q.
Proof. unfold baseline_y, line_baseline, half_leading, line_step, px_per_em, Qdiv. change (/ 1)%Q with 1%Q. ring. Qed.

(** ** C62 *)
(** Without panics in the font, layout ends and does not panic. *)
Theorem C62_no_panic : forall segs, of_chars segs -> (forall c, glyph_id c <> Panic) -> (forall g, f_glyph_width f g <> Panic) ->
  exists r, layout segs = Some r /\ r <> Panic.
Proof.
  intros segs Hc Hg Hw. destruct (layout_spec round glyph_id style segs Hc) as (ws & tail & r & E & Hs & Ht & El & H1 & H2). exists r. split; [exact El|]. intros ->.
  assert (Ht' : ending (A := unit) tail <> Panic).
  { intros X. rewrite X in Ht. destruct Ht as (s & t & c & _ & _ & _ & F). unfold fails in F. specialize (Hg c). destruct (glyph_id c) as [g|e|]; [|discriminate F|exact (Hg eq_refl)].
    specialize (Hw g). destruct (f_glyph_width f g); [exact F|discriminate F|exact (Hw eq_refl)]. }
  destruct (Bool.bool_dec (embeddable f) true) as [He|He].
  - assert (X : forall r, laid round style tail ws doc_new r -> r <> Panic) by (intros r [ls rest pages hs r' _ _ _ ->]; destruct (ending tail); congruence).
    exact (X _ (H1 He) eq_refl).
  - destruct (H2 He) as [(rest & _ & X)|[_ (i & _ & X)]]; [|exact (Hw i X)]. destruct (ending tail); congruence.
Qed.
(** It fails just if the font does. *)
Theorem C62_errors : forall segs e, of_chars segs -> layout segs = Some (Err e) ->
  (exists c, is_shown c segs /\ lookup_fails glyph_id f c e) \/ embedding_fails f e.
Proof.
  intros segs e Hc E. destruct (layout_spec round glyph_id style segs Hc) as (ws & tail & r & _ & _ & Ht & El & H1 & H2). rewrite El in E. injection E as ->.
  assert (K : Err e = match ending (A := unit) tail with Ok _ => Ok tt | Err e => Err e | Panic => Panic end -> exists c, is_shown c segs /\ lookup_fails glyph_id f c e).
  { destruct (ending tail) as [x|e'|]; intros X; [discriminate X| |discriminate X]. injection X as <-. destruct Ht as (s & t & c & Hi & Hv & Hin & F). exists c.
    split; [exists s, t; auto|]. unfold fails in F. unfold lookup_fails. destruct (glyph_id c) as [g|e1|]; [|left; congruence|discriminate F].
    right. exists g. split; [reflexivity|]. destruct (f_glyph_width f g); [destruct F|congruence|discriminate F]. }
  destruct (Bool.bool_dec (embeddable f) true) as [He|He].
  - left. apply K. pose proof (H1 He) as L; inversion L as [ls rest pages hs r0 _ _ _ X]. destruct (ending tail); congruence.
  - destruct (H2 He) as [(rest & _ & X)|[_ X]]; [left; apply K; destruct (ending tail); congruence|right]. exact X.
Qed.
Lemma shown_ok : forall segs, (forall c, is_shown c segs -> has_glyph glyph_id f c) -> forall r, ~ failing glyph_id style r segs.
Proof.
  intros segs H r (s & t & c & Hi & Hv & Hin & F). destruct (H c) as (g & w & Eg & Ew); [exists s, t; auto|]. unfold fails in F. rewrite Eg, Ew in F. exact F.
Qed.
Lemma words_glyphs : forall segs ws, Forall2 word_of segs ws -> forall c, is_shown c segs -> has_glyph glyph_id f c.
Proof.
  intros segs ws H. induction H as [|s w segs ws Hw _ IH]; intros c (s' & t & Hi & Hv & Hin); [destruct Hi|]. destruct Hi as [<-|Hi]; [|apply IH; exists s', t; auto].
  destruct Hw as [cs hard t' gs w width Hv' Sh _]. cbn [fst] in Hv. rewrite (visible_trim _ _ Hv') in Sh. rewrite (visible_trim _ _ Hv) in Hin. clear - Sh Hin.
  induction Sh as [|ch text g gs w width E1 E2 _ IH]; [destruct Hin|]. destruct Hin as [<-|Hin]; [exists g, w; auto|apply IH; exact Hin].
Qed.
Lemma words_same : forall segs ws ws', Forall2 word_of segs ws -> Forall2 word_of segs ws' -> Forall2 same_word ws ws'.
Proof.
  induction segs as [|s segs IH]; intros ws ws' H H'; inversion H as [|? w ? l Hw Hl]; inversion H' as [|? w' ? l' Hw' Hl']; subst; constructor; [|apply IH; assumption].
  inversion Hw as [cs hard t gs v width V S W]; subst. inversion Hw' as [cs' hard' t' gs' v' width' V' S' W']; subst.
  rewrite (visible_trim _ _ V) in S. rewrite (visible_trim _ _ V') in S'. destruct (InlineProofs.shapes_fun _ _ _ _ _ S _ _ S') as [-> ->].
  split; [reflexivity|]. split; [cbn [w_width]; rewrite W, W'; reflexivity|reflexivity].
Qed.
(** It succeeds just if all characters have glyphs and the font can be embedded, or there is no line. *)
Theorem C62_succeeds : forall segs, of_chars segs ->
  (exists d, layout segs = Some (Ok d)) <->
  (forall c, is_shown c segs -> has_glyph glyph_id f c) /\
  (embeddable f = true \/ exists ws, Forall2 word_of segs ws /\ breaks_into style ws [] ws).
Proof.
  intros segs Hc. destruct (layout_spec round glyph_id style segs Hc) as (ws & tail & r & Em & _ & Ht & El & H1 & H2). rewrite El. split.
  - intros (d & E). injection E as ->. assert (X : match ending (A := unit) tail with Ok _ => True | _ => False end).
    { destruct (Bool.bool_dec (embeddable f) true) as [He|He].
      - pose proof (H1 He) as L; inversion L as [ls rest pages hs r0 _ _ _ X]. destruct (ending tail); [exact I|discriminate X..].
      - destruct (H2 He) as [(rest & _ & X)|[_ []]]. destruct (ending tail); [exact I|discriminate X..]. }
    destruct (ending tail); [|destruct X..]. destruct Ht as [-> Hw]. split; [exact (words_glyphs _ _ Hw)|].
    destruct (Bool.bool_dec (embeddable f) true) as [He|He]; [left; exact He|right]. destruct (H2 He) as [(rest & Hi & _)|[_ []]].
    exists (words style ws). split; [exact Hw|]. pose proof (in_lines_words _ _ _ _ Hi) as W. cbn [flat_map app] in W. subst rest. exact (in_lines_eq _ _ _ _ _ avail_eq Hi).
  - intros [Hg Hf]. pose proof (shown_ok segs Hg) as N. destruct (ending tail) as [x|e|] eqn:Et; [|destruct (N _ Ht)..]. destruct Ht as [-> Hw].
    destruct (Bool.bool_dec (embeddable f) true) as [He|He].
    + destruct (H1 He) as [ls rest pages hs r' _ _ _ ->]. cbn [ending]. eauto.
    + destruct (H2 He) as [(rest & _ & ->)|[Hn _]]; [cbn [ending]; eauto|]. exfalso. destruct Hf as [Hf|(ws' & Hw' & Hi)]; [exact (He Hf)|]. apply Hn.
      exists (words style ws). inversion Hi as [w0 G1 G2 E0| |]; subst.
      pose proof (words_same _ _ _ Hw' Hw) as S. apply il_rest; [exact (fits_same _ _ _ S (fits_in_eq _ _ _ (Qeq_sym _ _ avail_eq) G1))|exact (no_hard_same _ _ S G2)].
Qed.

Hypothesis Hround : rounding round.
Hypothesis Hname : clean_name (f_name f).
Lemma ask_wanted : forall reqs ps, embeddable f = true -> Forall2 (asks round style) reqs ps -> Forall (printable (ps_font_size style)) ps ->
  Forall clean_request reqs /\ (forall g, In g (flat_map (fun r => match r with ShowText g _ _ _ _ => [g] | _ => [] end) reqs) -> g = f) /\
  forall file ms, Forall2 (painted_as file) (wants (0, 0, 0)%Q 1%Q reqs) ms -> Forall2 (word_shown file f (ps_font_size style)) ps ms.
Proof.
  intros reqs ps He H. induction H as [|r p reqs ps Hr H IH]; intros Hp.
  - split; [constructor|]. split; [intros g []|]. intros file ms Hm. cbn [wants] in Hm. inversion Hm. constructor.
  - inversion Hp as [|? ? Hp1 Hp2]; subst. destruct (IH Hp2) as (C & Fo & M). destruct p as [[x y] w]. destruct Hr as (x' & y' & Ex & Ey & ->). destruct Hp1 as (Ox & Oy & Of & Og).
    assert (Ox' : ordinary x') by (exact (ordinary_eq _ _ (Qeq_sym _ _ Ex) Ox)). assert (Oy' : ordinary y') by (exact (ordinary_eq _ _ (Qeq_sym _ _ Ey) Oy)).
    split; [|split].
    + constructor; [|exact C]. split; [exact Hname|]. split; [exact Og|]. split; [|split]; apply (ordinary_moderate round Hround); assumption.
    + intros g [<-|Hg]; [reflexivity|exact (Fo g Hg)].
    + intros file ms Hm. cbn [wants] in Hm. rewrite He in Hm. cbn [app] in Hm. inversion Hm as [|? m ? ms' Hm1 Hm2]; subst. constructor; [|exact (M file ms' Hm2)].
      destruct m as [|v m codes rgb a]; [contradiction Hm1|]. destruct Hm1 as (Emat0 & Hu & Er & Ha & fv & Hv & Hrep). subst rgb. clear Hm.
      assert (Emat : m = mkM (Qred (pt (dec_value (round (ps_font_size style))))) 0 0 (Qred (pt (dec_value (round (ps_font_size style)))))
        (Qred (pt (dec_value (round x')))) (Qred (- pt (dec_value (round y'))))) by exact Emat0. clear Emat0.
      apply (TextPlainSpec.ws file f (ps_font_size style) x y w (dec_value (round (ps_font_size style))) (dec_value (round x')) (dec_value (round y')) v m codes a fv).
      * apply Hround. exact Of.
      * apply (near_eq _ x'); [exact Ex|]. apply Hround. exact Ox'.
      * apply (near_eq _ y'); [exact Ey|]. apply Hround. exact Oy'.
      * rewrite Emat. cbn [ma md]. rewrite Qred_correct. reflexivity.
      * rewrite Emat. reflexivity.
      * rewrite Emat. reflexivity.
      * rewrite Emat. cbn [ma md]. rewrite Qred_correct. reflexivity.
      * rewrite Emat. split; cbn [fst snd me mf]; rewrite Qred_correct; unfold pt; ring.
      * exact Hu.
      * exact Hv.
      * exact Hrep.
      * exact Ha.
Qed.
Lemma asks_same : forall reqs ps ps', Forall2 (asks round style) reqs ps -> Forall2 same_place ps ps' -> Forall2 (asks round style) reqs ps'.
Proof.
  intros reqs ps ps' H. revert ps'. induction H as [|r p reqs ps Hr _ IH]; intros ps' H'; inversion H' as [|? [[x y] w] ? l (E1 & E2 & E3) Hl]; subst; constructor; [|apply IH; exact Hl].
  destruct p as [[x0 y0] w0]. cbn [fst snd] in *. subst w0. destruct Hr as (x' & y' & Ex & Ey & ->). exists x', y'. split; [rewrite Ex; exact E1|]. split; [rewrite Ey; exact E2|reflexivity].
Qed.
(** The words of the text in lines and pages, and where they are in the file *)
Theorem C62_pages : forall segs, of_chars segs -> (forall c, is_shown c segs -> has_glyph glyph_id f c) -> embeddable f = true ->
  exists d ws lines rest pages, layout segs = Some (Ok d) /\
    Forall2 word_of segs ws /\ breaks_into style ws lines rest /\ paginated style lines pages /\
    (ordinary (px (ps_page_width style)) -> ordinary (px (ps_page_height style)) ->
     Forall (fun p => Forall (printable (ps_font_size style)) (on_sheet style p)) pages -> (N.of_nat (length (doc_write d)) < 2 ^ 32)%N ->
     exists kids pvs rs, read_document (doc_write d) = Some (kids, pvs, rs) /\
       Forall2 (fun p pv => exists w h ms, pv_media_box pv = [0%Q; 0%Q; w; h] /\
           near_size w (px (ps_page_width style) * (3 # 4)) /\ near_size h (- (px (ps_page_height style) * (3 # 4))) /\
           paint rs (pv_contents pv) = Some ms /\ Forall2 (word_shown (doc_write d) f (ps_font_size style)) (on_sheet style p) ms) pages pvs).
Proof.
  intros segs Hc Hg He. destruct (layout_spec round glyph_id style segs Hc) as (ws & tail & r & Em & _ & Ht & El & H1 & _).
  pose proof (shown_ok segs Hg) as N. destruct (ending tail) as [x|e|] eqn:Et; [|destruct (N _ Ht)..]. destruct Ht as [-> Hw].
  destruct (H1 He) as [ls rest pages hs r' Hl Hp Hh ->]. cbn [ending] in *. exists (fold_left do_page hs doc_new), (words style ws), ls, rest, pages.
  split; [exact El|]. split; [exact Hw|]. split; [exact (in_lines_eq _ _ _ _ _ avail_eq Hl)|]. split; [exact (in_pages_eq _ _ _ _ _ _ _ _ _ min_y_eq max_y_eq step_eq Hp)|].
  intros Ow Oh Hpr L. change (fold_left do_page hs doc_new) with (run hs) in *.
  assert (A : Forall2 (fun ph p => ph_width ph = round (page_width_ style) /\ ph_height ph = round (page_height_ style) /\ Forall2 (asks round style) (ph_requests ph) (on_sheet style p)) hs pages).
  { clear - Hh. induction Hh as [|ph p hs pages (E1 & E2 & E3) _ IH]; constructor; [|exact IH]. split; [exact E1|]. split; [exact E2|].
    exact (asks_same _ _ _ E3 (placed_eq _ _ _ _ _ _ _ _ _ _ _ _ min_x_eq min_y_eq avail_eq step_eq baseline_eq)). }
  assert (Ow' : ordinary (page_width_ style)) by (exact (ordinary_eq _ _ (Qeq_sym _ _ width_eq) Ow)).
  assert (Oh' : ordinary (page_height_ style)) by (exact (ordinary_eq _ _ (Qeq_sym _ _ height_eq) Oh)).
  assert (C : clean_history hs).
  { split.
    - clear - Hround Hname He A Hpr Ow' Oh'. induction A as [|ph p hs pages (E1 & E2 & E3) _ IH]; constructor; [|inversion Hpr; subst; apply IH; assumption].
      unfold clean_page. rewrite E1, E2. inversion Hpr; subst. split; [exact (ordinary_moderate round Hround _ Ow')|]. split; [exact (ordinary_moderate round Hround _ Oh')|].
      exact (proj1 (ask_wanted _ _ He E3 H1)).
    - assert (K : forall g, In g (fonts_of hs) -> g = f).
      { intros g Hin. unfold fonts_of in Hin. apply in_flat_map in Hin as (ph & Hi & Hin). clear - Hround Hname He A Hpr Hi Hin.
        induction A as [|ph' p hs pages (E1 & E2 & E3) _ IH]; [destruct Hi|]. inversion Hpr; subst. destruct Hi as [->|Hi]; [|apply IH; assumption].
        exact (proj1 (proj2 (ask_wanted _ _ He E3 H1)) g Hin). }
      intros g g' Hin Hin' _. rewrite (K g Hin), (K g' Hin'). reflexivity. }
  destruct (document_read hs C L) as (kids & pvs & rs & R & _ & F). exists kids, pvs, rs. split; [exact R|].
  set (file := doc_write (run hs)) in *. clearbody file. clear - A F Hpr Hround Hname He Ow' Oh'. revert pvs F. induction A as [|ph p hs pages (E1 & E2 & E3) _ IH]; intros pvs F; inversion F as [|? pv ? pvs' ((w & h & Mb & Sw & Sh) & ms & Pt & Hm) F2]; subst; constructor.
  - inversion Hpr; subst. rewrite E1 in Sw. rewrite E2 in Sh. exists w, h, ms. split; [exact Mb|]. split; [|split; [|split; [exact Pt|exact (proj2 (proj2 (ask_wanted _ _ He E3 H1)) _ _ Hm)]]].
    + apply (near_size_eq _ (page_width_ style * (3 # 4))); [rewrite width_eq; reflexivity|]. exact (near_scaled _ _ _ Ow' (proj2 (Hround _ Ow')) Sw).
    + apply (near_size_eq _ (- (page_height_ style * (3 # 4)))); [rewrite height_eq; reflexivity|]. apply near_size_opp. exact (near_scaled _ _ _ Oh' (proj2 (Hround _ Oh')) Sh).
  - inversion Hpr; subst. apply IH; assumption.
Qed.
End Plain.

(** When the text ends with the end of a line, each word is on a page, in order. *)
Theorem C62_all_text : forall glyph_id style segs ws lines rest pages,
  Forall2 (is_word glyph_id (f_glyph_width (ps_font style)) (ps_font_size style)) segs ws -> breaks_into style ws lines rest -> paginated style lines pages ->
  (exists before cs, segs = before ++ [(cs, true)]) -> flat_map (fun p => map snd (on_sheet style p)) pages = ws.
Proof.
  intros glyph_id style segs ws lines rest pages Hw Hl Hp (before & cs & ->).
  assert (R : rest = []).
  { destruct rest as [|w rest _] using rev_ind; [reflexivity|]. exfalso. pose proof (words_hard _ _ _ _ _ Hw) as H. rewrite <- (in_lines_words _ _ _ _ Hl) in H.
    rewrite app_assoc, !map_app in H. cbn [map snd] in H. apply app_inj_tail in H as [_ H]. pose proof (in_lines_rest _ _ _ _ Hl w) as N. rewrite N in H; [discriminate H|]. apply in_or_app. right. left. reflexivity. }
  subst rest. pose proof (in_lines_words _ _ _ _ Hl) as W. rewrite app_nil_r in W. rewrite <- W, <- (in_pages_lines _ _ _ _ _ _ Hp). clear.
  induction pages as [|p pages IH]; [reflexivity|]. cbn [flat_map concat]. rewrite IH, flat_map_app. unfold on_sheet. rewrite placed_words. reflexivity.
Qed.
(** The last word of a justified line ends at the right margin. *)
Theorem C62_justified : forall style ls1 l w ls2, ps_justify style = true -> l <> [] -> (line_width (l ++ [w]) < content_width style)%Q ->
  exists x y, In (x, y, w) (on_sheet style (ls1 ++ (l ++ [w], true) :: ls2)) /\
    (x + w_width w == px (ps_page_width style) - margin style)%Q /\ (y == margin style + inject_Z (Z.of_nat (length ls1)) * line_step style + line_baseline style)%Q.
Proof.
  intros style ls1 l w ls2 Hj Hl Hlt.
  assert (WB : forall A (a : list A) b x c, with_before b (a ++ x :: c) = with_before b a ++ (b ++ a, x) :: with_before (b ++ a ++ [x]) c).
  { intros A. induction a as [|y a IH]; intros b x c; cbn [app with_before]; [rewrite app_nil_r; reflexivity|]. rewrite IH, <- !app_assoc. reflexivity. }
  unfold on_sheet, placed_page. rewrite WB, flat_map_app. cbn [flat_map fst snd app]. rewrite (WB _ l [] w []), map_app. cbn [map fst snd app].
  do 2 eexists. split; [apply in_or_app; right; apply in_or_app; left; apply in_or_app; right; left; reflexivity|]. split; [|reflexivity].
  unfold spacing. rewrite Hj. cbn [fst snd andb].
  assert (Eb : Qle_bool (content_width style) (line_width (l ++ [w])) = false). { destruct (Qle_bool _ _) eqn:E; [|reflexivity]. apply Qle_bool_iff in E. lra. }
  rewrite Eb. cbn [negb].
  assert (Cn : (count (l ++ [w]) - 1 == count l)%Q) by (rewrite count_snoc; ring). rewrite Cn.
  assert (Cz : ~ (count l == 0)%Q). { unfold count. destruct l; [destruct (Hl eq_refl)|]. cbn [length]. unfold Qeq. cbn. lia. }
  assert (Lw : (line_width (l ++ [w]) == line_width l + w_width w)%Q). { rewrite line_width_app. unfold line_width at 2. cbn [map fold_right]. ring. }
  rewrite Lw. unfold content_width. field. exact Cz.
Qed.
Print Assumptions C62_no_panic.
Print Assumptions C62_errors.
Print Assumptions C62_succeeds.
Print Assumptions C62_pages.
Print Assumptions C62_all_text.
Print Assumptions C62_justified.

(** ** Examples *)
(** A sheet of 480 by 288 pixels with margins of 96, lines of 48 and half a character of 32 pixels per letter *)
Definition ex_style (justify : bool) : plain_style := mkPlainStyle 127 (762 # 10) (254 # 10) ex_vera 32 (3 # 2) justify.
Definition piece (s : string) : list N * bool := (bs s, false).
Definition last_piece (s : string) : list N * bool := (bs s ++ [newline], true).
(** Two paragraphs on two pages *)
Definition ex_text : list (list N * bool) :=
  [piece "aaaa "; piece "bbbbbb "; piece "cccc "; piece "dd "; last_piece "a"; last_piece "bbb"; piece "c "; last_piece "d"].
Notation ex_layout style segs := (plain_layout ex_round ex_glyph_id style (text_of segs) (break_positions 0 segs)).
Definition ex_word (s : string) (hard : bool) : word := mkWord (bs s) (inject_Z (Z.of_nat (length (bs s))) * 16) hard.
Definition ex_words : list word :=
  [ex_word "aaaa " false; ex_word "bbbbbb " false; ex_word "cccc " false; ex_word "dd " false; ex_word "a" true; ex_word "bbb" true; ex_word "c " false; ex_word "d" true].
Definition ex_lines : list (list word * bool) :=
  [([ex_word "aaaa " false; ex_word "bbbbbb " false; ex_word "cccc " false], true); ([ex_word "dd " false; ex_word "a" true], false);
   ([ex_word "bbb" true], false); ([ex_word "c " false; ex_word "d" true], false)].
Definition ex_pages : list (list (list word * bool)) := [firstn 3 ex_lines; skipn 3 ex_lines].
Lemma ex_has_glyph : forall c, has_glyph ex_glyph_id ex_vera c.
Proof. intros c. exists c, (1 # 2). split; reflexivity. Qed.
Definition of_charsb (segs : list (list N * bool)) : bool := forallb (fun s => forallb is_char (fst s)) segs.
Lemma of_charsb_ok : forall segs, of_charsb segs = true -> Forall (fun s => Forall (fun c => is_char c = true) (fst s)) segs.
Proof. intros segs H. apply Forall_forall. intros s Hs. apply Forall_forall. intros c Hc. unfold of_charsb in H. rewrite forallb_forall in H. specialize (H s Hs). rewrite forallb_forall in H. exact (H c Hc). Qed.
Lemma ex_embeddable : embeddable ex_vera = true. Proof. vm_compute. reflexivity. Qed.

(** Checks of lines, computed *)
Fixpoint fitsb (avail before : Q) (l : list word) : bool :=
  match l with [] => true | w :: r => (Qle_bool before 0 || Qle_bool (before + w_width w) avail) && fitsb avail (before + w_width w) r end.
Lemma fitsb_ok : forall avail l b, fitsb avail (line_width b) l = true ->
  forall a w c, l = a ++ w :: c -> (0 < line_width (b ++ a))%Q -> (line_width (b ++ a) + w_width w <= avail)%Q.
Proof.
  assert (E : forall avail l x y, (x == y)%Q -> fitsb avail x l = fitsb avail y l).
  { intros avail. induction l as [|w l IH]; intros x y E; [reflexivity|]. cbn [fitsb]. rewrite (IH (x + w_width w)%Q (y + w_width w)%Q) by (rewrite E; reflexivity). f_equal. rewrite E. reflexivity. }
  intros avail. induction l as [|x l IH]; intros b H a w c El P; [destruct a; discriminate El|]. cbn [fitsb] in H. apply andb_prop in H as [H1 H2]. destruct a as [|y a]; cbn [app] in El; injection El as -> ->.
  - rewrite app_nil_r in *. apply Bool.orb_true_iff in H1 as [H1|H1]; apply Qle_bool_iff in H1; [lra|exact H1].
  - replace (b ++ y :: a) with ((b ++ [y]) ++ a) in * by (rewrite <- app_assoc; reflexivity). apply (IH (b ++ [y])) with (c := c); [|reflexivity|exact P].
    rewrite <- H2. apply E. rewrite line_width_app. unfold line_width at 2. cbn [map fold_right]. ring.
Qed.
Lemma fitsb_fits : forall avail l, fitsb avail 0 l = true -> fits_in avail l.
Proof. intros avail l H a w c E P. exact (fitsb_ok avail l [] H a w c E P). Qed.
Definition no_hardb (l : list word) : bool := forallb (fun w => negb (w_hard w)) l.
Lemma no_hardb_ok : forall l, no_hardb l = true -> no_hard l.
Proof. intros l H w Hw. unfold no_hardb in H. rewrite forallb_forall in H. apply Bool.negb_true_iff. exact (H w Hw). Qed.

Example C62_example_lines :
  Forall2 (is_word ex_glyph_id (f_glyph_width (ps_font (ex_style true))) (ps_font_size (ex_style true))) ex_text ex_words /\
  breaks_into (ex_style true) ex_words ex_lines [] /\ paginated (ex_style true) ex_lines ex_pages.
Proof.
  split; [|split].
  - assert (S : forall l, shapes ex_glyph_id ex_glyph_width l l (fold_right (fun (_ : N) w => (1 # 2) + w)%Q 0%Q l)).
    { induction l as [|c l IH]; cbn [fold_right]; [constructor|]. econstructor; [reflexivity|reflexivity|exact IH]. }
    unfold ex_text, ex_words. cbn [map].
    assert (P : forall s (h : bool), trim_end_newlines (bs s ++ if h then [newline] else []) = bs s ->
      (inject_Z (Z.of_nat (length (bs s))) * 16 == fold_right (fun (_ : N) w => (1 # 2) + w)%Q 0%Q (bs s) * 32)%Q ->
      is_word ex_glyph_id ex_glyph_width 32 (bs s ++ if h then [newline] else [], h) (ex_word s h)).
    { intros s h E W. apply (is_w _ _ _ _ h (bs s) (bs s) (fold_right (fun (_ : N) w => (1 # 2) + w)%Q 0%Q (bs s))); [|apply S|exact W]. rewrite <- E at 2. apply trim_visible. }
    constructor; [exact (P "aaaa "%string false eq_refl eq_refl)|].
    constructor; [exact (P "bbbbbb "%string false eq_refl eq_refl)|].
    constructor; [exact (P "cccc "%string false eq_refl eq_refl)|].
    constructor; [exact (P "dd "%string false eq_refl eq_refl)|].
    constructor; [exact (P "a"%string true eq_refl eq_refl)|].
    constructor; [exact (P "bbb"%string true eq_refl eq_refl)|].
    constructor; [exact (P "c "%string false eq_refl eq_refl)|].
    constructor; [exact (P "d"%string true eq_refl eq_refl)|].
    constructor.
  - unfold breaks_into, ex_words, ex_lines.
    apply (il_soft _ [ex_word "aaaa " false; ex_word "bbbbbb " false; ex_word "cccc " false] (ex_word "dd " false));
      [apply fitsb_fits; vm_compute; reflexivity|apply no_hardb_ok; vm_compute; reflexivity|vm_compute; reflexivity|vm_compute; reflexivity|].
    apply (il_hard _ [ex_word "dd " false] (ex_word "a" true)); [apply fitsb_fits; vm_compute; reflexivity|apply no_hardb_ok; vm_compute; reflexivity|reflexivity|].
    apply (il_hard _ [] (ex_word "bbb" true)); [apply fitsb_fits; vm_compute; reflexivity|apply no_hardb_ok; vm_compute; reflexivity|reflexivity|].
    apply (il_hard _ [ex_word "c " false] (ex_word "d" true) []); [apply fitsb_fits; vm_compute; reflexivity|apply no_hardb_ok; vm_compute; reflexivity|reflexivity|].
    apply il_rest; [apply fitsb_fits; vm_compute; reflexivity|apply no_hardb_ok; vm_compute; reflexivity].
  - change ex_lines with (firstn 3 ex_lines ++ skipn 3 ex_lines). apply ip_full; [discriminate| |vm_compute; reflexivity|apply ip_last].
    + intros i Hi. assert (E : i = 1 \/ i = 2) by (cbn in Hi; lia). destruct E as [-> | ->]; vm_compute; discriminate.
    + intros i Hi. assert (E : i = 1) by (cbn in Hi; lia). subst i. vm_compute. discriminate.
Qed.
Definition printableb (fs : Q) (p : Q * Q * word) : bool :=
  let '(x, y, w) := p in ordinaryb x && ordinaryb y && ordinaryb fs && forallb (fun g => (g <? 65536)%N) (w_glyphs w).
Lemma printableb_ok : forall fs p, printableb fs p = true -> printable fs p.
Proof.
  intros fs [[x y] w] H. unfold printableb in H. rewrite !Bool.andb_true_iff in H. destruct H as (((H1 & H2) & H3) & H4). repeat (split; [apply ordinaryb_ok; assumption|]).
  apply Forall_forall. intros g Hg. rewrite forallb_forall in H4. apply N.ltb_lt. exact (H4 g Hg).
Qed.
Definition all_marks (o : option (res font_error doc)) : option (list (list mark)) :=
  match o with
  | Some (Ok d) => match read_document (doc_write d) with
      | Some (_, pvs, rs) => fold_right (fun pv r => match paint rs (pv_contents pv), r with Some ms, Some r => Some (ms :: r) | _, _ => None end) (Some []) pvs
      | None => None
      end
  | _ => None
  end.
Definition small (o : option (res font_error doc)) : bool := match o with Some (Ok d) => (N.of_nat (length (doc_write d)) <? 2 ^ 32)%N | _ => false end.
Notation at_ x y s := (MText (PRef 7 0) (mkM (24 # 1) 0 0 (24 # 1) x y) s (0, 0, 0)%Q 1).
(** The first line is justified: its words start at 96, 184 and 304 pixels instead of 96, 176 and 288. *)
Example C62_example :
  rounding ex_round /\ clean_name (f_name ex_vera) /\ embeddable ex_vera = true /\ (forall c, has_glyph ex_glyph_id ex_vera c) /\
  Forall (fun s => Forall (fun c => is_char c = true) (fst s)) ex_text /\
  ordinary (px (ps_page_width (ex_style true))) /\ ordinary (px (ps_page_height (ex_style true))) /\
  Forall (fun p => Forall (printable (ps_font_size (ex_style true))) (on_sheet (ex_style true) p)) ex_pages /\
  small (ex_layout (ex_style true) ex_text) = true /\
  all_marks (ex_layout (ex_style true) ex_text) = Some
    [[at_ (72 # 1) (-486 # 5) [0; 97; 0; 97; 0; 97; 0; 97; 0; 32]%N; at_ (138 # 1) (-486 # 5) [0; 98; 0; 98; 0; 98; 0; 98; 0; 98; 0; 98; 0; 32]%N;
      at_ (228 # 1) (-486 # 5) [0; 99; 0; 99; 0; 99; 0; 99; 0; 32]%N;
      at_ (72 # 1) (-666 # 5) [0; 100; 0; 100; 0; 32]%N; at_ (108 # 1) (-666 # 5) [0; 97]%N; at_ (72 # 1) (-846 # 5) [0; 98; 0; 98; 0; 98]%N];
     [at_ (72 # 1) (-486 # 5) [0; 99; 0; 32]%N; at_ (96 # 1) (-486 # 5) [0; 100]%N]].
Proof.
  split; [exact ex_rounding|]. split; [exact ex_clean_name|]. split; [exact ex_embeddable|]. split; [exact ex_has_glyph|]. split; [apply of_charsb_ok; vm_compute; reflexivity|].
  split; [apply ordinaryb_ok; vm_compute; reflexivity|]. split; [apply ordinaryb_ok; vm_compute; reflexivity|].
  split; [repeat (constructor; [repeat (constructor; [apply printableb_ok; vm_compute; reflexivity|]); constructor|]); constructor|]. split; vm_compute; reflexivity.
Qed.

Example C62_example_all : (exists before cs, ex_text = before ++ [(cs, true)]) /\ flat_map (fun p => map snd (on_sheet (ex_style true) p)) ex_pages = ex_words.
Proof.
  assert (H : exists before cs, ex_text = before ++ [(cs, true)]) by (exists (removelast ex_text), (fst (last_piece "d")); reflexivity). split; [exact H|].
  destruct C62_example_lines as (H1 & H2 & H3). exact (C62_all_text _ _ _ _ _ _ _ H1 H2 H3 H).
Qed.
Example C62_example_justified : exists x y, In (x, y, ex_word "cccc " false) (on_sheet (ex_style true) (firstn 3 ex_lines)) /\ (x + w_width (ex_word "cccc " false) == 480 - 96)%Q.
Proof.
  destruct (C62_justified (ex_style true) [] [ex_word "aaaa " false; ex_word "bbbbbb " false] (ex_word "cccc " false) (skipn 1 (firstn 3 ex_lines)) eq_refl ltac:(discriminate) ltac:(vm_compute; reflexivity)) as (x & y & Hi & Hx & _).
  exists x, y. split; [exact Hi|]. rewrite Hx. vm_compute. reflexivity.
Qed.
(** A font that knows no "z", and one whose character map cannot be read *)
Definition no_z (c : N) : res font_error N := if (c =? 122)%N then Err NoSupportedCmap else Ok c.
Definition bad_style : plain_style := mkPlainStyle 127 (762 # 10) (254 # 10) ex_bad 32 (3 # 2) false.
Example C62_example_errors :
  plain_layout ex_round no_z (ex_style true) (text_of [last_piece "az"]) (break_positions 0 [last_piece "az"]) = Some (Err NoSupportedCmap) /\
  ex_layout bad_style [last_piece "a"] = Some (Err NoSupportedCmap) /\ (exists d, ex_layout bad_style [piece "a"] = Some (Ok d)) /\
  (forall c, no_z c <> Panic) /\ (forall g, f_glyph_width ex_vera g <> Panic).
Proof.
  split; [vm_compute; reflexivity|]. split; [vm_compute; reflexivity|]. split; [eexists; vm_compute; reflexivity|]. split; [|discriminate].
  intros c. unfold no_z. destruct (_ =? _)%N; discriminate.
Qed.

(** *** What does not hold *)
(** No text is below the content area: a line is only kept off a page when it starts below the bottom. *)
Theorem C62_bottom_refuted : exists style segs d kids pvs rs pv ms v m codes rgb a,
  ex_layout style segs = Some (Ok d) /\ read_document (doc_write d) = Some (kids, pvs, rs) /\ In pv pvs /\ paint rs (pv_contents pv) = Some ms /\
  In (MText v m codes rgb a) ms /\ (mf m < - (content_bottom style * (3 # 4)))%Q /\ (margin style + line_step style <= content_bottom style)%Q.
Proof.
  assert (K : forall o : option (res font_error doc), match o with
    | Some (Ok d) => match read_document (doc_write d) with
        | Some (_, pv :: _, rs) => match paint rs (pv_contents pv) with
            | Some ms => match nth_error ms 5 with Some (MText _ m _ _ _) => negb (Qle_bool (- (content_bottom (ex_style true) * (3 # 4))) (mf m)) | _ => false end
            | None => false end
        | _ => false end
    | _ => false end = true -> exists d kids pvs rs pv ms v m codes rgb a,
      o = Some (Ok d) /\ read_document (doc_write d) = Some (kids, pvs, rs) /\ In pv pvs /\ paint rs (pv_contents pv) = Some ms /\
      In (MText v m codes rgb a) ms /\ (mf m < - (content_bottom (ex_style true) * (3 # 4)))%Q).
  { intros [[d|e|]|] H; try discriminate H. destruct (read_document (doc_write d)) as [[[kids [|pv pvs]] rs]|] eqn:E1; try discriminate H.
    destruct (paint rs (pv_contents pv)) as [ms|] eqn:E2; [|discriminate H]. destruct (nth_error ms 5) as [[|v m codes rgb a]|] eqn:E3; try discriminate H.
    exists d, kids, (pv :: pvs), rs, pv, ms, v, m, codes, rgb, a. split; [reflexivity|]. split; [exact E1|]. split; [left; reflexivity|]. split; [exact E2|]. split; [exact (nth_error_In _ _ E3)|].
    apply Bool.negb_true_iff in H. apply Qnot_le_lt. intros L. apply Qle_bool_iff in L. congruence. }
  destruct (K (ex_layout (ex_style true) ex_text) ltac:(vm_compute; reflexivity)) as (d & kids & pvs & rs & pv & ms & v & m & codes & rgb & a & H1 & H2 & H3 & H4 & H5 & H6).
  exists (ex_style true), ex_text, d, kids, pvs, rs, pv, ms, v, m, codes, rgb, a. repeat (split; [assumption|]). vm_compute. discriminate.
Qed.
(** Each page of a text that is not empty shows something: when the last line fills the page there is one more. *)
Theorem C62_blank_page_refuted : exists style segs d kids pvs rs pv,
  ex_layout style segs = Some (Ok d) /\ Forall (fun s => visible (fst s) [] -> False) segs /\ segs <> [] /\
  read_document (doc_write d) = Some (kids, pvs, rs) /\ In pv pvs /\ paint rs (pv_contents pv) = Some [].
Proof.
  assert (K : forall o : option (res font_error doc), match o with
    | Some (Ok d) => match read_document (doc_write d) with Some (_, [_; pv], rs) => match paint rs (pv_contents pv) with Some [] => true | _ => false end | _ => false end
    | _ => false end = true -> exists d kids pvs rs pv, o = Some (Ok d) /\ read_document (doc_write d) = Some (kids, pvs, rs) /\ In pv pvs /\ paint rs (pv_contents pv) = Some []).
  { intros [[d|e|]|] H; try discriminate H. destruct (read_document (doc_write d)) as [[[kids [|pv [|pv2 [|? ?]]]] rs]|] eqn:E1; try discriminate H.
    destruct (paint rs (pv_contents pv2)) as [[|? ?]|] eqn:E2; try discriminate H. exists d, kids, [pv; pv2], rs, pv2. split; [reflexivity|]. split; [exact E1|]. split; [right; left; reflexivity|exact E2]. }
  set (segs := [last_piece "a"; last_piece "b"; last_piece "c"]).
  destruct (K (ex_layout (ex_style true) segs) ltac:(vm_compute; reflexivity)) as (d & kids & pvs & rs & pv & H1 & H2 & H3 & H4).
  exists (ex_style true), segs, d, kids, pvs, rs, pv. split; [exact H1|]. split; [|split; [discriminate|auto]].
  repeat (constructor; [intros V; apply visible_trim in V; discriminate V|]). constructor.
Qed.
(** A word that fits on the line without the space after it is put there: the space counts. *)
Theorem C62_trailing_space_refuted : exists style ws l w v r lines rest,
  Forall2 (is_word ex_glyph_id (f_glyph_width (ps_font style)) (ps_font_size style)) [piece "aaaa "; piece "bbbbbb "; piece "cccccc "; last_piece "d"] ws /\
  ws = l ++ w :: r /\ is_word ex_glyph_id (f_glyph_width (ps_font style)) (ps_font_size style) (piece "cccccc") v /\ w_glyphs w = w_glyphs v ++ [32%N] /\
  (line_width l + w_width v <= content_width style)%Q /\ breaks_into style ws ((l, true) :: lines) rest /\
  exists v1 m1 c1 v2 m2 c2 v3 m3 c3 more, all_marks (ex_layout style [piece "aaaa "; piece "bbbbbb "; piece "cccccc "; last_piece "d"]) =
    Some [MText v1 m1 c1 (0, 0, 0)%Q 1%Q :: MText v2 m2 c2 (0, 0, 0)%Q 1%Q :: MText v3 m3 c3 (0, 0, 0)%Q 1%Q :: more] /\
    utf16be_units c3 = Some (w_glyphs w) /\ (mf m3 < mf m2)%Q.
Proof.
  assert (S : forall l, shapes ex_glyph_id ex_glyph_width l l (fold_right (fun (_ : N) w => (1 # 2) + w)%Q 0%Q l)).
  { induction l as [|c l IH]; cbn [fold_right]; [constructor|]. econstructor; [reflexivity|reflexivity|exact IH]. }
  assert (P : forall s (h : bool), trim_end_newlines (bs s ++ if h then [newline] else []) = bs s ->
    (inject_Z (Z.of_nat (length (bs s))) * 16 == fold_right (fun (_ : N) w => (1 # 2) + w)%Q 0%Q (bs s) * 32)%Q ->
    is_word ex_glyph_id ex_glyph_width 32 (bs s ++ if h then [newline] else [], h) (ex_word s h)).
  { intros s h E W. apply (is_w _ _ _ _ h (bs s) (bs s) (fold_right (fun (_ : N) w => (1 # 2) + w)%Q 0%Q (bs s))); [|apply S|exact W]. rewrite <- E at 2. apply trim_visible. }
  exists (ex_style true), [ex_word "aaaa " false; ex_word "bbbbbb " false; ex_word "cccccc " false; ex_word "d" true], [ex_word "aaaa " false; ex_word "bbbbbb " false], (ex_word "cccccc " false),
    (ex_word "cccccc" false), [ex_word "d" true], [([ex_word "cccccc " false; ex_word "d" true], false)], [].
  split.
  { constructor; [exact (P "aaaa "%string false eq_refl eq_refl)|]. constructor; [exact (P "bbbbbb "%string false eq_refl eq_refl)|].
    constructor; [exact (P "cccccc "%string false eq_refl eq_refl)|]. constructor; [exact (P "d"%string true eq_refl eq_refl)|]. constructor. }
  split; [reflexivity|]. split; [exact (P "cccccc"%string false eq_refl eq_refl)|]. split; [reflexivity|]. split; [vm_compute; discriminate|].
  split; [|do 10 eexists; split; [vm_compute; reflexivity|split; [reflexivity|vm_compute; reflexivity]]].
  unfold breaks_into. apply (il_soft _ [ex_word "aaaa " false; ex_word "bbbbbb " false] (ex_word "cccccc " false));
    [apply fitsb_fits; vm_compute; reflexivity|apply no_hardb_ok; vm_compute; reflexivity|vm_compute; reflexivity|vm_compute; reflexivity|].
  apply (il_hard _ [ex_word "cccccc " false] (ex_word "d" true) []); [apply fitsb_fits; vm_compute; reflexivity|apply no_hardb_ok; vm_compute; reflexivity|reflexivity|].
  apply il_rest; [apply fitsb_fits; vm_compute; reflexivity|apply no_hardb_ok; vm_compute; reflexivity].
Qed.
Print Assumptions C62_bottom_refuted.
Print Assumptions C62_blank_page_refuted.
Print Assumptions C62_trailing_space_refuted.
