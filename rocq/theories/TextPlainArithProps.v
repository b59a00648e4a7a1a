(** Property C81: pages of plain text in the arithmetic of the program *)
From Coq Require Import QArith Qabs Lqa.
From Verif Require Import PdfConvert LayoutProps Base FontCmap PdfObject PdfObjectSpec PdfConvertSpec PdfPagesProofs Text InlineSpec
  PaintSpec PaintProofs PaintProps TextPlain TextPlainSpec TextPlainProofs TextPlainProps Arith32 Arith32Spec Float32Print DecimalProofs Float32PrintProofs Dtoa32Props
  TextPlainArith TextPlainArithSpec TextPlainArithProofs.
From Verif Require Arith32Proofs LayoutRelProps.
Local Open Scope nat_scope.

Section Any.
Variable ar : arith.
Hypothesis zero_not_above_zero : a_gt ar 0%Q 0%Q = false.

(** ** Words of lines and pages *)
Lemma lines_by_words : forall a ws ls rest, lines_by ar a ws ls rest -> flat_map fst ls ++ rest = ws.
Proof.
  intros a ws ls rest H. induction H as [ws F1 F2|l w r ls rest F1 F2 F3 _ IH|l w r ls rest F1 F2 F3 F4 _ IH]; cbn [flat_map fst app]; [reflexivity| |];
    rewrite <- app_assoc, IH; reflexivity.
Qed.
Lemma pages_by_lines : forall A t b h (ls : list A) ps, pages_by ar t b h ls ps -> concat ps = ls.
Proof. intros A t b h ls ps H. induction H as [ls F|ls r ps F1 F2 F3 _ IH]; cbn [concat]; [apply app_nil_r|rewrite IH; reflexivity]. Qed.
Lemma placed_by_words : forall l t a h b j ls, map snd (placed_by ar l t a h b j ls) = flat_map fst ls.
Proof.
  intros l t a h b j ls. unfold placed_by. rewrite <- (with_before_snd _ ls []) at 2. induction (with_before [] ls) as [|nl r IH]; cbn [flat_map map]; [reflexivity|].
  rewrite map_app, IH. f_equal. rewrite map_map. cbn [snd]. apply with_before_snd.
Qed.
Lemma lines_by_rest : forall a ws ls rest, lines_by ar a ws ls rest -> no_hard rest.
Proof. intros a ws ls rest H. induction H; assumption. Qed.
Lemma words_by_hard : forall glyph_id width fs segs ws, Forall2 (is_word_by ar glyph_id width fs) segs ws -> map w_hard ws = map snd segs.
Proof. intros glyph_id width fs segs ws H. induction H as [|s w segs ws Hw _ IH]; [reflexivity|]. cbn [map]. rewrite IH. inversion Hw; subst. reflexivity. Qed.
Lemma shapes_by_fun : forall glyph_id width t gs ws, shapes_by glyph_id width t gs ws -> forall gs' ws', shapes_by glyph_id width t gs' ws' -> gs = gs' /\ ws = ws'.
Proof.
  intros gid width t gs ws H. induction H as [|ch t g gs w ws E1 E2 _ IH]; intros gs' ws' H'; inversion H' as [|? ? g' gs2 w' ws2 E1' E2' H2]; subst; [split; reflexivity|].
  destruct (IH _ _ H2) as [-> ->]. split; congruence.
Qed.
(** The words of a text are determined by it. *)
Lemma words_by_fun : forall glyph_id width fs segs ws, Forall2 (is_word_by ar glyph_id width fs) segs ws -> forall ws', Forall2 (is_word_by ar glyph_id width fs) segs ws' -> ws = ws'.
Proof.
  intros gid width fs segs ws H. induction H as [|s w segs ws Hw _ IH]; intros ws' H'; inversion H' as [|? w' ? l Hw' Hl]; subst; [reflexivity|].
  rewrite (IH _ Hl). f_equal. inversion Hw as [cs hard t gs wd V S]; subst. inversion Hw' as [cs' hard' t' gs' wd' V' S']; subst.
  rewrite (visible_trim _ _ V) in S. rewrite (visible_trim _ _ V') in S'. destruct (shapes_by_fun _ _ _ _ _ S _ _ S') as [-> ->]. reflexivity.
Qed.
Lemma fits_by_app : forall a l r, fits_by ar a (l ++ r) -> fits_by ar a l.
Proof. intros a l r H x w y E P. apply (H x w (y ++ r)); [|exact P]. rewrite E, <- app_assoc. reflexivity. Qed.
(** Lines and pages are determined by the words. *)
Theorem C81_lines_unique : forall a ws ls rest, lines_by ar a ws ls rest -> forall ls' rest', lines_by ar a ws ls' rest' -> ls = ls' /\ rest = rest'.
Proof.
  assert (H1 : forall a l w x, no_hard (l ++ w :: x) -> w_hard w = true -> fits_by ar a l -> False).
  { intros a l w x H E _. rewrite H in E; [discriminate E|]. apply in_or_app. right. left. reflexivity. }
  assert (S1 : forall a l w x, fits_by ar a (l ++ w :: x) -> a_gt ar (width_by ar l) 0%Q = true -> a_gt ar (a_add ar (width_by ar l) (w_width w)) a = true -> False).
  { intros a l w x H P L. specialize (H l w x eq_refl P). congruence. }
  intros a ws ls rest H. induction H as [ws F1 F2|l w r ls rest F1 F2 F3 H IH|l w r ls rest F1 F2 F3 F4 H IH]; intros ls' rest' H'.
  - inversion H' as [ws' G1 G2|l' w' r' ls2 rest2 G1 G2 G3 G4|l' w' r' ls2 rest2 G1 G2 G3 G4 G5]; subst; [split; reflexivity| |].
    + exfalso. rewrite <- app_assoc in F2. exact (H1 a l' w' r' F2 G3 (fits_by_app _ _ _ G1)).
    + exfalso. exact (S1 a l' w' r' F1 G3 G4).
  - inversion H' as [ws' G1 G2 E0|l' w' r' ls2 rest2 G1 G2 G3 G4 E0|l' w' r' ls2 rest2 G1 G2 G3 G4 G5 E0]; subst.
    + exfalso. rewrite <- app_assoc in G2. exact (H1 a l w r G2 F3 (fits_by_app _ _ _ F1)).
    + rewrite <- !app_assoc in E0. cbn [app] in E0. symmetry in E0. destruct (split_cases _ _ _ _ _ E0) as [([|x m] & E1 & E2)|(x & m & E1 & E2)].
      * rewrite app_nil_r in E1. subst l'. injection E2 as <- <-. destruct (IH _ _ G4) as [-> ->]. split; reflexivity.
      * injection E2 as <- E2. subst l'. exfalso. exact (H1 a l w m G2 F3 (fits_by_app _ _ _ F1)).
      * injection E2 as <- E2. subst l. exfalso. exact (H1 a l' w' m F2 G3 (fits_by_app _ _ _ G1)).
    + rewrite <- app_assoc in E0. cbn [app] in E0. symmetry in E0. destruct (split_cases _ _ _ _ _ E0) as [([|x m] & E1 & E2)|(x & m & E1 & E2)].
      * exfalso. rewrite app_nil_r in E1. subst l'. injection E2 as <- <-. exact (S1 a l w [] F1 G3 G4).
      * injection E2 as <- E2. subst l'. exfalso. exact (H1 a l w m G2 F3 (fits_by_app _ _ _ F1)).
      * injection E2 as <- E2. exfalso. subst l. rewrite <- app_assoc in F1. exact (S1 a l' w' (m ++ [w]) F1 G3 G4).
  - inversion H' as [ws' G1 G2 E0|l' w' r' ls2 rest2 G1 G2 G3 G4 E0|l' w' r' ls2 rest2 G1 G2 G3 G4 G5 E0]; subst.
    + exfalso. exact (S1 a l w r G1 F3 F4).
    + rewrite <- app_assoc in E0. cbn [app] in E0. symmetry in E0. destruct (split_cases _ _ _ _ _ E0) as [([|x m] & E1 & E2)|(x & m & E1 & E2)].
      * exfalso. rewrite app_nil_r in E1. subst l'. injection E2 as <- <-. exact (S1 a l w [] G1 F3 F4).
      * injection E2 as <- E2. exfalso. subst l'. rewrite <- app_assoc in G1. exact (S1 a l w (m ++ [w']) G1 F3 F4).
      * injection E2 as <- E2. subst l. exfalso. exact (H1 a l' w' m F2 G3 (fits_by_app _ _ _ G1)).
    + symmetry in E0. destruct (split_cases _ _ _ _ _ E0) as [([|x m] & E1 & E2)|(x & m & E1 & E2)].
      * rewrite app_nil_r in E1. subst l'. injection E2 as <- <-. destruct (IH _ _ G5) as [-> ->]. split; reflexivity.
      * injection E2 as <- E2. subst l'. exfalso. exact (S1 a l w m G1 F3 F4).
      * injection E2 as <- E2. subst l. exfalso. exact (S1 a l' w' m F1 G3 G4).
Qed.
Theorem C81_pages_unique : forall A t b h (ls : list A) ps, pages_by ar t b h ls ps -> forall ps', pages_by ar t b h ls ps' -> ps = ps'.
Proof.
  assert (K : forall t b h n m, above_by ar t b h n -> 0 < m < n -> a_gt ar (line_top ar t h m) b = true -> False).
  { intros t b h n m H Hm L. specialize (H m Hm). congruence. }
  assert (P : forall A (l : list A), l <> [] -> 0 < length l) by (intros A [|x l] H; [destruct (H eq_refl)|cbn [length]; lia]).
  intros A t b h ls ps H. induction H as [ls F|ls r ps F1 F2 F3 H IH]; intros ps' H'.
  - inversion H' as [ls' G|ls' r' ps2 G1 G2 G3 G4]; subst; [reflexivity|]. exfalso. refine (K _ _ _ _ _ F _ G3). rewrite app_length. specialize (P _ _ G1). lia.
  - inversion H' as [ls' G E|ls' r' ps2 G1 G2 G3 G4 E]; subst.
    + exfalso. refine (K _ _ _ _ _ G _ F3). rewrite app_length. specialize (P _ _ F1). lia.
    + symmetry in E. destruct (split_cases _ _ _ _ _ E) as [([|x m] & E1 & E2)|(x & m & E1 & E2)].
      * rewrite app_nil_r in E1. cbn [app] in E2. subst. rewrite (IH _ G4). reflexivity.
      * exfalso. refine (K _ _ _ _ _ G2 _ F3). subst ls'. rewrite app_length. specialize (P _ _ F1). cbn [length]. lia.
      * exfalso. refine (K _ _ _ _ _ F2 _ G3). subst ls. rewrite app_length. specialize (P _ _ G1). cbn [length]. lia.
Qed.

Section Plain.
Variable print : Q -> dec.
Variable glyph_id : N -> res font_error N.
Variable style : plain_style.
Notation f := (ps_font style).
Notation layout segs := (plain_layout_in ar print glyph_id style (text_of segs) (break_positions 0 segs)).
Notation word_of := (is_word_by ar glyph_id (f_glyph_width f) (ps_font_size style)).
Notation of_chars segs := (Forall (fun s => Forall (fun c => is_char c = true) (fst s)) segs).
Let spec := layout_spec_in ar zero_not_above_zero print glyph_id style.

(** Without panics in the font, layout ends and does not panic. *)
Theorem C81_no_panic : forall segs, of_chars segs -> (forall c, glyph_id c <> Panic) -> (forall g, f_glyph_width f g <> Panic) ->
  exists r, layout segs = Some r /\ r <> Panic.
Proof.
  intros segs Hc Hg Hw. destruct (spec segs Hc) as (ws & tail & r & Hs & Ht & El & H1 & H2). exists r. split; [exact El|]. intros ->.
  assert (Ht' : ending (A := unit) tail <> Panic).
  { intros X. rewrite X in Ht. destruct Ht as (s & t & c & _ & _ & _ & F). unfold fails in F. specialize (Hg c). destruct (glyph_id c) as [g|e|]; [|discriminate F|exact (Hg eq_refl)].
    specialize (Hw g). destruct (f_glyph_width f g); [exact F|discriminate F|exact (Hw eq_refl)]. }
  destruct (Bool.bool_dec (embeddable f) true) as [He|He].
  - pose proof (H1 He) as L; inversion L as [ls rest pages r0 _ _ X]. destruct (ending tail); congruence.
  - destruct (H2 He) as [(rest & _ & X)|[_ (i & _ & X)]]; [|exact (Hw i X)]. destruct (ending tail); congruence.
Qed.
(** It fails just if the font does. *)
Theorem C81_errors : forall segs e, of_chars segs -> layout segs = Some (Err e) ->
  (exists c, is_shown c segs /\ lookup_fails glyph_id f c e) \/ embedding_fails f e.
Proof.
  intros segs e Hc E. destruct (spec segs Hc) as (ws & tail & r & _ & Ht & El & H1 & H2). rewrite El in E. injection E as ->.
  assert (K : Err e = match ending (A := unit) tail with Ok _ => Ok tt | Err e => Err e | Panic => Panic end -> exists c, is_shown c segs /\ lookup_fails glyph_id f c e).
  { destruct (ending tail) as [x|e'|]; intros X; [discriminate X| |discriminate X]. injection X as <-. destruct Ht as (s & t & c & Hi & Hv & Hin & F). exists c.
    split; [exists s, t; auto|]. unfold fails in F. unfold lookup_fails. destruct (glyph_id c) as [g|e1|]; [|left; congruence|discriminate F].
    right. exists g. split; [reflexivity|]. destruct (f_glyph_width f g); [destruct F|congruence|discriminate F]. }
  destruct (Bool.bool_dec (embeddable f) true) as [He|He].
  - left. apply K. pose proof (H1 He) as L; inversion L as [ls rest pages r0 _ _ X]. destruct (ending tail); congruence.
  - destruct (H2 He) as [(rest & _ & X)|[_ X]]; [left; apply K; destruct (ending tail); congruence|right]. exact X.
Qed.
Lemma words_by_glyphs : forall segs ws, Forall2 word_of segs ws -> forall c, is_shown c segs -> has_glyph glyph_id f c.
Proof.
  intros segs ws H. induction H as [|s w segs ws Hw _ IH]; intros c (s' & t & Hi & Hv & Hin); [destruct Hi|]. destruct Hi as [<-|Hi]; [|apply IH; exists s', t; auto].
  destruct Hw as [cs hard t' gs wd Hv' Sh]. cbn [fst] in Hv. rewrite (visible_trim _ _ Hv') in Sh. rewrite (visible_trim _ _ Hv) in Hin. clear - Sh Hin.
  induction Sh as [|ch text g gs w width E1 E2 _ IH]; [destruct Hin|]. destruct Hin as [<-|Hin]; [exists g, w; auto|apply IH; exact Hin].
Qed.
(** It succeeds just if all characters have glyphs and the font can be embedded, or there is no line. *)
Theorem C81_succeeds : forall segs, of_chars segs ->
  (exists d, layout segs = Some (Ok d)) <->
  (forall c, is_shown c segs -> has_glyph glyph_id f c) /\
  (embeddable f = true \/ exists ws, Forall2 word_of segs ws /\ breaks_by ar style ws [] ws).
Proof.
  intros segs Hc. destruct (spec segs Hc) as (ws & tail & r & _ & Ht & El & H1 & H2). rewrite El. split.
  - intros (d & E). injection E as ->. assert (X : match ending (A := unit) tail with Ok _ => True | _ => False end).
    { destruct (Bool.bool_dec (embeddable f) true) as [He|He].
      - pose proof (H1 He) as L; inversion L as [ls rest pages r0 _ _ X]. destruct (ending tail); [exact I|discriminate X..].
      - destruct (H2 He) as [(rest & _ & X)|[_ []]]. destruct (ending tail); [exact I|discriminate X..]. }
    destruct (ending tail); [|destruct X..]. destruct Ht as [-> Hw]. split; [exact (words_by_glyphs _ _ Hw)|].
    destruct (Bool.bool_dec (embeddable f) true) as [He|He]; [left; exact He|right]. destruct (H2 He) as [(rest & Hi & _)|[_ []]].
    exists (words_in ar style ws). split; [exact Hw|]. pose proof (lines_by_words _ _ _ _ Hi) as W. cbn [flat_map app] in W. subst rest. exact Hi.
  - intros [Hg Hf]. pose proof (shown_ok glyph_id style segs Hg) as N. destruct (ending tail) as [x|e|] eqn:Et; [|destruct (N _ Ht)..]. destruct Ht as [-> Hw].
    destruct (Bool.bool_dec (embeddable f) true) as [He|He].
    + destruct (H1 He) as [ls rest pages r' _ _ ->]. cbn [ending]. eauto.
    + destruct (H2 He) as [(rest & _ & ->)|[Hn _]]; [cbn [ending]; eauto|]. exfalso. destruct Hf as [Hf|(ws' & Hw' & Hi)]; [exact (He Hf)|]. apply Hn.
      exists ws'. rewrite (words_by_fun _ _ _ _ _ Hw _ Hw'). exact Hi.
Qed.
(** The words of the text in lines and pages, and what is asked of the writer for each page *)
Theorem C81_pages : forall segs, of_chars segs -> (forall c, is_shown c segs -> has_glyph glyph_id f c) -> embeddable f = true ->
  exists ws lines rest pages, layout segs = Some (Ok (run (map (page_by ar print style) pages))) /\
    Forall2 word_of segs ws /\ breaks_by ar style ws lines rest /\ paginated_by ar style lines pages.
Proof.
  intros segs Hc Hg He. destruct (spec segs Hc) as (ws & tail & r & _ & Ht & El & H1 & _).
  pose proof (shown_ok glyph_id style segs Hg) as N. destruct (ending tail) as [x|e|] eqn:Et; [|destruct (N _ Ht)..]. destruct Ht as [-> Hw].
  destruct (H1 He) as [ls rest pages r' Hl Hp ->]. cbn [ending] in *. exists (words_in ar style ws), ls, rest, pages. auto.
Qed.
(** When the text ends with the end of a line, each word is on a page, in order. *)
Theorem C81_all_text : forall segs ws lines rest pages,
  Forall2 word_of segs ws -> breaks_by ar style ws lines rest -> paginated_by ar style lines pages ->
  (exists before cs, segs = before ++ [(cs, true)]) -> flat_map (fun p => map snd (on_sheet_by ar style p)) pages = ws.
Proof.
  intros segs ws lines rest pages Hw Hl Hp (before & cs & ->).
  assert (R : rest = []).
  { destruct rest as [|w rest _] using rev_ind; [reflexivity|]. exfalso. pose proof (words_by_hard _ _ _ _ _ Hw) as H. rewrite <- (lines_by_words _ _ _ _ Hl) in H.
    rewrite app_assoc, !map_app in H. cbn [map snd] in H. apply app_inj_tail in H as [_ H]. pose proof (lines_by_rest _ _ _ _ Hl w) as N. rewrite N in H; [discriminate H|]. apply in_or_app. right. left. reflexivity. }
  subst rest. pose proof (lines_by_words _ _ _ _ Hl) as W. rewrite app_nil_r in W. rewrite <- W, <- (pages_by_lines _ _ _ _ _ _ Hp). clear.
  induction pages as [|p pages IH]; [reflexivity|]. cbn [flat_map concat]. rewrite IH, flat_map_app. unfold on_sheet_by. rewrite placed_by_words. reflexivity.
Qed.
End Plain.
End Any.

(** ** Exact numbers *)
Lemma total_exact : forall l s, (total exact s l == s + fold_right Qplus 0 l)%Q.
Proof. induction l as [|x l IH]; intros s; cbn [total fold_right]; [ring|]. rewrite IH. cbn [a_add exact]. ring. Qed.
Lemma width_exact : forall l, (width_by exact l == line_width l)%Q.
Proof. intros l. unfold width_by, line_width. rewrite total_exact. ring. Qed.
Lemma gt_exact : forall a b, a_gt exact a b = true <-> (b < a)%Q.
Proof.
  intros a b. cbn [a_gt exact]. rewrite Bool.negb_true_iff. split; intros H; [apply Qnot_le_lt; intros L; apply Qle_bool_iff in L; congruence|].
  destruct (Qle_bool a b) eqn:E; [|reflexivity]. apply Qle_bool_iff in E. lra.
Qed.
Lemma not_gt_exact : forall a b, a_gt exact a b = false <-> (a <= b)%Q.
Proof. intros a b. cbn [a_gt exact]. rewrite Bool.negb_false_iff. apply Qle_bool_iff. Qed.
Lemma fits_exact : forall a l, fits_by exact a l <-> fits_in a l.
Proof.
  intros a l. split; intros H x w y E.
  - intros P. specialize (H x w y E). rewrite gt_exact, not_gt_exact in H. cbn [a_add exact] in H. rewrite width_exact in H. exact (H P).
  - rewrite gt_exact, not_gt_exact. cbn [a_add exact]. rewrite width_exact. exact (H x w y E).
Qed.
(** With exact numbers lines and pages are those of C62. *)
Theorem C81_exact : (forall a ws ls rest, lines_by exact a ws ls rest <-> in_lines a ws ls rest) /\
  forall A t b h (ls : list A) ps, pages_by exact t b h ls ps <-> in_pages t b h ls ps.
Proof.
  split.
  - intros a ws ls rest. split; intros H; induction H as [ws F1 F2|l w r ls rest F1 F2 F3 _ IH|l w r ls rest F1 F2 F3 F4 _ IH].
    + apply il_rest; [apply fits_exact; exact F1|exact F2].
    + apply il_hard; try assumption. apply fits_exact. exact F1.
    + rewrite gt_exact in F3, F4. cbn [a_add exact] in F4. rewrite width_exact in F3, F4. apply il_soft; try assumption. apply fits_exact. exact F1.
    + apply lb_rest; [apply fits_exact; exact F1|exact F2].
    + apply lb_hard; try assumption. apply fits_exact. exact F1.
    + apply lb_soft; try assumption; [apply fits_exact; exact F1|rewrite gt_exact, width_exact; exact F3|rewrite gt_exact; cbn [a_add exact]; rewrite width_exact; exact F4].
  - intros A t b h.
    assert (T : forall n, (line_top exact t h n == t + inject_Z (Z.of_nat n) * h)%Q).
    { intros n. unfold line_top. rewrite total_exact. assert (E : (fold_right Qplus 0 (repeat h n) == inject_Z (Z.of_nat n) * h)%Q); [|rewrite E; reflexivity].
      induction n as [|n IH]; [reflexivity|]. cbn [repeat fold_right]. rewrite IH, Nat2Z.inj_succ, <- Z.add_1_r, inject_Z_plus. ring. }
    assert (U : forall n, above_by exact t b h n <-> lines_start_above t b h n).
    { intros n. split; intros H i Hi; specialize (H i Hi); rewrite not_gt_exact, T in *; exact H. }
    intros ls ps. split; intros H; induction H as [ls F|ls r ps F1 F2 F3 _ IH].
    + apply ip_last. apply U. exact F.
    + apply ip_full; try assumption; [apply U; exact F2|]. rewrite gt_exact, T in F3. exact F3.
    + apply pb_last. apply U. exact F.
    + apply pb_full; try assumption; [apply U; exact F2|]. rewrite gt_exact, T. exact F3.
Qed.

(** ** f32 *)
Lemma file_number : forall q, number_in_file q -> moderate (print32 q) /\ nearest32 (dec_value (print32 q)) q.
Proof. intros q [F O]. split; [exact (ordinary_moderate print32 print32_rounding q O)|]. exact (proj1 (proj2 (C80_numbers_read q F))). Qed.
Lemma size_read : forall q w, number_in_file q -> scaled_size (dec_value (print32 q)) w -> size32 q w.
Proof.
  intros q w H (s & t & H1 & H2 & H3). destruct (file_number q H) as [_ N]. pose proof (LayoutRelProps.C78_unique _ _ _ H1 N) as E. exists t. split; [|exact H3].
  refine (Arith32Proofs.nearest32_comp _ _ _ _ _ (Qeq_refl t) H2). unfold pt. rewrite E. reflexivity.
Qed.
Section Plain32.
Variable glyph_id : N -> res font_error N.
Variable style : plain_style.
Notation f := (ps_font style).
Hypothesis Hname : clean_name (f_name f).
Lemma asked_wanted : forall ps, embeddable f = true -> Forall (printable32 (ps_font_size style)) ps ->
  Forall clean_request (map (asked_at print32 style) ps) /\
  (forall g, In g (flat_map (fun r => match r with ShowText g _ _ _ _ => [g] | _ => [] end) (map (asked_at print32 style) ps)) -> g = f) /\
  forall file ms, Forall2 (painted_as file) (wants (0, 0, 0)%Q 1%Q (map (asked_at print32 style) ps)) ms -> Forall2 (word_shown32 file f (ps_font_size style)) ps ms.
Proof.
  intros ps He. induction ps as [|[[x y] w] ps IH]; intros Hp.
  - split; [constructor|]. split; [intros g []|]. intros file ms Hm. cbn [map wants] in Hm. inversion Hm. constructor.
  - inversion Hp as [|? ? Hp1 Hp2]; subst. destruct (IH Hp2) as (C & Fo & M). destruct Hp1 as (Ox & Oy & Of & Og). cbn [map asked_at].
    destruct (file_number _ Ox) as [Mx Nx]. destruct (file_number _ Oy) as [My Ny]. destruct (file_number _ Of) as [Mf Nf].
    split; [|split].
    + constructor; [|exact C]. split; [exact Hname|]. split; [exact Og|]. auto.
    + intros g [<-|Hg]; [reflexivity|exact (Fo g Hg)].
    + intros file ms Hm. cbn [wants] in Hm. rewrite He in Hm. cbn [app] in Hm. inversion Hm as [|? m ? ms' Hm1 Hm2]; subst. constructor; [|exact (M file ms' Hm2)].
      destruct m as [|v m codes rgb a]; [contradiction Hm1|]. destruct Hm1 as (Emat0 & Hu & Er & Ha & fv & Hv & Hrep). subst rgb. clear Hm.
      assert (Emat : m = mkM (Qred (pt (dec_value (print32 (ps_font_size style))))) 0 0 (Qred (pt (dec_value (print32 (ps_font_size style)))))
        (Qred (pt (dec_value (print32 x)))) (Qred (- pt (dec_value (print32 y))))) by exact Emat0. clear Emat0.
      apply (ws32 file f (ps_font_size style) x y w (dec_value (print32 (ps_font_size style))) (dec_value (print32 x)) (dec_value (print32 y)) v m codes a fv); try assumption.
      * rewrite Emat. cbn [ma md]. rewrite Qred_correct. reflexivity.
      * rewrite Emat. reflexivity.
      * rewrite Emat. reflexivity.
      * rewrite Emat. cbn [ma md]. rewrite Qred_correct. reflexivity.
      * rewrite Emat. split; cbn [fst snd me mf]; rewrite Qred_correct; unfold pt; ring.
Qed.
(** What a reader of the file sees of the pages asked for *)
Theorem C81_file : forall pages, embeddable f = true ->
  number_in_file (px_by f32 (ps_page_width style)) -> number_in_file (px_by f32 (ps_page_height style)) ->
  Forall (fun p => Forall (printable32 (ps_font_size style)) (on_sheet_by f32 style p)) pages ->
  let file := doc_write (run (map (page_by f32 print32 style) pages)) in
  (N.of_nat (length file) < 2 ^ 32)%N ->
  exists kids pvs rs, read_document file = Some (kids, pvs, rs) /\
    Forall2 (fun p pv => exists w h ms, pv_media_box pv = [0%Q; 0%Q; w; h] /\
        size32 (px_by f32 (ps_page_width style)) w /\ size32 (px_by f32 (ps_page_height style)) (- h) /\
        paint rs (pv_contents pv) = Some ms /\ Forall2 (word_shown32 file f (ps_font_size style)) (on_sheet_by f32 style p) ms) pages pvs.
Proof.
  intros pages He Ow Oh Hpr file L. subst file.
  assert (C : clean_history (map (page_by f32 print32 style) pages)).
  { split.
    - apply Forall_forall. intros ph Hi. apply in_map_iff in Hi as (p & <- & Hi). rewrite Forall_forall in Hpr. specialize (Hpr p Hi).
      split; [exact (proj1 (file_number _ Ow))|]. split; [exact (proj1 (file_number _ Oh))|]. exact (proj1 (asked_wanted _ He Hpr)).
    - assert (K : forall g, In g (fonts_of (map (page_by f32 print32 style) pages)) -> g = f).
      { intros g Hin. unfold fonts_of in Hin. apply in_flat_map in Hin as (ph & Hi & Hin). apply in_map_iff in Hi as (p & <- & Hi). rewrite Forall_forall in Hpr.
        exact (proj1 (proj2 (asked_wanted _ He (Hpr p Hi))) g Hin). }
      intros g g' Hin Hin' _. rewrite (K g Hin), (K g' Hin'). reflexivity. }
  destruct (document_read _ C L) as (kids & pvs & rs & R & _ & F). exists kids, pvs, rs. split; [exact R|].
  set (file := doc_write _) in *. clearbody file. clear - F Hpr He Ow Oh Hname. revert pvs F. induction pages as [|p pages IH]; intros pvs F; cbn [map] in F; inversion F as [|? pv ? pvs' ((w & h & Mb & Sw & Sh) & ms & Pt & Hm) F2]; subst; constructor.
  - inversion Hpr; subst. exists w, h, ms. split; [exact Mb|]. split; [exact (size_read _ _ Ow Sw)|]. split; [exact (size_read _ _ Oh Sh)|].
    split; [exact Pt|]. exact (proj2 (proj2 (asked_wanted _ He H1)) _ _ Hm).
  - inversion Hpr; subst. apply IH; assumption.
Qed.
End Plain32.
Print Assumptions C81_no_panic.
Print Assumptions C81_errors.
Print Assumptions C81_succeeds.
Print Assumptions C81_pages.
Print Assumptions C81_all_text.
Print Assumptions C81_lines_unique.
Print Assumptions C81_pages_unique.
Print Assumptions C81_exact.
Print Assumptions C81_file.

(** ** Examples *)
(** A sheet of 120 by 70 mm; all numbers are numbers of [f32] *)
Definition ex_vera32 : font :=
  mkFont 100 (bs "glyf ) endstream") (bs "Vera") (-1 # 5) (-1 # 3) (1 # 1) (13421773 # 16777216) (4 # 5) (-1 # 5)
    [(32, 32); (97, 97); (98, 98); (99, 99); (100, 100)]%N None 128 ex_glyph_width.
Definition ex_style32 : plain_style := mkPlainStyle 120 70 25 ex_vera32 32 (5 # 4) true.
Notation ex_layout32 := (plain_layout_in f32 print32 ex_glyph_id ex_style32 (text_of ex_text) (break_positions 0 ex_text)).
Definition ex_lines32 : list (list word * bool) :=
  [([ex_word "aaaa " false; ex_word "bbbbbb " false], true); ([ex_word "cccc " false; ex_word "dd " false; ex_word "a" true], false);
   ([ex_word "bbb" true], false); ([ex_word "c " false; ex_word "d" true], false)].
Definition ex_pages32 : list (list (list word * bool)) := [firstn 2 ex_lines32; skipn 2 ex_lines32; []].
Definition number_in_fileb (q : Q) : bool := Qeq_bool (rounded q) q && ordinaryb q.
Lemma number_in_fileb_ok : forall q, number_in_fileb q = true -> number_in_file q.
Proof.
  intros q H. unfold number_in_fileb in H. apply andb_prop in H as [E O]. apply Qeq_bool_iff in E. apply ordinaryb_ok in O. split; [|exact O].
  destruct (Arith32Proofs.rounded_nearest q) as (N & _). assert (T : (Qabs q < too_large)%Q).
  { assert (K : (inject_Z (10 ^ 19) < too_large)%Q) by reflexivity. destruct O as [O|[_ O]]; [rewrite O; reflexivity|lra]. }
  exact (Arith32Proofs.finite32_comp _ _ E (proj1 (N T))).
Qed.
Definition printable32b (fs : Q) (p : Q * Q * word) : bool :=
  let '(x, y, w) := p in number_in_fileb x && number_in_fileb y && number_in_fileb fs && forallb (fun g => (g <? 65536)%N) (w_glyphs w).
Lemma printable32b_ok : forall fs p, printable32b fs p = true -> printable32 fs p.
Proof.
  intros fs [[x y] w] H. unfold printable32b in H. rewrite !Bool.andb_true_iff in H. destruct H as (((H1 & H2) & H3) & H4). repeat (split; [apply number_in_fileb_ok; assumption|]).
  apply Forall_forall. intros g Hg. rewrite forallb_forall in H4. apply N.ltb_lt. exact (H4 g Hg).
Qed.
Definition marks_at (ms : list mark) : list (Q * Q * list N) := map (fun m => match m with MText _ m c _ _ => (me m, mf m, c) | _ => (0, 0, [])%Q end) ms.
(** 453.54333 by 264.56693 pixels; the words of the first line start at 94.48819 and 247.05515. *)
Example C81_example :
  a_gt f32 0 0 = false /\ clean_name (f_name ex_vera32) /\ embeddable ex_vera32 = true /\ (forall c, has_glyph ex_glyph_id ex_vera32 c) /\
  number_in_file (px_by f32 (ps_page_width ex_style32)) /\ number_in_file (px_by f32 (ps_page_height ex_style32)) /\
  Forall (fun p => Forall (printable32 (ps_font_size ex_style32)) (on_sheet_by f32 ex_style32 p)) ex_pages32 /\
  ex_layout32 = Some (Ok (run (map (page_by f32 print32 ex_style32) ex_pages32))) /\ small ex_layout32 = true /\
  map (fun q => dtoa (print32 q)) [px_by f32 (ps_page_width ex_style32); px_by f32 (ps_page_height ex_style32)] = [bs "453.54333"; bs "264.56693"] /\
  option_map (map marks_at) (all_marks ex_layout32) = Some
    [[(28346457 # 400000, -37226457 # 400000, [0; 97; 0; 97; 0; 97; 0; 97; 0; 32]%N); (14823309 # 80000, -37226457 # 400000, [0; 98; 0; 98; 0; 98; 0; 98; 0; 98; 0; 98; 0; 32]%N);
      (28346457 # 400000, -2461323 # 20000, [0; 99; 0; 99; 0; 99; 0; 99; 0; 32]%N); (52346457 # 400000, -2461323 # 20000, [0; 100; 0; 100; 0; 32]%N);
      (66746457 # 400000, -2461323 # 20000, [0; 97]%N)];
     [(28346457 # 400000, -37226457 # 400000, [0; 98; 0; 98; 0; 98]%N); (28346457 # 400000, -2461323 # 20000, [0; 99; 0; 32]%N);
      (37946457 # 400000, -2461323 # 20000, [0; 100]%N)]; []].
Proof.
  split; [reflexivity|]. split; [exact ex_clean_name|]. split; [vm_compute; reflexivity|]. split; [intros c; exists c, (1 # 2); split; reflexivity|].
  split; [apply number_in_fileb_ok; vm_compute; reflexivity|]. split; [apply number_in_fileb_ok; vm_compute; reflexivity|].
  split; [repeat (constructor; [repeat (constructor; [apply printable32b_ok; vm_compute; reflexivity|]); constructor|]); constructor|].
  split; [vm_compute; reflexivity|]. split; [vm_compute; reflexivity|]. split; vm_compute; reflexivity.
Qed.

(** *** What does not hold *)
(** Lines are broken where exact numbers break them: two words of five glyphs, a tenth of an em each, fit in
    ten tenths when each sum is rounded, not with exact numbers, since the number of [f32] next to a tenth is
    above it. *)
Definition tenth_width : N -> res font_error Q := fun _ => Ok (13421773 # 134217728).
Definition tenth_style : plain_style := mkPlainStyle 127 127 0 (mkFont 100 [] (bs "Tenth") 0 0 1 1 1 0 [] None 128 tenth_width) 480 1 false.
Definition tenths : list (list N * bool) := [piece "aaaaa"; last_piece "aaaaa"].
Theorem C81_rounding_refuted : exists glyph_id style segs ws ls ws' ls',
  Forall finite32 [ps_page_width style; ps_page_height style; ps_page_margin style; ps_font_size style; ps_line_height style] /\
  (forall g w, f_glyph_width (ps_font style) g = Ok w -> finite32 w) /\
  Forall2 (is_word_by f32 glyph_id (f_glyph_width (ps_font style)) (ps_font_size style)) segs ws /\ breaks_by f32 style ws ls [] /\
  Forall2 (is_word_by exact glyph_id (f_glyph_width (ps_font style)) (ps_font_size style)) segs ws' /\ breaks_by exact style ws' ls' [] /\
  length ls = 1 /\ length ls' = 2.
Proof.
  assert (S : forall n, shapes_by ex_glyph_id tenth_width (repeat 97%N n) (repeat 97%N n) (repeat (13421773 # 134217728)%Q n)).
  { induction n as [|n IH]; cbn [repeat]; [constructor|]. econstructor; [reflexivity|reflexivity|exact IH]. }
  assert (V : forall h : bool, visible (bs "aaaaa" ++ if h then [newline] else []) (bs "aaaaa")).
  { intros h. replace (bs "aaaaa") with (trim_end_newlines (bs "aaaaa" ++ if h then [newline] else [])) at 2 by (destruct h; reflexivity). apply trim_visible. }
  assert (W : forall (ar : arith) (h : bool), is_word_by ar ex_glyph_id tenth_width 480 (bs "aaaaa" ++ if h then [newline] else [], h)
    (mkWord (bs "aaaaa") (a_mul ar (total ar 0 (repeat (13421773 # 134217728)%Q 5)) (a_div ar 480 1)) h)) by (intros ar h; exact (iwb ar _ _ _ _ h _ _ _ (V h) (S 5))).
  exists ex_glyph_id, tenth_style, tenths. do 2 eexists. exists (map (fun h : bool => mkWord (bs "aaaaa") (a_mul exact (total exact 0 (repeat (13421773 # 134217728)%Q 5)) (a_div exact 480 1)) h) [false; true]). eexists.
  split; [|split; [|split; [|split; [|split; [|split]]]]].
  - repeat (constructor; [|]); try constructor; cbn [ps_page_width ps_page_height ps_page_margin ps_font_size ps_line_height tenth_style];
      [exists 127%Z, 0%Z|exists 127%Z, 0%Z|exists 0%Z, 0%Z|exists 480%Z, 0%Z|exists 1%Z, 0%Z]; repeat split; vm_compute; congruence.
  - intros g w E. injection E as <-. exists 13421773%Z, (-27)%Z. repeat split; vm_compute; congruence.
  - constructor; [exact (W f32 false)|]. constructor; [exact (W f32 true)|constructor].
  - apply (lb_hard f32 _ [_] _ [] [] []); [|intros w [<-|[]]; reflexivity|reflexivity|apply lb_rest; [intros [|? a] ? ? E; discriminate E|intros w []]].
    intros a w b E P. destruct a as [|x [|y [|z a]]]; cbn [app] in E; [vm_compute in P; discriminate P| | |destruct a; discriminate E].
    + injection E as <- <- <-. vm_compute. reflexivity.
    + discriminate E.
  - constructor; [exact (W exact false)|]. constructor; [exact (W exact true)|constructor].
  - cbn [map]. apply (lb_soft exact _ [_] _ []); [|intros w [<-|[]]; reflexivity|vm_compute; reflexivity|vm_compute; reflexivity|].
    + intros a w b E P. destruct a as [|x a]; [vm_compute in P; discriminate P|destruct a; discriminate E].
    + apply (lb_hard exact _ [] _ [] [] []); [|intros w []|reflexivity|apply lb_rest; [intros [|? a] ? ? E; discriminate E|intros w []]].
      intros a w b E P. destruct a as [|x a]; [vm_compute in P; discriminate P|destruct a; discriminate E].
  - split; reflexivity.
Qed.
Print Assumptions C81_rounding_refuted.
