(** Property C101, continued: only numbers of binary32 are printed *)
From Coq Require Import QArith Lia.
From Verif Require Import PdfObject PdfConvert Base Dom StyleValues StyleProperties StyleCascade UserAgent Geom Text LayoutTree Layout Paint BoxTree
  FontProofs FontParsing FontCmap LesterFloat Float32 Arith32 Arith32Spec Arith32Proofs LayoutArith LayoutRelSpec LayoutRelProofs LayoutRelProps
  Dtoa32Props StyleProps MainProps StyleNumbersSpec StyleNumbersProofs StyleNumbersProps.
Local Open Scope nat_scope.

(** What may be printed: numbers of binary32, and the components of colours, which are 255ths (the printing function
    rounds them: cssparser has [self.red as f32 / 255.0]) *)
Definition printed (q : Q) : Prop := number32 q \/ exists n : N, q = (inject_Z (Z.of_N n) / 255)%Q.
Section Paint.
Variables round round' : Q -> dec.
Hypothesis same_round : forall q, printed q -> round q = round' q.
Variable vera : font.
Lemma color_same : forall c, rgba_into round c = rgba_into round' c.
Proof. intros c. unfold rgba_into. rewrite !same_round by (right; eexists; reflexivity). reflexivity. Qed.
Lemma sum_same : forall a b, round (f32_add a b) = round' (f32_add a b).
Proof. intros a b. apply same_round. left. apply f32_add_number. Qed.
Notation same := (same_fragments this_style this_number this_number).
Notation children r := ((fix go (l : list fragment) (st : doc * page) (cb : prect Q) : option (doc * page) :=
  match l with [] => Some st | child :: k => match paint_onto_in f32 r vera child st cb with Some st => go k st cb | None => None end end)).
Lemma border_size : forall b mode r, to_physical (border_rect_in f32 b) mode = Some r ->
  (exists a c, x_ (psize r) = f32_add a c) /\ (exists a c, y_ (psize r) = f32_add a c).
Proof.
  intros b [[] []] r E; try discriminate E. assert (r = mkPrect (mkPvec (v_inline (start_corner (border_rect_in f32 b))) (v_block (start_corner (border_rect_in f32 b))))
    (size_to_physical (Geom.size (border_rect_in f32 b)) (HorizontalTb, Ltr))) as -> by (cbn [to_physical] in E; congruence).
  split; eexists; eexists; reflexivity.
Qed.
Fixpoint paint_same (f f' : fragment) (H : same f f') {struct H} : forall st cb,
  paint_onto_in f32 round vera f st cb = paint_onto_in f32 round' vera f st cb.
Proof.
  assert (L : forall l l', Forall2 same l l' -> forall st cb, children round l st cb = children round' l st cb).
  { fix go 3. intros l l' [|x x' k k' Hx Hk] st cb; [reflexivity|]. rewrite (paint_same x x' Hx st cb).
    destruct (paint_onto_in f32 round' vera x st cb) as [st'|]; [exact (go k k' Hk st' cb)|reflexivity]. }
  destruct H as [b b' l l' _ Hl|r r' m l l' _ Hl|s s' r r' t t' [_ Hs] _ _]; intros st cb; cbn [paint_onto_in].
  - rewrite color_same. destruct (0 <? alpha (to_rgba (bf_style b) (get (bf_style b) background_color)))%N.
    + destruct (to_physical (border_rect_in f32 b) (style_writing_mode (bf_style b))) as [r|] eqn:Er; [|reflexivity].
      destruct (set_color (fst st) (snd st) (rgba_into round' (to_rgba (bf_style b) (get (bf_style b) background_color)))) as [d p].
      destruct (border_size _ _ _ Er) as [(a1 & c1 & E1) (a2 & c2 & E2)].
      cbn [translate_in top_left psize padd_in x_ y_ a_add f32]. rewrite E1, E2, !sum_same.
      destruct (to_physical (bf_content_rect b) (style_writing_mode (bf_style b))) as [q|]; [|reflexivity]. apply (L l l' Hl).
    + destruct (to_physical (bf_content_rect b) (style_writing_mode (bf_style b))) as [q|]; [|reflexivity]. apply (L l l' Hl).
  - destruct (to_physical r m) as [q|]; [|reflexivity]. apply (L l l' Hl).
  - destruct (to_physical r (style_writing_mode s)) as [q|]; [|reflexivity]. rewrite color_same.
    destruct (set_color (fst st) (snd st) (rgba_into round' (get s color_))) as [d p].
    cbn [translate_in top_left psize padd_in x_ y_ a_add f32]. rewrite !sum_same, (same_round (get s font_size)) by (left; exact (Hs font_size)). reflexivity.
Qed.
End Paint.
Lemma fragments_same : forall round round', (forall q, printed q -> round q = round' q) -> forall vera frs frs',
  Forall2 (same_fragments this_style this_number this_number) frs frs' -> forall st cb,
  paint_fragments_in f32 round vera frs st cb = paint_fragments_in f32 round' vera frs st cb.
Proof.
  intros round round' R vera frs frs' H. induction H as [|f f' l l' Hf Hl IH]; intros st cb; cbn [paint_fragments_in]; [reflexivity|].
  rewrite (paint_same round round' R vera f f' Hf st cb). destruct (paint_onto_in f32 round' vera f st cb) as [st'|]; [exact (IH st' cb)|reflexivity].
Qed.

(** Nothing else is printed: the PDF does not depend on how other numbers would be. *)
Theorem C101_printed : forall round round' m addr pf parse_color other specificity matches items_of rules_of o d,
  (forall q, printed q -> round q = round' q) ->
  wf_bytes (pf_bytes pf) -> takes_tokens parse_color ->
  (forall t, Forall (rule_numbers number32) (rules_of t)) -> (forall v, Forall (item_numbers number32) (items_of v)) ->
  to_pdf_bytes_in f32 round (pdf_font m addr pf) parse_color (ua_selector other) (ua_specificity other specificity) (ua_matches other matches)
    items_of rules_of (user_agent_css other) (glyph_id m pf) o d =
  to_pdf_bytes_in f32 round' (pdf_font m addr pf) parse_color (ua_selector other) (ua_specificity other specificity) (ua_matches other matches)
    items_of rules_of (user_agent_css other) (glyph_id m pf) o d.
Proof.
  intros round round' m addr pf pc other sp mt io ro o d R Wf Pc Hr Hi. unfold to_pdf_bytes_in.
  destruct (box_tree_root_construct pc (ua_selector other) (ua_specificity other sp) (ua_matches other mt) io ro (user_agent_css other) d) as [[root w]|x|] eqn:E;
    [|reflexivity..].
  pose proof (C101_boxes _ _ _ _ _ _ _ _ _ _ Pc Hr (user_agent_numbers other) Hi E) as Hs.
  assert (B : both (Forall2 (same_fragments this_style this_number this_number))
    (box_tree_root_layout_in f32 (glyph_id m pf) (f_glyph_width (pdf_font m addr pf)) o root (mkVec PAGE_WIDTH PAGE_HEIGHT))
    (box_tree_root_layout_in f32 (glyph_id m pf) (f_glyph_width (pdf_font m addr pf)) o root (mkVec PAGE_WIDTH PAGE_HEIGHT))).
  { apply (related_root f32 f32 _ _ _ f32_laws); [exact this_style_reads| |exact Hs|].
    - intros id. cbn [f_glyph_width pdf_font]. destruct (glyph_width m pf id) as [x|x|] eqn:Ew; [split; [reflexivity|left; exact (C101_widths _ _ _ _ Wf Ew)]|reflexivity|exact I].
    - split; (split; [reflexivity|]); [exact (whole32 600 eq_refl)|exact (whole32 800 eq_refl)]. }
  destruct (box_tree_root_layout_in f32 (glyph_id m pf) (f_glyph_width (pdf_font m addr pf)) o root (mkVec PAGE_WIDTH PAGE_HEIGHT)) as [frs|]; [|reflexivity].
  inversion B as [|? ? F]; subst. unfold fragments_to_pdf_bytes_in.
  rewrite (R PAGE_WIDTH) by (left; exact (whole32 600 eq_refl)). rewrite (R PAGE_HEIGHT) by (left; exact (whole32 800 eq_refl)).
  rewrite (fragments_same round round' R _ _ _ F). reflexivity.
Qed.
(** Two ways of printing that differ, but not where it matters; the other hypotheses hold by [C101_example]. *)
Definition print_without (q : Q) : dec := if Qeq_bool q (1 # 7) then dec_zero else print32 q.
Example C101_printed_example : (forall q, printed q -> print32 q = print_without q) /\ print32 (1 # 7) <> print_without (1 # 7) /\
  printed 600 /\ printed (inject_Z (Z.of_N 128) / 255).
Proof.
  split; [|split; [vm_compute; discriminate|split; [left; exact (whole32 600 eq_refl)|right; exists 128%N; reflexivity]]].
  intros q P. unfold print_without. destruct (Qeq_bool q (1 # 7)) eqn:E; [|reflexivity]. exfalso. apply Qeq_bool_iff in E. destruct P as [[F|[K|[K|K]]]|[n ->]].
  - apply (finite32_comp _ _ E), finite32_round in F. vm_compute in F. discriminate F.
  - rewrite K in E. vm_compute in E. discriminate E.
  - rewrite K in E. vm_compute in E. discriminate E.
  - rewrite K in E. vm_compute in E. discriminate E.
  - unfold Qeq, Qdiv, Qmult, Qinv, inject_Z in E. cbn [Qnum Qden] in E. Lia.lia.
Qed.
Print Assumptions C101_printed.
