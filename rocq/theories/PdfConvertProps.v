(** Properties C09-C12: what a reader of the written document sees.  The reader (page tree,
    content streams, fonts, CMaps) and the wanted marks are in [PdfConvertSpec]. *)
From Verif Require Import Base PdfObject PdfObjectSpec PdfSyntax PdfSyntaxSpec PdfConvert
  PdfConvertSpec PdfConvertProofs PdfDocProofs PdfCMapProofs PdfPagesProofs.
From Coq Require Import Qabs.
Local Open Scope N_scope.

(** A history over two pages, two fonts (one cannot be embedded), repeated colours and
    opacities, used as example for C09, C10 and C11. *)
Definition d (m e : Z) : dec := dec_of_Z m e.
Definition a_font : font :=
  mkFont 100 (bs "glyf ) endstream") (bs "Ahem") (-1 # 5) (-1 # 3) (1 # 1) (4 # 5) (4 # 5) (-1 # 5)
    [(32, 3); (65, 1); (128512, 2)] None 4 (fun i => Ok (Z.of_N i # 7)).
Definition bad_font : font :=
  mkFont 200 (bs "x") (bs "Bad") 0 0 0 0 0 0 [] (Some NoSupportedCmap) 1 (fun _ => Ok 0%Q).
Definition red : dec * dec * dec * dec := (d 1 0, dec_zero, dec_zero, d 5 (-1)).
Definition a_history : list page_history :=
  [ mkPH (d 200 0) (d 1005 (-1))
      [ SetColor red; PaintRectangle (d 10 0) (d 20 0) (d 305 (-1)) (d 4 0); SetColor red;
        ShowText bad_font [7] (d 1 0) (d 2 0) (d 3 0);
        ShowText a_font [1; 258] (d 16 0) (d 5 0) (d 25 0);
        SetColor (d 1 0, dec_zero, dec_zero, d 2 0) ];
    mkPH (d 8 0) (d 16 0)
      [ ShowText a_font [2] (d 16 0) (d 5 0) (d 25 0);
        SetColor (dec_zero, dec_zero, dec_zero, d 5 (-1));
        PaintRectangle dec_zero dec_zero (d 1 0) (d 1 0) ] ].

Lemma moderate_d : forall m e, Qle_bool (1 # 100000) (Qabs (dec_value (dec_of_Z m e))) = true ->
  Qle_bool (Qabs (dec_value (dec_of_Z m e))) (inject_Z (10 ^ 19)) = true -> moderate (dec_of_Z m e).
Proof.
  intros m e H1 H2. split; [apply dec_of_Z_wf|right]. split; [apply Qle_bool_iff; exact H1|].
  eapply Qle_lt_trans; [apply Qle_bool_iff; exact H2|]. reflexivity.
Qed.
Lemma moderate_zero : moderate dec_zero.
Proof. split; [split; [constructor|cbn; discriminate]|left; reflexivity]. Qed.

Example a_history_clean : clean_history a_history /\
  N.of_nat (length (doc_write (run a_history))) < 2 ^ 32.
Proof.
  split; [|vm_compute; reflexivity]. split.
  - assert (N : forall s, ~ In 35 (bs s) -> clean_name (bs s)).
    { intros k H. split; [apply bs_wf|]. intros (a & h1 & h2 & b & E & _). apply H. rewrite E.
      apply in_or_app. right. left. auto. }
    assert (M : forall x m e, x = dec_of_Z m e ->
      Qle_bool (1 # 100000) (Qabs (dec_value (dec_of_Z m e))) = true ->
      Qle_bool (Qabs (dec_value (dec_of_Z m e))) (inject_Z (10 ^ 19)) = true -> moderate x)
      by (intros x m e -> ; apply moderate_d).
    assert (G : forall l, forallb (fun g => g <? 65536) l = true -> Forall (fun g => g < 65536) l).
    { intros l H. apply Forall_forall. intros x Hx. rewrite forallb_forall in H.
      apply N.ltb_lt. auto. }
    unfold a_history, red.
    repeat (apply Forall_cons || apply Forall_nil);
      unfold clean_page; cbn [ph_width ph_height ph_requests];
      repeat match goal with |- _ /\ _ => split end;
      repeat (apply Forall_cons || apply Forall_nil); cbn [clean_request];
      repeat match goal with |- _ /\ _ => split end;
      try exact moderate_zero;
      try (eapply M; [reflexivity|vm_compute; reflexivity|vm_compute; reflexivity]).
    all: try (apply N; vm_compute; intuition discriminate).
    all: apply G; reflexivity.
  - unfold coherent. cbn [a_history fonts_of flat_map app ph_requests].
    intros f g [<-|[<-|[<-|[]]]] [<-|[<-|[<-|[]]]] H; try reflexivity; discriminate H.
Qed.

(** C09: a document under 4 GiB lists its pages in order (each with [Parent] the page tree,
    which [read_page] checks), under distinct references, with [Count] right (which
    [read_document] checks). *)
Theorem C09_page_tree : forall h, clean_history h ->
  N.of_nat (length (doc_write (run h))) < 2 ^ 32 ->
  exists kids pages rs, read_document (doc_write (run h)) = Some (kids, pages, rs) /\
    NoDup kids /\ length kids = length h /\
    Forall2 sheet h (map pv_media_box pages).
Proof.
  intros h H L. destruct (document_read h H L) as (kids & pages & rs & R & D & F).
  exists kids, pages, rs. split; [auto|]. split; [auto|]. split.
  - assert (K : length kids = length pages).
    { clear -R. unfold read_document in R.
      repeat match type of R with
             | match ?x with _ => _ end = _ => let E := fresh "E" in destruct x eqn:E; try discriminate R
             end.
      injection R as <- <- <-.
      match goal with E : read_kids ?f ?t ?l = Some ?ps |- length ?l = length ?ps =>
        clear -E; revert ps E; induction l as [|k l IH]; intros ps E; cbn [read_kids] in E;
        [injection E as <-; reflexivity|
         destruct (read_page f t k); [|discriminate]; destruct (read_kids f t l) eqn:X; [|discriminate];
         injection E as <-; cbn [length]; f_equal; apply IH; auto] end. }
    rewrite K. symmetry. clear -F. induction F; cbn [length]; auto.
  - clear -F. induction F as [|p v ps vs [A _] F IH]; cbn [map]; constructor; auto.
Qed.
Print Assumptions C09_page_tree.

Example c09_computed :
  match read_document (doc_write (run a_history)) with
  | Some (kids, pages, rs) => Some (kids, map pv_media_box pages)
  | None => None
  end = Some ([PRef 11 0; PRef 13 0], [[0; 0; 150 # 1; -603 # 8]; [0; 0; 6 # 1; -12 # 1]]%Q).
Proof. vm_compute. reflexivity. Qed.

(** C10: interpreting each page's content stream with the document's resources paints what
    was asked for on that page, in order: geometry and colour exact, opacity within 1/64000,
    the very font and glyphs.  A text request whose font cannot be embedded paints nothing. *)
Theorem C10_content_streams : forall h, clean_history h ->
  N.of_nat (length (doc_write (run h))) < 2 ^ 32 ->
  exists kids pages rs, read_document (doc_write (run h)) = Some (kids, pages, rs) /\
    Forall2 (fun ph pv => exists ms, paint rs (pv_contents pv) = Some ms /\
               Forall2 (painted_as (doc_write (run h))) (wants (0, 0, 0)%Q 1%Q (ph_requests ph)) ms)
            h pages.
Proof.
  intros h H L. destruct (document_read h H L) as (kids & pages & rs & R & D & F).
  exists kids, pages, rs. split; [auto|]. eapply Forall2_impl; [|exact F].
  cbv beta. intros ph pv [_ X]. exact X.
Qed.
Print Assumptions C10_content_streams.

Example c10_computed :
  match read_document (doc_write (run a_history)) with
  | Some (_, pages, rs) => map (fun p => paint rs (pv_contents p)) pages
  | None => []
  end = [ Some
    [ MFill [(15 # 2, -15 # 1); (243 # 8, -15 # 1); (243 # 8, -18 # 1); (15 # 2, -18 # 1)] (1, 0, 0) (1 # 2);
      MText (PRef 9 0) (mkM 12 0 0 12 (15 # 4) (-75 # 4)) [0; 1; 1; 2]%N (1, 0, 0) (1 # 2) ]%Q; Some
    [ MText (PRef 9 0) (mkM 12 0 0 12 (15 # 4) (-75 # 4)) [0; 2]%N (0, 0, 0) 1;
      MFill [(0, 0); (3 # 4, 0); (3 # 4, -3 # 4); (0, -3 # 4)] (0, 0, 0) (1 # 2) ]%Q ].
Proof. vm_compute. reflexivity. Qed.

(** C11: resource names are distinct, so are the font objects; the embedded fonts are exactly
    the embeddable fonts shown, each once, and each Font resource represents its font; each
    ExtGState resource sets one opacity, between 0 and 1, for stroking and filling.
    (That names used by pages are defined is part of C10: [paint] looks them up.) *)
Theorem C11_resources : forall h, clean_history h ->
  N.of_nat (length (doc_write (run h))) < 2 ^ 32 ->
  exists kids pages rs, read_document (doc_write (run h)) = Some (kids, pages, rs) /\
    NoDup (map fst (r_fonts rs)) /\ NoDup (map snd (r_fonts rs)) /\ NoDup (map fst (r_ext_gs rs)) /\
    Forall (fun kv => exists a, (0 <= a)%Q /\ (a <= 1)%Q /\
      snd kv = PDict [(bs "CA", PReal a); (bs "ca", PReal a)]) (r_ext_gs rs) /\
    exists used, NoDup used /\
      (forall f, In f used <-> In f (fonts_of h) /\ embeddable f = true) /\
      Forall2 (fun f kv => exists fv, read_font (doc_write (run h)) (snd kv) = Some fv /\ represents f fv)
              used (r_fonts rs).
Proof.
  intros h H L. destruct (resources_read h H L) as (kids & pages & rs & R & A & B & C & D).
  destruct (alphas_read h H L) as (kids' & pages' & rs' & R' & F). rewrite R in R'.
  injection R' as <- <- <-. exists kids, pages, rs. auto 10.
Qed.
Print Assumptions C11_resources.

Example c11_computed :
  match read_document (doc_write (run a_history)), read_font (doc_write (run a_history)) (PRef 9 0) with
  | Some (_, _, rs), Some fv =>
      Some (r_fonts rs, r_ext_gs rs, fv_widths fv, fv_bbox fv, fv_program fv, read_to_unicode (fv_to_unicode fv))
  | _, _ => None
  end = Some
    ( [(bs "f0", PRef 9 0)],
      [ (bs "a0", PDict [(bs "CA", PReal (1 # 2)); (bs "ca", PReal (1 # 2))]);
        (bs "a1", PDict [(bs "CA", PReal 1); (bs "ca", PReal 1)]) ],
      [0; 142; 285; 428]%Z, [-200; -333; 1000; 800]%Z, bs "glyf ) endstream",
      Some [[(32, 3); (65, 1); (128512, 2)]] ).
Proof. vm_compute. reflexivity. Qed.

(** C12: the ToUnicode CMap lists exactly the given (character, glyph) pairs, in order,
    in blocks of 1 to 100 whose announced length is right ([bf_sections] checks it). *)
Theorem C12_to_unicode : forall pairs,
  Forall (fun cg => scalar_value (fst cg) /\ snd cg < 65536) pairs ->
  exists blocks, read_to_unicode (to_unicode_cmap pairs) = Some blocks /\ concat blocks = pairs /\
    Forall (fun b => 1 <= length b <= 100)%nat blocks.
Proof. exact to_unicode_reads. Qed.
Print Assumptions C12_to_unicode.
(** What it begins it ends, in the right order. *)
Theorem C12_nested : forall pairs, Forall (fun cg => scalar_value (fst cg) /\ snd cg < 65536) pairs ->
  exists is, content_items (to_unicode_cmap pairs) = Some is /\ well_nested [] is = true.
Proof. exact to_unicode_nested. Qed.
Print Assumptions C12_nested.

Definition many_pairs : list (N * N) := map (fun i => (128500 + N.of_nat i, N.of_nat i)) (seq 0 201).
Example c12_hyps : Forall (fun cg => scalar_value (fst cg) /\ snd cg < 65536) many_pairs.
Proof.
  apply Forall_map, Forall_forall. intros i H. apply in_seq in H. cbn [fst snd]. unfold scalar_value. lia.
Qed.
Example c12_computed : option_map (map (@length _)) (read_to_unicode (to_unicode_cmap many_pairs)) =
  Some [100; 100; 1]%nat.
Proof. vm_compute. reflexivity. Qed.
