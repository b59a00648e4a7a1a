(** Whole documents: page tree, resources, fonts, as read back from the file. *)
From Verif Require Import Base PdfObject PdfObjectSpec PdfObjectProofs PdfSyntax PdfSyntaxSpec
  PdfSyntaxProofs Float32 Float32Proofs PdfConvert PdfConvertSpec PdfConvertProofs PdfDrawProofs PdfDocProofs PdfCMapProofs.
From Coq Require FinFun.
From Coq Require Import Qabs Qround Qpower Qfield Lqa.
Local Open Scope N_scope.

Lemma Forall2_impl : forall A B (P Q : A -> B -> Prop) l m, (forall a b, P a b -> Q a b) ->
  Forall2 P l m -> Forall2 Q l m.
Proof. intros A B P Q l m H F. induction F; constructor; auto. Qed.

Lemma look_hit : forall k v l, lookup_key k ((k, v) :: l) = Some v.
Proof. intros k v l. cbn [lookup_key]. rewrite (proj2 (bytes_eqb_eq k k)) by reflexivity. reflexivity. Qed.
Lemma look_miss : forall k k' v l, bytes_eqb k k' = false ->
  lookup_key k ((k', v) :: l) = lookup_key k l.
Proof. intros k k' v l H. cbn [lookup_key]. rewrite H. reflexivity. Qed.

Ltac look := repeat match goal with
  | |- context [lookup_key (bs ?k) ((bs ?k, ?v) :: ?l)] => rewrite (look_hit (bs k) v l)
  | |- context [lookup_key (bs ?k) ((bs ?k', ?v) :: ?l)] =>
      rewrite (look_miss (bs k) (bs k') v l) by (vm_compute; reflexivity)
  end; cbv iota beta.

(** ** Pages *)
Definition page_dict (w h : dec) (content : N) : dictionary :=
  dict [ (bs "Type", OName (bs "Page"));
         (bs "Parent", OReference PAGE_TREE_ID);
         (bs "Contents", OReference content);
         (bs "MediaBox", OArray [ OI32 0; OI32 0; OFloat (times_scale w); OFloat (dec_neg (times_scale h)) ]) ].

Definition page_done (adds : list addition) (alphas : list dec) (fl : list (font * N))
    (h : page_history) (kid : N) : Prop :=
  exists c ops,
    has adds kid (AddDictionary (page_dict (ph_width h) (ph_height h) c)) /\
    has adds c (AddStream (dict []) ops) /\
    forall al fl', exists ms, paint (res_of (alphas ++ al) (fl ++ fl')) ops = Some ms /\
      Forall2 (painted (fl ++ fl')) (wants (0, 0, 0)%Q 1%Q (ph_requests h)) ms.

Lemma page_done_more : forall adds alphas fl h kid adds' alphas' fl',
  page_done adds alphas fl h kid -> page_done (adds ++ adds') (alphas ++ alphas') (fl ++ fl') h kid.
Proof.
  intros adds alphas fl h kid adds' alphas' fl' (c & ops & A & B & C). exists c, ops.
  split; [apply has_app; auto|]. split; [apply has_app; auto|].
  intros al f2. rewrite <- (app_assoc alphas), <- (app_assoc fl). apply C.
Qed.

Lemma page_dict_clean : forall w h c, moderate w -> moderate h -> clean_pairs (page_dict w h c).
Proof.
  intros w h c Hw Hh. apply clean_dict. entries; try exact I.
  - apply clean_bs_name. reflexivity.
  - apply clean_array. repeat (apply Forall_cons || apply Forall_nil); try exact I.
    + apply times_scale_clean. auto.
    + apply dec_neg_clean. apply times_scale_clean. auto.
Qed.

Lemma page_new_gmatch : forall rs w h,
  exists g, draws rs g_initial (pg_ops (page_new w h)) g [] /\ gmatch (page_new w h) g.
Proof.
  intros rs w h. eexists. split; [apply draws_cm|].
  split; [reflexivity|]. split; [reflexivity|]. split; [apply close_refl|]. auto.
Qed.

Lemma do_page_spec : forall S adds kids alphas fl h,
  coherent_set S -> clean_page h ->
  (forall f gl fs x y, In (ShowText f gl fs x y) (ph_requests h) -> S f) ->
  ok_state S adds alphas fl -> numbered adds kids ->
  exists adds' alphas' fl' kid,
    do_page (doc_of adds kids alphas fl) h =
      doc_of (adds ++ adds') (kids ++ [kid]) (alphas ++ alphas') (fl ++ fl') /\
    ok_state S (adds ++ adds') (alphas ++ alphas') (fl ++ fl') /\
    numbered (adds ++ adds') (kids ++ [kid]) /\
    page_done (adds ++ adds') (alphas ++ alphas') (fl ++ fl') h kid.
Proof.
  intros S adds kids alphas fl h HS (Hw & Hh & Hr) Hf OK Hk. unfold do_page.
  destruct (do_requests_spec S (ph_requests h) adds kids alphas fl (page_new (ph_width h) (ph_height h))
              HS Hr Hf OK) as (ad & al & f1 & p & E & OK1 & C1 & C2 & t & C3 & C4).
  rewrite E. unfold page_drop. change (d_pdf (doc_of ?a ?b ?c ?d)) with (the_file a).
  rewrite add_stream_eq, add_dictionary_eq. rewrite C1, C2. cbn [page_new op pg_width pg_height].
  set (A1 := AddStream (dict []) (pg_ops p)).
  set (c := new_id (adds ++ ad)).
  change (dict _) with (page_dict (ph_width h) (ph_height h) c).
  set (A2 := AddDictionary (page_dict (ph_width h) (ph_height h) c)).
  assert (X1 : clean_addition A1) by (apply clean_stream; [constructor|auto]).
  assert (X2 : clean_addition A2) by (apply page_dict_clean; auto).
  set (kid := new_id ((adds ++ ad) ++ [A1])).
  exists (ad ++ [A1; A2]), al, f1, kid.
  rewrite (app_assoc adds). split; [|split; [|split]].
  - rewrite <- (app_assoc (adds ++ ad)). cbn [app]. unfold doc_of.
    cbn [d_page_ids d_ext_gs d_font_res d_alpha_states d_fonts]. rewrite map_app. reflexivity.
  - apply ok_more; auto.
  - apply (numbered_new (adds ++ ad) [A1] A2 []). apply numbered_more. auto.
  - exists c, (pg_ops p). split; [exact (has_mid (adds ++ ad) [A1] A2 [])|].
    split.
    + pose proof (has_mid (adds ++ ad) [] A1 [A2]) as M. rewrite app_nil_r in M. exact M.
    + intros al' fl'. rewrite C3.
      destruct (page_new_gmatch (res_of ((alphas ++ al) ++ al') ((fl ++ f1) ++ fl')) (ph_width h) (ph_height h))
        as (g & D & G).
      destruct (C4 al' fl' g G) as (g' & ms & D2 & G2 & P).
      exists ms. split.
      * apply draws_paint with g'; [|apply G2]. change ms with ([] ++ ms). eapply draws_app; eauto.
      * exact P.
Qed.

Definition all_fonts (h : list page_history) (f : font) : Prop := In f (fonts_of h).

Lemma run_spec_from : forall S h adds kids alphas fl done,
  coherent_set S -> Forall clean_page h ->
  (forall f, all_fonts h f -> S f) ->
  ok_state S adds alphas fl -> numbered adds kids -> Forall2 (page_done adds alphas fl) done kids ->
  exists adds' kids' alphas' fl',
    fold_left do_page h (doc_of adds kids alphas fl) = doc_of adds' kids' alphas' fl' /\
    ok_state S adds' alphas' fl' /\ numbered adds' kids' /\
    Forall2 (page_done adds' alphas' fl') (done ++ h) kids'.
Proof.
  intros S h. induction h as [|p h IH]; intros adds kids alphas fl done HS Hc Hf OK Hk HF.
  - exists adds, kids, alphas, fl. rewrite app_nil_r. auto.
  - inversion Hc; subst. cbn [fold_left].
    destruct (do_page_spec S adds kids alphas fl p HS H1) as (ad & al & f1 & kid & E & OK1 & N1 & P); auto.
    { intros f gl fs x y Hin. apply Hf. unfold all_fonts. unfold fonts_of. cbn [flat_map]. apply in_or_app. left.
      apply in_flat_map. eexists. split; [exact Hin|]. left. auto. }
    rewrite E.
    destruct (IH (adds ++ ad) (kids ++ [kid]) (alphas ++ al) (fl ++ f1) (done ++ [p]) HS H2)
      as (ad2 & k2 & al2 & f2 & E2 & OK2 & N2 & P2); auto.
    + intros f Hin. apply Hf. unfold all_fonts, fonts_of in *. cbn [flat_map]. apply in_or_app. auto.
    + apply Forall2_app; [|constructor; [auto|constructor]].
      eapply Forall2_impl; [|exact HF]. intros a b. apply page_done_more.
    + exists ad2, k2, al2, f2. rewrite <- app_assoc in P2. auto.
Qed.

Lemma run_spec : forall h, clean_history h ->
  exists adds kids alphas fl, run h = doc_of adds kids alphas fl /\
    ok_state (all_fonts h) adds alphas fl /\ numbered adds kids /\
    Forall2 (page_done adds alphas fl) h kids.
Proof.
  intros h [H1 H2].
  apply (run_spec_from (all_fonts h) h [] [] [] [] []); auto.
  - split; try constructor. exists []. split; [constructor|]. split; [constructor|reflexivity].
  - exists []. split; [constructor|]. split; [constructor|reflexivity].
Qed.

(** ** Reading the file *)
Lemma all_entries_dict : forall l, meaning_pairs (dict l) = map (fun kv => (fst kv, meaning (snd kv))) l.
Proof. intro l. reflexivity. Qed.

Lemma basic_clean : forall S adds kids alphas fl, ok_state S adds alphas fl ->
  let b := doc_basic_objects (doc_of adds kids alphas fl) in
  clean_pairs (page_tree b) /\ clean_pairs (catalog b) /\ clean_pairs (info b).
Proof.
  intros S adds kids alphas fl OK b. split; [|split]; apply clean_dict; entries; try exact I;
    try (apply clean_bs_name; reflexivity).
  - apply clean_array. apply Forall_map. apply Forall_forall. intros. exact I.
  - apply clean_dict. entries; apply clean_owned.
    + apply Forall_map. apply Forall_forall. intros [i [f id]] _. split; [|exact I].
      apply key_clean. cbn. intros [X|[]]; discriminate.
    + apply Forall_map. apply Forall_forall. intros [i a] Hin. split.
      * apply key_clean. cbn. intros [X|[]]; discriminate.
      * cbn [snd]. destruct OK as [_ B _ _ _]. rewrite Forall_forall in B.
        assert (In a alphas).
        { apply In_nth_error in Hin as [k Hk]. rewrite index_from_nth in Hk.
          destruct (nth_error alphas k) eqn:N; cbn in Hk; [|discriminate].
          injection Hk as _ <-. eapply nth_error_In; eauto. }
        apply B in H as [H _]. exact H.
  - apply clean_literal_bs. reflexivity.
Qed.

Section Doc.
  Variables (h : list page_history) (adds : list addition) (kids : list N) (alphas : list dec) (fl : list (font * N)).
  Hypothesis (E : run h = doc_of adds kids alphas fl).
  Hypothesis (OK : ok_state (all_fonts h) adds alphas fl).
  Let file := doc_write (run h).
  Hypothesis (L : N.of_nat (length file) < 2 ^ 32).

  Lemma file_eq : file = pdf_write (the_file adds) (doc_basic_objects (doc_of adds kids alphas fl)).
  Proof. unfold file. rewrite E. reflexivity. Qed.

  Lemma file_len : lenN (pdf_write (the_file adds) (doc_basic_objects (doc_of adds kids alphas fl))) < 2 ^ 32.
  Proof. rewrite lenN_eq, <- file_eq. exact L. Qed.

  Lemma resolve_has : forall id a, has adds id a -> resolve file id = Some (addition_value a).
  Proof.
    intros id a (i & H1 & H2). rewrite file_eq.
    destruct (additions_denoted adds (doc_basic_objects (doc_of adds kids alphas fl)) (the_file adds)
                (snd (add_all pdf_new adds))) as (_ & _ & X).
    - unfold the_file. destruct (add_all pdf_new adds); auto.
    - apply OK.
    - apply file_len.
    - destruct (X i a H1) as (id' & Y1 & _ & _ & _ & _ & Y2). congruence.
  Qed.

  Lemma ids_nodup : forall ids, numbered adds ids -> NoDup ids.
  Proof.
    intros ids (ps & A & B & ->).
    destruct (additions_denoted adds (doc_basic_objects (doc_of adds kids alphas fl)) (the_file adds)
                (snd (add_all pdf_new adds))) as (X & Y & _).
    - unfold the_file. destruct (add_all pdf_new adds); auto.
    - apply OK.
    - apply file_len.
    - assert (Z : forall i, (i < length adds)%nat -> nth_error (snd (add_all pdf_new adds)) i = Some (id_at i)).
      { intros i Hi. rewrite <- (firstn_skipn i adds) at 1.
        destruct (skipn i adds) as [|a r] eqn:S1.
        - exfalso. pose proof (skipn_length i adds) as SL. rewrite S1 in SL. cbn in SL. lia.
        - destruct (has_mid (firstn i adds) [] a r) as (j & J1 & J2).
          rewrite app_nil_r in J2. cbn [app] in *.
          clear J1 J2. change (a :: r) with ([a] ++ r). rewrite app_assoc.
          assert (LF : length (firstn i adds) = i) by (apply firstn_length_le; lia).
          assert (G : forall more l k v, nth_error (snd (add_all pdf_new l)) k = Some v ->
                      nth_error (snd (add_all pdf_new (l ++ more))) k = Some v).
          { induction more as [|m more IH]; intros l k v Hv; [rewrite app_nil_r; auto|].
            change (m :: more) with ([m] ++ more). rewrite app_assoc. apply IH.
            rewrite (proj2 (add_all_snoc _ _ _)). rewrite nth_error_app1; auto.
            apply nth_error_Some. congruence. }
          apply G. rewrite (proj2 (add_all_snoc _ _ _)).
          rewrite nth_error_app2 by (rewrite add_all_length; lia).
          rewrite add_all_length, LF, Nat.sub_diag. cbn [nth_error].
          fold (the_file (firstn i adds)). rewrite add_spec. cbn [snd].
          fold (new_id (firstn i adds)). rewrite new_id_at, LF. auto. }
      rewrite Forall_forall in B. clear -A B X Y Z. induction ps as [|i ps IH]; [constructor|].
      inversion A; subst. cbn [map]. constructor.
      + intro Hin. apply in_map_iff in Hin as (j & J1 & J2).
        assert (i = j).
        { rewrite NoDup_nth_error in X. apply X.
          - rewrite Y. apply B. left. auto.
          - rewrite !Z; [congruence| |]; apply B; [right|left]; auto. }
        subst. contradiction.
      + apply IH; auto. intros x Hx. apply B. right. auto.
  Qed.

  Lemma map_index : forall A B (f : A -> B) l n, map (fun ix => f (snd ix)) (index_from n l) = map f l.
  Proof. induction l as [|x l IH]; intro n; cbn; auto. rewrite IH. auto. Qed.

  Definition tree_entries : list (bytes * pval) :=
    [ (bs "Type", PName (bs "Pages"));
      (bs "Count", PInt (Z.of_nat (length kids)));
      (bs "Kids", PArray (map (fun k => PRef k 0) kids));
      (bs "Resources", PDict [ (bs "Font", PDict (r_fonts (res_of alphas fl)));
                               (bs "ExtGState", PDict (r_ext_gs (res_of alphas fl))) ]) ].

  Lemma tree_meaning : meaning_pairs (page_tree (doc_basic_objects (doc_of adds kids alphas fl))) = tree_entries.
  Proof.
    cbn [doc_basic_objects page_tree]. rewrite all_entries_dict. unfold tree_entries.
    cbn [map fst snd meaning meaning_pairs dict app doc_of d_page_ids d_font_res d_ext_gs].
    rewrite lenN_eq, !map_length, map_map. rewrite nat_N_Z. rewrite !map_map. reflexivity.
  Qed.

  Lemma resolve_basic :
    resolve file 1 = Some (PDict tree_entries, None) /\
    resolve file 2 = Some (PDict [(bs "Type", PName (bs "Catalog")); (bs "Pages", PRef 1 0)], None).
  Proof.
    destruct (basic_clean _ _ kids _ _ OK) as (B1 & B2 & B3).
    pose proof (basic_objects_denoted (the_file adds) (doc_basic_objects (doc_of adds kids alphas fl))
                  file_len B1 B2 B3) as (R1 & R2 & _).
    rewrite tree_meaning in R1. rewrite file_eq. split; [exact R1|exact R2].
  Qed.

  Lemma resolve_dict_has : forall id d, has adds id (AddDictionary d) ->
    resolve_dict file (PRef id 0) = Some (meaning_pairs d).
  Proof. intros id d H. unfold resolve_dict. rewrite (resolve_has _ _ H). reflexivity. Qed.
  Lemma resolve_stream_has : forall id d c, has adds id (AddStream d c) ->
    resolve_stream file (PRef id 0) = Some c.
  Proof. intros id d c H. unfold resolve_stream. rewrite (resolve_has _ _ H). reflexivity. Qed.

  Lemma read_done_page : forall ph kid, page_done adds alphas fl ph kid ->
    exists ops, read_page file 1 (PRef kid 0) =
      Some (mkPV [0%Q; 0%Q; dec_value (times_scale (ph_width ph)); dec_value (dec_neg (times_scale (ph_height ph)))] ops) /\
      exists ms, paint (res_of alphas fl) ops = Some ms /\
        Forall2 (painted fl) (wants (0, 0, 0)%Q 1%Q (ph_requests ph)) ms.
  Proof.
    intros ph kid (c & ops & H1 & H2 & H3). exists ops. split.
    - unfold read_page. rewrite (resolve_dict_has _ _ H1). unfold page_dict. rewrite all_entries_dict.
      cbn [map fst snd meaning]. unfold PAGE_TREE_ID.
      match goal with |- (if has_name ?a ?b ?c then _ else _) = _ => change (has_name a b c) with true end.
      cbv iota.
      match goal with |- context [lookup_key (bs "Parent") ?l] =>
        change (lookup_key (bs "Parent") l) with (Some (PRef 1 0));
        change (lookup_key (bs "Contents") l) with (Some (PRef c 0));
        change (lookup_key (bs "MediaBox") l) with
          (Some (PArray [PInt 0; PInt 0; PReal (dec_value (times_scale (ph_width ph)));
                         PReal (dec_value (dec_neg (times_scale (ph_height ph))))])) end.
      cbv iota. rewrite (resolve_stream_has _ _ _ H2). cbn [numbers number].
      change (1 =? 1) with true. cbv iota.
      reflexivity.
    - destruct (H3 [] []) as (ms & M1 & M2). rewrite !app_nil_r in *. eauto.
  Qed.

  Lemma read_done_kids : forall hs ks, Forall2 (page_done adds alphas fl) hs ks ->
    exists pvs, read_kids file 1 (map (fun k => PRef k 0) ks) = Some pvs /\
      Forall2 (fun ph pv =>
        pv_media_box pv = [0%Q; 0%Q; dec_value (times_scale (ph_width ph)); dec_value (dec_neg (times_scale (ph_height ph)))] /\
        exists ms, paint (res_of alphas fl) (pv_contents pv) = Some ms /\
          Forall2 (painted fl) (wants (0, 0, 0)%Q 1%Q (ph_requests ph)) ms) hs pvs.
  Proof.
    intros hs ks F. induction F as [|ph k hs ks P F IH].
    - exists []. split; [reflexivity|constructor].
    - destruct IH as (pvs & R & IH). destruct (read_done_page ph k P) as (ops & R1 & M).
      eexists. split; [cbn [map read_kids]; rewrite R1, R; reflexivity|].
      constructor; [|auto]. cbn [pv_media_box pv_contents]. auto.
  Qed.

  Lemma read_document_eq : forall pvs, read_kids file 1 (map (fun k => PRef k 0) kids) = Some pvs ->
    read_document file = Some (map (fun k => PRef k 0) kids, pvs, res_of alphas fl).
  Proof.
    intros pvs H. unfold read_document.
    destruct (xref_correct (the_file adds) (doc_basic_objects (doc_of adds kids alphas fl)) file_len)
      as (p & R & T & _). rewrite <- file_eq in R. rewrite R, T. unfold trailer_value.
    destruct resolve_basic as [R1 R2].
    match goal with |- context [lookup_key (bs "Root") ?l] =>
      change (lookup_key (bs "Root") l) with (Some (PRef 2 0)) end. cbv iota.
    unfold resolve_dict at 1. rewrite R2.
    match goal with |- context [lookup_key (bs "Pages") ?l] =>
      change (lookup_key (bs "Pages") l) with (Some (PRef 1 0)) end. cbv iota.
    unfold resolve_dict at 1. rewrite R1.
    change (lookup_key (bs "Count") tree_entries) with (Some (PInt (Z.of_nat (length kids)))).
    change (lookup_key (bs "Kids") tree_entries) with (Some (PArray (map (fun k => PRef k 0) kids))).
    change (lookup_key (bs "Resources") tree_entries) with
      (Some (PDict [ (bs "Font", PDict (r_fonts (res_of alphas fl)));
                     (bs "ExtGState", PDict (r_ext_gs (res_of alphas fl))) ])).
    cbv iota.
    match goal with |- context [lookup_key (bs "Font") ?l] =>
      change (lookup_key (bs "Font") l) with (Some (PDict (r_fonts (res_of alphas fl))));
      change (lookup_key (bs "ExtGState") l) with (Some (PDict (r_ext_gs (res_of alphas fl)))) end.
    cbv iota.
    change (has_name (bs "Type") (bs "Pages") tree_entries) with true.
    match goal with |- context [has_name (bs "Type") (bs "Catalog") ?l] =>
      change (has_name (bs "Type") (bs "Catalog") l) with true end.
    rewrite map_length, Z.eqb_refl. cbn [andb]. rewrite H. reflexivity.
  Qed.

  Definition em (q : Q) : Z := let p := round32 (q * 1000) in Z.quot (Qnum p) (Z.pos (Qden p)).
  Lemma of_em_meaning : forall q, meaning (of_em q) = PInt (em q).
  Proof. reflexivity. Qed.
  Lemma em_thousandths : forall q, thousandths q (em q).
  Proof.
    intros q. exists (round32 (q * 1000)). unfold em. set (p := round32 (q * 1000)).
    assert (Er : (Qabs (p - q * 1000) <= Qabs (q * 1000) * (1 # 16777216) + (1 # 1000000))%Q).
    { eapply Qle_trans; [apply round32_error|]. apply Qplus_le_r. discriminate. }
    split; [exact Er|]. clearbody p. clear Er. destruct p as [n d]. cbn [Qnum Qden].
    unfold Qle, Qlt, inject_Z, Qplus, Qminus, Qopp. cbn [Qnum Qden].
    pose proof (Z.quot_rem' n (Z.pos d)) as R. set (z := (n ÷ Z.pos d)%Z) in *. clearbody z. split; intro S.
    - assert (Bnd : (0 <= Z.rem n (Z.pos d) < Z.pos d)%Z) by (apply Z.rem_bound_pos; lia).
      rewrite ?Pos.mul_1_r, ?Z.mul_1_r. split; nia.
    - assert (Bnd : (- Z.pos d < Z.rem n (Z.pos d) <= 0)%Z) by (apply Z.rem_bound_pos_neg; lia).
      unfold Qplus. cbn [Qnum Qden]. rewrite ?Pos.mul_1_r, ?Z.mul_1_r. split; nia.
  Qed.

  Lemma integers_widths : forall w n i l, glyph_widths w i n = Ok l ->
    exists zs, integers (map meaning l) = Some zs /\ length zs = n /\
      forall k, (k < n)%nat -> exists q, w (i + N.of_nat k) = Ok q /\ nth_error zs k = Some (em q).
  Proof.
    induction n as [|n IH]; intros i l H; cbn [glyph_widths] in H.
    - injection H as <-. exists []. split; [reflexivity|]. split; [reflexivity|]. intros k Hk. lia.
    - destruct (w i) as [q| |] eqn:W; try discriminate.
      destruct (glyph_widths w (i + 1) n) as [l'| |] eqn:G; try discriminate. injection H as <-.
      destruct (IH _ _ G) as (zs & Z1 & Z2 & Z3). exists (em q :: zs).
      cbn [map]. rewrite of_em_meaning. cbn [integers]. rewrite Z1. split; [auto|].
      split; [cbn [length]; auto|]. intros [|k] Hk.
      + exists q. rewrite N.add_0_r. auto.
      + destruct (Z3 k) as (q' & Q1 & Q2); [lia|]. exists q'. split; [|exact Q2].
        rewrite <- Q1. f_equal. lia.
  Qed.

  Lemma read_embedded_font : forall f id, embedded adds f id ->
    exists fv, read_font file (PRef id 0) = Some fv /\ represents f fv.
  Proof.
    intros f id (t & fd & tu & ws & H1 & H2 & H3 & H4 & H5).
    destruct (integers_widths _ _ _ _ H5) as (zs & Z1 & Z2 & Z3).
    exists (mkFV (f_name f) (bs "Identity-H") 0 zs
             (map em [f_min_x f; f_min_y f; f_max_x f; f_max_y f])
             (em (f_ascender f)) (em (f_descender f)) (f_bytes f)
             (to_unicode_cmap (f_code_points f))).
    split.
    - unfold read_font. rewrite (resolve_dict_has _ _ H4). unfold font_dict. rewrite all_entries_dict.
      cbn [map fst snd meaning meaning_pairs dict app]. unfold get_name.
      look. look. rewrite (resolve_stream_has _ _ _ H3). rewrite (resolve_dict_has _ _ H2), Z1.
      unfold font_descriptor. rewrite all_entries_dict. cbn [map fst snd meaning].
      look. rewrite !of_em_meaning. cbv iota. rewrite (resolve_stream_has _ _ _ H1).
      cbn [integers]. rewrite !(proj2 (bytes_eqb_eq _ _)) by reflexivity. reflexivity.
    - unfold represents. cbn [fv_name fv_encoding fv_first_cid fv_widths fv_bbox fv_ascent fv_descent fv_program fv_to_unicode].
      split; [auto|]. split; [auto|]. split; [auto|]. split; [auto|]. split.
      { intros i Hi. destruct (Z3 (N.to_nat i)) as (q & Q1 & Q2); [lia|]. exists q, (em q). split; [|split; [exact Q2|apply em_thousandths]].
        rewrite <- Q1. f_equal. lia. }
      split; [repeat constructor; apply em_thousandths|]. do 2 (split; [apply em_thousandths|]). split; [reflexivity|]. intro Hcp.
      destruct (to_unicode_reads (f_code_points f) Hcp) as (bl & B1 & B2 & _). eauto.
  Qed.

  Lemma painted_file : forall w m, painted fl w m -> painted_as file w m.
  Proof.
    intros [p r a|f mt gl r a] [p' r' a'|v m' c r' a'] H; cbn [painted painted_as] in *; auto.
    destruct H as (A & B & C & D & id & -> & Hin). do 4 (split; [auto|]).
    pose proof (ok_fonts _ _ _ _ OK) as F. rewrite Forall_forall in F.
    destruct (F _ Hin) as (_ & _ & F3). apply read_embedded_font. auto.
  Qed.
End Doc.

(** ** The theorems *)
Lemma moderate_size : forall d, moderate d -> (Qabs (dec_value d) <= inject_Z (10 ^ 20))%Q.
Proof. intros d [_ [->|[_ H]]]; [discriminate|]. apply Qlt_le_weak. exact H. Qed.
Lemma scaled_size_comp : forall size w w', (w == w')%Q -> scaled_size size w -> scaled_size size w'.
Proof.
  intros size w w' E (s & t & A & B & C). exists s, t. split; [exact A|]. split; [exact B|].
  exact (Arith32Proofs.nearest32_comp _ _ _ _ E (Qeq_refl t) C).
Qed.
Lemma sheet_ok : forall ph, moderate (ph_width ph) -> moderate (ph_height ph) ->
  sheet ph [0%Q; 0%Q; dec_value (times_scale (ph_width ph)); dec_value (dec_neg (times_scale (ph_height ph)))].
Proof.
  intros ph M1 M2. do 2 eexists. split; [reflexivity|]. split; [apply times_scale_scaled, moderate_size; exact M1|].
  eapply scaled_size_comp; [|apply times_scale_scaled, moderate_size; exact M2]. rewrite dec_neg_value, Qred_correct. ring.
Qed.
Lemma Forall2_with : forall A B (P : A -> Prop) (R : A -> B -> Prop) l m, Forall P l -> Forall2 R l m -> Forall2 (fun a b => P a /\ R a b) l m.
Proof. intros A B P R l m H F. induction F as [|a b l m Hr F IH]; [constructor|]. inversion H; subst. constructor; auto. Qed.
Lemma document_read : forall h, clean_history h -> N.of_nat (length (doc_write (run h))) < 2 ^ 32 ->
  exists kids pages rs, read_document (doc_write (run h)) = Some (kids, pages, rs) /\ NoDup kids /\
    Forall2 (fun ph pv =>
      sheet ph (pv_media_box pv) /\
      exists ms, paint rs (pv_contents pv) = Some ms /\
        Forall2 (painted_as (doc_write (run h))) (wants (0, 0, 0)%Q 1%Q (ph_requests ph)) ms) h pages.
Proof.
  intros h H L. destruct (run_spec h H) as (adds & kids & alphas & fl & E & OK & NK & F).
  destruct (read_done_kids h adds kids alphas fl E OK L h kids F) as (pvs & R & P).
  exists (map (fun k => PRef k 0) kids), pvs, (res_of alphas fl). split; [|split].
  - apply (read_document_eq h adds kids alphas fl E OK L). auto.
  - apply FinFun.Injective_map_NoDup; [intros a b X; congruence|].
    apply (ids_nodup h adds kids alphas fl E OK L). auto.
  - assert (M : Forall (fun ph => moderate (ph_width ph) /\ moderate (ph_height ph)) h).
    { eapply Forall_impl; [|exact (proj1 H)]. intros ph (M1 & M2 & _). auto. }
    clear - M P E OK L. eapply Forall2_impl; [|exact (Forall2_with _ _ _ _ _ _ M P)]. cbv beta. intros ph pv ((M1 & M2) & A & ms & B & C).
    split; [rewrite A; apply sheet_ok; assumption|]. exists ms. split; [auto|]. eapply Forall2_impl; [|exact C].
    apply (painted_file h adds kids alphas fl E OK L).
Qed.

(** An embeddable font that some request shows is among the embedded ones. *)
Lemma wanted_font : forall rs rgb a f gl fs x y, In (ShowText f gl fs x y) rs -> embeddable f = true ->
  exists m gl' rgb' a', In (WText f m gl' rgb' a') (wants rgb a rs).
Proof.
  induction rs as [|r rs IH]; intros rgb a f gl fs x y Hin He; [contradiction|].
  destruct Hin as [->|Hin].
  - cbn [wants]. rewrite He. do 4 eexists. left. reflexivity.
  - destruct r as [[[[r g] b] al]|x' y' w h'|f' gl' fs' x' y']; cbn [wants].
    + eapply IH; eauto.
    + destruct (IH rgb a f gl fs x y Hin He) as (m & g & c & d & X). exists m, g, c, d. right. auto.
    + destruct (IH rgb a f gl fs x y Hin He) as (m & g & c & d & X). exists m, g, c, d.
      apply in_or_app. auto.
Qed.

Lemma Forall2_in_l : forall A B (P : A -> B -> Prop) l m a, Forall2 P l m -> In a l -> exists b, In b m /\ P a b.
Proof.
  intros A B P l m a F. induction F as [|x y l m H F IH]; intro Hin; [contradiction|].
  destruct Hin as [->|Hin]; [exists y; split; [left; auto|auto]|].
  destruct (IH Hin) as (b & B1 & B2). exists b. split; [right; auto|auto].
Qed.

Lemma index_keys : forall A (l : list A) c n, NoDup (map (fun ix => key c (fst ix)) (index_from n l)) /\
  forall k, In k (map (fun ix => key c (fst ix)) (index_from n l)) -> exists i, n <= i /\ k = key c i.
Proof.
  induction l as [|x l IH]; intros c n; cbn [index_from map fst].
  - split; [constructor|]. intros k [].
  - destruct (IH c (n + 1)) as [A1 A2]. split.
    + constructor; auto. intro X. apply A2 in X as (i & I1 & I2). apply key_inj in I2. lia.
    + intros k [<-|X]; [exists n; split; [lia|auto]|]. apply A2 in X as (i & I1 & I2).
      exists i. split; [lia|auto].
Qed.

Lemma resources_read : forall h, clean_history h -> N.of_nat (length (doc_write (run h))) < 2 ^ 32 ->
  exists kids pages rs, read_document (doc_write (run h)) = Some (kids, pages, rs) /\
    NoDup (map fst (r_fonts rs)) /\ NoDup (map snd (r_fonts rs)) /\
    NoDup (map fst (r_ext_gs rs)) /\
    exists used, NoDup used /\
      (forall f, In f used <-> In f (fonts_of h) /\ embeddable f = true) /\
      Forall2 (fun f kv => exists fv, read_font (doc_write (run h)) (snd kv) = Some fv /\ represents f fv)
              used (r_fonts rs).
Proof.
  intros h H L. destruct (run_spec h H) as (adds & kids & alphas & fl & E & OK & NK & F).
  destruct (read_done_kids h adds kids alphas fl E OK L h kids F) as (pvs & R & P).
  exists (map (fun k => PRef k 0) kids), pvs, (res_of alphas fl). split.
  { apply (read_document_eq h adds kids alphas fl E OK L). auto. }
  cbn [res_of r_fonts r_ext_gs]. rewrite !map_map. cbn [fst snd].
  split; [apply index_keys|]. split.
  { rewrite (map_index _ _ (fun fi : font * N => PRef (snd fi) 0)).
    rewrite <- (map_map snd (fun id => PRef id 0)).
    apply FinFun.Injective_map_NoDup; [intros a b X; congruence|].
    apply (ids_nodup h adds kids alphas fl E OK L). apply OK. }
  split; [apply index_keys|]. exists (map fst fl). split; [|split].
  - pose proof (ok_addrs _ _ _ _ OK) as N. rewrite <- (map_map fst f_addr) in N.
    eapply NoDup_map_inv. exact N.
  - intro f. pose proof (ok_fonts _ _ _ _ OK) as FF. rewrite Forall_forall in FF. split.
    + intro Hin. apply in_map_iff in Hin as ([g id] & <- & Hin). destruct (FF _ Hin) as (A & B & _). auto.
    + intros [A B]. unfold fonts_of in A. apply in_flat_map in A as (ph & A1 & A2).
      apply in_flat_map in A2 as (r & A2 & A3).
      destruct r as [?|? ? ? ?|f' gl fs x y]; try contradiction. destruct A3 as [->|[]].
      destruct (Forall2_in_l _ _ _ _ _ _ P A1) as (pv & _ & _ & ms & _ & M).
      destruct (wanted_font (ph_requests ph) (0, 0, 0)%Q 1%Q f gl fs x y A2 B) as (m & g' & c & d & X).
      destruct (Forall2_in_l _ _ _ _ _ _ M X) as (mk & _ & Y). destruct mk; cbn [painted] in Y; [contradiction|].
      destruct Y as (_ & _ & _ & _ & id & _ & Y). apply in_map_iff. exists (f, id). auto.
  - assert (G : Forall (fun fi => exists fv, read_font (doc_write (run h)) (PRef (snd fi) 0) = Some fv /\
                               represents (fst fi) fv) fl).
    { eapply Forall_impl; [|apply (ok_fonts _ _ _ _ OK)]. cbv beta. intros [f id] (_ & _ & X).
      apply (read_embedded_font h adds kids alphas fl E OK L). exact X. }
    clear -G. set (n := 0) at 2. clearbody n.
    revert n. induction G as [|[f id] fl G1 G IH]; intro n;
      cbn [map index_from fst snd]; constructor; cbn [fst snd] in *; auto.
Qed.

(** The ExtGState resources: one opacity for stroking and filling, in the range 0 to 1. *)
Lemma alphas_read : forall h, clean_history h -> N.of_nat (length (doc_write (run h))) < 2 ^ 32 ->
  exists kids pages rs, read_document (doc_write (run h)) = Some (kids, pages, rs) /\
    Forall (fun kv => exists a, (0 <= a)%Q /\ (a <= 1)%Q /\
      snd kv = PDict [(bs "CA", PReal a); (bs "ca", PReal a)]) (r_ext_gs rs).
Proof.
  intros h H L. destruct (run_spec h H) as (adds & kids & alphas & fl & E & OK & NK & F).
  destruct (read_done_kids h adds kids alphas fl E OK L h kids F) as (pvs & R & P).
  exists (map (fun k => PRef k 0) kids), pvs, (res_of alphas fl). split.
  { apply (read_document_eq h adds kids alphas fl E OK L). auto. }
  cbn [res_of r_ext_gs]. pose proof (ok_alphas _ _ _ _ OK) as A. clear -A. generalize 0 as n.
  induction A as [|a alphas A1 A IH]; intro n; cbn [map index_from fst snd]; constructor; auto.
  cbn [snd]. destruct A1 as [_ A1]. exists (dec_value a). destruct A1. auto.
Qed.
