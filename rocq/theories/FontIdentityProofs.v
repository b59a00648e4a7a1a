(** Proofs for C100. *)
From Coq Require Import Lia.
From Verif Require Import Base PdfObject PdfSyntax PdfConvert PdfConvertSpec FontIdentity FontIdentitySpec.
Local Open Scope N_scope.

(** ** Memory *)
Lemma mem_get_in : forall a m c, mem_get a m = Some c -> In a (map fst m).
Proof.
  induction m as [|[b c'] m IH]; intros c H; cbn [mem_get] in H; [discriminate|].
  cbn [map fst]. destruct (N.eqb_spec a b); [left; auto|right; eauto].
Qed.
Lemma mem_get_none : forall a m, mem_get a m = None <-> ~ In a (map fst m).
Proof.
  induction m as [|[b c'] m IH]; cbn [mem_get map fst]; [split; auto|].
  destruct (N.eqb_spec a b) as [-> |E].
  - split; [discriminate|]. intro H. destruct H. left. auto.
  - rewrite IH. split; [intros H [X|X]; [congruence|auto]|]. intros H X. apply H. right. auto.
Qed.
Lemma mem_get_set : forall a b c m,
  mem_get b (mem_set a c m) = if b =? a then option_map (fun _ => c) (mem_get a m) else mem_get b m.
Proof.
  induction m as [|[x c'] m IH]; cbn [mem_set mem_get].
  - destruct (b =? a); auto.
  - destruct (N.eqb_spec a x) as [-> |E]; cbn [mem_get option_map].
    + destruct (N.eqb_spec b x); auto.
    + rewrite IH. destruct (N.eqb_spec b x) as [-> |E2]; auto.
      destruct (N.eqb_spec x a); auto. congruence.
Qed.
Lemma mem_set_fst : forall a c m, map fst (mem_set a c m) = map fst m.
Proof.
  induction m as [|[x c'] m IH]; cbn [mem_set map]; auto.
  destruct (a =? x); cbn [map fst]; [auto|]. rewrite IH. auto.
Qed.
Lemma mem_free_in : forall a b m, In b (map fst (mem_free a m)) -> In b (map fst m).
Proof.
  induction m as [|[x c'] m IH]; cbn [mem_free map fst]; auto.
  destruct (a =? x); cbn [map fst]; [right; auto|]. intros [X|X]; [left|right]; auto.
Qed.
Lemma mem_free_nodup : forall a m, NoDup (map fst m) -> NoDup (map fst (mem_free a m)).
Proof.
  induction m as [|[x c'] m IH]; cbn [mem_free map fst]; auto.
  intro H. inversion H; subst. destruct (a =? x); cbn [map fst]; auto.
  constructor; auto. intro X. apply mem_free_in in X. auto.
Qed.
Lemma mem_get_free : forall a b m, NoDup (map fst m) ->
  mem_get b (mem_free a m) = if b =? a then None else mem_get b m.
Proof.
  induction m as [|[x c'] m IH]; cbn [mem_free mem_get map fst]; intro H.
  - destruct (b =? a); auto.
  - inversion H as [|? ? H1 H2]; subst. destruct (N.eqb_spec a x) as [-> |E]; cbn [mem_get].
    + destruct (N.eqb_spec b x) as [-> |E]; auto. apply mem_get_none. auto.
    + rewrite (IH H2). destruct (N.eqb_spec b x) as [-> |E2]; auto.
      destruct (N.eqb_spec x a); auto. congruence.
Qed.

(** ** Reference counts *)
Definition counted (m : memory) (n : N -> nat) : Prop :=
  NoDup (map fst m) /\
  forall a, match mem_get a m with
            | Some c => c_strong c = N.of_nat (n a) /\ n a <> O
            | None => n a = O
            end.
Definition kept (m m' : memory) : Prop :=
  forall a c', mem_get a m' = Some c' -> exists c, mem_get a m = Some c /\ c_font c' = c_font c.

Lemma counted_ext : forall m n n', (forall a, n a = n' a) -> counted m n -> counted m n'.
Proof. intros m n n' E [H1 H2]. split; auto. intro a. rewrite <- E. apply H2. Qed.

Lemma kept_trans : forall a b c, kept a b -> kept b c -> kept a c.
Proof.
  intros a b c H1 H2 x cx Hx. destruct (H2 _ _ Hx) as (c1 & A & B).
  destruct (H1 _ _ A) as (c2 & C & D). exists c2. split; [auto|congruence].
Qed.
Lemma kept_refl : forall a, kept a a.
Proof. intros a x c H. eauto. Qed.

Lemma clone_counted : forall m n a, counted m n -> n a <> O ->
  exists m', arc_clone a m = Some m' /\ kept m m' /\
    counted m' (fun b => if b =? a then S (n b) else n b).
Proof.
  intros m n a [H1 H2] Hn. unfold arc_clone. pose proof (H2 a) as Ha.
  destruct (mem_get a m) as [c|] eqn:E; [|contradiction]. eexists. split; [reflexivity|].
  split; [|split].
  - intros b c' Hb. rewrite mem_get_set in Hb. destruct (N.eqb_spec b a) as [-> |Eb].
    + rewrite E in Hb. cbn [option_map] in Hb. assert (X : c' = mkCell (c_font c) (c_strong c + 1)) by congruence.
      subst c'. exists c. auto.
    + eauto.
  - rewrite mem_set_fst. auto.
  - intro b. rewrite mem_get_set. specialize (H2 b). destruct (N.eqb_spec b a) as [-> |Eb]; auto.
    rewrite E. cbn [option_map c_strong]. destruct Ha as [Ha _]. split; [rewrite Ha; lia|discriminate].
Qed.

Lemma drop_counted : forall m n a, counted m n -> n a <> O ->
  exists m', arc_drop a m = Some m' /\ kept m m' /\
    counted m' (fun b => if b =? a then Nat.pred (n b) else n b).
Proof.
  intros m n a [H1 H2] Hn. unfold arc_drop. pose proof (H2 a) as Ha.
  destruct (mem_get a m) as [c|] eqn:E; [|contradiction]. destruct Ha as [Ha _].
  eexists. split; [reflexivity|]. destruct (N.eqb_spec (c_strong c) 1) as [E1|E1].
  - split; [|split].
    + intros b c' Hb. rewrite (mem_get_free _ _ _ H1) in Hb. destruct (N.eqb_spec b a); [discriminate|eauto].
    + apply mem_free_nodup. auto.
    + intro b. rewrite (mem_get_free _ _ _ H1). specialize (H2 b).
      destruct (N.eqb_spec b a) as [-> |Eb]; auto. lia.
  - split; [|split].
    + intros b c' Hb. rewrite mem_get_set in Hb. destruct (N.eqb_spec b a) as [-> |Eb].
      * rewrite E in Hb. cbn [option_map] in Hb.
        assert (X : c' = mkCell (c_font c) (c_strong c - 1)) by congruence.
        subst c'. exists c. auto.
      * eauto.
    + rewrite mem_set_fst. auto.
    + intro b. rewrite mem_get_set. specialize (H2 b). destruct (N.eqb_spec b a) as [-> |Eb]; auto.
      rewrite E. cbn [option_map c_strong]. split; lia.
Qed.

(** ** Documents that differ in the addresses of their fonts *)
Definition refont (d : doc) (l : list (N * bytes)) : doc :=
  mkDoc (d_pdf d) (d_page_ids d) (d_ext_gs d) (d_font_res d) (d_alpha_states d) l.

Lemma refont_self : forall d, refont d (d_fonts d) = d.
Proof. destruct d; reflexivity. Qed.

Lemma set_color_refont : forall d l p c,
  set_color (refont d l) p c = (refont (fst (set_color d p c)) l, snd (set_color d p c)).
Proof.
  intros d l p [[[r g] b] a]. unfold set_color. destruct (pg_rgb p) as [[r0 g0] b0].
  unfold set_alpha. destruct (negb (dec_eqb (clamp01 a) _)); [|reflexivity].
  cbn [refont d_alpha_states]. destruct (assoc _ (d_alpha_states d)); reflexivity.
Qed.
Lemma set_color_fonts : forall d p c, d_fonts (fst (set_color d p c)) = d_fonts d.
Proof.
  intros d p [[[r g] b] a]. unfold set_color. destruct (pg_rgb p) as [[r0 g0] b0].
  unfold set_alpha. destruct (negb (dec_eqb (clamp01 a) _)); [|reflexivity].
  destruct (assoc _ (d_alpha_states d)); reflexivity.
Qed.
Lemma page_drop_refont : forall d l p, page_drop (refont d l) p = refont (page_drop d p) l.
Proof.
  intros d l p. unfold page_drop. cbn [refont d_pdf d_page_ids d_ext_gs d_font_res d_alpha_states d_fonts].
  destruct (add_stream _ _ _) as [p1 c1]. destruct (add_dictionary _ _) as [p2 c2]. reflexivity.
Qed.
Lemma page_drop_fonts : forall d p, d_fonts (page_drop d p) = d_fonts d.
Proof.
  intros d p. unfold page_drop.
  destruct (add_stream _ _ _) as [p1 c1]. destruct (add_dictionary _ _) as [p2 c2]. reflexivity.
Qed.

Lemma assoc_like : forall (K : N * bytes -> N * bytes -> Prop) a n l l',
  Forall2 K l l' -> (forall x y, K x y -> snd x = snd y /\ (fst x = a <-> fst y = n)) ->
  assoc a l = assoc n l'.
Proof.
  intros K a n l l' H HK. induction H as [|[x k] [y k'] l l' Hxy H IH]; [reflexivity|].
  cbn [assoc]. destruct (HK _ _ Hxy) as [E1 E2]. cbn [fst snd] in E1, E2. subst k'.
  rewrite IH. destruct (N.eqb_spec a x) as [Ea|Ea], (N.eqb_spec n y) as [Ey|Ey]; auto.
  - exfalso. apply Ey. symmetry. apply E2. auto.
  - exfalso. apply Ea. symmetry. apply E2. auto.
Qed.

Lemma forall2_lenN : forall A B (R : A -> B -> Prop) l l', Forall2 R l l' -> lenN l = lenN l'.
Proof.
  intros A B R l l' H. unfold lenN. f_equal. induction H; cbn [length]; auto.
Qed.

(** Adding a font: at address [a] in one document, called [n] in the other. *)
Lemma add_font_like : forall d l a f (K : N * bytes -> N * bytes -> Prop),
  Forall2 K l (d_fonts d) -> assoc a l = assoc (f_addr f) (d_fonts d) ->
  snd (add_font (refont d l) (moved a f)) = snd (add_font d f) /\
  exists l', fst (add_font (refont d l) (moved a f)) = refont (fst (add_font d f)) l' /\
    ((assoc a l = None /\ exists k, snd (add_font d f) = Ok k /\ l' = l ++ [(a, k)] /\
        d_fonts (fst (add_font d f)) = d_fonts d ++ [(f_addr f, k)]) \/
     ((assoc a l <> None \/ forall k, snd (add_font d f) <> Ok k) /\ l' = l /\
        d_fonts (fst (add_font d f)) = d_fonts d)).
Proof.
  intros d l a f K HF HA. pose proof (forall2_lenN _ _ _ _ _ HF) as HL. unfold add_font.
  cbn [moved f_addr f_bytes f_code_points_result f_code_points f_glyph_count f_glyph_width
       refont d_fonts d_pdf]. rewrite HA.
  destruct (assoc (f_addr f) (d_fonts d)) as [k|] eqn:E.
  { split; [reflexivity|]. exists l. split; [reflexivity|]. right.
    split; [left; discriminate|split; reflexivity]. }
  destruct (add_stream _ _ _) as [p1 i1].
  change (font_descriptor (moved a f) i1) with (font_descriptor f i1).
  destruct (add_dictionary p1 _) as [p2 i2].
  destruct (f_code_points_result f) as [e|].
  { split; [reflexivity|]. exists l. split; [reflexivity|]. right.
    split; [right; cbn [snd]; discriminate|split; reflexivity]. }
  destruct (add_stream p2 _ _) as [p3 i3].
  destruct (glyph_widths _ _ _) as [ws|e|].
  - change (font_dict (moved a f) i3 i2 ws) with (font_dict f i3 i2 ws).
    destruct (add_dictionary p3 _) as [p4 i4]. cbn [fst snd]. rewrite HL.
    split; [reflexivity|]. eexists. split; [reflexivity|]. left. split; [auto|].
    eexists. split; [reflexivity|]. split; reflexivity.
  - split; [reflexivity|]. exists l. split; [reflexivity|]. right.
    split; [right; cbn [snd]; discriminate|split; reflexivity].
  - split; [reflexivity|]. exists l. split; [reflexivity|]. right.
    split; [right; cbn [snd]; discriminate|split; reflexivity].
Qed.

Lemma show_text_fst : forall d p f gs fs x y,
  exists p', fst (show_text d p f gs fs x y) = (fst (add_font d f), p').
Proof.
  intros. unfold show_text. destruct (add_font d f) as [d' [k|e|]]; eexists; reflexivity.
Qed.
Lemma show_text_like : forall d d' p f f' gs fs x y, snd (add_font d f) = snd (add_font d' f') ->
  snd (fst (show_text d p f gs fs x y)) = snd (fst (show_text d' p f' gs fs x y)).
Proof.
  intros d d' p f f' gs fs x y H. unfold show_text.
  destruct (add_font d f) as [d1 r], (add_font d' f') as [d2 r']. cbn [snd] in H. subst r'.
  destruct r; reflexivity.
Qed.

(** ** The run and what it asks for *)
(** The document and the page of the requests so far, with fonts by name *)
Definition ghost (v : view) : doc * option page :=
  match v_open v with
  | None => (run (v_done v), None)
  | Some ph => let (d, p) := fold_left do_request (ph_requests ph)
                               (run (v_done v), page_new (ph_width ph) (ph_height ph)) in
               (d, Some p)
  end.

Definition key_of (at_ : list (N * font)) (x y : N * bytes) : Prop :=
  snd x = snd y /\ exists f, loaded_at (fst x) at_ = Some f /\ f_addr f = fst y.

Definition refs (w : world) (a : N) : nat :=
  count_occ N.eq_dec (w_owned w) a + count_occ N.eq_dec (map fst (d_fonts (w_doc w))) a.

Record inv (w : world) (v : view) : Prop := mkInv {
  i_names : forall a f, In (a, f) (v_at v) -> f_addr f < v_loaded v;
  i_nodup : NoDup (map (fun af => f_addr (snd af)) (v_at v));
  i_font : forall a c, mem_get a (w_mem w) = Some c ->
             exists f, loaded_at a (v_at v) = Some f /\ c_font c = moved a f;
  i_count : counted (w_mem w) (refs w);
  i_page : w_page w = snd (ghost v);
  i_doc : exists l, w_doc w = refont (fst (ghost v)) l;
  i_keys : Forall2 (key_of (v_at v)) (d_fonts (w_doc w)) (d_fonts (fst (ghost v))) }.

Lemma inv_start : inv start view_start.
Proof.
  split; cbn [view_start v_at start w_mem w_page w_doc map].
  - contradiction.
  - constructor.
  - discriminate.
  - split; [constructor|]. intro a. reflexivity.
  - reflexivity.
  - exists []. reflexivity.
  - constructor.
Qed.

Lemma loaded_at_in : forall a l f, loaded_at a l = Some f -> In (a, f) l.
Proof.
  intros a l f H. unfold loaded_at in H. destruct (find _ l) as [[b g]|] eqn:E; [|discriminate].
  cbn [option_map snd] in H. assert (g = f) by congruence. subst g.
  apply find_some in E as [E1 E2]. cbn [fst] in E2. apply N.eqb_eq in E2. subst b. auto.
Qed.
Lemma loaded_at_inj : forall a b l f g, NoDup (map (fun af => f_addr (snd af)) l) ->
  loaded_at a l = Some f -> loaded_at b l = Some g -> f_addr f = f_addr g -> a = b /\ f = g.
Proof.
  intros a b l f g H Hf Hg E. apply loaded_at_in in Hf, Hg.
  induction l as [|[c h] l IH]; [contradiction|]. cbn [map snd] in H. inversion H as [|? ? H1 H2]; subst.
  assert (X : forall c f, In (c, f) l -> f_addr f <> f_addr h).
  { intros c0 f0 I Y. apply H1. rewrite <- Y. apply in_map_iff. exists (c0, f0). auto. }
  destruct Hf as [Hf|Hf], Hg as [Hg|Hg].
  - assert (c = a) by congruence. assert (c = b) by congruence. assert (h = f) by congruence.
    assert (h = g) by congruence. split; congruence.
  - assert (h = f) by congruence. subst h. exfalso. apply (X _ _ Hg). auto.
  - assert (h = g) by congruence. subst h. exfalso. apply (X _ _ Hf). auto.
  - auto.
Qed.

Lemma owns_count : forall a l, owns a l = true -> count_occ N.eq_dec l a <> O.
Proof.
  intros a l H. unfold owns in H. apply existsb_exists in H as (b & I & E). apply N.eqb_eq in E. subst b.
  apply (count_occ_In N.eq_dec) in I. lia.
Qed.
Lemma disown_count : forall a b l,
  count_occ N.eq_dec (disown a l) b =
  if b =? a then Nat.pred (count_occ N.eq_dec l b) else count_occ N.eq_dec l b.
Proof.
  induction l as [|x l IH]; cbn [disown count_occ].
  - destruct (b =? a); reflexivity.
  - destruct (N.eqb_spec a x) as [-> |E].
    + destruct (N.eqb_spec b x) as [-> |E2].
      * destruct (N.eq_dec x x); [reflexivity|congruence].
      * destruct (N.eq_dec x b); [congruence|reflexivity].
    + cbn [count_occ]. rewrite IH. destruct (N.eq_dec x b) as [-> |E2]; [|reflexivity].
      destruct (N.eqb_spec b a); [congruence|reflexivity].
Qed.

Lemma count_snoc : forall l a b,
  count_occ N.eq_dec (l ++ [a]) b = if b =? a then S (count_occ N.eq_dec l b) else count_occ N.eq_dec l b.
Proof.
  intros l a b. rewrite count_occ_app. cbn [count_occ].
  destruct (N.eq_dec a b), (N.eqb_spec b a); try congruence; lia.
Qed.

(** A cell that is there after an event that only counts was there before. *)
Lemma kept_font : forall m m' at_, kept m m' ->
  (forall a c, mem_get a m = Some c -> exists f, loaded_at a at_ = Some f /\ c_font c = moved a f) ->
  forall a c, mem_get a m' = Some c -> exists f, loaded_at a at_ = Some f /\ c_font c = moved a f.
Proof.
  intros m m' at_ K H a c Hc. destruct (K _ _ Hc) as (c0 & A & ->). eauto.
Qed.

Lemma ghost_open : forall v p rs, v_open v = Some p ->
  forall d q, ghost v = (d, Some q) ->
  ghost (asking v rs) =
  (fst (fold_left do_request rs (d, q)), Some (snd (fold_left do_request rs (d, q)))).
Proof.
  intros v p rs Hp d q H. unfold ghost in *. unfold asking. cbn [v_open v_done]. rewrite Hp in *. cbn [option_map ph_requests ph_width ph_height].
  rewrite fold_left_app. destruct (fold_left do_request (ph_requests p) _) as [d' q'].
  assert (d' = d) by congruence. assert (q' = q) by congruence. subst.
  destruct (fold_left do_request rs (d, q)); reflexivity.
Qed.
Lemma ghost_some : forall v q, snd (ghost v) = Some q ->
  exists p d, v_open v = Some p /\ ghost v = (d, Some q).
Proof.
  intros v q H. unfold ghost in *. destruct (v_open v) as [p|]; [|discriminate].
  exists p. destruct (fold_left _ _ _) as [d r]. cbn [snd] in H. exists d. split; congruence.
Qed.

Lemma step_inv : forall w v e, inv w v ->
  step w e <> Panic /\ forall w', step w e = Ok w' -> inv w' (see v e).
Proof.
  intros w v e I. pose proof (i_count _ _ I) as IC. destruct e as [f a|a|a|wd ht| |c|x y wd ht|a gs fs x y].
  - (* Load *)
    cbn [step see]. destruct (mem_get a (w_mem w)) as [c|] eqn:E.
    { split; [discriminate|intros; discriminate]. }
    split; [discriminate|]. intros w' H. assert (X : w' = mkWorld ((a, mkCell (moved a f) 1) :: w_mem w)
      (a :: w_owned w) (w_doc w) (w_page w)) by congruence. subst w'.
    destruct IC as [C1 C2]. pose proof (C2 a) as Ca. rewrite E in Ca.
    split; cbn [v_at v_loaded v_done v_open w_mem w_owned w_doc w_page].
    + intros b g [Hb|Hb].
      * assert (g = named (v_loaded v) f) by congruence. subst g. cbn [named f_addr]. lia.
      * pose proof (i_names _ _ I _ _ Hb). lia.
    + cbn [map snd named f_addr]. constructor; [|apply (i_nodup _ _ I)].
      intro X. apply in_map_iff in X as ([b g] & X1 & X2). cbn [snd] in X1.
      pose proof (i_names _ _ I _ _ X2). lia.
    + intros b c Hc. cbn [mem_get] in Hc. unfold loaded_at. cbn [find fst].
      rewrite (N.eqb_sym a b). destruct (N.eqb_spec b a) as [-> |Eb].
      * cbn [option_map snd]. eexists. split; [reflexivity|].
        assert (c = mkCell (moved a f) 1) by congruence. subst c. reflexivity.
      * apply (i_font _ _ I _ _ Hc).
    + split.
      * cbn [map fst]. constructor; [|auto]. apply mem_get_none. auto.
      * intro b. cbn [mem_get]. specialize (C2 b). unfold refs in *. cbn [w_owned w_doc count_occ].
        destruct (N.eqb_spec b a) as [-> |Eb].
        -- cbn [c_strong]. destruct (N.eq_dec a a); [|congruence]. split; lia.
        -- destruct (N.eq_dec a b); [congruence|]. auto.
    + exact (i_page _ _ I).
    + exact (i_doc _ _ I).
    + pose proof (i_keys _ _ I) as K.
      change (fst (ghost (mkView (v_loaded v + 1) ((a, named (v_loaded v) f) :: v_at v) (v_done v) (v_open v))))
        with (fst (ghost v)).
      assert (NA : ~ In a (map fst (d_fonts (w_doc w)))).
      { intro X. apply (count_occ_In N.eq_dec) in X. unfold refs in Ca. lia. }
      clear -K NA. induction K as [|[x k] [y k'] l l' [K1 (g & K2 & K3)] K IH]; constructor.
      * split; [auto|]. exists g. split; [|auto]. unfold loaded_at in *. cbn [find fst] in *.
        destruct (N.eqb_spec a x) as [-> |E]; [|auto]. destruct NA. left. reflexivity.
      * apply IH. intro X. apply NA. right. auto.
  - (* Clone *)
    cbn [step see]. destruct (owns a (w_owned w)) eqn:Ow; [|split; [discriminate|intros; discriminate]].
    apply owns_count in Ow.
    destruct (clone_counted _ _ a IC) as (m & E & Kp & C); [unfold refs; lia|]. rewrite E.
    split; [discriminate|]. intros w' H.
    assert (X : w' = mkWorld m (a :: w_owned w) (w_doc w) (w_page w)) by congruence. subst w'.
    split; cbn [w_mem w_owned w_doc w_page]; try apply I.
    + exact (kept_font _ _ _ Kp (i_font _ _ I)).
    + eapply counted_ext; [|exact C]. intro b. unfold refs. cbn [w_owned w_doc count_occ].
      destruct (N.eqb_spec b a), (N.eq_dec a b); try congruence; lia.
  - (* Release *)
    cbn [step see]. destruct (owns a (w_owned w)) eqn:Ow; [|split; [discriminate|intros; discriminate]].
    apply owns_count in Ow.
    destruct (drop_counted _ _ a IC) as (m & E & Kp & C); [unfold refs; lia|]. rewrite E.
    split; [discriminate|]. intros w' H.
    assert (X : w' = mkWorld m (disown a (w_owned w)) (w_doc w) (w_page w)) by congruence. subst w'.
    split; cbn [w_mem w_owned w_doc w_page]; try apply I.
    + exact (kept_font _ _ _ Kp (i_font _ _ I)).
    + eapply counted_ext; [|exact C]. intro b. unfold refs. cbn [w_owned w_doc].
      rewrite disown_count. destruct (N.eqb_spec b a) as [-> |Eb]; lia.
  - (* AddPage *)
    cbn [step see]. destruct (w_page w) eqn:P; [split; [discriminate|intros; discriminate]|].
    split; [discriminate|]. intros w' H.
    assert (X : w' = mkWorld (w_mem w) (w_owned w) (w_doc w) (Some (page_new wd ht))) by congruence. subst w'.
    pose proof (i_page _ _ I) as IP. rewrite P in IP.
    assert (G : fst (ghost v) = run (v_done v)).
    { unfold ghost in *. destruct (v_open v); [|reflexivity]. destruct (fold_left _ _ _). discriminate. }
    destruct (i_doc _ _ I) as [l D]. pose proof (i_keys _ _ I) as K. rewrite G in *.
    split; cbn [w_mem w_owned w_doc w_page v_at v_loaded]; try apply I.
    + reflexivity.
    + exists l. exact D.
    + exact K.
  - (* DropPage *)
    cbn [step see]. destruct (w_page w) as [p|] eqn:P; [|split; [discriminate|intros; discriminate]].
    split; [discriminate|]. intros w' H.
    assert (X : w' = mkWorld (w_mem w) (w_owned w) (page_drop (w_doc w) p) None) by congruence. subst w'.
    pose proof (i_page _ _ I) as IP. rewrite P in IP. symmetry in IP.
    destruct (ghost_some _ _ IP) as (ph & d & Hv & G).
    destruct (i_doc _ _ I) as [l D]. pose proof (i_keys _ _ I) as K. rewrite G in *. cbn [fst] in *.
    assert (G' : run (v_done v ++ [ph]) = page_drop d p).
    { unfold run. rewrite fold_left_app. cbn [fold_left]. unfold do_page.
      unfold ghost in G. rewrite Hv in G. unfold run in G.
      destruct (fold_left do_request _ _) as [d0 p0].
      assert (d0 = d) by congruence. assert (p0 = p) by congruence. subst. reflexivity. }
    assert (FD : d_fonts (page_drop (w_doc w) p) = d_fonts (w_doc w)) by apply page_drop_fonts.
    rewrite Hv.
    split; cbn [w_mem w_owned w_doc w_page v_at v_loaded];
      [exact (i_names _ _ I)|exact (i_nodup _ _ I)|exact (i_font _ _ I)| | | |].
    + eapply counted_ext; [|exact IC]. intro b. unfold refs. cbn [w_owned w_doc]. rewrite FD. auto.
    + reflexivity.
    + exists l. unfold ghost. cbn [v_open v_done fst]. rewrite G', D. apply page_drop_refont.
    + unfold ghost. cbn [v_open v_done fst]. rewrite G', FD, page_drop_fonts. exact K.
  - (* Paint *)
    cbn [step see]. destruct (w_page w) as [p|] eqn:P; [|split; [discriminate|intros; discriminate]].
    destruct (set_color (w_doc w) p c) as [d1 p1] eqn:S.
    split; [discriminate|]. intros w' H.
    assert (X : w' = mkWorld (w_mem w) (w_owned w) d1 (Some p1)) by congruence. subst w'.
    pose proof (i_page _ _ I) as IP. rewrite P in IP. symmetry in IP.
    destruct (ghost_some _ _ IP) as (ph & d & Hv & G).
    destruct (i_doc _ _ I) as [l D]. pose proof (i_keys _ _ I) as K. rewrite G in *. cbn [fst] in *.
    pose proof (ghost_open _ _ [SetColor c] Hv _ _ G) as G'. cbn [fold_left do_request] in G'.
    pose proof (set_color_fonts (w_doc w) p c) as FD. rewrite S in FD. cbn [fst] in FD.
    rewrite D, set_color_refont in S.
    assert (S1 : d1 = refont (fst (set_color d p c)) l) by congruence.
    assert (S2 : p1 = snd (set_color d p c)) by congruence.
    split; cbn [w_mem w_owned w_doc w_page]; rewrite ?G'; cbn [fst snd asking v_at v_loaded];
      [exact (i_names _ _ I)|exact (i_nodup _ _ I)|exact (i_font _ _ I)| | | |].
    + eapply counted_ext; [|exact IC]. intro b. unfold refs. cbn [w_owned w_doc]. rewrite FD. auto.
    + congruence.
    + exists l. exact S1.
    + rewrite FD, set_color_fonts. exact K.
  - (* Rectangle *)
    cbn [step see]. destruct (w_page w) as [p|] eqn:P; [|split; [discriminate|intros; discriminate]].
    split; [discriminate|]. intros w' H.
    assert (X : w' = mkWorld (w_mem w) (w_owned w) (w_doc w) (Some (paint_rectangle p x y wd ht))) by congruence. subst w'.
    pose proof (i_page _ _ I) as IP. rewrite P in IP. symmetry in IP.
    destruct (ghost_some _ _ IP) as (ph & d & Hv & G).
    destruct (i_doc _ _ I) as [l D]. pose proof (i_keys _ _ I) as K. rewrite G in *. cbn [fst] in *.
    pose proof (ghost_open _ _ [PaintRectangle x y wd ht] Hv _ _ G) as G'. cbn [fold_left do_request] in G'.
    split; cbn [w_mem w_owned w_doc w_page]; rewrite ?G'; cbn [fst snd asking v_at v_loaded]; try apply I.
    + reflexivity.
    + exists l. exact D.
    + exact K.
  - (* Text *)
    cbn [step]. destruct (w_page w) as [p|] eqn:P; [|split; [discriminate|intros; discriminate]].
    destruct (owns a (w_owned w)) eqn:Ow; [|split; [discriminate|intros; discriminate]].
    apply owns_count in Ow.
    assert (Rn : refs w a <> O) by (unfold refs; lia).
    pose proof (proj2 IC a) as Ca. destruct (mem_get a (w_mem w)) as [c|] eqn:M; [|contradiction].
    destruct (i_font _ _ I _ _ M) as (f & L & F).
    pose proof (i_page _ _ I) as IP. rewrite P in IP. symmetry in IP.
    destruct (ghost_some _ _ IP) as (ph & d & Hv & G).
    destruct (i_doc _ _ I) as [l D]. pose proof (i_keys _ _ I) as K. rewrite G in K, D. cbn [fst] in K, D.
    assert (LF : d_fonts (w_doc w) = l) by (rewrite D; reflexivity). rewrite LF in K.
    assert (AS : assoc a l = assoc (f_addr f) (d_fonts d)).
    { apply (assoc_like _ _ _ _ _ K). intros [x1 k1] [y1 k2] [K1 (g & K2 & K3)]. cbn [fst snd] in *.
      split; [auto|]. split.
      - intro E. subst x1. rewrite L in K2. assert (g = f) by congruence. subst g. auto.
      - intro E. subst y1. destruct (loaded_at_inj _ _ _ _ _ (i_nodup _ _ I) K2 L); [congruence|auto]. }
    destruct (add_font_like d l a f _ K AS) as (R & l' & A & Cases).
    rewrite <- D, <- F in R, A.
    destruct (clone_counted _ _ a IC Rn) as (m1 & E1 & Kp1 & C1).
    assert (AF : exists m2, add_font_counted (w_mem w) (w_doc w) a = Some m2 /\ kept (w_mem w) m2 /\
      counted m2 (fun b => (count_occ N.eq_dec (w_owned w) b + count_occ N.eq_dec (map fst l') b)%nat)).
    { unfold add_font_counted. rewrite M, E1, LF, R.
      destruct Cases as [(A1 & k & A2 & A3 & A4)|(A1 & A2 & A3)].
      - rewrite A1, A2. exists m1. split; [auto|]. split; [auto|].
        eapply counted_ext; [|exact C1]. intro b. cbv beta. unfold refs. rewrite LF, A3, map_app.
        cbn [map fst]. rewrite count_snoc. destruct (b =? a); lia.
      - destruct (drop_counted _ _ a C1) as (m2 & E2 & Kp2 & C2).
        { cbv beta. rewrite N.eqb_refl. discriminate. }
        exists m2. split.
        + destruct (assoc a l); [exact E2|]. destruct (snd (add_font d f)) as [k|e|]; try exact E2.
          destruct A1 as [A1|A1]; [congruence|]. destruct (A1 k). reflexivity.
        + split; [exact (kept_trans _ _ _ Kp1 Kp2)|].
          eapply counted_ext; [|exact C2]. intro b. cbv beta. unfold refs. rewrite LF, A2.
          destruct (b =? a); reflexivity. }
    destruct AF as (m2 & E2 & Kp2 & C2). rewrite E2.
    destruct (show_text (w_doc w) p (c_font c) gs fs x y) as [[d1 p1] r1] eqn:S.
    split; [discriminate|]. intros w' H.
    assert (X : w' = mkWorld m2 (w_owned w) d1 (Some p1)) by congruence. subst w'.
    cbn [see]. rewrite L.
    pose proof (ghost_open _ _ [ShowText f gs fs x y] Hv _ _ G) as G'. cbn [fold_left do_request] in G'.
    pose proof (show_text_like (w_doc w) d p (c_font c) f gs fs x y R) as SP. rewrite S in SP.
    destruct (show_text_fst (w_doc w) p (c_font c) gs fs x y) as [q1 Q1]. rewrite S in Q1.
    destruct (show_text_fst d p f gs fs x y) as [q2 Q2].
    assert (D1 : d1 = refont (fst (add_font d f)) l').
    { rewrite <- A. cbn [fst] in Q1. congruence. }
    split; cbn [w_mem w_owned w_doc w_page]; rewrite ?G'; cbn [fst snd asking v_at v_loaded]; try apply I.
    + exact (kept_font _ _ _ Kp2 (i_font _ _ I)).
    + eapply counted_ext; [|exact C2]. intro b. unfold refs. cbn [w_owned w_doc]. rewrite D1. reflexivity.
    + cbn [fst snd] in SP. congruence.
    + exists l'. rewrite Q2. exact D1.
    + rewrite Q2, D1. cbn [fst refont d_fonts].
      destruct Cases as [(A1 & k & A2 & -> & A4)|(A1 & -> & A3)].
      * rewrite A4. apply Forall2_app; [exact K|]. constructor; [|constructor].
        split; [reflexivity|]. exists f. auto.
      * rewrite A3. exact K.
Qed.

Lemma exec_inv : forall l w v, inv w v ->
  exec w l <> Panic /\ forall w', exec w l = Ok w' -> inv w' (fold_left see l v).
Proof.
  induction l as [|e l IH]; intros w v I; cbn [exec fold_left].
  - split; [discriminate|]. intros w' H. assert (w' = w) by congruence. subst. auto.
  - destruct (step_inv w v e I) as [N1 N2]. destruct (step w e) as [w1|u|]; [|split; [discriminate|intros; discriminate]|congruence].
    apply IH. auto.
Qed.

(** ** Fonts by name *)
Lemma fonts_at : forall l v,
  (forall f, In f (fonts_of (v_done v)) \/ (exists p, v_open v = Some p /\ In f (fonts_of [p])) ->
     In f (map snd (v_at v))) ->
  forall f, In f (fonts_of (v_done (fold_left see l v))) -> In f (map snd (v_at (fold_left see l v))).
Proof.
  induction l as [|e l IH]; intros v H f Hf; cbn [fold_left] in *; [auto|].
  revert f Hf. apply IH. clear l IH. intros f Hf.
  assert (AP : forall rs, (forall g, In g (fonts_of [mkPH dec_zero dec_zero rs]) -> In g (map snd (v_at v))) ->
    In f (fonts_of (v_done (asking v rs))) \/ (exists p, v_open (asking v rs) = Some p /\ In f (fonts_of [p])) ->
    In f (map snd (v_at v))).
  { intros rs Hrs [X|(p & X1 & X2)]; [apply H; left; exact X|].
    cbn [asking v_open] in X1. destruct (v_open v) as [q|] eqn:E; [|discriminate].
    cbn [option_map] in X1.
    assert (p = mkPH (ph_width q) (ph_height q) (ph_requests q ++ rs)) by congruence. subst p.
    unfold fonts_of in X2. cbn [flat_map ph_requests] in X2. rewrite app_nil_r, flat_map_app in X2.
    apply in_app_or in X2 as [X2|X2].
    - apply H. right. exists q. split; [reflexivity|]. unfold fonts_of. cbn [flat_map]. rewrite app_nil_r. exact X2.
    - apply Hrs. unfold fonts_of. cbn [flat_map ph_requests]. rewrite app_nil_r. exact X2. }
  destruct e as [g a|a|a|wd ht| |c|x y wd ht|a gs fs x y]; cbn [see] in *.
  - cbn [v_at v_done v_open map] in *. right. auto.
  - auto.
  - auto.
  - cbn [v_at v_done v_open] in *. destruct Hf as [Hf|(p & Hp & Hf)]; [auto|].
    assert (p = mkPH wd ht []) by congruence. subst p. destruct Hf.
  - cbn [v_at v_done v_open] in *. destruct Hf as [Hf|(p & Hp & Hf)]; [|discriminate].
    unfold fonts_of in Hf. rewrite flat_map_app in Hf. apply in_app_or in Hf as [Hf|Hf].
    + apply H. left. exact Hf.
    + apply H. right. destruct (v_open v) as [p|]; [|destruct Hf]. exists p. split; [auto|]. exact Hf.
  - apply (AP [SetColor c]); [intros g []|exact Hf].
  - apply (AP [PaintRectangle x y wd ht]); [intros g []|exact Hf].
  - refine (AP _ _ Hf). intros g Hg. destruct (loaded_at a (v_at v)) as [g'|] eqn:E; [|destruct Hg].
    destruct Hg as [<-|[]]. apply loaded_at_in in E. apply in_map_iff. exists (a, g'). auto.
Qed.

Lemma nodup_names : forall l v,
  (forall a f, In (a, f) (v_at v) -> f_addr f < v_loaded v) /\
  NoDup (map (fun af => f_addr (snd af)) (v_at v)) ->
  NoDup (map (fun af => f_addr (snd af)) (v_at (fold_left see l v))).
Proof.
  induction l as [|e l IH]; intros v [H1 H2]; cbn [fold_left]; [auto|]. apply IH.
  destruct e as [g a|a|a|wd ht| |c|x y wd ht|a gs fs x y]; cbn [see asking v_at v_loaded]; auto.
  cbn [map snd named f_addr]. split.
  - intros b f [E|E].
    + assert (f = named (v_loaded v) g) by congruence. subst f. cbn [named f_addr]. lia.
    + specialize (H1 _ _ E). lia.
  - constructor; [|auto]. intro X. apply in_map_iff in X as ([b f] & X1 & X2). cbn [snd] in X1.
    specialize (H1 _ _ X2). lia.
Qed.

Lemma asked_coherent : forall l, coherent (asked l).
Proof.
  intros l f g Hf Hg E. unfold asked in *.
  assert (V0 : forall f, In f (fonts_of (v_done view_start)) \/
    (exists p, v_open view_start = Some p /\ In f (fonts_of [p])) -> In f (map snd (v_at view_start))).
  { intros h [X|(p & X & _)]; [destruct X|discriminate]. }
  pose proof (fonts_at l view_start V0 _ Hf) as Hf'. pose proof (fonts_at l view_start V0 _ Hg) as Hg'.
  assert (ND : NoDup (map (fun af => f_addr (snd af)) (v_at (fold_left see l view_start)))).
  { apply nodup_names. split; [contradiction|constructor]. }
  revert ND Hf' Hg'. generalize (v_at (fold_left see l view_start)). clear -E.
  induction l as [|[a h] l IH]; intros ND Hf Hg; [contradiction|]. cbn [map snd] in *.
  inversion ND as [|? ? N1 N2]; subst.
  assert (X : forall f, In f (map snd l) -> f_addr f <> f_addr h).
  { intros f0 I Y. apply N1. rewrite <- Y. apply in_map_iff in I as (p & <- & I). apply in_map_iff. eauto. }
  destruct Hf as [-> |Hf], Hg as [<- |Hg]; auto.
  - exfalso. apply (X _ Hg). auto.
  - exfalso. apply (X _ Hf). auto.
Qed.

(** ** The end *)
Lemma drop_keys_counted : forall keys m n, counted m n ->
  (forall a, n a = count_occ N.eq_dec (map fst keys) a) -> drop_keys keys m = Some [].
Proof.
  induction keys as [|[a k] keys IH]; intros m n C H; cbn [drop_keys].
  - destruct m as [|[b c] m]; [reflexivity|]. destruct C as [_ C]. specialize (C b). cbn [mem_get] in C.
    rewrite N.eqb_refl in C. rewrite H in C. destruct C as [_ C]. destruct C. reflexivity.
  - destruct (drop_counted m n a C) as (m' & E & _ & C').
    { rewrite H. cbn [map fst count_occ]. destruct (N.eq_dec a a); [discriminate|congruence]. }
    rewrite E. eapply IH; [exact C'|]. intro b. cbv beta. rewrite H. cbn [map fst count_occ].
    destruct (N.eqb_spec b a), (N.eq_dec a b); try congruence; reflexivity.
Qed.
