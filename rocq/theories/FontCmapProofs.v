(** Proofs about character maps, iteration and glyph widths. *)
From Verif Require Import Base PdfConvert FontParsing FontCmap FontSpec FontProofs.
From Coq Require Import Sorted.
Local Open Scope N_scope.
Local Open Scope res_scope.

Lemma u16_ok : forall f p v, u16_at f p = Some v -> read_u16 f p = Ok v /\ p + 2 <= length_N f.
Proof. exact (outcome_ok _ _ _ _ read_u16_outcome). Qed.
Lemma u32_ok : forall f p v, u32_at f p = Some v -> read_u32 f p = Ok v /\ p + 4 <= length_N f.
Proof. exact (outcome_ok _ _ _ _ read_u32_outcome). Qed.

Lemma nth_u16_ok : forall m f xs i v, addressable f -> u16_at f (xs + 2 * i) = Some v ->
  nth_u16 m f xs i = Ok v.
Proof.
  intros m f xs i v A H. apply u16_ok in H as [H1 H2]. unfold addressable in A. unfold length_N in H2.
  unfold nth_u16. rewrite offset_ok by lia. exact H1.
Qed.

Lemma field_u32_ok : forall m s name f p o v, addressable f -> field_offset 0 s name = o ->
  u32_at f (p + o) = Some v -> field_u32 m s name f p = Ok v.
Proof.
  intros m s name f p o v A E H. apply u32_ok in H as [H1 H2]. unfold addressable in A. unfold length_N in H2.
  unfold field_u32. rewrite (field_ok m s name p o) by (auto || lia). exact H1.
Qed.
Lemma field_u16_ok : forall m s name f p o v, addressable f -> field_offset 0 s name = o ->
  u16_at f (p + o) = Some v -> field_u16 m s name f p = Ok v.
Proof.
  intros m s name f p o v A E H. apply u16_ok in H as [H1 H2]. unfold addressable in A. unfold length_N in H2.
  unfold field_u16. rewrite (field_ok m s name p o) by (auto || lia). exact H1.
Qed.

(** ** Counting up, block by block *)
Fixpoint count_up (c : N) (n : nat) : list N :=
  match n with O => [] | S n => c :: count_up (c + 1) n end.
Lemma count_up_in : forall n c x, In x (count_up c n) <-> c <= x < c + N.of_nat n.
Proof.
  induction n as [|n IH]; intros c x; cbn [count_up In]; [lia|]. rewrite IH. lia.
Qed.

Lemma StronglySorted_app : forall (l1 l2 : list N), StronglySorted N.lt l1 -> StronglySorted N.lt l2 ->
  (forall a b, In a l1 -> In b l2 -> a < b) -> StronglySorted N.lt (l1 ++ l2).
Proof.
  induction l1 as [|x l1 IH]; intros l2 S1 S2 H; cbn [app]; auto. inversion S1; subst. constructor.
  - apply IH; auto. intros a b Ha Hb. apply H; [right|]; auto.
  - rewrite Forall_forall in *. intros y Hy. apply in_app_or in Hy as [Hy|Hy]; auto.
    apply H; [left|]; auto.
Qed.

(** [calls g] over [count_up]: increasing, in range *)
Definition emit (g : N -> list N) (cs : list N) : list (N * N) :=
  flat_map (fun c => map (fun x => (c, x)) (g c)) cs.
Lemma emit_in : forall g cs c x, In (c, x) (emit g cs) <-> In c cs /\ In x (g c).
Proof.
  intros g cs c x. unfold emit. rewrite in_flat_map. split.
  - intros (d & H1 & H2). apply in_map_iff in H2 as (y & E & H2). injection E as -> ->. auto.
  - intros [H1 H2]. exists c. split; [auto|]. apply in_map_iff. eauto.
Qed.
Lemma emit_sorted : forall g n c, (forall c, length (g c) <= 1)%nat ->
  StronglySorted N.lt (map fst (emit g (count_up c n))).
Proof.
  induction n as [|n IH]; intros c H; cbn [count_up emit flat_map map]; [constructor|].
  fold (emit g (count_up (c + 1) n)). rewrite map_app. apply StronglySorted_app.
  - specialize (H c). destruct (g c) as [|x [|y r]]; cbn in *; [constructor|repeat constructor|lia].
  - auto.
  - intros a b Ha Hb. rewrite map_map in Ha. cbn [fst] in Ha. apply in_map_iff in Ha as (x & <- & _).
    apply in_map_iff in Hb as ([b' y] & <- & Hb). apply emit_in in Hb as [Hb _].
    apply count_up_in in Hb. cbn [fst]. lia.
Qed.

Lemma blocks_sorted : forall A (lo hi : A -> N) (calls : A -> list (N * N)) l,
  (forall s, In s l -> StronglySorted N.lt (map fst (calls s))) ->
  (forall s c g, In s l -> In (c, g) (calls s) -> lo s <= c <= hi s) ->
  StronglySorted (fun a b => hi a < lo b) l ->
  StronglySorted N.lt (map fst (flat_map calls l)).
Proof.
  intros A lo hi calls l. induction l as [|s l IH]; intros H1 H2 S; cbn [flat_map map]; [constructor|].
  inversion S as [|? ? S1 S2]; subst. rewrite map_app. apply StronglySorted_app.
  - apply H1. left. auto.
  - apply IH; auto; intros; [apply H1|eapply H2; [|eauto]]; right; auto.
  - intros a b Ha Hb. apply in_map_iff in Ha as ([a' x] & <- & Ha). apply in_map_iff in Hb as ([b' y] & <- & Hb).
    apply in_flat_map in Hb as (s' & Hs & Hb). cbn [fst]. apply H2 in Ha; [|left; auto].
    apply H2 in Hb; [|right; auto]. rewrite Forall_forall in S2. apply S2 in Hs. lia.
Qed.

(** The element of a sorted list of intervals that contains a point *)
Lemma find_interval : forall A (lo hi : A -> N) l s c,
  StronglySorted (fun a b => hi a < lo b) l -> Forall (fun s => lo s <= hi s) l ->
  In s l -> lo s <= c <= hi s ->
  find (fun s => c <=? hi s) l = Some s /\ find (fun s => (lo s <=? c) && (c <=? hi s)) l = Some s.
Proof.
  intros A lo hi l s c S F Hin Hc. induction l as [|x l IH]; [contradiction|].
  inversion S as [|? ? S1 S2]; inversion F as [|? ? F1 F2]; subst. cbn [find].
  destruct Hin as [->|Hin].
  - destruct (N.leb_spec c (hi s)), (N.leb_spec (lo s) c); try lia. cbn [andb]. auto.
  - rewrite Forall_forall in S2. pose proof (S2 _ Hin).
    destruct (N.leb_spec c (hi x)), (N.leb_spec (lo x) c); try lia. cbn [andb]. auto.
Qed.

Lemma within_dec : forall a b c, {a <= c <= b} + {~ (a <= c <= b)}.
Proof.
  intros a b c. destruct (a <=? c) eqn:A, (c <=? b) eqn:B; [left|right|right|right];
    rewrite ?N.leb_le, ?N.leb_gt in *; lia.
Qed.

(** ** Format 4 *)
Section Format4.
  Variables (m : build) (f : bytes) (sub : N) (segs : list segment).
  Hypothesis (W : well_formed4 f sub segs).
  Hypothesis (A : addressable f).
  Hypothesis (B : wf_bytes f).
  Let n := N.of_nat (length segs).
  Definition table4 : format4 :=
    mkF4 n (sub + 14) (sub + 14 + 2 * (n + 1)) (sub + 14 + 2 * (n + 1) + 2 * n)
         (sub + 14 + 2 * (n + 1) + 2 * n + 2 * n).

  Lemma seg_table : exists x2, u16_at f (sub + 6) = Some x2 /\ x2 / 2 = n /\ 1 <= n < 65536 /\
    (forall i, i < n -> exists s, nth_error segs (N.to_nat i) = Some s /\ segment_at f sub n i = Some s) /\
    (forall s, In s segs -> exists i, i < n /\ nth_error segs (N.to_nat i) = Some s /\ segment_at f sub n i = Some s).
  Proof.
    destruct W as (W1 & W2 & _). unfold segments in W1.
    destruct (u16_at f (sub + 6)) as [x2|] eqn:U; [|discriminate]. exists x2. split; [auto|].
    destruct (all_indices _ _ _ _ W1) as (X & Y & Z). fold n in X. rewrite <- X in *.
    split; [auto|]. split.
    - apply u16_at_bound in U; auto. pose proof (N.div_le_upper_bound x2 2 65535). subst n.
      assert (length segs <> 0)%nat by (rewrite length_zero_iff_nil; exact W2). lia.
    - split.
      + intros i Hi. destruct (Y i Hi) as (s & S1 & S2). eauto.
      + intros s Hs. destruct (Z s Hs) as (i & I1 & I2 & I3). eauto.
  Qed.

  Lemma segment_at_fields : forall i s, segment_at f sub n i = Some s ->
    nth_u16 m f (end_codes table4) i = Ok (seg_end s) /\
    nth_u16 m f (start_codes table4) i = Ok (seg_start s) /\
    nth_u16 m f (id_deltas table4) i = Ok (seg_delta s) /\
    offset m 2 (id_range_offsets table4) i = Ok (seg_range_offset_address s) /\
    read_u16 f (seg_range_offset_address s) = Ok (seg_range_offset s) /\
    sub + 14 + (6 * n + 2) + 2 * i + 2 <= length_N f /\
    seg_start s < 65536 /\ seg_end s < 65536.
  Proof.
    intros i s H. unfold segment_at in H.
    destruct (u16_at f (sub + 14 + 0 + 2 * i)) as [e|] eqn:H1; [|discriminate].
    destruct (u16_at f (sub + 14 + (2 * n + 2) + 2 * i)) as [st|] eqn:H2; [|discriminate].
    destruct (u16_at f (sub + 14 + (4 * n + 2) + 2 * i)) as [d|] eqn:H3; [|discriminate].
    destruct (u16_at f (sub + 14 + (6 * n + 2) + 2 * i)) as [r|] eqn:H4; [|discriminate].
    assert (s = mkSeg st e d r (sub + 14 + (6 * n + 2) + 2 * i)) as -> by congruence. clear H.
    cbn [seg_start seg_end seg_delta seg_range_offset seg_range_offset_address].
    cbn [end_codes start_codes id_deltas id_range_offsets table4].
    pose proof (u16_at_bound _ _ _ B H1). pose proof (u16_at_bound _ _ _ B H2).
    replace (sub + 14 + 0 + 2 * i) with (sub + 14 + 2 * i) in H1 by lia.
    replace (sub + 14 + (2 * n + 2) + 2 * i) with (sub + 14 + 2 * (n + 1) + 2 * i) in H2 by lia.
    replace (sub + 14 + (4 * n + 2) + 2 * i) with (sub + 14 + 2 * (n + 1) + 2 * n + 2 * i) in H3 by lia.
    destruct (u16_ok _ _ _ H4) as [R1 R2].
    repeat split; auto; try (apply nth_u16_ok; auto).
    unfold addressable in A. unfold length_N in R2. rewrite offset_ok by lia. f_equal. lia.
  Qed.

  Lemma format4_parse_ok : format4_parse m f sub = Ok table4.
  Proof.
    destruct seg_table as (x2 & U & X & N1 & Y & _).
    destruct (Y (n - 1)) as (s & _ & S); [lia|].
    apply segment_at_fields in S as (_ & _ & _ & _ & _ & L & _).
    unfold addressable in A. unfold length_N in L.
    unfold format4_parse. rewrite (field_u16_ok m CmapFormat4Header "segment_count_x2" f sub 6 x2) by auto.
    cbn [bind]. rewrite X. change (size_of CmapFormat4Header) with 14.
    unfold followed_by, offset_bytes, add32. rewrite exact_ok by lia. cbn [bind].
    rewrite exact_ok by lia. cbn [bind]. rewrite offset_ok by lia. cbn [bind].
    rewrite offset_ok by lia. cbn [bind]. rewrite offset_ok by lia. cbn [bind]. reflexivity.
  Qed.

  Definition nonzero (g : N) : option N := if g =? 0 then None else Some g.

  Lemma glyph_ok : forall i s c g, segment_at f sub n i = Some s -> seg_start s <= c ->
    segment_glyph f s c = Some g -> format4_glyph_id m f table4 i (seg_start s) c = Ok (nonzero g).
  Proof.
    intros i s c g S L H. apply segment_at_fields in S as (_ & _ & S3 & S4 & S5 & S6 & _).
    unfold format4_glyph_id. rewrite S3. cbn [bind]. rewrite S4. cbn [bind]. rewrite S5. cbn [bind].
    unfold segment_glyph in H. destruct (seg_range_offset s =? 0).
    - injection H as <-. change (2 ^ 16) with 65536. reflexivity.
    - destruct (u16_at f (seg_range_offset_address s + seg_range_offset s + 2 * (c - seg_start s))) as [v|] eqn:U;
        [|discriminate].
      assert (g = if v =? 0 then 0 else (v + seg_delta s) mod 65536) as -> by congruence. clear H.
      destruct (u16_ok _ _ _ U) as [U1 U2]. unfold addressable in A. unfold length_N in U2.
      unfold sub16, sub_w. destruct (N.leb_spec (seg_start s) c); [|lia]. cbn [bind].
      rewrite offset_ok by lia. cbn [bind]. unfold offset_bytes, add32. rewrite exact_ok by lia. cbn [bind].
      replace (seg_range_offset_address s + 2 * (c - seg_start s) + seg_range_offset s)
        with (seg_range_offset_address s + seg_range_offset s + 2 * (c - seg_start s)) by lia.
      rewrite U1. cbn [bind]. change (2 ^ 16) with 65536. reflexivity.
  Qed.

  Lemma sorted4 : StronglySorted (fun a b => seg_end a < seg_start b) segs.
  Proof. apply W. Qed.
  Lemma ordered4 : Forall (fun s => seg_start s <= seg_end s) segs.
  Proof. apply W. Qed.

  Lemma lookup4_in : forall s c, In s segs -> seg_start s <= c <= seg_end s ->
    lookup4 f segs c = segment_glyph f s c.
  Proof.
    intros s c Hin Hc. unfold lookup4.
    destruct (find_interval _ seg_start seg_end segs s c sorted4 ordered4 Hin Hc) as [-> _].
    destruct (N.leb_spec (seg_start s) c); [auto|lia].
  Qed.
  Lemma lookup4_out : forall c, (forall s, In s segs -> ~ (seg_start s <= c <= seg_end s)) ->
    lookup4 f segs c = Some 0.
  Proof.
    intros c H. unfold lookup4. destruct (find (fun s => c <=? seg_end s) segs) as [s|] eqn:F; auto.
    apply find_some in F as [F1 F2]. apply N.leb_le in F2. apply H in F1.
    destruct (N.leb_spec (seg_start s) c); auto. lia.
  Qed.

  Lemma format4_get_ok : forall c, exists g, lookup4 f segs c = Some g /\
    format4_get m f table4 c = Ok (nonzero g).
  Proof.
    intro c. destruct seg_table as (x2 & U & X & N1 & Y & Z).
    unfold format4_get. destruct (N.ltb_spec 65535 c) as [Big|Small].
    { exists 0. split; [|reflexivity]. apply lookup4_out. intros s Hs Hc.
      destruct (Z s Hs) as (i & _ & _ & S). apply segment_at_fields in S. lia. }
    set (cm := fun i => match nth_error segs (N.to_nat i) with
                        | Some s => if seg_end s <? c then Lt else if c <? seg_start s then Gt else Eq
                        | None => Eq end).
    match goal with |- context [binary_search ?k ?g] => set (fn := g); change k with n end.
    assert (F : forall i, i < n -> fn i = Ok (cm i)).
    { intros i Hi. destruct (Y i Hi) as (s & S1 & S2). unfold fn, cm. rewrite S1.
      apply segment_at_fields in S2 as (E1 & E2 & _). rewrite E1. cbn [bind].
      destruct (seg_end s <? c); auto. rewrite E2. cbn [bind]. destruct (c <? seg_start s); auto. }
    assert (LT : forall i j s t, i < j -> nth_error segs (N.to_nat i) = Some s ->
      nth_error segs (N.to_nat j) = Some t -> seg_end s < seg_start t /\ seg_start s <= seg_end s /\ seg_start t <= seg_end t).
    { intros i j s t L Hi Hj. split.
      - apply (sorted_nth _ (fun a b => seg_end a < seg_start b) segs (N.to_nat i) (N.to_nat j)); auto.
        + apply sorted4.
        + lia.
      - pose proof ordered4 as O. rewrite Forall_forall in O. split; apply O; eapply nth_error_In; eauto. }
    assert (G : forall i j, i < j -> j < n -> cm i = Gt -> cm j = Gt).
    { intros i j L Hj Ci. destruct (Y i) as (s & S1 & _); [lia|]. destruct (Y j) as (t & T1 & _); [lia|].
      unfold cm in *. rewrite S1 in Ci. rewrite T1. pose proof (LT _ _ _ _ L S1 T1).
      destruct (N.ltb_spec (seg_end s) c); [discriminate|]. destruct (N.ltb_spec c (seg_start s)); [|discriminate].
      destruct (N.ltb_spec (seg_end t) c); [lia|]. destruct (N.ltb_spec c (seg_start t)); [auto|lia]. }
    assert (H : forall i j, i < j -> j < n -> cm j = Lt -> cm i = Lt).
    { intros i j L Hj Ci. destruct (Y i) as (s & S1 & _); [lia|]. destruct (Y j) as (t & T1 & _); [lia|].
      unfold cm in *. rewrite T1 in Ci. rewrite S1. pose proof (LT _ _ _ _ L S1 T1).
      destruct (N.ltb_spec (seg_end t) c); [|destruct (c <? seg_start t); discriminate].
      destruct (N.ltb_spec (seg_end s) c); [auto|lia]. }
    assert (EQ : forall i s, nth_error segs (N.to_nat i) = Some s ->
      (cm i = Eq <-> seg_start s <= c <= seg_end s)).
    { intros i s S1. unfold cm. rewrite S1. destruct (N.ltb_spec (seg_end s) c); [split; [discriminate|lia]|].
      destruct (N.ltb_spec c (seg_start s)); split; auto; try discriminate; lia. }
    destruct (Exists_dec (fun s => seg_start s <= c <= seg_end s) segs) as [Ex|No].
    { intro s. apply within_dec. }
    - apply Exists_exists in Ex as (s & Hs & Hc). destruct (Z s Hs) as (k & K1 & K2 & K3).
      destruct (binary_search_complete _ n fn cm k F G H K1) as (i & I1 & I2 & I3).
      { apply (EQ k s); auto. }
      assert (i = k).
      { destruct (Y i I2) as (t & T1 & _). apply (EQ i t T1) in I3.
        destruct (N.lt_total i k) as [L|[L|L]]; auto.
        - pose proof (LT _ _ _ _ L T1 K2). lia.
        - pose proof (LT _ _ _ _ L K2 T1). lia. }
      subst k. rewrite I1. cbn [bind]. rewrite (lookup4_in s c Hs Hc).
      destruct W as (_ & _ & _ & _ & W5). rewrite Forall_forall in W5. specialize (W5 s Hs c Hc).
      destruct (segment_glyph f s c) as [g|] eqn:SG; [|congruence]. exists g. split; [auto|].
      pose proof (segment_at_fields _ _ K3) as (_ & E2 & _). rewrite E2. cbn [bind].
      apply glyph_ok; auto. lia.
    - rewrite (binary_search_absent _ n fn cm F).
      + cbn [bind]. exists 0. split; [|reflexivity]. apply lookup4_out. intros s Hs Hc. apply No.
        apply Exists_exists. eauto.
      + intros i Hi Ci. destruct (Y i Hi) as (s & S1 & _). apply (EQ i s S1) in Ci. apply No.
        apply Exists_exists. exists s. split; auto. eapply nth_error_In; eauto.
  Qed.

  (** Enumeration *)
  Definition glyphs_of (s : segment) (c : N) : list N :=
    match segment_glyph f s c with Some g => if g =? 0 then [] else [g] | None => [] end.
  Definition segment_calls (s : segment) : list (N * N) :=
    emit (glyphs_of s) (count_up (seg_start s) (S (N.to_nat (seg_end s - seg_start s)))).

  Lemma format4_loop_ok : forall i s, segment_at f sub n i = Some s -> In s segs ->
    forall fuel c, seg_start s <= c -> c + N.of_nat fuel = seg_end s ->
    format4_loop fuel m f table4 i (seg_start s) (seg_end s) c = Ok (emit (glyphs_of s) (count_up c (S fuel))).
  Proof.
    intros i s S Hin. pose proof (segment_at_fields _ _ S) as (_ & _ & _ & _ & _ & _ & _ & Be).
    induction fuel as [|fuel IH]; intros c L E.
    - assert (c = seg_end s) by lia. subst c. cbn [format4_loop].
      destruct W as (_ & _ & _ & _ & W5). rewrite Forall_forall in W5.
      specialize (W5 s Hin (seg_end s)). destruct (segment_glyph f s (seg_end s)) as [g|] eqn:G; [|exfalso; apply W5; auto; lia].
      rewrite (glyph_ok _ _ _ _ S L G). cbn [bind]. rewrite N.eqb_refl. f_equal.
      cbn [count_up emit flat_map]. unfold glyphs_of. rewrite G. unfold nonzero. destruct (g =? 0); reflexivity.
    - cbn [format4_loop]. destruct W as (_ & _ & _ & _ & W5). rewrite Forall_forall in W5.
      specialize (W5 s Hin c). destruct (segment_glyph f s c) as [g|] eqn:G; [|exfalso; apply W5; auto; lia].
      rewrite (glyph_ok _ _ _ _ S L G). cbn [bind].
      destruct (N.eqb_spec c (seg_end s)); [lia|]. unfold add16.
      rewrite exact_ok by (change (2 ^ 16) with 65536; lia). cbn [bind].
      rewrite IH by lia. cbn [bind]. f_equal. cbn [count_up emit flat_map].
      unfold glyphs_of at 3. rewrite G. unfold nonzero. destruct (g =? 0); reflexivity.
  Qed.

  Lemma format4_segments_ok : forall k i, N.of_nat k + i = n ->
    format4_segments k m f table4 i = Ok (flat_map segment_calls (skipn (N.to_nat i) segs)).
  Proof.
    destruct seg_table as (x2 & U & X & N1 & Y & Z).
    induction k as [|k IH]; intros i E; cbn [format4_segments].
    - assert (i = n) by lia. subst i. subst n. rewrite Nat2N.id, skipn_all. reflexivity.
    - destruct (Y i) as (s & S1 & S2); [lia|].
      pose proof (segment_at_fields _ _ S2) as (E1 & E2 & _ & _ & _ & _ & Bs & Be).
      rewrite E2. cbn [bind]. rewrite E1. cbn [bind].
      assert (Hin : In s segs) by (eapply nth_error_In; eauto).
      pose proof ordered4 as O. rewrite Forall_forall in O. pose proof (O s Hin).
      replace ((seg_end s + 2 ^ 16 - seg_start s) mod 2 ^ 16) with (seg_end s - seg_start s).
      + rewrite (format4_loop_ok i s S2 Hin) by lia. cbn [bind]. rewrite IH by lia. cbn [bind].
        f_equal. replace (N.to_nat (i + 1)) with (S (N.to_nat i)) by lia.
        assert (SK : skipn (N.to_nat i) segs = s :: skipn (S (N.to_nat i)) segs).
        { clear -S1. revert S1. generalize (N.to_nat i) as j. revert segs.
          intro l. induction l as [|x l IH]; intros [|j] H; try discriminate.
          - cbn in H. injection H as ->. reflexivity.
          - cbn [nth_error] in H. cbn [skipn]. rewrite IH by auto. reflexivity. }
        rewrite SK. reflexivity.
      + change (2 ^ 16) with 65536.
        replace (seg_end s + 65536 - seg_start s) with (seg_end s - seg_start s + 1 * 65536) by lia.
        rewrite N.mod_add by lia. rewrite N.mod_small by lia. reflexivity.
  Qed.

  Lemma format4_each_ok : format4_each m f table4 = Ok (flat_map segment_calls segs).
  Proof.
    unfold format4_each. rewrite format4_segments_ok; [reflexivity|].
    cbn [segment_count table4]. lia.
  Qed.

  Lemma segment_calls_range : forall s c g, In s segs -> In (c, g) (segment_calls s) ->
    seg_start s <= c <= seg_end s.
  Proof.
    intros s c g Hin H. apply emit_in in H as [H _]. apply count_up_in in H.
    pose proof ordered4 as O. rewrite Forall_forall in O. apply O in Hin. lia.
  Qed.
  Lemma glyphs_of_short : forall s c, (length (glyphs_of s c) <= 1)%nat.
  Proof. intros s c. unfold glyphs_of. destruct (segment_glyph f s c) as [g|]; [destruct (g =? 0)|]; cbn; lia. Qed.

  Lemma calls4_sorted : StronglySorted N.lt (map fst (flat_map segment_calls segs)).
  Proof.
    apply (blocks_sorted _ seg_start seg_end).
    - intros s _. apply emit_sorted. apply glyphs_of_short.
    - apply segment_calls_range.
    - apply sorted4.
  Qed.

  Lemma calls4_in : forall c g, In (c, g) (flat_map segment_calls segs) <->
    lookup4 f segs c = Some g /\ g <> 0.
  Proof.
    intros c g. rewrite in_flat_map. split.
    - intros (s & Hs & H). pose proof (segment_calls_range _ _ _ Hs H) as R.
      apply emit_in in H as [_ H]. rewrite (lookup4_in s c Hs R). unfold glyphs_of in H.
      destruct (segment_glyph f s c) as [g'|]; [|contradiction]. destruct (N.eqb_spec g' 0); [contradiction|].
      destruct H as [->|[]]. auto.
    - intros [H H0]. destruct (Exists_dec (fun s => seg_start s <= c <= seg_end s) segs) as [Ex|No].
      { intro s. apply within_dec. }
      + apply Exists_exists in Ex as (s & Hs & Hc). exists s. split; [auto|]. apply emit_in.
        rewrite (lookup4_in s c Hs Hc) in H. split; [apply count_up_in; lia|].
        unfold glyphs_of. rewrite H. destruct (N.eqb_spec g 0); [congruence|left; auto].
      + rewrite lookup4_out in H; [congruence|]. intros s Hs Hc. apply No. apply Exists_exists. eauto.
  Qed.
End Format4.

(** ** Iteration *)
Fixpoint walk {A R} (body : A -> N -> result (flow A R)) (a : A) (ps : list N) : result (flow A R) :=
  match ps with
  | [] => Ok (Continue a)
  | p :: ps =>
      r <- body a p ;;
      match r with
      | Continue a' => walk body a' ps
      | Return r => Ok (Return r)
      end
  end.
Fixpoint forward (start size : N) (n : nat) : list N :=
  match n with O => [] | S n => start :: forward (start + size) size n end.
Fixpoint backward (start size : N) (n : nat) : list N :=
  match n with O => [] | S k => (start + size * N.of_nat n) :: backward start size k end.

Lemma for_each_next : forall A R m (body : A -> N -> result (flow A R)) size count fuel start a,
  0 < size -> (count <= fuel)%nat -> start + size * N.of_nat count < 2 ^ 32 ->
  for_each fuel (next m) body a (mkIter start (start + size * N.of_nat count) size) =
  walk body a (forward start size count).
Proof.
  intros A R m body size. induction count as [|count IH]; intros fuel start a Hs Hf Hl.
  - rewrite N.mul_0_r, N.add_0_r. destruct fuel; cbn [for_each]; unfold next; cbn [i_start i_end];
      rewrite N.eqb_refl; reflexivity.
  - destruct fuel as [|fuel]; [lia|]. cbn [for_each]. unfold next. cbn [i_start i_end i_size].
    destruct (N.eqb_spec start (start + size * N.of_nat (S count))); [nia|].
    unfold followed_by, offset_bytes, add32. rewrite exact_ok by nia. cbn [bind forward walk].
    destruct (body a start) as [[a'|r]| |]; cbn [bind]; auto.
    replace (start + size * N.of_nat (S count)) with (start + size + size * N.of_nat count) by nia.
    apply IH; auto; nia.
Qed.

Lemma for_each_next_back : forall A R m (body : A -> N -> result (flow A R)) size count fuel start a,
  0 < size -> (count <= fuel)%nat -> start + size * N.of_nat count < 2 ^ 32 ->
  for_each fuel (next_back m) body a (mkIter start (start + size * N.of_nat count) size) =
  walk body a (backward start size count).
Proof.
  intros A R m body size. induction count as [|count IH]; intros fuel start a Hs Hf Hl.
  - rewrite N.mul_0_r, N.add_0_r. destruct fuel; cbn [for_each]; unfold next_back; cbn [i_start i_end];
      rewrite N.eqb_refl; reflexivity.
  - destruct fuel as [|fuel]; [lia|]. cbn [for_each]. unfold next_back. cbn [i_start i_end i_size].
    destruct (N.eqb_spec start (start + size * N.of_nat (S count))); [nia|].
    unfold sub32, sub_w. destruct (N.leb_spec size (start + size * N.of_nat (S count))); [|nia].
    cbn [bind backward walk].
    destruct (body a _) as [[a'|r]| |]; cbn [bind]; auto.
    replace (start + size * N.of_nat (S count) - size) with (start + size * N.of_nat count) by nia.
    apply IH; auto; nia.
Qed.

Lemma forward_map : forall size n start, forward start size n = map (fun i => start + size * N.of_nat i) (seq 0 n).
Proof.
  induction n as [|n IH]; intro start; cbn [forward seq map]; [auto|]. f_equal; [lia|].
  rewrite IH, <- seq_shift, map_map. apply map_ext. intro i. lia.
Qed.
Lemma backward_map : forall start size n,
  backward start size n = rev (map (fun i => start + size * N.of_nat i) (seq 1 n)).
Proof.
  intros start size. induction n as [|n IH]; cbn [backward]; [auto|]. rewrite IH, seq_S, map_app, rev_app_distr.
  reflexivity.
Qed.

Lemma walk_collect : forall R ps acc, walk (R:=R) (fun acc p => Ok (Continue (acc ++ [p]))) acc ps = Ok (Continue (acc ++ ps)).
Proof.
  intros R. induction ps as [|p ps IH]; intro acc; cbn [walk bind]; [rewrite app_nil_r; auto|].
  rewrite IH, <- app_assoc. reflexivity.
Qed.

Lemma into_iter_ok : forall m s, s_start s + s_size s * s_count s < 2 ^ 32 ->
  into_iter m s = Ok (mkIter (s_start s) (s_start s + s_size s * s_count s) (s_size s)).
Proof. intros m s H. unfold into_iter, get_unchecked. rewrite offset_ok by auto. reflexivity. Qed.

(** ** Format 12 *)
Section Format12.
  Variables (m : build) (f : bytes) (sub : N) (gs : list group).
  Hypothesis (W : well_formed12 f sub gs).
  Hypothesis (A : addressable f).
  Hypothesis (B : wf_bytes f).
  Hypothesis (G32 : glyphs_below (2 ^ 32) gs).
  Let n := N.of_nat (length gs).
  Definition table12 : format12 := mkF12 (mkSlice (sub + 16) n 12).

  Lemma group_table : u32_at f (sub + 12) = Some n /\
    (forall i, i < n -> exists g, nth_error gs (N.to_nat i) = Some g /\ group_at f sub i = Some g) /\
    (forall g, In g gs -> exists i, i < n /\ nth_error gs (N.to_nat i) = Some g /\ group_at f sub i = Some g).
  Proof.
    destruct W as (W1 & _). unfold cmap_groups in W1.
    destruct (u32_at f (sub + 12)) as [k|] eqn:U; [|discriminate].
    destruct (all_indices _ _ _ _ W1) as (X & Y & Z). fold n in X. rewrite <- X in *.
    split; [auto|]. split.
    - intros i Hi. destruct (Y i Hi) as (s & S1 & S2). eauto.
    - intros s Hs. destruct (Z s Hs) as (i & I1 & I2 & I3). eauto.
  Qed.

  Lemma group_at_fields : forall i g, group_at f sub i = Some g ->
    sub + 16 + 12 * i + 12 <= length_N f /\
    field_u32 m CmapFormat12Group "start_char_code" f (sub + 16 + 12 * i) = Ok (g_start g) /\
    field_u32 m CmapFormat12Group "end_char_code" f (sub + 16 + 12 * i) = Ok (g_end g) /\
    field_u32 m CmapFormat12Group "start_glyph_id" f (sub + 16 + 12 * i) = Ok (g_glyph g) /\
    get_unchecked m (groups table12) i = Ok (sub + 16 + 12 * i) /\
    g_start g < 2 ^ 32 /\ g_end g < 2 ^ 32.
  Proof.
    intros i g H. unfold group_at in H.
    destruct (u32_at f (sub + 16 + 12 * i)) as [s|] eqn:H1; [|discriminate].
    destruct (u32_at f (sub + 16 + 12 * i + 4)) as [e|] eqn:H2; [|discriminate].
    destruct (u32_at f (sub + 16 + 12 * i + 8)) as [gl|] eqn:H3; [|discriminate].
    injection H as <-. cbn [g_start g_end g_glyph].
    pose proof (u32_at_bound _ _ _ B H1). pose proof (u32_at_bound _ _ _ B H2).
    destruct (u32_ok _ _ _ H3) as [_ L]. split; [lia|].
    rewrite <- (N.add_0_r (sub + 16 + 12 * i)) in H1.
    split; [eapply field_u32_ok; eauto; reflexivity|].
    split; [eapply field_u32_ok; eauto; reflexivity|].
    split; [eapply field_u32_ok; eauto; reflexivity|].
    split; [|auto]. unfold get_unchecked. cbn [groups table12 s_size s_start].
    unfold addressable in A. unfold length_N in L. rewrite offset_ok by lia. reflexivity.
  Qed.

  Lemma format12_parse_ok : format12_parse m f sub = Ok table12.
  Proof.
    destruct group_table as (U & _). destruct (u32_ok _ _ _ U) as [_ L].
    unfold addressable in A. unfold length_N in L.
    unfold format12_parse, followed_by, offset_bytes, add32. change (size_of CmapFormat12Header) with 16.
    rewrite exact_ok by lia. cbn [bind]. rewrite (field_u32_ok m CmapFormat12Header "num_groups" f sub 12 n) by auto.
    reflexivity.
  Qed.

  Lemma sorted12 : StronglySorted (fun a b => g_end a < g_start b) gs.
  Proof. apply W. Qed.
  Lemma ordered12 : Forall (fun g => g_start g <= g_end g) gs.
  Proof. apply W. Qed.

  Lemma lookup12_in : forall g c, In g gs -> g_start g <= c <= g_end g ->
    lookup12 gs c = g_glyph g + (c - g_start g).
  Proof.
    intros g c Hin Hc. unfold lookup12.
    destruct (find_interval _ g_start g_end gs g c sorted12 ordered12 Hin Hc) as [_ ->]. reflexivity.
  Qed.
  Lemma lookup12_out : forall c, (forall g, In g gs -> ~ (g_start g <= c <= g_end g)) -> lookup12 gs c = 0.
  Proof.
    intros c H. unfold lookup12.
    destruct (find (fun g => (g_start g <=? c) && (c <=? g_end g)) gs) as [g|] eqn:F; auto.
    apply find_some in F as [F1 F2]. apply andb_true_iff in F2 as [F2 F3].
    apply N.leb_le in F2, F3. apply H in F1. lia.
  Qed.

  (** the result of [get]: 0 when in no group, which [glyph_id] does not distinguish from none *)
  Lemma format12_get_ok : forall c, c < 2 ^ 32 -> exists o, format12_get m f table12 c = Ok o /\
    ((exists g, In g gs /\ g_start g <= c <= g_end g /\
        o = if lookup12 gs c <? 65536 then Some (lookup12 gs c) else None) \/
     ((forall g, In g gs -> ~ (g_start g <= c <= g_end g)) /\ o = None)).
  Proof.
    intros c Hc32. destruct group_table as (U & Y & Z). unfold format12_get.
    set (cm := fun i => match nth_error gs (N.to_nat i) with
                        | Some g => if c <? g_start g then Gt else if g_end g <? c then Lt else Eq
                        | None => Eq end).
    match goal with |- context [binary_search ?k ?g] => set (fn := g); change k with n end.
    assert (F : forall i, i < n -> fn i = Ok (cm i)).
    { intros i Hi. destruct (Y i Hi) as (s & S1 & S2). unfold fn, cm. rewrite S1.
      apply group_at_fields in S2 as (_ & E1 & E2 & _ & E4 & _). rewrite E4. cbn [bind]. rewrite E1. cbn [bind].
      destruct (c <? g_start s); auto. rewrite E2. cbn [bind]. destruct (g_end s <? c); auto. }
    assert (LT : forall i j s t, i < j -> nth_error gs (N.to_nat i) = Some s ->
      nth_error gs (N.to_nat j) = Some t -> g_end s < g_start t /\ g_start s <= g_end s /\ g_start t <= g_end t).
    { intros i j s t L Hi Hj. split.
      - apply (sorted_nth _ (fun a b => g_end a < g_start b) gs (N.to_nat i) (N.to_nat j)); auto.
        + apply sorted12.
        + lia.
      - pose proof ordered12 as O. rewrite Forall_forall in O. split; apply O; eapply nth_error_In; eauto. }
    assert (EQ : forall i s, nth_error gs (N.to_nat i) = Some s ->
      (cm i = Eq <-> g_start s <= c <= g_end s) /\ (cm i = Gt <-> c < g_start s) /\
      (g_start s <= g_end s -> (cm i = Lt <-> g_end s < c))).
    { intros i s S1. unfold cm. rewrite S1. destruct (N.ltb_spec c (g_start s)), (N.ltb_spec (g_end s) c);
        repeat split; intros; try discriminate; auto; lia. }
    assert (G : forall i j, i < j -> j < n -> cm i = Gt -> cm j = Gt).
    { intros i j L Hj Ci. destruct (Y i) as (s & S1 & _); [lia|]. destruct (Y j) as (t & T1 & _); [lia|].
      pose proof (LT _ _ _ _ L S1 T1). apply (EQ i s S1) in Ci. apply (EQ j t T1). lia. }
    assert (H : forall i j, i < j -> j < n -> cm j = Lt -> cm i = Lt).
    { intros i j L Hj Ci. destruct (Y i) as (s & S1 & _); [lia|]. destruct (Y j) as (t & T1 & _); [lia|].
      pose proof (LT _ _ _ _ L S1 T1) as (X1 & X2 & X3). apply (EQ j t T1) in Ci; auto. apply (EQ i s S1); auto. lia. }
    destruct (Exists_dec (fun g => g_start g <= c <= g_end g) gs) as [Ex|No].
    { intro g. apply within_dec. }
    - apply Exists_exists in Ex as (s & Hs & Hc). destruct (Z s Hs) as (k & K1 & K2 & K3).
      destruct (binary_search_complete _ n fn cm k F G H K1) as (i & I1 & I2 & I3).
      { apply (EQ k s); auto. }
      assert (i = k).
      { destruct (Y i I2) as (t & T1 & _). apply (EQ i t T1) in I3.
        destruct (N.lt_total i k) as [L|[L|L]]; auto.
        - pose proof (LT _ _ _ _ L T1 K2). lia.
        - pose proof (LT _ _ _ _ L K2 T1). lia. }
      subst k. rewrite I1. cbn [bind]. apply group_at_fields in K3 as (_ & E1 & _ & E3 & E4 & _).
      rewrite E4. cbn [bind]. rewrite E3. cbn [bind]. rewrite E1. cbn [bind].
      unfold sub32, sub_w. destruct (N.leb_spec (g_start s) c); [|lia]. cbn [bind].
      unfold glyphs_below in G32. rewrite Forall_forall in G32. pose proof (G32 s Hs).
      unfold add32. rewrite exact_ok by lia. cbn [bind]. eexists. split; [reflexivity|]. left.
      exists s. split; [auto|]. split; [auto|]. rewrite (lookup12_in s c Hs Hc).
      destruct (N.leb_spec (g_glyph s + (c - g_start s)) 65535), (N.ltb_spec (g_glyph s + (c - g_start s)) 65536);
        auto; lia.
    - rewrite (binary_search_absent _ n fn cm F).
      + cbn [bind]. exists None. split; [auto|]. right. split; [|auto]. intros g Hg Hc. apply No.
        apply Exists_exists. eauto.
      + intros i Hi Ci. destruct (Y i Hi) as (s & S1 & _). apply (EQ i s S1) in Ci. apply No.
        apply Exists_exists. exists s. split; auto. eapply nth_error_In; eauto.
  Qed.

  (** Enumeration: glyph numbers are truncated to 16 bits. *)
  Definition group_glyph (g : group) (c : N) : list N := [(g_glyph g + (c - g_start g)) mod 65536].
  Definition group_calls (g : group) : list (N * N) :=
    emit (group_glyph g) (count_up (g_start g) (S (N.to_nat (g_end g - g_start g)))).

  Lemma format12_loop_ok : forall g, In g gs -> g_end g < 2 ^ 32 ->
    forall fuel c, g_start g <= c -> c + N.of_nat fuel = g_end g ->
    format12_loop fuel m (g_start g) (g_end g) (g_glyph g) c = Ok (emit (group_glyph g) (count_up c (S fuel))).
  Proof.
    intros g Hin Be. unfold glyphs_below in G32. rewrite Forall_forall in G32. pose proof (G32 g Hin) as Gl.
    induction fuel as [|fuel IH]; intros c L E; cbn [format12_loop];
      unfold sub32, sub_w; (destruct (N.leb_spec (g_start g) c); [|lia]); cbn [bind];
      unfold add32; rewrite exact_ok by lia; cbn [bind]; change (2 ^ 16) with 65536;
      rewrite (N.add_comm (c - g_start g)).
    - destruct (N.eqb_spec c (g_end g)); [|lia]. reflexivity.
    - destruct (N.eqb_spec c (g_end g)); [lia|]. rewrite exact_ok by lia. cbn [bind].
      unfold add32 in IH. rewrite IH by lia. reflexivity.
  Qed.

  Lemma walk_groups : forall k i acc, N.of_nat k + i = n ->
    walk (R:=Empty_set) (fun acc p => calls <- format12_group m f p ;; Ok (Continue (acc ++ calls))) acc
      (forward (sub + 16 + 12 * i) 12 k) =
    Ok (Continue (acc ++ flat_map group_calls (skipn (N.to_nat i) gs))).
  Proof.
    destruct group_table as (U & Y & Z).
    induction k as [|k IH]; intros i acc E; cbn [forward walk].
    - assert (i = n) by lia. subst i n. rewrite Nat2N.id, skipn_all. cbn [flat_map]. rewrite app_nil_r. auto.
    - destruct (Y i) as (g & S1 & S2); [lia|]. pose proof (group_at_fields _ _ S2) as (_ & E1 & E2 & E3 & _ & Bs & Be).
      assert (Hin : In g gs) by (eapply nth_error_In; eauto).
      pose proof ordered12 as O. rewrite Forall_forall in O. pose proof (O g Hin).
      unfold format12_group at 1. rewrite E1. cbn [bind]. rewrite E2. cbn [bind]. rewrite E3. cbn [bind].
      replace ((g_end g + 2 ^ 32 - g_start g) mod 2 ^ 32) with (g_end g - g_start g).
      + rewrite (format12_loop_ok g Hin Be) by lia. cbn [bind].
        replace (sub + 16 + 12 * i + 12) with (sub + 16 + 12 * (i + 1)) by lia. rewrite IH by lia.
        do 2 f_equal. rewrite <- app_assoc. f_equal.
        replace (N.to_nat (i + 1)) with (S (N.to_nat i)) by lia.
        assert (SK : skipn (N.to_nat i) gs = g :: skipn (S (N.to_nat i)) gs).
        { clear -S1. revert S1. generalize (N.to_nat i) as j. revert gs.
          intro l. induction l as [|x l IH]; intros [|j] H; try discriminate.
          - cbn in H. injection H as ->. reflexivity.
          - cbn [nth_error] in H. cbn [skipn]. rewrite IH by auto. reflexivity. }
        rewrite SK. reflexivity.
      + replace (g_end g + 2 ^ 32 - g_start g) with (g_end g - g_start g + 1 * 2 ^ 32) by lia.
        rewrite N.mod_add by (change (2 ^ 32) with 4294967296; lia). rewrite N.mod_small by lia. reflexivity.
  Qed.

  Lemma groups_fit : sub + 16 + 12 * n < 2 ^ 32.
  Proof.
    destruct group_table as (U & Y & _). destruct (u32_ok _ _ _ U) as [_ L].
    unfold addressable in A. unfold length_N in L.
    destruct (N.eq_dec n 0) as [->|Hn]; [lia|]. destruct (Y (n - 1)) as (g & _ & S); [lia|].
    apply group_at_fields in S as (S & _). unfold length_N in S. lia.
  Qed.

  Lemma format12_each_ok : format12_each m f table12 = Ok (flat_map group_calls gs).
  Proof.
    unfold format12_each. rewrite into_iter_ok by (cbn [groups table12 s_start s_size s_count]; apply groups_fit).
    cbn [bind groups table12 s_start s_size s_count].
    change n with (N.of_nat (length gs)). rewrite Nat2N.id. rewrite for_each_next; [|lia|lia|apply groups_fit].
    pose proof (walk_groups (length gs) 0 []) as H. rewrite N.mul_0_r, (N.add_0_r (sub + 16)) in H.
    unfold position. rewrite H by (rewrite N.add_0_r; reflexivity). reflexivity.
  Qed.

  Lemma group_calls_range : forall g c x, In g gs -> In (c, x) (group_calls g) -> g_start g <= c <= g_end g.
  Proof.
    intros g c x Hin H. apply emit_in in H as [H _]. apply count_up_in in H.
    pose proof ordered12 as O. rewrite Forall_forall in O. apply O in Hin. lia.
  Qed.
  Lemma calls12_sorted : StronglySorted N.lt (map fst (flat_map group_calls gs)).
  Proof.
    apply (blocks_sorted _ g_start g_end).
    - intros g _. apply emit_sorted. intro c. cbn. lia.
    - apply group_calls_range.
    - apply sorted12.
  Qed.
  Lemma calls12_in : forall c x, In (c, x) (flat_map group_calls gs) <->
    exists g, In g gs /\ g_start g <= c <= g_end g /\ x = lookup12 gs c mod 65536.
  Proof.
    intros c x. rewrite in_flat_map. split.
    - intros (g & Hg & H). pose proof (group_calls_range _ _ _ Hg H) as R. exists g. split; [auto|]. split; [auto|].
      apply emit_in in H as [_ [H|[]]]. rewrite (lookup12_in g c Hg R). auto.
    - intros (g & Hg & R & ->). exists g. split; [auto|]. apply emit_in. split; [apply count_up_in; lia|].
      left. rewrite (lookup12_in g c Hg R). auto.
  Qed.
End Format12.
