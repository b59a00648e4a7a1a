(** What [parse_font] and [glyph_width] return, in terms of the bytes of the file. *)
From Coq Require Import Sorted QArith Qabs Lqa Lia.
From Verif Require Import Base PdfConvert Float32 Float32Proofs LesterFloat LesterFloatProofs FontParsing FontCmap
  FontSpec FontProofs FontCmapProofs FontSafetyProofs.
Local Open Scope N_scope.
Local Open Scope res_scope.

Lemma field_u16_inv : forall m s name f p o v, field_offset 0 s name = o -> p + o < 2 ^ 32 ->
  field_u16 m s name f p = Ok v -> u16_at f (p + o) = Some v.
Proof.
  intros m s name f p o v E L H. unfold field_u16 in H. rewrite (field_ok m s name p o) in H by auto.
  cbn [bind] in H.
  destruct (read_u16_outcome f (p + o)) as [(_ & w & R & U)|[(_ & R & _)|(_ & R & _)]]; congruence.
Qed.
Lemma field_i16_inv : forall m s name f p o v, field_offset 0 s name = o -> p + o < 2 ^ 32 ->
  field_i16 m s name f p = Ok v -> i16_at f (p + o) = Some v.
Proof.
  intros m s name f p o v E L H. unfold field_i16 in H. rewrite (field_ok m s name p o) in H by auto.
  cbn [bind] in H.
  destruct (read_i16_outcome f (p + o)) as [(_ & w & R & U)|[(_ & R & _)|(_ & R & _)]]; congruence.
Qed.
Lemma field_u32_inv : forall m s name f p o v, field_offset 0 s name = o -> p + o < 2 ^ 32 ->
  field_u32 m s name f p = Ok v -> u32_at f (p + o) = Some v.
Proof.
  intros m s name f p o v E L H. unfold field_u32 in H. rewrite (field_ok m s name p o) in H by auto.
  cbn [bind] in H.
  destruct (read_u32_outcome f (p + o)) as [(_ & w & R & U)|[(_ & R & _)|(_ & R & _)]]; congruence.
Qed.

Lemma parsed_fields : forall m f d pf, wf_bytes f -> directory f = Some d -> tags_sorted d ->
  (forall tag off, In (tag, off) d -> off + 54 < 2 ^ 32) ->
  parse_font m f = Ok pf ->
  (u32_at f 0 = Some 65536 \/ u32_at f 0 = Some 1953658213) /\
  exists maxp head hhea hmtx,
    In (bs "maxp", maxp) d /\ In (bs "head", head) d /\ In (bs "hhea", hhea) d /\ In (bs "hmtx", hmtx) d /\
    pf_bytes pf = f /\
    u16_at f (maxp + 4) = Some (pf_glyph_count pf) /\
    u16_at f (head + 18) = Some (pf_units_per_em pf) /\
    i16_at f (head + 36) = Some (pf_min_x pf) /\ i16_at f (head + 38) = Some (pf_min_y pf) /\
    i16_at f (head + 40) = Some (pf_max_x pf) /\ i16_at f (head + 42) = Some (pf_max_y pf) /\
    i16_at f (hhea + 4) = Some (pf_ascender pf) /\ i16_at f (hhea + 6) = Some (pf_descender pf) /\
    u16_at f (hhea + 34) = Some (s_count (pf_metrics pf)) /\
    s_start (pf_metrics pf) = hmtx /\ s_size (pf_metrics pf) = 4.
Proof.
  intros m f d pf W D T L H.
  assert (U : u16_at f 4 = Some (N.of_nat (length d))).
  { unfold directory in D. destruct (u16_at f 4) as [n|]; [|discriminate]. f_equal.
    destruct (all_indices _ _ _ _ D) as (A & _). auto. }
  assert (FT : forall tag off, find_table m (dir_of (N.of_nat (length d))) f tag = Ok off -> In (tag, off) d).
  { intros tag off F. destruct (find_table_entries m f d tag W U D T) as [F1 F2].
    destruct (in_dec (list_eq_dec N.eq_dec) tag (map fst d)) as [I|I].
    - apply in_map_iff in I as ((t & o) & E & I). cbn [fst] in E. subst t. rewrite (F1 _ I) in F. injection F as ->. exact I.
    - rewrite F2 in F; [discriminate|]. intros o Ho. apply I. apply in_map_iff. exists (tag, o). auto. }
  unfold parse_font in H. inv_bind H.
  assert (S : u32_at f 0 = Some a).
  { apply (field_u32_inv m OffsetSubtable "scaler_type" f 0 0); [reflexivity|reflexivity|exact E]. }
  destruct (negb (a =? 1953658213) && negb (a =? 65536)) eqn:Sc; [discriminate|].
  split.
  { rewrite S. apply andb_false_iff in Sc as [Sc|Sc]; apply negb_false_iff, N.eqb_eq in Sc; subst a; auto. }
  inv_bind H.
  assert (a0 = 12) as ->.
  { unfold followed_by, offset_bytes, add32 in *.
    match goal with H : exact _ _ _ = Ok a0 |- _ => rewrite exact_ok in H by reflexivity; injection H as <- end.
    reflexivity. }
  assert (a1 = N.of_nat (length d)) as ->.
  { match goal with H : field_u16 _ OffsetSubtable _ _ _ = Ok a1 |- _ =>
      apply (field_u16_inv m OffsetSubtable "table_count" f 0 4) in H; [|reflexivity|reflexivity];
      change (0 + 4) with 4 in H; congruence end. }
  change (mkSlice 12 (N.of_nat (length d)) (size_of TableDirectoryEntry)) with (dir_of (N.of_nat (length d))) in *.
  injection H as <-. cbn [pf_bytes pf_cmap pf_name pf_glyph_count pf_units_per_em pf_metrics pf_ascender
    pf_descender pf_min_x pf_min_y pf_max_x pf_max_y s_count s_start s_size].
  repeat match goal with H : find_table _ _ _ _ = Ok _ |- _ => apply FT in H; pose proof (L _ _ H) end.
  match goal with H : In (bs "maxp", ?x) d |- _ => exists x end.
  match goal with H : In (bs "head", ?x) d |- _ => exists x end.
  match goal with H : In (bs "hhea", ?x) d |- _ => exists x end.
  match goal with H : In (bs "hmtx", ?x) d |- _ => exists x end.
  repeat match goal with |- _ /\ _ => split end; auto;
    match goal with
    | |- u16_at _ _ = Some ?v => match goal with H : field_u16 _ _ _ _ _ = Ok v |- _ =>
        eapply field_u16_inv in H; [exact H|reflexivity|cbn [field_offset]; lia] end
    | |- i16_at _ _ = Some ?v => match goal with H : field_i16 _ _ _ _ _ = Ok v |- _ =>
        eapply field_i16_inv in H; [exact H|reflexivity|cbn [field_offset]; lia] end
    end.
Qed.

(** ** Glyph widths *)
Lemma advance_width_ok : forall m pf hmtx n g, addressable (pf_bytes pf) -> pf_metrics pf = mkSlice hmtx n 4 ->
  (n = 0 -> advance_width m pf g = Err NoHorizontalGlyphMetrics) /\
  (n <> 0 -> forall w, u16_at (pf_bytes pf) (hmtx + 4 * N.min g (n - 1)) = Some w -> advance_width m pf g = Ok w) /\
  (n <> 0 -> hmtx + 4 * N.min g (n - 1) < 2 ^ 32 ->
     u16_at (pf_bytes pf) (hmtx + 4 * N.min g (n - 1)) = None ->
     advance_width m pf g = Err OffsetBeyondEof \/ advance_width m pf g = Err OffsetPlusLengthBeyondEof).
Proof.
  intros m pf hmtx n g A M. unfold advance_width. rewrite M. cbn [s_count s_start s_size].
  split; [|split].
  - intros ->. reflexivity.
  - intros Hn w H. destruct (u16_ok _ _ _ H) as [_ L]. unfold addressable in A. unfold length_N in L.
    destruct (N.eqb_spec n 0); [contradiction|].
    unfold get_unchecked. cbn [s_start s_size]. rewrite offset_ok by lia. cbn [bind].
    eapply field_u16_ok; [auto|reflexivity|]. rewrite N.add_0_r. exact H.
  - intros Hn L H. destruct (N.eqb_spec n 0); [contradiction|].
    unfold get_unchecked. cbn [s_start s_size]. rewrite offset_ok by lia. cbn [bind].
    unfold field_u16. rewrite (field_ok m _ _ _ 0) by (reflexivity || lia). cbn [bind]. rewrite N.add_0_r.
    destruct (read_u16_outcome (pf_bytes pf) (hmtx + 4 * N.min g (n - 1))) as [(_ & w & R & U)|[(_ & R & _)|(_ & R & _)]];
      [congruence|left|right]; auto.
Qed.

Lemma width_near : forall w u, (Z.pos u < 65536)%Z ->
  (Qabs (round32 (Z.of_N w # u) * inject_Z (Z.pos u) - inject_Z (Z.of_N w)) <= inject_Z (Z.of_N w) * (1 # 16777216))%Q.
Proof.
  intros w u Hu. set (q := (Z.of_N w # u)).
  assert (M : (q * inject_Z (Z.pos u) == inject_Z (Z.of_N w))%Q) by (unfold q, Qeq, Qmult, inject_Z; cbn [Qnum Qden]; lia).
  assert (P : (0 < inject_Z (Z.pos u))%Q) by (unfold Qlt, inject_Z; cbn [Qnum Qden]; lia).
  assert (Q0 : (0 <= q)%Q) by (unfold q, Qle; cbn [Qnum Qden]; lia).
  assert (Nq : normal q).
  { destruct w as [|w]; [left; reflexivity|right]. rewrite Qabs_pos by exact Q0.
    apply Qle_trans with (y := (1 # 65536)%Q); [discriminate|]. unfold q, Qle. cbn [Qnum Qden]. lia. }
  pose proof (round32_near q Nq) as E. rewrite (Qabs_pos q Q0) in E. set (r := round32 q) in *. clearbody r.
  rewrite <- M. assert (X : (r * inject_Z (Z.pos u) - q * inject_Z (Z.pos u) == (r - q) * inject_Z (Z.pos u))%Q) by ring.
  rewrite X, Qabs_Qmult, (Qabs_pos (inject_Z (Z.pos u))) by lra.
  eapply Qle_trans; [apply Qmult_le_compat_r; [exact E|lra]|].
  assert (Y : (q * (1 # 16777216) * inject_Z (Z.pos u) == q * inject_Z (Z.pos u) * (1 # 16777216))%Q) by ring.
  rewrite Y. apply Qle_refl.
Qed.
Lemma thousandths_near : forall w u, (Z.pos u < 65536)%Z ->
  let v := (Z.of_N (1000 * w) # u)%Q in
  let x := round32 (round32 (Z.of_N w # u) * 1000) in
  (Qabs (x - v) <= v * (1 # 4194304))%Q.
Proof.
  intros w u Hu v x.
  pose proof (width_near w u Hu) as E. set (q := round32 (Z.of_N w # u)) in *.
  assert (P : (0 < inject_Z (Z.pos u))%Q) by (unfold Qlt, inject_Z; cbn [Qnum Qden]; lia).
  assert (V : (v * inject_Z (Z.pos u) == 1000 * inject_Z (Z.of_N w))%Q)
    by (unfold v, Qeq, Qmult, inject_Z; cbn [Qnum Qden]; lia).
  assert (V0 : (0 <= v)%Q) by (unfold v, Qle; cbn [Qnum Qden]; lia).
  assert (W0 : w <> 0 -> (1 # 65536 <= v)%Q) by (intro Hw; unfold v, Qle; cbn [Qnum Qden]; lia).
  assert (E1 : (Qabs (q * 1000 - v) <= v * (1 # 16777216))%Q).
  { apply Qmult_le_r with (z := inject_Z (Z.pos u)); [exact P|].
    rewrite <- (Qabs_pos (inject_Z (Z.pos u))) at 1 by lra. rewrite <- Qabs_Qmult.
    assert (X : ((q * 1000 - v) * inject_Z (Z.pos u) == 1000 * (q * inject_Z (Z.pos u) - inject_Z (Z.of_N w)))%Q).
    { setoid_replace ((q * 1000 - v) * inject_Z (Z.pos u))%Q with (q * 1000 * inject_Z (Z.pos u) - v * inject_Z (Z.pos u))%Q by ring.
      rewrite V. ring. }
    rewrite X, Qabs_Qmult. change (Qabs 1000) with 1000%Q.
    setoid_replace (v * (1 # 16777216) * inject_Z (Z.pos u))%Q with (v * inject_Z (Z.pos u) * (1 # 16777216))%Q by ring.
    rewrite V. lra. }
  clear E. clearbody v. clear V P. set (y := (q * 1000)%Q) in *.
  apply Qabs_Qle_condition in E1 as [A1 A2].
  assert (Ny : normal y).
  { destruct (N.eq_dec w 0) as [->|Hw]; [left; reflexivity|right]. specialize (W0 Hw).
    assert (Y : (1 # 131072 <= y)%Q) by lra. rewrite Qabs_pos by lra.
    eapply Qle_trans; [|exact Y]. discriminate. }
  pose proof (round32_near y Ny) as E2. fold x in E2. clearbody x y.
  assert (Y0 : (0 <= y)%Q) by lra. rewrite (Qabs_pos y Y0) in E2. apply Qabs_Qle_condition in E2 as [B1 B2].
  apply Qabs_Qle_condition. split; lra.
Qed.
Lemma of_em_written : forall w u pf, pf_units_per_em pf = Npos u ->
  of_em (to_ems pf (Z.of_N w)) =
  let x := round32 (round32 (Z.of_N w # u) * 1000) in PdfObject.OI32 (Z.quot (Qnum x) (Z.pos (Qden x))).
Proof. intros w u pf E. unfold of_em, to_ems. rewrite E. reflexivity. Qed.
Lemma truncated : forall x, (0 <= x)%Q ->
  let z := Z.quot (Qnum x) (Z.pos (Qden x)) in (inject_Z z <= x)%Q /\ (x < inject_Z (z + 1))%Q.
Proof.
  intros [n d] H z. unfold Qle in H. cbn [Qnum Qden] in *.
  pose proof (Z.quot_rem' n (Z.pos d)) as R. fold z in R. clearbody z.
  assert (B : (0 <= Z.rem n (Z.pos d) < Z.pos d)%Z) by (apply Z.rem_bound_pos; lia).
  unfold Qle, Qlt, inject_Z. cbn [Qnum Qden]. rewrite ?Z.mul_1_r. split; nia.
Qed.
(** Any advance *)
Lemma thousandths_of_width : forall pf u w, pf_units_per_em pf = Npos u -> (Z.pos u < 65536)%Z ->
  exists z, of_em (to_ems pf (Z.of_N w)) = PdfObject.OI32 z /\
    let v := (Z.of_N (1000 * w) # u)%Q in
    (inject_Z z <= v + v * (1 # 4194304))%Q /\ (v - v * (1 # 4194304) < inject_Z (z + 1))%Q.
Proof.
  intros pf u w E Hu. rewrite (of_em_written w u pf E). eexists. split; [reflexivity|]. cbv zeta.
  pose proof (thousandths_near w u Hu) as H. cbv zeta in H. apply Qabs_Qle_condition in H as [H1 H2].
  set (x := round32 (round32 (Z.of_N w # u) * 1000)) in *.
  assert (V0 : (0 <= (Z.of_N (1000 * w) # u))%Q) by (unfold Qle; cbn [Qnum Qden]; lia).
  assert (X0 : (0 <= x)%Q) by lra. destruct (truncated x X0) as [T1 T2]. split; lra.
Qed.
(** An advance small enough *)
Lemma thousandths_of_width_small : forall pf u w, pf_units_per_em pf = Npos u -> (Z.pos u < 65536)%Z -> 1000 * w < 4194304 ->
  exists z, of_em (to_ems pf (Z.of_N w)) = PdfObject.OI32 (Z.of_N z) /\
    (z = 1000 * w / Npos u \/ (1000 * w) mod Npos u = 0 /\ z + 1 = 1000 * w / Npos u).
Proof.
  intros pf u w E Hu Hw. destruct (thousandths_of_width pf u w E Hu) as (z & F & A & B). cbv zeta in A, B.
  pose proof (N.div_mod (1000 * w) (Npos u) ltac:(discriminate)) as D.
  pose proof (N.mod_upper_bound (1000 * w) (Npos u) ltac:(discriminate)) as L.
  set (f := 1000 * w / N.pos u) in *. set (r := (1000 * w) mod N.pos u) in *. set (t := 1000 * w) in *. clearbody f r t.
  assert (V : ((Z.of_N t # u) * inject_Z (Z.pos u) == inject_Z (Z.of_N t))%Q)
    by (unfold Qeq, Qmult, inject_Z; cbn [Qnum Qden]; lia).
  assert (P : (0 < inject_Z (Z.pos u))%Q) by (unfold Qlt, inject_Z; cbn [Qnum Qden]; lia).
  set (v := (Z.of_N t # u)%Q) in *. clearbody v.
  assert (A' : (z * Z.pos u * 4194304 <= Z.of_N t * 4194305)%Z).
  { apply Qmult_le_r with (z := inject_Z (Z.pos u)) in A; [|exact P].
    setoid_replace ((v + v * (1 # 4194304)) * inject_Z (Z.pos u))%Q
      with (v * inject_Z (Z.pos u) * (4194305 # 4194304))%Q in A by ring.
    rewrite V in A. unfold Qle, Qmult, inject_Z in A. cbn [Qnum Qden] in A. lia. }
  assert (B' : (Z.of_N t * 4194303 < (z + 1) * Z.pos u * 4194304)%Z).
  { apply Qmult_lt_r with (z := inject_Z (Z.pos u)) in B; [|exact P].
    setoid_replace ((v - v * (1 # 4194304)) * inject_Z (Z.pos u))%Q
      with (v * inject_Z (Z.pos u) * (4194303 # 4194304))%Q in B by ring.
    rewrite V in B. unfold Qlt, Qmult, inject_Z in B. cbn [Qnum Qden] in B. lia. }
  clear A B V P v.
  assert (Z1 : (z <= Z.of_N f)%Z).
  { destruct (Z_le_gt_dec z (Z.of_N f)) as [X|X]; [exact X|exfalso].
    assert ((Z.of_N f + 1) * Z.pos u <= z * Z.pos u)%Z by nia. nia. }
  assert (Z2 : (Z.of_N f - 1 <= z)%Z).
  { destruct (Z_le_gt_dec (Z.of_N f - 1) z) as [X|X]; [exact X|exfalso].
    assert ((z + 1) * Z.pos u <= (Z.of_N f - 1) * Z.pos u)%Z by nia. nia. }
  destruct (Z.eq_dec z (Z.of_N f)) as [->|Nz].
  { exists f. split; [exact F|]. left. reflexivity. }
  assert (z = Z.of_N f - 1)%Z by lia. subst z.
  destruct (N.eq_dec r 0) as [R|R].
  - destruct (N.eq_dec f 0) as [->|Hf].
    + exfalso. assert (t = 0) by lia. subst t. cbn in B'. lia.
    + exists (f - 1). replace (Z.of_N f - 1)%Z with (Z.of_N (f - 1)) in F by lia. split; [exact F|]. right. split; lia.
  - exfalso. assert (Z.of_N f * Z.pos u <= Z.of_N t - 1)%Z by nia. nia.
Qed.
(** An em of a power of two units *)
Lemma thousandths_of_width_exact : forall pf k w, pf_units_per_em pf = 2 ^ k -> k < 16 -> w < 65536 ->
  of_em (to_ems pf (Z.of_N w)) = PdfObject.OI32 (Z.of_N (1000 * w / 2 ^ k)).
Proof.
  intros pf k w E Hk Hw.
  destruct (2 ^ k) as [|u] eqn:Eu. { exfalso. revert Eu. apply N.pow_nonzero. discriminate. }
  rewrite (of_em_written w u pf E).
  assert (U : inject_Z (Z.pos u) == pow2 (Z.of_N k)).
  { rewrite pow2_Z by lia. change (Z.pos u) with (Z.of_N (Npos u)). rewrite <- Eu, N2Z.inj_pow. reflexivity. }
  assert (V : (Z.of_N w # u) == inject_Z (Z.of_N w) * pow2 (- Z.of_N k)).
  { replace (- Z.of_N k)%Z with (0 - Z.of_N k)%Z by lia. rewrite pow2_minus, <- U. unfold Qeq, Qdiv, Qmult, Qinv, inject_Z. cbn. lia. }
  assert (R1 : round32 (Z.of_N w # u) == (Z.of_N w # u)).
  { rewrite (round32_comp _ _ V), round32_exact by lia. symmetry. exact V. }
  assert (R2 : round32 (round32 (Z.of_N w # u) * 1000) == (Z.of_N (1000 * w) # u)).
  { assert (X : round32 (Z.of_N w # u) * 1000 == inject_Z (Z.of_N w * 125) * pow2 (3 - Z.of_N k)).
    { rewrite R1, V. rewrite inject_Z_mult. replace (3 - Z.of_N k)%Z with (3 + - Z.of_N k)%Z by lia. rewrite pow2_plus.
      change (pow2 3) with 8%Q. change (inject_Z 125) with 125%Q. ring. }
    rewrite (round32_comp _ _ X), round32_exact by lia. rewrite <- X, R1. unfold Qeq, Qmult. cbn [Qnum Qden]. lia. }
  cbv zeta. set (x := round32 (round32 (Z.of_N w # u) * 1000)) in *. clearbody x. f_equal.
  unfold Qeq in R2. cbn [Qnum Qden] in R2. destruct x as [n d]. cbn [Qnum Qden] in *.
  assert (N0 : (0 <= n)%Z) by nia. rewrite Z.quot_div_nonneg by lia. rewrite N2Z.inj_div.
  change (Z.of_N (N.pos u)) with (Z.pos u).
  rewrite <- (Z.div_mul_cancel_r n (Z.pos d) (Z.pos u)) by discriminate.
  rewrite <- (Z.div_mul_cancel_r (Z.of_N (1000 * w)) (Z.pos u) (Z.pos d)) by discriminate.
  f_equal; lia.
Qed.
