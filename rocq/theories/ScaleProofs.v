(** Proofs about the products of [f32] in pdf/convert.rs. *)
From Coq Require Import QArith Qabs Qround Lqa Lia.
From Verif Require Import Base LesterFloat LesterFloatProofs Float32 Float32Proofs PdfObject PdfObjectSpec PdfConvert DecimalProofs Arith32Spec PdfConvertSpec.
From Verif Require Arith32 Arith32Proofs.
Local Open Scope Q_scope.

Definition big : Q := inject_Z (10 ^ 22).
Lemma big_below : big < too_large /\ too_large < pow2 128.
Proof. split; reflexivity. Qed.
Lemma tiny : 0 < pow2 (-150) /\ pow2 (-150) <= 1 # 10000000000000000000000.
Proof. split; [reflexivity|discriminate]. Qed.
Lemma round32_nearest : forall q, Qabs q <= big -> nearest32 q (round32 q).
Proof.
  intros q H. pose proof (round32_error q) as E. pose proof (Arith32Proofs.rounded_nearest q) as N. pose proof tiny as [_ T]. set (t := pow2 (-150)) in *. clearbody t.
  apply Qabs_Qle_condition in E. apply Qabs_Qle_condition in H as H'. pose proof big_below as [B1 B2].
  assert (K : too_large == 340282356779733661637539395458142568448 # 1) by reflexivity. unfold big in *. change (inject_Z (10 ^ 22)) with (10000000000000000000000 # 1) in *.
  assert (I : Arith32.infinity == 340282366920938463463374607431768211456 # 1) by reflexivity.
  destruct (Arith32Proofs.rounded_cases q) as [[A Ea]|[[A Ea]|[A Ea]]]; [exfalso; lra|exfalso; lra|]. rewrite Ea in N. exact N.
Qed.
Lemma nearest32_error : forall q r, Qabs q < too_large -> nearest32 q r -> Qabs (r - q) <= Qabs q * (1 # 16777216) + pow2 (-150).
Proof.
  intros q r H [N _]. destruct (N H) as [_ M]. destruct (Arith32Proofs.rounded_nearest q) as [N' _]. destruct (N' H) as [F _].
  destruct (M _ F) as [L _]. eapply Qle_trans; [exact L|]. pose proof (round32_error q) as E. pose proof (Arith32Proofs.finite32_below _ F) as B.
  destruct (Arith32Proofs.rounded_cases q) as [[A Ea]|[[A Ea]|[A Ea]]]; rewrite Ea in *; [..|exact E].
  - exfalso. vm_compute in B. discriminate B.
  - exfalso. vm_compute in B. discriminate B.
Qed.
(** A size and its product are near each other. *)
Lemma scaled_close : forall size w, Qabs size <= big -> scaled_size size w ->
  Qabs (w - pt size) <= Qabs (pt size) * (1 # 5000000) + (1 # 1000000000000000000000).
Proof.
  intros size w H (s & t & N1 & N2 & N3). pose proof big_below as [B1 B2]. pose proof tiny as [_ T].
  assert (K : too_large == 340282356779733661637539395458142568448 # 1) by reflexivity.
  pose proof (nearest32_error size s ltac:(lra) N1) as E1. unfold pt in *. set (p := pow2 (-150)) in *.
  assert (S1 : Qabs s <= Qabs size + Qabs (s - size)). { eapply Qle_trans; [|apply Qabs_triangle]. apply Qle_lteq. right. apply Qabs_wd. ring. }
  assert (P : Qabs (s * (3 # 4)) == Qabs s * (3 # 4)) by (rewrite Qabs_Qmult; reflexivity).
  assert (P' : Qabs (size * (3 # 4)) == Qabs size * (3 # 4)) by (rewrite Qabs_Qmult; reflexivity).
  unfold big in *. change (inject_Z (10 ^ 22)) with (10000000000000000000000 # 1) in *.
  assert (E2 : Qabs (t - s * (3 # 4)) <= Qabs (s * (3 # 4)) * (1 # 16777216) + p) by (apply nearest32_error; [lra|exact N2]).
  assert (S2 : Qabs t <= Qabs (s * (3 # 4)) + Qabs (t - s * (3 # 4))). { eapply Qle_trans; [|apply Qabs_triangle]. apply Qle_lteq. right. apply Qabs_wd. ring. }
  assert (W : Qabs w < too_large).
  { apply Qnot_le_lt. intros X. destruct N3 as (_ & A & B). assert (I : Qabs Arith32.infinity == 340282366920938463463374607431768211456 # 1) by reflexivity.
    destruct (Arith32Proofs.abs_cases w) as [[_ C]|[_ C]].
    - rewrite C in X. rewrite (Qabs_wd _ _ (A X)), I in S2. lra.
    - rewrite C in X. assert (Y : w <= - too_large) by lra. rewrite (Qabs_wd _ _ (B Y)), Qabs_opp, I in S2. lra. }
  pose proof (nearest32_error w t W N3) as E3. fold p in E3.
  assert (S3 : Qabs w <= Qabs t + Qabs (t - w)). { rewrite <- (Qabs_opp (t - w)). eapply Qle_trans; [|apply Qabs_triangle]. apply Qle_lteq. right. apply Qabs_wd. ring. }
  assert (D : Qabs (w - size * (3 # 4)) <= Qabs (t - w) + (Qabs (t - s * (3 # 4)) + Qabs ((s - size) * (3 # 4)))).
  { rewrite <- (Qabs_opp (t - w)). eapply Qle_trans; [|apply Qplus_le_r; apply Qabs_triangle]. eapply Qle_trans; [|apply Qabs_triangle]. apply Qle_lteq. right. apply Qabs_wd. ring. }
  assert (P2 : Qabs ((s - size) * (3 # 4)) == Qabs (s - size) * (3 # 4)) by (rewrite Qabs_Qmult; reflexivity).
  pose proof (Qabs_nonneg size). clearbody p. lra.
Qed.
Lemma times_scale_scaled : forall d, Qabs (dec_value d) <= inject_Z (10 ^ 20) -> scaled_size (dec_value d) (dec_value (times_scale d)).
Proof.
  intros d H. unfold times_scale. rewrite (round32_comp _ _ (dec_q_value d)). destruct (print32_reads (round32 (dec_value d) * (3 # 4))) as [_ R].
  set (w := dec_value (print32 _)) in *. clearbody w. set (q := dec_value d) in *. clearbody q. pose proof tiny as [_ T].
  change (inject_Z (10 ^ 20)) with (100000000000000000000 # 1) in *.
  assert (K : big == 10000000000000000000000 # 1) by reflexivity.
  exists (round32 q), (round32 (pt (round32 q))). unfold pt in *. pose proof (round32_error q) as E1. pose proof (round32_error (round32 q * (3 # 4))) as E2.
  pose proof (round32_error w) as E3. rewrite R in E3. set (p := pow2 (-150)) in *.
  assert (S1 : Qabs (round32 q) <= Qabs q + Qabs (round32 q - q)). { eapply Qle_trans; [|apply Qabs_triangle]. apply Qle_lteq. right. apply Qabs_wd. ring. }
  assert (P : Qabs (round32 q * (3 # 4)) == Qabs (round32 q) * (3 # 4)) by (rewrite Qabs_Qmult; reflexivity).
  set (t := round32 (round32 q * (3 # 4))) in *.
  assert (S2 : Qabs t <= Qabs (round32 q * (3 # 4)) + Qabs (t - round32 q * (3 # 4))). { eapply Qle_trans; [|apply Qabs_triangle]. apply Qle_lteq. right. apply Qabs_wd. ring. }
  assert (S3 : Qabs w <= Qabs t + Qabs (t - w)). { rewrite <- (Qabs_opp (t - w)). eapply Qle_trans; [|apply Qabs_triangle]. apply Qle_lteq. right. apply Qabs_wd. ring. }
  split; [apply round32_nearest; lra|]. split.
  - apply round32_nearest. lra.
  - rewrite <- R. apply round32_nearest. lra.
Qed.
(** Opacities, times 65535 *)
Lemma alpha_product : forall q, 0 <= q -> q <= 1 -> let r := round32 (round32 q * inject_Z 65535) in
  0 <= r /\ Qabs (r - q * (65535 # 1)) <= 1 # 100.
Proof.
  intros q H0 H1 r. pose proof tiny as [_ T]. pose proof (round32_error q) as E1. pose proof (round32_error (round32 q * inject_Z 65535)) as E2. fold r in E2.
  assert (A : Qabs q == q) by (apply Qabs_pos; exact H0). rewrite A in E1. set (p := pow2 (-150)) in *. clearbody p. set (s := round32 q) in *.
  assert (S0 : 0 <= s).
  { unfold s, round32. rewrite Qred_correct. destruct (Qcompare_spec q 0) as [E|L|G]; [lra|lra|]. unfold round32_positive. apply Qmult_le_0_compat; [|apply Qlt_le_weak, pow2_pos].
    change 0 with (inject_Z 0). rewrite <- Zle_Qle. apply nearest_even_nonneg. apply Qle_shift_div_l; [apply pow2_pos|]. lra. }
  clearbody s. change (inject_Z 65535) with (65535 # 1) in *. assert (A2 : Qabs (s * (65535 # 1)) == s * (65535 # 1)) by (apply Qabs_pos; lra). rewrite A2 in E2.
  split.
  - unfold r. unfold round32. rewrite Qred_correct. destruct (Qcompare_spec (s * (65535 # 1)) 0) as [E|L|G]; [lra|lra|]. unfold round32_positive. apply Qmult_le_0_compat; [|apply Qlt_le_weak, pow2_pos].
    change 0 with (inject_Z 0). rewrite <- Zle_Qle. apply nearest_even_nonneg. apply Qle_shift_div_l; [apply pow2_pos|]. lra.
  - apply Qabs_Qle_condition in E1. apply Qabs_Qle_condition in E2. apply Qabs_Qle_condition. split; lra.
Qed.
