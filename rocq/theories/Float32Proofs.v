(** Proofs about [round32]. *)
From Coq Require Import QArith Qabs Lqa Lia.
From Verif Require Import LesterFloat LesterFloatProofs Float32.
Local Open Scope Q_scope.

Lemma nearest_even_abs : forall x, Qabs (inject_Z (nearest_even x) - x) <= 1 # 2.
Proof. intros x. apply Qabs_Qle_condition. destruct (nearest_even_bounds x). split; lra. Qed.

(** The relative error of a number that is not tiny *)
Lemma round32_positive_near : forall q, pow2 (-126) <= q -> Qabs (round32_positive q - q) <= q * (1 # 16777216).
Proof.
  intros q H. assert (Hq : 0 < q) by (eapply Qlt_le_trans; [apply pow2_pos|exact H]).
  destruct (exponent_bounds q Hq) as [B1 B2].
  assert (E : (-126 <= exponent q)%Z).
  { destruct (Z_lt_le_dec (exponent q) (-126)) as [L|L]; [|exact L]. exfalso.
    assert (X : pow2 (exponent q + 1) <= pow2 (-126)) by (apply pow2_le; lia).
    assert (Y : q < q) by (eapply Qlt_le_trans; [exact B2|]; eapply Qle_trans; [exact X|exact H]). revert Y. apply Qlt_irrefl. }
  unfold round32_positive. rewrite Z.max_l by lia. set (u := (exponent q - 23)%Z).
  assert (Pu : 0 < pow2 u) by apply pow2_pos.
  assert (R : inject_Z (nearest_even (q / pow2 u)) * pow2 u - q == (inject_Z (nearest_even (q / pow2 u)) - q / pow2 u) * pow2 u)
    by (field; apply pow2_nz).
  rewrite R, Qabs_Qmult. rewrite (Qabs_pos (pow2 u)) by (apply Qlt_le_weak; exact Pu).
  eapply Qle_trans; [apply Qmult_le_compat_r; [apply nearest_even_abs|apply Qlt_le_weak; exact Pu]|].
  assert (P : pow2 u == pow2 (exponent q) * (1 # 8388608)) by (unfold u; rewrite pow2_minus; unfold Qdiv; apply Qmult_comp; reflexivity).
  rewrite P. lra.
Qed.
(** Numbers of 24 bits are kept. *)
Lemma round32_positive_exact : forall m e, (0 < m < 2 ^ 24)%Z -> (-149 <= e)%Z ->
  round32_positive (inject_Z m * pow2 e) == inject_Z m * pow2 e.
Proof.
  intros m e Hm He. set (q := inject_Z m * pow2 e).
  assert (Hq : 0 < q).
  { unfold q. apply Qmult_lt_0_compat; [|apply pow2_pos]. change 0 with (inject_Z 0). rewrite <- Zlt_Qlt. lia. }
  destruct (exponent_bounds q Hq) as [B1 B2].
  assert (X : (exponent q < e + 24)%Z).
  { destruct (Z_lt_le_dec (exponent q) (e + 24)) as [L|L]; [exact L|]. exfalso.
    assert (Y : pow2 (e + 24) <= q) by (eapply Qle_trans; [apply pow2_le; exact L|exact B1]).
    unfold q in Y. rewrite pow2_plus, (Qmult_comm (pow2 e)) in Y. apply Qmult_lt_0_le_reg_r in Y; [|apply pow2_pos].
    rewrite (pow2_Z 24) in Y by lia. rewrite <- Zle_Qle in Y. lia. }
  unfold round32_positive. set (u := Z.max (exponent q - 23) (-149)).
  assert (Hu : (u <= e)%Z) by (unfold u; lia).
  assert (D : q / pow2 u == inject_Z (m * 2 ^ (e - u))).
  { rewrite inject_Z_mult, <- pow2_Z, pow2_minus by lia. unfold q. field. apply pow2_nz. }
  rewrite (nearest_even_comp _ _ D), nearest_even_Z, <- D. field. apply pow2_nz.
Qed.
Lemma exponent_comp : forall p q, 0 < p -> p == q -> exponent p = exponent q.
Proof.
  intros p q Hp E. destruct (exponent_bounds p Hp). symmetry. apply exponent_unique; rewrite <- E; assumption.
Qed.
Lemma round32_positive_comp : forall p q, 0 < p -> p == q -> round32_positive p == round32_positive q.
Proof.
  intros p q Hp E. unfold round32_positive. rewrite <- (exponent_comp p q Hp E).
  set (u := Z.max (exponent p - 23) (-149)). clearbody u.
  rewrite (nearest_even_comp (p / pow2 u) (q / pow2 u)); [reflexivity|]. rewrite E. reflexivity.
Qed.

(** The error of any number *)
Lemma round32_positive_error : forall q, 0 < q -> Qabs (round32_positive q - q) <= q * (1 # 16777216) + pow2 (-150).
Proof.
  intros q Hq. destruct (exponent_bounds q Hq) as [B1 B2].
  unfold round32_positive. set (u := Z.max (exponent q - 23) (-149)).
  assert (Pu : 0 < pow2 u) by apply pow2_pos.
  assert (R : inject_Z (nearest_even (q / pow2 u)) * pow2 u - q == (inject_Z (nearest_even (q / pow2 u)) - q / pow2 u) * pow2 u)
    by (field; apply pow2_nz).
  rewrite R, Qabs_Qmult. rewrite (Qabs_pos (pow2 u)) by (apply Qlt_le_weak; exact Pu).
  eapply Qle_trans; [apply Qmult_le_compat_r; [apply nearest_even_abs|apply Qlt_le_weak; exact Pu]|].
  assert (P1 : 0 < pow2 (-150)) by apply pow2_pos.
  destruct (Z.max_spec (exponent q - 23) (-149)) as [[_ E]|[_ E]]; fold u in E; rewrite E.
  - assert (X : pow2 (-149) == 2 * pow2 (-150)) by reflexivity. rewrite X. lra.
  - assert (P : pow2 (exponent q - 23) == pow2 (exponent q) * (1 # 8388608)) by (rewrite pow2_minus; unfold Qdiv; apply Qmult_comp; reflexivity).
    rewrite P. lra.
Qed.
Lemma round32_error : forall q, Qabs (round32 q - q) <= Qabs q * (1 # 16777216) + pow2 (-150).
Proof.
  intros q. unfold round32. rewrite Qred_correct. destruct (Qcompare_spec q 0) as [E|L|G].
  - rewrite E. discriminate.
  - assert (A : Qabs q == - q) by (apply Qabs_neg; lra). rewrite A.
    assert (N : 0 < - q) by lra.
    pose proof (round32_positive_error _ N) as H. rewrite <- (Qabs_opp (- round32_positive (- q) - q)).
    assert (X : - (- round32_positive (- q) - q) == round32_positive (- q) - - q) by ring. rewrite X. exact H.
  - assert (A : Qabs q == q) by (apply Qabs_pos; lra). rewrite A. apply round32_positive_error. exact G.
Qed.

(** Either zero, or not tiny *)
Definition normal (q : Q) : Prop := q == 0 \/ pow2 (-126) <= Qabs q.
Lemma round32_near : forall q, normal q -> Qabs (round32 q - q) <= Qabs q * (1 # 16777216).
Proof.
  intros q N. unfold round32. rewrite Qred_correct. destruct (Qcompare_spec q 0) as [E|L|G].
  - rewrite E. discriminate.
  - assert (A : Qabs q == - q) by (apply Qabs_neg; lra). rewrite A.
    assert (N' : pow2 (-126) <= - q) by (destruct N as [N|N]; [lra|rewrite A in N; exact N]).
    pose proof (round32_positive_near _ N') as H. rewrite <- (Qabs_opp (- round32_positive (- q) - q)).
    assert (X : - (- round32_positive (- q) - q) == round32_positive (- q) - - q) by ring. rewrite X. exact H.
  - assert (A : Qabs q == q) by (apply Qabs_pos; lra). rewrite A.
    apply round32_positive_near. destruct N as [N|N]; [lra|rewrite A in N; exact N].
Qed.
Lemma round32_exact : forall m e, (Z.abs m < 2 ^ 24)%Z -> (-149 <= e)%Z -> round32 (inject_Z m * pow2 e) == inject_Z m * pow2 e.
Proof.
  intros m e Hm He. unfold round32. rewrite Qred_correct. pose proof (pow2_pos e) as P.
  destruct (Qcompare_spec (inject_Z m * pow2 e) 0) as [E|L|G].
  - rewrite E. reflexivity.
  - assert (M : (m < 0)%Z).
    { destruct (Z_lt_le_dec m 0) as [X|X]; [exact X|]. exfalso.
      assert (0 <= inject_Z m * pow2 e) by (apply Qmult_le_0_compat; [change 0 with (inject_Z 0); rewrite <- Zle_Qle; exact X|lra]). lra. }
    assert (X : - (inject_Z m * pow2 e) == inject_Z (- m) * pow2 e) by (rewrite inject_Z_opp; ring).
    assert (Y : 0 < - (inject_Z m * pow2 e)) by lra.
    rewrite (round32_positive_comp _ _ Y X), round32_positive_exact by lia. rewrite inject_Z_opp. ring.
  - assert (M : (0 < m)%Z).
    { destruct (Z_lt_le_dec 0 m) as [X|X]; [exact X|]. exfalso.
      assert (Y : inject_Z m <= 0) by (change 0 with (inject_Z 0); rewrite <- Zle_Qle; exact X). nra. }
    apply round32_positive_exact; lia.
Qed.
Lemma round32_comp : forall p q, p == q -> round32 p = round32 q.
Proof.
  intros p q E. unfold round32. apply Qred_complete.
  destruct (Qcompare_spec p 0) as [Ep|Lp|Gp]; destruct (Qcompare_spec q 0) as [Eq_|Lq|Gq]; try (exfalso; lra).
  - reflexivity.
  - apply Qopp_comp. apply round32_positive_comp; lra.
  - apply round32_positive_comp; lra.
Qed.

Lemma round32_opp : forall q, round32 (- q) == - round32 q.
Proof.
  intros q. unfold round32. rewrite !Qred_correct.
  destruct (Qcompare_spec q 0) as [E|L|G]; destruct (Qcompare_spec (- q) 0) as [E'|L'|G']; try (exfalso; lra).
  - reflexivity.
  - rewrite Qopp_involutive. reflexivity.
  - apply Qopp_comp. apply round32_positive_comp; [lra|ring].
Qed.
Lemma nearest_even_bound : forall q n, 0 <= q -> q <= inject_Z n -> (0 <= nearest_even q <= n)%Z.
Proof.
  intros q n H0 H. pose proof (nearest_even_bounds q) as [B1 B2].
  assert (A : (-1 < nearest_even q)%Z) by (rewrite Zlt_Qlt; change (inject_Z (-1)) with (-1); lra).
  assert (B : (nearest_even q < n + 1)%Z) by (rewrite Zlt_Qlt, inject_Z_plus; change (inject_Z 1) with 1; lra). lia.
Qed.
(** A mantissa of 24 bits, or the next one *)
Lemma round32_positive_mantissa : forall q, 0 < q ->
  let u := Z.max (exponent q - 23) (-149) in let m := nearest_even (q / pow2 u) in
  round32 q == inject_Z m * pow2 u /\ (0 <= m <= 2 ^ 24)%Z /\ (-149 <= u)%Z.
Proof.
  intros q Hq u m. split; [|split].
  - unfold round32. rewrite Qred_correct. destruct (Qcompare_spec q 0) as [E|L|G]; [lra|lra|reflexivity].
  - apply nearest_even_bound.
    + apply Qle_shift_div_l; [apply pow2_pos|]. lra.
    + apply Qle_shift_div_r; [apply pow2_pos|]. rewrite <- pow2_Z by lia. rewrite <- pow2_plus.
      destruct (exponent_bounds q Hq) as [_ B]. eapply Qle_trans; [apply Qlt_le_weak; exact B|]. apply pow2_le. unfold u. lia.
  - unfold u. lia.
Qed.
Lemma round32_of_mantissa : forall m e, (0 <= m <= 2 ^ 24)%Z -> (-149 <= e)%Z -> round32 (inject_Z m * pow2 e) == inject_Z m * pow2 e.
Proof.
  intros m e Hm He. destruct (Z.eq_dec m (2 ^ 24)) as [->|N].
  - assert (X : inject_Z (2 ^ 24) * pow2 e == inject_Z (2 ^ 23) * pow2 (e + 1)).
    { rewrite pow2_plus. change (pow2 1) with 2. change (inject_Z (2 ^ 24)) with (16777216 # 1). change (inject_Z (2 ^ 23)) with (8388608 # 1). ring. }
    rewrite (round32_comp _ _ X), round32_exact by lia. symmetry. exact X.
  - apply round32_exact; lia.
Qed.
Lemma round32_reduced : forall q, Qred (round32 q) = round32 q.
Proof. intros q. unfold round32. apply Qred_complete. apply Qred_correct. Qed.
Lemma round32_eq : forall p q, round32 p == round32 q -> round32 p = round32 q.
Proof. intros p q H. rewrite <- (round32_reduced p), <- (round32_reduced q). apply Qred_complete. exact H. Qed.
Lemma round32_idempotent : forall q, round32 (round32 q) = round32 q.
Proof.
  assert (P : forall q, 0 < q -> round32 (round32 q) == round32 q).
  { intros q Hq. destruct (round32_positive_mantissa q Hq) as (E & Hm & Hu). cbv zeta in *.
    rewrite (round32_comp _ _ E), round32_of_mantissa by assumption. symmetry. exact E. }
  intros q. apply round32_eq. destruct (Qcompare_spec q 0) as [E|L|G].
  - rewrite (round32_comp _ _ E). reflexivity.
  - assert (E : round32 q == - round32 (- q)) by (rewrite <- round32_opp; rewrite (round32_comp (- - q) q) by ring; reflexivity).
    rewrite (round32_comp _ _ E), round32_opp, P by lra. symmetry. exact E.
  - apply P. exact G.
Qed.
Lemma round32_of_positive : forall q, 0 < q -> round32 q == round32_positive q.
Proof. intros q H. unfold round32. rewrite Qred_correct. destruct (Qcompare_spec q 0); lra. Qed.
