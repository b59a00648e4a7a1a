(** * Rounding to [f64]: order, exactness and error *)

From Coq Require Import List NArith ZArith QArith Qabs Qround Qpower Bool Lia Lqa.
From Verif Require Import LesterFloat.

Local Open Scope Q_scope.

(** ** Powers of two *)

Lemma pow2_pos e : 0 < pow2 e.
Proof. unfold pow2. apply Qpower_0_lt. reflexivity. Qed.

Lemma pow2_nz e : ~ pow2 e == 0.
Proof. intros H. pose proof (pow2_pos e). rewrite H in H0. discriminate. Qed.

Lemma pow2_plus a b : pow2 (a + b) == pow2 a * pow2 b.
Proof. unfold pow2. apply Qpower_plus. discriminate. Qed.

Lemma pow2_le a b : (a <= b)%Z -> pow2 a <= pow2 b.
Proof. intros H. apply Qpower_le_compat_l; [exact H | discriminate]. Qed.

Lemma pow2_lt a b : (a < b)%Z -> pow2 a < pow2 b.
Proof. intros H. apply Qpower_lt_compat_l; [exact H | reflexivity]. Qed.

Lemma pow2_Z e : (0 <= e)%Z -> pow2 e == inject_Z (2 ^ e).
Proof. intros H. unfold pow2. rewrite Zpower_Qpower by exact H. reflexivity. Qed.

Lemma pow2_S e : pow2 (e + 1) == 2 * pow2 e.
Proof. rewrite pow2_plus. change (pow2 1) with 2. ring. Qed.

Lemma pow2_minus a b : pow2 (a - b) == pow2 a / pow2 b.
Proof.
  unfold Qdiv. apply (Qmult_inj_r _ _ (pow2 b) (pow2_nz b)).
  rewrite <- pow2_plus. replace (a - b + b)%Z with a by lia.
  field. apply pow2_nz.
Qed.

(** ** The nearest integer *)

Lemma half_cases q : let f := Qfloor q in
  inject_Z f <= q /\ q < inject_Z f + 1.
Proof.
  intros f. split; [apply Qfloor_le|].
  pose proof (Qlt_floor q) as H. rewrite inject_Z_plus in H. exact H.
Qed.

Lemma nearest_even_bounds q :
  inject_Z (nearest_even q) - (1 # 2) <= q <= inject_Z (nearest_even q) + (1 # 2).
Proof.
  unfold nearest_even. destruct (half_cases q) as [H1 H2].
  destruct (Qcompare_spec (q - inject_Z (Qfloor q)) (1 # 2)) as [E|L|G].
  - destruct (Z.even (Qfloor q)); rewrite ?inject_Z_plus; change (inject_Z 1) with 1; split; lra.
  - split; lra.
  - rewrite inject_Z_plus; change (inject_Z 1) with 1. split; lra.
Qed.

Lemma nearest_even_mono p q : p <= q -> (nearest_even p <= nearest_even q)%Z.
Proof.
  intros H. unfold nearest_even.
  pose proof (Qfloor_resp_le _ _ H) as F.
  destruct (Z.eq_dec (Qfloor p) (Qfloor q)) as [E|N].
  - rewrite E.
    destruct (Qcompare_spec (p - inject_Z (Qfloor q)) (1 # 2)) as [E1|L1|G1];
    destruct (Qcompare_spec (q - inject_Z (Qfloor q)) (1 # 2)) as [E2|L2|G2];
    destruct (Z.even (Qfloor q)); try lia; exfalso; lra.
  - destruct (p - inject_Z (Qfloor p) ?= 1 # 2);
    destruct (q - inject_Z (Qfloor q) ?= 1 # 2);
    destruct (Z.even (Qfloor q)); destruct (Z.even (Qfloor p)); lia.
Qed.

Lemma nearest_even_comp p q : p == q -> nearest_even p = nearest_even q.
Proof.
  intros E. apply Z.le_antisymm; apply nearest_even_mono; rewrite E; apply Qle_refl.
Qed.

Lemma nearest_even_Z n : nearest_even (inject_Z n) = n.
Proof.
  unfold nearest_even. rewrite Qfloor_Z.
  destruct (Qcompare_spec (inject_Z n - inject_Z n) (1 # 2)) as [E|L|G]; try lra; reflexivity.
Qed.

(** Strictly nearer than a half is enough. *)
Lemma nearest_even_near q n :
  inject_Z n - (1 # 2) < q -> q < inject_Z n + (1 # 2) -> nearest_even q = n.
Proof.
  intros H1 H2. destruct (nearest_even_bounds q) as [B1 B2].
  set (m := nearest_even q) in *.
  assert (A : inject_Z m < inject_Z (n + 1)) by (rewrite inject_Z_plus; change (inject_Z 1) with 1; lra).
  assert (B : inject_Z (n - 1) < inject_Z m)
    by (unfold Z.sub; rewrite inject_Z_plus; change (inject_Z (-(1))) with (-(1)); lra).
  rewrite <- Zlt_Qlt in A, B. lia.
Qed.

(** ** The binade *)

Lemma exponent_bounds q : 0 < q ->
  pow2 (exponent q) <= q /\ q < pow2 (exponent q + 1).
Proof.
  intros Hq. destruct q as [n d].
  assert (Hn : (0 < n)%Z) by (unfold Qlt in Hq; cbn in Hq; lia).
  pose proof (Z.log2_spec n Hn) as [A1 A2].
  pose proof (Z.log2_spec (Zpos d) eq_refl) as [B1 B2].
  set (a := Z.log2 n) in *. set (b := Z.log2 (Zpos d)) in *.
  assert (Ha : (0 <= a)%Z) by apply Z.log2_nonneg.
  assert (Hb : (0 <= b)%Z) by apply Z.log2_nonneg.
  assert (E : n # d == inject_Z n / inject_Z (Zpos d)) by (rewrite <- (Qmake_Qdiv n d); reflexivity).
  assert (Dp : 0 < inject_Z (Zpos d)) by reflexivity.
  assert (A1' : pow2 a <= inject_Z n) by (rewrite pow2_Z by lia; rewrite <- Zle_Qle; lia).
  assert (A2' : inject_Z n < pow2 (a + 1)) by (rewrite pow2_Z by lia; rewrite <- Zlt_Qlt; lia).
  assert (B1' : pow2 b <= inject_Z (Zpos d)) by (rewrite pow2_Z by lia; rewrite <- Zle_Qle; lia).
  assert (B2' : inject_Z (Zpos d) < pow2 (b + 1)) by (rewrite pow2_Z by lia; rewrite <- Zlt_Qlt; lia).
  assert (U : n # d < pow2 (a - b + 1)).
  { rewrite E. apply Qlt_shift_div_r; [exact Dp|].
    replace (a - b + 1)%Z with (a + 1 - b)%Z by lia. rewrite pow2_minus.
    apply Qlt_le_trans with (pow2 (a + 1)); [exact A2'|].
    setoid_replace (pow2 (a + 1) / pow2 b * inject_Z (Zpos d)) with (pow2 (a + 1) * (inject_Z (Zpos d) / pow2 b))
      by (field; apply pow2_nz).
    rewrite <- (Qmult_1_r (pow2 (a + 1))) at 1.
    apply Qmult_le_l; [apply pow2_pos|].
    apply Qle_shift_div_l; [apply pow2_pos|]. rewrite Qmult_1_l. exact B1'. }
  assert (L : pow2 (a - b - 1) < n # d).
  { rewrite E. apply Qlt_shift_div_l; [exact Dp|].
    replace (a - b - 1)%Z with (a - (b + 1))%Z by lia. rewrite pow2_minus.
    apply Qlt_le_trans with (pow2 a); [|exact A1'].
    setoid_replace (pow2 a / pow2 (b + 1) * inject_Z (Zpos d)) with (pow2 a * (inject_Z (Zpos d) / pow2 (b + 1)))
      by (field; apply pow2_nz).
    rewrite <- (Qmult_1_r (pow2 a)) at 2.
    apply Qmult_lt_l; [apply pow2_pos|].
    apply Qlt_shift_div_r; [apply pow2_pos|]. rewrite Qmult_1_l. exact B2'. }
  unfold exponent. cbn [Qnum Qden]. fold a b.
  destruct (Qle_bool (pow2 (a - b)) (n # d)) eqn:C.
  - apply Qle_bool_iff in C. split; assumption.
  - split; [apply Qlt_le_weak; exact L|].
    replace (a - b - 1 + 1)%Z with (a - b)%Z by lia.
    apply Qnot_le_lt. intros H. apply Qle_bool_iff in H. congruence.
Qed.

Lemma exponent_unique q e : pow2 e <= q -> q < pow2 (e + 1) -> exponent q = e.
Proof.
  intros H1 H2.
  assert (Hq : 0 < q) by (apply Qlt_le_trans with (pow2 e); [apply pow2_pos | exact H1]).
  destruct (exponent_bounds q Hq) as [A B].
  assert (X : pow2 e < pow2 (exponent q + 1)) by (apply Qle_lt_trans with q; assumption).
  assert (Y : pow2 (exponent q) < pow2 (e + 1)) by (apply Qle_lt_trans with q; assumption).
  apply Qpower_lt_compat_l_inv in X; [|reflexivity].
  apply Qpower_lt_compat_l_inv in Y; [|reflexivity]. lia.
Qed.

(** ** Rounding *)

Definition unit_of q : Z := Z.max (exponent q - 52) (-1074).

Lemma round_positive_eq q :
  round_positive q == inject_Z (nearest_even (q / pow2 (unit_of q))) * pow2 (unit_of q).
Proof. reflexivity. Qed.

Lemma round_positive_le_int q t e : 0 < q -> (0 <= e)%Z -> (t = unit_of q + e)%Z ->
  q <= pow2 t -> round_positive q <= pow2 t.
Proof.
  intros Hq He -> H. rewrite round_positive_eq. rewrite pow2_plus.
  rewrite (Qmult_comm (pow2 (unit_of q))).
  apply Qmult_le_compat_r; [|apply Qlt_le_weak, pow2_pos].
  rewrite (pow2_Z e He). rewrite <- Zle_Qle.
  rewrite <- (nearest_even_Z (2 ^ e)). apply nearest_even_mono.
  rewrite <- pow2_Z by exact He. apply Qle_shift_div_r; [apply pow2_pos|].
  rewrite <- pow2_plus. rewrite Z.add_comm. exact H.
Qed.

Lemma round_positive_ge_int q t e : 0 < q -> (0 <= e)%Z -> (t = unit_of q + e)%Z ->
  pow2 t <= q -> pow2 t <= round_positive q.
Proof.
  intros Hq He -> H. rewrite round_positive_eq. rewrite pow2_plus.
  rewrite (Qmult_comm (pow2 (unit_of q))).
  apply Qmult_le_compat_r; [|apply Qlt_le_weak, pow2_pos].
  rewrite (pow2_Z e He). rewrite <- Zle_Qle.
  rewrite <- (nearest_even_Z (2 ^ e)). apply nearest_even_mono.
  rewrite <- pow2_Z by exact He. apply Qle_shift_div_l; [apply pow2_pos|].
  rewrite <- pow2_plus. rewrite Z.add_comm. exact H.
Qed.

Lemma round_positive_mono p q : 0 < p -> p <= q -> round_positive p <= round_positive q.
Proof.
  intros Hp H.
  assert (Hq : 0 < q) by (apply Qlt_le_trans with p; assumption).
  destruct (exponent_bounds p Hp) as [P1 P2]. destruct (exponent_bounds q Hq) as [Q1 Q2].
  assert (X : pow2 (exponent p) < pow2 (exponent q + 1))
    by (apply Qle_lt_trans with p; [exact P1|]; apply Qle_lt_trans with q; assumption).
  apply Qpower_lt_compat_l_inv in X; [|reflexivity].
  destruct (Z.eq_dec (unit_of p) (unit_of q)) as [E|N].
  - rewrite !round_positive_eq, E.
    apply Qmult_le_compat_r; [|apply Qlt_le_weak, pow2_pos].
    rewrite <- Zle_Qle. apply nearest_even_mono.
    unfold Qdiv. apply Qmult_le_compat_r; [exact H|].
    apply Qlt_le_weak, Qinv_lt_0_compat, pow2_pos.
  - assert (L : (unit_of p < unit_of q)%Z) by (unfold unit_of in *; lia).
    assert (U : unit_of q = (exponent q - 52)%Z) by (unfold unit_of in *; lia).
    apply Qle_trans with (pow2 (exponent q)).
    + apply (round_positive_le_int p (exponent q) (exponent q - unit_of p)); [exact Hp | lia | lia |].
      apply Qle_trans with (pow2 (exponent p + 1)); [apply Qlt_le_weak; exact P2|].
      apply pow2_le. unfold unit_of in *. lia.
    + apply (round_positive_ge_int q (exponent q) 52); [exact Hq | lia | lia | exact Q1].
Qed.

Lemma nearest_even_nonneg q : 0 <= q -> (0 <= nearest_even q)%Z.
Proof. intros H. rewrite <- (nearest_even_Z 0). apply nearest_even_mono. exact H. Qed.

Lemma round_positive_nonneg q : 0 < q -> 0 <= round_positive q.
Proof.
  intros H. rewrite round_positive_eq.
  apply Qmult_le_0_compat; [|apply Qlt_le_weak, pow2_pos].
  change 0 with (inject_Z 0). rewrite <- Zle_Qle. apply nearest_even_nonneg.
  apply Qle_shift_div_l; [apply pow2_pos|]. rewrite Qmult_0_l. apply Qlt_le_weak. exact H.
Qed.

(** Rounding keeps the order of numbers. *)
Theorem round_rational_mono p q : p <= q -> round_rational p <= round_rational q.
Proof.
  intros H. unfold round_rational.
  destruct (Qcompare_spec p 0) as [Ep|Lp|Gp]; destruct (Qcompare_spec q 0) as [Eq_|Lq|Gq];
    try (exfalso; lra); try lra.
  - apply round_positive_nonneg; exact Gq.
  - pose proof (round_positive_nonneg (- p)). lra.
  - pose proof (round_positive_mono (- q) (- p)). lra.
  - pose proof (round_positive_nonneg (- p)). pose proof (round_positive_nonneg q). lra.
  - apply round_positive_mono; assumption.
Qed.

Lemma round_rational_comp p q : p == q -> round_rational p == round_rational q.
Proof.
  intros E. apply Qle_antisym; apply round_rational_mono; rewrite E; apply Qle_refl.
Qed.

(** Numbers of at most 53 bits are kept. *)
Lemma round_positive_exact m e : (0 < m)%Z -> (m <= 2 ^ 53)%Z -> (-1074 <= e)%Z ->
  round_positive (inject_Z m * pow2 e) == inject_Z m * pow2 e.
Proof.
  intros Hm Hm' He. set (q := inject_Z m * pow2 e).
  assert (Hq : 0 < q).
  { unfold q. apply Qmult_lt_0_compat; [|apply pow2_pos]. change 0 with (inject_Z 0).
    rewrite <- Zlt_Qlt. exact Hm. }
  destruct (exponent_bounds q Hq) as [B1 B2].
  rewrite round_positive_eq. fold q.
  destruct (Z.eq_dec m (2 ^ 53)) as [E53|N53].
  - assert (Eq1 : q == pow2 (53 + e)) by (unfold q; rewrite E53, pow2_plus, (pow2_Z 53) by lia; reflexivity).
    assert (EX : exponent q = (53 + e)%Z).
    { apply exponent_unique; rewrite Eq1; [apply Qle_refl | apply pow2_lt; lia]. }
    assert (EU : unit_of q = (e + 1)%Z) by (unfold unit_of; lia).
    rewrite EU.
    rewrite (nearest_even_comp _ (inject_Z (2 ^ 52))).
    + rewrite nearest_even_Z. rewrite <- (pow2_Z 52) by lia. rewrite <- pow2_plus. rewrite Eq1.
      replace (52 + (e + 1))%Z with (53 + e)%Z by lia. reflexivity.
    + rewrite Eq1. rewrite <- (pow2_Z 52) by lia. rewrite <- pow2_minus.
      replace (53 + e - (e + 1))%Z with 52%Z by lia. reflexivity.
  - assert (Lt1 : q < pow2 (53 + e)).
    { unfold q. rewrite pow2_plus, (pow2_Z 53) by lia.
      apply Qmult_lt_compat_r; [apply pow2_pos|]. rewrite <- Zlt_Qlt. lia. }
    assert (X : pow2 (exponent q) < pow2 (53 + e)) by (apply Qle_lt_trans with q; assumption).
    apply Qpower_lt_compat_l_inv in X; [|reflexivity].
    assert (U : (unit_of q <= e)%Z) by (unfold unit_of; lia).
    assert (EI : q / pow2 (unit_of q) == inject_Z (m * 2 ^ (e - unit_of q))).
    { generalize dependent (unit_of q). intros u U. unfold q.
      rewrite inject_Z_mult. rewrite <- (pow2_Z (e - u)) by lia.
      rewrite pow2_minus. field. apply pow2_nz. }
    rewrite (nearest_even_comp _ _ EI), nearest_even_Z.
    rewrite <- EI. fold q. unfold Qdiv. rewrite <- Qmult_assoc, (Qmult_comm (/ _)), Qmult_inv_r by apply pow2_nz.
    ring.
Qed.

Lemma round_rational_opp q : round_rational (- q) == - round_rational q.
Proof.
  unfold round_rational.
  destruct (Qcompare_spec q 0) as [E|L|G]; destruct (Qcompare_spec (- q) 0) as [E'|L'|G']; try (exfalso; lra).
  - reflexivity.
  - lra.
  - pose proof (round_positive_mono (- - q) q) as A. pose proof (round_positive_mono q (- - q)) as B.
    assert (round_positive (- - q) == round_positive q) as ->; [|reflexivity].
    apply Qle_antisym; [apply A | apply B]; lra.
Qed.

(** The numbers that [f64] has (but for its limit of 2^1024). *)
Definition representable (q : Q) : Prop :=
  exists m e, (- 2 ^ 53 <= m <= 2 ^ 53)%Z /\ (-1074 <= e)%Z /\ q == inject_Z m * pow2 e.

Theorem round_rational_exact q : representable q -> round_rational q == q.
Proof.
  intros (m & e & Hm & He & E). rewrite (round_rational_comp _ _ E). rewrite E.
  destruct (Z.eq_dec m 0) as [->|N].
  - assert (Z0 : inject_Z 0 * pow2 e == 0) by (change (inject_Z 0) with 0; ring).
    rewrite (round_rational_comp _ _ Z0), Z0. reflexivity.
  - destruct (Z.lt_trichotomy m 0) as [L|[?|G]]; [|contradiction|].
    + assert (N' : inject_Z m * pow2 e == - (inject_Z (- m) * pow2 e)) by (rewrite inject_Z_opp; ring).
      rewrite (round_rational_comp _ _ N'), round_rational_opp, N'.
      apply Qopp_comp. unfold round_rational.
      assert (P : 0 < inject_Z (- m) * pow2 e).
      { apply Qmult_lt_0_compat; [|apply pow2_pos]. change 0 with (inject_Z 0). rewrite <- Zlt_Qlt. lia. }
      destruct (Qcompare_spec (inject_Z (- m) * pow2 e) 0) as [E0|L0|G0]; try (exfalso; lra).
      apply round_positive_exact; lia.
    + unfold round_rational.
      assert (P : 0 < inject_Z m * pow2 e).
      { apply Qmult_lt_0_compat; [|apply pow2_pos]. change 0 with (inject_Z 0). rewrite <- Zlt_Qlt. lia. }
      destruct (Qcompare_spec (inject_Z m * pow2 e) 0) as [E0|L0|G0]; try (exfalso; lra).
      apply round_positive_exact; lia.
Qed.

Lemma representable_Z n : (- 2 ^ 53 <= n <= 2 ^ 53)%Z -> representable (inject_Z n).
Proof.
  intros H. exists n, 0%Z. split; [exact H|]. split; [lia|]. change (pow2 0) with 1. ring.
Qed.

(** A rounded number is one of [f64]'s. *)
Lemma nearest_even_le_Z q n : q <= inject_Z n -> (nearest_even q <= n)%Z.
Proof. intros H. rewrite <- (nearest_even_Z n). apply nearest_even_mono. exact H. Qed.

Lemma round_positive_representable q : 0 < q -> representable (round_positive q).
Proof.
  intros Hq. exists (nearest_even (q / pow2 (unit_of q))), (unit_of q).
  destruct (exponent_bounds q Hq) as [B1 B2].
  split; [|split].
  - assert (0 <= nearest_even (q / pow2 (unit_of q)))%Z.
    { apply nearest_even_nonneg. apply Qle_shift_div_l; [apply pow2_pos|]. rewrite Qmult_0_l.
      apply Qlt_le_weak. exact Hq. }
    split; [lia|]. apply nearest_even_le_Z. rewrite <- (pow2_Z 53) by lia.
    apply Qle_shift_div_r; [apply pow2_pos|]. rewrite <- pow2_plus.
    apply Qle_trans with (pow2 (exponent q + 1)); [apply Qlt_le_weak; exact B2|].
    apply pow2_le. unfold unit_of. lia.
  - unfold unit_of. lia.
  - apply round_positive_eq.
Qed.

Theorem round_rational_representable q : representable (round_rational q).
Proof.
  unfold round_rational. destruct (Qcompare_spec q 0) as [E|L|G].
  - apply (representable_Z 0). lia.
  - destruct (round_positive_representable (- q)) as (m & e & Hm & He & E); [lra|].
    exists (- m)%Z, e. split; [lia|]. split; [exact He|]. rewrite E, inject_Z_opp. ring.
  - apply round_positive_representable. exact G.
Qed.

(** The relative error of a number that is not tiny. *)
Theorem round_rational_error q : pow2 (-1022) <= q ->
  q * (1 - pow2 (-53)) <= round_rational q /\ round_rational q <= q * (1 + pow2 (-53)).
Proof.
  intros H. assert (Hq : 0 < q) by (apply Qlt_le_trans with (pow2 (-1022)); [apply pow2_pos | exact H]).
  unfold round_rational. destruct (Qcompare_spec q 0) as [E|L|G]; try (exfalso; lra).
  destruct (exponent_bounds q Hq) as [B1 B2].
  assert (X : pow2 (-1022) < pow2 (exponent q + 1)) by (apply Qle_lt_trans with q; assumption).
  apply Qpower_lt_compat_l_inv in X; [|reflexivity].
  assert (U : unit_of q = (exponent q - 52)%Z) by (unfold unit_of; lia).
  assert (D : round_positive q == inject_Z (nearest_even (q / pow2 (unit_of q))) * pow2 (unit_of q))
    by apply round_positive_eq.
  destruct (nearest_even_bounds (q / pow2 (unit_of q))) as [N1 N2].
  set (n := inject_Z (nearest_even (q / pow2 (unit_of q)))) in *.
  set (u := pow2 (unit_of q)) in *.
  assert (Pu : 0 < u) by apply pow2_pos.
  assert (Q' : q / u * u == q) by (field; apply pow2_nz).
  assert (Hu : u * (1 # 2) <= q * pow2 (-53)).
  { unfold u. rewrite U. unfold Z.sub. rewrite pow2_plus.
    setoid_replace (pow2 (exponent q) * pow2 (- (52)) * (1 # 2)) with (pow2 (exponent q) * pow2 (-53)).
    - apply Qmult_le_compat_r; [exact B1 | apply Qlt_le_weak, pow2_pos].
    - change (-53)%Z with (- (52) + -1)%Z. rewrite (pow2_plus (- (52)) (-1)).
      change (pow2 (-1)) with (1 # 2). ring. }
  assert (M1 : (n - (1 # 2)) * u <= q) by (rewrite <- Q' at 1; apply Qmult_le_compat_r; lra).
  assert (M2 : q <= (n + (1 # 2)) * u) by (rewrite <- Q' at 1; apply Qmult_le_compat_r; lra).
  rewrite D. split; lra.
Qed.
