(** The operations of [f32] are rounded to the nearest number. *)
From Coq Require Import QArith Qabs Qpower Qround Qminmax Lqa Lia.
From Verif Require Import LesterFloat LesterFloatProofs Float32 Float32Proofs Arith32 Arith32Spec.
Local Open Scope Q_scope.

Lemma abs_cases : forall x, (0 <= x /\ Qabs x == x) \/ (x <= 0 /\ Qabs x == - x).
Proof. intros x. destruct (Qlt_le_dec x 0); [right|left]; split; try lra. apply Qabs_neg; lra. apply Qabs_pos; lra. Qed.
Ltac qabs := repeat match goal with
  | |- context [Qabs ?x] => let h := fresh in destruct (abs_cases x) as [[? h]|[? h]]; rewrite ?h in *; clear h
  | H : context [Qabs ?x] |- _ => let h := fresh in destruct (abs_cases x) as [[? h]|[? h]]; rewrite ?h in *; clear h
  end.
Lemma between : forall n k : Z, n <> k -> inject_Z n + 1 <= inject_Z k \/ inject_Z k + 1 <= inject_Z n.
Proof. intros n k H. change 1 with (inject_Z 1). rewrite <- !inject_Z_plus, <- !Zle_Qle. lia. Qed.
Lemma nearest_even_tie : forall t, inject_Z (nearest_even t) + (1 # 2) == t \/ inject_Z (nearest_even t) - (1 # 2) == t -> Z.even (nearest_even t) = true.
Proof.
  intros t. unfold nearest_even. destruct (Qcompare_spec (t - inject_Z (Qfloor t)) (1 # 2)) as [E|L|G]; intros H.
  - destruct (Z.even (Qfloor t)) eqn:Ev; [exact Ev|]. rewrite Z.even_add, Ev. reflexivity.
  - exfalso. pose proof (Qfloor_le t). destruct H; lra.
  - exfalso. pose proof (Qlt_floor t). rewrite inject_Z_plus in *. change (inject_Z 1) with 1 in *. destruct H; lra.
Qed.
Lemma nearest_even_best : forall t k, Qabs (inject_Z (nearest_even t) - t) <= Qabs (inject_Z k - t) /\
  (Qabs (inject_Z (nearest_even t) - t) == Qabs (inject_Z k - t) -> k = nearest_even t \/
   Z.even (nearest_even t) = true /\ Qabs (inject_Z k - inject_Z (nearest_even t)) == 1).
Proof.
  intros t k. pose proof (nearest_even_bounds t) as [B1 B2]. pose proof (nearest_even_tie t) as T. set (n := nearest_even t) in *.
  destruct (Z.eq_dec k n) as [->|N]; [split; [lra|left; reflexivity]|].
  destruct (between k n N) as [H|H].
  - split; [qabs; lra|]. intros E. right. assert (inject_Z n == t + (1 # 2) /\ inject_Z k == t - (1 # 2)) as [E1 E2] by (qabs; lra).
    split; [apply T; right; lra|]. qabs; lra.
  - split; [qabs; lra|]. intros E. right. assert (inject_Z n == t - (1 # 2) /\ inject_Z k == t + (1 # 2)) as [E1 E2] by (qabs; lra).
    split; [apply T; left; lra|]. qabs; lra.
Qed.

(** ** A positive number *)
Section Positive.
Variable q : Q.
Hypothesis Hq : 0 < q.
Let u := Z.max (exponent q - 23) (-149).
Let n := nearest_even (q / pow2 u).
Let r := inject_Z n * pow2 u.
Lemma on_grid : forall x k, x == inject_Z k * pow2 u -> Qabs (r - q) <= Qabs (x - q) /\
  (Qabs (r - q) == Qabs (x - q) -> x == r \/ exists m, r == inject_Z (2 * m) * pow2 u /\ Qabs (x - r) == pow2 u).
Proof.
  intros x k Ex. pose proof (pow2_pos u) as Pu.
  assert (D : forall j, Qabs (inject_Z j * pow2 u - q) == Qabs (inject_Z j - q / pow2 u) * pow2 u).
  { intros j. rewrite <- (Qabs_pos (pow2 u)) at 3 by lra. rewrite <- Qabs_Qmult. apply Qabs_wd. field. lra. }
  rewrite Ex. destruct (nearest_even_best (q / pow2 u) k) as [B1 B2]. fold n in B1, B2. unfold r at 1 2. rewrite !D. split.
  - apply Qmult_le_compat_r; [exact B1|lra].
  - intros E. apply Qmult_inj_r in E; [|lra]. destruct (B2 E) as [->|[Ev E1]]; [left; reflexivity|right].
    apply Z.even_spec in Ev as [m Hm]. exists m. split; [unfold r; rewrite Hm; reflexivity|].
    unfold r. rewrite Ex. setoid_replace (inject_Z k * pow2 u - inject_Z n * pow2 u) with ((inject_Z k - inject_Z n) * pow2 u) by ring.
    rewrite Qabs_Qmult, E1, (Qabs_pos (pow2 u)) by lra. ring.
Qed.
Lemma shift : forall m e, (u <= e)%Z -> inject_Z m * pow2 e == inject_Z (m * 2 ^ (e - u)) * pow2 u.
Proof. intros m e H. rewrite inject_Z_mult, <- pow2_Z by lia. rewrite <- Qmult_assoc, <- pow2_plus. replace (e - u + u)%Z with e by lia. reflexivity. Qed.
Lemma binade_on_grid : (-149 <= exponent q - 23)%Z -> pow2 (exponent q) == inject_Z (2 ^ 23) * pow2 u.
Proof. intros H. rewrite <- pow2_Z by lia. rewrite <- pow2_plus. replace (23 + u)%Z with (exponent q) by lia. reflexivity. Qed.
Lemma numbers : forall x, finite32 x -> (exists k, x == inject_Z k * pow2 u) \/ ((-149 <= exponent q - 23)%Z /\ x < pow2 (exponent q)).
Proof.
  intros x (m & e & Hm & He & Ex). destruct (Z_le_gt_dec u e) as [H|H]; [left; exists (m * 2 ^ (e - u))%Z; rewrite Ex; apply shift; exact H|].
  right. split; [lia|]. rewrite Ex. replace (exponent q) with (24 + (u - 1))%Z by lia. rewrite pow2_plus, (pow2_Z 24) by lia.
  pose proof (pow2_pos e) as Pe. pose proof (pow2_le e (u - 1) ltac:(lia)) as L.
  assert (M : inject_Z m < inject_Z (2 ^ 24)) by (rewrite <- Zlt_Qlt; lia).
  apply Qlt_le_trans with (inject_Z (2 ^ 24) * pow2 e).
  - apply Qmult_lt_r; assumption.
  - apply Qmult_le_l; [reflexivity|exact L].
Qed.
Lemma best : forall x, finite32 x -> Qabs (r - q) <= Qabs (x - q) /\
  (Qabs (r - q) == Qabs (x - q) -> x == r \/ exists m, r == inject_Z (2 * m) * pow2 u /\ Qabs (x - r) == pow2 u).
Proof.
  intros x Hx. destruct (numbers x Hx) as [[k E]|[He L]]; [exact (on_grid x k E)|].
  destruct (exponent_bounds q Hq) as [B1 B2]. pose proof (proj1 (on_grid _ _ (binade_on_grid He))) as G.
  assert (X : Qabs (r - q) < Qabs (x - q)) by (qabs; lra). split; [lra|]. intros E. lra.
Qed.
Lemma mantissa_bound : (0 <= n <= 2 ^ 24)%Z.
Proof. exact (proj1 (proj2 (round32_positive_mantissa q Hq))). Qed.
Lemma exponent_below : q < pow2 128 -> (u <= 104)%Z.
Proof.
  intros H. destruct (exponent_bounds q Hq) as [B1 B2]. assert (exponent q < 128)%Z; [|lia].
  destruct (Z_lt_le_dec (exponent q) 128) as [L|L]; [exact L|]. pose proof (pow2_le _ _ L). lra.
Qed.
Lemma small : q < too_large -> finite32 r.
Proof.
  intros H. unfold too_large in H. pose proof (pow2_pos 103). assert (U := exponent_below ltac:(lra)). pose proof mantissa_bound as M.
  destruct (Z.eq_dec n (2 ^ 24)) as [E|N]; [|exists n, u; repeat split; try lia; reflexivity].
  exists (2 ^ 23)%Z, (u + 1)%Z. split; [lia|]. split.
  - split; [lia|]. destruct (Z.eq_dec u 104) as [E4|]; [|lia]. exfalso.
    pose proof (nearest_even_bounds (q / pow2 u)) as [B _]. fold n in B. rewrite E, E4 in B.
    assert (q / pow2 104 < inject_Z (2 ^ 24) - (1 # 2)); [|lra].
    apply Qlt_shift_div_r; [apply pow2_pos|]. setoid_replace ((inject_Z (2 ^ 24) - (1 # 2)) * pow2 104) with (pow2 128 - pow2 103) by reflexivity. exact H.
  - unfold r. rewrite E, pow2_S. change (inject_Z (2 ^ 24)) with (16777216 # 1). change (inject_Z (2 ^ 23)) with (8388608 # 1). ring.
Qed.
Lemma large : too_large <= q -> pow2 128 <= r.
Proof.
  intros H. destruct (Qlt_le_dec q (pow2 128)) as [L|L].
  - assert (U := exponent_below L). assert (Ex : exponent q = 127%Z).
    { destruct (exponent_bounds q Hq) as [B1 B2]. assert (127 < exponent q + 1)%Z; [|lia].
      destruct (Z_lt_le_dec 127 (exponent q + 1)) as [K|K]; [exact K|]. pose proof (pow2_le _ _ K).
      assert (pow2 127 <= too_large) by (vm_compute; discriminate). lra. }
    assert (E4 : u = 104%Z) by lia.
    assert (T1 : inject_Z (2 ^ 24) - (1 # 2) <= q / pow2 104).
    { apply Qle_shift_div_l; [apply pow2_pos|]. setoid_replace ((inject_Z (2 ^ 24) - (1 # 2)) * pow2 104) with (pow2 128 - pow2 103) by reflexivity. exact H. }
    assert (T2 : q / pow2 104 < inject_Z (2 ^ 24)).
    { apply Qlt_shift_div_r; [apply pow2_pos|]. setoid_replace (inject_Z (2 ^ 24) * pow2 104) with (pow2 128) by reflexivity. exact L. }
    assert (N : n = (2 ^ 24)%Z).
    { destruct (nearest_even_best (q / pow2 u) (2 ^ 24)) as [B1 B2]. fold n in B1, B2. rewrite E4 in B1, B2.
      pose proof mantissa_bound as M. destruct (Z.eq_dec n (2 ^ 24)) as [E|Ne]; [exact E|exfalso].
      assert (M1 : inject_Z n <= inject_Z (2 ^ 24) - 1) by (change 1 with (inject_Z 1); setoid_replace (inject_Z (2 ^ 24) - inject_Z 1) with (inject_Z (2 ^ 24 - 1)) by reflexivity; rewrite <- Zle_Qle; lia).
      assert (E : Qabs (inject_Z n - q / pow2 104) == Qabs (inject_Z (2 ^ 24) - q / pow2 104)) by (qabs; lra).
      destruct (B2 E) as [|[Ev E1]]; [congruence|].
      assert (inject_Z n == inject_Z (2 ^ 24 - 1)) by (unfold Zminus; rewrite inject_Z_plus; change (inject_Z (- (1))) with (- (1)); qabs; lra).
      unfold inject_Z, Qeq in H0. cbn [Qnum Qden] in H0. assert (n = (2 ^ 24 - 1))%Z by lia. rewrite H1 in Ev. discriminate Ev. }
    unfold r. rewrite N, E4. vm_compute. discriminate.
  - destruct (exponent_bounds q Hq) as [B1 B2].
    assert (128 < exponent q + 1)%Z.
    { destruct (Z_lt_le_dec 128 (exponent q + 1)) as [K|K]; [exact K|]. pose proof (pow2_le _ _ K). lra. }
    pose proof (proj1 (on_grid _ _ (binade_on_grid ltac:(lia)))) as G. pose proof (pow2_le 128 (exponent q) ltac:(lia)).
    qabs; lra.
Qed.
End Positive.

(** ** Any number *)
Lemma finite32_comp : forall p q, p == q -> finite32 p -> finite32 q.
Proof. intros p q E (m & e & H1 & H2 & H3). exists m, e. rewrite <- E. auto. Qed.
Lemma finite32_opp : forall q, finite32 q -> finite32 (- q).
Proof. intros q (m & e & H1 & H2 & H3). exists (- m)%Z, e. rewrite Z.abs_opp, H3, inject_Z_opp. repeat split; try tauto. ring. Qed.
Lemma finite32_below : forall q, finite32 q -> Qabs q < infinity.
Proof.
  intros q (m & e & H1 & H2 & H3). rewrite H3, Qabs_Qmult, (Qabs_pos (pow2 e)) by (pose proof (pow2_pos e); lra).
  assert (M : Qabs (inject_Z m) == inject_Z (Z.abs m)) by (destruct m; reflexivity). rewrite M. unfold infinity.
  change 128%Z with (24 + 104)%Z. rewrite pow2_plus, (pow2_Z 24) by lia. rewrite Zlt_Qlt in H1.
  apply Qlt_le_trans with (inject_Z (2 ^ 24) * pow2 e); [apply Qmult_lt_r; [apply pow2_pos|exact H1]|].
  apply Qmult_le_l; [reflexivity|]. apply pow2_le. lia.
Qed.
Lemma too_large_below : 0 < too_large /\ too_large < infinity.
Proof. split; vm_compute; reflexivity. Qed.
Lemma infinity_pos : 0 < infinity.
Proof. vm_compute. reflexivity. Qed.
Lemma nearest32_opp : forall q r, nearest32 q r -> nearest32 (- q) (- r).
Proof.
  intros q r (H1 & H2 & H3). assert (A : forall x y, Qabs (- x - - y) == Qabs (x - y)) by (intros x y; rewrite <- (Qabs_opp (x - y)); apply Qabs_wd; ring).
  repeat split.
  - apply finite32_opp, H1. rewrite Qabs_opp in H. exact H.
  - rewrite Qabs_opp in H. destruct (H1 H) as [_ B]. destruct (B (- x) (finite32_opp x H0)) as [B1 _]. rewrite A.
    rewrite <- (Qopp_opp x) at 1. rewrite A. exact B1.
  - rewrite Qabs_opp in H. destruct (H1 H) as [_ B]. destruct (B (- x) (finite32_opp x H0)) as [_ B2]. rewrite A.
    setoid_replace (x - - q) with (- - x - - q) by ring. rewrite A. intros E. destruct (B2 E) as [E1|(m & e & E1 & E2)].
    + left. rewrite <- E1. ring.
    + right. exists (- m)%Z, e. split; [rewrite E1, Z.mul_opp_r, inject_Z_opp; ring|]. setoid_replace (x - - r) with (- (- x - r)) by ring. rewrite Qabs_opp. exact E2.
  - intros H. rewrite H3 by lra. ring.
  - intros H. rewrite H2 by lra. reflexivity.
Qed.
Lemma nearest32_comp : forall q q' r r', q == q' -> r == r' -> nearest32 q r -> nearest32 q' r'.
Proof.
  intros q q' r r' Eq Er (H1 & H2 & H3). repeat split.
  - rewrite <- Eq in H. exact (finite32_comp _ _ Er (proj1 (H1 H))).
  - rewrite <- Eq in H. rewrite <- Eq, <- Er. exact (proj1 (proj2 (H1 H) x H0)).
  - rewrite <- Eq in H. rewrite <- Eq, <- Er. intros E. destruct (proj2 (proj2 (H1 H) x H0) E) as [E1|(m & e & E1 & E2)]; [left; exact E1|].
    right. exists m, e. rewrite <- Er. split; assumption.
  - intros H. rewrite <- Eq in H. rewrite <- Er. auto.
  - intros H. rewrite <- Eq in H. rewrite <- Er. auto.
Qed.
Lemma rounded_cases : forall q, (infinity <= round32 q /\ rounded q = infinity) \/ (round32 q <= - infinity /\ rounded q = - infinity) \/
  (- infinity < round32 q < infinity /\ rounded q = round32 q).
Proof.
  intros q. unfold rounded. cbv zeta. destruct (Qle_bool infinity (round32 q)) eqn:A; [left; split; [apply Qle_bool_iff; exact A|reflexivity]|].
  right. destruct (Qle_bool (round32 q) (- infinity)) eqn:B; [left; split; [apply Qle_bool_iff; exact B|reflexivity]|]. right. repeat split.
  - apply Qnot_le_lt. intros H. apply Qle_bool_iff in H. congruence.
  - apply Qnot_le_lt. intros H. apply Qle_bool_iff in H. congruence.
Qed.
Lemma rounded_opp : forall q, rounded (- q) == - rounded q.
Proof.
  intros q. pose proof infinity_pos as I. pose proof (round32_opp q) as E.
  destruct (rounded_cases q) as [[A Ea]|[[A Ea]|[A Ea]]]; destruct (rounded_cases (- q)) as [[B Eb]|[[B Eb]|[B Eb]]]; rewrite Ea, Eb; lra.
Qed.
Lemma rounded_positive : forall q, 0 < q -> nearest32 q (rounded q).
Proof.
  intros q Hq. pose proof (round32_of_positive q Hq) as E. pose proof too_large_below as [T1 T2].
  assert (Gr : round32_positive q = inject_Z (nearest_even (q / pow2 (Z.max (exponent q - 23) (-149)))) * pow2 (Z.max (exponent q - 23) (-149))) by reflexivity.
  destruct (Qlt_le_dec q too_large) as [L|L].
  - assert (F : finite32 (round32 q)) by (apply (finite32_comp (round32_positive q)); [rewrite E; reflexivity|rewrite Gr; apply small; assumption]).
    assert (Er : rounded q = round32 q).
    { pose proof (finite32_below _ F) as B. destruct (rounded_cases q) as [[A Ea]|[[A Ea]|[A Ea]]]; [exfalso|exfalso|exact Ea]; qabs; lra. }
    rewrite Er. split; [|split; intros; exfalso; lra]. intros _. split; [exact F|]. intros x Hx. rewrite E, Gr.
    destruct (best q Hq x Hx) as [B1 B2]. split; [exact B1|]. intros Ex. destruct (B2 Ex) as [|(m & E1 & E2)]; [left; assumption|].
    right. exists m, (Z.max (exponent q - 23) (-149)). rewrite E, Gr. split; assumption.
  - split; [intros H; exfalso; rewrite Qabs_pos in H; lra|]. split; [intros _|intros; exfalso; lra].
    pose proof (large q Hq L) as G. rewrite <- Gr, <- E in G. change (pow2 128) with infinity in G. pose proof infinity_pos.
    destruct (rounded_cases q) as [[A Ea]|[[A Ea]|[A Ea]]]; rewrite Ea; [reflexivity|exfalso; lra|exfalso; lra].
Qed.
Theorem rounded_nearest : forall q, nearest32 q (rounded q).
Proof.
  intros q. destruct (Qcompare_spec q 0) as [E|L|G].
  - pose proof too_large_below as [T1 T2].
    assert (Z : rounded q = 0).
    { assert (Z : round32 q = 0) by (rewrite (round32_comp _ _ E); reflexivity). unfold rounded. cbv zeta. rewrite Z. reflexivity. }
    rewrite Z. assert (D : Qabs (0 - q) == 0) by (qabs; lra). split; [|split; intros; exfalso; lra]. intros _. split.
    + exists 0%Z, 0%Z. repeat split; try lia.
    + intros x Hx. rewrite D. split; [apply Qabs_nonneg|]. intros Ex. left. qabs; lra.
  - apply (nearest32_comp (- - q) q (- rounded (- q)) (rounded q)); [ring|rewrite rounded_opp; ring|].
    apply nearest32_opp, rounded_positive. lra.
  - apply rounded_positive. exact G.
Qed.
Lemma rounded_number : forall q, number32 (rounded q).
Proof.
  intros q. destruct (rounded_nearest q) as (H1 & H2 & H3). pose proof too_large_below as [T1 T2].
  destruct (Qlt_le_dec q too_large) as [L|L]; [|right; left; auto]. destruct (Qlt_le_dec (- too_large) q) as [G|G]; [|right; right; left; auto].
  left. apply H1. clear H1 H2 H3. qabs; lra.
Qed.

(** ** The operations *)
Lemma infinity_nan : infinity < nan.
Proof. vm_compute. reflexivity. Qed.
Lemma finite_not_nan : forall q, finite32 q -> is_nan q = false.
Proof.
  intros q H. apply finite32_below in H. destruct (is_nan q) eqn:E; [|reflexivity]. exfalso. unfold is_nan in E. apply Qeq_bool_eq in E.
  pose proof infinity_nan. pose proof infinity_pos. generalize dependent nan. generalize dependent infinity. intros. qabs; lra.
Qed.
Lemma finite_not_infinite : forall q, finite32 q -> is_infinite q = false.
Proof. intros q H. apply finite32_below in H. destruct (is_infinite q) eqn:E; [|reflexivity]. apply Qeq_bool_iff in E. exfalso. lra. Qed.
Lemma f32_add_nearest : forall a b, finite32 a -> finite32 b -> nearest32 (a + b) (f32_add a b).
Proof. intros a b A B. unfold f32_add. rewrite !finite_not_nan, !finite_not_infinite by assumption. apply rounded_nearest. Qed.
Lemma f32_sub_nearest : forall a b, finite32 a -> finite32 b -> nearest32 (a - b) (f32_sub a b).
Proof. intros a b A B. unfold f32_sub, f32_neg. rewrite finite_not_nan by assumption. apply f32_add_nearest; [exact A|apply finite32_opp; exact B]. Qed.
Lemma f32_mul_nearest : forall a b, finite32 a -> finite32 b -> nearest32 (a * b) (f32_mul a b).
Proof. intros a b A B. unfold f32_mul. rewrite !finite_not_nan, !finite_not_infinite by assumption. apply rounded_nearest. Qed.
Lemma f32_div_nearest : forall a b, finite32 a -> finite32 b -> ~ b == 0 -> nearest32 (a / b) (f32_div a b).
Proof.
  intros a b A B N. unfold f32_div. rewrite !finite_not_nan, !finite_not_infinite by assumption.
  destruct (Qeq_bool b 0) eqn:E; [apply Qeq_bool_iff in E; contradiction|]. apply rounded_nearest.
Qed.
Lemma number32_nan : number32 nan.
Proof. right; right; right. reflexivity. Qed.
Lemma number32_infinite : forall a, is_infinite a = true -> number32 a.
Proof. intros a H. apply Qeq_bool_iff in H. destruct (abs_cases a) as [[? E]|[? E]]; [right; left|right; right; left]; lra. Qed.
Lemma number32_comp : forall p q, p == q -> number32 p -> number32 q.
Proof. intros p q E [H|[H|[H|H]]]; [left; exact (finite32_comp _ _ E H)|right; left|right; right; left|right; right; right]; rewrite <- E; exact H. Qed.
Lemma sign_cases : forall q, sign q = 1 \/ sign q = - (1) \/ sign q = 0.
Proof. intros q. unfold sign. destruct (Qcompare q 0); auto. Qed.
Lemma number32_zero : number32 0.
Proof. left. exists 0%Z, 0%Z. repeat split; lia. Qed.
Lemma f32_add_number : forall a b, number32 (f32_add a b).
Proof.
  intros a b. unfold f32_add. destruct (is_nan a || is_nan b); [apply number32_nan|]. destruct (is_infinite a) eqn:A.
  - destruct (is_infinite b && negb (Qeq_bool a b)); [apply number32_nan|apply number32_infinite; exact A].
  - destruct (is_infinite b) eqn:B; [apply number32_infinite; exact B|apply rounded_number].
Qed.
Ltac signs := match goal with |- number32 ?q => apply (number32_comp infinity); [reflexivity|right; left; reflexivity] ||
  (apply (number32_comp (- infinity)); [reflexivity|right; right; left; reflexivity]) || (apply (number32_comp 0); [reflexivity|apply number32_zero]) end.
Lemma f32_mul_number : forall a b, number32 (f32_mul a b).
Proof.
  intros a b. unfold f32_mul. destruct (is_nan a || is_nan b); [apply number32_nan|]. destruct (is_infinite a || is_infinite b); [|apply rounded_number].
  destruct (Qeq_bool (sign a * sign b) 0); [apply number32_nan|].
  destruct (sign_cases a) as [E|[E|E]], (sign_cases b) as [F|[F|F]]; rewrite E, F; signs.
Qed.
Lemma f32_div_number : forall a b, number32 (f32_div a b).
Proof.
  intros a b. unfold f32_div. destruct (is_nan a || is_nan b); [apply number32_nan|]. destruct (is_infinite a).
  - destruct (is_infinite b); [apply number32_nan|]. destruct (sign_cases a) as [E|[E|E]], (Qle_bool 0 b); rewrite E; signs.
  - destruct (is_infinite b); [apply number32_zero|]. destruct (Qeq_bool b 0); [|apply rounded_number].
    destruct (Qeq_bool a 0); [apply number32_nan|]. destruct (sign_cases a) as [E|[E|E]]; rewrite E; signs.
Qed.
Lemma f32_neg_number : forall a, number32 a -> number32 (f32_neg a).
Proof.
  intros a H. unfold f32_neg. destruct (is_nan a) eqn:N; [apply number32_nan|]. destruct H as [H|[H|[H|H]]].
  - left. apply finite32_opp. exact H.
  - right; right; left. rewrite H. reflexivity.
  - right; left. rewrite H. ring.
  - exfalso. apply Qeq_bool_iff in H. unfold is_nan in N. congruence.
Qed.
Lemma Qmax_or : forall a b, Qmax a b = a \/ Qmax a b = b.
Proof. intros a b. unfold Qmax, GenericMinMax.gmax. destruct (a ?= b); auto. Qed.
Lemma Qmin_or : forall a b, Qmin a b = a \/ Qmin a b = b.
Proof. intros a b. unfold Qmin, GenericMinMax.gmin. destruct (a ?= b); auto. Qed.
Lemma f32_max_number : forall a b, number32 a -> number32 b -> number32 (f32_max a b).
Proof. intros a b A B. unfold f32_max. destruct (is_nan a); [exact B|]. destruct (is_nan b); [exact A|]. destruct (Qmax_or a b) as [E|E]; rewrite E; assumption. Qed.
Lemma f32_min_number : forall a b, number32 a -> number32 b -> number32 (f32_min a b).
Proof. intros a b A B. unfold f32_min. destruct (is_nan a); [exact B|]. destruct (is_nan b); [exact A|]. destruct (Qmin_or a b) as [E|E]; rewrite E; assumption. Qed.
