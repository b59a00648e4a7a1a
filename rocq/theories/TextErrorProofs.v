(** Errors of sums in binary32 *)
From Coq Require Import QArith Qabs Lqa Lia.
From Verif Require Import Base LesterFloat LesterFloatProofs Text TextPlain TextPlainSpec Arith32 Arith32Spec TextPlainArithSpec ScaleProofs TextErrorSpec.
From Verif Require Arith32Proofs.
Local Open Scope Q_scope.

Lemma on_the_grid : forall q, finite32 q -> exists k, q == inject_Z k * pow2 (-149).
Proof.
  intros q (m & e & _ & [He _] & E). exists (m * 2 ^ (e + 149))%Z. rewrite E, inject_Z_mult. rewrite <- (pow2_Z (e + 149)) by lia.
  replace e with ((e + 149) + -149)%Z at 1 by lia. rewrite pow2_plus. ring.
Qed.
Lemma grid_finite : forall k, (Z.abs k < 2 ^ 24)%Z -> finite32 (inject_Z k * pow2 (-149)).
Proof. intros k H. exists k, (-149)%Z. split; [exact H|]. split; [lia|reflexivity]. Qed.
Lemma large_enough : forall q, Qabs q <= pow2 127 -> Qabs q < too_large.
Proof. intros q H. assert (pow2 127 < too_large) by reflexivity. lra. Qed.
Lemma add_error : forall a b, finite32 a -> finite32 b -> Qabs (a + b) <= pow2 127 ->
  finite32 (a_add f32 a b) /\ Qabs (a_add f32 a b - (a + b)) <= Qabs (a + b) * (3 # 33554432).
Proof.
  intros a b A B H. cbn [a_add f32]. pose proof (Arith32Proofs.f32_add_nearest a b A B) as N. apply large_enough in H.
  destruct (proj1 N H) as [F M]. split; [exact F|]. destruct (Qlt_le_dec (Qabs (a + b)) (pow2 (-125))) as [L|L].
  - destruct (on_the_grid _ A) as [k Ek]. destruct (on_the_grid _ B) as [l El].
    assert (E : a + b == inject_Z (k + l) * pow2 (-149)) by (rewrite Ek, El, inject_Z_plus; ring).
    assert (K : (Z.abs (k + l) < 2 ^ 24)%Z).
    { rewrite E, Qabs_Qmult in L. rewrite (Qabs_pos (pow2 (-149))) in L by discriminate.
      assert (P : pow2 (-125) == inject_Z (2 ^ 24) * pow2 (-149)) by reflexivity. rewrite P in L. apply Qmult_lt_r in L; [|reflexivity].
      unfold Qabs, inject_Z, Qlt in L. cbn [Qnum Qden] in L. lia. }
    destruct (M (a + b) (Arith32Proofs.finite32_comp _ _ (Qeq_sym _ _ E) (grid_finite _ K))) as [X _].
    assert (Z0 : Qabs (a + b - (a + b)) == 0) by (setoid_replace (a + b - (a + b)) with 0 by ring; reflexivity). pose proof (Qabs_nonneg (a + b)). lra.
  - pose proof (nearest32_error _ _ H N) as X. assert (P : pow2 (-150) == pow2 (-125) * (1 # 33554432)) by reflexivity. rewrite P in X.
    set (t := pow2 (-125)) in *. clearbody t. lra.
Qed.
Lemma add_lengths : forall a b, length32 a -> length32 b -> a + b <= pow2 127 ->
  length32 (a_add f32 a b) /\ Qabs (a_add f32 a b - (a + b)) <= (a + b) * (3 # 33554432).
Proof.
  intros a b [A A0] [B B0] H. assert (E : Qabs (a + b) == a + b) by (apply Qabs_pos; lra). destruct (add_error a b A B) as [F X]; [rewrite E; exact H|].
  rewrite E in X. split; [|exact X]. split; [exact F|]. apply Qabs_Qle_condition in X. lra.
Qed.

(** Sums from left to right, of which [k] additions are behind *)
Lemma Z_of_S : forall k, inject_Z (Z.of_nat (S k)) == inject_Z (Z.of_nat k) + 1.
Proof. intros k. rewrite Nat2Z.inj_succ. unfold Z.succ. rewrite inject_Z_plus. reflexivity. Qed.
Lemma units_eq : forall k, units k == inject_Z (Z.of_nat k) * (1 # 8388608).
Proof. intros k. unfold units, inject_Z, Qmult, Qeq. cbn [Qnum Qden]. lia. Qed.
Lemma units_S : forall k, units (S k) == units k + (1 # 8388608).
Proof. intros k. rewrite !units_eq, Z_of_S. ring. Qed.
Lemma units_plus : forall k l, units (k + l) == units k + units l.
Proof. intros k l. rewrite !units_eq, Nat2Z.inj_add, inject_Z_plus. ring. Qed.
Lemma units_nonneg : forall k, 0 <= units k.
Proof. intros k. unfold units, Qle. cbn [Qnum Qden]. lia. Qed.
Lemma units_small : forall k, (Z.of_nat k < 2 ^ 20)%Z -> units k <= 1 # 8.
Proof. intros k H. unfold units, Qle. cbn [Qnum Qden]. lia. Qed.
Lemma sum_nonneg : forall l, Forall length32 l -> 0 <= sum l.
Proof. intros l H. induction H as [|x l [_ Hx] _ IH]; cbn [sum fold_right]; [discriminate|]. fold (sum l). lra. Qed.
Lemma total_error : forall l k a A, Forall length32 l -> length32 a -> 0 <= A -> Qabs (a - A) <= units k * A ->
  (Z.of_nat (k + List.length l) < 2 ^ 20)%Z -> A + sum l < pow2 126 ->
  length32 (total f32 a l) /\ Qabs (total f32 a l - (A + sum l)) <= units (k + List.length l) * (A + sum l).
Proof.
  induction l as [|x l IH]; intros k a A Hl Ha HA E K S; cbn [total sum fold_right List.length] in *.
  - rewrite Nat.add_0_r in *. split; [exact Ha|]. setoid_replace (A + 0) with A by ring. exact E.
  - fold (sum l) in *. inversion Hl as [|? ? Hx Hl']; subst. pose proof (sum_nonneg l Hl') as N. pose proof (proj2 Hx) as X0.
    assert (U : units k <= 1 # 8) by (apply units_small; lia). pose proof (units_nonneg k) as U0.
    assert (T : pow2 127 == 2 * pow2 126) by reflexivity. set (big := pow2 126) in *.
    assert (Q1 : units k * A <= (1 # 8) * A) by (apply Qmult_le_compat_r; assumption).
    apply Qabs_Qle_condition in E.
    destruct (add_lengths a x Ha Hx ltac:(lra)) as [F D]. replace (k + Datatypes.S (List.length l))%nat with (Datatypes.S k + List.length l)%nat in * by lia.
    destruct (IH (Datatypes.S k) (a_add f32 a x) (A + x) Hl' F ltac:(lra)) as [R1 R2].
    + rewrite units_S. apply Qabs_Qle_condition in D. apply Qabs_Qle_condition.
      assert (V : units k * A <= units k * (A + x)) by (rewrite Qmult_plus_distr_r; assert (0 <= units k * x) by (apply Qmult_le_0_compat; assumption); lra).
      assert (V2 : (units k + (1 # 8388608)) * (A + x) == units k * (A + x) + (1 # 8388608) * (A + x)) by ring. rewrite V2. set (p := units k * (A + x)) in *. set (p' := units k * A) in *. clearbody p p'.
      split; lra.
    + exact K.
    + lra.
    + split; [exact R1|]. setoid_replace (A + (x + sum l)) with (A + x + sum l) by ring. exact R2.
Qed.

(** ** Lines *)
Lemma zero_length : length32 0.
Proof. split; [|discriminate]. exists 0%Z, 0%Z. split; [reflexivity|]. split; [lia|reflexivity]. Qed.
Lemma lengths_map : forall l, lengths l -> Forall length32 (map w_width l).
Proof. intros l H. apply Forall_map. exact H. Qed.
Lemma width_error : forall l, lengths l -> bounded (List.length l) (widths l) ->
  length32 (width_by f32 l) /\ Qabs (width_by f32 l - widths l) <= units (List.length l) * widths l.
Proof.
  intros l H [B1 B2]. unfold width_by, widths in *. destruct (total_error (map w_width l) 0 0 0 (lengths_map l H) zero_length) as [R1 R2].
  - discriminate.
  - discriminate.
  - rewrite map_length. exact B1.
  - lra.
  - rewrite map_length in R2. split; [exact R1|]. setoid_replace (0 + sum (map w_width l)) with (sum (map w_width l)) in R2 by ring. exact R2.
Qed.
Lemma widths_app : forall a b, widths (a ++ b) == widths a + widths b.
Proof. intros a b. unfold widths, sum. induction a as [|x a IH]; cbn [app map fold_right]; [ring|]. rewrite IH. ring. Qed.
Lemma widths_nonneg : forall l, lengths l -> 0 <= widths l.
Proof. intros l H. apply sum_nonneg, lengths_map, H. Qed.
Lemma total_last : forall ar l a x, total ar a (l ++ [x]) = a_add ar (total ar a l) x.
Proof. intros ar l. induction l as [|y l IH]; intros a x; cbn [app total]; [reflexivity|apply IH]. Qed.
Lemma width_last : forall ar l w, width_by ar (l ++ [w]) = a_add ar (width_by ar l) (w_width w).
Proof. intros ar l w. unfold width_by. rewrite map_app. apply total_last. Qed.
Lemma gt_finite : forall a b, finite32 a -> finite32 b -> (a_gt f32 a b = true <-> b < a).
Proof.
  intros a b A B. cbn [a_gt f32]. unfold f32_compare. rewrite (Arith32Proofs.finite_not_nan a A), (Arith32Proofs.finite_not_nan b B). cbn [orb negb andb]. rewrite Bool.negb_true_iff. split; intros H.
  - apply Qnot_le_lt. intros L. apply Qle_bool_iff in L. congruence.
  - destruct (Qle_bool a b) eqn:E; [|reflexivity]. apply Qle_bool_iff in E. lra.
Qed.
Lemma gt_finite_false : forall a b, finite32 a -> finite32 b -> (a_gt f32 a b = false <-> a <= b).
Proof.
  intros a b A B. rewrite <- Bool.not_true_iff_false, gt_finite by assumption. split; [apply Qnot_lt_le|intros L X; lra].
Qed.
Lemma bounded_prefix : forall a b, lengths (a ++ b) -> bounded (List.length (a ++ b)) (widths (a ++ b)) -> lengths a /\ bounded (List.length a) (widths a).
Proof.
  intros a b H [B1 B2]. apply Forall_app in H as [Ha Hb]. split; [exact Ha|]. rewrite app_length in B1. rewrite widths_app in B2. pose proof (widths_nonneg b Hb). split; [lia|lra].
Qed.
Lemma widths_positive : forall l, lengths l -> bounded (List.length l) (widths l) -> (a_gt f32 (width_by f32 l) 0 = true <-> 0 < widths l).
Proof.
  intros l H B. destruct (width_error l H B) as [[F _] E]. rewrite (gt_finite _ _ F (proj1 zero_length)). pose proof (units_small _ (proj1 B)) as U. pose proof (widths_nonneg l H) as N.
  assert (Q1 : units (List.length l) * widths l <= (1 # 8) * widths l) by (apply Qmult_le_compat_r; assumption). apply Qabs_Qle_condition in E. split; lra.
Qed.
(** What fits as computed fits but for the error, and what fits in spite of the error fits as computed. *)
Lemma fits_near : forall avail l, finite32 avail -> lengths l -> bounded (List.length l) (widths l) -> fits_by f32 avail l ->
  forall a w b, l = a ++ w :: b -> 0 < widths a -> widths (a ++ [w]) * (1 - units (S (List.length a))) <= avail.
Proof.
  intros avail l Fa H B Hf a w b -> P. replace (a ++ w :: b) with ((a ++ [w]) ++ b) in H, B by (rewrite <- app_assoc; reflexivity).
  destruct (bounded_prefix _ _ H B) as [H1 B1]. destruct (bounded_prefix _ _ H1 B1) as [H2 B2].
  specialize (Hf a w b eq_refl (proj2 (widths_positive a H2 B2) P)). rewrite <- width_last in Hf. destruct (width_error _ H1 B1) as [[F _] E].
  apply (gt_finite_false _ _ F Fa) in Hf. apply Qabs_Qle_condition in E. rewrite app_length in E. cbn [List.length] in E. rewrite Nat.add_1_r in E.
  setoid_replace (widths (a ++ [w]) * (1 - units (S (List.length a)))) with (widths (a ++ [w]) - units (S (List.length a)) * widths (a ++ [w])) by ring.
  set (p := units _ * _) in *. clearbody p. lra.
Qed.
Lemma near_fits : forall avail l, finite32 avail -> lengths l -> bounded (List.length l) (widths l) ->
  (forall a w b, l = a ++ w :: b -> 0 < widths a -> widths (a ++ [w]) * (1 + units (S (List.length a))) <= avail) -> fits_by f32 avail l.
Proof.
  intros avail l Fa H B Hf a w b -> P. specialize (Hf a w b eq_refl). replace (a ++ w :: b) with ((a ++ [w]) ++ b) in H, B by (rewrite <- app_assoc; reflexivity).
  destruct (bounded_prefix _ _ H B) as [H1 B1]. destruct (bounded_prefix _ _ H1 B1) as [H2 B2]. apply (widths_positive a H2 B2) in P. specialize (Hf P).
  rewrite <- width_last. destruct (width_error _ H1 B1) as [[F _] E]. apply (gt_finite_false _ _ F Fa). apply Qabs_Qle_condition in E. rewrite app_length in E. cbn [List.length] in E. rewrite Nat.add_1_r in E.
  assert (X : widths (a ++ [w]) * (1 + units (S (List.length a))) == widths (a ++ [w]) + units (S (List.length a)) * widths (a ++ [w])) by ring.
  rewrite X in Hf. set (p := units _ * _) in *. clearbody p. lra.
Qed.
Lemma over_near : forall avail l w, finite32 avail -> lengths (l ++ [w]) -> bounded (S (List.length l)) (widths (l ++ [w])) ->
  a_gt f32 (a_add f32 (width_by f32 l) (w_width w)) avail = true -> avail < widths (l ++ [w]) * (1 + units (S (List.length l))).
Proof.
  intros avail l w Fa H B G. assert (L : List.length (l ++ [w]) = S (List.length l)) by (rewrite app_length; cbn [List.length]; lia). rewrite <- L in *.
  destruct (width_error _ H B) as [[F _] E]. rewrite <- width_last in G. apply (gt_finite _ _ F Fa) in G. apply Qabs_Qle_condition in E.
  setoid_replace (widths (l ++ [w]) * (1 + units (List.length (l ++ [w])))) with (widths (l ++ [w]) + units (List.length (l ++ [w])) * widths (l ++ [w])) by ring.
  set (p := units _ * _) in *. clearbody p. lra.
Qed.

(** ** Widths of words *)
Lemma one_finite : finite32 1.
Proof. exists 1%Z, 0%Z. split; [reflexivity|]. split; [lia|reflexivity]. Qed.
Lemma nearest_self : forall q r, finite32 q -> nearest32 q r -> r == q.
Proof.
  intros q r F N. pose proof (Arith32Proofs.finite32_below q F) as B. assert (L : Qabs q < too_large).
  { apply Qnot_le_lt. intros L. destruct F as (m & e & Hm & He & E).
    assert (K : Qabs q <= inject_Z (2 ^ 24 - 1) * pow2 104).
    { rewrite E, Qabs_Qmult. rewrite (Qabs_pos (pow2 e)) by (pose proof (pow2_pos e); lra). eapply Qle_trans; [apply Qmult_le_compat_r|].
      - instantiate (1 := inject_Z (2 ^ 24 - 1)). unfold Qabs, inject_Z, Qle. cbn [Qnum Qden]. lia.
      - pose proof (pow2_pos e). lra.
      - rewrite !(Qmult_comm (inject_Z (2 ^ 24 - 1))). apply Qmult_le_compat_r; [apply pow2_le; lia|discriminate]. }
    assert (X : inject_Z (2 ^ 24 - 1) * pow2 104 < too_large) by reflexivity. lra. }
  destruct (proj1 N L) as [_ M]. destruct (M q F) as [X _]. assert (Z0 : Qabs (q - q) == 0) by (setoid_replace (q - q) with 0 by ring; reflexivity).
  rewrite Z0 in X. destruct (Arith32Proofs.abs_cases (r - q)) as [[A C]|[A C]]; rewrite C in X; lra.
Qed.
Lemma word_error : forall l fs, Forall length32 l -> length32 fs -> (Z.of_nat (List.length l) < 2 ^ 20)%Z -> sum l < pow2 126 -> sum l * fs < pow2 126 ->
  let w := a_mul f32 (total f32 0 l) (a_div f32 fs 1) in
  length32 w /\ Qabs (w - sum l * fs) <= units (S (List.length l)) * (sum l * fs) + tiniest.
Proof.
  intros l fs Hl [Ff F0] K S1 S2 w. destruct (total_error l 0 0 0 Hl zero_length) as [[T1 T2] T3]; [discriminate|discriminate|exact K|lra|].
  cbn [Nat.add] in T3. set (T := total f32 0 l) in *. pose proof (Arith32Proofs.f32_div_nearest fs 1 Ff one_finite) as D. specialize (D ltac:(discriminate)).
  assert (Dn : finite32 (fs / 1)) by (apply (Arith32Proofs.finite32_comp fs); [field|exact Ff]). pose proof (nearest_self _ _ Dn D) as E. set (g := a_div f32 fs 1) in *. change (f32_div fs 1) with g in *. clearbody g.
  assert (Eg : g == fs) by (rewrite E; field). assert (Fg : finite32 g) by (apply (Arith32Proofs.finite32_comp fs); [symmetry; exact Eg|exact Ff]).
  pose proof (Arith32Proofs.f32_mul_nearest T g T1 Fg) as N. assert (Et : T * g == T * fs) by (rewrite Eg; reflexivity). apply (Arith32Proofs.nearest32_comp _ _ _ _ Et (Qeq_refl _)) in N. change (f32_mul T g) with w in N.
  pose proof (sum_nonneg l Hl) as SN. setoid_replace (0 + sum l) with (sum l) in T3 by ring. pose proof (units_small _ K) as U. pose proof (units_nonneg (List.length l)) as U0.
  assert (P0 : 0 <= sum l * fs) by (apply Qmult_le_0_compat; assumption).
  assert (D3 : Qabs (T * fs - sum l * fs) <= units (List.length l) * (sum l * fs)).
  { setoid_replace (T * fs - sum l * fs) with ((T - sum l) * fs) by ring. rewrite Qabs_Qmult, (Qabs_pos fs F0), Qmult_assoc. apply Qmult_le_compat_r; assumption. }
  assert (Q1 : units (List.length l) * (sum l * fs) <= (1 # 8) * (sum l * fs)) by (apply Qmult_le_compat_r; assumption).
  rewrite units_S. set (p := sum l * fs) in *. assert (T0 : 0 <= T * fs) by (apply Qmult_le_0_compat; assumption). set (q := T * fs) in *. apply Qabs_Qle_condition in D3.
  assert (B : Qabs q < too_large). { apply large_enough. rewrite (Qabs_pos q T0). assert (X : pow2 127 == 2 * pow2 126) by reflexivity. set (b := pow2 126) in *. set (d := pow2 127) in *. set (e := units _ * p) in *. clearbody b d e p q. lra. }
  pose proof (nearest32_error _ _ B N) as M. rewrite (Qabs_pos q T0) in M. destruct (proj1 N B) as [Fw Mw].
  assert (Tn : pow2 (-150) == tiniest * (1 # 2)) by reflexivity. assert (T9 : 0 < tiniest) by reflexivity. split.
  - split; [exact Fw|]. destruct (Mw 0 (proj1 zero_length)) as [M0 _]. setoid_replace (0 - q) with (- q) in M0 by ring. rewrite Qabs_opp, (Qabs_pos q T0) in M0. apply Qabs_Qle_condition in M0. clearbody q. lra.
  - rewrite Tn in M. apply Qabs_Qle_condition in M. apply Qabs_Qle_condition. setoid_replace ((units (List.length l) + (1 # 8388608)) * p) with (units (List.length l) * p + (1 # 8388608) * p) by ring.
    set (e := units _ * p) in *. set (t := tiniest) in *. clearbody e p q w t. split; lra.
Qed.

(** ** Positions *)
Definition steps (s : Q) (l : list word) : list Q := map (fun w => a_add f32 (w_width w) s) l.
(** The words and the space after each *)
Definition spread (s : Q) (l : list word) : Q := widths l + inject_Z (Z.of_nat (List.length l)) * s.
Lemma spread_cons : forall s w l, spread s (w :: l) == w_width w + s + spread s l.
Proof. intros s w l. unfold spread, widths. cbn [map sum fold_right List.length]. rewrite Z_of_S. unfold sum. ring. Qed.
Lemma spread_nonneg : forall s l, 0 <= s -> lengths l -> 0 <= spread s l.
Proof. intros s l Hs H. induction H as [|w l [_ Hw] _ IH]; [discriminate|]. rewrite spread_cons. lra. Qed.
Lemma steps_error : forall s l, length32 s -> lengths l -> spread s l < pow2 126 ->
  Forall length32 (steps s l) /\ Qabs (sum (steps s l) - spread s l) <= spread s l * (3 # 33554432).
Proof.
  intros s l Hs H. induction H as [|w l Hw Hl IH]; intros B; cbn [steps map sum fold_right].
  - split; [constructor|]. discriminate.
  - fold (steps s l). fold (sum (steps s l)). rewrite spread_cons in B. pose proof (spread_nonneg s l (proj2 Hs) Hl) as N. pose proof (proj2 Hw) as W0. pose proof (proj2 Hs) as S0.
    assert (T : pow2 127 == 2 * pow2 126) by reflexivity. set (b := pow2 126) in *.
    destruct (IH ltac:(lra)) as [R1 R2]. destruct (add_lengths _ _ Hw Hs ltac:(lra)) as [A1 A2]. split; [constructor; [exact A1|exact R1]|].
    rewrite spread_cons. apply Qabs_Qle_condition in R2. apply Qabs_Qle_condition in A2. apply Qabs_Qle_condition. split; lra.
Qed.
Lemma place_error : forall s left l, length32 s -> length32 left -> lengths l -> (Z.of_nat (List.length l) < 2 ^ 20)%Z -> left + spread s l < pow2 125 ->
  length32 (total f32 left (steps s l)) /\ Qabs (total f32 left (steps s l) - (left + spread s l)) <= units (S (List.length l)) * (left + spread s l).
Proof.
  intros s left l Hs Hl H K B. pose proof (proj2 Hl) as L0. pose proof (spread_nonneg s l (proj2 Hs) H) as N. assert (T : pow2 126 == 2 * pow2 125) by reflexivity. set (b := pow2 125) in *. set (d := pow2 126) in *.
  destruct (steps_error s l Hs H) as [S1 S2]; [fold d; clearbody b d; lra|]. apply Qabs_Qle_condition in S2.
  assert (E0 : Qabs (left - left) <= units 0 * left) by (setoid_replace (left - left) with 0 by ring; setoid_replace (units 0 * left) with 0 by (rewrite units_eq; ring); discriminate).
  assert (Ln : List.length (steps s l) = List.length l) by apply map_length.
  destruct (total_error (steps s l) 0 left left S1 Hl L0 E0) as [R1 R2]; [rewrite Ln; exact K|fold d; clearbody b d; lra|].
  split; [exact R1|]. cbn [Nat.add] in R2. rewrite Ln in R2. rewrite units_S. pose proof (units_small _ K) as U. pose proof (units_nonneg (List.length l)) as U0.
  set (u := units (List.length l)) in *. set (x := total f32 left (steps s l)) in *. set (t := sum (steps s l)) in *. set (p := spread s l) in *. clearbody u x t p.
  assert (Q1 : u * (left + t) <= u * (left + p) + (1 # 8) * (p * (3 # 33554432))).
  { setoid_replace (u * (left + t)) with (u * (left + p) + u * (t - p)) by ring. apply Qplus_le_r.
    destruct (Qlt_le_dec (t - p) 0) as [G|G].
    - assert (u * (t - p) <= 0) by (setoid_replace (u * (t - p)) with (- (u * (p - t))) by ring; assert (0 <= u * (p - t)) by (apply Qmult_le_0_compat; lra); lra). lra.
    - assert (u * (t - p) <= (1 # 8) * (t - p)) by (apply Qmult_le_compat_r; lra). lra. }
  apply Qabs_Qle_condition in R2. apply Qabs_Qle_condition. setoid_replace ((u + (1 # 8388608)) * (left + p)) with (u * (left + p) + (1 # 8388608) * (left + p)) by ring.
  set (v := u * (left + p)) in *. set (v' := u * (left + t)) in *. clearbody v v'. split; lra.
Qed.

(** ** Justified lines *)
Lemma nat_finite : forall n, (Z.of_nat n < 2 ^ 20)%Z -> finite32 (inject_Z (Z.of_nat n)).
Proof. intros n H. exists (Z.of_nat n), 0%Z. split; [lia|]. split; [lia|]. change (pow2 0) with 1. ring. Qed.
Lemma sub_lengths : forall a b, length32 a -> length32 b -> a <= pow2 126 -> b <= a ->
  length32 (a_sub f32 a b) /\ Qabs (a_sub f32 a b - (a - b)) <= (a - b) * (3 # 33554432).
Proof.
  intros a b [A A0] [B B0] H L. assert (X : pow2 126 <= pow2 127) by discriminate. assert (N : f32_neg b = - b) by (unfold f32_neg; rewrite (Arith32Proofs.finite_not_nan b B); reflexivity).
  assert (E : Qabs (a + - b) == a - b) by (rewrite Qabs_pos; lra). destruct (add_error a (- b) A (Arith32Proofs.finite32_opp b B)) as [F D]; [rewrite E; lra|].
  cbn [a_sub f32]. unfold f32_sub. rewrite N. change (f32_add a (- b)) with (a_add f32 a (- b)). rewrite E in D.
  assert (D' : Qabs (a_add f32 a (- b) - (a - b)) <= (a - b) * (3 # 33554432)) by exact D. split; [|exact D']. split; [exact F|]. apply Qabs_Qle_condition in D'. lra.
Qed.
Lemma div_lengths : forall a n, length32 a -> (0 < n)%nat -> (Z.of_nat n < 2 ^ 20)%Z -> a <= pow2 126 ->
  let s := a_div f32 a (a_lit f32 (inject_Z (Z.of_nat n))) in
  length32 s /\ Qabs (inject_Z (Z.of_nat n) * s - a) <= a * (1 # 16777216) + inject_Z (Z.of_nat n) * (tiniest * (1 # 2)).
Proof.
  intros a n [A A0] P K H s. set (m := inject_Z (Z.of_nat n)) in *. assert (Fm : finite32 m) by (apply nat_finite; exact K).
  assert (M1 : 1 <= m) by (unfold m, inject_Z, Qle; cbn [Qnum Qden]; lia).
  pose proof (nearest_self _ _ Fm (Arith32Proofs.rounded_nearest m)) as E. change (rounded m) with (a_lit f32 m) in E. set (d := a_lit f32 m) in *.
  assert (Fd : finite32 d) by (apply (Arith32Proofs.finite32_comp m); [symmetry; exact E|exact Fm]).
  pose proof (Arith32Proofs.f32_div_nearest a d A Fd ltac:(rewrite E; intros X; lra)) as N. change (f32_div a d) with s in N. assert (Et : a / d == a / m) by (rewrite E; reflexivity).
  apply (Arith32Proofs.nearest32_comp _ _ _ _ Et (Qeq_refl _)) in N. clearbody d s. set (q := a / m) in *.
  assert (Mq : m * q == a) by (unfold q; field; intros X; lra).
  assert (Q0 : 0 <= q). { apply Qnot_lt_le. intros L. assert (m * q < 0) by (setoid_replace 0 with (m * 0) by ring; apply Qmult_lt_l; lra). lra. }
  assert (Qa : q <= a). { rewrite <- Mq. rewrite <- (Qmult_1_l q) at 1. apply Qmult_le_compat_r; lra. }
  assert (B : Qabs q < too_large). { apply large_enough. rewrite (Qabs_pos q Q0). assert (X : pow2 126 <= pow2 127) by discriminate. lra. }
  pose proof (nearest32_error _ _ B N) as M. rewrite (Qabs_pos q Q0) in M. destruct (proj1 N B) as [Fs Ms]. split.
  - split; [exact Fs|]. destruct (Ms 0 (proj1 zero_length)) as [M0 _]. setoid_replace (0 - q) with (- q) in M0 by ring. rewrite Qabs_opp, (Qabs_pos q Q0) in M0. apply Qabs_Qle_condition in M0. clearbody q. lra.
  - rewrite <- Mq. setoid_replace (m * s - m * q) with (m * (s - q)) by ring. rewrite Qabs_Qmult, (Qabs_pos m) by lra.
    assert (T : pow2 (-150) == tiniest * (1 # 2)) by reflexivity. rewrite T in M.
    setoid_replace (m * q * (1 # 16777216) + m * (tiniest * (1 # 2))) with (m * (q * (1 # 16777216) + tiniest * (1 # 2))) by ring.
    apply Qmult_le_l; [lra|exact M].
Qed.
Lemma justified_error : forall left avail m w, length32 left -> length32 avail -> lengths (m ++ [w]) -> m <> [] -> bounded (S (List.length m)) (widths (m ++ [w])) -> left + avail < pow2 123 ->
  width_by f32 (m ++ [w]) < avail ->
  let s := spacing_by f32 avail true (m ++ [w], true) in
  Qabs (total f32 left (steps s m) + w_width w - (left + avail)) <=
    units (3 * S (S (List.length m))) * (left + avail) + inject_Z (Z.of_nat (List.length m)) * tiniest.
Proof.
  intros left avail m w Hl Ha H Hm B R G s. assert (Ln : List.length (m ++ [w]) = S (List.length m)) by (rewrite app_length; cbn [List.length]; lia).
  rewrite <- Ln in B. destruct (width_error _ H B) as [W1 W2]. set (T := width_by f32 (m ++ [w])) in *. pose proof (units_small _ (proj1 B)) as U. pose proof (units_nonneg (List.length (m ++ [w]))) as U0.
  pose proof (widths_nonneg _ H) as WN. set (n := List.length m) in *. rewrite Ln in *. set (u := units (S n)) in *.
  assert (Q1 : u * widths (m ++ [w]) <= (1 # 8) * widths (m ++ [w])) by (apply Qmult_le_compat_r; assumption).
  assert (X126 : pow2 126 == 8 * pow2 123) by reflexivity. assert (X125 : pow2 125 == 4 * pow2 123) by reflexivity. assert (P123 : 0 < pow2 123) by reflexivity. set (b := pow2 123) in *.
  pose proof (proj2 Hl) as L0. pose proof (proj2 Ha) as A0.
  destruct (sub_lengths avail T Ha W1 ltac:(lra) ltac:(lra)) as [S1 S2]. set (lo := a_sub f32 avail T) in *.
  assert (S2' := S2). apply Qabs_Qle_condition in S2'.
  assert (N0 : (0 < n)%nat) by (unfold n; destruct m; [destruct (Hm eq_refl)|cbn [List.length]; lia]). destruct B as [BK BW]. pose proof (proj2 W1) as TT0.
  destruct (div_lengths lo n S1 N0 ltac:(lia) ltac:(lra)) as [D1 D2].
  assert (Es : s = a_div f32 lo (a_lit f32 (inject_Z (Z.of_nat n)))).
  { unfold s, spacing_by. cbn [fst snd andb]. rewrite Ln. fold T. fold lo. replace (S n - 1)%nat with n by lia.
    assert (Gt : a_gt f32 lo 0 = true) by (apply (gt_finite _ _ (proj1 S1) (proj1 zero_length)); lra). rewrite Gt. reflexivity. }
  rewrite <- Es in D1, D2. clearbody s. clear Es. apply Qabs_Qle_condition in D2.
  apply Forall_app in H as [H1 H2]. pose proof (widths_app m [w]) as Ew. assert (Ew1 : widths [w] == w_width w) by (unfold widths; cbn [map sum fold_right]; ring). rewrite Ew1 in Ew.
  inversion H2 as [|? ? Hw _]; subst. pose proof (proj2 Hw) as Hw0. pose proof (widths_nonneg m H1) as Hm0.
  assert (NT : 0 <= inject_Z (Z.of_nat n) * tiniest /\ inject_Z (Z.of_nat n) * tiniest <= b).
  { split; [apply Qmult_le_0_compat; [unfold inject_Z, Qle; cbn [Qnum Qden]; lia|discriminate]|]. eapply Qle_trans; [apply (Qmult_le_compat_r _ (inject_Z (2 ^ 20))); [rewrite <- Zle_Qle; lia|discriminate]|discriminate]. }
  set (nt := inject_Z (Z.of_nat n) * tiniest) in *. setoid_replace (inject_Z (Z.of_nat n) * (tiniest * (1 # 2))) with (nt * (1 # 2)) in D2 by (unfold nt; ring).
  assert (Es : spread s m == widths m + inject_Z (Z.of_nat n) * s) by reflexivity.
  set (ms := inject_Z (Z.of_nat n) * s) in *. apply Qabs_Qle_condition in W2.
  destruct (place_error s left m D1 Hl H1 ltac:(fold n; lia)) as [_ P].
  { rewrite Es. fold b. lra. }
  fold n in P. fold u in P. rewrite Es in P. apply Qabs_Qle_condition in P. apply Qabs_Qle_condition.
  assert (E3 : units (3 * S (S n)) == 3 * u + (3 # 8388608)). { rewrite units_eq. unfold u. rewrite units_eq. rewrite Nat2Z.inj_mul, inject_Z_mult, !(Z_of_S (S n)). change (inject_Z (Z.of_nat 3)) with 3. ring. }
  rewrite E3. set (x := total f32 left (steps s m)) in *. set (W := widths (m ++ [w])) in *. set (ww := w_width w) in *. set (wm := widths m) in *.
  (* products of the unit *)
  assert (K1 : u * W <= (8 # 7) * (u * (left + avail))).
  { assert (W <= (8 # 7) * (left + avail)) by lra. setoid_replace ((8 # 7) * (u * (left + avail))) with (u * ((8 # 7) * (left + avail))) by ring. rewrite !(Qmult_comm u). apply Qmult_le_compat_r; assumption. }
  assert (K2 : u * (left + (wm + ms)) <= (13 # 10) * (u * (left + avail)) + nt * (1 # 8)).
  { assert (Y : left + (wm + ms) <= (13 # 10) * (left + avail) + nt * (1 # 2)) by lra.
    eapply Qle_trans; [rewrite (Qmult_comm u); apply (Qmult_le_compat_r _ _ u Y U0)|]. setoid_replace (((13 # 10) * (left + avail) + nt * (1 # 2)) * u) with ((13 # 10) * (u * (left + avail)) + u * (nt * (1 # 2))) by ring.
    apply Qplus_le_r. eapply Qle_trans; [apply (Qmult_le_compat_r u (1 # 8)); [exact U|lra]|]. lra. }
  setoid_replace ((3 * u + (3 # 8388608)) * (left + avail)) with (3 * (u * (left + avail)) + (3 # 8388608) * (left + avail)) by ring.
  assert (K3 : 0 <= u * (left + avail)) by (apply Qmult_le_0_compat; lra).
  set (v := u * (left + avail)) in *. set (v1 := u * W) in *. set (v2 := u * (left + (wm + ms))) in *. clearbody v v1 v2 x W ww wm ms nt u lo T b. split; lra.
Qed.
