(** Grisu2 in 32 bits: the digits are between the boundaries of the number. *)
From Coq Require Import QArith Qround Qpower Qabs Lqa Lia.
From Verif Require Import Base LesterFloat LesterFloatProofs Float32 Float32Proofs PdfObject Dtoa32.
Local Open Scope Z_scope.

(** ** Digits, the last one first *)
Fixpoint bval (b : list Z) : Z := match b with [] => 0 | d :: r => bval r * 10 + d end.
Definition good (b : list Z) : Prop := Forall (fun d => 0 <= d <= 9) b /\ 1 <= last b 0.
Lemma good_nonempty : forall b, good b -> exists d r, b = d :: r.
Proof. intros [|d r] [_ H]; [cbn in H; lia|eauto]. Qed.
Lemma bval_nonneg : forall b, Forall (fun d => 0 <= d <= 9) b -> 0 <= bval b.
Proof. induction 1 as [|d r Hd Hr IH]; cbn [bval]; lia. Qed.
Lemma bval_length : forall b, good b -> 10 ^ (Z.of_nat (length b) - 1) <= bval b.
Proof.
  intros b [F L]. induction F as [|d r Hd Hr IH]; [cbn in L; lia|]. cbn [bval]. destruct r as [|d' r'].
  - cbn in *. lia.
  - specialize (IH L). cbn [length] in *. rewrite !Nat2Z.inj_succ in *.
    replace (Z.succ (Z.succ (Z.of_nat (length r'))) - 1) with (1 + (Z.succ (Z.of_nat (length r')) - 1)) by lia.
    rewrite Z.pow_add_r by lia. change (10 ^ 1) with 10. lia.
Qed.
Lemma push_good : forall d b, 0 <= d <= 9 -> good b -> push_digit d b = d :: b /\ good (d :: b).
Proof.
  intros d b Hd Hb. destruct (good_nonempty b Hb) as (x & r & ->). split; [reflexivity|]. destruct Hb as [F L]. split; [constructor; assumption|exact L].
Qed.
Lemma push_first : forall d, 1 <= d <= 9 -> push_digit d [] = [d] /\ good [d].
Proof. intros d Hd. cbn [push_digit]. destruct (Z.eqb_spec d 0); [lia|]. split; [reflexivity|]. split; [repeat constructor; lia|cbn; lia]. Qed.

(** ** grisu_round *)
Lemma grisu_round_spec : forall fuel x delta rest ten ww, 0 < ten -> 0 <= x -> delta <= rest + x * ten -> rest <= delta -> (Z.to_nat x < fuel)%nat ->
  exists n, 0 <= n <= x /\ grisu_round fuel x delta rest ten ww = Some (x - n) /\ rest + n * ten <= delta.
Proof.
  induction fuel as [|fuel IH]; intros x delta rest ten ww Ht Hx Hd Hr Hf; [lia|]. cbn [grisu_round].
  destruct (_ && _) eqn:E.
  - apply andb_prop in E as [E _]. apply andb_prop in E as [_ E]. apply Z.leb_le in E.
    destruct (Z.eqb_spec x 0) as [->|Hx0]; [lia|]. destruct (IH (x - 1) delta (rest + ten) ten ww) as (n & Hn & -> & Hle); try lia.
    exists (n + 1). split; [lia|]. split; [f_equal; lia|]. lia.
  - exists 0. split; [lia|]. split; [f_equal; lia|]. lia.
Qed.
Definition result (r : option (list Z * Z)) (ok : list Z -> Z -> Prop) : Prop := exists b kappa, r = Some (rev b, kappa) /\ good b /\ ok b kappa.
Lemma finish_spec : forall d b kappa delta rest ten ww (ok : list Z -> Z -> Prop), 0 < ten -> 0 <= d <= 9 -> good (d :: b) -> delta <= rest + d * ten -> rest <= delta ->
  (b = [] -> delta < rest + d * ten) ->
  (forall n, 0 <= n <= d -> rest + n * ten <= delta -> ok (d - n :: b) kappa) ->
  result (finish (d :: b) kappa delta rest ten ww) ok.
Proof.
  intros d b kappa delta rest ten ww ok Ht Hd Hg H1 H2 H3 Hok. unfold finish.
  destruct (grisu_round_spec 11 d delta rest ten ww Ht ltac:(lia) H1 H2 ltac:(lia)) as (n & Hn & -> & Hle). cbn [option_map].
  exists (d - n :: b), kappa. split; [reflexivity|]. split; [|apply Hok; assumption].
  destruct Hg as [F L]. inversion F; subst. split; [constructor; [lia|assumption]|]. destruct b as [|y r]; [|exact L]. cbn [last]. specialize (H3 eq_refl). nia.
Qed.

Lemma land_mod : forall a n, 0 <= n -> Z.land a (2 ^ n - 1) = a mod 2 ^ n.
Proof. intros a n H. rewrite Z.sub_1_r, <- Z.ones_equiv. apply Z.land_ones. exact H. Qed.
Lemma u32_some : forall x, 0 <= x < 2 ^ 32 -> u32 x = Some x.
Proof. intros x H. unfold u32. rewrite (proj2 (Z.leb_le 0 x)), (proj2 (Z.ltb_lt x _)) by lia. reflexivity. Qed.

(** ** The loops *)
Section Gen.
Variables shift wp_w wp delta0 : Z.
Hypothesis Hshift : 0 <= shift <= 28.
Hypothesis Hdelta : 0 < delta0.
Hypothesis Hwpw : 0 <= wp_w <= delta0.
Let one := 2 ^ shift.
Lemma one_bounds : 0 < one <= 2 ^ 28.
Proof. unfold one. split; [apply Z.pow_pos_nonneg; lia|apply Z.pow_le_mono_r; lia]. Qed.
(** The digits stand for a number from [wp - delta0] to [wp], and they are no more than needed. *)
Definition inside (b : list Z) (kappa : Z) : Prop :=
  (wp - delta0) * 10 ^ Z.max 0 (- kappa) <= bval b * 10 ^ Z.max 0 kappa * one <= wp * 10 ^ Z.max 0 (- kappa) /\ bval b * delta0 <= 10 * wp.

Lemma fraction_spec : forall fuel j p2 b, 0 <= j -> 0 <= p2 < one -> bval b * one + p2 = wp * 10 ^ j -> delta0 * 10 ^ j <= p2 ->
  good b -> one <= delta0 * 10 ^ j * 10 ^ Z.of_nat fuel ->
  result (fraction_digits shift wp_w fuel p2 (delta0 * 10 ^ j) (- j) b) inside.
Proof.
  pose proof one_bounds as O1.
  induction fuel as [|fuel IH]; intros j p2 b Hj Hp Hb Hd Hg Hf; [change (10 ^ Z.of_nat 0) with 1 in Hf; lia|]. cbn [fraction_digits].
  assert (D0 : 0 < 10 ^ j) by (apply Z.pow_pos_nonneg; lia).
  rewrite u32_some, u32_some by (change (2 ^ 32) with (16 * 2 ^ 28); nia). rewrite land_mod, Z.shiftr_div_pow2 by lia. fold one.
  assert (Pj : 10 ^ (j + 1) = 10 ^ j * 10) by (rewrite Z.pow_add_r by lia; reflexivity).
  pose proof (Z.div_mod (p2 * 10) one ltac:(lia)) as DM. pose proof (Z.mod_pos_bound (p2 * 10) one ltac:(lia)) as MB.
  set (d := p2 * 10 / one) in *. set (p2' := (p2 * 10) mod one) in *.
  assert (Hd9 : 0 <= d <= 9). { split; [apply Z.div_pos; lia|]. assert (d < 10); [apply Z.div_lt_upper_bound; lia|lia]. }
  destruct (push_good d b Hd9 Hg) as [-> Hg'].
  assert (Hb' : bval (d :: b) * one + p2' = wp * 10 ^ (j + 1)). { cbn [bval]. rewrite Pj. nia. }
  replace (delta0 * 10 ^ j * 10) with (delta0 * 10 ^ (j + 1)) by (rewrite Pj; ring). replace (- j - 1) with (- (j + 1)) by lia.
  destruct (Z.ltb_spec p2' (delta0 * 10 ^ (j + 1))) as [L|L].
  - rewrite Z.opp_involutive. set (ww := if j + 1 <? 9 then 10 ^ (j + 1) else 0).
    assert (W : 0 <= wp_w * ww < 2 ^ 32).
    { assert (0 <= wp_w * ww <= delta0 * 10 ^ (j + 1)) by (unfold ww; destruct (j + 1 <? 9); nia). change (2 ^ 32) with (16 * 2 ^ 28). nia. }
    rewrite u32_some by exact W. apply finish_spec; try assumption; try lia.
    + intros E. destruct (good_nonempty b Hg) as (x & r & ->). discriminate E.
    + intros n Hn Hle. unfold inside. rewrite Z.opp_involutive, (Z.max_r 0 (j + 1)), (Z.max_l 0 (- (j + 1))) by lia. change (10 ^ 0) with 1. cbn [bval] in *.
      assert (0 <= bval b) by (apply bval_nonneg; apply Hg).
      assert (Hv : 0 <= bval b * 10 + (d - n)) by lia. set (v := bval b * 10 + (d - n)) in *.
      assert (V : v * one + (p2' + n * one) = wp * 10 ^ (j + 1)) by (unfold v; lia).
      assert (0 <= n * one) by nia.
      split; [split|].
      * lia.
      * lia.
      * assert (A1 : v * (delta0 * 10 ^ j) <= v * one) by (apply Z.mul_le_mono_nonneg_l; lia). assert (A2 : v * one <= wp * 10 ^ j * 10) by (rewrite Pj in V; lia).
        apply (Z.mul_le_mono_pos_r _ _ (10 ^ j)); lia.
  - apply IH; try assumption; try lia. rewrite Pj. rewrite Nat2Z.inj_succ, Z.pow_succ_r in Hf by lia. nia.
Qed.

Lemma integer_spec : forall kappa p1 p2 b, 0 <= p2 < one -> 0 <= p1 < 10 ^ Z.of_nat kappa -> (bval b * 10 ^ Z.of_nat kappa + p1) * one + p2 = wp -> delta0 < p1 * one + p2 ->
  (good b \/ (b = [] /\ exists k, kappa = S k /\ 10 ^ Z.of_nat k <= p1)) -> one <= delta0 * 10 ^ 11 ->
  result (integer_digits shift wp_w kappa p1 p2 delta0 b) inside.
Proof.
  pose proof one_bounds as O1.
  induction kappa as [|k IH]; intros p1 p2 b Hp2 Hp1 Hb Hd Hg Hf; cbn [integer_digits].
  - change (10 ^ Z.of_nat 0) with 1 in *. assert (p1 = 0) by lia. subst p1. destruct Hg as [Hg|(_ & k & E & _)]; [|discriminate E].
    pose proof (fraction_spec 11 0 p2 b ltac:(lia) Hp2) as K. change (10 ^ 0) with 1 in K. rewrite !Z.mul_1_r in K. change (- 0) with 0 in K.
    apply K; try assumption; try lia. 
  - assert (K0 : 0 < 10 ^ Z.of_nat k) by (apply Z.pow_pos_nonneg; lia). set (pow := 10 ^ Z.of_nat k) in *.
    assert (KS : 10 ^ Z.of_nat (S k) = pow * 10) by (rewrite Nat2Z.inj_succ, Z.pow_succ_r by lia; unfold pow; ring). rewrite KS in *.
    pose proof (Z.div_mod p1 pow ltac:(lia)) as DM. pose proof (Z.mod_pos_bound p1 pow ltac:(lia)) as MB.
    set (d := p1 / pow) in *. set (p1' := p1 mod pow) in *.
    assert (Hd9 : 0 <= d <= 9). { split; [apply Z.div_pos; lia|]. assert (d < 10); [apply Z.div_lt_upper_bound; lia|lia]. }
    assert (Hpush : push_digit d b = d :: b /\ good (d :: b)).
    { destruct Hg as [Hg|(-> & k' & E & H)]; [apply push_good; assumption|]. injection E as <-. apply push_first. fold pow in H. nia. }
    destruct Hpush as [-> Hg']. rewrite !Z.shiftl_mul_pow2 by lia. fold one.
    assert (B0 : 0 <= bval b). { apply bval_nonneg. destruct Hg' as [F _]. inversion F; assumption. }
    destruct (Z.leb_spec (p1' * one + p2) delta0) as [L|L].
    + assert (KO : 0 < pow * one) by (apply Z.mul_pos_pos; lia).
      assert (RD : p1' * one + p2 + d * (pow * one) = p1 * one + p2) by (rewrite DM; ring).
      apply finish_spec; try assumption; try lia.
      intros n Hn Hle. unfold inside. rewrite (Z.max_l 0 (- Z.of_nat k)), (Z.max_r 0 (Z.of_nat k)) by lia. fold pow. change (10 ^ 0) with 1. cbn [bval] in *.
      assert (Hv : 0 <= bval b * 10 + (d - n)) by lia. set (v := bval b * 10 + (d - n)) in *.
      assert (V : v * (pow * one) + (p1' * one + p2 + n * (pow * one)) = wp) by (rewrite <- Hb, DM; unfold v; ring).
      assert (0 <= n * (pow * one)) by (apply Z.mul_nonneg_nonneg; lia).
      assert (0 <= p1' * one) by (apply Z.mul_nonneg_nonneg; lia).
      split; [split; lia|].
      assert (A1 : p1 * one <= (pow * 10 - 1) * one) by (apply Z.mul_le_mono_nonneg_r; lia).
      assert (A2 : v * delta0 <= v * (pow * 10 * one)) by (apply Z.mul_le_mono_nonneg_l; lia). lia.
    + apply IH; try assumption; try lia.
      * cbn [bval]. rewrite <- Hb, DM. ring.
      * left. exact Hg'.
Qed.
End Gen.

Lemma count_digits : forall n, 1 <= n < 10 ^ 9 -> exists k, count_decimal_digit32 n = S k /\ 10 ^ Z.of_nat k <= n < 10 ^ Z.of_nat (S k).
Proof.
  intros n H. unfold count_decimal_digit32.
  destruct (Z.ltb_spec n 10); [exists 0%nat; cbn; lia|]. destruct (Z.ltb_spec n 100); [exists 1%nat; cbn; lia|].
  destruct (Z.ltb_spec n 1000); [exists 2%nat; cbn; lia|]. destruct (Z.ltb_spec n 10000); [exists 3%nat; cbn; lia|].
  destruct (Z.ltb_spec n 100000); [exists 4%nat; cbn; lia|]. destruct (Z.ltb_spec n 1000000); [exists 5%nat; cbn; lia|].
  destruct (Z.ltb_spec n 10000000); [exists 6%nat; cbn; lia|]. destruct (Z.ltb_spec n 100000000); [exists 7%nat; cbn; lia|exists 8%nat; cbn in *; lia].
Qed.
Lemma digit_gen_spec : forall w mp delta, 0 <= - fp_e mp <= 28 -> 0 < delta < fp_f mp -> 0 <= fp_f mp - fp_f w <= delta -> 2 ^ 28 <= fp_f mp -> fp_f mp < 10 ^ 9 * 2 ^ (- fp_e mp) ->
  result (digit_gen w mp delta) (inside (- fp_e mp) (fp_f mp) delta).
Proof.
  intros w mp delta Hs Hd Hw Hlow Hhigh. unfold digit_gen. set (shift := - fp_e mp) in *. set (wp := fp_f mp) in *. cbv zeta.
  rewrite land_mod, Z.shiftr_div_pow2 by lia. pose proof (one_bounds shift Hs) as O1. pose proof (Z.div_mod wp (2 ^ shift) ltac:(lia)) as DM.
  pose proof (Z.mod_pos_bound wp (2 ^ shift) ltac:(lia)) as MB. set (p1 := wp / 2 ^ shift) in *. set (p2 := wp mod 2 ^ shift) in *.
  assert (P1 : 1 <= p1 < 10 ^ 9). { split; [apply Z.div_le_lower_bound; lia|apply Z.div_lt_upper_bound; lia]. }
  destruct (count_digits p1 P1) as (k & -> & Hk). apply integer_spec; try assumption; try lia.
  - cbn [bval]. lia.
  - right. split; [reflexivity|]. exists k. split; [reflexivity|]. lia.
Qed.

(** ** The boundaries of a number *)
Section Number.
Variables f e : Z.
Hypothesis Hf : 1 <= f < 2 ^ 24.
Definition lz : Z := 31 - Z.log2 f.
Definition half : Z := 2 ^ (lz - 1).
Lemma log2_bounds : 2 ^ Z.log2 f <= f < 2 * 2 ^ Z.log2 f /\ 0 <= Z.log2 f <= 23.
Proof.
  destruct (Z.log2_spec f ltac:(lia)) as [A B]. rewrite Z.pow_succ_r in B by apply Z.log2_nonneg.
  split; [lia|]. split; [apply Z.log2_nonneg|]. assert (Z.log2 f < 24); [apply Z.log2_lt_pow2; lia|lia].
Qed.
Lemma half_bounds : 2 ^ 7 <= half /\ 2 ^ lz = 2 * half /\ 2 ^ Z.log2 f * half = 2 ^ 30.
Proof.
  destruct log2_bounds as [_ L]. unfold half, lz. split; [apply Z.pow_le_mono_r; lia|]. split.
  - rewrite <- Z.pow_succ_r by lia. f_equal. lia.
  - rewrite <- Z.pow_add_r by lia. f_equal. lia.
Qed.
Definition lower : Z := if f =? hidden_bit then f * 2 ^ lz - half / 2 else f * 2 ^ lz - half.
Definition upper : Z := f * 2 ^ lz + half.
Lemma normalize_eq : normalize (mkDiy f e) = mkDiy (f * 2 ^ lz) (e - lz).
Proof. unfold normalize. cbn [fp_f fp_e]. rewrite Z.shiftl_mul_pow2 by (pose proof log2_bounds; lia). reflexivity. Qed.
Lemma boundaries_eq : normalized_boundaries (mkDiy f e) = (mkDiy lower (e - lz), mkDiy upper (e - lz)).
Proof.
  destruct log2_bounds as [LB L]. destruct half_bounds as (H1 & H2 & H3). unfold normalized_boundaries, normalize. cbn [fp_f fp_e].
  assert (L2 : Z.log2 (Z.shiftl f 1 + 1) = Z.log2 f + 1).
  { rewrite Z.shiftl_mul_pow2 by lia. change (2 ^ 1) with 2. apply Z.log2_unique; [lia|]. rewrite !Z.pow_add_r, Z.pow_succ_r, Z.pow_add_r by lia. change (2 ^ 1) with 2. lia. }
  rewrite L2. replace (31 - (Z.log2 f + 1)) with (lz - 1) by (unfold lz; lia). replace (e - 1 - (lz - 1)) with (e - lz) by lia.
  f_equal; f_equal.
  - unfold lower. destruct (f =? hidden_bit) eqn:E; cbn [fp_f fp_e].
    + apply Z.eqb_eq in E. rewrite E in *. change (Z.log2 hidden_bit) with 23 in *. unfold half, lz. rewrite E. change (Z.log2 hidden_bit) with 23.
      replace (e - 2 - (e - (31 - 23))) with 6 by lia. reflexivity.
    + replace (e - 1 - (e - lz)) with (lz - 1) by lia. rewrite !Z.shiftl_mul_pow2 by (unfold lz; lia). change (2 ^ 1) with 2. fold half. rewrite H2. ring.
  - rewrite !Z.shiftl_mul_pow2 by (unfold lz; lia). change (2 ^ 1) with 2. fold half. unfold upper. rewrite H2. ring.
Qed.
Lemma order : 2 ^ 31 <= f * 2 ^ lz /\ upper < 2 ^ 32 /\ f * 2 ^ lz + 2 ^ 7 <= upper /\ 0 < lower /\ lower + 2 ^ 6 <= f * 2 ^ lz.
Proof.
  destruct log2_bounds as [LB L]. destruct half_bounds as (H1 & H2 & H3). unfold upper, lower. rewrite H2.
  assert (A : 2 ^ 31 <= f * (2 * half)). { change (2 ^ 31) with (2 * 2 ^ 30). rewrite <- H3. nia. }
  assert (B : (2 * f + 1) * half < 2 ^ 32). { change (2 ^ 32) with (4 * 2 ^ 30). rewrite <- H3. nia. }
  pose proof (Z.div_mod half 2 ltac:(lia)). pose proof (Z.mod_pos_bound half 2 ltac:(lia)).
  assert (half <= 2 ^ 30). { rewrite <- H3. nia. }
  change (2 ^ 7) with 128 in *. change (2 ^ 6) with 64. change (2 ^ 31) with 2147483648 in *. change (2 ^ 32) with 4294967296 in *. change (2 ^ 30) with 1073741824 in *.
  destruct (f =? hidden_bit); lia.
Qed.
End Number.

(** ** Powers of ten *)
Local Open Scope Q_scope.
Definition ten (n : Z) : Q := Qpower (10 # 1) n.
Lemma ten_pos : forall n, 0 < ten n.
Proof. intros n. apply Qpower_0_lt. reflexivity. Qed.
Lemma ten_plus : forall a b, ten (a + b) == ten a * ten b.
Proof. intros a b. apply Qpower_plus. discriminate. Qed.
Lemma ten_Z : forall n, (0 <= n)%Z -> ten n == inject_Z (10 ^ n).
Proof. intros n H. unfold ten. rewrite Zpower_Qpower by exact H. reflexivity. Qed.
(** The cached power for a number with exponent [E] *)
Definition power_ok (E : Z) : bool :=
  let (c, k) := get_cached_power E in
  Qle_bool (Qabs (inject_Z (fp_f c) * pow2 (fp_e c) - ten (- k))) (pow2 (fp_e c) * (1 # 2)) &&
  (2 ^ 31 <=? fp_f c)%Z && (fp_f c <? 2 ^ 32)%Z && (2 <=? - (E + fp_e c + 32))%Z && (- (E + fp_e c + 32) <=? 28)%Z &&
  (fp_f c <? 10 ^ 9 * 2 ^ (- (E + fp_e c + 32)))%Z.
Lemma powers_ok : forallb power_ok (map (fun n => Z.of_nat n - 180)%Z (seq 0 278)) = true.
Proof. vm_compute. reflexivity. Qed.
Lemma cached_power : forall E, (-180 <= E <= 97)%Z -> let (c, k) := get_cached_power E in
  Qabs (inject_Z (fp_f c) * pow2 (fp_e c) - ten (- k)) <= pow2 (fp_e c) * (1 # 2) /\ (2 ^ 31 <= fp_f c < 2 ^ 32)%Z /\
  (2 <= - (E + fp_e c + 32) <= 28)%Z /\ (fp_f c < 10 ^ 9 * 2 ^ (- (E + fp_e c + 32)))%Z.
Proof.
  intros E H. pose proof (proj1 (forallb_forall _ _) powers_ok E) as K. unfold power_ok in K. destruct (get_cached_power E) as [c k].
  assert (I : In E (map (fun n => Z.of_nat n - 180)%Z (seq 0 278))). { apply in_map_iff. exists (Z.to_nat (E + 180)). split; [lia|]. apply in_seq. lia. }
  specialize (K I). repeat (apply andb_prop in K as [K ?]). apply Qle_bool_iff in K. rewrite ?Z.leb_le, ?Z.ltb_lt in *. split; [exact K|]. lia.
Qed.

Section Mul.
Variables (cf ce k : Z).
Hypothesis Hc : Qabs (inject_Z cf * pow2 ce - ten (- k)) <= pow2 ce * (1 # 2).
Definition mul32 (a : Z) : Z := Z.shiftr (a * cf + 2 ^ 31) 32.
Lemma mul32_bounds : forall a, (mul32 a * 2 ^ 32 <= a * cf + 2 ^ 31 < mul32 a * 2 ^ 32 + 2 ^ 32)%Z.
Proof.
  intros a. unfold mul32. rewrite Z.shiftr_div_pow2 by lia. pose proof (Z.div_mod (a * cf + 2 ^ 31) (2 ^ 32) ltac:(lia)).
  pose proof (Z.mod_pos_bound (a * cf + 2 ^ 31) (2 ^ 32) ltac:(lia)). lia.
Qed.
(** The power of ten in units of the last bit *)
Definition exact_power : Q := ten (- k) * pow2 (- ce).
Lemma power_close : inject_Z cf - (1 # 2) <= exact_power <= inject_Z cf + (1 # 2).
Proof.
  unfold exact_power. pose proof (pow2_pos ce) as P. assert (U : pow2 (- ce) * pow2 ce == 1) by (rewrite <- pow2_plus; replace (- ce + ce)%Z with 0%Z by lia; reflexivity).
  assert (T : ten (- k) * pow2 (- ce) * pow2 ce == ten (- k)) by (rewrite <- Qmult_assoc, U; ring).
  apply Qabs_Qle_condition in Hc. split; apply (Qmult_le_r _ _ (pow2 ce) P); rewrite T; lra.
Qed.
Lemma mul32_close : forall a, (0 <= a < 2 ^ 32)%Z ->
  inject_Z (mul32 a) - 1 < inject_Z a * exact_power * pow2 (-32) /\ inject_Z a * exact_power * pow2 (-32) < inject_Z (mul32 a) + 1.
Proof.
  intros a Ha. destruct (mul32_bounds a) as [B1 B2]. set (m := mul32 a) in *. clearbody m.
  rewrite Zle_Qle in B1. rewrite Zlt_Qlt in B2. rewrite ?inject_Z_plus, ?inject_Z_mult in *.
  destruct Ha as [A1 A2]. rewrite Zle_Qle in A1. rewrite Zlt_Qlt in A2. destruct power_close as [C1 C2]. set (x := inject_Z a) in *. set (c := inject_Z cf) in *. set (C := exact_power) in *. clearbody x c C.
  change (pow2 (-32)) with (1 # 4294967296). change (inject_Z (2 ^ 32)) with (4294967296 # 1) in *. change (inject_Z (2 ^ 31)) with (2147483648 # 1) in *. change (inject_Z 0) with 0 in *.
  assert (D1 : x * C <= x * c + x * (1 # 2)) by (rewrite <- Qmult_plus_distr_r; rewrite !(Qmult_comm x); apply Qmult_le_compat_r; assumption).
  assert (D2 : x * c - x * (1 # 2) <= x * C). { setoid_replace (x * c - x * (1 # 2)) with ((c - (1 # 2)) * x) by ring. rewrite (Qmult_comm x C). apply Qmult_le_compat_r; assumption. }
  split; lra.
Qed.
End Mul.

(** The decimals that are read as a number: those strictly between its boundaries *)
Lemma grisu2_inside : forall q f e, diy_of q = mkDiy f e -> (1 <= f < 2 ^ 24)%Z -> (-149 <= e <= 104)%Z ->
  exists b k, grisu2 q = Some (rev b, k) /\ good b /\ (length b <= 9)%nat /\
    inject_Z (lower f) * pow2 (e - lz f) < inject_Z (bval b) * ten k /\ inject_Z (bval b) * ten k < inject_Z (upper f) * pow2 (e - lz f).
Proof.
  intros q f e Hq Hf He. unfold grisu2. rewrite Hq, (boundaries_eq f e Hf), (normalize_eq f e Hf). cbn [fp_e].
  destruct (log2_bounds f Hf) as [_ L]. pose proof (cached_power (e - lz f) ltac:(unfold lz; lia)) as K. destruct (get_cached_power (e - lz f)) as [c k].
  destruct K as (K1 & K2 & K3 & K4). unfold diy_mul. cbn [fp_f fp_e]. destruct c as [cf ce]. cbn [fp_f fp_e] in *.
  change (Z.shiftr (?a * cf + 2 ^ 31) 32) with (mul32 cf a). destruct (order f Hf) as (O1 & O2 & O3 & O4 & O5).
  set (w := (f * 2 ^ lz f)%Z) in *. set (lo := lower f) in *. set (up := upper f) in *. set (E := (e - lz f)%Z) in *.
  pose proof (mul32_bounds cf w) as Bw. pose proof (mul32_bounds cf lo) as Bl. pose proof (mul32_bounds cf up) as Bu.
  assert (P1 : ((2 ^ 7) * 2 ^ 31 <= (up - w) * cf)%Z) by (apply Z.mul_le_mono_nonneg; lia).
  assert (P2 : ((2 ^ 6) * 2 ^ 31 <= (w - lo) * cf)%Z) by (apply Z.mul_le_mono_nonneg; lia).
  assert (P3 : (2 ^ 31 * 2 ^ 31 <= w * cf)%Z) by (apply Z.mul_le_mono_nonneg; lia).
  assert (P4 : (0 <= lo * cf)%Z) by (apply Z.mul_nonneg_nonneg; lia).
  assert (P5 : (up * cf <= (2 ^ 32 - 1) * cf)%Z) by (apply Z.mul_le_mono_nonneg_r; lia).
  change (2 ^ 7)%Z with 128%Z in *. change (2 ^ 6)%Z with 64%Z in *. change (2 ^ 31 * 2 ^ 31)%Z with 4611686018427387904%Z in *. change (2 ^ 31)%Z with 2147483648%Z in *. change (2 ^ 32)%Z with 4294967296%Z in *.
  assert (M1 : (mul32 cf up < cf + 1)%Z) by lia.
  destruct (digit_gen_spec (mkDiy (mul32 cf w) (E + ce + 32)) (mkDiy (mul32 cf up - 1) (E + ce + 32)) (mul32 cf up - 1 - (mul32 cf lo + 1))) as (b & kappa & R & G & I1 & I2); cbn [fp_f fp_e] in *.
  - lia.
  - lia.
  - lia.
  - change (2 ^ 28)%Z with 268435456%Z. lia.
  - lia.
  - cbn [fp_f fp_e] in *. rewrite R. cbn [option_map fst snd]. exists b, (k + kappa)%Z. split; [reflexivity|]. split; [exact G|]. split.
    { pose proof (bval_length b G) as BL. pose proof (bval_nonneg b (proj1 G)) as B0.
      assert (bval b * 93 <= bval b * (mul32 cf up - 1 - (mul32 cf lo + 1)))%Z by (apply Z.mul_le_mono_nonneg_l; lia).
      assert (X : (10 ^ (Z.of_nat (length b) - 1) < 10 ^ 9)%Z) by (change (10 ^ 9)%Z with 1000000000%Z; lia).
      apply Z.pow_lt_mono_r_iff in X; lia. }
    set (sh := (- (E + ce + 32))%Z) in *.
    replace (mul32 cf up - 1 - (mul32 cf up - 1 - (mul32 cf lo + 1)))%Z with (mul32 cf lo + 1)%Z in I1 by lia.
    destruct (mul32_close cf ce k K1 up ltac:(lia)) as [_ U]. destruct (mul32_close cf ce k K1 up ltac:(lia)) as [U1 _]. destruct (mul32_close cf ce k K1 lo ltac:(lia)) as [_ L2].
    set (X := inject_Z (bval b) * ten kappa * pow2 sh).
    assert (XB : inject_Z (mul32 cf lo + 1) <= X /\ X <= inject_Z (mul32 cf up - 1)).
    { destruct I1 as [J1 J2]. rewrite Zle_Qle in J1, J2. rewrite !inject_Z_mult in J1, J2. rewrite <- !ten_Z in J1, J2 by lia. rewrite <- pow2_Z in J1, J2 by lia.
      destruct (Z.le_gt_cases 0 kappa) as [Hk|Hk].
      - rewrite (Z.max_l 0 (- kappa)), (Z.max_r 0 kappa) in J1, J2 by lia. change (ten 0) with 1 in J1, J2. unfold X. lra.
      - rewrite (Z.max_r 0 (- kappa)), (Z.max_l 0 kappa) in J1, J2 by lia. change (ten 0) with 1 in J1, J2.
        pose proof (ten_pos (- kappa)) as T0. assert (T1 : X * ten (- kappa) == inject_Z (bval b) * 1 * pow2 sh).
        { unfold X. assert (TT : ten kappa * ten (- kappa) == 1) by (rewrite <- ten_plus; replace (kappa + - kappa)%Z with 0%Z by lia; reflexivity).
          transitivity (inject_Z (bval b) * pow2 sh * (ten kappa * ten (- kappa))); [ring|]. rewrite TT. ring. }
        split; apply (Qmult_le_r _ _ _ T0); rewrite T1; assumption. }
    clear I1 I2 R. destruct XB as [X1 X2]. unfold Z.sub in X2. rewrite inject_Z_plus in X1, X2. change (inject_Z 1) with 1 in X1. change (inject_Z (-1)) with (-1) in X2.
    assert (S0 : 0 < pow2 (- sh) * ten k) by (apply Qmult_lt_0_compat; [apply pow2_pos|apply ten_pos]).
    assert (V : inject_Z (bval b) * ten (k + kappa) == X * (pow2 (- sh) * ten k)).
    { unfold X. rewrite ten_plus. assert (SS : pow2 sh * pow2 (- sh) == 1) by (rewrite <- pow2_plus; replace (sh + - sh)%Z with 0%Z by lia; reflexivity).
      transitivity (inject_Z (bval b) * (ten k * ten kappa) * (pow2 sh * pow2 (- sh))); [rewrite SS; ring|ring]. }
    assert (A : forall a, inject_Z a * pow2 E == inject_Z a * exact_power ce k * pow2 (-32) * (pow2 (- sh) * ten k)).
    { intros a. unfold exact_power. assert (TT : ten (- k) * ten k == 1) by (rewrite <- ten_plus; replace (- k + k)%Z with 0%Z by lia; reflexivity).
      assert (SS : pow2 (- ce) * pow2 (-32) * pow2 (- sh) == pow2 E). { rewrite <- !pow2_plus. replace (- ce + -32 + - sh)%Z with E by (unfold sh; lia). reflexivity. }
      transitivity (inject_Z a * (ten (- k) * ten k) * (pow2 (- ce) * pow2 (-32) * pow2 (- sh))); [rewrite TT, SS; ring|ring]. }
    rewrite V, !A. split; apply (Qmult_lt_r _ _ _ S0).
    + eapply Qlt_le_trans; [exact L2|exact X1].
    + eapply Qle_lt_trans; [exact X2|exact U1].
Qed.

(** Between its boundaries a number is read as itself. *)
Lemma round32_between : forall f e v, (1 <= f < 2 ^ 24)%Z -> (-149 <= e)%Z -> (2 ^ 23 <= f \/ e = -149)%Z ->
  (inject_Z f - (if (f =? hidden_bit)%Z then 1 # 4 else 1 # 2)) * pow2 e < v -> v < (inject_Z f + (1 # 2)) * pow2 e ->
  round32 v == inject_Z f * pow2 e.
Proof.
  intros f e v Hf He Hn L U. pose proof (pow2_pos e) as P.
  assert (F1 : 1 <= inject_Z f) by (change 1 with (inject_Z 1); rewrite <- Zle_Qle; lia).
  assert (F2 : inject_Z f <= inject_Z (2 ^ 24 - 1)) by (rewrite <- Zle_Qle; lia). change (inject_Z (2 ^ 24 - 1)) with (16777215 # 1) in F2.
  assert (V0 : 0 < v). { eapply Qle_lt_trans; [|exact L]. apply Qmult_le_0_compat; [destruct (f =? hidden_bit)%Z; lra|lra]. }
  destruct (exponent_bounds v V0) as [B1 B2].
  assert (X : (exponent v <= 23 + e)%Z).
  { destruct (Z_le_gt_dec (exponent v) (23 + e)) as [G|G]; [exact G|exfalso]. pose proof (pow2_le (24 + e) (exponent v) ltac:(lia)) as W.
    rewrite pow2_plus, (pow2_Z 24) in W by lia. change (inject_Z (2 ^ 24)) with (16777216 # 1) in W.
    assert ((inject_Z f + (1 # 2)) * pow2 e <= (16777216 # 1) * pow2 e) by (apply Qmult_le_compat_r; lra). lra. }
  rewrite round32_of_positive by exact V0. unfold round32_positive. cbv zeta. set (u := Z.max (exponent v - 23) (-149)).
  assert (Same : (u = e)%Z -> inject_Z (nearest_even (v / pow2 u)) * pow2 u == inject_Z f * pow2 e).
  { intros ->. rewrite (nearest_even_near _ f); [reflexivity| |].
    - apply Qlt_shift_div_l; [exact P|]. eapply Qle_lt_trans; [|exact L]. apply Qmult_le_compat_r; [destruct (f =? hidden_bit)%Z; lra|lra].
    - apply Qlt_shift_div_r; [exact P|]. exact U. }
  destruct (Z.eq_dec e (-149)) as [E0|E0]; [apply Same; unfold u; lia|].
  destruct (Qlt_le_dec v (pow2 (23 + e))) as [S|S].
  - assert (Ff : f = (2 ^ 23)%Z).
    { destruct (Z.eq_dec f (2 ^ 23)) as [G|G]; [exact G|exfalso]. unfold hidden_bit in L. rewrite (proj2 (Z.eqb_neq f (2 ^ 23)) G) in L.
      assert (inject_Z (2 ^ 23 + 1) <= inject_Z f) by (rewrite <- Zle_Qle; lia). change (inject_Z (2 ^ 23 + 1)) with (8388609 # 1) in *.
      rewrite pow2_plus, (pow2_Z 23) in S by lia. change (inject_Z (2 ^ 23)) with (8388608 # 1) in S.
      assert ((8388608 # 1) * pow2 e <= (inject_Z f - (1 # 2)) * pow2 e) by (apply Qmult_le_compat_r; lra). lra. }
    subst f. change (2 ^ 23 =? hidden_bit)%Z with true in L. cbv iota in L. change (inject_Z (2 ^ 23)) with (8388608 # 1) in *.
    assert (Eu : u = (e - 1)%Z).
    { assert (exponent v = 22 + e)%Z; [|unfold u; lia]. apply exponent_unique; [|replace (22 + e + 1)%Z with (23 + e)%Z by lia; exact S].
      rewrite pow2_plus, (pow2_Z 22) by lia. change (inject_Z (2 ^ 22)) with (4194304 # 1).
      assert ((4194304 # 1) * pow2 e <= ((8388608 # 1) - (1 # 4)) * pow2 e) by (apply Qmult_le_compat_r; lra). lra. }
    assert (Pe : pow2 e == 2 * pow2 (e - 1)). { transitivity (pow2 (1 + (e - 1))); [replace (1 + (e - 1))%Z with e by lia; reflexivity|]. rewrite pow2_plus. reflexivity. }
    rewrite Eu, (nearest_even_near _ (2 ^ 24)); [rewrite Pe; change (inject_Z (2 ^ 24)) with (16777216 # 1); ring| |]; change (inject_Z (2 ^ 24)) with (16777216 # 1).
    + apply Qlt_shift_div_l; [apply pow2_pos|]. lra.
    + apply Qlt_shift_div_r; [apply pow2_pos|]. rewrite pow2_plus, (pow2_Z 23) in S by lia. change (inject_Z (2 ^ 23)) with (8388608 # 1) in S. pose proof (pow2_pos (e - 1)). lra.
  - apply Same. assert (23 + e <= exponent v)%Z; [|unfold u; lia]. destruct (Z_le_gt_dec (23 + e) (exponent v)) as [G|G]; [exact G|exfalso].
    pose proof (pow2_le (exponent v + 1) (23 + e) ltac:(lia)). lra.
Qed.
Lemma boundary_values : forall f e, (1 <= f < 2 ^ 24)%Z ->
  inject_Z (lower f) * pow2 (e - lz f) == (inject_Z f - (if (f =? hidden_bit)%Z then 1 # 4 else 1 # 2)) * pow2 e /\
  inject_Z (upper f) * pow2 (e - lz f) == (inject_Z f + (1 # 2)) * pow2 e.
Proof.
  intros f e Hf. destruct (half_bounds f Hf) as (H1 & H2 & H3). destruct (log2_bounds f Hf) as [_ L].
  assert (E : pow2 e == 2 * inject_Z (half f) * pow2 (e - lz f)).
  { transitivity (pow2 (lz f + (e - lz f))); [replace (lz f + (e - lz f))%Z with e by lia; reflexivity|]. rewrite pow2_plus, (pow2_Z (lz f)) by (unfold lz; lia).
    rewrite H2, inject_Z_mult. reflexivity. }
  assert (H4 : half f = (2 * (half f / 2))%Z).
  { unfold half. replace (lz f - 1)%Z with (1 + (lz f - 2))%Z by lia. rewrite Z.pow_add_r by (unfold lz; lia). change (2 ^ 1)%Z with 2%Z. rewrite (Z.mul_comm 2), Z.div_mul by lia. lia. }
  assert (H5 : inject_Z (half f) == 2 * inject_Z (half f / 2)) by (rewrite H4 at 1; rewrite inject_Z_mult; reflexivity).
  unfold lower, upper. rewrite H2. split.
  - destruct (f =? hidden_bit)%Z; unfold Z.sub; rewrite inject_Z_plus, inject_Z_opp, !inject_Z_mult; change (inject_Z 2) with 2; fold (e - lz f)%Z; rewrite E, ?H5; ring.
  - rewrite inject_Z_plus, !inject_Z_mult. change (inject_Z 2) with 2. rewrite E. ring.
Qed.
(** A positive [f32] taken apart *)
Lemma diy_of_spec : forall q, 0 < q -> q < pow2 128 -> round32 q == q -> exists f e, diy_of q = mkDiy f e /\ (1 <= f < 2 ^ 24)%Z /\
  (-149 <= e <= 104)%Z /\ (2 ^ 23 <= f \/ e = -149)%Z /\ q == inject_Z f * pow2 e.
Proof.
  intros q Hq Hi Hr. unfold diy_of. set (e := Z.max (exponent q - 23) (-149)). set (f := nearest_even (q / pow2 e)). exists f, e. split; [reflexivity|].
  assert (V : q == inject_Z f * pow2 e). { rewrite <- Hr at 1. rewrite round32_of_positive by exact Hq. reflexivity. }
  pose proof (pow2_pos e) as P. destruct (exponent_bounds q Hq) as [B1 B2].
  assert (X : (exponent q < 128)%Z). { destruct (Z_lt_le_dec (exponent q) 128) as [L|L]; [exact L|]. pose proof (pow2_le _ _ L). lra. }
  split; [split|split; [unfold e; lia|split; [|exact V]]].
  - destruct (Z_le_gt_dec 1 f) as [G|G]; [exact G|exfalso]. assert (N : inject_Z f <= 0) by (change 0 with (inject_Z 0); rewrite <- Zle_Qle; lia).
    assert (inject_Z f * pow2 e <= 0 * pow2 e) by (apply Qmult_le_compat_r; lra). lra.
  - assert (W : inject_Z f * pow2 e < inject_Z (2 ^ 24) * pow2 e). { rewrite <- V, <- pow2_Z, <- pow2_plus by lia. eapply Qlt_le_trans; [exact B2|]. apply pow2_le. unfold e. lia. }
    rewrite Zlt_Qlt. exact (proj1 (Qmult_lt_r _ _ _ P) W).
  - destruct (Z.eq_dec e (-149)) as [E|E]; [right; exact E|left]. assert (W : inject_Z (2 ^ 23) * pow2 e <= inject_Z f * pow2 e).
    { rewrite <- V, <- pow2_Z, <- pow2_plus by lia. eapply Qle_trans; [|exact B1]. apply pow2_le. unfold e. lia. }
    rewrite Zle_Qle. exact (proj1 (Qmult_le_r _ _ _ P) W).
Qed.
(** Grisu2 never fails, and what it prints is read as the number it was given. *)
Theorem grisu2_reads : forall q, 0 < q -> q < pow2 128 -> round32 q == q ->
  exists b k, grisu2 q = Some (rev b, k) /\ good b /\ (length b <= 9)%nat /\ round32 (inject_Z (bval b) * ten k) == q.
Proof.
  intros q Hq Hi Hr. destruct (diy_of_spec q Hq Hi Hr) as (f & e & D & Hf & He & Hn & V).
  destruct (grisu2_inside q f e D Hf He) as (b & k & G & Gb & Len & L & U). destruct (boundary_values f e Hf) as [BL BU]. rewrite BL in L. rewrite BU in U.
  exists b, k. split; [exact G|]. split; [exact Gb|]. split; [exact Len|]. rewrite V. apply round32_between; assumption || lia.
Qed.
