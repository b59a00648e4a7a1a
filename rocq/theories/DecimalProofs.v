(** Proofs about decimals and [print32]: what is printed is read as the same [f32]. *)
From Coq Require Import Qabs Qround Qpower Qfield Lqa Lia.
From Verif Require Import Base LesterFloat LesterFloatProofs Float32 Float32Proofs PdfObject PdfObjectSpec PdfObjectProofs Dtoa32 Dtoa32Proofs Float32Print.
Local Open Scope N_scope.

(** ** Decimals *)
Lemma digits_rev_last : forall f n, n <> 0 -> n < 2 ^ N.of_nat f -> last (digits_rev f n) 48 <> 48.
Proof.
  induction f as [|f IH]; intros n Hn Hb.
  - change (2 ^ N.of_nat 0) with 1 in Hb. lia.
  - cbn [digits_rev]. destruct (n <? 10) eqn:E.
    + cbn [last]. lia.
    + apply N.ltb_ge in E.
      assert (X : n / 10 < 2 ^ N.of_nat f).
      { rewrite Nat2N.inj_succ, N.pow_succ_r' in Hb. apply N.div_lt_upper_bound; lia. }
      assert (Y : n / 10 <> 0) by (apply N.neq_0_lt_0; apply N.div_str_pos; lia).
      specialize (IH _ Y X).
      destruct (digits_rev f (n / 10)) as [|c r] eqn:D; [cbn in IH; congruence|].
      change (last (c :: r) 48 <> 48). auto.
Qed.

Lemma hd_rev : forall (l : list N) x, hd x (rev l) = last l x.
Proof.
  induction l as [|a l IH]; intro x; auto. cbn [rev]. destruct l as [|b l]; auto.
  change (last (a :: b :: l) x) with (last (b :: l) x). rewrite <- IH.
  destruct (rev (b :: l)) eqn:E; [|reflexivity].
  apply (f_equal (@rev N)) in E. rewrite rev_involutive in E. discriminate.
Qed.

Lemma itoa_nonzero_head : forall n, n <> 0 -> hd 48 (itoa n) <> 48.
Proof. intros n Hn. unfold itoa. rewrite hd_rev. apply digits_rev_last; auto. apply size_nat_bound. Qed.

Lemma digits_value_fold : forall l acc v, digits_value acc l = Some v ->
  fold_left (fun a x => a * 10 + x) (map (fun b => b - 48) l) acc = v.
Proof.
  induction l as [|b l IH]; intros acc v H; cbn [digits_value map fold_left] in *; [congruence|].
  destruct (is_digit b); [|discriminate]. apply IH. auto.
Qed.

Lemma digits_of_spec : forall n, Forall (fun x => x < 10) (digits_of n) /\
  hd 1 (digits_of n) <> 0 /\ fold_left (fun a x => a * 10 + x) (digits_of n) 0 = n.
Proof.
  intro n. unfold digits_of. destruct (n =? 0) eqn:E.
  - apply N.eqb_eq in E. subst. cbn. split; [auto|]. split; [discriminate|auto].
  - apply N.eqb_neq in E. destruct (itoa_spec n) as (A & B & C). pose proof (itoa_nonzero_head n E) as D.
    split; [|split].
    + apply Forall_map. eapply Forall_impl; [|exact A]. unfold digitp. cbn. lia.
    + destruct (itoa n) as [|b r]; [congruence|]. cbn in *. inversion A; subst. unfold digitp in *. lia.
    + apply digits_value_fold. auto.
Qed.

Lemma dec_of_Z_mantissa : forall m e, dec_mantissa (dec_of_Z m e) = m.
Proof.
  intros m e. unfold dec_mantissa, dec_of_Z. cbn [d_digits d_neg].
  destruct (digits_of_spec (Z.to_N (Z.abs m))) as (_ & _ & ->).
  destruct (m <? 0)%Z eqn:E; lia.
Qed.

Lemma dec_of_Z_wf : forall m e, wf_dec (dec_of_Z m e).
Proof.
  intros m e. unfold wf_dec, dec_of_Z. cbn [d_digits].
  destruct (digits_of_spec (Z.to_N (Z.abs m))) as (A & B & _). auto.
Qed.

Lemma dec_q_value : forall d, (dec_q d == dec_value d)%Q.
Proof. intro d. unfold dec_value, real_value. rewrite Qred_correct. reflexivity. Qed.

Lemma dec_value_red : forall d, Qred (dec_value d) = dec_value d.
Proof. intro d. unfold dec_value, real_value. apply Qred_complete. apply Qred_correct. Qed.

Lemma dec_neg_value : forall d, dec_value (dec_neg d) = Qred (- dec_value d).
Proof.
  intro d. unfold dec_value at 1. unfold real_value. apply Qred_complete. rewrite <- dec_q_value.
  unfold dec_q, dec_mantissa, dec_m. cbn [dec_neg d_neg d_digits d_exp].
  destruct (d_neg d); cbn [negb]; unfold ten_power; rewrite inject_Z_opp; ring.
Qed.

Local Open Scope Q_scope.
Lemma exact_decimal_value : forall m e, dec_value (exact_decimal m e) == inject_Z m * pow2 e.
Proof.
  intros m e. rewrite <- dec_q_value. unfold exact_decimal, dec_q. destruct (Z.leb_spec 0 e) as [H|H].
  - change (dec_m (dec_of_Z (m * 2 ^ e) 0)) with (dec_mantissa (dec_of_Z (m * 2 ^ e) 0)). rewrite dec_of_Z_mantissa. cbn [dec_of_Z d_exp].
    change (Qpower (10 # 1) 0) with 1. rewrite inject_Z_mult, <- pow2_Z by exact H. ring.
  - change (dec_m (dec_of_Z (m * 5 ^ (- e)) e)) with (dec_mantissa (dec_of_Z (m * 5 ^ (- e)) e)). rewrite dec_of_Z_mantissa. cbn [dec_of_Z d_exp].
    rewrite inject_Z_mult. assert (T : Qpower (10 # 1) e == pow2 e * Qpower (5 # 1) e).
    { unfold pow2. rewrite <- Qmult_power. reflexivity. }
    rewrite T. assert (F : inject_Z (5 ^ (- e)) * Qpower (5 # 1) e == 1).
    { rewrite Zpower_Qpower by lia. change (inject_Z 5) with (5 # 1). rewrite <- Qpower_plus by discriminate.
      replace (- e + e)%Z with 0%Z by lia. reflexivity. }
    transitivity (inject_Z m * pow2 e * (inject_Z (5 ^ (- e)) * Qpower (5 # 1) e)); [ring|]. rewrite F. ring.
Qed.
Lemma exact_decimal_wf : forall m e, wf_dec (exact_decimal m e).
Proof. intros m e. unfold exact_decimal. destruct (0 <=? e)%Z; apply dec_of_Z_wf. Qed.

(** Digits of Grisu2 as digits of a decimal *)
Lemma fold_of_bval : forall b, Forall (fun d => 0 <= d <= 9)%Z b ->
  Z.of_N (fold_left (fun acc x => (acc * 10 + x)%N) (map Z.to_N (rev b)) 0%N) = bval b.
Proof.
  induction 1 as [|d r Hd Hr IH]; [reflexivity|]. cbn [rev bval]. rewrite map_app, fold_left_app. cbn [map fold_left]. rewrite <- IH. lia.
Qed.
Lemma good_wf : forall b k, good b -> wf_dec (mkDec false (map Z.to_N (rev b)) k).
Proof.
  intros b k [F L]. split; cbn [d_digits].
  - apply Forall_map. apply Forall_rev. eapply Forall_impl; [|exact F]. cbv beta. intros; lia.
  - destruct b as [|x r] using rev_ind; [cbn in L; lia|]. rewrite rev_app_distr. cbn [rev app map hd]. rewrite last_last in L. lia.
Qed.
Lemma dec_zero_wf : wf_dec dec_zero.
Proof. split; [apply Forall_nil|]; discriminate || exact I. Qed.
Lemma print32_positive_reads : forall q, 0 < q -> wf_dec (print32_positive q) /\ round32 (dec_value (print32_positive q)) == round32 q.
Proof.
  intros q Hq. unfold print32_positive. cbv zeta. destruct (Qeq_bool (round32 q) 0) eqn:Z.
  - apply Qeq_bool_iff in Z. split; [apply dec_zero_wf|]. rewrite Z. reflexivity.
  - apply Qeq_bool_neq in Z. destruct (round32_positive_mantissa q Hq) as (E & Hm & Hu). cbv zeta in *.
    destruct (Qle_bool (pow2 128) (round32 q)) eqn:I.
    + split; [apply exact_decimal_wf|]. rewrite (round32_comp _ _ (exact_decimal_value _ _)). rewrite round32_of_mantissa by assumption. symmetry. exact E.
    + assert (I' : round32 q < pow2 128) by (apply Qnot_le_lt; intros X; apply Qle_bool_iff in X; congruence).
      assert (P : 0 < round32 q).
      { assert (0 <= round32 q); [|destruct (Qlt_le_dec 0 (round32 q)) as [L|L]; [exact L|exfalso; apply Z; lra]]. rewrite E. apply Qmult_le_0_compat; [|apply Qlt_le_weak, pow2_pos].
        change 0 with (inject_Z 0). rewrite <- Zle_Qle. lia. }
      destruct (grisu2_reads (round32 q) P I') as (b & k & G & Gb & _ & R); [rewrite round32_idempotent; reflexivity|]. rewrite G.
      split; [apply good_wf; exact Gb|]. rewrite (round32_comp _ (inject_Z (bval b) * ten k)); [exact R|]. rewrite <- dec_q_value. unfold dec_q, dec_m. cbn [d_neg d_digits d_exp]. rewrite fold_of_bval by apply Gb. reflexivity.
Qed.
Lemma print32_reads : forall q, wf_dec (print32 q) /\ round32 (dec_value (print32 q)) = round32 q.
Proof.
  intros q. unfold print32. destruct (Qcompare_spec q 0) as [E|L|G].
  - split; [apply dec_zero_wf|]. rewrite (round32_comp _ _ E). reflexivity.
  - destruct (print32_positive_reads (- q) ltac:(lra)) as [W R]. split; [exact W|]. apply round32_eq.
    assert (V : dec_value (dec_neg (print32_positive (- q))) == - dec_value (print32_positive (- q))) by (rewrite dec_neg_value; apply Qred_correct).
    rewrite (round32_comp _ _ V), round32_opp, R, round32_opp. ring.
  - destruct (print32_positive_reads q G) as [W R]. split; [exact W|]. apply round32_eq. exact R.
Qed.
