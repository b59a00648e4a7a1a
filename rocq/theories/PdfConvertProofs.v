(** Proofs about the PDF document and page model ([PdfConvert]). *)
From Verif Require Import Base PdfObject PdfObjectSpec PdfObjectProofs PdfSyntax PdfSyntaxSpec
  PdfSyntaxProofs PdfConvert PdfConvertSpec Float32 Float32Proofs.
From Verif Require Export DecimalProofs ScaleProofs.
From Coq Require Import Qabs Qround Qpower Qfield Lqa.
Local Open Scope N_scope.

(** ** Decimals *)
Lemma dec_neg_wf : forall d, wf_dec d -> wf_dec (dec_neg d).
Proof. intros d H. exact H. Qed.
Lemma dec_neg_plain : forall d, plain_dec d -> plain_dec (dec_neg d).
Proof. intros d H. exact H. Qed.

Lemma ten_power_pos : forall e, (0 < ten_power e)%Q.
Proof. intro e. unfold ten_power. apply Qpower_0_lt. reflexivity. Qed.

Lemma range_plain : forall d, wf_dec d ->
  (dec_value d == 0 \/ (1 # 1000000) <= Qabs (dec_value d) /\ Qabs (dec_value d) < inject_Z (10 ^ 21))%Q ->
  plain_dec d.
Proof.
  intros d Hw H. destruct (d_digits d) as [|x r] eqn:E; [left; auto|].
  assert (Hn : d_digits d <> []) by congruence.
  apply (plain_range d Hw Hn). destruct H as [H|H]; auto. exfalso.
  destruct (dec_value_bounds d Hw Hn) as [B _]. cbv zeta in B. rewrite H in B.
  change (Qabs 0) with 0%Q in B. pose proof (ten_power_pos (Z.of_nat (length (d_digits d)) + d_exp d - 1)).
  lra.
Qed.

Lemma moderate_wf : forall d, moderate d -> wf_dec d.
Proof. intros d [H _]. auto. Qed.
Lemma moderate_plain : forall d, moderate d -> plain_dec d.
Proof.
  intros d [Hw H]. apply range_plain; [exact Hw|]. destruct H as [->|[A B]]; [left; reflexivity|right].
  split; [apply Qle_trans with (1 # 100000)%Q; [discriminate|exact A]|].
  apply Qlt_le_trans with (inject_Z (10 ^ 20)); [exact B|vm_compute; discriminate].
Qed.
Lemma moderate_clean : forall d, moderate d -> clean (OFloat d).
Proof. intros d H. split; [apply moderate_wf|apply moderate_plain]; auto. Qed.

Lemma times_scale_clean : forall d, moderate d -> clean (OFloat (times_scale d)).
Proof.
  intros d [Hw H]. assert (W : wf_dec (times_scale d)) by apply print32_reads. split; [exact W|]. apply range_plain; [exact W|].
  destruct H as [H|[A B]].
  - left. unfold times_scale. rewrite (round32_comp _ _ (dec_q_value d)), H. vm_compute. reflexivity.
  - right. assert (B' : (Qabs (dec_value d) <= big)%Q) by (apply Qlt_le_weak; eapply Qlt_le_trans; [exact B|vm_compute; discriminate]).
    pose proof (scaled_close (dec_value d) _ B' (times_scale_scaled d (Qlt_le_weak _ _ B))) as E.
    unfold pt in E. set (w := dec_value (times_scale d)) in *. clearbody w. set (q := dec_value d) in *. clearbody q.
    assert (P : (Qabs (q * (3 # 4)) == Qabs q * (3 # 4))%Q) by (rewrite Qabs_Qmult; reflexivity).
    assert (S1 : (Qabs w <= Qabs (q * (3 # 4)) + Qabs (w - q * (3 # 4)))%Q). { eapply Qle_trans; [|apply Qabs_triangle]. apply Qle_lteq. right. apply Qabs_wd. ring. }
    assert (S2 : (Qabs (q * (3 # 4)) <= Qabs w + Qabs (w - q * (3 # 4)))%Q). { rewrite <- (Qabs_opp (w - _)). eapply Qle_trans; [|apply Qabs_triangle]. apply Qle_lteq. right. apply Qabs_wd. ring. }
    change (inject_Z (10 ^ 20)) with (100000000000000000000 # 1)%Q in *. change (inject_Z (10 ^ 21)) with (1000000000000000000000 # 1)%Q in *. split; lra.
Qed.

Lemma dec_neg_clean : forall d, clean (OFloat d) -> clean (OFloat (dec_neg d)).
Proof. intros d H. exact H. Qed.

Lemma dec_eqb_value : forall a b, dec_eqb a b = true <-> dec_value a = dec_value b.
Proof.
  intros a b. unfold dec_eqb. rewrite Qeq_bool_iff. rewrite !dec_q_value. split; intro H.
  - rewrite <- (dec_value_red a), <- (dec_value_red b). apply Qred_complete. auto.
  - rewrite H. reflexivity.
Qed.

Lemma Qle_bool_ext : forall a b c d, (a == c)%Q -> (b == d)%Q -> Qle_bool a b = Qle_bool c d.
Proof.
  intros a b c d H1 H2. destruct (Qle_bool c d) eqn:E.
  - apply Qle_bool_iff. apply Qle_bool_iff in E. rewrite H1, H2. auto.
  - apply not_true_is_false. intro X. apply not_true_iff_false in E. apply E.
    apply Qle_bool_iff. apply Qle_bool_iff in X. rewrite <- H1, <- H2. auto.
Qed.

Lemma clamp01_value : forall a, dec_value (clamp01 a) = clamp (dec_value a).
Proof.
  intro a. unfold clamp01, clamp.
  rewrite (Qle_bool_ext (dec_q a) 0 (dec_value a) 0) by (auto using dec_q_value; reflexivity).
  rewrite (Qle_bool_ext 1 (dec_q a) 1 (dec_value a)) by (auto using dec_q_value; reflexivity).
  destruct (Qle_bool (dec_value a) 0); [reflexivity|].
  destruct (Qle_bool 1 (dec_value a)); reflexivity.
Qed.

Lemma Qle_bool_false : forall a b, Qle_bool a b = false -> (b < a)%Q.
Proof.
  intros a b H. apply Qnot_le_lt. intro X. apply Qle_bool_iff in X. congruence.
Qed.

Lemma clamp_range : forall q, (0 <= clamp q /\ clamp q <= 1)%Q.
Proof.
  intro q. unfold clamp. destruct (Qle_bool q 0) eqn:A; [split; discriminate|].
  apply Qle_bool_false in A. destruct (Qle_bool 1 q) eqn:B; [split; discriminate|].
  apply Qle_bool_false in B. split; lra.
Qed.

Lemma clamp01_clean : forall a, moderate a -> clean (OFloat (clamp01 a)).
Proof.
  intros a H. unfold clamp01. destruct (Qle_bool (dec_q a) 0).
  - split; [split; [constructor|discriminate]|left; reflexivity].
  - destruct (Qle_bool 1 (dec_q a)).
    + split; [split; [repeat constructor|discriminate]|right; cbn; lia].
    + apply moderate_clean. auto.
Qed.

(** An opacity between 0 and 1 that is already registered. *)
Definition ok_alpha (a : dec) : Prop :=
  clean (OFloat a) /\ (0 <= dec_value a /\ dec_value a <= 1)%Q.

Lemma floor_close : forall x y : Q, Qfloor x = Qfloor y -> (Qabs (x - y) <= 1)%Q.
Proof.
  intros x y H. pose proof (Qfloor_le x). pose proof (Qfloor_le y).
  pose proof (Qlt_floor x). pose proof (Qlt_floor y). rewrite H in *.
  rewrite inject_Z_plus in *. change (inject_Z 1) with 1%Q in *.
  apply Qabs_Qle_condition. split; lra.
Qed.

Lemma Qfloor_nonneg : forall x, (0 <= x)%Q -> (0 <= Qfloor x)%Z.
Proof. intros x H. change 0%Z with (Qfloor 0). apply Qfloor_resp_le. auto. Qed.

Lemma alpha_key_close : forall a b, ok_alpha a -> ok_alpha b -> alpha_key a = alpha_key b ->
  close_alpha (dec_value a) (dec_value b).
Proof.
  intros a b (_ & A1 & A2) (_ & B1 & B2) H. unfold alpha_key in H.
  rewrite (round32_comp _ _ (dec_q_value a)), (round32_comp _ _ (dec_q_value b)) in H.
  destruct (alpha_product _ A1 A2) as [Pa Ea]. destruct (alpha_product _ B1 B2) as [Pb Eb].
  set (x := round32 (round32 (dec_value a) * _)) in *. set (y := round32 (round32 (dec_value b) * _)) in *. clearbody x y.
  apply Qfloor_nonneg in Pa, Pb. assert (E : Qfloor x = Qfloor y) by lia. apply floor_close in E. unfold close_alpha.
  apply Qabs_Qle_condition in E. apply Qabs_Qle_condition in Ea. apply Qabs_Qle_condition in Eb. apply Qabs_Qle_condition. split; lra.
Qed.

Lemma close_refl : forall a, close_alpha a a.
Proof. intro a. unfold close_alpha. setoid_replace (a - a)%Q with 0%Q by ring. discriminate. Qed.
