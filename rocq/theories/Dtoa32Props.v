(** Property C80: numbers are printed so that they are read as the same number. *)
From Coq Require Import QArith Qabs Lqa Lia.
From Verif Require Import Base LesterFloat LesterFloatProofs Float32 Float32Proofs PdfObject PdfObjectSpec PdfObjectProofs Dtoa32 Dtoa32Proofs Float32Print
  DecimalProofs Arith32Spec.
From Verif Require Arith32 Arith32Proofs.
Local Open Scope Q_scope.

Lemma finite32_round : forall q, finite32 q -> round32 q == q.
Proof.
  intros q (m & e & Hm & He & E). rewrite (round32_comp _ _ E), E. destruct (Z.le_gt_cases 0 m) as [P|P].
  - apply round32_of_mantissa; lia.
  - assert (X : inject_Z m * pow2 e == - (inject_Z (- m) * pow2 e)) by (rewrite inject_Z_opp; ring).
    rewrite (round32_comp _ _ X), round32_opp, round32_of_mantissa by lia. symmetry. exact X.
Qed.
Lemma read_nearest : forall v q, finite32 q -> round32 v = round32 q -> nearest32 v q.
Proof.
  intros v q F E. pose proof (finite32_round q F) as R. pose proof (Arith32Proofs.finite32_below q F) as B. rewrite <- E in R.
  pose proof (Arith32Proofs.rounded_nearest v) as N. rewrite <- (Qabs_wd _ _ R) in B.
  assert (I : 0 < Arith32.infinity) by exact Arith32Proofs.infinity_pos.
  destruct (Arith32Proofs.rounded_cases v) as [[A Ea]|[[A Ea]|[A Ea]]]; rewrite Ea in N.
  - exfalso. rewrite Qabs_pos in B by lra. lra.
  - exfalso. rewrite Qabs_neg in B by lra. lra.
  - exact (Arith32Proofs.nearest32_comp _ _ _ _ (Qeq_refl v) R N).
Qed.
Lemma digits_few : forall q, 0 < q -> finite32 q -> (length (d_digits (print32_positive q)) <= 9)%nat.
Proof.
  intros q P F. pose proof (finite32_round q F) as R. pose proof (Arith32Proofs.finite32_below q F) as B. rewrite (Qabs_pos q) in B by lra.
  unfold print32_positive. cbv zeta. destruct (Qeq_bool (round32 q) 0) eqn:Z; [cbn; lia|].
  destruct (Qle_bool (pow2 128) (round32 q)) eqn:I.
  - exfalso. apply Qle_bool_iff in I. rewrite R in I. change Arith32.infinity with (pow2 128) in B. lra.
  - destruct (grisu2_reads (round32 q)) as (b & k & G & _ & L & _); [rewrite R; exact P|rewrite R; exact B|rewrite round32_idempotent; reflexivity|].
    rewrite G. cbn [d_digits]. rewrite map_length, rev_length. exact L.
Qed.

(** What is printed for a number of [f32] is a decimal of at most nine digits; the nearest number of [f32] is
    the one that was printed. *)
Theorem C80_numbers_read : forall q, finite32 q ->
  wf_dec (print32 q) /\ nearest32 (dec_value (print32 q)) q /\ (length (d_digits (print32 q)) <= 9)%nat.
Proof.
  intros q F. destruct (print32_reads q) as [W R]. split; [exact W|]. split; [exact (read_nearest _ _ F R)|].
  unfold print32. destruct (Qcompare_spec q 0) as [E|L|G]; [cbn; lia| |exact (digits_few q G F)].
  cbn [dec_neg d_digits]. apply digits_few; [lra|]. apply Arith32Proofs.finite32_opp. exact F.
Qed.
Print Assumptions C80_numbers_read.

(** In a file: unless a reader of PDF takes the exponent for something else (C04), it reads the number, and
    two different numbers are never printed alike. *)
Theorem C80_in_files : forall q rest, finite32 q -> safe_head rest ->
  q == 0 \/ (1 # 100000) <= Qabs q /\ Qabs q <= inject_Z (10 ^ 20) ->
  exists v, read_object (dtoa (print32 q) ++ rest) = Some (PReal v, rest) /\ nearest32 v q.
Proof.
  intros q rest F S H. destruct (C80_numbers_read q F) as (W & N & _). exists (dec_value (print32 q)). split; [|exact N].
  apply (proj1 (real_round_trip_iff _ rest W S)). destruct (d_digits (print32 q)) as [|x r] eqn:D; [left; exact D|].
  assert (Hn : d_digits (print32 q) <> []) by congruence. apply (plain_range _ W Hn).
  destruct (print32_reads q) as [_ R]. pose proof (finite32_round q F) as Rq. pose proof (round32_error (dec_value (print32 q))) as E. rewrite R in E.
  destruct H as [H|[H1 H2]].
  - exfalso. unfold print32 in D. destruct (Qcompare_spec q 0) as [Z|Z|Z]; [cbn in D; discriminate D|lra|lra].
  - set (v := dec_value (print32 q)) in *. clearbody v. set (r' := round32 q) in *. clearbody r'. assert (T : pow2 (-150) <= 1 # 10000000000000000000000) by discriminate.
    set (t := pow2 (-150)) in *. clearbody t. rewrite <- (Qabs_wd _ _ Rq) in H1, H2.
    assert (A : Qabs v <= Qabs r' + Qabs (r' - v)). { rewrite <- (Qabs_opp (r' - v)). eapply Qle_trans; [|apply Qabs_triangle]. apply Qle_lteq. right. apply Qabs_wd. ring. }
    assert (B : Qabs r' <= Qabs v + Qabs (r' - v)). { eapply Qle_trans; [|apply Qabs_triangle]. apply Qle_lteq. right. apply Qabs_wd. ring. }
    pose proof (Qabs_nonneg v). change (inject_Z (10 ^ 20)) with (100000000000000000000 # 1) in *. change (inject_Z (10 ^ 21)) with (1000000000000000000000 # 1) in *. split; lra.
Qed.
Print Assumptions C80_in_files.
Theorem C80_distinct : forall p q, finite32 p -> finite32 q -> dec_value (print32 p) == dec_value (print32 q) -> p == q.
Proof.
  intros p q P Q E. destruct (print32_reads p) as [_ Rp]. destruct (print32_reads q) as [_ Rq].
  rewrite <- (finite32_round p P), <- (finite32_round q Q), <- Rp, <- Rq. rewrite (round32_comp _ _ E). reflexivity.
Qed.
Print Assumptions C80_distinct.

(** The digits are found without overflow of 32 bits, without a digit below zero, and the loops end. *)
Theorem C80_no_overflow : forall q, 0 < q -> finite32 q -> exists digits k, grisu2 q = Some (digits, k) /\
  Forall (fun d => 0 <= d <= 9)%Z digits /\ digits <> [] /\ (length digits <= 9)%nat.
Proof.
  intros q P F. pose proof (Arith32Proofs.finite32_below q F) as B. rewrite (Qabs_pos q) in B by lra.
  destruct (grisu2_reads q P B (finite32_round q F)) as (b & k & G & [Fb Lb] & L & _). exists (rev b), k. split; [exact G|].
  split; [apply Forall_rev; exact Fb|]. split; [|rewrite rev_length; exact L].
  intros X. apply (f_equal (@rev Z)) in X. rewrite rev_involutive in X. subst b. cbn in Lb. lia.
Qed.
Print Assumptions C80_no_overflow.

(** They are not always the fewest digits, nor those nearest to the number: both numbers are in tests/alice.pdf. *)
Theorem C80_shortest_refuted : exists q d, finite32 q /\ wf_dec d /\ nearest32 (dec_value d) q /\
  (length (d_digits d) < length (d_digits (print32 q)))%nat.
Proof.
  assert (F : finite32 (inject_Z 9457113 * pow2 (-14))) by (exists 9457113%Z, (-14)%Z; repeat split; vm_compute; congruence || reflexivity).
  exists (inject_Z 9457113 * pow2 (-14)), (dec_of_Z 5772164 (-4)). split; [exact F|]. split; [apply dec_of_Z_wf|].
  split; [apply read_nearest; [exact F|vm_compute; reflexivity]|]. vm_compute. lia.
Qed.
Print Assumptions C80_shortest_refuted.
Theorem C80_nearest_refuted : exists q d, finite32 q /\ wf_dec d /\ length (d_digits d) = length (d_digits (print32 q)) /\
  Qabs (dec_value d - q) < Qabs (dec_value (print32 q) - q).
Proof.
  assert (F : finite32 (inject_Z 9325423 * pow2 (-15))) by (exists 9325423%Z, (-15)%Z; repeat split; vm_compute; congruence || reflexivity).
  exists (inject_Z 9325423 * pow2 (-15)), (dec_of_Z 28458932 (-5)). split; [exact F|]. split; [apply dec_of_Z_wf|]. split; vm_compute; reflexivity.
Qed.
Print Assumptions C80_nearest_refuted.

(** One third, the largest number, the smallest, and some of tests/alice.pdf *)
Example C80_example : finite32 (inject_Z 11184811 * pow2 (-25)) /\
  map (fun q => dtoa (print32 q)) [inject_Z 11184811 * pow2 (-25); - (1 # 10); 595.27563; 577.21637; 284.58933; pow2 128 - pow2 104; pow2 (-149); pow2 23] =
  [bs "0.33333334"; bs "-0.1"; bs "595.27563"; bs "577.21637"; bs "284.58933"; bs "3.4028235e38"; bs "1e-45"; bs "8388608.0"].
Proof.
  split; [exists 11184811%Z, (-25)%Z; repeat split; vm_compute; congruence || reflexivity|]. vm_compute. reflexivity.
Qed.
