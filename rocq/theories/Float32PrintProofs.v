(** [print32] is a rounding as PaintSpec.v has it. *)
From Coq Require Import QArith Qabs Qpower Lqa Lia.
From Verif Require Import Base LesterFloat LesterFloatProofs Float32 Float32Proofs PdfObject PdfObjectSpec PdfConvert PdfConvertSpec
  DecimalProofs Geom LayoutTree PaintSpec.
Local Open Scope Q_scope.

(** Two numbers that are the same [f32] are near each other. *)
Lemma same32_near : forall v q, (1 # 50000) <= Qabs q -> round32 v = round32 q -> near v q.
Proof.
  intros v q H E. unfold near.
  assert (Nq : normal q) by (right; eapply Qle_trans; [|exact H]; discriminate).
  pose proof (round32_near q Nq) as A. pose proof (round32_error v) as B. rewrite E in B. set (f := round32 q) in *. clearbody f.
  assert (T : pow2 (-150) <= 1 # 10000000000000000000000) by discriminate. set (t := pow2 (-150)) in *. clearbody t.
  assert (V : Qabs v <= Qabs f + Qabs (f - v)).
  { rewrite <- (Qabs_opp (f - v)). eapply Qle_trans; [|apply Qabs_triangle]. apply Qle_lteq. right. apply Qabs_wd. ring. }
  assert (F : Qabs f <= Qabs q + Qabs (f - q)).
  { eapply Qle_trans; [|apply Qabs_triangle]. apply Qle_lteq. right. apply Qabs_wd. ring. }
  assert (D : Qabs (v - q) <= Qabs (f - q) + Qabs (f - v)).
  { rewrite <- (Qabs_opp (f - v)). eapply Qle_trans; [|apply Qabs_triangle]. apply Qle_lteq. right. apply Qabs_wd. ring. }
  lra.
Qed.
Theorem print32_rounding : rounding print32.
Proof.
  intros q H. destruct (print32_reads q) as [W R]. split; [exact W|]. destruct H as [H|[H _]].
  - unfold print32. destruct (Qcompare_spec q 0) as [E|L|G]; [|lra|lra]. unfold near. rewrite H. discriminate.
  - exact (same32_near _ _ H R).
Qed.
