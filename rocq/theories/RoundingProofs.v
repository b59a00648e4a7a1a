(** How far sums in [f32] are from exact ones *)
From Coq Require Import QArith Qminmax Qabs Lqa Lia.
From Verif Require Import Base Dom StyleValues StyleProperties PdfConvert Geom Text LayoutTree Layout InlineSpec InlineLineProofs WiderProofs.
From Verif Require Import LesterFloat LesterFloatProofs Float32 Float32Proofs Arith32 Arith32Spec Arith32Proofs LayoutArith RoundedLinesSpec RoundedLinesProofs RoundingSpec.
Local Open Scope Q_scope.

(** ** One operation *)
Lemma rounded_is_round32 : forall q, 0 <= q -> q < too_large -> rounded q = round32 q /\ finite32 (rounded q).
Proof.
  intros q P L. destruct (rounded_nearest q) as (H & _). assert (A : Qabs q < too_large) by (rewrite Qabs_pos; assumption).
  destruct (H A) as [F _]. split; [|exact F]. pose proof (finite_bounds _ F) as B. destruct (rounded_cases q) as [[X E]|[[X E]|[X E]]]; [exfalso|exfalso|exact E]; rewrite E in B; lra.
Qed.
Lemma rounded_error : forall q, 0 <= q -> q < too_large -> Qabs (rounded q - q) <= q * (1 # 16777216) + pow2 (-150).
Proof. intros q P L. rewrite (proj1 (rounded_is_round32 q P L)). pose proof (round32_error q) as H. rewrite (Qabs_pos q P) in H. exact H. Qed.
Lemma multiple : forall q, finite32 q -> exists m, q == inject_Z m * pow2 (-149).
Proof.
  intros q (m & e & _ & He & E). exists (m * 2 ^ (e + 149))%Z. rewrite E, inject_Z_mult, <- pow2_Z by lia. rewrite <- Qmult_assoc, <- pow2_plus.
  replace (e + 149 + -149)%Z with e by lia. reflexivity.
Qed.
(** A sum has no error that is not relative to it. *)
Lemma sum_error : forall a b, finite32 a -> finite32 b -> 0 <= a -> 0 <= b -> a + b < too_large ->
  finite32 (f32_add a b) /\ Qabs (f32_add a b - (a + b)) <= (a + b) * (1 # 16777216).
Proof.
  intros a b Fa Fb Pa Pb L.
  assert (E : f32_add a b = rounded (a + b)).
  { unfold f32_add. rewrite (finite_not_nan _ Fa), (finite_not_nan _ Fb), (finite_not_infinite _ Fa), (finite_not_infinite _ Fb). reflexivity. }
  assert (P : 0 <= a + b) by lra. destruct (rounded_is_round32 _ P L) as [R F]. rewrite E. split; [exact F|]. rewrite R.
  destruct (Qlt_le_dec (a + b) (pow2 (-126))) as [S|S].
  - destruct (multiple _ Fa) as (m & Em). destruct (multiple _ Fb) as (n & En).
    assert (Es : a + b == inject_Z (m + n) * pow2 (-149)) by (rewrite inject_Z_plus, Em, En; ring).
    assert (Bm : (Z.abs (m + n) < 2 ^ 24)%Z).
    { assert (X : inject_Z (m + n) < inject_Z (2 ^ 23)).
      { apply (Qmult_lt_r _ _ (pow2 (-149))); [apply pow2_pos|]. rewrite <- Es. eapply Qlt_le_trans; [exact S|]. rewrite <- pow2_Z by lia. rewrite <- pow2_plus. apply Qle_refl. }
      assert (Y : inject_Z 0 <= inject_Z (m + n)).
      { apply Qnot_lt_le. intros Z. apply (Qmult_lt_r _ _ (pow2 (-149))) in Z; [|apply pow2_pos]. rewrite <- Es in Z. change (inject_Z 0) with 0 in Z. rewrite Qmult_0_l in Z. lra. }
      rewrite <- Zlt_Qlt in X. rewrite <- Zle_Qle in Y. lia. }
    assert (Z : round32 (a + b) == a + b) by (rewrite (round32_comp _ _ Es), round32_exact by lia; symmetry; exact Es).
    assert (D : round32 (a + b) - (a + b) == 0) by (rewrite Z; ring). rewrite D. change (Qabs 0) with 0. lra.
  - pose proof (round32_near (a + b)) as N. rewrite (Qabs_pos (a + b) P) in N. apply N. right. rewrite Qabs_pos by exact P. exact S.
Qed.
Lemma abs_le : forall x y, Qabs x <= y <-> - y <= x <= y.
Proof. intros x y. apply Qabs_Qle_condition. Qed.

(** ** Sums *)
Section Font.
Variable glyph_id : N -> res font_error N.
Variable glyph_width : N -> res font_error Q.
Hypothesis widths : forall g w, glyph_width g = Ok w -> finite32 w /\ 0 <= w <= pow2 64.
Notation adds32 := (adds_up f32 glyph_id glyph_width).
Notation adds := (adds_up exact glyph_id glyph_width).
Lemma adds_other : forall ar ar' w t gs w', adds_up ar glyph_id glyph_width w t gs w' -> forall v, exists v', adds_up ar' glyph_id glyph_width v t gs v'.
Proof.
  intros ar ar' w t gs w' H. induction H as [w|w ch t g gs gw w' H1 H2 H IH]; intros v; [exists v; constructor|].
  destruct (IH (a_add ar' v gw)) as (v' & V). exists v'. econstructor; eassumption.
Qed.
Lemma count_S : forall n, count (S n) == count n + 1.
Proof. intros n. unfold count. rewrite Nat2Z.inj_succ, <- Z.add_1_r, inject_Z_plus. reflexivity. Qed.
Lemma count_le : forall m n, (m <= n)%nat -> count m <= count n.
Proof. intros m n H. unfold count. rewrite <- Zle_Qle. lia. Qed.
Lemma count_pos : forall n, 0 <= count n.
Proof. intros n. apply (count_le 0 n). lia. Qed.
(** [w] is near [W] after [k] sums. *)
Definition near_sum (k : nat) (w W : Q) : Prop := finite32 w /\ 0 <= w /\ 0 <= W <= count k * pow2 64 /\ Qabs (w - W) <= count k * unit_ * W.
Definition enough : Q := 8388608.
Lemma near_sum_step : forall k w W g, count (S k) <= enough -> near_sum k w W -> finite32 g -> 0 <= g <= pow2 64 -> near_sum (S k) (f32_add w g) (W + g).
Proof.
  intros k w W g Hk (Fw & Pw & (PW & UW) & E) Fg [Pg Ug]. rewrite count_S in Hk. pose proof (count_pos k) as Ck. unfold enough in Hk.
  assert (X : 0 <= count k * unit_ <= 1) by (unfold unit_; lra). set (x := count k * unit_) in *.
  assert (Y : 0 <= x * W <= W) by (split; [apply Qmult_le_0_compat; lra|]; rewrite <- (Qmult_1_l W) at 2; apply Qmult_le_compat_r; lra).
  assert (Z : 0 <= x * g) by (apply Qmult_le_0_compat; lra). apply abs_le in E.
  assert (P64 : 0 < pow2 64) by apply pow2_pos.
  assert (UW' : W <= enough * pow2 64). { eapply Qle_trans; [exact UW|]. apply Qmult_le_compat_r; [unfold enough; lra|lra]. }
  assert (T : enough * pow2 64 * 3 < too_large) by (vm_compute; reflexivity). assert (T2 : pow2 64 <= enough * pow2 64) by (vm_compute; discriminate).
  destruct (sum_error w g Fw Fg Pw Pg) as [F B]; [lra|]. apply abs_le in B. split; [exact F|].
  split; [lra|]. split; [split; [lra|]; rewrite count_S; lra|].
  apply abs_le. assert (R : count (S k) * unit_ * (W + g) == x * W + x * g + unit_ * (W + g)) by (rewrite count_S; unfold x; ring). rewrite R. unfold unit_ in *. lra.
Qed.
Lemma adds_near : forall t w gs w', adds32 w t gs w' -> forall k W gs' W', adds W t gs' W' -> near_sum k w W -> count (k + length t) <= enough ->
  near_sum (k + length t) w' W'.
Proof.
  intros t w gs w' H. induction H as [w|w ch t g gs gw w' H1 H2 H IH]; intros k W gs' W' H' Hn Hk; inversion H' as [|? ? ? g' gs0 gw0 ? H1' H2' H0]; subst.
  - cbn [length]. rewrite Nat.add_0_r. exact Hn.
  - assert (Eg : g' = g) by congruence. subst g'. assert (Ew : gw0 = gw) by congruence. subst gw0. cbn [length] in *. rewrite <- Nat.add_succ_comm in *.
    destruct (widths _ _ H2) as [Fg Bg]. apply (IH (S k) (W + gw) gs0 W' H0); [|exact Hk]. apply near_sum_step; try assumption.
    eapply Qle_trans; [|exact Hk]. apply count_le. lia.
Qed.
Lemma near_start : near_sum 0 0 0.
Proof. split; [exists 0%Z, 0%Z; repeat split; lia|]. split; [lra|]. split; [split; [lra|vm_compute; discriminate]|]. vm_compute. discriminate. Qed.

(** ** Lines *)
Variables available fs : Q.
Hypothesis room : finite32 available.
Hypothesis size_ok : size32 fs.
Variable text : list N.
Hypothesis short : (Z.of_nat (length text) < 8388608)%Z.
Hypothesis dec_ : decided glyph_id glyph_width available fs text.
Lemma short_count : forall l, possible_line text l -> count (length l) <= enough.
Proof.
  intros l (a & c & E & _). assert (L : (Z.of_nat (length l) < 8388608)%Z) by (pose proof (f_equal (@length N) E) as X; rewrite !app_length in X; lia).
  unfold count, enough. change 8388608 with (inject_Z 8388608). rewrite <- Zle_Qle. lia.
Qed.
Lemma product_near : forall l gs w gs' W, count (length l) <= enough -> adds32 0 l gs w -> adds 0 l gs' W ->
  0 <= fs * W /\ fs * W - count (length l) * unit_ * (fs * W) <= fs * w <= fs * W + count (length l) * unit_ * (fs * W) /\ 0 <= fs * w <= 2 * (fs * W) /\
  f32_mul fs w = rounded (fs * w).
Proof.
  intros l gs w gs' W Hc H H'. pose proof (adds_near _ _ _ _ H 0 0 gs' W H' near_start Hc) as (Fw & Pw & (PW & _) & E). cbn [plus] in E.
  destruct size_ok as [Fs Ps]. assert (P : 0 <= fs * W) by (apply Qmult_le_0_compat; lra). split; [exact P|].
  apply abs_le in E. assert (X : 0 <= count (length l) * unit_ <= 1) by (pose proof (count_pos (length l)); unfold unit_, enough in *; lra).
  set (x := count (length l) * unit_) in *.
  assert (A1 : fs * (W - x * W) <= fs * w) by (rewrite !(Qmult_comm fs); apply Qmult_le_compat_r; lra).
  assert (A2 : fs * w <= fs * (W + x * W)) by (rewrite !(Qmult_comm fs); apply Qmult_le_compat_r; lra).
  assert (A3 : 0 <= fs * w) by (apply Qmult_le_0_compat; lra).
  assert (A4 : x * (fs * W) <= fs * W) by (rewrite <- (Qmult_1_l (fs * W)) at 2; apply Qmult_le_compat_r; lra).
  assert (R1 : fs * (W - x * W) == fs * W - x * (fs * W)) by ring. assert (R2 : fs * (W + x * W) == fs * W + x * (fs * W)) by ring.
  split; [lra|]. split; [lra|]. unfold f32_mul. rewrite (finite_not_nan _ Fs), (finite_not_nan _ Fw), (finite_not_infinite _ Fs), (finite_not_infinite _ Fw). reflexivity.
Qed.
Lemma gt32 : forall x, is_nan x = false -> a_gt f32 x available = negb (Qle_bool x available).
Proof. intros x H. cbn [f32 a_gt]. unfold f32_compare. rewrite H, (finite_not_nan _ room). reflexivity. Qed.
Lemma rounded_not_nan : forall x, is_nan (rounded x) = false.
Proof. intros x. apply not_nan. split; [apply rounded_number|]. apply rounded_bounds. Qed.
(** It fits, or not, either way. *)
Lemma same_answer : forall l gs w gs' W, possible_line text l -> adds32 0 l gs w -> adds 0 l gs' W ->
  a_gt f32 (a_mul f32 fs w) available = a_gt exact (a_mul exact fs W) available.
Proof.
  intros l gs w gs' W Hl H H'. pose proof (short_count l Hl) as Hc. destruct (product_near l gs w gs' W Hc H H') as (P & B & U & M).
  cbn [f32 a_mul exact]. rewrite M. change (f32_compare _) with (a_gt f32). change (a_gt _ (fs * W) available) with (negb (Qle_bool (fs * W) available)).
  fold f32. change (a_gt f32 (rounded (fs * w)) available = negb (Qle_bool (fs * W) available)).
  rewrite (gt32 _ (rounded_not_nan _)). f_equal.
  assert (P149 : 0 < pow2 (-149)) by apply pow2_pos. assert (H150 : pow2 (-149) == 2 * pow2 (-150)) by reflexivity.
  assert (Sl : slack (length l) (fs * W) == count (length l) * unit_ * (fs * W) + unit_ * (fs * W) + pow2 (-149)) by (unfold slack; rewrite count_S; ring).
  pose proof (count_pos (length l)) as Cp. assert (Xp : 0 <= count (length l) * unit_ * (fs * W)) by (apply Qmult_le_0_compat; [unfold unit_; lra|exact P]).
  assert (Up : 0 <= unit_ * (fs * W)) by (unfold unit_; lra).
  destruct (dec_ l gs' W Hl H') as [D|D]; rewrite Sl in D.
  - assert (Y : Qle_bool (fs * W) available = true) by (apply Qle_bool_iff; lra). rewrite Y. apply Qle_bool_iff.
    rewrite <- (rounded_same available room). apply rounded_le. lra.
  - assert (Y : Qle_bool (fs * W) available = false) by (apply Bool.not_true_iff_false; rewrite Qle_bool_iff; lra). rewrite Y.
    apply Bool.not_true_iff_false. rewrite Qle_bool_iff. intros G. destruct (Qlt_le_dec (fs * w) too_large) as [L|L].
    + pose proof (rounded_error _ (proj1 U) L) as E. apply abs_le in E. unfold unit_ in *. lra.
    + destruct (rounded_nearest (fs * w)) as (_ & R & _). rewrite (R L) in G. pose proof (finite_bounds _ room). lra.
Qed.
Notation fit ar := (fits_in ar glyph_id glyph_width available fs).
Notation wide ar := (wide_in ar glyph_id glyph_width available fs).
Lemma fit_same : forall l, possible_line text l -> fit f32 l -> fit exact l.
Proof.
  intros l Hl (gs & w & H & G). destruct (adds_other f32 exact _ _ _ _ H 0) as (W & H'). exists gs, W. split; [exact H'|].
  rewrite <- (same_answer l gs w gs W Hl H H'). exact G.
Qed.
Lemma wide_same : forall l, possible_line text l -> wide f32 l -> wide exact l.
Proof.
  intros l Hl (gs & w & H & G). destruct (adds_other f32 exact _ _ _ _ H 0) as (W & H'). exists gs, W. split; [exact H'|].
  rewrite <- (same_answer l gs w gs W Hl H H'). exact G.
Qed.
End Font.

(** ** Lines are determined by what possible lines fit *)
Section Same.
Variables f f' w w' : list N -> Prop.
Variable whole : list N.
Hypothesis Hf : forall l, possible_line whole l -> f l -> f' l.
Hypothesis Hw : forall l, possible_line whole l -> w l -> w' l.
Definition begins (text : list N) : Prop := exists a, whole = a ++ text /\ (a = [] \/ exists a', a = a' ++ [space]).
Lemma begins_possible : forall text l c, begins text -> text = l ++ c -> (c = [] \/ exists c', c = space :: c') -> possible_line whole l.
Proof. intros text l c (a & E & Ha) -> Hc. exists a, c. split; [exact E|]. split; assumption. Qed.
Lemma line1_same : forall t l r, begins t -> line1 f w t l r -> line1 f' w' t l r.
Proof.
  intros t l0 r0 Hb H. destruct H as [line word rest A1 A2 A3 A4 A5|word rest A1 A2|line A1 A2].
  - apply l1_words; [| |exact A3|exact A4|].
    + intros l r E. apply Hf; [|exact (A1 _ _ E)]. apply (begins_possible _ l (space :: r ++ space :: word ++ rest) Hb); [rewrite E, <- app_assoc; reflexivity|right; eexists; reflexivity].
    + apply Hf; [|exact A2]. apply (begins_possible _ line (space :: word ++ rest) Hb); [reflexivity|right; eexists; reflexivity].
    + apply Hw; [|exact A5]. apply (begins_possible _ (line ++ space :: word) rest Hb); [rewrite <- app_assoc; reflexivity|exact A4].
  - apply l1_one; [exact A1|]. apply Hw; [|exact A2]. apply (begins_possible _ word (space :: rest) Hb); [reflexivity|right; eexists; reflexivity].
  - apply l1_all.
    + intros l r E. apply Hf; [|exact (A1 _ _ E)]. apply (begins_possible _ l (space :: r) Hb); [exact E|right; eexists; reflexivity].
    + assert (P : possible_line whole line) by (apply (begins_possible _ line [] Hb); [rewrite app_nil_r; reflexivity|left; reflexivity]).
      destruct A2 as [A2|[A2 A3]]; [left; exact (Hf _ P A2)|right; split; [exact A2|exact (Hw _ P A3)]].
Qed.
Lemma lines1_same : forall t ls, lines1 f w t ls -> begins t -> lines1 f' w' t ls.
Proof.
  intros t ls H. induction H as [t l H|t l r ls H N H' IH]; intros Hb.
  - apply ls_last. exact (line1_same _ _ _ Hb H).
  - apply (ls_more _ _ _ _ r); [exact (line1_same _ _ _ Hb H)|exact N|]. apply IH.
    destruct (line1_kept _ _ _ _ _ H) as [-> |[_ ->]]; [|contradiction]. destruct Hb as (a & E & _). exists (a ++ l ++ [space]).
    split; [rewrite E, <- !app_assoc; reflexivity|]. right. exists (a ++ l). rewrite <- app_assoc. reflexivity.
Qed.
End Same.
Section Fun.
Variables f w : list N -> Prop.
Hypothesis never_both : forall t, f t -> w t -> False.
Lemma stop1_unique : forall text a b, stop1 f w text a -> stop1 f w text b -> a = b.
Proof.
  intros text a b (A1 & A2 & A3) (B1 & B2 & B3). destruct (breaks_order text a b A1 B1) as [E|[(r & E)|(r & E)]]; [exact E| |].
  - exfalso. exact (never_both _ (A3 _ _ E) B2).
  - exfalso. exact (never_both _ (B3 _ _ E) A2).
Qed.
Lemma line1_fun : forall text l r l' r', line1 f w text l r -> line1 f w text l' r' -> l = l' /\ r = r'.
Proof.
  intros text l1 r1 l2 r2 H1 H2. apply line1_by_stop in H1, H2.
  assert (K : forall a b, stop1 f w text (a ++ space :: b) -> forall l, stop1 f w text l -> unbreakable l -> False).
  { intros a b S1 l S2 U. rewrite (stop1_unique _ _ _ S2 S1) in U. apply U. apply in_or_app. right. left. reflexivity. }
  assert (K2 : forall st, stop1 f w text st -> (forall l, breaks text l -> f l) -> False).
  { intros st (B & T & _) F. exact (never_both _ (F _ B) T). }
  destruct H1 as [w1 a1 S1 U1 T1 R1|S1 U1 T1|F1 E1 R1], H2 as [w2 a2 S2 U2 T2 R2|S2 U2 T2|F2 E2 R2]; try (exfalso; eauto; fail).
  - destruct (last_space _ _ _ _ U1 U2 (stop1_unique _ _ _ S1 S2)) as [-> ->]. split; [reflexivity|]. subst. apply app_inv_head in T2. injection T2 as E. exact E.
  - pose proof (stop1_unique _ _ _ S1 S2) as ->. split; [reflexivity|]. destruct T1 as [[E1 ->]|E1], T2 as [[E2 ->]|E2]; [reflexivity| | |].
    + exfalso. rewrite E1 in E2. apply (f_equal (@length N)) in E2. rewrite app_length in E2. cbn [length] in E2. lia.
    + exfalso. rewrite E2 in E1. apply (f_equal (@length N)) in E1. rewrite app_length in E1. cbn [length] in E1. lia.
    + rewrite E1 in E2. apply app_inv_head in E2. injection E2 as E. exact E.
  - subst. split; reflexivity.
Qed.
Lemma lines1_fun : forall text ls, lines1 f w text ls -> forall ls', lines1 f w text ls' -> ls = ls'.
Proof.
  intros text lines H. induction H as [text l H|text l rest lines H N H' IH]; intros lines' H2; destruct H2 as [text l' H2|text l' rest' lines' H2 N2 H2'].
  - destruct (line1_fun _ _ _ _ _ H H2) as [-> _]. reflexivity.
  - destruct (line1_fun _ _ _ _ _ H H2) as [_ <-]. congruence.
  - destruct (line1_fun _ _ _ _ _ H H2) as [_ ->]. congruence.
  - destruct (line1_fun _ _ _ _ _ H H2) as [-> ->]. f_equal. apply IH. exact H2'.
Qed.
End Fun.

(** ** Heights *)
Lemma stacked_near : forall h n, finite32 h -> 0 <= h <= pow2 64 -> count n <= enough -> near_sum n (stacked f32 h n) (stacked exact h n).
Proof.
  intros h n F B. induction n as [|n IH]; intros Hn; [exact near_start|]. cbn [stacked]. apply near_sum_step; try assumption. apply IH.
  rewrite count_S in Hn. lra.
Qed.
Lemma stacked_exact : forall h n, stacked exact h n == count n * h.
Proof. intros h n. induction n as [|n IH]; [unfold count; cbn; ring|]. cbn [stacked exact a_add]. rewrite IH, count_S. ring. Qed.
Lemma height_near : forall fs, size32 fs -> fs <= pow2 63 -> let h := f32_max 0 (f32_mul fs (rounded (12 # 10))) in
  finite32 h /\ 0 <= h <= pow2 64 /\ Qabs (h - fs * (12 # 10)) <= 2 * unit_ * (fs * (12 # 10)) + pow2 (-150).
Proof.
  intros fs [Fs Ps] U h.
  assert (R : finite32 (rounded (12 # 10)) /\ Qabs (rounded (12 # 10) - (12 # 10)) <= (12 # 10) * (1 # 16777216)).
  { split; [apply rounded_is_round32; [discriminate|vm_compute; reflexivity]|vm_compute; discriminate]. }
  destruct R as [Fr Er]. apply abs_le in Er. set (r := rounded (12 # 10)) in *. clearbody r.
  assert (A1 : fs * r <= fs * (12 # 10) + fs * (12 # 10) * (1 # 16777216)).
  { assert (X : fs * r <= fs * ((12 # 10) + (12 # 10) * (1 # 16777216))) by (rewrite !(Qmult_comm fs); apply Qmult_le_compat_r; lra). lra. }
  assert (A2 : fs * (12 # 10) - fs * (12 # 10) * (1 # 16777216) <= fs * r).
  { assert (X : fs * ((12 # 10) - (12 # 10) * (1 # 16777216)) <= fs * r) by (rewrite !(Qmult_comm fs); apply Qmult_le_compat_r; lra). lra. }
  assert (P : 0 <= fs * r) by lra. assert (P64 : pow2 64 == 2 * pow2 63) by reflexivity. assert (T : pow2 64 < too_large) by (vm_compute; reflexivity).
  assert (L : fs * r < too_large) by lra.
  assert (M : f32_mul fs r = rounded (fs * r)).
  { unfold f32_mul. rewrite (finite_not_nan _ Fs), (finite_not_nan _ Fr), (finite_not_infinite _ Fs), (finite_not_infinite _ Fr). reflexivity. }
  destruct (rounded_is_round32 _ P L) as [_ F]. pose proof (rounded_error _ P L) as E. apply abs_le in E. pose proof (rounded_width _ P) as W.
  assert (Hh : h == rounded (fs * r)).
  { unfold h. rewrite M. unfold f32_max. change (is_nan 0) with false. rewrite (finite_not_nan _ F). apply Q.max_r. apply W. }
  split; [exact (finite32_comp _ _ (Qeq_sym _ _ Hh) F)|]. rewrite Hh. assert (S : pow2 (-150) <= 1) by (vm_compute; discriminate).
  assert (S3 : 1 <= pow2 63 * (1 # 10)) by (vm_compute; discriminate).
  split; [split; [apply W|lra]|]. apply abs_le. unfold unit_. lra.
Qed.
Lemma block_near : forall fs n, size32 fs -> fs <= pow2 63 -> count n <= enough ->
  Qabs (stacked f32 (f32_max 0 (f32_mul fs (rounded (12 # 10)))) n - count n * (fs * (12 # 10))) <=
  count (2 * n + 2) * unit_ * (count n * (fs * (12 # 10))) + count n * pow2 (-149).
Proof.
  intros fs n Hs U Hn. destruct (height_near fs Hs U) as (F & B & E). set (h := f32_max 0 (f32_mul fs (rounded (12 # 10)))) in *. clearbody h.
  destruct (stacked_near h n F B Hn) as (_ & _ & _ & D). rewrite stacked_exact in D. pose proof (count_pos n) as Cn. apply abs_le in E, D. destruct Hs as [_ Ps].
  set (g := fs * (12 # 10)) in *. assert (Pg : 0 <= g) by (unfold g; lra). clearbody g.
  assert (X : 0 <= count n * unit_ <= 1) by (unfold unit_, enough in *; lra).
  assert (C2 : count (2 * n + 2) == 2 * count n + 2). { unfold count. rewrite Nat2Z.inj_add, Nat2Z.inj_mul, inject_Z_plus, inject_Z_mult. reflexivity. }
  rewrite C2. assert (P150 : 0 < pow2 (-150)) by apply pow2_pos. assert (H150 : pow2 (-149) == 2 * pow2 (-150)) by reflexivity.
  assert (N1 : count n * h <= count n * (g + 2 * unit_ * g + pow2 (-150))) by (rewrite !(Qmult_comm (count n)); apply Qmult_le_compat_r; lra).
  assert (N2 : count n * (g - 2 * unit_ * g - pow2 (-150)) <= count n * h) by (rewrite !(Qmult_comm (count n)); apply Qmult_le_compat_r; lra).
  set (x := count n * unit_) in *.
  assert (N3 : x * (count n * h) <= x * (count n * (g + 2 * unit_ * g + pow2 (-150)))) by (rewrite !(Qmult_comm x); apply Qmult_le_compat_r; lra).
  assert (PG : 0 <= count n * g) by (apply Qmult_le_0_compat; assumption). assert (PC : 0 <= count n * pow2 (-150)) by (apply Qmult_le_0_compat; lra).
  assert (XG : 0 <= x * (count n * g)) by (apply Qmult_le_0_compat; lra).
  assert (XC : x * (count n * pow2 (-150)) <= count n * pow2 (-150)) by (rewrite <- (Qmult_1_l (count n * pow2 (-150))) at 2; apply Qmult_le_compat_r; lra).
  assert (R1 : x * (count n * (g + 2 * unit_ * g + pow2 (-150))) == x * (count n * g) + 2 * unit_ * (x * (count n * g)) + x * (count n * pow2 (-150))) by ring.
  assert (R2 : (2 * count n + 2) * unit_ * (count n * g) == 2 * (x * (count n * g)) + 2 * unit_ * (count n * g)) by (unfold x; ring).
  assert (R3 : count n * (g + 2 * unit_ * g + pow2 (-150)) == count n * g + 2 * unit_ * (count n * g) + count n * pow2 (-150)) by ring.
  assert (R4 : count n * (g - 2 * unit_ * g - pow2 (-150)) == count n * g - 2 * unit_ * (count n * g) - count n * pow2 (-150)) by ring.
  assert (R5 : count n * pow2 (-149) == 2 * (count n * pow2 (-150))) by (rewrite H150; ring).
  apply abs_le. rewrite R2, R5. rewrite R1 in N3. rewrite R3 in N1. rewrite R4 in N2. unfold unit_ in *.
  set (a := x * (count n * g)) in *. set (b := count n * g) in *. set (c := count n * pow2 (-150)) in *. set (d := x * c) in *. set (e := count n * h) in *. set (xe := x * e) in *. lra.
Qed.
Lemma joined_length : forall ls, (length ls <= S (length (joined ls)))%nat.
Proof.
  induction ls as [|l ls IH]; [cbn; lia|]. destruct ls as [|l2 ls]; [cbn [length joined]; lia|].
  change (joined (l :: l2 :: ls)) with (l ++ space :: joined (l2 :: ls)). rewrite app_length. cbn [length] in *. lia.
Qed.
