(** Property C82: how far plain text in binary32 is from where it would be without rounding *)
From Coq Require Import QArith Qabs Lqa Lia.
From Verif Require Import TextPlain LayoutProps Base LesterFloat LesterFloatProofs FontCmap Text TextPlainSpec Arith32 Arith32Spec TextPlainProofs TextPlainProps TextPlainArithSpec
  TextPlainArithProofs TextPlainArithProps ScaleProofs TextErrorSpec TextErrorProofs.
From Verif Require Arith32Proofs.
Local Open Scope Q_scope.

(** ** Sums *)
Theorem C82_sum : forall start l, length32 start -> Forall length32 l -> bounded (List.length l) (start + sum l) ->
  length32 (total f32 start l) /\ Qabs (total f32 start l - (start + sum l)) <= units (List.length l) * (start + sum l).
Proof.
  intros start l Hs Hl [B1 B2]. apply (total_error l 0 start start Hl Hs (proj2 Hs)); [|exact B1|exact B2].
  setoid_replace (start - start) with 0 by ring. setoid_replace (units 0 * start) with 0 by (rewrite units_eq; ring). discriminate.
Qed.
(** ** Widths of words *)
Theorem C82_word : forall glyph_id glyph_width font_size cs hard w, length32 font_size -> font_size < pow2 40 ->
  (forall g x, glyph_width g = Ok x -> length32 x /\ x < pow2 40) ->
  is_word_by f32 glyph_id glyph_width font_size (cs, hard) w ->
  exists t gs ws, visible cs t /\ shapes_by glyph_id glyph_width t gs ws /\ w_glyphs w = gs /\ w_hard w = hard /\
    ((Z.of_nat (List.length t) < 2 ^ 20)%Z -> length32 (w_width w) /\
     Qabs (w_width w - sum ws * font_size) <= units (S (List.length t)) * (sum ws * font_size) + tiniest).
Proof.
  intros gid gw fs cs hard w Hf Bf Hg H. inversion H as [cs' hard' t gs ws V S]; subst. exists t, gs, ws. split; [exact V|]. split; [exact S|]. cbn [w_glyphs w_hard w_width]. split; [reflexivity|]. split; [reflexivity|]. intros K.
  assert (L : List.length ws = List.length t /\ Forall length32 ws /\ sum ws <= inject_Z (Z.of_nat (List.length t)) * pow2 40).
  { clear - Hg S. induction S as [|ch t g gs x ws E1 E2 _ (IH1 & IH2 & IH3)]; [split; [reflexivity|split; [constructor|discriminate]]|].
    destruct (Hg _ _ E2) as [X1 X2]. cbn [List.length]. split; [rewrite IH1; reflexivity|]. split; [constructor; assumption|]. cbn [sum fold_right]. fold (sum ws). rewrite Z_of_S.
    setoid_replace ((inject_Z (Z.of_nat (List.length t)) + 1) * pow2 40) with (inject_Z (Z.of_nat (List.length t)) * pow2 40 + pow2 40) by ring. lra. }
  destruct L as (L1 & L2 & L3). rewrite <- L1 in *.
  assert (M : sum ws < pow2 60). { eapply Qle_lt_trans; [exact L3|]. change (pow2 60) with (inject_Z (2 ^ 20) * pow2 40). apply Qmult_lt_r; [reflexivity|]. rewrite <- Zlt_Qlt. exact K. }
  pose proof (sum_nonneg ws L2) as N. apply word_error; [exact L2|exact Hf|exact K| |].
  - assert (pow2 60 < pow2 126) by reflexivity. lra.
  - apply Qle_lt_trans with (pow2 60 * pow2 40); [|reflexivity]. apply Qle_trans with (sum ws * pow2 40).
    + rewrite !(Qmult_comm (sum ws)). apply Qmult_le_compat_r; [lra|exact N].
    + apply Qmult_le_compat_r; [lra|discriminate].
Qed.

(** ** Lines *)
Definition word_length (w : word) : Prop := length32 (w_width w) /\ w_width w < pow2 100.
Lemma words_bounded : forall l, Forall word_length l -> (Z.of_nat (List.length l) < 2 ^ 20)%Z -> lengths l /\ bounded (List.length l) (widths l).
Proof.
  intros l H K. split; [eapply Forall_impl; [|exact H]; intros w [X _]; exact X|]. split; [exact K|].
  assert (L : widths l <= inject_Z (Z.of_nat (List.length l)) * pow2 100).
  { clear K. induction H as [|w l [_ Hw] _ IH]; [discriminate|]. unfold widths, sum in *. cbn [map fold_right List.length]. rewrite Z_of_S.
    setoid_replace ((inject_Z (Z.of_nat (List.length l)) + 1) * pow2 100) with (inject_Z (Z.of_nat (List.length l)) * pow2 100 + pow2 100) by ring. lra. }
  eapply Qle_lt_trans; [exact L|]. apply Qlt_trans with (inject_Z (2 ^ 20) * pow2 100); [|reflexivity]. apply Qmult_lt_r; [reflexivity|]. rewrite <- Zlt_Qlt. exact K.
Qed.
(** The words of a line fit but for the error, and do not with the next word, but for the error. *)
Theorem C82_lines : forall avail ws ls rest, finite32 avail -> Forall word_length ws -> Forall (fun l => (Z.of_nat (S (List.length (fst l))) < 2 ^ 20)%Z) ls ->
  lines_by f32 avail ws ls rest ->
  forall before l soft after, ls = before ++ (l, soft) :: after ->
    (forall a w, l = a ++ [w] -> 0 < widths a -> widths l * (1 - units (List.length l)) <= avail) /\
    (soft = true -> exists w r, flat_map fst after ++ rest = w :: r /\ avail < widths (l ++ [w]) * (1 + units (S (List.length l)))).
Proof.
  intros avail ws ls rest Fa Hw Hn H. induction H as [ws F1 F2|l0 w0 r ls rest F1 F2 F3 H IH|l0 w0 r ls rest F1 F2 F3 F4 H IH]; intros before l soft after E.
  - destruct before; discriminate E.
  - apply Forall_app in Hw as [W1 W2]. inversion Hn as [|? ? N1 N2]; subst. cbn [fst] in N1. destruct before as [|x before]; cbn [app] in E; injection E as E1 E2; [|subst x; apply (IH W2 N2 before l soft after E2)].
    intros. subst l soft after. split; [|discriminate]. intros a w Ea P. apply app_inj_tail in Ea as [-> ->]. destruct (words_bounded _ W1 ltac:(lia)) as [L1 L2].
    rewrite app_length. cbn [List.length]. rewrite Nat.add_1_r. exact (fits_near _ _ Fa L1 L2 F1 a w [] eq_refl P).
  - assert (W := Hw). apply Forall_app in W as [W1 W2]. inversion Hn as [|? ? N1 N2]; subst. cbn [fst] in N1. destruct before as [|x before]; cbn [app] in E; injection E as E1 E2; [|subst x; apply (IH W2 N2 before l soft after E2)].
    intros. subst l soft after. destruct (words_bounded _ W1 ltac:(lia)) as [L1 L2]. split.
    + intros a w -> P. rewrite app_length. cbn [List.length]. rewrite Nat.add_1_r. exact (fits_near _ _ Fa L1 L2 F1 a w [] eq_refl P).
    + intros _. exists w0, r. split; [exact (lines_by_words _ _ _ _ _ H)|]. inversion W2 as [|? ? X _]; subst.
      assert (W3 : Forall word_length (l0 ++ [w0])) by (apply Forall_app; split; [exact W1|constructor; [exact X|constructor]]).
      destruct (words_bounded _ W3 ltac:(rewrite app_length; cbn [List.length]; lia)) as [L3 L4]. rewrite app_length in L4. cbn [List.length] in L4. rewrite Nat.add_1_r in L4. exact (over_near _ _ _ Fa L3 L4 F4).
Qed.
(** Text that fits with room for the error is not broken. *)
Theorem C82_not_broken : forall avail ws ls rest, finite32 avail -> Forall word_length ws -> (Z.of_nat (List.length ws) < 2 ^ 20)%Z -> no_hard ws ->
  widths ws * (1 + units (List.length ws)) <= avail -> lines_by f32 avail ws ls rest -> ls = [] /\ rest = ws.
Proof.
  intros avail ws ls rest Fa Hw K Nh B H. destruct (words_bounded _ Hw K) as [L1 L2]. assert (X : lines_by f32 avail ws [] ws).
  { apply lb_rest; [|exact Nh]. apply near_fits; [exact Fa|exact L1|exact L2|]. intros a w b -> _. eapply Qle_trans; [|exact B].
    assert (E : a ++ w :: b = (a ++ [w]) ++ b) by (rewrite <- app_assoc; reflexivity). rewrite E in *. pose proof (proj1 (Forall_app _ _ _) L1) as [M1 M2].
    rewrite (widths_app (a ++ [w]) b). pose proof (widths_nonneg _ M1) as P1. pose proof (widths_nonneg _ M2) as P2. rewrite app_length, units_plus, app_length. cbn [List.length]. rewrite Nat.add_1_r.
    pose proof (units_nonneg (S (List.length a))) as P3. pose proof (units_nonneg (List.length b)) as P4. set (p := widths (a ++ [w])) in *. set (q := widths b) in *. set (u := units (S _)) in *. set (v := units (List.length b)) in *.
    setoid_replace ((p + q) * (1 + (u + v))) with (p * (1 + u) + (p * v + q * (1 + (u + v)))) by ring.
    assert (0 <= p * v) by (apply Qmult_le_0_compat; assumption). assert (0 <= q * (1 + (u + v))) by (apply Qmult_le_0_compat; lra). lra. }
  destruct (C81_lines_unique f32 _ _ _ _ H _ _ X) as [-> ->]. split; reflexivity.
Qed.

(** ** Positions *)
Lemma with_before_in : forall A (l : list A) b a x, In (a, x) (with_before b l) -> exists r, b ++ l = a ++ x :: r.
Proof.
  intros A l. induction l as [|y l IH]; intros b a x H; [destruct H|]. cbn [with_before] in H. destruct H as [H|H].
  - injection H as <- <-. exists l. reflexivity.
  - destruct (IH _ _ _ H) as [r E]. rewrite <- app_assoc in E. exists r. exact E.
Qed.
(** The words of a line are one after the other, with the spacing after each; lines are below each other. *)
Theorem C82_places : forall left top avail height baseline justify ls, length32 left -> length32 top -> length32 height -> length32 baseline ->
  Forall (fun l => lengths (fst l)) ls ->
  forall x y w, In (x, y, w) (placed_by f32 left top avail height baseline justify ls) ->
  exists before l soft after a b, ls = before ++ (l, soft) :: after /\ l = a ++ w :: b /\
    let s := spacing_by f32 avail justify (l, soft) in
    let x' := left + widths a + inject_Z (Z.of_nat (List.length a)) * s in
    let y' := top + inject_Z (Z.of_nat (List.length before)) * height + baseline in
    (length32 s -> (Z.of_nat (List.length a) < 2 ^ 20)%Z -> x' < pow2 125 -> Qabs (x - x') <= units (S (List.length a)) * x') /\
    ((Z.of_nat (S (List.length before)) < 2 ^ 20)%Z -> y' < pow2 126 -> Qabs (y - y') <= units (S (List.length before)) * y').
Proof.
  intros left top avail height baseline justify ls Hl Ht Hh Hb Hw x y w H. unfold placed_by in H. apply in_flat_map in H as ([before [l soft]] & H1 & H2). apply in_map_iff in H2 as ([a w'] & E & H2).
  cbn [fst snd] in H1, H2, E. pose proof (with_before_in _ _ [] _ _ H1) as [after Els]. pose proof (with_before_in _ _ [] _ _ H2) as [b El]. cbn [app] in Els, El.
  pose proof (pair_equal_spec (total f32 left (map (fun w => a_add f32 (w_width w) (spacing_by f32 avail justify (l, soft))) a), a_add f32 (line_top f32 top height (List.length before)) baseline) (x, y) w' w) as [Pe _].
  destruct (Pe E) as [E1 ->]. apply pair_equal_spec in E1 as [<- <-]. clear E Pe. exists before, l, soft, after, a, b. split; [exact Els|]. split; [exact El|]. intros s x' y'.
  assert (La : lengths a). { rewrite Forall_forall in Hw. specialize (Hw (l, soft) ltac:(rewrite Els; apply in_or_app; right; left; reflexivity)). cbn [fst] in Hw. rewrite El in Hw. apply Forall_app in Hw as [X _]. exact X. }
  split.
  - intros Hs K B. assert (Ex : x' == left + spread s a) by (unfold x', spread; ring). pose proof (place_error s left a Hs Hl La K) as [_ P]; [rewrite <- Ex; exact B|]. rewrite Ex. exact P.
  - intros K B. unfold line_top. rewrite <- total_last.
    assert (Es : forall n, sum (repeat height n ++ [baseline]) == inject_Z (Z.of_nat n) * height + baseline).
    { induction n as [|n IH]; [cbn [repeat app sum fold_right]; ring|]. cbn [repeat app sum fold_right]. fold (sum (repeat height n ++ [baseline])). rewrite IH, Z_of_S. ring. }
    assert (Ey : y' == top + sum (repeat height (List.length before) ++ [baseline])) by (rewrite Es; unfold y'; ring).
    destruct (C82_sum top (repeat height (List.length before) ++ [baseline]) Ht) as [_ P].
    + apply Forall_app. split; [apply Forall_forall; intros z Hz; apply repeat_spec in Hz; subst z; exact Hh|constructor; [exact Hb|constructor]].
    + rewrite app_length, repeat_length. cbn [List.length]. rewrite Nat.add_1_r. split; [exact K|]. rewrite <- Ey. exact B.
    + rewrite app_length, repeat_length in P. cbn [List.length] in P. rewrite Nat.add_1_r in P. rewrite Ey. exact P.
Qed.
(** The last word of a justified line ends at the margin, and there is no room between words of other lines. *)
Theorem C82_justified : forall left avail m w, length32 left -> length32 avail -> lengths (m ++ [w]) -> m <> [] -> bounded (S (List.length m)) (widths (m ++ [w])) -> left + avail < pow2 123 ->
  a_gt f32 (a_sub f32 avail (width_by f32 (m ++ [w]))) 0 = true ->
  let s := spacing_by f32 avail true (m ++ [w], true) in
  Qabs (total f32 left (map (fun v => a_add f32 (w_width v) s) m) + w_width w - (left + avail)) <=
    units (3 * S (S (List.length m))) * (left + avail) + inject_Z (Z.of_nat (List.length m)) * tiniest.
Proof.
  intros left avail m w Hl Ha H Hm B R G. apply justified_error; try assumption. destruct (Qlt_le_dec (width_by f32 (m ++ [w])) avail) as [L|L]; [exact L|]. exfalso.
  assert (Ln : List.length (m ++ [w]) = S (List.length m)) by (rewrite app_length; cbn [List.length]; lia). rewrite <- Ln in B. destruct (width_error _ H B) as [W1 W2]. set (T := width_by f32 (m ++ [w])) in *.
  pose proof (units_small _ (proj1 B)) as U. pose proof (widths_nonneg _ H) as WN. assert (Q1 : units (List.length (m ++ [w])) * widths (m ++ [w]) <= (1 # 8) * widths (m ++ [w])) by (apply Qmult_le_compat_r; assumption).
  apply Qabs_Qle_condition in W2. destruct B as [_ B]. pose proof (proj2 Ha) as A0.
  assert (X : pow2 127 == 2 * pow2 126) by reflexivity. set (b := pow2 126) in *. set (d := pow2 127) in *.
  assert (N : f32_neg T = - T) by (unfold f32_neg; rewrite (Arith32Proofs.finite_not_nan T (proj1 W1)); reflexivity).
  assert (E : Qabs (avail + - T) == T - avail) by (rewrite Qabs_neg by lra; ring).
  destruct (add_error avail (- T) (proj1 Ha) (Arith32Proofs.finite32_opp T (proj1 W1))) as [F D]; [rewrite E; fold d; lra|].
  cbn [a_sub f32] in G. unfold f32_sub in G. rewrite N in G. change (f32_add avail (- T)) with (a_add f32 avail (- T)) in G. apply (gt_finite _ _ F (proj1 zero_length)) in G.
  rewrite E in D. apply Qabs_Qle_condition in D. lra.
Qed.
Theorem C82_ragged : forall avail justify l soft, justify && soft = false -> spacing_by f32 avail justify (l, soft) = 0.
Proof. intros avail justify l soft E. unfold spacing_by. cbn [fst snd]. rewrite E. reflexivity. Qed.

(** ** The sheet *)
Theorem C82_pixels : forall mm, finite32 mm -> Qabs mm < pow2 120 ->
  finite32 (px_by f32 mm) /\ Qabs (px_by f32 mm - pixels mm) <= Qabs (pixels mm) * (1 # 8388608) + tiniest.
Proof.
  intros mm F B. unfold px_by. set (c := a_mul f32 (a_div f32 1 (a_lit f32 (254 # 10))) (a_lit f32 96)).
  assert (Ec : c == 1981561 # 524288) by (vm_compute; reflexivity). assert (Fc : finite32 c). { apply (Arith32Proofs.finite32_comp (1981561 # 524288)); [symmetry; exact Ec|]. exists 1981561%Z, (-19)%Z. split; [reflexivity|]. split; [lia|reflexivity]. }
  pose proof (Arith32Proofs.f32_mul_nearest mm c F Fc) as N. assert (Em : mm * c == mm * (1981561 # 524288)) by (rewrite Ec; reflexivity).
  apply (Arith32Proofs.nearest32_comp _ _ _ _ Em (Qeq_refl _)) in N. change (f32_mul mm c) with (a_mul f32 mm c) in N. set (r := a_mul f32 mm c) in *. clearbody r c. unfold pixels.
  assert (A1 : Qabs (mm * (1981561 # 524288)) == Qabs mm * (1981561 # 524288)) by (rewrite Qabs_Qmult; reflexivity). assert (A2 : Qabs (mm * (960 # 254)) == Qabs mm * (960 # 254)) by (rewrite Qabs_Qmult; reflexivity).
  assert (L : Qabs (mm * (1981561 # 524288)) < too_large). { apply large_enough. rewrite A1. assert (X : pow2 127 == 128 * pow2 120) by reflexivity. set (b := pow2 120) in *. set (d := pow2 127) in *. clearbody b d. pose proof (Qabs_nonneg mm). lra. }
  pose proof (nearest32_error _ _ L N) as M. rewrite A1 in M. rewrite A2. split; [exact (proj1 (proj1 N L))|]. assert (T : pow2 (-150) == tiniest * (1 # 2)) by reflexivity. rewrite T in M. assert (T0 : 0 < tiniest) by reflexivity.
  apply Qabs_Qle_condition in M. apply Qabs_Qle_condition. set (t := tiniest) in *. clearbody t. destruct (Arith32Proofs.abs_cases mm) as [[S E]|[S E]]; rewrite E in *; split; lra.
Qed.

(** ** Examples *)
Definition length32b (q : Q) : bool := Qeq_bool (rounded q) q && Qle_bool 0 q && negb (Qle_bool too_large q).
Lemma length32b_ok : forall q, length32b q = true -> length32 q.
Proof.
  intros q H. unfold length32b in H. rewrite !Bool.andb_true_iff, Bool.negb_true_iff in H. destruct H as ((E & P) & L). apply Qeq_bool_iff in E. apply Qle_bool_iff in P. split; [|exact P].
  destruct (Arith32Proofs.rounded_nearest q) as (N & _). assert (T : Qabs q < too_large). { rewrite (Qabs_pos q P). apply Qnot_le_lt. intros X. apply Qle_bool_iff in X. congruence. }
  exact (Arith32Proofs.finite32_comp _ _ E (proj1 (N T))).
Qed.
(** A tenth, as near as a number of binary32 can be: ten of them are not 1, and neither is their sum. *)
Definition tenth : Q := 13421773 # 134217728.
Example C82_sum_meets : length32 0 /\ Forall length32 (repeat tenth 10) /\ bounded 10 (0 + sum (repeat tenth 10)) /\
  0 + sum (repeat tenth 10) == 67108865 # 67108864 /\ total f32 0 (repeat tenth 10) == 8388609 # 8388608.
Proof.
  split; [apply zero_length|]. split; [|split; [split; reflexivity|split; vm_compute; reflexivity]]. cbn [repeat]. repeat (constructor; [apply length32b_ok; vm_compute; reflexivity|]). constructor.
Qed.
(** Words of a tenth of an em at 16 pixels; a line of 17 pixels *)
Definition ex_w (n : nat) (hard : bool) : word := mkWord (repeat 97%N n) (a_mul f32 (total f32 0 (repeat tenth n)) (a_div f32 16 1)) hard.
Definition ex_ws : list word := [ex_w 3 false; ex_w 7 false; ex_w 4 false; ex_w 1 true].
Example C82_word_meets : exists gid gw, length32 16 /\ 16 < pow2 40 /\ (forall g x, gw g = Ok x -> length32 x /\ x < pow2 40) /\
  is_word_by f32 gid gw 16 (repeat 97%N 7 ++ [newline], true) (ex_w 7 true) /\ w_width (ex_w 7 true) == 2936013 # 262144.
Proof.
  exists (fun c => Ok c), (fun _ => Ok tenth). split; [apply length32b_ok; vm_compute; reflexivity|]. split; [reflexivity|].
  split; [intros g x E; injection E as <-; split; [apply length32b_ok; vm_compute; reflexivity|reflexivity]|].
  split; [|vm_compute; reflexivity]. apply (iwb f32 (fun c => Ok c) (fun _ => Ok tenth) 16 (repeat 97%N 7 ++ [newline]) true (repeat 97%N 7) (repeat 97%N 7) (repeat tenth 7)).
  - replace (repeat 97%N 7) with (trim_end_newlines (repeat 97%N 7 ++ [newline])) at 2 by reflexivity. apply trim_visible.
  - cbn [repeat]. repeat (econstructor; [reflexivity|reflexivity|]). constructor.
Qed.
Example C82_lines_meets : finite32 17 /\ Forall word_length ex_ws /\
  lines_by f32 17 ex_ws [([ex_w 3 false; ex_w 7 false], true); ([ex_w 4 false; ex_w 1 true], false)] [].
Proof.
  split; [apply length32b_ok; vm_compute; reflexivity|]. split; [repeat (constructor; [split; [apply length32b_ok; vm_compute; reflexivity|reflexivity]|]); constructor|].
  assert (F : forall u v, fits_by f32 17 [u; v] <-> (a_gt f32 (width_by f32 [u]) 0 = true -> a_gt f32 (a_add f32 (width_by f32 [u]) (w_width v)) 17 = false)).
  { intros u v. split; [intros H; exact (H [u] v [] eq_refl)|]. intros H a w b E P. destruct a as [|x [|y [|z a]]]; cbn [app] in E; [vm_compute in P; discriminate P| |discriminate E|destruct a; discriminate E].
    injection E as <- <- <-. exact (H P). }
  apply (lb_soft f32 17 [ex_w 3 false; ex_w 7 false] (ex_w 4 false) [ex_w 1 true]); [apply F; vm_compute; reflexivity|intros w [<-|[<-|[]]]; reflexivity|vm_compute; reflexivity|vm_compute; reflexivity|].
  apply (lb_hard f32 17 [ex_w 4 false] (ex_w 1 true) [] [] []); [apply F; vm_compute; reflexivity|intros w [<-|[]]; reflexivity|reflexivity|apply lb_rest; [intros [|? a] ? ? E; discriminate E|intros w []]].
Qed.
(** On a line of 20 pixels from 75.59055: the last word ends 0.0000015 after the margin. *)
Definition ex_left : Q := px_by f32 20.
Example C82_justified_meets : length32 ex_left /\ length32 20 /\ lengths (firstn 2 ex_ws ++ [ex_w 1 false]) /\ bounded 3 (widths (firstn 2 ex_ws ++ [ex_w 1 false])) /\ ex_left + 20 < pow2 123 /\
  a_gt f32 (a_sub f32 20 (width_by f32 (firstn 2 ex_ws ++ [ex_w 1 false]))) 0 = true /\
  total f32 ex_left (map (fun v => a_add f32 (w_width v) (spacing_by f32 20 true (firstn 2 ex_ws ++ [ex_w 1 false], true))) (firstn 2 ex_ws)) + w_width (ex_w 1 false) - (ex_left + 20) == 13 # 8388608.
Proof.
  split; [apply length32b_ok; vm_compute; reflexivity|]. split; [apply length32b_ok; vm_compute; reflexivity|]. split; [repeat (constructor; [apply length32b_ok; vm_compute; reflexivity|]); constructor|].
  split; [split; vm_compute; reflexivity|]. split; [vm_compute; reflexivity|]. split; vm_compute; reflexivity.
Qed.
(** The margin of 20 mm: 75.590553 pixels for 75.59055118… *)
Example C82_pixels_meets : finite32 20 /\ Qabs 20 < pow2 120 /\ px_by f32 20 == 9907805 # 131072.
Proof. split; [apply length32b_ok; vm_compute; reflexivity|]. split; [reflexivity|]. vm_compute. reflexivity. Qed.
(** Two lines of the text above, on a sheet *)
Example C82_places_meets : length32 ex_left /\ length32 24 /\ Forall (fun l => lengths (fst l)) [(firstn 2 ex_ws, true); (skipn 2 ex_ws, false)] /\
  map (fun p => (Qred (fst (fst p)), Qred (snd (fst p)))) (placed_by f32 ex_left ex_left 17 24 17 true [(firstn 2 ex_ws, true); (skipn 2 ex_ws, false)]) =
    [(9907805 # 131072, 12136029 # 131072); (10668023 # 131072, 12136029 # 131072); (9907805 # 131072, 15281757 # 131072); (5373333 # 65536, 15281757 # 131072)].
Proof.
  split; [apply length32b_ok; vm_compute; reflexivity|]. split; [apply length32b_ok; vm_compute; reflexivity|]. split; [repeat (constructor; [repeat (constructor; [apply length32b_ok; vm_compute; reflexivity|]); constructor|]); constructor|].
  vm_compute. reflexivity.
Qed.
Print Assumptions C82_sum.
Print Assumptions C82_word.
Print Assumptions C82_lines.
Print Assumptions C82_not_broken.
Print Assumptions C82_places.
Print Assumptions C82_justified.
Print Assumptions C82_ragged.
Print Assumptions C82_pixels.
