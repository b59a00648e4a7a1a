(** Property C83: no other way of breaking plain text has fewer lines, and more room never makes more pages *)
From Coq Require Import QArith Qabs Lqa Lia.
From Verif Require Import PdfConvert LayoutProps Base LesterFloat LesterFloatProofs FontCmap PdfObject PdfObjectSpec PdfConvertSpec Text TextPlain TextPlainSpec TextPlainProofs TextPlainProps Arith32 Arith32Spec Float32Print
  TextPlainArith TextPlainArithSpec TextPlainArithProofs TextPlainArithProps TextErrorSpec TextGreedySpec TextGreedyProofs.
From Verif Require Arith32Proofs TextErrorProofs TextErrorProps.
Local Open Scope nat_scope.

(** ** Lines *)
(** The lines made are lines that fit… *)
Theorem C83_lines : forall ar avail ws ls rest, lines_by ar avail ws ls rest -> exists lines, broken_into ar avail ws lines /\ length lines = line_count ls rest.
Proof. intros ar avail ws ls rest H. exists (map fst ls ++ match rest with [] => [] | _ => [rest] end). exact (greedy_breaks _ _ _ _ _ H). Qed.
(** … and as few as can be, without rounding and in binary32. *)
Theorem C83_fewest : forall avail ws ls rest other, Forall (fun w => 0 <= w_width w)%Q ws ->
  lines_by exact avail ws ls rest -> broken_into exact avail ws other -> line_count ls rest <= length other.
Proof. intros avail ws ls rest other Ha H O. exact (greedy_best exact _ exact_adds_up _ _ _ _ H [] other Ha O). Qed.
Theorem C83_fewest32 : forall avail ws ls rest other, Forall (fun w => amount32 (w_width w)) ws ->
  lines_by f32 avail ws ls rest -> broken_into f32 avail ws other -> line_count ls rest <= length other.
Proof. intros avail ws ls rest other Ha H O. exact (greedy_best f32 _ f32_adds_up _ _ _ _ H [] other Ha O). Qed.
(** Less text, or the end of a text alone, needs no more lines; nor does a wider line. *)
Lemma no_more : forall ar amount avail avail' pre ws ws' ls rest ls' rest', adds_up ar amount ->
  Forall (fun w => amount (w_width w)) (pre ++ ws) -> Forall (fun w => amount (w_width w)) ws' ->
  (forall x, a_gt ar x avail' = false -> a_gt ar x avail = false) -> less_text ar ws ws' ->
  lines_by ar avail ws ls rest -> lines_by ar avail' ws' ls' rest' -> line_count ls rest <= line_count ls' rest'.
Proof.
  intros ar amount avail avail' pre ws ws' ls rest ls' rest' laws Ha Ha' Hv Hl H H'. apply Forall_app in Ha as [_ Ha]. destruct (greedy_breaks _ _ _ _ _ H') as [B <-].
  destruct (less_breaks ar amount laws _ _ _ _ Hl Ha' Ha (wider_breaks _ _ _ _ _ Hv B)) as (other & O & <-). exact (greedy_best ar amount laws _ _ _ _ H [] other Ha O).
Qed.
Lemma amounts_gt32 : forall v v', finite32 v -> finite32 v' -> (v <= v')%Q -> forall x, a_gt f32 x v = false -> a_gt f32 x v' = false.
Proof.
  intros v v' F F' L x. cbn [a_gt f32]. unfold f32_compare. rewrite (Arith32Proofs.finite_not_nan _ F), (Arith32Proofs.finite_not_nan _ F'), !Bool.orb_false_r. destruct (is_nan x); cbn [negb andb]; [reflexivity|].
  rewrite !gt_Q. lra.
Qed.
Theorem C83_no_more_lines : forall avail avail' ws ws' ls rest ls' rest', finite32 avail -> finite32 avail' -> (avail' <= avail)%Q ->
  Forall (fun w => amount32 (w_width w)) ws -> Forall (fun w => amount32 (w_width w)) ws' -> less_text f32 ws ws' ->
  lines_by f32 avail ws ls rest -> lines_by f32 avail' ws' ls' rest' -> line_count ls rest <= line_count ls' rest'.
Proof.
  intros avail avail' ws ws' ls rest ls' rest' F F' L Ha Ha' Hl H H'. exact (no_more f32 _ avail avail' [] ws ws' ls rest ls' rest' f32_adds_up Ha Ha' (amounts_gt32 _ _ F' F L) Hl H H').
Qed.
Theorem C83_end_of_text : forall avail before ws ls rest ls' rest', Forall (fun w => amount32 (w_width w)) (before ++ ws) ->
  lines_by f32 avail ws ls rest -> lines_by f32 avail (before ++ ws) ls' rest' -> line_count ls rest <= line_count ls' rest'.
Proof.
  intros avail before ws ls rest ls' rest' Ha H H'. destruct (greedy_breaks _ _ _ _ _ H') as [B <-]. exact (greedy_best f32 _ f32_adds_up _ _ _ _ H before _ Ha B).
Qed.

(** ** Pages *)
Local Open Scope Q_scope.
Lemma mul_amount : forall a b, amount32 a -> finite32 b -> 0 < b -> amount32 (a_mul f32 a b).
Proof.
  intros a b A F P. destruct A as [[Fa A]|A].
  - apply (nearest_amount (a * b)); [apply Qmult_le_0_compat; lra|]. exact (Arith32Proofs.f32_mul_nearest a b Fa F).
  - right. cbn [a_mul f32]. unfold f32_mul. rewrite (amount_not_nan a (or_intror A)), (Arith32Proofs.finite_not_nan b F).
    assert (I : is_infinite a = true) by (apply Qeq_bool_iff; rewrite A; reflexivity). rewrite I. cbn [orb].
    assert (S1 : sign a = 1) by (unfold sign; rewrite (proj1 (Qgt_alt a 0)); [reflexivity|rewrite A; reflexivity]). assert (S2 : sign b = 1) by (unfold sign; rewrite (proj1 (Qgt_alt b 0)); [reflexivity|exact P]).
    rewrite S1, S2. reflexivity.
Qed.
Lemma mul_mono : forall a b c, amount32 a -> finite32 b -> finite32 c -> 0 < b -> b <= c -> a_mul f32 a b <= a_mul f32 a c.
Proof.
  intros a b c A F G P L. assert (Pc : 0 < c) by lra. destruct A as [[Fa A]|A].
  - apply (nearest_mono (a * b) (a * c)); [rewrite !(Qmult_comm a); apply Qmult_le_compat_r; assumption|exact (Arith32Proofs.f32_mul_nearest a b Fa F)|exact (Arith32Proofs.f32_mul_nearest a c Fa G)].
  - assert (X : forall d, finite32 d -> 0 < d -> a_mul f32 a d == infinity).
    { intros d Fd Pd. cbn [a_mul f32]. unfold f32_mul. rewrite (amount_not_nan a (or_intror A)), (Arith32Proofs.finite_not_nan d Fd).
      assert (I : is_infinite a = true) by (apply Qeq_bool_iff; rewrite A; reflexivity). rewrite I. cbn [orb].
      assert (S1 : sign a = 1) by (unfold sign; rewrite (proj1 (Qgt_alt a 0)); [reflexivity|rewrite A; reflexivity]). assert (S2 : sign d = 1) by (unfold sign; rewrite (proj1 (Qgt_alt d 0)); [reflexivity|exact Pd]).
      rewrite S1, S2. reflexivity. }
    rewrite (X b F P), (X c G Pc). lra.
Qed.
Lemma div_one : forall q, finite32 q -> finite32 (a_div f32 q 1) /\ a_div f32 q 1 == q.
Proof.
  intros q F. pose proof (Arith32Proofs.f32_div_nearest q 1 F TextErrorProofs.one_finite ltac:(discriminate)) as N. assert (E0 : q / 1 == q) by field.
  assert (Fq : finite32 (q / 1)) by (apply (Arith32Proofs.finite32_comp q); [symmetry; exact E0|exact F]). pose proof (TextErrorProofs.nearest_self _ _ Fq N) as E. change (f32_div q 1) with (a_div f32 q 1) in E. rewrite E0 in E.
  split; [apply (Arith32Proofs.finite32_comp q); [symmetry; exact E|exact F]|exact E].
Qed.
Lemma shaped_amounts : forall gid (gw : N -> res font_error Q) t gs ws, (forall g w, gw g = Ok w -> finite32 w /\ 0 <= w) -> shapes_by gid gw t gs ws -> Forall amount32 ws.
Proof. intros gid gw t gs ws H S. induction S as [|ch t g gs w ws E1 E2 _ IH]; constructor; [left; exact (H _ _ E2)|exact IH]. Qed.
(** Words in a smaller size are not wider. *)
Lemma smaller_words : forall gid gw fs fs' segs ws ws', (forall g w, gw g = Ok w -> finite32 w /\ 0 <= w) -> finite32 fs -> finite32 fs' -> 0 < fs -> fs <= fs' ->
  Forall2 (is_word_by f32 gid gw fs) segs ws -> Forall2 (is_word_by f32 gid gw fs') segs ws' ->
  Forall (fun w => amount32 (w_width w)) ws /\ Forall (fun w => amount32 (w_width w)) ws' /\ less_text f32 ws ws'.
Proof.
  intros gid gw fs fs' segs ws ws' Hg F F' P L H. revert ws'. destruct (div_one fs F) as [D1 D2]. destruct (div_one fs' F') as [D1' D2'].
  induction H as [|s w segs ws Hw _ IH]; intros ws' H'; inversion H' as [|? w' ? l Hw' Hl]; subst; [split; [constructor|split; constructor]|]. destruct (IH _ Hl) as (I1 & I2 & I3).
  inversion Hw as [cs hard t gs wd V S E1 E2]; subst. inversion Hw' as [cs' hard' t' gs' wd' V' S' E1' E2']; subst.
  rewrite (visible_trim _ _ V) in S. rewrite (visible_trim _ _ V') in S'. destruct (shapes_by_fun _ _ _ _ _ S _ _ S') as [<- <-].
  pose proof (shaped_amounts _ _ _ _ _ Hg S) as A. pose proof (total_amount f32 amount32 f32_adds_up wd 0 A zero_amount) as T.
  assert (A1 : amount32 (a_mul f32 (total f32 0 wd) (a_div f32 fs 1))) by (apply mul_amount; [exact T|exact D1|rewrite D2; exact P]).
  assert (A2 : amount32 (a_mul f32 (total f32 0 wd) (a_div f32 fs' 1))) by (apply mul_amount; [exact T|exact D1'|rewrite D2'; lra]).
  split; [constructor; assumption|]. split; [constructor; assumption|]. constructor; [|reflexivity|exact I3]. cbn [w_width]. apply (amount_gt _ _ A1 A2).
  apply mul_mono; [exact T|exact D1|exact D1'|rewrite D2; exact P|rewrite D2, D2'; exact L].
Qed.
(** ** Sheets *)
Lemma px_mono : forall p q, finite32 p -> finite32 q -> p <= q -> px_by f32 p <= px_by f32 q.
Proof.
  intros p q F G L. unfold px_by. set (c := a_mul f32 (a_div f32 1 (a_lit f32 (254 # 10))) (a_lit f32 96)).
  assert (Ec : c == 1981561 # 524288) by (vm_compute; reflexivity). assert (Fc : finite32 c). { apply (Arith32Proofs.finite32_comp (1981561 # 524288)); [symmetry; exact Ec|]. exists 1981561%Z, (-19)%Z. split; [reflexivity|]. split; [lia|reflexivity]. }
  apply (nearest_mono (p * c) (q * c)); [apply Qmult_le_compat_r; [exact L|rewrite Ec; discriminate]|exact (Arith32Proofs.f32_mul_nearest p c F Fc)|exact (Arith32Proofs.f32_mul_nearest q c G Fc)].
Qed.
Lemma px_size : forall q, finite32 q -> 0 <= q -> q < pow2 100 -> finite32 (px_by f32 q) /\ 0 <= px_by f32 q /\ px_by f32 q < pow2 103.
Proof.
  intros q F P B. assert (T : pow2 103 == 8 * pow2 100) by reflexivity. assert (T2 : pow2 120 == 1048576 * pow2 100) by reflexivity. assert (T3 : 1 < pow2 100) by reflexivity. assert (T4 : tiniest < 1) by reflexivity.
  destruct (TextErrorProps.C82_pixels q F) as [G E]; [rewrite (Qabs_pos q P); lra|]. split; [exact G|]. assert (N : 0 <= px_by f32 q).
  { apply Qle_trans with (px_by f32 0); [vm_compute; discriminate|]. apply px_mono; [exact (proj1 TextErrorProofs.zero_length)|exact F|exact P]. }
  split; [exact N|]. unfold pixels in E. assert (A : Qabs (q * (960 # 254)) == q * (960 # 254)) by (apply Qabs_pos; lra). rewrite A in E. apply Qabs_Qle_condition in E. set (t := tiniest) in *. set (b := pow2 100) in *. set (x := px_by f32 q) in *. clearbody t b x. lra.
Qed.
Lemma sub_mono : forall a b c, finite32 a -> finite32 b -> finite32 c -> a <= b -> a_sub f32 a c <= a_sub f32 b c.
Proof. intros a b c F G H L. apply (nearest_mono (a - c) (b - c)); [lra|exact (Arith32Proofs.f32_sub_nearest a c F H)|exact (Arith32Proofs.f32_sub_nearest b c G H)]. Qed.
Lemma sub_finite : forall a b, finite32 a -> finite32 b -> Qabs (a - b) <= pow2 127 -> finite32 (a_sub f32 a b).
Proof. intros a b F G L. exact (proj1 (proj1 (Arith32Proofs.f32_sub_nearest a b F G) (TextErrorProofs.large_enough _ L))). Qed.
Lemma add_finite : forall a b, finite32 a -> finite32 b -> Qabs (a + b) <= pow2 127 -> finite32 (a_add f32 a b).
Proof. intros a b F G L. exact (proj1 (TextErrorProofs.add_error a b F G L)). Qed.
Lemma add_mono : forall a b c, finite32 a -> finite32 b -> finite32 c -> a <= b -> a_add f32 c a <= a_add f32 c b.
Proof. intros a b c F G H L. apply (nearest_mono (c + a) (c + b)); [lra|exact (Arith32Proofs.f32_add_nearest c a H F)|exact (Arith32Proofs.f32_add_nearest c b H G)]. Qed.
Ltac tidy := repeat match goal with H : Qabs ?x <= _ |- _ => apply Qabs_Qle_condition in H end.
Lemma sheet_sizes : forall s, usual s -> finite32 (corner_by f32 s) /\ 0 <= corner_by f32 s /\ finite32 (content_width_by f32 s) /\ finite32 (content_bottom_by f32 s) /\
  finite32 (a_sub f32 (px_by f32 (ps_page_height s)) (a_add f32 (margin_by f32 s) (margin_by f32 s))) /\ finite32 (a_add f32 (margin_by f32 s) (margin_by f32 s)) /\
  finite32 (px_by f32 (ps_page_height s)) /\ finite32 (px_by f32 (ps_page_width s)).
Proof.
  intros s (H & _). inversion H as [|? ? Hw H1]; subst. inversion H1 as [|? ? Hh H2]; subst. inversion H2 as [|? ? Hm _]; subst. clear H H1 H2.
  destruct Hw as (Fw & Pw & Bw), Hh as (Fh & Ph & Bh), Hm as (Fm & Pm & Bm). destruct (px_size _ Fw Pw Bw) as (A1 & A2 & A3). destruct (px_size _ Fh Ph Bh) as (B1 & B2 & B3). destruct (px_size _ Fm Pm Bm) as (C1 & C2 & C3).
  unfold corner_by, content_width_by, content_bottom_by, margin_by. unfold corner_by, margin_by. set (w := px_by f32 (ps_page_width s)) in *. set (h := px_by f32 (ps_page_height s)) in *. set (m := px_by f32 (ps_page_margin s)) in *. clearbody w h m.
  assert (T : pow2 127 == 16777216 * pow2 103) by reflexivity. assert (T0 : 0 < pow2 103) by reflexivity. set (b := pow2 103) in *. set (d := pow2 127) in *.
  assert (Z : finite32 0) by exact (proj1 TextErrorProofs.zero_length).
  destruct (TextErrorProofs.add_error 0 m Z C1) as [D1 D2]; [rewrite Qabs_pos by lra; fold d; lra|]. rewrite (Qabs_pos (0 + m)) in D2 by lra.
  destruct (TextErrorProofs.add_error m m C1 C1) as [E1 E2]; [rewrite Qabs_pos by lra; fold d; lra|]. rewrite (Qabs_pos (m + m)) in E2 by lra. apply Qabs_Qle_condition in D2. apply Qabs_Qle_condition in E2.
  set (c := a_add f32 0 m) in *. set (mm := a_add f32 m m) in *. clearbody c mm.
  assert (S : forall x, finite32 x -> 0 <= x -> x < b -> finite32 (a_sub f32 x mm) /\ Qabs (a_sub f32 x mm) <= 8 * b).
  { intros x Fx Px Bx. assert (Fn : finite32 (- mm)) by (apply Arith32Proofs.finite32_opp; exact E1). assert (A : Qabs (x + - mm) <= 4 * b) by (apply Qabs_Qle_condition; split; lra).
    destruct (TextErrorProofs.add_error x (- mm) Fx Fn) as [G1 G2]; [fold d; lra|]. cbn [a_sub f32]. unfold f32_sub, f32_neg. rewrite (Arith32Proofs.finite_not_nan mm E1). change (f32_add x (- mm)) with (a_add f32 x (- mm)). split; [exact G1|].
    apply Qabs_Qle_condition in G2. assert (A' := A). apply Qabs_Qle_condition in A'. apply Qabs_Qle_condition. set (v := Qabs (x + - mm)) in *. clearbody v. split; lra. }
  destruct (S w A1 A2 A3) as [S1 _]. destruct (S h B1 B2 B3) as [S2 S3]. split; [exact D1|]. split; [lra|]. split; [exact S1|]. split; [|repeat (split; [assumption|]); assumption].
  apply add_finite; [exact D1|exact S2|]. apply Qabs_Qle_condition in S3. apply Qabs_Qle_condition. fold d. split; lra.
Qed.
Local Open Scope nat_scope.
(** On a sheet that is as wide and high, in letters as small, a text does not need more pages. *)
Theorem C83_pages : forall print glyph_id s s' segs, usual s -> usual s' -> roomier s s' ->
  Forall (fun p => Forall (fun c => is_char c = true) (fst p)) segs ->
  (forall c, is_shown c segs -> has_glyph glyph_id (ps_font s) c) -> embeddable (ps_font s) = true ->
  (exists before cs, segs = before ++ [(cs, true)]) ->
  exists pages pages',
    plain_layout_in f32 print glyph_id s (text_of segs) (break_positions 0 segs) = Some (Ok (run (map (page_by f32 print s) pages))) /\
    plain_layout_in f32 print glyph_id s' (text_of segs) (break_positions 0 segs) = Some (Ok (run (map (page_by f32 print s') pages'))) /\
    length pages <= length pages'.
Proof.
  intros print glyph_id s s' segs U U' [Rw Rh Rs Rf Rm Rl] Hc Hg He Hend.
  destruct (C81_pages f32 eq_refl print glyph_id s segs Hc Hg He) as (ws & ls & rest & pages & E & Hw & Hl & Hp).
  assert (Hg' := Hg). assert (He' := He). rewrite Rf in Hg', He'.
  destruct (C81_pages f32 eq_refl print glyph_id s' segs Hc Hg' He') as (ws' & ls' & rest' & pages' & E' & Hw' & Hl' & Hp').
  exists pages, pages'. split; [exact E|]. split; [exact E'|]. clear E E'.
  destruct (sheet_sizes s U) as (Cf & C0 & Wf & Bf & Hf & Mf & Phf & Pwf). destruct (sheet_sizes s' U') as (Cf' & C0' & Wf' & Bf' & Hf' & Mf' & Phf' & Pwf').
  destruct U as (Us & Pos & Gw). destruct U' as (Us' & Pos' & Gw').
  inversion Us as [|? ? Uw X1]; subst. inversion X1 as [|? ? Uh X2]; subst. inversion X2 as [|? ? Um X3]; subst. inversion X3 as [|? ? Ul X4]; subst. inversion X4 as [|? ? Ufs _]; subst. clear Us X1 X2 X3 X4.
  inversion Us' as [|? ? Uw' X1]; subst. inversion X1 as [|? ? Uh' X2]; subst. inversion X2 as [|? ? Um' X3]; subst. inversion X3 as [|? ? Ul' X4]; subst. inversion X4 as [|? ? Ufs' _]; subst. clear Us' X1 X2 X3 X4.
  rewrite <- Rf in Hw'. destruct (smaller_words glyph_id (f_glyph_width (ps_font s)) _ _ segs ws ws' Gw (proj1 Ufs) (proj1 Ufs') Pos Rs Hw Hw') as (A1 & A2 & Lt).
  (* the lines *)
  assert (Wid : (content_width_by f32 s' <= content_width_by f32 s)%Q).
  { unfold content_width_by, margin_by. rewrite Rm. apply sub_mono; [exact Pwf'|exact Pwf|exact Mf'|]. apply px_mono; [apply Uw'|apply Uw|exact Rw]. }
  pose proof (C83_no_more_lines _ _ _ _ _ _ _ _ Wf Wf' Wid A1 A2 Lt Hl Hl') as Ln.
  assert (Last : forall st wds lns rst, Forall2 (is_word_by f32 glyph_id (f_glyph_width (ps_font st)) (ps_font_size st)) segs wds -> breaks_by f32 st wds lns rst -> rst = []).
  { intros st wds lns rst Hx Hy. destruct Hend as (before & cs & ->). destruct rst as [|w r _] using rev_ind; [reflexivity|]. exfalso. pose proof (words_by_hard _ _ _ _ _ _ Hx) as H. rewrite <- (lines_by_words _ _ _ _ _ Hy) in H.
    rewrite app_assoc, !map_app in H. cbn [map snd] in H. apply app_inj_tail in H as [_ H]. pose proof (lines_by_rest _ _ _ _ _ Hy w) as N. rewrite N in H; [discriminate H|]. apply in_or_app. right. left. reflexivity. }
  rewrite (Last s ws ls rest Hw Hl) in Ln. rewrite Rf in Hw'. rewrite (Last s' ws' ls' rest' Hw' Hl') in Ln. unfold line_count in Ln. rewrite !Nat.add_0_r in Ln.
  (* the pages *)
  refine (pages_fewer f32 _ _ _ _ _ _ _ _ ls ls' pages pages' _ Hp Hp' Ln). intros n G.
  assert (Ec : corner_by f32 s = corner_by f32 s') by (unfold corner_by, margin_by; rewrite Rm; reflexivity).
  assert (Bot : (content_bottom_by f32 s' <= content_bottom_by f32 s)%Q).
  { unfold content_bottom_by. rewrite Ec. apply add_mono; [exact Hf'|exact Hf|exact Cf'|]. unfold margin_by. rewrite Rm. apply sub_mono; [exact Phf'|exact Phf|exact Mf'|]. apply px_mono; [apply Uh'|apply Uh|exact Rh]. }
  destruct (div_one _ (proj1 Ufs)) as [D1 D2]. destruct (div_one _ (proj1 Ufs')) as [D1' D2'].
  assert (La : amount32 (a_mul f32 1 (ps_line_height s))).
  { destruct Ul as (F & P & _). apply (nearest_amount (1 * ps_line_height s)); [lra|]. exact (Arith32Proofs.f32_mul_nearest 1 _ TextErrorProofs.one_finite F). }
  assert (Sa : amount32 (line_step_by f32 s)) by (unfold line_step_by; apply mul_amount; [exact La|exact D1|rewrite D2; exact Pos]).
  assert (Sa' : amount32 (line_step_by f32 s')) by (unfold line_step_by; rewrite <- Rl; apply mul_amount; [exact La|exact D1'|rewrite D2'; exact Pos']).
  assert (Sl : (line_step_by f32 s <= line_step_by f32 s')%Q) by (unfold line_step_by; rewrite <- Rl; apply mul_mono; [exact La|exact D1|exact D1'|rewrite D2; exact Pos|rewrite D2, D2'; exact Rs]).
  assert (Ca : amount32 (corner_by f32 s)) by (left; split; assumption).
  assert (Top : forall k a b, amount32 a -> amount32 b -> (a <= b)%Q -> (total f32 a (repeat (line_step_by f32 s) k) <= total f32 b (repeat (line_step_by f32 s') k))%Q /\
    amount32 (total f32 a (repeat (line_step_by f32 s) k)) /\ amount32 (total f32 b (repeat (line_step_by f32 s') k))).
  { induction k as [|k IH]; intros a b A B L; cbn [repeat total]; [auto|]. apply IH; [apply sum_amount; assumption..|apply sum_mono; assumption]. }
  destruct (Top n (corner_by f32 s) (corner_by f32 s') Ca ltac:(rewrite <- Ec; exact Ca) ltac:(rewrite Ec; lra)) as (T1 & T2 & T3). fold (line_top f32 (corner_by f32 s) (line_step_by f32 s) n) in T1, T2. fold (line_top f32 (corner_by f32 s') (line_step_by f32 s') n) in T1, T3.
  set (t := line_top f32 (corner_by f32 s) _ n) in *. set (t' := line_top f32 (corner_by f32 s') _ n) in *. clearbody t t'.
  destruct (a_gt f32 t' (content_bottom_by f32 s')) eqn:Y; [reflexivity|]. exfalso.
  pose proof (au_trans f32 amount32 f32_adds_up t t' _ T2 T3 (proj2 (amount_gt t t' T2 T3) T1) (amounts_gt32 _ _ Bf' Bf Bot _ Y)). congruence.
Qed.

(** ** Examples *)
(** The text of C81 on a wider sheet in smaller letters: two pages for three *)
Definition roomy_style : plain_style := mkPlainStyle 150 70 25 ex_vera32 24 (5 # 4) true.
Definition page_number (r : option (res font_error doc)) : option nat := match r with Some (Ok d) => Some (length (d_page_ids d)) | _ => None end.
Lemma usual_styles : usual roomy_style /\ usual ex_style32.
Proof.
  assert (G : forall g w, f_glyph_width ex_vera32 g = Ok w -> finite32 w /\ (0 <= w)%Q) by (intros g w E; injection E as <-; split; [apply (proj1 (TextErrorProps.length32b_ok (1 # 2) eq_refl))|discriminate]).
  split; (split; [|split; [reflexivity|exact G]]); cbn [ps_page_width ps_page_height ps_page_margin ps_line_height ps_font_size roomy_style ex_style32];
    repeat (constructor; [split; [match goal with |- finite32 ?q => apply (proj1 (TextErrorProps.length32b_ok q eq_refl)) end|split; [discriminate|reflexivity]]|]); constructor.
Qed.
Example C83_pages_meets : usual roomy_style /\ usual ex_style32 /\ roomier roomy_style ex_style32 /\ Forall (fun p => Forall (fun c => is_char c = true) (fst p)) ex_text /\
  (forall c, has_glyph ex_glyph_id ex_vera32 c) /\ embeddable ex_vera32 = true /\ (exists before cs, ex_text = before ++ [(cs, true)]) /\
  map (fun s => page_number (plain_layout_in f32 print32 ex_glyph_id s (text_of ex_text) (break_positions 0 ex_text))) [roomy_style; ex_style32] = [Some 2; Some 3].
Proof.
  split; [apply usual_styles|]. split; [apply usual_styles|]. split; [split; try reflexivity; discriminate|]. split; [unfold ex_text, piece, last_piece; repeat (constructor; [cbn [fst]; apply Forall_forall; apply forallb_forall; vm_compute; reflexivity|]); constructor|].
  split; [intros c; do 2 eexists; split; reflexivity|]. split; [reflexivity|]. split; [exists (firstn 7 ex_text), (bs "d" ++ [newline]); reflexivity|]. vm_compute. reflexivity.
Qed.
(** Words of 3, 3, 2 and 4 on lines of 6: two lines; three lines if the first word is alone *)
Definition lword (n : Z) : word := mkWord [] (inject_Z n) false.
Example C83_fewest_meets : let ws := [lword 3; lword 3; lword 2; mkWord [] 4 true] in
  Forall (fun w => amount32 (w_width w)) ws /\ lines_by f32 6 ws [([lword 3; lword 3], true); ([lword 2; mkWord [] 4 true], false)] [] /\
  broken_into f32 6 ws [[lword 3]; [lword 3; lword 2]; [mkWord [] 4 true]] /\ line_count [([lword 3; lword 3], true); ([lword 2; mkWord [] 4 true], false)] [] = 2 /\
  less_text f32 [lword 2; lword 1; mkWord [] 4 true] ws.
Proof.
  intros ws. split; [repeat (constructor; [left; match goal with |- finite32 ?q /\ _ => apply (TextErrorProps.length32b_ok q eq_refl) end|]); constructor|].
  assert (F : forall v u w, v = 6%Q -> fits_by f32 v [u; w] <-> (a_gt f32 (width_by f32 [u]) 0 = true -> a_gt f32 (a_add f32 (width_by f32 [u]) (w_width w)) v = false)).
  { intros v u w _. split; [intros H; exact (H [u] w [] eq_refl)|]. intros H a x b E P. destruct a as [|y [|z [|? a]]]; cbn [app] in E; [vm_compute in P; discriminate P| |discriminate E|destruct a; discriminate E].
    injection E as <- <- <-. exact (H P). }
  assert (F1 : forall u, fits_by f32 6 [u]) by (intros u a x b E P; destruct a as [|y a]; [vm_compute in P; discriminate P|destruct a; discriminate E]).
  split.
  { apply (lb_soft f32 6 [lword 3; lword 3] (lword 2) [mkWord [] 4 true]); [apply F; [reflexivity|vm_compute; reflexivity]|intros w [<-|[<-|[]]]; reflexivity|vm_compute; reflexivity|vm_compute; reflexivity|].
    apply (lb_hard f32 6 [lword 2] (mkWord [] 4 true) [] [] []); [apply F; [reflexivity|vm_compute; reflexivity]|intros w [<-|[]]; reflexivity|reflexivity|apply lb_rest; [intros [|? a] ? ? E; discriminate E|intros w []]]. }
  assert (N : forall (a : list word) w b x, [x] = a ++ w :: b -> b <> [] -> w_hard w = false) by (intros [|y a] w b x E Nb; [injection E as <- <-; destruct (Nb eq_refl)|destruct a; discriminate E]).
  split.
  { split; [reflexivity|]. constructor; [split; [apply F1|intros a w b; apply N]|]. constructor; [split; [apply F; [reflexivity|vm_compute; reflexivity]|]|constructor; [split; [apply F1|intros a w b; apply N]|constructor]].
    intros [|y [|z a]] w b E Nb; cbn [app] in E; [injection E as <- _; reflexivity|injection E as <- <- <-; destruct (Nb eq_refl)|destruct a; discriminate E]. }
  split; [reflexivity|]. apply lt_word; [reflexivity|reflexivity|]. apply lt_word; [reflexivity|reflexivity|]. apply lt_without; [reflexivity|]. apply lt_word; [reflexivity|reflexivity|]. constructor.
Qed.
Print Assumptions C83_lines.
Print Assumptions C83_fewest.
Print Assumptions C83_fewest32.
Print Assumptions C83_no_more_lines.
Print Assumptions C83_end_of_text.
Print Assumptions C83_pages.
