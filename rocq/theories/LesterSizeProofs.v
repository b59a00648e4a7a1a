(** * lester: sizes of pages and of images *)

From Coq Require Import QArith Qround Qabs Qpower Lqa Lia.
From Verif Require Import Base LesterFloat LesterFloatProofs Lester LesterSpec.

Local Open Scope code_scope.

Local Open Scope Q_scope.

Lemma px_per_pt_value : PX_PER_PT = FVal (6004799503160661 # 4503599627370496).
Proof. vm_compute. reflexivity. Qed.

Lemma px_per_pt_points : (6004799503160661 # 4503599627370496) == (4 # 3) * (1 - pow2 (-54)).
Proof. vm_compute. reflexivity. Qed.

Lemma Qred_Z n : Qred (inject_Z n) = inject_Z n.
Proof.
  unfold Qred, inject_Z. pose proof (Z.ggcd_gcd n 1) as G. pose proof (Z.ggcd_correct_divisors n 1) as D.
  destruct (Z.ggcd n 1) as [g [a b]]. cbn [fst snd] in *. rewrite Z.gcd_1_r in G. subst g.
  destruct D as [D1 D2]. rewrite Z.mul_1_l in D1, D2. subst a b. reflexivity.
Qed.

Lemma Qred_eq_Z q n : q == inject_Z n -> Qred q = inject_Z n.
Proof. intros H. rewrite (Qred_complete _ _ H). apply Qred_Z. Qed.

(** A number with 53 significant bits is what the number just below it, by
    half a unit at the most, is rounded to. *)
Lemma round_back m t : (0 < m < 2 ^ 53)%Z -> (-1000 <= t)%Z ->
  round_rational (inject_Z m * pow2 t * (1 - pow2 (-54))) == inject_Z m * pow2 t.
Proof.
  intros [Hm Hm'] Ht.
  set (e := Z.log2 m).
  assert (He : (2 ^ e <= m < 2 ^ (e + 1))%Z) by (apply Z.log2_spec; exact Hm).
  assert (He0 : (0 <= e)%Z) by apply Z.log2_nonneg.
  assert (He1 : (e <= 52)%Z).
  { apply Z.lt_succ_r. apply (Z.pow_lt_mono_r_iff 2); lia. }
  assert (P54 : 0 < pow2 (-54) /\ pow2 (-54) < 1 # 2).
  { split; [apply pow2_pos | reflexivity]. }
  set (x := inject_Z m * pow2 t).
  assert (Pt := pow2_pos t).
  assert (Hmq : 0 < inject_Z m) by (change 0 with (inject_Z 0); rewrite <- Zlt_Qlt; exact Hm).
  assert (Hx : 0 < x) by (unfold x; nra).
  set (q := x * (1 - pow2 (-54))).
  assert (Hq : 0 < q) by (unfold q; nra).
  unfold round_rational. destruct (Qcompare_spec q 0) as [Z0|L|G]; try (exfalso; lra). clear G.
  rewrite round_positive_eq.
  destruct (Z.eq_dec m (2 ^ e)) as [Em|Nm].
  - assert (Ex : x == pow2 (e + t)).
    { unfold x. rewrite Em, pow2_plus, <- pow2_Z by lia. reflexivity. }
    assert (EX : exponent q = (e + t - 1)%Z).
    { assert (D : pow2 (e + t) == 2 * pow2 (e + t - 1)).
      { rewrite <- pow2_S. replace (e + t - 1 + 1)%Z with (e + t)%Z by lia. reflexivity. }
      assert (Pe := pow2_pos (e + t - 1)).
      apply exponent_unique.
      - unfold q. rewrite Ex, D. nra.
      - replace (e + t - 1 + 1)%Z with (e + t)%Z by lia. unfold q. rewrite Ex, D. nra. }
    unfold unit_of. rewrite EX. rewrite Z.max_l by lia.
    replace (e + t - 1 - 52)%Z with (e + t - 53)%Z by lia.
    assert (V : q / pow2 (e + t - 53) == 9007199254740991 + (1 # 2)).
    { unfold q. rewrite Ex. replace (e + t)%Z with (e + t - 53 + 53)%Z at 1 by lia. rewrite pow2_plus.
      setoid_replace (pow2 (e + t - 53) * pow2 53 * (1 - pow2 (-54)) / pow2 (e + t - 53))
        with (pow2 53 * (1 - pow2 (-54))) by (field; apply pow2_nz).
      reflexivity. }
    rewrite (nearest_even_comp _ _ V).
    replace (nearest_even (9007199254740991 + (1 # 2))) with (2 ^ 53)%Z by reflexivity.
    rewrite <- pow2_Z by lia. rewrite <- pow2_plus.
    replace (53 + (e + t - 53))%Z with (e + t)%Z by lia. rewrite Ex. reflexivity.
  - assert (Hm2 : (2 ^ e + 1 <= m)%Z) by lia.
    assert (M1 : pow2 e + 1 <= inject_Z m).
    { rewrite pow2_Z by lia. change 1 with (inject_Z 1). rewrite <- inject_Z_plus, <- Zle_Qle. exact Hm2. }
    assert (M2 : inject_Z m < 2 * pow2 e).
    { rewrite <- pow2_S. rewrite pow2_Z by lia. rewrite <- Zlt_Qlt. lia. }
    assert (Pe := pow2_pos e).
    assert (P52 : pow2 e * pow2 (-54) <= 1 # 4).
    { rewrite <- pow2_plus. change (1 # 4) with (pow2 (-2)). apply pow2_le. lia. }
    assert (EX : exponent q = (e + t)%Z).
    { apply exponent_unique.
      - unfold q, x. rewrite pow2_plus.
        setoid_replace (inject_Z m * pow2 t * (1 - pow2 (-54)))
          with ((inject_Z m - inject_Z m * pow2 (-54)) * pow2 t) by ring.
        apply Qmult_le_compat_r; [|lra].
        assert (inject_Z m * pow2 (-54) <= 2 * pow2 e * pow2 (-54)) by (apply Qmult_le_compat_r; lra).
        lra.
      - replace (e + t + 1)%Z with (e + 1 + t)%Z by lia. unfold q, x. rewrite pow2_plus, pow2_S.
        apply Qle_lt_trans with (inject_Z m * pow2 t); [fold x; clear - Hx P54; nra|].
        apply Qmult_lt_compat_r; [exact Pt | exact M2]. }
    unfold unit_of. rewrite EX. rewrite Z.max_l by lia.
    set (u := (e + t - 52)%Z).
    assert (Xu : x == inject_Z (m * 2 ^ (52 - e)) * pow2 u).
    { unfold x. rewrite inject_Z_mult. rewrite <- pow2_Z by lia. rewrite <- Qmult_assoc, <- pow2_plus.
      unfold u. replace (52 - e + (e + t - 52))%Z with t by lia. reflexivity. }
    assert (V : q / pow2 u == inject_Z (m * 2 ^ (52 - e)) - inject_Z (m * 2 ^ (52 - e)) * pow2 (-54)).
    { unfold q. rewrite Xu. field. apply pow2_nz. }
    assert (N1 : nearest_even (q / pow2 u) = (m * 2 ^ (52 - e))%Z).
    { set (k := inject_Z (m * 2 ^ (52 - e))) in *.
      assert (K : 0 < k /\ k < 9007199254740992).
      { unfold k. change 0 with (inject_Z 0). change 9007199254740992 with (inject_Z (2 ^ 53)).
        rewrite <- !Zlt_Qlt. replace 53%Z with (e + 1 + (52 - e))%Z by lia.
        rewrite Z.pow_add_r by lia.
        assert (0 < 2 ^ (52 - e))%Z by (apply Z.pow_pos_nonneg; lia). nia. }
      assert (k * pow2 (-54) < 1 # 2).
      { apply Qlt_le_trans with (9007199254740992 * pow2 (-54)); [|discriminate].
        apply Qmult_lt_compat_r; [reflexivity | apply K]. }
      apply nearest_even_near; rewrite V; fold k; [lra|].
      assert (0 < k * pow2 (-54)) by nra. lra. }
    rewrite N1. fold x. rewrite Xu. reflexivity.
Qed.

Lemma round64_val q r : round_rational q == r -> Qabs r < pow2 1024 -> round64 q = FVal (Qred r).
Proof.
  intros H L. unfold round64.
  assert (E : Qred (round_rational q) = Qred r) by (apply Qred_complete; exact H).
  rewrite E. destruct (Qle_bool (pow2 1024) (Qabs (Qred r))) eqn:B; [|reflexivity].
  apply Qle_bool_iff in B. rewrite Qred_correct in B. exfalso. lra.
Qed.

Lemma small_Z n : (- 2 ^ 53 <= n <= 2 ^ 53)%Z -> Qabs (inject_Z n) < pow2 1024.
Proof.
  intros H. apply Qabs_case; intros _.
  - apply Qle_lt_trans with (inject_Z (2 ^ 53)); [rewrite <- Zle_Qle; lia | reflexivity].
  - rewrite <- inject_Z_opp. apply Qle_lt_trans with (inject_Z (2 ^ 53)); [rewrite <- Zle_Qle; lia | reflexivity].
Qed.

Lemma round64_Z q n : q == inject_Z n -> (- 2 ^ 53 <= n <= 2 ^ 53)%Z -> round64 q = FVal (inject_Z n).
Proof.
  intros E H. rewrite <- (Qred_Z n). apply round64_val; [|apply small_Z; exact H].
  rewrite (round_rational_comp _ _ E). apply round_rational_exact, representable_Z, H.
Qed.

(** Pages of which the size is a number of CSS pixels keep that size. *)
Lemma px_of_points m : (0 < m < 2 ^ 53)%Z -> fmul (FVal (points (inject_Z m))) PX_PER_PT = FVal (inject_Z m).
Proof.
  intros H. rewrite px_per_pt_value. cbn [fmul]. rewrite <- (Qred_Z m).
  apply round64_val; [|apply small_Z; lia].
  transitivity (round_rational (inject_Z m * pow2 0 * (1 - pow2 (-54)))).
  - apply round_rational_comp. rewrite px_per_pt_points. unfold points. change (pow2 0) with 1.
    generalize (pow2 (-54)) as k. intros k. rewrite Qred_Z.
    setoid_replace ((3 # 4) * inject_Z m * ((4 # 3) * (1 - k)))
      with (((3 # 4) * (4 # 3)) * (inject_Z m * (1 - k))) by ring.
    setoid_replace ((3 # 4) * (4 # 3)) with 1 by reflexivity. ring.
  - rewrite round_back by (assumption || lia). change (pow2 0) with 1. ring.
Qed.

Lemma fmul_Z m k : (- 2 ^ 53 <= m * k <= 2 ^ 53)%Z ->
  fmul (FVal (inject_Z m)) (FVal (inject_Z k)) = FVal (inject_Z (m * k)).
Proof. intros H. cbn [fmul]. apply round64_Z; [rewrite inject_Z_mult; reflexivity | exact H]. Qed.

Lemma Qceiling_inject n : Qceiling (inject_Z n) = n.
Proof. apply Qceiling_Z. Qed.

(** ** Conversions *)

Lemma try_into_i32_finite n :
  f64_try_into_i32 (FVal (inject_Z n)) =
  if ((-2147483648 <=? n) && (n <=? 2147483647))%Z then Some n else None.
Proof.
  unfold f64_try_into_i32, flt_q, fgt_q.
  destruct (Qcompare_spec (inject_Z n) (inject_Z (-2147483648))) as [E|L|G].
  - rewrite inject_Z_injective in E. subst n. reflexivity.
  - rewrite <- Zlt_Qlt in L. cbn [orb]. replace (-2147483648 <=? n)%Z with false by (symmetry; apply Z.leb_gt; exact L).
    reflexivity.
  - rewrite <- Zlt_Qlt in G. replace (-2147483648 <=? n)%Z with true by (symmetry; apply Z.leb_le; lia).
    cbn [orb andb].
    destruct (Qcompare_spec (inject_Z n) (inject_Z 2147483647)) as [E|L|G2].
    + rewrite inject_Z_injective in E. subst n. reflexivity.
    + rewrite <- Zlt_Qlt in L. replace (n <=? 2147483647)%Z with true by (symmetry; apply Z.leb_le; lia).
      f_equal. unfold as_i32. rewrite Qceiling_Z, Qfloor_Z. destruct (is_negative _); lia.
    + rewrite <- Zlt_Qlt in G2. replace (n <=? 2147483647)%Z with false by (symmetry; apply Z.leb_gt; exact G2).
      reflexivity.
Qed.

(** ** The size of an image *)

Lemma image_pixels m k : (0 < m)%Z -> (0 <= k)%Z -> (0 < m < 2 ^ 53)%Z -> (m * k <= 2147483647)%Z ->
  f64_try_into_i32 (fceil (fmul (fmul (FVal (points (inject_Z m))) PX_PER_PT) (FVal (inject_Z k)))) = Some (m * k)%Z.
Proof.
  intros Hm Hk Hm' L. rewrite px_of_points by assumption.
  rewrite fmul_Z by nia. cbn [fceil]. rewrite Qceiling_Z, try_into_i32_finite.
  replace (-2147483648 <=? m * k)%Z with true by (symmetry; apply Z.leb_le; nia).
  replace (m * k <=? 2147483647)%Z with true by (symmetry; apply Z.leb_le; lia). reflexivity.
Qed.

Lemma round64_error q : pow2 (-1022) <= q -> q <= pow2 1022 ->
  exists r, round64 q = FVal r /\ q * (1 - pow2 (-53)) <= r /\ r <= q * (1 + pow2 (-53)).
Proof.
  intros L U. destruct (round_rational_error q L) as [A B].
  assert (P := pow2_pos (-1022)). assert (P53 : 0 < pow2 (-53) /\ pow2 (-53) < 1) by (split; reflexivity).
  exists (Qred (round_rational q)). pose proof (Qred_correct (round_rational q)) as R.
  split; [|split; rewrite R; assumption]. clear R.
  apply round64_val; [reflexivity|]. rewrite Qabs_pos by nra.
  apply Qle_lt_trans with (q * (1 + pow2 (-53))); [exact B|].
  apply Qlt_le_trans with (2 * pow2 1022); [nra|].
  rewrite <- pow2_S. apply pow2_le. lia.
Qed.

Lemma pow2_500 s d : pow2 (-500) <= s -> s <= pow2 500 -> pow2 (-500) <= d -> d <= pow2 500 ->
  pow2 (-1000) <= s * d /\ s * d <= pow2 1000.
Proof.
  intros A B C D. assert (P := pow2_pos (-500)).
  replace (-1000)%Z with (-500 + -500)%Z by lia. replace 1000%Z with (500 + 500)%Z by lia. rewrite !pow2_plus.
  split.
  - apply Qle_trans with (s * pow2 (-500)).
    + apply Qmult_le_compat_r; lra.
    + rewrite (Qmult_comm s), (Qmult_comm s). apply Qmult_le_compat_r; lra.
  - apply Qle_trans with (s * pow2 500).
    + rewrite (Qmult_comm s), (Qmult_comm s). apply Qmult_le_compat_r; lra.
    + apply Qmult_le_compat_r; lra.
Qed.

Lemma image_bounds s d : pow2 (-500) <= s -> s <= pow2 500 -> pow2 (-500) <= d -> d <= pow2 500 ->
  exists n, fceil (fmul (fmul (FVal s) PX_PER_PT) (FVal d)) = FVal (inject_Z n) /\
    (4 # 3) * s * d * (1 - pow2 (-51)) <= inject_Z n /\
    inject_Z n < (4 # 3) * s * d * (1 + pow2 (-51)) + 1.
Proof.
  intros A B C D. rewrite px_per_pt_value.
  assert (SD := pow2_500 s d A B C D). destruct SD as [SD1 SD2].
  set (k := 6004799503160661 # 4503599627370496).
  assert (K : k == (4 # 3) * (1 - pow2 (-54))) by exact px_per_pt_points.
  assert (K1 : 1 <= k /\ k <= 4 # 3) by (split; discriminate).
  assert (Ps := pow2_pos (-500)). assert (P1000 := pow2_pos (-1000)).
  assert (S0 : 0 < s) by lra. assert (D0 : 0 < d) by lra.
  destruct (round64_error (s * k)) as (w & W & W1 & W2).
  { apply Qle_trans with (pow2 (-500)); [apply pow2_le; lia | nra]. }
  { apply Qle_trans with (2 * pow2 500); [nra|]. rewrite <- pow2_S. apply pow2_le. lia. }
  set (e := pow2 (-53)) in *.
  assert (E0 : 0 < e /\ e <= 1 # 100) by (split; [reflexivity | discriminate]).
  assert (SK : 0 < s * k) by nra.
  assert (W0 : 0 < w) by nra.
  assert (WL : s * k * (1 - e) * d <= w * d) by (apply Qmult_le_compat_r; lra).
  assert (WU : w * d <= s * k * (1 + e) * d) by (apply Qmult_le_compat_r; lra).
  assert (SDK : s * d <= s * k * d /\ s * k * d <= (4 # 3) * (s * d)).
  { assert (0 < s * d) by lra. setoid_replace (s * k * d) with (k * (s * d)) by ring. nra. }
  destruct (round64_error (w * d)) as (p & P & P1 & P2).
  { apply Qle_trans with (pow2 (-1001)); [apply pow2_le; lia|].
    assert (T : pow2 (-1000) == 2 * pow2 (-1001)).
    { rewrite <- pow2_S. reflexivity. }
    assert (T' := pow2_pos (-1001)).
    apply Qle_trans with (s * k * (1 - e) * d); [|exact WL].
    setoid_replace (s * k * (1 - e) * d) with (s * k * d * (1 - e)) by ring. nra. }
  { apply Qle_trans with (2 * pow2 1000); [|rewrite <- pow2_S; apply pow2_le; lia].
    apply Qle_trans with (s * k * (1 + e) * d); [exact WU|].
    setoid_replace (s * k * (1 + e) * d) with (s * k * d * (1 + e)) by ring.
    assert (0 < pow2 1000) by apply pow2_pos. nra. }
  fold e in P1, P2. cbn [fmul]. fold k. rewrite W. cbn [fmul]. rewrite P. cbn [fceil].
  exists (Qceiling p). split; [reflexivity|].
  set (x := (4 # 3) * s * d).
  assert (X0 : 0 < x) by (unfold x; setoid_replace ((4 # 3) * s * d) with ((4 # 3) * (s * d)) by ring; lra).
  assert (XK : s * k * d == x * (1 - pow2 (-54))) by (rewrite K; unfold x; ring).
  assert (XK1 : x * (1 - e) <= s * k * d /\ s * k * d <= x).
  { rewrite XK. unfold e. assert (pow2 (-54) <= pow2 (-53)) by (apply pow2_le; lia).
    assert (0 < pow2 (-54)) by apply pow2_pos. split; nra. }
  assert (F : pow2 (-51) == 4 * e) by reflexivity.
  assert (WD0 : 0 < w * d) by nra.
  split.
  - apply Qle_trans with p; [|apply Qle_ceiling].
    apply Qle_trans with (w * d * (1 - e)); [|exact P1].
    apply Qle_trans with (s * k * (1 - e) * d * (1 - e)); [|apply Qmult_le_compat_r; lra].
    setoid_replace (s * k * (1 - e) * d * (1 - e)) with (s * k * d * ((1 - e) * (1 - e))) by ring.
    apply Qle_trans with (x * (1 - e) * ((1 - e) * (1 - e))); [|apply Qmult_le_compat_r; [lra | nra]].
    rewrite F. setoid_replace (x * (1 - e) * ((1 - e) * (1 - e))) with (x * ((1 - e) * ((1 - e) * (1 - e)))) by ring.
    rewrite (Qmult_comm x), (Qmult_comm x). apply Qmult_le_compat_r; [|lra]. nra.
  - apply Qlt_le_trans with (p + 1).
    + pose proof (Qceiling_lt p) as Q. unfold Zminus in Q. rewrite inject_Z_plus in Q.
      change (inject_Z (- (1))) with (- (1)) in Q. lra.
    + apply Qplus_le_compat; [|lra].
      apply Qle_trans with (w * d * (1 + e)); [exact P2|].
      apply Qle_trans with (s * k * (1 + e) * d * (1 + e)); [apply Qmult_le_compat_r; lra|].
      setoid_replace (s * k * (1 + e) * d * (1 + e)) with (s * k * d * ((1 + e) * (1 + e))) by ring.
      apply Qle_trans with (x * ((1 + e) * (1 + e))); [apply Qmult_le_compat_r; [lra | nra]|].
      rewrite F. rewrite (Qmult_comm x), (Qmult_comm x). apply Qmult_le_compat_r; [|lra]. nra.
Qed.

(** ** Rendering *)

Local Open Scope Z_scope.

Definition pixel_count (size dppx : f64) : option Z :=
  f64_try_into_i32 (fceil (fmul (fmul size PX_PER_PT) dppx)).

Lemma context_spec E s h r h' : context E s h = (r, h') ->
  exists c st, r = Done (if st =? 0 then inr c else inl st) /\
    h' = (if st =? 0 then [] else [CairoDestroy c]) ++ CairoStatus c st :: CairoCreate s c :: h.
Proof.
  unfold context, cairo_create, context_check_status, cairo_status, andthen, calls, dropped_unless_ok, question,
    andthen, check, done, drop_context, says.
  set (c := env_cairo_create E h s).
  set (st := env_cairo_status E (CairoCreate s c :: h) c).
  intros H. exists c, st. destruct (st =? 0); injection H as <- <-; split; reflexivity.
Qed.

Lemma new_c_int_spec E f w ht h r h' : new_c_int E f w ht h = (r, h') ->
  exists s st, r = Done (if st =? 0 then inr s else inl st) /\
    h' = (if st =? 0 then [] else [SurfaceDestroy s]) ++ SurfaceStatus s st :: ImageSurfaceCreate f w ht s :: h.
Proof.
  unfold new_c_int, cairo_image_surface_create, surface_check_status, cairo_surface_status, andthen, calls,
    dropped_unless_ok, question, andthen, check, done, drop_surface, says.
  set (s := env_image_surface_create E h f w ht).
  set (st := env_surface_status E (ImageSurfaceCreate f w ht s :: h) s).
  intros H. exists s, st. destruct (st =? 0); injection H as <- <-; split; reflexivity.
Qed.

Lemma render_spec E p o h :
  let (pw, ph) := env_page_size E h p in
  let h1 := PageGetSize p pw ph :: h in
  match pixel_count pw (opt_dppx_x o), pixel_count ph (opt_dppx_y o) with
  | Some w, Some ht =>
      exists s st,
      let h2 := SurfaceStatus s st
             :: ImageSurfaceCreate (match opt_backdrop o with Transparent => 0 | White => 1 end) w ht s :: h1 in
      if st =? 0 then
        exists c st',
        let h3 := CairoStatus c st' :: CairoCreate s c :: h2 in
        if st' =? 0 then
          exists st'',
          render_with_options E p o h =
            (Done (if st'' =? 0 then inr s else inl st''),
             (if st'' =? 0 then [] else [SurfaceDestroy s]) ++
             CairoDestroy c :: CairoStatus c st'' ::
             (if opt_for_printing o then PageRenderForPrinting p c else PageRender p c) ::
             CairoScale c (fmul (opt_dppx_x o) PX_PER_PT) (fmul (opt_dppx_y o) PX_PER_PT) ::
             match opt_backdrop o with
             | White => [CairoPaint c; CairoSetSourceRgb c (FVal 1) (FVal 1) (FVal 1)]
             | Transparent => []
             end ++ h3)
        else render_with_options E p o h = (Done (inl st'), SurfaceDestroy s :: CairoDestroy c :: h3)
      else render_with_options E p o h = (Done (inl st), SurfaceDestroy s :: h2)
  | _, _ => render_with_options E p o h = (Unwinds OutOfRange, h1)
  end.
Proof.
  destruct (env_page_size E h p) as [pw ph] eqn:PS. cbv zeta.
  assert (R : render_with_options E p o h =
    (let! w := unwrap (pixel_count pw (opt_dppx_x o)) in
     let! ht := unwrap (pixel_count ph (opt_dppx_y o)) in
     question (new_c_int E (match opt_backdrop o with
                | Transparent => CAIRO_FORMAT_ARGB32
                | White => CAIRO_FORMAT_RGB24
                end) w ht) (fun s =>
  dropped_unless_ok (drop_surface s) (
  question (context E s) (fun c =>
  dropped_after (drop_context c) (
    match opt_backdrop o with
    | White => says (CairoSetSourceRgb c (FVal 1) (FVal 1) (FVal 1)) ;;; says (CairoPaint c)
    | Transparent => done tt
    end ;;;
    says (CairoScale c (fmul (opt_dppx_x o) PX_PER_PT) (fmul (opt_dppx_y o) PX_PER_PT)) ;;;
    (if opt_for_printing o
     then says (PageRenderForPrinting p c)
     else says (PageRender p c)) ;;;
    question (context_check_status E c) (fun _ => done (inr s))))))) (PageGetSize p pw ph :: h)).
  { unfold render_with_options, size_in_css_px, size_in_ps_points, poppler_page_get_size.
    unfold andthen at 1 2. unfold andthen at 1. unfold calls. rewrite PS. reflexivity. }
  set (rw := render_with_options E p o h) in *. clearbody rw.
  set (h1 := PageGetSize p pw ph :: h) in *.
  destruct (pixel_count pw (opt_dppx_x o)) as [w|]; cbn [unwrap] in R; [|exact R].
  unfold andthen at 1 in R. unfold done at 1 in R.
  destruct (pixel_count ph (opt_dppx_y o)) as [ht|]; cbn [unwrap] in R; [|exact R].
  unfold andthen at 1 in R. unfold done at 1 in R.
  unfold question at 1 in R. unfold andthen at 1 in R.
  destruct (new_c_int E _ w ht h1) as [r h2] eqn:NC in R.
  destruct (new_c_int_spec _ _ _ _ _ _ _ NC) as (s & st & -> & H2). clear NC.
  exists s, st. destruct (st =? 0) eqn:ST.
  2:{ rewrite R, H2. destruct (opt_backdrop o); reflexivity. }
  cbn [app] in H2. unfold dropped_unless_ok in R. unfold question at 1 in R. unfold andthen at 1 in R.
  destruct (context E s h2) as [r h3] eqn:CX.
  destruct (context_spec _ _ _ _ _ CX) as (c & st' & -> & H3). clear CX.
  exists c, st'. destruct (st' =? 0) eqn:ST'.
  2:{ rewrite R. cbv beta iota zeta delta [done drop_surface says]. rewrite H3, H2. destruct (opt_backdrop o); reflexivity. }
  cbn [app] in H3. rewrite R. subst h3 h2. clear R.
  unfold dropped_after, context_check_status, cairo_status, question, andthen, calls, says, check, done,
    drop_context, drop_surface, says.
  destruct (opt_backdrop o), (opt_for_printing o);
  match goal with |- context [env_cairo_status E ?past c] => exists (env_cairo_status E past c);
    destruct (env_cairo_status E past c =? 0) end; reflexivity.
Qed.

(** ** Access to pixels *)

Lemma i32_mul_small oc a b h : -2147483648 <= a * b <= 2147483647 -> i32_mul oc a b h = (Done (a * b), h).
Proof.
  intros H. unfold i32_mul.
  replace (-2147483648 <=? a * b) with true by (symmetry; apply Z.leb_le; lia).
  replace (a * b <=? 2147483647) with true by (symmetry; apply Z.leb_le; lia). reflexivity.
Qed.

Definition pixel_queries s data w ht stride f : list ccall :=
  [ImageSurfaceGetFormat s f; ImageSurfaceGetStride s stride; ImageSurfaceGetHeight s ht;
   ImageSurfaceGetWidth s w; ImageSurfaceGetData s data; SurfaceFlush s].

Lemma pixels_unfold E oc s h : exists data w ht stride f,
  let past := pixel_queries s data w ht stride f ++ h in
  (data = env_get_data E (SurfaceFlush s :: h) s /\
   w = env_get_width E (ImageSurfaceGetData s data :: SurfaceFlush s :: h) s /\
   ht = env_get_height E (ImageSurfaceGetWidth s w :: ImageSurfaceGetData s data :: SurfaceFlush s :: h) s /\
   stride = env_get_stride E (ImageSurfaceGetHeight s ht :: ImageSurfaceGetWidth s w
                               :: ImageSurfaceGetData s data :: SurfaceFlush s :: h) s /\
   f = env_get_format E (ImageSurfaceGetStride s stride :: ImageSurfaceGetHeight s ht :: ImageSurfaceGetWidth s w
                               :: ImageSurfaceGetData s data :: SurfaceFlush s :: h) s) /\
  pixels E oc s h =
  (assert ((f =? CAIRO_FORMAT_RGB24) || (f =? CAIRO_FORMAT_ARGB32)) UnsupportedFormat ;;;
   let! row := i32_mul oc w 4 in
   assert (stride =? row) UnexpectedStride ;;;
   assert (data mod 4 =? 0) UnalignedData ;;;
   let! w' := unwrap (i32_try_into_usize w) in
   let! h' := unwrap (i32_try_into_usize ht) in
   let! area := i32_mul oc w ht in
   let! length := unwrap (i32_try_into_usize area) in
   done (PixelsView w' h' data length)) past.
Proof.
  do 5 eexists. cbv zeta. split; [repeat split; reflexivity|]. reflexivity.
Qed.

Lemma asked s data w ht stride f n : Forall question_about_image (skipn n (pixel_queries s data w ht stride f)).
Proof. do 7 (destruct n as [|n]; [repeat constructor|]). cbn. destruct n; constructor. Qed.

Lemma pixels_image E oc s h width height stride data format :
  is_image E h s width height stride data format ->
  pixels E oc s h =
  (assert ((format =? CAIRO_FORMAT_RGB24) || (format =? CAIRO_FORMAT_ARGB32)) UnsupportedFormat ;;;
   let! row := i32_mul oc width 4 in
   assert (stride =? row) UnexpectedStride ;;;
   assert (data mod 4 =? 0) UnalignedData ;;;
   let! w' := unwrap (i32_try_into_usize width) in
   let! h' := unwrap (i32_try_into_usize height) in
   let! area := i32_mul oc width height in
   let! length := unwrap (i32_try_into_usize area) in
   done (PixelsView w' h' data length)) (pixel_queries s data width height stride format ++ h).
Proof.
  intros [IW IH IS ID IF].
  destruct (pixels_unfold E oc s h) as (d & w & ht & st & f & (H1 & H2 & H3 & H4 & H5) & R).
  cbv zeta in R.
  pose proof (ID [SurfaceFlush s] ltac:(repeat constructor)) as G. cbn [app] in G. rewrite G in H1. subst d. clear G.
  pose proof (IW [ImageSurfaceGetData s data; SurfaceFlush s] ltac:(repeat constructor)) as G.
  cbn [app] in G. rewrite G in H2. subst w. clear G.
  pose proof (IH [ImageSurfaceGetWidth s width; ImageSurfaceGetData s data; SurfaceFlush s] ltac:(repeat constructor)) as G.
  cbn [app] in G. rewrite G in H3. subst ht. clear G.
  pose proof (IS [ImageSurfaceGetHeight s height; ImageSurfaceGetWidth s width; ImageSurfaceGetData s data; SurfaceFlush s]
    ltac:(repeat constructor)) as G.
  cbn [app] in G. rewrite G in H4. subst st. clear G.
  pose proof (IF [ImageSurfaceGetStride s stride; ImageSurfaceGetHeight s height; ImageSurfaceGetWidth s width;
    ImageSurfaceGetData s data; SurfaceFlush s] ltac:(repeat constructor)) as G.
  cbn [app] in G. rewrite G in H5. subst f. exact R.
Qed.

Lemma pixels_ok E oc s h width height data format :
  is_image E h s width height (4 * width) data format ->
  0 <= width <= 32767 -> 0 <= height <= 32767 -> format = 0 \/ format = 1 -> data mod 4 = 0 ->
  pixels E oc s h =
  (Done (PixelsView (Z.to_N width) (Z.to_N height) data (Z.to_N (width * height))),
   pixel_queries s data width height (4 * width) format ++ h).
Proof.
  intros I W H F A. rewrite (pixels_image _ oc _ _ _ _ _ _ _ I).
  set (past := pixel_queries s data width height (4 * width) format ++ h).
  replace ((format =? CAIRO_FORMAT_RGB24) || (format =? CAIRO_FORMAT_ARGB32)) with true
    by (destruct F as [->| ->]; reflexivity).
  unfold andthen, assert, done.
  rewrite i32_mul_small by lia. replace (4 * width =? width * 4) with true by (symmetry; apply Z.eqb_eq; lia).
  cbv beta iota. rewrite A. cbn [Z.eqb].
  unfold i32_try_into_usize, unwrap.
  replace (0 <=? width) with true by (symmetry; apply Z.leb_le; lia).
  replace (0 <=? height) with true by (symmetry; apply Z.leb_le; lia).
  unfold done. rewrite i32_mul_small by nia. cbv beta iota.
  replace (0 <=? width * height) with true by (symmetry; apply Z.leb_le; nia).
  reflexivity.
Qed.

Lemma i32_mul_result oc a b h z h' : i32_mul oc a b h = (Done z, h') ->
  h' = h /\ (z = a * b \/ (oc = false /\ (a * b < -2147483648 \/ 2147483647 < a * b) /\
             z = (a * b + 2147483648) mod 4294967296 - 2147483648)).
Proof.
  unfold i32_mul. destruct ((-2147483648 <=? a * b) && (a * b <=? 2147483647)) eqn:R.
  - unfold done. intros [= <- <-]. auto.
  - apply andb_false_iff in R. rewrite !Z.leb_gt in R.
    destruct oc; unfold unwind, done; [discriminate|]. intros [= <- <-]. auto.
Qed.

Lemma pixels_memory E oc s h width height stride data format v h' :
  is_image E h s width height stride data format ->
  is_int width -> is_int height -> is_int stride -> 4 * width <= stride ->
  pixels E oc s h = (Done v, h') ->
  (format = 0 \/ format = 1) /\ stride = 4 * width /\ data mod 4 = 0 /\
  view_data v = data /\ Z.of_N (view_width v) = width /\ Z.of_N (view_height v) = height /\
  4 * Z.of_N (view_length v) <= stride * height /\
  (width * height <= 2147483647 -> 4 * Z.of_N (view_length v) = stride * height).
Proof.
  intros I IW IH IS L. rewrite (pixels_image _ oc _ _ _ _ _ _ _ I).
  set (past := pixel_queries s data width height stride format ++ h).
  unfold andthen at 1. unfold assert at 1.
  destruct ((format =? CAIRO_FORMAT_RGB24) || (format =? CAIRO_FORMAT_ARGB32)) eqn:F; [|discriminate].
  unfold done at 1. unfold andthen at 1.
  destruct (i32_mul oc width 4 past) as [[row|] p1] eqn:M1; [|discriminate].
  apply i32_mul_result in M1 as [-> M1].
  unfold andthen at 1. unfold assert at 1. destruct (stride =? row) eqn:SR; [|discriminate]. apply Z.eqb_eq in SR.
  unfold done at 1. unfold andthen at 1. unfold assert at 1.
  destruct (data mod 4 =? 0) eqn:AL; [|discriminate]. apply Z.eqb_eq in AL.
  unfold done at 1. unfold andthen at 1. unfold i32_try_into_usize at 1.
  destruct (0 <=? width) eqn:PW; [|discriminate]. apply Z.leb_le in PW. cbn [unwrap].
  unfold done at 1. unfold andthen at 1. unfold i32_try_into_usize at 1.
  destruct (0 <=? height) eqn:PH; [|discriminate]. apply Z.leb_le in PH. cbn [unwrap].
  unfold done at 1. unfold andthen at 1.
  destruct (i32_mul oc width height past) as [[area|] p2] eqn:M2; [|discriminate].
  apply i32_mul_result in M2 as [-> M2].
  unfold andthen at 1. unfold i32_try_into_usize at 1.
  destruct (0 <=? area) eqn:PA; [|discriminate]. apply Z.leb_le in PA. cbn [unwrap]. unfold done.
  intros [= <- <-]. cbn [view_data view_width view_height view_length].
  unfold is_int in *.
  assert (ROW : stride = 4 * width).
  { destruct M1 as [->|(_ & B & _)]; lia. }
  assert (AR : area <= width * height /\ (width * height <= 2147483647 -> area = width * height)).
  { destruct M2 as [->|(_ & B & ->)]; [lia|].
    pose proof (Z.mod_le (width * height + 2147483648) 4294967296 ltac:(nia) ltac:(lia)). nia. }
  split.
  { apply orb_true_iff in F as [F|F]; apply Z.eqb_eq in F; subst format; auto. }
  split; [exact ROW|]. split; [exact AL|]. split; [reflexivity|].
  split; [lia|]. split; [lia|]. rewrite Z2N.id by exact PA.
  split; [nia|]. intros S. destruct AR as [_ AR]. rewrite (AR S). nia.
Qed.

(** ** Comparison and printing of pixels *)

Lemma same_buffer_eq a : forall b, same_buffer a b = true <-> a = b.
Proof.
  induction a as [|x a IH]; intros [|y b]; cbn; try (split; congruence).
  rewrite andb_true_iff, N.eqb_eq, IH. split; [intros [-> ->]; reflexivity | intros [= -> ->]; auto].
Qed.

Lemma pixels_eq_eq a b : pixels_eq a b = true <-> a = b.
Proof.
  destruct a as [w h l], b as [w' h' l']. unfold pixels_eq. cbn [image_width image_height image_buffer].
  rewrite !andb_true_iff, !N.eqb_eq, same_buffer_eq.
  split; [intros [[-> ->] ->]; reflexivity | intros [= -> -> ->]; auto].
Qed.

Lemma hex_digit_value d : (d < 16)%N -> hex_value (hex_digit d) = d.
Proof.
  intros H. unfold hex_digit. destruct (d <? 10)%N eqn:L; unfold hex_value.
  - apply N.ltb_lt in L. replace (48 + d <? 58)%N with true by (symmetry; apply N.ltb_lt; lia). lia.
  - apply N.ltb_ge in L. replace (55 + d <? 58)%N with false by (symmetry; apply N.ltb_ge; lia). lia.
Qed.

Lemma nibble p shift : N.land (N.shiftr p shift) 15 = ((p / 2 ^ shift) mod 16)%N.
Proof. rewrite N.shiftr_div_pow2. change 15%N with (N.ones 4). rewrite N.land_ones. reflexivity. Qed.

Lemma hex8_value p : (p < 4294967296)%N -> hex_number (hex8 p) = p.
Proof.
  intros H. unfold hex_number, hex8. cbn [map fold_left].
  assert (V : forall s, hex_value (hex_digit (N.land (N.shiftr p s) 15)) = ((p / 2 ^ s) mod 16)%N).
  { intros s. rewrite hex_digit_value; [apply nibble|]. rewrite nibble. apply N.mod_lt. discriminate. }
  rewrite !V.
  assert (S : forall s t, t = (s + 4)%N -> (16 * (p / 2 ^ t) + (p / 2 ^ s) mod 16 = p / 2 ^ s)%N).
  { intros s t ->. rewrite N.pow_add_r, <- N.div_div by (try apply N.pow_nonzero; discriminate).
    change (2 ^ 4)%N with 16%N. symmetry. apply N.div_mod. discriminate. }
  assert (T : ((p / 2 ^ 28) mod 16 = p / 2 ^ 28)%N).
  { apply N.mod_small. apply N.div_lt_upper_bound; [discriminate|]. exact H. }
  rewrite T. rewrite N.mul_0_r, N.add_0_l.
  rewrite (S 24 28)%N, (S 20 24)%N, (S 16 20)%N, (S 12 16)%N, (S 8 12)%N, (S 4 8)%N, (S 0 4)%N by reflexivity.
  apply N.div_1_r.
Qed.

Lemma hex_numbers_value l : Forall (fun p => p < 4294967296)%N l -> forall fuel, (length l <= fuel)%nat ->
  hex_numbers fuel (pixels_to_hex l) = l.
Proof.
  unfold pixels_to_hex. induction 1 as [|p l P F IH]; intros fuel L.
  - destruct fuel; reflexivity.
  - destruct fuel as [|fuel]; cbn [length] in L; [lia|].
    assert (H8 : exists d rest, hex8 p = d :: rest) by (do 2 eexists; reflexivity).
    destruct l as [|q l].
    + cbn [map join]. cbn [hex_numbers]. destruct H8 as (d & rest & H8). rewrite H8. rewrite <- H8.
      change (firstn 8 (hex8 p)) with (hex8 p). change (skipn 10 (hex8 p)) with (@nil N).
      rewrite hex8_value by exact P. destruct fuel; reflexivity.
    + cbn [map]. change (join (bs ", ") (hex8 p :: hex8 q :: map hex8 l))
        with (hex8 p ++ bs ", " ++ join (bs ", ") (map hex8 (q :: l))).
      set (tail := join (bs ", ") (map hex8 (q :: l))) in *.
      change (hex_numbers (S fuel) (hex8 p ++ bs ", " ++ tail))
        with (hex_number (hex8 p) :: hex_numbers fuel tail).
      rewrite hex8_value by exact P. rewrite IH by lia. reflexivity.
Qed.

(** ** Rendering, in terms of sizes *)

Lemma render_calls E p o h pw ph w ht :
  env_page_size E h p = (pw, ph) ->
  pixel_count pw (opt_dppx_x o) = Some w -> pixel_count ph (opt_dppx_y o) = Some ht ->
  (exists s c, render_with_options E p o h =
     (Done (inr s), drawn p o pw ph w ht s c (fmul (opt_dppx_x o) PX_PER_PT) (fmul (opt_dppx_y o) PX_PER_PT) ++ h)) \/
  (exists status, status <> 0 /\ fst (render_with_options E p o h) = Done (inl status)).
Proof.
  intros PS W H. pose proof (render_spec E p o h) as R. rewrite PS in R. cbv zeta in R. rewrite W, H in R.
  destruct R as (s & st & R). destruct (st =? 0) eqn:ST.
  2:{ right. exists st. apply Z.eqb_neq in ST. rewrite R. auto. }
  apply Z.eqb_eq in ST. subst st.
  destruct R as (c & st & R). destruct (st =? 0) eqn:ST.
  2:{ right. exists st. apply Z.eqb_neq in ST. rewrite R. auto. }
  apply Z.eqb_eq in ST. subst st.
  destruct R as (st & R). destruct (st =? 0) eqn:ST.
  2:{ right. exists st. apply Z.eqb_neq in ST. rewrite R. auto. }
  apply Z.eqb_eq in ST. subst st. left. exists s, c. rewrite R. unfold drawn. cbn [app].
  destruct (opt_backdrop o); reflexivity.
Qed.

Lemma count_moderate s d : moderate s -> moderate d -> exists n, pixels_for s d n /\
  pixel_count (FVal s) (FVal d) = if ((-2147483648 <=? n) && (n <=? 2147483647))%Z then Some n else None.
Proof.
  intros [S1 S2] [D1 D2]. destruct (image_bounds s d S1 S2 D1 D2) as (n & C & B1 & B2).
  exists n. split; [split; assumption|]. unfold pixel_count. rewrite C. apply try_into_i32_finite.
Qed.

Lemma pixels_for_nonneg s d n : moderate s -> moderate d -> pixels_for s d n -> 0 <= n.
Proof.
  intros [S1 _] [D1 _] [B _].
  assert (P := pow2_pos (-500)).
  assert (0 <= inject_Z n)%Q.
  { apply Qle_trans with ((4 # 3) * s * d * (1 - pow2 (-51)))%Q; [|exact B].
    apply Qmult_le_0_compat; [|discriminate]. apply Qmult_le_0_compat; [|lra].
    apply Qmult_le_0_compat; [discriminate | lra]. }
  change 0%Q with (inject_Z 0) in H. rewrite <- Zle_Qle in H. exact H.
Qed.

Lemma truncated_as q : (inject_Z (-2147483648) <= q)%Q -> (q <= inject_Z 2147483647)%Q -> truncated q (as_i32 (FVal q)).
Proof.
  intros L U. unfold as_i32, is_negative.
  destruct (Qcompare_spec q 0) as [E|N|P].
  - left. assert (F : Qfloor q = 0%Z) by (rewrite E; reflexivity). rewrite F. change (inject_Z (Z.max (-2147483648) (Z.min 2147483647 0))) with 0%Q. rewrite E. repeat split; discriminate || reflexivity.
  - right. assert (C1 : (- 2147483648 <= Qceiling q)%Z).
    { rewrite <- (Qceiling_Z (-2147483648)). apply Qceiling_resp_le. exact L. }
    assert (C2 : (Qceiling q <= 0)%Z).
    { rewrite <- (Qceiling_Z 0). apply Qceiling_resp_le. apply Qlt_le_weak. exact N. }
    rewrite Z.min_r, Z.max_r by lia.
    split; [exact N|]. split; [|apply Qle_ceiling].
    pose proof (Qceiling_lt q) as Q. unfold Zminus in Q. rewrite inject_Z_plus in Q. exact Q.
  - left. assert (C1 : (Qfloor q <= 2147483647)%Z).
    { rewrite <- (Qfloor_Z 2147483647). apply Qfloor_resp_le. exact U. }
    assert (C2 : (0 <= Qfloor q)%Z).
    { rewrite <- (Qfloor_Z 0). apply Qfloor_resp_le. apply Qlt_le_weak. exact P. }
    rewrite Z.min_r, Z.max_r by lia.
    split; [apply Qlt_le_weak; exact P|]. split; [apply Qfloor_le|].
    pose proof (Qlt_floor q) as Q. rewrite inject_Z_plus in Q. exact Q.
Qed.

Lemma try_into_i32_number q :
  ((inject_Z (-2147483648) <= q /\ q <= inject_Z 2147483647)%Q /\
   exists z, f64_try_into_i32 (FVal q) = Some z /\ truncated q z) \/
  ((q < inject_Z (-2147483648) \/ inject_Z 2147483647 < q)%Q /\ f64_try_into_i32 (FVal q) = None).
Proof.
  unfold f64_try_into_i32, flt_q, fgt_q.
  destruct (Qcompare_spec q (inject_Z (-2147483648))) as [E|N|P].
  - left. assert (U : (q <= inject_Z 2147483647)%Q) by (rewrite E; discriminate).
    assert (L : (inject_Z (-2147483648) <= q)%Q) by (rewrite E; apply Qle_refl).
    split; [auto|]. destruct (Qcompare_spec q (inject_Z 2147483647)) as [E'|N'|P']; cbn [orb].
    + eexists; split; [reflexivity | apply truncated_as; assumption].
    + eexists; split; [reflexivity | apply truncated_as; assumption].
    + exfalso. lra.
  - right. auto.
  - assert (L : (inject_Z (-2147483648) <= q)%Q) by (apply Qlt_le_weak; exact P).
    destruct (Qcompare_spec q (inject_Z 2147483647)) as [E'|N'|P']; cbn [orb].
    + left. assert (U : (q <= inject_Z 2147483647)%Q) by (rewrite E'; apply Qle_refl).
      split; [auto|]. eexists; split; [reflexivity | apply truncated_as; assumption].
    + left. assert (U : (q <= inject_Z 2147483647)%Q) by (apply Qlt_le_weak; exact N').
      split; [auto|]. eexists; split; [reflexivity | apply truncated_as; assumption].
    + right. auto.
Qed.

Lemma scale_close d : moderate d -> exists z, fmul (FVal d) PX_PER_PT = FVal z /\
  ((4 # 3) * d * (1 - pow2 (-52)) <= z /\ z <= (4 # 3) * d * (1 + pow2 (-52)))%Q.
Proof.
  intros [D1 D2]. rewrite px_per_pt_value. set (k := (6004799503160661 # 4503599627370496)%Q).
  assert (K : (k == (4 # 3) * (1 - pow2 (-54)))%Q) by exact px_per_pt_points.
  assert (K1 : (1 <= k /\ k <= 4 # 3)%Q) by (split; discriminate).
  assert (P := pow2_pos (-500)).
  destruct (round64_error (d * k)) as (z & Z & Z1 & Z2).
  { apply Qle_trans with (pow2 (-500)); [apply pow2_le; lia | nra]. }
  { apply Qle_trans with (2 * pow2 500)%Q; [nra|]. rewrite <- pow2_S. apply pow2_le. lia. }
  exists z. split; [exact Z|].
  assert (T : (pow2 (-54) == (1 # 2) * pow2 (-53) /\ pow2 (-52) == 2 * pow2 (-53))%Q) by (split; reflexivity).
  destruct T as [T1 T2]. rewrite T1 in K. rewrite T2. set (e := pow2 (-53)) in *.
  assert (E0 : (0 < e /\ e <= 1 # 100)%Q) by (split; [reflexivity | discriminate]).
  rewrite K in Z1, Z2. set (x := ((4 # 3) * d)%Q).
  assert (X0 : (0 < x)%Q) by (unfold x; nra).
  split.
  - apply Qle_trans with (x * ((1 - (1 # 2) * e) * (1 - e)))%Q.
    + rewrite (Qmult_comm x), (Qmult_comm x). apply Qmult_le_compat_r; [nra | lra].
    + apply Qle_trans with (d * ((4 # 3) * (1 - (1 # 2) * e)) * (1 - e))%Q; [unfold x|exact Z1].
      apply Qle_lteq. right. ring.
  - apply Qle_trans with (d * ((4 # 3) * (1 - (1 # 2) * e)) * (1 + e))%Q; [exact Z2|].
    apply Qle_trans with (x * ((1 - (1 # 2) * e) * (1 + e)))%Q.
    + unfold x. apply Qle_lteq. right. ring.
    + rewrite (Qmult_comm x), (Qmult_comm x). apply Qmult_le_compat_r; [nra | lra].
Qed.
