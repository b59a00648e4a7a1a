(** Lines have the fewest breaks in any orderly arithmetic, and that of [f32] is one. *)
From Coq Require Import QArith Qminmax Qabs Lqa Lia.
From Verif Require Import Base Dom StyleValues StyleProperties PdfConvert Geom Text LayoutTree Layout LayoutSpec InlineSpec InlineLineProofs WiderProofs.
From Verif Require Import LesterFloat Float32 Float32Proofs Arith32 Arith32Spec Arith32Proofs LayoutArith LayoutArithProofs RoundedLinesSpec.
Local Open Scope Q_scope.

(** ** Rounding keeps the order *)
Lemma rounded_comp : forall a b, a == b -> rounded a = rounded b.
Proof. intros a b E. unfold rounded. rewrite (round32_comp _ _ E). reflexivity. Qed.
Lemma rounded_bounds : forall a, - infinity <= rounded a <= infinity.
Proof. intros a. pose proof infinity_pos. destruct (rounded_cases a) as [[A ->]|[[A ->]|[A ->]]]; lra. Qed.
Lemma rounded_le : forall a b, a <= b -> rounded a <= rounded b.
Proof.
  intros a b L. destruct (rounded_nearest a) as (A1 & A2 & A3). destruct (rounded_nearest b) as (B1 & B2 & B3).
  pose proof (rounded_bounds a) as Ba. pose proof (rounded_bounds b) as Bb. pose proof too_large_below as [T1 T2].
  destruct (Qlt_le_dec b too_large) as [Hb|Hb]; [|rewrite (B2 Hb); apply Ba].
  destruct (Qlt_le_dec (- too_large) a) as [Ha|Ha]; [|rewrite (A3 Ha); apply Bb].
  assert (Fa : Qabs a < too_large) by (clear - Ha Hb L; destruct (abs_cases a) as [[? E]|[? E]]; rewrite E; lra).
  assert (Fb : Qabs b < too_large) by (clear - Ha Hb L; destruct (abs_cases b) as [[? E]|[? E]]; rewrite E; lra).
  destruct (A1 Fa) as [Na Ca]. destruct (B1 Fb) as [Nb Cb]. apply Qnot_lt_le. intros G.
  pose proof (proj1 (Ca _ Nb)) as D1. pose proof (proj1 (Cb _ Na)) as D2.
  assert (E : a == b).
  { clear - L G D1 D2. revert D1 D2 G. generalize (rounded a) (rounded b). intros ra rb D1 D2 G.
    destruct (abs_cases (ra - a)) as [[? E1]|[? E1]], (abs_cases (rb - a)) as [[? E2]|[? E2]], (abs_cases (rb - b)) as [[? E3]|[? E3]], (abs_cases (ra - b)) as [[? E4]|[? E4]]; rewrite E1, E2 in D1; rewrite E3, E4 in D2; lra. }
  rewrite (rounded_comp _ _ E) in G. lra.
Qed.
Lemma rounded_same : forall a, finite32 a -> rounded a == a.
Proof.
  intros a F. pose proof (finite32_below _ F) as B. destruct F as (m & e & Hm & He & E).
  assert (R : round32 a == a) by (rewrite (round32_comp _ _ E), round32_exact by lia; symmetry; exact E).
  assert (I : - infinity < a < infinity) by (destruct (abs_cases a) as [[? X]|[? X]]; rewrite X in B; lra).
  destruct (rounded_cases a) as [[A ->]|[[A ->]|[A ->]]]; lra.
Qed.
(** ** The arithmetic of [f32] *)
Lemma width32_cases : forall a, width32 a -> is_nan a = false /\ ((finite32 a /\ is_infinite a = false /\ 0 <= a) \/ (a == infinity /\ is_infinite a = true)).
Proof.
  intros a [N [L U]]. pose proof infinity_pos. pose proof infinity_nan. destruct N as [F|[E|[E|E]]]; [| |lra|lra].
  - split; [apply finite_not_nan; exact F|]. left. split; [exact F|]. split; [apply finite_not_infinite; exact F|exact L].
  - split; [unfold is_nan; destruct (Qeq_bool a nan) eqn:X; [apply Qeq_bool_iff in X; lra|reflexivity]|].
    right. split; [exact E|]. unfold is_infinite. apply Qeq_bool_iff. rewrite E. reflexivity.
Qed.
Lemma finite_bounds : forall a, finite32 a -> - infinity < a < infinity.
Proof. intros a F. pose proof (finite32_below _ F) as B. destruct (abs_cases a) as [[? X]|[? X]]; rewrite X in B; lra. Qed.
(** The exact sum, rounded; also if it is infinite *)
Lemma f32_add_rounded : forall a b, width32 a -> width32 b -> f32_add a b == rounded (a + b).
Proof.
  intros a b Ha Hb. pose proof too_large_below as [T1 T2].
  destruct (width32_cases _ Ha) as [Na Ca]. destruct (width32_cases _ Hb) as [Nb Cb]. unfold f32_add. rewrite Na, Nb. cbn [orb].
  destruct Ca as [(Fa & -> & Pa)|(Ea & ->)].
  - destruct Cb as [(Fb & -> & Pb)|(Eb & ->)]; [reflexivity|]. destruct (rounded_nearest (a + b)) as (_ & R & _). rewrite R; [exact Eb|lra].
  - assert (X : is_infinite b && negb (Qeq_bool a b) = false).
    { destruct Cb as [(Fb & -> & Pb)|(Eb & ->)]; [reflexivity|]. cbn [andb]. apply Bool.negb_false_iff, Qeq_bool_iff. rewrite Ea, Eb. reflexivity. }
    rewrite X. destruct (rounded_nearest (a + b)) as (_ & R & _). rewrite R; [exact Ea|]. destruct Hb as [_ [Hb _]]. lra.
Qed.
Lemma rounded_width : forall a, 0 <= a -> width32 (rounded a).
Proof.
  intros a P. split; [apply rounded_number|]. split; [|apply rounded_bounds]. rewrite <- (rounded_same 0); [apply rounded_le; exact P|].
  exists 0%Z, 0%Z. repeat split; lia.
Qed.
Lemma width32_comp : forall a b, a == b -> width32 a -> width32 b.
Proof. intros a b E [H1 H2]. split; [exact (number32_comp _ _ E H1)|]. rewrite <- E. exact H2. Qed.
Lemma f32_mul_cases : forall s a, size32 s -> width32 a ->
  (finite32 a /\ f32_mul s a == rounded (s * a)) \/ (a == infinity /\ f32_mul s a == infinity).
Proof.
  intros s a [Fs Ps] Ha. destruct (width32_cases _ Ha) as [Na Ca]. unfold f32_mul. rewrite (finite_not_nan _ Fs), Na, (finite_not_infinite _ Fs). cbn [orb].
  destruct Ca as [(Fa & -> & Pa)|(Ea & ->)]; [left; split; [exact Fa|reflexivity]|]. right. split; [exact Ea|]. pose proof infinity_pos.
  unfold sign. destruct (Qcompare_spec s 0); [lra|lra|]. destruct (Qcompare_spec a 0); [lra|lra|]. cbv iota beta.
  change (Qeq_bool (1 * 1) 0) with false. cbv iota. ring.
Qed.
Lemma not_nan : forall r, room32 r -> is_nan r = false.
Proof. intros r [_ H]. pose proof infinity_nan. unfold is_nan. destruct (Qeq_bool r nan) eqn:E; [apply Qeq_bool_iff in E; lra|reflexivity]. Qed.
Lemma is_nan_comp : forall a b, a == b -> is_nan a = is_nan b.
Proof. intros a b E. unfold is_nan. apply Bool.eq_iff_eq_true. rewrite !Qeq_bool_iff, E. tauto. Qed.
Theorem f32_orderly : orderly f32 width32 size32 room32.
Proof.
  constructor; cbn [f32 a_add a_mul a_gt a_sub a_max a_lit].
  - split; [apply number32_zero|]. pose proof infinity_pos. lra.
  - intros a b Ha Hb. pose proof (f32_add_rounded a b Ha Hb) as E. pose proof (proj1 (proj2 Ha)) as Pa. pose proof (proj1 (proj2 Hb)) as Pb.
    split; [apply (width32_comp (rounded (a + b))); [symmetry; exact E|apply rounded_width; lra]|]. rewrite E.
    destruct (width32_cases _ Ha) as [_ [(Fa & _)|(Ea & _)]].
    + rewrite <- (rounded_same a Fa) at 1. apply rounded_le. lra.
    + destruct (rounded_nearest (a + b)) as (_ & R & _). pose proof too_large_below. rewrite R; [lra|lra].
  - intros a a' b b' Ha Ha' Hb Hb' L1 L2. rewrite !f32_add_rounded by assumption. apply rounded_le. lra.
  - intros s a Hs Ha. destruct (f32_mul_cases s a Hs Ha) as [[_ E]|[Ea E]].
    + apply (width32_comp (rounded (s * a))); [symmetry; exact E|]. apply rounded_width. apply Qmult_le_0_compat; [apply Qlt_le_weak, Hs|apply Ha].
    + apply (width32_comp a); [rewrite E; exact Ea|exact Ha].
  - intros s s' a a' Hs Hs' Ha Ha' L1 L2. destruct (f32_mul_cases s a Hs Ha) as [[F E]|[Ea E]], (f32_mul_cases s' a' Hs' Ha') as [[F' E']|[Ea' E']]; rewrite E, E'.
    + apply rounded_le. apply Qle_trans with (s * a').
      * rewrite !(Qmult_comm s). apply Qmult_le_compat_r; [exact L2|apply Qlt_le_weak, Hs].
      * apply Qmult_le_compat_r; [exact L1|apply Ha'].
    + apply rounded_bounds.
    + exfalso. pose proof (finite_bounds _ F'). lra.
    + lra.
  - intros a a' r r' Ha Ha' Hr Hr' L1 L2 H. unfold f32_compare in *. rewrite (proj1 (width32_cases _ Ha)), (not_nan r Hr) in H.
    rewrite (proj1 (width32_cases _ Ha')), (not_nan r' Hr'). cbn [orb negb andb] in *.
    apply Bool.negb_true_iff. apply Bool.negb_true_iff in H. destruct (Qle_bool a' r') eqn:X; [|reflexivity].
    apply Qle_bool_iff in X. assert (Y : Qle_bool a r = true) by (apply Qle_bool_iff; lra). congruence.
  - intros r x Hr. assert (E : f32_sub r 0 == r).
    { unfold f32_sub. change (f32_neg 0) with (- 0). unfold f32_add. rewrite (not_nan r Hr). change (is_nan (- 0)) with false. change (is_infinite (- 0)) with false. cbn [orb andb].
      destruct (is_infinite r) eqn:I; [reflexivity|]. destruct Hr as [[F|[E|[E|E]]] U].
      - assert (Z : r + - 0 == r) by ring. rewrite (rounded_comp _ _ Z). apply rounded_same. exact F.
      - unfold is_infinite in I. exfalso. assert (X : Qeq_bool (Qabs r) infinity = true) by (apply Qeq_bool_iff; rewrite E; reflexivity). congruence.
      - unfold is_infinite in I. exfalso. assert (X : Qeq_bool (Qabs r) infinity = true) by (apply Qeq_bool_iff; rewrite E; reflexivity). congruence.
      - pose proof infinity_nan. lra. }
    unfold f32_compare. rewrite (is_nan_comp _ _ E). f_equal. f_equal. apply Bool.eq_iff_eq_true. rewrite !Qle_bool_iff, E. tauto.
  - intros a Ha. unfold f32_max. change (is_nan 0) with false. rewrite (proj1 (width32_cases _ Ha)). cbv iota.
    assert (E : Qmax 0 a == a) by (apply Q.max_r; apply Ha). split; [apply (width32_comp a); [symmetry; exact E|exact Ha]|exact E].
  - apply rounded_width. lra.
Qed.
Theorem exact_orderly : orderly exact (fun q => 0 <= q) (fun q => 0 <= q) (fun _ => True).
Proof.
  constructor; cbn [exact a_add a_mul a_gt a_sub a_max a_lit]; intros; try lra.
  - apply Qmult_le_0_compat; assumption.
  - apply Qle_trans with (s * a').
    + rewrite !(Qmult_comm s). apply Qmult_le_compat_r; assumption.
    + apply Qmult_le_compat_r; assumption.
  - apply Bool.negb_true_iff. apply Bool.negb_true_iff in H5. destruct (Qle_bool a' r') eqn:X; [|reflexivity].
    apply Qle_bool_iff in X. assert (Y : Qle_bool a r = true) by (apply Qle_bool_iff; lra). congruence.
  - f_equal. apply Bool.eq_iff_eq_true. rewrite !Qle_bool_iff. split; intros; lra.
  - assert (E : Qmax 0 a == a) by (apply Q.max_r; assumption). split; [rewrite E; assumption|exact E].
Qed.

(** ** Lines, whatever fits *)
Section Lines.
Variable fit : list N -> Prop.
Variable wide : list N -> Prop.
(** As in InlineSpec.v *)
Inductive line1 : list N -> list N -> list N -> Prop :=
| l1_words : forall line word rest, (forall l r, line = l ++ space :: r -> fit l) -> fit line -> unbreakable word -> (rest = [] \/ exists r, rest = space :: r) ->
    wide (line ++ space :: word) -> line1 (line ++ space :: word ++ rest) line (word ++ rest)
| l1_one : forall word rest, unbreakable word -> wide word -> line1 (word ++ space :: rest) word rest
| l1_all : forall line, (forall l r, line = l ++ space :: r -> fit l) -> fit line \/ (unbreakable line /\ wide line) -> line1 line line [].
Inductive lines1 : list N -> list (list N) -> Prop :=
| ls_last : forall text line, line1 text line [] -> lines1 text [line]
| ls_more : forall text line rest lines, line1 text line rest -> rest <> [] -> lines1 rest lines -> lines1 text (line :: lines).
Definition ways (text : list N) (lines : list (list N)) : Prop :=
  lines <> [] /\ (text = joined lines \/ text = joined lines ++ [space]) /\ Forall (fun l => fit l \/ unbreakable l) lines.

Lemma line1_kept : forall text line rest, line1 text line rest -> text = line ++ space :: rest \/ (text = line /\ rest = []).
Proof. intros text l rest H. destruct H; [left|left|right; split]; reflexivity. Qed.
Lemma line1_fits : forall text line rest, line1 text line rest -> fit line \/ unbreakable line.
Proof. intros text l rest H. destruct H as [? ? ? ? H|? ? H|? ? [H|[H _]]]; [left|right|left|right]; exact H. Qed.
Lemma lines1_ways : forall text lines, lines1 text lines -> ways text lines.
Proof.
  induction 1 as [text l H|text l rest lines H N H' (IH1 & IH2 & IH3)].
  - split; [discriminate|]. split; [|constructor; [exact (line1_fits _ _ _ H)|constructor]]. cbn [joined]. destruct (line1_kept _ _ _ H) as [E|[E _]]; [right|left]; exact E.
  - split; [discriminate|]. split; [|constructor; [exact (line1_fits _ _ _ H)|exact IH3]]. destruct lines as [|l2 lines]; [contradiction|].
    change (joined (l :: l2 :: lines)) with (l ++ space :: joined (l2 :: lines)). destruct (line1_kept _ _ _ H) as [-> |[_ E]]; [|contradiction].
    destruct IH2 as [-> | ->]; [left; reflexivity|right]. rewrite <- app_assoc. reflexivity.
Qed.

Hypothesis never_both : forall t, fit t -> wide t -> False.
Hypothesis fit_part : forall a b c, fit (a ++ b ++ c) -> fit b.
Definition stop1 (text stop : list N) : Prop := breaks text stop /\ wide stop /\ forall l r, stop = l ++ space :: r -> fit l.
Inductive by_stop1 (text line rest : list N) : Prop :=
| b1_words : forall word after_, stop1 text (line ++ space :: word) -> unbreakable word -> text = line ++ space :: word ++ after_ -> rest = word ++ after_ ->
    by_stop1 text line rest
| b1_one : stop1 text line -> unbreakable line -> (text = line /\ rest = [] \/ text = line ++ space :: rest) -> by_stop1 text line rest
| b1_all : (forall l, breaks text l -> fit l) -> line = text -> rest = [] -> by_stop1 text line rest.
Lemma line1_by_stop : forall text line rest, line1 text line rest -> by_stop1 text line rest.
Proof.
  intros text line0 rest0 H. destruct H as [line word rest Hp Hf Hw Hr Ht|word rest Hw Ht|line Hp H].
  - apply (b1_words _ _ _ word rest); [|exact Hw|reflexivity|reflexivity]. split; [|split; [exact Ht|]].
    + destruct Hr as [-> |(r & ->)]; [left; rewrite app_nil_r; reflexivity|]. right. exists r. rewrite <- app_assoc. reflexivity.
    + intros l r E. destruct (words_prefix _ _ _ _ Hw E) as [-> |(r' & E')]; [exact Hf|exact (Hp _ _ E')].
  - apply b1_one; [|exact Hw|right; reflexivity]. split; [right; exists rest; reflexivity|]. split; [exact Ht|].
    intros l r ->. exfalso. apply Hw. apply in_or_app. right. left. reflexivity.
  - destruct H as [Hf|[Hu Ht]].
    + apply b1_all; [|reflexivity|reflexivity]. intros l [<-|(r & E)]; [exact Hf|exact (Hp _ _ E)].
    + apply b1_one; [|exact Hu|left; split; reflexivity]. split; [left; reflexivity|]. split; [exact Ht|exact Hp].
Qed.
(** A line goes no further than the first one made, even if it begins earlier. *)
Lemma line1_longest : forall pre text line rest o, line1 text line rest -> rest <> [] ->
  breaks text o -> fit (pre ++ o) \/ unbreakable (pre ++ o) -> exists p, text = o ++ space :: p ++ rest /\ after_space p.
Proof.
  intros pre text line rest o H N B O. apply line1_by_stop in H.
  assert (St : forall stop, stop1 text stop -> o = stop /\ unbreakable stop \/ exists r, stop = o ++ space :: r).
  { intros stop (S1 & S2 & S3). destruct (breaks_order _ _ _ B S1) as [E|[(r & E)|(r & E)]].
    - left. split; [exact E|]. subst o. destruct O as [O|O].
      + exfalso. rewrite <- (app_nil_r stop) in O at 1. apply fit_part in O. exact (never_both _ O S2).
      + intros I. apply O. apply in_or_app. right. exact I.
    - exfalso. subst o. destruct O as [O|O].
      + apply fit_part in O. exact (never_both _ O S2).
      + rewrite app_assoc in O. exact (has_space _ _ O).
    - right. exists r. exact E. }
  destruct H as [word aft S1 U T R|S1 U T|A1 A2 A3].
  - destruct (St _ S1) as [[_ V]|(r & E)]; [exfalso; exact (has_space _ _ V)|].
    destruct (words_prefix _ _ _ _ U E) as [-> |(r' & ->)].
    + exists []. split; [rewrite T, R; reflexivity|left; reflexivity].
    + exists (r' ++ [space]). split; [rewrite T, R, <- !app_assoc; reflexivity|right; exists r'; reflexivity].
  - destruct (St _ S1) as [[-> _]|(r & ->)]; [|exfalso; exact (has_space _ _ U)].
    destruct T as [[_ T]|T]; [contradiction|]. exists []. split; [exact T|left; reflexivity].
  - contradiction.
Qed.
Lemma fewest1 : forall text lines, lines1 text lines -> forall other pre, after_space pre -> other <> [] ->
  pre ++ text = joined other \/ pre ++ text = joined other ++ [space] ->
  Forall (fun l => fit l \/ unbreakable l) other -> (length lines <= length other)%nat.
Proof.
  intros text lines H. induction H as [text l H|text l rest lines H N H' IH].
  { intros [|o other] pre _ No _ _; [contradiction|]. cbn [length]. lia. }
  induction other as [|o other IHo]; intros pre Hp No E Ho; [contradiction|]. apply Forall_cons_iff in Ho as [Ho1 Ho2].
  assert (Cut : exists after, pre ++ text = o ++ after /\
     (after = [] \/ exists t, after = space :: t /\ ((other = [] /\ t = []) \/ (other <> [] /\ (t = joined other \/ t = joined other ++ [space]))))).
  { destruct other as [|o2 other].
    - cbn [joined] in E. destruct E as [E|E]; [exists []; split; [rewrite app_nil_r; exact E|left; reflexivity]|].
      exists [space]. split; [exact E|]. right. exists []. split; [reflexivity|]. left. split; reflexivity.
    - change (joined (o :: o2 :: other)) with (o ++ space :: joined (o2 :: other)) in E. destruct E as [E|E].
      + exists (space :: joined (o2 :: other)). split; [exact E|]. right. eexists. split; [reflexivity|]. right. split; [discriminate|left; reflexivity].
      + exists (space :: joined (o2 :: other) ++ [space]). split; [rewrite E, <- app_assoc; reflexivity|]. right. eexists. split; [reflexivity|]. right. split; [discriminate|right; reflexivity]. }
  destruct Cut as (after & E' & Ha).
  assert (Tn : forall p, p ++ text <> []).
  { intros p X. apply app_eq_nil in X as [_ X]. subst text. pose proof (line1_kept _ _ _ H) as [K|[_ K]]; [destruct l; discriminate K|contradiction]. }
  destruct (cut pre text o after Hp E') as [(p & -> & Sp)|(o' & -> & T)].
  { destruct Ha as [Ha|(t & Ha & _)]; [left; exact Ha|right; exists t; exact Ha]. }
  - (* the line ends before the text begins *)
    destruct Ha as [Ha|(t & Ha & Hr)]; [discriminate Ha|]. injection Ha as Ha. destruct Hr as [[_ Hr]|[No' Hr]]; [exfalso; exact (Tn p (eq_trans Ha Hr))|].
    cbn [length]. apply Nat.le_trans with (length other); [|lia]. apply (IHo p Sp No'); [rewrite Ha; exact Hr|exact Ho2].
  - assert (B : breaks text o'). { destruct Ha as [-> |(t & -> & _)]; [left; rewrite app_nil_r in T; exact T|right; exists t; exact T]. }
    destruct (line1_longest pre text l rest o' H N B Ho1) as (p & T2 & Sp).
    rewrite T2 in T. apply app_inv_head in T. destruct Ha as [-> |(t & -> & Hr)]; [discriminate T|]. injection T as T.
    destruct Hr as [[_ ->]|[No' Hr]]; [apply app_eq_nil in T as [_ T]; contradiction|].
    cbn [length]. apply le_n_S. apply (IH other p Sp No'); [rewrite T; exact Hr|exact Ho2].
Qed.
Lemma fewest_ways : forall text lines other, lines1 text lines -> ways text other -> (length lines <= length other)%nat.
Proof. intros text lines other H (N & E & O). apply (fewest1 text lines H other []); [left; reflexivity|exact N|exact E|exact O]. Qed.
End Lines.

(** ** What layout does *)
Section Layout.
Variable ar : arith.
Variable glyph_id : N -> res font_error N.
Variable glyph_width : N -> res font_error Q.
Notation adds_up := (adds_up ar glyph_id glyph_width).
Notation fits_in := (fits_in ar glyph_id glyph_width).
Definition wide_in (available font_size : Q) (text : list N) : Prop :=
  exists gs w, adds_up 0 text gs w /\ a_gt ar (a_mul ar font_size w) available = true.
Lemma adds_fun : forall w t gs w', adds_up w t gs w' -> forall gs' w'', adds_up w t gs' w'' -> gs = gs' /\ w' = w''.
Proof.
  induction 1 as [w|w ch t g gs gw w' H1 H2 H IH]; intros gs' w'' H'; inversion H' as [|? ? ? g' gs0 gw0 ? H1' H2' H0]; subst; [split; reflexivity|].
  assert (Eg : g' = g) by congruence. subst g'. assert (Ew : gw0 = gw) by congruence. subst gw0. destruct (IH _ _ H0) as [-> ->]. split; reflexivity.
Qed.
Lemma adds_app : forall w a gs w', adds_up w a gs w' -> forall b gs' w'', adds_up w' b gs' w'' -> adds_up w (a ++ b) (gs ++ gs') w''.
Proof. induction 1 as [w|w ch t g gs gw w' H1 H2 H IH]; intros b gs' w'' H'; [exact H'|]. cbn [app]. econstructor; eauto. Qed.
Lemma adds_split : forall a b w gs w'', adds_up w (a ++ b) gs w'' -> exists gs1 w' gs2, adds_up w a gs1 w' /\ adds_up w' b gs2 w'' /\ gs = gs1 ++ gs2.
Proof.
  induction a as [|ch a IH]; intros b w gs w'' H; cbn [app] in H.
  - exists [], w, gs. split; [constructor|]. split; [exact H|reflexivity].
  - inversion H as [|? ? ? g gs0 gw ? H1 H2 H3]; subst. destruct (IH _ _ _ _ H3) as (gs1 & w' & gs2 & I1 & I2 & ->).
    exists (g :: gs1), w', gs2. split; [econstructor; eassumption|]. split; [exact I2|reflexivity].
Qed.
Lemma adds_length : forall w t gs w', adds_up w t gs w' -> length gs = length t.
Proof. induction 1; cbn [length]; [reflexivity|]. f_equal. assumption. Qed.
Definition holds_in (t : list N) (s : shaped) : Prop := adds_up 0 t (glyphs s) (advance_width s).
Lemma holds_append_in : forall t s ch s', holds_in t s -> append_char_in ar glyph_id glyph_width s ch = Ok s' -> holds_in (t ++ [ch]) s'.
Proof.
  intros t s ch s' H1 H. unfold append_char_in in H. destruct (glyph_id ch) as [g| |] eqn:E1; try discriminate H. cbn [bind] in H.
  destruct (glyph_width g) as [w'| |] eqn:E2; try discriminate H. cbn [bind] in H. assert (E : s' = mkShaped (glyphs s ++ [g]) (a_add ar (advance_width s) w')) by congruence. subst s'.
  unfold holds_in. cbn [glyphs advance_width]. apply (adds_app _ _ _ _ H1). econstructor; [exact E1|exact E2|constructor].
Qed.
Section Line.
Variables available size_ : Q.
Notation fit := (fits_in available size_).
Notation wide := (wide_in available size_).
Lemma fit_not_wide : forall t, fit t -> wide t -> False.
Proof. intros t (gs & w & H1 & H2) (gs' & w' & H1' & H2'). destruct (adds_fun _ _ _ _ H1 _ _ H1') as [_ <-]. congruence. Qed.
Definition opportunity_in (t : list N) (chars : list N) (o : option (shaped_state * list N)) : Prop :=
  match o with
  | None => unbreakable t
  | Some (st, iter) =>
      exists line word, t = line ++ space :: word /\ unbreakable word /\ iter = word ++ chars /\
        st_glyphs st = length line /\ (exists gs, adds_up 0 line gs (st_advance_width st)) /\
        fit line /\ (forall l r, line = l ++ space :: r -> fit l)
  end.
Lemma opportunity_prefixes_in : forall t chars o, opportunity_in t chars o -> forall l r, t = l ++ space :: r -> fit l.
Proof.
  intros t chars [[st iter]|] H l r E.
  - destruct H as (line & word & -> & Hw & _ & _ & _ & Hf & Hp). destruct (InlineProofs.split_in_two _ _ _ _ _ E) as [(m & ->)|[[-> ->]|(m & -> & ->)]].
    + exact (Hp _ _ eq_refl).
    + exact Hf.
    + exfalso. apply Hw. apply in_or_app. right. left. reflexivity.
  - exfalso. apply H. rewrite E. apply in_or_app. right. left. reflexivity.
Qed.
Lemma holds_restore_in : forall t chars s st iter, holds_in t s -> opportunity_in t chars (Some (st, iter)) ->
  exists line word, t = line ++ space :: word /\ unbreakable word /\ iter = word ++ chars /\ holds_in line (restore s st) /\
    fit line /\ (forall l r, line = l ++ space :: r -> fit l).
Proof.
  intros t chars s st iter H1 (line & word & -> & Hw & -> & Hg & (gs & Hl) & Hf & Hp).
  exists line, word. split; [reflexivity|]. split; [exact Hw|]. split; [reflexivity|]. split; [|split; assumption].
  destruct (adds_split _ _ _ _ _ H1) as (gs1 & w1 & gs2 & I1 & I2 & E). destruct (adds_fun _ _ _ _ I1 _ _ Hl) as [-> ->].
  unfold holds_in, restore. cbn [glyphs advance_width]. rewrite E, Hg, <- (adds_length _ _ _ _ I1), firstn_app, Nat.sub_diag, firstn_all, app_nil_r. exact I1.
Qed.
Lemma fill_line_ok_in : forall chars t s o s' rest, holds_in t s -> opportunity_in t chars o ->
  fill_line_in ar glyph_id glyph_width available size_ chars s o = Some (s', rest) ->
  exists line, line1 fit wide (t ++ chars) line rest /\ holds_in line s'.
Proof.
  induction chars as [|ch chars IH]; intros t s o s' rest Hs Ho H; cbn [fill_line_in] in H.
  - rewrite app_nil_r. pose proof (opportunity_prefixes_in _ _ _ Ho) as Hp. destruct (a_gt ar _ available) eqn:F.
    + assert (W : wide t) by (exists (glyphs s), (advance_width s); split; [exact Hs|exact F]). destruct o as [[st iter]|].
      * injection H as <- <-. destruct (holds_restore_in _ _ _ _ _ Hs Ho) as (line & word & -> & Hw & -> & Hl & Hf & Hp').
        exists line. split; [|exact Hl]. replace (line ++ space :: word) with (line ++ space :: word ++ []) by (rewrite app_nil_r; reflexivity).
        apply l1_words; try assumption. left. reflexivity.
      * injection H as <- <-. exists t. split; [|exact Hs]. apply l1_all; [exact Hp|]. right. split; [exact Ho|exact W].
    + injection H as <- <-. exists t. split; [|exact Hs]. apply l1_all; [exact Hp|]. left. exists (glyphs s), (advance_width s). split; [exact Hs|exact F].
  - destruct (ch =? 32)%N eqn:E; cbn [andb] in H.
    + apply N.eqb_eq in E. subst ch. destruct (a_gt ar _ available) eqn:F.
      * assert (W : wide t) by (exists (glyphs s), (advance_width s); split; [exact Hs|exact F]). destruct o as [[st iter]|].
        -- injection H as <- <-. destruct (holds_restore_in _ _ _ _ _ Hs Ho) as (line & word & -> & Hw & -> & Hl & Hf & Hp').
           exists line. split; [|exact Hl]. rewrite <- app_assoc. apply l1_words; try assumption. right. exists chars. reflexivity.
        -- injection H as <- <-. exists t. split; [|exact Hs]. apply l1_one; assumption.
      * destruct (append_char_in ar glyph_id glyph_width s 32) as [s1| |] eqn:A; try discriminate H.
        specialize (IH (t ++ [32%N]) s1 (Some (save s, chars)) s' rest). rewrite <- app_assoc in IH. apply IH; [exact (holds_append_in _ _ _ _ Hs A)| |exact H].
        exists t, []. split; [reflexivity|]. split; [intros []|]. split; [reflexivity|].
        split; [exact (adds_length _ _ _ _ Hs)|]. split; [exists (glyphs s); exact Hs|]. split; [exists (glyphs s), (advance_width s); split; [exact Hs|exact F]|].
        exact (opportunity_prefixes_in _ _ _ Ho).
    + destruct (append_char_in ar glyph_id glyph_width s ch) as [s1| |] eqn:A; try discriminate H.
      specialize (IH (t ++ [ch]) s1 o s' rest). rewrite <- app_assoc in IH. apply IH; [exact (holds_append_in _ _ _ _ Hs A)| |exact H].
      assert (N : ch <> space) by (apply N.eqb_neq; exact E). destruct o as [[st iter]|].
      * destruct Ho as (line & word & -> & Hw & -> & Hr). exists line, (word ++ [ch]). split; [rewrite <- app_assoc; reflexivity|].
        split; [intros I; apply in_app_or in I as [I|[I|[]]]; [exact (Hw I)|exact (N I)]|]. split; [rewrite <- app_assoc; reflexivity|]. exact Hr.
      * intros I. apply in_app_or in I as [I|[I|[]]]; [exact (Ho I)|exact (N I)].
Qed.
Lemma fill_line_starts_in : forall chars s' rest,
  fill_line_in ar glyph_id glyph_width available size_ chars new_with_naive_shaping None = Some (s', rest) ->
  exists line, line1 fit wide chars line rest /\ holds_in line s'.
Proof. intros chars s' rest H. apply (fill_line_ok_in chars [] new_with_naive_shaping None); [constructor|intros []|exact H]. Qed.
End Line.

Notation line_with := (line_with ar glyph_id glyph_width).
Lemma iter_out : forall (f : Q -> Q) n x, Nat.iter (S n) f x = Nat.iter n f (f x).
Proof. intros f n x. induction n as [|n IH]; [reflexivity|]. cbn [Nat.iter nat_rect] in *. rewrite IH. reflexivity. Qed.
(** Of any height, so far *)
Lemma run_lines_in : forall cb style av fuel chars s s', ifc_stack s = [] -> nl_fragments (ifc_current s) = [] -> nl_max_block_size (ifc_current s) = 0 ->
  text_run_lines_in ar glyph_id glyph_width fuel cb style av chars s = Some s' ->
  let h := a_max ar 0 (a_mul ar (get style font_size) (a_lit ar (12 # 10))) in
  exists lines ls lastl f, lines1 (fits_in av (get style font_size)) (wide_in av (get style font_size)) chars (lines ++ [lastl]) /\ ifc_stack s' = [] /\
    lb_boxes (ifc_lines s') = lb_boxes (ifc_lines s) ++ ls /\ Forall2 line_with lines ls /\
    nl_fragments (ifc_current s') = [f] /\ line_with lastl f /\
    lb_next_position (ifc_lines s') = Nat.iter (length ls) (fun p => a_add ar p h) (lb_next_position (ifc_lines s)) /\
    nl_max_block_size (ifc_current s') = h.
Proof.
  intros cb style av fuel. cbv zeta. induction fuel as [|fuel IH]; intros chars s s' St Fr Mx H; cbn [text_run_lines_in] in H; [discriminate H|].
  destruct (fill_line_in _ _ _ _ _ _ _) as [[sh rest]|] eqn:E; [|discriminate H].
  apply fill_line_starts_in in E as (line0 & HL & Ho).
  set (h := a_max ar 0 (a_mul ar (get style font_size) (a_lit ar (12 # 10)))) in *.
  assert (M : nl_max_block_size (ifc_current (push_text_in ar style sh s)) = h) by (unfold push_text_in; cbn [ifc_current nl_max_block_size]; rewrite Mx; reflexivity).
  assert (Fx : exists f, nl_fragments (ifc_current (push_text_in ar style sh s)) = [f] /\ line_with line0 f).
  { unfold push_text_in. cbn [ifc_current nl_fragments]. rewrite Fr. eexists. split; [reflexivity|]. exists (advance_width sh). exact Ho. }
  assert (St' : ifc_stack (push_text_in ar style sh s) = []) by exact St.
  assert (Ln : ifc_lines (push_text_in ar style sh s) = ifc_lines s) by reflexivity.
  destruct Fx as (f0 & Fx1 & Fx2). set (s1 := push_text_in ar style sh s) in *. clearbody s1. destruct rest as [|c rest].
  - injection H as <-. exists [], [], line0, f0. split; [apply ls_last; exact HL|]. split; [exact St'|]. rewrite Ln, app_nil_r. repeat split; try assumption. constructor.
  - assert (K : exists f, ifc_stack (new_line_in ar cb s1) = [] /\ nl_fragments (ifc_current (new_line_in ar cb s1)) = [] /\ nl_max_block_size (ifc_current (new_line_in ar cb s1)) = 0 /\
       lb_boxes (ifc_lines (new_line_in ar cb s1)) = lb_boxes (ifc_lines s) ++ [f] /\ line_with line0 f /\
       lb_next_position (ifc_lines (new_line_in ar cb s1)) = a_add ar (lb_next_position (ifc_lines s)) h).
    { unfold new_line_in. rewrite St'. cbn [break_levels_in]. unfold finish_line_in. cbn [ifc_stack ifc_current nl_max_block_size ifc_lines lb_boxes lb_next_position nl_fragments].
      eexists. split; [reflexivity|]. split; [reflexivity|]. split; [reflexivity|]. rewrite Ln. split; [reflexivity|]. cbn [v_block]. rewrite M. split; [|reflexivity].
      destruct Fx2 as (w & Fx2). exists w. cbn [glyphs_in]. rewrite Fx1. cbn [flat_map]. rewrite app_nil_r. exact Fx2. }
    destruct K as (f & K1 & K2 & K3 & K4 & K5 & K6).
    destruct (IH _ _ _ K1 K2 K3 H) as (lines & ls & lastl & f1 & H1 & H2 & H3 & H4 & H5 & H6 & H7 & H8).
    exists (line0 :: lines), (f :: ls), lastl, f1. cbn [app]. split; [apply (ls_more _ _ _ _ (c :: rest)); [exact HL|discriminate|exact H1]|].
    split; [exact H2|]. split; [rewrite H3, K4, <- app_assoc; reflexivity|]. split; [constructor; assumption|]. split; [exact H5|]. split; [exact H6|]. split; [|exact H8].
    rewrite H7, K6. cbn [length]. rewrite iter_out. reflexivity.
Qed.
Lemma stacked_iter : forall h n, Nat.iter n (fun p => a_add ar p h) 0 = stacked ar h n.
Proof. intros h n. induction n as [|n IH]; [reflexivity|]. cbn [Nat.iter nat_rect stacked]. rewrite <- IH. reflexivity. Qed.
Lemma text_container_in : forall o style text cb rank acc fl coll fc acc',
  block_container_layout_in ar glyph_id glyph_width o (InlineFormattingContext [TextRun style text]) cb rank acc fl coll = Some (fc, acc') ->
  let av := a_sub ar (cb_inline_size cb) 0 in
  exists lines, lines1 (fits_in av (get style font_size)) (wide_in av (get style font_size)) text lines /\
    Forall2 line_with lines (fc_fragments fc) /\
    fc_block_size fc = stacked ar (a_max ar 0 (a_mul ar (get style font_size) (a_lit ar (12 # 10)))) (length lines).
Proof.
  intros o style text cb rank acc fl coll fc acc' H. cbv zeta. rewrite bcl_inlines in H. cbn [inline_boxes_layout] in H.
  change (inline_level_box_layout_in ar glyph_id glyph_width o (TextRun style text) cb rank (mkIFC (mkLB [] 0) 0 [] (mkNL [] 0 0)) acc) with
    (match text_run_layout_in ar glyph_id glyph_width cb style text (mkIFC (mkLB [] 0) 0 [] (mkNL [] 0 0)) with Some s => Some (s, acc) | None => None end) in H.
  destruct (text_run_layout_in _ _ _ _ _ _ _) as [s1|] eqn:E2; [|discriminate H]. unfold text_run_layout_in in E2.
  apply run_lines_in in E2; [|reflexivity|reflexivity|reflexivity]. destruct E2 as (lines & ls & lastl & f & H1 & H2 & H3 & H4 & H5 & (w & H6) & H7 & H8).
  unfold finish_line_in in H. injection H as <- <-. exists (lines ++ [lastl]). split; [exact H1|]. cbn [fc_fragments fc_block_size lb_boxes lb_next_position v_block].
  cbn [ifc_lines lb_boxes app] in H3. rewrite H3. split.
  - apply Forall2_app; [exact H4|]. constructor; [|constructor]. exists w. cbn [glyphs_in]. rewrite H5. cbn [flat_map]. rewrite app_nil_r. exact H6.
  - rewrite H7, H8. cbn [ifc_lines lb_next_position]. rewrite stacked_iter, app_length. cbn [length]. rewrite Nat.add_1_r. cbn [stacked].
    assert (L : length ls = length lines) by (clear - H4; induction H4; cbn [length]; congruence). rewrite L. reflexivity.
Qed.

(** *** In an orderly arithmetic *)
Variables width_ size_ room_ : Q -> Prop.
Hypothesis od : orderly ar width_ size_ room_.
Hypothesis widths : forall g w, glyph_width g = Ok w -> width_ w.
Lemma adds_width : forall w t gs w', adds_up w t gs w' -> width_ w -> width_ w' /\ w <= w'.
Proof.
  induction 1 as [w|w ch t g gs gw w' H1 H2 H IH]; intros Hw; [split; [exact Hw|lra]|]. destruct (od_add _ _ _ _ od w gw Hw (widths _ _ H2)) as [A1 A2].
  destruct (IH A1) as [I1 I2]. split; [exact I1|lra].
Qed.
Lemma adds_le : forall w t gs w', adds_up w t gs w' -> forall v, width_ v -> width_ w -> v <= w -> exists v', adds_up v t gs v' /\ v' <= w'.
Proof.
  induction 1 as [w|w ch t g gs gw w' H1 H2 H IH]; intros v Hv Hw L; [exists v; split; [constructor|exact L]|].
  pose proof (widths _ _ H2) as Hg. destruct (IH (a_add ar v gw)) as (v' & I1 & I2).
  - apply (od_add _ _ _ _ od); assumption.
  - apply (od_add _ _ _ _ od); assumption.
  - apply (od_add_le _ _ _ _ od); try assumption; lra.
  - exists v'. split; [econstructor; eassumption|exact I2].
Qed.
Lemma not_gt : forall a a' r r', width_ a -> width_ a' -> room_ r -> room_ r' -> a <= a' -> r' <= r -> a_gt ar a' r' = false -> a_gt ar a r = false.
Proof.
  intros a a' r r' Ha Ha' Hr Hr' L1 L2 H. destruct (a_gt ar a r) eqn:E; [|reflexivity]. rewrite (od_gt _ _ _ _ od a a' r r') in H by assumption. discriminate H.
Qed.
Lemma fits_part_in : forall av fs, room_ av -> size_ fs -> forall a b c, fits_in av fs (a ++ b ++ c) -> fits_in av fs b.
Proof.
  intros av fs Hr Hs a b c (gs & w & H & G). apply adds_split in H as (g1 & w1 & g2 & H1 & H2 & _). apply adds_split in H2 as (g3 & w2 & g4 & H2 & H3 & _).
  pose proof (od_zero _ _ _ _ od) as Z. destruct (adds_width _ _ _ _ H1 Z) as [W1 L1]. destruct (adds_width _ _ _ _ H2 W1) as [W2 L2].
  destruct (adds_width _ _ _ _ H3 W2) as [W3 L3]. destruct (adds_le _ _ _ _ H2 0 Z W1 L1) as (v & V1 & V2). exists g3, v. split; [exact V1|].
  destruct (adds_width _ _ _ _ V1 Z) as [Wv _]. apply (not_gt _ (a_mul ar fs w) _ av); try assumption; try lra.
  - apply (od_mul _ _ _ _ od); assumption.
  - apply (od_mul _ _ _ _ od); assumption.
  - apply (od_mul_le _ _ _ _ od); try assumption; lra.
Qed.
Lemma fits_more : forall av av' fs fs' t, room_ av -> room_ av' -> size_ fs -> size_ fs' -> av' <= av -> fs <= fs' -> fits_in av' fs' t -> fits_in av fs t.
Proof.
  intros av av' fs fs' t Hr Hr' Hs Hs' L Lf (gs & w & H & G). exists gs, w. split; [exact H|]. pose proof (proj1 (adds_width _ _ _ _ H (od_zero _ _ _ _ od))) as W.
  apply (not_gt _ (a_mul ar fs' w) _ av'); try assumption.
  - apply (od_mul _ _ _ _ od); assumption.
  - apply (od_mul _ _ _ _ od); assumption.
  - apply (od_mul_le _ _ _ _ od); try assumption; lra.
Qed.
Lemma sub_zero_fits : forall av fs t, room_ av -> (fits_in (a_sub ar av 0) fs t <-> fits_in av fs t).
Proof. intros av fs t Hr. split; intros (gs & w & H & G); exists gs, w; (split; [exact H|]); [rewrite <- (od_sub _ _ _ _ od av) by exact Hr|rewrite (od_sub _ _ _ _ od av) by exact Hr]; exact G. Qed.
Lemma sub_zero_wide : forall av fs t, room_ av -> (wide_in (a_sub ar av 0) fs t -> wide_in av fs t).
Proof. intros av fs t Hr (gs & w & H & G). exists gs, w. split; [exact H|]. rewrite <- (od_sub _ _ _ _ od av) by exact Hr. exact G. Qed.
Lemma stacked_width : forall h n, width_ h -> width_ (stacked ar h n).
Proof. intros h n H. induction n as [|n IH]; [exact (od_zero _ _ _ _ od)|]. apply (od_add _ _ _ _ od); assumption. Qed.
Lemma stacked_le : forall h h' n n', width_ h -> width_ h' -> h <= h' -> (n <= n')%nat -> stacked ar h n <= stacked ar h' n'.
Proof.
  intros h h' n n' H H' L Ln. apply Qle_trans with (stacked ar h' n).
  - clear Ln. induction n as [|n IH]; [apply Qle_refl|]. cbn [stacked]. apply (od_add_le _ _ _ _ od); try assumption; apply stacked_width; assumption.
  - induction Ln as [|m Ln IH]; [apply Qle_refl|]. cbn [stacked]. pose proof (proj2 (od_add _ _ _ _ od (stacked ar h' m) h' (stacked_width h' m H') H')). lra.
Qed.
End Layout.
Lemma line1_impl : forall (f f' w w' : list N -> Prop), (forall t, f t -> f' t) -> (forall t, w t -> w' t) -> forall t l r, line1 f w t l r -> line1 f' w' t l r.
Proof.
  intros f f' w w' Hf Hw t l r H. destruct H as [line word rest A1 A2 A3 A4 A5|word rest A1 A2|line A1 A2].
  - apply l1_words; eauto.
  - apply l1_one; auto.
  - apply l1_all; [eauto|]. destruct A2 as [A2|[A2 A3]]; [left|right; split]; auto.
Qed.
Lemma lines1_impl : forall (f f' w w' : list N -> Prop), (forall t, f t -> f' t) -> (forall t, w t -> w' t) -> forall t l, lines1 f w t l -> lines1 f' w' t l.
Proof.
  intros f f' w w' Hf Hw t l H. induction H as [t l H|t l r ls H N H' IH]; [apply ls_last|apply (ls_more _ _ _ _ r); [|exact N|exact IH]]; exact (line1_impl _ _ _ _ Hf Hw _ _ _ H).
Qed.
