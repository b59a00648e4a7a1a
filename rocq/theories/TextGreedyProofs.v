(** Greedy lines are as few as possible, in any arithmetic in which addition does not decrease sums. *)
From Coq Require Import QArith Qabs Lqa Lia.
From Verif Require Import Base TextPlain TextPlainSpec Arith32 Arith32Spec TextPlainArithSpec TextGreedySpec.
From Verif Require Arith32Proofs LayoutRelProps TextErrorProofs.
Local Open Scope nat_scope.

Lemma app_cases : forall A (a b c d : list A), a ++ b = c ++ d -> (exists x, a = c ++ x /\ d = x ++ b) \/ (exists x, c = a ++ x /\ b = x ++ d).
Proof.
  intros A a. induction a as [|y a IH]; intros b c d H; cbn [app] in H.
  - right. exists c. split; [reflexivity|exact H].
  - destruct c as [|z c]; cbn [app] in H.
    + left. exists (y :: a). split; [reflexivity|exact (eq_sym H)].
    + injection H as <- H. destruct (IH _ _ _ H) as [(x & -> & ->)|(x & -> & ->)]; [left|right]; exists x; split; reflexivity.
Qed.
(** The line in which a word is *)
Lemma line_of : forall A (lines : list (list A)) a w b, concat lines = a ++ w :: b ->
  exists before x y after, lines = before ++ (x ++ w :: y) :: after /\ concat before ++ x = a /\ y ++ concat after = b.
Proof.
  intros A lines. induction lines as [|l lines IH]; intros a w b H; cbn [concat] in H; [destruct a; discriminate H|].
  destruct (app_cases _ _ _ _ _ H) as [([|v x] & E1 & E2)|(x & E1 & E2)].
  - cbn [app] in E2. symmetry in E2. destruct (IH [] w b E2) as (bf & x & y & af & -> & C1 & C2). exists (l :: bf), x, y, af. split; [reflexivity|]. split; [|exact C2].
    cbn [concat]. rewrite <- app_assoc, C1, app_nil_r. rewrite app_nil_r in E1. exact E1.
  - cbn [app] in E2. injection E2 as <- E2. exists [], a, x, lines. split; [rewrite E1; reflexivity|]. split; [reflexivity|symmetry; exact E2].
  - destruct (IH x w b E2) as (bf & x' & y & af & -> & C1 & C2). exists (l :: bf), x', y, af. split; [reflexivity|]. split; [|exact C2].
    cbn [concat]. rewrite <- app_assoc, C1. symmetry. exact E1.
Qed.

Section Laws.
Variable ar : arith.
Variable amount : Q -> Prop.
Local Notation "a <=. b" := (a_gt ar a b = false) (at level 70).
Record adds_up : Prop := mkAddsUp {
  au_zero : amount 0%Q;
  au_add : forall a b, amount a -> amount b -> amount (a_add ar a b);
  au_nonneg : forall a, amount a -> 0%Q <=. a;
  au_mono : forall a b c, amount a -> amount b -> amount c -> a <=. b -> a_add ar a c <=. a_add ar b c;
  au_refl : forall a, amount a -> a <=. a;
  au_mono_r : forall a b c, amount a -> amount b -> amount c -> a <=. b -> a_add ar c a <=. a_add ar c b;
  au_grows : forall a b, amount a -> amount b -> a <=. a_add ar a b;
  au_trans : forall a b c, amount a -> amount b -> a <=. b -> b <=. c -> a <=. c }.
Hypothesis laws : adds_up.
Definition amounts (l : list word) : Prop := Forall (fun w => amount (w_width w)) l.

Lemma total_amount : forall l a, Forall amount l -> amount a -> amount (total ar a l).
Proof. intros l. induction l as [|x l IH]; intros a Hl Ha; cbn [total]; [exact Ha|]. inversion Hl; subst. apply IH; [assumption|]. apply (au_add laws); assumption. Qed.
Lemma total_mono : forall l a b, Forall amount l -> amount a -> amount b -> a <=. b -> total ar a l <=. total ar b l.
Proof.
  intros l. induction l as [|x l IH]; intros a b Hl Ha Hb H; cbn [total]; [exact H|]. inversion Hl; subst. apply IH; [assumption|apply (au_add laws); assumption..|]. apply (au_mono laws); assumption.
Qed.
Lemma total_app : forall l m a, total ar a (l ++ m) = total ar (total ar a l) m.
Proof. intros l. induction l as [|x l IH]; intros m a; cbn [app total]; [reflexivity|apply IH]. Qed.
Lemma width_amount : forall l, amounts l -> amount (width_by ar l).
Proof. intros l H. apply total_amount; [apply Forall_map; exact H|apply (au_zero laws)]. Qed.
Lemma width_suffix : forall a b, amounts (a ++ b) -> width_by ar b <=. width_by ar (a ++ b).
Proof.
  intros a b H. apply Forall_app in H as [Ha Hb]. unfold width_by. rewrite map_app, total_app. apply total_mono; [apply Forall_map; exact Hb|apply (au_zero laws)|apply (width_amount a Ha)|].
  apply (au_nonneg laws). exact (width_amount a Ha).
Qed.
Lemma positive_up : forall a b, amount a -> amount b -> a <=. b -> a_gt ar a 0 = true -> a_gt ar b 0 = true.
Proof. intros a b Ha Hb H P. destruct (a_gt ar b 0) eqn:E; [reflexivity|]. rewrite (au_trans laws a b 0 Ha Hb H E) in P. discriminate P. Qed.

(** Greedy lines of a text are no more than any lines of that text, or of that text after another. *)
Lemma greedy_best : forall avail ws ls rest, lines_by ar avail ws ls rest -> forall pre other, amounts (pre ++ ws) -> broken_into ar avail (pre ++ ws) other ->
  line_count ls rest <= length other.
Proof.
  intros avail ws ls rest H. induction H as [ws F1 F2|l w r ls rest F1 F2 F3 H IH|l w r ls rest F1 F2 F3 F4 H IH]; intros pre other Ha [E Hf].
  - unfold line_count. cbn [length]. destruct ws as [|w ws]; [lia|]. destruct other as [|o other]; [destruct pre; discriminate E|cbn [length]; lia].
  - assert (E' : concat other = (pre ++ l) ++ w :: r) by (rewrite E, <- !app_assoc; reflexivity).
    destruct (line_of _ _ _ _ _ E') as (bf & x & y & af & -> & C1 & C2). apply Forall_app in Hf as [_ Hf]. apply Forall_cons_iff in Hf as [[_ Hh] Hf'].
    destruct y as [|v y]; [|rewrite (Hh x w (v :: y) eq_refl ltac:(discriminate)) in F3; discriminate F3]. cbn [app] in C2.
    specialize (IH [] af). cbn [app] in IH. unfold line_count in *. cbn [length]. rewrite app_length. cbn [length]. enough (length ls + match rest with [] => 0 | _ => 1 end <= length af) by lia. apply IH; [|split; [exact C2|exact Hf']].
    apply Forall_app in Ha as [_ Ha]. apply Forall_app in Ha as [_ Ha]. exact Ha.
  - assert (E' : concat other = (pre ++ l) ++ w :: r) by (rewrite E, <- !app_assoc; reflexivity).
    destruct (line_of _ _ _ _ _ E') as (bf & x & y & af & -> & C1 & C2). apply Forall_app in Hf as [_ Hf]. assert (Hf0 := Hf). apply Forall_cons_iff in Hf as [[Hfit _] Hf'].
    assert (Hw : amounts (l ++ w :: r)) by (apply Forall_app in Ha as [_ Ha]; exact Ha). assert (Hl : amounts l) by (apply Forall_app in Hw as [Hw _]; exact Hw).
    assert (Ww : amount (w_width w)) by (apply Forall_app in Hw as [_ Hw]; inversion Hw; assumption).
    destruct (app_cases _ _ _ _ _ C1) as [(z & E1 & E2)|(z & E1 & E2)].
    + (* the line begins in [l] *) destruct z as [|z0 z].
      * cbn [app] in E2. subst x. exfalso. assert (P := F3). specialize (Hfit l w y eq_refl P). congruence.
      * specialize (IH x ((x ++ w :: y) :: af)). unfold line_count in *. cbn [length]. rewrite app_length.
        enough (length ls + match rest with [] => 0 | _ => 1 end <= length ((x ++ w :: y) :: af)).
        { assert (0 < length bf) by (destruct bf; [destruct pre; discriminate E1|cbn [length]; lia]). lia. }
        apply IH.
        -- rewrite E2, <- app_assoc in Hw. apply Forall_app in Hw as [_ Hw]. exact Hw.
        -- split; [cbn [concat]; rewrite <- app_assoc; cbn [app]; rewrite C2; reflexivity|exact Hf0].
    + (* or before it, and cannot have the next word *)
      exfalso. subst x. assert (Az : amounts (z ++ l)). { apply Forall_app. split; [|exact Hl]. apply Forall_app in Ha as [Ha _]. rewrite E1 in Ha. apply Forall_app in Ha as [_ Ha]. exact Ha. }
      pose proof (width_suffix z l Az) as S. pose proof (width_amount _ Hl) as A1. pose proof (width_amount _ Az) as A2.
      specialize (Hfit (z ++ l) w y eq_refl (positive_up _ _ A1 A2 S F3)). rewrite (au_trans laws _ _ _ (au_add laws _ _ A1 Ww) (au_add laws _ _ A2 Ww) (au_mono laws _ _ _ A1 A2 Ww S) Hfit) in F4. discriminate F4.
Qed.
(** Less text needs no more lines. *)
Notation less := (less_text ar).
Lemma less_total : forall a b, less a b -> amounts a -> amounts b -> forall s s', amount s -> amount s' -> s <=. s' -> total ar s (map w_width a) <=. total ar s' (map w_width b).
Proof.
  intros a b H. induction H as [|w w' a b Hw Hh H IH|w' a b Hh H IH]; intros Ha Hb s s' Hs Hs' L; cbn [map total]; [exact L| |].
  - apply Forall_cons_iff in Ha as [Aw Ha]. apply Forall_cons_iff in Hb as [Aw' Hb]. pose proof (au_add laws) as P. apply IH; [exact Ha|exact Hb|apply P; assumption..|].
    apply (au_trans laws _ (a_add ar s (w_width w'))); [apply P; assumption..|apply (au_mono_r laws); assumption|apply (au_mono laws); assumption].
  - apply Forall_cons_iff in Hb as [Aw' Hb]. apply IH; [exact Ha|exact Hb|exact Hs|apply (au_add laws); assumption|]. apply (au_trans laws _ s'); [assumption..|]. apply (au_grows laws); assumption.
Qed.
Lemma less_app : forall b c l, less l (b ++ c) -> exists b' c', l = b' ++ c' /\ less b' b /\ less c' c.
Proof.
  intros b. induction b as [|x b IH]; intros c l H; cbn [app] in H; [exists [], l; split; [reflexivity|]; split; [constructor|exact H]|].
  inversion H as [|w w' a' r Hw Hh H'|w' a' r Hh H']; subst; destruct (IH _ _ H') as (b' & c' & -> & B & C).
  - exists (w :: b'), c'. split; [reflexivity|]. split; [constructor; assumption|exact C].
  - exists b', c'. split; [reflexivity|]. split; [constructor; assumption|exact C].
Qed.
(** A word of the lesser text is one of the other. *)
Lemma less_split : forall l' l, less l' l -> forall a' w' b', l' = a' ++ w' :: b' ->
  exists a w b, l = a ++ w :: b /\ less a' a /\ w_width w' <=. w_width w /\ w_hard w' = w_hard w /\ less b' b.
Proof.
  intros l' l H. induction H as [|w w' a b Hw Hh H IH|w' a b Hh H IH]; intros a' v b' E.
  - destruct a'; discriminate E.
  - destruct a' as [|y a']; cbn [app] in E; injection E as -> E.
    + subst a. exists [], w', b. split; [reflexivity|]. split; [constructor|]. split; [exact Hw|]. split; assumption.
    + destruct (IH _ _ _ E) as (a1 & w1 & b1 & -> & L1 & L2 & L3 & L4). exists (w' :: a1), w1, b1. split; [reflexivity|]. split; [constructor; assumption|]. split; [exact L2|]. split; assumption.
  - destruct (IH _ _ _ E) as (a1 & w1 & b1 & -> & L1 & L2 & L3 & L4). exists (w' :: a1), w1, b1. split; [reflexivity|]. split; [constructor; assumption|]. split; [exact L2|]. split; assumption.
Qed.
Lemma less_breaks : forall avail other ws ws', less ws' ws -> amounts ws -> amounts ws' -> broken_into ar avail ws other ->
  exists other', broken_into ar avail ws' other' /\ length other' = length other.
Proof.
  intros avail other. induction other as [|l other IH]; intros ws ws' H Ha Ha' [E F]; cbn [concat] in E.
  - subst ws. inversion H; subst. exists []. split; [split; [reflexivity|constructor]|reflexivity].
  - subst ws. destruct (less_app _ _ _ H) as (l' & r' & -> & H1 & H2). apply Forall_app in Ha as [A1 A2]. apply Forall_app in Ha' as [A1' A2']. apply Forall_cons_iff in F as [[F1 F2] F].
    destruct (IH _ _ H2 A2 A2' (conj eq_refl F)) as (other' & [E' F'] & L). exists (l' :: other'). split; [|cbn [length]; rewrite L; reflexivity]. split; [cbn [concat]; rewrite E'; reflexivity|]. constructor; [|exact F'].
    split.
    + intros a' w' b' El P. destruct (less_split _ _ H1 _ _ _ El) as (a & w & b & -> & L1 & L2 & L3 & L4). rewrite El in A1'. apply Forall_app in A1 as [X1 X2]. apply Forall_app in A1' as [Y1 Y2]. apply Forall_cons_iff in X2 as [X2 _]. apply Forall_cons_iff in Y2 as [Y2 _].
      pose proof (less_total _ _ L1 Y1 X1 0%Q 0%Q (au_zero laws) (au_zero laws) (au_refl laws _ (au_zero laws))) as W. fold (width_by ar a') in W. fold (width_by ar a) in W.
      pose proof (width_amount _ X1) as B1. pose proof (width_amount _ Y1) as B2. specialize (F1 a w b eq_refl (positive_up _ _ B2 B1 W P)). pose proof (au_add laws) as Pl.
      apply (au_trans laws _ (a_add ar (width_by ar a) (w_width w'))); [apply Pl; assumption..|apply (au_mono laws); assumption|].
      apply (au_trans laws _ (a_add ar (width_by ar a) (w_width w))); [apply Pl; assumption..|apply (au_mono_r laws); assumption|exact F1].
    + intros a' w' b' El Nb. destruct (less_split _ _ H1 _ _ _ El) as (a & w & b & -> & L1 & L2 & L3 & L4). rewrite L3. apply (F2 a w b eq_refl). intros ->. inversion L4; subst. destruct (Nb eq_refl).
Qed.
End Laws.

(** The lines made are lines. *)
Lemma greedy_breaks : forall ar avail ws ls rest, lines_by ar avail ws ls rest ->
  broken_into ar avail ws (map fst ls ++ match rest with [] => [] | _ => [rest] end) /\ length (map fst ls ++ match rest with [] => [] | _ => [rest] end) = line_count ls rest.
Proof.
  intros ar avail ws ls rest H. split; [|rewrite app_length, map_length; unfold line_count; destruct rest; reflexivity].
  induction H as [ws F1 F2|l w r ls rest F1 F2 F3 H IH|l w r ls rest F1 F2 F3 F4 H IH]; cbn [map fst app].
  - destruct ws as [|w ws]; [split; [reflexivity|constructor]|]. split; [cbn [concat]; apply app_nil_r|]. constructor; [|constructor]. split; [exact F1|]. intros a v b E _. apply F2. rewrite E. apply in_or_app. right. left. reflexivity.
  - destruct IH as [I1 I2]. split; [cbn [concat]; rewrite I1; reflexivity|]. constructor; [|exact I2]. split; [exact F1|]. intros a v b E Nb.
    destruct b as [|v' b _] using rev_ind; [destruct (Nb eq_refl)|]. rewrite app_comm_cons, app_assoc in E. apply app_inj_tail in E as [-> _]. apply F2. apply in_or_app. right. left. reflexivity.
  - destruct IH as [I1 I2]. split; [cbn [concat]; rewrite I1; reflexivity|]. constructor; [|exact I2]. split; [exact F1|]. intros a v b E _. apply F2. rewrite E. apply in_or_app. right. left. reflexivity.
Qed.
Lemma wider_breaks : forall ar avail avail' ws other, (forall x, a_gt ar x avail = false -> a_gt ar x avail' = false) -> broken_into ar avail ws other -> broken_into ar avail' ws other.
Proof.
  intros ar avail avail' ws other H [E F]. split; [exact E|]. eapply Forall_impl; [|exact F]. intros l [Hf Hh]. split; [|exact Hh]. intros a w b El P. apply H. exact (Hf a w b El P).
Qed.
(** Fewer lines, on pages that have room for as many *)
Lemma pages_fewer : forall ar A B t t' bottom bottom' h h' (ls : list A) (ls' : list B) ps ps',
  (forall n, a_gt ar (line_top ar t h n) bottom = true -> a_gt ar (line_top ar t' h' n) bottom' = true) ->
  pages_by ar t bottom h ls ps -> pages_by ar t' bottom' h' ls' ps' -> length ls <= length ls' -> length ps <= length ps'.
Proof.
  intros ar A B t t' bottom bottom' h h' ls ls' ps ps' Hb H. revert ls' ps'. induction H as [ls F|ls r ps F1 F2 F3 H IH]; intros ls' ps' H' L.
  - destruct H'; cbn [length]; lia.
  - assert (P : 0 < length ls) by (destruct ls; [destruct (F1 eq_refl)|cbn [length]; lia]). apply Hb in F3. rewrite app_length in L. inversion H' as [ls2 G E1 E2|ls2 r2 ps2 G1 G2 G3 G4 E1 E2]; subst.
    + exfalso. specialize (G (length ls) ltac:(lia)). congruence.
    + cbn [length]. apply le_n_S. apply (IH r2 ps2 G4). assert (length ls2 <= length ls); [|rewrite app_length in L; lia].
      apply Nat.nlt_ge. intros X. specialize (G2 (length ls) ltac:(lia)). congruence.
Qed.

(** ** The two arithmetics *)
Local Open Scope Q_scope.
Lemma gt_Q : forall a b, negb (Qle_bool a b) = false <-> a <= b.
Proof. intros a b. rewrite Bool.negb_false_iff. apply Qle_bool_iff. Qed.
Lemma exact_adds_up : adds_up exact (fun q => 0 <= q).
Proof.
  split; cbn [a_gt a_add exact]; intros; rewrite ?gt_Q in *; try lra; try discriminate.
Qed.
Lemma nearest_mono : forall p q r s, p <= q -> nearest32 p r -> nearest32 q s -> r <= s.
Proof.
  intros p q r s H N M. assert (Fb : forall x, finite32 x -> - infinity < x /\ x < infinity).
  { intros x F. pose proof (Arith32Proofs.finite32_below x F) as B. destruct (Arith32Proofs.abs_cases x) as [[S E]|[S E]]; rewrite E in B; lra. }
  assert (I : 0 < infinity) by reflexivity. pose proof (proj1 Arith32Proofs.too_large_below) as T0.
  assert (Rg : forall q r, nearest32 q r -> - infinity <= r /\ r <= infinity).
  { intros q0 r0 N0. destruct (Qlt_le_dec q0 too_large) as [L|L]; [|rewrite (proj1 (proj2 N0) L); lra]. destruct (Qlt_le_dec (- too_large) q0) as [G|G]; [|rewrite (proj2 (proj2 N0) G); lra].
    assert (A : Qabs q0 < too_large) by (destruct (Arith32Proofs.abs_cases q0) as [[_ E]|[_ E]]; rewrite E; lra). destruct (proj1 N0 A) as [F _]. destruct (Fb _ F). lra. }
  pose proof (Rg _ _ N) as R1. pose proof (Rg _ _ M) as R2.
  destruct (Qlt_le_dec q too_large) as [L|L]; [|rewrite (proj1 (proj2 M) L); lra]. destruct (Qlt_le_dec (- too_large) p) as [G|G]; [|rewrite (proj2 (proj2 N) G); lra].
  assert (A : Qabs p < too_large) by (destruct (Arith32Proofs.abs_cases p) as [[_ E]|[_ E]]; rewrite E; lra).
  assert (B : Qabs q < too_large) by (destruct (Arith32Proofs.abs_cases q) as [[_ E]|[_ E]]; rewrite E; lra).
  destruct (proj1 N A) as [Fr Mr]. destruct (proj1 M B) as [Fs Ms]. destruct (Mr s Fs) as [X _]. destruct (Ms r Fr) as [Y _].
  apply Qnot_lt_le. intros Z. assert (E : p == q).
  { destruct (Arith32Proofs.abs_cases (r - p)) as [[? E1]|[? E1]], (Arith32Proofs.abs_cases (s - p)) as [[? E2]|[? E2]], (Arith32Proofs.abs_cases (s - q)) as [[? E3]|[? E3]], (Arith32Proofs.abs_cases (r - q)) as [[? E4]|[? E4]];
      rewrite E1, E2 in X; rewrite E3, E4 in Y; lra. }
  assert (N' : nearest32 q r) by (apply (Arith32Proofs.nearest32_comp _ _ _ _ E (Qeq_refl r)); exact N). pose proof (LayoutRelProps.C78_unique _ _ _ N' M). lra.
Qed.
Lemma amount_not_nan : forall q, amount32 q -> is_nan q = false.
Proof.
  intros q [[F _]|E]; [apply Arith32Proofs.finite_not_nan; exact F|]. apply Bool.not_true_iff_false. intros X. apply Qeq_bool_iff in X. rewrite E in X. discriminate X.
Qed.
Lemma amount_nonneg : forall q, amount32 q -> 0 <= q.
Proof. intros q [[_ H]|E]; [exact H|]. rewrite E. discriminate. Qed.
Lemma amount_below : forall q, amount32 q -> q <= infinity.
Proof. intros q [[F H]|E]; [|rewrite E; apply Qle_refl]. pose proof (Arith32Proofs.finite32_below q F) as B. rewrite (Qabs_pos q H) in B. lra. Qed.
Lemma amount_gt : forall a b, amount32 a -> amount32 b -> (a_gt f32 a b = false <-> a <= b).
Proof. intros a b A B. cbn [a_gt f32]. unfold f32_compare. rewrite (amount_not_nan a A), (amount_not_nan b B). cbn [orb negb andb]. apply gt_Q. Qed.
(** Sums of amounts: the nearest number if both are finite, and infinity if one is not *)
Lemma amount_sum : forall a b, amount32 a -> amount32 b ->
  (finite32 a /\ finite32 b /\ nearest32 (a + b) (a_add f32 a b)) \/ ((a == infinity \/ b == infinity) /\ a_add f32 a b == infinity).
Proof.
  intros a b A B. cbn [a_add f32]. assert (I : forall q, q == infinity -> is_infinite q = true) by (intros q E; apply Qeq_bool_iff; rewrite E; reflexivity).
  unfold f32_add. destruct A as [[Fa A]|A].
  - destruct B as [[Fb B]|B].
    + left. split; [exact Fa|]. split; [exact Fb|]. exact (Arith32Proofs.f32_add_nearest a b Fa Fb).
    + right. split; [right; exact B|]. rewrite (Arith32Proofs.finite_not_nan a Fa), (amount_not_nan b (or_intror B)), (Arith32Proofs.finite_not_infinite a Fa), (I b B). exact B.
  - right. split; [left; exact A|]. rewrite (amount_not_nan a (or_intror A)), (amount_not_nan b B), (I a A). cbn [orb]. destruct (is_infinite b && negb (Qeq_bool a b))%bool eqn:E; [|exact A]. exfalso.
    apply andb_prop in E as [E1 E2]. apply Bool.negb_true_iff in E2. apply Qeq_bool_iff in E1. rewrite (Qabs_pos b (amount_nonneg b B)) in E1. apply Qeq_bool_neq in E2. apply E2. rewrite A, E1. reflexivity.
Qed.
Lemma nearest_amount : forall q r, 0 <= q -> nearest32 q r -> amount32 r.
Proof.
  intros q r H N. destruct (Qlt_le_dec q too_large) as [L|L]; [left|right; exact (proj1 (proj2 N) L)]. assert (A : Qabs q < too_large) by (rewrite (Qabs_pos q H); exact L). destruct (proj1 N A) as [F _]. split; [exact F|].
  apply (nearest_mono 0 q 0 r H); [|exact N]. assert (Z : 0 == rounded 0) by reflexivity. apply (Arith32Proofs.nearest32_comp 0 0 (rounded 0) 0 (Qeq_refl 0) (Qeq_sym _ _ Z)). apply Arith32Proofs.rounded_nearest.
Qed.
Lemma zero_amount : amount32 0.
Proof. left. split; [|discriminate]. exists 0%Z, 0%Z. split; [reflexivity|]. split; [lia|reflexivity]. Qed.
Lemma sum_amount : forall a b, amount32 a -> amount32 b -> amount32 (a_add f32 a b).
Proof.
  intros a b A B. destruct (amount_sum a b A B) as [(_ & _ & N)|[_ E]]; [|right; exact E]. apply (nearest_amount (a + b)); [|exact N]. pose proof (amount_nonneg a A). pose proof (amount_nonneg b B). lra.
Qed.
Lemma sum_mono : forall a b c d, amount32 a -> amount32 b -> amount32 c -> amount32 d -> a <= b -> c <= d -> a_add f32 a c <= a_add f32 b d.
Proof.
  intros a b c d A B C D H K. destruct (amount_sum b d B D) as [(Fb & Fd & Nb)|[_ E]]; [|rewrite E; apply amount_below, sum_amount; assumption].
  destruct (amount_sum a c A C) as [(_ & _ & Na)|[X E]]; [apply (nearest_mono (a + c) (b + d)); [lra|exact Na|exact Nb]|]. exfalso. pose proof (Arith32Proofs.finite32_below b Fb) as Bb. pose proof (Arith32Proofs.finite32_below d Fd) as Bd.
  rewrite (Qabs_pos b (amount_nonneg b B)) in Bb. rewrite (Qabs_pos d (amount_nonneg d D)) in Bd. destruct X as [X|X]; lra.
Qed.
Lemma nearest_of : forall q, finite32 q -> nearest32 q q.
Proof. intros q F. pose proof (TextErrorProofs.nearest_self _ _ F (Arith32Proofs.rounded_nearest q)) as E. apply (Arith32Proofs.nearest32_comp q q (rounded q) q (Qeq_refl q) E). apply Arith32Proofs.rounded_nearest. Qed.
Lemma sum_grows : forall a b, amount32 a -> amount32 b -> a <= a_add f32 a b.
Proof.
  intros a b A B. destruct (amount_sum a b A B) as [(Fa & _ & N)|[_ E]]; [|rewrite E; apply amount_below; exact A].
  apply (nearest_mono a (a + b)); [pose proof (amount_nonneg b B); lra|exact (nearest_of a Fa)|exact N].
Qed.
Lemma f32_adds_up : adds_up f32 amount32.
Proof.
  split.
  - exact zero_amount.
  - exact sum_amount.
  - intros a A. apply amount_gt; [exact zero_amount|exact A|exact (amount_nonneg a A)].
  - intros a b c A B C H. apply (amount_gt a b A B) in H. apply amount_gt; [apply sum_amount; assumption..|]. apply sum_mono; try assumption. lra.
  - intros a A. apply amount_gt; [exact A|exact A|lra].
  - intros a b c A B C H. apply (amount_gt a b A B) in H. apply amount_gt; [apply sum_amount; assumption..|]. apply sum_mono; try assumption. lra.
  - intros a b A B. apply amount_gt; [exact A|apply sum_amount; assumption|apply sum_grows; assumption].
  - intros a b c A B H1 H2. apply (amount_gt a b A B) in H1. cbn [a_gt f32] in *. unfold f32_compare in *. rewrite (amount_not_nan a A). rewrite (amount_not_nan b B) in H2. cbn [orb] in *.
    destruct (is_nan c); [reflexivity|]. cbn [negb andb] in *. apply gt_Q. apply gt_Q in H2. lra.
Qed.
