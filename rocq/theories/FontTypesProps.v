(** Property C79: dates and tags of fonts *)
From Coq Require Import ZArith Lia.
From Verif Require Import Base FontTypes FontTypesSpec.
Local Open Scope Z_scope.

Definition truetype_epoch : date := mkDate 1904 1 1.
Definition unix_epoch : date := mkDate 1970 1 1.
Fixpoint days_on (k : nat) (d : date) : date := match k with O => d | S k => days_on k (next_day d) end.
Lemma days_on_later : forall k a b n, days a b n -> days a (days_on k b) (n + Z.of_nat k).
Proof.
  induction k as [|k IH]; intros a b n H; cbn [days_on]; [replace (n + Z.of_nat 0) with n by lia; exact H|].
  replace (n + Z.of_nat (S k)) with (n + 1 + Z.of_nat k) by lia. apply IH. apply days_later. exact H.
Qed.
Lemma month_days_range : forall y m, 28 <= month_days y m <= 31.
Proof. intros y m. unfold month_days. destruct (leap y); repeat match goal with |- context [match ?x with _ => _ end] => destruct x end; lia. Qed.
Lemma valid_next : forall d, valid d -> valid (next_day d).
Proof.
  intros [y m d] [Hm Hd]. unfold next_day, valid in *. cbn [year month day] in *.
  destruct (Z.ltb_spec d (month_days y m)); cbn [year month day]; [lia|]. destruct (Z.ltb_spec m 12); cbn [year month day].
  - pose proof (month_days_range y (m + 1)). lia.
  - pose proof (month_days_range (y + 1) 1). lia.
Qed.
Lemma days_on_earlier : forall k a b n, valid b -> days a (days_on k b) (n + Z.of_nat k) -> days a b n.
Proof.
  induction k as [|k IH]; intros a b n V H; cbn [days_on] in H; [replace (n + Z.of_nat 0) with n in H by lia; exact H|].
  apply days_earlier; [exact V|]. apply IH; [apply valid_next; exact V|]. replace (n + 1 + Z.of_nat k) with (n + Z.of_nat (S k)) by lia. exact H.
Qed.
(** From the first of these dates to the second there are 24107 days. *)
Lemma between_epochs : days_on (N.to_nat 24107) truetype_epoch = unix_epoch.
Proof. vm_compute. reflexivity. Qed.
(** *** The calendar *)
Definition before_year (y : Z) : Z := 365 * y + (y - 1) / 4 - (y - 1) / 100 + (y - 1) / 400.
Definition before_month (y m : Z) : Z :=
  match m with
  | 1 => 0 | 2 => 31 | 3 => 59 | 4 => 90 | 5 => 120 | 6 => 151 | 7 => 181 | 8 => 212 | 9 => 243 | 10 => 273 | 11 => 304 | _ => 334
  end + (if (2 <? m) && leap y then 1 else 0).
Definition number (d : date) : Z := before_year (year d) + before_month (year d) (month d) + day d.
Lemma before_next_year : forall y, before_year (y + 1) = before_year y + if leap y then 366 else 365.
Proof.
  intros y. unfold before_year, leap. replace (y + 1 - 1) with y by lia.
  destruct (Z.eqb_spec (y mod 4) 0), (Z.eqb_spec (y mod 100) 0), (Z.eqb_spec (y mod 400) 0); cbn [andb orb negb];
    Z.to_euclidean_division_equations; lia.
Qed.
Lemma months : forall P : Z -> Prop, P 1 -> P 2 -> P 3 -> P 4 -> P 5 -> P 6 -> P 7 -> P 8 -> P 9 -> P 10 -> P 11 -> P 12 -> forall m, 1 <= m <= 12 -> P m.
Proof.
  intros P; intros. assert (m = 1 \/ m = 2 \/ m = 3 \/ m = 4 \/ m = 5 \/ m = 6 \/ m = 7 \/ m = 8 \/ m = 9 \/ m = 10 \/ m = 11 \/ m = 12) by lia.
  repeat match goal with H : _ \/ _ |- _ => destruct H as [->|H] | H : m = _ |- _ => rewrite H end; assumption.
Qed.
Lemma number_next : forall d, valid d -> number (next_day d) = number d + 1.
Proof.
  intros [y m d] [Hm Hd]. cbn [year month day] in *. unfold next_day. cbn [year month day].
  destruct (Z.ltb_spec d (month_days y m)) as [L|L]; unfold number; cbn [year month day]; [lia|].
  revert d Hd L. pattern m. apply months; [..|exact Hm].
  all: intros d Hd L; cbn [month_days Z.ltb Z.compare Pos.compare Pos.compare_cont Z.add Pos.add Pos.succ year month day] in *;
    try (unfold before_month; destruct (leap y); cbn [andb Z.ltb Z.compare Pos.compare Pos.compare_cont] in *; lia).
  rewrite before_next_year. unfold before_month. destruct (leap y), (leap (y + 1)); cbn [andb Z.ltb Z.compare Pos.compare Pos.compare_cont] in *; lia.
Qed.
Lemma days_number : forall a b n, days a b n -> valid a /\ valid b /\ number b = number a + n.
Proof.
  intros a b n H. induction H as [a V|a b n H (Va & Vb & IH)|a b n V H (Va & Vb & IH)].
  - repeat split; try apply V; lia.
  - split; [exact Va|]. split; [apply valid_next; exact Vb|]. rewrite number_next by exact Vb. lia.
  - split; [exact Va|]. split; [exact V|]. rewrite number_next in IH by exact V. lia.
Qed.
Lemma valid_previous : forall d, valid d -> exists p, valid p /\ next_day p = d.
Proof.
  intros [y m d] [Hm Hd]. cbn [year month day] in *. destruct (Z.eq_dec d 1) as [->|Nd].
  - destruct (Z.eq_dec m 1) as [->|Nm].
    + exists (mkDate (y - 1) 12 31). split; [split; cbn [year month day]; change (month_days (y - 1) 12) with 31; lia|].
      unfold next_day. cbn [year month day]. change (month_days (y - 1) 12) with 31. rewrite Z.ltb_irrefl. change (12 <? 12) with false. cbv iota. f_equal. lia.
    + exists (mkDate y (m - 1) (month_days y (m - 1))). pose proof (month_days_range y (m - 1)). split; [split; cbn [year month day]; lia|].
      unfold next_day. cbn [year month day]. rewrite Z.ltb_irrefl. destruct (Z.ltb_spec (m - 1) 12); [|lia]. f_equal. lia.
  - exists (mkDate y m (d - 1)). split; [split; cbn [year month day]; lia|]. unfold next_day. cbn [year month day].
    destruct (Z.ltb_spec (d - 1) (month_days y m)); [|lia]. f_equal. lia.
Qed.
(** Every number of days leads to a date, and only one number leads to it. *)
Theorem C79_calendar : forall a, valid a -> (forall n, exists b, days a b n) /\ (forall b n n', days a b n -> days a b n' -> n = n').
Proof.
  intros a Va. split.
  - intros n. destruct (Z_le_gt_dec 0 n) as [H|H].
    + exists (days_on (Z.to_nat n) a). replace n with (0 + Z.of_nat (Z.to_nat n)) at 2 by lia. apply days_on_later. constructor. exact Va.
    + assert (P : forall k, exists b, days a b (- Z.of_nat k)).
      { induction k as [|k (b & Hb)]; [exists a; constructor; exact Va|]. destruct (days_number _ _ _ Hb) as (_ & Vb & _).
        destruct (valid_previous b Vb) as (p & Vp & E). exists p. apply days_earlier; [exact Vp|]. rewrite E.
        replace (- Z.of_nat (S k) + 1) with (- Z.of_nat k) by lia. exact Hb. }
      destruct (P (Z.to_nat (- n))) as (b & Hb). exists b. replace n with (- Z.of_nat (Z.to_nat (- n))) by lia. exact Hb.
  - intros b n n' H H'. apply days_number in H, H'. lia.
Qed.
Lemma other_epoch : forall d n, days truetype_epoch d n <-> days unix_epoch d (n - 24107).
Proof.
  assert (Vt : valid truetype_epoch) by (split; cbn; lia). assert (Vu : valid unix_epoch) by (split; cbn; lia).
  assert (K : Z.of_nat (N.to_nat 24107) = 24107) by (rewrite N_nat_Z; reflexivity).
  intros d n. split; intros H.
  - remember truetype_epoch as a eqn:Ea. induction H as [a V|a b n H IH|a b n V H IH]; subst a.
    + apply (days_on_earlier (N.to_nat 24107)); [exact Vt|]. rewrite between_epochs, K. constructor. exact Vu.
    + replace (n + 1 - 24107) with (n - 24107 + 1) by lia. apply days_later. auto.
    + apply days_earlier; [exact V|]. replace (n - 24107 + 1) with (n + 1 - 24107) by lia. auto.
  - replace n with (n - 24107 + 24107) by lia. remember (n - 24107) as m. clear n Heqm.
    remember unix_epoch as a eqn:Ea. induction H as [a V|a b m H IH|a b m V H IH]; subst a.
    + rewrite <- between_epochs, <- K. apply days_on_later. constructor. exact Vt.
    + replace (m + 1 + 24107) with (m + 24107 + 1) by lia. apply days_later. auto.
    + apply days_earlier; [exact V|]. replace (m + 24107 + 1) with (m + 1 + 24107) by lia. auto.
Qed.
Lemma system_time_value : forall checks x, in_i64 x = true ->
  system_time checks x = if - 2 ^ 63 + 2082844800 <=? x then Some (x - 2082844800) else None.
Proof.
  intros checks x H. unfold in_i64 in H. apply andb_true_iff in H as [H1 H2]. apply Z.leb_le in H1. apply Z.ltb_lt in H2.
  unfold system_time. change (time_sub UNIX_EPOCH 2082844800) with (Some (-2082844800)). cbv iota.
  destruct (Z.leb_spec 0 x) as [P|P].
  - unfold as_u64. rewrite Z.mod_small by lia. unfold time_add, in_i64. destruct (Z.leb_spec (- 2 ^ 63 + 2082844800) x); [|lia].
    destruct (Z.leb_spec (- 2 ^ 63) (-2082844800 + x)); [|lia]. destruct (Z.ltb_spec (-2082844800 + x) (2 ^ 63)); [|lia]. cbn [andb]. f_equal. lia.
  - unfold i64_neg, in_i64. destruct (Z.leb_spec (- 2 ^ 63) (- x)); [|lia]. cbn [andb]. destruct (Z.ltb_spec (- x) (2 ^ 63)) as [L|L].
    + unfold as_u64. rewrite Z.mod_small by lia. unfold time_sub, in_i64.
      destruct (Z.ltb_spec (-2082844800 - - x) (2 ^ 63)); [|lia]. destruct (Z.leb_spec (- 2 ^ 63) (-2082844800 - - x)); destruct (Z.leb_spec (- 2 ^ 63 + 2082844800) x); try lia; cbn [andb]; [f_equal; lia|reflexivity].
    + assert (x = - 2 ^ 63) by lia. subst x. destruct checks; vm_compute; reflexivity.
Qed.
(** The moment is the same one: on the same date, at the same time of day. *)
Theorem C79_dates : forall checks x t, in_i64 x = true -> system_time checks x = Some t ->
  forall d s, seconds_after truetype_epoch d s x <-> seconds_after unix_epoch d s t.
Proof.
  intros checks x t Hx H d s. rewrite (system_time_value checks x Hx) in H. destruct (_ <=? x); [|discriminate H]. injection H as <-.
  split; intros (Hs & n & Hn & E); (split; [exact Hs|]).
  - exists (n - 24107). split; [apply other_epoch; exact Hn|lia].
  - exists (n + 24107). split; [apply other_epoch; replace (n + 24107 - 24107) with n by lia; exact Hn|lia].
Qed.
(** The conversion panics at the very beginning of time alone, whether or not overflow is checked. *)
Theorem C79_panics : forall checks x, in_i64 x = true -> (system_time checks x = None <-> x < - 2 ^ 63 + 2082844800).
Proof.
  intros checks x Hx. rewrite (system_time_value checks x Hx). destruct (Z.leb_spec (- 2 ^ 63 + 2082844800) x); split; intros; try discriminate; try lia; reflexivity.
Qed.
Theorem C79_panics_refuted : exists x, in_i64 x = true /\ forall checks, system_time checks x = None.
Proof. exists (- 2 ^ 63). split; [reflexivity|]. intros []; vm_compute; reflexivity. Qed.
(** What is shown of a tag is printable, and is the tag if that is. *)
Definition printable (b : N) : Prop := (32 <= b <= 126)%N.
Theorem C79_tags : forall tag, List.length (tag_debug tag) = List.length tag /\ Forall printable (tag_debug tag) /\
  (Forall printable tag -> tag_debug tag = tag) /\
  (forall i b, nth_error tag i = Some b -> ~ printable b -> nth_error (tag_debug tag) i = Some 63%N).
Proof.
  intros tag. unfold tag_debug, printable. split; [apply map_length|]. split; [|split].
  - apply Forall_forall. intros b Hb. apply in_map_iff in Hb as (c & <- & _).
    destruct (N.leb_spec 32 c); cbn [andb]; [|lia]. destruct (N.leb_spec c 126); lia.
  - intros H. induction H as [|b l Hb Hl IH]; cbn [map]; [reflexivity|]. rewrite IH. f_equal.
    destruct (N.leb_spec 32 b); cbn [andb]; [|lia]. destruct (N.leb_spec b 126); lia.
  - intros i b Hi Hb. rewrite nth_error_map, Hi. cbn [option_map]. f_equal.
    destruct (N.leb_spec 32 b); cbn [andb]; [|reflexivity]. destruct (N.leb_spec b 126); [lia|reflexivity].
Qed.
(** Midnight of 2003-04-16, and a tag with a byte that cannot be shown *)
Example C79_example : in_i64 3133296000 = true /\ system_time true 3133296000 = Some 1050451200 /\
  seconds_after truetype_epoch (mkDate 2003 4 16) 0 3133296000 /\ valid truetype_epoch /\ tag_debug [99; 118; 116; 0]%N = bs "cvt?".
Proof.
  split; [reflexivity|]. split; [reflexivity|]. split; [|split; [split; cbn; lia|reflexivity]].
  split; [lia|]. exists 36265. split; [|reflexivity].
  replace (mkDate 2003 4 16) with (days_on (N.to_nat 36265) truetype_epoch) by (vm_compute; reflexivity).
  replace 36265 with (0 + Z.of_nat (N.to_nat 36265)) by (rewrite N_nat_Z; reflexivity). apply days_on_later. constructor. split; cbn; lia.
Qed.
Print Assumptions C79_calendar.
Print Assumptions C79_dates.
Print Assumptions C79_panics.
Print Assumptions C79_panics_refuted.
Print Assumptions C79_tags.
