(** Proofs about the font parser: reads, binary search, table lookup. *)
From Verif Require Import Base PdfConvert FontParsing FontCmap FontSpec.
From Coq Require Import Sorted.
Local Open Scope N_scope.
Local Open Scope res_scope.

(** ** Reads *)
Lemma nth_skipn : forall A (l : list A) n i, nth_error (skipn n l) i = nth_error l (n + i).
Proof.
  intros A l n. revert l. induction n as [|n IH]; intros l i; [reflexivity|].
  destruct l as [|x l]; cbn [skipn]; [destruct i; reflexivity|]. rewrite IH. reflexivity.
Qed.

Lemma get_from_some : forall l p, p <= length_N l -> get_from l p = Some (skipn (N.to_nat p) l).
Proof. intros l p H. unfold get_from. apply N.leb_le in H. rewrite H. auto. Qed.
Lemma get_from_none : forall l p, length_N l < p -> get_from l p = None.
Proof. intros l p H. unfold get_from. apply N.leb_gt in H. rewrite H. auto. Qed.

Lemma read_beyond : forall A (r : bytes -> result A) l p, length_N l < p -> read_at r l p = Err OffsetBeyondEof.
Proof. intros A r l p H. unfold read_at. rewrite get_from_none by auto. reflexivity. Qed.

Lemma read_array_short : forall n l, length_N l < n -> read_array n l = Err OffsetPlusLengthBeyondEof.
Proof. intros n l H. unfold read_array, get_to. apply N.leb_gt in H. rewrite H. reflexivity. Qed.

Lemma length_skipn_N : forall l p, length_N (skipn (N.to_nat p) l) = length_N l - p.
Proof. intros l p. unfold length_N. rewrite skipn_length. lia. Qed.

Lemma byte_at_some : forall l p, p < length_N l -> exists b, byte_at l p = Some b.
Proof.
  intros l p H. unfold byte_at. destruct (nth_error l (N.to_nat p)) eqn:E; eauto.
  apply nth_error_None in E. unfold length_N in H. lia.
Qed.
Lemma byte_at_none : forall l p, length_N l <= p -> byte_at l p = None.
Proof. intros l p H. unfold byte_at. apply nth_error_None. unfold length_N in H. lia. Qed.

Lemma skipn_bytes : forall l p b, byte_at l p = Some b ->
  skipn (N.to_nat p) l = b :: skipn (N.to_nat (p + 1)) l.
Proof.
  intros l p b H. unfold byte_at in H. replace (N.to_nat (p + 1)) with (S (N.to_nat p)) by lia.
  revert l H. generalize (N.to_nat p) as n. induction n as [|n IH]; intros [|x l] H; try discriminate.
  - cbn in H. injection H as ->. reflexivity.
  - cbn [nth_error] in H. cbn [skipn]. rewrite (IH _ H). reflexivity.
Qed.

(** The three outcomes of a read of [n] bytes *)
Lemma read_cases : forall A (r : bytes -> result A) l p n v,
  (forall s, length_N s < n -> r s = Err OffsetPlusLengthBeyondEof) ->
  (p + n <= length_N l -> r (skipn (N.to_nat p) l) = Ok v) ->
  (p + n <= length_N l /\ read_at r l p = Ok v) \/
  (length_N l < p /\ read_at r l p = Err OffsetBeyondEof) \/
  (p <= length_N l < p + n /\ read_at r l p = Err OffsetPlusLengthBeyondEof).
Proof.
  intros A r l p n v H1 H2. destruct (N.le_gt_cases p (length_N l)) as [L|L].
  - unfold read_at. rewrite get_from_some by auto. cbn [ok_or bind].
    destruct (N.le_gt_cases (p + n) (length_N l)) as [M|M].
    + left. auto.
    + right. right. split; [auto|]. apply H1. rewrite length_skipn_N. lia.
  - right. left. split; [auto|]. apply read_beyond. auto.
Qed.

Lemma u16_some : forall l p, p + 2 <= length_N l ->
  exists a b, byte_at l p = Some a /\ byte_at l (p + 1) = Some b /\ u16_at l p = Some (256 * a + b).
Proof.
  intros l p H. destruct (byte_at_some l p) as [a A]; [lia|].
  destruct (byte_at_some l (p + 1)) as [b B]; [lia|]. exists a, b. unfold u16_at. rewrite A, B. auto.
Qed.
Lemma u16_none : forall l p, length_N l < p + 2 -> u16_at l p = None.
Proof.
  intros l p H. unfold u16_at. rewrite (byte_at_none l (p + 1)) by lia. destruct (byte_at l p); auto.
Qed.
Lemma u32_some : forall l p, p + 4 <= length_N l -> exists a b c d,
  byte_at l p = Some a /\ byte_at l (p + 1) = Some b /\ byte_at l (p + 2) = Some c /\
  byte_at l (p + 3) = Some d /\ u32_at l p = Some (65536 * (256 * a + b) + (256 * c + d)).
Proof.
  intros l p H. destruct (u16_some l p) as (a & b & A & B & C); [lia|].
  destruct (u16_some l (p + 2)) as (c & d & D & E & F); [lia|].
  replace (p + 2 + 1) with (p + 3) in E by lia.
  exists a, b, c, d. unfold u32_at. rewrite C, F. auto 10.
Qed.
Lemma u32_none : forall l p, length_N l < p + 4 -> u32_at l p = None.
Proof.
  intros l p H. unfold u32_at. rewrite (u16_none l (p + 2)) by lia. destruct (u16_at l p); auto.
Qed.

Lemma read_array_ok : forall n l, n <= length_N l -> read_array n l = Ok (firstn (N.to_nat n) l).
Proof. intros n l H. unfold read_array, get_to. apply N.leb_le in H. rewrite H. reflexivity. Qed.

Definition outcome {A} (n : N) (at_ : bytes -> N -> option A) (read : bytes -> N -> result A) : Prop :=
  forall l p,
    (p + n <= length_N l /\ exists v, read l p = Ok v /\ at_ l p = Some v) \/
    (length_N l < p /\ read l p = Err OffsetBeyondEof /\ at_ l p = None) \/
    (p <= length_N l < p + n /\ read l p = Err OffsetPlusLengthBeyondEof /\ at_ l p = None).

Lemma read_u16_outcome : outcome 2 u16_at read_u16.
Proof.
  intros l p. unfold read_u16.
  destruct (N.le_gt_cases (p + 2) (length_N l)) as [L|L].
  - left. split; [auto|]. destruct (u16_some l p L) as (a & b & A & B & C).
    exists (256 * a + b). split; [|auto]. unfold read_at. rewrite get_from_some by lia. cbn [ok_or bind].
    unfold from_u16. rewrite read_array_ok by (rewrite length_skipn_N; lia). cbn [bind].
    rewrite (skipn_bytes _ _ _ A), (skipn_bytes _ _ _ B). change (N.to_nat 2) with 2%nat. cbn [firstn].
    unfold be. cbn [fold_left]. f_equal. lia.
  - right. destruct (N.le_gt_cases p (length_N l)) as [M|M].
    + right. split; [lia|]. split; [|apply u16_none; auto]. unfold read_at. rewrite get_from_some by auto.
      cbn [ok_or bind]. unfold from_u16. rewrite read_array_short by (rewrite length_skipn_N; lia). reflexivity.
    + left. split; [auto|]. split; [apply read_beyond; auto|apply u16_none; auto].
Qed.

Lemma read_i16_outcome : outcome 2 i16_at read_i16.
Proof.
  intros l p. assert (E : read_i16 l p = n <- read_u16 l p ;; Ok (signed16 n)).
  { unfold read_i16, read_u16, read_at. destruct (ok_or (get_from l p) OffsetBeyondEof); cbn [bind]; auto.
    unfold from_i16, from_u16. destruct (read_array 2 a); auto. }
  rewrite E. unfold i16_at.
  destruct (read_u16_outcome l p) as [(L & v & R & U)|[(L & R & U)|(L & R & U)]]; rewrite R, U.
  - left. split; [auto|]. eexists. split; [reflexivity|]. f_equal. unfold signed16.
    destruct (N.ltb_spec v 32768), (N.leb_spec 32768 v); lia.
  - right. left. auto.
  - right. right. auto.
Qed.

Lemma read_u32_outcome : outcome 4 u32_at read_u32.
Proof.
  intros l p. unfold read_u32.
  destruct (N.le_gt_cases (p + 4) (length_N l)) as [L|L].
  - left. split; [auto|]. destruct (u32_some l p L) as (a & b & c & d & A & B & C & D & E).
    eexists. split; [|exact E]. unfold read_at. rewrite get_from_some by lia. cbn [ok_or bind].
    unfold from_u32. rewrite read_array_ok by (rewrite length_skipn_N; lia). cbn [bind].
    rewrite (skipn_bytes _ _ _ A), (skipn_bytes _ _ _ B). replace (p + 1 + 1) with (p + 2) by lia.
    rewrite (skipn_bytes _ _ _ C). replace (p + 2 + 1) with (p + 3) by lia. rewrite (skipn_bytes _ _ _ D).
    change (N.to_nat 4) with 4%nat. cbn [firstn].
    unfold be. cbn [fold_left]. f_equal. lia.
  - right. destruct (N.le_gt_cases p (length_N l)) as [M|M].
    + right. split; [lia|]. split; [|apply u32_none; auto]. unfold read_at. rewrite get_from_some by auto.
      cbn [ok_or bind]. unfold from_u32. rewrite read_array_short by (rewrite length_skipn_N; lia). reflexivity.
    + left. split; [auto|]. split; [apply read_beyond; auto|apply u32_none; auto].
Qed.

Lemma string_at_none : forall l n p, length_N l < p + N.of_nat n -> string_at l p n = None.
Proof.
  induction n as [|n IH]; intros p H; cbn [string_at].
  - fold (length_N l). destruct (N.leb_spec p (length_N l)); [lia|auto].
  - rewrite IH by lia. destruct (byte_at l p); auto.
Qed.
Lemma string_at_some : forall l n p, p + N.of_nat n <= length_N l ->
  string_at l p n = Some (firstn n (skipn (N.to_nat p) l)).
Proof.
  induction n as [|n IH]; intros p H; cbn [string_at].
  - fold (length_N l). destruct (N.leb_spec p (length_N l)); [auto|lia].
  - destruct (byte_at_some l p) as [b B]; [lia|]. rewrite B, (skipn_bytes _ _ _ B), IH by lia.
    reflexivity.
Qed.

Lemma slice_read_outcome : forall size n,
  outcome n (fun l p => string_at l p (N.to_nat n)) (fun l p => slice_read l (mkSlice p n size)).
Proof.
  intros size n l p. unfold slice_read. cbn [s_start s_count].
  destruct (N.le_gt_cases (p + n) (length_N l)) as [L|L].
  - left. split; [auto|]. rewrite get_from_some by lia. cbn [ok_or bind]. unfold get_to.
    rewrite length_skipn_N. destruct (N.leb_spec n (length_N l - p)); [|lia]. eexists.
    split; [reflexivity|]. apply string_at_some. lia.
  - right. destruct (N.le_gt_cases p (length_N l)) as [M|M].
    + right. split; [lia|]. rewrite get_from_some by auto. cbn [ok_or bind]. unfold get_to.
      rewrite length_skipn_N. destruct (N.leb_spec n (length_N l - p)); [lia|].
      split; [reflexivity|]. apply string_at_none. lia.
    + left. split; [auto|]. rewrite get_from_none by auto. split; [reflexivity|]. apply string_at_none. lia.
Qed.

Lemma read_tag_outcome : outcome 4 (fun l p => string_at l p 4) read_tag.
Proof. exact (slice_read_outcome 1 4). Qed.

Lemma outcome_ok : forall A n at_ (read : bytes -> N -> result A), outcome n at_ read ->
  forall l p v, at_ l p = Some v -> read l p = Ok v /\ p + n <= length_N l.
Proof.
  intros A n at_ read O l p v H. destruct (O l p) as [(L & w & R & U)|[(L & R & U)|(L & R & U)]];
    rewrite U in H; try discriminate. injection H as ->. auto.
Qed.
Lemma outcome_no_panic : forall A n at_ (read : bytes -> N -> result A), outcome n at_ read ->
  forall l p, read l p <> Panic.
Proof.
  intros A n at_ read O l p. destruct (O l p) as [(L & w & R & U)|[(L & R & U)|(L & R & U)]];
    rewrite R; discriminate.
Qed.

Lemma exact_ok : forall m w n, n < 2 ^ w -> exact m w n = Ok n.
Proof. intros m w n H. unfold exact. apply N.ltb_lt in H. rewrite H. auto. Qed.

(** ** Binary search *)
Section Search.
  Variables (E : Type).

  Lemma search_ext : forall n (f g : N -> res E comparison), (forall i, i < n -> f i = g i) ->
    forall fuel base size, base + size <= n -> 1 <= size ->
    search_loop fuel f base size = search_loop fuel g base size.
  Proof.
    intros n f g H. induction fuel as [|fuel IH]; intros base size L S; cbn [search_loop];
      destruct (N.ltb_spec 1 size) as [G|G]; auto; try (rewrite H by lia; auto).
    pose proof (N.div_lt size 2). pose proof (N.div_le_lower_bound size 2 1).
    rewrite H by lia. destruct (g (base + size / 2)) as [c| |]; cbn [bind]; auto.
    apply IH; [|lia]. destruct c; lia.
  Qed.

  Lemma search_sound : forall f fuel base size i, 1 <= size ->
    search_loop (E:=E) fuel f base size = Ok (Some i) -> base <= i < base + size /\ f i = Ok Eq.
  Proof.
    intros f. induction fuel as [|fuel IH]; intros base size i S H; cbn [search_loop] in H;
      destruct (N.ltb_spec 1 size) as [G|G]; try discriminate.
    1,3: destruct (f base) as [[]| |] eqn:F; cbn [bind] in H; try discriminate;
         injection H as <-; split; [lia|auto].
    pose proof (N.div_lt size 2). pose proof (N.div_le_lower_bound size 2 1).
    destruct (f (base + size / 2)) as [c| |] eqn:F; cbn [bind] in H; try discriminate.
    apply IH in H; [|lia]. destruct H as [P1 P2]. split; [|auto]. destruct c; lia.
  Qed.

  Lemma search_fails : forall f fuel base size, 1 <= size -> size <= 2 ^ N.of_nat fuel ->
    match search_loop (E:=E) fuel f base size with
    | Err e => exists i, base <= i < base + size /\ f i = Err e
    | Panic => exists i, base <= i < base + size /\ f i = Panic
    | Ok _ => True
    end.
  Proof.
    intros f. induction fuel as [|fuel IH]; intros base size S B; cbn [search_loop];
      destruct (N.ltb_spec 1 size) as [G|G].
    - cbn in B. lia.
    - destruct (f base) as [[]| |] eqn:F; cbn [bind]; auto; exists base; split; auto; lia.
    - pose proof (N.div_lt size 2). pose proof (N.div_le_lower_bound size 2 1).
      destruct (f (base + size / 2)) as [c| |] eqn:F; cbn [bind].
      + assert (size - size / 2 <= 2 ^ N.of_nat fuel).
        { rewrite Nat2N.inj_succ, N.pow_succ_r' in B. pose proof (N.div_mod size 2).
          pose proof (N.mod_lt size 2). lia. }
        specialize (IH (match c with Gt => base | _ => base + size / 2 end) (size - size / 2)).
        destruct (search_loop fuel f _ _); auto.
        * destruct IH as (i & I1 & I2); [lia|auto|]. exists i. split; auto. destruct c; lia.
        * destruct IH as (i & I1 & I2); [lia|auto|]. exists i. split; auto. destruct c; lia.
      + exists (base + size / 2). split; auto. lia.
      + exists (base + size / 2). split; auto. lia.
    - destruct (f base) as [[]| |] eqn:F; cbn [bind]; auto; exists base; split; auto; lia.
  Qed.

  Lemma search_complete : forall (f : N -> res E comparison) c n k,
    (forall i, i < n -> f i = Ok (c i)) ->
    (forall i j, i < j -> j < n -> c i = Gt -> c j = Gt) ->
    (forall i j, i < j -> j < n -> c j = Lt -> c i = Lt) ->
    k < n -> c k = Eq ->
    forall fuel base size, 1 <= size -> size <= 2 ^ N.of_nat fuel -> base + size <= n ->
    (base = 0 \/ c base <> Gt) -> (forall j, base + size <= j < n -> c j = Gt) ->
    exists i, search_loop fuel f base size = Ok (Some i).
  Proof.
    intros f c n k F G L K Ck. induction fuel as [|fuel IH]; intros base size S B Hn I1 I2;
      cbn [search_loop]; destruct (N.ltb_spec 1 size) as [T|T].
    - cbn in B. lia.
    - assert (size = 1) by lia. subst. rewrite F by lia. cbn [bind].
      assert (k <= base).
      { destruct (N.le_gt_cases k base); auto. rewrite I2 in Ck by lia. discriminate. }
      destruct (N.eq_dec k base) as [->|Hne]; [rewrite Ck; eauto|].
      destruct (c base) eqn:X; eauto.
      + rewrite (L k base) in Ck; auto; [discriminate|lia|lia].
      + destruct I1; [lia|congruence].
    - pose proof (N.div_lt size 2). pose proof (N.div_le_lower_bound size 2 1).
      assert (Hf : size - size / 2 <= 2 ^ N.of_nat fuel).
      { rewrite Nat2N.inj_succ, N.pow_succ_r' in B. pose proof (N.div_mod size 2).
        pose proof (N.mod_lt size 2). lia. }
      assert (Hh : size / 2 <= size - size / 2) by (pose proof (N.mul_div_le size 2); lia).
      rewrite F by lia. cbn [bind]. destruct (c (base + size / 2)) eqn:X; apply IH; try lia; auto.
      + right. congruence.
      + intros j Hj. apply I2. lia.
      + right. congruence.
      + intros j Hj. apply I2. lia.
      + intros j Hj. destruct (N.eq_dec j (base + size / 2)) as [->|]; auto.
        eapply G; [| |exact X]; lia.
    - assert (size = 1) by lia. subst. rewrite F by lia. cbn [bind].
      assert (k <= base).
      { destruct (N.le_gt_cases k base); auto. rewrite I2 in Ck by lia. discriminate. }
      destruct (N.eq_dec k base) as [->|Hne]; [rewrite Ck; eauto|].
      destruct (c base) eqn:X; eauto.
      + rewrite (L k base) in Ck; auto; [discriminate|lia|lia].
      + destruct I1; [lia|congruence].
  Qed.

  Lemma size_fuel : forall n, n <= 2 ^ N.of_nat (N.to_nat (N.size n)).
  Proof. intro n. rewrite N2Nat.id. destruct (N.eq_dec n 0) as [->|H]; [cbn; lia|]. pose proof (N.size_gt n). lia. Qed.

  (** Everything about [binary_search] *)
  Lemma binary_search_sound : forall n f i, binary_search (E:=E) n f = Ok (Some i) -> i < n /\ f i = Ok Eq.
  Proof.
    intros n f i H. unfold binary_search in H. destruct (N.eqb_spec n 0); [discriminate|].
    apply search_sound in H; [|lia]. destruct H. split; [lia|auto].
  Qed.
  Lemma binary_search_ext : forall n f g, (forall i, i < n -> f i = g i) ->
    binary_search (E:=E) n f = binary_search n g.
  Proof.
    intros n f g H. unfold binary_search. destruct (N.eqb_spec n 0); [auto|].
    apply search_ext with (n := n); auto; lia.
  Qed.
  Lemma binary_search_fails : forall n f,
    match binary_search (E:=E) n f with
    | Err e => exists i, i < n /\ f i = Err e
    | Panic => exists i, i < n /\ f i = Panic
    | Ok _ => True
    end.
  Proof.
    intros n f. unfold binary_search. destruct (N.eqb_spec n 0); [auto|].
    pose proof (search_fails f (N.to_nat (N.size n)) 0 n) as H.
    destruct (search_loop _ f 0 n); auto; destruct H as (i & I1 & I2); try lia; try apply size_fuel;
      exists i; split; auto; lia.
  Qed.
  Lemma binary_search_complete : forall n f c k,
    (forall i, i < n -> f i = Ok (c i)) ->
    (forall i j, i < j -> j < n -> c i = Gt -> c j = Gt) ->
    (forall i j, i < j -> j < n -> c j = Lt -> c i = Lt) ->
    k < n -> c k = Eq -> exists i, binary_search (E:=E) n f = Ok (Some i) /\ i < n /\ c i = Eq.
  Proof.
    intros n f c k F G L K Ck.
    assert (exists i, binary_search n f = Ok (Some i)) as [i H].
    { unfold binary_search. destruct (N.eqb_spec n 0); [lia|].
      eapply search_complete; eauto; try lia; try apply size_fuel. }
    exists i. split; [auto|]. apply binary_search_sound in H as [H1 H2]. split; [auto|].
    rewrite F in H2 by auto. congruence.
  Qed.
  Lemma binary_search_absent : forall n f c,
    (forall i, i < n -> f i = Ok (c i)) -> (forall i, i < n -> c i <> Eq) ->
    binary_search (E:=E) n f = Ok None.
  Proof.
    intros n f c F A. pose proof (binary_search_fails n f) as H.
    destruct (binary_search n f) as [[i|]|e|] eqn:B; auto.
    - apply binary_search_sound in B as [B1 B2]. rewrite F in B2 by auto.
      exfalso. apply (A i); congruence.
    - destruct H as (i & I1 & I2). rewrite F in I2 by auto. discriminate.
    - destruct H as (i & I1 & I2). rewrite F in I2 by auto. discriminate.
  Qed.
End Search.

(** ** Lists of records *)
Lemma all_nth : forall A (l : list (option A)) r, all l = Some r ->
  length r = length l /\ forall i x, nth_error l i = Some x -> exists a, x = Some a /\ nth_error r i = Some a.
Proof.
  induction l as [|x l IH]; intros r H; cbn [all] in H.
  - injection H as <-. split; [auto|]. intros [|i] y; discriminate.
  - destruct x as [a|]; [|discriminate]. destruct (all l) as [r'|]; [|discriminate].
    injection H as <-. destruct (IH r') as [I1 I2]; auto. split; [cbn; auto|].
    intros [|i] y Hy; cbn in *; [injection Hy as <-; eauto|auto].
Qed.

Lemma indices_length : forall n, length (indices n) = N.to_nat n.
Proof. intro n. unfold indices. rewrite map_length, seq_length. auto. Qed.
Lemma indices_nth : forall n i, i < n -> nth_error (indices n) (N.to_nat i) = Some i.
Proof.
  intros n i H. unfold indices. rewrite nth_error_map.
  rewrite (nth_error_nth' (seq 0 (N.to_nat n)) 0%nat) by (rewrite seq_length; lia).
  rewrite seq_nth by lia. cbn [option_map]. f_equal. lia.
Qed.

(** The records at [0..n] decode to the list [r]. *)
Lemma all_indices : forall A (f : N -> option A) n r, all (map f (indices n)) = Some r ->
  N.of_nat (length r) = n /\
  (forall i, i < n -> exists a, f i = Some a /\ nth_error r (N.to_nat i) = Some a) /\
  (forall a, In a r -> exists i, i < n /\ f i = Some a /\ nth_error r (N.to_nat i) = Some a).
Proof.
  intros A f n r H. apply all_nth in H as [H1 H2]. rewrite map_length, indices_length in H1.
  assert (X : forall i, i < n -> exists a, f i = Some a /\ nth_error r (N.to_nat i) = Some a).
  { intros i Hi. apply H2. rewrite nth_error_map, indices_nth by auto. reflexivity. }
  split; [lia|]. split; [auto|]. intros a Ha. apply In_nth_error in Ha as [k Hk].
  assert (Hn : (k < length r)%nat) by (apply nth_error_Some; congruence).
  exists (N.of_nat k). destruct (X (N.of_nat k)) as (a' & A1 & A2); [lia|].
  rewrite Nat2N.id in *. split; [lia|]. split; congruence.
Qed.

Lemma sorted_nth : forall A (R : A -> A -> Prop) l i j a b, StronglySorted R l -> (i < j)%nat ->
  nth_error l i = Some a -> nth_error l j = Some b -> R a b.
Proof.
  intros A R l. induction l as [|x l IH]; intros i j a b S H Hi Hj; [destruct i; discriminate|].
  inversion S; subst. destruct j as [|j]; [lia|]. destruct i as [|i]; cbn in Hi, Hj.
  - injection Hi as <-. rewrite Forall_forall in *. apply H3. eapply nth_error_In; eauto.
  - apply (IH i j); auto. lia.
Qed.

(** ** Tags *)
Lemma tag_cmp_spec : forall a b, match tag_cmp a b with
  | Eq => a = b | Lt => bytes_lt a b | Gt => bytes_lt b a end.
Proof.
  induction a as [|x a IH]; intros [|y b]; cbn [tag_cmp]; try constructor; auto.
  destruct (N.compare_spec x y) as [->|L|L].
  - specialize (IH b). destruct (tag_cmp a b); [congruence|apply lt_tail; auto|apply lt_tail; auto].
  - apply lt_head. auto.
  - apply lt_head. auto.
Qed.
Lemma bytes_lt_irrefl : forall a, ~ bytes_lt a a.
Proof. induction a as [|x a IH]; intro H; inversion H; subst; [lia|auto]. Qed.
Lemma bytes_lt_trans : forall a b c, bytes_lt a b -> bytes_lt b c -> bytes_lt a c.
Proof.
  intros a b c H. revert c. induction H as [y r|x y r s L|x r s H IH]; intros c H2; inversion H2; subst;
    solve [constructor | apply lt_head; lia | apply lt_head; auto | apply lt_tail; auto].
Qed.
Lemma tag_cmp_lt : forall a b, bytes_lt a b -> tag_cmp a b = Lt.
Proof.
  intros a b H. pose proof (tag_cmp_spec a b). destruct (tag_cmp a b); auto.
  - subst. exfalso. eapply bytes_lt_irrefl; eauto.
  - exfalso. eapply bytes_lt_irrefl. eapply bytes_lt_trans; eauto.
Qed.
Lemma tag_cmp_gt : forall a b, bytes_lt b a -> tag_cmp a b = Gt.
Proof.
  intros a b H. pose proof (tag_cmp_spec a b). destruct (tag_cmp a b); auto.
  - subst. exfalso. eapply bytes_lt_irrefl; eauto.
  - exfalso. eapply bytes_lt_irrefl. eapply bytes_lt_trans; eauto.
Qed.
Lemma tag_cmp_refl : forall a, tag_cmp a a = Eq.
Proof.
  intro a. pose proof (tag_cmp_spec a a) as H. destruct (tag_cmp a a); auto; exfalso;
    eapply bytes_lt_irrefl; eauto.
Qed.

(** ** The table directory *)
Definition dir_of (n : N) : slice := mkSlice 12 n 16.

Lemma u16_at_bound : forall f p v, wf_bytes f -> u16_at f p = Some v -> v < 65536.
Proof.
  intros f p v W H. unfold u16_at in H. unfold byte_at in H.
  destruct (nth_error f (N.to_nat p)) as [a|] eqn:A; [|discriminate].
  destruct (nth_error f (N.to_nat (p + 1))) as [b|] eqn:B; [|discriminate].
  assert (v = 256 * a + b) as -> by congruence. clear H. apply nth_error_In in A, B.
  unfold wf_bytes, wf_byte in W. rewrite Forall_forall in W. apply W in A, B. lia.
Qed.
Lemma u32_at_bound : forall f p v, wf_bytes f -> u32_at f p = Some v -> v < 2 ^ 32.
Proof.
  intros f p v W H. unfold u32_at in H.
  destruct (u16_at f p) as [a|] eqn:A; [|discriminate].
  destruct (u16_at f (p + 2)) as [b|] eqn:B; [|discriminate].
  assert (v = 65536 * a + b) as -> by congruence. clear H. apply u16_at_bound in A, B; auto. change (2 ^ 32) with 4294967296. lia.
Qed.

Lemma field_ok : forall m s name p o, field_offset 0 s name = o -> p + o < 2 ^ 32 ->
  field m s name p = Ok (p + o).
Proof. intros m s name p o <- H. apply exact_ok. auto. Qed.
Lemma offset_ok : forall m size p i, p + size * i < 2 ^ 32 -> offset m size p i = Ok (p + size * i).
Proof.
  intros m size p i H. unfold offset, mul32. rewrite exact_ok by lia. cbn [bind].
  apply exact_ok. auto.
Qed.

Lemma find_table_entries : forall m f d tag, wf_bytes f -> u16_at f 4 = Some (N.of_nat (length d)) ->
  directory f = Some d -> tags_sorted d ->
  (forall off, In (tag, off) d -> find_table m (dir_of (N.of_nat (length d))) f tag = Ok off) /\
  ((forall off, ~ In (tag, off) d) -> find_table m (dir_of (N.of_nat (length d))) f tag = Err MissingTable).
Proof.
  intros m f d tag W U D S. unfold directory in D. rewrite U in D.
  destruct (all_indices _ _ _ _ D) as (_ & X & Y).
  assert (Hn : N.of_nat (length d) < 65536) by (eapply u16_at_bound; eauto).
  set (n := N.of_nat (length d)) in *.
  assert (E : forall i, i < n -> exists t o, nth_error d (N.to_nat i) = Some (t, o) /\
    (p <- get_unchecked m (dir_of n) i ;;
     v <- (q <- field m TableDirectoryEntry "tag" p ;; read_tag f q) ;; Ok (tag_cmp v tag)) =
      Ok (tag_cmp t tag) /\
    get_unchecked m (dir_of n) i = Ok (12 + 16 * i) /\
    field_u32 m TableDirectoryEntry "table_offset" f (12 + 16 * i) = Ok o /\ o < 2 ^ 32).
  { intros i Hi. destruct (X i Hi) as ([t o] & X1 & X2). exists t, o. split; [auto|].
    unfold entry_at in X1. destruct (string_at f (12 + 16 * i) 4) as [t'|] eqn:T; [|discriminate].
    destruct (u32_at f (12 + 16 * i + 8)) as [o'|] eqn:O; [|discriminate].
    injection X1 as -> ->.
    apply (outcome_ok _ _ _ _ read_tag_outcome) in T as [T1 T2].
    pose proof (u32_at_bound _ _ _ W O).
    apply (outcome_ok _ _ _ _ read_u32_outcome) in O as [O1 O2].
    unfold get_unchecked, dir_of. cbn [s_size s_start]. rewrite offset_ok by lia. cbn [bind].
    unfold field_u32. rewrite (field_ok m TableDirectoryEntry "tag" _ 0) by (reflexivity || lia).
    rewrite (field_ok m TableDirectoryEntry "table_offset" _ 8) by (reflexivity || lia).
    cbn [bind]. rewrite N.add_0_r, T1, O1. cbn [bind]. auto. }
  set (c := fun i => match nth_error d (N.to_nat i) with Some (t, _) => tag_cmp t tag | None => Eq end).
  assert (F : forall i, i < n ->
    (p <- get_unchecked m (dir_of n) i ;;
     v <- (q <- field m TableDirectoryEntry "tag" p ;; read_tag f q) ;; Ok (tag_cmp v tag)) = Ok (c i)).
  { intros i Hi. destruct (E i Hi) as (t & o & E1 & E2 & _). rewrite E2. unfold c. rewrite E1. auto. }
  assert (LT : forall i j t o t' o', i < j -> nth_error d (N.to_nat i) = Some (t, o) ->
    nth_error d (N.to_nat j) = Some (t', o') -> bytes_lt t t').
  { intros i j t o t' o' L Hi Hj.
    eapply (sorted_nth _ _ (map fst d) (N.to_nat i) (N.to_nat j)); [exact S|lia| |];
      rewrite nth_error_map; [rewrite Hi|rewrite Hj]; reflexivity. }
  assert (G : forall i j, i < j -> j < n -> c i = Gt -> c j = Gt).
  { intros i j L Hj Ci. destruct (E i) as (t & o & E1 & _); [lia|]. destruct (E j) as (t' & o' & E1' & _); [lia|].
    unfold c in *. rewrite E1 in Ci. rewrite E1'. pose proof (tag_cmp_spec t tag) as P. rewrite Ci in P.
    apply tag_cmp_gt. eapply bytes_lt_trans; [exact P|]. exact (LT _ _ _ _ _ _ L E1 E1'). }
  assert (H : forall i j, i < j -> j < n -> c j = Lt -> c i = Lt).
  { intros i j L Hj Ci. destruct (E i) as (t & o & E1 & _); [lia|]. destruct (E j) as (t' & o' & E1' & _); [lia|].
    unfold c in *. rewrite E1' in Ci. rewrite E1. pose proof (tag_cmp_spec t' tag) as P. rewrite Ci in P.
    apply tag_cmp_lt. eapply bytes_lt_trans; [|exact P]. exact (LT _ _ _ _ _ _ L E1 E1'). }
  unfold find_table, binary_search_by_key. cbn [dir_of s_count]. fold (dir_of n). split.
  - intros off Hin. apply Y in Hin as (k & K1 & K2 & K3).
    destruct (binary_search_complete _ n _ c k F G H K1) as (i & I1 & I2 & I3).
    { unfold c. rewrite K3. apply tag_cmp_refl. }
    rewrite I1. cbn [bind]. destruct (E i I2) as (t & o & E1 & E2 & E3 & E4 & E5).
    rewrite E3. cbn [bind ok_or]. rewrite E4. cbn [bind].
    assert (t = tag).
    { unfold c in I3. rewrite E1 in I3. pose proof (tag_cmp_spec t tag) as P. rewrite I3 in P. auto. }
    subst t. assert (i = k).
    { destruct (N.lt_total i k) as [L|[L|L]]; auto; exfalso; eapply bytes_lt_irrefl;
        [eapply (LT i k)|eapply (LT k i)]; eauto. }
    subst k. rewrite K3 in E1. injection E1 as <-.
    unfold offset_bytes, add32, initial. apply exact_ok. lia.
  - intro Hno. rewrite (binary_search_absent _ n _ c F).
    + reflexivity.
    + intros i Hi Ci. destruct (E i Hi) as (t & o & E1 & _). unfold c in Ci. rewrite E1 in Ci.
      pose proof (tag_cmp_spec t tag) as P. rewrite Ci in P. subst t.
      eapply Hno. eapply nth_error_In; eauto.
Qed.
