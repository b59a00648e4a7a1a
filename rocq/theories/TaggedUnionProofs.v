(** Proofs for C68 *)
From Coq Require Import QArith.
From Verif Require Import Base Dom StyleValues StyleProperties TaggedUnion TaggedUnionSpec.
Local Close Scope Q_scope.
Local Open Scope nat_scope.

(** * Layout *)
Lemma align_up_ge : forall o a, o <= align_up o a.
Proof. intros. unfold align_up. lia. Qed.
Lemma align_up_divide : forall o a, 0 < a -> Nat.divide a (align_up o a).
Proof.
  intros o a H. unfold align_up. pose proof (Nat.mod_upper_bound o a ltac:(lia)) as B.
  pose proof (Nat.div_mod o a ltac:(lia)) as E. apply Nat.mod_divide; [lia|].
  destruct (o mod a =? 0) eqn:Z.
  - apply Nat.eqb_eq in Z. rewrite Z, Nat.sub_0_r, Nat.mod_same, Nat.add_0_r by lia. exact Z.
  - apply Nat.eqb_neq in Z. rewrite (Nat.mod_small (a - o mod a) a) by lia.
    replace (o + (a - o mod a)) with ((o / a + 1) * a) by nia. apply Nat.mod_mul. lia.
Qed.
Lemma align_up_least : forall o a n, 0 < a -> o <= n -> Nat.divide a n -> align_up o a <= n.
Proof.
  intros o a n H L [q ->]. unfold align_up. pose proof (Nat.mod_upper_bound o a ltac:(lia)) as B.
  pose proof (Nat.div_mod o a ltac:(lia)) as E.
  destruct (o mod a =? 0) eqn:Z.
  - apply Nat.eqb_eq in Z. rewrite Z, Nat.sub_0_r, Nat.mod_same, Nat.add_0_r by lia. exact L.
  - apply Nat.eqb_neq in Z. rewrite (Nat.mod_small (a - o mod a) a) by lia.
    enough (o / a + 1 <= q) by nia. destruct (Nat.lt_ge_cases (o / a) q); [lia|]. nia.
Qed.
Lemma wf_align_pos : forall t, wf_ty t -> 0 < ty_align t.
Proof. intros t [[k ->] _]. apply Nat.neq_0_lt_0, Nat.pow_nonzero. lia. Qed.

Lemma offsets_laid_out : forall fields start, Forall wf_ty fields -> laid_out start fields (struct_offsets start fields).
Proof.
  induction fields as [|t fields IH]; intros start W; cbn [struct_offsets]; constructor; inversion W; subst.
  - apply align_up_ge.
  - apply align_up_divide, wf_align_pos. assumption.
  - intros. apply align_up_least; auto using wf_align_pos.
  - apply IH. assumption.
Qed.
Lemma laid_out_unique : forall fields start l l', laid_out start fields l -> laid_out start fields l' -> l = l'.
Proof.
  induction fields as [|t fields IH]; intros start l l' H H'; inversion H; inversion H'; subst; auto.
  assert (o = o0) as -> by (apply Nat.le_antisymm; auto). f_equal. eapply IH; eassumption.
Qed.
Lemma laid_out_length : forall fields start l, laid_out start fields l -> length l = length fields.
Proof. induction fields; intros start l H; inversion H; subst; cbn [length]; auto. f_equal. eauto. Qed.

Lemma align_up_0 : forall a, 0 < a -> align_up 0 a = 0.
Proof. intros. unfold align_up. rewrite Nat.mod_0_l, Nat.sub_0_r, Nat.mod_same by lia. reflexivity. Qed.
Lemma wf_int_pos : forall i, wf_int i -> 0 < int_size i.
Proof. intros i H. unfold wf_int in H. cbn [In] in H. lia. Qed.

Lemma closure_offsets : forall tag fields, wf_int tag ->
  tl (struct_offsets 0 (int_ty tag :: fields)) = struct_offsets (int_size tag) fields.
Proof.
  intros. cbn [struct_offsets tl int_ty ty_align ty_size]. rewrite align_up_0 by (apply wf_int_pos; auto). reflexivity.
Qed.

(** Divisibility of powers of two *)
Lemma pow2_max_divide : forall a b, (exists k, a = 2 ^ k) -> (exists k, b = 2 ^ k) ->
  Nat.divide a (Nat.max a b) /\ Nat.divide b (Nat.max a b) /\ exists k, Nat.max a b = 2 ^ k.
Proof.
  intros a b [i ->] [j ->].
  assert (D : forall x y, x <= y -> Nat.divide (2 ^ x) (2 ^ y)).
  { intros x y L. exists (2 ^ (y - x)). rewrite <- Nat.pow_add_r. f_equal. lia. }
  destruct (Nat.le_ge_cases i j) as [L|L].
  - pose proof (Nat.pow_le_mono_r 2 i j ltac:(lia) L). rewrite Nat.max_r by auto. eauto using Nat.divide_refl.
  - pose proof (Nat.pow_le_mono_r 2 j i ltac:(lia) L). rewrite Nat.max_l by auto. eauto using Nat.divide_refl.
Qed.
Lemma struct_align_pow2 : forall fields, Forall wf_ty fields -> exists k, struct_align fields = 2 ^ k.
Proof.
  induction 1 as [|t fields [P _] F IH]; cbn [struct_align]; [exists 0; reflexivity|].
  apply pow2_max_divide; auto.
Qed.
(** The greatest alignment is that of one of the fields, or 1 *)
Lemma struct_align_one : forall fields, struct_align fields = 1 \/ exists t, In t fields /\ struct_align fields = ty_align t.
Proof.
  induction fields as [|t fields [IH|[u [I IH]]]]; cbn [struct_align]; auto.
  - rewrite IH. destruct (Nat.max_spec (ty_align t) 1) as [[_ E]|[_ E]]; rewrite E; auto.
    right. exists t. cbn [In]. auto.
  - destruct (Nat.max_spec (ty_align t) (struct_align fields)) as [[_ E]|[_ E]]; rewrite E; right.
    + exists u. cbn [In]. auto.
    + exists t. cbn [In]. auto.
Qed.
Lemma struct_align_each : forall fields t, Forall wf_ty fields -> In t fields -> Nat.divide (ty_align t) (struct_align fields).
Proof.
  induction fields as [|u fields IH]; intros t W I; [destruct I|]. inversion W; subst. cbn [struct_align].
  destruct (pow2_max_divide (ty_align u) (struct_align fields)) as [D1 [D2 _]].
  - destruct H1. assumption.
  - apply struct_align_pow2. assumption.
  - destruct I as [->|I]; [assumption|]. eapply Nat.divide_trans; [apply IH; eassumption|assumption].
Qed.
Lemma struct_end_bound : forall fields start n,
  start <= n -> (forall t o, In (t, o) (combine fields (struct_offsets start fields)) -> o + ty_size t <= n) ->
  struct_end start fields <= n.
Proof.
  induction fields as [|t fields IH]; intros start n L H; cbn [struct_end]; auto.
  apply IH; [apply H; left; reflexivity|]. intros u o I. apply H. cbn [struct_offsets combine]. right. exact I.
Qed.

(** * The tag *)
Fixpoint digits (size : nat) (n : N) : list N :=
  match size with O => [] | S size => (n mod 256)%N :: digits size (n / 256)%N end.
Lemma from_le_digits : forall size n, (n < 256 ^ N.of_nat size)%N -> from_le (digits size n) = n.
Proof.
  induction size as [|size IH]; intros n B; cbn [digits from_le].
  - cbn in B. lia.
  - rewrite IH.
    + pose proof (N.div_mod n 256 ltac:(lia)). lia.
    + rewrite Nat2N.inj_succ, N.pow_succ_r' in B. apply N.div_lt_upper_bound; lia.
Qed.
Lemma digits_nth : forall size n k, k < size -> nth_error (digits size n) k = Some ((n / 256 ^ N.of_nat k) mod 256)%N.
Proof.
  induction size as [|size IH]; intros n k L; [lia|]. destruct k as [|k]; cbn [digits nth_error].
  - cbn [N.of_nat]. rewrite N.pow_0_r, N.div_1_r. reflexivity.
  - rewrite IH by lia. rewrite Nat2N.inj_succ, N.pow_succ_r', N.div_div by (try apply N.pow_nonzero; lia). reflexivity.
Qed.
Lemma digits_length : forall size n, length (digits size n) = size.
Proof. induction size; intros; cbn [digits length]; auto. Qed.
Lemma list_ext : forall {A} (l l' : list A), length l = length l' -> (forall k, k < length l -> nth_error l k = nth_error l' k) -> l = l'.
Proof.
  intros A. induction l as [|x l IH]; intros [|y l'] L H; cbn [length] in *; try discriminate; auto.
  pose proof (H 0 ltac:(lia)) as E. cbn [nth_error] in E. injection E as ->. f_equal. apply IH; [lia|].
  intros k Lk. apply (H (S k)). lia.
Qed.
Lemma load_length : forall m a n, length (load m a n) = n.
Proof. intros. unfold load. rewrite map_length, seq_length. reflexivity. Qed.
Lemma load_nth : forall m a n k, k < n -> nth_error (load m a n) k = Some (m (a + k)).
Proof.
  intros. unfold load. apply map_nth_error with (f := m). rewrite nth_error_nth' with (d := 0) by (rewrite seq_length; lia).
  rewrite seq_nth by lia. reflexivity.
Qed.
Lemma initialised_map : forall l, initialised (map Some l) = Some l.
Proof. induction l as [|b l IH]; cbn [map initialised]; [|rewrite IH]; reflexivity. Qed.
Lemma rev_nth_error : forall {A} (l : list A) k, k < length l -> nth_error (rev l) k = nth_error l (length l - 1 - k).
Proof.
  intros A l k L. destruct l as [|d l']; [cbn in L; lia|]. set (l := d :: l') in *.
  rewrite !nth_error_nth' with (d := d) by (rewrite ?rev_length; lia). rewrite rev_nth by lia. f_equal. f_equal. lia.
Qed.
Lemma load_tag : forall big m a tag n, tag_at big m a tag n ->
  load m a (int_size tag) = map Some (if big then rev (digits (int_size tag) n) else digits (int_size tag) n).
Proof.
  intros big m a tag n T. apply list_ext.
  - rewrite load_length, map_length. destruct big; rewrite ?rev_length, digits_length; reflexivity.
  - rewrite load_length. intros k L. rewrite load_nth by auto. symmetry. rewrite map_nth_error with (d := nth k (if big then rev (digits (int_size tag) n) else digits (int_size tag) n) 0%N).
    2:{ apply nth_error_nth'. destruct big; rewrite ?rev_length, digits_length; exact L. }
    f_equal. destruct big.
    + specialize (T (int_size tag - 1 - k) ltac:(lia)). cbn beta iota in T.
      replace (int_size tag - 1 - (int_size tag - 1 - k)) with k in T by lia. rewrite T. f_equal.
      apply nth_error_nth. rewrite rev_nth_error by (rewrite digits_length; lia). rewrite digits_length.
      apply digits_nth. lia.
    + rewrite (T k L). f_equal. apply nth_error_nth. apply digits_nth. exact L.
Qed.
Lemma tag_read : forall big m a tag n count, wf_int tag -> discriminants_fit tag count -> (n < N.of_nat count)%N ->
  tag_at big m a tag n -> tag_as_usize big tag (load m a (int_size tag)) = Some n.
Proof.
  intros big m a tag n count W F L T. unfold tag_as_usize. rewrite (load_tag _ _ _ _ _ T), initialised_map.
  unfold discriminants_fit in F. pose proof (wf_int_pos _ W) as P.
  assert (B : (n < 256 ^ N.of_nat (int_size tag))%N).
  { replace 256%N with (2 ^ 8)%N by reflexivity. rewrite <- N.pow_mul_r. eapply N.lt_le_trans; [exact L|].
    eapply N.le_trans; [exact F|]. apply N.pow_le_mono_r; [lia|]. destruct (int_signed tag); lia. }
  replace (from_le _) with n.
  - destruct (int_signed tag); [|reflexivity]. cbn [andb].
    replace (_ <=? n)%N with false; [reflexivity|]. symmetry. apply N.leb_gt. lia.
  - destruct big; rewrite ?rev_involutive, from_le_digits by exact B; reflexivity.
Qed.

(** * The table *)
Section Table.
Context {Args Result : Type}.
Implicit Types arms : list (arm Args Result).
Lemma bytes_eqb_true : forall a b, bytes_eqb a b = true <-> a = b.
Proof. intros. unfold bytes_eqb. destruct (list_eq_dec N.eq_dec a b); split; congruence. Qed.

Definition fits (name : bytes) (v : bytes * list ty) (a : arm Args Result) : Prop :=
  arm_enum a = name /\ arm_variant a = fst v /\ arm_fields a = length (snd v).
Lemma table_some : forall tag name variants arms previous table,
  closures_table tag name variants arms previous = Some table ->
  Forall2 (fits name) variants arms /\
  table = previous ++ map (fun va => make_closure _ _ tag (snd (fst va)) (arm_block (snd va))) (combine variants arms).
Proof.
  induction variants as [|[v fields] variants IH]; intros [|a arms] previous table H; cbn [closures_table] in H; try discriminate.
  - injection H as <-. cbn [combine map]. rewrite app_nil_r. auto.
  - destruct (_ && _ && _) eqn:E in H; [|discriminate].
    apply andb_true_iff in E as [E E3]. apply andb_true_iff in E as [E1 E2].
    apply bytes_eqb_true in E1, E2. apply Nat.eqb_eq in E3.
    apply IH in H as [F ->]. split.
    + constructor; [|exact F]. unfold fits. cbn [fst snd]. auto.
    + rewrite <- app_assoc. reflexivity.
Qed.
Lemma table_exists : forall tag name variants arms previous, Forall2 (fits name) variants arms ->
  exists table, closures_table tag name variants arms previous = Some table.
Proof.
  intros tag name variants arms previous F. revert previous.
  induction F as [|[v fields] a variants arms [E1 [E2 E3]] F IH]; intros previous; cbn [closures_table].
  - eauto.
  - cbn [fst snd] in *. replace (_ && _ && _) with true; [apply IH|]. symmetry. rewrite !andb_true_iff, !bytes_eqb_true, Nat.eqb_eq. auto.
Qed.
Lemma Forall2_nth : forall {A B} (R : A -> B -> Prop) l l' k x, Forall2 R l l' -> nth_error l k = Some x ->
  exists y, nth_error l' k = Some y /\ R x y.
Proof.
  intros A B R l l' k x F. revert k. induction F as [|x0 y0 l l' R0 F IH]; intros [|k] K; cbn [nth_error] in *; try discriminate; eauto.
  injection K as <-. eauto.
Qed.
Lemma combine_nth_error : forall {A B} (l : list A) (l' : list B) k x y, nth_error l k = Some x -> nth_error l' k = Some y ->
  nth_error (combine l l') k = Some (x, y).
Proof.
  intros A B. induction l as [|a l IH]; intros [|b l'] [|k] x y H H'; cbn [nth_error combine] in *; try discriminate; eauto.
  injection H as <-. injection H' as <-. reflexivity.
Qed.

Lemma call_reads : forall big tag name variants arms f m self args k variant fields offsets,
  method big tag name variants arms = Some f -> wf_int tag -> discriminants_fit tag (length variants) ->
  Forall wf_ty fields -> nth_error variants k = Some (variant, fields) -> tag_at big m self tag (N.of_nat k) ->
  laid_out (int_size tag) fields offsets ->
  exists a, nth_error arms k = Some a /\ fits name (variant, fields) a /\
    f m self args = Some (arm_block a m (map (fun o => self + o) offsets) args).
Proof.
  intros big tag name variants arms f m self args k variant fields offsets H W D Wf K T L.
  unfold method in H. destruct (closures_table tag name variants arms []) as [table|] eqn:E; [|discriminate].
  injection H as <-. apply table_some in E as [F ->]. destruct (Forall2_nth _ _ _ _ _ F K) as [a [Ka Fa]].
  exists a. split; [exact Ka|]. split; [exact Fa|]. unfold call_method.
  assert (B : k < length variants) by (apply nth_error_Some; congruence).
  rewrite (tag_read big m self tag (N.of_nat k) (length variants)) by (auto; lia).
  rewrite Nat2N.id. cbn [app]. rewrite map_nth_error with (d := ((variant, fields), a)) by (apply combine_nth_error; auto).
  cbn [fst snd]. unfold make_closure. rewrite closure_offsets by auto.
  rewrite (laid_out_unique _ _ _ _ L (offsets_laid_out fields (int_size tag) Wf)). reflexivity.
Qed.

Lemma fits_variants : forall name variants arms, Forall2 (fits name) variants arms -> map arm_variant arms = map fst variants.
Proof. induction 1 as [|v a variants arms [_ [E _]] F IH]; cbn [map]; congruence. Qed.
(** The arm at the place of the variant is the one that matches *)
Lemma first_match_nth : forall name variants arms k v a, Forall2 (fits name) variants arms -> NoDup (map fst variants) ->
  nth_error variants k = Some v -> nth_error arms k = Some a -> first_match name (fst v) arms a.
Proof.
  intros name variants arms k v a F N K Ka.
  destruct (Forall2_nth _ _ _ _ _ F K) as [a' [Ka' [E1 [E2 E3]]]]. rewrite Ka in Ka'. injection Ka' as <-.
  destruct (nth_error_split _ _ Ka) as [before [after [-> Lb]]]. exists before, after.
  split; [reflexivity|]. split; [split; assumption|]. intros b Ib [_ Eb].
  rewrite <- (fits_variants _ _ _ F), map_app in N. cbn [map] in N. apply NoDup_remove_2 in N. apply N.
  apply in_or_app. left. rewrite E2, <- Eb. apply in_map. exact Ib.
Qed.
Lemma first_match_unique : forall name v arms a b, first_match name v arms a -> first_match name v arms b -> a = b.
Proof.
  intros name v arms a b [l1 [r1 [-> [M1 N1]]]] [l2 [r2 [E [M2 N2]]]].
  revert l2 E N2. induction l1 as [|x l1 IH]; intros [|y l2] E N2; cbn [app] in E.
  - congruence.
  - injection E as <- _. exfalso. apply (N2 a); [left; reflexivity|assumption].
  - injection E as -> _. exfalso. apply (N1 b); [left; reflexivity|assumption].
  - injection E as <- E. eapply IH; eauto; intros; [apply N1|apply N2]; right; assumption.
Qed.
End Table.
