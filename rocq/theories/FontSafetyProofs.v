(** Hostile fonts: the release build never panics; the debug build agrees with it or panics. *)
From Verif Require Import Base PdfConvert FontParsing FontCmap FontSpec FontProofs.
Local Open Scope N_scope.
Local Open Scope res_scope.

(** ** No panic, release build *)
Definition np {A} (r : result A) : Prop := r <> Panic.

Lemma np_ok : forall A (a : A), np (Ok a). Proof. discriminate. Qed.
Lemma np_err : forall A e, np (A:=A) (Err e). Proof. discriminate. Qed.
Lemma np_bind : forall A B (r : result A) (k : A -> result B), np r -> (forall a, r = Ok a -> np (k a)) -> np (bind r k).
Proof. intros A B [a|e|] k H1 H2; cbn [bind]; [auto|discriminate|congruence]. Qed.
Lemma np_ok_or : forall A (o : option A) e, np (ok_or o e).
Proof. intros A [a|] e; discriminate. Qed.
Lemma np_exact : forall w n, np (exact Release w n).
Proof. intros w n. unfold exact. destruct (n <? 2 ^ w); discriminate. Qed.
Lemma np_sub : forall w a b, np (sub_w Release w a b).
Proof. intros w a b. unfold sub_w. destruct (b <=? a); discriminate. Qed.
Lemma np_u16 : forall l p, np (read_u16 l p).
Proof. exact (outcome_no_panic _ _ _ _ read_u16_outcome). Qed.
Lemma np_i16 : forall l p, np (read_i16 l p).
Proof. exact (outcome_no_panic _ _ _ _ read_i16_outcome). Qed.
Lemma np_u32 : forall l p, np (read_u32 l p).
Proof. exact (outcome_no_panic _ _ _ _ read_u32_outcome). Qed.
Lemma np_tag : forall l p, np (read_tag l p).
Proof. exact (outcome_no_panic _ _ _ _ read_tag_outcome). Qed.
Lemma np_slice : forall l p n k, np (slice_read l (mkSlice p n k)).
Proof. intros l p n k. exact (outcome_no_panic _ _ _ _ (slice_read_outcome k n) l p). Qed.

Create HintDb np.
Global Hint Resolve np_ok np_err np_ok_or np_exact np_sub np_u16 np_i16 np_u32 np_tag np_slice : np.
Ltac np := repeat (match goal with |- np (bind _ _) => apply np_bind; [|intros] end); auto with np.

Lemma np_offset : forall s p i, np (offset Release s p i).
Proof. intros. unfold offset, mul32, offset_bytes, add32. np. Qed.
Lemma np_field : forall s x p, np (field Release s x p).
Proof. intros. apply np_exact. Qed.
Global Hint Resolve np_offset np_field : np.
Lemma np_field_u16 : forall s x l p, np (field_u16 Release s x l p).
Proof. intros. unfold field_u16. np. Qed.
Lemma np_field_i16 : forall s x l p, np (field_i16 Release s x l p).
Proof. intros. unfold field_i16. np. Qed.
Lemma np_field_u32 : forall s x l p, np (field_u32 Release s x l p).
Proof. intros. unfold field_u32. np. Qed.
Lemma np_offset_bytes : forall p i, np (offset_bytes Release p i).
Proof. intros. apply np_exact. Qed.
Lemma np_followed : forall s p, np (followed_by Release s p).
Proof. intros. apply np_exact. Qed.
Lemma np_get : forall s i, np (get_unchecked Release s i).
Proof. intros. apply np_offset. Qed.
Global Hint Resolve np_field_u16 np_field_i16 np_field_u32 np_offset_bytes np_followed np_get : np.

Lemma np_search : forall n (f : N -> result comparison), (forall i, np (f i)) -> np (binary_search n f).
Proof.
  intros n f H E. pose proof (binary_search_fails _ n f) as B. rewrite E in B.
  destruct B as (i & _ & B). apply (H i B).
Qed.

Lemma np_find_table : forall d l t, np (find_table Release d l t).
Proof.
  intros. unfold find_table, binary_search_by_key. np.
  - apply np_search. intros. np.
  - destruct a; np.
Qed.

(** iterations in steps of [s_size] wrap around 2^32 *)
Lemma np_for_each_next : forall A R (body : A -> position -> result (flow A R)) size,
  (forall a p, np (body a p)) -> forall k fuel a st en, (k <= fuel)%nat -> st < 2 ^ 32 ->
  en = (st + size * N.of_nat k) mod 2 ^ 32 ->
  np (for_each fuel (next Release) body a (mkIter st en size)).
Proof.
  intros A R body size H k. induction k as [|k IH]; intros fuel a st en L St E.
  - rewrite N.mul_0_r, N.add_0_r, N.mod_small in E by auto. subst en.
    destruct fuel; cbn [for_each]; unfold next; cbn [i_start i_end]; rewrite N.eqb_refl; discriminate.
  - destruct fuel as [|fuel]; [lia|]. cbn [for_each]. unfold next. cbn [i_start i_end i_size].
    destruct (N.eqb_spec st en); [discriminate|].
    assert (exists p, followed_by Release size st = Ok p /\ p = (st + size) mod 2 ^ 32) as (p & -> & P).
    { unfold followed_by, offset_bytes, add32, exact. destruct (N.ltb_spec (st + size) (2 ^ 32)).
      - exists (st + size). split; [auto|]. rewrite N.mod_small; auto.
      - eexists. split; [reflexivity|auto]. }
    cbn [bind]. apply np_bind; [apply H|]. intros [a'|r] _; [|discriminate].
    apply IH; [lia|subst p; apply N.mod_lt; discriminate|].
    subst p. rewrite N.add_mod_idemp_l by discriminate. rewrite E. f_equal. lia.
Qed.

Lemma np_for_each_back : forall A R (body : A -> position -> result (flow A R)) size,
  (forall a p, np (body a p)) -> 0 < size < 2 ^ 32 ->
  forall k fuel a st en, (k <= fuel)%nat -> st < 2 ^ 32 ->
  en = (st + size * N.of_nat k) mod 2 ^ 32 ->
  np (for_each fuel (next_back Release) body a (mkIter st en size)).
Proof.
  intros A R body size H Hs k. induction k as [|k IH]; intros fuel a st en L St E.
  - rewrite N.mul_0_r, N.add_0_r, N.mod_small in E by auto. subst en.
    destruct fuel; cbn [for_each]; unfold next_back; cbn [i_start i_end]; rewrite N.eqb_refl; discriminate.
  - destruct fuel as [|fuel]; [lia|]. cbn [for_each]. unfold next_back. cbn [i_start i_end i_size].
    destruct (N.eqb_spec st en); [discriminate|].
    assert (exists p, sub32 Release en size = Ok p /\ p = (st + size * N.of_nat k) mod 2 ^ 32) as (p & -> & P).
    { assert (EN : en < 2 ^ 32) by (subst en; apply N.mod_lt; discriminate).
      assert (X : (en + 2 ^ 32 - size) mod 2 ^ 32 = (st + size * N.of_nat k) mod 2 ^ 32).
      { set (M := 2 ^ 32) in *. assert (M <> 0) by (subst M; discriminate).
        pose proof (N.div_mod (st + size * N.of_nat (S k)) M) as D.
        set (q := (st + size * N.of_nat (S k)) / M) in *. rewrite <- E in D.
        destruct (N.eq_dec q 0) as [Hq|Hq].
        - replace (en + M - size) with (st + size * N.of_nat k + 1 * M) by (rewrite Hq in D; lia).
          rewrite N.mod_add; auto.
        - replace (st + size * N.of_nat k) with (en + M - size + (q - 1) * M).
          + rewrite N.mod_add; auto.
          + rewrite N.mul_sub_distr_r. assert (1 * M <= q * M) by (apply N.mul_le_mono_r; lia).
            rewrite (N.mul_comm q M) in *. lia. }
      unfold sub32, sub_w. destruct (N.leb_spec size en).
      - exists (en - size). split; [auto|]. rewrite <- X.
        replace (en + 2 ^ 32 - size) with (en - size + 1 * 2 ^ 32) by lia.
        rewrite N.mod_add by discriminate. rewrite N.mod_small; [auto|]. lia.
      - eexists. split; [reflexivity|]. exact X. }
    cbn [bind]. apply np_bind; [apply H|]. intros [a'|r] _; [|discriminate].
    apply IH; [lia|auto|auto].
Qed.

Lemma release_exact : forall w n v, exact Release w n = Ok v -> v = n mod 2 ^ w.
Proof.
  intros w n v H. unfold exact in H. destruct (N.ltb_spec n (2 ^ w)).
  - injection H as <-. rewrite N.mod_small; auto.
  - injection H as <-. auto.
Qed.
Lemma release_exact_lt : forall m w n v, exact m w n = Ok v -> v < 2 ^ w.
Proof.
  intros m w n v H. unfold exact in H. destruct (N.ltb_spec n (2 ^ w)).
  - injection H as <-. auto.
  - destruct m; [discriminate|]. injection H as <-. apply N.mod_lt. apply N.pow_nonzero. discriminate.
Qed.

Lemma into_iter_release : forall s it, into_iter Release s = Ok it ->
  it = mkIter (s_start s) ((s_start s + s_size s * s_count s) mod 2 ^ 32) (s_size s).
Proof.
  intros s it H. unfold into_iter, get_unchecked, offset, mul32, offset_bytes, add32 in H.
  destruct (exact Release 32 (s_size s * s_count s)) as [x| |] eqn:X; cbn [bind] in H; try discriminate.
  destruct (exact Release 32 (s_start s + x)) as [y| |] eqn:Y; cbn [bind] in H; try discriminate.
  apply release_exact in X, Y. injection H as <-. subst x y.
  rewrite N.add_mod_idemp_r by discriminate. reflexivity.
Qed.
Lemma np_into_iter : forall s, np (into_iter Release s).
Proof. intros. unfold into_iter. np. Qed.
Global Hint Resolve np_find_table np_into_iter : np.

Lemma np_name_record : forall l st p, np (name_record Release l st p).
Proof.
  intros. unfold name_record. np. destruct (negb (a =? 6)); np.
  destruct (a0 =? 1); np. destruct ((a0 =? 3) && (a1 =? 1)); np.
Qed.

Lemma np_postscript_name : forall l d, np (read_postscript_name Release l d).
Proof.
  intros. unfold read_postscript_name. np; [|destruct a5; np].
  match goal with H : into_iter _ _ = Ok _ |- _ => apply into_iter_release in H; rewrite H end.
  cbn [s_start s_size s_count].
  eapply np_for_each_next.
  - intros. apply np_name_record.
  - apply Nat.le_refl.
  - match goal with H : followed_by _ _ _ = Ok ?a |- ?a < _ => exact (release_exact_lt _ _ _ _ H) end.
  - rewrite N2Nat.id. reflexivity.
Qed.

Lemma np_format4_parse : forall l p, np (format4_parse Release l p).
Proof. intros. unfold format4_parse, add32. np. Qed.
Lemma np_format12_parse : forall l p, np (format12_parse Release l p).
Proof. intros. unfold format12_parse. np. Qed.
Global Hint Resolve np_format4_parse np_format12_parse np_postscript_name : np.

Lemma np_cmap_record : forall l h p, np (cmap_record Release l h p).
Proof.
  intros. unfold cmap_record. np. destruct ((a2 =? 3) && (a3 =? 1) && (a1 =? 4)); np.
  destruct ((a2 =? 3) && (a3 =? 10) && (a1 =? 12)); np.
Qed.
Lemma np_cmap_parse : forall l d, np (cmap_parse Release l d).
Proof.
  intros. unfold cmap_parse. np; [|destruct a3; np].
  match goal with H : into_iter _ _ = Ok _ |- _ => apply into_iter_release in H; rewrite H end.
  cbn [s_start s_size s_count].
  eapply np_for_each_back.
  - intros. apply np_cmap_record.
  - split; reflexivity.
  - apply Nat.le_refl.
  - match goal with H : followed_by _ _ _ = Ok ?a |- ?a < _ => exact (release_exact_lt _ _ _ _ H) end.
  - rewrite N2Nat.id. reflexivity.
Qed.
Global Hint Resolve np_cmap_parse : np.

Lemma np_parse_font : forall l, np (parse_font Release l).
Proof.
  intros. unfold parse_font. apply np_bind; [auto with np|]. intros.
  destruct (negb (a =? 1953658213) && negb (a =? 65536)); [discriminate|]. np.
Qed.

(** *** Lookups in a parsed font *)
Lemma np_nth_u16 : forall l p i, np (nth_u16 Release l p i).
Proof. intros. unfold nth_u16. np. Qed.
Global Hint Resolve np_nth_u16 : np.
Lemma np_format4_glyph : forall l t i s c, np (format4_glyph_id Release l t i s c).
Proof.
  intros. unfold format4_glyph_id, sub16. np. destruct (a1 =? 0); np.
Qed.
Global Hint Resolve np_format4_glyph : np.
Lemma np_format4_get : forall l t c, np (format4_get Release l t c).
Proof.
  intros. unfold format4_get. destruct (65535 <? c); [discriminate|]. np.
  - apply np_search. intros. np. destruct (a <? c); np. destruct (c <? a0); np.
  - destruct a; np.
Qed.
Lemma np_format12_get : forall l t c, np (format12_get Release l t c).
Proof.
  intros. unfold format12_get, sub32, add32. np.
  - apply np_search. intros. np. destruct (c <? a0); np. destruct (a1 <? c); np.
  - destruct a; np.
Qed.

Lemma read_u16_lt : forall l p v, wf_bytes l -> read_u16 l p = Ok v -> v < 65536.
Proof.
  intros l p v W H. destruct (read_u16_outcome l p) as [(_ & w & R & U)|[(_ & R & _)|(_ & R & _)]];
    rewrite R in H; try discriminate. injection H as <-. eapply u16_at_bound; eauto.
Qed.
Lemma read_u32_lt : forall l p v, wf_bytes l -> read_u32 l p = Ok v -> v < 2 ^ 32.
Proof.
  intros l p v W H. destruct (read_u32_outcome l p) as [(_ & w & R & U)|[(_ & R & _)|(_ & R & _)]];
    rewrite R in H; try discriminate. injection H as <-. eapply u32_at_bound; eauto.
Qed.

Lemma mod_next : forall M e c fuel, 0 < M -> c < M -> e < M -> c <> e ->
  N.of_nat (S fuel) = (e + M - c) mod M -> N.of_nat fuel = (e + M - (c + 1) mod M) mod M.
Proof.
  intros M e c fuel HM Hc He Hne H.
  assert (E : (c + 1) mod M = if c + 1 =? M then 0 else c + 1).
  { destruct (N.eqb_spec (c + 1) M) as [->|]; [apply N.mod_same; lia|apply N.mod_small; lia]. }
  rewrite E. destruct (N.le_gt_cases c e).
  - replace (e + M - c) with (e - c + 1 * M) in H by lia. rewrite N.mod_add, N.mod_small in H by lia.
    destruct (N.eqb_spec (c + 1) M); [lia|].
    replace (e + M - (c + 1)) with (e - (c + 1) + 1 * M) by lia. rewrite N.mod_add, N.mod_small by lia. lia.
  - rewrite N.mod_small in H by lia. destruct (N.eqb_spec (c + 1) M).
    + replace (e + M - 0) with (e + 1 * M) by lia. rewrite N.mod_add, N.mod_small by lia. lia.
    + rewrite N.mod_small by lia. lia.
Qed.
Lemma mod_zero : forall M e c, 0 < M -> c < M -> e < M -> 0 = (e + M - c) mod M -> c = e.
Proof.
  intros M e c HM Hc He H. destruct (N.le_gt_cases c e).
  - replace (e + M - c) with (e - c + 1 * M) in H by lia. rewrite N.mod_add, N.mod_small in H by lia. lia.
  - rewrite N.mod_small in H by lia. lia.
Qed.

Lemma np_format4_loop : forall l t i s e, e < 2 ^ 16 -> forall fuel c, c < 2 ^ 16 ->
  N.of_nat fuel = (e + 2 ^ 16 - c) mod 2 ^ 16 -> np (format4_loop fuel Release l t i s e c).
Proof.
  intros l t i s e He. induction fuel as [|fuel IH]; intros c Hc F; cbn [format4_loop]; np.
  - apply mod_zero in F; auto; [|reflexivity]. subst c. rewrite N.eqb_refl. discriminate.
  - destruct (N.eqb_spec c e); [discriminate|]. unfold add16. np.
    match goal with H : exact _ _ _ = Ok _ |- _ => apply release_exact in H; subst end.
    apply IH; [apply N.mod_lt; discriminate|]. apply mod_next; auto. reflexivity.
Qed.
Lemma np_format12_loop : forall s e g, e < 2 ^ 32 -> forall fuel c, c < 2 ^ 32 ->
  N.of_nat fuel = (e + 2 ^ 32 - c) mod 2 ^ 32 -> np (format12_loop fuel Release s e g c).
Proof.
  intros s e g He. induction fuel as [|fuel IH]; intros c Hc F; cbn [format12_loop]; unfold sub32, add32; np.
  - apply mod_zero in F; auto; [|reflexivity]. subst c. rewrite N.eqb_refl. discriminate.
  - destruct (N.eqb_spec c e); [discriminate|]. np.
    match goal with H : exact _ _ (_ + 1) = Ok _ |- _ => apply release_exact in H; subst end.
    apply IH; [apply N.mod_lt; discriminate|]. apply mod_next; auto. reflexivity.
Qed.

Lemma nth_u16_lt : forall m l p i v, wf_bytes l -> nth_u16 m l p i = Ok v -> v < 2 ^ 16.
Proof.
  intros m l p i v W H. unfold nth_u16 in H. destruct (offset m 2 p i); cbn [bind] in H; try discriminate.
  eapply read_u16_lt; eauto.
Qed.
Lemma field_u32_lt : forall m s x l p v, wf_bytes l -> field_u32 m s x l p = Ok v -> v < 2 ^ 32.
Proof.
  intros m s x l p v W H. unfold field_u32 in H. destruct (field m s x p); cbn [bind] in H; try discriminate.
  eapply read_u32_lt; eauto.
Qed.

Lemma np_format4_each : forall l t, wf_bytes l -> np (format4_each Release l t).
Proof.
  intros l t W. unfold format4_each. generalize 0 as i. induction (N.to_nat (segment_count t)) as [|k IH]; intro i;
    cbn [format4_segments]; np.
  apply np_format4_loop.
  - eapply nth_u16_lt; eauto.
  - eapply nth_u16_lt; eauto.
  - apply N2Nat.id.
Qed.

Lemma np_format12_each : forall l t, wf_bytes l -> s_start (groups t) < 2 ^ 32 -> np (format12_each Release l t).
Proof.
  intros l t W H. unfold format12_each. np; [|destruct a0 as [|[]]; np].
  match goal with H : into_iter _ _ = Ok _ |- _ => apply into_iter_release in H; rewrite H end.
  eapply np_for_each_next.
  - intros acc p. np. unfold format12_group. np. apply np_format12_loop.
    + eapply field_u32_lt; eauto.
    + eapply field_u32_lt; eauto.
    + apply N2Nat.id.
  - apply Nat.le_refl.
  - auto.
  - rewrite N2Nat.id. reflexivity.
Qed.

(** A format 12 table found by [cmap_parse] starts at a 32-bit position. *)
Definition cmap_ok (c : cmap) : Prop :=
  match c with Format4 _ => True | Format12 t => s_start (groups t) < 2 ^ 32 end.
Lemma for_each_return : forall A R step (body : A -> position -> result (flow A R)) (P : R -> Prop),
  (forall a p r, body a p = Ok (Return r) -> P r) ->
  forall fuel a i r, for_each fuel step body a i = Ok (Return r) -> P r.
Proof.
  intros A R step body P H. induction fuel as [|fuel IH]; intros a i r E; cbn [for_each] in E;
    destruct (step i) as [[[p i']|]| |]; cbn [bind] in E; try discriminate.
  destruct (body a p) as [[a'|r']| |] eqn:Bd; cbn [bind] in E; try discriminate.
  - eauto.
  - injection E as <-. eauto.
Qed.
Ltac inv_bind H := repeat match type of H with
  | bind ?r _ = Ok _ => let E := fresh "E" in destruct r eqn:E; cbn [bind] in H; try discriminate H
  end.
Lemma cmap_parse_ok : forall m l d c, cmap_parse m l d = Ok c -> cmap_ok c.
Proof.
  intros m l d c H. unfold cmap_parse in H. inv_bind H.
  destruct a3 as [u|c']; [discriminate|]. injection H as ->.
  eapply for_each_return; [|eassumption]. cbv beta. intros _ p r R. unfold cmap_record in R. inv_bind R.
  destruct ((a6 =? 3) && (a7 =? 1) && (a5 =? 4)).
  - inv_bind R. injection R as <-. exact I.
  - destruct ((a6 =? 3) && (a7 =? 10) && (a5 =? 12)); [|discriminate]. inv_bind R. injection R as <-.
    cbn [cmap_ok]. match goal with H : format12_parse _ _ _ = Ok ?t |- _ => rename H into F end.
    unfold format12_parse in F. inv_bind F. injection F as <-. cbn [groups s_start].
    eapply release_exact_lt. eassumption.
Qed.

Lemma parse_font_fields : forall m l f, parse_font m l = Ok f -> pf_bytes f = l /\ cmap_ok (pf_cmap f).
Proof.
  intros m l f H. unfold parse_font in H. inv_bind H.
  destruct (negb (a =? 1953658213) && negb (a =? 65536)); [discriminate|]. inv_bind H.
  injection H as <-. cbn [pf_bytes pf_cmap]. split; [auto|]. eapply cmap_parse_ok; eauto.
Qed.

Lemma release_safe : forall l, wf_bytes l ->
  parse_font Release l <> Panic /\
  forall f, parse_font Release l = Ok f ->
    each_code_point Release f <> Panic /\
    (forall c, glyph_id Release f c <> Panic) /\ (forall g, glyph_width Release f g <> Panic).
Proof.
  intros l W. split; [apply np_parse_font|]. intros f P. apply parse_font_fields in P as [P1 P2].
  split; [|split].
  - unfold each_code_point, cmap_each. rewrite P1.
    match goal with |- ?r <> Panic => change (np r) end. np.
    destruct (pf_cmap f); [apply np_format4_each|apply np_format12_each]; auto.
  - intro c. unfold glyph_id. match goal with |- ?r <> Panic => change (np r) end. np.
    destruct (pf_cmap f); [apply np_format4_get|apply np_format12_get]; auto.
  - intro g. unfold glyph_width, advance_width. match goal with |- ?r <> Panic => change (np r) end. np.
    destruct (s_count (pf_metrics f) =? 0); np.
Qed.

(** ** The debug build agrees with the release build or panics *)
Definition agree {A} (d r : result A) : Prop := d = Panic \/ d = r.
Lemma agree_refl : forall A (r : result A), agree r r. Proof. right. auto. Qed.
Lemma agree_bind : forall A B (d r : result A) (k k' : A -> result B), agree d r ->
  (forall a, agree (k a) (k' a)) -> agree (bind d k) (bind r k').
Proof.
  intros A B d r k k' [->| ->] H; [left; reflexivity|]. destruct r; cbn [bind]; auto; right; auto.
Qed.
Lemma agree_exact : forall w n, agree (exact Debug w n) (exact Release w n).
Proof. intros w n. unfold exact. destruct (n <? 2 ^ w); [right|left]; auto. Qed.
Lemma agree_sub : forall w a b, agree (sub_w Debug w a b) (sub_w Release w a b).
Proof. intros w a b. unfold sub_w. destruct (b <=? a); [right|left]; auto. Qed.
Create HintDb agree.
Global Hint Resolve agree_refl agree_exact agree_sub : agree.
Ltac agree := repeat (match goal with |- agree (bind _ _) (bind _ _) => apply agree_bind; [|intros]
  | |- agree (if ?b then _ else _) (if ?b then _ else _) => destruct b
  | |- agree (match ?b with Some _ => _ | None => _ end) _ => destruct b
  | |- agree (match ?b with Continue _ => _ | Return _ => _ end) _ => destruct b end); auto with agree.

Lemma agree_offset : forall s p i, agree (offset Debug s p i) (offset Release s p i).
Proof. intros. unfold offset, mul32, offset_bytes, add32. agree. Qed.
Lemma agree_field : forall s x p, agree (field Debug s x p) (field Release s x p).
Proof. intros. apply agree_exact. Qed.
Global Hint Resolve agree_offset agree_field : agree.
Lemma agree_field_u16 : forall s x l p, agree (field_u16 Debug s x l p) (field_u16 Release s x l p).
Proof. intros. unfold field_u16. agree. Qed.
Lemma agree_field_i16 : forall s x l p, agree (field_i16 Debug s x l p) (field_i16 Release s x l p).
Proof. intros. unfold field_i16. agree. Qed.
Lemma agree_field_u32 : forall s x l p, agree (field_u32 Debug s x l p) (field_u32 Release s x l p).
Proof. intros. unfold field_u32. agree. Qed.
Lemma agree_offset_bytes : forall p i, agree (offset_bytes Debug p i) (offset_bytes Release p i).
Proof. intros. apply agree_exact. Qed.
Lemma agree_followed : forall s p, agree (followed_by Debug s p) (followed_by Release s p).
Proof. intros. apply agree_exact. Qed.
Lemma agree_get : forall s i, agree (get_unchecked Debug s i) (get_unchecked Release s i).
Proof. intros. apply agree_offset. Qed.
Global Hint Resolve agree_field_u16 agree_field_i16 agree_field_u32 agree_offset_bytes agree_followed agree_get : agree.

Lemma agree_search_loop : forall (f g : N -> result comparison), (forall i, agree (f i) (g i)) ->
  forall fuel b s, agree (search_loop fuel f b s) (search_loop fuel g b s).
Proof.
  intros f g H. induction fuel as [|fuel IH]; intros b s; cbn [search_loop]; agree.
Qed.
Lemma agree_search : forall n (f g : N -> result comparison), (forall i, agree (f i) (g i)) ->
  agree (binary_search n f) (binary_search n g).
Proof. intros. unfold binary_search. agree. apply agree_search_loop. auto. Qed.
Lemma agree_find_table : forall d l t, agree (find_table Debug d l t) (find_table Release d l t).
Proof.
  intros. unfold find_table, binary_search_by_key. agree.
  apply agree_search. intros. agree.
Qed.
Lemma agree_for_each : forall A R (s s' : slice_iter -> result (option (position * slice_iter)))
  (b b' : A -> position -> result (flow A R)), (forall i, agree (s i) (s' i)) -> (forall a p, agree (b a p) (b' a p)) ->
  forall fuel a i, agree (for_each fuel s b a i) (for_each fuel s' b' a i).
Proof.
  intros A R s s' b b' H1 H2. induction fuel as [|fuel IH]; intros a i; cbn [for_each];
    (apply agree_bind; [auto|]); intros [[p i']|]; agree.
Qed.
Lemma agree_next : forall i, agree (next Debug i) (next Release i).
Proof. intros. unfold next. agree. Qed.
Lemma agree_next_back : forall i, agree (next_back Debug i) (next_back Release i).
Proof. intros. unfold next_back, sub32. agree. Qed.
Lemma agree_into_iter : forall s, agree (into_iter Debug s) (into_iter Release s).
Proof. intros. unfold into_iter. agree. Qed.
Global Hint Resolve agree_find_table agree_next agree_next_back agree_into_iter : agree.

Lemma agree_postscript_name : forall l d, agree (read_postscript_name Debug l d) (read_postscript_name Release l d).
Proof.
  intros. unfold read_postscript_name. agree. apply agree_for_each; [auto with agree|].
  intros. unfold name_record. agree.
Qed.
Lemma agree_format4_parse : forall l p, agree (format4_parse Debug l p) (format4_parse Release l p).
Proof. intros. unfold format4_parse, add32. agree. Qed.
Lemma agree_format12_parse : forall l p, agree (format12_parse Debug l p) (format12_parse Release l p).
Proof. intros. unfold format12_parse. agree. Qed.
Global Hint Resolve agree_postscript_name agree_format4_parse agree_format12_parse : agree.
Lemma agree_cmap_parse : forall l d, agree (cmap_parse Debug l d) (cmap_parse Release l d).
Proof.
  intros. unfold cmap_parse. agree. apply agree_for_each; [auto with agree|].
  intros. unfold cmap_record. agree.
Qed.
Global Hint Resolve agree_cmap_parse : agree.
Lemma agree_parse_font : forall l, agree (parse_font Debug l) (parse_font Release l).
Proof.
  intros. unfold parse_font. apply agree_bind; [auto with agree|]. intros.
  destruct (negb (a =? 1953658213) && negb (a =? 65536)); [right; auto|]. agree.
Qed.

Lemma agree_nth_u16 : forall l p i, agree (nth_u16 Debug l p i) (nth_u16 Release l p i).
Proof. intros. unfold nth_u16. agree. Qed.
Global Hint Resolve agree_nth_u16 : agree.
Lemma agree_format4_glyph : forall l t i s c,
  agree (format4_glyph_id Debug l t i s c) (format4_glyph_id Release l t i s c).
Proof. intros. unfold format4_glyph_id, sub16. agree. Qed.
Global Hint Resolve agree_format4_glyph : agree.
Lemma agree_glyph_id : forall f c, agree (glyph_id Debug f c) (glyph_id Release f c).
Proof.
  intros. unfold glyph_id. agree. destruct (pf_cmap f).
  - unfold format4_get. agree.
    apply agree_search. intros. agree.
  - unfold format12_get, sub32, add32. agree.
    apply agree_search. intros. agree.
Qed.
Lemma agree_format4_loop : forall l t i s e fuel c,
  agree (format4_loop fuel Debug l t i s e c) (format4_loop fuel Release l t i s e c).
Proof.
  intros l t i s e. induction fuel as [|fuel IH]; intro c; cbn [format4_loop]; unfold add16; agree.
Qed.
Lemma agree_format12_loop : forall s e g fuel c,
  agree (format12_loop fuel Debug s e g c) (format12_loop fuel Release s e g c).
Proof.
  intros s e g. induction fuel as [|fuel IH]; intro c; cbn [format12_loop]; unfold sub32, add32; agree.
Qed.
Global Hint Resolve agree_format4_loop agree_format12_loop : agree.
Lemma agree_each_code_point : forall f, agree (each_code_point Debug f) (each_code_point Release f).
Proof.
  intros. unfold each_code_point, cmap_each. agree. destruct (pf_cmap f).
  - unfold format4_each. generalize 0 as i. induction (N.to_nat (segment_count t)) as [|k IH]; intro i;
      cbn [format4_segments]; agree.
  - unfold format12_each. agree. apply agree_for_each; [auto with agree|]. intros. agree.
    unfold format12_group. agree.
Qed.
Lemma agree_glyph_width : forall f g, agree (glyph_width Debug f g) (glyph_width Release f g).
Proof.
  intros. unfold glyph_width, advance_width. agree.
Qed.
