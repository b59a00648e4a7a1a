(** UTF-8 decoding and the table of names *)
From Coq Require Import Lia.
From Verif Require Import Base PdfConvert FontParsing FontCmap FontSpec FontProofs FontCmapProofs FontSafetyProofs FontParseProofs NameSpec.
Local Open Scope N_scope.
Local Open Scope res_scope.

(** ** UTF-8 *)
Lemma in_range_iff : forall lo hi b, in_range lo hi b = true <-> lo <= b <= hi.
Proof. intros. unfold in_range. rewrite andb_true_iff, !N.leb_le. reflexivity. Qed.
(** The rest [l] of the bytes of a character that begins with [b] *)
Definition complete (b : N) (l : bytes) : Prop :=
  (b < 128 /\ l = []) \/
  exists lo hi n c got, second b = Some (lo, hi, n) /\ l = c :: got /\ lo <= c <= hi /\ length got = n /\ Forall (fun x => 128 <= x <= 191) got.
Lemma second_cases : forall b lo hi n, second b = Some (lo, hi, n) ->
  (194 <= b <= 223 /\ lo = 128 /\ hi = 191 /\ n = 0%nat) \/
  (b = 224 /\ lo = 160 /\ hi = 191 /\ n = 1%nat) \/
  ((225 <= b <= 236 \/ 238 <= b <= 239) /\ lo = 128 /\ hi = 191 /\ n = 1%nat) \/
  (b = 237 /\ lo = 128 /\ hi = 159 /\ n = 1%nat) \/
  (b = 240 /\ lo = 144 /\ hi = 191 /\ n = 2%nat) \/
  (241 <= b <= 243 /\ lo = 128 /\ hi = 191 /\ n = 2%nat) \/
  (b = 244 /\ lo = 128 /\ hi = 143 /\ n = 2%nat).
Proof.
  intros b lo hi n H. unfold second in H.
  repeat match type of H with
  | (if ?c then _ else _) = _ => let E := fresh "E" in destruct c eqn:E
  end; try discriminate; injection H as <- <- <-;
  repeat match goal with
  | E : _ || _ = true |- _ => apply orb_true_iff in E
  | E : in_range _ _ _ = true \/ in_range _ _ _ = true |- _ => rewrite !in_range_iff in E
  | E : in_range _ _ _ = true |- _ => apply in_range_iff in E
  | E : (_ =? _) = true |- _ => apply N.eqb_eq in E
  end; intuition lia.
Qed.
Lemma second_of : forall b,
  (194 <= b <= 223 -> second b = Some (128, 191, 0%nat)) /\
  (b = 224 -> second b = Some (160, 191, 1%nat)) /\
  (225 <= b <= 236 \/ 238 <= b <= 239 -> second b = Some (128, 191, 1%nat)) /\
  (b = 237 -> second b = Some (128, 159, 1%nat)) /\
  (b = 240 -> second b = Some (144, 191, 2%nat)) /\
  (241 <= b <= 243 -> second b = Some (128, 191, 2%nat)) /\
  (b = 244 -> second b = Some (128, 143, 2%nat)).
Proof.
  assert (T : forall lo hi b, lo <= b <= hi -> in_range lo hi b = true) by (intros; apply in_range_iff; assumption).
  assert (F : forall lo hi b, ~ (lo <= b <= hi) -> in_range lo hi b = false).
  { intros lo hi b H. destruct (in_range lo hi b) eqn:E; [|reflexivity]. apply in_range_iff in E. contradiction. }
  intro b. unfold second. repeat split; intros H; try (subst b; reflexivity);
  repeat match goal with
  | |- context [in_range ?lo ?hi b] => first [rewrite (T lo hi b) by lia | rewrite (F lo hi b) by lia]
  | |- context [b =? ?k] => destruct (N.eqb_spec b k); [exfalso; lia|]
  end; cbn [orb]; try reflexivity.
  destruct H as [H|H].
  - rewrite (T 225 236 b H). reflexivity.
  - rewrite (T 238 239 b H), orb_true_r. reflexivity.
Qed.
Lemma complete_of : forall c e, utf8_of c e -> exists b l, e = b :: l /\ complete b l.
Proof.
  intros c e H. destruct H as [a H|a b Hb H|a b c Hb Hc H Hs|a b c d Hb Hc Hd H]; eexists; eexists; (split; [reflexivity|]).
  - left. auto.
  - right. destruct (second_of (192 + a)) as (S & _). exists 128, 191, 0%nat, (128 + b), []. rewrite S by lia. repeat (split; [first [reflexivity|lia]|]). constructor.
  - right. destruct (second_of (224 + a)) as (_ & S0 & S1 & S2 & _).
    assert (G : Forall (fun x => 128 <= x <= 191) [128 + c]) by (repeat constructor; lia).
    destruct (N.eq_dec a 0) as [Ea|Ea]; [exists 160, 191, 1%nat, (128 + b), [128 + c]; rewrite S0 by lia; repeat (split; [first [reflexivity|lia]|]); exact G|].
    destruct (N.eq_dec a 13) as [Eb|Eb]; [exists 128, 159, 1%nat, (128 + b), [128 + c]; rewrite S2 by lia; repeat (split; [first [reflexivity|lia]|]); exact G|].
    exists 128, 191, 1%nat, (128 + b), [128 + c]. rewrite S1 by lia. repeat (split; [first [reflexivity|lia]|]). exact G.
  - right. destruct (second_of (240 + a)) as (_ & _ & _ & _ & S0 & S1 & S2).
    assert (G : Forall (fun x => 128 <= x <= 191) [128 + c; 128 + d]) by (repeat constructor; lia).
    destruct (N.eq_dec a 0) as [Ea|Ea]; [exists 144, 191, 2%nat, (128 + b), [128 + c; 128 + d]; rewrite S0 by lia; repeat (split; [first [reflexivity|lia]|]); exact G|].
    destruct (N.eq_dec a 4) as [Eb|Eb]; [exists 128, 143, 2%nat, (128 + b), [128 + c; 128 + d]; rewrite S2 by lia; repeat (split; [first [reflexivity|lia]|]); exact G|].
    exists 128, 191, 2%nat, (128 + b), [128 + c; 128 + d]. rewrite S1 by lia. repeat (split; [first [reflexivity|lia]|]). exact G.
Qed.
Lemma of_complete : forall b l, complete b l -> exists c, utf8_of c (b :: l).
Proof.
  intros b l [[H ->]|(lo & hi & n & c & got & S & -> & Hc & Hn & Hg)]; [exists b; constructor; exact H|].
  apply second_cases in S.
  assert (X : (194 <= b <= 223 /\ n = 0%nat /\ 128 <= c <= 191) \/
    (224 <= b <= 239 /\ n = 1%nat /\ 128 <= c <= 191 /\ 2048 <= 4096 * (b - 224) + 64 * (c - 128) /\ (4096 * (b - 224) + 64 * (c - 128) + 63 < 55296 \/ 57343 < 4096 * (b - 224) + 64 * (c - 128))) \/
    (240 <= b <= 244 /\ n = 2%nat /\ 128 <= c <= 191 /\ 65536 <= 262144 * (b - 240) + 4096 * (c - 128) /\ 262144 * (b - 240) + 4096 * (c - 128) + 4095 <= 1114111)) by intuition lia.
  destruct X as [(X1 & X2 & X3)|[(X1 & X2 & X3 & X4 & X5)|(X1 & X2 & X3 & X4 & X5)]]; rewrite X2 in Hn.
  - destruct got; [|discriminate]. exists (64 * (b - 192) + (c - 128)).
    replace [b; c] with [192 + (b - 192); 128 + (c - 128)] by (repeat (f_equal; try lia)). constructor; lia.
  - destruct got as [|d [|? ?]]; try discriminate. apply Forall_cons_iff in Hg as [Hd _]. exists (4096 * (b - 224) + 64 * (c - 128) + (d - 128)).
    replace [b; c; d] with [224 + (b - 224); 128 + (c - 128); 128 + (d - 128)] by (repeat (f_equal; try lia)). constructor; lia.
  - destruct got as [|d [|e [|? ?]]]; try discriminate. apply Forall_cons_iff in Hg as [Hd Hg]. apply Forall_cons_iff in Hg as [He _].
    exists (262144 * (b - 240) + 4096 * (c - 128) + 64 * (d - 128) + (e - 128)).
    replace [b; c; d; e] with [240 + (b - 240); 128 + (c - 128); 128 + (d - 128); 128 + (e - 128)] by (repeat (f_equal; try lia)). constructor; lia.
Qed.
(** No two characters have the same bytes, and the bytes of none begin those of another *)
Lemma complete_prefix : forall b l l' r r', complete b l -> complete b l' -> l ++ r = l' ++ r' -> l = l' /\ r = r'.
Proof.
  intros b l l' r r' H H' E.
  assert (S0 : b < 128 -> second b = None).
  { intros L. destruct (second b) as [[[? ?] ?]|] eqn:S; [|reflexivity]. apply second_cases in S. intuition lia. }
  destruct H as [[H ->]|(lo & hi & n & c & got & S & -> & Hc & Hn & Hg)]; destruct H' as [[H' ->]|(lo' & hi' & n' & c' & got' & S' & -> & Hc' & Hn' & Hg')].
  - auto.
  - rewrite S0 in S' by exact H. discriminate.
  - rewrite S0 in S by exact H'. discriminate.
  - rewrite S in S'. injection S' as <- <- <-. cbn [app] in E. injection E as <- E.
    assert (L : length got = length got') by congruence. clear - E L. revert got' E L. induction got as [|x got IH]; intros [|y got'] E L; try discriminate L; [auto|].
    cbn [app] in E. injection E as <- E. destruct (IH got' E) as [I J]; [cbn [length] in L; lia|]. injection I as <-. auto.
Qed.
Lemma utf8_code : forall c c' e, utf8_of c e -> utf8_of c' e -> c = c'.
Proof. 
  intros c c' e H H'. remember e as e' eqn:E in H'. 
  assert (E0 : nth 0 e 0 = nth 0 e' 0 /\ nth 1 e 0 = nth 1 e' 0 /\ nth 2 e 0 = nth 2 e' 0 /\ nth 3 e 0 = nth 3 e' 0 /\ length e = length e') by (subst; auto).
  clear E. destruct H; destruct H'; cbn [nth length] in E0; lia.
Qed.
Lemma utf8_prefix : forall c c' e e' r r', utf8_of c e -> utf8_of c' e' -> e ++ r = e' ++ r' -> c = c' /\ e = e' /\ r = r'.
Proof.
  intros c c' e e' r r' H H' E. destruct (complete_of _ _ H) as (b & l & -> & C). destruct (complete_of _ _ H') as (b' & l' & -> & C').
  cbn [app] in E. injection E as <- E. destruct (complete_prefix _ _ _ _ _ C C' E) as [<- <-]. split; [exact (utf8_code _ _ _ H H')|auto].
Qed.
Lemma utf8_not_nil : forall c e, utf8_of c e -> e <> [].
Proof. intros c e H ->. inversion H. Qed.

(** A decomposition into what is replaced is unique. *)
Lemma app_split : forall A (a b c d : list A), a ++ b = c ++ d -> length a = length c -> a = c /\ b = d.
Proof.
  intros A. induction a as [|x a IH]; intros b [|y c] d E L; try discriminate L; [auto|].
  cbn [app] in E. injection E as <- E. destruct (IH b c d E) as [-> ->]; [cbn [length] in L; lia|auto].
Qed.
Lemma read_as_unique : forall l cs cs', read_as l cs -> read_as l cs' -> cs = cs'.
Proof.
  intros l cs cs' H. revert cs'. induction H as [|c e l cs U H IH|bad l cs N X B M H IH]; intros cs' H'.
  - inversion H' as [|c e l cs U H1 E1|bad l cs N X B M H1 E1]; [reflexivity| |].
    + apply app_eq_nil in E1 as [E1 _]. destruct (utf8_not_nil _ _ U E1).
    + exfalso. assert (E0 := E1). apply app_eq_nil in E0 as [E0 _]. apply N. rewrite E1. exact E0.
  - inversion H' as [E1|c' e' l' cs0 U' H1 E1 E2|bad l' cs0 N X B M H1 E1 E2].
    + symmetry in E1. apply app_eq_nil in E1 as [E1 _]. destruct (utf8_not_nil _ _ U E1).
    + destruct (utf8_prefix _ _ _ _ _ _ U' U E1) as (<- & _ & ->). f_equal. apply IH. exact H1.
    + destruct (X _ _ _ U E1).
  - inversion H' as [E1|c' e' l' cs0 U' H1 E1 E2|bad' l' cs0 N' X' B' M' H1 E1 E2].
    + symmetry in E1. apply app_eq_nil in E1 as [E1 _]. contradiction.
    + destruct (X _ _ _ U' (eq_sym E1)).
    + assert (L : length bad = length bad').
      { destruct (Nat.lt_trichotomy (length bad) (length bad')) as [Lt|[Eq|Gt]]; [|exact Eq|].
        - destruct B' as [B'|B']; [destruct (M _ _ (eq_sym E1) Lt B')|]. destruct bad; [contradiction|]. cbn [length] in *. lia.
        - destruct B as [B|B]; [destruct (M' _ _ E1 Gt B)|]. destruct bad'; [contradiction|]. cbn [length] in *. lia. }
      destruct (app_split _ _ _ _ _ E1 (eq_sym L)) as [-> ->]. f_equal. apply IH. exact H1.
Qed.

(** ** [lossy] *)
Lemma continuation_spec : forall n l got rest ok, continuation n l = (got, rest, ok) ->
  l = got ++ rest /\ Forall (fun x => 128 <= x <= 191) got /\
  (if ok then length got = n else (length got < n)%nat /\ forall x r, rest = x :: r -> ~ (128 <= x <= 191)).
Proof.
  induction n as [|n IH]; intros l got rest ok H; cbn [continuation] in H.
  - injection H as <- <- <-. auto.
  - destruct l as [|b r]; [injection H as <- <- <-; split; [reflexivity|]; split; [constructor|]; split; [cbn [length]; lia|discriminate]|].
    destruct (in_range 128 191 b) eqn:E.
    + destruct (continuation n r) as [[g t] k] eqn:C. injection H as <- <- <-. destruct (IH _ _ _ _ C) as (-> & F & K).
      apply in_range_iff in E. split; [reflexivity|]. split; [constructor; assumption|]. destruct k; cbn [length]; [lia|]. split; [lia|apply K].
    + injection H as <- <- <-. split; [reflexivity|]. split; [constructor|]. split; [cbn [length]; lia|].
      intros x r' Ex. injection Ex as <- <-. intros X. apply in_range_iff in X. congruence.
Qed.
Lemma replacement_of : utf8_of 65533 (utf8 replacement).
Proof. change (utf8 replacement) with [224 + 15; 128 + 63; 128 + 61]. change 65533 with (4096 * 15 + 64 * 63 + 61). constructor; lia. Qed.
Lemma begins_of : forall b l, (b < 128 \/ exists x, second b = Some x) -> (forall lo hi n, second b = Some (lo, hi, n) ->
    match l with [] => True | c :: got => lo <= c <= hi /\ (length got <= n)%nat /\ Forall (fun x => 128 <= x <= 191) got end) ->
  (b < 128 -> l = []) -> begins (b :: l).
Proof.
  intros b l H1 H2 H3. destruct (N.ltb_spec b 128) as [L|L].
  - destruct (of_complete b []) as [c C]; [left; auto|]. exists c, []. rewrite (H3 L), app_nil_r. exact C.
  - destruct H1 as [H1|[[[lo hi] n] S]]; [lia|]. specialize (H2 _ _ _ S). destruct l as [|c got].
    + destruct (of_complete b (lo :: repeat 128 n)) as [c C].
      { right. exists lo, hi, n, lo, (repeat 128 n). split; [exact S|]. split; [reflexivity|]. split; [apply second_cases in S; intuition lia|]. split; [apply repeat_length|].
        apply Forall_forall. intros x Hx. apply repeat_spec in Hx. lia. }
      exists c, (lo :: repeat 128 n). exact C.
    + destruct H2 as (R & G & F). destruct (of_complete b (c :: got ++ repeat 128 (n - length got))) as [k C].
      { right. exists lo, hi, n, c, (got ++ repeat 128 (n - length got)). split; [exact S|]. split; [reflexivity|]. split; [exact R|].
        split; [rewrite app_length, repeat_length; lia|]. apply Forall_app. split; [exact F|]. apply Forall_forall. intros x Hx. apply repeat_spec in Hx. lia. }
      exists k, (repeat 128 (n - length got)). exact C.
Qed.
Lemma begun : forall p, begins p -> p <> [] -> exists b r e k, p = b :: r /\ complete b e /\ e = r ++ k.
Proof.
  intros [|b r] (c & q & U) H; [contradiction|]. destruct (complete_of _ _ U) as (b' & e & E & C). cbn [app] in E. injection E as <- <-.
  exists b, r, (r ++ q), q. auto.
Qed.
Lemma lossy_read : forall fuel l, (length l <= fuel)%nat -> exists cs, read_as l cs /\ utf8_text cs (lossy fuel l).
Proof.
  assert (Bad : forall b bad l cs out, 128 <= b ->
    ((exists x, second b = Some x) \/ bad = []) ->
    (forall lo hi n, second b = Some (lo, hi, n) ->
      match bad with
      | [] => forall c r, l = c :: r -> ~ (lo <= c <= hi)
      | c :: got => lo <= c <= hi /\ (length got < n)%nat /\ Forall (fun x => 128 <= x <= 191) got /\ forall x r, l = x :: r -> ~ (128 <= x <= 191)
      end) ->
    read_as l cs -> utf8_text cs out -> exists cs', read_as ((b :: bad) ++ l) cs' /\ utf8_text cs' (utf8 replacement ++ out)).
  { intros b bad l cs out L Hs Hb R T. exists (65533 :: cs). split; [|constructor; [apply replacement_of|exact T]].
    assert (NL : ~ b < 128) by lia.
    assert (X : forall e k, complete b e -> forall r k', e = r ++ k -> bad ++ l = r ++ k' -> (length r <= length bad)%nat /\ k <> []).
    { intros e k [[C _]|(lo & hi & n & c & got & S & -> & Rc & Ln & F)] r k' E E'; [contradiction|]. specialize (Hb _ _ _ S). destruct bad as [|c0 got0].
      - destruct r as [|x r].
        + split; [cbn [length]; lia|]. cbn [app] in E. subst k. discriminate.
        + cbn [app] in E, E'. injection E as <- E. destruct (Hb _ _ E' Rc).
      - destruct Hb as (Rc0 & Lg & F0 & Fl). cbn [length].
        destruct r as [|x r]; [split; [cbn [length]; lia|]; cbn [app] in E; subst k; discriminate|].
        cbn [app] in E, E'. injection E as <- E. injection E' as -> E'.
        assert (Q : (length r <= length got0)%nat).
        { destruct (Nat.le_gt_cases (length r) (length got0)) as [Q|Q]; [exact Q|exfalso].
          assert (E2 := f_equal (fun y => nth_error y (length got0)) E').
          cbv beta in E2. rewrite nth_error_app2 in E2 by lia. rewrite Nat.sub_diag in E2. rewrite nth_error_app1 in E2 by exact Q.
          destruct (nth_error r (length got0)) as [y|] eqn:Y; [|apply nth_error_None in Y; lia].
          destruct l as [|z l']; [discriminate|]. cbn [nth_error] in E2. injection E2 as ->.
          apply (Fl _ _ eq_refl). rewrite E in F. apply nth_error_In in Y. rewrite Forall_forall in F. apply F. apply in_or_app. left. exact Y. }
        split; [cbn [length]; lia|]. intros ->. rewrite app_nil_r in E. subst got. lia. }
    apply read_bad; [discriminate| | | |exact R].
    - intros c e k U E. destruct (complete_of _ _ U) as (b' & e' & -> & C). cbn [app] in E. injection E as <- E.
      destruct (X e' [] C e' k) as [_ Y]; [rewrite app_nil_r; reflexivity|exact E|]. contradiction.
    - destruct Hs as [Hs| ->]; [left|right; reflexivity]. apply begins_of; [right; exact Hs| |intros; contradiction].
      intros lo hi n S. specialize (Hb _ _ _ S). destruct bad as [|c got]; [exact I|]. destruct Hb as (H1 & H2 & H3 & _). repeat split; try lia; assumption.
    - intros p k E Lp B. destruct (begun p B) as (b' & r & e & q & -> & C & Ee); [intros ->; cbn [length] in Lp; lia|].
      cbn [app] in E. injection E as <- E. destruct (X e q C r k Ee E) as [Y _]. cbn [length] in Lp. lia. }
  induction fuel as [|fuel IH]; intros l Hl.
  - destruct l; [|cbn [length] in Hl; lia]. exists []. split; constructor.
  - destruct l as [|b r]; [exists []; split; constructor|]. cbn [length] in Hl. cbn [lossy].
    destruct (N.ltb_spec b 128) as [L|L].
    { destruct (IH r) as (cs & R & T); [lia|]. exists (b :: cs). change (b :: r) with ([b] ++ r). change (b :: lossy fuel r) with ([b] ++ lossy fuel r). split; constructor; auto; constructor; exact L. }
    destruct (second b) as [[[lo hi] n]|] eqn:S.
    2:{ destruct (IH r) as (cs & R & T); [lia|]. apply (Bad b [] r cs _ L); auto. intros; congruence. }
    destruct r as [|c r'].
    { rewrite <- (app_nil_r (utf8 replacement)). apply (Bad b [] [] [] [] L); [auto| |constructor|constructor]. intros; discriminate. }
    destruct (in_range lo hi c) eqn:E.
    + apply in_range_iff in E. destruct (continuation n r') as [[got rest] ok] eqn:K. destruct (continuation_spec _ _ _ _ _ K) as (-> & F & O).
      destruct (IH rest) as (cs & R & T); [cbn [length] in Hl; rewrite app_length in Hl; lia|]. destruct ok.
      * destruct (of_complete b (c :: got)) as [k U]; [right; exists lo, hi, n, c, got; auto|].
        exists (k :: cs). change (b :: c :: got ++ rest) with ((b :: c :: got) ++ rest). change (b :: c :: got ++ lossy fuel rest) with ((b :: c :: got) ++ lossy fuel rest).
        split; constructor; assumption.
      * destruct O as [O1 O2]. change (b :: c :: got ++ rest) with ((b :: c :: got) ++ rest). apply (Bad b (c :: got) rest cs _ L); [eauto| |exact R|exact T].
        intros lo' hi' n' S'. rewrite S in S'. injection S' as <- <- <-. auto.
    + destruct (IH (c :: r')) as (cs & R & T); [lia|]. apply (Bad b [] (c :: r') cs _ L); [auto| |exact R|exact T].
      intros lo' hi' n' S' x y Ex. injection Ex as <- <-. rewrite S in S'. injection S' as <- <- <-. intros X. apply in_range_iff in X. congruence.
Qed.

(** ** Two bytes for each character *)
Lemma utf8_spec : forall c, c < 256 -> utf8_of c (utf8 c).
Proof.
  intros c H. unfold utf8. destruct (N.ltb_spec c 128); [constructor; assumption|]. destruct (N.ltb_spec c 2048); [|lia].
  assert (D := N.div_mod c 64 ltac:(discriminate)). assert (M := N.mod_lt c 64 ltac:(discriminate)).
  rewrite D at 1. constructor; lia.
Qed.
Lemma decode_ucs2_spec : forall s, Forall (fun b => b < 256) s -> exists cs, units_as s cs /\ utf8_text cs (decode_ucs2 s).
Proof.
  assert (G : forall n s, (length s <= n)%nat -> Forall (fun b => b < 256) s -> exists cs, units_as s cs /\ utf8_text cs (decode_ucs2 s)).
  { induction n as [|n IH]; intros s L F.
    - destruct s; [exists []; split; constructor|cbn [length] in L; lia].
    - destruct s as [|h [|c s]]; [exists []; split; constructor| |].
      + exists [65533]. split; [constructor|]. cbn [decode_ucs2]. rewrite <- (app_nil_r (utf8 replacement)). constructor; [apply replacement_of|constructor].
      + apply Forall_cons_iff in F as [_ F]. apply Forall_cons_iff in F as [Fc F]. destruct (IH s) as (cs & U & T); [cbn [length] in L; lia|exact F|].
        cbn [decode_ucs2]. destruct (N.eqb_spec h 0) as [->|Nh].
        * exists (c :: cs). split; [constructor; exact U|]. constructor; [apply utf8_spec; exact Fc|exact T].
        * exists (65533 :: cs). split; [constructor; assumption|]. constructor; [apply replacement_of|exact T]. }
  intros s. apply (G (length s)). lia.
Qed.

(** ** The table of names *)
Section Table.
  Variable m : build.
  Variable f : bytes.
  Variable table : N.
  Hypothesis W : wf_bytes f.
  Hypothesis A : addressable f.
  Hypothesis L : table + 2 ^ 20 < 2 ^ 32.
  Lemma string_wf : forall n p s, string_at f p n = Some s -> Forall (fun b => b < 256) s.
  Proof.
    induction n as [|n IH]; intros p s H; cbn [string_at] in H.
    - destruct (p <=? _); [|discriminate]. injection H as <-. constructor.
    - destruct (byte_at f p) as [b|] eqn:B; [|discriminate]. destruct (string_at f (p + 1) n) as [r|] eqn:R; [|discriminate]. injection H as <-.
      constructor; [|exact (IH _ _ R)]. unfold byte_at in B. apply nth_error_In in B. unfold wf_bytes in W. rewrite Forall_forall in W. exact (W _ B).
  Qed.
  Lemma string_error : forall p n, string_at f p (N.to_nat n) = None ->
    slice_read f (mkSlice p n 1) = Err OffsetBeyondEof \/ slice_read f (mkSlice p n 1) = Err OffsetPlusLengthBeyondEof.
  Proof. intros p n H. destruct (slice_read_outcome 1 n f p) as [(_ & v & _ & E)|[(_ & E & _)|(_ & E & _)]]; [congruence|auto|auto]. Qed.
  Lemma name_record_ok : forall storage i n, storage < 65536 -> name_at f table storage i = Some n ->
    (postscript_name n = false -> name_record m f (table + storage) (table + 6 + 12 * i) = Ok (Continue tt)) /\
    (postscript_name n = true -> forall s, characters f n = Some s -> exists cs out, name_read_as n s cs /\ utf8_text cs out /\
       name_record m f (table + storage) (table + 6 + 12 * i) = Ok (Return out)) /\
    (postscript_name n = true -> characters f n = None -> exists e, (e = OffsetBeyondEof \/ e = OffsetPlusLengthBeyondEof) /\
       name_record m f (table + storage) (table + 6 + 12 * i) = Err e).
  Proof.
    intros storage i n Hs H. unfold name_at in H. set (p := table + 6 + 12 * i) in *.
    destruct (u16_at f (p + 0)) as [pl|] eqn:E0; [|discriminate]. destruct (u16_at f (p + 2)) as [en|] eqn:E2; [|discriminate].
    destruct (u16_at f (p + 6)) as [id|] eqn:E6; [|discriminate]. destruct (u16_at f (p + 8)) as [le|] eqn:E8; [|discriminate].
    destruct (u16_at f (p + 10)) as [o|] eqn:E10; [|discriminate]. injection H as <-.
    assert (Ho := u16_at_bound _ _ _ W E10).
    unfold name_record. 
    rewrite (field_u16_ok m NameRecord "name_id" f p 6 id A eq_refl E6), (field_u16_ok m NameRecord "platform_id" f p 0 pl A eq_refl E0),
      (field_u16_ok m NameRecord "encoding_id" f p 2 en A eq_refl E2), (field_u16_ok m NameRecord "string_offset" f p 10 o A eq_refl E10),
      (field_u16_ok m NameRecord "length" f p 8 le A eq_refl E8). cbn [bind].
    unfold offset_bytes, add32. rewrite exact_ok by (change (2 ^ 20) with 1048576 in L; lia). cbn [bind].
    unfold postscript_name, characters, name_read_as. cbn [fn_id fn_platform fn_encoding fn_length fn_address].
    destruct (id =? 6); cbn [negb andb]; [|split; [reflexivity|split; discriminate]].
    destruct (pl =? 1) eqn:P1; cbn [orb].
    - split; [discriminate|]. split.
      + intros _ s S. destruct (outcome_ok _ _ _ _ (slice_read_outcome 1 le) f (table + storage + o) s S) as [R _]. cbv beta in R. rewrite R. cbn [bind].
        destruct (lossy_read (length s) s (Nat.le_refl _)) as (cs & C & T). exists cs, (decode_macintosh s). auto.
      + intros _ S. destruct (string_error _ _ S) as [E|E]; rewrite E; cbn [bind]; eauto.
    - destruct ((pl =? 3) && (en =? 1)); [|split; [reflexivity|split; discriminate]]. split; [discriminate|]. split.
      + intros _ s S. destruct (outcome_ok _ _ _ _ (slice_read_outcome 1 le) f (table + storage + o) s S) as [R _]. cbv beta in R. rewrite R. cbn [bind].
        destruct (decode_ucs2_spec s (string_wf _ _ _ S)) as (cs & C & T). exists cs, (decode_ucs2 s). auto.
      + intros _ S. destruct (string_error _ _ S) as [E|E]; rewrite E; cbn [bind]; eauto.
  Qed.
  Definition outcome_of (l : list font_name) (r : result (flow unit bytes)) : Prop :=
    (find postscript_name l = None -> r = Ok (Continue tt)) /\
    (forall n, find postscript_name l = Some n -> forall s, characters f n = Some s -> exists cs out, name_read_as n s cs /\ utf8_text cs out /\ r = Ok (Return out)) /\
    (forall n, find postscript_name l = Some n -> characters f n = None -> exists e, (e = OffsetBeyondEof \/ e = OffsetPlusLengthBeyondEof) /\ r = Err e).
  Lemma walk_names : forall storage, storage < 65536 -> forall k i l, all (map (name_at f table storage) (map N.of_nat (seq i k))) = Some l ->
    outcome_of l (walk (fun _ record => name_record m f (table + storage) record) tt (forward (table + 6 + 12 * N.of_nat i) 12 k)).
  Proof.
    intros storage Hs. induction k as [|k IH]; intros i l H; cbn [seq map all] in H.
    - injection H as <-. cbn [forward walk]. split; [reflexivity|]. split; discriminate.
    - destruct (name_at f table storage (N.of_nat i)) as [n|] eqn:E; [|discriminate].
      destruct (all (map (name_at f table storage) (map N.of_nat (seq (S i) k)))) as [r|] eqn:R; [|discriminate]. injection H as <-.
      specialize (IH _ _ R). replace (table + 6 + 12 * N.of_nat (S i)) with (table + 6 + 12 * N.of_nat i + 12) in IH by lia.
      cbn [forward walk]. destruct (name_record_ok _ _ _ Hs E) as (R1 & R2 & R3). unfold outcome_of. cbn [find]. destruct (postscript_name n).
      + split; [discriminate|]. split.
        * intros n' En s S. injection En as <-. destruct (R2 eq_refl s S) as (cs & out & C & T & Q). exists cs, out. rewrite Q. auto.
        * intros n' En S. injection En as <-. destruct (R3 eq_refl S) as (e & He & Q). exists e. rewrite Q. auto.
      + rewrite (R1 eq_refl). cbn [bind]. exact IH.
  Qed.
  Lemma read_name : forall d l, directory f = Some d -> In (bs "name", table) d -> tags_sorted d -> names f table = Some l ->
    exists r, outcome_of l r /\
    read_postscript_name m f (dir_of (N.of_nat (length d))) = (r <- r ;; match r with Return s => Ok s | Continue _ => Err NoSupportedPostscriptName end).
  Proof.
    intros d l D I T Hn.
    assert (U : u16_at f 4 = Some (N.of_nat (length d))).
    { unfold directory in D. destruct (u16_at f 4) as [n|]; [|discriminate]. f_equal. destruct (all_indices _ _ _ _ D) as (X & _). auto. }
    destruct (find_table_entries m f d (bs "name") W U D T) as [F _]. specialize (F _ I).
    unfold names in Hn. destruct (u16_at f (table + 2)) as [n|] eqn:E2; [|discriminate]. destruct (u16_at f (table + 4)) as [storage|] eqn:E4; [|discriminate].
    assert (Bn := u16_at_bound _ _ _ W E2). assert (Bs := u16_at_bound _ _ _ W E4). change (2 ^ 20) with 1048576 in L.
    exists (walk (fun _ record => name_record m f (table + storage) record) tt (forward (table + 6) 12 (N.to_nat n))). split.
    - rewrite <- (N.add_0_r (table + 6)). change 0 with (12 * N.of_nat 0). apply walk_names; [exact Bs|exact Hn].
    - unfold read_postscript_name. rewrite F. cbn [bind]. unfold followed_by, offset_bytes, add32. change (size_of NamingTableHeader) with 6. rewrite exact_ok by lia. cbn [bind].
      rewrite (field_u16_ok m NamingTableHeader "count" f table 2 n A eq_refl E2), (field_u16_ok m NamingTableHeader "string_offset" f table 4 storage A eq_refl E4). cbn [bind].
      rewrite exact_ok by lia. cbn [bind]. change (size_of NameRecord) with 12. rewrite into_iter_ok by (cbn [s_start s_size s_count]; lia). cbn [bind s_start s_size s_count].
      rewrite <- (N2Nat.id n) at 2. rewrite for_each_next by lia. reflexivity.
  Qed.
End Table.
