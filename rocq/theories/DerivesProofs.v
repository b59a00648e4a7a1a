(** Proofs for C70. *)
From Coq Require Import QArith Permutation.
From Verif Require Import Base Dom StyleValues Derives DerivesSpec.
Local Close Scope Q_scope.
Local Open Scope N_scope.

Lemma beq_true a b : bytes_eqb a b = true <-> a = b.
Proof. unfold bytes_eqb. destruct (list_eq_dec N.eq_dec a b); split; congruence. Qed.
Lemma beq_refl a : bytes_eqb a a = true.
Proof. apply beq_true. reflexivity. Qed.
Lemma beq_false a b : bytes_eqb a b = false <-> a <> b.
Proof. unfold bytes_eqb. destruct (list_eq_dec N.eq_dec a b); split; congruence. Qed.

(** ** Keywords *)
Definition lowers (w : bytes) : Prop := Forall (fun c => 97 <= c <= 122) w.
Definition tail (ws : list bytes) : bytes := concat (map (cons 45) ws).

Lemma hyphenated_tail w ws : hyphenated (w :: ws) = w ++ tail ws.
Proof.
  revert w. induction ws as [|v ws IH]; intros w.
  - cbn. rewrite app_nil_r. reflexivity.
  - cbn [hyphenated tail map concat] in *. rewrite IH. reflexivity.
Qed.

Lemma lower_true c : is_ascii_lowercase c = true <-> 97 <= c <= 122.
Proof. unfold is_ascii_lowercase. rewrite andb_true_iff, !N.leb_le. lia. Qed.
Lemma upper_true c : is_ascii_uppercase c = true <-> 65 <= c <= 90.
Proof. unfold is_ascii_uppercase. rewrite andb_true_iff, !N.leb_le. lia. Qed.

Lemma snoc_ne (out : bytes) c : out ++ [c] <> [].
Proof. destruct out; discriminate. Qed.

Lemma loop_sound s : forall out k, out <> [] -> kebab_loop out s = Some k ->
  exists w ws, lowers w /\ Forall word ws /\ s = w ++ concat (map capitalised ws) /\ k = out ++ w ++ tail ws.
Proof.
  induction s as [|c s IH]; intros out k O H; cbn [kebab_loop] in H.
  - injection H as <-. exists [], []. repeat split; try constructor. cbn. rewrite app_nil_r. reflexivity.
  - destruct (is_ascii_lowercase c) eqn:L.
    + destruct (IH _ _ (snoc_ne _ _) H) as (w & ws & W & WS & -> & ->).
      exists (c :: w), ws. repeat split; auto.
      * constructor; auto. apply lower_true. exact L.
      * rewrite <- !app_assoc. reflexivity.
    + destruct (is_ascii_uppercase c) eqn:P; [|discriminate].
      destruct out as [|o out]; [contradiction|].
      destruct (IH _ _ (snoc_ne _ _) H) as (w & ws & W & WS & -> & ->).
      apply upper_true in P. exists [], (((c + 32) :: w) :: ws). repeat split.
      * constructor.
      * constructor; auto. split; [discriminate|]. constructor; auto. lia.
      * cbn. rewrite N.add_sub. reflexivity.
      * cbn. rewrite <- !app_assoc. reflexivity.
Qed.

Lemma loop_lowers w : forall out s, lowers w -> kebab_loop out (w ++ s) = kebab_loop (out ++ w) s.
Proof.
  induction w as [|c w IH]; intros out s L.
  - rewrite app_nil_r. reflexivity.
  - apply Forall_cons_iff in L as [C L]. cbn [app kebab_loop]. apply lower_true in C. rewrite C.
    rewrite IH by exact L. rewrite <- app_assoc. reflexivity.
Qed.

Lemma loop_words ws : forall out, out <> [] -> Forall word ws ->
  kebab_loop out (concat (map capitalised ws)) = Some (out ++ tail ws).
Proof.
  induction ws as [|w ws IH]; intros out O F.
  - cbn. rewrite app_nil_r. reflexivity.
  - apply Forall_cons_iff in F as [[N L] F]. destruct w as [|c w]; [contradiction|].
    apply Forall_cons_iff in L as [C L].
    cbn [map concat capitalised app kebab_loop].
    assert (A : is_ascii_lowercase (c - 32) = false).
    { destruct (is_ascii_lowercase (c - 32)) eqn:E; [|reflexivity]. apply lower_true in E. lia. }
    assert (B : is_ascii_uppercase (c - 32) = true) by (apply upper_true; lia).
    rewrite A, B. destruct out as [|o out]; [contradiction|].
    replace (c - 32 + 32) with c by lia. rewrite loop_lowers by exact L.
    rewrite IH by (auto; destruct out; discriminate).
    cbn. rewrite <- !app_assoc. reflexivity.
Qed.

Lemma kebab_spec s k : s <> [] -> camel_case_to_kebab_case s = Some k <-> keyword_of s k.
Proof.
  intros NE. unfold camel_case_to_kebab_case. split.
  - intros H. destruct s as [|c s]; [contradiction|]. cbn [kebab_loop] in H.
    destruct (is_ascii_lowercase c) eqn:L.
    + destruct (loop_sound _ _ _ (snoc_ne [] _) H) as (w & ws & W & WS & -> & ->).
      exists ((c :: w) :: ws). apply lower_true in L. split.
      * right. split; [constructor; auto; split; [discriminate|constructor; auto]|].
        exists (c :: w), ws. split; reflexivity.
      * rewrite hyphenated_tail. reflexivity.
    + destruct (is_ascii_uppercase c) eqn:P; [|discriminate].
      destruct (loop_sound _ _ _ (snoc_ne [] _) H) as (w & ws & W & WS & -> & ->).
      apply upper_true in P. exists (((c + 32) :: w) :: ws). split.
      * left. split; [constructor; auto; split; [discriminate|constructor; auto; lia]|].
        cbn. rewrite N.add_sub. reflexivity.
      * rewrite hyphenated_tail. reflexivity.
  - intros (ws & [[F ->]|[F (w & r & -> & ->)]] & ->).
    + destruct ws as [|w ws]; [exfalso; apply NE; reflexivity|].
      apply Forall_cons_iff in F as [[N L] F]. destruct w as [|c w]; [contradiction|].
      apply Forall_cons_iff in L as [C L].
      cbn [map concat capitalised app kebab_loop].
      assert (A : is_ascii_lowercase (c - 32) = false).
      { destruct (is_ascii_lowercase (c - 32)) eqn:E; [|reflexivity]. apply lower_true in E. lia. }
      assert (B : is_ascii_uppercase (c - 32) = true) by (apply upper_true; lia).
      rewrite A, B. replace (c - 32 + 32) with c by lia. rewrite loop_lowers by exact L.
      rewrite loop_words by (auto; discriminate). rewrite hyphenated_tail. reflexivity.
    + apply Forall_cons_iff in F as [[N L] F]. rewrite loop_lowers by exact L. cbn [app].
      rewrite loop_words by auto. rewrite hyphenated_tail. reflexivity.
Qed.

Lemma keyword_functional s k k' : s <> [] -> keyword_of s k -> keyword_of s k' -> k = k'.
Proof. intros N H H'. apply kebab_spec in H, H'; auto. congruence. Qed.

Lemma lower_not_hyphen c : 97 <= c <= 122 -> c <> 45. Proof. lia. Qed.

Lemma tail_injective w : forall w' ws ws', lowers w -> lowers w' -> Forall word ws -> Forall word ws' ->
  w ++ tail ws = w' ++ tail ws' -> w = w' /\ ws = ws'.
Proof.
  intros w' ws. revert w w'. induction ws as [|v ws IH].
  - intros w w' ws' W W' _ WS' H. cbn in H. rewrite app_nil_r in H.
    destruct ws' as [|v' ws'].
    + cbn in H. rewrite app_nil_r in H. auto.
    + exfalso. assert (I : In 45 w) by (rewrite H; apply in_or_app; right; left; reflexivity).
      unfold lowers in W. rewrite Forall_forall in W. apply W in I. lia.
  - intros w w' ws' W W' WS WS' H. apply Forall_cons_iff in WS as [V WS].
    destruct ws' as [|v' ws'].
    + exfalso. cbn [tail map concat] in H. rewrite app_nil_r in H.
      assert (I : In 45 w') by (rewrite <- H; apply in_or_app; right; left; reflexivity).
      unfold lowers in W'. rewrite Forall_forall in W'. apply W' in I. lia.
    + apply Forall_cons_iff in WS' as [V' WS'].
      assert (E : w = w' /\ v ++ tail ws = v' ++ tail ws').
      { clear IH. revert w' W' H. induction w as [|c w IHw]; intros [|c' w'] W' H.
        - injection H as H. split; [reflexivity|exact H].
        - exfalso. injection H as C _. apply Forall_cons_iff in W' as [W' _]. lia.
        - exfalso. injection H as C _. apply Forall_cons_iff in W as [W _]. lia.
        - injection H as <- H. apply Forall_cons_iff in W as [_ W]. apply Forall_cons_iff in W' as [_ W'].
          destruct (IHw W w' W' H) as [-> E]. split; [reflexivity|exact E]. }
      destruct E as [-> E]. destruct V as [_ V], V' as [_ V'].
      destruct (IH v v' ws' V V' WS WS' E) as [-> ->]. split; reflexivity.
Qed.

Lemma hyphenated_injective ws ws' : ws <> [] -> ws' <> [] -> Forall word ws -> Forall word ws' ->
  hyphenated ws = hyphenated ws' -> ws = ws'.
Proof.
  intros N N' F F' H. destruct ws as [|w ws]; [contradiction|]. destruct ws' as [|w' ws']; [contradiction|].
  rewrite !hyphenated_tail in H. apply Forall_cons_iff in F as [[_ W] F]. apply Forall_cons_iff in F' as [[_ W'] F'].
  destruct (tail_injective w w' ws ws' W W' F F' H) as [-> ->]. reflexivity.
Qed.

Lemma keywords_distinct n n' ws ws' k : n <> [] -> n' <> [] -> CamelCase n ws -> CamelCase n' ws' ->
  keyword_of n k -> keyword_of n' k -> n = n'.
Proof.
  intros N N' C C' K K'.
  assert (k = hyphenated ws) by (eapply (keyword_functional n); eauto; exists ws; auto).
  assert (E : k = hyphenated ws') by (eapply (keyword_functional n'); eauto; exists ws'; auto).
  subst k. destruct C as [F ->], C' as [F' ->].
  apply hyphenated_injective in E; auto.
  - subst. reflexivity.
  - intros ->. apply N. reflexivity.
  - intros ->. apply N'. reflexivity.
Qed.

(** ** Names of enums *)
Lemma assoc_in {A} (l : list (ident * A)) n a : assoc l n = Some a -> In (n, a) l.
Proof.
  induction l as [|[m b] l IH]; cbn [assoc]; [discriminate|].
  destruct (bytes_eqb m n) eqn:E.
  - intros H. injection H as <-. apply beq_true in E. subst. left. reflexivity.
  - intros H. right. auto.
Qed.
Lemma in_assoc {A} (l : list (ident * A)) n a : nodup_names l -> In (n, a) l -> assoc l n = Some a.
Proof.
  unfold nodup_names. induction l as [|[m b] l IH]; cbn [assoc map fst In]; [intros _ []|].
  intros ND [H|H].
  - injection H as -> ->. rewrite beq_refl. reflexivity.
  - apply NoDup_cons_iff in ND as [NI ND]. destruct (bytes_eqb m n) eqn:E; auto.
    apply beq_true in E. subst. exfalso. apply NI. apply in_map_iff. exists (n, a). auto.
Qed.
Lemma assoc_none {A} (l : list (ident * A)) n : assoc l n = None <-> ~ In n (map fst l).
Proof.
  induction l as [|[m b] l IH]; cbn [assoc map fst In]; [tauto|].
  destruct (bytes_eqb m n) eqn:E.
  - apply beq_true in E. split; [discriminate|]. intros H. exfalso. auto.
  - apply beq_false in E. rewrite IH. tauto.
Qed.

(** ** Parsing *)
Fixpoint unit_part (name : ident) (variants : list (ident * fields)) : option (list path * list bytes) :=
  match variants with
  | [] => Some ([], [])
  | (n, Unit) :: r =>
      match camel_case_to_kebab_case n, unit_part name r with
      | Some k, Some (p, ks) => Some (Path name (Some n) :: p, k :: ks)
      | _, _ => None
      end
  | (n, Unnamed [_]) :: r => unit_part name r
  | _ => None
  end.
Fixpoint field_part (name : ident) (variants : list (ident * fields)) : list path :=
  match variants with
  | [] => []
  | (n, Unnamed [_]) :: r => Path name (Some n) :: field_part name r
  | _ :: r => field_part name r
  end.

Lemma fold_none name l : fold_left (see_variant name) l None = None.
Proof. induction l; auto. Qed.

Lemma see_all name variants : forall s,
  fold_left (see_variant name) variants (Some s) =
  match unit_part name variants with
  | Some (p, ks) => Some (Seen (unit_variants s ++ p) (keywords s ++ ks) (single_field s ++ field_part name variants))
  | None => None
  end.
Proof.
  induction variants as [|[n f] r IH]; intros s.
  - cbn. rewrite !app_nil_r. destruct s; reflexivity.
  - cbn [fold_left]. unfold see_variant at 2. cbn [fst snd].
    destruct f as [|[|t [|t' l]]|l]; cbn [unit_part field_part]; try apply fold_none.
    + destruct (camel_case_to_kebab_case n) as [k|]; [|apply fold_none].
      rewrite IH. destruct (unit_part name r) as [[p ks]|]; [|reflexivity].
      cbn [unit_variants keywords single_field]. rewrite <- !app_assoc. reflexivity.
    + rewrite IH. destruct (unit_part name r) as [[p ks]|]; [|reflexivity].
      cbn [unit_variants keywords single_field]. rewrite <- !app_assoc. reflexivity.
Qed.

Lemma unit_part_length name variants p ks : unit_part name variants = Some (p, ks) -> length p = length ks.
Proof.
  revert p ks. induction variants as [|[n f] r IH]; intros p ks H; cbn [unit_part] in H.
  - injection H as <- <-. reflexivity.
  - destruct f as [|[|t [|t' l]]|l]; try discriminate; auto.
    destruct (camel_case_to_kebab_case n); [|discriminate].
    destruct (unit_part name r) as [[p' ks']|]; [|discriminate]. injection H as <- <-. cbn. f_equal. auto.
Qed.

Section Parsing.
Context {U : Type}.
Variable parse_ty : ty -> parser U.
Variable d : derive_input.
Variable variants : list (ident * fields).
Hypothesis data : di_data d = Enum variants.
Hypothesis nodup : nodup_names variants.
Hypothesis named : forall n f, In (n, f) variants -> n <> [].

Lemma fields_of_in n f : In (n, f) variants -> fields_of d (Path (di_name d) (Some n)) = Some f.
Proof. intros I. cbn. rewrite beq_refl, data. apply in_assoc; auto. Qed.

(** The fields of a suffix of the variants *)
Lemma run_fields l : forall before code ts v r, variants = before ++ l ->
  run_parse U parse_ty d (map TryField (field_part (di_name d) l) ++ code) ts = Some (v, r) <->
  (exists b n t a x, l = b ++ (n, Unnamed [t]) :: a /\ parse_ty t ts = Some (x, r) /\
     (forall n' t', has_field b n' t' -> parse_ty t' ts = None) /\
     v = Value (Path (di_name d) (Some n)) (CTuple [x])) \/
  ((forall n' t', has_field l n' t' -> parse_ty t' ts = None) /\ run_parse U parse_ty d code ts = Some (v, r)).
Proof.
  induction l as [|[n f] l IH]; intros before code ts v r V.
  - cbn [field_part map app]. split.
    + intros H. right. split; [intros ? ? []|exact H].
    + intros [(b & n & t & a & x & E & _)|[_ H]]; [destruct b; discriminate|exact H].
  - assert (V' : variants = (before ++ [(n, f)]) ++ l) by (rewrite <- app_assoc; exact V).
    assert (Skip : (forall t, f <> Unnamed [t]) ->
      ((exists b n0 t a x, l = b ++ (n0, Unnamed [t]) :: a /\ parse_ty t ts = Some (x, r) /\
         (forall n' t', has_field b n' t' -> parse_ty t' ts = None) /\
         v = Value (Path (di_name d) (Some n0)) (CTuple [x])) \/
       ((forall n' t', has_field l n' t' -> parse_ty t' ts = None) /\ run_parse U parse_ty d code ts = Some (v, r)))
      <->
      ((exists b n0 t a x, (n, f) :: l = b ++ (n0, Unnamed [t]) :: a /\ parse_ty t ts = Some (x, r) /\
         (forall n' t', has_field b n' t' -> parse_ty t' ts = None) /\
         v = Value (Path (di_name d) (Some n0)) (CTuple [x])) \/
       ((forall n' t', has_field ((n, f) :: l) n' t' -> parse_ty t' ts = None) /\
        run_parse U parse_ty d code ts = Some (v, r)))).
    { intros NF. split.
      - intros [(b & n0 & t & a & x & -> & P & B & ->)|[A H]].
        + left. exists ((n, f) :: b), n0, t, a, x. split; [reflexivity|]. split; [exact P|]. split; [|reflexivity].
          intros n' t' [I|I]; [|eapply B; exact I]. inversion I. subst. exfalso. eapply NF. reflexivity.
        + right. split; [|exact H]. intros n' t' [I|I]; [|eapply A; exact I].
          inversion I. subst. exfalso. eapply NF. reflexivity.
      - intros [(b & n0 & t & a & x & E & P & B & ->)|[A H]].
        + left. destruct b as [|b0 b].
          * inversion E. subst. exfalso. eapply NF. reflexivity.
          * inversion E. subst. exists b, n0, t, a, x. split; [reflexivity|]. split; [exact P|]. split; [|reflexivity].
            intros n' t' I. eapply B. right. exact I.
        + right. split; [|exact H]. intros n' t' I. eapply A. right. exact I. }
    destruct f as [|[|t [|t2 tl]]|nl]; cbn [field_part map app];
      try (rewrite (IH _ code ts v r V'); apply Skip; intros; discriminate).
    clear Skip. cbn [run_parse].
    rewrite (fields_of_in n (Unnamed [t])) by (rewrite V; apply in_or_app; right; left; reflexivity).
    destruct (parse_ty t ts) as [[x r']|] eqn:P.
    + split.
      * intros H. inversion H. subst. left. exists [], n, t, l, x. split; [reflexivity|]. split; [exact P|].
        split; [intros ? ? []|reflexivity].
      * intros [(b & n0 & t0 & a & x0 & E & P0 & B & ->)|[A H]].
        -- destruct b as [|b0 b].
           ++ inversion E. subst. rewrite P in P0. inversion P0. reflexivity.
           ++ inversion E. subst. exfalso. rewrite (B n t) in P by (left; reflexivity). discriminate.
        -- exfalso. rewrite (A n t) in P by (left; reflexivity). discriminate.
    + rewrite (IH _ code ts v r V'). split.
      * intros [(b & n0 & t0 & a & x & -> & P0 & B & ->)|[A H]].
        -- left. exists ((n, Unnamed [t]) :: b), n0, t0, a, x. split; [reflexivity|]. split; [exact P0|].
           split; [|reflexivity]. intros n' t' [I|I]; [|eapply B; exact I]. inversion I. subst. exact P.
        -- right. split; [|exact H]. intros n' t' [I|I]; [|eapply A; exact I]. inversion I. subst. exact P.
      * intros [(b & n0 & t0 & a & x & E & P0 & B & ->)|[A H]].
        -- left. destruct b as [|b0 b].
           ++ inversion E. subst. rewrite P in P0. discriminate.
           ++ inversion E. subst. exists b, n0, t0, a, x. split; [reflexivity|]. split; [exact P0|].
              split; [|reflexivity]. intros n' t' I. eapply B. right. exact I.
        -- right. split; [|exact H]. intros n' t' I. eapply A. right. exact I.
Qed.

Lemma unit_arms l : forall before p ks k q, variants = before ++ l ->
  unit_part (di_name d) l = Some (p, ks) ->
  assoc (combine ks p) k = Some q <->
  exists b n a, l = b ++ (n, Unit) :: a /\ q = Path (di_name d) (Some n) /\ keyword_of n k /\
    forall n', In (n', Unit) b -> ~ keyword_of n' k.
Proof.
  induction l as [|[n f] l IH]; intros before p ks k q V H; cbn [unit_part] in H.
  - injection H as <- <-. split; [discriminate|]. intros (b & n & a & E & _). destruct b; discriminate.
  - assert (V' : variants = (before ++ [(n, f)]) ++ l) by (rewrite <- app_assoc; exact V).
    assert (I : In (n, f) variants) by (rewrite V; apply in_or_app; right; left; reflexivity).
    assert (NE := named _ _ I).
    destruct f as [|[|t [|t2 tl]]|nl]; try discriminate.
    + destruct (camel_case_to_kebab_case n) as [k0|] eqn:K; [|discriminate].
      destruct (unit_part (di_name d) l) as [[p' ks']|] eqn:P; [|discriminate]. injection H as <- <-.
      apply kebab_spec in K; [|exact NE]. cbn [combine assoc].
      destruct (bytes_eqb k0 k) eqn:E.
      * apply beq_true in E. subst k0. split.
        -- intros H. injection H as <-. exists [], n, l. split; [reflexivity|]. split; [reflexivity|]. split; [exact K|].
           intros n' [].
        -- intros (b & n0 & a & E & -> & K0 & B). destruct b as [|b0 b].
           ++ inversion E. subst. reflexivity.
           ++ inversion E. subst. exfalso. apply (B n); [left; reflexivity|exact K].
      * apply beq_false in E. rewrite (IH _ _ _ k q V' eq_refl). split.
        -- intros (b & n0 & a & -> & -> & K0 & B). exists ((n, Unit) :: b), n0, a. split; [reflexivity|].
           split; [reflexivity|]. split; [exact K0|]. intros n' [J|J]; [|apply B; exact J].
           inversion J. subst. intros K1. apply E. eapply keyword_functional; eauto.
        -- intros (b & n0 & a & E0 & -> & K0 & B). destruct b as [|b0 b].
           ++ inversion E0. subst. exfalso. apply E. eapply keyword_functional; eauto.
           ++ inversion E0. subst. exists b, n0, a. split; [reflexivity|]. split; [reflexivity|]. split; [exact K0|].
              intros n' J. apply B. right. exact J.
    + rewrite (IH _ _ _ k q V' H). split.
      * intros (b & n0 & a & -> & -> & K0 & B). exists ((n, Unnamed [t]) :: b), n0, a. split; [reflexivity|].
        split; [reflexivity|]. split; [exact K0|]. intros n' [J|J]; [inversion J|apply B; exact J].
      * intros (b & n0 & a & E0 & -> & K0 & B). destruct b as [|b0 b]; [inversion E0|].
        inversion E0. subst. exists b, n0, a. split; [reflexivity|]. split; [reflexivity|]. split; [exact K0|].
        intros n' J. apply B. right. exact J.
Qed.

Lemma run_idents p ks ts v r : unit_part (di_name d) variants = Some (p, ks) ->
  run_parse U parse_ty d (match p with [] => [] | q :: l => [TryIdent (combine ks (q :: l))] end) ts = Some (v, r) <->
  exists k q, ts = TIdent k :: r /\ assoc (combine ks p) k = Some q /\ v = Value q CUnit.
Proof.
  intros H. destruct p as [|p0 p].
  - apply unit_part_length in H. destruct ks; [|discriminate]. cbn. split; [discriminate|].
    intros (k & q & _ & E & _). discriminate.
  - cbn [run_parse]. split.
    + destruct ts as [|[i| | | | |] ts]; try discriminate. destruct (assoc _ i) as [q|] eqn:E; [|discriminate].
      intros X. inversion X. subst. exists i, q. auto.
    + intros (k & q & -> & E & ->). rewrite E. reflexivity.
Qed.

Lemma parse_spec code : derive_parse d = Some code -> forall ts v r,
  run_parse U parse_ty d code ts = Some (v, r) <-> parsed parse_ty (di_name d) variants ts v r.
Proof.
  unfold derive_parse. rewrite data, see_all. cbn [unit_variants keywords single_field app].
  destruct (unit_part (di_name d) variants) as [[p ks]|] eqn:P; [|discriminate].
  cbn [unit_variants keywords single_field]. intros H ts v r. injection H as <-.
  rewrite (run_fields variants [] _ ts v r eq_refl). rewrite (run_idents p ks ts v r P). split.
  - intros [(b & n & t & a & x & E & X & B & ->)|[N (k & q & -> & A & ->)]].
    + econstructor; eauto.
    + apply (unit_arms variants [] p ks k q eq_refl P) in A as (b & n & a & E & -> & K & B).
      econstructor 2; eauto.
  - intros [b n t a x r' E X B|b n a k r' N -> E K B].
    + left. exists b, n, t, a, x. auto.
    + right. split; [exact N|]. exists k, (Path (di_name d) (Some n)). split; [reflexivity|]. split; [|reflexivity].
      apply (unit_arms variants [] p ks k _ eq_refl P). exists b, n, a. auto.
Qed.

Lemma parse_none : unit_part (di_name d) variants = None <-> ~ Forall parseable_variant variants.
Proof.
  clear data nodup. induction variants as [|[n f] l IH]; cbn [unit_part].
  - split; [discriminate|]. intros H. exfalso. apply H. constructor.
  - assert (named' : forall n f, In (n, f) l -> n <> []) by (intros; eapply named; right; eauto).
    specialize (IH named'). assert (NE : n <> []) by (eapply named; left; reflexivity).
    rewrite Forall_cons_iff. unfold parseable_variant at 1. cbn [fst snd].
    destruct f as [|[|t [|t2 tl]]|nl].
    + destruct (camel_case_to_kebab_case n) as [k|] eqn:K.
      * apply kebab_spec in K; [|exact NE]. destruct (unit_part (di_name d) l) as [[]|].
        -- split; [discriminate|]. intros H. exfalso. destruct IH as [_ IH].
           assert (X : ~ ~ Forall parseable_variant l) by (intros X; specialize (IH X); discriminate).
           apply X. intros F. apply H. split; [left; split; [reflexivity|exists k; exact K]|exact F].
        -- split; [|reflexivity]. intros _ [_ F]. destruct IH as [IH _]. apply (IH eq_refl F).
      * split; [|reflexivity]. intros _ [[[_ (k & H)]|(t & H)] _]; [|discriminate].
        apply kebab_spec in H; [|exact NE]. congruence.
    + split; [|reflexivity]. intros _ [[[H _]|(t & H)] _]; discriminate.
    + rewrite IH. split; intros H F; apply H; [|split; [right; exists t; reflexivity|exact F]].
      destruct F as [_ F]. exact F.
    + split; [|reflexivity]. intros _ [[[H _]|(t' & H)] _]; discriminate.
    + split; [|reflexivity]. intros _ [[[H _]|(t & H)] _]; discriminate.
Qed.
End Parsing.

Lemma derive_parse_none d : (forall l n f, di_data d = Enum l -> In (n, f) l -> n <> []) -> di_name d <> [] ->
  derive_parse d = None <-> ~ parseable d.
Proof.
  intros N NE. unfold derive_parse, parseable. destruct (di_data d) as [f|variants|] eqn:D.
  - destruct f as [|l|l].
    + destruct (camel_case_to_kebab_case (di_name d)) as [k|] eqn:K.
      * apply kebab_spec in K; [|exact NE]. split; [discriminate|]. intros H. exfalso. apply H. right. eauto.
      * split; [|reflexivity]. intros _ [(l & H & _)|[_ (k & H)]]; [discriminate|].
        apply kebab_spec in H; [|exact NE]. congruence.
    + split; [|reflexivity]. intros _ [(x & H & _)|[H _]]; discriminate.
    + split; [|reflexivity]. intros _ [(x & H & _)|[H _]]; discriminate.
  - rewrite see_all. cbn [unit_variants keywords single_field app].
    pose proof (parse_none d variants (fun n f => N variants n f eq_refl)) as P.
    destruct (unit_part (di_name d) variants) as [[p ks]|].
    + split; [discriminate|]. intros H. exfalso. apply H. left. exists variants. split; [reflexivity|].
      destruct P as [_ P]. apply Forall_forall. intros v I.
      assert (X : ~ ~ Forall parseable_variant variants) by (intros X; specialize (P X); discriminate).
      exfalso. apply X. intros F. apply H. left. eauto.
    + split; [|reflexivity]. intros _ [(l & H & F)|[H _]]; [|discriminate]. injection H as <-.
      destruct P as [P _]. apply (P eq_refl F).
  - split; [|reflexivity]. intros _ [(x & H & _)|[H _]]; discriminate.
Qed.

Lemma parse_struct {U} (parse_ty : ty -> parser U) d code : di_data d = Struct Unit -> di_name d <> [] ->
  derive_parse d = Some code -> forall ts v r,
  run_parse U parse_ty d code ts = Some (v, r) <->
  exists k, keyword_of (di_name d) k /\ ts = TIdent k :: r /\ v = Value (Path (di_name d) None) CUnit.
Proof.
  unfold derive_parse. intros D NE. rewrite D.
  destruct (camel_case_to_kebab_case (di_name d)) as [k|] eqn:K; [|discriminate].
  intros H. injection H as <-. intros ts v r. cbn [single_field unit_variants keywords map app combine run_parse assoc].
  apply kebab_spec in K; [|exact NE]. split.
  - destruct ts as [|[i| | | | |] ts]; try discriminate. destruct (bytes_eqb k i) eqn:E; [|discriminate].
    apply beq_true in E. subst i. intros H. inversion H. subst. eauto.
  - intros (k' & K' & -> & ->). rewrite (keyword_functional _ _ _ NE K' K). rewrite beq_refl. reflexivity.
Qed.

(** ** FromVariants *)
Lemma list_eqb_true {A} (eqb : A -> A -> bool) : (forall a b, eqb a b = true <-> a = b) ->
  forall a b, list_eqb eqb a b = true <-> a = b.
Proof.
  intros E. induction a as [|x a IH]; intros [|y b]; cbn [list_eqb]; try (split; congruence).
  rewrite andb_true_iff, E, IH. split; [intros [-> ->]; reflexivity|]. intros H. injection H as -> ->. auto.
Qed.
Lemma ty_eqb_true a b : ty_eqb a b = true <-> a = b.
Proof.
  destruct a as [q s|t], b as [q' s'|t']; cbn [ty_eqb]; try (split; congruence).
  - rewrite andb_true_iff, Bool.eqb_true_iff, (list_eqb_true _ beq_true). split; [intros [-> ->]; reflexivity|].
    intros H. injection H as -> ->. auto.
  - rewrite beq_true. split; congruence.
Qed.
Lemma distinct_true l : distinct l = true <-> NoDup l.
Proof.
  induction l as [|t l IH]; cbn [distinct].
  - split; [constructor|reflexivity].
  - rewrite andb_true_iff, IH, negb_true_iff, NoDup_cons_iff.
    assert (E : existsb (ty_eqb t) l = false <-> ~ In t l).
    { rewrite <- not_true_iff_false, existsb_exists. split.
      - intros H I. apply H. exists t. split; [exact I|]. apply ty_eqb_true. reflexivity.
      - intros H (x & I & X). apply ty_eqb_true in X. subst. auto. }
    rewrite E. tauto.
Qed.

Definition variant_impls (name : ident) (variants : list (ident * fields)) : list from_impl :=
  flat_map (fun v => match snd v with
                     | Unnamed [t] => [FromImpl t (Path name (Some (fst v)))]
                     | _ => []
                     end) variants.
Lemma in_variant_impls name variants i :
  In i (variant_impls name variants) <-> exists n t, has_field variants n t /\ i = FromImpl t (Path name (Some n)).
Proof.
  unfold variant_impls. rewrite in_flat_map. split.
  - intros ([n f] & I & H). cbn [fst snd] in H. destruct f as [|[|t [|]]|]; try contradiction.
    destruct H as [<-|[]]. exists n, t. auto.
  - intros (n & t & I & ->). exists (n, Unnamed [t]). split; [exact I|]. left. reflexivity.
Qed.
Lemma derive_from_variants_enum d variants : di_data d = Enum variants ->
  derive_from_variants d =
  match variant_impls (di_name d) variants with [] => None | i => Some i end.
Proof. intros D. unfold derive_from_variants. rewrite D. fold (variant_impls (di_name d) variants).
  cbv zeta. destruct (variant_impls (di_name d) variants); reflexivity. Qed.

Lemma from_variants_none d : derive_from_variants d = None <->
  forall variants n t, di_data d = Enum variants -> ~ has_field variants n t.
Proof.
  destruct (di_data d) as [f|variants|] eqn:D.
  - unfold derive_from_variants. rewrite D. split; [intros _ v n t E; discriminate|reflexivity].
  - rewrite (derive_from_variants_enum d variants D).
    destruct (variant_impls (di_name d) variants) as [|i l] eqn:V.
    + split; [|reflexivity]. intros _ v n t E I. injection E as <-.
      assert (X : In (FromImpl t (Path (di_name d) (Some n))) (variant_impls (di_name d) variants)).
      { apply in_variant_impls. eauto. }
      rewrite V in X. exact X.
    + split; [discriminate|]. intros H. exfalso.
      assert (X : In i (variant_impls (di_name d) variants)) by (rewrite V; left; reflexivity).
      apply in_variant_impls in X as (n & t & I & _). apply (H variants n t eq_refl I).
  - unfold derive_from_variants. rewrite D. split; [intros _ v n t E; discriminate|reflexivity].
Qed.

Lemma from_variants_some d impls : derive_from_variants d = Some impls ->
  exists variants, di_data d = Enum variants /\ impls = variant_impls (di_name d) variants.
Proof.
  intros H. destruct (di_data d) as [f|variants|] eqn:D.
  - unfold derive_from_variants in H. rewrite D in H. discriminate.
  - exists variants. split; [reflexivity|]. rewrite (derive_from_variants_enum d variants D) in H.
    destruct (variant_impls (di_name d) variants); [discriminate|]. injection H as <-. reflexivity.
  - unfold derive_from_variants in H. rewrite D in H. discriminate.
Qed.

Lemma nodup_map_inj {A B} (f : A -> B) l x y : NoDup (map f l) -> In x l -> In y l -> f x = f y -> x = y.
Proof.
  induction l as [|a l IH]; cbn [map In]; [intros _ []|]. intros ND [->|X] [->|Y] E; auto.
  - apply NoDup_cons_iff in ND as [N _]. exfalso. apply N. rewrite E. apply in_map. exact Y.
  - apply NoDup_cons_iff in ND as [N _]. exfalso. apply N. rewrite <- E. apply in_map. exact X.
  - apply NoDup_cons_iff in ND as [_ ND]. auto.
Qed.

Lemma run_from_spec {U} d impls : derive_from_variants d = Some impls -> accepts_from_variants d impls = true ->
  forall variants, di_data d = Enum variants -> forall t (x : U) v,
  run_from impls t x = Some v <->
  exists n, has_field variants n t /\ v = Value (Path (di_name d) (Some n)) (CTuple [x]).
Proof.
  intros H A variants D t x v. destruct (from_variants_some d impls H) as (v' & D' & ->).
  rewrite D in D'. injection D' as <-.
  unfold accepts_from_variants in A. apply distinct_true in A. apply NoDup_cons_iff in A as [_ A].
  unfold run_from. destruct (find _ _) as [i|] eqn:F.
  - apply find_some in F as [I E]. apply ty_eqb_true in E.
    pose proof I as I'. apply in_variant_impls in I' as (n & t' & Hn & ->). cbn [fi_type] in E. subst t'.
    cbn [fi_variant]. split.
    + intros X. inversion X. eauto.
    + intros (m & Hm & ->).
      assert (J : In (FromImpl t (Path (di_name d) (Some m))) (variant_impls (di_name d) variants)).
      { apply in_variant_impls. eauto. }
      pose proof (nodup_map_inj fi_type _ _ _ A I J eq_refl) as Q. inversion Q. reflexivity.
  - split; [discriminate|]. intros (n & I & ->). exfalso.
    assert (J : In (FromImpl t (Path (di_name d) (Some n))) (variant_impls (di_name d) variants)).
    { apply in_variant_impls. eauto. }
    apply (find_none _ _ F) in J. cbn [fi_type] in J.
    assert (Q : ty_eqb t t = true) by (apply ty_eqb_true; reflexivity). congruence.
Qed.

Lemma accepts_from_spec d impls : derive_from_variants d = Some impls ->
  forall variants, di_data d = Enum variants -> nodup_names variants ->
  accepts_from_variants d impls = true <->
  (forall n, ~ has_field variants n (TyPath false [di_name d])) /\
  (forall n m t, has_field variants n t -> has_field variants m t -> n = m).
Proof.
  intros H variants D ND. destruct (from_variants_some d impls H) as (v' & D' & ->).
  rewrite D in D'. injection D' as <-.
  unfold accepts_from_variants. rewrite distinct_true, NoDup_cons_iff.
  assert (I : forall t, In t (map fi_type (variant_impls (di_name d) variants)) <-> exists n, has_field variants n t).
  { intros t. rewrite in_map_iff. split.
    - intros (i & <- & J). apply in_variant_impls in J as (n & t & J & ->). exists n. exact J.
    - intros (n & J). exists (FromImpl t (Path (di_name d) (Some n))). split; [reflexivity|]. apply in_variant_impls. eauto. }
  rewrite I. split.
  - intros [A B]. split.
    + intros n J. apply A. eauto.
    + intros n m t N M.
      pose proof (nodup_map_inj fi_type _ (FromImpl t (Path (di_name d) (Some n))) (FromImpl t (Path (di_name d) (Some m))) B)
        as Q.
      specialize (Q ltac:(apply in_variant_impls; eauto) ltac:(apply in_variant_impls; eauto) eq_refl).
      inversion Q. reflexivity.
  - intros [A B]. split; [intros (n & J); eapply A; exact J|].
    clear I A H D. unfold nodup_names in ND. revert B. induction variants as [|[n f] l IH]; intros B.
    + constructor.
    + apply NoDup_cons_iff in ND as [NI ND].
      assert (B' : forall n0 m t, has_field l n0 t -> has_field l m t -> n0 = m).
      { intros n0 m t X Y. eapply B; right; eauto. }
      specialize (IH ND B'). destruct f as [|[|t [|t2 tl]]|nl]; cbn [variant_impls flat_map fst snd app map]; auto.
      constructor; auto. cbn [fi_type]. intros J. apply in_map_iff in J as (i & E & J).
      apply in_variant_impls in J as (m & t' & J & ->). cbn [fi_type] in E. subst t'.
      assert (n = m) by (eapply B; [left; reflexivity|right; exact J]). subst m.
      apply NI. apply in_map_iff. exists (n, Unnamed [t]). auto.
Qed.
