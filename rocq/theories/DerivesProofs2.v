(** Proofs for C70: computing, and tables. *)
From Coq Require Import QArith Permutation.
From Verif Require Import Base Dom StyleValues Derives DerivesSpec DerivesProofs.
Local Close Scope Q_scope.
Local Open Scope N_scope.

(** ** FromSpecified *)
Lemma same_variant_true a b : same_variant a b = true <-> a = b.
Proof. destruct a, b; cbn [same_variant]; try (split; congruence). rewrite beq_true. split; congruence. Qed.

Lemma fields_of_declared d p f : wf_declaration d -> fields_of d p = Some f <-> declared d p f.
Proof.
  intros W. destruct p as [n [v|]]; cbn [fields_of declared].
  - destruct (bytes_eqb (di_name d) n) eqn:E.
    + apply beq_true in E. subst n. unfold wf_declaration in W. destruct (di_data d) as [g|l|]; split.
      * discriminate.
      * intros (_ & l & H & _). discriminate.
      * intros H. split; [reflexivity|]. exists l. split; [reflexivity|]. apply assoc_in. exact H.
      * intros (_ & l' & H & I). injection H as <-. apply in_assoc; [apply W|exact I].
      * discriminate.
      * intros (_ & l & H & _). discriminate.
    + apply beq_false in E. split; [discriminate|]. intros [H _]. congruence.
  - destruct (bytes_eqb (di_name d) n) eqn:E.
    + apply beq_true in E. subst n. destruct (di_data d) as [g|l|]; split; try discriminate.
      * intros H. injection H as <-. auto.
      * intros [_ H]. injection H as <-. reflexivity.
      * intros [_ H]. discriminate.
      * intros [_ H]. discriminate.
    + apply beq_false in E. split; [discriminate|]. intros [H _]. congruence.
Qed.

Definition binding_of (f : fields) : binding :=
  match f with Unit => BUnit | Unnamed l => BTuple (length l) | Named l => BNamed (map fst l) end.
Definition shapes (d : derive_input) : list (option ident * fields) :=
  match di_data d with
  | Struct f => [(None, f)]
  | Enum l => map (fun v => (Some (fst v), snd v)) l
  | Union => []
  end.
Lemma derive_shapes d : di_data d <> Union ->
  derive_from_specified d =
  Some (bs "Specified" ++ di_name d, map (fun x => Arm (fst x) (binding_of (snd x))) (shapes d)).
Proof.
  unfold derive_from_specified, shapes, gen_variant, binding_of. destruct (di_data d) as [f|l|]; intros H.
  - reflexivity.
  - rewrite map_map. cbn [fst snd]. reflexivity.
  - congruence.
Qed.
Lemma in_shapes d v f : In (v, f) (shapes d) <-> declared d (Path (di_name d) v) f.
Proof.
  unfold shapes. destruct v as [v|]; cbn [declared]; destruct (di_data d) as [g|l|]; cbn [In].
  - split; [intros [H|[]]; discriminate|]. intros (_ & l & H & _). discriminate.
  - rewrite in_map_iff. split.
    + intros ([n g] & E & I). cbn [fst snd] in E. inversion E. subst. split; [reflexivity|]. exists l. auto.
    + intros (_ & l' & H & I). injection H as <-. exists (v, f). auto.
  - split; [intros []|]. intros (_ & l & H & _). discriminate.
  - split; [intros [H|[]]; inversion H; auto|]. intros [_ H]. injection H as <-. left. reflexivity.
  - rewrite in_map_iff. split; [intros ([n g] & E & I); discriminate|]. intros [_ H]. discriminate.
  - split; [intros []|]. intros [_ H]. discriminate.
Qed.

Lemma fits_spec s c : wf_fields s -> wf_fields c -> fits (binding_of c) s = true <-> same_fields s c.
Proof.
  intros W W'. destruct c as [|l|l], s as [|l'|l']; cbn [binding_of fits same_fields]; try (split; [discriminate|tauto]).
  - tauto.
  - rewrite Nat.eqb_eq. split; congruence.
  - cbn [wf_fields] in W, W'. unfold nodup_names in *.
    rewrite andb_true_iff, Nat.eqb_eq, forallb_forall, map_length. split.
    + intros [L A]. apply Permutation_sym. apply NoDup_Permutation_bis; auto.
      * rewrite !map_length. lia.
      * intros n I. apply A in I. apply existsb_exists in I as ([m t] & J & E). apply beq_true in E. cbn [fst] in E. subst.
        apply in_map_iff. exists (n, t). auto.
    + intros P. split.
      * apply Permutation_length in P. rewrite !map_length in P. congruence.
      * intros n I. apply (Permutation_in _ (Permutation_sym P)) in I. apply in_map_iff in I as ([m t] & E & J).
        cbn [fst] in E. subst m. apply existsb_exists. exists (n, t). split; [exact J|]. apply beq_refl.
Qed.

Lemma declared_wf d p f : wf_declaration d -> declared d p f -> wf_fields f.
Proof.
  unfold wf_declaration. destruct p as [n [v|]]; cbn [declared].
  - intros W (_ & l & D & I). rewrite D in W. destruct W as [_ W]. rewrite Forall_forall in W. apply (W _ I).
  - intros W [_ D]. rewrite D in W. exact W.
Qed.

Lemma accepts_spec s d code : wf_declaration s -> wf_declaration d -> derive_from_specified d = Some code ->
  accepts_from_specified s code = true <-> corresponds s d.
Proof.
  intros WS WD H.
  assert (NU : di_data d <> Union).
  { intros E. unfold derive_from_specified in H. rewrite E in H. discriminate. }
  rewrite (derive_shapes d NU) in H. injection H as <-. unfold accepts_from_specified. cbn [fst snd].
  rewrite !andb_true_iff, beq_true, !forallb_forall, negb_true_iff, Nat.eqb_neq, map_length.
  assert (Arms : (forall a, In a (map (fun x => Arm (fst x) (binding_of (snd x))) (shapes d)) ->
      match fields_of s (Path (bs "Specified" ++ di_name d) (arm_variant a)) with
      | Some f => fits (arm_binding a) f | None => false end = true) <->
    forall v f', declared d (Path (di_name d) v) f' ->
      exists f, declared s (Path (bs "Specified" ++ di_name d) v) f /\ same_fields f f').
  { split.
    - intros A v f' D'. specialize (A (Arm v (binding_of f'))).
      rewrite in_map_iff in A. specialize (A ltac:(exists (v, f'); split; [reflexivity|]; apply in_shapes; exact D')).
      cbn [arm_variant arm_binding] in A.
      destruct (fields_of s _) as [f|] eqn:F; [|discriminate]. apply fields_of_declared in F; [|exact WS].
      exists f. split; [exact F|]. apply fits_spec; [apply (declared_wf _ _ _ WS F)|apply (declared_wf _ _ _ WD D')|exact A].
    - intros A a I. apply in_map_iff in I as ([v f'] & <- & I). apply in_shapes in I. cbn [fst snd arm_variant arm_binding].
      destruct (A v f' I) as (f & F & S). pose proof F as F'. apply fields_of_declared in F; [|exact WS]. rewrite F.
      apply fits_spec; [apply (declared_wf _ _ _ WS F')|apply (declared_wf _ _ _ WD I)|exact S]. }
  rewrite Arms. clear Arms.
  assert (Ex : forall v, existsb (fun a => same_variant (arm_variant a) v)
      (map (fun x => Arm (fst x) (binding_of (snd x))) (shapes d)) = true <->
      exists f', declared d (Path (di_name d) v) f').
  { intros v. rewrite existsb_exists. split.
    - intros (a & I & E). apply in_map_iff in I as ([w f'] & <- & I). cbn [fst snd arm_variant] in E.
      apply same_variant_true in E. subst w. exists f'. apply in_shapes. exact I.
    - intros (f' & D'). apply in_shapes in D'. exists (Arm v (binding_of f')). split.
      + apply in_map_iff. exists (v, f'). auto.
      + apply same_variant_true. reflexivity. }
  unfold corresponds. split.
  - intros [[[N A] B] L]. split; [exact (eq_sym N)|].
    destruct (di_data s) as [f|l|] eqn:DS.
    + destruct (di_data d) as [f'|l'|] eqn:DD; [| |congruence].
      * destruct (A None f') as (g & G & S). { split; [reflexivity|exact DD]. }
        cbn [declared] in G. destruct G as [_ G]. rewrite DS in G. injection G as <-. exact S.
      * destruct l' as [|[n f'] l']; [cbn in L; unfold shapes in L; rewrite DD in L; cbn in L; lia|].
        destruct (A (Some n) f') as (g & G & S). { split; [reflexivity|]. eexists. split; [exact DD|]. left. reflexivity. }
        cbn [declared] in G. destruct G as (_ & l & G & _). congruence.
    + destruct (di_data d) as [f'|l'|] eqn:DD; [| |congruence].
      * destruct (A None f') as (g & G & S). { split; [reflexivity|exact DD]. }
        cbn [declared] in G. destruct G as [_ G]. congruence.
      * split; [|split].
        -- intros ->. unfold shapes in L. rewrite DD in L. cbn in L. lia.
        -- intros n. split.
           ++ intros I. apply in_map_iff in I as ([m f] & <- & I). cbn [fst].
              specialize (B (Some m)). rewrite Ex in B. destruct B as (f' & D').
              { apply in_map_iff. exists (m, f). auto. }
              cbn [declared] in D'. destruct D' as (_ & l2 & D2 & I2). rewrite DD in D2. injection D2 as <-.
              apply in_map_iff. exists (m, f'). auto.
           ++ intros I. apply in_map_iff in I as ([m f'] & <- & I). cbn [fst].
              destruct (A (Some m) f') as (g & G & _). { split; [reflexivity|]. exists l'. auto. }
              cbn [declared] in G. destruct G as (_ & l2 & D2 & I2). rewrite DS in D2. injection D2 as <-.
              apply in_map_iff. exists (m, g). auto.
        -- intros n f f' I I'. destruct (A (Some n) f') as (g & G & S). { split; [reflexivity|]. exists l'. auto. }
           cbn [declared] in G. destruct G as (_ & l2 & D2 & I2). rewrite DS in D2. injection D2 as <-.
           unfold wf_declaration in WS. rewrite DS in WS. destruct WS as [ND _].
           apply in_assoc in I; auto. apply in_assoc in I2; auto. rewrite I in I2. injection I2 as <-. exact S.
    + exfalso. destruct (di_data d) as [f'|l'|] eqn:DD; [| |congruence].
      * destruct (A None f') as (g & G & S). { split; [reflexivity|exact DD]. }
        cbn [declared] in G. destruct G as [_ G]. congruence.
      * destruct l' as [|[n f'] l']; [cbn in L; unfold shapes in L; rewrite DD in L; cbn in L; lia|].
        destruct (A (Some n) f') as (g & G & S). { split; [reflexivity|]. eexists. split; [exact DD|]. left. reflexivity. }
        cbn [declared] in G. destruct G as (_ & l & G & _). congruence.
  - intros [N C]. destruct (di_data s) as [f|l|] eqn:DS; [| |contradiction];
      (destruct (di_data d) as [f'|l'|] eqn:DD; [| |contradiction]); try contradiction.
    + split; [split; [split|]|].
      * exact (eq_sym N).
      * intros [v|] g G; cbn [declared] in G.
        -- destruct G as (_ & l & G & _). congruence.
        -- destruct G as [_ G]. rewrite DD in G. injection G as <-. exists f. split; [|exact C]. split; [exact (eq_sym N)|exact DS].
      * intros v [<-|[]]. apply Ex. exists f'. cbn. auto.
      * unfold shapes. rewrite DD. cbn. lia.
    + destruct C as (NE & SN & SF). split; [split; [split|]|].
      * exact (eq_sym N).
      * intros [v|] g G; cbn [declared] in G.
        -- destruct G as (_ & l2 & G & I). rewrite DD in G. injection G as <-.
           assert (J : In v (map fst l)). { apply SN. apply in_map_iff. exists (v, g). auto. }
           apply in_map_iff in J as ([m f] & E & J). cbn [fst] in E. subst m.
           exists f. split; [|eapply SF; eauto]. split; [exact (eq_sym N)|]. exists l. auto.
        -- destruct G as [_ G]. congruence.
      * intros v I. apply in_map_iff in I as ([m f] & <- & I). cbn [fst]. apply Ex.
        assert (J : In m (map fst l')). { apply SN. apply in_map_iff. exists (m, f). auto. }
        apply in_map_iff in J as ([m' f'] & E & J). cbn [fst] in E. subst m'. exists f'. cbn. split; auto. exists l'. auto.
      * unfold shapes. rewrite DD. destruct l'; [congruence|cbn; lia].
Qed.

Section Computing.
Context {S C : Type}.
Variable compute_ty : ty -> S -> C.

Lemma named_fields vs l : nodup_names vs -> (forall n, In n (map fst l) -> In n (map fst vs)) ->
  exists r, all_some (map (compute_named S C compute_ty vs) l) = Some r /\ map fst r = map fst l /\
    forall n t x, In (n, t) l -> In (n, x) vs -> In (n, compute_ty t x) r.
Proof.
  intros ND. induction l as [|[n t] l IH]; intros H.
  - exists []. repeat split; try reflexivity. intros ? ? ? [].
  - destruct IH as (r & A & B & D). { intros m I. apply H. right. exact I. }
    cbn [map all_some]. unfold compute_named at 1. cbn [fst snd].
    destruct (assoc vs n) as [x|] eqn:E.
    + rewrite A. exists ((n, compute_ty t x) :: r). split; [reflexivity|]. split; [cbn; congruence|].
      intros m t' y [I|I] J.
      * inversion I. subst. apply in_assoc in J; auto. rewrite E in J. injection J as <-. left. reflexivity.
      * right. eapply D; eauto.
    + exfalso. apply assoc_none in E. apply E. apply H. left. reflexivity.
Qed.

Lemma tuple_fields (l : list ty) (vs : list S) : length vs = length l ->
  length (map (fun x => compute_ty (fst x) (snd x)) (combine l vs)) = length l /\
  forall i t x, nth_error l i = Some t -> nth_error vs i = Some x ->
    nth_error (map (fun x => compute_ty (fst x) (snd x)) (combine l vs)) i = Some (compute_ty t x).
Proof.
  intros L. split; [rewrite map_length, combine_length; lia|].
  revert vs L. induction l as [|t l IH]; intros vs L i t' x T X.
  - destruct i; discriminate.
  - destruct vs as [|v vs]; [discriminate|]. destruct i as [|i]; cbn in *.
    + congruence.
    + apply IH; auto.
Qed.

Lemma run_spec s d code v : wf_declaration s -> wf_declaration d ->
  derive_from_specified d = Some code -> corresponds s d -> value_of s v ->
  exists c, run_from_specified S C compute_ty d code v = Some c /\ computed compute_ty d v c.
Proof.
  intros WS WD H CO (f & DF & CF).
  assert (NU : di_data d <> Union).
  { intros E. unfold derive_from_specified in H. rewrite E in H. discriminate. }
  rewrite (derive_shapes d NU) in H. injection H as <-. unfold run_from_specified. cbn [fst snd].
  destruct v as [[n variant] contents]. cbn [v_path v_contents] in *.
  assert (N : n = bs "Specified" ++ di_name d).
  { destruct CO as [<- _]. destruct variant; cbn [declared] in DF; apply DF. }
  rewrite N, beq_refl.
  (* the variant of d *)
  assert (V : exists f', declared d (Path (di_name d) variant) f' /\ same_fields f f').
  { destruct CO as [_ CO]. destruct variant as [v|]; cbn [declared] in DF.
    - destruct DF as (_ & l & D & I). rewrite D in CO. destruct (di_data d) as [|l'|] eqn:DD; try contradiction.
      destruct CO as (_ & SN & SF).
      assert (J : In v (map fst l')). { apply SN. apply in_map_iff. exists (v, f). auto. }
      apply in_map_iff in J as ([m f'] & E & J). cbn [fst] in E. subst m.
      exists f'. split; [|eapply SF; eauto]. cbn. split; auto. exists l'. auto.
    - destruct DF as [_ D]. rewrite D in CO. destruct (di_data d) as [f'|l'|] eqn:DD; try contradiction.
      exists f'. split; [|exact CO]. cbn. auto. }
  destruct V as (f' & DF' & SF).
  destruct (find _ _) as [a|] eqn:F.
  - apply find_some in F as [_ E]. apply same_variant_true in E. subst variant.
    unfold run_arm. pose proof DF' as X. apply fields_of_declared in X; [|exact WD]. rewrite X.
    assert (Fin : forall cc, contents_fit f' cc -> computed_contents compute_ty f' contents cc ->
      computed compute_ty d (Value (Path n (arm_variant a)) contents) (Value (Path (di_name d) (arm_variant a)) cc)).
    { intros cc FI CC. split; [exists f'; auto|]. split; [reflexivity|]. intros g G. cbn [v_path v_contents] in *.
      apply fields_of_declared in G; [|exact WD]. rewrite X in G. injection G as <-. exact CC. }
    rewrite <- N.
    destruct f as [|l|l], f' as [|l'|l']; try contradiction; destruct contents as [|vs|vs]; try contradiction;
      cbn [same_fields contents_fit] in *.
    + eexists. split; [reflexivity|]. apply Fin; exact I.
    + assert (L : length vs = length l') by congruence. destruct (tuple_fields l' vs L) as [A B].
      eexists. split; [reflexivity|]. apply Fin; [exact A|]. split; [exact A|exact B].
    + destruct (named_fields vs l') as (r & A & B & E).
      * unfold nodup_names. rewrite CF. apply (declared_wf _ _ _ WS DF).
      * intros m I. rewrite CF. apply (Permutation_in _ (Permutation_sym SF)). exact I.
      * rewrite A. eexists. split; [reflexivity|]. apply Fin; [exact B|exact E].
  - exfalso. apply in_shapes in DF'.
    assert (I : In (Arm variant (binding_of f')) (map (fun x => Arm (fst x) (binding_of (snd x))) (shapes d))).
    { apply in_map_iff. exists (variant, f'). auto. }
    apply (find_none _ _ F) in I. cbn [arm_variant] in I.
    assert (X : same_variant variant variant = true) by (apply same_variant_true; reflexivity). congruence.
Qed.
End Computing.

(** ** Tables *)
Lemma size_of_name_spec n s : size_of_name n = Some s <-> opentype_size n s.
Proof.
  unfold opentype_size. split.
  - unfold size_of_name. cbn [existsb].
    repeat (match goal with |- context [bytes_eqb n ?x] =>
      let E := fresh in destruct (bytes_eqb n x) eqn:E; [apply beq_true in E; subst n; cbn [orb]; intros X; injection X as <-;
        cbn [In]; tauto|] end; cbn [orb]).
    discriminate.
  - cbn [In]. intros X.
    repeat (destruct X as [X|X]; [inversion X; subst; vm_compute; reflexivity|]). contradiction.
Qed.

Lemma size_of_ty_spec t s : size_of_ty t = Some s <-> type_size t s.
Proof.
  unfold size_of_ty, type_size. split.
  - destruct t as [[] segments|]; try discriminate. destruct (rev segments) as [|n r] eqn:R; [discriminate|].
    intros H. apply size_of_name_spec in H. exists (rev r), n. split; [|exact H].
    rewrite <- (rev_involutive segments), R. reflexivity.
  - intros (segments & n & -> & H). rewrite rev_app_distr. cbn [rev app]. apply size_of_name_spec. exact H.
Qed.

Lemma type_size_functional t s s' : type_size t s -> type_size t s' -> s = s'.
Proof. intros A B. apply size_of_ty_spec in A, B. congruence. Qed.

Lemma opentype_sizes n s : opentype_size n s -> In s [2; 4; 8].
Proof.
  unfold opentype_size. cbn [In]. intros X.
  repeat (destruct X as [X|X]; [inversion X; tauto|]). contradiction.
Qed.
Lemma type_sizes t s : type_size t s -> In s [2; 4; 8].
Proof. intros (? & n & _ & H). eapply opentype_sizes; eauto. Qed.

Lemma nth_error_same {A} (l l' : list A) : (forall i, nth_error l i = nth_error l' i) -> l = l'.
Proof.
  revert l'. induction l as [|a l IH]; intros [|a' l'] H.
  - reflexivity.
  - specialize (H O). discriminate.
  - specialize (H O). discriminate.
  - f_equal; [specialize (H O); cbn in H; congruence|]. apply IH. intros i. apply (H (S i)).
Qed.

Definition offsets_from (o : N) (l : list (ident * ty)) (sizes : list N) (ms : list (ident * (ty * N))) : Prop :=
  length ms = length l /\
  forall i n t, nth_error l i = Some (n, t) -> nth_error ms i = Some (n, (t, o + sum (firstn i sizes))).

Lemma offsets_from_unique o l sizes ms ms' : offsets_from o l sizes ms -> offsets_from o l sizes ms' -> ms = ms'.
Proof.
  intros [L A] [L' A']. apply nth_error_same. intros i.
  destruct (nth_error l i) as [[n t]|] eqn:E.
  - rewrite (A i n t E), (A' i n t E). reflexivity.
  - apply nth_error_None in E. transitivity (@None (ident * (ty * N))).
    + apply nth_error_None. lia.
    + symmetry. apply nth_error_None. lia.
Qed.
Lemma fields_spec l : forall o ms e, table_fields o l = Some (ms, e) <->
  exists sizes, sized l sizes /\
    (forall i s, nth_error sizes i = Some s -> N.divide (N.min s 4) (o + sum (firstn i sizes))) /\
    offsets_from o l sizes ms /\ e = o + sum sizes.
Proof.
  induction l as [|[n t] l IH]; intros o ms e; cbn [table_fields].
  - split.
    + intros H. inversion H. subst. exists []. split; [constructor|]. split; [intros [|i] s; discriminate|].
      split; [split; [reflexivity|intros [|i]; discriminate]|]. cbn. lia.
    + intros (sizes & S & _ & [L _] & ->). inversion S. subst. destruct ms; [|discriminate]. cbn. rewrite N.add_0_r. reflexivity.
  - destruct (size_of_ty t) as [s|] eqn:T.
    + apply size_of_ty_spec in T.
      assert (NZ : N.min s 4 <> 0). { pose proof (type_sizes _ _ T) as X. cbn [In] in X. lia. }
      destruct (N.eqb_spec (o mod N.min s 4) 0) as [M|M].
      * destruct (table_fields (o + s) l) as [[ms' e']|] eqn:F.
        -- apply IH in F as (sizes & S & A & [L B] & ->). split.
           ++ intros H. inversion H. subst. exists (s :: sizes). split; [constructor; assumption|]. split; [|split; [split|]].
              ** intros [|i] s'; cbn [nth_error firstn sum fold_right].
                 --- intros X. injection X as <-. rewrite N.add_0_r. apply N.mod_divide; auto.
                 --- intros X. specialize (A i s' X). replace (o + (s + fold_right N.add 0 (firstn i sizes)))
                       with (o + s + sum (firstn i sizes)) by (unfold sum; lia). exact A.
              ** cbn. congruence.
              ** intros [|i] n' t'; cbn [nth_error firstn sum fold_right].
                 --- intros X. inversion X. rewrite N.add_0_r. reflexivity.
                 --- intros X. rewrite (B i n' t' X). unfold sum. do 3 f_equal. lia.
              ** cbn [sum fold_right]. unfold sum. lia.
           ++ intros (sizes' & S' & A' & O' & ->). inversion S'; subst. cbn [snd] in *.
              assert (y = s) by (eapply type_size_functional; eauto). subst y.
              assert (l' = sizes).
              { clear - S H3. revert l' H3. induction S as [|? ? ? ? X S IH]; intros l2 H; inversion H; subst; auto. f_equal.
                - eapply type_size_functional; eauto.
                - auto. }
              subst l'.
              assert (Q : ms = (n, (t, o)) :: ms').
              { eapply offsets_from_unique; [exact O'|]. split; [cbn; congruence|].
                intros [|i] n' t'; cbn [nth_error firstn sum fold_right].
                - intros X. inversion X. rewrite N.add_0_r. reflexivity.
                - intros X. rewrite (B i n' t' X). unfold sum. do 3 f_equal. lia. }
              rewrite Q. cbn [sum fold_right]. unfold sum. do 2 f_equal. lia.
        -- split; [discriminate|]. intros (sizes & S & A & [L B] & ->). exfalso. inversion S; subst. cbn [snd] in *.
           assert (y = s) by (eapply type_size_functional; eauto). subst y.
           destruct ms as [|m ms]; [discriminate|].
           assert (X : table_fields (o + s) l = Some (ms, o + s + sum l')).
           { apply IH. exists l'. split; [assumption|]. split; [|split; [split|reflexivity]].
             - intros i s' X. specialize (A (Datatypes.S i) s' X). cbn [firstn sum fold_right] in A.
               replace (o + s + sum (firstn i l')) with (o + (s + fold_right N.add 0 (firstn i l'))) by (unfold sum; lia). exact A.
             - cbn in L. lia.
             - intros i n' t' X. specialize (B (Datatypes.S i) n' t' X). cbn [nth_error firstn sum fold_right] in B.
               rewrite B. unfold sum. do 3 f_equal. lia. }
           congruence.
      * split; [discriminate|]. intros (sizes & S & A & _ & ->). exfalso. inversion S; subst. cbn [snd] in *.
        assert (y = s) by (eapply type_size_functional; eauto). subst y.
        specialize (A O s eq_refl). cbn [firstn sum fold_right] in A. rewrite N.add_0_r in A. apply N.mod_divide in A; auto.
    + split; [discriminate|]. intros (sizes & S & _). exfalso. inversion S; subst. cbn [snd] in *.
      match goal with X : type_size t _ |- _ => apply size_of_ty_spec in X end. congruence.
Qed.

Lemma find_tag_spec attrs tag : find_tag attrs = Some tag <-> tag_attribute attrs tag.
Proof.
  induction attrs as [|a attrs IH]; cbn [find_tag].
  - destruct tag as [t|]; cbn [tag_attribute].
    + split; [discriminate|]. intros (b & a & E & _). destruct b; discriminate.
    + split; [intros _ s []|reflexivity].
  - assert (Skip : (forall s, a <> NameValue (bs "tag") (Str s)) ->
      tag_attribute attrs tag <-> tag_attribute (a :: attrs) tag).
    { intros NA. destruct tag as [t|]; cbn [tag_attribute].
      - split.
        + intros (b & r & -> & L & B). exists (a :: b), r. split; [reflexivity|]. split; [exact L|].
          intros s [X|X]; [eapply NA; exact X|eapply B; exact X].
        + intros (b & r & E & L & B). destruct b as [|a' b].
          * inversion E. subst. exfalso. eapply NA. reflexivity.
          * inversion E. subst. exists b, r. split; [reflexivity|]. split; [exact L|]. intros s X. eapply B. right. exact X.
      - split; intros H s X; [|eapply H; right; exact X]. destruct X as [X|X]; [eapply NA; exact X|eapply H; exact X]. }
    destruct a as [n l|]; [|rewrite IH; apply Skip; intros; discriminate].
    destruct (bytes_eqb n (bs "tag")) eqn:E.
    + apply beq_true in E. subst n. destruct l as [v|]; [|rewrite IH; apply Skip; intros s X; discriminate].
      destruct (Nat.eqb_spec (length v) 4) as [L|L].
      * split.
        -- intros H. injection H as <-. exists [], attrs. split; [reflexivity|]. split; [exact L|]. intros s [].
        -- destruct tag as [t|]; cbn [tag_attribute].
           ++ intros (b & r & X & L' & B). destruct b as [|a' b].
              ** inversion X. reflexivity.
              ** inversion X. subst. exfalso. eapply B. left. reflexivity.
           ++ intros H. exfalso. eapply H. left. reflexivity.
      * split; [discriminate|]. destruct tag as [t|]; cbn [tag_attribute].
        -- intros (b & r & X & L' & B). exfalso. destruct b as [|a' b].
           ++ inversion X. subst. auto.
           ++ inversion X. subst. eapply B. left. reflexivity.
        -- intros H. exfalso. eapply H. left. reflexivity.
    + apply beq_false in E. rewrite IH. apply Skip. intros s X. inversion X. auto.
Qed.

Lemma table_spec d c : derive_sfnt_table d = Some c <->
  exists l sizes, struct_fields d l /\ tag_attribute (di_attrs d) (tc_tag c) /\ sized l sizes /\ aligned_fields sizes /\
    offsets_from 0 l sizes (tc_methods c) /\ tc_size c = sum sizes.
Proof.
  unfold derive_sfnt_table. destruct c as [tag ms size]. cbn [tc_tag tc_methods tc_size].
  assert (K : forall l, (exists sizes, sized l sizes /\ aligned_fields sizes /\ offsets_from 0 l sizes ms /\ size = sum sizes) <->
    table_fields 0 l = Some (ms, size)).
  { intros l. rewrite fields_spec. unfold aligned_fields. reflexivity. }
  destruct (find_tag (di_attrs d)) as [tag'|] eqn:T.
  - apply find_tag_spec in T.
    assert (TT : tag_attribute (di_attrs d) tag <-> tag' = tag).
    { split; [|intros <-; exact T]. intros X. apply find_tag_spec in X, T. congruence. }
    destruct (di_data d) as [f|variants|] eqn:D.
    + assert (SF : forall l, struct_fields d l <-> f = Named l \/ l = [] /\ (f = Unit \/ f = Unnamed [])).
      { intros l. unfold struct_fields. rewrite D. split.
        - intros [X|[-> [X|X]]]; inversion X; auto.
        - intros [ -> | [ -> [ -> | -> ] ] ]; auto. }
      split.
      * intros H.
        assert (X : exists l, struct_fields d l /\ table_fields 0 l = Some (ms, size) /\ tag' = tag).
        { destruct f as [|[|t ts]|l]; try discriminate.
          - inversion H; subst. exists []. split; [apply SF; auto|]. auto.
          - inversion H; subst. exists []. split; [apply SF; auto|]. auto.
          - exists l. split; [apply SF; auto|]. destruct (table_fields 0 l) as [[ms' size']|]; [|discriminate].
            inversion H; subst. auto. }
        destruct X as (l & S & F & ->). apply K in F as (sizes & A & B & E & G). exists l, sizes. tauto.
      * intros (l & sizes & S & TA & A & B & E & G). apply TT in TA. subst tag'.
        assert (F : table_fields 0 l = Some (ms, size)) by (apply K; exists sizes; auto).
        apply SF in S as [ -> | [ -> [ -> | -> ] ] ]; [rewrite F; reflexivity| |]; cbn in F; inversion F; reflexivity.
    + split; [discriminate|]. intros (l & sizes & [X|[_ [X|X]]] & _); rewrite D in X; discriminate.
    + split; [discriminate|]. intros (l & sizes & [X|[_ [X|X]]] & _); rewrite D in X; discriminate.
  - split; [discriminate|]. intros (l & sizes & _ & X & _). apply find_tag_spec in X. congruence.
Qed.

(** *** Sizes *)
Lemma fold_sizes l sizes : sized l sizes ->
  fold_right (fun (f : ident * ty) s => match size_of_ty (snd f) with Some n => n + s | None => s end) 0 l = sum sizes.
Proof.
  induction 1 as [|f s l sizes T _ IH]; [reflexivity|]. cbn [fold_right sum]. rewrite IH.
  apply size_of_ty_spec in T. rewrite T. reflexivity.
Qed.

Lemma round_up_exact n a : a <> 0 -> round_up n a = n <-> N.divide a n.
Proof.
  intros A. unfold round_up. split.
  - intros <-. apply N.divide_factor_r.
  - intros (k & ->). assert (E : (k * a + (a - 1)) / a = k) by (symmetry; apply (N.div_unique _ _ _ (a - 1)); lia).
    rewrite E. reflexivity.
Qed.

Lemma powers a b : In a [1; 2; 4; 8] -> In b [1; 2; 4; 8] -> forall m, N.divide a m -> N.divide b m -> N.divide (N.max a b) m.
Proof. intros _ _ m A B. destruct (N.max_dec a b) as [E0|E0]; rewrite E0; assumption. Qed.

(** The alignment of the struct is that of one of the fields, or 1 *)
Lemma max_align align l : (forall f, In f l -> In (align (snd f)) [1; 2; 4; 8]) ->
  fold_right (fun (f : ident * ty) a => N.max (align (snd f)) a) 1 l <> 0 /\
  forall n, N.divide (fold_right (fun (f : ident * ty) a => N.max (align (snd f)) a) 1 l) n <->
            forall f, In f l -> N.divide (align (snd f)) n.
Proof.
  intros H.
  assert (P : In (fold_right (fun (f : ident * ty) a => N.max (align (snd f)) a) 1 l) [1; 2; 4; 8]).
  { induction l as [|f l IH]; [left; reflexivity|]. cbn [fold_right].
    destruct (N.max_dec (align (snd f)) (fold_right (fun (f : ident * ty) a => N.max (align (snd f)) a) 1 l)) as [E0|E0]; rewrite E0.
    - apply H. left. reflexivity.
    - apply IH. intros g G. apply H. right. exact G. }
  split; [cbn [In] in P; lia|]. intros n. revert H P. induction l as [|f l IH]; intros H P.
  - cbn. split; [intros _ ? []|]. intros _. apply N.divide_1_l.
  - cbn [fold_right] in *.
    set (m := fold_right (fun (f : ident * ty) a => N.max (align (snd f)) a) 1 l) in *.
    assert (Pm : In m [1; 2; 4; 8]).
    { clear - H. subst m. induction l as [|g l IH]; [left; reflexivity|]. cbn [fold_right].
      destruct (N.max_dec (align (snd g)) (fold_right (fun (f : ident * ty) a => N.max (align (snd f)) a) 1 l)) as [E0|E0]; rewrite E0.
      - apply H. right. left. reflexivity.
      - apply IH. intros h [G|G]; apply H; [left; exact G|right; right; exact G]. }
    assert (Pf : In (align (snd f)) [1; 2; 4; 8]) by (apply H; left; reflexivity).
    assert (IH' := IH (fun g G => H g (or_intror G)) Pm). split.
    + intros D g [<-|G].
      * eapply N.divide_trans; [|exact D]. clear - Pf Pm. cbn [In] in Pf, Pm.
        destruct Pf as [<-|[<-|[<-|[<-|[]]]]], Pm as [<-|[<-|[<-|[<-|[]]]]]; cbn;
          first [apply N.divide_refl | apply N.divide_1_l | exists 2; reflexivity | exists 4; reflexivity].
      * apply IH'; [|exact G]. eapply N.divide_trans; [|exact D]. clear - Pf Pm. cbn [In] in Pf, Pm.
        destruct Pf as [<-|[<-|[<-|[<-|[]]]]], Pm as [<-|[<-|[<-|[<-|[]]]]]; cbn;
          first [apply N.divide_refl | apply N.divide_1_l | exists 2; reflexivity | exists 4; reflexivity].
    + intros D. destruct (N.max_dec (align (snd f)) m) as [E0|E0]; rewrite E0.
      * apply D. left. reflexivity.
      * apply IH'. intros g G. apply D. right. exact G.
Qed.

Lemma accepts_table align l sizes c : platform align -> sized l sizes -> tc_size c = sum sizes ->
  accepts_sfnt_table align l c = true <-> forall f, In f l -> N.divide (align (snd f)) (sum sizes).
Proof.
  intros P S T. unfold accepts_sfnt_table, rust_struct_size. rewrite T, (fold_sizes l sizes S), N.eqb_eq.
  destruct (max_align align l) as [NZ D].
  - intros f I. clear T. induction S as [|g s l sizes G _ IH]; [contradiction|]. destruct I as [<-|I]; [|auto]. apply (P _ _ G).
  - rewrite round_up_exact by exact NZ. apply D.
Qed.
