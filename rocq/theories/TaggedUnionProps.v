(** Property C68: enums with jump tables *)
From Coq Require Import QArith.
From Verif Require Import Base Dom StyleValues StyleProperties TaggedUnion TaggedUnionSpec TaggedUnionProofs.
Local Close Scope Q_scope.
Local Open Scope nat_scope.

Definition wf_enum (tag : int_type) (variants : list (bytes * list ty)) : Prop :=
  wf_int tag /\ discriminants_fit tag (length variants) /\ NoDup (map fst variants) /\
  forall v, In v variants -> Forall wf_ty (snd v).

(** C68: the method of an enum of this variant does what the match it is written as does, with references to the
    fields of the variant *)
Theorem C68_match : forall Args Result big tag name variants (arms : list (arm Args Result)) f m self args k variant fields offsets,
  wf_enum tag variants -> method big tag name variants arms = Some f ->
  nth_error variants k = Some (variant, fields) -> tag_at big m self tag (N.of_nat k) ->
  laid_out (int_size tag) fields offsets ->
  exists a, first_match name variant arms a /\ (forall a', first_match name variant arms a' -> a' = a) /\
    arm_fields a = length fields /\
    f m self args = Some (arm_block a m (map (fun o => self + o) offsets) args).
Proof.
  intros Args Result big tag name variants arms f m self args k variant fields offsets [Wi [D [N Wt]]] M K T L.
  destruct (call_reads big tag name variants arms f m self args k variant fields offsets) as [a [Ka [[F1 [F2 F3]] E]]]; auto.
  { apply (Wt (variant, fields)). eapply nth_error_In. exact K. }
  exists a. unfold method in M. destruct (closures_table tag name variants arms []) as [table|] eqn:Et; [|discriminate].
  apply table_some in Et as [F _].
  assert (X : first_match name variant arms a) by (eapply (first_match_nth name variants arms k (variant, fields)); eauto).
  repeat split; auto. intros a' X'. eapply first_match_unique; eassumption.
Qed.

(** C68: it compiles just if there is an arm for each variant, in the order of the variants *)
Theorem C68_compiles : forall Args Result big tag name variants (arms : list (arm Args Result)),
  (exists f, method big tag name variants arms = Some f) <->
  map (fun a => (arm_enum a, arm_variant a, arm_fields a)) arms = map (fun v => (name, fst v, length (snd v))) variants.
Proof.
  intros Args Result big tag name variants arms. unfold method. split.
  - intros [f M]. destruct (closures_table tag name variants arms []) as [table|] eqn:E; [|discriminate].
    apply table_some in E as [F _]. clear - F.
    induction F as [|v a variants arms [E1 [E2 E3]] F IH]; cbn [map]; [reflexivity|]. rewrite E1, E2, E3, IH. reflexivity.
  - intros E. destruct (table_exists (Args := Args) (Result := Result) tag name variants arms []) as [table H].
    + revert arms E. induction variants as [|v variants IH]; intros [|a arms] E; cbn [map] in E; try discriminate; constructor.
      * injection E as E1 E2 E3 _. unfold fits. auto.
      * apply IH. injection E as _ _ _ E. exact E.
    + rewrite H. eauto.
Qed.
(** C68: then the match is one rustc accepts… *)
Theorem C68_exhaustive : forall Args Result big tag name variants (arms : list (arm Args Result)) f,
  method big tag name variants arms = Some f -> exhaustive name variants arms.
Proof.
  intros Args Result big tag name variants arms f M.
  pose proof (proj1 (C68_compiles _ _ big tag name variants arms) (ex_intro _ f M)) as E. split.
  - intros a I. apply (in_map (fun a => (arm_enum a, arm_variant a, arm_fields a))) in I. rewrite E in I.
    apply in_map_iff in I as [[v fields] [Ev Iv]]. cbn [fst snd] in Ev. injection Ev as E1 E2 E3. exists fields.
    rewrite <- E2. auto.
  - intros v I. apply (in_map (fun v => (name, fst v, length (snd v)))) in I. rewrite <- E in I.
    apply in_map_iff in I as [a [Ea Ia]]. injection Ea as E1 E2 E3. exists a. unfold matches. auto.
Qed.
(** …but not each match that rustc accepts is one of those *)
Theorem C68_order_refuted : exists tag name variants (arms : list (arm unit nat)),
  wf_enum tag variants /\ exhaustive name variants arms /\ forall big, method big tag name variants arms = None.
Proof.
  exists (IntType 1 false), (bs "E"), [(bs "A", []); (bs "B", [])],
    [Arm (bs "E") (bs "B") 0 (fun _ _ _ => 1); Arm (bs "E") (bs "A") 0 (fun _ _ _ => 0)]. repeat split.
  - left. reflexivity.
  - unfold discriminants_fit. cbn. lia.
  - repeat constructor; cbn [map fst In]; intuition discriminate.
  - intros v [<-|[<-|[]]]; constructor.
  - intros a [<-|[<-|[]]]; exists []; cbn [In arm_variant arm_enum arm_fields length]; auto.
  - intros v [<-|[<-|[]]]; unfold matches; cbn [fst]; eexists; split; [right; left; reflexivity|split; reflexivity|left; reflexivity|split; reflexivity].
Qed.

(** C68: what is read through the pointer to [Variant] is of the enum, and aligned; the fields are apart from the tag
    and from each other *)
Theorem C68_memory : forall tag variants size self variant fields offsets,
  wf_enum tag variants -> room_for tag variants size -> aligned_for tag variants self ->
  In (variant, fields) variants -> laid_out (int_size tag) fields offsets ->
  struct_size (int_ty tag :: fields) <= size /\
  Nat.divide (struct_align (int_ty tag :: fields)) self /\
  struct_size [int_ty tag] <= size /\ Nat.divide (struct_align [int_ty tag]) self /\
  (forall i t o, nth_error fields i = Some t -> nth_error offsets i = Some o ->
     int_size tag <= o /\ o + ty_size t <= size /\ Nat.divide (ty_align t) (self + o) /\
     forall j o', i < j -> nth_error offsets j = Some o' -> o + ty_size t <= o').
Proof.
  intros tag variants size self variant fields offsets [Wi [_ [_ Wt]]] [[R1 R2] [R3 R4]] [A1 A2] I L.
  pose proof (Wt _ I) as W. cbn [snd] in W. pose proof (wf_int_pos _ Wi) as P.
  assert (Wtag : wf_ty (int_ty tag)).
  { split; cbn [int_ty ty_align ty_size]; [|apply Nat.divide_refl]. unfold wf_int in Wi. cbn [In] in Wi.
    destruct Wi as [<-|[<-|[<-|[<-|[]]]]]; [exists 0|exists 1|exists 2|exists 3]; reflexivity. }
  assert (D : forall l n, Forall wf_ty l -> (forall t, In t l -> Nat.divide (ty_align t) n) -> Nat.divide (struct_align l) n).
  { intros l n _ H. destruct (struct_align_one l) as [->|[t [It ->]]]; [apply Nat.divide_1_l|auto]. }
  assert (F : forall t, In t (int_ty tag :: fields) -> Nat.divide (ty_align t) size /\ Nat.divide (ty_align t) self).
  { intros t [<-|It]; [auto|]. split; [apply (R2 (variant, fields))|apply (A2 (variant, fields))]; auto. }
  assert (E : struct_end 0 (int_ty tag :: fields) = struct_end (int_size tag) fields).
  { cbn [struct_end int_ty ty_align ty_size]. rewrite align_up_0 by auto. reflexivity. }
  assert (B : struct_end (int_size tag) fields <= size).
  { apply struct_end_bound; [assumption|]. intros t o It. apply (R4 (variant, fields) (struct_offsets (int_size tag) fields)); auto. apply offsets_laid_out. assumption. }
  assert (S1 : forall l, Forall wf_ty l -> struct_end 0 l <= size -> (forall t, In t l -> In t (int_ty tag :: fields)) -> struct_size l <= size /\ Nat.divide (struct_align l) self).
  { intros l Wl El Sl. split.
    - unfold struct_size. apply align_up_least; [|assumption|].
      + destruct (struct_align_pow2 l Wl) as [k ->]. apply Nat.neq_0_lt_0, Nat.pow_nonzero. lia.
      + apply D; [assumption|]. intros t It. apply F, Sl, It.
    - apply D; [assumption|]. intros t It. apply F, Sl, It. }
  destruct (S1 (int_ty tag :: fields)) as [X1 X2]; [constructor; assumption|rewrite E; exact B|auto|].
  destruct (S1 [int_ty tag]) as [Y1 Y2]; [constructor; [assumption|constructor]| |intros t [<-|[]]; left; reflexivity|].
  { cbn [struct_end int_ty ty_align ty_size]. rewrite align_up_0 by auto. exact R3. }
  repeat (split; [assumption|]). intros i t o Hi Ho.
  assert (G : forall fs start os, laid_out start fs os -> forall i t o, nth_error fs i = Some t -> nth_error os i = Some o ->
    start <= o /\ Nat.divide (ty_align t) o /\ forall j o', i < j -> nth_error os j = Some o' -> o + ty_size t <= o').
  { clear. induction fs as [|t fs IH]; intros start os L i u o Hi Ho; inversion L as [|? ? ? o0 offsets A1 A2 A3 H5]; subst; [destruct i; discriminate|].
    assert (Z : forall j o', nth_error offsets j = Some o' -> o0 + ty_size t <= o').
    { intros j o' Hj. assert (exists v, nth_error fs j = Some v) as [v Hv].
      { destruct (nth_error fs j) eqn:Q; eauto. apply nth_error_None in Q. rewrite <- (laid_out_length _ _ _ H5) in Q.
        apply nth_error_None in Q. congruence. }
      apply (IH _ _ H5 j v o' Hv Hj). }
    destruct i as [|i]; cbn [nth_error] in Hi, Ho.
    - injection Hi as <-. injection Ho as <-. repeat split; auto. intros [|j] o' Lj Hj; [lia|]. eapply Z. exact Hj.
    - pose proof (Z _ _ Ho). destruct (IH _ _ H5 i u o Hi Ho) as [V1 [V2 V3]]. split; [lia|]. split; [exact V2|].
      intros [|j] o' Lj Hj; [lia|]. apply (V3 j o'); [lia|exact Hj]. }
  destruct (G _ _ _ L i t o Hi Ho) as [G1 [G2 G3]]. split; [exact G1|]. split; [|split; [|exact G3]].
  - apply (R4 (variant, fields) offsets t o I L). cbn [snd]. eapply nth_error_In. eapply combine_nth_error; eassumption.
  - apply Nat.divide_add_r; [|exact G2]. apply F. right. eapply nth_error_In. exact Hi.
Qed.

(** * The enums of style/properties *)
Lemma longhand_numbers : forall p, exists ident, nth_error longhand_idents (N.to_nat (number p)) = Some (ident, p).
Proof. intros []; eexists; reflexivity. Qed.
Lemma number_bound : forall p, (number p < 32)%N.
Proof. intros []; reflexivity. Qed.
Lemma tag_u8 : forall big m a n, (n < 256)%N -> m a = Some n -> tag_at big m a DiscriminantType n.
Proof.
  intros big m a n B H k L. cbn [DiscriminantType int_size] in *. assert (k = 0) as -> by lia.
  replace (a + _) with a by (destruct big; lia). rewrite H. cbn [N.of_nat]. rewrite N.pow_0_r, N.div_1_r, N.mod_small by auto. reflexivity.
Qed.
Lemma wf_u8 : wf_int DiscriminantType.
Proof. left. reflexivity. Qed.

(** C68: the method of [LonghandId] *)
Theorem C68_longhand_ids : forall big, exists f, LonghandId_cascade big = Some f /\
  forall m a p k c inherited, longhand_at m a p ->
    f m a (k, c, inherited) = Some (cascade_css_wide_keyword_into p k c inherited) /\
    LonghandId_is_early big m a = Some (is_early p).
Proof.
  intros big.
  destruct (proj2 (C68_compiles _ _ big DiscriminantType (bs "LonghandId") LonghandId_variants LonghandId_arms) eq_refl) as [f M].
  exists f. split; [exact M|]. intros m a p k c inherited H. unfold longhand_at in H. pose proof (number_bound p) as B.
  assert (T : tag_at big m a DiscriminantType (number p)) by (apply tag_u8; [lia|exact H]).
  split.
  - destruct (longhand_numbers p) as [ident Hp].
    destruct (call_reads big DiscriminantType (bs "LonghandId") LonghandId_variants LonghandId_arms f m a (k, c, inherited)
                (N.to_nat (number p)) ident [] []) as [x [Hx [_ E]]].
    + exact M.
    + exact wf_u8.
    + unfold discriminants_fit. cbn. lia.
    + constructor.
    + unfold LonghandId_variants. apply (map_nth_error (fun x => (fst x, [])) _ _ Hp).
    + rewrite N2Nat.id. exact T.
    + constructor.
    + rewrite E. unfold LonghandId_arms in Hx.
      rewrite (map_nth_error (fun x => Arm (bs "LonghandId") (fst x) 0
        (fun _ _ args => let '(k, c, inherited) := args in cascade_css_wide_keyword_into (snd x) k c inherited)) _ _ Hp) in Hx.
      injection Hx as <-. reflexivity.
  - unfold LonghandId_is_early. rewrite (tag_read big m a DiscriminantType (number p) 32).
    + destruct p; reflexivity.
    + exact wf_u8.
    + unfold discriminants_fit. cbn. lia.
    + cbn. exact B.
    + exact T.
Qed.

Section Declarations.
Variable big : bool.
Variable value_ty : kind -> ty.
Variable value_at : forall k, list (option N) -> option (specified_kind k).
Variable keyword_ty : ty.
Variable keyword_at : list (option N) -> option css_wide_keyword.
Hypothesis wf_value : forall k, wf_ty (value_ty k).
Hypothesis wf_keyword : wf_ty keyword_ty.
Let variants := LonghandDeclaration_variants value_ty keyword_ty.
Let arms g e := map (value_arm value_ty value_at g) longhand_idents ++ [css_wide_arm big keyword_ty keyword_at e].

Lemma declaration_compiles : forall g e, exists f,
  method big DiscriminantType (bs "LonghandDeclaration") variants (arms g e) = Some f.
Proof. intros. apply C68_compiles. reflexivity. Qed.
Lemma bytes_load : forall m a n l, bytes_at m a n l -> load m a n = l.
Proof.
  intros m a n l [L H]. apply list_ext; rewrite load_length; [auto|]. intros k B. rewrite load_nth by auto. symmetry. auto.
Qed.
Lemma declaration_method : forall g e f m a d inherited this,
  method big DiscriminantType (bs "LonghandDeclaration") variants (arms g e) = Some f ->
  declaration_at value_ty value_at keyword_ty keyword_at m a d ->
  f m a (inherited, this) = Some (Some
    match d with
    | Declares p v => g p v inherited this
    | CssWide p k => if Bool.eqb (is_early p) e then cascade_css_wide_keyword_into p k this inherited else this
    end).
Proof.
  intros g e f m a d inherited this M S.
  assert (Dd : discriminants_fit DiscriminantType (length variants)) by (unfold discriminants_fit; cbn; lia).
  destruct d as [p v|p k]; cbn [declaration_at] in S.
  - destruct S as [Hp [o [l [L [Hl V]]]]]. destruct (longhand_numbers p) as [ident Hn]. pose proof (number_bound p) as B.
    destruct (call_reads big DiscriminantType (bs "LonghandDeclaration") variants (arms g e) f m a (inherited, this)
                (N.to_nat (number p)) ident [value_ty (kind_of p)] [o]) as [x [Hx [_ E]]].
    + exact M.
    + exact wf_u8.
    + exact Dd.
    + constructor; [apply wf_value|constructor].
    + unfold variants, LonghandDeclaration_variants. rewrite nth_error_app1.
      * apply (map_nth_error (fun x => (fst x, [value_ty (kind_of (snd x))])) _ _ Hn).
      * rewrite map_length. apply nth_error_Some. congruence.
    + rewrite N2Nat.id. apply tag_u8; [lia|exact Hp].
    + exact L.
    + rewrite E. unfold arms in Hx. rewrite nth_error_app1 in Hx by (rewrite map_length; apply nth_error_Some; congruence).
      rewrite (map_nth_error (value_arm value_ty value_at g) _ _ Hn) in Hx. injection Hx as <-.
      unfold value_arm. cbn [arm_block map snd]. rewrite (bytes_load _ _ _ _ Hl), V. reflexivity.
  - destruct S as [H32 [Hp [o [l [L [Hl V]]]]]].
    destruct (call_reads big DiscriminantType (bs "LonghandDeclaration") variants (arms g e) f m a (inherited, this)
                32 (bs "CssWide") [int_ty DiscriminantType; keyword_ty] [1; o]) as [x [Hx [_ E]]].
    + exact M.
    + exact wf_u8.
    + exact Dd.
    + repeat constructor; try apply wf_keyword; try (exists 0; reflexivity); try apply Nat.divide_refl.
    + reflexivity.
    + apply tag_u8; [reflexivity|exact H32].
    + constructor; cbn [DiscriminantType int_size int_ty ty_align ty_size]; auto using Nat.divide_refl.
    + rewrite E. change (nth_error (arms g e) 32) with (Some (css_wide_arm big keyword_ty keyword_at e)) in Hx. injection Hx as <-.
      unfold css_wide_arm. cbn [arm_block map].
      destruct (C68_longhand_ids big) as [h [Eh Hh]]. destruct (Hh m (a + 1) p k this inherited Hp) as [H1 H2].
      rewrite H2, Eh, (bytes_load _ _ _ _ Hl), V, H1. destruct (Bool.eqb (is_early p) e); reflexivity.
Qed.
End Declarations.

(** C68: the two methods of [LonghandDeclaration], on a declaration in memory, do what [if_early_cascade_into] and
    [if_late_cascade_into] of the model of the cascade (C28 to C31) do *)
Theorem C68_declarations : forall big value_ty value_at keyword_ty keyword_at,
  (forall k, wf_ty (value_ty k)) -> wf_ty keyword_ty ->
  exists early late,
    if_early_method big value_ty value_at keyword_ty keyword_at = Some early /\
    if_late_method big value_ty value_at keyword_ty keyword_at = Some late /\
    forall m a d inherited this, declaration_at value_ty value_at keyword_ty keyword_at m a d ->
      early m a (inherited, this) = Some (Some (if_early_cascade_into d inherited this)) /\
      late m a (inherited, this) = Some (Some (if_late_cascade_into d inherited this)).
Proof.
  intros big value_ty value_at keyword_ty keyword_at Wv Wk.
  unfold if_early_method, if_late_method.
  edestruct (declaration_compiles big value_ty value_at keyword_ty keyword_at) as [early E].
  edestruct (declaration_compiles big value_ty value_at keyword_ty keyword_at) as [late L].
  exists early, late. split; [exact E|]. split; [exact L|].
  intros m a d inherited this S.
  rewrite (declaration_method _ _ _ _ _ Wv Wk _ _ _ _ _ _ _ _ E S), (declaration_method _ _ _ _ _ Wv Wk _ _ _ _ _ _ _ _ L S).
  split; do 2 f_equal; destruct d as [p v|p k].
  - destruct p; reflexivity.
  - cbn [if_early_cascade_into]. destruct (is_early p); reflexivity.
  - destruct p; reflexivity.
  - cbn [if_late_cascade_into]. destruct (is_early p); reflexivity.
Qed.

(** * Examples *)
(** Lines 199-221, the test [it_works]: [Foo] with [repr(u16)], on a machine with 64 bits *)
Definition u8_ : ty := Ty 1 1.
Definition String_ : ty := Ty 24 8.
Definition str_ : ty := Ty 16 8.
Definition Foo : list (bytes * list ty) := [(bs "V1", [u8_; String_]); (bs "V2", [str_]); (bs "V3", [])].
Definition Foo_tag : int_type := IntType 2 false.
Inductive got := FieldOf (address : nat) (u : option N) | Str (address : nat) (x : N) | Three (x : N).
Definition Foo_get : list (arm N got) :=
  [Arm (bs "Foo") (bs "V1") 2 (fun m refs x => match refs with [u; s] => FieldOf s (m u) | _ => Three x end);
   Arm (bs "Foo") (bs "V2") 1 (fun m refs x => match refs with [s] => Str s x | _ => Three x end);
   Arm (bs "Foo") (bs "V3") 0 (fun m refs x => Three x)].
Lemma wf_pow : forall n k, wf_ty (Ty (n * 2 ^ k) (2 ^ k)).
Proof. intros. split; [exists k; reflexivity|]. exists n. reflexivity. Qed.
Example C68_Foo_wf : wf_enum Foo_tag Foo.
Proof.
  repeat split.
  - right. left. reflexivity.
  - unfold discriminants_fit. cbn. lia.
  - repeat constructor; cbn [map fst In]; intuition discriminate.
  - intros v [<-|[<-|[<-|[]]]]; repeat constructor.
    + exists 0. reflexivity.
    + exists 1. reflexivity.
    + exists 3. reflexivity.
    + exists 3. reflexivity.
    + exists 3. reflexivity.
    + exists 2. reflexivity.
Qed.
(** V1 at 1000: the tag, [u] at 1002, [s] at 1008; of V2, the string is at 1008 *)
Example C68_Foo_layout : laid_out 2 [u8_; String_] [2; 8] /\ laid_out 2 [str_] [8].
Proof.
  destruct C68_Foo_wf as [_ [_ [_ W]]].
  split; [apply (offsets_laid_out [u8_; String_] 2), (W (bs "V1", [u8_; String_]))|apply (offsets_laid_out [str_] 2), (W (bs "V2", [str_]))].
  - left. reflexivity.
  - right. left. reflexivity.
Qed.
Definition mem_of (l : list (N * N)) : memory := fun a => match find (fun x => fst x =? N.of_nat a)%N l with Some x => Some (snd x) | None => None end.
Definition a_V1 (big : bool) : memory := mem_of [(1000, 0); (1001, 0); (1002, 7)]%N.
Definition a_V2 (big : bool) : memory := mem_of [(1000, if big then 0 else 1); (1001, if big then 1 else 0)]%N.
Example C68_Foo_tags : forall big, tag_at big (a_V1 big) 1000 Foo_tag 0 /\ tag_at big (a_V2 big) 1000 Foo_tag 1.
Proof. intros []; split; intros [|[|k]] L; cbn [Foo_tag int_size] in L; try lia; reflexivity. Qed.
Example C68_Foo_get : forall big, exists f, method big Foo_tag (bs "Foo") Foo Foo_get = Some f /\
  f (a_V1 big) 1000 5%N = Some (FieldOf 1008 (Some 7%N)) /\ f (a_V2 big) 1000 5%N = Some (Str 1008 5%N).
Proof.
  intros big. eexists. split; [reflexivity|].
  assert (T1 : tag_as_usize big Foo_tag (load (a_V1 big) 1000 2) = Some 0%N) by (destruct big; reflexivity).
  assert (T2 : tag_as_usize big Foo_tag (load (a_V2 big) 1000 2) = Some 1%N) by (destruct big; reflexivity).
  unfold call_method. cbn [Foo_tag int_size]. change (IntType 2 false) with Foo_tag. rewrite T1, T2. split; reflexivity.
Qed.
Example C68_Foo_room : room_for Foo_tag Foo 32 /\ aligned_for Foo_tag Foo 1000.
Proof.
  assert (A : forall n, Nat.divide 8 n -> aligned_for Foo_tag Foo n).
  { intros n D. split.
    - eapply Nat.divide_trans; [|exact D]. exists 4. reflexivity.
    - intros v t [<-|[<-|[<-|[]]]] H; cbn [snd In] in H; [destruct H as [<-|[<-|[]]]|destruct H as [<-|[]]|destruct H];
        (eapply Nat.divide_trans; [|exact D]); [exists 8|exists 1|exists 1]; reflexivity. }
  split; [|apply A; exists 125; reflexivity]. split; [apply A; exists 4; reflexivity|]. split; [cbn [int_size Foo_tag]; lia|].
  intros v offsets t o I L H. destruct C68_Foo_layout as [L1 L2]. destruct I as [<-|[<-|[<-|[]]]]; cbn [snd] in *.
  - rewrite (laid_out_unique _ _ _ _ L L1) in H. cbn [combine In] in H.
    destruct H as [H|[H|[]]]; inversion H; subst; cbn; lia.
  - rewrite (laid_out_unique _ _ _ _ L L2) in H. cbn [combine In] in H.
    destruct H as [H|[]]; inversion H; subst; cbn; lia.
  - destruct H.
Qed.
(** A declaration in memory: [font-size] as its number and four bytes, of which the first is the number of pixels *)
Definition ex_value (k : kind) (l : list (option N)) : option (specified_kind k) :=
  match k return option (specified_kind k) with
  | KFontSize => match l with Some n :: _ => Some (SAbsolute (inject_Z (Z.of_N n))) | _ => None end
  | _ => None
  end.
Definition ex_keyword (l : list (option N)) : option css_wide_keyword :=
  match l with [Some 0%N] => Some Inherit | [Some 1%N] => Some Initial | [Some 2%N] => Some Unset | _ => None end.
Example C68_declarations_meet :
  declaration_at (fun _ => Ty 4 4) ex_value (Ty 1 1) ex_keyword
    (mem_of [(40, 0); (44, 20); (45, 0); (46, 0); (47, 0)]%N) 40 (Declares font_size (SAbsolute 20)) /\
  declaration_at (fun _ => Ty 4 4) ex_value (Ty 1 1) ex_keyword
    (mem_of [(40, 32); (41, 1); (42, 2)]%N) 40 (CssWide color_ Unset).
Proof.
  assert (W : wf_ty (Ty 4 4)) by (apply (wf_pow 1 2)). assert (W1 : wf_ty (Ty 1 1)) by (apply (wf_pow 1 0)).
  split; cbn [declaration_at].
  - split; [reflexivity|]. exists 4, [Some 20; Some 0; Some 0; Some 0]%N.
    split; [apply (offsets_laid_out [Ty 4 4] 1); auto|]. split; [|reflexivity].
    split; [reflexivity|]. intros [|[|[|[|k]]]] L; cbn [ty_size] in L; try lia; reflexivity.
  - split; [reflexivity|]. split; [reflexivity|]. exists 2, [Some 2%N].
    split; [apply (offsets_laid_out [Ty 1 1] 2); auto|]. split; [|reflexivity].
    split; [reflexivity|]. intros [|k] L; cbn [ty_size] in L; try lia; reflexivity.
Qed.

Print Assumptions C68_match.
Print Assumptions C68_compiles.
Print Assumptions C68_exhaustive.
Print Assumptions C68_order_refuted.
Print Assumptions C68_memory.
Print Assumptions C68_longhand_ids.
Print Assumptions C68_declarations.
