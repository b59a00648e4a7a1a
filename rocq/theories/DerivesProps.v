(** C70: the derive macros. *)
From Coq Require Import QArith Permutation.
From Verif Require Import Base Dom StyleValues Derives DerivesSpec DerivesProofs DerivesProofs2.
From Verif Require FontParsing TaggedUnion TaggedUnionSpec.
Local Close Scope Q_scope.
Local Open Scope N_scope.

(** ** Keywords *)
(** The keyword of a variant is its name in kebab-case; other names are errors of compilation. *)
Theorem C70_keywords : forall name k, name <> [] ->
  camel_case_to_kebab_case name = Some k <-> keyword_of name k.
Proof. exact kebab_spec. Qed.

(** Different names in CamelCase have different keywords. *)
Theorem C70_keywords_distinct : forall n n' ws ws' k, n <> [] -> n' <> [] -> CamelCase n ws -> CamelCase n' ws' ->
  camel_case_to_kebab_case n = Some k -> camel_case_to_kebab_case n' = Some k -> n = n'.
Proof. intros n n' ws ws' k N N' C C' K K'. apply kebab_spec in K, K'; auto. eapply keywords_distinct; eauto. Qed.

Example C70_keywords_meet :
  CamelCase (bs "HorizontalTb") [bs "horizontal"; bs "tb"] /\
  camel_case_to_kebab_case (bs "HorizontalTb") = Some (bs "horizontal-tb") /\
  camel_case_to_kebab_case (bs "Horizontal_Tb") = None.
Proof.
  split; [|split; vm_compute; reflexivity]. split; [|vm_compute; reflexivity].
  repeat constructor; try discriminate.
Qed.

(** ** Parsing *)
(** The parser derived for an enum accepts what the first variant with a field accepts that does, and otherwise the
    keywords of the variants without fields. *)
Theorem C70_parse : forall U (parse_ty : ty -> parser U) d variants code,
  di_data d = Enum variants -> nodup_names variants -> (forall n f, In (n, f) variants -> n <> []) ->
  derive_parse d = Some code -> forall ts v r,
  run_parse U parse_ty d code ts = Some (v, r) <-> parsed parse_ty (di_name d) variants ts v r.
Proof. intros U parse_ty d variants code D ND N. apply parse_spec; assumption. Qed.

(** That for a struct without fields accepts its keyword. *)
Theorem C70_parse_struct : forall U (parse_ty : ty -> parser U) d code,
  di_data d = Struct Unit -> di_name d <> [] -> derive_parse d = Some code -> forall ts v r,
  run_parse U parse_ty d code ts = Some (v, r) <->
  exists k, keyword_of (di_name d) k /\ ts = TIdent k :: r /\ v = Value (Path (di_name d) None) CUnit.
Proof. intros U parse_ty d code. apply parse_struct. Qed.

(** The declarations that it can be put on. *)
Theorem C70_parse_compiles : forall d,
  (forall l n f, di_data d = Enum l -> In (n, f) l -> n <> []) -> di_name d <> [] ->
  derive_parse d = None <-> ~ parseable d.
Proof. exact derive_parse_none. Qed.

(** "Every variant without a field can be written": not if another one has the same keyword. *)
Theorem C70_keywords_refuted : exists d variants n code,
  di_data d = Enum variants /\ nodup_names variants /\ In (n, Unit) variants /\ derive_parse d = Some code /\
  forall U (parse_ty : ty -> parser U) ts r,
    run_parse U parse_ty d code ts <> Some (Value (Path (di_name d) (Some n)) CUnit, r).
Proof.
  exists (enum "Value" [bare "Auto"; bare "auto"]). do 3 eexists. split; [reflexivity|].
  split; [|split; [right; left; reflexivity|split; [vm_compute; reflexivity|]]].
  - constructor; [|constructor; [intros []|constructor]]. intros [H|[]]. vm_compute in H. discriminate.
  - intros U parse_ty ts r. cbn [run_parse].
    destruct ts as [|[i| | | | |] ts]; try discriminate. cbn [assoc]. destruct (bytes_eqb _ i); [|discriminate].
    intros H. vm_compute in H. discriminate.
Qed.

(** "The variants are tried in their order": those with a field are tried first. *)
Theorem C70_order_refuted : exists d n t code,
  di_data d = Enum [(n, Unit); t] /\ nodup_names [(n, Unit); t] /\ derive_parse d = Some code /\
  exists U (parse_ty : ty -> parser U) k r v, keyword_of n k /\
    run_parse U parse_ty d code (TIdent k :: r) = Some (v, r) /\ v_path v <> Path (di_name d) (Some n).
Proof.
  exists (enum "Value" [bare "Auto"; one "Other" "CustomIdent"]), (bs "Auto"), (one "Other" "CustomIdent").
  eexists. split; [reflexivity|]. split; [|split; [vm_compute; reflexivity|]].
  - constructor; [|constructor; [intros []|constructor]]. intros [H|[]]. vm_compute in H. discriminate.
  - exists bytes, (fun _ ts => match ts with TIdent i :: r => Some (i, r) | _ => None end), (bs "auto"), [].
    eexists. split; [apply kebab_spec; [discriminate|vm_compute; reflexivity]|]. split; [vm_compute; reflexivity|].
    vm_compute. discriminate.
Qed.

(** ** Conversions *)
(** A value of a type is converted to the variant that has it as its only field; the macro panics if there are no such
    variants, and the code is accepted just if there is at most one for each type. *)
Theorem C70_from_variants :
  (forall d, derive_from_variants d = None <->
     forall variants n t, di_data d = Enum variants -> ~ has_field variants n t) /\
  forall d variants impls, di_data d = Enum variants -> nodup_names variants -> derive_from_variants d = Some impls ->
  (accepts_from_variants d impls = true <->
     (forall n, ~ has_field variants n (TyPath false [di_name d])) /\
     (forall n m t, has_field variants n t -> has_field variants m t -> n = m)) /\
  (accepts_from_variants d impls = true -> forall U t (x : U) v,
     run_from impls t x = Some v <->
     exists n, has_field variants n t /\ v = Value (Path (di_name d) (Some n)) (CTuple [x])).
Proof.
  split; [exact from_variants_none|]. intros d variants impls D ND H. split.
  - apply accepts_from_spec; assumption.
  - intros A U t x v. apply run_from_spec; assumption.
Qed.

(** All six enums of length.rs that have it are accepted. *)
Example C70_from_variants_meet : Forall (fun d =>
    exists impls, derive_from_variants d = Some impls /\ accepts_from_variants d impls = true)
  [decl_SpecifiedLength; decl_SpecifiedLengthOrPercentage; decl_LengthOrPercentage;
   decl_SpecifiedLengthOrPercentageOrAuto; decl_LengthOrPercentageOrAuto; decl_LengthOrAuto].
Proof. repeat constructor; eexists; (split; [vm_compute; reflexivity|vm_compute; reflexivity]). Qed.

(** ** Computing *)
(** rustc accepts the code just if the specified type is of the same shape, and then the result is the same variant
    with its fields computed. *)
Theorem C70_from_specified : forall s d code, wf_declaration s -> wf_declaration d ->
  derive_from_specified d = Some code ->
  (accepts_from_specified s code = true <-> corresponds s d) /\
  (accepts_from_specified s code = true -> forall S C (compute_ty : ty -> S -> C) v, value_of s v ->
     exists c, run_from_specified S C compute_ty d code v = Some c /\ computed compute_ty d v c).
Proof.
  intros s d code WS WD H. split; [apply accepts_spec; assumption|].
  intros A S C compute_ty v V. apply (run_spec compute_ty s d code v WS WD H); [|exact V].
  apply (accepts_spec s d code WS WD H). exact A.
Qed.

(** The three uses are accepted; and one with named fields, in another order. *)
Definition ex_specified := Input [] (bs "SpecifiedSize")
  (Struct (Named [(bs "height", simple "SpecifiedLength"); (bs "width", simple "SpecifiedLength")])).
Definition ex_computed := Input [] (bs "Size")
  (Struct (Named [(bs "width", simple "Length"); (bs "height", simple "Length")])).
Example C70_from_specified_meet :
  Forall (fun sd => exists code, derive_from_specified (snd sd) = Some code /\
                                 accepts_from_specified (fst sd) code = true)
    [(decl_SpecifiedLengthOrPercentage, decl_LengthOrPercentage);
     (decl_SpecifiedLengthOrPercentageOrAuto, decl_LengthOrPercentageOrAuto);
     (decl_SpecifiedLineWidth, decl_LineWidth); (ex_specified, ex_computed)] /\
  wf_declaration decl_SpecifiedLengthOrPercentageOrAuto /\
  exists code, derive_from_specified ex_computed = Some code /\
    run_from_specified N N (fun _ n => n + 1) ex_computed code
      (Value (Path (bs "SpecifiedSize") None) (CNamed [(bs "height", 1); (bs "width", 2)])) =
    Some (Value (Path (bs "Size") None) (CNamed [(bs "width", 3); (bs "height", 2)])).
Proof.
  split; [|split].
  - repeat constructor; eexists; (split; [vm_compute; reflexivity|vm_compute; reflexivity]).
  - split; [|repeat constructor].
    repeat (constructor; [cbn [In map fst one bare]; let H := fresh in
      intros H; repeat (destruct H as [H|H]; [vm_compute in H; discriminate|]); exact H|]). constructor.
  - eexists. split; [reflexivity|]. vm_compute. reflexivity.
Qed.

(** ** Tables of fonts *)
(** The macro succeeds just for structs of fields of known types each of which is aligned, and then each method adds
    the size of the fields before, and the size is that of all. *)
Theorem C70_tables : forall d c, derive_sfnt_table d = Some c <->
  exists l sizes, struct_fields d l /\ tag_attribute (di_attrs d) (tc_tag c) /\ sized l sizes /\ aligned_fields sizes /\
    length (tc_methods c) = length l /\
    (forall i n t, nth_error l i = Some (n, t) -> nth_error (tc_methods c) i = Some (n, (t, sum (firstn i sizes)))) /\
    tc_size c = sum sizes.
Proof.
  intros d c. rewrite table_spec. unfold offsets_from. split.
  - intros (l & sizes & A & B & C & D & (E & F) & G). exists l, sizes.
    split; [exact A|]. split; [exact B|]. split; [exact C|]. split; [exact D|]. split; [exact E|]. split; [exact F|exact G].
  - intros (l & sizes & A & B & C & D & E & F & G). exists l, sizes.
    split; [exact A|]. split; [exact B|]. split; [exact C|]. split; [exact D|]. split; [split; [exact E|exact F]|exact G].
Qed.

(** These are also the offsets of a C compiler that aligns to at most four bytes. *)
Lemma c_layout sizes : forall o,
  (forall i s, nth_error sizes i = Some s -> N.divide (N.min s 4) (o + sum (firstn i sizes))) ->
  TaggedUnionSpec.laid_out (N.to_nat o)
    (map (fun s => TaggedUnion.Ty (N.to_nat s) (N.to_nat (N.min s 4))) sizes)
    (map (fun i => N.to_nat (o + sum (firstn i sizes))) (seq 0 (length sizes))).
Proof.
  induction sizes as [|s sizes IH]; intros o A; [constructor|].
  cbn [length seq map firstn sum fold_right]. rewrite N.add_0_r. constructor.
  - lia.
  - cbn [TaggedUnion.ty_align]. specialize (A O s eq_refl). cbn [firstn sum fold_right] in A. rewrite N.add_0_r in A.
    destruct A as (k & ->). exists (N.to_nat k). lia.
  - intros o' L _. exact L.
  - cbn [TaggedUnion.ty_size]. rewrite <- N2Nat.inj_add. rewrite <- seq_shift, map_map.
    rewrite (map_ext _ (fun i => N.to_nat (o + s + sum (firstn i sizes)))); [apply (IH (o + s))|].
    + intros i s' X. specialize (A (S i) s' X). cbn [firstn sum fold_right] in A.
      replace (o + s + sum (firstn i sizes)) with (o + (s + fold_right N.add 0 (firstn i sizes))) by (unfold sum; lia).
      exact A.
    + intros i. cbn [firstn sum fold_right]. unfold sum. f_equal. lia.
Qed.
Theorem C70_tables_c_layout : forall d c, derive_sfnt_table d = Some c ->
  exists l sizes, struct_fields d l /\ sized l sizes /\
    TaggedUnionSpec.laid_out 0 (map (fun s => TaggedUnion.Ty (N.to_nat s) (N.to_nat (N.min s 4))) sizes)
      (map (fun m => N.to_nat (snd (snd m))) (tc_methods c)).
Proof.
  intros d c H. apply table_spec in H as (l & sizes & A & _ & S & D & (E & F) & _). exists l, sizes.
  split; [exact A|]. split; [exact S|].
  pose proof (c_layout sizes 0 D) as C. cbn [N.to_nat] in C.
  assert (X : map (fun m => N.to_nat (snd (snd m))) (tc_methods c) =
              map (fun i => N.to_nat (0 + sum (firstn i sizes))) (seq 0 (length sizes))).
  { assert (L : length l = length sizes) by (clear - S; induction S; cbn; congruence).
    apply nth_error_same. intros i. rewrite !nth_error_map.
    destruct (nth_error l i) as [[n t]|] eqn:N.
    - rewrite (F i n t N). assert (I : (i < length l)%nat) by (apply nth_error_Some; congruence).
      rewrite (nth_error_nth' (seq 0 (length sizes)) O) by (rewrite seq_length; lia).
      rewrite seq_nth by lia. reflexivity.
    - apply nth_error_None in N.
      assert (P : nth_error (tc_methods c) i = None) by (apply nth_error_None; lia).
      assert (Q : nth_error (seq 0 (length sizes)) i = None) by (apply nth_error_None; rewrite seq_length; lia).
      rewrite P, Q. reflexivity. }
  rewrite X. exact C.
Qed.

(** The size asserted is that of the struct just if it is a multiple of the alignment of each field. *)
Theorem C70_tables_size : forall align d l c, platform align -> derive_sfnt_table d = Some c -> struct_fields d l ->
  (accepts_sfnt_table align l c = true <-> forall f, In f l -> N.divide (align (snd f)) (tc_size c)) /\
  (accepts_sfnt_table align l c = true -> rust_struct_size align l = tc_size c).
Proof.
  intros align d l c P H S. apply table_spec in H as (l' & sizes & S' & _ & Z & _ & _ & E).
  assert (l' = l).
  { destruct S as [S|[-> [S|S]]], S' as [S'|[-> [S'|S']]]; rewrite S in S'; try congruence; discriminate. }
  subst l'. split.
  - rewrite (accepts_table align l sizes c P Z E), E. reflexivity.
  - intros A. apply N.eqb_eq. exact A.
Qed.

(** The tables of /repo: all are accepted on every platform, and have the tags, offsets and sizes that the model of
    the font parser uses. *)
Definition all_tables : list (derive_input * FontParsing.layout * option bytes) :=
  [(decl_OffsetSubtable, FontParsing.OffsetSubtable, None);
   (decl_TableDirectoryEntry, FontParsing.TableDirectoryEntry, None);
   (decl_MaximumProfile, FontParsing.MaximumProfile, Some (bs "maxp"));
   (decl_NamingTableHeader, FontParsing.NamingTableHeader, Some (bs "name"));
   (decl_NameRecord, FontParsing.NameRecord, None);
   (decl_CmapHeader, FontParsing.CmapHeader, Some (bs "cmap"));
   (decl_CmapEncodingRecord, FontParsing.CmapEncodingRecord, None);
   (decl_CmapFormat4Header, FontParsing.CmapFormat4Header, None);
   (decl_CmapFormat12Header, FontParsing.CmapFormat12Header, None);
   (decl_CmapFormat12Group, FontParsing.CmapFormat12Group, None);
   (decl_FontHeader, FontParsing.FontHeader, Some (bs "head"));
   (decl_HorizontalHeader, FontParsing.HorizontalHeader, Some (bs "hhea"));
   (decl_LongHorizontalMetricsRecord, FontParsing.LongHorizontalMetricsRecord, Some (bs "hmtx"))].
(** The largest size among the fields divides that of the struct, and is a multiple of the others *)
Definition largest (l : list (ident * ty)) : N :=
  fold_right (fun f a => match size_of_ty (snd f) with Some s => N.max s a | None => a end) 1 l.
Definition fine (x : derive_input * FontParsing.layout * option bytes) : bool :=
  let '(d, layout, tag) := x in
  match derive_sfnt_table d, di_data d with
  | Some c, Struct (Named l) =>
      option_bytes_eqb (tc_tag c) tag && (tc_size c =? FontParsing.size_of layout) &&
      forallb (fun f => match assoc (tc_methods c) (bs (fst f)) with
                        | Some (_, o) => o =? FontParsing.field_offset 0 layout (fst f)
                        | None => false
                        end) layout &&
      list_eqb bytes_eqb (map fst l) (map (fun f => bs (fst f)) layout) &&
      (tc_size c mod largest l =? 0) &&
      forallb (fun f => match size_of_ty (snd f) with Some s => largest l mod s =? 0 | None => false end) l &&
      negb (largest l =? 0)
  | _, _ => false
  end.
Lemma all_fine : forallb fine all_tables = true.
Proof. vm_compute. reflexivity. Qed.
Theorem C70_font_tables : forall d layout tag, In (d, layout, tag) all_tables ->
  exists l c, di_data d = Struct (Named l) /\ derive_sfnt_table d = Some c /\ tc_tag c = tag /\
    map fst l = map (fun f => bs (fst f)) layout /\
    (forall n t, In (n, t) layout -> exists ty, assoc (tc_methods c) (bs n) = Some (ty, FontParsing.field_offset 0 layout n)) /\
    tc_size c = FontParsing.size_of layout /\
    forall align, platform align -> accepts_sfnt_table align l c = true /\
      rust_struct_size align l = FontParsing.size_of layout.
Proof.
  intros d layout tag I. pose proof all_fine as F. rewrite forallb_forall in F. specialize (F _ I). clear I.
  unfold fine in F. destruct (derive_sfnt_table d) as [c|] eqn:D; [|discriminate].
  destruct (di_data d) as [[| |l]| |] eqn:E; try discriminate.
  rewrite !andb_true_iff in F. destruct F as [[[[[[T Z] O] N] M] L] NZ].
  apply N.eqb_eq in Z. apply negb_true_iff, N.eqb_neq in NZ. apply N.eqb_eq, N.mod_divide in M; [|exact NZ].
  exists l, c. split; [reflexivity|]. split; [reflexivity|]. split; [|split; [|split; [|split]]].
  - unfold option_bytes_eqb in T. destruct (tc_tag c), tag; try discriminate; auto. apply beq_true in T. congruence.
  - apply (list_eqb_true _ beq_true) in N. exact N.
  - intros n t J. rewrite forallb_forall in O. specialize (O _ J). cbn [fst] in O.
    destruct (assoc _ _) as [[ty o]|]; [|discriminate]. apply N.eqb_eq in O. subst o. exists ty. reflexivity.
  - exact Z.
  - intros align P.
    destruct (C70_tables_size align d l c P D (or_introl E)) as [A B].
    assert (Q : accepts_sfnt_table align l c = true).
    { apply A. intros f J. rewrite forallb_forall in L. specialize (L f J).
      destruct (size_of_ty (snd f)) as [s|] eqn:S; [|discriminate]. apply size_of_ty_spec in S.
      pose proof (type_sizes _ _ S) as SS. apply N.eqb_eq, N.mod_divide in L; [|cbn [In] in SS; lia].
      destruct (P _ _ S) as [_ DV]. eapply N.divide_trans; [exact DV|]. eapply N.divide_trans; [exact L|exact M]. }
    split; [exact Q|]. rewrite <- Z. apply B. exact Q.
Qed.

(** The assertion of the macro as it is in FontParsing.v *)
Theorem C70_aligned : forall layout, FontParsing.aligned 0 layout = true <-> aligned_fields (map (fun f => FontParsing.field_size (snd f)) layout).
Proof.
  assert (G : forall layout from, FontParsing.aligned from layout = true <->
    forall i s, nth_error (map (fun f : string * FontParsing.field_type => FontParsing.field_size (snd f)) layout) i = Some s ->
      N.divide (N.min s 4) (from + sum (firstn i (map (fun f => FontParsing.field_size (snd f)) layout)))).
  { induction layout as [|[n t] r IH]; intros from; cbn [FontParsing.aligned map].
    - split; [intros _ [|i] s E; discriminate E|reflexivity].
    - assert (NZ : N.min (FontParsing.field_size t) 4 <> 0) by (destruct t; discriminate).
      rewrite andb_true_iff, N.eqb_eq, N.mod_divide by exact NZ. rewrite IH. split.
      + intros [H0 H] [|i] s E; cbn [nth_error snd] in E.
        * injection E as <-. cbn [firstn sum fold_right]. rewrite N.add_0_r. exact H0.
        * specialize (H i s E). cbn [firstn snd]. unfold sum in *. cbn [fold_right]. rewrite N.add_assoc. exact H.
      + intros H. split.
        * specialize (H O _ eq_refl). cbn [firstn sum fold_right snd] in H. rewrite N.add_0_r in H. exact H.
        * intros i s E. specialize (H (S i) s E). cbn [firstn snd] in H. unfold sum in *. cbn [fold_right] in H. rewrite N.add_assoc in H. exact H. }
  intros layout. rewrite G. unfold aligned_fields. split; intros H i s E; specialize (H i s E); rewrite ?N.add_0_l in *; exact H.
Qed.
Example C70_aligned_meets : map (FontParsing.aligned 0)
  [FontParsing.FontHeader; [("flags", FontParsing.U16); ("created", FontParsing.LongDateTime)]%string] = [true; false].
Proof. vm_compute. reflexivity. Qed.

(** On x86-64 the alignments are the sizes, but for tags, which are arrays of bytes. *)
Definition x86_64 (t : ty) : N :=
  if ty_eqb t (simple "Tag") then 1 else match size_of_ty t with Some s => s | None => 1 end.
Example C70_tables_meet : platform x86_64 /\
  (* a struct that would be filled up is refused *)
  (exists c, derive_sfnt_table (table None "T" [("a", "u32"); ("b", "u16")]%string) = Some c /\
     accepts_sfnt_table x86_64 [(bs "a", simple "u32"); (bs "b", simple "u16")] c = false) /\
  (* and one with a field that is not aligned *)
  derive_sfnt_table (table None "T" [("a", "u16"); ("b", "u32")]%string) = None.
Proof.
  split; [|split].
  - intros t s T. unfold x86_64. pose proof (type_sizes _ _ T) as SS. destruct (ty_eqb t (simple "Tag")).
    + split; [left; reflexivity|apply N.divide_1_l].
    + pose proof T as T'. apply size_of_ty_spec in T'. rewrite T'. split; [right; exact SS|apply N.divide_refl].
  - eexists. split; [vm_compute; reflexivity|vm_compute; reflexivity].
  - vm_compute. reflexivity.
Qed.

(** ** The values of the style system: what the model of it uses is what the macros write *)
(** The fields, with the parsers of their types *)
Inductive field := FLength (l : specified_length) | FPercentage (p : Q) | FLp (x : specified_lp).
Definition through {A B} (f : A -> B) (o : option (A * list token)) : option (B * list token) :=
  match o with Some (a, r) => Some (f a, r) | None => None end.
Definition parse_field (t : ty) : parser field := fun ts =>
  if ty_eqb t (simple "SpecifiedLength") then through FLength (parse_specified_length ts)
  else if ty_eqb t (simple "Percentage") then through FPercentage (parse_percentage ts)
  else if ty_eqb t (simple "SpecifiedLengthOrPercentage") then through FLp (parse_specified_lp ts)
  else None.
Definition derived (d : derive_input) (ts : list token) : option (value field * list token) :=
  match derive_parse d with Some code => run_parse field parse_field d code ts | None => None end.
Definition variant_ {U} (t n : string) (c : contents U) : value U := Value (Path (bs t) (Some (bs n))) c.
Arguments variant_ {U} (t n)%string_scope c.
Definition as_lp (x : specified_lp) : value field :=
  match x with
  | SLength l => variant_ "SpecifiedLengthOrPercentage" "Length" (CTuple [FLength l])
  | SPercentage p => variant_ "SpecifiedLengthOrPercentage" "Percentage" (CTuple [FPercentage p])
  end.
Definition as_lpa (x : specified_lpa) : value field :=
  match x with
  | SALength l => variant_ "SpecifiedLengthOrPercentageOrAuto" "Length" (CTuple [FLength l])
  | SAPercentage p => variant_ "SpecifiedLengthOrPercentageOrAuto" "Percentage" (CTuple [FPercentage p])
  | SAAuto => variant_ "SpecifiedLengthOrPercentageOrAuto" "Auto" CUnit
  end.
Definition as_line_style (x : line_style) : value field :=
  match x with LineNone => variant_ "LineStyle" "None" CUnit | LineSolid => variant_ "LineStyle" "Solid" CUnit end.
Definition as_float (x : float) : value field :=
  match x with
  | FloatNone => variant_ "Float" "None" CUnit
  | FloatLeft => variant_ "Float" "Left" CUnit
  | FloatRight => variant_ "Float" "Right" CUnit
  end.
Definition as_position (x : position) : value field :=
  match x with
  | Static => variant_ "Position" "Static" CUnit
  | Relative => variant_ "Position" "Relative" CUnit
  | Absolute => variant_ "Position" "Absolute" CUnit
  end.
Definition as_css_wide (x : css_wide_keyword) : value field :=
  match x with
  | Inherit => variant_ "CssWideKeyword" "Inherit" CUnit
  | Initial => variant_ "CssWideKeyword" "Initial" CUnit
  | Unset => variant_ "CssWideKeyword" "Unset" CUnit
  end.
(** border.rs:39-47: the width for a value of [ParsedLineWidth] *)
Inductive parsed_line_width : value field -> specified_lp -> Prop :=
| parsed_thin : parsed_line_width (variant_ "ParsedLineWidth" "Thin" CUnit) (SLength (SAbsolute 1))
| parsed_medium : parsed_line_width (variant_ "ParsedLineWidth" "Medium" CUnit) (SLength (SAbsolute 3))
| parsed_thick : parsed_line_width (variant_ "ParsedLineWidth" "Thick" CUnit) (SLength (SAbsolute 5))
| parsed_other : forall x, parsed_line_width (variant_ "ParsedLineWidth" "Other" (CTuple [FLp x])) x.

Lemma beq_sym a b : bytes_eqb a b = bytes_eqb b a.
Proof. destruct (bytes_eqb b a) eqn:E; [apply beq_true in E; apply beq_true; auto|]. apply beq_false in E. apply beq_false. auto. Qed.

Ltac run_derived ts :=
  unfold derived;
  match goal with |- context [derive_parse ?d] =>
    let c := eval vm_compute in (derive_parse d) in change (derive_parse d) with c end;
  cbv iota beta; cbn [run_parse];
  repeat match goal with |- context [fields_of ?d ?p] =>
    let c := eval vm_compute in (fields_of d p) in change (fields_of d p) with c end;
  cbv iota beta; unfold parse_field;
  repeat match goal with |- context [ty_eqb ?d ?p] =>
    let c := eval vm_compute in (ty_eqb d p) in change (ty_eqb d p) with c end;
  cbv iota beta.
Ltac literals :=
  unfold variant_;
  repeat match goal with |- context [bs ?s] => let c := eval vm_compute in (bs s) in change (bs s) with c end.
Ltac by_keyword i :=
  cbn [assoc lookup_keyword through]; literals;
  repeat match goal with |- context [bytes_eqb i ?x] => rewrite (beq_sym i x) end;
  repeat match goal with |- context [bytes_eqb ?x i] => destruct (bytes_eqb x i); [reflexivity|] end; reflexivity.

Theorem C70_style_parse : forall ts,
  derived decl_SpecifiedLengthOrPercentage ts = through as_lp (parse_specified_lp ts) /\
  derived decl_SpecifiedLengthOrPercentageOrAuto ts = through as_lpa (parse_specified_lpa ts) /\
  derived decl_LineStyle ts = through as_line_style (parse_line_style ts) /\
  derived decl_Float ts = through as_float (parse_float ts) /\
  derived decl_Position ts = through as_position (parse_position ts) /\
  derived decl_CssWideKeyword ts = through as_css_wide (parse_css_wide ts) /\
  (forall w r, parse_line_width ts = Some (w, r) <->
     exists v, derived decl_ParsedLineWidth ts = Some (v, r) /\ parsed_line_width v w).
Proof.
  intros ts. split; [|split; [|split; [|split; [|split; [|split]]]]].
  - run_derived ts. unfold parse_specified_lp. destruct (parse_specified_length ts) as [[l r]|]; cbn [through].
    + unfold as_lp. literals. reflexivity.
    + destruct (parse_percentage ts) as [[p r]|]; cbn [through]; [unfold as_lp; literals; reflexivity|reflexivity].
  - run_derived ts. unfold parse_specified_lpa. destruct (parse_specified_length ts) as [[l r]|]; cbn [through].
    + unfold as_lpa. literals. reflexivity.
    + destruct (parse_percentage ts) as [[p r]|]; cbn [through]; [unfold as_lpa; literals; reflexivity|].
      unfold parse_keyword. destruct ts as [|[i| | | | |] ts]; try reflexivity. by_keyword i.
  - run_derived ts. unfold parse_line_style, parse_keyword. destruct ts as [|[i| | | | |] ts]; try reflexivity. by_keyword i.
  - run_derived ts. unfold parse_float, parse_keyword. destruct ts as [|[i| | | | |] ts]; try reflexivity. by_keyword i.
  - run_derived ts. unfold parse_position, parse_keyword. destruct ts as [|[i| | | | |] ts]; try reflexivity. by_keyword i.
  - run_derived ts. unfold parse_css_wide, parse_keyword. destruct ts as [|[i| | | | |] ts]; try reflexivity. by_keyword i.
  - intros w r. run_derived ts. unfold parse_line_width. destruct (parse_specified_lp ts) as [[l r']|]; cbn [through].
    + split.
      * intros H. inversion H. subst. eexists. split; [reflexivity|]. constructor.
      * intros (v & H & P). inversion H. subst. inversion P. reflexivity.
    + unfold parse_keyword. destruct ts as [|[i| | | | |] ts];
        try (split; [discriminate|intros (v & H & _); discriminate]).
      cbn [assoc lookup_keyword]. rewrite !(beq_sym i).
      destruct (bytes_eqb (bs "thin") i) eqn:E1;
        [|destruct (bytes_eqb (bs "medium") i) eqn:E2; [|destruct (bytes_eqb (bs "thick") i) eqn:E3]].
      all: match type of E1 with _ = ?b => let c := eval vm_compute in (bs "thin") in change (bytes_eqb c i = b) in E1 end; rewrite E1.
      all: try (match type of E2 with _ = ?b => let c := eval vm_compute in (bs "medium") in change (bytes_eqb c i = b) in E2 end; rewrite E2).
      all: try (match type of E3 with _ = ?b => let c := eval vm_compute in (bs "thick") in change (bytes_eqb c i = b) in E3 end; rewrite E3).
      all: split; [intros H; inversion H; subst; eexists; (split; [reflexivity|constructor])
                  |intros (v & H & P); inversion H; subst; inversion P; reflexivity].
Qed.

(** The fields computed *)
Inductive cfield := CLength (px : Q) | CPercentage (p : Q) | CLp (x : lp).
Definition as_clp (x : lp) : value cfield :=
  match x with
  | LpLength l => variant_ "LengthOrPercentage" "Length" (CTuple [CLength l])
  | LpPercentage p => variant_ "LengthOrPercentage" "Percentage" (CTuple [CPercentage p])
  end.
Definition as_clpa (x : lpa) : value cfield :=
  match x with
  | LpaLength l => variant_ "LengthOrPercentageOrAuto" "Length" (CTuple [CLength l])
  | LpaPercentage p => variant_ "LengthOrPercentageOrAuto" "Percentage" (CTuple [CPercentage p])
  | LpaAuto => variant_ "LengthOrPercentageOrAuto" "Auto" CUnit
  end.
(** With the font size of the element; [derive(SpecifiedAsComputed)] for percentages *)
Definition compute_field (font_size : Q) (_ : ty) (x : field) : cfield :=
  match x with
  | FLength l => CLength (length_from_specified font_size l)
  | FPercentage p => CPercentage p
  | FLp x => CLp (lp_from_specified font_size x)
  end.
Definition derived_computed (font_size : Q) (d : derive_input) (v : value field) : option (value cfield) :=
  match derive_from_specified d with
  | Some code => run_from_specified field cfield (compute_field font_size) d code v
  | None => None
  end.
Theorem C70_style_computed : forall font_size,
  (forall x, derived_computed font_size decl_LengthOrPercentage (as_lp x) = Some (as_clp (lp_from_specified font_size x))) /\
  (forall x, derived_computed font_size decl_LengthOrPercentageOrAuto (as_lpa x) =
             Some (as_clpa (lpa_from_specified font_size x))) /\
  (forall x, derived_computed font_size decl_LineWidth (Value (Path (bs "SpecifiedLineWidth") None) (CTuple [FLp x])) =
             Some (Value (Path (bs "LineWidth") None) (CTuple [CLp (lp_from_specified font_size x)]))).
Proof. intros font_size. split; [|split]; intros x; try destruct x; reflexivity. Qed.

(** All declarations of /repo that have [derive(Parse)] are accepted. *)
Example C70_parse_meet : Forall (fun d => exists code, derive_parse d = Some code)
  [decl_SpecifiedLengthOrPercentage; decl_SpecifiedLengthOrPercentageOrAuto; decl_LineStyle; decl_ParsedLineWidth;
   decl_Float; decl_Position; decl_CssWideKeyword; decl_Direction; decl_WritingMode] /\
  nodup_names [bare "HorizontalTb"; bare "VerticalRl"] /\
  derived decl_WritingMode [TIdent (bs "sideways-rl")] = Some (variant_ "WritingMode" "SidewaysRl" CUnit, []) /\
  derived decl_ParsedLineWidth [TIdent (bs "Thin")] = None /\
  derive_parse (Input [] (bs "Normal") (Struct Unit)) <> None.
Proof.
  split; [repeat constructor; eexists; vm_compute; reflexivity|]. split; [|split; [|split]].
  - constructor; [|constructor; [intros []|constructor]]. intros [H|[]]. vm_compute in H. discriminate.
  - vm_compute. reflexivity.
  - vm_compute. reflexivity.
  - vm_compute. discriminate.
Qed.

Print Assumptions C70_keywords.
Print Assumptions C70_keywords_distinct.
Print Assumptions C70_parse.
Print Assumptions C70_parse_struct.
Print Assumptions C70_parse_compiles.
Print Assumptions C70_keywords_refuted.
Print Assumptions C70_order_refuted.
Print Assumptions C70_from_variants.
Print Assumptions C70_from_specified.
Print Assumptions C70_tables.
Print Assumptions C70_tables_c_layout.
Print Assumptions C70_tables_size.
Print Assumptions C70_font_tables.
Print Assumptions C70_style_parse.
Print Assumptions C70_style_computed.
Print Assumptions C70_aligned.
