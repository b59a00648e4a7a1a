(** Boxes in normal flow do not overlap. *)
From Coq Require Import QArith Qminmax Lqa Lia.
From Verif Require Import Base Dom StyleValues StyleProperties StyleCascade PdfConvert Geom Text LayoutTree Layout LayoutSpec LayoutProofs LayoutBlockProofs LayoutProps BlockStackSpec BlockStackProofs.
Local Open Scope Q_scope.

(** ** C86 *)
Section Font.
Variable glyph_id : N -> res font_error N.
Variable glyph_width : N -> res font_error Q.
Notation layout := (box_tree_root_layout glyph_id glyph_width).
Theorem C86_stacked : forall o contents floats viewport frs,
  layout o (BFC contents floats) viewport = Some frs ->
  all_flowing height_not_negative contents -> 0 <= v_block viewport ->
  exists flow absolute, frs = flow ++ absolute /\ stacked 0 flow /\ tidy flow.
Proof.
  intros o contents floats viewport frs H Hf Hv.
  destruct (document glyph_id glyph_width _ _ _ _ _ H) as (flow & absolute & inner & places & H1 & H2 & H3 & _).
  exists flow, absolute. split; [exact H1|].
  destruct (flow_fits glyph_id glyph_width height_not_negative (fun l K => K)) as (_ & K & _).
  destruct (K _ _ _ _ _ H3 _ H2 Hf Hv (or_intror eq_refl)) as (_ & K1 & K2 & _). split; assumption.
Qed.
(** If all heights are [auto], no two boxes or lines overlap unless one is inside the other. *)
Theorem C86_no_overlap : forall o contents floats viewport frs,
  layout o (BFC contents floats) viewport = Some frs ->
  all_flowing (eq LpaAuto) contents -> 0 <= v_block viewport ->
  exists flow absolute, frs = flow ++ absolute /\
    forall p q t z t' z', appears flow p t z -> appears flow q t' z' -> comes_before p q -> t < z -> z <= t'.
Proof.
  intros o contents floats viewport frs H Hf Hv.
  destruct (document glyph_id glyph_width _ _ _ _ _ H) as (flow & absolute & inner & places & H1 & H2 & H3 & _).
  exists flow, absolute. split; [exact H1|].
  assert (HP : forall l, LpaAuto = l -> height_not_negative l) by (intros l <-; exact I).
  destruct (flow_fits glyph_id glyph_width (eq LpaAuto) HP) as (_ & K & _).
  destruct heights_fit as (_ & A & _). specialize (A _ _ _ _ _ H3 Hf).
  intros p q t z t' z' P1 P2 B L.
  destruct (K _ _ _ _ _ H3 _ H2 Hf Hv (or_intror eq_refl)) as (_ & K1 & K2 & _).
  exact (no_overlap flow p q t z t' z' P1 P2 B 0 K1 K2 A L).
Qed.
End Font.

(** ** Examples and findings *)
Definition ex_stack : block_container :=
  BlockLevelBoxes
    [block (set margin_top (LpaLength 20) (set margin_bottom (LpaLength 8) plain))
       [lines_block (set margin_top (LpaLength 30) plain);
        absolute (set width (LpaLength 40) plain) [lines_block plain];
        block (set margin_top (LpaLength 4) (set margin_bottom (LpaLength 16) plain)) []];
     block (set padding_top (LpLength 5) plain) [lines_block plain; lines_block (set margin_top (LpaLength 2) plain)]].
Example ex_stack_flows : all_flowing (eq LpaAuto) ex_stack.
Proof.
  unfold ex_stack, block, absolute, lines_block. repeat (constructor; try (cbv; discriminate); try exact I).
Qed.
Definition stack_test : bool :=
  match lay (BFC ex_stack false) (mkVec 20 100) with
  | Some (FBox b (FBox c (_ :: FAnonymous r _ (_ :: _) :: _) :: _) :: FBox b' (FBox c' (FAnonymous r' _ (_ :: _) :: _) :: _) :: _) =>
      (Qeq_bool (content_top b + (content_top c + line_top r)) (246#5) && Qeq_bool (content_top b + (content_top c + line_bottom r)) (342#5) &&
       Qeq_bool (content_top b' + (content_top c' + line_top r')) (447#5))%bool
  | _ => false
  end.
(** The second line of the first paragraph and the first of the next one *)
Example C86_example : exists frs t z t' z', lay (BFC ex_stack false) (mkVec 20 100) = Some frs /\
  appears frs [0; 0; 1]%nat t z /\ appears frs [1; 0; 0]%nat t' z' /\ comes_before [0; 0; 1]%nat [1; 0; 0]%nat /\
  t == 246#5 /\ z == 342#5 /\ t' == 447#5.
Proof.
  assert (T : stack_test = true) by (vm_compute; reflexivity). unfold stack_test in T.
  destruct (lay _ _) as [frs|]; [|discriminate T].
  destruct frs as [|[b [|[c [|x [|[|r m [|y l]|] l2]]| |] l3]| |] frs]; try discriminate T.
  destruct frs as [|[b' [|[c' [|[|r' m' [|y' l']|] l2']| |] l3']| |] frs]; try discriminate T.
  apply Bool.andb_true_iff in T. destruct T as [T T3]. apply Bool.andb_true_iff in T. destruct T as [T1 T2].
  apply Qeq_bool_iff in T1, T2, T3. do 5 eexists. split; [reflexivity|].
  split; [eapply ap_inside; [reflexivity|]; eapply ap_inside; [reflexivity|]; eapply ap_line; [reflexivity|discriminate]|].
  split; [eapply ap_inside; [reflexivity|]; eapply ap_inside; [reflexivity|]; eapply ap_line; [reflexivity|discriminate]|].
  split; [apply cb_here; lia|]. split; [exact T1|]. split; [exact T2|exact T3].
Qed.
(** CSS 2 §8.3 and §8.4 let margins and padding be percentages, of the width of the containing block,
    which is never negative.  Here it may be (see C45_negative_refuted), and then boxes overlap although
    no value is negative: here the second begins at 5 and the first ends at 10. *)
Definition wide : computed_values := set padding_left (LpLength 300) plain.
Definition ten_high : computed_values := set height (LpaLength 10) plain.
Definition percentage_test (style : computed_values) : bool :=
  match lay (page [block wide [block ten_high []; block style []]]) ex_viewport with
  | Some [FBox _ [FBox f _; FBox g _]] =>
      (Qeq_bool (border_top f) 0 && Qeq_bool (border_bottom f) 10 && Qeq_bool (border_top g) 5 && Qeq_bool (border_bottom g) 15)%bool
  | _ => false
  end.
Theorem C86_percentage_refuted : exists style viewport b f g children children',
  get style margin_top = LpaPercentage (1#20) /\ 0 <= v_inline viewport /\ 0 <= v_block viewport /\
  lay (page [block wide [block ten_high []; block style []]]) viewport = Some [FBox b [FBox f children; FBox g children']] /\
  border_top f == 0 /\ border_bottom f == 10 /\ border_top g == 5 /\ border_bottom g == 15.
Proof.
  set (s := set margin_top (LpaPercentage (1#20)) ten_high). exists s, ex_viewport.
  assert (T : percentage_test s = true) by (vm_compute; reflexivity). unfold percentage_test in T.
  destruct (lay _ _) as [[|[b [|[f c| |] [|[g c'| |] [|]]]| |] [|]]|]; try discriminate T.
  apply Bool.andb_true_iff in T. destruct T as [T T4]. apply Bool.andb_true_iff in T. destruct T as [T T3].
  apply Bool.andb_true_iff in T. destruct T as [T1 T2]. apply Qeq_bool_iff in T1, T2, T3, T4.
  exists b, f, g, c, c'. split; [reflexivity|]. split; [vm_compute; discriminate|]. split; [vm_compute; discriminate|].
  split; [reflexivity|]. repeat split; assumption.
Qed.

Print Assumptions C86_stacked.
Print Assumptions C86_no_overlap.
Print Assumptions C86_percentage_refuted.
