(** Property C101: the numbers of a document are those of binary32 *)
From Coq Require Import QArith Lia.
From Verif Require Import PdfObject PdfConvert Base Dom StyleValues StyleProperties StyleCascade UserAgent Geom Text LayoutTree Layout Paint BoxTree
  FontProofs FontParsing FontCmap FontSafetyProofs LesterFloat LesterFloatProofs Float32 Float32Proofs Arith32 Arith32Spec Arith32Proofs LayoutArith LayoutRelSpec LayoutRelProps
  RoundingProofs Dtoa32Props StyleSpec StyleProofs StyleProps MainProps StyleNumbersSpec StyleNumbersProofs.
Local Open Scope nat_scope.

(** A parser takes tokens from the front *)
Definition takes_tokens {A} (p : parser A) : Prop := forall ts v r, p ts = Some (v, r) -> exists used, ts = used ++ r.

Theorem C101_style : forall parse_color selector specificity matches items_of ua_sheets author_sheets ua author d n parent s,
  takes_tokens parse_color ->
  Forall (Forall (rule_numbers number32)) ua_sheets -> Forall (Forall (rule_numbers number32)) author_sheets ->
  (forall v, Forall (item_numbers number32) (items_of v)) ->
  add_stylesheets parse_color selector [] ua_sheets = Ok ua -> add_stylesheets parse_color selector [] author_sheets = Ok author ->
  (forall p, parent = Some p -> style_numbers number32 p) ->
  style_for_element parse_color selector matches items_of (finish selector specificity ua) (finish selector specificity author) d n parent = Ok s ->
  style_numbers number32 s.
Proof.
  intros pc sel sp mt io us aus ua au d n parent s Pc Hu Ha Hi Eu Ea Hp E.
  assert (W : forall k, (Z.abs k < 2 ^ 24)%Z -> number32 (inject_Z k)) by exact whole32.
  refine (element_fine number32 (W 0%Z eq_refl) (W 1%Z eq_refl) (W 3%Z eq_refl) (W 5%Z eq_refl) (W 16%Z eq_refl) f32_mul_number pc Pc sel mt io Hi
    _ _ d n parent s _ _ Hp E); apply finish_set_ok.
  - exact (sheets_ok number32 (W 0%Z eq_refl) (W 1%Z eq_refl) (W 3%Z eq_refl) (W 5%Z eq_refl) pc Pc sel us [] ua Hu (Forall_nil _) Eu).
  - exact (sheets_ok number32 (W 0%Z eq_refl) (W 1%Z eq_refl) (W 3%Z eq_refl) (W 5%Z eq_refl) pc Pc sel aus [] au Ha (Forall_nil _) Ea).
Qed.

Theorem C101_boxes : forall parse_color selector specificity matches items_of rules_of user_agent d root w,
  takes_tokens parse_color ->
  (forall t, Forall (rule_numbers number32) (rules_of t)) -> Forall (rule_numbers number32) user_agent ->
  (forall v, Forall (item_numbers number32) (items_of v)) ->
  box_tree_root_construct parse_color selector specificity matches items_of rules_of user_agent d = Ok (root, w) ->
  every_style (style_numbers number32) root.
Proof.
  intros pc sel sp mt io ro ua d root w Pc Hr Hu Hi E.
  assert (W : forall k, (Z.abs k < 2 ^ 24)%Z -> number32 (inject_Z k)) by exact whole32.
  exact (boxes_fine number32 (W 0%Z eq_refl) (W 1%Z eq_refl) (W 3%Z eq_refl) (W 5%Z eq_refl) (W 16%Z eq_refl) f32_mul_number pc Pc sel sp mt io Hi ro Hr ua Hu d root w E).
Qed.

(** The widths of glyphs of any font *)
Theorem C101_widths : forall m pf g w, wf_bytes (pf_bytes pf) -> glyph_width m pf g = Ok w -> finite32 w.
Proof.
  intros m pf g w Wf E. unfold glyph_width in E. destruct (advance_width m pf g) as [a|x|] eqn:Ea; cbn [bind] in E; [|discriminate E..].
  assert (B : (a < 65536)%N).
  { unfold advance_width in Ea. destruct (s_count (pf_metrics pf) =? 0)%N; [discriminate Ea|].
    match type of Ea with bind ?x _ = _ => destruct x as [p|x'|] end; cbn [bind] in Ea; [|discriminate Ea..].
    unfold field_u16 in Ea. destruct (field m LongHorizontalMetricsRecord "advance_width" p) as [q|x'|]; cbn [bind] in Ea; [|discriminate Ea..].
    exact (read_u16_lt _ _ _ Wf Ea). }
  injection E as <-. unfold to_ems. destruct (pf_units_per_em pf) as [|u].
  - exists 0%Z, 0%Z. repeat split; discriminate.
  - assert (Pq : (0 <= Z.of_N a # u)%Q) by (unfold Qle; cbn [Qnum Qden]; lia).
    assert (Lq : (Z.of_N a # u < too_large)%Q).
    { apply Qle_lt_trans with 65536%Q; [unfold Qle; cbn [Qnum Qden]; lia|reflexivity]. }
    destruct (rounded_is_round32 _ Pq Lq) as [<- F]. exact F.
Qed.

(** The numbers of the user-agent style sheet *)
Lemma user_agent_numbers : forall other, Forall (rule_numbers number32) (user_agent_css other).
Proof.
  intros other. unfold user_agent_css.
  repeat (constructor; [cbn [rule_numbers];
    repeat (constructor; [cbn [item_numbers]; repeat (constructor; [cbn [token_number]; first [exact I|exact (whole32 0 eq_refl)|exact (whole32 8 eq_refl)]|]); try constructor|]); try constructor|]).
  all: try constructor; try exact I.
Qed.

(** What is laid out on the page *)
Theorem C101_page : forall m pf parse_color other specificity matches items_of rules_of o d root w frs,
  wf_bytes (pf_bytes pf) -> takes_tokens parse_color ->
  (forall t, Forall (rule_numbers number32) (rules_of t)) -> (forall v, Forall (item_numbers number32) (items_of v)) ->
  box_tree_root_construct parse_color (ua_selector other) (ua_specificity other specificity) (ua_matches other matches) items_of rules_of
    (user_agent_css other) d = Ok (root, w) ->
  box_tree_root_layout_in f32 (glyph_id m pf) (glyph_width m pf) o root (mkVec PAGE_WIDTH PAGE_HEIGHT) = Some frs ->
  Forall (fragment_numbers number32) frs.
Proof.
  intros m pf pc other sp mt io ro o d root w frs Wf Pc Hr Hi E L.
  refine (C78_layout (glyph_id m pf) (glyph_width m pf) o root (mkVec PAGE_WIDTH PAGE_HEIGHT) frs _ _ _ L).
  - exact (C101_boxes _ _ _ _ _ _ _ _ _ _ Pc Hr (user_agent_numbers other) Hi E).
  - split; [exact (whole32 600 eq_refl)|]. cbn [v_block]. apply (whole32 800 eq_refl).
  - intros id x Ex. left. exact (C101_widths _ _ _ _ Wf Ex).
Qed.
(** The hypotheses hold of the page of C74 *)
Example C101_example : takes_tokens ex_color /\ (forall t, Forall (rule_numbers number32) (main_rules t)) /\
  (forall v, Forall (item_numbers number32) (main_items v)) /\
  (exists root w, box_tree_root_construct ex_color (ua_selector ex_selector) (ua_specificity ex_selector snd) (ua_matches ex_selector ex_matches)
    main_items main_rules (user_agent_css ex_selector) main_doc = Ok (root, w) /\ root <> BFC (BlockLevelBoxes []) false).
Proof.
  split; [|split; [|split]].
  - intros ts v r E. unfold ex_color in E. destruct ts as [|[i| | | | |] ts]; try discriminate E. exists [TIdent i].
    destruct (bytes_eqb i (bs "red")); [injection E as <- <-; reflexivity|]. destruct (bytes_eqb i (bs "currentcolor")); [injection E as <- <-; reflexivity|discriminate E].
  - intros t. unfold main_rules. destruct (bytes_eqb t (bs "p{}")); [|constructor].
    repeat first [exact I|exact (whole32 20 eq_refl)|constructor].
  - intros v. unfold main_items. destruct (bytes_eqb v (bs "x")); [|constructor]. constructor; [|constructor]. cbn [item_numbers].
    constructor; [exact (whole32 1 eq_refl)|]. constructor; [exact (whole32 2 eq_refl)|constructor].
  - match goal with |- exists root w, ?c = _ /\ _ => destruct c as [[root w]|x|] eqn:E end.
    + exists root, w. split; [reflexivity|]. intros ->. vm_compute in E. discriminate E.
    + destruct x.
    + exfalso. revert E. vm_compute. discriminate.
Qed.
(** Where rounding shows: [font-size: 3px; width: .1em], in which .1 is the nearest number of binary32.  The exact product is none. *)
Definition tenth : Q := 13421773 # 134217728.
Definition tenth_items : list item := [Item (bs "font-size") [px 3]; Item (bs "width") [TDimension tenth (bs "em")]].
Example C101_rounded : Forall (item_numbers number32) tenth_items /\
  (forall b, parse_block ex_color tenth_items = Ok b ->
    exists w, get (computed_new None (Some (mkMatching [] [b]))) width = LpaLength w /\ number32 w /\ ~ (w == 3 * tenth)%Q) /\
  ~ number32 (3 * tenth)%Q.
Proof.
  split; [|split].
  - constructor; [constructor; [exact (whole32 3 eq_refl)|constructor]|]. constructor; [|constructor]. constructor; [|constructor].
    left. exists 13421773%Z, (-27)%Z. repeat split; discriminate.
  - intros b E. vm_compute in E. injection E as <-. exists (f32_mul 3 tenth). split; [vm_compute; reflexivity|]. split; [apply f32_mul_number|].
    intros K. vm_compute in K. discriminate K.
  - intros [F|[K|[K|K]]]; [|vm_compute in K; discriminate K..]. apply finite32_round in F. vm_compute in F. discriminate F.
Qed.
(** Which number a multiple of the font size is: the one nearest to the exact product *)
Theorem C101_font_size : forall occ parent c o k, css_style occ parent c -> wins occ o -> o_declaration o = Declares font_size (SEm k) ->
  finite32 (inherits_from parent font_size) -> finite32 k -> nearest32 (inherits_from parent font_size * k)%Q (get c font_size).
Proof. intros occ parent c o k H W E F1 F2. rewrite (C30_font_size _ _ _ _ _ H W E). exact (f32_mul_nearest _ _ F1 F2). Qed.
Theorem C101_lengths_or_auto : forall occ parent c o p k (e : kind_of p = KLpa), css_style occ parent c -> wins occ o ->
  o_declaration o = Declares p (@eq_rect_r _ KLpa specified_kind (SALength (SEm k)) _ e) ->
  finite32 (get c font_size) -> finite32 k ->
  exists r, get c p = @eq_rect_r _ KLpa computed_kind (LpaLength r) _ e /\ nearest32 (get c font_size * k)%Q r.
Proof. intros occ parent c o p k e H W E F1 F2. eexists. split; [exact (C30_lengths_or_auto _ _ _ _ _ _ e H W E)|exact (f32_mul_nearest _ _ F1 F2)]. Qed.
Theorem C101_paddings : forall occ parent c o p k (e : kind_of p = KLp), css_style occ parent c -> wins occ o ->
  o_declaration o = Declares p (@eq_rect_r _ KLp specified_kind (SLength (SEm k)) _ e) ->
  finite32 (get c font_size) -> finite32 k ->
  exists r, get c p = @eq_rect_r _ KLp computed_kind (LpLength r) _ e /\ nearest32 (get c font_size * k)%Q r.
Proof. intros occ parent c o p k e H W E F1 F2. eexists. split; [exact (C30_paddings _ _ _ _ _ _ e H W E)|exact (f32_mul_nearest _ _ F1 F2)]. Qed.
Theorem C101_border_widths : forall occ parent c o p k (e : kind_of p = KLineWidth), css_style occ parent c -> wins occ o ->
  o_declaration o = Declares p (@eq_rect_r _ KLineWidth specified_kind (SLength (SEm k)) _ e) -> has_border c p ->
  finite32 (get c font_size) -> finite32 k ->
  exists r, get c p = @eq_rect_r _ KLineWidth computed_kind (LpLength r) _ e /\ nearest32 (get c font_size * k)%Q r.
Proof. intros occ parent c o p k e H W E B F1 F2. eexists. split; [exact (C30_border_widths _ _ _ _ _ _ e H W E B)|exact (f32_mul_nearest _ _ F1 F2)]. Qed.
(** In the block [font-size: .1em; width: .1em; padding-left: .1em; border-left-style: solid; border-left-width: .1em] all of them apply. *)
Definition tenths : declaration_block :=
  mkBlock [Declares font_size (SEm tenth); Declares width (SALength (SEm tenth)); Declares padding_left (SLength (SEm tenth));
           Declares border_left_style LineSolid; Declares border_left_width (SLength (SEm tenth))]
    [false; false; false; false; false] (mkPerPhase false false) (mkPerPhase true true).
Definition tenths_style : computed_values := computed_new None (Some (mkMatching [] [tenths])).
Definition tenths_occurs : occurrence -> Prop := occurs ex_selector snd (fun _ => true) [] [] (Some tenths).
Lemma tenths_wins : forall k d, nth_error (declarations tenths) k = Some d -> wins tenths_occurs (mkOcc Author false true 0 0 k d).
Proof.
  intros k d E. split.
  - apply (occurs_attribute _ _ _ _ _ _ tenths k d false eq_refl E). do 5 (destruct k as [|k]; [reflexivity|]). destruct k; discriminate E.
  - intros o' Ho T. left. unfold tenths_occurs in Ho. destruct Ho as [i s b k' d' imp Hi|i s b k' d' imp Hi|b k' d' imp Hb Hd Him]; [destruct i; discriminate Hi..|].
    assert (b = tenths) as -> by congruence. cbn [o_declaration] in T.
    assert (imp = false) as -> by (do 5 (destruct k' as [|k']; [cbn [nth_error important tenths] in Him; congruence|]); destruct k'; discriminate Him).
    do 5 (destruct k as [|k]; [cbn [nth_error declarations tenths] in E; injection E as <-;
      do 5 (destruct k' as [|k']; [cbn [nth_error declarations tenths] in Hd; injection Hd as <-; first [reflexivity|discriminate T]|]); destruct k'; discriminate Hd|]).
    destruct k; discriminate E.
Qed.
Example C101_nearest_example : css_style tenths_occurs None tenths_style /\ finite32 (inherits_from None font_size) /\ finite32 (get tenths_style font_size) /\
  finite32 tenth /\ has_border tenths_style border_left_width /\
  (forall k d, nth_error (declarations tenths) k = Some d -> wins tenths_occurs (mkOcc Author false true 0 0 k d)) /\
  get tenths_style width <> LpaLength (Qred (get tenths_style font_size * tenth)).
Proof.
  split; [|split; [|split; [|split; [|split; [|split]]]]].
  - apply computed_new_ok; [constructor| |vm_compute; reflexivity]. constructor; [|constructor].
    split; [reflexivity|]. intros k d imp Hd Hi.
    do 5 (destruct k as [|k]; [cbn [nth_error declarations important tenths] in Hd, Hi; injection Hd as <-; injection Hi as <-; split; intros; reflexivity|]). destruct k; discriminate Hd.
  - exists 16%Z, 0%Z. repeat split; discriminate.
  - exists 13421773%Z, (-23)%Z. repeat split; discriminate.
  - exists 13421773%Z, (-27)%Z. repeat split; discriminate.
  - discriminate.
  - exact tenths_wins.
  - vm_compute. discriminate.
Qed.
Print Assumptions C101_style.
Print Assumptions C101_boxes.
Print Assumptions C101_widths.
Print Assumptions C101_page.
Print Assumptions C101_font_size.
Print Assumptions C101_lengths_or_auto.
Print Assumptions C101_paddings.
Print Assumptions C101_border_widths.
