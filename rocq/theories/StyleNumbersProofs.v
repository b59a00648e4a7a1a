(** The lengths of computed styles, and of the styles of boxes, are numbers of binary32. *)
From Coq Require Import QArith.
From Verif Require Import Base Dom StyleValues StyleProperties StyleCascade BoxTree LayoutTree Arith32 Arith32Spec Arith32Proofs LayoutRelSpec
  StyleNumbersSpec.
Local Open Scope res_scope.

(** *** Boxes have the styles of elements, and anonymous ones *)
Section Boxes.
Variable G : computed_values -> Prop.
Hypothesis Ga : forall s, G s -> G (anonymous_inheriting_from (Some s)).
Notation SS := (fun s s' => s = s' /\ G s).
Definition inl_ok (x : inline_level_box) : Prop := same_inlines_of SS x x.
Definition con_ok (x : block_container) : Prop := same_containers SS x x.
Definition ctx_ok (x : block_formatting_context) : Prop := same_contexts SS x x.
Definition blk_ok (x : block_level_box) : Prop := same_blocks_of SS x x.
Definition ibx_ok (i : inline_box) : Prop := G (ib_style i) /\ Forall inl_ok (ib_children i).
Definition ic_ok (c : intermediate_container) : Prop := match c with IntermediateInlines l => Forall inl_ok l | Deferred _ => True end.
Definition ib_ok (x : intermediate_box) : Prop :=
  match x with
  | IntermediateSame s c => G s /\ ic_ok c
  | IntermediateIndependent s _ | IntermediateAbsolute s _ | IntermediateFloat s _ => G s
  end.
Record ok (b : builder) : Prop := mkOk {
  o_style : G (b_style b);
  o_blocks : Forall (fun x => ib_ok (fst x)) (b_blocks b);
  o_inlines : Forall inl_ok (b_inlines b);
  o_stack : Forall ibx_ok (b_stack b);
  o_anonymous : forall s, b_anonymous b = Some s -> G s }.
Lemma diag : forall {A} (R : A -> A -> Prop) l, Forall (fun x => R x x) l -> Forall2 R l l.
Proof. intros A R l H. induction H; constructor; assumption. Qed.
Lemma ok_new : forall s, G s -> ok (builder_new s).
Proof. intros s H. constructor; try constructor; try exact H. discriminate. Qed.
Lemma ok_log : forall e b, ok b -> ok (log e b).
Proof. intros e b []. constructor; assumption. Qed.
Lemma ok_steps : forall w b, ok b -> ok (add_steps w b).
Proof. intros e b []. constructor; assumption. Qed.
Lemma ok_floats : forall f b, ok b -> ok (set_floats f b).
Proof. intros e b []. constructor; assumption. Qed.
Lemma ok_push_block : forall x s b, ok b -> ib_ok x -> ok (push_block x s b).
Proof. intros x s b [] H. constructor; try assumption. cbn [push_block set_blocks b_blocks]. apply Forall_app. split; [assumption|]. constructor; [exact H|constructor]. Qed.
Lemma current_ok : forall b, ok b -> Forall inl_ok (current_inline_level_boxes b).
Proof.
  intros b [_ _ Hi Hs _]. unfold current_inline_level_boxes. destruct (b_stack b) as [|x r]; [exact Hi|].
  inversion Hs as [|? ? [_ H] ?]; subst. exact H.
Qed.
Lemma ok_set_current : forall l b, ok b -> Forall inl_ok l -> ok (set_current l b).
Proof.
  intros l b [H1 H2 H3 H4 H5] H. unfold set_current. destruct (b_stack b) as [|x r] eqn:E.
  - constructor; cbn [set_inlines b_style b_blocks b_inlines b_stack b_anonymous]; try assumption. rewrite E. constructor.
  - constructor; cbn [set_stack b_style b_blocks b_inlines b_stack b_anonymous]; try assumption.
    inversion H4 as [|? ? [Hx _] Hr]; subst. constructor; [split; [exact Hx|exact H]|exact Hr].
Qed.
Lemma ok_push_inline : forall x b, ok b -> inl_ok x -> ok (push_inline x b).
Proof.
  intros x b H Hx. unfold push_inline. apply ok_set_current; [exact H|]. apply Forall_app. split; [exact (current_ok b H)|].
  constructor; [exact Hx|constructor].
Qed.
Lemma append_text_ok : forall l s t, Forall inl_ok l -> G s -> Forall inl_ok (append_text l s t).
Proof.
  intros l s t H Hs. assert (N : forall t, inl_ok (TextRun s t)) by (intros; constructor; split; [reflexivity|exact Hs]).
  induction H as [|x l Hx Hl IH]; cbn [append_text]; [constructor; [apply N|constructor]|].
  assert (D : (exists s' t', x = TextRun s' t' /\ l = []) \/ append_text (x :: l) s t = x :: append_text l s t).
  { destruct x; try (right; reflexivity). destruct l; [left; eexists; eexists; split; reflexivity|right; reflexivity]. }
  destruct D as [(s' & t' & -> & ->)|D].
  - constructor; [|constructor]. unfold inl_ok in *. inversion Hx as [|? ? ? [_ Hg]| |]; subst. constructor. split; [reflexivity|exact Hg].
  - cbn [append_text] in D. rewrite D. constructor; assumption.
Qed.
Lemma ok_text : forall b t s, ok b -> G s -> ok (handle_text b t s).
Proof.
  intros b t s H Hs. unfold handle_text. destruct (handle_leading_whitespace b t) as [w i].
  destruct (w || negb (is_empty i)); [|exact H]. apply ok_set_current; [exact H|]. apply append_text_ok; [exact (current_ok b H)|exact Hs].
Qed.
Lemma end_ok : forall b b', ok b -> end_ongoing_inline_formatting_context b = Ok b' -> ok b'.
Proof.
  intros b b' H E. unfold end_ongoing_inline_formatting_context in E. destruct (is_empty (b_stack b)); cbn [assert bind] in E; [|discriminate E].
  destruct (b_inlines b) as [|x l] eqn:El; [injection E as <-; exact H|]. injection E as <-. destruct H as [H1 H2 H3 H4 H5].
  assert (A : G match b_anonymous b with Some s => s | None => anonymous_inheriting_from (Some (b_style b)) end).
  { destruct (b_anonymous b) as [s|] eqn:Ea; [exact (H5 s eq_refl)|exact (Ga _ H1)]. }
  apply ok_push_block.
  - constructor; cbn [set_inlines set_anonymous b_style b_blocks b_inlines b_stack b_anonymous]; try assumption; [constructor|].
    intros s Es. injection Es as <-. exact A.
  - split; [exact A|]. rewrite El in H3. exact H3.
Qed.
Lemma fragmented_ok : forall ps x, Forall ibx_ok ps -> inl_ok x -> inl_ok (fragmented_inline x ps).
Proof.
  induction ps as [|p ps IH]; intros x H Hx; cbn [fragmented_inline]; [exact Hx|]. inversion H as [|? ? [Hp Hc] Hr]; subst.
  apply IH; [exact Hr|]. constructor; [split; [reflexivity|exact Hp]|]. apply diag, Forall_app. split; [exact Hc|]. constructor; [exact Hx|constructor].
Qed.
Lemma split_ok : forall b, ok b -> ok (split_ongoing b).
Proof.
  intros b H. unfold split_ongoing. destruct (b_stack b) as [|x r] eqn:E; [exact H|]. destruct H as [H1 H2 H3 H4 H5]. rewrite E in H4.
  constructor; cbn [set_inlines set_stack b_style b_blocks b_inlines b_stack b_anonymous]; try assumption.
  - apply Forall_app. split; [exact H3|]. constructor; [|constructor]. inversion H4 as [|? ? [Hx Hc] Hr]; subst. apply fragmented_ok; [exact Hr|].
    constructor; [split; [reflexivity|exact Hx]|]. apply diag. exact Hc.
  - revert H4. generalize (x :: r) as k. clear. intros k H4. induction H4 as [|y l [Hy _] Hl IH]; cbn [map]; [constructor|]. constructor; [split; [exact Hy|constructor]|exact IH].
Qed.

Section Rec.
Variable traverse : builder -> node_id -> computed_values -> result builder.
Variable construct : computed_values -> node_id -> result (block_container * bool * list step).
Hypothesis Ht : forall b e s b', ok b -> G s -> traverse b e s = Ok b' -> ok b'.
Hypothesis Hc : forall s e c f w, G s -> construct s e = Ok (c, f, w) -> con_ok c.
Lemma bfc_ok : forall s e c w, G s -> bfc_construct construct s e = Ok (c, w) -> ctx_ok c.
Proof.
  intros s e c w Hs E. unfold bfc_construct in E. destruct (construct s e) as [[[k f] v]|x|] eqn:Ec; cbn [bind] in E; [|discriminate E..].
  injection E as <- <-. constructor. exact (Hc _ _ _ _ _ Hs Ec).
Qed.
Lemma element_ok : forall b s o i e sl b', ok b -> G s -> handle_element traverse construct b s o i e sl = Ok b' -> ok b'.
Proof.
  intros b s o i e sl b' H Hs E. assert (SSs : SS s s) by (split; [reflexivity|exact Hs]). unfold handle_element in E. destruct o.
  - unfold handle_inline_level_element in E. destruct i; [|discriminate E].
    destruct (traverse (set_stack (mkInlineBox s true false [] :: b_stack b) b) e s) as [b1|x|] eqn:Et; cbn [bind] in E; [|discriminate E..].
    assert (H1 : ok b1).
    { apply (Ht _ _ _ _) with (3 := Et); [|exact Hs]. destruct H as [A1 A2 A3 A4 A5].
      constructor; cbn [set_stack b_style b_blocks b_inlines b_stack b_anonymous]; try assumption. constructor; [split; [exact Hs|constructor]|exact A4]. }
    destruct (b_stack b1) as [|x r] eqn:Es; cbn [bind] in E; [discriminate E|]. injection E as <-. apply ok_steps, ok_push_inline.
    + destruct H1 as [A1 A2 A3 A4 A5]. rewrite Es in A4. inversion A4; subst.
      constructor; cbn [set_stack b_style b_blocks b_inlines b_stack b_anonymous]; assumption.
    + destruct H1 as [_ _ _ A4 _]. rewrite Es in A4. inversion A4 as [|? ? [Hx Hk] ?]; subst. constructor; [split; [reflexivity|exact Hx]|]. apply diag. exact Hk.
  - destruct (is_absolutely_positioned (get s position_)); [|destruct (is_floating (get s float_))].
    + unfold handle_absolutely_positioned_element in E. destruct (has_ongoing_inline_formatting_context b).
      * destruct (bfc_construct construct s e) as [[c w]|x|] eqn:Ec; cbn [bind] in E; [|discriminate E..]. injection E as <-.
        apply ok_steps, ok_push_inline; [exact H|]. constructor; [exact SSs|exact (bfc_ok _ _ _ _ Hs Ec)].
      * injection E as <-. apply ok_push_block; [exact H|exact Hs].
    + unfold handle_float_element in E. destruct (has_ongoing_inline_formatting_context (set_floats true b)).
      * destruct (bfc_construct construct s e) as [[c w]|x|] eqn:Ec; cbn [bind] in E; [|discriminate E..]. injection E as <-.
        apply ok_steps, ok_push_inline; [apply ok_floats; exact H|]. constructor; [exact SSs|exact (bfc_ok _ _ _ _ Hs Ec)].
      * injection E as <-. apply ok_push_block; [apply ok_floats; exact H|exact Hs].
    + unfold handle_block_level_element in E.
      destruct (end_ongoing_inline_formatting_context (split_ongoing b)) as [b1|x|] eqn:Ee; cbn [bind] in E; [|discriminate E..].
      injection E as <-. apply ok_push_block; [exact (end_ok _ _ (split_ok _ H) Ee)|]. destruct i; [split; [exact Hs|exact I]|exact Hs].
Qed.
Lemma finish_box_ok : forall x b f w, ib_ok x -> finish_box construct x = Ok (b, f, w) -> blk_ok b.
Proof.
  intros x b f w H E. destruct x as [s c|s e|s e|s e]; cbn [finish_box ib_ok] in *.
  - destruct H as [Hs Hk]. destruct (finish_container construct c s) as [[[k g] v]|y|] eqn:Ec; cbn [bind] in E; [|discriminate E..].
    injection E as <- <- <-. constructor; [split; [reflexivity|exact Hs]|]. destruct c; cbn [finish_container ic_ok] in *.
    + injection Ec as <- <- <-. constructor. apply diag. exact Hk.
    + exact (Hc _ _ _ _ _ Hs Ec).
  - destruct (bfc_construct construct s e) as [[k v]|y|] eqn:Ec; cbn [bind] in E; [|discriminate E..]. injection E as <- <- <-.
    constructor; [split; [reflexivity|exact H]|exact (bfc_ok _ _ _ _ H Ec)].
  - destruct (bfc_construct construct s e) as [[k v]|y|] eqn:Ec; cbn [bind] in E; [|discriminate E..]. injection E as <- <- <-.
    constructor; [split; [reflexivity|exact H]|exact (bfc_ok _ _ _ _ H Ec)].
  - destruct (bfc_construct construct s e) as [[k v]|y|] eqn:Ec; cbn [bind] in E; [|discriminate E..]. injection E as <- <- <-.
    constructor; [split; [reflexivity|exact H]|exact (bfc_ok _ _ _ _ H Ec)].
Qed.
Lemma finish_boxes_ok : forall l bs f w, Forall (fun x => ib_ok (fst x)) l -> finish_boxes construct l = Ok (bs, f, w) -> Forall blk_ok bs.
Proof.
  induction l as [|[x s] l IH]; intros bs f w H E; cbn [finish_boxes] in E; [injection E as <- <- <-; constructor|].
  inversion H as [|? ? Hx Hl]; subst. destruct (finish_box construct x) as [[[b g] v]|y|] eqn:Eb; cbn [bind] in E; [|discriminate E..].
  destruct (finish_boxes construct l) as [[[r g'] v']|y|] eqn:Er; cbn [bind] in E; [|discriminate E..]. injection E as <- <- <-.
  constructor; [exact (finish_box_ok _ _ _ _ Hx Eb)|exact (IH _ _ _ Hl eq_refl)].
Qed.
Lemma build_con_ok : forall b c f w, ok b -> build construct b = Ok (c, f, w) -> con_ok c.
Proof.
  intros b c f w H E. unfold build in E. destruct (is_empty (b_stack b)); cbn [assert bind] in E; [|discriminate E].
  destruct (negb (is_empty (b_inlines b)) && is_empty (b_blocks b)).
  - injection E as <- <- <-. constructor. apply diag. exact (o_inlines b H).
  - destruct (if is_empty (b_inlines b) then Ok b else end_ongoing_inline_formatting_context b) as [b1|x|] eqn:E1; cbn [bind] in E; [|discriminate E..].
    assert (H1 : ok b1). { destruct (is_empty (b_inlines b)); [injection E1 as <-; exact H|exact (end_ok _ _ H E1)]. }
    destruct (finish_boxes construct (b_blocks b1)) as [[[l g] v]|x|] eqn:Ef; cbn [bind] in E; [|discriminate E..]. injection E as <- <- <-.
    constructor. apply diag. exact (finish_boxes_ok _ _ _ _ (o_blocks b1 H1) Ef).
Qed.
End Rec.

Section Doc.
Variable d : document.
Variable style_of : node_id -> option computed_values -> result computed_values.
Hypothesis Hs : forall n p s, G p -> style_of n (Some p) = Ok s -> G s.
Lemma loop_and_construct : forall fuel,
  (forall b next p b', ok b -> G p -> children_loop d style_of fuel b next p = Ok b' -> ok b') /\
  (forall s e c f w, G s -> construct d style_of fuel s e = Ok (c, f, w) -> con_ok c).
Proof.
  induction fuel as [|fuel [IL IC]]; split.
  - intros b [n|] p b' H Hp E; cbn [children_loop] in E; [discriminate E|injection E as <-; exact H].
  - intros s e c f w H E. discriminate E.
  - intros b [n|] p b' H Hp E; cbn [children_loop] in E; [|injection E as <-; exact H].
    destruct (index d n) as [nd|x|]; cbn [bind] in E; [|discriminate E..].
    match type of E with bind ?m _ = _ => destruct m as [b1|x|] eqn:E1 end; cbn [bind] in E; [|discriminate E..].
    apply (IL b1 (next_sibling nd) p b'); [|exact Hp|exact E]. clear E.
    destruct (data nd) as [| | |t|e|]; try (injection E1 as <-; exact H); try (injection E1 as <-; apply ok_text; assumption).
    destruct (style_of n (Some p)) as [s|x|] eqn:Est; cbn [bind] in E1; [|discriminate E1..]. pose proof (Hs _ _ _ Hp Est) as Gs.
    destruct (get s display_) as [| |o i].
    + injection E1 as <-. apply ok_log. exact H.
    + exact (IL _ _ _ _ (ok_log _ _ H) Gs E1).
    + apply (element_ok _ _) with (5 := E1); [|exact IC|apply ok_log; exact H|exact Gs].
      intros b2 e2 s2 b3 H2 G2 E2. destruct (index d e2) as [n2|x|]; cbn [bind] in E2; [|discriminate E2..]. exact (IL _ _ _ _ H2 G2 E2).
  - intros s e c f w H E.
    change (bind (index d e) (fun nd => bind (children_loop d style_of fuel (builder_new s) (first_child nd) s) (fun b => build (construct d style_of fuel) b)) = Ok (c, f, w)) in E.
    destruct (index d e) as [nd|x|]; cbn [bind] in E; [|discriminate E..].
    destruct (children_loop d style_of fuel (builder_new s) (first_child nd) s) as [b|x|] eqn:Eb; cbn [bind] in E; [|discriminate E..].
    apply (build_con_ok _ IC b c f w); [exact (IL _ _ _ _ (ok_new s H) H Eb)|exact E].
Qed.
Lemma root_ok : forall n s f l w, G s -> construct_for_root_element d style_of n s = Ok (f, l, w) -> Forall blk_ok l.
Proof.
  intros n s f l w H E. unfold construct_for_root_element in E.
  assert (D : get s display_ = DisplayNone \/ get s display_ <> DisplayNone) by (destruct (get s display_); [left; reflexivity|right; discriminate..]).
  destruct D as [D|D]; [rewrite D in E; injection E as <- <- <-; constructor|].
  assert (E' : bind (bfc_construct (construct d style_of (enough_fuel d)) s n) (fun r => let '(contents, w) := r in
      Ok (if is_absolutely_positioned (get s position_) then (false, [OutOfFlowAbsolutelyPositionedBox s contents], w)
          else if is_floating (get s float_) then (true, [OutOfFlowFloatBox s contents], w) else (false, [Independent s contents], w))) = Ok (f, l, w))
    by (destruct (get s display_); [contradiction|exact E..]). clear E.
  destruct (bfc_construct (construct d style_of (enough_fuel d)) s n) as [[c v]|x|] eqn:Ec; cbn [bind] in E'; [|discriminate E'..].
  pose proof (bfc_ok _ (proj2 (loop_and_construct _)) _ _ _ _ H Ec) as K.
  destruct (is_absolutely_positioned (get s position_)); [|destruct (is_floating (get s float_))]; injection E' as <- <- <-;
    (constructor; [constructor; [split; [reflexivity|exact H]|exact K]|constructor]).
Qed.
End Doc.
End Boxes.

(** *** Parsed values *)
Section Values.
Variable P : Q -> Prop.
Hypothesis P0 : P 0. Hypothesis P1 : P 1. Hypothesis P3 : P 3. Hypothesis P5 : P 5. Hypothesis P16 : P 16.
Hypothesis Pm : forall a b, P (f32_mul a b).
Notation toks := (Forall (token_number P)).
Definition len_ok (l : specified_length) : Prop := match l with SAbsolute x => P x | SEm _ => True end.
Definition lp_ok (l : specified_lp) : Prop := match l with SLength l => len_ok l | SPercentage _ => True end.
Definition lpa_ok (l : specified_lpa) : Prop := match l with SALength l => len_ok l | _ => True end.
Definition sv_ok (k : kind) : specified_kind k -> Prop :=
  match k return specified_kind k -> Prop with
  | KFontSize => len_ok | KLpa => lpa_ok | KLp | KLineWidth => lp_ok | _ => fun _ => True
  end.
Definition parses {A} (p : parser A) (ok : A -> Prop) : Prop := forall ts v r, p ts = Some (v, r) -> toks ts -> ok v /\ toks r.
Lemma parses_keyword : forall {A} (t : list (keyword * A)) (okv : A -> Prop), (forall k v, In (k, v) t -> okv v) -> parses (parse_keyword t) okv.
Proof.
  intros A t okv H ts v r E Ht. unfold parse_keyword in E. destruct ts as [|[i| | | | |] ts]; try discriminate E.
  inversion Ht; subst. destruct (lookup_keyword t i) as [x|] eqn:L; [|discriminate E]. injection E as -> <-. split; [|assumption].
  clear - H L. induction t as [|[k y] t IH]; cbn [lookup_keyword] in L; [discriminate L|]. destruct (bytes_eqb i k).
  - injection L as ->. exact (H k v (or_introl eq_refl)).
  - apply IH; [intros; eapply H; right; eassumption|exact L].
Qed.
Lemma parses_length : parses parse_specified_length len_ok.
Proof.
  intros ts v r E Ht. unfold parse_specified_length in E. destruct ts as [|[|x u|x| | |] ts]; try discriminate E; inversion Ht as [|? ? Hx ?]; subst.
  - destruct (same_ascii u (bs "px")); [|destruct (same_ascii u (bs "em")); [|discriminate E]]; injection E as <- <-; (split; [|assumption]); [exact Hx|exact I].
  - destruct (Qeq_bool x 0); [|discriminate E]. injection E as <- <-. split; [exact P0|assumption].
Qed.
Lemma parses_percentage : parses parse_percentage (fun _ => True).
Proof. intros ts v r E Ht. destruct ts as [|[] ts]; try discriminate E. injection E as <- <-. inversion Ht; subst. split; [exact I|assumption]. Qed.
Lemma parses_lp : parses parse_specified_lp lp_ok.
Proof.
  intros ts v r E Ht. unfold parse_specified_lp in E. destruct (parse_specified_length ts) as [[l x]|] eqn:El.
  - injection E as <- <-. exact (parses_length _ _ _ El Ht).
  - destruct (parse_percentage ts) as [[l x]|] eqn:Ep; [|discriminate E]. injection E as <- <-. exact (parses_percentage _ _ _ Ep Ht).
Qed.
Lemma parses_lpa : parses parse_specified_lpa lpa_ok.
Proof.
  intros ts v r E Ht. unfold parse_specified_lpa in E. destruct (parse_specified_length ts) as [[l x]|] eqn:El.
  - injection E as <- <-. exact (parses_length _ _ _ El Ht).
  - destruct (parse_percentage ts) as [[l x]|] eqn:Ep.
    + injection E as <- <-. exact (parses_percentage _ _ _ Ep Ht).
    + revert E Ht. apply parses_keyword. intros k y [K|[]]. injection K as <- <-. exact I.
Qed.
Lemma parses_line_width : parses parse_line_width lp_ok.
Proof.
  intros ts v r E Ht. unfold parse_line_width in E. destruct (parse_specified_lp ts) as [[l x]|] eqn:El.
  - injection E as <- <-. exact (parses_lp _ _ _ El Ht).
  - destruct (parse_keyword _ ts) as [[l x]|] eqn:Ek; [|discriminate E]. injection E as <- <-. revert Ek Ht. apply (parses_keyword _ P).
    intros k y [K|[K|[K|[]]]]; injection K as <- <-; assumption.
Qed.
Variable parse_color : parser color.
Hypothesis Pc : forall ts c r, parse_color ts = Some (c, r) -> exists used, ts = used ++ r.
Lemma parses_color : parses parse_color (fun _ => True).
Proof. intros ts v r E Ht. destruct (Pc _ _ _ E) as [u ->]. apply Forall_app in Ht. split; [exact I|exact (proj2 Ht)]. Qed.
Lemma parses_kind : forall k, parses (parse_kind parse_color k) (sv_ok k).
Proof.
  intros k. destruct k; cbn [parse_kind sv_ok specified_kind];
    first [exact parses_length|exact parses_color|exact parses_lpa|exact parses_lp|exact parses_line_width|apply parses_keyword; intros; exact I].
Qed.
Definition sides_ok {T} (okv : T -> Prop) (s : four_sides T) : Prop := okv (s_top s) /\ okv (s_left s) /\ okv (s_bottom s) /\ okv (s_right s).
Lemma parses_sides : forall {T} (p : parser T) okv, parses p okv -> parses (parse_four_sides p) (sides_ok okv).
Proof.
  intros T p okv H ts v r E Ht. unfold parse_four_sides in E.
  destruct (p ts) as [[t ts1]|] eqn:E1; [|discriminate E]. destruct (H _ _ _ E1 Ht) as [V1 T1].
  destruct (p ts1) as [[l ts2]|] eqn:E2; [|injection E as <- <-; repeat split; assumption]. destruct (H _ _ _ E2 T1) as [V2 T2].
  destruct (p ts2) as [[b ts3]|] eqn:E3; [|injection E as <- <-; repeat split; assumption]. destruct (H _ _ _ E3 T2) as [V3 T3].
  destruct (p ts3) as [[q ts4]|] eqn:E4; [|injection E as <- <-; repeat split; assumption]. destruct (H _ _ _ E4 T3) as [V4 T4].
  injection E as <- <-; repeat split; assumption.
Qed.
Definition side_ok (b : border_side) : Prop := forall w, b_width b = Some w -> lp_ok w.
Lemma border_step_ok : forall v ts v' r, border_side_step parse_color v ts = Some (v', r) -> side_ok v -> toks ts -> side_ok v' /\ toks r.
Proof.
  intros v ts v' r E Hv Ht. unfold border_side_step in E.
  pose proof (fun x y q => parses_kind KLineStyle ts x y q Ht) as Ls. cbn [parse_kind] in Ls.
  assert (C : (exists s, parse_line_style ts = Some (s, r) /\ v' = mkBorderSide (Some s) (b_color v) (b_width v)) \/
    (exists c, parse_color ts = Some (c, r) /\ v' = mkBorderSide (StyleValues.b_style v) (Some c) (b_width v)) \/
    (exists w, parse_line_width ts = Some (w, r) /\ v' = mkBorderSide (StyleValues.b_style v) (b_color v) (Some w))).
  { destruct (StyleValues.b_style v); [|destruct (parse_line_style ts) as [[s q]|]; [injection E as <- <-; left; eexists; split; reflexivity|]];
      (destruct (b_color v); [|destruct (parse_color ts) as [[s' q']|]; [injection E as <- <-; right; left; eexists; split; reflexivity|]]);
      (destruct (b_width v); [discriminate E|destruct (parse_line_width ts) as [[s'' q'']|]; [injection E as <- <-; right; right; eexists; split; reflexivity|discriminate E]]). }
  destruct C as [(s & E1 & ->)|[(s & E1 & ->)|(s & E1 & ->)]].
  - split; [exact Hv|exact (proj2 (Ls _ _ E1))].
  - split; [exact Hv|exact (proj2 (parses_color _ _ _ E1 Ht))].
  - destruct (parses_line_width _ _ _ E1 Ht) as [K1 K2]. split; [|exact K2]. intros w Ew. injection Ew as <-. exact K1.
Qed.
Lemma border_loop_ok : forall n v ts v' r, border_side_loop parse_color n v ts = (v', r) -> side_ok v -> toks ts -> side_ok v' /\ toks r.
Proof.
  induction n as [|n IH]; intros v ts v' r E Hv Ht; cbn [border_side_loop] in E; [injection E as <- <-; split; assumption|].
  destruct (border_side_step parse_color v ts) as [[v1 ts1]|] eqn:E1; [|injection E as <- <-; split; assumption].
  destruct (border_step_ok _ _ _ _ E1 Hv Ht) as [A B]. exact (IH _ _ _ _ E A B).
Qed.
Lemma parses_border : parses (parse_border_side parse_color) side_ok.
Proof.
  intros ts v r E Ht. unfold parse_border_side in E.
  destruct (border_side_step parse_color (mkBorderSide None None None) ts) as [[v1 ts1]|] eqn:E1; [|discriminate E].
  assert (N : side_ok (mkBorderSide None None None)) by (intros w Ew; discriminate Ew).
  destruct (border_step_ok _ _ _ _ E1 N Ht) as [A B].
  apply (border_loop_ok 4 v1 ts1 v r); [congruence|exact A|exact B].
Qed.
Definition decl_ok (d : declaration) : Prop := match d with Declares p v => sv_ok (kind_of p) v | CssWide _ _ => True end.
Lemma parses_shorthand : forall s, parses (parse_shorthand parse_color s) (Forall decl_ok).
Proof.
  intros s ts v r E Ht. destruct s; cbn [parse_shorthand] in E.
  1-5: match type of E with context [parse_four_sides (parse_kind ?pc ?k) ?t] =>
         destruct (parse_four_sides (parse_kind pc k) t) as [[x q]|] eqn:Ex; [|discriminate E];
         destruct (parses_sides _ _ (parses_kind k) _ _ _ Ex Ht) as [(A1 & A2 & A3 & A4) B] end;
       injection E as <- <-; (split; [|exact B]); unfold sides_declarations; repeat constructor; assumption.
  - destruct (parse_border_side parse_color ts) as [[x q]|] eqn:Ex; [|discriminate E]. destruct (parses_border _ _ _ Ex Ht) as [A B].
    injection E as <- <-. split; [|exact B]. repeat constructor; unfold or_initial.
    + destruct (StyleValues.b_style x); exact I.
    + destruct (b_color x); exact I.
    + destruct (b_width x) as [w|] eqn:Ew; [exact (A w Ew)|exact I].
  - unfold parse_background in E. destruct (parse_color ts) as [[x q]|] eqn:Ex; [|discriminate E]. destruct (parses_color _ _ _ Ex Ht) as [_ B].
    injection E as <- <-. split; [|exact B]. repeat constructor.
Qed.
Definition block_ok (b : declaration_block) : Prop := Forall decl_ok (declarations b).
Lemma parse_value_ok : forall b name ts b' l, parse_value parse_color b name ts = Ok (b', l) -> block_ok b -> toks ts -> block_ok b'.
Proof.
  intros b name ts b' l E Hb Ht. unfold parse_value in E. destruct (property_data_by_name name) as [data|]; [|injection E as <- <-; exact Hb].
  match type of E with match ?m with _ => _ end = _ => destruct m as [[[ds ph] q]|] eqn:Em end; [|injection E as <- <-; exact Hb].
  assert (D : Forall decl_ok ds).
  { destruct (parse_css_wide ts) as [[k x]|]; [injection Em as <- <- <-; apply Forall_forall; intros y Hy; apply in_map_iff in Hy; destruct Hy as (z & <- & _); exact I|].
    destruct (property_parse parse_color data ts) as [[[ds' ph'] x]|] eqn:Ep; [|discriminate Em]. injection Em as <- <- <-. unfold property_parse in Ep.
    destruct data as [p|s].
    - destruct (parse_kind parse_color (kind_of p) ts) as [[v y]|] eqn:Ek; [|discriminate Ep]. injection Ep as <- <- <-.
      constructor; [exact (proj1 (parses_kind _ _ _ _ Ek Ht))|constructor].
    - destruct (parse_shorthand parse_color s ts) as [[v y]|] eqn:Ek; [|discriminate Ep]. injection Ep as <- <- <-. exact (proj1 (parses_shorthand _ _ _ _ Ek Ht)). }
  destruct (match parse_important q with Some ts => (true, ts) | None => (false, q) end) as [imp q'].
  destruct (Nat.ltb 0 (List.length ds)); cbn [assert bind] in E; [|discriminate E]. injection E as <- <-. apply Forall_app. split; [exact Hb|exact D].
Qed.
Lemma parse_item_ok : forall b i b', parse_item parse_color b i = Ok b' -> block_ok b -> item_numbers P i -> block_ok b'.
Proof.
  intros b i b' E Hb Hi. unfold parse_item in E.
  match type of E with bind ?m _ = _ => destruct m as [b1|x|] eqn:Em end; cbn [bind] in E; [|discriminate E..].
  match type of E with bind ?m _ = _ => destruct m as [u|x|] end; cbn [bind] in E; [|discriminate E..]. injection E as <-.
  destruct i as [name ts|]; [|injection Em as <-; exact Hb].
  destruct (parse_value parse_color b name ts) as [[b2 l]|x|] eqn:Ev; cbn [bind] in Em; [|discriminate Em..].
  pose proof (parse_value_ok _ _ _ _ _ Ev Hb Hi) as K. destruct l as [[|t l]|]; [injection Em as <-; exact K| |];
    (match type of Em with bind ?m _ = _ => destruct m as [u'|x|] end; cbn [bind] in Em; [|discriminate Em..]; injection Em as <-; exact K).
Qed.
Lemma parse_block_ok : forall l b, parse_block parse_color l = Ok b -> Forall (item_numbers P) l -> block_ok b.
Proof.
  intros l b E H. unfold parse_block in E. destruct (parse_items parse_color block_default l) as [b1|x|] eqn:E1; cbn [bind] in E; [|discriminate E..].
  match type of E with bind ?m _ = _ => destruct m as [u|x|] end; cbn [bind] in E; [|discriminate E..].
  match type of E with bind ?m _ = _ => destruct m as [u'|x|] end; cbn [bind] in E; [|discriminate E..]. injection E as <-.
  assert (B : block_ok block_default) by constructor. revert B E1. generalize block_default as b0. induction H as [|i l Hi Hl IH]; intros b0 B E1; cbn [parse_items] in E1.
  - injection E1 as <-. exact B.
  - destruct (parse_item parse_color b0 i) as [b2|x|] eqn:Ei; cbn [bind] in E1; [|discriminate E1..]. exact (IH b2 (parse_item_ok _ _ _ Ei B Hi) E1).
Qed.
End Values.

(** *** Computed styles *)
Section Computed.
Variable P : Q -> Prop.
Hypothesis P0 : P 0. Hypothesis P3 : P 3. Hypothesis P16 : P 16.
Hypothesis Pm : forall a b, P (f32_mul a b).
Notation fine := (style_numbers P).
Lemma set_fine : forall p v c, fine c -> value_numbers P (kind_of p) v -> fine (set p v c).
Proof.
  intros p v c H Hv q. cbn [set get]. destruct (longhand_eq_dec p q) as [e|n]; [|exact (H q)]. destruct e. exact Hv.
Qed.
Lemma initial_fine : forall p, value_numbers P (kind_of p) (initial_value p).
Proof. intros p. destruct p; cbn [kind_of value_numbers initial_value MEDIUM]; first [exact I|assumption]. Qed.
Lemma length_fine : forall f l, len_ok P l -> P (length_from_specified f l).
Proof. intros f [x|x] H; [exact H|apply Pm]. Qed.
Lemma from_fine : forall k i t (v : specified_kind k), sv_ok P k v -> value_numbers P k (from_specified k i t v).
Proof.
  intros k i t v H. destruct k; cbn [value_numbers from_specified sv_ok specified_kind] in *; try exact I.
  - destruct v; [exact H|apply Pm].
  - destruct v; cbn [lpa_from_specified]; [exact (length_fine _ _ H)|exact I..].
  - destruct v; cbn [lp_from_specified]; [exact (length_fine _ _ H)|exact I].
  - destruct v; cbn [lp_from_specified]; [exact (length_fine _ _ H)|exact I].
Qed.
Lemma wide_fine : forall p k c i, fine c -> fine i -> fine (cascade_css_wide_keyword_into p k c i).
Proof.
  intros p k c i Hc Hi. unfold cascade_css_wide_keyword_into. apply set_fine; [exact Hc|].
  destruct (match k with Initial => true | Inherit => false | Unset => negb (in_inherited_struct p) end); [apply initial_fine|exact (Hi p)].
Qed.
Lemma phase_fine : forall f i d c, fine i -> decl_ok P d -> fine c -> fine (phase_cascade f i d c).
Proof.
  intros f i d c Hi Hd Hc. destruct f, d as [p v|p k]; cbn [phase_cascade if_early_cascade_into if_late_cascade_into].
  - destruct p; try exact Hc. apply set_fine; [exact Hc|]. exact (from_fine KFontSize i c v Hd).
  - destruct (is_early p); [apply wide_fine; assumption|exact Hc].
  - destruct (is_early p); [exact Hc|]. apply set_fine; [exact Hc|]. exact (from_fine (kind_of p) i c v Hd).
  - destruct (negb (is_early p)); [apply wide_fine; assumption|exact Hc].
Qed.
Lemma block_fine : forall b imp any f i c, fine i -> block_ok P b -> fine c -> fine (block_cascade b imp any f i c).
Proof.
  intros b imp any f i c Hi Hb Hc. unfold block_cascade. destruct (select f any); [|exact Hc]. unfold block_ok in Hb.
  revert Hc. generalize (important b) as bits. revert c. induction Hb as [|d l Hd Hl IH]; intros c bits Hc; [exact Hc|].
  destruct bits as [|x bits]; [exact Hc|]. cbn [combine fold_left fst snd]. apply IH.
  destruct (Bool.eqb x imp); [apply phase_fine; assumption|exact Hc].
Qed.
Lemma blocks_fine : forall imp any f i l c, fine i -> Forall (block_ok P) l -> fine c ->
  fine (fold_left (fun c b => block_cascade b imp (any b) f i c) l c).
Proof. intros imp any f i l c Hi Hl. revert c. induction Hl as [|b l Hb Hl IH]; intros c Hc; [exact Hc|]. cbn [fold_left]. apply IH, block_fine; assumption. Qed.
Definition matching_ok (m : matching_declarations) : Prop := Forall (block_ok P) (m_ua m) /\ Forall (block_ok P) (m_author m).
Lemma cascade_fine : forall m f i c, matching_ok m -> fine i -> fine c -> fine (cascade m f i c).
Proof.
  intros m f i c [Hu Ha] Hi Hc. unfold cascade, cascade_normal, cascade_important. repeat (apply (blocks_fine _ _); [exact Hi|assumption|]). exact Hc.
Qed.
Lemma fixup_fine : forall c, fine c -> fine (post_cascade_fixups c).
Proof.
  intros c H. assert (W : forall w s, value_numbers P KLineWidth w -> value_numbers P KLineWidth (line_width_fixup w s)) by (intros w [] Hw; [exact P0|exact Hw]).
  assert (D : forall c, fine c -> fine (display_fixup c)).
  { intros k Hk. unfold display_fixup. destruct (_ || _)%bool; [|exact Hk]. apply set_fine; [exact Hk|exact I]. }
  unfold post_cascade_fixups. cbv zeta. apply D.
  assert (K1 : fine (set border_top_width (line_width_fixup (get c border_top_width) (get c border_top_style)) c)) by (apply set_fine; [exact H|apply W, (H border_top_width)]).
  match type of K1 with fine ?k => generalize dependent k; intros c1 K1 end.
  assert (K2 : fine (set border_left_width (line_width_fixup (get c1 border_left_width) (get c1 border_left_style)) c1)) by (apply set_fine; [exact K1|apply W, (K1 border_left_width)]).
  match type of K2 with fine ?k => generalize dependent k; intros c2 K2 end.
  assert (K3 : fine (set border_bottom_width (line_width_fixup (get c2 border_bottom_width) (get c2 border_bottom_style)) c2)) by (apply set_fine; [exact K2|apply W, (K2 border_bottom_width)]).
  match type of K3 with fine ?k => generalize dependent k; intros c3 K3 end.
  apply set_fine; [exact K3|apply W, (K3 border_right_width)].
Qed.
End Computed.

Section Sheets.
Variable P : Q -> Prop.
Hypothesis P0 : P 0. Hypothesis P1 : P 1. Hypothesis P3 : P 3. Hypothesis P5 : P 5. Hypothesis P16 : P 16.
Hypothesis Pm : forall a b, P (f32_mul a b).
Notation fine := (style_numbers P).
Lemma initial_values_fine : fine INITIAL_VALUES.
Proof. intros p. apply initial_fine; assumption. Qed.
Lemma new_fine : forall parent m, (forall p, parent = Some p -> fine p) -> (forall k, m = Some k -> matching_ok P k) -> fine (computed_new parent m).
Proof.
  intros parent m Hp Hm. unfold computed_new.
  assert (Hi : fine match parent with Some p => p | None => INITIAL_VALUES end) by (destruct parent; [exact (Hp _ eq_refl)|exact initial_values_fine]).
  revert Hi. generalize (match parent with Some p => p | None => INITIAL_VALUES end) as i. intros i Hi.
  assert (St : fine (mkComputed (fun p => if in_inherited_struct p then get i p else initial_value p) display_initial)).
  { intros p. cbn [get]. destruct (in_inherited_struct p); [exact (Hi p)|apply initial_fine; assumption]. }
  apply fixup_fine; [exact P0|]. destruct m as [m|]; [|exact St]. specialize (Hm m eq_refl).
  exact (cascade_fine P P0 P3 P16 Pm m Late i _ Hm Hi (cascade_fine P P0 P3 P16 Pm m Early i _ Hm Hi St)).
Qed.
Variable parse_color : parser color.
Hypothesis Pc : forall ts c r, parse_color ts = Some (c, r) -> exists used, ts = used ++ r.
Variable selector : Type.
Definition set_ok (s : style_set selector) : Prop := Forall (fun r => block_ok P (snd r)) s.
Lemma sheet_ok : forall css s s', Forall (rule_numbers P) css -> set_ok s -> add_stylesheet parse_color selector s css = Ok s' -> set_ok s'.
Proof.
  induction css as [|r css IH]; intros s s' H Hs E; cbn [add_stylesheet] in E; [injection E as <-; exact Hs|]. inversion H as [|? ? Hr Hl]; subst.
  destruct r as [sels body|]; [|exact (IH _ _ Hl Hs E)].
  destruct (parse_block parse_color body) as [b|x|] eqn:Eb; cbn [bind] in E; [|discriminate E..]. apply (IH _ _ Hl) with (2 := E).
  apply Forall_app. split; [exact Hs|]. apply Forall_forall. intros y Hy. apply in_map_iff in Hy. destruct Hy as (z & <- & _).
  exact (parse_block_ok P P0 P1 P3 P5 parse_color Pc _ _ Eb Hr).
Qed.
Lemma sheets_ok : forall l s s', Forall (Forall (rule_numbers P)) l -> set_ok s -> add_stylesheets parse_color selector s l = Ok s' -> set_ok s'.
Proof.
  induction l as [|css l IH]; intros s s' H Hs E; cbn [add_stylesheets] in E; [injection E as <-; exact Hs|]. inversion H as [|? ? Hr Hl]; subst.
  destruct (add_stylesheet parse_color selector s css) as [s1|x|] eqn:E1; cbn [bind] in E; [|discriminate E..]. exact (IH _ _ Hl (sheet_ok _ _ _ Hr Hs E1) E).
Qed.
Lemma insert_ok : forall {A} (R : A -> Prop) key x l, R x -> Forall R l -> Forall R (insert_by key x l).
Proof.
  intros A R key x l Hx H. induction H as [|y l Hy Hl IH]; cbn [insert_by]; [constructor; [exact Hx|constructor]|].
  destruct (key x <=? key y)%N; repeat constructor; assumption.
Qed.
Lemma finish_set_ok : forall specificity s, set_ok s -> set_ok (finish selector specificity s).
Proof. intros sp s H. unfold finish, sort_by_key. induction H; cbn [fold_right]; [constructor|]. apply insert_ok; assumption. Qed.
Variable specificity : selector -> N.
Variable matches : selector -> document -> node_id -> bool.
Variable items_of : bytes -> list item.
Hypothesis Hitems : forall v, Forall (item_numbers P) (items_of v).
Lemma pushed_ok : forall s d n, set_ok s -> Forall (block_ok P) (push_matching selector matches s d n).
Proof.
  intros s d n H. unfold push_matching. apply Forall_forall. intros b Hb. apply in_map_iff in Hb. destruct Hb as (x & <- & Hx). apply filter_In in Hx.
  unfold set_ok in H. rewrite Forall_forall in H. exact (H x (proj1 Hx)).
Qed.
Lemma element_fine : forall ua author d n parent s, set_ok ua -> set_ok author -> (forall p, parent = Some p -> fine p) ->
  style_for_element parse_color selector matches items_of ua author d n parent = Ok s -> fine s.
Proof.
  intros ua author d n parent s Hu Ha Hp E. unfold style_for_element in E. destruct (index d n) as [nd|x|]; cbn [bind] in E; [|discriminate E..].
  destruct (as_element nd) as [e|]; [|discriminate E]. cbn [m_ua m_author] in E.
  match type of E with bind ?m _ = _ => destruct m as [k|x|] eqn:Em end; cbn [bind] in E; [|discriminate E..].
  assert (K : matching_ok P k).
  { assert (M : matching_ok P (mkMatching (push_matching selector matches ua d n) (push_matching selector matches author d n))) by (split; apply pushed_ok; assumption).
    destruct (styled_namespace (q_ns (e_name e))); [|injection Em as <-; exact M]. destruct (get_attr e (bs "style")) as [v|]; [|injection Em as <-; exact M].
    destruct (parse_block parse_color (items_of v)) as [b|x|] eqn:Eb; cbn [bind] in Em; [|discriminate Em..]. injection Em as <-.
    destruct M as [M1 M2]. split; [exact M1|]. apply Forall_app. split; [exact M2|]. constructor; [|constructor].
    exact (parse_block_ok P P0 P1 P3 P5 parse_color Pc _ _ Eb (Hitems v)). }
  injection E as <-. apply new_fine; [exact Hp|]. intros m Hm. injection Hm as <-. exact K.
Qed.
Variable rules_of : bytes -> list (source_rule selector).
Hypothesis Hrules : forall t, Forall (rule_numbers P) (rules_of t).
Variable user_agent : list (source_rule selector).
Hypothesis Hua : Forall (rule_numbers P) user_agent.
Lemma boxes_fine : forall d root w,
  box_tree_root_construct parse_color selector specificity matches items_of rules_of user_agent d = Ok (root, w) -> every_style fine root.
Proof.
  intros d root w E. unfold box_tree_root_construct in E.
  destruct (user_agent_stylesheet parse_color selector specificity user_agent) as [ua|x|] eqn:Eu; cbn [bind] in E; [|discriminate E..].
  destruct (parse_stylesheets parse_color selector specificity rules_of d) as [au|x|] eqn:Ea; cbn [bind] in E; [|discriminate E..].
  assert (U : set_ok ua).
  { unfold user_agent_stylesheet in Eu. destruct (add_stylesheet parse_color selector [] user_agent) as [s|x|] eqn:Es; cbn [bind] in Eu; [|discriminate Eu..].
    injection Eu as <-. apply finish_set_ok. exact (sheet_ok _ _ _ Hua (Forall_nil _) Es). }
  assert (A : set_ok au).
  { unfold parse_stylesheets in Ea. destruct (stylesheets d) as [ts|x|]; cbn [bind] in Ea; [|discriminate Ea..].
    destruct (add_stylesheets parse_color selector [] (map rules_of ts)) as [s|x|] eqn:Es; cbn [bind] in Ea; [|discriminate Ea..].
    injection Ea as <-. apply finish_set_ok. refine (sheets_ok _ _ _ _ (Forall_nil _) Es). apply Forall_forall. intros y Hy. apply in_map_iff in Hy.
    destruct Hy as (z & <- & _). apply Hrules. }
  destruct (root_element d) as [r|x|]; cbn [bind] in E; [|discriminate E..].
  destruct (style_for_element parse_color selector matches items_of ua au d r None) as [s|x|] eqn:Es; cbn [bind] in E; [|discriminate E..].
  assert (F : fine s) by (refine (element_fine ua au d r None s U A _ Es); intros p K; discriminate K).
  destruct (construct_for_root_element d (style_for_element parse_color selector matches items_of ua au d) r s) as [[[f l] v]|x|] eqn:Er; cbn [bind] in E; [|discriminate E..].
  injection E as <- <-. unfold every_style. constructor. constructor. apply diag.
  refine (root_ok fine _ d _ _ r s f l v F Er).
  - intros q Hq. unfold anonymous_inheriting_from. refine (new_fine (Some q) None _ _); [intros p Hp; assert (p = q) as -> by congruence; exact Hq|intros k K; discriminate K].
  - intros n p q Hp Eq. refine (element_fine ua au d n (Some p) q U A _ Eq). intros y Hy. assert (y = p) as -> by congruence. exact Hp.
Qed.
End Sheets.
