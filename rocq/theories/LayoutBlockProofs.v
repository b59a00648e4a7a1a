(** Proofs about the placement of block-level boxes. *)
From Coq Require Import QArith Qminmax Lqa.
From Verif Require Import Base Dom StyleValues StyleProperties PdfConvert Geom Text LayoutTree Layout LayoutSpec LayoutProofs.
Local Open Scope Q_scope.

Definition outer_size (b : box_fragment) : Q :=
  block_sum (bf_padding b) + block_sum (bf_border b) + v_block (size (bf_content_rect b)).
Definition summary (b : box_fragment) (top : list Q) (items : list item) : Prop :=
  rep top (cm_start (bf_margins b)) /\
  exists s t, items = map Margin top ++ s ++ map Margin t /\ rep t (cm_end (bf_margins b)) /\
    if collapsed_through (bf_margins b) then s = []
    else (exists h r, s = Height h :: r) /\ ends_in_height s /\ distance (Some []) s == outer_size b.

Definition is_run (run : option (list Q)) : Prop := run = None \/ run = Some [].
Definition hoists (run : option (list Q)) (l : list item) : bool :=
  match run with None => match strip l with [] => true | _ => false end | Some _ => false end.
Definition inv (run : option (list Q)) (l : list item) (s : placement_state) : Prop :=
  next_collapses_with_parent_start s = hoists run l /\
  (run = None -> rep (leading l) (start_margin s)) /\
  (if hoists run l then rep [] (current_margin s) /\ current_position s == 0
   else rep (trailing l) (current_margin s) /\ current_position s == distance run (strip l)).

(** An unplaced fragment of a box is at the start of its container. *)
Definition unplaced (f : fragment) : Prop :=
  match f with
  | FBox b _ => exists offset, relative_offset (bf_style b) (get (bf_style b) top_) (get (bf_style b) bottom_) offset /\ content_top b == pb_start b + offset
  | FAnonymous r _ _ => v_block (start_corner r) == 0
  | FText _ _ _ => False
  end.

Lemma collapse_nil : collapse [] == 0.
Proof. reflexivity. Qed.
Lemma hoists_false : forall run l, is_run run -> hoists run l = false -> run = Some [] \/ strip l <> [].
Proof.
  intros run l [->| ->] H; [right|left; reflexivity]. cbn [hoists] in H. destruct (strip l); [discriminate H|discriminate].
Qed.
Lemma starts_with_height : forall s : list item, (exists h r, s = Height h :: r) -> s <> [].
Proof. intros s (h & r & ->). discriminate. Qed.
Lemma strip_of_ends : forall s t, ends_in_height s -> strip (s ++ map Margin t) = s.
Proof.
  intros s t [->|(s' & h & ->)]; cbn [app]; [apply strip_margins|].
  rewrite <- app_assoc. cbn [app]. apply strip_height.
Qed.
Lemma trailing_of_ends : forall s t, ends_in_height s -> trailing (s ++ map Margin t) = t.
Proof.
  intros s t [->|(s' & h & ->)]; cbn [app]; [apply trailing_margins|].
  rewrite <- app_assoc. cbn [app]. apply trailing_height.
Qed.
Lemma strip_box : forall top s t, s <> [] -> ends_in_height s ->
  strip (map Margin top ++ s ++ map Margin t) = map Margin top ++ s.
Proof.
  intros top s t Hn He. rewrite strip_app, strip_of_ends by exact He. destruct s; [contradiction Hn; reflexivity|reflexivity].
Qed.
Lemma trailing_box : forall top s t, s <> [] -> ends_in_height s ->
  trailing (map Margin top ++ s ++ map Margin t) = t.
Proof.
  intros top s t Hn He. rewrite trailing_app, strip_of_ends, trailing_of_ends by exact He. destruct s; [contradiction Hn; reflexivity|reflexivity].
Qed.
(** The distance to the end of a box that does not collapse through *)
Lemma distance_box : forall run l top s, run = Some [] \/ strip l <> [] -> (exists h r, s = Height h :: r) ->
  distance run (l ++ map Margin top ++ s) == distance run (strip l) + collapse (trailing l ++ top) + distance (Some []) s.
Proof.
  intros run l top s Hr (h & r & ->). rewrite app_assoc, distance_height.
  rewrite (distance_end run l top Hr). cbn [distance]. rewrite collapse_nil. lra.
Qed.
Lemma distance_box_hoisted : forall l top s, strip l = [] -> (exists h r, s = Height h :: r) ->
  distance None (l ++ map Margin top ++ s) == distance (Some []) s.
Proof.
  intros l top s Hl (h & r & ->). destruct (no_heights l Hl) as [E _]. rewrite E, app_assoc, <- map_app, distance_height.
  rewrite distance_margins_none. cbn [distance]. rewrite collapse_nil. lra.
Qed.
Lemma distance_hoisted : forall l top, strip l = [] -> distance None (l ++ map Margin top) == 0.
Proof. intros l top Hl. destruct (no_heights l Hl) as [E _]. rewrite E, <- map_app. apply distance_margins_none. Qed.

Lemma place_box : forall run l s b children top items f' s',
  is_run run -> inv run l s -> summary b top items -> unplaced (FBox b children) ->
  place_block_level_fragment (FBox b children) s = Some (f', s') ->
  inv run (l ++ items) s' /\ placed run l f' top /\
  exists r, f' = FBox (with_content_rect b r) children /\ size r = size (bf_content_rect b).
Proof.
  intros run l s b children top items f' s' Hrun (Hf & Hs & Hc) (Htop & x & t & Hi & Ht & Hx) (off & Ho & Hu) H.
  cbn [place_block_level_fragment] in H. rewrite Hf in H.
  assert (Hsame : exists r, FBox b children = FBox (with_content_rect b r) children /\ size r = size (bf_content_rect b)).
  { exists (bf_content_rect b). split; [destruct b; reflexivity|reflexivity]. }
  destruct (hoists run l) eqn:Eh.
  - destruct Hc as [Hcm Hp]. assert (run = None /\ strip l = []) as [-> Hl].
    { destruct run; [discriminate Eh|]. cbn [hoists] in Eh. destruct (strip l); [split; reflexivity|discriminate Eh]. }
    specialize (Hs eq_refl).
    assert (H0 : solve (current_margin s) == 0). { rewrite (rep_solve _ _ Hcm). reflexivity. }
    assert (E0 : Qeq_bool (solve (current_margin s)) 0 = true). { apply Qeq_bool_iff. exact H0. }
    rewrite E0 in H. destruct (collapsed_through (bf_margins b)) eqn:Et.
    + injection H as <- <-. subst x. cbn [app] in Hi. subst items. split; [|split].
      * unfold inv. cbn [next_collapses_with_parent_start start_margin current_margin current_position].
        assert (Hs' : strip (l ++ map Margin top ++ map Margin t) = []).
        { rewrite <- map_app, strip_app, strip_margins. exact Hl. }
        cbn [hoists]. rewrite Hs'. split; [reflexivity|split].
        -- intros _. rewrite (leading_app_no _ _ Hl). rewrite <- map_app, leading_margins. rewrite app_assoc.
           apply rep_adjoin; [apply rep_adjoin; assumption|exact Ht].
        -- split; assumption.
      * cbn [placed]. exists off. split; [exact Ho|]. rewrite (distance_hoisted l top Hl). rewrite Hu. lra.
      * exact Hsame.
    + injection H as <- <-. destruct Hx as (Hx1 & Hx2 & Hx3). pose proof (starts_with_height x Hx1) as Hx0. subst items.
      split; [|split].
      * unfold inv. cbn [next_collapses_with_parent_start start_margin current_margin current_position].
        assert (Hs' : strip (l ++ map Margin top ++ x ++ map Margin t) = l ++ map Margin top ++ x).
        { rewrite strip_app, (strip_box top x t Hx0 Hx2). destruct (map Margin top ++ x) eqn:E; [|reflexivity].
          apply app_eq_nil in E as [_ E]. contradiction. }
        assert (Ht' : trailing (l ++ map Margin top ++ x ++ map Margin t) = t).
        { rewrite trailing_app, (strip_box top x t Hx0 Hx2), (trailing_box top x t Hx0 Hx2).
          destruct (map Margin top ++ x) eqn:E; [|reflexivity]. apply app_eq_nil in E as [_ E]. contradiction. }
        assert (Hh : hoists None (l ++ map Margin top ++ x ++ map Margin t) = false).
        { cbn [hoists]. rewrite Hs'. destruct (l ++ map Margin top ++ x) eqn:E; [|reflexivity].
          apply app_eq_nil in E as [_ E]. apply app_eq_nil in E as [_ E]. contradiction. }
        rewrite Hh. split; [reflexivity|split].
        -- intros _. rewrite (leading_app_no _ _ Hl). destruct Hx1 as (h & r & ->). cbn [app]. rewrite leading_app_height.
           apply rep_adjoin; assumption.
        -- rewrite Hs', Ht'. split; [exact Ht|]. rewrite (distance_box_hoisted l top x Hl Hx1), Hx3.
           unfold outer_size. rewrite H0, Hp. lra.
      * cbn [placed bf_style with_content_rect]. exists off. split; [exact Ho|].
        rewrite (distance_hoisted l top Hl). unfold content_top, pb_start in Hu |- *.
        cbn [with_content_rect bf_content_rect bf_padding bf_border move_block start_corner v_block]. rewrite Hu, H0, Hp. lra.
      * eexists. split; reflexivity.
  - destruct Hc as [Hcm Hp]. pose proof (hoists_false run l Hrun Eh) as Hd.
    cbn [next_collapses_with_parent_start start_margin current_margin current_position] in H.
    assert (Ha : rep (trailing l ++ top) (adjoin (current_margin s) (cm_start (bf_margins b)))) by (apply rep_adjoin; assumption).
    destruct (collapsed_through (bf_margins b)) eqn:Et; injection H as <- <-.
    + subst x. cbn [app] in Hi. subst items. split; [|split].
      * unfold inv. cbn [next_collapses_with_parent_start start_margin current_margin current_position].
        assert (Hs' : strip (l ++ map Margin top ++ map Margin t) = strip l).
        { rewrite <- map_app, strip_app, strip_margins. reflexivity. }
        assert (Hh : hoists run (l ++ map Margin top ++ map Margin t) = false).
        { destruct run; [reflexivity|]. cbn [hoists] in Eh |- *. rewrite Hs'. exact Eh. }
        rewrite Hh. split; [reflexivity|split].
        -- intros Er. destruct Hd as [Hd|Hd]; [rewrite Hd in Er; discriminate Er|]. rewrite (leading_app_yes _ _ Hd). apply Hs; exact Er.
        -- rewrite Hs'. split; [|exact Hp]. rewrite <- map_app, trailing_app, strip_margins, trailing_margins, app_assoc.
           apply rep_adjoin; assumption.
      * cbn [placed bf_style with_content_rect]. exists off. split; [exact Ho|].
        rewrite (distance_end run l top Hd). rewrite <- (rep_solve _ _ Ha). unfold content_top, pb_start in Hu |- *.
        cbn [with_content_rect bf_content_rect bf_padding bf_border move_block start_corner v_block]. rewrite Hu, Hp. lra.
      * eexists. split; reflexivity.
    + destruct Hx as (Hx1 & Hx2 & Hx3). pose proof (starts_with_height x Hx1) as Hx0. subst items.
      split; [|split].
      * unfold inv. cbn [next_collapses_with_parent_start start_margin current_margin current_position].
        assert (Hs' : strip (l ++ map Margin top ++ x ++ map Margin t) = l ++ map Margin top ++ x).
        { rewrite strip_app, (strip_box top x t Hx0 Hx2). destruct (map Margin top ++ x) eqn:E; [|reflexivity].
          apply app_eq_nil in E as [_ E]. contradiction. }
        assert (Ht' : trailing (l ++ map Margin top ++ x ++ map Margin t) = t).
        { rewrite trailing_app, (strip_box top x t Hx0 Hx2), (trailing_box top x t Hx0 Hx2).
          destruct (map Margin top ++ x) eqn:E; [|reflexivity]. apply app_eq_nil in E as [_ E]. contradiction. }
        assert (Hh : hoists run (l ++ map Margin top ++ x ++ map Margin t) = false).
        { destruct run; [reflexivity|]. cbn [hoists]. rewrite Hs'. destruct (l ++ map Margin top ++ x) eqn:E; [|reflexivity].
          apply app_eq_nil in E as [_ E]. apply app_eq_nil in E as [_ E]. contradiction. }
        rewrite Hh. split; [reflexivity|split].
        -- intros Er. destruct Hd as [Hd|Hd]; [rewrite Hd in Er; discriminate Er|]. rewrite (leading_app_yes _ _ Hd). apply Hs; exact Er.
        -- rewrite Hs', Ht'. split; [exact Ht|]. rewrite (distance_box run l top x Hd Hx1), Hx3.
           rewrite <- (rep_solve _ _ Ha), Hp. unfold outer_size. lra.
      * cbn [placed bf_style with_content_rect]. exists off. split; [exact Ho|].
        rewrite (distance_end run l top Hd). rewrite <- (rep_solve _ _ Ha). unfold content_top, pb_start in Hu |- *.
        cbn [with_content_rect bf_content_rect bf_padding bf_border move_block start_corner v_block]. rewrite Hu, Hp. lra.
      * eexists. split; reflexivity.
Qed.

Lemma place_anonymous : forall run l s r mode f' s',
  is_run run -> inv run l s -> unplaced (FAnonymous r mode []) ->
  place_block_level_fragment (FAnonymous r mode []) s = Some (f', s') ->
  inv run (l ++ []) s' /\ placed run l f' [] /\ exists r', f' = FAnonymous r' mode [].
Proof.
  intros run l s r mode f' s' Hrun (Hf & Hs & Hc) Hu H. cbn [place_block_level_fragment] in H.
  destruct (Qeq_bool (v_block (size r)) 0); [|discriminate H]. injection H as <- <-. rewrite app_nil_r.
  split; [split; [exact Hf|split; [exact Hs|exact Hc]]|split; [|eexists; reflexivity]].
  cbn [placed move_block start_corner v_block]. cbn [unplaced] in Hu. rewrite Hu.
  destruct (hoists run l) eqn:Eh; destruct Hc as [_ Hp]; rewrite Hp; [|lra].
  destruct run; [discriminate Eh|]. cbn [hoists] in Eh. destruct (strip l); [|discriminate Eh]. cbn [distance]. lra.
Qed.

(** ** From boxes to fragments *)
Section Font.
Variable glyph_id : N -> res font_error N.
Variable glyph_width : N -> res font_error Q.
Notation bcl := (block_container_layout glyph_id glyph_width).
Notation bll := (block_level_box_layout glyph_id glyph_width).
Notation fcl := (bfc_layout glyph_id glyph_width).

Lemma bcl_blocks : forall o l cb rank acc fl coll, bcl o (BlockLevelBoxes l) cb rank acc fl coll =
  layout_block_level_children (fun i b acc => bll (sub_oracle o i) b cb i acc fl) (o []) l rank acc fl coll.
Proof. reflexivity. Qed.
Lemma bcl_inlines : forall o l cb rank acc fl coll, bcl o (InlineFormattingContext l) cb rank acc fl coll =
  match inline_boxes_layout (fun b s acc => inline_level_box_layout glyph_id glyph_width o b cb rank s acc) l
          (mkIFC (mkLB [] 0) 0 [] (mkNL [] 0 0)) acc with
  | Some (s, acc) => let (lb, _) := finish_line (ifc_lines s) (ifc_current s) cb in
      Some (mkFC (lb_boxes lb) (lb_next_position lb) cbm_zero, acc)
  | None => None end.
Proof. reflexivity. Qed.
Lemma bll_same : forall o style contents cb rank acc fl, bll o (SameFormattingContextBlock style contents) cb rank acc fl =
  layout_in_flow_non_replaced_block_level cb acc style SameFormattingContext
    (fun cb acc collapsible => bcl o contents cb rank acc fl collapsible).
Proof. reflexivity. Qed.
Lemma bll_independent : forall o style contents cb rank acc fl, bll o (Independent style contents) cb rank acc fl =
  layout_in_flow_non_replaced_block_level cb acc style EstablishesAnIndependentFormattingContext
    (fun cb acc _ => fcl o contents cb rank acc).
Proof. reflexivity. Qed.
Lemma fcl_bfc : forall o c f cb rank acc, fcl o (BFC c f) cb rank acc =
  match bcl o c cb rank acc f false with
  | Some (fc, acc) => Some (mkFC (fc_fragments fc) (fc_block_size fc + solve (cm_end (fc_margins fc)))
              (mkCBM false (cm_start (fc_margins fc)) cm_zero), acc)
  | None => None end.
Proof. reflexivity. Qed.
Lemma ill_inline : forall o st fi la children cb rank s acc,
  inline_level_box_layout glyph_id glyph_width o (InlineBox st fi la children) cb rank s acc =
  let (p, s) := start_layout cb st fi la s in
  match inline_boxes_layout (fun b s acc => inline_level_box_layout glyph_id glyph_width o b cb rank s acc) children
          (mkIFC (ifc_lines s) (ifc_position s) (p :: ifc_stack s) (ifc_current s)) acc with
  | Some (s, acc) => match ifc_stack s with
      | [] => None
      | p :: stack =>
          let '(p, _, position) := finish_layout p (ifc_current s) (ifc_position s) false in
          Some (mkIFC (ifc_lines s) position stack (pi_parent p), acc)
      end
  | None => None end.
Proof. reflexivity. Qed.

Definition fragment_summary (f : fragment) (top : list Q) (items : list item) : Prop :=
  match f with
  | FBox b _ => summary b top items
  | FAnonymous _ _ children => children = [] /\ top = [] /\ items = []
  | FText _ _ _ => False
  end.
Definition laid_out (h : length_or_auto) (b : block_level_box) (f : fragment) : Prop :=
  unplaced f /\ exists top items, block_ok h b f top items /\ fragment_summary f top items.

(** Moving a fragment does not change what it adds to the flow. *)
Lemma block_ok_move : forall h bx b children top items r,
  block_ok h bx (FBox b children) top items -> size r = size (bf_content_rect b) ->
  block_ok h bx (FBox (with_content_rect b r) children) top items.
Proof.
  intros h bx b children top items r H Hr. destruct r as [c z]. cbn [size] in Hr. subst z.
  inversion H; subst; clear H.
  - apply (ok_same h (bf_style b) contents (with_content_rect b (mkRect c (size (bf_content_rect b)))) children0 extra inner eq_refl); assumption.
  - apply (ok_independent h (bf_style b) contents floats (with_content_rect b (mkRect c (size (bf_content_rect b)))) children0 extra inner eq_refl); assumption.
Qed.

Lemma block_ok_move_anonymous : forall h bx r mode r' top items,
  block_ok h bx (FAnonymous r mode []) top items -> block_ok h bx (FAnonymous r' mode []) top items.
Proof. intros h bx r mode r' top items H. inversion H; subst; constructor. Qed.

Lemma place_all_ok : forall h run l frs frs' before s s',
  is_run run -> Forall2 (laid_out h) l frs -> inv run before s -> place_all frs s = Some (frs', s') ->
  exists items, children_ok h run before l frs' items /\ inv run items s'.
Proof.
  intros h run. induction l as [|bx l IH]; intros frs frs' before s s' Hrun HF Hi H; inversion HF; subst; clear HF.
  - cbn [place_all] in H. injection H as <- <-. exists before. split; [constructor|exact Hi].
  - rename y into f. rename l' into frs0. cbn [place_all] in H.
    destruct (place_block_level_fragment f s) as [[f1 s1]|] eqn:Ep; [|discriminate H].
    destruct (place_all frs0 s1) as [[r1 s2]|] eqn:Er; [|discriminate H]. injection H as <- <-.
    destruct H2 as (Hu & top & items & Hok & Hsum).
    assert (K : inv run (before ++ items) s1 /\ placed run before f1 top /\ block_ok h bx f1 top items).
    { destruct f as [b ch|r mode ch|]; cbn [fragment_summary] in Hsum; [| |contradiction].
      - destruct (place_box run before s b ch top items f1 s1 Hrun Hi Hsum Hu Ep) as (K1 & K2 & r & K3 & K4).
        split; [exact K1|split; [exact K2|]]. subst f1. apply block_ok_move; assumption.
      - destruct Hsum as (-> & -> & ->).
        destruct (place_anonymous run before s r mode f1 s1 Hrun Hi Hu Ep) as (K1 & K2 & r' & ->).
        split; [exact K1|split; [exact K2|]]. eapply block_ok_move_anonymous. exact Hok. }
    destruct K as (K1 & K2 & K3). destruct (IH frs0 r1 (before ++ items) s1 s2 Hrun H4 K1 Er) as (all & C1 & C2).
    exists all. split; [|exact C2]. econstructor; eassumption.
Qed.

(** Layout of one child after the other *)
Fixpoint layout_each {B} (lay : nat -> B -> list abspos_fragment -> option (fragment * list abspos_fragment)) (i : nat) (l : list B)
    (acc : list abspos_fragment) : option (list fragment * list abspos_fragment) :=
  match l with
  | [] => Some ([], acc)
  | b :: r => match lay i b acc with
      | Some (f, acc) => match layout_each lay (S i) r acc with Some (fs, acc) => Some (f :: fs, acc) | None => None end
      | None => None end
  end.
Lemma run_tasks_each : forall B (lay : nat -> B -> _ -> _) l i acc,
  run_tasks i (map (fun b i acc => lay i b acc) l) acc = layout_each lay i l acc.
Proof.
  intros B lay. induction l as [|b l IH]; intros i acc; cbn [map run_tasks layout_each]; [reflexivity|].
  destruct (lay i b acc) as [[f acc1]|]; [|reflexivity]. rewrite IH. reflexivity.
Qed.
(** Layout then placement, or both at once *)
Lemma layout_and_place_eq : forall B (lay : nat -> B -> _ -> _) l i acc s,
  layout_and_place lay i l acc s =
  match layout_each lay i l acc with
  | Some (fs, acc) => match place_all fs s with Some (fs, s) => Some (fs, acc, s) | None => None end
  | None => None
  end \/
  (layout_and_place lay i l acc s = None /\
   match layout_each lay i l acc with
   | Some (fs, acc) => match place_all fs s with Some (fs, s) => Some (fs, acc, s) | None => None end
   | None => None
   end = None).
Proof.
  intros B lay. induction l as [|b l IH]; intros i acc s; cbn [layout_and_place layout_each].
  - left. reflexivity.
  - destruct (lay i b acc) as [[f acc1]|]; [|left; reflexivity].
    destruct (place_block_level_fragment f s) as [[f1 s1]|] eqn:Ep.
    + destruct (IH (S i) acc1 s1) as [E|[E1 E2]].
      * left. rewrite E. destruct (layout_each lay (S i) l acc1) as [[fs acc2]|]; [|reflexivity].
        cbn [place_all]. rewrite Ep. destruct (place_all fs s1) as [[fs' s2]|]; reflexivity.
      * right. rewrite E1. split; [reflexivity|]. destruct (layout_each lay (S i) l acc1) as [[fs acc2]|]; [|reflexivity].
        cbn [place_all]. rewrite Ep. destruct (place_all fs s1) as [[fs' s2]|]; [discriminate E2|reflexivity].
    + right. split; [reflexivity|]. destruct (layout_each lay (S i) l acc1) as [[fs acc2]|]; [|reflexivity].
      cbn [place_all]. rewrite Ep. reflexivity.
Qed.
Lemma layout_and_place_same : forall B (lay : nat -> B -> _ -> _) l i acc s,
  layout_and_place lay i l acc s =
  match layout_each lay i l acc with
  | Some (fs, acc) => match place_all fs s with Some (fs, s) => Some (fs, acc, s) | None => None end
  | None => None
  end.
Proof. intros. destruct (layout_and_place_eq B lay l i acc s) as [E|[E1 E2]]; [exact E|]. rewrite E1, E2. reflexivity. Qed.

Lemma layout_each_forall : forall B (lay : nat -> B -> list abspos_fragment -> option (fragment * list abspos_fragment)) (P : B -> fragment -> Prop) l i acc fs acc',
  (forall b, In b l -> forall i acc f acc', lay i b acc = Some (f, acc') -> P b f) ->
  layout_each lay i l acc = Some (fs, acc') -> Forall2 P l fs.
Proof.
  intros B lay P. induction l as [|b l IH]; intros i acc fs acc' HP H; cbn [layout_each] in H.
  - injection H as <- _. constructor.
  - destruct (lay i b acc) as [[f acc1]|] eqn:E; [|discriminate H].
    destruct (layout_each lay (S i) l acc1) as [[fs' acc2]|] eqn:E2; [|discriminate H]. injection H as <- _.
    constructor.
    + eapply HP; [left; reflexivity|exact E].
    + eapply IH; [|exact E2]. intros b' Hb'. apply HP. right; exact Hb'.
Qed.

Lemma mapfold_forall : forall B (lay : nat -> B -> list abspos_fragment -> option (fragment * list abspos_fragment)) (P : B -> fragment -> Prop) t l i acc fs acc',
  (forall b, In b l -> forall i acc f acc', lay i b acc = Some (f, acc') -> P b f) ->
  mapfold_reduce_into t i (map (fun b i acc => lay i b acc) l) acc = Some (fs, acc') -> Forall2 P l fs.
Proof.
  intros B lay P. induction t as [|n t1 IH1 t2 IH2]; intros l i acc fs acc' HP H; cbn [mapfold_reduce_into] in H.
  - rewrite run_tasks_each in H. eapply layout_each_forall; eassumption.
  - rewrite firstn_map, skipn_map in H.
    destruct (mapfold_reduce_into t1 i _ acc) as [[fs1 acc1]|] eqn:E1; [|discriminate H].
    destruct (mapfold_reduce_into t2 _ _ []) as [[fs2 acc2]|] eqn:E2; [|discriminate H].
    injection H as <- _. rewrite <- (firstn_skipn n l). apply Forall2_app.
    + eapply IH1; [|exact E1]. intros b Hb. apply HP. rewrite <- (firstn_skipn n l). apply in_or_app. left; exact Hb.
    + eapply IH2; [|exact E2]. intros b Hb. apply HP. rewrite <- (firstn_skipn n l). apply in_or_app. right; exact Hb.
Qed.

Definition container_laid_out (h : length_or_auto) (c : block_container) (run : option (list Q)) (fc : flow_children) : Prop :=
  exists inner, container_ok h c run (fc_fragments fc) inner /\
    collapsed_through (fc_margins fc) = hoists run inner /\
    (run = None -> rep (leading inner) (cm_start (fc_margins fc))) /\
    (if hoists run inner then rep [] (cm_end (fc_margins fc)) /\ fc_block_size fc == 0
     else rep (trailing inner) (cm_end (fc_margins fc)) /\ fc_block_size fc == distance run (strip inner)).

Lemma blocks_laid_out : forall h lay t l rank acc fl (coll : bool) fc acc',
  (forall b, In b l -> forall i acc f acc', lay i b acc = Some (f, acc') -> laid_out h b f) ->
  layout_block_level_children lay t l rank acc fl coll = Some (fc, acc') ->
  container_laid_out h (BlockLevelBoxes l) (if coll then None else Some []) fc.
Proof.
  intros h lay t l rank acc fl coll fc acc' HP H. unfold layout_block_level_children in H.
  set (s0 := mkPS coll cm_zero cm_zero 0) in H.
  assert (E : exists fs frs s1, Forall2 (laid_out h) l fs /\ place_all fs s0 = Some (frs, s1) /\
              fc = mkFC frs (current_position s1) (mkCBM (next_collapses_with_parent_start s1) (start_margin s1) (current_margin s1))).
  { destruct fl.
    - rewrite layout_and_place_same in H. destruct (layout_each lay 0 l acc) as [[fs acc1]|] eqn:Ele; [|discriminate H].
      destruct (place_all fs s0) as [[frs s1]|] eqn:Epl; [|discriminate H].
      destruct (adjust_static_positions (skipn (Datatypes.length acc) acc1) frs rank) as [adj|]; [|discriminate H].
      injection H as <- _. exists fs, frs, s1. split; [|split; [exact Epl|reflexivity]].
      exact (layout_each_forall _ lay (laid_out h) l 0 acc fs acc1 HP Ele).
    - destruct (mapfold_reduce_into t 0 (map (fun b i acc => lay i b acc) l) acc) as [[fs acc1]|] eqn:Ele; [|discriminate H].
      destruct (place_all fs s0) as [[frs s1]|] eqn:Epl; [|discriminate H].
      destruct (adjust_static_positions (skipn (Datatypes.length acc) acc1) frs rank) as [adj|]; [|discriminate H].
      injection H as <- _. exists fs, frs, s1. split; [|split; [exact Epl|reflexivity]].
      exact (mapfold_forall _ lay (laid_out h) t l 0 acc fs acc1 HP Ele). }
  destruct E as (fs & frs & s1 & HF & E2 & ->).
  assert (Hrun : is_run (if coll then None else Some [])) by (destruct coll; [left|right]; reflexivity).
  assert (Hinv : inv (if coll then None else Some []) [] s0).
  { unfold inv, s0. cbn [next_collapses_with_parent_start start_margin current_margin current_position]. destruct coll; cbn [hoists strip leading trailing distance].
    - split; [reflexivity|split; [intros _; apply rep_nil|split; [apply rep_nil|reflexivity]]].
    - split; [reflexivity|split; [intros E; discriminate E|split; [apply rep_nil|reflexivity]]]. }
  destruct (place_all_ok h _ l fs frs [] s0 s1 Hrun HF Hinv E2) as (items & C & (I1 & I2 & I3)).
  exists items. cbn [fc_fragments fc_margins fc_block_size collapsed_through cm_start cm_end].
  split; [constructor; exact C|]. split; [exact I1|split; [exact I2|exact I3]].
Qed.

(** The inline formatting context *)
Definition lines_boxes_ok (lb : lines_boxes) : Prop := lines_ok 0 (lb_boxes lb) (lb_next_position lb).
Definition not_negative (nl : nesting_level) : Prop := 0 <= nl_max_block_size nl.
Definition stack_ok (stack : list partial_inline_box) : Prop := Forall (fun p => not_negative (pi_parent p)) stack.
Definition lines_state_ok (s : ifc_state) : Prop :=
  lines_boxes_ok (ifc_lines s) /\ not_negative (ifc_current s) /\ stack_ok (ifc_stack s).
Lemma lines_snoc : forall l y z r mode children,
  lines_ok y l z -> v_block (start_corner r) == z -> v_inline (start_corner r) == 0 -> 0 <= v_block (size r) ->
  lines_ok y (l ++ [FAnonymous r mode children]) (z + v_block (size r)).
Proof.
  induction l as [|f l IH]; intros y z r mode children H H1 H2 Hz; inversion H; subst; clear H; cbn [app].
  - constructor; [rewrite H0; exact H1|exact H2|exact Hz|]. constructor. rewrite H0. reflexivity.
  - constructor; [assumption|assumption|assumption|]. apply IH; assumption.
Qed.
Lemma finish_line_ok : forall lb nl cb, lines_boxes_ok lb -> not_negative nl -> lines_boxes_ok (fst (finish_line lb nl cb)).
Proof.
  intros lb nl cb H Hn. unfold lines_boxes_ok, finish_line in *. cbn [fst lb_boxes lb_next_position].
  set (r := mkRect (mkVec 0 (lb_next_position lb)) (mkVec (cb_inline_size cb) (nl_max_block_size nl))).
  change (v_block (mkVec (cb_inline_size cb) (nl_max_block_size nl))) with (v_block (size r)).
  apply lines_snoc; [exact H|reflexivity|reflexivity|exact Hn].
Qed.
Lemma finish_layout_not_negative : forall p nl pos atb p' nl' pos',
  not_negative nl -> not_negative (pi_parent p) -> finish_layout p nl pos atb = (p', nl', pos') ->
  not_negative nl' /\ not_negative (pi_parent p').
Proof.
  intros p nl pos atb p' nl' pos' Hn Hp H. unfold finish_layout in H. destruct (if (_ : bool) then _ else _) as [[[q pad] bor] mar].
  injection H as <- <- _. split; [exact Hn|]. unfold not_negative. cbn [pi_parent nl_max_block_size].
  eapply Qle_trans; [exact Hp|apply Q.le_max_l].
Qed.
Lemma break_levels_ok : forall cb stack nl pos lb nl' st' lb',
  lines_boxes_ok lb -> not_negative nl -> stack_ok stack -> break_levels cb stack nl pos lb = (nl', st', lb') ->
  lines_boxes_ok lb' /\ not_negative nl' /\ stack_ok st'.
Proof.
  intros cb. induction stack as [|p stack IH]; intros nl pos lb nl' st' lb' Hl Hn Hs H; cbn [break_levels] in H.
  - pose proof (finish_line_ok lb nl cb Hl Hn) as K. destruct (finish_line lb nl cb) as [lb1 nl1] eqn:E. injection H as <- <- <-.
    split; [exact K|]. split; [|constructor]. unfold finish_line in E. injection E as _ <-. apply Qle_refl.
  - inversion Hs; subst. destruct (finish_layout p nl pos true) as [[p1 nl1] pos1] eqn:Ef.
    destruct (finish_layout_not_negative p nl pos true p1 nl1 pos1 Hn H2 Ef) as [K1 K2].
    destruct (break_levels cb stack (pi_parent (after_break p1)) pos1 lb) as [[par rest] lb1] eqn:E.
    injection H as <- <- <-. destruct (IH (pi_parent (after_break p1)) pos1 lb par rest lb1 Hl K2 H3 E) as (L1 & L2 & L3).
    split; [exact L1|]. split; [exact K1|]. constructor; [exact L2|exact L3].
Qed.
Lemma text_run_lines_ok : forall fuel cb style avail chars s s',
  lines_state_ok s -> text_run_lines glyph_id glyph_width fuel cb style avail chars s = Some s' ->
  lines_state_ok s'.
Proof.
  induction fuel as [|fuel IH]; intros cb style avail chars s s' Hl H; cbn [text_run_lines] in H; [discriminate H|].
  destruct (fill_line _ _ _ _ chars _ _) as [[sh rest]|]; [|discriminate H].
  assert (Hl1 : lines_state_ok (push_text style sh s)).
  { destruct Hl as (L1 & L2 & L3). split; [exact L1|]. split; [|exact L3]. unfold not_negative, push_text. cbn [ifc_current nl_max_block_size].
    eapply Qle_trans; [exact L2|apply Q.le_max_l]. }
  destruct rest as [|c rest].
  - injection H as <-. exact Hl1.
  - eapply IH; [|exact H]. unfold new_line.
    destruct (break_levels cb (ifc_stack (push_text style sh s)) _ _ (ifc_lines (push_text style sh s))) as [[cur st] lb] eqn:E.
    destruct Hl1 as (L1 & L2 & L3). edestruct break_levels_ok as (K1 & K2 & K3); [exact L1| |exact L3|exact E|]; [exact L2|].
    split; [exact K1|]. split; [exact K2|exact K3].
Qed.
Lemma inline_boxes_inv : forall one (P : ifc_state -> Prop) l s acc s' acc',
  (forall b, In b l -> forall s acc s' acc', P s -> one b s acc = Some (s', acc') -> P s') ->
  P s -> inline_boxes_layout one l s acc = Some (s', acc') -> P s'.
Proof.
  intros one P. induction l as [|b l IH]; intros s acc s' acc' HP Hs H; cbn [inline_boxes_layout] in H.
  - injection H as <- _. exact Hs.
  - destruct (one b s acc) as [[s1 acc1]|] eqn:E; [|discriminate H].
    eapply IH; [| |exact H].
    + intros b' Hb'. apply HP. right; exact Hb'.
    + eapply HP; [left; reflexivity|exact Hs|exact E].
Qed.

Definition Qc (c : block_container) : Prop := forall o cb rank acc fl coll fc acc',
  bcl o c cb rank acc fl coll = Some (fc, acc') ->
  container_laid_out (cb_block_size cb) c (if coll then None else Some []) fc.
Definition Qb (b : block_level_box) : Prop := forall o cb rank acc fl f acc',
  bll o b cb rank acc fl = Some (f, acc') -> laid_out (cb_block_size cb) b f.
Definition Qf (c : block_formatting_context) : Prop := forall o cb rank acc fc acc',
  fcl o c cb rank acc = Some (fc, acc') ->
  match c with BFC contents _ =>
    exists inner, container_ok (cb_block_size cb) contents (Some []) (fc_fragments fc) inner /\
    collapsed_through (fc_margins fc) = false /\ cm_end (fc_margins fc) = cm_zero /\ fc_block_size fc == distance (Some []) inner
  end.
Definition Qi (b : inline_level_box) : Prop := forall o cb rank s acc s' acc',
  lines_state_ok s ->
  inline_level_box_layout glyph_id glyph_width o b cb rank s acc = Some (s', acc') -> lines_state_ok s'.

Lemma Qi_inline : forall s f l children, Forall Qi children -> Qi (InlineBox s f l children).
Proof.
  intros st fi la children HF o cb rank s acc s' acc' Hl H. rewrite ill_inline in H.
  destruct (start_layout cb st fi la s) as [p s1] eqn:Es.
  assert (Hl1 : lines_state_ok (mkIFC (ifc_lines s1) (ifc_position s1) (p :: ifc_stack s1) (ifc_current s1))).
  { destruct Hl as (L1 & L2 & L3). unfold start_layout in Es. destruct fi; injection Es as <- <-;
      (split; [exact L1|]; split; [apply Qle_refl|constructor; [exact L2|exact L3]]). }
  destruct (inline_boxes_layout _ children _ acc) as [[s2 acc2]|] eqn:E; [|discriminate H].
  assert (Hl2 : lines_state_ok s2).
  { eapply (inline_boxes_inv _ lines_state_ok); [| |exact E]; [|exact Hl1].
    intros b Hb s3 acc3 s4 acc4 H3 H4. rewrite Forall_forall in HF. exact (HF b Hb o cb rank s3 acc3 s4 acc4 H3 H4). }
  destruct (ifc_stack s2) as [|q stack] eqn:Est; [discriminate H|].
  destruct Hl2 as (L1 & L2 & L3). rewrite Est in L3. unfold stack_ok in L3. apply Forall_cons_iff in L3 as [H2 H3].
  destruct (finish_layout q (ifc_current s2) (ifc_position s2) false) as [[q' nl] pos] eqn:Ef.
  destruct (finish_layout_not_negative _ _ _ _ _ _ _ L2 H2 Ef) as [K1 K2].
  injection H as <- _. split; [exact L1|]. split; [exact K2|exact H3].
Qed.

Lemma Qc_inlines : forall l, Forall Qi l -> Qc (InlineFormattingContext l).
Proof.
  intros l HF o cb rank acc fl coll fc acc' H. rewrite bcl_inlines in H.
  destruct (inline_boxes_layout _ l _ acc) as [[s2 acc2]|] eqn:E; [|discriminate H].
  assert (Hl2 : lines_state_ok s2).
  { eapply (inline_boxes_inv _ lines_state_ok); [| |exact E].
    - intros b Hb s3 acc3 s4 acc4 H3 H4. rewrite Forall_forall in HF. exact (HF b Hb o cb rank s3 acc3 s4 acc4 H3 H4).
    - split; [constructor; reflexivity|]. split; [apply Qle_refl|constructor]. }
  destruct Hl2 as (L1 & L2 & _). pose proof (finish_line_ok (ifc_lines s2) (ifc_current s2) cb L1 L2) as Hl3.
  destruct (finish_line (ifc_lines s2) (ifc_current s2) cb) as [lb nl]. cbn [fst] in Hl3. injection H as <- _.
  exists [Height (lb_next_position lb)]. cbn [fc_fragments fc_margins fc_block_size].
  split; [constructor; exact Hl3|].
  split; [destruct coll; reflexivity|]. split; [intros _; apply rep_nil|].
  destruct coll; cbn [hoists strip trailing distance cbm_zero cm_end]; (split; [apply rep_nil|]); rewrite ?collapse_nil; lra.
Qed.

Lemma Qc_blocks : forall l, Forall Qb l -> Qc (BlockLevelBoxes l).
Proof.
  intros l HF o cb rank acc fl coll fc acc' H. rewrite bcl_blocks in H.
  eapply blocks_laid_out; [|exact H]. intros b Hb i acc1 f acc2 E. rewrite Forall_forall in HF. exact (HF b Hb (sub_oracle o i) cb i acc1 fl f acc2 E).
Qed.
Lemma Qf_bfc : forall c f, Qc c -> Qf (BFC c f).
Proof.
  intros c f Hc o cb rank acc fc acc' H. rewrite fcl_bfc in H.
  destruct (bcl o c cb rank acc f false) as [[fc1 acc1]|] eqn:E; [|discriminate H]. injection H as <- _.
  destruct (Hc _ _ _ _ _ _ _ _ E) as (inner & C & I1 & I2 & I3). cbn [hoists] in I3. destruct I3 as [I3 I4].
  exists inner. cbn [fc_fragments fc_margins fc_block_size collapsed_through cm_end].
  split; [exact C|split; [reflexivity|split; [reflexivity|]]].
  rewrite (rep_solve _ _ I3), I4. pose proof (distance_end (Some []) inner [] (or_introl eq_refl)) as D.
  cbn [map] in D. rewrite !app_nil_r in D. rewrite D. reflexivity.
Qed.

(** In-flow blocks *)
Lemma solid_cases : forall q, (q == 0 /\ Qeq_bool q 0 = true /\ solid q = []) \/ (~ q == 0 /\ Qeq_bool q 0 = false /\ solid q = [Height q]).
Proof.
  intros q. unfold solid. destruct (Qeq_bool q 0) eqn:E.
  - left. split; [apply Qeq_bool_iff; exact E|split; reflexivity].
  - right. split; [|split; reflexivity]. intro K. apply Qeq_bool_iff in K. congruence.
Qed.
Lemma ends_snoc : forall s h, ends_in_height (s ++ [Height h]).
Proof. intros. right. exists s, h. reflexivity. Qed.
Lemma strip_nonempty_ends : forall l, strip l <> [] -> exists s h, strip l = s ++ [Height h].
Proof. intros l H. destruct (strip_ends l) as [E|E]; [contradiction|exact E]. Qed.

(** What the margins of a box and its contents add up to *)
Lemma same_auto_summary : forall b ms me inner,
  bf_margins b = bf_margins b ->
  let pbs := pb_start b in let pbe := pb_end b in
  let run := run_of pbs in
  rep (ms :: if Qeq_bool pbs 0 then leading inner else []) (cm_start (bf_margins b)) ->
  (if Qeq_bool pbe 0 then
     if hoists run inner then rep [me] (cm_end (bf_margins b)) else rep (trailing inner ++ [me]) (cm_end (bf_margins b))
   else rep [me] (cm_end (bf_margins b))) ->
  collapsed_through (bf_margins b) = Qeq_bool pbe 0 && hoists run inner ->
  content_height b == distance run (if Qeq_bool pbe 0 then strip inner else inner) ->
  summary b (ms :: if Qeq_bool pbs 0 then leading inner else [])
    (Margin ms :: solid pbs ++ inner ++ solid pbe ++ [Margin me]).
Proof.
  intros b ms me inner _ pbs pbe run Hs He Ht Hh. split; [exact Hs|].
  assert (Ho : outer_size b == pbs + content_height b + pbe).
  { unfold outer_size, pbs, pbe, pb_start, pb_end, content_height, block_sum. lra. }
  subst run. unfold run_of in *.
  destruct (solid_cases pbs) as [(Z1 & B1 & S1)|(Z1 & B1 & S1)]; rewrite B1, S1 in *; cbn [hoists app] in *.
  - destruct (strip inner) eqn:Ei.
    + (* all margins, collapsing with the top *)
      destruct (no_heights inner Ei) as [En _].
      destruct (solid_cases pbe) as [(Z2 & B2 & S2)|(Z2 & B2 & S2)]; rewrite B2, S2 in *; cbn [andb app] in *.
      * exists [], [me]. split; [|split; [exact He|rewrite Ht; reflexivity]]. cbn [map app]. rewrite En at 1. reflexivity.
      * exists [Height pbe], [me]. split; [|split; [exact He|rewrite Ht]].
        -- cbn [map app]. rewrite En at 1. reflexivity.
        -- split; [exists pbe, []; reflexivity|split; [apply (ends_snoc [])|]]. cbn [distance]. rewrite !collapse_nil.
           rewrite Ho, Hh, Z1. rewrite En. rewrite distance_margins_none. lra.
    + assert (Hne : strip inner <> []) by (rewrite Ei; discriminate).
      destruct (leading_split inner Hne) as (hh & r & El). set (ld := leading inner) in *.
      destruct (strip_nonempty_ends inner Hne) as (s' & h' & Es).
      assert (Esp : strip inner = map Margin ld ++ Height hh :: strip r).
      { rewrite El. rewrite strip_app. cbn [strip]. reflexivity. }
      assert (Et : trailing inner = trailing r).
      { rewrite El. rewrite trailing_app. cbn [strip trailing]. reflexivity. }
      assert (Er : r = strip r ++ map Margin (trailing r)) by (apply strip_trailing).
      destruct (solid_cases pbe) as [(Z2 & B2 & S2)|(Z2 & B2 & S2)]; rewrite B2, S2 in *; cbn [andb app] in *.
      * exists (Height hh :: strip r), (trailing r ++ [me]). split; [|split].
        -- cbn [map app]. f_equal. rewrite El. rewrite <- !app_assoc. f_equal. cbn [app]. f_equal.
           rewrite Er at 1. rewrite <- app_assoc. rewrite map_app. reflexivity.
        -- rewrite <- Et. exact He.
        -- rewrite Ht. split; [exists hh, (strip r); reflexivity|split].
           ++ destruct (strip_ends r) as [K|(k1 & k2 & K)]; rewrite K; right; [exists [], hh; reflexivity|exists (Height hh :: k1), k2; reflexivity].
           ++ rewrite Ho, Hh, Z1, Z2. rewrite <- Ei, Esp, distance_height, distance_margins_none. cbn [distance]. rewrite collapse_nil. lra.
      * exists (Height hh :: r ++ [Height pbe]), [me]. split; [|split].
        -- cbn [map app]. f_equal. rewrite El. rewrite <- !app_assoc. f_equal.
        -- exact He.
        -- rewrite Ht. split; [exists hh, (r ++ [Height pbe]); reflexivity|split; [apply (ends_snoc (Height hh :: r))|]].
           change (Height hh :: r ++ [Height pbe]) with ([] ++ Height hh :: (r ++ [Height pbe])). rewrite distance_height.
           rewrite (distance_height r). cbn [distance]. rewrite collapse_nil. rewrite Ho, Hh, Z1, El, distance_height, distance_margins_none. lra.
  - assert (Hi : distance (Some []) inner == distance (Some []) (strip inner) + collapse (trailing inner)).
    { pose proof (distance_end (Some []) inner [] (or_introl eq_refl)) as D. cbn [map] in D. rewrite !app_nil_r in D. exact D. }
    destruct (solid_cases pbe) as [(Z2 & B2 & S2)|(Z2 & B2 & S2)]; rewrite B2, S2 in *; cbn [andb app] in *.
    + exists (Height pbs :: strip inner), (trailing inner ++ [me]). split; [|split].
      * cbn [map app]. f_equal. f_equal. rewrite (strip_trailing inner) at 1. rewrite <- app_assoc. rewrite map_app. reflexivity.
      * exact He.
      * rewrite Ht. split; [exists pbs, (strip inner); reflexivity|split].
        -- destruct (strip_ends inner) as [K|(k1 & k2 & K)]; rewrite K; right; [exists [], pbs; reflexivity|exists (Height pbs :: k1), k2; reflexivity].
        -- cbn [distance]. rewrite Ho, Hh, Z2, collapse_nil. lra.
    + exists (Height pbs :: inner ++ [Height pbe]), [me]. split; [|split].
      * cbn [map app]. f_equal. f_equal. rewrite <- app_assoc. reflexivity.
      * exact He.
      * rewrite Ht. split; [exists pbs, (inner ++ [Height pbe]); reflexivity|split; [apply (ends_snoc (Height pbs :: inner))|]].
        cbn [distance]. rewrite distance_height. cbn [distance]. rewrite Ho, Hh, !collapse_nil. lra.
Qed.
Lemma fixed_summary : forall b ms me top,
  rep (ms :: top) (cm_start (bf_margins b)) -> rep [me] (cm_end (bf_margins b)) -> collapsed_through (bf_margins b) = false ->
  summary b (ms :: top) (Margin ms :: map Margin top ++ [Height (pb_start b + content_height b + pb_end b); Margin me]).
Proof.
  intros b ms me top Hs He Ht. split; [exact Hs|].
  exists [Height (pb_start b + content_height b + pb_end b)], [me]. split; [reflexivity|split; [exact He|rewrite Ht]].
  split; [eexists; eexists; reflexivity|split; [apply (ends_snoc [])|]]. cbn [distance]. rewrite !collapse_nil.
  unfold outer_size, pb_start, pb_end, content_height, block_sum. lra.
Qed.

(** What [layout_in_flow_non_replaced_block_level] returns *)
Definition end_collapses (kind : block_level_kind) (b : box_fragment) (h : length_or_auto) : bool :=
  is_same kind && Qeq_bool (pb_end b) 0 && match h with Auto => true | Length _ => false end.
Definition start_collapses (kind : block_level_kind) (b : box_fragment) : bool := is_same kind && Qeq_bool (pb_start b) 0.
Definition joined_start (sc : bool) (b : box_fragment) (m : collapsed_block_margins) : collapsed_margin :=
  if sc then
    if collapsed_through m then adjoin (adjoin (cm_new (block_start (bf_margin b))) (cm_start m)) (cm_end m)
    else adjoin (cm_new (block_start (bf_margin b))) (cm_start m)
  else cm_new (block_start (bf_margin b)).
Definition children_end (sc : bool) (m : collapsed_block_margins) : collapsed_margin :=
  if sc && collapsed_through m then cm_zero else cm_end m.
Lemma in_flow_inv : forall cb acc style kind lc f acc',
  layout_in_flow_non_replaced_block_level cb acc style kind lc = Some (f, acc') ->
  exists b fc acc1 acc2 extra is_ mode,
    let h := used_height (cb_block_size cb) style in
    let sc := start_collapses kind b in let ec := end_collapses kind b h in
    f = FBox b (fc_fragments fc ++ extra) /\ bf_style b = style /\ (get style position_ <> Relative -> extra = []) /\
    lc (mkCB is_ h mode) acc1 sc = Some (fc, acc2) /\
    (exists offset, relative_offset style (get style top_) (get style bottom_) offset /\ content_top b == pb_start b + offset) /\
    cm_start (bf_margins b) = joined_start sc b (fc_margins fc) /\
    cm_end (bf_margins b) = (if ec then adjoin (cm_new (block_end (bf_margin b))) (children_end sc (fc_margins fc))
                             else cm_new (block_end (bf_margin b))) /\
    collapsed_through (bf_margins b) = (sc && ec && collapsed_through (fc_margins fc))%bool /\
    content_height b = auto_is h (if ec then fc_block_size fc else fc_block_size fc + solve (children_end sc (fc_margins fc))).
Proof.
  intros cb acc style kind lc f acc' H. unfold layout_in_flow_non_replaced_block_level in H.
  set (cbis := cb_inline_size cb) in H.
  set (pad := lp_sides_relative_to (style_padding style) cbis) in H.
  set (bor := lp_sides_relative_to (style_border_width style) cbis) in H.
  set (mar := sides_auto_is _ 0) in H.
  set (is_ := auto_is _ _) in H.
  change (match v_block (box_size style) with LpaLength l => Length l
          | LpaPercentage p => loa_map (fun cbbs => cbbs * p) (cb_block_size cb) | LpaAuto => Auto end)
    with (match get style height with LpaLength l => Length l
          | LpaPercentage p => loa_map (fun cbbs => cbbs * p) (cb_block_size cb) | LpaAuto => Auto end) in H.
  assert (Eh : match get style height with LpaLength l => Length l
          | LpaPercentage p => loa_map (fun cbbs => cbbs * p) (cb_block_size cb) | LpaAuto => Auto end
          = used_height (cb_block_size cb) style).
  { unfold used_height. destruct (get style height); [reflexivity|destruct (cb_block_size cb); reflexivity|reflexivity]. }
  rewrite Eh in H. set (h := used_height (cb_block_size cb) style) in *.
  cbn [cb_mode] in H. destruct (wmode_eqb _ _) in H; [|discriminate H].
  change (block_start (sadd pad bor)) with (block_start pad + block_start bor) in H.
  change (block_end (sadd pad bor)) with (block_end pad + block_end bor) in H.
  set (sc := is_same kind && Qeq_bool (block_start pad + block_start bor) 0) in H.
  set (ec := is_same kind && Qeq_bool (block_end pad + block_end bor) 0 && _) in H.
  set (rel := relative_adjustement style is_ h) in H.
  assert (Hrel : relative_offset style (get style top_) (get style bottom_) (v_block rel)).
  { unfold rel, relative_adjustement, relative_offset. destruct (get style position_); try reflexivity.
    cbn [is_relatively_positioned v_block].
    change (block_start (map_inline_and_block_axes (fun v => lpa_relative_to v is_) (fun u => lpa_relative_to u (auto_is h 0)) (box_offsets style)))
      with (lpa_relative_to (get style top_) (auto_is h 0)).
    change (block_end (map_inline_and_block_axes (fun v => lpa_relative_to v is_) (fun u => lpa_relative_to u (auto_is h 0)) (box_offsets style)))
      with (lpa_relative_to (get style bottom_) (auto_is h 0)).
    destruct (get style top_), (get style bottom_); cbn [lpa_relative_to adjust]; try exact I; reflexivity. }
  set (relative := is_relatively_positioned (get style position_)) in H.
  destruct (lc _ _ sc) as [[fc acc2]|] eqn:El; [|discriminate H].
  set (m := fc_margins fc) in H.
  assert (E : (if sc then
        if collapsed_through m
        then (adjoin (adjoin (cm_start (cbm_from_margin mar)) (cm_start m)) (cm_end m),
              mkCBM (collapsed_through m) (cm_start m) cm_zero)
        else (adjoin (cm_start (cbm_from_margin mar)) (cm_start m), m)
      else (cm_start (cbm_from_margin mar), m)) =
      ((if sc then
    if collapsed_through m then adjoin (adjoin (cm_new (block_start mar)) (cm_start m)) (cm_end m)
    else adjoin (cm_new (block_start mar)) (cm_start m)
  else cm_new (block_start mar)), mkCBM (collapsed_through m) (cm_start m) (children_end sc m))).
  { unfold children_end. destruct sc; cbn [andb]; [|destruct m; reflexivity].
    destruct (collapsed_through m) eqn:Et; [reflexivity|]. f_equal. rewrite <- Et. destruct m; reflexivity. }
  rewrite E in H. cbn [cm_end collapsed_through cbm_from_margin] in H. clear E.
  set (ms := if sc then _ else _) in H.
  assert (E : (if ec then (adjoin (cm_new (block_end mar)) (children_end sc m), fc_block_size fc)
      else (cm_new (block_end mar), fc_block_size fc + solve (children_end sc m))) =
      (if ec then adjoin (cm_new (block_end mar)) (children_end sc m) else cm_new (block_end mar),
       if ec then fc_block_size fc else fc_block_size fc + solve (children_end sc m))) by (destruct ec; reflexivity).
  rewrite E in H. clear E.
  set (hh := auto_is h _) in H.
  assert (Hx : exists extra, (get style position_ <> Relative -> extra = []) /\ f = FBox (mkBoxFragment style
      (mkRect (mkVec (inline_start (sadd pad bor) + v_inline rel + inline_start mar)
                     (block_start pad + block_start bor + v_block rel)) (mkVec is_ hh)) pad bor mar
      (mkCBM (sc && ec && collapsed_through m) ms
        (if ec then adjoin (cm_new (block_end mar)) (children_end sc m) else cm_new (block_end mar))))
      (fc_fragments fc ++ extra)).
  { unfold relative, is_relatively_positioned in H. destruct (get style position_) eqn:Er;
      try (injection H as <- _; exists []; split; [intros _; reflexivity|]; rewrite app_nil_r; reflexivity).
    - destruct (in_positioned_containing_block _ _ _ _ _ _) as [ch|] eqn:Ec; [|discriminate H]. injection H as <- _.
      unfold in_positioned_containing_block in Ec. destruct acc2 as [|a acc2].
      + injection Ec as <-. exists []. rewrite app_nil_r. split; reflexivity.
      + destruct (map_option _ _); [|discriminate Ec]. injection Ec as <-. eexists. split; [intros F; contradiction F; reflexivity|reflexivity]. }
  destruct Hx as (extra & Hextra & ->). clear H.
  eexists. exists fc. eexists. eexists. exists extra. eexists. eexists. cbv zeta.
  split; [reflexivity|]. split; [reflexivity|]. split; [exact Hextra|]. split; [exact El|]. split.
  { exists (v_block rel). split; [exact Hrel|reflexivity]. }
  split; [reflexivity|]. split; [reflexivity|]. split; reflexivity.
Qed.

Lemma rep_cons : forall m l c, rep l c -> rep (m :: l) (adjoin (cm_new m) c).
Proof. intros m l c H. exact (rep_adjoin [m] l _ _ (rep_new m) H). Qed.
Lemma rep_snoc : forall m l c, rep l c -> rep (l ++ [m]) (adjoin (cm_new m) c).
Proof. intros m l c H. apply rep_comm. exact (rep_cons m l c H). Qed.
Lemma rep_more_nil : forall l a b, rep l a -> rep [] b -> rep l (adjoin a b).
Proof. intros l a b Ha Hb. rewrite <- (app_nil_r l). apply rep_adjoin; assumption. Qed.
Lemma distance_whole : forall run l, is_run run -> hoists run l = false ->
  distance run l == distance run (strip l) + collapse (trailing l).
Proof.
  intros run l Hr Hh. pose proof (distance_end run l [] (hoists_false run l Hr Hh)) as D.
  cbn [map] in D. rewrite !app_nil_r in D. exact D.
Qed.

Lemma Qb_same : forall style c, Qc c -> Qb (SameFormattingContextBlock style c).
Proof.
  intros style c Hc o cb rank acc fl f acc' H. rewrite bll_same in H.
  destruct (in_flow_inv _ _ _ _ _ _ _ H) as (b & fc & acc1 & acc2 & extra & is_ & mode & Ef & Es & Ex0 & El & Ho & Ems & Eme & Et & Eh).
  cbv zeta in *. clear H. subst f. pose proof (Hc _ _ _ _ _ _ _ _ El) as K.
  unfold start_collapses, end_collapses in *. cbn [is_same andb] in *.
  destruct K as (inner & C & I1 & I2 & I3). cbn [cb_block_size] in C.
  split.
  { cbn [unplaced]. rewrite Es. exact Ho. }
  assert (Hrun : (if Qeq_bool (pb_start b) 0 then None else Some []) = run_of (pb_start b)) by reflexivity.
  rewrite Hrun in *. set (run := run_of (pb_start b)) in *.
  assert (Hir : is_run run) by (unfold run, run_of; destruct (Qeq_bool (pb_start b) 0); [left|right]; reflexivity).
  assert (Hms : rep (block_start (bf_margin b) :: if Qeq_bool (pb_start b) 0 then leading inner else []) (cm_start (bf_margins b))).
  { rewrite Ems. unfold joined_start. destruct (Qeq_bool (pb_start b) 0) eqn:B1; [|apply rep_new].
    assert (Er : run = None) by (unfold run, run_of; rewrite B1; reflexivity).
    pose proof (rep_cons (block_start (bf_margin b)) _ _ (I2 Er)) as R. rewrite I1.
    destruct (hoists run inner); [|exact R]. apply rep_more_nil; [exact R|apply I3]. }
  assert (Hml : if hoists run inner then children_end (Qeq_bool (pb_start b) 0) (fc_margins fc) = cm_zero
                else children_end (Qeq_bool (pb_start b) 0) (fc_margins fc) = cm_end (fc_margins fc)).
  { unfold children_end. rewrite I1. destruct (hoists run inner) eqn:Eho.
    - destruct (Qeq_bool (pb_start b) 0) eqn:B1; [reflexivity|]. unfold run, run_of in Eho. rewrite B1 in Eho. discriminate Eho.
    - rewrite Bool.andb_false_r. reflexivity. }
  exists (block_start (bf_margin b) :: if Qeq_bool (pb_start b) 0 then leading inner else []).
  set (items := match used_height (cb_block_size cb) style with
       | Auto =>
           Margin (block_start (bf_margin b)) :: solid (pb_start b) ++ inner ++ solid (pb_end b) ++
           [Margin (block_end (bf_margin b))]
       | Length _ =>
           Margin (block_start (bf_margin b)) ::
           (if Qeq_bool (pb_start b) 0 then map Margin (leading inner) else []) ++
           [Height (pb_start b + content_height b + pb_end b); Margin (block_end (bf_margin b))]
       end).
  exists items.
  assert (Hauto : used_height (cb_block_size cb) style = Auto ->
     content_height b == distance run (if Qeq_bool (pb_end b) 0 then strip inner else inner)).
  { intros Eu. rewrite Eh, Eu. cbn [auto_is]. rewrite Bool.andb_true_r.
    destruct (Qeq_bool (pb_end b) 0); destruct (hoists run inner) eqn:Eho.
    - destruct run; [discriminate Eho|]. cbn [hoists] in Eho. destruct (strip inner); [|discriminate Eho].
      cbn [distance]. apply I3.
    - apply I3.
    - rewrite Hml. destruct I3 as [_ I3]. rewrite I3. destruct run; [discriminate Eho|]. cbn [hoists] in Eho.
      destruct (strip inner) eqn:Est; [|discriminate Eho]. destruct (no_heights inner Est) as [En _]. rewrite En, distance_margins_none.
      unfold solve, cm_zero; cbn [max_positive min_negative]. lra.
    - rewrite Hml. destruct I3 as [I3 I4]. rewrite (rep_solve _ _ I3), I4, (distance_whole run inner Hir Eho). reflexivity. }
  split.
  - apply (ok_same (cb_block_size cb) style c b (fc_fragments fc) extra inner Es Ex0); [exact C| |exact Hauto].
    intros x Ex. rewrite Eh, Ex. reflexivity.
  - cbn [fragment_summary]. unfold items. destruct (used_height (cb_block_size cb) style) as [x|] eqn:Eu.
    + rewrite Bool.andb_false_r in *.
      pose proof (fixed_summary b (block_start (bf_margin b)) (block_end (bf_margin b)) (if Qeq_bool (pb_start b) 0 then leading inner else []) Hms) as F.
      rewrite Eme, Et in F. specialize (F (rep_new _)).
      replace (if Qeq_bool (pb_start b) 0 then map Margin (leading inner) else [])
        with (map Margin (if Qeq_bool (pb_start b) 0 then leading inner else [])) by (destruct (Qeq_bool (pb_start b) 0); reflexivity).
      apply F. rewrite Bool.andb_false_r. reflexivity.
    + rewrite Bool.andb_true_r in *. apply same_auto_summary; [reflexivity|exact Hms| | |exact (Hauto eq_refl)].
      * fold run. rewrite Eme. destruct (Qeq_bool (pb_end b) 0); [|apply rep_new]. destruct (hoists run inner) eqn:Eho; rewrite Hml.
        -- apply rep_snoc with (l := []). apply rep_nil.
        -- apply rep_snoc. apply I3.
      * fold run. rewrite Et, I1. destruct (Qeq_bool (pb_start b) 0) eqn:B1; [reflexivity|].
        unfold run, run_of. rewrite B1. cbn [hoists]. rewrite !Bool.andb_false_r. reflexivity.
Qed.

Lemma Qb_independent : forall style c, Qf c -> Qb (Independent style c).
Proof.
  intros style [c fl0] Hc o cb rank acc fl f acc' H. rewrite bll_independent in H.
  destruct (in_flow_inv _ _ _ _ _ _ _ H) as (b & fc & acc1 & acc2 & extra & is_ & mode & Ef & Es & Ex0 & El & Ho & Ems & Eme & Et & Eh).
  cbv zeta in *. clear H. subst f. pose proof (Hc _ _ _ _ _ _ El) as K. cbn [cb_block_size] in K.
  unfold start_collapses, end_collapses in *. cbn [is_same andb] in *.
  destruct K as (inner & C & I1 & I2 & I3).
  unfold joined_start, children_end in *. cbn [andb] in *.
  split.
  { cbn [unplaced]. rewrite Es. exact Ho. }
  exists [block_start (bf_margin b)].
  exists [Margin (block_start (bf_margin b)); Height (pb_start b + content_height b + pb_end b); Margin (block_end (bf_margin b))].
  split.
  - apply (ok_independent (cb_block_size cb) style c fl0 b (fc_fragments fc) extra inner Es Ex0); [exact C| |].
    + intros x Ex. rewrite Eh, Ex. reflexivity.
    + intros Eu. rewrite Eh, Eu, I2. cbn [auto_is]. rewrite I3. unfold solve, cm_zero; cbn [max_positive min_negative]. lra.
  - cbn [fragment_summary]. apply (fixed_summary b (block_start (bf_margin b)) (block_end (bf_margin b)) []).
    + rewrite Ems. apply rep_new.
    + rewrite Eme. apply rep_new.
    + exact Et.
Qed.

Theorem all_laid_out : (forall c, Qc c) /\ (forall b, Qb b) /\ (forall c, Qf c) /\ (forall b, Qi b).
Proof.
  apply boxes_ind.
  - apply Qc_blocks.
  - apply Qc_inlines.
  - apply Qb_same.
  - intros s c _ o cb rank acc fl f acc' H. injection H as <- _. split; [reflexivity|].
    exists [], []. split; [apply ok_abspos|]. split; [reflexivity|split; reflexivity].
  - intros s c _ o cb rank acc fl f acc' H. injection H as <- _. split; [reflexivity|].
    exists [], []. split; [apply ok_float|]. split; [reflexivity|split; reflexivity].
  - apply Qb_independent.
  - apply Qf_bfc.
  - apply Qi_inline.
  - intros s t o cb rank st acc st' acc' Hl H.
    change (match text_run_layout glyph_id glyph_width cb s t st with Some s => Some (s, acc) | None => None end = Some (st', acc')) in H.
    destruct (text_run_layout glyph_id glyph_width cb s t st) as [s1|] eqn:E; [|discriminate H]. injection H as <- _.
    unfold text_run_layout in E. eapply text_run_lines_ok; [exact Hl|exact E].
  - intros s c _ o cb rank st acc st' acc' Hl H. cbn in H. destruct (initial_corner s st); [|discriminate H]. injection H as <- _. exact Hl.
  - intros s c _ o cb rank st acc st' acc' Hl H. injection H as <- _. exact Hl.
Qed.
End Font.
