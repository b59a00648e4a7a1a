(** Proofs about names, values, shorthands and declaration blocks. *)
From Coq Require Import QArith.
From Verif Require Import Base Dom DomSpec DomProofs DomTreeProofs DomWalkProofs StyleValues StyleProperties StyleCascade StyleSpec StyleProofs.
Local Open Scope nat_scope.

(** ** Names *)
Lemma lookup_in : forall A (table : list (bytes * A)) i v, lookup_keyword table i = Some v -> In (i, v) table.
Proof.
  induction table as [|[k w] table IH]; intros i v H; cbn [lookup_keyword] in H; [discriminate H|].
  destruct (bytes_eqb i k) eqn:E; [|right; auto]. apply bytes_eqb_eq in E. left. congruence.
Qed.
Lemma names_known : forall p, p <> border_right_color -> lookup_keyword property_names (css_name p) = Some (Longhand p).
Proof. intros p H. destruct p; try congruence; vm_compute; reflexivity. Qed.
Lemma shorthands_known : forall s, lookup_keyword property_names (css_shorthand_name s) = Some (Shorthand s).
Proof. intros []; vm_compute; reflexivity. Qed.
Lemma names_only : forall i x, In (i, x) property_names ->
  i = css_property_name x \/ x = Longhand border_right_color /\ i = bs "border-color-right".
Proof.
  intros i x H. unfold property_names in H.
  repeat (destruct H as [H|H]; [injection H as <- <-; first [left; reflexivity|right; split; reflexivity]|]). destruct H.
Qed.
Lemma by_name : forall name x, property_data_by_name name = Some x ->
  map lower name = css_property_name x \/ x = Longhand border_right_color /\ map lower name = bs "border-color-right".
Proof. intros name x H. apply names_only, lookup_in, H. Qed.

(** ** Keywords *)
Lemma keyword_one : forall A (table : list (bytes * A)) ts v r, parse_keyword table ts = Some (v, r) <->
  exists i, ts = TIdent i :: r /\ lookup_keyword table i = Some v.
Proof.
  intros A table ts v r. unfold parse_keyword. split.
  - destruct ts as [|[] ts]; try discriminate. destruct (lookup_keyword table name) eqn:E; [|discriminate].
    intro H. injection H as -> ->. eauto.
  - intros (i & -> & ->). reflexivity.
Qed.
Lemma lookup_cons : forall A k (w : A) table i v, lookup_keyword ((k, w) :: table) i = Some v <->
  i = k /\ v = w \/ i <> k /\ lookup_keyword table i = Some v.
Proof.
  intros. cbn [lookup_keyword]. destruct (bytes_eqb i k) eqn:E.
  - apply bytes_eqb_eq in E. split; [intro H; injection H as ->; auto|]. intros [[_ ->]|[N _]]; [auto|congruence].
  - assert (N : i <> k) by (intro H; apply bytes_eqb_eq in H; congruence).
    split; [auto|]. intros [[? _]|[_ ?]]; [congruence|auto].
Qed.
Lemma lookup_nil : forall A i (v : A), lookup_keyword [] i = Some v <-> False.
Proof. intros. cbn. split; [discriminate|intros []]. Qed.

Lemma length_one : forall ts l r, parse_specified_length ts = Some (l, r) <-> exists t, ts = t :: r /\ length_token t l.
Proof.
  intros ts l r. split.
  - destruct ts as [|[] ts]; cbn [parse_specified_length]; try discriminate.
    + unfold same_ascii, eq_ignore_ascii_case. destruct (bytes_eqb (map lower unit) (map lower (bs "px"))) eqn:E1.
      * intro H. injection H as <- <-. eexists. split; [reflexivity|]. constructor. apply bytes_eqb_eq in E1. exact E1.
      * destruct (bytes_eqb (map lower unit) (map lower (bs "em"))) eqn:E2; [|discriminate].
        intro H. injection H as <- <-. eexists. split; [reflexivity|]. constructor. apply bytes_eqb_eq in E2. exact E2.
    + destruct (Qeq_bool value 0) eqn:E; [|discriminate]. intro H. injection H as <- <-. eexists. split; [reflexivity|].
      constructor. apply Qeq_bool_iff, E.
  - intros (t & -> & H). destruct H as [v u H|v u H|v H]; cbn [parse_specified_length]; unfold same_ascii, eq_ignore_ascii_case.
    + rewrite H. reflexivity.
    + rewrite H. reflexivity.
    + apply Qeq_bool_iff in H. rewrite H. reflexivity.
Qed.
Lemma percentage_one : forall ts q r, parse_percentage ts = Some (q, r) <-> ts = TPercentage q :: r.
Proof.
  intros ts q r. split; [|intros ->; reflexivity]. destruct ts as [|[] ts]; try discriminate. cbn. intro H. injection H as -> ->. reflexivity.
Qed.
Lemma option_cases : forall A (o : option A), (exists x, o = Some x) \/ o = None.
Proof. intros A [x|]; [left; eauto|auto]. Qed.

Lemma lp_one : forall ts v r, parse_specified_lp ts = Some (v, r) <-> exists t, ts = t :: r /\
  ((exists l, length_token t l /\ v = SLength l) \/ (exists q, t = TPercentage q /\ v = SPercentage q)).
Proof.
  intros ts v r. unfold parse_specified_lp. destruct (parse_specified_length ts) as [[l r']|] eqn:E.
  - pose proof E as E'. apply length_one in E as (t & -> & L). split.
    + intro H. injection H as <- ->. exists t. eauto.
    + intros (t' & H & [(l' & L' & ->)|(q & -> & ->)]).
      * injection H as -> ->. assert (P : parse_specified_length (t' :: r) = Some (l', r)) by (apply length_one; eauto).
        rewrite P in E'. injection E' as ->. reflexivity.
      * injection H as -> ->. inversion L.
  - split.
    + destruct (parse_percentage ts) as [[q r']|] eqn:P; [|discriminate]. apply percentage_one in P. subst ts.
      intro H. injection H as <- ->. eexists. split; [reflexivity|]. right. eauto.
    + intros (t & -> & [(l' & L' & ->)|(q & -> & ->)]); [|reflexivity].
      assert (P : parse_specified_length (t :: r) = Some (l', r)) by (apply length_one; eauto). congruence.
Qed.
Lemma lpa_one : forall ts v r, parse_specified_lpa ts = Some (v, r) <-> exists t, ts = t :: r /\
  ((exists l, length_token t l /\ v = SALength l) \/ (exists q, t = TPercentage q /\ v = SAPercentage q) \/
   t = TIdent (bs "auto") /\ v = SAAuto).
Proof.
  intros ts v r. unfold parse_specified_lpa. destruct (parse_specified_length ts) as [[l r']|] eqn:E.
  - pose proof E as E'. apply length_one in E as (t & -> & L). split.
    + intro H. injection H as <- ->. exists t. eauto.
    + intros (t' & H & [(l' & L' & ->)|[(q & -> & ->)|[-> ->]]]).
      * injection H as -> ->. assert (P : parse_specified_length (t' :: r) = Some (l', r)) by (apply length_one; eauto).
        rewrite P in E'. injection E' as ->. reflexivity.
      * injection H as -> ->. inversion L.
      * injection H as -> ->. inversion L.
  - destruct (parse_percentage ts) as [[q r']|] eqn:P.
    + apply percentage_one in P. subst ts. split.
      * intro H. injection H as <- ->. eexists. split; [reflexivity|]. right. left. eauto.
      * intros (t & H & [(l' & L' & ->)|[(q' & -> & ->)|[-> ->]]]); injection H as; subst; try congruence; inversion L'.
    + rewrite keyword_one. split.
      * intros (i & -> & H). apply lookup_cons in H as [[-> ->]|[_ H]]; [|discriminate H]. eexists. split; [reflexivity|]. auto.
      * intros (t & -> & [(l' & L' & ->)|[(q' & -> & ->)|[-> ->]]]).
        -- assert (P' : parse_specified_length (t :: r) = Some (l', r)) by (apply length_one; eauto). congruence.
        -- discriminate P.
        -- eexists. split; [reflexivity|]. reflexivity.
Qed.
Lemma width_one : forall ts v r, parse_line_width ts = Some (v, r) <-> exists t, ts = t :: r /\
  ((exists l, length_token t l /\ v = SLength l) \/ (exists q, t = TPercentage q /\ v = SPercentage q) \/
   t = TIdent (bs "thin") /\ v = SLength (SAbsolute 1) \/ t = TIdent (bs "medium") /\ v = SLength (SAbsolute 3) \/
   t = TIdent (bs "thick") /\ v = SLength (SAbsolute 5)).
Proof.
  intros ts v r. unfold parse_line_width. destruct (parse_specified_lp ts) as [[w r']|] eqn:E.
  - split.
    + intro H. injection H as -> ->. apply lp_one in E as (t & -> & [H|H]); exists t; split; auto.
    + intros (t & -> & H). assert (K : forall i, t <> TIdent i).
      { intros i Ei. subst t. apply lp_one in E as (t' & H' & [(l & L & _)|(q & L & _)]); injection H' as <- _; [inversion L|discriminate L]. }
      destruct H as [H|[H|[[-> _]|[[-> _]|[-> _]]]]]; try (exfalso; eapply K; reflexivity);
        rewrite (proj2 (lp_one (t :: r) v r)) in E by eauto; congruence.
  - destruct (parse_keyword _ ts) as [[px r']|] eqn:P.
    + apply keyword_one in P as (i & -> & P). rewrite !lookup_cons, lookup_nil in P. split.
      * intro H. injection H as <- ->. exists (TIdent i). split; [auto|].
        destruct P as [[-> ->]|[_ [[-> ->]|[_ [[-> ->]|[_ []]]]]]]; auto 6.
      * intros (t & H & [(l & L & ->)|[(q & -> & ->)|H']]); [injection H as <- ->; inversion L|discriminate H|].
        injection H as <- ->. destruct H' as [[Hi ->]|[[Hi ->]|[Hi ->]]]; injection Hi as ->;
          destruct P as [[Hk ->]|[_ [[Hk ->]|[_ [[Hk ->]|[_ []]]]]]]; try discriminate Hk; reflexivity.
    + split; [discriminate|]. intros (t & -> & H). destruct H as [H|[H|[[-> _]|[[-> _]|[-> _]]]]];
        try (vm_compute in P; discriminate P); rewrite (proj2 (lp_one (t :: r) v r)) in E by eauto; discriminate E.
Qed.

(** Every value but a colour is one token. *)
Lemma one_token : forall pc p ts v r, not_a_color p -> parse_kind pc (kind_of p) ts = Some (v, r) -> exists t, ts = t :: r.
Proof.
  intros pc p ts v r [N1 N2]. unfold specified in v. revert N1 N2 v. destruct (kind_of p); intros N1 N2 v H; try congruence; cbn [parse_kind] in H.
  - apply length_one in H as (t & -> & _). eauto.
  - apply keyword_one in H as (i & -> & _). eauto.
  - apply keyword_one in H as (i & -> & _). eauto.
  - apply keyword_one in H as (i & -> & _). eauto.
  - apply lpa_one in H as (t & -> & _). eauto.
  - apply lp_one in H as (t & -> & _). eauto.
  - apply keyword_one in H as (i & -> & _). eauto.
  - apply width_one in H as (t & -> & _). eauto.
Qed.

Lemma ident_lower : forall i k, map lower i = i -> (ident_is (TIdent i) k <-> i = bs k).
Proof.
  intros i k L. unfold ident_is. split.
  - intros (j & E & H). injection E as ->. congruence.
  - intros ->. eauto.
Qed.
Lemma not_ident : forall t k, (forall i, t <> TIdent i) -> ~ ident_is t k.
Proof. intros t k H (i & -> & _). eapply H; reflexivity. Qed.

Ltac keyword_case := match goal with
  | |- parse_keyword ?table (?t :: ?r) = Some (?v, ?r) <-> _ =>
      rewrite keyword_one; destruct t as [i|i j|i|i|i|i];
      [ rewrite !ident_lower by assumption; split;
        [ intros (j & Hj & H); injection Hj as <-; rewrite ?lookup_cons, lookup_nil in H; intuition
        | intros H; exists i; split; [reflexivity|];
          rewrite ?lookup_cons, lookup_nil; intuition (subst; try discriminate; auto) ] | .. ];
      (split; [intros (j' & Hj & _); discriminate Hj|]);
      intros H; exfalso; repeat (match type of H with _ \/ _ => destruct H as [H|H] end);
      destruct H as [(? & H & _) _]; discriminate H
  end.

Lemma value_iff : forall pc p t r v, not_a_color p -> lower_case t -> in_range p t ->
  (border_width_side p -> forall q, t <> TPercentage q) ->
  (parse_kind pc (kind_of p) (t :: r) = Some (v, r) <-> css_value p t v).
Proof.
  intros pc p t r v [N1 N2] L R B. unfold css_value. unfold border_width_side in B. unfold specified in v.
  revert N1 N2 v B. destruct (kind_of p); intros N1 N2 v B; try congruence; cbn [parse_kind].
  - rewrite length_one. split; [intros (t' & E & H); injection E as <-; auto|]. intros [H _]. eauto.
  - unfold parse_position. keyword_case.
  - unfold parse_float. keyword_case.
  - unfold parse_display. keyword_case.
  - rewrite lpa_one. split.
    + intros (t' & E & [(l & H & ->)|[(q & -> & ->)|[-> ->]]]); injection E as ->; [left|right; left|right; right]; eauto.
      split; [|reflexivity]. exists (bs "auto"). auto.
    + intros [(l & H & _ & ->)|[(q & -> & _ & ->)|[(i & -> & H) ->]]]; eexists; (split; [reflexivity|]); eauto.
      right. right. cbn in L. split; congruence.
  - rewrite lp_one. split.
    + intros (t' & E & [(l & H & ->)|(q & -> & ->)]); injection E as ->; [left|right]; eauto.
    + intros [(l & H & _ & ->)|(q & -> & _ & ->)]; eexists; (split; [reflexivity|]); eauto.
  - unfold parse_line_style. keyword_case.
  - rewrite width_one. split.
    + intros (t' & E & H). injection E as <-. destruct H as [(l & H & ->)|[(q & -> & ->)|H]]; [left; eauto|exfalso; eapply B; eauto|].
      right. unfold ident_is. destruct H as [[-> ->]|[[-> ->]|[-> ->]]]; [left|right; left|right; right]; (split; [|reflexivity]); eexists; (split; [reflexivity|]); reflexivity.
    + intros [(l & H & _ & ->)|H]; eexists; (split; [reflexivity|]); [left; eauto|]. right. right.
      destruct H as [[(i & -> & H) ->]|[[(i & -> & H) ->]|[(i & -> & H) ->]]]; cbn in L; rewrite L in H; subst i; auto.
Qed.

(** ** Four sides *)
Lemma sides_three : forall T (parse : parser T) ts vs rest, reads parse ts vs rest -> 1 <= List.length vs <= 3 ->
  exists s, parse_four_sides parse ts = Some (s, rest) /\ css_sides vs s.
Proof.
  intros T parse ts vs rest R L. unfold parse_four_sides.
  inversion R as [|? a ts1 ? ? E1 R1]; subst; [cbn in L; lia|]. rewrite E1.
  inversion R1 as [? E2|? b ts2 ? ? E2 R2]; subst; rewrite E2; [eexists; split; [reflexivity|constructor]|].
  inversion R2 as [? E3|? c ts3 ? ? E3 R3]; subst; rewrite E3; [eexists; split; [reflexivity|constructor]|].
  inversion R3 as [? E4|? d ts4 ? ? E4 R4]; subst; [rewrite E4; eexists; split; [reflexivity|constructor]|]. cbn in L. lia.
Qed.
Lemma sides_none : forall T (parse : parser T) ts rest, reads parse ts [] rest -> parse_four_sides parse ts = None.
Proof. intros T parse ts rest R. inversion R as [? E|]. unfold parse_four_sides. rewrite E. reflexivity. Qed.
Lemma sides_four : forall T (parse : parser T) ts a b c d vs rest, reads parse ts (a :: b :: c :: d :: vs) rest ->
  exists ts', parse_four_sides parse ts = Some (mkSides a b c d, ts') /\ reads parse ts' vs rest.
Proof.
  intros T parse ts a b c d vs rest R. unfold parse_four_sides.
  inversion R as [|? ? ? ? ? E1 R1]; subst. inversion R1 as [|? ? ? ? ? E2 R2]; subst. inversion R2 as [|? ? ? ? ? E3 R3]; subst.
  inversion R3 as [|? ? ? ? ? E4 R4]; subst. rewrite E1, E2, E3, E4. eauto.
Qed.

(** ** Blocks *)
Lemma suffix_iff : forall r imp, important_suffix r imp <->
  r = [] /\ imp = false \/ parse_important r = Some [] /\ imp = true.
Proof.
  intros r imp. split.
  - intros [|i H]; [auto|]. right. split; [|reflexivity]. cbn [parse_important N.eqb Pos.eqb andb].
    unfold same_ascii, eq_ignore_ascii_case. rewrite H. reflexivity.
  - intros [[-> ->]|[H ->]]; [constructor|]. unfold parse_important in H. destruct r as [|[] [|[] r]]; try discriminate H.
    destruct (N.eqb_spec c 33) as [->|]; [|discriminate H]. cbn [andb] in H.
    destruct (same_ascii name (bs "important")) eqn:E; [|discriminate H]. injection H as ->. constructor.
    apply bytes_eqb_eq in E. exact E.
Qed.
Lemma css_wide_iff : forall ts k r, parse_css_wide ts = Some (k, r) <->
  ts = TIdent (match k with Inherit => bs "inherit" | Initial => bs "initial" | Unset => bs "unset" end) :: r.
Proof.
  intros ts k r. unfold parse_css_wide. rewrite keyword_one. split.
  - intros (i & -> & H). rewrite !lookup_cons, lookup_nil in H. destruct H as [[-> ->]|[_ [[-> ->]|[_ [[-> ->]|[_ []]]]]]]; reflexivity.
  - intros ->. eexists. split; [reflexivity|]. destruct k; reflexivity.
Qed.
Lemma starts_iff : forall pc x ts ds r, starts_value pc x ts ds r <->
  match parse_css_wide ts with
  | Some (k, r) => Some (map (fun p => CssWide p k) (longhands x), r)
  | None => match property_parse pc x ts with Some (ds, _, r) => Some (ds, r) | None => None end
  end = Some (ds, r).
Proof.
  intros pc x ts ds r. split.
  - intros [r'|r'|r'|ts' ds' ph r' N P]; try reflexivity. rewrite P. destruct (parse_css_wide ts') as [[k r0]|] eqn:E; [|reflexivity].
    apply css_wide_iff in E. exfalso. destruct k; (eapply N; [|exact E]); cbn; auto.
  - destruct (parse_css_wide ts) as [[k r0]|] eqn:E.
    + apply css_wide_iff in E. intro H. assert (r0 = r) as -> by congruence. assert (ds = map (fun p => CssWide p k) (longhands x)) as -> by congruence. subst ts.
      destruct k; constructor.
    + destruct (property_parse pc x ts) as [[[ds' ph] r0]|] eqn:P; [|discriminate].
      intro H. injection H as -> ->. eapply starts_own; [|exact P]. intros k i I ->.
      assert (Q : exists w, parse_css_wide (TIdent (bs k) :: i) = Some (w, i)).
      { destruct I as [<-|[<-|[<-|[]]]]; eexists; reflexivity. }
      destruct Q as [w Q]. rewrite Q in E. discriminate E.
Qed.
Lemma starts_effect : forall pc name ts x, property_data_by_name name = Some x ->
  added pc name ts = match match parse_css_wide ts with
            | Some (k, r) => Some (map (fun p => CssWide p k) (longhands x), r)
            | None => match property_parse pc x ts with Some (ds, _, r) => Some (ds, r) | None => None end
            end with
      | None => None
      | Some (ds, r) => match parse_important r with Some r' => Some (ds, true, r') | None => Some (ds, false, r) end
      end.
Proof. intros pc name ts x E. unfold added. rewrite E. reflexivity. Qed.
Lemma declared_effect : forall pc i ds imp, declared pc i ds imp <-> item_effect pc i = Some (ds, imp, []).
Proof.
  intros pc i ds imp. split.
  - intros [name ts x ds' r imp' N V I]. cbn [item_effect]. rewrite (starts_effect _ _ _ _ N). apply starts_iff in V. rewrite V.
    apply suffix_iff in I as [[-> ->]|[-> ->]]; reflexivity.
  - destruct i as [name ts|]; [|discriminate]. cbn [item_effect]. intro H.
    destruct (property_data_by_name name) as [x|] eqn:N; [|unfold added in H; rewrite N in H; discriminate H].
    rewrite (starts_effect _ _ _ _ N) in H. match type of H with match ?m with _ => _ end = _ => destruct m as [[ds' r]|] eqn:V end; [|discriminate H].
    apply starts_iff in V. destruct (parse_important r) as [r'|] eqn:I; injection H as -> <- ->; econstructor; eauto; apply suffix_iff; auto.
Qed.
Lemma ignored_effect : forall pc i, ignored pc i <-> item_effect pc i = None.
Proof.
  intros pc i. split.
  - intros [|name ts N|name ts x N V]; [reflexivity| |]; cbn [item_effect].
    + unfold added. rewrite N. reflexivity.
    + rewrite (starts_effect _ _ _ _ N). match goal with |- match ?m with _ => _ end = _ => destruct m as [[ds' r]|] eqn:E end; [|reflexivity].
      apply starts_iff in E. exfalso. eapply V; eauto.
  - destruct i as [name ts|]; [|constructor]. cbn [item_effect]. intro H.
    destruct (property_data_by_name name) as [x|] eqn:N; [|constructor; exact N]. eapply ignored_value; [exact N|].
    intros ds r V. apply starts_iff in V. rewrite (starts_effect _ _ _ _ N), V in H. destruct (parse_important r); discriminate H.
Qed.
Lemma trailing_effect : forall pc i, trailing pc i <-> exists ds imp t r, item_effect pc i = Some (ds, imp, t :: r).
Proof.
  intros pc i. split.
  - intros [name ts x ds r N V I]. cbn [item_effect]. rewrite (starts_effect _ _ _ _ N). apply starts_iff in V. rewrite V.
    destruct (parse_important r) as [[|t r']|] eqn:P.
    + exfalso. apply (I true), suffix_iff. auto.
    + eauto.
    + destruct r as [|t r]; [exfalso; apply (I false); constructor|eauto 6].
  - intros (ds & imp & t & r & H). destruct i as [name ts|]; [|discriminate]. cbn [item_effect] in H.
    destruct (property_data_by_name name) as [x|] eqn:N; [|unfold added in H; rewrite N in H; discriminate H].
    rewrite (starts_effect _ _ _ _ N) in H. match type of H with match ?m with _ => _ end = _ => destruct m as [[ds' r0]|] eqn:V end; [|discriminate H].
    apply starts_iff in V. econstructor; [exact N|exact V|]. intros imp' I. apply suffix_iff in I.
    destruct I as [[-> ->]|[P ->]]; [cbn in H; discriminate H|]. rewrite P in H. discriminate H.
Qed.
Lemma item_cases : forall pc i, (exists ds imp, declared pc i ds imp) \/ ignored pc i \/ trailing pc i.
Proof.
  intros pc i. destruct (item_effect pc i) as [[[ds imp] [|t r]]|] eqn:E.
  - left. exists ds, imp. apply declared_effect, E.
  - right. right. apply trailing_effect. eauto.
  - right. left. apply ignored_effect, E.
Qed.
Lemma means_effects : forall pc l out, block_means pc l out -> out = effects pc l /\ forall i, In i l -> ~ trailing pc i.
Proof.
  induction 1 as [|i l ds imp out D B [IH1 IH2]|i l out I B [IH1 IH2]]; [split; [reflexivity|intros i []]| |].
  - apply declared_effect in D. cbn [effects]. rewrite D, <- IH1. split; [reflexivity|].
    intros j [<-|Hj]; auto. intro T. apply trailing_effect in T as (? & ? & ? & ? & T). congruence.
  - apply ignored_effect in I. cbn [effects]. rewrite I. split; [exact IH1|].
    intros j [<-|Hj]; auto. intro T. apply trailing_effect in T as (? & ? & ? & ? & T). congruence.
Qed.
Lemma means_exists : forall pc l, (forall i, In i l -> ~ trailing pc i) -> exists out, block_means pc l out.
Proof.
  induction l as [|i l IH]; intro H; [eexists; constructor|]. destruct IH as [out B]; [intros; apply H; right; auto|].
  destruct (item_cases pc i) as [(ds & imp & D)|[I|T]].
  - eexists. eapply bm_declared; eauto.
  - eexists. eapply bm_ignored; eauto.
  - exfalso. apply (H i); [left; auto|exact T].
Qed.
Lemma block_means_ok : forall pc l out, block_means pc l out ->
  exists b, parse_block pc l = Ok b /\ summary_complete b /\ combine (declarations b) (important b) = out.
Proof.
  intros pc l out B. apply means_effects in B as [-> T]. rewrite parse_block_items.
  destruct (parse_items_total pc l block_default default_block_ok) as [b E].
  { intros i ds imp t r I Ei. apply (T i I). apply trailing_effect. eauto. }
  exists b. split; [exact E|]. apply parse_items_effects in E as [[S' _] E]; [|apply default_block_ok]. auto.
Qed.
Lemma block_trailing : forall pc l i, In i l -> trailing pc i -> parse_block pc l = Panic.
Proof.
  intros pc l i I T. rewrite parse_block_items. apply trailing_effect in T as (ds & imp & t & r & T).
  eapply parse_items_panics; eauto. apply default_block_ok.
Qed.
