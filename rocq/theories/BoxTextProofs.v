(** The text of text runs: decoding and white space. *)
From Verif Require Import Base FontCmap StyleProperties LayoutTree BoxTree BoxTreeSpec.
Local Open Scope nat_scope.

Lemma nth_app_last : forall {A} (l : list A) x, last_opt (l ++ [x]) = Some x.
Proof.
  intros A l x. induction l as [|y r IH]; [reflexivity|]. cbn [app last_opt]. destruct (r ++ [x]) eqn:E; [|exact IH].
  destruct r; discriminate E.
Qed.
Lemma last_opt_rev : forall {A} (l : list A), last_opt l = hd_error (rev l).
Proof.
  intros A l. destruct (rev l) as [|x r] eqn:E.
  - apply (f_equal (@rev A)) in E. rewrite rev_involutive in E. subst. reflexivity.
  - apply (f_equal (@rev A)) in E. rewrite rev_involutive in E. subst. cbn [rev]. rewrite nth_app_last. reflexivity.
Qed.

(** ** UTF-8 *)
Lemma euclid : forall c k, (k <> 0)%N -> exists q r, (c / k = q /\ c mod k = r /\ c = k * q + r /\ r < k)%N.
Proof. intros c k Hk. exists (c / k)%N, (c mod k)%N. repeat split; [apply N.div_mod'|apply N.mod_lt, Hk]. Qed.
Lemma chars_app : forall c r, is_char c = true -> chars (utf8 c ++ r) = c :: chars r.
Proof.
  intros c r Hc. unfold is_char in Hc. apply Bool.orb_true_iff in Hc. rewrite Bool.andb_true_iff, !N.ltb_lt, N.leb_le in Hc.
  assert (Hb : (c < 1114112)%N) by lia. clear Hc. unfold utf8.
  replace (c / 4096)%N with (c / 64 / 64)%N by (rewrite N.div_div by lia; reflexivity).
  replace (c / 262144)%N with (c / 64 / 64 / 64)%N by (rewrite !N.div_div by lia; reflexivity).
  destruct (euclid c 64 ltac:(lia)) as (q1 & r1 & -> & -> & E1 & L1).
  destruct (euclid q1 64 ltac:(lia)) as (q2 & r2 & -> & -> & E2 & L2).
  destruct (euclid q2 64 ltac:(lia)) as (q3 & r3 & -> & -> & E3 & L3).
  destruct (N.ltb_spec c 128) as [H1|H1].
  { cbn [app chars]. rewrite (proj2 (N.ltb_lt _ _) H1). reflexivity. }
  destruct (N.ltb_spec c 2048) as [H2|H2].
  { cbn [app chars]. rewrite (proj2 (N.ltb_ge (192 + q1) 128)) by lia. rewrite (proj2 (N.ltb_lt (192 + q1) 224)) by lia.
    f_equal. lia. }
  destruct (N.ltb_spec c 65536) as [H3|H3].
  { cbn [app chars].
    rewrite (proj2 (N.ltb_ge (224 + q2) 128)) by lia. rewrite (proj2 (N.ltb_ge (224 + q2) 224)) by lia.
    rewrite (proj2 (N.ltb_lt (224 + q2) 240)) by lia. f_equal. lia. }
  cbn [app chars].
  rewrite (proj2 (N.ltb_ge (240 + q3) 128)) by lia. rewrite (proj2 (N.ltb_ge (240 + q3) 224)) by lia.
  rewrite (proj2 (N.ltb_ge (240 + q3) 240)) by lia. f_equal. lia.
Qed.
Lemma chars_encodes : forall t cs, encodes t cs -> chars t = cs.
Proof.
  intros t cs [Hc <-]. induction Hc as [|c r Hc Hr IH]; [reflexivity|]. cbn [flat_map]. rewrite chars_app by exact Hc.
  rewrite IH. reflexivity.
Qed.

(** ** White space *)
Lemma ws_is_space : forall c, is_ascii_whitespace c = is_space c.
Proof.
  intros c. unfold is_ascii_whitespace, is_space. cbn [existsb]. rewrite !Bool.orb_assoc, Bool.orb_false_r. reflexivity.
Qed.
Lemma position_none : forall f l, position f l = None -> forall c, In c l -> f c = false.
Proof.
  intros f l. induction l as [|x r IH]; intros H c [].
  - subst. cbn [position] in H. destruct (f c); [discriminate H|reflexivity].
  - cbn [position] in H. destruct (f x); [discriminate H|]. destruct (position f r); [discriminate H|]. auto.
Qed.
Lemma position_some : forall f l i, position f l = Some i ->
  exists p x r, l = p ++ x :: r /\ length p = i /\ f x = true /\ forall c, In c p -> f c = false.
Proof.
  intros f l. induction l as [|x r IH]; intros i H; [discriminate H|]. cbn [position] in H. destruct (f x) eqn:E.
  - injection H as <-. exists [], x, r. repeat split; auto. intros c [].
  - destruct (position f r) as [j|]; [|discriminate H]. injection H as <-. destruct (IH j eq_refl) as (p & y & q & -> & <- & E2 & E3).
    exists (x :: p), y, q. repeat split; auto. intros c [<-|I]; auto.
Qed.
Lemma skipn_all_app : forall {A} (p r : list A), skipn (length p) (p ++ r) = r.
Proof. intros A p r. rewrite skipn_app, skipn_all, Nat.sub_diag. reflexivity. Qed.
Lemma firstn_all_app : forall {A} (p r : list A), firstn (length p) (p ++ r) = p.
Proof. intros A p r. rewrite firstn_app, firstn_all, Nat.sub_diag. cbn [firstn]. apply app_nil_r. Qed.
Lemma collapse_nonspace : forall p r b, (forall c, In c p -> is_space c = false) -> p <> [] ->
  collapse b (p ++ r) = p ++ collapse false r.
Proof.
  induction p as [|c p IH]; intros r b H Hp; [congruence|]. cbn [app collapse]. rewrite (H c (or_introl eq_refl)). f_equal.
  destruct p as [|c' p']; [reflexivity|]. apply IH; [|discriminate]. intros x I. apply H. right. exact I.
Qed.
Lemma collapse_spaces : forall p r, (forall c, In c p -> is_space c = true) -> collapse true (p ++ r) = collapse true r.
Proof.
  induction p as [|c p IH]; intros r H; [reflexivity|]. cbn [app collapse]. rewrite (H c (or_introl eq_refl)). apply IH.
  intros x I. apply H. right. exact I.
Qed.
Lemma collapse_any : forall b c r, is_space c = false -> collapse b (c :: r) = collapse false (c :: r).
Proof. intros b c r H. cbn [collapse]. rewrite H. reflexivity. Qed.
Lemma push_collapsed_ok : forall n l, length l <= n -> push_collapsed n l = collapse false l.
Proof.
  induction n as [|n IH]; intros l L.
  { destruct l; [reflexivity|cbn in L; lia]. }
  cbn [push_collapsed]. destruct (position is_ascii_whitespace l) as [i|] eqn:E.
  - apply position_some in E. destruct E as (p & x & r & -> & <- & Ex & Ep). rewrite skipn_all_app, firstn_all_app.
    rewrite ws_is_space in Ex.
    assert (Hc : collapse false (p ++ x :: r) = p ++ 32%N :: collapse true r).
    { assert (G : collapse false (x :: r) = 32%N :: collapse true r) by (cbn [collapse]; rewrite Ex; reflexivity).
      destruct p as [|c p]; [exact G|]. rewrite collapse_nonspace; [rewrite G; reflexivity| |discriminate].
      intros y I. rewrite <- ws_is_space. auto. }
    rewrite Hc. f_equal. cbn [app]. f_equal.
    destruct (position (fun c => negb (is_ascii_whitespace c)) (x :: r)) as [j|] eqn:E2.
    + apply position_some in E2. destruct E2 as (q & y & r2 & E2 & <- & Ey & Eq). apply Bool.negb_true_iff in Ey. rewrite ws_is_space in Ey.
      destruct q as [|z q].
      { cbn [app] in E2. injection E2 as <- _. congruence. }
      cbn [app] in E2. injection E2 as <- ->. cbn [length skipn]. rewrite skipn_all_app. rewrite IH.
      * rewrite collapse_spaces, (collapse_any true y r2) by
          (try exact Ey; intros c I; specialize (Eq c (or_intror I)); apply Bool.negb_false_iff in Eq; rewrite <- ws_is_space; exact Eq).
        reflexivity.
      * rewrite app_length in L. cbn [length] in L. rewrite app_length in L. cbn [length] in L. cbn [length]. lia.
    + rewrite <- (app_nil_r r). rewrite collapse_spaces; [reflexivity|]. intros c I.
      pose proof (position_none _ _ E2 c (or_intror I)) as G. apply Bool.negb_false_iff in G. rewrite <- ws_is_space. exact G.
  - destruct l as [|c l]; [reflexivity|]. rewrite <- (app_nil_r (c :: l)) at 2.
    rewrite collapse_nonspace; [symmetry; apply app_nil_r| |discriminate].
    intros y I. rewrite <- ws_is_space. exact (position_none _ _ E y I).
Qed.
Lemma trim_start_ok : forall l, collapse true l = collapse false (trim_start l).
Proof.
  induction l as [|c r IH]; [reflexivity|]. cbn [trim_start]. rewrite ws_is_space. destruct (is_space c) eqn:E.
  - cbn [collapse]. rewrite E. exact IH.
  - apply collapse_any. exact E.
Qed.
Lemma collapse_nil : forall l, collapse true l = [] <-> forall c, In c l -> is_space c = true.
Proof.
  induction l as [|c r IH]; [split; [intros _ x []|reflexivity]|]. cbn [collapse]. destruct (is_space c) eqn:E.
  - rewrite IH. split; [intros H x [<-|I]; auto|intros H x I; apply H; right; exact I].
  - split; [discriminate|]. intros H. rewrite (H c (or_introl eq_refl)) in E. discriminate E.
Qed.
Lemma collapse_false_nil : forall l, collapse false l = [] <-> l = [].
Proof.
  intros [|c r]; [split; reflexivity|]. cbn [collapse]. destruct (is_space c); split; discriminate.
Qed.

(** ** Looking back *)
Fixpoint full_runs (x : inline_level_box) : Prop :=
  match x with
  | TextRun _ t => t <> []
  | InlineBox _ _ _ children => (fix all (l : list inline_level_box) : Prop := match l with [] => True | x :: r => full_runs x /\ all r end) children
  | _ => True
  end.
Definition all_full : list inline_level_box -> Prop :=
  fix all (l : list inline_level_box) : Prop := match l with [] => True | x :: r => full_runs x /\ all r end.
Lemma full_inline : forall s f l c, full_runs (InlineBox s f l c) = all_full c. Proof. reflexivity. Qed.
Lemma look_inline : forall s f l c, look_back (InlineBox s f l c) = look_back_list c. Proof. reflexivity. Qed.
Lemma text_inline : forall s f l c, run_text (InlineBox s f l c) = text_so_far c. Proof. reflexivity. Qed.
Lemma all_full_app : forall a b, all_full (a ++ b) <-> all_full a /\ all_full b.
Proof.
  induction a as [|x r IH]; intros b; cbn [app all_full]; [tauto|]. fold all_full. rewrite IH. tauto.
Qed.
(** Induction on inline-level boxes; out-of-flow boxes are leaves. *)
Section Induct.
Variable P : inline_level_box -> Prop.
Hypothesis Htext : forall s t, P (TextRun s t).
Hypothesis Habs : forall s c, P (InlineAbsolutelyPositionedBox s c).
Hypothesis Hfloat : forall s c, P (InlineFloatBox s c).
Hypothesis Hinline : forall s f l c, Forall P c -> P (InlineBox s f l c).
Fixpoint inline_induct (x : inline_level_box) : P x :=
  match x with
  | TextRun s t => Htext s t
  | InlineAbsolutelyPositionedBox s c => Habs s c
  | InlineFloatBox s c => Hfloat s c
  | InlineBox s f l c => Hinline s f l c ((fix go c : Forall P c :=
      match c with [] => Forall_nil P | x :: r => Forall_cons x (inline_induct x) (go r) end) c)
  end.
End Induct.
Definition look_text (t : list N) : option bool :=
  match rev t with [] => None | c :: _ => Some (negb (c =? 32)%N) end.
Lemma look_text_app : forall a b, look_text (a ++ b) = match look_text b with Some p => Some p | None => look_text a end.
Proof. intros a b. unfold look_text. rewrite rev_app_distr. destruct (rev b); reflexivity. Qed.
Lemma look_list_ok : forall l, Forall (fun x => full_runs x -> look_back x = look_text (run_text x)) l -> all_full l ->
  look_back_list l = look_text (text_so_far l).
Proof.
  intros l H. induction H as [|x r Hx Hr IH]; intros F; [reflexivity|]. destruct F as [F1 F2].
  unfold text_so_far. cbn [flat_map look_back_list]. fold look_back_list. rewrite look_text_app. rewrite (IH F2), (Hx F1). reflexivity.
Qed.
Lemma look_back_ok : forall x, full_runs x -> look_back x = look_text (run_text x).
Proof.
  apply (inline_induct (fun x => full_runs x -> look_back x = look_text (run_text x))); try reflexivity.
  - intros s t F. cbn [look_back run_text full_runs] in *. unfold ends_with_space, look_text. rewrite last_opt_rev.
    destruct (rev t) as [|c r] eqn:E; [|reflexivity]. apply (f_equal (@rev N)) in E. rewrite rev_involutive in E. cbn [rev] in E. congruence.
  - intros s f l c H F. rewrite full_inline in F. rewrite look_inline, text_inline. apply look_list_ok; assumption.
Qed.
Lemma look_back_list_ok : forall l, all_full l -> look_back_list l = look_text (text_so_far l).
Proof. intros l F. apply look_list_ok; [|exact F]. apply Forall_forall. intros x _. apply look_back_ok. Qed.

(** ** [handle_text] *)
Lemma append_text_added : forall l s new, new <> [] -> text_added s l new (append_text l s new).
Proof.
  intros l s new Hn. destruct (rev l) as [|x k] eqn:E; apply (f_equal (@rev _)) in E; rewrite rev_involutive in E; subst.
  { apply (ta_new s [] new Hn). intros [|] ? ? H; discriminate H. }
  cbn [rev]. set (k' := rev k). clearbody k'. clear k.
  destruct x as [a f b c|s0 t0|a c|a c].
  1, 3, 4: match goal with |- text_added _ (_ ++ [?x]) _ _ =>
    replace (append_text (k' ++ [x]) s new) with ((k' ++ [x]) ++ [TextRun s new]) by
      (induction k' as [|y k' IH]; [reflexivity|]; cbn [app append_text]; rewrite <- IH; destruct y; try reflexivity; destruct k'; reflexivity) end;
    apply ta_new; [exact Hn|]; intros k s0 t0 H; apply app_inj_tail in H as [_ H]; discriminate H.
  replace (append_text (k' ++ [TextRun s0 t0]) s new) with (k' ++ [TextRun s0 (t0 ++ new)]).
  - apply ta_more. exact Hn.
  - induction k' as [|y k' IH]; [reflexivity|]. cbn [app append_text]. rewrite <- IH. destruct y; try reflexivity. destruct k'; reflexivity.
Qed.
Lemma handle_text_ok : forall b t s, all_full (current_inline_level_boxes b) ->
  let new := collapse (after_space (text_so_far (current_inline_level_boxes b))) t in
  handle_text b t s = match new with [] => b | _ => set_current (append_text (current_inline_level_boxes b) s new) b end.
Proof.
  intros b t s F new. unfold handle_text, handle_leading_whitespace. destruct t as [|c r]; [reflexivity|].
  rewrite ws_is_space. destruct (is_space c) eqn:E.
  - rewrite look_back_list_ok by exact F. unfold look_text.
    assert (Hn : new = (if after_space (text_so_far (current_inline_level_boxes b)) then [] else [32%N]) ++ collapse false (trim_start (c :: r))).
    { unfold new. rewrite <- trim_start_ok. destruct (after_space _); cbn [collapse]; rewrite E; reflexivity. }
    clearbody new. unfold after_space in Hn. rewrite (push_collapsed_ok _ _ (le_n _)).
    destruct (rev (text_so_far (current_inline_level_boxes b))) as [|x y].
    + cbn [orb app]. cbn [app] in Hn. rewrite <- Hn. destruct (trim_start (c :: r)) as [|c' r'] eqn:Et.
      * rewrite Hn. cbn [collapse is_empty negb]. reflexivity.
      * cbn [is_empty negb]. destruct new eqn:En; [|reflexivity]. symmetry in Hn. apply (proj1 (collapse_false_nil _)) in Hn. discriminate Hn.
    + destruct (x =? 32)%N; cbn [negb orb app] in *.
      * rewrite <- Hn. destruct (trim_start (c :: r)) as [|c' r'] eqn:Et.
        -- rewrite Hn. cbn [collapse is_empty negb]. reflexivity.
        -- cbn [is_empty negb]. destruct new eqn:En; [|reflexivity]. symmetry in Hn. apply (proj1 (collapse_false_nil _)) in Hn. discriminate Hn.
      * rewrite Hn. reflexivity.
  - cbn [orb is_empty negb app]. rewrite (push_collapsed_ok _ _ (le_n _)).
    assert (Hn : new = collapse false (c :: r)) by (unfold new; apply collapse_any; exact E). clearbody new. rewrite <- Hn.
    destruct new eqn:En; [|reflexivity]. symmetry in Hn. apply (proj1 (collapse_false_nil _)) in Hn. discriminate Hn.
Qed.
