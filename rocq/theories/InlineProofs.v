(** Lines of text and inline boxes: proofs *)
From Coq Require Import QArith Qminmax Lqa.
From Verif Require Import Base Dom StyleValues StyleProperties PdfConvert Geom Text LayoutTree Layout InlineSpec.
Local Open Scope Q_scope.

Section Font.
Variable glyph_id : N -> res font_error N.
Variable glyph_width : N -> res font_error Q.
Notation shapes := (shapes glyph_id glyph_width).
Notation fits := (fits glyph_id glyph_width).
Notation too_wide := (too_wide glyph_id glyph_width).
Notation first_line := (first_line glyph_id glyph_width).
Notation text_lines := (text_lines glyph_id glyph_width).

(** ** Shaping *)
Lemma shapes_fun : forall t gs w, shapes t gs w -> forall gs' w', shapes t gs' w' -> gs = gs' /\ w = w'.
Proof.
  induction 1 as [|ch t g gs w width H1 H2 H IH]; intros gs' w' H'; inversion H' as [|? ? g' gs0 w0 width0 H1' H2' H0]; subst; [split; reflexivity|].
  destruct (IH _ _ H0) as [-> ->]. rewrite H1 in H1'. injection H1' as <-. rewrite H2 in H2'. injection H2' as <-. split; reflexivity.
Qed.
Lemma shapes_app : forall a gs w, shapes a gs w -> forall b gs' w', shapes b gs' w' -> exists w'', shapes (a ++ b) (gs ++ gs') w'' /\ w'' == w + w'.
Proof.
  induction 1 as [|ch t g gs w width H1 H2 H IH]; intros b gs' w' H'.
  - exists w'. split; [exact H'|]. lra.
  - destruct (IH _ _ _ H') as (w'' & I1 & I2). exists (w + w''). split; [econstructor; eassumption|]. lra.
Qed.
Lemma shapes_length : forall t gs w, shapes t gs w -> length gs = length t.
Proof. induction 1; cbn [length]; [reflexivity|]. f_equal. assumption. Qed.
Lemma shapes_split : forall a b gs w, shapes (a ++ b) gs w -> exists gs1 w1 gs2 w2, shapes a gs1 w1 /\ shapes b gs2 w2 /\ gs = gs1 ++ gs2 /\ w == w1 + w2.
Proof.
  induction a as [|ch a IH]; intros b gs w H.
  - exists [], 0, gs, w. split; [constructor|]. split; [exact H|]. split; [reflexivity|]. lra.
  - cbn [app] in H. inversion H as [|? ? g gs0 w0 width H1 H2 H3]; subst. destruct (IH _ _ _ H3) as (gs1 & w1 & gs2 & w2 & I1 & I2 & -> & I4).
    exists (g :: gs1), (w0 + w1), gs2, w2. split; [econstructor; eassumption|]. split; [exact I2|]. split; [reflexivity|]. lra.
Qed.
(** What a segment holds *)
Definition holds (t : list N) (s : shaped) : Prop := exists w, shapes t (glyphs s) w /\ advance_width s == w.
Lemma holds_append : forall t s ch s', holds t s -> append_char glyph_id glyph_width s ch = Ok s' -> holds (t ++ [ch]) s'.
Proof.
  intros t s ch s' (w & H1 & H2) H. unfold append_char in H. destruct (glyph_id ch) as [g| |] eqn:E1; try discriminate H. cbn [bind] in H.
  destruct (glyph_width g) as [w'| |] eqn:E2; try discriminate H. cbn [bind] in H. injection H as <-.
  destruct (shapes_app _ _ _ H1 [ch] [g] (w' + 0)) as (w'' & I1 & I2); [econstructor; [exact E1|exact E2|constructor]|].
  exists w''. split; [exact I1|]. cbn [advance_width]. lra.
Qed.
Lemma holds_fits : forall t s fs av, holds t s -> Qle_bool (fs * advance_width s) av = true -> fits av fs t.
Proof. intros t s fs av (w & H1 & H2) H. exists (glyphs s), w. split; [exact H1|]. apply Qle_bool_iff in H. rewrite H2 in H. exact H. Qed.
Lemma holds_too_wide : forall t s fs av, holds t s -> Qle_bool (fs * advance_width s) av = false -> too_wide av fs t.
Proof.
  intros t s fs av (w & H1 & H2) H. exists (glyphs s), w. split; [exact H1|]. apply Qnot_le_lt. intros L. rewrite <- H2 in L. apply Qle_bool_iff in L. congruence.
Qed.

(** ** One line *)
(** [p] ends at a space inside [l] only if it fits. *)
Definition prefixes_fit (av fs : Q) (t : list N) : Prop := forall l r, t = l ++ space :: r -> fits av fs l.
Definition opportunity (av fs : Q) (t : list N) (chars : list N) (s : shaped) (o : option (shaped_state * list N)) : Prop :=
  match o with
  | None => unbreakable t
  | Some (st, iter) =>
      exists line word, t = line ++ space :: word /\ unbreakable word /\ iter = word ++ chars /\
        st_glyphs st = length line /\ (exists gs w, shapes line gs w /\ st_advance_width st == w) /\
        fits av fs line /\ prefixes_fit av fs line
  end.
Lemma split_in_two : forall (a b l r : list N) c, a ++ c :: b = l ++ c :: r ->
  (exists m, a = l ++ c :: m) \/ (l = a /\ r = b) \/ (exists m, b = m ++ c :: r /\ l = a ++ c :: m).
Proof.
  induction a as [|x a IH]; intros b l r c H.
  - destruct l as [|y l]; cbn [app] in H.
    + injection H as ->. right. left. split; reflexivity.
    + injection H as -> ->. right. right. exists l. split; reflexivity.
  - destruct l as [|y l]; cbn [app] in H.
    + injection H as -> <-. left. exists a. reflexivity.
    + injection H as -> H. destruct (IH _ _ _ _ H) as [(m & ->)|[[-> ->]|(m & -> & ->)]].
      * left. exists m. reflexivity.
      * right. left. split; reflexivity.
      * right. right. exists m. split; reflexivity.
Qed.
Lemma opportunity_prefixes : forall av fs t chars s o, opportunity av fs t chars s o -> prefixes_fit av fs t.
Proof.
  intros av fs t chars s [[st iter]|] H l r E.
  - destruct H as (line & word & -> & Hw & _ & _ & _ & Hf & Hp). destruct (split_in_two _ _ _ _ _ E) as [(m & ->)|[[-> ->]|(m & -> & ->)]].
    + exact (Hp _ _ eq_refl).
    + exact Hf.
    + exfalso. apply Hw. apply in_or_app. right. left. reflexivity.
  - exfalso. apply H. rewrite E. apply in_or_app. right. left. reflexivity.
Qed.
Lemma holds_restore : forall av fs t chars s st iter, holds t s -> opportunity av fs t chars s (Some (st, iter)) ->
  exists line word, t = line ++ space :: word /\ unbreakable word /\ iter = word ++ chars /\ holds line (restore s st) /\
    fits av fs line /\ prefixes_fit av fs line.
Proof.
  intros av fs t chars s st iter (w & H1 & H2) (line & word & -> & Hw & -> & Hg & (gs & wl & Hl & Hwl) & Hf & Hp).
  exists line, word. split; [reflexivity|]. split; [exact Hw|]. split; [reflexivity|]. split; [|split; assumption].
  destruct (shapes_split _ _ _ _ H1) as (gs1 & w1 & gs2 & w2 & I1 & I2 & E & _). destruct (shapes_fun _ _ _ I1 _ _ Hl) as [-> ->].
  exists wl. unfold restore. cbn [glyphs advance_width]. split; [|exact Hwl]. rewrite E, Hg, <- (shapes_length _ _ _ I1), firstn_app, Nat.sub_diag, firstn_all, app_nil_r. exact I1.
Qed.
Lemma fill_line_ok : forall av fs chars t s o s' rest, holds t s -> opportunity av fs t chars s o ->
  fill_line glyph_id glyph_width av fs chars s o = Some (s', rest) ->
  exists line, first_line av fs (t ++ chars) line rest /\ holds line s'.
Proof.
  intros av fs. induction chars as [|ch chars IH]; intros t s o s' rest Hs Ho H; cbn [fill_line] in H.
  - rewrite app_nil_r. pose proof (opportunity_prefixes _ _ _ _ _ _ Ho) as Hp. destruct (Qle_bool (fs * advance_width s) av) eqn:F; cbn [negb] in H.
    + injection H as <- <-. exists t. split; [|exact Hs]. apply line_of_all; [exact Hp|]. left. exact (holds_fits _ _ _ _ Hs F).
    + pose proof (holds_too_wide _ _ _ _ Hs F) as W. destruct o as [[st iter]|].
      * injection H as <- <-. destruct (holds_restore _ _ _ _ _ _ _ Hs Ho) as (line & word & -> & Hw & -> & Hl & Hf & Hp').
        exists line. split; [|exact Hl]. replace (line ++ space :: word) with (line ++ space :: word ++ []) by (rewrite app_nil_r; reflexivity).
        apply line_of_words; try assumption. left. reflexivity.
      * injection H as <- <-. exists t. split; [|exact Hs]. apply line_of_all; [exact Hp|]. right. split; [exact Ho|exact W].
  - destruct (ch =? 32)%N eqn:E; cbn [andb] in H.
    + apply N.eqb_eq in E. subst ch. destruct (Qle_bool (fs * advance_width s) av) eqn:F; cbn [negb] in H.
      * destruct (append_char glyph_id glyph_width s 32) as [s1| |] eqn:A; try discriminate H.
        specialize (IH (t ++ [32%N]) s1 (Some (save s, chars)) s' rest). rewrite <- app_assoc in IH. apply IH; [exact (holds_append _ _ _ _ Hs A)| |exact H].
        exists t, []. split; [reflexivity|]. split; [intros []|]. split; [reflexivity|]. destruct Hs as (w & H1 & H2).
        split; [exact (shapes_length _ _ _ H1)|]. split; [exists (glyphs s), w; split; assumption|]. split; [apply (holds_fits t s); [exists w; split; assumption|exact F]|].
        exact (opportunity_prefixes _ _ _ _ _ _ Ho).
      * pose proof (holds_too_wide _ _ _ _ Hs F) as W. destruct o as [[st iter]|].
        -- injection H as <- <-. destruct (holds_restore _ _ _ _ _ _ _ Hs Ho) as (line & word & -> & Hw & -> & Hl & Hf & Hp').
           exists line. split; [|exact Hl]. rewrite <- app_assoc. apply line_of_words; try assumption. right. exists chars. reflexivity.
        -- injection H as <- <-. exists t. split; [|exact Hs]. apply line_of_one_word; assumption.
    + destruct (append_char glyph_id glyph_width s ch) as [s1| |] eqn:A; try discriminate H.
      specialize (IH (t ++ [ch]) s1 o s' rest). rewrite <- app_assoc in IH. apply IH; [exact (holds_append _ _ _ _ Hs A)| |exact H].
      assert (N : ch <> space) by (apply N.eqb_neq; exact E). destruct o as [[st iter]|].
      * destruct Ho as (line & word & -> & Hw & -> & Hr). exists line, (word ++ [ch]). split; [rewrite <- app_assoc; reflexivity|].
        split; [intros I; apply in_app_or in I as [I|[I|[]]]; [exact (Hw I)|exact (N I)]|]. split; [rewrite <- app_assoc; reflexivity|]. exact Hr.
      * intros I. apply in_app_or in I as [I|[I|[]]]; [exact (Ho I)|exact (N I)].
Qed.
Lemma fill_line_starts : forall av fs chars s' rest,
  fill_line glyph_id glyph_width av fs chars new_with_naive_shaping None = Some (s', rest) ->
  exists line, first_line av fs chars line rest /\ holds line s'.
Proof.
  intros av fs chars s' rest H. apply (fill_line_ok av fs chars [] new_with_naive_shaping None); [|intros []|exact H].
  exists 0. split; [constructor|reflexivity].
Qed.
End Font.
