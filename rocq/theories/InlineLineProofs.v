(** Consequences of the specification of lines *)
From Coq Require Import QArith Qminmax Lqa Lia.
From Verif Require Import Base Dom StyleValues StyleProperties PdfConvert Geom Text LayoutTree Layout InlineSpec InlineProofs.
Local Open Scope Q_scope.

Section Font.
Variable glyph_id : N -> res font_error N.
Variable glyph_width : N -> res font_error Q.
Notation shapes := (shapes glyph_id glyph_width).
Notation fits := (fits glyph_id glyph_width).
Notation too_wide := (too_wide glyph_id glyph_width).
Notation first_line := (first_line glyph_id glyph_width).
Notation text_lines := (text_lines glyph_id glyph_width).
Notation text_line := (text_line glyph_id glyph_width).
Notation inline_ok := (inline_ok glyph_id glyph_width).
Notation inlines_ok := (inlines_ok glyph_id glyph_width).

(** ** The lines are determined *)
Lemma fits_not_too_wide : forall av fs t, fits av fs t -> too_wide av fs t -> False.
Proof. intros av fs t (gs & w & H1 & H2) (gs' & w' & H1' & H2'). destruct (shapes_fun _ _ _ _ _ H1 _ _ H1') as [_ <-]. lra. Qed.
(** [l] ends where [text] can be broken, or does. *)
Definition breaks (text l : list N) : Prop := text = l \/ exists r, text = l ++ space :: r.
(** The first such place where it is too wide *)
Definition stops (av fs : Q) (text stop : list N) : Prop :=
  breaks text stop /\ too_wide av fs stop /\ forall l r, stop = l ++ space :: r -> fits av fs l.
Lemma breaks_order : forall text a b, breaks text a -> breaks text b -> a = b \/ (exists r, a = b ++ space :: r) \/ (exists r, b = a ++ space :: r).
Proof.
  intros text a b [-> | (r & ->)] [E|(r' & E)].
  - left. exact E.
  - right. left. exists r'. exact E.
  - right. right. exists r. symmetry. exact E.
  - apply app_eq_app in E as (l & [[-> E]|[-> E]]).
    + destruct l as [|c l]; [left; apply app_nil_r|]. right. left. exists l. cbn [app] in E. injection E as <- _. reflexivity.
    + destruct l as [|c l]; [left; symmetry; apply app_nil_r|]. right. right. exists l. cbn [app] in E. injection E as <- _. reflexivity.
Qed.
Lemma stops_unique : forall av fs text a b, stops av fs text a -> stops av fs text b -> a = b.
Proof.
  intros av fs text a b (A1 & A2 & A3) (B1 & B2 & B3). destruct (breaks_order text a b A1 B1) as [E|[(r & E)|(r & E)]]; [exact E| |].
  - exfalso. exact (fits_not_too_wide _ _ _ (A3 _ _ E) B2).
  - exfalso. exact (fits_not_too_wide _ _ _ (B3 _ _ E) A2).
Qed.
Lemma last_space : forall a b a' b', unbreakable b -> unbreakable b' -> a ++ space :: b = a' ++ space :: b' -> a = a' /\ b = b'.
Proof.
  intros a b a' b' Hb Hb' E. apply app_eq_app in E as (l & [[-> E]|[-> E]]).
  - destruct l as [|c l]; [rewrite app_nil_r; cbn [app] in E; injection E as ->; split; reflexivity|].
    exfalso. cbn [app] in E. injection E as _ ->. apply Hb'. apply in_or_app. right. left. reflexivity.
  - destruct l as [|c l]; [rewrite app_nil_r; cbn [app] in E; injection E as ->; split; reflexivity|].
    exfalso. cbn [app] in E. injection E as _ ->. apply Hb. apply in_or_app. right. left. reflexivity.
Qed.
Lemma words_prefix : forall line word l r, unbreakable word -> line ++ space :: word = l ++ space :: r -> l = line \/ exists r', line = l ++ space :: r'.
Proof.
  intros line0 word l r Hw E. apply app_eq_app in E as (m & [[-> E]|[-> E]]).
  - destruct m as [|c m]; [left; symmetry; apply app_nil_r|]. right. cbn [app] in E. injection E as <- _. exists m. reflexivity.
  - destruct m as [|c m]; [left; apply app_nil_r|]. exfalso. cbn [app] in E. injection E as _ ->. apply Hw. apply in_or_app. right. left. reflexivity.
Qed.
(** The cases of [first_line] by where it stops *)
Inductive by_stop (av fs : Q) (text line rest : list N) : Prop :=
| bs_words : forall word after_, stops av fs text (line ++ space :: word) -> unbreakable word -> text = line ++ space :: word ++ after_ -> rest = word ++ after_ ->
    by_stop av fs text line rest
| bs_one : stops av fs text line -> unbreakable line -> (text = line /\ rest = [] \/ text = line ++ space :: rest) -> by_stop av fs text line rest
| bs_all : (forall l, breaks text l -> fits av fs l) -> line = text -> rest = [] -> by_stop av fs text line rest.
Lemma first_line_by_stop : forall av fs text line rest, first_line av fs text line rest -> by_stop av fs text line rest.
Proof.
  intros av fs text line0 rest0 H. destruct H as [line word rest Hp Hf Hw Hr Ht|word rest Hw Ht|line Hp H].
  - apply (bs_words _ _ _ _ _ word rest); [|exact Hw|reflexivity|reflexivity]. split; [|split; [exact Ht|]].
    + destruct Hr as [-> |(r & ->)]; [left; rewrite app_nil_r; reflexivity|]. right. exists r. rewrite <- app_assoc. reflexivity.
    + intros l r E. destruct (words_prefix _ _ _ _ Hw E) as [-> |(r' & E')]; [exact Hf|exact (Hp _ _ E')].
  - apply bs_one; [|exact Hw|right; reflexivity]. split; [right; exists rest; reflexivity|]. split; [exact Ht|].
    intros l r ->. exfalso. apply Hw. apply in_or_app. right. left. reflexivity.
  - destruct H as [Hf|[Hu Ht]].
    + apply bs_all; [|reflexivity|reflexivity]. intros l [<-|(r & E)]; [exact Hf|exact (Hp _ _ E)].
    + apply bs_one; [|exact Hu|left; split; reflexivity]. split; [left; reflexivity|]. split; [exact Ht|exact Hp].
Qed.
Lemma first_line_fun : forall av fs text line rest line' rest', first_line av fs text line rest -> first_line av fs text line' rest' ->
  line = line' /\ rest = rest'.
Proof.
  intros av fs text l1 r1 l2 r2 H1 H2. apply first_line_by_stop in H1, H2.
  assert (K : forall a b, stops av fs text (a ++ space :: b) -> forall l, stops av fs text l -> unbreakable l -> False).
  { intros a b S1 l S2 U. rewrite (stops_unique _ _ _ _ _ S2 S1) in U. apply U. apply in_or_app. right. left. reflexivity. }
  assert (K2 : forall st, stops av fs text st -> (forall l, breaks text l -> fits av fs l) -> False).
  { intros st (B & T & _) F. exact (fits_not_too_wide _ _ _ (F _ B) T). }
  destruct H1 as [w1 a1 S1 U1 T1 R1|S1 U1 T1|F1 E1 R1], H2 as [w2 a2 S2 U2 T2 R2|S2 U2 T2|F2 E2 R2]; try (exfalso; eauto; fail).
  - destruct (last_space _ _ _ _ U1 U2 (stops_unique _ _ _ _ _ S1 S2)) as [-> ->]. split; [reflexivity|]. subst. apply app_inv_head in T2. injection T2 as E. exact E.
  - pose proof (stops_unique _ _ _ _ _ S1 S2) as ->. split; [reflexivity|]. destruct T1 as [[E1 ->]|E1], T2 as [[E2 ->]|E2]; [reflexivity| | |].
    + exfalso. rewrite E1 in E2. apply (f_equal (@length N)) in E2. rewrite app_length in E2. cbn [length] in E2. lia.
    + exfalso. rewrite E2 in E1. apply (f_equal (@length N)) in E1. rewrite app_length in E1. cbn [length] in E1. lia.
    + rewrite E1 in E2. apply app_inv_head in E2. injection E2 as E. exact E.
  - subst. split; reflexivity.
Qed.
Lemma text_lines_fun : forall av fs text lines, text_lines av fs text lines -> forall lines', text_lines av fs text lines' -> lines = lines'.
Proof.
  intros av fs text lines H. induction H as [text l H|text l rest lines H N H' IH]; intros lines' H2; destruct H2 as [text l' H2|text l' rest' lines' H2 N2 H2'].
  - destruct (first_line_fun _ _ _ _ _ _ _ H H2) as [-> _]. reflexivity.
  - destruct (first_line_fun _ _ _ _ _ _ _ H H2) as [_ <-]. congruence.
  - destruct (first_line_fun _ _ _ _ _ _ _ H H2) as [_ ->]. congruence.
  - destruct (first_line_fun _ _ _ _ _ _ _ H H2) as [-> ->]. f_equal. apply IH. exact H2'.
Qed.

(** ** Nothing is lost *)
Lemma first_line_kept : forall av fs text line rest, first_line av fs text line rest -> text = line ++ space :: rest \/ (text = line /\ rest = []).
Proof. intros av fs text line0 rest0 [line word rest H1 H2 H3 H4 H5|word rest H1 H2|line H1 H2]; [left; reflexivity|left; reflexivity|right; split; reflexivity]. Qed.
Lemma text_lines_joined : forall av fs text lines, text_lines av fs text lines -> text = joined lines \/ text = joined lines ++ [space].
Proof.
  intros av fs text lines H. induction H as [text l H|text l rest lines H N H' IH]; apply first_line_kept in H as [-> |[-> H]].
  - right. reflexivity.
  - left. reflexivity.
  - assert (Hl : joined (l :: lines) = l ++ space :: joined lines) by (destruct H'; reflexivity). rewrite Hl.
    destruct IH as [IH|IH]; [left; rewrite <- IH; reflexivity|]. right. rewrite <- app_assoc. cbn [app]. rewrite <- IH. reflexivity.
  - congruence.
Qed.
Lemma first_line_fits : forall av fs text line rest, first_line av fs text line rest -> fits av fs line \/ (unbreakable line /\ too_wide av fs line).
Proof. intros av fs text line0 rest0 [line word rest H1 H2 H3 H4 H5|word rest H1 H2|line H1 H2]; [left; exact H2|right; split; assumption|exact H2]. Qed.
Lemma text_lines_fit : forall av fs text lines, text_lines av fs text lines -> Forall (fun l => fits av fs l \/ (unbreakable l /\ too_wide av fs l)) lines.
Proof. intros av fs text lines H. induction H as [text l H|text l rest lines H N H' IH]; (constructor; [exact (first_line_fits _ _ _ _ _ H)|first [assumption|constructor]]). Qed.

Lemma left_refl : forall a, some_spaces_left_out a a.
Proof. induction a; constructor; assumption. Qed.
Lemma left_app : forall a b, some_spaces_left_out a b -> forall c d, some_spaces_left_out c d -> some_spaces_left_out (a ++ c) (b ++ d).
Proof. induction 1; intros c d H'; cbn [app]; try constructor; auto. Qed.
Lemma joined_left : forall lines, some_spaces_left_out (joined lines) (concat lines).
Proof.
  induction lines as [|l lines IH]; [constructor|]. destruct lines as [|l' r]; [cbn [joined concat]; rewrite app_nil_r; apply left_refl|].
  change (joined (l :: l' :: r)) with (l ++ space :: joined (l' :: r)). change (concat (l :: l' :: r)) with (l ++ concat (l' :: r)).
  apply left_app; [apply left_refl|]. constructor. exact IH.
Qed.
Lemma text_lines_left : forall av fs text lines, text_lines av fs text lines -> some_spaces_left_out text (concat lines).
Proof.
  intros av fs text lines H. apply text_lines_joined in H as [-> | ->]; [apply joined_left|].
  rewrite <- (app_nil_r (concat lines)). apply left_app; [apply joined_left|]. constructor. constructor.
Qed.

Definition glyphs_on (lines : list line) : list N := flat_map (fun l => flat_map glyphs_in (fst l)) lines.
Lemma glyphs_join : forall a b, glyphs_on (join a b) = glyphs_on a ++ glyphs_on b.
Proof.
  induction a as [|[f e] a IH]; intros b; [reflexivity|]. unfold glyphs_on in *. destruct a as [|l a].
  - destruct b as [|[g e'] b]; cbn [join flat_map fst]; rewrite ?app_nil_r; [reflexivity|]. rewrite flat_map_app, app_assoc. reflexivity.
  - change (join ((f, e) :: l :: a) b) with ((f, e) :: join (l :: a) b). cbn [flat_map fst] in *. rewrite IH, !app_assoc. reflexivity.
Qed.
Lemma next_box_glyphs : forall w style last_ contents ls, next_box_lines w style last_ contents ls -> glyphs_on ls = glyphs_on contents.
Proof.
  assert (K : forall w style last_ c l, next_box_line w style last_ c l -> flat_map glyphs_in (fst l) = flat_map glyphs_in (fst c)).
  { intros w style last_ c l (b & off & E & _). rewrite E. cbn [flat_map glyphs_in]. apply app_nil_r. }
  intros w style last_ contents ls H. induction H as [|c l H|c l contents ls N H H' IH]; [reflexivity| |]; unfold glyphs_on in *; cbn [flat_map].
  - rewrite (K _ _ _ _ _ H). reflexivity.
  - rewrite (K _ _ _ _ _ H), IH. reflexivity.
Qed.
Lemma shapes_concat : forall style texts ls p q, Forall2 (text_line style p q) texts ls -> exists w, shapes (concat texts) (glyphs_on ls) w.
Proof.
  intros style texts ls p q H. induction H as [|t l texts ls H H' IH]; [exists 0; constructor|]. destruct IH as [w IH].
  destruct H as (r & sh & w0 & E & S & _). unfold glyphs_on in *. cbn [concat flat_map]. rewrite E. cbn [flat_map glyphs_in]. rewrite app_nil_r.
  destruct (shapes_app _ _ _ _ _ S _ _ _ IH) as (w' & S' & _). exists w'. exact S'.
Qed.
Scheme inline_ok_mind := Minimality for InlineSpec.inline_ok Sort Prop
  with inlines_ok_mind := Minimality for InlineSpec.inlines_ok Sort Prop.
Definition kept (text : list N) (lines : list line) : Prop := exists t w, some_spaces_left_out text t /\ shapes t (glyphs_on lines) w.
Lemma kept_none : forall p, kept [] [([], p)].
Proof. intros p. exists [], 0. split; constructor. Qed.
Lemma inlines_kept : forall w base p boxes lines, inlines_ok w base p boxes lines -> kept (flat_map text_in boxes) lines.
Proof.
  intros w. refine (inlines_ok_mind glyph_id glyph_width w (fun _ _ b lines => kept (text_in b) lines) (fun _ _ boxes lines => kept (flat_map text_in boxes) lines) _ _ _ _ _ _).
  - intros base p style text first texts l ls H1 H2 H3. destruct (shapes_concat _ _ _ _ _ H3) as [w' S'].
    destruct H2 as (r & sh & w0 & E & S & _). destruct (shapes_app _ _ _ _ _ S _ _ _ S') as (w'' & S'' & _).
    exists (concat (first :: texts)), w''. split; [exact (text_lines_left _ _ _ _ H1)|].
    unfold glyphs_on in *. cbn [concat flat_map]. rewrite E. cbn [flat_map glyphs_in]. rewrite app_nil_r. exact S''.
  - intros base p style first last_ children start_ content contents l ls (b & dx & dy & E & _) _ _ (t & w' & K1 & K2) H.
    exists t, w'. split; [exact K1|]. apply next_box_glyphs in H. unfold glyphs_on in *. cbn [flat_map] in *. rewrite E. cbn [flat_map glyphs_in]. rewrite app_nil_r, H. exact K2.
  - intros. apply kept_none.
  - intros. apply kept_none.
  - intros. apply kept_none.
  - intros base p b boxes ls q e ls' _ (t & w1 & K1 & K2) _ _ _ (t' & w1' & K1' & K2').
    destruct (shapes_app _ _ _ _ _ K2 _ _ _ K2') as (w'' & S'' & _). exists (t ++ t'), w''. split; [apply left_app; assumption|]. rewrite glyphs_join. exact S''.
Qed.
Lemma boxes_kept : forall w boxes frs, line_boxes_ok glyph_id glyph_width w boxes frs ->
  exists t width, some_spaces_left_out (flat_map text_in boxes) t /\ shapes t (flat_map glyphs_in frs) width.
Proof.
  intros w boxes frs (lines & H & HF). apply inlines_kept in H as (t & w' & K1 & K2). exists t, w'. split; [exact K1|].
  replace (flat_map glyphs_in frs) with (glyphs_on lines); [exact K2|]. clear - HF. unfold glyphs_on.
  induction HF as [|l f lines frs (r & mode & -> & _) HF IH]; [reflexivity|]. cbn [flat_map glyphs_in]. rewrite IH. reflexivity.
Qed.
End Font.
