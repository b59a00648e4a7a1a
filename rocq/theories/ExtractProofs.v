(** What can be copied from the pages of a document. *)
From Coq Require Import QArith.
From Verif Require Import Base PdfObject PdfObjectSpec PdfConvert PdfConvertSpec Geom Text LayoutTree InlineSpec PaintSpec ExtractSpec.
Local Open Scope N_scope.

Lemma characters_single : forall pairs c g, NoDup pairs -> (forall c', In (c', g) pairs <-> c' = c) -> characters_of pairs g = [c].
Proof.
  intros pairs c g D H. unfold characters_of.
  assert (I : In (c, g) (filter (fun p => snd p =? g) pairs)) by (apply filter_In; split; [apply H; reflexivity|apply N.eqb_refl]).
  assert (A : forall p, In p (filter (fun p => snd p =? g) pairs) -> p = (c, g)).
  { intros [a b] Hp. apply filter_In in Hp as [Hp E]. cbn [snd] in E. apply N.eqb_eq in E. subst b. apply H in Hp. congruence. }
  pose proof (NoDup_filter (fun p => snd p =? g) D) as D2. destruct (filter _ pairs) as [|x [|y l]]; [destruct I| |].
  - rewrite (A x (or_introl eq_refl)). reflexivity.
  - exfalso. inversion D2; subst. apply H2. left. rewrite (A x (or_introl eq_refl)), (A y (or_intror (or_introl eq_refl))). reflexivity.
Qed.
Lemma characters_none : forall pairs g, (forall c, ~ In (c, g) pairs) -> characters_of pairs g = [].
Proof.
  intros pairs g H. unfold characters_of. replace (filter (fun p => snd p =? g) pairs) with (@nil (N * N)); [reflexivity|].
  symmetry. induction pairs as [|[c b] pairs IH]; [reflexivity|]. cbn [filter snd]. destruct (N.eqb_spec b g) as [->|].
  - exfalso. apply (H c). left. reflexivity.
  - apply IH. intros c' Hc. apply (H c'). right. exact Hc.
Qed.
Section Font.
Variable glyph_id : N -> res font_error N.
Variable f : font.
Hypothesis L : legible glyph_id f.
Lemma recovered_characters : forall c g, glyph_id c = Ok g -> recovered glyph_id c (characters_of (f_code_points f) g).
Proof.
  intros c g H. destruct L as (D & T & C & V & I). split.
  - intros E. rewrite H in E. injection E as ->. apply characters_none. intros c' Hc. apply C in Hc as (_ & Hz & _). congruence.
  - intros E. assert (Hz : g <> 0) by congruence. apply characters_single; [exact D|]. intros c'. rewrite C. split.
    + intros (_ & _ & H'). exact (I c' c g H' H Hz).
    + intros ->. split; [exact (V c g H Hz)|]. split; [exact Hz|exact H].
Qed.
Lemma recovered_shapes : forall width t gs w, shapes glyph_id width t gs w ->
  Forall2 (recovered glyph_id) t (map (characters_of (f_code_points f)) gs).
Proof. intros width t gs w H. induction H; cbn [map]; constructor; auto using recovered_characters. Qed.
Lemma extracted_marks : forall file frs ms, page_shows file f frs ms ->
  exists gs, shown_glyphs ms = Some gs /\ extracted file ms = Some (map (characters_of (f_code_points f)) gs).
Proof.
  intros file frs ms (each & F & ->).
  assert (P : Forall (fun cg : N * N => scalar_value (fst cg) /\ snd cg < 65536) (f_code_points f)).
  { apply Forall_forall. intros [c g] Hc. destruct L as (_ & T & C & _). apply C in Hc as (Hs & _ & Hg). split; [exact Hs|]. cbn [snd].
    destruct (T c) as (g' & Hg' & B). rewrite Hg in Hg'. injection Hg' as ->. exact B. }
  induction F as [|p m ps each H F (gs & G & X)]; [exists []; split; reflexivity|]. cbn [concat].
  inversion H; subst; cbn [app]; try (exists gs; split; [exact G|exact X]).
  match goal with R : represents _ _ |- _ => destruct R as (_ & _ & _ & _ & _ & _ & _ & _ & _ & R); destruct (R P) as (blocks & Eb & Ec) end.
  exists (glyphs t ++ gs). split.
  - unfold shown_glyphs in *. cbn [fold_right]. rewrite G. match goal with X : utf16be_units _ = Some _ |- _ => rewrite X end. reflexivity.
  - cbn [extracted]. match goal with X : read_font _ _ = Some _ |- _ => rewrite X end.
    match goal with X : utf16be_units _ = Some _ |- _ => rewrite X end. rewrite Eb, Ec, X, map_app. reflexivity.
Qed.
End Font.
