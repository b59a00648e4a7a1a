(** Properties C51 and more of C34: the border-top and background shorthands, attribute selectors,
    links and identifiers *)
From Coq Require Import QArith.
From Verif Require Import Base Dom DomSpec StyleValues StyleProperties StyleSelectors StyleSelectorProofs StyleProps DomProofs DomWalkProofs DomStyleProofs StyleProofs.
Local Open Scope nat_scope.

(** ** What CSS Backgrounds says: "<line-width> || <line-style> || <color>", one or more of the three in
    any order *)
Inductive component := Style (s : line_style) | Colour (c : color) | Width (w : specified_lp).
Inductive component_kind := AStyle | AColour | AWidth.
Definition kind_of_component (c : component) : component_kind :=
  match c with Style _ => AStyle | Colour _ => AColour | Width _ => AWidth end.
(** The tokens [ts] start with the component [c], followed by [r]; C42 says what values there are. *)
Definition starts_with (pc : parser color) (ts : list token) (c : component) (r : list token) : Prop :=
  match c with
  | Style s => parse_kind pc (kind_of border_top_style) ts = Some (s, r)
  | Colour k => parse_kind pc (kind_of border_top_color) ts = Some (k, r)
  | Width w => parse_kind pc (kind_of border_top_width) ts = Some (w, r)
  end.
Inductive sequence (pc : parser color) : list token -> list component -> list token -> Prop :=
| seq_end : forall ts, sequence pc ts [] ts
| seq_one : forall ts c r cs rest, starts_with pc ts c r -> sequence pc r cs rest -> sequence pc ts (c :: cs) rest.
(** What the value declares: each component its longhand; longhands with no component become initial. *)
Definition declares_style (cs : list component) (d : declaration) : Prop :=
  (exists s, In (Style s) cs /\ d = Declares border_top_style s) \/
  ((forall s, ~ In (Style s) cs) /\ d = CssWide border_top_style Initial).
Definition declares_colour (cs : list component) (d : declaration) : Prop :=
  (exists c, In (Colour c) cs /\ d = Declares border_top_color c) \/
  ((forall c, ~ In (Colour c) cs) /\ d = CssWide border_top_color Initial).
Definition declares_width (cs : list component) (d : declaration) : Prop :=
  (exists w, In (Width w) cs /\ d = Declares border_top_width w) \/
  ((forall w, ~ In (Width w) cs) /\ d = CssWide border_top_width Initial).
(** Colours do not look like line styles or line widths. *)
Definition colours_differ (pc : parser color) : Prop :=
  forall ts c r, pc ts = Some (c, r) -> parse_line_style ts = None /\ parse_line_width ts = None.

(** ** Proofs *)
Definition no_kind (v : border_side) (c : component) : Prop :=
  match c with Style _ => b_style v = None | Colour _ => b_color v = None | Width _ => b_width v = None end.
Definition put (v : border_side) (c : component) : border_side :=
  match c with
  | Style s => mkBorderSide (Some s) (b_color v) (b_width v)
  | Colour k => mkBorderSide (b_style v) (Some k) (b_width v)
  | Width w => mkBorderSide (b_style v) (b_color v) (Some w)
  end.
Definition filled (v : border_side) (cs : list component) : Prop :=
  (forall s, b_style v = Some s <-> In (Style s) cs) /\ (forall c, b_color v = Some c <-> In (Colour c) cs) /\
  (forall w, b_width v = Some w <-> In (Width w) cs).

Lemma step_sound : forall pc v ts v' r, border_side_step pc v ts = Some (v', r) ->
  exists c, starts_with pc ts c r /\ no_kind v c /\ v' = put v c.
Proof.
  intros pc v ts v' r H. unfold border_side_step in H.
  destruct (b_style v) as [s0|] eqn:E1, (parse_line_style ts) as [[s r1]|] eqn:P1; try (injection H as <- <-; exists (Style s); repeat split; assumption);
  (destruct (b_color v) as [c0|] eqn:E2, (pc ts) as [[c r2]|] eqn:P2; try (injection H as <- <-; exists (Colour c); rewrite <- ?E1; repeat split; assumption);
   (destruct (b_width v) as [w0|] eqn:E3, (parse_line_width ts) as [[w r3]|] eqn:P3; try discriminate H; injection H as <- <-; exists (Width w); rewrite <- ?E1, <- ?E2; repeat split; assumption)).
Qed.
Lemma style_not_width : forall ts s r, parse_line_style ts = Some (s, r) -> parse_line_width ts = None.
Proof.
  intros [|t ts] s r H; [discriminate H|]. destruct t as [i| | | | |]; try discriminate H.
  unfold parse_line_style, parse_keyword in H. cbn [lookup_keyword] in H.
  destruct (bytes_eqb i (bs "none")) eqn:E1; [apply bytes_eqb_eq in E1; subst; reflexivity|].
  destruct (bytes_eqb i (bs "solid")) eqn:E2; [apply bytes_eqb_eq in E2; subst; reflexivity|]. discriminate H.
Qed.
Lemma step_complete : forall pc v ts c r, colours_differ pc -> starts_with pc ts c r -> no_kind v c ->
  border_side_step pc v ts = Some (put v c, r).
Proof.
  intros pc v ts c r D Sc N. unfold border_side_step. destruct c as [s|k|w]; cbn [starts_with no_kind put kind_of parse_kind] in *.
  - rewrite N, Sc. reflexivity.
  - destruct (D _ _ _ Sc) as [D1 D2]. rewrite D1, N, Sc. destruct (b_style v); reflexivity.
  - assert (P1 : parse_line_style ts = None).
    { destruct (parse_line_style ts) as [[s r1]|] eqn:E; [|reflexivity]. apply style_not_width in E. congruence. }
    assert (P2 : pc ts = None).
    { destruct (pc ts) as [[k r1]|] eqn:E; [|reflexivity]. apply D in E. destruct E. congruence. }
    rewrite P1, P2, N, Sc. destruct (b_style v), (b_color v); reflexivity.
Qed.
Definition missing (v : border_side) : nat :=
  (if b_style v then 0 else 1) + (if b_color v then 0 else 1) + (if b_width v then 0 else 1).
Lemma missing_put : forall v c, no_kind v c -> S (missing (put v c)) = missing v.
Proof.
  intros v [s|k|w] N; cbn [no_kind] in N; unfold missing, put; cbn [b_style b_color b_width]; rewrite N;
    destruct (b_style v), (b_color v), (b_width v); try discriminate N; reflexivity.
Qed.
Definition puts (v : border_side) (cs : list component) : border_side := fold_left put cs v.
Lemma loop_sound : forall pc fuel v ts v' r, missing v < fuel -> border_side_loop pc fuel v ts = (v', r) ->
  exists cs, sequence pc ts cs r /\ v' = puts v cs /\ border_side_step pc v' r = None /\
    forall l1 c l2, cs = l1 ++ c :: l2 -> no_kind (puts v l1) c.
Proof.
  intros pc. induction fuel as [|fuel IH]; intros v ts v' r F H; [lia|]. cbn [border_side_loop] in H.
  destruct (border_side_step pc v ts) as [[v1 ts1]|] eqn:E.
  - destruct (step_sound _ _ _ _ _ E) as (c & Sc & N & ->). pose proof (missing_put v c N).
    destruct (IH (put v c) ts1 v' r ltac:(lia) H) as (cs & Q1 & Q2 & Q3 & Q4). exists (c :: cs). split; [econstructor; eassumption|]. split; [exact Q2|]. split; [exact Q3|].
    intros [|c1 l1] c2 l2 Eq; injection Eq as <- Eq; [exact N|]. exact (Q4 _ _ _ Eq).
  - injection H as <- <-. exists []. split; [constructor|]. split; [reflexivity|]. split; [exact E|]. intros [|] ? ? Eq; discriminate Eq.
Qed.
Lemma puts_none : forall cs v c, no_kind (puts v cs) c -> no_kind v c /\ ~ In (kind_of_component c) (map kind_of_component cs).
Proof.
  unfold puts. induction cs as [|c1 cs IH]; intros v c H; [split; [exact H|intros []]|]. cbn [fold_left] in H. apply IH in H as [H1 H2].
  destruct c, c1; cbn [no_kind put b_style b_color b_width] in H1; try discriminate H1; (split; [exact H1|]);
    cbn [map kind_of_component]; intros [Q|Q]; try discriminate Q; exact (H2 Q).
Qed.
Lemma puts_some : forall cs v c, no_kind v c -> ~ In (kind_of_component c) (map kind_of_component cs) -> no_kind (puts v cs) c.
Proof.
  unfold puts. induction cs as [|c1 cs IH]; intros v c H N; [exact H|]. cbn [fold_left]. apply IH.
  - destruct c, c1; cbn [no_kind put b_style b_color b_width] in *; try exact H; exfalso; apply N; left; reflexivity.
  - intros Q. apply N. right. exact Q.
Qed.
Lemma filled_puts : forall cs, NoDup (map kind_of_component cs) -> filled (puts (mkBorderSide None None None) cs) cs.
Proof.
  assert (G : forall cs v, NoDup (map kind_of_component cs) -> (forall c, In c cs -> no_kind v c) ->
    (forall s, b_style (puts v cs) = Some s <-> b_style v = Some s \/ In (Style s) cs) /\
    (forall c, b_color (puts v cs) = Some c <-> b_color v = Some c \/ In (Colour c) cs) /\
    (forall w, b_width (puts v cs) = Some w <-> b_width v = Some w \/ In (Width w) cs)).
  { induction cs as [|c cs IH]; intros v N H.
    - cbn [puts fold_left In]. repeat split; intros; tauto.
    - cbn [map] in N. inversion N as [|? ? N1 N2]; subst.
      assert (H' : forall c', In c' cs -> no_kind (put v c) c').
      { intros c' I. pose proof (H c' (or_intror I)) as Hc. assert (kind_of_component c <> kind_of_component c') by (intros Q; apply N1; rewrite Q; apply in_map; exact I).
        destruct c, c'; cbn [no_kind put b_style b_color b_width kind_of_component] in *; congruence. }
      specialize (IH (put v c) N2 H'). change (puts v (c :: cs)) with (puts (put v c) cs). pose proof (H c (or_introl eq_refl)) as Hc.
      destruct IH as (I1 & I2 & I3). split; [|split]; [intros s; rewrite I1|intros k; rewrite I2|intros w; rewrite I3]; clear I1 I2 I3;
        destruct c; cbn [put b_style b_color b_width In no_kind] in *; rewrite ?Hc; split; intros Q;
        repeat match goal with
        | Q : _ \/ _ |- _ => destruct Q
        | Q : Some _ = Some _ |- _ => injection Q as <-
        | Q : Style _ = Style _ |- _ => injection Q as <-
        | Q : Colour _ = Colour _ |- _ => injection Q as <-
        | Q : Width _ = Width _ |- _ => injection Q as <-
        end; try discriminate; auto. }
  intros cs N. destruct (G cs (mkBorderSide None None None) N) as (G1 & G2 & G3); [intros []; reflexivity|].
  split; [|split]; intros x; [rewrite G1|rewrite G2|rewrite G3]; cbn [b_style b_color b_width]; (split; [intros [Q|Q]; [discriminate Q|exact Q]|auto]).
Qed.
Lemma declared_style : forall v cs, filled v cs -> declares_style cs (or_initial border_top_style (b_style v)).
Proof.
  intros v cs (F & _). unfold declares_style, or_initial. destruct (b_style v) as [s|].
  - left. exists s. split; [apply F; reflexivity|reflexivity].
  - right. split; [|reflexivity]. intros s I. apply F in I. discriminate I.
Qed.
Lemma declared_colour : forall v cs, filled v cs -> declares_colour cs (or_initial border_top_color (b_color v)).
Proof.
  intros v cs (_ & F & _). unfold declares_colour, or_initial. destruct (b_color v) as [s|].
  - left. exists s. split; [apply F; reflexivity|reflexivity].
  - right. split; [|reflexivity]. intros s I. apply F in I. discriminate I.
Qed.
Lemma declared_width : forall v cs, filled v cs -> declares_width cs (or_initial border_top_width (b_width v)).
Proof.
  intros v cs (_ & _ & F). unfold declares_width, or_initial. destruct (b_width v) as [s|].
  - left. exists s. split; [apply F; reflexivity|reflexivity].
  - right. split; [|reflexivity]. intros s I. apply F in I. discriminate I.
Qed.
Lemma nodup_of : forall cs, (forall l1 c l2, cs = l1 ++ c :: l2 -> ~ In (kind_of_component c) (map kind_of_component l1)) ->
  NoDup (map kind_of_component cs).
Proof.
  intros cs. induction cs as [|c cs IH] using rev_ind; intros H; [constructor|]. rewrite map_app. apply NoDup_rev in IH.
  - cbn [map]. apply NoDup_rev in IH. rewrite rev_involutive in IH. apply (NoDup_Add (Add_app (kind_of_component c) (map kind_of_component cs) [])).
    rewrite app_nil_r. split; [exact IH|]. exact (H cs c [] eq_refl).
  - intros l1 c1 l2 E. apply (H l1 c1 (l2 ++ [c])). rewrite E, <- app_assoc. reflexivity.
Qed.

(** ** C51 *)
(** What is accepted is a sequence of different components, at least one … *)
Theorem C51_border_top : forall pc ts ds rest, parse_shorthand pc border_top ts = Some (ds, rest) ->
  exists cs a b c, ds = [a; b; c] /\ sequence pc ts cs rest /\ cs <> [] /\ NoDup (map kind_of_component cs) /\
    declares_style cs a /\ declares_colour cs b /\ declares_width cs c.
Proof.
  intros pc ts ds rest H. cbn [parse_shorthand] in H. destruct (parse_border_side pc ts) as [[v r]|] eqn:E; [|discriminate H]. injection H as <- <-.
  unfold parse_border_side in E. destruct (border_side_step pc (mkBorderSide None None None) ts) as [[v1 ts1]|] eqn:E1; [|discriminate E]. injection E as E.
  destruct (step_sound _ _ _ _ _ E1) as (c & Sc & N & ->). pose proof (missing_put _ _ N) as M. unfold missing in M at 2. cbn in M.
  destruct (loop_sound pc 4 (put (mkBorderSide None None None) c) _ _ _ ltac:(lia) E) as (cs & Q1 & Q2 & Q3 & Q4).
  assert (ND : NoDup (map kind_of_component (c :: cs))).
  { apply nodup_of. intros [|c1 l1] c2 l2 Eq; [intros []|]. injection Eq as <- Eq. specialize (Q4 _ _ _ Eq).
    apply (puts_none (c :: l1) (mkBorderSide None None None) c2). exact Q4. }
  pose proof (filled_puts (c :: cs) ND) as F. change (puts (mkBorderSide None None None) (c :: cs)) with (puts (put (mkBorderSide None None None) c) cs) in F.
  rewrite <- Q2 in F. exists (c :: cs). do 3 eexists. split; [reflexivity|]. split; [econstructor; eassumption|]. split; [discriminate|]. split; [exact ND|].
  split; [apply declared_style; exact F|]. split; [apply declared_colour; exact F|apply declared_width; exact F].
Qed.
(** … and every such sequence is accepted, as far as it goes. *)
Theorem C51_border_top_accepts : forall pc ts cs rest, colours_differ pc -> sequence pc ts cs rest -> cs <> [] ->
  NoDup (map kind_of_component cs) ->
  (forall c r, starts_with pc rest c r -> In (kind_of_component c) (map kind_of_component cs)) ->
  exists a b c, parse_shorthand pc border_top ts = Some ([a; b; c], rest) /\
    declares_style cs a /\ declares_colour cs b /\ declares_width cs c.
Proof.
  intros pc ts cs rest D Sq N ND End. destruct cs as [|c cs]; [congruence|]. inversion Sq as [|? ? r ? ? Sc Sr]; subst.
  set (v0 := mkBorderSide None None None).
  assert (L : forall cs ts v fuel, sequence pc ts cs rest -> NoDup (map kind_of_component cs) -> (forall c, In c cs -> no_kind v c) ->
    border_side_step pc (puts v cs) rest = None -> missing v < fuel -> border_side_loop pc fuel v ts = (puts v cs, rest)).
  { clear - D. induction cs as [|c cs IH]; intros ts v fuel Sq ND H Z F; (destruct fuel as [|fuel]; [lia|]); cbn [border_side_loop].
    - inversion Sq; subst. cbn [puts fold_left] in *. rewrite Z. reflexivity.
    - inversion Sq as [|? ? r ? ? Sc Sr]; subst. cbn [map] in ND. inversion ND as [|? ? N1 N2]; subst.
      pose proof (H c (or_introl eq_refl)) as Hc. rewrite (step_complete pc v ts c r D Sc Hc). pose proof (missing_put v c Hc).
      apply IH; try assumption; [|lia]. intros c' I. pose proof (H c' (or_intror I)) as Hc'.
      assert (kind_of_component c <> kind_of_component c') by (intros Q; apply N1; rewrite Q; apply in_map; exact I).
      destruct c, c'; cbn [no_kind put b_style b_color b_width kind_of_component] in *; congruence. }
  assert (Z : border_side_step pc (puts v0 (c :: cs)) rest = None).
  { destruct (border_side_step pc (puts v0 (c :: cs)) rest) as [[v' r']|] eqn:E; [|reflexivity]. exfalso.
    destruct (step_sound _ _ _ _ _ E) as (c' & Sc' & N' & _). apply puts_none in N' as [_ N']. apply N'. exact (End _ _ Sc'). }
  pose proof (filled_puts (c :: cs) ND) as F. fold v0 in F.
  do 3 eexists. split.
  - cbn [parse_shorthand]. unfold parse_border_side. fold v0. assert (Hc : no_kind v0 c) by (destruct c; reflexivity).
    rewrite (step_complete pc v0 ts c r D Sc Hc). pose proof (missing_put v0 c Hc) as M.
    cbn [map] in ND. inversion ND as [|? ? N1 N2]; subst. erewrite (L cs r (put v0 c) 4); [reflexivity|exact Sr|exact N2| |exact Z|].
    + intros c' I. assert (kind_of_component c <> kind_of_component c') by (intros Q; apply N1; rewrite Q; apply in_map; exact I).
      destruct c, c'; cbn [no_kind put b_style b_color b_width kind_of_component] in *; first [reflexivity|congruence].
    + change (missing v0) with 3 in M. lia.
  - change (puts v0 (c :: cs)) with (puts (put v0 c) cs) in F.
    split; [apply declared_style; exact F|]. split; [apply declared_colour; exact F|apply declared_width; exact F].
Qed.
(** background is one colour. *)
Theorem C51_background : forall pc ts ds rest, parse_shorthand pc background ts = Some (ds, rest) <->
  exists c, parse_kind pc (kind_of background_color) ts = Some (c, rest) /\ ds = [Declares background_color c].
Proof.
  intros pc ts ds rest. cbn [parse_shorthand]. unfold parse_background. cbn [kind_of parse_kind]. destruct (pc ts) as [[c r]|]; split.
  - intros H. injection H as <- <-. exists c. split; reflexivity.
  - intros (c' & H & ->). injection H as <- <-. reflexivity.
  - intros H. discriminate H.
  - intros (c' & H & _). discriminate H.
Qed.
Example C51_example : colours_differ ex_color /\
  sequence ex_color [px 2; id_ "red"] [Width (SLength (SAbsolute 2)); Colour (Rgba (mkRgba 255 0 0 255))] [] /\
  parse_shorthand ex_color border_top [px 2; id_ "red"] =
    Some ([CssWide border_top_style Initial; Declares border_top_color (Rgba (mkRgba 255 0 0 255));
           Declares border_top_width (SLength (SAbsolute 2))], []).
Proof.
  split; [|split; [|reflexivity]].
  - intros [|[i| | | | |] ts] k r H; try discriminate H. cbn [ex_color] in H.
    destruct (bytes_eqb i (bs "red")) eqn:E1; [apply bytes_eqb_eq in E1; subst; split; reflexivity|].
    destruct (bytes_eqb i (bs "currentcolor")) eqn:E2; [apply bytes_eqb_eq in E2; subst; split; reflexivity|]. discriminate H.
  - repeat (eapply seq_one; [reflexivity|]). constructor.
Qed.

(** ** C34 *)
(** An attribute selector matches if there is an attribute with the name, in the namespace if one is
    given, whose value the operator accepts. *)
Theorem C34_attributes : forall d x e ns name operation, x < List.length (nodes d) -> data (node_at d x) = DElement e ->
  exists b, attr_matches d x ns name operation = Ok b /\
    (b = true <-> exists a, In a (e_attrs e) /\ q_local (a_name a) = name /\ operation (a_value a) = true /\
       forall n, ns = Some n -> q_ns (a_name a) = n).
Proof.
  intros d x e ns name operation B D. unfold attr_matches. rewrite (unwrap_ok d x e B D). cbn [bind]. eexists. split; [reflexivity|].
  rewrite existsb_exists. split; intros (a & I & H); exists a; (split; [exact I|]).
  - apply Bool.andb_true_iff in H as [H H3]. apply Bool.andb_true_iff in H as [H1 H2]. apply bytes_eqb_eq in H1. split; [exact H1|]. split; [exact H3|].
    intros n ->. apply bytes_eqb_eq. exact H2.
  - destruct H as (H1 & H3 & H2). rewrite H3, Bool.andb_true_r. apply Bool.andb_true_iff. split; [apply bytes_eqb_eq; exact H1|].
    destruct ns as [n|]; [apply bytes_eqb_eq, H2; reflexivity|reflexivity].
Qed.
(** Links are the HTML elements a, area and link that have an href attribute. *)
Theorem C34_links : forall d x e, x < List.length (nodes d) -> data (node_at d x) = DElement e ->
  exists b, is_link d x = Ok b /\
    (b = true <-> q_ns (e_name e) = ns_html /\ In (q_local (e_name e)) [bs "a"; bs "area"; bs "link"] /\
       ~ first_attr (bs "href") (e_attrs e) None).
Proof.
  intros d x e B D. unfold is_link. rewrite (unwrap_ok d x e B D). cbn [bind]. eexists. split; [reflexivity|].
  rewrite !Bool.andb_true_iff, !Bool.orb_true_iff, !bytes_eqb_eq. rewrite <- get_attr_first. cbn [In].
  destruct (get_attr e (bs "href")) as [v|]; split.
  - intros [[H1 [[H2|H2]|H2]] _]; (split; [exact H1|]; split; [|discriminate]); auto.
  - intros (H1 & [H2|[H2|[H2|[]]]] & _); (split; [split; [exact H1|]|reflexivity]); auto.
  - intros [_ H]. discriminate H.
  - intros (_ & _ & H). exfalso. apply H. reflexivity.
Qed.
(** In quirks mode case does not matter. *)
Theorem C34_id_any_case : forall d x e id, x < List.length (nodes d) -> data (node_at d x) = DElement e ->
  exists b, has_id d x id AsciiCaseInsensitive = Ok b /\
    (b = true <-> exists v, first_attr (bs "id") (e_attrs e) (Some v) /\ map lower v = map lower id).
Proof.
  intros d x e id B D. unfold has_id. rewrite (unwrap_ok d x e B D). cbn [bind]. eexists. split; [reflexivity|].
  destruct (get_attr e (bs "id")) as [v|] eqn:E; cbn [case_eq].
  - unfold eq_ignore_ascii_case. rewrite bytes_eqb_eq. split.
    + intros H. exists v. split; [apply get_attr_first; exact E|congruence].
    + intros (v' & F & H). apply get_attr_first in F. congruence.
  - split; [discriminate|]. intros (v' & F & _). apply get_attr_first in F. congruence.
Qed.
Example C34_attributes_example :
  attr_matches ex_doc 2 (Some []) (bs "class") (bytes_eqb (bs "a b")) = Ok true /\
  attr_matches ex_doc 2 (Some ns_html) (bs "class") (fun _ => true) = Ok false /\
  attr_matches ex_doc 2 None (bs "class") (fun _ => true) = Ok true /\ is_link ex_doc 4 = Ok false.
Proof. vm_compute. auto. Qed.

Print Assumptions C51_border_top.
Print Assumptions C51_border_top_accepts.
Print Assumptions C51_background.
Print Assumptions C34_attributes.
Print Assumptions C34_links.
Print Assumptions C34_id_any_case.
