(** Property C73: the user-agent style sheet *)
From Coq Require Import QArith Lia.
From Verif Require Import Base Dom DomSpec DomProofs DomProps StyleValues StyleProperties StyleCascade StyleSelectors StyleSpec
  StyleElementSpec StyleElementProofs StyleProps UserAgent UserAgentSpec UserAgentProofs.
Local Open Scope nat_scope.

(** ** The sheet itself *)
(** It can be read, and every declaration in it counts, whatever cssparser does with colours. *)
Theorem C73_sheet : forall pc other,
  (exists ua, add_stylesheets pc (ua_selector other) [] [user_agent_css other] = Ok ua) /\
  forall sels body i, In (StyleRule sels body) (user_agent_css other) -> In i body -> exists ds imp, declared pc i ds imp.
Proof.
  intros pc other. split; [exists (ua_set other); apply ua_set_ok|].
  assert (K : forall x ts ds phases r, (match ts with TIdent i :: _ => forallb (fun k => negb (bytes_eqb i (bs k))) ["inherit"; "initial"; "unset"]%string | _ => true end) = true ->
    property_parse pc x ts = Some (ds, phases, r) -> starts_value pc x ts ds r).
  { intros x ts ds phases r H P. apply (starts_own pc x ts ds phases r); [|exact P]. intros k i I ->. rewrite forallb_forall in H.
    specialize (H k I). rewrite (proj2 (DomWalkProofs.bytes_eqb_eq (bs k) (bs k)) eq_refl) in H. discriminate H. }
  intros sels body i R I. unfold user_agent_css in R. cbn [In] in R.
  destruct R as [R|[R|[R|[R|[R|[R|[R|[]]]]]]]]; inversion R; subst; clear R; cbn [In] in I;
    repeat (destruct I as [I|I]); try contradiction; subst i; do 2 eexists;
    (eapply declared_item; [reflexivity|eapply K; [reflexivity|reflexivity]|constructor; reflexivity]).
Qed.
(** What it says about the display of an element is unambiguous. *)
Theorem C73_unambiguous : forall e a b, ua_display e a -> ua_display e b -> a = b.
Proof.
  assert (X : forall e, local e = bs "embed" -> In (local e) not_displayed -> False).
  { intros e -> H. vm_compute in H. repeat (destruct H as [H|H]; [discriminate H|]). exact H. }
  assert (Y : forall e, In (local e) blocks -> In (local e) not_displayed -> False).
  { intro e. generalize (local e). intros x H. vm_compute in H. repeat (destruct H as [H|H]; [rewrite <- H; intro K; vm_compute in K; repeat (destruct K as [K|K]; [discriminate K|]); exact K|]). contradiction. }
  assert (Z : forall e, local e = bs "embed" -> hidden_input e -> False).
  { intros e E [H _]. rewrite E in H. discriminate H. }
  assert (U : forall e, In (local e) blocks -> hidden_input e -> False).
  { intros e H [E _]. rewrite E in H. vm_compute in H. repeat (destruct H as [H|H]; [discriminate H|]). exact H. }
  intros e a b A B. destruct A, B; try reflexivity; try contradiction; exfalso; eauto.
Qed.

(** ** Its effect *)
(** With any style sheets and style attributes besides: what the author does not set is as the sheet says. *)
Theorem C73_style : forall pc other other_specificity other_matches items_of author_sheets ua author d n parent c e,
  let selector := ua_selector other in let specificity := ua_specificity other other_specificity in
  let matches := ua_matches other other_matches in
  add_stylesheets pc selector [] [user_agent_css other] = Ok ua -> add_stylesheets pc selector [] author_sheets = Ok author ->
  style_for_element pc selector matches items_of (finish selector specificity ua) (finish selector specificity author) d n parent = Ok c ->
  data (node_at d n) = DElement e ->
  exists attr, style_attribute pc items_of e attr /\
    let silent := author_silent (occurs selector specificity (fun s => matches s d n) ua author attr) in
    (silent display_ -> exists v, ua_display e v /\ adjusted c display_ v) /\
    (silent margin_top -> ua_margin e (get c margin_top)) /\ (silent margin_left -> ua_margin e (get c margin_left)) /\
    (silent margin_bottom -> ua_margin e (get c margin_bottom)) /\ (silent margin_right -> ua_margin e (get c margin_right)) /\
    (silent width -> ua_size e (get c width)) /\ (silent height -> ua_size e (get c height)) /\
    (forall p, not_in_sheet p -> silent p -> exists v, css_default parent p v /\ adjusted c p v).
Proof.
  intros pc other osp om items_of author_sheets ua author d n parent c e selector specificity matches Hu Ha H He.
  destruct (C28_cascade pc selector specificity matches items_of _ _ _ _ d n parent c Hu Ha H) as (e' & attr & He' & At & S).
  rewrite He in He'. injection He' as <-. exists attr. split; [exact At|].
  subst selector specificity matches. rewrite ua_set_ok in Hu. injection Hu as <-. cbn zeta.
  assert (NM : forall (v : lpa) (D : css_default parent margin_top v), v = LpaLength 0).
  { intros v D. apply (proj2 D). intros [X|X]; discriminate X. }
  assert (NS : forall (v : lpa) (D : css_default parent width v), v = LpaAuto).
  { intros v D. apply (proj2 D). intros [X|X]; discriminate X. }
  split; [intro Si; eapply display_value; eauto|].
  repeat match goal with |- (author_silent _ ?p -> ua_margin _ _) /\ _ => split end;
    try (intro Si; split; intro L);
    try match goal with
    | |- get c ?p = LpaLength 8 =>
        destruct (set_line other osp om d n e He author attr parent c S p (type_selector (bs "body")) (SALength (SAbsolute 8))) as (w & G & A);
          [constructor|intros l' dd imp X T; inversion X; subst; try discriminate T; reflexivity|exact Si|apply name_means; exact L|];
        cbn [adjusted] in A; rewrite A; cbn [gives css_computed kind_of] in G; destruct G as (q & G & ->); inversion G; reflexivity
    | |- get c ?p = LpaLength 0 =>
        destruct (not_set other osp om d n e He author attr parent c S p) as (w & D & A);
          [intros l' dd imp X M T; inversion X; subst; try discriminate T; apply name_means in M; contradiction|exact Si|];
        cbn [adjusted] in A; rewrite A; apply (proj2 D); intros [X|X]; discriminate X
    end.
  repeat match goal with |- (author_silent _ ?p -> ua_size _ _) /\ _ => split end;
    try (intro Si; split; intro L);
    try match goal with
    | |- get c ?p = LpaLength 0 =>
        destruct (set_line other osp om d n e He author attr parent c S p embed_hidden (SALength (SAbsolute 0))) as (w & G & A);
          [constructor|intros l' dd imp X T; inversion X; subst; try discriminate T; reflexivity|exact Si|apply embed_means; exact L|];
        cbn [adjusted] in A; rewrite A; cbn [gives css_computed kind_of] in G; destruct G as (q & G & ->); inversion G; reflexivity
    | |- get c ?p = LpaAuto =>
        destruct (not_set other osp om d n e He author attr parent c S p) as (w & D & A);
          [intros l' dd imp X M T; inversion X; subst; try discriminate T; apply embed_means in M; contradiction|exact Si|];
        cbn [adjusted] in A; rewrite A; apply (proj2 D); intros [X|X]; discriminate X
    end.
  intros p Np Si. apply (not_set other osp om d n e He author attr parent c S p); [|exact Si].
  intros l dd imp X _ T. subst p. apply Np. destruct X; cbn [target In]; auto 10.
Qed.
(** Hidden inputs are not displayed, whatever the author says and however important. *)
Theorem C73_hidden_input : forall pc other other_specificity other_matches items_of author_sheets ua author d n parent c e,
  let selector := ua_selector other in let specificity := ua_specificity other other_specificity in
  let matches := ua_matches other other_matches in
  add_stylesheets pc selector [] [user_agent_css other] = Ok ua -> add_stylesheets pc selector [] author_sheets = Ok author ->
  style_for_element pc selector matches items_of (finish selector specificity ua) (finish selector specificity author) d n parent = Ok c ->
  data (node_at d n) = DElement e -> hidden_input e -> get c display_ = DisplayNone.
Proof.
  intros pc other osp om items_of author_sheets ua author d n parent c e selector specificity matches Hu Ha H He I.
  destruct (C28_cascade pc selector specificity matches items_of _ _ _ _ d n parent c Hu Ha H) as (e' & attr & He' & At & S).
  rewrite He in He'. injection He' as <-. subst selector specificity matches. rewrite ua_set_ok in Hu. injection Hu as <-. eapply hidden_input_value; eauto.
Qed.

(** ** Examples *)
Definition ua_doc : document :=
  Eval vm_compute in
  match run_ops document_new
    [ CreateElement (h "body") [at_ "class" "a"] false; Append 1 (AppendNode 2);
      CreateElement (h "input") [at_ "class" "a"; at_ "type" "HIDDEN"] false; Append 2 (AppendNode 3);
      CreateElement (h "div") [at_ "hidden" ""] false; Append 2 (AppendNode 4);
      CreateElement (h "embed") [at_ "hidden" ""] false; Append 2 (AppendNode 5);
      CreateElement (h "h1") [] false; Append 2 (AppendNode 6);
      CreateElement (mkQual None (bs "http://www.w3.org/2000/svg") (bs "title")) [] false; Append 2 (AppendNode 7);
      CreateElement (h "p") [] false; Append 2 (AppendNode 8) ] with Ok d => d | _ => document_new end.
Definition ua_example_author : list (list (source_rule (ua_selector ex_selector))) :=
  [[StyleRule [Other (bs "input", 1%N)] [Item (bs "display") ([id_ "block"] ++ imp_)];
    StyleRule [Other (bs "div", 1%N)] [Item (bs "width") [px 5]; Item (bs "float") [id_ "left"]];
    StyleRule [Other (bs "body", 1%N)] [Item (bs "margin-left") [px 3]]]].
Definition ua_example (n : nat) : result computed_values :=
  style_for_element ex_color (ua_selector ex_selector) (ua_matches ex_selector ex_matches) ex_items
    (finish _ (ua_specificity ex_selector snd)
       (match add_stylesheets ex_color _ [] [user_agent_css ex_selector] with Ok s => s | _ => [] end))
    (finish _ (ua_specificity ex_selector snd) (match add_stylesheets ex_color _ [] ua_example_author with Ok s => s | _ => [] end))
    ua_doc n None.
Example C73_example :
  map (fun n => match ua_example n with Ok c => Some (get c display_) | _ => None end) [2; 3; 4; 5; 6; 7; 8] =
  [Some (OutsideInside Block Flow); Some DisplayNone; Some DisplayNone; Some (OutsideInside Inline Flow);
   Some (OutsideInside Inline Flow); Some DisplayNone; Some (OutsideInside Block Flow)] /\
  match ua_example 2 with Ok c => (get c margin_left, get c margin_right) = (LpaLength 3, LpaLength 8) | _ => False end /\
  match ua_example 5 with Ok c => (get c width, get c height) = (LpaLength 0, LpaLength 0) | _ => False end.
Proof. vm_compute. auto. Qed.

(** ** What the sheet does not achieve *)
(** Its first rule is to limit it to HTML elements, but elements of other namespaces are matched. *)
Theorem C73_namespace_refuted : exists ua d n c e,
  add_stylesheets ex_color (ua_selector ex_selector) [] [user_agent_css ex_selector] = Ok ua /\
  style_for_element ex_color (ua_selector ex_selector) (ua_matches ex_selector ex_matches) ex_items
    (finish _ (ua_specificity ex_selector snd) ua) (finish _ (ua_specificity ex_selector snd) []) d n None = Ok c /\
  data (node_at d n) = DElement e /\ q_ns (e_name e) <> bs "http://www.w3.org/1999/xhtml" /\
  get c display_ <> css_initial display_.
Proof.
  eexists. exists ua_doc, 7. do 2 eexists. split; [vm_compute; reflexivity|]. split; [vm_compute; reflexivity|].
  split; [reflexivity|]. split; vm_compute; discriminate.
Qed.
(** Elements that the HTML Standard's sheet makes blocks are inline. *)
Theorem C73_more_blocks_refuted : exists ua d n c e,
  add_stylesheets ex_color (ua_selector ex_selector) [] [user_agent_css ex_selector] = Ok ua /\
  style_for_element ex_color (ua_selector ex_selector) (ua_matches ex_selector ex_matches) ex_items
    (finish _ (ua_specificity ex_selector snd) ua) (finish _ (ua_specificity ex_selector snd) []) d n None = Ok c /\
  data (node_at d n) = DElement e /\ q_ns (e_name e) = bs "http://www.w3.org/1999/xhtml" /\ In (local e) more_blocks /\
  get c display_ <> OutsideInside Block Flow.
Proof.
  eexists. exists ua_doc, 6. do 2 eexists. split; [vm_compute; reflexivity|]. split; [vm_compute; reflexivity|].
  split; [reflexivity|]. split; [reflexivity|]. split; [vm_compute; auto 20|]. vm_compute. discriminate.
Qed.

Print Assumptions C73_sheet.
Print Assumptions C73_unambiguous.
Print Assumptions C73_style.
Print Assumptions C73_hidden_input.
Print Assumptions C73_namespace_refuted.
Print Assumptions C73_more_blocks_refuted.
