(** Property C93: the order of attributes, prefixes, and what is written in comments, processing instructions and doctypes do not show *)
From Coq Require Import QArith Permutation Lia.
From Verif Require LesterFloat.
From Verif Require Import PdfObject PdfConvert LayoutProps Base Dom DomSpec DomProofs DomTreeProofs DomWalkProofs DomStyleProofs DomProps
  StyleValues StyleProperties StyleCascade StyleSpec StyleElementSpec StyleElementProofs StyleSelectors StyleSelectorProofs StyleProps UserAgent UserAgentSpec UserAgentProofs UserAgentProps
  Geom Text LayoutTree Layout LayoutSpec BoxTree BoxTreeSpec BoxTreeProofs BoxShapeProofs BoxTreeProps
  Paint Float32Print FontParsing FontCmap VeraFile VeraProofs VeraProps Main MainSpec MainProofs MainProps WhiteSpec WhiteProofs AlikeSpec AlikeDomProofs AlikeProofs AlikeProps MarkupSpec MarkupProofs.
Local Open Scope nat_scope.
Local Open Scope res_scope.

Lemma html_calls_alike : forall same : list N -> list N -> Prop, (forall a a' b b', same a a' -> same b b' -> same (a ++ b) (a' ++ b')) -> forall ops ops', Forall2 (call_alike same) ops ops' ->
  html5ever_calls ops -> (forall o t, In o ops' -> In t (given_text o) -> exists u, encodes t u) -> html5ever_calls ops'.
Proof.
  intros same J ops ops' C (V & _ & R) U. split; [exact (valid_ops_alike same J ops ops' C _ _ (new_alike same) V)|]. split; [exact U|].
  intros d' kids E' F. pose proof (ops_alike same J ops ops' C _ _ (new_alike same)) as B. rewrite E' in B. destruct (run_ops document_new ops) as [d|e|] eqn:E; cbn [both] in B; try contradiction.
  destruct (R d kids eq_refl (proj2 (in_forest_alike same d d' B kids) F)) as (l & x & r & Ek & Ex & Eo). exists l, x, r. split; [exact Ek|]. split; [apply (element_alike same d d' B); exact Ex|].
  intros y Iy. apply (ignorable_alike same d d' B). exact (Eo y Iy).
Qed.
(** If the first calls are such as an HTML parser makes, so are the others. *)
Theorem C93_calls : forall ops ops', calls_alike ops ops' -> html5ever_calls ops -> html5ever_calls ops'.
Proof.
  intros ops ops' C H. apply (html_calls_alike eq join_eq ops ops' C H). destruct H as (_ & U & _). intros o' t Io It. assert (X : exists o, In o ops /\ given_text o = given_text o').
  { clear - C Io. induction C as [|o o1 ops ops' H C IH]; [destruct Io|]. destruct Io as [->|Io].
    - exists o. split; [left; reflexivity|]. destruct H as [| | | | |p c c' Hc|p c c' Hc|e p c c' Hc| |]; try reflexivity; destruct Hc; subst; reflexivity.
    - destruct (IH Io) as (o2 & I2 & E2). exists o2. split; [right; exact I2|exact E2]. }
  destruct X as (o & Io' & E). rewrite <- E in It. exact (U o t Io' It).
Qed.
(** The documents they make have the same elements, texts and style sheets. *)
Theorem C93_documents : forall ops ops' d, calls_alike ops ops' -> valid_ops document_new ops -> run_ops document_new ops = Ok d ->
  exists d', run_ops document_new ops' = Ok d' /\ documents_alike none_hidden d d'.
Proof.
  intros ops ops' d C V E. pose proof (ops_alike eq join_eq ops ops' C _ _ (new_alike eq)) as B. rewrite E in B. destruct (run_ops document_new ops') as [d'|e|] eqn:E'; cbn [both] in B; try contradiction.
  exists d'. split; [reflexivity|]. destruct (run_ops_doc ops document_new _ document_new_doc V) as (d0 & kids & E0 & Hf). assert (d0 = d) as -> by congruence.
  exact (documents_markup d d' B kids Hf).
Qed.
(** So the files are the same, byte for byte. *)
Theorem C93_page : forall parse_color other other_specificity (other_matches : other -> document -> nat -> bool) items_of rules_of round m addr,
  through_interface other_matches -> forall ops ops' d, html5ever_calls ops -> calls_alike ops ops' -> run_ops document_new ops = Ok d ->
  clean_sheets_of parse_color other rules_of d -> clean_attributes parse_color items_of d ->
  exists d', run_ops document_new ops' = Ok d' /\ forall o,
    document_to_pdf parse_color other other_specificity other_matches items_of rules_of round m addr o d' =
    document_to_pdf parse_color other other_specificity other_matches items_of rules_of round m addr o d.
Proof.
  intros parse_color other osp om items_of rules_of round m addr Hi ops ops' d H C E Cs Ca. destruct (C93_documents ops ops' d C (proj1 H) E) as (d' & E' & Al).
  exists d'. split; [exact E'|]. intros o. symmetry. exact (C87_html parse_color other osp om items_of rules_of round m addr Hi ops ops' d d' H (C93_calls ops ops' C H) E E' Cs Ca Al o).
Qed.

(** ** Example *)
(** [<!doctype html><html id=r lang=l><!--x--><body><p class=c style=x>A</p></body></html>], the body with one more tag later *)
Definition tags_ops : list sink_op :=
  [ AppendDoctype (bs "html") [] []; CreateElement (h "html") [at_ "id" "r"; at_ "lang" "l"] false; Append 1 (AppendNode 3);
    CreateComment (bs "x"); Append 3 (AppendNode 4); CreateElement (h "body") [] false; Append 3 (AppendNode 5);
    CreateElement (h "p") [at_ "class" "c"; at_ "style" "x"] false; Append 5 (AppendNode 6); Append 6 (AppendText (bs "A"));
    AddAttrsIfMissing 3 [at_ "id" "s"; at_ "class" "c"; at_ "dir" "ltr"] ].
(** The same in another order, with another doctype, and a prefix *)
Definition other_tags_ops : list sink_op :=
  [ AppendDoctype (bs "HTML") (bs "-//W3C//DTD HTML 4.01//EN") []; CreateElement (h "html") [at_ "lang" "l"; at_ "id" "r"] false; Append 1 (AppendNode 3);
    CreateComment (bs "something else"); Append 3 (AppendNode 4); CreateElement (h "body") [] false; Append 3 (AppendNode 5);
    CreateElement (mkQual (Some (bs "a")) ns_html (bs "p")) [at_ "style" "x"; at_ "class" "c"] false; Append 5 (AppendNode 6); Append 6 (AppendText (bs "A"));
    AddAttrsIfMissing 3 [at_ "dir" "ltr"; at_ "class" "c"; at_ "id" "s"] ].
Definition tags_doc : document := Eval vm_compute in match run_ops document_new tags_ops with Ok d => d | _ => document_new end.
Definition other_tags_doc : document := Eval vm_compute in match run_ops document_new other_tags_ops with Ok d => d | _ => document_new end.
Lemma tags_calls : html5ever_calls tags_ops.
Proof.
  split; [|split].
  - unfold tags_ops. valid_calls. vstep; [|apply vo_nil]. split; [bound|]. eexists. reflexivity.
  - intros o t I. unfold tags_ops in I. cbn [In] in I.
    repeat (destruct I as [<-|I]; [cbn [given_text In]; try contradiction|]); [|contradiction].
    intros [<-|[]]. exists (bs "A"). split; [repeat constructor|reflexivity].
  - intros d kids E F. assert (d = tags_doc) as -> by (vm_compute in E; injection E as <-; reflexivity).
    exists [2], 3, []. split; [apply (kids_links tags_doc kids 1 [2; 3] F); reflexivity|]. split; [exact I|intros y [<-|[]]; exact I].
Qed.
Lemma tags_alike : calls_alike tags_ops other_tags_ops.
Proof.
  assert (T : forall l, forallb (fun a => match q_ns (a_name a), q_prefix (a_name a) with [], Some _ => false | _, _ => true end) l = true ->
    nodup (list_eq_dec N.eq_dec) (plain_names l) = plain_names l -> tag_attributes l).
  { intros l F D. split; [rewrite <- D; apply NoDup_nodup|]. intros a Ia E. rewrite forallb_forall in F. specialize (F a Ia). rewrite E in F. destruct (q_prefix (a_name a)); [discriminate F|reflexivity]. }
  repeat apply Forall2_cons; try apply Forall2_nil; try (constructor; fail); try (constructor; constructor; reflexivity).
  - apply ca_element; [apply perm_swap|apply T; reflexivity].
  - apply ca_element; [apply Permutation_refl|apply T; reflexivity].
  - apply ca_element; [apply perm_swap|apply T; reflexivity].
  - apply ca_attributes; [|apply T; reflexivity]. exact (Permutation_rev [at_ "id" "s"; at_ "class" "c"; at_ "dir" "ltr"]).
Qed.
Lemma tags_clean : clean_sheets_of ex_color pair_selector pair_rules tags_doc /\ clean_attributes ex_color main_items tags_doc.
Proof.
  assert (X : forall l, parse_block ex_color l <> Panic -> forall i, In i l -> ~ trailing ex_color i).
  { intros l N i I T. apply N. apply C40_panics. eauto. }
  split.
  - intros ts t E I. vm_compute in E. injection E as <-. destruct I.
  - intros n e v i D C F.
    assert (A : get_attr e (bs "style") = None \/ get_attr e (bs "style") = Some (bs "x")).
    { do 8 (destruct n as [|n]; [try discriminate D; vm_compute in D; injection D as <-; auto|]). unfold node_at in D.
      rewrite nth_overflow in D by (cbn; lia). discriminate D. }
    apply X. assert (E : v = bs "x"); [|rewrite E; vm_compute; discriminate].
    assert (G : get_attr e (bs "style") = Some v) by (apply get_attr_first; exact F). destruct A as [A|A]; congruence.
Qed.
Example C93_example : map e_attrs (flat_map (fun n => match data n with DElement e => [e] | _ => [] end) (nodes tags_doc)) =
    [[at_ "id" "r"; at_ "lang" "l"; at_ "class" "c"; at_ "dir" "ltr"]; []; [at_ "class" "c"; at_ "style" "x"]] /\
  map e_attrs (flat_map (fun n => match data n with DElement e => [e] | _ => [] end) (nodes other_tags_doc)) =
    [[at_ "lang" "l"; at_ "id" "r"; at_ "dir" "ltr"; at_ "class" "c"]; []; [at_ "style" "x"; at_ "class" "c"]] /\
  exists d', run_ops document_new other_tags_ops = Ok d' /\ forall o,
    document_to_pdf ex_color pair_selector (fun _ => 2%N) pair_matches main_items pair_rules print32 Release 0 o d' =
    document_to_pdf ex_color pair_selector (fun _ => 2%N) pair_matches main_items pair_rules print32 Release 0 o tags_doc.
Proof.
  split; [reflexivity|]. split; [reflexivity|].
  exact (C93_page ex_color pair_selector (fun _ => 2%N) pair_matches main_items pair_rules print32 Release 0 pair_through tags_ops other_tags_ops tags_doc
    tags_calls tags_alike eq_refl (proj1 tags_clean) (proj2 tags_clean)).
Qed.
(** Of two attributes of the same name in no namespace the first one counts, so their order shows; HTML parsers leave the second one out. *)
Theorem C93_twice_refuted : exists l l' n, Permutation l l' /\ get_attr (mkElement (h "p") l false) n <> get_attr (mkElement (h "p") l' false) n.
Proof. exists [at_ "style" "x"; at_ "style" "y"], [at_ "style" "y"; at_ "style" "x"], (bs "style"). split; [apply perm_swap|]. vm_compute. discriminate. Qed.

Print Assumptions C93_calls.
Print Assumptions C93_documents.
Print Assumptions C93_page.
Print Assumptions C93_twice_refuted.
