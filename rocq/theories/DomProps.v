(** Properties C21-C27, C38 and C39: the document tree *)
From Coq Require Import Relations.
From Verif Require Import Base Dom DomSpec DomProofs DomTreeProofs DomWalkProofs DomStyleProofs DomXml DomXmlSpec DomXmlProofs.
Local Open Scope res_scope.

(** ** An example: a small page built by the parser *)
Definition h (l : string) : qual_name := mkQual None ns_html (bs l).
Definition at_ (l v : string) : attribute := mkAttr (mkQual None [] (bs l)) (bs v).
Definition page_ops : list sink_op :=
  [ AppendDoctype (bs "html") [] [];                       (* 2 *)
    CreateElement (h "html") [] false;                     (* 3 *)
    Append 1 (AppendNode 3);
    CreateElement (h "style") [at_ "type" "Text/CSS"] false; (* 4 *)
    Append 3 (AppendNode 4);
    Append 4 (AppendText (bs "a{}"));                      (* 5 *)
    Append 4 (AppendText (bs "b{}"));                      (* joined to 5 *)
    CreateElement (h "link") [at_ "rel" "x"; at_ "href" "y"] false; (* 6 *)
    Append 3 (AppendNode 6);
    CreateComment (bs "c");                                (* 7 *)
    AppendBeforeSibling 6 (AppendNode 7);
    AppendBeforeSibling 6 (AppendText (bs "t"));           (* 8 *)
    AddAttrsIfMissing 3 [at_ "lang" "en"];
    AppendBasedOnParentNode 6 3 (AppendText (bs "u"));     (* joined to 8 *)
    RemoveFromParent 7;
    ReparentChildren 4 6 ].
Ltac nanc := let H := fresh "H" in intro H; repeat match goal with
  | E : parent _ = _ |- _ => vm_compute in E; first [discriminate E | injection E as <-]
  | H : inclusive_ancestor _ _ _ |- _ => inversion H; clear H; subst
  end.
Ltac vstep := apply vo_cons;
  [|let E := fresh "E" in intros ? E; vm_compute in E; injection E as <-].
Ltac bound := cbn [valid_op]; unfold exists_node; cbn; lia.
Example page_valid : valid_ops document_new page_ops.
Proof.
  unfold page_ops.
  vstep; [exact I|]. vstep; [exact I|].
  vstep; [split; [bound|split; [bound|split; [discriminate|nanc]]]|].
  vstep; [exact I|].
  vstep; [split; [bound|split; [bound|split; [discriminate|nanc]]]|].
  vstep; [split; [bound|exact I]|].
  vstep; [split; [bound|exact I]|].
  vstep; [exact I|].
  vstep; [split; [bound|split; [bound|split; [discriminate|nanc]]]|].
  vstep; [exact I|].
  vstep; [split; [bound|exists 3; split; [reflexivity|split; [split; [bound|split; [discriminate|nanc]]|discriminate]]]|].
  vstep; [split; [bound|exists 3; split; [reflexivity|exact I]]|].
  vstep; [split; [bound|eexists; reflexivity]|].
  vstep; [split; [bound|split; [discriminate|intros _; split; [bound|exists 3; split; [reflexivity|exact I]]]]|].
  vstep; [bound|].
  vstep; [split; [bound|split; [bound|]]|apply vo_nil].
  intros c Hc. do 9 (destruct c as [|c]; [try discriminate Hc; nanc|]). exfalso.
  unfold node_at in Hc. rewrite nth_overflow in Hc by (cbn; lia). discriminate Hc.
Qed.
Definition page : document := Eval vm_compute in match run_ops document_new page_ops with Ok d => d | _ => document_new end.

(** ** C21 *)
Theorem C21_document_is_a_tree : forall ops, valid_ops document_new ops ->
  exists d kids, run_ops document_new ops = Ok d /\ doc_forest d kids /\ well_linked d.
Proof.
  intros ops V. destruct (run_ops_doc ops document_new _ document_new_doc V) as (d & kids & E & H).
  exists d, kids. split; [auto|]. split; [auto|]. apply (forest_well_linked d kids). apply H.
Qed.
Theorem C21_each_operation : forall d kids o, doc_forest d kids -> valid_op d o ->
  exists d' kids', do_op d o = Ok d' /\ doc_forest d' kids' /\ well_linked d'.
Proof.
  intros d kids o H V. destruct (do_op_doc d kids o H V) as (d' & k' & E & H'). exists d', k'.
  split; [auto|]. split; [auto|]. apply (forest_well_linked d' k'). apply H'.
Qed.
(** The links determine the child lists. *)
Theorem C21_child_lists_unique : forall d k1 k2, in_forest d k1 -> in_forest d k2 -> forall p, k1 p = k2 p.
Proof. exact kids_unique. Qed.
Example C21_example : run_ops document_new page_ops = Ok page /\
  map first_child (nodes page) = [None; Some 2; None; Some 4; None; None; Some 5; None; None] /\
  map next_sibling (nodes page) = [None; None; Some 3; None; Some 8; None; None; None; Some 6].
Proof. vm_compute. auto. Qed.

(** ** C22 *)
Theorem C22_detach : forall d kids c, in_forest d kids -> c < List.length (nodes d) ->
  exists d', detach d c = Ok d' /\ in_forest d' (detached c kids) /\ same_data d d'.
Proof. intros d kids c H B. destruct (detach_ok d kids c H B) as (d' & E & F & S & _). eauto. Qed.
Theorem C22_append : forall d kids p c, in_forest d kids -> c < List.length (nodes d) -> p < List.length (nodes d) ->
  ~ inclusive_ancestor d c p ->
  exists d', append d p c = Ok d' /\ in_forest d' (appended p c kids) /\ same_data d d'.
Proof. intros d kids p c H B1 B2 N. destruct (append_ok d kids p c H B1 B2 N) as (d' & E & F & S & _). eauto. Qed.
Theorem C22_insert_before : forall d kids s c p, in_forest d kids -> c < List.length (nodes d) ->
  parent (node_at d s) = Some p -> c <> s -> ~ inclusive_ancestor d c p ->
  exists d', insert_before d s c = Ok d' /\ in_forest d' (inserted s c kids) /\ same_data d d'.
Proof. exact insert_before_ok. Qed.
(** Outside the parser's promises the links break: inserting a node before itself. *)
Theorem C22_insert_before_itself_refuted : exists d c p,
  well_linked d /\ parent (node_at d c) = Some p /\
  match insert_before d c c with Ok d' => ~ well_linked d' | _ => True end.
Proof.
  destruct (C21_document_is_a_tree page_ops page_valid) as (d & kids & E & H & W).
  assert (d = page) as -> by (destruct C21_example as [E' _]; congruence).
  exists page, 8, 3. split; [exact W|]. split; [reflexivity|].
  destruct (insert_before page 8 8) as [d'|e|] eqn:R; [|exact I|exact I].
  intros (_ & _ & _ & _ & H1). vm_compute in R. injection R as <-. destruct (H1 8 eq_refl) as [H2 _]. discriminate H2.
Qed.
Example C22_example :
  (match append page 2 4 with Ok d => map first_child (nodes d) | _ => [] end,
   match insert_before page 8 5 with Ok d => map next_sibling (nodes d) | _ => [] end) =
  ([None; Some 2; Some 4; Some 8; None; None; Some 5; None; None],
   [None; None; Some 3; None; Some 5; Some 8; None; None; Some 6]).
Proof. vm_compute. reflexivity. Qed.

(** ** C23 *)
Theorem C23_document_order : forall d kids, doc_forest d kids ->
  exists t, root t = document_node_id /\ subtree kids t /\ tree_nodes d = Ok (preorder t) /\ NoDup (preorder t) /\
    forall x, In x (preorder t) <-> inclusive_ancestor d document_node_id x.
Proof. exact tree_nodes_ok. Qed.
Theorem C23_ancestors : forall d kids i, in_forest d kids -> i < List.length (nodes d) ->
  exists l, node_and_ancestors d i = Ok l /\ up d i l /\ forall x, In x l <-> inclusive_ancestor d x i.
Proof.
  intros d kids i H B. destruct (ancestors_ok d kids i H B) as (l & E & U). exists l. split; [auto|]. split; [auto|].
  apply (up_anc d i l U).
Qed.
Theorem C23_children : forall d kids p c r, in_forest d kids -> kids p = c :: r ->
  node_and_following_siblings d c = Ok (kids p).
Proof. exact siblings_kids. Qed.
Example C23_example : tree_nodes page = Ok [1; 2; 3; 4; 8; 6; 5] /\ node_and_ancestors page 5 = Ok [5; 6; 3; 1].
Proof. vm_compute. auto. Qed.

(** ** C24 *)
Theorem C24_append_text : forall d kids p t, in_forest d kids -> p < List.length (nodes d) ->
  exists d', sink_append d p (AppendText t) = Ok d' /\ text_put d d' kids p (kids p) [] t.
Proof. exact append_text_ok. Qed.
Theorem C24_text_before_sibling : forall d kids s p l r t, in_forest d kids -> kids p = l ++ s :: r ->
  exists d', append_before_sibling d s (AppendText t) = Ok d' /\ text_put d d' kids p l (s :: r) t.
Proof. exact before_text_ok. Qed.
Theorem C24_text_based_on_parent : forall d kids e q t, in_forest d kids -> e < List.length (nodes d) -> q < List.length (nodes d) ->
  exists d', append_based_on_parent_node d e q (AppendText t) = Ok d' /\
    ((forall p, ~ In e (kids p)) /\ text_put d d' kids q (kids q) [] t \/
     exists p l r, kids p = l ++ e :: r /\ text_put d d' kids p l (e :: r) t).
Proof.
  intros d kids e q t Hf He Hq. unfold append_based_on_parent_node. rewrite index_ok by auto. cbn [bind].
  destruct (parent (node_at d e)) as [p|] eqn:E; cbn [is_none].
  - apply (proj1 (proj2 (proj2 Hf))) in E. destruct (in_split _ _ E) as (l & r & K).
    destruct (before_text_ok d kids e p l r t Hf K) as (d' & E' & P). exists d'. split; [auto|]. right. eauto.
  - destruct (append_text_ok d kids q t Hf Hq) as (d' & E' & P). exists d'. split; [auto|]. left. split; [|auto].
    intros p I. apply (proj1 (proj2 (proj2 Hf))) in I. congruence.
Qed.
Theorem C24_text_spliced : forall d d' kids p l r t, in_forest d kids -> kids p = l ++ r -> text_put d d' kids p l r t ->
  child_text_content d p = Ok (texts_of d l ++ texts_of d r) /\
  child_text_content d' p = Ok (texts_of d l ++ t ++ texts_of d r).
Proof.
  intros d d' kids p l r t Hf K P.
  assert (Bp : p < length (nodes d)).
  { destruct (Nat.lt_ge_cases p (length (nodes d))); auto. exfalso.
    destruct (put_texts d d' kids p l r t Hf K P) as (k' & F' & _).
    destruct P as [(k & x & t0 & El & _)|(_ & F & M & _)].
    - assert (Ix : In x (kids p)) by (rewrite K, El, <- app_assoc; apply in_or_app; right; left; auto).
      destruct (child_bounds d kids p x Hf Ix). lia.
    - assert (In_ : In (length (nodes d)) (with_new p (length (nodes d)) l r kids p)).
      { unfold with_new. rewrite Nat.eqb_refl. apply in_or_app. right. left. auto. }
      pose proof (proj1 (proj2 (proj2 F)) p (length (nodes d))) as [Q _]. specialize (Q In_).
      destruct (child_bounds d' _ p _ F In_) as [_ Bp]. rewrite (map_data_length _ _ _ M) in Bp.
      assert (p = length (nodes d)) by lia. subst p. exact (wf_irrefl_anc d' _ _ _ F Q (ia_self _ _)). }
  split; [rewrite (child_text_ok d kids) by auto; rewrite K, texts_app; reflexivity|].
  destruct (put_texts d d' kids p l r t Hf K P) as (k' & F' & <-). apply child_text_ok; auto.
  destruct P as [(k & x & t0 & El & _ & _ & L & _)|(_ & _ & M & _)]; [lia|]. rewrite (map_data_length _ _ _ M). lia.
Qed.
Example C24_example :
  match append_before_sibling page 6 (AppendText (bs "!")) with Ok d => (List.length (nodes d), text_of d 8) | _ => (0, []) end =
    (9, bs "tu!") /\
  match append_before_sibling page 8 (AppendText (bs "!")) with Ok d => (List.length (nodes d), text_of d 9) | _ => (0, []) end =
    (10, bs "!") /\
  child_text_content page 3 = Ok (bs "tu").
Proof. vm_compute. auto. Qed.

(** ** C25 *)
Definition all_moved (kids kids' : nat -> list nat) (i p : nat) : Prop :=
  kids' p = kids p ++ kids i /\ kids' i = [].
Theorem C25_only_the_first_child_moves : forall d kids i p, in_forest d kids ->
  i < List.length (nodes d) -> p < List.length (nodes d) -> (forall c, In c (kids i) -> ~ inclusive_ancestor d c p) ->
  exists d', reparent_children d i p = Ok d' /\ same_data d d' /\
    in_forest d' (match kids i with [] => kids | c :: _ => appended p c kids end).
Proof. exact reparent_ok. Qed.
(** It is right when there is at most one child. *)
Theorem C25_at_most_one_child : forall d kids i p, in_forest d kids ->
  i < List.length (nodes d) -> p < List.length (nodes d) -> i <> p -> (forall c, In c (kids i) -> ~ inclusive_ancestor d c p) ->
  List.length (kids i) <= 1 ->
  exists d' kids', reparent_children d i p = Ok d' /\ in_forest d' kids' /\ all_moved kids kids' i p /\
    forall q, q <> i -> q <> p -> kids' q = kids q.
Proof.
  intros d kids i p Hf Hi Hp N Na L. destruct (reparent_ok d kids i p Hf Hi Hp Na) as (d' & E & _ & F).
  destruct (kids i) as [|c [|? ?]] eqn:K; [| |cbn in L; lia].
  - exists d', kids. split; [auto|]. split; [auto|]. unfold all_moved. rewrite K, app_nil_r. auto.
  - exists d', (appended p c kids). split; [auto|]. split; [auto|].
    assert (A : forall q, q <> i -> ~ In c (kids q)).
    { intros q Nq I. assert (Ic : In c (kids i)) by (rewrite K; left; auto).
      apply (proj1 (proj2 (proj2 Hf))) in I. apply (proj1 (proj2 (proj2 Hf))) in Ic. congruence. }
    unfold all_moved, appended. rewrite Nat.eqb_refl, K. destruct (Nat.eqb_spec i p); [contradiction|].
    split; [split|].
    + rewrite without_absent by auto. reflexivity.
    + cbn. rewrite Nat.eqb_refl. reflexivity.
    + intros q N1 N2. destruct (Nat.eqb_spec q p); [contradiction|]. apply without_absent. auto.
Qed.
Theorem C25_reparent_refuted : exists ops d kids i p d', valid_ops document_new ops /\
  run_ops document_new (ops ++ [ReparentChildren i p]) = Ok d' /\
  run_ops document_new ops = Ok d /\ doc_forest d kids /\ valid_op d (ReparentChildren i p) /\
  forall kids', in_forest d' kids' -> ~ all_moved kids kids' i p.
Proof.
  destruct (C21_document_is_a_tree page_ops page_valid) as (d & kids & E & H & W).
  assert (d = page) as -> by (destruct C21_example as [E' _]; congruence).
  exists page_ops, page, kids, 3, 2.
  destruct (reparent_children page 3 2) as [d'|e|] eqn:R; [|destruct e|vm_compute in R; discriminate R].
  exists d'. split; [exact page_valid|]. split; [|split; [auto|split; [auto|split]]].
  - clear - R E. assert (A : forall o a d, run_ops d (a ++ o) = (x <- run_ops d a ;; run_ops x o)).
    { induction a as [|x a IH]; intro d; cbn [app run_ops]; [reflexivity|]. destruct (do_op d x); cbn [bind]; auto. }
    rewrite A, E. cbn [bind run_ops do_op]. rewrite R. reflexivity.
  - clear. split; [unfold exists_node; cbn; lia|split; [unfold exists_node; cbn; lia|]].
    intros c Hc. do 9 (destruct c as [|c]; [try (vm_compute in Hc; discriminate Hc); nanc|]). exfalso.
    unfold node_at in Hc. rewrite nth_overflow in Hc by (cbn; lia). discriminate Hc.
  - intros kids' F' [_ K']. vm_compute in R. injection R as <-.
    pose proof (proj1 (proj2 F') 3) as [Fc _]. rewrite K' in Fc. vm_compute in Fc. discriminate Fc.
Qed.
Example C25_example : match reparent_children page 3 2 with
  | Ok d => map first_child (nodes d) | _ => [] end =
  [None; Some 2; Some 4; Some 8; None; None; Some 5; None; None].
Proof. vm_compute. reflexivity. Qed.

(** ** C26 *)
Theorem C26_xml_mirrors_events : forall l, exists d kids,
  parse_xml (XStartDocument :: flat_map events_of l ++ [XEndDocument]) = Ok d /\
  doc_forest d kids /\
  subtree kids (numbered document_node_id (XT DDocument (content_of l))) /\
  map data (nodes d) = DDocument :: contents (XT DDocument (content_of l)).
Proof. intro l. destruct (parse_xml_ok l) as (d & kids & E & H & S & M & _). exists d, kids. auto. Qed.
(** Any other events: a tree, an error of the reader, or, only if an end tag has no start tag, a
    panic. *)
Theorem C26_any_events : forall evs, closes 0 evs = true ->
  (exists d kids, parse_xml evs = Ok d /\ doc_forest d kids) \/ (parse_xml evs = Err XmlError /\ In XError evs).
Proof.
  intros evs C. apply (xml_loop_safe evs document_new (fun _ => []) document_node_id []); auto using document_new_doc.
Qed.
Theorem C26_unmatched_end_panics : forall evs, closes 0 evs = false -> ~ In XError evs -> parse_xml evs = Panic.
Proof.
  intros evs C NE. apply (xml_loop_panics evs document_new (fun _ => []) document_node_id []); auto using document_new_doc.
Qed.
Definition xn (l : string) : xml_name := mkXName (bs l) None None.
Definition xml_items : list item :=
  [ IPi (bs "p") None;
    IElement (xn "r") [(xn "k", bs "v")]
      [ IText (bs "a"); IComment (bs "c"); ICData (bs "b"); IElement (xn "e") [] [IWhitespace (bs " ")]; IText (bs "z") ] ].
Example C26_example :
  match parse_xml (XStartDocument :: flat_map events_of xml_items ++ [XEndDocument]) with
  | Ok d => (tree_nodes d, map (text_of d) [4; 6; 7])
  | _ => (Panic, [])
  end = (Ok [1; 2; 3; 4; 5; 6; 7], [bs "ab"; bs " "; bs "z"]) /\
  closes 0 [XStart (xn "a") []; XError] = true /\ closes 0 [XStart (xn "a") []; XEnd (xn "a"); XEnd (xn "b")] = false.
Proof. vm_compute. auto. Qed.

(** ** C27 *)
Theorem C27_merged_attributes : forall d kids i e attrs, in_forest d kids -> i < List.length (nodes d) ->
  data (node_at d i) = DElement e ->
  exists d' all, add_attrs_if_missing d i attrs = Ok d' /\ in_forest d' kids /\
    data_set d d' i (DElement (mkElement (e_name e) all (e_integration_point e))) /\
    (exists more, all = e_attrs e ++ more) /\
    forall a, In a all <-> In a (e_attrs e) \/ (In a attrs /\ forall b, In b (e_attrs e) -> a_name b <> a_name a).
Proof.
  intros d kids i e attrs Hf Hi De. unfold add_attrs_if_missing. rewrite index_ok by auto. cbn [bind]. rewrite De.
  match goal with |- context [set_data ?v] => destruct (set_data_ok d kids i v Hf Hi) as (d' & E & F & S) end.
  exists d', (merge_attrs (e_attrs e) attrs). split; [exact E|]. split; [exact F|]. split; [exact S|].
  split; [eexists; reflexivity|]. apply merge_spec.
Qed.
Theorem C27_lookup : forall e name v, get_attr e name = v <-> first_attr name (e_attrs e) v.
Proof. exact get_attr_first. Qed.
Theorem C27_lookup_kept : forall e attrs name v,
  get_attr e name = Some v ->
  get_attr (mkElement (e_name e) (merge_attrs (e_attrs e) attrs) (e_integration_point e)) name = Some v.
Proof.
  intros e attrs name v H. apply get_attr_first in H. apply get_attr_first. cbn [e_attrs]. unfold merge_attrs.
  remember (Some v) as o. induction H as [|a r H1 H2|a r w N H IH]; [discriminate| |].
  - apply fa_here; auto.
  - cbn [app]. apply fa_skip; [auto|].
    assert (G : forall x, first_attr name r (Some v) -> first_attr name (r ++ x) (Some v)).
    { clear. intro x. induction r as [|b r IH]; intro H; inversion H; subst; cbn [app]; [constructor; auto|apply fa_skip; auto]. }
    subst w. apply G. exact H.
Qed.
Example C27_example :
  map a_value (merge_attrs [at_ "a" "1"; at_ "b" "2"] [at_ "b" "3"; at_ "c" "4"]) = [bs "1"; bs "2"; bs "4"] /\
  get_attr (mkElement (h "p") [mkAttr (mkQual None (bs "ns") (bs "k")) (bs "1"); at_ "k" "2"; at_ "k" "3"] false) (bs "k") = Some (bs "2").
Proof. vm_compute. auto. Qed.

(** ** C38: style sheets *)
Theorem C38_style_elements : forall ops d, valid_ops document_new ops -> run_ops document_new ops = Ok d ->
  style_elements d = style_ids d /\
  exists kids ts, in_forest d kids /\ stylesheets d = Ok ts /\ css_texts d kids (style_ids d) ts.
Proof.
  intros ops d V E. destruct (run_ops_doc ops document_new _ document_new_doc V) as (d' & kids & E' & H).
  assert (d' = d) as -> by congruence.
  assert (S : style_elements d = style_ids d) by exact (run_styles ops document_new _ d document_new_doc V E eq_refl).
  split; [auto|]. unfold stylesheets. rewrite S.
  destruct (style_texts_ok d kids (style_ids d)) as (ts & Et & C); [apply H| |].
  - intros i I. apply filter_In in I as [I Hs]. apply in_seq in I. split; [lia|auto].
  - exists kids, ts. split; [apply H|]. auto.
Qed.
(** In XML documents style elements are not collected. *)
Theorem C38_xml_refuted : exists l d, parse_xml (XStartDocument :: flat_map events_of l ++ [XEndDocument]) = Ok d /\
  style_ids d <> [] /\ stylesheets d = Ok [].
Proof.
  exists [IElement (mkXName (bs "style") (Some ns_html) None) [] [IText (bs "a{}")]]. eexists.
  split; [vm_compute; reflexivity|]. split; [vm_compute; discriminate|vm_compute; reflexivity].
Qed.
Theorem C38_xml : forall l d, parse_xml (XStartDocument :: flat_map events_of l ++ [XEndDocument]) = Ok d ->
  stylesheets d = Ok [].
Proof.
  intros l d E. destruct (parse_xml_ok l) as (d' & kids & E' & _ & _ & _ & S). assert (d' = d) as -> by congruence.
  unfold stylesheets. rewrite S. reflexivity.
Qed.
Example C38_example : style_ids page = [4] /\ stylesheets page = Ok [[]] /\
  match run_ops document_new (firstn 8 page_ops) with Ok d => stylesheets d | _ => Panic end = Ok [bs "a{}b{}"].
Proof. vm_compute. auto. Qed.

(** ** C39: root element and links *)
Theorem C39_root_element : forall d kids l r x, doc_forest d kids -> kids document_node_id = l ++ x :: r ->
  is_element (data (node_at d x)) -> (forall y, In y (l ++ r) -> ignorable (data (node_at d y))) ->
  root_element d = Ok x.
Proof. exact root_element_ok. Qed.
Theorem C39_root_element_only : forall d kids x, doc_forest d kids -> root_element d = Ok x ->
  exists l r, kids document_node_id = l ++ x :: r /\ is_element (data (node_at d x)) /\
    forall y, In y (l ++ r) -> ignorable (data (node_at d y)).
Proof. exact root_element_only. Qed.
Theorem C39_text_at_the_top_panics : forall d kids x t, doc_forest d kids -> In x (kids document_node_id) ->
  data (node_at d x) = DText t -> root_element d = Panic.
Proof. exact root_text_panics. Qed.
Theorem C39_links : forall d kids, doc_forest d kids ->
  exists t r, root t = document_node_id /\ subtree kids t /\ html_link_elements d = Ok r /\ links_of d (preorder t) r.
Proof.
  intros d kids H. destruct (tree_nodes_ok d kids H) as (t & Rt & St & E & _ & An).
  destruct (link_elements_ok d (preorder t)) as (r & El & Lo).
  - intros i I. apply (preorder_reach kids t St) in I. eapply reach_bound; [apply H| |exact I]. rewrite Rt.
    destruct H as (_ & L & _). unfold document_node_id. lia.
  - exists t, r. split; [auto|]. split; [auto|]. split; [|auto]. unfold html_link_elements. rewrite E. exact El.
Qed.
Example C39_example : root_element page = Ok 3 /\ html_link_elements page = Ok [(bs "x", bs "y")] /\
  match parse_xml (flat_map events_of (IWhitespace (bs " ") :: xml_items)) with Ok d => root_element d | _ => Ok 0 end = Panic.
Proof. vm_compute. auto. Qed.

Print Assumptions C21_document_is_a_tree.
Print Assumptions C21_each_operation.
Print Assumptions C21_child_lists_unique.
Print Assumptions C22_detach.
Print Assumptions C22_append.
Print Assumptions C22_insert_before.
Print Assumptions C22_insert_before_itself_refuted.
Print Assumptions C23_document_order.
Print Assumptions C23_ancestors.
Print Assumptions C23_children.
Print Assumptions C24_append_text.
Print Assumptions C24_text_before_sibling.
Print Assumptions C24_text_based_on_parent.
Print Assumptions C24_text_spliced.
Print Assumptions C25_only_the_first_child_moves.
Print Assumptions C25_at_most_one_child.
Print Assumptions C25_reparent_refuted.
Print Assumptions C26_xml_mirrors_events.
Print Assumptions C26_any_events.
Print Assumptions C26_unmatched_end_panics.
Print Assumptions C27_merged_attributes.
Print Assumptions C27_lookup.
Print Assumptions C27_lookup_kept.
Print Assumptions C38_style_elements.
Print Assumptions C38_xml_refuted.
Print Assumptions C38_xml.
Print Assumptions C39_root_element.
Print Assumptions C39_root_element_only.
Print Assumptions C39_text_at_the_top_panics.
Print Assumptions C39_links.
