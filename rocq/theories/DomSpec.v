(** Ordered forests: what the links of a document mean. *)
From Verif Require Import Base Dom.
From Coq Require Import Relations.

(** Total access: a blank node beyond the end *)
Definition node_at (d : document) (i : nat) : node := nth i (nodes d) (node_new DDocument).

(** [kids p] is the ordered list of children of [p].  The links say exactly that, and descending
    ends. *)
Definition child_of (kids : nat -> list nat) (c p : nat) : Prop := In c (kids p).
Definition in_forest (d : document) (kids : nat -> list nat) : Prop :=
  (forall p, NoDup (kids p)) /\
  (forall p, first_child (node_at d p) = hd_error (kids p) /\ last_child (node_at d p) = hd_error (rev (kids p))) /\
  (forall p c, child_of kids c p <-> parent (node_at d c) = Some p) /\
  (forall p l c r, kids p = l ++ c :: r ->
     previous_sibling (node_at d c) = hd_error (rev l) /\ next_sibling (node_at d c) = hd_error r) /\
  (forall c, parent (node_at d c) = None ->
     previous_sibling (node_at d c) = None /\ next_sibling (node_at d c) = None) /\
  well_founded (child_of kids).

(** [a] is [b] or an ancestor of it, by parent links. *)
Inductive inclusive_ancestor (d : document) (a : nat) : nat -> Prop :=
| ia_self : inclusive_ancestor d a a
| ia_up : forall b p, parent (node_at d b) = Some p -> inclusive_ancestor d a p -> inclusive_ancestor d a b.

(** A node the parser may name: neither the dummy nor out of range *)
Definition exists_node (d : document) (i : nat) : Prop := 0 < i < List.length (nodes d).
(** A node that may be moved below [p] *)
Definition movable (d : document) (c p : nat) : Prop :=
  exists_node d c /\ c <> document_node_id /\ ~ inclusive_ancestor d c p.

(** What html5ever promises about its calls: it names existing nodes, never inserts a node into
    itself or its descendants, never moves the document node, and inserts only before nodes
    that have a parent. *)
Definition valid_append (d : document) (p : nat) (child : node_or_text) : Prop :=
  exists_node d p /\ match child with AppendNode c => movable d c p | AppendText _ => True end.
Definition valid_insert (d : document) (s : nat) (child : node_or_text) : Prop :=
  exists_node d s /\
  exists p, parent (node_at d s) = Some p /\
    match child with AppendNode c => movable d c p /\ c <> s | AppendText _ => True end.
Definition valid_op (d : document) (o : sink_op) : Prop :=
  match o with
  | CreateElement _ _ _ | CreateComment _ | CreatePi _ _ | AppendDoctype _ _ _ => True
  | Append p c => valid_append d p c
  | AppendBeforeSibling s c => valid_insert d s c
  | AppendBasedOnParentNode e p c =>
      exists_node d e /\
      (parent (node_at d e) = None -> valid_append d p c) /\
      (parent (node_at d e) <> None -> valid_insert d e c)
  | AddAttrsIfMissing t _ => exists_node d t /\ exists e, data (node_at d t) = DElement e
  | RemoveFromParent t => exists_node d t
  | ReparentChildren i p =>
      exists_node d i /\ exists_node d p /\
      forall c, parent (node_at d c) = Some i -> ~ inclusive_ancestor d c p
  end.
(** Every call is valid in the state it is made in. *)
Inductive valid_ops (d : document) : list sink_op -> Prop :=
| vo_nil : valid_ops d []
| vo_cons : forall o r, valid_op d o -> (forall d', do_op d o = Ok d' -> valid_ops d' r) -> valid_ops d (o :: r).

(** Child lists after the DOM operations *)
Definition without (c : nat) (l : list nat) : list nat := filter (fun x => negb (x =? c)) l.
Fixpoint before (s c : nat) (l : list nat) : list nat :=
  match l with
  | [] => []
  | x :: r => if x =? s then c :: x :: r else x :: before s c r
  end.
Definition detached (c : nat) (kids : nat -> list nat) (p : nat) : list nat := without c (kids p).
Definition appended (p c : nat) (kids : nat -> list nat) (q : nat) : list nat :=
  if q =? p then without c (kids q) ++ [c] else without c (kids q).
Definition inserted (s c : nat) (kids : nat -> list nat) (q : nat) : list nat :=
  before s c (without c (kids q)).

(** Same data in the old nodes, same number of nodes, same style elements *)
Definition same_data (d d' : document) : Prop :=
  map data (nodes d') = map data (nodes d) /\ style_elements d' = style_elements d.

(** ** Trees *)
Inductive tree := T (i : nat) (ts : list tree).
Definition root (t : tree) : nat := let (i, _) := t in i.
Fixpoint preorder (t : tree) : list nat := let (i, ts) := t in i :: flat_map preorder ts.
(** [t] is the subtree given by the child lists. *)
Inductive subtree (kids : nat -> list nat) : tree -> Prop :=
| st : forall i ts, kids i = map root ts -> Forall (subtree kids) ts -> subtree kids (T i ts).

(** The document as built by the parser: a forest in which the dummy node 0 has no part and node
    1 is the document node, at the top. *)
Definition doc_forest (d : document) (kids : nat -> list nat) : Prop :=
  in_forest d kids /\ 2 <= List.length (nodes d) /\
  (forall q, ~ In 0 (kids q)) /\ (forall q, ~ In document_node_id (kids q)) /\ kids 0 = [] /\
  data (node_at d document_node_id) = DDocument.

(** The same in terms of links only *)
Fixpoint siblings_from (d : document) (o : option nat) (l : list nat) : Prop :=
  match l with
  | [] => o = None
  | c :: r => o = Some c /\ siblings_from d (next_sibling (node_at d c)) r
  end.
Definition well_linked (d : document) : Prop :=
  (forall a b, next_sibling (node_at d a) = Some b <-> previous_sibling (node_at d b) = Some a) /\
  (forall a b, next_sibling (node_at d a) = Some b -> parent (node_at d a) = parent (node_at d b)) /\
  (forall p, exists l, siblings_from d (first_child (node_at d p)) l /\ NoDup l /\
     last_child (node_at d p) = hd_error (rev l) /\
     forall c, In c l <-> parent (node_at d c) = Some p) /\
  (forall a p, parent (node_at d a) = Some p -> ~ inclusive_ancestor d a p) /\
  (forall a, parent (node_at d a) = None -> previous_sibling (node_at d a) = None /\ next_sibling (node_at d a) = None).

(** Text of one node, of a list of nodes *)
Definition text_of (d : document) (i : nat) : bytes := match data (node_at d i) with DText t => t | _ => [] end.
Definition texts_of (d : document) (l : list nat) : bytes := flat_map (text_of d) l.
Definition is_text (d : document) (i : nat) : Prop := exists t, data (node_at d i) = DText t.

(** ** Attributes *)
(** The value of the first attribute named [name] in no namespace *)
Inductive first_attr (name : bytes) : list attribute -> option bytes -> Prop :=
| fa_none : first_attr name [] None
| fa_here : forall a r, q_ns (a_name a) = [] -> q_local (a_name a) = name -> first_attr name (a :: r) (Some (a_value a))
| fa_skip : forall a r v, ~ (q_ns (a_name a) = [] /\ q_local (a_name a) = name) -> first_attr name r v ->
    first_attr name (a :: r) v.

(** ** Ancestors: from the node to the top *)
Inductive up (d : document) : nat -> list nat -> Prop :=
| up_top : forall i, parent (node_at d i) = None -> up d i [i]
| up_step : forall i p l, parent (node_at d i) = Some p -> up d p l -> up d i (i :: l).

(** ** Style and link elements *)
Definition html_style (x : node_data) : bool :=
  match x with DElement e => is_html (e_name e) (bs "style") | _ => false end.
(** All style elements created so far, in the order of creation *)
Definition style_ids (d : document) : list nat :=
  filter (fun i => html_style (data (node_at d i))) (seq 0 (List.length (nodes d))).
(** Its [type] attribute, if any, says CSS *)
Definition css_type (x : node_data) : Prop :=
  match x with
  | DElement e => forall v, first_attr (bs "type") (e_attrs e) (Some v) -> eq_ignore_ascii_case v (bs "text/css") = true
  | _ => False
  end.
(** The texts of those among [l] that are CSS *)
Inductive css_texts (d : document) (kids : nat -> list nat) : list nat -> list bytes -> Prop :=
| ct_nil : css_texts d kids [] []
| ct_css : forall i l r, css_type (data (node_at d i)) -> css_texts d kids l r ->
    css_texts d kids (i :: l) (texts_of d (kids i) :: r)
| ct_other : forall i l r, ~ css_type (data (node_at d i)) -> css_texts d kids l r -> css_texts d kids (i :: l) r.
(** [rel] and [href] of the link elements among [l] *)
Inductive links_of (d : document) : list nat -> list (bytes * bytes) -> Prop :=
| lo_nil : links_of d [] []
| lo_link : forall i l r e rel href, data (node_at d i) = DElement e ->
    q_ns (e_name e) = ns_html -> q_local (e_name e) = bs "link" ->
    first_attr (bs "rel") (e_attrs e) (Some rel) -> first_attr (bs "href") (e_attrs e) (Some href) ->
    links_of d l r -> links_of d (i :: l) ((rel, href) :: r)
| lo_skip : forall i l r,
    (forall e rel href, data (node_at d i) = DElement e -> q_ns (e_name e) = ns_html -> q_local (e_name e) = bs "link" ->
       first_attr (bs "rel") (e_attrs e) (Some rel) -> first_attr (bs "href") (e_attrs e) (Some href) -> False) ->
    links_of d l r -> links_of d (i :: l) r.

(** ** Insertions *)
(** Adding a fresh node at a place *)
Definition with_new (p n : nat) (l r : list nat) (kids : nat -> list nat) (q : nat) : list nat :=
  if q =? p then l ++ n :: r else kids q.

(** The data of [x] is now [v]; nothing else changed. *)
Definition data_set (d d' : document) (x : nat) (v : node_data) : Prop :=
  List.length (nodes d') = List.length (nodes d) /\ style_elements d' = style_elements d /\
  forall j, data (node_at d' j) = if j =? x then v else data (node_at d j).

(** Text put between [l] and [r] among the children of [p] *)
Definition text_put (d d' : document) (kids : nat -> list nat) (p : nat) (l r : list nat) (text : bytes) : Prop :=
  (exists k x t, l = k ++ [x] /\ data (node_at d x) = DText t /\ in_forest d' kids /\ data_set d d' x (DText (t ++ text))) \/
  ((forall k x, l = k ++ [x] -> ~ is_text d x) /\
   in_forest d' (with_new p (List.length (nodes d)) l r kids) /\
   map data (nodes d') = map data (nodes d) ++ [DText text] /\ style_elements d' = style_elements d).

(** ** Children of the document node *)
Definition ignorable (x : node_data) : Prop :=
  match x with DDoctype _ _ _ | DComment _ | DProcessingInstruction _ _ => True | _ => False end.
Definition is_element (x : node_data) : Prop := match x with DElement _ => True | _ => False end.
