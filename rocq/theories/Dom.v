(** Model of victor/src/dom/mod.rs and of the tree sink in dom/html.rs.
    A [NodeId] is the index into [nodes] (a [NonZeroUsize] in the code: index 0 is a dummy).
    Index out of bounds and failing assertions, including [debug_assert!], are [Panic].
    Strings are byte strings.  [ElementData::layout_data] is not modelled here. *)
From Verif Require Import Base.
Local Open Scope res_scope.

(** html5ever's [QualName] and mod.rs:246-251 *)
Record qual_name : Type := mkQual { q_prefix : option bytes; q_ns : bytes; q_local : bytes }.
(** mod.rs:246-251; [From] html5ever's (html.rs:211-218) keeps both fields *)
Record attribute : Type := mkAttr { a_name : qual_name; a_value : bytes }.
(** mod.rs:239-244 *)
Record element_data : Type := mkElement {
  e_name : qual_name; e_attrs : list attribute; e_integration_point : bool }.
(** mod.rs:219-237 *)
Inductive node_data : Type :=
| DDocument
| DDoctype (name public_id system_id : bytes)
| DText (contents : bytes)
| DComment (contents : bytes)
| DElement (e : element_data)
| DProcessingInstruction (target contents : bytes).
(** mod.rs:28-29 *)
Notation node_id := nat (only parsing).
(** mod.rs:19-26 *)
Record node : Type := mkNode {
  parent : option node_id;
  next_sibling : option node_id;
  previous_sibling : option node_id;
  first_child : option node_id;
  last_child : option node_id;
  data : node_data }.
(** mod.rs:14-17 *)
Record document : Type := mkDoc { nodes : list node; style_elements : list node_id }.

(** No function here returns an error. *)
Notation result := (res Empty_set).

(** mod.rs:291-300 *)
Definition node_new (x : node_data) : node := mkNode None None None None None x.
(** mod.rs:32-41 *)
Definition document_new : document := mkDoc [node_new DDocument; node_new DDocument] [].
(** mod.rs:43-45 *)
Definition document_node_id : node_id := 1.

(** mod.rs:203-210 *)
Definition index (d : document) (i : node_id) : result node :=
  match nth_error (nodes d) i with Some n => Ok n | None => Panic end.
(** Assignment through mod.rs:212-217 *)
Fixpoint update {A} (i : nat) (f : A -> A) (l : list A) : list A :=
  match l, i with
  | [], _ => []
  | x :: r, O => f x :: r
  | x :: r, S i => x :: update i f r
  end.
(** mod.rs:212-217 [IndexMut], and what is done with the reference *)
Definition modify (d : document) (i : node_id) (f : node -> node) : result document :=
  match nth_error (nodes d) i with
  | Some _ => Ok (mkDoc (update i f (nodes d)) (style_elements d))
  | None => Panic
  end.
(** Assignment to the field [parent] (mod.rs:20) *)
Definition set_parent v n := mkNode v (next_sibling n) (previous_sibling n) (first_child n) (last_child n) (data n).
(** Assignment to the field [next_sibling] (mod.rs:21) *)
Definition set_next v n := mkNode (parent n) v (previous_sibling n) (first_child n) (last_child n) (data n).
(** Assignment to the field [previous_sibling] (mod.rs:22) *)
Definition set_previous v n := mkNode (parent n) (next_sibling n) v (first_child n) (last_child n) (data n).
(** Assignment to the field [first_child] (mod.rs:23) *)
Definition set_first v n := mkNode (parent n) (next_sibling n) (previous_sibling n) v (last_child n) (data n).
(** Assignment to the field [last_child] (mod.rs:24) *)
Definition set_last v n := mkNode (parent n) (next_sibling n) (previous_sibling n) (first_child n) v (data n).
(** Assignment to the field [data] (mod.rs:25) *)
Definition set_data v n := mkNode (parent n) (next_sibling n) (previous_sibling n) (first_child n) (last_child n) v.

(** [assert!] and [debug_assert!], as at mod.rs:80-83, 136 and 139 *)
Definition assert (b : bool) : result unit := if b then Ok tt else Panic.
(** [Option::is_none], as at mod.rs:81-83 *)
Definition is_none {A} (o : option A) : bool := match o with None => true | Some _ => false end.
(** Comparison with [Some(id)], as at mod.rs:151 and 154 *)
Definition is_id (o : option node_id) (i : node_id) : bool := match o with Some j => j =? i | None => false end.

(** mod.rs:102-106 *)
Definition push_node (d : document) (n : node) : document * node_id :=
  (mkDoc (nodes d ++ [n]) (style_elements d), List.length (nodes d)).

(** mod.rs:108-129 *)
Definition detach (d : document) (i : node_id) : result document :=
  n <- index d i ;;
  let p := parent n in let prev := previous_sibling n in let next := next_sibling n in
  d <- modify d i (fun n => set_next None (set_previous None (set_parent None n))) ;;
  d <- match next with
       | Some x => modify d x (set_previous prev)
       | None => match p with Some p => modify d p (set_last prev) | None => Ok d end
       end ;;
  match prev with
  | Some y => modify d y (set_next next)
  | None => match p with Some p => modify d p (set_first next) | None => Ok d end
  end.

(** mod.rs:131-143 *)
Definition append (d : document) (p c : node_id) : result document :=
  d <- detach d c ;;
  d <- modify d c (set_parent (Some p)) ;;
  np <- index d p ;;
  d <- modify d p (set_last None) ;;
  d <- match last_child np with
       | Some lc =>
           d <- modify d c (set_previous (Some lc)) ;;
           nl <- index d lc ;;
           _ <- assert (is_none (next_sibling nl)) ;;
           modify d lc (set_next (Some c))
       | None =>
           np <- index d p ;;
           _ <- assert (is_none (first_child np)) ;;
           modify d p (set_first (Some c))
       end ;;
  modify d p (set_last (Some c)).

(** mod.rs:145-158 *)
Definition insert_before (d : document) (s c : node_id) : result document :=
  d <- detach d c ;;
  ns <- index d s ;;
  d <- modify d c (set_parent (parent ns)) ;;
  d <- modify d c (set_next (Some s)) ;;
  ns <- index d s ;;
  d <- modify d s (set_previous None) ;;
  d <- match previous_sibling ns with
       | Some y =>
           d <- modify d c (set_previous (Some y)) ;;
           ny <- index d y ;;
           _ <- assert (is_id (next_sibling ny) s) ;;
           modify d y (set_next (Some c))
       | None =>
           match parent ns with
           | Some p =>
               np <- index d p ;;
               _ <- assert (is_id (first_child np) s) ;;
               modify d p (set_first (Some c))
           | None => Ok d
           end
       end ;;
  modify d s (set_previous (Some c)).

(** ** Reading *)
(** mod.rs:277-289 *)
Definition as_element (n : node) : option element_data := match data n with DElement e => Some e | _ => None end.
(** mod.rs:284-289 *)
Definition as_text (n : node) : option bytes := match data n with DText t => Some t | _ => None end.

(** [successors(Some(node), next)]: the fuel bounds the number of items; running out is
    [Panic] (in the code an endless loop).  mod.rs:180 and 187 *)
Fixpoint successors (fuel : nat) (d : document) (next : node -> option node_id) (o : option node_id) :
    result (list node_id) :=
  match o with
  | None => Ok []
  | Some i =>
      match fuel with
      | O => Panic
      | S fuel =>
          n <- index d i ;;
          r <- successors fuel d next (next n) ;;
          Ok (i :: r)
      end
  end.
(** mod.rs:176-181 *)
Definition node_and_following_siblings (d : document) (i : node_id) : result (list node_id) :=
  successors (List.length (nodes d)) d next_sibling (Some i).
(** mod.rs:183-188 *)
Definition node_and_ancestors (d : document) (i : node_id) : result (list node_id) :=
  successors (List.length (nodes d)) d parent (Some i).
(** [find_map] in mod.rs:192-193 *)
Fixpoint find_next (d : document) (l : list node_id) : result (option node_id) :=
  match l with
  | [] => Ok None
  | a :: r =>
      n <- index d a ;;
      match next_sibling n with
      | Some x => Ok (Some x)
      | None => find_next d r
      end
  end.
(** mod.rs:190-195 *)
Definition next_in_tree_order (d : document) (i : node_id) : result (option node_id) :=
  n <- index d i ;;
  match first_child n with
  | Some c => Ok (Some c)
  | None => l <- node_and_ancestors d i ;; find_next d l
  end.
(** mod.rs:197-200 *)
Fixpoint walk_tree (fuel : nat) (d : document) (o : option node_id) : result (list node_id) :=
  match o with
  | None => Ok []
  | Some i =>
      match fuel with
      | O => Panic
      | S fuel =>
          next <- next_in_tree_order d i ;;
          r <- walk_tree fuel d next ;;
          Ok (i :: r)
      end
  end.
(** mod.rs:197-200 *)
Definition tree_nodes (d : document) : result (list node_id) :=
  walk_tree (List.length (nodes d)) d (Some document_node_id).

(** mod.rs:160-174 *)
Fixpoint child_text_loop (fuel : nat) (d : document) (link : option node_id) (text : bytes) : result bytes :=
  match link with
  | None => Ok text
  | Some c =>
      match fuel with
      | O => Panic
      | S fuel =>
          n <- index d c ;;
          child_text_loop fuel d (next_sibling n)
            (match as_text n with Some t => text ++ t | None => text end)
      end
  end.
(** mod.rs:161-174 *)
Definition child_text_content (d : document) (i : node_id) : result bytes :=
  n <- index d i ;;
  child_text_loop (List.length (nodes d)) d (first_child n) [].

(** [==] of strings, as at mod.rs:257 *)
Definition bytes_eqb : bytes -> bytes -> bool := fun a b => if list_eq_dec N.eq_dec a b then true else false.
(** [==] of the prefixes of two [QualName]s (html.rs:193) *)
Definition option_bytes_eqb (a b : option bytes) : bool :=
  match a, b with Some a, Some b => bytes_eqb a b | None, None => true | _, _ => false end.
(** Derived equality of [QualName] (html.rs:193) *)
Definition qual_eqb (a b : qual_name) : bool :=
  option_bytes_eqb (q_prefix a) (q_prefix b) && bytes_eqb (q_ns a) (q_ns b) && bytes_eqb (q_local a) (q_local b).
(** [expanded_name!(html "…")] comparisons: namespace and local name (mod.rs:66, html.rs:109) *)
Definition ns_html : bytes := bs "http://www.w3.org/1999/xhtml".
(** mod.rs:66, html.rs:109 *)
Definition is_html (n : qual_name) (l : bytes) : bool := bytes_eqb (q_ns n) ns_html && bytes_eqb (q_local n) l.
(** mod.rs:254-259 *)
Definition get_attr (e : element_data) (name : bytes) : option bytes :=
  match find (fun a => bytes_eqb (q_ns (a_name a)) [] && bytes_eqb (q_local (a_name a)) name) (e_attrs e) with
  | Some a => Some (a_value a)
  | None => None
  end.

(** mod.rs:47-60: the texts passed to [add_stylesheet], in order *)
Definition lower (b : N) : N := if ((65 <=? b) && (b <=? 90))%N then (b + 32)%N else b.
(** [str::eq_ignore_ascii_case] at mod.rs:53 *)
Definition eq_ignore_ascii_case (a b : bytes) : bool := bytes_eqb (map lower a) (map lower b).
(** mod.rs:49-58, the loop *)
Fixpoint style_texts (d : document) (ids : list node_id) : result (list bytes) :=
  match ids with
  | [] => Ok []
  | i :: r =>
      n <- index d i ;;
      match as_element n with
      | None => Panic
      | Some e =>
          if match get_attr e (bs "type") with Some t => negb (eq_ignore_ascii_case t (bs "text/css")) | None => false end
          then style_texts d r
          else t <- child_text_content d i ;; ts <- style_texts d r ;; Ok (t :: ts)
      end
  end.
(** mod.rs:47-60 *)
Definition stylesheets (d : document) : result (list bytes) := style_texts d (style_elements d).

(** mod.rs:62-76 *)
Fixpoint link_elements (d : document) (ids : list node_id) : result (list (bytes * bytes)) :=
  match ids with
  | [] => Ok []
  | i :: r =>
      n <- index d i ;;
      l <- link_elements d r ;;
      Ok (match as_element n with
          | Some e =>
              if is_html (e_name e) (bs "link") then
                match get_attr e (bs "rel"), get_attr e (bs "href") with
                | Some rel, Some href => (rel, href) :: l
                | _, _ => l
                end
              else l
          | None => l
          end)
  end.
(** mod.rs:63-76 *)
Definition html_link_elements (d : document) : result (list (bytes * bytes)) :=
  ids <- tree_nodes d ;; link_elements d ids.

(** mod.rs:78-100 *)
Fixpoint find_root (d : document) (ids : list node_id) (root : option node_id) : result (option node_id) :=
  match ids with
  | [] => Ok root
  | c :: r =>
      n <- index d c ;;
      match data n with
      | DDoctype _ _ _ | DComment _ | DProcessingInstruction _ _ => find_root d r root
      | DDocument | DText _ => Panic
      | DElement _ => _ <- assert (is_none root) ;; find_root d r (Some c)
      end
  end.
(** mod.rs:78-100 *)
Definition root_element (d : document) : result node_id :=
  n <- index d document_node_id ;;
  _ <- assert (match data n with DDocument => true | _ => false end) ;;
  _ <- assert (is_none (parent n)) ;;
  _ <- assert (is_none (next_sibling n)) ;;
  _ <- assert (is_none (previous_sibling n)) ;;
  match first_child n with
  | None => Panic
  | Some f =>
      ids <- node_and_following_siblings d f ;;
      root <- find_root d ids None ;;
      match root with Some r => Ok r | None => Panic end
  end.

(** ** The tree sink (html.rs:20-209)
    [quirks_mode] is stored but never read: left out. *)
Inductive node_or_text := AppendNode (n : node_id) | AppendText (text : bytes).

(** html.rs:26-28 *)
Definition new_node (d : document) (x : node_data) : document * node_id := push_node d (node_new x).

(** html.rs:30-56 *)
Definition append_common (d : document) (child : node_or_text) (previous : document -> result (option node_id))
    (app : document -> node_id -> result document) : result document :=
  match child with
  | AppendText text =>
      prev <- previous d ;;
      let fresh := let (d, i) := new_node d (DText text) in app d i in
      match prev with
      | Some i =>
          n <- index d i ;;
          match data n with
          | DText contents => modify d i (set_data (DText (contents ++ text)))
          | _ => fresh
          end
      | None => fresh
      end
  | AppendNode n => app d n
  end.

(** html.rs:100-120 *)
Definition create_element (d : document) (name : qual_name) (attrs : list attribute) (flag : bool) :
    document * node_id :=
  let (d, i) := new_node d (DElement (mkElement name attrs flag)) in
  (if is_html name (bs "style") then mkDoc (nodes d) (style_elements d ++ [i]) else d, i).
(** html.rs:122-133 *)
Definition create_comment (d : document) (text : bytes) : document * node_id := new_node d (DComment text).
(** html.rs:128-133 *)
Definition create_pi (d : document) (target x : bytes) : document * node_id := new_node d (DProcessingInstruction target x).
(** html.rs:135-141 *)
Definition sink_append (d : document) (p : node_id) (child : node_or_text) : result document :=
  append_common d child (fun d => n <- index d p ;; Ok (last_child n)) (fun d n => append d p n).
(** html.rs:143-149 *)
Definition append_before_sibling (d : document) (s : node_id) (child : node_or_text) : result document :=
  append_common d child (fun d => n <- index d s ;; Ok (previous_sibling n)) (fun d n => insert_before d s n).
(** html.rs:151-162 *)
Definition append_based_on_parent_node (d : document) (element prev_element : node_id) (child : node_or_text) :
    result document :=
  n <- index d element ;;
  if is_none (parent n) then sink_append d prev_element child else append_before_sibling d element child.
(** html.rs:164-176 *)
Definition append_doctype_to_document (d : document) (name public_id system_id : bytes) : result document :=
  let (d, i) := new_node d (DDoctype name public_id system_id) in append d document_node_id i.
(** html.rs:178-195 *)
Definition merge_attrs (old new : list attribute) : list attribute :=
  old ++ filter (fun a => negb (existsb (fun e => qual_eqb (a_name e) (a_name a)) old)) new.
(** html.rs:178-195 *)
Definition add_attrs_if_missing (d : document) (target : node_id) (attrs : list attribute) : result document :=
  n <- index d target ;;
  match data n with
  | DElement e =>
      modify d target (set_data (DElement (mkElement (e_name e) (merge_attrs (e_attrs e) attrs) (e_integration_point e))))
  | _ => Panic
  end.
(** html.rs:197-199 *)
Definition remove_from_parent (d : document) (target : node_id) : result document := detach d target.
(** html.rs:201-208 *)
Fixpoint reparent_loop (fuel : nat) (d : document) (i new_parent : node_id) (next_child : option node_id) :
    result document :=
  match next_child with
  | None => Ok d
  | Some c =>
      match fuel with
      | O => Panic
      | S fuel =>
          n <- index d c ;;
          _ <- assert (is_id (parent n) i) ;;
          d <- append d new_parent c ;;
          n <- index d c ;;
          reparent_loop fuel d i new_parent (next_sibling n)
      end
  end.
(** html.rs:201-208 *)
Definition reparent_children (d : document) (i new_parent : node_id) : result document :=
  n <- index d i ;;
  reparent_loop (List.length (nodes d)) d i new_parent (first_child n).

(** The calls html5ever makes on the sink; creating calls return the next free [NodeId].  html.rs:100-208; the other ones (html.rs:63-98) change nothing but the quirks mode. *)
Inductive sink_op :=
| CreateElement (name : qual_name) (attrs : list attribute) (flag : bool)
| CreateComment (text : bytes)
| CreatePi (target x : bytes)
| Append (p : node_id) (child : node_or_text)
| AppendBeforeSibling (s : node_id) (child : node_or_text)
| AppendBasedOnParentNode (element prev_element : node_id) (child : node_or_text)
| AppendDoctype (name public_id system_id : bytes)
| AddAttrsIfMissing (target : node_id) (attrs : list attribute)
| RemoveFromParent (target : node_id)
| ReparentChildren (i new_parent : node_id).
(** One call: html.rs:100-208 *)
Definition do_op (d : document) (o : sink_op) : result document :=
  match o with
  | CreateElement n a f => Ok (fst (create_element d n a f))
  | CreateComment t => Ok (fst (create_comment d t))
  | CreatePi t x => Ok (fst (create_pi d t x))
  | Append p c => sink_append d p c
  | AppendBeforeSibling s c => append_before_sibling d s c
  | AppendBasedOnParentNode e p c => append_based_on_parent_node d e p c
  | AppendDoctype n p s => append_doctype_to_document d n p s
  | AddAttrsIfMissing t a => add_attrs_if_missing d t a
  | RemoveFromParent t => remove_from_parent d t
  | ReparentChildren i p => reparent_children d i p
  end.
(** The calls made for a document: html.rs:14-16 *)
Fixpoint run_ops (d : document) (ops : list sink_op) : result document :=
  match ops with
  | [] => Ok d
  | o :: r => d <- do_op d o ;; run_ops d r
  end.
