(** When two documents differ in comments and such only, and what matching a selector may depend on. *)
From Coq Require Import Permutation.
From Verif Require Import Base Dom DomSpec StyleSelectors StyleSelectorSpec StyleValues StyleProperties BoxTreeSpec WhiteSpec.

(** ** Documents that differ in comments, processing instructions, doctypes, in how text is cut into nodes, in runs of white space, in prefixes, in the order of attributes, and in hidden elements *)
(** The same attributes; in another order only if no two of those in no namespace have the same name *)
Definition plain_names (l : list attribute) : list bytes :=
  flat_map (fun a => match q_ns (a_name a) with [] => [q_local (a_name a)] | _ => [] end) l.
Definition same_attributes (l l' : list attribute) : Prop := l = l' \/ (Permutation l l' /\ NoDup (plain_names l)).
Section Two.
Variables (d d' : document) (kids kids' : nat -> list nat).
(** Elements of which it does not matter what is in them *)
Variable hidden : nat -> nat -> Prop.
Definition same (x x' : nat) : Prop :=
  exists e e', data (node_at d x) = DElement e /\ data (node_at d' x') = DElement e' /\
    q_ns (e_name e) = q_ns (e_name e') /\ q_local (e_name e) = q_local (e_name e') /\ same_attributes (e_attrs e) (e_attrs e').
Definition same_emptiness (x x' : nat) : Prop := no_content d (kids x) <-> no_content d' (kids' x').
(** Lists of nodes with what is below them: the same elements in the same order, each with the same name and attributes, and between
    them the same text but for how long runs of white space are; anything in hidden elements, but something in both or nothing in both *)
Inductive alike : list nat -> list nat -> Prop :=
| al_nil : alike [] []
| al_text : forall l l' r r', (forall x, In x l -> ~ is_element (data (node_at d x))) -> (forall x, In x l' -> ~ is_element (data (node_at d' x))) ->
    same_text (texts_of d l) (texts_of d' l') -> alike r r' -> alike (l ++ r) (l' ++ r')
| al_element : forall x x' r r', same x x' -> alike (kids x) (kids' x') -> alike r r' -> alike (x :: r) (x' :: r')
| al_hidden : forall x x' r r', same x x' -> hidden x x' -> same_emptiness x x' -> alike r r' -> alike (x :: r) (x' :: r').

(** The same element in both: the same number of elements before it among the children of the same element, or of the document *)
Definition inside (x x' : nat) : Prop := alike (kids x) (kids' x') \/ (hidden x x' /\ same_emptiness x x').
Definition placed (p p' x x' : nat) : Prop :=
  exists a b a' b', kids p = a ++ x :: b /\ kids' p' = a' ++ x' :: b' /\ alike a a' /\ alike b b' /\ same x x' /\ inside x x'.
Inductive twins : nat -> nat -> Prop :=
| tw_top : forall x x', placed document_node_id document_node_id x x' -> twins x x'
| tw_in : forall p p' x x', twins p p' -> placed p p' x x' -> twins x x'.
End Two.
(** Whole documents: from the document node down; not all of it is hidden *)
Definition elements_alike (hidden : nat -> nat -> Prop) (d d' : document) : Prop :=
  exists kids kids', doc_forest d kids /\ doc_forest d' kids' /\
    alike d d' kids kids' hidden (kids document_node_id) (kids' document_node_id) /\
    (forall x x', In x (kids document_node_id) -> ~ hidden x x').
(** … with the same style sheets *)
Definition documents_alike (hidden : nat -> nat -> Prop) (d d' : document) : Prop :=
  elements_alike hidden d d' /\ stylesheets d = stylesheets d'.
(** No element is hidden: the documents differ in comments and such only *)
Definition none_hidden (x x' : nat) : Prop := False.

(** ** Matching a selector through the [Element] interface *)
(** One that is asked for elements near the ones it has got … *)
Inductive move := ToParent | ToPrevious | ToNext.
Definition moved (d : document) (m : move) (x : nat) : result (option nat) :=
  match m with ToParent => parent_element d x | ToPrevious => prev_sibling_element d x | ToNext => next_sibling_element d x end.
(** … and about them *)
Inductive question :=
| QAttribute (ns : option bytes) (name : bytes) (operation : bytes -> bool)
| QLink | QId (id : bytes) (c : case_sensitivity) | QClass (class : bytes) (c : case_sensitivity) | QEmpty | QRoot.
Definition answered (d : document) (q : question) (x : nat) : result bool :=
  match q with
  | QAttribute ns name operation => attr_matches d x ns name operation
  | QLink => is_link d x
  | QId id c => has_id d x id c
  | QClass class c => has_class d x class c
  | QEmpty => is_empty d x
  | QRoot => is_root d x
  end.
(** Any program that sees the document through this only.  It has the elements got so far, by number. *)
Inductive instruction (state : Type) :=
| Answer (b : bool)
| Go (m : move) (i : nat) (found none : state)
| Ask (q : question) (i : nat) (next : bool -> state)
| AskName (i : nat) (next : bytes -> bytes -> state)
| AskSame (i j : nat) (next : bool -> state).
Arguments Answer {state}. Arguments Go {state}. Arguments Ask {state}. Arguments AskName {state}. Arguments AskSame {state}.
Inductive runs {state : Type} (step : state -> instruction state) (d : document) : state -> list nat -> bool -> Prop :=
| rn_answer : forall s xs b, step s = Answer b -> runs step d s xs b
| rn_found : forall s xs m i found none x y b, step s = Go m i found none -> nth_error xs i = Some x -> moved d m x = Ok (Some y) ->
    runs step d found (xs ++ [y]) b -> runs step d s xs b
| rn_none : forall s xs m i found none x b, step s = Go m i found none -> nth_error xs i = Some x -> moved d m x = Ok None ->
    runs step d none xs b -> runs step d s xs b
| rn_ask : forall s xs q i next x a b, step s = Ask q i next -> nth_error xs i = Some x -> answered d q x = Ok a ->
    runs step d (next a) xs b -> runs step d s xs b
| rn_name : forall s xs i next x l n b, step s = AskName i next -> nth_error xs i = Some x -> local_name d x = Ok l -> namespace d x = Ok n ->
    runs step d (next l n) xs b -> runs step d s xs b
| rn_same : forall s xs i j next x y a b, step s = AskSame i j next -> nth_error xs i = Some x -> nth_error xs j = Some y ->
    (a = true <-> x = y) -> runs step d (next a) xs b -> runs step d s xs b.
(** Matching is such a program, one for each selector. *)
Definition through_interface {selector : Type} (matches : selector -> document -> nat -> bool) : Prop :=
  exists (state : Type) (step : state -> instruction state) (start : selector -> state),
    forall sel d kids x, doc_forest d kids -> is_element (data (node_at d x)) ->
      runs step d (start sel) [x] (matches sel d x).
