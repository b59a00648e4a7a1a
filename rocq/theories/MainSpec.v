(** What is expected of html5ever and of style sheets, to say what the program does. *)
From Coq Require Import QArith.
From Verif Require Import Base Dom DomSpec StyleValues StyleProperties StyleCascade StyleSpec StyleElementSpec BoxTree BoxTreeSpec.
Local Open Scope nat_scope.

(** The text that a call brings into the document *)
Definition given_text (o : sink_op) : list bytes :=
  match o with
  | Append _ (AppendText t) => [t]
  | AppendBeforeSibling _ (AppendText t) => [t]
  | AppendBasedOnParentNode _ _ (AppendText t) => [t]
  | _ => []
  end.
(** The calls for one document, as html5ever makes them: valid in the sense of DomSpec.v, with UTF-8 in all texts, and in the end
    the document node has one element, and comments and such. *)
Definition html5ever_calls (ops : list sink_op) : Prop :=
  valid_ops document_new ops /\
  (forall o t, In o ops -> In t (given_text o) -> exists cs, encodes t cs) /\
  forall d kids, run_ops document_new ops = Ok d -> in_forest d kids ->
    exists l x r, kids document_node_id = l ++ x :: r /\ is_element (data (node_at d x)) /\
      forall y, In y (l ++ r) -> ignorable (data (node_at d y)).

(** No declaration in a style sheet is a value followed by something else … *)
Definition clean_sheet {selector} (pc : parser color) (css : list (source_rule selector)) : Prop :=
  forall sels body i, In (StyleRule sels body) css -> In i body -> ~ trailing pc i.
(** … nor in a style attribute that counts. *)
Definition clean_attributes (pc : parser color) (items_of : bytes -> list StyleCascade.item) (d : document) : Prop :=
  forall n e v i, data (node_at d n) = DElement e -> counts (q_ns (e_name e)) -> first_attr (bs "style") (e_attrs e) (Some v) ->
    In i (items_of v) -> ~ trailing pc i.
