(** When the calls of an HTML parser differ in nothing that should show *)
From Coq Require Import Permutation.
From Verif Require Import Base Dom WhiteSpec AlikeSpec.

(** The attributes of a start tag as an HTML parser gives them: no two of the same name, and a prefix only with a namespace *)
Definition tag_attributes (l : list attribute) : Prop :=
  NoDup (plain_names l) /\ forall a, In a l -> q_ns (a_name a) = [] -> q_prefix (a_name a) = None.
Section Calls.
(** When two texts count as the same *)
Variable same : list N -> list N -> Prop.
(** A node or a text given to the tree *)
Inductive given_alike : node_or_text -> node_or_text -> Prop :=
| ga_node : forall i, given_alike (AppendNode i) (AppendNode i)
| ga_text : forall t t', same t t' -> given_alike (AppendText t) (AppendText t').
(** The same call but for the order of attributes, the prefix of the name of an element, the mark of MathML integration points, and what is
    written in comments, processing instructions and doctypes *)
Inductive call_alike : sink_op -> sink_op -> Prop :=
| ca_element : forall p p' ns local l l' flag flag', Permutation l l' -> tag_attributes l ->
    call_alike (CreateElement (mkQual p ns local) l flag) (CreateElement (mkQual p' ns local) l' flag')
| ca_comment : forall t t', call_alike (CreateComment t) (CreateComment t')
| ca_pi : forall t x t' x', call_alike (CreatePi t x) (CreatePi t' x')
| ca_doctype : forall n p s n' p' s', call_alike (AppendDoctype n p s) (AppendDoctype n' p' s')
| ca_attributes : forall t l l', Permutation l l' -> tag_attributes l -> call_alike (AddAttrsIfMissing t l) (AddAttrsIfMissing t l')
| ca_append : forall p c c', given_alike c c' -> call_alike (Append p c) (Append p c')
| ca_before : forall s c c', given_alike c c' -> call_alike (AppendBeforeSibling s c) (AppendBeforeSibling s c')
| ca_parent : forall e p c c', given_alike c c' -> call_alike (AppendBasedOnParentNode e p c) (AppendBasedOnParentNode e p c')
| ca_remove : forall t, call_alike (RemoveFromParent t) (RemoveFromParent t)
| ca_children : forall i p, call_alike (ReparentChildren i p) (ReparentChildren i p).
End Calls.
(** With the same texts *)
Definition calls_alike : list sink_op -> list sink_op -> Prop := Forall2 (call_alike eq).
(** With texts that differ in the length of runs of white space *)
Definition calls_respaced : list sink_op -> list sink_op -> Prop := Forall2 (call_alike same_text).
