(** What style sheets and style attributes contribute, and single consequences of [css_style]. *)
From Coq Require Import QArith.
From Verif Require Import Base Dom DomSpec StyleValues StyleProperties StyleCascade StyleSpec.
Local Open Scope nat_scope.

(** A block holds these declarations with these importances. *)
Definition holds (b : declaration_block) (l : list (declaration * bool)) : Prop :=
  List.length (declarations b) = List.length (important b) /\ combine (declarations b) (important b) = l.

(** The rules of a sheet, in order, one for each selector; bad rules are dropped. *)
Inductive sheet_means (pc : parser color) {selector} : list (source_rule selector) -> list (selector * list (declaration * bool)) -> Prop :=
| sm_nil : sheet_means pc [] []
| sm_rule : forall sels body r ds out, block_means pc body ds -> sheet_means pc r out ->
    sheet_means pc (StyleRule sels body :: r) (map (fun s => (s, ds)) sels ++ out)
| sm_bad : forall r out, sheet_means pc r out -> sheet_means pc (BadRule :: r) out.
Definition rule_holds {selector} (r : selector * declaration_block) (m : selector * list (declaration * bool)) : Prop :=
  fst r = fst m /\ holds (snd r) (snd m).

(** The style attribute counts on elements of three namespaces. *)
Inductive style_attribute (pc : parser color) (items_of : bytes -> list item) (e : element_data) : option declaration_block -> Prop :=
| sa_none : ~ counts (q_ns (e_name e)) \/ first_attr (bs "style") (e_attrs e) None -> style_attribute pc items_of e None
| sa_some : forall v b ds, counts (q_ns (e_name e)) -> first_attr (bs "style") (e_attrs e) (Some v) ->
    block_means pc (items_of v) ds -> holds b ds -> style_attribute pc items_of e (Some b).
