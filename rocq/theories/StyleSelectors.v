(** Model of victor/src/style/selectors.rs:104-262: the [Element] interface through which the
    selectors crate sees the document.  Matching itself ([matches_selector]) belongs to that crate. *)
From Verif Require Import Base Dom.
Local Open Scope res_scope.

(** selectors.rs:104-119; the fuel bounds the loop, running out is [Panic] *)
Fixpoint find_element_loop (fuel : nat) (d : document) (n : node_id) (next : node -> option node_id) :
    result (option node_id) :=
  match fuel with
  | O => Panic
  | S fuel =>
      nd <- index d n ;;
      match as_element nd with
      | Some _ => Ok (Some n)
      | None => match next nd with Some n => find_element_loop fuel d n next | None => Ok None end
      end
  end.
(** selectors.rs:104-119 *)
Definition find_element (d : document) (first : option node_id) (next : node -> option node_id) : result (option node_id) :=
  match first with
  | None => Ok None
  | Some n => find_element_loop (List.length (nodes d)) d n next
  end.

(** selectors.rs:128-135 *)
Definition parent_element (d : document) (n : node_id) : result (option node_id) :=
  nd <- index d n ;;
  match parent nd with
  | None => Ok None
  | Some p => np <- index d p ;; match as_element np with Some _ => Ok (Some p) | None => Ok None end
  end.
(** selectors.rs:137-141 *)
Definition next_sibling_element (d : document) (n : node_id) : result (option node_id) :=
  nd <- index d n ;; find_element d (next_sibling nd) next_sibling.
(** selectors.rs:143-147 *)
Definition prev_sibling_element (d : document) (n : node_id) : result (option node_id) :=
  nd <- index d n ;; find_element d (previous_sibling nd) previous_sibling.

(** [as_element().unwrap()]: selectors.rs:153-159 *)
Definition unwrap_element (d : document) (n : node_id) : result element_data :=
  nd <- index d n ;; match as_element nd with Some e => Ok e | None => Panic end.
(** selectors.rs:153-159 *)
Definition local_name (d : document) (n : node_id) : result bytes :=
  e <- unwrap_element d n ;; Ok (q_local (e_name e)).
(** selectors.rs:157-159 *)
Definition namespace (d : document) (n : node_id) : result bytes :=
  e <- unwrap_element d n ;; Ok (q_ns (e_name e)).

(** selectors.rs:173-187; [operation] is [AttrSelectorOperation::eval_str] of the selectors crate,
    [ns] is [None] for [NamespaceConstraint::Any]. *)
Definition attr_matches (d : document) (n : node_id) (ns : option bytes) (name : bytes) (operation : bytes -> bool) :
    result bool :=
  e <- unwrap_element d n ;;
  Ok (existsb (fun a =>
        bytes_eqb (q_local (a_name a)) name &&
        match ns with None => true | Some ns => bytes_eqb (q_ns (a_name a)) ns end &&
        operation (a_value a)) (e_attrs e)).

(** selectors.rs:209-217 *)
Definition is_link (d : document) (n : node_id) : result bool :=
  e <- unwrap_element d n ;;
  let name := e_name e in
  Ok (bytes_eqb (q_ns name) ns_html &&
      (bytes_eqb (q_local name) (bs "a") || bytes_eqb (q_local name) (bs "area") || bytes_eqb (q_local name) (bs "link")) &&
      match get_attr e (bs "href") with Some _ => true | None => false end).

(** [CaseSensitivity::eq] of the selectors crate: selectors.rs:219-237 *)
Inductive case_sensitivity := CaseSensitive | AsciiCaseInsensitive.
(** [CaseSensitivity::eq]: selectors.rs:219-237 *)
Definition case_eq (c : case_sensitivity) (a b : bytes) : bool :=
  match c with CaseSensitive => bytes_eqb a b | AsciiCaseInsensitive => eq_ignore_ascii_case a b end.
(** selectors.rs:219-227 *)
Definition has_id (d : document) (n : node_id) (id : bytes) (c : case_sensitivity) : result bool :=
  e <- unwrap_element d n ;;
  Ok (match get_attr e (bs "id") with Some v => case_eq c id v | None => false end).
(** selectors.rs:229-237: the whole attribute is compared. *)
Definition has_class (d : document) (n : node_id) (class : bytes) (c : case_sensitivity) : result bool :=
  e <- unwrap_element d n ;;
  Ok (match get_attr e (bs "class") with Some v => case_eq c class v | None => false end).

(** selectors.rs:239-257; fuel as above *)
Fixpoint is_empty_loop (fuel : nat) (d : document) (n : node_id) : result bool :=
  match fuel with
  | O => Panic
  | S fuel =>
      nd <- index d n ;;
      match as_element nd with
      | Some _ => Ok false
      | None =>
          match as_text nd with
          | Some (_ :: _) => Ok false
          | _ => match next_sibling nd with None => Ok true | Some n => is_empty_loop fuel d n end
          end
      end
  end.
(** selectors.rs:239-257 *)
Definition is_empty (d : document) (n : node_id) : result bool :=
  nd <- index d n ;;
  match first_child nd with
  | None => Ok true
  | Some c => is_empty_loop (List.length (nodes d)) d c
  end.
(** selectors.rs:259-261 *)
Definition is_root (d : document) (n : node_id) : result bool :=
  p <- parent_element d n ;; Ok (is_none p).
