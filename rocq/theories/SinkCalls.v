(** Model of all calls of [TreeSink] in victor/src/dom/html.rs, with their answers. *)
From Verif Require Import Base Dom.
Local Open Scope res_scope.

(** html5ever's [QuirksMode]: html.rs:2 *)
Inductive quirks := NoQuirks | LimitedQuirks | Quirks.
(** html.rs:20-23 *)
Record sink : Type := mkSink { s_document : document; s_quirks : quirks }.
(** html.rs:10-13 *)
Definition sink_new : sink := mkSink document_new NoQuirks.

(** What html5ever may call, from html.rs:58-209: [Change] are the calls of Dom.v *)
Inductive call :=
| Change (o : sink_op)
| ParseError (message : bytes)
| GetDocument
| SetQuirksMode (mode : quirks)
| SameNode (x y : node_id)
| ElemName (target : node_id)
| GetTemplateContents (target : node_id)
| IsIntegrationPoint (target : node_id).
(** What is returned: html.rs:58-209 *)
Inductive answer := Nothing | Handle (i : node_id) | Bool (b : bool) | Name (ns local : bytes).

(** The [NodeId] that a call of Dom.v returns: html.rs:100-133 *)
Definition change_answer (d : document) (o : sink_op) : answer :=
  match o with
  | CreateElement n a f => Handle (snd (create_element d n a f))
  | CreateComment t => Handle (snd (create_comment d t))
  | CreatePi t x => Handle (snd (create_pi d t x))
  | _ => Nothing
  end.
(** html.rs:80-86 *)
Definition elem_name (d : document) (target : node_id) : result (bytes * bytes) :=
  n <- index d target ;;
  match as_element n with
  | Some e => Ok (q_ns (e_name e), q_local (e_name e))
  | None => Panic
  end.
(** html.rs:92-97 *)
Definition is_integration_point (d : document) (target : node_id) : result bool :=
  n <- index d target ;;
  match as_element n with Some e => Ok (e_integration_point e) | None => Panic end.
(** One call and its answer: html.rs:58-209 *)
Definition do_call (s : sink) (c : call) : result (sink * answer) :=
  match c with
  | Change o => d <- do_op (s_document s) o ;; Ok (mkSink d (s_quirks s), change_answer (s_document s) o)
  | ParseError _ => Ok (s, Nothing)
  | GetDocument => Ok (s, Handle document_node_id)
  | SetQuirksMode m => Ok (mkSink (s_document s) m, Nothing)
  | SameNode x y => Ok (s, Bool (x =? y))
  | ElemName t => n <- elem_name (s_document s) t ;; Ok (s, Name (fst n) (snd n))
  | GetTemplateContents t => Ok (s, Handle t)
  | IsIntegrationPoint t => b <- is_integration_point (s_document s) t ;; Ok (s, Bool b)
  end.
(** The calls for a document one after the other, each with its answer: html.rs:14-16 *)
Fixpoint do_calls (s : sink) (calls : list call) : result (sink * list (call * answer)) :=
  match calls with
  | [] => Ok (s, [])
  | c :: r =>
      a <- do_call s c ;;
      z <- do_calls (fst a) r ;;
      Ok (fst z, (c, snd a) :: snd z)
  end.
