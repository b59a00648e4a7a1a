(** Model of victor/src/dom/xml.rs.  The reader of the [xml_rs] crate is not modelled: its events
    are the input, and an error of the reader is the event [XError]. *)
From Verif Require Import Base Dom.
Local Open Scope res_scope.

(** [xml_rs::name::OwnedName]: xml.rs:61-67 *)
Record xml_name : Type := mkXName { x_local : bytes; x_namespace : option bytes; x_prefix : option bytes }.
(** xml.rs:61-67 *)
Definition convert_name (n : xml_name) : qual_name :=
  mkQual (x_prefix n) (match x_namespace n with Some ns => ns | None => [] end) (x_local n).
(** [xml_rs::reader::XmlEvent] and errors; the namespace table of a start tag is not used.  xml.rs:9-56 *)
Inductive xml_event :=
| XStartDocument
| XEndDocument
| XPi (name : bytes) (data : option bytes)
| XStart (name : xml_name) (attributes : list (xml_name * bytes))
| XEnd (name : xml_name)
| XCData (s : bytes)
| XComment (s : bytes)
| XCharacters (s : bytes)
| XWhitespace (s : bytes)
| XError.
(** xml.rs:69-70 *)
Inductive xml_error := XmlError.
(** Operations on the document do not give errors (xml.rs:14-52) *)
Definition lift {A} (r : res Empty_set A) : res xml_error A :=
  match r with Ok a => Ok a | Err e => match e with end | Panic => Panic end.

(** xml.rs:14-27 *)
Definition xml_element (name : xml_name) (attributes : list (xml_name * bytes)) : node_data :=
  DElement (mkElement (convert_name name) (map (fun a => mkAttr (convert_name (fst a)) (snd a)) attributes) false).
(** Push and append: xml.rs:14-28, 44-45, 48-52 *)
Definition push_child (d : document) (current : node_id) (x : node_data) : res xml_error (document * node_id) :=
  let (d, i) := push_node d (node_new x) in
  d <- lift (append d current i) ;;
  Ok (d, i).
(** xml.rs:33-46 *)
Definition xml_text (d : document) (current : node_id) (s : bytes) : res xml_error document :=
  n <- lift (index d current) ;;
  let fresh := di <- push_child d current (DText s) ;; Ok (fst di) in
  match last_child n with
  | Some lc =>
      n <- lift (index d lc) ;;
      match data n with
      | DText contents => lift (modify d lc (set_data (DText (contents ++ s))))
      | _ => fresh
      end
  | None => fresh
  end.
(** xml.rs:9-56: [ancestors] is the vector, top first *)
Fixpoint xml_loop (events : list xml_event) (d : document) (current : node_id) (ancestors : list node_id) :
    res xml_error document :=
  match events with
  | [] => Ok d
  | e :: r =>
      match e with
      | XError => Err XmlError
      | XStart name attributes =>
          di <- push_child d current (xml_element name attributes) ;;
          xml_loop r (fst di) (snd di) (current :: ancestors)
      | XEnd _ =>
          match ancestors with
          | [] => Panic
          | a :: ancestors => xml_loop r d a ancestors
          end
      | XCData s | XCharacters s | XWhitespace s =>
          d <- xml_text d current s ;;
          xml_loop r d current ancestors
      | XPi name data =>
          di <- push_child d current (DProcessingInstruction name (match data with Some x => x | None => [] end)) ;;
          xml_loop r (fst di) current ancestors
      | XStartDocument | XEndDocument | XComment _ => xml_loop r d current ancestors
      end
  end.
(** xml.rs:5-58 *)
Definition parse_xml (events : list xml_event) : res xml_error document :=
  xml_loop events document_new document_node_id [].
