(** XML files to make a page of *)
From Verif Require Import Base Dom DomXml DomXmlSpec BoxTreeSpec.

(** Outside of the root element *)
Definition around (x : item) : Prop := match x with IComment _ | IPi _ _ => True | _ => False end.
(** Every text is UTF-8. *)
Fixpoint utf8_texts (x : item) : Prop :=
  match x with
  | IElement _ _ c => (fix all (l : list item) : Prop := match l with [] => True | x :: r => utf8_texts x /\ all r end) c
  | IText s | ICData s | IWhitespace s => exists u, encodes s u
  | IComment _ | IPi _ _ => True
  end.
(** What a reader of well-formed XML reports: one element, comments and processing instructions around it, and strings *)
Definition xml_file (l : list item) : Prop :=
  (exists before n a c after, l = before ++ IElement n a c :: after /\ Forall around before /\ Forall around after) /\
  forall x, In x l -> utf8_texts x.
