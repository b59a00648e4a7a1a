(** XML content as trees, and the document that mirrors it *)
From Verif Require Import Base Dom DomSpec DomXml.

(** What a document may contain, in the order it is written *)
Inductive item :=
| IElement (name : xml_name) (attributes : list (xml_name * bytes)) (content : list item)
| IText (s : bytes)
| ICData (s : bytes)
| IWhitespace (s : bytes)
| IComment (s : bytes)
| IPi (name : bytes) (data : option bytes).
(** The events reporting it *)
Fixpoint events_of (x : item) : list xml_event :=
  match x with
  | IElement n a c => XStart n a :: flat_map events_of c ++ [XEnd n]
  | IText s => [XCharacters s]
  | ICData s => [XCData s]
  | IWhitespace s => [XWhitespace s]
  | IComment s => [XComment s]
  | IPi n x => [XPi n x]
  end.

(** The tree meant: comments left out, neighbouring text put together *)
Inductive xtree := XT (x : node_data) (children : list xtree).
Definition join (x : xtree) (r : list xtree) : list xtree :=
  match x, r with
  | XT (DText a) [], XT (DText b) [] :: r => XT (DText (a ++ b)) [] :: r
  | _, _ => x :: r
  end.
Fixpoint meaning (x : item) : list xtree :=
  match x with
  | IElement n a c =>
      [XT (DElement (mkElement
             (mkQual (x_prefix n) (match x_namespace n with Some ns => ns | None => [] end) (x_local n))
             (map (fun a => mkAttr (mkQual (x_prefix (fst a)) (match x_namespace (fst a) with Some ns => ns | None => [] end)
                                      (x_local (fst a))) (snd a)) a) false))
          (fold_right join [] (flat_map meaning c))]
  | IText s | ICData s | IWhitespace s => [XT (DText s) []]
  | IComment _ => []
  | IPi n x => [XT (DProcessingInstruction n (match x with Some x => x | None => [] end)) []]
  end.
Definition content_of (l : list item) : list xtree := fold_right join [] (flat_map meaning l).

(** Nodes numbered in document order from [i] on *)
Fixpoint xsize (x : xtree) : nat := match x with XT _ c => S (list_sum (map xsize c)) end.
Fixpoint numbered (i : nat) (x : xtree) : tree :=
  match x with
  | XT _ c =>
      T i ((fix go (i : nat) (l : list xtree) : list tree :=
              match l with
              | [] => []
              | x :: r => numbered i x :: go (i + xsize x) r
              end) (S i) c)
  end.
(** The data of all nodes in document order *)
Fixpoint contents (x : xtree) : list node_data := match x with XT x c => x :: flat_map contents c end.

(** No end tag without its start tag, from depth [n] *)
Fixpoint closes (n : nat) (events : list xml_event) : bool :=
  match events with
  | [] => true
  | XStart _ _ :: r => closes (S n) r
  | XEnd _ :: r => match n with O => false | S n => closes n r end
  | _ :: r => closes n r
  end.
