(** What html5ever may rely on when it calls a sink: the answers, given all calls and answers so far. *)
From Verif Require Import Base Dom SinkCalls.

(** The handles of new nodes that were given out, in order *)
Definition new_handle (x : call * answer) : list nat :=
  match x with
  | (Change (CreateElement _ _ _), Handle i) | (Change (CreateComment _), Handle i) | (Change (CreatePi _ _), Handle i) => [i]
  | _ => []
  end.
Definition new_handles (history : list (call * answer)) : list nat := flat_map new_handle history.
(** An element with this name, attributes and mark was made and has this handle. *)
Definition made (history : list (call * answer)) (h : nat) (n : qual_name) (a : list attribute) (f : bool) : Prop :=
  In (Change (CreateElement n a f), Handle h) history.
(** The attributes that were given for a handle, in order *)
Definition given_by (h : nat) (x : call * answer) : list attribute :=
  match x with
  | (Change (CreateElement _ a _), Handle i) => if Nat.eqb i h then a else []
  | (Change (AddAttrsIfMissing t a), _) => if Nat.eqb t h then a else []
  | _ => []
  end.
Definition given (h : nat) (history : list (call * answer)) : list attribute := flat_map (given_by h) history.
(** The first value under a name, if any *)
Definition first_value (q : qual_name) (l : list attribute) (v : option bytes) : Prop :=
  match v with
  | Some v => exists a b, l = a ++ mkAttr q v :: b /\ forall x, In x a -> a_name x <> q
  | None => forall x, In x l -> a_name x <> q
  end.
(** The element with a handle in a document *)
Definition element_of (d : document) (h : nat) (e : element_data) : Prop :=
  exists n, nth_error (nodes d) h = Some n /\ data n = DElement e.
(** The calls that change the document, and the last quirks mode *)
Fixpoint changes (l : list call) : list sink_op :=
  match l with [] => [] | Change o :: r => o :: changes r | _ :: r => changes r end.
Definition last_mode (l : list call) : quirks :=
  fold_left (fun m c => match c with SetQuirksMode m => m | _ => m end) l NoQuirks.
