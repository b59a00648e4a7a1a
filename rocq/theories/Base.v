(** Shared vocabulary of the model: bytes, byte-string literals, results.
    Nothing here models a particular function of /repo. *)
From Coq Require Export Ascii String.
From Coq Require Export List NArith ZArith Lia Bool.
Export ListNotations.

(** A byte is an [N]; the Rust type [u8] is the predicate [wf_byte]. *)
Definition byte := N.
Definition bytes := list N.
Definition wf_byte (b : N) : Prop := (b < 256)%N.
Definition wf_bytes (l : bytes) : Prop := Forall wf_byte l.

(** Byte-string literal: [bs "xref"] is the Rust literal [b"xref"]. *)
Definition bs (s : string) : bytes := List.map N_of_ascii (list_ascii_of_string s).
Arguments bs s%string.

(** [Result<A, E>] with a third outcome for panics. *)
Inductive res (E A : Type) : Type :=
| Ok (a : A)
| Err (e : E)
| Panic.
Arguments Ok {E A} a.
Arguments Err {E A} e.
Arguments Panic {E A}.

Definition bind {E A B} (r : res E A) (f : A -> res E B) : res E B :=
  match r with
  | Ok a => f a
  | Err e => Err e
  | Panic => Panic
  end.

Definition ret {E A} (a : A) : res E A := Ok a.

Declare Scope res_scope.
Notation "x <- r ;; k" := (bind r (fun x => k))
  (at level 61, r at next level, right associativity) : res_scope.

(** Bounded check over all bytes, to lift a computation to [forall b, b < 256]. *)
Fixpoint forall_below (n : nat) (P : N -> bool) : bool :=
  match n with
  | O => true
  | S m => P (N.of_nat m) && forall_below m P
  end.

Lemma forall_below_spec : forall n P,
  forall_below n P = true -> forall b, (b < N.of_nat n)%N -> P b = true.
Proof.
  induction n as [|n IH]; intros P H b Hb.
  - lia.
  - simpl in H. apply andb_true_iff in H as [H1 H2].
    destruct (N.eq_dec b (N.of_nat n)) as [->|Hne]; auto.
    apply IH; auto. lia.
Qed.

Lemma all_bytes : forall P, forall_below 256 P = true -> forall b, wf_byte b -> P b = true.
Proof. intros P H b Hb. eapply forall_below_spec; eauto. Qed.

Lemma wf_bytes_app : forall a b, wf_bytes (a ++ b) <-> wf_bytes a /\ wf_bytes b.
Proof. intros. unfold wf_bytes. apply Forall_app. Qed.

Lemma bs_wf : forall s, wf_bytes (bs s).
Proof.
  intro s. unfold bs, wf_bytes. apply Forall_forall. intros x Hx.
  apply in_map_iff in Hx as (a & <- & _). unfold wf_byte.
  destruct a as [[] [] [] [] [] [] [] []]; cbn; lia.
Qed.
