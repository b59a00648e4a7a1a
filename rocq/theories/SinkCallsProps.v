(** Property C91: the tree sink's answers to the HTML parser *)
From Coq Require Import Lia.
From Verif Require Import Base Dom DomSpec SinkCalls SinkCallsSpec SinkCallsProofs.
Local Open Scope res_scope.

(** Every new node gets a handle that was not used before and is not that of the document. *)
Theorem C91_handles : forall calls s history, do_calls sink_new calls = Ok (s, history) ->
  NoDup (new_handles history) /\ forall i, In (GetDocument, Handle i) history -> ~ In i (new_handles history).
Proof.
  intros calls s history E. destruct (session _ _ _ E) as (A1 & A2 & _). split; [exact A1|]. intros i H K. rewrite Forall_forall in A2. specialize (A2 _ K).
  assert (D : forall calls s0 s1 h, do_calls s0 calls = Ok (s1, h) -> In (GetDocument, Handle i) h -> i = 1).
  { clear. induction calls as [|c calls IH]; intros s0 s1 h E H; cbn [do_calls] in E.
    - injection E as <- <-. destruct H.
    - destruct (do_call s0 c) as [[s2 a]| |] eqn:Ec; cbn [bind fst snd] in E; [|discriminate E..]. destruct (do_calls s2 calls) as [[s3 l]| |] eqn:El; cbn [bind fst snd] in E; [|discriminate E..].
      injection E as <- <-. destruct H as [H|H]; [|exact (IH _ _ _ El H)]. assert (c = GetDocument) as -> by congruence. cbn [do_call] in Ec. unfold document_node_id in Ec. congruence. }
  rewrite (D _ _ _ _ E H) in A2. lia.
Qed.
(** So two of these handles are the same node just if one call made them. *)
Theorem C91_same_node : forall calls s history k k' x x' h h', do_calls sink_new calls = Ok (s, history) ->
  nth_error history k = Some x -> nth_error history k' = Some x' -> new_handle x = [h] -> new_handle x' = [h'] ->
  exists b, do_call s (SameNode h h') = Ok (s, Bool b) /\ (b = true <-> k = k').
Proof.
  intros calls s history k k' x x' h h' E K K' N N'. destruct (session _ _ _ E) as (A1 & _). exists (h =? h'). split; [reflexivity|]. rewrite Nat.eqb_eq.
  split; [|intros <-; congruence]. intros <-. clear E. revert k k' K K'. unfold new_handles in A1. induction history as [|y l IH]; intros [|k] [|k'] K K'; cbn [nth_error flat_map] in *; try discriminate; try reflexivity.
  - exfalso. assert (y = x) as -> by congruence. rewrite N in A1. apply NoDup_cons_iff in A1 as [A1 _]. apply A1. apply in_flat_map. exists x'. split; [eapply nth_error_In; exact K'|rewrite N'; left; reflexivity].
  - exfalso. assert (y = x') as -> by congruence. rewrite N' in A1. apply NoDup_cons_iff in A1 as [A1 _]. apply A1. apply in_flat_map. exists x. split; [eapply nth_error_In; exact K|rewrite N; left; reflexivity].
  - f_equal. apply IH; [|exact K|exact K']. clear -A1. induction (new_handle y) as [|z r IHr]; [exact A1|]. apply IHr. apply NoDup_cons_iff in A1 as [_ A1]. exact A1.
Qed.
(** However the document was changed since, an element has the name and the mark it was made with. *)
Theorem C91_element : forall calls s history h n a f, do_calls sink_new calls = Ok (s, history) -> made history h n a f ->
  do_call s (ElemName h) = Ok (s, Name (q_ns n) (q_local n)) /\ do_call s (IsIntegrationPoint h) = Ok (s, Bool f).
Proof.
  intros calls s history h n a f E M. destruct (session _ _ _ E) as (_ & _ & _ & A). specialize (A h).
  destruct (element_at (datas (s_document s)) h) as [e|] eqn:El; [|exfalso; exact (proj1 A _ _ _ M)]. destruct A as (_ & A & _). destruct (A _ _ _ M) as [-> ->].
  apply element_of_at in El as (nd & Nh & D). cbn [do_call]. unfold elem_name, is_integration_point, index, as_element. rewrite Nh. cbn [bind]. rewrite D. cbn [bind fst snd]. split; reflexivity.
Qed.
(** The two questions panic just for what was not made as an element. *)
Theorem C91_panics : forall calls s history h, do_calls sink_new calls = Ok (s, history) ->
  (do_call s (ElemName h) = Panic <-> forall n a f, ~ made history h n a f) /\
  (do_call s (IsIntegrationPoint h) = Panic <-> forall n a f, ~ made history h n a f).
Proof.
  intros calls s history h E. pose proof (C91_element calls s history h) as Y. destruct (session _ _ _ E) as (_ & _ & _ & A). specialize (A h).
  destruct (element_at (datas (s_document s)) h) as [e|] eqn:El.
  - destruct A as ((a & M) & _). destruct (Y _ _ _ E M) as [Y1 Y2]. rewrite Y1, Y2. split; (split; [discriminate|intros K; exfalso; exact (K _ _ _ M)]).
  - assert (P : do_call s (ElemName h) = Panic /\ do_call s (IsIntegrationPoint h) = Panic).
    { cbn [do_call]. unfold elem_name, is_integration_point, index, as_element. unfold element_at, datas in El. rewrite nth_error_map in El.
      destruct (nth_error (nodes (s_document s)) h) as [nd|]; [|split; reflexivity]. cbn [option_map] in El. cbn [bind]. destruct (data nd); try (split; reflexivity). discriminate El. }
    destruct P as [-> ->]. split; (split; [intros _; exact (proj1 A)|reflexivity]).
Qed.
(** Of the attributes given for an element, the first under each name is the one that counts. *)
Theorem C91_attributes : forall calls s history h n a f, do_calls sink_new calls = Ok (s, history) -> made history h n a f ->
  exists e, element_of (s_document s) h e /\ e_name e = n /\ e_integration_point e = f /\
    forall q v, first_value q (e_attrs e) v <-> first_value q (given h history) v.
Proof.
  intros calls s history h n a f E M. destruct (session _ _ _ E) as (_ & _ & _ & A). specialize (A h).
  destruct (element_at (datas (s_document s)) h) as [e|] eqn:El; [|exfalso; exact (proj1 A _ _ _ M)]. destruct A as (_ & A & G). destruct (A _ _ _ M) as [-> ->].
  exists e. split; [apply element_of_at; exact El|]. split; [reflexivity|]. split; [reflexivity|]. intros q v. rewrite !first_named, G. reflexivity.
Qed.
(** The calls that ask or only set the quirks mode make no difference to the document. *)
Theorem C91_questions : forall calls s history, do_calls sink_new calls = Ok (s, history) ->
  run_ops document_new (changes calls) = Ok (s_document s) /\ s_quirks s = last_mode calls /\ map fst history = calls.
Proof.
  unfold last_mode. intros calls. change document_new with (s_document sink_new). change NoQuirks with (s_quirks sink_new). generalize sink_new.
  induction calls as [|c calls IH]; intros s0 s history E; cbn [do_calls] in E.
  - injection E as <- <-. repeat split; reflexivity.
  - destruct (do_call s0 c) as [[s1 a]| |] eqn:Ec; cbn [bind fst snd] in E; [|discriminate E..]. destruct (do_calls s1 calls) as [[s2 l]| |] eqn:El; cbn [bind fst snd] in E; [|discriminate E..].
    injection E as <- <-. destruct (IH _ _ _ El) as (I1 & I2 & I3). cbn [map fst fold_left]. rewrite I3.
    destruct c; cbn [do_call changes] in *; try (injection Ec as <- _; cbn [s_document s_quirks] in *; split; [exact I1|split; [exact I2|reflexivity]]).
    + destruct (do_op (s_document s0) o) as [d| |] eqn:Eo; cbn [bind] in Ec; [|discriminate Ec..]. injection Ec as <- _. cbn [run_ops s_document s_quirks] in *. rewrite Eo. cbn [bind]. split; [exact I1|split; [exact I2|reflexivity]].
    + destruct (elem_name _ _) as [n| |]; cbn [bind] in Ec; [|discriminate Ec..]. injection Ec as <- _. split; [exact I1|split; [exact I2|reflexivity]].
    + destruct (is_integration_point _ _) as [b| |]; cbn [bind] in Ec; [|discriminate Ec..]. injection Ec as <- _. split; [exact I1|split; [exact I2|reflexivity]].
Qed.

(** ** Example: two elements, one moved and given attributes twice *)
Definition html_name (l : bytes) : qual_name := mkQual None ns_html l.
Definition plain_name (l : bytes) : qual_name := mkQual None [] l.
Definition ex_calls : list call := [
  GetDocument; SetQuirksMode Quirks;
  Change (CreateElement (html_name (bs "html")) [] false); Change (Append 1 (AppendNode 2));
  Change (CreateElement (mkQual None (bs "http://www.w3.org/1998/Math/MathML") (bs "annotation-xml")) [mkAttr (plain_name (bs "a")) (bs "1")] true);
  Change (Append 2 (AppendNode 3)); Change (Append 2 (AppendText (bs "x")));
  Change (AddAttrsIfMissing 3 [mkAttr (plain_name (bs "a")) (bs "2"); mkAttr (plain_name (bs "b")) (bs "3")]);
  Change (RemoveFromParent 3); Change (CreateComment (bs "c")); Change (Append 5 (AppendNode 3));
  ElemName 3; IsIntegrationPoint 3; SameNode 2 3].
Definition ex_history : list (call * answer) := match do_calls sink_new ex_calls with Ok (_, h) => h | _ => [] end.
Example C91_example : (exists s, do_calls sink_new ex_calls = Ok (s, ex_history) /\ do_call s (ElemName 4) = Panic /\ do_call s (ElemName 5) = Panic) /\
  map snd ex_history = [Handle 1; Nothing; Handle 2; Nothing; Handle 3; Nothing; Nothing; Nothing; Nothing; Handle 5; Nothing;
    Name (bs "http://www.w3.org/1998/Math/MathML") (bs "annotation-xml"); Bool true; Bool false] /\
  given 3 ex_history = [mkAttr (plain_name (bs "a")) (bs "1"); mkAttr (plain_name (bs "a")) (bs "2"); mkAttr (plain_name (bs "b")) (bs "3")].
Proof. split; [eexists; vm_compute; repeat split|]. vm_compute. split; reflexivity. Qed.

(** ** Templates *)
(** HTML §4.12.3: the contents of a template element are in a document fragment of their own, not below the
    element.  The sink answers that they are in the element itself, so they are part of the document. *)
Theorem C91_template_refuted : exists calls s history t p n a f, do_calls sink_new calls = Ok (s, history) /\
  made history t (html_name (bs "template")) [] false /\ made history p n a f /\
  In (GetTemplateContents t, Handle t) history /\ In (Change (Append t (AppendNode p))) calls /\
  exists l, tree_nodes (s_document s) = Ok l /\ In p l.
Proof.
  exists [Change (CreateElement (html_name (bs "template")) [] false); Change (Append 1 (AppendNode 2)); GetTemplateContents 2;
    Change (CreateElement (html_name (bs "p")) [] false); Change (Append 2 (AppendNode 3))].
  eexists _, _, 2, 3, (html_name (bs "p")), [], false. split; [vm_compute; reflexivity|].
  split; [left; reflexivity|]. split; [right; right; right; left; reflexivity|]. split; [right; right; left; reflexivity|]. split; [right; right; right; right; left; reflexivity|].
  eexists. split; [vm_compute; reflexivity|]. right. right. left. reflexivity.
Qed.

Print Assumptions C91_handles.
Print Assumptions C91_same_node.
Print Assumptions C91_element.
Print Assumptions C91_panics.
Print Assumptions C91_attributes.
Print Assumptions C91_questions.
Print Assumptions C91_template_refuted.
