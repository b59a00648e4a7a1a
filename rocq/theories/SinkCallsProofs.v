(** Nodes keep what they are through all calls of the sink. *)
From Coq Require Import Lia.
From Verif Require Import Base Dom DomSpec DomProofs DomWalkProofs SinkCalls SinkCallsSpec.
Local Open Scope res_scope.

Definition datas (d : document) : list node_data := map data (nodes d).
Lemma map_update : forall i f g l, (forall n, data (f n) = g (data n)) -> map data (update i f l) = update i g (map data l).
Proof. induction i as [|i IH]; intros f g [|x l] H; cbn [update map]; [reflexivity|rewrite H; reflexivity|reflexivity|rewrite (IH f g) by exact H; reflexivity]. Qed.
Lemma update_same : forall i (l : list node_data), update i (fun x => x) l = l.
Proof. induction i as [|i IH]; intros [|x l]; cbn [update]; try reflexivity. rewrite IH. reflexivity. Qed.
Lemma modify_links : forall d i f d', modify d i f = Ok d' -> (forall n, data (f n) = data n) -> datas d' = datas d.
Proof.
  intros d i f d' E H. unfold modify in E. destruct (nth_error (nodes d) i); [|discriminate E]. injection E as <-. unfold datas. cbn [nodes].
  rewrite (map_update i f (fun x => x)) by exact H. apply update_same.
Qed.
Lemma modify_data : forall d i v d', modify d i (set_data v) = Ok d' -> datas d' = update i (fun _ => v) (datas d).
Proof.
  intros d i v d' E. unfold modify in E. destruct (nth_error (nodes d) i); [|discriminate E]. injection E as <-. apply map_update. reflexivity.
Qed.
(** Goes through a function that changes links. *)
Ltac links E := repeat match type of E with
  | bind ?x _ = Ok _ => let H := fresh "H" in destruct x eqn:H; cbn [bind] in E; [|discriminate E..]
  | match ?x with Some _ => _ | None => _ end = Ok _ => destruct x
  end.
Lemma detach_datas : forall d i d', detach d i = Ok d' -> datas d' = datas d.
Proof.
  intros d i d' E. unfold detach in E. links E; repeat match goal with
    | H : match ?x with Some _ => _ | None => _ end = Ok _ |- _ => destruct x
    | H : modify _ _ _ = Ok _ |- _ => apply modify_links in H; [|reflexivity]
    | H : Ok _ = Ok _ |- _ => injection H as <-
    end; congruence.
Qed.
Ltac all_links := repeat match goal with
    | H : bind ?x _ = Ok _ |- _ => let K := fresh "K" in destruct x eqn:K; cbn [bind] in H; [|discriminate H..]
    | H : match ?x with Some _ => _ | None => _ end = Ok _ |- _ => destruct x
    | H : detach _ _ = Ok _ |- _ => apply detach_datas in H
    | H : modify _ _ _ = Ok _ |- _ => apply modify_links in H; [|reflexivity]
    | H : Ok _ = Ok _ |- _ => injection H as <-
    end; congruence.
Lemma append_datas : forall d p c d', append d p c = Ok d' -> datas d' = datas d.
Proof. intros d p c d' E. unfold append in E. all_links. Qed.
Lemma insert_datas : forall d s c d', insert_before d s c = Ok d' -> datas d' = datas d.
Proof. intros d s c d' E. unfold insert_before in E. all_links. Qed.
Lemma reparent_datas : forall fuel d i p next d', reparent_loop fuel d i p next = Ok d' -> datas d' = datas d.
Proof.
  induction fuel as [|fuel IH]; intros d i p [c|] d' E; cbn [reparent_loop] in E; try discriminate E; try (injection E as <-; reflexivity).
  destruct (index d c); cbn [bind] in E; [|discriminate E..]. destruct (assert _); cbn [bind] in E; [|discriminate E..].
  destruct (append d p c) as [d1| |] eqn:A; cbn [bind] in E; [|discriminate E..]. destruct (index d1 c); cbn [bind] in E; [|discriminate E..].
  apply IH in E. apply append_datas in A. congruence.
Qed.
(** Text is added to a text or in a new one. *)
Lemma common_datas : forall d c previous app d', (forall d i d', app d i = Ok d' -> datas d' = datas d) ->
  append_common d c previous app = Ok d' ->
  datas d' = datas d \/ (exists t, datas d' = datas d ++ [DText t]) \/
  exists i t t', nth_error (datas d) i = Some (DText t) /\ datas d' = update i (fun _ => DText t') (datas d).
Proof.
  intros d c previous app d' A E. unfold append_common in E. destruct c as [n|text]; [left; exact (A _ _ _ E)|].
  destruct (previous d) as [prev| |]; cbn [bind] in E; [|discriminate E..]. cbn [new_node push_node] in E.
  assert (F : app (mkDoc (nodes d ++ [node_new (DText text)]) (style_elements d)) (List.length (nodes d)) = Ok d' ->
    exists t, datas d' = datas d ++ [DText t]).
  { intros E'. exists text. rewrite (A _ _ _ E'). unfold datas. cbn [nodes]. rewrite map_app. reflexivity. }
  destruct prev as [i|]; [|right; left; exact (F E)]. unfold index in E. destruct (nth_error (nodes d) i) as [n|] eqn:Ni; cbn [bind] in E; [|discriminate E].
  destruct (data n) eqn:Dn; try (right; left; exact (F E)). right. right. exists i, contents, (contents ++ text).
  split; [unfold datas; rewrite nth_error_map, Ni; cbn [option_map]; rewrite Dn; reflexivity|exact (modify_data _ _ _ _ E)].
Qed.

(** ** Elements *)
Definition element_at (l : list node_data) (i : nat) : option element_data :=
  match nth_error l i with Some (DElement e) => Some e | _ => None end.
Lemma element_of_at : forall d h e, element_of d h e <-> element_at (datas d) h = Some e.
Proof.
  intros d h e. unfold element_of, element_at, datas. rewrite nth_error_map. split.
  - intros (n & H & D). rewrite H. cbn [option_map]. rewrite D. reflexivity.
  - intros H. destruct (nth_error (nodes d) h) as [n|]; [|discriminate H]. cbn [option_map] in H. exists n. split; [reflexivity|]. destruct (data n); congruence.
Qed.
Lemma nth_update : forall (l : list node_data) i j v, nth_error (update i (fun _ => v) l) j = if Nat.eqb i j then option_map (fun _ => v) (nth_error l j) else nth_error l j.
Proof.
  induction l as [|x l IH]; intros [|i] [|j] v; cbn [update nth_error option_map Nat.eqb]; try reflexivity; [destruct (i =? j); reflexivity|apply IH].
Qed.
Lemma element_new : forall l x i, element_at (l ++ [x]) i = if Nat.eqb i (length l) then match x with DElement e => Some e | _ => None end else element_at l i.
Proof.
  intros l x i. unfold element_at. destruct (Nat.eqb_spec i (length l)) as [->|N].
  - rewrite nth_error_app2, Nat.sub_diag by lia. reflexivity.
  - destruct (Nat.lt_ge_cases i (length l)) as [H|H]; [rewrite nth_error_app1 by lia; reflexivity|].
    replace (nth_error (l ++ [x]) i) with (@None node_data); [replace (nth_error l i) with (@None node_data); [reflexivity|]|]; symmetry; apply nth_error_None; rewrite ?app_length; cbn [length]; lia.
Qed.
Lemma datas_length : forall d, length (datas d) = length (nodes d).
Proof. intros d. apply map_length. Qed.

(** What a call does to elements *)
Definition after (o : sink_op) (size : nat) (old : nat -> option element_data) (i : nat) : option element_data :=
  match o with
  | CreateElement n a f => if i =? size then Some (mkElement n a f) else old i
  | AddAttrsIfMissing t a => if t =? i then option_map (fun e => mkElement (e_name e) (merge_attrs (e_attrs e) a) (e_integration_point e)) (old i) else old i
  | _ => old i
  end.
Definition creates (o : sink_op) : bool := match o with CreateElement _ _ _ | CreateComment _ | CreatePi _ _ => true | _ => false end.
Lemma text_keeps : forall l l' (x : nat), (l' = l \/ (exists t, l' = l ++ [DText t]) \/ exists i t t', nth_error l i = Some (DText t) /\ l' = update i (fun _ => DText t') l) ->
  (forall i, element_at l' i = element_at l i) /\ (length l <= length l')%nat.
Proof.
  intros l l' _ [->|[(t & ->)|(k & t & t' & H & ->)]].
  - split; [reflexivity|lia].
  - split; [|rewrite app_length; lia]. intros i. rewrite element_new. destruct (Nat.eqb_spec i (length l)) as [->|]; [|reflexivity]. unfold element_at.
    replace (nth_error l (length l)) with (@None node_data); [reflexivity|symmetry; apply nth_error_None; lia].
  - split.
    + intros i. unfold element_at. rewrite nth_update. destruct (Nat.eqb_spec k i) as [->|]; [|reflexivity]. rewrite H. reflexivity.
    + assert (L : forall k v (l : list node_data), length (update k (fun _ => v) l) = length l).
      { clear. induction k as [|k IH]; intros v [|x l]; cbn [update length]; try reflexivity. rewrite IH. reflexivity. } rewrite L. lia.
Qed.
Lemma op_step : forall d o d', do_op d o = Ok d' ->
  (forall i, element_at (datas d') i = after o (length (nodes d)) (element_at (datas d)) i) /\
  (length (nodes d) <= length (nodes d'))%nat /\
  (creates o = true -> change_answer d o = Handle (length (nodes d)) /\ length (nodes d') = S (length (nodes d))).
Proof.
  intros d o d' E.
  assert (New : forall x, datas d' = datas d ++ [x] ->
    (forall i, element_at (datas d') i = if i =? length (nodes d) then match x with DElement e => Some e | _ => None end else element_at (datas d) i) /\ length (nodes d') = S (length (nodes d))).
  { intros x H. split; [intros i; rewrite H, element_new, datas_length; reflexivity|]. rewrite <- !datas_length, H, app_length. cbn [length]. lia. }
  assert (Plain : forall x, (forall e, x <> DElement e) -> datas d' = datas d ++ [x] -> (forall i, element_at (datas d') i = element_at (datas d) i) /\ length (nodes d') = S (length (nodes d))).
  { intros x Hx H. destruct (New x H) as [N1 N2]. split; [|exact N2]. intros i. rewrite N1. destruct (Nat.eqb_spec i (length (nodes d))) as [->|]; [|reflexivity].
    unfold element_at. replace (nth_error (datas d) (length (nodes d))) with (@None node_data); [destruct x; try reflexivity; exfalso; eapply Hx; reflexivity|].
    symmetry. apply nth_error_None. rewrite datas_length. lia. }
  assert (Keep : forall c previous app, (forall d i d', app d i = Ok d' -> datas d' = datas d) -> append_common d c previous app = Ok d' ->
    (forall i, element_at (datas d') i = element_at (datas d) i) /\ (length (nodes d) <= length (nodes d'))%nat).
  { intros c previous app A H. rewrite <- !datas_length. apply (text_keeps _ _ 0). exact (common_datas _ _ _ _ _ A H). }
  assert (Same : datas d' = datas d -> (forall i, element_at (datas d') i = element_at (datas d) i) /\ (length (nodes d) <= length (nodes d'))%nat).
  { intros H. rewrite <- !datas_length, H. split; [reflexivity|lia]. }
  destruct o; cbn [do_op after creates] in *.
  - destruct (New (DElement (mkElement name attrs flag))) as [N1 N2].
    { injection E as <-. unfold create_element. cbn [new_node push_node fst]. destruct (is_html name _); unfold datas; cbn [nodes]; rewrite map_app; reflexivity. }
    split; [exact N1|]. split; [lia|]. intros _. split; [reflexivity|exact N2].
  - destruct (Plain (DComment text)) as [N1 N2]; [discriminate|injection E as <-; unfold datas; cbn [create_comment new_node push_node fst nodes]; rewrite map_app; reflexivity|].
    split; [exact N1|]. split; [lia|]. intros _. split; [reflexivity|exact N2].
  - destruct (Plain (DProcessingInstruction target x)) as [N1 N2]; [discriminate|injection E as <-; unfold datas; cbn [create_pi new_node push_node fst nodes]; rewrite map_app; reflexivity|].
    split; [exact N1|]. split; [lia|]. intros _. split; [reflexivity|exact N2].
  - destruct (Keep _ _ _ (fun d i d' => append_datas d p i d') E) as [K1 K2]. split; [exact K1|]. split; [exact K2|discriminate].
  - destruct (Keep _ _ _ (fun d i d' => insert_datas d s i d') E) as [K1 K2]. split; [exact K1|]. split; [exact K2|discriminate].
  - unfold append_based_on_parent_node in E. destruct (index d element) as [n| |]; cbn [bind] in E; [|discriminate E..]. destruct (is_none (parent n)).
    + destruct (Keep _ _ _ (fun d i d' => append_datas d prev_element i d') E) as [K1 K2]. split; [exact K1|]. split; [exact K2|discriminate].
    + destruct (Keep _ _ _ (fun d i d' => insert_datas d element i d') E) as [K1 K2]. split; [exact K1|]. split; [exact K2|discriminate].
  - destruct (Plain (DDoctype name public_id system_id)) as [N1 N2]; [discriminate| |split; [exact N1|split; [lia|discriminate]]].
    unfold append_doctype_to_document in E. cbn [new_node push_node] in E. apply append_datas in E. rewrite E. unfold datas. cbn [nodes]. rewrite map_app. reflexivity.
  - unfold add_attrs_if_missing in E. unfold index in E. destruct (nth_error (nodes d) target) as [n|] eqn:Nt; cbn [bind] in E; [|discriminate E].
    destruct (data n) as [| | | |e|] eqn:Dn; try discriminate E. apply modify_data in E. split; [|split; [|discriminate]].
    + intros i. rewrite E. unfold element_at. rewrite nth_update. destruct (Nat.eqb_spec target i) as [->|]; [|reflexivity].
      unfold datas. rewrite nth_error_map, Nt. cbn [option_map]. rewrite Dn. reflexivity.
    + rewrite <- !datas_length, E. assert (L : forall k v (l : list node_data), length (update k (fun _ => v) l) = length l).
      { clear. induction k as [|k IH]; intros v [|x l]; cbn [update length]; try reflexivity. rewrite IH. reflexivity. } rewrite L. lia.
  - apply detach_datas in E. destruct (Same E) as [K1 K2]. split; [exact K1|]. split; [exact K2|discriminate].
  - unfold reparent_children in E. destruct (index d i) as [n| |]; cbn [bind] in E; [|discriminate E..]. apply reparent_datas in E.
    destruct (Same E) as [K1 K2]. split; [exact K1|]. split; [exact K2|discriminate].
Qed.

(** ** Attributes *)
Definition named (q : qual_name) (l : list attribute) : option attribute := find (fun x => qual_eqb (a_name x) q) l.
Lemma named_app : forall q a b, named q (a ++ b) = match named q a with Some x => Some x | None => named q b end.
Proof. intros q a b. induction a as [|x a IH]; cbn [app named find]; [reflexivity|]. unfold named in IH. destruct (qual_eqb (a_name x) q); [reflexivity|exact IH]. Qed.
Lemma named_merge : forall q old new, named q (merge_attrs old new) = named q (old ++ new).
Proof.
  intros q old new. unfold merge_attrs. rewrite !named_app. destruct (named q old) eqn:E; [reflexivity|].
  induction new as [|x new IH]; [reflexivity|]. cbn [filter]. destruct (existsb (fun e => qual_eqb (a_name e) (a_name x)) old) eqn:X; cbn [negb named find].
  - unfold named in IH. rewrite IH. destruct (qual_eqb (a_name x) q) eqn:Q; [|reflexivity]. apply qual_eqb_eq in Q. apply existsb_exists in X as (y & Iy & Y). rewrite Q in Y.
    pose proof (find_none _ _ E y Iy) as F. cbv beta in F. congruence.
  - unfold named in IH. rewrite IH. reflexivity.
Qed.
Lemma first_named : forall q l v, first_value q l v <-> option_map a_value (named q l) = v.
Proof.
  intros q l. induction l as [|x l IH]; intros v.
  - cbn [named find option_map]. split; [|intros <-; intros y []]. destruct v as [v|]; [|reflexivity]. intros (a & b & H & _). destruct a; discriminate H.
  - cbn [named find]. destruct (qual_eqb (a_name x) q) eqn:Q.
    + apply qual_eqb_eq in Q. cbn [option_map]. split.
      * destruct v as [v|]; [|intros H; exfalso; exact (H x (or_introl eq_refl) Q)]. intros ([|y a] & b & H & N); cbn [app] in H; [assert (x = mkAttr q v) as -> by congruence; reflexivity|].
        exfalso. apply (N y); [left; reflexivity|]. congruence.
      * intros <-. exists [], l. split; [|intros y []]. destruct x as [n w]. cbn [a_name a_value] in *. rewrite Q. reflexivity.
    + assert (N : a_name x <> q) by (intros K; apply qual_eqb_eq in K; congruence). unfold named in IH. rewrite <- IH. unfold first_value. destruct v as [v|].
      * split.
        -- intros ([|y a] & b & H & F); cbn [app] in H; [exfalso; apply N; assert (x = mkAttr q v) as -> by congruence; reflexivity|]. exists a, b. split; [congruence|]. intros z Hz. apply F. right. exact Hz.
        -- intros (a & b & -> & F). exists (x :: a), b. split; [reflexivity|]. intros z [<-|Hz]; [exact N|exact (F z Hz)].
      * split; [intros H y Hy; apply H; right; exact Hy|intros H y [<-|Hy]; [exact N|exact (H y Hy)]].
Qed.

(** ** Sessions *)
Lemma do_calls_app : forall a s b, do_calls s (a ++ b) =
  (z <- do_calls s a ;; y <- do_calls (fst z) b ;; Ok (fst y, snd z ++ snd y)).
Proof.
  induction a as [|c a IH]; intros s b; cbn [app do_calls bind fst snd].
  - destruct (do_calls s b) as [[s' l]| |]; reflexivity.
  - destruct (do_call s c) as [[s1 x]| |]; cbn [bind fst snd]; [|reflexivity..]. rewrite IH. destruct (do_calls s1 a) as [[s2 l]| |]; cbn [bind fst snd]; [|reflexivity..].
    destruct (do_calls s2 b) as [[s3 l']| |]; reflexivity.
Qed.
(** The state agrees with the history. *)
Definition agrees (history : list (call * answer)) (d : document) : Prop :=
  NoDup (new_handles history) /\ Forall (fun i => 2 <= i < length (nodes d))%nat (new_handles history) /\ (2 <= length (nodes d))%nat /\
  (forall h, match element_at (datas d) h with
   | Some e => (exists a, made history h (e_name e) a (e_integration_point e)) /\ (forall n a f, made history h n a f -> n = e_name e /\ f = e_integration_point e) /\
       (forall q, named q (e_attrs e) = named q (given h history))
   | None => (forall n a f, ~ made history h n a f) /\ given h history = []
   end).
Lemma agrees_other : forall history d d' x, agrees history d -> new_handle x = [] -> (forall h, given_by h x = []) ->
  (forall i, element_at (datas d') i = element_at (datas d) i) -> (length (nodes d) <= length (nodes d'))%nat -> agrees (history ++ [x]) d'.
Proof.
  intros history d d' x (A1 & A2 & A3 & A4) N G E L.
  assert (M : forall h n a f, made (history ++ [x]) h n a f <-> made history h n a f).
  { intros h n a f. unfold made. rewrite in_app_iff. split; [|left; assumption]. intros [H|[H|[]]]; [exact H|]. exfalso. rewrite H in N. discriminate N. }
  unfold agrees, new_handles, given. rewrite flat_map_app. cbn [flat_map]. rewrite N, !app_nil_r. split; [exact A1|]. split.
  { revert A2. apply Forall_impl. intros i Hi. lia. }
  split; [lia|]. intros h. rewrite flat_map_app. cbn [flat_map]. rewrite G, !app_nil_r. rewrite E. specialize (A4 h). destruct (element_at (datas d) h) as [e|].
  - destruct A4 as ((a & H1) & H2 & H3). split; [exists a; apply M; exact H1|]. split; [|exact H3]. intros n b f H. apply M in H. exact (H2 _ _ _ H).
  - destruct A4 as [H1 H2]. split; [|exact H2]. intros n a f H. apply M in H. exact (H1 _ _ _ H).
Qed.
Lemma agrees_new : forall history d d' c, agrees history d -> new_handle (c, Handle (length (nodes d))) = [length (nodes d)] -> (forall h, given_by h (c, Handle (length (nodes d))) = []) ->
  (forall n a f, c <> Change (CreateElement n a f)) ->
  (forall i, element_at (datas d') i = element_at (datas d) i) -> length (nodes d') = S (length (nodes d)) -> agrees (history ++ [(c, Handle (length (nodes d)))]) d'.
Proof.
  intros history d d' c (A1 & A2 & A3 & A4) N G C E L.
  assert (M : forall h n a f, made (history ++ [(c, Handle (length (nodes d)))]) h n a f <-> made history h n a f).
  { intros h n a f. unfold made. rewrite in_app_iff. split; [|left; assumption]. intros [H|[H|[]]]; [exact H|]. exfalso. apply (C n a f). congruence. }
  unfold agrees, new_handles, given. rewrite flat_map_app. cbn [flat_map]. rewrite N, !app_nil_r. split.
  { apply NoDup_rev in A1. rewrite <- (rev_involutive (_ ++ _)). apply NoDup_rev. rewrite rev_app_distr. cbn [rev app]. constructor; [|exact A1].
    intros H. apply in_rev in H. rewrite Forall_forall in A2. specialize (A2 _ H). lia. }
  split. { apply Forall_app. split; [revert A2; apply Forall_impl; intros i Hi; lia|]. constructor; [lia|constructor]. }
  split; [lia|]. intros h. rewrite flat_map_app. cbn [flat_map]. rewrite G, !app_nil_r. rewrite E. specialize (A4 h). destruct (element_at (datas d) h) as [e|].
  - destruct A4 as ((a & H1) & H2 & H3). split; [exists a; apply M; exact H1|]. split; [|exact H3]. intros n b f H. apply M in H. exact (H2 _ _ _ H).
  - destruct A4 as [H1 H2]. split; [|exact H2]. intros n a f H. apply M in H. exact (H1 _ _ _ H).
Qed.
Lemma agrees_call : forall history s c s' a, agrees history (s_document s) -> do_call s c = Ok (s', a) -> agrees (history ++ [(c, a)]) (s_document s').
Proof.
  intros history s c s' a A E.
  assert (Q : (exists o, c = Change o) \/ s_document s' = s_document s /\ new_handle (c, a) = [] /\ forall h, given_by h (c, a) = []).
  { destruct c; cbn [do_call] in E; [left; eexists; reflexivity|right..]; try (injection E as <- <-; repeat split; reflexivity).
    - destruct (elem_name _ _) as [n| |]; cbn [bind] in E; [|discriminate E..]. injection E as <- <-. repeat split; reflexivity.
    - destruct (is_integration_point _ _) as [b| |]; cbn [bind] in E; [|discriminate E..]. injection E as <- <-. repeat split; reflexivity. }
  destruct Q as [(o & ->)|(-> & N & G)]; [|apply (agrees_other _ _ _ _ A N G); [reflexivity|lia]].
  cbn [do_call] in E. destruct (do_op (s_document s) o) as [d'| |] eqn:Eo; cbn [bind] in E; [|discriminate E..]. injection E as <- <-. cbn [s_document].
  destruct (op_step _ _ _ Eo) as (S1 & S2 & S3). destruct o; cbn [after creates change_answer] in *;
    try (apply (agrees_other _ _ _ _ A); [reflexivity|reflexivity|exact S1|exact S2]);
    try (destruct (S3 eq_refl) as [Ha L]; rewrite Ha; apply (agrees_new _ _ _ _ A); [reflexivity|reflexivity|discriminate|exact S1|exact L]).
  - destruct (S3 eq_refl) as [Ha L]. rewrite Ha. destruct A as (A1 & A2 & A3 & A4). set (k := length (nodes (s_document s))) in *.
    unfold agrees, new_handles, given. rewrite flat_map_app. cbn [flat_map new_handle app]. split.
    { apply NoDup_rev in A1. rewrite <- (rev_involutive (_ ++ _)). apply NoDup_rev. rewrite rev_app_distr. cbn [rev app]. constructor; [|exact A1].
      intros H. apply in_rev in H. rewrite Forall_forall in A2. specialize (A2 _ H). lia. }
    split. { apply Forall_app. split; [revert A2; apply Forall_impl; intros i Hi; lia|]. constructor; [lia|constructor]. }
    split; [lia|]. intros h. rewrite flat_map_app. cbn [flat_map given_by]. rewrite app_nil_r, S1. specialize (A4 h). rewrite Nat.eqb_sym. destruct (Nat.eqb_spec k h) as [<-|Nk].
    + assert (Old : element_at (datas (s_document s)) k = None).
      { unfold element_at. replace (nth_error (datas (s_document s)) k) with (@None node_data); [reflexivity|]. symmetry. apply nth_error_None. rewrite datas_length. unfold k. lia. }
      rewrite Old in A4. destruct A4 as [H1 H2]. unfold given in H2. cbn [e_name e_attrs e_integration_point]. split; [exists attrs; apply in_or_app; right; left; reflexivity|]. split.
      * intros n b f H. apply in_app_or in H as [H|[H|[]]]; [exfalso; exact (H1 _ _ _ H)|]. split; congruence.
      * intros q. rewrite H2. reflexivity.
    + rewrite app_nil_r. assert (M : forall n b f, made (history ++ [(Change (CreateElement name attrs flag), Handle k)]) h n b f <-> made history h n b f).
      { intros n b f. unfold made. rewrite in_app_iff. split; [|left; assumption]. intros [H|[H|[]]]; [exact H|]. exfalso. apply Nk. congruence. }
      destruct (element_at (datas (s_document s)) h) as [e|].
      * destruct A4 as ((b & H1) & H2 & H3). split; [exists b; apply M; exact H1|]. split; [|exact H3]. intros n b' f H. apply M in H. exact (H2 _ _ _ H).
      * destruct A4 as [H1 H2]. split; [|exact H2]. intros n b f H. apply M in H. exact (H1 _ _ _ H).
  - destruct A as (A1 & A2 & A3 & A4).
    assert (M : forall h n b f, made (history ++ [(Change (AddAttrsIfMissing target attrs), Nothing)]) h n b f <-> made history h n b f).
    { intros h n b f. unfold made. rewrite in_app_iff. split; [|left; assumption]. intros [H|[H|[]]]; [exact H|]. discriminate H. }
    unfold agrees, new_handles, given. rewrite flat_map_app. cbn [flat_map new_handle app]. rewrite app_nil_r. split; [exact A1|]. split.
    { revert A2. apply Forall_impl. intros i Hi. lia. }
    split; [lia|]. intros h. rewrite flat_map_app. cbn [flat_map given_by]. rewrite app_nil_r, S1. specialize (A4 h).
    destruct (Nat.eqb_spec target h) as [->|].
    + destruct (element_at (datas (s_document s)) h) as [e|] eqn:El; cbn [option_map].
      * destruct A4 as ((b & H1) & H2 & H3). cbn [e_name e_attrs e_integration_point]. split; [exists b; apply M; exact H1|]. split; [intros n b' f H; apply M in H; exact (H2 _ _ _ H)|].
        intros q. rewrite named_merge, !named_app, H3. reflexivity.
      * exfalso. cbn [do_op] in Eo. unfold add_attrs_if_missing, index in Eo. unfold element_at, datas in El. rewrite nth_error_map in El.
        destruct (nth_error (nodes (s_document s)) h) as [n|]; cbn [bind] in Eo; [|discriminate Eo]. cbn [option_map] in El. destruct (data n); discriminate.
    + rewrite app_nil_r. destruct (element_at (datas (s_document s)) h) as [e|].
      * destruct A4 as ((b & H1) & H2 & H3). split; [exists b; apply M; exact H1|]. split; [|exact H3]. intros n' b' f H. apply M in H. exact (H2 _ _ _ H).
      * destruct A4 as [H1 H2]. split; [|exact H2]. intros n' b f H. apply M in H. exact (H1 _ _ _ H).
Qed.
Theorem session : forall calls s history, do_calls sink_new calls = Ok (s, history) -> agrees history (s_document s).
Proof.
  induction calls as [|c calls IH] using rev_ind; intros s history E.
  - injection E as <- <-. split; [constructor|]. split; [constructor|]. split; [cbn; lia|]. intros h.
    replace (element_at (datas (s_document sink_new)) h) with (@None element_data); [split; [intros n a f []|reflexivity]|]. destruct h as [|[|[|h]]]; reflexivity.
  - rewrite do_calls_app in E. destruct (do_calls sink_new calls) as [[s1 h1]| |]; cbn [bind fst snd] in E; [|discriminate E..]. cbn [do_calls] in E.
    destruct (do_call s1 c) as [[s2 a]| |] eqn:Ec; cbn [bind fst snd] in E; [|discriminate E..]. injection E as <- <-. exact (agrees_call _ _ _ _ _ (IH _ _ eq_refl) Ec).
Qed.
