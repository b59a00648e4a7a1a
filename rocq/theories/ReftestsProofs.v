(** Proofs for C69 *)
From Verif Require Import Base Dom DomSpec DomProofs DomTreeProofs DomWalkProofs DomStyleProofs Lester LesterSizeProofs
  Reftests ReftestsSpec.

(** * Paths *)
Definition good (p : path) : Prop := exists q b, p = q ++ [b] /\ b <> 47%N.
Definition ends_slash (p : path) : bool := match rev p with b :: _ => (b =? 47)%N | [] => false end.
Definition no_slash (s : bytes) : Prop := ~ In 47%N s.
Lemma push_no_slash : forall p c, p <> [] -> no_slash c -> push p c = (if ends_slash p then p else p ++ bs "/") ++ c.
Proof.
  intros p c P N. unfold push, ends_slash.
  replace (match c with b :: _ => (b =? 47)%N | [] => false end) with false.
  2:{ destruct c as [|b c]; [reflexivity|]. symmetry. apply N.eqb_neq. intros ->. apply N. left. reflexivity. }
  destruct (rev p) as [|b l] eqn:E.
  - exfalso. apply P. rewrite <- (rev_involutive p), E. reflexivity.
  - destruct (b =? 47)%N; reflexivity.
Qed.
Lemma good_ends : forall p, good p -> ends_slash p = false /\ p <> [].
Proof.
  intros p (q & b & -> & N). unfold ends_slash. rewrite rev_app_distr. cbn [rev app]. split.
  - apply N.eqb_neq. exact N.
  - destruct q; discriminate.
Qed.
Lemma push_good : forall p c, good p -> no_slash c -> push p c = p ++ bs "/" ++ c.
Proof.
  intros p c G N. destruct (good_ends p G) as [E P]. rewrite push_no_slash, E by auto. rewrite app_assoc. reflexivity.
Qed.
Lemma good_app : forall p c, c <> [] -> no_slash c -> good (p ++ bs "/" ++ c).
Proof.
  intros p c C N. destruct (exists_last C) as (q & b & ->). exists (p ++ bs "/" ++ q), b. split.
  - rewrite !app_assoc. reflexivity.
  - intros ->. apply N. apply in_or_app. right. left. reflexivity.
Qed.

Lemma split_parts : forall s, Forall no_slash (split_slashes s) /\ split_slashes s <> [].
Proof.
  induction s as [|b s [IH1 IH2]]; cbn [split_slashes].
  - split; [repeat constructor; intros []|discriminate].
  - destruct (N.eqb_spec b 47) as [->|Nb].
    + split; [|discriminate]. constructor; [intros []|assumption].
    + destruct (split_slashes s) as [|x l]; [congruence|]. inversion IH1; subst. split; [|discriminate].
      constructor; [|assumption]. intros [E|I]; [congruence|contradiction].
Qed.
(** What [push]es make of the slashes *)
Fixpoint collapse (after_slash : bool) (s : bytes) : bytes :=
  match s with
  | [] => []
  | b :: r =>
      if (b =? 47)%N then if after_slash then collapse true r else b :: collapse true r
      else b :: collapse false r
  end.
Lemma ends_app : forall p b, ends_slash (p ++ [b]) = (b =? 47)%N.
Proof. intros. unfold ends_slash. rewrite rev_app_distr. reflexivity. Qed.
Lemma fold_push : forall s p h t, p <> [] -> split_slashes s = h :: t ->
  fold_left push t (p ++ h) = p ++ collapse (ends_slash p) s.
Proof.
  induction s as [|b s IH]; intros p h t P E; cbn [split_slashes] in E.
  - injection E as <- <-. reflexivity.
  - destruct (split_parts s) as [F Ne]. destruct (split_slashes s) as [|x l] eqn:Es; [congruence|]. inversion F; subst.
    cbn [collapse]. destruct (b =? 47)%N eqn:Eb.
    + injection E as <- <-. apply N.eqb_eq in Eb as ->. rewrite app_nil_r. cbn [fold_left].
      rewrite push_no_slash by auto. destruct (ends_slash p) eqn:Ep.
      * rewrite (IH p x l) by auto. rewrite Ep. reflexivity.
      * rewrite (IH (p ++ bs "/") x l) by (try (destruct p; discriminate); auto).
        change (bs "/") with [47%N]. rewrite ends_app. cbn [N.eqb Pos.eqb]. rewrite <- app_assoc. reflexivity.
    + injection E as <- <-. change (b :: x) with ([b] ++ x). rewrite app_assoc.
      rewrite (IH (p ++ [b]) x l) by (try (destruct p; discriminate); auto). rewrite ends_app, Eb, <- app_assoc. reflexivity.
Qed.
Lemma collapse_single : forall s, single_slashes s (collapse false s).
Proof.
  intros s. assert (H : forall n s, length s <= n -> single_slashes s (collapse false s)); [|apply (H (length s)); auto].
  clear s. induction n as [|n IH]; intros [|b s] L; cbn [length] in L; try lia; try constructor.
  cbn [collapse]. destruct (N.eqb_spec b 47) as [->|Nb].
  - destruct s as [|c s]; [constructor|]. cbn [collapse]. destruct (N.eqb_spec c 47) as [->|Nc].
    + apply ss_slashes. apply (IH (47%N :: s)). cbn [length] in *. lia.
    + apply ss_slash; [assumption|]. specialize (IH (c :: s)). cbn [collapse] in IH.
      rewrite (proj2 (N.eqb_neq c 47) Nc) in IH. apply IH. cbn [length] in *. lia.
  - apply ss_other; [assumption|]. apply IH. lia.
Qed.
Lemma single_collapse : forall s t, single_slashes s t -> t = collapse false s.
Proof.
  induction 1 as [| |r r' H IH|b r r' N H IH|b r r' N H IH]; cbn [collapse] in *; try reflexivity.
  - exact IH.
  - cbn [N.eqb Pos.eqb] in *. rewrite (proj2 (N.eqb_neq b 47) N) in *. congruence.
  - rewrite (proj2 (N.eqb_neq b 47) N). congruence.
Qed.
Lemma resolve_iff : forall base href p, good base -> (resolve_href base href = Some p <-> relative_to base href p).
Proof.
  intros base href p G. unfold resolve_href, relative_to. destruct href as [|b r].
  - split; [discriminate|]. intros [(b & r & E & _) _]. discriminate.
  - destruct (N.eqb_spec b 47) as [->|Nb].
    + split; [discriminate|]. intros [(b & r' & E & N) _]. congruence.
    + destruct (good_ends base G) as [Eb Pb]. destruct (split_parts (b :: r)) as [F Ne].
      destruct (split_slashes (b :: r)) as [|h t] eqn:Es; [congruence|]. inversion F; subst.
      assert (E : fold_left push (h :: t) base = base ++ bs "/" ++ collapse false (b :: r)).
      { cbn [fold_left]. rewrite push_no_slash, Eb by auto.
        rewrite (fold_push (b :: r) (base ++ bs "/") h t) by (try (destruct base; discriminate); auto).
        rewrite <- app_assoc. f_equal. f_equal. change (bs "/") with [47%N]. rewrite ends_app.
        cbn [collapse]. rewrite (proj2 (N.eqb_neq b 47) Nb). reflexivity. }
      rewrite E. split.
      * intros [= <-]. split; [eauto|]. exists (collapse false (b :: r)). split; [apply collapse_single|reflexivity].
      * intros [_ (x & Hx & ->)]. rewrite (single_collapse _ _ Hx). reflexivity.
Qed.

Lemma split_last_none : forall c s, split_last c s = None <-> ~ In c s.
Proof.
  intros c. induction s as [|b s IH]; cbn [split_last In]; [tauto|].
  destruct (split_last c s) as [[x y]|] eqn:E.
  - split; [discriminate|]. intros N. assert (~ In c s) as Ns by tauto. apply IH in Ns. discriminate.
  - pose proof (proj1 IH eq_refl). destruct (N.eqb_spec b c) as [->|Nb]; split; try discriminate; tauto.
Qed.
Lemma split_last_some : forall c s x y, split_last c s = Some (x, y) <-> s = x ++ c :: y /\ ~ In c y.
Proof.
  intros c. induction s as [|b s IH]; intros x y; cbn [split_last].
  - split; [discriminate|]. intros [E _]. destruct x; discriminate.
  - destruct (split_last c s) as [[x' y']|] eqn:E.
    + destruct (proj1 (IH x' y') eq_refl) as [-> N]. split.
      * intros H. assert (x = b :: x' /\ y = y') as [-> ->] by (split; congruence). auto.
      * intros [H N']. destruct x as [|b' x]; cbn [app] in H.
        -- exfalso. injection H as _ <-. apply N'. apply in_or_app. right. left. reflexivity.
        -- injection H as -> H. assert (Some (x', y') = Some (x, y)) as E' by (apply IH; auto). inversion E'. reflexivity.
    + pose proof (proj1 (split_last_none c s) E) as N. destruct (N.eqb_spec b c) as [->|Nb]; split.
      * intros [= <- <-]. auto.
      * intros [H N']. destruct x as [|b' x]; cbn [app] in H; [inversion H; subst; congruence || reflexivity|]. exfalso. injection H as _ ->. apply N.
        apply in_or_app. right. left. reflexivity.
      * discriminate.
      * intros [H N']. destruct x as [|b' x]; cbn [app] in H; [inversion H; subst; congruence || reflexivity|]. exfalso. injection H as _ ->. apply N.
        apply in_or_app. right. left. reflexivity.
Qed.
Lemma trim_spec : forall p, exists slashes, p = trim_end_slashes p ++ slashes /\ Forall (fun b => b = 47%N) slashes.
Proof.
  induction p as [|b p (sl & E & F)]; cbn [trim_end_slashes]; [exists []; auto|].
  destruct (trim_end_slashes p) as [|c t].
  - destruct (N.eqb_spec b 47) as [->|Nb].
    + exists (47%N :: p). split; [reflexivity|]. constructor; [reflexivity|]. rewrite E. exact F.
    + exists p. split; [reflexivity|]. rewrite E. exact F.
  - exists sl. split; [|exact F]. rewrite E at 1. reflexivity.
Qed.
Lemma trim_app : forall slashes p b, Forall (fun b => b = 47%N) slashes -> b <> 47%N ->
  trim_end_slashes (p ++ b :: slashes) = p ++ [b].
Proof.
  intros slashes p b F N.
  assert (Z : trim_end_slashes slashes = []).
  { induction F as [|c l -> F IH]; cbn [trim_end_slashes]; [reflexivity|]. rewrite IH. reflexivity. }
  induction p as [|c p IH]; cbn [app trim_end_slashes].
  - rewrite Z. rewrite (proj2 (N.eqb_neq b 47) N). reflexivity.
  - rewrite IH. destruct p; reflexivity.
Qed.
Lemma extension_iff : forall p e, e <> [] -> ~ In 47%N e -> (extension p = Some e <-> has_extension p e).
Proof.
  intros p e Ne Se. split.
  - unfold extension, file_name. intros H. destruct (trim_spec p) as (sl & E & F). set (q := trim_end_slashes p) in *. clearbody q.
    destruct (bytes_eqb _ _); [discriminate|].
    destruct (split_last 46 (match split_last 47 q with Some (_, y) => y | None => q end)) as [[[|x0 x] y]|] eqn:S; try discriminate.
    injection H as ->. apply split_last_some in S as [S Dot].
    destruct (split_last 47 q) as [[d y]|] eqn:Q.
    + apply split_last_some in Q as [-> Sy]. rewrite S in E, Sy. exists (d ++ bs "/"), (x0 :: x), sl.
      split; [rewrite E; cbn [app bs]; rewrite <- !app_assoc; cbn [app]; rewrite <- !app_assoc; reflexivity|].
      split; [right; eauto|]. split; [discriminate|]. repeat split; auto.
      intros I. apply Sy. apply in_or_app. left. exact I.
    + apply split_last_none in Q. rewrite S in E, Q. exists [], (x0 :: x), sl.
      split; [rewrite E; rewrite <- !app_assoc; reflexivity|]. split; [auto|]. split; [discriminate|]. repeat split; auto.
      intros I. apply Q. apply in_or_app. left. exact I.
  - intros (d & n & sl & -> & D & Nn & Sn & De & _ & F). unfold extension.
    assert (Fn : file_name (d ++ n ++ bs "." ++ e ++ sl) = n ++ bs "." ++ e).
    { unfold file_name. destruct (exists_last Ne) as (e' & b & ->).
      assert (T : trim_end_slashes (d ++ n ++ bs "." ++ (e' ++ [b]) ++ sl) = d ++ n ++ bs "." ++ e' ++ [b]).
      { replace (d ++ n ++ bs "." ++ (e' ++ [b]) ++ sl) with ((d ++ n ++ bs "." ++ e') ++ b :: sl)
          by (rewrite <- !app_assoc; reflexivity).
        rewrite trim_app; [rewrite <- !app_assoc; reflexivity|assumption|]. intros ->. apply Se. apply in_or_app. right. left. reflexivity. }
      rewrite T. assert (Z : ~ In 47%N (n ++ bs "." ++ e' ++ [b])).
      { rewrite in_app_iff, in_app_iff. intros [I|[I|I]]; [auto| |auto]. destruct I as [I|[]]. discriminate. }
      destruct D as [->|(d' & ->)].
      - cbn [app]. rewrite (proj2 (split_last_none _ _) Z). reflexivity.
      - rewrite <- app_assoc. rewrite (proj2 (split_last_some 47 _ d' (n ++ bs "." ++ e' ++ [b]))); [reflexivity|]. split; [reflexivity|exact Z]. }
    rewrite Fn. replace (bytes_eqb (n ++ bs "." ++ e) (bs "..")) with false.
    + rewrite (proj2 (split_last_some 46 _ n e)) by (split; [reflexivity|exact De]). destruct n; [congruence|reflexivity].
    + symmetry. unfold bytes_eqb. destruct (list_eq_dec _ _ _) as [H|]; [|reflexivity]. exfalso.
      destruct n as [|x [|y n]]; cbn [app bs] in H; [congruence| |].
      * injection H as _ H. destruct e; [congruence|discriminate].
      * apply (f_equal (@length N)) in H. cbn in H. rewrite app_length in H. cbn in H. lia.
Qed.
Lemma parent_app : forall d name, no_slash name -> path_parent (d ++ bs "/" ++ name) = Some d.
Proof.
  intros d name N. unfold path_parent. rewrite (proj2 (split_last_some 47 _ d name)); [reflexivity|]. split; [reflexivity|exact N].
Qed.

(** * Links *)
Lemma links_in : forall d l r, links_of d l r -> forall rel href, In (rel, href) r <->
  exists i e, In i l /\ data (node_at d i) = DElement e /\ q_ns (e_name e) = ns_html /\ q_local (e_name e) = bs "link" /\
    first_attr (bs "rel") (e_attrs e) (Some rel) /\ first_attr (bs "href") (e_attrs e) (Some href).
Proof.
  assert (U : forall e name v w, first_attr name (e_attrs e) (Some v) -> first_attr name (e_attrs e) (Some w) -> v = w).
  { intros e name v w H1 H2. apply get_attr_first in H1, H2. congruence. }
  induction 1 as [|i l r e rel' href' D E1 E2 A1 A2 H IH|i l r N H IH]; intros rel href; cbn [In].
  - split; [intros []|]. intros (i & _ & [] & _).
  - rewrite IH. split.
    + intros [E|(j & e' & I & X)].
      * assert (rel' = rel /\ href' = href) as [-> ->] by (inversion E; auto). exists i, e. auto 10.
      * exists j, e'. auto 10.
    + intros (j & e' & [<-|I] & D' & X1 & X2 & X3 & X4).
      * rewrite D in D'. injection D' as <-. left. f_equal; eapply U; eassumption.
      * right. exists j, e'. auto 10.
  - rewrite IH. split.
    + intros (j & e' & I & X). exists j, e'. auto 10.
    + intros (j & e' & [<-|I] & D' & X1 & X2 & X3 & X4).
      * exfalso. eauto.
      * exists j, e'. auto 10.
Qed.
Lemma html_links : forall d kids, doc_forest d kids -> exists links, html_link_elements d = Ok links /\
  forall rel href, In (rel, href) links <-> link_in d rel href.
Proof.
  intros d kids H. destruct (tree_nodes_ok d kids H) as (t & Rt & St & E & _ & An).
  destruct (link_elements_ok d (preorder t)) as (r & El & Lo).
  - intros i I. apply (preorder_reach kids t St) in I. eapply reach_bound; [apply H| |exact I]. rewrite Rt.
    destruct H as (_ & L & _). unfold document_node_id. lia.
  - exists r. split; [unfold html_link_elements; rewrite E; exact El|].
    intros rel href. rewrite (links_in _ _ _ Lo). unfold link_in. split; intros (i & e & I & X); exists i, e; (split; [apply An; exact I|exact X]).
Qed.

(** * Steps *)
Lemma then_some : forall A B (s : step A) (f : A -> step B) log b log',
  and_then s f log = (Some b, log') -> exists a mid, s log = (Some a, mid) /\ f a mid = (Some b, log').
Proof. intros A B s f log b log' H. unfold and_then in H. destruct (s log) as [[a|] mid]; [eauto|discriminate]. Qed.
Lemma then_run : forall A B (s : step A) (f : A -> step B) log a mid, s log = (Some a, mid) -> and_then s f log = f a mid.
Proof. intros A B s f log a mid H. unfold and_then. rewrite H. reflexivity. Qed.
Lemma then_none : forall A B (s : step A) (f : A -> step B) log mid, s log = (None, mid) -> and_then s f log = (None, mid).
Proof. intros A B s f log mid H. unfold and_then. rewrite H. reflexivity. Qed.
Lemma ext_of : forall p s, In s [bs "html"; bs "pdf"; bs "png"] -> (extension p = Some s <-> has_extension p s).
Proof.
  intros p s I. apply extension_iff.
  - destruct I as [<-|[<-|[<-|[]]]]; discriminate.
  - destruct I as [<-|[<-|[<-|[]]]]; cbn [bs list_ascii_of_string map In N_of_ascii]; intros H; vm_compute in H; intuition discriminate.
Qed.
Lemma beq_true : forall a b, bytes_eqb a b = true <-> a = b.
Proof. intros. unfold bytes_eqb. destruct (list_eq_dec N.eq_dec a b); split; congruence. Qed.
Lemma beq_refl : forall a, bytes_eqb a a = true.
Proof. intros. apply beq_true. reflexivity. Qed.
Lemma ext_unique : forall p a b, In a [bs "html"; bs "pdf"; bs "png"] -> In b [bs "html"; bs "pdf"; bs "png"] ->
  has_extension p a -> has_extension p b -> a = b.
Proof. intros p a b Ia Ib H1 H2. apply ext_of in H1; [|exact Ia]. apply ext_of in H2; [|exact Ib]. congruence. Qed.

Section Steps.
Variable read : path -> option bytes.
Variable parse_html : bytes -> option document.
Variable to_pdf_bytes : document -> option bytes.
Variable page_count : bytes -> option nat.
Variable read_from_png : bytes -> option image.
Variable render : bytes -> nat -> option image.
Variable target_dir : path.
Notation load_file := (load_file read parse_html read_from_png).
Notation expect_single_page := (expect_single_page to_pdf_bytes page_count render).
Notation pages_pixels := (pages_pixels to_pdf_bytes page_count render).
Notation html_file := (html_file read parse_html).
Notation shows := (shows read parse_html to_pdf_bytes page_count read_from_png render).


(** A file just loaded *)
Inductive loaded (p : path) : test_file -> Prop :=
| ld_html : forall d, html_file p d -> loaded p (TestFile p (Some d) None None)
| ld_pdf : forall c, has_extension p (bs "pdf") -> read p = Some c -> loaded p (TestFile p None (Some c) None)
| ld_png : forall c i, has_extension p (bs "png") -> read p = Some c -> read_from_png c = Some i ->
    loaded p (TestFile p None None (Some [i])).
Lemma load_some : forall p log t log', load_file p log = (Some t, log') <-> loaded p t /\ log' = log ++ [ReadFile p].
Proof.
  intros p log t log'. unfold load_file, and_then, emit, lift, done, panic. split.
  - destruct (read p) as [c|] eqn:R; [|discriminate]. destruct (extension p) as [e|] eqn:E; [|discriminate].
    destruct (bytes_eqb e (bs "html")) eqn:E1; [|destruct (bytes_eqb e (bs "pdf")) eqn:E2; [|destruct (bytes_eqb e (bs "png")) eqn:E3; [|discriminate]]].
    + apply beq_true in E1 as ->. apply ext_of in E; [|cbn; auto]. destruct (parse_html c) as [d|] eqn:P; [|discriminate].
      intros H. inversion H; subst. split; [|reflexivity]. apply ld_html. split; eauto.
    + apply beq_true in E2 as ->. apply ext_of in E; [|cbn; auto]. intros H. inversion H; subst. split; [|reflexivity].
      apply ld_pdf; auto.
    + apply beq_true in E3 as ->. apply ext_of in E; [|cbn; auto]. destruct (read_from_png c) as [i|] eqn:P; [|discriminate].
      intros H. inversion H; subst. split; [|reflexivity]. eapply ld_png; eauto.
  - intros [L ->]. destruct L as [d [X (c & R & P)]|c X R|c i X R P]; apply ext_of in X; try (cbn; auto; fail); rewrite R, X.
    + rewrite beq_refl, P. reflexivity.
    + replace (bytes_eqb (bs "pdf") (bs "html")) with false by reflexivity. rewrite beq_refl. reflexivity.
    + replace (bytes_eqb (bs "png") (bs "html")) with false by reflexivity.
      replace (bytes_eqb (bs "png") (bs "pdf")) with false by reflexivity. rewrite beq_refl, P. reflexivity.
Qed.

(** Its only page *)
Inductive opened : test_file -> image -> test_file -> list event -> Prop :=
| op_html : forall p d pdf i, to_pdf_bytes d = Some pdf -> page_count pdf = Some 1 -> render pdf 1 = Some i ->
    opened (TestFile p (Some d) None None) i (TestFile p (Some d) (Some pdf) (Some [i])) [ToPdf d; CountPages pdf; Render pdf 1]
| op_png : forall p i, opened (TestFile p None None (Some [i])) i (TestFile p None None (Some [i])) [].
Lemma render_length : forall pdf l log r log', render_pages render pdf l log = (Some r, log') -> length r = length l.
Proof.
  intros pdf. induction l as [|n l IH]; intros log r log' H; cbn [render_pages] in H.
  - inversion H. reflexivity.
  - apply then_some in H as (u & m1 & H1 & H). apply then_some in H as (i & m2 & H2 & H).
    apply then_some in H as (l' & m3 & H3 & H). inversion H; subst. cbn [length]. f_equal. eapply IH. exact H3.
Qed.
Lemma single_some : forall p t, loaded p t -> forall log i t' log',
  expect_single_page t log = (Some (i, t'), log') <-> exists evs, opened t i t' evs /\ log' = log ++ evs.
Proof.
  intros p t L log i t' log'. split.
  - intros H. unfold expect_single_page in H. apply then_some in H as ([l u] & m & H & H').
    assert (l = [i] /\ u = t' /\ log' = m) as (-> & -> & ->).
    { destruct l as [|x [|y l]]; try discriminate. inversion H'. auto. } clear H'.
    destruct L as [d F|c X R|c j X R P]; unfold pages_pixels in H; cbn [tf_pages_pixels tf_doc tf_pdf tf_path] in H.
    + apply then_some in H as ([b u] & m1 & H1 & H). unfold pdf_bytes in H1. cbn [tf_pages_pixels tf_doc tf_pdf tf_path] in H1.
      unfold and_then, lift, emit, done in H1. destruct (to_pdf_bytes d) as [pdf|] eqn:Ep; [|discriminate]. inversion H1; subst. clear H1.
      apply then_some in H as (u1 & m2 & H2 & H). inversion H2; subst. clear H2.
      apply then_some in H as (n & m3 & H3 & H). unfold lift in H3. destruct (page_count b) as [n'|] eqn:Ec; [|discriminate].
      inversion H3; subst. clear H3. apply then_some in H as (l & m4 & H4 & H). inversion H; subst. clear H.
      pose proof (render_length _ _ _ _ _ H4) as Ln. rewrite seq_length in Ln. cbn [length] in Ln. subst n.
      cbn [seq render_pages] in H4. unfold and_then, lift, emit, done in H4. destruct (render b 1) as [i'|] eqn:Er; [|discriminate].
      inversion H4; subst. eexists. split; [apply op_html; eassumption|]. rewrite <- !app_assoc. reflexivity.
    + apply then_some in H as (bt & m1 & H1 & _). unfold pdf_bytes in H1. apply then_some in H1 as (d & m2 & H2 & _). discriminate.
    + inversion H; subst. exists []. split; [constructor|]. rewrite app_nil_r. reflexivity.
  - intros (evs & O & ->). destruct O as [q d pdf i0 E1 E2 E3|q i0].
    + unfold expect_single_page, pages_pixels, pdf_bytes, and_then, lift, emit, done.
      cbn [tf_pages_pixels tf_doc tf_pdf tf_path]. rewrite E1, E2. cbn [seq render_pages]. unfold and_then, lift, emit, done.
      rewrite E3. rewrite <- !app_assoc. reflexivity.
    + rewrite app_nil_r. reflexivity.
Qed.
(** Whose page is looked at *)
Inductive page_of (p : path) (i : image) (t : test_file) (evs : list event) : Prop :=
| page_of_ : forall t0 e, loaded p t0 -> opened t0 i t e -> evs = ReadFile p :: e -> page_of p i t evs.
Lemma page_of_shows : forall p i, (exists t evs, page_of p i t evs) <-> shows p i.
Proof.
  intros p i. split.
  - intros (t & evs & [t0 e L O ->]). inversion O; subst; inversion L; subst.
    + eapply shows_html; eassumption.
    + eapply shows_png; eassumption.
  - intros [d pdf F E1 E2 E3|c X R P]; do 2 eexists; econstructor.
    + apply ld_html. exact F.
    + apply op_html; eassumption.
    + reflexivity.
    + eapply ld_png; eassumption.
    + apply op_png.
    + reflexivity.
Qed.
Lemma shows_unique : forall p i j, shows p i -> shows p j -> i = j.
Proof.
  intros p i j H1 H2. apply page_of_shows in H1 as (t1 & e1 & [a1 b1 L1 O1 _]). apply page_of_shows in H2 as (t2 & e2 & [a2 b2 L2 O2 _]).
  assert (a1 = a2) as ->.
  { assert (E1 := proj2 (load_some p [] a1 _) (conj L1 eq_refl)). assert (E2 := proj2 (load_some p [] a2 _) (conj L2 eq_refl)).
    rewrite E1 in E2. inversion E2. reflexivity. }
  assert (E1 := proj2 (single_some p a2 L2 [] i t1 _) (ex_intro _ b1 (conj O1 eq_refl))).
  assert (E2 := proj2 (single_some p a2 L2 [] j t2 _) (ex_intro _ b2 (conj O2 eq_refl))).
  rewrite E1 in E2. inversion E2. reflexivity.
Qed.

Notation compare := (compare read parse_html to_pdf_bytes page_count read_from_png render target_dir).
Lemma compare_some : forall refs t page log log',
  compare t page refs log = (Some tt, log') <->
  exists evs, Forall2 (fun (er : bool * path) e => exists i u, page_of (snd er) i u e /\ pixels_eq page i = fst er) refs evs /\
    log' = log ++ concat evs.
Proof.
  induction refs as [|[ex r] refs IH]; intros t page log log'; cbn [compare].
  - split.
    + intros H. inversion H; subst. exists []. split; [constructor|]. cbn [concat]. rewrite app_nil_r. reflexivity.
    + intros (evs & F & ->). inversion F; subst. cbn [concat]. rewrite app_nil_r. reflexivity.
  - split.
    + intros H. apply then_some in H as (t0 & m1 & H1 & H). apply load_some in H1 as [L ->].
      apply then_some in H as ([i u] & m2 & H2 & H). apply (single_some r t0 L) in H2 as (e & O & ->).
      destruct (Bool.eqb (pixels_eq page i) ex) eqn:Eq; cbn [negb] in H.
      * apply IH in H as (evs & F & ->). apply eqb_prop in Eq. exists ((ReadFile r :: e) :: evs). split.
        -- constructor; [|exact F]. exists i, u. cbn [fst snd]. split; [econstructor; eauto|exact Eq].
        -- cbn [concat app]. rewrite <- !app_assoc. reflexivity.
      * apply then_some in H as (a & ma & _ & H). apply then_some in H as (b & mb & _ & H).
        apply then_some in H as (c & mc & _ & H). apply then_some in H as (x & mx & _ & H). discriminate.
    + intros (evs & F & ->). inversion F as [|? e0 ? evs' (i & u & [t0 e L O ->] & Eq) F']; subst. cbn [fst snd] in *.
      rewrite (then_run _ _ _ _ _ _ _ (proj2 (load_some r log t0 _) (conj L eq_refl))).
      rewrite (then_run _ _ _ _ _ _ _ (proj2 (single_some r t0 L _ i u _) (ex_intro _ e (conj O eq_refl)))).
      rewrite Eq. rewrite Bool.eqb_reflx. cbn [negb]. apply IH. exists evs'. split; [exact F'|].
      cbn [concat app]. rewrite <- !app_assoc. reflexivity.
Qed.
Lemma references_some : forall base links l, good base -> references_of base links = Some l ->
  (forall rel href, In (rel, href) links -> rel = bs "match" \/ rel = bs "mismatch" ->
     exists p, relative_to base href p /\ In (bytes_eqb rel (bs "match"), p) l) /\
  (forall e p, In (e, p) l -> exists rel href, In (rel, href) links /\ relative_to base href p /\
     (rel = bs "match" /\ e = true \/ rel = bs "mismatch" /\ e = false)).
Proof.
  intros base links l G. revert l. induction links as [|[rel href] links IH]; intros l H; cbn [references_of] in H.
  - injection H as <-. split; [intros ? ? []|intros ? ? []].
  - assert (C : forall x y z, bytes_eqb x y || bytes_eqb x z = true <-> x = y \/ x = z).
    { intros. rewrite orb_true_iff, !beq_true. reflexivity. }
    destruct (bytes_eqb rel (bs "match") || bytes_eqb rel (bs "mismatch")) eqn:E.
    + apply C in E. destruct (resolve_href base href) as [p|] eqn:R; [|discriminate].
      destruct (references_of base links) as [l'|]; [|discriminate]. injection H as <-.
      destruct (IH l' eq_refl) as [IH1 IH2]. apply (resolve_iff base href p G) in R. split.
      * intros rel0 href0 [X|I] Y.
        -- assert (rel0 = rel /\ href0 = href) as [-> ->] by (inversion X; auto). exists p. split; [exact R|]. left. reflexivity.
        -- destruct (IH1 _ _ I Y) as (q & Q1 & Q2). exists q. split; [exact Q1|]. right. exact Q2.
      * intros e q [X|I].
        -- assert (e = bytes_eqb rel (bs "match") /\ q = p) as [-> ->] by (inversion X; auto). exists rel, href.
           split; [left; reflexivity|]. split; [exact R|]. destruct E as [->| ->]; [left|right]; split; reflexivity.
        -- destruct (IH2 _ _ I) as (a & b & Q1 & Q2). exists a, b. split; [right; exact Q1|exact Q2].
    + assert (N : ~ (rel = bs "match" \/ rel = bs "mismatch")) by (intros X; apply C in X; congruence).
      destruct (IH l H) as [IH1 IH2]. split.
      * intros rel0 href0 [X|I] Y; [|eauto]. assert (rel0 = rel) as -> by (inversion X; auto). contradiction.
      * intros e q I. destruct (IH2 _ _ I) as (a & b & Q1 & Q2). exists a, b. split; [right; exact Q1|exact Q2].
Qed.
Lemma references_total : forall base links, good base ->
  (forall rel href, In (rel, href) links -> rel = bs "match" \/ rel = bs "mismatch" -> exists p, relative_to base href p) ->
  exists l, references_of base links = Some l.
Proof.
  intros base links G. induction links as [|[rel href] links IH]; intros H; cbn [references_of]; [eauto|].
  destruct IH as [l ->]; [intros; eapply H; [right; eassumption|assumption]|].
  destruct (bytes_eqb rel (bs "match") || bytes_eqb rel (bs "mismatch")) eqn:E; [|eauto].
  rewrite orb_true_iff, !beq_true in E. destruct (H rel href (or_introl eq_refl) E) as [p R].
  apply (resolve_iff base href p G) in R. rewrite R. eauto.
Qed.

(** * The whole test *)
Notation test := (test read parse_html to_pdf_bytes page_count read_from_png render target_dir).
Definition run (p : path) : step unit := and_then (load_file p) (fun t => test t).
Hypothesis parsed : forall c d, parse_html c = Some d -> exists kids, doc_forest d kids.

Lemma html_unique : forall p d d', html_file p d -> html_file p d' -> d = d'.
Proof. intros p d d' [_ (c & R & P)] [_ (c' & R' & P')]. congruence. Qed.
Lemma html_loaded : forall p d t, html_file p d -> loaded p t -> t = TestFile p (Some d) None None.
Proof.
  intros p d t F L. destruct L as [d' F'|c X R|c i X R P].
  - rewrite (html_unique p d d' F F'). reflexivity.
  - exfalso. assert (bs "html" = bs "pdf") by (refine (ext_unique p _ _ _ _ (proj1 F) X); cbn; auto). discriminate.
  - exfalso. assert (bs "html" = bs "png") by (refine (ext_unique p _ _ _ _ (proj1 F) X); cbn; auto). discriminate.
Qed.
Definition refs_of (base : path) (t : test_file) : option (list (bool * path)) :=
  match tf_doc t with
  | None => Some []
  | Some d => match html_link_elements d with Ok links => references_of base links | _ => None end
  end.
(** The references of a test: those its links are to, with whether they are to match *)
Definition refers (base p : path) (e : bool) (r : path) : Prop :=
  exists d rel href, html_file p d /\ link_in d rel href /\ relative_to base href r /\
    (rel = bs "match" /\ e = true \/ rel = bs "mismatch" /\ e = false).
Lemma refs_some : forall base p t l, good base -> loaded p t -> refs_of base t = Some l ->
  (forall e r, In (e, r) l <-> refers base p e r) /\
  (forall d rel href, html_file p d -> link_in d rel href -> rel = bs "match" \/ rel = bs "mismatch" -> exists r, relative_to base href r).
Proof.
  intros base p t l G L H. unfold refs_of in H. destruct L as [d F|c X R|c i X R P]; cbn [tf_doc] in H.
  - pose proof F as [_ (c & _ & Pc)]. destruct (parsed c d Pc) as [kids Fo]. destruct (html_links d kids Fo) as (links & E & Li).
    rewrite E in H. destruct (references_some base links l G H) as [S1 S2]. split.
    + intros e r. split.
      * intros I. destruct (S2 e r I) as (rel & href & Il & Rl & C). exists d, rel, href. rewrite <- Li. auto.
      * intros (d' & rel & href & F' & Il & Rl & C). assert (d = d') as <- by (eapply html_unique; eassumption).
        apply Li in Il. destruct (S1 rel href Il) as (q & Rq & Iq); [tauto|].
        assert (q = r) as -> by (apply (resolve_iff base href q G) in Rq; apply (resolve_iff base href r G) in Rl; congruence).
        replace e with (bytes_eqb rel (bs "match")); [exact Iq|]. destruct C as [[-> ->]|[-> ->]]; reflexivity.
    + intros d' rel href F' Il C. assert (d = d') as <- by (eapply html_unique; eassumption). apply Li in Il.
      destruct (S1 rel href Il C) as (q & Rq & _). eauto.
  - injection H as <-. split.
    + intros e r. split; [intros []|]. intros (d & _ & _ & F & _). discriminate (html_loaded p d _ F (ld_pdf p c X R)).
    + intros d rel href F. discriminate (html_loaded p d _ F (ld_pdf p c X R)).
  - injection H as <-. split.
    + intros e r. split; [intros []|]. intros (d & _ & _ & F & _). discriminate (html_loaded p d _ F (ld_png p c i X R P)).
    + intros d rel href F. discriminate (html_loaded p d _ F (ld_png p c i X R P)).
Qed.
Lemma run_unfold : forall base name log, good base -> no_slash name -> let p := base ++ bs "/" ++ name in
  run p log = and_then (load_file p) (fun t => and_then (lift (refs_of base t)) (fun refs =>
    and_then (expect_single_page t) (fun it => let (page, t) := (it : image * test_file) in compare t page refs))) log.
Proof.
  intros base name log G N p. unfold run, test. unfold and_then at 1. unfold and_then at 4.
  destruct (load_file p log) as [[t|] m] eqn:E; [|reflexivity].
  apply load_some in E as [L _]. assert (tf_path t = p) as -> by (destruct L; reflexivity).
  unfold p. rewrite parent_app by exact N. reflexivity.
Qed.
Lemma run_some : forall base name log log', good base -> no_slash name -> let p := base ++ bs "/" ++ name in
  run p log = (Some tt, log') <->
  exists t page u e refs evs, loaded p t /\ opened t page u e /\ refs_of base t = Some refs /\
    Forall2 (fun (er : bool * path) e => exists i u, page_of (snd er) i u e /\ pixels_eq page i = fst er) refs evs /\
    log' = log ++ (ReadFile p :: e) ++ concat evs.
Proof.
  intros base name log log' G N p. unfold p. rewrite run_unfold by auto. fold p. split.
  - intros H. apply then_some in H as (t & m1 & H1 & H). apply load_some in H1 as [L ->].
    apply then_some in H as (refs & m2 & H2 & H). unfold lift in H2. assert (refs_of base t = Some refs /\ m2 = log ++ [ReadFile p]) as [Er ->] by (inversion H2; auto).
    apply then_some in H as ([page u] & m3 & H3 & H). apply (single_some p t L) in H3 as (e & O & ->).
    apply compare_some in H as (evs & F & ->). exists t, page, u, e, refs, evs. repeat split; auto.
    cbn [app]. rewrite <- !app_assoc. reflexivity.
  - intros (t & page & u & e & refs & evs & L & O & Er & F & ->).
    rewrite (then_run _ _ _ _ _ _ _ (proj2 (load_some p log t _) (conj L eq_refl))).
    erewrite then_run by (unfold lift; rewrite Er; reflexivity).
    rewrite (then_run _ _ _ _ _ _ _ (proj2 (single_some p t L _ page u _) (ex_intro _ e (conj O eq_refl)))).
    apply compare_some. exists evs. split; [exact F|]. cbn [app]. rewrite <- !app_assoc. reflexivity.
Qed.
Lemma run_passes : forall base name log, good base -> no_slash name -> let p := base ++ bs "/" ++ name in
  (exists log', run p log = (Some tt, log')) <->
  passes read parse_html to_pdf_bytes page_count read_from_png render base p.
Proof.
  intros base name log G N p. split.
  - intros (log' & H). apply run_some in H as (t & page & u & e & refs & evs & L & O & Er & F & _); auto. fold p in L.
    destruct (refs_some base p t refs G L Er) as [R1 R2].
    assert (Sp : shows p page) by (apply page_of_shows; do 2 eexists; econstructor; eauto).
    exists page. split; [exact Sp|]. intros d rel href Fd Il.
    assert (Each : forall ex r, In (ex, r) refs -> exists i, shows r i /\ pixels_eq page i = ex).
    { clear - F. induction F as [|[ex r] e refs evs (i & u & Pi & Eq) F IH]; intros ex0 r0 I; [destruct I|].
      destruct I as [I|I]; [|eauto]. assert (ex = ex0 /\ r = r0) as [<- <-] by (inversion I; auto). exists i. split; [|exact Eq].
      apply page_of_shows. eauto. }
    split.
    + intros ->. destruct (R2 d (bs "match") href Fd Il) as (r & Rr); [auto|].
      assert (I : In (true, r) refs) by (apply R1; exists d, (bs "match"), href; auto 10).
      destruct (Each _ _ I) as (i & Si & Eq). apply pixels_eq_eq in Eq as ->. eauto.
    + intros ->. destruct (R2 d (bs "mismatch") href Fd Il) as (r & Rr); [auto|].
      assert (I : In (false, r) refs) by (apply R1; exists d, (bs "mismatch"), href; auto 10).
      destruct (Each _ _ I) as (i & Si & Eq). exists r, i. split; [exact Rr|]. split; [exact Si|].
      intros ->. assert (pixels_eq page page = true) by (apply pixels_eq_eq; reflexivity). congruence.
  - intros (page & Sp & H). apply page_of_shows in Sp as (u & ev & [t e L O ->]).
    assert (exists refs, refs_of base t = Some refs) as [refs Er].
    { unfold refs_of. destruct L as [d F|c X R|c i X R P]; cbn [tf_doc]; eauto.
      pose proof F as [_ (c & _ & Pc)]. destruct (parsed c d Pc) as [kids Fo]. destruct (html_links d kids Fo) as (links & E & Li).
      rewrite E. apply references_total; [exact G|]. intros rel href I C. apply Li in I. destruct (H d rel href F I) as [H1 H2].
      destruct C as [C|C]; [destruct (H1 C) as (r & Rr & _)|destruct (H2 C) as (r & _ & Rr & _)]; eauto. }
    destruct (refs_some base p t refs G L Er) as [R1 _].
    assert (exists evs, Forall2 (fun (er : bool * path) e => exists i u, page_of (snd er) i u e /\ pixels_eq page i = fst er) refs evs) as [evs F].
    { assert (Each : forall ex r, In (ex, r) refs -> exists i u e, page_of r i u e /\ pixels_eq page i = ex).
      { intros ex r I. apply R1 in I as (d & rel & href & Fd & Il & Rr & C). destruct (H d rel href Fd Il) as [H1 H2].
        destruct C as [[-> ->]|[-> ->]].
        - destruct (H1 eq_refl) as (r' & Rr' & Sr). assert (r' = r) as ->.
          { apply (resolve_iff base href r' G) in Rr'. apply (resolve_iff base href r G) in Rr. congruence. }
          apply page_of_shows in Sr as (u1 & e1 & P1). exists page, u1, e1. split; [exact P1|]. apply pixels_eq_eq. reflexivity.
        - destruct (H2 eq_refl) as (r' & i & Rr' & Sr & Ne). assert (r' = r) as ->.
          { apply (resolve_iff base href r' G) in Rr'. apply (resolve_iff base href r G) in Rr. congruence. }
          apply page_of_shows in Sr as (u1 & e1 & P1). exists i, u1, e1. split; [exact P1|].
          destruct (pixels_eq page i) eqn:Eq; [|reflexivity]. apply pixels_eq_eq in Eq. congruence. }
      clear - Each. induction refs as [|[ex r] refs IH]; [exists []; constructor|].
      destruct (Each ex r (or_introl eq_refl)) as (i & u & e & P & Eq). destruct IH as [evs F]; [intros; apply Each; right; assumption|].
      exists (e :: evs). constructor; [|exact F]. exists i, u. auto. }
    eexists. apply run_some; auto. exists t, page, u, e, refs, evs. auto 10.
Qed.

(** * Reports *)
Definition writes (e : event) : Prop := match e with WritePng _ _ | WriteFile _ _ => True | _ => False end.
Definition quiet {A} (s : step A) : Prop := forall log, exists evs, snd (s log) = log ++ evs /\ Forall (fun e => ~ writes e) evs.
Lemma quiet_then : forall A B (s : step A) (f : A -> step B), quiet s -> (forall a, quiet (f a)) -> quiet (and_then s f).
Proof.
  intros A B s f Q1 Q2 log. destruct (Q1 log) as (e1 & E1 & F1). unfold and_then. destruct (s log) as [[a|] m]; cbn [snd] in E1.
  - destruct (Q2 a m) as (e2 & E2 & F2). exists (e1 ++ e2). rewrite E2, E1, app_assoc. split; [reflexivity|]. apply Forall_app; auto.
  - exists e1. auto.
Qed.
Lemma quiet_lift : forall A (o : option A), quiet (lift o).
Proof. intros A o log. exists []. rewrite app_nil_r. auto. Qed.
Lemma quiet_done : forall A (a : A), quiet (done a).
Proof. intros A a log. exists []. rewrite app_nil_r. auto. Qed.
Lemma quiet_panic : forall A, quiet (@panic A).
Proof. intros A log. exists []. rewrite app_nil_r. auto. Qed.
Lemma quiet_emit : forall e, ~ writes e -> quiet (emit e).
Proof. intros e N log. exists [e]. split; [reflexivity|]. repeat constructor. exact N. Qed.
Lemma quiet_load : forall p, quiet (load_file p).
Proof.
  intros p. unfold load_file. apply quiet_then; [apply quiet_emit; auto|]. intros _. apply quiet_then; [apply quiet_lift|].
  intros c. destruct (extension p) as [e|]; [|apply quiet_panic].
  destruct (bytes_eqb e (bs "html")); [apply quiet_then; [apply quiet_lift|intros; apply quiet_done]|].
  destruct (bytes_eqb e (bs "pdf")); [apply quiet_done|].
  destruct (bytes_eqb e (bs "png")); [apply quiet_then; [apply quiet_lift|intros; apply quiet_done]|]. apply quiet_panic.
Qed.
Lemma quiet_single : forall t, quiet (expect_single_page t).
Proof.
  intros t. unfold expect_single_page. apply quiet_then; [|intros [[|i [|j l]] u]; apply quiet_panic || apply quiet_done].
  unfold pages_pixels. destruct (tf_pages_pixels t); [apply quiet_done|]. apply quiet_then.
  - unfold pdf_bytes. apply quiet_then; [apply quiet_lift|]. intros d. destruct (tf_pdf t); [apply quiet_done|].
    apply quiet_then; [apply quiet_emit; auto|]. intros _. apply quiet_then; [apply quiet_lift|]. intros; apply quiet_done.
  - intros [b u]. apply quiet_then; [apply quiet_emit; auto|]. intros _. apply quiet_then; [apply quiet_lift|]. intros n.
    apply quiet_then; [|intros; apply quiet_done]. generalize (seq 1 n). induction l as [|k l IH]; cbn [render_pages]; [apply quiet_done|].
    apply quiet_then; [apply quiet_emit; auto|]. intros _. apply quiet_then; [apply quiet_lift|]. intros i.
    apply quiet_then; [exact IH|]. intros; apply quiet_done.
Qed.
Definition unwritten (log log' : list event) : Prop := exists evs, log' = log ++ evs /\ Forall (fun e => ~ writes e) evs.
Definition report (test_page reference_page : image) (pdf : bytes) : list event :=
  [WritePng (push target_dir (bs "test.png")) test_page; WritePng (push target_dir (bs "reference.png")) reference_page;
   WriteFile (push target_dir (bs "test.pdf")) pdf].
Lemma compare_none : forall refs p d pdf page log log',
  compare (TestFile p (Some d) (Some pdf) (Some [page])) page refs log = (None, log') ->
  unwritten log log' \/
  exists ex r i evs, In (ex, r) refs /\ shows r i /\ pixels_eq page i = negb ex /\
    Forall (fun e => ~ writes e) evs /\ log' = log ++ evs ++ report page i pdf.
Proof.
  induction refs as [|[ex r] refs IH]; intros p d pdf page log log' H; cbn [compare] in H; [discriminate|].
  destruct (load_file r log) as [[t0|] m] eqn:El.
  2:{ rewrite (then_none _ _ _ _ _ _ El) in H. assert (log' = m) as -> by (inversion H; auto). left.
      destruct (quiet_load r log) as (e & E & F). rewrite El in E. exists e. auto. }
  rewrite (then_run _ _ _ _ _ _ _ El) in H. apply load_some in El as [L ->].
  destruct (expect_single_page t0 (log ++ [ReadFile r])) as [[[i u]|] m] eqn:Es.
  2:{ rewrite (then_none _ _ _ _ _ _ Es) in H. assert (log' = m) as -> by (inversion H; auto). left.
      destruct (quiet_single t0 (log ++ [ReadFile r])) as (e & E & F). rewrite Es in E. cbn [snd] in E. exists (ReadFile r :: e).
      rewrite E, <- app_assoc. split; [reflexivity|]. constructor; auto. }
  rewrite (then_run _ _ _ _ _ _ _ Es) in H. pose proof Es as Es'. apply (single_some r t0 L) in Es' as (e & O & ->).
  assert (Fe : Forall (fun e => ~ writes e) (ReadFile r :: e)) by (constructor; [auto|]; destruct O; repeat constructor; auto).
  destruct (Bool.eqb (pixels_eq page i) ex) eqn:Eq; cbn [negb] in H.
  - apply IH in H as [(evs & -> & F)|(ex' & r' & i' & evs & I & S & Ne & F & ->)].
    + left. exists ((ReadFile r :: e) ++ evs). split; [cbn [app]; rewrite <- !app_assoc; reflexivity|apply Forall_app; auto].
    + right. exists ex', r', i', ((ReadFile r :: e) ++ evs). split; [right; exact I|]. split; [exact S|]. split; [exact Ne|].
      split; [apply Forall_app; auto|]. cbn [app]. rewrite <- !app_assoc. reflexivity.
  - right. apply eqb_false_iff in Eq. exists ex, r, i, (ReadFile r :: e). split; [left; reflexivity|].
    split; [apply page_of_shows; do 2 eexists; econstructor; eauto|]. split; [destruct (pixels_eq page i), ex; try reflexivity; exfalso; apply Eq; reflexivity|].
    split; [exact Fe|].
    assert (W : exists j l, tf_pages_pixels u = Some (j :: l) /\ j = i) by (destruct O; cbn [tf_pages_pixels]; eauto).
    destruct W as (j & l & W & ->). unfold write_png, pages_pixels, pdf_bytes, and_then, emit, done, lift, panic in H.
    cbn [tf_pages_pixels tf_doc tf_pdf fst] in H. rewrite W in H. inversion H. unfold report. cbn [app]. rewrite <- !app_assoc. reflexivity.
Qed.
Lemma run_none : forall base name log', good base -> no_slash name -> let p := base ++ bs "/" ++ name in
  run p [] = (None, log') ->
  Forall (fun e => ~ writes e) log' \/
  exists d pdf page ex r i evs, html_file p d /\ to_pdf_bytes d = Some pdf /\ page_count pdf = Some 1 /\ render pdf 1 = Some page /\
    refers base p ex r /\ shows r i /\ pixels_eq page i = negb ex /\ Forall (fun e => ~ writes e) evs /\ log' = evs ++ report page i pdf.
Proof.
  intros base name log' G N p H. unfold p in H. rewrite run_unfold in H by auto. fold p in H.
  destruct (load_file p []) as [[t|] m] eqn:El.
  2:{ rewrite (then_none _ _ _ _ _ _ El) in H. assert (log' = m) as -> by (inversion H; auto). left.
      destruct (quiet_load p []) as (e & E & F). rewrite El in E. cbn [snd app] in E. subst e. exact F. }
  rewrite (then_run _ _ _ _ _ _ _ El) in H. apply load_some in El as [L ->]. cbn [app] in H.
  destruct (refs_of base t) as [refs|] eqn:Er.
  2:{ rewrite (then_none _ _ _ _ _ [ReadFile p]) in H by reflexivity. assert (log' = [ReadFile p]) as -> by (inversion H; auto). left.
      repeat constructor; auto. }
  rewrite (then_run _ _ _ _ _ refs [ReadFile p]) in H by reflexivity.
  destruct (expect_single_page t [ReadFile p]) as [[[page u]|] m] eqn:Es.
  2:{ rewrite (then_none _ _ _ _ _ _ Es) in H. assert (log' = m) as -> by (inversion H; auto). left.
      destruct (quiet_single t [ReadFile p]) as (e & E & F). rewrite Es in E. cbn [snd] in E. subst m. apply Forall_app. split; [|exact F].
      repeat constructor; auto. }
  rewrite (then_run _ _ _ _ _ _ _ Es) in H. apply (single_some p t L) in Es as (e & O & ->).
  destruct (refs_some base p t refs G L Er) as [R1 _].
  destruct O as [q d pdf page E1 E2 E3|q page].
  - assert (F : html_file p d /\ q = p) by (inversion L; subst; auto). destruct F as [F ->].
    apply compare_none in H as [(evs & -> & Fe)|(ex & r & i & evs & I & S & Ne & Fe & ->)].
    + left. apply Forall_app. split; [|exact Fe]. repeat constructor; auto.
    + right. exists d, pdf, page, ex, r, i, ([ReadFile p; ToPdf d; CountPages pdf; Render pdf 1] ++ evs).
      split; [exact F|]. split; [exact E1|]. split; [exact E2|]. split; [exact E3|]. split; [apply R1; exact I|]. split; [exact S|].
      split; [exact Ne|]. split; [apply Forall_app; split; [repeat constructor; auto|exact Fe]|].
      rewrite <- !app_assoc. reflexivity.
  - exfalso. assert (refs = []) as -> by (cbn in Er; congruence). discriminate.
Qed.

(** * All the files *)
Lemma for_each_iff : forall tree, wf_entry tree -> forall base f (P : path -> path -> Prop), good base ->
  (forall d p, regular_file base tree d p -> forall log, (exists log', f p log = (Some tt, log')) <-> P d p) ->
  (exists entries, tree = Dir entries) ->
  forall log, (exists log', for_each_file_in base tree f log = (Some tt, log')) <-> forall d p, regular_file base tree d p -> P d p.
Proof.
  induction 1 as [| |entries Nd Names Wf IH]; intros base f P G Hf [es Ees] log; try discriminate. clear es Ees.
  cbn [for_each_file_in].
  set (go := fix go (l : list (bytes * entry)) : step unit := match l with [] => done tt | (name, n) :: r => _ end).
  assert (Go : forall l, (forall x, In x l -> In x entries) -> forall log,
    (exists log', go l log = (Some tt, log')) <->
    forall d p, (exists name, In (name, File) l /\ d = base /\ p = base ++ bs "/" ++ name) \/
      (exists name n, In (name, n) l /\ regular_file (base ++ bs "/" ++ name) n d p) -> P d p).
  { clear log. induction l as [|[name n] l IHl]; intros Sub log.
    - split; [|intros _; exists log; reflexivity]. intros _ d p [(x & [] & _)|(x & n & [] & _)].
    - assert (In1 : In (name, n) entries) by (apply Sub; left; reflexivity).
      destruct (Names _ _ In1) as [N1 N2].
      assert (Sub' : forall x, In x l -> In x entries) by (intros; apply Sub; right; assumption).
      set (first := match n with Dir _ => for_each_file_in (push base name) n f | File => f (push base name) | Other => done tt end).
      assert (Hfirst : forall log, (exists log', first log = (Some tt, log')) <->
        (n = File -> P base (base ++ bs "/" ++ name)) /\ (forall d p, regular_file (base ++ bs "/" ++ name) n d p -> P d p)).
      { intros lg. unfold first. rewrite push_good by auto. destruct n as [es| |].
        - rewrite (IH name (Dir es) In1 (base ++ bs "/" ++ name) f P).
          + split; [intros H; split; [discriminate|exact H]|intros [_ H]; exact H].
          + apply good_app; auto.
          + intros d p R. apply Hf. eapply rf_below; eassumption.
          + eauto.
        - rewrite Hf by (apply rf_here; exact In1). split; [intros H; split; [auto|]; intros d p R; inversion R|intros [H _]; auto].
        - split; [intros _; split; [discriminate|]; intros d p R; inversion R|intros _; eexists; reflexivity]. }
      assert (Eg : go ((name, n) :: l) = and_then first (fun _ => go l)) by reflexivity. rewrite Eg. split.
      + intros (log' & H). apply then_some in H as ([] & m & H1 & H2).
        destruct (proj1 (Hfirst log) (ex_intro _ m H1)) as [A1 A2].
        pose proof (proj1 (IHl Sub' m) (ex_intro _ log' H2)) as A3.
        intros d p [(x & [E|I] & -> & ->)|(x & k & [E|I] & R)].
        * assert (name = x /\ n = File) as [-> ->] by (inversion E; auto). auto.
        * apply A3. left. eauto.
        * assert (name = x /\ n = k) as [-> ->] by (inversion E; auto). auto.
        * apply A3. right. eauto.
      + intros H. destruct (proj2 (Hfirst log)) as [m H1].
        { split; [intros ->; apply H; left; exists name; auto using in_eq|intros d p R; apply H; right; exists name, n; auto using in_eq]. }
        destruct (proj2 (IHl Sub' m)) as [log' H2].
        { intros d p [(x & I & E)|(x & k & I & R)]; apply H; [left; exists x; auto using in_cons|right; exists x, k; auto using in_cons]. }
        exists log'. rewrite (then_run _ _ _ _ _ _ _ H1). exact H2. }
  rewrite (Go entries (fun x I => I) log). split.
  - intros H d p R. apply H. inversion R; subst; [left; eauto|right; eauto].
  - intros H d p [(x & I & -> & ->)|(x & n & I & R)]; apply H; [apply rf_here; exact I|eapply rf_below; eassumption].
Qed.
End Steps.

Lemma starts_with_iff : forall x s, starts_with s x = true <-> exists b, s = x ++ b.
Proof.
  induction x as [|a x IH]; intros [|c s]; cbn [starts_with].
  - split; [intros _; exists []; reflexivity|reflexivity].
  - split; [intros _; exists (c :: s); reflexivity|reflexivity].
  - split; [discriminate|intros [b E]; discriminate].
  - rewrite andb_true_iff, N.eqb_eq, IH. split.
    + intros [-> [b ->]]. exists b. reflexivity.
    + intros [b E]. cbn [app] in E. injection E as -> ->. eauto.
Qed.
Lemma contains_iff : forall s x, contains s x = true <-> exists a b, s = a ++ x ++ b.
Proof.
  induction s as [|c s IH]; intros x; cbn [contains]; rewrite orb_true_iff, starts_with_iff.
  - split.
    + intros [[b E]|E]; [exists [], b; exact E|discriminate].
    + intros (a & b & E). left. destruct a; [eauto|discriminate].
  - rewrite IH. split.
    + intros [[b E]|(a & b & ->)]; [exists [], b; exact E|exists (c :: a), b; reflexivity].
    + intros (a & b & E). destruct a as [|a0 a]; [left; eauto|]. right. cbn [app] in E. injection E as _ ->. eauto.
Qed.
Lemma regular_below : forall base tree d p, regular_file base tree d p -> exists s, p = base ++ bs "/" ++ s.
Proof.
  induction 1 as [directory entries name I|directory entries name n d p I R (s & ->)]; [eauto|].
  exists (name ++ bs "/" ++ s). rewrite <- !app_assoc. reflexivity.
Qed.
Lemma regular_parts : forall base tree d p, regular_file base tree d p -> wf_entry tree -> good base ->
  exists name, p = d ++ bs "/" ++ name /\ no_slash name /\ good d.
Proof.
  induction 1 as [directory entries name I|directory entries name n d p I R IH]; intros W G; inversion W as [| |es Nd Names Wf]; subst;
    destruct (Names _ _ I) as [N1 N2].
  - exists name. auto.
  - apply IH; [eauto|]. apply good_app; auto.
Qed.

(** Each file once *)
Definition starts_component (s : bytes) : Prop := s = [] \/ exists r, s = 47%N :: r.
Lemma component_unique : forall a b r s, no_slash a -> no_slash b -> starts_component r -> starts_component s -> a ++ r = b ++ s -> a = b.
Proof.
  induction a as [|x a IH]; intros [|y b] r s Na Nb R S E; cbn [app] in E.
  - reflexivity.
  - exfalso. destruct R as [->|[r' ->]]; [discriminate|]. injection E as <- _. apply Nb. left. reflexivity.
  - exfalso. destruct S as [->|[s' ->]]; [discriminate|]. injection E as -> _. apply Na. left. reflexivity.
  - injection E as -> E. f_equal. apply (IH b r s); auto; intros I; [apply Na|apply Nb]; right; exact I.
Qed.
Lemma for_each_once : forall tree, wf_entry tree -> forall base, good base -> (exists entries, tree = Dir entries) ->
  exists l, NoDup l /\ (forall p, In p l <-> exists d, regular_file base tree d p) /\
    forall log, for_each_file_in base tree (fun p => emit (ReadFile p)) log = (Some tt, log ++ map ReadFile l).
Proof.
  induction 1 as [| |entries Nd Names Wf IH]; intros base G [es Ees]; try discriminate. clear es Ees.
  cbn [for_each_file_in].
  set (go := fix go (l : list (bytes * entry)) : step unit := match l with [] => done tt | (name, n) :: r => _ end).
  assert (Go : forall l, (forall x, In x l -> In x entries) -> NoDup (map fst l) -> exists v, NoDup v /\
    (forall p, In p v <-> (exists name, In (name, File) l /\ p = base ++ bs "/" ++ name) \/
      (exists name n d, In (name, n) l /\ regular_file (base ++ bs "/" ++ name) n d p)) /\
    forall log, go l log = (Some tt, log ++ map ReadFile v)).
  { induction l as [|[name n] l IHl]; intros Sub Nl.
    - exists []. split; [constructor|]. split.
      + intros p. split; [intros []|]. intros [(x & [] & _)|(x & n & d & [] & _)].
      + intros log. cbn [map]. rewrite app_nil_r. reflexivity.
    - assert (In1 : In (name, n) entries) by (apply Sub; left; reflexivity).
      destruct (Names _ _ In1) as [N1 N2]. cbn [map fst] in Nl. inversion Nl as [|? ? Nn Nl']; subst.
      assert (Sub' : forall x, In x l -> In x entries) by (intros; apply Sub; right; assumption).
      destruct (IHl Sub' Nl') as (v & Nv & Iv & Rv).
      assert (First : exists w, NoDup w /\
        (forall p, In p w <-> n = File /\ p = base ++ bs "/" ++ name \/ exists d, regular_file (base ++ bs "/" ++ name) n d p) /\
        forall log, match n with Dir _ => for_each_file_in (push base name) n (fun p => emit (ReadFile p)) | File => emit (ReadFile (push base name)) | Other => done tt end log
          = (Some tt, log ++ map ReadFile w)).
      { rewrite push_good by auto. destruct n as [es| |].
        - destruct (IH name (Dir es) In1 (base ++ bs "/" ++ name)) as (w & Nw & Iw & Rw); [apply good_app; auto|eauto|].
          exists w. split; [exact Nw|]. split; [|exact Rw]. intros p. rewrite Iw. split; [auto|]. intros [[? _]|H]; [discriminate|exact H].
        - exists [base ++ bs "/" ++ name]. split; [repeat constructor; intros []|]. split.
          + intros p. split; [intros [<-|[]]; auto|]. intros [[_ ->]|[d R]]; [left; reflexivity|inversion R].
          + intros log. reflexivity.
        - exists []. split; [constructor|]. split.
          + intros p. split; [intros []|]. intros [[? _]|[d R]]; [discriminate|inversion R].
          + intros log. cbn [map]. rewrite app_nil_r. reflexivity. }
      destruct First as (w & Nw & Iw & Rw). exists (w ++ v). split; [|split].
      + assert (Dis : forall p, In p w -> In p v -> False).
        { intros p H1 H2.
          assert (P1 : exists r, starts_component r /\ p = (base ++ bs "/") ++ name ++ r).
          { apply Iw in H1 as [[_ ->]|[d R]].
            - exists []. split; [left; reflexivity|]. rewrite app_nil_r, app_assoc. reflexivity.
            - destruct (regular_below _ _ _ _ R) as [s ->]. exists (47%N :: s). split; [right; eauto|]. rewrite <- !app_assoc. reflexivity. }
          assert (P2 : exists name' n' r, In (name', n') l /\ starts_component r /\ p = (base ++ bs "/") ++ name' ++ r).
          { apply Iv in H2 as [(name' & I & ->)|(name' & n' & d & I & R)].
            - exists name', File, []. split; [exact I|]. split; [left; reflexivity|]. rewrite app_nil_r, app_assoc. reflexivity.
            - destruct (regular_below _ _ _ _ R) as [s ->]. exists name', n', (47%N :: s). split; [exact I|]. split; [right; eauto|]. rewrite <- !app_assoc. reflexivity. }
          destruct P1 as (r & Sr & ->). destruct P2 as (name' & n' & r' & I & Sr' & E). apply app_inv_head in E.
          assert (name = name') as <- by (apply (component_unique name name' r r'); auto; apply (Names name' n'); auto).
          apply Nn. apply (in_map fst) in I. exact I. }
        clear - Nw Nv Dis. induction w as [|x w IHw]; [exact Nv|]. inversion Nw; subst. cbn [app]. constructor.
        * rewrite in_app_iff. intros [I|I]; [auto|]. apply (Dis x); [left; reflexivity|exact I].
        * apply IHw; [assumption|]. intros p I1 I2. apply (Dis p); [right; exact I1|exact I2].
      + intros p. rewrite in_app_iff, Iw, Iv. split.
        * intros [[[-> ->]|[d R]]|[(x & I & ->)|(x & k & d & I & R)]].
          -- left. exists name. split; [left; reflexivity|reflexivity].
          -- right. exists name, n, d. split; [left; reflexivity|exact R].
          -- left. exists x. split; [right; exact I|reflexivity].
          -- right. exists x, k, d. split; [right; exact I|exact R].
        * intros [(x & [E|I] & ->)|(x & k & d & [E|I] & R)].
          -- assert (name = x /\ n = File) as [-> ->] by (inversion E; auto). auto.
          -- right. left. eauto.
          -- assert (name = x /\ n = k) as [-> ->] by (inversion E; auto). left. right. eauto.
          -- right. right. eauto.
      + intros log. assert (Eg : forall log, go ((name, n) :: l) log = and_then (match n with Dir _ => for_each_file_in (push base name) n (fun p => emit (ReadFile p)) | File => emit (ReadFile (push base name)) | Other => done tt end) (fun _ => go l) log) by reflexivity.
        rewrite Eg, (then_run _ _ _ _ _ _ _ (Rw log)), Rv, map_app, app_assoc. reflexivity. }
  destruct (Go entries (fun x I => I) Nd) as (v & Nv & Iv & Rv). exists v. split; [exact Nv|]. split; [|exact Rv].
  intros p. rewrite Iv. split.
  - intros [(x & I & ->)|(x & n & d & I & R)]; eexists; [apply rf_here; exact I|eapply rf_below; eassumption].
  - intros [d R]. inversion R; subst; [left; eauto|right; eauto 10].
Qed.
