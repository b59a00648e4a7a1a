(** * lester: ownership of C objects, streams, pages *)

From Coq Require Import QArith Qround.
From Verif Require Import Base LesterFloat Lester LesterSpec.

Local Open Scope Z_scope.
Local Open Scope code_scope.

(** ** Counting references *)

Lemma kind_eqb_eq a b : kind_eqb a b = true <-> a = b.
Proof. destruct a, b; cbn; split; congruence. Qed.

Lemma reference_eqb_eq a b : reference_eqb a b = true <-> a = b.
Proof.
  destruct a as [k p], b as [k' p']. unfold reference_eqb. cbn [fst snd].
  rewrite andb_true_iff, kind_eqb_eq, Z.eqb_eq. split; [intros [-> ->] | intros [= -> ->]]; auto.
Qed.

Lemma reference_eqb_refl a : reference_eqb a a = true.
Proof. apply reference_eqb_eq. reflexivity. Qed.

Lemma occurrences_app r a b : occurrences r (a ++ b) = occurrences r a + occurrences r b.
Proof. induction a as [|x a IH]; cbn [occurrences app]; lia. Qed.

Lemma occurrences_nonneg r l : 0 <= occurrences r l.
Proof. induction l as [|x l IH]; cbn [occurrences]; [lia|]. destruct (reference_eqb r x); lia. Qed.

Lemma occurrences_in r l : In r l -> 0 < occurrences r l.
Proof.
  induction l as [|x l IH]; cbn [occurrences In]; [tauto|]. intros [->|H].
  - rewrite reference_eqb_refl. pose proof (occurrences_nonneg r l). lia.
  - specialize (IH H). destruct (reference_eqb r x); lia.
Qed.

Lemma released_required c : incl (released c) (required c).
Proof. destruct c; cbn; try apply incl_refl; intros ? []. Qed.

Lemma released_at_most_one c r : occurrences r (released c) = 0 \/
  (occurrences r (released c) = 1 /\ In r (required c)).
Proof.
  destruct c; cbn; auto;
  match goal with |- context [reference_eqb ?a ?b] => destruct (reference_eqb a b) eqn:E end; auto;
  right; apply reference_eqb_eq in E; subst; auto.
Qed.

Lemma owned_nonneg r h : disciplined h -> 0 <= owned r h.
Proof.
  induction h as [|c h IH]; cbn [owned disciplined]; [lia|]. intros [F D].
  specialize (IH D). pose proof (occurrences_nonneg r (acquired c)).
  destruct (released_at_most_one c r) as [->|[-> I]]; [lia|].
  rewrite Forall_forall in F. specialize (F r I). lia.
Qed.

(** ** Triples: code that owns [local] besides what the caller has, may use
    what is [need]ed of it, and ends owning [after]. *)

Definition triple {A} (need local : list reference) (c : code A) (after : outcome A -> list reference) : Prop :=
  forall base h,
    (forall r, 0 <= base r) ->
    Forall (fun r => 0 < base r) need ->
    disciplined h ->
    (forall r, owned r h = base r + occurrences r local) ->
    let (o, h') := c h in
    disciplined h' /\ (forall r, owned r h' = base r + occurrences r (after o)).

Lemma triple_done {A} need (a : A) after : triple need (after (Done a)) (done a) after.
Proof. intros base h B N D O. cbn. auto. Qed.

Lemma triple_done' {A} need local (a : A) after :
  local = after (Done a) -> triple need local (done a) after.
Proof. intros ->. apply triple_done. Qed.

Lemma triple_unwind {A} need p (after : outcome A -> _) : triple need (after (Unwinds p)) (unwind p) after.
Proof. intros base h B N D O. cbn. auto. Qed.

Lemma triple_andthen {A B} need local (c : code A) (k : A -> code B) mid after :
  triple need local c mid ->
  (forall a, triple need (mid (Done a)) (k a) after) ->
  (forall p, mid (Unwinds p) = after (Unwinds p)) ->
  triple need local (andthen c k) after.
Proof.
  intros T1 T2 U base h B1 N D O. unfold andthen.
  specialize (T1 base h B1 N D O). destruct (c h) as [[a|p] h1].
  - destruct T1 as [D1 O1]. exact (T2 a base h1 B1 N D1 O1).
  - rewrite U in T1. exact T1.
Qed.

Lemma triple_call {A} need local (answer : history -> A) record after :
  (forall a, incl (required (record a)) (need ++ local)) ->
  (forall a r, occurrences r (after (Done a)) =
     occurrences r local + occurrences r (acquired (record a)) - occurrences r (released (record a))) ->
  triple need local (calls answer record) after.
Proof.
  intros R O' base h B N D O. unfold calls. cbn [disciplined owned]. set (a := answer h).
  split; [split; [|exact D]|].
  - rewrite Forall_forall. intros r I. apply R in I. rewrite O. rewrite in_app_iff in I.
    pose proof (occurrences_nonneg r local). specialize (B r). destruct I as [I|I].
    + rewrite Forall_forall in N. specialize (N r I). lia.
    + apply occurrences_in in I. lia.
  - intros r. rewrite O, O'. lia.
Qed.

Lemma triple_says need local c after :
  incl (required c) (need ++ local) ->
  (forall r, occurrences r (after (Done tt)) =
     occurrences r local + occurrences r (acquired c) - occurrences r (released c)) ->
  triple need local (says c) after.
Proof.
  intros R O'. change (says c) with (calls (fun _ => tt) (fun _ => c)).
  apply triple_call; intros []; assumption.
Qed.

Lemma triple_weaken {A} need local (c : code A) after after' :
  triple need local c after ->
  (forall o r, occurrences r (after o) = occurrences r (after' o)) ->
  triple need local c after'.
Proof.
  intros T W base h B N D O. specialize (T base h B N D O). destruct (c h) as [o h'].
  destruct T as [D' O']. split; [exact D'|]. intros r. rewrite O', W. reflexivity.
Qed.

(** What one owns may be lent. *)
Lemma triple_lend {A} need kept local (c : code A) after :
  triple (kept ++ need) local c after ->
  triple need (kept ++ local) c (fun o => kept ++ after o).
Proof.
  intros T base h B N D O.
  specialize (T (fun r => base r + occurrences r kept) h).
  assert (B' : forall r, 0 <= base r + occurrences r kept)
    by (intros r; specialize (B r); pose proof (occurrences_nonneg r kept); lia).
  assert (N' : Forall (fun r => 0 < base r + occurrences r kept) (kept ++ need)).
  { rewrite Forall_forall in *. intros r I. rewrite in_app_iff in I. specialize (B r).
    pose proof (occurrences_nonneg r kept). destruct I as [I|I].
    - apply occurrences_in in I. lia.
    - specialize (N r I). lia. }
  assert (O' : forall r, owned r h = base r + occurrences r kept + occurrences r local)
    by (intros r; rewrite O, occurrences_app; lia).
  specialize (T B' N' D O'). destruct (c h) as [o h']. destruct T as [D2 O2]. split; [exact D2|].
  intros r. rewrite O2, occurrences_app. lia.
Qed.

Lemma triple_need {A} need need' local (c : code A) after :
  incl need' need -> triple need' local c after -> triple need local c after.
Proof.
  intros I T base h B N D O. apply T; auto. rewrite Forall_forall in *. auto.
Qed.

(** Destructors: code that releases one reference and does nothing else. *)
Definition releases (r : reference) (d : code unit) : Prop :=
  exists c, d = says c /\ acquired c = [] /\ released c = [r] /\ required c = [r].

Lemma releases_drop r d need : releases r d -> triple need [r] d (fun _ => []).
Proof.
  intros (c & -> & A & R & Q). apply triple_says.
  - rewrite Q. intros x I. rewrite in_app_iff. auto.
  - intros x. rewrite A, R. cbn [occurrences]. destruct (reference_eqb x r); lia.
Qed.

Lemma releases_done r d h : releases r d -> exists h', d h = (Done tt, h').
Proof. intros (c & -> & _). exists (c :: h). reflexivity. Qed.

Lemma drop_one r d base h : releases r d -> (forall x, 0 <= base x) -> disciplined h ->
  (forall x, owned x h = base x + occurrences x [r]) ->
  let (_, h') := d h in disciplined h' /\ (forall x, owned x h' = base x).
Proof.
  intros R B D O. pose proof (releases_drop r d [] R base h B (Forall_nil _) D O) as H.
  destruct (d h) as [u h']. destruct H as [D' O']. split; [exact D'|].
  intros x. rewrite O'. cbn [occurrences]. lia.
Qed.

Lemma triple_dropped_after {A} need local r d (c : code A) after :
  releases r d ->
  triple need (r :: local) c (fun o => r :: after o) ->
  triple need (r :: local) (dropped_after d c) after.
Proof.
  intros R T base h B N D O. unfold dropped_after.
  specialize (T base h B N D O).
  destruct (c h) as [o h']. destruct T as [D' O'].
  pose proof (drop_one r d (fun x => base x + occurrences x (after o)) h' R) as H.
  destruct (d h') as [u h'']. apply H; auto.
  - intros x. specialize (B x). pose proof (occurrences_nonneg x (after o)). lia.
  - intros x. rewrite O'. cbn [occurrences]. lia.
Qed.

Lemma triple_dropped_unless_ok {X A} need r d (c : code (X + A)) after :
  releases r d ->
  triple need [r] c (fun o => match o with Done (inr a) => after (Done (inr a)) | o => r :: after o end) ->
  triple need [r] (dropped_unless_ok d c) after.
Proof.
  intros R T base h B N D O. unfold dropped_unless_ok.
  specialize (T base h B N D O). destruct (c h) as [o h'].
  assert (K : (forall x, owned x h' = base x + occurrences x (r :: after o)) -> disciplined h' ->
              let (_, h'') := d h' in disciplined h'' /\ forall x, owned x h'' = base x + occurrences x (after o)).
  { intros O' D'.
    pose proof (drop_one r d (fun x => base x + occurrences x (after o)) h' R) as H.
    destruct (d h') as [u h'']. apply H; auto.
    - intros x. specialize (B x). pose proof (occurrences_nonneg x (after o)). lia.
    - intros x. rewrite O'. cbn [occurrences]. lia. }
  destruct T as [D' O'].
  destruct o as [[e|a]|p].
  - specialize (K O' D'). destruct (d h'). exact K.
  - auto.
  - specialize (K O' D'). destruct (d h'). exact K.
Qed.

Lemma triple_question {X A B} need local (c : code (X + A)) (k : A -> code (X + B)) mid after :
  triple need local c mid ->
  (forall a, triple need (mid (Done (inr a))) (k a) after) ->
  (forall e, mid (Done (inl e)) = after (Done (inl e))) ->
  (forall p, mid (Unwinds p) = after (Unwinds p)) ->
  triple need local (question c k) after.
Proof.
  intros T K Q U. unfold question. apply triple_andthen with mid; [exact T | | exact U].
  intros [e|a]; [|apply K]. apply triple_done'. apply Q.
Qed.

(** ** The functions of lester *)

Ltac one_call :=
  solve [ intros; cbn; repeat (destruct (reference_eqb _ _)); lia
        | intros; cbn; intros x I; cbn in I; rewrite ?in_app_iff; cbn; tauto
        | intros x; cbn; repeat (destruct (reference_eqb _ _)); lia
        | intros x I; cbn in I; rewrite ?in_app_iff; cbn; tauto ].

Lemma drop_surface_releases s : releases (KSurface, s) (drop_surface s).
Proof. exists (SurfaceDestroy s). cbn. auto. Qed.
Lemma drop_context_releases s : releases (KContext, s) (drop_context s).
Proof. exists (CairoDestroy s). cbn. auto. Qed.
Lemma drop_document_releases s : releases (KObject, s) (drop_document s).
Proof. exists (ObjectUnref s). cbn. auto. Qed.
Lemma drop_page_releases s : releases (KObject, s) (drop_page s).
Proof. exists (ObjectUnref s). cbn. auto. Qed.
Lemma drop_string_releases s : releases (KString, s) (drop_string s).
Proof. exists (GFree s). cbn. auto. Qed.
Lemma drop_glib_error_releases s : releases (KError, s) (drop_glib_error s).
Proof. exists (ErrorFree s). cbn. auto. Qed.

Lemma nonnull_some k p : p <> 0 -> nonnull k p = [(k, p)].
Proof. intros H. unfold nonnull. destruct (p =? 0) eqn:E; [apply Z.eqb_eq in E; contradiction | reflexivity]. Qed.

Section Functions.
Variable E : environment.
Variable contract : null_contract E.
Variable overflow_checks : bool.
Variable is_utf8 : bytes -> bool.

(** The result of a call, and the triple of a call that returns something. *)
Lemma triple_call_fresh {A} need local (answer : history -> A) record (P : A -> Prop) after :
  (forall h, P (answer h)) ->
  (forall a, P a -> incl (required (record a)) (need ++ local)) ->
  (forall a r, P a -> occurrences r (after (Done a)) =
     occurrences r local + occurrences r (acquired (record a)) - occurrences r (released (record a))) ->
  triple need local (calls answer record) after.
Proof.
  intros HP R O' base h B N D O. unfold calls. cbn [disciplined owned]. set (a := answer h).
  assert (Pa : P a) by apply HP. split; [split; [|exact D]|].
  - rewrite Forall_forall. intros r I. apply R in I; [|exact Pa]. rewrite O. rewrite in_app_iff in I.
    pose proof (occurrences_nonneg r local). specialize (B r). destruct I as [I|I].
    + rewrite Forall_forall in N. specialize (N r I). lia.
    + apply occurrences_in in I. lia.
  - intros r. rewrite O, O' by exact Pa. lia.
Qed.

Lemma surface_check_status_triple s need local :
  In (KSurface, s) (need ++ local) ->
  triple need local (surface_check_status E s) (fun _ => local).
Proof.
  intros I. apply triple_andthen with (fun _ => local).
  - apply triple_call; intros a; cbn [required acquired released occurrences]; [|lia].
    intros x [<-|[]]. exact I.
  - intros a. apply triple_done'. reflexivity.
  - reflexivity.
Qed.

Lemma context_check_status_triple s need local :
  In (KContext, s) (need ++ local) ->
  triple need local (context_check_status E s) (fun _ => local).
Proof.
  intros I. apply triple_andthen with (fun _ => local).
  - apply triple_call; intros a; cbn [required acquired released occurrences]; [|lia].
    intros x [<-|[]]. exact I.
  - intros a. apply triple_done'. reflexivity.
  - reflexivity.
Qed.

Definition new_surface_of (o : outcome (Z + ptr)) : list reference :=
  match o with Done (inr s) => [(KSurface, s)] | _ => [] end.

Lemma new_c_int_triple need f w h : triple need [] (new_c_int E f w h) new_surface_of.
Proof.
  unfold new_c_int.
  apply triple_andthen with (fun o => match o with Done s => [(KSurface, s)] | Unwinds _ => [] end).
  - apply triple_call_fresh with (fun s => s <> 0).
    + intros past. apply (contract_create E contract).
    + intros a _ x [].
    + intros a r N. cbn [acquired released]. rewrite nonnull_some by exact N. cbn [occurrences]. unfold ptr in *. lia.
  - intros s. apply triple_dropped_unless_ok; [apply drop_surface_releases|].
    apply triple_question with (fun _ => [(KSurface, s)]).
    + apply surface_check_status_triple. rewrite in_app_iff. cbn. auto.
    + intros a. apply triple_done'. reflexivity.
    + reflexivity.
    + reflexivity.
  - reflexivity.
Qed.

Lemma unwrap_triple {A} need local (o : option A) : triple need local (unwrap o) (fun _ => local).
Proof. destruct o; cbn [unwrap]; [apply triple_done' | apply (triple_unwind need _ (fun _ => local))]; reflexivity. Qed.

Lemma assert_triple need local c p : triple need local (assert c p) (fun _ => local).
Proof. unfold assert. destruct c; [apply triple_done' | apply (triple_unwind need _ (fun _ => local))]; reflexivity. Qed.

Lemma new_surface_triple need f w h : triple need [] (new_surface E f w h) new_surface_of.
Proof.
  unfold new_surface. apply triple_andthen with (fun _ => []); [apply unwrap_triple | | reflexivity].
  intros x. apply triple_andthen with (fun _ => []); [apply unwrap_triple | | reflexivity].
  intros y. apply new_c_int_triple.
Qed.

Lemma context_triple need s : In (KSurface, s) need ->
  triple need [] (context E s) (fun o => match o with Done (inr c) => [(KContext, c)] | _ => [] end).
Proof.
  intros I. unfold context.
  apply triple_andthen with (fun o => match o with Done s => [(KContext, s)] | Unwinds _ => [] end).
  - apply triple_call_fresh with (fun s => s <> 0).
    + intros past. apply (contract_context E contract).
    + intros a _ x [<-|[]]. rewrite in_app_iff. auto.
    + intros a r N. cbn [acquired released]. rewrite nonnull_some by exact N. cbn [occurrences]. unfold ptr in *. lia.
  - intros c. apply triple_dropped_unless_ok; [apply drop_context_releases|].
    apply triple_question with (fun _ => [(KContext, c)]).
    + apply context_check_status_triple. rewrite in_app_iff. cbn. auto.
    + intros a. apply triple_done'. reflexivity.
    + reflexivity.
    + reflexivity.
  - reflexivity.
Qed.

Lemma use_triple {A} need local (answer : history -> A) record :
  (forall a, incl (required (record a)) (need ++ local)) ->
  (forall a, acquired (record a) = []) -> (forall a, released (record a) = []) ->
  triple need local (calls answer record) (fun _ => local).
Proof.
  intros I A' R. apply triple_call; [exact I|]. intros a r. rewrite A', R. cbn [occurrences]. lia.
Qed.

Lemma use_says need local c :
  incl (required c) (need ++ local) -> acquired c = [] -> released c = [] ->
  triple need local (says c) (fun _ => local).
Proof.
  intros I A' R. apply triple_says; [exact I|]. intros r. rewrite A', R. cbn [occurrences]. lia.
Qed.

Ltac seq_use := apply triple_andthen with (fun _ => []); [ | | reflexivity ].
Ltac used := try reflexivity; cbn; intros; intros x; cbn; rewrite ?in_app_iff; cbn; intuition (subst; auto).

Lemma i32_mul_triple need a b : triple need [] (i32_mul overflow_checks a b) (fun _ => []).
Proof.
  unfold i32_mul. destruct (_ && _); [apply triple_done'; reflexivity|].
  destruct overflow_checks; [apply (triple_unwind need _ (fun _ => [])) | apply triple_done'; reflexivity].
Qed.

Lemma pixels_triple need s : In (KSurface, s) need ->
  triple need [] (pixels E overflow_checks s) (fun _ => []).
Proof.
  intros I. unfold pixels.
  seq_use. { apply use_says; used. }
  intros _. seq_use. { apply use_triple; used. }
  intros data. seq_use. { apply use_triple; used. }
  intros width. seq_use. { apply use_triple; used. }
  intros height. seq_use. { apply use_triple; used. }
  intros stride. seq_use. { apply use_triple; used. }
  intros format. seq_use. { apply assert_triple. }
  intros _. seq_use. { apply i32_mul_triple. }
  intros row. seq_use. { apply assert_triple. }
  intros _. seq_use. { apply assert_triple. }
  intros _. seq_use. { apply unwrap_triple. }
  intros w. seq_use. { apply unwrap_triple. }
  intros h. seq_use. { apply i32_mul_triple. }
  intros area. seq_use. { apply unwrap_triple. }
  intros l. apply triple_done'. reflexivity.
Qed.

Lemma size_in_css_px_triple need p : In (KObject, p) need ->
  triple need [] (size_in_css_px E p) (fun _ => []).
Proof.
  intros I. unfold size_in_css_px, size_in_ps_points, poppler_page_get_size.
  seq_use. { apply use_triple; used. }
  intros s. apply triple_done'. reflexivity.
Qed.

Lemma render_triple need p o : In (KObject, p) need ->
  triple need [] (render_with_options E p o) new_surface_of.
Proof.
  intros I. unfold render_with_options.
  apply triple_andthen with (fun _ => []); [apply size_in_css_px_triple; exact I | | reflexivity].
  intros [width height].
  apply triple_andthen with (fun _ => []); [apply unwrap_triple | | reflexivity].
  intros w. apply triple_andthen with (fun _ => []); [apply unwrap_triple | | reflexivity].
  intros h. apply triple_question with new_surface_of; [apply new_c_int_triple | | reflexivity | reflexivity].
  intros s. apply triple_dropped_unless_ok; [apply drop_surface_releases|].
  apply triple_question with
    (fun o : outcome (Z + ptr) => (KSurface, s) :: match o with Done (inr c) => [(KContext, c)] | _ => [] end);
    [ | | reflexivity | reflexivity ].
  { apply (triple_lend need [(KSurface, s)] []). apply context_triple. cbn. auto. }
  intros c.
  assert (C : forall A after, triple need [(KContext, c); (KSurface, s)] A after ->
              triple need [(KSurface, s); (KContext, c)] A (after : outcome (Z + ptr) -> _)).
  { intros A after T base past B N D O. apply T; auto. intros r. rewrite O. cbn [occurrences]. lia. }
  cbv iota beta. apply C. apply triple_dropped_after; [apply drop_context_releases|].
  apply triple_andthen with (fun _ => [(KContext, c); (KSurface, s)]); [ | | reflexivity].
  { destruct (opt_backdrop o).
    - apply triple_andthen with (fun _ => [(KContext, c); (KSurface, s)]);
        [apply use_says; used | intros _; apply use_says; used | reflexivity].
    - apply triple_done'. reflexivity. }
  intros _. apply triple_andthen with (fun _ => [(KContext, c); (KSurface, s)]);
    [apply use_says; used | | reflexivity].
  intros _. apply triple_andthen with (fun _ => [(KContext, c); (KSurface, s)]);
    [destruct (opt_for_printing o); apply use_says; used | | reflexivity].
  intros _. apply triple_question with (fun _ => [(KContext, c); (KSurface, s)]);
    [ | | reflexivity | reflexivity ].
  { apply context_check_status_triple. rewrite in_app_iff. cbn. auto. }
  intros _. apply triple_done'. reflexivity.
Qed.

Lemma run_reader_nonnull S read t cl : reader_returns_nonnull t -> snd (run_reader S read t cl) <> 0.
Proof.
  revert cl. induction t as [s|buffer next IH]; intros cl H; cbn [run_reader].
  - exact H.
  - destruct (callback _ _ _ _ _) as [[cl' status] buffer']. apply IH. apply H.
Qed.

Lemma after_callbacks_triple {S A} need local (cl : closure_data S) (rest : code (lester_error + A)) after :
  triple need local rest after ->
  (forall e, after (Done (inl e)) = local) -> (forall p, after (Unwinds p) = local) ->
  triple need local (after_callbacks S cl rest) after.
Proof.
  intros T He Hp. unfold after_callbacks. destruct (cl_panic S cl) as [n|].
  - rewrite <- (Hp (FromStream n)). apply triple_unwind.
  - destruct (cl_result S cl) as [e|]; [|exact T].
    rewrite <- (He (IoError e)). apply triple_done.
Qed.

Definition png_surface_of (o : outcome (lester_error + ptr)) : list reference :=
  match o with Done (inr s) => [(KSurface, s)] | _ => [] end.

Lemma read_from_png_triple S read s need :
  triple need [] (fun h => fst (read_from_png E S read s h)) png_surface_of.
Proof.
  intros base h B N D O. unfold read_from_png.
  pose proof (run_reader_nonnull S read (env_png_reader E h) (ClosureData S s None None)
                (contract_png E contract h)) as NN.
  destruct (run_reader S read (env_png_reader E h) (ClosureData S s None None)) as [cl p].
  cbn [snd] in NN.
  set (c := dropped_unless_ok _ _).
  assert (T : triple need [(KSurface, p)] c png_surface_of).
  { apply triple_dropped_unless_ok; [apply drop_surface_releases|].
    apply after_callbacks_triple; [ | reflexivity | reflexivity ].
    apply triple_andthen with (fun _ => [(KSurface, p)]); [ | | reflexivity ].
    - apply surface_check_status_triple. rewrite in_app_iff. cbn. auto.
    - intros st. apply triple_question with (fun _ => [(KSurface, p)]); [ | | reflexivity | reflexivity ].
      + apply triple_done'. reflexivity.
      + intros _. apply triple_done'. reflexivity. }
  specialize (T base (CreateFromPngStream p :: h) B N).
  destruct (c (CreateFromPngStream p :: h)) as [r h']. cbn [fst]. apply T.
  - cbn [disciplined required]. auto.
  - intros r'. cbn [owned acquired released]. rewrite O, nonnull_some by exact NN.
    cbn [occurrences]. unfold ptr in *. lia.
Qed.

Lemma write_to_png_triple S write p s need : In (KSurface, p) need ->
  triple need [] (fun h => fst (write_to_png E S write p s h)) (fun _ => []).
Proof.
  intros I base h B N D O. unfold write_to_png.
  destruct (run_writer S write (env_png_writer E h p) (ClosureData S s None None)) as [cl status].
  set (c := after_callbacks _ _ _).
  assert (T : triple need [] c (fun _ => [])).
  { apply after_callbacks_triple; [ | reflexivity | reflexivity ]. apply triple_done'. reflexivity. }
  specialize (T base (WriteToPngStream p status :: h) B N).
  destruct (c (WriteToPngStream p status :: h)) as [r h']. cbn [fst]. apply T.
  - cbn [disciplined required]. split; [|exact D]. constructor; [|constructor]. rewrite O.
    rewrite Forall_forall in N. specialize (N _ I). cbn [occurrences]. lia.
  - intros r'. cbn [owned acquired released]. rewrite O. cbn [occurrences]. lia.
Qed.

Lemma from_bytes_triple need d :
  triple need [] (from_bytes E d)
    (fun o => match o with
              | Done (inl e) => [(KError, e)]
              | Done (inr d) => [(KObject, d)]
              | Unwinds _ => []
              end).
Proof.
  unfold from_bytes. destruct (usize_try_into_i32 _);
    [|apply (triple_unwind need OutOfRange
        (fun o : outcome (ptr + ptr) => match o with
              | Done (inl e) => [(KError, e)]
              | Done (inr d) => [(KObject, d)]
              | Unwinds _ => []
              end))].
  apply triple_andthen with
    (fun o => match o with
              | Done (d, e) => if d =? 0 then [(KError, e)] else [(KObject, d)]
              | Unwinds _ => []
              end); [ | | reflexivity].
  - apply triple_call_fresh with (fun r => fst r = 0 <-> snd r <> 0).
    + intros h. apply (contract_error E contract).
    + intros a _ x [].
    + intros [x e] r C. cbn [fst snd acquired released] in *. rewrite occurrences_app. unfold nonnull.
      destruct (x =? 0) eqn:X; destruct (e =? 0) eqn:Y; cbn [occurrences];
        rewrite ?Z.eqb_eq, ?Z.eqb_neq in *; unfold ptr in *; try lia; exfalso; tauto.
  - intros [x e]. destruct (x =? 0); apply triple_done'; reflexivity.
Qed.

Lemma pages_triple need d : In (KObject, d) need -> triple need [] (pages E d) (fun _ => []).
Proof.
  intros I. unfold pages. seq_use. { apply use_triple; used. }
  intros n. apply triple_done'. reflexivity.
Qed.

Definition page_of (o : outcome (option ptr)) : list reference :=
  match o with Done (Some p) => [(KObject, p)] | _ => [] end.

Lemma map_page_triple need d i : In (KObject, d) need -> triple need [] (map_page E d i) page_of.
Proof.
  intros I. unfold map_page. destruct i as [i|]; [|apply triple_done'; reflexivity].
  apply triple_andthen with
    (fun o => match o with Done p => [(KObject, p)] | Unwinds _ => [] end); [ | | reflexivity ].
  - unfold get_page.
    apply triple_andthen with
      (fun o => match o with Done p => nonnull KObject p | Unwinds _ => [] end); [ | | reflexivity ].
    + apply triple_call; [used|]. intros a r. cbn [acquired released occurrences]. lia.
    + intros p. unfold nonnull. destruct (p =? 0) eqn:P.
      * cbn [negb assert]. intros base h B N D O. cbn. auto.
      * cbn [negb assert]. intros base h B N D O. cbn. auto.
  - intros p. apply triple_done'. reflexivity.
Qed.

Lemma producer_triple need d : In (KObject, d) need ->
  triple need [] (producer E d) (fun o => match o with Done (Some g) => [(KString, g)] | _ => [] end).
Proof.
  intros I. unfold producer.
  apply triple_andthen with (fun o => match o with Done g => nonnull KString g | Unwinds _ => [] end);
    [ | | reflexivity ].
  - apply triple_call; [used|]. intros a r. cbn [acquired released occurrences]. lia.
  - intros g. apply triple_done'. unfold nonnull, from_nullable_ptr. destruct (g =? 0); reflexivity.
Qed.

Lemma page_text_triple need p : In (KObject, p) need ->
  triple need [] (page_text E p) (fun o => match o with Done g => [(KString, g)] | _ => [] end).
Proof.
  intros I. unfold page_text.
  apply triple_andthen with (fun o => match o with Done g => nonnull KString g | Unwinds _ => [] end);
    [ | | reflexivity ].
  - apply triple_call; [used|]. intros a r. cbn [acquired released occurrences]. lia.
  - intros g. unfold nonnull, from_nullable_ptr. destruct (g =? 0).
    + apply (triple_unwind need NullText (fun o => match o with Done g => [(KString, g)] | _ => [] end)).
    + apply triple_done'. reflexivity.
Qed.

Lemma to_str_triple need g : In (KString, g) need -> triple need [] (to_str E is_utf8 g) (fun _ => []).
Proof.
  intros I. unfold to_str. seq_use. { apply use_triple; used. }
  intros n. apply triple_done'. reflexivity.
Qed.

Lemma glib_description_triple need e : In (KError, e) need ->
  triple need [] (glib_description E is_utf8 e) (fun _ => []).
Proof.
  intros I. unfold glib_description. seq_use. { apply use_triple; used. }
  intros n. destruct (is_utf8 n); [apply triple_done'; reflexivity|].
  apply (triple_unwind need InvalidUtf8 (fun _ => [])).
Qed.

(** ** Clients *)

Lemma references_app a b : references (a ++ b) = references a ++ references b.
Proof. unfold references. apply flat_map_app. Qed.

Lemma find_in k l v : find k l = Some v -> In (k, v) l.
Proof.
  unfold find. destruct (List.find _ l) as [[k' v']|] eqn:F; [|discriminate].
  intros [= ->]. apply find_some in F as [I K]. cbn in K. apply Nat.eqb_eq in K. subst. exact I.
Qed.

Lemma in_find k l v : NoDup (map fst l) -> In (k, v) l -> find k l = Some v.
Proof.
  unfold find. induction l as [|[k' v'] l IH]; cbn [map fst]; [intros _ []|].
  intros N I. inversion N as [|? ? N1 N2]; subst. cbn [List.find fst].
  destruct (Nat.eqb_spec k' k) as [->|Hk].
  - destruct I as [[= ->]|I]; [reflexivity|]. exfalso. apply N1.
    apply (in_map fst) in I. exact I.
  - destruct I as [[= -> ->]|I]; [contradiction|]. apply IH; assumption.
Qed.

Lemma remove_absent k l : ~ In k (map fst l) -> remove k l = l.
Proof.
  unfold remove. induction l as [|[k' v'] l IH]; cbn [map fst filter]; [reflexivity|].
  intros N. destruct (Nat.eqb_spec k' k) as [->|Hk].
  - exfalso. apply N. left. reflexivity.
  - cbn [negb]. f_equal. apply IH. intros I. apply N. right. exact I.
Qed.

Lemma remove_count r k v l : NoDup (map fst l) -> In (k, v) l ->
  occurrences r (references l) = occurrences r (reference_of v) + occurrences r (references (remove k l)).
Proof.
  induction l as [|[k' v'] l IH]; cbn [map fst]; [intros _ []|].
  intros N I. inversion N as [|? ? N1 N2]; subst.
  change (references ((k', v') :: l)) with (reference_of v' ++ references l).
  rewrite occurrences_app. unfold remove. cbn [filter fst].
  destruct (Nat.eqb_spec k' k) as [->|Hk]; cbn [negb].
  - destruct I as [[= ->]|I].
    + fold (remove k l). rewrite remove_absent by exact N1. reflexivity.
    + exfalso. apply N1. apply (in_map fst) in I. exact I.
  - destruct I as [[= -> ->]|I]; [contradiction|].
    change (references ((k', v') :: filter (fun x => negb (fst x =? k)%nat) l))
      with (reference_of v' ++ references (remove k l)).
    rewrite occurrences_app, (IH N2 I). lia.
Qed.

Lemma in_references k v l : In (k, v) l -> incl (reference_of v) (references l).
Proof.
  intros I r R. unfold references. apply in_flat_map. exists (k, v). auto.
Qed.

Lemma remove_in x k l : In x (remove k l) <-> In x l /\ fst x <> k.
Proof.
  unfold remove. rewrite filter_In, negb_true_iff, Nat.eqb_neq. reflexivity.
Qed.

Lemma remove_keys k l : incl (map fst (remove k l)) (map fst l).
Proof.
  intros x I. apply in_map_iff in I as (y & <- & I). apply remove_in in I as [I _]. apply in_map. exact I.
Qed.

Lemma remove_nodup k l : NoDup (map fst l) -> NoDup (map fst (remove k l)).
Proof.
  induction l as [|[k' v'] l IH]; cbn [map fst]; intros N; [constructor|].
  inversion N as [|? ? N1 N2]; subst. unfold remove. cbn [filter fst].
  destruct (negb (k' =? k)%nat); [|apply IH; exact N2].
  cbn [map fst]. constructor; [|apply IH; exact N2].
  intros I. apply N1. apply (remove_keys k). exact I.
Qed.

(** What is true of a client at any moment. *)
Record invariant (c : client) : Prop := {
  inv_disciplined : disciplined (past c);
  inv_owned : forall r, owned r (past c) = occurrences r (references (values c));
  inv_nodup : NoDup (map fst (values c));
  inv_fresh : Forall (fun k => (k < fresh c)%nat) (map fst (values c));
  inv_iter : forall k d it, In (k, VIter d it) (values c) ->
    In (d, VDocument (it_document it)) (values c)
}.

(** Running code whose triple is known. *)
Lemma run_invariant {A} (c : client) (code : code A) (f : A -> list value) need local after :
  triple need local code after ->
  incl need (references (values c)) ->
  (forall a, length (f a) <= 1)%nat ->
  (forall a r, occurrences r (after (Done a)) = occurrences r (flat_map reference_of (f a))) ->
  (forall p, after (Unwinds p) = []) ->
  (forall a v, In v (f a) -> match v with VIter d it => In (d, VDocument (it_document it)) (values c) | _ => True end) ->
  disciplined (past c) ->
  (forall r, owned r (past c) = occurrences r (references (values c)) + occurrences r local) ->
  NoDup (map fst (values c)) ->
  Forall (fun k => (k < fresh c)%nat) (map fst (values c)) ->
  (forall k d it, In (k, VIter d it) (values c) -> In (d, VDocument (it_document it)) (values c)) ->
  invariant (run c code f).
Proof.
  intros T I L OK U IT D O ND F IV. unfold run.
  specialize (T (fun r => occurrences r (references (values c))) (past c)).
  destruct (code (past c)) as [o h]. destruct T as [D' O'].
  - intros r. apply occurrences_nonneg.
  - rewrite Forall_forall. intros r R. apply occurrences_in. apply I. exact R.
  - exact D.
  - exact O.
  - assert (H : forall r, occurrences r (references (add (holds o f) (values c) (fresh c))) =
                occurrences r (references (values c)) + occurrences r (after o)).
    { intros r. destruct o as [a|p]; cbn [holds].
      - rewrite OK. specialize (L a). destruct (f a) as [|v [|w l]]; cbn [add flat_map length] in *; [ | | lia ].
        + cbn [occurrences]. lia.
        + change (references ((fresh c, v) :: values c)) with (reference_of v ++ references (values c)).
          rewrite !occurrences_app. cbn [occurrences]. lia.
      - rewrite U. cbn [add occurrences]. lia. }
    assert (V : exists l, add (holds o f) (values c) (fresh c) = l ++ values c /\
                (l = [] \/ exists v, l = [(fresh c, v)] /\
                   match v with VIter d it => In (d, VDocument (it_document it)) (values c) | _ => True end)).
    { destruct o as [a|p]; cbn [holds]; [|exists []; auto].
      specialize (IT a). destruct (f a) as [|v l]; [exists []; auto|].
      exists [(fresh c, v)]. split; [reflexivity|]. right. exists v. split; [reflexivity|].
      apply IT. left. reflexivity. }
    destruct V as (l & V & HL).
    constructor; cbn [values fresh past].
    + exact D'.
    + intros r. rewrite H, O'. reflexivity.
    + rewrite V. destruct HL as [->|(v & -> & _)]; [exact ND|]. cbn. constructor; [|exact ND].
      intros X. rewrite Forall_forall in F. apply F in X. lia.
    + rewrite V. destruct HL as [->|(v & -> & _)]; cbn.
      * eapply Forall_impl; [|exact F]. intros; cbn in *; lia.
      * constructor; [lia|]. eapply Forall_impl; [|exact F]. intros; cbn in *; lia.
    + rewrite V. intros k d it X. rewrite in_app_iff in X. rewrite in_app_iff. right.
      destruct X as [X|X]; [|exact (IV _ _ _ X)].
      destruct HL as [->|(v & -> & P)]; [destruct X|]. destruct X as [X|[]]. apply pair_equal_spec in X as [_ ->]. exact P.
Qed.

Lemma run_plain {A} (c : client) (code : code A) (f : A -> list value) need after :
  invariant c ->
  triple need [] code after ->
  incl need (references (values c)) ->
  (forall a, length (f a) <= 1)%nat ->
  (forall a r, occurrences r (after (Done a)) = occurrences r (flat_map reference_of (f a))) ->
  (forall p, after (Unwinds p) = []) ->
  (forall a v, In v (f a) -> match v with VIter d it => In (d, VDocument (it_document it)) (values c) | _ => True end) ->
  invariant (run c code f).
Proof.
  intros [D O ND F IV] T I L OK U IT.
  apply run_invariant with need [] after; auto. intros r. rewrite O. cbn [occurrences]. lia.
Qed.

Lemma advance_by_invariant step k c :
  (forall it, exists it' i, step it = (it', map_page E (it_document it) i) /\ it_document it' = it_document it) ->
  invariant c -> invariant (advance_by step k c).
Proof.
  intros ST IN. unfold advance_by. destruct (find k (values c)) as [[s|d|p|g|e|d it]|] eqn:FD; try exact IN.
  apply find_in in FD. destruct IN as [D O ND F IV].
  destruct (ST it) as (it' & i & -> & DE).
  assert (ID : In (d, VDocument (it_document it)) (values c)) by exact (IV _ _ _ FD).
  assert (dk : d <> k).
  { intros ->. assert (A : find k (values c) = Some (VDocument (it_document it))) by (apply in_find; auto).
    assert (B : find k (values c) = Some (VIter k it)) by (apply in_find; auto). congruence. }
  assert (ID' : In (d, VDocument (it_document it)) (remove k (values c)))
    by (apply remove_in; split; [exact ID | exact dk]).
  apply run_plain with [(KObject, it_document it)] page_of.
  - constructor; cbn [values fresh past].
    + exact D.
    + intros r. rewrite O, (remove_count r k (VIter d it)) by assumption. cbn [reference_of occurrences].
      change (references ((k, VIter d it') :: remove k (values c))) with (references (remove k (values c))). lia.
    + cbn [map fst]. constructor; [|apply remove_nodup; exact ND].
      intros X. apply in_map_iff in X as ([k' v'] & E' & X). apply remove_in in X as [_ X]. cbn in *. congruence.
    + cbn [map fst]. constructor.
      * rewrite Forall_forall in F. apply F. apply (in_map fst) in FD. exact FD.
      * rewrite Forall_forall in *. intros x X. apply F. apply (remove_keys k). exact X.
    + intros k' d' it2 [[= <- <- <-]|X].
      * right. rewrite DE. exact ID'.
      * right. apply remove_in in X as [X Xk]. apply remove_in. split; [exact (IV _ _ _ X)|].
        cbn. intros ->.
        assert (A : find k (values c) = Some (VDocument (it_document it2))) by (apply in_find; [auto | exact (IV _ _ _ X)]).
        assert (B : find k (values c) = Some (VIter d it)) by (apply in_find; auto). congruence.
  - apply map_page_triple. left. reflexivity.
  - cbn [values]. intros x [<-|[]]. apply (in_references d (VDocument (it_document it))); [right; exact ID'|].
    left. reflexivity.
  - intros [a|]; cbn; lia.
  - intros [a|] r; reflexivity.
  - reflexivity.
  - intros [a|] v X; cbn in X; [destruct X as [<-|[]]; exact I | destruct X].
Qed.

Lemma advance_shape step it : (forall a b, exists i a' b', step a b = (i, (a', b'))) ->
  exists it' i, advance E step it = (it', map_page E (it_document it) i) /\ it_document it' = it_document it.
Proof.
  intros H. unfold advance. destruct (H (it_start it) (it_end it)) as (i & a & b & ->).
  eexists _, _. split; reflexivity.
Qed.

Lemma in_values k v c : find k (values c) = Some v -> incl (reference_of v) (references (values c)).
Proof. intros H. apply find_in in H. exact (in_references _ _ _ H). Qed.

Theorem operate_invariant o c : invariant c -> invariant (operate E overflow_checks is_utf8 o c).
Proof.
  intros IN. destruct o; cbn [operate].
  - apply run_plain with [] new_surface_of; auto; try (apply new_surface_triple); try reflexivity.
    + intros x [].
    + intros [a|a]; cbn; lia.
    + intros [a|a] r; reflexivity.
    + intros [a|a] v X; cbn in X; [destruct X | destruct X as [<-|[]]; exact I].
  - apply run_plain with [] new_surface_of; auto; try (apply new_surface_triple); try reflexivity.
    + intros x [].
    + intros [a|a]; cbn; lia.
    + intros [a|a] r; reflexivity.
    + intros [a|a] v X; cbn in X; [destruct X | destruct X as [<-|[]]; exact I].
  - apply run_plain with [] png_surface_of; auto; try (apply read_from_png_triple); try reflexivity.
    + intros x [].
    + intros [a|a]; cbn; lia.
    + intros [a|a] r; reflexivity.
    + intros [a|a] v X; cbn in X; [destruct X | destruct X as [<-|[]]; exact I].
  - destruct (find surface (values c)) as [[s|d|p|g|e|d it]|] eqn:FD; try exact IN.
    apply run_plain with [(KSurface, s)] (fun _ => []); auto; try reflexivity.
    + apply write_to_png_triple. left. reflexivity.
    + exact (in_values _ _ _ FD).
    + intros a v [].
  - destruct (find surface (values c)) as [[s|d|p|g|e|d it]|] eqn:FD; try exact IN.
    apply run_plain with [(KSurface, s)] (fun _ => []); auto; try reflexivity.
    + apply pixels_triple. left. reflexivity.
    + exact (in_values _ _ _ FD).
    + intros a v [].
  - eapply run_plain with (need := []); [exact IN | apply from_bytes_triple | intros x [] | | | reflexivity |].
    + intros [a|a]; cbn; lia.
    + intros [a|a] r; reflexivity.
    + intros [a|a] v X; cbn in X; destruct X as [<-|[]]; exact I.
  - destruct (find document (values c)) as [[s|d|p|g|e|d it]|] eqn:FD; try exact IN.
    pose proof (find_in _ _ _ FD) as FI.
    unfold run, pages, poppler_document_get_n_pages, andthen, calls, done. cbn [holds add].
    destruct IN as [D O ND F IV]. constructor; cbn [values fresh past].
    + cbn [disciplined required]. split; [|exact D]. constructor; [|constructor]. rewrite O.
      apply occurrences_in. apply (in_values _ _ _ FD). left. reflexivity.
    + intros r. cbn [owned acquired released occurrences]. rewrite O.
      unfold references. cbn [flat_map snd reference_of app]. lia.
    + cbn [map fst]. constructor; [|exact ND]. intros X. rewrite Forall_forall in F. apply F in X. lia.
    + cbn [map fst]. constructor; [lia|]. eapply Forall_impl; [|exact F]. intros; cbn in *; lia.
    + intros k d' it' [[= <- <- <-]|X]; right; [exact FI | exact (IV _ _ _ X)].
  - destruct (find document (values c)) as [[s|d|p|g|e|d it]|] eqn:FD; try exact IN.
    eapply run_plain with (need := [(KObject, d)]); [exact IN | apply producer_triple; left; reflexivity
      | exact (in_values _ _ _ FD) | | | reflexivity |].
    + intros [a|]; cbn; lia.
    + intros [a|] r; reflexivity.
    + intros [a|] v X; cbn in X; [destruct X as [<-|[]]; exact I | destruct X].
  - apply advance_by_invariant; [|exact IN]. intros it. apply advance_shape.
    intros a b. unfold range_next. destruct (a <? b); eexists _, _, _; reflexivity.
  - apply advance_by_invariant; [|exact IN]. intros it. apply advance_shape.
    intros a b. unfold range_nth. destruct (_ && _); eexists _, _, _; reflexivity.
  - apply advance_by_invariant; [|exact IN]. intros it. apply advance_shape.
    intros a b. unfold range_next_back. destruct (a <? b); eexists _, _, _; reflexivity.
  - destruct (find page (values c)) as [[s|d|p|g|e|d it]|] eqn:FD; try exact IN.
    apply run_plain with [(KObject, p)] (fun _ => []); auto; try reflexivity.
    + apply size_in_css_px_triple. left. reflexivity.
    + exact (in_values _ _ _ FD).
    + intros a v [].
  - destruct (find page (values c)) as [[s|d|p|g|e|d it]|] eqn:FD; try exact IN.
    apply run_plain with [(KObject, p)] new_surface_of; auto; try reflexivity.
    + apply render_triple. left. reflexivity.
    + exact (in_values _ _ _ FD).
    + intros [a|a]; cbn; lia.
    + intros [a|a] r; reflexivity.
    + intros [a|a] v X; cbn in X; [destruct X | destruct X as [<-|[]]; exact I].
  - destruct (find page (values c)) as [[s|d|p|g|e|d it]|] eqn:FD; try exact IN.
    eapply run_plain with (need := [(KObject, p)]); [exact IN | apply page_text_triple; left; reflexivity
      | exact (in_values _ _ _ FD) | | | reflexivity |].
    + intros a; cbn; lia.
    + intros a r; reflexivity.
    + intros a v X; cbn in X; destruct X as [<-|[]]; exact I.
  - destruct (find string (values c)) as [[s|d|p|g|e|d it]|] eqn:FD; try exact IN.
    apply run_plain with [(KString, g)] (fun _ => []); auto; try reflexivity.
    + apply to_str_triple. left. reflexivity.
    + exact (in_values _ _ _ FD).
    + intros a v [].
  - destruct (find error (values c)) as [[s|d|p|g|e|d it]|] eqn:FD; try exact IN.
    apply run_plain with [(KError, e)] (fun _ => []); auto; try reflexivity.
    + apply glib_description_triple. left. reflexivity.
    + exact (in_values _ _ _ FD).
    + intros a v [].
  - destruct (find value (values c)) as [v|] eqn:FD; [|exact IN].
    destruct (borrowed value (values c)) eqn:BW; [exact IN|].
    pose proof (find_in _ _ _ FD) as FI. destruct IN as [D O ND F IV].
    apply run_invariant with [] (reference_of v) (fun _ => []); cbn [values fresh past]; auto; try reflexivity.
    + destruct v; cbn [destructor reference_of]; try (apply triple_done'; reflexivity).
      * apply releases_drop, drop_surface_releases.
      * apply releases_drop, drop_document_releases.
      * apply releases_drop, drop_page_releases.
      * apply releases_drop, drop_string_releases.
      * apply releases_drop, drop_glib_error_releases.
    + intros x [].
    + intros a w [].
    + intros r. rewrite O, (remove_count r value v) by assumption. lia.
    + apply remove_nodup. exact ND.
    + rewrite Forall_forall in *. intros x X. apply F. apply (remove_keys value). exact X.
    + intros k d it X. apply remove_in in X as [X _]. apply remove_in. split; [exact (IV _ _ _ X)|].
      cbn. intros ->. unfold borrowed in BW.
      assert (Y : existsb (fun x => match snd x with VIter d _ => (d =? value)%nat | _ => false end) (values c) = true).
      { apply existsb_exists. exists (k, VIter value it). split; [exact X|]. cbn. apply Nat.eqb_refl. }
      congruence.
Qed.

Theorem execute_invariant os : invariant (execute E overflow_checks is_utf8 os).
Proof.
  unfold execute.
  assert (H : forall c, invariant c ->
            invariant (fold_left (fun c o => operate E overflow_checks is_utf8 o c) os c)).
  { induction os as [|o os IH]; intros c IN; cbn [fold_left]; [exact IN|]. apply IH.
    apply operate_invariant. exact IN. }
  apply H. constructor; cbn; auto. constructor.
Qed.
End Functions.
