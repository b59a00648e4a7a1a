(** * lester: what happens to PNG streams, and iteration over pages *)

From Coq Require Import FinFun QArith Qround.
From Verif Require Import Base LesterFloat Lester LesterSpec.

Local Open Scope Z_scope.

(** ** Logs *)

Lemma last_panic_app l b r :
  last_panic (l ++ [(b, r)]) = match r with IoPanic n => Some n | _ => last_panic l end.
Proof.
  induction l as [|[b' r'] l IH]; cbn [last_panic app].
  - destruct r; reflexivity.
  - rewrite IH. destruct r; try reflexivity.
Qed.

Lemma first_error_app l b r :
  first_error (l ++ [(b, r)]) =
  match first_error l with
  | Some e => Some e
  | None => match r with IoErr e => Some e | _ => None end
  end.
Proof.
  induction l as [|[b' r'] l IH]; cbn [first_error app].
  - destruct r; reflexivity.
  - destruct r'; try exact IH. reflexivity.
Qed.

(** Nothing follows an error. *)
Definition stops_at_error (l : list (bytes * io_outcome)) : Prop :=
  forall before b e after, l = before ++ (b, IoErr e) :: after -> after = [].

Lemma first_error_none l : first_error l = None -> forall b e, ~ In (b, IoErr e) l.
Proof.
  induction l as [|[b' r'] l IH]; cbn [first_error]; intros H b e I; [destruct I|].
  destruct r'; try discriminate; destruct I as [I|I]; try discriminate; exact (IH H b e I).
Qed.

Lemma stops_at_error_app l b r : first_error l = None -> stops_at_error (l ++ [(b, r)]).
Proof.
  intros H before b' e after E.
  destruct after as [|x after] using rev_ind; [reflexivity|]. clear IHafter. exfalso.
  rewrite app_comm_cons, app_assoc in E. apply app_inj_tail in E as [E _].
  apply (first_error_none l H b' e). rewrite E, in_app_iff. right. left. reflexivity.
Qed.

Record log_ok {S} (cl : closure_data (S * list (bytes * io_outcome))) : Prop := {
  log_error : cl_result _ cl = first_error (snd (cl_stream _ cl));
  log_panic : cl_panic _ cl = last_panic (snd (cl_stream _ cl));
  log_stops : stops_at_error (snd (cl_stream _ cl))
}.

Lemma log_ok_start {S} (s : S) : log_ok (ClosureData _ (s, []) None None).
Proof.
  constructor; cbn; auto. intros before b e after H. destruct before; discriminate.
Qed.

Lemma read_log {S} (read : S -> bytes -> S * io_outcome * bytes) t :
  forall cl, log_ok cl -> log_ok (fst (run_reader _ (logged_read read) t cl)).
Proof.
  induction t as [p|buffer next IH]; intros cl H; cbn [run_reader]; [exact H|].
  destruct (callback _ _ _ _ _) as [[cl' status] buffer'] eqn:C. apply IH.
  destruct H as [HE HP HS]. destruct cl as [[s log] result panic]. cbn [cl_stream cl_result cl_panic snd] in *.
  unfold callback in C. cbn [cl_stream cl_result cl_panic snd] in C. subst result panic.
  destruct (first_error log) as [e|] eqn:FE.
  - injection C as <- <- <-. constructor; cbn [cl_stream cl_result cl_panic snd]; auto.
  - unfold logged_read in C. cbn [fst snd] in C. destruct (read s buffer) as [[s' r] b].
    destruct r; injection C as <- <- <-; constructor; cbn [cl_stream cl_result cl_panic snd];
      rewrite ?first_error_app, ?last_panic_app, ?FE; try reflexivity; apply stops_at_error_app; exact FE.
Qed.

Lemma write_log {S} (write : S -> bytes -> S * io_outcome) t :
  forall cl, log_ok cl -> log_ok (fst (run_writer _ (logged_write write) t cl)).
Proof.
  induction t as [p|data next IH]; intros cl H; cbn [run_writer]; [exact H|].
  destruct (callback _ _ _ _ _) as [[cl' status] u] eqn:C. apply IH.
  destruct H as [HE HP HS]. destruct cl as [[s log] result panic]. cbn [cl_stream cl_result cl_panic snd] in *.
  unfold callback in C. cbn [cl_stream cl_result cl_panic snd] in C. subst result panic.
  destruct (first_error log) as [e|] eqn:FE.
  - injection C as <- <- <-. constructor; cbn [cl_stream cl_result cl_panic snd]; auto.
  - unfold logged_write in C. cbn [fst snd] in C. destruct (write s data) as [s' r].
    destruct r; injection C as <- <- <-; constructor; cbn [cl_stream cl_result cl_panic snd];
      rewrite ?first_error_app, ?last_panic_app, ?FE; try reflexivity; apply stops_at_error_app; exact FE.
Qed.

(** Keeping a log changes nothing. *)
Definition forget {S} (cl : closure_data (S * list (bytes * io_outcome))) : closure_data S :=
  ClosureData S (fst (cl_stream _ cl)) (cl_result _ cl) (cl_panic _ cl).

Lemma read_forget {S} (read : S -> bytes -> S * io_outcome * bytes) t :
  forall cl, run_reader S read t (forget cl) =
    (forget (fst (run_reader _ (logged_read read) t cl)), snd (run_reader _ (logged_read read) t cl)).
Proof.
  induction t as [p|buffer next IH]; intros cl; cbn [run_reader]; [reflexivity|].
  destruct cl as [[s log] result panic]. unfold callback, forget, logged_read. cbn [cl_stream cl_result cl_panic fst snd].
  destruct result as [e|].
  - apply (IH _ _ (ClosureData _ (s, log) (Some e) panic)).
  - destruct (read s buffer) as [[s' r] b].
    destruct r as [|e|n].
    + apply (IH _ _ (ClosureData _ (s', log ++ [(b, IoOk)]) None panic)).
    + apply (IH _ _ (ClosureData _ (s', log ++ [(b, IoErr e)]) (Some e) panic)).
    + apply (IH _ _ (ClosureData _ (s', log ++ [(b, IoPanic n)]) None (Some n))).
Qed.

Lemma write_forget {S} (write : S -> bytes -> S * io_outcome) t :
  forall cl, run_writer S write t (forget cl) =
    (forget (fst (run_writer _ (logged_write write) t cl)), snd (run_writer _ (logged_write write) t cl)).
Proof.
  induction t as [p|data next IH]; intros cl; cbn [run_writer]; [reflexivity|].
  destruct cl as [[s log] result panic]. unfold callback, forget, logged_write. cbn [cl_stream cl_result cl_panic fst snd].
  destruct result as [e|].
  - apply (IH _ (ClosureData _ (s, log) (Some e) panic)).
  - destruct (write s data) as [s' r].
    destruct r as [|e|n].
    + apply (IH _ (ClosureData _ (s', log ++ [(data, IoOk)]) None panic)).
    + apply (IH _ (ClosureData _ (s', log ++ [(data, IoErr e)]) (Some e) panic)).
    + apply (IH _ (ClosureData _ (s', log ++ [(data, IoPanic n)]) None (Some n))).
Qed.

Lemma after_callbacks_forget {S A} (cl : closure_data (S * list (bytes * io_outcome))) (rest : code (lester_error + A)) :
  after_callbacks S (forget cl) rest = after_callbacks _ cl rest.
Proof. reflexivity. Qed.

Lemma read_from_png_log E S read (s : S) h :
  let '(r, h', (s', log)) := read_from_png E _ (logged_read read) (s, []) h in
  read_from_png E S read s h = (r, h', s').
Proof.
  unfold read_from_png.
  change (ClosureData S s None None) with (forget (ClosureData (S * list (bytes * io_outcome)) (s, []) None None)).
  rewrite read_forget.
  destruct (run_reader _ (logged_read read) (env_png_reader E h) (ClosureData _ (s, []) None None)) as [cl p].
  cbn [fst snd]. rewrite after_callbacks_forget.
  destruct (dropped_unless_ok _ _ _) as [r h']. destruct cl as [[s' log] e n]. reflexivity.
Qed.

Lemma write_to_png_log E S write p (s : S) h :
  let '(r, h', (s', log)) := write_to_png E _ (logged_write write) p (s, []) h in
  write_to_png E S write p s h = (r, h', s').
Proof.
  unfold write_to_png.
  change (ClosureData S s None None) with (forget (ClosureData (S * list (bytes * io_outcome)) (s, []) None None)).
  rewrite write_forget.
  destruct (run_writer _ (logged_write write) (env_png_writer E h p) (ClosureData _ (s, []) None None)) as [cl st].
  cbn [fst snd]. rewrite after_callbacks_forget.
  destruct (after_callbacks _ _ _ _) as [r h']. destruct cl as [[s' log] e n]. reflexivity.
Qed.

(** ** Results *)

Lemma replay_run {S} (read : S -> bytes -> S * io_outcome * bytes) t :
  forall s log panic, let (cl, p) := run_reader _ (logged_read read) t (ClosureData _ (s, log) None panic) in
  cl_result _ cl = None -> exists more, snd (cl_stream _ cl) = log ++ more /\ replay t more = Some p.
Proof.
  assert (X : forall t cl e, cl_result _ cl = Some e -> fst (run_reader _ (logged_read read) t cl) = cl).
  { intros t0. induction t0 as [p|buffer next IH]; intros cl e H; cbn [run_reader]; [reflexivity|].
    unfold callback. rewrite H. apply IH with e. exact H. }
  induction t as [p|buffer next IH]; intros s log panic; cbn [run_reader replay].
  - intros _. exists []. cbn. rewrite app_nil_r. auto.
  - unfold callback, logged_read at 1 2. cbn [cl_stream cl_result cl_panic fst snd].
    destruct (read s buffer) as [[s' r] b].
    assert (K : forall st panic', st = match r with IoOk => 0 | _ => 10 end ->
      let (cl, p) := run_reader _ (logged_read read) (next st b) (ClosureData _ (s', log ++ [(b, r)]) None panic') in
      cl_result _ cl = None -> exists more, snd (cl_stream _ cl) = log ++ more /\
        match more with
        | [] => None
        | (b, r) :: log => replay (next (match r with IoOk => 0 | _ => 10 end) b) log
        end = Some p).
    { intros st panic' ->. specialize (IH (match r with IoOk => 0 | _ => 10 end) b s' (log ++ [(b, r)]) panic').
      destruct (run_reader _ _ _ _) as [cl p]. intros H. destruct (IH H) as (more & M1 & M2).
      exists ((b, r) :: more). rewrite M1, <- app_assoc. split; [reflexivity | exact M2]. }
    destruct r as [|e|n]; [apply K; reflexivity| |apply K; reflexivity].
    specialize (X (next CAIRO_STATUS_READ_ERROR b) (ClosureData _ (s', log ++ [(b, IoErr e)]) (Some e) panic) e eq_refl).
    destruct (run_reader _ _ _ _) as [cl p]. cbn [fst] in X. subst cl. discriminate.
Qed.

Lemma read_from_png_result E S read (s : S) h :
  let '(r, h', (s', log)) := read_from_png E _ (logged_read read) (s, []) h in
  stops_at_error log /\
  match last_panic log, first_error log with
  | Some n, _ => r = Unwinds (FromStream n)
  | None, Some e => r = Done (inl (IoError e))
  | None, None =>
      exists p, replay (env_png_reader E h) log = Some p /\
        let status := env_surface_status E (CreateFromPngStream p :: h) p in
        r = Done (if status =? 0 then inr p else inl (CairoError status))
  end.
Proof.
  unfold read_from_png.
  pose proof (read_log read (env_png_reader E h) _ (log_ok_start s)) as L.
  pose proof (replay_run read (env_png_reader E h) s [] None) as RP.
  destruct (run_reader _ (logged_read read) (env_png_reader E h) (ClosureData _ (s, []) None None)) as [cl p].
  cbn [fst] in L. destruct L as [LE LP LS]. destruct cl as [[s' log] e n].
  cbn [cl_stream cl_result cl_panic snd] in *. subst e n.
  unfold dropped_unless_ok, after_callbacks. cbn [cl_stream cl_result cl_panic].
  destruct (last_panic log) as [n|] eqn:LP; [cbn; rewrite LP; auto|].
  destruct (first_error log) as [e|] eqn:LE; [cbn; rewrite LP, LE; auto|].
  destruct (RP eq_refl) as (more & M1 & M2). cbn [app] in M1. subst more.
  unfold surface_check_status, cairo_surface_status, andthen, calls, done, check, question, from_cairo.
  cbv beta iota zeta delta [andthen done drop_surface says].
  destruct (env_surface_status E (CreateFromPngStream p :: h) p =? 0) eqn:ST.
  - cbv beta iota zeta delta [andthen done drop_surface says]. rewrite LP, LE. split; [exact LS|]. exists p. rewrite ST. auto.
  - cbv beta iota zeta delta [andthen done drop_surface says]. rewrite LP, LE. split; [exact LS|]. exists p. rewrite ST. auto.
Qed.

(** What cairo writes when no operation fails. *)
Lemma emitted_log {S} (write : S -> bytes -> S * io_outcome) t :
  forall s log, let (cl, status) := run_writer _ (logged_write write) t (ClosureData _ (s, log) None None) in
  cl_result _ cl = None -> cl_panic _ cl = None ->
  snd (cl_stream _ cl) = log ++ map (fun d => (d, IoOk)) (fst (emitted t)) /\ status = snd (emitted t).
Proof.
  induction t as [status|data next IH]; intros s log; cbn [run_writer emitted].
  - intros _ _. cbn. rewrite app_nil_r. auto.
  - unfold callback, logged_write at 1 2. cbn [cl_stream cl_result cl_panic fst snd].
    destruct (write s data) as [s' r]. destruct r as [|e|n].
    + specialize (IH CAIRO_STATUS_SUCCESS s' (log ++ [(data, IoOk)])).
      destruct (run_writer _ _ _ _) as [cl status]. intros HE HP. destruct (IH HE HP) as [L ->].
      unfold CAIRO_STATUS_SUCCESS in *. destruct (emitted (next 0)) as [l st]. cbn [fst snd map] in *.
      rewrite L, <- app_assoc. auto.
    + assert (X : forall t cl, cl_result _ cl <> None -> cl_result _ (fst (run_writer _ (logged_write write) t cl)) <> None).
      { clear. induction t as [st|data next IH]; intros cl H; cbn [run_writer]; [exact H|].
        unfold callback. destruct (cl_result _ cl) eqn:C; [|congruence]. apply IH. congruence. }
      specialize (X (next CAIRO_STATUS_WRITE_ERROR)
        (ClosureData _ (s', log ++ [(data, IoErr e)]) (Some e) None)).
      destruct (run_writer _ _ _ _) as [cl status]. intros HE HP. exfalso. apply X; [discriminate | exact HE].
    + assert (X : forall t cl, cl_panic _ cl <> None -> cl_panic _ (fst (run_writer _ (logged_write write) t cl)) <> None).
      { clear. induction t as [st|data next IH]; intros cl H; cbn [run_writer]; [exact H|].
        unfold callback. destruct (cl_result _ cl) eqn:C; [apply IH; exact H|].
        destruct (logged_write write (cl_stream _ cl) data) as [s' r].
        destruct r; apply IH; cbn; congruence. }
      specialize (X (next CAIRO_STATUS_WRITE_ERROR)
        (ClosureData _ (s', log ++ [(data, IoPanic n)]) None (Some n))).
      destruct (run_writer _ _ _ _) as [cl status]. intros HE HP. exfalso. apply X; [discriminate | exact HP].
Qed.

Lemma write_to_png_result E S write p (s : S) h :
  let '(r, h', (s', log)) := write_to_png E _ (logged_write write) p (s, []) h in
  stops_at_error log /\
  match last_panic log, first_error log with
  | Some n, _ => r = Unwinds (FromStream n)
  | None, Some e => r = Done (inl (IoError e))
  | None, None =>
      let (chunks, status) := emitted (env_png_writer E h p) in
      log = map (fun d => (d, IoOk)) chunks /\
      r = Done (if status =? 0 then inr tt else inl (CairoError status))
  end.
Proof.
  unfold write_to_png.
  pose proof (write_log write (env_png_writer E h p) _ (log_ok_start s)) as L.
  pose proof (emitted_log write (env_png_writer E h p) s []) as EM.
  destruct (run_writer _ (logged_write write) (env_png_writer E h p) (ClosureData _ (s, []) None None)) as [cl st].
  cbn [fst] in L. destruct L as [LE LP LS]. destruct cl as [[s' log] e n].
  cbn [cl_stream cl_result cl_panic snd] in *. subst e n.
  unfold after_callbacks. cbn [cl_stream cl_result cl_panic].
  destruct (last_panic log) as [n|] eqn:LP; [cbn; rewrite LP; auto|].
  destruct (first_error log) as [e|] eqn:LE; [cbn; rewrite LP, LE; auto|].
  destruct (EM eq_refl eq_refl) as [-> ->]. unfold check, from_cairo, done.
  destruct (emitted (env_png_writer E h p)) as [chunks status]. cbn [fst snd app].
  cbn [app map fst snd] in *. rewrite LP, LE. split; [exact LS|]. split; [reflexivity|]. destruct (status =? 0); reflexivity.
Qed.

(** ** A cairo that gives up *)

Lemma reader_gives_up {S} (read : S -> bytes -> S * io_outcome * bytes) t :
  gives_up_reading t -> forall s log panic,
  let cl := fst (run_reader _ (logged_read read) t (ClosureData _ (s, log) None panic)) in
  exists ended, snd (cl_stream _ cl) = log ++ ended /\
    (forall before x after, ended = before ++ x :: after -> snd x <> IoOk -> after = []).
Proof.
  induction t as [p|buffer next IH]; intros G s log panic; cbn [run_reader].
  - exists []. cbn. rewrite app_nil_r. split; [reflexivity|]. intros before x after H. destruct before; discriminate.
  - destruct G as [G1 G2]. unfold callback, logged_read at 1 2. cbn [cl_stream cl_result cl_panic fst snd].
    destruct (read s buffer) as [[s' r] b].
    assert (LAST : forall r st cl, r <> IoOk -> st <> 0 -> snd (cl_stream _ cl) = log ++ [(b, r)] ->
      exists ended, snd (cl_stream _ (fst (run_reader _ (logged_read read) (next st b) cl))) = log ++ ended /\
      (forall before x after, ended = before ++ x :: after -> snd x <> IoOk -> after = [])).
    { intros r' st cl R ST H. destruct (G2 st b ST) as [q ->]. cbn [run_reader fst].
      exists [(b, r')]. split; [exact H|]. intros before x after H' _.
      destruct before as [|y [|z before]]; [injection H' as _ <-; reflexivity | discriminate | discriminate]. }
    destruct r as [|e|n].
    + destruct (IH CAIRO_STATUS_SUCCESS b (G1 b) s' (log ++ [(b, IoOk)]) panic) as (ended & H1 & H2).
      exists ((b, IoOk) :: ended). split; [etransitivity; [exact H1|]; rewrite <- app_assoc; reflexivity|].
      intros before x after H NX. destruct before as [|y before].
      * injection H as <- ->. cbn in NX. congruence.
      * injection H as _ H. exact (H2 before x after H NX).
    + apply (LAST (IoErr e)); [discriminate | discriminate | reflexivity].
    + apply (LAST (IoPanic n)); [discriminate | discriminate | reflexivity].
Qed.

Lemma writer_gives_up {S} (write : S -> bytes -> S * io_outcome) t :
  gives_up_writing t -> forall s log panic,
  let cl := fst (run_writer _ (logged_write write) t (ClosureData _ (s, log) None panic)) in
  exists ended, snd (cl_stream _ cl) = log ++ ended /\
    (forall before x after, ended = before ++ x :: after -> snd x <> IoOk -> after = []).
Proof.
  induction t as [p|b next IH]; intros G s log panic; cbn [run_writer].
  - exists []. cbn. rewrite app_nil_r. split; [reflexivity|]. intros before x after H. destruct before; discriminate.
  - destruct G as [G1 G2]. unfold callback, logged_write at 1 2. cbn [cl_stream cl_result cl_panic fst snd].
    destruct (write s b) as [s' r].
    assert (LAST : forall r st cl, r <> IoOk -> st <> 0 -> snd (cl_stream _ cl) = log ++ [(b, r)] ->
      exists ended, snd (cl_stream _ (fst (run_writer _ (logged_write write) (next st) cl))) = log ++ ended /\
      (forall before x after, ended = before ++ x :: after -> snd x <> IoOk -> after = [])).
    { intros r' st cl R ST H. destruct (G2 st ST) as [q ->]. cbn [run_writer fst].
      exists [(b, r')]. split; [exact H|]. intros before x after H' _.
      destruct before as [|y [|z before]]; [injection H' as _ <-; reflexivity | discriminate | discriminate]. }
    destruct r as [|e|n].
    + destruct (IH CAIRO_STATUS_SUCCESS G1 s' (log ++ [(b, IoOk)]) panic) as (ended & H1 & H2).
      exists ((b, IoOk) :: ended). split; [etransitivity; [exact H1|]; rewrite <- app_assoc; reflexivity|].
      intros before x after H NX. destruct before as [|y before].
      * injection H as <- ->. cbn in NX. congruence.
      * injection H as _ H. exact (H2 before x after H NX).
    + apply (LAST (IoErr e)); [discriminate | discriminate | reflexivity].
    + apply (LAST (IoPanic n)); [discriminate | discriminate | reflexivity].
Qed.

(** ** Reading from bytes in memory *)

Lemma slice_run eof t : forall file,
  let (cl, p) := run_reader bytes (slice_read eof) t (ClosureData _ file None None) in
  match fed t file with
  | Some q => p = q /\ cl_result _ cl = None /\ cl_panic _ cl = None
  | None => cl_result _ cl = Some eof /\ cl_panic _ cl = None
  end.
Proof.
  assert (X : forall t cl e, cl_result _ cl = Some e -> fst (run_reader bytes (slice_read eof) t cl) = cl).
  { intros t0. induction t0 as [p|buffer next IH]; intros cl e H; cbn [run_reader]; [reflexivity|].
    unfold callback. rewrite H. apply IH with e. exact H. }
  induction t as [p|buffer next IH]; intros file; cbn [run_reader fed]; [auto|].
  unfold callback, slice_read at 1. cbn [cl_stream cl_result cl_panic].
  destruct (length buffer <=? length file)%nat.
  - apply IH.
  - specialize (X (next CAIRO_STATUS_READ_ERROR buffer) (ClosureData _ file (Some eof) None) eof eq_refl).
    destruct (run_reader _ _ _ _) as [cl p]. cbn [fst] in X. subst cl. auto.
Qed.

Lemma slice_result E eof file h :
  fst (fst (read_from_png E bytes (slice_read eof) file h)) =
  match fed (env_png_reader E h) file with
  | None => Done (inl (IoError eof))
  | Some p =>
      let status := env_surface_status E (CreateFromPngStream p :: h) p in
      Done (if status =? 0 then inr p else inl (CairoError status))
  end.
Proof.
  unfold read_from_png. pose proof (slice_run eof (env_png_reader E h) file) as R.
  destruct (run_reader _ _ _ _) as [cl p].
  destruct (fed (env_png_reader E h) file) as [q|].
  - destruct R as (-> & RE & RP). unfold dropped_unless_ok, after_callbacks. rewrite RE, RP.
    unfold surface_check_status, cairo_surface_status, andthen, calls, done, check, question, from_cairo.
    cbv beta iota zeta delta [andthen done drop_surface says].
    destruct (env_surface_status E (CreateFromPngStream q :: h) q =? 0) eqn:ST; reflexivity.
  - destruct R as (RE & RP). unfold dropped_unless_ok, after_callbacks. rewrite RE, RP. reflexivity.
Qed.

(** ** Iteration over pages *)

Definition between (a b : Z) : list Z := map (fun i => a + Z.of_nat i) (seq 0 (Z.to_nat (b - a))).

Lemma between_empty a b : b <= a -> between a b = [].
Proof. intros H. unfold between. replace (Z.to_nat (b - a)) with 0%nat by lia. reflexivity. Qed.

Lemma between_cons a b : a < b -> between a b = a :: between (a + 1) b.
Proof.
  intros H. unfold between. replace (Z.to_nat (b - a)) with (S (Z.to_nat (b - (a + 1)))) by lia.
  cbn [seq map]. f_equal; [lia|]. rewrite <- seq_shift, map_map. apply map_ext. intros i. lia.
Qed.

Lemma between_snoc a b : a < b -> between a b = between a (b - 1) ++ [b - 1].
Proof.
  intros H. unfold between. replace (Z.to_nat (b - a)) with (S (Z.to_nat (b - 1 - a))) by lia.
  rewrite seq_S, map_app. cbn [map]. do 2 f_equal. lia.
Qed.

Lemma between_length a b : length (between a b) = Z.to_nat (b - a).
Proof. unfold between. rewrite map_length, seq_length. reflexivity. Qed.

Lemma between_skipn n : forall a b, skipn n (between a b) = between (a + Z.of_nat n) b.
Proof.
  induction n as [|n IH]; intros a b; cbn [skipn].
  - f_equal. lia.
  - destruct (Z_lt_le_dec a b) as [L|G].
    + rewrite between_cons by exact L. rewrite IH. f_equal. lia.
    + rewrite !between_empty by lia. reflexivity.
Qed.

Lemma between_numbers n : between 0 n = numbers n.
Proof.
  unfold between, numbers. rewrite Z.sub_0_r. apply map_ext. intros i. lia.
Qed.

(** The range of an iterator, as it goes. *)
Definition range_ok (a b : Z) : Prop := b <= 2147483647.

Lemma range_steps o a b : range_ok a b -> o <> QLen ->
  let step := match o with
              | QNext => range_next | QNextBack => range_next_back
              | QNth n => range_nth n | QLen => range_next
              end in
  let '(i, (a', b')) := step a b in
  queue_step o (between a b) = (i, between a' b') /\ range_ok a' b'.
Proof.
  intros A NL. unfold range_ok in *. destruct o as [| |n|]; cbn [queue_step]; [| | |congruence].
  - unfold range_next. destruct (a <? b) eqn:L.
    + apply Z.ltb_lt in L. rewrite between_cons by exact L. cbn. split; [reflexivity | lia].
    + apply Z.ltb_ge in L. rewrite between_empty by exact L. cbn. auto.
  - unfold range_next_back. destruct (a <? b) eqn:L.
    + apply Z.ltb_lt in L. rewrite between_snoc by exact L. rewrite rev_app_distr, removelast_last.
      cbn. split; [reflexivity | lia].
    + apply Z.ltb_ge in L. rewrite between_empty by exact L. cbn. auto.
  - unfold range_nth. rewrite between_skipn. rewrite N_nat_Z.
    destruct ((a + Z.of_N n <=? 2147483647) && (a + Z.of_N n <? b)) eqn:L.
    + apply andb_true_iff in L as [L1 L2]. apply Z.ltb_lt in L2. rewrite between_cons by exact L2.
      cbn. split; [reflexivity | lia].
    + assert (G : b <= a + Z.of_N n).
      { apply andb_false_iff in L as [L|L]; [apply Z.leb_gt in L | apply Z.ltb_ge in L]; lia. }
      rewrite between_empty by exact G. rewrite (between_empty b b) by lia. cbn. split; [reflexivity | lia].
Qed.

Lemma iterate_queue E d os : forall a b h, range_ok a b ->
  iterate E os (PagesIter d a b) h = queue_run E d os (between a b) h.
Proof.
  induction os as [|o os IH]; intros a b h R; cbn [iterate queue_run]; [reflexivity|].
  assert (QL : o = QLen \/ o <> QLen) by (destruct o; auto; right; discriminate).
  destruct QL as [->|NL].
  - cbn [iter_step queue_step]. unfold done. rewrite (IH a b h R).
    destruct (queue_run E d os (between a b) h) as [results h'].
    do 2 f_equal. do 2 f_equal. rewrite between_length. unfold iter_len. cbn [it_start it_end].
    destruct (a <? b) eqn:L.
    + apply Z.ltb_lt in L. rewrite Z2N.id by lia. rewrite Z2Nat.id by lia. reflexivity.
    + apply Z.ltb_ge in L. replace (Z.to_nat (b - a)) with 0%nat by lia. reflexivity.
  - pose proof (range_steps o a b R NL) as S. cbv zeta in S.
    assert (K : forall i a' b', queue_step o (between a b) = (i, between a' b') -> range_ok a' b' ->
      iter_step E o (PagesIter d a b) = (PagesIter d a' b', map_page E d i) ->
      (let (it', code) := iter_step E o (PagesIter d a b) in
       let (result, h') := code h in
       let (results, h'') := iterate E os it' h' in (result :: results, h'')) =
      (let (r, l') := queue_step o (between a b) in
       let '(result, h') :=
         match o, r with
         | QLen, _ | _, None => (Done r, h)
         | _, Some i =>
             let p := env_get_page E h d i in
             ((if p =? 0 then Unwinds NullPage else Done (Some p)), DocumentGetPage d i p :: h)
         end in
       let (results, h'') := queue_run E d os l' h' in (result :: results, h''))).
    { intros i a' b' Q R' ->. rewrite Q. destruct i as [i|].
      - unfold map_page, get_page, poppler_document_get_page, andthen, calls.
        destruct (env_get_page E h d i =? 0) eqn:P.
        + cbn [negb assert unwind]. rewrite IH by exact R'. destruct o; try congruence; cbv zeta; try rewrite P; reflexivity.
        + cbn [negb assert done]. unfold done. rewrite IH by exact R'. destruct o; try congruence; cbv zeta; try rewrite P; reflexivity.
      - cbn [map_page]. unfold done. rewrite IH by exact R'. destruct o; congruence || reflexivity. }
    destruct o as [| |n|]; try congruence.
    + destruct (range_next a b) as [i [a' b']] eqn:S'. destruct S as [S1 S2]. apply (K i a' b'); auto.
      cbn [iter_step]. unfold iter_next, advance. cbn [it_start it_end it_document]. rewrite S'. reflexivity.
    + destruct (range_next_back a b) as [i [a' b']] eqn:S'. destruct S as [S1 S2]. apply (K i a' b'); auto.
      cbn [iter_step]. unfold iter_next_back, advance. cbn [it_start it_end it_document]. rewrite S'. reflexivity.
    + destruct (range_nth n a b) as [i [a' b']] eqn:S'. destruct S as [S1 S2]. apply (K i a' b'); auto.
      cbn [iter_step]. unfold iter_nth, advance. cbn [it_start it_end it_document]. rewrite S'. reflexivity.
Qed.

Lemma queue_step_fresh o l i l' : o <> QLen -> NoDup l -> queue_step o l = (Some i, l') ->
  In i l /\ ~ In i l' /\ incl l' l /\ NoDup l'.
Proof.
  intros NL ND. destruct o as [| |n|]; cbn [queue_step]; [| | |congruence].
  - destruct l as [|x l]; cbn; [discriminate|]. intros [= -> <-]. inversion ND; subst.
    repeat split; auto using in_eq, incl_tl, incl_refl.
  - destruct l as [|x l] using rev_ind; cbn [rev]; [discriminate|]. rewrite rev_app_distr, removelast_last. cbn.
    intros [= -> <-]. apply NoDup_remove in ND as [N1 N2]. rewrite app_nil_r in *.
    split; [apply in_or_app; right; left; reflexivity|].
    split; [exact N2|]. split; [|exact N1]. apply incl_appl, incl_refl.
  - intros H. assert (I : incl (skipn (N.to_nat n) l) l).
    { intros x X. rewrite <- (firstn_skipn (N.to_nat n) l). apply in_or_app. right. exact X. }
    assert (D : NoDup (skipn (N.to_nat n) l)).
    { rewrite <- (firstn_skipn (N.to_nat n) l) in ND.
      revert ND. generalize (firstn (N.to_nat n) l) (skipn (N.to_nat n) l). intros a b.
      induction a as [|y a IHa]; cbn; [auto|]. intros X. inversion X; auto. }
    destruct (skipn (N.to_nat n) l) as [|x k]; cbn in H; [discriminate|]. injection H as -> <-.
    inversion D; subst. repeat split; auto.
    + apply I. left. reflexivity.
    + intros y Y. apply I. right. exact Y.
Qed.

Lemma queue_step_none o l l' : queue_step o l = (None, l') -> NoDup l -> incl l' l /\ NoDup l'.
Proof.
  destruct o as [| |n|]; cbn [queue_step]; intros H ND.
  - destruct l; cbn in H; [|discriminate]. injection H as <-. auto using incl_refl.
  - destruct l as [|x l] using rev_ind; cbn [rev] in H; [injection H as <-; auto using incl_refl|].
    rewrite rev_app_distr in H. discriminate.
  - destruct (skipn (N.to_nat n) l); cbn in H; [|discriminate]. injection H as <-.
    split; [intros x []|constructor].
  - discriminate.
Qed.

Lemma queue_run_once E d os : forall l h, NoDup l ->
  exists asked, requested (snd (queue_run E d os l h)) = asked ++ requested h /\ NoDup asked /\ incl asked l.
Proof.
  induction os as [|o os IH]; intros l h ND; cbn [queue_run].
  - exists []. split; [reflexivity|]. split; [constructor | intros x []].
  - destruct (queue_step o l) as [r l'] eqn:Q.
    assert (QL : o = QLen \/ o <> QLen) by (destruct o; auto; right; discriminate).
    destruct QL as [->|NL].
    + cbn in Q. injection Q as <- <-. destruct (IH l h ND) as (asked & A & B & C).
      destruct (queue_run E d os l h) as [results h']. exists asked. auto.
    + destruct r as [i|].
      * destruct (queue_step_fresh o l i l' NL ND Q) as (I1 & I2 & I3 & I4).
        destruct (IH l' (DocumentGetPage d i (env_get_page E h d i) :: h) I4) as (asked & A & B & C).
        exists (asked ++ [i]).
        assert (R : snd (let '(result, h') :=
              match o with
              | QLen => (Done (Some i), h)
              | _ => (if env_get_page E h d i =? 0 then Unwinds NullPage else Done (Some (env_get_page E h d i)),
                      DocumentGetPage d i (env_get_page E h d i) :: h)
              end in let (results, h'') := queue_run E d os l' h' in (result :: results, h'')) =
            snd (queue_run E d os l' (DocumentGetPage d i (env_get_page E h d i) :: h))).
        { destruct o; try congruence;
          destruct (queue_run E d os l' (DocumentGetPage d i (env_get_page E h d i) :: h)); reflexivity. }
        split; [|split].
        -- destruct o; try congruence; cbv zeta; rewrite <- app_assoc; cbn [app];
           destruct (queue_run E d os l' (DocumentGetPage d i (env_get_page E h d i) :: h)) as [results h'];
           cbn [snd] in *; rewrite A; reflexivity.
        -- apply NoDup_rev in B. rewrite <- (rev_involutive (asked ++ [i])). apply NoDup_rev.
           rewrite rev_app_distr. cbn. constructor; [|exact B]. rewrite <- in_rev. intros X. apply I2, C, X.
        -- intros x X. apply in_app_or in X as [X|[<-|[]]]; [apply I3, C, X | exact I1].
      * destruct (queue_step_none o l l' Q ND) as [I N']. destruct (IH l' h N') as (asked & A & B & C).
        exists asked. split; [|split; [exact B|]].
        -- destruct o; destruct (queue_run E d os l' h); exact A.
        -- intros x X. apply I, C, X.
Qed.

Lemma numbers_nodup n : NoDup (numbers n).
Proof.
  unfold numbers. apply FinFun.Injective_map_NoDup; [|apply seq_NoDup].
  intros x y H. lia.
Qed.

(** ** Files *)

Lemma file_run full t : forall c room buf,
  (N.of_nat (length buf) <= 8192)%N ->
  let (cl, status) := run_writer (buf_writer (bytes * nat)) (buf_write_all (bytes * nat) (disk_put full)) t
                        (ClosureData _ (BufWriter _ (c, room) buf) None None) in
  cl_result _ cl = None ->
  cl_panic _ cl = None /\ status = snd (emitted t) /\
  exists c' room' buf', cl_stream _ cl = BufWriter _ (c', room') buf' /\
    c' ++ buf' = c ++ buf ++ concat (fst (emitted t)) /\
    (length c' + room' = length c + room)%nat /\
    (N.of_nat (length buf') <= 8192)%N.
Proof.
  assert (X : forall t cl, cl_result _ cl <> None ->
    cl_result _ (fst (run_writer (buf_writer (bytes * nat)) (buf_write_all (bytes * nat) (disk_put full)) t cl)) <> None).
  { intros t0. induction t0 as [st|data next IH]; intros cl H; cbn [run_writer]; [exact H|].
    unfold callback. destruct (cl_result _ cl) eqn:C; [|congruence]. apply IH. congruence. }
  induction t as [status|data next IH]; intros c room buf B; cbn [run_writer emitted].
  - intros _. split; [reflexivity|]. split; [reflexivity|]. exists c, room, buf. cbn. rewrite app_nil_r. auto.
  - unfold callback. cbn [cl_stream cl_result cl_panic].
    assert (ERR : forall b e, let (cl, status) := run_writer (buf_writer (bytes * nat)) (buf_write_all (bytes * nat) (disk_put full))
        (next CAIRO_STATUS_WRITE_ERROR) (ClosureData _ b (Some e) None) in
        cl_result _ cl = None -> False).
    { intros b e. specialize (X (next CAIRO_STATUS_WRITE_ERROR) (ClosureData _ b (Some e) None)).
      destruct (run_writer _ _ _ _) as [cl status]. apply X. discriminate. }
    assert (GO : forall c1 room1 buf1,
      (N.of_nat (length buf1) <= 8192)%N ->
      c1 ++ buf1 = c ++ buf ++ data -> (length c1 + room1 = length c + room)%nat ->
      let (cl, status) := run_writer (buf_writer (bytes * nat)) (buf_write_all (bytes * nat) (disk_put full))
        (next CAIRO_STATUS_SUCCESS) (ClosureData _ (BufWriter _ (c1, room1) buf1) None None) in
      cl_result _ cl = None ->
      cl_panic _ cl = None /\ status = snd (let (l, status) := emitted (next 0) in (data :: l, status)) /\
      exists c' room' buf', cl_stream _ cl = BufWriter _ (c', room') buf' /\
        c' ++ buf' = c ++ buf ++ concat (fst (let (l, status) := emitted (next 0) in (data :: l, status))) /\
        (length c' + room' = length c + room)%nat /\ (N.of_nat (length buf') <= 8192)%N).
    { intros c1 room1 buf1 B1 C1 R1. specialize (IH CAIRO_STATUS_SUCCESS c1 room1 buf1 B1).
      destruct (run_writer _ _ _ _) as [cl status]. intros HE.
      destruct (IH HE) as (HP & HS & c' & room' & buf' & H1 & H2 & H3 & H4).
      unfold CAIRO_STATUS_SUCCESS in *. destruct (emitted (next 0)) as [l st]. cbn [fst snd concat] in *.
      split; [exact HP|]. split; [exact HS|]. exists c', room', buf'.
      split; [exact H1|]. split; [|split; [lia | exact H4]].
      rewrite H2, app_assoc, C1. rewrite <- !app_assoc. reflexivity. }
    unfold buf_write_all at 1. unfold flush_buf. cbn [bw_file bw_buffer]. unfold disk_put at 1 2.
    destruct (8192 <? N.of_nat (length buf + length data))%N eqn:L1.
    + destruct (length buf <=? room)%nat eqn:L2.
      * apply Nat.leb_le in L2.
        destruct (8192 <=? N.of_nat (length data))%N eqn:L3.
        -- cbn [bw_file bw_buffer]. destruct (length data <=? room - length buf)%nat eqn:L4.
           ++ apply Nat.leb_le in L4. apply GO; [cbn; lia | rewrite app_nil_r, <- app_assoc; reflexivity |].
              rewrite !app_length. lia.
           ++ specialize (ERR (BufWriter _ ((c ++ buf) ++ firstn (room - length buf) data, 0%nat) []) full).
              destruct (run_writer _ _ _ _) as [cl status]. intros H. destruct (ERR H).
        -- cbn [bw_file bw_buffer app]. apply N.leb_gt in L3. apply GO; [lia | rewrite <- app_assoc; reflexivity |].
           rewrite app_length. lia.
      * specialize (ERR (BufWriter _ (c ++ firstn room buf, 0%nat) (skipn (N.to_nat (N.of_nat room)) buf)) full).
        destruct (run_writer _ _ _ _) as [cl status]. intros H. destruct (ERR H).
    + apply N.ltb_ge in L1. cbn [bw_file bw_buffer].
      destruct (8192 <=? N.of_nat (length data))%N eqn:L3.
      * apply N.leb_le in L3. destruct buf as [|x buf]; [|cbn [length] in L1; lia].
        destruct (length data <=? room)%nat eqn:L4.
        -- apply Nat.leb_le in L4. apply GO; [cbn; lia | rewrite app_nil_r; reflexivity |].
           rewrite app_length. lia.
        -- specialize (ERR (BufWriter _ (c ++ firstn room data, 0%nat) []) full).
           destruct (run_writer _ _ _ _) as [cl status]. intros H. destruct (ERR H).
      * apply GO; [rewrite app_length; lia | reflexivity | reflexivity].
Qed.

Lemma firstn_split {A} (c b i a : list A) room room0 :
  c ++ b = i ++ a -> (length c + room = length i + room0)%nat ->
  c ++ firstn room b = i ++ firstn room0 a.
Proof.
  intros H L.
  assert (X : forall (c b : list A) n, firstn (length c + n) (c ++ b) = c ++ firstn n b).
  { intros c0 b0 n. rewrite firstn_app. rewrite firstn_all2 by lia. f_equal. f_equal. lia. }
  rewrite <- (X c b), <- (X i a). rewrite H, L. reflexivity.
Qed.

Lemma file_result E full p contents room h :
  let '(r, h', file) := write_to_png_file E (bytes * nat) (disk_put full) p (inr (contents, room)) h in
  r = Done (inr tt) ->
  let all := concat (fst (emitted (env_png_writer E h p))) in
  snd (emitted (env_png_writer E h p)) = 0 /\
  option_map fst file = Some (contents ++ firstn room all) /\
  (N.of_nat (length all) <= N.of_nat room + 8192)%N.
Proof.
  unfold write_to_png_file, write_to_png.
  pose proof (file_run full (env_png_writer E h p) contents room []) as F.
  destruct (run_writer _ _ _ _) as [cl status]. 
  assert (L0 : (N.of_nat (@length N []) <= 8192)%N) by (cbn; lia). specialize (F L0).
  unfold after_callbacks. destruct (cl_panic _ cl) as [n|] eqn:CP.
  - cbn. discriminate.
  - destruct (cl_result _ cl) as [e|] eqn:CR.
    + cbn. discriminate.
    + destruct (F eq_refl) as (_ & HS & c' & room' & buf' & H1 & H2 & H3 & H4). cbn [app] in H2.
      rewrite H1. unfold done, check, from_cairo. destruct (status =? 0) eqn:ST; [|discriminate].
      intros _. apply Z.eqb_eq in ST. cbv zeta. split; [congruence|].
      unfold drop_buf_writer, flush_buf. cbn [bw_file bw_buffer]. unfold disk_put.
      set (all := concat (fst (emitted (env_png_writer E h p)))) in *.
      assert (FS : c' ++ firstn room' buf' = contents ++ firstn room all) by (apply firstn_split; assumption).
      assert (LL : length (c' ++ buf') = length (contents ++ all)) by (rewrite H2; reflexivity).
      rewrite !app_length in LL.
      destruct (length buf' <=? room')%nat eqn:L.
      * apply Nat.leb_le in L. cbn. split; [|lia]. f_equal. rewrite <- FS. rewrite firstn_all2 by lia. reflexivity.
      * apply Nat.leb_gt in L. cbn. split; [|lia]. f_equal. exact FS.
Qed.

(** ** In order *)

Lemma queue_run_next E d n : forall l h, length l = n ->
  requested (snd (queue_run E d (repeat QNext n) l h)) = rev l ++ requested h.
Proof.
  induction n as [|n IH]; intros l h L.
  - destruct l; [reflexivity | discriminate].
  - destruct l as [|x l]; [discriminate|]. injection L as L.
    cbn [repeat queue_run queue_step hd_error tl].
    pose proof (IH l (DocumentGetPage d x (env_get_page E h d x) :: h) L) as H.
    destruct (queue_run E d (repeat QNext n) l _) as [results h']. cbn [snd] in *.
    rewrite H. cbn [requested flat_map rev app]. rewrite <- app_assoc. reflexivity.
Qed.
