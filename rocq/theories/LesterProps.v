(** Properties C63 to C67: lester (PNG streams, C objects, pages, sizes, pixels) *)

From Coq Require Import QArith Qround Qpower Lqa.
From Verif Require Import Base LesterFloat LesterFloatProofs Lester LesterSpec LesterProofs LesterStreamProofs LesterSizeProofs.

Local Open Scope Z_scope.

(** ** C63: PNG streams *)

(** Reading: a panic of the stream goes on in the caller, an error of it is
    returned, and otherwise what cairo made of the contents; after an error
    the stream is not used again.  The first clause says that logging changes
    nothing. *)
Theorem C63_read : forall E S (read : S -> bytes -> S * io_outcome * bytes) (s : S) h,
  let '(r, h', (s', log)) := read_from_png E _ (logged_read read) (s, []) h in
  read_from_png E S read s h = (r, h', s') /\
  (forall before b e after, log = before ++ (b, IoErr e) :: after -> after = []) /\
  match last_panic log, first_error log with
  | Some n, _ => r = Unwinds (FromStream n)
  | None, Some e => r = Done (inl (IoError e))
  | None, None =>
      exists p, replay (env_png_reader E h) log = Some p /\
        let status := env_surface_status E (CreateFromPngStream p :: h) p in
        r = Done (if status =? 0 then inr p else inl (CairoError status))
  end.
Proof.
  intros E S read s h. pose proof (read_from_png_log E S read s h) as L.
  pose proof (read_from_png_result E S read s h) as R.
  destruct (read_from_png E _ (logged_read read) (s, []) h) as [[r h'] [s' log]]. split; [exact L | exact R].
Qed.

(** Writing: the same, and without failures the stream gets exactly what
    cairo wrote. *)
Theorem C63_write : forall E S (write : S -> bytes -> S * io_outcome) p (s : S) h,
  let '(r, h', (s', log)) := write_to_png E _ (logged_write write) p (s, []) h in
  write_to_png E S write p s h = (r, h', s') /\
  (forall before b e after, log = before ++ (b, IoErr e) :: after -> after = []) /\
  match last_panic log, first_error log with
  | Some n, _ => r = Unwinds (FromStream n)
  | None, Some e => r = Done (inl (IoError e))
  | None, None =>
      let (chunks, status) := emitted (env_png_writer E h p) in
      log = map (fun d => (d, IoOk)) chunks /\
      r = Done (if status =? 0 then inr tt else inl (CairoError status))
  end.
Proof.
  intros E S write p s h. pose proof (write_to_png_log E S write p s h) as L.
  pose proof (write_to_png_result E S write p s h) as R.
  destruct (write_to_png E _ (logged_write write) p (s, []) h) as [[r h'] [s' log]]. split; [exact L | exact R].
Qed.

(** If cairo gives up when the stream fails, then the stream is not used
    again after it failed in any way. *)
Theorem C63_gives_up :
  (forall E S (read : S -> bytes -> S * io_outcome * bytes) (s : S) h,
     gives_up_reading (env_png_reader E h) ->
     let '(_, (_, log)) := read_from_png E _ (logged_read read) (s, []) h in
     forall before x after, log = before ++ x :: after -> failed (snd x) -> after = []) /\
  (forall E S (write : S -> bytes -> S * io_outcome) p (s : S) h,
     gives_up_writing (env_png_writer E h p) ->
     let '(_, (_, log)) := write_to_png E _ (logged_write write) p (s, []) h in
     forall before x after, log = before ++ x :: after -> failed (snd x) -> after = []).
Proof.
  split.
  - intros E S read s h G. unfold read_from_png.
    destruct (reader_gives_up read (env_png_reader E h) G s [] None) as (ended & L & F).
    destruct (run_reader _ _ _ _) as [cl p]. cbn [fst] in L. destruct (dropped_unless_ok _ _ _) as [r h'].
    destruct cl as [[s' log] e n]. cbn [cl_stream snd app] in *. subst log. exact F.
  - intros E S write p s h G. unfold write_to_png.
    destruct (writer_gives_up write (env_png_writer E h p) G s [] None) as (ended & L & F).
    destruct (run_writer _ _ _ _) as [cl st]. cbn [fst] in L. destruct (after_callbacks _ _ _ _) as [r h'].
    destruct cl as [[s' log] e n]. cbn [cl_stream snd app] in *. subst log. exact F.
Qed.

(** A file in memory: what cairo makes of it, or an error if it is too
    short. *)
Theorem C63_slice : forall E eof file h,
  fst (fst (read_from_png E bytes (slice_read eof) file h)) =
  match fed (env_png_reader E h) file with
  | None => Done (inl (IoError eof))
  | Some p =>
      let status := env_surface_status E (CreateFromPngStream p :: h) p in
      Done (if status =? 0 then inr p else inl (CairoError status))
  end.
Proof. exact slice_result. Qed.

(** A file on a disk: if the function says that all is well, then cairo was
    done without an error, and the file has what cairo wrote as far as there
    was room; at most 8192 bytes were too many. *)
Theorem C63_file : forall E full p contents room h r h' file,
  write_to_png_file E (bytes * nat) (disk_put full) p (inr (contents, room)) h = (r, h', file) ->
  r = Done (inr tt) ->
  let all := concat (fst (emitted (env_png_writer E h p))) in
  snd (emitted (env_png_writer E h p)) = 0 /\
  option_map fst file = Some (contents ++ firstn room all) /\
  (N.of_nat (length all) <= N.of_nat room + 8192)%N.
Proof.
  intros E full p contents room h r h' file H. pose proof (file_result E full p contents room h) as R.
  rewrite H in R. exact R.
Qed.

(** *** An environment for examples *)

(** Addresses that were not used before. *)
Definition fresh_address (kind : Z) (h : history) : ptr := kind * 1000 + 4 * Z.of_nat (length h).
(** This cairo reads eight bytes and then four, and writes two times; it
    gives up when something fails. *)
Definition ex_reader : png_reader :=
  ReaderCalls (repeat 0%N 8) (fun status b =>
    if status =? 0 then ReaderCalls (repeat 0%N 4) (fun status b =>
      if status =? 0 then ReaderReturns 5000 else ReaderReturns 5004)
    else ReaderReturns 5004).
Definition ex_writer : png_writer :=
  WriterCalls (bs "PNG") (fun status =>
    if status =? 0 then WriterCalls (bs "END") WriterReturns else WriterReturns status).
(** Documents of three pages of 200 by 100 pixels. *)
Definition ex_environment (reader : png_reader) (writer : png_writer) (page : Z -> Z) (size : f64 * f64) : environment :=
  Environment
    (fun _ s => if s =? 5004 then 10 else 0)
    (fun h _ _ _ => fresh_address 1 h)
    (fun _ _ => 200) (fun _ _ => 100) (fun _ _ => 800) (fun _ _ => 64) (fun _ _ => 0)
    (fun _ => reader) (fun _ _ => writer)
    (fun h _ => fresh_address 2 h) (fun _ _ => 0)
    (fun h data => match data with [] => (0, fresh_address 3 h) | _ => (fresh_address 4 h, 0) end)
    (fun _ _ => 3) (fun h _ i => page (fresh_address 5 h + i))
    (fun h _ => fresh_address 6 h) (fun _ _ => size) (fun h _ => fresh_address 7 h)
    (fun _ _ => bs "text") (fun _ _ => bs "no document").
Definition ex_size : f64 * f64 := (FVal (points (inject_Z 200)), FVal (points (inject_Z 100))).
Definition ex : environment := ex_environment ex_reader ex_writer (fun p => p) ex_size.

Example C63_read_example :
  gives_up_reading (env_png_reader ex []) /\
  (* a stream of which the second use fails *)
  (let read (n : nat) (b : bytes) := (S n, match n with O => IoOk | _ => IoErr 7%N end, b) in
   let '(r, _, (_, log)) := read_from_png ex _ (logged_read read) (0%nat, []) [] in
   r = Done (inl (IoError 7%N)) /\ length log = 2%nat) /\
  (* or panics *)
  (let read (n : nat) (b : bytes) := (S n, match n with O => IoOk | _ => IoPanic 9%N end, b) in
   fst (fst (read_from_png ex _ read 0%nat [])) = Unwinds (FromStream 9%N)) /\
  (* or does not fail *)
  (let read (n : nat) (b : bytes) := (S n, IoOk, b) in
   fst (fst (read_from_png ex _ read 0%nat [])) = Done (inr 5000)).
Proof.
  split; [|repeat split; vm_compute; reflexivity].
  split.
  - intros b. split; [intros b'; exact I|]. intros status b' H. exists 5004.
    destruct (status =? 0) eqn:S; [apply Z.eqb_eq in S; contradiction | reflexivity].
  - intros status b H. exists 5004. destruct (status =? 0) eqn:S; [apply Z.eqb_eq in S; contradiction | reflexivity].
Qed.

Example C63_write_example :
  gives_up_writing (env_png_writer ex [] 1000) /\
  emitted (env_png_writer ex [] 1000) = ([bs "PNG"; bs "END"], 0) /\
  fst (fst (write_to_png_file ex (bytes * nat) (disk_put 28%N) 1000 (inr (bs "x", 10%nat)) [])) = Done (inr tt).
Proof.
  split; [|split; [reflexivity | vm_compute; reflexivity]].
  cbn. split; [split; [exact I|] |].
  - intros status _. eexists. reflexivity.
  - intros status H. exists status. destruct (status =? 0) eqn:S; [apply Z.eqb_eq in S; contradiction | reflexivity].
Qed.

Example C63_slice_example :
  fed (env_png_reader ex []) (bs "0123456789AB") = Some 5000 /\ fed (env_png_reader ex []) (bs "0123456789A") = None.
Proof. vm_compute. auto. Qed.

(** "If the function returns [Ok] then the file has all that cairo wrote":
    not when the disk is full, as the last bytes go out in the destructor of
    the buffer, of which errors are not seen. *)
Theorem C63_file_refuted : exists E full p room h h' file,
  write_to_png_file E (bytes * nat) (disk_put full) p (inr ([], room)) h = (Done (inr tt), h', Some file) /\
  concat (fst (emitted (env_png_writer E h p))) = bs "PNGEND" /\ fst file = [].
Proof.
  exists ex, 28%N, 1000, 0%nat, []. do 2 eexists. split; [reflexivity|]. split; reflexivity.
Qed.

(** "A stream is not used again after it panicked": it depends on cairo. *)
Definition stubborn_writer : png_writer := WriterCalls (bs "PNG") (fun _ => WriterCalls (bs "END") WriterReturns).
Theorem C63_panic_again_refuted : exists E S (write : S -> bytes -> S * io_outcome) p (s : S) h r h' s' before x after,
  write_to_png E _ (logged_write write) p (s, []) h = (r, h', (s', before ++ x :: after)) /\
  snd x = IoPanic 9%N /\ after <> [].
Proof.
  exists (ex_environment ex_reader stubborn_writer (fun p => p) ex_size), nat,
    (fun n _ => (S n, match n with O => IoPanic 9 | _ => IoOk end)), 1000, 0%nat, [].
  do 3 eexists. exists [], (bs "PNG", IoPanic 9%N), [(bs "END", IoOk)].
  split; [reflexivity|]. split; [reflexivity | discriminate].
Qed.

(** ** C64: C objects *)

(** Whatever safe code does, every C object is used and released only while
    it is owned, and what is owned is just what the values that are left
    stand for. *)
Theorem C64_ownership : forall E, null_contract E -> forall overflow_checks is_utf8 os,
  let c := execute E overflow_checks is_utf8 os in
  disciplined (past c) /\ forall r, owned r (past c) = occurrences r (references (values c)).
Proof.
  intros E C oc u os. destruct (execute_invariant E C oc u os) as [D O _ _ _]. split; assumption.
Qed.

(** Nothing is left when all values are gone. *)
Theorem C64_no_leak : forall E, null_contract E -> forall overflow_checks is_utf8 os,
  values (execute E overflow_checks is_utf8 os) = [] ->
  forall r, owned r (past (execute E overflow_checks is_utf8 os)) = 0.
Proof.
  intros E C oc u os V r. destruct (C64_ownership E C oc u os) as [_ O]. rewrite O, V. reflexivity.
Qed.

(** Never is a null pointer released or used: null pointers are never owned
    (and what is required is owned). *)
Theorem C64_null : forall h k, owned (k, 0) h <= 0.
Proof.
  intros h k. induction h as [|c h IH]; cbn [owned]; [lia|].
  assert (N : forall k' p, occurrences (k, 0) (nonnull k' p) = 0).
  { intros k' p. unfold nonnull. destruct (p =? 0) eqn:P; [reflexivity|]. cbn [occurrences].
    unfold reference_eqb. cbn [fst snd]. rewrite Z.eqb_sym, P, andb_false_r. reflexivity. }
  assert (A : occurrences (k, 0) (acquired c) = 0).
  { assert (AP : forall a b, occurrences (k, 0) (a ++ b) = occurrences (k, 0) a + occurrences (k, 0) b).
    { intros a b. induction a as [|x a IHa]; cbn [app occurrences]; [reflexivity|]. rewrite IHa. lia. }
    destruct c; cbn [acquired]; try reflexivity; rewrite ?AP, ?N; reflexivity. }
  assert (R : 0 <= occurrences (k, 0) (released c)).
  { generalize (released c). intros l. induction l as [|x l IHl]; cbn [occurrences]; [lia|].
    destruct (reference_eqb (k, 0) x); lia. }
  lia.
Qed.

Example ex_contract : null_contract ex.
Proof.
  assert (F : forall k h, 0 < k -> fresh_address k h <> 0) by (intros k h H; unfold fresh_address; lia).
  constructor.
  - intros h f x y. apply (F 1). lia.
  - intros h. cbn [ex ex_environment env_png_reader ex_reader reader_returns_nonnull].
    intros status b. destruct (status =? 0); cbn [reader_returns_nonnull]; [|discriminate].
    intros status' b'. destruct (status' =? 0); cbn [reader_returns_nonnull]; discriminate.
  - intros h s. apply (F 2). lia.
  - intros h d. cbn [ex ex_environment env_document_new]. destruct d; cbn [fst snd]; split; intros H; auto.
    + apply (F 3). lia.
    + exfalso. revert H. apply (F 4). lia.
    + exfalso. apply H. reflexivity.
Qed.
Definition ex_session : list operation :=
  [OFromBytes (bs "%PDF"); OPages 0; ONext 1; ORender default_options 2; OPixels 3;
   OWritePng nat (fun n _ => (n, IoPanic 3%N)) 0%nat 3; OText 2; OToStr 6; ONextBack 1; OFromBytes []; ODescription 9].
Example C64_example :
  map snd (values (execute ex true (fun _ => true) ex_session)) =
    [VGlibError 3088; VPage 5086; VIter 0 (PagesIter 4000 1 2); VString 7076; VSurface 1016; VPage 5008; VDocument 4000] /\
  length (past (execute ex true (fun _ => true) ex_session)) = 24%nat /\
  values (execute ex true (fun _ => true) (ex_session ++ map ODrop [1; 0; 2; 3; 6; 8; 9]%nat)) = [].
Proof. vm_compute. auto. Qed.

(** ** C65: pages *)

(** The iterator over the pages of a document is a queue of the page numbers
    from which numbers are taken at either end, or [n] further on. *)
Theorem C65_queue : forall E d h os, is_int (env_n_pages E h d) ->
  exists it, pages E d h = (Done it, DocumentGetNPages d (env_n_pages E h d) :: h) /\
  iterate E os it (DocumentGetNPages d (env_n_pages E h d) :: h) =
  queue_run E d os (numbers (env_n_pages E h d)) (DocumentGetNPages d (env_n_pages E h d) :: h).
Proof.
  intros E d h os [_ U]. exists (PagesIter d 0 (env_n_pages E h d)). split; [reflexivity|].
  rewrite iterate_queue by exact U. rewrite between_numbers. reflexivity.
Qed.

(** Each page is asked for at most once, and only pages that there are. *)
Theorem C65_once : forall E d h os, is_int (env_n_pages E h d) ->
  exists it h' asked, pages E d h = (Done it, h') /\
  requested (snd (iterate E os it h')) = asked ++ requested h /\ NoDup asked /\
  forall i, In i asked -> 0 <= i < env_n_pages E h d.
Proof.
  intros E d h os I. destruct (C65_queue E d h os I) as (it & P & Q).
  destruct (queue_run_once E d os (numbers (env_n_pages E h d)) (DocumentGetNPages d (env_n_pages E h d) :: h)
    (numbers_nodup _)) as (asked & A & B & C).
  exists it, (DocumentGetNPages d (env_n_pages E h d) :: h), asked.
  split; [exact P|]. rewrite Q. split; [exact A|]. split; [exact B|].
  intros i X. apply C in X. unfold numbers in X. apply in_map_iff in X as (n & <- & N). apply in_seq in N. lia.
Qed.

(** A loop goes through all pages in order, even if some panics on the way
    are caught. *)
Theorem C65_all : forall E d h, is_int (env_n_pages E h d) ->
  exists it h', pages E d h = (Done it, h') /\
  requested (snd (iterate E (repeat QNext (Z.to_nat (env_n_pages E h d))) it h')) =
  rev (numbers (env_n_pages E h d)) ++ requested h.
Proof.
  intros E d h I. destruct (C65_queue E d h (repeat QNext (Z.to_nat (env_n_pages E h d))) I) as (it & P & Q).
  exists it, (DocumentGetNPages d (env_n_pages E h d) :: h). split; [exact P|]. rewrite Q.
  change (requested h) with (requested (DocumentGetNPages d (env_n_pages E h d) :: h)).
  apply queue_run_next. unfold numbers. rewrite map_length, seq_length. reflexivity.
Qed.

Example C65_example : is_int (env_n_pages ex [] 4000) /\
  fst (iterate ex [QLen; QNextBack; QNth 1%N; QNext; QLen] (PagesIter 4000 0 3) []) =
  [Done (Some 3); Done (Some 5002); Done (Some 5005); Done None; Done (Some 0)].
Proof. vm_compute. split; [split; discriminate | reflexivity]. Qed.

(** "Iterating over the pages of a document that could be opened does not
    panic": it does when poppler cannot make a page. *)
Theorem C65_null_page_refuted : exists E d h it h', null_contract E /\
  from_bytes E (bs "%PDF") [] = (Done (inr d), h) /\ pages E d h = (Done it, h') /\
  fst (iterate E [QNext; QNext] it h') = [Done (Some 5008); Unwinds NullPage].
Proof.
  exists (ex_environment ex_reader ex_writer (fun p => if p =? 5013 then 0 else p) ex_size).
  do 4 eexists. split; [|split; [reflexivity|]; split; [reflexivity | vm_compute; reflexivity]].
  destruct ex_contract as [A B C D]. constructor; [exact A | exact B | exact C | exact D].
Qed.

(** ** C66: sizes *)

(** The size of a page of a whole number of pixels is that number. *)
Theorem C66_css_size : forall E p h mw mh, 0 < mw < 2 ^ 53 -> 0 < mh < 2 ^ 53 ->
  env_page_size E h p = (FVal (points (inject_Z mw)), FVal (points (inject_Z mh))) ->
  fst (size_in_css_px E p h) = Done (FVal (inject_Z mw), FVal (inject_Z mh)).
Proof.
  intros E p h mw mh W H S. unfold size_in_css_px, size_in_ps_points, poppler_page_get_size, andthen, calls, done.
  rewrite S. cbn [fst snd]. rewrite !px_of_points by assumption. reflexivity.
Qed.

(** At a whole scale it is rendered to just the right number of pixels; the
    calls are those of a rendering. *)
Theorem C66_exact : forall E p o h mw mh kx ky,
  0 < mw < 2 ^ 53 -> 0 < mh < 2 ^ 53 -> 0 <= kx -> 0 <= ky ->
  mw * kx <= 2147483647 -> mh * ky <= 2147483647 ->
  opt_dppx_x o = FVal (inject_Z kx) -> opt_dppx_y o = FVal (inject_Z ky) ->
  env_page_size E h p = (FVal (points (inject_Z mw)), FVal (points (inject_Z mh))) ->
  (exists s c sx sy, render_with_options E p o h =
     (Done (inr s), drawn p o (FVal (points (inject_Z mw))) (FVal (points (inject_Z mh)))
                       (mw * kx) (mh * ky) s c sx sy ++ h)) \/
  (exists status, status <> 0 /\ fst (render_with_options E p o h) = Done (inl status)).
Proof.
  intros E p o h mw mh kx ky W H KX KY BX BY OX OY PS.
  assert (CW : pixel_count (FVal (points (inject_Z mw))) (opt_dppx_x o) = Some (mw * kx)).
  { rewrite OX. apply image_pixels; lia. }
  assert (CH : pixel_count (FVal (points (inject_Z mh))) (opt_dppx_y o) = Some (mh * ky)).
  { rewrite OY. apply image_pixels; lia. }
  destruct (render_calls E p o h _ _ _ _ PS CW CH) as [(s & c & R)|R]; [left | right; exact R].
  do 4 eexists. exact R.
Qed.

(** In general the number of pixels is right but for a relative error of
    2^-51, the scale but for one of 2^-52; and there is no panic if the
    numbers are within the range of [i32]. *)
Theorem C66_bounds : forall E p o h pw ph dx dy,
  moderate pw -> moderate ph -> moderate dx -> moderate dy ->
  opt_dppx_x o = FVal dx -> opt_dppx_y o = FVal dy -> env_page_size E h p = (FVal pw, FVal ph) ->
  ((4 # 3) * pw * dx * (1 + pow2 (-51)) <= 2147483647)%Q -> ((4 # 3) * ph * dy * (1 + pow2 (-51)) <= 2147483647)%Q ->
  (exists w ht s c sx sy, pixels_for pw dx w /\ pixels_for ph dy ht /\
     ((4 # 3) * dx * (1 - pow2 (-52)) <= sx /\ sx <= (4 # 3) * dx * (1 + pow2 (-52)))%Q /\
     ((4 # 3) * dy * (1 - pow2 (-52)) <= sy /\ sy <= (4 # 3) * dy * (1 + pow2 (-52)))%Q /\
     render_with_options E p o h =
     (Done (inr s), drawn p o (FVal pw) (FVal ph) w ht s c (FVal sx) (FVal sy) ++ h)) \/
  (exists status, status <> 0 /\ fst (render_with_options E p o h) = Done (inl status)).
Proof.
  intros E p o h pw ph dx dy MW MH MX MY OX OY PS BX BY.
  destruct (count_moderate pw dx MW MX) as (w & PW & CW). destruct (count_moderate ph dy MH MY) as (ht & PH & CH).
  assert (R : forall n, 0 <= n -> (inject_Z n < 2147483647 + 1)%Q ->
    (-2147483648 <=? n) && (n <=? 2147483647) = true).
  { intros n N L. change (2147483647 + 1)%Q with (inject_Z 2147483648) in L. rewrite <- Zlt_Qlt in L.
    apply andb_true_iff. rewrite !Z.leb_le. lia. }
  rewrite (R w) in CW; [| exact (pixels_for_nonneg _ _ _ MW MX PW) | destruct PW; lra].
  rewrite (R ht) in CH; [| exact (pixels_for_nonneg _ _ _ MH MY PH) | destruct PH; lra].
  destruct (scale_close dx MX) as (sx & SX & BSX). destruct (scale_close dy MY) as (sy & SY & BSY).
  rewrite <- OX in CW. rewrite <- OY in CH.
  destruct (render_calls E p o h _ _ _ _ PS CW CH) as [(s & c & Q)|Q]; [left | right; exact Q].
  exists w, ht, s, c, sx, sy. rewrite OX, OY, SX, SY in Q. auto.
Qed.

(** And a panic if a number is not. *)
Theorem C66_too_large : forall E p o h pw ph dx dy,
  moderate pw -> moderate ph -> moderate dx -> moderate dy ->
  opt_dppx_x o = FVal dx -> opt_dppx_y o = FVal dy -> env_page_size E h p = (FVal pw, FVal ph) ->
  (2147483647 < (4 # 3) * pw * dx * (1 - pow2 (-51)) \/ 2147483647 < (4 # 3) * ph * dy * (1 - pow2 (-51)))%Q ->
  fst (render_with_options E p o h) = Unwinds OutOfRange.
Proof.
  intros E p o h pw ph dx dy MW MH MX MY OX OY PS L.
  destruct (count_moderate pw dx MW MX) as (w & PW & CW). destruct (count_moderate ph dy MH MY) as (ht & PH & CH).
  pose proof (render_spec E p o h) as R. rewrite PS in R. cbv zeta in R. rewrite OX, OY, CW, CH in R.
  assert (T : forall s d n, pixels_for s d n -> (2147483647 < (4 # 3) * s * d * (1 - pow2 (-51)))%Q ->
    (-2147483648 <=? n) && (n <=? 2147483647) = false).
  { intros s d n [N _] G. assert (G' : (inject_Z 2147483647 < inject_Z n)%Q).
    { apply Qlt_le_trans with ((4 # 3) * s * d * (1 - pow2 (-51)))%Q; [exact G | exact N]. }
    rewrite <- Zlt_Qlt in G'. apply andb_false_iff. right. apply Z.leb_gt. exact G'. }
  destruct L as [L|L].
  - rewrite (T _ _ _ PW L) in R. rewrite R. reflexivity.
  - rewrite (T _ _ _ PH L) in R. destruct ((-2147483648 <=? w) && (w <=? 2147483647)); rewrite R; reflexivity.
Qed.

(** The conversion of numbers and infinities to [i32]. *)
Theorem C66_conversion :
  (forall q z, f64_try_into_i32 (FVal q) = Some z -> is_int z /\ truncated q z) /\
  (forall q, f64_try_into_i32 (FVal q) = None <-> (q < inject_Z (-2147483648) \/ inject_Z 2147483647 < q)%Q) /\
  (forall negative, f64_try_into_i32 (FInf negative) = None).
Proof.
  split; [|split].
  - intros q z H. destruct (try_into_i32_number q) as [[_ (z' & H' & T)]|[_ H']]; rewrite H in H'; [|discriminate].
    injection H' as <-. split; [|exact T].
    unfold f64_try_into_i32 in H. destruct (_ || _); [discriminate|]. injection H as <-. unfold as_i32, is_int. lia.
  - intros q. destruct (try_into_i32_number q) as [[B (z & H & _)]|[B H]]; rewrite H; split; intros X; try discriminate; auto.
    exfalso. lra.
  - intros []; reflexivity.
Qed.

(** An image made by a client has the size and the format asked for, and one
    too large for a C int is not made: cairo is not called. *)
Theorem C66_new : forall E w ht h,
  let made (format : Z) (r : outcome (Z + ptr) * history) :=
    exists s st, r = (Done (if st =? 0 then inr s else inl st),
      (if st =? 0 then [] else [SurfaceDestroy s]) ++
      [SurfaceStatus s st; ImageSurfaceCreate format (Z.of_N w) (Z.of_N ht) s] ++ h) in
  (is_int (Z.of_N w) /\ is_int (Z.of_N ht) -> made 0 (new_argb32 E w ht h) /\ made 1 (new_rgb24 E w ht h)) /\
  (~ (is_int (Z.of_N w) /\ is_int (Z.of_N ht)) ->
   new_argb32 E w ht h = (Unwinds OutOfRange, h) /\ new_rgb24 E w ht h = (Unwinds OutOfRange, h)).
Proof.
  intros E w ht h. cbv zeta. unfold is_int.
  assert (U : forall n, usize_try_into_i32 n =
    if (Z.of_N n <=? 2147483647) then Some (Z.of_N n) else None).
  { intros n. unfold usize_try_into_i32. destruct (N.ltb_spec 2147483647 n), (Z.leb_spec (Z.of_N n) 2147483647); auto; lia. }
  unfold new_argb32, new_rgb24, new_surface. rewrite !U. split.
  - intros [[_ W] [_ H]]. apply Z.leb_le in W, H. rewrite W, H. cbn [unwrap]. unfold andthen, done. split.
    + destruct (new_c_int E CAIRO_FORMAT_ARGB32 (Z.of_N w) (Z.of_N ht) h) as [r h'] eqn:N.
      destruct (new_c_int_spec _ _ _ _ _ _ _ N) as (s & st & -> & ->). exists s, st. reflexivity.
    + destruct (new_c_int E CAIRO_FORMAT_RGB24 (Z.of_N w) (Z.of_N ht) h) as [r h'] eqn:N.
      destruct (new_c_int_spec _ _ _ _ _ _ _ N) as (s & st & -> & ->). exists s, st. reflexivity.
  - intros L. destruct (Z.leb_spec (Z.of_N w) 2147483647) as [W|W].
    + destruct (Z.leb_spec (Z.of_N ht) 2147483647) as [H|H]; [exfalso; apply L; lia|].
      split; reflexivity.
    + split; reflexivity.
Qed.

Example C66_new_meets :
  is_int (Z.of_N 300) /\ is_int (Z.of_N 200) /\
  (exists s, In (ImageSurfaceCreate 0 300 200 s) (snd (new_argb32 ex 300 200 []))) /\
  new_rgb24 ex 300 2147483648 [] = (Unwinds OutOfRange, []).
Proof.
  split; [split; discriminate|]. split; [split; discriminate|]. split; [eexists; vm_compute; auto 10 | vm_compute; reflexivity].
Qed.

(** [render_with_dppx] has one scale for both directions; [render] is at scale 1. *)
Theorem C66_one_scale : forall E p h mw mh k,
  0 < mw < 2 ^ 53 -> 0 < mh < 2 ^ 53 -> 0 <= k -> mw * k <= 2147483647 -> mh * k <= 2147483647 ->
  env_page_size E h p = (FVal (points (inject_Z mw)), FVal (points (inject_Z mh))) ->
  let both := RenderOptions (FVal (inject_Z k)) (FVal (inject_Z k)) Transparent false in
  ((exists s c sx sy, render_with_dppx E p (FVal (inject_Z k)) h =
     (Done (inr s), drawn p both (FVal (points (inject_Z mw))) (FVal (points (inject_Z mh))) (mw * k) (mh * k) s c sx sy ++ h)) \/
   (exists status, status <> 0 /\ fst (render_with_dppx E p (FVal (inject_Z k)) h) = Done (inl status))) /\
  (k = 1 -> render E p h = render_with_dppx E p (FVal (inject_Z k)) h).
Proof.
  intros E p h mw mh k W H K BW BH PS both. split.
  - apply (C66_exact E p both h mw mh k k); try assumption; reflexivity.
  - intros ->. reflexivity.
Qed.

(** "What is not a number is refused": it becomes zero, and an image without
    pixels is the result. *)
Theorem C66_nan_refuted : exists E p o h s c sx sy pw ph,
  opt_dppx_x o = FNan /\
  render_with_options E p o h = (Done (inr s), drawn p o pw ph 0 100 s c sx sy ++ h).
Proof.
  exists ex, 5000, (RenderOptions FNan (FVal 1) White false), []. do 6 eexists. split; [reflexivity|].
  vm_compute. reflexivity.
Qed.

Example C66_example :
  moderate (points (inject_Z 200)) /\ moderate (25 # 8) /\
  fst (render_with_options ex 5000 (RenderOptions (FVal (25 # 8)) (FVal 2) White true) []) = Done (inr 1004) /\
  In (ImageSurfaceCreate 1 625 200 1004) (snd (render_with_options ex 5000 (RenderOptions (FVal (25 # 8)) (FVal 2) White true) [])).
Proof.
  split; [split; discriminate|]. split; [split; discriminate|].
  split; [vm_compute; reflexivity|]. vm_compute. auto 20.
Qed.
Example C66_too_large_example :
  fst (render_with_dppx ex 5000 (FVal (inject_Z 10737419)) []) = Unwinds OutOfRange /\
  fst (render_with_dppx ex 5000 (FVal (inject_Z 10737418)) []) = Done (inr 1004).
Proof. vm_compute. auto. Qed.

(** ** C67: pixels *)

(** For an image such as cairo makes them (at most 32767 pixels each way,
    four bytes for each, the rows without gaps), all pixels are accessible, in
    every build. *)
Theorem C67_access : forall E overflow_checks s h width height data format,
  is_image E h s width height (4 * width) data format ->
  0 <= width <= 32767 -> 0 <= height <= 32767 -> format = 0 \/ format = 1 -> data mod 4 = 0 ->
  exists h', pixels E overflow_checks s h =
  (Done (PixelsView (Z.to_N width) (Z.to_N height) data (Z.to_N (width * height))), h').
Proof.
  intros E oc s h width height data format I W H F A. eexists. exact (pixels_ok E oc s h _ _ _ _ I W H F A).
Qed.

(** Whatever cairo answers, what is accessible is within the image: the rows
    of [stride] bytes each. *)
Theorem C67_memory : forall E overflow_checks s h width height stride data format v h',
  is_image E h s width height stride data format ->
  is_int width -> is_int height -> is_int stride -> 4 * width <= stride ->
  pixels E overflow_checks s h = (Done v, h') ->
  (format = 0 \/ format = 1) /\ view_data v = data /\ data mod 4 = 0 /\
  Z.of_N (view_width v) = width /\ Z.of_N (view_height v) = height /\
  4 * Z.of_N (view_length v) <= stride * height /\
  (width * height <= 2147483647 -> 4 * Z.of_N (view_length v) = stride * height).
Proof.
  intros E oc s h width height stride data format v h' I IW IH IS L P.
  destruct (pixels_memory E oc s h _ _ _ _ _ _ _ I IW IH IS L P) as (A & B & C & D & F & G & H & J). auto 10.
Qed.

(** Images are equal if they have the same size and the same pixels. *)
Theorem C67_equal : forall a b, pixels_eq a b = true <->
  image_width a = image_width b /\ image_height a = image_height b /\ image_buffer a = image_buffer b.
Proof.
  intros a b. rewrite pixels_eq_eq. destruct a, b; cbn. split; [intros [= -> -> ->]; auto | intros (-> & -> & ->); reflexivity].
Qed.

(** The text of pixels can be read back: eight digits each. *)
Theorem C67_hex : forall l, Forall (fun p => p < 4294967296)%N l ->
  hex_numbers (length l) (pixels_to_hex l) = l.
Proof. intros l F. apply hex_numbers_value; [exact F | apply Nat.le_refl]. Qed.

Example C67_access_example : is_image ex [] 1000 200 100 (4 * 200) 64 0 /\
  fst (pixels ex true 1000 []) = Done (PixelsView 200%N 100%N 64 20000%N).
Proof. split; [constructor; reflexivity | vm_compute; reflexivity]. Qed.
Example C67_hex_example : pixels_to_hex [4278190335; 10]%N = bs "FF0000FF, 0000000A".
Proof. vm_compute. reflexivity. Qed.

(** "The pixels of an image are never at a null address" (which no Rust slice
    may have): cairo has no memory for an image without pixels, and then they
    are. *)
Definition empty_image : environment :=
  Environment (fun _ _ => 0) (fun _ _ _ _ => 1000) (fun _ _ => 0) (fun _ _ => 0) (fun _ _ => 0) (fun _ _ => 0)
    (fun _ _ => 0) (fun _ => ex_reader) (fun _ _ => ex_writer) (fun _ _ => 2000) (fun _ _ => 0)
    (fun _ _ => (4000, 0)) (fun _ _ => 0) (fun _ _ _ => 0) (fun _ _ => 0) (fun _ _ => ex_size) (fun _ _ => 0)
    (fun _ _ => []) (fun _ _ => []).
Theorem C67_null_refuted : exists E overflow_checks s h h',
  is_image E h s 0 0 0 0 0 /\ new_argb32 E 0%N 0%N [] = (Done (inr s), h) /\
  pixels E overflow_checks s h = (Done (PixelsView 0%N 0%N 0 0%N), h').
Proof.
  exists empty_image, true, 1000. do 2 eexists. split; [|split; reflexivity]. constructor; reflexivity.
Qed.

(** "Images that look the same are equal": the upper byte of each pixel of an
    image without transparency has no meaning, but is compared. *)
Definition looks (a : image) : N * N * list N :=
  (image_width a, image_height a, map (fun p => N.land p 16777215%N) (image_buffer a)).
Theorem C67_rgb24_refuted : exists a b, looks a = looks b /\ pixels_eq a b = false.
Proof. exists (Image 1%N 1%N [4278190335]%N), (Image 1%N 1%N [255]%N). split; reflexivity. Qed.

Print Assumptions C63_read.
Print Assumptions C63_write.
Print Assumptions C63_gives_up.
Print Assumptions C63_slice.
Print Assumptions C63_file.
Print Assumptions C63_file_refuted.
Print Assumptions C63_panic_again_refuted.
Print Assumptions C64_ownership.
Print Assumptions C64_no_leak.
Print Assumptions C64_null.
Print Assumptions C65_queue.
Print Assumptions C65_once.
Print Assumptions C65_all.
Print Assumptions C65_null_page_refuted.
Print Assumptions C66_css_size.
Print Assumptions C66_exact.
Print Assumptions C66_one_scale.
Print Assumptions C66_bounds.
Print Assumptions C66_too_large.
Print Assumptions C66_conversion.
Print Assumptions C66_new.
Print Assumptions C66_nan_refuted.
Print Assumptions C67_access.
Print Assumptions C67_memory.
Print Assumptions C67_equal.
Print Assumptions C67_hex.
Print Assumptions C67_null_refuted.
Print Assumptions C67_rgb24_refuted.
