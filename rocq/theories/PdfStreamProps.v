(** * C94: writing a PDF document to a stream or to a file that can fail *)
From Coq Require Import Lia.
From Verif Require Import Base.
From Verif Require Lester LesterSpec.
From Verif Require Import PdfObject PdfSyntax PdfConvert PdfStream PdfStreamSpec PdfStreamProofs PdfConvertProps.
Import Lester (io_error, io_outcome, IoOk, IoErr, IoPanic).

(** For every document there is one list of calls, which together are given the
    document's bytes, such that on every stream writing the document is making
    these calls one after the other up to the first that does not succeed. *)
Theorem C94_calls : forall dtoa_calls, (forall x, concat (dtoa_calls x) = dtoa x) -> forall d,
  exists calls, concat calls = doc_write d /\
    forall W (write_all : W -> bytes -> W * io_outcome) w,
      write_to_pdf W write_all dtoa_calls d w = feed write_all calls w.
Proof.
  intros dc H d. exists (file_calls dc (d_pdf d) (doc_basic_objects d)). split.
  - apply file_bytes, H.
  - intros W wa w. apply file_done.
Qed.
Print Assumptions C94_calls.

(** Success means that the stream took the whole document; after an error or a
    panic of the stream, it took a beginning of it and nothing else. *)
Theorem C94_stream : forall dtoa_calls, (forall x, concat (dtoa_calls x) = dtoa x) ->
  forall W (taken : W -> bytes) write_all, honest taken write_all -> forall d w w' r,
  write_to_pdf W write_all dtoa_calls d w = (w', r) ->
  match r with
  | IoOk => taken w' = taken w ++ doc_write d
  | _ => exists p q, doc_write d = p ++ q /\ taken w' = taken w ++ p
  end.
Proof.
  intros dc H W taken wa Hh d w w' r E. destruct (C94_calls dc H d) as (cs & <- & Hc). rewrite Hc in E.
  exact (feed_honest taken wa Hh cs w w' r E).
Qed.
Print Assumptions C94_stream.

(** The same for a stream that has only [write], whatever its calls answer. *)
Theorem C94_answers : forall dtoa_calls, (forall x, concat (dtoa_calls x) = dtoa x) ->
  forall write_zero answers d taken rest r,
  write_to_pdf (bytes * list answer) (answering_write_all write_zero) dtoa_calls d ([], answers) = ((taken, rest), r) ->
  match r with
  | IoOk => taken = doc_write d
  | _ => exists q, doc_write d = taken ++ q
  end.
Proof.
  intros dc H zero answers d taken rest r E.
  pose proof (C94_stream dc H _ fst _ (answering_honest zero) d _ _ _ E) as K. cbn [fst app] in K.
  destruct r as [| e | n]; [exact K | |]; destruct K as (p & q & K1 & ->); exists q; exact K1.
Qed.
Print Assumptions C94_answers.

(** Such a stream's errors and panics are passed on, and there are no others: a
    stream that takes something at each call and is sometimes interrupted gets
    the whole document. *)
Theorem C94_causes : forall dtoa_calls, (forall x, concat (dtoa_calls x) = dtoa x) ->
  forall write_zero answers d s r,
  write_to_pdf (bytes * list answer) (answering_write_all write_zero) dtoa_calls d ([], answers) = (s, r) ->
  match r with
  | IoOk => True
  | IoErr e => In (Failed e) answers \/ (In (Wrote 0) answers /\ e = write_zero)
  | IoPanic n => In (Panics n) answers \/ (exists k, In (Wrote (S k)) answers /\ n = 1%N)
  end.
Proof.
  intros dc H zero answers d s r E. destruct (C94_calls dc H d) as (cs & _ & Hc). rewrite Hc in E.
  pose proof (feed_caused zero answers cs []) as K. change r with (snd (s, r)). rewrite <- E. exact K.
Qed.
Print Assumptions C94_causes.

(** Writing to a vector does not panic. *)
Theorem C94_bytes : forall dtoa_calls, (forall x, concat (dtoa_calls x) = dtoa x) -> forall d,
  write_to_pdf_bytes dtoa_calls d = Some (doc_write d).
Proof.
  intros dc H d. destruct (C94_calls dc H d) as (cs & <- & Hc). unfold write_to_pdf_bytes. rewrite Hc, feed_vec. reflexivity.
Qed.
Print Assumptions C94_bytes.

(** Writing to a file: if it could not be opened, that is the result.  If it
    was, the file ends up with a beginning of the document; with success, no
    more than the last 8192 bytes are missing. *)
Theorem C94_file : forall dtoa_calls, (forall x, concat (dtoa_calls x) = dtoa x) ->
  forall F (contents : F -> bytes) put, honest_file contents put -> forall d opened r file,
  write_to_pdf_file F put dtoa_calls d opened = (r, file) ->
  match opened with
  | inl e => r = IoErr e /\ file = None
  | inr f => (forall n, r <> IoPanic n) /\
      exists f' p q, file = Some f' /\ doc_write d = p ++ q /\ contents f' = contents f ++ p /\
        (r = IoOk -> (N.of_nat (length q) <= 8192)%N)
  end.
Proof.
  intros dc H F contents fput Hput d opened r file E. unfold write_to_pdf_file in E. destruct opened as [e | f].
  - split; congruence.
  - destruct (C94_calls dc H d) as (cs & Hd & Hc). rewrite Hc in E.
    set (b0 := Lester.BufWriter F f []) in *.
    assert (H0 : (N.of_nat (length (Lester.bw_buffer F b0)) <= 8192)%N /\ grown F contents f b0).
    { split; [cbn [b0 Lester.bw_buffer length]; lia|]. exists []. symmetry. apply app_nil_r. }
    pose proof (feed_invariant (fun b => (N.of_nat (length (Lester.bw_buffer F b)) <= 8192)%N /\ grown F contents f b)
      (fun r => forall n, r <> IoPanic n) (Lester.buf_write_all F fput)
      (fun w b H => conj (conj (proj1 (buf_small F contents fput Hput w b (proj1 H))) (buf_grows F contents fput Hput f w b (proj2 H)))
                      (proj2 (buf_small F contents fput Hput w b (proj1 H)))) ltac:(discriminate) cs _ H0) as [[Hi Hg] Hr].
    destruct (feed _ _ _) as [b r'] eqn:Ef. cbn [fst snd] in *. assert (r' = r) by congruence. subst r'.
    split; [exact Hr|].
    pose proof (feed_honest (buffered F contents) _ (buf_honest F contents fput Hput) _ _ _ _ Ef) as K.
    assert (B0 : buffered F contents b0 = contents f) by apply app_nil_r.
    rewrite B0 in K. clear B0.
    destruct (flush_grows F contents fput Hput f b Hg) as [t Ht].
    destruct (flush_taken F contents fput Hput b) as (T & _ & L).
    set (b' := fst (Lester.flush_buf F fput b)) in *.
    assert (B : buffered F contents b = contents f ++ t ++ Lester.bw_buffer F b').
    { rewrite <- T. unfold buffered. rewrite Ht, app_assoc. reflexivity. }
    rewrite B in K. exists (Lester.drop_buf_writer F fput b), t.
    destruct r as [| e | n]; [| | destruct (Hr n eq_refl)].
    + apply app_inv_head in K. exists (Lester.bw_buffer F b').
      split; [congruence|]. split; [congruence|]. split; [exact Ht|]. intros _. lia.
    + destruct K as (p & q & Kc & K). apply app_inv_head in K.
      exists (Lester.bw_buffer F b' ++ q). split; [congruence|].
      split; [rewrite <- Hd, Kc, <- K, <- app_assoc; reflexivity|]. split; [exact Ht|]. discriminate.
Qed.
Print Assumptions C94_file.

(** When the file never fails, it has the whole document. *)
Theorem C94_file_complete : forall dtoa_calls, (forall x, concat (dtoa_calls x) = dtoa x) ->
  forall F (contents : F -> bytes) put, honest_file contents put -> (forall f b, snd (put f b) = None) -> forall d f,
  exists f', write_to_pdf_file F put dtoa_calls d (inr f) = (IoOk, Some f') /\ contents f' = contents f ++ doc_write d.
Proof.
  intros dc H F contents fput Hput Hok d f. unfold write_to_pdf_file.
  destruct (C94_calls dc H d) as (cs & Hd & Hc). rewrite Hc.
  pose proof (feed_works F fput Hok cs (Lester.BufWriter F f [])) as R.
  destruct (feed _ _ _) as [b r] eqn:Ef. cbn [snd] in R. subst r.
  exists (Lester.drop_buf_writer F fput b). split; [reflexivity|].
  pose proof (feed_honest (buffered F contents) _ (buf_honest F contents fput Hput) _ _ _ _ Ef) as K.
  assert (B0 : buffered F contents (Lester.BufWriter F f []) = contents f) by apply app_nil_r.
  rewrite B0, Hd in K. rewrite <- K.
  destruct (dropped F contents fput Hput b) as (p & q & K1 & K2 & _ & K3).
  rewrite K1, K2, (K3 ltac:(unfold Lester.flush_buf; pose proof (Hok (Lester.bw_file F b) (Lester.bw_buffer F b)) as Z;
    destruct (fput _ _) as [[f1 n1] e1]; cbn [snd] in Z; subst e1; reflexivity)), app_nil_r. reflexivity.
Qed.
Print Assumptions C94_file_complete.

(** A document of less than 8192 bytes is always written with success, whatever
    the file does: on a full disk too. *)
Theorem C94_small_files : forall dtoa_calls, (forall x, concat (dtoa_calls x) = dtoa x) ->
  forall F (put : F -> bytes -> F * N * option io_error) d f, (N.of_nat (length (doc_write d)) < 8192)%N ->
  write_to_pdf_file F put dtoa_calls d (inr f) = (IoOk, Some (fst (fst (put f (doc_write d))))).
Proof.
  intros dc H F fput d f L. unfold write_to_pdf_file.
  destruct (C94_calls dc H d) as (cs & Hd & Hc). rewrite Hc.
  rewrite feed_small by (cbn [app]; rewrite Hd; exact L). cbn [app]. rewrite Hd.
  unfold Lester.drop_buf_writer, Lester.flush_buf. cbn [Lester.bw_file Lester.bw_buffer].
  destruct (fput f (doc_write d)) as [[f' n] [e |]]; reflexivity.
Qed.
Print Assumptions C94_small_files.

(** ** Examples *)

(** A disk of which the contents and the room left are known. *)
Lemma disk_honest full : honest_file fst (LesterSpec.disk_put full).
Proof.
  intros [c room] b [c' room'] n e. unfold LesterSpec.disk_put. cbn [fst].
  destruct (length b <=? room)%nat; intros E.
  - assert (e = None) by congruence. subst e. congruence.
  - assert (e = Some full) by congruence. subst e. assert (n = N.of_nat room) by congruence. subst n.
    rewrite Nat2N.id. congruence.
Qed.

(** That success means a complete file is false: the errors of the last writing,
    when the [BufWriter] is dropped, are ignored. *)
Theorem C94_file_refuted : exists (d : doc) (file : bytes * nat),
  write_to_pdf_file (bytes * nat) (LesterSpec.disk_put 28%N) (fun x => [dtoa x]) d (inr ([], 100%nat)) = (IoOk, Some file) /\
  fst file <> doc_write d.
Proof.
  exists (run a_history). eexists. split.
  - apply C94_small_files; [intros x; apply app_nil_r | vm_compute; reflexivity].
  - vm_compute. discriminate.
Qed.
Print Assumptions C94_file_refuted.

(** The document of PdfConvertProps.v on a stream that takes ten bytes, is
    interrupted, takes five more, and fails: the beginning of the file. *)
Example C94_example :
  let r := write_to_pdf (bytes * list answer) (answering_write_all 1%N) (fun x => [dtoa x]) (run a_history)
    ([], [Wrote 10; Interrupted; Wrote 5; Failed 32%N]) in
  r = ((firstn 15 (doc_write (run a_history)), []), IoErr 32%N) /\
  (1000 <? N.of_nat (length (doc_write (run a_history))))%N = true.
Proof. vm_compute. split; reflexivity. Qed.

Example C94_example_whole :
  write_to_pdf (bytes * list answer) (answering_write_all 1%N) (fun x => [dtoa x]) (run a_history)
    ([], [Wrote 10; Interrupted; Wrote 5]) = ((doc_write (run a_history), []), IoOk) /\
  write_to_pdf_bytes (fun x => [dtoa x]) (run a_history) = Some (doc_write (run a_history)) /\
  snd (write_to_pdf (bytes * list answer) (answering_write_all 1%N) (fun x => [dtoa x]) (run a_history)
    ([], [Wrote 10; Wrote 0])) = IoErr 1%N.
Proof. vm_compute. repeat split; reflexivity. Qed.

(** A long document on a disk with too little room: the error is reported. *)
Definition long_doc : doc :=
  mkDoc (mkPdfFile [repeat 65%N (N.to_nat 9000); repeat 66%N 20] 6) [] [] [] [] [].
Example C94_example_full :
  let r := write_to_pdf_file (bytes * nat) (LesterSpec.disk_put 28%N) (fun x => [dtoa x]) long_doc (inr ([], 1000%nat)) in
  fst r = IoErr 28%N /\ match snd r with Some (c, _) => c | None => [] end = firstn 1000 (doc_write long_doc).
Proof. vm_compute. split; reflexivity. Qed.
Example C94_example_honest :
  honest fst (answering_write_all 1%N) /\ honest_file fst (LesterSpec.disk_put 28%N) /\
  (forall x, concat ((fun x => [dtoa x]) x) = dtoa x).
Proof. split; [apply answering_honest|]. split; [apply disk_honest|]. intros x. apply app_nil_r. Qed.
