(** Properties C05-C08 of the PDF file writer.  The reader is in [PdfSyntaxSpec]. *)
From Verif Require Import Base PdfObject PdfObjectSpec PdfSyntax PdfSyntaxSpec PdfSyntaxProofs.
Local Open Scope N_scope.

(** C05: in every file under 4 GiB, after any history of additions, the number returned
    for a stream denotes its dictionary followed by [Length], and exactly its contents. *)
Theorem C05_streams : forall before meta contents after b f ids,
  add_all pdf_new (before ++ AddStream meta contents :: after) = (f, ids) ->
  Forall clean_addition (before ++ AddStream meta contents :: after) ->
  N.of_nat (length (pdf_write f b)) < 2 ^ 32 ->
  exists id, nth_error ids (length before) = Some id /\
    resolve (pdf_write f b) id =
    Some (PDict (meaning_pairs meta ++ [(bs "Length", PInt (Z.of_nat (length contents)))]),
          Some contents).
Proof.
  intros before meta contents after b f ids E Hc Hl.
  destruct (additions_denoted _ b f ids E Hc Hl) as (_ & _ & H).
  destruct (H (length before) (AddStream meta contents)) as (id & H1 & _ & _ & _ & _ & H2).
  - rewrite nth_error_app2, Nat.sub_diag by apply le_n. reflexivity.
  - eauto.
Qed.
Print Assumptions C05_streams.

(** Contents that look like PDF syntax, and a history around them. *)
Definition c05_history : list addition :=
  [ AddDictionary (dict [(bs "A", OUsize 1)]);
    AddStream (dict [(bs "Subtype", OName (bs "X"))]) (bs "endstream endobj 5 0 obj");
    AddDictionary (dict []) ].
Example c05_hyps : Forall clean_addition c05_history /\
  N.of_nat (length (pdf_write (fst (add_all pdf_new c05_history)) empty_basic)) < 2 ^ 32.
Proof.
  assert (N : forall k, ~ In 35 (bs k) -> clean_name (bs k)).
  { intros k H. split; [apply bs_wf|]. intros (a & h1 & h2 & b & E & _). apply H. rewrite E.
    apply in_or_app. right. left. auto. }
  split; [|vm_compute; reflexivity].
  repeat constructor; try apply bs_wf; try (apply N; cbn; lia).
  cbn. intros [H|[]]; discriminate.
Qed.
Example c05_computed : resolve (pdf_write (fst (add_all pdf_new c05_history)) empty_basic) 5 =
  Some (PDict [(bs "Subtype", PName (bs "X")); (bs "Length", PInt 24)],
        Some (bs "endstream endobj 5 0 obj")).
Proof. vm_compute. reflexivity. Qed.

Lemma written_after : forall objs id offs w, exists more, cw_out (snd (write_objects id objs offs w)) = cw_out w ++ more.
Proof.
  induction objs as [|c r IH]; intros id offs w; cbn [write_objects]; [exists []; rewrite app_nil_r; reflexivity|].
  destruct (IH (u32 (id + 1)) (offs ++ [u32 (bytes_written w)]) (write_all (write_all (write_all (write_all w (itoa id)) (bs " 0 obj" ++ LF)) c) (LF ++ bs "endobj" ++ LF))) as [more E].
  unfold write_all in E at 5 6 7 8. cbn [cw_out] in E. rewrite <- !app_assoc in E. eexists. exact E.
Qed.
(** C06: the first line is the version; the second is a comment with four bytes that are not ASCII, so that
    programs that transfer the file take it to be binary (ISO 32000-1 §7.5.2). *)
Theorem C06_binary : forall f b, exists marks rest,
  pdf_write f b = bs "%PDF-1.5" ++ [10] ++ bs "%" ++ marks ++ [10] ++ rest /\ length marks = 4%nat /\ Forall (fun c => 128 <= c < 256) marks.
Proof.
  intros f b. exists [181; 237; 174; 251]. unfold pdf_write.
  destruct (written_after [write_dict (page_tree b); write_dict (catalog b); write_dict (info b)] FIRST_ID [] (write_all (mkCW [] 0) pdf_header)) as [m1 E1].
  destruct (write_objects FIRST_ID _ _ _) as [offs w]. cbn [snd] in E1.
  destruct (written_after (indirect_objects f) FIRST_AVAILABLE_ID offs w) as [m2 E2].
  destruct (write_objects FIRST_AVAILABLE_ID _ _ _) as [offs2 w2]. cbn [snd] in E2. rewrite E2, E1. unfold write_all. cbn [cw_out app]. unfold pdf_header.
  rewrite <- !app_assoc. eexists. split; [reflexivity|]. split; [reflexivity|]. repeat constructor; discriminate.
Qed.
Print Assumptions C06_binary.
(** C06: whatever was added (no condition on the contents), the cross-reference table of a
    file under 4 GiB has one entry per object, pointing at the object. *)
Theorem C06_xref : forall f b, N.of_nat (length (pdf_write f b)) < 2 ^ 32 ->
  let all := [write_dict (page_tree b); write_dict (catalog b); write_dict (info b)]
             ++ indirect_objects f in
  exists p, read_pdf (pdf_write f b) = Some p /\
    p_trailer p = PDict [ (bs "Size", PInt (Z.of_nat (S (length all))));
                          (bs "Root", PRef 2 0); (bs "Info", PRef 3 0) ] /\
    length (p_entries p) = S (length all) /\
    nth_error (p_entries p) 0 = Some (mkX 0 0 65535 false) /\
    forall i body, nth_error all i = Some body ->
      exists pre post,
        nth_error (p_entries p) (S i) =
          Some (mkX (N.of_nat (S i)) (N.of_nat (length pre)) 0 true) /\
        pdf_write f b = pre ++ (itoa (N.of_nat (S i)) ++ bs " 0 obj" ++ [10] ++ body ++ [10] ++
                                bs "endobj" ++ [10]) ++ post.
Proof.
  intros f b H all. destruct (xref_correct f b H) as (p & H1 & H2 & H3 & H4 & H5).
  exists p. split; [auto|]. split; [|split; [exact H3|split; [exact H4|exact H5]]].
  rewrite H2. unfold trailer_value. repeat f_equal. subst all. unfold bodies.
  Transparent lenN. unfold lenN. Opaque lenN. lia.
Qed.
Print Assumptions C06_xref.

Example c06_computed : exists p,
  read_pdf (pdf_write (fst (add_all pdf_new c05_history)) empty_basic) = Some p /\
  map x_offset (p_entries p) = [0; 15; 36; 57; 78; 104; 190].
Proof. eexists. split; vm_compute; reflexivity. Qed.

(** C07: the numbers returned are new, and denote what was added. *)
Theorem C07_object_numbers : forall adds b f ids, add_all pdf_new adds = (f, ids) ->
  Forall clean_addition adds -> N.of_nat (length (pdf_write f b)) < 2 ^ 32 ->
  NoDup ids /\ length ids = length adds /\
  forall i a, nth_error adds i = Some a ->
    exists id, nth_error ids i = Some id /\ id <> 0 /\ id <> 1 /\ id <> 2 /\ id <> 3 /\
      resolve (pdf_write f b) id = Some (addition_value a).
Proof. exact additions_denoted. Qed.
Print Assumptions C07_object_numbers.

(** The reserved numbers denote the page tree, the catalog and the information dictionary. *)
Theorem C07_reserved_numbers : forall f b, N.of_nat (length (pdf_write f b)) < 2 ^ 32 ->
  clean_pairs (page_tree b) -> clean_pairs (catalog b) -> clean_pairs (info b) ->
  resolve (pdf_write f b) 1 = Some (PDict (meaning_pairs (page_tree b)), None) /\
  resolve (pdf_write f b) 2 = Some (PDict (meaning_pairs (catalog b)), None) /\
  resolve (pdf_write f b) 3 = Some (PDict (meaning_pairs (info b)), None).
Proof. exact basic_objects_denoted. Qed.
Print Assumptions C07_reserved_numbers.

(** [c05_hyps] meets the hypotheses of C07; the numbers returned there: *)
Example c07_ids : snd (add_all pdf_new c05_history) = [4; 5; 6].
Proof. reflexivity. Qed.

(** C08: without the bound the conclusion of C06 and C07 fails: object 5 is found nowhere
    near its offset, and reading it fails although it was added as an empty dictionary. *)
Theorem C08_large_files_refuted : exists adds f ids,
  add_all pdf_new adds = (f, ids) /\ Forall clean_addition adds /\ nth_error ids 1 = Some 5 /\
  nth_error adds 1 = Some (AddDictionary (dict [])) /\
  resolve (pdf_write f empty_basic) 5 = None /\
  exists p e pre post, read_pdf (pdf_write f empty_basic) = Some p /\
     nth_error (p_entries p) 5 = Some e /\
     pdf_write f empty_basic = pre ++ object_text 5 (write_dict (dict [])) ++ post /\
     x_offset e + 2 ^ 32 = N.of_nat (length pre).
Proof. exact large_file_exists. Qed.
Print Assumptions C08_large_files_refuted.
