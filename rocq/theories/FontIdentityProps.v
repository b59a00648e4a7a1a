(** Property C100: text is shown in its own font, whatever addresses the allocator gives to
    fonts and whenever the program drops them. *)
From Coq Require Import Lia.
From Verif Require Import Base PdfObject PdfObjectSpec PdfSyntax PdfSyntaxSpec PdfConvert PdfConvertSpec
  PdfDocProofs PdfPagesProofs PdfConvertProps FontIdentity FontIdentitySpec FontIdentityProofs.
Local Open Scope N_scope.

(** The map with keys by address finds what was put there for the font at that address,
    with every hash function. *)
Theorem C100_map : forall hasher f slots,
  table_find hasher f slots = assoc (f_addr f) (map (fun kv => (f_addr (fst kv), snd kv)) slots).
Proof.
  intros hasher f slots. induction slots as [|[k v] r IH]; cbn [table_find map assoc fst snd]; [reflexivity|].
  rewrite IH. unfold by_address_hash, by_address_eq. rewrite (N.eqb_sym (f_addr f)).
  destruct (N.eqb_spec (f_addr k) (f_addr f)) as [-> |E].
  - rewrite N.eqb_refl. reflexivity.
  - rewrite Bool.andb_false_r. reflexivity.
Qed.
Print Assumptions C100_map.

(** No reference to a font dangles, in no program that the language allows. *)
Theorem C100_no_dangling : forall l, exec start l <> Panic.
Proof. intro l. apply (exec_inv l start view_start inv_start). Qed.
Print Assumptions C100_no_dangling.

(** The document is the one of the requests with each font under its own name: addresses that
    are used again make no difference. *)
Theorem C100_identity : forall l w, exec start l = Ok w -> w_page w = None ->
  doc_write (w_doc w) = doc_write (run (asked l)) /\ coherent (asked l).
Proof.
  intros l w H P. split; [|apply asked_coherent].
  pose proof (proj2 (exec_inv l start view_start inv_start) w H) as I.
  pose proof (i_page _ _ I) as IP. rewrite P in IP. destruct (i_doc _ _ I) as [k D].
  assert (G : fst (ghost (fold_left see l view_start)) = run (asked l)).
  { unfold asked. unfold ghost in *. destruct (v_open _); [|reflexivity].
    destruct (fold_left do_request _ _). discriminate. }
  rewrite D, G. reflexivity.
Qed.
Print Assumptions C100_identity.

(** So C09, C10 and C11 hold of every run, without a condition on addresses: each text is
    painted in the font that was loaded last where its reference points to, and each font that
    can be embedded is embedded once. *)
Theorem C100_pages : forall l w, exec start l = Ok w -> w_page w = None ->
  Forall clean_page (asked l) -> N.of_nat (length (doc_write (w_doc w))) < 2 ^ 32 ->
  exists kids pages rs, read_document (doc_write (w_doc w)) = Some (kids, pages, rs) /\
    Forall2 (fun ph pv => exists ms, paint rs (pv_contents pv) = Some ms /\
               Forall2 (painted_as (doc_write (w_doc w))) (wants (0, 0, 0)%Q 1%Q (ph_requests ph)) ms)
            (asked l) pages /\
    exists used, NoDup used /\
      (forall f, In f used <-> In f (fonts_of (asked l)) /\ embeddable f = true) /\
      Forall2 (fun f kv => exists fv, read_font (doc_write (w_doc w)) (snd kv) = Some fv /\ represents f fv)
              used (r_fonts rs).
Proof.
  intros l w H P C L. destruct (C100_identity l w H P) as [E K]. rewrite E in *.
  assert (CH : clean_history (asked l)) by (split; auto).
  destruct (C10_content_streams _ CH L) as (kids & pages & rs & R & F).
  destruct (C11_resources _ CH L) as (kids' & pages' & rs' & R' & _ & _ & _ & _ & U).
  rewrite R in R'. assert (rs' = rs) by congruence. subst rs'.
  exists kids, pages, rs. auto.
Qed.
Print Assumptions C100_pages.

(** When the program has dropped its fonts, dropping the document frees the others: nothing is
    freed twice and nothing is left. *)
Theorem C100_freed : forall l w, exec start l = Ok w -> w_owned w = [] ->
  drop_keys (d_fonts (w_doc w)) (w_mem w) = Some [].
Proof.
  intros l w H O. pose proof (proj2 (exec_inv l start view_start inv_start) w H) as I.
  apply (drop_keys_counted _ _ _ (i_count _ _ I)). intro a. unfold refs. rewrite O. reflexivity.
Qed.
Print Assumptions C100_freed.

(** A font that cannot be embedded is shown, dropped, and its address used again for one that
    can; that one is dropped while the document keeps it; a third is loaded elsewhere. *)
Definition other_font : font :=
  mkFont 0 (bs "other program") (bs "Other") 0 0 1 1 1 0 [(66, 1)] None 2 (fun _ => Ok 1%Q).
Definition first_events : list event :=
  [ Load bad_font 100; AddPage (d 200 0) (d 100 0); Text 100 [7] (d 1 0) (d 2 0) (d 3 0); Release 100;
    Load a_font 100; Clone 100; Release 100; Text 100 [1; 258] (d 16 0) (d 5 0) (d 25 0); Release 100 ].
Definition some_events : list event :=
  first_events ++
  [ Load other_font 101; Text 101 [1] (d 16 0) (d 5 0) (d 25 0); DropPage; Release 101 ].

Example C100_example :
  match exec start some_events with
  | Ok w => Some (map fst (w_mem w), w_owned w, d_fonts (w_doc w),
                  drop_keys (d_fonts (w_doc w)) (w_mem w))
  | _ => None
  end = Some ([101; 100], [], [(100, bs "f0"); (101, bs "f1")], Some []) /\
  map f_addr (fonts_of (asked some_events)) = [0; 1; 2] /\
  map f_name (fonts_of (asked some_events)) = [bs "Bad"; bs "Ahem"; bs "Other"] /\
  (* the font of the document is not dropped: its address is not free *)
  exec start (first_events ++ [Load other_font 100]) = Err tt.
Proof. split; [vm_compute; reflexivity|]. split; [vm_compute; reflexivity|]. split; vm_compute; reflexivity. Qed.

Example C100_example_document :
  match exec start some_events with
  | Ok w =>
      match read_document (doc_write (w_doc w)) with
      | Some (_, pages, rs) =>
          Some (map fst (r_fonts rs),
                map (fun kv => option_map fv_program (read_font (doc_write (w_doc w)) (snd kv))) (r_fonts rs),
                map (fun p => option_map (map (fun m => match m with MText v _ _ _ _ => v | _ => PNull end))
                                         (paint rs (pv_contents p))) pages, map snd (r_fonts rs))
      | None => None
      end
  | _ => None
  end = Some ([bs "f0"; bs "f1"], [Some (bs "glyf ) endstream"); Some (bs "other program")],
              [Some [PRef 9 0; PRef 13 0]], [PRef 9 0; PRef 13 0]).
Proof. vm_compute. reflexivity. Qed.

Example C100_example_pages : Forall clean_page (asked some_events).
Proof.
  assert (N : forall s, ~ In 35 (bs s) -> clean_name (bs s)).
  { intros k H. split; [apply bs_wf|]. intros (a & h1 & h2 & b & E & _). apply H. rewrite E.
    apply in_or_app. right. left. auto. }
  assert (G : forall l, forallb (fun g => g <? 65536) l = true -> Forall (fun g => g < 65536) l).
  { intros l H. apply Forall_forall. intros x Hx. rewrite forallb_forall in H. apply N.ltb_lt. auto. }
  constructor; [|constructor]. cbn [some_events first_events app fold_left see asking asked v_done].
  unfold clean_page. cbn [ph_width ph_height ph_requests].
  repeat match goal with |- _ /\ _ => split end;
    try (apply moderate_d; vm_compute; reflexivity).
  cbn [app option_map loaded_at find fst snd v_at v_loaded v_open view_start ph_requests N.eqb Pos.eqb].
  repeat (apply Forall_cons || apply Forall_nil); cbn [clean_request named f_name bad_font a_font other_font];
    repeat match goal with |- _ /\ _ => split end;
    try (apply moderate_d; vm_compute; reflexivity);
    try (apply G; reflexivity);
    apply N; vm_compute; intuition discriminate.
Qed.

(** The wish that a document contain a font's file at most once does not hold for fonts that
    cannot be embedded: each attempt to show text in one leaves its file, used by nothing. *)
Theorem C100_embedded_once_refuted : exists l w p,
  exec start l = Ok w /\ w_page w = None /\
  (exists f, fonts_of (asked l) = [f; f; f] /\ f_bytes f = p /\ embeddable f = false) /\
  occurrences p (doc_write (w_doc w)) = 3%nat.
Proof.
  exists [ Load (mkFont 0 (bs "unusable program") (bs "Bad") 0 0 0 0 0 0 [] (Some NoSupportedCmap) 1 (fun _ => Ok 0%Q)) 9;
           AddPage (d 8 0) (d 8 0); Text 9 [1] (d 1 0) (d 1 0) (d 1 0); Text 9 [1] (d 1 0) (d 1 0) (d 1 0);
           Text 9 [1] (d 1 0) (d 1 0) (d 1 0); DropPage ].
  eexists. exists (bs "unusable program"). split; [vm_compute; reflexivity|]. split; [reflexivity|].
  split; [|vm_compute; reflexivity].
  eexists. split; [vm_compute; reflexivity|]. split; reflexivity.
Qed.
Print Assumptions C100_embedded_once_refuted.
