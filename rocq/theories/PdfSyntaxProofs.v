(** Proofs about the PDF file writer (C05-C08). *)
From Verif Require Import Base PdfObject PdfObjectSpec PdfObjectProofs PdfSyntax PdfSyntaxSpec.
From Coq Require Import ZifyBool ZifyN ZifyNat.
Local Open Scope N_scope.

Lemma lenN_app : forall A (a b : list A), lenN (a ++ b) = lenN a + lenN b.
Proof. intros. unfold lenN. rewrite app_length. lia. Qed.
Lemma lenN_cons : forall A (x : A) l, lenN (x :: l) = 1 + lenN l.
Proof. intros. unfold lenN. cbn [length]. lia. Qed.
Lemma lenN_nil : forall A, lenN (@nil A) = 0.
Proof. reflexivity. Qed.
Global Opaque lenN.

Lemma u32_small : forall n, n < 2 ^ 32 -> u32 n = n.
Proof. intros. unfold u32. apply N.mod_small. auto. Qed.

(** ** Layout of the file *)
Definition object_text (id : N) (body : bytes) : bytes :=
  itoa id ++ (bs " 0 obj" ++ LF) ++ body ++ LF ++ bs "endobj" ++ LF.

Fixpoint objects_text (id : N) (objs : list bytes) : bytes :=
  match objs with
  | [] => []
  | c :: r => object_text id c ++ objects_text (id + 1) r
  end.

Fixpoint positions (pos id : N) (objs : list bytes) : list N :=
  match objs with
  | [] => []
  | c :: r => pos :: positions (pos + lenN (object_text id c)) (id + 1) r
  end.

Lemma object_text_nonempty : forall id c, 0 < lenN (object_text id c).
Proof.
  intros. unfold object_text. rewrite !lenN_app. change (lenN (bs "endobj")) with 6. lia.
Qed.

Lemma objects_text_count : forall objs id, lenN objs <= lenN (objects_text id objs).
Proof.
  induction objs as [|c r IH]; intro id; [rewrite !lenN_nil; lia|].
  cbn [objects_text]. rewrite lenN_cons, lenN_app. pose proof (object_text_nonempty id c).
  specialize (IH (id + 1)). lia.
Qed.

Lemma write_objects_spec : forall objs id offs w, id + lenN objs <= 2 ^ 32 ->
  write_objects id objs offs w =
  (offs ++ map u32 (positions (bytes_written w) id objs),
   mkCW (cw_out w ++ objects_text id objs) (bytes_written w + lenN (objects_text id objs))).
Proof.
  induction objs as [|c r IH]; intros id offs w H.
  - cbn [write_objects positions objects_text map]. rewrite !app_nil_r, lenN_nil, N.add_0_r.
    destruct w; auto.
  - rewrite lenN_cons in H. cbn [write_objects positions objects_text map].
    destruct r as [|c2 r2].
    + cbn [write_objects positions objects_text map]. unfold write_all. cbn [cw_out bytes_written].
      rewrite app_nil_r. unfold object_text. rewrite !lenN_app, <- !app_assoc. f_equal. f_equal. lia.
    + rewrite u32_small with (n := id + 1) by (rewrite lenN_cons in H; lia).
      rewrite IH by lia. unfold write_all; cbn [cw_out bytes_written].
      assert (E : bytes_written w + lenN (itoa id) + lenN (bs " 0 obj" ++ LF) + lenN c +
                  lenN (LF ++ bs "endobj" ++ LF) = bytes_written w + lenN (object_text id c)).
      { unfold object_text. rewrite !lenN_app. lia. }
      rewrite E, lenN_app, N.add_assoc. f_equal.
      * rewrite <- app_assoc. reflexivity.
      * f_equal. unfold object_text. rewrite <- !app_assoc. reflexivity.
Qed.

Definition bodies (f : pdf_file) (b : basic_objects) : list bytes :=
  [write_dict (page_tree b); write_dict (catalog b); write_dict (info b)] ++ indirect_objects f.

Definition xref_part (offsets : list N) (size startxref : N) : bytes :=
  bs "xref" ++ LF ++ bs "0 " ++ itoa size ++ LF ++ bs "0000000000 65535 f " ++ LF ++
  flat_map xref_entry offsets ++
  bs "trailer" ++ LF ++
  write_dict (dict [ (bs "Size", OUsize size); (bs "Root", OReference CATALOG_ID);
                     (bs "Info", OReference INFO_ID) ]) ++
  LF ++ bs "startxref" ++ LF ++ itoa startxref ++ LF ++ bs "%%EOF".

Lemma objects_text_app : forall a b id,
  objects_text id (a ++ b) = objects_text id a ++ objects_text (id + lenN a) b.
Proof.
  induction a as [|c a IH]; intros b id.
  - cbn [app objects_text]. rewrite lenN_nil, N.add_0_r. auto.
  - cbn [app objects_text]. rewrite IH, <- app_assoc, lenN_cons.
    replace (id + 1 + lenN a) with (id + (1 + lenN a)) by lia. auto.
Qed.

Lemma positions_app : forall a b pos id,
  positions pos id (a ++ b) =
  positions pos id a ++ positions (pos + lenN (objects_text id a)) (id + lenN a) b.
Proof.
  induction a as [|c a IH]; intros b pos id.
  - cbn [app objects_text positions]. rewrite !lenN_nil, !N.add_0_r. auto.
  - cbn [app objects_text positions]. rewrite IH, lenN_cons, lenN_app.
    f_equal. f_equal. f_equal; lia.
Qed.

Lemma pdf_write_layout : forall f b,
  lenN (indirect_objects f) + 4 <= 2 ^ 32 ->
  pdf_write f b =
  (pdf_header ++ objects_text 1 (bodies f b)) ++
  xref_part (map u32 (positions (lenN pdf_header) 1 (bodies f b)))
            (lenN (bodies f b) + 1)
            (lenN (pdf_header ++ objects_text 1 (bodies f b))).
Proof.
  intros f b H. unfold pdf_write, FIRST_ID, FIRST_AVAILABLE_ID.
  rewrite write_objects_spec by (rewrite !lenN_cons, lenN_nil; vm_compute; discriminate).
  rewrite write_objects_spec by lia.
  unfold write_all; cbn [cw_out bytes_written]. rewrite N.add_0_l. cbn [app].
  unfold bodies. rewrite objects_text_app, positions_app, map_app, !lenN_app, !lenN_cons, !lenN_nil.
  change (1 + (1 + (1 + (1 + 0)))) with 4. cbn [app].
  unfold xref_part. rewrite <- !app_assoc.
  f_equal. f_equal. f_equal. f_equal. f_equal.
  replace (1 + (1 + (1 + 0)) + lenN (indirect_objects f) + 1) with
    (4 - 1 + lenN (indirect_objects f) + 1) by lia.
  rewrite N.add_assoc. reflexivity.
Qed.

(** ** Finding the cross-reference table *)
Lemma strip_prefix_app : forall p l, strip_prefix p (p ++ l) = Some l.
Proof. induction p as [|a p IH]; intro l; cbn; auto. rewrite N.eqb_refl. auto. Qed.

Lemma digit_not_ws : forall b, digitp b -> is_ws b = false.
Proof.
  intros b H. apply digit_regular in H. unfold is_regular in H. destruct (is_ws b); auto; discriminate.
Qed.

Lemma drop_ws_digits : forall l r, Forall digitp l -> l <> [] -> drop_ws (l ++ r) = l ++ r.
Proof.
  intros [|b l] r H Hn; [congruence|]. inversion H; subst. cbn [app drop_ws].
  rewrite digit_not_ws by auto. auto.
Qed.

Lemma span_digits_app : forall l r, Forall digitp l ->
  match r with [] => True | b :: _ => is_digit b = false end ->
  span_digits (l ++ r) = (l, r).
Proof.
  induction l as [|b l IH]; intros r H Hr; cbn [app span_digits].
  - destruct r as [|b r]; auto. cbn [span_digits]. rewrite Hr. auto.
  - inversion H; subst. apply digitp_is_digit in H2. rewrite H2, IH; auto.
Qed.

Lemma find_startxref_spec : forall x n,
  find_startxref (x ++ bs "startxref" ++ LF ++ itoa n ++ LF ++ bs "%%EOF") = Some n.
Proof.
  intros x n. destruct (itoa_spec n) as (A & B & C).
  unfold find_startxref. rewrite !rev_app_distr. rewrite <- !app_assoc.
  change (drop_ws (rev (bs "%%EOF") ++ ?y)) with (rev (bs "%%EOF") ++ y).
  rewrite strip_prefix_app.
  change (drop_ws (rev LF ++ rev (itoa n) ++ ?y)) with (drop_ws (rev (itoa n) ++ y)).
  assert (A' : Forall digitp (rev (itoa n))) by (apply Forall_rev; auto).
  rewrite drop_ws_digits; auto.
  2:{ intro H. apply C. rewrite <- (rev_involutive (itoa n)), H. auto. }
  rewrite span_digits_app; [|auto|reflexivity].
  change (drop_ws (rev LF ++ rev (bs "startxref") ++ ?y)) with (rev (bs "startxref") ++ y).
  rewrite strip_prefix_app. rewrite rev_involutive.
  unfold token_number. destruct (itoa n); [congruence|auto].
Qed.

(** ** Entries *)
Lemma pad_loop_app : forall k v acc, pad_loop k v acc = pad_loop k v [] ++ acc.
Proof.
  induction k as [|k IH]; intros v acc; [reflexivity|]. cbn [pad_loop].
  rewrite IH. rewrite (IH _ [_]). rewrite <- app_assoc. reflexivity.
Qed.

Lemma pad_loop_length : forall k v, length (pad_loop k v []) = k.
Proof.
  induction k as [|k IH]; intro v; [reflexivity|]. cbn [pad_loop]. rewrite pad_loop_app, app_length, IH.
  cbn. lia.
Qed.

Lemma pad_loop_value : forall k v a,
  digits_value a (pad_loop k v []) = Some (a * 10 ^ N.of_nat k + v mod 10 ^ N.of_nat k).
Proof.
  induction k as [|k IH]; intros v a.
  - cbn [pad_loop digits_value N.of_nat]. rewrite N.pow_0_r, N.mod_1_r. f_equal. lia.
  - cbn [pad_loop]. rewrite pad_loop_app, digits_value_app, IH. cbn [digits_value].
    assert (E : is_digit (48 + v mod 10) = true).
    { pose proof (N.mod_lt v 10). unfold is_digit. lia. }
    rewrite E. f_equal. rewrite Nat2N.inj_succ, N.pow_succ_r'.
    set (p := 10 ^ N.of_nat k). assert (p <> 0) by (apply N.pow_nonzero; lia).
    rewrite (N.mod_mul_r v 10 p) by lia. lia.
Qed.

Lemma read_xentry_written : forall num off rest, off < 2 ^ 32 ->
  read_xentry num (xref_entry off ++ rest) = Some (mkX num off 0 true, rest).
Proof.
  intros num off rest H. unfold xref_entry, itoa_zero_padded.
  pose proof (pad_loop_length 10 off) as L. pose proof (pad_loop_value 10 off 0) as V.
  set (p := pad_loop 10 off []) in *. clearbody p.
  do 10 (destruct p as [|? p]; [discriminate L|]). destruct p; [|discriminate L]. clear L.
  rewrite <- app_assoc.
  change (bs " 00000 n ") with [32; 48; 48; 48; 48; 48; 32; 110; 32]. unfold LF.
  unfold read_xentry. cbn [app firstn skipn]. rewrite V.
  change (N.of_nat 10) with 10. rewrite N.mul_0_l, N.add_0_l, N.mod_small by lia.
  reflexivity.
Qed.

Fixpoint entries_from (num : N) (offs : list N) : list xentry :=
  match offs with
  | [] => []
  | o :: r => mkX num o 0 true :: entries_from (num + 1) r
  end.

Lemma read_xentries_written : forall offs num rest, Forall (fun o => o < 2 ^ 32) offs ->
  read_xentries (length offs) num (flat_map xref_entry offs ++ rest) = Some (entries_from num offs, rest).
Proof.
  induction offs as [|o r IH]; intros num rest H; [reflexivity|]. inversion H; subst.
  cbn [length read_xentries flat_map entries_from]. rewrite <- app_assoc, read_xentry_written by auto.
  rewrite IH by auto. reflexivity.
Qed.

Lemma u32_lt : forall n, u32 n < 2 ^ 32.
Proof. intro n. unfold u32. apply N.mod_lt. vm_compute. discriminate. Qed.

Definition free_entry : xentry := mkX 0 0 65535 false.

Lemma read_free : forall rest,
  read_xentry 0 (bs "0000000000 65535 f " ++ LF ++ rest) = Some (free_entry, rest).
Proof. intro rest. reflexivity. Qed.

Lemma next_token_lf : forall l, next_token (10 :: l) = next_token l.
Proof. reflexivity. Qed.
Lemma next_token_space : forall l, next_token (32 :: l) = next_token l.
Proof. reflexivity. Qed.

Lemma next_token_regular : forall t l, Forall (fun b => is_regular b = true) t -> t <> [] -> safe_head l ->
  next_token (t ++ l) = (t, l).
Proof.
  intros t l Ht Hn Hs. unfold next_token. destruct t as [|b t]; [congruence|].
  inversion Ht; subst. cbn [app].
  rewrite skip_ws_nonws.
  - change (b :: t ++ l) with ((b :: t) ++ l). apply span_regular_app; auto.
  - unfold is_regular in H1. destruct (is_ws b); auto; discriminate.
  - intros ->; discriminate.
Qed.

Lemma token_number_itoa : forall n, token_number (itoa n) = Some n.
Proof.
  intro n. destruct (itoa_spec n) as (A & B & C). unfold token_number.
  destruct (itoa n); [congruence|auto].
Qed.

Lemma read_object_lf : forall o rest, clean o -> safe_tail rest ->
  read_object (10 :: write_obj o ++ rest) = Some (meaning o, rest).
Proof.
  intros o rest Hc Hs. unfold read_object.
  change (read_obj (S (length (10 :: write_obj o ++ rest))) (10 :: write_obj o ++ rest)) with
    (read_obj (S (length (10 :: write_obj o ++ rest))) (write_obj o ++ rest)).
  apply all_read_back; auto. cbn [length]. rewrite app_length. lia.
Qed.

Lemma no_hash_clean : forall s, ~ In 35 (bs s) -> clean_name (bs s).
Proof.
  intros s Hs. split; [apply bs_wf|]. intros (a & h1 & h2 & b & E & _).
  apply Hs. rewrite E. apply in_or_app. right. left. auto.
Qed.

(** Text starting with line feed and a keyword that is not a number is a safe tail. *)
Lemma safe_tail_keyword : forall k l, Forall (fun b => is_regular b = true) k -> k <> [] ->
  digits_value 0 k = None -> safe_head l -> safe_tail (10 :: k ++ l).
Proof.
  intros k l Hk Hn Hd Hs. split; [reflexivity|]. unfold ref_tail.
  change (skip_ws (10 :: k ++ l)) with (skip_ws (k ++ l)).
  fold (next_token (k ++ l)). rewrite next_token_regular by auto.
  rewrite Hd. destruct k; auto.
Qed.

Lemma bs_regular_dec : forall s, forallb is_regular (bs s) = true ->
  Forall (fun b => is_regular b = true) (bs s).
Proof. intros s H. apply Forall_forall. rewrite forallb_forall in H. auto. Qed.

Definition trailer_value (size : N) : pval :=
  PDict [(bs "Size", PInt (Z.of_N size)); (bs "Root", PRef 2 0); (bs "Info", PRef 3 0)].

Lemma read_sections_written : forall offs startxref fuel, (2 <= fuel)%nat ->
  Forall (fun o => o < 2 ^ 32) offs ->
  read_sections fuel (skipn 4 (xref_part offs (lenN offs + 1) startxref)) =
  Some (free_entry :: entries_from 1 offs, trailer_value (lenN offs + 1)).
Proof.
  intros offs startxref fuel Hf H. unfold xref_part.
  change (skipn 4 (bs "xref" ++ ?x)) with x.
  set (size := lenN offs + 1).
  set (trail := bs "trailer" ++ _).
  assert (T : forall f, (1 <= f)%nat -> read_sections f trail = Some ([], trailer_value size)).
  { intros f Hf1. destruct f as [|f]; [lia|]. cbn [read_sections]. subst trail.
    rewrite next_token_regular; [|apply bs_regular_dec; reflexivity|discriminate|reflexivity].
    rewrite (proj2 (bytes_eqb_eq (bs "trailer") (bs "trailer")) eq_refl).
    change (LF ++ ?x) with (10 :: x).
    match goal with |- context [write_dict ?d] => change (write_dict d) with (write_obj (ODictionary d)) end.
    rewrite read_object_lf.
    - reflexivity.
    - cbn [clean clean_pairs dict]. repeat split; try apply bs_wf.
      all: apply no_hash_clean; cbn; lia.
    - apply (safe_tail_keyword (bs "startxref")); try reflexivity; try discriminate.
      apply bs_regular_dec; reflexivity. }
  destruct fuel as [|fuel]; [lia|]. cbn [read_sections].
  change (LF ++ bs "0 " ++ ?x) with (10 :: bs "0" ++ 32 :: x).
  rewrite next_token_lf, next_token_regular; [|apply bs_regular_dec; reflexivity|discriminate|reflexivity].
  change (bytes_eqb (bs "0") (bs "trailer")) with false. cbn iota.
  rewrite next_token_space, next_token_regular; [|apply itoa_regular|apply itoa_spec|reflexivity].
  change (token_number (bs "0")) with (Some 0). rewrite token_number_itoa.
  change (drop_ws (LF ++ bs "0000000000 65535 f " ++ LF ++ ?x)) with (bs "0000000000 65535 f " ++ LF ++ x).
  assert (E : N.to_nat size = S (length offs)).
  { subst size. Transparent lenN. unfold lenN. Opaque lenN. lia. }
  rewrite E. cbn [read_xentries]. rewrite read_free. change (0 + 1) with 1.
  rewrite read_xentries_written by auto. cbn [cons_fst].
  rewrite T by lia. cbn [app]. rewrite app_nil_r. auto.
Qed.

(** ** Reading the whole file *)
Lemma skipn_app_exact : forall A (a b : list A) n, n = length a -> skipn n (a ++ b) = b.
Proof. intros A a b n ->. rewrite skipn_app, skipn_all, Nat.sub_diag. auto. Qed.

Lemma seek_app : forall a b, seek (lenN a) (a ++ b) = b.
Proof.
  intros a b. unfold seek. Transparent lenN. unfold lenN. Opaque lenN.
  apply skipn_app_exact. lia.
Qed.

Lemma lenN_positions : forall objs pos id, lenN (positions pos id objs) = lenN objs.
Proof. induction objs as [|c r IH]; intros; cbn [positions]; auto. rewrite !lenN_cons, IH. auto. Qed.

Lemma lenN_map : forall A B (g : A -> B) l, lenN (map g l) = lenN l.
Proof. intros. Transparent lenN. unfold lenN. Opaque lenN. rewrite map_length. auto. Qed.

Lemma xref_part_startxref : forall offs size n, exists x,
  xref_part offs size n = x ++ bs "startxref" ++ LF ++ itoa n ++ LF ++ bs "%%EOF".
Proof.
  intros. unfold xref_part. set (tail := bs "startxref" ++ _). clearbody tail.
  rewrite !app_assoc. eexists. reflexivity.
Qed.

Lemma read_pdf_written : forall f b, lenN (indirect_objects f) + 4 <= 2 ^ 32 ->
  read_pdf (pdf_write f b) =
  Some (mkPdf (free_entry :: entries_from 1 (map u32 (positions (lenN pdf_header) 1 (bodies f b))))
              (trailer_value (lenN (bodies f b) + 1))).
Proof.
  intros f b H. rewrite pdf_write_layout by auto.
  set (pre := pdf_header ++ _). set (offs := map u32 _).
  assert (Hl : lenN (bodies f b) = lenN offs) by (subst offs; rewrite lenN_map, lenN_positions; auto).
  rewrite Hl. unfold read_pdf.
  destruct (xref_part_startxref offs (lenN offs + 1) (lenN pre)) as [x Hx].
  assert (E1 : find_startxref (pre ++ xref_part offs (lenN offs + 1) (lenN pre)) = Some (lenN pre)).
  { rewrite Hx, app_assoc. apply find_startxref_spec. }
  rewrite E1, seek_app.
  assert (E2 : strip_prefix (bs "xref") (xref_part offs (lenN offs + 1) (lenN pre)) =
               Some (skipn 4 (xref_part offs (lenN offs + 1) (lenN pre)))).
  { unfold xref_part. change (skipn 4 (bs "xref" ++ ?x)) with x. apply strip_prefix_app. }
  rewrite E2, read_sections_written; auto.
  - unfold xref_part. change (skipn 4 (bs "xref" ++ ?x)) with x. rewrite app_length. cbn [LF length]. 
    change (bs "0 ") with [48; 32]. cbn [app length]. lia.
  - subst offs. apply Forall_forall. intros o Ho. apply in_map_iff in Ho as (p & <- & _). apply u32_lt.
Qed.

(** ** Objects at their offsets *)
Lemma positions_nth : forall objs pos id i body, nth_error objs i = Some body ->
  exists pre post, objects_text id objs = pre ++ object_text (id + N.of_nat i) body ++ post /\
    nth_error (positions pos id objs) i = Some (pos + lenN pre).
Proof.
  induction objs as [|c r IH]; intros pos id i body H; [destruct i; discriminate|].
  destruct i as [|i].
  - cbn in H. injection H as ->. exists [], (objects_text (id + 1) r). cbn [objects_text positions nth_error app].
    rewrite lenN_nil, !N.add_0_r. auto.
  - cbn [nth_error] in H. destruct (IH (pos + lenN (object_text id c)) (id + 1) i body H) as (pre & post & E1 & E2).
    exists (object_text id c ++ pre), post. cbn [objects_text positions nth_error]. split.
    + rewrite E1, <- app_assoc. replace (id + N.of_nat (S i)) with (id + 1 + N.of_nat i) by lia. auto.
    + rewrite E2, lenN_app. f_equal. lia.
Qed.

Lemma entries_from_nth : forall offs num i o, nth_error offs i = Some o ->
  nth_error (entries_from num offs) i = Some (mkX (num + N.of_nat i) o 0 true).
Proof.
  induction offs as [|o r IH]; intros num i o' H; [destruct i; discriminate|].
  destruct i as [|i]; cbn [nth_error entries_from] in *.
  - injection H as ->. rewrite N.add_0_r. auto.
  - rewrite (IH (num + 1) i o' H). f_equal. f_equal. lia.
Qed.

Lemma find_entries_from : forall offs num i o, nth_error offs i = Some o ->
  find_entry (num + N.of_nat i) (entries_from num offs) = Some (mkX (num + N.of_nat i) o 0 true).
Proof.
  induction offs as [|o r IH]; intros num i o' H; [destruct i; discriminate|].
  unfold find_entry in *. destruct i as [|i]; cbn [nth_error entries_from find x_num] in *.
  - injection H as ->. rewrite N.add_0_r, N.eqb_refl. auto.
  - destruct (num =? num + N.of_nat (S i)) eqn:E; [lia|].
    replace (num + N.of_nat (S i)) with (num + 1 + N.of_nat i) by lia. apply IH. auto.
Qed.

Lemma map_entries_from : forall offs num i, (i < length (entries_from num offs))%nat ->
  nth_error (map x_num (entries_from num offs)) i = Some (num + N.of_nat i).
Proof.
  induction offs as [|o r IH]; intros num i H; cbn [entries_from length] in *; [lia|].
  destruct i as [|i]; cbn [map nth_error x_num].
  - rewrite N.add_0_r. auto.
  - rewrite IH by lia. f_equal. lia.
Qed.

Lemma entries_from_length : forall offs num, length (entries_from num offs) = length offs.
Proof. induction offs; intro; cbn [entries_from length]; auto. Qed.

(** Also without the bound on the count the file is longer than the number of objects. *)
Lemma write_objects_length : forall objs id offs w,
  lenN (cw_out w) + lenN objs <= lenN (cw_out (snd (write_objects id objs offs w))).
Proof.
  induction objs as [|c r IH]; intros id offs w.
  - cbn [write_objects snd]. rewrite lenN_nil. lia.
  - cbn [write_objects]. rewrite lenN_cons. eapply N.le_trans; [|apply IH].
    unfold write_all; cbn [cw_out]. rewrite !lenN_app. change (lenN (bs "endobj")) with 6. lia.
Qed.

Lemma pdf_write_count : forall f b, lenN (indirect_objects f) + 4 <= lenN (pdf_write f b).
Proof.
  intros f b. unfold pdf_write.
  destruct (write_objects FIRST_ID _ _ _) as [offs w] eqn:E1.
  destruct (write_objects FIRST_AVAILABLE_ID _ _ _) as [offs2 w2] eqn:E2.
  pose proof (write_objects_length (indirect_objects f) FIRST_AVAILABLE_ID offs w) as L.
  rewrite E2 in L. cbn [snd] in L. rewrite lenN_app. rewrite lenN_app.
  change (lenN (bs "xref")) with 4. lia.
Qed.

Lemma pdf_write_small : forall f b, lenN (pdf_write f b) < 2 ^ 32 ->
  lenN (indirect_objects f) + 4 <= 2 ^ 32.
Proof. intros f b H. pose proof (pdf_write_count f b). lia. Qed.

Lemma xref_correct : forall f b, lenN (pdf_write f b) < 2 ^ 32 ->
  exists p, read_pdf (pdf_write f b) = Some p /\
    p_trailer p = trailer_value (lenN (bodies f b) + 1) /\
    length (p_entries p) = S (length (bodies f b)) /\
    nth_error (p_entries p) 0 = Some free_entry /\
    forall i body, nth_error (bodies f b) i = Some body ->
      exists pre post,
        nth_error (p_entries p) (S i) = Some (mkX (N.of_nat (S i)) (lenN pre) 0 true) /\
        pdf_write f b = pre ++ (itoa (N.of_nat (S i)) ++ bs " 0 obj" ++ LF ++ body ++ LF ++
                                bs "endobj" ++ LF) ++ post.
Proof.
  intros f b H. pose proof (pdf_write_small f b H) as Hc.
  rewrite read_pdf_written by auto. eexists. split; [reflexivity|]. cbn [p_trailer p_entries].
  split; [reflexivity|]. split.
  { cbn [length]. rewrite entries_from_length, map_length. f_equal.
    pose proof (lenN_positions (bodies f b) (lenN pdf_header) 1) as L.
    apply Nat2N.inj. Transparent lenN. exact L. Opaque lenN. }
  split; [reflexivity|].
  intros i body Hi. cbn [nth_error].
  destruct (positions_nth (bodies f b) (lenN pdf_header) 1 i body Hi) as (pre & post & E1 & E2).
  assert (Ef : pdf_write f b = (pdf_header ++ pre) ++ object_text (1 + N.of_nat i) body ++ post ++
    xref_part (map u32 (positions (lenN pdf_header) 1 (bodies f b))) (lenN (bodies f b) + 1)
            (lenN (pdf_header ++ objects_text 1 (bodies f b)))).
  { rewrite pdf_write_layout at 1 by auto. rewrite E1 at 1. rewrite <- !app_assoc. reflexivity. }
  exists (pdf_header ++ pre), (post ++ xref_part (map u32 (positions (lenN pdf_header) 1 (bodies f b))) (lenN (bodies f b) + 1)
            (lenN (pdf_header ++ objects_text 1 (bodies f b)))).
  replace (N.of_nat (S i)) with (1 + N.of_nat i) by lia. split.
  - apply entries_from_nth. rewrite nth_error_map, E2. cbn [option_map]. rewrite lenN_app.
    f_equal. apply u32_small. rewrite Ef, !lenN_app in H. lia.
  - rewrite Ef. unfold object_text. rewrite <- !app_assoc. reflexivity.
Qed.

(** ** Reading back objects *)
Lemma resolve_body : forall f b i body, lenN (pdf_write f b) < 2 ^ 32 ->
  nth_error (bodies f b) i = Some body ->
  exists post, resolve (pdf_write f b) (1 + N.of_nat i) =
    match read_indirect (object_text (1 + N.of_nat i) body ++ post) with
    | Some (n, g, v, s) => if (n =? 1 + N.of_nat i) && (g =? 0) then Some (v, s) else None
    | None => None
    end.
Proof.
  intros f b i body H Hi. pose proof (pdf_write_small f b H) as Hc.
  destruct (positions_nth (bodies f b) (lenN pdf_header) 1 i body Hi) as (pre & post & E1 & E2).
  assert (Ef : pdf_write f b = (pdf_header ++ pre) ++ object_text (1 + N.of_nat i) body ++ post ++
    xref_part (map u32 (positions (lenN pdf_header) 1 (bodies f b))) (lenN (bodies f b) + 1)
            (lenN (pdf_header ++ objects_text 1 (bodies f b)))).
  { rewrite pdf_write_layout at 1 by auto. rewrite E1 at 1. rewrite <- !app_assoc. reflexivity. }
  eexists. unfold resolve. rewrite read_pdf_written by auto. cbn [p_entries].
  unfold find_entry. cbn [find]. unfold free_entry at 1. cbn [x_num].
  destruct (0 =? 1 + N.of_nat i) eqn:E0; [lia|].
  fold (find_entry (1 + N.of_nat i) (entries_from 1 (map u32 (positions (lenN pdf_header) 1 (bodies f b))))).
  rewrite (find_entries_from _ 1 i (lenN (pdf_header ++ pre))).
  - cbn [x_in_use x_offset x_gen]. rewrite Ef at 1. rewrite seek_app. reflexivity.
  - rewrite nth_error_map, E2. cbn [option_map]. rewrite lenN_app. f_equal. apply u32_small.
    rewrite Ef, !lenN_app in H. lia.
Qed.

Lemma read_indirect_prefix : forall id body post,
  read_indirect (object_text id body ++ post) =
  match read_object (10 :: body ++ LF ++ bs "endobj" ++ LF ++ post) with
  | Some (v, r4) =>
      let (t4, r5) := next_token r4 in
      if bytes_eqb t4 (bs "endobj") then Some (id, 0, v, None)
      else if bytes_eqb t4 (bs "stream") then
        match skip_stream_eol r5, v with
        | Some r6, PDict es =>
            match lookup_key (bs "Length") es with
            | Some (PInt z) =>
                let n := Z.to_nat z in
                if (z <? 0)%Z || (Nat.ltb (length r6) n) then None
                else
                  let (t5, r7) := next_token (skipn n r6) in
                  let (t6, _) := next_token r7 in
                  if bytes_eqb t5 (bs "endstream") && bytes_eqb t6 (bs "endobj")
                  then Some (id, 0, v, Some (firstn n r6))
                  else None
            | _ => None
            end
        | _, _ => None
        end
      else None
  | None => None
  end.
Proof.
  intros id body post. unfold object_text, read_indirect. rewrite <- !app_assoc.
  rewrite next_token_regular; [|apply itoa_regular|apply itoa_spec|reflexivity].
  change (bs " 0 obj" ++ LF ++ ?x) with (32 :: bs "0" ++ 32 :: bs "obj" ++ 10 :: x).
  rewrite next_token_space, next_token_regular; [|apply bs_regular_dec; reflexivity|discriminate|reflexivity].
  rewrite next_token_space, next_token_regular; [|apply bs_regular_dec; reflexivity|discriminate|reflexivity].
  rewrite token_number_itoa. change (token_number (bs "0")) with (Some 0).
  rewrite (proj2 (bytes_eqb_eq (bs "obj") (bs "obj")) eq_refl). reflexivity.
Qed.

Lemma endobj_tail : forall post, safe_tail (LF ++ bs "endobj" ++ LF ++ post).
Proof.
  intro post. change (LF ++ ?x) with (10 :: x).
  apply (safe_tail_keyword (bs "endobj")); try reflexivity; try discriminate.
  apply bs_regular_dec; reflexivity.
Qed.

Lemma next_keyword : forall s l, forallb is_regular (bs s) = true -> bs s <> [] -> safe_head l ->
  next_token (LF ++ bs s ++ l) = (bs s, l).
Proof.
  intros s l H1 H2 H3. change (LF ++ ?x) with (10 :: x). rewrite next_token_lf.
  apply next_token_regular; auto. apply bs_regular_dec; auto.
Qed.

Lemma read_indirect_dict : forall id d post, clean_pairs d ->
  read_indirect (object_text id (write_dict d) ++ post) = Some (id, 0, PDict (meaning_pairs d), None).
Proof.
  intros id d post Hd. rewrite read_indirect_prefix.
  change (write_dict d) with (write_obj (ODictionary d)).
  rewrite read_object_lf by (auto using endobj_tail).
  rewrite next_keyword; [|reflexivity|discriminate|reflexivity].
  rewrite (proj2 (bytes_eqb_eq (bs "endobj") (bs "endobj")) eq_refl). reflexivity.
Qed.

Lemma lookup_key_app : forall k a b, ~ In k (map fst a) ->
  lookup_key k (a ++ b) = lookup_key k b.
Proof.
  induction a as [|[k' v] a IH]; intros b H; [reflexivity|]. cbn [app lookup_key map fst] in *.
  destruct (bytes_eqb k k') eqn:E.
  - apply bytes_eqb_eq in E. exfalso. apply H. left. auto.
  - apply IH. intro. apply H. right. auto.
Qed.

Definition stream_body (meta : dictionary) (contents : bytes) : bytes :=
  write_dict (linked_dict meta [(bs "Length", OUsize (lenN contents))]) ++
  LF ++ bs "stream" ++ LF ++ contents ++ LF ++ bs "endstream".

Lemma read_indirect_stream : forall id meta contents post, clean_pairs meta ->
  ~ In (bs "Length") (map fst (meaning_pairs meta)) ->
  read_indirect (object_text id (stream_body meta contents) ++ post) =
  Some (id, 0, PDict (meaning_pairs meta ++ [(bs "Length", PInt (Z.of_N (lenN contents)))]),
        Some contents).
Proof.
  intros id meta contents post Hd HL. rewrite read_indirect_prefix. unfold stream_body.
  rewrite <- !app_assoc.
  set (d := linked_dict _ _).
  change (write_dict d) with (write_obj (ODictionary d)).
  assert (Hc : clean (ODictionary d)).
  { subst d. unfold linked_dict. change (clean (ODictionary ?x)) with (clean_pairs x).
    rewrite clean_pairs_eq. split; auto. constructor; [|constructor].
    split; [|exact I]. apply no_hash_clean. cbn. lia. }
  rewrite read_object_lf; auto.
  2:{ change (LF ++ ?x) with (10 :: x).
      apply (safe_tail_keyword (bs "stream")); try reflexivity; try discriminate.
      apply bs_regular_dec; reflexivity. }
  rewrite next_keyword; [|reflexivity|discriminate|reflexivity].
  change (bytes_eqb (bs "stream") (bs "endobj")) with false.
  rewrite (proj2 (bytes_eqb_eq (bs "stream") (bs "stream")) eq_refl). cbn iota.
  change (skip_stream_eol (LF ++ ?x)) with (Some x). cbn iota.
  change (meaning (ODictionary d)) with (PDict (meaning_pairs d)). cbn iota.
  assert (Em : meaning_pairs d = meaning_pairs meta ++ [(bs "Length", PInt (Z.of_N (lenN contents)))]).
  { subst d. reflexivity. }
  rewrite Em, lookup_key_app by auto.
  cbn [lookup_key]. rewrite (proj2 (bytes_eqb_eq (bs "Length") (bs "Length")) eq_refl). cbv zeta.
  assert (El : Z.to_nat (Z.of_N (lenN contents)) = length contents).
  { Transparent lenN. unfold lenN. Opaque lenN. lia. }
  rewrite El.
  destruct (Z.of_N (lenN contents) <? 0)%Z eqn:E1; [lia|].
  destruct (Nat.ltb _ (length contents)) eqn:E2.
  { rewrite app_length in E2. lia. }
  cbn [orb]. rewrite skipn_app_exact by auto.
  rewrite next_keyword; [|reflexivity|discriminate|reflexivity].
  rewrite next_keyword; [|reflexivity|discriminate|reflexivity].
  rewrite (proj2 (bytes_eqb_eq (bs "endstream") (bs "endstream")) eq_refl).
  rewrite (proj2 (bytes_eqb_eq (bs "endobj") (bs "endobj")) eq_refl). cbn [andb].
  rewrite firstn_app, firstn_all, Nat.sub_diag, firstn_O, app_nil_r. reflexivity.
Qed.

(** ** Histories of additions (C05, C07) *)
Inductive addition : Type :=
| AddDictionary (d : dictionary)
| AddStream (meta : dictionary) (contents : bytes).

Definition add (f : pdf_file) (a : addition) : pdf_file * N :=
  match a with
  | AddDictionary d => add_dictionary f d
  | AddStream meta contents => add_stream f meta contents
  end.

Fixpoint add_all (f : pdf_file) (l : list addition) : pdf_file * list N :=
  match l with
  | [] => (f, [])
  | a :: r => let (f1, id) := add f a in
              let (f2, ids) := add_all f1 r in (f2, id :: ids)
  end.

(** What an addition supplied, as a PDF value. *)
Definition addition_value (a : addition) : pval * option bytes :=
  match a with
  | AddDictionary d => (PDict (meaning_pairs d), None)
  | AddStream meta contents =>
      (PDict (meaning_pairs meta ++ [(bs "Length", PInt (Z.of_nat (length contents)))]), Some contents)
  end.

Definition clean_addition (a : addition) : Prop :=
  match a with
  | AddDictionary d => clean_pairs d
  | AddStream meta _ => clean_pairs meta /\ ~ In (bs "Length") (map fst (meaning_pairs meta))
  end.

Definition body_of (a : addition) : bytes :=
  match a with
  | AddDictionary d => write_dict d
  | AddStream meta contents => stream_body meta contents
  end.

Lemma add_spec : forall f a,
  add f a = (mkPdfFile (indirect_objects f ++ [body_of a]) (u32 (next_id f + 1)), next_id f).
Proof. intros f []; reflexivity. Qed.

Fixpoint ids_from (n : N) (k : nat) : list N :=
  match k with O => [] | S k => n :: ids_from (u32 (n + 1)) k end.

Lemma add_all_spec : forall l f,
  indirect_objects (fst (add_all f l)) = indirect_objects f ++ map body_of l /\
  snd (add_all f l) = ids_from (next_id f) (length l).
Proof.
  induction l as [|a r IH]; intro f.
  - cbn. rewrite app_nil_r. auto.
  - cbn [add_all]. rewrite add_spec.
    specialize (IH (mkPdfFile (indirect_objects f ++ [body_of a]) (u32 (next_id f + 1)))).
    destruct (add_all _ r) as [f2 ids]. cbn [fst snd indirect_objects next_id] in *.
    destruct IH as [-> ->]. cbn [map length ids_from]. rewrite <- app_assoc. auto.
Qed.

Lemma ids_from_nth : forall k n i, n + N.of_nat k <= 2 ^ 32 -> (i < k)%nat ->
  nth_error (ids_from n k) i = Some (n + N.of_nat i).
Proof.
  induction k as [|k IH]; intros n i H Hi; [lia|].
  destruct i as [|i]; cbn [ids_from nth_error].
  - f_equal. lia.
  - rewrite u32_small by lia. rewrite IH by lia. f_equal. lia.
Qed.

Lemma ids_from_length : forall k n, length (ids_from n k) = k.
Proof. induction k; intro; cbn; auto. Qed.

Lemma read_indirect_addition : forall a id post, clean_addition a ->
  read_indirect (object_text id (body_of a) ++ post) =
  let (v, s) := addition_value a in Some (id, 0, v, s).
Proof.
  intros [d|meta contents] id post H; cbn [body_of addition_value clean_addition] in *.
  - apply read_indirect_dict. auto.
  - destruct H as [H1 H2]. rewrite read_indirect_stream by auto.
    repeat f_equal. Transparent lenN. unfold lenN. Opaque lenN. lia.
Qed.

Lemma additions_denoted : forall adds b f ids, add_all pdf_new adds = (f, ids) ->
  Forall clean_addition adds -> lenN (pdf_write f b) < 2 ^ 32 ->
  NoDup ids /\ length ids = length adds /\
  forall i a, nth_error adds i = Some a ->
    exists id, nth_error ids i = Some id /\ id <> 0 /\ id <> PAGE_TREE_ID /\ id <> CATALOG_ID /\
      id <> INFO_ID /\ resolve (pdf_write f b) id = Some (addition_value a).
Proof.
  intros adds b f ids E Hc Hl.
  pose proof (add_all_spec adds pdf_new) as [S1 S2]. rewrite E in S1, S2. cbn [fst snd] in *.
  cbn [pdf_new indirect_objects next_id app] in S1, S2. unfold FIRST_AVAILABLE_ID in S2.
  pose proof (pdf_write_small f b Hl) as Hs.
  assert (Hn : 4 + N.of_nat (length adds) <= 2 ^ 32).
  { rewrite S1, lenN_map in Hs. Transparent lenN. unfold lenN in Hs. Opaque lenN. lia. }
  split; [|split].
  - apply NoDup_nth_error. intros i j Hi Hij. rewrite S2, ids_from_length in Hi.
    rewrite S2 in Hij. rewrite (ids_from_nth _ _ i) in Hij by lia.
    destruct (Nat.lt_ge_cases j (length adds)) as [Hj|Hj].
    + rewrite (ids_from_nth _ _ j) in Hij by lia. assert (4 + N.of_nat i = 4 + N.of_nat j) by congruence. lia.
    + rewrite (proj2 (nth_error_None _ j)) in Hij by (rewrite ids_from_length; lia). discriminate.
  - rewrite S2, ids_from_length. auto.
  - intros i a Ha. exists (4 + N.of_nat i).
    assert (Hi : (i < length adds)%nat) by (apply nth_error_Some; congruence).
    split; [rewrite S2; apply ids_from_nth; lia|].
    unfold PAGE_TREE_ID, CATALOG_ID, INFO_ID. do 4 (split; [lia|]).
    destruct (resolve_body f b (3 + i) (body_of a) Hl) as [post Hr].
    { unfold bodies. rewrite S1. cbn [app nth_error Nat.add]. rewrite nth_error_map, Ha. auto. }
    replace (1 + N.of_nat (3 + i)) with (4 + N.of_nat i) in Hr by lia.
    rewrite Hr, read_indirect_addition.
    + destruct (addition_value a). rewrite N.eqb_refl. auto.
    + rewrite Forall_forall in Hc. apply Hc. apply nth_error_In with i. auto.
Qed.

Lemma basic_objects_denoted : forall f b, lenN (pdf_write f b) < 2 ^ 32 ->
  clean_pairs (page_tree b) -> clean_pairs (catalog b) -> clean_pairs (info b) ->
  resolve (pdf_write f b) PAGE_TREE_ID = Some (PDict (meaning_pairs (page_tree b)), None) /\
  resolve (pdf_write f b) CATALOG_ID = Some (PDict (meaning_pairs (catalog b)), None) /\
  resolve (pdf_write f b) INFO_ID = Some (PDict (meaning_pairs (info b)), None).
Proof.
  intros f b H H1 H2 H3. split; [|split].
  - destruct (resolve_body f b 0 (write_dict (page_tree b)) H eq_refl) as [post Hr].
    change (1 + N.of_nat 0) with PAGE_TREE_ID in Hr. rewrite Hr, read_indirect_dict by auto. reflexivity.
  - destruct (resolve_body f b 1 (write_dict (catalog b)) H eq_refl) as [post Hr].
    change (1 + N.of_nat 1) with CATALOG_ID in Hr. rewrite Hr, read_indirect_dict by auto. reflexivity.
  - destruct (resolve_body f b 2 (write_dict (info b)) H eq_refl) as [post Hr].
    change (1 + N.of_nat 2) with INFO_ID in Hr. rewrite Hr, read_indirect_dict by auto. reflexivity.
Qed.

(** ** Offsets beyond 4 GiB (C08) *)
Lemma read_indirect_A : forall l, read_indirect (65 :: l) = None.
Proof.
  intro l. unfold read_indirect.
  assert (E : exists t r, next_token (65 :: l) = (65 :: t, r)).
  { unfold next_token. rewrite skip_ws_nonws by (reflexivity || discriminate).
    cbn [span_regular]. change (is_regular 65) with true. cbn iota.
    destruct (span_regular l). eauto. }
  destruct E as (t & r & ->). destruct (next_token r) as [t2 r2]. destruct (next_token r2) as [t3 r3].
  assert (token_number (65 :: t) = None) as -> by reflexivity. auto.
Qed.

Definition empty_basic : basic_objects := mkBasic (dict []) (dict []) (dict []).

Lemma large_file_broken : forall big,
  lenN big = 2 ^ 32 -> (forall k, (k < 20)%nat -> exists l, skipn k big = 65 :: l) ->
  let (f, ids) := add_all pdf_new [AddStream (dict []) big; AddDictionary (dict [])] in
  ids = [4; 5] /\ resolve (pdf_write f empty_basic) 5 = None /\
  (exists p, read_pdf (pdf_write f empty_basic) = Some p /\
     exists e pre post, nth_error (p_entries p) 5 = Some e /\ x_num e = 5 /\
       pdf_write f empty_basic = pre ++ object_text 5 (write_dict (dict [])) ++ post /\
       x_offset e + 2 ^ 32 = lenN pre).
Proof.
  intros big Hlen Hbig. cbn [add_all]. rewrite !add_spec. cbn [indirect_objects next_id pdf_new app].
  split; [reflexivity|].
  set (f := mkPdfFile _ _).
  assert (Hc : lenN (indirect_objects f) + 4 <= 2 ^ 32).
  { subst f. cbn [indirect_objects]. rewrite !lenN_cons, lenN_nil. lia. }
  set (objs := bodies f empty_basic).
  assert (Hobjs : objs = [write_dict (dict []); write_dict (dict []); write_dict (dict []);
                          stream_body (dict []) big; write_dict (dict [])]) by reflexivity.
  set (start := (pdf_header ++ objects_text 1 [write_dict (dict []); write_dict (dict []); write_dict (dict [])]) ++
                bs "4 0 obj" ++ LF ++ bs "<< /Length 4294967296 >>" ++ LF ++ bs "stream" ++ LF).
  set (middle := LF ++ bs "endstream" ++ LF ++ bs "endobj" ++ LF).
  set (xr := xref_part (map u32 (positions (lenN pdf_header) 1 objs)) (lenN objs + 1)
                       (lenN (pdf_header ++ objects_text 1 objs))).
  assert (Hd : write_dict (linked_dict (dict []) [(bs "Length", OUsize (lenN big))]) = bs "<< /Length 4294967296 >>").
  { rewrite Hlen. vm_compute. reflexivity. }
  assert (Hfile : pdf_write f empty_basic =
                  (start ++ big ++ middle) ++ object_text 5 (write_dict (dict [])) ++ xr).
  { rewrite pdf_write_layout by auto. fold objs. fold xr. rewrite Hobjs at 1.
    change [write_dict (dict []); write_dict (dict []); write_dict (dict []);
            stream_body (dict []) big; write_dict (dict [])] with
      ([write_dict (dict []); write_dict (dict []); write_dict (dict [])] ++
       [stream_body (dict []) big; write_dict (dict [])]).
    rewrite objects_text_app. unfold start.
    set (T := objects_text 1 [_; _; _]). clearbody T.
    change (1 + lenN _) with 4. cbn [objects_text].
    unfold middle, object_text, stream_body. rewrite Hd.
    change (itoa 4) with (bs "4"). change (4 + 1) with 5.
    change (bs "4 0 obj") with (bs "4" ++ bs " 0 obj").
    rewrite <- !app_assoc. reflexivity. }
  set (pos := lenN (start ++ big ++ middle)).
  assert (Hpos : nth_error (map u32 (positions (lenN pdf_header) 1 objs)) 4 = Some (u32 pos)).
  { destruct (positions_nth objs (lenN pdf_header) 1 4 (write_dict (dict [])) eq_refl) as (pre & post & E1 & E2).
    rewrite nth_error_map, E2. cbn [option_map]. f_equal. f_equal. subst pos.
    (* both positions precede the same suffix *)
    assert (Ep : positions (lenN pdf_header) 1 objs =
      positions (lenN pdf_header) 1 [write_dict (dict []); write_dict (dict []); write_dict (dict [])] ++
      positions (lenN (pdf_header ++ objects_text 1 [write_dict (dict []); write_dict (dict []); write_dict (dict [])]))
        4 [stream_body (dict []) big; write_dict (dict [])]).
    { rewrite Hobjs. 
      change [write_dict (dict []); write_dict (dict []); write_dict (dict []);
            stream_body (dict []) big; write_dict (dict [])] with
      ([write_dict (dict []); write_dict (dict []); write_dict (dict [])] ++
       [stream_body (dict []) big; write_dict (dict [])]).
      rewrite positions_app, lenN_app. reflexivity. }
    rewrite Ep in E2. cbn [positions app nth_error] in E2. injection E2 as E2. rewrite <- E2.
    unfold start, middle, object_text, stream_body. rewrite Hd. change (itoa 4) with (bs "4").
    change (bs "4 0 obj") with (bs "4" ++ bs " 0 obj"). rewrite !lenN_app.
    match goal with |- lenN ?h + _ = _ => change (lenN h) with 78 end.
    change (lenN pdf_header) with 15. change (lenN (objects_text 1 _)) with 63. lia. }
  assert (Hu : u32 pos + 2 ^ 32 = pos /\ u32 pos = lenN start + 18).
  { subst pos. rewrite !lenN_app, Hlen. change (lenN middle) with 18.
    assert (Hst : lenN start = 118) by (vm_compute; reflexivity). rewrite Hst.
    split; vm_compute; reflexivity. }
  destruct Hu as [Hu1 Hu2].
  split.
  - unfold resolve. rewrite read_pdf_written by auto. cbn [p_entries]. fold objs.
    unfold find_entry. cbn [find]. unfold free_entry at 1. cbn [x_num]. change (0 =? 5) with false. cbn iota.
    fold (find_entry 5 (entries_from 1 (map u32 (positions (lenN pdf_header) 1 objs)))).
    change 5 with (1 + N.of_nat 4) at 1.
    rewrite (find_entries_from _ 1 4 (u32 pos)) by auto.
    cbn [x_in_use x_offset]. rewrite Hu2, Hfile.
    assert (Hs : exists l, seek (lenN start + 18) ((start ++ big ++ middle) ++ object_text 5 (write_dict (dict [])) ++ xr) = 65 :: l).
    { rewrite <- !app_assoc. unfold seek.
      assert (EE : N.to_nat (lenN start + 18) = (length start + 18)%nat).
      { Transparent lenN. unfold lenN. Opaque lenN. lia. }
      rewrite EE. rewrite skipn_app.
      rewrite skipn_all2 by lia. replace (length start + 18 - length start)%nat with 18%nat by lia.
      cbn [app]. rewrite skipn_app. destruct (Hbig 18%nat ltac:(lia)) as [l Hl]. rewrite Hl. cbn [app]. eauto. }
    destruct Hs as [l ->]. rewrite read_indirect_A. auto.
  - rewrite read_pdf_written by auto. eexists. split; [reflexivity|]. cbn [p_entries]. fold objs.
    eexists. exists (start ++ big ++ middle), xr. split.
    { exact (entries_from_nth _ 1 4 _ Hpos). }
    cbn [x_num x_offset]. split; [reflexivity|]. split; auto.
Qed.

Lemma repeat_A : forall n k, (k < n)%nat -> exists l, skipn k (repeat 65 n) = 65 :: l.
Proof.
  induction n as [|n IH]; intros k H; [lia|]. destruct k as [|k]; cbn [repeat skipn]; [eauto|].
  apply IH. lia.
Qed.

Lemma large_file_exists : exists adds f ids,
  add_all pdf_new adds = (f, ids) /\ Forall clean_addition adds /\ nth_error ids 1 = Some 5 /\
  nth_error adds 1 = Some (AddDictionary (dict [])) /\
  resolve (pdf_write f empty_basic) 5 = None /\
  exists p e pre post, read_pdf (pdf_write f empty_basic) = Some p /\
     nth_error (p_entries p) 5 = Some e /\
     pdf_write f empty_basic = pre ++ object_text 5 (write_dict (dict [])) ++ post /\
     x_offset e + 2 ^ 32 = lenN pre.
Proof.
  assert (Hn : exists n, N.of_nat n = 2 ^ 32) by (exists (N.to_nat (2 ^ 32)); apply N2Nat.id).
  destruct Hn as [n Hn].
  assert (Hlen : lenN (repeat 65 n) = 2 ^ 32).
  { Transparent lenN. unfold lenN. Opaque lenN. rewrite repeat_length. auto. }
  pose proof (large_file_broken (repeat 65 n) Hlen) as L.
  exists [AddStream (dict []) (repeat 65 n); AddDictionary (dict [])].
  destruct (add_all pdf_new _) as [f ids]. destruct L as (L1 & L2 & p & L3 & e & pre & post & L4 & L5 & L6 & L7).
  { intros k Hk. apply repeat_A. lia. }
  exists f, ids. split; [auto|]. split.
  { constructor; [|constructor; [|constructor]]; cbn; auto. }
  subst ids. repeat (split; [auto|]). exists p, e, pre, post. auto.
Qed.
