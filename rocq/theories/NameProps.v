(** C84: the PostScript name of a font *)
From Coq Require Import Lia.
From Verif Require Import Base PdfConvert FontParsing FontCmap FontSpec FontProofs FontSafetyProofs FontProps NameSpec NameProofs.
Local Open Scope N_scope.
Local Open Scope res_scope.

(** ** Which name is taken, and how it is read *)
Theorem C84_name : forall m f d table l, wf_bytes f -> addressable f -> directory f = Some d -> tags_sorted d ->
  In (bs "name", table) d -> table + 2 ^ 20 < 2 ^ 32 -> names f table = Some l ->
  let r := read_postscript_name m f (mkSlice 12 (N.of_nat (length d)) 16) in
  (find postscript_name l = None -> r = Err NoSupportedPostscriptName) /\
  (forall n, find postscript_name l = Some n -> forall s, characters f n = Some s ->
     exists cs out, name_read_as n s cs /\ utf8_text cs out /\ r = Ok out) /\
  (forall n, find postscript_name l = Some n -> characters f n = None -> r = Err OffsetBeyondEof \/ r = Err OffsetPlusLengthBeyondEof).
Proof.
  intros m f d table l W A D T I L N r. destruct (read_name m f table W A L d l D I T N) as (x & (O1 & O2 & O3) & E). unfold dir_of in E. fold r in E. split; [|split].
  - intros F. rewrite E, (O1 F). reflexivity.
  - intros n F s S. destruct (O2 n F s S) as (cs & out & C & U & X). exists cs, out. rewrite E, X. auto.
  - intros n F S. destruct (O3 n F S) as (e & [->| ->] & X); rewrite E, X; auto.
Qed.
Print Assumptions C84_name.
(** So for every font that is accepted *)
Theorem C84_font : forall m f d pf, wf_bytes f -> addressable f -> directory f = Some d -> tags_sorted d ->
  (forall tag off, In (tag, off) d -> off + 2 ^ 20 < 2 ^ 32) -> parse_font m f = Ok pf ->
  exists table, In (bs "name", table) d /\
    forall l, names f table = Some l -> exists n s cs, find postscript_name l = Some n /\ characters f n = Some s /\ name_read_as n s cs /\ utf8_text cs (pf_name pf).
Proof.
  intros m f d pf W A D T L H.
  assert (U : u16_at f 4 = Some (N.of_nat (length d))).
  { unfold directory in D. destruct (u16_at f 4) as [n|]; [|discriminate]. f_equal. destruct (all_indices _ _ _ _ D) as (X & _). auto. }
  unfold parse_font in H. inv_bind H. destruct (_ && _); [discriminate|]. inv_bind H.
  match goal with H : followed_by _ _ _ = Ok ?x |- _ => unfold followed_by, offset_bytes, add32 in H; rewrite exact_ok in H by reflexivity; assert (x = 12) as -> by (injection H as <-; reflexivity) end.
  match goal with H : field_u16 _ OffsetSubtable _ _ _ = Ok ?x |- _ => apply (FontParseProofs.field_u16_inv m OffsetSubtable "table_count" f 0 4) in H; [|reflexivity|reflexivity]; change (0 + 4) with 4 in H; assert (x = N.of_nat (length d)) as -> by congruence end.
  change (size_of TableDirectoryEntry) with 16 in *.
  injection H as <-. cbn [pf_name].
  match goal with H : read_postscript_name _ _ _ = Ok ?x |- _ => rename H into R; set (out := x) in * end.
  assert (F : exists table, find_table m (mkSlice 12 (N.of_nat (length d)) 16) f (bs "name") = Ok table).
  { unfold read_postscript_name in R. destruct (find_table _ _ _ (bs "name")); cbn [bind] in R; try discriminate. eauto. }
  destruct F as [table F]. exists table.
  assert (I : In (bs "name", table) d).
  { destruct (C15_find_table m f d (N.of_nat (length d)) (bs "name") W D T U) as [F1 _]. apply F1. exact F. }
  split; [exact I|]. intros l Hl.
  destruct (C84_name m f d table l W A D T I (L _ _ I) Hl) as (O1 & O2 & O3).
  destruct (find postscript_name l) as [n|]; [|rewrite R in O1; discriminate (O1 eq_refl)].
  destruct (characters f n) as [s|] eqn:S.
  - destruct (O2 n eq_refl s S) as (cs & o & C & X & Y). rewrite R in Y. injection Y as <-. exists n, s, cs. auto.
  - destruct (O3 n eq_refl S) as [Y|Y]; rewrite R in Y; discriminate.
Qed.
Print Assumptions C84_font.
(** There is one way to read bytes. *)
Theorem C84_unique : forall s cs cs', read_as s cs -> read_as s cs' -> cs = cs'.
Proof. exact read_as_unique. Qed.
Print Assumptions C84_unique.
(** Bytes that are UTF-8 are read as the characters they are, and stay as they are; ASCII names are of this kind. *)
Lemma text_read : forall cs s, utf8_text cs s -> read_as s cs.
Proof. intros cs s H. induction H; constructor; assumption. Qed.
Lemma text_unique : forall cs s s', utf8_text cs s -> utf8_text cs s' -> s = s'.
Proof.
  assert (One : forall c e e', utf8_of c e -> utf8_of c e' -> e = e').
  { intros c e e' H H'. remember c as c' eqn:E in H'. destruct H; destruct H'; try lia; repeat (f_equal; try lia). }
  intros cs s s' H. revert s'. induction H as [|c e cs l U H IH]; intros s' H'; inversion H' as [|c' e' cs' l' U' H1]; subst; [reflexivity|].
  rewrite (One _ _ _ U U'). f_equal. apply IH. assumption.
Qed.
Theorem C84_utf8 : forall cs s, utf8_text cs s -> decode_macintosh s = s.
Proof.
  intros cs s H. destruct (lossy_read (length s) s (Nat.le_refl _)) as (cs' & R & T). rewrite <- (read_as_unique _ _ _ (text_read _ _ H) R) in T.
  exact (text_unique _ _ _ T H).
Qed.
Print Assumptions C84_utf8.
Theorem C84_ascii : forall s, Forall (fun b => b < 128) s ->
  decode_macintosh s = s /\ decode_ucs2 (flat_map (fun b => [0; b]) s) = s.
Proof.
  intros s F. split.
  - apply (C84_utf8 s). induction F as [|b s H F IH]; [constructor|]. change (b :: s) with ([b] ++ s) at 2. constructor; [constructor; exact H|exact IH].
  - induction F as [|b s H F IH]; [reflexivity|]. cbn [flat_map app decode_ucs2]. rewrite IH. change (0 =? 0) with true. cbv iota. unfold utf8.
    destruct (N.ltb_spec b 128); [reflexivity|lia].
Qed.
Print Assumptions C84_ascii.

(** ** Examples *)
Example C84_name_meets : exists d table l n s, wf_bytes font_bmp /\ addressable font_bmp /\ directory font_bmp = Some d /\ tags_sorted d /\
  In (bs "name", table) d /\ table + 2 ^ 20 < 2 ^ 32 /\ names font_bmp table = Some l /\ find postscript_name l = Some n /\
  characters font_bmp n = Some s /\ s = bs "Demo" /\ exists pf, parse_font Release font_bmp = Ok pf /\ pf_name pf = s.
Proof.
  eexists. exists 292. eexists. eexists. eexists. split; [apply bytes_ok; vm_compute; reflexivity|]. split; [reflexivity|]. split; [vm_compute; reflexivity|].
  split; [unfold tags_sorted; cbn [map fst]; repeat first [apply Sorted.SSorted_nil|apply Sorted.SSorted_cons|apply Forall_nil|apply Forall_cons|apply lt_end|apply lt_head; reflexivity|apply lt_tail]|]. split; [vm_compute; tauto|]. split; [reflexivity|]. split; [vm_compute; reflexivity|].
  split; [vm_compute; reflexivity|]. split; [vm_compute; reflexivity|]. split; [vm_compute; reflexivity|].
  eexists. split; vm_compute; reflexivity.
Qed.
(** An overlong slash, a euro sign that ends early, a surrogate and a line break *)
Example C84_bad : decode_macintosh [192; 175; 226; 130; 65; 237; 160; 128; 10] =
  flat_map utf8 [65533; 65533; 65533; 65; 65533; 65533; 65533; 10].
Proof. reflexivity. Qed.
Example C84_utf8_meets : utf8_text [8364; 65] [226; 130; 172; 65] /\ decode_macintosh [226; 130; 172; 65] = [226; 130; 172; 65].
Proof.
  assert (T : utf8_text [8364; 65] [226; 130; 172; 65]).
  { change [226; 130; 172; 65] with ([224 + 2; 128 + 2; 128 + 44] ++ [65] ++ []). change 8364 with (4096 * 2 + 64 * 2 + 44). repeat constructor; lia. }
  split; [exact T|]. exact (C84_utf8 _ _ T).
Qed.
