(** What the model reads in the bytes of Vera.ttf. *)
From Coq Require Import Sorted QArith.
From Verif Require Import Base PdfObject PdfObjectSpec PdfConvert PdfConvertSpec FontParsing FontCmap FontSpec FontProofs FontCmapProofs
  FontSafetyProofs FontParseProofs FontProps VeraFile.
Local Open Scope N_scope.

Lemma low_bytes_wf : forall n x, wf_bytes (low_bytes n x).
Proof.
  induction n as [|n IH]; intros x; cbn [low_bytes]; constructor; [|apply IH]. unfold wf_byte.
  change 255 with (N.ones 8). rewrite N.land_ones. apply N.mod_lt. discriminate.
Qed.
Lemma unpack_wf : forall l n, wf_bytes (unpack_loop n l).
Proof.
  induction l as [|x l IH]; intros n; cbn [unpack_loop]; [constructor|]. apply Forall_app. split; [apply low_bytes_wf|apply IH].
Qed.
Lemma vera_wf : wf_bytes vera_ttf.
Proof. apply unpack_wf. Qed.
Lemma vera_length : length_N vera_ttf = 65932.
Proof. vm_compute. reflexivity. Qed.
Lemma short_addressable : forall f n, length_N f = n -> n < 2 ^ 32 -> addressable f.
Proof. intros f n H L. unfold addressable. unfold length_N in H. rewrite H. exact L. Qed.
Lemma vera_addressable : addressable vera_ttf.
Proof. apply (short_addressable _ _ vera_length). reflexivity. Qed.
Lemma u16_at_some : forall f p, p + 2 <= length_N f -> exists v, u16_at f p = Some v.
Proof.
  intros f p H. destruct (byte_at_some f p ltac:(lia)) as [a A]. destruct (byte_at_some f (p + 1) ltac:(lia)) as [b B].
  unfold u16_at. rewrite A, B. eauto.
Qed.

(** The bytes of its character map, taken out so that reading them does not start at the first byte of the file *)
Definition vera_tail : bytes := Eval vm_compute in firstn 574 (skipn (N.to_nat 45702) vera_ttf).
Lemma vera_tail_ok : firstn 574 (skipn (N.to_nat 45702) vera_ttf) = vera_tail.
Proof. vm_compute. reflexivity. Qed.
Lemma nth_error_in_middle : forall (A : Type) (l : list A) k n i, (i < n)%nat -> nth_error l (k + i) = nth_error (firstn n (skipn k l)) i.
Proof.
  intros A l k n i H. revert l. induction k as [|k IH]; intros l.
  - cbn [Nat.add skipn]. revert l i H. induction n as [|n IHn]; intros l i H; [lia|]. destruct l as [|a l]; [destruct i; reflexivity|].
    destruct i as [|i]; [reflexivity|]. cbn [firstn nth_error]. apply IHn. lia.
  - destruct l as [|a l]; [cbn [skipn firstn]; rewrite firstn_nil; destruct i; reflexivity|]. cbn [Nat.add nth_error skipn]. apply IH.
Qed.
Lemma tail_byte : forall p, p < 574 -> byte_at vera_ttf (45702 + p) = byte_at vera_tail p.
Proof.
  intros p H. rewrite <- vera_tail_ok. unfold byte_at. rewrite N2Nat.inj_add. apply nth_error_in_middle. lia.
Qed.
Lemma tail_u16 : forall p, p + 2 <= 574 -> u16_at vera_ttf (45702 + p) = u16_at vera_tail p.
Proof. intros p H. unfold u16_at. rewrite <- N.add_assoc, !tail_byte by lia. reflexivity. Qed.
Definition moved (s : segment) : segment :=
  mkSeg (seg_start s) (seg_end s) (seg_delta s) (seg_range_offset s) (45702 + seg_range_offset_address s).
Lemma tail_segment : forall i, i < 29 -> segment_at vera_ttf 45702 29 i = option_map moved (segment_at vera_tail 0 29 i).
Proof.
  intros i H. unfold segment_at. cbv zeta.
  replace (45702 + 14 + 0 + 2 * i) with (45702 + (0 + 14 + 0 + 2 * i)) by lia.
  replace (45702 + 14 + (2 * 29 + 2) + 2 * i) with (45702 + (0 + 14 + (2 * 29 + 2) + 2 * i)) by lia.
  replace (45702 + 14 + (4 * 29 + 2) + 2 * i) with (45702 + (0 + 14 + (4 * 29 + 2) + 2 * i)) by lia.
  replace (45702 + 14 + (6 * 29 + 2) + 2 * i) with (45702 + (0 + 14 + (6 * 29 + 2) + 2 * i)) by lia.
  rewrite !tail_u16 by lia.
  destruct (u16_at vera_tail (0 + 14 + 0 + 2 * i)), (u16_at vera_tail (0 + 14 + (2 * 29 + 2) + 2 * i)),
    (u16_at vera_tail (0 + 14 + (4 * 29 + 2) + 2 * i)), (u16_at vera_tail (0 + 14 + (6 * 29 + 2) + 2 * i)); reflexivity.
Qed.

(** The segments of its character map, of format 4 *)
Definition vera_segments : list segment :=
  [mkSeg 32 126 65507 0 45892; mkSeg 160 255 0 56 45894;
   mkSeg 262 263 65525 0 45896; mkSeg 268 273 0 244 45898;
   mkSeg 286 287 65496 0 45900; mkSeg 304 305 0 252 45902;
   mkSeg 321 322 65440 0 45904; mkSeg 338 339 65374 0 45906;
   mkSeg 350 353 0 250 45908; mkSeg 376 376 65347 0 45910;
   mkSeg 381 382 65384 0 45912; mkSeg 402 402 65300 0 45914;
   mkSeg 710 711 0 250 45916; mkSeg 728 733 0 252 45918;
   mkSeg 937 937 64758 0 45920; mkSeg 960 960 64731 0 45922;
   mkSeg 8211 8230 0 258 45924; mkSeg 8240 8240 57494 0 45926;
   mkSeg 8249 8250 57477 0 45928; mkSeg 8364 8364 57430 0 45930;
   mkSeg 8482 8482 57194 0 45932; mkSeg 8706 8710 0 288 45934;
   mkSeg 8719 8734 0 296 45936; mkSeg 8747 8747 56945 0 45938;
   mkSeg 8776 8776 56927 0 45940; mkSeg 8800 8805 0 322 45942;
   mkSeg 9674 9674 56047 0 45944; mkSeg 64257 64258 1471 0 45946;
   mkSeg 65535 65535 1 0 45948].
Lemma vera_map_segments : segments vera_ttf 45702 = Some vera_segments.
Proof.
  unfold segments. rewrite tail_u16 by lia. assert (E : u16_at vera_tail 6 = Some 58) by (vm_compute; reflexivity). rewrite E.
  change (58 / 2) with 29.
  assert (M : map (segment_at vera_ttf 45702 29) (indices 29) = map (fun i => option_map moved (segment_at vera_tail 0 29 i)) (indices 29)).
  { apply map_ext_in. intros i Hi. apply tail_segment. unfold indices in Hi. apply in_map_iff in Hi as (k & <- & Hk). apply in_seq in Hk. lia. }
  rewrite M. vm_compute. reflexivity.
Qed.
(** The same, in those bytes *)
Definition tail_segments : list segment :=
  map (fun s => mkSeg (seg_start s) (seg_end s) (seg_delta s) (seg_range_offset s) (seg_range_offset_address s - 45702)) vera_segments.
Lemma tail_segments_moved : map moved tail_segments = vera_segments.
Proof. vm_compute. reflexivity. Qed.
Definition in_tail (s : segment) : bool :=
  (seg_range_offset s =? 0) || (seg_range_offset_address s + seg_range_offset s + 2 * (seg_end s - seg_start s) + 2 <=? 574).
Lemma tail_segments_in : forallb in_tail tail_segments = true.
Proof. vm_compute. reflexivity. Qed.
Lemma tail_glyph : forall s c, In s tail_segments -> c <= seg_end s -> segment_glyph vera_ttf (moved s) c = segment_glyph vera_tail s c.
Proof.
  intros s c Hs Hc. pose proof tail_segments_in as T. rewrite forallb_forall in T. specialize (T s Hs). unfold in_tail in T.
  unfold segment_glyph, moved. cbn [seg_range_offset seg_delta seg_range_offset_address seg_start].
  destruct (seg_range_offset s =? 0); [reflexivity|]. cbn [orb] in T. apply N.leb_le in T.
  rewrite <- !N.add_assoc, tail_u16 by lia. rewrite !N.add_assoc. reflexivity.
Qed.
Lemma tail_lookup : forall c, lookup4 vera_ttf vera_segments c = lookup4 vera_tail tail_segments c.
Proof.
  intros c. rewrite <- tail_segments_moved. unfold lookup4.
  assert (F : forall l, find (fun s => c <=? seg_end s) (map moved l) = option_map moved (find (fun s => c <=? seg_end s) l)).
  { induction l as [|s l IH]; [reflexivity|]. cbn [map find]. change (seg_end (moved s)) with (seg_end s). destruct (c <=? seg_end s); [reflexivity|exact IH]. }
  rewrite F. destruct (find _ tail_segments) as [s|] eqn:E; [|reflexivity]. cbn [option_map]. change (seg_start (moved s)) with (seg_start s).
  destruct (find_some _ _ E) as [Hs He]. apply N.leb_le in He. destruct (seg_start s <=? c); [|reflexivity]. apply tail_glyph; assumption.
Qed.
Definition before (a b : segment) : bool := seg_end a <? seg_start b.
Fixpoint sorted_segments (l : list segment) : bool :=
  match l with
  | [] => true
  | a :: r => forallb (before a) r && sorted_segments r
  end.
Lemma sorted_segments_ok : forall l, sorted_segments l = true -> StronglySorted (fun a b => seg_end a < seg_start b) l.
Proof.
  induction l as [|a l IH]; intros H; [constructor|]. cbn [sorted_segments] in H. apply andb_true_iff in H as [H1 H2].
  constructor; [apply IH; exact H2|]. rewrite forallb_forall in H1. apply Forall_forall. intros b Hb. apply N.ltb_lt. exact (H1 b Hb).
Qed.
Definition inside (s : segment) : bool :=
  (seg_start s <=? seg_end s) &&
  ((seg_range_offset s =? 0) ||
   (seg_range_offset_address s + seg_range_offset s + 2 * (seg_end s - seg_start s) + 2 <=? 65932)).
Lemma vera_well_formed : well_formed4 vera_ttf 45702 vera_segments.
Proof.
  assert (I : forallb inside vera_segments = true) by (vm_compute; reflexivity). rewrite forallb_forall in I.
  split; [exact vera_map_segments|]. split; [discriminate|]. split; [|split].
  - apply Forall_forall. intros s Hs. specialize (I s Hs). apply andb_true_iff in I as [I _]. apply N.leb_le. exact I.
  - apply sorted_segments_ok. vm_compute. reflexivity.
  - apply Forall_forall. intros s Hs c Hc. specialize (I s Hs). apply andb_true_iff in I as [_ I].
    unfold segment_glyph. destruct (seg_range_offset s =? 0); [discriminate|]. cbn [orb] in I. apply N.leb_le in I.
    edestruct (u16_at_some vera_ttf (seg_range_offset_address s + seg_range_offset s + 2 * (c - seg_start s))) as [v V].
    { rewrite vera_length. lia. }
    rewrite V. discriminate.
Qed.
(** No glyph is outside the font. *)
Definition codes (s : segment) : list N := map (fun i => seg_start s + N.of_nat i) (seq 0 (N.to_nat (seg_end s + 1 - seg_start s))).
Lemma codes_in : forall s c, seg_start s <= c <= seg_end s -> In c (codes s).
Proof.
  intros s c H. apply in_map_iff. exists (N.to_nat (c - seg_start s)). split; [lia|]. apply in_seq. lia.
Qed.
(** The characters that have a glyph *)
Definition glyph_pairs : list (N * N) :=
  flat_map (fun s => flat_map (fun c => match segment_glyph vera_tail s c with Some (Npos g) => [(c, Npos g)] | _ => [] end) (codes s)) tail_segments.
Lemma glyph_pairs_in : forall c g, lookup4 vera_ttf vera_segments c = Some g -> g <> 0 -> In (c, g) glyph_pairs.
Proof.
  intros c g H Hz. rewrite tail_lookup in H. unfold lookup4 in H. destruct (find _ _) as [s|] eqn:F; [|congruence].
  destruct (find_some _ _ F) as [Hs He]. apply N.leb_le in He. destruct (N.leb_spec (seg_start s) c) as [L|L]; [|congruence].
  apply in_flat_map. exists s. split; [exact Hs|]. apply in_flat_map. exists c. split; [exact (codes_in s c (conj L He))|].
  rewrite H. destruct g as [|g]; [congruence|]. left. reflexivity.
Qed.
(** No glyph is outside the font, and no glyph is for two characters. *)
Fixpoint distinct_glyphs (l : list (N * N)) : bool :=
  match l with
  | [] => true
  | (_, g) :: r => forallb (fun p => negb (snd p =? g)) r && distinct_glyphs r
  end.
Lemma distinct_glyphs_ok : forall l a b g, distinct_glyphs l = true -> In (a, g) l -> In (b, g) l -> a = b.
Proof.
  induction l as [|[c x] l IH]; intros a b g D Ha Hb; [destruct Ha|]. cbn [distinct_glyphs] in D. apply andb_true_iff in D as [D1 D2].
  rewrite forallb_forall in D1.
  destruct Ha as [Ha|Ha], Hb as [Hb|Hb].
  - congruence.
  - injection Ha as -> ->. specialize (D1 _ Hb). cbn [snd] in D1. rewrite N.eqb_refl in D1. discriminate D1.
  - injection Hb as -> ->. specialize (D1 _ Ha). cbn [snd] in D1. rewrite N.eqb_refl in D1. discriminate D1.
  - exact (IH a b g D2 Ha Hb).
Qed.
Definition looked_up (p : N * N) : bool :=
  ((fst p <? 55296) || (57344 <=? fst p) && (fst p <? 65536)) && negb (snd p =? 0) &&
  match lookup4 vera_tail tail_segments (fst p) with Some g => snd p =? g | None => false end && (snd p <? 268).
Lemma glyph_pairs_checked : (distinct_glyphs glyph_pairs && forallb looked_up glyph_pairs, length glyph_pairs) = (true, 256%nat).
Proof. vm_compute. reflexivity. Qed.
Lemma vera_one_to_one : forall c c' g, lookup4 vera_ttf vera_segments c = Some g -> lookup4 vera_ttf vera_segments c' = Some g -> g <> 0 -> c = c'.
Proof.
  intros c c' g H H' Hz. pose proof glyph_pairs_checked as K. apply pair_equal_spec in K as [K _]. apply andb_true_iff in K as [K _].
  exact (distinct_glyphs_ok _ c c' g K (glyph_pairs_in c g H Hz) (glyph_pairs_in c' g H' Hz)).
Qed.
Lemma glyph_pairs_lookup : forall c g, In (c, g) glyph_pairs -> scalar c /\ g <> 0 /\ lookup4 vera_ttf vera_segments c = Some g.
Proof.
  intros c g H. pose proof glyph_pairs_checked as K. apply pair_equal_spec in K as [K _]. apply andb_true_iff in K as [_ K].
  rewrite forallb_forall in K. specialize (K _ H). unfold looked_up in K. cbn [fst snd] in K.
  apply andb_true_iff in K as [K _]. apply andb_true_iff in K as [K K3]. apply andb_true_iff in K as [K1 K2]. rewrite tail_lookup. apply negb_true_iff, N.eqb_neq in K2.
  split; [|split; [exact K2|]].
  - rewrite orb_true_iff, andb_true_iff, !N.ltb_lt, N.leb_le in K1. unfold scalar. lia.
  - destruct (lookup4 vera_tail tail_segments c) as [g'|]; [|discriminate K3]. apply N.eqb_eq in K3. congruence.
Qed.
Lemma vera_lookup_bound : forall c g, lookup4 vera_ttf vera_segments c = Some g -> g < 268.
Proof.
  intros c g H. destruct (N.eq_dec g 0) as [->|Hz]; [reflexivity|]. pose proof glyph_pairs_checked as K. apply pair_equal_spec in K as [K _].
  apply andb_true_iff in K as [_ K]. rewrite forallb_forall in K. specialize (K _ (glyph_pairs_in c g H Hz)). unfold looked_up in K.
  apply andb_true_iff in K as [_ K]. apply N.ltb_lt. exact K.
Qed.
Lemma vera_ascii : forall c, 32 <= c <= 126 -> lookup4 vera_ttf vera_segments c = Some (c - 29).
Proof.
  intros c H. unfold lookup4, vera_segments. cbn [find seg_end]. destruct (N.leb_spec c 126); [|lia]. cbn [seg_start].
  destruct (N.leb_spec 32 c); [|lia]. unfold segment_glyph. cbn [seg_range_offset seg_delta]. cbn [N.eqb]. f_equal.
  replace (c + 65507) with (c - 29 + 1 * 65536) by lia. rewrite N.mod_add by discriminate. apply N.mod_small. lia.
Qed.

(** The rest of what is parsed *)
Definition parsed_as_vera (pf : parsed_font) : Prop :=
  pf_cmap pf = Format4 (table4 45702 vera_segments) /\ pf_metrics pf = mkSlice 46276 268 4 /\
  pf_units_per_em pf = 2048 /\ pf_glyph_count pf = 268 /\ pf_name pf = bs "BitstreamVeraSans-Roman" /\
  (pf_ascender pf, pf_descender pf) = (1901, -483)%Z /\
  (pf_min_x pf, pf_min_y pf, pf_max_x pf, pf_max_y pf) = (-375, -483, 2636, 1901)%Z.
Lemma vera_debug : match parse_font Debug vera_ttf with Ok pf => parsed_as_vera pf | _ => False end.
Proof. vm_compute. repeat split. Qed.
Lemma parse_font_bytes : forall m f pf, parse_font m f = Ok pf -> pf_bytes pf = f.
Proof.
  intros m f pf H. unfold parse_font in H.
  repeat match type of H with
         | bind ?x _ = _ => destruct x; cbn [bind] in H; try discriminate H
         | (if ?b then _ else _) = _ => destruct b; try discriminate H
         | (let _ := _ in _) = _ => cbv zeta in H
         end.
  injection H as <-. reflexivity.
Qed.
Lemma vera_parsed : forall m, exists pf, parse_font m vera_ttf = Ok pf /\ pf_bytes pf = vera_ttf /\ parsed_as_vera pf.
Proof.
  assert (D : exists pf, parse_font Debug vera_ttf = Ok pf /\ parsed_as_vera pf).
  { pose proof vera_debug as V. destruct (parse_font Debug vera_ttf) as [pf|e|]; [|contradiction|contradiction]. eauto. }
  destruct D as (pf & E & V). intros m. exists pf.
  assert (Em : parse_font m vera_ttf = Ok pf).
  { destruct m; [exact E|]. destruct (proj1 C36_debug_agrees vera_ttf) as [P|P]; congruence. }
  split; [exact Em|]. split; [exact (parse_font_bytes _ _ _ Em)|exact V].
Qed.
Section Vera.
Variable m : build.
Variable pf : parsed_font.
Hypothesis Hb : pf_bytes pf = vera_ttf.
Hypothesis Hv : parsed_as_vera pf.
Lemma vera_glyph_id : forall c, exists g, lookup4 vera_ttf vera_segments c = Some g /\ g < 268 /\ glyph_id m pf c = Ok g.
Proof.
  intros c. destruct (format4_get_ok m vera_ttf 45702 vera_segments vera_well_formed vera_addressable vera_wf c) as (g & L & G).
  exists g. split; [exact L|]. split; [exact (vera_lookup_bound _ _ L)|]. destruct Hv as (Hc & _). unfold glyph_id. rewrite Hc, Hb, G. cbn [bind].
  unfold nonzero. destruct (N.eqb_spec g 0) as [->|]; reflexivity.
Qed.
Lemma vera_glyph_width : forall g, exists w, u16_at vera_ttf (46276 + 4 * N.min g 267) = Some w /\ glyph_width m pf g = Ok (to_ems pf (Z.of_N w)).
Proof.
  intros g. destruct Hv as (_ & Hm & _). destruct (advance_width_ok m pf 46276 268 g) as (_ & W & _); [rewrite Hb; exact vera_addressable|exact Hm|].
  destruct (u16_at_some vera_ttf (46276 + 4 * N.min g 267)) as [w E]; [rewrite vera_length; lia|].
  exists w. split; [exact E|]. unfold glyph_width. rewrite (W ltac:(discriminate) w); [reflexivity|]. rewrite Hb. exact E.
Qed.
Lemma vera_code_points : exists calls, each_code_point m pf = Ok calls /\ StronglySorted N.lt (map fst calls) /\
  forall c g, In (c, g) calls <-> scalar c /\ g <> 0 /\ glyph_id m pf c = Ok g.
Proof.
  destruct Hv as (Hc & _).
  destruct (C18_format4_enumeration m pf 45702 vera_segments (table4 45702 vera_segments)) as (calls & E & S & I & _).
  1-3: rewrite Hb; auto using vera_wf, vera_addressable, vera_well_formed.
  - rewrite Hb. apply format4_parse_ok; auto using vera_wf, vera_addressable, vera_well_formed.
  - exact Hc.
  - exists calls. auto.
Qed.
Lemma vera_embeddable : forall addr, embeddable (pdf_font m addr pf) = true.
Proof.
  intros addr. unfold embeddable. cbn [pdf_font f_code_points_result f_glyph_width f_glyph_count].
  destruct vera_code_points as (calls & E & _). rewrite E. cbn [andb]. apply forallb_forall. intros i _.
  destruct (vera_glyph_width (N.of_nat i)) as (w & _ & W). rewrite W. reflexivity.
Qed.
Lemma vera_clean_name : clean_name (pf_name pf).
Proof.
  destruct Hv as (_ & _ & _ & _ & -> & _). split; [repeat constructor|]. intros (a & h1 & h2 & b & E & _).
  assert (I : In 35 (bs "BitstreamVeraSans-Roman")) by (rewrite E; apply in_or_app; right; left; reflexivity).
  cbn in I. intuition discriminate.
Qed.
End Vera.
