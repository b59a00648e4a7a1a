(** Properties C13-C20, C36, C37: reading OpenType fonts.  The offsets, lookups and
    orderings on the specification side are in [FontSpec]. *)
From Coq Require Import Sorted QArith Qabs.
From Verif Require Import Base PdfObject PdfConvert FontParsing FontCmap FontSpec FontProofs FontCmapProofs
  FontSafetyProofs FontParseProofs.
Local Open Scope N_scope.
Local Open Scope res_scope.

(** ** Example files: six tables, unitsPerEm 1000, three horizontal metrics (500, 600, 731), six
    glyphs.  [font_bmp]: encoding records (0,3) and (3,1), a format 4 subtable.  [font_full]:
    (3,1) format 4 and (3,10) format 12.  [font_single]: only (3,1) format 4.  [font_wide]: a
    format 12 group with glyph 65536.  [font_hostile]: [font_bmp] with offset 0xffffffff for
    "head". *)
Definition font_bmp : bytes :=
  [ 0; 1; 0; 0; 0; 6; 0; 0; 0; 0; 0; 0; 99; 109; 97; 112; 0; 0; 0; 0; 0; 0; 0; 108;
    0; 0; 0; 64; 104; 101; 97; 100; 0; 0; 0; 0; 0; 0; 0; 172; 0; 0; 0; 56; 104; 104; 101; 97;
    0; 0; 0; 0; 0; 0; 0; 228; 0; 0; 0; 36; 104; 109; 116; 120; 0; 0; 0; 0; 0; 0; 1; 8;
    0; 0; 0; 18; 109; 97; 120; 112; 0; 0; 0; 0; 0; 0; 1; 28; 0; 0; 0; 8; 110; 97; 109; 101;
    0; 0; 0; 0; 0; 0; 1; 36; 0; 0; 0; 22; 0; 0; 0; 2; 0; 0; 0; 3; 0; 0; 0; 20;
    0; 3; 0; 1; 0; 0; 0; 20; 0; 4; 0; 44; 0; 0; 0; 6; 0; 0; 0; 0; 0; 0; 0; 67;
    0; 98; 255; 255; 0; 0; 0; 65; 0; 97; 255; 255; 255; 192; 0; 0; 0; 1; 0; 0; 0; 4; 0; 0;
    0; 5; 0; 0; 0; 1; 0; 0; 0; 0; 0; 0; 0; 0; 0; 0; 95; 15; 60; 245; 0; 0; 3; 232;
    0; 0; 0; 0; 0; 0; 0; 0; 0; 0; 0; 0; 0; 0; 0; 0; 255; 206; 255; 56; 3; 132; 3; 32;
    0; 0; 0; 8; 0; 2; 0; 0; 0; 0; 0; 0; 0; 1; 0; 0; 3; 32; 255; 56; 0; 0; 3; 132;
    0; 0; 0; 0; 0; 0; 0; 1; 0; 0; 0; 0; 0; 0; 0; 0; 0; 0; 0; 0; 0; 0; 0; 3;
    1; 244; 0; 0; 2; 88; 0; 10; 2; 219; 0; 5; 0; 1; 0; 2; 0; 3; 0; 0; 0; 1; 0; 0;
    0; 6; 0; 0; 0; 0; 0; 1; 0; 18; 0; 1; 0; 0; 0; 0; 0; 6; 0; 4; 0; 0; 68; 101;
    109; 111; 0; 0 ].
Definition font_full : bytes :=
  [ 0; 1; 0; 0; 0; 6; 0; 0; 0; 0; 0; 0; 99; 109; 97; 112; 0; 0; 0; 0; 0; 0; 0; 108;
    0; 0; 0; 104; 104; 101; 97; 100; 0; 0; 0; 0; 0; 0; 0; 212; 0; 0; 0; 56; 104; 104; 101; 97;
    0; 0; 0; 0; 0; 0; 1; 12; 0; 0; 0; 36; 104; 109; 116; 120; 0; 0; 0; 0; 0; 0; 1; 48;
    0; 0; 0; 18; 109; 97; 120; 112; 0; 0; 0; 0; 0; 0; 1; 68; 0; 0; 0; 8; 110; 97; 109; 101;
    0; 0; 0; 0; 0; 0; 1; 76; 0; 0; 0; 22; 0; 0; 0; 2; 0; 3; 0; 1; 0; 0; 0; 20;
    0; 3; 0; 10; 0; 0; 0; 64; 0; 4; 0; 44; 0; 0; 0; 6; 0; 0; 0; 0; 0; 0; 0; 67;
    0; 98; 255; 255; 0; 0; 0; 65; 0; 97; 255; 255; 255; 192; 0; 0; 0; 1; 0; 0; 0; 4; 0; 0;
    0; 5; 0; 0; 0; 12; 0; 0; 0; 0; 0; 40; 0; 0; 0; 0; 0; 0; 0; 2; 0; 0; 0; 65;
    0; 0; 0; 67; 0; 0; 0; 1; 0; 1; 246; 0; 0; 1; 246; 1; 0; 0; 0; 4; 0; 1; 0; 0;
    0; 0; 0; 0; 0; 0; 0; 0; 95; 15; 60; 245; 0; 0; 3; 232; 0; 0; 0; 0; 0; 0; 0; 0;
    0; 0; 0; 0; 0; 0; 0; 0; 255; 206; 255; 56; 3; 132; 3; 32; 0; 0; 0; 8; 0; 2; 0; 0;
    0; 0; 0; 0; 0; 1; 0; 0; 3; 32; 255; 56; 0; 0; 3; 132; 0; 0; 0; 0; 0; 0; 0; 1;
    0; 0; 0; 0; 0; 0; 0; 0; 0; 0; 0; 0; 0; 0; 0; 3; 1; 244; 0; 0; 2; 88; 0; 10;
    2; 219; 0; 5; 0; 1; 0; 2; 0; 3; 0; 0; 0; 1; 0; 0; 0; 6; 0; 0; 0; 0; 0; 1;
    0; 18; 0; 1; 0; 0; 0; 0; 0; 6; 0; 4; 0; 0; 68; 101; 109; 111; 0; 0 ].
Definition font_single : bytes :=
  [ 0; 1; 0; 0; 0; 6; 0; 0; 0; 0; 0; 0; 99; 109; 97; 112; 0; 0; 0; 0; 0; 0; 0; 108;
    0; 0; 0; 56; 104; 101; 97; 100; 0; 0; 0; 0; 0; 0; 0; 164; 0; 0; 0; 56; 104; 104; 101; 97;
    0; 0; 0; 0; 0; 0; 0; 220; 0; 0; 0; 36; 104; 109; 116; 120; 0; 0; 0; 0; 0; 0; 1; 0;
    0; 0; 0; 18; 109; 97; 120; 112; 0; 0; 0; 0; 0; 0; 1; 20; 0; 0; 0; 8; 110; 97; 109; 101;
    0; 0; 0; 0; 0; 0; 1; 28; 0; 0; 0; 22; 0; 0; 0; 1; 0; 3; 0; 1; 0; 0; 0; 12;
    0; 4; 0; 44; 0; 0; 0; 6; 0; 0; 0; 0; 0; 0; 0; 67; 0; 98; 255; 255; 0; 0; 0; 65;
    0; 97; 255; 255; 255; 192; 0; 0; 0; 1; 0; 0; 0; 4; 0; 0; 0; 5; 0; 0; 0; 1; 0; 0;
    0; 0; 0; 0; 0; 0; 0; 0; 95; 15; 60; 245; 0; 0; 3; 232; 0; 0; 0; 0; 0; 0; 0; 0;
    0; 0; 0; 0; 0; 0; 0; 0; 255; 206; 255; 56; 3; 132; 3; 32; 0; 0; 0; 8; 0; 2; 0; 0;
    0; 0; 0; 0; 0; 1; 0; 0; 3; 32; 255; 56; 0; 0; 3; 132; 0; 0; 0; 0; 0; 0; 0; 1;
    0; 0; 0; 0; 0; 0; 0; 0; 0; 0; 0; 0; 0; 0; 0; 3; 1; 244; 0; 0; 2; 88; 0; 10;
    2; 219; 0; 5; 0; 1; 0; 2; 0; 3; 0; 0; 0; 1; 0; 0; 0; 6; 0; 0; 0; 0; 0; 1;
    0; 18; 0; 1; 0; 0; 0; 0; 0; 6; 0; 4; 0; 0; 68; 101; 109; 111; 0; 0 ].
Definition font_wide : bytes :=
  [ 0; 1; 0; 0; 0; 6; 0; 0; 0; 0; 0; 0; 99; 109; 97; 112; 0; 0; 0; 0; 0; 0; 0; 108;
    0; 0; 0; 92; 104; 101; 97; 100; 0; 0; 0; 0; 0; 0; 0; 200; 0; 0; 0; 56; 104; 104; 101; 97;
    0; 0; 0; 0; 0; 0; 1; 0; 0; 0; 0; 36; 104; 109; 116; 120; 0; 0; 0; 0; 0; 0; 1; 36;
    0; 0; 0; 18; 109; 97; 120; 112; 0; 0; 0; 0; 0; 0; 1; 56; 0; 0; 0; 8; 110; 97; 109; 101;
    0; 0; 0; 0; 0; 0; 1; 64; 0; 0; 0; 22; 0; 0; 0; 2; 0; 3; 0; 1; 0; 0; 0; 20;
    0; 3; 0; 10; 0; 0; 0; 64; 0; 4; 0; 44; 0; 0; 0; 6; 0; 0; 0; 0; 0; 0; 0; 67;
    0; 98; 255; 255; 0; 0; 0; 65; 0; 97; 255; 255; 255; 192; 0; 0; 0; 1; 0; 0; 0; 4; 0; 0;
    0; 5; 0; 0; 0; 12; 0; 0; 0; 0; 0; 28; 0; 0; 0; 0; 0; 0; 0; 1; 0; 0; 0; 65;
    0; 0; 0; 66; 0; 1; 0; 0; 0; 1; 0; 0; 0; 0; 0; 0; 0; 0; 0; 0; 95; 15; 60; 245;
    0; 0; 3; 232; 0; 0; 0; 0; 0; 0; 0; 0; 0; 0; 0; 0; 0; 0; 0; 0; 255; 206; 255; 56;
    3; 132; 3; 32; 0; 0; 0; 8; 0; 2; 0; 0; 0; 0; 0; 0; 0; 1; 0; 0; 3; 32; 255; 56;
    0; 0; 3; 132; 0; 0; 0; 0; 0; 0; 0; 1; 0; 0; 0; 0; 0; 0; 0; 0; 0; 0; 0; 0;
    0; 0; 0; 3; 1; 244; 0; 0; 2; 88; 0; 10; 2; 219; 0; 5; 0; 1; 0; 2; 0; 3; 0; 0;
    0; 1; 0; 0; 0; 6; 0; 0; 0; 0; 0; 1; 0; 18; 0; 1; 0; 0; 0; 0; 0; 6; 0; 4;
    0; 0; 68; 101; 109; 111; 0; 0 ].
Definition font_hostile : bytes :=
  [ 0; 1; 0; 0; 0; 6; 0; 0; 0; 0; 0; 0; 99; 109; 97; 112; 0; 0; 0; 0; 0; 0; 0; 108;
    0; 0; 0; 64; 104; 101; 97; 100; 0; 0; 0; 0; 255; 255; 255; 255; 0; 0; 0; 56; 104; 104; 101; 97;
    0; 0; 0; 0; 0; 0; 0; 228; 0; 0; 0; 36; 104; 109; 116; 120; 0; 0; 0; 0; 0; 0; 1; 8;
    0; 0; 0; 18; 109; 97; 120; 112; 0; 0; 0; 0; 0; 0; 1; 28; 0; 0; 0; 8; 110; 97; 109; 101;
    0; 0; 0; 0; 0; 0; 1; 36; 0; 0; 0; 22; 0; 0; 0; 2; 0; 0; 0; 3; 0; 0; 0; 20;
    0; 3; 0; 1; 0; 0; 0; 20; 0; 4; 0; 44; 0; 0; 0; 6; 0; 0; 0; 0; 0; 0; 0; 67;
    0; 98; 255; 255; 0; 0; 0; 65; 0; 97; 255; 255; 255; 192; 0; 0; 0; 1; 0; 0; 0; 4; 0; 0;
    0; 5; 0; 0; 0; 1; 0; 0; 0; 0; 0; 0; 0; 0; 0; 0; 95; 15; 60; 245; 0; 0; 3; 232;
    0; 0; 0; 0; 0; 0; 0; 0; 0; 0; 0; 0; 0; 0; 0; 0; 255; 206; 255; 56; 3; 132; 3; 32;
    0; 0; 0; 8; 0; 2; 0; 0; 0; 0; 0; 0; 0; 1; 0; 0; 3; 32; 255; 56; 0; 0; 3; 132;
    0; 0; 0; 0; 0; 0; 0; 1; 0; 0; 0; 0; 0; 0; 0; 0; 0; 0; 0; 0; 0; 0; 0; 3;
    1; 244; 0; 0; 2; 88; 0; 10; 2; 219; 0; 5; 0; 1; 0; 2; 0; 3; 0; 0; 0; 1; 0; 0;
    0; 6; 0; 0; 0; 0; 0; 1; 0; 18; 0; 1; 0; 0; 0; 0; 0; 6; 0; 4; 0; 0; 68; 101;
    109; 111; 0; 0 ].

Example fonts_are_bytes : forallb (forallb (fun b => b <? 256)) [font_bmp; font_full; font_single; font_wide; font_hostile] = true.
Proof. vm_compute. reflexivity. Qed.
Lemma bytes_ok : forall f, forallb (fun b => b <? 256) f = true -> wf_bytes f.
Proof. intros f H. apply Forall_forall. intros b Hb. rewrite forallb_forall in H. apply N.ltb_lt. auto. Qed.

(** ** C13 *)
(** A read of [n] bytes at [p] returns what [at_] finds there, or an error saying which end of
    the value is beyond the end of the file. *)
Definition reads_exactly {A} (n : N) (at_ : bytes -> N -> option A) (read : bytes -> N -> res font_error A) : Prop :=
  forall f p,
    (p + n <= N.of_nat (length f) /\ exists v, at_ f p = Some v /\ read f p = Ok v) \/
    (N.of_nat (length f) < p /\ at_ f p = None /\ read f p = Err OffsetBeyondEof) \/
    (p <= N.of_nat (length f) < p + n /\ at_ f p = None /\ read f p = Err OffsetPlusLengthBeyondEof).
Lemma outcome_reads : forall A n at_ (read : bytes -> N -> res font_error A), outcome n at_ read -> reads_exactly n at_ read.
Proof.
  intros A n at_ read H f p. destruct (H f p) as [(L & v & R & U)|[(L & R & U)|(L & R & U)]]; eauto 7.
Qed.
Theorem C13_reads :
  reads_exactly 2 u16_at read_u16 /\ reads_exactly 2 i16_at read_i16 /\ reads_exactly 4 u32_at read_u32 /\
  reads_exactly 4 (fun f p => string_at f p 4) read_tag /\
  (forall n size, reads_exactly n (fun f p => string_at f p (N.to_nat n)) (fun f p => slice_read f (mkSlice p n size))).
Proof.
  repeat match goal with |- _ /\ _ => split end; intros; apply outcome_reads.
  - apply read_u16_outcome.
  - apply read_i16_outcome.
  - apply read_u32_outcome.
  - apply read_tag_outcome.
  - apply slice_read_outcome.
Qed.
Print Assumptions C13_reads.
(** The records of the font tables have the offsets and sizes of the OpenType specification. *)
Theorem C13_layouts :
  map (field_offset 0 OffsetSubtable) ["scaler_type"; "table_count"]%string = [0; 4] /\
  map (field_offset 0 TableDirectoryEntry) ["tag"; "table_offset"]%string = [0; 8] /\
  map (field_offset 0 MaximumProfile) ["num_glyphs"]%string = [4] /\
  map (field_offset 0 NamingTableHeader) ["count"; "string_offset"]%string = [2; 4] /\
  map (field_offset 0 NameRecord) ["platform_id"; "encoding_id"; "name_id"; "length"; "string_offset"]%string = [0; 2; 6; 8; 10] /\
  map (field_offset 0 CmapHeader) ["num_tables"]%string = [2] /\
  map (field_offset 0 CmapEncodingRecord) ["platform_id"; "encoding_id"; "subtable_offset"]%string = [0; 2; 4] /\
  map (field_offset 0 CmapFormat4Header) ["segment_count_x2"]%string = [6] /\
  map (field_offset 0 CmapFormat12Header) ["num_groups"]%string = [12] /\
  map (field_offset 0 CmapFormat12Group) ["start_char_code"; "end_char_code"; "start_glyph_id"]%string = [0; 4; 8] /\
  map (field_offset 0 FontHeader) ["units_per_em"; "min_x"; "min_y"; "max_x"; "max_y"]%string = [18; 36; 38; 40; 42] /\
  map (field_offset 0 HorizontalHeader) ["ascender"; "descender"; "number_of_long_horizontal_metrics"]%string = [4; 6; 34] /\
  map (field_offset 0 LongHorizontalMetricsRecord) ["advance_width"]%string = [0] /\
  map size_of [OffsetSubtable; TableDirectoryEntry; NamingTableHeader; NameRecord; CmapHeader; CmapEncodingRecord;
    CmapFormat4Header; CmapFormat12Header; CmapFormat12Group; LongHorizontalMetricsRecord]
    = [12; 16; 6; 12; 4; 8; 14; 16; 12; 4].
Proof. vm_compute. intuition. Qed.
Print Assumptions C13_layouts.
Example C13_example :
  map (fun p => read_i16 [128; 1; 255; 255] p) [0; 1; 2; 3; 4; 5] =
  [Ok (-32767)%Z; Ok 511%Z; Ok (-1)%Z; Err OffsetPlusLengthBeyondEof; Err OffsetPlusLengthBeyondEof; Err OffsetBeyondEof].
Proof. vm_compute. reflexivity. Qed.

(** ** C14 *)
Theorem C14_binary_search_sound : forall n (f : N -> res font_error comparison),
  match binary_search n f with
  | Ok (Some i) => i < n /\ f i = Ok Eq
  | Ok None => True
  | Err e => exists i, i < n /\ f i = Err e
  | Panic => exists i, i < n /\ f i = Panic
  end.
Proof.
  intros n f. pose proof (binary_search_fails _ n f) as F. pose proof (binary_search_sound _ n f) as S.
  destruct (binary_search n f) as [[i|]| |]; auto.
Qed.
Print Assumptions C14_binary_search_sound.
(** [c] is Less, then Equal, then Greater. *)
Definition monotone (n : N) (c : N -> comparison) : Prop :=
  (forall i j, i < j -> j < n -> c i = Gt -> c j = Gt) /\ (forall i j, i < j -> j < n -> c j = Lt -> c i = Lt).
Theorem C14_binary_search_complete : forall n (f : N -> res font_error comparison) c,
  (forall i, i < n -> f i = Ok (c i)) -> monotone n c ->
  (binary_search n f = Ok None <-> forall i, i < n -> c i <> Eq) /\
  ((exists k, k < n /\ c k = Eq) -> exists i, binary_search n f = Ok (Some i) /\ i < n /\ c i = Eq).
Proof.
  intros n f c H [M1 M2].
  assert (X : forall k, k < n -> c k = Eq -> exists i, binary_search n f = Ok (Some i) /\ i < n /\ c i = Eq).
  { intros k. apply binary_search_complete; auto. }
  split; [split|].
  - intros B i L E. destruct (X i L E) as (j & J & _). congruence.
  - intro A. eapply binary_search_absent; eauto.
  - intros (k & L & E). eauto.
Qed.
Print Assumptions C14_binary_search_complete.
(** Only indices below the size are asked for. *)
Theorem C14_binary_search_probes : forall n (f g : N -> res font_error comparison),
  (forall i, i < n -> f i = g i) -> binary_search n f = binary_search n g.
Proof. exact (binary_search_ext font_error). Qed.
Print Assumptions C14_binary_search_probes.
Example C14_example :
  map (fun k => binary_search 7 (fun i => Ok (N.compare (i * i) k) : res font_error comparison)) [0; 1; 4; 9; 16; 25; 36; 2; 35; 37]
  = map (fun o => Ok o) [Some 0; Some 1; Some 2; Some 3; Some 4; Some 5; Some 6; None; None; None].
Proof. vm_compute. reflexivity. Qed.
Example C14_example_monotone : monotone 7 (fun i => N.compare (i * i) 16).
Proof.
  split; intros i j L _ H.
  - rewrite N.compare_gt_iff in *. nia.
  - rewrite N.compare_lt_iff in *. nia.
Qed.

(** ** C15 *)
Theorem C15_find_table : forall m f d n tag, wf_bytes f -> directory f = Some d -> tags_sorted d ->
  u16_at f 4 = Some n ->
  (forall off, find_table m (mkSlice 12 n 16) f tag = Ok off <-> In (tag, off) d) /\
  (find_table m (mkSlice 12 n 16) f tag = Err MissingTable <-> forall off, ~ In (tag, off) d).
Proof.
  intros m f d n tag W D T U.
  assert (n = N.of_nat (length d)) as ->.
  { unfold directory in D. rewrite U in D. destruct (all_indices _ _ _ _ D) as (A & _). auto. }
  destruct (find_table_entries m f d tag W U D T) as [F1 F2]. unfold dir_of in *.
  assert (Dec : (exists off, In (tag, off) d) \/ forall off, ~ In (tag, off) d).
  { destruct (in_dec (list_eq_dec N.eq_dec) tag (map fst d)) as [I|I].
    - apply in_map_iff in I as ((t & o) & E & I). cbn [fst] in E. subst t. eauto.
    - right. intros o Ho. apply I. apply in_map_iff. exists (tag, o). auto. }
  split; [intro off; split|split].
  - intro F. destruct Dec as [(o & Ho)|No].
    + rewrite (F1 o Ho) in F. injection F as ->. auto.
    + rewrite (F2 No) in F. discriminate.
  - apply F1.
  - intros F off Ho. rewrite (F1 off Ho) in F. discriminate.
  - apply F2.
Qed.
Print Assumptions C15_find_table.
Example C15_example :
  match directory font_full with
  | Some d => map fst d = map bs ["cmap"; "head"; "hhea"; "hmtx"; "maxp"; "name"]%string /\
      map (fun t => find_table Debug (mkSlice 12 6 16) font_full (bs t)) ["cmap"; "maxp"; "name"; "OS/2"; "zzzz"]%string
      = [Ok 108; Ok 324; Ok 332; Err MissingTable; Err MissingTable]
  | None => False
  end.
Proof. vm_compute. split; reflexivity. Qed.
Ltac sorted := repeat (apply SSorted_cons || apply SSorted_nil);
  repeat (apply Forall_cons || apply Forall_nil).
Example C15_example_sorted : match directory font_full with Some d => tags_sorted d | None => False end.
Proof.
  let x := eval vm_compute in (directory font_full) in
  replace (directory font_full) with x by (vm_compute; reflexivity). unfold tags_sorted. cbn [map fst]. sorted;
  repeat (apply lt_tail); apply lt_head; reflexivity.
Qed.

(** ** C16 *)
(** The OpenType lookup, 0 being the missing glyph, is what [format4_get] returns. *)
Theorem C16_format4_lookup : forall m f sub segs, wf_bytes f -> addressable f -> well_formed4 f sub segs ->
  exists t, format4_parse m f sub = Ok t /\
    forall c, exists g, lookup4 f segs c = Some g /\ g < 65536 /\
      format4_get m f t c = Ok (if g =? 0 then None else Some g).
Proof.
  intros m f sub segs B A W. exists (table4 sub segs). split; [apply format4_parse_ok; auto|].
  intro c. destruct (format4_get_ok m f sub segs W A B c) as (g & L & G). exists g. split; [auto|]. split; [|exact G].
  unfold lookup4 in L. destruct (find _ segs) as [s|]; [|injection L as <-; reflexivity].
  destruct (seg_start s <=? c); [|injection L as <-; reflexivity].
  unfold segment_glyph in L. destruct (seg_range_offset s =? 0).
  - injection L as <-. apply N.mod_lt. discriminate.
  - destruct (u16_at _ _) as [x|]; [|discriminate]. injection L as <-. destruct (x =? 0); [reflexivity|].
    apply N.mod_lt. discriminate.
Qed.
Print Assumptions C16_format4_lookup.
Definition bmp_segments : list segment :=
  [mkSeg 65 67 65472 0 162; mkSeg 97 98 0 4 164; mkSeg 65535 65535 1 0 166].
Example C16_example_well_formed : well_formed4 font_bmp 128 bmp_segments.
Proof.
  split; [vm_compute; reflexivity|]. split; [discriminate|].
  split; [repeat (apply Forall_cons || apply Forall_nil); cbn; lia|].
  split; [sorted; reflexivity|].
  repeat (apply Forall_cons || apply Forall_nil); intros c; cbn [seg_start seg_end]; intro H; try discriminate.
  assert (c = 97 \/ c = 98) as [-> | ->] by lia; vm_compute; discriminate.
Qed.
Example C16_example :
  match format4_parse Release font_bmp 128 with
  | Ok t => map (fun c => format4_get Debug font_bmp t c) [64; 65; 67; 68; 97; 98; 65535; 65536]
            = map (fun o => Ok o) [None; Some 1; Some 3; None; Some 5; None; None; None]
  | _ => False
  end.
Proof. vm_compute. reflexivity. Qed.

(** ** C17 *)
Theorem C17_format12_lookup : forall m f sub gs, wf_bytes f -> addressable f -> well_formed12 f sub gs ->
  glyphs_below (2 ^ 32) gs ->
  exists t, format12_parse m f sub = Ok t /\
    forall c, c < 2 ^ 32 ->
      (forall g, In g gs -> g_start g <= c <= g_end g ->
        format12_get m f t c =
        Ok (if g_glyph g + (c - g_start g) <? 65536 then Some (g_glyph g + (c - g_start g)) else None)) /\
      ((forall g, In g gs -> ~ (g_start g <= c <= g_end g)) -> format12_get m f t c = Ok None).
Proof.
  intros m f sub gs B A W G. exists (table12 sub gs). split; [apply format12_parse_ok; auto|].
  intros c Hc. destruct (format12_get_ok m f sub gs W A B G c Hc) as (o & -> & [(g & G1 & G2 & ->)|[N ->]]).
  - split; [|intro N; destruct (N g G1 G2)]. intros g' G1' G2'.
    rewrite (lookup12_in f sub gs W g' c G1' G2'). reflexivity.
  - split; [|auto]. intros g G1 G2. destruct (N g G1 G2).
Qed.
Print Assumptions C17_format12_lookup.
(** Without the hypothesis on glyph numbers the addition overflows: a panic in debug builds, a
    wrapped glyph in release builds. *)
Definition overflow12 : bytes :=
  [0; 12; 0; 0; 0; 0; 0; 28; 0; 0; 0; 0; 0; 0; 0; 1; 0; 0; 0; 65; 0; 0; 0; 66; 255; 255; 255; 255].
Theorem C17_overflow_refuted : exists f gs t, wf_bytes f /\ addressable f /\ well_formed12 f 0 gs /\
  format12_parse Debug f 0 = Ok t /\ format12_parse Release f 0 = Ok t /\
  lookup12 gs 66 = 2 ^ 32 /\ format12_get Debug f t 66 = Panic /\ format12_get Release f t 66 = Ok (Some 0).
Proof.
  exists overflow12, [mkGroup 65 66 4294967295]. eexists.
  split; [apply bytes_ok; reflexivity|]. split; [reflexivity|].
  split; [split; [vm_compute; reflexivity|]; split; repeat constructor; discriminate|].
  split; [vm_compute; reflexivity|]. repeat split.
Qed.
Print Assumptions C17_overflow_refuted.
Definition full_groups : list group := [mkGroup 65 67 1; mkGroup 128512 128513 4].
Example C17_example_well_formed : well_formed12 font_full 172 full_groups /\ glyphs_below 65536 full_groups.
Proof.
  split; [split; [vm_compute; reflexivity|]; split; repeat constructor; discriminate|].
  repeat constructor.
Qed.
Example C17_example :
  match format12_parse Release font_full 172 with
  | Ok t => map (fun c => format12_get Debug font_full t c) [64; 65; 67; 68; 128512; 128513; 128514]
            = map (fun o => Ok o) [None; Some 1; Some 3; None; Some 4; Some 5; None]
  | _ => False
  end.
Proof. vm_compute. reflexivity. Qed.

(** ** C18 *)
Lemma is_char_scalar : forall c, is_char c = true <-> scalar c.
Proof.
  intro c. unfold is_char, scalar. rewrite orb_true_iff, andb_true_iff, !N.ltb_lt, N.leb_le. reflexivity.
Qed.
Lemma filter_sorted : forall (p : N * N -> bool) l, StronglySorted N.lt (map fst l) ->
  StronglySorted N.lt (map fst (filter p l)).
Proof.
  induction l as [|x l IH]; cbn [filter map]; intro S; [constructor|]. inversion S; subst.
  destruct (p x); cbn [map]; auto. constructor; auto. apply Forall_forall. intros y Hy.
  apply in_map_iff in Hy as (z & <- & Hz). apply filter_In in Hz as [Hz _]. rewrite Forall_forall in *.
  apply H2. apply in_map. auto.
Qed.
(** Each character with a glyph once, in increasing order, with the glyph that looking it up
    gives. *)
Theorem C18_format4_enumeration : forall m pf sub segs t, wf_bytes (pf_bytes pf) -> addressable (pf_bytes pf) ->
  well_formed4 (pf_bytes pf) sub segs -> format4_parse m (pf_bytes pf) sub = Ok t -> pf_cmap pf = Format4 t ->
  exists calls, each_code_point m pf = Ok calls /\ StronglySorted N.lt (map fst calls) /\
    (forall c g, In (c, g) calls <-> scalar c /\ g <> 0 /\ glyph_id m pf c = Ok g) /\
    (forall c g, In (c, g) calls <-> scalar c /\ g <> 0 /\ lookup4 (pf_bytes pf) segs c = Some g).
Proof.
  intros m pf sub segs t B A W P C. rewrite (format4_parse_ok m _ _ _ W A B) in P. injection P as <-.
  assert (E : each_code_point m pf = Ok (filter (fun cg => negb (snd cg =? 0) && is_char (fst cg))
    (flat_map (segment_calls (pf_bytes pf)) segs))).
  { unfold each_code_point, cmap_each. rewrite C, (format4_each_ok m (pf_bytes pf) sub segs) by auto. reflexivity. }
  eexists. split; [exact E|]. split; [apply filter_sorted; eapply calls4_sorted; eauto|].
  assert (I : forall c g, In (c, g) (filter (fun cg => negb (snd cg =? 0) && is_char (fst cg))
    (flat_map (segment_calls (pf_bytes pf)) segs)) <-> scalar c /\ g <> 0 /\ lookup4 (pf_bytes pf) segs c = Some g).
  { intros c g. rewrite filter_In, (calls4_in (pf_bytes pf) sub segs) by auto. cbn [fst snd].
    rewrite andb_true_iff, negb_true_iff, N.eqb_neq, is_char_scalar. tauto. }
  split; [|exact I]. intros c g. rewrite I. unfold glyph_id. rewrite C.
  destruct (format4_get_ok m _ _ _ W A B c) as (g' & L & ->). rewrite L. cbn [bind]. unfold nonzero.
  destruct (N.eqb_spec g' 0) as [->|]; split; intros (H1 & H2 & H3);
    (split; [auto|split; [auto|congruence]]).
Qed.
Print Assumptions C18_format4_enumeration.
Theorem C18_format12_enumeration : forall m pf sub gs t, wf_bytes (pf_bytes pf) -> addressable (pf_bytes pf) ->
  well_formed12 (pf_bytes pf) sub gs -> glyphs_below 65536 gs ->
  format12_parse m (pf_bytes pf) sub = Ok t -> pf_cmap pf = Format12 t ->
  exists calls, each_code_point m pf = Ok calls /\ StronglySorted N.lt (map fst calls) /\
    (forall c g, In (c, g) calls <-> scalar c /\ g <> 0 /\ glyph_id m pf c = Ok g) /\
    (forall c g, In (c, g) calls <-> scalar c /\ g <> 0 /\ lookup12 gs c = g).
Proof.
  intros m pf sub gs t B A W G P C.
  assert (G32 : glyphs_below (2 ^ 32) gs).
  { unfold glyphs_below in *. eapply Forall_impl; [|exact G]. cbv beta. intros g Hg. lia. }
  rewrite (format12_parse_ok m _ _ _ W A) in P by auto. injection P as <-.
  assert (E : each_code_point m pf = Ok (filter (fun cg => negb (snd cg =? 0) && is_char (fst cg))
    (flat_map group_calls gs))).
  { unfold each_code_point, cmap_each. rewrite C, (format12_each_ok m (pf_bytes pf) sub gs) by auto. reflexivity. }
  eexists. split; [exact E|]. split; [apply filter_sorted; eapply calls12_sorted; eauto|].
  assert (L65 : forall c, lookup12 gs c < 65536).
  { intro c. unfold lookup12. destruct (find _ gs) as [g|] eqn:F; [|reflexivity].
    apply find_some in F as [F1 F2]. apply andb_true_iff in F2 as [F2 F3]. apply N.leb_le in F2, F3.
    unfold glyphs_below in G. rewrite Forall_forall in G. apply G in F1. lia. }
  assert (I : forall c g, In (c, g) (filter (fun cg => negb (snd cg =? 0) && is_char (fst cg))
    (flat_map group_calls gs)) <-> scalar c /\ g <> 0 /\ lookup12 gs c = g).
  { intros c g. rewrite filter_In, (calls12_in (pf_bytes pf) sub gs) by auto. cbn [fst snd].
    rewrite andb_true_iff, negb_true_iff, N.eqb_neq, is_char_scalar. split.
    - intros ((x & X1 & X2 & ->) & H1 & H2). rewrite N.mod_small in * by auto. auto.
    - intros (H1 & H2 & <-). split; [|auto]. unfold lookup12 in H2 |- * at 1.
      destruct (find _ gs) as [x|] eqn:F; [|congruence].
      pose proof F as F'. apply find_some in F as [F1 F2]. apply andb_true_iff in F2 as [F2 F3]. apply N.leb_le in F2, F3.
      exists x. split; [auto|]. split; [lia|]. rewrite N.mod_small by auto. unfold lookup12. rewrite F'. reflexivity. }
  split; [|exact I]. intros c g. rewrite I. unfold glyph_id. rewrite C.
  assert (S : scalar c -> c < 2 ^ 32) by (unfold scalar; lia).
  split; intros (H1 & H2 & H3); (split; [auto|split; [auto|]]);
    destruct (format12_get_ok m _ _ _ W A B G32 c (S H1)) as (o & Ho & [(x & X1 & X2 & ->)|[Nx ->]]);
    rewrite Ho in *; cbn [bind] in *.
  - destruct (N.ltb_spec (lookup12 gs c) 65536) as [|Bad]; [congruence|]. pose proof (L65 c). lia.
  - exfalso. apply H2. rewrite <- H3. apply (lookup12_out gs). auto.
  - destruct (N.ltb_spec (lookup12 gs c) 65536) as [|Bad]; [congruence|]. pose proof (L65 c). lia.
  - congruence.
Qed.
Print Assumptions C18_format12_enumeration.
(** Not so for glyph numbers above 65535: lookup finds no glyph, enumeration reports the number
    modulo 65536. *)
Theorem C18_format12_refuted : exists pf gs t, parse_font Release font_wide = Ok pf /\
  pf_cmap pf = Format12 t /\ format12_parse Release font_wide 172 = Ok t /\ well_formed12 font_wide 172 gs /\
  lookup12 gs 66 = 65537 /\ each_code_point Release pf = Ok [(66, 1)] /\ glyph_id Release pf 66 = Ok 0.
Proof.
  eexists. exists [mkGroup 65 66 65536]. eexists.
  split; [vm_compute; reflexivity|]. split; [reflexivity|]. split; [vm_compute; reflexivity|].
  split; [split; [vm_compute; reflexivity|]; split; repeat constructor; discriminate|].
  split; [reflexivity|]. split; vm_compute; reflexivity.
Qed.
Print Assumptions C18_format12_refuted.
(** Nor for a format 4 segment that starts after its end: enumeration goes around by way of
    65535 (in release builds; [C36] has the panic of debug builds), lookup finds nothing there. *)
Definition font_backwards : bytes :=
  firstn 145 font_bmp ++ [0] ++ firstn 6 (skipn 146 font_bmp) ++ [255; 255] ++
  firstn 17 (skipn 154 font_bmp) ++ [7] ++ skipn 172 font_bmp.
Theorem C18_backwards_refuted : exists pf t, parse_font Release font_backwards = Ok pf /\
  pf_cmap pf = Format4 t /\
  each_code_point Release pf = Ok [(65, 1); (66, 2); (67, 3); (65535, 5); (0, 7)] /\
  glyph_id Release pf 65535 = Ok 0 /\ glyph_id Release pf 0 = Ok 0.
Proof.
  eexists. eexists. split; [vm_compute; reflexivity|]. split; [reflexivity|].
  split; [vm_compute; reflexivity|]. split; vm_compute; reflexivity.
Qed.
Print Assumptions C18_backwards_refuted.
Example C18_example :
  match parse_font Debug font_bmp, parse_font Debug font_full with
  | Ok b, Ok l =>
      pf_cmap b = Format4 (table4 128 bmp_segments) /\ pf_cmap l = Format12 (table12 172 full_groups) /\
      each_code_point Debug b = Ok [(65, 1); (66, 2); (67, 3); (97, 5)] /\
      each_code_point Debug l = Ok [(65, 1); (66, 2); (67, 3); (128512, 4); (128513, 5)]
  | _, _ => False
  end.
Proof. vm_compute. repeat split. Qed.

(** ** C19 *)
(** The positions visited by a loop over a slice, forwards or backwards *)
Definition visited (step : slice_iter -> res font_error (option (N * slice_iter))) (m : build) (s : slice) :
    res font_error (flow (list N) Empty_set) :=
  it <- into_iter m s ;;
  for_each (N.to_nat (s_count s)) step (fun acc p => Ok (Continue (acc ++ [p]))) [] it.
Lemma indices_map : forall n (g : N -> N), map g (indices n) = map (fun i => g (N.of_nat i)) (seq 0 (N.to_nat n)).
Proof. intros. unfold indices. rewrite map_map. reflexivity. Qed.
Theorem C19_forward : forall m p n size, 0 < size -> p + size * n < 2 ^ 32 ->
  visited (next m) m (mkSlice p n size) = Ok (Continue (map (fun i => p + size * i) (indices n))).
Proof.
  intros m p n size Hs L. unfold visited. rewrite into_iter_ok by auto. cbn [bind s_start s_size s_count].
  rewrite <- (N2Nat.id n) at 2. rewrite for_each_next by (auto; rewrite N2Nat.id; auto).
  rewrite walk_collect, forward_map, indices_map. reflexivity.
Qed.
Print Assumptions C19_forward.
(** Backwards the code visits the positions of records n, n-1, ..., 1: never record 0, and first
    the bytes behind the array. *)
Theorem C19_backward : forall m p n size, 0 < size -> p + size * n < 2 ^ 32 ->
  visited (next_back m) m (mkSlice p n size) =
  Ok (Continue (rev (map (fun i => p + size * (i + 1)) (indices n)))).
Proof.
  intros m p n size Hs L. unfold visited. rewrite into_iter_ok by auto. cbn [bind s_start s_size s_count].
  rewrite <- (N2Nat.id n) at 2. rewrite for_each_next_back by (auto; rewrite N2Nat.id; auto).
  rewrite walk_collect, backward_map, indices_map, <- seq_shift, map_map. cbn [app]. do 3 f_equal.
  apply map_ext. intro i. lia.
Qed.
Print Assumptions C19_backward.
(** So iterating backwards is not the reverse of iterating forwards. *)
Theorem C19_refuted : exists m s l, visited (next m) m s = Ok (Continue l) /\
  visited (next_back m) m s <> Ok (Continue (rev l)).
Proof. exists Release, (mkSlice 100 2 8), [100; 108]. split; [reflexivity|vm_compute; discriminate]. Qed.
Print Assumptions C19_refuted.
(** A font with a well-formed (3,1) format 4 character map as its only one is rejected. *)
Theorem C19_font_refuted : exists f cmap segs, wf_bytes f /\ addressable f /\
  (match directory f with Some d => In (bs "cmap", cmap) d | None => False end) /\
  u16_at f (cmap + 2) = Some 1 /\ u16_at f (cmap + 4) = Some 3 /\ u16_at f (cmap + 6) = Some 1 /\
  u32_at f (cmap + 8) = Some 12 /\ u16_at f (cmap + 12) = Some 4 /\ well_formed4 f (cmap + 12) segs /\
  (forall m, parse_font m f = Err NoSupportedCmap).
Proof.
  exists font_single, 108, [mkSeg 65 67 65472 0 154; mkSeg 97 98 0 4 156; mkSeg 65535 65535 1 0 158].
  split; [apply bytes_ok; reflexivity|]. split; [reflexivity|]. split; [vm_compute; auto|].
  do 5 (split; [reflexivity|]). split.
  - split; [vm_compute; reflexivity|]. split; [discriminate|].
    split; [repeat (apply Forall_cons || apply Forall_nil); cbn; lia|].
    split; [sorted; reflexivity|].
    repeat (apply Forall_cons || apply Forall_nil); intros c; cbn [seg_start seg_end]; intro H; try discriminate.
    assert (c = 97 \/ c = 98) as [-> | ->] by lia; vm_compute; discriminate.
  - intros []; vm_compute; reflexivity.
Qed.
Print Assumptions C19_font_refuted.
Example C19_example :
  visited (next Debug) Debug (mkSlice 100 3 8) = Ok (Continue [100; 108; 116]) /\
  visited (next_back Debug) Debug (mkSlice 100 3 8) = Ok (Continue [124; 116; 108]).
Proof. split; reflexivity. Qed.

(** ** C20 *)
Theorem C20_glyph_width : forall m pf hmtx n g, addressable (pf_bytes pf) -> pf_metrics pf = mkSlice hmtx n 4 ->
  0 < pf_units_per_em pf < 65536 -> hmtx + 4 * n < 2 ^ 32 ->
  let record := if g <? n then g else n - 1 in
  match n, u16_at (pf_bytes pf) (hmtx + 4 * record) with
  | 0, _ => glyph_width m pf g = Err NoHorizontalGlyphMetrics
  | _, Some advance => exists q, glyph_width m pf g = Ok q /\
      (Qabs (q * inject_Z (Z.of_N (pf_units_per_em pf)) - inject_Z (Z.of_N advance)) <= inject_Z (Z.of_N advance) * (1 # 16777216))%Q
  | _, None => glyph_width m pf g = Err OffsetBeyondEof \/ glyph_width m pf g = Err OffsetPlusLengthBeyondEof
  end.
Proof.
  intros m pf hmtx n g A M U L record.
  destruct (advance_width_ok m pf hmtx n g A M) as (W0 & W1 & W2).
  assert (R : n <> 0 -> N.min g (n - 1) = record).
  { intro Hn. unfold record. destruct (N.ltb_spec g n); lia. }
  unfold glyph_width. destruct n as [|n].
  - rewrite W0 by auto. reflexivity.
  - rewrite R in * by discriminate. destruct (u16_at _ _) as [w|] eqn:E.
    + rewrite (W1 ltac:(discriminate) w eq_refl). cbn [bind]. eexists. split; [reflexivity|].
      unfold to_ems. destruct (pf_units_per_em pf) as [|u]; [lia|]. apply width_near. lia.
    + destruct W2 as [-> | ->]; cbn [bind]; auto; [discriminate|].
      unfold record. destruct (N.ltb_spec g (Npos n)); lia.
Qed.
Print Assumptions C20_glyph_width.
(** The advance in the file of a font and what is written for it in the PDF file *)
Definition advance_written (m : build) (pf : parsed_font) (g advance : N) (z : Z) : Prop :=
  exists hmtx n, pf_metrics pf = mkSlice hmtx n 4 /\ 0 < n /\
    u16_at (pf_bytes pf) (hmtx + 4 * (if g <? n then g else n - 1)) = Some advance /\
    exists q, f_glyph_width (pdf_font m 0 pf) g = Ok q /\ of_em q = OI32 z.
Lemma advance_written_inv : forall m pf g advance z, addressable (pf_bytes pf) -> advance_written m pf g advance z ->
  of_em (to_ems pf (Z.of_N advance)) = OI32 z /\ (wf_bytes (pf_bytes pf) -> advance < 65536).
Proof.
  intros m pf g w z A (hmtx & n & M & Hn & H & q & E & O). destruct (advance_width_ok m pf hmtx n g A M) as (_ & W1 & _).
  assert (L : wf_bytes (pf_bytes pf) -> w < 65536) by (intro W; apply (u16_at_bound _ _ _ W H)).
  replace (if g <? n then g else n - 1) with (N.min g (n - 1)) in H by (destruct (N.ltb_spec g n); lia).
  cbn [pdf_font f_glyph_width] in E. unfold glyph_width in E. rewrite (W1 ltac:(lia) w H) in E. cbn [bind] in E.
  injection E as <-. auto.
Qed.
(** In the PDF file: thousandths of the em, rounded down — or one less, if the thousandths come out even. *)
Theorem C20_pdf_width : forall m pf g advance z, addressable (pf_bytes pf) -> 0 < pf_units_per_em pf < 65536 ->
  advance_written m pf g advance z ->
  let thousandths := (Z.of_N (1000 * advance) # N.succ_pos (pf_units_per_em pf - 1))%Q in
  (inject_Z z <= thousandths + thousandths * (1 # 4194304))%Q /\
  (thousandths - thousandths * (1 # 4194304) < inject_Z (z + 1))%Q /\
  (1000 * advance < 4194304 ->
   z = Z.of_N (1000 * advance / pf_units_per_em pf) \/
   (1000 * advance) mod pf_units_per_em pf = 0 /\ (z + 1)%Z = Z.of_N (1000 * advance / pf_units_per_em pf)).
Proof.
  intros m pf g w z A U H. destruct (advance_written_inv m pf g w z A H) as [O L].
  destruct (pf_units_per_em pf) as [|u] eqn:E; [lia|].
  replace (N.succ_pos (N.pos u - 1)) with u
    by (assert (X : N.pos (N.succ_pos (N.pos u - 1)) = N.pos u) by (rewrite N.succ_pos_spec; lia); congruence).
  assert (Hu : (Z.pos u < 65536)%Z) by lia.
  destruct (thousandths_of_width pf u w E Hu) as (z' & O' & B1 & B2). rewrite O in O'. injection O' as <-.
  cbv zeta in *. split; [exact B1|]. split; [exact B2|]. intro Lw.
  destruct (thousandths_of_width_small pf u w E Hu Lw) as (z' & O' & C). rewrite O in O'. injection O' as ->.
  destruct C as [->|[C1 C2]]; [left; reflexivity|right]. split; [exact C1|]. lia.
Qed.
Print Assumptions C20_pdf_width.
(** With a power of two for the units per em, as TrueType recommends, nothing is lost before rounding down. *)
Theorem C20_pdf_width_exact : forall m pf g advance z k, wf_bytes (pf_bytes pf) -> addressable (pf_bytes pf) ->
  pf_units_per_em pf = 2 ^ k -> k < 16 ->
  advance_written m pf g advance z -> z = Z.of_N (1000 * advance / 2 ^ k).
Proof.
  intros m pf g w z k W A E Hk H. destruct (advance_written_inv m pf g w z A H) as [O L].
  rewrite (thousandths_of_width_exact pf k w E Hk (L W)) in O. injection O as <-. reflexivity.
Qed.
Print Assumptions C20_pdf_width_exact.
(** [font_bmp] with 502 for the advance of glyph 1: of 502/1000 of an em, 501 thousandths are written. *)
Definition font_502 : bytes := firstn 268 font_bmp ++ [1; 246] ++ skipn 270 font_bmp.
Theorem C20_pdf_width_refuted : exists f pf g advance z, parse_font Release f = Ok pf /\ addressable (pf_bytes pf) /\
  0 < pf_units_per_em pf < 65536 /\ advance_written Release pf g advance z /\
  z <> Z.of_N (1000 * advance / pf_units_per_em pf).
Proof.
  assert (F : match parse_font Release font_502 with
              | Ok pf => (N.of_nat (length (pf_bytes pf)) ?= 2 ^ 32) = Lt /\ pf_units_per_em pf = 1000 /\
                  pf_metrics pf = mkSlice 264 3 4 /\ u16_at (pf_bytes pf) 268 = Some 502 /\
                  match f_glyph_width (pdf_font Release 0 pf) 1 with Ok q => of_em q = OI32 501 | _ => False end
              | _ => False
              end) by (vm_compute; repeat split).
  exists font_502. destruct (parse_font Release font_502) as [pf|e|] eqn:E; [|contradiction|contradiction].
  destruct F as (A & U & M & W & Z). exists pf, 1, 502, 501%Z. rewrite U.
  split; [reflexivity|]. split; [exact A|]. split; [split; reflexivity|]. split; [|discriminate].
  exists 264, 3. split; [exact M|]. split; [reflexivity|]. split; [exact W|].
  destruct (f_glyph_width (pdf_font Release 0 pf) 1) as [q|e|]; [|contradiction|contradiction].
  exists q. split; [reflexivity|exact Z].
Qed.
Print Assumptions C20_pdf_width_refuted.
(** The f32 nearest to 3/5 and to 731/1000 *)
Example C20_example :
  match parse_font Release font_bmp with
  | Ok pf => pf_metrics pf = mkSlice 264 3 4 /\
      map (glyph_width Debug pf) [0; 1; 2; 3; 65535] =
      [Ok (1 # 2)%Q; Ok (5033165 # 8388608)%Q; Ok (12264145 # 16777216)%Q; Ok (12264145 # 16777216)%Q;
       Ok (12264145 # 16777216)%Q] /\
      u16_at (pf_bytes pf) (264 + 4 * 2) = Some 731 /\
      match f_glyph_width (pdf_font Debug 0 pf) 3 with Ok q => of_em q = OI32 731 | _ => False end
  | _ => False
  end.
Proof. vm_compute. repeat split. Qed.

(** ** C36 *)
Theorem C36_release_never_panics : forall f, wf_bytes f ->
  parse_font Release f <> Panic /\
  forall pf, parse_font Release f = Ok pf ->
    each_code_point Release pf <> Panic /\
    (forall c, glyph_id Release pf c <> Panic) /\ (forall g, glyph_width Release pf g <> Panic).
Proof. exact release_safe. Qed.
Print Assumptions C36_release_never_panics.
(** A debug build gives the same results unless it panics. *)
Theorem C36_debug_agrees : 
  (forall f, parse_font Debug f = Panic \/ parse_font Debug f = parse_font Release f) /\
  (forall pf, each_code_point Debug pf = Panic \/ each_code_point Debug pf = each_code_point Release pf) /\
  (forall pf c, glyph_id Debug pf c = Panic \/ glyph_id Debug pf c = glyph_id Release pf c) /\
  (forall pf g, glyph_width Debug pf g = Panic \/ glyph_width Debug pf g = glyph_width Release pf g).
Proof.
  exact (conj agree_parse_font (conj agree_each_code_point (conj agree_glyph_id agree_glyph_width))).
Qed.
Print Assumptions C36_debug_agrees.
(** And it does panic: a file of less than 400 bytes is enough. *)
Theorem C36_debug_panics_refuted : exists f, wf_bytes f /\ parse_font Debug f = Panic.
Proof. exists font_hostile. split; [apply bytes_ok; vm_compute; reflexivity|vm_compute; reflexivity]. Qed.
Print Assumptions C36_debug_panics_refuted.
Example C36_example : exists pf, parse_font Release font_hostile = Ok pf.
Proof. eexists. vm_compute. reflexivity. Qed.

(** ** C37 *)
(** Whatever [parse_font] accepts, the values are those of the file's tables. *)
Theorem C37_parsed_fields : forall m f d pf, wf_bytes f -> directory f = Some d -> tags_sorted d ->
  (forall tag off, In (tag, off) d -> off + 54 < 2 ^ 32) ->
  parse_font m f = Ok pf ->
  (u32_at f 0 = Some 65536 \/ u32_at f 0 = Some 1953658213) /\
  exists maxp head hhea hmtx,
    In (bs "maxp", maxp) d /\ In (bs "head", head) d /\ In (bs "hhea", hhea) d /\ In (bs "hmtx", hmtx) d /\
    pf_bytes pf = f /\
    u16_at f (maxp + 4) = Some (pf_glyph_count pf) /\
    u16_at f (head + 18) = Some (pf_units_per_em pf) /\
    i16_at f (head + 36) = Some (pf_min_x pf) /\ i16_at f (head + 38) = Some (pf_min_y pf) /\
    i16_at f (head + 40) = Some (pf_max_x pf) /\ i16_at f (head + 42) = Some (pf_max_y pf) /\
    i16_at f (hhea + 4) = Some (pf_ascender pf) /\ i16_at f (hhea + 6) = Some (pf_descender pf) /\
    u16_at f (hhea + 34) = Some (s_count (pf_metrics pf)) /\
    s_start (pf_metrics pf) = hmtx /\ s_size (pf_metrics pf) = 4.
Proof. exact parsed_fields. Qed.
Print Assumptions C37_parsed_fields.
Example C37_example :
  match parse_font Debug font_bmp with
  | Ok pf => (pf_name pf, pf_glyph_count pf, pf_units_per_em pf) = (bs "Demo", 6, 1000) /\
      [pf_min_x pf; pf_min_y pf; pf_max_x pf; pf_max_y pf; pf_ascender pf; pf_descender pf]
      = [-50; -200; 900; 800; 800; -200]%Z
  | _ => False
  end.
Proof. vm_compute. split; reflexivity. Qed.
