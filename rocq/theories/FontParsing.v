(** Model of victor/src/fonts/parsing.rs, types.rs, tables.rs and of the derive macro
    [SfntTable] (proc-macros/src/lib.rs): positions, slices, reads, binary search.
    [font_error] is fonts/mod.rs:23-46, defined in [PdfConvert]. *)
From Verif Require Import Base PdfConvert.
Local Open Scope N_scope.
Local Open Scope res_scope.

(** Arithmetic on [u16] and [u32] panics on overflow when built with overflow checks
    ([Debug]) and wraps otherwise ([Release]). *)
Inductive build := Debug | Release.
(** [Result<A, FontError>]: fonts/mod.rs:23-46 *)
Definition result (A : Type) := res font_error A.

(** The overflow check of parsing.rs:47 and 53, for [w] bits *)
Definition exact (m : build) (w : N) (n : N) : result N :=
  if n <? 2 ^ w then Ok n else match m with Debug => Panic | Release => Ok (n mod 2 ^ w) end.
(** [+] of [u32]: parsing.rs:47 *)
Definition add32 (m : build) (a b : N) : result N := exact m 32 (a + b).
(** [*] of [u32]: parsing.rs:53 *)
Definition mul32 (m : build) (a b : N) : result N := exact m 32 (a * b).
(** [+] of [u16]: cmap.rs:130-152 *)
Definition add16 (m : build) (a b : N) : result N := exact m 16 (a + b).
(** [-] for [w] bits: cmap.rs:154-179 *)
Definition sub_w (m : build) (w a b : N) : result N :=
  if b <=? a then Ok (a - b)
  else match m with Debug => Panic | Release => Ok ((a + 2 ^ w - b) mod 2 ^ w) end.
(** [-] of [u16]: cmap.rs:154-179 *)
Definition sub16 (m : build) := sub_w m 16.
(** [-] of [u32]: cmap.rs:199-228 *)
Definition sub32 (m : build) := sub_w m 32.

(** ** Positions (parsing.rs:6-70)
    A [Position<T>] is its [byte_position: u32]; [T] gives the size of [T] where it matters.
    [cast] (38-43) is the identity. *)
Definition position := N.
(** [Position::initial]: parsing.rs:28-35 *)
Definition initial : position := 0.
(** 45-50 *)
Definition offset_bytes (m : build) (p : position) (by_ : N) : result position := add32 m p by_.
(** 52-54 *)
Definition offset (m : build) (size : N) (p : position) (by_ : N) : result position :=
  x <- mul32 m size by_ ;; offset_bytes m p x.
(** 56-58 *)
Definition followed_by (m : build) (size : N) (p : position) : result position := offset_bytes m p size.

(** [bytes.get(n..)] and [bytes.get(..n)]: parsing.rs:66, 83, 154 and 156 *)
Definition length_N (l : bytes) : N := N.of_nat (List.length l).
(** [bytes.get(n..)]: parsing.rs:66 and 154 *)
Definition get_from (l : bytes) (n : N) : option bytes :=
  if n <=? length_N l then Some (skipn (N.to_nat n) l) else None.
(** [bytes.get(..n)]: parsing.rs:83 and 156 *)
Definition get_to (l : bytes) (n : N) : option bytes :=
  if n <=? length_N l then Some (firstn (N.to_nat n) l) else None.
(** [Option::ok_or]: parsing.rs:67 *)
Definition ok_or {A} (o : option A) (e : font_error) : result A :=
  match o with Some a => Ok a | None => Err e end.

(** 60-69 [Position::read_from], given the [read_from] of the type *)
Definition read_at {A} (read_from : bytes -> result A) (l : bytes) (p : position) : result A :=
  rest <- ok_or (get_from l p) OffsetBeyondEof ;; read_from rest.

(** 76-95 [byte_arrays!]: the unsafe cast reads exactly the checked bytes *)
Definition read_array (size : N) (l : bytes) : result bytes :=
  ok_or (get_to l size) OffsetPlusLengthBeyondEof.

(** 97-131: [transmute] of the bytes followed by [from_be]: the big-endian value *)
Definition be (l : bytes) : N := fold_left (fun acc b => acc * 256 + b) l 0.
(** [u16] as [i16]: parsing.rs:97-99 *)
Definition signed16 (n : N) : Z := if n <? 32768 then Z.of_N n else (Z.of_N n - 65536)%Z.
(** parsing.rs:101-103 and 117-123 *)
Definition from_u16 (l : bytes) : result N := a <- read_array 2 l ;; Ok (be a).
(** parsing.rs:97-99 and 109-115 *)
Definition from_i16 (l : bytes) : result Z := a <- read_array 2 l ;; Ok (signed16 (be a)).
(** parsing.rs:105-107 and 125-131 *)
Definition from_u32 (l : bytes) : result N := a <- read_array 4 l ;; Ok (be a).
(** types.rs:18-19 [Tag], and proc-macros/src/lib.rs:97-112 *)
Definition from_tag (l : bytes) : result bytes := read_array 4 l.

(** parsing.rs:60-69 for [u16] *)
Definition read_u16 (l : bytes) (p : position) : result N := read_at from_u16 l p.
(** parsing.rs:60-69 for [i16] *)
Definition read_i16 (l : bytes) (p : position) : result Z := read_at from_i16 l p.
(** parsing.rs:60-69 for [u32] *)
Definition read_u32 (l : bytes) (p : position) : result N := read_at from_u32 l p.
(** parsing.rs:60-69 for [Tag] *)
Definition read_tag (l : bytes) (p : position) : result bytes := read_at from_tag l p.

(** ** Record layouts: tables.rs through [derive_sfnt_table] (proc-macros/src/lib.rs:16-95) *)
Inductive field_type := U16 | I16 | U32 | FWord | UFWord | UnitsPerEm | FixedPoint | Tag | LongDateTime.
(** lib.rs:61-66 *)
Definition field_size (t : field_type) : N :=
  match t with
  | U16 | I16 | FWord | UFWord | UnitsPerEm => 2
  | U32 | FixedPoint | Tag => 4
  | LongDateTime => 8
  end.
(** The fields of a struct: lib.rs:49 *)
Definition layout := list (string * field_type).
(** lib.rs:48-77: the accumulated [offset]; a missing field is a compile-time error *)
Fixpoint field_offset (from : N) (s : layout) (name : string) : N :=
  match s with
  | [] => from
  | (n, t) :: r => if String.eqb n name then from else field_offset (from + field_size t) r name
  end.
(** [size_of]: lib.rs:77 *)
Definition size_of (s : layout) : N := fold_left (fun acc f => acc + field_size (snd f)) s 0.
(** lib.rs:67-69: the alignment assertion of the macro *)
Fixpoint aligned (from : N) (s : layout) : bool :=
  match s with
  | [] => true
  | (n, t) :: r => (from mod (N.min (field_size t) 4) =? 0) && aligned (from + field_size t) r
  end.
(** lib.rs:70-74: the accessor methods *)
Definition field (m : build) (s : layout) (name : string) (p : position) : result position :=
  offset_bytes m p (field_offset 0 s name).

Local Open Scope string_scope.
(** tables.rs:6-13 *)
Definition OffsetSubtable : layout :=
  [("scaler_type", U32); ("table_count", U16); ("_search_range", U16); ("_entry_selector", U16); ("_range_shift", U16)].
(** tables.rs:15-21 *)
Definition TableDirectoryEntry : layout :=
  [("tag", Tag); ("_checksum", U32); ("table_offset", U32); ("_length", U32)].
(** tables.rs:23-30 *)
Definition MaximumProfile : layout := [("_version", FixedPoint); ("num_glyphs", U16); ("_padding", U16)].
(** tables.rs:32-38 *)
Definition NamingTableHeader : layout := [("_format", U16); ("count", U16); ("string_offset", U16)].
(** tables.rs:40-48 *)
Definition NameRecord : layout :=
  [("platform_id", U16); ("encoding_id", U16); ("_language_id", U16); ("name_id", U16);
   ("length", U16); ("string_offset", U16)].
(** tables.rs:50-55 *)
Definition CmapHeader : layout := [("_version", U16); ("num_tables", U16)].
(** tables.rs:57-62 *)
Definition CmapEncodingRecord : layout :=
  [("platform_id", U16); ("encoding_id", U16); ("subtable_offset", U32)].
(** tables.rs:64-73 *)
Definition CmapFormat4Header : layout :=
  [("_format", U16); ("_length", U16); ("_language", U16); ("segment_count_x2", U16);
   ("_search_range", U16); ("_entry_selector", U16); ("_range_shift", U16)].
(** tables.rs:75-82 *)
Definition CmapFormat12Header : layout :=
  [("_format", U16); ("__reserved", U16); ("_length", U32); ("_language", U32); ("num_groups", U32)].
(** tables.rs:84-89 *)
Definition CmapFormat12Group : layout :=
  [("start_char_code", U32); ("end_char_code", U32); ("start_glyph_id", U32)].
(** tables.rs:91-112 *)
Definition FontHeader : layout :=
  [("_version", FixedPoint); ("_font_revision", FixedPoint); ("_checksum_adjustment", U32);
   ("_magic_number", U32); ("_flags", U16); ("units_per_em", UnitsPerEm); ("_created", LongDateTime);
   ("_modified", LongDateTime); ("min_x", FWord); ("min_y", FWord); ("max_x", FWord); ("max_y", FWord);
   ("_mac_style", U16); ("_smallest_readable_size_in_px_per_em", U16); ("_font_direction_hint", I16);
   ("_index_to_loc_format", I16); ("_glyph_data_format", I16); ("__padding", U16)].
(** tables.rs:114-134 *)
Definition HorizontalHeader : layout :=
  [("_version", FixedPoint); ("ascender", FWord); ("descender", FWord); ("_line_gap", FWord);
   ("_max_advance_width", UFWord); ("_min_left_side_bearing", FWord); ("_max_left_side_bearing", FWord);
   ("_x_max_extent", FWord); ("_caret_slope_rise", I16); ("_caret_slope_run", I16); ("_carret_offset", FWord);
   ("__reserved_1", I16); ("__reserved_2", I16); ("__reserved_3", I16); ("__reserved_4", I16);
   ("_metric_data_format", I16); ("number_of_long_horizontal_metrics", U16)].
(** tables.rs:136-141 *)
Definition LongHorizontalMetricsRecord : layout := [("advance_width", UFWord); ("_left_side_bearing", I16)].
Local Close Scope string_scope.

(** Reading a field of a record: lib.rs:70-74, then parsing.rs:60-69 *)
Definition field_u16 (m : build) (s : layout) (name : string) (l : bytes) (p : position) : result N :=
  q <- field m s name p ;; read_u16 l q.
(** lib.rs:70-74, then parsing.rs:60-69 *)
Definition field_i16 (m : build) (s : layout) (name : string) (l : bytes) (p : position) : result Z :=
  q <- field m s name p ;; read_i16 l q.
(** lib.rs:70-74, then parsing.rs:60-69 *)
Definition field_u32 (m : build) (s : layout) (name : string) (l : bytes) (p : position) : result N :=
  q <- field m s name p ;; read_u32 l q.

(** ** Slices (parsing.rs:15-20, 151-194) *)
Record slice : Type := mkSlice { s_start : position; s_count : N; s_size : N (* size_of::<T>() *) }.
(** 151-159 [Slice<u8>::read_from] *)
Definition slice_read (l : bytes) (s : slice) : result bytes :=
  rest <- ok_or (get_from l (s_start s)) OffsetBeyondEof ;;
  ok_or (get_to rest (s_count s)) OffsetPlusLengthBeyondEof.
(** 175-177 *)
Definition get_unchecked (m : build) (s : slice) (index : N) : result position :=
  offset m (s_size s) (s_start s) index.

(** ** Binary search (parsing.rs:197-223).
    [Lt]/[Eq]/[Gt] are Rust's [Less]/[Equal]/[Greater].  [base + half] is below the original
    [size], so needs no overflow check.  The fuel bounds the number of iterations. *)
Fixpoint search_loop {E} (fuel : nat) (f : N -> res E comparison) (base size : N) : res E (option N) :=
  if 1 <? size then
    match fuel with
    | O => Panic
    | S fuel =>
        let half := size / 2 in
        let mid := base + half in
        cmp <- f mid ;;
        search_loop fuel f (match cmp with Gt => base | _ => mid end) (size - half)
    end
  else
    cmp <- f base ;;
    Ok (match cmp with Eq => Some base | _ => None end).
(** parsing.rs:197-223 *)
Definition binary_search {E} (size : N) (f : N -> res E comparison) : res E (option N) :=
  if size =? 0 then Ok None else search_loop (N.to_nat (N.size size)) f 0 size.

(** 180-193; the key's [Ord] is [cmp] *)
Definition binary_search_by_key {V} (m : build) (s : slice) (value : V) (cmp : V -> V -> comparison)
    (f : position -> result V) : result (option position) :=
  o <- binary_search (s_count s) (fun index =>
         p <- get_unchecked m s index ;; v <- f p ;; Ok (cmp v value)) ;;
  match o with
  | Some index => p <- get_unchecked m s index ;; Ok (Some p)
  | None => Ok None
  end.

(** ** Iteration (parsing.rs:22-26, 249-289) *)
Record slice_iter : Type := mkIter { i_start : position; i_end : position; i_size : N }.
(** 253-258 *)
Definition into_iter (m : build) (s : slice) : result slice_iter :=
  e <- get_unchecked m s (s_count s) ;; Ok (mkIter (s_start s) e (s_size s)).
(** 264-272 *)
Definition next (m : build) (i : slice_iter) : result (option (position * slice_iter)) :=
  if i_start i =? i_end i then Ok None
  else p <- followed_by m (i_size i) (i_start i) ;;
       Ok (Some (i_start i, mkIter p (i_end i) (i_size i))).
(** 276-288 *)
Definition next_back (m : build) (i : slice_iter) : result (option (position * slice_iter)) :=
  if i_start i =? i_end i then Ok None
  else p <- sub32 m (i_end i) (i_size i) ;;
       Ok (Some (i_end i, mkIter (i_start i) p (i_size i))).

(** [for x in iter { body }]: the body either continues with a new accumulator or returns.
    The fuel bounds the number of iterations.  fonts/mod.rs:236, cmap.rs:24 *)
Inductive flow (A R : Type) := Continue (a : A) | Return (r : R).
Arguments Continue {A R} a.
Arguments Return {A R} r.
(** [for] over the iterator of parsing.rs:249-289: fonts/mod.rs:236, cmap.rs:24 *)
Fixpoint for_each {A R} (fuel : nat) (step : slice_iter -> result (option (position * slice_iter)))
    (body : A -> position -> result (flow A R)) (a : A) (i : slice_iter) : result (flow A R) :=
  o <- step i ;;
  match o with
  | None => Ok (Continue a)
  | Some (p, i') =>
      match fuel with
      | O => Panic
      | S fuel =>
          r <- body a p ;;
          match r with
          | Continue a' => for_each fuel step body a' i'
          | Return r => Ok (Return r)
          end
      end
  end.
