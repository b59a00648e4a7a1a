(** Model of victor/src/fonts/cmap.rs and victor/src/fonts/mod.rs. *)
From Verif Require Import Base Float32 PdfConvert FontParsing.
From Coq Require Export QArith.
Local Open Scope N_scope.
Local Open Scope res_scope.

(** ** Table directory (fonts/mod.rs:263-270) *)
(** Lexicographic order of [[u8; 4]] *)
Fixpoint tag_cmp (a b : bytes) : comparison :=
  match a, b with
  | [], [] => Eq
  | [], _ => Lt
  | _, [] => Gt
  | x :: a, y :: b => match N.compare x y with Eq => tag_cmp a b | c => c end
  end.
(** fonts/mod.rs:263-270 *)
Definition find_table (m : build) (dir : slice) (l : bytes) (tag : bytes) : result position :=
  search <- binary_search_by_key m dir tag tag_cmp
              (fun entry => p <- field m TableDirectoryEntry "tag" entry ;; read_tag l p) ;;
  entry <- ok_or search MissingTable ;;
  off <- field_u32 m TableDirectoryEntry "table_offset" l entry ;;
  offset_bytes m initial off.

(** ** Format 4 (cmap.rs:73-180) *)
Record format4 : Type := mkF4 {
  segment_count : N; end_codes : position; start_codes : position;
  id_deltas : position; id_range_offsets : position }.

(** 83-101; [size_of::<u16>()] is 2 *)
Definition format4_parse (m : build) (l : bytes) (header : position) : result format4 :=
  x2 <- field_u16 m CmapFormat4Header "segment_count_x2" l header ;;
  let n := x2 / 2 in
  e <- followed_by m (size_of CmapFormat4Header) header ;;
  n1 <- add32 m n 1 ;;
  s <- offset m 2 e n1 ;;
  d <- offset m 2 s n ;;
  r <- offset m 2 d n ;;
  Ok (mkF4 n e s d r).

(** [self.xs.offset(i).read_from(bytes)?]: cmap.rs:114, 116 and 123 *)
Definition nth_u16 (m : build) (l : bytes) (xs : position) (i : N) : result N :=
  p <- offset m 2 xs i ;; read_u16 l p.

(** 154-179 *)
Definition format4_glyph_id (m : build) (l : bytes) (t : format4) (i start_code code_point : N)
  : result (option N) :=
  id_delta <- nth_u16 m l (id_deltas t) i ;;
  rp <- offset m 2 (id_range_offsets t) i ;;
  id_range_offset <- read_u16 l rp ;;
  glyph_id <-
    (if id_range_offset =? 0 then Ok ((code_point + id_delta) mod 2 ^ 16)
     else
       diff <- sub16 m code_point start_code ;;
       p <- offset m 2 rp diff ;;
       p <- offset_bytes m p id_range_offset ;;
       r <- read_u16 l p ;;
       Ok (if r =? 0 then 0 else (r + id_delta) mod 2 ^ 16)) ;;
  Ok (if glyph_id =? 0 then None else Some glyph_id).

(** 103-128 *)
Definition format4_get (m : build) (l : bytes) (t : format4) (code_point : N) : result (option N) :=
  if 65535 <? code_point then Ok None
  else
    o <- binary_search (segment_count t) (fun i =>
           e <- nth_u16 m l (end_codes t) i ;;
           if e <? code_point then Ok Lt
           else
             s <- nth_u16 m l (start_codes t) i ;;
             if code_point <? s then Ok Gt else Ok Eq) ;;
    match o with
    | Some i => s <- nth_u16 m l (start_codes t) i ;; format4_glyph_id m l t i s code_point
    | None => Ok None
    end.

(** 130-152.  The inner [loop] counts from [code_point] to [end_code] on [u16]; the callback
    [f] is the list of the calls made.  The number of further iterations is
    [end_code - code_point] modulo 2^16. *)
Fixpoint format4_loop (fuel : nat) (m : build) (l : bytes) (t : format4)
    (i start_code end_code code_point : N) : result (list (N * N)) :=
  g <- format4_glyph_id m l t i start_code code_point ;;
  let call := match g with Some g => [(code_point, g)] | None => [] end in
  if code_point =? end_code then Ok call
  else
    match fuel with
    | O => Panic
    | S fuel =>
        next <- add16 m code_point 1 ;;
        rest <- format4_loop fuel m l t i start_code end_code next ;;
        Ok (call ++ rest)
    end.
(** cmap.rs:130-152, the outer loop *)
Fixpoint format4_segments (n : nat) (m : build) (l : bytes) (t : format4) (i : N) : result (list (N * N)) :=
  match n with
  | O => Ok []
  | S n =>
      s <- nth_u16 m l (start_codes t) i ;;
      e <- nth_u16 m l (end_codes t) i ;;
      calls <- format4_loop (N.to_nat ((e + 2 ^ 16 - s) mod 2 ^ 16)) m l t i s e s ;;
      rest <- format4_segments n m l t (i + 1) ;;
      Ok (calls ++ rest)
  end.
(** cmap.rs:130-152 *)
Definition format4_each (m : build) (l : bytes) (t : format4) : result (list (N * N)) :=
  format4_segments (N.to_nat (segment_count t)) m l t 0.

(** ** Format 12 (cmap.rs:182-251) *)
Record format12 : Type := mkF12 { groups : slice }.

(** 187-197 *)
Definition format12_parse (m : build) (l : bytes) (header : position) : result format12 :=
  start <- followed_by m (size_of CmapFormat12Header) header ;;
  n <- field_u32 m CmapFormat12Header "num_groups" l header ;;
  Ok (mkF12 (mkSlice start n (size_of CmapFormat12Group))).

(** 199-228 *)
Definition format12_get (m : build) (l : bytes) (t : format12) (code_point : N) : result (option N) :=
  o <- binary_search (s_count (groups t)) (fun i =>
         g <- get_unchecked m (groups t) i ;;
         s <- field_u32 m CmapFormat12Group "start_char_code" l g ;;
         if code_point <? s then Ok Gt
         else
           e <- field_u32 m CmapFormat12Group "end_char_code" l g ;;
           if e <? code_point then Ok Lt else Ok Eq) ;;
  match o with
  | Some i =>
      g <- get_unchecked m (groups t) i ;;
      sg <- field_u32 m CmapFormat12Group "start_glyph_id" l g ;;
      s <- field_u32 m CmapFormat12Group "start_char_code" l g ;;
      diff <- sub32 m code_point s ;;
      id32 <- add32 m sg diff ;;
      Ok (if id32 <=? 65535 then Some id32 else None)
  | None => Ok None
  end.

(** 230-250 *)
Fixpoint format12_loop (fuel : nat) (m : build) (start_code end_code start_glyph_id code_point : N)
  : result (list (N * N)) :=
  diff <- sub32 m code_point start_code ;;
  g <- add32 m diff start_glyph_id ;;
  let call := (code_point, g mod 2 ^ 16) in
  if code_point =? end_code then Ok [call]
  else
    match fuel with
    | O => Panic
    | S fuel =>
        next <- add32 m code_point 1 ;;
        rest <- format12_loop fuel m start_code end_code start_glyph_id next ;;
        Ok (call :: rest)
    end.
(** cmap.rs:235-247, one group *)
Definition format12_group (m : build) (l : bytes) (group : position) : result (list (N * N)) :=
  s <- field_u32 m CmapFormat12Group "start_char_code" l group ;;
  e <- field_u32 m CmapFormat12Group "end_char_code" l group ;;
  sg <- field_u32 m CmapFormat12Group "start_glyph_id" l group ;;
  format12_loop (N.to_nat ((e + 2 ^ 32 - s) mod 2 ^ 32)) m s e sg s.
(** cmap.rs:230-250 *)
Definition format12_each (m : build) (l : bytes) (t : format12) : result (list (N * N)) :=
  it <- into_iter m (groups t) ;;
  r <- for_each (N.to_nat (s_count (groups t))) (next m)
         (fun acc p => calls <- format12_group m l p ;; Ok (Continue (acc ++ calls))) [] it ;;
  match r with
  | Continue calls => Ok calls
  | Return r => match r : Empty_set with end
  end.

(** ** The character map (cmap.rs:7-71) *)
Inductive cmap := Format4 (t : format4) | Format12 (t : format12).

(** 13-48.  [rev()] iterates with [next_back]. *)
Definition cmap_record (m : build) (l : bytes) (header record : position) : result (flow unit cmap) :=
  off <- field_u32 m CmapEncodingRecord "subtable_offset" l record ;;
  subtable <- offset_bytes m header off ;;
  format <- read_u16 l subtable ;;
  platform <- field_u16 m CmapEncodingRecord "platform_id" l record ;;
  encoding <- field_u16 m CmapEncodingRecord "encoding_id" l record ;;
  if (platform =? 3) && (encoding =? 1) && (format =? 4) then
    t <- format4_parse m l subtable ;; Ok (Return (Format4 t))
  else if (platform =? 3) && (encoding =? 10) && (format =? 12) then
    t <- format12_parse m l subtable ;; Ok (Return (Format12 t))
  else Ok (Continue tt).
(** cmap.rs:13-48 *)
Definition cmap_parse (m : build) (l : bytes) (dir : slice) : result cmap :=
  header <- find_table m dir l (bs "cmap") ;;
  start <- followed_by m (size_of CmapHeader) header ;;
  n <- field_u16 m CmapHeader "num_tables" l header ;;
  it <- into_iter m (mkSlice start n (size_of CmapEncodingRecord)) ;;
  r <- for_each (N.to_nat n) (next_back m) (fun _ record => cmap_record m l header record) tt it ;;
  match r with
  | Return c => Ok c
  | Continue _ => Err NoSupportedCmap
  end.

(** [char::from_u32] *)
Definition is_char (c : N) : bool := (c <? 55296) || ((57344 <=? c) && (c <? 1114112)).
(** 50-70: the pairs passed to the caller's callback *)
Definition cmap_each (m : build) (l : bytes) (c : cmap) : result (list (N * N)) :=
  calls <- match c with Format4 t => format4_each m l t | Format12 t => format12_each m l t end ;;
  Ok (filter (fun cg => negb (snd cg =? 0) && is_char (fst cg)) calls).

(** ** PostScript name (mod.rs:198-257)
    Strings are UTF-8. *)
Definition utf8 (c : N) : bytes :=
  if c <? 128 then [c]
  else if c <? 2048 then [192 + c / 64; 128 + c mod 64]
  else if c <? 65536 then [224 + c / 4096; 128 + c / 64 mod 64; 128 + c mod 64]
  else [240 + c / 262144; 128 + c / 4096 mod 64; 128 + c / 64 mod 64; 128 + c mod 64].
(** [char::REPLACEMENT_CHARACTER], fonts/mod.rs:213 *)
Definition replacement : N := 65533.

(** [String::from_utf8_lossy]: each maximal prefix of a valid sequence (Unicode table 3-7), or
    else each byte, that is not valid UTF-8 becomes U+FFFD.  [second b] is the range of the
    second byte after [b], with the number of further bytes. *)
Definition in_range (lo hi b : N) : bool := (lo <=? b) && (b <=? hi).
(** Part of [String::from_utf8_lossy], fonts/mod.rs:203-205 *)
Definition second (b : N) : option (N * N * nat) :=
  if in_range 194 223 b then Some (128, 191, 0%nat)
  else if b =? 224 then Some (160, 191, 1%nat)
  else if in_range 225 236 b || in_range 238 239 b then Some (128, 191, 1%nat)
  else if b =? 237 then Some (128, 159, 1%nat)
  else if b =? 240 then Some (144, 191, 2%nat)
  else if in_range 241 243 b then Some (128, 191, 2%nat)
  else if b =? 244 then Some (128, 143, 2%nat)
  else None.
(** Reads [n] continuation bytes; the boolean tells whether all were there.  Part of [String::from_utf8_lossy], fonts/mod.rs:203-205 *)
Fixpoint continuation (n : nat) (l : bytes) : bytes * bytes * bool :=
  match n with
  | O => ([], l, true)
  | S n => match l with
           | b :: r => if in_range 128 191 b
                       then let '(got, rest, ok) := continuation n r in (b :: got, rest, ok)
                       else ([], l, false)
           | [] => ([], [], false)
           end
  end.
(** [String::from_utf8_lossy], fonts/mod.rs:203-205 *)
Fixpoint lossy (fuel : nat) (l : bytes) : bytes :=
  match fuel, l with
  | S fuel, b :: r =>
      if b <? 128 then b :: lossy fuel r
      else match second b with
           | None => utf8 replacement ++ lossy fuel r
           | Some (lo, hi, n) =>
               match r with
               | c :: r' =>
                   if in_range lo hi c then
                     let '(got, rest, ok) := continuation n r' in
                     if ok then b :: c :: got ++ lossy fuel rest
                     else utf8 replacement ++ lossy fuel rest
                   else utf8 replacement ++ lossy fuel r
               | [] => utf8 replacement
               end
           end
  | _, _ => []
  end.
(** 203-205 *)
Definition decode_macintosh (s : bytes) : bytes := lossy (List.length s) s.
(** 208-219 *)
Fixpoint decode_ucs2 (s : bytes) : bytes :=
  match s with
  | [] => []
  | [_] => utf8 replacement
  | a :: b :: r => (if a =? 0 then utf8 b else utf8 replacement) ++ decode_ucs2 r
  end.

(** 228-254: one name record *)
Definition name_record (m : build) (l : bytes) (storage record : position) : result (flow unit bytes) :=
  id <- field_u16 m NameRecord "name_id" l record ;;
  if negb (id =? 6) then Ok (Continue tt)
  else
    platform <- field_u16 m NameRecord "platform_id" l record ;;
    encoding <- field_u16 m NameRecord "encoding_id" l record ;;
    let string_bytes :=
      so <- field_u16 m NameRecord "string_offset" l record ;;
      p <- offset_bytes m storage so ;;
      n <- field_u16 m NameRecord "length" l record ;;
      slice_read l (mkSlice p n 1) in
    if platform =? 1 then s <- string_bytes ;; Ok (Return (decode_macintosh s))
    else if (platform =? 3) && (encoding =? 1) then s <- string_bytes ;; Ok (Return (decode_ucs2 s))
    else Ok (Continue tt).
(** fonts/mod.rs:198-257 *)
Definition read_postscript_name (m : build) (l : bytes) (dir : slice) : result bytes :=
  header <- find_table m dir l (bs "name") ;;
  start <- followed_by m (size_of NamingTableHeader) header ;;
  n <- field_u16 m NamingTableHeader "count" l header ;;
  so <- field_u16 m NamingTableHeader "string_offset" l header ;;
  storage <- offset_bytes m header so ;;
  it <- into_iter m (mkSlice start n (size_of NameRecord)) ;;
  r <- for_each (N.to_nat n) (next m) (fun _ record => name_record m l storage record) tt it ;;
  match r with
  | Return s => Ok s
  | Continue _ => Err NoSupportedPostscriptName
  end.

(** ** Fonts (mod.rs:48-195) *)
Record parsed_font : Type := mkParsed {
  pf_bytes : bytes;
  pf_cmap : cmap;
  pf_name : bytes;
  pf_glyph_count : N;
  pf_units_per_em : N;
  pf_metrics : slice;
  pf_ascender : Z; pf_descender : Z;
  pf_min_x : Z; pf_min_y : Z; pf_max_x : Z; pf_max_y : Z }.

(** 76-124: struct fields are initialised in source order.  [TRUETYPE] is 0x74727565. *)
Definition parse_font (m : build) (l : bytes) : result parsed_font :=
  scaler <- field_u32 m OffsetSubtable "scaler_type" l initial ;;
  if negb (scaler =? 1953658213) && negb (scaler =? 65536) then Err UnsupportedFormat
  else
    start <- followed_by m (size_of OffsetSubtable) initial ;;
    n <- field_u16 m OffsetSubtable "table_count" l initial ;;
    let dir := mkSlice start n (size_of TableDirectoryEntry) in
    maxp <- find_table m dir l (bs "maxp") ;;
    head <- find_table m dir l (bs "head") ;;
    glyph_count <- field_u16 m MaximumProfile "num_glyphs" l maxp ;;
    hhea <- find_table m dir l (bs "hhea") ;;
    name <- read_postscript_name m l dir ;;
    cm <- cmap_parse m l dir ;;
    hmtx <- find_table m dir l (bs "hmtx") ;;
    count <- field_u16 m HorizontalHeader "number_of_long_horizontal_metrics" l hhea ;;
    upem <- field_u16 m FontHeader "units_per_em" l head ;;
    asc <- field_i16 m HorizontalHeader "ascender" l hhea ;;
    desc <- field_i16 m HorizontalHeader "descender" l hhea ;;
    x0 <- field_i16 m FontHeader "min_x" l head ;;
    y0 <- field_i16 m FontHeader "min_y" l head ;;
    x1 <- field_i16 m FontHeader "max_x" l head ;;
    y1 <- field_i16 m FontHeader "max_y" l head ;;
    Ok (mkParsed l cm name glyph_count upem
          (mkSlice hmtx count (size_of LongHorizontalMetricsRecord)) asc desc x0 y0 x1 y1).

(** 136-141 *)
Definition each_code_point (m : build) (f : parsed_font) : result (list (N * N)) :=
  cmap_each m (pf_bytes f) (pf_cmap f).
(** 143-151 *)
Definition glyph_id (m : build) (f : parsed_font) (ch : N) : result N :=
  o <- match pf_cmap f with
       | Format4 t => format4_get m (pf_bytes f) t ch
       | Format12 t => format12_get m (pf_bytes f) t ch
       end ;;
  Ok (match o with Some g => g | None => 0 end).
(** 153-169 before [to_ems]: the advance width in font design units *)
Definition advance_width (m : build) (f : parsed_font) (g : N) : result N :=
  let n := s_count (pf_metrics f) in
  if n =? 0 then Err NoHorizontalGlyphMetrics
  else
    p <- get_unchecked m (pf_metrics f) (N.min g (n - 1)) ;;
    field_u16 m LongHorizontalMetricsRecord "advance_width" (pf_bytes f) p.
(** 171-176.  16-bit integers are exact as [f32]; for [units_per_em] 0 the code gets an infinity or NaN
    where this gives 0. *)
Definition to_ems (f : parsed_font) (z : Z) : Q :=
  match pf_units_per_em f with
  | 0 => 0%Q
  | Npos u => round32 (z # u)
  end.
(** fonts/mod.rs:153-176 *)
Definition glyph_width (m : build) (f : parsed_font) (g : N) : result Q :=
  w <- advance_width m f g ;; Ok (to_ems f (Z.of_N w)).

(** What the PDF writer sees of a font allocated at [addr] (accessors 126-195).  A panic of
    [each_code_point] has no counterpart in [f_code_points_result]. *)
Definition pdf_font (m : build) (addr : N) (f : parsed_font) : font :=
  mkFont addr (pf_bytes f) (pf_name f)
    (to_ems f (pf_min_x f)) (to_ems f (pf_min_y f)) (to_ems f (pf_max_x f)) (to_ems f (pf_max_y f))
    (to_ems f (pf_ascender f)) (to_ems f (pf_descender f))
    (match each_code_point m f with Ok l => l | _ => [] end)
    (match each_code_point m f with Err e => Some e | _ => None end)
    (pf_glyph_count f) (glyph_width m f).
