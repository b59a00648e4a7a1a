(** Model of victor/src/pdf/convert.rs: document, page and font embedding.
    [f32] values are the decimals ([dec]) that are printed for them; simplification: NaN and
    infinities are excluded. *)
From Verif Require Import Base Float32 PdfObject PdfSyntax.
From Verif Require Export Float32Print.
From Coq Require Import QArith Qround.
Local Open Scope N_scope.

(** ** [f32] operations on decimals *)
(** multiplication by [CSS_TO_PDF_SCALE_X] (convert.rs:12-15: 72/96), rounded *)
Definition times_scale (d : dec) : dec := print32 (round32 (dec_q d) * (3 # 4)).

(** convert.rs:15-16 [CSS_TO_PDF_SCALE_X], [CSS_TO_PDF_SCALE_Y] *)
Definition SCALE_X : dec := mkDec false [7; 5] (-2).
(** convert.rs:16 *)
Definition SCALE_Y : dec := mkDec true [7; 5] (-2).
(** The [1.] of convert.rs:144-166 *)
Definition dec_one : dec := mkDec false [1] 0.

(** [f32] comparison [!=] *)
Definition dec_eqb (a b : dec) : bool := Qeq_bool (dec_q a) (dec_q b).

(** convert.rs:243 [alpha.max(0.).min(1.)] *)
Definition clamp01 (a : dec) : dec :=
  if Qle_bool (dec_q a) 0 then dec_zero
  else if Qle_bool 1 (dec_q a) then dec_one
  else a.

(** convert.rs:252 [(alpha * 65535.) as u16] for 0 <= alpha <= 1 *)
Definition alpha_key (a : dec) : N := Z.to_N (Qfloor (round32 (round32 (dec_q a) * inject_Z 65535))).

(** ** Fonts, as far as the PDF writer sees them: fonts/mod.rs:23-46 *)
Inductive font_error := UnsupportedFormat | OffsetBeyondEof | OffsetPlusLengthBeyondEof
| MissingTable | NoSupportedPostscriptName | NoSupportedCmap | NoHorizontalGlyphMetrics.

(** [fonts/mod.rs:48-67 Font] through its accessors (126-195): identity of the [Arc]
    allocation, file bytes, PostScript name, bounding box and ascent/descent in ems, the
    pairs [each_code_point] passes to its callback with its final result, glyph count and
    widths in ems. *)
Record font : Type := mkFont {
  f_addr : N;
  f_bytes : bytes;
  f_name : bytes;
  f_min_x : Q; f_min_y : Q; f_max_x : Q; f_max_y : Q;
  f_ascender : Q; f_descender : Q;
  f_code_points : list (N * N);
  f_code_points_result : option font_error;
  f_glyph_count : N;
  f_glyph_width : N -> res font_error Q }.

(** object.rs:100-109 [From<Length<f32, Em>>]: thousandths, as [f32], then truncated toward zero. *)
Definition of_em (q : Q) : obj :=
  let thousandths := round32 (q * 1000) in
  OI32 (Z.quot (Qnum thousandths) (Z.pos (Qden thousandths))).

(** ** ToUnicode CMap (convert.rs:302-352) *)
Definition hex_digit_lower (n : N) : N := nth (N.to_nat n) (bs "0123456789abcdef") 0.
(** [{:04x}] of a [u16] *)
Definition hex4 (n : N) : bytes :=
  [ hex_digit_lower (n / 4096 mod 16); hex_digit_lower (n / 256 mod 16);
    hex_digit_lower (n / 16 mod 16); hex_digit_lower (n mod 16) ].

(** [char::encode_utf16] *)
Definition encode_utf16 (c : N) : list N :=
  if c <? 65536 then [c]
  else let c := c - 65536 in [55296 + c / 1024; 56320 + c mod 1024].

(** convert.rs:302-314 and 344-352 *)
Definition line (s : string) : bytes := bs s ++ LF.
Arguments line s%string.
(** convert.rs:302-314 *)
Definition cmap_prologue : bytes :=
  line "/CIDInit /ProcSet findresource begin" ++
  line "12 dict begin" ++
  line "begincmap" ++
  line "/CIDSystemInfo" ++
  line "<< /Registry (Adobe) /Ordering (UCS) /Supplement 0 >> def" ++
  line "/CMapName /Adobe-Identity-UCS def" ++
  line "/CMapType 2 def" ++
  line "1 begincodespacerange" ++
  line "<0000> <ffff>" ++
  line "endcodespacerange".
(** convert.rs:344-352 *)
Definition cmap_epilogue : bytes :=
  line "endcmap" ++
  line "CMapName currentdict /CMap defineresource pop" ++
  line "end" ++
  bs "end".

(** convert.rs:318-324, one line of a block *)
Definition bfchar_line (p : N * N) : bytes :=
  bs "<" ++ hex4 (snd p) ++ bs "> <" ++ flat_map hex4 (encode_utf16 (fst p)) ++ bs ">" ++ LF.

(** convert.rs:316-326 [write_bfchar] *)
Definition write_bfchar (pairs : list (N * N)) : bytes :=
  itoa (lenN pairs) ++ bs " beginbfchar" ++ LF ++
  flat_map bfchar_line pairs ++
  bs "endbfchar" ++ LF.

(** convert.rs:328-339: the two arrays of 100 elements (zipped here) and the index [i]. *)
Record bf_state : Type := mkBf { bf_out : bytes; bf_array : list (N * N); bf_i : nat }.

(** [chars[i] = ch]: convert.rs:331-339 *)
Fixpoint set_nth {A} (n : nat) (x : A) (l : list A) : list A :=
  match l, n with
  | [], _ => []
  | _ :: r, O => x :: r
  | y :: r, S n => y :: set_nth n x r
  end.

(** convert.rs:331-339, the callback *)
Definition bf_push (s : bf_state) (p : N * N) : bf_state :=
  let s := if Nat.leb 100 (bf_i s)
           then mkBf (bf_out s ++ write_bfchar (bf_array s)) (bf_array s) 0
           else s in
  mkBf (bf_out s) (set_nth (bf_i s) p (bf_array s)) (S (bf_i s)).

(** convert.rs:328-343 *)
Definition bf_blocks (pairs : list (N * N)) : bytes :=
  let s := fold_left bf_push pairs (mkBf [] (repeat (0, 0) 100) 0) in
  if Nat.ltb 0 (bf_i s) then bf_out s ++ write_bfchar (firstn (bf_i s) (bf_array s)) else bf_out s.

(** convert.rs:302-352 *)
Definition to_unicode_cmap (pairs : list (N * N)) : bytes :=
  cmap_prologue ++ bf_blocks pairs ++ cmap_epilogue.

(** ** The document in progress *)

(** convert.rs:18-25 [struct InProgressDoc].  The hash maps are association lists: only
    lookup, insertion and size are used. *)
Record doc : Type := mkDoc {
  d_pdf : pdf_file;
  d_page_ids : list obj;
  d_ext_gs : list (bytes * obj);
  d_font_res : list (bytes * obj);
  d_alpha_states : list (N * bytes);
  d_fonts : list (N * bytes) }.

(** convert.rs:28-37 *)
Definition doc_new : doc := mkDoc pdf_new [] [] [] [] [].

(** convert.rs:39-58 *)
Definition doc_basic_objects (d : doc) : basic_objects :=
  mkBasic
    (dict [ (bs "Type", OName (bs "Pages"));
            (bs "Count", OUsize (lenN (d_page_ids d)));
            (bs "Kids", OArray (d_page_ids d));
            (bs "Resources", ODictionary (dict
               [ (bs "Font", ODictionaryWithOwnedKeys (d_font_res d));
                 (bs "ExtGState", ODictionaryWithOwnedKeys (d_ext_gs d)) ])) ])
    (dict [ (bs "Type", OName (bs "Catalog")); (bs "Pages", OReference PAGE_TREE_ID) ])
    (dict [ (bs "Producer", OLiteralString (bs "Victor <https://github.com/SimonSapin/victor>")) ]).
(** convert.rs:39-58 *)
Definition doc_write (d : doc) : bytes := pdf_write (d_pdf d) (doc_basic_objects d).

(** [HashMap::get]: convert.rs:256 and 270 *)
Fixpoint assoc (k : N) (l : list (N * bytes)) : option bytes :=
  match l with
  | [] => None
  | (k', v) :: r => if k =? k' then Some v else assoc k r
  end.

(** ** Pages *)

(** convert.rs:122-125 [GraphicsState] and 94-99 [InProgressPage] (without the borrow of
    the document, which is threaded explicitly). *)
Record page : Type := mkPage {
  pg_width : dec; pg_height : dec;
  pg_ops : bytes;
  pg_rgb : dec * dec * dec;
  pg_alpha : dec }.

(** convert.rs:127-141 [op!] *)
Definition op_text (operator : string) (operands : list obj) : bytes :=
  flat_map (fun o => write_obj o ++ [32]) operands ++ bs operator ++ LF.
Arguments op_text operator%string.
(** convert.rs:127-141 *)
Definition op (p : page) (operator : string) (operands : list obj) : page :=
  mkPage (pg_width p) (pg_height p) (pg_ops p ++ op_text operator operands) (pg_rgb p) (pg_alpha p).
Arguments op p operator%string.

(** convert.rs:144-166 [InProgressPage::new] *)
Definition page_new (width height : dec) : page :=
  op (mkPage width height [] (dec_zero, dec_zero, dec_zero) dec_one)
     "cm" [OFloat SCALE_X; OI32 0; OI32 0; OFloat SCALE_Y; OI32 0; OI32 0].

(** convert.rs:101-120 [Drop]: the page is added to the document. *)
Definition page_drop (d : doc) (p : page) : doc :=
  let (pdf1, content_id) := add_stream (d_pdf d) (dict []) (pg_ops p) in
  let (pdf2, page_id) := add_dictionary pdf1 (dict
    [ (bs "Type", OName (bs "Page"));
      (bs "Parent", OReference PAGE_TREE_ID);
      (bs "Contents", OReference content_id);
      (bs "MediaBox", OArray [ OI32 0; OI32 0; OFloat (times_scale (pg_width p));
                               OFloat (dec_neg (times_scale (pg_height p))) ]) ]) in
  mkDoc pdf2 (d_page_ids d ++ [OReference page_id]) (d_ext_gs d) (d_font_res d)
        (d_alpha_states d) (d_fonts d).

(** convert.rs:242-266 [set_alpha] *)
Definition set_alpha (d : doc) (p : page) (alpha : dec) : doc * page :=
  let alpha := clamp01 alpha in
  if negb (dec_eqb alpha (pg_alpha p)) then
    let p := mkPage (pg_width p) (pg_height p) (pg_ops p) (pg_rgb p) alpha in
    let hash_key := alpha_key alpha in
    match assoc hash_key (d_alpha_states d) with
    | Some pdf_key => (d, op p "gs" [OName pdf_key])
    | None =>
        let pdf_key := bs "a" ++ itoa (lenN (d_alpha_states d)) in
        let d := mkDoc (d_pdf d) (d_page_ids d)
                       (d_ext_gs d ++ [(pdf_key, OGraphicsStateDictionaryAlpha alpha)])
                       (d_font_res d) (d_alpha_states d ++ [(hash_key, pdf_key)]) (d_fonts d) in
        (d, op p "gs" [OName pdf_key])
    end
  else (d, p).

(** convert.rs:168-174 [set_color] *)
Definition set_color (d : doc) (p : page) (rgba : dec * dec * dec * dec) : doc * page :=
  let '(r, g, b, a) := rgba in
  let '(r0, g0, b0) := pg_rgb p in
  let p := if negb (dec_eqb r r0 && dec_eqb g g0 && dec_eqb b b0)
           then op (mkPage (pg_width p) (pg_height p) (pg_ops p) (r, g, b) (pg_alpha p))
                   "rg" [OFloat r; OFloat g; OFloat b]
           else p in
  set_alpha d p a.

(** convert.rs:176-186 [paint_rectangle] *)
Definition paint_rectangle (p : page) (x y w h : dec) : page :=
  op (op p "re" [OFloat x; OFloat y; OFloat w; OFloat h]) "f" [].

(** [self.doc.pdf] changed: convert.rs:281-300 *)
Definition with_pdf (d : doc) (pdf : pdf_file) : doc :=
  mkDoc pdf (d_page_ids d) (d_ext_gs d) (d_font_res d) (d_alpha_states d) (d_fonts d).

(** convert.rs:361-364: widths of glyphs [0..n], stopping at the first error *)
Fixpoint glyph_widths (width : N -> res font_error Q) (i : N) (n : nat) : res font_error (list obj) :=
  match n with
  | O => Ok []
  | S n => match width i with
           | Ok w => match glyph_widths width (i + 1) n with
                     | Ok l => Ok (of_em w :: l)
                     | Err e => Err e
                     | Panic => Panic
                     end
           | Err e => Err e
           | Panic => Panic
           end
  end.

(** convert.rs:281-300 and 365-389 *)
Definition font_descriptor (f : font) (truetype_id : N) : dictionary :=
  dict [ (bs "Type", OName (bs "FontDescriptor"));
         (bs "FontName", OName (f_name f));
         (bs "FontBBox", OArray [of_em (f_min_x f); of_em (f_min_y f);
                                 of_em (f_max_x f); of_em (f_max_y f)]);
         (bs "Ascent", of_em (f_ascender f));
         (bs "Descent", of_em (f_descender f));
         (bs "FontFile2", OReference truetype_id);
         (bs "ItalicAngle", OI32 0);
         (bs "Flags", OI32 4);
         (bs "CapHeight", of_em (f_max_y f));
         (bs "StemV", OI32 80);
         (bs "StemH", OI32 80) ].
(** convert.rs:365-389 *)
Definition font_dict (f : font) (to_unicode_id font_descriptor_id : N) (widths : list obj) : dictionary :=
  dict [ (bs "Type", OName (bs "Font"));
         (bs "Subtype", OName (bs "Type0"));
         (bs "BaseFont", OName (f_name f));
         (bs "ToUnicode", OReference to_unicode_id);
         (bs "Encoding", OName (bs "Identity-H"));
         (bs "DescendantFonts", OArray [ ODictionary (dict
            [ (bs "Type", OName (bs "Font"));
              (bs "Subtype", OName (bs "CIDFontType2"));
              (bs "BaseFont", OName (f_name f));
              (bs "CIDSystemInfo", ODictionary (dict
                 [ (bs "Registry", OLiteralString (bs "Adobe"));
                   (bs "Ordering", OLiteralString (bs "Identity"));
                   (bs "Supplement", OI32 0) ]));
              (bs "FontDescriptor", OReference font_descriptor_id);
              (bs "W", OArray [OI32 0; OArray widths]) ]) ]) ].

(** convert.rs:268-397 [add_font].  On an error the streams and dictionaries already added
    stay in the file. *)
Definition add_font (d : doc) (f : font) : doc * res font_error bytes :=
  match assoc (f_addr f) (d_fonts d) with
  | Some key => (d, Ok key)
  | None =>
      let (pdf1, truetype_id) :=
        add_stream (d_pdf d) (dict [(bs "Length1", OUsize (lenN (f_bytes f)))]) (f_bytes f) in
      let (pdf2, font_descriptor_id) := add_dictionary pdf1 (font_descriptor f truetype_id) in
      match f_code_points_result f with
      | Some e => (with_pdf d pdf2, Err e)
      | None =>
          let (pdf3, to_unicode_id) :=
            add_stream pdf2 (dict []) (to_unicode_cmap (f_code_points f)) in
          match glyph_widths (f_glyph_width f) 0 (N.to_nat (f_glyph_count f)) with
          | Err e => (with_pdf d pdf3, Err e)
          | Panic => (with_pdf d pdf3, Panic)
          | Ok widths =>
              let (pdf4, font_dict_id) :=
                add_dictionary pdf3 (font_dict f to_unicode_id font_descriptor_id widths) in
              let pdf_key := bs "f" ++ itoa (lenN (d_fonts d)) in
              (mkDoc pdf4 (d_page_ids d) (d_ext_gs d)
                     (d_font_res d ++ [(pdf_key, OReference font_dict_id)])
                     (d_alpha_states d) (d_fonts d ++ [(f_addr f, pdf_key)]),
               Ok pdf_key)
          end
      end
  end.

(** convert.rs:198-203, big-endian glyph codes *)
Definition glyph_codes (glyphs : list N) : bytes :=
  flat_map (fun id => [N.shiftr id 8 mod 256; id mod 256]) glyphs.

(** convert.rs:188-240 [show_text] *)
Definition show_text (d : doc) (p : page) (f : font) (glyphs : list N) (font_size x y : dec)
  : doc * page * res font_error unit :=
  match add_font d f with
  | (d, Ok font_key) =>
      let p := op p "BT" [] in
      let p := op p "Tf" [OName font_key; OI32 1] in
      let p := op p "Tm" [OFloat font_size; OI32 0; OI32 0; OFloat (dec_neg font_size); OFloat x; OFloat y] in
      let p := op p "Tj" [OHexString (glyph_codes glyphs)] in
      let p := op p "ET" [] in
      (d, p, Ok tt)
  | (d, Err e) => (d, p, Err e)
  | (d, Panic) => (d, p, Panic)
  end.

(** ** Histories of the public interface (pdf/mod.rs:21-74) *)
Inductive request : Type :=
| SetColor (rgba : dec * dec * dec * dec)
| PaintRectangle (x y w h : dec)
| ShowText (f : font) (glyphs : list N) (font_size x y : dec).

(** pdf/mod.rs:59-74 *)
Definition do_request (s : doc * page) (r : request) : doc * page :=
  let (d, p) := s in
  match r with
  | SetColor c => set_color d p c
  | PaintRectangle x y w h => (d, paint_rectangle p x y w h)
  | ShowText f glyphs fs x y => fst (show_text d p f glyphs fs x y)
  end.

(** A page added with [add_page], drawn on and dropped.  pdf/mod.rs:21-74 *)
Record page_history : Type := mkPH { ph_width : dec; ph_height : dec; ph_requests : list request }.
(** pdf/mod.rs:21-74 with convert.rs:101-120 *)
Definition do_page (d : doc) (h : page_history) : doc :=
  let (d, p) := fold_left do_request (ph_requests h) (d, page_new (ph_width h) (ph_height h)) in
  page_drop d p.
(** pdf/mod.rs:21-74 *)
Definition run (h : list page_history) : doc := fold_left do_page h doc_new.
