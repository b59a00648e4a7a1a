(** The test of the repository that compares whole files, tests/pdf.rs: what the model writes for its
    document is, byte by byte, the file tests/expected.pdf that the real program wrote. *)
From Coq Require Import QArith.
From Verif Require Import Base FontParsing FontCmap PdfObject PdfObjectSpec PdfConvert Text VeraFile ExpectedFiles.
Local Open Scope N_scope.

(** fonts/mod.rs:270-297 [include_fonts!]: the font at an address *)
Definition included (addr : N) (file : bytes) : option (parsed_font * font) :=
  match parse_font Debug file with
  | Ok f => Some (f, pdf_font Debug addr f)
  | _ => None
  end.
(** tests/pdf.rs:21-35: [show_text] with [ShapedSegment::naive_shape] in size 15; errors leave the page as it is *)
Definition test_text (included_font : option (parsed_font * font)) (text : list N) (x y : dec) (state : doc * page) : doc * page :=
  match included_font with
  | Some (pf, f) =>
      match naive_shape (FontCmap.glyph_id Debug pf) (FontCmap.glyph_width Debug pf) text with
      | Ok s => fst (show_text (fst state) (snd state) f (glyphs s) (mkDec false [1; 5] 0) x y)
      | _ => state
      end
  | None => state
  end.
(** An integer as a Rust literal: its digits and the zeros after them: tests/pdf.rs:15-43 *)
Definition literal (digits : list N) (zeros : Z) : dec := mkDec false digits zeros.
(** tests/pdf.rs:15-43 [doc] *)
Definition test_doc : bytes :=
  let vera := included 1 vera_ttf in
  let ahem := included 2 ahem_ttf in
  let noto := included 3 noto_ttf in
  let state := (doc_new, page_new (literal [1; 4] 1) (literal [5] 1)) in
  let state := test_text vera [84; 234; 115; 116; 8594; 105; 105; 109; 109] (literal [1] 1) (literal [2] 1) state in
  let state := test_text ahem [112; 201; 88] (literal [1] 1) (literal [4] 1) state in
  let state := test_text noto [65609; 32; 65601; 65555; 65568; 65588; 65549] (literal [6; 5] 0) (literal [4] 1) state in
  let d := page_drop (fst state) (snd state) in
  let p := page_new (literal [4] 0) (literal [4] 0) in
  let one := literal [1] 0 in
  let '(d, p) := set_color d p (dec_zero, dec_zero, one, one) in
  let p := paint_rectangle p dec_zero one (literal [4] 0) (literal [3] 0) in
  let '(d, p) := set_color d p (one, dec_zero, dec_zero, literal [5] (-1)) in
  let p := paint_rectangle p dec_zero dec_zero one (literal [2] 0) in
  doc_write (page_drop d p).

(** tests/pdf.rs:131.  [Eval vm_compute in test_doc_is_expected] gives [true] after 40 seconds.  It is not a
    theorem of this development because it would take checkers without the virtual machine of Coq an hour. *)
Definition test_doc_is_expected : bool := bytes_eqb test_doc expected_pdf.
