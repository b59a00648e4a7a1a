(** Model of victor/src/pdf/syntax.rs: the PDF file structure writer. *)
From Verif Require Import Base PdfObject.
Local Open Scope N_scope.

(** [len()]: syntax.rs:38-50 *)
Definition lenN {A} (l : list A) : N := N.of_nat (length l).

(** Line feed, [\n] in the Rust byte-string literals.  syntax.rs:75 *)
Definition LF : bytes := [10].

(** [u32] arithmetic and [as u32] casts. *)
Definition u32 (n : N) : N := n mod 2 ^ 32.

(** syntax.rs:13-17 *)
Definition FIRST_ID : N := 1.
(** syntax.rs:14 *)
Definition PAGE_TREE_ID : N := 1.
(** syntax.rs:15 *)
Definition CATALOG_ID : N := 2.
(** syntax.rs:16 *)
Definition INFO_ID : N := 3.
(** syntax.rs:17 *)
Definition FIRST_AVAILABLE_ID : N := 4.

(** syntax.rs:19-23 [struct BasicObjects] *)
Record basic_objects : Type := mkBasic {
  page_tree : dictionary;
  catalog : dictionary;
  info : dictionary }.

(** syntax.rs:25-28 [struct PdfFile] *)
Record pdf_file : Type := mkPdfFile {
  indirect_objects : list bytes;
  next_id : N }.

(** syntax.rs:31-36 [PdfFile::new] *)
Definition pdf_new : pdf_file := mkPdfFile [] FIRST_AVAILABLE_ID.

(** syntax.rs:58-63 [add_indirect_object].  [next_id] wraps at 2^32 (release build). *)
Definition add_indirect_object (f : pdf_file) (contents : bytes) : pdf_file * N :=
  (mkPdfFile (indirect_objects f ++ [contents]) (u32 (next_id f + 1)), next_id f).

(** syntax.rs:52-56 [add_dictionary] *)
Definition add_dictionary (f : pdf_file) (d : dictionary) : pdf_file * N :=
  add_indirect_object f (write_dict d).

(** syntax.rs:38-50 [add_stream] *)
Definition add_stream (f : pdf_file) (meta : dictionary) (contents : bytes) : pdf_file * N :=
  let meta := linked_dict meta [(bs "Length", OUsize (lenN contents))] in
  add_indirect_object f
    (write_dict meta ++ LF ++ bs "stream" ++ LF ++ contents ++ LF ++ bs "endstream").

(** syntax.rs:153-180 [CountingWrite] over an infallible sink: what has been written and
    the counter kept by [write_all]. *)
Record counting_write : Type := mkCW { cw_out : bytes; bytes_written : N }.
(** [CountingWrite::write_all]: syntax.rs:153-180 *)
Definition write_all (w : counting_write) (b : bytes) : counting_write :=
  mkCW (cw_out w ++ b) (bytes_written w + lenN b).

(** syntax.rs:75 the header *)
Definition pdf_header : bytes := bs "%PDF-1.5" ++ LF ++ bs "%" ++ [181; 237; 174; 251] ++ LF.

(** syntax.rs:80-93 and 95-104: both loops write objects numbered consecutively from
    [next_object_id] and record the offset, truncated to [u32], of each.
    The assertions at 85 and 94 are about constants and hold. *)
Fixpoint write_objects (next_object_id : N) (objs : list bytes) (offsets : list N)
         (w : counting_write) : list N * counting_write :=
  match objs with
  | [] => (offsets, w)
  | contents :: rest =>
      let offsets := offsets ++ [u32 (bytes_written w)] in
      let w := write_all w (itoa next_object_id) in
      let w := write_all w (bs " 0 obj" ++ LF) in
      let w := write_all w contents in
      let w := write_all w (LF ++ bs "endobj" ++ LF) in
      write_objects (u32 (next_object_id + 1)) rest offsets w
  end.

(** syntax.rs:146-151 [itoa_zero_padded]: ten decimal digits filled from the right;
    [acc] holds the digits already written. *)
Fixpoint pad_loop (k : nat) (value : N) (acc : bytes) : bytes :=
  match k with
  | O => acc
  | S k => pad_loop k (value / 10) (48 + value mod 10 :: acc)
  end.
(** syntax.rs:146-151 *)
Definition itoa_zero_padded (value : N) : bytes := pad_loop 10 value [].

(** syntax.rs:118-122: one 20-byte entry *)
Definition xref_entry (offset : N) : bytes :=
  itoa_zero_padded offset ++ bs " 00000 n " ++ LF.

(** syntax.rs:65-137 [PdfFile::write].  Simplification: the sink never fails, so the
    result is the bytes written (PdfStream.v has streams that fail). *)
Definition pdf_write (f : pdf_file) (b : basic_objects) : bytes :=
  let total := (FIRST_AVAILABLE_ID - FIRST_ID) + lenN (indirect_objects f) in
  let w := write_all (mkCW [] 0) pdf_header in
  let (offsets, w) :=
    write_objects FIRST_ID [write_dict (page_tree b); write_dict (catalog b); write_dict (info b)] [] w in
  let (offsets, w) := write_objects FIRST_AVAILABLE_ID (indirect_objects f) offsets w in
  let startxref := bytes_written w in
  let xref_table_size := total + 1 in
  let trailer := dict [ (bs "Size", OUsize xref_table_size);
                        (bs "Root", OReference CATALOG_ID);
                        (bs "Info", OReference INFO_ID) ] in
  cw_out w ++
  bs "xref" ++ LF ++ bs "0 " ++ itoa xref_table_size ++ LF ++ bs "0000000000 65535 f " ++ LF ++
  flat_map xref_entry offsets ++
  bs "trailer" ++ LF ++ write_dict trailer ++
  LF ++ bs "startxref" ++ LF ++ itoa startxref ++ LF ++ bs "%%EOF".
