(** * Model of lester: rendering PDF files with poppler and cairo

    The C libraries are an environment: each call of a C function is answered
    by a function of all the calls made before, so that any behaviour of
    theirs that Rust code can see is covered.  What lester does is the list of
    the C functions it calls, with their arguments and results, and the value
    it returns.

    Pointers are numbers, 0 being null; [c_int] and [cairo_status_t] are
    integers in their range; streams are state machines. *)

From Coq Require Import QArith Qround.
From Verif Require Import Base LesterFloat.

Local Open Scope Z_scope.

(** [*mut T] for every C type (lester/src/cairo_ffi.rs lines 61-69,
    lester/src/poppler_ffi.rs lines 36-51). *)
Definition ptr := Z.

(** What a panic carries: that of a stream's own panic (a number, to tell
    them apart), or one of lester's (lester/src/poppler.rs lines 34, 63, 180,
    181, 204; lester/src/cairo.rs lines 58, 59, 99-125; lester/src/errors.rs
    line 16). *)
Inductive payload :=
| FromStream (n : N)
| OutOfRange
| NullPage
| NullText
| UnsupportedFormat
| UnexpectedStride
| UnalignedData
| Overflow
| InvalidUtf8.

(** [io::Error] (lester/src/errors.rs line 90): any number of different
    ones. *)
Definition io_error := N.

(** The C functions that are called, with what they returned
    (lester/src/cairo_ffi.rs lines 6-36, lester/src/poppler_ffi.rs lines
    7-27), and the reading of C memory by [CStr::from_ptr]
    (lester/src/errors.rs line 14, lester/src/poppler.rs line 288).
    The password of a document, always null, is left out. *)
Inductive ccall :=
| SurfaceDestroy (surface : ptr)
| SurfaceStatus (surface : ptr) (status : Z)
| ImageSurfaceCreate (format width height : Z) (surface : ptr)
| ImageSurfaceGetWidth (surface : ptr) (width : Z)
| ImageSurfaceGetHeight (surface : ptr) (height : Z)
| ImageSurfaceGetStride (surface : ptr) (stride : Z)
| ImageSurfaceGetData (surface : ptr) (data : ptr)
| ImageSurfaceGetFormat (surface : ptr) (format : Z)
| CreateFromPngStream (surface : ptr)
| WriteToPngStream (surface : ptr) (status : Z)
| SurfaceFlush (surface : ptr)
| CairoCreate (surface : ptr) (context : ptr)
| CairoSetSourceRgb (context : ptr) (red green blue : f64)
| CairoPaint (context : ptr)
| CairoScale (context : ptr) (x y : f64)
| CairoStatus (context : ptr) (status : Z)
| CairoDestroy (context : ptr)
| DocumentNewFromData (data : bytes) (document error : ptr)
| DocumentGetNPages (document : ptr) (count : Z)
| DocumentGetPage (document : ptr) (index : Z) (page : ptr)
| DocumentGetProducer (document : ptr) (string : ptr)
| PageGetSize (page : ptr) (width height : f64)
| PageRender (page context : ptr)
| PageRenderForPrinting (page context : ptr)
| PageGetText (page : ptr) (string : ptr)
| ErrorFree (error : ptr)
| ObjectUnref (object : ptr)
| GFree (memory : ptr)
| ReadString (string : ptr) (contents : bytes)
| ReadErrorMessage (error : ptr) (contents : bytes).

(** The calls so far, the latest first.  cairo_ffi.rs lines 6-36, poppler_ffi.rs lines 7-27. *)
Definition history := list ccall.

(** What cairo does while reading a PNG file: it calls the read function with
    a buffer (of which the contents matter to nobody) any number of times,
    seeing each time a status and the new contents, then returns a surface
    (lester/src/cairo_ffi.rs lines 18-21 and 49-53). *)
Inductive png_reader :=
| ReaderReturns (surface : ptr)
| ReaderCalls (buffer : bytes) (next : Z -> bytes -> png_reader).

(** What cairo does while writing one: it calls the write function with some
    bytes any number of times, seeing each time a status, then returns a
    status (lester/src/cairo_ffi.rs lines 22-26 and 55-59). *)
Inductive png_writer :=
| WriterReturns (status : Z)
| WriterCalls (data : bytes) (next : Z -> png_writer).

(** The C libraries: the result of each function, given the calls before it
    and its arguments (lester/src/cairo_ffi.rs lines 6-36,
    lester/src/poppler_ffi.rs lines 7-27). *)
Record environment := Environment {
  env_surface_status : history -> ptr -> Z;
  env_image_surface_create : history -> Z -> Z -> Z -> ptr;
  env_get_width : history -> ptr -> Z;
  env_get_height : history -> ptr -> Z;
  env_get_stride : history -> ptr -> Z;
  env_get_data : history -> ptr -> ptr;
  env_get_format : history -> ptr -> Z;
  env_png_reader : history -> png_reader;
  env_png_writer : history -> ptr -> png_writer;
  env_cairo_create : history -> ptr -> ptr;
  env_cairo_status : history -> ptr -> Z;
  env_document_new : history -> bytes -> ptr * ptr;
  env_n_pages : history -> ptr -> Z;
  env_get_page : history -> ptr -> Z -> ptr;
  env_producer : history -> ptr -> ptr;
  env_page_size : history -> ptr -> f64 * f64;
  env_page_text : history -> ptr -> ptr;
  env_string : history -> ptr -> bytes;
  env_message : history -> ptr -> bytes
}.

(** How a Rust function ends: it returns or it unwinds
    (lester/src/cairo.rs lines 194-218 tell the two apart). *)
Inductive outcome (A : Type) :=
| Done (a : A)
| Unwinds (p : payload).
Arguments Done {A} a.
Arguments Unwinds {A} p.

(** Code that calls C functions (all of lester/src/cairo.rs and
    lester/src/poppler.rs). *)
Definition code (A : Type) := history -> outcome A * history.

(** Sequence, unwinding and the call of one C function, for the same code.  cairo.rs lines 45-171. *)
Definition done {A} (a : A) : code A := fun h => (Done a, h).
(** A panic: cairo.rs lines 58, 59, 99-125. *)
Definition unwind {A} (p : payload) : code A := fun h => (Unwinds p, h).
(** [;]: cairo.rs lines 63-74. *)
Definition andthen {A B} (c : code A) (k : A -> code B) : code B :=
  fun h =>
    match c h with
    | (Done a, h') => k a h'
    | (Unwinds p, h') => (Unwinds p, h')
    end.
(** cairo.rs lines 63-74: the call of a C function with an answer. *)
Definition calls {A} (answer : history -> A) (record : A -> ccall) : code A :=
  fun h => let a := answer h in (Done a, record a :: h).
(** cairo.rs lines 36-42: the call of one without. *)
Definition says (c : ccall) : code unit := fun h => (Done tt, c :: h).

Declare Scope code_scope.
Notation "'let!' x := c 'in' k" := (andthen c (fun x => k))
  (at level 200, x name, c at level 100, k at level 200) : code_scope.
Notation "c ;;; k" := (andthen c (fun _ => k))
  (at level 100, k at level 200, right associativity) : code_scope.
Local Open Scope code_scope.

(** [c?] in a function whose own error type is [E].  cairo.rs lines 45-88. *)
Definition question {E A B} (c : code (E + A)) (k : A -> code (E + B)) : code (E + B) :=
  let! r := c in match r with inl e => done (inl e) | inr a => k a end.

(** A local variable with a destructor: it runs however the block ends
    (lester/src/poppler.rs lines 183-197: [context]). *)
Definition dropped_after {A} (destructor : code unit) (block : code A) : code A :=
  fun h => let (r, h') := block h in let (_, h'') := destructor h' in (r, h'').

(** A local variable with a destructor which the block returns inside [Ok]:
    the destructor runs unless it does
    (lester/src/cairo.rs lines 70-72, 82-86, 245-255;
    lester/src/poppler.rs lines 175-197: [surface]). *)
Definition dropped_unless_ok {E A} (destructor : code unit) (block : code (E + A)) : code (E + A) :=
  fun h =>
    match block h with
    | (Done (inr a), h') => (Done (inr a), h')
    | (r, h') => let (_, h'') := destructor h' in (r, h'')
    end.

(** ** lester/src/convert.rs *)

(** Lines 79-96 with line 98: [f64] to [i32]; [None] is [Err]. *)
Definition f64_try_into_i32 (a : f64) : option Z :=
  let min := inject_Z (- 2147483648) in
  let max := inject_Z 2147483647 in
  if flt_q a min || fgt_q a max then None else Some (as_i32 a).

(** Lines 61-76 with line 99: [usize] to [i32]. *)
Definition usize_try_into_i32 (n : N) : option Z :=
  if (2147483647 <? n)%N then None else Some (Z.of_N n).

(** Lines 43-58 with line 100: [i32] to [usize]. *)
Definition i32_try_into_usize (z : Z) : option N :=
  if 0 <=? z then Some (Z.to_N z) else None.

(** [.unwrap()] of those.  poppler.rs lines 34, 63, 180, 181. *)
Definition unwrap {A} (o : option A) : code A :=
  match o with Some a => done a | None => unwind OutOfRange end.

(** ** lester/src/errors.rs *)

(** Lines 40-48: [CairoError::check]. *)
Definition check (status : Z) : Z + unit :=
  if status =? 0 then inr tt else inl status.

(** Lines 89-93: [LesterError], with lines 79-85 its conversions, which the
    operator [?] applies. *)
Inductive lester_error :=
| IoError (e : io_error)
| CairoError (status : Z)
| GlibError (error : ptr).

Section Lester.

Variable E : environment.
(** Whether arithmetic overflow panics (debug builds) or wraps. *)
Variable overflow_checks : bool.
(** [std::str::from_utf8], which is not modelled here. *)
Variable is_utf8 : bytes -> bool.

(** ** The C functions (lester/src/cairo_ffi.rs lines 6-36,
    lester/src/poppler_ffi.rs lines 7-27) *)
Definition cairo_surface_status s :=
  calls (fun h => env_surface_status E h s) (SurfaceStatus s).
(** cairo_ffi.rs lines 8-12. *)
Definition cairo_image_surface_create f w h :=
  calls (fun past => env_image_surface_create E past f w h) (ImageSurfaceCreate f w h).
(** cairo_ffi.rs line 13. *)
Definition cairo_image_surface_get_width s :=
  calls (fun h => env_get_width E h s) (ImageSurfaceGetWidth s).
(** cairo_ffi.rs line 14. *)
Definition cairo_image_surface_get_height s :=
  calls (fun h => env_get_height E h s) (ImageSurfaceGetHeight s).
(** cairo_ffi.rs line 15. *)
Definition cairo_image_surface_get_stride s :=
  calls (fun h => env_get_stride E h s) (ImageSurfaceGetStride s).
(** cairo_ffi.rs line 16. *)
Definition cairo_image_surface_get_data s :=
  calls (fun h => env_get_data E h s) (ImageSurfaceGetData s).
(** cairo_ffi.rs line 17. *)
Definition cairo_image_surface_get_format s :=
  calls (fun h => env_get_format E h s) (ImageSurfaceGetFormat s).
(** cairo_ffi.rs line 29. *)
Definition cairo_create s := calls (fun h => env_cairo_create E h s) (CairoCreate s).
(** cairo_ffi.rs line 33. *)
Definition cairo_status c := calls (fun h => env_cairo_status E h c) (CairoStatus c).
(** poppler_ffi.rs lines 7-12. *)
Definition poppler_document_new_from_data d :=
  calls (fun h => env_document_new E h d) (fun r => DocumentNewFromData d (fst r) (snd r)).
(** poppler_ffi.rs line 13. *)
Definition poppler_document_get_n_pages d :=
  calls (fun h => env_n_pages E h d) (DocumentGetNPages d).
(** poppler_ffi.rs lines 14-17. *)
Definition poppler_document_get_page d i :=
  calls (fun h => env_get_page E h d i) (DocumentGetPage d i).
(** poppler_ffi.rs line 18. *)
Definition poppler_document_get_producer d :=
  calls (fun h => env_producer E h d) (DocumentGetProducer d).
(** poppler_ffi.rs line 20. *)
Definition poppler_page_get_size p :=
  calls (fun h => env_page_size E h p) (fun r => PageGetSize p (fst r) (snd r)).
(** poppler_ffi.rs line 23. *)
Definition poppler_page_get_text p := calls (fun h => env_page_text E h p) (PageGetText p).

(** ** lester/src/cairo.rs: surfaces and contexts *)

(** The destructors: cairo.rs lines 36-42 and 165-171; poppler.rs lines 76-80,
    209-213 and 293-299; errors.rs lines 59-63. *)
Definition drop_surface s := says (SurfaceDestroy s).
(** cairo.rs lines 165-171. *)
Definition drop_context c := says (CairoDestroy c).
(** poppler.rs lines 76-80. *)
Definition drop_document d := says (ObjectUnref d).
(** poppler.rs lines 209-213. *)
Definition drop_page p := says (ObjectUnref p).
(** poppler.rs lines 293-299. *)
Definition drop_string g := says (GFree g).
(** errors.rs lines 59-63. *)
Definition drop_glib_error e := says (ErrorFree e).

(** The constants of cairo_ffi.rs lines 42-47. *)
Definition CAIRO_STATUS_SUCCESS := 0.
(** cairo_ffi.rs lines 42-47. *)
Definition CAIRO_STATUS_READ_ERROR := 10.
(** cairo_ffi.rs lines 42-47. *)
Definition CAIRO_STATUS_WRITE_ERROR := 11.
(** cairo_ffi.rs lines 42-47. *)
Definition CAIRO_FORMAT_ARGB32 := 0.
(** cairo_ffi.rs lines 42-47. *)
Definition CAIRO_FORMAT_RGB24 := 1.

(** cairo.rs lines 76-78: [ImageSurface::check_status]. *)
Definition surface_check_status s : code (Z + unit) :=
  let! status := cairo_surface_status s in done (check status).

(** cairo.rs lines 146-148: [CairoContext::check_status]. *)
Definition context_check_status c : code (Z + unit) :=
  let! status := cairo_status c in done (check status).

(** cairo.rs lines 63-74: [ImageSurface::new_c_int]. *)
Definition new_c_int (format width height : Z) : code (Z + ptr) :=
  let! s := cairo_image_surface_create format width height in
  dropped_unless_ok (drop_surface s)
    (question (surface_check_status s) (fun _ => done (inr s))).

(** cairo.rs lines 55-61: [ImageSurface::new]. *)
Definition new_surface (format : Z) (width height : N) : code (Z + ptr) :=
  let! w := unwrap (usize_try_into_i32 width) in
  let! h := unwrap (usize_try_into_i32 height) in
  new_c_int format w h.

(** cairo.rs lines 45-53. *)
Definition new_rgb24 := new_surface CAIRO_FORMAT_RGB24.
(** cairo.rs lines 45-53. *)
Definition new_argb32 := new_surface CAIRO_FORMAT_ARGB32.

(** cairo.rs lines 80-88: [ImageSurface::context]. *)
Definition context (s : ptr) : code (Z + ptr) :=
  let! c := cairo_create s in
  dropped_unless_ok (drop_context c)
    (question (context_check_status c) (fun _ => done (inr c))).

(** cairo.rs lines 13-26: [Argb32Pixels]; its buffer is an address and a
    number of pixels of four bytes. *)
Record pixels_view := PixelsView {
  view_width : N;
  view_height : N;
  view_data : ptr;
  view_length : N
}.

(** [a * b] for [i32] (cairo.rs lines 109 and 123). *)
Definition i32_mul (a b : Z) : code Z :=
  let product := a * b in
  if (- 2147483648 <=? product) && (product <=? 2147483647) then done product
  else if overflow_checks then unwind Overflow
  else done ((product + 2147483648) mod 4294967296 - 2147483648).

(** [assert!(c)].  cairo.rs lines 99-125. *)
Definition assert (c : bool) (p : payload) : code unit :=
  if c then done tt else unwind p.

(** cairo.rs lines 91-127: [ImageSurface::pixels]. *)
Definition pixels (s : ptr) : code pixels_view :=
  says (SurfaceFlush s) ;;;
  let! data := cairo_image_surface_get_data s in
  let! width := cairo_image_surface_get_width s in
  let! height := cairo_image_surface_get_height s in
  let! stride := cairo_image_surface_get_stride s in
  let! format := cairo_image_surface_get_format s in
  assert ((format =? CAIRO_FORMAT_RGB24) || (format =? CAIRO_FORMAT_ARGB32)) UnsupportedFormat ;;;
  let! row := i32_mul width 4 in
  assert (stride =? row) UnexpectedStride ;;;
  assert (data mod 4 =? 0) UnalignedData ;;;
  let! w := unwrap (i32_try_into_usize width) in
  let! h := unwrap (i32_try_into_usize height) in
  let! area := i32_mul width height in
  let! length := unwrap (i32_try_into_usize area) in
  done (PixelsView w h data length).

(** ** lester/src/cairo.rs: PNG streams *)

(** How an operation of a stream ends ([Read::read_exact] or
    [Write::write_all]; cairo.rs lines 249 and 270). *)
Inductive io_outcome :=
| IoOk
| IoErr (e : io_error)
| IoPanic (n : N).

Section Stream.
Variable S : Type.

(** cairo.rs lines 179-183: [ClosureData]. *)
Record closure_data := ClosureData {
  cl_stream : S;
  cl_result : option io_error;
  cl_panic : option N
}.

(** cairo.rs lines 191-219: [callback].  [body] is what lines 248-249 or
    269-270 do with the stream; [B] is the rest of what it changes, the
    buffer.  The function returns in all cases: [catch_unwind]. *)
Definition callback {B : Type} (error_const : Z) (body : S -> S * io_outcome * B) (untouched : B)
  (cl : closure_data) : closure_data * Z * B :=
  match cl_result cl with
  | Some _ => (cl, error_const, untouched)
  | None =>
      let '(s, r, b) := body (cl_stream cl) in
      match r with
      | IoOk => (ClosureData s (cl_result cl) (cl_panic cl), CAIRO_STATUS_SUCCESS, b)
      | IoErr e => (ClosureData s (Some e) (cl_panic cl), error_const, b)
      | IoPanic n => (ClosureData s (cl_result cl) (Some n), error_const, b)
      end
  end.

(** [Read::read_exact] of the stream: its new state, how it ends, and what
    the slice of the given contents becomes. *)
Variable read_exact : S -> bytes -> S * io_outcome * bytes.
(** [Write::write_all] of the stream. *)
Variable write_all : S -> bytes -> S * io_outcome.

(** cairo.rs line 251: [cairo_image_surface_create_from_png_stream]. *)
Fixpoint run_reader (t : png_reader) (cl : closure_data) : closure_data * ptr :=
  match t with
  | ReaderReturns s => (cl, s)
  | ReaderCalls buffer next =>
      let '(cl', status, buffer') :=
        callback CAIRO_STATUS_READ_ERROR (fun s => read_exact s buffer) buffer cl in
      run_reader (next status buffer') cl'
  end.

(** cairo.rs line 272: [cairo_surface_write_to_png_stream]. *)
Fixpoint run_writer (t : png_writer) (cl : closure_data) : closure_data * Z :=
  match t with
  | WriterReturns status => (cl, status)
  | WriterCalls data next =>
      let '(cl', status, _) :=
        callback CAIRO_STATUS_WRITE_ERROR (fun s => let (s', r) := write_all s data in (s', r, tt)) tt cl in
      run_writer (next status) cl'
  end.

(** cairo.rs lines 228-231, with the rest of the function: the panic of the
    stream goes on, or its error is returned, or the function goes on. *)
Definition after_callbacks {A} (cl : closure_data) (rest : code (lester_error + A)) : code (lester_error + A) :=
  match cl_panic cl with
  | Some n => unwind (FromStream n)
  | None =>
      match cl_result cl with
      | Some e => done (inl (IoError e))
      | None => rest
      end
  end.

(** [?] from [CairoError] to [LesterError] (errors.rs lines 79-85). *)
Definition from_cairo {A} (r : Z + A) : lester_error + A :=
  match r with inl status => inl (CairoError status) | inr a => inr a end.

(** cairo.rs lines 244-256: [ImageSurface::read_from_png].  The stream is
    consumed; what became of it is also returned here. *)
Definition read_from_png (stream : S) : history -> outcome (lester_error + ptr) * history * S :=
  fun h =>
    let (cl, s) := run_reader (env_png_reader E h) (ClosureData stream None None) in
    let (r, h') :=
      dropped_unless_ok (drop_surface s)
        (after_callbacks cl
           (let! st := surface_check_status s in
            question (done (from_cairo st)) (fun _ => done (inr s))))
        (CreateFromPngStream s :: h) in
    (r, h', cl_stream cl).

(** cairo.rs lines 265-277: [ImageSurface::write_to_png]. *)
Definition write_to_png (s : ptr) (stream : S) : history -> outcome (lester_error + unit) * history * S :=
  fun h =>
    let (cl, status) := run_writer (env_png_writer E h s) (ClosureData stream None None) in
    let (r, h') :=
      after_callbacks cl (done (from_cairo (check status)))
        (WriteToPngStream s status :: h) in
    (r, h', cl_stream cl).
End Stream.

(** ** Writing to a file *)

Section File.
(** A file: [File::write] repeated until everything is written or an error
    comes; its new state and how many bytes were written. *)
Variable F : Type.
Variable put : F -> bytes -> F * N * option io_error.

(** [io::BufWriter] (cairo.rs line 136; the standard library's
    [BufWriter::flush_buf], [write_all] and [drop]): a buffer of 8192 bytes
    in front of the file.  (The standard library's flag against flushing
    after a panic of the file is left out: this file does not panic.) *)
Record buf_writer := BufWriter { bw_file : F; bw_buffer : bytes }.

(** [BufWriter::flush_buf]: what could not be written stays in the buffer.  cairo.rs line 136. *)
Definition flush_buf (b : buf_writer) : buf_writer * option io_error :=
  let '(f, written, e) := put (bw_file b) (bw_buffer b) in
  match e with
  | None => (BufWriter f [], None)
  | Some e => (BufWriter f (skipn (N.to_nat written) (bw_buffer b)), Some e)
  end.

(** [BufWriter::write_all].  cairo.rs line 136. *)
Definition buf_write_all (b : buf_writer) (data : bytes) : buf_writer * io_outcome :=
  let (b1, e) :=
    if (8192 <? N.of_nat (length (bw_buffer b) + length data))%N then flush_buf b else (b, None) in
  match e with
  | Some e => (b1, IoErr e)
  | None =>
      if (8192 <=? N.of_nat (length data))%N then
        let '(f, _, e) := put (bw_file b1) data in
        (BufWriter f (bw_buffer b1), match e with Some e => IoErr e | None => IoOk end)
      else (BufWriter (bw_file b1) (bw_buffer b1 ++ data), IoOk)
  end.

(** [BufWriter::drop]: flush, and ignore errors.  The file after it.  cairo.rs lines 135-137. *)
Definition drop_buf_writer (b : buf_writer) : F := bw_file (fst (flush_buf b)).

(** cairo.rs lines 135-137: [ImageSurface::write_to_png_file], with
    [opened] the result of [File::create]; also the file afterwards. *)
Definition write_to_png_file (s : ptr) (opened : io_error + F) (h : history)
  : outcome (lester_error + unit) * history * option F :=
  match opened with
  | inl e => (Done (inl (IoError e)), h, None)
  | inr f =>
      let '(r, h', b) := write_to_png buf_writer buf_write_all s (BufWriter f []) h in
      (r, h', Some (drop_buf_writer b))
  end.
End File.

(** ** lester/src/poppler.rs *)

(** Lines 21-47: [PdfDocument::from_bytes].  (Lines 22-25 replace an empty
    slice by another one.) *)
Definition from_bytes (data : bytes) : code (ptr + ptr) :=
  match usize_try_into_i32 (N.of_nat (length data)) with
  | None => unwind OutOfRange
  | Some _ =>
      let! r := poppler_document_new_from_data data in
      let (d, e) := (r : ptr * ptr) in
      if d =? 0 then done (inl e) else done (inr d)
  end.

(** Lines 83-86: [PagesIter]; [range] is a [Range<c_int>]. *)
Record pages_iter := PagesIter { it_document : ptr; it_start : Z; it_end : Z }.

(** Lines 53-59: [PdfDocument::pages]. *)
Definition pages (d : ptr) : code pages_iter :=
  let! count := poppler_document_get_n_pages d in
  done (PagesIter d 0 count).

(** Lines 61-68: [PdfDocument::get_page]. *)
Definition get_page (d : ptr) (index : Z) : code ptr :=
  let! p := poppler_document_get_page d index in
  assert (negb (p =? 0)) NullPage ;;;
  done p.

(** [Option::map] of that (lines 92, 96 and 107). *)
Definition map_page (d : ptr) (index : option Z) : code (option ptr) :=
  match index with
  | None => done None
  | Some i => let! p := get_page d i in done (Some p)
  end.

(** [Range<i32>::next], [next_back] and [nth] of the standard library: the
    item and the new range. *)
Definition range_next (start end_ : Z) : option Z * (Z * Z) :=
  if start <? end_ then (Some start, (start + 1, end_)) else (None, (start, end_)).
(** [next_back]: poppler.rs line 107. *)
Definition range_next_back (start end_ : Z) : option Z * (Z * Z) :=
  if start <? end_ then (Some (end_ - 1), (start, end_ - 1)) else (None, (start, end_)).
(** [nth]: poppler.rs line 96. *)
Definition range_nth (n : N) (start end_ : Z) : option Z * (Z * Z) :=
  let target := start + Z.of_N n in
  if (target <=? 2147483647) && (target <? end_)
  then (Some target, (target + 1, end_))
  else (None, (end_, end_)).

(** Lines 91-97 and 106-108: [next], [nth] and [next_back]: the iterator
    afterwards, even if the rest unwinds, and the item. *)
Definition advance (step : Z -> Z -> option Z * (Z * Z)) (it : pages_iter)
  : pages_iter * code (option ptr) :=
  let '(index, (start, end_)) := step (it_start it) (it_end it) in
  (PagesIter (it_document it) start end_, map_page (it_document it) index).
(** poppler.rs lines 91-93. *)
Definition iter_next := advance range_next.
(** poppler.rs lines 95-97. *)
Definition iter_nth (n : N) := advance (range_nth n).
(** poppler.rs lines 106-108. *)
Definition iter_next_back := advance range_next_back.

(** Lines 99-102 and 112-114: [len], also both parts of [size_hint]
    ([ExactSizeIterator for Range<i32>]). *)
Definition iter_len (it : pages_iter) : N :=
  if it_start it <? it_end it then Z.to_N (it_end it - it_start it) else 0%N.

(** Lines 129-134: [Page::size_in_ps_points]. *)
Definition size_in_ps_points (p : ptr) : code (f64 * f64) := poppler_page_get_size p.

(** Lines 215-217. *)
Definition PX_PER_PT : f64 := fdiv_finite 96 72.

(** Lines 140-143: [Page::size_in_css_px]. *)
Definition size_in_css_px (p : ptr) : code (f64 * f64) :=
  let! size := size_in_ps_points p in
  done (fmul (fst size) PX_PER_PT, fmul (snd size) PX_PER_PT).

(** Lines 231-271: [Backdrop], [RenderOptions] and its default. *)
Inductive backdrop := White | Transparent.
(** poppler.rs lines 240-271. *)
Record render_options := RenderOptions {
  opt_dppx_x : f64;
  opt_dppx_y : f64;
  opt_backdrop : backdrop;
  opt_for_printing : bool
}.
(** poppler.rs lines 261-271. *)
Definition default_options := RenderOptions (FVal 1) (FVal 1) Transparent false.

(** Lines 167-198: [Page::render_with_options]. *)
Definition render_with_options (p : ptr) (o : render_options) : code (Z + ptr) :=
  let! size := size_in_css_px p in
  let (width, height) := (size : f64 * f64) in
  let format := match opt_backdrop o with
                | Transparent => CAIRO_FORMAT_ARGB32
                | White => CAIRO_FORMAT_RGB24
                end in
  let! w := unwrap (f64_try_into_i32 (fceil (fmul width (opt_dppx_x o)))) in
  let! h := unwrap (f64_try_into_i32 (fceil (fmul height (opt_dppx_y o)))) in
  question (new_c_int format w h) (fun s =>
  dropped_unless_ok (drop_surface s) (
  question (context s) (fun c =>
  dropped_after (drop_context c) (
    match opt_backdrop o with
    | White => says (CairoSetSourceRgb c (FVal 1) (FVal 1) (FVal 1)) ;;; says (CairoPaint c)
    | Transparent => done tt
    end ;;;
    says (CairoScale c (fmul (opt_dppx_x o) PX_PER_PT) (fmul (opt_dppx_y o) PX_PER_PT)) ;;;
    (if opt_for_printing o
     then says (PageRenderForPrinting p c)
     else says (PageRender p c)) ;;;
    question (context_check_status c) (fun _ => done (inr s)))))).

(** Lines 146-148 and 158-164: [render] and [render_with_dppx]. *)
Definition render (p : ptr) := render_with_options p default_options.
(** poppler.rs lines 158-164. *)
Definition render_with_dppx (p : ptr) (dppx : f64) :=
  render_with_options p
    (RenderOptions dppx dppx (opt_backdrop default_options) (opt_for_printing default_options)).

(** Lines 279-285: [GlibString::from_nullable_ptr]. *)
Definition from_nullable_ptr (g : ptr) : option ptr := if g =? 0 then None else Some g.

(** Lines 71-73: [PdfDocument::producer]. *)
Definition producer (d : ptr) : code (option ptr) :=
  let! g := poppler_document_get_producer d in done (from_nullable_ptr g).

(** Lines 201-206: [Page::text]. *)
Definition page_text (p : ptr) : code ptr :=
  let! g := poppler_page_get_text p in
  match from_nullable_ptr g with
  | Some g => done g
  | None => unwind NullText
  end.

(** Lines 287-290: [GlibString::to_str]; the contents are those before the
    first NUL byte. *)
Definition to_str (g : ptr) : code (option bytes) :=
  let! contents := calls (fun h => env_string E h g) (ReadString g) in
  done (if is_utf8 contents then Some contents else None).

(** errors.rs lines 10-18 with lines 65-67: [description] (and so [Display]
    and [Debug]) of a [GlibError]. *)
Definition glib_description (e : ptr) : code bytes :=
  let! contents := calls (fun h => env_message E h e) (ReadErrorMessage e) in
  if is_utf8 contents then done contents else unwind InvalidUtf8.

End Lester.

(** ** lester/src/lib.rs *)

(** Line 83: the pixel in upper case hexadecimal, at least eight digits. *)
Definition hex_digit (d : N) : N := if (d <? 10)%N then (48 + d)%N else (55 + d)%N.
(** lib.rs line 83. *)
Definition hex8 (p : N) : bytes :=
  map (fun shift => hex_digit (N.land (N.shiftr p shift) 15)) [28; 24; 20; 16; 12; 8; 4; 0]%N.

(** Lines 80-86: [pixels_to_hex]. *)
Fixpoint join (separator : bytes) (l : list bytes) : bytes :=
  match l with
  | [] => []
  | [x] => x
  | x :: rest => x ++ separator ++ join separator rest
  end.
(** lib.rs lines 80-86. *)
Definition pixels_to_hex (pixels : list N) : bytes := join (bs ", ") (map hex8 pixels).

(** cairo.rs lines 14-26: the derived [PartialEq] of [Argb32Pixels], of which
    the contents of the buffers are given here. *)
Record image := Image { image_width : N; image_height : N; image_buffer : list N }.
(** cairo.rs lines 14-26: [==] of the buffers. *)
Fixpoint same_buffer (a b : list N) : bool :=
  match a, b with
  | [], [] => true
  | x :: a, y :: b => (x =? y)%N && same_buffer a b
  | _, _ => false
  end.
(** cairo.rs lines 14-26: [==]. *)
Definition pixels_eq (a b : image) : bool :=
  (image_width a =? image_width b)%N && (image_height a =? image_height b)%N
  && same_buffer (image_buffer a) (image_buffer b).
