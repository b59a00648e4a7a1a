(** * Writing a PDF document to a stream that can fail

    PdfObject.v and PdfSyntax.v give the bytes that are written when every
    call of the stream succeeds.  Here the same functions are modelled call by
    call, over any stream: each [write_all(…)?] is a call of the stream, which
    may end with an error (or a panic), and what comes after is then not done. *)
From Verif Require Import Base.
From Verif Require Lester.
From Verif Require Import PdfObject PdfSyntax PdfConvert.
Import Lester (io_error, io_outcome, IoOk, IoErr, IoPanic).
Local Open Scope N_scope.

Section Stream.
(** The stream [W: Write] of object.rs:151 and syntax.rs:65: its state, and its
    [write_all], with the state afterwards and how it ended. *)
Variable W : Type.
Variable write_all : W -> bytes -> W * io_outcome.
(** How the external crate [dtoa], called at object.rs:156, cuts what it writes
    into calls of [write_all]. *)
Variable dtoa_calls : dec -> list bytes.

(** Code that writes to the stream and returns [io::Result<()>]. *)
Definition writes : Type := W -> W * io_outcome.

(** [Ok(())], as at object.rs:230 *)
Definition nothing : writes := fun w => (w, IoOk).

(** [w.write_all(b)], as at object.rs:160; also [itoa::write], object.rs:154,
    which makes one call. *)
Definition put (b : bytes) : writes := fun w => write_all w b.

(** [p?; q], as at object.rs:215-216 *)
Definition and_then (p q : writes) : writes := fun w =>
  let (w', r) := p w in
  match r with IoOk => q w' | IoErr _ | IoPanic _ => (w', r) end.

(** [for x in l { f(x)? }], as at object.rs:161-166 *)
Definition each {A : Type} (f : A -> writes) : list A -> writes :=
  fix go l := match l with [] => nothing | x :: r => and_then (f x) (go r) end.

(** object.rs:156: the calls made by [dtoa::write] *)
Definition write_float_to (d : dec) : writes := each put (dtoa_calls d).

(** object.rs:234-240 [write_hex] *)
Definition write_hex_to (b : N) : writes := put (write_hex b).

(** object.rs:242-254 [write_name] *)
Definition write_name_to (name : bytes) : writes :=
  and_then (put (bs "/"))
    (each (fun b =>
       match kind b with
       | Regular => put [b]
       | Whitespace | Delimiter => and_then (put (bs "#")) (write_hex_to b)
       end) name).

(** object.rs:159-168, the [LiteralString] arm *)
Definition write_literal_to (s : bytes) : writes :=
  and_then (put (bs "("))
    (and_then (each (fun b => if (b =? 92) || (b =? 40) || (b =? 41) then put [92; b] else put [b]) s)
       (put (bs ")"))).

(** object.rs:169-175, the [HexString] arm *)
Definition write_hex_string_to (s : bytes) : writes :=
  and_then (put (bs "<")) (and_then (each write_hex_to s) (put (bs ">"))).

(** One turn of the loops at object.rs:201-206 and 224-229 *)
Definition write_pair_to (key : bytes) (value : writes) : writes :=
  and_then (put (bs " ")) (and_then (write_name_to key) (and_then (put (bs " ")) value)).

(** object.rs:150-211 [Object::write] and 220-231 [Dictionary::write_pairs].
    The dictionary of lines 193-197 is written out, its two values being
    [Object::Float]. *)
Fixpoint write_obj_to (o : obj) : writes :=
  match o with
  | OI32 z => put (itoa_Z z)
  | OUsize n => put (itoa n)
  | OFloat d => write_float_to d
  | OName n => write_name_to n
  | ODictionary d => and_then (put (bs "<<")) (and_then (write_pairs_to d) (put (bs " >>")))
  | OLiteralString s => write_literal_to s
  | OHexString s => write_hex_string_to s
  | OArray l =>
      and_then (put (bs "["))
        (and_then
           match l with
           | [] => nothing
           | item :: rest =>
               and_then (write_obj_to item) (each (fun i => and_then (put (bs " ")) (write_obj_to i)) rest)
           end
           (put (bs "]")))
  | OReference id => and_then (put (itoa id)) (put (bs " 0 R"))
  | OGraphicsStateDictionaryAlpha a =>
      and_then (put (bs "<<"))
        (and_then (each (fun kv => write_pair_to (fst kv) (write_float_to (snd kv))) [(bs "CA", a); (bs "ca", a)])
           (put (bs " >>")))
  | ODictionaryWithOwnedKeys l =>
      and_then (put (bs "<<"))
        (and_then (each (fun kv => write_pair_to (fst kv) (write_obj_to (snd kv))) l) (put (bs " >>")))
  end
with write_pairs_to (d : dictionary) : writes :=
  match d with
  | Dictionary prev pairs =>
      and_then match prev with None => nothing | Some p => write_pairs_to p end
        (each (fun kv => write_pair_to (fst kv) (write_obj_to (snd kv))) pairs)
  end.

(** object.rs:213-218 [Dictionary::write] *)
Definition write_dict_to (d : dictionary) : writes :=
  and_then (put (bs "<<")) (and_then (write_pairs_to d) (put (bs " >>"))).
End Stream.

Section File.
(** The stream of syntax.rs:65, as above. *)
Variable W : Type.
Variable write_all : W -> bytes -> W * io_outcome.
Variable dtoa_calls : dec -> list bytes.

(** syntax.rs:153-156 [struct CountingWrite] *)
Record counting : Type := Counting { inner : W; counted : N }.

(** syntax.rs:168-174 [CountingWrite::write_all]: counts first, whatever the
    stream then does.  Simplification: the counter does not wrap at 2^64. *)
Definition counting_write_all (w : counting) (b : bytes) : counting * io_outcome :=
  let (w', r) := write_all (inner w) b in (Counting w' (counted w + lenN b), r).

(** A failed [assert_eq!]: syntax.rs:85, 94, 108 *)
Definition assertion_failed : io_outcome := IoPanic 0.

(** syntax.rs:80-93, the loop over the first objects: the offsets so far, the
    next number, the stream, and how it ended. *)
Fixpoint write_basic_to (next_object_id : N) (l : list (N * dictionary)) (offsets : list N) (w : counting)
  : list N * N * counting * io_outcome :=
  match l with
  | [] => (offsets, next_object_id, w, IoOk)
  | (object_id, d) :: rest =>
      if next_object_id =? object_id then
        let offsets := offsets ++ [u32 (counted w)] in
        let (w', r) :=
          and_then _ (put _ counting_write_all (itoa object_id))
            (and_then _ (put _ counting_write_all (bs " 0 obj" ++ LF))
               (and_then _ (write_dict_to _ counting_write_all dtoa_calls d)
                  (put _ counting_write_all (LF ++ bs "endobj" ++ LF)))) w in
        match r with
        | IoOk => write_basic_to (u32 (next_object_id + 1)) rest offsets w'
        | IoErr _ | IoPanic _ => (offsets, next_object_id, w', r)
        end
      else (offsets, next_object_id, w, assertion_failed)
  end.

(** syntax.rs:95-104, the loop over the other objects *)
Fixpoint write_indirect_to (next_object_id : N) (l : list bytes) (offsets : list N) (w : counting)
  : list N * counting * io_outcome :=
  match l with
  | [] => (offsets, w, IoOk)
  | contents :: rest =>
      let offsets := offsets ++ [u32 (counted w)] in
      let (w', r) :=
        and_then _ (put _ counting_write_all (itoa next_object_id))
          (and_then _ (put _ counting_write_all (bs " 0 obj" ++ LF))
             (and_then _ (put _ counting_write_all contents)
                (put _ counting_write_all (LF ++ bs "endobj" ++ LF)))) w in
      match r with
      | IoOk => write_indirect_to (u32 (next_object_id + 1)) rest offsets w'
      | IoErr _ | IoPanic _ => (offsets, w', r)
      end
  end.

(** syntax.rs:113-136: from the cross-reference table to the end *)
Definition write_tail_to (total : N) (offsets : list N) (startxref : N) : writes W :=
  let put := put W write_all in
  let and_then := and_then W in
  let xref_table_size := total + 1 in
  let trailer := dict [ (bs "Size", OUsize xref_table_size);
                        (bs "Root", OReference CATALOG_ID);
                        (bs "Info", OReference INFO_ID) ] in
  and_then (put (bs "xref" ++ LF ++ bs "0 "))
    (and_then (put (itoa xref_table_size))
      (and_then (put (LF ++ bs "0000000000 65535 f " ++ LF))
        (and_then (each W (fun offset => put (xref_entry offset)) offsets)
          (and_then (put (bs "trailer" ++ LF))
            (and_then (write_dict_to W write_all dtoa_calls trailer)
              (and_then (put (LF ++ bs "startxref" ++ LF))
                (and_then (put (itoa startxref))
                  (put (LF ++ bs "%%EOF"))))))))).

(** syntax.rs:65-137 [PdfFile::write] *)
Definition pdf_write_to (f : pdf_file) (b : basic_objects) : writes W := fun w =>
  let total := (FIRST_AVAILABLE_ID - FIRST_ID) + lenN (indirect_objects f) in
  let (w, r) := counting_write_all (Counting w 0) pdf_header in
  match r with
  | IoErr _ | IoPanic _ => (inner w, r)
  | IoOk =>
      let '(offsets, next_object_id, w, r) :=
        write_basic_to FIRST_ID [(PAGE_TREE_ID, page_tree b); (CATALOG_ID, catalog b); (INFO_ID, info b)] [] w in
      match r with
      | IoErr _ | IoPanic _ => (inner w, r)
      | IoOk =>
          if next_object_id =? FIRST_AVAILABLE_ID then
            let '(offsets, w, r) := write_indirect_to next_object_id (indirect_objects f) offsets w in
            match r with
            | IoErr _ | IoPanic _ => (inner w, r)
            | IoOk =>
                let startxref := counted w in
                if total =? lenN offsets then write_tail_to total offsets startxref (inner w)
                else (inner w, assertion_failed)
            end
          else (inner w, assertion_failed)
      end
  end.

(** convert.rs:39-58 [InProgressDoc::write] and mod.rs:55-57 [Document::write_to_pdf] *)
Definition write_to_pdf (d : doc) : writes W := pdf_write_to (d_pdf d) (doc_basic_objects d).
End File.

(** [Write for Vec<u8>] of the standard library (mod.rs:40) *)
Definition vec_write_all (v b : bytes) : bytes * io_outcome := (v ++ b, IoOk).

(** mod.rs:39-44 [Document::write_to_pdf_bytes]; [None] is the panic of the
    [unwrap] at line 42 (or another one). *)
Definition write_to_pdf_bytes (dtoa_calls : dec -> list bytes) (d : doc) : option bytes :=
  let (v, r) := write_to_pdf bytes vec_write_all dtoa_calls d [] in
  match r with IoOk => Some v | IoErr _ | IoPanic _ => None end.

(** mod.rs:34-36 [Document::write_to_pdf_file], with [opened] what [File::create]
    returned, and [put] the writing of that file, as in Lester.v, which has
    the standard library's [BufWriter].  How it ended, and the file once the
    [BufWriter], a temporary, has been dropped. *)
Definition write_to_pdf_file (F : Type) (put : F -> bytes -> F * N * option io_error)
  (dtoa_calls : dec -> list bytes) (d : doc) (opened : io_error + F) : io_outcome * option F :=
  match opened with
  | inl e => (IoErr e, None)
  | inr f =>
      let (b, r) :=
        write_to_pdf (Lester.buf_writer F) (Lester.buf_write_all F put) dtoa_calls d (Lester.BufWriter F f []) in
      (r, Some (Lester.drop_buf_writer F put b))
  end.

(** What one call of a stream's [write] answers: how many bytes it took, or an
    error, of the kind [Interrupted] or not, or a panic (mod.rs:55: any [W: Write]). *)
Inductive answer : Type :=
| Wrote (n : nat)
| Interrupted
| Failed (e : io_error)
| Panics (n : N).

(** [Write::write_all] of the standard library, for the streams that have only
    [write] (mod.rs:55): a stream is the bytes it took and the answers it has
    yet to give; when there are none left, it takes everything.  [write_zero]
    is the error for a stream that takes nothing; a stream that claims to have
    taken more than it was given makes the loop panic. *)
Fixpoint default_write_all (write_zero : io_error) (answers : list answer) (taken b : bytes)
  : (bytes * list answer) * io_outcome :=
  match b, answers with
  | [], _ => ((taken, answers), IoOk)
  | _, [] => ((taken ++ b, []), IoOk)
  | _, Wrote O :: rest => ((taken, rest), IoErr write_zero)
  | _, Wrote n :: rest =>
      if (n <=? length b)%nat
      then default_write_all write_zero rest (taken ++ firstn n b) (skipn n b)
      else ((taken, rest), IoPanic 1)
  | _, Interrupted :: rest => default_write_all write_zero rest taken b
  | _, Failed e :: rest => ((taken, rest), IoErr e)
  | _, Panics n :: rest => ((taken, rest), IoPanic n)
  end.
(** The same as the [write_all] of a stream (mod.rs:55) *)
Definition answering_write_all (write_zero : io_error) (s : bytes * list answer) (b : bytes)
  : (bytes * list answer) * io_outcome := default_write_all write_zero (snd s) (fst s) b.
