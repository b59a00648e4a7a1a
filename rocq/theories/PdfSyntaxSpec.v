(** Independent reader of the PDF file structure (ISO 32000-1, 7.5), used to state C05-C08.
    Nothing here refers to the writer. *)
From Verif Require Import Base PdfObjectSpec.
Local Open Scope N_scope.

(** Next token made of regular characters, after white space and comments. *)
Definition next_token (l : bytes) : bytes * bytes := span_regular (skip_ws l).

Definition token_number (t : bytes) : option N :=
  match t with [] => None | _ => digits_value 0 t end.

Fixpoint strip_prefix (p l : bytes) : option bytes :=
  match p, l with
  | [], _ => Some l
  | a :: p', b :: l' => if a =? b then strip_prefix p' l' else None
  | _ :: _, [] => None
  end.

Fixpoint drop_ws (l : bytes) : bytes :=
  match l with
  | b :: r => if is_ws b then drop_ws r else l
  | [] => []
  end.

Fixpoint span_digits (l : bytes) : bytes * bytes :=
  match l with
  | b :: r => if is_digit b then let (t, r') := span_digits r in (b :: t, r') else ([], l)
  | [] => ([], [])
  end.

(** 7.5.5: the file ends with [startxref], an offset and [%%EOF]; read backwards. *)
Definition find_startxref (file : bytes) : option N :=
  match strip_prefix (rev (bs "%%EOF")) (drop_ws (rev file)) with
  | None => None
  | Some r1 =>
      let (ds, r2) := span_digits (drop_ws r1) in
      match strip_prefix (rev (bs "startxref")) (drop_ws r2) with
      | None => None
      | Some _ => token_number (rev ds)
      end
  end.

(** A cross-reference entry (7.5.4). *)
Record xentry : Type := mkX { x_num : N; x_offset : N; x_gen : N; x_in_use : bool }.

(** One 20-byte entry: ten digits, space, five digits, space, [n] or [f], two-byte end of
    line (SP LF, SP CR or CR LF). *)
Definition read_xentry (num : N) (l : bytes) : option (xentry * bytes) :=
  let e := firstn 20 l in
  match digits_value 0 (firstn 10 e), digits_value 0 (firstn 5 (skipn 11 e)), skipn 16 e with
  | Some off, Some gen, [s2; k; e1; e2] =>
      if bytes_eqb (firstn 1 (skipn 10 e)) [32] && (s2 =? 32) &&
         ((k =? 110) || (k =? 102)) &&
         (bytes_eqb [e1; e2] [32; 10] || bytes_eqb [e1; e2] [32; 13] || bytes_eqb [e1; e2] [13; 10])
      then Some (mkX num off gen (k =? 110), skipn 20 l)
      else None
  | _, _, _ => None
  end.

Fixpoint read_xentries (count : nat) (num : N) (l : bytes) : option (list xentry * bytes) :=
  match count with
  | O => Some ([], l)
  | S c => match read_xentry num l with
           | Some (e, r) => cons_fst e (read_xentries c (num + 1) r)
           | None => None
           end
  end.

(** Subsections up to the [trailer] keyword, then the trailer dictionary. *)
Fixpoint read_sections (fuel : nat) (l : bytes) : option (list xentry * pval) :=
  match fuel with
  | O => None
  | S f =>
      let (t, r) := next_token l in
      if bytes_eqb t (bs "trailer") then
        match read_object r with
        | Some (v, _) => Some ([], v)
        | None => None
        end
      else
        let (t2, r2) := next_token r in
        match token_number t, token_number t2 with
        | Some first, Some count =>
            match read_xentries (N.to_nat count) first (drop_ws r2) with
            | Some (es, r3) =>
                match read_sections f r3 with
                | Some (es', v) => Some (es ++ es', v)
                | None => None
                end
            | None => None
            end
        | _, _ => None
        end
  end.

Record pdf : Type := mkPdf { p_entries : list xentry; p_trailer : pval }.

Definition seek (off : N) (file : bytes) : bytes := skipn (N.to_nat off) file.

Definition read_pdf (file : bytes) : option pdf :=
  match find_startxref file with
  | None => None
  | Some off =>
      let l := seek off file in
      match strip_prefix (bs "xref") l with
      | None => None
      | Some r =>
          match read_sections (length r) r with
          | Some (es, v) => Some (mkPdf es v)
          | None => None
          end
      end
  end.

(** ** Indirect objects (7.3.10) and streams (7.3.8) *)
Fixpoint lookup_key (k : bytes) (l : list (bytes * pval)) : option pval :=
  match l with
  | [] => None
  | (k', v) :: r => if bytes_eqb k k' then Some v else lookup_key k r
  end.

(** The end of line after the keyword [stream]: CR LF or LF. *)
Definition skip_stream_eol (l : bytes) : option bytes :=
  match l with
  | b :: r => if b =? 10 then Some r
              else if b =? 13 then match r with
                                   | c :: r' => if c =? 10 then Some r' else None
                                   | [] => None end
              else None
  | [] => None
  end.

(** The object [num gen obj ... endobj] at the start of [l]: number, generation, value and,
    for a stream, its contents. *)
Definition read_indirect (l : bytes) : option (N * N * pval * option bytes) :=
  let (t1, r1) := next_token l in
  let (t2, r2) := next_token r1 in
  let (t3, r3) := next_token r2 in
  match token_number t1, token_number t2, bytes_eqb t3 (bs "obj"), read_object r3 with
  | Some num, Some gen, true, Some (v, r4) =>
      let (t4, r5) := next_token r4 in
      if bytes_eqb t4 (bs "endobj") then Some (num, gen, v, None)
      else if bytes_eqb t4 (bs "stream") then
        match skip_stream_eol r5, v with
        | Some r6, PDict es =>
            match lookup_key (bs "Length") es with
            | Some (PInt z) =>
                let n := Z.to_nat z in
                if (z <? 0)%Z || (Nat.ltb (length r6) n) then None
                else
                  let (t5, r7) := next_token (skipn n r6) in
                  let (t6, _) := next_token r7 in
                  if bytes_eqb t5 (bs "endstream") && bytes_eqb t6 (bs "endobj")
                  then Some (num, gen, v, Some (firstn n r6))
                  else None
            | _ => None
            end
        | _, _ => None
        end
      else None
  | _, _, _, _ => None
  end.

Definition find_entry (num : N) (es : list xentry) : option xentry :=
  find (fun e => x_num e =? num) es.

(** What the file says object [num] is. *)
Definition resolve (file : bytes) (num : N) : option (pval * option bytes) :=
  match read_pdf file with
  | None => None
  | Some p =>
      match find_entry num (p_entries p) with
      | None => None
      | Some e =>
          if x_in_use e then
            match read_indirect (seek (x_offset e) file) with
            | Some (n, g, v, s) => if (n =? num) && (g =? x_gen e) then Some (v, s) else None
            | None => None
            end
          else None
      end
  end.
