(** Specification side of C01-C04: a reader for PDF objects written from
    ISO 32000-1:2008 section 7.2-7.3, independently of the serialiser, and the value
    each model object stands for. *)
From Verif Require Import Base PdfObject.
From Coq Require Export QArith Qreduction.
Local Open Scope N_scope.

(** ** PDF values (7.3) *)
Inductive pval : Type :=
| PBool (b : bool)
| PNull
| PInt (z : Z)
| PReal (q : Q)                     (* kept in lowest terms *)
| PName (b : bytes)
| PString (b : bytes)
| PArray (l : list pval)
| PDict (l : list (bytes * pval))   (* entries in file order *)
| PRef (num gen : N).

(** ** Characters (7.2.2, tables 1 and 2) *)
Definition is_ws (b : N) : bool := existsb (N.eqb b) [0; 9; 10; 12; 13; 32].
Definition is_delim (b : N) : bool := existsb (N.eqb b) (bs "()<>[]{}/%").
Definition is_regular (b : N) : bool := negb (is_ws b) && negb (is_delim b).
Definition is_digit (b : N) : bool := (48 <=? b) && (b <=? 57).
Definition is_octal (b : N) : bool := (48 <=? b) && (b <=? 55).

(** White space and comments (7.2.3) *)
Fixpoint skip_ws_or_comment (in_comment : bool) (l : bytes) : bytes :=
  match l with
  | [] => []
  | b :: r =>
      if in_comment then skip_ws_or_comment (negb ((b =? 10) || (b =? 13))) r
      else if is_ws b then skip_ws_or_comment false r
      else if b =? 37 then skip_ws_or_comment true r
      else l
  end.
Definition skip_ws (l : bytes) : bytes := skip_ws_or_comment false l.

(** A maximal run of regular characters. *)
Fixpoint span_regular (l : bytes) : bytes * bytes :=
  match l with
  | [] => ([], [])
  | b :: r => if is_regular b then let (t, r') := span_regular r in (b :: t, r') else ([], l)
  end.

(** ** Numbers (7.3.3) *)
Fixpoint digits_value (acc : N) (l : bytes) : option N :=
  match l with
  | [] => Some acc
  | b :: r => if is_digit b then digits_value (acc * 10 + (b - 48)) r else None
  end.

Fixpoint split_dot (l : bytes) : bytes * option bytes :=
  match l with
  | [] => ([], None)
  | b :: r => if b =? 46 then ([], Some r)
              else let (i, f) := split_dot r in (b :: i, f)
  end.

Definition ten_power (e : Z) : Q := Qpower (10 # 1) e.

(** Value of [m * 10^e], in lowest terms. *)
Definition real_value (m : Z) (e : Z) : Q := Qred (inject_Z m * ten_power e).

Definition parse_unsigned (neg : bool) (l : bytes) : option pval :=
  let sign (n : N) : Z := if neg then (- Z.of_N n)%Z else Z.of_N n in
  match split_dot l with
  | (i, None) =>
      match i with
      | [] => None
      | _ => match digits_value 0 i with Some n => Some (PInt (sign n)) | None => None end
      end
  | (i, Some f) =>
      match i ++ f with
      | [] => None
      | _ => match digits_value 0 (i ++ f) with
             | Some n => Some (PReal (real_value (sign n) (- Z.of_nat (length f))))
             | None => None
             end
      end
  end.

Definition parse_number (tok : bytes) : option pval :=
  match tok with
  | [] => None
  | b :: r => if b =? 45 then parse_unsigned true r
              else if b =? 43 then parse_unsigned false r
              else parse_unsigned false tok
  end.

(** ** Strings (7.3.4) *)
Definition hex_val (b : N) : option N :=
  if is_digit b then Some (b - 48)
  else if (65 <=? b) && (b <=? 70) then Some (b - 55)
  else if (97 <=? b) && (b <=? 102) then Some (b - 87)
  else None.

Definition cons_fst {A B} (x : A) (o : option (list A * B)) : option (list A * B) :=
  match o with Some (l, r) => Some (x :: l, r) | None => None end.

(** 7.3.4.2: balanced parentheses, escapes, and end-of-line markers read as LF. *)
Fixpoint read_literal (depth : nat) (l : bytes) {struct l} : option (bytes * bytes) :=
  match l with
  | [] => None
  | b :: r =>
      if b =? 41 then
        match depth with
        | O => Some ([], r)
        | S d => cons_fst 41 (read_literal d r)
        end
      else if b =? 40 then cons_fst 40 (read_literal (S depth) r)
      else if b =? 92 then
        match r with
        | [] => None
        | c :: r1 =>
            if c =? 110 then cons_fst 10 (read_literal depth r1)
            else if c =? 114 then cons_fst 13 (read_literal depth r1)
            else if c =? 116 then cons_fst 9 (read_literal depth r1)
            else if c =? 98 then cons_fst 8 (read_literal depth r1)
            else if c =? 102 then cons_fst 12 (read_literal depth r1)
            else if c =? 10 then read_literal depth r1
            else if c =? 13 then
              match r1 with
              | c2 :: r2 => if c2 =? 10 then read_literal depth r2 else read_literal depth r1
              | [] => None
              end
            else if is_octal c then
              match r1 with
              | [] => None
              | c2 :: r2 =>
                  if is_octal c2 then
                    match r2 with
                    | [] => None
                    | c3 :: r3 =>
                        if is_octal c3 then
                          cons_fst (((c - 48) * 64 + (c2 - 48) * 8 + (c3 - 48)) mod 256)
                                   (read_literal depth r3)
                        else cons_fst ((c - 48) * 8 + (c2 - 48)) (read_literal depth r2)
                    end
                  else cons_fst (c - 48) (read_literal depth r1)
              end
            else cons_fst c (read_literal depth r1)
        end
      else if b =? 13 then
        match r with
        | c :: r1 => if c =? 10 then cons_fst 10 (read_literal depth r1)
                     else cons_fst 10 (read_literal depth r)
        | [] => None
        end
      else cons_fst b (read_literal depth r)
  end.

(** 7.3.4.3: pairs of hexadecimal digits, white space ignored, odd digit padded with 0. *)
Fixpoint read_hex_string (pending : option N) (l : bytes) : option (bytes * bytes) :=
  match l with
  | [] => None
  | b :: r =>
      if b =? 62 then
        match pending with None => Some ([], r) | Some h => Some ([h * 16], r) end
      else if is_ws b then read_hex_string pending r
      else match hex_val b with
           | None => None
           | Some v => match pending with
                       | None => read_hex_string (Some v) r
                       | Some h => cons_fst (h * 16 + v) (read_hex_string None r)
                       end
           end
  end.

(** ** Names (7.3.5): [#xx] stands for the byte with that hexadecimal code. *)
Fixpoint unescape_name (l : bytes) : bytes :=
  match l with
  | [] => []
  | b :: r =>
      match r with
      | h1 :: h2 :: r' =>
          if b =? 35 then
            match hex_val h1, hex_val h2 with
            | Some v1, Some v2 => (v1 * 16 + v2) :: unescape_name r'
            | _, _ => b :: unescape_name r
            end
          else b :: unescape_name r
      | _ => b :: unescape_name r
      end
  end.

Definition bytes_eqb (a b : bytes) : bool :=
  if list_eq_dec N.eq_dec a b then true else false.

(** ** Indirect references (7.3.10): what follows the object number. *)
Definition ref_tail (l : bytes) : option (N * bytes) :=
  let (t1, r1) := span_regular (skip_ws l) in
  match t1 with
  | [] => None
  | _ =>
      match digits_value 0 t1 with
      | None => None
      | Some gen =>
          let (t2, r2) := span_regular (skip_ws r1) in
          if bytes_eqb t2 (bs "R") then Some (gen, r2) else None
      end
  end.

Definition read_token (tok rest : bytes) : option (pval * bytes) :=
  match parse_number tok with
  | Some (PInt z) =>
      if (z <? 0)%Z then Some (PInt z, rest)
      else match ref_tail rest with
           | Some (gen, r2) => Some (PRef (Z.to_N z) gen, r2)
           | None => Some (PInt z, rest)
           end
  | Some v => Some (v, rest)
  | None =>
      if bytes_eqb tok (bs "true") then Some (PBool true, rest)
      else if bytes_eqb tok (bs "false") then Some (PBool false, rest)
      else if bytes_eqb tok (bs "null") then Some (PNull, rest)
      else None
  end.

(** ** The object reader.  The fuel bounds nesting and number of elements. *)
Fixpoint read_obj (fuel : nat) (l : bytes) {struct fuel} : option (pval * bytes) :=
  match fuel with
  | O => None
  | S f =>
      match skip_ws l with
      | [] => None
      | b :: r =>
          if b =? 47 then
            let (t, r') := span_regular r in Some (PName (unescape_name t), r')
          else if b =? 40 then
            match read_literal 0 r with Some (s, r') => Some (PString s, r') | None => None end
          else if b =? 60 then
            match r with
            | c :: r' =>
                if c =? 60 then
                  match read_entries f r' with
                  | Some (es, r2) => Some (PDict es, r2)
                  | None => None
                  end
                else
                  match read_hex_string None r with
                  | Some (s, r2) => Some (PString s, r2)
                  | None => None
                  end
            | [] => None
            end
          else if b =? 91 then
            match read_items f r with
            | Some (vs, r2) => Some (PArray vs, r2)
            | None => None
            end
          else
            let (t, r') := span_regular (b :: r) in read_token t r'
      end
  end
(** Items of an array up to the closing bracket (7.3.6). *)
with read_items (fuel : nat) (l : bytes) {struct fuel} : option (list pval * bytes) :=
  match fuel with
  | O => None
  | S f =>
      match skip_ws l with
      | [] => None
      | b :: r =>
          if b =? 93 then Some ([], r)
          else match read_obj f (b :: r) with
               | Some (v, r') => cons_fst v (read_items f r')
               | None => None
               end
      end
  end
(** Entries of a dictionary up to the closing [>>] (7.3.7). *)
with read_entries (fuel : nat) (l : bytes) {struct fuel}
  : option (list (bytes * pval) * bytes) :=
  match fuel with
  | O => None
  | S f =>
      match skip_ws l with
      | b :: c :: r =>
          if (b =? 62) && (c =? 62) then Some ([], r)
          else if b =? 47 then
            let (t, r') := span_regular (c :: r) in
            match read_obj f r' with
            | Some (v, r2) => cons_fst (unescape_name t, v) (read_entries f r2)
            | None => None
            end
          else None
      | _ => None
      end
  end.

(** Read one object at the start of [l]; returns the value and the unread rest. *)
Definition read_object (l : bytes) : option (pval * bytes) := read_obj (S (length l)) l.

(** ** What each object of the code stands for *)

Definition dec_mantissa (d : dec) : Z :=
  let n := fold_left (fun acc x => acc * 10 + x) (d_digits d) 0 in
  if d_neg d then (- Z.of_N n)%Z else Z.of_N n.
Definition dec_value (d : dec) : Q := real_value (dec_mantissa d) (d_exp d).

Fixpoint meaning (o : obj) : pval :=
  match o with
  | OUsize n => PInt (Z.of_N n)
  | OI32 z => PInt z
  | OFloat d => PReal (dec_value d)
  | OName b => PName b
  | OLiteralString b => PString b
  | OHexString b => PString b
  | OArray l => PArray (map meaning l)
  | ODictionary d => PDict (meaning_pairs d)
  | OReference id => PRef id 0
  | OGraphicsStateDictionaryAlpha a =>
      PDict [(bs "CA", PReal (dec_value a)); (bs "ca", PReal (dec_value a))]
  | ODictionaryWithOwnedKeys l => PDict (map (fun kv => (fst kv, meaning (snd kv))) l)
  end
with meaning_pairs (d : dictionary) : list (bytes * pval) :=
  match d with
  | Dictionary prev pairs =>
      match prev with None => [] | Some p => meaning_pairs p end ++
      map (fun kv => (fst kv, meaning (snd kv))) pairs
  end.

(** ** The exact side conditions *)

(** [#] followed by two hexadecimal digits occurs in the name. *)
Definition has_hash_escape (n : bytes) : Prop :=
  exists a h1 h2 b, n = a ++ 35 :: h1 :: h2 :: b /\ hex_val h1 <> None /\ hex_val h2 <> None.

Definition clean_name (n : bytes) : Prop := wf_bytes n /\ ~ has_hash_escape n.

(** ISO 7.3.4.2: an end-of-line marker inside a literal string is read as LF. *)
Fixpoint normalize_eol (s : bytes) : bytes :=
  match s with
  | [] => []
  | b :: r => if b =? 13 then
                match r with
                | c :: r' => if c =? 10 then 10 :: normalize_eol r' else 10 :: normalize_eol r
                | [] => [10]
                end
              else b :: normalize_eol r
  end.

(** Well-formed decimal: digits 0-9 without leading zero (what Grisu produces). *)
Definition wf_dec (d : dec) : Prop :=
  Forall (fun x => x < 10) (d_digits d) /\ hd 1 (d_digits d) <> 0.

(** Zero, or the decimal point falls where plain notation is used:
    the value's magnitude is at least 1e-6 and below 1e21. *)
Definition plain_dec (d : dec) : Prop :=
  d_digits d = [] \/
  (-6 < Z.of_nat (length (d_digits d)) + d_exp d <= 21)%Z.

Fixpoint clean (o : obj) : Prop :=
  match o with
  | OUsize _ | OI32 _ | OReference _ => True
  | OFloat d | OGraphicsStateDictionaryAlpha d => wf_dec d /\ plain_dec d
  | OName n => clean_name n
  | OLiteralString s => wf_bytes s /\ ~ In 13 s
  | OHexString s => wf_bytes s
  | OArray l => (fix all l := match l with [] => True | x :: r => clean x /\ all r end) l
  | ODictionary d => clean_pairs d
  | ODictionaryWithOwnedKeys l =>
      (fix all l := match l with
                    | [] => True
                    | (k, v) :: r => (clean_name k /\ clean v) /\ all r
                    end) l
  end
with clean_pairs (d : dictionary) : Prop :=
  match d with
  | Dictionary prev pairs =>
      match prev with None => True | Some p => clean_pairs p end /\
      (fix all l := match l with
                    | [] => True
                    | (k, v) :: r => (clean_name k /\ clean v) /\ all r
                    end) pairs
  end.

(** What may follow an object: the end of input, white space or a delimiter, and not
    the rest of an indirect reference. *)
Definition safe_tail (rest : bytes) : Prop :=
  match rest with [] => True | b :: _ => is_regular b = false end /\ ref_tail rest = None.
