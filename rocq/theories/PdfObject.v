(** Model of victor/src/pdf/object.rs: the PDF object serialiser. *)
From Verif Require Import Base.
Local Open Scope N_scope.

(** ** Numbers *)

(** [itoa::write] (external crate, called at object.rs:154,155,189 and
    syntax.rs:89,100,116,134): shortest decimal digits.  [digits_rev] emits them
    least significant first; the fuel [S (N.size_nat n)] always suffices. *)
Fixpoint digits_rev (fuel : nat) (n : N) : bytes :=
  match fuel with
  | O => []
  | S f => if n <? 10 then [48 + n] else (48 + n mod 10) :: digits_rev f (n / 10)
  end.

(** [itoa::write]: object.rs:154, syntax.rs:89 *)
Definition itoa (n : N) : bytes := rev (digits_rev (S (N.size_nat n)) n).

(** [itoa::write] on an [i32] (object.rs:154). *)
Definition itoa_Z (z : Z) : bytes :=
  if (z <? 0)%Z then 45 :: itoa (Z.to_N (- z)) else itoa (Z.to_N z).

(** A finite [f32], as the decimal that the external crate [dtoa] finds for it:
    sign, significant digits (most significant first, no leading zero, empty for zero)
    and power of ten of the last digit.  How the digits are chosen is in Dtoa32.v.
    Simplification: NaN and infinities are excluded. *)
Record dec : Type := mkDec { d_neg : bool; d_digits : list N; d_exp : Z }.

(** The [0.] of convert.rs:144-166 *)
Definition dec_zero : dec := mkDec false [] 0.
(** The decimal of a small integer constant such as [1.] or [0.]. *)
Definition dec_is_zero (d : dec) : bool := match d_digits d with [] => true | _ => false end.

(** Part of [dtoa::write]: object.rs:156 *)
Definition ascii_digits (l : list N) : bytes := map (fun d => 48 + d) l.

(** The layout rules of [dtoa::write] (crate dtoa 0.4, [prettify]), called at
    object.rs:156: plain notation when the decimal point falls within 21 digits or at
    most 6 places left of the digits, exponent notation otherwise. *)
Definition dtoa_layout (ds : list N) (k : Z) : bytes :=
  let len := Z.of_nat (length ds) in
  let kk := (len + k)%Z in
  if ((0 <=? k) && (kk <=? 21))%Z then
    ascii_digits ds ++ repeat 48 (Z.to_nat k) ++ bs ".0"
  else if ((0 <? kk) && (kk <=? 21))%Z then
    ascii_digits (firstn (Z.to_nat kk) ds) ++ bs "." ++ ascii_digits (skipn (Z.to_nat kk) ds)
  else if ((-6 <? kk) && (kk <=? 0))%Z then
    bs "0." ++ repeat 48 (Z.to_nat (- kk)) ++ ascii_digits ds
  else
    match ds with
    | [] => []
    | [d] => ascii_digits [d] ++ bs "e" ++ itoa_Z (kk - 1)
    | d :: rest => ascii_digits [d] ++ bs "." ++ ascii_digits rest ++ bs "e" ++ itoa_Z (kk - 1)
    end.

(** [dtoa::write]: object.rs:156 *)
Definition dtoa (d : dec) : bytes :=
  (if d_neg d then [45] else []) ++
  (if dec_is_zero d then bs "0.0" else dtoa_layout (d_digits d) (d_exp d)).

(** ** Objects *)

(** object.rs:5-19 [enum Object] and object.rs:27-31 [struct Dictionary].
    [IndirectObjectId(u32)] is a plain [N]. *)
Inductive obj : Type :=
| OUsize (n : N)
| OI32 (z : Z)
| OFloat (d : dec)
| OName (b : bytes)
| OLiteralString (b : bytes)
| OHexString (b : bytes)
| OArray (l : list obj)
| ODictionary (d : dictionary)
| OReference (id : N)
| OGraphicsStateDictionaryAlpha (d : dec)
| ODictionaryWithOwnedKeys (l : list (bytes * obj))
with dictionary : Type :=
| Dictionary (prev : option dictionary) (pairs : list (bytes * obj)).

(** object.rs:257-262 [enum CharKind] *)
Inductive char_kind := Whitespace | Delimiter | Regular.

(** object.rs:282-318 [static KIND], transcribed row by row. *)
Definition KIND : list char_kind :=
  let W := Whitespace in let D := Delimiter in let r := Regular in
  [ W; r; r; r; r; r; r; r;
    r; W; W; r; W; W; r; r;
    r; r; r; r; r; r; r; r;
    r; r; r; r; r; r; r; r;
    W; r; r; r; r; D; r; r;
    D; D; r; r; r; r; r; D;
    r; r; r; r; r; r; r; r;
    r; r; r; r; D; r; D; r;
    r; r; r; r; r; r; r; r;
    r; r; r; r; r; r; r; r;
    r; r; r; r; r; r; r; r;
    r; r; r; D; r; D; r; r;
    r; r; r; r; r; r; r; r;
    r; r; r; r; r; r; r; r;
    r; r; r; r; r; r; r; r;
    r; r; r; D; r; D; r; r;
    r; r; r; r; r; r; r; r;
    r; r; r; r; r; r; r; r;
    r; r; r; r; r; r; r; r;
    r; r; r; r; r; r; r; r;
    r; r; r; r; r; r; r; r;
    r; r; r; r; r; r; r; r;
    r; r; r; r; r; r; r; r;
    r; r; r; r; r; r; r; r;
    r; r; r; r; r; r; r; r;
    r; r; r; r; r; r; r; r;
    r; r; r; r; r; r; r; r;
    r; r; r; r; r; r; r; r;
    r; r; r; r; r; r; r; r;
    r; r; r; r; r; r; r; r;
    r; r; r; r; r; r; r; r;
    r; r; r; r; r; r; r; r ].

(** [KIND[byte as usize]]: object.rs:245 *)
Definition kind (b : N) : char_kind := nth (N.to_nat b) KIND Regular.

(** object.rs:235 [const HEX_DIGITS] *)
Definition HEX_DIGITS : bytes := bs "0123456789ABCDEF".

(** object.rs:234-240 [write_hex] *)
Definition write_hex (b : N) : bytes :=
  [ nth (N.to_nat (N.shiftr b 4)) HEX_DIGITS 0;
    nth (N.to_nat (N.land b 15)) HEX_DIGITS 0 ].

(** object.rs:242-254 [write_name] *)
Definition write_name_byte (b : N) : bytes :=
  match kind b with
  | Regular => [b]
  | Whitespace | Delimiter => bs "#" ++ write_hex b
  end.

(** object.rs:242-254 *)
Definition write_name (name : bytes) : bytes :=
  bs "/" ++ flat_map write_name_byte name.

(** object.rs:159-168, the [LiteralString] arm of [Object::write] *)
Definition write_literal_byte (b : N) : bytes :=
  if (b =? 92) || (b =? 40) || (b =? 41) then [92; b] else [b].

(** object.rs:159-168 *)
Definition write_literal (s : bytes) : bytes :=
  bs "(" ++ flat_map write_literal_byte s ++ bs ")".

(** object.rs:169-175, the [HexString] arm of [Object::write] *)
Definition write_hex_string (s : bytes) : bytes :=
  bs "<" ++ flat_map write_hex s ++ bs ">".

(** object.rs:150-211 [Object::write], 213-218 [Dictionary::write],
    220-231 [Dictionary::write_pairs] (entries of [prev] first).
    Simplification: [io::Write] is an infallible accumulator (PdfStream.v has
    streams that fail). *)
Fixpoint write_obj (o : obj) : bytes :=
  match o with
  | OI32 z => itoa_Z z
  | OUsize n => itoa n
  | OFloat d => dtoa d
  | OName n => write_name n
  | ODictionary d => bs "<<" ++ write_pairs d ++ bs " >>"
  | OLiteralString s => write_literal s
  | OHexString s => write_hex_string s
  | OArray l =>
      bs "[" ++
      match l with
      | [] => []
      | item :: rest => write_obj item ++ flat_map (fun i => bs " " ++ write_obj i) rest
      end ++ bs "]"
  | OReference id => itoa id ++ bs " 0 R"
  | OGraphicsStateDictionaryAlpha a =>
      (* the [dictionary!] of object.rs:193-197 *)
      bs "<<" ++
      flat_map (fun kv => bs " " ++ write_name (fst kv) ++ bs " " ++ dtoa (snd kv))
        [(bs "CA", a); (bs "ca", a)]
      ++ bs " >>"
  | ODictionaryWithOwnedKeys l =>
      bs "<<" ++
      flat_map (fun kv => bs " " ++ write_name (fst kv) ++ bs " " ++ write_obj (snd kv)) l
      ++ bs " >>"
  end
with write_pairs (d : dictionary) : bytes :=
  match d with
  | Dictionary prev pairs =>
      match prev with None => [] | Some p => write_pairs p end ++
      flat_map (fun kv => bs " " ++ write_name (fst kv) ++ bs " " ++ write_obj (snd kv)) pairs
  end.

(** object.rs:213-218 [Dictionary::write] *)
Definition write_dict (d : dictionary) : bytes := bs "<<" ++ write_pairs d ++ bs " >>".

(** object.rs:55-71, the [dictionary!] and [linked_dictionary!] macros. *)
Definition dict (pairs : list (bytes * obj)) : dictionary := Dictionary None pairs.
(** object.rs:64-71 *)
Definition linked_dict (prev : dictionary) (pairs : list (bytes * obj)) : dictionary :=
  Dictionary (Some prev) pairs.
