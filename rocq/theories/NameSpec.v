(** UTF-8 (Unicode §3.9, RFC 3629), and the table of names of a font file (OpenType, "name") *)
From Coq Require Import Lia.
From Verif Require Import Base FontSpec.
Local Open Scope N_scope.

(** ** UTF-8 *)
(** The bytes of a character: its bits in groups of six, the first byte telling how many; as few bytes as possible, and no surrogates *)
Inductive utf8_of : N -> bytes -> Prop :=
| utf8_1 : forall a, a < 128 -> utf8_of a [a]
| utf8_2 : forall a b, b < 64 -> 128 <= 64 * a + b < 2048 -> utf8_of (64 * a + b) [192 + a; 128 + b]
| utf8_3 : forall a b c, b < 64 -> c < 64 -> 2048 <= 4096 * a + 64 * b + c < 65536 -> ~ (55296 <= 4096 * a + 64 * b + c <= 57343) ->
    utf8_of (4096 * a + 64 * b + c) [224 + a; 128 + b; 128 + c]
| utf8_4 : forall a b c d, b < 64 -> c < 64 -> d < 64 -> 65536 <= 262144 * a + 4096 * b + 64 * c + d <= 1114111 ->
    utf8_of (262144 * a + 4096 * b + 64 * c + d) [240 + a; 128 + b; 128 + c; 128 + d].
Inductive utf8_text : list N -> bytes -> Prop :=
| text_nil : utf8_text [] []
| text_char : forall c e cs l, utf8_of c e -> utf8_text cs l -> utf8_text (c :: cs) (e ++ l).

(** The beginning of the bytes of some character, or all of them *)
Definition begins (p : bytes) : Prop := exists c q, utf8_of c (p ++ q).
(** What is read from bytes that need not be UTF-8 (Unicode §3.9, "U+FFFD substitution of maximal subparts"): where no
    character can be read, as many bytes as could begin a character, and otherwise one, are taken for U+FFFD. *)
Inductive read_as : bytes -> list N -> Prop :=
| read_end : read_as [] []
| read_char : forall c e l cs, utf8_of c e -> read_as l cs -> read_as (e ++ l) (c :: cs)
| read_bad : forall bad l cs, bad <> [] ->
    (forall c e l', utf8_of c e -> bad ++ l <> e ++ l') ->
    (begins bad \/ length bad = 1%nat) ->
    (forall p l', bad ++ l = p ++ l' -> (length bad < length p)%nat -> ~ begins p) ->
    read_as l cs -> read_as (bad ++ l) (65533 :: cs).

(** Two bytes for each character; those above 255, and a byte that is left over, are taken for U+FFFD. *)
Inductive units_as : bytes -> list N -> Prop :=
| units_end : units_as [] []
| units_char : forall c l cs, units_as l cs -> units_as (0 :: c :: l) (c :: cs)
| units_above : forall h c l cs, h <> 0 -> units_as l cs -> units_as (h :: c :: l) (65533 :: cs)
| units_odd : forall h, units_as [h] [65533].

(** ** The table of names: the number of names at 2, the offset of their characters at 4, and from 6 on a record of 12 bytes for each *)
Record font_name : Type := mkName {
  fn_platform : N; fn_encoding : N; fn_id : N;
  fn_length : N; fn_address : N (* of its characters in the file *) }.
Definition name_at (f : bytes) (table storage i : N) : option font_name :=
  let at_ (field : N) := table + 6 + 12 * i + field in
  match u16_at f (at_ 0), u16_at f (at_ 2), u16_at f (at_ 6), u16_at f (at_ 8), u16_at f (at_ 10) with
  | Some p, Some e, Some id, Some n, Some o => Some (mkName p e id n (table + storage + o))
  | _, _, _, _, _ => None
  end.
Definition names (f : bytes) (table : N) : option (list font_name) :=
  match u16_at f (table + 2), u16_at f (table + 4) with
  | Some n, Some storage => all (map (name_at f table storage) (indices n))
  | _, _ => None
  end.
(** PostScript names have the identifier 6.  Of the Macintosh platform (1) those in any encoding are read, as UTF-8, and of the
    Windows platform (3) those in encoding 1, which has two bytes for each character. *)
Definition postscript_name (n : font_name) : bool :=
  (fn_id n =? 6) && ((fn_platform n =? 1) || ((fn_platform n =? 3) && (fn_encoding n =? 1))).
Definition characters (f : bytes) (n : font_name) : option bytes := string_at f (fn_address n) (N.to_nat (fn_length n)).
Definition name_read_as (n : font_name) (s : bytes) (cs : list N) : Prop :=
  if fn_platform n =? 1 then read_as s cs else units_as s cs.
