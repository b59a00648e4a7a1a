(** What an OpenType font file says, independently of the model: fields at byte offsets given
    by the OpenType specification, read with [nth_error]. *)
From Verif Require Import Base.
From Coq Require Import Sorted.
Local Open Scope N_scope.

Definition byte_at (f : bytes) (p : N) : option N := nth_error f (N.to_nat p).
Definition u16_at (f : bytes) (p : N) : option N :=
  match byte_at f p, byte_at f (p + 1) with
  | Some a, Some b => Some (256 * a + b)
  | _, _ => None
  end.
Definition u32_at (f : bytes) (p : N) : option N :=
  match u16_at f p, u16_at f (p + 2) with
  | Some a, Some b => Some (65536 * a + b)
  | _, _ => None
  end.
(** Two's complement *)
Definition i16_at (f : bytes) (p : N) : option Z :=
  match u16_at f p with
  | Some n => Some (if 32768 <=? n then (Z.of_N n - 65536)%Z else Z.of_N n)
  | None => None
  end.
(** [n] bytes *)
Fixpoint string_at (f : bytes) (p : N) (n : nat) : option bytes :=
  match n with
  | O => if p <=? N.of_nat (length f) then Some [] else None
  | S n => match byte_at f p, string_at f (p + 1) n with
           | Some b, Some r => Some (b :: r)
           | _, _ => None
           end
  end.

(** ** The table directory: 12-byte header (number of tables at 4), 16-byte entries (tag at 0,
    offset at 8) *)
Fixpoint all {A} (l : list (option A)) : option (list A) :=
  match l with
  | [] => Some []
  | x :: r => match x, all r with Some a, Some r => Some (a :: r) | _, _ => None end
  end.
Definition indices (n : N) : list N := map N.of_nat (seq 0 (N.to_nat n)).

Definition entry_at (f : bytes) (i : N) : option (bytes * N) :=
  match string_at f (12 + 16 * i) 4, u32_at f (12 + 16 * i + 8) with
  | Some tag, Some off => Some (tag, off)
  | _, _ => None
  end.
Definition directory (f : bytes) : option (list (bytes * N)) :=
  match u16_at f 4 with
  | Some n => all (map (entry_at f) (indices n))
  | None => None
  end.
(** Byte strings in increasing order *)
Inductive bytes_lt : bytes -> bytes -> Prop :=
| lt_end : forall b r, bytes_lt [] (b :: r)
| lt_head : forall a b r s, a < b -> bytes_lt (a :: r) (b :: s)
| lt_tail : forall a r s, bytes_lt r s -> bytes_lt (a :: r) (a :: s).
Definition tags_sorted (d : list (bytes * N)) : Prop := StronglySorted bytes_lt (map fst d).

(** ** cmap format 4 (OpenType, "Format 4: Segment mapping to delta values") *)
Record segment : Type := mkSeg {
  seg_start : N; seg_end : N; seg_delta : N; seg_range_offset : N;
  seg_range_offset_address : N }.
Definition segment_at (f : bytes) (sub n i : N) : option segment :=
  let at_ (field : N) := sub + 14 + field + 2 * i in
  match u16_at f (at_ 0), u16_at f (at_ (2 * n + 2)), u16_at f (at_ (4 * n + 2)), u16_at f (at_ (6 * n + 2)) with
  | Some e, Some s, Some d, Some r => Some (mkSeg s e d r (at_ (6 * n + 2)))
  | _, _, _, _ => None
  end.
Definition segments (f : bytes) (sub : N) : option (list segment) :=
  match u16_at f (sub + 6) with
  | Some x2 => all (map (segment_at f sub (x2 / 2)) (indices (x2 / 2)))
  | None => None
  end.
(** The glyph of a code in a segment; 0 is the missing glyph.  [None]: outside the file. *)
Definition segment_glyph (f : bytes) (s : segment) (c : N) : option N :=
  if seg_range_offset s =? 0 then Some ((c + seg_delta s) mod 65536)
  else match u16_at f (seg_range_offset_address s + seg_range_offset s + 2 * (c - seg_start s)) with
       | Some g => Some (if g =? 0 then 0 else (g + seg_delta s) mod 65536)
       | None => None
       end.
(** The first segment whose end code is at least the code decides. *)
Definition lookup4 (f : bytes) (segs : list segment) (c : N) : option N :=
  match find (fun s => c <=? seg_end s) segs with
  | Some s => if seg_start s <=? c then segment_glyph f s c else Some 0
  | None => Some 0
  end.
Definition well_formed4 (f : bytes) (sub : N) (segs : list segment) : Prop :=
  segments f sub = Some segs /\ segs <> [] /\
  Forall (fun s => seg_start s <= seg_end s) segs /\
  StronglySorted (fun a b => seg_end a < seg_start b) segs /\
  Forall (fun s => forall c, seg_start s <= c <= seg_end s -> segment_glyph f s c <> None) segs.

(** ** cmap format 12 ("Segmented coverage") *)
Record group : Type := mkGroup { g_start : N; g_end : N; g_glyph : N }.
Definition group_at (f : bytes) (sub i : N) : option group :=
  match u32_at f (sub + 16 + 12 * i), u32_at f (sub + 16 + 12 * i + 4), u32_at f (sub + 16 + 12 * i + 8) with
  | Some s, Some e, Some g => Some (mkGroup s e g)
  | _, _, _ => None
  end.
Definition cmap_groups (f : bytes) (sub : N) : option (list group) :=
  match u32_at f (sub + 12) with
  | Some n => all (map (group_at f sub) (indices n))
  | None => None
  end.
Definition lookup12 (gs : list group) (c : N) : N :=
  match find (fun g => (g_start g <=? c) && (c <=? g_end g)) gs with
  | Some g => g_glyph g + (c - g_start g)
  | None => 0
  end.
Definition well_formed12 (f : bytes) (sub : N) (gs : list group) : Prop :=
  cmap_groups f sub = Some gs /\
  Forall (fun g => g_start g <= g_end g) gs /\
  StronglySorted (fun a b => g_end a < g_start b) gs.
(** Glyph numbers of the last characters of the groups *)
Definition glyphs_below (n : N) (gs : list group) : Prop :=
  Forall (fun g => g_glyph g + (g_end g - g_start g) < n) gs.

(** Unicode scalar values *)
Definition scalar (c : N) : Prop := c < 55296 \/ 57344 <= c < 1114112.

(** A file that [u32] positions can address *)
Definition addressable (f : bytes) : Prop := N.of_nat (length f) < 2 ^ 32.

(** ** Loops over a list of positions: the body continues or returns. *)
Definition range (a n : N) : list N := map (fun i => a + i) (indices n).
