(** What a PDF file should say of an embedded TrueType font (PDF 9.7.4, 9.8), in terms of the font file *)
From Coq Require Import QArith Qabs.
From Verif Require Import Base FontSpec PdfConvertSpec NameSpec.
Local Open Scope N_scope.

(** [z] is [v] units of the font as thousandths of an em of [u] units, computed with some twenty bits and then cut off. *)
Definition scaled_as (u : positive) (v z : Z) : Prop :=
  exists x, (Qabs (x - (1000 * v # u)) <= Qabs (1000 * v # u) * (1 # 4194304) + (1 # 500000))%Q /\
    ((0 <= x)%Q -> (inject_Z z <= x)%Q /\ (x < inject_Z z + 1)%Q) /\ ((x <= 0)%Q -> (inject_Z z - 1 < x)%Q /\ (x <= inject_Z z)%Q).
(** A signed number at [p] in the font file is written as [z]. *)
Definition i16_as (f : bytes) (u : positive) (p : N) (z : Z) : Prop :=
  exists v, i16_at f p = Some v /\ scaled_as u v z.

(** The font program is the file, and the name, the bounding box, the ascent, the descent and the widths are those in its tables:
    the bounding box in the table head at 36 to 42, the ascent and descent in hhea at 4 and 6, the number of widths in hhea at 34,
    that of glyphs in maxp at 4; widths are four bytes apart in hmtx, and glyphs beyond the last width have the last. *)
Definition described (f : bytes) (fv : font_view) : Prop :=
  exists d maxp head hhea hmtx name (u : positive) count glyphs,
    directory f = Some d /\
    In (bs "maxp", maxp) d /\ In (bs "head", head) d /\ In (bs "hhea", hhea) d /\ In (bs "hmtx", hmtx) d /\ In (bs "name", name) d /\
    u16_at f (head + 18) = Some (Npos u) /\ u16_at f (hhea + 34) = Some count /\ u16_at f (maxp + 4) = Some glyphs /\
    fv_program fv = f /\
    Forall2 (i16_as f u) [head + 36; head + 38; head + 40; head + 42] (fv_bbox fv) /\
    i16_as f u (hhea + 4) (fv_ascent fv) /\ i16_as f u (hhea + 6) (fv_descent fv) /\
    fv_encoding fv = bs "Identity-H" /\ fv_first_cid fv = 0%Z /\ length (fv_widths fv) = N.to_nat glyphs /\
    (forall i, i < glyphs -> exists w z, u16_at f (hmtx + 4 * (if i <? count then i else count - 1)) = Some w /\
       nth_error (fv_widths fv) (N.to_nat i) = Some z /\ scaled_as u (Z.of_N w) z) /\
    (forall l, names f name = Some l -> exists n s cs, find postscript_name l = Some n /\ characters f n = Some s /\
       name_read_as n s cs /\ utf8_text cs (fv_name fv)).
