(** How plain text is broken into lines and pages, and where each piece is. *)
From Coq Require Import QArith Qabs.
From Verif Require Import Base FontCmap PdfObject PdfObjectSpec PdfConvert PdfConvertSpec Text InlineSpec PaintSpec TextPlain.
Local Open Scope Q_scope.

(** ** Pieces of text *)
(** A piece of text up to an opportunity to break the line, and whether the line must break there.
    The opportunities as positions in the UTF-8 text: *)
Fixpoint break_positions (start : nat) (segs : list (list N * bool)) : list (nat * bool) :=
  match segs with
  | [] => []
  | (cs, hard) :: r => let end_ := (start + List.length (flat_map utf8 cs))%nat in (end_, hard) :: break_positions end_ r
  end.
Definition text_of (segs : list (list N * bool)) : bytes := flat_map utf8 (flat_map fst segs).
(** [visible cs t]: [t] is [cs] without the newlines at its end. *)
Definition newline : N := 10%N.
Inductive visible : list N -> list N -> Prop :=
| vis : forall t n, (forall a, t <> a ++ [newline]) -> visible (t ++ repeat newline n) t.

Record word : Type := mkWord { w_glyphs : list N; w_width : Q; w_hard : bool }.
Section Words.
Variable glyph_id : N -> res font_error N.
Variable glyph_width : N -> res font_error Q.
(** The glyphs of a piece and its width *)
Inductive is_word (font_size : Q) : list N * bool -> word -> Prop :=
| is_w : forall cs hard t gs w width, visible cs t -> shapes glyph_id glyph_width t gs w -> width == w * font_size ->
    is_word font_size (cs, hard) (mkWord gs width hard).
End Words.

(** ** Lines *)
Definition line_width (l : list word) : Q := fold_right Qplus 0 (map w_width l).
(** Every word fits in the width after those before it, unless these take no space. *)
Definition fits_in (avail : Q) (l : list word) : Prop :=
  forall a w b, l = a ++ w :: b -> 0 < line_width a -> line_width a + w_width w <= avail.
Definition no_hard (l : list word) : Prop := forall w, In w l -> w_hard w = false.
(** The lines of a text with whether they end where the next word does not fit, and what is left: words
    after the last place where a line must end *)
Inductive in_lines (avail : Q) : list word -> list (list word * bool) -> list word -> Prop :=
| il_rest : forall ws, fits_in avail ws -> no_hard ws -> in_lines avail ws [] ws
| il_hard : forall l w r ls rest, fits_in avail (l ++ [w]) -> no_hard l -> w_hard w = true -> in_lines avail r ls rest ->
    in_lines avail ((l ++ [w]) ++ r) ((l ++ [w], false) :: ls) rest
| il_soft : forall l w r ls rest, fits_in avail l -> no_hard l -> 0 < line_width l -> avail < line_width l + w_width w ->
    in_lines avail (w :: r) ls rest -> in_lines avail (l ++ w :: r) ((l, true) :: ls) rest.

(** ** Pages *)
(** A page is full when the next line would start below [bottom]. *)
Definition lines_start_above (top bottom height : Q) (n : nat) : Prop :=
  forall i, (0 < i < n)%nat -> top + inject_Z (Z.of_nat i) * height <= bottom.
Inductive in_pages {A} (top bottom height : Q) : list A -> list (list A) -> Prop :=
| ip_last : forall ls, lines_start_above top bottom height (S (List.length ls)) -> in_pages top bottom height ls [ls]
| ip_full : forall ls r ps, ls <> [] -> lines_start_above top bottom height (List.length ls) ->
    bottom < top + inject_Z (Z.of_nat (List.length ls)) * height -> in_pages top bottom height r ps ->
    in_pages top bottom height (ls ++ r) (ls :: ps).

(** ** Positions *)
(** Each element with those before it *)
Fixpoint with_before {A} (before : list A) (l : list A) : list (list A * A) :=
  match l with [] => [] | x :: r => (before, x) :: with_before (before ++ [x]) r end.
Definition count {A} (l : list A) : Q := inject_Z (Z.of_nat (List.length l)).
(** The space between the words of a line: when it is justified, so that the line fills the width *)
Definition spacing (avail : Q) (justify : bool) (l : list word * bool) : Q :=
  if justify && snd l && negb (Qle_bool avail (line_width (fst l))) then (avail - line_width (fst l)) / (count (fst l) - 1) else 0.
(** The words of a page with the left end of their baseline *)
Definition placed_page (left top avail height baseline : Q) (justify : bool) (ls : list (list word * bool)) : list (Q * Q * word) :=
  flat_map (fun nl =>
    map (fun bw => (left + line_width (fst bw) + count (fst bw) * spacing avail justify (snd nl),
                    top + count (fst nl) * height + baseline, snd bw))
        (with_before [] (fst (snd nl))))
    (with_before [] ls).

(** ** The sheet of a style, in pixels *)
Definition px (mm : Q) : Q := mm * 96 / (254 # 10).
Definition margin (s : plain_style) : Q := px (ps_page_margin s).
Definition content_width (s : plain_style) : Q := px (ps_page_width s) - 2 * margin s.
Definition content_bottom (s : plain_style) : Q := px (ps_page_height s) - margin s.
Definition line_step (s : plain_style) : Q := ps_line_height s * ps_font_size s.
(** The glyphs are in the middle of the line. *)
Definition line_baseline (s : plain_style) : Q := (line_step s - ps_font_size s) / 2 + f_ascender (ps_font s) * ps_font_size s.
Definition breaks_into (s : plain_style) : list word -> list (list word * bool) -> list word -> Prop := in_lines (content_width s).
Definition paginated (s : plain_style) : list (list word * bool) -> list (list (list word * bool)) -> Prop :=
  in_pages (margin s) (content_bottom s) (line_step s).
Definition on_sheet (s : plain_style) : list (list word * bool) -> list (Q * Q * word) :=
  placed_page (margin s) (margin s) (content_width s) (line_step s) (line_baseline s) (ps_justify s).

(** ** Errors *)
Section Errors.
Variable glyph_id : N -> res font_error N.
Variable f : font.
(** The character has a glyph with a width, or the lookup fails with an error. *)
Definition has_glyph (c : N) : Prop := exists g w, glyph_id c = Ok g /\ f_glyph_width f g = Ok w.
Definition lookup_fails (c : N) (e : font_error) : Prop := glyph_id c = Err e \/ exists g, glyph_id c = Ok g /\ f_glyph_width f g = Err e.
(** The font has tables that cannot be read. *)
Definition embedding_fails (e : font_error) : Prop := f_code_points_result f = Some e \/ exists g, (g < f_glyph_count f)%N /\ f_glyph_width f g = Err e.
(** [c] is in one of the pieces, not among the newlines at its end. *)
Definition is_shown (c : N) (segs : list (list N * bool)) : Prop := exists s t, In s segs /\ visible (fst s) t /\ In c t.
End Errors.

(** ** What the reader of the file sees *)
Inductive word_shown (file : bytes) (f : font) (font_size : Q) : Q * Q * word -> mark -> Prop :=
| ws : forall x y w fs x' y' v m codes a fv,
    near fs font_size -> near x' x -> near y' y ->
    ma m == fs * (3 # 4) -> mb m == 0 -> mc m == 0 -> md m == fs * (3 # 4) -> at_pixels (me m, mf m) x' y' ->
    utf16be_units codes = Some (w_glyphs w) -> read_font file v = Some fv -> represents f fv ->
    Qabs (a - 1) <= (1 # 64000) ->
    word_shown file f font_size (x, y, w) (MText v m codes (0, 0, 0) a).
(** All numbers written are of an ordinary size and glyphs are 16-bit numbers. *)
Definition printable (font_size : Q) (p : Q * Q * word) : Prop :=
  let '(x, y, w) := p in ordinary x /\ ordinary y /\ ordinary font_size /\ Forall (fun g => (g < 65536)%N) (w_glyphs w).
