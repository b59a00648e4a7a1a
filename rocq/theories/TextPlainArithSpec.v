(** How plain text is broken into lines and pages, and where each piece is, in an arithmetic that is left
    open: with [f32] sums depend on their order. *)
From Coq Require Import QArith Qabs.
From Verif Require Import Base FontCmap PdfObject PdfObjectSpec PdfConvert PdfConvertSpec PaintSpec Text TextPlain TextPlainSpec Arith32 Arith32Spec.
Local Open Scope Q_scope.

Section By.
Variable ar : arith.
Local Notation "a +. b" := (a_add ar a b) (at level 50, left associativity).
Local Notation "a -. b" := (a_sub ar a b) (at level 50, left associativity).
Local Notation "a *. b" := (a_mul ar a b) (at level 40, left associativity).
Local Notation "a /. b" := (a_div ar a b) (at level 40, left associativity).
Local Notation "a >. b" := (a_gt ar a b = true) (at level 70).
Local Notation "a <=. b" := (a_gt ar a b = false) (at level 70).

(** Numbers are added one by one, from left to right. *)
Fixpoint total (start : Q) (l : list Q) : Q := match l with [] => start | x :: r => total (start +. x) r end.

(** ** Words *)
Section Words.
Variable glyph_id : N -> res font_error N.
Variable glyph_width : N -> res font_error Q.
Inductive shapes_by : list N -> list N -> list Q -> Prop :=
| sb_nil : shapes_by [] [] []
| sb_cons : forall ch text g gs w widths, glyph_id ch = Ok g -> glyph_width g = Ok w -> shapes_by text gs widths ->
    shapes_by (ch :: text) (g :: gs) (w :: widths).
(** Font sizes are pixels for one em. *)
Inductive is_word_by (font_size : Q) : list N * bool -> word -> Prop :=
| iwb : forall cs hard t gs widths, visible cs t -> shapes_by t gs widths ->
    is_word_by font_size (cs, hard) (mkWord gs (total 0 widths *. (font_size /. 1)) hard).
End Words.

(** ** Lines *)
Definition width_by (l : list word) : Q := total 0 (map w_width l).
Definition fits_by (avail : Q) (l : list word) : Prop :=
  forall a w b, l = a ++ w :: b -> width_by a >. 0 -> width_by a +. w_width w <=. avail.
Inductive lines_by (avail : Q) : list word -> list (list word * bool) -> list word -> Prop :=
| lb_rest : forall ws, fits_by avail ws -> no_hard ws -> lines_by avail ws [] ws
| lb_hard : forall l w r ls rest, fits_by avail (l ++ [w]) -> no_hard l -> w_hard w = true -> lines_by avail r ls rest ->
    lines_by avail ((l ++ [w]) ++ r) ((l ++ [w], false) :: ls) rest
| lb_soft : forall l w r ls rest, fits_by avail l -> no_hard l -> width_by l >. 0 -> width_by l +. w_width w >. avail ->
    lines_by avail (w :: r) ls rest -> lines_by avail (l ++ w :: r) ((l, true) :: ls) rest.

(** ** Pages *)
(** The top of the line after [n] others *)
Definition line_top (top height : Q) (n : nat) : Q := total top (repeat height n).
Definition above_by (top bottom height : Q) (n : nat) : Prop :=
  forall i, (0 < i < n)%nat -> line_top top height i <=. bottom.
Inductive pages_by {A} (top bottom height : Q) : list A -> list (list A) -> Prop :=
| pb_last : forall ls, above_by top bottom height (S (List.length ls)) -> pages_by top bottom height ls [ls]
| pb_full : forall ls r ps, ls <> [] -> above_by top bottom height (List.length ls) ->
    line_top top height (List.length ls) >. bottom -> pages_by top bottom height r ps ->
    pages_by top bottom height (ls ++ r) (ls :: ps).

(** ** Positions *)
Definition spacing_by (avail : Q) (justify : bool) (l : list word * bool) : Q :=
  let left_over := avail -. width_by (fst l) in
  if justify && snd l && a_gt ar left_over 0 then left_over /. a_lit ar (inject_Z (Z.of_nat (List.length (fst l) - 1))) else 0.
Definition placed_by (left top avail height baseline : Q) (justify : bool) (ls : list (list word * bool)) : list (Q * Q * word) :=
  flat_map (fun nl =>
    map (fun bw => (total left (map (fun w => w_width w +. spacing_by avail justify (snd nl)) (fst bw)),
                    line_top top height (List.length (fst nl)) +. baseline, snd bw))
        (with_before [] (fst (snd nl))))
    (with_before [] ls).

(** ** The sheet of a style *)
Definition px_by (mm : Q) : Q := mm *. ((1 /. a_lit ar (254 # 10)) *. a_lit ar 96).
Definition margin_by (s : plain_style) : Q := px_by (ps_page_margin s).
(** The corner is one margin from the origin. *)
Definition corner_by (s : plain_style) : Q := 0 +. margin_by s.
Definition content_width_by (s : plain_style) : Q := px_by (ps_page_width s) -. (margin_by s +. margin_by s).
Definition content_bottom_by (s : plain_style) : Q := corner_by s +. (px_by (ps_page_height s) -. (margin_by s +. margin_by s)).
Definition line_step_by (s : plain_style) : Q := (1 *. ps_line_height s) *. (ps_font_size s /. 1).
Definition line_baseline_by (s : plain_style) : Q :=
  ((((1 *. ps_line_height s) -. 1) /. 2) +. f_ascender (ps_font s)) *. (ps_font_size s /. 1).
Definition breaks_by (s : plain_style) : list word -> list (list word * bool) -> list word -> Prop := lines_by (content_width_by s).
Definition paginated_by (s : plain_style) : list (list word * bool) -> list (list (list word * bool)) -> Prop :=
  pages_by (corner_by s) (content_bottom_by s) (line_step_by s).
Definition on_sheet_by (s : plain_style) : list (list word * bool) -> list (Q * Q * word) :=
  placed_by (corner_by s) (corner_by s) (content_width_by s) (line_step_by s) (line_baseline_by s) (ps_justify s).

(** ** What the writer is asked for: a text for each word *)
Section Requests.
Variable print : Q -> dec.
Definition asked_at (s : plain_style) (p : Q * Q * word) : request :=
  let '(x, y, w) := p in ShowText (ps_font s) (w_glyphs w) (print (ps_font_size s)) (print x) (print y).
Definition page_by (s : plain_style) (ls : list (list word * bool)) : page_history :=
  mkPH (print (px_by (ps_page_width s))) (print (px_by (ps_page_height s))) (map (asked_at s) (on_sheet_by s ls)).
End Requests.
End By.

(** ** What the reader of the file sees, with [f32] *)
(** Numbers in the file are binary32 numbers as far as a reader can tell. *)
Inductive word_shown32 (file : bytes) (f : font) (font_size : Q) : Q * Q * word -> mark -> Prop :=
| ws32 : forall x y w fs x' y' v m codes a fv,
    nearest32 fs font_size -> nearest32 x' x -> nearest32 y' y ->
    ma m == fs * (3 # 4) -> mb m == 0 -> mc m == 0 -> md m == fs * (3 # 4) -> at_pixels (me m, mf m) x' y' ->
    utf16be_units codes = Some (w_glyphs w) -> read_font file v = Some fv -> represents f fv ->
    Qabs (a - 1) <= (1 # 64000) ->
    word_shown32 file f font_size (x, y, w) (MText v m codes (0, 0, 0) a).
(** The size of a page in points: the product by three quarters, rounded *)
Definition size32 (pixels points : Q) : Prop := exists t, nearest32 (pixels * (3 # 4)) t /\ nearest32 points t.
(** Finite numbers of an ordinary size, and 16-bit glyphs *)
Definition number_in_file (q : Q) : Prop := finite32 q /\ ordinary q.
Definition printable32 (font_size : Q) (p : Q * Q * word) : Prop :=
  let '(x, y, w) := p in number_in_file x /\ number_in_file y /\ number_in_file font_size /\ Forall (fun g => (g < 65536)%N) (w_glyphs w).
