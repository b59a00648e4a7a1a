(** Model of victor/src/paint.rs: from a document to the bytes of a PDF file. *)
From Coq Require Import QArith.
From Verif Require Import Base Dom StyleValues StyleProperties StyleCascade BoxTree PdfObject PdfConvert Geom Text LayoutTree Layout.
Local Open Scope Q_scope.
Local Open Scope opt_scope.

Section Paint.
(** Simplification: layout and painting compute with exact rationals instead of [f32]; a number is made
    an [f32], as a decimal, where it is handed over to the PDF writer. *)
Variable round : Q -> dec.
(** fonts/mod.rs:126-195: the accessors of [BITSTREAM_VERA_SANS], the font of every [ShapedSegment] in
    a fragment (layout/flow/inline.rs:275) *)
Variable vera : font.

(** primitives.rs:24-28; [red_f32()] and so on are [self.red as f32 / 255.0] in cssparser *)
Definition rgba_into (c : rgba) : dec * dec * dec * dec :=
  let f (n : N) := round (inject_Z (Z.of_N n) / 255) in (f (red c), f (green c), f (blue c), f (alpha c)).

(** paint.rs:36-68 [Fragment::paint_onto] and 70-90 [BoxFragment::paint_onto].  The page with the
    document it borrows is passed in and returned; [None] is a panic of [to_physical] or [unwrap]. *)
Fixpoint paint_onto (f : fragment) (st : doc * page) (containing_block : prect Q) : option (doc * page) :=
  let paint_children :=
    fix go (l : list fragment) (st : doc * page) (cb : prect Q) : option (doc * page) :=
      match l with
      | [] => Some st
      | child :: r => st <- paint_onto child st cb ;; go r st cb
      end in
  match f with
  | FBox b children =>
      let background_color := to_rgba (bf_style b) (get (bf_style b) background_color) in
      st <- (if (0 <? alpha background_color)%N then
               r <- to_physical (border_rect b) (style_writing_mode (bf_style b)) ;;
               let (d, p) := set_color (fst st) (snd st) (rgba_into background_color) in
               let rect := translate r (top_left containing_block) in
               Some (d, paint_rectangle p (round (x_ (top_left rect))) (round (y_ (top_left rect)))
                          (round (x_ (psize rect))) (round (y_ (psize rect))))
             else Some st) ;;
      r <- to_physical (bf_content_rect b) (style_writing_mode (bf_style b)) ;;
      paint_children children st (translate r (top_left containing_block))
  | FAnonymous rect mode children =>
      r <- to_physical rect mode ;;
      paint_children children st (translate r (top_left containing_block))
  | FText parent_style content_rect text =>
      r <- to_physical content_rect (style_writing_mode parent_style) ;;
      let origin := top_left (translate r (top_left containing_block)) in
      let ascender := get parent_style font_size * f_ascender vera in
      let origin := mkPvec (x_ origin) (y_ origin + ascender) in
      let (d, p) := set_color (fst st) (snd st) (rgba_into (get parent_style color_)) in
      match show_text d p vera (glyphs text) (round (get parent_style font_size)) (round (x_ origin)) (round (y_ origin)) with
      | (d, p, Ok _) => Some (d, p)
      | _ => None
      end
  end.
(** paint.rs:28-30 *)
Fixpoint paint_fragments (l : list fragment) (st : doc * page) (containing_block : prect Q) : option (doc * page) :=
  match l with
  | [] => Some st
  | f :: r => st <- paint_onto f st containing_block ;; paint_fragments r st containing_block
  end.
(** paint.rs:11-32, from the fragments on *)
Definition PAGE_WIDTH : Q := 600.
(** paint.rs:9 *)
Definition PAGE_HEIGHT : Q := 800.
(** paint.rs:11-32 *)
Definition fragments_to_pdf_bytes (fragments : list fragment) : option bytes :=
  let containing_block := mkPrect (mkPvec 0 0) (mkPvec PAGE_WIDTH PAGE_HEIGHT) in
  '(d, p) <- paint_fragments fragments (doc_new, page_new (round PAGE_WIDTH) (round PAGE_HEIGHT)) containing_block ;;
  Some (doc_write (page_drop d p)).

(** *** The whole *)
(** The parts of other libraries: see StyleCascade.v and BoxTree.v *)
Variable parse_color : parser color.
Variable selector : Type.
Variable specificity : selector -> N.
Variable matches : selector -> document -> nat -> bool.
Variable items_of : bytes -> list item.
Variable rules_of : bytes -> list (source_rule selector).
Variable user_agent : list (source_rule selector).
(** fonts/mod.rs:143-169: [glyph_id] and [glyph_width] of the font *)
Variable glyph_id : N -> res font_error N.
(** How the parallel iterators of layout happen to run *)
Variable o : oracle.
(** layout/flow/root.rs:3-10 [Document::layout] and paint.rs:8-34 [Document::to_pdf_bytes] *)
Definition to_pdf_bytes (d : document) : option bytes :=
  match box_tree_root_construct parse_color selector specificity matches items_of rules_of user_agent d with
  | Ok (boxes, _) =>
      fragments <- box_tree_root_layout glyph_id (f_glyph_width vera) o boxes (mkVec PAGE_WIDTH PAGE_HEIGHT) ;;
      fragments_to_pdf_bytes fragments
  | _ => None
  end.
End Paint.
