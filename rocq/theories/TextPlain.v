(** Model of victor/src/text_plain.rs: pages of plain text. *)
From Coq Require Import QArith.
From Verif Require Import Base PdfObject PdfConvert Text BoxTree.
Local Open Scope Q_scope.
Local Open Scope res_scope.

(** text_plain.rs:31-38 [Style]; sizes of the page in millimetres, of the font in pixels *)
Record plain_style : Type := mkPlainStyle {
  ps_page_width : Q; ps_page_height : Q;
  ps_page_margin : Q;
  ps_font : font;
  ps_font_size : Q;
  ps_line_height : Q;
  ps_justify : bool }.
(** text_plain.rs:16-28: millimetres per inch, pixels per inch and per millimetre *)
Definition Mm_per_in : Q := 254 # 10.
(** text_plain.rs:22-24 *)
Definition Px_per_in : Q := 96.
(** text_plain.rs:25-27 *)
Definition Px_per_mm : Q := / Mm_per_in * Px_per_in.

Section Plain.
(** As in Paint.v: exact rationals instead of [f32], made decimals where they are handed to the PDF writer *)
Variable round : Q -> dec.
(** The [cmap] lookup of the font of the style *)
Variable glyph_id : N -> res font_error N.
Variable style : plain_style.
Variable text : bytes.

(** An item of the iterator at 64-72: a shaped piece of the text and whether a line must end after it *)
Definition item : Type := res font_error (shaped * bool).
(** 135-141 [Rewind], over what is left of the [LineBreakIterator] of the crate [xi_unicode], which is not
    modelled: its pairs of a position and whether the break is hard are an argument.  With it
    [previous_break_position] at 63, which the closure borrows *)
Record rewind : Type := mkRewind {
  rw_inner : list (nat * bool);
  rw_previous_break_position : nat;
  rw_buffer : option item }.

(** [str]'s index: the bounds are in order, in the text, and at the start of a character: 68 *)
Definition is_char_boundary (i : nat) : bool :=
  match nth_error text i with
  | None => (i =? List.length text)%nat
  | Some b => negb ((128 <=? b) && (b <? 192))%N
  end.
(** [text[range]]: 68 *)
Definition slice (start end_ : nat) : option bytes :=
  if (start <=? end_)%nat && (end_ <=? List.length text)%nat && is_char_boundary start && is_char_boundary end_
  then Some (firstn (end_ - start) (skipn start text)) else None.
(** [str::trim_end_matches('\n')]: 68 *)
Fixpoint trim_end_newlines (t : bytes) : bytes :=
  match t with
  | [] => []
  | b :: r => match trim_end_newlines r with [] => if (b =? 10)%N then [] else [b] | r => b :: r end
  end.
(** 65-71: the closure *)
Definition shape_segment (previous position : nat) (is_hard_break : bool) : item :=
  match slice previous position with
  | None => Panic
  | Some range =>
      segment <- naive_shape glyph_id (f_glyph_width (ps_font style)) (chars (trim_end_newlines range)) ;;
      Ok (segment, is_hard_break)
  end.
(** 160-169 [Rewind::next] *)
Definition rewind_next (rw : rewind) : option item * rewind :=
  match rw_buffer rw with
  | Some i => (Some i, mkRewind (rw_inner rw) (rw_previous_break_position rw) None)
  | None =>
      match rw_inner rw with
      | [] => (None, rw)
      | (position, hard) :: r => (Some (shape_segment (rw_previous_break_position rw) position hard), mkRewind r position None)
      end
  end.
(** 154-157 [Rewind::rewind]; [None]: the assertion fails *)
Definition rewind_rewind (rw : rewind) (i : item) : option rewind :=
  match rw_buffer rw with
  | Some _ => None
  | None => Some (mkRewind (rw_inner rw) (rw_previous_break_position rw) (Some i))
  end.

(** 41-48.  [euclid]'s [inner_rect] moves the four sides inwards; it asserts in builds with debug assertions
    that the area is not of negative size, which is not modelled. *)
Definition page_width_ : Q := ps_page_width style * Px_per_mm.
(** 41 *)
Definition page_height_ : Q := ps_page_height style * Px_per_mm.
(** 42 *)
Definition margin_ : Q := ps_page_margin style * Px_per_mm.
(** 45 *)
Definition min_x : Q := 0 + margin_.
(** 46 *)
Definition min_y : Q := 0 + margin_.
(** 47 *)
Definition max_y : Q := (0 + margin_) + (page_height_ - (margin_ + margin_)).
(** 48 *)
Definition available_width : Q := page_width_ - (margin_ + margin_).
(** 50-58 *)
Definition half_leading : Q := (ps_line_height style - 1) / 2.
(** 55-56 *)
Definition px_per_em : Q := ps_font_size style / 1.
(** 51 and 57 *)
Definition line_height_ : Q := ps_line_height style * px_per_em.
(** 53 and 58 *)
Definition baseline_y : Q := (half_leading + f_ascender (ps_font style)) * px_per_em.

(** [l.len() - 1] on [usize]; [None] is the overflow, which panics or wraps around: 108 *)
Definition len_minus_1 {A} (l : list A) : option nat := match List.length l with O => None | S n => Some n end.

(** 79-104: one line.  Loops have fuel; an outer [None] is its end, excluded by C62_no_panic.  [Ok None] is
    [break 'pages]. *)
Fixpoint fill_line_loop (fuel : nat) (segments : rewind) (line_segments : list shaped) (total_width : Q) :
    option (res font_error (option (rewind * list shaped * Q * bool))) :=
  match fuel with
  | O => None
  | S fuel =>
      match rewind_next segments with
      | (None, _) => Some (Ok None)
      | (Some (Err e), _) => Some (Err e)
      | (Some Panic, _) => Some Panic
      | (Some (Ok (segment, is_hard_break)), segments) =>
          let advance := advance_width segment * px_per_em in
          let next_total_width := total_width + advance in
          if negb (Qle_bool next_total_width available_width) && negb (Qle_bool total_width 0) then
            match rewind_rewind segments (Ok (segment, is_hard_break)) with
            | None => Some Panic
            | Some segments => Some (Ok (Some (segments, line_segments, total_width, ps_justify style)))
            end
          else
            let line_segments := line_segments ++ [segment] in
            if is_hard_break then Some (Ok (Some (segments, line_segments, next_total_width, false)))
            else fill_line_loop fuel segments line_segments next_total_width
      end
  end.
(** 112-122 *)
Fixpoint show_line (d : doc) (p : page) (x baseline word_spacing : Q) (line_segments : list shaped) : res font_error (doc * page) :=
  match line_segments with
  | [] => Ok (d, p)
  | segment :: r =>
      match show_text d p (ps_font style) (glyphs segment) (round (ps_font_size style)) (round x) (round baseline) with
      | (d, p, Ok _) => show_line d p (x + (advance_width segment * px_per_em + word_spacing)) baseline word_spacing r
      | (_, _, Err e) => Err e
      | (_, _, Panic) => Panic
      end
  end.
(** 76-130: the lines of a page; [None] for the segments left is [break 'pages]. *)
Fixpoint lines_loop (fuel : nat) (d : doc) (p : page) (segments : rewind) (y : Q) :
    option (res font_error (doc * page * option rewind)) :=
  match fuel with
  | O => None
  | S fuel =>
      match fill_line_loop (S (S (List.length (rw_inner segments)))) segments [] 0 with
      | None => None
      | Some Panic => Some Panic
      | Some (Err e) => Some (Err e)
      | Some (Ok None) => Some (Ok (d, p, None))
      | Some (Ok (Some (segments, line_segments, total_width, justify))) =>
          let extra := available_width - total_width in
          (* Simplification: x/0 is 0 in [Q] and infinite in [f32]; with one segment the quotient is only
             added to [x] after the segment, and not used. *)
          match (if justify && negb (Qle_bool extra 0)
                 then match len_minus_1 line_segments with
                      | Some n => Some (extra / inject_Z (Z.of_nat n))
                      | None => None
                      end
                 else Some 0) with
          | None => Some Panic
          | Some word_spacing =>
              match show_line d p min_x (y + baseline_y) word_spacing line_segments with
              | Err e => Some (Err e)
              | Panic => Some Panic
              | Ok (d, p) =>
                  let y := y + line_height_ in
                  if negb (Qle_bool y max_y) then Some (Ok (d, p, Some segments)) else lines_loop fuel d p segments y
              end
          end
      end
  end.
(** 74-131; [pdf_page] is dropped at the end of each turn, and by [break 'pages] *)
Fixpoint pages_loop (fuel : nat) (d : doc) (segments : rewind) : option (res font_error doc) :=
  match fuel with
  | O => None
  | S fuel =>
      match lines_loop (S (S (List.length (rw_inner segments)))) d (page_new (round page_width_) (round page_height_)) segments min_y with
      | None => None
      | Some Panic => Some Panic
      | Some (Err e) => Some (Err e)
      | Some (Ok (d, p, None)) => Some (Ok (page_drop d p))
      | Some (Ok (d, p, Some segments)) => pages_loop fuel (page_drop d p) segments
      end
  end.
(** 40-133 [layout], given what [LineBreakIterator::new(text)] yields *)
Definition plain_layout (breaks : list (nat * bool)) : option (res font_error doc) :=
  pages_loop (S (List.length breaks)) doc_new (mkRewind breaks 0 None).
End Plain.
