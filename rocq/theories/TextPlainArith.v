(** victor/src/text_plain.rs again, in an arithmetic that is left open, operation by operation in the order
    of the code: TextPlain.v is the case of exact numbers, up to equality; with [f32] the operations round,
    overflow or give no number at all. *)
From Coq Require Import QArith.
From Verif Require Import Base PdfObject PdfConvert Text BoxTree TextPlain Arith32.
Local Open Scope Q_scope.
Local Open Scope res_scope.

Section Arith.
Variable ar : arith.
Local Notation "a +. b" := (a_add ar a b) (at level 50, left associativity).
Local Notation "a -. b" := (a_sub ar a b) (at level 50, left associativity).
Local Notation "a *. b" := (a_mul ar a b) (at level 40, left associativity).
Local Notation "a /. b" := (a_div ar a b) (at level 40, left associativity).

(** text_plain.rs:16-20 *)
Definition Mm_per_in_in : Q := a_lit ar (254 # 10).
(** text_plain.rs:22-24 *)
Definition Px_per_in_in : Q := a_lit ar 96.
(** text_plain.rs:25-27; [Scale::inv] of the crate [euclid] divides 1 *)
Definition Px_per_mm_in : Q := (1 /. Mm_per_in_in) *. Px_per_in_in.

(** ** text.rs *)
Section Font.
Variable glyph_id : N -> res font_error N.
Variable glyph_width : N -> res font_error Q.
(** text.rs:48-53; on an error nothing has been changed *)
Definition append_char_of (s : shaped) (ch : N) : res font_error shaped :=
  id <- glyph_id ch ;;
  w <- glyph_width id ;;
  Ok (mkShaped (glyphs s ++ [id]) (advance_width s +. w)).
(** text.rs:44-46; an error ends the segment, which is then dropped *)
Fixpoint append_of (s : shaped) (text : list N) : res font_error shaped :=
  match text with
  | [] => Ok s
  | ch :: r => s <- append_char_of s ch ;; append_of s r
  end.
(** text.rs:30-34 *)
Definition naive_shape_in (text : list N) : res font_error shaped := append_of new_with_naive_shaping text.
End Font.

(** ** text_plain.rs *)
Section Plain.
(** The decimal that [dtoa] prints for a number handed to the PDF writer *)
Variable print : Q -> dec.
(** The [cmap] lookup of the font of the style *)
Variable glyph_id : N -> res font_error N.
Variable style : plain_style.
Variable text : bytes.

(** 65-71: the closure *)
Definition shape_segment_in (previous position : nat) (is_hard_break : bool) : item :=
  match slice text previous position with
  | None => Panic
  | Some range =>
      segment <- naive_shape_in glyph_id (f_glyph_width (ps_font style)) (chars (trim_end_newlines range)) ;;
      Ok (segment, is_hard_break)
  end.
(** 160-169 [Rewind::next] *)
Definition rewind_next_in (rw : rewind) : option item * rewind :=
  match rw_buffer rw with
  | Some i => (Some i, mkRewind (rw_inner rw) (rw_previous_break_position rw) None)
  | None =>
      match rw_inner rw with
      | [] => (None, rw)
      | (position, hard) :: r => (Some (shape_segment_in (rw_previous_break_position rw) position hard), mkRewind r position None)
      end
  end.

(** 41 *)
Definition page_width_in : Q := ps_page_width style *. Px_per_mm_in.
(** 41 *)
Definition page_height_in : Q := ps_page_height style *. Px_per_mm_in.
(** 42 *)
Definition margin_in : Q := ps_page_margin style *. Px_per_mm_in.
(** 43-47; [euclid]'s [inner_rect] moves the four sides inwards; its debug assertion that the area is not of
    negative size is not modelled. *)
Definition min_x_in : Q := 0 +. margin_in.
(** 46 *)
Definition min_y_in : Q := 0 +. margin_in.
(** 47 *)
Definition max_y_in : Q := (0 +. margin_in) +. (page_height_in -. (margin_in +. margin_in)).
(** 48 *)
Definition available_width_in : Q := page_width_in -. (margin_in +. margin_in).
(** 50-51 *)
Definition line_height_em_in : Q := 1 *. ps_line_height style.
(** 52 *)
Definition half_leading_in : Q := (line_height_em_in -. 1) /. 2.
(** 56 *)
Definition px_per_em_in : Q := ps_font_size style /. 1.
(** 57 *)
Definition line_height_in : Q := line_height_em_in *. px_per_em_in.
(** 53 and 58 *)
Definition baseline_y_in : Q := (half_leading_in +. f_ascender (ps_font style)) *. px_per_em_in.

(** 79-104: one line.  An outer [None] is the end of the fuel, excluded by C81_no_panic.  [Ok None] is
    [break 'pages]. *)
Fixpoint fill_line_loop_in (fuel : nat) (segments : rewind) (line_segments : list shaped) (total_width : Q) :
    option (res font_error (option (rewind * list shaped * Q * bool))) :=
  match fuel with
  | O => None
  | S fuel =>
      match rewind_next_in segments with
      | (None, _) => Some (Ok None)
      | (Some (Err e), _) => Some (Err e)
      | (Some Panic, _) => Some Panic
      | (Some (Ok (segment, is_hard_break)), segments) =>
          let advance := advance_width segment *. px_per_em_in in
          let next_total_width := total_width +. advance in
          if a_gt ar next_total_width available_width_in && a_gt ar total_width 0 then
            match rewind_rewind segments (Ok (segment, is_hard_break)) with
            | None => Some Panic
            | Some segments => Some (Ok (Some (segments, line_segments, total_width, ps_justify style)))
            end
          else
            let line_segments := line_segments ++ [segment] in
            if is_hard_break then Some (Ok (Some (segments, line_segments, next_total_width, false)))
            else fill_line_loop_in fuel segments line_segments next_total_width
      end
  end.
(** 112-122 *)
Fixpoint show_line_in (d : doc) (p : page) (x baseline word_spacing : Q) (line_segments : list shaped) : res font_error (doc * page) :=
  match line_segments with
  | [] => Ok (d, p)
  | segment :: r =>
      match show_text d p (ps_font style) (glyphs segment) (print (ps_font_size style)) (print x) (print baseline) with
      | (d, p, Ok _) => show_line_in d p (x +. (advance_width segment *. px_per_em_in +. word_spacing)) baseline word_spacing r
      | (_, _, Err e) => Err e
      | (_, _, Panic) => Panic
      end
  end.
(** 106-111; [usize as f32] rounds as a literal does.  [None] is the overflow of [line_segments.len() - 1] *)
Definition word_spacing_in (justify : bool) (total_width : Q) (line_segments : list shaped) : option Q :=
  let extra := available_width_in -. total_width in
  if justify && a_gt ar extra 0
  then option_map (fun n => extra /. a_lit ar (inject_Z (Z.of_nat n))) (len_minus_1 line_segments)
  else Some 0.
(** 76-130: the lines of a page; [None] for the segments left is [break 'pages]. *)
Fixpoint lines_loop_in (fuel : nat) (d : doc) (p : page) (segments : rewind) (y : Q) :
    option (res font_error (doc * page * option rewind)) :=
  match fuel with
  | O => None
  | S fuel =>
      match fill_line_loop_in (S (S (List.length (rw_inner segments)))) segments [] 0 with
      | None => None
      | Some Panic => Some Panic
      | Some (Err e) => Some (Err e)
      | Some (Ok None) => Some (Ok (d, p, None))
      | Some (Ok (Some (segments, line_segments, total_width, justify))) =>
          match word_spacing_in justify total_width line_segments with
          | None => Some Panic
          | Some word_spacing =>
              match show_line_in d p min_x_in (y +. baseline_y_in) word_spacing line_segments with
              | Err e => Some (Err e)
              | Panic => Some Panic
              | Ok (d, p) =>
                  let y := y +. line_height_in in
                  if a_gt ar y max_y_in then Some (Ok (d, p, Some segments)) else lines_loop_in fuel d p segments y
              end
          end
      end
  end.
(** 74-131; [pdf_page] is dropped at the end of each turn, and by [break 'pages] *)
Fixpoint pages_loop_in (fuel : nat) (d : doc) (segments : rewind) : option (res font_error doc) :=
  match fuel with
  | O => None
  | S fuel =>
      match lines_loop_in (S (S (List.length (rw_inner segments)))) d (page_new (print page_width_in) (print page_height_in)) segments min_y_in with
      | None => None
      | Some Panic => Some Panic
      | Some (Err e) => Some (Err e)
      | Some (Ok (d, p, None)) => Some (Ok (page_drop d p))
      | Some (Ok (d, p, Some segments)) => pages_loop_in fuel (page_drop d p) segments
      end
  end.
(** 40-133 [layout], given what [LineBreakIterator::new(text)] yields *)
Definition plain_layout_in (breaks : list (nat * bool)) : option (res font_error doc) :=
  pages_loop_in (S (List.length breaks)) doc_new (mkRewind breaks 0 None).
End Plain.
End Arith.
