(** Model of victor/src/main.rs as in Main.v, with layout and painting in a given arithmetic (that of the program is [f32] of Arith32.v).
    Multiples of font sizes are those of [f32] in any case: StyleValues.v. *)
From Coq Require Import QArith.
From Verif Require Import PdfObject PdfConvert Base Dom StyleValues StyleProperties StyleCascade UserAgent
  Geom Text LayoutTree Layout BoxTree FontParsing FontCmap VeraFile Main Arith32 LayoutArith.
Local Open Scope nat_scope.

Section Main.
(** Arithmetic: layout and painting compute with [f32] throughout (victor/src/primitives/) *)
Variable ar : arith.
(** As in Main.v: html5ever (dom/html.rs:14-17) … *)
Variable html_calls : bytes -> list sink_op.
(** … cssparser and the selectors crate … *)
Variable parse_color : parser color.
Variable other : Type.
Variable other_specificity : other -> N.
Variable other_matches : other -> document -> nat -> bool.
Variable items_of : bytes -> list StyleCascade.item.
Variable rules_of : bytes -> list (source_rule (ua_selector other)).
(** … printing, the build, the address of the font, the scheduling of layout … *)
Variable round : Q -> dec.
Variable m : build.
Variable addr : N.
Variable o : oracle.
(** … and the file system *)
Variable fs_read : path -> bytes + bytes.
Variable fs_write : path -> bytes -> option bytes.

(** paint.rs:8-34 with the font of fonts/mod.rs:278-297 and the style sheet of cascade.rs:16-22, as in Main.v *)
Definition document_to_pdf_with (font : res font_error parsed_font) (d : document) : option bytes :=
  match font with
  | Ok pf =>
      to_pdf_bytes_in ar round (pdf_font m addr pf) parse_color (ua_selector other) (ua_specificity other other_specificity)
        (ua_matches other other_matches) items_of rules_of (user_agent_css other) (glyph_id m pf) o d
  | _ => None
  end.
(** paint.rs:8-34 *)
Definition document_to_pdf_rounded (d : document) : option bytes := document_to_pdf_with (parse_font m vera_ttf) d.
(** main.rs:1-12, as in Main.v *)
Definition victor_main_in (args : list path) : list action * outcome :=
  match next args with
  | None => ([], Failure usage)
  | Some (_self, args) =>
      match next args with
      | None => ([], Failure usage)
      | Some (input, args) =>
          match next args with
          | None => ([], Failure usage)
          | Some (output, _) =>
              match fs_read input with
              | inr e => ([Read input], Failure e)
              | inl contents =>
                  match parse_html html_calls contents with
                  | Ok doc => write_out fs_write input output (document_to_pdf_rounded doc)
                  | _ => ([Read input], Panicked)
                  end
              end
          end
      end
  end.
End Main.
