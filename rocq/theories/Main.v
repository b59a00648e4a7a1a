(** Model of victor/src/main.rs, with html5ever, cssparser and the file system as parameters. *)
From Coq Require Import QArith.
From Verif Require LesterFloat.
From Verif Require Import PdfObject PdfConvert Base Dom StyleValues StyleProperties StyleCascade UserAgent
  Geom Text LayoutTree Layout BoxTree Paint FontParsing FontCmap VeraFile.
Local Open Scope nat_scope.

(** [OsString]: main.rs:1-12 *)
Definition path := bytes.
(** What the program asks of the file system: [std::fs::read] and [std::fs::write]: main.rs:7 and 10 *)
Inductive action := Read (p : path) | Write (p : path) (contents : bytes).
(** How it ends: [main] returns [Ok] or [Err] (a message for standard error, status 1), or unwinds (status 101). *)
Inductive outcome := Success | Failure (message : bytes) | Panicked.

Section Main.
(** dom/html.rs:14-17: the calls that html5ever makes of its [TreeSink] for some bytes *)
Variable html_calls : bytes -> list sink_op.
(** cssparser and the selectors crate, as in StyleCascade.v and UserAgent.v *)
Variable parse_color : parser color.
Variable other : Type.
Variable other_specificity : other -> N.
Variable other_matches : other -> document -> nat -> bool.
Variable items_of : bytes -> list StyleCascade.item.
Variable rules_of : bytes -> list (source_rule (ua_selector other)).
(** Rounding to 32-bit floats and printing them (Float32Print.v), the build, the address of a font (pdf/convert.rs:61-92) and the
    scheduling of layout, as in Paint.v *)
Variable round : Q -> dec.
Variable m : build.
Variable addr : N.
Variable o : oracle.
(** The answers of the file system: the contents or a message; a message if writing fails *)
Variable fs_read : path -> bytes + bytes.
Variable fs_write : path -> bytes -> option bytes.

(** dom/html.rs:9-18 *)
Definition parse_html (utf8_bytes : bytes) : Dom.result document := run_ops document_new (html_calls utf8_bytes).
(** paint.rs:8-34 with the font of fonts/mod.rs:278-297, parsed on first use with [unwrap] (here even if there is no text),
    and the style sheet of cascade.rs:16-22 *)
Definition document_to_pdf_in (font : res font_error parsed_font) (d : document) : option bytes :=
  match font with
  | Ok pf =>
      to_pdf_bytes round (pdf_font m addr pf) parse_color (ua_selector other) (ua_specificity other other_specificity)
        (ua_matches other other_matches) items_of rules_of (user_agent_css other) (glyph_id m pf) o d
  | _ => None
  end.
(** paint.rs:8-34 *)
Definition document_to_pdf (d : document) : option bytes := document_to_pdf_in (parse_font m vera_ttf) d.
(** main.rs:3 *)
Definition usage : bytes := bs "Usage: victor input.html output.pdf".
(** main.rs:3: one more argument, and those after it *)
Definition next (args : list path) : option (path * list path) :=
  match args with [] => None | a :: r => Some (a, r) end.
(** main.rs:10-11 *)
Definition write_out (input output : path) (pdf : option bytes) : list action * outcome :=
  match pdf with
  | Some pdf =>
      ([Read input; Write output pdf], match fs_write output pdf with None => Success | Some e => Failure e end)
  | None => ([Read input], Panicked)
  end.
(** main.rs:1-12; the conversions of [?] keep the message. *)
Definition victor_main (args : list path) : list action * outcome :=
  match next args with
  | None => ([], Failure usage)
  | Some (_self, args) =>
      match next args with
      | None => ([], Failure usage)
      | Some (input, args) =>
          match next args with
          | None => ([], Failure usage)
          | Some (output, _) =>
              match fs_read input with
              | inr e => ([Read input], Failure e)
              | inl contents =>
                  match parse_html contents with
                  | Ok doc => write_out input output (document_to_pdf doc)
                  | _ => ([Read input], Panicked)
                  end
              end
          end
      end
  end.
End Main.
