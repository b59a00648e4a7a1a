(** Copying the text out of a PDF file: PDF 32000-1 §9.10.2, by the ToUnicode CMap of the font. *)
From Verif Require Import Base PdfObject PdfObjectSpec PdfConvert PdfConvertSpec.
Local Open Scope N_scope.

(** All characters that a CMap has for a code: one, if it is unambiguous *)
Definition characters_of (pairs : list (N * N)) (code : N) : list N :=
  map fst (filter (fun p => snd p =? code) pairs).
(** Those for each code on a page, in the order of painting *)
Fixpoint extracted (file : bytes) (ms : list mark) : option (list (list N)) :=
  match ms with
  | [] => Some []
  | MFill _ _ _ :: r => extracted file r
  | MText font _ codes _ _ :: r =>
      match read_font file font with
      | Some fv =>
          match utf16be_units codes, read_to_unicode (fv_to_unicode fv), extracted file r with
          | Some cs, Some blocks, Some more => Some (map (characters_of (concat blocks)) cs ++ more)
          | _, _, _ => None
          end
      | None => None
      end
  end.

(** Each glyph of the font is for one character, and glyph 0 for those that the font does not have. *)
Definition legible (glyph_id : N -> res font_error N) (f : font) : Prop :=
  NoDup (f_code_points f) /\ (forall c, exists g, glyph_id c = Ok g /\ g < 65536) /\
  (forall c g, In (c, g) (f_code_points f) <-> scalar_value c /\ g <> 0 /\ glyph_id c = Ok g) /\
  (forall c g, glyph_id c = Ok g -> g <> 0 -> scalar_value c) /\
  (forall c c' g, glyph_id c = Ok g -> glyph_id c' = Ok g -> g <> 0 -> c = c').
(** What can be copied of a character *)
Definition recovered (glyph_id : N -> res font_error N) (c : N) (l : list N) : Prop :=
  (glyph_id c = Ok 0 -> l = []) /\ (glyph_id c <> Ok 0 -> l = [c]).
