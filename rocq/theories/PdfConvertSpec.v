(** Independent reader of PDF pages, content streams, fonts and ToUnicode CMaps
    (ISO 32000-1, 7.7.3, 7.8.2, 8.3-8.5, 9.4, 9.7, 9.10.3), and what a history of drawing
    requests asks for.  Used to state C09-C12. *)
From Verif Require Import Base PdfObject PdfObjectSpec PdfSyntaxSpec PdfConvert Arith32Spec.
From Coq Require Import Qabs.
Local Open Scope N_scope.

(** ** Content-stream syntax (7.8.2): operands and operators *)
Inductive item : Type :=
| IObj (v : pval)
| IOp (name : bytes).

(** One operand or operator at the start of [l], which begins with no white space.
    Indirect references are not allowed in content streams. *)
Definition read_item (l : bytes) : option (item * bytes) :=
  match l with
  | [] => None
  | b :: _ =>
      if is_regular b then
        let (t, r) := span_regular l in
        match parse_number t with
        | Some v => Some (IObj v, r)
        | None => if bytes_eqb t (bs "true") then Some (IObj (PBool true), r)
                  else if bytes_eqb t (bs "false") then Some (IObj (PBool false), r)
                  else if bytes_eqb t (bs "null") then Some (IObj PNull, r)
                  else Some (IOp t, r)
        end
      else match read_object l with
           | Some (v, r) => Some (IObj v, r)
           | None => None
           end
  end.

Fixpoint read_content (fuel : nat) (l : bytes) : option (list item) :=
  match fuel with
  | O => None
  | S f =>
      match skip_ws l with
      | [] => Some []
      | l' => match read_item l' with
              | Some (i, r) => match read_content f r with
                               | Some is => Some (i :: is)
                               | None => None
                               end
              | None => None
              end
      end
  end.
Definition content_items (l : bytes) : option (list item) := read_content (S (length l)) l.

(** ** Matrices (8.3.4): [a b c d e f], row vectors *)
Record matrix : Type := mkM { ma : Q; mb : Q; mc : Q; md : Q; me : Q; mf : Q }.
Local Open Scope Q_scope.
Definition identity : matrix := mkM 1 0 0 1 0 0.
(** [m] applied first, then [n]; entries in lowest terms. *)
Definition mat_mul (m n : matrix) : matrix :=
  mkM (Qred (ma m * ma n + mb m * mc n)) (Qred (ma m * mb n + mb m * md n))
      (Qred (mc m * ma n + md m * mc n)) (Qred (mc m * mb n + md m * md n))
      (Qred (me m * ma n + mf m * mc n + me n)) (Qred (me m * mb n + mf m * md n + mf n)).
Definition apply (m : matrix) (p : Q * Q) : Q * Q :=
  (Qred (fst p * ma m + snd p * mc m + me m), Qred (fst p * mb m + snd p * md m + mf m)).

(** ** Painting (8.4, 8.5, 9.4) *)
(** A painted area, in points from the lower left corner, with its colour and opacity. *)
Inductive mark : Type :=
| MFill (polygon : list (Q * Q)) (rgb : Q * Q * Q) (alpha : Q)
| MText (font : pval) (m : matrix) (codes : bytes) (rgb : Q * Q * Q) (alpha : Q).

Record gstate : Type := mkG {
  g_ctm : matrix;
  g_rgb : Q * Q * Q;
  g_alpha : Q;
  g_font : option (pval * Q);
  g_in_text : bool;
  g_tm : option matrix;      (* unknown outside text objects and after showing glyphs *)
  g_path : list (list (Q * Q)) }.
(** 8.4.1: initial values *)
Definition g_initial : gstate := mkG identity (0, 0, 0) 1 None false None [].

Definition number (v : pval) : option Q :=
  match v with PInt z => Some (inject_Z z) | PReal q => Some q | _ => None end.
Fixpoint numbers (l : list pval) : option (list Q) :=
  match l with
  | [] => Some []
  | v :: r => match number v, numbers r with
              | Some q, Some qs => Some (q :: qs)
              | _, _ => None
              end
  end.

(** The [Font] and [ExtGState] resource dictionaries (7.8.3). *)
Record resources : Type := mkRes { r_fonts : list (bytes * pval); r_ext_gs : list (bytes * pval) }.

(** One operator with its operands: new state and marks painted; [None] when it is not
    one of the operators below or its operands or context are wrong. *)
Definition operate (rs : resources) (g : gstate) (name : bytes) (operands : list pval)
  : option (gstate * list mark) :=

  if bytes_eqb name (bs "cm") then
    match numbers operands with
    | Some [a; b; c; d; e; f] =>
        if g_in_text g then None else
        Some (mkG (mat_mul (mkM a b c d e f) (g_ctm g)) (g_rgb g) (g_alpha g) (g_font g)
                  (g_in_text g) (g_tm g) (g_path g), [])
    | _ => None
    end
  else if bytes_eqb name (bs "rg") then
    match numbers operands with
    | Some [r; gr; b] =>
        Some (mkG (g_ctm g) (r, gr, b) (g_alpha g) (g_font g) (g_in_text g) (g_tm g) (g_path g), [])
    | _ => None
    end
  else if bytes_eqb name (bs "gs") then
    match operands with
    | [PName n] =>
        match lookup_key n (r_ext_gs rs) with
        | Some (PDict es) =>
            match lookup_key (bs "ca") es with
            | Some v => match number v with
                        | Some a => Some (mkG (g_ctm g) (g_rgb g) a (g_font g) (g_in_text g)
                                              (g_tm g) (g_path g), [])
                        | None => None
                        end
            | None => None
            end
        | _ => None
        end
    | _ => None
    end
  else if bytes_eqb name (bs "re") then
    match numbers operands with
    | Some [x; y; w; h] =>
        if g_in_text g then None else
        Some (mkG (g_ctm g) (g_rgb g) (g_alpha g) (g_font g) (g_in_text g) (g_tm g)
                  (g_path g ++ [map (apply (g_ctm g)) [(x, y); (x + w, y); (x + w, y + h); (x, y + h)]]), [])
    | _ => None
    end
  else if bytes_eqb name (bs "f") then
    match operands with
    | [] => if g_in_text g then None else
            Some (mkG (g_ctm g) (g_rgb g) (g_alpha g) (g_font g) (g_in_text g) (g_tm g) [],
                  map (fun poly => MFill poly (g_rgb g) (g_alpha g)) (g_path g))
    | _ => None
    end
  else if bytes_eqb name (bs "BT") then
    match operands with
    | [] => if g_in_text g then None else
            Some (mkG (g_ctm g) (g_rgb g) (g_alpha g) (g_font g) true (Some identity) (g_path g), [])
    | _ => None
    end
  else if bytes_eqb name (bs "ET") then
    match operands with
    | [] => if g_in_text g then
              Some (mkG (g_ctm g) (g_rgb g) (g_alpha g) (g_font g) false None (g_path g), [])
            else None
    | _ => None
    end
  else if bytes_eqb name (bs "Tf") then
    match operands with
    | [PName n; size] =>
        match lookup_key n (r_fonts rs), number size with
        | Some font, Some size =>
            Some (mkG (g_ctm g) (g_rgb g) (g_alpha g) (Some (font, size)) (g_in_text g) (g_tm g)
                      (g_path g), [])
        | _, _ => None
        end
    | _ => None
    end
  else if bytes_eqb name (bs "Tm") then
    match numbers operands with
    | Some [a; b; c; d; e; f] =>
        if g_in_text g then
          Some (mkG (g_ctm g) (g_rgb g) (g_alpha g) (g_font g) true (Some (mkM a b c d e f)) (g_path g), [])
        else None
    | _ => None
    end
  else if bytes_eqb name (bs "Tj") then
    match operands, g_font g, g_tm g with
    | [PString codes], Some (font, size), Some tm =>
        if g_in_text g then
          Some (mkG (g_ctm g) (g_rgb g) (g_alpha g) (g_font g) true None (g_path g),
                [MText font (mat_mul (mkM size 0 0 size 0 0) (mat_mul tm (g_ctm g))) codes
                       (g_rgb g) (g_alpha g)])
        else None
    | _, _, _ => None
    end
  else None.

Fixpoint interpret (rs : resources) (g : gstate) (operands : list pval) (is : list item)
  : option (gstate * list mark) :=
  match is with
  | [] => match operands with [] => Some (g, []) | _ => None end
  | IObj v :: r => interpret rs g (operands ++ [v]) r
  | IOp name :: r =>
      match operate rs g name operands with
      | None => None
      | Some (g', marks) =>
          match interpret rs g' [] r with
          | Some (g2, more) => Some (g2, marks ++ more)
          | None => None
          end
      end
  end.

(** A whole page: the content stream must not end inside a text object. *)
Definition paint (rs : resources) (content : bytes) : option (list mark) :=
  match content_items content with
  | Some is => match interpret rs g_initial [] is with
               | Some (g, marks) => if g_in_text g then None else Some marks
               | None => None
               end
  | None => None
  end.

(** ** The page tree (7.7.3), one level of kids *)
Local Open Scope N_scope.
Record page_view : Type := mkPV { pv_media_box : list Q; pv_contents : bytes }.

Definition resolve_dict (file : bytes) (v : pval) : option (list (bytes * pval)) :=
  match v with
  | PRef n 0 => match resolve file n with Some (PDict es, None) => Some es | _ => None end
  | _ => None
  end.
Definition resolve_stream (file : bytes) (v : pval) : option bytes :=
  match v with
  | PRef n 0 => match resolve file n with Some (_, s) => s | _ => None end
  | _ => None
  end.
Definition has_name (k : bytes) (name : bytes) (es : list (bytes * pval)) : bool :=
  match lookup_key k es with Some (PName n) => bytes_eqb n name | _ => false end.

(** One page: its dictionary is a [Page] whose [Parent] is the page tree. *)
Definition read_page (file : bytes) (tree : N) (kid : pval) : option page_view :=
  match resolve_dict file kid with
  | None => None
  | Some es =>
      if has_name (bs "Type") (bs "Page") es then
        match lookup_key (bs "Parent") es, lookup_key (bs "MediaBox") es, lookup_key (bs "Contents") es with
        | Some (PRef p 0), Some (PArray box), Some c =>
            match numbers box, resolve_stream file c with
            | Some qs, Some content => if p =? tree then Some (mkPV qs content) else None
            | _, _ => None
            end
        | _, _, _ => None
        end
      else None
  end.

Fixpoint read_kids (file : bytes) (tree : N) (kids : list pval) : option (list page_view) :=
  match kids with
  | [] => Some []
  | k :: r => match read_page file tree k, read_kids file tree r with
              | Some p, Some ps => Some (p :: ps)
              | _, _ => None
              end
  end.

(** From the trailer's [Root] to the page tree's [Kids] and [Resources]. *)
Definition read_document (file : bytes) : option (list pval * list page_view * resources) :=
  match read_pdf file with
  | Some p =>
      match p_trailer p with
      | PDict tr =>
          match lookup_key (bs "Root") tr with
          | Some root =>
              match resolve_dict file root with
              | Some cat =>
                  match lookup_key (bs "Pages") cat with
                  | Some (PRef tree 0) =>
                      match resolve_dict file (PRef tree 0) with
                      | Some es =>
                          match lookup_key (bs "Count") es, lookup_key (bs "Kids") es,
                                lookup_key (bs "Resources") es with
                          | Some (PInt count), Some (PArray kids), Some (PDict rs) =>
                              match lookup_key (bs "Font") rs, lookup_key (bs "ExtGState") rs with
                              | Some (PDict fonts), Some (PDict gs) =>
                                  if has_name (bs "Type") (bs "Catalog") cat &&
                                     has_name (bs "Type") (bs "Pages") es &&
                                     (count =? Z.of_nat (length kids))%Z
                                  then match read_kids file tree kids with
                                       | Some pages => Some (kids, pages, mkRes fonts gs)
                                       | None => None
                                       end
                                  else None
                              | _, _ => None
                              end
                          | _, _, _ => None
                          end
                      | None => None
                      end
                  | _ => None
                  end
              | None => None
              end
          | None => None
          end
      | _ => None
      end
  | None => None
  end.

(** ** Composite fonts (9.7.6) *)
Record font_view : Type := mkFV {
  fv_name : bytes;           (* BaseFont of the Type 0 font and of its descendant, FontName *)
  fv_encoding : bytes;
  fv_first_cid : Z;
  fv_widths : list Z;        (* thousandths of an em *)
  fv_bbox : list Z;
  fv_ascent : Z; fv_descent : Z;
  fv_program : bytes;        (* TrueType font program *)
  fv_to_unicode : bytes }.

Fixpoint integers (l : list pval) : option (list Z) :=
  match l with
  | [] => Some []
  | PInt z :: r => match integers r with Some zs => Some (z :: zs) | None => None end
  | _ => None
  end.

Definition get_name (k : bytes) (es : list (bytes * pval)) : option bytes :=
  match lookup_key k es with Some (PName n) => Some n | _ => None end.

Definition read_font (file : bytes) (v : pval) : option font_view :=
  match resolve_dict file v with
  | Some es =>
      match get_name (bs "Type") es, get_name (bs "Subtype") es, get_name (bs "BaseFont") es,
            get_name (bs "Encoding") es, lookup_key (bs "ToUnicode") es,
            lookup_key (bs "DescendantFonts") es with
      | Some t, Some st, Some name, Some enc, Some tu, Some (PArray [PDict ds]) =>
          match get_name (bs "Subtype") ds, get_name (bs "BaseFont") ds,
                lookup_key (bs "FontDescriptor") ds, lookup_key (bs "W") ds,
                resolve_stream file tu with
          | Some st2, Some name2, Some fdr, Some (PArray [PInt first; PArray ws]), Some cmap =>
              match resolve_dict file fdr, integers ws with
              | Some fd, Some widths =>
                  match get_name (bs "Type") fd, get_name (bs "FontName") fd,
                        lookup_key (bs "FontBBox") fd, lookup_key (bs "Ascent") fd,
                        lookup_key (bs "Descent") fd, lookup_key (bs "FontFile2") fd with
                  | Some t3, Some name3, Some (PArray box), Some (PInt asc), Some (PInt desc), Some ff =>
                      match integers box, resolve_stream file ff with
                      | Some bbox, Some program =>
                          if bytes_eqb t (bs "Font") && bytes_eqb st (bs "Type0") &&
                             bytes_eqb st2 (bs "CIDFontType2") && bytes_eqb t3 (bs "FontDescriptor") &&
                             bytes_eqb name name2 && bytes_eqb name name3
                          then Some (mkFV name enc first widths bbox asc desc program cmap)
                          else None
                      | _, _ => None
                      end
                  | _, _, _, _, _, _ => None
                  end
              | _, _ => None
              end
          | _, _, _, _, _ => None
          end
      | _, _, _, _, _, _ => None
      end
  | None => None
  end.

(** ** ToUnicode CMaps (9.10.3; Adobe Technical Note 5014) *)
(** UTF-16BE *)
Fixpoint utf16be_units (l : bytes) : option (list N) :=
  match l with
  | [] => Some []
  | a :: b :: r => match utf16be_units r with Some us => Some (a * 256 + b :: us) | None => None end
  | _ => None
  end.
Definition decode_utf16 (us : list N) : option N :=
  match us with
  | [u] => if (55296 <=? u) && (u <? 57344) then None else Some u
  | [h; l] => if (55296 <=? h) && (h <? 56320) && (56320 <=? l) && (l <? 57344)
              then Some (65536 + (h - 55296) * 1024 + (l - 56320)) else None
  | _ => None
  end.
Definition char_of_string (s : bytes) : option N :=
  match utf16be_units s with Some us => decode_utf16 us | None => None end.

(** The pairs between [beginbfchar] and [endbfchar]: two-byte code and character. *)
Fixpoint bf_pairs (l : list pval) : option (list (N * N)) :=
  match l with
  | [] => Some []
  | PString [h; l] :: PString s :: r =>
      match char_of_string s, bf_pairs r with
      | Some c, Some ps => Some ((c, h * 256 + l) :: ps)
      | _, _ => None
      end
  | _ => None
  end.

(** The [bfchar] blocks of a CMap, in order.  [inside] is the announced length when between
    [beginbfchar] and [endbfchar]; a block has at most 100 entries. *)
Fixpoint bf_sections (inside : option Z) (operands : list pval) (is : list item)
  : option (list (list (N * N))) :=
  match is with
  | [] => match inside with None => Some [] | Some _ => None end
  | IObj v :: r => bf_sections inside (operands ++ [v]) r
  | IOp name :: r =>
      match inside with
      | None =>
          if bytes_eqb name (bs "beginbfchar") then
            match operands with
            | [PInt n] => if (n <=? 100)%Z then bf_sections (Some n) [] r else None
            | _ => None
            end
          else if bytes_eqb name (bs "endbfchar") then None
          else bf_sections None [] r
      | Some n =>
          if bytes_eqb name (bs "endbfchar") then
            match bf_pairs operands with
            | Some ps => if (Z.of_nat (length ps) =? n)%Z then
                           match bf_sections None [] r with
                           | Some more => Some (ps :: more)
                           | None => None
                           end
                         else None
            | None => None
            end
          else None
      end
  end.

Definition read_to_unicode (cmap : bytes) : option (list (list (N * N))) :=
  match content_items cmap with Some is => bf_sections None [] is | None => None end.

(** Operators that begin and end something are nested like parentheses, and the parts of a CMap are inside
    [begincmap] and [endcmap].  [open] is what has been begun, the innermost first. *)
Fixpoint well_nested (open : list bytes) (is : list item) : bool :=
  match is with
  | [] => match open with [] => true | _ :: _ => false end
  | IObj _ :: r => well_nested open r
  | IOp name :: r =>
      match strip_prefix (bs "begin") name, strip_prefix (bs "end") name with
      | Some x, _ =>
          (negb (bytes_eqb x (bs "bfchar") || bytes_eqb x (bs "codespacerange")) ||
           match open with y :: _ => bytes_eqb y (bs "cmap") | [] => false end) && well_nested (x :: open) r
      | None, Some x => match open with y :: open => bytes_eqb x y && well_nested open r | [] => false end
      | None, None => well_nested open r
      end
  end.

(** A Unicode scalar value, Rust's [char]. *)
Definition scalar_value (c : N) : Prop := c < 55296 \/ 57344 <= c < 1114112.

(** ** What a history asks for *)
Local Open Scope Q_scope.
(** CSS pixels to points *)
Definition pt (q : Q) : Q := q * (3 # 4).

Inductive wanted : Type :=
| WFill (polygon : list (Q * Q)) (rgb : Q * Q * Q) (alpha : Q)
| WText (f : font) (m : matrix) (glyphs : list N) (rgb : Q * Q * Q) (alpha : Q).

Definition clamp (q : Q) : Q := if Qle_bool q 0 then 0 else if Qle_bool 1 q then 1 else q.

(** The font can be embedded: its character map and all its glyph widths can be read. *)
Definition embeddable (f : font) : bool :=
  match f_code_points_result f with None => true | Some _ => false end &&
  forallb (fun i => match f_glyph_width f (N.of_nat i) with Ok _ => true | _ => false end)
          (seq 0 (N.to_nat (f_glyph_count f))).

(** With colour [rgb] and opacity [alpha] current.  Y grows downwards in CSS: a point
    (x, y) in pixels is at (3/4 x, -3/4 y); glyphs are upright, [font_size] pixels tall. *)
Fixpoint wants (rgb : Q * Q * Q) (alpha : Q) (rs : list request) : list wanted :=
  match rs with
  | [] => []
  | SetColor (r, g, b, a) :: rest =>
      wants (dec_value r, dec_value g, dec_value b) (clamp (dec_value a)) rest
  | PaintRectangle x y w h :: rest =>
      let x := dec_value x in let y := dec_value y in
      let w := dec_value w in let h := dec_value h in
      WFill [ (Qred (pt x), Qred (- pt y)); (Qred (pt (x + w)), Qred (- pt y));
              (Qred (pt (x + w)), Qred (- pt (y + h))); (Qred (pt x), Qred (- pt (y + h))) ] rgb alpha
      :: wants rgb alpha rest
  | ShowText f glyphs fs x y :: rest =>
      (if embeddable f
       then [WText f (mkM (Qred (pt (dec_value fs))) 0 0 (Qred (pt (dec_value fs)))
                          (Qred (pt (dec_value x))) (Qred (- pt (dec_value y)))) glyphs rgb alpha]
       else []) ++ wants rgb alpha rest
  end.

(** The step of 1/65535 that is taken for the same opacity, computed with [f32] *)
Definition close_alpha (a b : Q) : Prop := Qabs (a - b) <= 1 # 64000.

(** [w] points are [size] pixels: both are decimals read as [f32], and the product by 3/4 is rounded to [f32]. *)
Definition scaled_size (size w : Q) : Prop :=
  exists s t, nearest32 size s /\ nearest32 (pt s) t /\ nearest32 w t.
(** The media box of a page: its width to the right and its height downwards *)
Definition sheet (p : page_history) (box : list Q) : Prop :=
  exists w h, box = [0; 0; w; h] /\ scaled_size (dec_value (ph_width p)) w /\ scaled_size (dec_value (ph_height p)) (- h).

(** [z] is [q] in thousandths of an em, computed with 24 bits and then cut off. *)
Definition thousandths (q : Q) (z : Z) : Prop :=
  exists x, Qabs (x - q * 1000) <= Qabs (q * 1000) * (1 # 16777216) + (1 # 1000000) /\
    (0 <= x -> inject_Z z <= x /\ x < inject_Z z + 1) /\ (x <= 0 -> inject_Z z - 1 < x /\ x <= inject_Z z).

(** The font in the file is [f]: its program, name, metrics and character map. *)
Definition represents (f : font) (v : font_view) : Prop :=
  fv_name v = f_name f /\ fv_encoding v = bs "Identity-H" /\ fv_first_cid v = 0%Z /\
  length (fv_widths v) = N.to_nat (f_glyph_count f) /\
  (forall i, (i < f_glyph_count f)%N -> exists w z, f_glyph_width f i = Ok w /\
     nth_error (fv_widths v) (N.to_nat i) = Some z /\ thousandths w z) /\
  Forall2 thousandths [f_min_x f; f_min_y f; f_max_x f; f_max_y f] (fv_bbox v) /\
  thousandths (f_ascender f) (fv_ascent v) /\ thousandths (f_descender f) (fv_descent v) /\
  fv_program v = f_bytes f /\
  (Forall (fun cg => scalar_value (fst cg) /\ (snd cg < 65536)%N) (f_code_points f) ->
   exists blocks, read_to_unicode (fv_to_unicode v) = Some blocks /\ concat blocks = f_code_points f).

Definition painted_as (file : bytes) (w : wanted) (m : mark) : Prop :=
  match w, m with
  | WFill poly rgb a, MFill poly' rgb' a' => poly' = poly /\ rgb' = rgb /\ close_alpha a' a
  | WText f mat glyphs rgb a, MText v mat' codes rgb' a' =>
      mat' = mat /\ utf16be_units codes = Some glyphs /\ rgb' = rgb /\ close_alpha a' a /\
      exists fv, read_font file v = Some fv /\ represents f fv
  | _, _ => False
  end.

(** ** Side conditions *)
(** Zero, or 1e-5 <= |x| < 1e20: so that [x] and [3/4 x] are printed in plain notation. *)
Definition moderate (d : dec) : Prop :=
  wf_dec d /\ (dec_value d = 0 \/
               (1 # 100000) <= Qabs (dec_value d) /\ Qabs (dec_value d) < inject_Z (10 ^ 20)).

Definition clean_request (r : request) : Prop :=
  match r with
  | SetColor (r, g, b, a) => moderate r /\ moderate g /\ moderate b /\ moderate a
  | PaintRectangle x y w h => moderate x /\ moderate y /\ moderate w /\ moderate h
  | ShowText f glyphs fs x y =>
      clean_name (f_name f) /\ Forall (fun g => (g < 65536)%N) glyphs /\
      moderate fs /\ moderate x /\ moderate y
  end.
Definition clean_page (p : page_history) : Prop :=
  moderate (ph_width p) /\ moderate (ph_height p) /\ Forall clean_request (ph_requests p).

(** The fonts of a history; a font is one allocation: same address, same font. *)
Definition fonts_of (h : list page_history) : list font :=
  flat_map (fun p => flat_map (fun r => match r with ShowText f _ _ _ _ => [f] | _ => [] end)
                              (ph_requests p)) h.
Definition coherent (h : list page_history) : Prop :=
  forall f g, In f (fonts_of h) -> In g (fonts_of h) -> f_addr f = f_addr g -> f = g.
Definition clean_history (h : list page_history) : Prop := Forall clean_page h /\ coherent h.
