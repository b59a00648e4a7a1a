(** Model of victor/src/style/properties/{definitions,macros,mod}.rs: the longhand table, computed
    values, declarations, the two cascade phases and the parsing of properties.
    The style structs behind [Arc] are one function from longhands to values: sharing and
    [Arc::make_mut] are not observable and not modelled. *)
From Coq Require Import QArith.
From Verif Require Import Base Dom StyleValues.
Local Open Scope Q_scope.

(** definitions.rs:7-60: the longhands, in the order of [LonghandId] *)
Inductive longhand :=
| font_size
| color_
| position_ | float_ | display_ | top_ | left_ | bottom_ | right_ | width | height
| margin_top | margin_left | margin_bottom | margin_right
| padding_top | padding_left | padding_bottom | padding_right
| border_top_color | border_left_color | border_bottom_color | border_right_color
| border_top_style | border_left_style | border_bottom_style | border_right_style
| border_top_width | border_left_width | border_bottom_width | border_right_width
| background_color.
(** [==] of [LonghandId]: macros.rs:27-35 *)
Definition longhand_eq_dec : forall p q : longhand, {p = q} + {p <> q}.
Proof. decide equality. Defined.

(** The Rust types of the values: definitions.rs:7-60 *)
Inductive kind := KFontSize | KRgba | KPosition | KFloat | KDisplay | KLpa | KLp | KColor | KLineStyle | KLineWidth.
(** The type of each longhand: definitions.rs:7-60 *)
Definition kind_of (p : longhand) : kind :=
  match p with
  | font_size => KFontSize
  | color_ => KRgba
  | position_ => KPosition
  | float_ => KFloat
  | display_ => KDisplay
  | top_ | left_ | bottom_ | right_ | width | height => KLpa
  | margin_top | margin_left | margin_bottom | margin_right => KLpa
  | padding_top | padding_left | padding_bottom | padding_right => KLp
  | border_top_color | border_left_color | border_bottom_color | border_right_color => KColor
  | border_top_style | border_left_style | border_bottom_style | border_right_style => KLineStyle
  | border_top_width | border_left_width | border_bottom_width | border_right_width => KLineWidth
  | background_color => KColor
  end.
(** The types of definitions.rs:7-60 *)
Definition computed_kind (k : kind) : Type :=
  match k with
  | KFontSize => Q | KRgba => rgba | KPosition => position | KFloat => float | KDisplay => display
  | KLpa => lpa | KLp => lp | KColor => color | KLineStyle => line_style | KLineWidth => lp
  end.
(** [<T as SpecifiedValue>::SpecifiedValue]: values/mod.rs:32-45 *)
Definition specified_kind (k : kind) : Type :=
  match k with
  | KFontSize => specified_length | KRgba => color | KPosition => position | KFloat => float | KDisplay => display
  | KLpa => specified_lpa | KLp => specified_lp | KColor => color | KLineStyle => line_style | KLineWidth => specified_lp
  end.
(** The type of a field of a style struct: macros.rs:185 *)
Definition computed (p : longhand) : Type := computed_kind (kind_of p).
(** macros.rs:98 *)
Definition specified (p : longhand) : Type := specified_kind (kind_of p).

(** definitions.rs:7-60: [inherited struct] or [reset struct] *)
Definition in_inherited_struct (p : longhand) : bool :=
  match p with font_size | color_ => true | _ => false end.
(** macros.rs:68-81, [@early] in definitions.rs *)
Definition is_early (p : longhand) : bool := match p with font_size => true | _ => false end.

(** macros.rs:164-189 *)
Record computed_values : Type := mkComputed {
  get : forall p : longhand, computed p;
  specified_display : display }.

(** [initial = …] in definitions.rs:7-60 *)
Definition initial_value (p : longhand) : computed p :=
  match p with
  | font_size => 16
  | color_ => BLACK
  | position_ => Static
  | float_ => FloatNone
  | display_ => display_initial
  | top_ | left_ | bottom_ | right_ | width | height => LpaAuto
  | margin_top | margin_left | margin_bottom | margin_right => LpaLength 0
  | padding_top | padding_left | padding_bottom | padding_right => LpLength 0
  | border_top_color | border_left_color | border_bottom_color | border_right_color => CurrentColor
  | border_top_style | border_left_style | border_bottom_style | border_right_style => LineNone
  | border_top_width | border_left_width | border_bottom_width | border_right_width => MEDIUM
  | background_color => Rgba transparent
  end.
(** macros.rs:196-209 *)
Definition INITIAL_VALUES : computed_values := mkComputed initial_value display_initial.

(** Assignment to one field: [Arc::make_mut(&mut computed.struct).ident = v]: macros.rs:56, 112 and 142 *)
Definition set (p : longhand) (v : computed p) (c : computed_values) : computed_values :=
  mkComputed
    (fun q => match longhand_eq_dec p q with
              | left e => eq_rect p computed v q e
              | right _ => get c q
              end)
    (specified_display c).

(** macros.rs:95-101 *)
Inductive declaration :=
| Declares (p : longhand) (v : specified p)
| CssWide (p : longhand) (k : css_wide_keyword).

(** macros.rs:37-65 *)
Definition cascade_css_wide_keyword_into (p : longhand) (k : css_wide_keyword)
    (c inherited : computed_values) : computed_values :=
  let is_initial :=
    match k with Initial => true | Inherit => false | Unset => negb (in_inherited_struct p) end in
  set p (if is_initial then initial_value p else get inherited p) c.

(** [FromSpecified::from_specified] for each type; the context is [(inherited, this)].  For
    [FontSize], which has no such implementation (it is early), the early one is used: it is never
    called.  values/mod.rs:32-45 *)
Definition from_specified (k : kind) (inherited this : computed_values) : specified_kind k -> computed_kind k :=
  match k with
  | KFontSize => font_size_from_specified (get inherited font_size)
  | KRgba => rgba_from_specified (get inherited color_)
  | KPosition => fun v => v
  | KFloat => fun v => v
  | KDisplay => fun v => v
  | KLpa => lpa_from_specified (get this font_size)
  | KLp => lp_from_specified (get this font_size)
  | KColor => fun v => v
  | KLineStyle => fun v => v
  | KLineWidth => lp_from_specified (get this font_size)
  end.

(** macros.rs:103-131: only the early longhands, of which there is one *)
Definition if_early_cascade_into (d : declaration) (inherited this : computed_values) : computed_values :=
  match d with
  | Declares p v =>
      match p return specified p -> computed_values with
      | font_size => fun v => set font_size (font_size_from_specified (get inherited font_size) v) this
      | _ => fun _ => this
      end v
  | CssWide p k => if is_early p then cascade_css_wide_keyword_into p k this inherited else this
  end.
(** macros.rs:133-161 *)
Definition if_late_cascade_into (d : declaration) (inherited this : computed_values) : computed_values :=
  match d with
  | Declares p v => if is_early p then this else set p (from_specified (kind_of p) inherited this v) this
  | CssWide p k => if negb (is_early p) then cascade_css_wide_keyword_into p k this inherited else this
  end.

(** mod.rs:118-122 *)
Record per_phase : Type := mkPerPhase { early : bool; late : bool }.
(** mod.rs:93-116: the two implementations of [Phase] *)
Inductive phase := Early | Late.
(** [Phase::select]: properties/mod.rs:93-116 *)
Definition select (f : phase) (p : per_phase) : bool := match f with Early => early p | Late => late p end.
(** [Phase::cascade]: properties/mod.rs:93-116 *)
Definition phase_cascade (f : phase) (inherited : computed_values) (d : declaration) (this : computed_values) :
    computed_values :=
  match f with
  | Early => if_early_cascade_into d inherited this
  | Late => if_late_cascade_into d inherited this
  end.

(** box_.rs:66-76 *)
Definition display_fixup (c : computed_values) : computed_values :=
  let c := mkComputed (get c) (get c display_) in
  if is_absolutely_positioned (get c position_) || is_floating (get c float_)
  then set display_ (blockify (get c display_)) c
  else c.
(** properties/mod.rs:22-30 *)
Definition post_cascade_fixups (c : computed_values) : computed_values :=
  let c := set border_top_width (line_width_fixup (get c border_top_width) (get c border_top_style)) c in
  let c := set border_left_width (line_width_fixup (get c border_left_width) (get c border_left_style)) c in
  let c := set border_bottom_width (line_width_fixup (get c border_bottom_width) (get c border_bottom_style)) c in
  let c := set border_right_width (line_width_fixup (get c border_right_width) (get c border_right_style)) c in
  display_fixup c.

(** ** Properties by name *)
(** definitions.rs:62-102 *)
Inductive shorthand := margin | padding | border_style | border_color | border_width | border_top | background.
(** The entries of the map at macros.rs:255-300 *)
Inductive property := Longhand (p : longhand) | Shorthand (s : shorthand).

(** definitions.rs: every property with its name, longhands first; note ["border-color-right"].  Lines 7-102. *)
Definition property_names : list (bytes * property) :=
  [(bs "font-size", Longhand font_size);
   (bs "color", Longhand color_);
   (bs "position", Longhand position_); (bs "float", Longhand float_); (bs "display", Longhand display_);
   (bs "top", Longhand top_); (bs "left", Longhand left_); (bs "bottom", Longhand bottom_); (bs "right", Longhand right_);
   (bs "width", Longhand width); (bs "height", Longhand height);
   (bs "margin-top", Longhand margin_top); (bs "margin-left", Longhand margin_left);
   (bs "margin-bottom", Longhand margin_bottom); (bs "margin-right", Longhand margin_right);
   (bs "padding-top", Longhand padding_top); (bs "padding-left", Longhand padding_left);
   (bs "padding-bottom", Longhand padding_bottom); (bs "padding-right", Longhand padding_right);
   (bs "border-top-color", Longhand border_top_color); (bs "border-left-color", Longhand border_left_color);
   (bs "border-bottom-color", Longhand border_bottom_color); (bs "border-color-right", Longhand border_right_color);
   (bs "border-top-style", Longhand border_top_style); (bs "border-left-style", Longhand border_left_style);
   (bs "border-bottom-style", Longhand border_bottom_style); (bs "border-right-style", Longhand border_right_style);
   (bs "border-top-width", Longhand border_top_width); (bs "border-left-width", Longhand border_left_width);
   (bs "border-bottom-width", Longhand border_bottom_width); (bs "border-right-width", Longhand border_right_width);
   (bs "background-color", Longhand background_color);
   (bs "margin", Shorthand margin); (bs "padding", Shorthand padding); (bs "border-style", Shorthand border_style);
   (bs "border-color", Shorthand border_color); (bs "border-width", Shorthand border_width);
   (bs "border-top", Shorthand border_top); (bs "background", Shorthand background)].
(** macros.rs:255-300, [ascii_case_insensitive_phf_map!]: the name is lowered, then looked up *)
Definition property_data_by_name (name : bytes) : option property :=
  lookup_keyword property_names (map lower name).

(** definitions.rs:62-102: the longhands of a shorthand, in the order of the fields *)
Definition shorthand_longhands (s : shorthand) : list longhand :=
  match s with
  | margin => [margin_top; margin_left; margin_bottom; margin_right]
  | padding => [padding_top; padding_left; padding_bottom; padding_right]
  | border_style => [border_top_style; border_left_style; border_bottom_style; border_right_style]
  | border_color => [border_top_color; border_left_color; border_bottom_color; border_right_color]
  | border_width => [border_top_width; border_left_width; border_bottom_width; border_right_width]
  | border_top => [border_top_style; border_top_color; border_top_width]
  | background => [background_color]
  end.
(** [PropertyData::longhands]: macros.rs:259 and 272-276 *)
Definition longhands (d : property) : list longhand :=
  match d with Longhand p => [p] | Shorthand s => shorthand_longhands s end.

(** mod.rs:149-159: a missing component becomes [initial] *)
Definition or_initial (p : longhand) (v : option (specified p)) : declaration :=
  match v with Some v => Declares p v | None => CssWide p Initial end.

Section Parse.
Variable parse_color : parser color.

(** The [Parse] implementation of each specified type: macros.rs:261 *)
Definition parse_kind (k : kind) : parser (specified_kind k) :=
  match k with
  | KFontSize => parse_specified_length
  | KRgba => parse_color
  | KPosition => parse_position
  | KFloat => parse_float
  | KDisplay => parse_display
  | KLpa => parse_specified_lpa
  | KLp => parse_specified_lp
  | KColor => parse_color
  | KLineStyle => parse_line_style
  | KLineWidth => parse_line_width
  end.

(** macros.rs:277-296 for a [FourSides] shorthand *)
Definition sides_declarations (t l b r : longhand) (k : kind) (et : kind_of t = k) (el : kind_of l = k)
    (eb : kind_of b = k) (er : kind_of r = k) (v : four_sides (specified_kind k)) : list declaration :=
  [Declares t (eq_rect_r specified_kind (s_top v) et); Declares l (eq_rect_r specified_kind (s_left v) el);
   Declares b (eq_rect_r specified_kind (s_bottom v) eb); Declares r (eq_rect_r specified_kind (s_right v) er)].
(** macros.rs:277-296 *)
Definition parse_shorthand (s : shorthand) : parser (list declaration) := fun ts =>
  match s with
  | margin =>
      match parse_four_sides (parse_kind KLpa) ts with
      | Some (v, r) =>
          Some (sides_declarations margin_top margin_left margin_bottom margin_right KLpa eq_refl eq_refl eq_refl eq_refl v, r)
      | None => None
      end
  | padding =>
      match parse_four_sides (parse_kind KLp) ts with
      | Some (v, r) =>
          Some (sides_declarations padding_top padding_left padding_bottom padding_right KLp eq_refl eq_refl eq_refl eq_refl v, r)
      | None => None
      end
  | border_style =>
      match parse_four_sides (parse_kind KLineStyle) ts with
      | Some (v, r) =>
          Some (sides_declarations border_top_style border_left_style border_bottom_style border_right_style KLineStyle
            eq_refl eq_refl eq_refl eq_refl v, r)
      | None => None
      end
  | border_color =>
      match parse_four_sides (parse_kind KColor) ts with
      | Some (v, r) =>
          Some (sides_declarations border_top_color border_left_color border_bottom_color border_right_color KColor
            eq_refl eq_refl eq_refl eq_refl v, r)
      | None => None
      end
  | border_width =>
      match parse_four_sides (parse_kind KLineWidth) ts with
      | Some (v, r) =>
          Some (sides_declarations border_top_width border_left_width border_bottom_width border_right_width KLineWidth
            eq_refl eq_refl eq_refl eq_refl v, r)
      | None => None
      end
  | border_top =>
      match parse_border_side parse_color ts with
      | Some (v, r) =>
          Some ([or_initial border_top_style (b_style v); or_initial border_top_color (b_color v);
                 or_initial border_top_width (b_width v)], r)
      | None => None
      end
  | background =>
      match parse_background parse_color ts with
      | Some (v, r) => Some ([or_initial background_color v], r)
      | None => None
      end
  end.

(** [PropertyData::parse], macros.rs:258-296: the declarations it pushes, and the phases *)
Definition phases_of (l : list longhand) : per_phase :=
  mkPerPhase (existsb is_early l) (existsb (fun p => negb (is_early p)) l).
(** macros.rs:258-296 *)
Definition property_parse (d : property) : parser (list declaration * per_phase) := fun ts =>
  match d with
  | Longhand p =>
      match parse_kind (kind_of p) ts with
      | Some (v, r) => Some (([Declares p v], mkPerPhase (is_early p) (negb (is_early p))), r)
      | None => None
      end
  | Shorthand s =>
      match parse_shorthand s ts with
      | Some (ds, r) => Some ((ds, phases_of (shorthand_longhands s)), r)
      | None => None
      end
  end.
End Parse.
