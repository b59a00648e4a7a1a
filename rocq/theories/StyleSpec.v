(** What CSS says about the cascade, defaulting, shorthands and values; stated apart from the model's
    functions. *)
From Coq Require Import QArith Sorting.Permutation Sorting.Sorted.
From Verif Require Import Base Dom Arith32 StyleValues StyleProperties StyleCascade.
Local Open Scope nat_scope.

(** ** Sorting *)
(** [out] has the elements of [l], in an order in which keys never decrease and elements of one
    key keep their order. *)
Definition stably_sorted {A} (key : A -> N) (l out : list A) : Prop :=
  Permutation l out /\
  StronglySorted (fun a b => (key a <= key b)%N) out /\
  forall k, filter (fun x => (key x =? k)%N) out = filter (fun x => (key x =? k)%N) l.

(** ** The cascade *)
(** css-cascade-4 §6: a declaration together with what decides its rank *)
Inductive origin := UserAgent | Author.
Record occurrence : Type := mkOcc {
  o_origin : origin;
  o_important : bool;
  o_attribute : bool;       (* from a style attribute *)
  o_specificity : N;
  o_rule : nat;             (* order of appearance: which rule … *)
  o_index : nat;            (* … and which declaration in it *)
  o_declaration : declaration }.
Definition target (d : declaration) : longhand := match d with Declares p _ => p | CssWide p _ => p end.
Definition rank (o : origin) (imp : bool) : nat :=
  match o, imp with UserAgent, false => 0 | Author, false => 1 | Author, true => 2 | UserAgent, true => 3 end.
Definition attr_rank (b : bool) : nat := if b then 1 else 0.
(** Lexicographic: origin and importance, style attribute, specificity, order of appearance *)
Definition loses_to (a b : occurrence) : Prop :=
  let ra := rank (o_origin a) (o_important a) in let rb := rank (o_origin b) (o_important b) in
  ra < rb \/ ra = rb /\
  (attr_rank (o_attribute a) < attr_rank (o_attribute b) \/ attr_rank (o_attribute a) = attr_rank (o_attribute b) /\
  ((o_specificity a < o_specificity b)%N \/ o_specificity a = o_specificity b /\
  (o_rule a < o_rule b \/ o_rule a = o_rule b /\ o_index a < o_index b))).

(** The declarations that apply to an element, given the rules of both origins in the order they
    were added, which selectors match, and the block of its style attribute *)
Section Occurs.
Variable selector : Type.
Variable specificity : selector -> N.
Variable matching : selector -> bool.
Inductive occurs (ua author : list (selector * declaration_block)) (attr : option declaration_block) : occurrence -> Prop :=
| occurs_ua : forall i s b k d imp,
    nth_error ua i = Some (s, b) -> matching s = true ->
    nth_error (declarations b) k = Some d -> nth_error (important b) k = Some imp ->
    occurs ua author attr (mkOcc UserAgent imp false (specificity s) i k d)
| occurs_author : forall i s b k d imp,
    nth_error author i = Some (s, b) -> matching s = true ->
    nth_error (declarations b) k = Some d -> nth_error (important b) k = Some imp ->
    occurs ua author attr (mkOcc Author imp false (specificity s) i k d)
| occurs_attribute : forall b k d imp,
    attr = Some b ->
    nth_error (declarations b) k = Some d -> nth_error (important b) k = Some imp ->
    occurs ua author attr (mkOcc Author imp true 0 0 k d).
End Occurs.

(** [o] is the greatest of the occurrences that set the longhand it sets. *)
Definition wins (occ : occurrence -> Prop) (o : occurrence) : Prop :=
  occ o /\
  forall o', occ o' -> target (o_declaration o') = target (o_declaration o) -> o' = o \/ loses_to o' o.

(** ** Computed values *)
(** The initial values of the specifications, and the two inherited properties *)
Definition css_initial (p : longhand) : computed p :=
  match p with
  | font_size => 16%Q
  | color_ => mkRgba 0 0 0 255
  | position_ => Static
  | float_ => FloatNone
  | display_ => OutsideInside Inline Flow
  | margin_top | margin_left | margin_bottom | margin_right => LpaLength 0
  | padding_top | padding_left | padding_bottom | padding_right => LpLength 0
  | top_ | left_ | bottom_ | right_ | width | height => LpaAuto
  | border_top_color | border_left_color | border_bottom_color | border_right_color => CurrentColor
  | border_top_style | border_left_style | border_bottom_style | border_right_style => LineNone
  | border_top_width | border_left_width | border_bottom_width | border_right_width => LpLength 3
  | background_color => Rgba (mkRgba 0 0 0 0)
  end.
Definition css_inherited (p : longhand) : Prop := p = font_size \/ p = color_.
(** What an element inherits from: its parent, or the initial values *)
Definition inherits_from (parent : option computed_values) (p : longhand) : computed p :=
  match parent with Some c => get c p | None => css_initial p end.
(** The value of a property no declaration sets *)
Definition css_default (parent : option computed_values) (p : longhand) (v : computed p) : Prop :=
  (css_inherited p -> v = inherits_from parent p) /\ (~ css_inherited p -> v = css_initial p).

(** [em] is the font size an [em] stands for; products are those of binary32 (C78_operations,
    C78_infinity and C78_nan say what they are). *)
Inductive css_length (em : Q) : specified_length -> Q -> Prop :=
| cl_px : forall q, css_length em (SAbsolute q) q
| cl_em : forall k, css_length em (SEm k) (a_mul f32 em k).
Definition css_computed (k : kind) (em : Q) (inherited_color : rgba) : specified_kind k -> computed_kind k -> Prop :=
  match k with
  | KFontSize => css_length em
  | KRgba => fun s v => match s with Rgba c => v = c | CurrentColor => v = inherited_color end
  | KPosition => eq
  | KFloat => eq
  | KDisplay => eq
  | KLpa => fun s v =>
      match s with
      | SALength l => exists q, css_length em l q /\ v = LpaLength q
      | SAPercentage p => v = LpaPercentage p
      | SAAuto => v = LpaAuto
      end
  | KLp => fun s v =>
      match s with SLength l => exists q, css_length em l q /\ v = LpLength q | SPercentage p => v = LpPercentage p end
  | KColor => eq
  | KLineStyle => eq
  | KLineWidth => fun s v =>
      match s with SLength l => exists q, css_length em l q /\ v = LpLength q | SPercentage p => v = LpPercentage p end
  end.
(** The cascaded value that a winning declaration gives on an element with font size [own]:
    an [em] is the parent's font size in 'font-size' and the element's own elsewhere. *)
Definition gives (parent : option computed_values) (own : Q) (d : declaration) : computed (target d) -> Prop :=
  match d with
  | Declares p s =>
      css_computed (kind_of p) (if longhand_eq_dec p font_size then inherits_from parent font_size else own)
        (inherits_from parent color_) s
  | CssWide p Inherit => fun v => v = inherits_from parent p
  | CssWide p Initial => fun v => v = css_initial p
  | CssWide p Unset => css_default parent p
  end.

(** From cascaded to computed: the width of a side without border is zero; the display of a
    floating or absolutely positioned box becomes block-level; the value before that is kept. *)
Definition block_level (d : display) : display :=
  match d with OutsideInside _ i => OutsideInside Block i | DisplayNone => DisplayNone | Contents => Contents end.
Definition out_of_flow (c : computed_values) : Prop :=
  get c position_ = Absolute \/ get c float_ = FloatLeft \/ get c float_ = FloatRight.
Definition side_width (s : line_style) (v final : lp) : Prop :=
  (s = LineNone -> final = LpLength 0) /\ (s <> LineNone -> final = v).
Definition adjusted (c : computed_values) (p : longhand) : computed p -> Prop :=
  match p with
  | display_ => fun v =>
      specified_display c = v /\
      (out_of_flow c -> get c display_ = block_level v) /\ (~ out_of_flow c -> get c display_ = v)
  | border_top_width => fun v => side_width (get c border_top_style) v (get c border_top_width)
  | border_left_width => fun v => side_width (get c border_left_style) v (get c border_left_width)
  | border_bottom_width => fun v => side_width (get c border_bottom_style) v (get c border_bottom_width)
  | border_right_width => fun v => side_width (get c border_right_style) v (get c border_right_width)
  | p => fun v => get c p = v
  end.

(** The style of an element, all together *)
Definition css_style (occ : occurrence -> Prop) (parent : option computed_values) (c : computed_values) : Prop :=
  forall p,
    (exists o v, target (o_declaration o) = p /\ wins occ o /\ gives parent (get c font_size) (o_declaration o) v /\
       adjusted c (target (o_declaration o)) v) \/
    ((forall o, occ o -> target (o_declaration o) <> p) /\ exists v, css_default parent p v /\ adjusted c p v).

(** The block of the style attribute, if the element has one that counts *)
Definition counts (ns : bytes) : Prop :=
  ns = bs "http://www.w3.org/1999/xhtml" \/ ns = bs "http://www.w3.org/2000/svg" \/
  ns = bs "http://www.w3.org/1998/Math/MathML".

(** ** Declaration blocks *)
(** For every declaration of either importance the block's summary says that there is one of its
    phase; each declaration has an importance. *)
Definition summary_complete (b : declaration_block) : Prop :=
  List.length (declarations b) = List.length (important b) /\
  forall k d imp, nth_error (declarations b) k = Some d -> nth_error (important b) k = Some imp ->
    let any := if imp then any_important b else any_normal b in
    (target d = font_size -> early any = true) /\ (target d <> font_size -> late any = true).

(** A name for each longhand in CSS *)
Definition css_name (p : longhand) : bytes :=
  match p with
  | font_size => bs "font-size" | color_ => bs "color"
  | position_ => bs "position" | float_ => bs "float" | display_ => bs "display"
  | top_ => bs "top" | left_ => bs "left" | bottom_ => bs "bottom" | right_ => bs "right"
  | width => bs "width" | height => bs "height"
  | margin_top => bs "margin-top" | margin_left => bs "margin-left"
  | margin_bottom => bs "margin-bottom" | margin_right => bs "margin-right"
  | padding_top => bs "padding-top" | padding_left => bs "padding-left"
  | padding_bottom => bs "padding-bottom" | padding_right => bs "padding-right"
  | border_top_color => bs "border-top-color" | border_left_color => bs "border-left-color"
  | border_bottom_color => bs "border-bottom-color" | border_right_color => bs "border-right-color"
  | border_top_style => bs "border-top-style" | border_left_style => bs "border-left-style"
  | border_bottom_style => bs "border-bottom-style" | border_right_style => bs "border-right-style"
  | border_top_width => bs "border-top-width" | border_left_width => bs "border-left-width"
  | border_bottom_width => bs "border-bottom-width" | border_right_width => bs "border-right-width"
  | background_color => bs "background-color"
  end.
Definition css_shorthand_name (s : shorthand) : bytes :=
  match s with
  | margin => bs "margin" | padding => bs "padding" | border_style => bs "border-style" | border_color => bs "border-color"
  | border_width => bs "border-width" | border_top => bs "border-top" | background => bs "background"
  end.
Definition css_property_name (x : property) : bytes :=
  match x with Longhand p => css_name p | Shorthand s => css_shorthand_name s end.

(** What follows a value: nothing, or [!important] in any case *)
Inductive important_suffix : list token -> bool -> Prop :=
| suffix_none : important_suffix [] false
| suffix_important : forall i, map lower i = bs "important" -> important_suffix [TDelim 33; TIdent i] true.
(** How a value starts: one of the three keywords that every property takes … *)
Inductive starts_value (pc : parser color) (x : property) : list token -> list declaration -> list token -> Prop :=
| starts_inherit : forall r, starts_value pc x (TIdent (bs "inherit") :: r) (map (fun p => CssWide p Inherit) (longhands x)) r
| starts_initial : forall r, starts_value pc x (TIdent (bs "initial") :: r) (map (fun p => CssWide p Initial) (longhands x)) r
| starts_unset : forall r, starts_value pc x (TIdent (bs "unset") :: r) (map (fun p => CssWide p Unset) (longhands x)) r
(** … or a value of the property *)
| starts_own : forall ts ds phases r,
    (forall k i, In k ["inherit"; "initial"; "unset"]%string -> ts <> TIdent (bs k) :: i) ->
    property_parse pc x ts = Some (ds, phases, r) -> starts_value pc x ts ds r.
(** A declaration that counts: the name of a property, a value, an optional importance. *)
Inductive declared (pc : parser color) : item -> list declaration -> bool -> Prop :=
| declared_item : forall name ts x ds r imp, property_data_by_name name = Some x ->
    starts_value pc x ts ds r -> important_suffix r imp -> declared pc (Item name ts) ds imp.
(** One to be dropped because of its name or because no value starts there *)
Inductive ignored (pc : parser color) : item -> Prop :=
| ignored_bad : ignored pc BadItem
| ignored_name : forall name ts, property_data_by_name name = None -> ignored pc (Item name ts)
| ignored_value : forall name ts x, property_data_by_name name = Some x -> (forall ds r, ~ starts_value pc x ts ds r) ->
    ignored pc (Item name ts).
(** One to be dropped because something follows the value *)
Inductive trailing (pc : parser color) : item -> Prop :=
| trailing_item : forall name ts x ds r, property_data_by_name name = Some x -> starts_value pc x ts ds r ->
    (forall imp, ~ important_suffix r imp) -> trailing pc (Item name ts).
(** The declarations of a list, ignoring those to be ignored *)
Inductive block_means (pc : parser color) : list item -> list (declaration * bool) -> Prop :=
| bm_nil : block_means pc [] []
| bm_declared : forall i l ds imp out, declared pc i ds imp -> block_means pc l out ->
    block_means pc (i :: l) (map (fun d => (d, imp)) ds ++ out)
| bm_ignored : forall i l out, ignored pc i -> block_means pc l out -> block_means pc (i :: l) out.

(** ** Four sides *)
(** CSS 2 §8.3: one to four values *)
Inductive css_sides {T} : list T -> four_sides T -> Prop :=
| sides_1 : forall a, css_sides [a] {| s_top := a; s_right := a; s_bottom := a; s_left := a |}
| sides_2 : forall a b, css_sides [a; b] {| s_top := a; s_right := b; s_bottom := a; s_left := b |}
| sides_3 : forall a b c, css_sides [a; b; c] {| s_top := a; s_right := b; s_bottom := c; s_left := b |}
| sides_4 : forall a b c d, css_sides [a; b; c; d] {| s_top := a; s_right := b; s_bottom := c; s_left := d |}.
(** The tokens are these values and then something that is not a value. *)
Inductive reads {T} (parse : parser T) : list token -> list T -> list token -> Prop :=
| reads_end : forall ts, parse ts = None -> reads parse ts [] ts
| reads_one : forall ts v ts' vs rest, parse ts = Some (v, ts') -> reads parse ts' vs rest -> reads parse ts (v :: vs) rest.

(** ** The grammar of values *)
(** CSS keywords are ASCII case-insensitive, and so are units. *)
Definition ident_is (t : token) (k : string) : Prop := exists i, t = TIdent i /\ map lower i = bs k.
Inductive length_token : token -> specified_length -> Prop :=
| lt_px : forall v u, map lower u = bs "px" -> length_token (TDimension v u) (SAbsolute v)
| lt_em : forall v u, map lower u = bs "em" -> length_token (TDimension v u) (SEm v)
| lt_zero : forall v, (v == 0)%Q -> length_token (TNumber v) (SAbsolute 0).
Definition token_number (t : token) : Q :=
  match t with TDimension v _ => v | TNumber v => v | TPercentage v => v | _ => 0 end.
(** Properties that take negative lengths and percentages *)
Definition may_be_negative (p : longhand) : Prop :=
  match p with
  | top_ | left_ | bottom_ | right_ | margin_top | margin_left | margin_bottom | margin_right => True
  | _ => False
  end.
Definition in_range (p : longhand) (t : token) : Prop := may_be_negative p \/ (0 <= token_number t)%Q.
(** The values of the properties as far as victor knows them (colours apart), per CSS 2 and
    css-backgrounds: one token each *)
Definition css_value (p : longhand) (t : token) : specified p -> Prop :=
  match kind_of p as k return specified_kind k -> Prop with
  | KFontSize => fun v => length_token t v /\ in_range p t
  | KRgba => fun _ => False
  | KPosition => fun v =>
      ident_is t "static" /\ v = Static \/ ident_is t "relative" /\ v = Relative \/ ident_is t "absolute" /\ v = Absolute
  | KFloat => fun v =>
      ident_is t "none" /\ v = FloatNone \/ ident_is t "left" /\ v = FloatLeft \/ ident_is t "right" /\ v = FloatRight
  | KDisplay => fun v =>
      ident_is t "none" /\ v = DisplayNone \/ ident_is t "contents" /\ v = Contents \/
      ident_is t "block" /\ v = OutsideInside Block Flow \/ ident_is t "flow-root" /\ v = OutsideInside Block FlowRoot \/
      ident_is t "inline" /\ v = OutsideInside Inline Flow
  | KLpa => fun v =>
      (exists l, length_token t l /\ in_range p t /\ v = SALength l) \/
      (exists q, t = TPercentage q /\ in_range p t /\ v = SAPercentage q) \/ ident_is t "auto" /\ v = SAAuto
  | KLp => fun v =>
      (exists l, length_token t l /\ in_range p t /\ v = SLength l) \/
      (exists q, t = TPercentage q /\ in_range p t /\ v = SPercentage q)
  | KColor => fun _ => False
  | KLineStyle => fun v => ident_is t "none" /\ v = LineNone \/ ident_is t "solid" /\ v = LineSolid
  | KLineWidth => fun v =>
      (exists l, length_token t l /\ in_range p t /\ v = SLength l) \/
      ident_is t "thin" /\ v = SLength (SAbsolute 1) \/ ident_is t "medium" /\ v = SLength (SAbsolute 3) \/
      ident_is t "thick" /\ v = SLength (SAbsolute 5)
  end.
Definition not_a_color (p : longhand) : Prop := kind_of p <> KRgba /\ kind_of p <> KColor.
Definition border_width_side (p : longhand) : Prop := kind_of p = KLineWidth.
(** Written in lower case *)
Definition lower_case (t : token) : Prop := match t with TIdent i => map lower i = i | _ => True end.
