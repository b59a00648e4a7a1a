(** Model of victor/src/style/values/*.rs and of the derives in proc-macros/src/style.rs.
    The component values of a declaration are the tokens cssparser yields from [Parser::next],
    which skips white space and comments.  [f32] is a rational [Q], infinities and NaN those of
    Arith32.v; multiples of the font size are rounded as the code does (fonts.rs:16-23 and
    length.rs:85-92 with 161-169).  [cssparser::Color::parse] belongs to cssparser and is the section
    variable [parse_color]. *)
From Coq Require Import QArith.
From Verif Require Import Base Dom Arith32.
Local Open Scope Q_scope.

(** cssparser's [Token], white space and comments left out; kinds the code does not look at are [TOther].  length.rs:59-79 matches on it. *)
Inductive token :=
| TIdent (name : bytes)
| TDimension (value : Q) (unit : bytes)
| TNumber (value : Q)
| TPercentage (unit_value : Q)
| TDelim (c : N)
| TOther (n : N).

(** A parsing function: the value and the tokens left, or an error.  [parser.try] goes back to
    where it was on error: here the caller simply keeps its list.  length.rs:59-79 *)
Definition parser (A : Type) : Type := list token -> option (A * list token).

(** [match_ignore_ascii_case!] on a unit, cssparser: length.rs:59-79 *)
Definition same_ascii (a b : bytes) : bool := eq_ignore_ascii_case a b.

(** [cssparser::parse_important]: a '!' and the identifier [important] in any case: declaration_block.rs:79-117 *)
Definition parse_important (ts : list token) : option (list token) :=
  match ts with
  | TDelim c :: TIdent i :: r => if (c =? 33)%N && same_ascii i (bs "important") then Some r else None
  | _ => None
  end.

(** length.rs:7-11; [Length::zero] is [0].  The unit is px. *)
Notation length_px := Q (only parsing).
(** length.rs:20-25 *)
Inductive specified_length := SAbsolute (px : Q) | SEm (value : Q).
(** length.rs:27-31; [SpecifiedLineWidth] (border.rs:20-21) wraps the same *)
Inductive specified_lp := SLength (l : specified_length) | SPercentage (p : Q).
(** length.rs:33-37; [LineWidth] (border.rs:23-24) wraps the same *)
Inductive lp := LpLength (px : Q) | LpPercentage (p : Q).
(** length.rs:39-44 *)
Inductive specified_lpa := SALength (l : specified_length) | SAPercentage (p : Q) | SAAuto.
(** length.rs:46-51 *)
Inductive lpa := LpaLength (px : Q) | LpaPercentage (p : Q) | LpaAuto.
(** length.rs:53-57 *)
Inductive length_or_auto := Length (px : Q) | Auto.

(** cssparser's [RGBA] and [Color]: color.rs:27-44 *)
Record rgba : Type := mkRgba { red : N; green : N; blue : N; alpha : N }.
(** [cssparser::Color]: color.rs:27-37 *)
Inductive color := Rgba (c : rgba) | CurrentColor.
(** color.rs:39-44; [RGBA::transparent] *)
Definition BLACK : rgba := mkRgba 0 0 0 255.
(** [RGBA::transparent()]: definitions.rs:60 *)
Definition transparent : rgba := mkRgba 0 0 0 0.

(** border.rs:5-10 *)
Inductive line_style := LineNone | LineSolid.
(** box_.rs:6-42 *)
Inductive display_outside := Inline | Block.
(** box_.rs:37-42 *)
Inductive display_inside := Flow | FlowRoot.
(** box_.rs:6-28 *)
Inductive display := DisplayNone | Contents | OutsideInside (outside : display_outside) (inside : display_inside).
(** box_.rs:110-116 *)
Inductive float := FloatNone | FloatLeft | FloatRight.
(** box_.rs:127-133 *)
Inductive position := Static | Relative | Absolute.
(** values/mod.rs:47-52 *)
Inductive css_wide_keyword := Inherit | Initial | Unset.

(** box_.rs:45-48 *)
Definition display_initial : display := OutsideInside Inline Flow.
(** box_.rs:50-64 *)
Definition blockify (d : display) : display :=
  match d with OutsideInside _ inside => OutsideInside Block inside | other => other end.
(** box_.rs:118-125 *)
Definition is_floating (f : float) : bool := match f with FloatNone => false | FloatLeft | FloatRight => true end.
(** box_.rs:136-142 *)
Definition is_relatively_positioned (p : position) : bool := match p with Relative => true | _ => false end.
(** box_.rs:140-142 *)
Definition is_absolutely_positioned (p : position) : bool := match p with Absolute => true | _ => false end.
(** border.rs:27-28 *)
Definition MEDIUM : lp := LpLength 3.
(** border.rs:30-34 *)
Definition line_width_fixup (w : lp) (s : line_style) : lp := match s with LineNone => LpLength 0 | _ => w end.

(** ** Parsing *)
(** proc-macros style.rs:158-171 *)
Definition keyword := bytes.
(** [derive(Parse)] on the unit variants of an enum, proc-macros style.rs:158-171: the keyword is
    compared exactly, not ignoring case.  The keywords are the kebab-case variant names. *)
Fixpoint lookup_keyword {A} (table : list (keyword * A)) (i : bytes) : option A :=
  match table with
  | [] => None
  | (k, v) :: r => if bytes_eqb i k then Some v else lookup_keyword r i
  end.
(** proc-macros style.rs:158-171 *)
Definition parse_keyword {A} (table : list (keyword * A)) : parser A := fun ts =>
  match ts with
  | TIdent i :: r => match lookup_keyword table i with Some v => Some (v, r) | None => None end
  | _ => None
  end.

(** length.rs:59-79 *)
Definition parse_specified_length : parser specified_length := fun ts =>
  match ts with
  | TDimension v unit :: r =>
      if same_ascii unit (bs "px") then Some (SAbsolute v, r)
      else if same_ascii unit (bs "em") then Some (SEm v, r)
      else None
  | TNumber v :: r => if Qeq_bool v 0 then Some (SAbsolute 0, r) else None
  | _ => None
  end.
(** length.rs:94-100 *)
Definition parse_percentage : parser Q := fun ts =>
  match ts with TPercentage u :: r => Some (u, r) | _ => None end.
(** length.rs:27-31, derived: style.rs:151-157 *)
Definition parse_specified_lp : parser specified_lp := fun ts =>
  match parse_specified_length ts with
  | Some (l, r) => Some (SLength l, r)
  | None => match parse_percentage ts with Some (p, r) => Some (SPercentage p, r) | None => None end
  end.
(** length.rs:39-44, derived: style.rs:151-171 *)
Definition parse_specified_lpa : parser specified_lpa := fun ts =>
  match parse_specified_length ts with
  | Some (l, r) => Some (SALength l, r)
  | None =>
      match parse_percentage ts with
      | Some (p, r) => Some (SAPercentage p, r)
      | None => parse_keyword [(bs "auto", SAAuto)] ts
      end
  end.
(** border.rs:5-10, derived *)
Definition parse_line_style : parser line_style := parse_keyword [(bs "none", LineNone); (bs "solid", LineSolid)].
(** border.rs:12-18 and 37-49 *)
Definition parse_line_width : parser specified_lp := fun ts =>
  match parse_specified_lp ts with
  | Some (v, r) => Some (v, r)
  | None =>
      match parse_keyword [(bs "thin", 1); (bs "medium", 3); (bs "thick", 5)] ts with
      | Some (px, r) => Some (SLength (SAbsolute px), r)
      | None => None
      end
  end.
(** box_.rs:78-108 *)
Definition parse_display : parser display :=
  parse_keyword
    [(bs "none", DisplayNone); (bs "contents", Contents); (bs "block", OutsideInside Block Flow);
     (bs "flow-root", OutsideInside Block FlowRoot); (bs "inline", OutsideInside Inline Flow)].
(** box_.rs:110-116, derived *)
Definition parse_float : parser float :=
  parse_keyword [(bs "none", FloatNone); (bs "left", FloatLeft); (bs "right", FloatRight)].
(** box_.rs:127-133, derived *)
Definition parse_position : parser position :=
  parse_keyword [(bs "static", Static); (bs "relative", Relative); (bs "absolute", Absolute)].
(** values/mod.rs:47-52, derived *)
Definition parse_css_wide : parser css_wide_keyword :=
  parse_keyword [(bs "inherit", Inherit); (bs "initial", Initial); (bs "unset", Unset)].

(** generic.rs:5-10 *)
Record four_sides (T : Type) : Type := mkSides { s_top : T; s_left : T; s_bottom : T; s_right : T }.
Arguments mkSides {T}. Arguments s_top {T}. Arguments s_left {T}. Arguments s_bottom {T}. Arguments s_right {T}.
(** generic.rs:12-59 *)
Definition parse_four_sides {T} (parse : parser T) : parser (four_sides T) := fun ts =>
  match parse ts with
  | None => None
  | Some (t, ts) =>
      match parse ts with
      | None => Some (mkSides t t t t, ts)
      | Some (l, ts) =>
          match parse ts with
          | None => Some (mkSides t l t l, ts)
          | Some (b, ts) =>
              match parse ts with
              | None => Some (mkSides t l b l, ts)
              | Some (r, ts) => Some (mkSides t l b r, ts)
              end
          end
      end
  end.

(** border.rs:87-92 *)
Record border_side : Type := mkBorderSide {
  b_style : option line_style; b_color : option color; b_width : option specified_lp }.

Section Colors.
Variable parse_color : parser color.

(** border.rs:51-85: one turn of the loop.  The fields are tried in the order style, color, width. *)
Definition border_side_step (v : border_side) (ts : list token) : option (border_side * list token) :=
  match b_style v, parse_line_style ts with
  | None, Some (s, r) => Some (mkBorderSide (Some s) (b_color v) (b_width v), r)
  | _, _ =>
      match b_color v, parse_color ts with
      | None, Some (c, r) => Some (mkBorderSide (b_style v) (Some c) (b_width v), r)
      | _, _ =>
          match b_width v, parse_line_width ts with
          | None, Some (w, r) => Some (mkBorderSide (b_style v) (b_color v) (Some w), r)
          | _, _ => None
          end
      end
  end.
(** The loop; every turn but the last fills a field, so four turns are enough.: border.rs:51-85 *)
Fixpoint border_side_loop (fuel : nat) (v : border_side) (ts : list token) : border_side * list token :=
  match fuel with
  | O => (v, ts)
  | S fuel =>
      match border_side_step v ts with
      | Some (v, ts) => border_side_loop fuel v ts
      | None => (v, ts)
      end
  end.
(** border.rs:51-85; [any] says whether a turn has filled a field. *)
Definition parse_border_side : parser border_side := fun ts =>
  let start := mkBorderSide None None None in
  match border_side_step start ts with
  | None => None
  | Some (v, ts) => Some (border_side_loop 4 v ts)
  end.

(** background.rs:4-14 *)
Definition parse_background : parser (option color) := fun ts =>
  match parse_color ts with Some (c, r) => Some (Some c, r) | None => None end.
End Colors.

(** ** Computing *)
(** length.rs:85-92, with the font size of the element *)
Definition length_from_specified (font_size : Q) (s : specified_length) : Q :=
  match s with SAbsolute px => px | SEm v => f32_mul font_size v end.
(** length.rs:33-37 and border.rs:23-24, derived: style.rs:31-113 *)
Definition lp_from_specified (font_size : Q) (s : specified_lp) : lp :=
  match s with SLength l => LpLength (length_from_specified font_size l) | SPercentage p => LpPercentage p end.
(** length.rs:46-51, derived *)
Definition lpa_from_specified (font_size : Q) (s : specified_lpa) : lpa :=
  match s with
  | SALength l => LpaLength (length_from_specified font_size l)
  | SAPercentage p => LpaPercentage p
  | SAAuto => LpaAuto
  end.
(** fonts.rs:16-23: relative to the inherited font size *)
Definition font_size_from_specified (inherited : Q) (s : specified_length) : Q :=
  match s with SAbsolute px => px | SEm v => f32_mul inherited v end.
(** color.rs:27-37: [currentcolor] in 'color' is the inherited colour *)
Definition rgba_from_specified (inherited : rgba) (c : color) : rgba :=
  match c with Rgba c => c | CurrentColor => inherited end.

(** length.rs:209-216 *)
Definition lp_relative_to (x : lp) (reference : Q) : Q :=
  match x with LpLength l => l | LpPercentage p => reference * p end.
(** length.rs:236-242 *)
Definition lpa_relative_to (x : lpa) (reference : Q) : length_or_auto :=
  match x with LpaLength l => Length l | LpaPercentage p => Length (reference * p) | LpaAuto => Auto end.
(** length.rs:246-251 *)
Definition auto_is (x : length_or_auto) (v : Q) : Q := match x with Length l => l | Auto => v end.
