(** Specification for C68: the layout of enums of which the type of the discriminant is given, as in the Rust
    reference ("Primitive representation of enums with fields", "The C representation"), and what a match does. *)
From Coq Require Import QArith.
From Verif Require Import Base StyleValues StyleProperties TaggedUnion.
Local Close Scope Q_scope.
Local Open Scope nat_scope.

(** Alignments are powers of two, and sizes multiples of them *)
Definition wf_ty (t : ty) : Prop := (exists k, ty_align t = 2 ^ k) /\ Nat.divide (ty_align t) (ty_size t).
Definition wf_int (i : int_type) : Prop := In (int_size i) [1; 2; 4; 8].

(** The fields that come after [start] bytes are at these offsets: each at the first multiple of its alignment *)
Inductive laid_out : nat -> list ty -> list nat -> Prop :=
| laid_none : forall start, laid_out start [] []
| laid_field : forall start t fields o offsets,
    start <= o -> Nat.divide (ty_align t) o ->
    (forall o', start <= o' -> Nat.divide (ty_align t) o' -> o <= o') ->
    laid_out (o + ty_size t) fields offsets ->
    laid_out start (t :: fields) (o :: offsets).

(** An enum is as large and as aligned as needed by each variant, which is a struct of the tag and the fields *)
Definition aligned_for (tag : int_type) (variants : list (bytes * list ty)) (n : nat) : Prop :=
  Nat.divide (int_size tag) n /\ forall v t, In v variants -> In t (snd v) -> Nat.divide (ty_align t) n.
Definition room_for (tag : int_type) (variants : list (bytes * list ty)) (size : nat) : Prop :=
  aligned_for tag variants size /\ int_size tag <= size /\
  forall v offsets t o, In v variants -> laid_out (int_size tag) (snd v) offsets -> In (t, o) (combine (snd v) offsets) ->
    o + ty_size t <= size.

(** The discriminant [n] is stored at [a] *)
Definition tag_at (big_endian : bool) (m : memory) (a : nat) (tag : int_type) (n : N) : Prop :=
  forall k, k < int_size tag ->
    m (a + (if big_endian then int_size tag - 1 - k else k)) = Some ((n / 256 ^ N.of_nat k) mod 256)%N.
(** The discriminants, which are 0, 1, 2…, are numbers of the type: rustc checks it *)
Definition discriminants_fit (tag : int_type) (count : nat) : Prop :=
  (N.of_nat count <= 2 ^ (8 * N.of_nat (int_size tag) - (if int_signed tag then 1 else 0)))%N.

Section Match.
Context {Args Result : Type}.
(** A pattern of an arm is for this variant *)
Definition matches (name variant : bytes) (a : arm Args Result) : Prop := arm_enum a = name /\ arm_variant a = variant.
(** What [match] does: the first arm of which the pattern matches *)
Definition first_match (name variant : bytes) (arms : list (arm Args Result)) (a : arm Args Result) : Prop :=
  exists before after, arms = before ++ a :: after /\ matches name variant a /\
    forall b, In b before -> ~ matches name variant b.
(** What rustc would accept: patterns of variants of the enum, with the right number of fields, and an arm for each
    of the variants *)
Definition exhaustive (name : bytes) (variants : list (bytes * list ty)) (arms : list (arm Args Result)) : Prop :=
  (forall a, In a arms -> exists fields, In (arm_variant a, fields) variants /\ arm_enum a = name /\
    arm_fields a = length fields) /\
  (forall v, In v variants -> exists a, In a arms /\ matches name (fst v) a).
End Match.

(** A declaration is stored at [a] *)
Section Declarations.
Variable big_endian : bool.
Variable value_ty : kind -> ty.
Variable value_at : forall k, list (option N) -> option (specified_kind k).
Variable keyword_ty : ty.
Variable keyword_at : list (option N) -> option css_wide_keyword.
Definition bytes_at (m : memory) (a size : nat) (l : list (option N)) : Prop :=
  length l = size /\ forall k, k < size -> nth_error l k = Some (m (a + k)).
(** definitions.rs:8-60: the numbers of the longhands, in their order *)
Definition number (p : longhand) : N :=
  match p with
  | font_size => 0 | color_ => 1 | position_ => 2 | float_ => 3 | display_ => 4 | top_ => 5 | left_ => 6
  | bottom_ => 7 | right_ => 8 | width => 9 | height => 10 | margin_top => 11 | margin_left => 12
  | margin_bottom => 13 | margin_right => 14 | padding_top => 15 | padding_left => 16 | padding_bottom => 17
  | padding_right => 18 | border_top_color => 19 | border_left_color => 20 | border_bottom_color => 21
  | border_right_color => 22 | border_top_style => 23 | border_left_style => 24 | border_bottom_style => 25
  | border_right_style => 26 | border_top_width => 27 | border_left_width => 28 | border_bottom_width => 29
  | border_right_width => 30 | background_color => 31
  end%N.
Definition longhand_at (m : memory) (a : nat) (p : longhand) : Prop := m a = Some (number p).
Definition declaration_at (m : memory) (a : nat) (d : declaration) : Prop :=
  match d with
  | Declares p v =>
      longhand_at m a p /\
      exists o l, laid_out 1 [value_ty (kind_of p)] [o] /\
        bytes_at m (a + o) (ty_size (value_ty (kind_of p))) l /\ value_at (kind_of p) l = Some v
  | CssWide p k =>
      m a = Some 32%N /\ longhand_at m (a + 1) p /\
      exists o l, laid_out 2 [keyword_ty] [o] /\ bytes_at m (a + o) (ty_size keyword_ty) l /\ keyword_at l = Some k
  end.
End Declarations.
