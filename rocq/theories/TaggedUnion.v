(** Model of victor/src/tagged_union_with_jump_tables.rs: an enum of which the
    methods are matches, made jump tables by a macro. *)

From Coq Require Import QArith.
From Verif Require Import Base Dom StyleValues StyleProperties.
Local Close Scope Q_scope.
Local Open Scope nat_scope.

(** A type, as far as memory is concerned; for the macro's arguments
    [$variant_field_type] (lines 18-19) and [$discriminant_type] (line 12). *)
Record ty := Ty { ty_size : nat; ty_align : nat }.

(** Memory: at each address a byte, or nothing that was written; lines 78-81
    and 146-153 read it through raw pointers. *)
Definition memory := nat -> option N.
(** The bytes read at lines 80 and 153 *)
Definition load (m : memory) (address size : nat) : list (option N) := map m (seq address size).

(** Lines 147-151 and 73-77, [#[repr(C)] struct]: the compiler's algorithm
    (Rust reference, "The C Representation"): each field at the next address
    that is a multiple of its alignment. *)
Definition align_up (offset align : nat) : nat := offset + (align - offset mod align) mod align.
(** Lines 147-151: where the fields are *)
Fixpoint struct_offsets (offset : nat) (fields : list ty) : list nat :=
  match fields with
  | [] => []
  | t :: fields =>
      let o := align_up offset (ty_align t) in
      o :: struct_offsets (o + ty_size t) fields
  end.
(** Lines 147-151: where the last one ends *)
Fixpoint struct_end (offset : nat) (fields : list ty) : nat :=
  match fields with
  | [] => offset
  | t :: fields => struct_end (align_up offset (ty_align t) + ty_size t) fields
  end.
(** Lines 147-151: the largest alignment *)
Fixpoint struct_align (fields : list ty) : nat :=
  match fields with
  | [] => 1
  | t :: fields => Nat.max (ty_align t) (struct_align fields)
  end.
(** Lines 147-151: the size of all *)
Definition struct_size (fields : list ty) : nat := align_up (struct_end 0 fields) (struct_align fields).

(** Lines 12 and 169-176: the integer types of discriminants: a number of
    bytes and a sign. *)
Record int_type := IntType { int_size : nat; int_signed : bool }.
(** Lines 12 and 169-176: size and alignment *)
Definition int_ty (i : int_type) : ty := Ty (int_size i) (int_size i).

(** Line 81, [tag as usize]: from the bytes of the tag, in the order of the
    machine; of [i8] to [i64] with a sign, which is extended.  Simplification: [usize]
    has 64 bits. *)
Fixpoint from_le (bytes : list N) : N :=
  match bytes with
  | [] => 0
  | b :: bytes => b + 256 * from_le bytes
  end%N.
(** Line 80: all bytes of the tag were written *)
Fixpoint initialised (l : list (option N)) : option (list N) :=
  match l with
  | [] => Some []
  | Some b :: l => match initialised l with Some r => Some (b :: r) | None => None end
  | None :: _ => None
  end.
(** Line 81 *)
Definition tag_as_usize (big_endian : bool) (i : int_type) (l : list (option N)) : option N :=
  match initialised l with
  | None => None
  | Some bytes =>
      let n := from_le (if big_endian then rev bytes else bytes) in
      if int_signed i && (2 ^ (8 * N.of_nat (int_size i) - 1) <=? n)%N
      then Some (n + 2 ^ 64 - 2 ^ (8 * N.of_nat (int_size i)))%N
      else Some n
  end.

Section Macro.
(** The other arguments of a method and its result (lines 53-57). *)
Variable Args Result : Type.
Variable big_endian : bool.

(** Lines 58-65: an arm of a match: the names of the enum and of the variant,
    the number of fields, and the block.  A [ref] binding is an address; the
    memory is what the block can read there.  That the names bound are in
    scope in the block is left to the compiler. *)
Record arm := Arm {
  arm_enum : bytes;
  arm_variant : bytes;
  arm_fields : nat;
  arm_block : memory -> list nat -> Args -> Result
}.

(** Lines 140-155: a closure of the table. *)
Definition closure : Type := memory -> nat -> Args -> Result.
(** Lines 140-155 *)
Definition make_closure (tag : int_type) (fields : list ty) (block : memory -> list nat -> Args -> Result) : closure :=
  fun m self args =>
    block m (map (fun offset => self + offset) (tl (struct_offsets 0 (int_ty tag :: fields)))) args.

(** Lines 108-168, [@closures_table] with [@assert_idents_equal]: [None] is a
    compile-time error.  Its causes are a name that is not the expected one
    (lines 125-130), another number of fields than the struct has (line 153)
    and variants or arms that are left over (no rule matches). *)
Fixpoint closures_table (tag : int_type) (name : bytes) (variants : list (bytes * list ty)) (arms : list arm)
  (previous : list closure) : option (list closure) :=
  match variants, arms with
  | [], [] => Some previous
  | (variant, fields) :: variants, a :: arms =>
      if bytes_eqb name (arm_enum a) && bytes_eqb variant (arm_variant a)
         && (length fields =? arm_fields a)%nat
      then closures_table tag name variants arms (previous ++ [make_closure tag fields (arm_block a)])
      else None
  | _, _ => None
  end.

(** Lines 70-92: a method, on an enum at an address; [None]: it panics, or
    reads what was not written. *)
Definition call_method (tag : int_type) (table : list closure) (m : memory) (self : nat) (args : Args)
  : option Result :=
  match tag_as_usize big_endian tag (load m self (int_size tag)) with
  | None => None
  | Some n =>
      match nth_error table (N.to_nat n) with
      | Some f => Some (f m self args)
      | None => None
      end
  end.

(** The whole macro for one method (lines 11-100): [None] if it does not
    compile. *)
Definition method (tag : int_type) (name : bytes) (variants : list (bytes * list ty)) (arms : list arm)
  : option (memory -> nat -> Args -> option Result) :=
  match closures_table tag name variants arms [] with
  | Some table => Some (call_method tag table)
  | None => None
  end.
End Macro.
Arguments Arm {Args Result} arm_enum arm_variant arm_fields arm_block.
Arguments arm_enum {Args Result} a.
Arguments arm_variant {Args Result} a.
Arguments arm_fields {Args Result} a.
Arguments arm_block {Args Result} a.
Arguments closures_table {Args Result}.
Arguments call_method {Args Result}.
Arguments method {Args Result}.

(** * Its two uses, in victor/src/style/properties/macros.rs *)

(** definitions.rs:8-60: the identifiers of the longhands *)
Definition longhand_idents : list (bytes * longhand) :=
  [(bs "font_size", font_size);
   (bs "color", color_);
   (bs "position", position_); (bs "float", float_); (bs "display", display_);
   (bs "top", top_); (bs "left", left_); (bs "bottom", bottom_); (bs "right", right_);
   (bs "width", width); (bs "height", height);
   (bs "margin_top", margin_top); (bs "margin_left", margin_left);
   (bs "margin_bottom", margin_bottom); (bs "margin_right", margin_right);
   (bs "padding_top", padding_top); (bs "padding_left", padding_left);
   (bs "padding_bottom", padding_bottom); (bs "padding_right", padding_right);
   (bs "border_top_color", border_top_color); (bs "border_left_color", border_left_color);
   (bs "border_bottom_color", border_bottom_color); (bs "border_right_color", border_right_color);
   (bs "border_top_style", border_top_style); (bs "border_left_style", border_left_style);
   (bs "border_bottom_style", border_bottom_style); (bs "border_right_style", border_right_style);
   (bs "border_top_width", border_top_width); (bs "border_left_width", border_left_width);
   (bs "border_bottom_width", border_bottom_width); (bs "border_right_width", border_right_width);
   (bs "background_color", background_color)].
(** definitions.rs:5 *)
Definition DiscriminantType : int_type := IntType 1 false.

Section Uses.
Variable big_endian : bool.
(** Size, alignment and meaning of the bytes of the types of values; any. *)
Variable value_ty : kind -> ty.
Variable value_at : forall k, list (option N) -> option (specified_kind k).
Variable keyword_ty : ty.
Variable keyword_at : list (option N) -> option css_wide_keyword.

(** macros.rs:27-66: [LonghandId] and its method.  The arguments are [keyword],
    [computed] and [inherited]. *)
Definition LonghandId_variants : list (bytes * list ty) := map (fun x => (fst x, [])) longhand_idents.
(** macros.rs:43-64 *)
Definition LonghandId_arms : list (arm (css_wide_keyword * computed_values * computed_values) computed_values) :=
  map (fun x => Arm (bs "LonghandId") (fst x) 0
    (fun _ _ args => let '(k, c, inherited) := args in cascade_css_wide_keyword_into (snd x) k c inherited))
  longhand_idents.
(** macros.rs:37-65 *)
Definition LonghandId_cascade := method big_endian DiscriminantType (bs "LonghandId") LonghandId_variants LonghandId_arms.

(** macros.rs:73-82, [is_early] indexes an array with the discriminant.  The array is of the [@early] marks
    in definitions.rs *)
Definition early_array : list bool := map (fun x => match snd x with font_size => true | _ => false end) longhand_idents.
(** macros.rs:73-81 *)
Definition LonghandId_is_early (m : memory) (self : nat) : option bool :=
  match tag_as_usize big_endian DiscriminantType (load m self (int_size DiscriminantType)) with
  | None => None
  | Some n => nth_error early_array (N.to_nat n)
  end.

(** macros.rs:93-102: [LonghandDeclaration].  The size of [LonghandId] is that of its discriminant. *)
Definition LonghandDeclaration_variants : list (bytes * list ty) :=
  map (fun x => (fst x, [value_ty (kind_of (snd x))])) longhand_idents
  ++ [(bs "CssWide", [int_ty DiscriminantType; keyword_ty])].

(** macros.rs:121-129 and 151-159: the arm for [CssWide], with or without the negation; the arguments are those
    of the context, [inherited] and [this].  [None]: memory that is not a value *)
Definition css_wide_arm (early_phase : bool) : arm (computed_values * computed_values) (option computed_values) :=
  Arm (bs "LonghandDeclaration") (bs "CssWide") 2
    (fun m refs args =>
       let '(inherited, this) := args in
       match refs with
       | [longhand; keyword] =>
           match LonghandId_is_early m longhand with
           | None => None
           | Some e =>
               if Bool.eqb e early_phase then
                 match keyword_at (load m keyword (ty_size keyword_ty)), LonghandId_cascade with
                 | Some k, Some f => f m longhand (k, this, inherited)
                 | _, _ => None
                 end
               else Some this
           end
       | _ => None
       end).
(** macros.rs:109-119 and 139-149: the arm for a longhand *)
Definition value_arm (f : forall p, specified p -> computed_values -> computed_values -> computed_values) (x : bytes * longhand)
  : arm (computed_values * computed_values) (option computed_values) :=
  Arm (bs "LonghandDeclaration") (fst x) 1
    (fun m refs args =>
       let '(inherited, this) := args in
       match refs with
       | [value] =>
           match value_at (kind_of (snd x)) (load m value (ty_size (value_ty (kind_of (snd x))))) with
           | None => None
           | Some v => Some (f (snd x) v inherited this)
           end
       | _ => None
       end).
(** macros.rs:103-131: the block of a longhand is empty unless it is early *)
Definition if_early_method :=
  method big_endian DiscriminantType (bs "LonghandDeclaration") LonghandDeclaration_variants
    (map (value_arm (fun p => match p return specified p -> computed_values -> computed_values -> computed_values with
                              | font_size => fun v inherited this =>
                                  set font_size (font_size_from_specified (get inherited font_size) v) this
                              | _ => fun _ _ this => this
                              end)) longhand_idents
     ++ [css_wide_arm true]).
(** macros.rs:133-164: the block of a longhand is empty if it is early *)
Definition if_late_method :=
  method big_endian DiscriminantType (bs "LonghandDeclaration") LonghandDeclaration_variants
    (map (value_arm (fun p => match p return specified p -> computed_values -> computed_values -> computed_values with
                              | font_size => fun _ _ this => this
                              | p => fun v inherited this => set p (from_specified (kind_of p) inherited this v) this
                              end)) longhand_idents
     ++ [css_wide_arm false]).
End Uses.
