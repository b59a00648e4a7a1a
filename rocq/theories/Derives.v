(** Model of proc-macros/src/{generic,style,lib}.rs: the derive macros, what they write and what that does.
    A macro is a function from the declaration it is put on, as syn parses it, to the code it writes, or [None] if it
    panics, which is an error of compilation.  For types without parameters, as all those of /repo that have one of
    these derives: [derive_trait] (style.rs:207-230) then only writes the [impl] around the code.
    What the code written does is given by the [run_…] functions, and whether rustc accepts it by the [accepts_…]
    ones; the values of the fields are of any type. *)
From Coq Require Import QArith.
From Verif Require Import Base Dom StyleValues.
Local Close Scope Q_scope.
Local Open Scope N_scope.

(** ** Declarations: syn's [DeriveInput] *)
(** [syn::Ident]: style.rs:118 *)
Definition ident := bytes.
(** [syn::Type]: a path with its segments, or another type, as its tokens: lib.rs:52 *)
Inductive ty := TyPath (qself : bool) (segments : list ident) | TyOther (tokens : bytes).
(** [syn::Fields]: style.rs:127-137 *)
Inductive fields := Unit | Unnamed (l : list ty) | Named (l : list (ident * ty)).
(** [syn::Data]: style.rs:124-149 *)
Inductive data := Struct (f : fields) | Enum (variants : list (ident * fields)) | Union.
(** [syn::Attribute::interpret_meta]: [name = literal], or another one: lib.rs:23-25 *)
Inductive literal := Str (value : bytes) | OtherLiteral.
(** [syn::Attribute]: lib.rs:22-25 *)
Inductive attribute := NameValue (name : ident) (l : literal) | OtherAttribute.
(** [syn::DeriveInput]: style.rs:117, generic.rs:3, lib.rs:18 *)
Record derive_input := Input { di_attrs : list attribute; di_name : ident; di_data : data }.

(** Equality of lists, for [syn::Type] as in generic.rs:14-20 *)
Fixpoint list_eqb {A} (eqb : A -> A -> bool) (a b : list A) : bool :=
  match a, b with
  | [], [] => true
  | x :: a, y :: b => eqb x y && list_eqb eqb a b
  | _, _ => false
  end.
(** Equality of types as rustc sees them in the [impl]s of generic.rs:14-20 *)
Definition ty_eqb (a b : ty) : bool :=
  match a, b with
  | TyPath q s, TyPath q' s' => Bool.eqb q q' && list_eqb bytes_eqb s s'
  | TyOther t, TyOther t' => bytes_eqb t t'
  | _, _ => false
  end.
(** A name of a struct, or of a variant of an enum: style.rs:130, 135 and 145 *)
Inductive path := Path (type : ident) (variant : option ident).
(** The field or variant of a name (style.rs:124-149) *)
Fixpoint assoc {A} (l : list (ident * A)) (n : ident) : option A :=
  match l with [] => None | (m, a) :: r => if bytes_eqb m n then Some a else assoc r n end.
(** What rustc knows about a path: the fields declared  in the declaration given to style.rs:116 *)
Definition fields_of (d : derive_input) (p : path) : option fields :=
  let 'Path t v := p in
  if bytes_eqb (di_name d) t then
    match di_data d, v with
    | Struct f, None => Some f
    | Enum variants, Some v => assoc variants v
    | _, _ => None
    end
  else None.

(** ** Values: the struct or variant, with its fields *)
Section Values.
Variable U : Type.
(** The fields of a value, unit, tuple or named: style.rs:45-79 *)
Inductive contents := CUnit | CTuple (l : list U) | CNamed (l : list (ident * U)).
(** A value of a type with derives (style.rs:45-79) *)
Record value := Value { v_path : path; v_contents : contents }.
End Values.
Arguments CUnit {U}. Arguments CTuple {U} l. Arguments CNamed {U} l.
Arguments Value {U} v_path v_contents. Arguments v_path {U} v. Arguments v_contents {U} v.

(** ** generic.rs: [derive(FromVariants)] *)
(** An [impl From<ty> for Name] of which the method makes that variant, lines 14-20 *)
Record from_impl := FromImpl { fi_type : ty; fi_variant : path }.
(** Lines 2-31 *)
Definition derive_from_variants (d : derive_input) : option (list from_impl) :=
  let impls :=
    match di_data d with
    | Enum variants =>
        flat_map (fun v => match snd v with
                           | Unnamed [t] => [FromImpl t (Path (di_name d) (Some (fst v)))]
                           | _ => []
                           end) variants
    | _ => []
    end in
  match impls with [] => None | _ => Some impls end.
(** The [impl]s of a trait must not overlap; core has an [impl From<T> for T].  Types are taken to be different if
    they are written differently.  The [impl]s are those of generic.rs:14-20 *)
Fixpoint distinct (l : list ty) : bool :=
  match l with [] => true | t :: r => negb (existsb (ty_eqb t) r) && distinct r end.
(** rustc accepts what generic.rs:2-31 writes *)
Definition accepts_from_variants (d : derive_input) (impls : list from_impl) : bool :=
  distinct (TyPath false [di_name d] :: map fi_type impls).
(** [Name::from(x)] with [x] of the type [t]: generic.rs:14-20 *)
Definition run_from {U} (impls : list from_impl) (t : ty) (x : U) : option (value U) :=
  match find (fun i => ty_eqb (fi_type i) t) impls with
  | Some i => Some (Value (fi_variant i) (CTuple [x]))
  | None => None
  end.

(** ** style.rs *)
(** [char::is_ascii_lowercase]: style.rs:190-192 *)
Definition is_ascii_lowercase (c : N) : bool := (97 <=? c) && (c <=? 122).
(** [char::is_ascii_uppercase]: style.rs:190-192 *)
Definition is_ascii_uppercase (c : N) : bool := (65 <=? c) && (c <=? 90).
(** Lines 187-205; names are ASCII bytes, what is not is refused as the character would be *)
Fixpoint kebab_loop (out s : bytes) : option bytes :=
  match s with
  | [] => Some out
  | c :: s =>
      if is_ascii_lowercase c then kebab_loop (out ++ [c]) s
      else if is_ascii_uppercase c then
        kebab_loop ((match out with [] => out | _ => out ++ [45] end) ++ [c + 32]) s
      else None
  end.
(** style.rs:187-205 *)
Definition camel_case_to_kebab_case (s : bytes) : option bytes := kebab_loop [] s.

(** [derive(Parse)]: the statements written, lines 151-171.
    [TryField p] is "if the parser of the field accepts, return p(value)" *)
Inductive statement :=
| TryField (p : path)
| TryIdent (arms : list (bytes * path)).
(** The three vectors of lines 120-149 *)
Record variants_seen := Seen { unit_variants : list path; keywords : list bytes; single_field : list path }.
(** Lines 126-139: one variant *)
Definition see_variant (name : ident) (acc : option variants_seen) (v : ident * fields) : option variants_seen :=
  match acc with
  | None => None
  | Some s =>
      match snd v with
      | Unit =>
          match camel_case_to_kebab_case (fst v) with
          | Some k => Some (Seen (unit_variants s ++ [Path name (Some (fst v))]) (keywords s ++ [k]) (single_field s))
          | None => None
          end
      | Unnamed [_] => Some (Seen (unit_variants s) (keywords s) (single_field s ++ [Path name (Some (fst v))]))
      | _ => None
      end
  end.
(** Lines 115-185 *)
Definition derive_parse (d : derive_input) : option (list statement) :=
  let seen :=
    match di_data d with
    | Enum variants => fold_left (see_variant (di_name d)) variants (Some (Seen [] [] []))
    | Struct Unit =>
        match camel_case_to_kebab_case (di_name d) with
        | Some k => Some (Seen [Path (di_name d) None] [k] [])
        | None => None
        end
    | _ => None
    end in
  match seen with
  | None => None
  | Some s =>
      Some (map TryField (single_field s) ++
            match unit_variants s with
            | [] => []
            | u => [TryIdent (combine (keywords s) u)]
            end)
  end.
(** What the statements do.  The parser of the field is that of its type, which rustc infers from the declaration.
    As in StyleValues.v an error has no more contents. *)
Section RunParse.
Variable U : Type.
Variable parse_ty : ty -> parser U.
Variable d : derive_input.
(** style.rs:151-171, run *)
Fixpoint run_parse (code : list statement) (ts : list token) : option (value U * list token) :=
  match code with
  | [] => None
  | TryField p :: code =>
      match fields_of d p with
      | Some (Unnamed [t]) =>
          match parse_ty t ts with
          | Some (v, r) => Some (Value p (CTuple [v]), r)
          | None => run_parse code ts
          end
      | _ => None
      end
  | TryIdent arms :: code =>
      match ts with
      | TIdent i :: r =>
          match assoc arms i with
          | Some p => Some (Value p CUnit, r)
          | None => None
          end
      | _ => run_parse code ts
      end
  end.
End RunParse.

(** [derive(FromSpecified)]: an arm [pattern => expression], lines 45-79: the name of the variant and how the fields
    are bound.  [f0], [f1]… are the names of unnamed fields. *)
Inductive binding := BUnit | BTuple (count : nat) | BNamed (names : list ident).
(** style.rs:45-79: pattern and expression *)
Record arm := Arm { arm_variant : option ident; arm_binding : binding }.
(** style.rs:45-79 *)
Definition gen_variant (f : fields) (variant : option ident) : arm :=
  Arm variant match f with
              | Unit => BUnit
              | Unnamed l => BTuple (length l)
              | Named l => BNamed (map fst l)
              end.
(** Lines 31-113: the name of the specified type and the arms of the match *)
Definition derive_from_specified (d : derive_input) : option (ident * list arm) :=
  match di_data d with
  | Struct f => Some (bs "Specified" ++ di_name d, [gen_variant f None])
  | Enum variants => Some (bs "Specified" ++ di_name d, map (fun v => gen_variant (snd v) (Some (fst v))) variants)
  | Union => None
  end.
(** A pattern of style.rs:45-79 and a value: the same variant *)
Definition same_variant (a b : option ident) : bool :=
  match a, b with
  | None, None => true
  | Some a, Some b => bytes_eqb a b
  | _, _ => false
  end.
(** A pattern fits the fields declared: it names all of them (there is no [..] in it).  A struct or variant does not
    have two fields of a name, nor a pattern, so as many names as fields that are all among those are all.  style.rs:45-79 *)
Definition fits (b : binding) (f : fields) : bool :=
  match b, f with
  | BUnit, Unit => true
  | BTuple n, Unnamed l => Nat.eqb n (length l)
  | BNamed names, Named l =>
      Nat.eqb (length names) (length l) && forallb (fun n => existsb (fun m => bytes_eqb (fst m) n) l) names
  | _, _ => false
  end.
(** rustc accepts the match on a value of the declaration [s]: the name is that, the patterns fit, and there is one
    for each variant; a match on a reference has at least one arm  (style.rs:81-113) *)
Definition accepts_from_specified (s : derive_input) (code : ident * list arm) : bool :=
  bytes_eqb (fst code) (di_name s) &&
  forallb (fun a => match fields_of s (Path (fst code) (arm_variant a)) with
                    | Some f => fits (arm_binding a) f
                    | None => false
                    end) (snd code) &&
  forallb (fun v => existsb (fun a => same_variant (arm_variant a) v) (snd code))
          (match di_data s with
           | Struct _ => [None]
           | Enum variants => map (fun v => Some (fst v)) variants
           | Union => [None]
           end) &&
  negb (Nat.eqb (length (snd code)) 0).
(** What the match does with a value: the first arm of that variant.  The fields are computed by the [impl] of their
    computed type, which rustc infers from the declaration [d]; the expression of an arm is in the order of [d] *)
Section RunFromSpecified.
Variables S C : Type.
Variable compute_ty : ty -> S -> C.
Variable d : derive_input.
(** style.rs:45-79: the named field of the computed value *)
Definition compute_named (l : list (ident * S)) (f : ident * ty) : option (ident * C) :=
  match assoc l (fst f) with
  | Some v => Some (fst f, compute_ty (snd f) v)
  | None => None
  end.
(** All the fields, or nothing (style.rs:45-79) *)
Fixpoint all_some {A} (l : list (option A)) : option (list A) :=
  match l with
  | [] => Some []
  | Some a :: l => match all_some l with Some l => Some (a :: l) | None => None end
  | None :: _ => None
  end.
(** style.rs:45-79: the expression of an arm *)
Definition run_arm (a : arm) (c : contents S) : option (value C) :=
  match fields_of d (Path (di_name d) (arm_variant a)), c with
  | Some Unit, CUnit => Some (Value (Path (di_name d) (arm_variant a)) CUnit)
  | Some (Unnamed l), CTuple vs =>
      Some (Value (Path (di_name d) (arm_variant a))
                  (CTuple (map (fun x => compute_ty (fst x) (snd x)) (combine l vs))))
  | Some (Named l), CNamed vs =>
      match all_some (map (compute_named vs) l) with
      | Some r => Some (Value (Path (di_name d) (arm_variant a)) (CNamed r))
      | None => None
      end
  | _, _ => None
  end.
(** style.rs:81-113: the match *)
Definition run_from_specified (code : ident * list arm) (v : value S) : option (value C) :=
  let 'Path t variant := v_path v in
  if bytes_eqb t (fst code) then
    match find (fun a => same_variant (arm_variant a) variant) (snd code) with
    | Some a => run_arm a (v_contents v)
    | None => None
    end
  else None.
End RunFromSpecified.

(** [derive(SpecifiedAsComputed)], lines 3-29: [Clone::clone] of the specified value, which is the value *)
Definition run_specified_as_computed {U} (specified : value U) : value U := specified.

(** ** lib.rs: [derive(SfntTable)] *)
(** The code written: the tag (lines 29-34), a method for each field that adds this number of bytes to a position
    (lines 70-74), and the size asserted (lines 82-86) *)
Record table_code := TableCode { tc_tag : option bytes; tc_methods : list (ident * (ty * N)); tc_size : N }.
(** Lines 22-39; an outer [None] is the failed assertion *)
Fixpoint find_tag (attrs : list attribute) : option (option bytes) :=
  match attrs with
  | [] => Some None
  | NameValue n l :: r =>
      if bytes_eqb n (bs "tag") then
        match l with
        | Str value => if Nat.eqb (length value) 4 then Some (Some value) else None
        | OtherLiteral => find_tag r
        end
      else find_tag r
  | OtherAttribute :: r => find_tag r
  end.
(** Lines 61-66 *)
Definition size_of_name (n : ident) : option N :=
  if existsb (bytes_eqb n) [bs "u16"; bs "i16"; bs "FWord"; bs "UFWord"; bs "FontDesignUnitsPerEmFactorU16"]
  then Some 2
  else if existsb (bytes_eqb n) [bs "u32"; bs "FixedPoint"; bs "Tag"] then Some 4
  else if bytes_eqb n (bs "LongDateTime") then Some 8
  else None.
(** Lines 51-66 *)
Definition size_of_ty (t : ty) : option N :=
  match t with
  | TyPath false segments => match rev segments with n :: _ => size_of_name n | [] => None end
  | _ => None
  end.
(** Lines 48-76; the offset is an [u32], the size of structs is taken to be below 4 GiB *)
Fixpoint table_fields (offset : N) (l : list (ident * ty)) : option (list (ident * (ty * N)) * N) :=
  match l with
  | [] => Some ([], offset)
  | (name, t) :: l =>
      match size_of_ty t with
      | None => None
      | Some size =>
          if offset mod N.min size 4 =? 0 then
            match table_fields (offset + size) l with
            | Some (methods, end_) => Some ((name, (t, offset)) :: methods, end_)
            | None => None
            end
          else None
      end
  end.
(** Lines 17-94 *)
Definition derive_sfnt_table (d : derive_input) : option table_code :=
  match find_tag (di_attrs d), di_data d with
  | Some tag, Struct f =>
      match (match f with
             | Named l => table_fields 0 l
             | Unit | Unnamed [] => Some ([], 0)
             | Unnamed _ => None
             end) with
      | Some (methods, size) => Some (TableCode tag methods size)
      | None => None
      end
  | _, _ => None
  end.
(** rustc's layout of structs of which no representation is asked for: the fields are ordered by alignment, so that
    only the end is filled up, to the largest alignment.  [align] gives the alignments of the platform.  For lib.rs:82-86 *)
Definition round_up (n align : N) : N := (n + (align - 1)) / align * align.
(** [std::mem::size_of::<Self>()], which the [transmute] at lib.rs:82-86 compares *)
Definition rust_struct_size (align : ty -> N) (l : list (ident * ty)) : N :=
  round_up (fold_right (fun f s => match size_of_ty (snd f) with Some n => n + s | None => s end) 0 l)
           (fold_right (fun f a => N.max (align (snd f)) a) 1 l).
(** Lines 83-85: [transmute] is accepted between types of the same size only *)
Definition accepts_sfnt_table (align : ty -> N) (l : list (ident * ty)) (c : table_code) : bool :=
  rust_struct_size align l =? tc_size c.

(** ** The declarations of /repo *)
(** Shorthand for the declarations of style/values and fonts/tables.rs:6-141: a type of one segment *)
Definition simple (n : string) : ty := TyPath false [bs n].
(** A unit variant (style/values/length.rs:39-44 has [Auto]) *)
Definition bare (n : string) : ident * fields := (bs n, Unit).
(** A variant with one field (style/values/length.rs:21-25) *)
Definition one (n t : string) : ident * fields := (bs n, Unnamed [simple t]).
(** An enum without attributes that matter (style/values/length.rs:21-25) *)
Definition enum (n : string) (l : list (ident * fields)) : derive_input := Input [] (bs n) (Enum l).
(** length.rs:21-25 *)
Definition decl_SpecifiedLength := enum "SpecifiedLength" [one "Absolute" "Length"; one "Em" "f32"].
(** length.rs:27-31 *)
Definition decl_SpecifiedLengthOrPercentage :=
  enum "SpecifiedLengthOrPercentage" [one "Length" "SpecifiedLength"; one "Percentage" "Percentage"].
(** length.rs:33-37 *)
Definition decl_LengthOrPercentage :=
  enum "LengthOrPercentage" [one "Length" "Length"; one "Percentage" "Percentage"].
(** length.rs:39-44 *)
Definition decl_SpecifiedLengthOrPercentageOrAuto :=
  enum "SpecifiedLengthOrPercentageOrAuto"
    [one "Length" "SpecifiedLength"; one "Percentage" "Percentage"; bare "Auto"].
(** length.rs:46-51 *)
Definition decl_LengthOrPercentageOrAuto :=
  enum "LengthOrPercentageOrAuto" [one "Length" "Length"; one "Percentage" "Percentage"; bare "Auto"].
(** length.rs:53-57 *)
Definition decl_LengthOrAuto := enum "LengthOrAuto" [one "Length" "Length"; bare "Auto"].
(** border.rs:6-10 *)
Definition decl_LineStyle := enum "LineStyle" [bare "None"; bare "Solid"].
(** border.rs:12-18 *)
Definition decl_ParsedLineWidth :=
  enum "ParsedLineWidth" [bare "Thin"; bare "Medium"; bare "Thick"; one "Other" "SpecifiedLengthOrPercentage"].
(** border.rs:20-21 *)
Definition decl_SpecifiedLineWidth :=
  Input [] (bs "SpecifiedLineWidth") (Struct (Unnamed [simple "SpecifiedLengthOrPercentage"])).
(** border.rs:23-24 *)
Definition decl_LineWidth := Input [] (bs "LineWidth") (Struct (Unnamed [simple "LengthOrPercentage"])).
(** box_.rs:111-116 *)
Definition decl_Float := enum "Float" [bare "None"; bare "Left"; bare "Right"].
(** box_.rs:128-133 *)
Definition decl_Position := enum "Position" [bare "Static"; bare "Relative"; bare "Absolute"].
(** mod.rs:47-52 *)
Definition decl_CssWideKeyword := enum "CssWideKeyword" [bare "Inherit"; bare "Initial"; bare "Unset"].
(** writing_modes.rs:1-5 *)
Definition decl_Direction := enum "Direction" [bare "Ltr"; bare "Rtl"].
(** writing_modes.rs:7-14 *)
Definition decl_WritingMode :=
  enum "WritingMode"
    [bare "HorizontalTb"; bare "VerticalRl"; bare "VerticalLr"; bare "SidewaysRl"; bare "SidewaysLr"].

(** tables.rs:6-141: the structs, by what they are called, with their tags *)
Definition table (tag : option string) (n : string) (l : list (string * string)) : derive_input :=
  Input (match tag with Some t => [NameValue (bs "tag") (Str (bs t))] | None => [] end) (bs n)
        (Struct (Named (map (fun f => (bs (fst f), simple (snd f))) l))).
Local Open Scope string_scope.
(** tables.rs:6-13 *)
Definition decl_OffsetSubtable := table None "OffsetSubtable"
  [("scaler_type", "u32"); ("table_count", "u16"); ("_search_range", "u16"); ("_entry_selector", "u16");
   ("_range_shift", "u16")].
(** tables.rs:15-21 *)
Definition decl_TableDirectoryEntry := table None "TableDirectoryEntry"
  [("tag", "Tag"); ("_checksum", "u32"); ("table_offset", "u32"); ("_length", "u32")].
(** tables.rs:23-30 *)
Definition decl_MaximumProfile := table (Some "maxp") "MaximumProfile"
  [("_version", "FixedPoint"); ("num_glyphs", "u16"); ("_padding", "u16")].
(** tables.rs:32-38 *)
Definition decl_NamingTableHeader := table (Some "name") "NamingTableHeader"
  [("_format", "u16"); ("count", "u16"); ("string_offset", "u16")].
(** tables.rs:40-48 *)
Definition decl_NameRecord := table None "NameRecord"
  [("platform_id", "u16"); ("encoding_id", "u16"); ("_language_id", "u16"); ("name_id", "u16"); ("length", "u16");
   ("string_offset", "u16")].
(** tables.rs:50-55 *)
Definition decl_CmapHeader := table (Some "cmap") "CmapHeader" [("_version", "u16"); ("num_tables", "u16")].
(** tables.rs:57-62 *)
Definition decl_CmapEncodingRecord := table None "CmapEncodingRecord"
  [("platform_id", "u16"); ("encoding_id", "u16"); ("subtable_offset", "u32")].
(** tables.rs:64-73 *)
Definition decl_CmapFormat4Header := table None "CmapFormat4Header"
  [("_format", "u16"); ("_length", "u16"); ("_language", "u16"); ("segment_count_x2", "u16");
   ("_search_range", "u16"); ("_entry_selector", "u16"); ("_range_shift", "u16")].
(** tables.rs:75-82 *)
Definition decl_CmapFormat12Header := table None "CmapFormat12Header"
  [("_format", "u16"); ("__reserved", "u16"); ("_length", "u32"); ("_language", "u32"); ("num_groups", "u32")].
(** tables.rs:84-89 *)
Definition decl_CmapFormat12Group := table None "CmapFormat12Group"
  [("start_char_code", "u32"); ("end_char_code", "u32"); ("start_glyph_id", "u32")].
(** tables.rs:91-112 *)
Definition decl_FontHeader := table (Some "head") "FontHeader"
  [("_version", "FixedPoint"); ("_font_revision", "FixedPoint"); ("_checksum_adjustment", "u32");
   ("_magic_number", "u32"); ("_flags", "u16"); ("units_per_em", "FontDesignUnitsPerEmFactorU16");
   ("_created", "LongDateTime"); ("_modified", "LongDateTime"); ("min_x", "FWord"); ("min_y", "FWord");
   ("max_x", "FWord"); ("max_y", "FWord"); ("_mac_style", "u16"); ("_smallest_readable_size_in_px_per_em", "u16");
   ("_font_direction_hint", "i16"); ("_index_to_loc_format", "i16"); ("_glyph_data_format", "i16");
   ("__padding", "u16")].
(** tables.rs:114-134 *)
Definition decl_HorizontalHeader := table (Some "hhea") "HorizontalHeader"
  [("_version", "FixedPoint"); ("ascender", "FWord"); ("descender", "FWord"); ("_line_gap", "FWord");
   ("_max_advance_width", "UFWord"); ("_min_left_side_bearing", "FWord"); ("_max_left_side_bearing", "FWord");
   ("_x_max_extent", "FWord"); ("_caret_slope_rise", "i16"); ("_caret_slope_run", "i16"); ("_carret_offset", "FWord");
   ("__reserved_1", "i16"); ("__reserved_2", "i16"); ("__reserved_3", "i16"); ("__reserved_4", "i16");
   ("_metric_data_format", "i16"); ("number_of_long_horizontal_metrics", "u16")].
(** tables.rs:136-141 *)
Definition decl_LongHorizontalMetricsRecord := table (Some "hmtx") "LongHorizontalMetricsRecord"
  [("advance_width", "UFWord"); ("_left_side_bearing", "i16")].
Local Close Scope string_scope.
