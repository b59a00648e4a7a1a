(** Specification for C70: what the derive macros are for. *)
From Coq Require Import QArith Permutation.
From Verif Require Import Base Dom StyleValues Derives.
Local Close Scope Q_scope.
Local Open Scope N_scope.

(** ** Keywords *)
(** A name in CamelCase or camelCase is made of words; the keyword of it is the words joined by hyphens *)
Definition word (w : bytes) : Prop := w <> [] /\ Forall (fun c => 97 <= c <= 122) w.
Definition capitalised (w : bytes) : bytes := match w with [] => [] | c :: r => (c - 32) :: r end.
Fixpoint hyphenated (ws : list bytes) : bytes :=
  match ws with
  | [] => []
  | [w] => w
  | w :: ws => w ++ [45] ++ hyphenated ws
  end.
Definition CamelCase (name : bytes) (ws : list bytes) : Prop :=
  Forall word ws /\ name = concat (map capitalised ws).
Definition camelCase (name : bytes) (ws : list bytes) : Prop :=
  Forall word ws /\ exists w r, ws = w :: r /\ name = w ++ concat (map capitalised r).
Definition keyword_of (name k : bytes) : Prop :=
  exists ws, (CamelCase name ws \/ camelCase name ws) /\ k = hyphenated ws.

(** ** Declarations of enums *)
Definition has_field (variants : list (ident * fields)) (n : ident) (t : ty) : Prop := In (n, Unnamed [t]) variants.
Definition nodup_names {A} (l : list (ident * A)) : Prop := NoDup (map fst l).

(** ** Parsing: the first field that accepts, otherwise the keyword of a variant without fields *)
Section Parse.
Context {U : Type}.
Variable parse_ty : ty -> parser U.
Variable name : ident.
Variable variants : list (ident * fields).
Inductive parsed (ts : list token) : value U -> list token -> Prop :=
| parsed_field : forall before n t after x r,
    variants = before ++ (n, Unnamed [t]) :: after -> parse_ty t ts = Some (x, r) ->
    (forall n' t', has_field before n' t' -> parse_ty t' ts = None) ->
    parsed ts (Value (Path name (Some n)) (CTuple [x])) r
| parsed_keyword : forall before n after k r,
    (forall n' t', has_field variants n' t' -> parse_ty t' ts = None) ->
    ts = TIdent k :: r -> variants = before ++ (n, Unit) :: after -> keyword_of n k ->
    (forall n', In (n', Unit) before -> ~ keyword_of n' k) ->
    parsed ts (Value (Path name (Some n)) CUnit) r.
End Parse.
(** The declarations it can be put on *)
Definition parseable_variant (v : ident * fields) : Prop :=
  (snd v = Unit /\ exists k, keyword_of (fst v) k) \/ exists t, snd v = Unnamed [t].
Definition parseable (d : derive_input) : Prop :=
  (exists variants, di_data d = Enum variants /\ Forall parseable_variant variants) \/
  (di_data d = Struct Unit /\ exists k, keyword_of (di_name d) k).

(** ** Computing: the same variant, with the fields computed *)
Definition same_fields (s c : fields) : Prop :=
  match s, c with
  | Unit, Unit => True
  | Unnamed l, Unnamed l' => length l = length l'
  | Named l, Named l' => Permutation (map fst l) (map fst l')
  | _, _ => False
  end.
(** The specified type has the name and the shape that the macro expects *)
Definition corresponds (s c : derive_input) : Prop :=
  di_name s = bs "Specified" ++ di_name c /\
  match di_data s, di_data c with
  | Struct f, Struct f' => same_fields f f'
  | Enum l, Enum l' =>
      l' <> [] /\
      (forall n, In n (map fst l) <-> In n (map fst l')) /\
      forall n f f', In (n, f) l -> In (n, f') l' -> same_fields f f'
  | _, _ => False
  end.
(** rustc's rules: no two variants of a name, nor two fields *)
Definition wf_fields (f : fields) : Prop := match f with Named l => nodup_names l | _ => True end.
Definition wf_declaration (d : derive_input) : Prop :=
  match di_data d with
  | Struct f => wf_fields f
  | Enum l => nodup_names l /\ Forall (fun v => wf_fields (snd v)) l
  | Union => True
  end.
(** A struct, or a variant of an enum, of the declaration *)
Definition declared (d : derive_input) (p : path) (f : fields) : Prop :=
  match p with
  | Path n None => n = di_name d /\ di_data d = Struct f
  | Path n (Some v) => n = di_name d /\ exists l, di_data d = Enum l /\ In (v, f) l
  end.
Definition contents_fit {U} (f : fields) (c : contents U) : Prop :=
  match f, c with
  | Unit, CUnit => True
  | Unnamed l, CTuple vs => length vs = length l
  | Named l, CNamed vs => map fst vs = map fst l
  | _, _ => False
  end.
Definition value_of {U} (d : derive_input) (v : value U) : Prop :=
  exists f, declared d (v_path v) f /\ contents_fit f (v_contents v).
Section Computed.
Context {S C : Type}.
Variable compute_ty : ty -> S -> C.
(** By position for unnamed fields, by name for named ones *)
Definition computed_contents (f : fields) (s : contents S) (c : contents C) : Prop :=
  match f, s, c with
  | Unit, CUnit, CUnit => True
  | Unnamed l, CTuple vs, CTuple ws =>
      length ws = length l /\
      forall i t x, nth_error l i = Some t -> nth_error vs i = Some x -> nth_error ws i = Some (compute_ty t x)
  | Named l, CNamed vs, CNamed ws =>
      forall n t x, In (n, t) l -> In (n, x) vs -> In (n, compute_ty t x) ws
  | _, _, _ => False
  end.
Definition computed (d : derive_input) (s : value S) (c : value C) : Prop :=
  value_of d c /\
  (let 'Path _ v := v_path s in v_path c = Path (di_name d) v) /\
  forall f, declared d (v_path c) f -> computed_contents f (v_contents s) (v_contents c).
End Computed.

(** ** Tables: the fields one after the other *)
(** OpenType data types, by their names here *)
Definition opentype_size (n : bytes) (size : N) : Prop :=
  In (n, size) [(bs "u16", 2); (bs "i16", 2); (bs "FWord", 2); (bs "UFWord", 2);
                (bs "FontDesignUnitsPerEmFactorU16", 2); (bs "u32", 4); (bs "FixedPoint", 4); (bs "Tag", 4);
                (bs "LongDateTime", 8)].
Definition type_size (t : ty) (size : N) : Prop :=
  exists segments n, t = TyPath false (segments ++ [n]) /\ opentype_size n size.
Definition sum (l : list N) : N := fold_right N.add 0 l.
(** The fields have these sizes, and each is aligned where it is *)
Definition sized (l : list (ident * ty)) (sizes : list N) : Prop := Forall2 (fun f s => type_size (snd f) s) l sizes.
Definition aligned_fields (sizes : list N) : Prop :=
  forall i s, nth_error sizes i = Some s -> N.divide (N.min s 4) (sum (firstn i sizes)).
(** The first attribute [tag = "…"] *)
Definition tag_attribute (attrs : list attribute) (tag : option bytes) : Prop :=
  match tag with
  | None => forall s, ~ In (NameValue (bs "tag") (Str s)) attrs
  | Some t => exists before after, attrs = before ++ NameValue (bs "tag") (Str t) :: after /\ length t = 4%nat /\
                forall s, ~ In (NameValue (bs "tag") (Str s)) before
  end.
(** The alignments a platform can have for these types *)
Definition platform (align : ty -> N) : Prop :=
  forall t size, type_size t size -> In (align t) [1; 2; 4; 8] /\ N.divide (align t) size.
Definition struct_fields (d : derive_input) (l : list (ident * ty)) : Prop :=
  di_data d = Struct (Named l) \/ (l = [] /\ (di_data d = Struct Unit \/ di_data d = Struct (Unnamed []))).
