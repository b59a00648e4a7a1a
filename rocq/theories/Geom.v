(** Model of victor/src/geom.rs: flow-relative and physical vectors, rectangles and sides. *)
From Coq Require Import QArith.
From Verif Require Import Base.
Local Open Scope Q_scope.

(** style/values/writing_modes.rs:1-14 *)
Inductive direction := Ltr | Rtl.
(** style/values/writing_modes.rs:7-14 *)
Inductive writing_mode := HorizontalTb | VerticalRl | VerticalLr | SidewaysRl | SidewaysLr.
(** The pair given by style/properties/mod.rs:32-35 *)
Definition wmode : Type := writing_mode * direction.

(** geom.rs:4-24, [mod physical] *)
Record pvec (A : Type) : Type := mkPvec { x_ : A; y_ : A }.
(** geom.rs:11-15 *)
Record prect (A : Type) : Type := mkPrect { top_left : pvec A; psize : pvec A }.
(** geom.rs:17-23 *)
Record psides (A : Type) : Type := mkPsides { ptop : A; pleft : A; pbottom : A; pright : A }.
Arguments mkPvec {A}. Arguments x_ {A}. Arguments y_ {A}.
Arguments mkPrect {A}. Arguments top_left {A}. Arguments psize {A}.
Arguments mkPsides {A}. Arguments ptop {A}. Arguments pleft {A}. Arguments pbottom {A}. Arguments pright {A}.

(** geom.rs:26-46, [mod flow_relative] *)
Record vec2 (A : Type) : Type := mkVec { v_inline : A; v_block : A }.
(** geom.rs:33-37 *)
Record rect (A : Type) : Type := mkRect { start_corner : vec2 A; size : vec2 A }.
(** geom.rs:39-45 *)
Record sides (A : Type) : Type := mkSides { inline_start : A; inline_end : A; block_start : A; block_end : A }.
Arguments mkVec {A}. Arguments v_inline {A}. Arguments v_block {A}.
Arguments mkRect {A}. Arguments start_corner {A}. Arguments size {A}.
Arguments mkSides {A}. Arguments inline_start {A}. Arguments inline_end {A}.
Arguments block_start {A}. Arguments block_end {A}.

(** geom.rs:51-63 *)
Definition padd (a b : pvec Q) : pvec Q := mkPvec (x_ a + x_ b) (y_ a + y_ b).

(** geom.rs:65-78 *)
Definition size_to_flow_relative {A} (v : pvec A) (mode : wmode) : vec2 A :=
  match mode with
  | (HorizontalTb, _) => mkVec (x_ v) (y_ v)
  | _ => mkVec (y_ v) (x_ v)
  end.

(** geom.rs:80-102: [Add] and [AddAssign] *)
Definition vadd (a b : vec2 Q) : vec2 Q := mkVec (v_inline a + v_inline b) (v_block a + v_block b).

(** geom.rs:104-131 *)
Definition vzero : vec2 Q := mkVec 0 0.
(** geom.rs:113-122 *)
Definition szero : sides Q := mkSides 0 0 0 0.
(** geom.rs:124-131 *)
Definition rzero : rect Q := mkRect vzero vzero.

(** geom.rs:133-146 *)
Definition size_to_physical {A} (v : vec2 A) (mode : wmode) : pvec A :=
  match mode with
  | (HorizontalTb, _) => mkPvec (v_inline v) (v_block v)
  | _ => mkPvec (v_block v) (v_inline v)
  end.

(** geom.rs:154-182 *)
Definition to_flow_relative {A} (s : psides A) (mode : wmode) : sides A :=
  let '(bs, be) :=
    match fst mode with
    | HorizontalTb => (ptop s, pbottom s)
    | VerticalRl | SidewaysRl => (pright s, pleft s)
    | VerticalLr | SidewaysLr => (pleft s, pright s)
    end in
  let '(is_, ie) :=
    match mode with
    | (HorizontalTb, Ltr) => (pleft s, pright s)
    | (HorizontalTb, Rtl) => (pright s, pleft s)
    | (VerticalRl, Ltr) | (SidewaysRl, Ltr) | (VerticalLr, Ltr) | (SidewaysLr, Rtl) => (ptop s, pbottom s)
    | (VerticalRl, Rtl) | (SidewaysRl, Rtl) | (VerticalLr, Rtl) | (SidewaysLr, Ltr) => (pbottom s, ptop s)
    end in
  mkSides is_ ie bs be.

(** geom.rs:184-205 *)
Definition smap {A B} (f : A -> B) (s : sides A) : sides B :=
  mkSides (f (inline_start s)) (f (inline_end s)) (f (block_start s)) (f (block_end s)).
(** geom.rs:194-205 *)
Definition map_inline_and_block_axes {A B} (inline_f block_f : A -> B) (s : sides A) : sides B :=
  mkSides (inline_f (inline_start s)) (inline_f (inline_end s)) (block_f (block_start s)) (block_f (block_end s)).
(** geom.rs:207-219 *)
Definition inline_sum (s : sides Q) : Q := inline_start s + inline_end s.
(** geom.rs:214-219 *)
Definition block_sum (s : sides Q) : Q := block_start s + block_end s.
(** geom.rs:221-229 *)
Definition sides_start_corner {A} (s : sides A) : vec2 A := mkVec (inline_start s) (block_start s).
(** geom.rs:250-264 *)
Definition sadd (a b : sides Q) : sides Q :=
  mkSides (inline_start a + inline_start b) (inline_end a + inline_end b)
          (block_start a + block_start b) (block_end a + block_end b).

(** geom.rs:266-282 *)
Definition inflate (r : rect Q) (s : sides Q) : rect Q :=
  mkRect
    (mkVec (v_inline (start_corner r) - inline_start s) (v_block (start_corner r) - block_start s))
    (mkVec (v_inline (size r) + inline_sum s) (v_block (size r) + block_sum s)).

(** geom.rs:284-308; [None] is the panic of [unimplemented!()] *)
Definition to_physical {A} (r : rect A) (mode : wmode) : option (prect A) :=
  match mode with
  | (HorizontalTb, Ltr) =>
      Some (mkPrect (mkPvec (v_inline (start_corner r)) (v_block (start_corner r)))
                    (size_to_physical (size r) mode))
  | _ => None
  end.

(** geom.rs:311-321 *)
Definition translate (r : prect Q) (by_ : pvec Q) : prect Q := mkPrect (padd (top_left r) by_) (psize r).
