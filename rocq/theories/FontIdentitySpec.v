(** What a program that uses the crate asks for, whatever addresses its fonts have: the text
    shown with a reference to an address is in the font that was loaded there last.  Fonts are
    named by the order in which they were loaded.  Used to state C100. *)
From Verif Require Import Base PdfObject PdfSyntax PdfConvert FontIdentity.
Local Open Scope N_scope.

(** How many fonts were loaded, which font was loaded last at each address (newest first), the
    pages so far, and the open page. *)
Record view : Type := mkView {
  v_loaded : N; v_at : list (N * font); v_done : list page_history; v_open : option page_history }.
Definition view_start : view := mkView 0 [] [] None.

Definition named (n : N) (f : font) : font :=
  mkFont n (f_bytes f) (f_name f) (f_min_x f) (f_min_y f) (f_max_x f) (f_max_y f)
    (f_ascender f) (f_descender f) (f_code_points f) (f_code_points_result f)
    (f_glyph_count f) (f_glyph_width f).

Definition loaded_at (a : N) (l : list (N * font)) : option font :=
  option_map snd (find (fun af => fst af =? a) l).

(** One more request on the open page *)
Definition asking (v : view) (r : list request) : view :=
  mkView (v_loaded v) (v_at v) (v_done v)
    (option_map (fun p => mkPH (ph_width p) (ph_height p) (ph_requests p ++ r)) (v_open v)).

Definition see (v : view) (e : event) : view :=
  match e with
  | Load f a => mkView (v_loaded v + 1) ((a, named (v_loaded v) f) :: v_at v) (v_done v) (v_open v)
  | Clone _ | Release _ => v
  | AddPage width height => mkView (v_loaded v) (v_at v) (v_done v) (Some (mkPH width height []))
  | DropPage => mkView (v_loaded v) (v_at v)
                  (v_done v ++ match v_open v with Some p => [p] | None => [] end) None
  | Paint c => asking v [SetColor c]
  | Rectangle x y w h => asking v [PaintRectangle x y w h]
  | Text a glyphs fs x y =>
      asking v match loaded_at a (v_at v) with
               | Some f => [ShowText f glyphs fs x y]
               | None => []
               end
  end.

(** The pages asked for *)
Definition asked (l : list event) : list page_history := v_done (fold_left see l view_start).

(** How often [p] occurs in [l] *)
Fixpoint starts (p l : bytes) : bool :=
  match p, l with
  | [], _ => true
  | x :: p, y :: l => (x =? y) && starts p l
  | _ :: _, [] => false
  end.
Fixpoint occurrences (p l : bytes) : nat :=
  match l with
  | [] => 0
  | _ :: r => (if starts p l then 1 else 0) + occurrences p r
  end.
