(** Model of victor/src/pdf/convert.rs:24 and 61-92: fonts are recognised by the address of
    their [Arc] allocation, and the map of a document keeps a counted reference to each font
    that is its key (convert.rs:270 [font.clone()]).  Memory is a list of live allocations;
    the allocator may put a new font at any address that is not live, so also at one that was
    freed before. *)
From Verif Require Import Base PdfObject PdfSyntax PdfConvert.
Local Open Scope N_scope.

(** ** Keys: convert.rs:61-92 [ByAddress] *)
(** convert.rs:63-74 [Hash for ByAddress], with any [Hasher] *)
Definition by_address_hash (hasher : N -> N) (f : font) : N := hasher (f_addr f).
(** convert.rs:76-85 [PartialEq for ByAddress] *)
Definition by_address_eq (f g : font) : bool := f_addr f =? f_addr g.
(** convert.rs:24 and 270: [HashMap<ByAddress<Arc<Font>>, String>::entry], the slots of a
    table in some order: a slot is compared only when its hash is that of the key. *)
Fixpoint table_find (hasher : N -> N) (k : font) (slots : list (font * bytes)) : option bytes :=
  match slots with
  | [] => None
  | (k', v) :: r =>
      if (by_address_hash hasher k' =? by_address_hash hasher k) && by_address_eq k' k
      then Some v else table_find hasher k r
  end.

(** ** Memory *)
(** The contents of an [Arc<Font>] allocation (fonts/mod.rs:48-67 and 83): the font and the
    number of references to it. *)
Record cell : Type := mkCell { c_font : font; c_strong : N }.
(** Live allocations of fonts by address (fonts/mod.rs:83) *)
Definition memory : Type := list (N * cell).

(** The allocation at an address, for fonts/mod.rs:83 *)
Fixpoint mem_get (a : N) (m : memory) : option cell :=
  match m with
  | [] => None
  | (a', c) :: r => if a =? a' then Some c else mem_get a r
  end.
(** Changing an allocation in place, for convert.rs:270 *)
Fixpoint mem_set (a : N) (c : cell) (m : memory) : memory :=
  match m with
  | [] => []
  | (a', c') :: r => if a =? a' then (a', c) :: r else (a', c') :: mem_set a c r
  end.
(** Freeing an allocation, for convert.rs:18-25 *)
Fixpoint mem_free (a : N) (m : memory) : memory :=
  match m with
  | [] => []
  | (a', c') :: r => if a =? a' then r else (a', c') :: mem_free a r
  end.

(** The same font in an allocation at address [a]: fonts/mod.rs:80-84 *)
Definition moved (a : N) (f : font) : font :=
  mkFont a (f_bytes f) (f_name f) (f_min_x f) (f_min_y f) (f_max_x f) (f_max_y f)
    (f_ascender f) (f_descender f) (f_code_points f) (f_code_points_result f)
    (f_glyph_count f) (f_glyph_width f).

(** [Arc::clone] of a reference to address [a] (convert.rs:270); [None] when it dangles. *)
Definition arc_clone (a : N) (m : memory) : option memory :=
  match mem_get a m with
  | Some c => Some (mem_set a (mkCell (c_font c) (c_strong c + 1)) m)
  | None => None
  end.
(** [Drop for Arc] (convert.rs:271-274, 377 and 18-25): the last reference frees the
    allocation; [None] when the reference dangles. *)
Definition arc_drop (a : N) (m : memory) : option memory :=
  match mem_get a m with
  | Some c => Some (if c_strong c =? 1 then mem_free a m
                    else mem_set a (mkCell (c_font c) (c_strong c - 1)) m)
  | None => None
  end.

(** ** The program that uses the crate *)
(** Memory, the references to fonts the program owns (by address), the document, and its page
    if there is one (pdf/mod.rs:13-19).  Simplification: one document at a time. *)
Record world : Type := mkWorld {
  w_mem : memory; w_owned : list N; w_doc : doc; w_page : option page }.

(** pdf/mod.rs:22-26 *)
Definition start : world := mkWorld [] [] doc_new None.

(** What the program does: the public interface of pdf/mod.rs:21-74, and loading
    (fonts/mod.rs:76-84), cloning and dropping fonts.  [Load f a]: a file with contents [f] was
    read and [Arc::new] answered address [a]. *)
Inductive event : Type :=
| Load (f : font) (a : N)
| Clone (a : N)
| Release (a : N)
| AddPage (width height : dec)
| DropPage
| Paint (c : dec * dec * dec * dec)
| Rectangle (x y w h : dec)
| Text (a : N) (glyphs : list N) (font_size x y : dec).

(** Whether the program owns a reference to [a] (fonts/mod.rs:83) *)
Definition owns (a : N) (l : list N) : bool := existsb (N.eqb a) l.
(** One reference to [a] less (fonts/mod.rs:83) *)
Fixpoint disown (a : N) (l : list N) : list N :=
  match l with
  | [] => []
  | b :: r => if a =? b then r else b :: disown a r
  end.

(** convert.rs:268-274 and 377-397: [add_font] with its references.  The clone made for the key
    is kept by the map when the key is inserted, and dropped otherwise. *)
Definition add_font_counted (m : memory) (d : doc) (a : N) : option memory :=
  match mem_get a m with
  | None => None
  | Some c =>
      match arc_clone a m with
      | None => None
      | Some m' =>
          match assoc a (d_fonts d), snd (add_font d (c_font c)) with
          | None, Ok _ => Some m'
          | _, _ => arc_drop a m'
          end
      end
  end.

(** One event.  [Err tt]: the language, or the contract of the allocator, does not allow it;
    [Panic]: a reference dangles.  pdf/mod.rs:21-74 with convert.rs:94-120 and 188-240 *)
Definition step (w : world) (e : event) : res unit world :=
  match e with
  | Load f a =>
      match mem_get a (w_mem w) with
      | Some _ => Err tt
      | None => Ok (mkWorld ((a, mkCell (moved a f) 1) :: w_mem w) (a :: w_owned w) (w_doc w) (w_page w))
      end
  | Clone a =>
      if owns a (w_owned w) then
        match arc_clone a (w_mem w) with
        | Some m => Ok (mkWorld m (a :: w_owned w) (w_doc w) (w_page w))
        | None => Panic
        end
      else Err tt
  | Release a =>
      if owns a (w_owned w) then
        match arc_drop a (w_mem w) with
        | Some m => Ok (mkWorld m (disown a (w_owned w)) (w_doc w) (w_page w))
        | None => Panic
        end
      else Err tt
  | AddPage width height =>
      match w_page w with
      | Some _ => Err tt
      | None => Ok (mkWorld (w_mem w) (w_owned w) (w_doc w) (Some (page_new width height)))
      end
  | DropPage =>
      match w_page w with
      | Some p => Ok (mkWorld (w_mem w) (w_owned w) (page_drop (w_doc w) p) None)
      | None => Err tt
      end
  | Paint c =>
      match w_page w with
      | Some p => let (d, p) := set_color (w_doc w) p c in
                  Ok (mkWorld (w_mem w) (w_owned w) d (Some p))
      | None => Err tt
      end
  | Rectangle x y wd h =>
      match w_page w with
      | Some p => Ok (mkWorld (w_mem w) (w_owned w) (w_doc w) (Some (paint_rectangle p x y wd h)))
      | None => Err tt
      end
  | Text a glyphs fs x y =>
      match w_page w with
      | Some p =>
          if owns a (w_owned w) then
            match mem_get a (w_mem w), add_font_counted (w_mem w) (w_doc w) a with
            | Some c, Some m =>
                let '(d, p, _) := show_text (w_doc w) p (c_font c) glyphs fs x y in
                Ok (mkWorld m (w_owned w) d (Some p))
            | _, _ => Panic
            end
          else Err tt
      | None => Err tt
      end
  end.

(** A run of the program (pdf/mod.rs:21-74) *)
Fixpoint exec (w : world) (l : list event) : res unit world :=
  match l with
  | [] => Ok w
  | e :: r => match step w e with
              | Ok w => exec w r
              | Err e => Err e
              | Panic => Panic
              end
  end.

(** Dropping the document drops the keys of its map: convert.rs:18-25 *)
Fixpoint drop_keys (keys : list (N * bytes)) (m : memory) : option memory :=
  match keys with
  | [] => Some m
  | (a, _) :: r => match arc_drop a m with
                   | Some m => drop_keys r m
                   | None => None
                   end
  end.
