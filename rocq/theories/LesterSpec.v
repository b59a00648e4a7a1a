(** * What is expected of lester, independently of how it is written *)

From Coq Require Import QArith Qround.
From Verif Require Import Base LesterFloat Lester.

Local Open Scope Z_scope.

(** ** Ownership of C objects (the documentation of cairo, glib and poppler) *)

Inductive kind := KSurface | KContext | KObject | KError | KString.
Definition reference : Type := kind * ptr.

Definition nonnull (k : kind) (p : ptr) : list reference := if p =? 0 then [] else [(k, p)].

(** The references that the caller of a C function owns after it. *)
Definition acquired (c : ccall) : list reference :=
  match c with
  | ImageSurfaceCreate _ _ _ s | CreateFromPngStream s => nonnull KSurface s
  | CairoCreate _ c => nonnull KContext c
  | DocumentNewFromData _ d e => nonnull KObject d ++ nonnull KError e
  | DocumentGetPage _ _ p => nonnull KObject p
  | DocumentGetProducer _ g | PageGetText _ g => nonnull KString g
  | _ => []
  end.

(** The references that it gives up with it. *)
Definition released (c : ccall) : list reference :=
  match c with
  | SurfaceDestroy s => [(KSurface, s)]
  | CairoDestroy c => [(KContext, c)]
  | ObjectUnref o => [(KObject, o)]
  | ErrorFree e => [(KError, e)]
  | GFree g => [(KString, g)]
  | _ => []
  end.

(** The references that it must have. *)
Definition required (c : ccall) : list reference :=
  match c with
  | SurfaceStatus s _ | ImageSurfaceGetWidth s _ | ImageSurfaceGetHeight s _
  | ImageSurfaceGetStride s _ | ImageSurfaceGetData s _ | ImageSurfaceGetFormat s _
  | WriteToPngStream s _ | SurfaceFlush s | CairoCreate s _ => [(KSurface, s)]
  | CairoSetSourceRgb c _ _ _ | CairoPaint c | CairoScale c _ _ | CairoStatus c _ => [(KContext, c)]
  | DocumentGetNPages o _ | DocumentGetPage o _ _ | DocumentGetProducer o _
  | PageGetSize o _ _ | PageGetText o _ => [(KObject, o)]
  | PageRender o c | PageRenderForPrinting o c => [(KObject, o); (KContext, c)]
  | ReadString g _ => [(KString, g)]
  | ReadErrorMessage e _ => [(KError, e)]
  | SurfaceDestroy _ | CairoDestroy _ | ObjectUnref _ | ErrorFree _ | GFree _ => released c
  | ImageSurfaceCreate _ _ _ _ | CreateFromPngStream _ | DocumentNewFromData _ _ _ => []
  end.

Definition kind_eqb (a b : kind) : bool :=
  match a, b with
  | KSurface, KSurface | KContext, KContext | KObject, KObject
  | KError, KError | KString, KString => true
  | _, _ => false
  end.
Definition reference_eqb (a b : reference) : bool :=
  kind_eqb (fst a) (fst b) && (snd a =? snd b).

(** How often a reference is in a list, and how many of it are owned after
    some calls (the latest first). *)
Fixpoint occurrences (r : reference) (l : list reference) : Z :=
  match l with
  | [] => 0
  | x :: l => (if reference_eqb r x then 1 else 0) + occurrences r l
  end.
Fixpoint owned (r : reference) (h : history) : Z :=
  match h with
  | [] => 0
  | c :: h => owned r h + occurrences r (acquired c) - occurrences r (released c)
  end.

(** Nothing is used or released that is not owned at that moment: no use
    after release, no double release. *)
Fixpoint disciplined (h : history) : Prop :=
  match h with
  | [] => True
  | c :: h => Forall (fun r => 0 < owned r h) (required c) /\ disciplined h
  end.

(** What the documentation of the C libraries promises about null pointers:
    cairo never returns one, and an error is set exactly if there is no
    document. *)
Fixpoint reader_returns_nonnull (t : png_reader) : Prop :=
  match t with
  | ReaderReturns s => s <> 0
  | ReaderCalls _ next => forall status buffer, reader_returns_nonnull (next status buffer)
  end.
Record null_contract (E : environment) : Prop := {
  contract_create : forall h f x y, env_image_surface_create E h f x y <> 0;
  contract_png : forall h, reader_returns_nonnull (env_png_reader E h);
  contract_context : forall h s, env_cairo_create E h s <> 0;
  contract_error : forall h d, fst (env_document_new E h d) = 0 <-> snd (env_document_new E h d) <> 0
}.

(** ** Safe Rust code that uses lester

    It owns values, each known by a number, and does any of the operations
    of the public interface to them, in any order, as long as the borrow
    checker lets it: an iterator over pages borrows its document.  A panic is
    caught, and the values that were there still are. *)
Inductive value :=
| VSurface (s : ptr)
| VDocument (d : ptr)
| VPage (p : ptr)
| VString (g : ptr)
| VGlibError (e : ptr)
| VIter (document : nat) (it : pages_iter).

Inductive operation :=
| ONewRgb24 (width height : N)
| ONewArgb32 (width height : N)
| OReadPng (S : Type) (read_exact : S -> bytes -> S * io_outcome * bytes) (stream : S)
| OWritePng (S : Type) (write_all : S -> bytes -> S * io_outcome) (stream : S) (surface : nat)
| OPixels (surface : nat)
| OFromBytes (data : bytes)
| OPages (document : nat)
| OProducer (document : nat)
| ONext (iter : nat)
| ONth (n : N) (iter : nat)
| ONextBack (iter : nat)
| OSizeInCssPx (page : nat)
| ORender (options : render_options) (page : nat)
| OText (page : nat)
| OToStr (string : nat)
| ODescription (error : nat)
| ODrop (value : nat).

Record client := Client {
  values : list (nat * value);
  fresh : nat;
  past : history
}.
Definition start : client := Client [] 0 [].

Definition find (k : nat) (l : list (nat * value)) : option value :=
  match List.find (fun x => Nat.eqb (fst x) k) l with Some (_, v) => Some v | None => None end.
Definition remove (k : nat) (l : list (nat * value)) : list (nat * value) :=
  filter (fun x => negb (Nat.eqb (fst x) k)) l.
Definition borrowed (k : nat) (l : list (nat * value)) : bool :=
  existsb (fun x => match snd x with VIter d _ => Nat.eqb d k | _ => false end) l.
Definition add (vs : list value) (l : list (nat * value)) (n : nat) : list (nat * value) :=
  match vs with [] => l | v :: _ => (n, v) :: l end.

(** What the client owns of C's. *)
Definition reference_of (v : value) : list reference :=
  match v with
  | VSurface s => [(KSurface, s)]
  | VDocument d => [(KObject, d)]
  | VPage p => [(KObject, p)]
  | VString g => [(KString, g)]
  | VGlibError e => [(KError, e)]
  | VIter _ _ => []
  end.
Definition references (l : list (nat * value)) : list reference :=
  flat_map (fun x => reference_of (snd x)) l.

Section Client.
Variable E : environment.
Variable overflow_checks : bool.
Variable is_utf8 : bytes -> bool.

(** The new values that a result holds: none if the code unwound. *)
Definition holds {A} (r : outcome A) (f : A -> list value) : list value :=
  match r with Done a => f a | Unwinds _ => [] end.
Definition ok {X A} (f : A -> value) (r : X + A) : list value :=
  match r with inl _ => [] | inr a => [f a] end.
Definition some {A} (f : A -> value) (r : option A) : list value :=
  match r with None => [] | Some a => [f a] end.

(** Run some code and keep the new values. *)
Definition run {A} (c : client) (code : code A) (f : A -> list value) : client :=
  let (r, h) := code (past c) in
  Client (add (holds r f) (values c) (fresh c)) (S (fresh c)) h.

Definition advance_by (step : pages_iter -> pages_iter * code (option ptr)) (k : nat) (c : client) : client :=
  match find k (values c) with
  | Some (VIter d it) =>
      let (it', code) := step it in
      run (Client ((k, VIter d it') :: remove k (values c)) (fresh c) (past c)) code (some VPage)
  | _ => c
  end.

Definition destructor (v : value) : code unit :=
  match v with
  | VSurface s => drop_surface s
  | VDocument d => drop_document d
  | VPage p => drop_page p
  | VString g => drop_string g
  | VGlibError e => drop_glib_error e
  | VIter _ _ => done tt
  end.

(** One operation; one that the compiler would refuse does nothing. *)
Definition operate (o : operation) (c : client) : client :=
  match o with
  | ONewRgb24 w h => run c (new_rgb24 E w h) (ok VSurface)
  | ONewArgb32 w h => run c (new_argb32 E w h) (ok VSurface)
  | OReadPng T read s => run c (fun h => fst (read_from_png E T read s h)) (ok VSurface)
  | OWritePng T write s k =>
      match find k (values c) with
      | Some (VSurface p) => run c (fun h => fst (write_to_png E T write p s h)) (fun _ => [])
      | _ => c
      end
  | OPixels k =>
      match find k (values c) with
      | Some (VSurface s) => run c (pixels E overflow_checks s) (fun _ => [])
      | _ => c
      end
  | OFromBytes d =>
      run c (from_bytes E d) (fun r => match r with inl e => [VGlibError e] | inr d => [VDocument d] end)
  | OPages k =>
      match find k (values c) with
      | Some (VDocument d) => run c (pages E d) (fun it => [VIter k it])
      | _ => c
      end
  | OProducer k =>
      match find k (values c) with
      | Some (VDocument d) => run c (producer E d) (some VString)
      | _ => c
      end
  | ONext k => advance_by (iter_next E) k c
  | ONth n k => advance_by (iter_nth E n) k c
  | ONextBack k => advance_by (iter_next_back E) k c
  | OSizeInCssPx k =>
      match find k (values c) with
      | Some (VPage p) => run c (size_in_css_px E p) (fun _ => [])
      | _ => c
      end
  | ORender o k =>
      match find k (values c) with
      | Some (VPage p) => run c (render_with_options E p o) (ok VSurface)
      | _ => c
      end
  | OText k =>
      match find k (values c) with
      | Some (VPage p) => run c (page_text E p) (fun g => [VString g])
      | _ => c
      end
  | OToStr k =>
      match find k (values c) with
      | Some (VString g) => run c (to_str E is_utf8 g) (fun _ => [])
      | _ => c
      end
  | ODescription k =>
      match find k (values c) with
      | Some (VGlibError e) => run c (glib_description E is_utf8 e) (fun _ => [])
      | _ => c
      end
  | ODrop k =>
      match find k (values c) with
      | Some v =>
          if borrowed k (values c) then c
          else run (Client (remove k (values c)) (fresh c) (past c)) (destructor v) (fun _ => [])
      | None => c
      end
  end.

Definition execute (os : list operation) : client := fold_left (fun c o => operate o c) os start.
End Client.

(** ** Streams *)

(** A stream that remembers how its operations ended, with their data. *)
Definition logged_read {S} (read : S -> bytes -> S * io_outcome * bytes)
  (s : S * list (bytes * io_outcome)) (buffer : bytes) : S * list (bytes * io_outcome) * io_outcome * bytes :=
  let '(s', r, b) := read (fst s) buffer in ((s', snd s ++ [(b, r)]), r, b).
Definition logged_write {S} (write : S -> bytes -> S * io_outcome)
  (s : S * list (bytes * io_outcome)) (data : bytes) : S * list (bytes * io_outcome) * io_outcome :=
  let '(s', r) := write (fst s) data in ((s', snd s ++ [(data, r)]), r).

(** The last panic and the first error among some operations. *)
Fixpoint last_panic (l : list (bytes * io_outcome)) : option N :=
  match l with
  | [] => None
  | (_, r) :: l =>
      match last_panic l with
      | Some n => Some n
      | None => match r with IoPanic n => Some n | _ => None end
      end
  end.
Fixpoint first_error (l : list (bytes * io_outcome)) : option io_error :=
  match l with
  | [] => None
  | (_, IoErr e) :: _ => Some e
  | _ :: l => first_error l
  end.
Definition failed (r : io_outcome) : Prop := r <> IoOk.

(** A cairo that gives up as soon as the stream fails. *)
Fixpoint gives_up_reading (t : png_reader) : Prop :=
  match t with
  | ReaderReturns _ => True
  | ReaderCalls _ next =>
      (forall b, gives_up_reading (next 0 b)) /\
      (forall status b, status <> 0 -> exists s, next status b = ReaderReturns s)
  end.
Fixpoint gives_up_writing (t : png_writer) : Prop :=
  match t with
  | WriterReturns _ => True
  | WriterCalls _ next =>
      gives_up_writing (next 0) /\
      (forall status, status <> 0 -> exists s, next status = WriterReturns s)
  end.

(** What cairo writes when nothing fails, and its status at the end. *)
Fixpoint emitted (t : png_writer) : list bytes * Z :=
  match t with
  | WriterReturns status => ([], status)
  | WriterCalls data next => let (l, status) := emitted (next 0) in (data :: l, status)
  end.

(** What cairo returns, if the read function ends and fills its buffer as
    told. *)
Fixpoint replay (t : png_reader) (log : list (bytes * io_outcome)) : option ptr :=
  match t, log with
  | ReaderReturns s, [] => Some s
  | ReaderCalls _ next, (b, r) :: log => replay (next (match r with IoOk => 0 | _ => 10 end) b) log
  | _, _ => None
  end.

(** What cairo makes of a file that is all there: the surface, or nothing if
    the file is too short. *)
Fixpoint fed (t : png_reader) (file : bytes) : option ptr :=
  match t with
  | ReaderReturns s => Some s
  | ReaderCalls buffer next =>
      if (length buffer <=? length file)%nat
      then fed (next 0 (firstn (length buffer) file)) (skipn (length buffer) file)
      else None
  end.

(** [Read for &[u8]] of the standard library: [read_exact] takes the bytes
    from the front, or fails and leaves the buffer alone. *)
Definition slice_read (unexpected_eof : io_error) (file : bytes) (buffer : bytes) : bytes * io_outcome * bytes :=
  if (length buffer <=? length file)%nat
  then (skipn (length buffer) file, IoOk, firstn (length buffer) file)
  else (file, IoErr unexpected_eof, buffer).

(** A file in which writing appends, as many bytes as there is room for. *)
Definition disk_put (disk_full : io_error) (f : bytes * nat) (data : bytes) : bytes * nat * N * option io_error :=
  let (contents, room) := f in
  if (length data <=? room)%nat
  then ((contents ++ data, room - length data)%nat, N.of_nat (length data), None)
  else ((contents ++ firstn room data, 0%nat), N.of_nat room, Some disk_full).

(** ** Iterating over pages: a queue of page numbers, open at both ends *)

Inductive queue_operation := QNext | QNextBack | QNth (n : N) | QLen.

Definition queue_step (o : queue_operation) (l : list Z) : option Z * list Z :=
  match o with
  | QNext => (hd_error l, tl l)
  | QNextBack => (hd_error (rev l), removelast l)
  | QNth n => (hd_error (skipn (N.to_nat n) l), tl (skipn (N.to_nat n) l))
  | QLen => (Some (Z.of_nat (length l)), l)
  end.
(** What the operations on the pages of a document with such a queue return,
    and the pages that poppler is asked for: a page that poppler cannot load
    (null) is a panic. *)
Fixpoint queue_run (E : environment) (d : ptr) (os : list queue_operation) (l : list Z) (h : history)
  : list (outcome (option Z)) * history :=
  match os with
  | [] => ([], h)
  | o :: os =>
      let (r, l') := queue_step o l in
      let '(result, h') :=
        match o, r with
        | QLen, _ | _, None => (Done r, h)
        | _, Some i =>
            let p := env_get_page E h d i in
            ((if p =? 0 then Unwinds NullPage else Done (Some p)), DocumentGetPage d i p :: h)
        end in
      let (results, h'') := queue_run E d os l' h' in
      (result :: results, h'')
  end.

(** The same operations on an iterator of lester's. *)
Definition iter_step (E : environment) (o : queue_operation) (it : pages_iter) : pages_iter * code (option Z) :=
  match o with
  | QNext => iter_next E it
  | QNextBack => iter_next_back E it
  | QNth n => iter_nth E n it
  | QLen => (it, done (Some (Z.of_N (iter_len it))))
  end.
Fixpoint iterate (E : environment) (os : list queue_operation) (it : pages_iter) (h : history)
  : list (outcome (option Z)) * history :=
  match os with
  | [] => ([], h)
  | o :: os =>
      let (it', code) := iter_step E o it in
      let (result, h') := code h in
      let (results, h'') := iterate E os it' h' in
      (result :: results, h'')
  end.

(** The pages that poppler was asked for, the latest first. *)
Definition requested (h : history) : list Z :=
  flat_map (fun c => match c with DocumentGetPage _ i _ => [i] | _ => [] end) h.

(** The numbers from 0 to [n - 1]. *)
Definition numbers (n : Z) : list Z := map Z.of_nat (seq 0 (Z.to_nat n)).

(** ** Sizes *)

(** A page of so many pixels of CSS is three quarters of it in points. *)
Definition points (px : Q) : Q := ((3 # 4) * px)%Q.

(** The whole part of a number, towards zero. *)
Definition truncated (q : Q) (z : Z) : Prop :=
  (0 <= q /\ inject_Z z <= q /\ q < inject_Z z + 1 \/ q < 0 /\ inject_Z z - 1 < q /\ q <= inject_Z z)%Q.

(** Sizes and scales neither enormous nor tiny. *)
Definition moderate (q : Q) : Prop := (pow2 (-500) <= q /\ q <= pow2 500)%Q.

(** A number of pixels for so many points at a scale: rounded up, with a
    relative error of 2^-51 before that. *)
Definition pixels_for (size dppx : Q) (n : Z) : Prop :=
  ((4 # 3) * size * dppx * (1 - pow2 (-51)) <= inject_Z n /\
   inject_Z n < (4 # 3) * size * dppx * (1 + pow2 (-51)) + 1)%Q.

(** The calls of a successful rendering, the latest first. *)
Definition drawn (page : ptr) (o : render_options) (pw ph : f64) (width height : Z) (s c : ptr) (sx sy : f64)
  : history :=
  [CairoDestroy c; CairoStatus c 0;
   if opt_for_printing o then PageRenderForPrinting page c else PageRender page c;
   CairoScale c sx sy] ++
  match opt_backdrop o with
  | White => [CairoPaint c; CairoSetSourceRgb c (FVal 1) (FVal 1) (FVal 1)]
  | Transparent => []
  end ++
  [CairoStatus c 0; CairoCreate s c; SurfaceStatus s 0;
   ImageSurfaceCreate (match opt_backdrop o with Transparent => 0 | White => 1 end) width height s;
   PageGetSize page pw ph].

(** ** Images in memory *)

(** The calls that ask something about a surface, or flush it. *)
Definition question_about_image (c : ccall) : Prop :=
  match c with
  | SurfaceFlush _ | ImageSurfaceGetData _ _ | ImageSurfaceGetWidth _ _ | ImageSurfaceGetHeight _ _
  | ImageSurfaceGetStride _ _ | ImageSurfaceGetFormat _ _ => True
  | _ => False
  end.

(** The surface is an image with these properties, and stays so while only
    questions are asked. *)
Record is_image (E : environment) (h : history) (s : ptr) (width height stride : Z) (data : ptr) (format : Z)
  : Prop := IsImage {
  image_has_width : forall l, Forall question_about_image l -> env_get_width E (l ++ h) s = width;
  image_has_height : forall l, Forall question_about_image l -> env_get_height E (l ++ h) s = height;
  image_has_stride : forall l, Forall question_about_image l -> env_get_stride E (l ++ h) s = stride;
  image_has_data : forall l, Forall question_about_image l -> env_get_data E (l ++ h) s = data;
  image_has_format : forall l, Forall question_about_image l -> env_get_format E (l ++ h) s = format
}.

(** The value of a C [int]. *)
Definition is_int (z : Z) : Prop := -2147483648 <= z <= 2147483647.

(** The value of a number in hexadecimal, and of eight digits at a time of a
    list of such numbers, each with a separator of two bytes before it except
    the first. *)
Definition hex_value (digit : N) : N := (if digit <? 58 then digit - 48 else digit - 55)%N.
Definition hex_number (digits : bytes) : N := fold_left (fun n d => 16 * n + hex_value d)%N digits 0%N.
Fixpoint hex_numbers (fuel : nat) (text : bytes) : list N :=
  match fuel, text with
  | S fuel, _ :: _ => hex_number (firstn 8 text) :: hex_numbers fuel (skipn 10 text)
  | _, _ => []
  end.
