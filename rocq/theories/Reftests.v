(** Model of tests/reftests.rs: the program that compares what files look like. *)
From Verif Require Import Base Dom Lester.

(** Paths are [PathBuf]s of Unix: their bytes.  Lines 1-4 *)
Definition path := bytes.
(** [PathBuf::push], with [/] as only separator: lines 32, 150 *)
Definition push (p component : path) : path :=
  if (match component with b :: _ => b =? 47 | [] => false end)%N then component
  else (match rev p with b :: _ => if (b =? 47)%N then p else p ++ bs "/" | [] => p end) ++ component.
(** [str::split('/')]: line 150 *)
Fixpoint split_slashes (s : bytes) : list bytes :=
  match s with
  | [] => [[]]
  | b :: r =>
      if (b =? 47)%N then [] :: split_slashes r
      else match split_slashes r with
           | [] => [[b]]
           | x :: l => (b :: x) :: l
           end
  end.
(** Lines 146-152 [resolve_href]; [None]: an assertion fails *)
Definition resolve_href (base href : path) : option path :=
  match href with
  | [] => None
  | b :: _ => if (b =? 47)%N then None else Some (fold_left push (split_slashes href) base)
  end.

(** [Path::parent] at line 107.  Simplification: for a path that has a component, and neither separators at its end nor
    several in a row: what is before the last one *)
Fixpoint split_last (separator : N) (s : bytes) : option (bytes * bytes) :=
  match s with
  | [] => None
  | b :: r =>
      match split_last separator r with
      | Some (x, y) => Some (b :: x, y)
      | None => if (b =? separator)%N then Some ([], r) else None
      end
  end.
(** [Path::parent]: line 107 *)
Definition path_parent (p : path) : option path := match split_last 47 p with Some (x, _) => Some x | None => None end.
(** [Path::extension] at line 61: what is after the last dot of the last component, unless the component starts with
    its only dot, or is [..].  Simplification: components [.] at the end are not left out; there, regular files cannot
    be read. *)
Fixpoint trim_end_slashes (s : bytes) : bytes :=
  match s with
  | [] => []
  | b :: r => match trim_end_slashes r with [] => if (b =? 47)%N then [] else [b] | r => b :: r end
  end.
(** [Path::file_name], in [Path::extension]: line 61 *)
Definition file_name (p : path) : bytes :=
  let p := trim_end_slashes p in match split_last 47 p with Some (_, y) => y | None => p end.
(** [Path::extension]: line 61 *)
Definition extension (p : path) : option bytes :=
  if bytes_eqb (file_name p) (bs "..") then None
  else match split_last 46 (file_name p) with
       | Some ([], _) | None => None
       | Some (_, y) => Some y
       end.

(** What the program does to the world: lines 57, 78-79, 85-89, 103, 126 *)
Inductive event :=
| ReadFile (p : path)
| ToPdf (d : document)
| CountPages (pdf : bytes)
| Render (pdf : bytes) (page_number : nat)
| WritePng (p : path) (i : image)
| WriteFile (p : path) (contents : bytes).

Section Reftests.
(** The file system: [None] is an error *)
Variable read : path -> option bytes.
(** [Document::parse_html] (C38) and [Document::to_pdf_bytes] (C60) *)
Variable parse_html : bytes -> option document.
Variable to_pdf_bytes : document -> option bytes.
(** [PdfDocument::from_bytes] and [pages] (C65): the number of pages; [ImageSurface::read_from_png] (C63); and
    lines 154-178 [render_without_antialiasing], which runs another program *)
Variable page_count : bytes -> option nat.
Variable read_from_png : bytes -> option image.
Variable render : bytes -> nat -> option image.
(** Lines 20-27 *)
Variable target_dir : path.

(** Steps that may panic ([None]), after some events: lines 56-137 *)
Definition step (A : Type) : Type := list event -> option A * list event.
(** No event and no panic (lines 56-137) *)
Definition done {A} (a : A) : step A := fun log => (Some a, log).
(** [panic!], [assert!], [unwrap] (lines 56-137) *)
Definition panic {A} : step A := fun log => (None, log).
(** One after the other (lines 56-137) *)
Definition and_then {A B} (s : step A) (f : A -> step B) : step B :=
  fun log => match s log with (Some a, log) => f a log | (None, log) => (None, log) end.
(** An event (lines 57, 89, 103, 126) *)
Definition emit (e : event) : step unit := fun log => (Some tt, log ++ [e]).
(** [unwrap] (lines 57-103) *)
Definition lift {A} (o : option A) : step A := fun log => (o, log).
Declare Scope step_scope.
Notation "x <~ s ;; k" := (and_then s (fun x => k)) (at level 61, s at next level, right associativity) : step_scope.
Open Scope step_scope.

(** Lines 48-53 *)
Record test_file : Type := TestFile {
  tf_path : path;
  tf_doc : option document;
  tf_pdf : option bytes;
  tf_pages_pixels : option (list image) }.

(** Lines 56-75 *)
Definition load_file (p : path) : step test_file :=
  _ <~ emit (ReadFile p) ;;
  contents <~ lift (read p) ;;
  match extension p with
  | Some e =>
      if bytes_eqb e (bs "html") then d <~ lift (parse_html contents) ;; done (TestFile p (Some d) None None)
      else if bytes_eqb e (bs "pdf") then done (TestFile p None (Some contents) None)
      else if bytes_eqb e (bs "png") then i <~ lift (read_from_png contents) ;; done (TestFile p None None (Some [i]))
      else panic
  | None => panic
  end.

(** Lines 77-80 *)
Definition pdf_bytes (t : test_file) : step (bytes * test_file) :=
  d <~ lift (tf_doc t) ;;
  match tf_pdf t with
  | Some b => done (b, t)
  | None =>
      _ <~ emit (ToPdf d) ;;
      b <~ lift (to_pdf_bytes d) ;;
      done (b, TestFile (tf_path t) (tf_doc t) (Some b) (tf_pages_pixels t))
  end.

(** Lines 85-90 *)
Fixpoint render_pages (pdf : bytes) (numbers : list nat) : step (list image) :=
  match numbers with
  | [] => done []
  | n :: r =>
      _ <~ emit (Render pdf n) ;;
      i <~ lift (render pdf n) ;;
      l <~ render_pages pdf r ;;
      done (i :: l)
  end.
(** Lines 82-94 *)
Definition pages_pixels (t : test_file) : step (list image * test_file) :=
  match tf_pages_pixels t with
  | Some l => done (l, t)
  | None =>
      bt <~ pdf_bytes t ;;
      let (b, t) := (bt : bytes * test_file) in
      _ <~ emit (CountPages b) ;;
      n <~ lift (page_count b) ;;
      l <~ render_pages b (seq 1 n) ;;
      done (l, TestFile (tf_path t) (tf_doc t) (tf_pdf t) (Some l))
  end.

(** Lines 96-100 *)
Definition expect_single_page (t : test_file) : step (image * test_file) :=
  lt <~ pages_pixels t ;;
  match lt : list image * test_file with
  | ([i], t) => done (i, t)
  | _ => panic
  end.

(** Lines 102-104.  Simplification: files can be written; if not, this panics. *)
Definition write_png (t : test_file) (p : path) : step test_file :=
  lt <~ pages_pixels t ;;
  match lt : list image * test_file with
  | (i :: _, t) => _ <~ emit (WritePng p i) ;; done t
  | ([], _) => panic
  end.

(** Lines 108-116 *)
Fixpoint references_of (base : path) (links : list (bytes * bytes)) : option (list (bool * path)) :=
  match links with
  | [] => Some []
  | (rel, href) :: links =>
      if bytes_eqb rel (bs "match") || bytes_eqb rel (bs "mismatch") then
        match resolve_href base href with
        | None => None
        | Some p => match references_of base links with Some l => Some ((bytes_eqb rel (bs "match"), p) :: l) | None => None end
        end
      else references_of base links
  end.
(** Lines 118-136; a panic with a message that the test failed is one after events that say so *)
Fixpoint compare (t : test_file) (page : image) (references : list (bool * path)) : step unit :=
  match references with
  | [] => done tt
  | (expect_equal, reference_path) :: r =>
      reference <~ load_file reference_path ;;
      ir <~ expect_single_page reference ;;
      let (reference_page, reference) := (ir : image * test_file) in
      if negb (Bool.eqb (pixels_eq page reference_page) expect_equal) then
        t <~ write_png t (push target_dir (bs "test.png")) ;;
        _ <~ write_png reference (push target_dir (bs "reference.png")) ;;
        bt <~ pdf_bytes t ;;
        _ <~ emit (WriteFile (push target_dir (bs "test.pdf")) (fst (bt : bytes * test_file))) ;;
        panic
      else compare t page r
  end.
(** Lines 106-137 *)
Definition test (t : test_file) : step unit :=
  base <~ lift (path_parent (tf_path t)) ;;
  references <~ lift (match tf_doc t with
                      | None => Some []
                      | Some d => match html_link_elements d with Ok links => references_of base links | _ => None end
                      end) ;;
  it <~ expect_single_page t ;;
  let (page, t) := (it : image * test_file) in
  compare t page references.

(** A directory, as [read_dir] gives it: names and types of entries; neither directories nor regular files are among
    others symbolic links.  Simplification: it does not change meanwhile, and names are UTF-8. *)
Inductive entry := Dir (entries : list (bytes * entry)) | File | Other.
(** Lines 35-46 [for_each_file_in] *)
Fixpoint for_each_file_in (p : path) (n : entry) (f : path -> step unit) : step unit :=
  match n with
  | Dir entries =>
      (fix go (entries : list (bytes * entry)) : step unit :=
         match entries with
         | [] => done tt
         | (name, n) :: r =>
             _ <~ match n with
                  | Dir _ => for_each_file_in (push p name) n f
                  | File => f (push p name)
                  | Other => done tt
                  end ;;
             go r
         end) entries
  | _ => panic
  end.

(** [str::contains] at line 12 *)
Fixpoint starts_with (s prefix : bytes) : bool :=
  match prefix, s with
  | [], _ => true
  | b :: prefix, c :: s => (b =? c)%N && starts_with s prefix
  | _ :: _, [] => false
  end.
(** [str::contains]: line 12 *)
Fixpoint contains (s x : bytes) : bool :=
  starts_with s x || match s with [] => false | _ :: s => contains s x end.
(** [Path::strip_prefix] at line 11, for a path that the prefix was pushed on to *)
Definition strip_prefix (p base : path) : option path :=
  if starts_with p (base ++ bs "/") then Some (skipn (length (base ++ bs "/")) p) else None.
(** Lines 6-18 [main]; [base] is what lines 29-33 give *)
Definition main (args : list bytes) (base : path) (tree : entry) : step unit :=
  for_each_file_in base tree (fun p =>
    selected <~ (match args with
                 | [] => done true
                 | _ => relative <~ lift (strip_prefix p base) ;; done (existsb (contains relative) args)
                 end) ;;
    if selected : bool then t <~ load_file p ;; test t else done tt).
End Reftests.
