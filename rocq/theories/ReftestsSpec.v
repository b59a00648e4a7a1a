(** Specification for C69: when a reference test passes. *)
From Verif Require Import Base Dom DomSpec Lester Reftests.

(** [p] is a file with this extension: the last component is a nonempty name, a dot and the extension.  There may be
    slashes after it. *)
Definition has_extension (p : path) (e : bytes) : Prop :=
  exists directory name slashes, p = directory ++ name ++ bs "." ++ e ++ slashes /\
    (directory = [] \/ exists d, directory = d ++ bs "/") /\
    name <> [] /\ ~ In 47%N name /\ ~ In 46%N e /\ ~ In 47%N e /\ Forall (fun b => b = 47%N) slashes.

(** [href], with one slash for several in a row *)
Inductive single_slashes : bytes -> bytes -> Prop :=
| ss_end : single_slashes [] []
| ss_last : single_slashes (bs "/") (bs "/")
| ss_slashes : forall r r', single_slashes (47%N :: r) r' -> single_slashes (47%N :: 47%N :: r) r'
| ss_slash : forall b r r', b <> 47%N -> single_slashes (b :: r) r' -> single_slashes (47%N :: b :: r) (47%N :: r')
| ss_other : forall b r r', b <> 47%N -> single_slashes r r' -> single_slashes (b :: r) (b :: r').
(** Relative to a directory *)
Definition relative_to (directory href p : path) : Prop :=
  (exists b r, href = b :: r /\ b <> 47%N) /\ exists h, single_slashes href h /\ p = directory ++ bs "/" ++ h.

(** Element [i] of the document is [<link rel=… href=…>] *)
Definition link_in (d : document) (rel href : bytes) : Prop :=
  exists i e, inclusive_ancestor d document_node_id i /\ data (node_at d i) = DElement e /\
    q_ns (e_name e) = ns_html /\ q_local (e_name e) = bs "link" /\
    first_attr (bs "rel") (e_attrs e) (Some rel) /\ first_attr (bs "href") (e_attrs e) (Some href).

Section Spec.
Variable read : path -> option bytes.
Variable parse_html : bytes -> option document.
Variable to_pdf_bytes : document -> option bytes.
Variable page_count : bytes -> option nat.
Variable read_from_png : bytes -> option image.
Variable render : bytes -> nat -> option image.

Definition html_file (p : path) (d : document) : Prop :=
  has_extension p (bs "html") /\ exists contents, read p = Some contents /\ parse_html contents = Some d.
(** What a file shows, if it is one page *)
Inductive shows (p : path) (page : image) : Prop :=
| shows_html : forall d pdf, html_file p d -> to_pdf_bytes d = Some pdf -> page_count pdf = Some 1 ->
    render pdf 1 = Some page -> shows p page
| shows_png : forall contents, has_extension p (bs "png") -> read p = Some contents -> read_from_png contents = Some page ->
    shows p page.
(** The test, a file in [directory]: each reference it names must show the same, or something else *)
Definition passes (directory p : path) : Prop :=
  exists page, shows p page /\
    forall d rel href, html_file p d -> link_in d rel href ->
      (rel = bs "match" -> exists r, relative_to directory href r /\ shows r page) /\
      (rel = bs "mismatch" -> exists r page', relative_to directory href r /\ shows r page' /\ page' <> page).
End Spec.

(** Regular files below a directory; [d] is the directory they are in *)
Inductive regular_file : path -> entry -> path -> path -> Prop :=
| rf_here : forall directory entries name, In (name, File) entries ->
    regular_file directory (Dir entries) directory (directory ++ bs "/" ++ name)
| rf_below : forall directory entries name n d p, In (name, n) entries -> regular_file (directory ++ bs "/" ++ name) n d p ->
    regular_file directory (Dir entries) d p.
(** Names of entries are not empty, have no slash, and are different *)
Inductive wf_entry : entry -> Prop :=
| wf_file : wf_entry File
| wf_other : wf_entry Other
| wf_dir : forall entries, NoDup (map fst entries) ->
    (forall name n, In (name, n) entries -> name <> [] /\ ~ In 47%N name) ->
    (forall name n, In (name, n) entries -> wf_entry n) -> wf_entry (Dir entries).
Definition selected (args : list bytes) (directory p : path) : Prop :=
  args = [] \/ exists arg before after, In arg args /\ p = directory ++ bs "/" ++ before ++ arg ++ after.
