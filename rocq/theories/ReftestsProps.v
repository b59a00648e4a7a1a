(** Property C69: reference tests *)
From Verif Require Import Base Dom DomSpec DomXml DomXmlSpec DomProps Lester LesterSizeProofs Reftests ReftestsSpec ReftestsProofs.

Section World.
Variable read : path -> option bytes.
Variable parse_html : bytes -> option document.
Variable to_pdf_bytes : document -> option bytes.
Variable page_count : bytes -> option nat.
Variable read_from_png : bytes -> option image.
Variable render : bytes -> nat -> option image.
Variable target_dir : path.
Definition run_test (p : path) (log : list event) : option unit * list event :=
  and_then (load_file read parse_html read_from_png p)
    (fun t => test read parse_html to_pdf_bytes page_count read_from_png render target_dir t) log.
Definition run_main (args : list bytes) (base : path) (tree : entry) : option unit * list event :=
  main read parse_html to_pdf_bytes page_count read_from_png render target_dir args base tree [].
Definition trees : Prop := forall c d, parse_html c = Some d -> exists kids, doc_forest d kids.
End World.

(** C69: a test ends without panic just if it should pass *)
Theorem C69_passes : forall read parse_html to_pdf_bytes page_count read_from_png render target_dir base name log,
  trees parse_html -> good base -> ~ In 47%N name ->
  (exists log', run_test read parse_html to_pdf_bytes page_count read_from_png render target_dir (base ++ bs "/" ++ name) log = (Some tt, log'))
  <-> passes read parse_html to_pdf_bytes page_count read_from_png render base (base ++ bs "/" ++ name).
Proof. intros. apply run_passes; assumption. Qed.

(** C69: [main] ends without panic just if each of the files that the arguments select should pass *)
Theorem C69_main : forall read parse_html to_pdf_bytes page_count read_from_png render target_dir args base entries,
  trees parse_html -> good base -> wf_entry (Dir entries) ->
  (exists log, run_main read parse_html to_pdf_bytes page_count read_from_png render target_dir args base (Dir entries) = (Some tt, log))
  <-> forall d p, regular_file base (Dir entries) d p -> selected args base p ->
        passes read parse_html to_pdf_bytes page_count read_from_png render d p.
Proof.
  intros read parse_html to_pdf_bytes page_count read_from_png render target_dir args base entries T G W.
  unfold run_main, main.
  apply (for_each_iff (Dir entries) W base _ (fun d p => selected args base p ->
    passes read parse_html to_pdf_bytes page_count read_from_png render d p) G); [|eauto].
  intros d p R log. destruct (regular_parts _ _ _ _ R W G) as (name & -> & Ns & Gd).
  destruct (regular_below _ _ _ _ R) as (s & Es).
  assert (Sel : exists b, (match args with
       | [] => done true
       | _ :: _ => and_then (lift (strip_prefix (d ++ bs "/" ++ name) base)) (fun relative => done (existsb (contains relative) args))
       end) log = (Some b, log) /\ (b = true <-> selected args base (d ++ bs "/" ++ name))).
  { destruct args as [|a args'] eqn:Ea.
    - exists true. split; [reflexivity|]. split; [left; reflexivity|reflexivity].
    - rewrite <- Ea in *. assert (St : strip_prefix (d ++ bs "/" ++ name) base = Some s).
      { unfold strip_prefix. rewrite Es, app_assoc. rewrite (proj2 (starts_with_iff _ _) (ex_intro _ s eq_refl)).
        rewrite skipn_app, skipn_all, Nat.sub_diag. reflexivity. }
      exists (existsb (contains s) args). split; [unfold and_then, lift; rewrite St; reflexivity|].
      rewrite existsb_exists. unfold selected. split.
      + intros (arg & I & C). apply contains_iff in C as (x & y & C). right. exists arg, x, y. split; [exact I|].
        rewrite Es, C. reflexivity.
      + intros [Ne|(arg & x & y & I & E)]; [congruence|]. exists arg. split; [exact I|]. apply contains_iff. exists x, y.
        rewrite Es in E. apply app_inv_head in E. apply app_inv_head in E. exact E. }
  destruct Sel as (b & Sb & Hb).
  assert (Rw : forall (k : bool -> step unit), and_then (match args with
       | [] => done true
       | _ :: _ => and_then (lift (strip_prefix (d ++ bs "/" ++ name) base)) (fun relative => done (existsb (contains relative) args))
       end) k log = k b log) by (intros k; apply (then_run _ _ _ k _ _ _ Sb)).
  rewrite Rw. destruct b.
  - pose proof (run_passes read parse_html to_pdf_bytes page_count read_from_png render target_dir T d name log Gd Ns) as P.
    cbv zeta in P. unfold run in P. rewrite P. tauto.
  - split.
    + intros _ S. apply Hb in S. discriminate.
    + intros _. eexists. reflexivity.
Qed.

(** C69: it looks at each file in the directory and those below it once *)
Theorem C69_each_once : forall base entries, good base -> wf_entry (Dir entries) ->
  exists l, NoDup l /\ (forall p, In p l <-> exists d, regular_file base (Dir entries) d p) /\
    for_each_file_in base (Dir entries) (fun p => emit (ReadFile p)) [] = (Some tt, map ReadFile l).
Proof.
  intros base entries G W. destruct (for_each_once (Dir entries) W base G) as (l & N & I & R); [eauto|].
  exists l. split; [exact N|]. split; [exact I|]. apply (R []).
Qed.

(** C69: a test that passes writes nothing, makes a PDF of each document once and renders it once *)
Definition work (read : path -> option bytes) (parse_html : bytes -> option document) (to_pdf_bytes : document -> option bytes)
    (p : path) (l : list event) : Prop :=
  (exists d pdf, html_file read parse_html p d /\ to_pdf_bytes d = Some pdf /\ l = [ReadFile p; ToPdf d; CountPages pdf; Render pdf 1]) \/
  (has_extension p (bs "png") /\ l = [ReadFile p]).
Theorem C69_work : forall read parse_html to_pdf_bytes page_count read_from_png render target_dir base name log,
  trees parse_html -> good base -> ~ In 47%N name -> let p := base ++ bs "/" ++ name in
  run_test read parse_html to_pdf_bytes page_count read_from_png render target_dir p [] = (Some tt, log) ->
  exists references l ls, work read parse_html to_pdf_bytes p l /\ Forall2 (work read parse_html to_pdf_bytes) references ls /\
    log = l ++ concat ls /\
    forall r, In r references <-> exists e, refers read parse_html base p e r.
Proof.
  intros read parse_html to_pdf_bytes page_count read_from_png render target_dir base name log T G N p H.
  apply run_some in H as (t & page & u & e & refs & evs & L & O & Er & F & E); auto. cbn [app] in E.
  assert (Wk : forall q i v l, page_of read parse_html to_pdf_bytes page_count read_from_png render q i v l -> work read parse_html to_pdf_bytes q l).
  { intros q i v l [t0 e0 L0 O0 ->]. destruct O0 as [q' d pdf j E1 E2 E3|q' j]; inversion L0; subst.
    - left. exists d, pdf. auto.
    - right. auto. }
  exists (map snd refs), (ReadFile p :: e), evs. split.
  { apply (Wk p page u). exists t e; auto. }
  split; [|split; [exact E|]].
  - clear - F Wk. induction F as [|[ex r] l refs evs (i & v & P & _) F IH]; cbn [map snd]; constructor; eauto.
  - intros r. destruct (refs_some read parse_html to_pdf_bytes page_count read_from_png render target_dir T base p t refs G L Er) as [R1 _]. rewrite in_map_iff. split.
    + intros ([ex r'] & <- & I). exists ex. apply R1. exact I.
    + intros (ex & I). apply R1 in I. exists (ex, r). auto.
Qed.

(** C69: if it panics and has written something, it is because of a reference that shows the wrong thing, and it has
    written what was compared *)
Theorem C69_report : forall read parse_html to_pdf_bytes page_count read_from_png render target_dir base name log,
  trees parse_html -> good base -> ~ In 47%N name -> let p := base ++ bs "/" ++ name in
  run_test read parse_html to_pdf_bytes page_count read_from_png render target_dir p [] = (None, log) ->
  Forall (fun e => ~ writes e) log \/
  exists pdf page r page' before,
    shows read parse_html to_pdf_bytes page_count read_from_png render p page /\
    shows read parse_html to_pdf_bytes page_count read_from_png render r page' /\
    (exists d, html_file read parse_html p d /\ to_pdf_bytes d = Some pdf) /\
    (refers read parse_html base p true r /\ page' <> page \/ refers read parse_html base p false r /\ page' = page) /\
    Forall (fun e => ~ writes e) before /\
    log = before ++ [WritePng (push target_dir (bs "test.png")) page; WritePng (push target_dir (bs "reference.png")) page';
                     WriteFile (push target_dir (bs "test.pdf")) pdf].
Proof.
  intros read parse_html to_pdf_bytes page_count read_from_png render target_dir base name log T G N p H.
  apply run_none in H as [H|(d & pdf & page & ex & r & i & evs & F & E1 & E2 & E3 & R & S & Eq & Fe & ->)]; auto.
  right. exists pdf, page, r, i, evs. split; [eapply shows_html; eassumption|]. split; [exact S|]. split; [eauto|].
  split; [|split; [exact Fe|reflexivity]]. destruct ex; cbn [negb] in Eq.
  - left. split; [exact R|]. intros ->. assert (pixels_eq page page = true) by (apply pixels_eq_eq; reflexivity). congruence.
  - right. split; [exact R|]. apply pixels_eq_eq in Eq. auto.
Qed.

(** C69: the path a reference is at *)
Theorem C69_href : forall base href p, good base -> (resolve_href base href = Some p <-> relative_to base href p).
Proof. exact resolve_iff. Qed.

(** C69: no file [.pdf] passes, and no test with a reference to one, even if they show one page, and the same page *)
Theorem C69_pdf :
  (forall read parse_html to_pdf_bytes page_count read_from_png render target_dir base name log,
     trees parse_html -> good base -> ~ In 47%N name -> has_extension (base ++ bs "/" ++ name) (bs "pdf") ->
     fst (run_test read parse_html to_pdf_bytes page_count read_from_png render target_dir (base ++ bs "/" ++ name) log) = None) /\
  (forall read parse_html to_pdf_bytes page_count read_from_png render target_dir base name log e r,
     trees parse_html -> good base -> ~ In 47%N name ->
     refers read parse_html base (base ++ bs "/" ++ name) e r -> has_extension r (bs "pdf") ->
     fst (run_test read parse_html to_pdf_bytes page_count read_from_png render target_dir (base ++ bs "/" ++ name) log) = None).
Proof.
  assert (No : forall read parse_html to_pdf_bytes page_count read_from_png render p i, has_extension p (bs "pdf") ->
    ~ shows read parse_html to_pdf_bytes page_count read_from_png render p i).
  { intros read parse_html to_pdf_bytes page_count read_from_png render p i X [d pdf [X' _] _ _ _|c X' _ _].
    - assert (bs "html" = bs "pdf") by (refine (ext_unique p _ _ _ _ X' X); cbn; auto). discriminate.
    - assert (bs "png" = bs "pdf") by (refine (ext_unique p _ _ _ _ X' X); cbn; auto). discriminate. }
  split.
  - intros read parse_html to_pdf_bytes page_count read_from_png render target_dir base name log T G N X.
    destruct (run_test _ _ _ _ _ _ _ _ _) as [[[]|] log'] eqn:E; [|reflexivity]. exfalso.
    destruct (proj1 (C69_passes read parse_html to_pdf_bytes page_count read_from_png render target_dir base name log T G N) (ex_intro _ _ E)) as (page & S & _).
    exact (No _ _ _ _ _ _ _ _ X S).
  - intros read parse_html to_pdf_bytes page_count read_from_png render target_dir base name log e r T G N (d & rel & href & F & Il & Rl & C) X.
    destruct (run_test _ _ _ _ _ _ _ _ _) as [[[]|] log'] eqn:E; [|reflexivity]. exfalso.
    destruct (proj1 (C69_passes read parse_html to_pdf_bytes page_count read_from_png render target_dir base name log T G N) (ex_intro _ _ E)) as (page & _ & H).
    destruct (H d rel href F Il) as [H1 H2]. pose proof (proj2 (resolve_iff base href r G) Rl) as Er.
    destruct C as [[C _]|[C _]].
    + destruct (H1 C) as (r' & Rr & S). apply (resolve_iff base href r' G) in Rr. assert (r' = r) as -> by congruence. exact (No _ _ _ _ _ _ _ _ X S).
    + destruct (H2 C) as (r' & i & Rr & S & _). apply (resolve_iff base href r' G) in Rr. assert (r' = r) as -> by congruence. exact (No _ _ _ _ _ _ _ _ X S).
Qed.

(** * Examples *)
Definition ex_link (rel href : string) : item :=
  IElement (mkXName (bs "link") (Some ns_html) None) [(xn "rel", bs rel); (xn "href", bs href)] [].
Definition ex_doc (l : list item) : document :=
  match parse_xml (XStartDocument :: flat_map events_of [IElement (mkXName (bs "html") (Some ns_html) None) [] l] ++ [XEndDocument]) with
  | Ok d => d
  | _ => document_new
  end.
Lemma ex_doc_forest : forall l, exists kids, doc_forest (ex_doc l) kids.
Proof.
  intros l. unfold ex_doc. destruct (C26_xml_mirrors_events [IElement (mkXName (bs "html") (Some ns_html) None) [] l]) as (d & kids & E & F & _).
  rewrite E. eauto.
Qed.
(** Three files of HTML, a picture, by two paths, and a PDF.  A file's contents are its number. *)
Definition ex_files : list (path * N) :=
  [(bs "t/r/a.html", 0); (bs "t/r/b.html", 1); (bs "t/r/sub/c.html", 2); (bs "t/r/d.png", 3);
   (bs "t/r/sub/../d.png", 3); (bs "t/r/e.pdf", 4)]%N.
Definition ex_read (p : path) : option bytes :=
  match find (fun x => bytes_eqb (fst x) p) ex_files with Some x => Some [snd x] | None => None end.
Definition ex_items (c : bytes) : option (list item) :=
  match c with
  | [0%N] => Some [ex_link "stylesheet" "/x.css"; ex_link "match" "b.html"; ex_link "mismatch" "d.png"]
  | [1%N] => Some []
  | [2%N] => Some [ex_link "match" "..//d.png"]
  | _ => None
  end.
Definition ex_parse (c : bytes) : option document := match ex_items c with Some l => Some (ex_doc l) | None => None end.
Lemma ex_trees : trees ex_parse.
Proof.
  intros c d H. unfold ex_parse in H. destruct (ex_items c) as [l|]; [|discriminate].
  apply (f_equal (fun o => match o with Some x => x | None => d end)) in H. cbn beta iota in H. rewrite <- H. apply ex_doc_forest.
Qed.
Definition ex_pdf (d : document) : option bytes := Some [N.of_nat (List.length (nodes d))].
Definition ex_count (pdf : bytes) : option nat := Some 1.
Definition ex_image (n : N) : image := Image 1 1 [n].
Definition ex_render (pdf : bytes) (n : nat) : option image := Some (ex_image 7).
Definition ex_png (c : bytes) : option image := match c with [3%N] => Some (ex_image 8) | _ => None end.
Definition ex_run (p : string) : option unit * list event := run_test ex_read ex_parse ex_pdf ex_count ex_png ex_render (bs "t") (bs p) [].
Example C69_good : good (bs "t/r") /\ good (bs "t/r/sub").
Proof. split; [exists (bs "t/"), 114%N|exists (bs "t/r/su"), 98%N]; split; try reflexivity; discriminate. Qed.
(** The first passes; the one in [sub] does not, and what was compared is written; the PDF panics. *)
Example C69_runs :
  fst (ex_run "t/r/a.html") = Some tt /\ fst (ex_run "t/r/b.html") = Some tt /\ fst (ex_run "t/r/d.png") = Some tt /\
  fst (ex_run "t/r/sub/c.html") = None /\
  skipn 5 (snd (ex_run "t/r/sub/c.html")) =
    [WritePng (bs "t/test.png") (ex_image 7); WritePng (bs "t/reference.png") (ex_image 8); WriteFile (bs "t/test.pdf") [4]%N] /\
  ex_run "t/r/e.pdf" = (None, [ReadFile (bs "t/r/e.pdf")]).
Proof. vm_compute. repeat split. Qed.
Example C69_log : snd (ex_run "t/r/a.html") =
  [ReadFile (bs "t/r/a.html"); ToPdf (ex_doc [ex_link "stylesheet" "/x.css"; ex_link "match" "b.html"; ex_link "mismatch" "d.png"]);
   CountPages [6]%N; Render [6]%N 1; ReadFile (bs "t/r/b.html"); ToPdf (ex_doc []); CountPages [3]%N; Render [3]%N 1;
   ReadFile (bs "t/r/d.png")].
Proof. vm_compute. reflexivity. Qed.
Definition ex_tree : list (bytes * entry) :=
  [(bs "a.html", File); (bs "b.html", File); (bs "sub", Dir [(bs "c.html", File)]); (bs "link", Other); (bs "d.png", File)].
Example C69_tree : wf_entry (Dir ex_tree).
Proof.
  assert (Ns : forall x : string, existsb (N.eqb 47) (bs x) = false -> ~ In 47%N (bs x)).
  { intros x H I. assert (existsb (N.eqb 47) (bs x) = true) by (apply existsb_exists; exists 47%N; split; [exact I|reflexivity]). congruence. }
  constructor.
  - repeat constructor; cbn [map fst ex_tree In]; intros H; repeat destruct H as [H|H]; try discriminate H; destruct H.
  - intros name n I. repeat destruct I as [I|I]; [..|destruct I]; inversion I; subst; (split; [discriminate|apply Ns; reflexivity]).
  - intros name n I. repeat destruct I as [I|I]; [..|destruct I]; inversion I; subst; try constructor.
    + repeat constructor. intros [].
    + intros name n0 I0. repeat destruct I0 as [I0|I0]; [..|destruct I0]; inversion I0; subst; (split; [discriminate|apply Ns; reflexivity]).
    + intros name n0 I0. repeat destruct I0 as [I0|I0]; [..|destruct I0]; inversion I0; subst; constructor.
Qed.
(** Refuted: a file [.pdf] of one page that can be rendered passes *)
Theorem C69_pdf_refuted : exists read parse_html to_pdf_bytes page_count read_from_png render target_dir base name contents page,
  trees parse_html /\ good base /\ ~ In 47%N name /\ has_extension (base ++ bs "/" ++ name) (bs "pdf") /\
  read (base ++ bs "/" ++ name) = Some contents /\ page_count contents = Some 1 /\ render contents 1 = Some page /\
  fst (run_test read parse_html to_pdf_bytes page_count read_from_png render target_dir (base ++ bs "/" ++ name) []) = None.
Proof.
  exists ex_read, ex_parse, ex_pdf, ex_count, ex_png, ex_render, (bs "t"), (bs "t/r"), (bs "e.pdf"), [4%N], (ex_image 7).
  assert (N : ~ In 47%N (bs "e.pdf")) by (vm_compute; intuition discriminate).
  assert (X : has_extension (bs "t/r" ++ bs "/" ++ bs "e.pdf") (bs "pdf")) by (apply extension_iff; [discriminate|vm_compute; intuition discriminate|reflexivity]).
  split; [exact ex_trees|]. split; [apply C69_good|]. repeat (split; [assumption || reflexivity|]).
  apply C69_pdf; [exact ex_trees|apply C69_good|exact N|exact X].
Qed.
(** Without [sub] all pass; the argument [a.h] selects the first only; [c.html] is that which fails. *)
Example C69_mains :
  let m args := fst (run_main ex_read ex_parse ex_pdf ex_count ex_png ex_render (bs "t") args (bs "t/r") (Dir ex_tree)) in
  m [] = None /\ m [bs "a.h"; bs ".png"] = Some tt /\ m [bs "sub/c"] = None /\ m [bs "t/r"] = Some tt.
Proof. vm_compute. repeat split. Qed.

Print Assumptions C69_passes.
Print Assumptions C69_main.
Print Assumptions C69_each_once.
Print Assumptions C69_work.
Print Assumptions C69_report.
Print Assumptions C69_href.
Print Assumptions C69_pdf.
Print Assumptions C69_pdf_refuted.
