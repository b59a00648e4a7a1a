(** The document in progress: what its lists of resources and objects hold after any
    history, and what each page draws. *)
From Verif Require Import Base PdfObject PdfObjectSpec PdfObjectProofs PdfSyntax PdfSyntaxSpec
  PdfSyntaxProofs PdfConvert PdfConvertSpec PdfConvertProofs PdfDrawProofs.
From Coq Require Import Qabs Qround Qpower Qfield Lqa.
Local Open Scope N_scope.

(** ** Numbered lists *)
Fixpoint index_from {A} (n : N) (l : list A) : list (N * A) :=
  match l with [] => [] | x :: r => (n, x) :: index_from (n + 1) r end.

Lemma index_from_app : forall A (l m : list A) n,
  index_from n (l ++ m) = index_from n l ++ index_from (n + lenN l) m.
Proof.
  Transparent lenN. unfold lenN. Opaque lenN.
  induction l as [|x l IH]; intros m n; cbn [app index_from length].
  - rewrite N.add_0_r. auto.
  - rewrite IH. do 3 f_equal. lia.
Qed.

Lemma index_from_nth : forall A (l : list A) n i,
  nth_error (index_from n l) i = option_map (fun x => (n + N.of_nat i, x)) (nth_error l i).
Proof.
  induction l as [|x l IH]; intros n [|i]; cbn [index_from nth_error option_map]; auto.
  - f_equal. apply f_equal2; [lia|auto].
  - rewrite IH. destruct (nth_error l i); cbn [option_map]; auto. f_equal. apply f_equal2; [lia|auto].
Qed.

Definition key (c : string) (i : N) : bytes := bs c ++ itoa i.
Arguments key c%string.

Lemma itoa_inj : forall a b, itoa a = itoa b -> a = b.
Proof.
  intros a b H. destruct (itoa_spec a) as (_ & A & _). destruct (itoa_spec b) as (_ & B & _).
  rewrite H in A. congruence.
Qed.
Lemma key_inj : forall c a b, key c a = key c b -> a = b.
Proof. intros c a b H. apply app_inv_head in H. apply itoa_inj. auto. Qed.

Lemma digit_not_hash : forall b, digitp b -> b <> 35.
Proof. unfold digitp. lia. Qed.

Lemma key_clean : forall c i, ~ In 35 (bs c) -> clean_name (key c i).
Proof.
  intros c i H. destruct (itoa_spec i) as (D & _ & _). rewrite Forall_forall in D. split.
  - apply wf_bytes_app. split; [apply bs_wf|]. apply Forall_forall. intros x Hx.
    apply D in Hx. unfold digitp, wf_byte in *. lia.
  - intros (a & h1 & h2 & b & E & _). assert (X : In 35 (key c i)).
    { rewrite E. apply in_or_app. right. left. auto. }
    apply in_app_or in X as [X|X]; auto. apply D in X. unfold digitp in X. lia.
Qed.

Lemma lookup_numbered : forall A (g : A -> pval) c l n i,
  lookup_key (key c (n + N.of_nat i)) (map (fun ix => (key c (fst ix), g (snd ix))) (index_from n l)) =
  option_map g (nth_error l i).
Proof.
  induction l as [|x l IH]; intros n [|i]; cbn [index_from map lookup_key fst snd nth_error option_map]; auto.
  - rewrite N.add_0_r. rewrite (proj2 (bytes_eqb_eq _ _)) by auto. auto.
  - rewrite (proj2 (bytes_eqb_neq _ _)).
    + rewrite <- (IH (n + 1) i). do 2 f_equal. lia.
    + intro H. apply key_inj in H. lia.
Qed.

Lemma assoc_some : forall A (kf : A -> N) c l n k v,
  assoc k (map (fun ix => (kf (snd ix), key c (fst ix))) (index_from n l)) = Some v ->
  exists i x, nth_error l i = Some x /\ kf x = k /\ v = key c (n + N.of_nat i).
Proof.
  induction l as [|x l IH]; intros n k v H; cbn [index_from map assoc fst snd] in H; [discriminate|].
  destruct (k =? kf x) eqn:E.
  - exists 0%nat, x. apply N.eqb_eq in E. split; [auto|]. split; [auto|]. cbn. rewrite N.add_0_r. congruence.
  - apply IH in H as (i & y & H1 & H2 & H3). exists (S i), y. split; [auto|]. split; [auto|].
    rewrite H3. f_equal. lia.
Qed.
Lemma assoc_none : forall A (kf : A -> N) c l n k,
  assoc k (map (fun ix => (kf (snd ix), key c (fst ix))) (index_from n l)) = None ->
  forall x, In x l -> kf x <> k.
Proof.
  induction l as [|x l IH]; intros n k H y Hy; cbn [index_from map assoc fst snd] in H; [contradiction|].
  destruct (k =? kf x) eqn:E; [discriminate|]. apply N.eqb_neq in E.
  destruct Hy as [<-|Hy]; [auto|]. eapply IH; eauto.
Qed.

Lemma lenN_index : forall A (l : list A) n, lenN (index_from n l) = lenN l.
Proof.
  Transparent lenN. unfold lenN. Opaque lenN. induction l as [|x l IH]; intro n; auto.
  cbn [index_from length]. specialize (IH (n + 1)). lia.
Qed.

Lemma NoDup_app_snoc : forall A (l : list A) x, NoDup l -> ~ In x l -> NoDup (l ++ [x]).
Proof.
  induction l as [|y l IH]; intros x H1 H2; cbn [app].
  - constructor; auto.
  - inversion H1; subst. constructor.
    + intro X. apply in_app_or in X as [X|[<-|[]]]; auto. apply H2. left. auto.
    + apply IH; auto. intro X. apply H2. right. auto.
Qed.

(** ** Objects added *)
Lemma add_all_snoc : forall l f a,
  fst (add_all f (l ++ [a])) = fst (add (fst (add_all f l)) a) /\
  snd (add_all f (l ++ [a])) = snd (add_all f l) ++ [snd (add (fst (add_all f l)) a)].
Proof.
  induction l as [|b l IH]; intros f a; cbn [app add_all].
  - cbn [fst snd]. destruct (add f a); split; reflexivity.
  - destruct (add f b) as [f1 i]. destruct (IH f1 a) as [A B].
    destruct (add_all f1 (l ++ [a])) as [f2 i2]. destruct (add_all f1 l) as [f3 i3].
    cbn [fst snd] in *. rewrite B. auto.
Qed.

Definition the_file (adds : list addition) : pdf_file := fst (add_all pdf_new adds).
Definition new_id (adds : list addition) : N := next_id (the_file adds).

Lemma add_dictionary_eq : forall adds d,
  add_dictionary (the_file adds) d = (the_file (adds ++ [AddDictionary d]), new_id adds).
Proof.
  intros adds d. unfold the_file at 2. rewrite (proj1 (add_all_snoc _ _ _)).
  change (add_dictionary (the_file adds) d) with (add (the_file adds) (AddDictionary d)).
  fold (the_file adds). rewrite add_spec. reflexivity.
Qed.
Lemma add_stream_eq : forall adds d c,
  add_stream (the_file adds) d c = (the_file (adds ++ [AddStream d c]), new_id adds).
Proof.
  intros adds d c. unfold the_file at 2. rewrite (proj1 (add_all_snoc _ _ _)).
  change (add_stream (the_file adds) d c) with (add (the_file adds) (AddStream d c)).
  fold (the_file adds). rewrite add_spec. reflexivity.
Qed.

(** The number of the [i]-th object added. *)
Fixpoint id_at (i : nat) : N := match i with O => 4 | S i => u32 (id_at i + 1) end.

Lemma new_id_at : forall adds, new_id adds = id_at (length adds).
Proof.
  intro adds. rewrite <- (rev_involutive adds). induction (rev adds) as [|a l IH]; [reflexivity|].
  cbn [rev]. rewrite app_length, Nat.add_comm. cbn [length Nat.add id_at]. rewrite <- IH.
  unfold new_id at 1, the_file. rewrite (proj1 (add_all_snoc _ _ _)). fold (the_file (rev l)).
  rewrite add_spec. reflexivity.
Qed.

Definition numbered (adds : list addition) (ids : list N) : Prop :=
  exists ps, NoDup ps /\ Forall (fun i => (i < length adds)%nat) ps /\ ids = map id_at ps.

Lemma numbered_more : forall adds more ids, numbered adds ids -> numbered (adds ++ more) ids.
Proof.
  intros adds more ids (ps & A & B & C). exists ps. split; [auto|]. split; [|auto].
  eapply Forall_impl; [|exact B]. cbn. intros i Hi. rewrite app_length. lia.
Qed.
Lemma numbered_new : forall adds pre a post ids, numbered adds ids ->
  numbered (adds ++ pre ++ a :: post) (ids ++ [new_id (adds ++ pre)]).
Proof.
  intros adds pre a post ids (ps & A & B & C). exists (ps ++ [length (adds ++ pre)]).
  rewrite Forall_forall in B. split; [|split].
  - apply NoDup_app_snoc; auto. intro X. apply B in X. rewrite app_length in X. lia.
  - apply Forall_app. split.
    + apply Forall_forall. intros i Hi. apply B in Hi. rewrite app_length. lia.
    + constructor; [|constructor]. rewrite !app_length. cbn [length]. lia.
  - rewrite map_app, C, new_id_at. reflexivity.
Qed.

Definition has (adds : list addition) (id : N) (a : addition) : Prop :=
  exists i, nth_error adds i = Some a /\ nth_error (snd (add_all pdf_new adds)) i = Some id.

Lemma add_all_length : forall l f, length (snd (add_all f l)) = length l.
Proof. intros l f. destruct (add_all_spec l f) as [_ ->]. apply ids_from_length. Qed.

Lemma has_snoc : forall adds id a x, has adds id a -> has (adds ++ [x]) id a.
Proof.
  intros adds id a x (i & H1 & H2). exists i.
  assert (i < length adds)%nat by (apply nth_error_Some; congruence).
  rewrite (proj2 (add_all_snoc _ _ _)), !nth_error_app1 by (rewrite ?add_all_length; auto). auto.
Qed.
Lemma has_app : forall more adds id a, has adds id a -> has (adds ++ more) id a.
Proof.
  induction more as [|x more IH]; intros adds id a H.
  - rewrite app_nil_r. auto.
  - change (x :: more) with ([x] ++ more). rewrite app_assoc. apply IH. apply has_snoc. auto.
Qed.
Lemma has_new : forall adds a, has (adds ++ [a]) (new_id adds) a.
Proof.
  intros adds a. exists (length adds). rewrite (proj2 (add_all_snoc _ _ _)).
  rewrite !nth_error_app2 by (rewrite ?add_all_length; auto).
  rewrite add_all_length, Nat.sub_diag. split; [reflexivity|]. cbn [nth_error].
  fold (the_file adds). rewrite add_spec. reflexivity.
Qed.

(** ** The state of the document *)
Definition doc_of (adds : list addition) (kids : list N) (alphas : list dec) (fl : list (font * N)) : doc :=
  mkDoc (the_file adds) (map OReference kids)
    (map (fun ia => (key "a" (fst ia), OGraphicsStateDictionaryAlpha (snd ia))) (index_from 0 alphas))
    (map (fun i => (key "f" (fst i), OReference (snd (snd i)))) (index_from 0 fl))
    (map (fun ia => (alpha_key (snd ia), key "a" (fst ia))) (index_from 0 alphas))
    (map (fun i => (f_addr (fst (snd i)), key "f" (fst i))) (index_from 0 fl)).

Definition res_of (alphas : list dec) (fl : list (font * N)) : resources :=
  mkRes (map (fun i => (key "f" (fst i), PRef (snd (snd i)) 0)) (index_from 0 fl))
        (map (fun ia => (key "a" (fst ia),
                PDict [(bs "CA", PReal (dec_value (snd ia))); (bs "ca", PReal (dec_value (snd ia)))]))
             (index_from 0 alphas)).

Definition embedded (adds : list addition) (f : font) (id : N) : Prop :=
  exists t fd tu ws,
    has adds t (AddStream (dict [(bs "Length1", OUsize (lenN (f_bytes f)))]) (f_bytes f)) /\
    has adds fd (AddDictionary (font_descriptor f t)) /\
    has adds tu (AddStream (dict []) (to_unicode_cmap (f_code_points f))) /\
    has adds id (AddDictionary (font_dict f tu fd ws)) /\
    glyph_widths (f_glyph_width f) 0 (N.to_nat (f_glyph_count f)) = Ok ws.

Lemma embedded_app : forall adds more f id, embedded adds f id -> embedded (adds ++ more) f id.
Proof.
  intros adds more f id (t & fd & tu & ws & A & B & C & D & E). exists t, fd, tu, ws.
  auto 10 using has_app.
Qed.

Record ok_state (S : font -> Prop) (adds : list addition) (alphas : list dec) (fl : list (font * N)) : Prop := {
  ok_adds : Forall clean_addition adds;
  ok_alphas : Forall ok_alpha alphas;
  ok_fonts : Forall (fun fi => S (fst fi) /\ embeddable (fst fi) = true /\ embedded adds (fst fi) (snd fi)) fl;
  ok_addrs : NoDup (map (fun fi => f_addr (fst fi)) fl);
  ok_ids : numbered adds (map snd fl) }.

Lemma ok_more : forall S adds more alphas fl, ok_state S adds alphas fl -> Forall clean_addition more ->
  ok_state S (adds ++ more) alphas fl.
Proof.
  intros S adds more alphas fl [A B C D E] H. split; auto using numbered_more.
  - apply Forall_app. auto.
  - eapply Forall_impl; [|exact C]. cbn. intros a (X & Y & Z). auto using embedded_app.
Qed.

(** ** Graphics state *)
Definition rgb_of (p : page) : Q * Q * Q :=
  let '(r, g, b) := pg_rgb p in (dec_value r, dec_value g, dec_value b).

Definition gmatch (p : page) (g : gstate) : Prop :=
  g_ctm g = flip /\ g_rgb g = rgb_of p /\ close_alpha (g_alpha g) (dec_value (pg_alpha p)) /\
  g_in_text g = false /\ g_path g = [].

Definition painted (fl : list (font * N)) (w : wanted) (m : mark) : Prop :=
  match w, m with
  | WFill poly rgb a, MFill poly' rgb' a' => poly' = poly /\ rgb' = rgb /\ close_alpha a' a
  | WText f mat glyphs rgb a, MText v mat' codes rgb' a' =>
      mat' = mat /\ utf16be_units codes = Some glyphs /\ rgb' = rgb /\ close_alpha a' a /\
      exists id, v = PRef id 0 /\ In (f, id) fl
  | _, _ => False
  end.

(** [p'] continues [p] on the same sheet, drawing [ws] more whatever is registered later. *)
Definition continues (alphas : list dec) (fl : list (font * N)) (p p' : page) (ws : list wanted) : Prop :=
  pg_width p' = pg_width p /\ pg_height p' = pg_height p /\
  exists t, pg_ops p' = pg_ops p ++ t /\
    forall al fl' g, gmatch p g -> exists g' ms,
      draws (res_of (alphas ++ al) (fl ++ fl')) g t g' ms /\ gmatch p' g' /\
      Forall2 (painted (fl ++ fl')) ws ms.

Lemma continues_refl : forall alphas fl p, continues alphas fl p p [].
Proof.
  intros alphas fl p. split; [auto|]. split; [auto|]. exists []. rewrite app_nil_r. split; [auto|].
  intros al fl' g H. exists g, []. split; [apply draws_nil|]. auto.
Qed.

Lemma continues_trans : forall a1 a2 f1 f2 p1 p2 p3 w1 w2,
  continues a1 f1 p1 p2 w1 -> continues (a1 ++ a2) (f1 ++ f2) p2 p3 w2 ->
  continues (a1 ++ a2) (f1 ++ f2) p1 p3 (w1 ++ w2).
Proof.
  intros a1 a2 f1 f2 p1 p2 p3 w1 w2 (A1 & A2 & t & A3 & A4) (B1 & B2 & u & B3 & B4).
  split; [congruence|]. split; [congruence|]. exists (t ++ u). split.
  - rewrite B3, A3, app_assoc. auto.
  - intros al fl' g Hg. rewrite <- (app_assoc a1), <- (app_assoc f1).
    destruct (A4 (a2 ++ al) (f2 ++ fl') g Hg) as (g1 & ms & D1 & G1 & P1).
    destruct (B4 al fl' g1 G1) as (g2 & ns & D2 & G2 & P2). rewrite <- (app_assoc a1) in D2. rewrite <- (app_assoc f1) in D2, P2.
    exists g2, (ms ++ ns). split; [exact (draws_app _ _ _ _ _ _ _ _ D1 D2)|]. split; [exact G2|]. apply Forall2_app; auto.
Qed.

Lemma operand_float : forall d, moderate d -> operand (OFloat d).
Proof. intros d H. apply moderate_clean. auto. Qed.

Ltac op_reduce :=
  unfold operate;
  repeat match goal with
         | |- context [bytes_eqb (bs ?a) (bs ?b)] =>
             let v := eval vm_compute in (bytes_eqb (bs a) (bs b)) in
             change (bytes_eqb (bs a) (bs b)) with v
         end;
  cbv iota; cbn [map meaning numbers number g_ctm g_rgb g_alpha g_font g_in_text g_tm g_path].

(** ** Rectangles *)
Lemma Qred_0 : Qred 0 = 0%Q. Proof. reflexivity. Qed.

Lemma paint_rectangle_continues : forall alphas fl p x y w h,
  moderate x -> moderate y -> moderate w -> moderate h ->
  continues alphas fl p (paint_rectangle p x y w h)
    (wants (rgb_of p) (dec_value (pg_alpha p)) [PaintRectangle x y w h]) /\
  rgb_of (paint_rectangle p x y w h) = rgb_of p /\
  pg_alpha (paint_rectangle p x y w h) = pg_alpha p.
Proof.
  intros alphas fl p x y w h Hx Hy Hw Hh. split; [|auto].
  split; [auto|]. split; [auto|].
  exists (op_text "re" [OFloat x; OFloat y; OFloat w; OFloat h] ++ op_text "f" []).
  split; [cbn [paint_rectangle op pg_ops]; rewrite <- app_assoc; auto|].
  intros al fl' g (G1 & G2 & G3 & G4 & G5).
  eexists. eexists. split; [|split].
  - eapply draws_app.
    + apply draws_op; [apply kw_re| |].
      * repeat (apply Forall_cons || apply Forall_nil); apply operand_float; auto.
      * op_reduce. rewrite G4. reflexivity.
    + apply draws_op; [apply kw_f|constructor|]. op_reduce. reflexivity.
  - split; [auto|]. split; [auto|]. split; [auto|]. split; auto.
  - cbn [app]. rewrite G5. cbn [app map g_path g_rgb g_alpha]. rewrite G1, !flip_point.
    cbn [wants]. constructor; [|constructor]. cbn [painted]. auto.
Qed.

(** ** Colours *)
Lemma set_alpha_spec : forall S adds kids alphas fl p a,
  ok_state S adds alphas fl -> moderate a ->
  exists alphas' p', set_alpha (doc_of adds kids alphas fl) p a = (doc_of adds kids (alphas ++ alphas') fl, p') /\
    ok_state S adds (alphas ++ alphas') fl /\
    continues (alphas ++ alphas') fl p p' [] /\
    rgb_of p' = rgb_of p /\ dec_value (pg_alpha p') = clamp (dec_value a).
Proof.
  intros S adds kids alphas fl p a OK Ha. unfold set_alpha.
  assert (OKa : ok_alpha (clamp01 a)).
  { split; [apply clamp01_clean; auto|]. rewrite clamp01_value. apply clamp_range. }
  pose proof (clamp01_value a) as Va.
  assert (C : forall al i ai p0, nth_error al i = Some ai ->
    close_alpha (dec_value ai) (dec_value (clamp01 a)) ->
    pg_rgb p0 = pg_rgb p -> pg_alpha p0 = clamp01 a -> pg_width p0 = pg_width p ->
    pg_height p0 = pg_height p -> pg_ops p0 = pg_ops p ->
    continues al fl p (op p0 "gs" [OName (key "a" (N.of_nat i))]) []).
  { intros al i ai p0 Hi Hc P1 P2 P3 P4 P5. split; [auto|]. split; [auto|]. eexists. split.
    - cbn [op pg_ops]. rewrite P5. reflexivity.
    - intros al' fl' g (G1 & G2 & G3 & G4 & G5). eexists. exists []. split; [|split; [|constructor]].
      + apply draws_op; [apply kw_gs| |].
        * constructor; [|constructor]. apply key_clean. cbn. intros [X|[]]; discriminate.
        * op_reduce. cbn [res_of r_ext_gs].
          pose proof (lookup_numbered dec (fun a => PDict [(bs "CA", PReal (dec_value a)); (bs "ca", PReal (dec_value a))])
                        "a" (al ++ al') 0 i) as L.
          rewrite N.add_0_l in L. rewrite L, nth_error_app1, Hi by (apply nth_error_Some; congruence).
          cbn [option_map lookup_key].
          change (bytes_eqb (bs "ca") (bs "CA")) with false. change (bytes_eqb (bs "ca") (bs "ca")) with true.
          cbv iota. cbn [number]. reflexivity.
      + split; [auto|]. split; [cbn [g_rgb]; unfold rgb_of in *; cbn [op pg_rgb]; rewrite P1; auto|].
        split; [cbn [g_alpha op pg_alpha]; rewrite P2; auto|]. auto. }
  destruct (dec_eqb (clamp01 a) (pg_alpha p)) eqn:E; cbn [negb].
  - exists [], p. rewrite !app_nil_r. split; [auto|]. split; [auto|]. split; [apply continues_refl|].
    split; [auto|]. apply dec_eqb_value in E. congruence.
  - cbv zeta. cbn [pg_width pg_height pg_ops pg_rgb].
    set (p0 := mkPage (pg_width p) (pg_height p) (pg_ops p) (pg_rgb p) (clamp01 a)).
    cbn [doc_of d_alpha_states].
    destruct (assoc _ _) as [k|] eqn:A.
    + apply assoc_some in A as (i & ai & A1 & A2 & ->). rewrite N.add_0_l.
      exists [], (op p0 "gs" [OName (key "a" (N.of_nat i))]). rewrite !app_nil_r.
      split; [reflexivity|]. split; [auto|]. split; [|split; [reflexivity|exact Va]].
      apply (C alphas i ai p0); auto.
      apply alpha_key_close; auto. destruct OK as [_ B _ _ _]. rewrite Forall_forall in B. apply B.
      eapply nth_error_In; eauto.
    + exists [clamp01 a], (op p0 "gs" [OName (key "a" (lenN alphas))]). split; [|split; [|split; [|split]]].
      * unfold doc_of. cbn [d_pdf d_page_ids d_ext_gs d_font_res d_fonts d_alpha_states].
        rewrite index_from_app, !map_app. cbn [index_from map fst snd].
        rewrite N.add_0_l. Transparent lenN. unfold lenN. rewrite map_length.
        fold (lenN (index_from 0 alphas)). rewrite lenN_index. Opaque lenN. reflexivity.
      * destruct OK as [A1 A2 A3 A4 A5]. split; auto. apply Forall_app. auto.
      * Transparent lenN. unfold lenN. Opaque lenN. apply (C _ (length alphas) (clamp01 a) p0); auto.
        -- rewrite nth_error_app2, Nat.sub_diag by auto. reflexivity.
        -- apply close_refl.
      * reflexivity.
      * exact Va.
Qed.

Lemma set_color_spec : forall S adds kids alphas fl p r g b a,
  ok_state S adds alphas fl -> moderate r -> moderate g -> moderate b -> moderate a ->
  exists alphas' p',
    set_color (doc_of adds kids alphas fl) p (r, g, b, a) = (doc_of adds kids (alphas ++ alphas') fl, p') /\
    ok_state S adds (alphas ++ alphas') fl /\
    continues (alphas ++ alphas') fl p p' [] /\
    rgb_of p' = (dec_value r, dec_value g, dec_value b) /\
    dec_value (pg_alpha p') = clamp (dec_value a).
Proof.
  intros S adds kids alphas fl p r g b a OK Hr Hg Hb Ha. unfold set_color.
  destruct (pg_rgb p) as [[r0 g0] b0] eqn:P.
  set (p1 := if negb _ then _ else p).
  assert (X : continues alphas fl p p1 [] /\ rgb_of p1 = (dec_value r, dec_value g, dec_value b)).
  { subst p1. destruct (dec_eqb r r0 && dec_eqb g g0 && dec_eqb b b0) eqn:E; cbn [negb].
    - apply andb_true_iff in E as [E E3]. apply andb_true_iff in E as [E1 E2].
      apply dec_eqb_value in E1, E2, E3. split; [apply continues_refl|].
      unfold rgb_of. rewrite P. congruence.
    - split; [|reflexivity]. split; [auto|]. split; [auto|]. eexists. split; [reflexivity|].
      intros al fl' gs (G1 & G2 & G3 & G4 & G5). eexists. exists []. split; [|split; [|constructor]].
      + apply draws_op; [apply kw_rg| |].
        * repeat (apply Forall_cons || apply Forall_nil); apply operand_float; auto.
        * op_reduce. reflexivity.
      + split; [auto|]. split; [reflexivity|]. auto. }
  destruct X as [X1 X2]. clearbody p1.
  destruct (set_alpha_spec S adds kids alphas fl p1 a OK Ha) as (al & p' & E & OK' & C & R & A).
  exists al, p'. split; [auto|]. split; [auto|]. split; [|split; congruence].
  pose proof (continues_trans alphas al fl [] p p1 p' [] []) as T. rewrite app_nil_r in T. auto.
Qed.

(** ** Fonts *)
Lemma bs_clean : forall s, forallb (fun b => negb (b =? 35)) (bs s) = true -> clean_name (bs s).
Proof.
  intros s H. apply no_hash_clean. intro X. rewrite forallb_forall in H. apply H in X.
  cbn in X. discriminate.
Qed.

Ltac entries := repeat (apply Forall_cons || apply Forall_nil);
  (split; cbn [fst snd]; [apply bs_clean; reflexivity|]).

Lemma clean_dict : forall l, Forall clean_entry l -> clean_pairs (dict l).
Proof. intros l H. apply clean_pairs_eq. auto. Qed.

Lemma clean_of_em : forall q, clean (of_em q).
Proof. exact (fun _ => I). Qed.

Lemma clean_bs_name : forall s, forallb (fun b => negb (b =? 35)) (bs s) = true -> clean (OName (bs s)).
Proof. exact bs_clean. Qed.

Lemma font_descriptor_clean : forall f id, clean_name (f_name f) -> clean_pairs (font_descriptor f id).
Proof.
  intros f id H. apply clean_dict. entries; try exact I; try exact H.
  - apply clean_bs_name. reflexivity.
  - apply clean_array. repeat constructor.
Qed.

Lemma glyph_widths_clean : forall w n i l, glyph_widths w i n = Ok l -> Forall clean l.
Proof.
  induction n as [|n IH]; intros i l H; cbn [glyph_widths] in H.
  - injection H as <-. constructor.
  - destruct (w i); try discriminate. destruct (glyph_widths w (i + 1) n) eqn:E; try discriminate.
    injection H as <-. constructor; [exact I|eauto].
Qed.

Lemma clean_literal_bs : forall s, forallb (fun b => negb (b =? 13)) (bs s) = true ->
  clean (OLiteralString (bs s)).
Proof.
  intros s H. split; [apply bs_wf|]. intro X. rewrite forallb_forall in H. apply H in X.
  cbn in X. discriminate.
Qed.

Lemma font_dict_clean : forall f tu fd ws, clean_name (f_name f) -> Forall clean ws ->
  clean_pairs (font_dict f tu fd ws).
Proof.
  intros f tu fd ws H Hw. apply clean_dict. entries; try exact I; try exact H;
    try (apply clean_bs_name; reflexivity).
  apply clean_array. constructor; [|constructor]. apply clean_dict.
  entries; try exact I; try exact H; try (apply clean_bs_name; reflexivity).
  - apply clean_dict. entries; try exact I; apply clean_literal_bs; reflexivity.
  - apply clean_array. constructor; [exact I|]. constructor; [|constructor]. apply clean_array. auto.
Qed.

Lemma glyph_widths_ok : forall w n i,
  (exists l, glyph_widths w (N.of_nat i) n = Ok l) <->
  forallb (fun i => match w (N.of_nat i) with Ok _ => true | _ => false end) (seq i n) = true.
Proof.
  induction n as [|n IH]; intro i; cbn [glyph_widths seq forallb].
  - split; eauto.
  - specialize (IH (S i)). replace (N.of_nat (S i)) with (N.of_nat i + 1) in IH by lia.
    destruct (w (N.of_nat i)) as [q|e|]; cbn [andb].
    + rewrite <- IH. split.
      * intros [l H]. destruct (glyph_widths w (N.of_nat i + 1) n); try discriminate. eauto.
      * intros [l H]. rewrite H. eauto.
    + split; [intros [l H]|]; discriminate.
    + split; [intros [l H]|]; discriminate.
Qed.

Definition coherent_set (S : font -> Prop) : Prop := forall f g, S f -> S g -> f_addr f = f_addr g -> f = g.

Lemma doc_of_with_pdf : forall adds adds' kids alphas fl,
  with_pdf (doc_of adds kids alphas fl) (the_file adds') = doc_of adds' kids alphas fl.
Proof. reflexivity. Qed.

Lemma clean_stream : forall l c, Forall clean_entry l -> ~ In (bs "Length") (map fst l) ->
  clean_addition (AddStream (dict l) c).
Proof.
  intros l c H1 H2. split; [apply clean_dict; auto|]. cbn [dict meaning_pairs app].
  rewrite map_map. cbn [fst]. auto.
Qed.

Lemma has_mid : forall adds pre a post, has (adds ++ pre ++ a :: post) (new_id (adds ++ pre)) a.
Proof.
  intros adds pre a post. change (a :: post) with ([a] ++ post). rewrite !app_assoc.
  apply has_app. apply has_new.
Qed.

Lemma add_font_spec : forall S adds kids alphas fl f,
  coherent_set S -> S f -> clean_name (f_name f) -> ok_state S adds alphas fl ->
  exists adds' fl' r,
    add_font (doc_of adds kids alphas fl) f = (doc_of (adds ++ adds') kids alphas (fl ++ fl'), r) /\
    ok_state S (adds ++ adds') alphas (fl ++ fl') /\
    if embeddable f
    then exists i id, nth_error (fl ++ fl') i = Some (f, id) /\ r = Ok (key "f" (N.of_nat i))
    else fl' = [] /\ forall k, r <> Ok k.
Proof.
  intros S adds kids alphas fl f HS Hf Hn OK. unfold add_font.
  cbn [doc_of d_fonts]. fold (doc_of adds kids alphas fl).
  destruct (assoc _ _) as [k|] eqn:A.
  - apply (assoc_some (font * N) (fun fi => f_addr (fst fi))) in A as (i & [g id] & A1 & A2 & ->).
    cbn [fst] in A2. exists [], [], (Ok (key "f" (N.of_nat i))). rewrite !app_nil_r.
    rewrite N.add_0_l. split; [auto|]. split; [auto|].
    pose proof (ok_fonts _ _ _ _ OK) as F. rewrite Forall_forall in F.
    destruct (F (g, id)) as (F1 & F2 & _); [eapply nth_error_In; eauto|]. cbn [fst] in *.
    assert (g = f) by (apply HS; auto). subst g. rewrite F2. eauto.
  - change (d_pdf (doc_of adds kids alphas fl)) with (the_file adds).
    rewrite add_stream_eq. rewrite add_dictionary_eq. rewrite <- app_assoc. cbn [app].
    set (A1 := AddStream (dict _) (f_bytes f)).
    set (A2 := AddDictionary (font_descriptor f (new_id adds))).
    assert (C1 : clean_addition A1).
    { apply clean_stream; [entries; exact I|]. cbn. intros [X|[]]. discriminate. }
    assert (C2 : clean_addition A2) by (apply font_descriptor_clean; auto).
    unfold embeddable at 1. destruct (f_code_points_result f) as [e|] eqn:CR.
    { exists [A1; A2], [], (Err e). rewrite doc_of_with_pdf, app_nil_r. split; [auto|].
      split; [apply ok_more; auto|]. cbn [andb]. split; [auto|discriminate]. }
    rewrite add_stream_eq. rewrite <- app_assoc. cbn [app].
    set (A3 := AddStream (dict []) _).
    assert (C3 : clean_addition A3) by (apply clean_stream; [constructor|auto]).
    cbn [andb]. pose proof (glyph_widths_ok (f_glyph_width f) (N.to_nat (f_glyph_count f)) 0) as GW.
    change (N.of_nat 0) with 0 in GW.
    destruct (glyph_widths (f_glyph_width f) 0 (N.to_nat (f_glyph_count f))) as [ws|e|] eqn:W.
    + rewrite (proj1 GW) by eauto.
      rewrite add_dictionary_eq. rewrite <- app_assoc. cbn [app].
      set (A4 := AddDictionary (font_dict _ _ _ _)).
      assert (C4 : clean_addition A4) by (apply font_dict_clean; eauto using glyph_widths_clean).
      set (id := new_id (adds ++ [A1; A2; A3])).
      exists [A1; A2; A3; A4], [(f, id)], (Ok (key "f" (lenN fl))). split; [|split].
      * unfold doc_of. cbn [d_pdf d_page_ids d_ext_gs d_font_res d_fonts d_alpha_states].
        rewrite index_from_app, !map_app. cbn [index_from map fst snd]. rewrite N.add_0_l.
        Transparent lenN. unfold lenN. rewrite map_length.
        fold (lenN (index_from 0 fl)). rewrite lenN_index. Opaque lenN. reflexivity.
      * destruct (ok_more S adds [A1; A2; A3; A4] alphas fl OK) as [O1 O2 O3 O4 _]; [auto 10|].
        split; auto.
        -- apply Forall_app. split; [auto|]. constructor; [|constructor]. cbn [fst snd].
           split; [auto|]. split.
           { unfold embeddable. rewrite CR. cbn [andb]. apply GW. eauto. }
           exists (new_id adds), (new_id (adds ++ [A1])), (new_id (adds ++ [A1; A2])), ws.
           split; [|split; [|split; [|split]]].
           ++ pose proof (has_mid adds [] A1 [A2; A3; A4]) as M. rewrite app_nil_r in M. exact M.
           ++ exact (has_mid adds [A1] A2 [A3; A4]).
           ++ exact (has_mid adds [A1; A2] A3 [A4]).
           ++ exact (has_mid adds [A1; A2; A3] A4 []).
           ++ auto.
        -- rewrite map_app. cbn [map fst]. apply NoDup_app_snoc; auto.
           intro X. apply in_map_iff in X as ([g i] & X1 & X2).
           revert X1. apply (assoc_none (font * N) (fun fi => f_addr (fst fi)) _ _ _ _ A _ X2).
        -- rewrite map_app. exact (numbered_new adds [A1; A2; A3] A4 [] _ (ok_ids _ _ _ _ OK)).
      * exists (length fl), id. rewrite nth_error_app2, Nat.sub_diag by auto. split; [reflexivity|].
        Transparent lenN. reflexivity. Opaque lenN.
    + destruct (forallb _ _); [destruct (proj2 GW eq_refl); discriminate|].
      exists [A1; A2; A3], [], (Err e). rewrite doc_of_with_pdf, app_nil_r. split; [auto|].
      split; [apply ok_more; auto|]. split; [auto|discriminate].
    + destruct (forallb _ _); [destruct (proj2 GW eq_refl); discriminate|].
      exists [A1; A2; A3], [], Panic. rewrite doc_of_with_pdf, app_nil_r. split; [auto|].
      split; [apply ok_more; auto|]. split; [auto|discriminate].
Qed.

(** ** Text *)
Lemma glyph_codes_units : forall l, Forall (fun g => g < 65536) l ->
  utf16be_units (glyph_codes l) = Some l /\ wf_bytes (glyph_codes l).
Proof.
  induction l as [|g l IH]; intro H; [split; [reflexivity|constructor]|].
  inversion H; subst. destruct (IH H3) as [A B]. unfold glyph_codes in *. cbn [flat_map app utf16be_units].
  rewrite A. rewrite N.shiftr_div_pow2. change (2 ^ 8) with 256.
  assert (X : g / 256 < 256) by (apply N.div_lt_upper_bound; lia).
  rewrite (N.mod_small (g / 256)) by auto. split.
  - f_equal. f_equal. rewrite N.mul_comm. symmetry. apply N.div_mod. discriminate.
  - constructor; [exact X|]. constructor; [|auto]. apply N.mod_lt. discriminate.
Qed.

Lemma text_matrix : forall fs x y,
  mat_mul (mkM (inject_Z 1) 0 0 (inject_Z 1) 0 0)
    (mat_mul (mkM fs (inject_Z 0) (inject_Z 0) (Qred (- fs)) x y) flip) =
  mkM (Qred (pt fs)) 0 0 (Qred (pt fs)) (Qred (pt x)) (Qred (- pt y)).
Proof.
  intros fs x y. unfold mat_mul, flip, pt. cbn [ma mb mc md me mf].
  change (inject_Z 1) with 1%Q. change (inject_Z 0) with 0%Q.
  f_equal; try (apply Qred_complete; rewrite !Qred_correct; ring);
    (transitivity (Qred 0); [apply Qred_complete; rewrite !Qred_correct; ring|reflexivity]).
Qed.

Definition text_ops (k : bytes) (glyphs : list N) (fs x y : dec) : bytes :=
  op_text "BT" [] ++ op_text "Tf" [OName k; OI32 1] ++
  op_text "Tm" [OFloat fs; OI32 0; OI32 0; OFloat (dec_neg fs); OFloat x; OFloat y] ++
  op_text "Tj" [OHexString (glyph_codes glyphs)] ++ op_text "ET" [].

Lemma draws_text : forall alphas fl al fl' p g i f id glyphs fs x y,
  gmatch p g -> nth_error fl i = Some (f, id) -> Forall (fun g => g < 65536) glyphs ->
  moderate fs -> moderate x -> moderate y ->
  exists g', gmatch p g' /\
  draws (res_of (alphas ++ al) (fl ++ fl')) g (text_ops (key "f" (N.of_nat i)) glyphs fs x y) g'
    [MText (PRef id 0)
       (mkM (Qred (pt (dec_value fs))) 0 0 (Qred (pt (dec_value fs)))
            (Qred (pt (dec_value x))) (Qred (- pt (dec_value y))))
       (glyph_codes glyphs) (rgb_of p) (g_alpha g)].
Proof.
  intros alphas fl al fl' p g i f id glyphs fs x y (G1 & G2 & G3 & G4 & G5) Hi Hg Hfs Hx Hy.
  destruct (glyph_codes_units glyphs Hg) as [_ W].
  eexists. split.
  2: { unfold text_ops.
       change [MText ?a ?b ?c ?d ?e] with ([] ++ [] ++ [] ++ [MText a b c d e] ++ []).
       eapply draws_app; [|eapply draws_app; [|eapply draws_app; [|eapply draws_app]]].
       - apply draws_op; [apply kw_BT|constructor|]. op_reduce. rewrite G4. reflexivity.
       - apply draws_op; [apply kw_Tf| |].
         + constructor; [|constructor; [exact I|constructor]]. apply key_clean.
           cbn. intros [X|[]]; discriminate.
         + op_reduce. cbn [res_of r_fonts].
           pose proof (lookup_numbered (font * N) (fun fi => PRef (snd fi) 0) "f" (fl ++ fl') 0 i) as L.
           rewrite N.add_0_l in L. rewrite L, nth_error_app1, Hi by (apply nth_error_Some; congruence).
           cbn [option_map snd]. reflexivity.
       - apply draws_op; [apply kw_Tm| |].
         + repeat (apply Forall_cons || apply Forall_nil); try exact I; try (apply operand_float; assumption).
           apply dec_neg_clean. apply moderate_clean. auto.
         + op_reduce. reflexivity.
       - apply draws_op; [apply kw_Tj| |].
         + constructor; [exact W|constructor].
         + op_reduce. rewrite G1, dec_neg_value, text_matrix, G2. reflexivity.
       - apply draws_op; [apply kw_ET|constructor|]. op_reduce. reflexivity. }
  split; [auto|]. split; [auto|]. split; [auto|]. split; auto.
Qed.

Lemma show_text_spec : forall S adds kids alphas fl p f glyphs fs x y,
  coherent_set S -> S f -> clean_request (ShowText f glyphs fs x y) -> ok_state S adds alphas fl ->
  exists adds' fl' p',
    fst (show_text (doc_of adds kids alphas fl) p f glyphs fs x y) =
      (doc_of (adds ++ adds') kids alphas (fl ++ fl'), p') /\
    ok_state S (adds ++ adds') alphas (fl ++ fl') /\
    continues alphas (fl ++ fl') p p'
      (wants (rgb_of p) (dec_value (pg_alpha p)) [ShowText f glyphs fs x y]) /\
    rgb_of p' = rgb_of p /\ pg_alpha p' = pg_alpha p.
Proof.
  intros S adds kids alphas fl p f glyphs fs x y HS Hf (Hn & Hg & Hfs & Hx & Hy) OK.
  destruct (add_font_spec S adds kids alphas fl f HS Hf Hn OK) as (adds' & fl' & r & E & OK' & R).
  unfold show_text. rewrite E. exists adds', fl'.
  cbn [wants]. destruct (embeddable f).
  - destruct R as (i & id & Hi & ->). eexists. split; [reflexivity|]. split; [auto|].
    split; [|split; reflexivity]. split; [reflexivity|]. split; [reflexivity|].
    exists (text_ops (key "f" (N.of_nat i)) glyphs fs x y). split.
    { unfold text_ops. cbn [op pg_ops]. rewrite !app_assoc. reflexivity. }
    intros al fl2 g G.
    destruct (draws_text alphas (fl ++ fl') al fl2 p g i f id glyphs fs x y G Hi Hg Hfs Hx Hy) as (g' & G' & D).
    exists g'. eexists. split; [exact D|]. split; [exact G'|]. cbn [app].
    constructor; [|constructor]. cbn [painted]. split; [auto|].
    split; [apply glyph_codes_units; auto|]. split; [auto|]. split; [apply G|].
    exists id. split; [auto|]. apply in_or_app. left. eapply nth_error_In; eauto.
  - destruct R as [-> R]. exists p. rewrite app_nil_r in *.
    split.
    + destruct r; [exfalso; eapply R; eauto|reflexivity|reflexivity].
    + split; [auto|]. split; [apply continues_refl|]. auto.
Qed.

(** ** A page *)
Lemma do_request_spec : forall S adds kids alphas fl p r,
  coherent_set S -> (forall f gl fs x y, r = ShowText f gl fs x y -> S f) -> clean_request r ->
  ok_state S adds alphas fl ->
  exists adds' alphas' fl' p',
    do_request (doc_of adds kids alphas fl, p) r = (doc_of (adds ++ adds') kids (alphas ++ alphas') (fl ++ fl'), p') /\
    ok_state S (adds ++ adds') (alphas ++ alphas') (fl ++ fl') /\
    exists ws, continues (alphas ++ alphas') (fl ++ fl') p p' ws /\
    forall l, wants (rgb_of p) (dec_value (pg_alpha p)) (r :: l) =
              ws ++ wants (rgb_of p') (dec_value (pg_alpha p')) l.
Proof.
  intros S adds kids alphas fl p r HS Hf Hc OK. destruct r as [[[[r g] b] a]|x y w h|f gl fs x y].
  - destruct Hc as (H1 & H2 & H3 & H4).
    destruct (set_color_spec S adds kids alphas fl p r g b a OK H1 H2 H3 H4) as (al & p' & E & OK' & C & R & A).
    exists [], al, [], p'. rewrite !app_nil_r. split; [exact E|]. split; [auto|].
    exists []. split; [auto|]. intro l. cbn [wants app]. rewrite R, A. auto.
  - destruct Hc as (H1 & H2 & H3 & H4).
    destruct (paint_rectangle_continues alphas fl p x y w h H1 H2 H3 H4) as (C & R & A).
    exists [], [], [], (paint_rectangle p x y w h). rewrite !app_nil_r. split; [reflexivity|]. split; [auto|].
    eexists. split; [exact C|]. intro l. rewrite R, A. reflexivity.
  - destruct (show_text_spec S adds kids alphas fl p f gl fs x y HS) as (ad & fl' & p' & E & OK' & C & R & A); eauto.
    exists ad, [], fl', p'. rewrite !app_nil_r. split; [exact E|]. split; [auto|].
    eexists. split; [exact C|]. intro l. rewrite R, A. cbn [wants]. rewrite app_nil_r. reflexivity.
Qed.

Lemma do_requests_spec : forall S rs adds kids alphas fl p,
  coherent_set S -> Forall clean_request rs ->
  (forall f gl fs x y, In (ShowText f gl fs x y) rs -> S f) ->
  ok_state S adds alphas fl ->
  exists adds' alphas' fl' p',
    fold_left do_request rs (doc_of adds kids alphas fl, p) =
      (doc_of (adds ++ adds') kids (alphas ++ alphas') (fl ++ fl'), p') /\
    ok_state S (adds ++ adds') (alphas ++ alphas') (fl ++ fl') /\
    continues (alphas ++ alphas') (fl ++ fl') p p' (wants (rgb_of p) (dec_value (pg_alpha p)) rs).
Proof.
  intros S rs. induction rs as [|r rs IH]; intros adds kids alphas fl p HS Hc Hf OK.
  - exists [], [], [], p. rewrite !app_nil_r. split; [auto|]. split; [auto|]. apply continues_refl.
  - inversion Hc; subst. cbn [fold_left].
    destruct (do_request_spec S adds kids alphas fl p r HS) as (ad & al & f1 & p1 & E & OK1 & ws & C & W); auto.
    { intros. subst. eapply Hf. left. reflexivity. }
    rewrite E.
    destruct (IH (adds ++ ad) kids (alphas ++ al) (fl ++ f1) p1 HS H2) as (ad2 & al2 & f2 & p2 & E2 & OK2 & C2); auto.
    { intros. eapply Hf. right. eauto. }
    exists (ad ++ ad2), (al ++ al2), (f1 ++ f2), p2.
    rewrite (app_assoc adds), (app_assoc alphas), (app_assoc fl). split; [auto|]. split; [auto|].
    rewrite W. eapply continues_trans; eauto.
Qed.
