(** Plain text: pieces, lines and pages. *)
From Coq Require Import QArith Qabs Lqa.
From Verif Require Import Base FontCmap PdfObject PdfObjectSpec PdfSyntax PdfConvert PdfConvertSpec PdfPagesProofs Text BoxTree BoxTreeSpec BoxTextProofs InlineSpec InlineProofs
  PaintSpec PaintProofs TextPlain TextPlainSpec.
Local Open Scope nat_scope.

(** ** Newlines at the end *)
Lemma trim_visible : forall cs, visible cs (trim_end_newlines cs).
Proof.
  induction cs as [|c r IH]; [exact (vis [] 0 ltac:(intros [|]; discriminate))|]. cbn [trim_end_newlines].
  destruct (trim_end_newlines r) as [|b l] eqn:E; inversion IH as [t n Ht E1 E2]; subst t r.
  - destruct (N.eqb_spec c 10) as [->|Hc].
    + exact (vis [] (S n) ltac:(intros [|]; discriminate)).
    + apply (vis [c] n). intros [|x a] H; [|destruct a; discriminate H]. injection H as ->. apply Hc. reflexivity.
  - apply (vis (c :: b :: l) n). intros [|x a] H; [discriminate H|]. injection H as -> H. exact (Ht a H).
Qed.
Lemma visible_trim : forall cs t, visible cs t -> t = trim_end_newlines cs.
Proof.
  intros cs t H. inversion H as [t' n Ht]; subst. clear H.
  assert (A : forall l, trim_end_newlines (l ++ repeat newline n) = trim_end_newlines l).
  { assert (B : trim_end_newlines (repeat newline n) = []).
    { induction n as [|n IH]; [reflexivity|]. cbn [repeat trim_end_newlines]. rewrite IH. reflexivity. }
    induction l as [|c r IH]; [exact B|]. cbn [app trim_end_newlines]. rewrite IH. reflexivity. }
  rewrite A. clear A n. induction t as [|c r IH]; [reflexivity|]. cbn [trim_end_newlines]. rewrite <- IH.
  - destruct r; [|reflexivity]. destruct (N.eqb_spec c 10); [|reflexivity]. subst. destruct (Ht [] eq_refl).
  - intros a E. exact (Ht (c :: a) (f_equal (cons c) E)).
Qed.
Lemma trim_utf8 : forall cs, trim_end_newlines (flat_map utf8 cs) = flat_map utf8 (trim_end_newlines cs).
Proof.
  assert (A : forall c r, trim_end_newlines (utf8 c ++ r) =
    match trim_end_newlines r with [] => if (c =? 10)%N then [] else utf8 c | l => utf8 c ++ l end).
  { intros c r. assert (B : forall x, (128 + x =? 10)%N = false) by (intros x; apply N.eqb_neq; lia). unfold utf8.
    destruct (N.ltb_spec c 128) as [H1|H1]; [reflexivity|]. rewrite (proj2 (N.eqb_neq c 10)) by lia.
    destruct (c <? 2048)%N; [|destruct (c <? 65536)%N]; cbn [app trim_end_newlines]; (destruct (trim_end_newlines r); [rewrite B|]; reflexivity). }
  induction cs as [|c r IH]; [reflexivity|]. cbn [flat_map]. rewrite A, IH. cbn [trim_end_newlines].
  destruct (trim_end_newlines r) as [|x l]; [cbn [flat_map]; destruct (c =? 10)%N; cbn [flat_map]; rewrite ?app_nil_r; reflexivity|].
  assert (N : forall l', utf8 x ++ l' <> []) by (intros l'; unfold utf8; repeat (destruct (_ <? _)%N); discriminate).
  destruct (flat_map utf8 (x :: l)) as [|y l'] eqn:E; [destruct (N _ E)|]. change (flat_map utf8 (c :: x :: l)) with (utf8 c ++ flat_map utf8 (x :: l)). rewrite E. reflexivity.
Qed.
Lemma trim_chars : forall cs, Forall (fun c => is_char c = true) cs -> Forall (fun c => is_char c = true) (trim_end_newlines cs).
Proof.
  intros cs H. pose proof (trim_visible cs) as V. set (l := trim_end_newlines cs) in *. clearbody l. inversion V; subst. apply Forall_app in H as [H _]. exact H.
Qed.

(** ** Slices *)
Lemma boundary : forall a b, Forall (fun c => is_char c = true) b -> is_char_boundary (a ++ flat_map utf8 b) (length a) = true.
Proof.
  intros a b H. unfold is_char_boundary. rewrite nth_error_app2, Nat.sub_diag by lia. destruct b as [|c r].
  - cbn [flat_map nth_error]. rewrite app_nil_r. apply Nat.eqb_refl.
  - cbn [flat_map]. inversion H; subst. unfold utf8.
    destruct (N.ltb_spec c 128) as [L|L]; cbn [app nth_error]; [rewrite (proj2 (N.leb_gt 128 c)) by lia; reflexivity|].
    destruct (c <? 2048)%N; [|destruct (c <? 65536)%N]; cbn [app nth_error];
      (rewrite Bool.andb_comm; match goal with |- context [(?x <? 192)%N] => rewrite (proj2 (N.ltb_ge x 192)) by lia end; reflexivity).
Qed.
Lemma slice_app : forall a cs b, Forall (fun c => is_char c = true) cs -> Forall (fun c => is_char c = true) b ->
  slice (a ++ flat_map utf8 cs ++ flat_map utf8 b) (length a) (length a + length (flat_map utf8 cs)) = Some (flat_map utf8 cs).
Proof.
  intros a cs b Hc Hb. unfold slice. rewrite !app_length, (proj2 (Nat.leb_le _ _)), (proj2 (Nat.leb_le _ _)) by lia.
  rewrite <- (flat_map_app utf8 cs b), (boundary a (cs ++ b)) by (apply Forall_app; split; assumption).
  rewrite flat_map_app. replace (length a + length (flat_map utf8 cs)) with (length (a ++ flat_map utf8 cs)) by apply app_length.
  rewrite app_assoc, boundary by exact Hb. cbn [andb]. rewrite app_length. replace (length a + length (flat_map utf8 cs) - length a) with (length (flat_map utf8 cs)) by lia.
  rewrite <- app_assoc, skipn_app, skipn_all, Nat.sub_diag. cbn [app skipn]. rewrite firstn_app, Nat.sub_diag, firstn_all. cbn [firstn]. rewrite app_nil_r. reflexivity.
Qed.

(** ** Shaping *)
Section Shape.
Variable glyph_id : N -> res font_error N.
Variable glyph_width : N -> res font_error Q.
Lemma append_shapes : forall t s, (exists gs w, shapes glyph_id glyph_width t gs w /\ exists w', append glyph_id glyph_width s t = (mkShaped (glyphs s ++ gs) w', Ok tt) /\ (w' == advance_width s + w)%Q) \/
  (exists s' r, append glyph_id glyph_width s t = (s', r) /\ r <> Ok tt /\ exists c, In c t /\
     match glyph_id c with Ok g => match glyph_width g with Ok _ => False | Err e => r = Err e | Panic => r = Panic end | Err e => r = Err e | Panic => r = Panic end).
Proof.
  induction t as [|c t IH]; intros s.
  - left. exists [], 0%Q. split; [constructor|]. exists (advance_width s). cbn [append]. rewrite app_nil_r. destruct s. split; [reflexivity|]. cbn [Text.advance_width]. ring.
  - cbn [append]. unfold append_char.
    assert (B : forall r, r <> Ok tt -> match glyph_id c with Ok g => match glyph_width g with Ok _ => False | Err e => r = Err e | Panic => r = Panic end | Err e => r = Err e | Panic => r = Panic end ->
      exists s' r', (s, r) = (s', r') /\ r' <> Ok tt /\ exists c', In c' (c :: t) /\
      match glyph_id c' with Ok g => match glyph_width g with Ok _ => False | Err e => r' = Err e | Panic => r' = Panic end | Err e => r' = Err e | Panic => r' = Panic end).
    { intros r Hr H. exists s, r. split; [reflexivity|]. split; [exact Hr|]. exists c. split; [left; reflexivity|exact H]. }
    destruct (glyph_id c) as [g|e|] eqn:Eg; cbn [bind].
    + destruct (glyph_width g) as [w|e|] eqn:Ew; cbn [bind].
      * destruct (IH (mkShaped (glyphs s ++ [g]) (advance_width s + w)%Q)) as [(gs & w1 & S1 & w' & E & W)|(s' & r & E & Hr & c' & Hc & H)].
        -- left. exists (g :: gs), (w + w1)%Q. split; [econstructor; eassumption|]. exists w'. rewrite E. cbn [Text.glyphs Text.advance_width] in *. rewrite <- app_assoc. split; [reflexivity|]. rewrite W. ring.
        -- right. exists s', r. split; [exact E|]. split; [exact Hr|]. exists c'. split; [right; exact Hc|exact H].
      * right. apply B; [discriminate|reflexivity].
      * right. apply B; [discriminate|reflexivity].
    + right. apply B; [discriminate|reflexivity].
    + right. apply B; [discriminate|reflexivity].
Qed.
(** A character without a glyph or a width *)
Definition fails (r : res font_error unit) (c : N) : Prop :=
  match glyph_id c with Ok g => match glyph_width g with Ok _ => False | Err e => r = Err e | Panic => r = Panic end | Err e => r = Err e | Panic => r = Panic end.
Lemma shape_cases : forall t, (exists s w, naive_shape glyph_id glyph_width t = Ok s /\ shapes glyph_id glyph_width t (glyphs s) w /\ (advance_width s == w)%Q) \/
  (exists e c, naive_shape glyph_id glyph_width t = Err e /\ In c t /\ fails (Err e) c) \/
  (exists c, naive_shape glyph_id glyph_width t = Panic /\ In c t /\ fails Panic c).
Proof.
  intros t. unfold naive_shape. destruct (append_shapes t new_with_naive_shaping) as [(gs & w & S & w' & -> & W)|(s' & r & -> & Hr & c & Hc & H)].
  - left. exists (mkShaped (glyphs new_with_naive_shaping ++ gs) w'), w. split; [reflexivity|]. split; [exact S|]. cbn [Text.advance_width]. rewrite W. cbn [new_with_naive_shaping Text.advance_width]. ring.
  - right. destruct r as [[]|e|]; [destruct (Hr eq_refl)|left; exists e, c|right; exists c]; (split; [reflexivity|split; [exact Hc|exact H]]).
Qed.
End Shape.

Section Plain.
Variable round : Q -> dec.
Variable glyph_id : N -> res font_error N.
Variable style : plain_style.
Notation fnt := (ps_font style).
Notation naive_shape := (naive_shape glyph_id (f_glyph_width fnt)).

(** ** What is still to come *)
Definition piece_item (s : list N * bool) : item :=
  match naive_shape (trim_end_newlines (fst s)) with Ok x => Ok (x, snd s) | Err e => Err e | Panic => Panic end.
Section Text.
Variable text : bytes.
Fixpoint shaped_items (previous : nat) (l : list (nat * bool)) : list item :=
  match l with [] => [] | (position, hard) :: r => shape_segment glyph_id style text previous position hard :: shaped_items position r end.
Definition pending (rw : rewind) : list item :=
  match rw_buffer rw with Some i => [i] | None => [] end ++ shaped_items (rw_previous_break_position rw) (rw_inner rw).
Lemma shaped_length : forall l p, length (shaped_items p l) = length l.
Proof. induction l as [|[q h] l IH]; intros p; [reflexivity|]. cbn [shaped_items length]. rewrite IH. reflexivity. Qed.
Lemma pending_bounds : forall rw, length (rw_inner rw) <= length (pending rw) <= S (length (rw_inner rw)).
Proof. intros rw. unfold pending. rewrite app_length, shaped_length. destruct (rw_buffer rw); cbn [length]; lia. Qed.
Lemma next_pending : forall rw, rewind_next glyph_id style text rw =
  match pending rw with [] => (None, rw) | i :: _ => (Some i, snd (rewind_next glyph_id style text rw)) end /\
  (pending rw <> [] -> pending (snd (rewind_next glyph_id style text rw)) = tl (pending rw) /\ rw_buffer (snd (rewind_next glyph_id style text rw)) = None).
Proof.
  intros [inner prev [i|]]; unfold rewind_next, pending; cbn [rw_buffer rw_inner rw_previous_break_position app].
  - split; [reflexivity|]. intros _. split; reflexivity.
  - destruct inner as [|[p h] r]; cbn [shaped_items]; split; try reflexivity; intros H; [destruct (H eq_refl)|split; reflexivity].
Qed.
Lemma rewind_pending : forall rw i, rw_buffer rw = None -> exists rw', rewind_rewind rw i = Some rw' /\ pending rw' = i :: pending rw /\ rw_inner rw' = rw_inner rw.
Proof.
  intros [inner prev b] i H. cbn [rw_buffer] in H. subst. unfold rewind_rewind. cbn [rw_buffer]. eexists. split; [reflexivity|]. split; reflexivity.
Qed.

(** ** A line *)
Definition to_word (i : shaped * bool) : word := mkWord (glyphs (fst i)) (advance_width (fst i) * px_per_em style)%Q (snd i).
Definition words (l : list (shaped * bool)) : list word := map to_word l.
Definition ending {A} (tail : list item) : res font_error (option A) :=
  match tail with Err e :: _ => Err e | Panic :: _ => Panic | _ => Ok None end.
Definition stops (tail : list item) : Prop := match tail with Ok _ :: _ => False | _ => True end.
Notation avail := (available_width style).
Lemma line_width_app : forall a b, (line_width (a ++ b) == line_width a + line_width b)%Q.
Proof. intros a b. unfold line_width. induction a as [|w a IH]; cbn [app map fold_right]; [ring|]. rewrite IH. ring. Qed.
Lemma fits_in_snoc : forall av l w, fits_in av l -> ((0 < line_width l)%Q -> (line_width l + w_width w <= av)%Q) -> fits_in av (l ++ [w]).
Proof.
  intros av l w H1 H2 a x b E P. destruct (exists_last (l := x :: b)) as (b' & y & Eb); [discriminate|]. rewrite Eb, app_assoc in E. apply app_inj_tail in E as [-> ->].
  destruct b' as [|z b'].
  - cbn [app] in Eb. injection Eb as -> _. rewrite app_nil_r in *. apply H2. exact P.
  - cbn [app] in Eb. injection Eb as -> ->. exact (H1 a z b' eq_refl P).
Qed.
Lemma words_app : forall a b, words (a ++ b) = words a ++ words b.
Proof. apply map_app. Qed.

Inductive filled (tail : list item) : list (shaped * bool) -> list (shaped * bool) -> res font_error (option (rewind * list shaped * Q * bool)) -> Prop :=
| f_end : forall acc ws, fits_in avail (words (acc ++ ws)) -> no_hard (words (acc ++ ws)) -> filled tail acc ws (ending tail)
| f_hard : forall acc l w r rw tot, fits_in avail (words (acc ++ l ++ [w])) -> no_hard (words (acc ++ l)) -> snd w = true -> (tot == line_width (words (acc ++ l ++ [w])))%Q ->
    pending rw = map Ok r ++ tail ->
    filled tail acc (l ++ w :: r) (Ok (Some (rw, map fst (acc ++ l ++ [w]), tot, false)))
| f_soft : forall acc l w r rw tot, fits_in avail (words (acc ++ l)) -> no_hard (words (acc ++ l)) -> (tot == line_width (words (acc ++ l)))%Q -> (0 < tot)%Q ->
    (avail < tot + w_width (to_word w))%Q -> pending rw = map Ok (w :: r) ++ tail ->
    filled tail acc (l ++ w :: r) (Ok (Some (rw, map fst (acc ++ l), tot, ps_justify style))).
Lemma fill_spec : forall tail ws, stops tail -> forall fuel rw acc tot, pending rw = map Ok ws ++ tail -> length ws < fuel ->
  fits_in avail (words acc) -> no_hard (words acc) -> (tot == line_width (words acc))%Q ->
  exists r, fill_line_loop glyph_id style text fuel rw (map fst acc) tot = Some r /\ filled tail acc ws r.
Proof.
  intros tail ws Hs. induction ws as [|w ws IH]; intros fuel rw acc tot Hp Hf F1 F2 F3; (destruct fuel as [|fuel]; [cbn [length] in Hf; lia|]);
    cbn [fill_line_loop]; destruct (next_pending rw) as [N1 N2]; rewrite N1; rewrite Hp in *; cbn [map app tl] in *.
  - exists (ending tail). split.
    + destruct tail as [|[x|e|] tail]; [reflexivity|destruct Hs|reflexivity|reflexivity].
    + apply f_end; rewrite app_nil_r; assumption.
  - destruct N2 as [N2 N3]; [discriminate|]. destruct w as [sg h]. set (rw1 := snd (rewind_next glyph_id style text rw)) in *. clearbody rw1.
    assert (W : (advance_width sg * px_per_em style)%Q = w_width (to_word (sg, h))) by reflexivity. rewrite W.
    destruct (negb (Qle_bool (tot + w_width (to_word (sg, h))) avail) && negb (Qle_bool tot 0)) eqn:E.
    + destruct (rewind_pending rw1 (Ok (sg, h)) N3) as (rw2 & -> & P2 & _). eexists. split; [reflexivity|].
      apply andb_prop in E as [E1 E2]. apply Bool.negb_true_iff in E1, E2.
      assert (L1 : (avail < tot + w_width (to_word (sg, h)))%Q). { apply Qnot_le_lt. intros L. apply Qle_bool_iff in L. congruence. }
      assert (L2 : (0 < tot)%Q). { apply Qnot_le_lt. intros L. apply Qle_bool_iff in L. congruence. }
      pose proof (f_soft tail acc [] (sg, h) ws rw2 tot) as K. rewrite app_nil_r in K. apply K; try assumption. rewrite P2, N2. reflexivity.
    + assert (F1' : fits_in avail (words (acc ++ [(sg, h)]))).
      { rewrite words_app. apply fits_in_snoc; [exact F1|]. intros P. rewrite <- F3 in P |- *. apply Bool.andb_false_iff in E as [E|E]; apply Bool.negb_false_iff, Qle_bool_iff in E; [exact E|lra]. }
      assert (F3' : (tot + w_width (to_word (sg, h)) == line_width (words (acc ++ [(sg, h)])))%Q).
      { rewrite words_app, line_width_app, <- F3. unfold line_width. cbn [words map fold_right]. ring. }
      replace (map fst acc ++ [sg]) with (map fst (acc ++ [(sg, h)])) by (rewrite map_app; reflexivity).
      destruct h.
      * eexists. split; [reflexivity|]. apply (f_hard tail acc [] (sg, true) ws rw1 _); cbn [app]; try rewrite app_nil_r; try assumption. reflexivity.
      * destruct (IH fuel rw1 (acc ++ [(sg, false)]) (tot + w_width (to_word (sg, false)))%Q N2 ltac:(cbn [length] in Hf; lia) F1') as (r & Er & Fr).
        -- intros x Hx. rewrite words_app in Hx. apply in_app_or in Hx as [Hx|[<-|[]]]; [exact (F2 x Hx)|reflexivity].
        -- exact F3'.
        -- exists r. split; [exact Er|]. clear - Fr. inversion Fr; subst; rewrite <- ?app_assoc in *; cbn [app] in *.
           ++ apply f_end; assumption.
           ++ apply (f_hard tail acc ((sg, false) :: l)); assumption.
           ++ apply (f_soft tail acc ((sg, false) :: l)); assumption.
Qed.

(** ** Requests *)
Definition asks (r : request) (p : Q * Q * word) : Prop :=
  let '(x, y, w) := p in exists x' y', (x' == x)%Q /\ (y' == y)%Q /\ r = ShowText fnt (w_glyphs w) (round (ps_font_size style)) (round x') (round y').
Fixpoint line_requests (x base sp : Q) (l : list shaped) : list request :=
  match l with
  | [] => []
  | s :: r => ShowText fnt (glyphs s) (round (ps_font_size style)) (round x) (round base) :: line_requests (x + (Text.advance_width s * px_per_em style + sp))%Q base sp r
  end.
Lemma show_line_requests : embeddable fnt = true -> forall l d p x base sp,
  show_line round style d p x base sp l = Ok (fold_left do_request (line_requests x base sp l) (d, p)).
Proof.
  intros He. induction l as [|s l IH]; intros d p x base sp; [reflexivity|]. cbn [show_line line_requests fold_left do_request]. unfold show_text.
  destruct (embeddable_added d fnt He) as (d' & k & ->). cbn [fst]. apply IH.
Qed.
Lemma count_snoc : forall {A} (l : list A) x, (count (l ++ [x]) == count l + 1)%Q.
Proof. intros A l x. unfold count. rewrite app_length, Nat.add_1_r, Nat2Z.inj_succ, <- Z.add_1_r, inject_Z_plus. reflexivity. Qed.
Lemma line_asks : forall left_ y sp sp' base l b x, (sp == sp')%Q \/ length b + length l <= 1 -> (base == y)%Q -> (x == left_ + line_width b + count b * sp')%Q ->
  Forall2 asks (line_requests x base sp (map fst l))
    (map (fun bw => ((left_ + line_width (fst bw) + count (fst bw) * sp')%Q, y, snd bw)) (with_before b (words l))).
Proof.
  intros left_ y sp sp' base. induction l as [|s l IH]; intros b x Hs Hb Hx; cbn [map line_requests words with_before]; [constructor|]. fold (words l).
  constructor.
  - cbn [fst snd asks]. exists x, base. split; [exact Hx|]. split; [exact Hb|]. reflexivity.
  - destruct Hs as [Hs|Hs].
    + apply IH; [left; exact Hs|exact Hb|]. rewrite Hx, line_width_app, count_snoc, Hs. unfold line_width at 3. cbn [map fold_right to_word w_width]. ring.
    + cbn [length] in Hs. destruct l; [constructor|cbn [length] in Hs; lia].
Qed.

(** ** Lines on a page *)
Notation lh := (line_height_ style).
Notation top := (min_y style).
Notation bottom := (max_y style).
Definition placed (before ls : list (list word * bool)) : list (Q * Q * word) :=
  flat_map (fun nl =>
    map (fun bw => ((min_x style + line_width (fst bw) + count (fst bw) * spacing avail (ps_justify style) (snd nl))%Q,
                    (top + count (fst nl) * lh + baseline_y style)%Q, snd bw))
        (with_before [] (fst (snd nl))))
    (with_before before ls).
Definition passes (ws : list (shaped * bool)) (ls : list (list word * bool)) (ws' : list (shaped * bool)) : Prop :=
  forall ls' rest, in_lines avail (words ws') ls' rest -> in_lines avail (words ws) (ls ++ ls') rest.
Inductive on_page (tail : list item) (before : list (list word * bool)) (ws : list (shaped * bool)) (dp : doc * page) : res font_error (doc * page * option rewind) -> Prop :=
| op_end : forall ls rest reqs r, in_lines avail (words ws) ls rest -> Forall2 asks reqs (placed before ls) ->
    lines_start_above top bottom lh (S (length (before ++ ls))) ->
    r = match ending (A := unit) tail with Ok _ => Ok (fold_left do_request reqs dp, None) | Err e => Err e | Panic => Panic end -> on_page tail before ws dp r
| op_full : forall ls ws' rw reqs, passes ws ls ws' -> ls <> [] -> length ws' < length ws -> Forall2 asks reqs (placed before ls) ->
    lines_start_above top bottom lh (length (before ++ ls)) -> (bottom < top + count (before ++ ls) * lh)%Q -> pending rw = map Ok ws' ++ tail ->
    on_page tail before ws dp (Ok (fold_left do_request reqs dp, Some rw)).
Lemma placed_cons : forall before l ls, placed before (l :: ls) =
  map (fun bw => ((min_x style + line_width (fst bw) + count (fst bw) * spacing avail (ps_justify style) l)%Q,
                    (top + count before * lh + baseline_y style)%Q, snd bw)) (with_before [] (fst l)) ++ placed (before ++ [l]) ls.
Proof. reflexivity. Qed.
Lemma start_more : forall n, lines_start_above top bottom lh (S n) -> (top + inject_Z (Z.of_nat (S n)) * lh <= bottom)%Q -> lines_start_above top bottom lh (S (S n)).
Proof. intros n H L i Hi. destruct (Nat.eq_dec i (S n)) as [->|]; [exact L|apply H; lia]. Qed.
Lemma no_words_width : forall l, (0 < line_width l)%Q -> l <> [].
Proof. intros l H ->. unfold line_width in H. cbn in H. lra. Qed.

Lemma lines_spec : embeddable fnt = true -> forall tail, stops tail -> forall fuel ws rw d p before y,
  pending rw = map Ok ws ++ tail -> length ws < fuel -> (y == top + count before * lh)%Q -> lines_start_above top bottom lh (S (length before)) ->
  exists r, lines_loop round glyph_id style text fuel d p rw y = Some r /\ on_page tail before ws (d, p) r.
Proof.
  intros He tail Hs. induction fuel as [|fuel IH]; intros ws rw d p before y Hp Hf Hy Ha; [lia|]. cbn [lines_loop].
  destruct (fill_spec tail ws Hs (S (S (length (rw_inner rw)))) rw [] 0%Q Hp) as (r & Er & Fr).
  - pose proof (pending_bounds rw) as B. rewrite Hp, app_length, map_length in B. lia.
  - intros a w b E. destruct a; discriminate E.
  - intros w [].
  - reflexivity.
  - cbn [map] in Er. rewrite Er. clear Er.
    (* a line [l] and what follows it *)
    assert (Step : forall l soft ws' rw' tot just, pending rw' = map Ok ws' ++ tail -> l <> [] -> length ws' < length ws ->
      passes ws [(words l, soft)] ws' -> (tot == line_width (words l))%Q -> just = ps_justify style && soft ->
      exists r, (let extra := (avail - tot)%Q in
        match (if just && negb (Qle_bool extra 0) then match len_minus_1 (map fst l) with Some n => Some (extra / inject_Z (Z.of_nat n))%Q | None => None end else Some 0%Q) with
        | None => Some Panic
        | Some sp => match show_line round style d p (min_x style) (y + baseline_y style)%Q sp (map fst l) with
            | Err e => Some (Err e) | Panic => Some Panic
            | Ok (d, p) => let y := (y + lh)%Q in if negb (Qle_bool y bottom) then Some (Ok (d, p, Some rw')) else lines_loop round glyph_id style text fuel d p rw' y end
        end) = Some r /\ on_page tail before ws (d, p) r).
    { intros l soft ws' rw' tot just Hp' Hl Hlt Hpass Htot ->. cbv zeta.
      assert (Esp : exists sp, (if ps_justify style && soft && negb (Qle_bool (avail - tot) 0) then match len_minus_1 (map fst l) with Some n => Some ((avail - tot) / inject_Z (Z.of_nat n))%Q | None => None end else Some 0%Q) = Some sp /\
        (sp == spacing avail (ps_justify style) (words l, soft))%Q).
      { assert (Eb : Qle_bool (avail - tot) 0 = Qle_bool avail (line_width (words l))).
        { apply Bool.eq_iff_eq_true. rewrite !Qle_bool_iff, Htot. split; intros; lra. }
        rewrite Eb. unfold spacing. cbn [fst snd]. destruct (ps_justify style && soft && negb (Qle_bool avail (line_width (words l)))).
        - unfold len_minus_1. rewrite map_length. destruct l as [|w l]; [destruct (Hl eq_refl)|]. cbn [length]. eexists. split; [reflexivity|].
          assert (C : (count (words (w :: l)) - 1 == inject_Z (Z.of_nat (length l)))%Q).
          { unfold count, words. rewrite map_length. cbn [length]. rewrite Nat2Z.inj_succ, <- Z.add_1_r, inject_Z_plus. ring. }
          rewrite C, Htot. reflexivity.
        - eexists. split; [reflexivity|]. reflexivity. }
      destruct Esp as (sp & -> & Hsp). rewrite (show_line_requests He). set (reqs := line_requests _ _ sp (map fst l)).
      assert (A : Forall2 asks reqs (placed before [(words l, soft)])).
      { rewrite placed_cons. cbn [fst]. change (placed (before ++ [(words l, soft)]) []) with (@nil (Q * Q * word)). rewrite app_nil_r. unfold reqs. apply line_asks.
        - left. exact Hsp.
        - rewrite Hy. reflexivity.
        - unfold line_width, count. cbn [map fold_right length]. change (inject_Z (Z.of_nat 0)) with 0%Q. ring. }
      destruct (fold_left do_request reqs (d, p)) as [d1 p1] eqn:Ef.
      assert (Hy' : (y + lh == top + count (before ++ [(words l, soft)]) * lh)%Q) by (rewrite count_snoc, Hy; ring).
      destruct (Qle_bool (y + lh) bottom) eqn:Eb; cbn [negb].
      - apply Qle_bool_iff in Eb. rewrite Hy' in Eb. unfold count in Eb. rewrite app_length, Nat.add_1_r in Eb.
        destruct (IH ws' rw' d1 p1 (before ++ [(words l, soft)]) (y + lh)%Q Hp' ltac:(lia) Hy') as (r1 & -> & Hr).
        { rewrite app_length, Nat.add_1_r. apply start_more; assumption. }
        exists r1. split; [reflexivity|]. destruct Hr as [ls rest reqs' r' I1 I2 I3 I0|ls ws2 rw2 reqs' I1 I2 I3 I4 I5 I6 I7]; [subst r'|].
        + apply (op_end _ _ _ _ ((words l, soft) :: ls) rest (reqs ++ reqs')).
          * exact (Hpass ls rest I1).
          * rewrite placed_cons. rewrite placed_cons in A. change (placed (before ++ [(words l, soft)]) []) with (@nil (Q * Q * word)) in A. rewrite app_nil_r in A. apply Forall2_app; assumption.
          * rewrite <- app_assoc in I3. exact I3.
          * rewrite fold_left_app, Ef. reflexivity.
        + replace (fold_left do_request reqs' (d1, p1)) with (fold_left do_request (reqs ++ reqs') (d, p)) by (rewrite fold_left_app, Ef; reflexivity).
          rewrite <- app_assoc in I5, I6. apply (op_full _ _ _ _ ((words l, soft) :: ls) ws2).
          * intros ls' rest Hi. exact (Hpass _ _ (I1 _ _ Hi)).
          * discriminate.
          * lia.
          * rewrite placed_cons. rewrite placed_cons in A. change (placed (before ++ [(words l, soft)]) []) with (@nil (Q * Q * word)) in A. rewrite app_nil_r in A. apply Forall2_app; assumption.
          * exact I5.
          * exact I6.
          * exact I7.
      - eexists. split; [reflexivity|]. rewrite <- Ef. apply (op_full _ _ _ _ [(words l, soft)] ws').
        + exact Hpass.
        + discriminate.
        + exact Hlt.
        + exact A.
        + rewrite app_length, Nat.add_1_r. exact Ha.
        + apply Qnot_le_lt. intros L. rewrite <- Hy' in L. apply Qle_bool_iff in L. congruence.
        + exact Hp'. }
    inversion Fr as [acc ws0 F1 F2 E1 E2 E3|acc l w r0 rw' tot F1 F2 F3 F4 F5 E1 E2 E3|acc l w r0 rw' tot F1 F2 F3 F4 F5 F6 E1 E2 E3]; subst acc; subst r; cbn [app] in *.
    + subst ws0. assert (O : on_page tail before ws (d, p) match ending (A := unit) tail with Ok _ => Ok (fold_left do_request [] (d, p), None) | Err e => Err e | Panic => Panic end).
      { apply (op_end _ _ _ _ [] (words ws) []); [apply il_rest; assumption|constructor|rewrite app_nil_r; exact Ha|reflexivity]. }
      destruct tail as [|[x|e|] tail]; [|destruct Hs| |]; cbn [ending] in *; eexists; (split; [reflexivity|exact O]).
    + subst ws. apply (Step (l ++ [w]) false r0 rw' tot false); try assumption.
      * destruct l; discriminate.
      * rewrite app_length. cbn [length]. lia.
      * intros ls' rest Hi. rewrite words_app in F1. replace (l ++ w :: r0) with ((l ++ [w]) ++ r0) by (rewrite <- app_assoc; reflexivity). rewrite !words_app. cbn [app].
        apply il_hard; assumption.
      * rewrite Bool.andb_false_r. reflexivity.
    + subst ws. apply (Step l true (w :: r0) rw' tot (ps_justify style)); try assumption.
      * intros ->. apply (no_words_width (words [])); [|reflexivity]. rewrite <- F3. exact F4.
      * rewrite app_length. destruct l as [|x l]; [|cbn [length]; lia]. exfalso. apply (no_words_width (words [])); [|reflexivity]. rewrite <- F3. exact F4.
      * intros ls' rest Hi. rewrite words_app. cbn [app]. change (words (w :: r0)) with (to_word w :: words r0). rewrite F3 in F4, F5. apply il_soft; assumption.
      * rewrite Bool.andb_true_r. reflexivity.
Qed.

(** ** Pages *)
Definition history_of (ph : page_history) (ls : list (list word * bool)) : Prop :=
  ph_width ph = round (page_width_ style) /\ ph_height ph = round (page_height_ style) /\ Forall2 asks (ph_requests ph) (placed [] ls).
Inductive laid (tail : list item) (ws : list (shaped * bool)) (d : doc) : res font_error doc -> Prop :=
| laid_ok : forall ls rest pages hs r, in_lines avail (words ws) ls rest -> in_pages top bottom lh ls pages -> Forall2 history_of hs pages ->
    r = match ending (A := unit) tail with Ok _ => Ok (fold_left do_page hs d) | Err e => Err e | Panic => Panic end -> laid tail ws d r.
Lemma pages_spec : embeddable fnt = true -> forall tail, stops tail -> forall fuel ws rw d, pending rw = map Ok ws ++ tail -> length ws < fuel ->
  exists r, pages_loop round glyph_id style text fuel d rw = Some r /\ laid tail ws d r.
Proof.
  intros He tail Hs. induction fuel as [|fuel IH]; intros ws rw d Hp Hf; [lia|]. cbn [pages_loop].
  set (p0 := page_new (round (page_width_ style)) (round (page_height_ style))).
  destruct (lines_spec He tail Hs (S (S (length (rw_inner rw)))) ws rw d p0 [] top Hp) as (r & -> & Hr).
  - pose proof (pending_bounds rw) as B. rewrite Hp, app_length, map_length in B. lia.
  - unfold count. cbn [length]. change (inject_Z (Z.of_nat 0)) with 0%Q. ring.
  - intros i Hi. cbn [length] in Hi. lia.
  - destruct Hr as [ls rest reqs r' I1 I2 I3 I0|ls ws2 rw2 reqs I1 I2 I3 I4 I5 I6 I7]; [subst r'|]; cbn [app] in *.
    + set (ph := mkPH (round (page_width_ style)) (round (page_height_ style)) reqs).
      assert (L : laid tail ws d match ending (A := unit) tail with Ok _ => Ok (fold_left do_page [ph] d) | Err e => Err e | Panic => Panic end).
      { apply (laid_ok _ _ _ ls rest [ls] [ph]); [exact I1|apply ip_last; exact I3| |reflexivity].
        constructor; [|constructor]. split; [reflexivity|]. split; [reflexivity|]. exact I2. }
      destruct tail as [|[x|e|] tail]; [|destruct Hs| |]; cbn [ending] in *.
      * assert (E : exists d1 p1, fold_left do_request reqs (d, p0) = (d1, p1)) by (destruct (fold_left do_request reqs (d, p0)); eauto). destruct E as (d1 & p1 & E).
        rewrite E. eexists. split; [reflexivity|]. cbn [fold_left do_page ph ph_requests ph_width ph_height] in L. unfold do_page in L. cbn [ph ph_requests ph_width ph_height] in L. fold p0 in L. rewrite E in L. exact L.
      * eexists. split; [reflexivity|exact L].
      * eexists. split; [reflexivity|exact L].
    + destruct (fold_left do_request reqs (d, p0)) as [d1 p1] eqn:E. destruct (IH ws2 rw2 (page_drop d1 p1) I7 ltac:(lia)) as (r & -> & [ls' rest pages hs r' J1 J2 J3 J4]).
      subst r'. eexists. split; [reflexivity|].
      apply (laid_ok _ _ _ (ls ++ ls') rest (ls :: pages) (mkPH (round (page_width_ style)) (round (page_height_ style)) reqs :: hs)).
      * exact (I1 _ _ J1).
      * apply ip_full; assumption.
      * constructor; [|exact J3]. split; [reflexivity|]. split; [reflexivity|]. exact I4.
      * cbn [fold_left]. assert (Ed : do_page d (mkPH (round (page_width_ style)) (round (page_height_ style)) reqs) = page_drop d1 p1).
        { unfold do_page. cbn [ph_requests ph_width ph_height]. fold p0. rewrite E. reflexivity. }
        rewrite Ed. reflexivity.
Qed.

(** ** A font that cannot be embedded *)
Definition not_embedded (r : res font_error unit) : Prop :=
  match r with
  | Ok _ => False
  | Err e => f_code_points_result fnt = Some e \/ exists i, (i < f_glyph_count fnt)%N /\ f_glyph_width fnt i = Err e
  | Panic => exists i, (i < f_glyph_count fnt)%N /\ f_glyph_width fnt i = Panic
  end.
Lemma widths_cases : forall (width : N -> res font_error Q) n i, match glyph_widths width i n with
  | Ok _ => True | Err e => exists j, (i <= j < i + N.of_nat n)%N /\ width j = Err e | Panic => exists j, (i <= j < i + N.of_nat n)%N /\ width j = Panic end.
Proof.
  intros width. induction n as [|n IH]; intros i; cbn [glyph_widths]; [exact I|]. destruct (width i) as [w|e|] eqn:E.
  - specialize (IH (i + 1)%N). destruct (glyph_widths width (i + 1) n) as [l|e|]; [exact I| |]; destruct IH as (j & Hj & Ej); exists j; (split; [lia|exact Ej]).
  - exists i. split; [lia|exact E].
  - exists i. split; [lia|exact E].
Qed.
Lemma add_fails : embeddable fnt <> true -> exists d r, add_font doc_new fnt = (d, r) /\ match r with Ok _ => False | Err e => not_embedded (Err e) | Panic => not_embedded Panic end.
Proof.
  intros H. destruct (add_font doc_new fnt) as [d r] eqn:E. exists d, r. split; [reflexivity|].
  assert (Hk : forall k, r <> Ok k) by (intros k ->; exact (not_added doc_new fnt H eq_refl d k E)).
  unfold add_font in E. cbn [assoc doc_new d_fonts] in E. destruct (add_stream _ _ _) as [pdf1 i1]. destruct (add_dictionary _ _) as [pdf2 i2].
  destruct (f_code_points_result fnt) as [e'|] eqn:Er.
  - apply pair_equal_spec in E as [_ <-]. left. exact Er.
  - destruct (add_stream pdf2 _ _) as [pdf3 i3]. pose proof (widths_cases (f_glyph_width fnt) (N.to_nat (f_glyph_count fnt)) 0) as W.
    destruct (glyph_widths _ _ _) as [l|e'|].
    + destruct (add_dictionary pdf3 _). apply pair_equal_spec in E as [_ <-]. destruct (Hk _ eq_refl).
    + apply pair_equal_spec in E as [_ <-]. right. destruct W as (j & Hj & W). exists j. split; [lia|exact W].
    + apply pair_equal_spec in E as [_ <-]. destruct W as (j & Hj & W). exists j. split; [lia|exact W].
Qed.
Lemma pages_fail : embeddable fnt <> true -> forall tail, stops tail -> forall fuel ws rw, pending rw = map Ok ws ++ tail -> 0 < fuel ->
  exists r, pages_loop round glyph_id style text fuel doc_new rw = Some r /\
    ((exists rest, in_lines avail (words ws) [] rest /\
       r = match ending (A := unit) tail with Ok _ => Ok (run [mkPH (round (page_width_ style)) (round (page_height_ style)) []]) | Err e => Err e | Panic => Panic end) \/
     (~ (exists rest, in_lines avail (words ws) [] rest) /\ match r with Ok _ => False | Err e => not_embedded (Err e) | Panic => not_embedded Panic end)).
Proof.
  intros He tail Hs fuel ws rw Hp Hf. destruct fuel as [|fuel]; [lia|]. cbn [pages_loop]. set (p0 := page_new (round (page_width_ style)) (round (page_height_ style))).
  set (fl := S (length (rw_inner rw))). cbn [lines_loop].
  destruct (fill_spec tail ws Hs (S (S (length (rw_inner rw)))) rw [] 0%Q Hp) as (r & Er & Fr).
  - pose proof (pending_bounds rw) as B. rewrite Hp, app_length, map_length in B. lia.
  - intros a w b E. destruct a; discriminate E.
  - intros w [].
  - reflexivity.
  - cbn [map] in Er. rewrite Er. clear Er.
    assert (Step : forall (l : list (shaped * bool)) soft rw' tot just, l <> [] -> just = ps_justify style && soft -> ~ (exists rest, in_lines avail (words ws) [] rest) ->
      exists r, match (let extra := (avail - tot)%Q in
        match (if just && negb (Qle_bool extra 0) then match len_minus_1 (map fst l) with Some n => Some (extra / inject_Z (Z.of_nat n))%Q | None => None end else Some 0%Q) with
        | None => Some Panic
        | Some sp => match show_line round style doc_new p0 (min_x style) (top + baseline_y style)%Q sp (map fst l) with
            | Err e => Some (Err e) | Panic => Some Panic
            | Ok (d, p) => let y := (top + lh)%Q in if negb (Qle_bool y bottom) then Some (Ok (d, p, Some rw')) else lines_loop round glyph_id style text fl d p rw' y end
        end) with None => None | Some Panic => Some Panic | Some (Err e) => Some (Err e) | Some (Ok (d, p, None)) => Some (Ok (page_drop d p))
           | Some (Ok (d, p, Some segments)) => pages_loop round glyph_id style text fuel (page_drop d p) segments end = Some r /\
       ((exists rest, in_lines avail (words ws) [] rest /\
       r = match ending (A := unit) tail with Ok _ => Ok (run [mkPH (round (page_width_ style)) (round (page_height_ style)) []]) | Err e => Err e | Panic => Panic end) \/
       (~ (exists rest, in_lines avail (words ws) [] rest) /\ match r with Ok _ => False | Err e => not_embedded (Err e) | Panic => not_embedded Panic end))).
    { intros l soft rw' tot just Hl _ Hn. cbv zeta.
      assert (Esp : exists sp, (if just && negb (Qle_bool (avail - tot) 0) then match len_minus_1 (map fst l) with Some n => Some ((avail - tot) / inject_Z (Z.of_nat n))%Q | None => None end else Some 0%Q) = Some sp).
      { destruct (just && _); [|eauto]. unfold len_minus_1. destruct l as [|x l]; [destruct (Hl eq_refl)|]. cbn [map length]. eauto. }
      destruct Esp as (sp & ->). destruct l as [|x l]; [destruct (Hl eq_refl)|]. cbn [map show_line]. unfold show_text.
      destruct (add_fails He) as (d & r1 & -> & Hr). destruct r1 as [k|e|]; [destruct Hr| |]; eexists; (split; [reflexivity|]); right; (split; [exact Hn|exact Hr]). }
    inversion Fr as [acc ws0 F1 F2 E1 E2 E3|acc l w r0 rw' tot F1 F2 F3 F4 F5 E1 E2 E3|acc l w r0 rw' tot F1 F2 F3 F4 F5 F6 E1 E2 E3]; subst acc; subst r; cbn [app] in *.
    + subst ws0. destruct tail as [|[x|e|] tail]; [|destruct Hs| |]; cbn [ending] in *; eexists; (split; [reflexivity|]); left; exists (words ws); (split; [apply il_rest; assumption|reflexivity]).
    + subst ws. apply (Step (l ++ [w]) false rw' tot false).
      * destruct l; discriminate.
      * rewrite Bool.andb_false_r. reflexivity.
      * intros (rest & Hi). inversion Hi as [? _ Hh| |]; subst. specialize (Hh (to_word w)). cbn [to_word w_hard] in Hh. rewrite Hh in F3; [discriminate F3|].
        unfold words. apply in_map. apply in_or_app. right. left. reflexivity.
    + subst ws. apply (Step l true rw' tot (ps_justify style)).
      * intros ->. apply (no_words_width (words [])); [|reflexivity]. rewrite <- F3. exact F4.
      * rewrite Bool.andb_true_r. reflexivity.
      * intros (rest & Hi). inversion Hi as [? Hh _| |]; subst. rewrite words_app in Hh. specialize (Hh (words l) (to_word w) (words r0) eq_refl). rewrite <- F3 in Hh. specialize (Hh F4). lra.
Qed.
End Text.

(** ** From the text *)
Lemma shape_segment_piece : forall a cs b h, Forall (fun c => is_char c = true) cs -> Forall (fun c => is_char c = true) b ->
  shape_segment glyph_id style (a ++ flat_map utf8 cs ++ flat_map utf8 b) (length a) (length a + length (flat_map utf8 cs)) h = piece_item (cs, h).
Proof.
  intros a cs b h Hc Hb. unfold shape_segment, piece_item. rewrite slice_app by assumption. cbn [fst snd]. rewrite trim_utf8.
  rewrite (chars_encodes _ (trim_end_newlines cs)) by (split; [apply trim_chars; exact Hc|reflexivity]).
  destruct (naive_shape (trim_end_newlines cs)); reflexivity.
Qed.
Definition char_pieces (segs : list (list N * bool)) : Prop := Forall (fun s => Forall (fun c => is_char c = true) (fst s)) segs.
Lemma items_of_text : forall segs a, char_pieces segs ->
  shaped_items (a ++ text_of segs) (length a) (break_positions (length a) segs) = map piece_item segs.
Proof.
  induction segs as [|[cs h] segs IH]; intros a H; [reflexivity|]. inversion H; subst. cbn [break_positions shaped_items map]. unfold text_of. cbn [flat_map fst]. rewrite flat_map_app.
  assert (Hb : Forall (fun c => is_char c = true) (flat_map fst segs)).
  { apply Forall_forall. intros c Hc. apply in_flat_map in Hc as (s & Hi & Hc). rewrite Forall_forall in H3. specialize (H3 s Hi). rewrite Forall_forall in H3. exact (H3 c Hc). }
  f_equal; [apply shape_segment_piece; assumption|].
  replace (length a + length (flat_map utf8 cs)) with (length (a ++ flat_map utf8 cs)) by apply app_length. rewrite app_assoc. apply IH. exact H3.
Qed.
Definition word_of := is_word glyph_id (f_glyph_width fnt).
Definition failing (r : res font_error unit) (segs : list (list N * bool)) : Prop :=
  exists s t c, In s segs /\ visible (fst s) t /\ In c t /\ fails glyph_id (f_glyph_width fnt) r c.
Lemma pieces_split : forall segs, exists ws tail, map piece_item segs = map Ok ws ++ tail /\ stops tail /\
  match ending (A := unit) tail with Ok _ => tail = [] /\ Forall2 (word_of (ps_font_size style)) segs (words ws) | Err e => failing (Err e) segs | Panic => failing Panic segs end.
Proof.
  induction segs as [|[cs h] segs (ws & tail & E & Hs & Ht)].
  - exists [], []. split; [reflexivity|]. split; [exact I|]. split; [reflexivity|constructor].
  - cbn [map]. unfold piece_item at 1. cbn [fst snd]. destruct (shape_cases glyph_id (f_glyph_width fnt) (trim_end_newlines cs)) as [(s & w & Es & Sh & W)|[(e & c & Es & Hc & F)|(c & Es & Hc & F)]]; rewrite Es.
    + exists ((s, h) :: ws), tail. rewrite E. split; [reflexivity|]. split; [exact Hs|]. destruct (ending tail) as [x|e|].
      * destruct Ht as [-> Ht]. split; [reflexivity|]. cbn [words map]. constructor; [|exact Ht]. apply (is_w _ _ _ cs h (trim_end_newlines cs) (glyphs s) w).
        -- apply trim_visible.
        -- exact Sh.
        -- cbn [fst]. rewrite W. unfold px_per_em, Qdiv. change (/ 1)%Q with 1%Q. ring.
      * destruct Ht as (s0 & t & c & Hi & R). exists s0, t, c. split; [right; exact Hi|exact R].
      * destruct Ht as (s0 & t & c & Hi & R). exists s0, t, c. split; [right; exact Hi|exact R].
    + exists [], (Err e :: map piece_item segs). split; [reflexivity|]. split; [exact I|]. cbn [ending]. exists (cs, h), (trim_end_newlines cs), c. split; [left; reflexivity|]. split; [apply trim_visible|]. split; assumption.
    + exists [], (Panic :: map piece_item segs). split; [reflexivity|]. split; [exact I|]. cbn [ending]. exists (cs, h), (trim_end_newlines cs), c. split; [left; reflexivity|]. split; [apply trim_visible|]. split; assumption.
Qed.
Lemma layout_spec : forall segs, char_pieces segs -> exists ws tail r,
  map piece_item segs = map Ok ws ++ tail /\ stops tail /\
  match ending (A := unit) tail with Ok _ => tail = [] /\ Forall2 (word_of (ps_font_size style)) segs (words ws) | Err e => failing (Err e) segs | Panic => failing Panic segs end /\
  plain_layout round glyph_id style (text_of segs) (break_positions 0 segs) = Some r /\
  (embeddable fnt = true -> laid tail ws doc_new r) /\
  (embeddable fnt <> true ->
     (exists rest, in_lines (available_width style) (words ws) [] rest /\
       r = match ending (A := unit) tail with Ok _ => Ok (run [mkPH (round (page_width_ style)) (round (page_height_ style)) []]) | Err e => Err e | Panic => Panic end) \/
     (~ (exists rest, in_lines (available_width style) (words ws) [] rest) /\ match r with Ok _ => False | Err e => not_embedded (Err e) | Panic => not_embedded Panic end)).
Proof.
  intros segs H. destruct (pieces_split segs) as (ws & tail & E & Hs & Ht). exists ws, tail. unfold plain_layout.
  assert (Hp : pending (text_of segs) (mkRewind (break_positions 0 segs) 0 None) = map Ok ws ++ tail).
  { unfold pending. cbn [rw_buffer rw_previous_break_position rw_inner app]. rewrite <- E. exact (items_of_text segs [] H). }
  assert (Hl : length ws < S (length (break_positions 0 segs))).
  { assert (L : forall n, length (break_positions n segs) = length segs).
    { clear. induction segs as [|[cs h] segs IH]; intros n; [reflexivity|]. cbn [break_positions length]. rewrite IH. reflexivity. }
    rewrite L. apply (f_equal (@length item)) in E. rewrite map_length, app_length, map_length in E. lia. }
  destruct (Bool.bool_dec (embeddable fnt) true) as [He|He].
  - destruct (pages_spec (text_of segs) He tail Hs _ ws _ doc_new Hp Hl) as (r & Er & Hr). exists r. repeat split; try assumption; [intros _; exact Hr|]. intros He'. destruct (He' He).
  - destruct (pages_fail (text_of segs) He tail Hs (S (length (break_positions 0 segs))) ws _ Hp ltac:(lia)) as (r & Er & Hr). exists r. repeat split; try assumption; [intros He'; destruct (He He')|]. intros _. exact Hr.
Qed.
End Plain.
