(** Plain text in an arithmetic that is left open: pieces, lines and pages. *)
From Coq Require Import QArith Qabs Lqa.
From Verif Require Import Base FontCmap PdfObject PdfObjectSpec PdfSyntax PdfConvert PdfConvertSpec PdfPagesProofs Text BoxTree BoxTreeSpec BoxTextProofs
  PaintSpec PaintProofs TextPlain TextPlainSpec TextPlainProofs Arith32 TextPlainArith TextPlainArithSpec.
Local Open Scope nat_scope.

Section Arith.
Variable ar : arith.
Notation "a +. b" := (a_add ar a b) (at level 50, left associativity).
Notation "a -. b" := (a_sub ar a b) (at level 50, left associativity).
Notation "a *. b" := (a_mul ar a b) (at level 40, left associativity).
Notation "a /. b" := (a_div ar a b) (at level 40, left associativity).
Notation total := (total ar).
Notation width_by := (width_by ar).
Notation fits_by := (fits_by ar).
Notation lines_by := (lines_by ar).

Lemma total_app : forall a b s, total s (a ++ b) = total (total s a) b.
Proof. induction a as [|x a IH]; intros b s; [reflexivity|]. cbn [app TextPlainArithSpec.total]. apply IH. Qed.
Lemma width_snoc : forall l w, width_by (l ++ [w]) = width_by l +. w_width w.
Proof. intros l w. unfold TextPlainArithSpec.width_by. rewrite map_app, total_app. reflexivity. Qed.
Lemma line_top_S : forall t h n, line_top ar t h (S n) = line_top ar t h n +. h.
Proof.
  intros t h n. unfold line_top. assert (E : repeat h (S n) = repeat h n ++ [h]).
  { induction n as [|n IH]; [reflexivity|]. cbn [repeat app]. cbn [repeat] in IH. rewrite <- IH. reflexivity. }
  rewrite E, total_app. reflexivity.
Qed.

(** ** Shaping *)
Section Shape.
Variable glyph_id : N -> res font_error N.
Variable glyph_width : N -> res font_error Q.
Lemma append_of_cases : forall t s,
  (exists gs ws, shapes_by glyph_id glyph_width t gs ws /\ append_of ar glyph_id glyph_width s t = Ok (mkShaped (glyphs s ++ gs) (total (advance_width s) ws))) \/
  (exists r c, append_of ar glyph_id glyph_width s t = r /\ In c t /\ match r with Ok _ => False | Err e => fails glyph_id glyph_width (Err e) c | Panic => fails glyph_id glyph_width Panic c end).
Proof.
  induction t as [|c t IH]; intros s.
  - left. exists [], []. split; [constructor|]. cbn [append_of TextPlainArithSpec.total]. rewrite app_nil_r. destruct s. reflexivity.
  - cbn [append_of]. unfold append_char_of.
    destruct (glyph_id c) as [g|e|] eqn:Eg; cbn [bind].
    + destruct (glyph_width g) as [w|e|] eqn:Ew; cbn [bind].
      * destruct (IH (mkShaped (glyphs s ++ [g]) (advance_width s +. w))) as [(gs & ws & S1 & E)|(r & c' & E & Hc & H)].
        -- left. exists (g :: gs), (w :: ws). split; [econstructor; eassumption|]. rewrite E. cbn [Text.glyphs Text.advance_width TextPlainArithSpec.total]. rewrite <- app_assoc. reflexivity.
        -- right. exists r, c'. split; [exact E|]. split; [right; exact Hc|exact H].
      * right. exists (Err e), c. split; [reflexivity|]. split; [left; reflexivity|]. unfold fails. rewrite Eg, Ew. reflexivity.
      * right. exists Panic, c. split; [reflexivity|]. split; [left; reflexivity|]. unfold fails. rewrite Eg, Ew. reflexivity.
    + right. exists (Err e), c. split; [reflexivity|]. split; [left; reflexivity|]. unfold fails. rewrite Eg. reflexivity.
    + right. exists Panic, c. split; [reflexivity|]. split; [left; reflexivity|]. unfold fails. rewrite Eg. reflexivity.
Qed.
Lemma shape_cases_in : forall t,
  (exists s ws, naive_shape_in ar glyph_id glyph_width t = Ok s /\ shapes_by glyph_id glyph_width t (glyphs s) ws /\ advance_width s = total 0%Q ws) \/
  (exists e c, naive_shape_in ar glyph_id glyph_width t = Err e /\ In c t /\ fails glyph_id glyph_width (Err e) c) \/
  (exists c, naive_shape_in ar glyph_id glyph_width t = Panic /\ In c t /\ fails glyph_id glyph_width Panic c).
Proof.
  intros t. unfold naive_shape_in. destruct (append_of_cases t new_with_naive_shaping) as [(gs & ws & S & E)|([x|e|] & c & E & Hc & H)].
  - left. eexists. exists ws. split; [exact E|]. split; [exact S|reflexivity].
  - destruct H.
  - right. left. exists e, c. auto.
  - right. right. exists c. auto.
Qed.
End Shape.

Section Plain.
Hypothesis zero_not_above_zero : a_gt ar 0%Q 0%Q = false.
Variable print : Q -> dec.
Variable glyph_id : N -> res font_error N.
Variable style : plain_style.
Notation fnt := (ps_font style).
Notation naive_shape := (naive_shape_in ar glyph_id (f_glyph_width fnt)).
Notation px_per_em := (px_per_em_in ar style).
Notation page_of := (page_by ar print style).

(** ** What is still to come *)
Definition piece_item_in (s : list N * bool) : item :=
  match naive_shape (trim_end_newlines (fst s)) with Ok x => Ok (x, snd s) | Err e => Err e | Panic => Panic end.
Section Text.
Variable text : bytes.
Notation next := (rewind_next_in ar glyph_id style text).
Fixpoint shaped_items_in (previous : nat) (l : list (nat * bool)) : list item :=
  match l with [] => [] | (position, hard) :: r => shape_segment_in ar glyph_id style text previous position hard :: shaped_items_in position r end.
Definition pending_in (rw : rewind) : list item :=
  match rw_buffer rw with Some i => [i] | None => [] end ++ shaped_items_in (rw_previous_break_position rw) (rw_inner rw).
Notation pending := pending_in.
Lemma shaped_length_in : forall l p, length (shaped_items_in p l) = length l.
Proof. induction l as [|[q h] l IH]; intros p; [reflexivity|]. cbn [shaped_items_in length]. rewrite IH. reflexivity. Qed.
Lemma pending_bounds_in : forall rw, length (rw_inner rw) <= length (pending rw) <= S (length (rw_inner rw)).
Proof. intros rw. unfold pending. rewrite app_length, shaped_length_in. destruct (rw_buffer rw); cbn [length]; lia. Qed.
Lemma next_pending_in : forall rw, next rw =
  match pending rw with [] => (None, rw) | i :: _ => (Some i, snd (next rw)) end /\
  (pending rw <> [] -> pending (snd (next rw)) = tl (pending rw) /\ rw_buffer (snd (next rw)) = None).
Proof.
  intros [inner prev [i|]]; unfold rewind_next_in, pending; cbn [rw_buffer rw_inner rw_previous_break_position app].
  - split; [reflexivity|]. intros _. split; reflexivity.
  - destruct inner as [|[p h] r]; cbn [shaped_items_in]; split; try reflexivity; intros H; [destruct (H eq_refl)|split; reflexivity].
Qed.
Lemma rewind_pending_in : forall rw i, rw_buffer rw = None -> exists rw', rewind_rewind rw i = Some rw' /\ pending rw' = i :: pending rw /\ rw_inner rw' = rw_inner rw.
Proof.
  intros [inner prev b] i H. cbn [rw_buffer] in H. subst. unfold rewind_rewind. cbn [rw_buffer]. eexists. split; [reflexivity|]. split; reflexivity.
Qed.

(** ** A line *)
Definition to_word_in (i : shaped * bool) : word := mkWord (glyphs (fst i)) (advance_width (fst i) *. px_per_em) (snd i).
Definition words_in (l : list (shaped * bool)) : list word := map to_word_in l.
Notation to_word := to_word_in.
Notation words := words_in.
Notation avail := (content_width_by ar style).
Lemma fits_by_snoc : forall av l w, fits_by av l -> (a_gt ar (width_by l) 0%Q = true -> a_gt ar (width_by l +. w_width w) av = false) -> fits_by av (l ++ [w]).
Proof.
  intros av l w H1 H2 a x b E P. destruct (exists_last (l := x :: b)) as (b' & y & Eb); [discriminate|]. rewrite Eb, app_assoc in E. apply app_inj_tail in E as [-> ->].
  destruct b' as [|z b'].
  - cbn [app] in Eb. injection Eb as -> _. rewrite app_nil_r in * . apply H2. exact P.
  - cbn [app] in Eb. injection Eb as -> ->. exact (H1 a z b' eq_refl P).
Qed.
Lemma words_in_app : forall a b, words (a ++ b) = words a ++ words b.
Proof. apply map_app. Qed.

Inductive filled_in (tail : list item) : list (shaped * bool) -> list (shaped * bool) -> res font_error (option (rewind * list shaped * Q * bool)) -> Prop :=
| fi_end : forall acc ws, fits_by avail (words (acc ++ ws)) -> no_hard (words (acc ++ ws)) -> filled_in tail acc ws (ending tail)
| fi_hard : forall acc l w r rw, fits_by avail (words (acc ++ l ++ [w])) -> no_hard (words (acc ++ l)) -> snd w = true ->
    pending rw = map Ok r ++ tail ->
    filled_in tail acc (l ++ w :: r) (Ok (Some (rw, map fst (acc ++ l ++ [w]), width_by (words (acc ++ l ++ [w])), false)))
| fi_soft : forall acc l w r rw, fits_by avail (words (acc ++ l)) -> no_hard (words (acc ++ l)) -> a_gt ar (width_by (words (acc ++ l))) 0%Q = true ->
    a_gt ar (width_by (words (acc ++ l)) +. w_width (to_word w)) avail = true -> pending rw = map Ok (w :: r) ++ tail ->
    filled_in tail acc (l ++ w :: r) (Ok (Some (rw, map fst (acc ++ l), width_by (words (acc ++ l)), ps_justify style))).
Notation filled := filled_in.
Lemma fill_spec_in : forall tail ws, stops tail -> forall fuel rw acc, pending rw = map Ok ws ++ tail -> length ws < fuel ->
  fits_by avail (words acc) -> no_hard (words acc) ->
  exists r, fill_line_loop_in ar glyph_id style text fuel rw (map fst acc) (width_by (words acc)) = Some r /\ filled tail acc ws r.
Proof.
  intros tail ws Hs. induction ws as [|w ws IH]; intros fuel rw acc Hp Hf F1 F2; (destruct fuel as [|fuel]; [cbn [length] in Hf; lia|]);
    cbn [fill_line_loop_in]; destruct (next_pending_in rw) as [N1 N2]; rewrite N1; rewrite Hp in *; cbn [map app tl] in * .
  - exists (ending tail). split.
    + destruct tail as [|[x|e|] tail]; [reflexivity|destruct Hs|reflexivity|reflexivity].
    + apply fi_end; rewrite app_nil_r; assumption.
  - destruct N2 as [N2 N3]; [discriminate|]. destruct w as [sg h]. set (rw1 := snd (next rw)) in * . clearbody rw1.
    assert (W : advance_width sg *. px_per_em = w_width (to_word (sg, h))) by reflexivity. rewrite W.
    change (available_width_in ar style) with avail.
    destruct (a_gt ar (width_by (words acc) +. w_width (to_word (sg, h))) avail && a_gt ar (width_by (words acc)) 0%Q) eqn:E.
    + destruct (rewind_pending_in rw1 (Ok (sg, h)) N3) as (rw2 & -> & P2 & _). eexists. split; [reflexivity|].
      apply andb_prop in E as [E1 E2].
      pose proof (fi_soft tail acc [] (sg, h) ws rw2) as K. rewrite app_nil_r in K. apply K; try assumption. rewrite P2, N2. reflexivity.
    + assert (F1' : fits_by avail (words (acc ++ [(sg, h)]))).
      { rewrite words_in_app. apply fits_by_snoc; [exact F1|]. intros P. apply Bool.andb_false_iff in E as [E|E]; [exact E|congruence]. }
      assert (F3' : width_by (words acc) +. w_width (to_word (sg, h)) = width_by (words (acc ++ [(sg, h)]))).
      { rewrite words_in_app. cbn [words map]. rewrite width_snoc. reflexivity. }
      rewrite F3'. replace (map fst acc ++ [sg]) with (map fst (acc ++ [(sg, h)])) by (rewrite map_app; reflexivity).
      destruct h.
      * eexists. split; [reflexivity|]. apply (fi_hard tail acc [] (sg, true) ws rw1); cbn [app]; try rewrite app_nil_r; try assumption. reflexivity.
      * destruct (IH fuel rw1 (acc ++ [(sg, false)]) N2 ltac:(cbn [length] in Hf; lia) F1') as (r & Er & Fr).
        -- intros x Hx. rewrite words_in_app in Hx. apply in_app_or in Hx as [Hx|[<-|[]]]; [exact (F2 x Hx)|reflexivity].
        -- exists r. split; [exact Er|]. clear - Fr. inversion Fr; subst; rewrite <- ?app_assoc in *; cbn [app] in * .
           ++ apply fi_end; assumption.
           ++ apply (fi_hard tail acc ((sg, false) :: l)); assumption.
           ++ apply (fi_soft tail acc ((sg, false) :: l)); assumption.
Qed.

(** ** Requests *)
Notation asked := (asked_at print style).
Fixpoint line_requests_in (x base sp : Q) (l : list shaped) : list request :=
  match l with
  | [] => []
  | s :: r => ShowText fnt (glyphs s) (print (ps_font_size style)) (print x) (print base) :: line_requests_in (x +. (Text.advance_width s *. px_per_em +. sp)) base sp r
  end.
Lemma show_line_requests_in : embeddable fnt = true -> forall l d p x base sp,
  show_line_in ar print style d p x base sp l = Ok (fold_left do_request (line_requests_in x base sp l) (d, p)).
Proof.
  intros He. induction l as [|s l IH]; intros d p x base sp; [reflexivity|]. cbn [show_line_in line_requests_in fold_left do_request]. unfold show_text.
  destruct (embeddable_added d fnt He) as (d' & k & ->). cbn [fst]. apply IH.
Qed.
Lemma line_asked : forall left_ base sp l b,
  line_requests_in (total left_ (map (fun w => w_width w +. sp) b)) base sp (map fst l) =
  map asked (map (fun bw => (total left_ (map (fun w => w_width w +. sp) (fst bw)), base, snd bw)) (with_before b (words l))).
Proof.
  intros left_ base sp. induction l as [|s l IH]; intros b; cbn [map line_requests_in words_in with_before]; [reflexivity|]. fold (words l).
  rewrite <- IH. cbn [fst snd asked_at to_word_in w_glyphs]. rewrite map_app, total_app. reflexivity.
Qed.

(** ** Lines on a page *)
Notation lh := (line_step_by ar style).
Notation top := (corner_by ar style).
Notation bottom := (content_bottom_by ar style).
Notation above := (above_by ar top bottom lh).
Definition placed_in (before ls : list (list word * bool)) : list (Q * Q * word) :=
  flat_map (fun nl =>
    map (fun bw => (total top (map (fun w => w_width w +. spacing_by ar avail (ps_justify style) (snd nl)) (fst bw)),
                    line_top ar top lh (length (fst nl)) +. line_baseline_by ar style, snd bw))
        (with_before [] (fst (snd nl))))
    (with_before before ls).
Notation placed := placed_in.
Definition passes_in (ws : list (shaped * bool)) (ls : list (list word * bool)) (ws' : list (shaped * bool)) : Prop :=
  forall ls' rest, lines_by avail (words ws') ls' rest -> lines_by avail (words ws) (ls ++ ls') rest.
Notation passes := passes_in.
Inductive on_page_in (tail : list item) (before : list (list word * bool)) (ws : list (shaped * bool)) (dp : doc * page) : res font_error (doc * page * option rewind) -> Prop :=
| opi_end : forall ls rest r, lines_by avail (words ws) ls rest ->
    above (S (length (before ++ ls))) ->
    r = match ending (A := unit) tail with Ok _ => Ok (fold_left do_request (map asked (placed before ls)) dp, None) | Err e => Err e | Panic => Panic end -> on_page_in tail before ws dp r
| opi_full : forall ls ws' rw, passes ws ls ws' -> ls <> [] -> length ws' < length ws ->
    above (length (before ++ ls)) -> a_gt ar (line_top ar top lh (length (before ++ ls))) bottom = true -> pending rw = map Ok ws' ++ tail ->
    on_page_in tail before ws dp (Ok (fold_left do_request (map asked (placed before ls)) dp, Some rw)).
Lemma placed_in_cons : forall before l ls, placed before (l :: ls) =
  map (fun bw => (total top (map (fun w => w_width w +. spacing_by ar avail (ps_justify style) l) (fst bw)),
                    line_top ar top lh (length before) +. line_baseline_by ar style, snd bw)) (with_before [] (fst l)) ++ placed (before ++ [l]) ls.
Proof. reflexivity. Qed.
Lemma above_more : forall n, above (S n) -> a_gt ar (line_top ar top lh (S n)) bottom = false -> above (S (S n)).
Proof. intros n H L i Hi. destruct (Nat.eq_dec i (S n)) as [->|]; [exact L|apply H; lia]. Qed.
Lemma no_words_width_in : forall l, a_gt ar (width_by l) 0%Q = true -> l <> [].
Proof. intros l H ->. unfold TextPlainArithSpec.width_by in H. cbn in H. congruence. Qed.
Lemma spacing_found : forall just soft l, l <> [] -> just = ps_justify style && soft ->
  word_spacing_in ar style just (width_by (words l)) (map fst l) = Some (spacing_by ar avail (ps_justify style) (words l, soft)).
Proof.
  intros just soft l Hl ->. unfold word_spacing_in, spacing_by. cbn [fst snd]. change (available_width_in ar style) with avail.
  destruct (ps_justify style && soft && a_gt ar (avail -. width_by (words l)) 0%Q); [|reflexivity].
  unfold len_minus_1, words_in. rewrite !map_length. destruct l as [|w l]; [destruct (Hl eq_refl)|]. cbn [length option_map]. rewrite Nat.sub_succ, Nat.sub_0_r. reflexivity.
Qed.

Lemma lines_spec_in : embeddable fnt = true -> forall tail, stops tail -> forall fuel ws rw d p before,
  pending rw = map Ok ws ++ tail -> length ws < fuel -> above (S (length before)) ->
  exists r, lines_loop_in ar print glyph_id style text fuel d p rw (line_top ar top lh (length before)) = Some r /\ on_page_in tail before ws (d, p) r.
Proof.
  intros He tail Hs. induction fuel as [|fuel IH]; intros ws rw d p before Hp Hf Ha; [lia|]. cbn [lines_loop_in].
  destruct (fill_spec_in tail ws Hs (S (S (length (rw_inner rw)))) rw [] Hp) as (r & Er & Fr).
  - pose proof (pending_bounds_in rw) as B. rewrite Hp, app_length, map_length in B. lia.
  - intros a w b E. destruct a; discriminate E.
  - intros w [].
  - cbn [map words_in] in Er. change (width_by []) with 0%Q in Er. rewrite Er. clear Er.
    (* a line [l] and what follows it *)
    assert (Step : forall l soft ws' rw' just, pending rw' = map Ok ws' ++ tail -> l <> [] -> length ws' < length ws ->
      passes ws [(words l, soft)] ws' -> just = ps_justify style && soft ->
      exists r, (match word_spacing_in ar style just (width_by (words l)) (map fst l) with
        | None => Some Panic
        | Some sp => match show_line_in ar print style d p (min_x_in ar style) (line_top ar top lh (length before) +. baseline_y_in ar style) sp (map fst l) with
            | Err e => Some (Err e) | Panic => Some Panic
            | Ok (d, p) => let y := line_top ar top lh (length before) +. line_height_in ar style in if a_gt ar y (max_y_in ar style) then Some (Ok (d, p, Some rw')) else lines_loop_in ar print glyph_id style text fuel d p rw' y end
        end) = Some r /\ on_page_in tail before ws (d, p) r).
    { intros l soft ws' rw' just Hp' Hl Hlt Hpass Hj. rewrite (spacing_found just soft l Hl Hj), (show_line_requests_in He). cbv zeta.
      assert (A : line_requests_in (min_x_in ar style) (line_top ar top lh (length before) +. baseline_y_in ar style) (spacing_by ar avail (ps_justify style) (words l, soft)) (map fst l) =
        map asked (placed before [(words l, soft)])).
      { rewrite placed_in_cons. cbn [fst]. change (placed (before ++ [(words l, soft)]) []) with (@nil (Q * Q * word)). rewrite app_nil_r. exact (line_asked top _ _ l []). }
      rewrite A. destruct (fold_left do_request (map asked (placed before [(words l, soft)])) (d, p)) as [d1 p1] eqn:Ef.
      assert (Hy' : line_top ar top lh (length before) +. line_height_in ar style = line_top ar top lh (length (before ++ [(words l, soft)]))) by (rewrite app_length, Nat.add_1_r, line_top_S; reflexivity).
      assert (Ep : forall ls, placed before ((words l, soft) :: ls) = placed before [(words l, soft)] ++ placed (before ++ [(words l, soft)]) ls).
      { intros ls. rewrite !placed_in_cons. change (placed (before ++ [(words l, soft)]) []) with (@nil (Q * Q * word)). rewrite app_nil_r. reflexivity. }
      rewrite Hy'. change (max_y_in ar style) with bottom. destruct (a_gt ar (line_top ar top lh (length (before ++ [(words l, soft)]))) bottom) eqn:Eb.
      - eexists. split; [reflexivity|]. rewrite <- Ef. apply (opi_full _ _ _ _ [(words l, soft)] ws').
        + exact Hpass.
        + discriminate.
        + exact Hlt.
        + rewrite app_length, Nat.add_1_r. exact Ha.
        + exact Eb.
        + exact Hp'.
      - destruct (IH ws' rw' d1 p1 (before ++ [(words l, soft)]) Hp' ltac:(lia)) as (r1 & -> & Hr).
        { rewrite app_length, Nat.add_1_r in * . apply above_more; assumption. }
        exists r1. split; [reflexivity|]. destruct Hr as [ls rest r' I1 I3 I0|ls ws2 rw2 I1 I2 I3 I5 I6 I7]; [subst r'|].
        + apply (opi_end _ _ _ _ ((words l, soft) :: ls) rest).
          * exact (Hpass ls rest I1).
          * rewrite <- app_assoc in I3. exact I3.
          * rewrite Ep, map_app, fold_left_app, Ef. reflexivity.
        + replace (fold_left do_request (map asked (placed (before ++ [(words l, soft)]) ls)) (d1, p1)) with (fold_left do_request (map asked (placed before ((words l, soft) :: ls))) (d, p)) by (rewrite Ep, map_app, fold_left_app, Ef; reflexivity).
          rewrite <- app_assoc in I5, I6. apply (opi_full _ _ _ _ ((words l, soft) :: ls) ws2).
          * intros ls' rest Hi. exact (Hpass _ _ (I1 _ _ Hi)).
          * discriminate.
          * lia.
          * exact I5.
          * exact I6.
          * exact I7. }
    inversion Fr as [acc ws0 F1 F2 E1 E2 E3|acc l w r0 rw' F1 F2 F3 F5 E1 E2 E3|acc l w r0 rw' F1 F2 F4 F5 F6 E1 E2 E3]; subst acc; subst r; cbn [app] in * .
    + subst ws0. assert (O : on_page_in tail before ws (d, p) match ending (A := unit) tail with Ok _ => Ok (fold_left do_request (map asked (placed before [])) (d, p), None) | Err e => Err e | Panic => Panic end).
      { apply (opi_end _ _ _ _ [] (words ws)); [apply lb_rest; assumption|rewrite app_nil_r; exact Ha|reflexivity]. }
      destruct tail as [|[x|e|] tail]; [|destruct Hs| |]; cbn [ending] in *; eexists; (split; [reflexivity|exact O]).
    + subst ws. apply (Step (l ++ [w]) false r0 rw' false); try assumption.
      * destruct l; discriminate.
      * rewrite app_length. cbn [length]. lia.
      * intros ls' rest Hi. rewrite words_in_app in F1. replace (l ++ w :: r0) with ((l ++ [w]) ++ r0) by (rewrite <- app_assoc; reflexivity). rewrite !words_in_app. cbn [app].
        apply lb_hard; assumption.
      * rewrite Bool.andb_false_r. reflexivity.
    + subst ws. apply (Step l true (w :: r0) rw' (ps_justify style)); try assumption.
      * intros ->. exact (no_words_width_in (words []) F4 eq_refl).
      * rewrite app_length. destruct l as [|x l]; [|cbn [length]; lia]. destruct (no_words_width_in (words []) F4 eq_refl).
      * intros ls' rest Hi. rewrite words_in_app. cbn [app]. change (words (w :: r0)) with (to_word w :: words r0). apply lb_soft; assumption.
      * rewrite Bool.andb_true_r. reflexivity.
Qed.

(** ** Pages *)
Inductive laid_in (tail : list item) (ws : list (shaped * bool)) (d : doc) : res font_error doc -> Prop :=
| lai : forall ls rest pages r, lines_by avail (words ws) ls rest -> pages_by ar top bottom lh ls pages ->
    r = match ending (A := unit) tail with Ok _ => Ok (fold_left do_page (map page_of pages) d) | Err e => Err e | Panic => Panic end -> laid_in tail ws d r.
Lemma pages_spec_in : embeddable fnt = true -> forall tail, stops tail -> forall fuel ws rw d, pending rw = map Ok ws ++ tail -> length ws < fuel ->
  exists r, pages_loop_in ar print glyph_id style text fuel d rw = Some r /\ laid_in tail ws d r.
Proof.
  intros He tail Hs. induction fuel as [|fuel IH]; intros ws rw d Hp Hf; [lia|]. cbn [pages_loop_in].
  set (p0 := page_new (print (page_width_in ar style)) (print (page_height_in ar style))).
  destruct (lines_spec_in He tail Hs (S (S (length (rw_inner rw)))) ws rw d p0 [] Hp) as (r & Er & Hr).
  - pose proof (pending_bounds_in rw) as B. rewrite Hp, app_length, map_length in B. lia.
  - intros i Hi. cbn [length] in Hi. lia.
  - change (line_top ar top lh (length [])) with (min_y_in ar style) in Er. rewrite Er. clear Er.
    assert (Ed : forall ls d1 p1, fold_left do_request (map asked (placed [] ls)) (d, p0) = (d1, p1) -> do_page d (page_of ls) = page_drop d1 p1).
    { intros ls d1 p1 E. unfold do_page, page_by. cbn [ph_requests ph_width ph_height]. change (on_sheet_by ar style ls) with (placed [] ls).
      change (page_new (print (px_by ar (ps_page_width style))) (print (px_by ar (ps_page_height style)))) with p0. rewrite E. reflexivity. }
    destruct Hr as [ls rest r' I1 I3 I0|ls ws2 rw2 I1 I2 I3 I5 I6 I7]; [subst r'|]; cbn [app] in * .
    + assert (L : laid_in tail ws d match ending (A := unit) tail with Ok _ => Ok (fold_left do_page (map page_of [ls]) d) | Err e => Err e | Panic => Panic end).
      { apply (lai _ _ _ ls rest [ls]); [exact I1|apply pb_last; exact I3|reflexivity]. }
      destruct tail as [|[x|e|] tail]; [|destruct Hs| |]; cbn [ending] in * .
      * assert (E : exists d1 p1, fold_left do_request (map asked (placed [] ls)) (d, p0) = (d1, p1)) by (destruct (fold_left do_request (map asked (placed [] ls)) (d, p0)); eauto). destruct E as (d1 & p1 & E).
        rewrite E. eexists. split; [reflexivity|]. cbn [map fold_left] in L. rewrite (Ed _ _ _ E) in L. exact L.
      * eexists. split; [reflexivity|exact L].
      * eexists. split; [reflexivity|exact L].
    + destruct (fold_left do_request (map asked (placed [] ls)) (d, p0)) as [d1 p1] eqn:E. destruct (IH ws2 rw2 (page_drop d1 p1) I7 ltac:(lia)) as (r & -> & [ls' rest pages r' J1 J2 J4]).
      subst r'. eexists. split; [reflexivity|].
      apply (lai _ _ _ (ls ++ ls') rest (ls :: pages)).
      * exact (I1 _ _ J1).
      * apply pb_full; assumption.
      * cbn [map fold_left]. rewrite (Ed _ _ _ E). reflexivity.
Qed.

(** ** A font that cannot be embedded *)
Lemma pages_fail_in : embeddable fnt <> true -> forall tail, stops tail -> forall fuel ws rw, pending rw = map Ok ws ++ tail -> 0 < fuel ->
  exists r, pages_loop_in ar print glyph_id style text fuel doc_new rw = Some r /\
    ((exists rest, lines_by avail (words ws) [] rest /\
       r = match ending (A := unit) tail with Ok _ => Ok (run [page_of []]) | Err e => Err e | Panic => Panic end) \/
     (~ (exists rest, lines_by avail (words ws) [] rest) /\ match r with Ok _ => False | Err e => not_embedded style (Err e) | Panic => not_embedded style Panic end)).
Proof.
  intros He tail Hs fuel ws rw Hp Hf. destruct fuel as [|fuel]; [lia|]. cbn [pages_loop_in]. set (p0 := page_new (print (page_width_in ar style)) (print (page_height_in ar style))).
  set (fl := S (length (rw_inner rw))). cbn [lines_loop_in].
  destruct (fill_spec_in tail ws Hs (S (S (length (rw_inner rw)))) rw [] Hp) as (r & Er & Fr).
  - pose proof (pending_bounds_in rw) as B. rewrite Hp, app_length, map_length in B. lia.
  - intros a w b E. destruct a; discriminate E.
  - intros w [].
  - cbn [map words_in] in Er. change (width_by []) with 0%Q in Er. rewrite Er. clear Er.
    assert (Step : forall (l : list (shaped * bool)) soft rw' just, l <> [] -> just = ps_justify style && soft -> ~ (exists rest, lines_by avail (words ws) [] rest) ->
      exists r, match (
        match word_spacing_in ar style just (width_by (words l)) (map fst l) with
        | None => Some Panic
        | Some sp => match show_line_in ar print style doc_new p0 (min_x_in ar style) (min_y_in ar style +. baseline_y_in ar style) sp (map fst l) with
            | Err e => Some (Err e) | Panic => Some Panic
            | Ok (d, p) => let y := min_y_in ar style +. line_height_in ar style in if a_gt ar y (max_y_in ar style) then Some (Ok (d, p, Some rw')) else lines_loop_in ar print glyph_id style text fl d p rw' y end
        end) with None => None | Some Panic => Some Panic | Some (Err e) => Some (Err e) | Some (Ok (d, p, None)) => Some (Ok (page_drop d p))
           | Some (Ok (d, p, Some segments)) => pages_loop_in ar print glyph_id style text fuel (page_drop d p) segments end = Some r /\
       ((exists rest, lines_by avail (words ws) [] rest /\
       r = match ending (A := unit) tail with Ok _ => Ok (run [page_of []]) | Err e => Err e | Panic => Panic end) \/
       (~ (exists rest, lines_by avail (words ws) [] rest) /\ match r with Ok _ => False | Err e => not_embedded style (Err e) | Panic => not_embedded style Panic end))).
    { intros l soft rw' just Hl Hj Hn. rewrite (spacing_found just soft l Hl Hj).
      destruct l as [|x l]; [destruct (Hl eq_refl)|]. cbn [map show_line_in]. unfold show_text.
      destruct (add_fails print glyph_id style text He) as (d & r1 & -> & Hr). destruct r1 as [k|e|]; [destruct Hr| |]; eexists; (split; [reflexivity|]); right; (split; [exact Hn|exact Hr]). }
    inversion Fr as [acc ws0 F1 F2 E1 E2 E3|acc l w r0 rw' F1 F2 F3 F5 E1 E2 E3|acc l w r0 rw' F1 F2 F4 F5 F6 E1 E2 E3]; subst acc; subst r; cbn [app] in * .
    + subst ws0. destruct tail as [|[x|e|] tail]; [|destruct Hs| |]; cbn [ending] in *; eexists; (split; [reflexivity|]); left; exists (words ws); (split; [apply lb_rest; assumption|reflexivity]).
    + subst ws. apply (Step (l ++ [w]) false rw' false).
      * destruct l; discriminate.
      * rewrite Bool.andb_false_r. reflexivity.
      * intros (rest & Hi). inversion Hi as [? _ Hh| |]; subst. specialize (Hh (to_word w)). cbn [to_word_in w_hard] in Hh. rewrite Hh in F3; [discriminate F3|].
        unfold words_in. apply in_map. apply in_or_app. right. left. reflexivity.
    + subst ws. apply (Step l true rw' (ps_justify style)).
      * intros ->. exact (no_words_width_in (words []) F4 eq_refl).
      * rewrite Bool.andb_true_r. reflexivity.
      * intros (rest & Hi). inversion Hi as [? Hh _| |]; subst. rewrite words_in_app in Hh. specialize (Hh (words l) (to_word w) (words r0) eq_refl F4). congruence.
Qed.
End Text.

(** ** From the text *)
Lemma shape_segment_piece_in : forall a cs b h, Forall (fun c => is_char c = true) cs -> Forall (fun c => is_char c = true) b ->
  shape_segment_in ar glyph_id style (a ++ flat_map utf8 cs ++ flat_map utf8 b) (length a) (length a + length (flat_map utf8 cs)) h = piece_item_in (cs, h).
Proof.
  intros a cs b h Hc Hb. unfold shape_segment_in, piece_item_in. rewrite slice_app by assumption. cbn [fst snd]. rewrite trim_utf8.
  rewrite (chars_encodes _ (trim_end_newlines cs)) by (split; [apply trim_chars; exact Hc|reflexivity]).
  destruct (naive_shape (trim_end_newlines cs)); reflexivity.
Qed.
Lemma items_of_text_in : forall segs a, char_pieces segs ->
  shaped_items_in (a ++ text_of segs) (length a) (break_positions (length a) segs) = map piece_item_in segs.
Proof.
  induction segs as [|[cs h] segs IH]; intros a H; [reflexivity|]. inversion H; subst. cbn [break_positions shaped_items_in map]. unfold text_of. cbn [flat_map fst]. rewrite flat_map_app.
  assert (Hb : Forall (fun c => is_char c = true) (flat_map fst segs)).
  { apply Forall_forall. intros c Hc. apply in_flat_map in Hc as (s & Hi & Hc). rewrite Forall_forall in H3. specialize (H3 s Hi). rewrite Forall_forall in H3. exact (H3 c Hc). }
  f_equal; [apply shape_segment_piece_in; assumption|].
  replace (length a + length (flat_map utf8 cs)) with (length (a ++ flat_map utf8 cs)) by apply app_length. rewrite app_assoc. apply IH. exact H3.
Qed.
Notation word_of := (is_word_by ar glyph_id (f_glyph_width fnt) (ps_font_size style)).
Lemma pieces_split_in : forall segs, exists ws tail, map piece_item_in segs = map Ok ws ++ tail /\ stops tail /\
  match ending (A := unit) tail with Ok _ => tail = [] /\ Forall2 word_of segs (words_in ws) | Err e => failing glyph_id style (Err e) segs | Panic => failing glyph_id style Panic segs end.
Proof.
  induction segs as [|[cs h] segs (ws & tail & E & Hs & Ht)].
  - exists [], []. split; [reflexivity|]. split; [exact I|]. split; [reflexivity|constructor].
  - cbn [map]. unfold piece_item_in at 1. cbn [fst snd]. destruct (shape_cases_in glyph_id (f_glyph_width fnt) (trim_end_newlines cs)) as [(s & w & Es & Sh & W)|[(e & c & Es & Hc & F)|(c & Es & Hc & F)]]; rewrite Es.
    + exists ((s, h) :: ws), tail. rewrite E. split; [reflexivity|]. split; [exact Hs|]. destruct (ending tail) as [x|e|].
      * destruct Ht as [-> Ht]. split; [reflexivity|]. cbn [words_in map]. constructor; [|exact Ht]. unfold to_word_in. cbn [fst snd]. rewrite W.
        exact (iwb ar _ _ _ cs h (trim_end_newlines cs) (glyphs s) w (trim_visible cs) Sh).
      * destruct Ht as (s0 & t & c & Hi & R). exists s0, t, c. split; [right; exact Hi|exact R].
      * destruct Ht as (s0 & t & c & Hi & R). exists s0, t, c. split; [right; exact Hi|exact R].
    + exists [], (Err e :: map piece_item_in segs). split; [reflexivity|]. split; [exact I|]. cbn [ending]. exists (cs, h), (trim_end_newlines cs), c. split; [left; reflexivity|]. split; [apply trim_visible|]. split; assumption.
    + exists [], (Panic :: map piece_item_in segs). split; [reflexivity|]. split; [exact I|]. cbn [ending]. exists (cs, h), (trim_end_newlines cs), c. split; [left; reflexivity|]. split; [apply trim_visible|]. split; assumption.
Qed.
Lemma layout_spec_in : forall segs, char_pieces segs -> exists ws tail r,
  stops tail /\
  match ending (A := unit) tail with Ok _ => tail = [] /\ Forall2 word_of segs (words_in ws) | Err e => failing glyph_id style (Err e) segs | Panic => failing glyph_id style Panic segs end /\
  plain_layout_in ar print glyph_id style (text_of segs) (break_positions 0 segs) = Some r /\
  (embeddable fnt = true -> laid_in tail ws doc_new r) /\
  (embeddable fnt <> true ->
     (exists rest, breaks_by ar style (words_in ws) [] rest /\
       r = match ending (A := unit) tail with Ok _ => Ok (run [page_of []]) | Err e => Err e | Panic => Panic end) \/
     (~ (exists rest, breaks_by ar style (words_in ws) [] rest) /\ match r with Ok _ => False | Err e => not_embedded style (Err e) | Panic => not_embedded style Panic end)).
Proof.
  intros segs H. destruct (pieces_split_in segs) as (ws & tail & E & Hs & Ht). exists ws, tail. unfold plain_layout_in.
  assert (Hp : pending_in (text_of segs) (mkRewind (break_positions 0 segs) 0 None) = map Ok ws ++ tail).
  { unfold pending_in. cbn [rw_buffer rw_previous_break_position rw_inner app]. rewrite <- E. exact (items_of_text_in segs [] H). }
  assert (Hl : length ws < S (length (break_positions 0 segs))).
  { assert (L : forall n, length (break_positions n segs) = length segs).
    { clear. induction segs as [|[cs h] segs IH]; intros n; [reflexivity|]. cbn [break_positions length]. rewrite IH. reflexivity. }
    rewrite L. apply (f_equal (@length item)) in E. rewrite map_length, app_length, map_length in E. lia. }
  destruct (Bool.bool_dec (embeddable fnt) true) as [He|He].
  - destruct (pages_spec_in (text_of segs) He tail Hs _ ws _ doc_new Hp Hl) as (r & Er & Hr). exists r. repeat split; try assumption; [intros _; exact Hr|]. intros He'. destruct (He' He).
  - destruct (pages_fail_in (text_of segs) He tail Hs (S (length (break_positions 0 segs))) ws _ Hp ltac:(lia)) as (r & Er & Hr). exists r. repeat split; try assumption; [intros He'; destruct (He He')|]. intros _. exact Hr.
Qed.
End Plain.
End Arith.
