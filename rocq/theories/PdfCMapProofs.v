(** The ToUnicode CMap written for a font reads back as the font's character map. *)
From Verif Require Import Base PdfObject PdfObjectSpec PdfObjectProofs PdfSyntax PdfSyntaxSpec
  PdfSyntaxProofs PdfConvert PdfConvertSpec PdfConvertProofs PdfDrawProofs.
Local Open Scope N_scope.

Transparent lenN.
Lemma lenN_eq : forall A (l : list A), lenN l = N.of_nat (length l).
Proof. reflexivity. Qed.
Opaque lenN.

Lemma hex_lower_ok : forall d, d < 16 -> hex_val (hex_digit_lower d) = Some d /\
  is_ws (hex_digit_lower d) = false /\ hex_digit_lower d <> 62 /\ hex_digit_lower d <> 60.
Proof.
  intros d H.
  assert (X : forall_below 16 (fun d => match hex_val (hex_digit_lower d) with Some v => v =? d | None => false end
     && negb (is_ws (hex_digit_lower d)) && negb (hex_digit_lower d =? 62) && negb (hex_digit_lower d =? 60)) = true)
    by (vm_compute; reflexivity).
  pose proof (forall_below_spec 16 _ X d H) as Y. clear X. cbv beta in Y.
  apply andb_true_iff in Y as [Y Y4]. apply andb_true_iff in Y as [Y Y3]. apply andb_true_iff in Y as [Y1 Y2].
  apply negb_true_iff in Y2, Y3, Y4. apply N.eqb_neq in Y3, Y4.
  destruct (hex_val (hex_digit_lower d)); [|discriminate]. apply N.eqb_eq in Y1. subst. auto.
Qed.

Lemma read_hex_pair : forall a b r, a < 16 -> b < 16 ->
  read_hex_string None (hex_digit_lower a :: hex_digit_lower b :: r) = cons_fst (a * 16 + b) (read_hex_string None r).
Proof.
  intros a b r Ha Hb. destruct (hex_lower_ok a Ha) as (A1 & A2 & A3 & _).
  destruct (hex_lower_ok b Hb) as (B1 & B2 & B3 & _).
  cbn [read_hex_string]. apply N.eqb_neq in A3, B3. rewrite A1, A2, A3, B1, B2, B3. auto.
Qed.

Lemma read_hex4 : forall n r, n < 65536 ->
  read_hex_string None (hex4 n ++ r) = cons_fst (n / 256) (cons_fst (n mod 256) (read_hex_string None r)).
Proof.
  intros n r H. unfold hex4. cbn [app].
  assert (M : forall x, x mod 16 < 16) by (intro x; apply N.mod_lt; discriminate).
  rewrite !read_hex_pair by apply M.
  assert (E1 : n / 4096 mod 16 * 16 + n / 256 mod 16 = n / 256).
  { rewrite (N.mod_small (n / 4096)) by (apply N.div_lt_upper_bound; lia).
    replace (n / 4096) with (n / 256 / 16) by (rewrite N.div_div by discriminate; reflexivity).
    rewrite N.mul_comm. symmetry. apply N.div_mod. discriminate. }
  assert (E2 : n / 16 mod 16 * 16 + n mod 16 = n mod 256).
  { change 256 with (16 * 16). rewrite N.mod_mul_r by discriminate. lia. }
  rewrite E1, E2. auto.
Qed.

Definition be16 (n : N) : bytes := [n / 256; n mod 256].

Lemma read_hex4s : forall us r, Forall (fun u => u < 65536) us ->
  read_hex_string None (flat_map hex4 us ++ 62 :: r) = Some (flat_map be16 us, r).
Proof.
  induction us as [|u us IH]; intros r H; [reflexivity|]. inversion H; subst.
  cbn [flat_map]. rewrite <- app_assoc, read_hex4, IH by auto. reflexivity.
Qed.

Lemma be16_units : forall us, Forall (fun u => u < 65536) us -> utf16be_units (flat_map be16 us) = Some us.
Proof.
  induction us as [|u us IH]; intro H; [reflexivity|]. inversion H; subst. cbn [flat_map be16 app utf16be_units].
  rewrite IH by auto. f_equal. f_equal. rewrite N.mul_comm. symmetry. apply N.div_mod. discriminate.
Qed.

Lemma encode_decode : forall c, scalar_value c ->
  decode_utf16 (encode_utf16 c) = Some c /\ Forall (fun u => u < 65536) (encode_utf16 c).
Proof.
  intros c H. unfold encode_utf16. destruct (c <? 65536) eqn:E.
  - apply N.ltb_lt in E. split; [|repeat constructor; auto]. cbn [decode_utf16].
    destruct ((55296 <=? c) && (c <? 57344)) eqn:F; auto. unfold scalar_value in H. lia.
  - apply N.ltb_ge in E. unfold scalar_value in H.
    assert (A : c - 65536 < 1048576) by lia. set (d := c - 65536) in *.
    assert (B : d / 1024 < 1024) by (apply N.div_lt_upper_bound; lia).
    assert (C : d mod 1024 < 1024) by (apply N.mod_lt; discriminate).
    pose proof (N.div_mod d 1024 ltac:(discriminate)) as D. split.
    + cbn [decode_utf16]. set (q := d / 1024) in *. set (r := d mod 1024) in *. clearbody q r.
      replace ((55296 <=? 55296 + q) && (55296 + q <? 56320) && (56320 <=? 56320 + r) && (56320 + r <? 57344))
        with true by lia.
      f_equal. lia.
    + repeat constructor; lia.
Qed.

(** ** Lexing *)
Lemma lexes_hex4s : forall us ws, Forall (fun u => u < 65536) us -> us <> [] -> is_ws ws = true ->
  lexes (bs "<" ++ flat_map hex4 us ++ bs ">" ++ [ws]) [IObj (PString (flat_map be16 us))].
Proof.
  intros us ws H Hn Hw.
  replace (bs "<" ++ flat_map hex4 us ++ bs ">" ++ [ws])
    with ((bs "<" ++ flat_map hex4 us ++ bs ">") ++ [ws]) by (rewrite <- !app_assoc; auto).
  apply lexes_one; [discriminate|auto| |].
  - intro rest. change (bs "<") with [60]. cbn [app]. apply skip_ws_nonws; [reflexivity|discriminate].
  - intro rest. change (bs "<") with [60]. change (bs ">") with [62]. rewrite <- !app_assoc. cbn [app].
    rewrite (read_item_delim _ 60 (flat_map hex4 us ++ 62 :: ws :: rest)) by reflexivity.
    unfold read_object. cbn [length read_obj].
    rewrite skip_ws_nonws by (reflexivity || discriminate).
    change (60 =? 47) with false. change (60 =? 40) with false. change (60 =? 60) with true. cbv iota.
    rewrite read_hex4s by auto.
    destruct us as [|u us]; [congruence|]. unfold hex4 at 1. cbn [flat_map app].
    destruct (hex_lower_ok (u / 4096 mod 16)) as (_ & _ & _ & X); [apply N.mod_lt; discriminate|].
    apply N.eqb_neq in X. rewrite X. auto.
Qed.

Definition line_items (p : N * N) : list item :=
  [IObj (PString (be16 (snd p))); IObj (PString (flat_map be16 (encode_utf16 (fst p))))].

Definition ok_pair (p : N * N) : Prop := scalar_value (fst p) /\ snd p < 65536.

Lemma lexes_line : forall p, ok_pair p -> lexes (bfchar_line p) (line_items p).
Proof.
  intros p [H1 H2]. unfold bfchar_line, line_items.
  destruct (encode_decode (fst p) H1) as [_ E].
  change (bs "> <") with (bs ">" ++ [32] ++ bs "<").
  replace (bs "<" ++ hex4 (snd p) ++ (bs ">" ++ [32] ++ bs "<") ++ flat_map hex4 (encode_utf16 (fst p)) ++ bs ">" ++ LF)
    with ((bs "<" ++ flat_map hex4 [snd p] ++ bs ">" ++ [32]) ++
          (bs "<" ++ flat_map hex4 (encode_utf16 (fst p)) ++ bs ">" ++ [10])).
  - change [IObj ?a; IObj ?b] with ([IObj a] ++ [IObj b]). apply lexes_app.
    + pose proof (lexes_hex4s [snd p] 32) as X. cbn [flat_map] in X. rewrite !app_nil_r in X.
      cbn [flat_map]. rewrite app_nil_r. apply X; auto. discriminate.
    + apply lexes_hex4s; auto. unfold encode_utf16. destruct (fst p <? 65536); discriminate.
  - cbn [flat_map]. rewrite app_nil_r, <- !app_assoc. reflexivity.
Qed.

Lemma lexes_lines : forall ps, Forall ok_pair ps -> lexes (flat_map bfchar_line ps) (flat_map line_items ps).
Proof.
  induction ps as [|p ps IH]; intro H; [apply lexes_nil|]. inversion H; subst. cbn [flat_map].
  apply lexes_app; auto using lexes_line.
Qed.

Lemma kw_begin : keyword (bs "beginbfchar"). Proof. kw. Qed.
Lemma kw_end : keyword (bs "endbfchar"). Proof. kw. Qed.

Definition block_items (ps : list (N * N)) : list item :=
  IObj (PInt (Z.of_N (lenN ps))) :: IOp (bs "beginbfchar") :: flat_map line_items ps ++ [IOp (bs "endbfchar")].

Lemma lexes_block : forall ps, Forall ok_pair ps -> lexes (write_bfchar ps) (block_items ps).
Proof.
  intros ps H. unfold write_bfchar, block_items.
  replace (itoa (lenN ps) ++ bs " beginbfchar" ++ LF ++ flat_map bfchar_line ps ++ bs "endbfchar" ++ LF)
    with ((itoa (lenN ps) ++ [32]) ++ (bs "beginbfchar" ++ [10]) ++ flat_map bfchar_line ps ++ (bs "endbfchar" ++ [10])).
  - change (IObj ?a :: IOp ?b :: ?c) with ([IObj a] ++ [IOp b] ++ c).
    apply lexes_app; [|apply lexes_app; [|apply lexes_app]].
    + apply lexes_token; auto using itoa_regular, parse_itoa. apply itoa_spec.
    + apply lexes_keyword; [apply kw_begin|reflexivity].
    + apply lexes_lines. auto.
    + apply lexes_keyword; [apply kw_end|reflexivity].
  - change (bs " beginbfchar") with ([32] ++ bs "beginbfchar"). rewrite <- !app_assoc. reflexivity.
Qed.

Lemma lexes_blocks : forall bl, Forall (Forall ok_pair) bl ->
  lexes (flat_map write_bfchar bl) (flat_map block_items bl).
Proof.
  induction bl as [|b bl IH]; intro H; [apply lexes_nil|]. inversion H; subst. cbn [flat_map].
  apply lexes_app; auto using lexes_block.
Qed.

(** ** Reading the blocks *)
Lemma bf_pairs_lines : forall ps, Forall ok_pair ps ->
  bf_pairs (flat_map (fun p => [PString (be16 (snd p)); PString (flat_map be16 (encode_utf16 (fst p)))]) ps) = Some ps.
Proof.
  induction ps as [|[c g] ps IH]; intro H; [reflexivity|]. inversion H as [|x y [A B]]; subst. cbn [fst snd] in *.
  cbn [flat_map fst snd app bf_pairs]. unfold be16 at 1. cbn [bf_pairs].
  destruct (encode_decode c A) as [D E]. unfold char_of_string. rewrite be16_units, D, IH by auto.
  do 3 f_equal. rewrite N.mul_comm. symmetry. apply N.div_mod. discriminate.
Qed.

Lemma bf_sections_operands : forall inside ps acc r,
  bf_sections inside acc (flat_map line_items ps ++ r) =
  bf_sections inside (acc ++ flat_map (fun p => [PString (be16 (snd p)); PString (flat_map be16 (encode_utf16 (fst p)))]) ps) r.
Proof.
  induction ps as [|p ps IH]; intros acc r; cbn [flat_map app line_items bf_sections].
  - rewrite app_nil_r. auto.
  - rewrite IH, <- !app_assoc. auto.
Qed.

Lemma bf_sections_block : forall ps r, Forall ok_pair ps -> (length ps <= 100)%nat ->
  bf_sections None [] (block_items ps ++ r) =
  match bf_sections None [] r with Some more => Some (ps :: more) | None => None end.
Proof.
  intros ps r H Hl. unfold block_items. cbn [app bf_sections].
  change (bytes_eqb (bs "beginbfchar") (bs "beginbfchar")) with true. cbv iota.
  assert (L : Z.of_N (lenN ps) = Z.of_nat (length ps)) by (rewrite lenN_eq; lia).
  rewrite L. replace (Z.of_nat (length ps) <=? 100)%Z with true by lia.
  rewrite <- app_assoc, bf_sections_operands. cbn [app bf_sections].
  change (bytes_eqb (bs "endbfchar") (bs "endbfchar")) with true. cbv iota.
  rewrite bf_pairs_lines by auto. rewrite Z.eqb_refl. auto.
Qed.

Lemma bf_sections_blocks : forall bl r, Forall (Forall ok_pair) bl ->
  Forall (fun b => (length b <= 100)%nat) bl ->
  bf_sections None [] (flat_map block_items bl ++ r) =
  match bf_sections None [] r with Some more => Some (bl ++ more) | None => None end.
Proof.
  induction bl as [|b bl IH]; intros r H1 H2; cbn [flat_map app].
  - destruct (bf_sections None [] r); auto.
  - inversion H1; inversion H2; subst. rewrite <- app_assoc, bf_sections_block, IH by auto.
    destruct (bf_sections None [] r); auto.
Qed.

(** ** The buffer of 100 pairs *)
Lemma set_nth_length : forall A (l : list A) n x, length (set_nth n x l) = length l.
Proof. induction l as [|y l IH]; intros [|n] x; cbn; auto. Qed.

Lemma firstn_set_nth : forall A (l : list A) n x, (n < length l)%nat ->
  firstn (S n) (set_nth n x l) = firstn n l ++ [x].
Proof.
  induction l as [|y l IH]; intros [|n] x H; cbn [length set_nth] in *; try lia.
  - reflexivity.
  - cbn [firstn app]. f_equal. rewrite <- IH by lia. reflexivity.
Qed.

Definition bf_inv (s : bf_state) (done : list (N * N)) : Prop :=
  length (bf_array s) = 100%nat /\ (bf_i s <= 100)%nat /\
  exists bl, bf_out s = flat_map write_bfchar bl /\ Forall (fun b => length b = 100%nat) bl /\
    done = concat bl ++ firstn (bf_i s) (bf_array s) /\ (bf_i s = 0%nat -> done = []).

Lemma bf_push_inv : forall s done p, bf_inv s done ->
  bf_inv (bf_push s p) (done ++ [p]) /\ (0 < bf_i (bf_push s p))%nat.
Proof.
  intros s done p (L & I & bl & O & B & D & Z). unfold bf_push.
  destruct (Nat.leb 100 (bf_i s)) eqn:E; cbn [bf_out bf_array bf_i].
  - apply Nat.leb_le in E. split; [|lia]. split; [cbn [bf_array]; rewrite set_nth_length; auto|].
    cbn [bf_i]. split; [lia|]. exists (bl ++ [bf_array s]). cbn [bf_out bf_array].
    split; [|split; [|split]].
    + rewrite O, flat_map_app. cbn [flat_map]. rewrite app_nil_r. auto.
    + apply Forall_app. auto.
    + rewrite concat_app. cbn [concat]. rewrite app_nil_r, D.
      rewrite firstn_set_nth by lia. cbn [firstn app]. f_equal. f_equal. apply firstn_all2. lia.
    + discriminate.
  - apply Nat.leb_gt in E. split; [|lia]. split; [cbn [bf_array]; rewrite set_nth_length; auto|].
    cbn [bf_i]. split; [lia|]. exists bl. cbn [bf_out bf_array]. split; [auto|]. split; [auto|]. split.
    + rewrite firstn_set_nth by lia. rewrite D, app_assoc. auto.
    + discriminate.
Qed.

Lemma bf_fold_inv : forall pairs s done, bf_inv s done ->
  bf_inv (fold_left bf_push pairs s) (done ++ pairs).
Proof.
  induction pairs as [|p pairs IH]; intros s done H; cbn [fold_left].
  - rewrite app_nil_r. auto.
  - change (p :: pairs) with ([p] ++ pairs). rewrite app_assoc. apply IH. apply bf_push_inv. auto.
Qed.

Lemma bf_blocks_spec : forall pairs, exists bl, bf_blocks pairs = flat_map write_bfchar bl /\
  concat bl = pairs /\ Forall (fun b => (1 <= length b <= 100)%nat) bl.
Proof.
  intro pairs. unfold bf_blocks.
  assert (H0 : bf_inv (mkBf [] (repeat (0, 0) 100) 0) []).
  { split; [reflexivity|]. split; [cbn [bf_i]; lia|]. exists []. cbn. auto. }
  pose proof (bf_fold_inv pairs _ _ H0) as (L & I & bl & O & B & D & Z). cbn [app] in D, Z.
  set (s := fold_left _ _ _) in *.
  assert (B' : Forall (fun b : list (N * N) => (1 <= length b <= 100)%nat) bl).
  { eapply Forall_impl; [|exact B]. cbv beta. intros. lia. }
  destruct (Nat.ltb 0 (bf_i s)) eqn:E.
  - apply Nat.ltb_lt in E. exists (bl ++ [firstn (bf_i s) (bf_array s)]). split; [|split].
    + rewrite O, flat_map_app. cbn [flat_map]. rewrite app_nil_r. auto.
    + rewrite concat_app. cbn [concat]. rewrite app_nil_r. auto.
    + apply Forall_app. split; [auto|]. constructor; [|constructor]. rewrite firstn_length. lia.
  - apply Nat.ltb_ge in E. exists bl. split; [auto|]. split; [|auto].
    replace (bf_i s) with 0%nat in D by lia. cbn [firstn] in D. rewrite app_nil_r in D. auto.
Qed.

(** ** The whole CMap *)
Definition kw_piece (k : string) (ws : N) : bytes * N * item := (bs k, ws, IOp (bs k)).
Definition name_piece (n : string) (ws : N) : bytes * N * item := (write_name (bs n), ws, IObj (PName (bs n))).
Definition int_piece (n : N) (ws : N) : bytes * N * item := (itoa n, ws, IObj (PInt (Z.of_N n))).
Definition hex_piece (us : list N) (ws : N) : bytes * N * item :=
  (bs "<" ++ flat_map hex4 us ++ bs ">", ws, IObj (PString (flat_map be16 us))).

Definition prologue_pieces : list (bytes * N * item) :=
  [ name_piece "CIDInit" 32; name_piece "ProcSet" 32; kw_piece "findresource" 32; kw_piece "begin" 10;
    int_piece 12 32; kw_piece "dict" 32; kw_piece "begin" 10; kw_piece "begincmap" 10;
    name_piece "CIDSystemInfo" 10;
    (bs "<< /Registry (Adobe) /Ordering (UCS) /Supplement 0 >>", 32,
     IObj (PDict [(bs "Registry", PString (bs "Adobe")); (bs "Ordering", PString (bs "UCS"));
                  (bs "Supplement", PInt 0)]));
    kw_piece "def" 10;
    name_piece "CMapName" 32; name_piece "Adobe-Identity-UCS" 32; kw_piece "def" 10;
    name_piece "CMapType" 32; int_piece 2 32; kw_piece "def" 10;
    int_piece 1 32; kw_piece "begincodespacerange" 10;
    hex_piece [0] 32; hex_piece [65535] 10; kw_piece "endcodespacerange" 10 ].

Definition good_piece (p : bytes * N * item) : Prop :=
  let '(t, ws, i) := p in lexes (t ++ [ws]) [i].

Lemma lexes_pieces : forall l, Forall good_piece l ->
  lexes (flat_map (fun p => fst (fst p) ++ [snd (fst p)]) l) (map snd l).
Proof.
  induction l as [|[[t w] i] l IH]; intro H; [apply lexes_nil|]. inversion H; subst.
  cbn [flat_map map fst snd]. change (i :: map snd l) with ([i] ++ map snd l). apply lexes_app; auto.
Qed.

Lemma good_kw : forall k ws, keyword (bs k) -> is_ws ws = true -> good_piece (kw_piece k ws).
Proof. intros. apply lexes_keyword; auto. Qed.
Lemma good_name : forall n ws, forallb (fun b => negb (b =? 35)) (bs n) = true -> is_ws ws = true ->
  good_piece (name_piece n ws).
Proof.
  intros n ws H Hw. apply (lexes_operand (OName (bs n)) ws); auto.
  apply no_hash_clean. intro X. rewrite forallb_forall in H. apply H in X. cbn in X. discriminate.
Qed.
Lemma good_int : forall n ws, is_ws ws = true -> good_piece (int_piece n ws).
Proof.
  intros n ws Hw. apply lexes_token; auto using itoa_regular, parse_itoa. apply itoa_spec.
Qed.
Lemma good_hex : forall us ws, Forall (fun u => u < 65536) us -> us <> [] -> is_ws ws = true ->
  good_piece (hex_piece us ws).
Proof.
  intros us ws H Hn Hw. pose proof (lexes_hex4s us ws H Hn Hw) as X.
  unfold good_piece, hex_piece. rewrite <- !app_assoc. exact X.
Qed.

Lemma good_prologue : Forall good_piece prologue_pieces.
Proof.
  unfold prologue_pieces.
  repeat (apply Forall_cons || apply Forall_nil);
    try (apply good_kw; [kw|reflexivity]);
    try (apply good_name; reflexivity); try (apply good_int; reflexivity);
    try (apply good_hex; [repeat constructor|discriminate|reflexivity]).
  apply lexes_one; [discriminate|reflexivity|reflexivity|]. intro rest. reflexivity.
Qed.

Definition prologue_items : list item := map snd prologue_pieces.
Lemma lexes_prologue : lexes cmap_prologue prologue_items.
Proof.
  replace cmap_prologue with (flat_map (fun p => fst (fst p) ++ [snd (fst p)]) prologue_pieces)
    by (vm_compute; reflexivity).
  apply lexes_pieces. apply good_prologue.
Qed.

Definition epilogue_items : list item :=
  match content_items cmap_epilogue with Some is => is | None => [] end.

Lemma read_epilogue : forall n, read_content (20 + n) cmap_epilogue = Some epilogue_items.
Proof. intro n. vm_compute. reflexivity. Qed.

Lemma to_unicode_items : forall pairs, Forall ok_pair pairs ->
  exists bl, content_items (to_unicode_cmap pairs) = Some (prologue_items ++ flat_map block_items bl ++ epilogue_items) /\ concat bl = pairs /\
    Forall (fun b => (1 <= length b <= 100)%nat) bl /\ Forall (Forall ok_pair) bl.
Proof.
  intros pairs H. destruct (bf_blocks_spec pairs) as (bl & E & C & B). exists bl.
  assert (Hok : Forall (Forall ok_pair) bl).
  { rewrite <- C in H. clear -H. induction bl as [|b bl IH]; constructor; cbn [concat] in H;
      apply Forall_app in H as [H1 H2]; auto. }
  split; [|auto].
  unfold to_unicode_cmap, content_items. rewrite E.
  pose proof (lexes_app _ _ _ _ lexes_prologue (lexes_blocks bl Hok)) as [L R].
  rewrite app_assoc. set (T := cmap_prologue ++ _) in *. set (IS := prologue_items ++ _) in *.
  assert (LE : (20 <= length cmap_epilogue)%nat) by (vm_compute; lia).
  replace (S (length (T ++ cmap_epilogue)))
    with (length IS + (20 + (S (length (T ++ cmap_epilogue)) - length IS - 20)))%nat
    by (rewrite app_length; lia).
  rewrite R, read_epilogue. cbn [prepend]. unfold IS. rewrite <- app_assoc. reflexivity.
Qed.
Lemma to_unicode_reads : forall pairs, Forall ok_pair pairs ->
  exists bl, read_to_unicode (to_unicode_cmap pairs) = Some bl /\ concat bl = pairs /\
    Forall (fun b => (1 <= length b <= 100)%nat) bl.
Proof.
  intros pairs H. destruct (to_unicode_items pairs H) as (bl & E & C & B & Hok). exists bl. split; [|auto].
  unfold read_to_unicode. rewrite E.
  change (bf_sections None [] (prologue_items ++ flat_map block_items bl ++ epilogue_items))
    with (bf_sections None [] (flat_map block_items bl ++ epilogue_items)).
  rewrite bf_sections_blocks; auto.
  - change (bf_sections None [] epilogue_items) with (Some (@nil (list (N * N)))).
    cbv iota. rewrite app_nil_r. auto.
  - eapply Forall_impl; [|exact B]. cbv beta. intros. lia.
Qed.
Lemma nested_lines : forall ps open r, well_nested open (flat_map line_items ps ++ r) = well_nested open r.
Proof. induction ps as [|p ps IH]; intros open r; [reflexivity|]. cbn [flat_map]. unfold line_items at 1. cbn [app well_nested]. apply IH. Qed.
Lemma nested_blocks : forall bl open r, well_nested (bs "cmap" :: open) (flat_map block_items bl ++ r) = well_nested (bs "cmap" :: open) r.
Proof.
  induction bl as [|b bl IH]; intros open r; [reflexivity|]. cbn [flat_map]. rewrite <- app_assoc. unfold block_items at 1.
  change (well_nested (bs "bfchar" :: bs "cmap" :: open) ((flat_map line_items b ++ [IOp (bs "endbfchar")]) ++ flat_map block_items bl ++ r) =
    well_nested (bs "cmap" :: open) r).
  rewrite <- app_assoc, nested_lines. exact (IH open r).
Qed.
Lemma to_unicode_nested : forall pairs, Forall ok_pair pairs ->
  exists is, content_items (to_unicode_cmap pairs) = Some is /\ well_nested [] is = true.
Proof.
  intros pairs H. destruct (to_unicode_items pairs H) as (bl & E & _). eexists. split; [exact E|].
  change (well_nested (bs "cmap" :: [[]; []]) (flat_map block_items bl ++ epilogue_items) = true). rewrite nested_blocks. reflexivity.
Qed.
