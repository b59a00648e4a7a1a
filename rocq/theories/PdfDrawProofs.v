(** Content streams: what the page's operations draw, and the ToUnicode CMap. *)
From Verif Require Import Base PdfObject PdfObjectSpec PdfObjectProofs PdfSyntax PdfSyntaxSpec
  PdfSyntaxProofs PdfConvert PdfConvertSpec PdfConvertProofs.
From Coq Require Import Qabs Qround Qpower Qfield Lqa.
Local Open Scope N_scope.

(** ** Lexing of generated text; [t] ends with white space *)
Definition prepend {A} (l : list A) (o : option (list A)) : option (list A) :=
  match o with Some r => Some (l ++ r) | None => None end.

Definition lexes (t : bytes) (is : list item) : Prop :=
  (length is <= length t)%nat /\
  forall n rest, read_content (length is + n) (t ++ rest) = prepend is (read_content n rest).

Lemma lexes_nil : lexes [] [].
Proof. split; auto. intros n rest. cbn. destruct (read_content n rest); auto. Qed.

Lemma lexes_app : forall t u is js, lexes t is -> lexes u js -> lexes (t ++ u) (is ++ js).
Proof.
  intros t u is js [L1 H1] [L2 H2]. split.
  - rewrite !app_length. lia.
  - intros n rest. rewrite <- app_assoc, app_length, <- Nat.add_assoc, H1, H2.
    destruct (read_content n rest); auto. cbn. rewrite app_assoc. auto.
Qed.

Lemma lexes_content : forall t is, lexes t is -> content_items t = Some is.
Proof.
  intros t is [L H]. unfold content_items. rewrite <- (app_nil_r t) at 2.
  replace (S (length t)) with (length is + S (length t - length is))%nat by lia.
  rewrite H. cbn. rewrite app_nil_r. auto.
Qed.

Lemma read_content_skip : forall n l l', skip_ws l = skip_ws l' -> read_content n l = read_content n l'.
Proof. intros [|n] l l' H; auto. cbn [read_content]. rewrite H. auto. Qed.

Lemma lexes_one : forall t i ws, t <> [] -> is_ws ws = true ->
  (forall rest, skip_ws (t ++ ws :: rest) = t ++ ws :: rest) ->
  (forall rest, read_item (t ++ ws :: rest) = Some (i, ws :: rest)) ->
  lexes (t ++ [ws]) [i].
Proof.
  intros t i ws Ht Hw H1 H2. split.
  - rewrite app_length. cbn. lia.
  - intros n rest. rewrite <- app_assoc. cbn [app length Nat.add read_content].
    rewrite H1. specialize (H2 rest). destruct (t ++ ws :: rest) as [|b r] eqn:E.
    + destruct t; discriminate.
    + rewrite H2. rewrite (read_content_skip n (ws :: rest) rest).
      * destruct (read_content n rest); auto.
      * unfold skip_ws. cbn [skip_ws_or_comment]. rewrite Hw. auto.
Qed.

Lemma read_item_token : forall t rest, Forall (fun b => is_regular b = true) t -> t <> [] ->
  safe_head rest ->
  read_item (t ++ rest) =
  match parse_number t with
  | Some v => Some (IObj v, rest)
  | None => if bytes_eqb t (bs "true") then Some (IObj (PBool true), rest)
            else if bytes_eqb t (bs "false") then Some (IObj (PBool false), rest)
            else if bytes_eqb t (bs "null") then Some (IObj PNull, rest)
            else Some (IOp t, rest)
  end.
Proof.
  intros t rest Ht Hn Hs. unfold read_item.
  rewrite (span_regular_app t rest Ht Hs).
  destruct t as [|b t]; [congruence|]. inversion Ht; subst. cbn [app]. rewrite H1. auto.
Qed.

Lemma regular_no_ws : forall b, is_regular b = true -> is_ws b = false /\ b <> 37.
Proof.
  intros b H. split.
  - unfold is_regular in H. destruct (is_ws b); auto; discriminate.
  - intros ->. discriminate.
Qed.

Lemma skip_token : forall t rest, Forall (fun b => is_regular b = true) t -> t <> [] ->
  skip_ws (t ++ rest) = t ++ rest.
Proof.
  intros t rest Ht Hn. destruct t as [|b t]; [congruence|]. inversion Ht; subst.
  cbn [app]. destruct (regular_no_ws b H1). apply skip_ws_nonws; auto.
Qed.

Lemma ws_safe : forall ws rest, is_ws ws = true -> safe_head (ws :: rest).
Proof. intros ws rest H. cbn. unfold is_regular. rewrite H. auto. Qed.

Lemma lexes_token : forall t ws v, Forall (fun b => is_regular b = true) t -> t <> [] ->
  is_ws ws = true -> parse_number t = Some v -> lexes (t ++ [ws]) [IObj v].
Proof.
  intros t ws v Ht Hn Hw Hp. apply lexes_one; auto.
  - intro rest. apply skip_token; auto.
  - intro rest. rewrite read_item_token by (auto using ws_safe). rewrite Hp. auto.
Qed.

Definition keyword (k : bytes) : Prop :=
  forallb is_regular k = true /\ k <> [] /\ parse_number k = None /\
  bytes_eqb k (bs "true") = false /\ bytes_eqb k (bs "false") = false /\ bytes_eqb k (bs "null") = false.

Lemma lexes_keyword : forall k ws, keyword k -> is_ws ws = true -> lexes (k ++ [ws]) [IOp k].
Proof.
  intros k ws (H1 & H2 & H3 & H4 & H5 & H6) Hw.
  assert (R : Forall (fun b => is_regular b = true) k).
  { apply Forall_forall. rewrite forallb_forall in H1. auto. }
  apply lexes_one; auto.
  - intro rest. apply skip_token; auto.
  - intro rest. rewrite read_item_token by (auto using ws_safe). rewrite H3, H4, H5, H6. auto.
Qed.

(** Operands used in content streams *)
Definition operand (o : obj) : Prop :=
  match o with
  | OI32 _ => True
  | OFloat d => clean (OFloat d)
  | OName n => clean_name n
  | OHexString s => wf_bytes s
  | _ => False
  end.

Lemma itoa_Z_nonempty : forall z, itoa_Z z <> [].
Proof.
  intro z. unfold itoa_Z. destruct (z <? 0)%Z; [discriminate|]. apply itoa_spec.
Qed.

Lemma read_item_delim : forall l b r, l = b :: r -> is_regular b = false ->
  read_item l = match read_object l with Some (v, r') => Some (IObj v, r') | None => None end.
Proof. intros l b r -> H. unfold read_item. rewrite H. auto. Qed.

Lemma lexes_operand : forall o ws, operand o -> is_ws ws = true ->
  lexes (write_obj o ++ [ws]) [IObj (meaning o)].
Proof.
  intros o ws H Hw. destruct o; try contradiction; cbn [write_obj meaning].
  - apply lexes_token; auto using itoa_Z_regular, itoa_Z_nonempty, parse_itoa_Z.
  - destruct H as [H1 H2]. apply lexes_token; auto using dtoa_regular, parse_dtoa.
    destruct (dtoa_head d H1) as (b & r & -> & _). discriminate.
  - destruct H as [H1 H2]. apply lexes_one; [|exact Hw| |].
    + rewrite write_name_unfold. discriminate.
    + intro rest. rewrite write_name_unfold. apply skip_ws_nonws; [reflexivity|discriminate].
    + intro rest. rewrite (read_item_delim _ 47 (enc_name b ++ ws :: rest)) by reflexivity.
      unfold read_object. rewrite read_written_name by (auto using ws_safe).
      rewrite unescape_id by auto. auto.
  - apply lexes_one; [|exact Hw| |].
    + discriminate.
    + intro rest. unfold write_hex_string. change (bs "<") with [60]. cbn [app].
      apply skip_ws_nonws; [reflexivity|discriminate].
    + intro rest. rewrite (read_item_delim _ 60 (flat_map write_hex b ++ bs ">" ++ ws :: rest)).
      * pose proof (hex_round_trip b (ws :: rest) H) as R. cbn [write_obj] in R. rewrite R. auto.
      * unfold write_hex_string. rewrite <- !app_assoc. reflexivity.
      * reflexivity.
Qed.

Lemma lexes_operands : forall l, Forall operand l ->
  lexes (flat_map (fun o => write_obj o ++ [32]) l) (map (fun o => IObj (meaning o)) l).
Proof.
  induction l as [|o l IH]; intro H; [apply lexes_nil|]. inversion H; subst.
  cbn [flat_map map]. change (IObj (meaning o) :: ?x) with ([IObj (meaning o)] ++ x).
  apply lexes_app; auto. apply lexes_operand; auto.
Qed.

Lemma lexes_op_text : forall name l, keyword (bs name) -> Forall operand l ->
  lexes (op_text name l) (map (fun o => IObj (meaning o)) l ++ [IOp (bs name)]).
Proof.
  intros name l Hk Hl. unfold op_text. apply lexes_app; [apply lexes_operands; auto|].
  apply lexes_keyword; auto.
Qed.

(** ** Interpreting generated text *)
Definition draws (rs : resources) (g : gstate) (t : bytes) (g' : gstate) (ms : list mark) : Prop :=
  exists is, lexes t is /\ forall r, interpret rs g [] (is ++ r) =
    match interpret rs g' [] r with Some (g2, more) => Some (g2, ms ++ more) | None => None end.

Lemma draws_nil : forall rs g, draws rs g [] g [].
Proof.
  intros rs g. exists []. split; [apply lexes_nil|]. intro r. cbn [app].
  destruct (interpret rs g [] r) as [[]|]; auto.
Qed.

Lemma draws_app : forall rs g1 g2 g3 t u ms ns, draws rs g1 t g2 ms -> draws rs g2 u g3 ns ->
  draws rs g1 (t ++ u) g3 (ms ++ ns).
Proof.
  intros rs g1 g2 g3 t u ms ns (is & L1 & H1) (js & L2 & H2). exists (is ++ js).
  split; [apply lexes_app; auto|]. intro r. rewrite <- app_assoc, H1, H2.
  destruct (interpret rs g3 [] r) as [[]|]; auto. rewrite app_assoc. auto.
Qed.

Lemma interpret_operands : forall rs g l acc r,
  interpret rs g acc (map (fun o => IObj (meaning o)) l ++ r) = interpret rs g (acc ++ map meaning l) r.
Proof.
  induction l as [|o l IH]; intros acc r; cbn [map app interpret].
  - rewrite app_nil_r. auto.
  - rewrite IH, <- app_assoc. auto.
Qed.

Lemma draws_op : forall rs g name l g' ms, keyword (bs name) -> Forall operand l ->
  operate rs g (bs name) (map meaning l) = Some (g', ms) -> draws rs g (op_text name l) g' ms.
Proof.
  intros rs g name l g' ms Hk Hl Ho. eexists. split; [apply lexes_op_text; auto|].
  intro r. rewrite <- app_assoc, interpret_operands. cbn [app interpret]. rewrite Ho. auto.
Qed.

Lemma draws_paint : forall rs t g ms, draws rs g_initial t g ms -> g_in_text g = false ->
  paint rs t = Some ms.
Proof.
  intros rs t g ms (is & L & H) Hg. unfold paint. rewrite (lexes_content t is L).
  specialize (H []). rewrite app_nil_r in H. rewrite H. cbn [interpret]. rewrite Hg, app_nil_r. auto.
Qed.

Ltac kw := repeat split; try reflexivity; discriminate.
Lemma kw_cm : keyword (bs "cm"). Proof. kw. Qed.
Lemma kw_rg : keyword (bs "rg"). Proof. kw. Qed.
Lemma kw_gs : keyword (bs "gs"). Proof. kw. Qed.
Lemma kw_re : keyword (bs "re"). Proof. kw. Qed.
Lemma kw_f : keyword (bs "f"). Proof. kw. Qed.
Lemma kw_BT : keyword (bs "BT"). Proof. kw. Qed.
Lemma kw_ET : keyword (bs "ET"). Proof. kw. Qed.
Lemma kw_Tf : keyword (bs "Tf"). Proof. kw. Qed.
Lemma kw_Tm : keyword (bs "Tm"). Proof. kw. Qed.
Lemma kw_Tj : keyword (bs "Tj"). Proof. kw. Qed.

(** ** The page's transformation *)
Definition flip : matrix := mkM (3 # 4) 0 0 (- 3 # 4) 0 0.

Lemma flip_point : forall x y, apply flip (x, y) = (Qred (pt x), Qred (- pt y)).
Proof.
  intros x y. unfold apply, flip, pt. cbn [ma mb mc md me mf fst snd].
  f_equal; apply Qred_complete; ring.
Qed.

Lemma draws_cm : forall rs,
  draws rs g_initial (op_text "cm" [OFloat SCALE_X; OI32 0; OI32 0; OFloat SCALE_Y; OI32 0; OI32 0])
        (mkG flip (0, 0, 0)%Q 1 None false None []) [].
Proof.
  intro rs. apply draws_op; [apply kw_cm| |reflexivity].
  assert (wf_dec SCALE_X /\ plain_dec SCALE_X).
  { split; [split; [repeat constructor|discriminate]|right; cbn; lia]. }
  repeat (apply Forall_cons || apply Forall_nil); first [exact I | exact H].
Qed.
