(** Proofs about the PDF object serialiser (C01-C04). *)
From Verif Require Import Base PdfObject PdfObjectSpec.
From Coq Require Import ZifyBool ZifyN ZifyNat Wf_nat Qpower Qabs.
Local Open Scope N_scope.

(** ** Induction over objects *)
Section ObjInd.
  Variable P : obj -> Prop.
  Variable Q : dictionary -> Prop.
  Hypothesis HUsize : forall n, P (OUsize n).
  Hypothesis HI32 : forall z, P (OI32 z).
  Hypothesis HFloat : forall d, P (OFloat d).
  Hypothesis HName : forall b, P (OName b).
  Hypothesis HLit : forall b, P (OLiteralString b).
  Hypothesis HHex : forall b, P (OHexString b).
  Hypothesis HArr : forall l, Forall P l -> P (OArray l).
  Hypothesis HDict : forall d, Q d -> P (ODictionary d).
  Hypothesis HRef : forall i, P (OReference i).
  Hypothesis HAlpha : forall d, P (OGraphicsStateDictionaryAlpha d).
  Hypothesis HOwned : forall l, Forall (fun kv => P (snd kv)) l -> P (ODictionaryWithOwnedKeys l).
  Hypothesis HNone : forall l, Forall (fun kv => P (snd kv)) l -> Q (Dictionary None l).
  Hypothesis HSome : forall p l, Q p -> Forall (fun kv => P (snd kv)) l -> Q (Dictionary (Some p) l).

  Fixpoint obj_ind2 (o : obj) : P o :=
    match o with
    | OUsize n => HUsize n
    | OI32 z => HI32 z
    | OFloat d => HFloat d
    | OName b => HName b
    | OLiteralString b => HLit b
    | OHexString b => HHex b
    | OArray l => HArr l ((fix go l : Forall P l :=
                             match l with
                             | [] => Forall_nil _
                             | x :: r => Forall_cons _ (obj_ind2 x) (go r)
                             end) l)
    | ODictionary d => HDict d (dict_ind2 d)
    | OReference i => HRef i
    | OGraphicsStateDictionaryAlpha d => HAlpha d
    | ODictionaryWithOwnedKeys l =>
        HOwned l ((fix go l : Forall (fun kv => P (snd kv)) l :=
                     match l with
                     | [] => Forall_nil _
                     | x :: r => Forall_cons _ (obj_ind2 (snd x)) (go r)
                     end) l)
    end
  with dict_ind2 (d : dictionary) : Q d :=
    match d with
    | Dictionary None l =>
        HNone l ((fix go l : Forall (fun kv => P (snd kv)) l :=
                    match l with
                    | [] => Forall_nil _
                    | x :: r => Forall_cons _ (obj_ind2 (snd x)) (go r)
                    end) l)
    | Dictionary (Some p) l =>
        HSome p l (dict_ind2 p)
              ((fix go l : Forall (fun kv => P (snd kv)) l :=
                  match l with
                  | [] => Forall_nil _
                  | x :: r => Forall_cons _ (obj_ind2 (snd x)) (go r)
                  end) l)
    end.
End ObjInd.

(** ** Character classes *)
Lemma kind_iso : forall b, wf_byte b ->
  kind b = if is_ws b then Whitespace else if is_delim b then Delimiter else Regular.
Proof.
  intros b Hb.
  assert (H : forall_below 256 (fun b =>
    match kind b, (if is_ws b then Whitespace else if is_delim b then Delimiter else Regular) with
    | Whitespace, Whitespace | Delimiter, Delimiter | Regular, Regular => true
    | _, _ => false end) = true) by (vm_compute; reflexivity).
  pose proof (all_bytes _ H b Hb) as E. cbv beta in E. clear H.
  destruct (kind b), (if is_ws b then _ else _); congruence.
Qed.

Lemma kind_regular : forall b, wf_byte b -> (kind b = Regular <-> is_regular b = true).
Proof.
  intros b Hb. rewrite (kind_iso b Hb). unfold is_regular.
  destruct (is_ws b), (is_delim b); cbn; split; congruence.
Qed.

Lemma write_hex_spec : forall b, wf_byte b ->
  exists h1 h2 v1 v2, write_hex b = [h1; h2] /\ hex_val h1 = Some v1 /\ hex_val h2 = Some v2 /\
    v1 * 16 + v2 = b /\ is_regular h1 = true /\ is_regular h2 = true /\
    h1 <> 62 /\ h2 <> 62 /\ is_ws h1 = false /\ is_ws h2 = false /\ h1 <> 60.
Proof.
  intros b Hb.
  assert (H : forall_below 256 (fun b =>
    match write_hex b with
    | [h1; h2] => match hex_val h1, hex_val h2 with
                  | Some v1, Some v2 => (v1 * 16 + v2 =? b) && is_regular h1 && is_regular h2
                                        && negb (h1 =? 62) && negb (h2 =? 62)
                                        && negb (is_ws h1) && negb (is_ws h2) && negb (h1 =? 60)
                  | _, _ => false end
    | _ => false end) = true) by (vm_compute; reflexivity).
  pose proof (all_bytes _ H b Hb) as E. cbv beta in E. clear H.
  destruct (write_hex b) as [|h1 [|h2 [|]]]; try discriminate.
  destruct (hex_val h1) as [v1|] eqn:E1; try discriminate.
  destruct (hex_val h2) as [v2|] eqn:E2; try discriminate.
  repeat (apply andb_true_iff in E as [E ?]).
  exists h1, h2, v1, v2. repeat split; auto; try lia.
  all: repeat match goal with H : negb _ = true |- _ => apply negb_true_iff in H end; auto.
Qed.

Lemma hex_regular : forall b v, hex_val b = Some v -> is_regular b = true /\ wf_byte b.
Proof.
  intros b v H. unfold hex_val, is_digit in H.
  assert (wf_byte b) as Hb.
  { unfold wf_byte. destruct ((48 <=? b) && (b <=? 57)) eqn:?; [lia|].
    destruct ((65 <=? b) && (b <=? 70)) eqn:?; [lia|].
    destruct ((97 <=? b) && (b <=? 102)) eqn:?; [lia|discriminate]. }
  split; auto.
  assert (E : forall_below 256 (fun b => match hex_val b with Some _ => is_regular b | None => true end) = true)
    by (vm_compute; reflexivity).
  pose proof (all_bytes _ E b Hb) as E'. cbv beta in E'. clear E.
  unfold hex_val, is_digit in E'. rewrite H in E'. auto.
Qed.

(** ** Spans *)
Lemma span_regular_app : forall t rest,
  Forall (fun b => is_regular b = true) t ->
  match rest with [] => True | b :: _ => is_regular b = false end ->
  span_regular (t ++ rest) = (t, rest).
Proof.
  induction t as [|b t IH]; intros rest Ht Hr; cbn.
  - destruct rest as [|b r]; cbn; auto. rewrite Hr. auto.
  - inversion Ht; subst. rewrite H1. rewrite IH; auto.
Qed.

Lemma skip_ws_nonws : forall b l, is_ws b = false -> b <> 37 -> skip_ws (b :: l) = b :: l.
Proof.
  intros b l H1 H2. unfold skip_ws. cbn [skip_ws_or_comment]. rewrite H1.
  destruct (b =? 37) eqn:E; auto. apply N.eqb_eq in E. congruence.
Qed.

Lemma skip_ws_space : forall l, skip_ws (32 :: l) = skip_ws l.
Proof. reflexivity. Qed.

(** ** Names (C02) *)
Definition enc_name (n : bytes) : bytes := flat_map write_name_byte n.

Lemma unescape_other : forall b r, b <> 35 -> unescape_name (b :: r) = b :: unescape_name r.
Proof.
  intros b r Hb. apply N.eqb_neq in Hb. cbn.
  destruct r as [|h1 [|h2 r']]; auto. rewrite Hb. auto.
Qed.

Lemma unescape_nonhex1 : forall h r, hex_val h = None ->
  unescape_name (35 :: h :: r) = 35 :: unescape_name (h :: r).
Proof.
  intros h r Hh. destruct r as [|h2 r]; auto.
  change (unescape_name (35 :: h :: h2 :: r)) with
    (match hex_val h, hex_val h2 with
     | Some v1, Some v2 => (v1 * 16 + v2) :: unescape_name r
     | _, _ => 35 :: unescape_name (h :: h2 :: r)
     end).
  rewrite Hh. auto.
Qed.

Lemma unescape_nonhex2 : forall h1 h2 r, hex_val h2 = None ->
  unescape_name (35 :: h1 :: h2 :: r) = 35 :: unescape_name (h1 :: h2 :: r).
Proof.
  intros h1 h2 r Hh.
  change (unescape_name (35 :: h1 :: h2 :: r)) with
    (match hex_val h1, hex_val h2 with
     | Some v1, Some v2 => (v1 * 16 + v2) :: unescape_name r
     | _, _ => 35 :: unescape_name (h1 :: h2 :: r)
     end).
  rewrite Hh. destruct (hex_val h1); auto.
Qed.

Lemma unescape_hex : forall h1 h2 v1 v2 r, hex_val h1 = Some v1 -> hex_val h2 = Some v2 ->
  unescape_name (35 :: h1 :: h2 :: r) = (v1 * 16 + v2) :: unescape_name r.
Proof. intros. cbn [unescape_name]. change (35 =? 35) with true. cbn. rewrite H, H0. auto. Qed.

Lemma enc_name_cons : forall b n, enc_name (b :: n) = write_name_byte b ++ enc_name n.
Proof. reflexivity. Qed.

Lemma write_name_byte_regular : forall b, kind b = Regular -> write_name_byte b = [b].
Proof. intros b H. unfold write_name_byte. rewrite H. auto. Qed.

Lemma write_name_byte_special : forall b, kind b <> Regular -> write_name_byte b = 35 :: write_hex b.
Proof. intros b H. unfold write_name_byte. destruct (kind b); auto; congruence. Qed.

Lemma char_kind_dec : forall a b : char_kind, {a = b} + {a <> b}.
Proof. decide equality. Qed.

Lemma kind35 : kind 35 = Regular.
Proof. reflexivity. Qed.

(** The first byte of an encoded byte is hexadecimal only if the byte is. *)
Lemma enc_head : forall b r, wf_byte b -> exists c t, enc_name (b :: r) = c :: t /\
  (hex_val b = None -> hex_val c = None) /\
  (forall v, hex_val b = Some v -> c = b /\ t = enc_name r).
Proof.
  intros b r Hb. rewrite enc_name_cons.
  destruct (char_kind_dec (kind b) Regular) as [K|K].
  - rewrite write_name_byte_regular by auto. exists b, (enc_name r). repeat split; auto.
  - rewrite write_name_byte_special by auto. exists 35. eexists. split; [reflexivity|]. split.
    + reflexivity.
    + intros v Hv. apply hex_regular in Hv as [Hv _]. apply kind_regular in Hv; auto. congruence.
Qed.

Lemma unescape_enc : forall n, wf_bytes n -> unescape_name (enc_name n) = unescape_name n.
Proof.
  intro n. remember (length n) as k eqn:Hk. revert n Hk.
  induction k as [k IH] using lt_wf_ind. intros n Hk Hn.
  destruct n as [|b r]; auto. inversion Hn; subst.
  destruct (char_kind_dec (kind b) Regular) as [K|K].
  - destruct (N.eq_dec b 35) as [->|Hb].
    + rewrite enc_name_cons, write_name_byte_regular by auto. cbn [app].
      destruct r as [|h1 r1]; auto. inversion H2; subst.
      destruct (enc_head h1 r1 H3) as (c1 & t1 & E1 & A1 & B1).
      destruct (hex_val h1) as [v1|] eqn:Hh1.
      * destruct (B1 v1 eq_refl) as [-> ->]. rewrite E1.
        destruct r1 as [|h2 r2]. { cbn. auto. }
        inversion H4; subst.
        destruct (enc_head h2 r2 H5) as (c2 & t2 & E2 & A2 & B2).
        destruct (hex_val h2) as [v2|] eqn:Hh2.
        -- destruct (B2 v2 eq_refl) as [-> ->]. rewrite E2.
           rewrite !(unescape_hex _ _ v1 v2) by auto. f_equal.
           eapply IH; [|reflexivity|auto]. cbn. lia.
        -- rewrite E2, unescape_nonhex2 by auto. rewrite unescape_nonhex2 by auto.
           f_equal. rewrite <- E2, <- E1. eapply IH; [|reflexivity|auto]. cbn; lia.
      * rewrite E1, unescape_nonhex1 by auto. rewrite unescape_nonhex1 by auto.
        f_equal. rewrite <- E1. eapply IH; [|reflexivity|auto]. cbn; lia.
    + rewrite enc_name_cons, write_name_byte_regular by auto. cbn [app].
      rewrite !unescape_other by auto. f_equal. eapply IH; [|reflexivity|auto]. cbn; lia.
  - rewrite enc_name_cons, write_name_byte_special by auto.
    destruct (write_hex_spec b H1) as (h1 & h2 & v1 & v2 & E & E1 & E2 & E3 & _).
    rewrite E. cbn [app]. rewrite (unescape_hex _ _ v1 v2) by auto.
    assert (b <> 35) by (intros ->; apply K; reflexivity).
    rewrite unescape_other by auto. rewrite E3. f_equal.
    eapply IH; [|reflexivity|auto]. cbn; lia.
Qed.

Lemma unescape_length_le : forall k n, (length n <= k)%nat -> (length (unescape_name n) <= length n)%nat.
Proof.
  induction k as [|k IH]; intros n Hn.
  - destruct n; cbn in *; lia.
  - destruct n as [|b r]; [cbn; lia|].
    assert (H : (length (b :: unescape_name r) <= length (b :: r))%nat).
    { cbn [length] in *. specialize (IH r). lia. }
    destruct (N.eq_dec b 35) as [->|Hb]; [|rewrite unescape_other; auto].
    destruct r as [|h1 [|h2 r']]; try (cbn; lia).
    destruct (hex_val h1) as [v1|] eqn:E1; [|rewrite unescape_nonhex1; auto].
    destruct (hex_val h2) as [v2|] eqn:E2; [|rewrite unescape_nonhex2; auto].
    rewrite (unescape_hex _ _ v1 v2) by auto.
    cbn [length] in *. specialize (IH r'). lia.
Qed.

Lemma unescape_id : forall n, ~ has_hash_escape n -> unescape_name n = n.
Proof.
  induction n as [|b r IH]; intros H; auto.
  assert (Hr : ~ has_hash_escape r).
  { intros (a & h1 & h2 & c & E & X). apply H. exists (b :: a), h1, h2, c. rewrite E. auto. }
  destruct (N.eq_dec b 35) as [->|Hb].
  - destruct r as [|h1 [|h2 r']]; [reflexivity|reflexivity|].
    + destruct (hex_val h1) as [v1|] eqn:E1.
      * destruct (hex_val h2) as [v2|] eqn:E2.
        -- exfalso. apply H. exists [], h1, h2, r'. repeat split; congruence.
        -- rewrite unescape_nonhex2 by auto. f_equal. auto.
      * rewrite unescape_nonhex1 by auto. f_equal; auto.
  - rewrite unescape_other by auto. f_equal; auto.
Qed.

Lemma unescape_shrinks : forall n, has_hash_escape n -> (length (unescape_name n) < length n)%nat.
Proof.
  intros n (a & h1 & h2 & b & -> & H1 & H2).
  remember (length a) as k eqn:Hk. revert a Hk.
  induction k as [k IH] using lt_wf_ind. intros a Hk.
  destruct (hex_val h1) as [v1|] eqn:E1; [|congruence].
  destruct (hex_val h2) as [v2|] eqn:E2; [|congruence].
  destruct a as [|c a].
  - cbn [app]. rewrite (unescape_hex _ _ v1 v2) by auto.
    pose proof (unescape_length_le _ b (le_n _)). cbn. lia.
  - assert (Hstep : unescape_name ((c :: a) ++ 35 :: h1 :: h2 :: b) =
                    c :: unescape_name (a ++ 35 :: h1 :: h2 :: b) ->
      (length (unescape_name ((c :: a) ++ 35%N :: h1 :: h2 :: b)) < length ((c :: a) ++ 35%N :: h1 :: h2 :: b))%nat).
    { intros ->. cbn [length app]. apply -> Nat.succ_lt_mono. eapply IH; [|reflexivity]. cbn in Hk; lia. }
    destruct (N.eq_dec c 35) as [->|Hc].
    2:{ apply Hstep. cbn [app]. apply unescape_other; auto. }
    destruct a as [|c1 a].
    { apply Hstep. cbn [app]. apply unescape_nonhex1. reflexivity. }
    destruct (hex_val c1) as [w1|] eqn:F1.
    2:{ apply Hstep. cbn [app]. apply unescape_nonhex1. auto. }
    destruct a as [|c2 a].
    { apply Hstep. cbn [app]. apply unescape_nonhex2. reflexivity. }
    destruct (hex_val c2) as [w2|] eqn:F2.
    2:{ apply Hstep. cbn [app]. apply unescape_nonhex2. auto. }
    cbn [app]. rewrite (unescape_hex _ _ w1 w2) by auto.
    cbn [length]. pose proof (unescape_length_le _ (a ++ 35 :: h1 :: h2 :: b) (le_n _)). lia.
Qed.

Lemma enc_name_regular : forall n, wf_bytes n -> Forall (fun b => is_regular b = true) (enc_name n).
Proof.
  induction n as [|b r IH]; intros Hn; [constructor|].
  inversion Hn; subst. rewrite enc_name_cons. apply Forall_app. split; auto.
  destruct (char_kind_dec (kind b) Regular) as [K|K].
  - rewrite write_name_byte_regular by auto. constructor; auto. apply kind_regular; auto.
  - rewrite write_name_byte_special by auto.
    destruct (write_hex_spec b H1) as (h1 & h2 & v1 & v2 & E & E1 & E2 & E3 & R1 & R2 & _).
    rewrite E. repeat constructor; auto.
Qed.

Definition safe_head (rest : bytes) : Prop :=
  match rest with [] => True | b :: _ => is_regular b = false end.

Lemma write_name_unfold : forall n, write_name n = 47 :: enc_name n.
Proof. reflexivity. Qed.

Lemma read_written_name : forall f n rest, wf_bytes n -> safe_head rest ->
  read_obj (S f) (write_name n ++ rest) = Some (PName (unescape_name n), rest).
Proof.
  intros f n rest Hn Hr. rewrite write_name_unfold.
  cbn [app]. cbn [read_obj]. rewrite skip_ws_nonws by (reflexivity || discriminate).
  change (47 =? 47) with true. cbn iota.
  rewrite span_regular_app by (auto using enc_name_regular).
  rewrite unescape_enc by auto. reflexivity.
Qed.

Lemma name_round_trip_iff : forall n rest, wf_bytes n -> safe_head rest ->
  (read_object (write_name n ++ rest) = Some (PName n, rest) <-> ~ has_hash_escape n).
Proof.
  intros n rest Hn Hr. unfold read_object. rewrite read_written_name by auto. split.
  - intros E H. injection E as E. pose proof (unescape_shrinks _ H). rewrite E in *. lia.
  - intro H. rewrite unescape_id by auto. auto.
Qed.

(** ** Literal and hexadecimal strings (C03) *)
Lemma read_literal_plain : forall b r d, b <> 41 -> b <> 40 -> b <> 92 -> b <> 13 ->
  read_literal d (b :: r) = cons_fst b (read_literal d r).
Proof.
  intros b r d H1 H2 H3 H4. apply N.eqb_neq in H1, H2, H3, H4.
  cbn [read_literal]. rewrite H1, H2, H3, H4. auto.
Qed.

Lemma read_literal_escaped : forall b r d, b = 92 \/ b = 40 \/ b = 41 ->
  read_literal d (92 :: b :: r) = cons_fst b (read_literal d r).
Proof. intros b r d [-> | [-> | ->]]; reflexivity. Qed.

Lemma read_literal_cr : forall c t d, c <> 10 ->
  read_literal d (13 :: c :: t) = cons_fst 10 (read_literal d (c :: t)).
Proof.
  intros c t d H. apply N.eqb_neq in H.
  transitivity (if c =? 10 then cons_fst 10 (read_literal d t) else cons_fst 10 (read_literal d (c :: t)));
    [reflexivity | rewrite H; reflexivity].
Qed.

Lemma read_literal_crlf : forall t d,
  read_literal d (13 :: 10 :: t) = cons_fst 10 (read_literal d t).
Proof. reflexivity. Qed.

Lemma write_literal_byte_cases : forall b,
  (write_literal_byte b = [92; b] /\ (b = 92 \/ b = 40 \/ b = 41)) \/
  (write_literal_byte b = [b] /\ b <> 92 /\ b <> 40 /\ b <> 41).
Proof.
  intro b. unfold write_literal_byte.
  destruct ((b =? 92) || (b =? 40) || (b =? 41)) eqn:E; [left|right]; split; auto; lia.
Qed.

Lemma read_written_literal : forall s rest,
  read_literal 0 (flat_map write_literal_byte s ++ 41 :: rest) = Some (normalize_eol s, rest).
Proof.
  intro s. remember (length s) as k eqn:Hk. revert s Hk.
  induction k as [k IH] using lt_wf_ind. intros s Hk rest.
  destruct s as [|b r]; [reflexivity|].
  cbn [flat_map]. rewrite <- app_assoc.
  destruct (write_literal_byte_cases b) as [[E Hb]|[E (H1 & H2 & H3)]]; rewrite E; clear E.
  - cbn [app]. rewrite read_literal_escaped by auto.
    rewrite (IH (length r)) by (subst; cbn; lia || auto).
    cbn [normalize_eol]. destruct (b =? 13) eqn:E; [lia|]. auto.
  - cbn [app]. destruct (N.eq_dec b 13) as [->|Hb].
    + cbn [normalize_eol]. change (13 =? 13) with true. cbn iota.
      assert (Hgen : forall c t, flat_map write_literal_byte r ++ 41 :: rest = c :: t -> c <> 10 ->
        read_literal 0 (13 :: flat_map write_literal_byte r ++ 41 :: rest) =
        Some (10 :: normalize_eol r, rest)).
      { intros c t E Hc. rewrite E, read_literal_cr by auto. rewrite <- E.
        rewrite (IH (length r)) by (subst; cbn; lia || auto). auto. }
      destruct r as [|c r'].
      * apply (Hgen 41 rest); [reflexivity|discriminate].
      * destruct (N.eq_dec c 10) as [->|Hc].
        -- change (10 =? 10) with true. cbn iota.
           change (flat_map write_literal_byte (10 :: r')) with (10 :: flat_map write_literal_byte r').
           cbn [app]. rewrite read_literal_crlf.
           rewrite (IH (length r')) by (subst; cbn; lia || auto). auto.
        -- apply N.eqb_neq in Hc as Hc'. rewrite Hc'.
           cbn [flat_map] in Hgen |- *.
           destruct (write_literal_byte_cases c) as [[E Hx]|[E Hx]]; rewrite E in *; cbn [app] in *.
           ++ eapply Hgen; [reflexivity|discriminate].
           ++ eapply Hgen; [reflexivity|auto].
    + rewrite read_literal_plain by auto.
      rewrite (IH (length r)) by (subst; cbn; lia || auto).
      cbn [normalize_eol]. apply N.eqb_neq in Hb. rewrite Hb. auto.
Qed.

Lemma normalize_eol_id : forall s, ~ In 13 s -> normalize_eol s = s.
Proof.
  induction s as [|b r IH]; intro H; auto. cbn.
  destruct (b =? 13) eqn:E.
  - exfalso. apply H. left. lia.
  - f_equal. apply IH. intro. apply H. right; auto.
Qed.

Lemma normalize_eol_no_cr : forall s, ~ In 13 (normalize_eol s).
Proof.
  intro s. remember (length s) as k eqn:Hk. revert s Hk.
  induction k as [k IH] using lt_wf_ind. intros s Hk.
  destruct s as [|b r]; [auto|]. cbn [normalize_eol].
  assert (Hr : ~ In 13 (normalize_eol r)) by (eapply IH; [|reflexivity]; subst; cbn; lia).
  destruct (b =? 13) eqn:E.
  - destruct r as [|c r']; [cbn; lia|].
    destruct (c =? 10); intros [H|H]; try lia; [|auto].
    eapply IH; [|reflexivity|exact H]. subst; cbn; lia.
  - intros [H|H]; auto. lia.
Qed.

Lemma literal_round_trip_iff : forall s rest,
  read_object (write_literal s ++ rest) = Some (PString (normalize_eol s), rest) /\
  (read_object (write_literal s ++ rest) = Some (PString s, rest) <-> ~ In 13 s).
Proof.
  intros s rest.
  assert (E : read_object (write_literal s ++ rest) = Some (PString (normalize_eol s), rest)).
  { unfold read_object, write_literal. cbn [bs]. change (bs "(") with [40]. change (bs ")") with [41].
    rewrite <- !app_assoc. cbn [app read_obj].
    rewrite skip_ws_nonws by (reflexivity || discriminate).
    change (40 =? 47) with false. change (40 =? 40) with true. cbn iota.
    rewrite read_written_literal. auto. }
  split; auto. rewrite E. split.
  - intros H. injection H as H. rewrite <- H. apply normalize_eol_no_cr.
  - intro H. rewrite normalize_eol_id; auto.
Qed.

Lemma read_written_hex : forall s rest, wf_bytes s ->
  read_hex_string None (flat_map write_hex s ++ 62 :: rest) = Some (s, rest).
Proof.
  induction s as [|b r IH]; intros rest Hs; [reflexivity|].
  inversion Hs; subst. cbn [flat_map]. rewrite <- app_assoc.
  destruct (write_hex_spec b H1) as (h1 & h2 & v1 & v2 & E & E1 & E2 & E3 & R1 & R2 & N1 & N2 & W1 & W2 & _).
  rewrite E. cbn [app read_hex_string].
  apply N.eqb_neq in N1, N2. rewrite N1, W1, E1, N2, W2, E2, IH by auto. rewrite E3. reflexivity.
Qed.

Lemma hex_head : forall s rest, wf_bytes s ->
  exists c t, flat_map write_hex s ++ 62 :: rest = c :: t /\ c <> 60.
Proof.
  intros s rest Hs. destruct s as [|b r].
  - exists 62, rest. split; [auto|discriminate].
  - inversion Hs; subst.
    destruct (write_hex_spec b H1) as (h1 & h2 & v1 & v2 & E & _ & _ & _ & _ & _ & _ & _ & _ & _ & N).
    cbn [flat_map]. rewrite E. cbn [app]. eexists. eexists. split; [reflexivity|auto].
Qed.

Lemma read_obj_hex : forall f s rest, wf_bytes s ->
  read_obj (S f) (write_hex_string s ++ rest) = Some (PString s, rest).
Proof.
  intros f s rest Hs. unfold write_hex_string.
  change (bs "<") with [60]. change (bs ">") with [62].
  rewrite <- !app_assoc. cbn [app]. cbn [read_obj].
  rewrite skip_ws_nonws by (reflexivity || discriminate).
  change (60 =? 47) with false. change (60 =? 40) with false. change (60 =? 60) with true. cbn iota.
  destruct (hex_head s rest Hs) as (c & t & E & Hc). 
  rewrite E. apply N.eqb_neq in Hc. rewrite Hc. rewrite <- E.
  rewrite read_written_hex by auto. auto.
Qed.

Lemma hex_round_trip : forall s rest, wf_bytes s ->
  read_object (write_hex_string s ++ rest) = Some (PString s, rest).
Proof. intros. apply read_obj_hex; auto. Qed.

(** ** Numbers (C04) *)
Definition digitp (b : N) : Prop := 48 <= b <= 57.

Lemma digitp_is_digit : forall b, digitp b <-> is_digit b = true.
Proof. intro b. unfold digitp, is_digit. lia. Qed.

Lemma digit_regular : forall b, digitp b -> is_regular b = true.
Proof.
  intros b H. assert (E : hex_val b = Some (b - 48)).
  { unfold hex_val. apply digitp_is_digit in H. rewrite H. auto. }
  apply hex_regular in E. apply E.
Qed.

Lemma digits_value_app : forall a b acc,
  digits_value acc (a ++ b) = match digits_value acc a with Some v => digits_value v b | None => None end.
Proof.
  induction a as [|x a IH]; intros b acc; cbn [digits_value app]; auto.
  destruct (is_digit x); auto.
Qed.

Fixpoint value_rev (l : bytes) : N :=
  match l with [] => 0 | b :: r => (b - 48) + 10 * value_rev r end.

Lemma digits_value_rev : forall l, Forall digitp l -> digits_value 0 (rev l) = Some (value_rev l).
Proof.
  induction l as [|b l IH]; intros H; auto. inversion H; subst.
  cbn [rev]. rewrite digits_value_app, IH by auto.
  cbn [digits_value]. apply digitp_is_digit in H2. rewrite H2. cbn [value_rev]. f_equal. lia.
Qed.

Lemma digits_rev_spec : forall f n, n < 2 ^ N.of_nat f -> (0 < f)%nat ->
  Forall digitp (digits_rev f n) /\ value_rev (digits_rev f n) = n /\ digits_rev f n <> [].
Proof.
  induction f as [|f IH]; intros n Hn Hf; [lia|].
  cbn [digits_rev]. destruct (n <? 10) eqn:E.
  - repeat split; [constructor; [|constructor]|cbn [value_rev]|discriminate]; unfold digitp; lia.
  - assert (Hs : 2 ^ N.of_nat (S f) = 2 * 2 ^ N.of_nat f).
    { rewrite Nat2N.inj_succ, N.pow_succ_r'. auto. }
    rewrite Hs in Hn.
    assert (Hd : n / 10 < 2 ^ N.of_nat f).
    { apply N.div_lt_upper_bound; lia. }
    assert (Hf' : (0 < f)%nat).
    { destruct f; [cbn in Hn; lia|lia]. }
    destruct (IH _ Hd Hf') as (A & B & C).
    pose proof (N.mod_lt n 10). pose proof (N.div_mod' n 10).
    repeat split; [constructor; auto|cbn [value_rev]; rewrite B|discriminate]; unfold digitp; lia.
Qed.

Lemma size_nat_bound : forall n, n < 2 ^ N.of_nat (S (N.size_nat n)).
Proof.
  intro n. rewrite Nat2N.inj_succ, N.pow_succ_r'.
  assert (n < 2 ^ N.of_nat (N.size_nat n)).
  { destruct n as [|p]; [cbn; lia|]. cbn [N.size_nat].
    induction p as [p IH|p IH|]; cbn [Pos.size_nat]; [| |cbn; lia];
      rewrite Nat2N.inj_succ, N.pow_succ_r'; lia. }
  lia.
Qed.

Lemma itoa_spec : forall n, Forall digitp (itoa n) /\ digits_value 0 (itoa n) = Some n /\ itoa n <> [].
Proof.
  intro n. destruct (digits_rev_spec (S (N.size_nat n)) n (size_nat_bound n)) as (A & B & C); [lia|].
  unfold itoa. repeat split.
  - apply Forall_rev. auto.
  - rewrite digits_value_rev by auto. congruence.
  - intro H. apply C. rewrite <- (rev_involutive (digits_rev _ _)), H. auto.
Qed.

Lemma itoa_cons : forall n, exists b r, itoa n = b :: r /\ digitp b.
Proof.
  intro n. destruct (itoa_spec n) as (A & _ & C). destruct (itoa n) as [|b r]; [congruence|].
  inversion A; subst. eauto.
Qed.

Lemma split_dot_none : forall l, Forall (fun b => b <> 46) l -> split_dot l = (l, None).
Proof.
  induction l as [|b l IH]; intro H; auto. inversion H; subst. cbn.
  apply N.eqb_neq in H2. rewrite H2, IH; auto.
Qed.

Lemma split_dot_some : forall i f, Forall (fun b => b <> 46) i -> split_dot (i ++ 46 :: f) = (i, Some f).
Proof.
  induction i as [|b i IH]; intros f H; auto. inversion H; subst. cbn.
  apply N.eqb_neq in H2. rewrite H2, IH; auto.
Qed.

Lemma digits_no_dot : forall l, Forall digitp l -> Forall (fun b => b <> 46) l.
Proof. intros l H. eapply Forall_impl; [|exact H]. unfold digitp. intros. lia. Qed.

Lemma parse_number_digit : forall b r, digitp b -> parse_number (b :: r) = parse_unsigned false (b :: r).
Proof.
  intros b r H. unfold digitp in H. cbn [parse_number].
  destruct (b =? 45) eqn:E1; [lia|]. destruct (b =? 43) eqn:E2; [lia|]. auto.
Qed.

Lemma parse_unsigned_itoa : forall neg n,
  parse_unsigned neg (itoa n) = Some (PInt (if neg then - Z.of_N n else Z.of_N n)).
Proof.
  intros neg n. destruct (itoa_spec n) as (A & B & C). unfold parse_unsigned.
  rewrite split_dot_none by (apply digits_no_dot; auto).
  rewrite B. destruct (itoa n); [congruence|]. auto.
Qed.

Lemma parse_itoa : forall n, parse_number (itoa n) = Some (PInt (Z.of_N n)).
Proof.
  intro n. destruct (itoa_cons n) as (b & r & E & H). rewrite E, parse_number_digit by auto.
  rewrite <- E. apply parse_unsigned_itoa.
Qed.

Lemma parse_itoa_Z : forall z, parse_number (itoa_Z z) = Some (PInt z).
Proof.
  intro z. unfold itoa_Z. destruct (z <? 0)%Z eqn:E.
  - cbn [parse_number]. change (45 =? 45) with true. cbn iota. rewrite parse_unsigned_itoa. f_equal. f_equal. lia.
  - rewrite parse_itoa. f_equal. f_equal. lia.
Qed.

(** Digit lists *)
Definition fold_digits (acc : N) (l : list N) : N := fold_left (fun acc x => acc * 10 + x) l acc.

Lemma ascii_digits_digitp : forall l, Forall (fun x => x < 10) l -> Forall digitp (ascii_digits l).
Proof.
  intros l H. unfold ascii_digits. induction H; cbn [map]; constructor; auto. unfold digitp. lia.
Qed.

Lemma zeros_digitp : forall k, Forall digitp (repeat 48 k).
Proof. intro k. apply Forall_forall. intros x H. apply repeat_spec in H. subst. unfold digitp. lia. Qed.

Lemma digits_value_ascii : forall l acc, Forall (fun x => x < 10) l ->
  digits_value acc (ascii_digits l) = Some (fold_digits acc l).
Proof.
  induction l as [|x l IH]; intros acc H; auto. inversion H; subst.
  unfold ascii_digits, fold_digits in *. cbn [map digits_value fold_left].
  assert (E : is_digit (48 + x) = true) by (unfold is_digit; lia).
  rewrite E. replace (48 + x - 48) with x by lia. apply IH. auto.
Qed.

Lemma digits_value_zeros : forall k acc, digits_value acc (repeat 48 k) = Some (acc * 10 ^ N.of_nat k).
Proof.
  induction k as [|k IH]; intro acc.
  - cbn. f_equal. lia.
  - cbn [repeat digits_value]. change (is_digit 48) with true. cbn iota.
    rewrite IH. rewrite Nat2N.inj_succ, N.pow_succ_r'. f_equal. change (48 - 48) with 0. lia.
Qed.

Lemma digits_value_zeros0 : forall k, digits_value 0 (repeat 48 k) = Some 0.
Proof. intro k. rewrite digits_value_zeros. auto. Qed.

Lemma fold_digits_app : forall a b acc, fold_digits acc (a ++ b) = fold_digits (fold_digits acc a) b.
Proof. intros. unfold fold_digits. apply fold_left_app. Qed.

Lemma digits_value_e : forall a b acc, digits_value acc (a ++ 101 :: b) = None.
Proof.
  intros a b acc. rewrite digits_value_app. destruct (digits_value acc a); auto.
Qed.

Lemma Qten_nonzero : ~ (10 # 1 == 0)%Q.
Proof. discriminate. Qed.

Lemma real_value_shift : forall m (a b : Z), (0 <= a)%Z ->
  real_value (m * 10 ^ a) (b - a) = real_value m b.
Proof.
  intros m a b Ha. unfold real_value, ten_power. apply Qred_complete.
  rewrite inject_Z_mult. rewrite <- Qmult_assoc. apply Qmult_comp; [reflexivity|].
  replace b with (a + (b - a))%Z at 2 by lia. rewrite Qpower_plus by apply Qten_nonzero.
  apply Qmult_comp; [|reflexivity].
  change (10 # 1) with (inject_Z 10). rewrite Zpower_Qpower by auto. reflexivity.
Qed.

Definition sign (neg : bool) (n : N) : Z := if neg then (- Z.of_N n)%Z else Z.of_N n.

Lemma sign_mul : forall neg a b, sign neg (a * b) = (sign neg a * Z.of_N b)%Z.
Proof. intros [] a b; cbn [sign]; lia. Qed.

(** The unsigned part of a plain layout is read back exactly. *)
Lemma parse_point : forall neg i f v, Forall digitp i -> i <> [] ->
  digits_value 0 (i ++ f) = Some v ->
  parse_unsigned neg (i ++ 46 :: f) = Some (PReal (real_value (sign neg v) (- Z.of_nat (length f)))).
Proof.
  intros neg i f v Hi Hn Hv. unfold parse_unsigned.
  rewrite split_dot_some by (apply digits_no_dot; auto).
  rewrite Hv. destruct i; [congruence|]. auto.
Qed.

Lemma parse_layout : forall neg ds k, Forall (fun x => x < 10) ds -> ds <> [] ->
  (-6 < Z.of_nat (length ds) + k <= 21)%Z ->
  parse_unsigned neg (dtoa_layout ds k) = Some (PReal (real_value (sign neg (fold_digits 0 ds)) k)).
Proof.
  intros neg ds k Hd Hn Hk. unfold dtoa_layout.
  pose proof (ascii_digits_digitp ds Hd) as Ha.
  destruct ((0 <=? k) && _)%Z eqn:E1.
  - change (bs ".0") with [46; 48]. rewrite app_assoc.
    rewrite (parse_point _ _ _ (fold_digits 0 ds * 10 ^ N.of_nat (Z.to_nat k) * 10)).
    + f_equal. f_equal. rewrite sign_mul, sign_mul.
      rewrite <- (real_value_shift _ (k + 1) k) by lia.
      f_equal; [|cbn [length]; lia].
      rewrite Z.pow_add_r by lia. rewrite Z.mul_assoc. f_equal. f_equal.
      rewrite N2Z.inj_pow. f_equal. lia.
    + apply Forall_app. split; auto using zeros_digitp.
    + destruct ds; [congruence|discriminate].
    + rewrite digits_value_app, digits_value_app, digits_value_ascii, digits_value_zeros by auto.
      cbn [digits_value]. change (is_digit 48) with true. cbn iota. f_equal. lia.
  - destruct ((0 <? _) && _)%Z eqn:E2.
    + set (kk := Z.to_nat (Z.of_nat (length ds) + k)).
      assert (Hf : Forall (fun x => x < 10) (firstn kk ds) /\ Forall (fun x => x < 10) (skipn kk ds)).
      { apply Forall_app. rewrite firstn_skipn. auto. }
      destruct Hf as [Hf1 Hf2]. change (bs ".") with [46]. cbn [app].
      rewrite (parse_point _ _ _ (fold_digits 0 ds)).
      * f_equal. f_equal. f_equal. unfold ascii_digits. rewrite map_length, skipn_length. lia.
      * apply ascii_digits_digitp; auto.
      * unfold ascii_digits. intro H. apply map_eq_nil in H.
        apply (f_equal (@length N)) in H. rewrite firstn_length in H. cbn in H.
        destruct ds; [congruence|cbn [length] in *; lia].
      * unfold ascii_digits. rewrite <- map_app, firstn_skipn. apply digits_value_ascii; auto.
    + destruct ((-6 <? _) && _)%Z eqn:E3; [|lia].
      change (bs "0.") with [48; 46]. cbn [app].
      change (48 :: 46 :: ?x) with ([48] ++ 46 :: x).
      rewrite (parse_point _ _ _ (fold_digits 0 ds)).
      * f_equal. f_equal. f_equal. unfold ascii_digits.
        rewrite app_length, repeat_length, map_length. lia.
      * constructor; [unfold digitp; lia|constructor].
      * discriminate.
      * cbn [app digits_value]. change (is_digit 48) with true. cbn iota.
        change (0 * 10 + (48 - 48)) with 0.
        rewrite digits_value_app, digits_value_zeros0. apply digits_value_ascii; auto.
Qed.

Lemma parse_layout_exp : forall neg ds k, Forall (fun x => x < 10) ds -> ds <> [] ->
  ~ (-6 < Z.of_nat (length ds) + k <= 21)%Z ->
  parse_unsigned neg (dtoa_layout ds k) = None.
Proof.
  intros neg ds k Hd Hn Hk. unfold dtoa_layout.
  destruct ((0 <=? k) && _)%Z eqn:E1; [lia|].
  destruct ((0 <? _) && _)%Z eqn:E2; [lia|].
  destruct ((-6 <? _) && _)%Z eqn:E3; [lia|].
  destruct ds as [|d [|d2 rest]]; [congruence| |].
  - unfold parse_unsigned, ascii_digits. cbn [map app]. change (bs "e") with [101]. cbn [app].
    rewrite split_dot_none.
    + pose proof (digits_value_e [48 + d]) as He. cbn [app] in He. rewrite He. reflexivity.
    + inversion Hd; subst. constructor; [lia|]. constructor; [discriminate|].
      set (z := (_ - 1)%Z). unfold itoa_Z.
      pose proof (digits_no_dot _ (proj1 (itoa_spec (Z.to_N (- z))))).
      pose proof (digits_no_dot _ (proj1 (itoa_spec (Z.to_N z)))).
      destruct (z <? 0)%Z; auto. constructor; [discriminate|auto].
  - inversion Hd; subst.
    set (t := itoa_Z _). unfold parse_unsigned.
    change (bs ".") with [46]. change (bs "e") with [101].
    change ([46] ++ ?x) with (46 :: x).
    rewrite split_dot_some by (apply digits_no_dot, ascii_digits_digitp; constructor; auto).
    assert (He : digits_value 0 (ascii_digits [d] ++ ascii_digits (d2 :: rest) ++ [101] ++ t) = None).
    { rewrite app_assoc. apply digits_value_e. }
    rewrite He. cbn. reflexivity.
Qed.

Lemma layout_head : forall ds k, Forall (fun x => x < 10) ds -> ds <> [] ->
  exists b r, dtoa_layout ds k = b :: r /\ digitp b.
Proof.
  intros ds k Hd Hn. unfold dtoa_layout.
  destruct ds as [|d ds]; [congruence|]. inversion Hd; subst.
  assert (digitp (48 + d)) by (unfold digitp; lia).
  destruct ((0 <=? k) && _)%Z eqn:E1; [do 2 eexists; split; [reflexivity|auto]|].
  destruct ((0 <? _) && _)%Z eqn:E2.
  - destruct (Z.to_nat (Z.of_nat (length (d :: ds)) + k)) eqn:E.
    + lia.
    + cbn [firstn]. do 2 eexists; split; [reflexivity|auto].
  - destruct ((-6 <? _) && _)%Z eqn:E3.
    + change (bs "0.") with [48; 46]. do 2 eexists. split; [reflexivity|]. unfold digitp; lia.
    + destruct ds; do 2 eexists; split; try reflexivity; auto.
Qed.

Lemma layout_regular : forall ds k, Forall (fun x => x < 10) ds ->
  Forall (fun b => is_regular b = true) (dtoa_layout ds k).
Proof.
  intros ds k Hd.
  assert (D : forall l, Forall digitp l -> Forall (fun b => is_regular b = true) l).
  { intros l H. eapply Forall_impl; [|exact H]. apply digit_regular. }
  assert (I : forall z, Forall (fun b => is_regular b = true) (itoa_Z z)).
  { intro z. unfold itoa_Z.
    pose proof (D _ (proj1 (itoa_spec (Z.to_N (- z))))).
    pose proof (D _ (proj1 (itoa_spec (Z.to_N z)))).
    destruct (z <? 0)%Z; auto. }
  assert (A : forall l, Forall (fun x => x < 10) l -> Forall (fun b => is_regular b = true) (ascii_digits l)).
  { intros l H. apply D, ascii_digits_digitp, H. }
  assert (Z0 : forall n, Forall (fun b => is_regular b = true) (repeat 48 n)).
  { intro n. apply D, zeros_digitp. }
  assert (F : forall kk, Forall (fun x => x < 10) (firstn kk ds) /\ Forall (fun x => x < 10) (skipn kk ds)).
  { intro kk. apply Forall_app. rewrite firstn_skipn. auto. }
  unfold dtoa_layout.
  change (bs ".0") with [46; 48]. change (bs ".") with [46]. change (bs "0.") with [48; 46].
  change (bs "e") with [101].
  destruct ((0 <=? k) && _)%Z; [|destruct ((0 <? _) && _)%Z; [|destruct ((-6 <? _) && _)%Z]].
  - repeat (apply Forall_app; split); auto.
  - specialize (F (Z.to_nat (Z.of_nat (length ds) + k))) as [? ?].
    repeat (apply Forall_app; split); auto.
  - repeat (apply Forall_app; split); auto.
  - destruct ds as [|d [|d2 rest]]; auto; inversion Hd; subst;
      repeat (apply Forall_app; split); auto.
Qed.

Lemma dtoa_regular : forall d, wf_dec d -> Forall (fun b => is_regular b = true) (dtoa d).
Proof.
  intros d [H _]. unfold dtoa. apply Forall_app. split.
  - destruct (d_neg d); auto.
  - destruct (dec_is_zero d); [repeat constructor|apply layout_regular; auto].
Qed.

Lemma dec_is_zero_nil : forall d, dec_is_zero d = true <-> d_digits d = [].
Proof. intro d. unfold dec_is_zero. destruct (d_digits d); split; congruence. Qed.

Lemma dtoa_head : forall d, wf_dec d -> exists b r, dtoa d = b :: r /\ (digitp b \/ b = 45).
Proof.
  intros d [H _]. unfold dtoa. destruct (d_neg d); [do 2 eexists; split; [reflexivity|auto]|].
  cbn [app]. destruct (dec_is_zero d) eqn:E.
  - change (bs "0.0") with [48; 46; 48]. do 2 eexists. split; [reflexivity|]. left. unfold digitp. lia.
  - destruct (layout_head (d_digits d) (d_exp d) H) as (b & r & E1 & E2).
    + intro X. apply dec_is_zero_nil in X. congruence.
    + eauto.
Qed.

Lemma real_value_zero : forall e, real_value 0 e = 0%Q.
Proof.
  intro e. unfold real_value. change 0%Q with (Qred 0). apply Qred_complete.
  rewrite Qmult_0_l. reflexivity.
Qed.

Lemma parse_number_signed : forall (neg : bool) l, (exists b r, l = b :: r /\ digitp b) ->
  parse_number ((if neg then [45] else []) ++ l) = parse_unsigned neg l.
Proof.
  intros neg l (b & r & -> & H). destruct neg; cbn [app].
  - cbn [parse_number]. change (45 =? 45) with true. auto.
  - apply parse_number_digit. auto.
Qed.

Lemma parse_dtoa : forall d, wf_dec d -> plain_dec d -> parse_number (dtoa d) = Some (PReal (dec_value d)).
Proof.
  intros d [H1 H2] H3. unfold dtoa. destruct (dec_is_zero d) eqn:E.
  - apply dec_is_zero_nil in E. change (bs "0.0") with [48; 46; 48].
    rewrite parse_number_signed by (do 2 eexists; split; [reflexivity|unfold digitp; lia]).
    unfold dec_value, dec_mantissa. rewrite E. cbn [fold_left].
    transitivity (Some (PReal 0%Q)).
    + destruct (d_neg d); reflexivity.
    + f_equal. f_equal. symmetry. destruct (d_neg d); [change (- Z.of_N 0)%Z with 0%Z|change (Z.of_N 0) with 0%Z];
        apply real_value_zero.
  - assert (Hn : d_digits d <> []) by (intro X; apply dec_is_zero_nil in X; congruence).
    rewrite parse_number_signed by (apply layout_head; auto).
    destruct H3 as [H3|H3]; [congruence|].
    rewrite parse_layout by auto. auto.
Qed.

Lemma parse_dtoa_exp : forall d, wf_dec d -> ~ plain_dec d -> parse_number (dtoa d) = None.
Proof.
  intros d [H1 H2] H3. unfold dtoa. destruct (dec_is_zero d) eqn:E.
  - apply dec_is_zero_nil in E. exfalso. apply H3. left. auto.
  - assert (Hn : d_digits d <> []) by (intro X; apply dec_is_zero_nil in X; congruence).
    rewrite parse_number_signed by (apply layout_head; auto).
    apply parse_layout_exp; auto. intro. apply H3. right. auto.
Qed.

(** ** Tokens *)
Lemma read_obj_token : forall f b t rest,
  is_regular b = true -> Forall (fun b => is_regular b = true) t -> safe_head rest ->
  read_obj (S f) (b :: t ++ rest) = read_token (b :: t) rest.
Proof.
  intros f b t rest Hb Ht Hr. cbn [read_obj].
  assert (is_ws b = false /\ b <> 37 /\ b <> 47 /\ b <> 40 /\ b <> 60 /\ b <> 91) as (A & B & C & D & E & F).
  { split; [unfold is_regular in Hb; destruct (is_ws b); auto; discriminate|].
    repeat split; intros ->; discriminate. }
  rewrite skip_ws_nonws by auto. apply N.eqb_neq in C, D, E, F. rewrite C, D, E, F.
  change (b :: t ++ rest) with ((b :: t) ++ rest).
  rewrite span_regular_app by (try constructor; auto). auto.
Qed.

Lemma read_obj_dtoa : forall f d rest, wf_dec d -> safe_head rest ->
  read_obj (S f) (dtoa d ++ rest) = read_token (dtoa d) rest.
Proof.
  intros f d rest Hd Hr. pose proof (dtoa_regular d Hd) as R.
  destruct (dtoa_head d Hd) as (b & r & E & _). rewrite E in *. inversion R; subst.
  apply read_obj_token; auto.
Qed.

Lemma bytes_eqb_eq : forall a b, bytes_eqb a b = true <-> a = b.
Proof. intros. unfold bytes_eqb. destruct (list_eq_dec N.eq_dec a b); split; congruence. Qed.

Lemma bytes_eqb_neq : forall a b, bytes_eqb a b = false <-> a <> b.
Proof. intros. unfold bytes_eqb. destruct (list_eq_dec N.eq_dec a b); split; congruence. Qed.

Lemma real_round_trip_iff : forall d rest, wf_dec d -> safe_head rest ->
  (read_object (dtoa d ++ rest) = Some (PReal (dec_value d), rest) <-> plain_dec d) /\
  (~ plain_dec d -> read_object (dtoa d ++ rest) = None).
Proof.
  intros d rest Hd Hr. unfold read_object. rewrite read_obj_dtoa by auto.
  assert (D : plain_dec d \/ ~ plain_dec d).
  { unfold plain_dec. destruct (d_digits d); [left; auto|]. cbn [length].
    set (q := (_ + _)%Z). destruct (Z_lt_dec (-6) q); [|right; intros [X|X]; [congruence|lia]].
    destruct (Z_le_dec q 21); [left; right; lia|right; intros [X|X]; [congruence|lia]]. }
  assert (F : ~ plain_dec d -> read_token (dtoa d) rest = None).
  { intro H. unfold read_token. rewrite parse_dtoa_exp by auto.
    destruct (dtoa_head d Hd) as (b & r & E & Hb). rewrite E. unfold digitp in Hb.
    assert (X : forall c l, c = 116 \/ c = 102 \/ c = 110 -> bytes_eqb (b :: r) (c :: l) = false).
    { intros c l Hc. apply bytes_eqb_neq. intro Y. injection Y as Y _. lia. }
    change (bs "true") with (116 :: bs "rue"). change (bs "false") with (102 :: bs "alse").
    change (bs "null") with (110 :: bs "ull"). rewrite !X by auto. auto. }
  split; auto. split.
  - intro H. destruct D as [D|D]; auto. rewrite F in H by auto. discriminate.
  - intro H. unfold read_token. rewrite parse_dtoa by auto. auto.
Qed.

(** ** Nested objects (C01) *)
Definition space_items (l : list obj) : bytes := flat_map (fun i => bs " " ++ write_obj i) l.
Definition space_entries (l : list (bytes * obj)) : bytes :=
  flat_map (fun kv => bs " " ++ write_name (fst kv) ++ bs " " ++ write_obj (snd kv)) l.

Lemma space_items_cons : forall x l, space_items (x :: l) = 32 :: write_obj x ++ space_items l.
Proof. intros. unfold space_items. cbn [flat_map]. change (bs " ") with [32]. reflexivity. Qed.

Lemma space_entries_cons : forall k v l,
  space_entries ((k, v) :: l) = 32 :: write_name k ++ 32 :: write_obj v ++ space_entries l.
Proof.
  intros. unfold space_entries. cbn [flat_map fst snd]. change (bs " ") with [32].
  rewrite <- !app_assoc. reflexivity.
Qed.

Lemma write_array : forall l, write_obj (OArray l) = 91 :: tl (space_items l) ++ [93].
Proof. intros [|x l]; [reflexivity|]. rewrite space_items_cons. cbn [tl write_obj]. rewrite <- !app_assoc. reflexivity. Qed.

Lemma write_owned : forall l, write_obj (ODictionaryWithOwnedKeys l) = 60 :: 60 :: space_entries l ++ [32; 62; 62].
Proof. reflexivity. Qed.

(** First byte of a written object. *)
Lemma write_obj_head : forall o, clean o ->
  exists b r, write_obj o = b :: r /\ is_ws b = false /\ b <> 37 /\ b <> 93 /\ b <> 82 /\ b <> 62.
Proof.
  intros o Ho.
  assert (D : forall b, digitp b \/ b = 45 -> is_ws b = false /\ b <> 37 /\ b <> 93 /\ b <> 82 /\ b <> 62).
  { intros b [H | ->].
    - pose proof (digit_regular b H) as R. unfold digitp in H. split; [|lia].
      unfold is_regular in R. destruct (is_ws b); auto.
    - repeat split; discriminate. }
  destruct o; try (do 2 eexists; split; [reflexivity|]; repeat split; discriminate).
  - cbn [write_obj]. destruct (itoa_cons n) as (b & r & E & H). rewrite E. eauto 10.
  - cbn [write_obj]. unfold itoa_Z. destruct (z <? 0)%Z.
    + do 2 eexists. split; [reflexivity|]. apply D. auto.
    + destruct (itoa_cons (Z.to_N z)) as (b & r & E & H). rewrite E. eauto 10.
  - cbn [write_obj]. destruct Ho as [Hd _]. destruct (dtoa_head _ Hd) as (b & r & E & H).
    rewrite E. eauto 10.
  - cbn [write_obj]. destruct (itoa_cons id) as (b & r & E & H). rewrite E. cbn [app]. eauto 10.
Qed.

Lemma clean_array : forall l, clean (OArray l) <-> Forall clean l.
Proof.
  intro l. cbn [clean]. induction l as [|x l IH]; split; intro H; auto.
  - destruct H as [A B]. constructor; auto. apply IH. auto.
  - inversion H; subst. split; auto. apply IH. auto.
Qed.

Definition clean_entry (kv : bytes * obj) : Prop := clean_name (fst kv) /\ clean (snd kv).

Lemma clean_owned : forall l, clean (ODictionaryWithOwnedKeys l) <-> Forall clean_entry l.
Proof.
  intro l. cbn [clean]. induction l as [|[k v] l IH]; split; intro H; auto.
  - destruct H as [A B]. constructor; auto. apply IH. auto.
  - inversion H; subst. split; auto. apply IH. auto.
Qed.

Lemma clean_pairs_eq : forall prev l, clean_pairs (Dictionary prev l) <->
  match prev with None => True | Some p => clean_pairs p end /\ Forall clean_entry l.
Proof.
  intros prev l. pose proof (clean_owned l) as C. cbn [clean] in C.
  cbn [clean_pairs]. tauto.
Qed.

(** What follows an item of an array or an entry of a dictionary is never the rest of a
    reference. *)
Lemma span_delim : forall b l, is_regular b = false -> span_regular (b :: l) = ([], b :: l).
Proof. intros b l H. cbn [span_regular]. rewrite H. auto. Qed.

Lemma ref_tail_delim : forall b l, is_delim b = true -> b <> 37 -> ref_tail (b :: l) = None.
Proof.
  intros b l H H37. unfold ref_tail.
  assert (is_ws b = false).
  { unfold is_ws, is_delim in *. cbn [existsb] in *.
    repeat (let E := fresh in destruct (b =? _) eqn:E in |- *; [apply N.eqb_eq in E; subst; discriminate|]). auto. }
  rewrite skip_ws_nonws by auto. rewrite span_delim; auto.
  unfold is_regular. rewrite H. apply andb_false_r.
Qed.

Definition second_not_R (l : bytes) : Prop :=
  bytes_eqb (fst (span_regular (skip_ws l))) (bs "R") = false.

Lemma second_not_R_head : forall b l, is_ws b = false -> b <> 37 -> b <> 82 -> second_not_R (b :: l).
Proof.
  intros b l H1 H2 H3. unfold second_not_R. rewrite skip_ws_nonws by auto.
  cbn [span_regular]. destruct (is_regular b).
  - destruct (span_regular l). cbn [fst]. apply bytes_eqb_neq. intro E. injection E as E _. auto.
  - reflexivity.
Qed.

Lemma ref_tail_token : forall b t tail, Forall (fun b => is_regular b = true) (b :: t) -> safe_head tail ->
  second_not_R tail -> ref_tail (32 :: (b :: t) ++ tail) = None.
Proof.
  intros b t tail Ht Hs H2. unfold ref_tail. rewrite skip_ws_space.
  assert (is_ws b = false /\ b <> 37) as [A B].
  { inversion Ht; subst. split; [unfold is_regular in H1; destruct (is_ws b); auto; discriminate|].
    intros ->; discriminate. }
  cbn [app]. rewrite skip_ws_nonws by auto.
  change (b :: t ++ tail) with ((b :: t) ++ tail). rewrite span_regular_app by auto.
  destruct (digits_value 0 (b :: t)); auto.
  unfold second_not_R in H2. destruct (span_regular (skip_ws tail)). cbn [fst] in H2. rewrite H2. auto.
Qed.

Lemma safe_head_space : forall l, safe_head (32 :: l).
Proof. reflexivity. Qed.

Lemma itoa_regular : forall n, Forall (fun b => is_regular b = true) (itoa n).
Proof.
  intro n. eapply Forall_impl; [|exact (proj1 (itoa_spec n))]. apply digit_regular.
Qed.

Lemma itoa_Z_regular : forall z, Forall (fun b => is_regular b = true) (itoa_Z z).
Proof.
  intro z. unfold itoa_Z. destruct (z <? 0)%Z; [constructor; auto|]; apply itoa_regular.
Qed.

Lemma ref_tail_space_delim : forall b l, is_delim b = true -> b <> 37 -> ref_tail (32 :: b :: l) = None.
Proof.
  intros b l H1 H2. rewrite <- (ref_tail_delim b l H1 H2). unfold ref_tail. rewrite skip_ws_space. auto.
Qed.

Lemma ref_tail_item : forall o tail, clean o -> safe_head tail -> second_not_R tail ->
  ref_tail (32 :: write_obj o ++ tail) = None.
Proof.
  intros o tail Ho Hs H2.
  assert (T : forall t, Forall (fun b => is_regular b = true) t -> t <> [] -> ref_tail (32 :: t ++ tail) = None).
  { intros [|b t] Ht Hn; [congruence|]. apply ref_tail_token; auto. }
  destruct o; try (apply ref_tail_space_delim; [reflexivity|discriminate]).
  - apply T; [apply itoa_regular|apply itoa_spec].
  - apply T; [apply itoa_Z_regular|].
    cbn [write_obj]. unfold itoa_Z. destruct (z <? 0)%Z; [discriminate|apply itoa_spec].
  - destruct Ho as [Hd _]. apply T; [apply dtoa_regular; auto|].
    cbn [write_obj]. destruct (dtoa_head _ Hd) as (b & r & E & _). rewrite E. discriminate.
  - cbn [write_obj]. rewrite <- app_assoc. change (bs " 0 R") with [32; 48; 32; 82]. cbn [app].
    destruct (itoa_cons id) as (b & r & E & _). pose proof (itoa_regular id) as R. rewrite E in *.
    apply ref_tail_token; auto using safe_head_space.
    reflexivity.
Qed.

Lemma second_not_R_space : forall l, second_not_R l -> second_not_R (32 :: l).
Proof. intros l H. unfold second_not_R in *. rewrite skip_ws_space. auto. Qed.

Lemma items_tail : forall l rest, Forall clean l ->
  safe_head (space_items l ++ 93 :: rest) /\ second_not_R (space_items l ++ 93 :: rest) /\
  ref_tail (space_items l ++ 93 :: rest) = None.
Proof.
  induction l as [|x l IH]; intros rest H.
  - split; [reflexivity|]. split; cbn [space_items app flat_map].
    + apply second_not_R_head; discriminate || reflexivity.
    + apply ref_tail_delim; [reflexivity|discriminate].
  - inversion H; subst. destruct (IH rest H3) as (A & B & C). rewrite space_items_cons.
    cbn [app]. rewrite <- app_assoc. split; [reflexivity|]. split.
    + apply second_not_R_space. destruct (write_obj_head x H2) as (b & r & E & ? & ? & ? & ? & ?).
      rewrite E. cbn [app]. apply second_not_R_head; auto.
    + apply ref_tail_item; auto.
Qed.

Lemma entries_tail : forall l rest,
  exists b t, space_entries l ++ 32 :: 62 :: 62 :: rest = 32 :: b :: t /\ (b = 47 \/ b = 62).
Proof.
  intros [|[k v] l] rest.
  - do 2 eexists. split; [reflexivity|]. auto.
  - rewrite space_entries_cons. cbn [app]. rewrite write_name_unfold. cbn [app].
    do 2 eexists. split; [reflexivity|]. auto.
Qed.

Lemma entries_safe : forall l rest, safe_tail (space_entries l ++ 32 :: 62 :: 62 :: rest).
Proof.
  intros l rest. destruct (entries_tail l rest) as (b & t & E & H). rewrite E. split; [reflexivity|].
  apply ref_tail_space_delim; destruct H as [-> | ->]; reflexivity || discriminate.
Qed.

(** ** The readers ignore leading spaces *)
Lemma read_obj_space : forall n l, read_obj n (32 :: l) = read_obj n l.
Proof. intros [|n] l; reflexivity. Qed.
Lemma read_items_space : forall n l, read_items n (32 :: l) = read_items n l.
Proof. intros [|n] l; reflexivity. Qed.
Lemma read_entries_space : forall n l, read_entries n (32 :: l) = read_entries n l.
Proof. intros [|n] l; reflexivity. Qed.

(** The claim proved by induction. *)
Definition reads_back (o : obj) : Prop := forall n rest,
  clean o -> safe_tail rest -> (length (write_obj o) <= n)%nat ->
  read_obj n (write_obj o ++ rest) = Some (meaning o, rest).

Lemma read_items_step : forall n l b r, skip_ws l = b :: r -> b <> 93 ->
  read_items (S n) l = match read_obj n (b :: r) with
                       | Some (v, r') => cons_fst v (read_items n r')
                       | None => None
                       end.
Proof. intros n l b r H1 H2. cbn [read_items]. rewrite H1. apply N.eqb_neq in H2. rewrite H2. auto. Qed.

Lemma read_items_back : forall l, Forall reads_back l -> Forall clean l ->
  forall n rest, (length (tl (space_items l)) < n)%nat ->
  read_items n (space_items l ++ 93 :: rest) = Some (map meaning l, rest).
Proof.
  induction l as [|x l IH]; intros HR HC n rest Hn.
  - destruct n; [lia|]. reflexivity.
  - inversion HR; subst. inversion HC; subst. rewrite space_items_cons in *.
    cbn [app]. rewrite <- app_assoc. rewrite read_items_space.
    destruct (items_tail l rest H4) as (A & B & C).
    destruct (write_obj_head x H3) as (b & r & E & W & ? & N93 & ? & ?).
    destruct n as [|n]; [lia|].
    rewrite (read_items_step n _ b (r ++ space_items l ++ 93 :: rest)).
    + rewrite app_comm_cons, <- E. rewrite (H1 n) by
        (auto || (split; auto) || (cbn [tl] in Hn; rewrite app_length in Hn; lia)).
      rewrite IH; auto.
      cbn [tl] in Hn. rewrite app_length, E in Hn. cbn [length] in Hn.
      destruct (space_items l); cbn [tl length] in *; lia.
    + rewrite E. cbn [app]. apply skip_ws_nonws; auto.
    + auto.
Qed.

Lemma read_entries_step : forall n k c l, wf_bytes k -> is_regular c = false ->
  read_entries (S n) (write_name k ++ c :: l) =
  match read_obj n (c :: l) with
  | Some (v, r2) => cons_fst (unescape_name k, v) (read_entries n r2)
  | None => None
  end.
Proof.
  intros n k c l Hk Hc. rewrite write_name_unfold. cbn [app read_entries].
  rewrite skip_ws_nonws by (reflexivity || discriminate).
  pose proof (span_regular_app (enc_name k) (c :: l) (enc_name_regular k Hk) Hc) as E.
  destruct (enc_name k ++ c :: l) as [|c' r] eqn:E2; [destruct (enc_name k); discriminate|].
  change (47 =? 62) with false. change (47 =? 47) with true. cbn [andb]. cbn iota.
  rewrite E, unescape_enc by auto. auto.
Qed.

Lemma read_entries_back : forall l, Forall (fun kv => reads_back (snd kv)) l -> Forall clean_entry l ->
  forall n tail, (length (space_entries l) < n)%nat -> safe_tail tail ->
  (exists t, tail = 32 :: t) ->
  read_entries n (space_entries l ++ tail) =
  match read_entries (n - length l) tail with
  | Some (es, r) => Some (map (fun kv => (fst kv, meaning (snd kv))) l ++ es, r)
  | None => None
  end.
Proof.
  induction l as [|[k v] l IH]; intros HR HC n tail Hn Ht Hsp.
  - cbn [length]. rewrite Nat.sub_0_r. cbn [space_entries flat_map map app].
    destruct (read_entries n tail) as [[]|]; auto.
  - inversion HR; subst. inversion HC; subst. destruct H3 as [[Hk Hk'] Hv]. cbn [fst snd] in *.
    rewrite space_entries_cons in *. cbn [app]. rewrite <- app_assoc. cbn [app]. rewrite <- app_assoc.
    rewrite read_entries_space. destruct n as [|n]; [lia|].
    rewrite read_entries_step by auto. rewrite read_obj_space.
    cbn [length] in Hn. rewrite app_length in Hn. cbn [length] in Hn. rewrite app_length in Hn.
    assert (Hst : safe_tail (space_entries l ++ tail)).
    { destruct l as [|[k' v'] l']; [auto|]. rewrite space_entries_cons. cbn [app].
      rewrite write_name_unfold. split; [reflexivity|]. cbn [app].
      apply ref_tail_space_delim; [reflexivity|discriminate]. }
    rewrite H1 by (auto; lia). rewrite unescape_id by auto.
    rewrite IH; auto; [|lia]. cbn [length]. replace (S n - S (length l))%nat with (n - length l)%nat by lia.
    destruct (read_entries (n - length l) tail) as [[]|]; auto.
Qed.

(** All entries of a dictionary, the entries of its predecessors first. *)
Fixpoint all_entries (d : dictionary) : list (bytes * obj) :=
  match d with
  | Dictionary prev l => match prev with None => [] | Some p => all_entries p end ++ l
  end.

Lemma write_pairs_entries : forall d, write_pairs d = space_entries (all_entries d).
Proof.
  fix IH 1. intros [[p|] l].
  - cbn [write_pairs all_entries]. rewrite (IH p). unfold space_entries. rewrite flat_map_app. auto.
  - reflexivity.
Qed.

Lemma meaning_pairs_entries : forall d,
  meaning_pairs d = map (fun kv => (fst kv, meaning (snd kv))) (all_entries d).
Proof.
  fix IH 1. intros [[p|] l].
  - cbn [meaning_pairs all_entries]. rewrite (IH p), map_app. auto.
  - reflexivity.
Qed.

Lemma clean_pairs_entries : forall d, clean_pairs d <-> Forall clean_entry (all_entries d).
Proof.
  fix IH 1. intros [[p|] l]; rewrite clean_pairs_eq; cbn [all_entries].
  - rewrite Forall_app, (IH p). tauto.
  - cbn [app]. tauto.
Qed.

Lemma entries_close : forall n rest, (0 < n)%nat -> read_entries n (32 :: 62 :: 62 :: rest) = Some ([], rest).
Proof. intros [|n] rest H; [lia|reflexivity]. Qed.

Lemma space_entries_length : forall l, (length l <= length (space_entries l))%nat.
Proof.
  induction l as [|[k v] l IH]; [cbn; lia|]. rewrite space_entries_cons. cbn [length].
  rewrite app_length. cbn [length]. rewrite app_length. lia.
Qed.

Lemma read_dict_back : forall l, Forall (fun kv => reads_back (snd kv)) l -> Forall clean_entry l ->
  forall n rest, (length (60%N :: 60%N :: space_entries l ++ [32; 62; 62]%N) <= n)%nat ->
  read_obj n ((60 :: 60 :: space_entries l ++ [32; 62; 62]) ++ rest) =
  Some (PDict (map (fun kv => (fst kv, meaning (snd kv))) l), rest).
Proof.
  intros l HR HC n rest Hn. cbn [length] in Hn. rewrite app_length in Hn. cbn [length] in Hn.
  destruct n as [|n]; [lia|]. cbn [app]. rewrite <- app_assoc.
  cbn [read_obj]. rewrite skip_ws_nonws by (reflexivity || discriminate).
  change (60 =? 47) with false. change (60 =? 40) with false. change (60 =? 60) with true. cbn iota.
  change ([32; 62; 62] ++ rest) with (32 :: 62 :: 62 :: rest).
  rewrite read_entries_back; auto; [|lia|split; [reflexivity|apply ref_tail_space_delim; [reflexivity|discriminate]]|eauto].
  pose proof (space_entries_length l). rewrite entries_close by lia.
  rewrite app_nil_r. auto.
Qed.

Lemma read_obj_S : forall f b t rest, is_regular b = true -> Forall (fun b => is_regular b = true) t ->
  safe_head rest -> read_obj (S f) ((b :: t) ++ rest) = read_token (b :: t) rest.
Proof. intros. apply read_obj_token; auto. Qed.

Lemma read_tok : forall n t rest, Forall (fun b => is_regular b = true) t -> t <> [] -> safe_head rest ->
  (length t <= n)%nat -> read_obj n (t ++ rest) = read_token t rest.
Proof.
  intros n t rest Ht Hn Hs Hl. destruct t as [|b t]; [congruence|]. cbn [length] in Hl.
  destruct n as [|n]; [lia|]. inversion Ht; subst. apply read_obj_S; auto.
Qed.

Lemma all_read_back : forall o, reads_back o.
Proof.
  apply (obj_ind2 reads_back (fun d => Forall (fun kv => reads_back (snd kv)) (all_entries d))).
  - intros m n rest _ [Hs Hr] Hn. cbn [write_obj meaning] in *.
    rewrite read_tok by (auto using itoa_regular; apply itoa_spec).
    unfold read_token. rewrite parse_itoa, Hr.
    destruct (Z.of_N m <? 0)%Z eqn:E; [lia|]. auto.
  - intros z n rest _ [Hs Hr] Hn. cbn [write_obj meaning] in *.
    rewrite read_tok; auto using itoa_Z_regular.
    + unfold read_token. rewrite parse_itoa_Z, Hr. destruct (z <? 0)%Z; auto.
      
    + unfold itoa_Z; destruct (z <? 0)%Z; [discriminate|apply itoa_spec].
  - intros d n rest [Hd Hp] [Hs Hr] Hn. cbn [write_obj meaning] in *.
    rewrite read_tok; auto using dtoa_regular.
    + unfold read_token. rewrite parse_dtoa by auto. auto.
    + destruct (dtoa_head d Hd) as (b & r & E & _). rewrite E. discriminate.
  - intros k n rest [Hk Hk'] [Hs Hr] Hn. cbn [write_obj meaning] in *.
    destruct n as [|n]; [cbn in Hn; lia|].
    rewrite read_written_name by auto. rewrite unescape_id by auto. auto.
  - intros s n rest [_ Hk] [Hs Hr] Hn. cbn [write_obj meaning] in *.
    destruct n as [|n]; [cbn in Hn; lia|].
    unfold write_literal. change (bs "(") with [40]. change (bs ")") with [41].
    rewrite <- !app_assoc. cbn [app read_obj].
    rewrite skip_ws_nonws by (reflexivity || discriminate).
    change (40 =? 47) with false. change (40 =? 40) with true. cbn iota.
    rewrite read_written_literal, normalize_eol_id by auto. auto.
  - intros s n rest Hk [Hs Hr] Hn. cbn [write_obj meaning clean] in *.
    destruct n as [|n]; [cbn in Hn; lia|]. apply read_obj_hex; auto.
  - intros l HR n rest HC Hs Hn. apply clean_array in HC. rewrite write_array in *.
    cbn [length] in Hn. rewrite app_length in Hn. cbn [length] in Hn.
    destruct n as [|n]; [lia|]. cbn [app read_obj]. rewrite <- app_assoc.
    rewrite skip_ws_nonws by (reflexivity || discriminate).
    change (91 =? 47) with false. change (91 =? 40) with false. change (91 =? 60) with false.
    change (91 =? 91) with true. cbn iota.
    assert (E : read_items n (tl (space_items l) ++ [93] ++ rest) = read_items n (space_items l ++ 93 :: rest)).
    { destruct l as [|x l]; [reflexivity|]. rewrite space_items_cons. cbn [tl app].
      rewrite read_items_space. auto. }
    rewrite E, read_items_back; auto. lia.
  - intros d HR n rest HC Hs Hn. cbn [clean] in HC. apply clean_pairs_entries in HC.
    assert (E : write_obj (ODictionary d) = 60 :: 60 :: space_entries (all_entries d) ++ [32; 62; 62]).
    { cbn [write_obj]. rewrite write_pairs_entries. reflexivity. }
    rewrite E in *. cbn [meaning]. rewrite meaning_pairs_entries. apply read_dict_back; auto.
  - intros i n rest _ [Hs Hr] Hn. cbn [write_obj meaning] in *.
    rewrite app_length in Hn. rewrite <- app_assoc. change (bs " 0 R") with [32; 48; 32; 82].
    rewrite read_tok; [|apply itoa_regular|apply itoa_spec|reflexivity|lia].
    unfold read_token. rewrite parse_itoa.
    destruct (Z.of_N i <? 0)%Z eqn:E; [lia|]. cbn [app].
    assert (Er : ref_tail (32 :: 48 :: 32 :: 82 :: rest) = Some (0, rest)).
    { unfold ref_tail. rewrite skip_ws_space, skip_ws_nonws by (reflexivity || discriminate).
      change (48 :: 32 :: 82 :: rest) with ([48] ++ 32 :: 82 :: rest).
      rewrite span_regular_app by (repeat constructor). cbn [digits_value].
      change (is_digit 48) with true. cbn iota. rewrite skip_ws_space, skip_ws_nonws by (reflexivity || discriminate).
      change (82 :: rest) with ([82] ++ rest). rewrite span_regular_app by (repeat constructor; auto).
      reflexivity. }
    rewrite Er, N2Z.id. auto.
  - intros d n rest HC Hs Hn. cbn [clean] in HC.
    change (write_obj (OGraphicsStateDictionaryAlpha d)) with
      (60 :: 60 :: space_entries [(bs "CA", OFloat d); (bs "ca", OFloat d)] ++ [32; 62; 62]) in *.
    change (meaning (OGraphicsStateDictionaryAlpha d)) with
      (PDict (map (fun kv => (fst kv, meaning (snd kv))) [(bs "CA", OFloat d); (bs "ca", OFloat d)])).
    assert (F : reads_back (OFloat d)).
    { clear. intros n rest [Hd Hp] [Hs Hr] Hn. cbn [write_obj meaning] in *.
      rewrite read_tok; auto using dtoa_regular.
      - unfold read_token. rewrite parse_dtoa by auto. auto.
      - destruct (dtoa_head d Hd) as (b & r & E & _). rewrite E. discriminate. }
    assert (N : forall k, ~ In 35 k -> ~ has_hash_escape k).
    { intros k Hk (a & h1 & h2 & b & E & _). apply Hk. rewrite E. apply in_or_app. right. left. auto. }
    apply read_dict_back; auto.
    constructor; [|constructor; [|constructor]]; (split; [split; [apply bs_wf|apply N; cbn; lia]|auto]).
  - intros l HR n rest HC Hs Hn. apply clean_owned in HC. rewrite write_owned in *.
    cbn [meaning]. apply read_dict_back; auto.
  - intros l H. cbn [all_entries app]. auto.
  - intros p l Hp Hl. cbn [all_entries]. apply Forall_app. auto.
Qed.

Lemma object_round_trip : forall o rest, clean o -> safe_tail rest ->
  read_object (write_obj o ++ rest) = Some (meaning o, rest).
Proof.
  intros o rest Hc Hs. unfold read_object. apply all_read_back; auto.
  rewrite app_length. lia.
Qed.

(** ** The plain range in terms of magnitude (C04) *)
Lemma fold_digits_bounds : forall l acc, Forall (fun x => x < 10) l ->
  acc * 10 ^ N.of_nat (length l) <= fold_digits acc l < (acc + 1) * 10 ^ N.of_nat (length l).
Proof.
  induction l as [|x l IH]; intros acc H.
  - cbn. lia.
  - inversion H; subst. specialize (IH (acc * 10 + x) H3).
    unfold fold_digits in *. cbn [fold_left length].
    rewrite Nat2N.inj_succ, N.pow_succ_r'.
    set (p := 10 ^ N.of_nat (length l)) in *.
    set (f := fold_left _ l _) in *. nia.
Qed.

Lemma dec_bounds : forall d, wf_dec d -> d_digits d <> [] ->
  let n := fold_digits 0 (d_digits d) in
  let k := N.of_nat (length (d_digits d)) in
  10 ^ (k - 1) <= n < 10 ^ k.
Proof.
  intros d [H1 H2] H3. destruct (d_digits d) as [|x l]; [congruence|]. inversion H1; subst.
  cbn [hd] in H2. intros n k. subst n k. unfold fold_digits. cbn [fold_left length].
  pose proof (fold_digits_bounds l (0 * 10 + x) H5) as B. unfold fold_digits in B.
  rewrite Nat2N.inj_succ, N.pow_succ_r'. replace (N.succ (N.of_nat (length l)) - 1) with (N.of_nat (length l)) by lia.
  set (f := fold_left _ l _) in *. set (p := 10 ^ N.of_nat (length l)) in *. nia.
Qed.

Lemma Qabs_dec_value : forall d, (Qabs (dec_value d) ==
  inject_Z (Z.of_N (fold_digits 0 (d_digits d))) * ten_power (d_exp d))%Q.
Proof.
  intro d. unfold dec_value, real_value. rewrite Qred_correct, Qabs_Qmult.
  rewrite (Qabs_pos (ten_power _)) by (apply Qpower_0_le; discriminate).
  apply Qmult_comp; [|reflexivity].
  unfold dec_mantissa. fold (fold_digits 0 (d_digits d)). set (n := fold_digits _ _).
  destruct (d_neg d).
  - rewrite inject_Z_opp, Qabs_opp. apply Qabs_pos. unfold Qle. cbn. lia.
  - apply Qabs_pos. unfold Qle. cbn. lia.
Qed.

Lemma inject_pow : forall k, inject_Z (Z.of_N (10 ^ k)) == ten_power (Z.of_N k).
Proof. intro k. rewrite N2Z.inj_pow, Zpower_Qpower by lia. reflexivity. Qed.

Lemma dec_value_bounds : forall d, wf_dec d -> d_digits d <> [] ->
  let kk := (Z.of_nat (length (d_digits d)) + d_exp d)%Z in
  (ten_power (kk - 1) <= Qabs (dec_value d) /\ Qabs (dec_value d) < ten_power kk)%Q.
Proof.
  intros d H1 H2 kk. pose proof (dec_bounds d H1 H2) as B. cbv zeta in B.
  rewrite Qabs_dec_value. set (n := fold_digits _ _) in *.
  set (k := N.of_nat (length (d_digits d))) in *.
  assert (Hk : kk = (Z.of_N k + d_exp d)%Z) by (subst kk k; lia).
  assert (k <> 0) by (subst k; destruct (d_digits d); [congruence|cbn [length]; lia]).
  assert (P : (0 < ten_power (d_exp d))%Q) by (apply Qpower_0_lt; reflexivity).
  split.
  - replace (kk - 1)%Z with (Z.of_N (k - 1) + d_exp d)%Z by lia.
    unfold ten_power at 1. rewrite Qpower_plus by apply Qten_nonzero.
    fold (ten_power (Z.of_N (k - 1))). fold (ten_power (d_exp d)). rewrite <- inject_pow.
    apply Qmult_le_compat_r; [|apply Qlt_le_weak; auto]. rewrite <- Zle_Qle. lia.
  - rewrite Hk. unfold ten_power at 2. rewrite Qpower_plus by apply Qten_nonzero.
    fold (ten_power (Z.of_N k)). fold (ten_power (d_exp d)). rewrite <- inject_pow.
    apply Qmult_lt_compat_r; auto. rewrite <- Zlt_Qlt. lia.
Qed.

Lemma plain_range : forall d, wf_dec d -> d_digits d <> [] ->
  (plain_dec d <-> Qle (1 # 1000000) (Qabs (dec_value d)) /\
                   Qlt (Qabs (dec_value d)) (inject_Z (10 ^ 21))).
Proof.
  intros d H1 H2. pose proof (dec_value_bounds d H1 H2) as [B1 B2]. cbv zeta in *.
  unfold plain_dec. set (kk := (_ + d_exp d)%Z) in *. set (v := Qabs _) in *.
  assert (L : (1 # 1000000 == ten_power (-6))%Q) by reflexivity.
  assert (U : (inject_Z (10 ^ 21) == ten_power 21)%Q) by reflexivity.
  rewrite L, U. split.
  - intros [H|H]; [congruence|]. split.
    + eapply Qle_trans; [|exact B1]. apply Qpower_le_compat_l; [lia|discriminate].
    + eapply Qlt_le_trans; [exact B2|]. apply Qpower_le_compat_l; [lia|discriminate].
  - intros [A B]. right. split.
    + assert (X : (ten_power (-6) < ten_power kk)%Q) by (eapply Qle_lt_trans; eauto).
      apply Qpower_lt_compat_l_inv in X; [lia|reflexivity].
    + assert (X : (ten_power (kk - 1) < ten_power 21)%Q) by (eapply Qle_lt_trans; eauto).
      apply Qpower_lt_compat_l_inv in X; [lia|reflexivity].
Qed.
