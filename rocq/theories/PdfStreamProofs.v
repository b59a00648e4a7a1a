(** Proofs about PdfStream.v. *)
From Coq Require Import Lia.
From Verif Require Import Base.
From Verif Require Lester LesterSpec.
From Verif Require Import PdfObject PdfObjectProofs PdfSyntax PdfConvert PdfStream PdfStreamSpec.
Import Lester (io_error, io_outcome, IoOk, IoErr, IoPanic).

Lemma feed_app {W} (wa : W -> bytes -> W * io_outcome) a b w :
  feed wa (a ++ b) w = match feed wa a w with (w', IoOk) => feed wa b w' | other => other end.
Proof.
  revert w; induction a as [| c a IH]; intros w; [reflexivity|].
  cbn [app feed]. destruct (wa w c) as [w' [| e | n]]; [apply IH | reflexivity | reflexivity].
Qed.

(** ** The calls, which do not depend on the stream *)

Section Calls.
Variable dtoa_calls : dec -> list bytes.

Definition name_calls (name : bytes) : list bytes :=
  bs "/" :: flat_map (fun b => match kind b with Regular => [[b]] | _ => [bs "#"; write_hex b] end) name.
Definition pair_calls (key : bytes) (value : list bytes) : list bytes :=
  [bs " "] ++ name_calls key ++ [bs " "] ++ value.
Definition literal_calls (s : bytes) : list bytes :=
  [bs "("] ++ flat_map (fun b => if ((b =? 92) || (b =? 40) || (b =? 41))%N then [[92%N; b]] else [[b]]) s ++ [bs ")"].
Definition hex_calls (s : bytes) : list bytes :=
  [bs "<"] ++ flat_map (fun b => [write_hex b]) s ++ [bs ">"].

Fixpoint obj_calls (o : obj) : list bytes :=
  match o with
  | OI32 z => [itoa_Z z]
  | OUsize n => [itoa n]
  | OFloat d => dtoa_calls d
  | OName n => name_calls n
  | ODictionary d => [bs "<<"] ++ pairs_calls d ++ [bs " >>"]
  | OLiteralString s => literal_calls s
  | OHexString s => hex_calls s
  | OArray l =>
      [bs "["] ++
      match l with
      | [] => []
      | item :: rest => obj_calls item ++ flat_map (fun i => [bs " "] ++ obj_calls i) rest
      end ++ [bs "]"]
  | OReference id => [itoa id; bs " 0 R"]
  | OGraphicsStateDictionaryAlpha a =>
      [bs "<<"] ++
      flat_map (fun kv => pair_calls (fst kv) (dtoa_calls (snd kv))) [(bs "CA", a); (bs "ca", a)]
      ++ [bs " >>"]
  | ODictionaryWithOwnedKeys l =>
      [bs "<<"] ++ flat_map (fun kv => pair_calls (fst kv) (obj_calls (snd kv))) l ++ [bs " >>"]
  end
with pairs_calls (d : dictionary) : list bytes :=
  match d with
  | Dictionary prev pairs =>
      match prev with None => [] | Some p => pairs_calls p end ++
      flat_map (fun kv => pair_calls (fst kv) (obj_calls (snd kv))) pairs
  end.
Definition dict_calls (d : dictionary) : list bytes := [bs "<<"] ++ pairs_calls d ++ [bs " >>"].

Section Run.
Variable W : Type.
Variable wa : W -> bytes -> W * io_outcome.

Definition does (p : writes W) (cs : list bytes) : Prop := forall w, p w = feed wa cs w.

Lemma does_nothing : does (nothing W) [].
Proof. intros w; reflexivity. Qed.
Lemma does_put b : does (put W wa b) [b].
Proof. intros w. unfold put. cbn [feed]. destruct (wa w b) as [w' [| e | n]]; reflexivity. Qed.
Lemma does_then p q a b : does p a -> does q b -> does (and_then W p q) (a ++ b).
Proof.
  intros P Q w. unfold and_then. rewrite feed_app, (P w).
  destruct (feed wa a w) as [w' [| e | n]]; [apply Q | reflexivity | reflexivity].
Qed.
Lemma does_each {A} (f : A -> writes W) g l :
  Forall (fun x => does (f x) (g x)) l -> does (each W f l) (flat_map g l).
Proof.
  induction 1 as [| x l H _ IH]; [apply does_nothing|].
  cbn [flat_map]. change (each W f (x :: l)) with (and_then W (f x) (each W f l)).
  apply does_then; assumption.
Qed.
Lemma does_all {A} (f : A -> writes W) g l :
  (forall x, does (f x) (g x)) -> does (each W f l) (flat_map g l).
Proof. intros H. apply does_each, Forall_forall. intros; apply H. Qed.

Lemma does_float d : does (write_float_to W wa dtoa_calls d) (dtoa_calls d).
Proof.
  unfold write_float_to. replace (dtoa_calls d) with (flat_map (fun b => [b]) (dtoa_calls d)) at 2.
  - apply does_all. intros; apply does_put.
  - induction (dtoa_calls d) as [| x l IH]; [reflexivity|]. cbn [flat_map app]. now rewrite IH.
Qed.
Lemma does_name n : does (write_name_to W wa n) (name_calls n).
Proof.
  unfold write_name_to, name_calls. apply (does_then _ _ [_] _); [apply does_put|].
  apply does_all. intros b. destruct (kind b);
    [apply (does_then _ _ [_] [_]); apply does_put | apply (does_then _ _ [_] [_]); apply does_put | apply does_put].
Qed.
Lemma does_pair k v cs : does v cs -> does (write_pair_to W wa k v) (pair_calls k cs).
Proof.
  intros H. unfold write_pair_to, pair_calls.
  apply does_then; [apply does_put|]. apply does_then; [apply does_name|].
  apply does_then; [apply does_put | exact H].
Qed.
Lemma does_literal s : does (write_literal_to W wa s) (literal_calls s).
Proof.
  unfold write_literal_to, literal_calls. apply does_then; [apply does_put|].
  apply does_then; [| apply does_put]. apply does_all. intros b. destruct (_ || _); apply does_put.
Qed.
Lemma does_hex s : does (write_hex_string_to W wa s) (hex_calls s).
Proof.
  unfold write_hex_string_to, hex_calls. apply does_then; [apply does_put|].
  apply does_then; [| apply does_put]. apply does_all. intros b. apply does_put.
Qed.

Lemma does_obj_pairs :
  (forall o, does (write_obj_to W wa dtoa_calls o) (obj_calls o)) /\
  (forall d, does (write_pairs_to W wa dtoa_calls d) (pairs_calls d)).
Proof.
  set (P := fun o => does (write_obj_to W wa dtoa_calls o) (obj_calls o)).
  set (Q := fun d => does (write_pairs_to W wa dtoa_calls d) (pairs_calls d)).
  assert (HU : forall n, P (OUsize n)) by (intros; apply does_put).
  assert (HI : forall n, P (OI32 n)) by (intros; apply does_put).
  assert (HF : forall n, P (OFloat n)) by (intros; apply does_float).
  assert (HN : forall n, P (OName n)) by (intros; apply does_name).
  assert (HL : forall n, P (OLiteralString n)) by (intros; apply does_literal).
  assert (HH : forall n, P (OHexString n)) by (intros; apply does_hex).
  assert (HA : forall l, Forall P l -> P (OArray l)).
  { intros l H. unfold P. cbn [write_obj_to obj_calls]. apply does_then; [apply does_put|].
    apply does_then; [| apply does_put]. destruct H as [| x l Hx H]; [apply does_nothing|].
    apply does_then; [exact Hx|]. apply does_each. eapply Forall_impl; [| exact H].
    intros o Ho. apply does_then; [apply does_put | exact Ho]. }
  assert (HD : forall d, Q d -> P (ODictionary d)).
  { intros d H. unfold P. cbn [write_obj_to obj_calls]. apply does_then; [apply does_put|].
    apply does_then; [exact H | apply does_put]. }
  assert (HR : forall i, P (OReference i)).
  { intros i. unfold P. cbn [write_obj_to obj_calls]. apply (does_then _ _ [_] [_]); apply does_put. }
  assert (HG : forall d, P (OGraphicsStateDictionaryAlpha d)).
  { intros d. unfold P. cbn [write_obj_to obj_calls]. apply does_then; [apply does_put|].
    apply does_then; [| apply does_put].
    apply (does_all (fun kv => write_pair_to W wa (fst kv) (write_float_to W wa dtoa_calls (snd kv)))
             (fun kv => pair_calls (fst kv) (dtoa_calls (snd kv)))).
    intros kv. apply does_pair, does_float. }
  assert (HP : forall l, Forall (fun kv => P (snd kv)) l ->
    does (each W (fun kv => write_pair_to W wa (fst kv) (write_obj_to W wa dtoa_calls (snd kv))) l)
      (flat_map (fun kv => pair_calls (fst kv) (obj_calls (snd kv))) l)).
  { intros l H. apply does_each. eapply Forall_impl; [| exact H]. intros kv Hkv. apply does_pair, Hkv. }
  assert (HO : forall l, Forall (fun kv => P (snd kv)) l -> P (ODictionaryWithOwnedKeys l)).
  { intros l H. unfold P. cbn [write_obj_to obj_calls]. apply does_then; [apply does_put|].
    apply does_then; [apply HP, H | apply does_put]. }
  assert (H1 : forall l, Forall (fun kv => P (snd kv)) l -> Q (Dictionary None l)).
  { intros l H. unfold Q. cbn [write_pairs_to pairs_calls]. apply does_then; [apply does_nothing | apply HP, H]. }
  assert (H0 : forall p l, Q p -> Forall (fun kv => P (snd kv)) l -> Q (Dictionary (Some p) l)).
  { intros p l Hp H. unfold Q. cbn [write_pairs_to pairs_calls]. apply does_then; [exact Hp | apply HP, H]. }
  split; [exact (obj_ind2 P Q HU HI HF HN HL HH HA HD HR HG HO H1 H0) | exact (dict_ind2 P Q HU HI HF HN HL HH HA HD HR HG HO H1 H0)].
Qed.
Lemma does_dict d : does (write_dict_to W wa dtoa_calls d) (dict_calls d).
Proof. apply does_then; [apply does_put|]. apply does_then; [apply does_obj_pairs | apply does_put]. Qed.
End Run.

(** ** What the calls are given *)

Hypothesis dtoa_all : forall d, concat (dtoa_calls d) = dtoa d.

Lemma concat_flat {A} (f : A -> list bytes) g l :
  Forall (fun x => concat (f x) = g x) l -> concat (flat_map f l) = flat_map g l.
Proof.
  induction 1 as [| x l H _ IH]; [reflexivity|]. cbn [flat_map]. now rewrite concat_app, H, IH.
Qed.
Lemma concat_flat_all {A} (f : A -> list bytes) g l :
  (forall x, concat (f x) = g x) -> concat (flat_map f l) = flat_map g l.
Proof. intros H. apply concat_flat, Forall_forall. intros; apply H. Qed.

Lemma name_bytes n : concat (name_calls n) = write_name n.
Proof.
  unfold name_calls, write_name. cbn [concat]. f_equal. apply concat_flat_all.
  intros b. unfold write_name_byte. destruct (kind b); cbn [concat]; rewrite ?app_nil_r; reflexivity.
Qed.
Lemma pair_bytes k cs : concat (pair_calls k cs) = bs " " ++ write_name k ++ bs " " ++ concat cs.
Proof. unfold pair_calls. rewrite !concat_app, name_bytes. cbn [concat]. rewrite !app_nil_r. reflexivity. Qed.

Ltac calls := rewrite ?concat_app; cbn [concat]; rewrite ?app_nil_r.

Lemma obj_pairs_bytes :
  (forall o, concat (obj_calls o) = write_obj o) /\ (forall d, concat (pairs_calls d) = write_pairs d).
Proof.
  set (P := fun o => concat (obj_calls o) = write_obj o).
  set (Q := fun d => concat (pairs_calls d) = write_pairs d).
  assert (HU : forall n, P (OUsize n)) by (intros; apply app_nil_r).
  assert (HI : forall n, P (OI32 n)) by (intros; apply app_nil_r).
  assert (HF : forall n, P (OFloat n)) by (intros; apply dtoa_all).
  assert (HN : forall n, P (OName n)) by (intros; apply name_bytes).
  assert (HL : forall n, P (OLiteralString n)).
  { intros n. unfold P. cbn [obj_calls write_obj]. unfold literal_calls, write_literal. calls. f_equal. f_equal.
    apply concat_flat_all. intros b. unfold write_literal_byte. destruct (_ || _); reflexivity. }
  assert (HH : forall n, P (OHexString n)).
  { intros n. unfold P. cbn [obj_calls write_obj]. unfold hex_calls, write_hex_string. calls. f_equal. f_equal.
    apply concat_flat_all. intros b. apply app_nil_r. }
  assert (HA : forall l, Forall P l -> P (OArray l)).
  { intros l H. unfold P. cbn [obj_calls write_obj]. calls. f_equal. f_equal.
    destruct H as [| x l Hx H]; [reflexivity|]. rewrite concat_app. f_equal; [exact Hx|].
    apply concat_flat. eapply Forall_impl; [| exact H]. intros o Ho. calls. f_equal. exact Ho. }
  assert (HD : forall d, Q d -> P (ODictionary d)).
  { intros d H. unfold P. cbn [obj_calls write_obj]. calls. f_equal. f_equal. exact H. }
  assert (HR : forall i, P (OReference i)).
  { intros i. unfold P. cbn [obj_calls write_obj]. calls. reflexivity. }
  assert (HG : forall d, P (OGraphicsStateDictionaryAlpha d)).
  { intros d. unfold P. cbn [obj_calls write_obj]. calls. f_equal. f_equal.
    apply (concat_flat_all (fun kv => pair_calls (fst kv) (dtoa_calls (snd kv)))).
    intros kv. rewrite pair_bytes, dtoa_all. reflexivity. }
  assert (HP : forall l, Forall (fun kv => P (snd kv)) l ->
    concat (flat_map (fun kv => pair_calls (fst kv) (obj_calls (snd kv))) l) =
    flat_map (fun kv => bs " " ++ write_name (fst kv) ++ bs " " ++ write_obj (snd kv)) l).
  { intros l H. apply concat_flat. eapply Forall_impl; [| exact H]. intros kv Hkv. rewrite pair_bytes, Hkv. reflexivity. }
  assert (HO : forall l, Forall (fun kv => P (snd kv)) l -> P (ODictionaryWithOwnedKeys l)).
  { intros l H. unfold P. cbn [obj_calls write_obj]. calls. f_equal. f_equal. apply HP, H. }
  assert (H1 : forall l, Forall (fun kv => P (snd kv)) l -> Q (Dictionary None l)).
  { intros l H. unfold Q. cbn [pairs_calls write_pairs]. calls. cbn [app]. apply HP, H. }
  assert (H0 : forall p l, Q p -> Forall (fun kv => P (snd kv)) l -> Q (Dictionary (Some p) l)).
  { intros p l Hp H. unfold Q. cbn [pairs_calls write_pairs]. calls. f_equal; [exact Hp | apply HP, H]. }
  split; [exact (obj_ind2 P Q HU HI HF HN HL HH HA HD HR HG HO H1 H0) | exact (dict_ind2 P Q HU HI HF HN HL HH HA HD HR HG HO H1 H0)].
Qed.
Lemma dict_bytes d : concat (dict_calls d) = write_dict d.
Proof. unfold dict_calls, write_dict. calls. f_equal. f_equal. apply obj_pairs_bytes. Qed.

(** ** The file *)

Definition object_calls (id : N) (contents : list bytes) : list bytes :=
  [itoa id; bs " 0 obj" ++ LF] ++ contents ++ [LF ++ bs "endobj" ++ LF].

Fixpoint objects_calls (id : N) (l : list (list bytes)) : list bytes :=
  match l with
  | [] => []
  | contents :: rest => object_calls id contents ++ objects_calls (u32 (id + 1)) rest
  end.

(** The offsets, with [n] bytes before. *)
Fixpoint objects_offsets (n id : N) (l : list (list bytes)) : list N :=
  match l with
  | [] => []
  | contents :: rest => u32 n :: objects_offsets (n + lenN (concat (object_calls id contents))) (u32 (id + 1)) rest
  end.

Lemma len_app {A} (a b : list A) : lenN (a ++ b) = (lenN a + lenN b)%N.
Proof. unfold lenN. rewrite app_length. lia. Qed.

Lemma write_objects_calls : forall l id offsets o n,
  write_objects id (map (@concat N) l) offsets (mkCW o n) =
  (offsets ++ objects_offsets n id l, mkCW (o ++ concat (objects_calls id l)) (n + lenN (concat (objects_calls id l)))).
Proof.
  induction l as [| c l IH]; intros id offsets o n.
  - cbn [map write_objects objects_offsets objects_calls concat]. rewrite !app_nil_r. unfold lenN. cbn [length N.of_nat]. rewrite N.add_0_r. reflexivity.
  - cbn [map write_objects objects_offsets objects_calls]. unfold write_all. cbn [cw_out bytes_written]. rewrite IH.
    rewrite concat_app. unfold object_calls at 1. 
    assert (E : concat (object_calls id c) = itoa id ++ (bs " 0 obj" ++ LF) ++ concat c ++ LF ++ bs "endobj" ++ LF).
    { unfold object_calls. rewrite !concat_app. cbn [concat]. rewrite app_nil_r, <- !app_assoc. reflexivity. }
    fold (object_calls id c). rewrite E, <- !app_assoc. cbn [app].
    assert (E2 : (n + lenN (itoa id) + lenN (bs " 0 obj" ++ LF) + lenN (concat c) + lenN (LF ++ bs "endobj" ++ LF))%N =
      (n + lenN (itoa id ++ bs " 0 obj" ++ LF ++ concat c ++ LF ++ bs "endobj" ++ LF))%N) by (rewrite !len_app; lia).
    rewrite E2. f_equal. f_equal.
    rewrite <- N.add_assoc, <- len_app, <- !app_assoc. reflexivity.
Qed.

Section RunFile.
Variable W : Type.
Variable wa : W -> bytes -> W * io_outcome.

Lemma feed_counting : forall cs w n,
  exists n', feed (counting_write_all W wa) cs (Counting W w n) =
    (Counting W (fst (feed wa cs w)) n', snd (feed wa cs w)) /\
    (snd (feed wa cs w) = IoOk -> n' = n + lenN (concat cs))%N.
Proof.
  induction cs as [| c cs IH]; intros w n.
  - exists n. cbn [feed fst snd concat]. split; [reflexivity|]. intros _. unfold lenN. cbn [length N.of_nat]. lia.
  - cbn [feed concat]. unfold counting_write_all at 1. cbn [inner counted]. destruct (wa w c) as [w' [| e | k]].
    + destruct (IH w' (n + lenN c)%N) as (n' & E & H). exists n'. split; [exact E|].
      intros Hr. rewrite (H Hr), len_app. lia.
    + eexists. split; [reflexivity|]. discriminate.
    + eexists. split; [reflexivity|]. discriminate.
Qed.

Lemma does_object id p cs : does _ (counting_write_all W wa) p cs ->
  does _ (counting_write_all W wa)
    (and_then _ (put _ (counting_write_all W wa) (itoa id))
       (and_then _ (put _ (counting_write_all W wa) (bs " 0 obj" ++ LF))
          (and_then _ p (put _ (counting_write_all W wa) (LF ++ bs "endobj" ++ LF))))) (object_calls id cs).
Proof.
  intros H. unfold object_calls. apply (does_then _ _ _ _ [_] _); [apply does_put|].
  apply (does_then _ _ _ _ [_] _); [apply does_put|]. apply does_then; [exact H | apply does_put].
Qed.

Fixpoint numbered (id : N) (ds : list dictionary) : list (N * dictionary) :=
  match ds with [] => [] | d :: rest => (id, d) :: numbered (u32 (id + 1)) rest end.
Fixpoint number_after (id : N) {A} (l : list A) : N :=
  match l with [] => id | _ :: rest => number_after (u32 (id + 1)) rest end.

Lemma basic_calls : forall ds id offsets w n,
  exists n' next offsets',
    write_basic_to W wa dtoa_calls id (numbered id ds) offsets (Counting W w n) =
      (offsets', next, Counting W (fst (feed wa (objects_calls id (map dict_calls ds)) w)) n',
       snd (feed wa (objects_calls id (map dict_calls ds)) w)) /\
    (snd (feed wa (objects_calls id (map dict_calls ds)) w) = IoOk ->
     n' = (n + lenN (concat (objects_calls id (map dict_calls ds))))%N /\ next = number_after id ds /\
     offsets' = offsets ++ objects_offsets n id (map dict_calls ds)).
Proof.
  induction ds as [| d ds IH]; intros id offsets w n.
  - eexists _, _, _. split; [reflexivity|]. intros _. cbn [map objects_calls concat objects_offsets number_after].
    rewrite app_nil_r. unfold lenN. cbn [length N.of_nat]. rewrite N.add_0_r. auto.
  - cbn [map objects_calls numbered write_basic_to]. rewrite N.eqb_refl.
    rewrite (does_object id _ _ (does_dict _ (counting_write_all W wa) d)). rewrite feed_app.
    destruct (feed_counting (object_calls id (dict_calls d)) w n) as (n1 & E & H1). rewrite E. clear E.
    destruct (feed wa (object_calls id (dict_calls d)) w) as [w1 r1]. cbn [fst snd] in *.
    destruct r1 as [| e | k].
    + rewrite (H1 eq_refl).
      destruct (IH (u32 (id + 1)) (offsets ++ [u32 (counted W (Counting W w n))])
                  w1 (n + lenN (concat (object_calls id (dict_calls d))))%N) as (n' & next & offsets' & E & H).
      eexists _, _, _. split; [exact E|]. intros Hr. destruct (H Hr) as (-> & -> & ->).
      cbn [objects_offsets counted number_after]. rewrite concat_app, len_app, <- app_assoc. cbn [app].
      split; [lia|]. auto.
    + eexists _, _, _. split; [reflexivity|]. discriminate.
    + eexists _, _, _. split; [reflexivity|]. discriminate.
Qed.

Lemma indirect_calls : forall l id offsets w n,
  exists n' offsets',
    write_indirect_to W wa id l offsets (Counting W w n) =
      (offsets', Counting W (fst (feed wa (objects_calls id (map (fun c => [c]) l)) w)) n',
       snd (feed wa (objects_calls id (map (fun c => [c]) l)) w)) /\
    (snd (feed wa (objects_calls id (map (fun c => [c]) l)) w) = IoOk ->
     n' = (n + lenN (concat (objects_calls id (map (fun c => [c]) l))))%N /\
     offsets' = offsets ++ objects_offsets n id (map (fun c => [c]) l)).
Proof.
  induction l as [| d ds IH]; intros id offsets w n.
  - eexists _, _. split; [reflexivity|]. intros _. cbn [map objects_calls concat objects_offsets].
    rewrite app_nil_r. unfold lenN. cbn [length N.of_nat]. rewrite N.add_0_r. auto.
  - cbn [map objects_calls write_indirect_to].
    rewrite (does_object id _ _ (does_put _ (counting_write_all W wa) d)). rewrite feed_app.
    destruct (feed_counting (object_calls id [d]) w n) as (n1 & E & H1). rewrite E. clear E.
    destruct (feed wa (object_calls id [d]) w) as [w1 r1]. cbn [fst snd] in *.
    destruct r1 as [| e | k].
    + rewrite (H1 eq_refl).
      destruct (IH (u32 (id + 1)) (offsets ++ [u32 (counted W (Counting W w n))])
                  w1 (n + lenN (concat (object_calls id [d])))%N) as (n' & offsets' & E & H).
      eexists _, _. split; [exact E|]. intros Hr. destruct (H Hr) as (-> & ->).
      cbn [objects_offsets counted]. rewrite concat_app, len_app, <- app_assoc. cbn [app].
      split; [lia|]. auto.
    + eexists _, _. split; [reflexivity|]. discriminate.
    + eexists _, _. split; [reflexivity|]. discriminate.
Qed.
End RunFile.

Definition trailer (size : N) : dictionary :=
  dict [ (bs "Size", OUsize size); (bs "Root", OReference CATALOG_ID); (bs "Info", OReference INFO_ID) ].
Definition tail_calls (total : N) (offsets : list N) (startxref : N) : list bytes :=
  [bs "xref" ++ LF ++ bs "0 "; itoa (total + 1); LF ++ bs "0000000000 65535 f " ++ LF] ++
  flat_map (fun o => [xref_entry o]) offsets ++ [bs "trailer" ++ LF] ++ dict_calls (trailer (total + 1)) ++
  [LF ++ bs "startxref" ++ LF; itoa startxref; LF ++ bs "%%EOF"].

Definition basic_list (b : basic_objects) : list dictionary := [page_tree b; catalog b; info b].
Definition body_calls (f : pdf_file) (b : basic_objects) : list bytes :=
  [pdf_header] ++ objects_calls FIRST_ID (map dict_calls (basic_list b)) ++
  objects_calls FIRST_AVAILABLE_ID (map (fun c => [c]) (indirect_objects f)).
Definition all_offsets (f : pdf_file) (b : basic_objects) : list N :=
  objects_offsets (lenN pdf_header) FIRST_ID (map dict_calls (basic_list b)) ++
  objects_offsets (lenN pdf_header + lenN (concat (objects_calls FIRST_ID (map dict_calls (basic_list b)))))
    FIRST_AVAILABLE_ID (map (fun c => [c]) (indirect_objects f)).
Definition file_calls (f : pdf_file) (b : basic_objects) : list bytes :=
  body_calls f b ++
  tail_calls ((FIRST_AVAILABLE_ID - FIRST_ID) + lenN (indirect_objects f)) (all_offsets f b)
    (lenN (concat (body_calls f b))).

Lemma tail_done W wa total offsets startxref :
  does W wa (write_tail_to W wa dtoa_calls total offsets startxref) (tail_calls total offsets startxref).
Proof.
  unfold write_tail_to, tail_calls. cbv zeta.
  apply (does_then _ _ _ _ [_] _); [apply does_put|].
  apply (does_then _ _ _ _ [_] _); [apply does_put|].
  apply (does_then _ _ _ _ [_] _); [apply does_put|].
  apply does_then; [apply does_all; intros; apply does_put|].
  apply does_then; [apply does_put|].
  apply does_then; [apply does_dict|].
  apply (does_then _ _ _ _ [_] _); [apply does_put|].
  apply (does_then _ _ _ _ [_] [_]); apply does_put.
Qed.

Lemma offsets_length : forall l n id, length (objects_offsets n id l) = length l.
Proof. induction l as [| c l IH]; intros n id; [reflexivity|]. cbn [objects_offsets length]. now rewrite IH. Qed.

Lemma total_offsets f b : ((FIRST_AVAILABLE_ID - FIRST_ID) + lenN (indirect_objects f))%N = lenN (all_offsets f b).
Proof.
  unfold all_offsets. rewrite len_app. unfold lenN. rewrite !offsets_length, !map_length. reflexivity.
Qed.

Lemma file_done W wa f b : does W wa (pdf_write_to W wa dtoa_calls f b) (file_calls f b).
Proof.
  intros w. unfold pdf_write_to, file_calls, body_calls. cbv zeta. rewrite !feed_app. cbn [feed].
  unfold counting_write_all at 1. cbn [inner counted]. destruct (wa w pdf_header) as [w1 [| e | k]];
    [| reflexivity | reflexivity].
  rewrite feed_app.
  change [(PAGE_TREE_ID, page_tree b); (CATALOG_ID, catalog b); (INFO_ID, info b)]
    with (numbered FIRST_ID (basic_list b)).
  destruct (basic_calls W wa (basic_list b) FIRST_ID [] w1 (0 + lenN pdf_header)) as (n2 & next & offs & E & H).
  rewrite E. clear E.
  destruct (feed wa (objects_calls FIRST_ID (map dict_calls (basic_list b))) w1) as [w2 r2]. cbn [fst snd] in *.
  destruct r2 as [| e | k]; [| reflexivity | reflexivity].
  destruct (H eq_refl) as (-> & -> & ->). clear H.
  change (number_after FIRST_ID (basic_list b)) with FIRST_AVAILABLE_ID. rewrite N.eqb_refl.
  match goal with |- context [write_indirect_to W wa ?i ?l ?o (Counting W ?w ?n)] =>
    destruct (indirect_calls W wa l i o w n) as (n3 & offs3 & E & H) end.
  rewrite E. clear E.
  destruct (feed wa (objects_calls FIRST_AVAILABLE_ID (map (fun c => [c]) (indirect_objects f))) w2) as [w3 r3].
  cbn [fst snd] in *. destruct r3 as [| e | k]; [| reflexivity | reflexivity].
  destruct (H eq_refl) as (-> & ->). clear H. cbn [app inner counted].
  change (0 + lenN pdf_header)%N with (lenN pdf_header).
  fold (all_offsets f b). rewrite <- (total_offsets f b), N.eqb_refl.
  rewrite tail_done. cbn [concat]. rewrite concat_app, !len_app, N.add_assoc. reflexivity.
Qed.

Lemma file_bytes f b : concat (file_calls f b) = pdf_write f b.
Proof.
  unfold file_calls, pdf_write. cbv zeta. unfold write_all at 1. cbn [cw_out bytes_written app].
  change (0 + lenN pdf_header)%N with (lenN pdf_header).
  assert (E1 : [write_dict (page_tree b); write_dict (catalog b); write_dict (info b)] =
    map (@concat N) (map dict_calls (basic_list b))).
  { unfold basic_list. cbn [map]. now rewrite !dict_bytes. }
  rewrite E1, write_objects_calls.
  assert (E2 : indirect_objects f = map (@concat N) (map (fun c => [c]) (indirect_objects f))).
  { rewrite map_map. rewrite <- (map_id (indirect_objects f)) at 1. apply map_ext. intros c. cbn [concat]. now rewrite app_nil_r. }
  replace (write_objects FIRST_AVAILABLE_ID (indirect_objects f))
    with (write_objects FIRST_AVAILABLE_ID (map (@concat N) (map (fun c => [c]) (indirect_objects f)))) by (f_equal; symmetry; exact E2).
  rewrite write_objects_calls. cbn [app]. fold (all_offsets f b). cbn [cw_out bytes_written].
  assert (E3 : concat (body_calls f b) =
    (pdf_header ++ concat (objects_calls FIRST_ID (map dict_calls (basic_list b)))) ++
    concat (objects_calls FIRST_AVAILABLE_ID (map (fun c => [c]) (indirect_objects f)))).
  { unfold body_calls. rewrite !concat_app. cbn [concat]. rewrite app_nil_r, <- app_assoc. reflexivity. }
  rewrite concat_app, E3. f_equal. unfold tail_calls. rewrite !concat_app. cbn [concat].
  rewrite dict_bytes. fold (trailer (FIRST_AVAILABLE_ID - FIRST_ID + lenN (indirect_objects f) + 1)).
  rewrite (concat_flat_all (fun o => [xref_entry o]) xref_entry) by (intros; apply app_nil_r).
  rewrite !len_app, !app_nil_r, <- !app_assoc. reflexivity.
Qed.
End Calls.

(** ** Streams *)

Lemma feed_honest {W} (taken : W -> bytes) wa : honest taken wa -> forall cs w w' r,
  feed wa cs w = (w', r) ->
  match r with
  | IoOk => taken w' = taken w ++ concat cs
  | _ => exists p q, concat cs = p ++ q /\ taken w' = taken w ++ p
  end.
Proof.
  intros H. induction cs as [| c cs IH]; intros w w' r E.
  - cbn [feed] in E. assert (w' = w) by congruence. assert (r = IoOk) by congruence. subst. cbn [concat]. now rewrite app_nil_r.
  - cbn [feed concat] in *. destruct (wa w c) as [w1 r1] eqn:E1. pose proof (H _ _ _ _ E1) as H1.
    destruct r1 as [| e | k].
    + specialize (IH _ _ _ E). destruct r as [| e | k].
      * rewrite IH, H1, app_assoc. reflexivity.
      * destruct IH as (p & q & -> & ->). exists (c ++ p), q. rewrite H1, !app_assoc. auto.
      * destruct IH as (p & q & -> & ->). exists (c ++ p), q. rewrite H1, !app_assoc. auto.
    + assert (w' = w1) by congruence. assert (r = IoErr e) by congruence. subst.
      destruct H1 as (p & q & -> & ->). exists p, (q ++ concat cs). rewrite app_assoc. auto.
    + assert (w' = w1) by congruence. assert (r = IoPanic k) by congruence. subst.
      destruct H1 as (p & q & -> & ->). exists p, (q ++ concat cs). rewrite app_assoc. auto.
Qed.

Lemma feed_invariant {W} (I : W -> Prop) (R : io_outcome -> Prop) (wa : W -> bytes -> W * io_outcome) :
  (forall w b, I w -> I (fst (wa w b)) /\ R (snd (wa w b))) -> R IoOk ->
  forall cs w, I w -> I (fst (feed wa cs w)) /\ R (snd (feed wa cs w)).
Proof.
  intros H R0. induction cs as [| c cs IH]; intros w Hw; [split; assumption|].
  cbn [feed]. destruct (H w c Hw) as [H1 H2]. destruct (wa w c) as [w1 [| e | k]]; cbn [fst snd] in *;
    [apply IH, H1 | auto | auto].
Qed.

Lemma feed_vec : forall cs v, feed vec_write_all cs v = (v ++ concat cs, IoOk).
Proof.
  induction cs as [| c cs IH]; intros v; cbn [feed concat]; [now rewrite app_nil_r|].
  unfold vec_write_all at 1. rewrite IH, app_assoc. reflexivity.
Qed.

Lemma answering_honest zero : honest fst (answering_write_all zero).
Proof.
  intros [taken answers] b [taken' answers'] r. unfold answering_write_all. cbn [fst snd].
  revert taken b taken' answers' r.
  induction answers as [| a answers IH]; intros taken b taken' answers' r E.
  - destruct b as [| x b]; cbn [default_write_all] in E.
    + assert (taken' = taken) by congruence. assert (r = IoOk) by congruence. subst. now rewrite app_nil_r.
    + assert (taken' = taken ++ x :: b) by congruence. assert (r = IoOk) by congruence. subst. reflexivity.
  - destruct b as [| x b].
    + cbn [default_write_all] in E. assert (taken' = taken) by congruence. assert (r = IoOk) by congruence. subst. now rewrite app_nil_r.
    + assert (Stop : forall o, (taken, answers, o) = (taken', answers', r) -> o <> IoOk ->
        match r with IoOk => taken' = taken ++ x :: b
        | _ => exists p q, x :: b = p ++ q /\ taken' = taken ++ p end).
      { intros o Eo No. assert (taken' = taken) by congruence. assert (r = o) by congruence. subst.
        destruct o; [congruence | exists [], (x :: b); rewrite app_nil_r; auto | exists [], (x :: b); rewrite app_nil_r; auto]. }
      cbn [default_write_all] in E. destruct a as [[| n] | | e | k].
      * apply (Stop _ E). discriminate.
      * destruct (Nat.leb_spec (S n) (length (x :: b))) as [L | L]; [| apply (Stop _ E); discriminate].
        specialize (IH _ _ _ _ _ E). destruct r as [| e | k].
        -- rewrite IH, <- app_assoc, (firstn_skipn (S n) (x :: b)). reflexivity.
        -- destruct IH as (p & q & Hs & ->). exists (firstn (S n) (x :: b) ++ p), q.
           rewrite <- !app_assoc, <- Hs, firstn_skipn. auto.
        -- destruct IH as (p & q & Hs & ->). exists (firstn (S n) (x :: b) ++ p), q.
           rewrite <- !app_assoc, <- Hs, firstn_skipn. auto.
      * apply (IH _ _ _ _ _ E).
      * apply (Stop _ E). discriminate.
      * apply (Stop _ E). discriminate.
Qed.

(** Where errors and panics come from. *)
Definition caused (zero : io_error) (answers : list answer) (r : io_outcome) : Prop :=
  match r with
  | IoOk => True
  | IoErr e => In (Failed e) answers \/ (In (Wrote 0) answers /\ e = zero)
  | IoPanic n => In (Panics n) answers \/ (exists k, In (Wrote (S k)) answers /\ n = 1%N)
  end.
Lemma caused_more zero a answers r : caused zero answers r -> caused zero (a :: answers) r.
Proof.
  destruct r as [| e | n]; cbn [caused].
  - auto.
  - intros [H | [H E]]; [left | right; split; [| exact E]]; right; assumption.
  - intros [H | (k & H & E)]; [left; right; exact H | right; exists k; split; [right; exact H | exact E]].
Qed.
Lemma answering_caused zero : forall answers taken b,
  incl (snd (fst (default_write_all zero answers taken b))) answers /\
  caused zero answers (snd (default_write_all zero answers taken b)).
Proof.
  induction answers as [| a answers IH]; intros taken b.
  - destruct b; cbn [default_write_all fst snd caused]; split; auto; apply incl_refl.
  - destruct b as [| x b]; [cbn [default_write_all fst snd caused]; split; [apply incl_refl | exact I]|].
    cbn [default_write_all]. destruct a as [[| n] | | e | k].
    + cbn [fst snd caused]. split; [apply incl_tl, incl_refl|]. right. split; [left; reflexivity | reflexivity].
    + destruct (S n <=? length (x :: b))%nat.
      * destruct (IH (taken ++ firstn (S n) (x :: b)) (skipn (S n) (x :: b))) as [H1 H2].
        split; [apply incl_tl, H1 | apply caused_more, H2].
      * cbn [fst snd caused]. split; [apply incl_tl, incl_refl|]. right. exists n. split; [left; reflexivity | reflexivity].
    + destruct (IH taken (x :: b)) as [H1 H2]. split; [apply incl_tl, H1 | apply caused_more, H2].
    + cbn [fst snd caused]. split; [apply incl_tl, incl_refl|]. left. left. reflexivity.
    + cbn [fst snd caused]. split; [apply incl_tl, incl_refl|]. left. left. reflexivity.
Qed.
Lemma caused_incl zero a b r : incl a b -> caused zero a r -> caused zero b r.
Proof.
  intros H. destruct r as [| e | n]; cbn [caused]; [auto | |].
  - intros [K | [K E]]; [left; apply H, K | right; split; [apply H, K | exact E]].
  - intros [K | (k & K & E)]; [left; apply H, K | right; exists k; split; [apply H, K | exact E]].
Qed.
Lemma feed_caused zero answers cs taken :
  caused zero answers (snd (feed (answering_write_all zero) cs (taken, answers))).
Proof.
  refine (proj2 (feed_invariant (fun s => incl (snd s) answers) (caused zero answers) (answering_write_all zero) _ I cs (taken, answers) (incl_refl _))).
  intros [t a] b H. cbn [snd] in H. unfold answering_write_all. cbn [fst snd].
  destruct (answering_caused zero a t b) as [H1 H2].
  split; [eapply incl_tran; [exact H1 | exact H] | exact (caused_incl _ _ _ _ H H2)].
Qed.

(** ** Files *)

Section Files.
Variable F : Type.
Variable contents : F -> bytes.
Variable fput : F -> bytes -> F * N * option io_error.
Hypothesis Hput : honest_file contents fput.

Definition buffered (b : Lester.buf_writer F) : bytes := contents (Lester.bw_file F b) ++ Lester.bw_buffer F b.

Lemma flush_taken b : buffered (fst (Lester.flush_buf F fput b)) = buffered b /\
  (snd (Lester.flush_buf F fput b) = None -> Lester.bw_buffer F (fst (Lester.flush_buf F fput b)) = []) /\
  (length (Lester.bw_buffer F (fst (Lester.flush_buf F fput b))) <= length (Lester.bw_buffer F b))%nat.
Proof.
  unfold Lester.flush_buf, buffered. destruct (fput _ _) as [[f' n] e] eqn:E. pose proof (Hput _ _ _ _ _ E) as H.
  destruct e as [e |]; cbn [fst snd Lester.bw_file Lester.bw_buffer] in *.
  - rewrite H, <- app_assoc, firstn_skipn. split; [reflexivity|]. split; [discriminate|]. rewrite skipn_length. lia.
  - rewrite H, app_nil_r. split; [reflexivity|]. split; [reflexivity|]. cbn [length]. lia.
Qed.

Lemma dropped b : exists p q, buffered b = p ++ q /\ contents (Lester.drop_buf_writer F fput b) = p /\
  (length q <= length (Lester.bw_buffer F b))%nat /\
  (snd (Lester.flush_buf F fput b) = None -> q = []).
Proof.
  destruct (flush_taken b) as (H1 & H2 & H3).
  exists (contents (Lester.drop_buf_writer F fput b)), (Lester.bw_buffer F (fst (Lester.flush_buf F fput b))).
  split; [| split; [reflexivity | split; [exact H3 | exact H2]]].
  rewrite <- H1. reflexivity.
Qed.

Lemma buf_honest : honest buffered (Lester.buf_write_all F fput).
Proof.
  intros b data b' r. unfold Lester.buf_write_all.
  set (big := (8192 <? _)%N). destruct big eqn:Big.
  - destruct (flush_taken b) as (H1 & H2 & H3). destruct (Lester.flush_buf F fput b) as [b1 [e |]]; cbn [fst snd] in *; intros E.
    + assert (b' = b1) by congruence. assert (r = IoErr e) by congruence. subst.
      exists [], data. rewrite app_nil_r. auto.
    + destruct (8192 <=? _)%N.
      * destruct (fput (Lester.bw_file F b1) data) as [[f n] e] eqn:Ep. pose proof (Hput _ _ _ _ _ Ep) as Hp.
        rewrite <- H1. unfold buffered. assert (b' = Lester.BufWriter F f (Lester.bw_buffer F b1)) by congruence. subst b'.
        cbn [Lester.bw_file Lester.bw_buffer]. rewrite (H2 eq_refl), !app_nil_r. destruct e as [e |].
        -- assert (r = IoErr e) by congruence. subst. exists (firstn (N.to_nat n) data), (skipn (N.to_nat n) data).
           rewrite firstn_skipn. auto.
        -- assert (r = IoOk) by congruence. subst. exact Hp.
      * assert (b' = Lester.BufWriter F (Lester.bw_file F b1) (Lester.bw_buffer F b1 ++ data)) by congruence.
        assert (r = IoOk) by congruence. subst. rewrite <- H1. unfold buffered. cbn [Lester.bw_file Lester.bw_buffer].
        apply app_assoc.
  - intros E. destruct (N.leb_spec 8192 (N.of_nat (length data))) as [L | L].
    + assert (Eb : Lester.bw_buffer F b = []).
      { subst big. apply N.ltb_ge in Big. destruct (Lester.bw_buffer F b); [reflexivity|]. cbn [length] in Big. lia. }
      destruct (fput (Lester.bw_file F b) data) as [[f n] e] eqn:Ep. pose proof (Hput _ _ _ _ _ Ep) as Hp.
      unfold buffered. assert (b' = Lester.BufWriter F f (Lester.bw_buffer F b)) by congruence. subst b'.
      cbn [Lester.bw_file Lester.bw_buffer]. rewrite Eb, !app_nil_r. destruct e as [e |].
      -- assert (r = IoErr e) by congruence. subst. exists (firstn (N.to_nat n) data), (skipn (N.to_nat n) data).
         rewrite firstn_skipn. auto.
      -- assert (r = IoOk) by congruence. subst. exact Hp.
    + assert (b' = Lester.BufWriter F (Lester.bw_file F b) (Lester.bw_buffer F b ++ data)) by congruence.
      assert (r = IoOk) by congruence. subst. unfold buffered. cbn [Lester.bw_file Lester.bw_buffer]. apply app_assoc.
Qed.

Lemma buf_small b data : (N.of_nat (length (Lester.bw_buffer F b)) <= 8192)%N ->
  (N.of_nat (length (Lester.bw_buffer F (fst (Lester.buf_write_all F fput b data)))) <= 8192)%N /\
  (forall n, snd (Lester.buf_write_all F fput b data) <> IoPanic n).
Proof.
  intros H. unfold Lester.buf_write_all.
  set (big := (8192 <? _)%N). destruct big eqn:Big.
  - destruct (flush_taken b) as (H1 & H2 & H3). destruct (Lester.flush_buf F fput b) as [b1 [e |]]; cbn [fst snd] in *.
    + split; [lia | discriminate].
    + destruct (N.leb_spec 8192 (N.of_nat (length data))) as [L | L].
      * destruct (fput _ data) as [[f n] [e |]]; cbn [fst snd Lester.bw_buffer]; rewrite (H2 eq_refl); cbn [length];
          (split; [lia | discriminate]).
      * cbn [fst snd Lester.bw_buffer]. rewrite (H2 eq_refl). cbn [app]. split; [lia | discriminate].
  - subst big. apply N.ltb_ge in Big. destruct (8192 <=? _)%N.
    + destruct (fput _ data) as [[f n] [e |]]; cbn [fst snd Lester.bw_buffer]; (split; [lia | discriminate]).
    + cbn [fst snd Lester.bw_buffer]. rewrite app_length. split; [lia | discriminate].
Qed.

Definition grown (f : F) (b : Lester.buf_writer F) : Prop :=
  exists t, contents (Lester.bw_file F b) = contents f ++ t.

Lemma put_grows f0 f b f' n e : fput f b = (f', n, e) -> (exists t, contents f = contents f0 ++ t) ->
  exists t, contents f' = contents f0 ++ t.
Proof.
  intros E [t Ht]. pose proof (Hput _ _ _ _ _ E) as H. destruct e as [e |]; rewrite H, Ht, <- app_assoc; eexists; reflexivity.
Qed.
Lemma flush_grows f b : grown f b -> grown f (fst (Lester.flush_buf F fput b)).
Proof.
  intros G. unfold Lester.flush_buf. destruct (fput _ _) as [[f' n] e] eqn:E.
  destruct e as [e |]; exact (put_grows f _ _ _ _ _ E G).
Qed.
Lemma buf_grows f b data : grown f b -> grown f (fst (Lester.buf_write_all F fput b data)).
Proof.
  intros G. unfold Lester.buf_write_all. set (step := if (8192 <? _)%N then _ else _).
  assert (G1 : grown f (fst step)) by (subst step; destruct (8192 <? _)%N; [apply flush_grows, G | exact G]).
  destruct step as [b1 [e |]]; [exact G1|]. cbn [fst] in G1. destruct (8192 <=? _)%N; [| exact G1].
  destruct (fput (Lester.bw_file F b1) data) as [[f' n] e] eqn:E. exact (put_grows f _ _ _ _ _ E G1).
Qed.

(** A small text stays in the buffer. *)
Lemma feed_small : forall cs f buffer, (N.of_nat (length (buffer ++ concat cs)) < 8192)%N ->
  feed (Lester.buf_write_all F fput) cs (Lester.BufWriter F f buffer) = (Lester.BufWriter F f (buffer ++ concat cs), IoOk).
Proof.
  induction cs as [| c cs IH]; intros f buffer H; cbn [feed concat] in *.
  - now rewrite app_nil_r.
  - rewrite !app_length in H. unfold Lester.buf_write_all at 1. cbn [Lester.bw_buffer Lester.bw_file].
    destruct (N.ltb_spec 8192 (N.of_nat (length buffer + length c))); [lia|].
    destruct (N.leb_spec 8192 (N.of_nat (length c))); [lia|].
    rewrite IH; [cbn [Lester.bw_buffer Lester.bw_file]; now rewrite app_assoc|]. cbn [Lester.bw_buffer Lester.bw_file]. rewrite !app_length. lia.
Qed.

(** A file that never fails. *)
Lemma feed_works : (forall f b, snd (fput f b) = None) -> forall cs b,
  snd (feed (Lester.buf_write_all F fput) cs b) = IoOk.
Proof.
  intros Hok cs b.
  refine (proj2 (feed_invariant (fun _ => True) (fun r => r = IoOk) (Lester.buf_write_all F fput) _ eq_refl cs b I)).
  intros w d _. split; [exact I|]. unfold Lester.buf_write_all.
  set (step := if (8192 <? _)%N then _ else _).
  assert (Hs : snd step = None).
  { subst step. destruct (8192 <? _)%N; [| reflexivity]. unfold Lester.flush_buf.
    pose proof (Hok (Lester.bw_file F w) (Lester.bw_buffer F w)) as K. destruct (fput _ _) as [[f n] e]. cbn [snd] in K. subst e. reflexivity. }
  destruct step as [b1 e]. cbn [snd] in Hs. subst e. destruct (8192 <=? _)%N; [| reflexivity].
  pose proof (Hok (Lester.bw_file F b1) d) as K. destruct (fput _ d) as [[f n] e]. cbn [snd] in K. subst e. reflexivity.
Qed.
End Files.
