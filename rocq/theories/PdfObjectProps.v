(** Properties C01-C04 of the PDF object serialiser.
    The reader, the meaning of objects and the side conditions are in [PdfObjectSpec]. *)
From Verif Require Import Base PdfObject PdfObjectSpec PdfObjectProofs.
From Coq Require Import Qabs.
Local Open Scope N_scope.

(** C01: what is written for any object is read as its meaning, whatever follows. *)
Theorem C01_object_round_trip : forall o rest, clean o -> safe_tail rest ->
  read_object (write_obj o ++ rest) = Some (meaning o, rest).
Proof. exact object_round_trip. Qed.
Print Assumptions C01_object_round_trip.

(** A chained dictionary holding every kind of object meets the hypotheses. *)
Definition c01_sample : obj :=
  ODictionary (linked_dict (dict [(bs "Type", OName (bs "A B/C"))])
    [ (bs "Kids", OArray [OUsize 7; OReference 12; OI32 (-3); OFloat (mkDec true [1; 2; 5] (-2));
                          OArray []; OUsize 0; OUsize 0]);
      (bs "S", OLiteralString (bs "a)(\"));
      (bs "H", OHexString [0; 255; 13]);
      (bs "GS", OGraphicsStateDictionaryAlpha (mkDec false [5] (-1)));
      (bs "R", ODictionaryWithOwnedKeys [(bs "f0", OReference 4)]) ]).
Example c01_hyps : clean c01_sample /\ safe_tail (bs " endobj").
Proof.
  assert (N : forall k, ~ In 35 k -> ~ has_hash_escape k).
  { intros k Hk (a & h1 & h2 & b & E & _). apply Hk. rewrite E. apply in_or_app. right. left. auto. }
  assert (C : forall s, ~ In 35 (bs s) -> clean_name (bs s)).
  { intros s Hs. split; [apply bs_wf|apply N; auto]. }
  split; [|split; reflexivity].
  cbn [clean clean_pairs c01_sample dict linked_dict].
  repeat split; auto; try (apply C; cbn; lia); try apply bs_wf; try (cbn; lia).
  all: try (right; cbn; lia).
  all: repeat constructor; cbn; lia.
Qed.
Example c01_computed : read_object (write_obj c01_sample ++ bs " endobj") =
  Some (PDict
    [ (bs "Type", PName (bs "A B/C"));
      (bs "Kids", PArray [PInt 7; PRef 12 0; PInt (-3); PReal (-5 # 4); PArray []; PInt 0; PInt 0]);
      (bs "S", PString (bs "a)(\")); (bs "H", PString [0; 255; 13]);
      (bs "GS", PDict [(bs "CA", PReal (1 # 2)); (bs "ca", PReal (1 # 2))]);
      (bs "R", PDict [(bs "f0", PRef 4 0)]) ], bs " endobj").
Proof. vm_compute. reflexivity. Qed.

(** The side conditions of C01 are needed: a reference cannot be followed by [0 R] text,
    e.g. an array cannot be misread, but a bare integer can. *)
Example c01_tail_needed : read_object (write_obj (OUsize 7) ++ bs " 0 R") = Some (PRef 7 0, []).
Proof. vm_compute. reflexivity. Qed.

(** C02: names survive exactly when they contain no [#] followed by two hex digits. *)
Theorem C02_names : forall n rest, wf_bytes n -> safe_head rest ->
  (read_object (write_name n ++ rest) = Some (PName n, rest) <-> ~ has_hash_escape n).
Proof. exact name_round_trip_iff. Qed.
Print Assumptions C02_names.

Theorem C02_refuted : exists n rest, wf_bytes n /\ safe_head rest /\
  read_object (write_name n ++ rest) = Some (PName (bs "AB"), rest) /\ n <> bs "AB".
Proof.
  exists (bs "A#42"), (bs " ").
  split; [apply bs_wf|]. split; [reflexivity|]. split; [vm_compute; reflexivity|discriminate].
Qed.
Print Assumptions C02_refuted.

Example c02_survives : ~ has_hash_escape (bs "A (b)/#") /\ safe_head (bs "/Next").
Proof.
  split; [|reflexivity]. intros (a & h1 & h2 & b & E & H1 & H2).
  do 7 (destruct a as [|? a]; [cbn in E; try discriminate E; try (injection E; intros; subst; cbn in *; congruence)|
                       cbn in E; injection E as _ E]).
  destruct a; discriminate.
Qed.

(** C03: strings. *)
Theorem C03_literal_strings : forall s rest,
  read_object (write_literal s ++ rest) = Some (PString (normalize_eol s), rest) /\
  (read_object (write_literal s ++ rest) = Some (PString s, rest) <-> ~ In 13 s).
Proof. exact literal_round_trip_iff. Qed.
Print Assumptions C03_literal_strings.

Theorem C03_hex_strings : forall s rest, wf_bytes s ->
  read_object (write_hex_string s ++ rest) = Some (PString s, rest).
Proof. exact hex_round_trip. Qed.
Print Assumptions C03_hex_strings.

Theorem C03_literal_strings_refuted : exists s, wf_bytes s /\
  read_object (write_literal s) = Some (PString [97; 10; 98], []) /\ s = [97; 13; 98].
Proof. exists [97; 13; 98]. split; [repeat constructor|]. split; vm_compute; reflexivity. Qed.
Print Assumptions C03_literal_strings_refuted.

Example c03_sample : read_object (write_literal (bs "))\n((" ++ [10]) ++ bs "x") =
  Some (PString (bs "))\n((" ++ [10]), bs "x") /\ wf_bytes [0; 62; 60; 255].
Proof. split; [vm_compute; reflexivity|repeat constructor]. Qed.

(** C04: reals. *)
Theorem C04_reals : forall d rest, wf_dec d -> safe_head rest ->
  (read_object (dtoa d ++ rest) = Some (PReal (dec_value d), rest) <-> plain_dec d) /\
  (~ plain_dec d -> read_object (dtoa d ++ rest) = None).
Proof. exact real_round_trip_iff. Qed.
Print Assumptions C04_reals.

Theorem C04_reals_refuted : exists d, wf_dec d /\ read_object (dtoa d) = None.
Proof.
  exists (mkDec false [1] (-7)). split; [repeat constructor; discriminate|]. vm_compute. reflexivity.
Qed.
Print Assumptions C04_reals_refuted.

(** The decimal range in terms of magnitude: plain notation means 10^-6 <= |x| < 10^21. *)
Theorem C04_plain_range : forall d, wf_dec d -> d_digits d <> [] ->
  (plain_dec d <-> Qle (1 # 1000000) (Qabs (dec_value d)) /\
                   Qlt (Qabs (dec_value d)) (inject_Z (10 ^ 21))).
Proof. exact plain_range. Qed.
Print Assumptions C04_plain_range.

Example c04_sample : wf_dec (mkDec true [3; 7; 5] (-3)) /\ plain_dec (mkDec true [3; 7; 5] (-3)) /\
  dtoa (mkDec true [3; 7; 5] (-3)) = bs "-0.375" /\
  dtoa (mkDec false [1; 5] 21) = bs "1.5e22" /\ dtoa (mkDec false [7; 5] (-1)) = bs "7.5" /\
  dtoa (mkDec false [3] 2) = bs "300.0".
Proof.
  split; [repeat constructor; discriminate|]. split; [right; cbn; lia|]. vm_compute. auto.
Qed.
