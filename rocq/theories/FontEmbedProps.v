(** C85: an embedded font is described in the PDF file as its file describes it *)
From Coq Require Import QArith Qabs Lqa Lia.
From Verif Require Import Base PdfConvert Float32 Float32Proofs LesterFloat FontParsing FontCmap FontSpec FontProofs FontSafetyProofs FontParseProofs FontProps
  PdfObject PdfObjectSpec PdfSyntax PdfSyntaxSpec PdfConvertSpec PdfConvertProps NameSpec NameProps FontEmbedSpec.
From Verif Require DomWalkProofs.
Local Open Scope N_scope.
Local Open Scope res_scope.

Lemma scaled_of : forall u v z, thousandths (round32 (v # u)) z -> scaled_as u v z.
Proof.
  intros u v z (x & E & T). exists x. split; [|exact T]. clear T.
  assert (R := round32_error (v # u)). set (q := round32 (v # u)) in *. clearbody q.
  assert (K : (1000 * v # u == (v # u) * 1000)%Q) by (unfold Qeq, Qmult; cbn [Qnum Qden]; lia). rewrite K. set (t := (v # u)%Q) in *. clearbody t. clear K.
  assert (P : (pow2 (-150) <= 1 # 1000000000000)%Q) by (vm_compute; discriminate). set (p := pow2 (-150)) in *. clearbody p.
  rewrite !Qabs_Qmult in *. change (Qabs 1000) with 1000%Q in *.
  assert (A : (Qabs q <= Qabs t * (16777217 # 16777216) + p)%Q).
  { assert (X : (q == (q - t) + t)%Q) by ring. rewrite X. eapply Qle_trans; [apply Qabs_triangle|]. lra. }
  assert (X : (x - t * 1000 == (x - q * 1000) + (q - t) * 1000)%Q) by ring. rewrite X. eapply Qle_trans; [apply Qabs_triangle|].
  rewrite Qabs_Qmult. change (Qabs 1000) with 1000%Q. assert (T0 := Qabs_nonneg t).
  set (a := Qabs (x - q * 1000)) in *. set (b := Qabs (q - t)) in *. set (c := Qabs q) in *. set (e := Qabs t) in *. clearbody a b c e. lra.
Qed.

Theorem C85_described : forall m addr f d pf fv, wf_bytes f -> addressable f -> directory f = Some d -> tags_sorted d ->
  (forall tag off, In (tag, off) d -> off + 2 ^ 20 < 2 ^ 32) -> parse_font m f = Ok pf -> 0 < pf_units_per_em pf ->
  represents (pdf_font m addr pf) fv -> described f fv.
Proof.
  intros m addr f d pf fv W A D T L P U R. change (2 ^ 20) with 1048576 in L.
  destruct (C37_parsed_fields m f d pf W D T) as (_ & maxp & head & hhea & hmtx & I1 & I2 & I3 & I4 & B & Hg & Hu & X0 & Y0 & X1 & Y1 & As & De & Hc & M1 & M2);
    [intros tag off Ho; specialize (L _ _ Ho); lia|exact P|].
  destruct (C84_font m f d pf W A D T) as (name & I5 & Hn); [intros tag off Ho; specialize (L _ _ Ho); change (2 ^ 20) with 1048576; lia|exact P|].
  destruct (pf_units_per_em pf) as [|u] eqn:Eu; [lia|].
  assert (TE : forall z, to_ems pf z = round32 (z # u)) by (intro z; unfold to_ems; rewrite Eu; reflexivity).
  destruct R as (R1 & R2 & R3 & R4 & R5 & R6 & R7 & R8 & R9 & _).
  cbn [pdf_font f_name f_glyph_count f_glyph_width f_min_x f_min_y f_max_x f_max_y f_ascender f_descender f_bytes] in *.
  rewrite !TE in R6. rewrite TE in R7, R8.
  exists d, maxp, head, hhea, hmtx, name, u, (s_count (pf_metrics pf)), (pf_glyph_count pf).
  repeat (split; [assumption|]). split; [congruence|]. split.
  { inversion R6 as [|? za ? l1 Ta R6a]; subst. inversion R6a as [|? zb ? l2 Tb R6b]; subst. inversion R6b as [|? zc ? l3 Tc R6c]; subst. inversion R6c as [|? zd ? l4 Td R6d]; subst. inversion R6d; subst.
    repeat apply Forall2_cons; [..|constructor]; eexists; (split; [eassumption|apply scaled_of; assumption]). }
  split; [exists (pf_ascender pf); split; [assumption|apply scaled_of; assumption]|].
  split; [exists (pf_descender pf); split; [assumption|apply scaled_of; assumption]|].
  split; [assumption|]. split; [assumption|]. split; [assumption|]. split; [|rewrite R1; exact Hn].
  intros i Hi. destruct (R5 i Hi) as (w & z & Gw & Nz & Tz).
  unfold glyph_width in Gw. destruct (advance_width m pf i) as [a| |] eqn:Ea; cbn [bind] in Gw; try discriminate. injection Gw as <-. rewrite TE in Tz.
  exists a, z. split; [|split; [exact Nz|apply scaled_of; exact Tz]].
  assert (C := u16_at_bound _ _ _ W Hc). specialize (L _ _ I4).
  unfold advance_width in Ea. destruct (N.eqb_spec (s_count (pf_metrics pf)) 0) as [Z|Z]; [discriminate|].
  unfold get_unchecked in Ea. rewrite M1, M2, B in Ea. rewrite offset_ok in Ea by lia. cbn [bind] in Ea.
  apply (field_u16_inv m LongHorizontalMetricsRecord "advance_width" f _ 0) in Ea; [|reflexivity|lia]. rewrite N.add_0_r in Ea. rewrite <- Ea. f_equal. f_equal. f_equal.
  destruct (N.ltb_spec i (s_count (pf_metrics pf))); lia.
Qed.
Print Assumptions C85_described.

(** Every font parsed from a file that is drawn with has one resource, whose description is that of the file. *)
Theorem C85_file : forall h m addr f d pf, clean_history h -> N.of_nat (length (doc_write (run h))) < 2 ^ 32 ->
  wf_bytes f -> addressable f -> directory f = Some d -> tags_sorted d ->
  (forall tag off, In (tag, off) d -> off + 2 ^ 20 < 2 ^ 32) -> parse_font m f = Ok pf -> 0 < pf_units_per_em pf ->
  In (pdf_font m addr pf) (fonts_of h) -> embeddable (pdf_font m addr pf) = true ->
  exists kids pages rs key v fv, read_document (doc_write (run h)) = Some (kids, pages, rs) /\ In (key, v) (r_fonts rs) /\
    read_font (doc_write (run h)) v = Some fv /\ represents (pdf_font m addr pf) fv /\ described f fv.
Proof.
  intros h m addr f d pf Hc Hl W A D T L P U I E.
  destruct (C11_resources h Hc Hl) as (kids & pages & rs & R & _ & _ & _ & _ & used & _ & Hu & F).
  assert (Iu : In (pdf_font m addr pf) used) by (apply Hu; auto).
  assert (X : exists kv, In kv (r_fonts rs) /\ exists fv, read_font (doc_write (run h)) (snd kv) = Some fv /\ represents (pdf_font m addr pf) fv).
  { clear - F Iu. induction F as [|x kv l l' Hx F IH]; [destruct Iu|]. destruct Iu as [->|Iu]; [exists kv; split; [left; reflexivity|exact Hx]|].
    destruct (IH Iu) as (kv' & J & K). exists kv'. split; [right; exact J|exact K]. }
  destruct X as ([key v] & J & fv & K & Q). exists kids, pages, rs, key, v, fv.
  repeat (split; [assumption|]). exact (C85_described m addr f d pf fv W A D T L P U Q).
Qed.
Print Assumptions C85_file.

(** A page with a glyph of [font_bmp]: the hypotheses are met, and the description is that of the file, but that some thousandths are lost. *)
Definition drawn_font : font := match parse_font Release font_bmp with Ok pf => pdf_font Release 7 pf | _ => a_font end.
Definition drawn_history : list page_history :=
  [mkPH (PdfConvertProps.d 200 0) (PdfConvertProps.d 100 0) [ShowText drawn_font [1] (PdfConvertProps.d 16 0) (PdfConvertProps.d 5 0) (PdfConvertProps.d 25 0)]].
Example C85_file_meets : clean_history drawn_history /\ N.of_nat (length (doc_write (run drawn_history))) < 2 ^ 32 /\
  exists d pf, wf_bytes font_bmp /\ addressable font_bmp /\ directory font_bmp = Some d /\ tags_sorted d /\
    (forall tag off, In (tag, off) d -> off + 2 ^ 20 < 2 ^ 32) /\ parse_font Release font_bmp = Ok pf /\ 0 < pf_units_per_em pf /\
    In (pdf_font Release 7 pf) (fonts_of drawn_history) /\ embeddable (pdf_font Release 7 pf) = true.
Proof.
  assert (G : match parse_font Release font_bmp with Ok pf => bytes_eqb (pf_name pf) (bs "Demo") && (0 <? pf_units_per_em pf) && embeddable (pdf_font Release 7 pf) | _ => false end = true) by (vm_compute; reflexivity).
  assert (S : N.of_nat (length (doc_write (run drawn_history))) < 2 ^ 32) by (vm_compute; reflexivity).
  assert (Dr : drawn_font = match parse_font Release font_bmp with Ok pf => pdf_font Release 7 pf | _ => a_font end) by reflexivity.
  destruct (parse_font Release font_bmp) as [pf| |] eqn:Ep; try discriminate G.
  apply andb_true_iff in G as [G G3]. apply andb_true_iff in G as [G1 G2]. apply DomWalkProofs.bytes_eqb_eq in G1. apply N.ltb_lt in G2.
  split.
  { split.
    - apply Forall_cons; [|constructor]. unfold clean_page. cbn [ph_width ph_height ph_requests].
      split; [apply moderate_d; vm_compute; reflexivity|]. split; [apply moderate_d; vm_compute; reflexivity|].
      apply Forall_cons; [|constructor]. cbn [clean_request].
      assert (N : clean_name (f_name drawn_font)).
      { rewrite Dr. cbn [pdf_font f_name]. rewrite G1. split; [apply bs_wf|]. intros (a & h1 & h2 & b & E & _).
        assert (In 35 (bs "Demo")) by (rewrite E; apply in_or_app; right; left; reflexivity). vm_compute in H. intuition discriminate. }
      repeat match goal with |- _ /\ _ => split end; try exact N; try (apply moderate_d; vm_compute; reflexivity). repeat constructor.
    - intros x y [<-|[]] [<-|[]] _. reflexivity. }
  split; [exact S|]. eexists. exists pf.
  split; [apply bytes_ok; vm_compute; reflexivity|]. split; [reflexivity|]. split; [vm_compute; reflexivity|].
  split; [unfold tags_sorted; cbn [map fst]; repeat first [apply Sorted.SSorted_nil|apply Sorted.SSorted_cons|apply Forall_nil|apply Forall_cons|apply lt_end|apply lt_head; reflexivity|apply lt_tail]|].
  split; [intros tag off Ho; cbn [In] in Ho; repeat (destruct Ho as [Ho|Ho]; [injection Ho as <- <-; reflexivity|]); destruct Ho|].
  split; [reflexivity|]. split; [exact G2|]. split; [left; exact Dr|]. exact G3.
Qed.
Example C85_computed :
  match read_document (doc_write (run drawn_history)) with
  | Some (_, _, rs) =>
      match r_fonts rs with
      | [(_, v)] =>
          match read_font (doc_write (run drawn_history)) v with
          | Some fv => Some (fv_name fv, fv_bbox fv, fv_ascent fv, fv_descent fv, fv_widths fv)
          | None => None
          end
      | _ => None
      end
  | None => None
  end = Some (bs "Demo", [-50; -200; 900; 800]%Z, 800%Z, (-200)%Z, [500; 600; 731; 731; 731; 731]%Z).
Proof. vm_compute. reflexivity. Qed.
