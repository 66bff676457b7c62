(* Proofs about coordinates scaled by any factor. *)
From Coq Require Import String ZArith List Bool Lia ZifyBool ZifyNat SpecFloat.
From Verif Require Import Py PyFloat IbmFloat IbmNumber Packing Formats FileIO Text Float32 Toolkit Reader FieldTypes Transform
  PyFacts Spec_Ibm FloatFacts RoundFacts IbmFacts IbmArith IbmNumberProps RoundUnique Spec_Packing CompileFacts HeaderFacts PackingFacts FormatFacts Spec_Text Spec_Segy Spec_Reader ToolkitFacts ReaderFacts OpenFacts
  Spec_Writer WriterFacts Spec_Fields FieldTypesFacts Spec_Transform TransformFacts Spec_Scale RoundAll ScaleFacts.
Import ListNotations.
Local Open Scope string_scope.
Open Scope list_scope.
Open Scope Z_scope.

Definition misplaced (c : extended) : exn := match c with Inf _ => OverflowError | _ => ValueError end.

Lemma in_place_dec c : in_place c \/ ~ in_place c.
Proof.
  destruct c as [u|s|]; [|right; intros (u & E & _); discriminate|right; intros (u & E & _); discriminate].
  assert (D : (- 2 ^ 31 <= Z.quot u unit < 2 ^ 31) \/ ~ (- 2 ^ 31 <= Z.quot u unit < 2 ^ 31)) by (generalize (Z.quot u unit); intros z; lia).
  destruct D as [D|D]; [left; now exists u|right; intros (u' & E & Q); injection E as <-; contradiction].
Qed.

Lemma field_by f h g : float_wf f -> class_ok (h_cls h) -> header_ok h -> is_field (h_cls h) g -> fd_type g = Int32 ->
  exists v c, hdr_get h (fd_name g) = Ok v /\ ieee_product (Num (v * unit)) (float_value f) c /\
    (in_place c -> exists u h', c = Num u /\ scale_field f h (fd_name g) = Ok h' /\ h_cls h' = h_cls h /\ header_ok h' /\
       hdr_get h' (fd_name g) = Ok (Z.quot u unit) /\ forall n, n <> fd_name g -> hdr_get h' n = hdr_get h n) /\
    (~ in_place c -> scale_field f h (fd_name g) = Err (misplaced c)).
Proof.
  intros WF C HO F T. destruct (HO g F) as (v & G & A). assert (B : - 2 ^ 31 <= v < 2 ^ 31). { rewrite T in A. cbn in A. lia. }
  destruct (IbmNumberProps.f_of_int_exact v) as (x & E & XW & XF & XU). { clear -B. lia. }
  exists v, (float_value (f_mul x f)). split; [exact G|]. split. { rewrite <- XU, <- (finite_value x XF). now apply mul_value. }
  unfold scale_field. rewrite G. cbn [bind real_times]. rewrite E. cbn [bind].
  pose proof (mul_wf x f XW WF) as PW. revert PW. generalize (f_mul x f). intros p PW.
  assert (N : number_ok (RFloat p)) by (destruct p; try reflexivity; now apply PW).
  assert (AQ : forall q, accepts (fd_type g) q <-> - 2 ^ 31 <= q < 2 ^ 31) by (intros q; rewrite T; cbn; lia).
  destruct (assign_outcome h g (RFloat p) C F N) as [(k & h' & (TF & TK) & A' & E' & C' & G' & R)|[(E' & NA)|(E' & s & SI)]].
  - rewrite (finite_value p TF). apply AQ in A'. split.
    + intros _. exists (units p), h'. split; [reflexivity|]. split; [exact E'|]. split; [exact C'|]. split; [|rewrite <- TK; now split].
      intros f0 F0. rewrite C' in F0. destruct (String.string_dec (fd_name f0) (fd_name g)) as [Eq|Ne].
      * rewrite Eq. exists k. split; [exact G'|]. apply (is_field_class _ _ C) in F0. rewrite Eq, (is_field_class _ _ C F) in F0. injection F0 as <-. now apply AQ.
      * rewrite R by exact Ne. now apply HO.
    + intros NP. destruct NP. exists (units p). split; [reflexivity|]. now rewrite <- TK.
  - split.
    + intros (u & EU & Q). exfalso. assert (PF : finite p) by (destruct p; try exact I; discriminate). rewrite (finite_value p PF) in EU. injection EU as <-.
      apply (NA (Z.quot (units p) unit)); [now split|]. now apply AQ.
    + intros _. rewrite E'. destruct p as [s|s| |s m e]; try reflexivity. exfalso. clear -E' C F. unfold hdr_assign in E'. rewrite (is_field_class _ _ C F) in E'. discriminate.
  - injection SI as ->. split; [intros (u & EU & _); discriminate|]. intros _. exact E'.
Qed.

Lemma coordinate_is f h n : float_wf f -> good_header TraceHeaderRev1 h -> source_field n ->
  exists v c, hdr_get h n = Ok v /\ ieee_product (Num (v * unit)) (float_value f) c /\
    (in_place c -> exists u h', c = Num u /\ scale_field f h n = Ok h' /\ good_header TraceHeaderRev1 h' /\
       hdr_get h' n = Ok (Z.quot u unit) /\ forall n', n' <> n -> hdr_get h' n' = hdr_get h n') /\
    (~ in_place c -> scale_field f h n = Err (misplaced c)).
Proof.
  intros M (HC & HO & _) SF. destruct (shipped_ok TraceHeaderRev1) as (K & _); [cbn; tauto|].
  destruct (source_fields n SF) as (g & F & <- & T).
  destruct (field_by f h g) as (v & c & G & P & A & B); auto; try (rewrite HC; assumption).
  exists v, c. split; [exact G|]. split; [exact P|]. split; [|exact B]. intros Q. destruct (A Q) as (u & h' & EU & E & C' & O' & G' & R). exists u, h'. split; [exact EU|].
  split; [exact E|]. split; [|now split]. rewrite HC in C'. rewrite <- C'. apply no_coincident_good; [now right|exact O'].
Qed.

Lemma coordinates_are f h : float_wf f -> good_header TraceHeaderRev1 h ->
  let scaled_header := do h1 <- scale_field f h "source_x" ;; scale_field f h1 "source_y" in
  (placed_by f "source_x" h /\ placed_by f "source_y" h -> exists h', scaled_header = Ok h' /\ good_header TraceHeaderRev1 h' /\ coordinates_by f h h') /\
  (forall h', scaled_header = Ok h' -> placed_by f "source_x" h /\ placed_by f "source_y" h) /\
  (forall v c, hdr_get h "source_x" = Ok v -> ieee_product (Num (v * unit)) (float_value f) c -> ~ in_place c -> scaled_header = Err (misplaced c)) /\
  (forall v c, placed_by f "source_x" h -> hdr_get h "source_y" = Ok v -> ieee_product (Num (v * unit)) (float_value f) c -> ~ in_place c -> scaled_header = Err (misplaced c)).
Proof.
  intros M GH sh. unfold sh. clear sh.
  destruct (coordinate_is f h "source_x" M GH (or_introl eq_refl)) as (v & c & G & P & A & B).
  assert (X : forall v' c', hdr_get h "source_x" = Ok v' -> ieee_product (Num (v' * unit)) (float_value f) c' -> c' = c).
  { intros v' c' G' P'. assert (v' = v) by congruence. subst v'. exact (product_unique _ _ _ _ P P'). }
  assert (Y : in_place c -> exists u h1 v2 c2, c = Num u /\ scale_field f h "source_x" = Ok h1 /\ hdr_get h "source_y" = Ok v2 /\
    (forall v' c', hdr_get h "source_y" = Ok v' -> ieee_product (Num (v' * unit)) (float_value f) c' -> c' = c2) /\ ieee_product (Num (v2 * unit)) (float_value f) c2 /\
    (in_place c2 -> exists u2 h2, c2 = Num u2 /\ scale_field f h1 "source_y" = Ok h2 /\ good_header TraceHeaderRev1 h2 /\
       hdr_get h2 "source_x" = Ok (Z.quot u unit) /\ hdr_get h2 "source_y" = Ok (Z.quot u2 unit) /\ forall n, n <> "source_x" -> n <> "source_y" -> hdr_get h2 n = hdr_get h n) /\
    (~ in_place c2 -> scale_field f h1 "source_y" = Err (misplaced c2))).
  { intros Q. destruct (A Q) as (u & h1 & EU & E1 & GH1 & G1 & R1). destruct (coordinate_is f h1 "source_y" M GH1 (or_intror eq_refl)) as (v2 & c2 & G2 & P2 & A2 & B2).
    rewrite R1 in G2 by discriminate. exists u, h1, v2, c2. split; [exact EU|]. split; [exact E1|]. split; [exact G2|]. split.
    { intros v' c' G' P'. assert (v' = v2) by congruence. subst v'. exact (product_unique _ _ _ _ P2 P'). }
    split; [exact P2|]. split; [|exact B2]. intros Q2. destruct (A2 Q2) as (u2 & h2 & EU2 & E2 & GH2 & G3 & R2). exists u2, h2. split; [exact EU2|]. split; [exact E2|]. split; [exact GH2|].
    split; [rewrite R2 by discriminate; exact G1|]. split; [exact G3|]. intros n N1 N2. rewrite R2, R1; auto. }
  split; [|split; [|split]].
  - intros (FX & FY). destruct (Y (FX v c G P)) as (u & h1 & v2 & c2 & EU & -> & G2 & U2 & P2 & A2 & _). cbn [bind].
    destruct (A2 (FY v2 c2 G2 P2)) as (u2 & h2 & EU2 & E2 & GH2 & G3 & G4 & R). exists h2. split; [exact E2|]. split; [exact GH2|]. subst c c2. split; [|split].
    + split. { destruct GH as (-> & _), GH2 as (-> & _). reflexivity. } intros g _ N. apply R; intros Q; apply N; rewrite Q; [now left|right; now left].
    + exists v, u. auto.
    + exists v2, u2. auto.
  - intros h' H. destruct (in_place_dec c) as [Q|Q]; [|rewrite (B Q) in H; discriminate]. destruct (Y Q) as (u & h1 & v2 & c2 & EU & E1 & G2 & U2 & P2 & A2 & B2). rewrite E1 in H. cbn [bind] in H.
    destruct (in_place_dec c2) as [Q2|Q2]; [|rewrite (B2 Q2) in H; discriminate]. split; intros v' c' G' P'; [rewrite (X v' c' G' P')|rewrite (U2 v' c' G' P')]; assumption.
  - intros v' c' G' P' Q. rewrite (X v' c' G' P') in *. now rewrite (B Q).
  - intros v' c' FX G' P' Q. destruct (Y (FX v c G P)) as (u & h1 & v2 & c2 & EU & -> & G2 & U2 & P2 & A2 & B2). cbn [bind]. rewrite (U2 v' c' G' P') in *. now apply B2.
Qed.

Lemma headers_written ds p e n : forall ks w w', write_traces ds p e n ks w = (Ok tt, w') ->
  forall k, In k ks -> exists h, ds_trace_header ds k = Ok h.
Proof.
  induction ks as [|k0 ks IH]; intros w w' H k I; [destruct I|]. cbn [write_traces] in H.
  apply wbind_inv in H. destruct H as (h & w1 & E & H). apply wbind_inv in H. destruct H as (u & w2 & _ & H).
  apply wbind_inv in H. destruct H as (ss & w3 & S & H). apply wbind_inv in H. destruct H as (t' & w4 & T' & H).
  apply wbind_inv in H. destruct H as (u' & w5 & V & H). apply wbind_inv in H. destruct H as (u'' & w6 & _ & H).
  destruct I as [<- | I]; [|eapply IH; eauto]. apply on_file_inv in E. destruct E as (E & _). unfold lift in E. exists h. congruence.
Qed.

Section Coordinates.
Variables (d : list Z) (enc : option encoding) (e : endian) (dim : option Z) (r : reader) (native : endian) (x' : encoding) (f : float).
Hypothesis RD : readable d enc BinaryReelHeader TraceHeaderRev1.
Hypothesis OP : opens d enc BinaryReelHeader TraceHeaderRev1 e dim r.
Hypothesis AR : all_readable native d r.
Hypothesis S' : supported x'.
Hypothesis TE : text_encodable r x'.
Hypothesis WF : float_wf f.

Lemma coords_by e' pr log : all_headers d r (fun h => placed_by f "source_x" h /\ placed_by f "source_y" h) ->
  pr <> NotCallable -> exists b w,
  write_segy (scaling_coords (reader_dataset native r (mk_file d 0)) f) (Some x') TraceHeaderRev1 e' pr (mk_world (mk_file [] 0) log) = (Ok tt, w) /\ f_data (w_file w) = b /\ all_bytes b /\
  forall a pr' dim' log', attrs_ok a -> pr' <> NotCallable -> (forall k, dim' = Some k -> In k [1; 2; 3]) ->
  exists r' w', create_reader a (Some x') BinaryReelHeader TraceHeaderRev1 (Some e') pr' dim' (mk_world (mk_file b 0) log') = (Ok r', w') /\
    transformed same_fields (coordinates_by f) eq d r b r'.
Proof.
  intros FT P. destruct (shipped_ok TraceHeaderRev1) as (K & _); [cbn; tauto|]. pose proof (binary_good r d enc TraceHeaderRev1 e dim RD OP) as GB.
  assert (exists t, sample_type (rd_binary r) t) as (t & ST).
  { destruct (opens_opened d enc _ _ e dim r RD OP) as (x & ts & t & X & O). destruct O. eauto. }
  apply (rewritten d enc BinaryReelHeader TraceHeaderRev1 e dim r native x' RD OP AR binary_alike rev1_alike S' TE _ t); try reflexivity; auto; cbn [ds_binary scaling_coords reader_dataset].
  - split; [reflexivity|]. auto.
  - intros k h ss t0 KB ST0 EH ES GH EX. rewrite (type_unique r t ST t0 ST0) in EX. cbn [ds_trace_header ds_trace_samples scaling_coords reader_dataset]. rewrite EH, ES. cbn [bind].
    destruct (coordinates_are f h WF GH) as (A & _). destruct (A (FT k h KB EH)) as (h' & E & GH' & SB & CX & CY).
    exists h', ss. split; [exact E|]. split; [reflexivity|]. split; [exact GH'|].
    destruct GH as (HC & _). destruct GH' as (HC' & _).
    assert (FN : forall n, has_field TraceHeaderRev1 n -> n <> "source_x" -> n <> "source_y" -> hdr_get h' n = hdr_get h n).
    { intros n (g & G & <-) N1 N2. apply SB; [now rewrite HC|]. intros [Q|[Q|[]]]; congruence. }
    split. { apply FN; [|discriminate|discriminate]. eapply has_field_by; [exact K|vm_compute; reflexivity]. }
    split.
    { intros h'' (C2 & F2). assert (FS : forall n, has_field TraceHeaderRev1 n -> hdr_get h'' n = hdr_get h' n).
      { intros n (g & G & <-). apply F2. now rewrite HC'. }
      split; [|split].
      - split; [congruence|]. intros g G N. rewrite F2 by congruence. apply SB; [congruence|exact N].
      - destruct CX as (v & p & Q1 & Q2 & Q3). exists v, p. split; [exact Q1|]. split; [exact Q2|]. rewrite FS; [exact Q3|]. eapply has_field_by; [exact K|vm_compute; reflexivity].
      - destruct CY as (v & p & Q1 & Q2 & Q3). exists v, p. split; [exact Q1|]. split; [exact Q2|]. rewrite FS; [exact Q3|]. eapply has_field_by; [exact K|vm_compute; reflexivity]. }
    clear -EX. induction EX as [|s ss X _ IH]; constructor; [|exact IH]. split; [now apply exact_storable|]. intros s'' H.
    assert (Q : [s''] = [s]) by (apply (exact_kept t); repeat constructor; assumption). now injection Q.
Qed.

Lemma header_good k h : 0 <= k < rd_num_traces r -> fst (rd_trace_header r k None (mk_file d 0)) = Ok h -> good_header TraceHeaderRev1 h /\ In k (rd_trace_indexes r).
Proof.
  intros KB EH. destruct (reader_writable d enc BinaryReelHeader TraceHeaderRev1 e dim r native x' RD OP AR binary_alike rev1_alike S' TE) as (t0 & trs & W & CO & NT & EX & LN & RE).
  split.
  - destruct (nth_error trs (Z.to_nat k)) as [tr|] eqn:E. 2: { apply nth_error_None in E. unfold zlen in LN. lia. }
    destruct (RE _ _ E) as (R1 & _). rewrite Z2Nat.id in R1 by lia. assert (fst tr = h) as <- by congruence. apply nth_error_In in E. destruct W as [_ _ _ _ _ _ _ _ _ WG].
    rewrite Forall_forall in WG. now apply WG.
  - destruct (opens_opened d enc BinaryReelHeader TraceHeaderRev1 e dim r RD OP) as (x & ts & t1 & X & O). destruct O as [_ TY0 FT _ _ _ _ _ _ _ _ _ _].
    assert (TR : traces_of d TraceHeaderRev1 e r t1 ts) by now split. destruct (counts_ok d enc BinaryReelHeader TraceHeaderRev1 e dim r t1 ts RD OP TR) as (C1 & C2 & _).
    rewrite C2. apply in_map_iff. exists (Z.to_nat k). split; [lia|]. apply in_seq. unfold zlen in *. lia.
Qed.

Lemma coords_only e' pr w w' : write_segy (scaling_coords (reader_dataset native r (mk_file d 0)) f) (Some x') TraceHeaderRev1 e' pr w = (Ok tt, w') ->
  all_headers d r (fun h => placed_by f "source_x" h /\ placed_by f "source_y" h).
Proof.
  intros H k h KB EH. destruct (header_good k h KB EH) as (GH & IX). unfold write_segy in H. assert (NC : pr <> NotCallable) by (intros ->; discriminate).
  destruct (negb (is_supported_encoding x')); [destruct pr; discriminate|].
  assert (Q : exists p w1 w2, write_traces (scaling_coords (reader_dataset native r (mk_file d 0)) f) p e' (rd_num_traces r) (rd_trace_indexes r) w1 = (Ok tt, w2)).
  { destruct pr; try (now destruct NC); (apply wbind_inv in H; destruct H as (u1 & w1 & _ & H); apply wbind_inv in H; destruct H as (u2 & w2 & _ & H); apply wbind_inv in H; destruct H as (u3 & w3 & _ & H);
    apply wbind_inv in H; destruct H as (p & w4 & _ & H); apply wbind_inv in H; destruct H as ([] & w5 & H & _); eauto). }
  destruct Q as (p & w1 & w2 & Q). destruct (headers_written _ _ _ _ _ _ _ Q k IX) as (h' & E). cbn [ds_trace_header scaling_coords reader_dataset] in E. rewrite EH in E. cbn [bind] in E.
  destruct (coordinates_are f h WF GH) as (_ & A & _). exact (A h' E).
Qed.
End Coordinates.

Lemma coords_misplaced d r native f : float_wf f -> forall k h v c, fst (rd_trace_header r k None (mk_file d 0)) = Ok h -> good_header TraceHeaderRev1 h ->
  ieee_product (Num (v * unit)) (float_value f) c -> ~ in_place c ->
  hdr_get h "source_x" = Ok v \/ (placed_by f "source_x" h /\ hdr_get h "source_y" = Ok v) ->
  ds_trace_header (scaling_coords (reader_dataset native r (mk_file d 0)) f) k = Err (match c with Inf _ => OverflowError | _ => ValueError end).
Proof.
  intros WF k h v c E GH P N D. cbn [ds_trace_header scaling_coords reader_dataset]. rewrite E. cbn [bind]. destruct (coordinates_are f h WF GH) as (_ & _ & A & B).
  destruct D as [D|(D1 & D2)]; [exact (A v c D P N)|exact (B v c D1 D2 P N)].
Qed.
