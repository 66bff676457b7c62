(* Proofs for C140: readers of files that have changed since they were opened. *)
From Coq Require Import String ZArith List Bool Lia ZifyBool ZifyNat.
From Verif Require Import Py PyFacts PyFloat IbmFloat Spec_Ibm Util Catalog Spec_Catalog Packing Spec_Packing PackFacts CompileFacts HeaderFacts Formats FileIO Text Spec_Text
  TextIO Float32 Toolkit Spec_Segy ToolkitFacts Reader Spec_Reader ReaderFacts OpenFacts PackingFacts FormatFacts Spec_Writer WriterFacts Spec_Written WrittenFacts
  Spec_Cut CutFacts Stops Spec_Stops StopsFacts StopsRead Spec_Place PlaceFacts.
Import ListNotations.
Local Open Scope string_scope.
Open Scope list_scope.
Open Scope Z_scope.

Section Now.
Variables (d : list Z) (enc : option encoding) (bc tc : fmt) (e : endian) (dim : option Z) (r : reader) (t : segytype) (ts : list tinfo).
Hypothesis RD : readable d enc bc tc.
Hypothesis OP : opens d enc bc tc e dim r.
Hypothesis TR : traces_of d tc e r t ts.

Lemma place_nonneg k tr : trace_of ts k tr -> 0 <= t_pos tr.
Proof.
  intros H. destruct (get_opened d enc bc tc e dim r t ts RD OP TR) as (x & X & O). destruct RD as (_ & _ & T & _).
  destruct (trace_placed x bc tc e dim d r ts t T O tr (trace_in ts k tr H)) as (P & _). exact P.
Qed.

Lemma header_now d2 k ov c' e' q : all_bytes d2 -> 0 <= q -> format_ok c' 240 -> make_header_packer c' e' = Ok (match ov with Some p => p | None => rd_packer r end) ->
  (~ 0 <= k < zlen ts -> rd_trace_header r k ov (mk_file d2 q) = (Err ValueError, mk_file d2 q)) /\
  (forall tr, trace_of ts k tr -> exists x q', rd_trace_header r k ov (mk_file d2 q) = (x, mk_file d2 q') /\ header_at d2 (t_pos tr) c' 240 e' EOFError x q').
Proof.
  intros B Q F PK. destruct (get_opened d enc bc tc e dim r t ts RD OP TR) as (x & X & O). destruct RD as (_ & _ & T & _).
  unfold rd_trace_header. rewrite (rd_num x bc tc e dim d r ts t O). split.
  - intros H. replace ((0 <=? k) && (k <? zlen ts)) with false by lia. reflexivity.
  - intros tr H. pose proof (proj1 H) as RG. replace ((0 <=? k) && (k <? zlen ts)) with true by lia. cbn [negb]. cbv zeta.
    rewrite (ibind_ok (lift (cat1_get (rd_offsets r) k)) _ (mk_file d2 q) (t_pos tr) (mk_file d2 q)) by (unfold lift; now rewrite (rd_offset x bc tc e dim d r ts t O k tr H)).
    exact (proj2 (trace_header_at c' e' _ (Some (t_pos tr)) d2 q F PK B Q) (place_nonneg k tr H)).
Qed.

Lemma own_packer : make_header_packer tc e = Ok (rd_packer r).
Proof. destruct (get_opened d enc bc tc e dim r t ts RD OP TR) as (x & X & O). exact (op_packer _ _ _ _ _ _ _ _ _ O). Qed.

Lemma samples_now native d2 k a b q : all_bytes d2 -> 0 <= q ->
  (~ 0 <= k < zlen ts -> rd_trace_samples native r k a b (mk_file d2 q) = (Err ValueError, mk_file d2 q)) /\
  (forall tr, trace_of ts k tr -> let a' := or_else a 0 in let b' := or_else b (t_count tr) in
     (~ 0 <= a' <= b' \/ ~ b' <= t_count tr -> rd_trace_samples native r k a b (mk_file d2 q) = (Err ValueError, mk_file d2 q)) /\
     (0 <= a' <= b' -> b' <= t_count tr -> exists x q', rd_trace_samples native r k a b (mk_file d2 q) = (x, mk_file d2 q') /\
        values_outcome d2 (t_pos tr + 240 + sample_size t * a') t (b' - a') e x q')).
Proof.
  intros B Q. destruct (get_opened d enc bc tc e dim r t ts RD OP TR) as (x & X & O). destruct RD as (_ & _ & T & _).
  unfold rd_trace_samples. rewrite (rd_num x bc tc e dim d r ts t O). split.
  - intros H. replace ((0 <=? k) && (k <? zlen ts)) with false by lia. reflexivity.
  - intros tr H. cbv zeta. set (a' := or_else a 0). set (b' := or_else b (t_count tr)). pose proof (proj1 H) as RG. replace ((0 <=? k) && (k <? zlen ts)) with true by lia. cbn [negb].
    rewrite (ibind_ok (lift (rd_num_trace_samples r k)) _ (mk_file d2 q) (t_count tr) (mk_file d2 q)) by (unfold lift; now rewrite (rd_count x bc tc e dim d r ts t O k tr H)).
    change (match a with Some s => s | None => 0 end) with a'. change (match b with Some s => s | None => t_count tr end) with b'. cbv zeta. clearbody a' b'.
    split.
    + intros W. destruct ((0 <=? b') && (b' <=? t_count tr)) eqn:E1; [|reflexivity]. cbn [negb].
      destruct ((0 <=? a') && (a' <=? b')) eqn:E2; [lia|reflexivity].
    + intros W1 W2. replace ((0 <=? b') && (b' <=? t_count tr)) with true by lia. replace ((0 <=? a') && (a' <=? b')) with true by lia. cbn [negb].
      erewrite ibind_ok by (unfold lift; rewrite (sample_format_ok _ _ (op_type _ _ _ _ _ _ _ _ _ O)); reflexivity).
      erewrite ibind_ok by (unfold lift; rewrite (rd_offset x bc tc e dim d r ts t O k tr H); reflexivity).
      rewrite ctype_of_size, (op_endian _ _ _ _ _ _ _ _ _ O). unfold TRACE_HEADER_NUM_BYTES. rewrite (Z.mul_comm a').
      pose proof (place_nonneg k tr H). pose proof (sample_size_pos t).
      apply (proj2 (values_at native (Some (t_pos tr + 240 + sample_size t * a')) t (b' - a') e d2 q B Q)). cbn [or_else]. nia.
Qed.
End Now.

(* two readers that have found a trace at the same place read it in the same way *)
Lemma same_place d d2 enc enc2 bc bc2 tc e dim dim2 r r2 t ts ts2 k i i2 :
  readable d enc bc tc -> opens d enc bc tc e dim r -> traces_of d tc e r t ts -> readable d2 enc2 bc2 tc -> opens d2 enc2 bc2 tc e dim2 r2 -> traces_of d2 tc e r2 t ts2 ->
  trace_of ts k i -> trace_of ts2 k i2 -> t_pos i = t_pos i2 -> t_count i = t_count i2 ->
  forall f, (forall ov, rd_trace_header r k ov f = rd_trace_header r2 k ov f) /\ (forall native a b, rd_trace_samples native r k a b f = rd_trace_samples native r2 k a b f).
Proof.
  intros RD OP TR RD2 OP2 TR2 H H2 EP EC f.
  destruct (get_opened d enc bc tc e dim r t ts RD OP TR) as (x & X & O). destruct (get_opened d2 enc2 bc2 tc e dim2 r2 t ts2 RD2 OP2 TR2) as (x2 & X2 & O2).
  pose proof (proj1 H) as RG. pose proof (proj1 H2) as RG2.
  assert (PK : rd_packer r = rd_packer r2) by (pose proof (op_packer _ _ _ _ _ _ _ _ _ O); pose proof (op_packer _ _ _ _ _ _ _ _ _ O2); congruence).
  unfold rd_trace_header, rd_trace_samples. rewrite (rd_num _ _ _ _ _ _ _ _ _ O), (rd_num _ _ _ _ _ _ _ _ _ O2).
  replace ((0 <=? k) && (k <? zlen ts)) with true by lia. replace ((0 <=? k) && (k <? zlen ts2)) with true by lia. cbn [negb].
  rewrite (rd_offset _ _ _ _ _ _ _ _ _ O k i H), (rd_offset _ _ _ _ _ _ _ _ _ O2 k i2 H2), (rd_count _ _ _ _ _ _ _ _ _ O k i H), (rd_count _ _ _ _ _ _ _ _ _ O2 k i2 H2).
  rewrite (sample_format_ok _ _ (op_type _ _ _ _ _ _ _ _ _ O)), (sample_format_ok _ _ (op_type _ _ _ _ _ _ _ _ _ O2)).
  rewrite (op_endian _ _ _ _ _ _ _ _ _ O), (op_endian _ _ _ _ _ _ _ _ _ O2), PK, EP, EC. split; reflexivity.
Qed.

Section Written.
Variables (ds : dataset) (x : encoding) (bc tc : fmt) (e : endian) (t : segytype) (trs : list trace) (b : list Z).
Hypothesis CO : consistent ds bc tc t trs.
Hypothesis SU : supported x.
Hypothesis PO : Forall (page_ok x) (ds_ext ds).
Hypothesis SC : segy_contents ds x bc tc e t trs b.
Hypothesis NE : trs <> [].

(* where a reader of a beginning of the file has found its traces *)
Lemma cut_traces p z dim r : b = p ++ z -> opens p (Some x) bc tc e dim r -> readable p (Some x) bc tc /\
  exists ts, traces_of p tc e r t ts /\ rd_num_traces r = zlen ts /\
    forall k i, trace_of ts k i -> exists tr, nth_error trs (Z.to_nat k) = Some tr /\ t_pos i = trace_start ds t trs (Z.to_nat k) /\ t_count i = zlen (snd tr).
Proof.
  intros EB OP'. pose proof OP' as (a & pr & log & w & E0).
  destruct (checks_cases a (Some e) pr dim (mk_file p 0) log ltac:(cbn; lia)) as [(e' & [= <-] & A & L & P & D)|(y & E)].
  2: { unfold create_reader in E0. erewrite wbind_err in E0 by exact E. discriminate. }
  destruct (contents_read ds x bc tc e t trs b CO SU PO SC NE a pr dim log A P D) as (rb & wb & EO & (TX & BN & EX & NT & _ & GB)).
  assert (OP : opens b (Some x) bc tc e dim rb) by (exists a, pr, log, wb; exact EO). clear EO.
  destruct (contents_bytes _ _ _ _ _ _ _ _ SC) as (AB & L3). destruct CO as [CB CT TY RV PC CS].
  assert (RD : readable b (Some x) bc tc) by (split; [exact AB|]; split; [exact CB|]; split; [exact CT|]; intros y [= <-]; exact SU).
  assert (FTR : exists ts q, scan tc e (sample_size t) b (trace_start ds t trs 0) ts q /\ zlen b < q + 240 /\ Forall2 (found tc e t b) trs ts).
  { destruct SC as (tx' & tb & bb & pbs & tbs & EB' & _ & (TL & _) & (BL & _) & FP & FR).
    destruct (trace_blocks_scan tc e t b CT trs tbs (tb ++ bb ++ concat pbs) FR ltac:(now rewrite EB', <- !app_assoc) CS) as (ts & SCN & FD).
    exists ts, (zlen b). split; [|split; [lia|exact FD]]. destruct (blocks_bytes _ _ _ FP) as (_ & PL).
    replace (trace_start ds t trs 0) with (zlen (tb ++ bb ++ concat pbs)); [exact SCN|]. unfold trace_start. cbn [firstn fold_right]. rewrite !zlen_app. lia. }
  destruct FTR as (ts & q0 & SCN & QE & FD).
  assert (FT : first_trace (rd_ext rb) = trace_start ds t trs 0) by (unfold first_trace, trace_start; cbn [firstn fold_right]; rewrite EX; lia).
  assert (TYR : sample_type (rd_binary rb) t).
  { destruct BN as (HC & HF). destruct TY as (code & G & Q). exists code. split; [|exact Q]. rewrite <- G.
    destruct (opens_opened b (Some x) bc tc e dim rb RD OP) as (x' & ts' & t' & X' & O'). destruct (op_headers _ _ _ _ _ _ _ _ _ O') as (_ & (HB & _) & _).
    assert (HFD : has_field bc "data_sample_format") by apply CB. destruct HFD as (f & FI & FN). rewrite <- FN. apply HF. rewrite <- HC, HB. exact FI. }
  assert (TR : traces_of b tc e rb t ts) by (split; [exact TYR|]; rewrite FT; exists q0; auto).
  assert (LT : length ts = length trs) by (pose proof (Forall2_zlen' _ _ _ FD) as Q; unfold zlen in Q; change trace with (header * list real)%type in *; lia).
  clear TYR TY QE. subst b.
  assert (RC : readable p (Some x) bc tc) by exact (readable_cut p z (Some x) bc tc RD). split; [exact RC|].
  destruct (opens_opened p (Some x) bc tc e dim r RC OP') as (x' & ts' & t' & X' & O').
  assert (TR' : traces_of p tc e r t' ts') by (split; [exact (op_type _ _ _ _ _ _ _ _ _ O')|exact (op_traces _ _ _ _ _ _ _ _ _ O')]).
  destruct (cut_reading p z (Some x) bc tc e dim rb t ts RD OP TR dim r t' ts' OP' TR') as (KP & -> & _).
  exists ts'. split; [exact TR'|]. split; [exact (rd_num _ _ _ _ _ _ _ _ _ O')|].
  intros k i (KR & KN). destruct KP as (lost & ET & _). assert (LL : length ts = (length ts' + length lost)%nat) by (rewrite ET; apply app_length).
  assert (NI : nth_error ts (Z.to_nat k) = Some i) by (rewrite ET, nth_error_app1; [exact KN|unfold zlen in KR; lia]).
  destruct (nth_error trs (Z.to_nat k)) as [tr|] eqn:N'; [|apply nth_error_None in N'; unfold zlen in KR; lia].
  exists tr. split; [reflexivity|]. destruct (positions tc e t (p ++ z) trs ts FD _ _ SCN _ i tr NI N') as (PP & PC'). split; [|exact PC'].
  rewrite PP. unfold trace_start, sizes. cbn [firstn fold_right]. lia.
Qed.

(* a reader of a beginning of the file, used on a longer beginning of it *)
Theorem grown_contents p z z' dim r : b = (p ++ z) ++ z' -> opens p (Some x) bc tc e dim r ->
  let d := p ++ z in exists m, rd_num_traces r = Z.of_nat m /\
  (forall k, (k < m)%nat <-> (k < length trs)%nat /\ trace_start ds t trs k + 240 <= zlen p) /\
  forall k tr native q, (k < m)%nat -> nth_error trs k = Some tr ->
    (exists h, fst (rd_trace_header r (Z.of_nat k) None (mk_file d q)) = Ok h /\ same_fields (fst tr) h) /\
    (trace_start ds t trs (Datatypes.S k) <= zlen d ->
       exists rs, fst (rd_trace_samples native r (Z.of_nat k) None None (mk_file d q)) = Ok rs /\ Forall2 (stored_as t) (snd tr) rs) /\
    (zlen d < trace_start ds t trs (Datatypes.S k) -> fst (rd_trace_samples native r (Z.of_nat k) None None (mk_file d q)) = Err EOFError).
Proof.
  intros EB OP d. assert (EB1 : b = p ++ (z ++ z')) by now rewrite app_assoc.
  destruct (cut_traces p (z ++ z') dim r EB1 OP) as (RC & ts & TR & NT & PS).
  pose proof OP as (a & pr & log & w & E0).
  destruct (checks_cases a (Some e) pr dim (mk_file p 0) log ltac:(cbn; lia)) as [(e' & [= <-] & A & L & P & D)|(y & E)].
  2: { unfold create_reader in E0. erewrite wbind_err in E0 by exact E. discriminate. }
  assert (LP : 0 <= zlen z) by apply zlen_nonneg. assert (LD : zlen d = zlen p + zlen z) by apply zlen_app.
  destruct (cut_contents ds x bc tc e t trs b CO SU PO SC NE p (z ++ z') EB1 a pr dim log A P D) as (C1 & C2 & C3 & C4). rewrite E0 in C1, C2, C3, C4. cbn [fst] in C1, C2, C3, C4.
  destruct (Z_lt_dec (zlen p) 3600) as [Q|Q]; [specialize (C1 Q); discriminate|].
  destruct (Z_lt_dec (zlen p) (trace_start ds t trs 0)) as [Q2|Q2]; [specialize (C2 ltac:(lia)); discriminate|].
  destruct (Z_lt_dec (zlen p) (trace_start ds t trs 0 + 240)) as [Q3|Q3]; [specialize (C3 ltac:(lia)); discriminate|].
  destruct (C4 ltac:(lia)) as (r1 & m & [= <-] & _ & _ & _ & NM & KM & _). clear C1 C2 C3 C4. exists m. split; [exact NM|]. split; [exact KM|].
  destruct (cut_contents ds x bc tc e t trs b CO SU PO SC NE d z' EB a pr dim log A P D) as (_ & _ & _ & C4).
  destruct (C4 ltac:(lia)) as (r2 & m2 & EO & _ & _ & _ & NM2 & KM2 & RD2). clear C4.
  assert (OP2 : opens d (Some x) bc tc e dim r2).
  { destruct (create_reader a (Some x) bc tc (Some e) pr dim (mk_world (mk_file d 0) log)) as (o & w') eqn:EC. cbn [fst] in EO. subst o. exists a, pr, log, w'. exact EC. }
  destruct (cut_traces d z' dim r2 EB OP2) as (RC2 & ts2 & TR2 & NT2 & PS2).
  intros k tr native q LK N. assert (LK2 : (k < m2)%nat) by (apply KM2; apply KM in LK; lia).
  destruct (trace_of_exists ts (Z.of_nat k) ltac:(lia)) as (i & TI). destruct (trace_of_exists ts2 (Z.of_nat k) ltac:(lia)) as (i2 & TI2).
  destruct (PS _ _ TI) as (tr1 & N1 & P1 & K1). destruct (PS2 _ _ TI2) as (tr2 & N2 & P2 & K2). rewrite Nat2Z.id in N1, N2, P1, P2.
  destruct (same_place p d (Some x) (Some x) bc bc tc e dim dim r r2 t ts ts2 (Z.of_nat k) i i2 RC OP TR RC2 OP2 TR2 TI TI2 ltac:(congruence) ltac:(congruence) (mk_file d q)) as (SH & SS).
  rewrite SH, SS. exact (RD2 k tr native q LK2 N).
Qed.
End Written.
