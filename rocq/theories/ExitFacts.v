(* Which files the commands can write. *)
From Coq Require Import String ZArith List Bool Lia ZifyBool ZifyNat.
From Verif Require Import Py PyFloat IbmFloat Spec_Ibm Packing Spec_Packing Formats FileIO Text Spec_Text Toolkit Spec_Segy Reader Spec_Reader ReaderFacts OpenFacts
  FormatFacts PositionFacts ToolkitFacts Spec_Writer WriterFacts CopyFacts Transform Spec_Transform TransformFacts Spec_Scale ScaleFacts CoordFacts ConvertOnly Commands Spec_Commands CommandsFacts.
Import ListNotations.
Local Open Scope string_scope.
Open Scope list_scope.
Open Scope Z_scope.

Lemma written_traces ds enc tc e pr w w' : write_segy ds enc tc e pr w = (Ok tt, w') ->
  exists p w1 w2, write_traces ds p e (ds_num_traces ds) (ds_trace_indexes ds) w1 = (Ok tt, w2).
Proof.
  intros H. unfold write_segy in H. assert (NC : pr <> NotCallable) by (intros ->; discriminate).
  set (x := match enc with Some x => x | None => match ds_encoding ds with Some (Some x) => x | _ => ASCII end end) in H.
  destruct (negb (is_supported_encoding x)); [destruct pr; discriminate|].
  destruct pr; try (now destruct NC); (apply wbind_inv in H; destruct H as (u1 & w1 & _ & H); apply wbind_inv in H; destruct H as (u2 & w2 & _ & H); apply wbind_inv in H; destruct H as (u3 & w3 & _ & H);
    apply wbind_inv in H; destruct H as (p & w4 & _ & H); apply wbind_inv in H; destruct H as ([] & w5 & H & _); eauto).
Qed.
Lemma samples_written ds p e n : forall ks w w', write_traces ds p e n ks w = (Ok tt, w') ->
  forall k, In k ks -> exists ss, ds_trace_samples ds k None None = Ok ss.
Proof.
  induction ks as [|k0 ks IH]; intros w w' H k I; [destruct I|]. cbn [write_traces] in H.
  apply wbind_inv in H. destruct H as (h & w1 & _ & H). apply wbind_inv in H. destruct H as (u & w2 & _ & H).
  apply wbind_inv in H. destruct H as (ss & w3 & S & H). apply wbind_inv in H. destruct H as (t' & w4 & T' & H).
  apply wbind_inv in H. destruct H as (u' & w5 & V & H). apply wbind_inv in H. destruct H as (u'' & w6 & _ & H).
  destruct I as [<- | I]; [|eapply IH; eauto]. apply on_file_inv in S. destruct S as (S & _). unfold lift in S. exists ss. congruence.
Qed.

Section Exit.
Variables (native : endian) (d : list Z) (r : reader).
Hypothesis BD : all_bytes d.
Hypothesis R : reads d r.
Let src := reader_dataset native r (mk_file d 0).

Lemma reads_one r' : reads d r' -> r' = r.
Proof. intros (w & E). destruct R as (w' & E'). congruence. Qed.
Lemma trace_index k : 0 <= k < rd_num_traces r -> In k (rd_trace_indexes r).
Proof.
  intros K. destruct (opens_opened _ _ _ _ _ _ _ (default_formats d BD) (reads_opens _ _ R)) as (x & ts & t & X & O).
  assert (TR : traces_of d TraceHeaderRev1 Big r t ts) by (destruct O; now split).
  destruct (counts_ok _ _ _ _ _ _ _ _ _ (default_formats d BD) (reads_opens _ _ R) TR) as (C1 & C2 & _).
  rewrite C2. apply in_map_iff. exists (Z.to_nat k). split; [lia|]. apply in_seq. unfold zlen in *. lia.
Qed.
(* a dataset that is made trace by trace *)
Lemma made_readable ds w w' : write_segy ds None TraceHeaderRev1 Big NoProgress w = (Ok tt, w') ->
  ds_trace_indexes ds = rd_trace_indexes r ->
  (forall k h', ds_trace_header ds k = Ok h' -> exists h, ds_trace_header src k = Ok h) ->
  (forall k ss', ds_trace_samples ds k None None = Ok ss' -> exists ss, ds_trace_samples src k None None = Ok ss) ->
  all_readable native d r.
Proof.
  intros H IX HH HS k K. destruct (written_traces _ _ _ _ _ _ _ H) as (p & w1 & w2 & Q). rewrite IX in Q. apply trace_index in K.
  destruct (headers_written _ _ _ _ _ _ _ Q k K) as (h' & E1). destruct (samples_written _ _ _ _ _ _ _ Q k K) as (ss' & E2).
  destruct (HH k h' E1) as (h & F1). destruct (HS k ss' E2) as (ss & F2). exists h, ss. split; [exact F1|exact F2].
Qed.

Lemma copy_exit : (exists b, produces native (fun ds => Ok ds) d b) <-> all_readable native d r.
Proof.
  split.
  - intros (b & r' & ds & w & R' & M & W & _). rewrite (reads_one _ R') in M. injection M as <-. eapply made_readable; [exact W|reflexivity|eauto|eauto].
  - intros AR. destruct (copy_meaning native d r BD R AR) as (b & _ & P & _). eauto.
Qed.

Lemma source_type : exists t, sample_type (rd_binary r) t.
Proof. destruct (opens_opened _ _ _ _ _ _ _ (default_formats d BD) (reads_opens _ _ R)) as (x & ts & t & X & O). exists t. now destruct O. Qed.

Lemma convert_exit t n : In (n, t) type_names ->
  (exists b, produces native (convert_ibm t) d b) <->
  all_readable native d r /\ sample_type (rd_binary r) T_IBM /\ (exists code, format_code code t) /\ all_samples native d r (convertible t).
Proof.
  intros IN. split.
  - intros (b & r' & ds & w & R' & M & W & _). rewrite (reads_one _ R') in M. fold src in M. destruct source_type as (t0 & ST).
    assert (t0 = T_IBM /\ converting src t = Ok ds) as (-> & CV).
    { unfold convert_ibm in M. replace (ds_sample_format src) with (Ok t0) in M by (symmetry; exact (sample_format_ok _ _ ST)). cbn [bind] in M. destruct t0; try discriminate. now split. }
    assert (FC : exists code, format_code code t).
    { destruct t; try (unfold format_code; cbn; eexists; tauto); discriminate CV. }
    assert (AR : all_readable native d r).
    { unfold converting in CV. destruct (format_for t); [|discriminate]. cbn [bind] in CV. destruct (hdr_copy _ _); [|discriminate]. cbn [bind] in CV. injection CV as <-.
      eapply made_readable; [exact W|reflexivity|eauto|]. intros k ss' E. change ((do ss <- ds_trace_samples src k None None ;; map_res (convert_sample t) ss) = Ok ss') in E.
      destruct (ds_trace_samples src k None None); [eauto|discriminate]. }
    split; [exact AR|]. split; [exact ST|]. split; [exact FC|]. destruct FC as (code & FC). destruct (own d r BD R) as (S & TE).
    rewrite (write_own _ (rd_encoding r)) in W.
    + exact (convert_only d None TraceHeaderRev1 Big None r native (rd_encoding r) t code (default_formats d BD) (reads_opens _ _ R) AR rev1_alike S TE FC ds Big NoProgress _ _ CV W).
    + unfold converting in CV. destruct (format_for t); [|discriminate]. cbn [bind] in CV. destruct (hdr_copy _ _); [|discriminate]. cbn [bind] in CV. now injection CV as <-.
  - intros (AR & ST & (code & FC) & AS). destruct (convert_meaning native d r BD R AR t code ST FC AS) as (b & _ & P & _). eauto.
Qed.

Lemma scale_exit t f : sample_type (rd_binary r) t -> float_wf f ->
  (exists b, produces native (fun ds => scaling ds f) d b) <-> all_readable native d r /\ all_samples native d r (fits_by t f).
Proof.
  intros ST WF. destruct (own d r BD R) as (S & TE). split.
  - intros (b & r' & ds & w & R' & M & W & _). rewrite (reads_one _ R') in M. fold src in M.
    assert (AR : all_readable native d r).
    { unfold scaling in M. destruct (ds_sample_format src) as [t0|y]; [|discriminate]. cbn [bind] in M. injection M as <-.
      eapply made_readable; [exact W|reflexivity|eauto|]. intros k ss' E. change ((do ss <- ds_trace_samples src k None None ;; map_res (scale_sample t0 f) ss) = Ok ss') in E.
      destruct (ds_trace_samples src k None None); [eauto|discriminate]. }
    split; [exact AR|]. rewrite (write_own _ (rd_encoding r)) in W.
    + exact (scale_only d None TraceHeaderRev1 Big None r native (rd_encoding r) t f (default_formats d BD) (reads_opens _ _ R) AR rev1_alike S TE ST WF ds Big NoProgress _ _ M W).
    + unfold scaling in M. destruct (ds_sample_format src); [|discriminate]. cbn [bind] in M. now injection M as <-.
  - intros (AR & AS).
    destruct (scale_by_all d None TraceHeaderRev1 Big None r native (rd_encoding r) t f (default_formats d BD) (reads_opens _ _ R) AR rev1_alike S TE ST WF Big NoProgress [] AS)
      as (ds & M & H); [discriminate|]. fold src in M.
    assert (EN : ds_encoding ds = Some (Some (rd_encoding r))).
    { unfold scaling in M. destruct (ds_sample_format src); [|discriminate]. cbn [bind] in M. now injection M as <-. }
    destruct (meaning native d r BD R (fun x => scaling x f) ds _ _ _ M EN H) as (b & _ & P & _). eauto.
Qed.

Lemma coords_exit f : float_wf f ->
  (exists b, produces native (fun ds => Ok (scaling_coords ds f)) d b) <->
  all_readable native d r /\ all_headers d r (fun h => placed_by f "source_x" h /\ placed_by f "source_y" h).
Proof.
  intros WF. destruct (own d r BD R) as (S & TE). split.
  - intros (b & r' & ds & w & R' & M & W & _). rewrite (reads_one _ R') in M. fold src in M. injection M as <-.
    assert (AR : all_readable native d r).
    { eapply made_readable; [exact W|reflexivity| |eauto]. intros k h' E.
      change ((do h <- ds_trace_header src k ;; do h1 <- scale_field f h "source_x" ;; scale_field f h1 "source_y") = Ok h') in E. destruct (ds_trace_header src k); [eauto|discriminate]. }
    split; [exact AR|]. rewrite (write_own _ (rd_encoding r)) in W by reflexivity.
    exact (coords_only d None Big None r native (rd_encoding r) f (default_formats d BD) (reads_opens _ _ R) AR S TE WF Big NoProgress _ _ W).
  - intros (AR & AH).
    pose proof (coords_by d None Big None r native (rd_encoding r) f (default_formats d BD) (reads_opens _ _ R) AR S TE WF Big NoProgress [] AH) as H.
    destruct (meaning native d r BD R (fun x => Ok (scaling_coords x f)) (scaling_coords src f) _ _ _ eq_refl eq_refl (H ltac:(discriminate))) as (b & _ & P & _). eauto.
Qed.
End Exit.

Lemma exit_produces native parse c argv s make inn out i o : asks parse c argv make inn out -> open_rb s inn = inl i -> open_wb s out = inl o -> i <> o ->
  (fst (main native parse c argv s) = 0 <-> exists b, produces native make (fs_data s i) b).
Proof.
  intros A I O N. destruct (main_open native parse c argv s make inn out A i o I O) as (code & b & s' & M & _ & H). rewrite M. cbn [fst].
  destruct H as [(-> & _ & P)|(-> & H & _)]; [split; eauto|]. split; [discriminate|]. intros (b' & P). now destruct (H N b').
Qed.
