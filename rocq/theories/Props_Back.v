(* Property C57: exactly which datasets can be read back after writing. *)
From Coq Require Import String ZArith List Bool Lia Sorted.
From Verif Require Import Py PyFloat IbmFloat Spec_Ibm Util Catalog Spec_Catalog Packing Spec_Packing FileIO Text Spec_Text
  Float32 Toolkit Spec_Segy ToolkitFacts Reader Spec_Reader ReaderFacts OpenFacts Spec_Writer WriterFacts Formats Props_Writer.
Import ListNotations.
Local Open Scope string_scope.
Open Scope list_scope.
Open Scope Z_scope.

(* a reader that gives the dataset shows that the headers describe the rest of it *)
Lemma given_back_consistent ds x bc tc e t trs b dim r : readable b (Some x) bc tc -> opens b (Some x) bc tc e dim r ->
  h_cls (ds_binary ds) = bc -> Forall (fun tr => h_cls (fst tr) = tc) trs ->
  sample_type (ds_binary ds) t -> gives_back ds trs (Forall2 (stored_as t)) b r -> consistent ds bc tc t trs /\ trs <> [].
Proof.
  intros RD OP CB CT TY (TX & BN & EX & NT & IX & TRS).
  assert (RD' := RD). destruct RD' as (AB & BF & TF & _).
  destruct (opens_opened _ _ _ _ _ _ _ RD OP) as (x' & ts & t' & X & O).
  assert (TR : traces_of b tc e r t' ts) by (split; apply O).
  destruct (counts_ok _ _ _ _ _ _ _ _ _ RD OP TR) as (C1 & _).
  assert (GB : forall n, has_field bc n -> hdr_get (rd_binary r) n = hdr_get (ds_binary ds) n).
  { intros n (f & F & <-). destruct BN as (_ & BN). apply BN. now rewrite CB. }
  assert (BF' := BF). destruct BF' as (FO & B1 & B2 & B3).
  split.
  - constructor; auto.
    + destruct (op_revision _ _ _ _ _ _ _ _ _ O) as (v & G & RV). exists v, (rd_revision r). split; [|exact RV]. rewrite <- GB; auto.
    + destruct (op_headers _ _ _ _ _ _ _ _ _ O) as (_ & _ & n & G & EO). rewrite <- EX. apply (ext_counted x' b n); [|exact EO]. rewrite <- GB; auto.
    + apply Forall_forall. intros tr I. apply In_nth_error in I. destruct I as (i & I).
      destruct (TRS (Z.of_nat i) tr ltac:(lia) ltac:(now rewrite Nat2Z.id) Little 0) as ((h & H & (_ & SF)) & rs & S & ST).
      assert (L : (i < length trs)%nat) by (apply nth_error_Some; congruence).
      destruct (header_ok_read _ _ _ _ _ _ _ _ _ RD OP TR (Z.of_nat i) 0) as (q1 & _ & HO). rewrite H in HO.
      destruct (samples_ok _ _ _ _ _ _ _ _ _ RD OP TR Little (Z.of_nat i) None None 0) as (q2 & _ & SO). rewrite S in SO.
      inversion HO as [| |tr1 h1 T1 HB EQ]; subst h1. inversion SO as [| | |tr2 rs2 T2 A1 A2 A3 RL SA EQ]; subst rs2.
      assert (tr2 = tr1) as -> by (destruct T1 as (_ & T1), T2 as (_ & T2); congruence).
      destruct (trace_layout _ _ _ _ _ _ (proj2 TR)) as (_ & _ & LAY & _). destruct (LAY _ _ T1) as (P & NS & _).
      assert (HN : has_field tc "num_samples") by apply TF.
      assert (P0 : 0 <= t_pos tr1) by (apply (trace_placed x' bc tc e dim b r ts t' TF O); now apply (trace_in ts (Z.of_nat i))).
      destruct (holds_field tc e b (t_pos tr1) 240 h "num_samples") as (v & G & FA); try assumption; try lia; try apply TF.
      rewrite (field_at_unique _ _ _ _ _ _ _ ltac:(apply TF) FA NS) in G.
      assert (HC : h_cls (fst tr) = tc) by (rewrite Forall_forall in CT; apply CT; eapply nth_error_In; eauto).
      assert (GS : hdr_get h "num_samples" = hdr_get (fst tr) "num_samples").
      { destruct HN as (f & F & <-). apply SF. now rewrite HC. }
      rewrite <- GS, G. f_equal. cbn in RL. apply Forall2_zlen' in ST. lia.
  - intros ->. apply (op_nonempty _ _ _ _ _ _ _ _ _ O). rewrite C1 in NT. change (zlen (@nil trace)) with 0 in NT.
    unfold zlen in NT. destruct ts; [reflexivity|discriminate].
Qed.

(* A dataset that has been written to a new file is read back with the same
   encoding and byte order exactly if it has traces, and its headers describe it:
   a known revision, the number of pages, and the number of samples of each
   trace. *)
Theorem C57_exact : forall ds enc x (bc tc : fmt) (e : endian) t trs pr log,
  writable ds x bc tc t trs -> binary_format bc -> trace_format tc -> sample_type (ds_binary ds) t -> encoding_for enc ds x -> pr <> NotCallable ->
  exists b w, write_segy ds enc tc e pr (mk_world (mk_file [] 0) log) = (Ok tt, w) /\ f_data (w_file w) = b /\
    forall a pr' dim log', attrs_ok a -> pr' <> NotCallable -> (forall k, dim = Some k -> In k [1; 2; 3]) ->
    ((exists r w', create_reader a (Some x) bc tc (Some e) pr' dim (mk_world (mk_file b 0) log') = (Ok r, w') /\
        gives_back ds trs (Forall2 (stored_as t)) b r) <->
     trs <> [] /\ (exists v rev, hdr_get (ds_binary ds) "format_revision_num" = Ok v /\ revision_code v rev) /\
     pages_counted (ds_binary ds) (ds_ext ds) /\ Forall (fun tr => hdr_get (fst tr) "num_samples" = Ok (zlen (snd tr))) trs).
Proof.
  intros ds enc x bc tc e t trs pr log W CB CT TY E P. destruct (write_contents ds enc x bc tc e t trs pr [] log W E P) as (b & SC & WR).
  exists b. eexists. split; [exact WR|]. split. { cbn. now rewrite skipn_nil, app_nil_r. }
  intros a pr' dim log' A P' D. split.
  - intros (r & w' & R & G). destruct (contents_bytes _ _ _ _ _ _ _ _ SC) as (AB & _).
    assert (RD : readable b (Some x) bc tc) by (split; [exact AB|]; split; [exact CB|]; split; [exact CT|]; intros y [= <-]; apply W).
    destruct (given_back_consistent ds x bc tc e t trs b dim r RD) as ([_ _ _ RV PC CS] & NE); auto.
    + now exists a, pr', log', w'.
    + apply W.
    + destruct W as [_ _ _ _ _ _ _ _ _ WG]. eapply Forall_impl; [|exact WG]. intros tr (GH & _). apply GH.
  - intros (NE & RV & PC & CS). destruct W. apply (contents_read ds x bc tc e t trs b); auto. now constructor.
Qed.
Print Assumptions C57_exact.
Example C57_exact_example : exists ds t trs, writable ds ASCII BinaryReelHeader TraceHeaderRev1 t trs /\ sample_type (ds_binary ds) t /\
  trs <> [] /\ consistent ds BinaryReelHeader TraceHeaderRev1 t trs.
Proof. destruct dataset_3d as (ds & t & trs & (W & C & _) & _ & N). exists ds, t, trs. repeat (split; [first [assumption|apply C]|]). exact C. Qed.
