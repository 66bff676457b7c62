(* Comparing files of which the second has fewer traces. *)
From Coq Require Import String ZArith List Bool Lia ZifyBool ZifyNat.
From Verif Require Import Py PyFacts PyFloat IbmFloat Spec_Ibm FloatFacts IbmFacts Util Catalog Packing Spec_Packing PackingFacts Formats FileIO Text
  Float32 Toolkit Spec_Segy Reader Spec_Reader ReaderFacts OpenFacts Spec_Writer WriterFacts Spec_Transform Checks Spec_Check CheckFacts CompareFacts.
Import ListNotations.
Open Scope list_scope.
Open Scope Z_scope.

Section Fewer.
Variables (native : endian) (tc : fmt) (d : list Z) (r : reader) (w : world) (d' : list Z) (r' : reader) (w' : world).
Hypothesis HB : all_bytes d.
Hypothesis HB' : all_bytes d'.
Hypothesis TF : trace_format tc.
Hypothesis OD : open_default tc d = (Ok r, w).
Hypothesis OD' : open_default tc d' = (Ok r', w').
Hypothesis AR : all_readable native d r.
Hypothesis AR' : all_readable native d' r'.
Hypothesis LT : rd_num_traces r' < rd_num_traces r.

Lemma compare_until k0 rest : rd_num_traces r' <= k0 < rd_num_traces r -> forall ks, (forall k, In k ks -> 0 <= k < rd_num_traces r') -> forall q q',
  let result := compare_traces native r (mk_file d q) r' (mk_file d' q') (ks ++ k0 :: rest) in
  (result = Err ValueError /\ Forall (equal_traces native d r d' r') ks) \/ (result = Err AssertionError /\ Exists (fun k => ~ equal_traces native d r d' r' k) ks).
Proof.
  intros K0. induction ks as [|k ks IH]; intros IN q q'; cbv zeta.
  { left. split; [|constructor]. cbn [app compare_traces].
    assert (N : 0 <= rd_num_traces r').
    { pose proof (open_readable _ _ HB' TF) as RD. pose proof (open_opens _ _ _ _ OD') as OP. destruct (opens_opened _ _ _ _ _ _ _ RD OP) as (x & ts & t & X & O).
      assert (TR : traces_of d' tc Big r' t ts) by (split; [exact (op_type _ _ _ _ _ _ _ _ _ O)|exact (op_traces _ _ _ _ _ _ _ _ _ O)]).
      destruct (counts_ok d' None BinaryReelHeader tc Big None r' t ts RD OP TR) as (C1 & _). rewrite C1. apply zlen_nonneg. }
    destruct (reading native tc d r w HB TF OD AR k0 ltac:(lia)) as ((o & CO) & h & ss & _ & _ & _ & RH & _).
    rewrite CO. cbn [bind]. destruct (RH q) as (q1 & ->). cbn [bind].
    pose proof (open_readable _ _ HB' TF) as RD. pose proof (open_opens _ _ _ _ OD') as OP. destruct (opens_opened _ _ _ _ _ _ _ RD OP) as (x & ts & t & X & O).
    assert (TR : traces_of d' tc Big r' t ts) by (split; [exact (op_type _ _ _ _ _ _ _ _ _ O)|exact (op_traces _ _ _ _ _ _ _ _ _ O)]).
    destruct (counts_ok d' None BinaryReelHeader tc Big None r' t ts RD OP TR) as (C1 & _).
    destruct (header_ok_read d' None BinaryReelHeader tc Big None r' t ts RD OP TR k0 q') as (q2 & _ & HO).
    destruct (rd_trace_header r' k0 None (mk_file d' q')) as [a f]. cbn [fst] in HO.
    inversion HO as [|tr n T _ |tr h1 T _]; subst; [reflexivity| |]; destruct T as (T & _); lia. }
  assert (K := IN k (or_introl eq_refl)).
  destruct (reading native tc d r w HB TF OD AR k ltac:(lia)) as ((o & CO) & h & ss & (H0 & S0) & CH & NS & RH & RS).
  destruct (reading native tc d' r' w' HB' TF OD' AR' k K) as (_ & h' & ss' & (H0' & S0') & CH' & NS' & RH' & RS').
  cbn [app compare_traces]. rewrite CO. cbn [bind]. destruct (RH q) as (q1 & ->). destruct (RH' q') as (q1' & ->). cbn [bind].
  destruct (are_equal_iff h h') as (eq & EQ & EI); [rewrite CH; apply TF|congruence|]. rewrite EQ. cbn [bind].
  assert (NE : ~ (same_fields h h' /\ Forall2 (fun x y => real_eq x y = Ok true) ss ss') -> ~ equal_traces native d r d' r' k).
  { intros N (h1 & h1' & ss1 & ss1' & E1 & E2 & E3 & E4 & E5 & E6). apply N. split; congruence. }
  destruct eq; cbn [negb].
  2:{ right. split; [reflexivity|]. left. apply NE. intros (N & _). apply EI in N. discriminate. }
  destruct (RS q1) as (q2 & ->). destruct (RS' q1') as (q2' & ->). cbn [bind].
  destruct (samples_eq_spec ss ss' NS NS') as (b & EB & BI). rewrite EB. cbn [bind]. destruct b; cbn [negb].
  2:{ right. split; [reflexivity|]. left. apply NE. intros (_ & N). apply BI in N. discriminate. }
  destruct (IH (fun k' I => IN k' (or_intror I)) q2 q2') as [(A & B)|(A & B)]; [left|right]; (split; [exact A|]).
  - constructor; [|exact B]. exists h, h', ss, ss'. split; [exact H0|]. split; [exact H0'|]. split; [now apply EI|]. split; [exact S0|]. split; [exact S0'|]. now apply BI.
  - now right.
Qed.

Lemma compare_fewer : let result := compare_traces native r (w_file w) r' (w_file w') (rd_trace_indexes r) in
  (result = Err ValueError /\ forall k, 0 <= k < rd_num_traces r' -> equal_traces native d r d' r' k) \/
  (result = Err AssertionError /\ exists k, 0 <= k < rd_num_traces r' /\ ~ equal_traces native d r d' r' k).
Proof.
  destruct (opened_file tc d r w HB TF OD) as (q & ->). destruct (opened_file tc d' r' w' HB' TF OD') as (q' & ->).
  pose proof (open_readable _ _ HB TF) as RD. pose proof (open_opens _ _ _ _ OD) as OP.
  destruct (opens_opened _ _ _ _ _ _ _ RD OP) as (x & ts & t & X & O).
  assert (TR : traces_of d tc Big r t ts) by (split; [exact (op_type _ _ _ _ _ _ _ _ _ O)|exact (op_traces _ _ _ _ _ _ _ _ _ O)]).
  pose proof (open_readable _ _ HB' TF) as RD'. pose proof (open_opens _ _ _ _ OD') as OP'.
  destruct (opens_opened _ _ _ _ _ _ _ RD' OP') as (x' & ts' & t' & X' & O').
  assert (TR' : traces_of d' tc Big r' t' ts') by (split; [exact (op_type _ _ _ _ _ _ _ _ _ O')|exact (op_traces _ _ _ _ _ _ _ _ _ O')]).
  destruct (counts_ok d None BinaryReelHeader tc Big None r t ts RD OP TR) as (C1 & C2 & _).
  destruct (counts_ok d' None BinaryReelHeader tc Big None r' t' ts' RD' OP' TR') as (C1' & _).
  assert (IX : exists rest, rd_trace_indexes r = map Z.of_nat (seq 0 (length ts')) ++ rd_num_traces r' :: rest).
  { exists (map Z.of_nat (seq (Datatypes.S (length ts')) (length ts - length ts' - 1))).
    rewrite C2. unfold zlen in C1, C1'. replace (length ts) with (length ts' + Datatypes.S (length ts - length ts' - 1))%nat at 1 by lia.
    rewrite seq_app, map_app. cbn [seq map Nat.add]. rewrite C1'. reflexivity. }
  destruct IX as (rest & ->).
  assert (IN : forall k, In k (map Z.of_nat (seq 0 (length ts'))) <-> 0 <= k < rd_num_traces r').
  { intros k. rewrite C1', in_map_iff. unfold zlen. split.
    - intros (n & <- & I). apply in_seq in I. lia.
    - intros K. exists (Z.to_nat k). split; [lia|]. apply in_seq. lia. }
  destruct (compare_until (rd_num_traces r') rest ltac:(lia) (map Z.of_nat (seq 0 (length ts'))) (fun k I => proj1 (IN k) I) q q') as [(A & B)|(A & B)]; [left|right]; (split; [exact A|]).
  - intros k K. rewrite Forall_forall in B. apply B. now apply IN.
  - apply Exists_exists in B. destruct B as (k & I & N). exists k. split; [now apply IN|exact N].
Qed.
End Fewer.
