(* Property C119: comparing a copy with its original. *)
From Coq Require Import String ZArith List Bool Lia.
From Verif Require Import Py PyFloat IbmFloat Spec_Ibm Packing Spec_Packing PackingFacts Formats FileIO Text
  Float32 Toolkit Spec_Segy Reader Spec_Reader OpenFacts Spec_Writer WriterFacts Spec_Copy CopyFacts FieldTypes Spec_Transform Checks Spec_Check CheckFacts CompareFacts Props_Copy.
Import ListNotations.
Local Open Scope string_scope.
Open Scope list_scope.
Open Scope Z_scope.

(* A file is copied and the copy is opened, both with the trace header format tc
   and every other argument left out.  The headers of all traces compare equal,
   and so do all samples, unless one is not a number. *)
Theorem C119_outcome : forall native (tc : fmt) d r w t ts, all_bytes d -> trace_format tc -> coincident_alike tc -> open_default tc d = (Ok r, w) ->
  all_readable native d r -> traces_of d tc Big r t ts -> exists b,
  copied BinaryReelHeader tc Big t (first_trace (rd_ext r)) ts d b /\
  (((forall k, 0 <= k < rd_num_traces r -> ~ has_nan native d r k) /\ check_equal native tc d = (Ok tt, b)) \/
   ((exists k, 0 <= k < rd_num_traces r /\ has_nan native d r k) /\ check_equal native tc d = (Err AssertionError, b))).
Proof. intros native tc d r w t ts HB TF AT OD AR. exact (check_outcome native tc d r w HB TF AT OD AR t ts). Qed.
Print Assumptions C119_outcome.

(* The format of the example: nothing else has to be assumed of it. *)
Theorem C119_custom_partial : forall native d r w, all_bytes d -> open_default CustomTraceHeader d = (Ok r, w) -> all_readable native d r ->
  (forall k, 0 <= k < rd_num_traces r -> ~ has_nan native d r k) -> fst (check_equal native CustomTraceHeader d) = Ok tt.
Proof.
  intros native d r w HB OD AR NN.
  destruct (ReaderFacts.opens_opened d None BinaryReelHeader CustomTraceHeader Big None r (open_readable _ _ HB custom_trace_format) (open_opens _ _ _ _ OD)) as (x & ts & t & _ & O).
  destruct (check_outcome native CustomTraceHeader d r w HB custom_trace_format custom_alike OD AR t ts) as (b & _ & [(_ & E)|((k & K & N) & _)]).
  - split; [exact (ReaderFacts.op_type _ _ _ _ _ _ _ _ _ O)|exact (ReaderFacts.op_traces _ _ _ _ _ _ _ _ _ O)].
  - now rewrite E.
  - now destruct (NN k K).
Qed.
Print Assumptions C119_custom_partial.

(* The four fields of the example hold the last eight bytes of the trace
   headers, so a copy has these, too: it differs from the original only in
   bytes 223 and 224. *)
Theorem C119_bytes : forall e t first ts d b i j, copied BinaryReelHeader CustomTraceHeader e t first ts d b -> In i ts -> 0 <= j < 240 ->
  byte_at b (t_pos i + j) = if (j =? 222) || (j =? 223) then 0 else byte_at d (t_pos i + j).
Proof.
  intros e t first ts d b i j C I J. destruct (cp_header _ _ _ _ _ _ _ _ C i I j J) as (H1 & H2). rewrite custom_covers in H1, H2 by exact J.
  destruct ((j =? 222) || (j =? 223)) eqn:E.
  - apply orb_prop in E. apply H2. lia.
  - apply orb_false_elim in E. apply H1. lia.
Qed.
Print Assumptions C119_bytes.

(* file_3d with values in the last bytes of its first trace header *)
Definition file_unassigned : list Z := set_byte (set_byte file_3d 3832 1) 3839 2.
Definition no_nansb (native : endian) (d : list Z) (r : reader) : bool :=
  forallb (fun k => match fst (rd_trace_samples native r k None None (mk_file d 0)) with Ok ss => forallb (fun s => negb (is_nan s)) ss | Err _ => true end)
    (map Z.of_nat (seq 0 (Z.to_nat (rd_num_traces r)))).
Lemma no_nansb_ok native d r : no_nansb native d r = true -> forall k, 0 <= k < rd_num_traces r -> ~ has_nan native d r k.
Proof.
  unfold no_nansb. rewrite forallb_forall. intros H k K (ss & E & I). specialize (H k). rewrite E, no_nan_iff in H. apply H; [|exact I].
  apply in_map_iff. exists (Z.to_nat k). split; [lia|]. apply in_seq. lia.
Qed.
Definition example_check (d : list Z) : bool :=
  bytesb d && match open_default CustomTraceHeader d with (Ok r, _) => all_readableb Little d r && no_nansb Little d r && (rd_num_traces r =? 4) | _ => false end.
Example C119_example : exists d r w, all_bytes d /\ open_default CustomTraceHeader d = (Ok r, w) /\ all_readable Little d r /\
  (forall k, 0 <= k < rd_num_traces r -> ~ has_nan Little d r k) /\ rd_num_traces r = 4.
Proof.
  assert (H : example_check file_unassigned = true) by (vm_compute; reflexivity). revert H. generalize file_unassigned. intros d H. unfold example_check in H.
  apply andb_prop in H. destruct H as (B & H). destruct (open_default CustomTraceHeader d) as [[r|y] w] eqn:O; [|discriminate].
  apply andb_prop in H. destruct H as (H & N). apply andb_prop in H. destruct H as (A & NN).
  exists d, r, w. split; [now apply bytesb_ok|]. split; [exact O|]. split; [now apply all_readableb_ok|]. split; [now apply no_nansb_ok|]. lia.
Qed.
Example C119_example_bytes : match check_equal Little CustomTraceHeader file_unassigned with
  | (Ok tt, b) => byte_at b 3832 = 1 /\ byte_at b 3839 = 2 | _ => False end.
Proof. vm_compute. split; reflexivity. Qed.

(* A sample that is not a number makes a perfect copy fail the comparison. *)
Definition file_nan : list Z := blank_text ++ packed BinaryReelHeader Big [("data_sample_format", 5)] ++
  packed TraceHeaderRev1 Big [("num_samples", 1)] ++ [127; 192; 0; 0].
Theorem C119_nan_refuted : exists d r w, all_bytes d /\ open_default CustomTraceHeader d = (Ok r, w) /\ all_readable Little d r /\
  check_equal Little CustomTraceHeader d = (Err AssertionError, d).
Proof.
  assert (H : bytesb file_nan && match open_default CustomTraceHeader file_nan with (Ok r, _) => all_readableb Little file_nan r | _ => false end &&
    match check_equal Little CustomTraceHeader file_nan with (Err AssertionError, b) => same_bytes b file_nan | _ => false end = true) by (vm_compute; reflexivity).
  revert H. generalize file_nan. intros d H. apply andb_prop in H. destruct H as (H & C). apply andb_prop in H. destruct H as (B & H).
  destruct (open_default CustomTraceHeader d) as [[r|y] w] eqn:O; [|discriminate]. exists d, r, w.
  split; [now apply bytesb_ok|]. split; [exact O|]. split; [now apply all_readableb_ok|].
  destruct (check_equal Little CustomTraceHeader d) as [[u|[]] b]; try discriminate. apply same_bytes_ok in C. now subst b.
Qed.
Print Assumptions C119_nan_refuted.

(* The comparison can succeed although the files differ: bytes 223 and 224
   belong to no field. *)
Definition file_223 : list Z := set_byte file_unassigned 3822 7.
Theorem C119_unseen_refuted : exists d b, check_equal Little CustomTraceHeader d = (Ok tt, b) /\ byte_at d 3822 = 7 /\ byte_at b 3822 = 0.
Proof.
  assert (H : match check_equal Little CustomTraceHeader file_223 with (Ok tt, b) => (byte_at file_223 3822 =? 7) && (byte_at b 3822 =? 0) | _ => false end = true) by (vm_compute; reflexivity).
  revert H. generalize file_223. intros d H. exists d. destruct (check_equal Little CustomTraceHeader d) as [[[]|] b]; [|discriminate]. exists b.
  apply andb_prop in H. split; [reflexivity|]. split; apply Z.eqb_eq; apply H.
Qed.
Print Assumptions C119_unseen_refuted.

(* The comparison finds differences: of the traces of any two files, the second
   with at least as many, it fails with AssertionError exactly if those of one
   number differ. *)
Theorem C119_compare : forall native (tc : fmt) d r w d' r' w', all_bytes d -> all_bytes d' -> trace_format tc ->
  open_default tc d = (Ok r, w) -> open_default tc d' = (Ok r', w') -> all_readable native d r -> all_readable native d' r' -> rd_num_traces r <= rd_num_traces r' ->
  let result := compare_traces native r (w_file w) r' (w_file w') (rd_trace_indexes r) in
  (result = Ok tt /\ forall k, 0 <= k < rd_num_traces r -> equal_traces native d r d' r' k) \/
  (result = Err AssertionError /\ exists k, 0 <= k < rd_num_traces r /\ ~ equal_traces native d r d' r' k).
Proof. exact compare_files. Qed.
Print Assumptions C119_compare.

(* Two samples are equal if they are the same number, whatever their types.  It
   never raises, and is wrong only about IBM floats as said in C08. *)
Theorem C119_equality : forall x y, number x -> number y -> exists b, real_eq x y = Ok b /\
  (b = true -> same_number x y \/ mistaken x y) /\ (same_number x y -> b = true \/ mistaken x y).
Proof. exact real_eq_spec. Qed.
Print Assumptions C119_equality.

(* file_3d against a file with another sample, and against one with another header *)
Definition compared (d d' : list Z) : res Datatypes.unit :=
  match open_default CustomTraceHeader d, open_default CustomTraceHeader d' with
  | (Ok r, w), (Ok r', w') => compare_traces Little r (w_file w) r' (w_file w') (rd_trace_indexes r)
  | _, _ => Err OSError
  end.
Example C119_compare_example : compared file_3d file_3d = Ok tt /\ compared file_3d (set_byte file_3d 3841 11) = Err AssertionError /\
  compared file_3d file_unassigned = Err AssertionError.
Proof. vm_compute. auto. Qed.
Example C119_equality_example : real_eq (RInt 5) (RFloat (S754_finite false 5 (-1))) = Ok false /\ real_eq (RFloat (S754_finite false 5629499534213120 (-50))) (RInt 5) = Ok true /\
  real_eq (RIbm (W 65 80 0 0)) (RInt 5) = Ok true /\ real_eq (RInt 5) (RFloat S754_nan) = Ok false.
Proof. vm_compute. auto. Qed.
