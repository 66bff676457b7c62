(* Property C137: a write that is stopped leaves a beginning of the file. *)
From Coq Require Import String ZArith List Bool Lia ZifyBool ZifyNat.
From Verif Require Import Py PyFacts PyFloat IbmFloat Spec_Ibm Util Catalog Packing Spec_Packing Formats FileIO Text Spec_Text TextIO
  Float32 Toolkit Spec_Segy Reader Spec_Reader OpenFacts Spec_Writer WriterFacts Spec_Written Spec_Cut Props_Reader Props_Writer
  ReaderFacts Stops Spec_Stops StopsFacts StopsRead.
Import ListNotations.
Local Open Scope string_scope.
Open Scope list_scope.
Open Scope Z_scope.

(* write_segy does these operations in this order, from wherever it starts *)
Theorem C137_operations : forall ds enc (tc : fmt) (e : endian) pr w,
  write_segy ds enc tc e pr w = (snd (operations ds enc tc e pr), perform (fst (operations ds enc tc e pr)) w).
Proof. exact operations_realized. Qed.
Print Assumptions C137_operations.

(* whenever it is stopped, the file is the former file with a beginning of the
   new contents written over it; this holds whether or not the write would have
   succeeded *)
Theorem C137_prefix : forall ds enc (tc : fmt) (e : endian) pr old log log0 w, format_ok (h_cls (ds_binary ds)) 400 ->
  let b := f_data (w_file (snd (write_segy ds enc tc e pr (mk_world (mk_file [] 0) log0)))) in
  stopped (fst (operations ds enc tc e pr)) (mk_world (mk_file old 0) log) w ->
  exists n, 0 <= n <= zlen b /\ w_file w = overwritten old (firstn (Z.to_nat n) b).
Proof. intros ds enc tc e pr old log log0 w F. exact (stop_prefix ds enc tc e pr F old log log0 w). Qed.
Print Assumptions C137_prefix.

(* every beginning can be what is left *)
Theorem C137_anywhere : forall ds enc (tc : fmt) (e : endian) pr old log log0 n, format_ok (h_cls (ds_binary ds)) 400 ->
  let b := f_data (w_file (snd (write_segy ds enc tc e pr (mk_world (mk_file [] 0) log0)))) in
  0 <= n <= zlen b -> exists w, stopped (fst (operations ds enc tc e pr)) (mk_world (mk_file old 0) log) w /\ w_file w = overwritten old (firstn (Z.to_nat n) b).
Proof. intros ds enc tc e pr old log log0 n F. exact (stop_anywhere ds enc tc e pr F old log log0 n). Qed.
Print Assumptions C137_anywhere.

(* a reported trace has been written, with all before it, and at most one more
   has been begun; 1.0 is reported only after everything has been written *)
Theorem C137_progress : forall ds enc x (bc tc : fmt) (e : endian) t trs pr old log w,
  writable ds x bc tc t trs -> encoding_for enc ds x -> pr <> NotCallable ->
  stopped (fst (operations ds enc tc e pr)) (mk_world (mk_file old 0) log) w ->
  exists j, (j <= length trs)%nat /\ f_pos (w_file w) <= trace_start ds t trs (S j) /\
    ((w_log w = log ++ map (fun k => (k, ds_num_traces ds)) (firstn j (ds_trace_indexes ds)) /\ (j = 0%nat \/ trace_start ds t trs j <= f_pos (w_file w))) \/
     (j = length trs /\ w_log w = log ++ map (fun k => (k, ds_num_traces ds)) (ds_trace_indexes ds) ++ [(1, 1)] /\ trace_start ds t trs j <= f_pos (w_file w))).
Proof. exact stop_progress. Qed.
Print Assumptions C137_progress.

(* what is left of a new file: it cannot be opened before the header of the first
   trace is complete; from then on it has the traces whose headers are complete,
   and the last of them cannot be read when its samples are not *)
Theorem C137_reading : forall ds enc x (bc tc : fmt) (e : endian) t trs pr log w,
  writable ds x bc tc t trs -> consistent ds bc tc t trs -> trs <> [] -> encoding_for enc ds x -> pr <> NotCallable ->
  stopped (fst (operations ds enc tc e pr)) (mk_world (mk_file [] 0) log) w ->
  let d := f_data (w_file w) in
  forall a pr' dim log', attrs_ok a -> pr' <> NotCallable -> (forall k, dim = Some k -> In k [1; 2; 3]) ->
  let outcome := fst (create_reader a (Some x) bc tc (Some e) pr' dim (mk_world (mk_file d 0) log')) in
  (zlen d < 3600 -> outcome = Err ValueError) /\
  (3600 <= zlen d < trace_start ds t trs 0 -> outcome = Err EOFError) /\
  (trace_start ds t trs 0 <= zlen d < trace_start ds t trs 0 + 240 -> outcome = Err RuntimeError) /\
  (trace_start ds t trs 0 + 240 <= zlen d -> exists r m, outcome = Ok r /\
     fitted_lines 40 80 (ds_text ds) (rd_text r) /\ same_fields (ds_binary ds) (rd_binary r) /\ rd_ext r = ds_ext ds /\ rd_num_traces r = Z.of_nat m /\
     (forall k, (k < m)%nat <-> (k < length trs)%nat /\ trace_start ds t trs k + 240 <= zlen d) /\
     forall k tr native q, (k < m)%nat -> nth_error trs k = Some tr ->
       (exists h, fst (rd_trace_header r (Z.of_nat k) None (mk_file d q)) = Ok h /\ same_fields (fst tr) h) /\
       (trace_start ds t trs (S k) <= zlen d ->
          exists rs, fst (rd_trace_samples native r (Z.of_nat k) None None (mk_file d q)) = Ok rs /\ Forall2 (stored_as t) (snd tr) rs) /\
       (zlen d < trace_start ds t trs (S k) -> fst (rd_trace_samples native r (Z.of_nat k) None None (mk_file d q)) = Err EOFError)).
Proof.
  intros ds enc x bc tc e t trs pr log w W C N E P ST d.
  destruct (write_contents ds enc x bc tc e t trs pr [] [] W E P) as (b & SC & WR).
  assert (F : format_ok (h_cls (ds_binary ds)) 400) by (destruct W as [_ _ BC (-> & _) _ _ _ _ _ _]; exact BC).
  destruct (C137_prefix ds enc tc e pr [] log [] w F ST) as (n & B & WF). rewrite WR in B, WF. cbn [snd w_file f_data] in B, WF.
  rewrite skipn_nil, app_nil_r in B, WF.
  assert (ED : d = firstn (Z.to_nat n) b) by (unfold d; rewrite WF; unfold overwritten; cbn [f_data]; now rewrite skipn_nil, app_nil_r).
  destruct W. apply (cut_contents ds x bc tc e t trs b C wr_encoding wr_ext SC N d (skipn (Z.to_nat n) b)). rewrite ED. symmetry. apply firstn_skipn.
Qed.
Print Assumptions C137_reading.

(* four traces *)
Example C137_example : exists ds t trs, ASCII_rev1_writable ds t trs /\ format_ok (h_cls (ds_binary ds)) 400 /\ encoding_for (Some ASCII) ds ASCII /\ zlen trs = 4 /\ trs <> [].
Proof.
  destruct dataset_3d as (ds & t & trs & W & L & N). exists ds, t, trs. split; [exact W|]. split; [|now repeat split].
  destruct W as ([_ _ BC (-> & _) _ _ _ _ _ _] & _). exact BC.
Qed.
(* two traces of two samples in a new file: stopped when a third of
   the bytes of the second trace header are written; one trace has been reported *)
Definition two_traces : dataset := hand_dataset [("data_sample_format", 3)] [] T_INT16
  [hand_trace [("num_samples", 2)] [RInt 1; RInt 2]; hand_trace [("num_samples", 2)] [RInt 3; RInt 4]].
Definition stop_after (n : nat) (m : nat) (l : list op) : list op :=
  firstn n l ++ match nth_error l n with Some (Put b) => [Put (firstn m b)] | _ => [] end.
Lemma stop_after_begins m : forall n l, begins (stop_after n m l) l.
Proof.
  unfold stop_after. induction n as [|n IH]; intros [|o l]; cbn [firstn nth_error app]; try apply begins_none.
  - destruct o; constructor.
  - apply begins_op. apply IH.
Qed.
Example C137_stopped_example : exists w, stopped (fst (operations two_traces None TraceHeaderRev1 Big Callable)) (mk_world (mk_file [] 0) []) w /\
  zlen (f_data (w_file w)) = 3600 + 244 + 80 /\ w_log w = [(0, 2)] /\
  match open_file (f_data (w_file w)) with (Ok r, _) => rd_num_traces r = 1 | _ => False end.
Proof.
  exists (perform (stop_after 6 80 (fst (operations two_traces None TraceHeaderRev1 Big Callable))) (mk_world (mk_file [] 0) [])).
  split; [exact (ex_intro _ _ (conj (stop_after_begins 80 6 _) eq_refl))|].
  split; [vm_compute; reflexivity|]. split; [vm_compute; reflexivity|]. vm_compute; reflexivity.
Qed.
