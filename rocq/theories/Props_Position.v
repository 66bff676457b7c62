(* Files that are not at their beginning when they are opened or written (C122). *)
From Coq Require Import String ZArith List Bool Lia.
From Verif Require Import Py PyFloat IbmFloat Util Catalog Packing Spec_Packing Formats FileIO Text Toolkit Spec_Text Spec_Segy Reader Spec_Reader ReaderFacts OpenFacts
  FormatFacts Spec_Position PositionFacts Cache Props_Cache Props_Writer.
Import ListNotations.
Local Open Scope string_scope.
Open Scope list_scope.
Open Scope Z_scope.

(* The reel headers are read from the position of the file, everything else
   from byte 3600 on: the outcome is that of a file which begins with the 3600
   bytes found at the position.  (Without a cache directory; with one, the file
   is rewound when it is hashed, see C72_hash.) *)
Theorem C122_opened : forall d q x bc tc, readable d (Some x) bc tc -> 0 <= q -> q + 3600 <= zlen d ->
  let d' := py_slice d q (q + 3600) ++ skipn (Z.to_nat 3600) d in
  forall a e pr dim log,
  let out := create_reader a (Some x) bc tc e pr dim (mk_world (mk_file d q) log) in
  let out' := create_reader a (Some x) bc tc e pr dim (mk_world (mk_file d' 0) log) in
  fst out = fst out' /\ w_log (snd out) = w_log (snd out').
Proof. exact open_at. Qed.
Print Assumptions C122_opened.

(* With fewer bytes left it is not opened at all. *)
Theorem C122_short : forall d q enc x bc tc, readable d enc bc tc -> encoding_used enc d x -> 0 <= q -> zlen d < q + 3600 ->
  forall a e pr dim log, exists y, fst (create_reader a enc bc tc e pr dim (mk_world (mk_file d q) log)) = Err y.
Proof. exact open_short. Qed.
Print Assumptions C122_short.

(* The encoding is guessed from the first 3200 bytes of the file. *)
Theorem C122_guess : forall a enc bc tc e pr dim d q log x, 0 <= q -> encoding_used enc d x ->
  create_reader a enc bc tc e pr dim (mk_world (mk_file d q) log) = create_reader a (Some x) bc tc e pr dim (mk_world (mk_file d q) log).
Proof. exact create_reader_guess. Qed.
Print Assumptions C122_guess.

(* With a cache directory the file is hashed first (reader.py:144-146), which
   leaves it at its beginning wherever it was: what is opened then does not depend
   on the position.  So the same call can give different readers with and without
   a cache directory, see C122_offset_refuted. *)
Theorem C122_cache : forall args d q enc bc tc e dim log,
  (let (_, f) := hash_for_file args (mk_file d q) in make_reader enc bc tc e dim (mk_world f log)) = make_reader enc bc tc e dim (mk_world (mk_file d 0) log).
Proof. intros. destruct (C72_hash args (mk_file d q)) as (len & _ & H). rewrite H. reflexivity. Qed.
Print Assumptions C122_cache.

(* The reel headers are written at the position of the file, everything else
   from byte 3600 on.  Outcome and progress do not depend on the position, nor on
   what the file held. *)
Theorem C122_written : forall ds enc tc e pr old q log bc, 0 <= q -> format_ok bc 400 -> h_cls (ds_binary ds) = bc ->
  let out := write_segy ds enc tc e pr (mk_world (mk_file [] 0) log) in
  let out' := write_segy ds enc tc e pr (mk_world (mk_file old q) log) in
  fst out' = fst out /\ w_log (snd out') = w_log (snd out) /\
  (fst out = Ok tt -> exists mid, put old q (firstn (Z.to_nat 3600) (f_data (w_file (snd out)))) mid /\
     put mid 3600 (skipn (Z.to_nat 3600) (f_data (w_file (snd out)))) (f_data (w_file (snd out')))).
Proof. exact write_at_position. Qed.
Print Assumptions C122_written.

(* Refuted: that the data may begin elsewhere in the file, if the file object is
   positioned there, as the documentation of both functions says. *)
Definition opened_at (d : list Z) (q : Z) : res reader :=
  fst (create_reader attrs (Some ASCII) BinaryReelHeader TraceHeaderRev1 (Some Big) NoProgress None (mk_world (mk_file d q) [])).
Theorem C122_offset_refuted : exists r r', opened_at file_1d 0 = Ok r /\ opened_at ([0; 0; 0; 0] ++ file_1d) 4 = Ok r' /\
  rd_num_trace_samples r 0 = Ok 3 /\ rd_num_trace_samples r' 0 <> Ok 3.
Proof.
  assert (H : match opened_at file_1d 0, opened_at ([0; 0; 0; 0] ++ file_1d) 4 with
    | Ok r, Ok r' => match rd_num_trace_samples r 0, rd_num_trace_samples r' 0 with Ok n, Ok n' => (n =? 3) && negb (n' =? 3) | _, _ => false end
    | _, _ => false end = true) by (vm_compute; reflexivity).
  destruct (opened_at file_1d 0) as [r|]; [|discriminate]. destruct (opened_at ([0; 0; 0; 0] ++ file_1d) 4) as [r'|]; [|discriminate]. exists r, r'.
  destruct (rd_num_trace_samples r 0) as [n|]; [|discriminate]. destruct (rd_num_trace_samples r' 0) as [n'|]; [|discriminate].
  apply andb_prop in H. destruct H as (H & H'). apply Z.eqb_eq in H. subst n. apply negb_true_iff, Z.eqb_neq in H'.
  split; [reflexivity|]. split; [reflexivity|]. split; [reflexivity|congruence].
Qed.
Print Assumptions C122_offset_refuted.
(* The traces overwrite a part of the reel headers. *)
Definition written_at (ds : dataset) (q : Z) : list Z :=
  f_data (w_file (snd (write_segy ds (Some ASCII) TraceHeaderRev1 Big NoProgress (mk_world (mk_file [] q) [])))).
Theorem C122_write_offset_refuted : exists ds, fst (write_segy ds (Some ASCII) TraceHeaderRev1 Big NoProgress (mk_world (mk_file [] 500) [])) = Ok tt /\
  zlen (written_at ds 0) = 3600 + 240 + 2 /\ zlen (written_at ds 500) = 500 + 3600 /\
  py_slice (written_at ds 500) 500 4100 <> py_slice (written_at ds 0) 0 3600.
Proof.
  exists one_trace. split; [vm_compute; reflexivity|]. split; [vm_compute; reflexivity|]. split; [vm_compute; reflexivity|].
  intros H. apply (f_equal (fun l => byte_at l (3600 - 500 + 240 + 1))) in H. revert H. vm_compute. discriminate.
Qed.
Print Assumptions C122_write_offset_refuted.

(* a file that is longer than its reel headers and meets the conditions *)
Example C122_example : readable ([0; 0; 0; 0] ++ file_1d) (Some ASCII) BinaryReelHeader TraceHeaderRev1 /\ 4 + 3600 <= zlen ([0; 0; 0; 0] ++ file_1d) /\
  format_ok BinaryReelHeader 400 /\ h_cls (ds_binary one_trace) = BinaryReelHeader /\
  fst (write_segy one_trace (Some ASCII) TraceHeaderRev1 Big NoProgress (mk_world (mk_file [] 0) [])) = Ok tt.
Proof.
  split; [apply readable_by; vm_compute; reflexivity|]. split; [vm_compute; discriminate|]. split; [apply binary_reel_format|]. split; [reflexivity|]. vm_compute. reflexivity.
Qed.
