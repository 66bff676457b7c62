(* Property C140: a reader answers from the file as it now is. *)
From Coq Require Import String ZArith List Bool Lia ZifyBool ZifyNat.
From Verif Require Import Py PyFacts PyFloat IbmFloat Spec_Ibm Util Catalog Packing Spec_Packing Formats FileIO Text Spec_Text TextIO
  Float32 Toolkit Spec_Segy Reader Spec_Reader ReaderFacts OpenFacts Spec_Writer WriterFacts Spec_Written Spec_Cut Props_Reader Props_Writer
  Stops Spec_Stops StopsFacts StopsRead Props_Stops Spec_Place PlaceFacts NowFacts.
Import ListNotations.
Local Open Scope string_scope.
Open Scope list_scope.
Open Scope Z_scope.

(* the file was d when it was opened and is d2 now: the header of trace k is what
   is now where it was then, and trace numbers are those of then *)
Theorem C140_headers : forall d enc (bc tc : fmt) (e : endian) dim r t ts d2 k ov (c' : fmt) (e' : endian) q,
  readable d enc bc tc -> opens d enc bc tc e dim r -> traces_of d tc e r t ts ->
  all_bytes d2 -> 0 <= q -> (ov = None /\ c' = tc /\ e' = e \/ exists p, ov = Some p /\ format_ok c' 240 /\ make_header_packer c' e' = Ok p) ->
  (~ 0 <= k < zlen ts -> rd_trace_header r k ov (mk_file d2 q) = (Err ValueError, mk_file d2 q)) /\
  (forall tr, trace_of ts k tr -> exists x q', rd_trace_header r k ov (mk_file d2 q) = (x, mk_file d2 q') /\ header_at d2 (t_pos tr) c' 240 e' EOFError x q').
Proof.
  intros d enc bc tc e dim r t ts d2 k ov c' e' q RD OP TR B Q H.
  apply (header_now d enc bc tc e dim r t ts RD OP TR d2 k ov c' e' q B Q).
  - destruct H as [(_ & -> & _)|(p & _ & F & _)]; [apply RD|exact F].
  - destruct H as [(-> & -> & ->)|(p & -> & _ & E)]; [exact (own_packer d enc bc tc e dim r t ts RD OP TR)|exact E].
Qed.
Print Assumptions C140_headers.

(* and its samples are what is now where they were then, as many as they were *)
Theorem C140_samples : forall d enc (bc tc : fmt) (e : endian) dim r t ts native d2 k a b q,
  readable d enc bc tc -> opens d enc bc tc e dim r -> traces_of d tc e r t ts -> all_bytes d2 -> 0 <= q ->
  (~ 0 <= k < zlen ts -> rd_trace_samples native r k a b (mk_file d2 q) = (Err ValueError, mk_file d2 q)) /\
  (forall tr, trace_of ts k tr -> let a' := or_else a 0 in let b' := or_else b (t_count tr) in
     (~ 0 <= a' <= b' \/ ~ b' <= t_count tr -> rd_trace_samples native r k a b (mk_file d2 q) = (Err ValueError, mk_file d2 q)) /\
     (0 <= a' <= b' -> b' <= t_count tr -> exists x q', rd_trace_samples native r k a b (mk_file d2 q) = (x, mk_file d2 q') /\
        values_outcome d2 (t_pos tr + 240 + sample_size t * a') t (b' - a') e x q')).
Proof. intros d enc bc tc e dim r t ts native d2 k a b q RD OP TR. exact (samples_now d enc bc tc e dim r t ts RD OP TR native d2 k a b q). Qed.
Print Assumptions C140_samples.

(* a file that is opened while it is being written, and read when more of it has
   been written: the reader has the traces whose headers were there when it was
   opened; they are as they are written, and their samples are there as soon as
   all of them have been written *)
Theorem C140_while_written : forall ds enc x (bc tc : fmt) (e : endian) t trs pr log w1 w2,
  writable ds x bc tc t trs -> consistent ds bc tc t trs -> trs <> [] -> encoding_for enc ds x -> pr <> NotCallable ->
  stopped (fst (operations ds enc tc e pr)) (mk_world (mk_file [] 0) log) w1 ->
  stopped (fst (operations ds enc tc e pr)) (mk_world (mk_file [] 0) log) w2 ->
  let d1 := f_data (w_file w1) in let d2 := f_data (w_file w2) in zlen d1 <= zlen d2 ->
  forall dim r, opens d1 (Some x) bc tc e dim r ->
  exists m, rd_num_traces r = Z.of_nat m /\
    (forall k, (k < m)%nat <-> (k < length trs)%nat /\ trace_start ds t trs k + 240 <= zlen d1) /\
    forall k tr native q, (k < m)%nat -> nth_error trs k = Some tr ->
      (exists h, fst (rd_trace_header r (Z.of_nat k) None (mk_file d2 q)) = Ok h /\ same_fields (fst tr) h) /\
      (trace_start ds t trs (S k) <= zlen d2 ->
         exists rs, fst (rd_trace_samples native r (Z.of_nat k) None None (mk_file d2 q)) = Ok rs /\ Forall2 (stored_as t) (snd tr) rs) /\
      (zlen d2 < trace_start ds t trs (S k) -> fst (rd_trace_samples native r (Z.of_nat k) None None (mk_file d2 q)) = Err EOFError).
Proof.
  intros ds enc x bc tc e t trs pr log w1 w2 W C N E P S1 S2 d1 d2 LE dim r OP.
  destruct (write_contents ds enc x bc tc e t trs pr [] [] W E P) as (b & SC & WR).
  assert (F : format_ok (h_cls (ds_binary ds)) 400) by (destruct W as [_ _ BC (-> & _) _ _ _ _ _ _]; exact BC).
  assert (CUT : forall w, stopped (fst (operations ds enc tc e pr)) (mk_world (mk_file [] 0) log) w -> exists n, 0 <= n <= zlen b /\ f_data (w_file w) = firstn (Z.to_nat n) b).
  { intros w ST. destruct (C137_prefix ds enc tc e pr [] log [] w F ST) as (n & B & WF). rewrite WR in B, WF. cbn [snd w_file f_data] in B, WF.
    rewrite skipn_nil, app_nil_r in B, WF. exists n. split; [exact B|]. rewrite WF. unfold overwritten. cbn [f_data]. now rewrite skipn_nil, app_nil_r. }
  destruct (CUT w1 S1) as (n1 & B1 & E1), (CUT w2 S2) as (n2 & B2 & E2). fold d1 in E1. fold d2 in E2. clearbody d1 d2. unfold zlen in B1, B2, LE. rewrite E1, E2, !firstn_length in LE.
  assert (ED : d2 = d1 ++ skipn (Z.to_nat n1) d2).
  { rewrite <- (firstn_skipn (Z.to_nat n1) d2) at 1. f_equal. rewrite E2, firstn_firstn, E1. f_equal. lia. }
  assert (EB : b = (d1 ++ skipn (Z.to_nat n1) d2) ++ skipn (Z.to_nat n2) b) by (rewrite <- ED, E2; symmetry; apply firstn_skipn).
  destruct W. pose proof (grown_contents ds x bc tc e t trs b C wr_encoding wr_ext SC N d1 _ _ dim r EB OP) as G. rewrite <- ED in G. exact G.
Qed.
Print Assumptions C140_while_written.

(* two traces of two samples: opened when half of the samples of the first trace
   are there, read when all of the second trace is there *)
Definition begun (n m : nat) : list Z := f_data (w_file (perform (stop_after n m (fst (operations two_traces None TraceHeaderRev1 Big Callable))) (mk_world (mk_file [] 0) []))).
Example C140_example : zlen (begun 4 2) = 3600 + 242 /\ zlen (begun 8 0) = 3600 + 488 /\
  match open_file (begun 4 2) with
  | (Ok r, _) => (rd_num_traces r, fst (rd_trace_samples Little r 0 None None (mk_file (begun 4 2) 0)), fst (rd_trace_samples Little r 0 None None (mk_file (begun 8 0) 0)),
                  fst (rd_trace_samples Little r 1 None None (mk_file (begun 8 0) 0)))
                 = (1, Err EOFError, Ok [RInt 1; RInt 2], Err ValueError)
  | _ => False end.
Proof. split; [vm_compute; reflexivity|]. split; [vm_compute; reflexivity|]. vm_compute; reflexivity. Qed.
