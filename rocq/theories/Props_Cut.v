(* Properties C99 and C100. *)
From Coq Require Import String ZArith List Bool.
From Verif Require Import Py Util Packing Formats FileIO Text Toolkit Reader Spec_Packing Spec_Text Spec_Segy Spec_Reader OpenFacts Spec_Writer
  PyFloat IbmFloat Float32 ReaderFacts WriterFacts Props_Reader Props_Writer Spec_Cut CutFacts.
Import ListNotations.
Local Open Scope string_scope.
Open Scope list_scope.
Open Scope Z_scope.

(* ---------------- C99 ---------------- *)

(* p is what is left of the file p ++ z.  With less than the reel headers, the
   extended headers or one trace header there is an error; otherwise the traces
   whose header is left are found, and all headers are as before. *)
Theorem C99_opening : forall (p z : list Z) enc bc tc e dim r t ts,
  readable (p ++ z) enc bc tc -> opens (p ++ z) enc bc tc e dim r -> traces_of (p ++ z) tc e r t ts ->
  forall a pr dim' log, attrs_ok a -> pr <> NotCallable -> (forall k, dim' = Some k -> In k [1; 2; 3]) ->
  let outcome := fst (create_reader a enc bc tc (Some e) pr dim' (mk_world (mk_file p 0) log)) in
  (zlen p < 3600 -> outcome = Err ValueError) /\
  (3600 <= zlen p < first_trace (rd_ext r) -> outcome = Err EOFError) /\
  (first_trace (rd_ext r) <= zlen p < first_trace (rd_ext r) + 240 -> outcome = Err RuntimeError) /\
  (first_trace (rd_ext r) + 240 <= zlen p -> exists r' ts', outcome = Ok r' /\ kept (zlen p) ts ts' /\ ts' <> [] /\
     rd_text r' = rd_text r /\ rd_ext r' = rd_ext r /\
     (forall n, has_field bc n -> hdr_get (rd_binary r') n = hdr_get (rd_binary r) n) /\
     traces_of p tc e r' t ts').
Proof. intros p z enc bc tc e dim r t ts RD OP TR a pr dim' log A P D. exact (cut_opening p z enc bc tc e dim r t ts RD OP TR a pr dim' log A P D). Qed.
Print Assumptions C99_opening.

(* Everything that is left reads as before, and a range of samples that is not
   all left is reported as such. *)
Theorem C99_reading : forall (p z : list Z) enc bc tc e dim r t ts,
  readable (p ++ z) enc bc tc -> opens (p ++ z) enc bc tc e dim r -> traces_of (p ++ z) tc e r t ts ->
  forall dim' r' t' ts', opens p enc bc tc e dim' r' -> traces_of p tc e r' t' ts' ->
  kept (zlen p) ts ts' /\ t' = t /\ rd_text r' = rd_text r /\ rd_ext r' = rd_ext r /\ same_fields (rd_binary r) (rd_binary r') /\
  rd_revision r' = rd_revision r /\
  forall k tr, trace_of ts' k tr ->
    (forall q q', same_header (fst (rd_trace_header r k None (mk_file (p ++ z) q))) (fst (rd_trace_header r' k None (mk_file p q')))) /\
    forall native a b q q',
      (t_pos tr + 240 + sample_size t * or_else b (t_count tr) <= zlen p ->
         fst (rd_trace_samples native r' k a b (mk_file p q')) = fst (rd_trace_samples native r k a b (mk_file (p ++ z) q))) /\
      (zlen p < t_pos tr + 240 + sample_size t * or_else b (t_count tr) -> 0 <= or_else a 0 < or_else b (t_count tr) ->
       or_else b (t_count tr) <= t_count tr ->
         fst (rd_trace_samples native r' k a b (mk_file p q')) = Err EOFError).
Proof. intros p z enc bc tc e dim r t ts RD OP TR dim' r' t' ts'. exact (cut_reading p z enc bc tc e dim r t ts RD OP TR dim' r' t' ts'). Qed.
Print Assumptions C99_reading.

(* the example file has traces at 3600, 3846, 4090 and 4330 *)
Definition cut_at (n : nat) : list Z := firstn n file_3d.
Example C99_example : forall n, exists r t ts, example (cut_at n ++ skipn n file_3d) 4 3 r t ts.
Proof. intros n. unfold cut_at. rewrite firstn_skipn. exact file_3d_ok. Qed.
Definition count_at (n : nat) : res Z := do r <- fst (open_file (cut_at n)) ;; Ok (rd_num_traces r).
Example C99_lengths :
  count_at 3599 = Err ValueError /\ count_at 3600 = Err RuntimeError /\ count_at 3839 = Err RuntimeError /\ count_at 3840 = Ok 1 /\
  count_at 4000 = Ok 1 /\ count_at 4092 = Ok 2.
Proof. vm_compute. auto 10. Qed.
Definition samples_of_cut (n : nat) (k a b : Z) : res (list real) :=
  do r <- fst (open_file (cut_at n)) ;; fst (rd_trace_samples Little r k (Some a) (Some b) (mk_file (cut_at n) 0)).
Example C99_samples : samples_of_cut 4088 1 0 1 = Ok [RInt 40] /\ samples_of_cut 4088 1 0 2 = Err EOFError /\
  samples_of_cut 4088 0 0 3 = Ok [RInt 10; RInt (-20); RInt 30].
Proof. vm_compute. auto. Qed.

(* ---------------- C100 ---------------- *)

(* Writing that fails in the headers before the traces: nothing has been
   written, or only the textual header, or only the textual and the binary
   header; the rest of the file is as before. *)
Theorem C100_reel_headers : forall ds enc x (bc tc : fmt) (e : endian) pr old log,
  encoding_for enc ds x -> pr <> NotCallable -> supported x -> Forall is_text (ds_text ds) -> Forall (Forall is_text) (ds_ext ds) ->
  format_ok bc 400 -> h_cls (ds_binary ds) = bc -> header_ok (ds_binary ds) ->
  let outcome := write_segy ds enc tc e pr (mk_world (mk_file old 0) log) in
  (~ Forall (encodable x) (firstn 40 (ds_text ds)) -> outcome = (Err UnicodeEncodeError, mk_world (mk_file old 0) log)) /\
  (Forall (encodable x) (firstn 40 (ds_text ds)) -> exists tx tb, fitted_lines 40 80 (ds_text ds) tx /\ text_block x tx tb /\
     (~ coincident_agree (ds_binary ds) -> outcome = (Err ValueError, mk_world (overwritten old tb) log)) /\
     (coincident_agree (ds_binary ds) -> exists bb, header_block bc e (ds_binary ds) 400 bb /\
        (~ Forall (page_ok x) (ds_ext ds) ->
           exists y, In y [ValueError; UnicodeEncodeError] /\ outcome = (Err y, mk_world (overwritten old (tb ++ bb)) log)))).
Proof. intros ds enc x bc tc e pr old log X P. exact (stop_reel ds enc x bc tc e pr old log X P). Qed.
Print Assumptions C100_reel_headers.

(* Writing that fails at trace k, after the traces ks: the file holds what
   writing only these traces gives, and after it at most the header of trace
   k; progress has been reported for these traces only. *)
Theorem C100_traces : forall ds enc x (bc tc : fmt) (e : endian) t pr old log trs ks k rest,
  encoding_for enc ds x -> pr <> NotCallable ->
  writable (restrict ds ks) x bc tc t trs -> ds_num_traces ds <> 0 -> ds_trace_indexes ds = ks ++ k :: rest ->
  exists b, segy_contents ds x bc tc e t trs b /\
    let stops y b' := write_segy ds enc tc e pr (mk_world (mk_file old 0) log) =
      (Err y, mk_world (overwritten old b') (log ++ map (fun k => (k, ds_num_traces ds)) ks)) in
    (forall y, ds_trace_header ds k = Err y -> stops y b) /\
    (forall h, ds_trace_header ds k = Ok h -> h_cls h = tc -> header_ok h -> ~ coincident_agree h -> stops ValueError b) /\
    (forall h, ds_trace_header ds k = Ok h -> good_header tc h -> exists hb, header_block tc e h 240 hb /\
       (forall y, ds_trace_samples ds k None None = Err y -> stops y (b ++ hb)) /\
       (forall ss r, ds_trace_samples ds k None None = Ok ss -> In r ss -> refused t r -> exists y, stops y (b ++ hb))).
Proof. intros ds enc x bc tc e t pr old log trs ks k rest X P. exact (stop_trace ds enc x bc tc e t pr old log X P trs ks k rest). Qed.
Print Assumptions C100_traces.

(* What has been written can be read: the traces before the one that failed are
   all there.  If the header of that one has been written too, it appears as a
   further trace whose samples cannot be read. *)
Theorem C100_reading : forall ds x (bc tc : fmt) (e : endian) t trs b,
  consistent ds bc tc t trs -> supported x -> Forall (page_ok x) (ds_ext ds) -> segy_contents ds x bc tc e t trs b ->
  forall a pr dim log, attrs_ok a -> pr <> NotCallable -> (forall k, dim = Some k -> In k [1; 2; 3]) ->
  (trs <> [] -> exists r w, create_reader a (Some x) bc tc (Some e) pr dim (mk_world (mk_file b 0) log) = (Ok r, w) /\
     gives_back ds trs (Forall2 (stored_as t)) b r) /\
  (forall h hb n, header_block tc e h 240 hb -> hdr_get h "num_samples" = Ok n -> 0 < n ->
     exists r w, create_reader a (Some x) bc tc (Some e) pr dim (mk_world (mk_file (b ++ hb) 0) log) = (Ok r, w) /\
     rd_num_traces r = zlen trs + 1 /\
     (forall k tr, 0 <= k -> nth_error trs (Z.to_nat k) = Some tr -> forall native q,
       (exists h, fst (rd_trace_header r k None (mk_file (b ++ hb) q)) = Ok h /\ same_fields (fst tr) h) /\
       (exists rs, fst (rd_trace_samples native r k None None (mk_file (b ++ hb) q)) = Ok rs /\ Forall2 (stored_as t) (snd tr) rs)) /\
     forall native q,
       (exists h', fst (rd_trace_header r (zlen trs) None (mk_file (b ++ hb) q)) = Ok h' /\ same_fields h h') /\
       fst (rd_trace_samples native r (zlen trs) None None (mk_file (b ++ hb) q)) = Err EOFError).
Proof.
  intros ds x bc tc e t trs b CO S PO SC a pr dim log A P D. split.
  - intros NE. now apply (contents_read ds x bc tc e t trs b).
  - intros h hb n HB HN N0. exact (contents_leftover ds x bc tc e t trs b h hb n CO S PO SC HB HN N0 a pr dim log A P D).
Qed.
Print Assumptions C100_reading.

(* four good traces and one more *)
Definition one_more (ds : dataset) (ho : res header) (so : res (list real)) : dataset :=
  mk_dataset (ds_text ds) (ds_binary ds) (ds_ext ds) (ds_encoding ds) 5 [0; 1; 2; 3; 4]
    (fun k => if k =? 4 then ho else ds_trace_header ds k) (fun k a b => if k =? 4 then so else ds_trace_samples ds k a b)
    (ds_sample_format ds) (ds_dimensionality ds).
Example C100_example : exists ds t trs, zlen trs = 4 /\ consistent ds BinaryReelHeader TraceHeaderRev1 t trs /\ forall ho so,
  writable (restrict (one_more ds ho so) [0; 1; 2; 3]) ASCII BinaryReelHeader TraceHeaderRev1 t trs /\ encoding_for (Some ASCII) (one_more ds ho so) ASCII /\
  ds_trace_indexes (one_more ds ho so) = [0; 1; 2; 3] ++ 4 :: [] /\
  ds_trace_header (one_more ds ho so) 4 = ho /\ ds_trace_samples (one_more ds ho so) 4 None None = so.
Proof.
  assert (H : match read_dataset file_3d with Some ds => ds_trace_indexes ds | None => [] end = [0; 1; 2; 3]) by (vm_compute; reflexivity).
  destruct (read_dataset file_3d) as [ds|] eqn:E; [|discriminate].
  destruct (read_dataset_writable file_3d ltac:(vm_compute; reflexivity) ds E) as (t & trs & W & C & _). exists ds, t, trs.
  assert (PR := wr_traces _ _ _ _ _ _ W). unfold presents in PR. rewrite H in PR.
  split. { apply WriterFacts.Forall2_zlen' in PR. symmetry. exact PR. }
  split; [exact C|]. intros ho so. split; [|repeat split]. destruct W. constructor; auto; [right; discriminate|].
  unfold presents. cbn [restrict one_more ds_trace_indexes ds_trace_header ds_trace_samples].
  repeat match goal with H : Forall2 _ (_ :: _) _ |- _ => inversion H; subst; clear H end.
  repeat match goal with H : Forall2 _ [] _ |- _ => inversion H; subst; clear H end.
  repeat constructor; tauto.
Qed.
(* 70000 does not fit into 16 bits; the header of the second trace is in the file *)
Definition unfit : dataset := hand_dataset [("data_sample_format", 3)] [] T_INT16
  [hand_trace [("num_samples", 1)] [RInt 7]; hand_trace [("num_samples", 1)] [RInt 70000]].
Example C100_unfit : refused T_INT16 (RInt 70000) /\
  match write_hand unfit [] with
  | (Err StructError, w) => zlen (f_data (w_file w)) = 3600 + 242 + 240 /\ w_log w = [(0, 2)] /\
      match open_file (f_data (w_file w)) with (Ok r, _) => rd_num_traces r = 2 | _ => False end
  | _ => False end.
Proof. split; [cbn; intros (_ & H); discriminate H|]. vm_compute. auto. Qed.
(* a character ASCII has not, and a page of one line *)
Definition odd_text : dataset := mk_dataset [[8364]] (ds_binary one_trace) [] None 0 [] (ds_trace_header one_trace) (ds_trace_samples one_trace) (ds_sample_format one_trace) 1.
Definition odd_page : dataset := mk_dataset [] (ds_binary one_trace) [[[65]]] None 0 [] (ds_trace_header one_trace) (ds_trace_samples one_trace) (ds_sample_format one_trace) 1.
Example C100_reel_example :
  format_ok BinaryReelHeader 400 /\ h_cls (ds_binary one_trace) = BinaryReelHeader /\
  ~ Forall (encodable ASCII) (firstn 40 (ds_text odd_text)) /\ ~ Forall (page_ok ASCII) (ds_ext odd_page) /\
  write_hand odd_text [1; 2] = (Err UnicodeEncodeError, mk_world (mk_file [1; 2] 0) []) /\
  match write_hand odd_page [] with (Err ValueError, w) => zlen (f_data (w_file w)) = 3600 | _ => False end.
Proof.
  split; [apply binary_reel_format|]. split; [reflexivity|]. split.
  { intros H. inversion H as [|? ? E _]. inversion E as [|? ? (_ & B) _]. discriminate B. }
  split. { intros H. inversion H as [|? ? (L & _) _]. discriminate L. }
  split; vm_compute; reflexivity.
Qed.
