(* Properties C55, C59-C65, C67-C69, C78, C79, C81, C83-C85: finding the traces
   of a file, readers. *)
From Coq Require Import String ZArith List Bool Lia Sorted Permutation.
From Verif Require Import Py PyFloat IbmFloat Spec_Ibm Util Catalog Spec_Catalog Packing Spec_Packing Formats FileIO Text Spec_Text
  Float32 Toolkit Spec_Segy ToolkitFacts Reader Spec_Reader ReaderFacts OpenFacts.
Import ListNotations.
Local Open Scope string_scope.
Open Scope list_scope.
Open Scope Z_scope.

(* Files for the examples: opened with a BinaryReelHeader and TraceHeaderRev1. *)
Definition opens_default (d : list Z) : reader -> Prop := opens d (Some ASCII) BinaryReelHeader TraceHeaderRev1 Big None.
Definition readable_default (d : list Z) : Prop := readable d (Some ASCII) BinaryReelHeader TraceHeaderRev1.
Definition example (d : list Z) (n dim : Z) (r : reader) (t : segytype) (ts : list tinfo) : Prop :=
  readable_default d /\ opens_default d r /\ traces_of d TraceHeaderRev1 Big r t ts /\ zlen ts = n /\ natural_dimensionality ts dim /\
  first_trace (rd_ext r) = 3600.
Lemma example_file d n dim : bytesb d = true ->
  match open_file d with (Ok r, _) => Some (rd_num_traces r, rd_dimensionality r, first_trace (rd_ext r)) | _ => None end = Some (n, dim, 3600) ->
  exists r t ts, example d n dim r t ts.
Proof.
  intros B E. assert (RD := readable_by d B).
  destruct (open_file d) as [[r|y] w] eqn:O; [|discriminate]. injection E as <- <- FT.
  assert (OP : opens_default d r) by (do 4 eexists; exact O).
  destruct (opens_opened d _ _ _ _ _ r RD OP) as (x & ts & t & X & OD). exists r, t, ts.
  assert (TR : traces_of d TraceHeaderRev1 Big r t ts) by (split; [apply OD|apply OD]).
  do 3 (split; [assumption|]). split; [symmetry; apply (counts_ok _ _ _ _ _ _ _ _ _ RD OP TR)|]. split; [|exact FT].
  exact (rd_dim _ _ _ _ None _ _ _ _ OD).
Qed.
Lemma file_3d_ok : exists r t ts, example file_3d 4 3 r t ts.
Proof. apply example_file; vm_compute; reflexivity. Qed.
Lemma file_2d_ok : exists r t ts, example file_2d 3 2 r t ts.
Proof. apply example_file; vm_compute; reflexivity. Qed.
Lemma file_1d_ok : exists r t ts, example file_1d 2 0 r t ts.
Proof. apply example_file; vm_compute; reflexivity. Qed.

(* ---------------- C55 ---------------- *)

Theorem C55_scan_total : forall bps (c : fmt) (e : endian) pr (d : list Z) pos log,
  trace_format c -> all_bytes d -> 0 <= bps -> 0 <= pos -> pr <> NotCallable ->
  exists r q log', catalog_traces bps c e pr (mk_world (mk_file d pos) log) = (r, mk_world (mk_file d q) log') /\
    catalog_outcome c e bps d pos r.
Proof.
  intros bps c e pr d pos log T B H P N. destruct (catalog_traces_spec bps c e pr d pos log T B H P N) as (r & q & l & E & O & _). eauto.
Qed.
Print Assumptions C55_scan_total.

Theorem C55_trace_positions : forall (c : fmt) (e : endian) bps (d : list Z) p ts, file_traces c e bps d p ts ->
  (forall t, trace_of ts 0 t -> t_pos t = p) /\
  (forall k t t', trace_of ts k t -> trace_of ts (k + 1) t' -> t_pos t' = t_pos t + 240 + bps * t_count t) /\
  (forall k t, trace_of ts k t -> t_pos t + 240 <= zlen d /\ field_at c e d (t_pos t) "num_samples" (t_count t) /\
     field_at c e d (t_pos t) "ensemble_num" (t_cdp t) /\ field_at c e d (t_pos t) "inline_number" (t_inline t) /\
     field_at c e d (t_pos t) "crossline_number" (t_xline t)) /\
  (forall t, trace_of ts (zlen ts - 1) t -> zlen d < t_pos t + 240 + bps * t_count t + 240) /\
  (ts = [] -> zlen d < p + 240).
Proof. exact trace_layout. Qed.
Print Assumptions C55_trace_positions.

Theorem C55_traces_determined : forall (c : fmt) (e : endian) bps (d : list Z) p ts ts', trace_format c ->
  file_traces c e bps d p ts -> file_traces c e bps d p ts' -> ts = ts'.
Proof. exact traces_unique. Qed.
Print Assumptions C55_traces_determined.

Example C55_example : trace_format TraceHeaderRev1 /\ exists t ts, file_traces TraceHeaderRev1 Big (sample_size t) file_3d 3600 ts /\ zlen ts = 4.
Proof.
  split; [exact rev1_trace_format|]. destruct file_3d_ok as (r & t & ts & RD & OP & (TY & F) & L & _ & FT). exists t, ts. now rewrite <- FT.
Qed.

(* ---------------- C59 ---------------- *)

Theorem C59_trace_samples : forall (d : list Z) enc bc tc e dim r t ts native k a b q,
  readable d enc bc tc -> opens d enc bc tc e dim r -> traces_of d tc e r t ts ->
  exists q', snd (rd_trace_samples native r k a b (mk_file d q)) = mk_file d q' /\
    samples_outcome d e t ts k a b (fst (rd_trace_samples native r k a b (mk_file d q))).
Proof. intros d enc bc tc e dim r t ts native k a b q RD OP TR. exact (samples_ok d enc bc tc e dim r t ts RD OP TR native k a b q). Qed.
Print Assumptions C59_trace_samples.

Theorem C59_slices : forall (d : list Z) enc bc tc e dim r native k a b q q0 all,
  readable d enc bc tc -> opens d enc bc tc e dim r ->
  fst (rd_trace_samples native r k None None (mk_file d q0)) = Ok all -> 0 <= a <= b -> b <= zlen all ->
  fst (rd_trace_samples native r k (Some a) (Some b) (mk_file d q)) = Ok (firstn (Z.to_nat (b - a)) (skipn (Z.to_nat a) all)).
Proof. exact samples_slice. Qed.
Print Assumptions C59_slices.

Example C59_example : exists r t ts, example file_3d 4 3 r t ts /\
  match open_file file_3d with
  | (Ok r, _) =>
      fst (rd_trace_samples Little r 0 None None (mk_file file_3d 17)) = Ok [RInt 10; RInt (-20); RInt 30] /\
      fst (rd_trace_samples Little r 0 (Some 1) None (mk_file file_3d 0)) = Ok [RInt (-20); RInt 30] /\
      fst (rd_trace_samples Little r 0 (Some 1) (Some 4) (mk_file file_3d 0)) = Err ValueError /\
      fst (rd_trace_samples Little r 4 None None (mk_file file_3d 0)) = Err ValueError /\
      fst (rd_trace_samples Little r 0 None None (mk_file (firstn 3845 file_3d) 0)) = Err EOFError
  | _ => False
  end.
Proof. destruct file_3d_ok as (r & t & ts & EX). exists r, t, ts. split; [exact EX|]. vm_compute. auto. Qed.

(* ---------------- C60 ---------------- *)

(* Any series of calls cs of members of a reader, from any file position:
   a call after them answers what it answers on a new reader, whatever the file
   position, and the file is not changed. *)
Theorem C60_history_independent : forall native r cs c (d : list Z) q q',
  let s := exec_all native r cs (mk_session no_memo (mk_file d q)) in
  fst (exec native r c s) = fst (exec native r c (mk_session no_memo (mk_file d q'))) /\ f_data (s_file s) = d.
Proof. exact history. Qed.
Print Assumptions C60_history_independent.

Example C60_example :
  match open_file file_3d with
  | (Ok r, _) =>
      let s := exec_all Little r [TraceSamples 3 None None; MaxNumTraceSamples; InlineNumbers; TraceHeader 9 None; TraceSamples 0 (Some 1) None]
                 (mk_session no_memo (mk_file file_3d 2)) in
      s_memo s <> no_memo /\ f_pos (s_file s) = 3846 /\
      fst (exec Little r (TraceSamples 1 None None) s) = Ok (ASamples [RInt 40; RInt 50]) /\
      fst (exec Little r MaxNumTraceSamples s) = Ok (AInt 3)
  | _ => False
  end.
Proof. vm_compute. split; [discriminate|auto]. Qed.

(* ---------------- C61 ---------------- *)

Theorem C61_index_3d : forall (d : list Z) enc bc tc e dim r t ts,
  readable d enc bc tc -> opens d enc bc tc e dim r -> traces_of d tc e r t ts ->
  NoDup (map (fun t => (t_inline t, t_xline t)) ts) -> dim = None \/ dim = Some 3 ->
  (forall i j k, rd_trace_index3 r (i, j) = Ok k <-> exists tr, trace_of ts k tr /\ t_inline tr = i /\ t_xline tr = j) /\
  (forall i j, (exists tr, In tr ts /\ t_inline tr = i /\ t_xline tr = j) \/ rd_trace_index3 r (i, j) = Err KeyError) /\
  (forall i j, exists b, rd_has_trace_index3 r (i, j) = Ok b /\ (b = true <-> exists tr, In tr ts /\ t_inline tr = i /\ t_xline tr = j)) /\
  (exists s, rd_inline_numbers r = Ok s /\ StronglySorted Z.lt (sseq_list s) /\ forall i, In i (sseq_list s) <-> In i (map t_inline ts)) /\
  (exists s, rd_xline_numbers r = Ok s /\ StronglySorted Z.lt (sseq_list s) /\ forall j, In j (sseq_list s) <-> In j (map t_xline ts)) /\
  (exists l, rd_inline_xline_numbers r = Ok l /\ Permutation l (map (fun t => (t_inline t, t_xline t)) ts)).
Proof.
  intros d enc bc tc e dim r t ts RD OP TR. destruct (get_opened d enc bc tc e dim r t ts RD OP TR) as (x & _ & O).
  exact (index_3d x bc tc e dim d r ts t O).
Qed.
Print Assumptions C61_index_3d.

Example C61_example : exists r t ts, example file_3d 4 3 r t ts /\ NoDup (map (fun t => (t_inline t, t_xline t)) ts) /\
  match open_file file_3d with
  | (Ok r, _) => rd_trace_index3 r (2, 5) = Ok 2 /\ rd_trace_index3 r (3, 5) = Err KeyError /\ rd_has_trace_index3 r (1, 6) = Ok true
  | _ => False
  end.
Proof.
  destruct file_3d_ok as (r & t & ts & EX). exists r, t, ts. split; [exact EX|]. split.
  - destruct EX as (_ & _ & _ & _ & (N & _) & _). now apply N.
  - vm_compute. auto.
Qed.

(* ---------------- C62 ---------------- *)

Theorem C62_index_2d : forall (d : list Z) enc bc tc e dim r t ts,
  readable d enc bc tc -> opens d enc bc tc e dim r -> traces_of d tc e r t ts ->
  NoDup (map t_cdp ts) -> (dim = None /\ ~ NoDup (map (fun t => (t_inline t, t_xline t)) ts)) \/ dim = Some 2 ->
  (forall c k, rd_trace_index2 r c = Ok k <-> exists tr, trace_of ts k tr /\ t_cdp tr = c) /\
  (forall c, In c (map t_cdp ts) \/ rd_trace_index2 r c = Err KeyError) /\
  (forall c, exists b, rd_has_trace_index2 r c = Ok b /\ (b = true <-> In c (map t_cdp ts))) /\
  (exists s, rd_cdp_numbers r = Ok s /\ StronglySorted Z.lt (sseq_list s) /\ forall c, In c (sseq_list s) <-> In c (map t_cdp ts)) /\
  rd_num_cdps r = Ok (zlen ts).
Proof.
  intros d enc bc tc e dim r t ts RD OP TR. destruct (get_opened d enc bc tc e dim r t ts RD OP TR) as (x & _ & O).
  exact (index_2d x bc tc e dim d r ts t O).
Qed.
Print Assumptions C62_index_2d.

Example C62_example : exists r t ts, example file_2d 3 2 r t ts /\
  NoDup (map t_cdp ts) /\ ~ NoDup (map (fun t => (t_inline t, t_xline t)) ts) /\
  match open_file file_2d with
  | (Ok r, _) => rd_trace_index2 r 9 = Ok 1 /\ rd_trace_index2 r 6 = Err KeyError /\ rd_has_trace_index2 r 8 = Ok true /\
      rmap sseq_list (rd_cdp_numbers r) = Ok [7; 8; 9]
  | _ => False
  end.
Proof.
  destruct file_2d_ok as (r & t & ts & EX). exists r, t, ts. split; [exact EX|].
  destruct EX as (_ & _ & _ & _ & (_ & (N & _) & _) & _). destruct (N eq_refl) as (N1 & N2). do 2 (split; [assumption|]).
  vm_compute. auto.
Qed.

(* ---------------- C63 ---------------- *)

Theorem C63_dimensionality : forall (d : list Z) enc bc tc e dim r t ts,
  readable d enc bc tc -> opens d enc bc tc e dim r -> traces_of d tc e r t ts ->
  match dim with
  | None => natural_dimensionality ts (rd_dimensionality r)
  | Some 1 => rd_dimensionality r = (if zlen ts =? 1 then 1 else 0)
  | Some k => rd_dimensionality r = k
  end.
Proof.
  intros d enc bc tc e dim r t ts RD OP TR. destruct (get_opened d enc bc tc e dim r t ts RD OP TR) as (x & _ & O).
  exact (rd_dim x bc tc e dim d r ts t O).
Qed.
Print Assumptions C63_dimensionality.

Example C63_example : (exists r t ts, example file_3d 4 3 r t ts) /\ (exists r t ts, example file_2d 3 2 r t ts) /\
  exists r t ts, example file_1d 2 0 r t ts.
Proof. split; [exact file_3d_ok|split; [exact file_2d_ok|exact file_1d_ok]]. Qed.

(* ---------------- C64 ---------------- *)

(* Refuted: no file without traces can be opened. *)
Theorem C64_no_traces_refuted : forall a enc bc tc e pr dim (d : list Z) log x tx bin ext t,
  readable d enc bc tc -> attrs_ok a -> 3600 <= zlen d -> pr <> NotCallable ->
  (forall k, dim = Some k -> In k [1; 2; 3]) -> encoding_used enc d x ->
  reel_headers x bc e d tx bin ext -> sample_type bin t -> zlen d < first_trace ext + 240 ->
  fst (create_reader a enc bc tc (Some e) pr dim (mk_world (mk_file d 0) log)) = Err RuntimeError.
Proof. exact open_no_traces. Qed.
Print Assumptions C64_no_traces_refuted.

Example C64_example : readable_default (file_head Big) /\ zlen (file_head Big) = 3600 /\ fst (open_file (file_head Big)) = Err RuntimeError /\
  exists tx bin ext t, reel_headers ASCII BinaryReelHeader Big (file_head Big) tx bin ext /\ sample_type bin t /\
    zlen (file_head Big) < first_trace ext + 240.
Proof.
  assert (RD : readable_default (file_head Big)) by (apply readable_by; vm_compute; reflexivity).
  split; [exact RD|]. split; [vm_compute; reflexivity|]. split; [vm_compute; reflexivity|].
  destruct (create_reader_total attrs (Some ASCII) BinaryReelHeader TraceHeaderRev1 Big Callable None (file_head Big) [] ASCII RD)
    as (r & q & log & E & O & _).
  - now repeat split.
  - replace (zlen (file_head Big)) with 3600 by (vm_compute; reflexivity). lia.
  - discriminate.
  - discriminate.
  - reflexivity.
  - assert (R : r = Err RuntimeError).
    { assert (F : fst (open_file (file_head Big)) = r) by (unfold open_file; now rewrite E). rewrite <- F. vm_compute. reflexivity. }
    subst r. inversion O as [| |tx bin n y RT HB G EO Y| |tx bin ext t y RH TY CO Y| |].
    + exfalso. destruct EO as (EO1 & EO2). destruct (Z_le_dec 0 n) as [N|N].
      * specialize (EO1 N). inversion EO1.
      * specialize (EO2 ltac:(lia)). inversion EO2.
    + exists tx, bin, ext, t. split; [exact RH|]. split; [exact TY|].
      clear -CO. remember (Err RuntimeError) as res eqn:R in CO. destruct CO as [|UN|FT|]; try discriminate.
      apply trace_layout in FT. now apply FT.
Qed.

(* ---------------- C65 ---------------- *)

(* Refuted: when a file is opened, the callback is always given 9/8 and 21/16
   before the last value, 1. *)
Theorem C65_read_progress_refuted : forall a enc bc tc e pr dim (d : list Z) r w, readable d enc bc tc ->
  create_reader a enc bc tc (Some e) pr dim (mk_world (mk_file d 0) []) = (Ok r, w) ->
  ~ progress_ok (w_log w) /\ In (9, 8) (w_log w) /\ In (21, 16) (w_log w) /\ exists l, w_log w = l ++ [(1, 1)].
Proof. exact open_progress. Qed.
Print Assumptions C65_read_progress_refuted.

(* What the callback is given: 3/4 of the part of the file passed before each
   header, then six constants. *)
Theorem C65_read_progress_values_partial : forall a enc bc tc e pr dim (d : list Z) log r w, readable d enc bc tc ->
  create_reader a enc bc tc (Some e) pr dim (mk_world (mk_file d 0) log) = (Ok r, w) ->
  exists t ts q, traces_of d tc e r t ts /\ scan tc e (sample_size t) d (first_trace (rd_ext r)) ts q /\
    w_log w = log ++ map (fun p => (3 * p, 4 * zlen d)) (map t_pos ts ++ [q]) ++ [(3, 4); (15, 16); (9, 8); (21, 16); (1, 1); (1, 1)].
Proof. exact open_log. Qed.
Print Assumptions C65_read_progress_values_partial.

Example C65_example : readable_default file_3d /\ exists r w, open_file file_3d = (Ok r, w) /\
  w_log w = [(10800, 18288); (11538, 18288); (12270, 18288); (12990, 18288); (13716, 18288);
             (3, 4); (15, 16); (9, 8); (21, 16); (1, 1); (1, 1)].
Proof.
  split; [apply readable_by; vm_compute; reflexivity|].
  assert (E : match open_file file_3d with (Ok _, w) => w_log w | _ => [] end =
    [(10800, 18288); (11538, 18288); (12270, 18288); (12990, 18288); (13716, 18288);
             (3, 4); (15, 16); (9, 8); (21, 16); (1, 1); (1, 1)]) by (vm_compute; reflexivity).
  destruct (open_file file_3d) as [[r|y] w]; [|discriminate]. exists r, w. auto.
Qed.

(* ---------------- C67 ---------------- *)

(* Refuted: a file that holds the whole header, yet EOFError. *)
Theorem C67_eof_refuted : exists d r w, open_file d = (Ok r, w) /\ rd_num_traces r = 1 /\ zlen d = 3600 + 240 /\
  fst (rd_trace_header r 0 None (mk_file d 0)) = Err EOFError.
Proof. exact zero_header_eof. Qed.
Print Assumptions C67_eof_refuted.

(* It is never the length of the file that makes trace_header raise EOFError,
   always a value which the type of its field does not accept. *)
Theorem C67_eof_partial : forall (d : list Z) enc bc tc e dim r t ts k q,
  readable d enc bc tc -> opens d enc bc tc e dim r -> traces_of d tc e r t ts ->
  fst (rd_trace_header r k None (mk_file d q)) = Err EOFError ->
  exists tr n, trace_of ts k tr /\ t_pos tr + 240 <= zlen d /\ bad_field_at tc e d (t_pos tr) n.
Proof. exact header_eof. Qed.
Print Assumptions C67_eof_partial.

(* ---------------- C68 ---------------- *)

Theorem C68_revision_partial : forall (d : list Z) enc tc e dim r,
  readable d enc BinaryReelHeader tc -> opens d enc BinaryReelHeader tc e dim r ->
  exists v, hdr_get (rd_binary r) "format_revision_num" = Ok v /\ stored_at e d 3500 2 v /\
    (v = 0 /\ rd_revision r = 0 \/ v = 256 /\ rd_revision r = 256).
Proof. exact opened_revision. Qed.
Print Assumptions C68_revision_partial.

(* Refuted: any other code, 1 and 100 among them, is refused, and with a
   ValueError from the header's field. *)
Theorem C68_common_codes_refuted : forall a enc tc e pr dim (d : list Z) log x tx v,
  readable d enc BinaryReelHeader tc -> attrs_ok a -> 3600 <= zlen d -> pr <> NotCallable ->
  (forall k, dim = Some k -> In k [1; 2; 3]) -> encoding_used enc d x -> reel_text x d tx ->
  - 2 ^ 15 <= v < 2 ^ 15 -> v <> 0 -> v <> 256 -> stored_at e d 3500 2 v ->
  fst (create_reader a enc BinaryReelHeader tc (Some e) pr dim (mk_world (mk_file d 0) log)) = Err ValueError.
Proof. exact open_revision. Qed.
Print Assumptions C68_common_codes_refuted.

(* a file with revision code 1 *)
Definition file_code_1 : list Z := firstn 3500 file_3d ++ [0; 1] ++ skipn 3502 file_3d.
Example C68_example : readable_default file_code_1 /\ stored_at Big file_code_1 3500 2 1 /\
  reel_text ASCII file_code_1 (repeat (repeat 32 80) 40) /\ fst (open_file file_code_1) = Err ValueError.
Proof.
  split; [apply readable_by; vm_compute; reflexivity|]. split.
  { split; [lia|]. split; [vm_compute; discriminate|]. intros k K. assert (k = 0 \/ k = 1) as [-> | ->] by lia; vm_compute; reflexivity. }
  split; [|vm_compute; reflexivity]. split; [reflexivity|]. split; [repeat constructor|vm_compute; reflexivity].
Qed.

(* ---------------- C69 ---------------- *)

Theorem C69_checks_in_order : forall a enc bc tc eo pr dim (f : file) log, 0 <= f_pos f ->
  let outcome := create_reader a enc bc tc eo pr dim (mk_world f log) in
  let raises x := outcome = (Err x, mk_world f log) in
  (fa_closed a = true -> raises ValueError) /\
  (fa_closed a = false -> fa_text a = true -> raises TypeError) /\
  (fa_closed a = false -> fa_text a = false -> fa_seekable a = false -> raises TypeError) /\
  (attrs_ok a -> zlen (f_data f) < 3600 -> raises ValueError) /\
  (attrs_ok a -> 3600 <= zlen (f_data f) -> eo = None -> raises ValueError) /\
  (attrs_ok a -> 3600 <= zlen (f_data f) -> eo <> None -> pr = NotCallable -> raises TypeError) /\
  (attrs_ok a -> 3600 <= zlen (f_data f) -> eo <> None -> pr <> NotCallable ->
     forall k, dim = Some k -> ~ In k [1; 2; 3] -> raises ValueError).
Proof. exact checks_order. Qed.
Print Assumptions C69_checks_in_order.

Example C69_example :
  create_reader attrs None BinaryReelHeader TraceHeaderRev1 None NotCallable (Some 4) (mk_world (mk_file [1; 2] 1) []) =
    (Err ValueError, mk_world (mk_file [1; 2] 1) []) /\
  create_reader (mk_attrs false true false) None BinaryReelHeader TraceHeaderRev1 None NotCallable (Some 4) (mk_world (mk_file [1; 2] 1) []) =
    (Err TypeError, mk_world (mk_file [1; 2] 1) []) /\ attrs_ok attrs.
Proof. split; [vm_compute; reflexivity|]. split; [vm_compute; reflexivity|]. now repeat split. Qed.

(* ---------------- C78 ---------------- *)

(* Refuted: with a trace header format that reads the number of samples as a
   signed number, the search for the traces of this file does not end, however
   many steps it is given. *)
Theorem C78_scan_terminates_refuted : format_ok signed_count 240 /\ all_bytes stuck_file /\
  forall fuel log, fst (catalog_traces_fuel fuel 4 signed_count Big (mk_world (mk_file stuck_file 0) log)) = Err OutOfFuel.
Proof. split; [exact signed_count_ok|]. split; [apply bytesb_ok; vm_compute; reflexivity|exact stuck]. Qed.
Print Assumptions C78_scan_terminates_refuted.

(* With a trace format it ends: the steps create_reader gives it (one for each
   byte of the file) are enough. *)
Theorem C78_scan_terminates_partial : forall bps (c : fmt) (e : endian) pr (d : list Z) pos log,
  trace_format c -> all_bytes d -> 0 <= bps -> 0 <= pos -> pr <> NotCallable ->
  fst (catalog_traces bps c e pr (mk_world (mk_file d pos) log)) <> Err OutOfFuel.
Proof. exact scan_terminates. Qed.
Print Assumptions C78_scan_terminates_partial.

(* ---------------- C79 ---------------- *)

(* Refuted: TraceHeaderRev0 has no inline_number. *)
Theorem C79_rev0_format_refuted : readable_default file_3d /\ (exists r w, open_file file_3d = (Ok r, w)) /\
  fst (create_reader attrs (Some ASCII) BinaryReelHeader TraceHeaderRev0 (Some Big) Callable None (mk_world (mk_file file_3d 0) [])) = Err AttributeError.
Proof. exact rev0_refused. Qed.
Print Assumptions C79_rev0_format_refuted.

(* ---------------- C81 ---------------- *)

(* Refuted: a trace header format with the inline number at byte 9.  The
   headers of the two traces have inlines 1 and 2 (crossline 5), yet the reader
   takes the file for a two-dimensional one. *)
Theorem C81_custom_index_refuted : format_ok moved_inline 240 /\ all_bytes moved_file /\
  exists r w, open_moved = (Ok r, w) /\ rd_num_traces r = 2 /\
    header_pair r moved_file 0 = Ok (1, 5) /\ header_pair r moved_file 1 = Ok (2, 5) /\ rd_dimensionality r = 2 /\
    rd_trace_index3 r (1, 5) = Err AttributeError.
Proof. split; [exact moved_inline_ok|]. split; [apply bytesb_ok; vm_compute; reflexivity|exact moved_misread]. Qed.
Print Assumptions C81_custom_index_refuted.

(* ---------------- C83 ---------------- *)

Theorem C83_open_outcome : forall a enc bc tc e pr dim (d : list Z) log x,
  readable d enc bc tc -> attrs_ok a -> 3600 <= zlen d -> pr <> NotCallable ->
  (forall k, dim = Some k -> In k [1; 2; 3]) -> encoding_used enc d x ->
  exists r q log', create_reader a enc bc tc (Some e) pr dim (mk_world (mk_file d 0) log) = (r, mk_world (mk_file d q) log') /\
    open_outcome x bc tc e d r.
Proof.
  intros a enc bc tc e pr dim d log x RD A L P D X.
  destruct (create_reader_total a enc bc tc e pr dim d log x RD A L P D X) as (r & q & log' & E & O & _). eauto.
Qed.
Print Assumptions C83_open_outcome.

(* some encoding is always used *)
Theorem C83_encoding_used : forall enc (d : list Z), exists x, encoding_used enc d x.
Proof. exact encoding_exists. Qed.
Print Assumptions C83_encoding_used.

Example C83_example : readable_default file_3d /\ zlen file_3d = 4572 /\ (exists r w, open_file file_3d = (Ok r, w)) /\
  fst (open_file (firstn 3700 file_3d)) = Err RuntimeError /\ fst (open_file (200 :: tl file_3d)) = Err UnicodeDecodeError /\
  fst (open_file file_code_1) = Err ValueError.
Proof.
  split; [apply readable_by; vm_compute; reflexivity|]. split; [vm_compute; reflexivity|]. split.
  - destruct rev0_refused as (_ & O & _). exact O.
  - do 2 (split; [vm_compute; reflexivity|]). vm_compute. reflexivity.
Qed.

(* ---------------- C84 ---------------- *)

Theorem C84_trace_header : forall (d : list Z) enc bc tc e dim r t ts k q,
  readable d enc bc tc -> opens d enc bc tc e dim r -> traces_of d tc e r t ts ->
  exists q', snd (rd_trace_header r k None (mk_file d q)) = mk_file d q' /\
    header_outcome d e tc ts k (fst (rd_trace_header r k None (mk_file d q))).
Proof. intros d enc bc tc e dim r t ts k q RD OP TR. exact (header_ok_read d enc bc tc e dim r t ts RD OP TR k q). Qed.
Print Assumptions C84_trace_header.

Example C84_example : exists r t ts, example file_3d 4 3 r t ts /\
  match open_file file_3d with
  | (Ok r, _) => header_pair r file_3d 2 = Ok (2, 5) /\ header_pair r file_3d 4 = Err ValueError
  | _ => False
  end.
Proof. destruct file_3d_ok as (r & t & ts & EX). exists r, t, ts. split; [exact EX|]. vm_compute. auto. Qed.

(* with a packer given, it is the format and byte order of that packer that count *)
Theorem C84_packer_override : forall (d : list Z) enc bc tc e dim r t ts k q c' e' p,
  readable d enc bc tc -> opens d enc bc tc e dim r -> traces_of d tc e r t ts ->
  format_ok c' 240 -> make_header_packer c' e' = Ok p ->
  exists q', snd (rd_trace_header r k (Some p) (mk_file d q)) = mk_file d q' /\
    header_outcome d e' c' ts k (fst (rd_trace_header r k (Some p) (mk_file d q))).
Proof.
  intros d enc bc tc e dim r t ts k q c' e' p RD OP TR FO PK.
  exact (header_ok_read_as d enc bc tc e dim r t ts RD OP TR p c' e' k q FO PK).
Qed.
Print Assumptions C84_packer_override.

Example C84_override_example : exists r t ts p, example file_3d 4 3 r t ts /\ make_header_packer TraceHeaderRev0 Big = Ok p /\
  format_ok TraceHeaderRev0 240 /\
  match open_file file_3d with
  | (Ok r, _) => (do h <- fst (rd_trace_header r 2 (Some p) (mk_file file_3d 0)) ;; hdr_get h "inline_number") = Err AttributeError /\
                 (do h <- fst (rd_trace_header r 2 (Some p) (mk_file file_3d 0)) ;; hdr_get h "ensemble_num") = Ok 8
  | _ => False
  end.
Proof.
  destruct file_3d_ok as (r & t & ts & EX). exists r, t, ts. eexists. split; [exact EX|]. split; [vm_compute; reflexivity|].
  split; [exact rev0_format_ok|]. vm_compute. auto.
Qed.

(* ---------------- C85 ---------------- *)

Theorem C85_counts : forall (d : list Z) enc bc tc e dim r t ts,
  readable d enc bc tc -> opens d enc bc tc e dim r -> traces_of d tc e r t ts ->
  rd_num_traces r = zlen ts /\ rd_trace_indexes r = map Z.of_nat (seq 0 (length ts)) /\
  (forall k tr, trace_of ts k tr -> rd_num_trace_samples r k = Ok (t_count tr)) /\
  (forall k, ~ 0 <= k < zlen ts -> rd_num_trace_samples r k = Err KeyError) /\
  exists m, rd_max_num_trace_samples r = Ok m /\ (exists tr, In tr ts /\ t_count tr = m) /\ forall tr, In tr ts -> t_count tr <= m.
Proof. intros d enc bc tc e dim r t ts RD OP TR. exact (counts_ok d enc bc tc e dim r t ts RD OP TR). Qed.
Print Assumptions C85_counts.

Example C85_example : exists r t ts, example file_3d 4 3 r t ts /\
  match open_file file_3d with
  | (Ok r, _) => rd_trace_indexes r = [0; 1; 2; 3] /\ rd_num_trace_samples r 1 = Ok 2 /\ rd_max_num_trace_samples r = Ok 3
  | _ => False
  end.
Proof. destruct file_3d_ok as (r & t & ts & EX). exists r, t, ts. split; [exact EX|]. vm_compute. auto. Qed.
