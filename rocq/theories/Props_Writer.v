(* Properties C56, C57, C58, C66, C73, C80, C82: writing files. *)
From Coq Require Import String ZArith List Bool Lia Sorted.
From Verif Require Import Py PyFloat IbmFloat Spec_Ibm Util Catalog Spec_Catalog Packing Spec_Packing Formats FileIO Text Spec_Text TextIO
  Float32 Toolkit Spec_Segy ToolkitFacts Reader Spec_Reader ReaderFacts OpenFacts PackingFacts FormatFacts Spec_Writer WriterFacts Props_Reader.
Import ListNotations.
Local Open Scope string_scope.
Open Scope list_scope.
Open Scope Z_scope.

Definition ASCII_rev1_writable (ds : dataset) (t : segytype) (trs : list trace) : Prop :=
  writable ds ASCII BinaryReelHeader TraceHeaderRev1 t trs /\ consistent ds BinaryReelHeader TraceHeaderRev1 t trs /\
  Forall (fun tr => Forall (exact_sample t) (snd tr)) trs.
Lemma file_dataset d n : bytesb d = true -> match read_dataset d with Some ds => ds_num_traces ds =? n | None => false end = true ->
  exists ds t trs, ASCII_rev1_writable ds t trs /\ zlen trs = n /\ trs <> [].
Proof.
  intros B H. destruct (read_dataset d) as [ds|] eqn:E; [|discriminate]. apply Z.eqb_eq in H.
  destruct (read_dataset_writable d B ds E) as (t & trs & H1 & H2 & H3 & H4 & H5). exists ds, t, trs. unfold ASCII_rev1_writable. rewrite H5. auto.
Qed.
(* the dataset of file_3d: four traces *)
Lemma dataset_3d : exists ds t trs, ASCII_rev1_writable ds t trs /\ zlen trs = 4 /\ trs <> [].
Proof. apply (file_dataset file_3d); vm_compute; reflexivity. Qed.

(* a dataset built by hand *)
Definition hand_header (c : fmt) (kws : list (string * Z)) : header :=
  match hdr_init c [] kws with Ok h => h | Err _ => mk_header c [] [] end.
Definition hand_dataset (bin : list (string * Z)) (pages : list (list text)) (t : segytype) (trs : list trace) : dataset :=
  mk_dataset [] (hand_header BinaryReelHeader bin) pages None (zlen trs) (map Z.of_nat (seq 0 (length trs)))
    (fun k => match nth_error trs (Z.to_nat k) with Some tr => Ok (fst tr) | None => Err IndexError end)
    (fun k _ _ => match nth_error trs (Z.to_nat k) with Some tr => Ok (snd tr) | None => Err IndexError end)
    (Ok t) 1.
Definition hand_trace (kws : list (string * Z)) (ss : list real) : trace := (hand_header TraceHeaderRev1 kws, ss).
Definition write_hand (ds : dataset) (old : list Z) : res Datatypes.unit * world :=
  write_segy ds (Some ASCII) TraceHeaderRev1 Big Callable (mk_world (mk_file old 0) []).

(* ---------------- C82 ---------------- *)

Theorem C82_layout : forall ds enc x (bc tc : fmt) (e : endian) t trs pr old log,
  writable ds x bc tc t trs -> encoding_for enc ds x -> pr <> NotCallable ->
  exists b, segy_contents ds x bc tc e t trs b /\
    write_segy ds enc tc e pr (mk_world (mk_file old 0) log) =
      (Ok tt, mk_world (mk_file (b ++ skipn (Z.to_nat (zlen b)) old) (zlen b))
                       (log ++ map (fun k => (k, ds_num_traces ds)) (ds_trace_indexes ds) ++ [(1, 1)])).
Proof. exact write_contents. Qed.
Print Assumptions C82_layout.

Theorem C82_length : forall ds x (bc tc : fmt) (e : endian) t trs b, segy_contents ds x bc tc e t trs b ->
  zlen b = 3200 + 400 + 3200 * zlen (ds_ext ds) + fold_right (fun tr n => 240 + sample_size t * zlen (snd tr) + n) 0 trs.
Proof. exact contents_length. Qed.
Print Assumptions C82_length.

Example C82_example : exists ds t trs, writable ds ASCII BinaryReelHeader TraceHeaderRev1 t trs /\ encoding_for (Some ASCII) ds ASCII /\ zlen trs = 4.
Proof. destruct dataset_3d as (ds & t & trs & (W & _) & L & _). exists ds, t, trs. now split. Qed.

(* ---------------- C56 ---------------- *)

Theorem C56_write_then_read : forall ds enc x (bc tc : fmt) (e : endian) t trs pr log,
  writable ds x bc tc t trs -> consistent ds bc tc t trs -> trs <> [] -> encoding_for enc ds x -> pr <> NotCallable ->
  exists b w, write_segy ds enc tc e pr (mk_world (mk_file [] 0) log) = (Ok tt, w) /\ f_data (w_file w) = b /\
    forall a pr' dim log', attrs_ok a -> pr' <> NotCallable -> (forall k, dim = Some k -> In k [1; 2; 3]) ->
    exists r w', create_reader a (Some x) bc tc (Some e) pr' dim (mk_world (mk_file b 0) log') = (Ok r, w') /\
      gives_back ds trs (Forall2 (stored_as t)) b r.
Proof.
  intros ds enc x bc tc e t trs pr log W C N E P. destruct (write_contents ds enc x bc tc e t trs pr [] log W E P) as (b & SC & WR).
  exists b. eexists. split; [exact WR|]. split. { cbn. now rewrite skipn_nil, app_nil_r. }
  intros a pr' dim log' A P' D. destruct W. now apply (contents_read ds x bc tc e t trs b).
Qed.
Print Assumptions C56_write_then_read.

Theorem C56_exact_samples : forall ds enc x (bc tc : fmt) (e : endian) t trs pr log,
  writable ds x bc tc t trs -> consistent ds bc tc t trs -> trs <> [] -> encoding_for enc ds x -> pr <> NotCallable ->
  Forall (fun tr => Forall (exact_sample t) (snd tr)) trs ->
  exists b w, write_segy ds enc tc e pr (mk_world (mk_file [] 0) log) = (Ok tt, w) /\ f_data (w_file w) = b /\
    forall a pr' dim log', attrs_ok a -> pr' <> NotCallable -> (forall k, dim = Some k -> In k [1; 2; 3]) ->
    exists r w', create_reader a (Some x) bc tc (Some e) pr' dim (mk_world (mk_file b 0) log') = (Ok r, w') /\
      gives_back ds trs (fun ss rs => rs = ss) b r.
Proof.
  intros ds enc x bc tc e t trs pr log W C N E P X.
  destruct (C56_write_then_read ds enc x bc tc e t trs pr log W C N E P) as (b & w & H1 & H2 & H3). exists b, w. split; [exact H1|]. split; [exact H2|].
  intros a pr' dim log' A P' D. destruct (H3 a pr' dim log' A P' D) as (r & w' & R & G). exists r, w'. split; [exact R|].
  destruct G as (G1 & G2 & G3 & G4 & G5 & G6). do 5 (split; [assumption|]). intros k tr K NE native q. destruct (G6 k tr K NE native q) as (G7 & rs & G8 & G9).
  split; [exact G7|]. exists rs. split; [exact G8|]. apply (exact_kept t); [|exact G9]. rewrite Forall_forall in X. apply X. eapply nth_error_In; eauto.
Qed.
Print Assumptions C56_exact_samples.

Example C56_example : exists ds t trs, ASCII_rev1_writable ds t trs /\ zlen trs = 4 /\ trs <> [].
Proof. exact dataset_3d. Qed.

(* ---------------- C57 ---------------- *)

(* A dataset without traces is written and cannot be read back. *)
Theorem C57_no_traces_refuted : forall ds enc x (bc tc : fmt) (e : endian) t pr log,
  writable ds x bc tc t [] -> consistent ds bc tc t [] -> encoding_for enc ds x -> pr <> NotCallable ->
  exists b w, write_segy ds enc tc e pr (mk_world (mk_file [] 0) log) = (Ok tt, w) /\ f_data (w_file w) = b /\
    forall a pr' dim log', attrs_ok a -> pr' <> NotCallable -> (forall k, dim = Some k -> In k [1; 2; 3]) ->
    fst (create_reader a (Some x) bc tc (Some e) pr' dim (mk_world (mk_file b 0) log')) = Err RuntimeError.
Proof.
  intros ds enc x bc tc e t pr log W C E P. destruct (write_contents ds enc x bc tc e t [] pr [] log W E P) as (b & SC & WR).
  exists b. eexists. split; [exact WR|]. split. { cbn. now rewrite skipn_nil, app_nil_r. }
  intros a pr' dim log' A P' D. destruct W. now apply (contents_no_traces ds x bc tc e t b).
Qed.
Print Assumptions C57_no_traces_refuted.
Definition without_traces (ds : dataset) : dataset :=
  mk_dataset (ds_text ds) (ds_binary ds) (ds_ext ds) (ds_encoding ds) 0 [] (fun _ => Err IndexError) (fun _ _ _ => Err IndexError) (ds_sample_format ds) 0.
Example C57_no_traces_example : exists ds t, writable ds ASCII BinaryReelHeader TraceHeaderRev1 t [] /\ consistent ds BinaryReelHeader TraceHeaderRev1 t [].
Proof.
  destruct dataset_3d as (ds & t & trs & (W & C & _) & _). exists (without_traces ds), t. split.
  - destruct W. constructor; auto; constructor.
  - destruct C. constructor; auto.
Qed.

(* write_segy does not compare the number of samples in a trace header with the
   number of samples: this dataset of one trace is read back as two traces. *)
Definition short_count : dataset := hand_dataset [("data_sample_format", 3)] [] T_INT16 [hand_trace [("num_samples", 0)] (repeat (RInt 0) 120)].
Theorem C57_sample_count_refuted : ds_num_traces short_count = 1 /\
  exists b w, write_hand short_count [] = (Ok tt, w) /\ f_data (w_file w) = b /\
    exists r w', open_file b = (Ok r, w') /\ rd_num_traces r = 2.
Proof.
  split; [reflexivity|].
  assert (H : match write_hand short_count [] with
    | (Ok tt, w) => match open_file (f_data (w_file w)) with (Ok r, _) => Some (rd_num_traces r) | _ => None end | _ => None end = Some 2)
    by (vm_compute; reflexivity).
  destruct (write_hand short_count []) as [[[]|y] w] eqn:E; [|discriminate].
  exists (f_data (w_file w)), w. split; [reflexivity|]. split; [reflexivity|].
  destruct (open_file (f_data (w_file w))) as [[r|y] w'] eqn:O; [|discriminate]. injection H as H. eauto.
Qed.
Print Assumptions C57_sample_count_refuted.

(* Nor does it compare the number of extended textual headers in the binary
   header with the number of pages: this page is read back as trace data. *)
Definition blank_page : list text := repeat (repeat 32 80) 40.
Definition uncounted_page : dataset := hand_dataset [("data_sample_format", 3); ("num_extended_textual_headers", 0)] [blank_page] T_INT16
  [hand_trace [("num_samples", 1)] [RInt 7]].
Theorem C57_page_count_refuted : ds_ext uncounted_page = [blank_page] /\ ds_num_traces uncounted_page = 1 /\
  exists b w, write_hand uncounted_page [] = (Ok tt, w) /\ f_data (w_file w) = b /\
    exists r w', open_file b = (Ok r, w') /\ rd_ext r = [].
Proof.
  split; [reflexivity|]. split; [reflexivity|].
  assert (H : match write_hand uncounted_page [] with
    | (Ok tt, w) => match open_file (f_data (w_file w)) with (Ok r, _) => match rd_ext r with [] => true | _ => false end | _ => false end | _ => false end = true)
    by (vm_compute; reflexivity).
  destruct (write_hand uncounted_page []) as [[[]|y] w] eqn:E; [|discriminate].
  exists (f_data (w_file w)), w. split; [reflexivity|]. split; [reflexivity|].
  destruct (open_file (f_data (w_file w))) as [[r|y] w'] eqn:O; [|discriminate]. exists r, w'. split; [reflexivity|].
  destruct (rd_ext r); [reflexivity|discriminate].
Qed.
Print Assumptions C57_page_count_refuted.

(* Writing over a longer file leaves its end behind the new contents, where it
   is read as further traces. *)
Definition one_trace : dataset := hand_dataset [("data_sample_format", 3)] [] T_INT16 [hand_trace [("num_samples", 1)] [RInt 7]].
Theorem C57_leftover_refuted : ds_num_traces one_trace = 1 /\
  exists b w, write_hand one_trace (repeat 0 4100) = (Ok tt, w) /\ f_data (w_file w) = b /\
    exists r w', open_file b = (Ok r, w') /\ rd_num_traces r = 2.
Proof.
  split; [reflexivity|].
  assert (H : match write_hand one_trace (repeat 0 4100) with
    | (Ok tt, w) => match open_file (f_data (w_file w)) with (Ok r, _) => Some (rd_num_traces r) | _ => None end | _ => None end = Some 2)
    by (vm_compute; reflexivity).
  destruct (write_hand one_trace (repeat 0 4100)) as [[[]|y] w] eqn:E; [|discriminate].
  exists (f_data (w_file w)), w. split; [reflexivity|]. split; [reflexivity|].
  destruct (open_file (f_data (w_file w))) as [[r|y] w'] eqn:O; [|discriminate]. injection H as H. eauto.
Qed.
Print Assumptions C57_leftover_refuted.

(* ---------------- C58 ---------------- *)

Theorem C58_conversion : forall d enc (bc tc : fmt) (e : endian) dim r native x', readable d enc bc tc -> opens d enc bc tc e dim r ->
  all_readable native d r -> coincident_alike bc -> coincident_alike tc -> supported x' -> text_encodable r x' ->
  forall e' pr log, pr <> NotCallable ->
  exists b, write_segy (reader_dataset native r (mk_file d 0)) (Some x') tc e' pr (mk_world (mk_file [] 0) log) =
      (Ok tt, mk_world (mk_file b (zlen b)) (log ++ map (fun k => (k, rd_num_traces r)) (rd_trace_indexes r) ++ [(1, 1)])) /\
    forall a pr' dim' log', attrs_ok a -> pr' <> NotCallable -> (forall k, dim' = Some k -> In k [1; 2; 3]) ->
    exists r' w, create_reader a (Some x') bc tc (Some e') pr' dim' (mk_world (mk_file b 0) log') = (Ok r', w) /\ same_readings d r b r'.
Proof. exact convert. Qed.
Print Assumptions C58_conversion.

(* With the encoding the file was read with, nothing has to be assumed about its text. *)
Theorem C58_byte_order : forall d x (bc tc : fmt) (e : endian) dim r native, readable d (Some x) bc tc -> opens d (Some x) bc tc e dim r ->
  all_readable native d r -> coincident_alike bc -> coincident_alike tc ->
  forall e' pr log, pr <> NotCallable ->
  exists b w, write_segy (reader_dataset native r (mk_file d 0)) (Some x) tc e' pr (mk_world (mk_file [] 0) log) = (Ok tt, w) /\ f_data (w_file w) = b /\
    forall a pr' dim' log', attrs_ok a -> pr' <> NotCallable -> (forall k, dim' = Some k -> In k [1; 2; 3]) ->
    exists r' w, create_reader a (Some x) bc tc (Some e') pr' dim' (mk_world (mk_file b 0) log') = (Ok r', w) /\ same_readings d r b r'.
Proof.
  intros d x bc tc e dim r native RD OP AR AB AT e' pr log P.
  destruct (convert d (Some x) bc tc e dim r native x RD OP AR AB AT) with (e' := e') (pr := pr) (log := log) as (b & W & H); auto.
  - destruct RD as (_ & _ & _ & S). now apply S.
  - eapply text_encodable_same; eauto.
  - exists b. eexists. split; [exact W|]. split; [reflexivity|exact H].
Qed.
Print Assumptions C58_byte_order.

Example C58_example : exists r, readable file_3d (Some ASCII) BinaryReelHeader TraceHeaderRev1 /\ opens file_3d (Some ASCII) BinaryReelHeader TraceHeaderRev1 Big None r /\
  all_readable Little file_3d r /\ coincident_alike BinaryReelHeader /\ coincident_alike TraceHeaderRev1 /\ rd_num_traces r = 4.
Proof.
  assert (E : match open_file file_3d with (Ok r, _) => all_readableb Little file_3d r && (rd_num_traces r =? 4) | _ => false end = true) by (vm_compute; reflexivity).
  assert (RD : readable file_3d (Some ASCII) BinaryReelHeader TraceHeaderRev1) by (apply readable_by; vm_compute; reflexivity).
  revert E RD. generalize file_3d. intros d E RD.
  destruct (open_file d) as [[r|y] w] eqn:O; [|discriminate]. apply andb_prop in E. destruct E as (A & N). exists r.
  split; [exact RD|]. split; [do 4 eexists; exact O|]. split; [now apply all_readableb_ok|]. split; [exact binary_alike|]. split; [exact rev1_alike|].
  now apply Z.eqb_eq.
Qed.

(* An EBCDIC file may hold characters ASCII does not have (byte 0x41 is a
   no-break space): converting it to ASCII fails. *)
Definition nbsp_file : list Z := 65 :: repeat 64 3199 ++ packed BinaryReelHeader Big [("data_sample_format", 3)] ++ file_trace Big 7 0 0 [1; 2].
Definition open_ebcdic (d : list Z) : res reader * world :=
  create_reader attrs (Some EBCDIC) BinaryReelHeader TraceHeaderRev1 (Some Big) Callable None (mk_world (mk_file d 0) []).
Theorem C58_ebcdic_to_ascii_refuted : exists d r, readable d (Some EBCDIC) BinaryReelHeader TraceHeaderRev1 /\
  opens d (Some EBCDIC) BinaryReelHeader TraceHeaderRev1 Big None r /\ all_readable Little d r /\
  fst (write_segy (reader_dataset Little r (mk_file d 0)) (Some ASCII) TraceHeaderRev1 Big Callable (mk_world (mk_file [] 0) [])) = Err UnicodeEncodeError.
Proof.
  exists nbsp_file.
  assert (E : match open_ebcdic nbsp_file with (Ok r, _) => all_readableb Little nbsp_file r &&
     match fst (write_segy (reader_dataset Little r (mk_file nbsp_file 0)) (Some ASCII) TraceHeaderRev1 Big Callable (mk_world (mk_file [] 0) [])) with
     | Err UnicodeEncodeError => true | _ => false end | _ => false end = true) by (vm_compute; reflexivity).
  assert (RD : readable nbsp_file (Some EBCDIC) BinaryReelHeader TraceHeaderRev1).
  { split; [apply bytesb_ok; vm_compute; reflexivity|]. split; [apply binary_reel_format|]. split; [apply rev1_trace_format|]. intros x [= <-]. now right. }
  revert E RD. generalize nbsp_file. intros d E RD.
  destruct (open_ebcdic d) as [[r|y] w] eqn:O; [|discriminate]. apply andb_prop in E. destruct E as (A & N). exists r.
  split; [exact RD|]. split; [do 4 eexists; exact O|]. split; [now apply all_readableb_ok|].
  destruct (fst (write_segy _ _ _ _ _ _)) as [u|[]]; (discriminate || reflexivity).
Qed.
Print Assumptions C58_ebcdic_to_ascii_refuted.

(* ---------------- C66 ---------------- *)

Theorem C66_write_progress : forall ds enc tc (e : endian) pr f r w, StronglySorted Z.le (ds_trace_indexes ds) ->
  Forall (fun k => 0 <= k <= ds_num_traces ds) (ds_trace_indexes ds) ->
  write_segy ds enc tc e pr (mk_world f []) = (r, w) ->
  Forall (fun v => 0 < snd v /\ 0 <= fst v <= snd v) (w_log w) /\
  StronglySorted (fun v w => fst v * snd w <= fst w * snd v) (w_log w) /\
  (r = Ok tt -> progress_ok (w_log w)).
Proof. exact write_progress. Qed.
Print Assumptions C66_write_progress.
Example C66_example : StronglySorted Z.le (ds_trace_indexes one_trace) /\ Forall (fun k => 0 <= k <= ds_num_traces one_trace) (ds_trace_indexes one_trace) /\
  match write_hand one_trace [] with (Ok tt, w) => w_log w = [(0, 1); (1, 1)] | _ => False end.
Proof. split; [repeat constructor|]. split; [repeat constructor; vm_compute; discriminate|]. vm_compute. reflexivity. Qed.

(* ---------------- C73 ---------------- *)

(* missing: datasets that override data_sample_format, see below *)
Theorem C73_delegating_partial : forall ds enc tc (e : endian) pr w, ds_sample_format ds = sample_format (ds_binary ds) ->
  write_segy (delegating ds) enc tc e pr w = write_segy ds enc tc e pr w.
Proof. exact delegating_same. Qed.
Print Assumptions C73_delegating_partial.
(* the other members are those of the source *)
Theorem C73_members : forall ds,
  ds_text (delegating ds) = ds_text ds /\ ds_binary (delegating ds) = ds_binary ds /\ ds_ext (delegating ds) = ds_ext ds /\
  ds_encoding (delegating ds) = ds_encoding ds /\ ds_num_traces (delegating ds) = ds_num_traces ds /\
  ds_trace_indexes (delegating ds) = ds_trace_indexes ds /\ ds_dimensionality (delegating ds) = ds_dimensionality ds /\
  (forall k, ds_trace_header (delegating ds) k = ds_trace_header ds k) /\
  (forall k a b, ds_trace_samples (delegating ds) k a b = ds_trace_samples ds k a b).
Proof. repeat split. Qed.
Print Assumptions C73_members.
(* A DelegatingDataset of a reader answers from the file as the reader does,
   for every trace and range of samples. *)
Theorem C73_reader : forall (d : list Z) enc bc tc e dim r t ts native q,
  readable d enc bc tc -> opens d enc bc tc e dim r -> traces_of d tc e r t ts ->
  let ds := delegating (reader_dataset native r (mk_file d q)) in
  ds_num_traces ds = zlen ts /\ ds_trace_indexes ds = map Z.of_nat (seq 0 (length ts)) /\
  forall k, header_outcome d e tc ts k (ds_trace_header ds k) /\
    forall a b, samples_outcome d e t ts k a b (ds_trace_samples ds k a b).
Proof.
  intros d enc bc tc e dim r t ts native q RD OP TR ds. destruct (counts_ok _ _ _ _ _ _ _ _ _ RD OP TR) as (N & IX & _).
  split; [exact N|]. split; [exact IX|]. intros k. split.
  - destruct (C84_trace_header d enc bc tc e dim r t ts k q RD OP TR) as (q' & _ & H). exact H.
  - intros a b. destruct (C59_trace_samples d enc bc tc e dim r t ts native k a b q RD OP TR) as (q' & _ & H). exact H.
Qed.
Print Assumptions C73_reader.
Example C73_reader_example :
  match open_file file_3d with
  | (Ok r, _) => let ds := delegating (reader_dataset Little r (mk_file file_3d 0)) in
      ds_trace_samples ds 0 (Some 1) None = Ok [RInt (-20); RInt 30] /\ ds_trace_samples ds 0 None (Some 2) = Ok [RInt 10; RInt (-20)] /\
      ds_trace_samples ds 0 (Some 1) (Some 4) = Err ValueError
  | _ => False
  end.
Proof. vm_compute. auto. Qed.
Example C73_example : ds_sample_format one_trace = sample_format (ds_binary one_trace).
Proof. reflexivity. Qed.

(* DelegatingDataset inherits data_sample_format from Dataset instead of
   forwarding it: a source dataset whose samples are not of the type its
   binary header says is not written the same. *)
Definition other_format : dataset := hand_dataset [("data_sample_format", 3)] [] T_INT32 [hand_trace [("num_samples", 1)] [RInt 7]].
Theorem C73_refuted : exists ds w w', write_hand ds [] = (Ok tt, w) /\ write_hand (delegating ds) [] = (Ok tt, w') /\
  zlen (f_data (w_file w)) = 3600 + 240 + 4 /\ zlen (f_data (w_file w')) = 3600 + 240 + 2.
Proof.
  exists other_format.
  assert (H : match write_hand other_format [], write_hand (delegating other_format) [] with
    | (Ok tt, w), (Ok tt, w') => Some (zlen (f_data (w_file w)), zlen (f_data (w_file w'))) | _, _ => None end = Some (3600 + 240 + 4, 3600 + 240 + 2))
    by (vm_compute; reflexivity).
  destruct (write_hand other_format []) as [[[]|y] w], (write_hand (delegating other_format) []) as [[[]|y'] w']; try discriminate.
  exists w, w'. injection H as H H'. auto.
Qed.
Print Assumptions C73_refuted.

(* ---------------- C80 ---------------- *)

Theorem C80_round_trip : forall native (e : endian) t ss f, all_bytes (f_data f) -> 0 <= f_pos f -> Forall (storable t) ss ->
  exists b f' rs q, write_binary_values ss t e f = (Ok tt, f') /\ zlen b = sample_size t * zlen ss /\ (ss <> [] -> wrote f b f') /\ (ss = [] -> f' = f) /\
    read_binary_values native (Some (f_pos f)) t (zlen ss) e f' = (Ok rs, mk_file (f_data f') q) /\
    Forall2 (stored_as t) ss rs /\ (ss <> [] -> samples_at t e (f_data f') (f_pos f) rs).
Proof. exact samples_round_trip. Qed.
Print Assumptions C80_round_trip.

Theorem C80_refused : forall (e : endian) t ss f r, In r ss -> refused t r -> exists y, write_binary_values ss t e f = (Err y, f).
Proof. exact samples_refused. Qed.
Print Assumptions C80_refused.

(* every number a program can have is either stored or refused *)
Definition real_ok (r : real) : Prop := match r with RFloat f => float_wf f | RInt _ => True | RIbm w => word_ok w end.
Theorem C80_stored_or_refused : forall t r, real_ok r -> storable t r \/ refused t r.
Proof. exact storable_or_refused. Qed.
Print Assumptions C80_stored_or_refused.
Theorem C80_not_both : forall t r, storable t r -> ~ refused t r.
Proof. exact storable_not_refused. Qed.
Print Assumptions C80_not_both.

Example C80_example : Forall (storable T_IBM) [RInt 7; RIbm (W 65 16 0 0); RFloat (S754_zero false)] /\
  Forall (storable T_FLOAT32) [RInt (2 ^ 128 - 2 ^ 103 - 2 ^ 74 - 1); RFloat S754_nan] /\
  refused T_FLOAT32 (RInt (2 ^ 128 - 2 ^ 103 - 2 ^ 74)) /\ refused T_INT16 (RInt 32768) /\ refused T_IBM (RFloat S754_nan).
Proof.
  split.
  { apply Forall_cons; [vm_compute; discriminate|]. apply Forall_cons; [change (word_ok (W 65 16 0 0)); unfold word_ok; cbn [w0 w1 w2 w3]; lia|]. apply Forall_cons; [|constructor].
    split; [reflexivity|]. split; [exact I|]. now left. }
  split.
  { apply Forall_cons; [vm_compute; reflexivity|]. apply Forall_cons; [|constructor]. split; [reflexivity|]. intros []. }
  split; [vm_compute; discriminate|]. split; [intros H; vm_compute in H; destruct H; discriminate|]. split; [reflexivity|]. left. intros [].
Qed.
