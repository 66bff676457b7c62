(* C111-C113: datasets transformed while they are written. *)
From Coq Require Import String ZArith List Bool Lia ZifyBool.
From Verif Require Import Py PyFloat IbmFloat IbmNumber Packing Formats FileIO Text Float32 Toolkit Reader FieldTypes Transform
  Spec_Ibm Spec_Packing Spec_Text Spec_Segy Spec_Reader ToolkitFacts ReaderFacts OpenFacts Spec_Writer WriterFacts Spec_Fields Spec_Transform TransformFacts.
Import ListNotations.
Local Open Scope string_scope.
Open Scope list_scope.
Open Scope Z_scope.

(* ---------------- C111 ---------------- *)

(* Converting a file to another sample type and writing it gives a file with
   the same text, pages, headers and number of traces, whose binary header
   differs in the format code only, and whose samples are the old ones in the
   new type.  What is missing: IBM samples beyond the range of 32-bit floats, and
   NaN and infinities when the new type has none. *)
Theorem C111_converted_partial : forall d enc tc (e : endian) dim r native x' t code,
  readable d enc BinaryReelHeader tc -> opens d enc BinaryReelHeader tc e dim r -> all_readable native d r -> coincident_alike tc ->
  supported x' -> text_encodable r x' -> format_code code t -> all_samples native d r (convertible t) ->
  forall e' pr log, pr <> NotCallable ->
  exists ds', converting (reader_dataset native r (mk_file d 0)) t = Ok ds' /\ exists b w,
    write_segy ds' (Some x') tc e' pr (mk_world (mk_file [] 0) log) = (Ok tt, w) /\ f_data (w_file w) = b /\ all_bytes b /\
    forall a pr' dim' log', attrs_ok a -> pr' <> NotCallable -> (forall k, dim' = Some k -> In k [1; 2; 3]) ->
    exists r' w', create_reader a (Some x') BinaryReelHeader tc (Some e') pr' dim' (mk_world (mk_file b 0) log') = (Ok r', w') /\
      transformed (fun h h' => same_but ["data_sample_format"] h h' /\ hdr_get h' "data_sample_format" = Ok code) same_fields (converted t) d r b r'.
Proof. exact convert_type. Qed.
Print Assumptions C111_converted_partial.

(* Refuted: a larger sample becomes a float that cannot be written, although
   the integer types clip such samples; so do NaN and infinities for IBM floats,
   and for integers the conversion raises; the types of non-negative numbers,
   which the script offers, have no format code. *)
Theorem C111_too_large_refuted : forall w, word_ok w -> single_limit <= Z.abs (ibm_units w) ->
  exists s, convert_sample T_FLOAT32 (RIbm w) = Ok s /\ refused T_FLOAT32 s.
Proof. exact convert_refused. Qed.
Print Assumptions C111_too_large_refuted.
Theorem C111_infinite_refuted : forall t f, ~ finite f -> match t with
  | T_INT8 | T_INT16 | T_INT32 => convert_sample t (RFloat f) = Err (match f with S754_nan => ValueError | _ => OverflowError end)
  | T_IBM => float_wf f -> convert_sample t (RFloat f) = Ok (RFloat f) /\ refused t (RFloat f)
  | _ => True end.
Proof. exact convert_infinite. Qed.
Print Assumptions C111_infinite_refuted.
Theorem C111_nonnegative_refuted : forall src t, t = T_NNINT8 \/ t = T_NNINT16 \/ t = T_NNINT32 -> converting src t = Err KeyError.
Proof. exact convert_nonnegative. Qed.
Print Assumptions C111_nonnegative_refuted.

(* two traces of IBM samples: 1, 100 and -2.5; 40000 *)
Definition ibm_trace (x y : Z) (samples : list Z) : list Z :=
  packed TraceHeaderRev1 Big [("source_x", x); ("source_y", y); ("num_samples", zlen samples / 4)] ++ samples.
Definition file_ibm : list Z := blank_text ++ packed BinaryReelHeader Big [("data_sample_format", 1)] ++
  ibm_trace 1000 (-7) [65; 16; 0; 0; 66; 100; 0; 0; 193; 40; 0; 0] ++ ibm_trace 0 5 [68; 156; 64; 0].
Definition file_large : list Z := blank_text ++ packed BinaryReelHeader Big [("data_sample_format", 1)] ++ ibm_trace 0 0 [127; 16; 0; 0].

(* what is read from the file written *)
Definition written_by (make : dataset -> res dataset) (d : list Z) : res (list (header * list real)) :=
  do r <- fst (open_file d) ;; do ds <- make (reader_dataset Little r (mk_file d 0)) ;;
  match write_segy ds (Some ASCII) TraceHeaderRev1 Little Callable (mk_world (mk_file [] 0) []) with
  | (Err x, _) => Err x
  | (Ok _, w) =>
      let b := f_data (w_file w) in
      do r' <- fst (create_reader attrs (Some ASCII) BinaryReelHeader TraceHeaderRev1 (Some Little) Callable None (mk_world (mk_file b 0) [])) ;;
      map_res (fun k => do h <- fst (rd_trace_header r' k None (mk_file b 0)) ;; do ss <- fst (rd_trace_samples Little r' k None None (mk_file b 0)) ;; Ok (h, ss))
        (rd_trace_indexes r')
  end.
Definition samples_of (x : res (list (header * list real))) : res (list (list real)) := do l <- x ;; Ok (map snd l).

Example C111_example : exists r, readable file_ibm (Some ASCII) BinaryReelHeader TraceHeaderRev1 /\ opens file_ibm (Some ASCII) BinaryReelHeader TraceHeaderRev1 Big None r /\
  all_readable Little file_ibm r /\ text_encodable r ASCII /\ rd_num_traces r = 2 /\ all_samples Little file_ibm r (convertible T_FLOAT32).
Proof.
  assert (E : match open_file file_ibm with (Ok r, _) => all_readableb Little file_ibm r && (rd_num_traces r =? 2) &&
    all_samplesb Little file_ibm r (fun s => Z.abs (value s) <? single_limit) | _ => false end = true) by (vm_compute; reflexivity).
  assert (RD : readable file_ibm (Some ASCII) BinaryReelHeader TraceHeaderRev1) by (apply readable_by; vm_compute; reflexivity).
  revert E RD. generalize file_ibm. intros d E RD.
  destruct (open_file d) as [[r|y] w] eqn:O; [|discriminate]. apply andb_prop in E. destruct E as (E & S).
  apply andb_prop in E. destruct E as (A & N). exists r.
  assert (OP : opens d (Some ASCII) BinaryReelHeader TraceHeaderRev1 Big None r) by (do 4 eexists; exact O).
  split; [exact RD|]. split; [exact OP|]. split; [now apply all_readableb_ok|]. split; [eapply text_encodable_same; eauto|].
  split; [now apply Z.eqb_eq|]. eapply all_samplesb_ok; [|exact S]. cbn beta. intros s H _. now apply Z.ltb_lt.
Qed.
Example C111_int16 : samples_of (written_by (fun ds => converting ds T_INT16) file_ibm) = Ok [[RInt 1; RInt 100; RInt (-2)]; [RInt 32767]].
Proof. vm_compute. reflexivity. Qed.
Example C111_int8 : samples_of (written_by (fun ds => converting ds T_INT8) file_ibm) = Ok [[RInt 1; RInt 100; RInt (-2)]; [RInt 127]].
Proof. vm_compute. reflexivity. Qed.
Example C111_float32 : samples_of (written_by (fun ds => converting ds T_FLOAT32) file_ibm) =
  Ok [[RFloat (S754_finite false 4503599627370496 (-52)); RFloat (S754_finite false 7036874417766400 (-46)); RFloat (S754_finite true 5629499534213120 (-51))];
      [RFloat (S754_finite false 5497558138880000 (-37))]].
Proof. vm_compute. reflexivity. Qed.
Example C111_large : word_ok (W 127 16 0 0) /\ single_limit <= Z.abs (ibm_units (W 127 16 0 0)) /\
  written_by (fun ds => converting ds T_FLOAT32) file_large = Err OverflowError /\
  samples_of (written_by (fun ds => converting ds T_INT32) file_large) = Ok [[RInt (2 ^ 31 - 1)]].
Proof. split; [repeat constructor; cbn; lia|]. split; [vm_compute; discriminate|]. split; vm_compute; reflexivity. Qed.

Example C111_to_ibm : samples_of (written_by (fun ds => converting ds T_IBM) file_1d) =
  Ok [[RIbm (W 65 160 0 0); RIbm (W 194 20 0 0); RIbm (W 66 30 0 0)]; [RIbm (W 66 40 0 0); RIbm (W 66 50 0 0)]].
Proof. vm_compute. reflexivity. Qed.

(* ---------------- C112 ---------------- *)

(* Scaling the samples by a factor below 2^700 and writing gives a file in
   which only the samples differ: each is the product, in the type of the
   samples.  What is missing: IBM products below the smallest IBM float, and
   floats that are not finite. *)
Theorem C112_scaled_partial : forall d enc tc (e : endian) dim r native x' t f,
  readable d enc BinaryReelHeader tc -> opens d enc BinaryReelHeader tc e dim r -> all_readable native d r -> coincident_alike tc ->
  supported x' -> text_encodable r x' -> sample_type (rd_binary r) t -> moderate f ->
  forall e' pr log, all_samples native d r (scalable t f) -> pr <> NotCallable ->
  exists ds', scaling (reader_dataset native r (mk_file d 0)) f = Ok ds' /\ exists b w,
    write_segy ds' (Some x') tc e' pr (mk_world (mk_file [] 0) log) = (Ok tt, w) /\ f_data (w_file w) = b /\ all_bytes b /\
    forall a pr' dim' log', attrs_ok a -> pr' <> NotCallable -> (forall k, dim' = Some k -> In k [1; 2; 3]) ->
    exists r' w', create_reader a (Some x') BinaryReelHeader tc (Some e') pr' dim' (mk_world (mk_file b 0) log') = (Ok r', w') /\
      transformed same_fields same_fields (scaled t f) d r b r'.
Proof. exact scale_all. Qed.
Print Assumptions C112_scaled_partial.

(* scaling by one keeps integers, IBM floats and the floats up to 3.402823e38 *)
Theorem C112_one : forall f, units f = unit ->
  (forall t n s', t = T_INT8 \/ t = T_INT16 \/ t = T_INT32 -> in_sample_type t n -> scaled t f (RInt n) s' -> s' = RInt n) /\
  (forall w s', word_ok w -> scaled T_IBM f (RIbm w) s' -> exists w', s' = RIbm w' /\ ibm_units w' = ibm_units w) /\
  (forall bits g s', is_single bits g -> finite g -> Z.abs (units g) <= float32_limit -> scaled T_FLOAT32 f (RFloat g) s' ->
     exists g', s' = RFloat g' /\ units g' = units g).
Proof.
  intros f E. split; [|split].
  - intros t n s' T. apply scaled_int_one; [|exact E]. now destruct T as [-> | [-> | ->]].
  - intros w s'. now apply scaled_ibm_one.
  - intros bits g s' B F L. now apply (scaled_float_one f g s' bits).
Qed.
Print Assumptions C112_one.

(* Refuted: a tiny product of an IBM sample cannot be written, and the product of an
   integer with a large factor raises instead of being clipped. *)
Theorem C112_underflow_refuted : forall w f p, word_ok w -> moderate f -> product (ibm_units w) (units f) p -> 0 < Z.abs (units p) < ibm_min ->
  exists s, scale_sample T_IBM f (RIbm w) = Ok s /\ refused T_IBM s.
Proof. exact scale_underflow. Qed.
Print Assumptions C112_underflow_refuted.
Theorem C112_overflow_refuted : exists f, float_wf f /\ finite f /\ scale_sample T_INT16 f (RInt 32767) = Err OverflowError /\
  scale_sample T_INT16 f (RInt 1) = Ok (RInt 32767).
Proof. exists (S754_finite false (2 ^ 52) 970). repeat split; vm_compute; reflexivity. Qed.
Print Assumptions C112_overflow_refuted.

(* Refuted: whatever the factor, not-a-number becomes the largest float; and
   scaling by one changes the largest singles. *)
Theorem C112_nan_refuted : forall f, scale_sample T_FLOAT32 f (RFloat S754_nan) = Ok (RFloat FLOAT32_MAX).
Proof. exact scale_nan. Qed.
Print Assumptions C112_nan_refuted.
Theorem C112_largest_refuted : exists f g bits, units f = unit /\ is_single bits g /\ scale_sample T_FLOAT32 f (RFloat g) = Ok (RFloat FLOAT32_MAX) /\ g <> FLOAT32_MAX.
Proof.
  exists (S754_finite false (2 ^ 52) (-52)), (S754_finite false 9007198717870080 75), 2139095039.
  split; [reflexivity|]. split; [|split; [vm_compute; reflexivity|discriminate]].
  split; [lia|]. split; [reflexivity|]. split; [reflexivity|]. split; reflexivity.
Qed.
Print Assumptions C112_largest_refuted.

Definition half : float := S754_finite false (2 ^ 52) (-53).
Example C112_example : moderate half /\
  samples_of (written_by (fun ds => scaling ds half) file_ibm) = Ok [[RIbm (W 64 128 0 0); RIbm (W 66 50 0 0); RIbm (W 193 20 0 0)]; [RIbm (W 68 78 32 0)]] /\
  samples_of (written_by (fun ds => scaling ds half) file_3d) = Ok [[RInt 5; RInt (-10); RInt 15]; [RInt 20; RInt 25]; []; [RInt 0]].
Proof. split; [repeat split; vm_compute; reflexivity|]. split; vm_compute; reflexivity. Qed.
Example C112_scalable : exists r, opens file_3d (Some ASCII) BinaryReelHeader TraceHeaderRev1 Big None r /\ sample_type (rd_binary r) T_INT16 /\ all_samples Little file_3d r (scalable T_INT16 half).
Proof.
  assert (E : match open_file file_3d with (Ok r, _) => match hdr_get (rd_binary r) "data_sample_format" with Ok 3 => true | _ => false end | _ => false end = true) by (vm_compute; reflexivity).
  revert E. generalize file_3d. intros d E. destruct (open_file d) as [[r|y] w] eqn:O; [|discriminate]. exists r. split; [do 4 eexists; exact O|]. split.
  - exists 3. split; [|cbn; tauto]. destruct (hdr_get (rd_binary r) "data_sample_format") as [z|]; [|discriminate]. destruct z as [|[[]|[]|]|]; try discriminate. reflexivity.
  - intros k ss _ _. apply Forall_forall. intros s _. exact I.
Qed.
(* 1 times 2^-280 is below the smallest IBM float, 16^-70 times 1 is it *)
Example C112_tiny : written_by (fun ds => scaling ds (S754_finite false (2 ^ 52) (-52 - 281))) file_ibm = Err FloatingPointError.
Proof. vm_compute. reflexivity. Qed.

(* ---------------- C113 ---------------- *)

(* Scaling the source coordinates and writing gives a file in which only the
   fields source_x and source_y of the trace headers differ: each is the
   product without its fraction. *)
Theorem C113_scaled : forall d enc (e : endian) dim r native x' f,
  readable d enc BinaryReelHeader TraceHeaderRev1 -> opens d enc BinaryReelHeader TraceHeaderRev1 e dim r -> moderate f ->
  forall e' pr log, all_readable native d r -> supported x' -> text_encodable r x' ->
  (forall k h, 0 <= k < rd_num_traces r -> fst (rd_trace_header r k None (mk_file d 0)) = Ok h -> coordinate_fits f "source_x" h /\ coordinate_fits f "source_y" h) ->
  pr <> NotCallable -> exists b w,
    write_segy (scaling_coords (reader_dataset native r (mk_file d 0)) f) (Some x') TraceHeaderRev1 e' pr (mk_world (mk_file [] 0) log) = (Ok tt, w) /\ f_data (w_file w) = b /\ all_bytes b /\
    forall a pr' dim' log', attrs_ok a -> pr' <> NotCallable -> (forall k, dim' = Some k -> In k [1; 2; 3]) ->
    exists r' w', create_reader a (Some x') BinaryReelHeader TraceHeaderRev1 (Some e') pr' dim' (mk_world (mk_file b 0) log') = (Ok r', w') /\
      transformed same_fields (coordinates_scaled f) eq d r b r'.
Proof. exact scale_coords. Qed.
Print Assumptions C113_scaled.

(* A coordinate whose product has no place in the field: no header is given. *)
Theorem C113_beyond : forall d r native f, moderate f -> forall k h n v p, fst (rd_trace_header r k None (mk_file d 0)) = Ok h -> good_header TraceHeaderRev1 h -> source_field n ->
  hdr_get h n = Ok v -> product (v * unit) (units f) p -> ~ (- 2 ^ 31 <= Z.quot (units p) unit < 2 ^ 31) ->
  ds_trace_header (scaling_coords (reader_dataset native r (mk_file d 0)) f) k = Err ValueError.
Proof. exact coords_beyond. Qed.
Print Assumptions C113_beyond.

Definition sources_of (x : res (list (header * list real))) : res (list (res Z * res Z)) := do l <- x ;; Ok (map (fun p => (hdr_get (fst p) "source_x", hdr_get (fst p) "source_y")) l).
Example C113_example : sources_of (written_by (fun ds => Ok (scaling_coords ds half)) file_ibm) = Ok [(Ok 500, Ok (-3)); (Ok 0, Ok 2)] /\
  written_by (fun ds => Ok (scaling_coords ds (S754_finite false (2 ^ 52) 0))) file_ibm = Err ValueError.
Proof. split; vm_compute; reflexivity. Qed.
Example C113_fits : forall v, - 2 ^ 31 <= v < 2 ^ 31 -> forall h, hdr_get h "source_x" = Ok v -> coordinate_fits (S754_finite false (2 ^ 52) (-52)) "source_x" h.
Proof.
  intros v V h G v' p G' P. assert (v' = v) by congruence. subst v'. destruct (IbmNumberProps.f_of_int_exact v) as (g & _ & W & F & U); [lia|].
  assert (E : units (S754_finite false (2 ^ 52) (-52)) = unit) by (vm_compute; reflexivity).
  rewrite (product_one (v * unit) _ p g W F U E P). now rewrite Z.quot_mul by (pose proof unit_pos as PU; revert PU; generalize unit; lia).
Qed.
