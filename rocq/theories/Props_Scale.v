(* Properties C112 and C113 for every factor: which samples can be scaled and written, and
   what they become. *)
From Coq Require Import String ZArith List Bool Lia SpecFloat.
From Verif Require Import Py PyFloat IbmFloat IbmNumber Packing Formats FileIO Text Float32 Toolkit Reader FieldTypes Transform
  Spec_Ibm Spec_Packing Spec_Text Spec_Segy Spec_Reader ReaderFacts OpenFacts Spec_Writer WriterFacts Spec_Fields Spec_Transform TransformFacts Spec_Scale ScaleFacts CoordFacts Props_Transform.
Import ListNotations.
Local Open Scope string_scope.
Open Scope list_scope.
Open Scope Z_scope.

(* A file whose samples are scaled by any float, infinities and NaN included,
   can be written exactly if all products fit; what is read back has the IEEE
   754 products as its samples, limited to the range of their type, and all
   else as it was. *)
Theorem C112_any_factor : forall d enc tc (e : endian) dim r native x' t f,
  readable d enc BinaryReelHeader tc -> opens d enc BinaryReelHeader tc e dim r -> all_readable native d r -> coincident_alike tc ->
  supported x' -> text_encodable r x' -> sample_type (rd_binary r) t -> float_wf f ->
  exists ds', scaling (reader_dataset native r (mk_file d 0)) f = Ok ds' /\
  forall e' pr, pr <> NotCallable ->
  (forall w w', write_segy ds' (Some x') tc e' pr w = (Ok tt, w') -> all_samples native d r (fits_by t f)) /\
  (all_samples native d r (fits_by t f) -> forall log, exists b w,
    write_segy ds' (Some x') tc e' pr (mk_world (mk_file [] 0) log) = (Ok tt, w) /\ f_data (w_file w) = b /\ all_bytes b /\
    forall a pr' dim' log', attrs_ok a -> pr' <> NotCallable -> (forall k, dim' = Some k -> In k [1; 2; 3]) ->
    exists r' w', create_reader a (Some x') BinaryReelHeader tc (Some e') pr' dim' (mk_world (mk_file b 0) log') = (Ok r', w') /\
      transformed same_fields same_fields (scaled_by t f) d r b r').
Proof. exact scale_by_exactly. Qed.
Print Assumptions C112_any_factor.

(* the product is always determined *)
Theorem C112_product : forall a b c c', ieee_product a b c -> ieee_product a b c' -> c' = c.
Proof. exact product_unique. Qed.
Print Assumptions C112_product.

(* What a product that does not fit does: an integer sample raises
   OverflowError, or ValueError if it is no number; an IBM sample gives a float
   that cannot be written. *)
Theorem C112_unfit_refuted : forall t f s c, In t [T_IBM; T_INT32; T_INT16; T_FLOAT32; T_INT8] -> exact_sample t s -> float_wf f ->
  ieee_product (sample_value s) (float_value f) c -> ~ fits t c ->
  match t with
  | T_IBM => exists s1, scale_sample t f s = Ok s1 /\ refused t s1
  | _ => scale_sample t f s = Err (match c with NoNumber => ValueError | _ => OverflowError end)
  end.
Proof.
  intros t f s c T. apply scale_unfit. cbn in T. destruct T as [<- |[<- |[<- |[<- |[<- |[]]]]]]; exact I.
Qed.
Print Assumptions C112_unfit_refuted.

(* 2^1023 times 2 is too large, times 1 it is not; zero times infinity is no number *)
Definition huge : float := S754_finite false (2 ^ 52) 971.
Example C112_huge : float_wf huge /\
  scale_sample T_INT16 huge (RInt 2) = Err OverflowError /\ scale_sample T_INT16 huge (RInt (-1)) = Ok (RInt (-32768)) /\
  scale_sample T_INT16 (S754_infinity false) (RInt 0) = Err ValueError /\ scale_sample T_INT16 S754_nan (RInt 1) = Err ValueError /\
  scale_sample T_FLOAT32 huge (RFloat (S754_finite true (2 ^ 52) 0)) = Ok (RFloat FLOAT32_MIN) /\
  scale_sample T_IBM (S754_infinity true) (RIbm (W 65 16 0 0)) = Ok (RFloat MIN_IBM_FLOAT) /\
  scale_sample T_IBM (S754_infinity true) (RIbm (W 0 0 0 0)) = Ok (RFloat MAX_IBM_FLOAT).
Proof. repeat (apply conj; [vm_compute; reflexivity|]); vm_compute; reflexivity. Qed.
Example C112_huge_fits : ieee_product (sample_value (RIbm (W 65 16 0 0))) (float_value huge) (Num (units huge)) /\ fits T_IBM (Num (units huge)).
Proof.
  split; [|right; vm_compute; discriminate]. left. split; [vm_compute; reflexivity|]. exists huge. split; [|reflexivity].
  split; [reflexivity|]. split; [exact I|]. intros g _ _. replace (units huge * unit - ibm_units (W 65 16 0 0) * units huge) with 0 by (vm_compute; reflexivity).
  split; [lia|]. intros _ _. reflexivity.
Qed.
(* the file of IBM floats scaled by infinity, and that of integers scaled by 2^1023 *)
Example C112_file : samples_of (written_by (fun ds => scaling ds (S754_infinity false)) file_ibm) =
    Ok [[RIbm (W 127 255 255 255); RIbm (W 127 255 255 255); RIbm (W 255 255 255 255)]; [RIbm (W 127 255 255 255)]] /\
  written_by (fun ds => scaling ds huge) file_3d = Err OverflowError.
Proof. split; vm_compute; reflexivity. Qed.

(* ---------------- C113 ---------------- *)

(* The same for the coordinates of the sources: the file can be written exactly
   if all products are in the range of the fields. *)
Theorem C113_any_factor : forall d enc (e : endian) dim r native x' f,
  readable d enc BinaryReelHeader TraceHeaderRev1 -> opens d enc BinaryReelHeader TraceHeaderRev1 e dim r -> all_readable native d r ->
  supported x' -> text_encodable r x' -> float_wf f ->
  let ds' := scaling_coords (reader_dataset native r (mk_file d 0)) f in
  forall e' pr, pr <> NotCallable ->
  (forall w w', write_segy ds' (Some x') TraceHeaderRev1 e' pr w = (Ok tt, w') -> all_headers d r (fun h => placed_by f "source_x" h /\ placed_by f "source_y" h)) /\
  (all_headers d r (fun h => placed_by f "source_x" h /\ placed_by f "source_y" h) -> forall log, exists b w,
    write_segy ds' (Some x') TraceHeaderRev1 e' pr (mk_world (mk_file [] 0) log) = (Ok tt, w) /\ f_data (w_file w) = b /\ all_bytes b /\
    forall a pr' dim' log', attrs_ok a -> pr' <> NotCallable -> (forall k, dim' = Some k -> In k [1; 2; 3]) ->
    exists r' w', create_reader a (Some x') BinaryReelHeader TraceHeaderRev1 (Some e') pr' dim' (mk_world (mk_file b 0) log') = (Ok r', w') /\
      transformed same_fields (coordinates_by f) eq d r b r').
Proof.
  intros d enc e dim r native x' f RD OP AR S' TE WF ds' e' pr P. split.
  - intros w w'. exact (coords_only d enc e dim r native x' f RD OP AR S' TE WF e' pr w w').
  - intros H log. exact (coords_by d enc e dim r native x' f RD OP AR S' TE WF e' pr log H P).
Qed.
Print Assumptions C113_any_factor.

(* the header of a trace with a product out of that range: the first such
   product decides *)
Theorem C113_misplaced : forall d r native f, float_wf f -> forall k h v c, fst (rd_trace_header r k None (mk_file d 0)) = Ok h -> good_header TraceHeaderRev1 h ->
  ieee_product (Num (v * unit)) (float_value f) c -> ~ in_place c ->
  hdr_get h "source_x" = Ok v \/ (placed_by f "source_x" h /\ hdr_get h "source_y" = Ok v) ->
  ds_trace_header (scaling_coords (reader_dataset native r (mk_file d 0)) f) k = Err (match c with Inf _ => OverflowError | _ => ValueError end).
Proof. exact coords_misplaced. Qed.
Print Assumptions C113_misplaced.

Example C113_huge : written_by (fun ds => Ok (scaling_coords ds huge)) file_ibm = Err OverflowError /\
  written_by (fun ds => Ok (scaling_coords ds (S754_infinity true))) file_ibm = Err OverflowError /\
  written_by (fun ds => Ok (scaling_coords ds S754_nan)) file_ibm = Err ValueError.
Proof. repeat (apply conj; [vm_compute; reflexivity|]); vm_compute; reflexivity. Qed.
