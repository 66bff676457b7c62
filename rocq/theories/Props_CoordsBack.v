(* Property C151: scaling the source coordinates of a file there and back. *)
From Coq Require Import String ZArith List Bool Lia SpecFloat.
From Verif Require Import Py PyFloat IbmFloat Packing Spec_Ibm Spec_Packing Formats FileIO Text Spec_Text Toolkit Spec_Segy Float32Facts Reader Transform Spec_Reader
  ReaderFacts OpenFacts Spec_Writer WriterFacts Spec_Fields Spec_Transform TransformFacts Props_Reader Props_Writer Props_Transform
  Spec_CoordsBack CoordsBackFacts.
Import ListNotations.
Local Open Scope string_scope.
Open Scope list_scope.
Open Scope Z_scope.

(* Coordinates whose products are integers that have a place in the fields are
   scaled exactly. *)
Theorem C151_exact : forall f h h', whole_product f "source_x" h -> whole_product f "source_y" h -> coordinates_scaled f h h' -> coordinates_times f h h'.
Proof. exact whole_times. Qed.
Print Assumptions C151_exact.

(* Scaling the coordinates of a file by such a factor f gives a file with the
   products; and scaling that one, however it is read, by g = 1 / f gives a file
   from which everything is read as from the first. *)
Theorem C151_back : forall d enc e dim r native f g x1 e1 x2 e2,
  readable d enc BinaryReelHeader TraceHeaderRev1 -> opens d enc BinaryReelHeader TraceHeaderRev1 e dim r -> all_readable native d r ->
  moderate f -> moderate g -> units f * units g = unit * unit ->
  (forall k h, 0 <= k < rd_num_traces r -> fst (rd_trace_header r k None (mk_file d 0)) = Ok h -> whole_product f "source_x" h /\ whole_product f "source_y" h) ->
  supported x1 -> text_encodable r x1 -> supported x2 -> text_encodable r x2 ->
  forall pr log pr2 log2, pr <> NotCallable -> pr2 <> NotCallable ->
  exists b w, write_segy (scaling_coords (reader_dataset native r (mk_file d 0)) f) (Some x1) TraceHeaderRev1 e1 pr (mk_world (mk_file [] 0) log) = (Ok tt, w) /\ f_data (w_file w) = b /\
    (exists r', opens b (Some x1) BinaryReelHeader TraceHeaderRev1 e1 dim r') /\
    forall native' dim' r', opens b (Some x1) BinaryReelHeader TraceHeaderRev1 e1 dim' r' ->
      transformed same_fields (coordinates_times f) eq d r b r' /\
      exists c w2, write_segy (scaling_coords (reader_dataset native' r' (mk_file b 0)) g) (Some x2) TraceHeaderRev1 e2 pr2 (mk_world (mk_file [] 0) log2) = (Ok tt, w2) /\ f_data (w_file w2) = c /\
        (exists r'', opens c (Some x2) BinaryReelHeader TraceHeaderRev1 e2 dim' r'') /\
        forall dim'' r'', opens c (Some x2) BinaryReelHeader TraceHeaderRev1 e2 dim'' r'' -> same_readings d r c r''.
Proof. exact coords_back. Qed.
Print Assumptions C151_back.

Definition eight : float := S754_finite false (2 ^ 52) (-49).
Definition eighth : float := S754_finite false (2 ^ 52) (-55).
Example C151_example : exists r, readable file_ibm (Some ASCII) BinaryReelHeader TraceHeaderRev1 /\
  opens file_ibm (Some ASCII) BinaryReelHeader TraceHeaderRev1 Big None r /\ all_readable Little file_ibm r /\ rd_num_traces r = 2 /\
  moderate eight /\ moderate eighth /\ units eight * units eighth = unit * unit /\
  forall k h, 0 <= k < rd_num_traces r -> fst (rd_trace_header r k None (mk_file file_ibm 0)) = Ok h -> whole_product eight "source_x" h /\ whole_product eight "source_y" h.
Proof.
  assert (E : match open_file file_ibm with (Ok r, _) => all_readableb Little file_ibm r && (rd_num_traces r =? 2) &&
    forallb (fun k => match fst (rd_trace_header r k None (mk_file file_ibm 0)) with Ok h =>
      forallb (fun n => match hdr_get h n with Ok v => Z.abs v <? 2 ^ 28 | Err _ => true end) ["source_x"; "source_y"] | Err _ => true end) [0; 1] | _ => false end = true)
    by (vm_compute; reflexivity).
  assert (RD : readable file_ibm (Some ASCII) BinaryReelHeader TraceHeaderRev1) by (apply readable_by; vm_compute; reflexivity).
  assert (U : units eight = 8 * unit) by (vm_compute; reflexivity).
  revert E RD. generalize file_ibm. intros d E RD.
  destruct (open_file d) as [[r|y] w] eqn:O; [|discriminate]. apply andb_prop in E. destruct E as (E & S).
  apply andb_prop in E. destruct E as (A & N). exists r. apply Z.eqb_eq in N.
  assert (OP : opens d (Some ASCII) BinaryReelHeader TraceHeaderRev1 Big None r) by (do 4 eexists; exact O).
  split; [exact RD|]. split; [exact OP|]. split; [now apply all_readableb_ok|]. split; [exact N|].
  split; [split; [reflexivity|split; [exact I|vm_compute; reflexivity]]|]. split; [split; [reflexivity|split; [exact I|vm_compute; reflexivity]]|].
  split; [vm_compute; reflexivity|]. intros k h K Q. rewrite forallb_forall in S. assert (J : In k [0; 1]) by (cbn; lia).
  specialize (S k J). cbv beta in S. rewrite Q in S. rewrite forallb_forall in S.
  assert (X : forall n, In n ["source_x"; "source_y"] -> whole_product eight n h).
  { intros n IN v G. specialize (S n IN). cbv beta in S. rewrite G in S. apply Z.ltb_lt in S. exists (8 * v). rewrite U. split; [ring|lia]. }
  split; apply X; cbn; tauto.
Qed.
