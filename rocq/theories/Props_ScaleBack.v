(* Property C150: scaling the samples of a file there and back. *)
From Coq Require Import String ZArith List Bool Lia SpecFloat.
From Verif Require Import Py PyFloat IbmFloat Packing Spec_Ibm Spec_Packing Formats FileIO Text Spec_Text Toolkit Spec_Segy Float32Facts Reader Transform Spec_Reader
  ReaderFacts OpenFacts Spec_Writer WriterFacts Spec_Fields Spec_Transform TransformFacts Props_Reader Props_Writer Props_Transform
  Spec_TypesBack TypesBackFacts Spec_ScaleBack ScaleBackFacts.
Import ListNotations.
Local Open Scope string_scope.
Open Scope list_scope.
Open Scope Z_scope.

(* A product that samples of the type can have is the sample. *)
Theorem C150_exact : forall t f s s', exact_product t f s -> scaled t f s s' -> times f s s'.
Proof. exact scaled_exact. Qed.
Print Assumptions C150_exact.

(* IBM floats can have sixteen times an IBM float unless the exponent is the largest. *)
Theorem C150_sixteen : forall w, word_ok w -> ibm_E w < 127 -> has_value T_IBM (16 * ibm_units w).
Proof. exact ibm_sixteen. Qed.
Print Assumptions C150_sixteen.

(* Scaling a file by f, if samples can have all products, gives a file with these
   products; and scaling that one, however it is read, by g = 1 / f gives a file
   with the fields and the numbers of the first. *)
Theorem C150_back : forall (tc : fmt) d enc e dim r native t f g x1 e1 x2 e2, coincident_alike tc ->
  readable d enc BinaryReelHeader tc -> opens d enc BinaryReelHeader tc e dim r -> all_readable native d r ->
  sample_type (rd_binary r) t -> moderate f -> moderate g -> units f * units g = unit * unit ->
  all_samples native d r (fun s => exact_product t f s /\ in_limit t (value s)) ->
  supported x1 -> text_encodable r x1 -> supported x2 -> text_encodable r x2 ->
  forall pr log pr2 log2, pr <> NotCallable -> pr2 <> NotCallable ->
  exists ds b w, scaling (reader_dataset native r (mk_file d 0)) f = Ok ds /\
    write_segy ds (Some x1) tc e1 pr (mk_world (mk_file [] 0) log) = (Ok tt, w) /\ f_data (w_file w) = b /\
    (exists r', opens b (Some x1) BinaryReelHeader tc e1 dim r') /\
    forall native' dim' r', opens b (Some x1) BinaryReelHeader tc e1 dim' r' ->
      transformed same_fields same_fields (times f) d r b r' /\
      exists ds2 c w2, scaling (reader_dataset native' r' (mk_file b 0)) g = Ok ds2 /\
        write_segy ds2 (Some x2) tc e2 pr2 (mk_world (mk_file [] 0) log2) = (Ok tt, w2) /\ f_data (w_file w2) = c /\
        (exists r'', opens c (Some x2) BinaryReelHeader tc e2 dim' r'') /\
        forall dim'' r'', opens c (Some x2) BinaryReelHeader tc e2 dim'' r'' -> transformed same_fields same_fields same_number d r c r''.
Proof. exact scale_back. Qed.
Print Assumptions C150_back.

(* 16 and 1/16 *)
Definition sixteen : float := S754_finite false (2 ^ 52) (-48).
Definition sixteenth : float := S754_finite false (2 ^ 52) (-56).
Example C150_example : exists r, readable file_ibm (Some ASCII) BinaryReelHeader TraceHeaderRev1 /\
  opens file_ibm (Some ASCII) BinaryReelHeader TraceHeaderRev1 Big None r /\ all_readable Little file_ibm r /\ rd_num_traces r = 2 /\
  sample_type (rd_binary r) T_IBM /\ moderate sixteen /\ moderate sixteenth /\ units sixteen * units sixteenth = unit * unit /\
  all_samples Little file_ibm r (fun s => exact_product T_IBM sixteen s /\ in_limit T_IBM (value s)).
Proof.
  assert (E : match open_file file_ibm with (Ok r, _) => all_readableb Little file_ibm r && (rd_num_traces r =? 2) &&
    match hdr_get (rd_binary r) "data_sample_format" with Ok 1 => true | _ => false end &&
    all_samplesb Little file_ibm r (fun s => match s with RIbm w => ibm_E w <? 127 | _ => false end) | _ => false end = true)
    by (vm_compute; reflexivity).
  assert (RD : readable file_ibm (Some ASCII) BinaryReelHeader TraceHeaderRev1) by (apply readable_by; vm_compute; reflexivity).
  revert E RD. generalize file_ibm. intros d E RD.
  destruct (open_file d) as [[r|y] w] eqn:O; [|discriminate]. apply andb_prop in E. destruct E as (E & S). apply andb_prop in E. destruct E as (E & G).
  apply andb_prop in E. destruct E as (A & N). exists r.
  assert (OP : opens d (Some ASCII) BinaryReelHeader TraceHeaderRev1 Big None r) by (do 4 eexists; exact O).
  assert (ST : sample_type (rd_binary r) T_IBM).
  { exists 1. split; [|cbn; tauto]. destruct (hdr_get (rd_binary r) "data_sample_format") as [z|]; [|discriminate]. destruct z as [|[]|]; try discriminate. reflexivity. }
  split; [exact RD|]. split; [exact OP|]. split; [now apply all_readableb_ok|]. split; [now apply Z.eqb_eq|]. split; [exact ST|].
  split; [split; [reflexivity|split; [exact I|vm_compute; reflexivity]]|]. split; [split; [reflexivity|split; [exact I|vm_compute; reflexivity]]|].
  split; [vm_compute; reflexivity|].
  assert (X := samples_typed d (Some ASCII) BinaryReelHeader TraceHeaderRev1 Big None r Little T_IBM RD OP ST).
  assert (Y : all_samples Little d r (fun s => match s with RIbm w => ibm_E w < 127 | _ => False end)).
  { eapply all_samplesb_ok; [|exact S]. cbn beta. intros s H. destruct s; try discriminate H. now apply Z.ltb_lt. }
  assert (U : units sixteen = 16 * unit) by (vm_compute; reflexivity).
  intros k ss K Q. specialize (X k ss K Q). specialize (Y k ss K Q). rewrite Forall_forall in *. intros s J. assert (L := Y s J).
  assert (P := X s J). destruct P as (v & -> & W). split; [|discriminate]. split; [exact I|]. exists (16 * ibm_units v). cbn [value]. rewrite U.
  split; [ring|]. split; [now apply ibm_sixteen|discriminate].
Qed.
