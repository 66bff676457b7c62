(* Property C148: converting the samples of a file to another type and back. *)
From Coq Require Import String ZArith List Bool Lia.
From Verif Require Import Py PyFloat IbmFloat Packing Spec_Ibm Spec_Packing Formats FileIO Text Spec_Text Toolkit Spec_Segy Float32Facts Reader Transform Spec_Reader
  ReaderFacts OpenFacts Spec_Writer WriterFacts Spec_Fields Spec_Transform TransformFacts Props_Reader Props_Writer Props_Transform Spec_TypesBack TypesBackFacts.
Import ListNotations.
Local Open Scope string_scope.
Open Scope list_scope.
Open Scope Z_scope.

(* A number that samples of the new type can have is converted to itself. *)
Theorem C148_exact : forall t s s', has_value t (value s) -> finite_number s -> converted t s s' -> same_number s s'.
Proof. exact converted_exact. Qed.
Print Assumptions C148_exact.

(* The IBM floats that single precision floats can have: those below the limit
   that are multiples of the smallest single precision float, 2^-149. *)
Theorem C148_ibm_float : forall v, has_value T_IBM v -> (has_value T_FLOAT32 v <-> Z.abs v < single_limit /\ (2 ^ 925 | v)).
Proof. intros v I. split; [apply single_values|]. intros (L & D). exact (ibm_to_single v I L D). Qed.
Print Assumptions C148_ibm_float.

(* Floats of either kind can have every integer of 24 bits. *)
Theorem C148_integers : forall n, Z.abs n < 2 ^ 24 -> has_value T_FLOAT32 (n * unit) /\ has_value T_IBM (n * unit).
Proof. intros n L. split; [now apply int_to_single|now apply int_to_ibm]. Qed.
Print Assumptions C148_integers.

(* Converting a file to samples of another type t, which can have all its
   numbers, gives a file with the same numbers; and converting that one, however
   it is read, to the type of the first gives a file with the fields and the
   numbers of the first. *)
Theorem C148_back : forall (tc : fmt) d enc e dim r native t0 t code0 code x1 e1 x2 e2, coincident_alike tc ->
  readable d enc BinaryReelHeader tc -> opens d enc BinaryReelHeader tc e dim r -> all_readable native d r ->
  sample_type (rd_binary r) t0 -> format_code code0 t0 -> format_code code t ->
  all_samples native d r (fun s => finite_number s /\ has_value t (value s)) ->
  supported x1 -> text_encodable r x1 -> supported x2 -> text_encodable r x2 ->
  forall pr log pr2 log2, pr <> NotCallable -> pr2 <> NotCallable ->
  exists ds b w, converting (reader_dataset native r (mk_file d 0)) t = Ok ds /\
    write_segy ds (Some x1) tc e1 pr (mk_world (mk_file [] 0) log) = (Ok tt, w) /\ f_data (w_file w) = b /\
    (exists r', opens b (Some x1) BinaryReelHeader tc e1 dim r') /\
    forall native' dim' r', opens b (Some x1) BinaryReelHeader tc e1 dim' r' ->
      transformed (retyped code) same_fields same_number d r b r' /\
      exists ds2 c w2, converting (reader_dataset native' r' (mk_file b 0)) t0 = Ok ds2 /\
        write_segy ds2 (Some x2) tc e2 pr2 (mk_world (mk_file [] 0) log2) = (Ok tt, w2) /\ f_data (w_file w2) = c /\
        (exists r'', opens c (Some x2) BinaryReelHeader tc e2 dim' r'') /\
        forall dim'' r'', opens c (Some x2) BinaryReelHeader tc e2 dim'' r'' -> transformed same_fields same_fields same_number d r c r''.
Proof. exact types_back. Qed.
Print Assumptions C148_back.

(* For integers the same number is the same sample. *)
Theorem C148_same_integer : forall t s s', In t [T_INT8; T_INT16; T_INT32] -> exact_sample t s -> exact_sample t s' -> same_number s s' -> s' = s.
Proof. exact same_integer. Qed.
Print Assumptions C148_same_integer.

(* single precision floats can have all samples of the file of C111: 1, 100, -2.5 and 40000 *)
Example C148_example : exists r, coincident_alike TraceHeaderRev1 /\ readable file_ibm (Some ASCII) BinaryReelHeader TraceHeaderRev1 /\
  opens file_ibm (Some ASCII) BinaryReelHeader TraceHeaderRev1 Big None r /\ all_readable Little file_ibm r /\ rd_num_traces r = 2 /\
  sample_type (rd_binary r) T_IBM /\ format_code 1 T_IBM /\ format_code 5 T_FLOAT32 /\ supported ASCII /\ text_encodable r ASCII /\
  all_samples Little file_ibm r (fun s => finite_number s /\ has_value T_FLOAT32 (value s)).
Proof.
  assert (E : match open_file file_ibm with (Ok r, _) => all_readableb Little file_ibm r && (rd_num_traces r =? 2) &&
    match hdr_get (rd_binary r) "data_sample_format" with Ok 1 => true | _ => false end &&
    all_samplesb Little file_ibm r (fun s => (Z.abs (value s) <? single_limit) && (value s mod 2 ^ 925 =? 0)) | _ => false end = true)
    by (vm_compute; reflexivity).
  assert (RD : readable file_ibm (Some ASCII) BinaryReelHeader TraceHeaderRev1) by (apply readable_by; vm_compute; reflexivity).
  revert E RD. generalize file_ibm. intros d E RD.
  destruct (open_file d) as [[r|y] w] eqn:O; [|discriminate]. apply andb_prop in E. destruct E as (E & S). apply andb_prop in E. destruct E as (E & G).
  apply andb_prop in E. destruct E as (A & N). exists r.
  assert (OP : opens d (Some ASCII) BinaryReelHeader TraceHeaderRev1 Big None r) by (do 4 eexists; exact O).
  split; [apply rev1_alike|]. split; [exact RD|]. split; [exact OP|]. split; [now apply all_readableb_ok|].
  assert (ST : sample_type (rd_binary r) T_IBM).
  { exists 1. split; [|cbn; tauto]. destruct (hdr_get (rd_binary r) "data_sample_format") as [z|]; [|discriminate]. destruct z as [|[]|]; try discriminate. reflexivity. }
  split; [now apply Z.eqb_eq|]. split; [exact ST|]. split; [cbn; tauto|]. split; [cbn; tauto|]. split; [now left|]. split; [eapply text_encodable_same; eauto|].
  assert (X := samples_typed d (Some ASCII) BinaryReelHeader TraceHeaderRev1 Big None r Little T_IBM RD OP ST).
  assert (Y : all_samples Little d r (fun s => Z.abs (value s) < single_limit /\ (2 ^ 925 | value s))).
  { eapply all_samplesb_ok; [|exact S]. cbn beta. intros s H. apply andb_prop in H. destruct H as (H1 & H2).
    split; [now apply Z.ltb_lt|]. apply Z.mod_divide; [discriminate|now apply Z.eqb_eq]. }
  intros k ss K Q. specialize (X k ss K Q). specialize (Y k ss K Q). rewrite Forall_forall in *. intros s I. destruct (Y s I) as (L & D).
  assert (P := X s I). destruct P as (v & -> & W). split; [exact Logic.I|]. apply ibm_to_single; [|exact L|exact D].
  exists (RIbm v). split; [now exists v|]. now split.
Qed.
(* one half is a number that IBM floats have and integers do not *)
Example C148_fraction : has_value T_IBM (ibm_units (W 64 128 0 0)) /\ ~ has_value T_INT32 (ibm_units (W 64 128 0 0)).
Proof.
  split; [exists (RIbm (W 64 128 0 0)); split; [eexists; split; [reflexivity|repeat constructor; cbn; lia]|now split]|].
  intros (s & (n & -> & _) & _ & V). cbn [value] in V. assert (M := f_equal (fun z => z mod unit) V). cbv beta in M. rewrite Z.mod_mul in M by discriminate. vm_compute in M. discriminate M.
Qed.
