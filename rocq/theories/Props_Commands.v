(* What the commands that write one SEG Y file from another do to files (C125). *)
From Coq Require Import String ZArith List Bool Lia.
From Verif Require Import Py PyFloat IbmFloat Spec_Ibm Packing Spec_Packing Formats FileIO Text Spec_Text Toolkit Spec_Segy Reader Spec_Reader ReaderFacts OpenFacts
  Spec_Writer WriterFacts Spec_Copy CopyFacts Transform Spec_Transform TransformFacts Props_Transform Commands Spec_Commands CommandsFacts.
Import ListNotations.
Local Open Scope string_scope.
Open Scope list_scope.
Open Scope Z_scope.

(* Arguments that ask for nothing: exit code 64 (EX_USAGE), no file is touched. *)
Theorem C125_usage : forall native parse c argv s, (forall make inn out, ~ asks parse c argv make inn out) -> main native parse c argv s = (64, s).
Proof. exact main_usage. Qed.
Print Assumptions C125_usage.

(* A file that cannot be opened: exit code 66 or 77, no file is touched; the
   output is not opened unless the input has been. *)
Theorem C125_not_opened : forall native parse c argv s make inn out, asks parse c argv make inn out -> forall e,
  open_rb s inn = inr e \/ (exists i, open_rb s inn = inl i) /\ open_wb s out = inr e -> main native parse c argv s = (refusal e, s).
Proof.
  intros native parse c argv s make inn out A e [H|((i & I) & H)].
  - exact (main_no_input native parse c argv s make inn out A e H).
  - exact (main_no_output native parse c argv s make inn out A i e I H).
Qed.
Print Assumptions C125_not_opened.

(* Which files can be opened: for reading an existing file that may be read, for
   writing one that may be written or a path where a file can be made.  A missing
   file or directory is NotFound. *)
Theorem C125_opening : forall s n,
  (forall i, open_rb s n = inl i <-> exists w, fs_place s n = Regular i true w) /\
  (forall e, open_rb s n = inr e <->
     (e = IsADirectory /\ fs_place s n = Directory) \/ (e = NotFound /\ exists m, fs_place s n = Nothing m) \/
     (e = NoPermission /\ exists i w, fs_place s n = Regular i false w)) /\
  (forall o, open_wb s n = inl o <-> (exists r, fs_place s n = Regular o r true) \/ fs_place s n = Nothing (inl o)) /\
  (forall e, open_wb s n = inr e <->
     (e = IsADirectory /\ fs_place s n = Directory) \/ fs_place s n = Nothing (inr e) \/
     (e = NoPermission /\ exists o r, fs_place s n = Regular o r false)).
Proof. exact opening. Qed.
Print Assumptions C125_opening.

(* So these are the exit codes for files that are missing, are directories or may
   not be opened. *)
Theorem C125_refused : forall native parse c argv s make inn out, asks parse c argv make inn out ->
  (fs_place s inn = Directory \/ (exists m, fs_place s inn = Nothing m) -> main native parse c argv s = (66, s)) /\
  (forall i w, fs_place s inn = Regular i false w -> main native parse c argv s = (77, s)) /\
  forall i w, fs_place s inn = Regular i true w ->
    (fs_place s out = Directory \/ fs_place s out = Nothing (inr NotFound) -> main native parse c argv s = (66, s)) /\
    ((exists o r, fs_place s out = Regular o r false) \/ fs_place s out = Nothing (inr NoPermission) -> main native parse c argv s = (77, s)).
Proof.
  intros native parse c argv s make inn out A. pose proof (C125_not_opened native parse c argv s make inn out A) as N.
  destruct (opening s inn) as (I1 & I2 & _). destruct (opening s out) as (_ & _ & _ & O2). split; [|split].
  - intros [D|(m & D)].
    + exact (N IsADirectory (or_introl (proj2 (I2 _) (or_introl (conj eq_refl D))))).
    + exact (N NotFound (or_introl (proj2 (I2 _) (or_intror (or_introl (conj eq_refl (ex_intro _ m D))))))).
  - intros i w D. apply (N NoPermission). left. apply I2. right. right. eauto.
  - intros i w D. assert (I : exists i, open_rb s inn = inl i) by (exists i; apply I1; eauto). split.
    + intros [E|E].
      * apply (N IsADirectory). right. split; [exact I|]. apply O2. auto.
      * apply (N NotFound). right. split; [exact I|]. apply O2. auto.
    + intros [(o & r & E)|E]; apply (N NoPermission); right; (split; [exact I|]); apply O2; eauto 6.
Qed.
Print Assumptions C125_refused.

(* Otherwise the only file that may differ afterwards is the output.  The exit
   code is 0 exactly if the input is another file and what is asked for can be
   read, made and written to the end; the output then holds just that.  Else
   it is 70. *)
Theorem C125_opened : forall native parse c argv s make inn out, asks parse c argv make inn out -> forall i o, open_rb s inn = inl i -> open_wb s out = inl o ->
  exists code b s', main native parse c argv s = (code, s') /\ only_written s out o b s' /\
    ((code = 0 /\ i <> o /\ produces native make (fs_data s i) b) \/
     (code = 70 /\ (i <> o -> forall b', ~ produces native make (fs_data s i) b'))).
Proof.
  intros native parse c argv s make inn out A i o I O. destruct (main_open native parse c argv s make inn out A i o I O) as (code & b & s' & M & W & H).
  exists code, b, s'. split; [exact M|]. split; [exact W|]. tauto.
Qed.
Print Assumptions C125_opened.

(* What that is.  The copy of a file reads as the file does; *)
Theorem C125_copied : forall native parse s inn out more i o r, all_bytes (fs_data s i) -> open_rb s inn = inl i -> open_wb s out = inl o -> i <> o ->
  reads (fs_data s i) r -> all_readable native (fs_data s i) r ->
  exists b r' s', main native parse LoadSave (inn :: out :: more) s = (0, s') /\ only_written s out o b s' /\ reads b r' /\ same_readings (fs_data s i) r b r'.
Proof.
  intros native parse s inn out more i o r BD I O N R AR. destruct (copy_meaning native _ r BD R AR) as (b & r' & P & R' & T).
  destruct (main_done native parse LoadSave (inn :: out :: more) s _ inn out i o b (asks_copy _ _ _ _) I O N P) as (s' & M & W). exists b, r', s'. auto.
Qed.
Print Assumptions C125_copied.
(* and it is the same file, byte by byte, if that has no byte outside of fields,
   samples and text and no sample that is not a number. *)
Theorem C125_identical : forall native parse s inn out more i o r t ts, all_bytes (fs_data s i) -> open_rb s inn = inl i -> open_wb s out = inl o -> i <> o ->
  reads (fs_data s i) r -> all_readable native (fs_data s i) r -> traces_of (fs_data s i) TraceHeaderRev1 Big r t ts ->
  reproducible BinaryReelHeader TraceHeaderRev1 Big t (first_trace (rd_ext r)) ts (fs_data s i) ->
  exists s', main native parse LoadSave (inn :: out :: more) s = (0, s') /\ only_written s out o (fs_data s i) s'.
Proof.
  intros native parse s inn out more i o r t ts BD I O N R AR TR RP.
  destruct (copy_same _ None _ _ _ None r native t ts (default_formats _ BD) (reads_opens _ _ R) AR binary_alike rev1_alike TR None NoProgress [] RP) as (w & W & D); [now left|discriminate|].
  refine (main_done native parse LoadSave (inn :: out :: more) s _ inn out i o _ (asks_copy _ _ _ _) I O N _). eexists r, _, w. split; [exact R|]. split; [reflexivity|]. split; [exact W|exact D].
Qed.
Print Assumptions C125_identical.
(* The converted file has the samples as numbers of the new type; *)
Theorem C125_converted : forall native parse s n inn out more i o r t code, all_bytes (fs_data s i) -> open_rb s inn = inl i -> open_wb s out = inl o -> i <> o -> out <> inn ->
  reads (fs_data s i) r -> all_readable native (fs_data s i) r -> In (n, t) type_names ->
  sample_type (rd_binary r) T_IBM -> format_code code t -> all_samples native (fs_data s i) r (convertible t) ->
  exists b r' s', main native parse ConvertSampleType (n :: inn :: out :: more) s = (0, s') /\ only_written s out o b s' /\ reads b r' /\
    transformed (fun h h' => same_but ["data_sample_format"] h h' /\ hdr_get h' "data_sample_format" = Ok code) same_fields (converted t) (fs_data s i) r b r'.
Proof.
  intros native parse s n inn out more i o r t code BD I O N NN R AR NT ST FC AS. destruct (convert_meaning native _ r BD R AR t code ST FC AS) as (b & r' & P & R' & T).
  destruct (main_done native parse ConvertSampleType (n :: inn :: out :: more) s _ inn out i o b (asks_convert _ _ _ _ _ _ NT NN) I O N P) as (s' & M & W). exists b, r', s'. auto.
Qed.
Print Assumptions C125_converted.
(* the scaled file the products with the factor; *)
Theorem C125_scaled : forall native parse s n inn out more i o r t f, all_bytes (fs_data s i) -> open_rb s inn = inl i -> open_wb s out = inl o -> i <> o ->
  reads (fs_data s i) r -> all_readable native (fs_data s i) r -> parse n = Some f ->
  sample_type (rd_binary r) t -> moderate f -> all_samples native (fs_data s i) r (scalable t f) ->
  exists b r' s', main native parse ScaleSamples (n :: inn :: out :: more) s = (0, s') /\ only_written s out o b s' /\ reads b r' /\
    transformed same_fields same_fields (scaled t f) (fs_data s i) r b r'.
Proof.
  intros native parse s n inn out more i o r t f BD I O N R AR PF ST MF AS. destruct (scale_meaning native _ r BD R AR t f ST MF AS) as (b & r' & P & R' & T).
  destruct (main_done native parse ScaleSamples (n :: inn :: out :: more) s _ inn out i o b (asks_scale _ _ _ _ _ _ PF) I O N P) as (s' & M & W). exists b, r', s'. auto.
Qed.
Print Assumptions C125_scaled.
(* the file with scaled source coordinates nothing else that is new. *)
Theorem C125_coordinates : forall native parse s n inn out more i o r f, all_bytes (fs_data s i) -> open_rb s inn = inl i -> open_wb s out = inl o -> i <> o ->
  reads (fs_data s i) r -> all_readable native (fs_data s i) r -> parse n = Some f -> moderate f ->
  (forall k h, 0 <= k < rd_num_traces r -> fst (rd_trace_header r k None (mk_file (fs_data s i) 0)) = Ok h -> coordinate_fits f "source_x" h /\ coordinate_fits f "source_y" h) ->
  exists b r' s', main native parse ScaleSourceCoords (n :: inn :: out :: more) s = (0, s') /\ only_written s out o b s' /\ reads b r' /\
    transformed same_fields (coordinates_scaled f) eq (fs_data s i) r b r'.
Proof.
  intros native parse s n inn out more i o r f BD I O N R AR PF MF CF. destruct (coords_meaning native _ r BD R AR f MF CF) as (b & r' & P & R' & T).
  destruct (main_done native parse ScaleSourceCoords (n :: inn :: out :: more) s _ inn out i o b (asks_coords _ _ _ _ _ _ PF) I O N P) as (s' & M & W). exists b, r', s'. auto.
Qed.
Print Assumptions C125_coordinates.

(* Refuted: "the input is never changed".  If both names lead to one file it is
   emptied, whatever it held (the check of the converting command compares the
   names only, the others have none). *)
Theorem C125_same_file_refuted : forall native parse c argv s make inn out i, asks parse c argv make inn out -> open_rb s inn = inl i -> open_wb s out = inl i ->
  exists s', main native parse c argv s = (70, s') /\ only_written s out i [] s'.
Proof.
  intros native parse c argv s make inn out i A I O. destruct (main_open native parse c argv s make inn out A i i I O) as (code & b & s' & M & W & [(_ & N & _)|(-> & _ & E)]); [contradiction|].
  rewrite E in W by now left. eauto.
Qed.
Print Assumptions C125_same_file_refuted.

(* Refuted: "an output that cannot be made is not touched".  An existing output is
   emptied before the input has been looked at: if that is no SEG Y file, *)
Theorem C125_lost_output_refuted : forall native parse c argv s make inn out i o, asks parse c argv make inn out -> open_rb s inn = inl i -> open_wb s out = inl o ->
  (forall r, ~ reads (fs_data s i) r) -> exists s', main native parse c argv s = (70, s') /\ only_written s out o [] s'.
Proof.
  intros native parse c argv s make inn out i o A I O N. destruct (main_open native parse c argv s make inn out A i o I O) as (code & b & s' & M & W & [(_ & _ & (r & _ & _ & R & _))|(-> & _ & E)]);
    [now destruct (N r)|]. rewrite E in W by (right; intros r R; now destruct (N r)). eauto.
Qed.
Print Assumptions C125_lost_output_refuted.
(* and for the converting command also if its samples are no IBM floats or the
   new type is one of the three that cannot be written. *)
Theorem C125_not_converted_refuted : forall native parse s n inn out more i o r t t0, In (n, t) type_names -> out <> inn -> open_rb s inn = inl i -> open_wb s out = inl o ->
  reads (fs_data s i) r -> sample_type (rd_binary r) t0 -> t0 <> T_IBM \/ In t [T_NNINT8; T_NNINT16; T_NNINT32] ->
  exists s', main native parse ConvertSampleType (n :: inn :: out :: more) s = (70, s') /\ only_written s out o [] s'.
Proof.
  intros native parse s n inn out more i o r t t0 NT NN I O R ST H. set (A := asks_convert parse n t inn out more NT NN).
  assert (F : exists y, convert_ibm t (reader_dataset native r (mk_file (fs_data s i) 0)) = Err y).
  { unfold convert_ibm. cbn [ds_sample_format reader_dataset]. rewrite (sample_format_ok _ _ ST). cbn [bind].
    destruct t0; try (exists RuntimeError; reflexivity). exists KeyError. destruct H as [H|[<-|[<-|[<-|[]]]]]; [congruence|reflexivity..]. }
  assert (U : forall r', reads (fs_data s i) r' -> r' = r) by (destruct R as (w & R); intros r' (w' & R'); congruence).
  destruct (main_open native parse _ _ s _ inn out A i o I O) as (code & b & s' & M & W & [(_ & _ & (r' & ds & w & R' & K & _))|(-> & _ & E)]).
  - rewrite (U r' R') in K. destruct F as (y & F). congruence.
  - rewrite E in W by (right; intros r' R'; now rewrite (U r' R')). eauto.
Qed.
Print Assumptions C125_not_converted_refuted.

(* An example: a directory d, the files 1 (a and its link b) and 2 (c), which may
   not be written (e is a link that may), nothing elsewhere. *)
Definition disk (d1 d2 : list Z) : fs := mk_fs
  (fun n => if String.eqb n "d" then Directory else if String.eqb n "a" then Regular 1 true true else if String.eqb n "b" then Regular 1 true true else
            if String.eqb n "c" then Regular 2 true false else if String.eqb n "e" then Regular 2 true true else
            if String.eqb n "x/y" then Nothing (inr NotFound) else Nothing (inl 9))
  (fun i => if i =? 1 then d1 else if i =? 2 then d2 else []).
Definition no_float (_ : string) : option float := None.
Definition halved (n : string) : option float := if String.eqb n "0.5" then Some half else None.
(* the exit code and the contents of the files 1, 2 and 9 *)
Definition after (x : Z * fs) : Z * list (list Z) := (fst x, map (fs_data (snd x)) [1; 2; 9]).
Definition same_contents (x y : Z * list (list Z)) : bool :=
  (fst x =? fst y) && (Z.of_nat (length (snd x)) =? Z.of_nat (length (snd y))) &&
  forallb (fun p => (zlen (fst p) =? zlen (snd p)) && forallb (fun q => fst q =? snd q) (combine (fst p) (snd p))) (combine (snd x) (snd y)).
Definition runs (c : command) (argv : list string) (d1 d2 : list Z) (code : Z) (ds : list (list Z)) : bool :=
  same_contents (after (main Little halved c argv (disk d1 d2))) (code, ds).

Example C125_example :
  runs LoadSave ["a"; "e"; "more"] file_ibm [7] 0 [file_ibm; file_ibm; []] = true /\
  runs LoadSave ["a"] file_ibm [7] 64 [file_ibm; [7]; []] = true /\ runs LoadSave ["none"; "a"] file_ibm [7] 66 [file_ibm; [7]; []] = true /\
  runs LoadSave ["a"; "d"] file_ibm [7] 66 [file_ibm; [7]; []] = true /\ runs LoadSave ["a"; "x/y"] file_ibm [7] 66 [file_ibm; [7]; []] = true /\
  runs LoadSave ["a"; "c"] file_ibm [7] 77 [file_ibm; [7]; []] = true /\ runs LoadSave ["e"; "a"] file_ibm [7] 70 [[]; [7]; []] = true /\
  runs LoadSave ["a"; "a"] file_ibm [7] 70 [[]; [7]; []] = true.
Proof. repeat (apply conj; [vm_compute; reflexivity|]); vm_compute; reflexivity. Qed.
Example C125_convert_example :
  runs ConvertSampleType ["int16"; "a"; "a"] file_ibm [7] 64 [file_ibm; [7]; []] = true /\ runs ConvertSampleType ["int17"; "a"; "e"] file_ibm [7] 64 [file_ibm; [7]; []] = true /\
  runs ConvertSampleType ["int16"; "a"; "b"] file_ibm [7] 70 [[]; [7]; []] = true /\ runs ConvertSampleType ["nnint16"; "a"; "e"] file_ibm [7] 70 [file_ibm; []; []] = true.
Proof. repeat (apply conj; [vm_compute; reflexivity|]); vm_compute; reflexivity. Qed.
Example C125_scale_example :
  runs ScaleSamples ["half"; "a"; "e"] file_ibm [7] 64 [file_ibm; [7]; []] = true /\ runs ScaleSamples ["0.5"; "a"; "b"] file_ibm [7] 70 [[]; [7]; []] = true /\
  runs ScaleSourceCoords ["0.5"; "a"] file_ibm [7] 64 [file_ibm; [7]; []] = true /\ runs ScaleSourceCoords ["0.5"; "e"; "a"] file_ibm [7] 70 [[]; [7]; []] = true.
Proof. repeat (apply conj; [vm_compute; reflexivity|]); vm_compute; reflexivity. Qed.
(* the hypotheses of the theorems on what the output is *)
Example C125_hypotheses : exists r, reads file_ibm r /\ all_bytes file_ibm /\ all_readable Little file_ibm r /\ sample_type (rd_binary r) T_IBM /\
  all_samples Little file_ibm r (convertible T_FLOAT32) /\ moderate half /\ In ("float32", T_FLOAT32) type_names /\ format_code 5 T_FLOAT32.
Proof.
  assert (E : match create_reader file_opened None BinaryReelHeader TraceHeaderRev1 (Some Big) NoProgress None (mk_world (mk_file file_ibm 0) []) with
    | (Ok r, _) => all_readableb Little file_ibm r && all_samplesb Little file_ibm r (fun s => Z.abs (value s) <? single_limit) &&
        match sample_format (rd_binary r) with Ok T_IBM => true | _ => false end && match hdr_get (rd_binary r) "data_sample_format" with Ok 1 => true | _ => false end
    | _ => false end = true) by (vm_compute; reflexivity).
  assert (B : bytesb file_ibm = true) by (vm_compute; reflexivity). assert (MH := proj1 C112_example).
  revert E B. generalize file_ibm. intros d E B.
  destruct (create_reader file_opened None BinaryReelHeader TraceHeaderRev1 (Some Big) NoProgress None (mk_world (mk_file d 0) [])) as [[r|y] w] eqn:C; [|discriminate].
  apply andb_prop in E. destruct E as (E & G). apply andb_prop in E. destruct E as (E & _). apply andb_prop in E. destruct E as (E1 & E2).
  exists r. split; [now exists w|]. split; [now apply bytesb_ok|]. split; [now apply all_readableb_ok|]. split.
  { destruct (hdr_get (rd_binary r) "data_sample_format") as [v|] eqn:H; [|discriminate]. exists v. destruct v as [|[| |]|]; try discriminate G. split; [exact H|]. cbn. tauto. }
  split; [eapply all_samplesb_ok; [|exact E2]; cbn beta; intros s H _; now apply Z.ltb_lt|]. split; [exact MH|]. split; cbn; tauto.
Qed.
