(* C127: the commands that only read a SEG Y file, and timeslice.py. *)
From Coq Require Import String ZArith List Bool Lia.
From Verif Require Import Py PyFloat IbmFloat Packing Spec_Packing Formats FieldTypes FileIO Text Toolkit Spec_Segy Reader Spec_Reader OpenFacts NumpyExt Spec_Numpy Examples Spec_Examples
  Commands Spec_Commands ReadCommands Spec_ReadCommands ReadCommandsFacts Props_Reader Props_Numpy Props_Examples Props_Commands.
Import ListNotations.
Local Open Scope string_scope.
Open Scope list_scope.
Open Scope Z_scope.

(* Without a file name: exit code 64 (EX_USAGE), or 2 from argparse. *)
Theorem C127_usage : forall native c argv s, (forall name, ~ given c argv name) ->
  main_inspect native c argv s = (match c with TracePositions => 2 | _ => 64 end, s).
Proof. exact inspect_usage. Qed.
Print Assumptions C127_usage.

(* A file that cannot be opened: exit code 66 or 77. *)
Theorem C127_not_opened : forall native c argv s name e, given c argv name -> open_rb s name = inr e -> main_inspect native c argv s = (refusal e, s).
Proof. exact inspect_not_opened. Qed.
Print Assumptions C127_not_opened.

(* However these commands end, no file has changed. *)
Theorem C127_unchanged : forall native c argv s, sound s -> unchanged s (snd (main_inspect native c argv s)).
Proof. exact inspect_keeps. Qed.
Print Assumptions C127_unchanged.

(* The exit code is 0 for the files of which everything can be printed and 70
   (EX_SOFTWARE) for all others. *)
Theorem C127_code : forall native c argv s, sound s -> forall name i, given c argv name -> open_rb s name = inl i ->
  exists code s', main_inspect native c argv s = (code, s') /\ unchanged s s' /\
    ((code = 0 /\ printable c (fs_data s i)) \/ (code = 70 /\ ~ printable c (fs_data s i))).
Proof. exact inspect_opened. Qed.
Print Assumptions C127_code.

(* custom_header.py can report on every file report.py can, and says the same. *)
Theorem C127_custom : forall (d : list Z) r, all_bytes d -> reads_as BinaryReelHeader d r ->
  exists r', reads_as CustomBinaryReelHeader d r' /\ report_of r' = report_of r /\
    forall f, is_field BinaryReelHeader f -> hdr_get (rd_binary r') (fd_name f) = hdr_get (rd_binary r) (fd_name f).
Proof. exact custom_opens. Qed.
Print Assumptions C127_custom.

(* The other files it can report on are those with 2^15 samples or more in the
   binary reel header. *)
Theorem C127_custom_more : forall (d : list Z) r', all_bytes d -> reads_as CustomBinaryReelHeader d r' ->
  exists v, hdr_get (rd_binary r') "num_samples" = Ok v /\ 0 <= v < 2 ^ 16 /\ stored_at Big d 3220 2 v /\
    ((exists r, reads_as BinaryReelHeader d r) <-> v < 2 ^ 15).
Proof. exact custom_widens. Qed.
Print Assumptions C127_custom_more.

(* timeslice.py: an input that cannot be opened *)
Theorem C127_slice_not_opened : forall native save segy out n s e, open_rb s segy = inr e -> main_timeslice native save segy out n s = (refusal e, s).
Proof. exact slice_no_input. Qed.
Print Assumptions C127_slice_not_opened.

(* A file without such a slice: exit code 70, no file is touched. *)
Theorem C127_slice_none : forall native save segy out n s, sound s -> forall i, open_rb s segy = inl i ->
  (forall t a, ~ sliced_at (fs_data s i) n t a) ->
  exists s', main_timeslice native save segy out n s = (70, s') /\ unchanged s s'.
Proof. exact slice_none. Qed.
Print Assumptions C127_slice_none.

(* Else the slice is saved, to a file that is touched only now; if that cannot be
   opened nothing has changed. *)
Theorem C127_slice_saved : forall native save segy out n s, sound s -> forall i, open_rb s segy = inl i ->
  (exists t a, sliced_at (fs_data s i) n t a) -> forall name, npy_file out name ->
  (forall e, open_wb s name = inr e -> exists s', main_timeslice native save segy out n s = (refusal e, s') /\ unchanged s s') /\
  (forall o, open_wb s name = inl o -> exists t a s', main_timeslice native save segy out n s = (0, s') /\
     sliced_at (fs_data s i) n t a /\ only_written s name o (save t a) s').
Proof. exact slice_saved. Qed.
Print Assumptions C127_slice_saved.

(* the name of the output always is the one of these two *)
Theorem C127_npy_name : forall out, exists name, npy_file out name /\ forall name', npy_file out name' -> name' = name.
Proof. intros out. exists (npy_name out). split; [exact (npy_named out)|]. intros name' H. exact (npy_one out name' (npy_name out) H (npy_named out)). Qed.
Print Assumptions C127_npy_name.

(* The disk of C125_example: the exit code and the files afterwards. *)
Definition inspects (c : inspector) (argv : list string) (d1 d2 : list Z) (code : Z) : bool :=
  same_contents (after (main_inspect Little c argv (disk d1 d2))) (code, [d1; d2; []]).
Definition cut_off : list Z := firstn (Z.to_nat (zlen file_corner - 1)) file_corner.
(* 40000 samples in the binary reel header *)
Definition long_traces : list Z := firstn (Z.to_nat 3220) file_corner ++ [156; 64] ++ skipn (Z.to_nat 3222) file_corner.
Example C127_example :
  inspects Report [] file_corner [7] 64 = true /\ inspects Report ["e"] file_corner [7] 70 = true /\ inspects Report ["d"] file_corner [7] 66 = true /\
  inspects TimedReader ["a"; "more"] file_corner [7] 0 = true /\ inspects TimedReader ["a"] cut_off [7] 70 = true /\
  inspects TracePositions ["a"] file_placed [7] 0 = true /\ inspects TracePositions ["a"] zero_header_file [7] 70 = true /\
  inspects TracePositions ["a"; "b"] file_placed [7] 2 = true /\
  inspects Report ["a"] long_traces [7] 70 = true /\ inspects CustomReport ["a"] long_traces [7] 0 = true.
Proof. repeat (apply conj; [vm_compute; reflexivity|]); vm_compute; reflexivity. Qed.

Definition first_cell (_ : segytype) (a : array2 real) : list Z := match a with (Some (RInt n) :: _) :: _ => [n] | _ => [] end.
Definition slices (segy out : string) (n : Z) (d1 d2 : list Z) (code : Z) (ds : list (list Z)) : bool :=
  same_contents (after (main_timeslice Little first_cell segy out n (disk d1 d2))) (code, ds).
Example C127_slice_example :
  slices "a" "c" 1 file_corner [7] 0 [file_corner; [7]; [8]] = true /\ slices "a" "new" 3 file_corner [7] 70 [file_corner; [7]; []] = true /\
  slices "none" "new" 1 file_corner [7] 66 [file_corner; [7]; []] = true /\
  npy_name "new" = "new.npy" /\ npy_name "new.npy" = "new.npy" /\ npy_name "npy" = "npy.npy" /\ npy_name ".npy" = ".npy".
Proof. repeat (apply conj; [vm_compute; reflexivity|]); vm_compute; reflexivity. Qed.
Example C127_sound : sound (disk file_corner [7]).
Proof.
  assert (B : bytesb file_corner = true) by (vm_compute; reflexivity). revert B. generalize file_corner. intros d B.
  intros i. cbn [disk fs_data]. destruct (i =? 1); [now apply bytesb_ok|]. destruct (i =? 2); [repeat constructor; lia|constructor].
Qed.
