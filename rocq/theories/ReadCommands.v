(* Model of the commands of the examples that read a SEG Y file and print
   something about it, and of timeslice.py, which saves an array: the exit code
   and what becomes of the files.  Simplifications as in Commands.v; printing
   does not fail; argparse is given no options. *)
From Coq Require Import String ZArith List Bool.
From Verif Require Import Py PyFloat IbmFloat Packing Formats FieldTypes FileIO Text Toolkit Reader NumpyExt Examples Commands.
Import ListNotations.
Local Open Scope string_scope.
Open Scope list_scope.
Open Scope Z_scope.

(* report.py, custom_header.py, timed_reader.py, trace_positions.py *)
Inductive inspector : Set := Report | CustomReport | TimedReader | TracePositions.

(* the format of the binary reel header given to create_reader
   [custom_header.py:62-64 report.py:21 timed_reader.py:27 trace_positions.py:38] *)
Definition reel_format (c : inspector) : fmt :=
  match c with CustomReport => CustomBinaryReelHeader | _ => BinaryReelHeader end.

(* what is done with the reader; the times and what is printed are left out
   [report.py:22-49 custom_header.py:66-92 timed_reader.py:31-32 trace_positions.py:40-44] *)
Definition inspect (native : endian) (c : inspector) (r : reader) : io Datatypes.unit :=
  match c with
  | Report | CustomReport => run _ <- lift (report_of r) ;; ret tt
  | TimedReader => run _ <- map_io (fun k => rd_trace_samples native r k None None) (rd_trace_indexes r) ;; ret tt
  | TracePositions => run _ <- trace_positions r ;; ret tt
  end.

(* with open(name, 'rb') as fh: work(create_reader(fh, binary_reel_header_format=bc))
   The result, or how it ended instead.
   [report.py:20-49 custom_header.py:58-92 timed_reader.py:22-34 trace_positions.py:36-44 timeslice.py:58-60] *)
Definition examine {A} (s : fs) (name : string) (bc : fmt) (work : reader -> io A) : (A + ending) * fs :=
  match open_rb s name with
  | inr e => (inr (NotOpened e), s)
  | inl i =>
      let (x, w) := (go r <- create_reader file_opened None bc TraceHeaderRev1 (Some Big) NoProgress None ;; on_file (work r))
                    (mk_world (mk_file (fs_data s i) 0) []) in
      (match x with Ok a => inl a | Err y => inr (Raised y) end, fs_write s i (f_data (w_file w)))
  end.

(* main(argv); argparse ends with code 2 unless there is exactly one argument
   [report.py:52-74 custom_header.py:95-117 timed_reader.py:45-67 trace_positions.py:47-70] *)
Definition main_inspect (native : endian) (c : inspector) (argv : list string) (s : fs) : Z * fs :=
  let exec name :=
    let (x, s') := examine s name (reel_format c) (inspect native c) in
    (exit_code (match x with inl _ => Finished | inr y => y end), s') in
  match c, argv with
  | TracePositions, [name] => exec name
  | TracePositions, _ => (2, s)
  | _, name :: _ => exec name
  | _, [] => (EX_USAGE, s)
  end.

(* np.save appends .npy to a name that does not end so
   [timeslice.py:91] *)
Definition npy_name (out : string) : string :=
  if String.eqb (substring (String.length out - 4) 4 out) ".npy" then out else out ++ ".npy".

(* extract_timeslice(segy, out, n) and main.  save gives the contents of an NPY
   file for an array with the dtype of the sample type, missing values as zeros.
   [timeslice.py:42-91 timeslice.py:98-137] *)
Definition main_timeslice (native : endian) (save : segytype -> array2 real -> list Z) (segy out : string) (n : Z) (s : fs) : Z * fs :=
  match examine s segy BinaryReelHeader (fun r =>
    run t <- lift (sample_format (rd_binary r)) ;; run a <- timeslice native r n ;; ret (t, a)) with
  | (inr x, s1) => (exit_code x, s1)
  | (inl (t, a), s1) =>
      match open_wb s1 (npy_name out) with
      | inr e => (exit_code (NotOpened e), s1)
      | inl o => (exit_code Finished, fs_write (fs_create s1 (npy_name out) o) o (save t a))
      end
  end.
