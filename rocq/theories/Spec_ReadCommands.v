(* Specification vocabulary for the commands that only read a SEG Y file, and for
   timeslice.py. *)
From Coq Require Import String ZArith List Bool.
From Verif Require Import Py PyFloat IbmFloat Packing Spec_Packing Formats FieldTypes FileIO Text Toolkit Spec_Segy Reader Spec_Reader NumpyExt Spec_Numpy Examples Spec_Examples
  Commands Spec_Commands ReadCommands.
Import ListNotations.
Local Open Scope string_scope.
Open Scope list_scope.
Open Scope Z_scope.

(* every path leads where it led and every file holds what it held *)
Definition unchanged (s s' : fs) : Prop := (forall n, fs_place s' n = fs_place s n) /\ forall i, fs_data s' i = fs_data s i.

(* the arguments name the file to be read; more arguments are ignored, but not by
   trace_positions.py *)
Inductive given : inspector -> list string -> string -> Prop :=
| given_report name more : given Report (name :: more) name
| given_custom name more : given CustomReport (name :: more) name
| given_timed name more : given TimedReader (name :: more) name
| given_positions name : given TracePositions [name] name.

(* create_reader(fh, binary_reel_header_format=bc) for a file with contents d gives r *)
Definition reads_as (bc : fmt) (d : list Z) (r : reader) : Prop :=
  exists w, create_reader (mk_attrs false false true) None bc TraceHeaderRev1 (Some Big) NoProgress None (mk_world (mk_file d 0) []) = (Ok r, w).

(* A file of which the command can print everything: it can be opened; besides,
   the samples of all traces are there (timed_reader.py), all fields of the trace
   headers have allowed values (trace_positions.py). *)
Definition printable (c : inspector) (d : list Z) : Prop :=
  match c with
  | Report => exists r, reads_as BinaryReelHeader d r
  | CustomReport => exists r, reads_as CustomBinaryReelHeader d r
  | TimedReader => exists r t ts, reads_as BinaryReelHeader d r /\ traces_of d TraceHeaderRev1 Big r t ts /\ forall tr, In tr ts -> whole d t tr
  | TracePositions => exists r t ts, reads_as BinaryReelHeader d r /\ traces_of d TraceHeaderRev1 Big r t ts /\
      forall tr n, In tr ts -> ~ bad_field_at TraceHeaderRev1 Big d (t_pos tr) n
  end.

(* A file that has a slice at sample n, and that slice: a 3D file whose traces are
   complete, the longest with more than n samples. *)
Definition sliced_at (d : list Z) (n : Z) (t : segytype) (a : array2 real) : Prop :=
  exists r ts m rows cols, reads_as BinaryReelHeader d r /\ traces_of d TraceHeaderRev1 Big r t ts /\
    NoDup (map (fun t => (t_inline t, t_xline t)) ts) /\ greatest (map t_count ts) m /\ 0 <= n < m /\ (forall tr, In tr ts -> whole d t tr) /\
    ascending_items (map t_inline ts) rows /\ ascending_items (map t_xline ts) cols /\ grid (slice_cell d Big t ts n) rows cols a.

(* the name of the file np.save writes *)
Definition npy_file (out name : string) : Prop :=
  (exists stem, out = stem ++ ".npy" /\ name = out)%string \/ ((forall stem, out <> stem ++ ".npy") /\ name = out ++ ".npy")%string.
