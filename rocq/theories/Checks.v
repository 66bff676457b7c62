(* Model of the example that copies a file with a trace header format of its own
   and compares the copy with the original.  Printing is left out. *)
From Coq Require Import String ZArith List Bool.
From Verif Require Import Py PyFloat IbmFloat Packing Formats FileIO Text Toolkit Reader Catalog FieldTypes.
Import ListNotations.
Local Open Scope string_scope.
Open Scope list_scope.
Open Scope Z_scope.

(* [examples/check_equal.py:10-22] *)
Definition CustomTraceHeader : fmt :=
  derive "CustomTraceHeader"
    [mk_field "unassigned_1" Int16 233 0; mk_field "unassigned_2" Int16 235 0;
     mk_field "unassigned_3" Int16 237 0; mk_field "unassigned_4" Int16 239 0] TraceHeaderRev1.

(* n == f of an int and a float: exact
   [examples/check_equal.py:46] *)
Definition int_eq_float (n : Z) (f : float) : bool :=
  match f_as_integer_ratio f with Ok (num, den) => num =? n * den | Err _ => false end.
(* x == y of two samples, different objects
   [examples/check_equal.py:46, ibm_float.py:304-358] *)
Definition real_eq (x y : real) : res bool :=
  match x, y with
  | RInt m, RInt n => Ok (m =? n)
  | RFloat f, RFloat g => Ok (f_eq f g)
  | RIbm v, RIbm w => ibm_eq v w
  | RInt n, RFloat f | RFloat f, RInt n => Ok (int_eq_float n f)
  | RIbm w, RFloat f | RFloat f, RIbm w => ibm_eq_float w f
  | RIbm w, RInt n | RInt n, RIbm w => Ok (ibm_eq_rational w n 1)
  end.
(* the elements of two sequences of samples, up to the first that differ
   [examples/check_equal.py:46] *)
Fixpoint elements_eq (xs ys : list real) : res bool :=
  match xs, ys with
  | x :: xs, y :: ys => do b <- real_eq x y ;; if b then elements_eq xs ys else Ok false
  | _, _ => Ok true
  end.
(* data0 == data1 of two lists or two arrays of one type
   [examples/check_equal.py:46] *)
Definition samples_eq (xs ys : list real) : res bool :=
  if zlen xs =? zlen ys then elements_eq xs ys else Ok false.

(* [examples/check_equal.py:36-46] *)
Fixpoint compare_traces (native : endian) (rin : reader) (fin : file) (rout : reader) (fout : file) (ks : list Z) : res unit :=
  match ks with
  | [] => Ok tt
  | k :: ks =>
      do _ <- cat1_get (rd_offsets rin) k ;;
      let '(h0, fin) := rd_trace_header rin k None fin in
      do head0 <- h0 ;;
      let '(h1, fout) := rd_trace_header rout k None fout in
      do head1 <- h1 ;;
      do heads <- are_equal head0 head1 ;;
      if negb heads then Err AssertionError
      else
        let '(d0, fin) := rd_trace_samples native rin k None None fin in
        do data0 <- d0 ;;
        let '(d1, fout) := rd_trace_samples native rout k None None fout in
        do data1 <- d1 ;;
        do same <- samples_eq data0 data1 ;;
        if negb same then Err AssertionError
        else compare_traces native rin fin rout fout ks
  end.

(* create_reader(open(name, 'rb'), trace_header_format=tc): the other arguments
   have their defaults
   [examples/check_equal.py:31, 35; reader.py:38-46] *)
Definition open_default (tc : fmt) (d : list Z) : res reader * world :=
  create_reader (mk_attrs false false true) None BinaryReelHeader tc (Some Big) NoProgress None (mk_world (mk_file d 0) []).

(* The script, for any trace header format tc: its first file has the contents
   d, the second is new.  The contents of the second are given, too.  The reader
   is written as the dataset of Reader.v, whose answers do not depend on the
   position of its file (property C60).
   [examples/check_equal.py:25-46] *)
Definition check_equal (native : endian) (tc : fmt) (d : list Z) : res unit * list Z :=
  match open_default tc d with
  | (Err y, _) => (Err y, [])
  | (Ok rin, win) =>
      let '(done, w) := write_segy (reader_dataset native rin (mk_file d 0)) None tc Big NoProgress (mk_world (mk_file [] 0) []) in
      let d' := f_data (w_file w) in
      (do _ <- done ;;
       match open_default tc d' with
       | (Err y, _) => Err y
       | (Ok rout, wout) => compare_traces native rin (w_file win) rout (w_file wout) (rd_trace_indexes rin)
       end, d')
  end.
