(* Model of the commands that report on a file: `segpy metadata` and
   `segpy report`, and of the examples that slice a file in time and list the
   positions of its traces.  Command lines, exit codes, the opening of files and
   the layout of what is printed are left out: a command is modelled by the
   values it prints or saves. *)
From Coq Require Import String ZArith List Bool.
From Verif Require Import Py PyFloat IbmFloat Util Catalog Packing FileIO Text Toolkit Reader NumpyExt.
Import ListNotations.
Local Open Scope string_scope.
Open Scope list_scope.
Open Scope Z_scope.

(* ------------------------------------------------------------------ *)
(* examples/timeslice.py                                                *)

(* the n-th item replaced
   [item assignment of an array; no line of its own] *)
Fixpoint set_nth {A} (n : nat) (v : A) (l : list A) : list A :=
  match l, n with
  | [], _ => []
  | _ :: l, O => v :: l
  | x :: l, S n => x :: set_nth n v l
  end.
(* timeslice[i, j] = v.  The positions come from index(), so none is negative;
   one past the end is an IndexError.
   [timeslice.py:86] *)
Definition array_set {A} (a : array2 A) (i j : Z) (v : option A) : res (array2 A) :=
  do row <- py_get a i ;;
  do _ <- py_get row j ;;
  Ok (set_nth (Z.to_nat i) (set_nth (Z.to_nat j) v row) a).

(* The sample of one trace; the null value is None as in the arrays of NumpyExt.
   [timeslice.py:75-81] *)
Definition slice_sample (native : endian) (r : reader) (n : Z) (key : Z * Z) : io (option real) :=
  run k <- lift (rd_trace_index3 r key) ;;
  run trace <- rd_trace_samples native r k None None ;;
  match py_get trace n with
  | Ok v => ret (Some v)
  | Err IndexError => ret None
  | Err y => raise y
  end.

(* [timeslice.py:74-86] *)
Fixpoint fill_slice (native : endian) (r : reader) (n : Z) (i_nums j_nums : sseq) (keys : list (Z * Z)) (a : array2 real)
  : io (array2 real) :=
  match keys with
  | [] => ret a
  | key :: keys =>
      run v <- slice_sample native r n key ;;
      run i <- lift (sseq_index i_nums (fst key)) ;;
      run j <- lift (sseq_index j_nums (snd key)) ;;
      run a' <- lift (array_set a i j v) ;;
      fill_slice native r n i_nums j_nums keys a'
  end.

(* timeslice.py:43-88 extract_timeslice with dtype=None, from the opened reader
   to the array handed to np.save.  The message of the DimensionalityError is
   formatted with "{n}" and a positional argument, which raises KeyError before
   the exception is made.  The message of the ValueError mixes "{0}" and "{}",
   which raises ValueError itself. *)
Definition timeslice (native : endian) (r : reader) (n : Z) : io (array2 real) :=
  run t <- lift (sample_format (rd_binary r)) ;;
  run _ <- lift (make_dtype t) ;;
  if negb (rd_dimensionality r =? 3) then raise KeyError
  else
    run i_nums <- lift (rd_inline_numbers r) ;;
    run j_nums <- lift (rd_xline_numbers r) ;;
    run t_size <- lift (rd_max_num_trace_samples r) ;;
    if negb ((0 <=? n) && (n <? t_size)) then raise ValueError
    else
      run keys <- lift (rd_inline_xline_numbers r) ;;
      fill_slice native r n i_nums j_nums keys (zrepeat (zrepeat None (sseq_len j_nums)) (sseq_len i_nums)).

(* ------------------------------------------------------------------ *)
(* examples/trace_positions.py                                          *)

(* trace_positions.py:39-43: one printed line per trace, with its index and
   position.  Lines printed before an exception are left out. *)
Definition trace_positions (r : reader) : io (list (Z * (Z * Z))) :=
  map_io (fun k =>
    run h <- rd_trace_header r k None ;;
    run x <- lift (hdr_get h "cdp_x") ;;
    run y <- lift (hdr_get h "cdp_y") ;;
    ret (k, (x, y))) (rd_trace_indexes r).

(* ------------------------------------------------------------------ *)
(* segpy metadata, segpy report                                         *)

(* the dictionary printed as JSON
   [cli.py:54-62] *)
Record meta : Set := mk_meta { me_traces : Z; me_dimensionality : Z; me_format : segytype; me_max_samples : Z }.
(* cli.py:47-64 handle_metadata.  SegYType is a str, which JSON can hold. *)
Definition metadata (r : reader) : res meta :=
  do t <- sample_format (rd_binary r) ;;
  do m <- rd_max_num_trace_samples r ;;
  Ok (mk_meta (rd_num_traces r) (rd_dimensionality r) t m).

(* datatypes.py:64-72 SEG_Y_TYPE_DESCRIPTION *)
Definition description (t : segytype) : string :=
  match t with
  | T_IBM => "IBM 32 bit float"
  | T_INT32 => "32 bit signed integer"
  | T_NNINT32 => "32 bit non-negative integer"
  | T_INT16 => "16 bit signed integer"
  | T_NNINT16 => "16 bit non-negative integer"
  | T_FLOAT32 => "IEEE float32"
  | T_INT8 => "8 bit signed integer (byte)"
  | T_NNINT8 => "8 bit unsigned integer (byte)"
  end.
(* dataset.py:93-97 data_sample_format_description *)
Definition format_description (h : header) : res string :=
  do t <- sample_format h ;; Ok (description t).

(* try: print(...) except AttributeError: pass
   [cli.py:85-94; report.py:30-39] *)
Definition attempt {A} (x : res A) : res (option A) :=
  match x with
  | Ok a => Ok (Some a)
  | Err AttributeError => Ok None
  | Err y => Err y
  end.
(* reader.py:669-671, 691-693 num_inlines, num_xlines *)
Definition rd_num_inlines (r : reader) : res Z := do s <- rd_inline_numbers r ;; Ok (sseq_len s).
(* [reader.py:691-693] *)
Definition rd_num_xlines (r : reader) : res Z := do s <- rd_xline_numbers r ;; Ok (sseq_len s).

(* the values of a report; None for a line left out
   [cli.py:77-104] *)
Record summary : Type := mk_summary {
  su_revision : Z; su_traces : Z; su_format : string; su_dimensionality : Z;
  su_cdps : option Z; su_inlines : option Z; su_xlines : option Z;
  su_text : list text; su_ext : list (list text) }.
(* cli.py:67-104 report (examples/report.py:18-49 report_segy prints the same).
   The name of the file is left out. *)
Definition report_of (r : reader) : res summary :=
  do d <- format_description (rd_binary r) ;;
  do cdps <- attempt (rd_num_cdps r) ;;
  do inlines <- attempt (rd_num_inlines r) ;;
  do xlines <- match inlines with Some _ => attempt (rd_num_xlines r) | None => Ok None end ;;
  Ok (mk_summary (rd_revision r) (rd_num_traces r) d (rd_dimensionality r) cdps inlines xlines
    (map (skipn 3) (rd_text r)) (rd_ext r)).
