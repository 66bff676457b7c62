(* Model of segpy-ext/segpy_numpy: util.py, dtypes.py, extract.py and the index
   arithmetic of array_dataset.py.  Paths below are relative to
   segpy-ext/segpy_numpy/segpy_numpy.

   Arrays.  A two-dimensional array is the list of its rows.  A cell is None
   while nothing has been assigned to it (it is masked, or holds the null
   value), else Some of the value assigned.  Numpy's conversion of that value to
   the dtype of the array is not modelled. *)
From Coq Require Import String ZArith List Bool.
From Verif Require Import Py PyFloat IbmFloat Util Catalog Packing FileIO Text Float32 Toolkit Reader.
Import ListNotations.
Local Open Scope string_scope.
Open Scope list_scope.
Open Scope Z_scope.

(* ------------------------------------------------------------------ *)
(* Slices.                                                              *)

(* slice(start, stop, step)
   [util.py:47-48] *)
Record pslice : Set := mk_slice { sl_start : option Z; sl_stop : option Z; sl_step : option Z }.

(* slice.indices(n) as a range of positions: CPython PySlice_AdjustIndices
   [util.py:48] *)
Definition slice_positions (s : pslice) (n : Z) : res prange :=
  let step := match sl_step s with None => 1 | Some v => v end in
  if step =? 0 then Err ValueError
  else
    let lower := if step <? 0 then -1 else 0 in
    let upper := if step <? 0 then n - 1 else n in
    let adjust v := if v <? 0 then Z.max (v + n) lower else Z.min v upper in
    let start := match sl_start s with
                 | None => if step <? 0 then upper else lower
                 | Some v => adjust v
                 end in
    let stop := match sl_stop s with
                | None => if step <? 0 then lower else upper
                | Some v => adjust v
                end in
    Ok (mk_range start stop step).

(* l[s] for a list, tuple or array.array
   [util.py:48, extract.py:267, 356] *)
Definition list_slice {A} (l : list A) (s : pslice) : res (list A) :=
  do p <- slice_positions s (zlen l) ;; map_res (py_get l) (range_list p).

(* range[s]: CPython compute_slice
   [util.py:48] *)
Definition range_slice (r : prange) (s : pslice) : res prange :=
  do p <- slice_positions s (range_len r) ;;
  Ok (mk_range (r_start r + r_start p * r_step r) (r_start r + r_stop p * r_step r) (r_step p * r_step r)).

(* sequence[s] for a range, a SortedFrozenSet (segpy/sorted_frozen_set.py:30-32),
   a ReversedSequenceView (segpy/reversed_sequence_view.py:18-20: its index
   arithmetic fails on a slice) *)
Definition sseq_slice (q : sseq) (s : pslice) : res sseq :=
  match q with
  | QRange r => do r' <- range_slice r s ;; Ok (QRange r')
  | QSet l => do l' <- list_slice l s ;; Ok (QSet (sfs_new l'))
  | QRev _ => Err TypeError
  end.

(* ------------------------------------------------------------------ *)
(* util.py                                                              *)

(* util.py:4-14 is_range_superset_of_range; x % y of Python is Z.modulo *)
Definition is_range_superset_of_range (superset subset : prange) : res bool :=
  if negb (range_mem superset (r_start subset)) then Ok false
  else if negb (r_step subset mod r_step superset =? 0) then Ok false
  else
    do sub_last <- range_get subset (-1) ;;
    do sup_last <- range_get superset (-1) ;;
    if sup_last <? sub_last then Ok false
    else if forallb (range_mem superset) (range_list subset) then Ok true
    else Err AssertionError.

(* util.py:17-27 is_superset.  Neither argument is ever a set here (a
   SortedFrozenSet is not one), so the third and fourth tests fail. *)
Definition is_superset (superset subset : sseq) : res bool :=
  match superset, subset with
  | QRange sup, QRange sub => is_range_superset_of_range sup sub
  | QRange sup, _ => Ok (forallb (range_mem sup) (sseq_list subset))
  | _, _ => Ok (forallb (fun x => zmem x (sseq_list superset)) (sseq_list subset))
  end.

(* what may be passed to choose from a sequence
   [util.py:45-54] *)
Inductive choice : Set := Everything | Sliced (s : pslice) | Items (it : iterable).

(* util.py:30-53 ensure_superset *)
Definition ensure_superset (superset : sseq) (subset : choice) : res sseq :=
  match subset with
  | Everything => Ok superset
  | Sliced s => sseq_slice superset s
  | Items it =>
      do sub <- make_sorted_distinct_sequence it SAscending ;;
      do b <- is_superset superset sub ;;
      if b then Ok sub else Err ValueError
  end.

(* ------------------------------------------------------------------ *)
(* dtypes.py
   [dtypes.py:5-9] *)
Inductive dtype : Set := D_f4 | D_i4 | D_i2 | D_i1.

(* dtypes.py:5-9 NUMPY_DTYPES, 12-31 make_dtype *)
Definition make_dtype (t : segytype) : res dtype :=
  match t with
  | T_IBM => Ok D_f4
  | T_INT32 => Ok D_i4
  | T_INT16 => Ok D_i2
  | T_FLOAT32 => Ok D_f4
  | T_INT8 => Ok D_i1
  | _ => Err ValueError
  end.

(* The SEG_Y_TYPE of a header field type; a field type of the model has the C
   type instead (segpy/datatypes.py:52-60 is one-to-one on integers) *)
Definition field_segy_type (t : ftype) : segytype :=
  match ft_ctype t with
  | C_i => T_INT32 | C_I => T_NNINT32
  | C_h => T_INT16 | C_H => T_NNINT16
  | C_b => T_INT8 | C_B => T_NNINT8
  end.

(* ------------------------------------------------------------------ *)
(* array_dataset.py, for an array of inlines x crosslines x samples     *)

(* array_dataset.py:187-191 CompleteStrategy.trace_indexes *)
Definition complete_trace_indexes (inlines xlines : Z) : prange := mk_range 0 (inlines * xlines) 1.

(* array_dataset.py:193-198 CompleteStrategy.inline_xline_index.  divmod by zero
   raises ZeroDivisionError. *)
Definition complete_inline_xline_index (inlines xlines k : Z) : res (Z * Z) :=
  if inlines =? 0 then Err ZeroDivisionError
  else
    let i := k / inlines in
    let j := k mod inlines in
    if negb ((0 <=? i) && (i <? inlines) && ((0 <=? j) && (j <? xlines))) then Err ValueError
    else Ok (i, j).

(* array_dataset.py:159-171 IncompleteStrategy.trace_indexes: the dataset has no
   attribute _trace_has_samples, and an empty builder creates None, which has
   no keys() *)
Definition incomplete_trace_indexes (inlines xlines : Z) : res (list Z) := Err AttributeError.
(* array_dataset.py:173-178 IncompleteStrategy.inline_xline_index: the catalog is
   still None, since trace_indexes() has never succeeded *)
Definition incomplete_inline_xline_index (inlines xlines k : Z) : res (Z * Z) := Err TypeError.

(* array_dataset.py:98-102 ArrayDataset3d.trace_header and trace_samples return
   None: the class is unfinished *)

(* ------------------------------------------------------------------ *)
(* extract.py
   [loops; no line of its own] *)
Fixpoint map_io {A B} (f : A -> io B) (l : list A) : io (list B) :=
  match l with
  | [] => ret []
  | x :: l => run y <- f x ;; run ys <- map_io f l ;; ret (y :: ys)
  end.

(* [extract.py:427-433] *)
Definition array2 (A : Type) : Type := list (list (option A)).

(* namedtuple(name, field_names): a name that occurs twice raises ValueError.
   (Other invalid names cannot be those of header fields declared in a class
   body, except names starting with an underscore, which no shipped format
   has.)
   [extract.py:40, 119] *)
Fixpoint distinct_names (l : list string) : bool :=
  match l with [] => true | x :: l => negb (smem x l) && distinct_names l end.
(* [extract.py:40, 119] *)
Definition namedtuple_check (names : list string) : res unit :=
  if distinct_names names then Ok tt else Err ValueError.

(* [extract.py:34-39, 113-118] *)
Definition sub_packer (r : reader) (names : list string) : res (fmt * packer) :=
  do sub <- sub_format "SubFormat" (pk_cls (rd_packer r)) names ;;
  do p <- make_header_packer sub (rd_endian r) ;;
  Ok (sub, p).

(* make_dtype(getattr(SubFormat, field_name).value_type.SEG_Y_TYPE)
   [extract.py:47, 122] *)
Definition field_dtype (sub : fmt) (name : string) : res dtype :=
  match class_field sub name with
  | Some f => make_dtype (field_segy_type (fd_type f))
  | None => Err AttributeError
  end.

(* extract.py:13-52 extract_trace_headers; `fields` are given by their names
   (_extract_field_name 436-447) *)
Definition extract_trace_headers (r : reader) (names : list string) (indexes : option (list Z))
  : io (list (string * list Z)) :=
  let ks := match indexes with None => rd_trace_indexes r | Some ks => ks end in
  run sp <- lift (sub_packer r names) ;;
  run _ <- lift (namedtuple_check names) ;;
  run hs <- map_io (fun k => rd_trace_header r k (Some (snd sp))) ks ;;
  lift (map_res (fun n => do _ <- field_dtype (fst sp) n ;;
                          do vs <- map_res (fun h => hdr_get h n) hs ;; Ok (n, vs)) names).

(* The loops below run over the positions of an array in row-major order, and
   assign each cell at most once, so the array is built from its first row to
   its last. *)

(* `if reader_3d.has_trace_index(key): k = reader_3d.trace_index(key); ...`
   [extract.py:131-132, 248-249, 337-338, 420-421] *)
Definition at_trace {A} (r : reader) (key : Z * Z) (absent : A) (present : Z -> io A) : io A :=
  run b <- lift (rd_has_trace_index3 r key) ;;
  if b then run k <- lift (rd_trace_index3 r key) ;; present k else ret absent.

(* extract.py:55-139 extract_trace_header_field_3d: one array per name.  The
   cells of all arrays at one position are assigned from one header, so the model
   builds one array of lists of values. *)
Definition extract_trace_header_field_3d (r : reader) (names : list string) (inlines xlines : choice)
  : io (array2 (list Z)) :=
  run i_all <- lift (rd_inline_numbers r) ;;
  run i_nums <- lift (ensure_superset i_all inlines) ;;
  run j_all <- lift (rd_xline_numbers r) ;;
  run j_nums <- lift (ensure_superset j_all xlines) ;;
  run sp <- lift (sub_packer r names) ;;
  run _ <- lift (namedtuple_check names) ;;
  run _ <- lift (map_res (field_dtype (fst sp)) names) ;;
  map_io (fun i =>
    map_io (fun j =>
      at_trace r (i, j) None (fun k =>
        run h <- rd_trace_header r k (Some (snd sp)) ;;
        run vs <- lift (map_res (hdr_get h) names) ;;
        ret (Some vs))) (sseq_list j_nums)) (sseq_list i_nums).

(* extract.py:142-178 extract_trace on an integer trace_index.  A plain reader
   has no has_trace_index; that of a 3D reader unpacks or looks up a pair; that
   of a 2D reader takes a CDP number. *)
Definition has_trace_index_int (r : reader) (k : Z) : res bool :=
  match rd_kind r with
  | Plain => Err AttributeError
  | Kind2D c => Ok (cat1_mem c k)
  | Kind3D (Some (C2Dict _ _ _)) => Ok false
  | Kind3D (Some _) => Err TypeError
  | Kind3D None => Ok false
  end.
(* [extract.py:142-178] *)
Definition extract_trace (native : endian) (r : reader) (k : Z) (samples : choice) : io (list real) :=
  run b <- lift (has_trace_index_int r k) ;;
  if negb b then raise ValueError
  else
    run m <- lift (rd_max_num_trace_samples r) ;;
    run nums <- lift (ensure_superset (QRange (mk_range 0 m 1)) samples) ;;
    run start <- lift (sseq_get nums 0) ;;
    run lst <- lift (sseq_get nums (-1)) ;;
    run n <- lift (rd_num_trace_samples r k) ;;
    run ss <- rd_trace_samples native r k (Some start) (Some (Z.min (lst + 1) n)) ;;
    run t <- lift (sample_format (rd_binary r)) ;;
    run _ <- lift (make_dtype t) ;;
    lift (map_res (fun s => py_get ss (s - start)) (sseq_list nums)).

(* array[row, :] = values for a row of n cells: Numpy repeats a single value
   [extract.py:267, 356] *)
Definition assign_row {A} (n : Z) (values : list A) : res (list (option A)) :=
  if zlen values =? n then Ok (map Some values)
  else match values with
       | [v] => Ok (zrepeat (Some v) n)
       | _ => Err ValueError
       end.

(* one row of extract.py:245-255 _populate_inline_array_numbered_samples and
   334-344 _populate_xline_array_numbered_samples: the trace k *)
Definition numbered_row (native : endian) (r : reader) (nums : sseq) (k : Z) : io (list (option real)) :=
  run n <- lift (rd_num_trace_samples r k) ;;
  run start <- lift (sseq_get nums 0) ;;
  run lst <- lift (sseq_get nums (-1)) ;;
  run ss <- rd_trace_samples native r k (Some start) (Some (Z.min (lst + 1) n)) ;;
  lift (map_res (fun s => do v <- py_get ss (s - start) ;; Ok (Some v)) (sseq_list nums)).

(* one row of extract.py:258-267 _populate_inline_array_over_sample_range and
   347-356 _populate_xline_array_over_sample_range *)
Definition range_row (native : endian) (r : reader) (nums : prange) (k : Z) : io (list (option real)) :=
  run n <- lift (rd_num_trace_samples r k) ;;
  run ss <- rd_trace_samples native r k None None ;;
  run part <- lift (list_slice ss (mk_slice (Some (r_start nums)) (Some (Z.min (r_stop nums) n)) (Some (r_step nums)))) ;;
  lift (assign_row (range_len nums) part).

(* [extract.py:237-240, 326-329] *)
Definition sample_row (native : endian) (r : reader) (nums : sseq) (k : Z) : io (list (option real)) :=
  match nums with
  | QRange q => range_row native r q k
  | _ => numbered_row native r nums k
  end.

(* extract.py:181-242 extract_inline_3d *)
Definition extract_inline_3d (native : endian) (r : reader) (inline : Z) (xlines samples : choice) : io (array2 real) :=
  run i_all <- lift (rd_inline_numbers r) ;;
  if negb (sseq_mem i_all inline) then raise ValueError
  else
    run j_all <- lift (rd_xline_numbers r) ;;
    run j_nums <- lift (ensure_superset j_all xlines) ;;
    run m <- lift (rd_max_num_trace_samples r) ;;
    run nums <- lift (ensure_superset (QRange (mk_range 0 m 1)) samples) ;;
    run t <- lift (sample_format (rd_binary r)) ;;
    run _ <- lift (make_dtype t) ;;
    map_io (fun j => at_trace r (inline, j) (zrepeat None (sseq_len nums)) (sample_row native r nums)) (sseq_list j_nums).

(* extract.py:270-331 extract_xline_3d *)
Definition extract_xline_3d (native : endian) (r : reader) (xline : Z) (inlines samples : choice) : io (array2 real) :=
  run j_all <- lift (rd_xline_numbers r) ;;
  if negb (sseq_mem j_all xline) then raise ValueError
  else
    run i_all <- lift (rd_inline_numbers r) ;;
    run i_nums <- lift (ensure_superset i_all inlines) ;;
    run m <- lift (rd_max_num_trace_samples r) ;;
    run nums <- lift (ensure_superset (QRange (mk_range 0 m 1)) samples) ;;
    run t <- lift (sample_format (rd_binary r)) ;;
    run _ <- lift (make_dtype t) ;;
    map_io (fun i => at_trace r (i, xline) (zrepeat None (sseq_len nums)) (sample_row native r nums)) (sseq_list i_nums).

(* extract.py:359-424 extract_timeslice_3d *)
Definition extract_timeslice_3d (native : endian) (r : reader) (n : Z) (inlines xlines : choice) : io (array2 real) :=
  run i_all <- lift (rd_inline_numbers r) ;;
  run i_nums <- lift (ensure_superset i_all inlines) ;;
  run j_all <- lift (rd_xline_numbers r) ;;
  run j_nums <- lift (ensure_superset j_all xlines) ;;
  run t <- lift (sample_format (rd_binary r)) ;;
  run _ <- lift (make_dtype t) ;;
  map_io (fun i =>
    map_io (fun j =>
      at_trace r (i, j) None (fun k =>
        run ss <- rd_trace_samples native r k (Some n) (Some (n + 1)) ;;
        run v <- lift (py_get ss 0) ;;
        ret (Some v))) (sseq_list j_nums)) (sseq_list i_nums).
