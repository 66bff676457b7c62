(* trace_header and trace_samples of a reader as the sequence of what they ask of
   the file object, as create_reader is in Growing.v.  No proofs here; that these
   are those of Reader.v is C142_steps. *)
From Coq Require Import String ZArith List Bool.
From Verif Require Import Py PyFloat IbmFloat Util Catalog Packing Formats FileIO Text TextIO Float32 Toolkit Reader Growing.
Import ListNotations.
Open Scope list_scope.
Open Scope Z_scope.

(* toolkit.py:431-458 read_trace_header with a position *)
Definition header_steps (p : packer) (pos : Z) : steps header :=
  step _ <- s_seek pos ;;
  step data <- s_read TRACE_HEADER_NUM_BYTES ;;
  Fin (match pk_unpack p data with Err ValueError => Err EOFError | r => r end).
(* reader.py:498-515 trace_header *)
Definition trace_header_steps (r : reader) (k : Z) (override : option packer) : steps header :=
  if negb ((0 <=? k) && (k <? rd_num_traces r)) then Fin (Err ValueError)
  else
    step pos <- Fin (cat1_get (rd_offsets r) k) ;;
    header_steps (match override with Some p => p | None => rd_packer r end) pos.

(* toolkit.py:461-496 read_binary_values with a position; the number of items is
   not negative when trace_samples calls it *)
Definition values_steps (native : endian) (pos : Z) (t : segytype) (num_items : Z) (e : endian) : steps (list real) :=
  let block_size := size_in_bytes (ctype_of t) * num_items in
  step _ <- s_seek pos ;;
  step buf <- s_read block_size ;;
  if zlen buf <? block_size then Fin (Err EOFError)
  else
    step values <- Fin (unpack_samples native e (ctype_of t) buf num_items) ;;
    if zlen values =? num_items then Fin (Ok values) else Fin (Err AssertionError).
(* reader.py:452-496 trace_samples *)
Definition trace_samples_steps (native : endian) (r : reader) (k : Z) (start stop : option Z) : steps (list real) :=
  if negb ((0 <=? k) && (k <? rd_num_traces r)) then Fin (Err ValueError)
  else
    step n <- Fin (rd_num_trace_samples r k) ;;
    let start_sample := match start with Some s => s | None => 0 end in
    let stop_sample := match stop with Some s => s | None => n end in
    if negb ((0 <=? stop_sample) && (stop_sample <=? n)) then Fin (Err ValueError)
    else if negb ((0 <=? start_sample) && (start_sample <=? stop_sample)) then Fin (Err ValueError)
    else
      step t <- Fin (sample_format (rd_binary r)) ;;
      step offset <- Fin (cat1_get (rd_offsets r) k) ;;
      let start_pos := offset + TRACE_HEADER_NUM_BYTES + start_sample * size_in_bytes (ctype_of t) in
      values_steps native start_pos t (stop_sample - start_sample) (rd_endian r).
