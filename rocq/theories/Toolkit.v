(* Model of segpy/datatypes.py, segpy/revisions.py and the functions of
   segpy/toolkit.py that read and write binary headers, trace headers and
   samples and scan a file for its traces.  No proofs here. *)
From Coq Require Import String ZArith List Bool.
From Verif Require Import Py PyFloat IbmFloat Util Catalog Packing Formats FileIO Text TextIO Float32.
Import ListNotations.
Local Open Scope string_scope.
Open Scope list_scope.
Open Scope Z_scope.

(* ------------------------------------------------------------------ *)
(* datatypes.py                                                         *)

(* datatypes.py:28-36 SegYType *)
Inductive segytype : Set :=
| T_INT32 | T_NNINT32 | T_INT16 | T_NNINT16 | T_INT8 | T_NNINT8 | T_FLOAT32 | T_IBM.

(* datatypes.py:39-44 DATA_SAMPLE_FORMAT_TO_SEG_Y_TYPE[code] *)
Definition segy_type_of (dsf : Z) : res segytype :=
  match dsf with
  | 1 => Ok T_IBM | 2 => Ok T_INT32 | 3 => Ok T_INT16 | 5 => Ok T_FLOAT32 | 8 => Ok T_INT8
  | _ => Err KeyError
  end.

(* a format character of SEG_Y_TYPE_TO_CTYPE: an integer one, 'f' or 'ibm'
   [datatypes.py:52-60] *)
Inductive sampletype : Set := S_int (c : ctype) | S_f | S_ibm.

(* datatypes.py:52-60 SEG_Y_TYPE_TO_CTYPE *)
Definition ctype_of (t : segytype) : sampletype :=
  match t with
  | T_INT32 => S_int C_i | T_NNINT32 => S_int C_I
  | T_INT16 => S_int C_h | T_NNINT16 => S_int C_H
  | T_INT8 => S_int C_b | T_NNINT8 => S_int C_B
  | T_FLOAT32 => S_f | T_IBM => S_ibm
  end.

(* datatypes.py:76-84 CTYPE_TO_SIZE, 99-105 size_in_bytes *)
Definition size_in_bytes (c : sampletype) : Z :=
  match c with S_int c => ctype_size c | S_f => 4 | S_ibm => 4 end.

(* ------------------------------------------------------------------ *)
(* revisions.py:23-27 VARIANTS, 34-53 canonicalize_revision             *)
Definition canonicalize_revision (revision : Z) : res Z :=
  match revision with
  | 0 => Ok 0 | 256 => Ok 256 | 1 => Ok 256 | 100 => Ok 256
  | _ => Err SegYRevisionError
  end.

(* toolkit.py:36-48 extract_revision *)
Definition extract_revision (h : header) : res Z :=
  do raw <- hdr_get h "format_revision_num" ;; canonicalize_revision raw.

(* toolkit.py:51-62 num_extended_textual_headers *)
Definition num_extended_textual_headers (h : header) : res Z := hdr_get h "num_extended_textual_headers".

(* toolkit.py:65-85 bytes_per_sample *)
Definition bytes_per_sample (h : header) : res Z :=
  do dsf <- hdr_get h "data_sample_format" ;;
  match segy_type_of dsf with
  | Ok t => Ok (size_in_bytes (ctype_of t))
  | Err _ => Err ValueError
  end.

(* [toolkit.py:31] *)
Definition TRACE_HEADER_NUM_BYTES : Z := 240.

(* fh.read(): everything from the position
   [toolkit.py:181] *)
Definition read_all : io (list Z) := fun f =>
  let b := skipn (Z.to_nat (f_pos f)) (f_data f) in
  (Ok b, mk_file (f_data f) (f_pos f + zlen b)).
(* fh.read(n) for any n, None included
   [toolkit.py:181, 486] *)
Definition read_opt (n : option Z) : io (list Z) :=
  match n with Some n => if n <? 0 then read_all else read n | None => read_all end.

(* toolkit.py:168-183 read_binary_reel_header *)
Definition read_binary_reel_header (c : fmt) (e : endian) : io header :=
  run p <- lift (make_header_packer c e) ;;
  run buffer <- read_opt (fmt_length c) ;;
  lift (pk_unpack p buffer).

(* toolkit.py:682-696 write_binary_reel_header; type(header) is its class *)
Definition write_binary_reel_header (h : header) (e : endian) : io unit :=
  run p <- lift (make_header_packer (h_cls h) e) ;;
  run buffer <- lift (pk_pack p h) ;;
  write buffer.

(* toolkit.py:431-458 read_trace_header.  Only the unpacking is inside the try. *)
Definition read_trace_header (p : packer) (pos : option Z) : io header :=
  run pos <- match pos with None => tell | Some pos => ret pos end ;;
  run _ <- seek pos ;;
  run data <- read TRACE_HEADER_NUM_BYTES ;;
  lift (match pk_unpack p data with Err ValueError => Err EOFError | r => r end).

(* toolkit.py:792-804 write_trace_header *)
Definition write_trace_header (h : header) (p : packer) : io unit :=
  run buf <- lift (pk_pack p h) ;; write buf.

(* ------------------------------------------------------------------ *)
(* samples.  A sample is an int, a float or an IBMFloat.                *)

(* struct.pack of one value with an integer format character: only an int has
   __index__
   [toolkit.py:858] *)
Definition pack_int_sample (e : endian) (c : ctype) (r : real) : res (list Z) :=
  match r with RInt n => pack_int e c n | _ => Err StructError end.

(* toolkit.py:845-858 pack_values *)
Definition pack_samples (e : endian) (c : sampletype) (values : list real) : res (list Z) :=
  match c with
  | S_int c => do bs <- map_res (pack_int_sample e c) values ;; Ok (concat bs)
  | S_f => do bs <- map_res (f32_pack e) values ;; Ok (concat bs)
  | S_ibm => ibm_pack values
  end.

(* toolkit.py:499-517 unpack_values; native is the machine's byte order *)
Definition unpack_samples (native e : endian) (c : sampletype) (buf : list Z) (num_items : Z) : res (list real) :=
  match c with
  | S_int c => rmap (map RInt) (unpack_values native e c buf)
  | S_f => rmap (map (fun b => RFloat (f32_decode b))) (unpack_values native e C_I buf)
  | S_ibm => rmap (map RIbm) (ibm_unpack buf num_items)
  end.

(* toolkit.py:823-842 write_binary_values, 807-820 write_trace_samples *)
Definition write_binary_values (values : list real) (t : segytype) (e : endian) : io unit :=
  run buf <- lift (pack_samples e (ctype_of t) values) ;; write buf.

(* toolkit.py:461-496 read_binary_values *)
Definition read_binary_values (native : endian) (pos : option Z) (t : segytype) (num_items : Z) (e : endian)
  : io (list real) :=
  let ctype := ctype_of t in
  let block_size := size_in_bytes ctype * num_items in
  run pos <- match pos with None => tell | Some pos => ret pos end ;;
  run _ <- seek pos ;;
  run buf <- read_opt (Some block_size) ;;
  if zlen buf <? block_size then raise EOFError
  else
    run values <- lift (unpack_samples native e ctype buf num_items) ;;
    if zlen values =? num_items then ret values else raise AssertionError.

(* ------------------------------------------------------------------ *)
(* A file together with the calls a progress callback has received.  A
   progress value num/den is kept as (num, den); Python's division rounds it
   to the nearest float, which keeps order and the values 0 and 1.  The
   callback is assumed not to raise.
   [the file object and the calls of toolkit.py:391, 410-423, writer.py:59-61] *)
Record world : Type := mk_world { w_file : file; w_log : list (Z * Z) }.
(* [statements; no line of their own] *)
Definition wio (A : Type) : Type := world -> res A * world.
(* [statements; no line of their own] *)
Definition wret {A} (a : A) : wio A := fun w => (Ok a, w).
(* [raise statements] *)
Definition wraise {A} (e : exn) : wio A := fun w => (Err e, w).
(* [statements; no line of their own] *)
Definition on_file {A} (m : io A) : wio A := fun w =>
  let (r, f) := m (w_file w) in (r, mk_world f (w_log w)).
(* [statements; no line of their own] *)
Definition wbind {A B} (m : wio A) (k : A -> wio B) : wio B := fun w =>
  match m w with (Ok a, w') => k a w' | (Err e, w') => (Err e, w') end.
Notation "'go' x <- m ;; k" := (wbind m (fun x => k))
  (at level 200, x pattern, m at level 100, k at level 200, right associativity).

(* progress_callback(num / den); ZeroDivisionError when den = 0
   [toolkit.py:391, 410-423, reader.py:157, writer.py:59, 61] *)
Definition report (num den : Z) : wio unit := fun w =>
  if den =? 0 then (Err ZeroDivisionError, w)
  else (Ok tt, mk_world (w_file w) (w_log w ++ [(num, den)])).

(* the progress argument: None, a callable, or something else.  A missing
   callback is modelled as one whose calls nobody looks at.
   [toolkit.py:363-366, reader.py:133-136, writer.py:38-41] *)
Inductive progress_arg : Set := NoProgress | Callable | NotCallable.

(* ------------------------------------------------------------------ *)
(* toolkit.py:311-428 catalog_traces                                    *)

(* toolkit.py:368-377 the parent_field_names of CatalogSubFormat *)
Definition catalog_field_names : list string :=
  ["file_sequence_num"; "ensemble_num"; "num_samples"; "inline_number"; "crossline_number"].

(* the four CatalogBuilders: items added so far, in order
   [toolkit.py:385-388] *)
Record builders : Type := mk_builders {
  b_lengths : list (Z * Z); b_offsets : list (Z * Z);
  b_lines : list ((Z * Z) * Z); b_cdps : list (Z * Z) }.

(* toolkit.py:390-408 the loop, with fuel; _READ_PROPORTION is 0.75 *)
Fixpoint catalog_loop (fuel : nat) (p : packer) (bps length trace_number pos_begin : Z) (b : builders)
  : wio builders :=
  match fuel with
  | O => wraise OutOfFuel
  | S fuel =>
      go _ <- report (3 * pos_begin) (4 * length) ;;
      go _ <- on_file (seek pos_begin) ;;
      go data <- on_file (read TRACE_HEADER_NUM_BYTES) ;;
      if zlen data <? TRACE_HEADER_NUM_BYTES then wret b
      else
        go h <- on_file (lift (pk_unpack p data)) ;;
        go num_samples <- on_file (lift (hdr_get h "num_samples")) ;;
        go inline <- on_file (lift (hdr_get h "inline_number")) ;;
        go crossline <- on_file (lift (hdr_get h "crossline_number")) ;;
        go ensemble <- on_file (lift (hdr_get h "ensemble_num")) ;;
        catalog_loop fuel p bps length (trace_number + 1)
          (pos_begin + TRACE_HEADER_NUM_BYTES + num_samples * bps)
          (mk_builders (b_lengths b ++ [(trace_number, num_samples)])
                       (b_offsets b ++ [(trace_number, pos_begin)])
                       (b_lines b ++ [((inline, crossline), trace_number)])
                       (b_cdps b ++ [(ensemble, trace_number)]))
  end.

(* [toolkit.py:425-428] *)
Definition catalogs : Type := (option catalog1 * option catalog1 * option catalog1 * option catalog2)%type.

(* the whole function, for a callable (or absent) progress argument; fuel
   bounds the number of rounds of the loop
   [toolkit.py:311-428] *)
Definition catalog_traces_fuel (fuel : nat) (bps : Z) (c : fmt) (e : endian) : wio catalogs :=
  go sub <- on_file (lift (sub_format "CatalogSubFormat" c catalog_field_names)) ;;
  go p <- on_file (lift (make_header_packer sub e)) ;;
  go length <- on_file file_length ;;
  go pos_begin <- on_file tell ;;
  go b <- catalog_loop fuel p bps length 0 pos_begin (mk_builders [] [] [] []) ;;
  go _ <- report 3 4 ;;
  go offsets <- on_file (lift (fst (create1 (b_offsets b)))) ;;
  go _ <- report 15 16 ;;
  go lengths <- on_file (lift (fst (create1 (b_lengths b)))) ;;
  go _ <- report 9 8 ;;
  go cdps <- on_file (lift (fst (create1 (b_cdps b)))) ;;
  go _ <- report 21 16 ;;
  go lines <- on_file (lift (fst (create2 (b_lines b)))) ;;
  go _ <- report 1 1 ;;
  wret (offsets, lengths, cdps, lines).

(* Each round before the last finds a header inside the file and, when no
   trace has a negative number of samples, moves on by at least 240 bytes.
   [toolkit.py:311-428] *)
Definition catalog_traces (bps : Z) (c : fmt) (e : endian) (progress : progress_arg) : wio catalogs :=
  match progress with
  | NotCallable => wraise TypeError
  | _ => fun w => catalog_traces_fuel (S (S (length (f_data (w_file w))))) bps c e w
  end.
