(* Specification vocabulary for SEG Y files, samples, readers and writers,
   written without the helpers of the toolkit and reader models. *)
From Coq Require Import String ZArith List Bool Sorted.
From Verif Require Import Py PyFloat IbmFloat Spec_Ibm Catalog Spec_Catalog Packing Spec_Packing Text Spec_Text Float32 Toolkit.
Import ListNotations.
Local Open Scope string_scope.
Open Scope list_scope.
Open Scope Z_scope.

(* ------------------------------------------------------------------ *)
(* IEEE 754 single precision: sign bit, eight exponent bits, 23 fraction
   bits.  The value of a finite single is given in units of 2^-1074. *)
Definition single_sign (bits : Z) : bool := negb (bits / 2 ^ 31 =? 0).
Definition single_exp (bits : Z) : Z := (bits / 2 ^ 23) mod 2 ^ 8.
Definition single_frac (bits : Z) : Z := bits mod 2 ^ 23.
Definition single_units (bits : Z) : Z :=
  (if single_sign bits then -1 else 1) *
  (if single_exp bits =? 0 then single_frac bits * 2 ^ (-149 + 1074)
   else (2 ^ 23 + single_frac bits) * 2 ^ (single_exp bits - 150 + 1074)).

(* the float f is the datum encoded by 32 bits *)
Definition is_single (bits : Z) (f : float) : Prop :=
  0 <= bits < 2 ^ 32 /\ float_wf f /\
  match f with
  | S754_nan => single_exp bits = 255 /\ single_frac bits <> 0
  | S754_infinity s => single_exp bits = 255 /\ single_frac bits = 0 /\ s = single_sign bits
  | S754_zero s => single_exp bits = 0 /\ single_frac bits = 0 /\ s = single_sign bits
  | S754_finite s _ _ => single_exp bits < 255 /\ units f = single_units bits /\ s = single_sign bits
  end.

(* f' is the single nearest to the finite double f, ties to even *)
Definition nearest_single (f f' : float) : Prop :=
  finite f' /\ exists bits, is_single bits f' /\
    forall bits' g, is_single bits' g -> finite g ->
      Z.abs (units f' - units f) <= Z.abs (units g - units f) /\
      (Z.abs (units f' - units f) = Z.abs (units g - units f) -> units g = units f' \/ Z.even bits = true).

(* from here on a double is out of reach of the finite singles:
   2^128 - 2^103, half a unit above the largest single *)
Definition single_limit : Z := (2 ^ 128 - 2 ^ 103) * 2 ^ 1074.

(* ------------------------------------------------------------------ *)
(* Samples.                                                             *)
Definition sample_size (t : segytype) : Z :=
  match t with
  | T_INT32 | T_NNINT32 | T_FLOAT32 | T_IBM => 4
  | T_INT16 | T_NNINT16 => 2
  | T_INT8 | T_NNINT8 => 1
  end.
(* the integers of an integer sample type *)
Definition in_sample_type (t : segytype) (n : Z) : Prop :=
  match t with
  | T_INT32 => - 2 ^ 31 <= n < 2 ^ 31 | T_NNINT32 => 0 <= n < 2 ^ 32
  | T_INT16 => - 2 ^ 15 <= n < 2 ^ 15 | T_NNINT16 => 0 <= n < 2 ^ 16
  | T_INT8 => - 2 ^ 7 <= n < 2 ^ 7 | T_NNINT8 => 0 <= n < 2 ^ 8
  | T_FLOAT32 | T_IBM => False
  end.
(* the sample r is stored in the bytes at pos; IBM floats have one byte order *)
Definition sample_at (t : segytype) (e : endian) (d : list Z) (pos : Z) (r : real) : Prop :=
  match t with
  | T_FLOAT32 => exists bits f, r = RFloat f /\ stored_at e d pos 4 bits /\ is_single bits f
  | T_IBM => exists w, r = RIbm w /\ word_ok w /\ 0 <= pos /\ pos + 4 <= zlen d /\
      byte_at d pos = w0 w /\ byte_at d (pos + 1) = w1 w /\ byte_at d (pos + 2) = w2 w /\ byte_at d (pos + 3) = w3 w
  | _ => exists n, r = RInt n /\ in_sample_type t n /\ stored_at e d pos (sample_size t) n
  end.
Definition samples_at (t : segytype) (e : endian) (d : list Z) (pos : Z) (rs : list real) : Prop :=
  forall i, 0 <= i < zlen rs -> sample_at t e d (pos + sample_size t * i) (nth (Z.to_nat i) rs (RInt 0)).

(* ints from here on round to doubles that are too large for a single: the
   double next below 2^128 - 2^103 is 2^75 away and has an odd significand *)
Definition int_limit : Z := 2 ^ 128 - 2 ^ 103 - 2 ^ 74.
(* a number a file of samples of this type can hold *)
Definition storable (t : segytype) (r : real) : Prop :=
  match t, r with
  | T_FLOAT32, RFloat f => float_wf f /\ (finite f -> Z.abs (units f) < single_limit)
  | T_FLOAT32, RInt n => Z.abs n < int_limit
  | T_FLOAT32, RIbm w => word_ok w /\ Z.abs (ibm_units w) < single_limit
  | T_IBM, RFloat f => float_wf f /\ finite f /\ (units f = 0 \/ ibm_min <= Z.abs (units f) <= ibm_max)
  | T_IBM, RInt n => Z.abs (n * 2 ^ 1074) <= ibm_max
  | T_IBM, RIbm w => word_ok w
  | _, RInt n => in_sample_type t n
  | _, _ => False
  end.
(* r' is what is read back after r has been written: the same number if the
   type has it, else the single nearest to it or its truncation to an IBM
   float (an int being rounded to a double before) *)
Definition stored_as (t : segytype) (r r' : real) : Prop :=
  match t with
  | T_FLOAT32 => exists f', r' = RFloat f' /\
      match r with
      | RFloat f => (finite f -> nearest_single f f') /\ (~ finite f \/ (exists bits, is_single bits f) -> f' = f)
      | RInt n => exists g, rounds_to (n * 2 ^ 1074) 1 g /\ nearest_single g f'
      | RIbm w => exists g, float_wf g /\ finite g /\ units g = ibm_units w /\ nearest_single g f'
      end
  | T_IBM => exists w', r' = RIbm w' /\
      match r with
      | RFloat f => truncation (units f) w'
      | RInt n => exists g, rounds_to (n * 2 ^ 1074) 1 g /\ truncation (units g) w'
      | RIbm w => w' = w
      end
  | _ => r' = r
  end.
(* the sample type of a format code of the binary reel header *)
Definition format_code (code : Z) (t : segytype) : Prop :=
  In (code, t) [(1, T_IBM); (2, T_INT32); (3, T_INT16); (5, T_FLOAT32); (8, T_INT8)].

(* ------------------------------------------------------------------ *)
(* Header formats for whole files.                                      *)

(* a format whose packed headers have n bytes and can be read back *)
Definition format_ok (c : fmt) (n : Z) : Prop :=
  class_ok c /\ types_fit c /\ starts_ok c /\ (has_coincident c \/ declared_in_order c) /\
  fmt_length c = Some n /\ forall e, exists p, make_header_packer c e = Ok p.
Definition has_field (c : fmt) (n : string) : Prop := exists f, is_field c f /\ fd_name f = n.
Definition before (c : fmt) (n m : string) : Prop :=
  forall f g, is_field c f -> is_field c g -> fd_name f = n -> fd_name g = m -> fd_offset f < fd_offset g.

(* A trace header format: 240 bytes, with the five fields create_reader looks
   at, in the order of the standard, and a number of samples that cannot be
   negative. *)
Definition trace_format (c : fmt) : Prop :=
  format_ok c 240 /\
  has_field c "file_sequence_num" /\ has_field c "ensemble_num" /\ has_field c "num_samples" /\
  has_field c "inline_number" /\ has_field c "crossline_number" /\
  before c "file_sequence_num" "ensemble_num" /\ before c "file_sequence_num" "num_samples" /\
  before c "file_sequence_num" "inline_number" /\ before c "file_sequence_num" "crossline_number" /\
  before c "ensemble_num" "num_samples" /\ before c "ensemble_num" "inline_number" /\
  before c "ensemble_num" "crossline_number" /\ before c "num_samples" "inline_number" /\
  before c "num_samples" "crossline_number" /\ before c "inline_number" "crossline_number" /\
  forall f v, is_field c f -> fd_name f = "num_samples" -> accepts (fd_type f) v -> 0 <= v.
(* a binary reel header format *)
Definition binary_format (c : fmt) : Prop :=
  format_ok c 400 /\ has_field c "data_sample_format" /\ has_field c "num_extended_textual_headers" /\
  has_field c "format_revision_num".

(* fields at the same place have the same value *)
Definition coincident_agree (h : header) : Prop :=
  forall f g, is_field (h_cls h) f -> is_field (h_cls h) g -> fd_offset f = fd_offset g ->
    hdr_get h (fd_name f) = hdr_get h (fd_name g).

(* ------------------------------------------------------------------ *)
(* The traces of a file.                                                *)

(* the field n of the header stored at p has the (acceptable) value v *)
Definition field_at (c : fmt) (e : endian) (d : list Z) (p : Z) (n : string) (v : Z) : Prop :=
  exists f, is_field c f /\ fd_name f = n /\ accepts (fd_type f) v /\ in_ctype (ft_ctype (fd_type f)) v /\
    stored_at e d (p + field_pos c f) (field_size f) v.
(* the field n of the header stored at p has a value its type does not accept *)
Definition bad_field_at (c : fmt) (e : endian) (d : list Z) (p : Z) (n : string) : Prop :=
  exists f v, is_field c f /\ fd_name f = n /\ ~ accepts (fd_type f) v /\ in_ctype (ft_ctype (fd_type f)) v /\
    stored_at e d (p + field_pos c f) (field_size f) v.

(* position, number of samples, inline, crossline and ensemble number *)
Record tinfo : Set := mk_tinfo { t_pos : Z; t_count : Z; t_inline : Z; t_xline : Z; t_cdp : Z }.

(* From p on the file holds these traces, one after the other, and then
   position q is reached.  A trace is a 240 byte header followed by as many
   samples as the header says; the samples of the last one may be cut off. *)
Inductive scan (c : fmt) (e : endian) (bps : Z) (d : list Z) : Z -> list tinfo -> Z -> Prop :=
| scan_end p : scan c e bps d p [] p
| scan_trace t ts q s : t_pos t + 240 <= zlen d ->
    field_at c e d (t_pos t) "file_sequence_num" s -> field_at c e d (t_pos t) "ensemble_num" (t_cdp t) ->
    field_at c e d (t_pos t) "num_samples" (t_count t) -> field_at c e d (t_pos t) "inline_number" (t_inline t) ->
    field_at c e d (t_pos t) "crossline_number" (t_xline t) ->
    scan c e bps d (t_pos t + 240 + bps * t_count t) ts q -> scan c e bps d (t_pos t) (t :: ts) q.
(* these are all the traces from p on: no further header fits *)
Definition file_traces (c : fmt) (e : endian) (bps : Z) (d : list Z) (p : Z) (ts : list tinfo) : Prop :=
  exists q, scan c e bps d p ts q /\ zlen d < q + 240.
(* there is a header that cannot be read after some traces *)
Definition unreadable_trace (c : fmt) (e : endian) (bps : Z) (d : list Z) (p : Z) : Prop :=
  exists ts q n, scan c e bps d p ts q /\ q + 240 <= zlen d /\ bad_field_at c e d q n /\
    In n ["file_sequence_num"; "ensemble_num"; "num_samples"; "inline_number"; "crossline_number"].

(* items of the catalogs: trace numbers from 0 *)
Definition numbered {A} (l : list A) : list (Z * A) := combine (map Z.of_nat (seq 0 (length l))) l.
Definition keyed {K} (keys : list K) : list (K * Z) := map (fun p => (snd p, fst p)) (numbered keys).

(* an optional index: there is one exactly when the keys are distinct, and it
   then holds exactly the items (a one-dimensional one in increasing order) *)
Definition index1 (c : option catalog1) (items : list (Z * Z)) : Prop :=
  match c with
  | Some c => NoDup (map fst items) /\ holds_exactly (cat1_get c) (cat1_mem c) (cat1_len c) (cat1_iter c) items /\
      StronglySorted Z.lt (cat1_iter c)
  | None => ~ NoDup (map fst items)
  end.
Definition index2 (c : option catalog2) (items : list ((Z * Z) * Z)) : Prop :=
  match c with
  | Some c => NoDup (map fst items) /\ holds_exactly (cat2_get c) (cat2_mem c) (cat2_len c) (cat2_iter c) items
  | None => ~ NoDup (map fst items)
  end.
(* what the four catalogs of a file with these traces hold *)
Definition catalogs_of (ts : list tinfo) (cs : option catalog1 * option catalog1 * option catalog1 * option catalog2) : Prop :=
  let '(offsets, lengths, cdps, lines) := cs in
  index1 offsets (numbered (map t_pos ts)) /\ offsets <> None /\
  index1 lengths (numbered (map t_count ts)) /\ lengths <> None /\
  index1 cdps (keyed (map t_cdp ts)) /\
  index2 lines (keyed (map (fun t => (t_inline t, t_xline t)) ts)).

(* the outcome of looking for the traces of a file from position p on *)
Inductive catalog_outcome (c : fmt) (e : endian) (bps : Z) (d : list Z) (p : Z)
  : res (option catalog1 * option catalog1 * option catalog1 * option catalog2) -> Prop :=
| found_traces ts cs : file_traces c e bps d p ts -> ts <> [] -> catalogs_of ts cs -> catalog_outcome c e bps d p (Ok cs)
| found_unreadable : unreadable_trace c e bps d p -> catalog_outcome c e bps d p (Err ValueError)
| found_none : file_traces c e bps d p [] -> d <> [] -> catalog_outcome c e bps d p (Err RuntimeError)
| found_empty : d = [] -> catalog_outcome c e bps d p (Err ZeroDivisionError).
