(* Specification vocabulary for copies of files. *)
From Coq Require Import String ZArith List Bool.
From Verif Require Import Py PyFloat IbmFloat Packing Spec_Packing Float32 Toolkit Spec_Segy Reader Spec_Reader.
Import ListNotations.
Local Open Scope string_scope.
Open Scope list_scope.
Open Scope Z_scope.

(* The n header bytes at p: those that belong to a field are the same, the
   others are zero. *)
Definition header_copied (c : fmt) (d b : list Z) (p n : Z) : Prop := forall i, 0 <= i < n ->
  (covered c i -> byte_at b (p + i) = byte_at d (p + i)) /\ (~ covered c i -> byte_at b (p + i) = 0).
(* bytes i to j - 1 are the same *)
Definition bytes_copied (d b : list Z) (i j : Z) : Prop := forall k, i <= k < j -> byte_at b k = byte_at d k.

(* b is a copy of the file d with these traces, ending with the last trace:
   everything is as in d, except that header bytes of no field are zero and
   that a sample that is not a number may be stored differently. *)
Record copied (bc tc : fmt) (e : endian) (t : segytype) (first : Z) (ts : list tinfo) (d b : list Z) : Prop := mk_copied {
  cp_length : scan tc e (sample_size t) d first ts (zlen b);
  cp_within : zlen b <= zlen d;
  cp_bytes : all_bytes b;
  cp_text : bytes_copied d b 0 3200;
  cp_binary : header_copied bc d b 3200 400;
  cp_ext : bytes_copied d b 3600 first;
  cp_header : forall i, In i ts -> header_copied tc d b (t_pos i) 240;
  cp_samples : forall i k, In i ts -> 0 <= k < t_count i -> let p := t_pos i + 240 + sample_size t * k in
    ~ sample_at t e d p (RFloat S754_nan) -> bytes_copied d b p (p + sample_size t) }.

(* no byte of the n byte header at p outside its fields is set *)
Definition rest_zero (c : fmt) (d : list Z) (p n : Z) : Prop := forall i, 0 <= i < n -> ~ covered c i -> byte_at d (p + i) = 0.
(* A file that a copy reproduces: no bytes but those of headers, pages, fields
   and samples, and every sample a number. *)
Record reproducible (bc tc : fmt) (e : endian) (t : segytype) (first : Z) (ts : list tinfo) (d : list Z) : Prop := mk_reproducible {
  rp_end : scan tc e (sample_size t) d first ts (zlen d);
  rp_binary : rest_zero bc d 3200 400;
  rp_header : forall i, In i ts -> rest_zero tc d (t_pos i) 240;
  rp_samples : forall i k, In i ts -> 0 <= k < t_count i -> ~ sample_at t e d (t_pos i + 240 + sample_size t * k) (RFloat S754_nan) }.
