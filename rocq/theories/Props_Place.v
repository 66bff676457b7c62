(* Property C138: reading values and headers at any place of a file. *)
From Coq Require Import String ZArith List Bool Lia ZifyBool ZifyNat.
From Verif Require Import Py PyFacts PyFloat IbmFloat Spec_Ibm Util Catalog Packing Spec_Packing Formats FileIO Text Spec_Text TextIO
  Float32 Toolkit Spec_Segy Reader Spec_Reader ReaderFacts OpenFacts FormatFacts Spec_Place PlaceFacts.
Import ListNotations.
Local Open Scope string_scope.
Open Scope list_scope.
Open Scope Z_scope.

Theorem C138_values : forall native pos t n (e : endian) d q, all_bytes d -> 0 <= q -> let p := or_else pos q in
  (p < 0 -> read_binary_values native pos t n e (mk_file d q) = (Err ValueError, mk_file d q)) /\
  (0 <= p -> exists r q', read_binary_values native pos t n e (mk_file d q) = (r, mk_file d q') /\ values_outcome d p t n e r q').
Proof. exact values_at. Qed.
Print Assumptions C138_values.

Theorem C138_trace_header : forall (c : fmt) (e : endian) pk pos d q,
  format_ok c 240 -> make_header_packer c e = Ok pk -> all_bytes d -> 0 <= q -> let p := or_else pos q in
  (p < 0 -> read_trace_header pk pos (mk_file d q) = (Err ValueError, mk_file d q)) /\
  (0 <= p -> exists r q', read_trace_header pk pos (mk_file d q) = (r, mk_file d q') /\ header_at d p c 240 e EOFError r q').
Proof. exact trace_header_at. Qed.
Print Assumptions C138_trace_header.

Theorem C138_binary_reel_header : forall (c : fmt) size (e : endian) d p, format_ok c size -> 0 < size -> all_bytes d -> 0 <= p ->
  exists r q', read_binary_reel_header c e (mk_file d p) = (r, mk_file d q') /\ header_at d p c size e ValueError r q'.
Proof. exact binary_header_at. Qed.
Print Assumptions C138_binary_reel_header.

Example C138_example : format_ok TraceHeaderRev1 240 /\ format_ok BinaryReelHeader 400 /\ (exists pk, make_header_packer TraceHeaderRev1 Little = Ok pk).
Proof. split; [exact (proj1 rev1_trace_format)|]. split; [exact (proj1 binary_reel_format)|]. apply (proj1 rev1_trace_format). Qed.
(* two values from the current position; three are not there; fewer than none *)
Example C138_values_example : let f := mk_file [9; 1; 2; 3; 4; 5] 1 in
  read_binary_values Little None T_INT16 2 Big f = (Ok [RInt 258; RInt 772], mk_file (f_data f) 5) /\
  read_binary_values Little None T_INT16 3 Big f = (Err EOFError, mk_file (f_data f) 6) /\
  read_binary_values Little (Some (-1)) T_INT16 1 Big f = (Err ValueError, f) /\
  read_binary_values Little (Some 1) T_INT16 (-1) Big f = (Err ValueError, mk_file (f_data f) 6) /\
  read_binary_values Little (Some 2) T_INT16 (-1) Big f = (Err AssertionError, mk_file (f_data f) 6).
Proof. cbv zeta. repeat (apply conj; [vm_compute; reflexivity|]); vm_compute; reflexivity. Qed.
