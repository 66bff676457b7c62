(* Specification for C138: reading values and headers at any place of a file. *)
From Coq Require Import String ZArith List Bool.
From Verif Require Import Py PyFloat IbmFloat Packing Spec_Packing FileIO Toolkit Spec_Segy Spec_Reader.
Import ListNotations.
Open Scope Z_scope.

(* what reading n values from p on gives, and the position after it *)
Inductive values_outcome (d : list Z) (p : Z) (t : segytype) (n : Z) (e : endian) : res (list real) -> Z -> Prop :=
| values_there rs : 0 <= n -> n = 0 \/ p + sample_size t * n <= zlen d -> zlen rs = n -> samples_at t e d p rs ->
    values_outcome d p t n e (Ok rs) (p + sample_size t * n)
| values_missing : 0 < n -> zlen d < p + sample_size t * n -> values_outcome d p t n e (Err EOFError) (Z.max p (zlen d))
(* fewer than no values: everything from p on is read *)
| values_ragged : n < 0 -> t <> T_IBM -> p < zlen d -> (zlen d - p) mod sample_size t <> 0 ->
    values_outcome d p t n e (Err ValueError) (zlen d)
| values_fewer : n < 0 -> t = T_IBM \/ zlen d <= p \/ (zlen d - p) mod sample_size t = 0 ->
    values_outcome d p t n e (Err AssertionError) (Z.max p (zlen d)).

(* what reading a header of size bytes from p on gives, with the exception y when
   there is no such header, and the position after it *)
Inductive header_at (d : list Z) (p : Z) (c : fmt) (size : Z) (e : endian) (y : exn) : res header -> Z -> Prop :=
| header_there h : p + size <= zlen d -> holds_buffer c e (block d p size) h -> header_at d p c size e y (Ok h) (p + size)
| header_bad n : p + size <= zlen d -> bad_field_at c e d p n -> header_at d p c size e y (Err y) (p + size)
| header_missing : zlen d < p + size -> header_at d p c size e y (Err y) (Z.max p (zlen d)).
