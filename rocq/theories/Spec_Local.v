(* Specification vocabulary: which bytes of a file an answer depends on. *)
From Coq Require Import String ZArith List Bool.
From Verif Require Import Py Packing Spec_Packing Toolkit Spec_Segy Reader Spec_Reader.
Import ListNotations.
Local Open Scope string_scope.
Open Scope list_scope.
Open Scope Z_scope.

(* the bytes lo to hi - 1 are the same *)
Definition same_bytes (d d' : list Z) (lo hi : Z) : Prop := forall i, lo <= i < hi -> byte_at d' i = byte_at d i.

(* Byte i counts when a file is opened whose traces ts begin at first and have
   headers of format tc: it lies before the traces, or in one of five fields of
   a trace header. *)
Definition counts (tc : fmt) (first : Z) (ts : list tinfo) (i : Z) : Prop :=
  0 <= i < first \/
  exists tr f, In tr ts /\ is_field tc f /\
    In (fd_name f) ["file_sequence_num"; "ensemble_num"; "num_samples"; "inline_number"; "crossline_number"] /\
    t_pos tr + field_pos tc f <= i < t_pos tr + field_pos tc f + field_size f.

(* a file of the same length in which these bytes are the same *)
Definition same_where_it_counts (tc : fmt) (first : Z) (ts : list tinfo) (d d' : list Z) : Prop :=
  all_bytes d' /\ zlen d' = zlen d /\ forall i, counts tc first ts i -> byte_at d' i = byte_at d i.
