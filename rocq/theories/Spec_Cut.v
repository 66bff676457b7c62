(* Specification vocabulary for files that have been cut off. *)
From Coq Require Import String ZArith List Bool.
From Verif Require Import Py Packing Spec_Packing FileIO Toolkit Spec_Segy Reader.
Import ListNotations.
Open Scope Z_scope.

(* of the traces ts, those whose 240 byte header lies within the first n bytes
   are ts': they come first *)
Definition kept (n : Z) (ts ts' : list tinfo) : Prop :=
  exists lost, ts = ts' ++ lost /\ Forall (fun t => t_pos t + 240 <= n) ts' /\ Forall (fun t => n < t_pos t + 240) lost.

(* both attempts to read a header fail in the same way, or both give headers
   with the same fields *)
Definition same_header (r r' : res header) : Prop :=
  match r, r' with
  | Ok h, Ok h' => same_fields h h'
  | Err x, Err x' => x = x'
  | _, _ => False
  end.

(* a dataset that lists only these of its traces *)
Definition restrict (ds : dataset) (ks : list Z) : dataset :=
  mk_dataset (ds_text ds) (ds_binary ds) (ds_ext ds) (ds_encoding ds) (ds_num_traces ds) ks
    (ds_trace_header ds) (ds_trace_samples ds) (ds_sample_format ds) (ds_dimensionality ds).

(* the file with contents old after b has been written over its beginning, the
   position being at the end of b *)
Definition overwritten (old b : list Z) : file := mk_file (b ++ skipn (Z.to_nat (zlen b)) old) (zlen b).
