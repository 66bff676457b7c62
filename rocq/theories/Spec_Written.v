(* Specification vocabulary for which part of a dataset a byte of the written
   file comes from. *)
From Coq Require Import String ZArith List Bool.
From Verif Require Import Py Packing Spec_Packing FileIO Text Toolkit Spec_Segy Reader Spec_Reader Spec_Writer.
Import ListNotations.
Open Scope list_scope.
Open Scope Z_scope.

(* the same samples under headers with the same values in their fields *)
Definition same_trace (tr tr' : trace) : Prop := same_fields (fst tr) (fst tr') /\ snd tr' = snd tr.

(* the bytes a trace takes, and where the k-th trace begins *)
Definition trace_size (t : segytype) (tr : trace) : Z := 240 + sample_size t * zlen (snd tr).
Definition trace_start (ds : dataset) (t : segytype) (trs : list trace) (k : nat) : Z :=
  3600 + 3200 * zlen (ds_ext ds) + fold_right (fun tr n => trace_size t tr + n) 0 (firstn k trs).

(* what write_segy makes of a dataset in an empty file *)
Definition writes (ds : dataset) (enc : option encoding) (tc : fmt) (e : endian) (b : list Z) : Prop :=
  exists pr log w, write_segy ds enc tc e pr (mk_world (mk_file [] 0) log) = (Ok tt, w) /\ f_data (w_file w) = b.

(* the same headers before the traces *)
Definition same_reel (ds ds' : dataset) : Prop :=
  ds_text ds' = ds_text ds /\ same_fields (ds_binary ds) (ds_binary ds') /\ ds_ext ds' = ds_ext ds.
