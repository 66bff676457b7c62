(* Specification vocabulary for datasets that are written over the file they
   are read from. *)
From Coq Require Import String ZArith List Bool Sorted.
From Verif Require Import Py FileIO Packing PyFloat Toolkit Spec_Segy Reader Spec_Reader Transform.
Import ListNotations.
Open Scope list_scope.
Open Scope Z_scope.

(* Datasets that agree on everything but their traces. *)
Definition same_frame (ds ds' : dataset) : Prop :=
  ds_text ds = ds_text ds' /\ ds_binary ds = ds_binary ds' /\ ds_ext ds = ds_ext ds' /\ ds_encoding ds = ds_encoding ds' /\
  ds_num_traces ds = ds_num_traces ds' /\ ds_trace_indexes ds = ds_trace_indexes ds' /\ ds_sample_format ds = ds_sample_format ds'.

(* F makes a dataset from a dataset, trace by trace: the header of a trace
   comes from the header of the same trace, its samples from its samples, and
   everything else from the headers of the file. *)
Definition tracewise (F : dataset -> dataset) : Prop :=
  forall ds ds', same_frame ds ds' ->
    same_frame (F ds) (F ds') /\
    forall k, (ds_trace_header ds k = ds_trace_header ds' k -> ds_trace_header (F ds) k = ds_trace_header (F ds') k) /\
      (ds_trace_samples ds k None None = ds_trace_samples ds' k None None ->
       ds_trace_samples (F ds) k None None = ds_trace_samples (F ds') k None None).

(* ds, to be written over a file with the traces ts, samples of type t and that
   many pages of extended headers, needs no more room than there is: it lists
   its traces in their order, no more pages, and no trace is longer. *)
Definition fits (ds : dataset) (t : segytype) (ts : list tinfo) (pages : Z) : Prop :=
  zlen (ds_ext ds) <= pages /\
  StronglySorted Z.lt (ds_trace_indexes ds) /\
  Forall (fun k => 0 <= k < zlen ts) (ds_trace_indexes ds) /\
  forall k tr s t', In k (ds_trace_indexes ds) -> trace_of ts k tr ->
    ds_trace_samples ds k None None = Ok s -> ds_sample_format ds = Ok t' ->
    sample_size t' * zlen s <= sample_size t * t_count tr.

(* the files out and new: out is old, with new written over its beginning *)
Definition laid_over (old new out : list Z) : Prop := out = new ++ skipn (Z.to_nat (zlen new)) old.

(* what the examples make of a dataset with samples of type t, where no sample
   needs more bytes than before *)
Inductive no_wider (t : segytype) : (dataset -> res dataset) -> Prop :=
| copied : no_wider t (fun ds => Ok ds)
| scaled f : no_wider t (fun ds => scaling ds f)
| coords_scaled f : no_wider t (fun ds => Ok (scaling_coords ds f))
| converted t' : sample_size t' <= sample_size t -> no_wider t (fun ds => converting ds t').
(* the dataset made, where it can be made *)
Definition made (G : dataset -> res dataset) (ds : dataset) : dataset := match G ds with Ok ds' => ds' | Err _ => ds end.
