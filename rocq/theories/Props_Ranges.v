(* Properties C59, C73, C111, C112 and C113 for parts of traces: a dataset made
   from a reader, directly or by the transforming datasets of the examples,
   gives any range of the samples of a trace as it gives all of them. *)
From Coq Require Import String ZArith List Bool Lia.
From Verif Require Import Py PyFloat IbmFloat Spec_Ibm Util Catalog Packing Spec_Packing Formats FileIO Text Spec_Text
  Float32 Toolkit Spec_Segy Reader Spec_Reader Transform ReaderFacts OpenFacts Spec_Ranges RangesFacts Props_Reader.
Import ListNotations.
Local Open Scope string_scope.
Open Scope list_scope.
Open Scope Z_scope.

Theorem C59_parts : forall (d : list Z) enc bc tc e dim r native q, readable d enc bc tc -> opens d enc bc tc e dim r ->
  gives_parts (reader_dataset native r (mk_file d q)).
Proof. exact reader_parts. Qed.
Print Assumptions C59_parts.

Theorem C73_parts : forall src, gives_parts src -> gives_parts (delegating src).
Proof. exact delegating_parts. Qed.
Print Assumptions C73_parts.

Theorem C111_parts : forall src t ds, gives_parts src -> converting src t = Ok ds -> gives_parts ds.
Proof. exact converting_parts. Qed.
Print Assumptions C111_parts.

Theorem C112_parts : forall src f ds, gives_parts src -> scaling src f = Ok ds -> gives_parts ds.
Proof. exact scaling_parts. Qed.
Print Assumptions C112_parts.

Theorem C113_parts : forall src f, gives_parts src -> gives_parts (scaling_coords src f).
Proof. exact coords_parts. Qed.
Print Assumptions C113_parts.

(* 16-bit samples 10, -20 and 30 become 8-bit ones, or are doubled *)
Definition two : float := S754_finite false 4503599627370496 (-51).
Example C111_parts_example :
  match open_file file_3d with
  | (Ok r, _) =>
      let src := reader_dataset Little r (mk_file file_3d 0) in
      match converting src T_INT8, scaling src two with
      | Ok c, Ok s =>
          ds_trace_samples c 0 None None = Ok [RInt 10; RInt (-20); RInt 30] /\ ds_trace_samples c 0 (Some 1) (Some 2) = Ok [RInt (-20)] /\
          ds_trace_samples s 0 (Some 1) None = Ok [RInt (-40); RInt 60] /\ ds_trace_samples s 0 None (Some 1) = Ok [RInt 20] /\
          ds_trace_samples (scaling_coords src two) 0 (Some 2) None = Ok [RInt 30]
      | _, _ => False
      end
  | _ => False
  end.
Proof. vm_compute. repeat split. Qed.
Example C59_parts_example : exists r t ts, example file_3d 4 3 r t ts /\ gives_parts (reader_dataset Little r (mk_file file_3d 0)).
Proof.
  destruct file_3d_ok as (r & t & ts & EX). exists r, t, ts. split; [exact EX|]. destruct EX as (RD & OP & _). exact (C59_parts _ _ _ _ _ _ _ _ _ RD OP).
Qed.
