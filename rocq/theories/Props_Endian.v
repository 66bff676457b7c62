(* Property C97. *)
From Coq Require Import ZArith List Bool.
From Verif Require Import Py IbmFloat Packing Formats FileIO Float32 Toolkit Spec_Packing Spec_Segy EndianFacts.
Import ListNotations.
Open Scope Z_scope.

(* Samples other than IBM floats: a little-endian file holds each sample's bytes
   in the opposite order to a big-endian one, both when it is written and when it
   is read. *)
Theorem C97_byte_order_partial :
  (forall t ss f1, t <> T_IBM -> write_binary_values ss t Big (mk_file [] 0) = (Ok tt, f1) ->
   exists f2 items, write_binary_values ss t Little (mk_file [] 0) = (Ok tt, f2) /\
     zlen items = zlen ss /\ Forall (fun i => zlen i = sample_size t) items /\
     f_data f1 = concat items /\ f_data f2 = concat (map (@rev Z) items)) /\
  (forall native t items, t <> T_IBM -> Forall (fun i => zlen i = sample_size t) items ->
   fst (read_binary_values native (Some 0) t (zlen items) Little (mk_file (concat (map (@rev Z) items)) 0)) =
   fst (read_binary_values native (Some 0) t (zlen items) Big (mk_file (concat items) 0))).
Proof. exact (conj write_mirror read_mirror). Qed.
Print Assumptions C97_byte_order_partial.

Example C97_example : exists f1 f2,
  write_binary_values [RInt 1; RInt (-2)] T_INT16 Big (mk_file [] 0) = (Ok tt, f1) /\ f_data f1 = [0; 1; 255; 254] /\
  write_binary_values [RInt 1; RInt (-2)] T_INT16 Little (mk_file [] 0) = (Ok tt, f2) /\ f_data f2 = [1; 0; 254; 255] /\
  fst (read_binary_values Big (Some 0) T_INT16 2 Little f2) = Ok [RInt 1; RInt (-2)].
Proof. do 2 eexists. do 4 (split; [vm_compute; reflexivity|]). vm_compute. reflexivity. Qed.

(* IBM floats are written and read with the most significant byte first whatever
   the byte order, so the claim is false of them. *)
Theorem C97_ibm_refuted :
  (forall ss e f, write_binary_values ss T_IBM e f = write_binary_values ss T_IBM Big f) /\
  (forall native pos n e f, read_binary_values native pos T_IBM n e f = read_binary_values native pos T_IBM n Big f) /\
  (exists ss items f2, write_binary_values ss T_IBM Big (mk_file [] 0) = (Ok tt, mk_file (concat items) 4) /\
     zlen items = zlen ss /\ Forall (fun i => zlen i = sample_size T_IBM) items /\
     write_binary_values ss T_IBM Little (mk_file [] 0) = (Ok tt, f2) /\ f_data f2 <> concat (map (@rev Z) items)) /\
  (exists items, Forall (fun i => zlen i = sample_size T_IBM) items /\
     fst (read_binary_values Little (Some 0) T_IBM (zlen items) Little (mk_file (concat (map (@rev Z) items)) 0)) <>
     fst (read_binary_values Little (Some 0) T_IBM (zlen items) Big (mk_file (concat items) 0))).
Proof.
  split; [exact ibm_write_order|]. split; [exact ibm_read_order|]. split.
  - exists [RIbm (W 66 100 0 0)], [[66; 100; 0; 0]]. eexists. split; [vm_compute; reflexivity|]. split; [reflexivity|].
    split; [repeat constructor|]. split; [vm_compute; reflexivity|]. vm_compute. discriminate.
  - exists [[66; 100; 0; 0]]. split; [repeat constructor|]. vm_compute. discriminate.
Qed.
Print Assumptions C97_ibm_refuted.
