(* Property C101: the arrays of the Numpy extension hold the samples. *)
From Coq Require Import String ZArith List Bool Lia.
From Verif Require Import Py PyFloat IbmFloat Spec_Ibm Util Catalog Packing Spec_Packing Formats FileIO Text
  Float32 Toolkit Spec_Segy Reader NumpyExt Spec_Numpy DtypeFacts DtypeExactFacts.
Import ListNotations.
Local Open Scope string_scope.
Open Scope list_scope.
Open Scope Z_scope.

(* every sample type a file can have has an array type *)
Theorem C101_sample_types : forall (code : Z) (t : segytype), format_code code t -> exists dt, make_dtype t = Ok dt.
Proof. unfold format_code. cbn [In]. intros code t H. intuition (match goal with H : _ = _ |- _ => injection H as _ <- end; eexists; reflexivity). Qed.
Print Assumptions C101_sample_types.

(* Missing for the full property: IBM floats outside the range of single
   precision. *)
Theorem C101_samples_partial : forall (t : segytype) (dt : dtype) (e : endian) (d : list Z) (pos : Z) (v : real),
  make_dtype t = Ok dt -> sample_at t e d pos v ->
  (forall w, v = RIbm w -> 33 <= ibm_E w <= 96 \/ ibm_M w = 0) ->
  array_holds dt v.
Proof. exact array_sample. Qed.
Print Assumptions C101_samples_partial.

(* no IBM float of magnitude 2^128 or more can be held by the array made for it *)
Theorem C101_large_refuted :
  make_dtype T_IBM = Ok D_f4 /\
  (forall w, 2 ^ 128 * 2 ^ 1074 <= Z.abs (ibm_units w) -> ~ array_holds D_f4 (RIbm w)) /\
  exists d v, sample_at T_IBM Big d 0 v /\ ~ array_holds D_f4 v.
Proof.
  split; [reflexivity|]. split; [exact array_large|].
  exists [97; 16; 0; 0], (RIbm (W 97 16 0 0)). split.
  - exists (W 97 16 0 0). split; [reflexivity|]. split; [unfold word_ok; cbn; lia|vm_compute; intuition congruence].
  - apply array_large. vm_compute. discriminate.
Qed.
Print Assumptions C101_large_refuted.

(* Exactly which IBM floats can be held: those below 2^128 that are multiples
   of the least single float, 2^-149. *)
Theorem C101_exact : forall w : word, word_ok w ->
  (array_holds D_f4 (RIbm w) <-> Z.abs (ibm_units w) < 2 ^ 128 * 2 ^ 1074 /\ (2 ^ (1074 - 149) | ibm_units w)).
Proof. exact array_exact. Qed.
Print Assumptions C101_exact.

(* header fields: every value the field can store *)
Theorem C101_fields : forall (c : ftype) (v : Z) (dt : dtype),
  make_dtype (field_segy_type c) = Ok dt -> in_ctype (ft_ctype c) v -> array_holds dt (RInt v).
Proof. exact array_field. Qed.
Print Assumptions C101_fields.

Example C101_example :
  sample_at T_IBM Big [66; 100; 0; 0] 0 (RIbm (W 66 100 0 0)) /\ 33 <= ibm_E (W 66 100 0 0) <= 96 /\
  sample_at T_INT16 Little [0; 128] 0 (RInt (-32768)) /\ array_holds D_i2 (RInt (-32768)) /\ ~ array_holds D_i1 (RInt (-32768)) /\
  make_dtype T_NNINT16 = Err ValueError.
Proof.
  split; [exists (W 66 100 0 0); split; [reflexivity|split; [unfold word_ok; cbn; lia|vm_compute; intuition congruence]]|].
  split; [cbn; lia|]. split.
  { exists (-32768). split; [reflexivity|]. split; [cbn; lia|]. split; [lia|]. split; [vm_compute; discriminate|].
    intros k K. cbn in K. assert (k = 0 \/ k = 1) as [-> | ->] by lia; reflexivity. }
  split; [exists (-32768); split; [reflexivity|cbn; lia]|]. split; [|reflexivity].
  intros (n & [= <-] & H). cbn in H. lia.
Qed.
(* 2^-145 is held, 2^-156 is not *)
Example C101_exact_example :
  word_ok (W 28 128 0 0) /\ ibm_units (W 28 128 0 0) = 2 ^ (1074 - 145) /\ array_holds D_f4 (RIbm (W 28 128 0 0)) /\
  word_ok (W 27 1 0 0) /\ ibm_units (W 27 1 0 0) = 2 ^ (1074 - 156) /\ ~ array_holds D_f4 (RIbm (W 27 1 0 0)).
Proof.
  assert (A : word_ok (W 28 128 0 0)) by (unfold word_ok; cbn; lia). assert (B : word_ok (W 27 1 0 0)) by (unfold word_ok; cbn; lia).
  split; [exact A|]. split; [vm_compute; reflexivity|]. split; [|split; [exact B|]]; [|split; [vm_compute; reflexivity|]].
  - apply (proj2 (C101_exact _ A)). split; [vm_compute; reflexivity|]. exists (2 ^ 4). vm_compute. reflexivity.
  - intros H. apply (proj1 (C101_exact _ B)) in H. destruct H as (_ & H). apply Z.mod_divide in H; [|vm_compute; discriminate]. vm_compute in H. discriminate.
Qed.
