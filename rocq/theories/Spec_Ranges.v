(* Specification of reading part of a trace of any dataset. *)
From Coq Require Import String ZArith List Bool.
From Verif Require Import Py PyFloat IbmFloat Util Packing FileIO Toolkit Reader Spec_Reader.
Import ListNotations.
Open Scope Z_scope.

(* The items of a list from number a (0 if not given) up to but not including
   number b (the end if not given). *)
Definition part {A : Type} (l : list A) (a b : option Z) : list A :=
  firstn (Z.to_nat (or_else b (zlen l) - or_else a 0)) (skipn (Z.to_nat (or_else a 0)) l).

(* Of every trace whose samples can be had, each range can be had, and consists
   of these samples. *)
Definition gives_parts (ds : dataset) : Prop :=
  forall k all, ds_trace_samples ds k None None = Ok all ->
  forall a b, 0 <= or_else a 0 <= or_else b (zlen all) -> or_else b (zlen all) <= zlen all ->
  ds_trace_samples ds k a b = Ok (part all a b).
