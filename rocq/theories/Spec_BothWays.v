(* Specification vocabulary for C147. *)
From Coq Require Import ZArith List.
From Verif Require Import Py FileIO Text Packing Toolkit Reader.
Import ListNotations.
Open Scope Z_scope.

(* Written with this encoding and byte order into an empty file, the dataset is b,
   whatever the progress callback. *)
Definition always_writes (ds : dataset) (x : encoding) (tc : fmt) (e : endian) (b : list Z) : Prop :=
  forall pr log, pr <> NotCallable -> exists w, write_segy ds (Some x) tc e pr (mk_world (mk_file [] 0) log) = (Ok tt, w) /\ f_data (w_file w) = b.
