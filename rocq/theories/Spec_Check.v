(* Specification vocabulary for comparing a copy with its original. *)
From Coq Require Import ZArith List.
From Verif Require Import Py PyFloat IbmFloat Spec_Ibm Packing Spec_Packing FileIO Toolkit Spec_Transform Reader Checks.
Import ListNotations.
Open Scope list_scope.
Open Scope Z_scope.

(* Of the samples of trace k, as the reader r of the file d gives them, one is
   not a number. *)
Definition has_nan (native : endian) (d : list Z) (r : reader) (k : Z) : Prop :=
  exists ss, fst (rd_trace_samples native r k None None (mk_file d 0)) = Ok ss /\ In (RFloat S754_nan) ss.

(* a sample: any int, float or IBM float *)
Definition number (x : real) : Prop := match x with RFloat f => float_wf f | RInt _ => True | RIbm w => word_ok w end.
(* The same value, also for samples of different types. *)
Definition same_number (x y : real) : Prop :=
  (finite_number x /\ finite_number y /\ value x = value y) \/ exists s, x = RFloat (S754_infinity s) /\ y = RFloat (S754_infinity s).
(* The two IBM floats that == is wrong about (property C08): non-zero, below the
   normal range and with different exponents; or zeros of different sign. *)
Definition mistaken (x y : real) : Prop := exists v w, x = RIbm v /\ y = RIbm w /\
  ((tiny v /\ tiny w /\ ibm_E v <> ibm_E w) \/ (ibm_units v = 0 /\ ibm_units w = 0 /\ (w0 v <? 128) <> (w0 w <? 128))).
(* Trace k of the two readers: the headers have the same values, the samples are
   as many and equal one by one. *)
Definition equal_traces (native : endian) (d : list Z) (r : reader) (d' : list Z) (r' : reader) (k : Z) : Prop := exists h h' ss ss',
  fst (rd_trace_header r k None (mk_file d 0)) = Ok h /\ fst (rd_trace_header r' k None (mk_file d' 0)) = Ok h' /\ same_fields h h' /\
  fst (rd_trace_samples native r k None None (mk_file d 0)) = Ok ss /\ fst (rd_trace_samples native r' k None None (mk_file d' 0)) = Ok ss' /\
  Forall2 (fun x y => real_eq x y = Ok true) ss ss'.
