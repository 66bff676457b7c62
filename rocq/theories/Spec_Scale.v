(* Specification for C112 and C113: what the product of a number and any factor is, and
   what becomes of it.  Nothing here refers to the code. *)
From Coq Require Import String ZArith List Bool SpecFloat.
From Verif Require Import Py PyFloat IbmFloat Packing Formats FileIO Toolkit Reader FieldTypes Spec_Ibm Spec_Segy Spec_Reader Spec_Transform.
Import ListNotations.
Open Scope Z_scope.

(* a value: a number in units, an infinity (true: the negative one) or no number *)
Inductive extended := Num (u : Z) | Inf (negative : bool) | NoNumber.
Definition float_value (f : float) : extended :=
  match f with S754_nan => NoNumber | S754_infinity s => Inf s | _ => Num (units f) end.
Definition sample_value (s : real) : extended :=
  match s with RInt n => Num (n * unit) | RFloat f => float_value f | RIbm w => Num (ibm_units w) end.

(* from here on IEEE 754 arithmetic gives an infinity: 2^1024 - 2^970, half a
   unit above the largest double *)
Definition too_large : Z := (2 ^ 54 - 1) * 2 ^ (970 + 1074).
(* the IEEE 754 product *)
Definition ieee_product (a b c : extended) : Prop :=
  match a, b with
  | NoNumber, _ | _, NoNumber => c = NoNumber
  | Inf s, Inf t => c = Inf (xorb s t)
  | Inf s, Num u | Num u, Inf s => (u = 0 /\ c = NoNumber) \/ (0 < u /\ c = Inf s) \/ (u < 0 /\ c = Inf (negb s))
  | Num u, Num v => (Z.abs (u * v) < too_large * unit /\ exists p, product u v p /\ c = Num (units p)) \/
      (too_large * unit <= Z.abs (u * v) /\ c = Inf (u * v <? 0))
  end.
(* the number written for it when the largest is m: what is not a number counts
   as larger than all of them *)
Definition kept (m : Z) (c : extended) : Z :=
  match c with Num u => limited m u | Inf true => - m | Inf false | NoNumber => m end.

(* the sample s' is read back where s was, after scaling with f *)
Definition scaled_by (t : segytype) (f : float) (s s' : real) : Prop :=
  exists c, ieee_product (sample_value s) (float_value f) c /\
  match t with
  | T_IBM => exists w', s' = RIbm w' /\ truncation (kept ibm_max c) w'
  | T_FLOAT32 => exists q g', s' = RFloat g' /\ float_wf q /\ finite q /\ units q = kept float32_limit c /\ nearest_single q g'
  | _ => exists u k, c = Num u /\ s' = RInt k /\ nearest_in t (Z.quot u unit) k
  end.
(* the product can be written *)
Definition fits (t : segytype) (c : extended) : Prop :=
  match t with
  | T_IBM => kept ibm_max c = 0 \/ ibm_min <= Z.abs (kept ibm_max c)
  | T_FLOAT32 => True
  | _ => exists u, c = Num u
  end.
Definition fits_by (t : segytype) (f : float) (s : real) : Prop :=
  forall c, ieee_product (sample_value s) (float_value f) c -> fits t c.

(* the coordinate named n of h' is that of h times f, without its fraction *)
Definition coordinate_by (f : float) (n : string) (h h' : header) : Prop :=
  exists v u, hdr_get h n = Ok v /\ ieee_product (Num (v * unit)) (float_value f) (Num u) /\ hdr_get h' n = Ok (Z.quot u unit).
Definition coordinates_by (f : float) (h h' : header) : Prop :=
  same_but ["source_x"; "source_y"]%string h h' /\ coordinate_by f "source_x" h h' /\ coordinate_by f "source_y" h h'.
(* a product in the range of the field *)
Definition in_place (c : extended) : Prop := exists u, c = Num u /\ - 2 ^ 31 <= Z.quot u unit < 2 ^ 31.
Definition placed_by (f : float) (n : string) (h : header) : Prop :=
  forall v c, hdr_get h n = Ok v -> ieee_product (Num (v * unit)) (float_value f) c -> in_place c.
(* the traces of an open file whose headers have the property P *)
Definition all_headers (d : list Z) (r : reader) (P : header -> Prop) : Prop :=
  forall k h, 0 <= k < rd_num_traces r -> fst (rd_trace_header r k None (mk_file d 0)) = Ok h -> P h.
