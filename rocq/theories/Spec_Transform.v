(* Specification vocabulary for datasets transformed on writing. *)
From Coq Require Import String ZArith List Bool.
From Verif Require Import Py PyFloat IbmFloat Spec_Ibm Packing Spec_Packing FileIO Text Toolkit Spec_Segy Reader Spec_Reader Spec_Writer Spec_Fields.
Import ListNotations.
Local Open Scope string_scope.
Open Scope list_scope.
Open Scope Z_scope.

(* h' has the fields of h, but for those named *)
Definition same_but (names : list string) (h h' : header) : Prop :=
  h_cls h' = h_cls h /\ forall f, is_field (h_cls h) f -> ~ In (fd_name f) names -> hdr_get h' (fd_name f) = hdr_get h (fd_name f).

(* The reader r' of the contents d' gives the same text, pages and number of
   traces as the reader r of d; what the others have to do with each other is
   said by three relations. *)
Definition transformed (bin hd : header -> header -> Prop) (sm : real -> real -> Prop) (d : list Z) (r : reader) (d' : list Z) (r' : reader) : Prop :=
  rd_text r' = rd_text r /\ bin (rd_binary r) (rd_binary r') /\ rd_ext r' = rd_ext r /\
  rd_num_traces r' = rd_num_traces r /\ rd_trace_indexes r' = rd_trace_indexes r /\
  forall k native q q', 0 <= k < rd_num_traces r -> exists h h' ss ss',
    fst (rd_trace_header r k None (mk_file d q)) = Ok h /\ fst (rd_trace_header r' k None (mk_file d' q')) = Ok h' /\ hd h h' /\
    fst (rd_trace_samples native r k None None (mk_file d q)) = Ok ss /\ fst (rd_trace_samples native r' k None None (mk_file d' q')) = Ok ss' /\
    Forall2 sm ss ss'.

(* k' is the number of the type that is nearest to k *)
Definition nearest_in (t : segytype) (k k' : Z) : Prop :=
  in_sample_type t k' /\ forall j, in_sample_type t j -> Z.abs (k' - k) <= Z.abs (j - k).

(* a number that is not NaN or an infinity, and its value in units *)
Definition finite_number (s : real) : Prop := match s with RFloat f => finite f | _ => True end.
Definition value (s : real) : Z := match s with RInt n => n * unit | RFloat f => units f | RIbm w => ibm_units w end.
(* s' is the number s as a sample of type t *)
Definition converted (t : segytype) (s s' : real) : Prop :=
  match t with
  | T_IBM => exists w', s' = RIbm w' /\ truncation (value s) w'
  | T_FLOAT32 => (~ finite_number s /\ s' = s) \/
      exists f g, s' = RFloat f /\ float_wf g /\ finite g /\ units g = value s /\ nearest_single g f
  | _ => exists k, s' = RInt k /\ nearest_in t (Z.quot (value s) unit) k
  end.
(* a number that the type has room for *)
Definition convertible (t : segytype) (s : real) : Prop :=
  match t with T_FLOAT32 => finite_number s -> Z.abs (value s) < single_limit | _ => finite_number s end.

(* every sample of every trace *)
Definition all_samples (native : endian) (d : list Z) (r : reader) (P : real -> Prop) : Prop :=
  forall k ss, 0 <= k < rd_num_traces r -> fst (rd_trace_samples native r k None None (mk_file d 0)) = Ok ss -> Forall P ss.

(* the product of two numbers (in units) rounded to a double *)
Definition product (u v : Z) (p : float) : Prop := rounds_to (u * v) unit p.
(* u limited to the interval from -m to m *)
Definition limited (m u : Z) : Z := Z.max (- m) (Z.min m u).
(* 3.402823e38 as a double, in units *)
Definition float32_limit : Z := 9007197483358500 * 2 ^ (75 + 1074).

(* a finite factor below 2^700 *)
Definition moderate (f : float) : Prop := float_wf f /\ finite f /\ Z.abs (units f) < 2 ^ 700 * unit.

(* s' is the sample s of type t times f *)
Definition scaled (t : segytype) (f : float) (s s' : real) : Prop :=
  match t with
  | T_IBM => exists w p w', s = RIbm w /\ s' = RIbm w' /\ product (ibm_units w) (units f) p /\ truncation (limited ibm_max (units p)) w'
  | T_FLOAT32 => exists g p q g', s = RFloat g /\ s' = RFloat g' /\ product (units g) (units f) p /\
      float_wf q /\ finite q /\ units q = limited float32_limit (units p) /\ nearest_single q g'
  | _ => exists n p k, s = RInt n /\ s' = RInt k /\ product (n * unit) (units f) p /\ nearest_in t (Z.quot (units p) unit) k
  end.
(* a sample whose product can be written *)
Definition scalable (t : segytype) (f : float) (s : real) : Prop :=
  match t, s with
  | T_IBM, RIbm w => forall p, product (ibm_units w) (units f) p -> units p = 0 \/ ibm_min <= Z.abs (units p)
  | T_FLOAT32, RFloat g => finite g
  | _, _ => True
  end.

(* the fields that are scaled *)
Definition source_field (n : string) : Prop := n = "source_x" \/ n = "source_y".
(* the coordinate named n of h' is that of h times f, without its fraction *)
Definition coordinate_scaled (f : float) (n : string) (h h' : header) : Prop :=
  exists v p, hdr_get h n = Ok v /\ product (v * unit) (units f) p /\ hdr_get h' n = Ok (Z.quot (units p) unit).
Definition coordinates_scaled (f : float) (h h' : header) : Prop :=
  same_but ["source_x"; "source_y"] h h' /\ coordinate_scaled f "source_x" h h' /\ coordinate_scaled f "source_y" h h'.
(* a coordinate whose product is in the range of the field *)
Definition coordinate_fits (f : float) (n : string) (h : header) : Prop :=
  forall v p, hdr_get h n = Ok v -> product (v * unit) (units f) p -> - 2 ^ 31 <= Z.quot (units p) unit < 2 ^ 31.
