(* The values the SEG Y revision 1 standard (May 2002) gives to the fields of
   the binary file header (Table 2) and of the trace header (Table 3), for the
   fields whose values it lists or bounds.  Written from the standard, not
   from the code. *)
From Coq Require Import String ZArith List.
From Verif Require Import Packing Formats Spec_Packing Spec_Standard.
Import ListNotations.
Open Scope Z_scope.
Local Open Scope string_scope.

Inductive values : Set := Between (a b : Z) | OneOf (l : list Z).
Definition in_values (vs : values) (v : Z) : Prop :=
  match vs with Between a b => a <= v <= b | OneOf l => In v l end.

(* two's complement numbers of two and four bytes *)
Definition any16 := Between (- 2 ^ 15) (2 ^ 15 - 1).
Definition any32 := Between (- 2 ^ 31) (2 ^ 31 - 1).

Definition standard_binary_values : list (string * values) := [
  ("num_samples", Between 0 32767);
  ("data_sample_format", OneOf [1; 2; 3; 4; 5; 8]);
  ("trace_sorting", Between (-1) 9);
  ("vertical_sum_code", Between 1 32767);
  ("sweep_type", Between 1 4);
  ("taper_type", Between 1 3);
  ("correlated_data_traces", Between 1 2);
  ("binary_gain_recovered", Between 1 2);
  ("amplitude_recovery_method", Between 1 4);
  ("measurement_system", Between 1 2);
  ("impulse_signal_polarity", Between 1 2);
  ("vibratory_polarity_code", Between 1 8);
  ("format_revision_num", OneOf [0; 256]);
  ("fixed_length_trace_flag", Between 0 1);
  ("num_extended_textual_headers", Between (-1) 32767)].

Definition scalars := OneOf [1; 10; 100; 1000; 10000; -10; -100; -1000; -10000].

Definition standard_trace_values : list (string * values) := [
  ("trace_identification_code", any16);
  ("data_use", Between 1 2);
  ("receiver_group_elevation", any32);
  ("surface_elevation_at_source", any32);
  ("source_depth_below_surface", Between 0 (2 ^ 31 - 1));
  ("datum_elevation_at_receiver_group", any32);
  ("datum_elevation_at_source", any32);
  ("elevation_scalar", scalars);
  ("xy_scalar", scalars);
  ("source_x", any32);
  ("source_y", any32);
  ("group_x", any32);
  ("group_y", any32);
  ("coordinate_units", Between 1 4);
  ("num_samples", Between 0 32767);
  ("gain_type_of_field_instruments", Between 1 32767);
  ("correlated", Between 1 2);
  ("sweep_type", Between 1 4);
  ("taper_type", Between 1 3);
  ("day_of_year", Between 1 366);
  ("hour_of_day", Between 0 23);
  ("minute_of_hour", Between 0 59);
  ("second_of_minute", Between 0 59);
  ("time_basis_code", Between 1 4);
  ("over_travel", Between 1 2);
  ("cdp_x", any32);
  ("cdp_y", any32);
  ("inline_number", any32);
  ("crossline_number", any32);
  ("shotpoint_number", any32);
  ("trace_unit", Between (-1) 9);
  ("transduction_units", Between (-1) 9);
  ("time_scalar", scalars);
  ("source_type", Between (- 2 ^ 15) 9);
  ("source_measurement_unit", Between (-1) 6)].

(* values outside the standard that segpy takes as well: zero for "not
   given", and the end points of the clock *)
Definition tolerated (n : string) (v : Z) : Prop :=
  v = 0 \/
  In (n, v) [("elevation_scalar", -1); ("xy_scalar", -1); ("time_scalar", -1);
             ("hour_of_day", 24); ("minute_of_hour", 60); ("second_of_minute", 60)].

(* the fields which a new header does not set to zero *)
Definition nonzero_defaults_binary : list (string * Z) :=
  [("data_sample_format", 5); ("format_revision_num", 256)].
Definition nonzero_defaults_trace : list (string * Z) :=
  [("num_vertically_summed_traces", 1); ("num_horizontally_stacked_traces", 1); ("data_use", 1);
   ("elevation_scalar", 1); ("xy_scalar", 1); ("correlated", 1)].

(* the byte a table counts the first byte of the header as *)
Definition first_byte (c : fmt) (a : Z) : Prop :=
  (c = BinaryReelHeader /\ a = 3201) \/ ((c = TraceHeaderRev0 \/ c = TraceHeaderRev1) /\ a = 1).
Definition standard_table (c : fmt) (t : list (string * Z * Z)) : Prop :=
  (c = BinaryReelHeader /\ t = standard_binary_header) \/
  (c = TraceHeaderRev0 /\ t = standard_trace_header_rev0) \/
  (c = TraceHeaderRev1 /\ t = (standard_trace_header_rev0 ++ standard_trace_header_rev1_extension)%list).

(* which table is for which header *)
Definition table_of (c : fmt) (tab : list (string * values)) : Prop :=
  (c = BinaryReelHeader /\ tab = standard_binary_values) \/ (c = TraceHeaderRev1 /\ tab = standard_trace_values).

(* the fields that refuse a value of the standard *)
Definition refused : list string := ["data_sample_format"; "datum_elevation_at_receiver_group"].
