(* Field types and header formats of segpy/field_types.py,
   segpy/binary_reel_header.py and segpy/trace_header.py.  No proofs here. *)
From Coq Require Import String ZArith List Bool.
From Verif Require Import Py Packing.
Import ListNotations.
Open Scope Z_scope.
Local Open Scope string_scope.

(* field_types.py:48-52, limits datatypes.py:108-117 *)
Definition Int16 : ftype := mk_ftype "Int16" C_h (-32768) 32767 None.

(* field_types.py:55-59, limits datatypes.py:108-117 *)
Definition NNInt16 : ftype := mk_ftype "NNInt16" C_H 0 32767 None.

(* field_types.py:62-66, limits datatypes.py:108-117 *)
Definition Int32 : ftype := mk_ftype "Int32" C_i (-2147483648) 2147483647 None.

(* field_types.py:69-73, limits datatypes.py:108-117 *)
Definition NNInt32 : ftype := mk_ftype "NNInt32" C_I 0 2147483647 None.

(* trace_header.py:15-17, members trace_header.py:7-12 *)
Definition DataUseField : ftype := mk_ftype "DataUseField" C_h (-32768) 32767 (Some [1; 2]).

(* trace_header.py:42-44, members trace_header.py:20-39 *)
Definition ScalarFactorField : ftype := mk_ftype "ScalarFactorField" C_h (-32768) 32767 (Some [0; 1; 10; 100; 1000; 10000; (-1); (-10); (-100); (-1000); (-10000)]).

(* trace_header.py:61-63, members trace_header.py:47-58 *)
Definition CoordinateUnitsField : ftype := mk_ftype "CoordinateUnitsField" C_h (-32768) 32767 (Some [0; 1; 2; 3; 4]).

(* trace_header.py:72-74, members trace_header.py:66-69 *)
Definition CorrelatedField : ftype := mk_ftype "CorrelatedField" C_h (-32768) 32767 (Some [1; 2]).

(* trace_header.py:91-93, members trace_header.py:77-88 *)
Definition SweepTypeField : ftype := mk_ftype "SweepTypeField" C_h (-32768) 32767 (Some [0; 1; 2; 3; 4]).

(* trace_header.py:108-110, members trace_header.py:96-105 *)
Definition TaperTypeField : ftype := mk_ftype "TaperTypeField" C_h (-32768) 32767 (Some [0; 1; 2; 3]).

(* trace_header.py:113-121 *)
Definition DayOfYearField : ftype := mk_ftype "DayOfYearField" C_h 0 366 None.

(* trace_header.py:124-128 *)
Definition HourOfDayField : ftype := mk_ftype "HourOfDayField" C_h 0 24 None.

(* trace_header.py:131-135 *)
Definition MinuteOfHourField : ftype := mk_ftype "MinuteOfHourField" C_h 0 60 None.

(* trace_header.py:138-142 *)
Definition SecondOfMinute : ftype := mk_ftype "SecondOfMinute" C_h 0 60 None.

(* trace_header.py:157-159, members trace_header.py:145-154 *)
Definition TimeBasisCodeField : ftype := mk_ftype "TimeBasisCodeField" C_h (-32768) 32767 (Some [0; 1; 2; 3; 4]).

(* trace_header.py:172-174, members trace_header.py:162-169 *)
Definition OverTravelField : ftype := mk_ftype "OverTravelField" C_h (-32768) 32767 (Some [0; 1; 2]).

(* trace_header.py:203-205, members trace_header.py:177-200 *)
Definition SampleUnitField : ftype := mk_ftype "SampleUnitField" C_h (-32768) 32767 (Some [(-1); 0; 1; 2; 3; 4; 5; 6; 7; 8; 9]).

(* trace_header.py:208-225 *)
Definition SourceTypeField : ftype := mk_ftype "SourceTypeField" C_h (-32768) 9 None.

(* trace_header.py:252-254, members trace_header.py:228-249 *)
Definition SourceMeasurementUnitField : ftype := mk_ftype "SourceMeasurementUnitField" C_h (-32768) 32767 (Some [(-1); 0; 1; 2; 3; 4; 5; 6]).

(* binary_reel_header.py:10-12, members datatypes.py:11-25 *)
Definition DataSampleFormatField : ftype := mk_ftype "DataSampleFormatField" C_h (-32768) 32767 (Some [1; 2; 3; 5; 8]).

(* binary_reel_header.py:42-44, members binary_reel_header.py:15-39 *)
Definition TraceSortingField : ftype := mk_ftype "TraceSortingField" C_h (-32768) 32767 (Some [(-1); 0; 1; 2; 3; 4; 5; 6; 7; 8; 9]).

(* binary_reel_header.py:57-59, members binary_reel_header.py:47-54 *)
Definition CorrelatedDataTracesField : ftype := mk_ftype "CorrelatedDataTracesField" C_h (-32768) 32767 (Some [0; 1; 2]).

(* binary_reel_header.py:72-74, members binary_reel_header.py:62-69 *)
Definition BinaryGainRecoveredField : ftype := mk_ftype "BinaryGainRecoveredField" C_h (-32768) 32767 (Some [0; 1; 2]).

(* binary_reel_header.py:91-93, members binary_reel_header.py:77-88 *)
Definition AmplitudeRecoveryMethodField : ftype := mk_ftype "AmplitudeRecoveryMethodField" C_h (-32768) 32767 (Some [0; 1; 2; 3; 4]).

(* binary_reel_header.py:108-110, members binary_reel_header.py:96-105 *)
Definition MeasurementSystemField : ftype := mk_ftype "MeasurementSystemField" C_h (-32768) 32767 (Some [0; 1; 2]).

(* binary_reel_header.py:123-125, members binary_reel_header.py:113-120 *)
Definition ImpulseSignalPolarityField : ftype := mk_ftype "ImpulseSignalPolarityField" C_h (-32768) 32767 (Some [0; 1; 2]).

(* binary_reel_header.py:150-152, members binary_reel_header.py:128-147 *)
Definition VibratoryPolarityCodeField : ftype := mk_ftype "VibratoryPolarityCodeField" C_h (-32768) 32767 (Some [0; 1; 2; 3; 4; 5; 6; 7; 8]).

(* binary_reel_header.py:169-171, members binary_reel_header.py:155-166 *)
Definition FixedLengthTraceFlagField : ftype := mk_ftype "FixedLengthTraceFlagField" C_h (-32768) 32767 (Some [0; 1]).

(* binary_reel_header.py:174-177 *)
Definition NumExtendedTextualHeadersField : ftype := mk_ftype "NumExtendedTextualHeadersField" C_h (-1) 32767 None.

(* binary_reel_header.py:180-182, members revisions.py:18-20 *)
Definition FormatRevisionNumField : ftype := mk_ftype "FormatRevisionNumField" C_h (-32768) 32767 (Some [0; 256]).

(* trace_header.py:257-665 *)
Definition TraceHeaderRev0_fields : list fieldd := [
  mk_field "line_sequence_num" Int32 1 0;  (* 262 *)
  mk_field "file_sequence_num" Int32 5 0;  (* 268 *)
  mk_field "field_record_num" Int32 9 0;  (* 272 *)
  mk_field "trace_num" Int32 13 0;  (* 276 *)
  mk_field "energy_source_point_num" Int32 17 0;  (* 280 *)
  mk_field "ensemble_num" Int32 21 0;  (* 286 *)
  mk_field "ensemble_trace_num" NNInt32 25 0;  (* 290 *)
  mk_field "trace_identification_code" Int16 29 0;  (* 294 *)
  mk_field "num_vertically_summed_traces" NNInt16 31 1;  (* 298 *)
  mk_field "num_horizontally_stacked_traces" NNInt16 33 1;  (* 302 *)
  mk_field "data_use" DataUseField 35 1;  (* 306 *)
  mk_field "doc_nreceiver_offset" Int32 37 0;  (* 310 *)
  mk_field "receiver_group_elevation" Int32 41 0;  (* 315 *)
  mk_field "surface_elevation_at_source" Int32 45 0;  (* 321 *)
  mk_field "source_depth_below_surface" NNInt32 49 0;  (* 325 *)
  mk_field "datum_elevation_at_receiver_group" NNInt32 53 0;  (* 329 *)
  mk_field "datum_elevation_at_source" Int32 57 0;  (* 333 *)
  mk_field "water_depth_at_source" Int32 61 0;  (* 337 *)
  mk_field "water_depth_at_group" Int32 65 0;  (* 341 *)
  mk_field "elevation_scalar" ScalarFactorField 69 1;  (* 346 *)
  mk_field "xy_scalar" ScalarFactorField 71 1;  (* 358 *)
  mk_field "source_x" Int32 73 0;  (* 366 *)
  mk_field "source_y" Int32 77 0;  (* 376 *)
  mk_field "group_x" Int32 81 0;  (* 386 *)
  mk_field "group_y" Int32 85 0;  (* 396 *)
  mk_field "coordinate_units" CoordinateUnitsField 89 0;  (* 406 *)
  mk_field "weathering_velocity" NNInt16 91 0;  (* 411 *)
  mk_field "subweathering_velocity" NNInt16 93 0;  (* 416 *)
  mk_field "uphole_time_at_source" NNInt16 95 0;  (* 421 *)
  mk_field "uphole_time_at_group" NNInt16 97 0;  (* 426 *)
  mk_field "source_static_correction" Int16 99 0;  (* 431 *)
  mk_field "group_static_correction" Int16 101 0;  (* 436 *)
  mk_field "total_static" Int16 103 0;  (* 441 *)
  mk_field "lag_time_a" Int16 105 0;  (* 447 *)
  mk_field "lag_time_b" Int16 107 0;  (* 457 *)
  mk_field "delay_recording_time" Int16 109 0;  (* 464 *)
  mk_field "mute_start_time" NNInt16 111 0;  (* 477 *)
  mk_field "mute_end_time" NNInt16 113 0;  (* 482 *)
  mk_field "num_samples" NNInt16 115 0;  (* 487 *)
  mk_field "sample_interval" Int16 117 0;  (* 492 *)
  mk_field "gain_type_of_field_instruments" NNInt16 119 0;  (* 507 *)
  mk_field "instrument_gain_constant" Int16 121 0;  (* 512 *)
  mk_field "instrument_initial_gain" Int16 123 0;  (* 517 *)
  mk_field "correlated" CorrelatedField 125 1;  (* 523 *)
  mk_field "sweep_frequency_at_start" NNInt16 127 0;  (* 528 *)
  mk_field "sweep_frequency_at_end" NNInt16 129 0;  (* 533 *)
  mk_field "sweep_length" NNInt16 131 0;  (* 538 *)
  mk_field "sweep_type" SweepTypeField 133 0;  (* 543 *)
  mk_field "sweep_trace_taper_length_at_start" NNInt16 135 0;  (* 548 *)
  mk_field "sweep_trace_taper_length_at_end" NNInt16 137 0;  (* 553 *)
  mk_field "taper_type" TaperTypeField 139 0;  (* 558 *)
  mk_field "alias_filter_frequency" NNInt16 141 0;  (* 563 *)
  mk_field "alias_filter_slope" Int16 143 0;  (* 568 *)
  mk_field "notch_filter_frequency" NNInt16 145 0;  (* 573 *)
  mk_field "notch_filter_slope" Int16 147 0;  (* 578 *)
  mk_field "low_cut_frequency" NNInt16 149 0;  (* 583 *)
  mk_field "high_cut_frequency" NNInt16 151 0;  (* 588 *)
  mk_field "low_cut_slope" Int16 153 0;  (* 593 *)
  mk_field "high_cut_slope" Int16 155 0;  (* 598 *)
  mk_field "year_recorded" Int16 157 0;  (* 603 *)
  mk_field "day_of_year" DayOfYearField 159 0;  (* 612 *)
  mk_field "hour_of_day" HourOfDayField 161 0;  (* 617 *)
  mk_field "minute_of_hour" MinuteOfHourField 163 0;  (* 622 *)
  mk_field "second_of_minute" SecondOfMinute 165 0;  (* 627 *)
  mk_field "time_basis_code" TimeBasisCodeField 167 0;  (* 632 *)
  mk_field "trace_weighting_factor" NNInt16 169 0;  (* 637 *)
  mk_field "geophone_group_num_roll_switch_position_one" Int16 171 0;  (* 642 *)
  mk_field "geophone_group_num_first_trace_original_field" Int16 173 0;  (* 647 *)
  mk_field "geophone_group_num_last_trace_original_field" Int16 175 0;  (* 652 *)
  mk_field "gap_size" NNInt16 177 0;  (* 657 *)
  mk_field "over_travel" OverTravelField 179 0  (* 662 *)
].

(* trace_header.py:668-815 *)
Definition TraceHeaderRev1_fields : list fieldd := [
  mk_field "cdp_x" Int32 181 0;  (* 670 *)
  mk_field "cdp_y" Int32 185 0;  (* 677 *)
  mk_field "inline_number" Int32 189 0;  (* 684 *)
  mk_field "crossline_number" Int32 193 0;  (* 692 *)
  mk_field "shotpoint_number" Int32 197 0;  (* 699 *)
  mk_field "shotpoint_scalar" Int16 201 0;  (* 708 *)
  mk_field "trace_unit" SampleUnitField 203 0;  (* 718 *)
  mk_field "transduction_constant_mantissa" Int32 205 0;  (* 723 *)
  mk_field "transduction_constant_exponent" Int16 209 0;  (* 733 *)
  mk_field "transduction_units" SampleUnitField 211 0;  (* 742 *)
  mk_field "device_trace_identifier" Int16 213 0;  (* 750 *)
  mk_field "time_scalar" ScalarFactorField 215 0;  (* 759 *)
  mk_field "source_type" SourceTypeField 217 0;  (* 771 *)
  mk_field "source_energy_direction" Int32 219 0;  (* 776 *)
  mk_field "source_measurement_mantissa" Int32 225 0;  (* 784 *)
  mk_field "source_measurement_exponent" Int16 229 0;  (* 798 *)
  mk_field "source_measurement_unit" SourceMeasurementUnitField 231 0  (* 812 *)
].

(* binary_reel_header.py:185-361 *)
Definition BinaryReelHeader_fields : list fieldd := [
  mk_field "job_id_num" Int32 3201 0;  (* 190 *)
  mk_field "line_num" NNInt32 3205 0;  (* 194 *)
  mk_field "reel_num" Int32 3209 0;  (* 199 *)
  mk_field "data_traces_per_ensemble" NNInt16 3213 0;  (* 204 *)
  mk_field "auxiliary_traces_per_ensemble" NNInt16 3215 0;  (* 209 *)
  mk_field "sample_interval" NNInt16 3217 0;  (* 214 *)
  mk_field "original_field_sample_interval" NNInt16 3219 0;  (* 219 *)
  mk_field "num_samples" NNInt16 3221 0;  (* 224 *)
  mk_field "original_field_num_samples" NNInt16 3223 0;  (* 231 *)
  mk_field "data_sample_format" DataSampleFormatField 3225 5;  (* 236 *)
  mk_field "ensemble_fold" NNInt16 3227 0;  (* 241 *)
  mk_field "trace_sorting" TraceSortingField 3229 0;  (* 247 *)
  mk_field "vertical_sum_code" NNInt16 3231 0;  (* 251 *)
  mk_field "sweep_frequency_at_start" NNInt16 3233 0;  (* 260 *)
  mk_field "sweep_frequency_at_end" NNInt16 3235 0;  (* 265 *)
  mk_field "sweep_length" NNInt16 3237 0;  (* 270 *)
  mk_field "sweep_type" SweepTypeField 3239 0;  (* 275 *)
  mk_field "sweep_trace_number" Int16 3241 0;  (* 280 *)
  mk_field "sweep_trace_taper_length_at_start" NNInt16 3243 0;  (* 285 *)
  mk_field "sweep_trace_taper_length_at_end" NNInt16 3245 0;  (* 290 *)
  mk_field "taper_type" TaperTypeField 3247 0;  (* 295 *)
  mk_field "correlated_data_traces" CorrelatedDataTracesField 3249 0;  (* 300 *)
  mk_field "binary_gain_recovered" BinaryGainRecoveredField 3251 0;  (* 305 *)
  mk_field "amplitude_recovery_method" AmplitudeRecoveryMethodField 3253 0;  (* 310 *)
  mk_field "measurement_system" MeasurementSystemField 3255 0;  (* 315 *)
  mk_field "impulse_signal_polarity" ImpulseSignalPolarityField 3257 0;  (* 320 *)
  mk_field "vibratory_polarity_code" VibratoryPolarityCodeField 3259 0;  (* 325 *)
  mk_field "format_revision_num" FormatRevisionNumField 3501 256;  (* 331 *)
  mk_field "fixed_length_trace_flag" FixedLengthTraceFlagField 3503 0;  (* 340 *)
  mk_field "num_extended_textual_headers" NumExtendedTextualHeadersField 3505 0  (* 345 *)
].

(* Names of the attributes of a header class other than its fields that a
   keyword argument could name (header.py:9-92 and the class constants). *)
Definition header_attrs : list string := [
  "START_OFFSET_IN_BYTES"; "LENGTH_IN_BYTES"; "copy"; "ordered_field_names"; "_ordered_field_names"].

(* binary_reel_header.py:185-188 *)
Definition BinaryReelHeader : fmt :=
  mk_fmt [("BinaryReelHeader", BinaryReelHeader_fields)] 3201 (Some 400) header_attrs.

(* trace_header.py:257-260 *)
Definition TraceHeaderRev0 : fmt :=
  mk_fmt [("TraceHeaderRev0", TraceHeaderRev0_fields)] 1 (Some 240) header_attrs.

(* trace_header.py:668 *)
Definition TraceHeaderRev1 : fmt :=
  mk_fmt [("TraceHeaderRev0", TraceHeaderRev0_fields); ("TraceHeaderRev1", TraceHeaderRev1_fields)]
         1 (Some 240) header_attrs.
