(* The SEG Y revision 1 standard (SEG Technical Standards Committee, May 2002):
   first and last byte (counted from one) of each entry of the binary file
   header (Table 2) and of the trace header (Table 3), under the names segpy
   gives them.  Written from the standard, not from the code. *)
From Coq Require Import String ZArith List.
Import ListNotations.
Open Scope Z_scope.
Local Open Scope string_scope.

Definition standard_binary_header : list (string * Z * Z) := [
  ("job_id_num", 3201, 3204);
  ("line_num", 3205, 3208);
  ("reel_num", 3209, 3212);
  ("data_traces_per_ensemble", 3213, 3214);
  ("auxiliary_traces_per_ensemble", 3215, 3216);
  ("sample_interval", 3217, 3218);
  ("original_field_sample_interval", 3219, 3220);
  ("num_samples", 3221, 3222);
  ("original_field_num_samples", 3223, 3224);
  ("data_sample_format", 3225, 3226);
  ("ensemble_fold", 3227, 3228);
  ("trace_sorting", 3229, 3230);
  ("vertical_sum_code", 3231, 3232);
  ("sweep_frequency_at_start", 3233, 3234);
  ("sweep_frequency_at_end", 3235, 3236);
  ("sweep_length", 3237, 3238);
  ("sweep_type", 3239, 3240);
  ("sweep_trace_number", 3241, 3242);
  ("sweep_trace_taper_length_at_start", 3243, 3244);
  ("sweep_trace_taper_length_at_end", 3245, 3246);
  ("taper_type", 3247, 3248);
  ("correlated_data_traces", 3249, 3250);
  ("binary_gain_recovered", 3251, 3252);
  ("amplitude_recovery_method", 3253, 3254);
  ("measurement_system", 3255, 3256);
  ("impulse_signal_polarity", 3257, 3258);
  ("vibratory_polarity_code", 3259, 3260);
  ("format_revision_num", 3501, 3502);
  ("fixed_length_trace_flag", 3503, 3504);
  ("num_extended_textual_headers", 3505, 3506)].

Definition standard_trace_header_rev0 : list (string * Z * Z) := [
  ("line_sequence_num", 1, 4);
  ("file_sequence_num", 5, 8);
  ("field_record_num", 9, 12);
  ("trace_num", 13, 16);
  ("energy_source_point_num", 17, 20);
  ("ensemble_num", 21, 24);
  ("ensemble_trace_num", 25, 28);
  ("trace_identification_code", 29, 30);
  ("num_vertically_summed_traces", 31, 32);
  ("num_horizontally_stacked_traces", 33, 34);
  ("data_use", 35, 36);
  ("doc_nreceiver_offset", 37, 40);
  ("receiver_group_elevation", 41, 44);
  ("surface_elevation_at_source", 45, 48);
  ("source_depth_below_surface", 49, 52);
  ("datum_elevation_at_receiver_group", 53, 56);
  ("datum_elevation_at_source", 57, 60);
  ("water_depth_at_source", 61, 64);
  ("water_depth_at_group", 65, 68);
  ("elevation_scalar", 69, 70);
  ("xy_scalar", 71, 72);
  ("source_x", 73, 76);
  ("source_y", 77, 80);
  ("group_x", 81, 84);
  ("group_y", 85, 88);
  ("coordinate_units", 89, 90);
  ("weathering_velocity", 91, 92);
  ("subweathering_velocity", 93, 94);
  ("uphole_time_at_source", 95, 96);
  ("uphole_time_at_group", 97, 98);
  ("source_static_correction", 99, 100);
  ("group_static_correction", 101, 102);
  ("total_static", 103, 104);
  ("lag_time_a", 105, 106);
  ("lag_time_b", 107, 108);
  ("delay_recording_time", 109, 110);
  ("mute_start_time", 111, 112);
  ("mute_end_time", 113, 114);
  ("num_samples", 115, 116);
  ("sample_interval", 117, 118);
  ("gain_type_of_field_instruments", 119, 120);
  ("instrument_gain_constant", 121, 122);
  ("instrument_initial_gain", 123, 124);
  ("correlated", 125, 126);
  ("sweep_frequency_at_start", 127, 128);
  ("sweep_frequency_at_end", 129, 130);
  ("sweep_length", 131, 132);
  ("sweep_type", 133, 134);
  ("sweep_trace_taper_length_at_start", 135, 136);
  ("sweep_trace_taper_length_at_end", 137, 138);
  ("taper_type", 139, 140);
  ("alias_filter_frequency", 141, 142);
  ("alias_filter_slope", 143, 144);
  ("notch_filter_frequency", 145, 146);
  ("notch_filter_slope", 147, 148);
  ("low_cut_frequency", 149, 150);
  ("high_cut_frequency", 151, 152);
  ("low_cut_slope", 153, 154);
  ("high_cut_slope", 155, 156);
  ("year_recorded", 157, 158);
  ("day_of_year", 159, 160);
  ("hour_of_day", 161, 162);
  ("minute_of_hour", 163, 164);
  ("second_of_minute", 165, 166);
  ("time_basis_code", 167, 168);
  ("trace_weighting_factor", 169, 170);
  ("geophone_group_num_roll_switch_position_one", 171, 172);
  ("geophone_group_num_first_trace_original_field", 173, 174);
  ("geophone_group_num_last_trace_original_field", 175, 176);
  ("gap_size", 177, 178);
  ("over_travel", 179, 180)].

Definition standard_trace_header_rev1_extension : list (string * Z * Z) := [
  ("cdp_x", 181, 184);
  ("cdp_y", 185, 188);
  ("inline_number", 189, 192);
  ("crossline_number", 193, 196);
  ("shotpoint_number", 197, 200);
  ("shotpoint_scalar", 201, 202);
  ("trace_unit", 203, 204);
  ("transduction_constant_mantissa", 205, 208);
  ("transduction_constant_exponent", 209, 210);
  ("transduction_units", 211, 212);
  ("device_trace_identifier", 213, 214);
  ("time_scalar", 215, 216);
  ("source_type", 217, 218);
  ("source_energy_direction", 219, 224);
  ("source_measurement_mantissa", 225, 228);
  ("source_measurement_exponent", 229, 230);
  ("source_measurement_unit", 231, 232)].

