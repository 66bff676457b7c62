(* Property C146: the size of traces that are all of the length in the binary reel header. *)
From Coq Require Import String ZArith List Bool.
From Verif Require Import Py Packing Formats FileIO Text Toolkit Reader Regular Spec_Packing Spec_Text Spec_Segy Spec_Reader ReaderFacts OpenFacts
  Props_Reader RegularFacts.
Import ListNotations.
Local Open Scope string_scope.
Open Scope list_scope.
Open Scope Z_scope.

(* what the helpers say of any header with a known sample format *)
Theorem C146_helpers : forall h t n, sample_type h t -> hdr_get h "num_samples" = Ok n ->
  exists b, bytes_per_sample h = Ok b /\ samples_per_trace h = Ok n /\ trace_length_bytes h b = Ok (240 + sample_size t * n).
Proof. exact length_bytes. Qed.
Print Assumptions C146_helpers.

(* the sizes of the sample formats, and of the struct types *)
Theorem C146_format_sizes : forall code,
  (forall t, format_code code t -> data_sample_format_size_in_bytes code = Ok (sample_size t)) /\
  ((forall t, ~ format_code code t) -> data_sample_format_size_in_bytes code = Err KeyError).
Proof. intros code. split; [apply sizes_by_code|apply sizes_unknown]. Qed.
Print Assumptions C146_format_sizes.

Theorem C146_struct_sizes : forall name,
  (forall n, In (name, n) [("b", 1); ("B", 1); ("h", 2); ("H", 2); ("i", 4); ("I", 4); ("f", 4); ("ibm", 4)] -> size_of_ctype name = Ok n) /\
  (~ In name ["b"; "B"; "h"; "H"; "i"; "I"; "f"; "ibm"] -> size_of_ctype name = Err ValueError).
Proof. exact struct_sizes. Qed.
Print Assumptions C146_struct_sizes.

(* If all traces of a file have as many samples as the binary reel header says,
   trace k begins k lengths after the first, the number of traces follows from
   the size of the file, and the last trace is the only one that may be cut off. *)
Theorem C146_spacing : forall d enc bc tc e dim r t ts n,
  readable d enc bc tc -> opens d enc bc tc e dim r -> traces_of d tc e r t ts ->
  hdr_get (rd_binary r) "num_samples" = Ok n -> (forall k, 0 <= k < rd_num_traces r -> rd_num_trace_samples r k = Ok n) ->
  exists b l, bytes_per_sample (rd_binary r) = Ok b /\ trace_length_bytes (rd_binary r) b = Ok l /\
    (forall k tr, trace_of ts k tr -> t_pos tr = first_trace (rd_ext r) + k * l) /\
    (rd_num_traces r - 1) * l + 240 <= zlen d - first_trace (rd_ext r) < rd_num_traces r * l + 240 /\
    forall m, zlen d = first_trace (rd_ext r) + m * l -> rd_num_traces r = m.
Proof. exact regular_file. Qed.
Print Assumptions C146_spacing.

(* three traces of two samples of two bytes *)
Definition regular_example : list Z :=
  blank_text ++ packed BinaryReelHeader Big [("data_sample_format", 3); ("num_samples", 2)] ++
  file_trace Big 7 1 5 [10; -20] ++ file_trace Big 7 1 6 [40; 50] ++ file_trace Big 8 2 5 [6; 7].
Example C146_example : (exists r t ts, example regular_example 3 3 r t ts) /\ zlen regular_example = 3600 + 3 * 244 /\
  match open_file regular_example with
  | (Ok r, _) => map (rd_num_trace_samples r) [0; 1; 2] = [Ok 2; Ok 2; Ok 2] /\ hdr_get (rd_binary r) "num_samples" = Ok 2 /\
      bytes_per_sample (rd_binary r) = Ok 2 /\ trace_length_bytes (rd_binary r) 2 = Ok 244
  | _ => False
  end.
Proof.
  split; [apply example_file; vm_compute; reflexivity|]. split; [vm_compute; reflexivity|]. vm_compute. auto.
Qed.
