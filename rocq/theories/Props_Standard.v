(* Properties C96 and further theorems for C24, C25 and C53. *)
From Coq Require Import String ZArith List Bool.
From Verif Require Import Py Util Packing Formats Text Spec_Packing Spec_Standard Spec_Values Spec_Text StandardFacts GuessFacts.
Import ListNotations.
Open Scope Z_scope.
Local Open Scope string_scope.
Local Open Scope list_scope.

(* ---------------- C24 ---------------- *)

(* attributes of a header object other than its fields survive pickling *)
Theorem C24_other_attributes : forall (h h' : header) (n : string),
  NoDup (map fst (h_extra h)) -> class_ok (h_cls h) -> fmt_levels (h_cls h) <> [] ->
  hdr_pickle h = Ok h' -> (forall f, is_field (h_cls h) f -> fd_name f <> n) -> hdr_get h' n = hdr_get h n.
Proof. exact pickle_extra. Qed.
Print Assumptions C24_other_attributes.

Example C24_other_example : exists h h1 h2, hdr_init TraceHeaderRev1 [] [("cdp_x", 9)] = Ok h /\
  hdr_set h "note" 5 = Ok h1 /\ hdr_pickle h1 = Ok h2 /\ hdr_get h2 "note" = Ok 5.
Proof. do 3 eexists. do 3 (split; [vm_compute; reflexivity|]). vm_compute. reflexivity. Qed.

(* ---------------- C25 ---------------- *)

(* in the bytes of a packed header the value of a field is where the standard
   puts it, counted from the first byte of that header *)
Theorem C25_packed_positions : forall c t fb e p h buf n a b v,
  standard_table c t -> first_byte c fb -> In (n, a, b) t -> n <> "source_energy_direction" ->
  make_header_packer c e = Ok p -> h_cls h = c -> pk_pack p h = Ok buf -> hdr_get h n = Ok v ->
  stored_at e buf (a - fb) (b - a + 1) v.
Proof. exact shipped_packed. Qed.
Print Assumptions C25_packed_positions.

Example C25_packed_example : exists p h buf, make_header_packer TraceHeaderRev0 Big = Ok p /\
  hdr_init TraceHeaderRev0 [] [("trace_num", 258)] = Ok h /\ pk_pack p h = Ok buf /\
  py_slice buf 12 16 = [0; 0; 1; 2] /\ hdr_get h "trace_num" = Ok 258 /\ In ("trace_num", 13, 16) standard_trace_header_rev0.
Proof.
  do 3 eexists. do 3 (split; [vm_compute; reflexivity|]). do 2 (split; [vm_compute; reflexivity|]).
  do 3 right. left. reflexivity.
Qed.

(* ---------------- C53 ---------------- *)

(* the decision for every series of bytes that is not empty and not all NUL *)
Theorem C53_decision : forall bs : list Z, bs <> [] -> ~ Forall (eq 0) bs ->
  let a := at_least_half (common_in ASCII) bs in let e := at_least_half (common_in EBCDIC) bs in
  (guess_encoding bs 1 2 = Some ASCII <-> a /\ ~ e) /\
  (guess_encoding bs 1 2 = Some EBCDIC <-> e /\ ~ a) /\
  (guess_encoding bs 1 2 = None <-> (a /\ e) \/ (~ a /\ ~ e)).
Proof. exact guess_decides. Qed.
Print Assumptions C53_decision.

Example C53_decision_example : guess_encoding [255; 255; 65] 1 2 = None /\ guess_encoding [65; 66; 255] 1 2 = Some ASCII /\
  guess_encoding [193; 194; 0] 1 2 = Some EBCDIC.
Proof. vm_compute. auto. Qed.

(* ---------------- C96 ---------------- *)

(* Full statement: every value the standard gives to a field is accepted by
   the field.  Two fields refuse some: *)
Theorem C96_standard_values_refuted : exists f g, is_field BinaryReelHeader f /\ is_field TraceHeaderRev1 g /\
  In (fd_name f, OneOf [1; 2; 3; 4; 5; 8]) standard_binary_values /\ ~ accepts (fd_type f) 4 /\
  In (fd_name g, any32) standard_trace_values /\ forall v, v < 0 -> ~ accepts (fd_type g) v.
Proof. exact standard_refused. Qed.
Print Assumptions C96_standard_values_refuted.

Theorem C96_standard_values_partial : forall c tab n vs, table_of c tab -> In (n, vs) tab -> ~ In n refused ->
  exists f, is_field c f /\ fd_name f = n /\ forall v, in_values vs v -> accepts (fd_type f) v.
Proof. exact standard_accepted. Qed.
Print Assumptions C96_standard_values_partial.

(* and other values are refused, up to a few *)
Theorem C96_other_values : forall c tab n vs f v, table_of c tab -> In (n, vs) tab -> is_field c f -> fd_name f = n ->
  accepts (fd_type f) v -> in_values vs v \/ tolerated n v.
Proof. exact standard_only. Qed.
Print Assumptions C96_other_values.

(* these few are taken: the scalars -1 and the end points of the clock *)
Theorem C96_tolerated : forall f v, is_field TraceHeaderRev1 f -> tolerated (fd_name f) v -> v <> 0 -> accepts (fd_type f) v.
Proof. exact tolerated_taken. Qed.
Print Assumptions C96_tolerated.

Example C96_tolerated_example : exists h, hdr_init TraceHeaderRev1 [] [("second_of_minute", 60); ("hour_of_day", 24); ("xy_scalar", -1)] = Ok h /\
  tolerated "second_of_minute" 60 /\ hdr_set h "second_of_minute" 61 = Err ValueError.
Proof. eexists. split; [vm_compute; reflexivity|]. split; [right; do 5 right; left; reflexivity|vm_compute; reflexivity]. Qed.

(* zero among them, save in three fields *)
Theorem C96_zero : forall c f, In c [BinaryReelHeader; TraceHeaderRev0; TraceHeaderRev1] -> is_field c f ->
  (accepts (fd_type f) 0 <-> ~ In (fd_name f) ["data_use"; "correlated"; "data_sample_format"]).
Proof. exact zero_taken. Qed.
Print Assumptions C96_zero.

Theorem C96_defaults :
  (forall f, is_field BinaryReelHeader f -> In (fd_name f, fd_default f) nonzero_defaults_binary \/
     (~ In (fd_name f) (map fst nonzero_defaults_binary) /\ fd_default f = 0)) /\
  (forall f, is_field TraceHeaderRev1 f -> In (fd_name f, fd_default f) nonzero_defaults_trace \/
     (~ In (fd_name f) (map fst nonzero_defaults_trace) /\ fd_default f = 0)).
Proof. exact shipped_defaults. Qed.
Print Assumptions C96_defaults.

Example C96_example : exists h h1, hdr_init TraceHeaderRev1 [] [("day_of_year", 366); ("xy_scalar", -10000)] = Ok h /\
  hdr_get h "data_use" = Ok 1 /\ hdr_set h "day_of_year" 367 = Err ValueError /\
  hdr_set h "xy_scalar" 7 = Err ValueError /\ hdr_set h "datum_elevation_at_receiver_group" (-1) = Err ValueError /\
  hdr_set h "datum_elevation_at_source" (-1) = Ok h1.
Proof. do 2 eexists. do 5 (split; [vm_compute; reflexivity|]). vm_compute. reflexivity. Qed.
