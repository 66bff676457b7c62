(* Properties C08, C11, C33, C34, C58, C71, C96, C111, C119 and C125: what exactly
   is given where the code does not give what it should, and when. *)
From Coq Require Import String ZArith List Bool Lia ZifyBool.
From Verif Require Import Py PyFloat IbmFloat Util Spec_Util Catalog Packing Formats FormatFacts FileIO Text TextIO Float32 Toolkit Reader Cache
  PyFacts Spec_Ibm FloatFacts IbmFacts Spec_Packing Spec_Text Spec_Segy Spec_Reader ToolkitFacts ReaderFacts OpenFacts Spec_Writer WriterFacts Spec_Cache CacheFacts
  ExactFacts ConvertFacts Props_Writer Spec_Values StandardFacts Transform Spec_Transform Spec_Scale ConvertOnly Props_Transform
  Checks Spec_Check CheckFacts FewerFacts Props_Copy Props_Check Commands Spec_Commands ExitFacts.
Import ListNotations.
Local Open Scope string_scope.
Open Scope list_scope.
Open Scope Z_scope.

(* ---------------- C08 ---------------- *)

(* Of two IBM floats of which one is zero or in the normal range: equal exactly if
   they have the same value and the same sign bit (which only differs for equal
   values if they are zero).  Of two below the normal range: equal exactly if they
   have the same sign bit and the digits of the one with the smaller exponent,
   without those the exponent of the other drops, are the digits of the other. *)
Theorem C08_eq_exact : forall x y, word_ok x -> word_ok y ->
  (~ (tiny x /\ tiny y) -> exists b, ibm_eq x y = Ok b /\
     (b = true <-> ibm_units x = ibm_units y /\ (w0 x <? 128) = (w0 y <? 128))) /\
  (tiny x -> tiny y -> ibm_E x <= ibm_E y -> exists b, ibm_eq x y = Ok b /\
     (b = true <-> (w0 x <? 128) = (w0 y <? 128) /\ ibm_M x / 16 ^ (ibm_E y - ibm_E x) = ibm_M y)).
Proof. exact (fun x y Hx Hy => conj (eq_not_tiny x y Hx Hy) (eq_tiny x y Hx Hy)). Qed.
Print Assumptions C08_eq_exact.
(* the other case is the same with x and y exchanged *)
Theorem C08_symmetric : forall x y, word_ok x -> word_ok y -> ibm_eq x y = ibm_eq y x.
Proof. exact eq_symmetric. Qed.
Print Assumptions C08_symmetric.
(* so == is no equivalence *)
Theorem C08_transitive_refuted : exists x y z, word_ok x /\ word_ok y /\ word_ok z /\
  ibm_eq x y = Ok true /\ ibm_eq y z = Ok true /\ ibm_eq x z = Ok false.
Proof. exists (W 0 0 0 16), (W 1 0 0 1), (W 0 0 0 17). unfold word_ok; cbn [w0 w1 w2 w3]. repeat (split; [lia|]). vm_compute. auto. Qed.
Print Assumptions C08_transitive_refuted.
Example C08_eq_exact_example : tiny (W 0 0 0 16) /\ tiny (W 1 0 0 1) /\ ibm_M (W 0 0 0 16) / 16 ^ 1 = ibm_M (W 1 0 0 1) /\
  ~ tiny (W 66 0 18 52) /\ ibm_units (W 66 0 18 52) = ibm_units (W 64 18 52 0).
Proof.
  rewrite !tiny_spec by (unfold word_ok; cbn; lia). unfold ibm_M, ibm_E; cbn [w0 w1 w2 w3].
  change (0 mod 128) with 0. change (1 mod 128) with 1. change (66 mod 128) with 66.
  split; [split; [discriminate|reflexivity]|]. split; [split; [discriminate|reflexivity]|]. split; [reflexivity|].
  split; [|vm_compute; reflexivity]. intros (_ & H). vm_compute in H. discriminate.
Qed.

(* ---------------- C11 ---------------- *)

(* ceil and floor go one step from the truncated value, in the direction the sign
   bit gives: so an integral value is left by one. *)
Theorem C11_exact : forall w, word_ok w ->
  (exists n, ibm_trunc w = Ok n /\ ibm_ceil w = Ok (if w0 w <? 128 then n + 1 else n) /\ ibm_floor w = Ok (if w0 w <? 128 then n else n - 1)) /\
  (forall n, ibm_units w = n * unit -> ibm_ceil w = Ok (if w0 w <? 128 then n + 1 else n) /\ ibm_floor w = Ok (if w0 w <? 128 then n else n - 1)).
Proof.
  intros w Hw. split; [|intros n; now apply ceil_floor_integral].
  destruct (ceil_floor_exact w Hw) as (n & T & _ & C & F). exists n. auto.
Qed.
Print Assumptions C11_exact.
Example C11_exact_example : ibm_units (W 65 16 0 0) = 1 * unit /\ ibm_units (W 193 16 0 0) = -1 * unit.
Proof. vm_compute. auto. Qed.

(* ---------------- C33 ---------------- *)

(* With no sense given, every iterator that can be used once is refused. *)
Theorem C33_one_shot_refuted : forall l, make_sorted_distinct_sequence (ItIter l) SNone = Err RuntimeError.
Proof. exact one_shot. Qed.
Print Assumptions C33_one_shot_refuted.
Example C33_one_shot_example : exists s, make_sorted_distinct_sequence (ItSeq [3; 1; 2]) SNone = Ok s /\ sseq_list s = [1; 2; 3].
Proof. eexists. split; vm_compute; reflexivity. Qed.

(* ---------------- C34 ---------------- *)

(* Every range with fewer than two items: its step is given, whatever it is, where
   the equal list has no stride. *)
Theorem C34_short_range_always_refuted : forall r, range_ok r -> zlen (range_list r) < 2 ->
  measure_stride_range r = Ok (Some (r_step r)) /\ (forall d, measure_stride (range_list r) <> Ok (Some d)) /\
  (range_list r <> [] -> measure_stride (range_list r) = Ok None).
Proof.
  intros r _ H. split; [reflexivity|]. destruct (range_list r) as [|a [|b t]].
  - split; [intros d; vm_compute; discriminate|congruence].
  - split; [intros d; vm_compute; discriminate|reflexivity].
  - unfold zlen in H; cbn [length] in H; lia.
Qed.
Print Assumptions C34_short_range_always_refuted.
Example C34_short_range_example : range_ok (mk_range 4 5 7) /\ zlen (range_list (mk_range 4 5 7)) < 2 /\ range_list (mk_range 4 5 7) = [4].
Proof. vm_compute. split; [discriminate|]. auto. Qed.

(* ---------------- C58 ---------------- *)

(* A file that holds a character the other encoding lacks cannot be converted:
   UnicodeEncodeError.  What has been written until then is nothing if the
   character is in the textual header, else the textual and the binary header. *)
Theorem C58_not_encodable_refuted : forall d enc (bc tc : fmt) (e : endian) dim r native x', readable d enc bc tc -> opens d enc bc tc e dim r ->
  coincident_alike bc -> supported x' -> ~ text_encodable r x' ->
  forall e' pr log, pr <> NotCallable ->
  exists b, write_segy (reader_dataset native r (mk_file d 0)) (Some x') tc e' pr (mk_world (mk_file [] 0) log) =
      (Err UnicodeEncodeError, mk_world (mk_file b (zlen b)) log) /\
    (Forall (encodable x') (rd_text r) -> zlen b = 3600) /\ (~ Forall (encodable x') (rd_text r) -> b = []).
Proof. exact not_encodable. Qed.
Print Assumptions C58_not_encodable_refuted.
Example C58_not_encodable_example : exists d r, readable d (Some EBCDIC) BinaryReelHeader TraceHeaderRev1 /\
  opens d (Some EBCDIC) BinaryReelHeader TraceHeaderRev1 Big None r /\ ~ text_encodable r ASCII.
Proof.
  destruct C58_ebcdic_to_ascii_refuted as (d & r & RD & OP & AR & E). exists d, r. split; [exact RD|]. split; [exact OP|]. intros TE.
  destruct (C58_conversion d (Some EBCDIC) BinaryReelHeader TraceHeaderRev1 Big None r Little ASCII RD OP AR binary_alike rev1_alike (or_introl eq_refl) TE Big Callable [])
    as (b & W & _); [discriminate|]. rewrite W in E. discriminate.
Qed.

(* ---------------- C71 ---------------- *)

(* Every cache file that cannot be opened for reading prevents opening the file,
   and is left as it is. *)
Theorem C71_unreadable_always_refuted : forall (c : call) (h : handle) (en : env) (k : ckey), call_location c h = Some k -> en_cache en k = Unreadable ->
  class_of en (ca_bc c) <> None -> class_of en (ca_tc c) <> None ->
  create_reader_cached c h en = ((Err OSError, []), en).
Proof.
  intros c h en k CL F B T. apply location_call in CL. destruct CL as (e & C & L). rewrite cached_unfold, C, L.
  destruct (class_of en (ca_bc c)); [|congruence]. destruct (class_of en (ca_tc c)); [|congruence].
  cbn [loaded]. unfold load_reader. now rewrite F.
Qed.
Print Assumptions C71_unreadable_always_refuted.
(* [C71_unreadable_refuted] gives a case, in which the call without a cache opens the file. *)

(* ---------------- C96 ---------------- *)

(* the defaults of the trace headers of revision 0 *)
Theorem C96_defaults_rev0 : forall f, is_field TraceHeaderRev0 f -> In (fd_name f, fd_default f) nonzero_defaults_trace \/
  (~ In (fd_name f) (map fst nonzero_defaults_trace) /\ fd_default f = 0).
Proof. apply defaults_gen; [apply rev0_ok|cbn; repeat constructor; cbn; intuition discriminate|vm_compute; reflexivity]. Qed.
Print Assumptions C96_defaults_rev0.
Example C96_defaults_rev0_example : exists h, hdr_init TraceHeaderRev0 [] [] = Ok h /\ hdr_get h "xy_scalar" = Ok 1 /\ hdr_get h "source_x" = Ok 0.
Proof. eexists. split; [vm_compute; reflexivity|]. split; vm_compute; reflexivity. Qed.

(* ---------------- C111 ---------------- *)

(* [C111_converted_partial] says what is written if all samples are convertible.
   Otherwise nothing is: a file can be converted only if they are. *)
Theorem C111_only : forall d enc tc (e : endian) dim r native x' t code, readable d enc BinaryReelHeader tc -> opens d enc BinaryReelHeader tc e dim r ->
  all_readable native d r -> coincident_alike tc -> supported x' -> text_encodable r x' -> format_code code t ->
  forall ds' e' pr w w', converting (reader_dataset native r (mk_file d 0)) t = Ok ds' -> write_segy ds' (Some x') tc e' pr w = (Ok tt, w') ->
  all_samples native d r (convertible t).
Proof. exact convert_only. Qed.
Print Assumptions C111_only.
(* [C111_example] shows a file that meets the hypotheses. *)

(* ---------------- C119 ---------------- *)

(* If the second of two files has fewer traces, the comparison fails in any case:
   with AssertionError if traces of the same number differ, otherwise with
   ValueError when it gets to the trace that is missing. *)
Theorem C119_fewer : forall native (tc : fmt) d r w d' r' w', all_bytes d -> all_bytes d' -> trace_format tc ->
  open_default tc d = (Ok r, w) -> open_default tc d' = (Ok r', w') -> all_readable native d r -> all_readable native d' r' -> rd_num_traces r' < rd_num_traces r ->
  let result := compare_traces native r (w_file w) r' (w_file w') (rd_trace_indexes r) in
  (result = Err ValueError /\ forall k, 0 <= k < rd_num_traces r' -> equal_traces native d r d' r' k) \/
  (result = Err AssertionError /\ exists k, 0 <= k < rd_num_traces r' /\ ~ equal_traces native d r d' r' k).
Proof. exact compare_fewer. Qed.
Print Assumptions C119_fewer.
(* file_3d and what it is without its last traces *)
Example C119_fewer_example : compared file_3d (firstn (Z.to_nat (3600 + 246)) file_3d) = Err ValueError /\
  compared file_3d (set_byte (firstn (Z.to_nat (3600 + 246)) file_3d) 3841 11) = Err AssertionError.
Proof. vm_compute. auto. Qed.

(* ---------------- C125 ---------------- *)

(* The exit code of a command that has opened a SEG Y file and another file to
   write to is 0 exactly if all traces can be read and: for the converting command,
   the samples are IBM floats, the new type is one of those with a code and has room
   for all of them; for the scaling commands, the products fit. *)
Theorem C125_exit : forall native parse s inn out more i o r, all_bytes (fs_data s i) -> open_rb s inn = inl i -> open_wb s out = inl o -> i <> o ->
  reads (fs_data s i) r -> let d := fs_data s i in
  (fst (main native parse LoadSave (inn :: out :: more) s) = 0 <-> all_readable native d r) /\
  (forall n t, In (n, t) type_names -> out <> inn ->
     (fst (main native parse ConvertSampleType (n :: inn :: out :: more) s) = 0 <->
      all_readable native d r /\ sample_type (rd_binary r) T_IBM /\ (exists code, format_code code t) /\ all_samples native d r (convertible t))) /\
  (forall n f t, parse n = Some f -> float_wf f -> sample_type (rd_binary r) t ->
     (fst (main native parse ScaleSamples (n :: inn :: out :: more) s) = 0 <-> all_readable native d r /\ all_samples native d r (fits_by t f))) /\
  (forall n f, parse n = Some f -> float_wf f ->
     (fst (main native parse ScaleSourceCoords (n :: inn :: out :: more) s) = 0 <->
      all_readable native d r /\ all_headers d r (fun h => placed_by f "source_x" h /\ placed_by f "source_y" h))).
Proof.
  intros native parse s inn out more i o r BD I O N R d. split; [|split; [|split]].
  - rewrite (exit_produces native parse _ _ s _ inn out i o (asks_copy parse inn out more) I O N). exact (copy_exit native d r BD R).
  - intros n t IN NE. rewrite (exit_produces native parse _ _ s _ inn out i o (asks_convert parse n t inn out more IN NE) I O N). exact (convert_exit native d r BD R t n IN).
  - intros n f t P WF ST. rewrite (exit_produces native parse _ _ s _ inn out i o (asks_scale parse n f inn out more P) I O N). exact (scale_exit native d r BD R t f ST WF).
  - intros n f P WF. rewrite (exit_produces native parse _ _ s _ inn out i o (asks_coords parse n f inn out more P) I O N). exact (coords_exit native d r BD R f WF).
Qed.
Print Assumptions C125_exit.
(* [C125_hypotheses] shows a file with these properties, [C125_scale_example] and
   the others commands with exit codes 0 and 70. *)
