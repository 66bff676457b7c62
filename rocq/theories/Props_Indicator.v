(* The percentages that the commands show (C126). *)
From Coq Require Import String ZArith List Bool Sorted Lia.
From Verif Require Import Py PyFloat Packing Spec_Packing Formats FileIO Text Toolkit Spec_Segy Reader Spec_Reader ReaderFacts OpenFacts Spec_Writer WriterFacts Indicator IndicatorFacts.
Import ListNotations.
Local Open Scope string_scope.
Open Scope list_scope.
Open Scope Z_scope.

(* Given values that increase from at least 0 to 1, quotients of ints up to 2^53,
   the indicator prints percentages that increase strictly, within 0 and 100, the
   last of them 100: none twice, none going back.  (C66_write_progress: writing
   reports such values.) *)
Theorem C126_increasing : forall l, progress_ok l -> Forall (fun v => snd v <= 2 ^ 53) l ->
  exists ps, indicator l = Ok (ps ++ [100]) /\ StronglySorted Z.lt (ps ++ [100]) /\ Forall (fun q => 0 <= q < 100) ps.
Proof. intros l P B. destruct (indicator_ok l P B) as (ps & H1 & H2 & H3 & _). eauto. Qed.
Print Assumptions C126_increasing.

(* What is printed while a dataset is written to the end. *)
Theorem C126_writing : forall ds enc tc (e : endian) pr f w, StronglySorted Z.le (ds_trace_indexes ds) ->
  Forall (fun k => 0 <= k <= ds_num_traces ds) (ds_trace_indexes ds) -> ds_num_traces ds <= 2 ^ 53 ->
  write_segy ds enc tc e pr (mk_world f []) = (Ok tt, w) ->
  exists ps, indicator (w_log w) = Ok (ps ++ [100]) /\ StronglySorted Z.lt (ps ++ [100]) /\ Forall (fun q => 0 <= q < 100) ps.
Proof. exact writing_indicated. Qed.
Print Assumptions C126_writing.

(* How true a percentage is: of up to 2^40 steps k have been done; the number shown
   is the whole part of 100 k / n, or one less where that is a whole number. *)
Theorem C126_near : forall k n q, 0 <= k <= n -> 0 < n <= 2 ^ 40 -> percent (k, n) = Ok q ->
  q = 100 * k / n \/ (100 * k) mod n = 0 /\ q = 100 * k / n - 1.
Proof. exact percent_near. Qed.
Print Assumptions C126_near.
(* One less it is for 29 of 100: 28 is shown for a second time and 29 left out. *)
Theorem C126_exact_refuted : percent (29, 100) = Ok 28 /\ percent (28, 100) = Ok 28 /\ indicator [(28, 100); (29, 100); (30, 100)] = Ok [28; 30].
Proof. repeat split; vm_compute; reflexivity. Qed.
Print Assumptions C126_exact_refuted.

(* Refuted: "the percentages never exceed 100 and never decrease" while a file is
   opened.  For every file that can be opened and read: after 75 come 93, 112,
   131, then 100. *)
Theorem C126_reading_refuted : forall a enc bc tc e pr dim d r w native, readable d enc bc tc -> create_reader a enc bc tc (Some e) pr dim (mk_world (mk_file d 0) []) = (Ok r, w) ->
  all_readable native d r -> zlen d <= 2 ^ 51 ->
  exists ps, indicator (w_log w) = Ok (ps ++ [75; 93; 112; 131; 100]) /\ StronglySorted Z.lt ps /\ Forall (fun q => 0 <= q < 75) ps.
Proof. exact reading_indicated. Qed.
Print Assumptions C126_reading_refuted.

Example C126_example : progress_ok [(0, 3); (1, 3); (2, 3); (1, 1)] /\ indicator [(0, 3); (1, 3); (2, 3); (1, 1)] = Ok [0; 33; 66; 100] /\
  indicator [(0, 1000); (4, 1000); (5, 1000); (14, 1000); (25, 1000); (1, 1)] = Ok [0; 1; 2; 100].
Proof.
  split; [|split; vm_compute; reflexivity]. split; [repeat constructor; cbn; lia|]. split; [repeat constructor; cbn; lia|].
  exists [(0, 3); (1, 3); (2, 3)], 1. reflexivity.
Qed.
Example C126_reading_example : match open_file file_3d with (Ok r, w) => bytesb file_3d && all_readableb Little file_3d r && (zlen file_3d <=? 2 ^ 51) &&
    match indicator (w_log w) with Ok ps => match ps with [59; 63; 67; 71; 75; 93; 112; 131; 100] => true | _ => false end | _ => false end
  | _ => false end = true.
Proof. vm_compute. reflexivity. Qed.
