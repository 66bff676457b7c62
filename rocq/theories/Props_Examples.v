(* Properties C114-C116: time slices, reports and listed positions. *)
From Coq Require Import String ZArith List Bool Lia Sorted.
From Verif Require Import Py PyFacts PyFloat IbmFloat Spec_Ibm Util Catalog Packing Spec_Packing Formats FileIO Text
  Float32 Toolkit Spec_Segy Reader Spec_Reader OpenFacts NumpyExt Spec_Numpy Examples Spec_Examples ExamplesFacts Props_Reader Props_Numpy.
Import ListNotations.
Local Open Scope string_scope.
Open Scope list_scope.
Open Scope Z_scope.

(* ---------------- C114 ---------------- *)

Theorem C114_slice : forall (d : list Z) enc bc tc e dim r t ts native n m,
  readable d enc bc tc -> opens d enc bc tc e dim r -> traces_of d tc e r t ts ->
  NoDup (map (fun t => (t_inline t, t_xline t)) ts) -> dim = None \/ dim = Some 3 ->
  greatest (map t_count ts) m -> 0 <= n < m -> (forall tr, In tr ts -> whole d t tr) ->
  forall q, exists a q', timeslice native r n (mk_file d q) = (Ok a, mk_file d q') /\
    exists rows cols, ascending_items (map t_inline ts) rows /\ ascending_items (map t_xline ts) cols /\
      grid (slice_cell d e t ts n) rows cols a.
Proof.
  intros d enc bc tc e dim r t ts native n m RD OP TR ND DIM.
  exact (slice_reads d enc bc tc e dim r t ts native RD OP TR ND DIM n m).
Qed.
Print Assumptions C114_slice.

Theorem C114_outside : forall (d : list Z) enc bc tc e dim r t ts native n m,
  readable d enc bc tc -> opens d enc bc tc e dim r -> traces_of d tc e r t ts ->
  NoDup (map (fun t => (t_inline t, t_xline t)) ts) -> dim = None \/ dim = Some 3 ->
  greatest (map t_count ts) m -> ~ 0 <= n < m ->
  forall q, exists q', timeslice native r n (mk_file d q) = (Err ValueError, mk_file d q').
Proof.
  intros d enc bc tc e dim r t ts native n m RD OP TR ND DIM.
  exact (slice_outside d enc bc tc e dim r t ts native RD OP TR ND DIM n m).
Qed.
Print Assumptions C114_outside.

Theorem C114_cut_off : forall (d : list Z) enc bc tc e dim r t ts native n m tr,
  readable d enc bc tc -> opens d enc bc tc e dim r -> traces_of d tc e r t ts ->
  NoDup (map (fun t => (t_inline t, t_xline t)) ts) -> dim = None \/ dim = Some 3 ->
  greatest (map t_count ts) m -> 0 <= n < m -> In tr ts -> ~ whole d t tr ->
  forall q, exists q', timeslice native r n (mk_file d q) = (Err EOFError, mk_file d q').
Proof.
  intros d enc bc tc e dim r t ts native n m tr RD OP TR ND DIM.
  exact (slice_cut d enc bc tc e dim r t ts native RD OP TR ND DIM n m tr).
Qed.
Print Assumptions C114_cut_off.

(* Refuted: the exception for a file of another dimensionality is not the
   DimensionalityError of the example. *)
Theorem C114_dimensionality_refuted : forall (d : list Z) enc bc tc e dim r t ts native n,
  readable d enc bc tc -> opens d enc bc tc e dim r -> traces_of d tc e r t ts -> rd_dimensionality r <> 3 ->
  forall q, exists q', timeslice native r n (mk_file d q) = (Err KeyError, mk_file d q').
Proof.
  intros d enc bc tc e dim r t ts native n RD OP TR.
  exact (slice_not_3d d tc e r t ts native TR n).
Qed.
Print Assumptions C114_dimensionality_refuted.

(* three traces on a grid of two inlines by two crosslines; the second one is
   shorter than the others *)
Definition file_corner : list Z :=
  file_head Big ++ file_trace Big 7 1 6 [40; 50] ++ file_trace Big 7 3 5 [10; -20; 30] ++ file_trace Big 8 1 5 [7; 8; 9].
Definition slice_of (l : list (list (option Z))) : option (res (array2 real)) := Some (Ok (map (map (option_map RInt)) l)).
Example C114_example : (exists r t ts, example file_corner 3 3 r t ts) /\ (exists r t ts, example file_2d 3 2 r t ts) /\
  of_file file_corner (fun r => timeslice Little r 1) = slice_of [[Some 8; Some 50]; [Some (-20); None]] /\
  of_file file_corner (fun r => timeslice Little r 2) = slice_of [[Some 9; None]; [Some 30; None]] /\
  of_file file_corner (fun r => timeslice Little r 3) = Some (Err ValueError) /\
  of_file (firstn (Z.to_nat (zlen file_corner - 1)) file_corner) (fun r => timeslice Little r 1) = Some (Err EOFError) /\
  of_file file_2d (fun r => timeslice Little r 0) = Some (Err KeyError).
Proof. split; [apply example_file; vm_compute; reflexivity|]. split; [exact file_2d_ok|]. vm_compute. auto 10. Qed.

(* ---------------- C115 ---------------- *)

Theorem C115_metadata : forall (d : list Z) enc bc tc e r t ts,
  readable d enc bc tc -> opens d enc bc tc e None r -> traces_of d tc e r t ts ->
  exists m, metadata r = Ok m /\ me_traces m = zlen ts /\ natural_dimensionality ts (me_dimensionality m) /\
    me_format m = t /\ greatest (map t_count ts) (me_max_samples m).
Proof.
  intros d enc bc tc e r t ts RD OP TR.
  exact (metadata_ok d enc bc tc e None r t ts RD OP TR eq_refl).
Qed.
Print Assumptions C115_metadata.

Theorem C115_report : forall (d : list Z) enc bc tc e r t ts,
  readable d enc bc tc -> opens d enc bc tc e None r -> traces_of d tc e r t ts ->
  exists s x code v, report_of r = Ok s /\ encoding_used enc d x /\
    hdr_get (rd_binary r) "data_sample_format" = Ok code /\ format_code code t /\ format_name code (su_format s) /\
    hdr_get (rd_binary r) "format_revision_num" = Ok v /\ revision_code v (su_revision s) /\
    su_traces s = zlen ts /\ natural_dimensionality ts (su_dimensionality s) /\
    counts_reported ts (su_dimensionality s) (su_cdps s) (su_inlines s) (su_xlines s) /\
    exists tx, reel_headers x bc e d tx (rd_binary r) (su_ext s) /\ su_text s = map (skipn 3) tx.
Proof.
  intros d enc bc tc e r t ts RD OP TR.
  exact (report_ok d enc bc tc e None r t ts RD OP TR eq_refl).
Qed.
Print Assumptions C115_report.

Definition reported (d : list Z) : option (Z * Z * string * Z * (option Z * option Z * option Z)) :=
  match open_file d with
  | (Ok r, _) => match report_of r with
      | Ok s => Some (su_revision s, su_traces s, su_format s, su_dimensionality s, (su_cdps s, su_inlines s, su_xlines s))
      | _ => None end
  | _ => None end.
Example C115_example :
  ((exists r t ts, example file_corner 3 3 r t ts) /\ (exists r t ts, example file_2d 3 2 r t ts) /\ (exists r t ts, example file_1d 2 0 r t ts)) /\
  reported file_corner = Some (256, 3, "16 bit signed integer", 3, (None, Some 2, Some 2)) /\
  reported file_2d = Some (256, 3, "16 bit signed integer", 2, (Some 3, None, None)) /\
  reported file_1d = Some (256, 2, "16 bit signed integer", 0, (None, None, None)) /\
  of_file file_corner (fun r => lift (metadata r)) = Some (Ok (mk_meta 3 3 T_INT16 3)).
Proof.
  split; [split; [apply example_file; vm_compute; reflexivity|split; [exact file_2d_ok|exact file_1d_ok]]|].
  vm_compute. auto 10.
Qed.

(* ---------------- C116 ---------------- *)

Theorem C116_positions : forall (d : list Z) enc bc tc e dim r t ts,
  readable d enc bc tc -> opens d enc bc tc e dim r -> traces_of d tc e r t ts -> has_field tc "cdp_x" -> has_field tc "cdp_y" ->
  (forall tr n, In tr ts -> ~ bad_field_at tc e d (t_pos tr) n) ->
  forall q, exists l q', trace_positions r (mk_file d q) = (Ok l, mk_file d q') /\
    map fst l = map Z.of_nat (seq 0 (length ts)) /\ Forall2 (position_line d e tc ts) (map Z.of_nat (seq 0 (length ts))) l.
Proof.
  intros d enc bc tc e dim r t ts.
  exact (positions_read d enc bc tc e dim r t ts Big).
Qed.
Print Assumptions C116_positions.

Theorem C116_bad_header : forall (d : list Z) enc bc tc e dim r t ts,
  readable d enc bc tc -> opens d enc bc tc e dim r -> traces_of d tc e r t ts -> has_field tc "cdp_x" -> has_field tc "cdp_y" ->
  forall tr n, In tr ts -> bad_field_at tc e d (t_pos tr) n ->
  forall q, exists q', trace_positions r (mk_file d q) = (Err EOFError, mk_file d q').
Proof.
  intros d enc bc tc e dim r t ts.
  exact (positions_fail d enc bc tc e dim r t ts Big).
Qed.
Print Assumptions C116_bad_header.

Definition placed_trace (cdp x y : Z) (samples : list Z) : list Z :=
  packed TraceHeaderRev1 Big [("ensemble_num", cdp); ("num_samples", zlen samples); ("cdp_x", x); ("cdp_y", y)] ++
  match pack_values Big C_h samples with Ok b => b | Err _ => [] end.
Definition file_placed : list Z := file_head Big ++ placed_trace 1 500 (-7) [1; 2] ++ placed_trace 2 510 2147483647 [3].
Example C116_example : has_field TraceHeaderRev1 "cdp_x" /\ has_field TraceHeaderRev1 "cdp_y" /\
  (exists r t ts, example file_placed 2 2 r t ts) /\ (exists r t ts, example zero_header_file 1 3 r t ts) /\
  of_file file_placed trace_positions = Some (Ok [(0, (500, -7)); (1, (510, 2147483647))]) /\
  of_file zero_header_file trace_positions = Some (Err EOFError).
Proof.
  split; [|split; [|split; [apply example_file; vm_compute; reflexivity|split; [apply example_file; vm_compute; reflexivity|vm_compute; auto]]]].
  - assert (H : match class_field TraceHeaderRev1 "cdp_x" with Some _ => true | None => false end = true) by (vm_compute; reflexivity).
    destruct (class_field TraceHeaderRev1 "cdp_x") as [f|] eqn:E; [|discriminate]. now apply has_field_by with f; [apply FormatFacts.shipped_ok; cbn; auto|].
  - assert (H : match class_field TraceHeaderRev1 "cdp_y" with Some _ => true | None => false end = true) by (vm_compute; reflexivity).
    destruct (class_field TraceHeaderRev1 "cdp_y") as [f|] eqn:E; [|discriminate]. now apply has_field_by with f; [apply FormatFacts.shipped_ok; cbn; auto|].
Qed.
