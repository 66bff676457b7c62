(* Properties C74, C75, C88-C93: the Numpy extension. *)
From Coq Require Import String ZArith List Bool Lia Sorted.
From Verif Require Import Py PyFacts PyFloat IbmFloat Spec_Ibm Util Spec_Util UtilFacts Catalog Packing Spec_Packing Formats FileIO Text
  Float32 Toolkit Spec_Segy Reader Spec_Reader OpenFacts NumpyExt Spec_Numpy NumpyFacts NumpyShort Props_Reader.
Import ListNotations.
Local Open Scope string_scope.
Open Scope list_scope.
Open Scope Z_scope.

(* ---------------- C74 ---------------- *)

Theorem C74_rejects : forall (all : sseq) (it : iterable) x,
  sseq_wf all -> ascending (sseq_list all) -> items_ok it -> In x (it_list it) -> ~ In x (sseq_list all) ->
  ensure_superset all (Items it) = Err ValueError.
Proof. exact ensure_reject. Qed.
Print Assumptions C74_rejects.

(* Missing for the full property: a single item out of a range whose step is not 1
   (C74_exact in Props_Order.v says what is given then). *)
Theorem C74_accepts_partial : forall (all : sseq) (it : iterable),
  sseq_wf all -> ascending (sseq_list all) -> items_ok it ->
  (exists x y, In x (it_list it) /\ In y (it_list it) /\ x <> y) \/ (forall r, all = QRange r -> r_step r = 1) ->
  (forall x, In x (it_list it) -> In x (sseq_list all)) ->
  exists s, ensure_superset all (Items it) = Ok s /\ ascending (sseq_list s) /\ forall x, In x (sseq_list s) <-> In x (it_list it).
Proof. exact ensure_accept. Qed.
Print Assumptions C74_accepts_partial.

Theorem C74_everything : forall all : sseq, ensure_superset all Everything = Ok all.
Proof. reflexivity. Qed.
Print Assumptions C74_everything.

(* [12] is refused although 12 is in range(10, 20, 2) *)
Theorem C74_single_refuted : exists all it, sseq_wf all /\ ascending (sseq_list all) /\ items_ok it /\
  (forall x, In x (it_list it) -> In x (sseq_list all)) /\ ensure_superset all (Items it) = Err ValueError.
Proof.
  exists (QRange (mk_range 10 20 2)), (ItSeq [12]). split; [cbn; unfold range_ok; cbn; lia|].
  split; [repeat constructor|]. split; [split; discriminate|]. split; [|reflexivity].
  intros x [<-|[]]. right. now left.
Qed.
Print Assumptions C74_single_refuted.

Example C74_example :
  rmap sseq_list (ensure_superset (QRange (mk_range 10 30 2)) (Items (ItSeq [20; 14; 14; 26]))) = Ok [14; 20; 26] /\
  ensure_superset (QRange (mk_range 10 30 2)) (Items (ItSeq [20; 14; 27])) = Err ValueError /\
  ensure_superset (QRange (mk_range 10 30 2)) (Items (ItRange (mk_range 10 32 2))) = Err ValueError /\
  rmap sseq_list (ensure_superset (QSet [1; 4; 5; 9]) (Items (ItSeq [9; 1]))) = Ok [1; 9] /\
  ensure_superset (QSet [1; 4; 5; 9]) (Items (ItSeq [8])) = Err ValueError.
Proof. vm_compute. auto 10. Qed.

(* ---------------- C75 ---------------- *)

(* the trace indexes are those of the places, in ascending order *)
Theorem C75_trace_indexes : forall n m : Z, 0 <= n -> 0 <= m ->
  ascending (range_list (complete_trace_indexes n m)) /\
  forall k, In k (range_list (complete_trace_indexes n m)) <-> exists i j, placed n m k i j.
Proof. exact complete_indexes. Qed.
Print Assumptions C75_trace_indexes.

(* Missing for the full property: arrays that are not square (C75_not_square in
   Props_Order.v). *)
Theorem C75_square_partial : forall n : Z, 0 <= n ->
  (forall k i j, complete_inline_xline_index n n k = Ok (i, j) <-> placed n n k i j) /\
  (forall k, 0 < n -> ~ 0 <= k < n * n -> complete_inline_xline_index n n k = Err ValueError).
Proof. intros n H. split; [intros k i j; exact (square_index n k i j H)|intros k; exact (square_outside n k)]. Qed.
Print Assumptions C75_square_partial.

(* of 2 inlines by 3 crosslines: trace 2 is at (0, 2), not at (1, 0); trace 5
   is at (1, 2) *)
Theorem C75_index_refuted :
  placed 2 3 2 0 2 /\ In 2 (range_list (complete_trace_indexes 2 3)) /\ complete_inline_xline_index 2 3 2 = Ok (1, 0) /\
  placed 2 3 5 1 2 /\ In 5 (range_list (complete_trace_indexes 2 3)) /\ complete_inline_xline_index 2 3 5 = Err ValueError /\
  complete_inline_xline_index 3 2 2 = Err ValueError.
Proof. unfold placed. vm_compute. intuition congruence. Qed.
Print Assumptions C75_index_refuted.

Theorem C75_incomplete_refuted : forall n m k : Z,
  incomplete_trace_indexes n m = Err AttributeError /\ incomplete_inline_xline_index n m k = Err TypeError.
Proof. split; reflexivity. Qed.
Print Assumptions C75_incomplete_refuted.

Example C75_example : complete_inline_xline_index 3 3 5 = Ok (1, 2) /\ placed 3 3 5 1 2 /\ complete_inline_xline_index 3 3 9 = Err ValueError.
Proof. unfold placed. vm_compute. intuition congruence. Qed.

(* ---------------- C88 ---------------- *)

Theorem C88_slice : forall (all : sseq) (s : pslice),
  sseq_wf all -> (forall l, all <> QRev l) -> slice_step s <> 0 ->
  exists q, ensure_superset all (Sliced s) = Ok q /\ sseq_wf q /\
    (forall x, In x (sseq_list q) <-> exists i, picks (zlen (sseq_list all)) s i /\ nth_error (sseq_list all) (Z.to_nat i) = Some x) /\
    (ascending (sseq_list all) -> 0 < slice_step s -> ascending (sseq_list q)).
Proof. exact sliced. Qed.
Print Assumptions C88_slice.

Theorem C88_zero_step : forall (all : sseq) (s : pslice),
  (forall l, all <> QRev l) -> slice_step s = 0 -> ensure_superset all (Sliced s) = Err ValueError.
Proof. exact sliced_zero. Qed.
Print Assumptions C88_zero_step.

(* [::-1] of a range is not in increasing order; of a set it is *)
Theorem C88_descending_refuted :
  rmap sseq_list (ensure_superset (QRange (mk_range 1 4 1)) (Sliced (mk_slice None None (Some (-1))))) = Ok [3; 2; 1] /\
  rmap sseq_list (ensure_superset (QSet [1; 2; 4]) (Sliced (mk_slice None None (Some (-1))))) = Ok [1; 2; 4].
Proof. vm_compute. auto. Qed.
Print Assumptions C88_descending_refuted.

Example C88_example :
  rmap sseq_list (ensure_superset (QRange (mk_range 10 30 2)) (Sliced (mk_slice (Some 1) (Some (-2)) (Some 3)))) = Ok [12; 18; 24] /\
  rmap sseq_list (ensure_superset (QSet [1; 4; 5; 9]) (Sliced (mk_slice (Some (-3)) None None))) = Ok [4; 5; 9] /\
  ensure_superset (QSet [1; 4; 5; 9]) (Sliced (mk_slice None None (Some 0))) = Err ValueError /\ picks 10 (mk_slice (Some 1) (Some (-2)) (Some 3)) 4.
Proof. split; [reflexivity|]. split; [reflexivity|]. split; [reflexivity|]. split; [lia|]. split; [|discriminate].
  intros _. split; [vm_compute; discriminate|]. split; [reflexivity|]. intros v Q. injection Q as <-. reflexivity.
Qed.

(* ---------------- C89 ---------------- *)

Theorem C89_timeslice : forall (d : list Z) enc bc tc e dim r t ts native n inlines xlines i_all i_nums j_all j_nums,
  readable d enc bc tc -> opens d enc bc tc e dim r -> traces_of d tc e r t ts ->
  NoDup (map (fun t => (t_inline t, t_xline t)) ts) -> dim = None \/ dim = Some 3 ->
  rd_inline_numbers r = Ok i_all -> ensure_superset i_all inlines = Ok i_nums ->
  rd_xline_numbers r = Ok j_all -> ensure_superset j_all xlines = Ok j_nums ->
  (forall tr, In tr ts -> In (t_inline tr) (sseq_list i_nums) -> In (t_xline tr) (sseq_list j_nums) -> has_sample d t tr n) ->
  forall q, exists a q', extract_timeslice_3d native r n inlines xlines (mk_file d q) = (Ok a, mk_file d q') /\
    grid (fun i j => sample_cell d e t ts i j n) (sseq_list i_nums) (sseq_list j_nums) a.
Proof.
  intros d enc bc tc e dim r t ts native n inlines xlines i_all i_nums j_all j_nums RD OP TR ND DIM E1 E2 E3 E4 H.
  exact (timeslice d enc bc tc e dim r t ts native RD OP TR ND DIM n inlines xlines i_all i_nums j_all j_nums E1 E2 E3 E4 H).
Qed.
Print Assumptions C89_timeslice.

Theorem C89_short_trace : forall (d : list Z) enc bc tc e dim r t ts native n inlines xlines i_all i_nums j_all j_nums tr,
  readable d enc bc tc -> opens d enc bc tc e dim r -> traces_of d tc e r t ts ->
  NoDup (map (fun t => (t_inline t, t_xline t)) ts) -> dim = None \/ dim = Some 3 ->
  rd_inline_numbers r = Ok i_all -> ensure_superset i_all inlines = Ok i_nums ->
  rd_xline_numbers r = Ok j_all -> ensure_superset j_all xlines = Ok j_nums ->
  In tr ts -> In (t_inline tr) (sseq_list i_nums) -> In (t_xline tr) (sseq_list j_nums) -> ~ 0 <= n < t_count tr ->
  (forall tr, In tr ts -> whole d t tr) ->
  forall q, exists q', extract_timeslice_3d native r n inlines xlines (mk_file d q) = (Err ValueError, mk_file d q').
Proof.
  intros d enc bc tc e dim r t ts native n inlines xlines i_all i_nums j_all j_nums tr RD OP TR ND DIM E1 E2 E3 E4 I Hi Hj B W.
  exact (timeslice_fails d enc bc tc e dim r t ts native RD OP TR ND DIM n inlines xlines i_all i_nums j_all j_nums tr E1 E2 E3 E4 I Hi Hj B W).
Qed.
Print Assumptions C89_short_trace.

Definition of_file {A} (d : list Z) (m : reader -> io A) : option (res A) :=
  match open_file d with (Ok r, _) => Some (fst (m r (mk_file d 0))) | _ => None end.
Definition items (l : list Z) : choice := Items (ItSeq l).
Definition cells (l : list (list Z)) : option (res (array2 real)) := Some (Ok (map (map (fun v => Some (RInt v))) l)).

Example C89_example : (exists r t ts, example file_3d 4 3 r t ts /\ NoDup (map (fun t => (t_inline t, t_xline t)) ts)) /\
  of_file file_3d (fun r => extract_timeslice_3d Little r 1 (items [1]) Everything) = cells [[-20; 50]] /\
  of_file file_3d (fun r => extract_timeslice_3d Little r 1 Everything Everything) = Some (Err ValueError).
Proof.
  split.
  - destruct file_3d_ok as (r & t & ts & EX). exists r, t, ts. split; [exact EX|].
    destruct EX as (_ & _ & _ & _ & (N & _) & _). now apply N.
  - vm_compute. auto.
Qed.

(* ---------------- C90, C91 ---------------- *)

(* For selected traces with fewer samples, and for slices of samples with a
   negative step, the code does something else: C90_rows, C90_backwards. *)
Theorem C90_inline_partial : forall (d : list Z) enc bc tc e dim r t ts native inline xlines samples j_all j_nums m nums,
  readable d enc bc tc -> opens d enc bc tc e dim r -> traces_of d tc e r t ts ->
  NoDup (map (fun t => (t_inline t, t_xline t)) ts) -> dim = None \/ dim = Some 3 ->
  In inline (map t_inline ts) -> rd_xline_numbers r = Ok j_all -> ensure_superset j_all xlines = Ok j_nums ->
  rd_max_num_trace_samples r = Ok m -> 0 <= m -> forward samples ->
  ensure_superset (QRange (mk_range 0 m 1)) samples = Ok nums -> sseq_list nums <> [] ->
  (forall tr, In tr ts -> t_inline tr = inline -> In (t_xline tr) (sseq_list j_nums) ->
     whole d t tr /\ forall s, In s (sseq_list nums) -> 0 <= s < t_count tr) ->
  forall q, exists a q', extract_inline_3d native r inline xlines samples (mk_file d q) = (Ok a, mk_file d q') /\
    grid (fun j s => sample_cell d e t ts inline j s) (sseq_list j_nums) (sseq_list nums) a.
Proof.
  intros d enc bc tc e dim r t ts native inline xlines samples j_all j_nums m nums RD OP TR ND DIM.
  exact (inline3 d enc bc tc e dim r t ts native RD OP TR ND DIM inline xlines samples j_all j_nums m nums).
Qed.
Print Assumptions C90_inline_partial.

(* The only trace of inline 2 and crossline 6 has the single sample -1: it is
   repeated for sample numbers 1 and 2.  A trace with two of the three samples
   makes the extraction fail instead of leaving a cell empty. *)
Theorem C90_short_refuted : (exists r t ts, example file_3d 4 3 r t ts) /\
  of_file file_3d (fun r => extract_inline_3d Little r 2 (items [6]) Everything) = cells [[-1; -1; -1]] /\
  of_file file_3d (fun r => extract_inline_3d Little r 1 Everything Everything) = Some (Err ValueError).
Proof. split; [exact file_3d_ok|]. vm_compute. auto. Qed.
Print Assumptions C90_short_refuted.

(* What happens with selected traces of any length: the rows are filled if every
   one of them has all selected samples, or just one of them and these are
   evenly spaced; otherwise the extraction fails. *)
Theorem C90_rows : forall (d : list Z) enc bc tc e dim r t ts native inline xlines samples j_all j_nums m nums,
  readable d enc bc tc -> opens d enc bc tc e dim r -> traces_of d tc e r t ts ->
  NoDup (map (fun t => (t_inline t, t_xline t)) ts) -> dim = None \/ dim = Some 3 ->
  In inline (map t_inline ts) -> rd_xline_numbers r = Ok j_all -> ensure_superset j_all xlines = Ok j_nums ->
  rd_max_num_trace_samples r = Ok m -> 0 <= m -> forward samples ->
  ensure_superset (QRange (mk_range 0 m 1)) samples = Ok nums -> sseq_list nums <> [] ->
  (forall tr, In tr ts -> t_inline tr = inline -> In (t_xline tr) (sseq_list j_nums) -> whole d t tr /\ 0 <= t_count tr) ->
  ((forall tr, In tr ts -> t_inline tr = inline -> In (t_xline tr) (sseq_list j_nums) -> fills (sseq_list nums) tr) ->
   forall q, exists a q', extract_inline_3d native r inline xlines samples (mk_file d q) = (Ok a, mk_file d q') /\
     grid (fun j s => row_cell d e t ts (sseq_list nums) inline j s) (sseq_list j_nums) (sseq_list nums) a) /\
  ((exists tr, In tr ts /\ t_inline tr = inline /\ In (t_xline tr) (sseq_list j_nums) /\ ~ fills (sseq_list nums) tr) ->
   forall q, exists y q', extract_inline_3d native r inline xlines samples (mk_file d q) = (Err y, mk_file d q') /\
     (y = ValueError \/ (y = IndexError /\ ~ even_steps (sseq_list nums)))).
Proof.
  intros d enc bc tc e dim r t ts native inline xlines samples j_all j_nums m nums RD OP TR ND DIM.
  exact (inline_short d enc bc tc e dim r t ts native RD OP TR ND DIM inline xlines samples j_all j_nums m nums).
Qed.
Print Assumptions C90_rows.

(* A slice of samples that walks backwards gives the samples in that order, but
   only if it stops before sample 0: otherwise the extraction always fails. *)
Theorem C90_backwards : forall (d : list Z) enc bc tc e dim r t ts native inline xlines s j_all j_nums m nums,
  readable d enc bc tc -> opens d enc bc tc e dim r -> traces_of d tc e r t ts ->
  NoDup (map (fun t => (t_inline t, t_xline t)) ts) -> dim = None \/ dim = Some 3 ->
  In inline (map t_inline ts) -> rd_xline_numbers r = Ok j_all -> ensure_superset j_all xlines = Ok j_nums ->
  rd_max_num_trace_samples r = Ok m -> 0 <= m -> slice_step s < 0 ->
  ensure_superset (QRange (mk_range 0 m 1)) (Sliced s) = Ok nums -> sseq_list nums <> [] ->
  ((exists v, sl_stop s = Some v /\ 0 <= counted m v) ->
   (forall tr, In tr ts -> t_inline tr = inline -> In (t_xline tr) (sseq_list j_nums) ->
      whole d t tr /\ forall s, In s (sseq_list nums) -> 0 <= s < t_count tr) ->
   forall q, exists a q', extract_inline_3d native r inline xlines (Sliced s) (mk_file d q) = (Ok a, mk_file d q') /\
     grid (fun j s => sample_cell d e t ts inline j s) (sseq_list j_nums) (sseq_list nums) a) /\
  ((forall v, sl_stop s = Some v -> counted m v < 0) ->
   (forall tr, In tr ts -> t_inline tr = inline -> In (t_xline tr) (sseq_list j_nums) -> whole d t tr /\ 0 <= t_count tr) ->
   (exists tr, In tr ts /\ t_inline tr = inline /\ In (t_xline tr) (sseq_list j_nums)) ->
   forall q, exists q', extract_inline_3d native r inline xlines (Sliced s) (mk_file d q) = (Err ValueError, mk_file d q')).
Proof.
  intros d enc bc tc e dim r t ts native inline xlines s j_all j_nums m nums RD OP TR ND DIM.
  exact (inline_back d enc bc tc e dim r t ts native RD OP TR ND DIM inline xlines s j_all j_nums m nums).
Qed.
Print Assumptions C90_backwards.

(* the trace of inline 1 and crossline 6 has no sample 2, but the slice [2:0:-2]
   of its samples starts at its last one: 50 is its sample 1.  Reversing the
   samples of a whole trace fails. *)
Theorem C90_backwards_refuted : (exists r t ts, example file_3d 4 3 r t ts) /\
  rmap sseq_list (ensure_superset (QRange (mk_range 0 3 1)) (Sliced (mk_slice (Some 2) (Some 0) (Some (-2))))) = Ok [2] /\
  of_file file_3d (fun r => extract_inline_3d Little r 1 (items [6]) (Sliced (mk_slice (Some 2) (Some 0) (Some (-2))))) = cells [[50]] /\
  of_file file_3d (fun r => extract_inline_3d Little r 1 (items [5]) (Sliced (mk_slice None None (Some (-1))))) = Some (Err ValueError).
Proof. split; [exact file_3d_ok|]. vm_compute. auto. Qed.
Print Assumptions C90_backwards_refuted.

Example C90_backwards_example :
  of_file file_3d (fun r => extract_inline_3d Little r 1 (items [5]) (Sliced (mk_slice None (Some 0) (Some (-1))))) = cells [[30; -20]].
Proof. vm_compute. auto. Qed.

Example C90_example : (exists r t ts, example file_3d 4 3 r t ts) /\
  of_file file_3d (fun r => extract_inline_3d Little r 1 Everything (items [0; 1])) = cells [[10; -20]; [40; 50]] /\
  of_file file_3d (fun r => extract_inline_3d Little r 1 (items [5]) (Sliced (mk_slice (Some 0) None (Some 2)))) = cells [[10; 30]] /\
  of_file file_3d (fun r => extract_inline_3d Little r 4 Everything Everything) = Some (Err ValueError).
Proof. split; [exact file_3d_ok|]. vm_compute. auto. Qed.

Theorem C91_xline_partial : forall (d : list Z) enc bc tc e dim r t ts native xline inlines samples i_all i_nums m nums,
  readable d enc bc tc -> opens d enc bc tc e dim r -> traces_of d tc e r t ts ->
  NoDup (map (fun t => (t_inline t, t_xline t)) ts) -> dim = None \/ dim = Some 3 ->
  In xline (map t_xline ts) -> rd_inline_numbers r = Ok i_all -> ensure_superset i_all inlines = Ok i_nums ->
  rd_max_num_trace_samples r = Ok m -> 0 <= m -> forward samples ->
  ensure_superset (QRange (mk_range 0 m 1)) samples = Ok nums -> sseq_list nums <> [] ->
  (forall tr, In tr ts -> t_xline tr = xline -> In (t_inline tr) (sseq_list i_nums) ->
     whole d t tr /\ forall s, In s (sseq_list nums) -> 0 <= s < t_count tr) ->
  forall q, exists a q', extract_xline_3d native r xline inlines samples (mk_file d q) = (Ok a, mk_file d q') /\
    grid (fun i s => sample_cell d e t ts i xline s) (sseq_list i_nums) (sseq_list nums) a.
Proof.
  intros d enc bc tc e dim r t ts native xline inlines samples i_all i_nums m nums RD OP TR ND DIM.
  exact (xline3 d enc bc tc e dim r t ts native RD OP TR ND DIM xline inlines samples i_all i_nums m nums).
Qed.
Print Assumptions C91_xline_partial.

Theorem C91_short_refuted : (exists r t ts, example file_3d 4 3 r t ts) /\
  of_file file_3d (fun r => extract_xline_3d Little r 6 (items [2]) Everything) = cells [[-1; -1; -1]] /\
  of_file file_3d (fun r => extract_xline_3d Little r 6 Everything Everything) = Some (Err ValueError).
Proof. split; [exact file_3d_ok|]. vm_compute. auto. Qed.
Print Assumptions C91_short_refuted.

(* What happens with selected traces of any length: the rows are filled if every
   one of them has all selected samples, or just one of them and these are
   evenly spaced; otherwise the extraction fails. *)
Theorem C91_rows : forall (d : list Z) enc bc tc e dim r t ts native xline inlines samples i_all i_nums m nums,
  readable d enc bc tc -> opens d enc bc tc e dim r -> traces_of d tc e r t ts ->
  NoDup (map (fun t => (t_inline t, t_xline t)) ts) -> dim = None \/ dim = Some 3 ->
  In xline (map t_xline ts) -> rd_inline_numbers r = Ok i_all -> ensure_superset i_all inlines = Ok i_nums ->
  rd_max_num_trace_samples r = Ok m -> 0 <= m -> forward samples ->
  ensure_superset (QRange (mk_range 0 m 1)) samples = Ok nums -> sseq_list nums <> [] ->
  (forall tr, In tr ts -> t_xline tr = xline -> In (t_inline tr) (sseq_list i_nums) -> whole d t tr /\ 0 <= t_count tr) ->
  ((forall tr, In tr ts -> t_xline tr = xline -> In (t_inline tr) (sseq_list i_nums) -> fills (sseq_list nums) tr) ->
   forall q, exists a q', extract_xline_3d native r xline inlines samples (mk_file d q) = (Ok a, mk_file d q') /\
     grid (fun i s => row_cell d e t ts (sseq_list nums) i xline s) (sseq_list i_nums) (sseq_list nums) a) /\
  ((exists tr, In tr ts /\ t_xline tr = xline /\ In (t_inline tr) (sseq_list i_nums) /\ ~ fills (sseq_list nums) tr) ->
   forall q, exists y q', extract_xline_3d native r xline inlines samples (mk_file d q) = (Err y, mk_file d q') /\
     (y = ValueError \/ (y = IndexError /\ ~ even_steps (sseq_list nums)))).
Proof.
  intros d enc bc tc e dim r t ts native xline inlines samples i_all i_nums m nums RD OP TR ND DIM.
  exact (xline_short d enc bc tc e dim r t ts native RD OP TR ND DIM xline inlines samples i_all i_nums m nums).
Qed.
Print Assumptions C91_rows.

(* A slice of samples that walks backwards gives the samples in that order, but
   only if it stops before sample 0: otherwise the extraction always fails. *)
Theorem C91_backwards : forall (d : list Z) enc bc tc e dim r t ts native xline inlines s i_all i_nums m nums,
  readable d enc bc tc -> opens d enc bc tc e dim r -> traces_of d tc e r t ts ->
  NoDup (map (fun t => (t_inline t, t_xline t)) ts) -> dim = None \/ dim = Some 3 ->
  In xline (map t_xline ts) -> rd_inline_numbers r = Ok i_all -> ensure_superset i_all inlines = Ok i_nums ->
  rd_max_num_trace_samples r = Ok m -> 0 <= m -> slice_step s < 0 ->
  ensure_superset (QRange (mk_range 0 m 1)) (Sliced s) = Ok nums -> sseq_list nums <> [] ->
  ((exists v, sl_stop s = Some v /\ 0 <= counted m v) ->
   (forall tr, In tr ts -> t_xline tr = xline -> In (t_inline tr) (sseq_list i_nums) ->
      whole d t tr /\ forall s, In s (sseq_list nums) -> 0 <= s < t_count tr) ->
   forall q, exists a q', extract_xline_3d native r xline inlines (Sliced s) (mk_file d q) = (Ok a, mk_file d q') /\
     grid (fun i s => sample_cell d e t ts i xline s) (sseq_list i_nums) (sseq_list nums) a) /\
  ((forall v, sl_stop s = Some v -> counted m v < 0) ->
   (forall tr, In tr ts -> t_xline tr = xline -> In (t_inline tr) (sseq_list i_nums) -> whole d t tr /\ 0 <= t_count tr) ->
   (exists tr, In tr ts /\ t_xline tr = xline /\ In (t_inline tr) (sseq_list i_nums)) ->
   forall q, exists q', extract_xline_3d native r xline inlines (Sliced s) (mk_file d q) = (Err ValueError, mk_file d q')).
Proof.
  intros d enc bc tc e dim r t ts native xline inlines s i_all i_nums m nums RD OP TR ND DIM.
  exact (xline_back d enc bc tc e dim r t ts native RD OP TR ND DIM xline inlines s i_all i_nums m nums).
Qed.
Print Assumptions C91_backwards.

Theorem C91_backwards_refuted : (exists r t ts, example file_3d 4 3 r t ts) /\
  rmap sseq_list (ensure_superset (QRange (mk_range 0 3 1)) (Sliced (mk_slice (Some 2) (Some 0) (Some (-2))))) = Ok [2] /\
  of_file file_3d (fun r => extract_xline_3d Little r 6 (items [1]) (Sliced (mk_slice (Some 2) (Some 0) (Some (-2))))) = cells [[50]] /\
  of_file file_3d (fun r => extract_xline_3d Little r 5 (items [1]) (Sliced (mk_slice None None (Some (-1))))) = Some (Err ValueError).
Proof. split; [exact file_3d_ok|]. vm_compute. auto. Qed.
Print Assumptions C91_backwards_refuted.

Example C91_example : (exists r t ts, example file_3d 4 3 r t ts) /\
  of_file file_3d (fun r => extract_xline_3d Little r 6 Everything (items [0])) = cells [[40]; [-1]] /\
  of_file file_3d (fun r => extract_xline_3d Little r 7 Everything (items [0])) = Some (Err ValueError).
Proof. split; [exact file_3d_ok|]. vm_compute. auto. Qed.

(* ---------------- C92 ---------------- *)

(* Missing for the full property: every other trace index, and readers that are
   not two-dimensional. *)
Theorem C92_trace_partial : forall (d : list Z) enc bc tc e dim r t ts native k tr m samples nums,
  readable d enc bc tc -> opens d enc bc tc e dim r -> traces_of d tc e r t ts ->
  NoDup (map t_cdp ts) -> (dim = None /\ ~ NoDup (map (fun t => (t_inline t, t_xline t)) ts)) \/ dim = Some 2 ->
  In k (map t_cdp ts) -> trace_of ts k tr ->
  rd_max_num_trace_samples r = Ok m -> 0 <= m -> forward samples ->
  ensure_superset (QRange (mk_range 0 m 1)) samples = Ok nums -> sseq_list nums <> [] ->
  (forall s, In s (sseq_list nums) -> 0 <= s < t_count tr) -> whole d t tr ->
  forall q, exists a q', extract_trace native r k samples (mk_file d q) = (Ok a, mk_file d q') /\
    Forall2 (sample_of d e t tr) (sseq_list nums) a.
Proof.
  intros d enc bc tc e dim r t ts native k tr m samples nums RD OP TR.
  exact (trace2 d enc bc tc e dim r t ts native RD OP TR k tr m samples nums).
Qed.
Print Assumptions C92_trace_partial.

(* a trace without one of the selected samples *)
Theorem C92_short : forall (d : list Z) enc bc tc e dim r t ts native k tr m samples nums,
  readable d enc bc tc -> opens d enc bc tc e dim r -> traces_of d tc e r t ts ->
  NoDup (map t_cdp ts) -> (dim = None /\ ~ NoDup (map (fun t => (t_inline t, t_xline t)) ts)) \/ dim = Some 2 ->
  In k (map t_cdp ts) -> trace_of ts k tr ->
  rd_max_num_trace_samples r = Ok m -> 0 <= m -> forward samples ->
  ensure_superset (QRange (mk_range 0 m 1)) samples = Ok nums -> sseq_list nums <> [] ->
  held tr (sseq_list nums) <> sseq_list nums -> 0 <= t_count tr -> whole d t tr ->
  forall q, exists y q', extract_trace native r k samples (mk_file d q) = (Err y, mk_file d q') /\ (y = ValueError \/ y = IndexError).
Proof.
  intros d enc bc tc e dim r t ts native k tr m samples nums RD OP TR.
  exact (trace2_short d enc bc tc e dim r t ts native RD OP TR k tr m samples nums).
Qed.
Print Assumptions C92_short.

(* a trace index that is not the ensemble number of any trace, wherever the
   trace is in the file *)
Theorem C92_no_ensemble : forall (d : list Z) enc bc tc e dim r t ts native k samples,
  readable d enc bc tc -> opens d enc bc tc e dim r -> traces_of d tc e r t ts ->
  NoDup (map t_cdp ts) -> (dim = None /\ ~ NoDup (map (fun t => (t_inline t, t_xline t)) ts)) \/ dim = Some 2 ->
  ~ In k (map t_cdp ts) -> forall f, extract_trace native r k samples f = (Err ValueError, f).
Proof.
  intros d enc bc tc e dim r t ts native k samples RD OP TR.
  exact (trace2_absent d enc bc tc e dim r t ts native RD OP TR k samples).
Qed.
Print Assumptions C92_no_ensemble.

Theorem C92_plain_refuted : forall native r k samples f, rd_kind r = Plain -> fst (extract_trace native r k samples f) = Err AttributeError.
Proof. exact trace_plain. Qed.
Print Assumptions C92_plain_refuted.

Theorem C92_3d_refuted : forall native r k samples f o, rd_kind r = Kind3D o -> exists y, extract_trace native r k samples f = (Err y, f).
Proof. exact trace_3d. Qed.
Print Assumptions C92_3d_refuted.

(* trace 0 of a two-dimensional file, which has no ensemble 0 *)
Theorem C92_2d_refuted : (exists r t ts, example file_2d 3 2 r t ts) /\
  of_file file_2d (fun r => extract_trace Little r 0 Everything) = Some (Err ValueError).
Proof. split; [exact file_2d_ok|]. vm_compute. auto. Qed.
Print Assumptions C92_2d_refuted.

(* a file whose traces 0, 1 and 2 have the ensemble numbers 1, 2 and 0 *)
Definition file_cdps : list Z := file_head Big ++ file_trace Big 1 0 0 [10; -20; 30] ++ file_trace Big 2 0 0 [40; 50] ++ file_trace Big 0 0 0 [6].
Example C92_example : (exists r t ts, example file_cdps 3 2 r t ts) /\
  of_file file_cdps (fun r => extract_trace Little r 0 (items [2; 0])) = Some (Ok [RInt 10; RInt 30]) /\
  of_file file_cdps (fun r => extract_trace Little r 1 (items [2; 0])) = Some (Err IndexError).
Proof. split; [apply example_file; vm_compute; reflexivity|]. vm_compute. auto. Qed.

(* ---------------- C93 ---------------- *)

(* Missing for the full property: names in another order, and unsigned fields
   (C93_any_order and C93_unsigned in Props_Order.v). *)
Theorem C93_headers_partial : forall (d : list Z) enc bc tc e dim r t ts names indexes,
  let ks := match indexes with None => rd_trace_indexes r | Some l => l end in
  readable d enc bc tc -> opens d enc bc tc e dim r -> traces_of d tc e r t ts ->
  names <> [] -> in_stored_order tc names -> signed_fields tc names ->
  (forall k, In k ks -> exists tr, trace_of ts k tr /\ forall n, In n names -> ~ bad_field_at tc e d (t_pos tr) n) ->
  forall q, exists a q', extract_trace_headers r names indexes (mk_file d q) = (Ok a, mk_file d q') /\
    Forall2 (fun n nv => fst nv = n /\ column d e tc ts n ks (snd nv)) names a.
Proof.
  intros d enc bc tc e dim r t ts names indexes ks RD OP TR NE HN SG HK.
  exact (headers_read d enc bc tc e dim r t ts Big RD OP TR names indexes NE HN SG HK).
Qed.
Print Assumptions C93_headers_partial.

Theorem C93_bad_field : forall (d : list Z) enc bc tc e dim r t ts names indexes k tr n,
  let ks := match indexes with None => rd_trace_indexes r | Some l => l end in
  readable d enc bc tc -> opens d enc bc tc e dim r -> traces_of d tc e r t ts ->
  names <> [] -> in_stored_order tc names -> signed_fields tc names -> (forall k, In k ks -> 0 <= k < zlen ts) ->
  In k ks -> trace_of ts k tr -> In n names -> bad_field_at tc e d (t_pos tr) n ->
  forall q, exists q', extract_trace_headers r names indexes (mk_file d q) = (Err EOFError, mk_file d q').
Proof.
  intros d enc bc tc e dim r t ts names indexes k tr n ks RD OP TR NE HN SG HK K TO N B.
  exact (headers_fail d enc bc tc e dim r t ts Big RD OP TR names indexes k tr n NE HN SG HK K TO N B).
Qed.
Print Assumptions C93_bad_field.

Theorem C93_fields_3d_partial : forall (d : list Z) enc bc tc e dim r t ts names inlines xlines i_all i_nums j_all j_nums,
  readable d enc bc tc -> opens d enc bc tc e dim r -> traces_of d tc e r t ts ->
  NoDup (map (fun t => (t_inline t, t_xline t)) ts) -> dim = None \/ dim = Some 3 ->
  names <> [] -> in_stored_order tc names -> signed_fields tc names ->
  rd_inline_numbers r = Ok i_all -> ensure_superset i_all inlines = Ok i_nums ->
  rd_xline_numbers r = Ok j_all -> ensure_superset j_all xlines = Ok j_nums ->
  (forall tr n, In tr ts -> In (t_inline tr) (sseq_list i_nums) -> In (t_xline tr) (sseq_list j_nums) -> In n names ->
     ~ bad_field_at tc e d (t_pos tr) n) ->
  forall q, exists a q', extract_trace_header_field_3d r names inlines xlines (mk_file d q) = (Ok a, mk_file d q') /\
    grid (fields_cell d e tc names ts) (sseq_list i_nums) (sseq_list j_nums) a.
Proof.
  intros d enc bc tc e dim r t ts names inlines xlines i_all i_nums j_all j_nums RD OP TR ND DIM.
  exact (fields3 d enc bc tc e dim r t ts Big RD OP TR ND DIM names inlines xlines i_all i_nums j_all j_nums).
Qed.
Print Assumptions C93_fields_3d_partial.

(* asked for in the other order, the two fields get each other's values *)
Theorem C93_order_refuted : (exists r t ts, example file_3d 4 3 r t ts) /\
  of_file file_3d (fun r => extract_trace_headers r ["inline_number"; "crossline_number"] (Some [1])) =
    Some (Ok [("inline_number", [1]); ("crossline_number", [6])]) /\
  of_file file_3d (fun r => extract_trace_headers r ["crossline_number"; "inline_number"] (Some [1])) =
    Some (Ok [("crossline_number", [1]); ("inline_number", [6])]).
Proof. split; [exact file_3d_ok|]. vm_compute. auto. Qed.
Print Assumptions C93_order_refuted.

Theorem C93_unsigned_refuted : (exists r t ts, example file_3d 4 3 r t ts) /\
  of_file file_3d (fun r => extract_trace_headers r ["num_samples"] (Some [1])) = Some (Err ValueError) /\
  of_file file_3d (fun r => rd_trace_header r 1 None) <> Some (Err ValueError) /\
  match of_file file_3d (fun r => rd_trace_header r 1 None) with Some (Ok h) => hdr_get h "num_samples" = Ok 2 | _ => False end.
Proof. split; [exact file_3d_ok|]. split; [vm_compute; reflexivity|]. split; [vm_compute; discriminate|vm_compute; reflexivity]. Qed.
Print Assumptions C93_unsigned_refuted.

Example C93_example : (exists r t ts, example file_3d 4 3 r t ts) /\
  in_stored_order TraceHeaderRev1 ["ensemble_num"; "inline_number"; "crossline_number"] /\
  signed_fields TraceHeaderRev1 ["ensemble_num"; "inline_number"; "crossline_number"] /\
  of_file file_3d (fun r => extract_trace_headers r ["ensemble_num"; "inline_number"; "crossline_number"] None) =
    Some (Ok [("ensemble_num", [7; 7; 8; 8]); ("inline_number", [1; 1; 2; 2]); ("crossline_number", [5; 6; 5; 6])]) /\
  of_file file_3d (fun r => extract_trace_header_field_3d r ["inline_number"; "crossline_number"] Everything (items [6])) =
    Some (Ok [[Some [1; 6]]; [Some [2; 6]]]).
Proof. split; [exact file_3d_ok|]. split; [exact lines_in_order|]. split; [exact lines_signed|]. vm_compute. auto. Qed.
