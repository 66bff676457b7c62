(* Properties C28-C38: segpy/util.py, sorted_frozen_set.py and
   reversed_sequence_view.py. *)
From Coq Require Import ZArith List Bool Lia Sorted.
From Verif Require Import Py Util PyFacts Spec_Util UtilFacts.
Import ListNotations.
Open Scope Z_scope.

(* ---------------- C28 ---------------- *)

Theorem C28_batched_unpadded : forall (A : Type) (xs : list A) (n : Z), 1 <= n ->
  exists batches, batched xs n None = Ok batches /\
    concat batches = xs /\
    Forall (fun b => zlen b = n) (removelast batches) /\
    Forall (fun b => 1 <= zlen b <= n) batches.
Proof. exact @batched_unpadded. Qed.
Print Assumptions C28_batched_unpadded.

Theorem C28_batched_padded : forall (A : Type) (xs : list A) (n : Z) (p : A), 1 <= n ->
  exists batches k, batched xs n (Some p) = Ok batches /\
    0 <= k < n /\ concat batches = xs ++ zrepeat p k /\
    Forall (fun b => zlen b = n) batches.
Proof. exact @batched_padded. Qed.
Print Assumptions C28_batched_padded.

Theorem C28_batched_rejects : forall (A : Type) (xs : list A) (n : Z) (pad : option A),
  n < 1 -> batched xs n pad = Err ValueError.
Proof. exact @batched_rejects. Qed.
Print Assumptions C28_batched_rejects.

Theorem C28_pad : forall (A : Type) (l : list A) (p : A) (size : Z), 0 <= size ->
  zlen (pad_to l p size) = size /\
  (zlen l <= size -> exists tail, pad_to l p size = l ++ tail /\ Forall (eq p) tail) /\
  (size <= zlen l -> exists tail, l = pad_to l p size ++ tail).
Proof. exact @pad_to_spec. Qed.
Print Assumptions C28_pad.

Example C28_example :
  batched [1; 2; 3; 4; 5] 2 None = Ok [[1; 2]; [3; 4]; [5]] /\
  batched [1; 2; 3; 4; 5] 2 (Some 0) = Ok [[1; 2]; [3; 4]; [5; 0]] /\
  batched [1; 2] 0 None = Err ValueError /\
  pad_to [1; 2] 0 4 = [1; 2; 0; 0].
Proof. vm_compute; auto. Qed.

(* ---------------- C29 ---------------- *)

Theorem C29_complementary_intervals : forall l start stop,
  l <> [] -> ordered_within start stop l ->
  exists gaps, complementary_intervals l (Some start) (Some stop) = Ok gaps /\
    zlen gaps = zlen l + 1 /\
    tiles start stop (interleave gaps l) /\
    (forall x, start <= x < stop ->
       (exists g, In g gaps /\ in_interval x g) <-> ~ (exists s, In s l /\ in_interval x s)).
Proof. exact complementary_intervals_tiles. Qed.
Print Assumptions C29_complementary_intervals.

(* start defaults to the start of the first interval, stop to the stop of the last *)
Theorem C29_complementary_intervals_defaults : forall s0 l start stop,
  complementary_intervals (s0 :: l) start stop =
  complementary_intervals (s0 :: l)
    (Some (match start with Some a => a | None => fst s0 end))
    (Some (match stop with Some b => b | None => snd (last (s0 :: l) s0) end)).
Proof. exact complementary_intervals_defaults. Qed.
Print Assumptions C29_complementary_intervals_defaults.

(* intervals_are_contiguous: true exactly when the intervals follow one another without gap or overlap *)
Theorem C29_intervals_are_contiguous : forall l, l <> [] -> Forall (fun i => fst i <= snd i) l ->
  exists b, intervals_are_contiguous l = Ok b /\
    (b = true <-> exists start stop, tiles start stop l).
Proof. exact contiguous_tiles. Qed.
Print Assumptions C29_intervals_are_contiguous.

Example C29_contiguous_example :
  intervals_are_contiguous [(0, 3); (3, 3); (3, 8)] = Ok true /\
  intervals_are_contiguous [(0, 3); (4, 8)] = Ok false /\
  intervals_are_contiguous [(0, 3); (2, 8)] = Ok false.
Proof. repeat split; reflexivity. Qed.

Example C29_example :
  ordered_within 0 20 [(2, 5); (5, 7); (10, 12)] /\
  complementary_intervals [(2, 5); (5, 7); (10, 12)] (Some 0) (Some 20)
  = Ok [(0, 2); (5, 5); (7, 10); (12, 20)] /\
  complementary_intervals [] None None = Err ValueError.
Proof. repeat split; cbn; lia. Qed.

(* ---------------- C30 ---------------- *)

Theorem C30_intervals_partially_overlap : forall k a b, fst a < snd a -> fst b < snd b ->
  intervals_partially_overlap k a b = true <->
  (exists x, in_interval x a /\ in_interval x b) /\ a <> b.
Proof. exact overlap_spec. Qed.
Print Assumptions C30_intervals_partially_overlap.

Example C30_example :
  intervals_partially_overlap KRange (0, 4) (2, 6) = true /\
  intervals_partially_overlap KRange (0, 4) (4, 6) = false /\
  intervals_partially_overlap KSlice (0, 4) (0, 4) = false /\
  intervals_partially_overlap KSlice (0, 4) (1, 2) = true.
Proof. vm_compute; auto. Qed.

(* ---------------- C31 ---------------- *)

Theorem C31_reversed_range : forall r, r_step r <> 0 ->
  range_list (reversed_range r) = rev (range_list r).
Proof. exact reversed_range_spec. Qed.
Print Assumptions C31_reversed_range.

Example C31_example :
  range_list (reversed_range (mk_range 10 (-5) (-4))) = [-2; 2; 6; 10] /\
  range_list (mk_range 10 (-5) (-4)) = [10; 6; 2; -2] /\
  range_list (reversed_range (mk_range 0 0 3)) = [].
Proof. vm_compute; auto. Qed.

(* ---------------- C32 ---------------- *)

(* Anything but a range.  With sense=None the iterable must give the same
   items when iterated a second time (see C33). *)
Theorem C32_make_sorted_distinct_sequence : forall it sn,
  (forall r, it <> ItRange r) -> it_list it <> [] -> sn <> SOther ->
  (sn = SNone -> it_list_again it = it_list it) ->
  exists s, make_sorted_distinct_sequence it sn = Ok s /\ sseq_wf s /\
    (forall x, In x (sseq_list s) <-> In x (it_list it)) /\
    match sn with
    | SAscending => StronglySorted Z.lt (sseq_list s)
    | SDescending => StronglySorted Z.gt (sseq_list s)
    | _ => (StronglySorted Z.gt (it_list it) -> sseq_list s = it_list it) /\
           (~ StronglySorted Z.gt (it_list it) -> StronglySorted Z.lt (sseq_list s))
    end /\
    ((exists r, s = QRange r) <-> exists d, successive_differences (sseq_list s) d).
Proof. exact msds_list. Qed.
Print Assumptions C32_make_sorted_distinct_sequence.

(* Ranges, empty ones included. *)
Theorem C32_make_sorted_distinct_sequence_range : forall r sn, r_step r <> 0 -> sn <> SOther ->
  exists s, make_sorted_distinct_sequence (ItRange r) sn = Ok (QRange s) /\ r_step s <> 0 /\
    (forall x, In x (range_list s) <-> In x (range_list r)) /\
    match sn with
    | SAscending => StronglySorted Z.lt (range_list s)
    | SDescending => StronglySorted Z.gt (range_list s)
    | _ => range_list s = range_list r
    end.
Proof. exact msds_range. Qed.
Print Assumptions C32_make_sorted_distinct_sequence_range.

(* The sequence returned supports len, indexing, membership and index
   consistently with the items it iterates over. *)
Theorem C32_result_is_a_sequence : forall s, sseq_wf s ->
  sseq_len s = zlen (sseq_list s) /\
  (forall i, sseq_get s i = py_get (sseq_list s) i) /\
  (forall x, sseq_mem s x = true <-> In x (sseq_list s)) /\
  (forall x i, sseq_index s x = Ok i <->
     (0 <= i /\ nth_error (sseq_list s) (Z.to_nat i) = Some x /\
      forall j, 0 <= j < i -> nth_error (sseq_list s) (Z.to_nat j) <> Some x)).
Proof.
  exact (fun s W => conj (sseq_len_spec s) (conj (sseq_get_spec s)
    (conj (fun x => sseq_mem_spec s x W)
      (fun x i => eq_ind_r (fun o => o = Ok i <-> _) (list_index_spec _ _ _) (sseq_index_spec s x W))))).
Qed.
Print Assumptions C32_result_is_a_sequence.

Theorem C32_invalid_sense : forall it, make_sorted_distinct_sequence it SOther = Err TypeError.
Proof. exact msds_bad_sense. Qed.
Print Assumptions C32_invalid_sense.

Example C32_example :
  make_sorted_distinct_sequence (ItSeq [9; 1; 5; 5]) SAscending = Ok (QRange (mk_range 1 13 4)) /\
  make_sorted_distinct_sequence (ItSeq [9; 5; 4]) SNone = Ok (QRev [4; 5; 9]) /\
  make_sorted_distinct_sequence (ItSeq [9; 5; 1]) SNone = Ok (QRange (mk_range 9 (-3) (-4))) /\
  make_sorted_distinct_sequence (ItSeq [7]) SDescending = Ok (QRange (mk_range 7 8 1)) /\
  make_sorted_distinct_sequence (ItRange (mk_range 0 10 3)) SDescending
    = Ok (QRange (mk_range 9 (-2) (-3))).
Proof. vm_compute; auto. Qed.

(* ---------------- C33 ---------------- *)

(* Refuted twice: with sense=None a one-shot iterator is consumed by the sense
   detection and the result is built from nothing; and no items at all raises. *)
Theorem C33_iterator_refuted :
  exists l, make_sorted_distinct_sequence (ItIter l) SNone
            <> make_sorted_distinct_sequence (ItSeq l) SNone.
Proof. exact msds_iterator_loses_items. Qed.
Print Assumptions C33_iterator_refuted.

Theorem C33_empty_refuted : forall sn, sn <> SOther ->
  make_sorted_distinct_sequence (ItSeq []) sn = Err RuntimeError.
Proof. exact (fun sn => match sn with SOther => fun H => False_ind _ (H eq_refl) | _ => fun _ => eq_refl end). Qed.
Print Assumptions C33_empty_refuted.

(* What does hold: with an explicit sense the kind of iterable is irrelevant. *)
Theorem C33_explicit_sense_partial : forall it1 it2 sn,
  (forall r, it1 <> ItRange r) -> (forall r, it2 <> ItRange r) ->
  it_list it1 = it_list it2 -> sn <> SNone ->
  make_sorted_distinct_sequence it1 sn = make_sorted_distinct_sequence it2 sn.
Proof. exact msds_explicit_sense. Qed.
Print Assumptions C33_explicit_sense_partial.

(* ---------------- C34 ---------------- *)

Theorem C34_measure_stride : forall l d, l <> [] ->
  measure_stride l = Ok (Some d) <-> (2 <= zlen l /\ successive_differences l d).
Proof. exact measure_stride_spec. Qed.
Print Assumptions C34_measure_stride.

Theorem C34_measure_stride_total : forall l, l <> [] -> exists o, measure_stride l = Ok o.
Proof. exact measure_stride_none. Qed.
Print Assumptions C34_measure_stride_total.

(* of a range with at least two items *)
Theorem C34_measure_stride_range_partial : forall r, range_ok r -> 2 <= zlen (range_list r) -> forall d,
  measure_stride_range r = Ok (Some d) <-> successive_differences (range_list r) d.
Proof. exact measure_stride_range_spec. Qed.
Print Assumptions C34_measure_stride_range_partial.

(* a range with fewer than two items has no stride; its step is returned
   where the equal list gives None *)
Theorem C34_short_range_refuted : exists r, range_ok r /\
  measure_stride_range r = Ok (Some 5) /\ measure_stride (range_list r) = Ok None.
Proof. exists (mk_range 0 3 5). split; [vm_compute; discriminate|]. split; reflexivity. Qed.
Print Assumptions C34_short_range_refuted.

Theorem C34_contains_duplicates : forall l (reverse : bool), l <> [] ->
  StronglySorted (if reverse then Z.ge else Z.le) l ->
  exists b, contains_duplicates l = Ok b /\ (b = true <-> has_repeat l).
Proof. exact contains_duplicates_spec. Qed.
Print Assumptions C34_contains_duplicates.

Theorem C34_is_sorted : forall (A : Type) (key : A -> Z) (l : list A) (reverse distinct : bool),
  l <> [] ->
  exists b, is_sorted key l reverse distinct = Ok b /\
    (b = true <->
     StronglySorted (if reverse then (if distinct then Z.gt else Z.ge)
                     else (if distinct then Z.lt else Z.le)) (map key l)).
Proof. exact @is_sorted_spec. Qed.
Print Assumptions C34_is_sorted.

Theorem C34_is_sorted_range : forall r (reverse distinct : bool),
  r_step r <> 0 -> range_list r <> [] ->
  exists b, is_sorted_range r reverse distinct = Ok b /\
    (b = true <->
     StronglySorted (if reverse then (if distinct then Z.gt else Z.ge)
                     else (if distinct then Z.lt else Z.le)) (range_list r)).
Proof. exact is_sorted_range_spec. Qed.
Print Assumptions C34_is_sorted_range.

Theorem C34_minmax : forall l, l <> [] ->
  exists lo hi, minmax l = Ok (lo, hi) /\ In lo l /\ In hi l /\
    (forall x, In x l -> lo <= x <= hi).
Proof. exact minmax_spec. Qed.
Print Assumptions C34_minmax.

Theorem C34_all_equal : forall l,
  all_equal l = true <-> (forall x y, In x l -> In y l -> x = y).
Proof. exact all_equal_spec. Qed.
Print Assumptions C34_all_equal.

Example C34_example :
  measure_stride [3; 7; 11] = Ok (Some 4) /\ measure_stride [3; 7; 12] = Ok None /\
  measure_stride [3] = Ok None /\ measure_stride [] = Err RuntimeError /\
  contains_duplicates [5; 3; 3; 1] = Ok true /\ contains_duplicates [1; 3] = Ok false /\
  is_sorted (fun x => x) [1; 2; 2] false false = Ok true /\
  is_sorted (fun x => x) [1; 2; 2] false true = Ok false /\
  minmax [4; 9; 2; 7] = Ok (2, 9).
Proof. vm_compute; repeat split; reflexivity. Qed.

(* ---------------- C35 ---------------- *)

Theorem C35_items : forall xs,
  StronglySorted Z.lt (sfs_new xs) /\ (forall x, In x (sfs_new xs) <-> In x xs).
Proof. exact (fun xs => conj (sorted_set_sorted xs) (sorted_set_In xs)). Qed.
Print Assumptions C35_items.

Theorem C35_len : forall xs, zlen (sfs_new xs) = zlen (nodup Z.eq_dec xs).
Proof.
  exact (fun xs => f_equal Z.of_nat (NoDup_same_length _ _ (sorted_set_NoDup xs) (NoDup_nodup Z.eq_dec xs)
    (fun x => iff_trans (sorted_set_In xs x) (iff_sym (nodup_In Z.eq_dec xs x))))).
Qed.
Print Assumptions C35_len.

Theorem C35_membership : forall xs x, sfs_mem (sfs_new xs) x = true <-> In x xs.
Proof.
  exact (fun xs x => iff_trans (sfs_mem_spec _ x (sorted_set_sorted xs)) (sorted_set_In xs x)).
Qed.
Print Assumptions C35_membership.

Theorem C35_index : forall xs x i,
  sfs_index (sfs_new xs) x = Ok i <-> (0 <= i /\ nth_error (sfs_new xs) (Z.to_nat i) = Some x).
Proof. exact (fun xs x i => sfs_index_spec _ x i (sorted_set_sorted xs)). Qed.
Print Assumptions C35_index.

Theorem C35_index_absent : forall xs x,
  sfs_index (sfs_new xs) x = Err ValueError <-> ~ In x xs.
Proof.
  exact (fun xs x => iff_trans (sfs_index_err _ x (sorted_set_sorted xs))
                               (not_iff_compat (sorted_set_In xs x))).
Qed.
Print Assumptions C35_index_absent.

Theorem C35_set_operations : forall xs ys,
  let s := sfs_new xs in
  (forall x, In x (sfs_union s ys) <-> In x xs \/ In x ys) /\
  (forall x, In x (sfs_intersection s ys) <-> In x xs /\ In x ys) /\
  (forall x, In x (sfs_difference s ys) <-> In x xs /\ ~ In x ys) /\
  (forall x, In x (sfs_symmetric_difference s ys) <->
             (In x xs /\ ~ In x ys) \/ (In x ys /\ ~ In x xs)) /\
  (sfs_issubset s ys = true <-> forall x, In x xs -> In x ys) /\
  (sfs_issuperset s ys = true <-> forall x, In x ys -> In x xs) /\
  Forall (StronglySorted Z.lt)
    [sfs_union s ys; sfs_intersection s ys; sfs_difference s ys; sfs_symmetric_difference s ys].
Proof. exact sfs_ops_spec. Qed.
Print Assumptions C35_set_operations.

(* ==, <, >, isdisjoint, count, + and * *)
Theorem C35_comparisons_and_sequence_operations : forall xs ys n x,
  let s := sfs_new xs in let t := sfs_new ys in
  (sfs_eq s t = true <-> forall y, In y xs <-> In y ys) /\
  (sfs_lt s t = true <-> (forall y, In y xs -> In y ys) /\ exists y, In y ys /\ ~ In y xs) /\
  (sfs_gt s t = true <-> (forall y, In y ys -> In y xs) /\ exists y, In y xs /\ ~ In y ys) /\
  (sfs_isdisjoint s t = true <-> forall y, In y xs -> ~ In y ys) /\
  sfs_count s x = (if in_dec Z.eq_dec x xs then 1 else 0) /\
  sfs_add s t = sfs_new (xs ++ ys) /\
  sfs_mul s n = (if 0 <? n then s else sfs_new []).
Proof. exact sfs_more_spec. Qed.
Print Assumptions C35_comparisons_and_sequence_operations.

Example C35_more_example :
  let s := sfs_new [5; 3; 3] in
  sfs_eq s (sfs_new [3; 5]) = true /\ sfs_lt s (sfs_new [3; 4; 5]) = true /\ sfs_lt s s = false /\
  sfs_gt s (sfs_new [3]) = true /\ sfs_isdisjoint s (sfs_new [1; 4]) = true /\ sfs_isdisjoint s (sfs_new [1; 5]) = false /\
  sfs_count s 3 = 1 /\ sfs_count s 4 = 0 /\ sfs_add s (sfs_new [4]) = [3; 4; 5] /\
  sfs_mul s 2 = [3; 5] /\ sfs_mul s 0 = [].
Proof. repeat split; reflexivity. Qed.

Example C35_example :
  sfs_new [3; 1; 2; 3] = [1; 2; 3] /\ sfs_index (sfs_new [7; 5; 9]) 9 = Ok 2 /\
  sfs_index (sfs_new [7; 5; 9]) 6 = Err ValueError /\
  sfs_symmetric_difference (sfs_new [1; 2; 3]) [4; 3] = [1; 2; 4].
Proof. vm_compute; auto. Qed.

(* ---------------- C36 ---------------- *)

Theorem C36_iteration : forall l, so_iter (SoView (SoList l)) = Ok (rev l).
Proof. exact (fun l => eq_refl). Qed.
Print Assumptions C36_iteration.

(* view[i], for any sequence s, including another view *)
Theorem C36_getitem : forall s i n x, n = so_len s ->
  (0 <= i < n -> so_get (SoView s) i = so_get s (n - 1 - i)) /\
  (- n <= i < 0 -> so_get (SoView s) i = so_get (SoView s) (n + i)) /\
  (i < - n \/ n <= i -> so_get (SoView s) i = Err IndexError) /\
  so_mem (SoView s) x = so_mem s x /\ so_count (SoView s) x = so_count s x /\
  so_len (SoView s) = n.
Proof. exact view_getitem. Qed.
Print Assumptions C36_getitem.

Theorem C36_index : forall l x i,
  rsv_index l x = Ok i <->
  (0 <= i /\ nth_error (rev l) (Z.to_nat i) = Some x /\
   forall j, 0 <= j < i -> nth_error (rev l) (Z.to_nat j) <> Some x).
Proof.
  exact (fun l x i => eq_ind_r (fun o => o = Ok i <-> _) (list_index_spec (rev l) x i) (rsv_index_spec l x)).
Qed.
Print Assumptions C36_index.

Theorem C36_index_absent : forall l x,
  rsv_index l x = Err ValueError <-> ~ In x l.
Proof. exact rsv_index_absent. Qed.
Print Assumptions C36_index_absent.

(* Refuted for a view of a view: it cannot be iterated although len and
   indexing work. *)
Theorem C36_view_of_view_iteration_refuted : forall s,
  so_iter (SoView (SoView s)) = Err TypeError.
Proof. exact (fun s => eq_refl). Qed.
Print Assumptions C36_view_of_view_iteration_refuted.

Example C36_example :
  so_get (SoView (SoList [1; 2; 3])) 0 = Ok 3 /\ so_get (SoView (SoList [1; 2; 3])) (-1) = Ok 1 /\
  so_get (SoView (SoView (SoList [1; 2; 3]))) 0 = Ok 1 /\
  so_iter (SoView (SoView (SoList [1; 2; 3]))) = Err TypeError /\
  rsv_index [5; 6; 5; 8] 5 = Ok 1 /\ rsv_index [5; 6; 5; 8] 6 = Ok 2.
Proof. vm_compute; repeat split; reflexivity. Qed.

(* ---------------- C37 ---------------- *)

Theorem C37_roundrobin : forall (A : Type) (ls : list (list A)), roundrobin ls = rounds ls.
Proof. exact @roundrobin_spec. Qed.
Print Assumptions C37_roundrobin.

Example C37_example : roundrobin [[1; 2; 3]; []; [4]; [5; 6]] = [1; 4; 5; 2; 6; 3].
Proof. vm_compute; reflexivity. Qed.

(* ---------------- C38 ---------------- *)

Theorem C38_round_up : forall n m, 1 <= m ->
  exists v, round_up n m = Ok v /\ (exists k, v = k * m) /\ n <= v /\
    (forall k, n <= k * m -> v <= k * m).
Proof. exact round_up_spec. Qed.
Print Assumptions C38_round_up.

Theorem C38_round_up_rejects : forall n m, m <= 0 -> round_up n m = Err ValueError.
Proof. exact round_up_rejects. Qed.
Print Assumptions C38_round_up_rejects.

Theorem C38_cmp_sgn : forall x y,
  cmp x y = Z.sgn (x - y) /\ sgn x = Z.sgn x.
Proof. exact cmp_sgn_spec. Qed.
Print Assumptions C38_cmp_sgn.

Example C38_example :
  round_up 241 80 = Ok 320 /\ round_up (-7) 4 = Ok (-4) /\ round_up 8 4 = Ok 8 /\
  cmp 3 5 = -1 /\ sgn 9 = 1.
Proof. vm_compute; repeat split; reflexivity. Qed.

(* ---------------- C94 ---------------- *)

Theorem C94_first_last : forall (A : Type) (is_sequence : bool) (l : list A),
  (l = [] -> first l = Err ValueError /\ last_item is_sequence l = Err ValueError) /\
  (forall x m, l = x :: m -> first l = Ok x) /\
  (forall x m, l = m ++ [x] -> last_item is_sequence l = Ok x).
Proof. exact @first_last_spec. Qed.
Print Assumptions C94_first_last.

Example C94_example : first [4; 7; 9] = Ok 4 /\ last_item true [4; 7; 9] = Ok 9 /\ last_item false [4; 7; 9] = Ok 9.
Proof. repeat split; reflexivity. Qed.
