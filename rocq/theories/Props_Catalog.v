(* Properties C39-C44: segpy/catalog.py. *)
From Coq Require Import ZArith List Bool Lia Sorted Permutation.
From Verif Require Import Py Util Catalog PyFacts Spec_Util UtilFacts Spec_Catalog CatalogFacts StrideFacts.
Import ListNotations.
Open Scope Z_scope.

(* ---------------- C39 ---------------- *)

Theorem C39_faithful_1d : forall items : list (Z * Z), items <> [] -> NoDup (map fst items) ->
  exists c, fst (create1 items) = Ok (Some c) /\
    holds_exactly (cat1_get c) (cat1_mem c) (cat1_len c) (cat1_iter c) items /\
    StronglySorted Z.lt (cat1_iter c).
Proof. exact create1_holds. Qed.
Print Assumptions C39_faithful_1d.

(* adding more items after a create() works on the same items *)
Theorem C39_create_keeps_items : forall items : list (Z * Z), Permutation (snd (create1 items)) items.
Proof. exact create1_state. Qed.
Print Assumptions C39_create_keeps_items.

(* the five representations are all reached *)
Example C39_example :
  fst (create1 [(5, 1); (3, 9); (4, 4)]) = Ok (Some (CRegular 3 5 1 [9; 4; 1])) /\
  fst (create1 [(5, 1); (3, 1); (4, 1)]) = Ok (Some (CRegConst 3 5 1 1)) /\
  fst (create1 [(6, 1); (3, 1); (4, 1)]) = Ok (Some (CConst [3; 4; 6] 1)) /\
  fst (create1 [(7, 1); (3, 9); (5, 5)]) = Ok (Some (CLinear 3 7 2 9 1 (-4))) /\
  fst (create1 [(7, 1); (3, 9); (4, 5)]) = Ok (Some (CDict [(3, 9); (4, 5); (7, 1)])).
Proof. repeat split. Qed.

(* ---------------- C40 ---------------- *)

Theorem C40_faithful_2d : forall items : list ((Z * Z) * Z), items <> [] -> NoDup (map fst items) ->
  exists c, fst (create2 items) = Ok (Some c) /\
    holds_exactly (cat2_get c) (cat2_mem c) (cat2_len c) (cat2_iter c) items /\
    StronglySorted Z.lt (sseq_list (cat2_i_range c)) /\
    StronglySorted Z.lt (sseq_list (cat2_j_range c)) /\
    (forall x, In x (sseq_list (cat2_i_range c)) <-> exists j v, In ((x, j), v) items) /\
    (forall x, In x (sseq_list (cat2_j_range c)) <-> exists i v, In ((i, x), v) items).
Proof. exact create2_holds. Qed.
Print Assumptions C40_faithful_2d.

Theorem C40_create_keeps_items : forall items : list ((Z * Z) * Z),
  Permutation (snd (create2 items)) items.
Proof. exact create2_state. Qed.
Print Assumptions C40_create_keeps_items.

Example C40_example :
  (exists i j v, fst (create2 [((2, 1), 12); ((1, 1), 10); ((1, 2), 11); ((2, 2), 13)])
                 = Ok (Some (C2Last i j v))) /\
  (exists i j v, fst (create2 [((2, 1), 11); ((1, 1), 10); ((1, 2), 12); ((2, 2), 13)])
                 = Ok (Some (C2First i j v))) /\
  (exists i j v, fst (create2 [((2, 1), 12); ((1, 1), 10); ((1, 2), 11)])
                 = Ok (Some (C2Dict i j v))).
Proof. repeat split; eexists _, _, _; vm_compute; reflexivity. Qed.

(* ---------------- C41 ---------------- *)

Theorem C41_none_iff_duplicate_1d : forall items : list (Z * Z), items <> [] ->
  fst (create1 items) = Ok None <-> ~ NoDup (map fst items).
Proof. exact create1_none. Qed.
Print Assumptions C41_none_iff_duplicate_1d.

Theorem C41_none_iff_duplicate_2d : forall items : list ((Z * Z) * Z), items <> [] ->
  fst (create2 items) = Ok None <-> ~ NoDup (map fst items).
Proof. exact create2_none. Qed.
Print Assumptions C41_none_iff_duplicate_2d.

Example C41_example :
  fst (create1 [(5, 1); (3, 9); (5, 1)]) = Ok None /\
  fst (create2 [((5, 1), 1); ((3, 9), 2); ((5, 1), 3)]) = Ok None.
Proof. repeat split. Qed.

(* ---------------- C42 ---------------- *)

(* full statement: fst (create1 []) = Ok (Some c) with c holding no items *)
Theorem C42_empty_builder_refuted :
  fst (create1 []) = Err RuntimeError /\ fst (create2 []) = Err RuntimeError.
Proof. exact (conj eq_refl eq_refl). Qed.
Print Assumptions C42_empty_builder_refuted.

(* ---------------- C43 ---------------- *)

Theorem C43_key_inverts_lookup_row_major : forall ir jr vr c v,
  sseq_wf ir -> sseq_wf jr -> sseq_wf vr -> last_index_catalog ir jr vr = Ok c ->
  (forall i j, cat2_key c v = Ok (i, j) <-> cat2_get c (i, j) = Ok v) /\
  (cat2_key c v = Err ValueError <-> ~ exists k, cat2_get c k = Ok v).
Proof. exact key_last. Qed.
Print Assumptions C43_key_inverts_lookup_row_major.

Theorem C43_key_inverts_lookup_column_major : forall ir jr vr c v,
  sseq_wf ir -> sseq_wf jr -> sseq_wf vr -> first_index_catalog ir jr vr = Ok c ->
  (forall i j, cat2_key c v = Ok (i, j) <-> cat2_get c (i, j) = Ok v) /\
  (cat2_key c v = Err ValueError <-> ~ exists k, cat2_get c k = Ok v).
Proof. exact key_first. Qed.
Print Assumptions C43_key_inverts_lookup_column_major.

Example C43_example :
  let ir := QRange (mk_range 1 4 1) in
  let jr := QRange (mk_range 10 30 10) in
  let vr := QRange (mk_range 5 (-1) (-1)) in
  sseq_wf ir /\ sseq_wf jr /\ sseq_wf vr /\
  exists c d, last_index_catalog ir jr vr = Ok c /\ first_index_catalog ir jr vr = Ok d /\
    cat2_key c 4 = Ok (1, 20) /\ cat2_get c (1, 20) = Ok 4 /\
    cat2_key d 4 = Ok (2, 10) /\ cat2_get d (2, 10) = Ok 4 /\
    cat2_key c 6 = Err ValueError.
Proof.
  cbv zeta. split; [discriminate|]. split; [discriminate|]. split; [discriminate|].
  eexists _, _. repeat split.
Qed.

(* ---------------- C44 ---------------- *)

Theorem C44_regular_constant : forall kmin kmax d v, 0 < d ->
  (kmin <= kmax /\ (d | kmax - kmin) ->
   exists c, regular_constant_catalog kmin kmax d v = Ok c /\
     self_consistent (cat1_get c) (cat1_mem c) (cat1_len c) (cat1_iter c) /\
     (forall k, In k (cat1_iter c) <-> kmin <= k <= kmax /\ (d | k - kmin)) /\
     (forall k, In k (cat1_iter c) -> cat1_get c k = Ok v)) /\
  (~ (kmin <= kmax /\ (d | kmax - kmin)) ->
   regular_constant_catalog kmin kmax d v = Err ValueError).
Proof. exact regular_constant_spec. Qed.
Print Assumptions C44_regular_constant.

Theorem C44_regular : forall kmin kmax d vs, 0 < d ->
  (kmin <= kmax /\ (d | kmax - kmin) /\ kmin + (zlen vs - 1) * d = kmax ->
   exists c, regular_catalog kmin kmax d vs = Ok c /\
     self_consistent (cat1_get c) (cat1_mem c) (cat1_len c) (cat1_iter c) /\
     (forall k, In k (cat1_iter c) <-> kmin <= k <= kmax /\ (d | k - kmin)) /\
     (forall n v, nth_error vs n = Some v -> cat1_get c (kmin + Z.of_nat n * d) = Ok v)) /\
  (~ (kmin <= kmax /\ (d | kmax - kmin) /\ kmin + (zlen vs - 1) * d = kmax) ->
   regular_catalog kmin kmax d vs = Err ValueError).
Proof. exact regular_spec. Qed.
Print Assumptions C44_regular.

Theorem C44_linear_regular : forall kmin kmax d vstart vstop e,
  (kmin < kmax /\ 0 < d /\ e <> 0 /\
   (exists n, kmax = kmin + n * d /\ vstop = vstart + n * e) ->
   exists c, linear_regular_catalog kmin kmax d vstart vstop e = Ok c /\
     self_consistent (cat1_get c) (cat1_mem c) (cat1_len c) (cat1_iter c) /\
     (forall k, In k (cat1_iter c) <-> kmin <= k <= kmax /\ (d | k - kmin)) /\
     (forall n, kmin <= kmin + n * d <= kmax -> cat1_get c (kmin + n * d) = Ok (vstart + n * e))) /\
  (~ (kmin < kmax /\ 0 < d /\ e <> 0 /\
      exists n, kmax = kmin + n * d /\ vstop = vstart + n * e) ->
   linear_regular_catalog kmin kmax d vstart vstop e = Err ValueError).
Proof. exact linear_spec. Qed.
Print Assumptions C44_linear_regular.

Theorem C44_grids : forall ir jr vr, sseq_wf ir -> sseq_wf jr -> sseq_wf vr ->
  sseq_list ir <> [] -> sseq_list jr <> [] ->
  let ok := zlen (sseq_list ir) * zlen (sseq_list jr) = zlen (sseq_list vr) /\
            StronglySorted Z.lt (sseq_list ir) /\ StronglySorted Z.lt (sseq_list jr) in
  (ok -> exists c d,
     last_index_catalog ir jr vr = Ok c /\ first_index_catalog ir jr vr = Ok d /\
     self_consistent (cat2_get c) (cat2_mem c) (cat2_len c) (cat2_iter c) /\
     self_consistent (cat2_get d) (cat2_mem d) (cat2_len d) (cat2_iter d) /\
     (forall m n i j, nth_error (sseq_list ir) m = Some i -> nth_error (sseq_list jr) n = Some j ->
        cat2_get c (i, j) = Ok (nth (m * length (sseq_list jr) + n) (sseq_list vr) 0) /\
        cat2_get d (i, j) = Ok (nth (n * length (sseq_list ir) + m) (sseq_list vr) 0))) /\
  (~ ok -> last_index_catalog ir jr vr = Err ValueError /\ first_index_catalog ir jr vr = Err ValueError).
Proof. exact grid_catalogs_spec. Qed.
Print Assumptions C44_grids.

Theorem C44_dictionary_2d : forall ir jr items, sseq_wf ir -> sseq_wf jr ->
  sseq_list ir <> [] -> sseq_list jr <> [] -> NoDup (map fst items) ->
  let ok := (StronglySorted Z.lt (sseq_list ir) /\ StronglySorted Z.lt (sseq_list jr)) /\
            (forall i j v, In ((i, j), v) items -> In i (sseq_list ir) /\ In j (sseq_list jr)) in
  (ok -> exists c, dictionary_catalog_2d ir jr items = Ok c /\
     holds_exactly (cat2_get c) (cat2_mem c) (cat2_len c) (cat2_iter c) items) /\
  (~ ok -> dictionary_catalog_2d ir jr items = Err ValueError).
Proof. exact dict2_spec. Qed.
Print Assumptions C44_dictionary_2d.

(* items with repeated keys: the last value given for a key is the one held *)
Theorem C44_dictionary_repeats : forall items, exists d,
  let c := dictionary_catalog items in
  holds_exactly (cat1_get c) (cat1_mem c) (cat1_len c) (cat1_iter c) d /\
  forall k v, In (k, v) d <-> last_value items k v.
Proof. exact dict1_repeats. Qed.
Print Assumptions C44_dictionary_repeats.

Theorem C44_dictionary_2d_repeats : forall ir jr items, sseq_wf ir -> sseq_wf jr ->
  StronglySorted Z.lt (sseq_list ir) -> StronglySorted Z.lt (sseq_list jr) ->
  sseq_list ir <> [] -> sseq_list jr <> [] ->
  (forall i j v, In ((i, j), v) items -> In i (sseq_list ir) /\ In j (sseq_list jr)) ->
  exists c d, dictionary_catalog_2d ir jr items = Ok c /\
    holds_exactly (cat2_get c) (cat2_mem c) (cat2_len c) (cat2_iter c) d /\
    forall k v, In (k, v) d <-> last_value items k v.
Proof. exact dict2_repeats. Qed.
Print Assumptions C44_dictionary_2d_repeats.

Example C44_repeats_example :
  let c := dictionary_catalog [(3, 1); (5, 2); (3, 7)] in
  cat1_get c 3 = Ok 7 /\ cat1_len c = 2 /\ last_value [(3, 1); (5, 2); (3, 7)] 3 7.
Proof.
  repeat split; try reflexivity. exists [(3, 1); (5, 2)], []. split; [reflexivity|intros []].
Qed.

(* outside positive strides: stride 0 is not reported as ValueError, and a
   negative stride is accepted although the catalog has a negative length *)
Theorem C44_stride_refuted :
  regular_constant_catalog 0 10 0 7 = Err ZeroDivisionError /\
  (exists c, regular_constant_catalog 0 10 (-5) 7 = Ok c /\ cat1_len c < 0).
Proof. exact regular_stride_refuted. Qed.
Print Assumptions C44_stride_refuted.

(* What strides that are not positive give.  A catalog with a negative stride
   has no keys when it is iterated, yet it holds keys in steps of the stride:
   with one value all of them, else at most one. *)
Theorem C44_stride_zero_refuted : forall kmin kmax v vs, kmin <= kmax ->
  regular_constant_catalog kmin kmax 0 v = Err ZeroDivisionError /\ regular_catalog kmin kmax 0 vs = Err ZeroDivisionError.
Proof.
  intros kmin kmax v vs H. unfold regular_constant_catalog, regular_catalog. destruct (kmax <? kmin) eqn:E; [lia|]. now split.
Qed.
Print Assumptions C44_stride_zero_refuted.
Theorem C44_stride_negative_refuted : forall kmin kmax d v vs, d < 0 ->
  (kmin <= kmax /\ (d | kmax - kmin) ->
   exists c, regular_constant_catalog kmin kmax d v = Ok c /\ cat1_iter c = [] /\
     (exists n, 0 <= n /\ kmax = kmin - n * d /\ cat1_len c = 1 - n) /\
     (forall k, cat1_mem c k = true <-> kmin <= k <= kmax /\ (d | k - kmin)) /\
     (forall k, cat1_get c k = if cat1_mem c k then Ok v else Err KeyError)) /\
  (~ (kmin <= kmax /\ (d | kmax - kmin)) -> regular_constant_catalog kmin kmax d v = Err ValueError) /\
  ((kmax = kmin /\ zlen vs = 1) \/ (kmax = kmin - d /\ vs = []) ->
   exists c, regular_catalog kmin kmax d vs = Ok c /\ cat1_iter c = [] /\ cat1_len c = zlen vs /\
     (forall k, cat1_mem c k = true <-> k = kmin \/ k = kmax) /\
     (forall k, cat1_get c k = if negb (cat1_mem c k) then Err KeyError else match vs with u :: _ => Ok u | [] => Err IndexError end)) /\
  (~ ((kmax = kmin /\ zlen vs = 1) \/ (kmax = kmin - d /\ vs = [])) -> regular_catalog kmin kmax d vs = Err ValueError).
Proof. exact stride_negative. Qed.
Print Assumptions C44_stride_negative_refuted.
Example C44_stride_negative_example : -5 < 0 /\ (0 <= 10 /\ (-5 | 10 - 0)) /\ 7 = 2 - (-5) /\
  (exists c, regular_constant_catalog 0 10 (-5) 7 = Ok c /\ cat1_len c = -1 /\ cat1_mem c 5 = true /\ cat1_mem c 6 = false).
Proof. split; [lia|]. split; [split; [lia|now exists (-2)]|]. split; [lia|]. eexists. split; [reflexivity|]. repeat split. Qed.

Example C44_example :
  is_ok (regular_constant_catalog 0 10 5 7) = true /\
  regular_constant_catalog 0 10 4 7 = Err ValueError /\
  is_ok (regular_catalog 0 10 5 [7; 8; 9]) = true /\
  regular_catalog 0 10 5 [7; 8] = Err ValueError /\
  is_ok (linear_regular_catalog 0 10 5 7 1 (-3)) = true /\
  linear_regular_catalog 0 10 5 7 1 (-2) = Err ValueError /\
  is_ok (last_index_catalog (QRange (mk_range 0 2 1)) (QSet [1; 4; 5]) (QRange (mk_range 0 6 1))) = true /\
  last_index_catalog (QRange (mk_range 2 0 (-1))) (QSet [1; 4; 5]) (QRange (mk_range 0 6 1)) = Err ValueError /\
  is_ok (dictionary_catalog_2d (QRange (mk_range 0 2 1)) (QSet [1; 4; 5]) [((0, 4), 3)]) = true /\
  dictionary_catalog_2d (QRange (mk_range 0 2 1)) (QSet [1; 4; 5]) [((0, 3), 3)] = Err ValueError.
Proof. repeat split. Qed.

(* ---------------- C95 ---------------- *)

Theorem C95_corners : forall items : list ((Z * Z) * Z), items <> [] -> NoDup (map fst items) ->
  exists c i0 i1 j0 j1, fst (create2 items) = Ok (Some c) /\
    cat2_key_min c = Ok (i0, j0) /\ cat2_key_max c = Ok (i1, j1) /\
    (* the least and greatest indexes among the keys *)
    (forall i j v, In ((i, j), v) items -> i0 <= i <= i1 /\ j0 <= j <= j1) /\
    (exists j v, In ((i0, j), v) items) /\ (exists j v, In ((i1, j), v) items) /\
    (exists i v, In ((i, j0), v) items) /\ (exists i v, In ((i, j1), v) items) /\
    (* the values there *)
    (forall v, cat2_value_first c = Ok v <-> In ((i0, j0), v) items) /\
    (forall v, cat2_value_last c = Ok v <-> In ((i1, j1), v) items) /\
    (cat2_value_first c = Err KeyError <-> ~ In (i0, j0) (map fst items)) /\
    (cat2_value_last c = Err KeyError <-> ~ In (i1, j1) (map fst items)).
Proof. exact create2_corners. Qed.
Print Assumptions C95_corners.

Example C95_example : exists c,
  fst (create2 [((2, 1), 12); ((1, 2), 11); ((2, 2), 13)]) = Ok (Some c) /\
  cat2_key_min c = Ok (1, 1) /\ cat2_key_max c = Ok (2, 2) /\
  cat2_value_first c = Err KeyError /\ cat2_value_last c = Ok 13.
Proof. eexists. split; [vm_compute; reflexivity|]. repeat split. Qed.
