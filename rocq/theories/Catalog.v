(* Model of segpy/catalog.py.  Keys are integers (1D) or pairs of integers
   (2D); values are integers.  No proofs here. *)
From Coq Require Import ZArith List Bool.
From Verif Require Import Py Util.
Import ListNotations.
Open Scope Z_scope.

(* ------------------------------------------------------------------ *)
(* OrderedDict as an association list in insertion order.               *)

Section Odict.
Context {K V : Type} (keqb : K -> K -> bool).

(* d[k] = v : an existing key keeps its place
   [catalog.py:482] *)
Fixpoint od_set (d : list (K * V)) (k : K) (v : V) : list (K * V) :=
  match d with
  | [] => [(k, v)]
  | (k', v') :: d' => if keqb k k' then (k', v) :: d' else (k', v') :: od_set d' k v
  end.

(* OrderedDict(items)
   [catalog.py:424] *)
Definition od_of (items : list (K * V)) : list (K * V) :=
  fold_left (fun d p => od_set d (fst p) (snd p)) items [].

(* d[k]
   [catalog.py:427, 485] *)
Fixpoint od_get (d : list (K * V)) (k : K) : res V :=
  match d with
  | [] => Err KeyError
  | (k', v) :: d' => if keqb k k' then Ok v else od_get d' k
  end.

(* k in d
   [catalog.py:436, 494] *)
Definition od_mem (d : list (K * V)) (k : K) : bool := is_ok (od_get d k).

End Odict.

(* ------------------------------------------------------------------ *)
(* One-dimensional catalogs
   [catalog.py:419-778] *)
Inductive catalog1 : Set :=
| CDict (items : list (Z * Z))                          (* catalog.py:419-440 *)
| CRegConst (key_min key_max key_stride value : Z)      (* catalog.py:503-560 *)
| CConst (keys : list Z) (value : Z)                    (* catalog.py:563-598 *)
| CRegular (key_min key_max key_stride : Z) (values : list Z)  (* catalog.py:601-669 *)
| CLinear (key_min key_max key_stride value_start value_stop value_stride : Z). (* 672-778 *)

(* a % b and a // b raise ZeroDivisionError for b = 0
   [catalog.py:336, 527, 629] *)
Definition py_mod (a b : Z) : res Z := if b =? 0 then Err ZeroDivisionError else Ok (a mod b).
(* [catalog.py:336, 413] *)
Definition py_div (a b : Z) : res Z := if b =? 0 then Err ZeroDivisionError else Ok (a / b).

(* catalog.py:423-424 DictionaryCatalog.__init__ *)
Definition dictionary_catalog (items : list (Z * Z)) : catalog1 := CDict (od_of Z.eqb items).

(* catalog.py:509-535 RegularConstantCatalog.__init__ *)
Definition regular_constant_catalog (key_min key_max key_stride value : Z) : res catalog1 :=
  if key_max <? key_min then Err ValueError
  else
    do m <- py_mod (key_max - key_min) key_stride ;;
    if negb (m =? 0) then Err ValueError
    else Ok (CRegConst key_min key_max key_stride value).

(* catalog.py:567-578 ConstantCatalog.__init__ *)
Definition constant_catalog (keys : list Z) (value : Z) : catalog1 := CConst (sfs_new keys) value.

(* catalog.py:607-640 RegularCatalog.__init__ *)
Definition regular_catalog (key_min key_max key_stride : Z) (values : list Z) : res catalog1 :=
  if key_max <? key_min then Err ValueError
  else
    do m <- py_mod (key_max - key_min) key_stride ;;
    if negb (m =? 0) then Err ValueError
    else
      let num_keys := 1 + (key_max - key_min) / key_stride in
      if negb (num_keys =? zlen values) then Err ValueError
      else Ok (CRegular key_min key_max key_stride values).

(* catalog.py:681-747 LinearRegularCatalog.__init__ *)
Definition linear_regular_catalog
  (key_min key_max key_stride value_start value_stop value_stride : Z) : res catalog1 :=
  if key_max <=? key_min then Err ValueError
  else if key_stride <=? 0 then Err ValueError
  else if negb ((key_max - key_min) mod key_stride =? 0) then Err ValueError
  else if value_stride =? 0 then Err ValueError
  else if negb ((value_stop - value_start) mod value_stride =? 0) then Err ValueError
  else
    let num_keys := 1 + (key_max - key_min) / key_stride in
    let num_values := 1 + (value_stop - value_start) / value_stride in
    if negb (num_keys =? num_values) then Err ValueError
    else Ok (CLinear key_min key_max key_stride value_start value_stop value_stride).

(* key in catalog: catalog.py:435-436, 545-547, 588-589, 654-656, 763-765 *)
Definition cat1_mem (c : catalog1) (key : Z) : bool :=
  match c with
  | CDict items => od_mem Z.eqb items key
  | CConst keys _ => sfs_mem keys key
  | CRegConst kmin kmax stride _
  | CRegular kmin kmax stride _
  | CLinear kmin kmax stride _ _ _ =>
      ((kmin <=? key) && (key <=? kmax)) && ((key - kmin) mod stride =? 0)
  end.

(* catalog[key]: catalog.py:426-427, 537-540, 580-583, 642-649, 749-758.  The Fraction
   arithmetic m * (key - key_min) + value_start is done on a numerator and
   the denominator key_max - key_min; the assertion says it is an integer. *)
Definition cat1_get (c : catalog1) (key : Z) : res Z :=
  match c with
  | CDict items => od_get Z.eqb items key
  | CRegConst _ _ _ value => if cat1_mem c key then Ok value else Err KeyError
  | CConst _ value => if cat1_mem c key then Ok value else Err KeyError
  | CRegular kmin kmax stride values =>
      if negb ((kmin <=? key) && (key <=? kmax)) then Err KeyError
      else
        let offset := key - kmin in
        if negb (offset mod stride =? 0) then Err KeyError
        else py_get values (offset / stride)
  | CLinear kmin kmax stride vstart vstop _ =>
      if negb ((kmin <=? key) && (key <=? kmax)) then Err KeyError
      else
        let offset := key - kmin in
        if negb (offset mod stride =? 0) then Err KeyError
        else
          let num := (vstop - vstart) * (key - kmin) in
          let den := kmax - kmin in
          if num mod den =? 0 then Ok (num / den + vstart) else Err AssertionError
  end.

(* len(catalog): catalog.py:432-433, 542-543, 585-586, 651-652, 760-761 *)
Definition cat1_len (c : catalog1) : Z :=
  match c with
  | CDict items => zlen items
  | CRegConst kmin kmax stride _ => 1 + (kmax - kmin) / stride
  | CConst keys _ => zlen keys
  | CRegular _ _ _ values => zlen values
  | CLinear kmin kmax stride _ _ _ => 1 + (kmax - kmin) / stride
  end.

(* list(catalog): catalog.py:429-430, 549-552, 591-592, 658-661, 767-768 *)
Definition cat1_iter (c : catalog1) : list Z :=
  match c with
  | CDict items => map fst items
  | CConst keys _ => keys
  | CRegConst kmin kmax stride _
  | CRegular kmin kmax stride _
  | CLinear kmin kmax stride _ _ _ => range_list (mk_range kmin (kmax + 1) stride)
  end.

(* ------------------------------------------------------------------ *)
(* Two-dimensional catalogs
   [catalog.py:265-500] *)
Inductive catalog2 : Set :=
| C2Last (i_range j_range v_range : sseq)               (* catalog.py:265-339 *)
| C2First (i_range j_range v_range : sseq)              (* catalog.py:342-416 *)
| C2Dict (i_range j_range : sseq) (items : list ((Z * Z) * Z)). (* 443-500 *)

(* catalog.py:201-216 Catalog2D.__init__ *)
Definition catalog2d_init (ir jr : sseq) : res unit :=
  do bi <- is_sorted_distinct_sseq ir ;;
  if negb bi then Err ValueError
  else
    do bj <- is_sorted_distinct_sseq jr ;;
    if negb bj then Err ValueError else Ok tt.

(* catalog.py:267-284 LastIndexVariesQuickestCatalog2D.__init__ *)
Definition last_index_catalog (ir jr vr : sseq) : res catalog2 :=
  if negb (sseq_len ir * sseq_len jr =? sseq_len vr) then Err ValueError
  else do _ <- catalog2d_init ir jr ;; Ok (C2Last ir jr vr).

(* catalog.py:344-361 FirstIndexVariesQuickestCatalog2D.__init__ *)
Definition first_index_catalog (ir jr vr : sseq) : res catalog2 :=
  if negb (sseq_len ir * sseq_len jr =? sseq_len vr) then Err ValueError
  else do _ <- catalog2d_init ir jr ;; Ok (C2First ir jr vr).

(* catalog.py:476-482 the insertion loop *)
Fixpoint dict2_fill (ir jr : sseq) (d items : list ((Z * Z) * Z)) : res (list ((Z * Z) * Z)) :=
  match items with
  | [] => Ok d
  | ((i, j), v) :: rest =>
      if negb (sseq_mem ir i) then Err ValueError
      else if negb (sseq_mem jr j) then Err ValueError
      else dict2_fill ir jr (od_set pair_eqb d (i, j) v) rest
  end.

(* catalog.py:447-482 DictionaryCatalog2D.__init__ *)
Definition dictionary_catalog_2d (ir jr : sseq) (items : list ((Z * Z) * Z)) : res catalog2 :=
  do _ <- catalog2d_init ir jr ;;
  do d <- dict2_fill ir jr [] items ;;
  Ok (C2Dict ir jr d).

(* [catalog.py:218-221] *)
Definition cat2_i_range (c : catalog2) : sseq :=
  match c with C2Last ir _ _ => ir | C2First ir _ _ => ir | C2Dict ir _ _ => ir end.
(* [catalog.py:223-226] *)
Definition cat2_j_range (c : catalog2) : sseq :=
  match c with C2Last _ jr _ => jr | C2First _ jr _ => jr | C2Dict _ jr _ => jr end.

(* catalog.py:300-305, 377-382, 493-494 *)
Definition cat2_mem (c : catalog2) (key : Z * Z) : bool :=
  match c with
  | C2Last ir jr _ => sseq_mem ir (fst key) && sseq_mem jr (snd key)
  | C2First ir jr _ => sseq_mem ir (fst key) && sseq_mem jr (snd key)
  | C2Dict _ _ items => od_mem pair_eqb items key
  end.

(* catalog.py:290-298, 367-375, 484-485 *)
Definition cat2_get (c : catalog2) (key : Z * Z) : res Z :=
  match c with
  | C2Last ir jr vr =>
      if negb (cat2_mem c key) then Err KeyError
      else
        do i_index <- sseq_index ir (fst key) ;;
        do j_index <- sseq_index jr (snd key) ;;
        sseq_get vr (i_index * sseq_len jr + j_index)
  | C2First ir jr vr =>
      if negb (cat2_mem c key) then Err KeyError
      else
        do i_index <- sseq_index ir (fst key) ;;
        do j_index <- sseq_index jr (snd key) ;;
        sseq_get vr (j_index * sseq_len ir + i_index)
  | C2Dict _ _ items => od_get pair_eqb items key
  end.

(* catalog.py:307-308, 384-385, 490-491 *)
Definition cat2_len (c : catalog2) : Z :=
  match c with
  | C2Last ir jr _ => sseq_len ir * sseq_len jr
  | C2First ir jr _ => sseq_len ir * sseq_len jr
  | C2Dict _ _ items => zlen items
  end.

(* catalog.py:310-311, 387-388, 487-488 *)
Definition cat2_iter (c : catalog2) : list (Z * Z) :=
  match c with
  | C2Last ir jr _ => list_prod (sseq_list ir) (sseq_list jr)
  | C2First ir jr _ => map (fun p => (snd p, fst p)) (list_prod (sseq_list jr) (sseq_list ir))
  | C2Dict _ _ items => map fst items
  end.

(* catalog.py:318-339, 395-416 key(value).  DictionaryCatalog2D has no key(). *)
Definition cat2_key (c : catalog2) (value : Z) : res (Z * Z) :=
  match c with
  | C2Last ir jr vr =>
      do v_index <- sseq_index vr value ;;
      do i_index <- py_div v_index (sseq_len jr) ;;
      do j_index <- py_mod v_index (sseq_len jr) ;;
      do i <- sseq_get ir i_index ;;
      do j <- sseq_get jr j_index ;;
      Ok (i, j)
  | C2First ir jr vr =>
      do v_index <- sseq_index vr value ;;
      do j_index <- py_div v_index (sseq_len ir) ;;
      do i_index <- py_mod v_index (sseq_len ir) ;;
      do i <- sseq_get ir i_index ;;
      do j <- sseq_get jr j_index ;;
      Ok (i, j)
  | C2Dict _ _ _ => Err AttributeError
  end.

(* catalog.py:228-262 *)
Definition cat2_key_min (c : catalog2) : res (Z * Z) :=
  do i <- sseq_get (cat2_i_range c) 0 ;; do j <- sseq_get (cat2_j_range c) 0 ;; Ok (i, j).
(* [catalog.py:252-254] *)
Definition cat2_key_max (c : catalog2) : res (Z * Z) :=
  do i <- sseq_get (cat2_i_range c) (-1) ;; do j <- sseq_get (cat2_j_range c) (-1) ;; Ok (i, j).
(* [catalog.py:256-258] *)
Definition cat2_value_first (c : catalog2) : res Z := do k <- cat2_key_min c ;; cat2_get c k.
(* [catalog.py:260-262] *)
Definition cat2_value_last (c : catalog2) : res Z := do k <- cat2_key_max c ;; cat2_get c k.

(* ------------------------------------------------------------------ *)
(* CatalogBuilder.  Its state is the list of items added so far (in order,
   or as left by the last in-place sort).
   [catalog.py:90] *)
Definition fst_leb (p q : Z * Z) : bool := fst p <=? fst q.

(* catalog.py:101-145 _create_catalog_1 (the list is sorted already) *)
Definition create_catalog_1 (l : list (Z * Z)) : res catalog1 :=
  if zlen l <=? 1 then Ok (dictionary_catalog l)
  else
    do first_item <- py_get l 0 ;;
    do last_item <- py_get l (-1) ;;
    let index_min := fst first_item in
    let index_max := fst last_item in
    do index_stride <- measure_stride (map fst l) ;;
    do _ <- (match index_stride with Some 0 => Err AssertionError | _ => Ok tt end) ;;
    let value_start := snd first_item in
    let value_stop := snd last_item in
    do value_stride <- measure_stride (map snd l) ;;
    match index_stride, value_stride with
    | Some d, Some 0 =>
        if value_start =? value_stop
        then regular_constant_catalog index_min index_max d value_start
        else Err AssertionError
    | None, Some 0 =>
        if value_start =? value_stop
        then Ok (constant_catalog (map fst l) value_start)
        else Err AssertionError
    | Some d, None => regular_catalog index_min index_max d (map snd l)
    | Some d, Some e =>
        linear_regular_catalog index_min index_max d value_start value_stop e
    | _, _ => Ok (dictionary_catalog l)
    end.

(* catalog.py:73-99 create() for integer keys: the result (None for
   duplicate keys) and the state the builder is left in. *)
Definition create1 (items : list (Z * Z)) : res (option catalog1) * list (Z * Z) :=
  let l := sort_by fst_leb items in
  (do dup <- contains_duplicates (map fst l) ;;
   if (dup : bool) then Ok None
   else do c <- create_catalog_1 l ;; Ok (Some c), l).

(* catalog.py:781-786 sort keys *)
Definition key12_leb (p q : (Z * Z) * Z) : bool := pair_leb (fst p) (fst q).
(* [catalog.py:785-786] *)
Definition swap (p : Z * Z) : Z * Z := (snd p, fst p).
(* [catalog.py:785-786] *)
Definition key21_leb (p q : (Z * Z) * Z) : bool := pair_leb (swap (fst p)) (swap (fst q)).

(* [catalog.py:188-190] *)
Definition is_range (s : sseq) : bool := match s with QRange _ => true | _ => false end.

(* catalog.py:176-194 make_sorted_ranges *)
Definition make_sorted_ranges (l : list ((Z * Z) * Z)) : res (option (sseq * sseq * sseq)) :=
  do i_sorted <- make_sorted_distinct_sequence (ItIter (map (fun p => fst (fst p)) l)) SAscending ;;
  do j_sorted <- make_sorted_distinct_sequence (ItIter (map (fun p => snd (fst p)) l)) SAscending ;;
  if negb (sseq_len i_sorted * sseq_len j_sorted =? zlen l) then Ok None
  else
    let vs := map snd l in
    do up <- is_sorted (fun x => x) vs false true ;;
    do down <- (if (up : bool) then Ok true else is_sorted (fun x => x) vs true true) ;;
    if negb down then Ok None
    else
      do v_sorted <- make_sorted_distinct_sequence (ItSeq vs) SNone ;;
      if negb (is_range i_sorted && is_range j_sorted && is_range v_sorted) then Ok None
      else Ok (Some (i_sorted, j_sorted, v_sorted)).

(* catalog.py:156-161: the sorted list is also the new state *)
Definition make_last_index_varies_quickest_catalog_2d (items : list ((Z * Z) * Z))
  : res (option catalog2) :=
  let l := sort_by key12_leb items in
  do r <- make_sorted_ranges l ;;
  match r with
  | None => Ok None
  | Some (i, j, v) => do c <- last_index_catalog i j v ;; Ok (Some c)
  end.

(* [catalog.py:163-168] *)
Definition make_first_index_varies_quickest_catalog_2d (items : list ((Z * Z) * Z))
  : res (option catalog2) :=
  let l := sort_by key21_leb items in
  do r <- make_sorted_ranges l ;;
  match r with
  | None => Ok None
  | Some (i, j, v) => do c <- first_index_catalog i j v ;; Ok (Some c)
  end.

(* catalog.py:170-174 make_dictionary_catalog_2d *)
Definition make_dictionary_catalog_2d (items : list ((Z * Z) * Z)) : res catalog2 :=
  let l := sort_by key12_leb items in
  do i_sorted <- make_sorted_distinct_sequence (ItIter (map (fun p => fst (fst p)) l)) SAscending ;;
  do j_sorted <- make_sorted_distinct_sequence (ItIter (map (fun p => snd (fst p)) l)) SAscending ;;
  dictionary_catalog_2d i_sorted j_sorted l.

(* `x or ...` takes x when it is not None and not empty
   [catalog.py:152-154] *)
Definition truthy (o : option catalog2) : bool :=
  match o with Some c => negb (cat2_len c =? 0) | None => false end.

(* catalog.py:147-154 _create_catalog_2; each step sorts the state in place *)
Definition create_catalog_2 (l0 : list ((Z * Z) * Z)) : res catalog2 * list ((Z * Z) * Z) :=
  let l1 := sort_by key12_leb l0 in
  match make_last_index_varies_quickest_catalog_2d l0 with
  | Err e => (Err e, l1)
  | Ok o1 =>
      match o1, truthy o1 with
      | Some c, true => (Ok c, l1)
      | _, _ =>
          let l2 := sort_by key21_leb l1 in
          match make_first_index_varies_quickest_catalog_2d l1 with
          | Err e => (Err e, l2)
          | Ok o2 =>
              match o2, truthy o2 with
              | Some c, true => (Ok c, l2)
              | _, _ => (make_dictionary_catalog_2d l2, sort_by key12_leb l2)
              end
          end
      end
  end.

(* catalog.py:73-99 create() when every key is a pair (at least one key) *)
Definition create2 (items : list ((Z * Z) * Z)) : res (option catalog2) * list ((Z * Z) * Z) :=
  let l := sort_by key12_leb items in
  match contains_duplicates_by pair_eqb (map fst l) with
  | Err e => (Err e, l)
  | Ok true => (Ok None, l)
  | Ok false =>
      let (r, l') := create_catalog_2 l in
      (rmap Some r, l')
  end.
