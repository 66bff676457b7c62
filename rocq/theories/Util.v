(* Model of segpy/util.py, segpy/sorted_frozen_set.py and
   segpy/reversed_sequence_view.py (the parts that compute).  No proofs here. *)
From Coq Require Import ZArith List Bool.
From Verif Require Import Py.
Import ListNotations.
Open Scope Z_scope.

(* util.py:25-28 pairwise.  `next(b)` on an empty series raises StopIteration
   inside a generator, which Python >= 3.7 turns into RuntimeError. *)
Definition pairwise {A} (l : list A) : res (list (A * A)) :=
  match l with
  | [] => Err RuntimeError
  | _ :: t => Ok (combine l t)
  end.

(* util.py:53-65 _batched.  `pending` is the list under construction.
   padding: None models UNSET. *)
Fixpoint batched_loop {A} (n : Z) (padding : option A) (pending l : list A) : list (list A) :=
  match l with
  | [] =>
      if 0 <? zlen pending then
        match padding with
        | Some p => [pending ++ zrepeat p (n - zlen pending)]
        | None => [pending]
        end
      else []
  | x :: xs =>
      let pending' := pending ++ [x] in
      if zlen pending' =? n
      then pending' :: batched_loop n padding [] xs
      else batched_loop n padding pending' xs
  end.

(* util.py:31-50 batched *)
Definition batched {A} (l : list A) (n : Z) (padding : option A) : res (list (list A)) :=
  if n <? 1 then Err ValueError else Ok (batched_loop n padding [] l).

(* util.py:68-71 pad(iterable, padding, size): islice of iterable followed by
   endless padding (size given; the endless variant is not modelled). *)
Definition pad_to {A} (l : list A) (padding : A) (size : Z) : list A :=
  firstn (Z.to_nat size) (l ++ zrepeat padding size).

(* An interval is a (start, stop) pair; step-less range or slice.
   [util.py:104] *)
Inductive ikind : Set := KRange | KSlice.
(* [util.py:116-122] *)
Definition interval : Set := (Z * Z)%type.

(* util.py:103-113 _complementary_intervals, loop body *)
Fixpoint compl_loop (index : Z) (l : list interval) (stop : Z) : list interval :=
  match l with
  | [] => [(index, stop)]
  | s :: rest => (index, fst s) :: compl_loop (snd s) rest stop
  end.

(* util.py:74-100 complementary_intervals *)
Definition complementary_intervals (l : list interval) (start stop : option Z)
  : res (list interval) :=
  match l with
  | [] => Err ValueError
  | s0 :: _ =>
      let start' := match start with Some x => x | None => fst s0 end in
      let stop' := match stop with Some x => x | None => snd (last l s0) end in
      Ok (compl_loop start' l stop')
  end.

(* util.py:116-131 intervals_are_contiguous *)
Definition intervals_are_contiguous (l : list interval) : res bool :=
  do ps <- pairwise l ;;
  Ok (forallb (fun p => snd (fst p) =? fst (snd p)) ps).

(* Equality used at util.py:145: range == range compares the sequences (all
   empty ranges are equal), slice == slice compares the bounds. *)
Definition interval_eqb (k : ikind) (a b : interval) : bool :=
  match k with
  | KSlice => (fst a =? fst b) && (snd a =? snd b)
  | KRange => ((snd a <=? fst a) && (snd b <=? fst b))
              || ((fst a =? fst b) && (snd a =? snd b))
  end.

(* util.py:134-155 intervals_partially_overlap *)
Definition intervals_partially_overlap (k : ikind) (a b : interval) : bool :=
  if interval_eqb k a b then false
  else
    let '(first, second) := if fst a <=? fst b then (a, b) else (b, a) in
    fst second <? snd first.

(* util.py:158-172 roundrobin.  cycle over the iterators not yet exhausted is
   a queue: the iterator whose __next__ was called moves to the back, an
   exhausted one is dropped and the remaining `pending` ones follow in
   cyclic order.  Fuel: number of calls of __next__. *)
Fixpoint roundrobin_loop {A} (fuel : nat) (q : list (list A)) : list A :=
  match fuel with
  | O => []
  | S f =>
      match q with
      | [] => []
      | [] :: q' => roundrobin_loop f q'
      | (x :: xs) :: q' => x :: roundrobin_loop f (q' ++ [xs])
      end
  end.

(* [no line of its own: bounds the steps of roundrobin, util.py:158-172] *)
Definition total_length {A} (ls : list (list A)) : nat :=
  fold_right (fun l n => (length l + n)%nat) O ls.

(* [util.py:158-172] *)
Definition roundrobin {A} (ls : list (list A)) : list A :=
  roundrobin_loop (total_length ls + length ls) ls.

(* util.py:175-188 contains_duplicates *)
Definition contains_duplicates_by {A} (eqb : A -> A -> bool) (l : list A) : res bool :=
  do ps <- pairwise l ;; Ok (existsb (fun p => eqb (fst p) (snd p)) ps).

(* [util.py:175-188] *)
Definition contains_duplicates : list Z -> res bool := contains_duplicates_by Z.eqb.

(* util.py:191-212 measure_stride, the loop *)
Fixpoint stride_loop (stride : option Z) (ps : list (Z * Z)) : option Z :=
  match ps with
  | [] => stride
  | (a, b) :: rest =>
      let new_stride := b - a in
      match stride with
      | None => stride_loop (Some new_stride) rest
      | Some s => if s =? new_stride then stride_loop stride rest else None
      end
  end.

(* util.py:191-212 measure_stride of something which is not a range *)
Definition measure_stride (l : list Z) : res (option Z) :=
  do ps <- pairwise l ;; Ok (stride_loop None ps).

(* util.py:202-203 measure_stride of a range *)
Definition measure_stride_range (r : prange) : res (option Z) := Ok (Some (r_step r)).

(* util.py:215-237 minmax *)
Definition minmax (l : list Z) : res (Z * Z) :=
  match l with
  | [] => Err ValueError
  | first :: rest =>
      Ok (fold_left (fun mm item => (Z.min (fst mm) item, Z.max (snd mm) item))
                    rest (first, first))
  end.

(* util.py:278-282 round_up *)
Definition round_up (integer multiple : Z) : res Z :=
  if multiple <=? 0 then Err ValueError
  else Ok (if integer mod multiple =? 0 then integer
           else integer + multiple - integer mod multiple).

(* util.py:535-545 cmp, 548-557 sgn *)
Definition b2z (b : bool) : Z := if b then 1 else 0.
(* [util.py:535-545] *)
Definition cmp (x y : Z) : Z := b2z (y <? x) - b2z (x <? y).
(* [util.py:548-557] *)
Definition sgn (x : Z) : Z := cmp x 0.

(* util.py:481-486 first; 489-501 last, of a sequence and of another iterable *)
Definition first {A} (l : list A) : res A := match l with [] => Err ValueError | x :: _ => Ok x end.
(* [util.py:494-501] *)
Fixpoint last_loop {A} (item : A) (l : list A) : A :=
  match l with [] => item | x :: l => last_loop x l end.
(* [util.py:489-501] *)
Definition last_item {A} (is_sequence : bool) (l : list A) : res A :=
  match (if is_sequence then py_get l (zlen l - 1) else Err TypeError) with
  | Ok x => Ok x
  | Err _ => match l with [] => Err ValueError | x :: l => Ok (last_loop x l) end
  end.

(* util.py:560-563 all_equal: at most one group of consecutive equal items *)
Fixpoint group_count (prev : Z) (l : list Z) : nat :=
  match l with
  | [] => 1
  | x :: xs => if x =? prev then group_count prev xs else S (group_count x xs)
  end.

(* [util.py:560-563] *)
Definition all_equal (l : list Z) : bool :=
  match l with
  | [] => true
  | x :: xs => Nat.leb (group_count x xs) 1
  end.

(* util.py:326-345 is_sorted without the shortcuts for range/SortedFrozenSet *)
Definition sort_op (reverse distinct : bool) (a b : Z) : bool :=
  if reverse then (if distinct then b <? a else b <=? a)
  else (if distinct then a <? b else a <=? b).

(* [util.py:326-345] *)
Definition is_sorted {A} (key : A -> Z) (l : list A) (reverse distinct : bool) : res bool :=
  do ps <- pairwise (map key l) ;;
  Ok (forallb (fun p => sort_op reverse distinct (fst p) (snd p)) ps).

(* util.py:326-345 is_sorted of a range (with the two shortcuts) *)
Definition is_sorted_range (r : prange) (reverse distinct : bool) : res bool :=
  if reverse && distinct && (r_step r <? 0) then Ok true
  else if negb reverse && distinct && (0 <? r_step r) then Ok true
  else is_sorted (fun x => x) (range_list r) reverse distinct.

(* util.py:348-351 single_item_range *)
Definition single_item_range (item : Z) : prange := mk_range item (item + 1) 1.

(* util.py:409-423 reversed_range.  (remainder == 0) is used as 0/1. *)
Definition reversed_range (r : prange) : prange :=
  let q := (r_stop r - r_start r) / r_step r in
  let remainder := (r_stop r - r_start r) mod r_step r in
  let num_steps := q - b2z (remainder =? 0) in
  let s_start := r_start r + num_steps * r_step r in
  let s_step := - r_step r in
  let s_stop := s_start + num_steps * s_step + (s_step + remainder) in
  mk_range s_start s_stop s_step.

(* ------------------------------------------------------------------ *)
(* sorted_frozen_set.py: a SortedFrozenSet is its _items list.          *)

(* sorted_frozen_set.py:9-14 __new__ from an iterable *)
Definition sfs_new (items : list Z) : list Z := sorted_set items.

(* bisect.bisect_left(a, x) on a[lo:hi]
   [sorted_frozen_set.py:43] *)
Fixpoint bisect_loop (fuel : nat) (a : list Z) (x lo hi : Z) : Z :=
  match fuel with
  | O => lo
  | S f =>
      if lo <? hi then
        let mid := (lo + hi) / 2 in
        if nth (Z.to_nat mid) a 0 <? x
        then bisect_loop f a x (mid + 1) hi
        else bisect_loop f a x lo mid
      else lo
  end.

(* [sorted_frozen_set.py:43] *)
Definition bisect_left (a : list Z) (x : Z) : Z :=
  bisect_loop (S (length a)) a x 0 (zlen a).

(* sorted_frozen_set.py:41-46 index *)
Definition sfs_index (s : list Z) (item : Z) : res Z :=
  let index := bisect_left s item in
  if negb (index =? zlen s) && (nth (Z.to_nat index) s 0 =? item)
  then Ok index else Err ValueError.

(* sorted_frozen_set.py:16-21 __contains__ *)
Definition sfs_mem (s : list Z) (item : Z) : bool := is_ok (sfs_index s item).

(* sorted_frozen_set.py:48-49 count: int(item in self._items) *)
Definition sfs_count (s : list Z) (item : Z) : Z := b2z (zmem item s).

(* sorted_frozen_set.py:51-52 __add__ *)
Definition sfs_add (s t : list Z) : list Z := sfs_new (s ++ t).

(* sorted_frozen_set.py:54-55 __mul__ *)
Definition sfs_mul (s : list Z) (n : Z) : list Z := if 0 <? n then sfs_new s else sfs_new [].

(* collections.abc.Set mixin operations as inherited by SortedFrozenSet:
   __and__, __or__, __sub__, __xor__, __le__, __ge__, isdisjoint; with the
   wrappers at sorted_frozen_set.py:60-76 (argument made a SortedFrozenSet). *)
Definition sfs_and (s t : list Z) : list Z := sfs_new (filter (sfs_mem s) t).
(* [sorted_frozen_set.py:69-70, collections.abc.Set.__or__] *)
Definition sfs_or (s t : list Z) : list Z := sfs_new (s ++ t).
(* [sorted_frozen_set.py:75-76, collections.abc.Set.__sub__] *)
Definition sfs_sub (s t : list Z) : list Z := sfs_new (filter (fun v => negb (sfs_mem t v)) s).
(* [sorted_frozen_set.py:72-73, collections.abc.Set.__xor__] *)
Definition sfs_xor (s t : list Z) : list Z := sfs_or (sfs_sub s t) (sfs_sub t s).
(* [sorted_frozen_set.py:60-61, collections.abc.Set.__le__] *)
Definition sfs_le (s t : list Z) : bool :=
  if zlen t <? zlen s then false else forallb (sfs_mem t) s.
(* [sorted_frozen_set.py:63-64, collections.abc.Set.__ge__] *)
Definition sfs_ge (s t : list Z) : bool :=
  if zlen s <? zlen t then false else forallb (sfs_mem s) t.

(* Set.__lt__, Set.__gt__, Set.isdisjoint; sorted_frozen_set.py:36-39 __eq__ *)
Definition sfs_lt (s t : list Z) : bool := (zlen s <? zlen t) && sfs_le s t.
(* [collections.abc.Set.__gt__] *)
Definition sfs_gt (s t : list Z) : bool := (zlen t <? zlen s) && sfs_ge s t.
(* [collections.abc.Set.isdisjoint] *)
Definition sfs_isdisjoint (s t : list Z) : bool := negb (existsb (sfs_mem s) t).
(* [sorted_frozen_set.py:36-39] *)
Fixpoint sfs_eq (s t : list Z) : bool :=
  match s, t with
  | [], [] => true
  | x :: s, y :: t => (x =? y) && sfs_eq s t
  | _, _ => false
  end.

(* [sorted_frozen_set.py:66-67] *)
Definition sfs_intersection (s l : list Z) := sfs_and s (sfs_new l).
(* [sorted_frozen_set.py:69-70] *)
Definition sfs_union (s l : list Z) := sfs_or s (sfs_new l).
(* [sorted_frozen_set.py:75-76] *)
Definition sfs_difference (s l : list Z) := sfs_sub s (sfs_new l).
(* [sorted_frozen_set.py:72-73] *)
Definition sfs_symmetric_difference (s l : list Z) := sfs_xor s (sfs_new l).
(* [sorted_frozen_set.py:60-61] *)
Definition sfs_issubset (s l : list Z) := sfs_le s (sfs_new l).
(* [sorted_frozen_set.py:63-64] *)
Definition sfs_issuperset (s l : list Z) := sfs_ge s (sfs_new l).

(* ------------------------------------------------------------------ *)
(* reversed_sequence_view.py, over an underlying list `s` (list or
   SortedFrozenSet items).                                              *)

(* reversed_sequence_view.py:37-42 _reverse_index *)
Definition rsv_reverse_index (size index : Z) : res Z :=
  let i := if index <? 0 then index + size else index in
  if (0 <=? i) && (i <? size) then Ok (size - i - 1) else Err IndexError.

(* reversed_sequence_view.py:15-16 __iter__ *)
Definition rsv_list {A} (s : list A) : list A := rev s.

(* reversed_sequence_view.py:18-20 __getitem__ *)
Definition rsv_get {A} (s : list A) (index : Z) : res A :=
  do r <- rsv_reverse_index (zlen s) index ;; py_get s r.

(* list.index / list.count
   [reversed_sequence_view.py:28-35] *)
Fixpoint list_index_from (k : Z) (s : list Z) (x : Z) : res Z :=
  match s with
  | [] => Err ValueError
  | y :: ys => if y =? x then Ok k else list_index_from (k + 1) ys x
  end.
(* [reversed_sequence_view.py:28-35] *)
Definition list_index (s : list Z) (x : Z) : res Z := list_index_from 0 s x.
(* [reversed_sequence_view.py:22-23] *)
Definition list_count (s : list Z) (x : Z) : Z := zlen (filter (fun y => y =? x) s).

(* reversed_sequence_view.py:28-35 index; the underlying sequence is a list *)
Definition rsv_index (s : list Z) (item : Z) : res Z :=
  if list_count s item =? 1 then
    do i <- list_index s item ;; rsv_reverse_index (zlen s) i
  else list_index (rsv_list s) item.

(* the same when the underlying sequence is a SortedFrozenSet
   [reversed_sequence_view.py:28-35] *)
Definition rsv_sfs_index (s : list Z) (item : Z) : res Z :=
  if sfs_count s item =? 1 then
    do i <- sfs_index s item ;; rsv_reverse_index (zlen s) i
  else list_index (rsv_list s) item.

(* ------------------------------------------------------------------ *)
(* The sequences make_sorted_distinct_sequence can return.
   [util.py:359-406] *)
Inductive sseq : Set :=
| QRange (r : prange)          (* a range *)
| QSet (items : list Z)        (* a SortedFrozenSet *)
| QRev (items : list Z).       (* a ReversedSequenceView of a SortedFrozenSet
   [util.py:128, iteration] *)
Definition sseq_list (s : sseq) : list Z :=
  match s with
  | QRange r => range_list r
  | QSet l => l
  | QRev l => rsv_list l
  end.

(* [util.py:439] *)
Definition sseq_len (s : sseq) : Z :=
  match s with
  | QRange r => range_len r
  | QSet l => zlen l
  | QRev l => zlen l
  end.

(* [util.py:440-444] *)
Definition sseq_get (s : sseq) (i : Z) : res Z :=
  match s with
  | QRange r => range_get r i
  | QSet l => py_get l i
  | QRev l => rsv_get l i
  end.

(* [catalog.py:305, 478, 480] *)
Definition sseq_mem (s : sseq) (x : Z) : bool :=
  match s with
  | QRange r => range_mem r x
  | QSet l => sfs_mem l x
  | QRev l => sfs_mem l x
  end.

(* [catalog.py:294-295] *)
Definition sseq_index (s : sseq) (x : Z) : res Z :=
  match s with
  | QRange r => range_index r x
  | QSet l => sfs_index l x
  | QRev l => rsv_sfs_index l x
  end.

(* util.py:326-345 is_sorted on such a sequence, distinct=True, reverse=False *)
Definition is_sorted_distinct_sseq (s : sseq) : res bool :=
  match s with
  | QRange r => is_sorted_range r false true
  | QSet _ => Ok true
  | QRev l => is_sorted (fun x => x) (rsv_list l) false true
  end.

(* util.py:191-212 measure_stride on such a sequence *)
Definition measure_stride_sseq (s : sseq) : res (option Z) :=
  match s with
  | QRange r => measure_stride_range r
  | _ => measure_stride (sseq_list s)
  end.

(* util.py:426-446 compress_sorted_sequence_to_range *)
Definition compress_sorted_sequence_to_range (s : sseq) : res sseq :=
  if sseq_len s =? 1 then
    do x <- sseq_get s 0 ;; Ok (QRange (single_item_range x))
  else
    do stride <- measure_stride_sseq s ;;
    match stride with
    | Some d =>
        do start <- sseq_get s 0 ;;
        do lst <- sseq_get s (-1) ;;
        do r <- py_range start (lst + d) d ;;
        Ok (QRange r)
    | None => Ok s
    end.

(* What can be passed as an iterable: a range, a sequence that can be
   iterated again (list, tuple, dict keys), a SortedFrozenSet, or a one-shot
   iterator/generator.
   [util.py:359-372] *)
Inductive iterable : Set :=
| ItRange (r : prange)
| ItSeq (l : list Z)
| ItSfs (l : list Z)
| ItIter (l : list Z).

(* The items obtained by iterating a fresh iterable.
   [util.py:394, 398] *)
Definition it_list (it : iterable) : list Z :=
  match it with
  | ItRange r => range_list r
  | ItSeq l => l
  | ItSfs l => l
  | ItIter l => l
  end.

(* The items obtained by iterating again after it has been iterated once.
   [util.py:400, 402] *)
Definition it_list_again (it : iterable) : list Z :=
  match it with
  | ItIter _ => []
  | _ => it_list it
  end.

(* SortSense (util.py:354-356), None, or any other object *)
Inductive sense : Set := SAscending | SDescending | SNone | SOther.

(* util.py:359-406 make_sorted_distinct_sequence *)
Definition make_sorted_distinct_sequence (it : iterable) (sn : sense) : res sseq :=
  match it with
  | ItRange r =>
      match sn with
      | SNone => Ok (QRange r)
      | SAscending => if 0 <? r_step r then Ok (QRange r) else Ok (QRange (reversed_range r))
      | SDescending => if r_step r <? 0 then Ok (QRange r) else Ok (QRange (reversed_range r))
      | SOther => Err TypeError
      end
  | _ =>
      do sorted_seq <-
        match sn with
        | SAscending => Ok (QSet (sfs_new (it_list it)))
        | SDescending => Ok (QRev (sfs_new (it_list it)))
        | SNone =>
            (* items = list(iterable) consumes the iterable once; the set is
               then built from a second iteration *)
            do down <- is_sorted (fun x => x) (it_list it) true true ;;
            if (down : bool)
            then Ok (QRev (sfs_new (it_list_again it)))
            else Ok (QSet (sfs_new (it_list_again it)))
        | SOther => Err TypeError
        end ;;
      compress_sorted_sequence_to_range sorted_seq
  end.

(* ------------------------------------------------------------------ *)
(* ReversedSequenceView over any sequence, including another view.
   [reversed_sequence_view.py:6-7] *)
Inductive seqobj : Set :=
| SoList (l : list Z)          (* a list, tuple, range or SortedFrozenSet *)
| SoView (s : seqobj).         (* a ReversedSequenceView of it *)

(* iter(s) then exhausting it.  reversed_sequence_view.py:15-16 returns
   reversed(sequence); for a list that is an iterator, but for a view it is
   what its __reversed__ (25-26) returns, namely the underlying sequence,
   which is not an iterator: iter() then raises TypeError. *)
Definition so_iter (s : seqobj) : res (list Z) :=
  match s with
  | SoList l => Ok l
  | SoView (SoList l) => Ok (rsv_list l)
  | SoView (SoView _) => Err TypeError
  end.

(* len(s), reversed_sequence_view.py:12-13 *)
Fixpoint so_len (s : seqobj) : Z :=
  match s with SoList l => zlen l | SoView s' => so_len s' end.

(* s[i], reversed_sequence_view.py:18-20 *)
Fixpoint so_get (s : seqobj) (i : Z) : res Z :=
  match s with
  | SoList l => py_get l i
  | SoView s' => do r <- rsv_reverse_index (so_len s') i ;; so_get s' r
  end.

(* x in s, s.count(x): reversed_sequence_view.py:9-10, 22-23 *)
Fixpoint so_mem (s : seqobj) (x : Z) : bool :=
  match s with SoList l => zmem x l | SoView s' => so_mem s' x end.
(* [reversed_sequence_view.py:22-23] *)
Fixpoint so_count (s : seqobj) (x : Z) : Z :=
  match s with SoList l => list_count l x | SoView s' => so_count s' x end.
