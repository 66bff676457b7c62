(* Python basics used by every other model file.  No proofs here. *)
From Coq Require Import ZArith List Bool.
Import ListNotations.
Open Scope Z_scope.

(* Python exception classes that the modelled code can raise.
   [raised at util.py:49, 391, catalog.py:293, ibm_float.py:82, 125 and so on] *)
Inductive exn : Set :=
| ValueError | TypeError | KeyError | IndexError | RuntimeError | EOFError
| OverflowError | FloatingPointError | UnicodeEncodeError | UnicodeDecodeError
| UnsupportedEncodingError | StructError | ZeroDivisionError | AssertionError
| AttributeError | SegYRevisionError | OSError | LookupError
  (* not a Python exception: a loop of the model ran out of fuel *)
| OutOfFuel.

(* The outcome of a Python call: a value or a raised exception.
   [no line of its own: how a call ends] *)
Inductive res (A : Type) : Type :=
| Ok (a : A)
| Err (e : exn).
Arguments Ok {A} a.
Arguments Err {A} e.

(* [no line of its own: an exception ends the calling function] *)
Definition bind {A B} (r : res A) (f : A -> res B) : res B :=
  match r with Ok a => f a | Err e => Err e end.

Notation "'do' x <- e1 ;; e2" := (bind e1 (fun x => e2))
  (at level 200, x pattern, e1 at level 100, e2 at level 200, right associativity).

(* [sorted_frozen_set.py:17-21, the try statement] *)
Definition is_ok {A} (r : res A) : bool :=
  match r with Ok _ => true | Err _ => false end.

(* [no line of its own: a result computed from the value of a call] *)
Definition rmap {A B} (f : A -> B) (r : res A) : res B :=
  match r with Ok a => Ok (f a) | Err e => Err e end.

(* A comprehension whose element expression may raise: evaluated left to
   right, the first exception wins.
   [ibm_float_packer.py:52-57] *)
Fixpoint map_res {A B} (f : A -> res B) (l : list A) : res (list B) :=
  match l with
  | [] => Ok []
  | x :: xs => do y <- f x ;; do ys <- map_res f xs ;; Ok (y :: ys)
  end.

(* len(l) as a Python int.
   [util.py:57, 97] *)
Definition zlen {A} (l : list A) : Z := Z.of_nat (length l).

(* l[i] for a Python list, tuple or bytes: negative indexes count from the
   end, anything else out of range raises IndexError.
   [catalog.py:107-108] *)
Definition py_get {A} (l : list A) (i : Z) : res A :=
  let i' := if i <? 0 then i + zlen l else i in
  if (0 <=? i') && (i' <? zlen l) then
    match nth_error l (Z.to_nat i') with
    | Some x => Ok x
    | None => Err IndexError
    end
  else Err IndexError.

(* l[a:b] for 0 <= a and 0 <= b (the only slices the modelled code takes).
   [ibm_float_packer.py:56] *)
Definition py_slice {A} (l : list A) (a b : Z) : list A :=
  firstn (Z.to_nat (b - a)) (skipn (Z.to_nat a) l).

(* [x] * n
   [util.py:64] *)
Definition zrepeat {A} (x : A) (n : Z) : list A := repeat x (Z.to_nat n).

(* ------------------------------------------------------------------ *)
(* range objects
   [util.py:351, 423, 445] *)
Record prange : Set := mk_range { r_start : Z; r_stop : Z; r_step : Z }.

(* range(start, stop, step): a zero step raises ValueError.
   [util.py:423, 445] *)
Definition py_range (start stop step : Z) : res prange :=
  if step =? 0 then Err ValueError else Ok (mk_range start stop step).

(* len(range) (CPython compute_range_length)
   [catalog.py:179, 279] *)
Definition range_len (r : prange) : Z :=
  if 0 <? r_step r then
    if r_start r <? r_stop r
    then 1 + (r_stop r - 1 - r_start r) / r_step r
    else 0
  else
    if r_stop r <? r_start r
    then 1 + (r_start r - 1 - r_stop r) / (- r_step r)
    else 0.

(* The items of a range in iteration order.
   [catalog.py:550-552, ibm_float_packer.py:57] *)
Definition range_list (r : prange) : list Z :=
  map (fun i => r_start r + Z.of_nat i * r_step r)
      (seq 0 (Z.to_nat (range_len r))).

(* x in range (CPython range_contains_long)
   [catalog.py:305] *)
Definition range_mem (r : prange) (x : Z) : bool :=
  (if 0 <? r_step r
   then (r_start r <=? x) && (x <? r_stop r)
   else (r_stop r <? x) && (x <=? r_start r))
  && ((x - r_start r) mod r_step r =? 0).

(* range.index(x)
   [catalog.py:294-295, 333] *)
Definition range_index (r : prange) (x : Z) : res Z :=
  if range_mem r x then Ok ((x - r_start r) / r_step r) else Err ValueError.

(* range[i]
   [catalog.py:297] *)
Definition range_get (r : prange) (i : Z) : res Z :=
  let i' := if i <? 0 then i + range_len r else i in
  if (0 <=? i') && (i' <? range_len r)
  then Ok (r_start r + i' * r_step r)
  else Err IndexError.

(* ------------------------------------------------------------------ *)
(* sorting: Python's sort is a stable comparison sort; its result is the
   stable sorted permutation, here computed by insertion.
   [catalog.py:90, 157, packer.py:65] *)
Fixpoint insert_by {A} (leb : A -> A -> bool) (x : A) (l : list A) : list A :=
  match l with
  | [] => [x]
  | y :: ys => if leb x y then x :: l else y :: insert_by leb x ys
  end.

(* [catalog.py:90, 157, packer.py:65] *)
Fixpoint sort_by {A} (leb : A -> A -> bool) (l : list A) : list A :=
  match l with
  | [] => []
  | x :: xs => insert_by leb x (sort_by leb xs)
  end.

(* Tuple comparison (a, b) <= (c, d)
   [catalog.py:157, 171] *)
Definition pair_leb (p q : Z * Z) : bool :=
  (fst p <? fst q) || ((fst p =? fst q) && (snd p <=? snd q)).

(* [catalog.py:482, 485] *)
Definition pair_eqb (p q : Z * Z) : bool :=
  (fst p =? fst q) && (snd p =? snd q).

(* set(items) then sorted(...): strictly increasing list of the distinct items
   [sorted_frozen_set.py:13] *)
Fixpoint set_insert (x : Z) (l : list Z) : list Z :=
  match l with
  | [] => [x]
  | y :: ys => if x <? y then x :: l
               else if x =? y then l
               else y :: set_insert x ys
  end.

(* [sorted_frozen_set.py:13] *)
Definition sorted_set (l : list Z) : list Z := fold_right set_insert [] l.

(* x in list
   [sorted_frozen_set.py:49] *)
Definition zmem (x : Z) (l : list Z) : bool := existsb (Z.eqb x) l.
