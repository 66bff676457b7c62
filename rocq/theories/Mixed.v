(* A SortedFrozenSet of ints together with another collection of ints in one
   operator: a set or frozenset, a list, tuple or range, or an iterator.
   Mappings and their views are not modelled. *)
From Coq Require Import ZArith List Bool.
From Verif Require Import Py Util.
Import ListNotations.
Open Scope Z_scope.

(* The operands.  A set has its items in the order in which it is iterated over.
   [sorted_frozen_set.py:7, class SortedFrozenSet(Sequence, Set)] *)
Inductive coll : Type :=
| CSorted (s : list Z)      (* a SortedFrozenSet *)
| CSet (items : list Z)     (* a set or frozenset *)
| CSeq (items : list Z)     (* a list, tuple or range *)
| CIter (items : list Z).   (* an iterator, which is consumed *)

(* the items in the order of iteration [sorted_frozen_set.py:26-27] *)
Definition items_of (c : coll) : list Z :=
  match c with CSorted l | CSet l | CSeq l | CIter l => l end.
(* isinstance(c, collections.abc.Set) [sorted_frozen_set.py:7] *)
Definition is_set (c : coll) : bool := match c with CSorted _ | CSet _ => true | _ => false end.
(* v in c, for a Set [sorted_frozen_set.py:16-21] *)
Definition coll_mem (c : coll) (v : Z) : bool :=
  match c with CSorted s => sfs_mem s v | _ => zmem v (items_of c) end.
(* _from_iterable unless it is a Set already: Set.__sub__, __rsub__ and __xor__
   [sorted_frozen_set.py:9-14] *)
Definition as_set (c : coll) : coll := if is_set c then c else CSorted (sfs_new (items_of c)).

(* The other operand's own operator gives NotImplemented for a SortedFrozenSet:
   set and frozenset only know set and frozenset, the others have no such
   operator.  So the reflected method of the SortedFrozenSet is called.  Without
   a SortedFrozenSet among the operands nothing is modelled: TypeError stands for
   that.
   [sorted_frozen_set.py:7, collections.abc.Set] *)
Definition set_operator (method reflected : list Z -> coll -> list Z) (a b : coll) : res (list Z) :=
  match a, b with
  | CSorted s, _ => Ok (method s b)
  | _, CSorted s => Ok (reflected s a)
  | _, _ => Err TypeError
  end.

(* Set.__and__, also __rand__ [sorted_frozen_set.py:7] *)
Definition m_and (self : list Z) (other : coll) : list Z := sfs_new (filter (sfs_mem self) (items_of other)).
(* Set.__or__, also __ror__ [sorted_frozen_set.py:7] *)
Definition m_or (self : list Z) (other : coll) : list Z := sfs_new (self ++ items_of other).
(* Set.__sub__ [sorted_frozen_set.py:7] *)
Definition m_sub (self : list Z) (other : coll) : list Z :=
  let other := as_set other in sfs_new (filter (fun v => negb (coll_mem other v)) self).
(* Set.__rsub__ [sorted_frozen_set.py:7] *)
Definition m_rsub (self : list Z) (other : coll) : list Z :=
  let other := as_set other in sfs_new (filter (fun v => negb (sfs_mem self v)) (items_of other)).
(* Set.__xor__, also __rxor__: (self - other) | (other - self), where other - self
   is Set.__sub__ or, for a set or frozenset, the reflected Set.__rsub__
   [sorted_frozen_set.py:7] *)
Definition m_xor (self : list Z) (other : coll) : list Z :=
  let other := as_set other in
  let back := match other with CSorted t => m_sub t (CSorted self) | _ => m_rsub self other end in
  m_or (m_sub self other) (CSorted back).

(* a & b, a | b, a - b, a ^ b [sorted_frozen_set.py:7] *)
Definition coll_and := set_operator m_and m_and.
(* [sorted_frozen_set.py:7] *)
Definition coll_or := set_operator m_or m_or.
(* [sorted_frozen_set.py:7] *)
Definition coll_sub := set_operator m_sub m_rsub.
(* [sorted_frozen_set.py:7] *)
Definition coll_xor := set_operator m_xor m_xor.

(* Set.__le__ and the others; None is NotImplemented [sorted_frozen_set.py:7] *)
Definition m_le (self : list Z) (other : coll) : option bool :=
  if is_set other then
    Some (if zlen (items_of other) <? zlen self then false else forallb (coll_mem other) self)
  else None.
(* Set.__ge__ [sorted_frozen_set.py:7] *)
Definition m_ge (self : list Z) (other : coll) : option bool :=
  if is_set other then
    Some (if zlen self <? zlen (items_of other) then false else forallb (sfs_mem self) (items_of other))
  else None.
(* Set.__lt__ [sorted_frozen_set.py:7] *)
Definition m_lt (self : list Z) (other : coll) : option bool :=
  if is_set other then
    if zlen self <? zlen (items_of other) then m_le self other else Some false
  else None.
(* Set.__gt__ [sorted_frozen_set.py:7] *)
Definition m_gt (self : list Z) (other : coll) : option bool :=
  if is_set other then
    if zlen (items_of other) <? zlen self then m_ge self other else Some false
  else None.

(* a <= b and so on: the method of a SortedFrozenSet on the left, else the
   reflected method of the one on the right; the methods of the other types give
   NotImplemented.  If all do, TypeError.
   [sorted_frozen_set.py:7] *)
Definition comparison (method reflected : list Z -> coll -> option bool) (a b : coll) : res bool :=
  match match a, b with CSorted s, _ => method s b | _, CSorted s => reflected s a | _, _ => None end with
  | Some r => Ok r
  | None => Err TypeError
  end.
(* [sorted_frozen_set.py:7] *)
Definition coll_le := comparison m_le m_ge.
(* [sorted_frozen_set.py:7] *)
Definition coll_lt := comparison m_lt m_gt.
(* [sorted_frozen_set.py:7] *)
Definition coll_ge := comparison m_ge m_le.
(* [sorted_frozen_set.py:7] *)
Definition coll_gt := comparison m_gt m_lt.

(* a == b: __eq__ of the SortedFrozenSet, reflected if it is on the right
   [sorted_frozen_set.py:36-39] *)
Definition m_eq (self : list Z) (rhs : coll) : bool :=
  match rhs with CSorted t => sfs_eq self t | _ => false end.
(* [sorted_frozen_set.py:36-39] *)
Definition coll_eq (a b : coll) : res bool :=
  match a, b with
  | CSorted s, _ => Ok (m_eq s b)
  | _, CSorted s => Ok (m_eq s a)
  | _, _ => Err TypeError
  end.

(* a + b: chain(self._items, rhs._items); there is no __radd__
   [sorted_frozen_set.py:51-52] *)
Definition coll_add (a b : coll) : res (list Z) :=
  match a, b with
  | CSorted s, CSorted t => Ok (sfs_add s t)
  | CSorted _, _ => Err AttributeError
  | _, _ => Err TypeError
  end.

(* s.isdisjoint(c) [sorted_frozen_set.py:7] *)
Definition coll_isdisjoint (s : list Z) (c : coll) : bool := negb (existsb (sfs_mem s) (items_of c)).
