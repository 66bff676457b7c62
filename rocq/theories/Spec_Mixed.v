(* Specification vocabulary for a SortedFrozenSet together with another
   collection. *)
From Coq Require Import ZArith List Bool Sorted.
From Verif Require Import Py Mixed.
Import ListNotations.
Open Scope Z_scope.

(* a collection as it can be: a SortedFrozenSet made from some items, or a set,
   whose items are distinct *)
Definition coll_ok (c : coll) : Prop :=
  match c with CSorted s => StronglySorted Z.lt s | CSet l => NoDup l | _ => True end.
Definition sorted_coll (c : coll) : Prop := exists s, c = CSorted s.

(* one of the operands being a SortedFrozenSet, the operator makes a
   SortedFrozenSet of the items for which P holds *)
Definition combines (op : coll -> coll -> res (list Z)) (P : Prop -> Prop -> Prop) : Prop := forall a b,
  coll_ok a -> coll_ok b -> sorted_coll a \/ sorted_coll b ->
  exists s, op a b = Ok s /\ StronglySorted Z.lt s /\ forall v, In v s <-> P (In v (items_of a)) (In v (items_of b)).

(* the comparison of two sets, one of them a SortedFrozenSet, says whether P holds
   of their items; with something that is not a set it fails *)
Definition compares (op : coll -> coll -> res bool) (P : list Z -> list Z -> Prop) : Prop := forall a b,
  coll_ok a -> coll_ok b -> sorted_coll a \/ sorted_coll b ->
  (is_set a = true -> is_set b = true -> exists r, op a b = Ok r /\ (r = true <-> P (items_of a) (items_of b))) /\
  (is_set a = false \/ is_set b = false -> op a b = Err TypeError).
