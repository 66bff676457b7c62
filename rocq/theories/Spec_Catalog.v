(* Specification used in the statements of the catalog properties (C39-C44). *)
From Coq Require Import ZArith List Permutation.
From Verif Require Import Py.
Import ListNotations.
Open Scope Z_scope.

(* A mapping, given by its lookup, membership test, length and iteration,
   holds exactly the given items. *)
Record holds_exactly {K : Type} (get : K -> res Z) (mem : K -> bool) (len : Z)
  (iter : list K) (items : list (K * Z)) : Prop := {
  he_get : forall k v, In (k, v) items -> get k = Ok v;
  he_absent : forall k, ~ In k (map fst items) -> get k = Err KeyError;
  he_mem : forall k, mem k = true <-> In k (map fst items);
  he_len : len = zlen items;
  he_iter : Permutation iter (map fst items)
}.

(* A mapping which agrees with itself: its length is the number of keys it
   iterates over, these are distinct, and exactly these can be looked up. *)
Record self_consistent {K : Type} (get : K -> res Z) (mem : K -> bool) (len : Z)
  (iter : list K) : Prop := {
  sc_len : len = zlen iter;
  sc_distinct : NoDup iter;
  sc_get : forall k, In k iter -> exists v, get k = Ok v;
  sc_absent : forall k, ~ In k iter -> get k = Err KeyError;
  sc_mem : forall k, mem k = true <-> In k iter
}.

(* v is the last value given for the key k in a series of items *)
Definition last_value {K : Type} (items : list (K * Z)) (k : K) (v : Z) : Prop :=
  exists before after, items = before ++ (k, v) :: after /\ ~ In k (map fst after).
