(* Property C136: a SortedFrozenSet together with another collection. *)
From Coq Require Import ZArith List Bool Sorted Lia.
From Verif Require Import Py Util Spec_Util Mixed Spec_Mixed MixedFacts.
Import ListNotations.
Open Scope Z_scope.

(* ---------------- C136 ---------------- *)

(* The set operators, in either order, with any collection. *)
Theorem C136_operators :
  combines coll_and and /\ combines coll_or or /\ combines coll_sub (fun p q => p /\ ~ q) /\
  combines coll_xor (fun p q => (p /\ ~ q) \/ (q /\ ~ p)).
Proof. exact operators_combine. Qed.
Print Assumptions C136_operators.

Theorem C136_comparisons :
  compares coll_le (fun a b => incl a b) /\ compares coll_ge (fun a b => incl b a) /\
  compares coll_lt (fun a b => incl a b /\ ~ incl b a) /\ compares coll_gt (fun a b => incl b a /\ ~ incl a b).
Proof. exact comparisons_compare. Qed.
Print Assumptions C136_comparisons.

Theorem C136_isdisjoint : forall s c, StronglySorted Z.lt s ->
  coll_isdisjoint s c = true <-> forall v, In v s -> ~ In v (items_of c).
Proof. exact isdisjoint_spec. Qed.
Print Assumptions C136_isdisjoint.

(* Equality does not fit: a set with the same items is a subset and a superset
   and not equal. *)
Theorem C136_equality_refuted : exists a b, coll_ok a /\ coll_ok b /\ sorted_coll a /\ is_set b = true /\ items_of a = items_of b /\
  coll_le a b = Ok true /\ coll_ge a b = Ok true /\ coll_eq a b = Ok false /\ coll_eq b a = Ok false.
Proof.
  exists (CSorted [1; 2]), (CSet [1; 2]). split; [repeat constructor|]. split; [repeat constructor; cbn; intuition lia|].
  split; [eexists; reflexivity|]. repeat split; reflexivity.
Qed.
Print Assumptions C136_equality_refuted.

(* It holds exactly between SortedFrozenSets with the same items, *)
Theorem C136_equality : forall a b, coll_ok a -> coll_ok b -> sorted_coll a \/ sorted_coll b ->
  exists r, coll_eq a b = Ok r /\ (r = true <-> sorted_coll a /\ sorted_coll b /\ items_of a = items_of b).
Proof. exact equality_outcome. Qed.
Print Assumptions C136_equality.

(* and only SortedFrozenSets can be added. *)
Theorem C136_add : forall a b, sorted_coll a \/ sorted_coll b ->
  (sorted_coll a -> sorted_coll b -> exists s, coll_add a b = Ok s /\ StronglySorted Z.lt s /\
     forall v, In v s <-> In v (items_of a) \/ In v (items_of b)) /\
  (sorted_coll a -> ~ sorted_coll b -> coll_add a b = Err AttributeError) /\
  (~ sorted_coll a -> coll_add a b = Err TypeError).
Proof. exact add_outcome. Qed.
Print Assumptions C136_add.

Example C136_example : coll_ok (CSorted [1; 4; 7]) /\ coll_ok (CSet [7; 0; 4]) /\
  coll_and (CSorted [1; 4; 7]) (CSet [7; 0; 4]) = Ok [4; 7] /\ coll_and (CSet [7; 0; 4]) (CSorted [1; 4; 7]) = Ok [4; 7] /\
  coll_or (CSeq [9; 9; 4]) (CSorted [1; 4; 7]) = Ok [1; 4; 7; 9] /\ coll_sub (CIter [9; 1; 4]) (CSorted [1; 4; 7]) = Ok [9] /\
  coll_sub (CSorted [1; 4; 7]) (CIter [9; 1; 4]) = Ok [7] /\ coll_xor (CSorted [1; 4; 7]) (CSet [7; 0; 4]) = Ok [0; 1] /\
  coll_lt (CSet [7; 4]) (CSorted [1; 4; 7]) = Ok true /\ coll_le (CSorted [1; 4; 7]) (CSeq [1; 4; 7]) = Err TypeError /\
  coll_add (CSorted [1; 4; 7]) (CSeq [2]) = Err AttributeError /\ coll_add (CSeq [2]) (CSorted [1; 4; 7]) = Err TypeError /\
  coll_isdisjoint [1; 4; 7] (CIter [2; 4]) = false.
Proof.
  split; [repeat constructor; lia|]. split; [repeat constructor; cbn; intuition lia|].
  repeat (apply conj; [vm_compute; reflexivity|]). vm_compute. reflexivity.
Qed.
