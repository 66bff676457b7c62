(* Property C149: the items and slices of a SortedFrozenSet. *)
From Coq Require Import String ZArith List Bool Sorted.
From Verif Require Import Py Util NumpyExt Spec_Numpy SetItems Spec_SetItems SetItemsFacts.
Import ListNotations.
Open Scope list_scope.
Open Scope Z_scope.

(* s[i] is the item with i smaller ones; a negative i counts from the end. *)
Theorem C149_item : forall xs i x, sfs_item (sfs_new xs) i = Ok x <-> In x xs /\ rank xs x = counted (different xs) i.
Proof. exact item_spec. Qed.
Print Assumptions C149_item.

(* There is one for the numbers from minus to below the number of items; for all
   others an IndexError is raised. *)
Theorem C149_range : forall xs i, ((exists x, sfs_item (sfs_new xs) i = Ok x) <-> - different xs <= i < different xs) /\
  ((exists x, sfs_item (sfs_new xs) i = Ok x) \/ sfs_item (sfs_new xs) i = Err IndexError).
Proof. exact (fun xs i => conj (item_range xs i) (item_error xs i)). Qed.
Print Assumptions C149_range.

(* index is its inverse *)
Theorem C149_index : forall xs x i, sfs_index (sfs_new xs) x = Ok i <-> In x xs /\ rank xs x = i.
Proof. exact index_spec. Qed.
Print Assumptions C149_index.

(* A slice is the set of the items at the places the slice picks, in increasing
   order even if the slice walks backwards; a step of 0 is refused. *)
Theorem C149_slice : forall xs s, slice_step s <> 0 -> exists t, sfs_slice (sfs_new xs) s = Ok t /\ StronglySorted Z.lt t /\
  forall x, In x t <-> In x xs /\ picks (different xs) s (rank xs x).
Proof. exact slice_spec. Qed.
Print Assumptions C149_slice.
Theorem C149_zero_step : forall xs s, slice_step s = 0 -> sfs_slice (sfs_new xs) s = Err ValueError.
Proof. exact (fun xs => slice_zero (sfs_new xs)). Qed.
Print Assumptions C149_zero_step.

(* So s[:] and s[::-1] are both s. *)
Theorem C149_whole : forall xs step, step = 1 \/ step = -1 -> sfs_slice (sfs_new xs) (mk_slice None None (Some step)) = Ok (sfs_new xs).
Proof. exact slice_backwards. Qed.
Print Assumptions C149_whole.

Example C149_example : let s := sfs_new [9; 4; 1; 4; 5] in
  different [9; 4; 1; 4; 5] = 4 /\ rank [9; 4; 1; 4; 5] 5 = 2 /\ sfs_item s 2 = Ok 5 /\ sfs_item s (-1) = Ok 9 /\ sfs_item s 4 = Err IndexError /\
  sfs_item s (-5) = Err IndexError /\ sfs_slice s (mk_slice (Some 1) (Some (-1)) None) = Ok [4; 5] /\
  sfs_slice s (mk_slice None None (Some (-2))) = Ok [4; 9] /\ sfs_slice s (mk_slice None None (Some 0)) = Err ValueError.
Proof. do 8 (split; [reflexivity|]). reflexivity. Qed.
