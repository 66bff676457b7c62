(* Model of the items of a SortedFrozenSet, segpy/sorted_frozen_set.py:30-32 (C149).
   A SortedFrozenSet is its _items list, as in Util.v. *)
From Coq Require Import String ZArith List Bool.
From Verif Require Import Py Util NumpyExt.
Import ListNotations.
Open Scope list_scope.
Open Scope Z_scope.

(* s[index]
   [sorted_frozen_set.py:30-32] *)
Definition sfs_item (s : list Z) (index : Z) : res Z := py_get s index.
(* s[start:stop:step]: the slice of the list, made a SortedFrozenSet
   [sorted_frozen_set.py:30-32] *)
Definition sfs_slice (s : list Z) (index : pslice) : res (list Z) := do result <- list_slice s index ;; Ok (sfs_new result).
