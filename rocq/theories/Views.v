(* Finding items in a ReversedSequenceView, also a view of a view.
   [reversed_sequence_view.py:28-35] *)
From Coq Require Import ZArith List Bool.
From Verif Require Import Py Util.
Import ListNotations.
Open Scope Z_scope.

(* s.index(x).  A view asks its sequence if the item occurs once; otherwise it
   iterates over itself (enumerate(self)).
   [reversed_sequence_view.py:28-35] *)
Fixpoint so_index (s : seqobj) (x : Z) : res Z :=
  match s with
  | SoList l => list_index l x
  | SoView s' =>
      if so_count s' x =? 1 then do i <- so_index s' x ;; rsv_reverse_index (so_len s') i
      else do items <- so_iter (SoView s') ;; list_index items x
  end.
