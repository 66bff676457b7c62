(* Model of the progress indicator of the examples: what it prints when it is
   given the values that reading and writing report. *)
From Coq Require Import String ZArith List Bool.
From Verif Require Import Py PyFloat.
Import ListNotations.
Local Open Scope string_scope.
Open Scope list_scope.
Open Scope Z_scope.

(* A reported value as a float.  Writing reports the quotient of two ints,
   reading 0.75 * pos / length and a few constants: each is the quotient k / n of
   the log rounded once, as long as the ints are at most 2^53 (0.75 * pos is then
   exact).  The final int 1 has the same product with 100.0 as the float 1.0.
   [writer.py:59-61 toolkit.py:391-423] *)
Definition reported (v : Z * Z) : res float :=
  do a <- f_of_int (fst v) ;; do b <- f_of_int (snd v) ;; f_div a b.

(* 100.0 *)
Definition HUNDRED : float := S754_finite false 7036874417766400 (-46).

(* int(p * 100.0)
   [loadsave.py:28-29 scale_source_coords.py:27-28] *)
Definition percent (v : Z * Z) : res Z :=
  do p <- reported v ;; f_int (f_mul p HUNDRED).

(* progress(p) for each reported value in turn, with previous_integer_progress:
   the numbers printed.
   [loadsave.py:22-34 scale_source_coords.py:21-33] *)
Fixpoint indicated (previous : Z) (l : list (Z * Z)) : res (list Z) :=
  match l with
  | [] => Ok []
  | v :: more =>
      do current <- percent v ;;
      do ps <- indicated current more ;;
      Ok (if negb (current =? previous) then current :: ps else ps)
  end.

(* make_progress_indicator(name) given the values l
   [loadsave.py:22-34 scale_source_coords.py:21-33] *)
Definition indicator (l : list (Z * Z)) : res (list Z) := indicated (-1) l.
