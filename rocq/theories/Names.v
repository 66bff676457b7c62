(* The decimal form of revisions, and the helpers for names and sentences of
   segpy/util.py, for strings of ASCII characters (character codes).  No proofs
   here. *)
From Coq Require Import ZArith List Bool.
From Verif Require Import Py.
Import ListNotations.
Open Scope list_scope.
Open Scope Z_scope.

(* revisions.py:56-68 integer_to_decimal_revision.  The Decimal is exact: it is
   represented by the number of its tenths. *)
Definition decimal_revision (revision : Z) : Z :=
  let lo := Z.land revision 255 in
  let hi := Z.land (Z.shiftr revision 8) 255 in
  10 * hi + lo.

(* str.lower and str.upper of an ASCII character
   [util.py:287, 297] *)
Definition lower (c : Z) : Z := if (65 <=? c) && (c <=? 90) then c + 32 else c.
(* [util.py:287] *)
Definition upper (c : Z) : Z := if (97 <=? c) && (c <=? 122) then c - 32 else c.
(* str.capitalize
   [util.py:287] *)
Definition capitalize (w : list Z) : list Z := match w with [] => [] | c :: w => upper c :: map lower w end.
(* str.split with a separator of one character
   [util.py:287] *)
Fixpoint split_at (sep : Z) (s : list Z) : list (list Z) :=
  match s with
  | [] => [[]]
  | c :: s => if c =? sep then [] :: split_at sep s
              else match split_at sep s with w :: ws => (c :: w) :: ws | [] => [[c]] end
  end.
(* util.py:285-287 underscores_to_camelcase *)
Definition underscores_to_camelcase (s : list Z) : list Z := concat (map capitalize (split_at 95 s)).

(* str.partition with a separator of one character: what is before it, and
   whether it is there
   [util.py:291] *)
Fixpoint partition (sep : Z) (s : list Z) : list Z * list Z * list Z :=
  match s with
  | [] => ([], [], [])
  | c :: s => if c =? sep then ([], [sep], s) else let '(a, b, r) := partition sep s in (c :: a, b, r)
  end.
(* util.py:290-292 first_sentence *)
Definition first_sentence (s : list Z) : list Z := let '(sentence, stop, _) := partition 46 s in sentence ++ stop.

(* util.py:295-297 lower_first *)
Definition lower_first (s : list Z) : list Z := map lower (firstn 1 s) ++ skipn 1 s.

(* str.startswith
   [util.py:308] *)
Fixpoint startswith (s p : list Z) : bool :=
  match p, s with
  | [], _ => true
  | x :: p, y :: s => (x =? y) && startswith s p
  | _, [] => false
  end.
(* str.endswith
   [util.py:308] *)
Definition endswith (s p : list Z) : bool := startswith (rev s) (rev p).
(* util.py:307-308 is_magic_name *)
Definition is_magic_name (name : list Z) : bool := (4 <? zlen name) && startswith name [95; 95] && endswith name [95; 95].
