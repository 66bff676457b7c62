(* Specification for C142: file objects that give fewer bytes than they are asked
   for, and take fewer than they are given, as unbuffered ones may. *)
From Coq Require Import ZArith List.
From Verif Require Import Py FileIO Toolkit Stops Growing.
Import ListNotations.
Open Scope list_scope.
Open Scope Z_scope.

(* The steps are taken on a file with the contents d, from the position q on; the
   i-th read gives at most s i bytes. *)
Fixpoint piecemeal {A} (d : list Z) (s : nat -> Z) (p : steps A) (i : nat) (q : Z) : res A :=
  match p with
  | Fin r => r
  | AskLength k => piecemeal d s (k (zlen d)) i q
  | AskPos k => piecemeal d s (k q) i q
  | MoveTo q k => piecemeal d s k i q
  | GetBytes n k => let b := firstn (Z.to_nat (s i)) (py_slice d q (q + n)) in piecemeal d s (k b) (S i) (q + zlen b)
  | Show _ _ k => piecemeal d s k i q
  end.

(* something is given whenever something is asked for and there *)
Definition giving (s : nat -> Z) : Prop := forall i, 1 <= s i.

(* the operations l' are the operations l, but of each write only some bytes have
   been taken, one at least *)
Inductive partly : list op -> list op -> Prop :=
| partly_nil : partly [] []
| partly_put b m l' l : (1 <= m)%nat -> partly l' l -> partly (Put (firstn m b) :: l') (Put b :: l)
| partly_seek p l' l : partly l' l -> partly (Seek_to p :: l') (Seek_to p :: l)
| partly_report a b l' l : partly l' l -> partly (Report a b :: l') (Report a b :: l).

(* the outcome is the one it should be, or an exception *)
Definition right_or_raised {A} (should is : res A) : Prop := is = should \/ exists y, is = Err y.
