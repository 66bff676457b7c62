(* Specification vocabulary for processes that share a cache directory. *)
From Coq Require Import ZArith List.
From Verif Require Import Py Race.
Import ListNotations.
Open Scope list_scope.
Open Scope nat_scope.

(* l begins with p *)
Definition prefix (p l : list Z) : Prop := exists t, l = p ++ t.
(* D is the pickle of r: unpickling needs all of it, and gives r. *)
Definition is_pickle {A} (unpickle : list Z -> verdict A) (D : list Z) (r : A) : Prop :=
  D <> [] /\ unpickle D = Got r /\ forall p, prefix p D -> p <> D -> unpickle p = More.

(* No process opens the cache file for writing while another is writing it. *)
Fixpoint one_writer {A} (unpickle : list Z -> verdict A) (pickles : nat -> list Z) (evs : list event) (s : disk A) : Prop :=
  match evs with
  | [] => True
  | ev :: evs =>
      match ev with
      | Act i _ => dk_procs s i = Saving -> forall ino j k, dk_entry s = Some ino -> dk_procs s j <> Writing ino k
      | _ => True
      end /\ one_writer unpickle pickles evs (occur unpickle pickles ev s)
  end.

(* how many steps process i is given *)
Definition turns (i : nat) (evs : list event) : nat := length (filter (fun ev => match ev with Act j _ => Nat.eqb j i | _ => false end) evs).
