(* Specification used in the statements about builders (C117, C118). *)
From Coq Require Import ZArith List.
From Verif Require Import Py Builder.
Import ListNotations.
Open Scope Z_scope.

(* the items added by a series of calls, in order *)
Fixpoint added {K : Type} (ops : list (builder_op K)) : list (K * Z) :=
  match ops with
  | [] => []
  | BAdd k v :: ops' => (k, v) :: added ops'
  | BCreate :: ops' => added ops'
  end.

(* how many of the calls are create() *)
Fixpoint num_creates {K : Type} (ops : list (builder_op K)) : nat :=
  match ops with
  | [] => O
  | BAdd _ _ :: ops' => num_creates ops'
  | BCreate :: ops' => S (num_creates ops')
  end.

(* the entries of an iterable series are these items *)
Definition entries_are {K : Type} (l : list (entry K)) (items : list (K * Z)) : Prop :=
  l = map (fun p => EPair (fst p) (snd p)) items.
