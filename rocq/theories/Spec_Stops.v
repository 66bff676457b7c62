(* Specification for C137: programs that are stopped while they write a file. *)
From Coq Require Import String ZArith List Bool.
From Verif Require Import Py FileIO Toolkit Stops.
Import ListNotations.
Open Scope list_scope.
Open Scope Z_scope.

(* what an operation does: to the file, or to the list of reports *)
Definition perform1 (o : op) (w : world) : world :=
  match o with
  | Seek_to p => mk_world (mk_file (f_data (w_file w)) p) (w_log w)
  | Put b => mk_world (snd (write b (w_file w))) (w_log w)
  | Report num den => mk_world (w_file w) (w_log w ++ [(num, den)])
  end.
Definition perform (l : list op) (w : world) : world := fold_left (fun w o => perform1 o w) l w.

(* The operations l' are what is done of the operations l by a program that is
   stopped: some of them, and perhaps a part of the write that comes next. *)
Inductive begins : list op -> list op -> Prop :=
| begins_none l : begins [] l
| begins_part b m l : begins [Put (firstn m b)] (Put b :: l)
| begins_op o l' l : begins l' l -> begins (o :: l') (o :: l).

(* w' is how things are when a program that is to do l is stopped *)
Definition stopped (l : list op) (w w' : world) : Prop := exists l', begins l' l /\ w' = perform l' w.
