(* Specification for C139: commands that are stopped while they write a file. *)
From Coq Require Import String ZArith List Bool.
From Verif Require Import Py FileIO Toolkit Commands Stops Spec_Stops.
Import ListNotations.
Open Scope list_scope.
Open Scope Z_scope.

(* the contents of a new file after these operations *)
Definition made (l : list op) : list Z := f_data (w_file (perform l (mk_world (mk_file [] 0) []))).

(* the files when a command that is to open a file and do this to it is stopped:
   before it has opened the file, or at any time after that *)
Definition command_stopped (plan : option (string * Z * list op)) (s s' : fs) : Prop :=
  s' = s \/
  exists out o l w, plan = Some (out, o, l) /\ stopped l (mk_world (mk_file [] 0) []) w /\
    s' = fs_write (fs_create s out o) o (f_data (w_file w)).
