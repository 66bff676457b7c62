(* Specification for C141: files that grow while they are opened. *)
From Coq Require Import ZArith List.
From Verif Require Import Py FileIO Toolkit Growing.
Import ListNotations.
Open Scope list_scope.
Open Scope Z_scope.

(* the steps are taken, and nobody else touches the file *)
Fixpoint alone {A} (p : steps A) (w : world) : res A * world :=
  match p with
  | Fin r => (r, w)
  | AskLength k => alone (k (zlen (f_data (w_file w)))) w
  | AskPos k => alone (k (f_pos (w_file w))) w
  | MoveTo q k => alone k (mk_world (mk_file (f_data (w_file w)) q) (w_log w))
  | GetBytes n k =>
      let (b, f) := read n (w_file w) in
      match b with Ok b => alone (k b) (mk_world f (w_log w)) | Err y => (Err y, mk_world f (w_log w)) end
  | Show num den k => alone k (mk_world (w_file w) (w_log w ++ [(num, den)]))
  end.

(* The file holds d i at the i-th moment.  The steps are taken at one moment after
   the other from the moment i and the position q on: what they end with, and the
   moment they end at. *)
Fixpoint meanwhile {A} (d : nat -> list Z) (p : steps A) (i : nat) (q : Z) : res A * nat :=
  match p with
  | Fin r => (r, i)
  | AskLength k => meanwhile d (k (zlen (d i))) (S i) q
  | AskPos k => meanwhile d (k q) (S i) q
  | MoveTo q k => meanwhile d k (S i) q
  | GetBytes n k => let b := py_slice (d i) q (q + n) in meanwhile d (k b) (S i) (q + zlen b)
  | Show _ _ k => meanwhile d k (S i) q
  end.

(* bytes are only added at the end of the file *)
Definition growing (d : nat -> list Z) : Prop := forall i, exists z, d (S i) = d i ++ z.
