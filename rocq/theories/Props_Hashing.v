(* C141 and C142 for hash_for_file, which names the entries of the reader cache. *)
From Coq Require Import String ZArith List Bool Lia ZifyBool ZifyNat.
From Verif Require Import Py FileIO Toolkit Cache Growing Spec_Growing Spec_Pieces Hashing HashingFacts.
Import ListNotations.
Open Scope list_scope.
Open Scope Z_scope.

(* when nobody else touches the file and reads are complete, the steps are those of hash_for_file *)
Theorem C141_hash_steps : forall args d q log, 0 <= q ->
  alone (hash_steps (S (length d)) args) (mk_world (mk_file d q) log) = on_file (hash_for_file args) (mk_world (mk_file d q) log).
Proof. exact hash_alone. Qed.
Print Assumptions C141_hash_steps.

(* the hash of a growing file is its hash at one moment *)
Theorem C141_hash : forall d, growing d -> forall fuel args q,
  let (r, m) := meanwhile d (hash_steps fuel args) 0 q in
  r <> Err OutOfFuel \/ (forall i, (length (d i) < fuel)%nat) ->
  exists j, (j <= m)%nat /\ forall q', r = fst (hash_for_file args (mk_file (d j) q')).
Proof. exact hash_grown. Qed.
Print Assumptions C141_hash.

(* the hash does not depend on how the reads are split *)
Theorem C142_hash : forall d s args q i, giving s ->
  piecemeal d s (hash_steps (S (length d)) args) i q = fst (hash_for_file args (mk_file d q)).
Proof. exact hash_pieces. Qed.
Print Assumptions C142_hash.

(* two bytes at a time; a file that grows by a byte when two steps have been taken *)
Example C142_hash_example : giving (fun _ => 2) /\ piecemeal [1; 2; 3; 4; 5] (fun _ => 2) (hash_steps 6 [[9]]) 0 3 = Ok [1; 2; 3; 4; 5; 5; 9].
Proof. split; [intros i; lia|vm_compute; reflexivity]. Qed.
Definition growing_byte (i : nat) : list Z := if (i <? 2)%nat then [1; 2] else [1; 2; 3].
Example C141_hash_example : growing growing_byte /\ meanwhile growing_byte (hash_steps 6 [[9]]) 0 0 = (Ok [1; 2; 3; 3; 9], 6%nat).
Proof.
  split; [|vm_compute; reflexivity]. intros i. unfold growing_byte. destruct (i <? 2)%nat eqn:A, (S i <? 2)%nat eqn:B; try lia; [exists []|exists [3]|exists []]; reflexivity.
Qed.
