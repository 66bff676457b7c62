(* Processes that open files at the same time, with one cache (C121). *)
From Coq Require Import ZArith List Arith.
From Verif Require Import Py Threads Race Spec_Race RaceFacts.
Import ListNotations.
Open Scope list_scope.
Open Scope nat_scope.

(* Full statement: whatever the processes do and whenever they die, create_reader
   returns a reader made from the file, or the one that was saved.  It fails, see
   below.  It holds, but for the OSError, if no process opens the cache file for
   writing while another is writing it.  The cache may begin with any part of the
   pickle, left by a process that died. *)
Theorem C121_outcome_partial : forall (A : Type) (unpickle : list Z -> verdict A) pickles D r, is_pickle unpickle D r -> (forall i, pickles i = D) ->
  forall entry evs i x, (forall l, entry = Some l -> prefix l D) -> one_writer unpickle pickles evs (fresh entry) ->
  dk_procs (occur_all unpickle pickles evs (fresh entry)) i = Returned x -> x = Own \/ x = FromCache r \/ x = Raised OSError.
Proof. exact (@race_outcome). Qed.
Print Assumptions C121_outcome_partial.

(* The cache file then always holds a part of the pickle from its start. *)
Theorem C121_entry_partial : forall (A : Type) (unpickle : list Z -> verdict A) pickles D r, is_pickle unpickle D r -> (forall i, pickles i = D) ->
  forall entry evs ino, (forall l, entry = Some l -> prefix l D) -> one_writer unpickle pickles evs (fresh entry) ->
  dk_entry (occur_all unpickle pickles evs (fresh entry)) = Some ino -> prefix (dk_inodes (occur_all unpickle pickles evs (fresh entry)) ino) D.
Proof. exact (@race_entry). Qed.
Print Assumptions C121_entry_partial.

(* The OSError needs a step of another process between the test and the opening
   of the cache file. *)
Theorem C121_together : forall (A : Type) (unpickle : list Z -> verdict A) pickles s i n m, dk_procs s i = Testing ->
  let s' := occur unpickle pickles (Act i m) (occur unpickle pickles (Act i n) s) in
  match dk_entry s with Some ino => dk_procs s' i = Reading ino [] | None => exists ino, dk_procs s' i = Writing ino 0 end.
Proof. exact (@together). Qed.
Print Assumptions C121_together.

(* No process ever waits for another: in any history, with any pickles of at most
   L bytes, 2 L + 6 steps are enough. *)
Theorem C121_ends : forall (A : Type) (unpickle : list Z -> verdict A) pickles L, (forall i, length (pickles i) <= L) ->
  forall entry evs i, (forall l, entry = Some l -> length l <= L) -> 2 * L + 6 <= turns i evs ->
  dk_procs (occur_all unpickle pickles evs (fresh entry)) i = Dead \/ exists x, dk_procs (occur_all unpickle pickles evs (fresh entry)) i = Returned x.
Proof. exact (@race_ends). Qed.
Print Assumptions C121_ends.

(* Several processes may write at once.  If none dies, the cache file is whole
   when they are through. *)
Theorem C121_heals : forall (A : Type) (unpickle : list Z -> verdict A) pickles D, (forall i, pickles i = D) ->
  forall entry evs ino, entry = None \/ entry = Some D -> (forall i, ~ In (Die i) evs) -> let s := occur_all unpickle pickles evs (fresh entry) in
  (forall i k, dk_procs s i <> Writing ino k) -> dk_entry s = Some ino -> dk_inodes s ino = D.
Proof. exact (@race_heals). Qed.
Print Assumptions C121_heals.

(* an unpickler for pickles of four bytes *)
Definition four (b : list Z) : verdict (list Z) := if length b <? 4 then More else Got b.
Definition D4 : list Z := [1; 2; 3; 4]%Z.
Example C121_pickle : is_pickle four D4 D4.
Proof.
  split; [discriminate|]. split; [reflexivity|]. intros p (t & E) N. unfold four. assert (length D4 = length p + length t) by (rewrite E; apply app_length). cbn [D4 length] in H.
  destruct (Nat.ltb_spec (length p) 4) as [L|L]; [reflexivity|]. destruct N. destruct t; [now rewrite E, app_nil_r|]. cbn in H. exfalso. apply (Nat.lt_irrefl 4). rewrite H at 2. rewrite Nat.add_succ_r. apply Nat.lt_succ_r, (Nat.le_trans _ _ _ L), Nat.le_add_r.
Qed.
(* A process dies while it writes; another removes what it left, makes a reader
   and saves it; a third is given that one. *)
Definition history : list event := [Act 0 1; Act 0 1; Act 0 2; Act 1 1; Die 0; Act 1 1; Act 1 9; Act 1 9; Act 1 1; Act 1 1; Act 1 3; Act 2 1; Act 1 9; Act 1 9; Act 2 1; Act 2 3; Act 2 9].
Example C121_example : one_writer four (fun _ => D4) history (fresh None) /\
  let s := occur_all four (fun _ => D4) history (fresh None) in
  dk_procs s 0 = Dead /\ dk_procs s 1 = Returned Own /\ dk_procs s 2 = Returned (FromCache D4) /\ dk_procs s 3 = Testing.
Proof. vm_compute. repeat split; try discriminate. Qed.

(* A process finds the cache file, which another has not yet filled; a third
   finds it incomplete and removes it; the first one's open() raises. *)
Theorem C121_vanished_refuted : exists evs, (forall i, ~ In (Die i) evs) /\ one_writer four (fun _ => D4) evs (fresh None) /\
  dk_procs (occur_all four (fun _ => D4) evs (fresh None)) 1 = Returned (Raised OSError).
Proof.
  exists [Act 0 1; Act 0 1; Act 1 1; Act 2 1; Act 2 1; Act 2 1; Act 2 1; Act 1 1]. split; [|split; [|reflexivity]].
  - intros i I. cbn in I. intuition discriminate.
  - vm_compute. repeat split; discriminate.
Qed.
Print Assumptions C121_vanished_refuted.

(* Two processes write the same pickle at once, and a third reads meanwhile: the
   bytes are neither the pickle nor a part of it, so what it gets is up to the
   unpickler; zeros in the place of text or numbers are not noticed. *)
Theorem C121_holes_refuted : exists evs r, (forall i, ~ In (Die i) evs) /\
  dk_procs (occur_all four (fun _ => D4) evs (fresh None)) 2 = Returned (FromCache r) /\ r = [1; 0; 0; 4]%Z.
Proof.
  exists [Act 0 1; Act 1 1; Act 0 1; Act 0 3; Act 1 1; Act 1 1; Act 0 1; Act 2 1; Act 2 1; Act 2 4], [1; 0; 0; 4]%Z. split; [|split; reflexivity].
  intros i I. cbn in I. intuition discriminate.
Qed.
Print Assumptions C121_holes_refuted.
(* If the second one dies there, the cache file stays like this. *)
Theorem C121_holes_stay_refuted : exists evs, let s := occur_all four (fun _ => D4) evs (fresh None) in
  dk_procs s 0 = Returned Own /\ dk_procs s 1 = Dead /\ exists ino, dk_entry s = Some ino /\ dk_inodes s ino = [1; 0; 0; 4]%Z.
Proof. exists [Act 0 1; Act 1 1; Act 0 1; Act 0 3; Act 1 1; Act 1 1; Act 0 1; Act 0 1; Die 1]. vm_compute. repeat split. now exists 1. Qed.
Print Assumptions C121_holes_stay_refuted.

(* Processes that opened different files with the same contents have different
   pickles, which hold the name of the file.  One that reads the cache file while
   another begins to write it gets a mixture of both. *)
Theorem C121_mixed_refuted : exists evs, let pickles := fun i => match i with 0 => D4 | _ => [5; 6; 7; 8]%Z end in
  one_writer four pickles evs (fresh None) /\ dk_procs (occur_all four pickles evs (fresh None)) 2 = Returned (FromCache [1; 2; 7; 8]%Z).
Proof.
  exists [Act 0 1; Act 1 1; Act 0 1; Act 0 4; Act 0 1; Act 2 1; Act 2 1; Act 2 2; Act 1 1; Act 1 4; Act 2 2]. cbv zeta. split; [|reflexivity].
  vm_compute. repeat split; try discriminate. intros _ ino j k _. destruct j as [|[|[|j]]]; discriminate.
Qed.
Print Assumptions C121_mixed_refuted.
