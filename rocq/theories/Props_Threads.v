(* Readers used by several threads (C120), and several readers of one file object
   used in turn (C60). *)
From Coq Require Import ZArith List Arith.
From Verif Require Import Py IbmFloat Util Catalog Packing FileIO Text Toolkit Reader Threads Spec_Threads ThreadFacts OpenFacts.
Import ListNotations.
Open Scope list_scope.
Open Scope Z_scope.

(* C120.  Taken one after another, the steps of a call are the call. *)
Theorem C120_steps : forall native r c s, run_prog (prog_of native r c) s = exec native r c s.
Proof. exact run_call. Qed.
Print Assumptions C120_steps.

(* Whatever the schedule, every answer a thread has got is the answer of the same
   call made alone, if no other thread reads traces through the same file
   object.  Readers may be shared: the attributes that keep results are loaded
   and stored by all threads. *)
Theorem C120_answers : forall native rs files calls schedule i, private rs calls i ->
  let t := st_threads (steps native rs schedule (begin files calls)) i in
  th_done t = map (alone native rs files) (firstn (length (th_done t)) (calls i)).
Proof. exact (fun native rs files calls schedule i => threads_right native rs files calls i schedule). Qed.
Print Assumptions C120_answers.

(* Five turns for each call are enough for all the answers. *)
Theorem C120_ends : forall native rs files calls schedule i, private rs calls i ->
  (5 * length (calls i) <= count_occ Nat.eq_dec schedule i)%nat ->
  th_done (st_threads (steps native rs schedule (begin files calls)) i) = map (alone native rs files) (calls i).
Proof. exact (fun native rs files calls schedule i => threads_end native rs files calls i schedule). Qed.
Print Assumptions C120_ends.

(* Even when threads do share a file object, the calls that do not read traces
   answer as alone, each thread still gets an answer to every call, and what the
   files hold stays the same. *)
Theorem C120_attributes : forall native rs files calls schedule i,
  let t := st_threads (steps native rs schedule (begin files calls)) i in
  Forall2 (fun nc a => ~ touches (snd nc) -> a = alone native rs files nc) (firstn (length (th_done t)) (calls i)) (th_done t).
Proof. exact (fun native rs files calls schedule i => threads_attributes native rs files calls i schedule). Qed.
Print Assumptions C120_attributes.

Theorem C120_finish : forall native rs files calls schedule i,
  (5 * length (calls i) <= count_occ Nat.eq_dec schedule i)%nat ->
  length (th_done (st_threads (steps native rs schedule (begin files calls)) i)) = length (calls i).
Proof. exact (fun native rs files calls schedule i => threads_finish native rs files calls i schedule). Qed.
Print Assumptions C120_finish.

Theorem C120_contents : forall native rs files calls schedule j,
  f_data (st_files (steps native rs schedule (begin files calls)) j) = f_data (files j).
Proof. exact files_kept. Qed.
Print Assumptions C120_contents.

(* Two threads, each with a reader of its own on a file object of its own, and
   an attribute of the first reader read by both. *)
Definition two_calls (i : nat) : list (nat * call) := match i with
  | 0%nat => [(0%nat, TraceSamples 3 None None); (0%nat, MaxNumTraceSamples)]
  | 1%nat => [(1%nat, TraceSamples 0 None None); (0%nat, MaxNumTraceSamples)]
  | _ => []
  end.
Definition schedule_2 : list nat := [0; 1; 0; 1; 0; 1; 1; 0; 0; 1; 1; 0; 0; 1; 1; 0; 0; 1; 0; 1]%nat.
Example C120_private : forall r, private (fun n => mk_handle r n) two_calls 0 /\ private (fun n => mk_handle r n) two_calls 1.
Proof.
  intros r. split; intros i' n n' c c' N I I' T T'; cbn [hd_file]; (destruct i' as [|[|i']]; [| |destruct I']); try (now destruct N); cbn in I, I';
    intuition (try congruence); repeat match goal with H : (_, _) = (_, _) |- _ => injection H as <- <- end; try congruence; try (now destruct T); now destruct T'.
Qed.
Example C120_example :
  match open_file file_3d with
  | (Ok r, _) =>
      let s := steps Little (fun n => mk_handle r n) schedule_2 (begin (fun _ => mk_file file_3d 2) two_calls) in
      th_done (st_threads s 0%nat) = [Ok (ASamples [RInt (-1)]); Ok (AInt 3)] /\
      th_done (st_threads s 1%nat) = [Ok (ASamples [RInt 10; RInt (-20); RInt 30]); Ok (AInt 3)]
  | _ => False
  end.
Proof. vm_compute. split; reflexivity. Qed.

(* Without that, no: two threads that read traces of one reader.  The second
   seeks between the seek and the read of the first, which is given a sample of
   another trace and no exception. *)
Theorem C120_shared_refuted : exists r schedule,
  fst (open_file file_3d) = Ok r /\
  let rs := fun _ : nat => mk_handle r 0%nat in let files := fun _ : nat => mk_file file_3d 0 in
  th_done (st_threads (steps Little rs schedule (begin files two_calls)) 0%nat) = [Ok (ASamples [RInt 10])] /\
  alone Little rs files (0%nat, TraceSamples 3 None None) = Ok (ASamples [RInt (-1)]).
Proof.
  assert (E : match fst (open_file file_3d) with Ok r =>
    let rs := fun _ : nat => mk_handle r 0%nat in let files := fun _ : nat => mk_file file_3d 0 in
    th_done (st_threads (steps Little rs [0; 0; 1; 1; 0; 0]%nat (begin files two_calls)) 0%nat) = [Ok (ASamples [RInt 10])] /\
    alone Little rs files (0%nat, TraceSamples 3 None None) = Ok (ASamples [RInt (-1)]) | _ => False end) by (vm_compute; split; reflexivity).
  destruct (fst (open_file file_3d)) as [r|y]; [|destruct E]. exists r, [0; 0; 1; 1; 0; 0]%nat. split; [reflexivity|exact E].
Qed.
Print Assumptions C120_shared_refuted.

(* C60.  One thread may share a file object between readers and use it itself
   between their calls: whatever was done, a call of a reader answers what it
   answers when it is the first. *)
Theorem C60_shared_file : forall native readers acts n c (d : list Z) q q',
  let s := fold_left (act native readers) acts (fun _ => no_memo, mk_file d q) in
  fst (exec native (readers n) c (mk_session (fst s n) (snd s))) = fst (exec native (readers n) c (mk_session no_memo (mk_file d q'))) /\
  f_data (snd s) = d.
Proof. exact shared. Qed.
Print Assumptions C60_shared_file.

Example C60_shared_example :
  match open_file file_3d with
  | (Ok r, _) =>
      let s := fold_left (act Little (fun _ => r)) [Calls 0 (TraceSamples 3 None None); Moves 5; Calls 1 MaxNumTraceSamples; Calls 1 (TraceHeader 2 None); Moves 0]
                 (fun _ => no_memo, mk_file file_3d 1) in
      fst s 1%nat <> no_memo /\ fst (exec Little r (TraceSamples 1 None None) (mk_session (fst s 0%nat) (snd s))) = Ok (ASamples [RInt 40; RInt 50])
  | _ => False
  end.
Proof. vm_compute. split; [discriminate|reflexivity]. Qed.
