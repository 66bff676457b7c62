(* Property C143: the reader cache and files that grow while they are opened. *)
From Coq Require Import String ZArith List Bool Lia ZifyBool ZifyNat.
From Verif Require Import Py PyFloat IbmFloat Util Catalog Packing Spec_Packing Formats FileIO Text TextIO Toolkit Reader Spec_Reader ReaderFacts OpenFacts
  Cache Spec_Cache CacheFacts Growing Spec_Growing GrowingFacts Hashing CachedSteps CachedStepsFacts.
Import ListNotations.
Local Open Scope string_scope.
Open Scope list_scope.
Open Scope Z_scope.

(* when nobody else touches the file, the steps are those of create_reader with a cache *)
Theorem C143_steps : forall c name a d en, (forall bc, class_of en (ca_bc c) = Some bc -> exists n, fmt_length bc = Some n /\ 0 <= n) ->
  exists f, alone (cached_steps (S (length d)) (S (length d)) (S (S (length d))) c name a en) (mk_world (mk_file d 0) []) =
  match create_reader_cached c (mk_handle name a d) en with (o, en') => (Ok (fst o, en'), mk_world f (snd o)) end.
Proof. exact cached_alone. Qed.
Print Assumptions C143_steps.

(* The file holds d i at the i-th step.  A reader on the caller's file is that of
   opening d j without a cache; a reader from the cache is what a call that finds
   d j gets; an exception is that of one of these two, or of saving the reader of
   d j.  *)
Theorem C143_one_moment : forall d enc (bc tc : fmt), growing d -> (forall i, readable (d i) enc bc tc) ->
  forall f0 f1 f2 c name a en o en' m, ca_enc c = enc -> class_of en (ca_bc c) = Some bc -> class_of en (ca_tc c) = Some tc ->
  meanwhile d (cached_steps f0 f1 f2 c name a en) 0 0 = (Ok (o, en'), m) ->
  o <> Err OutOfFuel \/ (forall i, (length (d i) < f0)%nat /\ (length (d i) < f1)%nat /\ (S (length (d i)) < f2)%nat) ->
  let plain j := fst (create_reader a enc bc tc (ca_endian c) (ca_progress c) (ca_dim c) (mk_world (mk_file (d j) 0) [])) in
  let kept j := fst (fst (create_reader_cached c (mk_handle name a (d j)) en)) in
  match o with
  | Ok (r, Callers) => exists j, (j <= m)%nat /\ plain j = Ok r
  | Ok (r, Reopened f) => exists j, (j <= m)%nat /\ kept j = Ok (r, Reopened f)
  | Err y => exists j, (j <= m)%nat /\ (plain j = Err y \/ kept j = Err y \/
      exists r k pos en1, plain j = Ok r /\ save_reader k name pos (ca_bc c) (ca_tc c) r en1 = (Err y, en'))
  end.
Proof. intros d enc bc tc G R f0 f1 f2 c name a en o en' m E B T M N plain kept. exact (proj1 (cached_grown d G enc bc tc R f0 f1 f2 c name a en o en' m E B T M N)). Qed.
Print Assumptions C143_one_moment.

(* What is then in the cache: what was there, and where the reader of d i belongs
   at most the reader of d j, with j not before i.
   Missing: that d j = d i, see below. *)
Theorem C143_entries_partial : forall d enc (bc tc : fmt), growing d -> (forall i, readable (d i) enc bc tc) ->
  forall f0 f1 f2 c name a en o en' m, ca_enc c = enc -> class_of en (ca_bc c) = Some bc -> class_of en (ca_tc c) = Some tc ->
  meanwhile d (cached_steps f0 f1 f2 c name a en) 0 0 = (Ok (o, en'), m) ->
  o <> Err OutOfFuel \/ (forall i, (length (d i) < f0)%nat /\ (length (d i) < f1)%nat /\ (S (length (d i)) < f2)%nat) ->
  forall k s, en_cache en' k = Saved s -> en_cache en k = Saved s \/
    exists i j, (i <= j <= m)%nat /\ call_location c (mk_handle name a (d i)) = Some k /\ sv_name s = name /\
      fst (create_reader a enc bc tc (ca_endian c) (ca_progress c) (ca_dim c) (mk_world (mk_file (d j) 0) [])) = Ok (sv_reader s).
Proof. intros d enc bc tc G R f0 f1 f2 c name a en o en' m E B T M N. exact (proj2 (cached_grown d G enc bc tc R f0 f1 f2 c name a en o en' m E B T M N)). Qed.
Print Assumptions C143_entries_partial.

(* two traces, the second of which is written after the file has been hashed *)
Definition one_trace : list Z := firstn (length file_1d - 244) file_1d.
Definition completed (i : nat) : list Z := if (i <? 7)%nat then one_trace else file_1d.
Lemma completes : growing completed.
Proof.
  assert (E : file_1d = one_trace ++ skipn (length file_1d - 244) file_1d) by (symmetry; apply firstn_skipn).
  intros i. unfold completed. destruct (S i <? 7)%nat eqn:A, (i <? 7)%nat eqn:B; try lia.
  - exists []. now rewrite app_nil_r.
  - eexists. exact E.
  - exists []. now rewrite app_nil_r.
Qed.
Lemma completed_readable i : readable (completed i) (Some ASCII) BinaryReelHeader TraceHeaderRev1.
Proof. apply readable_by. unfold completed. destruct (i <? 7)%nat; vm_compute; reflexivity. Qed.
Definition completed_opening : res ending * nat := meanwhile completed (cached_steps 9 9 9 (request None) (Path "/a") attrs start) 0 0.
Definition completed_cache : env := match completed_opening with (Ok (_, en), _) => en | _ => start end.
Example C143_example : match completed_opening with
  | (Ok (Ok (r, Callers), _), m) => rd_num_traces r = 2 /\ (m <= 50)%nat
  | _ => False end.
Proof. vm_compute. split; [reflexivity|]. lia. Qed.

(* The reader that was made of both traces is kept under the hash of the first:
   when the file again holds only the first, as when it is restored from a copy
   that was made then, opening it gives a reader with two traces. *)
Theorem C143_cache_refuted : exists (d : nat -> list Z) c en en' r m,
  growing d /\ (forall i, readable (d i) (ca_enc c) BinaryReelHeader TraceHeaderRev1) /\ empty_cache en /\
  meanwhile d (cached_steps 9 9 9 c (Path "/a") attrs en) 0 0 = (Ok (Ok (r, Callers), en'), m) /\
  ~ transparent c (opened_at "/a" (d 0%nat)) (set_files en' (Path "/a") (Some (d 0%nat))).
Proof.
  exists completed, (request None), start, completed_cache.
  assert (E : match completed_opening with (Ok (Ok (r, Callers), _), _) => true | _ => false end = true) by (vm_compute; reflexivity).
  assert (T : ~ transparent (request None) (opened_at "/a" (completed 0)) (set_files completed_cache (Path "/a") (Some (completed 0)))).
  { eapply opaque_view; [vm_compute; reflexivity|vm_compute; reflexivity|discriminate]. }
  revert E T. unfold completed_cache. unfold completed_opening.
  destruct (meanwhile completed (cached_steps 9 9 9 (request None) (Path "/a") attrs start) 0 0) as [[[[[r [|f]]|y] en']|y] m]; intros E T; try discriminate E.
  exists r, m. split; [exact completes|]. split; [exact completed_readable|]. split; [intros k; reflexivity|]. split; [reflexivity|exact T].
Qed.
Print Assumptions C143_cache_refuted.
