(* Property C141: opening a file while it grows is opening it at one moment. *)
From Coq Require Import String ZArith List Bool Lia ZifyBool ZifyNat.
From Verif Require Import Py PyFacts PyFloat IbmFloat Spec_Ibm Util Catalog Packing Spec_Packing Formats FileIO Text Spec_Text TextIO
  Float32 Toolkit Spec_Segy Reader Spec_Reader ReaderFacts OpenFacts Spec_Writer WriterFacts Spec_Written Spec_Cut Props_Reader Props_Writer
  Stops Spec_Stops StopsFacts StopsRead Props_Stops NowFacts Props_Now Growing Spec_Growing GrowingFacts.
Import ListNotations.
Local Open Scope string_scope.
Open Scope list_scope.
Open Scope Z_scope.

(* when nobody else touches the file, the steps are those of create_reader *)
Theorem C141_steps : forall a enc (bc tc : fmt) eo pr dim d q log n, fmt_length bc = Some n -> 0 <= n -> 0 <= q ->
  alone (open_steps (S (length d)) (S (S (length d))) a enc bc tc eo pr dim) (mk_world (mk_file d q) log) =
  create_reader a enc bc tc eo pr dim (mk_world (mk_file d q) log).
Proof. exact open_alone. Qed.
Print Assumptions C141_steps.

(* the file holds d i at the i-th step: the outcome is that of opening d j, for a
   moment j not after the end; it ends if the file does not grow for ever *)
Theorem C141_one_moment : forall d enc (bc tc : fmt), growing d -> (forall i, readable (d i) enc bc tc) -> forall f1 f2 a eo pr dim log,
  let (r, m) := meanwhile d (open_steps f1 f2 a enc bc tc eo pr dim) 0 0 in
  r <> Err OutOfFuel \/ (forall i, (length (d i) < f1)%nat /\ (S (length (d i)) < f2)%nat) ->
  exists j, (j <= m)%nat /\ r = fst (create_reader a enc bc tc eo pr dim (mk_world (mk_file (d j) 0) log)).
Proof.
  intros d enc bc tc G R f1 f2 a eo pr dim log. pose proof (open_moment d G enc bc tc R f1 f2 a eo pr dim log) as H.
  destruct (meanwhile d (open_steps f1 f2 a enc bc tc eo pr dim) 0 0) as (r & m). exact H.
Qed.
Print Assumptions C141_one_moment.

(* a file that is opened while write_segy writes it, and then used while it is
   still being written: the reader has the traces whose headers were complete at
   some moment of the opening, and they are those of the dataset *)
Theorem C141_while_written : forall ds enc x (bc tc : fmt) (e : endian) t trs pr log (w : nat -> world),
  writable ds x bc tc t trs -> consistent ds bc tc t trs -> trs <> [] -> encoding_for enc ds x -> pr <> NotCallable ->
  (forall i, stopped (fst (operations ds enc tc e pr)) (mk_world (mk_file [] 0) log) (w i)) ->
  let d i := f_data (w_file (w i)) in (forall i, zlen (d i) <= zlen (d (S i))) ->
  forall f1 f2 a pr' dim rd m, meanwhile d (open_steps f1 f2 a (Some x) bc tc (Some e) pr' dim) 0 0 = (Ok rd, m) ->
  exists j n, (j <= m)%nat /\ rd_num_traces rd = Z.of_nat n /\
    (forall k, (k < n)%nat <-> (k < length trs)%nat /\ trace_start ds t trs k + 240 <= zlen (d j)) /\
    forall i k tr native q, (m <= i)%nat -> (k < n)%nat -> nth_error trs k = Some tr ->
      (exists h, fst (rd_trace_header rd (Z.of_nat k) None (mk_file (d i) q)) = Ok h /\ same_fields (fst tr) h) /\
      (trace_start ds t trs (S k) <= zlen (d i) ->
         exists rs, fst (rd_trace_samples native rd (Z.of_nat k) None None (mk_file (d i) q)) = Ok rs /\ Forall2 (stored_as t) (snd tr) rs) /\
      (zlen (d i) < trace_start ds t trs (S k) -> fst (rd_trace_samples native rd (Z.of_nat k) None None (mk_file (d i) q)) = Err EOFError).
Proof.
  intros ds enc x bc tc e t trs pr log w W C N E P ST d LE f1 f2 a pr' dim rd m M.
  destruct (write_contents ds enc x bc tc e t trs pr [] [] W E P) as (b & SC & WR).
  assert (F : format_ok (h_cls (ds_binary ds)) 400) by (destruct W as [_ _ BC (-> & _) _ _ _ _ _ _]; exact BC).
  assert (CUT : forall i, exists n, 0 <= n <= zlen b /\ d i = firstn (Z.to_nat n) b).
  { intros i. destruct (C137_prefix ds enc tc e pr [] log [] (w i) F (ST i)) as (n & B & WF). rewrite WR in B, WF. cbn [snd w_file f_data] in B, WF.
    rewrite skipn_nil, app_nil_r in B, WF. exists n. split; [exact B|]. unfold d. rewrite WF. unfold overwritten. cbn [f_data]. now rewrite skipn_nil, app_nil_r. }
  assert (G : growing d).
  { intros i. destruct (CUT i) as (n1 & B1 & E1), (CUT (S i)) as (n2 & B2 & E2). specialize (LE i). unfold zlen in B1, B2, LE. rewrite E1, E2, !firstn_length in LE.
    exists (skipn (Z.to_nat n1) (d (S i))). rewrite <- (firstn_skipn (Z.to_nat n1) (d (S i))) at 1. f_equal. rewrite E2, firstn_firstn, E1. f_equal. lia. }
  assert (AB : Forall (fun v => 0 <= v < 256) b) by exact (proj1 (contents_bytes _ _ _ _ _ _ _ _ SC)).
  assert (R : forall i, readable (d i) (Some x) bc tc).
  { intros i. destruct (CUT i) as (n & _ & ->). destruct C as [CB CT _ _ _ _]. split; [|split; [exact CB|split; [exact CT|intros y [= <-]; apply W]]].
    apply Forall_forall. intros v V. rewrite Forall_forall in AB. apply AB. rewrite <- (firstn_skipn (Z.to_nat n) b). apply in_or_app. now left. }
  pose proof (C141_one_moment d (Some x) bc tc G R f1 f2 a (Some e) pr' dim []) as O. rewrite M in O.
  destruct (O ltac:(left; discriminate)) as (j & J & OJ).
  assert (OP : opens (d j) (Some x) bc tc e dim rd).
  { destruct (create_reader a (Some x) bc tc (Some e) pr' dim (mk_world (mk_file (d j) 0) [])) as (o & w') eqn:EC. cbn [fst] in OJ. subst o. exists a, pr', [], w'. exact EC. }
  assert (LJ : forall i, (j <= i)%nat -> zlen (d j) <= zlen (d i)).
  { intros i L. induction L as [|i L IH]; [lia|]. specialize (LE i). lia. }
  destruct (C140_while_written ds enc x bc tc e t trs pr log (w j) (w j) W C N E P (ST j) (ST j) ltac:(lia) dim rd OP) as (n & NT & KN & _).
  exists j, n. split; [exact J|]. split; [exact NT|]. split; [exact KN|]. intros i k tr native q I LK NK.
  destruct (C140_while_written ds enc x bc tc e t trs pr log (w j) (w i) W C N E P (ST j) (ST i) (LJ i ltac:(lia)) dim rd OP) as (n' & NT' & _ & RDG).
  apply RDG; [lia|exact NK].
Qed.
Print Assumptions C141_while_written.

(* two traces of two samples: the second is written while the file is opened *)
Definition appearing (i : nat) : list Z := if (i <? 9)%nat then begun 4 2 else begun 8 0.
Lemma appears : growing appearing.
Proof.
  assert (E : begun 8 0 = begun 4 2 ++ skipn 3842 (begun 8 0)) by (vm_compute; reflexivity).
  intros i. unfold appearing. destruct (S i <? 9)%nat eqn:A, (i <? 9)%nat eqn:B; try lia.
  - exists []. now rewrite app_nil_r.
  - eexists. exact E.
  - exists []. now rewrite app_nil_r.
Qed.
Example C141_example : growing appearing /\ (forall i, readable (appearing i) None BinaryReelHeader TraceHeaderRev1) /\
  match meanwhile appearing (open_steps 5 5 (mk_attrs false false true) None BinaryReelHeader TraceHeaderRev1 (Some Big) NoProgress None) 0 0 with
  | (Ok r, m) => (rd_num_traces r, m) = (2, 26%nat)
  | _ => False end.
Proof.
  split; [exact appears|]. split.
  - intros i. split; [|split; [apply binary_reel_format|split; [apply rev1_trace_format|discriminate]]]. apply bytesb_ok. unfold appearing. destruct (i <? 9)%nat; vm_compute; reflexivity.
  - vm_compute; reflexivity.
Qed.
