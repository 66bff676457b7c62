(* Property C142: file objects that give fewer bytes than they are asked for, and
   take fewer than they are given. *)
From Coq Require Import String ZArith List Bool Lia ZifyBool ZifyNat.
From Verif Require Import Py PyFacts PyFloat IbmFloat Spec_Ibm Util Catalog Packing Spec_Packing Formats FileIO Text Spec_Text TextIO
  Float32 Toolkit Spec_Segy Reader Spec_Reader ReaderFacts OpenFacts Spec_Writer WriterFacts Spec_Written Spec_Cut CutFacts Props_Reader Props_Writer
  Stops Spec_Stops StopsFacts Props_Stops NowFacts Props_Now Growing Spec_Growing GrowingFacts Pieces Spec_Pieces PiecesFacts.
Import ListNotations.
Local Open Scope string_scope.
Open Scope list_scope.
Open Scope Z_scope.

(* the steps of trace_header and trace_samples are those methods *)
Theorem C142_steps : forall native r k a b o d q log, 0 <= q ->
  alone (trace_header_steps r k o) (mk_world (mk_file d q) log) = on_file (rd_trace_header r k o) (mk_world (mk_file d q) log) /\
  alone (trace_samples_steps native r k a b) (mk_world (mk_file d q) log) = on_file (rd_trace_samples native r k a b) (mk_world (mk_file d q) log).
Proof. exact reader_alone. Qed.
Print Assumptions C142_steps.

(* a file object that gives all there is, for any piece of code *)
Theorem C142_whole : forall A d s (p : steps A), (forall i, zlen d <= s i) -> forall i q log,
  piecemeal d s p i q = fst (alone p (mk_world (mk_file d q) log)).
Proof. intros A d s p. exact (whole_alone d s p). Qed.
Print Assumptions C142_whole.

(* reading the samples of a trace gives what it should, or EOFError *)
Theorem C142_samples : forall native r k a b d s i q,
  let o := piecemeal d s (trace_samples_steps native r k a b) i q in
  o = fst (rd_trace_samples native r k a b (mk_file d q)) \/ o = Err EOFError.
Proof. exact samples_pieces. Qed.
Print Assumptions C142_samples.

(* so does reading a trace header *)
Theorem C142_header : forall r k ov c (e : endian) d s i q, all_bytes d -> format_ok c 240 ->
  make_header_packer c e = Ok (match ov with Some p => p | None => rd_packer r end) ->
  let o := piecemeal d s (trace_header_steps r k ov) i q in
  o = fst (rd_trace_header r k ov (mk_file d q)) \/ o = Err EOFError.
Proof. exact header_pieces. Qed.
Print Assumptions C142_header.

(* Opening is not like that: traces can be missing from the reader.  What is
   true is that it has been made from a beginning of the file. *)
Theorem C142_opening_partial : forall d enc (bc tc : fmt) s f1 f2 a eo pr dim log, readable d enc bc tc ->
  let r := piecemeal d s (open_steps f1 f2 a enc bc tc eo pr dim) 0 0 in
  r <> Err OutOfFuel \/ (length d < f1)%nat /\ (S (length d) < f2)%nat ->
  r = Err EOFError \/ r = Err ValueError \/
  exists x n, supported x /\ (forall x', enc = Some x' -> x = x') /\ 0 <= n <= zlen d /\
    r = fst (create_reader a (Some x) bc tc eo pr dim (mk_world (mk_file (firstn (Z.to_nat n) d) 0) log)).
Proof. exact open_pieces. Qed.
Print Assumptions C142_opening_partial.

(* with a given encoding the reel headers are right, and there is a first trace;
   the traces of the reader are the first of those of the file *)
Theorem C142_traces_partial : forall d x (bc tc : fmt) e dim r t ts,
  readable d (Some x) bc tc -> opens d (Some x) bc tc e dim r -> traces_of d tc e r t ts ->
  forall s f1 f2 a pr dim' r', piecemeal d s (open_steps f1 f2 a (Some x) bc tc (Some e) pr dim') 0 0 = Ok r' ->
  exists n ts', kept n ts ts' /\ ts' <> [] /\ rd_num_traces r' = zlen ts' /\ rd_text r' = rd_text r /\ rd_ext r' = rd_ext r /\
    same_fields (rd_binary r) (rd_binary r') /\ rd_revision r' = rd_revision r /\
    forall k, 0 <= k < zlen ts' -> forall f ov native b c,
      rd_trace_header r' k ov f = rd_trace_header r k ov f /\ rd_trace_samples native r' k b c f = rd_trace_samples native r k b c f.
Proof.
  intros d x bc tc e dim r t ts RD OP TR s f1 f2 a pr dim' r' E.
  pose proof (open_pieces d (Some x) bc tc s f1 f2 a (Some e) pr dim' [] RD) as O. cbv zeta in O. rewrite E in O.
  destruct (O ltac:(left; discriminate)) as [F|[F|(x' & n & _ & X & N & C)]]; [discriminate|discriminate|]. rewrite (X x eq_refl) in C. clear O X x'.
  set (p := firstn (Z.to_nat n) d) in *. set (z := skipn (Z.to_nat n) d). assert (D : d = p ++ z) by (symmetry; apply firstn_skipn).
  assert (OP' : opens p (Some x) bc tc e dim' r').
  { destruct (create_reader a (Some x) bc tc (Some e) pr dim' (mk_world (mk_file p 0) [])) as (o & w') eqn:EC. cbn [fst] in C. subst o. exists a, pr, [], w'. exact EC. }
  assert (RC : readable p (Some x) bc tc) by (apply (readable_cut p z); now rewrite <- D).
  destruct (opens_opened p (Some x) bc tc e dim' r' RC OP') as (x' & ts' & t' & X' & O').
  assert (TR' : traces_of p tc e r' t' ts') by (split; [exact (op_type _ _ _ _ _ _ _ _ _ O')|exact (op_traces _ _ _ _ _ _ _ _ _ O')]).
  rewrite D in RD, OP, TR.
  destruct (cut_reading p z (Some x) bc tc e dim r t ts RD OP TR dim' r' t' ts' OP' TR') as (KP & ET & TX & EX & SF & RV & _). subst t'.
  exists (zlen p), ts'. split; [exact KP|]. split; [exact (op_nonempty _ _ _ _ _ _ _ _ _ O')|]. split; [exact (rd_num _ _ _ _ _ _ _ _ _ O')|].
  repeat (split; [assumption|]). intros k K f ov native b c.
  destruct (nth_error ts' (Z.to_nat k)) as [tr|] eqn:NT; [|apply nth_error_None in NT; unfold zlen in K; lia].
  assert (TK' : trace_of ts' k tr) by (split; assumption). assert (TK : trace_of ts k tr) by (destruct KP as (lost & -> & _); now apply trace_of_app).
  destruct (same_place p (p ++ z) (Some x) (Some x) bc bc tc e dim' dim r' r t ts' ts k tr tr RC OP' TR' RD OP TR TK' TK eq_refl eq_refl f) as (H1 & H2). split; [apply H1|apply H2].
Qed.
Print Assumptions C142_traces_partial.

(* The file of two traces of Props_Now.v; the fourth read, that of the header of
   the second trace, gives 100 bytes: there is a reader, and it has one trace. *)
Definition halting (i : nat) : Z := if (i =? 3)%nat then 100 else 5000.
Lemma halting_giving : giving halting.
Proof. intros i. unfold halting. destruct (i =? 3)%nat; lia. Qed.
Definition whole_file : list Z := begun 8 0.
Definition open_whole (s : nat -> Z) : res reader :=
  piecemeal whole_file s (open_steps (S (length whole_file)) (S (S (length whole_file))) (mk_attrs false false true) (Some ASCII) BinaryReelHeader TraceHeaderRev1 (Some Big) NoProgress None) 0 0.
Lemma whole_readable : readable whole_file (Some ASCII) BinaryReelHeader TraceHeaderRev1.
Proof.
  split; [|split; [apply binary_reel_format|split; [apply rev1_trace_format|intros x [= <-]; now left]]]. apply bytesb_ok. vm_compute; reflexivity.
Qed.
Lemma halting_counts : match open_whole halting, open_whole (fun _ => 5000) with Ok r, Ok r' => (rd_num_traces r, rd_num_traces r') = (1, 2) | _, _ => False end.
Proof. vm_compute; reflexivity. Qed.

Lemma whole_short : zlen whole_file <= 5000.
Proof. vm_compute; discriminate. Qed.
Lemma open_both d (s : nat -> Z) a enc (bc tc : fmt) eo pr dim n log : fmt_length bc = Some n -> 0 <= n -> (forall i, zlen d <= s i) ->
  fst (create_reader a enc bc tc eo pr dim (mk_world (mk_file d 0) log)) = piecemeal d s (open_steps (S (length d)) (S (S (length d))) a enc bc tc eo pr dim) 0 0.
Proof. intros F N S. rewrite (whole_alone d s _ S 0 0 log). now rewrite (open_alone a enc bc tc eo pr dim d 0 log n F N ltac:(lia)). Qed.
Lemma reel_length : fmt_length BinaryReelHeader = Some 400.
Proof. reflexivity. Qed.

Theorem C142_opening_refuted : ~ forall d enc (bc tc : fmt) s a eo pr dim log, readable d enc bc tc -> giving s ->
  right_or_raised (fst (create_reader a enc bc tc eo pr dim (mk_world (mk_file d 0) log)))
    (piecemeal d s (open_steps (S (length d)) (S (S (length d))) a enc bc tc eo pr dim) 0 0).
Proof.
  intros H. pose proof (H whole_file (Some ASCII) BinaryReelHeader TraceHeaderRev1 halting (mk_attrs false false true) (Some Big) NoProgress None [] whole_readable halting_giving) as R. clear H.
  rewrite (open_both whole_file (fun _ => 5000) _ _ _ _ _ _ _ 400 [] reel_length ltac:(lia) (fun _ => whole_short)) in R.
  pose proof halting_counts as C. unfold open_whole in C.
  match type of R with right_or_raised ?x ?y => generalize dependent y; generalize dependent x end. intros o o' [->|(y & ->)] C; [|exact C].
  destruct o as [r'|]; [|exact C]. discriminate (eq_trans (f_equal fst (eq_sym C)) (f_equal snd C)).
Qed.
Print Assumptions C142_opening_refuted.

(* The file object takes 239 bytes of each write: write_segy returns as if all had
   been written, and the file is another one. *)
Definition taken (o : op) : op := match o with Put b => Put (firstn 239 b) | o => o end.
Lemma taken_partly l : partly (map taken l) l.
Proof. induction l as [|[p|b|x y] l IH]; cbn [map taken]; constructor; auto. lia. Qed.
Theorem C142_writing_refuted : ~ forall ds enc (tc : fmt) (e : endian) pr l log,
  partly l (fst (operations ds enc tc e pr)) -> snd (operations ds enc tc e pr) = Ok tt ->
  f_data (w_file (perform l (mk_world (mk_file [] 0) log))) = f_data (w_file (snd (write_segy ds enc tc e pr (mk_world (mk_file [] 0) log)))).
Proof.
  intros H. pose proof (H two_traces None TraceHeaderRev1 Big Callable _ [] (taken_partly _)) as E. clear H.
  assert (O : snd (operations two_traces None TraceHeaderRev1 Big Callable) = Ok tt) by (vm_compute; reflexivity). specialize (E O). apply (f_equal zlen) in E.
  assert (L1 : zlen (f_data (w_file (perform (map taken (fst (operations two_traces None TraceHeaderRev1 Big Callable))) (mk_world (mk_file [] 0) [])))) = 3600 + 2 * 243) by (vm_compute; reflexivity).
  assert (L2 : zlen (f_data (w_file (snd (write_segy two_traces None TraceHeaderRev1 Big Callable (mk_world (mk_file [] 0) []))))) = 3600 + 2 * 244) by (vm_compute; reflexivity).
  rewrite L1, L2 in E. clear O L1 L2. discriminate E.
Qed.
Print Assumptions C142_writing_refuted.

(* what is written, when all that is given is taken *)
Theorem C142_writing_partial : forall ds enc (tc : fmt) (e : endian) pr l log,
  partly l (fst (operations ds enc tc e pr)) ->
  (forall i b b', nth_error l i = Some (Put b') -> nth_error (fst (operations ds enc tc e pr)) i = Some (Put b) -> zlen b' = zlen b) ->
  (snd (operations ds enc tc e pr), perform l (mk_world (mk_file [] 0) log)) = write_segy ds enc tc e pr (mk_world (mk_file [] 0) log).
Proof.
  intros ds enc tc e pr l log P ALL. rewrite C137_operations. f_equal. f_equal. revert ALL. generalize (fst (operations ds enc tc e pr)) P. clear. intros l' P.
  induction P as [|b m l l' M P IH|p l l' P IH|x y l l' P IH]; intros ALL; [reflexivity|..]; (rewrite IH; [|intros i b1 b2 H1 H2; exact (ALL (S i) b1 b2 H1 H2)]); [|reflexivity..].
  specialize (ALL 0%nat b (firstn m b) eq_refl eq_refl). f_equal. f_equal. apply firstn_all2. unfold zlen in ALL. rewrite firstn_length in ALL. lia.
Qed.
Print Assumptions C142_writing_partial.

Example C142_example : giving halting /\ readable whole_file (Some ASCII) BinaryReelHeader TraceHeaderRev1 /\
  match open_whole halting with
  | Ok r => (rd_num_traces r, piecemeal whole_file (fun _ => 5000) (trace_samples_steps Little r 0 None None) 0 0, piecemeal whole_file (fun _ => 3) (trace_samples_steps Little r 0 None None) 0 0)
            = (1, Ok [RInt 1; RInt 2], Err EOFError)
  | _ => False end.
Proof. split; [exact halting_giving|]. split; [exact whole_readable|]. vm_compute; reflexivity. Qed.
