(* Proofs about the commands that only read a SEG Y file, and about timeslice.py. *)
From Coq Require Import String ZArith List Bool Lia ZifyBool ZifyNat.
From Verif Require Import Py PyFacts PyFloat IbmFloat Packing Spec_Packing PackFacts PackingFacts Formats FieldTypes FieldTypesFacts FileIO Text TextIO TextIOFacts Spec_Text Toolkit ToolkitFacts Spec_Segy Reader Spec_Reader
  ReaderFacts OpenFacts FormatFacts PositionFacts NumpyExt Spec_Numpy NumpyFacts Examples Spec_Examples ExamplesFacts Commands Spec_Commands CommandsFacts ReadCommands Spec_ReadCommands.
Import ListNotations.
Local Open Scope string_scope.
Open Scope list_scope.
Open Scope Z_scope.

Lemma reads_as_opens bc d r : reads_as bc d r -> opens d None bc TraceHeaderRev1 Big None r.
Proof. intros (w & E). do 4 eexists. exact E. Qed.
Lemma reads_as_one bc d r r' : reads_as bc d r -> reads_as bc d r' -> r = r'.
Proof. intros (w & E) (w' & E'). congruence. Qed.
Lemma formats_ok c d : all_bytes d -> readable d None (reel_format c) TraceHeaderRev1.
Proof.
  intros B. destruct (default_formats d B) as (_ & FB & FT & E). split; [exact B|]. split; [|split; [exact FT|exact E]].
  destruct c; try exact FB. exact custom_format.
Qed.
Lemma reads_traces bc d r : readable d None bc TraceHeaderRev1 -> reads_as bc d r -> exists t ts, traces_of d TraceHeaderRev1 Big r t ts.
Proof.
  intros RD O. destruct (opens_opened _ _ _ _ _ _ _ RD (reads_as_opens _ _ _ O)) as (x & ts & t & _ & OP). exists t, ts.
  split; [exact (op_type _ _ _ _ _ _ _ _ _ OP)|exact (op_traces _ _ _ _ _ _ _ _ _ OP)].
Qed.
Lemma traces_one bc d r t ts t' ts' : readable d None bc TraceHeaderRev1 -> reads_as bc d r -> traces_of d TraceHeaderRev1 Big r t ts ->
  traces_of d TraceHeaderRev1 Big r t' ts' -> t' = t /\ ts' = ts.
Proof.
  intros RD O T T'. destruct (opens_opened _ _ _ _ _ _ _ RD (reads_as_opens _ _ _ O)) as (x & ts0 & t0 & _ & OP). destruct RD as (_ & _ & TF & _).
  destruct (traces_opened _ _ _ _ _ _ _ _ _ _ _ TF OP T) as (-> & ->). exact (traces_opened _ _ _ _ _ _ _ _ _ _ _ TF OP T').
Qed.

Lemma rewritten s i : unchanged s (fs_write s i (fs_data s i)).
Proof. split; [reflexivity|]. intros j. cbn [fs_write fs_data]. destruct (Z.eqb_spec j i) as [->|]; reflexivity. Qed.

(* opening a file leaves its contents alone *)
Lemma create_keeps bc d : readable d None bc TraceHeaderRev1 ->
  exists q log, snd (create_reader file_opened None bc TraceHeaderRev1 (Some Big) NoProgress None (mk_world (mk_file d 0) [])) = mk_world (mk_file d q) log.
Proof.
  intros RD. destruct (encoding_exists None d) as (x & X).
  destruct (checks_cases file_opened (Some Big) NoProgress None (mk_file d 0) [] ltac:(cbn; lia)) as [(e' & [= <-] & A & L & P & D)|(y & E)].
  - destruct (create_reader_total file_opened None bc TraceHeaderRev1 Big NoProgress None d [] x RD A L P D X) as (r & q & log' & R & _).
    rewrite R. cbn [snd]. eauto.
  - unfold create_reader. erewrite wbind_err by exact E. cbn [snd]. eauto.
Qed.

Section Examine.
Variables (A : Type) (s : fs) (name : string) (bc : fmt) (work : reader -> io A) (i : Z).
Hypothesis I : open_rb s name = inl i.
Hypothesis RD : readable (fs_data s i) None bc TraceHeaderRev1.

Lemma examine_closed : (forall r, ~ reads_as bc (fs_data s i) r) -> exists y s', examine s name bc work = (inr (Raised y), s') /\ unchanged s s'.
Proof.
  intros N. unfold examine. rewrite I. destruct (create_keeps bc _ RD) as (q & log & E).
  destruct (create_reader file_opened None bc TraceHeaderRev1 (Some Big) NoProgress None (mk_world (mk_file (fs_data s i) 0) [])) as [[r|y] w] eqn:C.
  - destruct (N r). now exists w.
  - rewrite (wbind_err _ _ _ _ _ C). cbn [snd] in E. subst w. cbn [w_file f_data]. exists y. eexists. split; [reflexivity|]. apply rewritten.
Qed.
Lemma examine_open r : reads_as bc (fs_data s i) r -> exists q, forall x q', work r (mk_file (fs_data s i) q) = (x, mk_file (fs_data s i) q') ->
  exists s', examine s name bc work = (match x with Ok a => inl a | Err y => inr (Raised y) end, s') /\ unchanged s s'.
Proof.
  intros (w & C). destruct (create_keeps bc _ RD) as (q & log & E). unfold file_opened in E. rewrite C in E. cbn [snd] in E. subst w.
  exists q. intros x q' W. unfold examine. rewrite I. unfold file_opened. rewrite (wbind_ok _ _ _ _ _ C).
  unfold on_file. cbn [w_file w_log]. rewrite W. cbn [w_file f_data]. eexists. split; [reflexivity|]. apply rewritten.
Qed.
Lemma examine_reads r P : reads_as bc (fs_data s i) r -> NumpyFacts.reads (fs_data s i) (work r) P ->
  exists a s', examine s name bc work = (inl a, s') /\ P a /\ unchanged s s'.
Proof.
  intros O R. destruct (examine_open r O) as (q & H). destruct (R q) as (a & q' & E & HP). destruct (H _ _ E) as (s' & EX & U). eauto.
Qed.
Lemma examine_fails r y : reads_as bc (fs_data s i) r -> fails (fs_data s i) (work r) y ->
  exists s', examine s name bc work = (inr (Raised y), s') /\ unchanged s s'.
Proof.
  intros O R. destruct (examine_open r O) as (q & H). destruct (R q) as (q' & E). destruct (H _ _ E) as (s' & EX & U). eauto.
Qed.
End Examine.

(* what is done with an open file succeeds or fails *)
Lemma rev1_cdp : has_field TraceHeaderRev1 "cdp_x" /\ has_field TraceHeaderRev1 "cdp_y".
Proof.
  assert (C : class_ok TraceHeaderRev1) by (apply FormatFacts.shipped_ok; cbn; auto).
  split; (eapply has_field_by; [exact C|vm_compute; reflexivity]).
Qed.

Section Inspect.
Variables (native : endian) (d : list Z) (bc : fmt) (r : reader) (t : segytype) (ts : list tinfo).
Hypothesis RD : readable d None bc TraceHeaderRev1.
Hypothesis O : reads_as bc d r.
Hypothesis TR : traces_of d TraceHeaderRev1 Big r t ts.

Lemma report_reads : NumpyFacts.reads d (run _ <- lift (report_of r) ;; ret tt) (fun _ => True).
Proof.
  destruct (report_ok d None bc TraceHeaderRev1 Big None r t ts RD (reads_as_opens _ _ _ O) TR eq_refl) as (su & _ & _ & _ & E & _).
  eapply reads_lift_bind; [exact E|]. apply reads_ret. exact Logic.I.
Qed.
Lemma cut_fails k tr : trace_of ts k tr -> ~ whole d t tr -> fails d (rd_trace_samples native r k None None) EOFError.
Proof.
  intros K W. destruct (placed_trace d None bc TraceHeaderRev1 Big None r t ts RD (reads_as_opens _ _ _ O) TR tr (trace_in ts k tr K)) as (P & C).
  pose proof (sample_size_pos t) as SP. unfold whole in W. intros q.
  destruct (samples_ok d None bc TraceHeaderRev1 Big None r t ts RD (reads_as_opens _ _ _ O) TR native k None None q) as (q' & EF & SO).
  destruct (rd_trace_samples native r k None None (mk_file d q)) as [x f'] eqn:E. cbn [fst snd] in *. subst f'.
  inversion SO as [N|tr' K' N|tr' K' N1 N2 N3|tr' ss K' N1 N2 N3 ZL SA]; subst; cbn [or_else] in *;
    try (pose proof (trace_of_unique _ _ _ _ K K') as <-).
  - destruct K as (K & _). lia.
  - lia.
  - eauto.
  - nia.
Qed.
Lemma one_trace k tr : trace_of ts k tr ->
  (whole d t tr /\ NumpyFacts.reads d (rd_trace_samples native r k None None) (fun _ => True)) \/
  (~ whole d t tr /\ fails d (rd_trace_samples native r k None None) EOFError).
Proof.
  intros K. assert (W : whole d t tr \/ ~ whole d t tr) by (unfold whole; lia). destruct W as [W|W]; [left|right; split; [exact W|now apply cut_fails with tr]].
  split; [exact W|]. eapply reads_weaken; [apply (all_read d None bc TraceHeaderRev1 Big None r t ts native RD (reads_as_opens _ _ _ O) TR k tr K)|auto]; [|exact W].
  now apply (placed_trace d None bc TraceHeaderRev1 Big None r t ts RD (reads_as_opens _ _ _ O) TR tr (trace_in ts k tr K)).
Qed.
Lemma indexed k : In k (rd_trace_indexes r) <-> 0 <= k < zlen ts.
Proof. exact (in_indexes d None bc TraceHeaderRev1 Big None r t ts RD (reads_as_opens _ _ _ O) TR k). Qed.
Lemma timed_reads : (forall tr, In tr ts -> whole d t tr) ->
  NumpyFacts.reads d (run _ <- map_io (fun k => rd_trace_samples native r k None None) (rd_trace_indexes r) ;; ret tt) (fun _ => True).
Proof.
  intros W. eapply reads_bind; [|intros; apply reads_ret; exact Logic.I]. apply reads_map with (P := fun _ _ => True). intros k K. apply indexed in K. destruct (trace_of_exists ts k K) as (tr & TO).
  destruct (one_trace k tr TO) as [(_ & R)|(N & _)]; [exact R|]. destruct (N (W tr (trace_in ts k tr TO))).
Qed.
Lemma timed_fails tr : In tr ts -> ~ whole d t tr ->
  fails d (run _ <- map_io (fun k => rd_trace_samples native r k None None) (rd_trace_indexes r) ;; ret tt) EOFError.
Proof.
  intros T W. apply fails_bind. apply fails_map.
  - intros k K. apply indexed in K. destruct (trace_of_exists ts k K) as (tr' & TO). destruct (one_trace k tr' TO) as [(_ & R)|(_ & F)]; auto.
  - apply in_trace_of in T. destruct T as (k & TO). exists k. split; [apply indexed; apply TO|]. now apply cut_fails with tr.
Qed.
Lemma whole_dec : (forall tr, In tr ts -> whole d t tr) \/ exists tr, In tr ts /\ ~ whole d t tr.
Proof.
  clear. induction ts as [|tr l [H|(tr' & I & W)]]; [left; intros ? []| |right; exists tr'; split; [now right|exact W]].
  assert (W : whole d t tr \/ ~ whole d t tr) by (unfold whole; lia). destruct W as [W|W]; [left|right; exists tr; split; [now left|exact W]].
  intros tr' [<-|I]; auto.
Qed.
End Inspect.

Lemma bad_dec d bc r t ts : readable d None bc TraceHeaderRev1 -> reads_as bc d r -> traces_of d TraceHeaderRev1 Big r t ts ->
  (forall tr n, In tr ts -> ~ bad_field_at TraceHeaderRev1 Big d (t_pos tr) n) \/ exists tr n, In tr ts /\ bad_field_at TraceHeaderRev1 Big d (t_pos tr) n.
Proof.
  intros RD O TR. destruct rev1_cdp as (HX & HY).
  pose proof (one_position d None bc TraceHeaderRev1 Big None r t ts Big RD (reads_as_opens _ _ _ O) TR HX HY) as OP.
  pose proof (positions_fail d None bc TraceHeaderRev1 Big None r t ts Big RD (reads_as_opens _ _ _ O) TR HX HY) as PF.
  set (one := fun k => run h <- rd_trace_header r k None ;; run x <- lift (hdr_get h "cdp_x") ;; run y <- lift (hdr_get h "cdp_y") ;; ret (k, (x, y))).
  assert (D : (forall k, In k (rd_trace_indexes r) -> NumpyFacts.reads d (one k) (fun _ => True)) \/ exists tr n, In tr ts /\ bad_field_at TraceHeaderRev1 Big d (t_pos tr) n).
  { assert (IX : forall k, In k (rd_trace_indexes r) -> 0 <= k < zlen ts) by (intros k; now apply (indexed d bc r t ts RD O TR)).
    revert IX. generalize (rd_trace_indexes r). intros ks. induction ks as [|k ks IH]; intros IX; [left; intros ? []|].
    destruct IH as [IH|IH]; [intros; apply IX; now right| |right; exact IH].
    destruct (trace_of_exists ts k (IX k (or_introl eq_refl))) as (tr & TO).
    destruct (OP k tr TO) as [R|(_ & n & B)]; [left|right; exists tr, n; split; [now apply trace_in with k|exact B]].
    intros k' [<-|I]; [|now apply IH]. eapply reads_weaken; [exact R|auto]. }
  destruct D as [R|B]; [left|right; exact B]. intros tr n I B. specialize (PF tr n I B).
  assert (RM := reads_map d one (fun _ _ => True) (rd_trace_indexes r) R). destruct (RM 0) as (l & q & E & _). destruct (PF 0) as (q' & E').
  unfold trace_positions in E'. fold one in E'. congruence.
Qed.

Lemma inspect_cases native c d r : all_bytes d -> reads_as (reel_format c) d r ->
  (printable c d /\ NumpyFacts.reads d (inspect native c r) (fun _ => True)) \/ (~ printable c d /\ exists y, fails d (inspect native c r) y).
Proof.
  intros B O. assert (RD := formats_ok c d B). destruct (reads_traces _ _ _ RD O) as (t & ts & TR).
  destruct c; cbn [reel_format printable inspect] in *.
  - left. split; [eauto|]. exact (report_reads d BinaryReelHeader r t ts RD O TR).
  - left. split; [eauto|]. exact (report_reads d CustomBinaryReelHeader r t ts RD O TR).
  - destruct (whole_dec d t ts) as [W|(tr & I & W)]; [left|right].
    + split; [exists r, t, ts; auto|]. exact (timed_reads native d BinaryReelHeader r t ts RD O TR W).
    + split; [|exists EOFError; exact (timed_fails native d BinaryReelHeader r t ts RD O TR tr I W)].
      intros (r' & t' & ts' & O' & TR' & W'). assert (r' = r) as -> by now apply (reads_as_one BinaryReelHeader d).
      destruct (traces_one _ _ _ _ _ _ _ RD O TR TR') as (-> & ->). exact (W (W' tr I)).
  - destruct rev1_cdp as (HX & HY). destruct (bad_dec d _ r t ts RD O TR) as [N|(tr & n & I & W)]; [left|right].
    + split; [exists r, t, ts; auto|]. eapply reads_bind; [|intros; apply reads_ret; exact Logic.I].
      exact (positions_read d None _ TraceHeaderRev1 Big None r t ts native RD (reads_as_opens _ _ _ O) TR HX HY N).
    + split; [|exists EOFError; apply fails_bind; exact (positions_fail d None _ TraceHeaderRev1 Big None r t ts native RD (reads_as_opens _ _ _ O) TR HX HY tr n I W)].
      intros (r' & t' & ts' & O' & TR' & W'). assert (r' = r) as -> by now apply (reads_as_one BinaryReelHeader d).
      destruct (traces_one _ _ _ _ _ _ _ RD O TR TR') as (-> & ->). exact (W' tr n I W).
Qed.
Lemma printable_opens c d : printable c d -> exists r, reads_as (reel_format c) d r.
Proof. destruct c; cbn [printable reel_format]; [auto|auto|intros (r & _ & _ & O & _); eauto..]. Qed.
Lemma opens_dec bc d : (exists r, reads_as bc d r) \/ forall r, ~ reads_as bc d r.
Proof.
  unfold reads_as. destruct (create_reader (mk_attrs false false true) None bc TraceHeaderRev1 (Some Big) NoProgress None (mk_world (mk_file d 0) [])) as [[r|y] w]; [left; eauto|].
  right. intros r (w' & E). discriminate.
Qed.

Section Main.
Variables (native : endian) (c : inspector) (argv : list string) (s : fs).

Lemma inspect_usage : (forall name, ~ given c argv name) -> main_inspect native c argv s = (match c with TracePositions => 2 | _ => 64 end, s).
Proof.
  intros N. destruct c; destruct argv as [|name more]; try reflexivity; try (destruct (N name); constructor).
  destruct more; [destruct (N name); constructor|reflexivity].
Qed.
Lemma main_examines name : given c argv name -> main_inspect native c argv s =
  let (x, s') := examine s name (reel_format c) (inspect native c) in (exit_code (match x with inl _ => Finished | inr y => y end), s').
Proof. destruct 1; reflexivity. Qed.
Lemma inspect_not_opened name e : given c argv name -> open_rb s name = inr e -> main_inspect native c argv s = (refusal e, s).
Proof. intros G H. rewrite (main_examines name G). unfold examine. rewrite H. now destruct e. Qed.

Hypothesis B : sound s.
Lemma inspect_opened name i : given c argv name -> open_rb s name = inl i ->
  exists code s', main_inspect native c argv s = (code, s') /\ unchanged s s' /\
    ((code = 0 /\ printable c (fs_data s i)) \/ (code = 70 /\ ~ printable c (fs_data s i))).
Proof.
  intros G I. rewrite (main_examines name G). assert (RD := formats_ok c _ (B i)).
  destruct (opens_dec (reel_format c) (fs_data s i)) as [(r & O)|N].
  - destruct (inspect_cases native c _ r (B i) O) as [(P & R)|(P & y & F)].
    + destruct (examine_reads _ s name _ (inspect native c) i I RD r _ O R) as (a & s' & -> & _ & U). exists 0, s'. auto.
    + destruct (examine_fails _ s name _ (inspect native c) i I RD r y O F) as (s' & -> & U). exists 70, s'. auto.
  - destruct (examine_closed _ s name _ (inspect native c) i I RD N) as (y & s' & -> & U). exists 70, s'. split; [reflexivity|]. split; [exact U|].
    right. split; [reflexivity|]. intros P. destruct (printable_opens c _ P) as (r & O). exact (N r O).
Qed.
Lemma inspect_keeps : unchanged s (snd (main_inspect native c argv s)).
Proof.
  assert (R : unchanged s s) by (split; reflexivity).
  assert (D : (exists name, given c argv name) \/ forall name, ~ given c argv name).
  { destruct c; destruct argv as [|n [|n' more]]; try (left; eexists; constructor); right; inversion 1. }
  destruct D as [(name & G)|N]; [|now rewrite (inspect_usage N)].
  destruct (open_rb s name) as [i|e] eqn:O; [|now rewrite (inspect_not_opened name e G O)].
  destruct (inspect_opened name i G O) as (code & s' & -> & U & _). exact U.
Qed.
End Main.

(* ---------------- timeslice.py ---------------- *)

Lemma npy_suffix stem : (String.length (stem ++ ".npy") = String.length stem + 4)%nat /\ substring (String.length stem) 4 (stem ++ ".npy") = ".npy".
Proof. induction stem as [|a stem (L & S)]; [split; reflexivity|]. cbn [append String.length substring]. rewrite L. auto. Qed.
Lemma substring_all n w : (String.length w <= n)%nat -> substring 0 n w = w.
Proof. revert w. induction n as [|n IH]; intros [|a w]; cbn [String.length substring]; intros L; try reflexivity; [lia|]. now rewrite IH by lia. Qed.
Lemma split_at n w : (n <= String.length w)%nat -> exists a b, (w = a ++ b)%string /\ String.length a = n /\ substring n (String.length w - n) w = b.
Proof.
  revert w. induction n as [|n IH]; intros w L.
  - exists "", w. split; [reflexivity|]. split; [reflexivity|]. apply substring_all. lia.
  - destruct w as [|a w]; cbn [String.length] in L; [lia|]. destruct (IH w ltac:(lia)) as (x & y & E & LX & SY).
    exists (String a x), y. split; [cbn; congruence|]. split; [cbn; congruence|]. cbn [String.length substring]. exact SY.
Qed.
Lemma npy_named out : npy_file out (npy_name out).
Proof.
  unfold npy_name. destruct (String.eqb_spec (substring (String.length out - 4) 4 out) ".npy") as [E|E].
  - left. destruct (Nat.le_gt_cases 4 (String.length out)) as [L|L].
    + destruct (split_at (String.length out - 4) out ltac:(lia)) as (a & b & EO & LA & SB). replace (String.length out - (String.length out - 4))%nat with 4%nat in SB by lia.
      rewrite E in SB. subst b. exists a. auto.
    + exfalso. replace (String.length out - 4)%nat with 0%nat in E by lia. rewrite substring_all in E by lia. subst out. cbn in L. lia.
  - right. split; [|reflexivity]. intros stem ->. apply E. destruct (npy_suffix stem) as (L & S). rewrite L. now replace (String.length stem + 4 - 4)%nat with (String.length stem) by lia.
Qed.
Lemma append_inj a b c : (a ++ c = b ++ c)%string -> String.length a = String.length b -> a = b.
Proof. revert b. induction a as [|x a IH]; intros [|y b] E L; cbn in *; try discriminate; [reflexivity|]. injection E as -> E. f_equal. apply IH; auto. Qed.
Lemma npy_one out name name' : npy_file out name -> npy_file out name' -> name = name'.
Proof. intros [(st & E & ->)|(N & ->)] [(st' & E' & ->)|(N' & ->)]; auto; [now destruct (N' st)|now destruct (N st')]. Qed.

Section Slice.
Variables (native : endian) (save : segytype -> array2 real -> list Z) (segy out : string) (n : Z) (s : fs).
Notation run_it := (main_timeslice native save segy out n s).
Notation work := (fun r => run t <- lift (sample_format (rd_binary r)) ;; run a <- timeslice native r n ;; ret (t, a)).

Lemma slice_no_input e : open_rb s segy = inr e -> run_it = (refusal e, s).
Proof. intros H. unfold main_timeslice, examine. rewrite H. now destruct e. Qed.

Hypothesis B : sound s.
Variables (i : Z).
Hypothesis I : open_rb s segy = inl i.

Lemma slice_cases : (exists t a s', examine s segy BinaryReelHeader work = (inl (t, a), s') /\ unchanged s s' /\ sliced_at (fs_data s i) n t a) \/
  (exists y s', examine s segy BinaryReelHeader work = (inr (Raised y), s') /\ unchanged s s' /\ forall t a, ~ sliced_at (fs_data s i) n t a).
Proof.
  set (d := fs_data s i). assert (RD : readable d None BinaryReelHeader TraceHeaderRev1) by (apply default_formats, B).
  destruct (opens_dec BinaryReelHeader d) as [(r & O)|N].
  2:{ right. destruct (examine_closed _ s segy _ work i I RD N) as (y & s' & E & U). exists y, s'. split; [exact E|]. split; [exact U|].
      intros t a (r & _ & _ & _ & _ & O & _). exact (N r O). }
  destruct (reads_traces _ _ _ RD O) as (t & ts & TR).
  assert (OP := reads_as_opens _ _ _ O). assert (FM := format_of d TraceHeaderRev1 Big r t ts TR).
  assert (ONE : forall t' a, sliced_at d n t' a -> exists m rows cols, t' = t /\
    NoDup (map (fun t => (t_inline t, t_xline t)) ts) /\ greatest (map t_count ts) m /\ 0 <= n < m /\ (forall tr, In tr ts -> whole d t tr) /\
    ascending_items (map t_inline ts) rows /\ ascending_items (map t_xline ts) cols /\ grid (slice_cell d Big t ts n) rows cols a).
  { intros t' a (r' & ts' & m & rows & cols & O' & TR' & H). assert (r' = r) as -> by now apply (reads_as_one BinaryReelHeader d).
    destruct (traces_one _ _ _ _ _ _ _ RD O TR TR') as (-> & ->). exists m, rows, cols. tauto. }
  assert (FAIL : forall y, fails d (timeslice native r n) y -> (forall t a, ~ sliced_at d n t a) ->
    (exists y s', examine s segy BinaryReelHeader work = (inr (Raised y), s') /\ unchanged s s' /\ forall t a, ~ sliced_at (fs_data s i) n t a)).
  { intros y F NS. destruct (examine_fails _ s segy _ work i I RD r y O) as (s' & E & U); [|eauto 6].
    eapply fails_lift_bind; [exact FM|]. apply fails_bind. exact F. }
  assert (DM := natural d None _ TraceHeaderRev1 Big None r t ts RD OP TR eq_refl). destruct DM as ((D1 & D2) & _).
  destruct (Z.eq_dec (rd_dimensionality r) 3) as [D3|D3].
  2:{ right. apply (FAIL KeyError); [exact (slice_not_3d d TraceHeaderRev1 Big r t ts native TR n D3)|].
      intros t' a SL. destruct (ONE t' a SL) as (m & rows & cols & _ & ND & _). apply D3. now apply D2. }
  assert (ND := D1 D3).
  destruct (counts_ok d None _ TraceHeaderRev1 Big None r t ts RD OP TR) as (_ & _ & _ & _ & m & EM & _).
  assert (GM := greatest_count d None _ TraceHeaderRev1 Big None r t ts RD OP TR m EM).
  assert (NN : 0 <= n < m \/ ~ 0 <= n < m) by lia. destruct NN as [NN|NN].
  2:{ right. apply (FAIL ValueError); [exact (slice_outside d None _ TraceHeaderRev1 Big None r t ts native RD OP TR ND (or_introl eq_refl) n m GM NN)|].
      intros t' a SL. destruct (ONE t' a SL) as (m' & rows & cols & _ & _ & (G1 & G2) & L & _). destruct GM as (G3 & G4). specialize (G4 m' G1). lia. }
  destruct (whole_dec d t ts) as [W|(tr & IT & W)].
  2:{ right. apply (FAIL EOFError); [exact (slice_cut d None _ TraceHeaderRev1 Big None r t ts native RD OP TR ND (or_introl eq_refl) n m tr GM NN IT W)|].
      intros t' a SL. destruct (ONE t' a SL) as (m' & rows & cols & _ & _ & _ & _ & W' & _). exact (W (W' tr IT)). }
  left. assert (SR := slice_reads d None _ TraceHeaderRev1 Big None r t ts native RD OP TR ND (or_introl eq_refl) n m GM NN W).
  destruct (examine_reads _ s segy _ work i I RD r (fun p => sliced_at d n (fst p) (snd p)) O) as ((t' & a) & s' & E & S' & U).
  - eapply reads_lift_bind; [exact FM|]. eapply reads_bind; [exact SR|]. intros a (rows & cols & G). apply reads_ret. cbn [fst snd].
    exists r, ts, m, rows, cols. tauto.
  - exists t', a, s'. auto.
Qed.

Lemma slice_none : (forall t a, ~ sliced_at (fs_data s i) n t a) -> exists s', run_it = (70, s') /\ unchanged s s'.
Proof.
  intros N. destruct slice_cases as [(t & a & s' & _ & _ & S')|(y & s' & E & U & _)]; [destruct (N t a S')|]. exists s'. unfold main_timeslice. rewrite E. auto.
Qed.
Lemma slice_saved : (exists t a, sliced_at (fs_data s i) n t a) -> forall name, npy_file out name ->
  (forall e, open_wb s name = inr e -> exists s', run_it = (refusal e, s') /\ unchanged s s') /\
  (forall o, open_wb s name = inl o -> exists t a s', run_it = (0, s') /\ sliced_at (fs_data s i) n t a /\ only_written s name o (save t a) s').
Proof.
  intros (t0 & a0 & S0) name NM. rewrite (npy_one _ _ _ NM (npy_named out)).
  destruct slice_cases as [(t & a & s1 & E & (U1 & U2) & S1)|(_ & _ & _ & _ & N)]; [|destruct (N t0 a0 S0)].
  assert (WB : open_wb s1 (npy_name out) = open_wb s (npy_name out)) by (unfold open_wb; now rewrite U1).
  split; intros x H; unfold main_timeslice; rewrite E, WB, H.
  - exists s1. destruct x; (split; [reflexivity|split; assumption]).
  - exists t, a. eexists. split; [reflexivity|]. split; [exact S1|].
    destruct (only_overwritten _ _ _ _ (save t a) _ (only_created s1 (npy_name out) x ltac:(now rewrite WB))) as (W1 & W2 & W3 & W4).
    split; [exact W1|]. split; [intros j J; rewrite (W2 j J); apply U2|]. split; [intros m M; rewrite (W3 m M); apply U1|]. now rewrite W4, U1.
Qed.
End Slice.

(* ---------------- custom_header.py ---------------- *)

Definition agree (h h' : header) : Prop := forall f, is_field BinaryReelHeader f -> hdr_get h' (fd_name f) = hdr_get h (fd_name f).
Lemma agree_named h h' nm : agree h h' -> has_field BinaryReelHeader nm -> hdr_get h' nm = hdr_get h nm.
Proof. intros A (f & F & <-). now apply A. Qed.
Lemma base_has : has_field BinaryReelHeader "data_sample_format" /\ has_field BinaryReelHeader "num_extended_textual_headers" /\ has_field BinaryReelHeader "format_revision_num".
Proof.
  assert (C : class_ok BinaryReelHeader) by (apply FormatFacts.shipped_ok; cbn; auto).
  repeat split; (eapply has_field_by; [exact C|vm_compute; reflexivity]).
Qed.
Definition with_binary (r : reader) (h : header) : reader :=
  mk_reader (rd_kind r) (rd_text r) h (rd_ext r) (rd_offsets r) (rd_lengths r) (rd_packer r) (rd_encoding r) (rd_endian r) (rd_revision r) (rd_bps r).
Lemma agree_parts h h' : agree h h' -> num_extended_textual_headers h' = num_extended_textual_headers h /\ bytes_per_sample h' = bytes_per_sample h /\
  extract_revision h' = extract_revision h /\ sample_format h' = sample_format h.
Proof.
  intros A. destruct base_has as (H1 & H2 & H3). unfold num_extended_textual_headers, bytes_per_sample, extract_revision, sample_format.
  now rewrite (agree_named h h' _ A H1), (agree_named h h' _ A H2), (agree_named h h' _ A H3).
Qed.
Lemma rest_agree tx h h' x tc e dim w r w' : agree h h' -> rest tx h x tc e dim w = (Ok r, w') -> rest tx h' x tc e dim w = (Ok (with_binary r h'), w').
Proof.
  intros A. destruct (agree_parts h h' A) as (P1 & P2 & P3 & _). unfold rest. rewrite P1, P2.
  intros R. apply wbind_inv in R. destruct R as (n & w1 & R1 & R). rewrite (wbind_ok _ _ _ _ _ R1).
  apply wbind_inv in R. destruct R as (ext & w2 & R2 & R). rewrite (wbind_ok _ _ _ _ _ R2).
  apply wbind_inv in R. destruct R as (bps & w3 & R3 & R). rewrite (wbind_ok _ _ _ _ _ R3).
  apply wbind_inv in R. destruct R as ([[[offsets lengths] cdps] lines] & w4 & R4 & R). rewrite (wbind_ok _ _ _ _ _ R4). cbv zeta in R |- *.
  destruct (negb _); [discriminate|]. revert R. unfold on_file, lift, reader_init. rewrite P2, P3. destruct (make_header_packer tc e) as [p|]; [|discriminate]. cbn [bind].
  destruct (extract_revision h) as [rev|]; [|discriminate]. cbn [bind]. destruct (bytes_per_sample h) as [b|]; [|discriminate]. cbn [bind].
  intros R. injection R as <- <-. reflexivity.
Qed.
Lemma report_agree r h : agree (rd_binary r) h -> report_of (with_binary r h) = report_of r.
Proof. intros A. destruct (agree_parts _ _ A) as (_ & _ & _ & P). unfold report_of, format_description. cbn [with_binary rd_binary]. rewrite P. reflexivity. Qed.

Lemma rest_binary tx h x tc e dim w r w' : rest tx h x tc e dim w = (Ok r, w') -> rd_binary r = h.
Proof.
  unfold rest. intros R. apply wbind_inv in R. destruct R as (n & w1 & R1 & R). apply wbind_inv in R. destruct R as (ext & w2 & R2 & R).
  apply wbind_inv in R. destruct R as (bps & w3 & R3 & R). apply wbind_inv in R. destruct R as ([[[offsets lengths] cdps] lines] & w4 & R4 & R). cbv zeta in R.
  destruct (negb _); [discriminate|]. revert R. unfold on_file, lift, reader_init. destruct (make_header_packer tc e) as [p|]; [|discriminate]. cbn [bind].
  destruct (extract_revision h) as [rev|]; [|discriminate]. cbn [bind]. destruct (bytes_per_sample h) as [b|]; [|discriminate]. cbn [bind].
  intros R. injection R as <- <-. reflexivity.
Qed.

(* opening a file in steps *)
Definition steps (p : packer) (d : list Z) (r : reader) : Prop :=
  exists x tx h w, encoding_used None d x /\ 3600 <= zlen d /\ read_textual_reel_header x (mk_file d 0) = (Ok tx, mk_file d 3200) /\ pk_unpack p (block d 3200 400) = Ok h /\
    rest tx h x TraceHeaderRev1 Big None (mk_world (mk_file d 3600) []) = (Ok r, w).
Lemma binary_step bc p d : make_header_packer bc Big = Ok p -> fmt_length bc = Some 400 -> 3600 <= zlen d ->
  read_binary_reel_header bc Big (mk_file d 3200) = (pk_unpack p (block d 3200 400), mk_file d 3600).
Proof.
  intros P L ZL. unfold read_binary_reel_header. erewrite ibind_ok by (unfold lift; rewrite P; reflexivity). rewrite L.
  erewrite ibind_ok by (apply read_opt_some; lia). rewrite block_slice by lia.
  assert (LB : zlen (block d 3200 400) = 400) by (unfold block; rewrite zlen_firstn, zlen_skipn; lia). rewrite LB. reflexivity.
Qed.
Lemma reads_steps bc p d r : make_header_packer bc Big = Ok p -> fmt_length bc = Some 400 -> reads_as bc d r <-> steps p d r.
Proof.
  intros P L. destruct (encoding_exists None d) as (x & X).
  assert (SX : supported x) by (apply (guessed_supported None d x); [discriminate|exact X]).
  split.
  - intros (w & C). assert (ZL := opens_length _ _ _ _ _ _ _ (reads_as_opens _ _ _ (ex_intro _ w C))).
    unfold create_reader in C. rewrite (wbind_ok _ _ _ _ _ (checks_pass (mk_attrs false false true) Big NoProgress None d [] ltac:(repeat split) ZL ltac:(discriminate) ltac:(discriminate))) in C.
    apply wbind_inv in C. destruct C as (r' & w1 & M & C). apply wbind_inv in C. destruct C as (u & w2 & _ & C). injection C as <- _.
    rewrite (make_reader_enc _ _ _ _ _ _ _ _ X), make_reader_parts in M.
    destruct (read_text_at x d SX ltac:(lia)) as [(_ & q & R)|(tx & _ & R)]; [rewrite (wbind_err _ _ _ _ _ (on_file_ok _ _ _ _ _ R)) in M; discriminate|].
    rewrite (wbind_ok _ _ _ _ _ (on_file_ok _ _ _ _ _ R)) in M.
    apply wbind_inv in M. destruct M as (h & w3 & RB & M). rewrite (on_file_ok _ _ _ _ _ (binary_step bc p d P L ZL)) in RB. injection RB as U <-.
    rewrite (wbind_ok _ _ _ _ _ (on_file_ok _ _ _ _ _ (seek_ok 3600 _ ltac:(discriminate)))) in M. cbn [f_data] in M.
    exists x, tx, h, w1. auto 10.
  - intros (x' & tx & h & w & X' & ZL & R & U & M).
    unfold reads_as, create_reader. rewrite (wbind_ok _ _ _ _ _ (checks_pass (mk_attrs false false true) Big NoProgress None d [] ltac:(repeat split) ZL ltac:(discriminate) ltac:(discriminate))).
    assert (MR : make_reader None bc TraceHeaderRev1 Big None (mk_world (mk_file d 0) []) = (Ok r, w)).
    { rewrite (make_reader_enc _ _ _ _ _ _ _ _ X'), make_reader_parts. rewrite (wbind_ok _ _ _ _ _ (on_file_ok _ _ _ _ _ R)).
      assert (RB := binary_step bc p d P L ZL). rewrite U in RB. rewrite (wbind_ok _ _ _ _ _ (on_file_ok _ _ _ _ _ RB)).
      rewrite (wbind_ok _ _ _ _ _ (on_file_ok _ _ _ _ _ (seek_ok 3600 _ ltac:(discriminate)))). exact M. }
    rewrite (wbind_ok _ _ _ _ _ MR). eexists. reflexivity.
Qed.

Lemma block_bytes d a n : 0 <= a -> 0 <= n -> all_bytes d -> all_bytes (block d a n).
Proof. intros A N B. rewrite <- block_slice by lia. now apply all_bytes_slice. Qed.
Lemma reel_packers : exists p q, make_header_packer BinaryReelHeader Big = Ok p /\ make_header_packer CustomBinaryReelHeader Big = Ok q.
Proof.
  destruct (default_formats []) as (_ & ((_ & _ & _ & _ & _ & M) & _) & _); [constructor|]. destruct custom_format as ((_ & _ & _ & _ & _ & M') & _).
  destruct (M Big) as (p & P). destruct (M' Big) as (q & Q). eauto.
Qed.
Lemma custom_opens d r : all_bytes d -> reads_as BinaryReelHeader d r ->
  exists r', reads_as CustomBinaryReelHeader d r' /\ report_of r' = report_of r /\ agree (rd_binary r) (rd_binary r').
Proof.
  intros B O. destruct reel_packers as (p & q & P & Q). apply (reads_steps _ p d r P eq_refl) in O. destruct O as (x & tx & h & w & X & ZL & R & U & M).
  destruct (custom_reads Big p q (block d 3200 400) P Q ltac:(apply block_bytes; [lia..|exact B])) as (C & _). destruct (C h U) as (h' & U' & A).
  assert (A' := A). rewrite <- (rest_binary _ _ _ _ _ _ _ _ _ M) in A'.
  exists (with_binary r h'). split; [|split; [now apply report_agree|exact A']]. apply (reads_steps _ q d _ Q eq_refl). exists x, tx, h', w. repeat (split; [assumption|]). now apply rest_agree with h.
Qed.
Lemma stored_block d v : 3600 <= zlen d -> stored_at Big (block d 3200 400) 20 2 v -> stored_at Big d 3220 2 v.
Proof. intros L H. rewrite <- block_slice in H by lia. exact (stored_of_slice Big d 3200 3600 20 2 v ltac:(lia) ltac:(lia) ltac:(lia) ltac:(lia) H). Qed.
Lemma custom_widens d r' : all_bytes d -> reads_as CustomBinaryReelHeader d r' ->
  exists v, hdr_get (rd_binary r') "num_samples" = Ok v /\ 0 <= v < 2 ^ 16 /\ stored_at Big d 3220 2 v /\ ((exists r, reads_as BinaryReelHeader d r) <-> v < 2 ^ 15).
Proof.
  intros B O. destruct reel_packers as (p & q & P & Q). assert (O' := O). apply (reads_steps _ q d r' Q eq_refl) in O. destruct O as (x & tx & h' & w & X & ZL & R & U' & M).
  destruct (custom_reads Big p q (block d 3200 400) P Q ltac:(apply block_bytes; [lia..|exact B])) as (C & W). destruct (W h' U') as (v & G & V & S & W1 & W2).
  exists v. rewrite (rest_binary _ _ _ _ _ _ _ _ _ M). split; [exact G|]. split; [exact V|]. split; [now apply stored_block|]. split.
  - intros (r & O). apply (reads_steps _ p d r P eq_refl) in O. destruct O as (_ & _ & h & _ & _ & _ & _ & U & _).
    destruct (Z.lt_ge_cases v (2 ^ 15)) as [L|L]; [exact L|]. rewrite (W2 L) in U. discriminate.
  - intros L. destruct (W1 L) as (h & U). destruct (C h U) as (h2 & U2 & A). rewrite U' in U2. injection U2 as <-.
    exists (with_binary r' h). apply (reads_steps _ p d _ P eq_refl). exists x, tx, h, w. repeat (split; [assumption|]). apply rest_agree with h'; [|exact M].
    intros f F. symmetry. now apply A.
Qed.
