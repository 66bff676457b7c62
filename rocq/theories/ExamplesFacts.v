(* Proofs about time slices, reports and listed positions (C114-C116). *)
From Coq Require Import String ZArith List Bool Lia ZifyBool ZifyNat Sorted Permutation.
From Verif Require Import Py PyFacts PyFloat IbmFloat Spec_Ibm Util Spec_Util UtilFacts Catalog CatalogFacts Packing Spec_Packing Formats FileIO Text
  Toolkit Spec_Segy ToolkitFacts Reader Spec_Reader ReaderFacts OpenFacts NumpyExt Spec_Numpy NumpyFacts Examples Spec_Examples.
Import ListNotations.
Local Open Scope string_scope.
Open Scope list_scope.
Open Scope Z_scope.

Lemma set_nth_all {A B} (P Q : A -> B -> Prop) n x v rows (a : list B) :
  NoDup rows -> Forall2 P rows a -> nth_error rows n = Some x -> Q x v ->
  (forall y b, In y rows -> y <> x -> P y b -> Q y b) -> Forall2 Q rows (set_nth n v a).
Proof.
  intros ND F. revert n. induction F as [|y b rows a H F IH]; intros n; [destruct n; discriminate|]. inversion ND as [|? ? N1 N2]; subst.
  intros E QX K. destruct n as [|n]; cbn [set_nth nth_error] in *.
  - injection E as ->. constructor; [exact QX|].
    assert (K' : forall y b, In y rows -> P y b -> Q y b) by (intros z c I; apply K; [now right|intros ->; contradiction]).
    clear - F K'. induction F; constructor; [apply K'; [now left|assumption]|]. apply IHF. intros; apply K'; [now right|assumption].
  - constructor; [apply K; [now left| |exact H]|].
    + intros ->. apply nth_error_In in E. contradiction.
    + apply IH; auto. intros; apply K; auto. now right.
Qed.
Lemma Forall2_impl {A B} (P Q : A -> B -> Prop) l l' : (forall a b, P a b -> Q a b) -> Forall2 P l l' -> Forall2 Q l l'.
Proof. intros H F. induction F; constructor; auto. Qed.
Lemma Forall2_nth {A B} (P : A -> B -> Prop) n x l l' : Forall2 P l l' -> nth_error l n = Some x -> exists y, nth_error l' n = Some y /\ P x y.
Proof.
  intros F. revert n. induction F as [|a b l l' H F IH]; intros n; [destruct n; discriminate|]. destruct n as [|n]; cbn.
  - intros E. injection E as <-. eauto.
  - apply IH.
Qed.
Lemma py_get_nth_error {A} (l : list A) i x : 0 <= i -> nth_error l (Z.to_nat i) = Some x -> py_get l i = Ok x.
Proof.
  intros P E. assert (L : (Z.to_nat i < length l)%nat) by (apply nth_error_Some; congruence).
  rewrite (py_get_ok _ _ x) by (unfold zlen; lia). f_equal. now apply nth_error_nth.
Qed.

(* one assignment to a cell *)
Lemma array_set_grid {A} (P Q : Z -> Z -> option A -> Prop) rows cols a i j x y v :
  NoDup rows -> NoDup cols -> grid P rows cols a -> 0 <= i -> 0 <= j ->
  nth_error rows (Z.to_nat i) = Some x -> nth_error cols (Z.to_nat j) = Some y -> Q x y v ->
  (forall z w c, (z, w) <> (x, y) -> P z w c -> Q z w c) ->
  exists a', array_set a i j v = Ok a' /\ grid Q rows cols a'.
Proof.
  intros N1 N2 G I J E1 E2 V K. unfold array_set. unfold grid in *.
  destruct (Forall2_nth _ _ _ _ _ G E1) as (row & ER & FR). destruct (Forall2_nth _ _ _ _ _ FR E2) as (c & EC & _).
  rewrite (py_get_nth_error _ _ _ I ER). cbn [bind]. rewrite (py_get_nth_error _ _ _ J EC). cbn [bind]. eexists. split; [reflexivity|].
  refine (set_nth_all (fun z => Forall2 (P z) cols) _ _ x _ rows a N1 G E1 _ _).
  - refine (set_nth_all (P x) _ _ y v cols row N2 FR E2 V _). intros w b _ NW. apply K. congruence.
  - intros z b _ NZ. apply Forall2_impl. intros w c'. apply K. congruence.
Qed.
Lemma empty_grid {A} (rows cols : list Z) : grid (fun _ _ (c : option A) => c = None) rows cols (zrepeat (zrepeat None (zlen cols)) (zlen rows)).
Proof.
  unfold grid, zrepeat, zlen. rewrite !Nat2Z.id. induction rows as [|i rows IH]; cbn [length repeat]; constructor; [|exact IH].
  clear IH. induction cols as [|j cols IH]; cbn [length repeat]; constructor; auto.
Qed.

Section Extract.
Variables (d : list Z) (enc : option encoding) (bc tc : fmt) (e : endian) (dim : option Z) (r : reader) (t : segytype) (ts : list tinfo) (native : endian).
Hypothesis RD : readable d enc bc tc.
Hypothesis OP : opens d enc bc tc e dim r.
Hypothesis TR : traces_of d tc e r t ts.

Lemma placed_trace tr : In tr ts -> t_pos tr + 240 <= zlen d /\ 0 <= t_count tr.
Proof.
  intros I. destruct (get_opened d enc bc tc e dim r t ts RD OP TR) as (x & _ & O). destruct RD as (_ & _ & T & _).
  destruct (trace_placed _ _ _ _ _ _ _ _ _ T O tr I) as (_ & A & B). auto.
Qed.

Section Slice.
Hypothesis ND : NoDup (map (fun t => (t_inline t, t_xline t)) ts).
Hypothesis DIM : dim = None \/ dim = Some 3.

Lemma dim3 : rd_dimensionality r = 3.
Proof.
  destruct (get_opened d enc bc tc e dim r t ts RD OP TR) as (x & _ & O). destruct (kind3 x bc tc e dim d r ts t O ND DIM) as (c & K & _).
  unfold rd_dimensionality. now rewrite K.
Qed.
Lemma trace_at_unique i j a b : trace_at ts i j a -> trace_at ts i j b -> a = b.
Proof.
  intros (I1 & H1 & H2) (I2 & H3 & H4). revert I1 I2. clear - ND H1 H2 H3 H4. induction ts as [|x l IH]; intros I1 I2; [destruct I1|].
  cbn [map] in ND. inversion ND as [|? ? N1 N2]; subst. destruct I1 as [->|I1], I2 as [->|I2]; auto.
  - exfalso. apply N1. apply in_map_iff. exists b. rewrite H3, H4. auto.
  - exfalso. apply N1. apply in_map_iff. exists a. rewrite H3, H4. auto.
Qed.

Lemma sample_reads n tr : 0 <= n -> In tr ts -> whole d t tr ->
  reads d (slice_sample native r n (t_inline tr, t_xline tr)) (slice_cell d e t ts n (t_inline tr) (t_xline tr)).
Proof.
  intros N I W. destruct (index3 d enc bc tc e dim r t ts RD OP TR ND DIM) as (IX & _).
  assert (TA : trace_at ts (t_inline tr) (t_xline tr) tr) by (repeat split; exact I).
  pose proof I as K. apply in_trace_of in K. destruct K as (k & K). destruct (placed_trace tr I) as (_ & C).
  unfold slice_sample. eapply reads_lift_bind; [apply IX; exists tr; eauto|].
  eapply reads_bind; [apply (all_read d enc bc tc e dim r t ts native RD OP TR k tr K C W)|].
  intros ss (ZL & SS). cbn beta in *. destruct (Z_lt_dec n (t_count tr)) as [L|L].
  - rewrite (py_get_ok ss n (RInt 0)) by lia. apply reads_ret. left. eexists. eexists. split; [exact TA|]. split; [reflexivity|]. apply SS. lia.
  - assert (PE : py_get ss n = Err IndexError).
    { unfold py_get. cbv zeta. replace (n <? 0) with false by lia. destruct ((0 <=? n) && (n <? zlen ss)) eqn:E; [lia|reflexivity]. }
    rewrite PE. apply reads_ret. right. left. exists tr. repeat split; auto; try lia.
Qed.
Lemma sample_cut n tr : In tr ts -> ~ whole d t tr -> fails d (slice_sample native r n (t_inline tr, t_xline tr)) EOFError.
Proof.
  intros I W. destruct (index3 d enc bc tc e dim r t ts RD OP TR ND DIM) as (IX & _).
  pose proof I as K. apply in_trace_of in K. destruct K as (k & K). destruct (placed_trace tr I) as (P & C). pose proof (sample_size_pos t) as SP. unfold whole in W.
  unfold slice_sample. eapply fails_lift_bind; [apply IX; exists tr; eauto|]. apply fails_bind. intros q.
  destruct (samples_ok d enc bc tc e dim r t ts RD OP TR native k None None q) as (q' & EF & SO).
  destruct (rd_trace_samples native r k None None (mk_file d q)) as [x f'] eqn:E. cbn [fst snd] in *. subst f'.
  inversion SO as [N|tr' K' N|tr' K' N1 N2 N3|tr' ss K' N1 N2 N3 ZL SA]; subst; cbn [or_else] in *;
    try (pose proof (trace_of_unique _ _ _ _ K K') as <-).
  - destruct K as (K & _). lia.
  - lia.
  - eauto.
  - nia.
Qed.

(* cells of the traces visited so far *)
Definition visited (n : Z) (done : list (Z * Z)) (i j : Z) (c : option real) : Prop :=
  (In (i, j) done /\ slice_cell d e t ts n i j c) \/ (~ In (i, j) done /\ c = None).

Lemma fill_reads n si sj : 0 <= n -> plain_seq si -> plain_seq sj -> ascending (sseq_list si) -> ascending (sseq_list sj) ->
  (forall i, In i (sseq_list si) <-> In i (map t_inline ts)) -> (forall j, In j (sseq_list sj) <-> In j (map t_xline ts)) ->
  (forall tr, In tr ts -> whole d t tr) ->
  forall keys done a, (forall key, In key keys -> exists tr, In tr ts /\ key = (t_inline tr, t_xline tr)) ->
  grid (visited n done) (sseq_list si) (sseq_list sj) a ->
  reads d (fill_slice native r n si sj keys a) (grid (visited n (rev keys ++ done)) (sseq_list si) (sseq_list sj)).
Proof.
  intros N (W1 & _) (W2 & _) A1 A2 M1 M2 WH. induction keys as [|key keys IH]; intros done a KE G; [now apply reads_ret|].
  cbn [fill_slice]. destruct (KE key (or_introl eq_refl)) as (tr & I & ->). cbn [fst snd].
  eapply reads_bind; [apply sample_reads; auto|]. intros v V. cbn beta in V.
  assert (HI : In (t_inline tr) (sseq_list si)) by (apply M1; now apply in_map).
  assert (HJ : In (t_xline tr) (sseq_list sj)) by (apply M2; now apply in_map).
  apply In_nth_error in HI. destruct HI as (ni & HI). apply In_nth_error in HJ. destruct HJ as (nj & HJ).
  assert (XI : sseq_index si (t_inline tr) = Ok (Z.of_nat ni)).
  { rewrite <- (nth_error_nth _ _ 0 HI). apply sseq_index_nth; auto. apply nth_error_Some. congruence. }
  assert (XJ : sseq_index sj (t_xline tr) = Ok (Z.of_nat nj)).
  { rewrite <- (nth_error_nth _ _ 0 HJ). apply sseq_index_nth; auto. apply nth_error_Some. congruence. }
  eapply reads_lift_bind; [exact XI|]. eapply reads_lift_bind; [exact XJ|].
  destruct (array_set_grid (visited n done) (visited n ((t_inline tr, t_xline tr) :: done)) (sseq_list si) (sseq_list sj) a (Z.of_nat ni) (Z.of_nat nj)
    (t_inline tr) (t_xline tr) v) as (a' & E & G'); rewrite ?Nat2Z.id; auto; try lia.
  - now apply sseq_nodup.
  - now apply sseq_nodup.
  - left. split; [now left|exact V].
  - intros z w c NE [(V1 & V2)|(V1 & V2)]; [left|right]; (split; [|exact V2]); [now right|]. intros [Q|Q]; [congruence|contradiction].
  - eapply reads_lift_bind; [exact E|]. cbn [rev]. rewrite <- app_assoc. cbn [app]. apply IH; [|exact G']. intros; apply KE. now right.
Qed.

Lemma fill_fails n si sj : 0 <= n -> plain_seq si -> plain_seq sj -> ascending (sseq_list si) -> ascending (sseq_list sj) ->
  (forall i, In i (sseq_list si) <-> In i (map t_inline ts)) -> (forall j, In j (sseq_list sj) <-> In j (map t_xline ts)) ->
  forall keys done a, (forall key, In key keys -> exists tr, In tr ts /\ key = (t_inline tr, t_xline tr)) ->
  grid (visited n done) (sseq_list si) (sseq_list sj) a ->
  (exists tr, In tr ts /\ ~ whole d t tr /\ In (t_inline tr, t_xline tr) keys) ->
  fails d (fill_slice native r n si sj keys a) EOFError.
Proof.
  intros N (W1 & _) (W2 & _) A1 A2 M1 M2. induction keys as [|key keys IH]; intros done a KE G (bad & IB & WB & KB); [destruct KB|].
  cbn [fill_slice]. destruct (KE key (or_introl eq_refl)) as (tr & I & ->). cbn [fst snd].
  assert (WD : whole d t tr \/ ~ whole d t tr) by (unfold whole; lia). destruct WD as [WT|WT]; [|apply fails_bind; now apply sample_cut].
  eapply fails_after; [apply sample_reads; auto|]. intros v V. cbn beta in V.
  assert (HI : In (t_inline tr) (sseq_list si)) by (apply M1; now apply in_map).
  assert (HJ : In (t_xline tr) (sseq_list sj)) by (apply M2; now apply in_map).
  apply In_nth_error in HI. destruct HI as (ni & HI). apply In_nth_error in HJ. destruct HJ as (nj & HJ).
  assert (XI : sseq_index si (t_inline tr) = Ok (Z.of_nat ni)).
  { rewrite <- (nth_error_nth _ _ 0 HI). apply sseq_index_nth; auto. apply nth_error_Some. congruence. }
  assert (XJ : sseq_index sj (t_xline tr) = Ok (Z.of_nat nj)).
  { rewrite <- (nth_error_nth _ _ 0 HJ). apply sseq_index_nth; auto. apply nth_error_Some. congruence. }
  eapply fails_lift_bind; [exact XI|]. eapply fails_lift_bind; [exact XJ|].
  destruct (array_set_grid (visited n done) (visited n ((t_inline tr, t_xline tr) :: done)) (sseq_list si) (sseq_list sj) a (Z.of_nat ni) (Z.of_nat nj)
    (t_inline tr) (t_xline tr) v) as (a' & E & G'); rewrite ?Nat2Z.id; auto; try lia.
  - now apply sseq_nodup.
  - now apply sseq_nodup.
  - left. split; [now left|exact V].
  - intros z w c NE [(V1 & V2)|(V1 & V2)]; [left|right]; (split; [|exact V2]); [now right|]. intros [Q|Q]; [congruence|contradiction].
  - eapply fails_lift_bind; [exact E|]. apply IH with ((t_inline tr, t_xline tr) :: done); [intros; apply KE; now right|exact G'|].
    exists bad. split; [exact IB|]. split; [exact WB|]. destruct KB as [Q|Q]; [|exact Q]. exfalso. apply WB.
    injection Q as Q1 Q2. rewrite <- (trace_at_unique (t_inline tr) (t_xline tr) tr bad); [exact WT| |]; repeat split; auto.
Qed.

Lemma count_max m n : greatest (map t_count ts) m -> rd_max_num_trace_samples r = Ok n -> n = m.
Proof.
  intros (G1 & G2) E. destruct (counts_ok d enc bc tc e dim r t ts RD OP TR) as (_ & _ & _ & _ & m' & E' & (tr & I & <-) & H).
  rewrite E in E'. injection E' as ->. apply in_map_iff in G1. destruct G1 as (tr' & <- & I'). pose proof (H tr' I'). pose proof (G2 _ (in_map t_count _ _ I)). lia.
Qed.

Lemma slice_reads n m : greatest (map t_count ts) m -> 0 <= n < m -> (forall tr, In tr ts -> whole d t tr) ->
  reads d (timeslice native r n) (fun a => exists rows cols, ascending_items (map t_inline ts) rows /\ ascending_items (map t_xline ts) cols /\
    grid (slice_cell d e t ts n) rows cols a).
Proof.
  intros GM N WH. unfold timeslice. eapply reads_lift_bind; [exact (format_of d tc e r t ts TR)|].
  destruct (dtype_ok d tc e r t ts TR) as (dt & ED). eapply reads_lift_bind; [exact ED|]. rewrite dim3. cbn [Z.eqb Pos.eqb negb].
  destruct (lines3 d enc bc tc e dim r t ts RD OP TR ND DIM) as ((si & E1 & P1 & A1 & M1) & (sj & E2 & P2 & A2 & M2)).
  eapply reads_lift_bind; [exact E1|]. eapply reads_lift_bind; [exact E2|].
  destruct (counts_ok d enc bc tc e dim r t ts RD OP TR) as (_ & _ & _ & _ & m' & E' & _). rewrite (count_max m m' GM E') in E'.
  eapply reads_lift_bind; [exact E'|]. replace ((0 <=? n) && (n <? m)) with true by lia. cbn [negb].
  destruct (get_opened d enc bc tc e dim r t ts RD OP TR) as (x & _ & O). destruct (index_3d x bc tc e dim d r ts t O ND DIM) as (_ & _ & _ & _ & _ & (keys & EK & PK)).
  eapply reads_lift_bind; [exact EK|].
  assert (KK : forall key, In key keys <-> exists tr, In tr ts /\ key = (t_inline tr, t_xline tr)).
  { intros key. transitivity (In key (pairs ts)).
    - split; apply Permutation_in; [exact PK|now apply Permutation_sym].
    - unfold pairs. rewrite in_map_iff. split; intros (tr & A & B); exists tr; auto. }
  assert (LI : sseq_len si = zlen (sseq_list si)) by apply sseq_len_spec.
  assert (LJ : sseq_len sj = zlen (sseq_list sj)) by apply sseq_len_spec. rewrite LI, LJ.
  eapply reads_weaken.
  - apply (fill_reads n si sj) with (done := []); auto; try lia; [intros; now apply KK|].
    eapply Forall2_impl; [|apply empty_grid]. intros i row. apply Forall2_impl. intros j c ->. right. auto.
  - intros a G. exists (sseq_list si), (sseq_list sj). split; [split; assumption|]. split; [split; assumption|].
    eapply Forall2_impl; [|exact G]. intros i row. apply Forall2_impl. intros j c [(_ & V)|(V & ->)]; [exact V|].
    right. right. split; [|reflexivity]. intros tr (I & <- & <-). apply V. rewrite app_nil_r, <- in_rev. apply KK. eauto.
Qed.
Lemma slice_cut n m tr : greatest (map t_count ts) m -> 0 <= n < m -> In tr ts -> ~ whole d t tr -> fails d (timeslice native r n) EOFError.
Proof.
  intros GM N I W. unfold timeslice. eapply fails_lift_bind; [exact (format_of d tc e r t ts TR)|].
  destruct (dtype_ok d tc e r t ts TR) as (dt & ED). eapply fails_lift_bind; [exact ED|]. rewrite dim3. cbn [Z.eqb Pos.eqb negb].
  destruct (lines3 d enc bc tc e dim r t ts RD OP TR ND DIM) as ((si & E1 & P1 & A1 & M1) & (sj & E2 & P2 & A2 & M2)).
  eapply fails_lift_bind; [exact E1|]. eapply fails_lift_bind; [exact E2|].
  destruct (counts_ok d enc bc tc e dim r t ts RD OP TR) as (_ & _ & _ & _ & m' & E' & _). rewrite (count_max m m' GM E') in E'.
  eapply fails_lift_bind; [exact E'|]. replace ((0 <=? n) && (n <? m)) with true by lia. cbn [negb].
  destruct (get_opened d enc bc tc e dim r t ts RD OP TR) as (x & _ & O). destruct (index_3d x bc tc e dim d r ts t O ND DIM) as (_ & _ & _ & _ & _ & (keys & EK & PK)).
  eapply fails_lift_bind; [exact EK|].
  assert (KK : forall key, In key keys <-> exists tr, In tr ts /\ key = (t_inline tr, t_xline tr)).
  { intros key. transitivity (In key (pairs ts)).
    - split; apply Permutation_in; [exact PK|now apply Permutation_sym].
    - unfold pairs. rewrite in_map_iff. split; intros (tr' & A & B); exists tr'; auto. }
  assert (LI : sseq_len si = zlen (sseq_list si)) by apply sseq_len_spec.
  assert (LJ : sseq_len sj = zlen (sseq_list sj)) by apply sseq_len_spec. rewrite LI, LJ.
  apply (fill_fails n si sj) with (done := []); auto; try lia; [intros; now apply KK| |].
  - eapply Forall2_impl; [|apply empty_grid]. intros i row. apply Forall2_impl. intros j c ->. right. auto.
  - exists tr. split; [exact I|]. split; [exact W|]. apply KK. eauto.
Qed.
Lemma slice_outside n m : greatest (map t_count ts) m -> ~ 0 <= n < m -> fails d (timeslice native r n) ValueError.
Proof.
  intros GM N. unfold timeslice. eapply fails_lift_bind; [exact (format_of d tc e r t ts TR)|].
  destruct (dtype_ok d tc e r t ts TR) as (dt & ED). eapply fails_lift_bind; [exact ED|]. rewrite dim3. cbn [Z.eqb Pos.eqb negb].
  destruct (lines3 d enc bc tc e dim r t ts RD OP TR ND DIM) as ((si & E1 & P1 & A1 & M1) & (sj & E2 & P2 & A2 & M2)).
  eapply fails_lift_bind; [exact E1|]. eapply fails_lift_bind; [exact E2|].
  destruct (counts_ok d enc bc tc e dim r t ts RD OP TR) as (_ & _ & _ & _ & m' & E' & _). rewrite (count_max m m' GM E') in E'.
  eapply fails_lift_bind; [exact E'|]. replace ((0 <=? n) && (n <? m)) with false by lia. cbn [negb]. intros q. exists q. reflexivity.
Qed.
End Slice.

Lemma slice_not_3d n : rd_dimensionality r <> 3 -> fails d (timeslice native r n) KeyError.
Proof.
  intros D. unfold timeslice. eapply fails_lift_bind; [exact (format_of d tc e r t ts TR)|].
  destruct (dtype_ok d tc e r t ts TR) as (dt & ED). eapply fails_lift_bind; [exact ED|].
  replace (rd_dimensionality r =? 3) with false by lia. cbn [negb]. intros q. exists q. reflexivity.
Qed.

(* ---------------- metadata and report ---------------- *)

Lemma greatest_count m : rd_max_num_trace_samples r = Ok m -> greatest (map t_count ts) m.
Proof.
  intros E. destruct (counts_ok d enc bc tc e dim r t ts RD OP TR) as (_ & _ & _ & _ & m' & E' & (tr & I & C) & H).
  rewrite E in E'. injection E' as ->. split; [rewrite <- C; now apply in_map|]. intros x X. apply in_map_iff in X. destruct X as (tr' & <- & X). auto.
Qed.
Lemma natural : dim = None -> natural_dimensionality ts (rd_dimensionality r).
Proof.
  intros ->. destruct (get_opened d enc bc tc e None r t ts RD OP TR) as (x & _ & O). exact (rd_dim x bc tc e None d r ts t O).
Qed.
Lemma metadata_ok : dim = None -> exists m, metadata r = Ok m /\ me_traces m = zlen ts /\ natural_dimensionality ts (me_dimensionality m) /\
  me_format m = t /\ greatest (map t_count ts) (me_max_samples m).
Proof.
  intros D. unfold metadata. rewrite (format_of d tc e r t ts TR). cbn [bind].
  destruct (counts_ok d enc bc tc e dim r t ts RD OP TR) as (N & _ & _ & _ & m & E & _). rewrite E. cbn [bind].
  eexists. split; [reflexivity|]. cbn. split; [exact N|]. split; [now apply natural|]. split; [reflexivity|]. now apply greatest_count.
Qed.

Lemma sorted_nodup l : ascending l -> NoDup l.
Proof.
  intros S. induction S as [|x l S IH F]; constructor; [|exact IH]. intros I. rewrite Forall_forall in F. specialize (F x I). lia.
Qed.
Lemma report_ok : dim = None -> exists s x code v, report_of r = Ok s /\ encoding_used enc d x /\
  hdr_get (rd_binary r) "data_sample_format" = Ok code /\ format_code code t /\ format_name code (su_format s) /\
  hdr_get (rd_binary r) "format_revision_num" = Ok v /\ revision_code v (su_revision s) /\
  su_traces s = zlen ts /\ natural_dimensionality ts (su_dimensionality s) /\
  counts_reported ts (su_dimensionality s) (su_cdps s) (su_inlines s) (su_xlines s) /\
  exists tx, reel_headers x bc e d tx (rd_binary r) (su_ext s) /\ su_text s = map (skipn 3) tx.
Proof.
  intros D. destruct (get_opened d enc bc tc e dim r t ts RD OP TR) as (x & X & O).
  destruct (op_revision _ _ _ _ _ _ _ _ _ O) as (v & V & RC). pose proof (proj1 TR) as (code & GC & FC).
  destruct (counts_ok d enc bc tc e dim r t ts RD OP TR) as (NT & _).
  pose proof (natural D) as ND. pose proof (op_headers _ _ _ _ _ _ _ _ _ O) as RH.
  assert (FN : format_name code (description t)).
  { unfold format_code in FC. cbn in FC. unfold format_name. destruct FC as [F|[F|[F|[F|[F|[]]]]]]; injection F as <- <-; cbn; auto 10. }
  assert (FIN : forall cdps inl xl,
    attempt (rd_num_cdps r) = Ok cdps -> attempt (rd_num_inlines r) = Ok inl ->
    match inl with Some _ => attempt (rd_num_xlines r) | None => Ok None end = Ok xl ->
    counts_reported ts (rd_dimensionality r) cdps inl xl ->
    exists s x code v, report_of r = Ok s /\ encoding_used enc d x /\
      hdr_get (rd_binary r) "data_sample_format" = Ok code /\ format_code code t /\ format_name code (su_format s) /\
      hdr_get (rd_binary r) "format_revision_num" = Ok v /\ revision_code v (su_revision s) /\
      su_traces s = zlen ts /\ natural_dimensionality ts (su_dimensionality s) /\
      counts_reported ts (su_dimensionality s) (su_cdps s) (su_inlines s) (su_xlines s) /\
      exists tx, reel_headers x bc e d tx (rd_binary r) (su_ext s) /\ su_text s = map (skipn 3) tx).
  { intros cdps inl xl E1 E2 E3 CR. unfold report_of, format_description. rewrite (format_of d tc e r t ts TR). cbn [bind]. rewrite E1. cbn [bind]. rewrite E2. cbn [bind].
    rewrite E3. cbn [bind]. eexists. exists x, code, v. split; [reflexivity|]. cbn [su_format su_revision su_traces su_dimensionality su_cdps su_inlines su_xlines su_text su_ext].
    repeat (split; [assumption|]). exists (rd_text r). auto. }
  destruct (op_kind _ _ _ _ _ _ _ _ _ O) as (k & _ & KF). destruct KF as [(-> & K)|[(-> & c & K & _)|(-> & o & K & _)]].
  - apply (FIN None None None); unfold rd_num_cdps, rd_num_inlines, rd_inline_numbers; rewrite ?K; auto.
    unfold rd_dimensionality. rewrite K. destruct (rd_num_traces r =? 1); (split; [discriminate|]; split; [discriminate|]); intros H; try discriminate; auto.
  - assert (RDM : rd_dimensionality r = 2) by (unfold rd_dimensionality; now rewrite K). rewrite RDM in *. destruct ND as (_ & (N2 & _) & _). destruct (N2 eq_refl) as (NP & NC).
    destruct (index_2d x bc tc e dim d r ts t O NC) as (_ & _ & _ & _ & NUM); [left; split; [exact D|exact NP]|].
    apply (FIN (Some (zlen ts)) None None); [now rewrite NUM|unfold rd_num_inlines, rd_inline_numbers; now rewrite K|reflexivity|].
    split; [discriminate|]. split; [|discriminate]. intros _. split; [|auto]. exists (zlen ts). split; [reflexivity|]. exists (map t_cdp ts).
    split; [exact NC|]. split; [tauto|]. unfold zlen. now rewrite map_length.
  - assert (RDM : rd_dimensionality r = 3) by (unfold rd_dimensionality; now rewrite K). rewrite RDM in *. destruct ND as ((N3 & _) & _).
    destruct (lines3 d enc bc tc e dim r t ts RD OP TR (N3 eq_refl) (or_introl D)) as ((si & E1 & P1 & A1 & M1) & (sj & E2 & P2 & A2 & M2)).
    apply (FIN None (Some (sseq_len si)) (Some (sseq_len sj))); unfold rd_num_cdps, rd_num_inlines, rd_num_xlines; rewrite ?K, ?E1, ?E2; auto.
    split; [|split; discriminate]. intros _. split; [reflexivity|]. exists (sseq_len si), (sseq_len sj). rewrite !sseq_len_spec.
    split; [reflexivity|]. split; [exists (sseq_list si); split; [now apply sorted_nodup|auto]|]. split; [reflexivity|].
    exists (sseq_list sj); split; [now apply sorted_nodup|auto].
Qed.

(* ---------------- positions ---------------- *)

Hypothesis HX : has_field tc "cdp_x".
Hypothesis HY : has_field tc "cdp_y".
Lemma one_position k tr : trace_of ts k tr ->
  reads d (run h <- rd_trace_header r k None ;; run x <- lift (hdr_get h "cdp_x") ;; run y <- lift (hdr_get h "cdp_y") ;; ret (k, (x, y))) (position_line d e tc ts k) \/
  (fails d (run h <- rd_trace_header r k None ;; run x <- lift (hdr_get h "cdp_x") ;; run y <- lift (hdr_get h "cdp_y") ;; ret (k, (x, y))) EOFError /\
   exists n, bad_field_at tc e d (t_pos tr) n).
Proof.
  intros K. destruct (get_opened d enc bc tc e dim r t ts RD OP TR) as (x & _ & O). pose proof RD as (HB & _ & T & _). pose proof T as ((C & TF & ST & OR & LEN & MK) & _).
  destruct (trace_placed _ _ _ _ _ _ _ _ _ T O tr (trace_in ts k tr K)) as (P1 & P2 & _).
  assert (NB : forall h n v, holds_buffer tc e (block d (t_pos tr) 240) h -> has_field tc n -> hdr_get h n = Ok v -> field_at tc e d (t_pos tr) n v).
  { intros h n v (_ & H) (f & F & <-) G. destruct (H f F) as (v' & G' & A & I & S). rewrite G in G'. injection G' as <-.
    apply field_of_slice; auto. rewrite block_slice by lia. exists f. rewrite Z.add_0_l. auto. }
  assert (BAD : (exists n, bad_field_at tc e d (t_pos tr) n) \/ exists h, holds_buffer tc e (block d (t_pos tr) 240) h).
  { destruct (header_ok_read d enc bc tc e dim r t ts RD OP TR k 0) as (q' & _ & HO).
    inversion HO as [N|tr' n K' B|tr' h K' B]; [destruct K; lia| |]; pose proof (trace_of_unique _ _ _ _ K K') as <-; eauto. }
  assert (DET : forall n h, bad_field_at tc e d (t_pos tr) n -> holds_buffer tc e (block d (t_pos tr) 240) h -> False).
  { intros n h B H. destruct B as (f & v & F & E & NA & I & S). destruct H as (_ & H). destruct (H f F) as (v' & G & A & I' & S').
    assert (FA : field_at tc e d (t_pos tr) n v').
    { apply field_of_slice; auto. rewrite block_slice by lia. exists f. rewrite Z.add_0_l. auto. }
    apply (field_at_bad _ _ _ _ _ _ C FA). exists f, v. auto 10. }
  destruct BAD as [(n & B)|(h0 & B0)]; [right; split; [|eauto]|left]; intros q;
    destruct (header_ok_read d enc bc tc e dim r t ts RD OP TR k q) as (q' & EF & HO);
    destruct (rd_trace_header r k None (mk_file d q)) as [y f'] eqn:E; cbn [fst snd] in *; subst f'; unfold ibind at 1; rewrite E;
    (inversion HO as [N|tr' n' K' B'|tr' h K' B']; subst; [destruct K; lia| |]; pose proof (trace_of_unique _ _ _ _ K K') as <-).
  - eauto.
  - exfalso. eauto.
  - exfalso. eauto.
  - destruct (field_of_holds _ _ _ _ _ B' HX) as (vx & GX). destruct (field_of_holds _ _ _ _ _ B' HY) as (vy & GY).
    unfold ibind, lift, ret. rewrite GX, GY. eexists. eexists. split; [reflexivity|]. split; [reflexivity|]. exists tr. cbn [fst snd]. eauto.
Qed.
Lemma in_indexes k : In k (rd_trace_indexes r) <-> 0 <= k < zlen ts.
Proof.
  destruct (counts_ok d enc bc tc e dim r t ts RD OP TR) as (_ & -> & _). rewrite in_map_iff. unfold zlen. split.
  - intros (i & <- & I). apply in_seq in I. lia.
  - intros H. exists (Z.to_nat k). split; [lia|]. apply in_seq. lia.
Qed.
Lemma positions_read : (forall tr n, In tr ts -> ~ bad_field_at tc e d (t_pos tr) n) ->
  reads d (trace_positions r) (fun l => map fst l = map Z.of_nat (seq 0 (length ts)) /\ Forall2 (position_line d e tc ts) (map Z.of_nat (seq 0 (length ts))) l).
Proof.
  intros NB. destruct (counts_ok d enc bc tc e dim r t ts RD OP TR) as (_ & EI & _).
  eapply reads_weaken.
  - apply reads_map. intros k K. apply in_indexes in K. destruct (trace_of_exists ts k K) as (tr & TO).
    destruct (one_position k tr TO) as [G|(_ & n & B)]; [exact G|]. exfalso. exact (NB tr n (trace_in ts k tr TO) B).
  - intros l F. rewrite EI in F. split; [|exact F]. revert F. generalize (map Z.of_nat (seq 0 (length ts))). intros ks F.
    induction F as [|k x ks l (<- & _) F IH]; [reflexivity|]. cbn [map]. now rewrite IH.
Qed.
Lemma positions_fail tr n : In tr ts -> bad_field_at tc e d (t_pos tr) n -> fails d (trace_positions r) EOFError.
Proof.
  intros I B. apply fails_map.
  - intros k K. apply in_indexes in K. destruct (trace_of_exists ts k K) as (tr' & TO).
    destruct (one_position k tr' TO) as [G|(G & _)]; [left|right]; auto. eapply reads_weaken; [exact G|auto].
  - pose proof I as K. apply in_trace_of in K. destruct K as (k & TO). exists k. split; [apply in_indexes; apply TO|].
    destruct (one_position k tr TO) as [G|(G & _)]; [|exact G]. exfalso.
    destruct (header_ok_read d enc bc tc e dim r t ts RD OP TR k 0) as (q' & EF & HO).
    destruct (G 0) as (l & q2 & E & _). destruct (rd_trace_header r k None (mk_file d 0)) as [y f'] eqn:EH; cbn [fst snd] in *. unfold ibind in E. rewrite EH in E.
    inversion HO as [N|tr' n' K' B'|tr' h K' B']; subst; [discriminate|discriminate|]. pose proof (trace_of_unique _ _ _ _ TO K') as <-.
    pose proof RD as (HB & _ & T & _). pose proof T as ((C & TF & ST & OR & LEN & MK) & _).
    destruct (get_opened d enc bc tc e dim r t ts RD OP TR) as (x & _ & O). destruct (trace_placed _ _ _ _ _ _ _ _ _ T O tr I) as (P1 & P2 & _).
    destruct B as (f & v & F & EN & NA & IC & S). destruct B' as (_ & H). destruct (H f F) as (v' & G' & A & I' & S').
    assert (FA : field_at tc e d (t_pos tr) n v').
    { apply field_of_slice; auto. rewrite block_slice by lia. exists f. rewrite Z.add_0_l. auto. }
    apply (field_at_bad _ _ _ _ _ _ C FA). exists f, v. auto 10.
Qed.
End Extract.
