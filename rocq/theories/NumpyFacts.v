(* Proofs about the model of the Numpy extension. *)
From Coq Require Import String ZArith List Bool Lia Sorted ZifyBool ZifyNat.
From Verif Require Import Py PyFacts PyFloat IbmFloat Spec_Ibm Util Spec_Util UtilFacts PackFacts CompileFacts TextIOFacts Catalog Packing Spec_Packing Formats FormatFacts FileIO Text Float32
  Toolkit Spec_Segy ToolkitFacts Reader Spec_Reader ReaderFacts HeaderFacts PackingFacts OpenFacts NumpyExt Spec_Numpy.
Import ListNotations.
Local Open Scope string_scope.
Open Scope list_scope.
Open Scope Z_scope.

(* ---------------- ensure_superset on items ---------------- *)

Lemma ascending_lt_nth l i j : ascending l -> (i < j)%nat -> (j < length l)%nat -> nth i l 0 < nth j l 0.
Proof.
  intros A. revert i j. induction A as [|x l A IH F]; intros i j H L; [cbn in L; lia|].
  rewrite Forall_forall in F. destruct j as [|j]; [lia|]. cbn [nth length] in *. destruct i as [|i].
  - apply F. apply nth_In. lia.
  - apply IH; lia.
Qed.
(* an ascending range has a positive step, or at most one item *)
Lemma range_ascending r : range_ok r -> ascending (range_list r) -> 0 < r_step r \/ range_len r <= 1.
Proof.
  intros W A. destruct (Z_le_dec (range_len r) 1); [auto|]. left.
  pose proof (range_list_length r) as L. unfold zlen in L.
  pose proof (ascending_lt_nth _ 0 1 A ltac:(lia) ltac:(lia)) as H.
  pose proof (range_list_nth r 0 0 ltac:(lia)) as H0. pose proof (range_list_nth r 1 0 ltac:(lia)) as H1.
  change (Z.to_nat 0) with 0%nat in H0. change (Z.to_nat 1) with 1%nat in H1. lia.
Qed.

Lemma range_start_In r : range_ok r -> 0 < range_len r -> In (r_start r) (range_list r).
Proof. intros W L. apply range_list_In. exists 0. lia. Qed.

Lemma superset_range_reject sup sub x : range_ok sup -> range_ok sub -> ascending (range_list sup) -> ascending (range_list sub) ->
  0 < range_len sub -> In x (range_list sub) -> ~ In x (range_list sup) -> is_range_superset_of_range sup sub = Ok false.
Proof.
  intros W1 W2 A1 A2 L2 I N. unfold is_range_superset_of_range.
  destruct (range_mem sup (r_start sub)) eqn:M; [|reflexivity]. cbn [negb].
  destruct (r_step sub mod r_step sup =? 0) eqn:E; [|reflexivity]. cbn [negb].
  apply range_mem_iff in M; auto. destruct M as (i0 & Hi0 & S0).
  rewrite !range_get_neg by lia. cbn [bind].
  destruct (_ <? _) eqn:C; [reflexivity|]. exfalso. apply N. apply range_list_In in I. destruct I as (i & Hi & ->).
  apply Z.eqb_eq in E. apply Z.mod_divide in E; [|exact W1]. destruct E as (k & E). apply range_list_In. unfold range_ok in *.
  destruct (range_ascending sub W2 A2) as [P2|O2].
  - destruct (range_ascending sup W1 A1) as [P1|O1].
    + exists (i0 + i * k). rewrite S0 in *. rewrite E in *. assert (0 < k) by nia. split; [|lia].
      split; [nia|]. assert ((i0 + (-1 + range_len sub) * k) * r_step sup <= (-1 + range_len sup) * r_step sup) by lia.
      assert (i0 + (-1 + range_len sub) * k <= -1 + range_len sup) by nia. nia.
    + assert (i0 = 0) by lia. assert (range_len sup = 1) by lia. subst i0. exists 0. split; [lia|].
      rewrite S0, E in *. replace (range_len sup) with 1 in C by lia.
      assert ((-1 + range_len sub) * (k * r_step sup) <= 0) by lia. assert (range_len sub = 1) by nia. nia.
  - exists i0. split; [lia|]. assert (i = 0) by lia. subst i. lia.
Qed.

Lemma superset_range_accept sup sub : range_ok sup -> range_ok sub -> ascending (range_list sup) -> ascending (range_list sub) ->
  0 < range_len sub -> 1 < range_len sub \/ r_step sup = 1 ->
  (forall x, In x (range_list sub) -> In x (range_list sup)) -> is_range_superset_of_range sup sub = Ok true.
Proof.
  intros W1 W2 A1 A2 L2 C I. unfold is_range_superset_of_range. unfold range_ok in *.
  assert (M : forall x, In x (range_list sub) -> range_mem sup x = true) by (intros x Hx; apply range_mem_In; auto).
  rewrite (M _ (range_start_In sub W2 L2)). cbn [negb].
  pose proof (I _ (range_start_In sub W2 L2)) as H0. apply range_list_In in H0. destruct H0 as (i0 & H0 & E0).
  assert (E : r_step sub mod r_step sup = 0).
  { destruct C as [C|C]; [|rewrite C; apply Z.mod_1_r].
    assert (H1 : In (r_start sub + 1 * r_step sub) (range_list sub)) by (apply range_list_In; exists 1; lia).
    apply I in H1. apply range_list_In in H1. destruct H1 as (i1 & H1 & E1). apply Z.mod_divide; auto. exists (i1 - i0). lia. }
  rewrite E, Z.eqb_refl. cbn [negb]. rewrite !range_get_neg by lia. cbn [bind].
  destruct (_ <? _) eqn:CC; [exfalso|].
  - assert (HL : In (r_start sub + (-1 + range_len sub) * r_step sub) (range_list sub)) by (apply range_list_In; eexists; split; [|reflexivity]; lia).
    apply I in HL. apply range_list_In in HL. destruct HL as (il & Hl & El). destruct (range_ascending sup W1 A1) as [P|P]; nia.
  - replace (forallb (range_mem sup) (range_list sub)) with true by (symmetry; apply forallb_forall; auto). reflexivity.
Qed.

Lemma is_superset_reject sup sub x : sseq_wf sup -> sseq_wf sub -> ascending (sseq_list sup) -> ascending (sseq_list sub) ->
  In x (sseq_list sub) -> ~ In x (sseq_list sup) -> is_superset sup sub = Ok false.
Proof.
  intros W1 W2 A1 A2 I N.
  assert (F : forall f, (f x = true -> In x (sseq_list sup)) -> forallb f (sseq_list sub) = false).
  { intros f Hf. destruct (forallb f (sseq_list sub)) eqn:E; [|reflexivity]. rewrite forallb_forall in E. exfalso. auto. }
  destruct sup as [r|l|l]; [destruct sub as [s| |]|..]; unfold is_superset.
  - apply (superset_range_reject r s x); auto. cbn in I. apply range_list_In in I. destruct I as (i & Hi & _). lia.
  - rewrite F; [reflexivity|]. apply range_mem_In, W1.
  - rewrite F; [reflexivity|]. apply range_mem_In, W1.
  - rewrite F; [reflexivity|]. apply zmem_In.
  - rewrite F; [reflexivity|]. apply zmem_In.
Qed.
Lemma is_superset_accept sup sub : sseq_wf sup -> sseq_wf sub -> ascending (sseq_list sup) -> ascending (sseq_list sub) ->
  sseq_list sub <> [] -> 1 < zlen (sseq_list sub) \/ (forall r, sup = QRange r -> r_step r = 1) ->
  (forall x, In x (sseq_list sub) -> In x (sseq_list sup)) -> is_superset sup sub = Ok true.
Proof.
  intros W1 W2 A1 A2 NE C I.
  assert (F : forall f, (forall x, In x (sseq_list sup) -> f x = true) -> forallb f (sseq_list sub) = true).
  { intros f Hf. apply forallb_forall. auto. }
  destruct sup as [r|l|l]; [destruct sub as [s| |]|..]; unfold is_superset.
  - apply superset_range_accept; auto.
    + rewrite <- range_list_length. cbn in NE. destruct (range_list s); [congruence|]. unfold zlen; cbn; lia.
    + destruct C as [C|C]; [left; cbn in C; now rewrite range_list_length in C|right; now apply C].
  - rewrite F; [reflexivity|]. intros x. apply range_mem_In, W1.
  - rewrite F; [reflexivity|]. intros x. apply range_mem_In, W1.
  - rewrite F; [reflexivity|]. intros x. apply zmem_In.
  - rewrite F; [reflexivity|]. intros x. apply zmem_In.
Qed.

(* what make_sorted_distinct_sequence makes of the items *)
Lemma msds_items it : items_ok it -> exists s, make_sorted_distinct_sequence it SAscending = Ok s /\ sseq_wf s /\
  (forall x, In x (sseq_list s) <-> In x (it_list it)) /\ ascending (sseq_list s) /\ sseq_list s <> [].
Proof.
  intros (NE & W).
  assert (Q : exists s, make_sorted_distinct_sequence it SAscending = Ok s /\ sseq_wf s /\
    (forall x, In x (sseq_list s) <-> In x (it_list it)) /\ ascending (sseq_list s)).
  { destruct it as [r| | |] eqn:Eit.
    - destruct (msds_range r SAscending (W r eq_refl) ltac:(discriminate)) as (s & E & K & M & A). exists (QRange s). auto.
    - rewrite <- Eit in *. destruct (msds_list it SAscending) as (s & E & K & M & A & _); try (subst; discriminate); auto. eauto.
    - rewrite <- Eit in *. destruct (msds_list it SAscending) as (s & E & K & M & A & _); try (subst; discriminate); auto. eauto.
    - rewrite <- Eit in *. destruct (msds_list it SAscending) as (s & E & K & M & A & _); try (subst; discriminate); auto. eauto. }
  destruct Q as (s & E & K & M & A). exists s. repeat (split; [assumption|]). intros Z0. rewrite Z0 in M.
  destruct (it_list it) as [|x l]; [auto|]. apply (M x). now left.
Qed.

Lemma ensure_reject all it x : sseq_wf all -> ascending (sseq_list all) -> items_ok it -> In x (it_list it) -> ~ In x (sseq_list all) ->
  ensure_superset all (Items it) = Err ValueError.
Proof.
  intros W A OK I N. destruct (msds_items it OK) as (s & E & K & M & A' & _). unfold ensure_superset. rewrite E. cbn [bind].
  rewrite (is_superset_reject all s x); auto. now apply M.
Qed.
Lemma ensure_accept all it : sseq_wf all -> ascending (sseq_list all) -> items_ok it ->
  (exists x y, In x (it_list it) /\ In y (it_list it) /\ x <> y) \/ (forall r, all = QRange r -> r_step r = 1) ->
  (forall x, In x (it_list it) -> In x (sseq_list all)) ->
  exists s, ensure_superset all (Items it) = Ok s /\ ascending (sseq_list s) /\ forall x, In x (sseq_list s) <-> In x (it_list it).
Proof.
  intros W A OK C I. destruct (msds_items it OK) as (s & E & K & M & A' & NE). exists s. unfold ensure_superset. rewrite E. cbn [bind].
  rewrite (is_superset_accept all s); auto.
  - destruct C as [(x & y & X & Y & D)|C]; [left|now right]. apply M in X, Y.
    destruct (sseq_list s) as [|a [|b l]]; [contradiction| |unfold zlen; cbn; lia].
    destruct X as [X|[]], Y as [Y|[]]. congruence.
  - intros x Hx. apply I, M, Hx.
Qed.

(* ---------------- slices ---------------- *)

Lemma slice_positions_ok s n : 0 <= n -> slice_step s <> 0 -> exists p, slice_positions s n = Ok p /\ r_step p = slice_step s /\
  forall i, In i (range_list p) <-> picks n s i.
Proof.
  intros Hn NZ. unfold slice_positions. change (match sl_step s with None => 1 | Some v => v end) with (slice_step s). cbv zeta.
  destruct (slice_step s =? 0) eqn:Z0; [lia|]. clear Z0. eexists. split; [reflexivity|]. split; [reflexivity|]. intros i.
  rewrite <- range_mem_In by exact NZ. unfold range_mem, picks, counted. cbn [r_start r_stop r_step].
  destruct (slice_step s <? 0) eqn:Neg.
  - replace (0 <? slice_step s) with false by lia.
    set (hi' := match sl_start s with None => n - 1 | Some v => if v <? 0 then Z.max (v + n) (-1) else Z.min v (n - 1) end).
    set (lo' := match sl_stop s with None => -1 | Some v => if v <? 0 then Z.max (v + n) (-1) else Z.min v (n - 1) end).
    set (hi := Z.min (n - 1) (match sl_start s with None => n - 1 | Some v => if v <? 0 then v + n else v end)).
    assert (HI : hi' = hi \/ hi' = -1 /\ hi < 0) by (unfold hi, hi'; destruct (sl_start s) as [v|]; [destruct (v <? 0) eqn:?|]; lia).
    assert (LO : (lo' < i <-> forall v, sl_stop s = Some v -> (if v <? 0 then v + n else v) < i) \/ i < 0 \/ n <= i).
    { unfold lo'. destruct (Z_lt_dec i 0); [auto|]. destruct (Z_le_dec n i); [auto|]. left.
      destruct (sl_stop s) as [v|]; [|split; [intros _ v Hv; discriminate|intros _; lia]]. split.
      - intros H w E. injection E as <-. destruct (v <? 0) eqn:?; lia.
      - intros H. specialize (H v eq_refl). destruct (v <? 0) eqn:?; lia. }
    assert (LB : -1 <= lo') by (unfold lo'; destruct (sl_stop s) as [v|]; [destruct (v <? 0) eqn:?|]; lia).
    assert (MO : forall h, (i - h) mod slice_step s = 0 <-> (h - i) mod (- slice_step s) = 0).
    { intros h. replace (h - i) with (- (i - h)) by lia. rewrite Z.mod_opp_opp by lia. lia. }
    specialize (MO hi). split.
    + intros H. apply andb_prop in H. destruct H as (H1 & H2). destruct HI as [HI|HI]; [|lia]. rewrite HI in *.
      assert (i <= hi) by lia. assert (hi <= n - 1) by (unfold hi; lia).
      split; [lia|]. split; [lia|]. intros _. split; [lia|]. split; [apply MO; lia|]. destruct LO as [LO|LO]; [apply LO|]; lia.
    + intros (B & _ & H). destruct (H ltac:(lia)) as (H1 & H2 & H3). fold hi in H1, H2. destruct HI as [HI|HI]; [|lia]. rewrite HI.
      apply andb_true_intro. split; [|apply MO in H2; lia]. destruct LO as [LO|LO]; [|lia]. apply LO in H3. lia.
  - replace (0 <? slice_step s) with true by lia.
    set (lo' := match sl_start s with None => 0 | Some v => if v <? 0 then Z.max (v + n) 0 else Z.min v n end).
    set (hi' := match sl_stop s with None => n | Some v => if v <? 0 then Z.max (v + n) 0 else Z.min v n end).
    set (lo := Z.max 0 (match sl_start s with None => 0 | Some v => if v <? 0 then v + n else v end)).
    assert (LO : lo' = lo \/ lo' = n /\ n < lo) by (unfold lo, lo'; destruct (sl_start s) as [v|]; [destruct (v <? 0) eqn:?|]; lia).
    assert (HI : (i < hi' <-> forall v, sl_stop s = Some v -> i < (if v <? 0 then v + n else v)) \/ i < 0 \/ n <= i).
    { unfold hi'. destruct (Z_lt_dec i 0); [auto|]. destruct (Z_le_dec n i); [auto|]. left.
      destruct (sl_stop s) as [v|]; [|split; [intros _ v Hv; discriminate|intros _; lia]]. split.
      - intros H w E. injection E as <-. destruct (v <? 0) eqn:?; lia.
      - intros H. specialize (H v eq_refl). destruct (v <? 0) eqn:?; lia. }
    assert (HB : hi' <= n) by (unfold hi'; destruct (sl_stop s) as [v|]; [destruct (v <? 0) eqn:?|]; lia).
    split.
    + intros H. apply andb_prop in H. destruct H as (H1 & H2). destruct LO as [LO|LO]; [|lia]. rewrite LO in *.
      assert (0 <= lo) by (unfold lo; lia). split; [lia|]. split; [|lia]. intros _. split; [lia|]. split; [lia|]. destruct HI as [HI|HI]; [apply HI|]; lia.
    + intros (B & H & _). destruct (H ltac:(lia)) as (H1 & H2 & H3). fold lo in H1, H2. destruct LO as [LO|LO]; [|lia]. rewrite LO.
      apply andb_true_intro. split; [|lia]. destruct HI as [HI|HI]; [|lia]. apply HI in H3. lia.
Qed.

Lemma div_scale m k c : 1 <= m -> 0 < k -> 0 < c -> (m * k - 1) / (c * k) = (m - 1) / c.
Proof.
  intros Hm Hk Hc. rewrite (Z.mul_comm c k), <- Z.div_div by lia. f_equal.
  replace (m * k - 1) with ((k - 1) + (m - 1) * k) by lia. rewrite Z.div_add by lia. rewrite Z.div_small by lia. lia.
Qed.
Lemma range_scale s k p : range_ok p -> k <> 0 ->
  range_list (mk_range (s + r_start p * k) (s + r_stop p * k) (r_step p * k)) = map (fun i => s + i * k) (range_list p).
Proof.
  intros W K. unfold range_ok in W. destruct p as [a b c]. cbn [r_start r_stop r_step] in *.
  assert (L : range_len (mk_range (s + a * k) (s + b * k) (c * k)) = range_len (mk_range a b c)).
  { unfold range_len. cbn [r_start r_stop r_step].
    destruct (Z_lt_dec 0 k) as [Pk|Nk]; destruct (Z_lt_dec 0 c) as [Pc|Nc].
    - replace (0 <? c * k) with true by nia. replace (0 <? c) with true by lia. destruct (a <? b) eqn:E.
      + replace (s + a * k <? s + b * k) with true by nia. f_equal. replace (s + b * k - 1 - (s + a * k)) with ((b - a) * k - 1) by lia.
        rewrite div_scale by lia. f_equal. lia.
      + replace (s + a * k <? s + b * k) with false by nia. reflexivity.
    - replace (0 <? c * k) with false by nia. replace (0 <? c) with false by lia. destruct (b <? a) eqn:E.
      + replace (s + b * k <? s + a * k) with true by nia. f_equal. replace (s + a * k - 1 - (s + b * k)) with ((a - b) * k - 1) by lia.
        replace (- (c * k)) with (- c * k) by lia. rewrite div_scale by lia. f_equal. lia.
      + replace (s + b * k <? s + a * k) with false by nia. reflexivity.
    - replace (0 <? c * k) with false by nia. replace (0 <? c) with true by lia. destruct (a <? b) eqn:E.
      + replace (s + b * k <? s + a * k) with true by nia. f_equal. replace (s + a * k - 1 - (s + b * k)) with ((b - a) * (- k) - 1) by lia.
        replace (- (c * k)) with (c * - k) by lia. rewrite div_scale by lia. f_equal. lia.
      + replace (s + b * k <? s + a * k) with false by nia. reflexivity.
    - replace (0 <? c * k) with true by nia. replace (0 <? c) with false by lia. destruct (b <? a) eqn:E.
      + replace (s + a * k <? s + b * k) with true by nia. f_equal. replace (s + b * k - 1 - (s + a * k)) with ((a - b) * (- k) - 1) by lia.
        replace (c * k) with (- c * - k) by lia. rewrite div_scale by lia. f_equal. lia.
      + replace (s + a * k <? s + b * k) with false by nia. reflexivity. }
  unfold range_list. rewrite L, map_map. apply map_ext. intros i. cbn [r_start r_step]. lia.
Qed.


Lemma sorted_range_pos p : range_ok p -> 0 < r_step p -> ascending (range_list p).
Proof. intros W P. pose proof (range_sorted p W) as S. replace (0 <? r_step p) with true in S by lia. exact S. Qed.

(* the result of slicing a sequence *)
Lemma sliced all s : sseq_wf all -> (forall l, all <> QRev l) -> slice_step s <> 0 ->
  exists q, ensure_superset all (Sliced s) = Ok q /\ sseq_wf q /\
    (forall x, In x (sseq_list q) <-> exists i, picks (zlen (sseq_list all)) s i /\ nth_error (sseq_list all) (Z.to_nat i) = Some x) /\
    (ascending (sseq_list all) -> 0 < slice_step s -> ascending (sseq_list q)).
Proof.
  intros W NR NZ. destruct (slice_positions_ok s (zlen (sseq_list all)) (zlen_nonneg _) NZ) as (p & EP & SP & P).
  assert (NTH : forall i, picks (zlen (sseq_list all)) s i -> nth_error (sseq_list all) (Z.to_nat i) = Some (nth (Z.to_nat i) (sseq_list all) 0)).
  { intros i (B & _). apply nth_error_nth'. unfold zlen in B. lia. }
  assert (WP : range_ok p) by (unfold range_ok; now rewrite SP).
  unfold ensure_superset, sseq_slice. destruct all as [r|l|l]; [| |now exfalso; apply (NR l)].
  - cbn [sseq_list] in *. unfold range_slice. rewrite <- range_list_length, EP. cbn [bind]. eexists. split; [reflexivity|]. cbn [sseq_wf] in W.
    unfold range_ok in *.
    pose proof (range_scale (r_start r) (r_step r) p WP W) as SC.
    split; [cbn; unfold range_ok; cbn [r_step]; nia|]. cbn [sseq_list]. rewrite SC. split.
    + intros x. rewrite in_map_iff. split.
      * intros (i & <- & I). apply P in I. exists i. split; [exact I|]. rewrite (NTH i I). f_equal. apply range_list_nth.
        rewrite range_list_length in I. destruct I as (B & _). exact B.
      * intros (i & I & E). exists i. split; [|now apply P]. rewrite (NTH i I) in E. injection E as <-. symmetry. apply range_list_nth.
        rewrite range_list_length in I. destruct I as (B & _). exact B.
    + intros A P1. destruct (range_ascending r W A) as [P2|P2].
      * rewrite <- SC. apply sorted_range_pos; [unfold range_ok|]; cbn [r_step]; nia.
      * assert (L1 : range_len p <= 1).
        { destruct (Z_le_dec (range_len p) 1) as [|N]; [assumption|exfalso].
          assert (I0 : In (r_start p + 0 * r_step p) (range_list p)) by (apply range_list_In; exists 0; lia).
          assert (I1 : In (r_start p + 1 * r_step p) (range_list p)) by (apply range_list_In; exists 1; lia).
          apply P in I0, I1. rewrite range_list_length in I0, I1. destruct I0 as (B0 & _), I1 as (B1 & _). lia. }
        rewrite <- range_list_length in L1. destruct (range_list p) as [|a [|b t]]; [constructor|repeat constructor|]. unfold zlen in L1. cbn in L1. lia.
  - cbn [sseq_list] in *. unfold list_slice. rewrite EP. cbn [bind].
    rewrite (map_res_ok _ (fun i => nth (Z.to_nat i) l 0)).
    2:{ intros i I. apply P in I. destruct I as (B & _). now apply py_get_ok. }
    cbn [bind]. eexists. split; [reflexivity|]. cbn [sseq_wf sseq_list]. split; [apply sorted_set_sorted|]. split; [|intros; apply sorted_set_sorted].
    intros x. unfold sfs_new. rewrite sorted_set_In, in_map_iff. split.
    + intros (i & <- & I). apply P in I. exists i. split; [exact I|]. now apply NTH.
    + intros (i & I & E). exists i. split; [|now apply P]. rewrite (NTH i I) in E. now injection E.
Qed.
Lemma sliced_zero all s : (forall l, all <> QRev l) -> slice_step s = 0 -> ensure_superset all (Sliced s) = Err ValueError.
Proof.
  intros NR Z0. assert (E : forall n, slice_positions s n = Err ValueError).
  { intros n. unfold slice_positions. change (match sl_step s with None => 1 | Some v => v end) with (slice_step s). now rewrite Z0. }
  unfold ensure_superset, sseq_slice, range_slice, list_slice. destruct all as [r|l|l]; [| |now exfalso; apply (NR l)]; now rewrite E.
Qed.

(* ---------------- the line numbers of a reader ---------------- *)

Definition plain_seq (s : sseq) : Prop := sseq_wf s /\ forall l, s <> QRev l.
Lemma compress_plain l s : StronglySorted Z.lt l -> compress_sorted_sequence_to_range (QSet l) = Ok s -> plain_seq s.
Proof.
  intros S E. unfold compress_sorted_sequence_to_range in E. destruct (_ =? 1).
  - destruct (sseq_get _ _); [|discriminate]. injection E as <-. split; [cbn; unfold range_ok; cbn; lia|discriminate].
  - destruct (measure_stride_sseq (QSet l)) as [[d|]|]; [| |discriminate]; cbn [bind] in E.
    + destruct (sseq_get (QSet l) 0) as [a|]; [|discriminate]. cbn [bind] in E. destruct (sseq_get (QSet l) (-1)) as [b|]; [|discriminate].
      cbn [bind] in E. unfold py_range in E. destruct (d =? 0) eqn:Z0; [discriminate|]. injection E as <-. split; [cbn; unfold range_ok; cbn; lia|discriminate].
    + injection E as <-. split; [exact S|discriminate].
Qed.
Lemma msds_plain it s : (forall r, it = ItRange r -> r_step r <> 0) -> make_sorted_distinct_sequence it SAscending = Ok s -> plain_seq s.
Proof.
  intros W E. assert (Q : (exists r, it = ItRange r) \/ compress_sorted_sequence_to_range (QSet (sfs_new (it_list it))) = Ok s).
  { destruct it; [left; eauto| | |]; right; exact E. }
  destruct Q as [(r & ->)|Q]; [|eapply compress_plain; eauto; apply sorted_set_sorted].
  unfold make_sorted_distinct_sequence in E. destruct (0 <? r_step r); injection E as <-; (split; [cbn|discriminate]).
  - now apply W.
  - apply range_ok_reversed. now apply W.
Qed.
Definition plain_cat (c : catalog2) : Prop := plain_seq (cat2_i_range c) /\ plain_seq (cat2_j_range c).
Ltac msds_wf := apply (msds_plain (ItIter _)); [discriminate|].
Lemma ranges_plain l i j v : make_sorted_ranges l = Ok (Some (i, j, v)) -> plain_seq i /\ plain_seq j.
Proof.
  unfold make_sorted_ranges. destruct (make_sorted_distinct_sequence (ItIter (map (fun p => fst (fst p)) l)) SAscending) as [a|] eqn:EA; [|discriminate].
  destruct (make_sorted_distinct_sequence (ItIter (map (fun p => snd (fst p)) l)) SAscending) as [b|] eqn:EB; [|discriminate]. cbn [bind].
  destruct (negb _); [discriminate|]. destruct (is_sorted _ _ _ _) as [up|]; [|discriminate]. cbn [bind].
  destruct (if up then _ else _) as [down|]; [|discriminate]. cbn [bind]. destruct (negb down); [discriminate|].
  destruct (make_sorted_distinct_sequence (ItSeq (map snd l)) SNone) as [w|]; [|discriminate]. cbn [bind]. destruct (negb _); [discriminate|].
  intros E. injection E as <- <- <-. split; (eapply msds_plain; [|eassumption]); discriminate.
Qed.
Lemma last_plain l c : make_last_index_varies_quickest_catalog_2d l = Ok (Some c) -> plain_cat c.
Proof.
  unfold make_last_index_varies_quickest_catalog_2d. cbv zeta. destruct (make_sorted_ranges _) as [[((i & j) & v)|]|] eqn:E; [| |discriminate]; cbn [bind]; [|discriminate].
  unfold last_index_catalog. destruct (negb _); [discriminate|]. destruct (catalog2d_init _ _); [|discriminate]. cbn [bind]. intros Q. injection Q as <-.
  exact (ranges_plain _ _ _ _ E).
Qed.
Lemma first_plain l c : make_first_index_varies_quickest_catalog_2d l = Ok (Some c) -> plain_cat c.
Proof.
  unfold make_first_index_varies_quickest_catalog_2d. cbv zeta. destruct (make_sorted_ranges _) as [[((i & j) & v)|]|] eqn:E; [| |discriminate]; cbn [bind]; [|discriminate].
  unfold first_index_catalog. destruct (negb _); [discriminate|]. destruct (catalog2d_init _ _); [|discriminate]. cbn [bind]. intros Q. injection Q as <-.
  exact (ranges_plain _ _ _ _ E).
Qed.
Lemma dict_plain l c : make_dictionary_catalog_2d l = Ok c -> plain_cat c.
Proof.
  unfold make_dictionary_catalog_2d. cbv zeta. destruct (make_sorted_distinct_sequence _ _) as [i|] eqn:EI; [|discriminate]. cbn [bind].
  destruct (make_sorted_distinct_sequence (ItIter (map (fun p => snd (fst p)) _)) _) as [j|] eqn:EJ; [|discriminate]. cbn [bind].
  unfold dictionary_catalog_2d. destruct (catalog2d_init _ _); [|discriminate]. cbn [bind]. destruct (dict2_fill _ _ _ _); [|discriminate]. cbn [bind].
  intros Q. injection Q as <-. split; (eapply msds_plain; [|eassumption]); discriminate.
Qed.
Lemma create2_plain items c : fst (create2 items) = Ok (Some c) -> plain_cat c.
Proof.
  unfold create2. cbv zeta. destruct (contains_duplicates_by _ _) as [[]|]; cbn [fst]; [discriminate| |discriminate].
  destruct (create_catalog_2 _) as [[c'|] l'] eqn:E; cbn; [|discriminate]. intros Q. injection Q as ->.
  unfold create_catalog_2 in E. cbv zeta in E.
  destruct (make_last_index_varies_quickest_catalog_2d _) as [o1|] eqn:E1; [|discriminate].
  destruct (match o1 with Some c0 => if truthy o1 then Some c0 else None | None => None end) as [c1|] eqn:T1.
  - destruct o1 as [c0|]; [|discriminate]. destruct (truthy (Some c0)); [|discriminate]. injection T1 as ->. injection E as -> _. eapply last_plain; eauto.
  - assert (E' : match make_first_index_varies_quickest_catalog_2d (sort_by key12_leb (sort_by key12_leb items)) with
                 | Err e => (Err e, sort_by key21_leb (sort_by key12_leb (sort_by key12_leb items)))
                 | Ok o2 => match o2, truthy o2 with
                            | Some c, true => (Ok c, sort_by key21_leb (sort_by key12_leb (sort_by key12_leb items)))
                            | _, _ => (make_dictionary_catalog_2d (sort_by key21_leb (sort_by key12_leb (sort_by key12_leb items))),
                                       sort_by key12_leb (sort_by key21_leb (sort_by key12_leb (sort_by key12_leb items))))
                            end
                 end = (Ok c, l')).
    { destruct o1 as [c0|]; [|exact E]. destruct (truthy (Some c0)); [discriminate|exact E]. }
    clear E. destruct (make_first_index_varies_quickest_catalog_2d _) as [o2|] eqn:E2; [|discriminate].
    destruct o2 as [c2|]; [destruct (truthy (Some c2))|]; injection E' as E' _.
    + subst c2. eapply first_plain; eauto.
    + eapply dict_plain; eauto.
    + eapply dict_plain; eauto.
Qed.

(* ---------------- reading from a file that does not change ---------------- *)

(* m succeeds wherever the file is positioned, with an answer that satisfies P *)
Definition reads {A} (d : list Z) (m : io A) (P : A -> Prop) : Prop :=
  forall q, exists a q', m (mk_file d q) = (Ok a, mk_file d q') /\ P a.
Definition fails {A} (d : list Z) (m : io A) (y : exn) : Prop := forall q, exists q', m (mk_file d q) = (Err y, mk_file d q').

Section Reads.
Variable d : list Z.
Lemma reads_ret {A} (a : A) (P : A -> Prop) : P a -> reads d (ret a) P.
Proof. intros H q. exists a, q. auto. Qed.
Lemma reads_lift {A} (x : res A) a (P : A -> Prop) : x = Ok a -> P a -> reads d (lift x) P.
Proof. intros -> H q. exists a, q. auto. Qed.
Lemma reads_bind {A B} (m : io A) (k : A -> io B) P Q : reads d m P -> (forall a, P a -> reads d (k a) Q) -> reads d (ibind m k) Q.
Proof.
  intros M K q. destruct (M q) as (a & q1 & E & Pa). destruct (K a Pa q1) as (b & q2 & E' & Qb). exists b, q2. unfold ibind. rewrite E, E'. auto.
Qed.
Lemma reads_lift_bind {A B} (x : res A) a (k : A -> io B) Q : x = Ok a -> reads d (k a) Q -> reads d (ibind (lift x) k) Q.
Proof. intros -> K q. destruct (K q) as (b & q2 & E' & Qb). exists b, q2. unfold ibind, lift. rewrite E'. auto. Qed.
Lemma reads_weaken {A} (m : io A) (P Q : A -> Prop) : reads d m P -> (forall a, P a -> Q a) -> reads d m Q.
Proof. intros M I q. destruct (M q) as (a & q1 & E & Pa). eauto. Qed.
Lemma reads_map {A B} (f : A -> io B) (P : A -> B -> Prop) l : (forall x, In x l -> reads d (f x) (P x)) -> reads d (map_io f l) (Forall2 P l).
Proof.
  induction l as [|x l IH]; intros H; [apply reads_ret; constructor|]. cbn [map_io].
  apply (reads_bind _ _ (P x)); [apply H; now left|]. intros y Py.
  apply (reads_bind _ _ (Forall2 P l)); [apply IH; intros; apply H; now right|]. intros ys Pys. apply reads_ret. now constructor.
Qed.
Lemma fails_bind {A B} (m : io A) (k : A -> io B) y : fails d m y -> fails d (ibind m k) y.
Proof. intros M q. destruct (M q) as (q1 & E). exists q1. unfold ibind. now rewrite E. Qed.
Lemma fails_after {A B} (m : io A) (k : A -> io B) P y : reads d m P -> (forall a, P a -> fails d (k a) y) -> fails d (ibind m k) y.
Proof.
  intros M K q. destruct (M q) as (a & q1 & E & Pa). destruct (K a Pa q1) as (q2 & E'). exists q2. unfold ibind. now rewrite E, E'.
Qed.
Lemma fails_lift_bind {A B} (x : res A) a (k : A -> io B) y : x = Ok a -> fails d (k a) y -> fails d (ibind (lift x) k) y.
Proof. intros -> K q. destruct (K q) as (q2 & E'). exists q2. unfold ibind, lift. now rewrite E'. Qed.
(* every step succeeds or fails with y, and one fails *)
Lemma fails_map {A B} (f : A -> io B) y l : (forall x, In x l -> reads d (f x) (fun _ => True) \/ fails d (f x) y) ->
  (exists x, In x l /\ fails d (f x) y) -> fails d (map_io f l) y.
Proof.
  induction l as [|x l IH]; intros H (x' & I & F); [destruct I|]. cbn [map_io].
  destruct (H x (or_introl eq_refl)) as [R|R]; [|now apply fails_bind].
  destruct I as [->|I]; [now apply fails_bind|]. eapply fails_after; [exact R|]. intros a _. apply fails_bind. apply IH; eauto.
  intros z Hz. apply H. now right.
Qed.
End Reads.

(* ---------------- extraction ---------------- *)

Section Extract.
Variables (d : list Z) (enc : option encoding) (bc tc : fmt) (e : endian) (dim : option Z) (r : reader) (t : segytype) (ts : list tinfo) (native : endian).
Hypothesis RD : readable d enc bc tc.
Hypothesis OP : opens d enc bc tc e dim r.
Hypothesis TR : traces_of d tc e r t ts.

Lemma part_read k tr a b : trace_of ts k tr -> 0 <= a <= b -> b <= t_count tr -> t_pos tr + 240 + sample_size t * b <= zlen d ->
  reads d (rd_trace_samples native r k (Some a) (Some b))
    (fun ss => zlen ss = b - a /\ forall i, 0 <= i < b - a -> sample_of d e t tr (a + i) (nth (Z.to_nat i) ss (RInt 0))).
Proof.
  intros K AB BC LEN q. destruct (samples_ok d enc bc tc e dim r t ts RD OP TR native k (Some a) (Some b) q) as (q' & EF & SO).
  destruct (rd_trace_samples native r k (Some a) (Some b) (mk_file d q)) as [x f'] eqn:E. cbn [fst snd] in *. subst f'.
  inversion SO as [N|tr' K' N|tr' K' N1 N2 N3|tr' ss K' N1 N2 N3 ZL SA]; subst; cbn [or_else] in *;
    try (pose proof (trace_of_unique _ _ _ _ K K') as <-).
  - destruct K as (K & _). lia.
  - lia.
  - lia.
  - exists ss, q'. split; [reflexivity|]. split; [exact ZL|]. intros i Hi. split; [lia|]. specialize (SA i ltac:(lia)).
    replace (t_pos tr + 240 + sample_size t * (a + i)) with (t_pos tr + 240 + sample_size t * a + sample_size t * i) by lia. exact SA.
Qed.
Lemma all_read k tr : trace_of ts k tr -> 0 <= t_count tr -> whole d t tr ->
  reads d (rd_trace_samples native r k None None)
    (fun ss => zlen ss = t_count tr /\ forall i, 0 <= i < t_count tr -> sample_of d e t tr i (nth (Z.to_nat i) ss (RInt 0))).
Proof.
  intros K C LEN q. unfold whole in LEN. destruct (samples_ok d enc bc tc e dim r t ts RD OP TR native k None None q) as (q' & EF & SO).
  destruct (rd_trace_samples native r k None None (mk_file d q)) as [x f'] eqn:E. cbn [fst snd] in *. subst f'.
  inversion SO as [N|tr' K' N|tr' K' N1 N2 N3|tr' ss K' N1 N2 N3 ZL SA]; subst; cbn [or_else] in *;
    try (pose proof (trace_of_unique _ _ _ _ K K') as <-).
  - destruct K as (K & _). lia.
  - lia.
  - lia.
  - exists ss, q'. split; [reflexivity|]. split; [lia|]. intros i Hi. split; [lia|]. specialize (SA i ltac:(lia)).
    replace (t_pos tr + 240 + sample_size t * i) with (t_pos tr + 240 + sample_size t * 0 + sample_size t * i) by lia. exact SA.
Qed.
Lemma part_fails k tr a b : trace_of ts k tr -> ~ 0 <= a <= b \/ ~ b <= t_count tr ->
  fails d (rd_trace_samples native r k (Some a) (Some b)) ValueError.
Proof.
  intros K H q. destruct (samples_ok d enc bc tc e dim r t ts RD OP TR native k (Some a) (Some b) q) as (q' & EF & SO).
  destruct (rd_trace_samples native r k (Some a) (Some b) (mk_file d q)) as [x f'] eqn:E. cbn [fst snd] in *. subst f'.
  inversion SO as [N|tr' K' N|tr' K' N1 N2 N3|tr' ss K' N1 N2 N3 ZL SA]; subst; cbn [or_else] in *;
    try (pose proof (trace_of_unique _ _ _ _ K K') as <-); eauto; lia.
Qed.


Lemma sub_reads names : names <> [] -> in_stored_order tc names -> signed_fields tc names -> exists sp dts, sub_packer r names = Ok sp /\ namedtuple_check names = Ok tt /\
  map_res (field_dtype (fst sp)) names = Ok dts /\ (forall n, In n names -> exists dt, field_dtype (fst sp) n = Ok dt) /\
  forall k tr, trace_of ts k tr ->
    reads d (rd_trace_header r k (Some (snd sp))) (fun h => forall n, In n names -> exists v, hdr_get h n = Ok v /\ field_at tc e d (t_pos tr) n v) \/
    (fails d (rd_trace_header r k (Some (snd sp))) EOFError /\ exists n, In n names /\ bad_field_at tc e d (t_pos tr) n).
Proof.
  intros NE (HF & SORT) SG. destruct (get_opened d enc bc tc e dim r t ts RD OP TR) as (x & _ & O). pose proof (op_packer _ _ _ _ _ _ _ _ _ O) as PK.
  destruct RD as (HB & _ & T & _). pose proof T as ((C & TF & ST & OR & LEN & MK) & _).
  assert (HO : forall f g ns1 ns2 ns3, names = ns1 ++ fd_name f :: ns2 ++ fd_name g :: ns3 -> is_field tc f -> is_field tc g -> fd_offset f < fd_offset g).
  { intros f g ns1 ns2 ns3 E If Ig. exact (sorted_to_positions _ _ _ _ _ _ _ SORT E f g If Ig eq_refl eq_refl). }
  assert (PC : pk_cls (rd_packer r) = tc).
  { unfold make_header_packer in PK. destruct (compile_struct _ _ _) as [[]|]; [|discriminate]. cbn [bind] in PK. injection PK as <-. reflexivity. }
  destruct (sub_format_ok "SubFormat" tc names (class_ok_levels tc C) HF) as (sub & fs & SF & LV & NDF & SO).
  pose proof (PackingFacts.sub_class_ok sub tc _ _ fs C LV NDF SO) as SC. pose proof (sub_in_order tc _ _ sub (class_ok_levels tc C) HF HO SF) as SI.
  destruct SO as (S1 & S2 & S3).
  assert (EF : exists f, is_field sub f).
  { destruct names as [|n0 names]; [easy|]. destruct (HF n0 (or_introl eq_refl)) as (f & Hf & <-). exists f. apply S3. split; auto. now left. }
  destruct (sub_compiles sub tc _ e _ 240 C SC (conj S1 (conj S2 S3)) LEN PK EF) as (p & P).
  assert (SS : starts_ok sub). { intros f F. rewrite S1. apply ST. now apply S3. }
  assert (FP : forall f, field_pos sub f = field_pos tc f) by (intros f; unfold field_pos; now rewrite S1).
  assert (DT : forall n, In n names -> exists dt, field_dtype sub n = Ok dt).
  { intros n N. destruct (HF n N) as (f & F & E). unfold field_dtype.
    rewrite (proj2 (class_field_spec sub n f (class_ok_levels _ SC))) by (split; [apply S3; rewrite E; auto|exact E]).
    destruct (SG f F ltac:(now rewrite E)) as [Q|[Q|[Q|[]]]]; unfold field_segy_type; rewrite <- Q; cbn; eauto. }
  assert (DTS : exists dts, map_res (field_dtype sub) names = Ok dts).
  { clear - DT. induction names as [|n names IH]; cbn [map_res]; [eauto|]. destruct (DT n (or_introl eq_refl)) as (dt & ->). cbn [bind].
    destruct IH as (l & ->); [intros; apply DT; now right|]. cbn [bind]. eauto. }
  destruct DTS as (dts & DTS). exists (sub, p), dts. split.
  { unfold sub_packer. rewrite PC, SF, (op_endian _ _ _ _ _ _ _ _ _ O). cbn [bind]. now rewrite P. }
  split.
  { unfold namedtuple_check. replace (distinct_names names) with true; [reflexivity|]. symmetry. clear - SORT HF.
    induction SORT as [|n names S IH F]; [reflexivity|]. cbn [distinct_names]. rewrite IH by (intros; apply HF; now right). rewrite andb_true_r.
    apply negb_true_iff. destruct (smem n names) eqn:Q; [|reflexivity]. apply smem_In in Q. rewrite Forall_forall in F.
    destruct (HF n (or_introl eq_refl)) as (f & If & E). specialize (F n Q f f If If E E). lia. }
  split; [exact DTS|]. split; [exact DT|].
  intros k tr TO. cbn [snd]. unfold rd_trace_header. rewrite (rd_num _ _ _ _ _ _ _ _ _ O). pose proof (proj1 TO) as RG.
  replace ((0 <=? k) && (k <? zlen ts)) with true by lia. cbn [negb].
  destruct (trace_placed _ _ _ _ _ _ _ _ _ T O tr (trace_in ts k tr TO)) as (P1 & P2 & _).
  assert (R0 : forall q, read_trace_header p (Some (t_pos tr)) (mk_file d q) =
     (match pk_unpack p (py_slice d (t_pos tr) (t_pos tr + 240)) with Err ValueError => Err EOFError | x => x end, mk_file d (t_pos tr + zlen (py_slice d (t_pos tr) (t_pos tr + 240))))).
  { intros q. unfold read_trace_header. erewrite ibind_ok by reflexivity. erewrite ibind_ok by (apply seek_ok; exact P1). cbn [f_data].
    unfold ibind, read, lift. cbn [f_data f_pos]. unfold TRACE_HEADER_NUM_BYTES. reflexivity. }
  set (buf := py_slice d (t_pos tr) (t_pos tr + 240)) in *.
  assert (B : all_bytes buf) by now apply all_bytes_slice.
  assert (L : zlen buf = 240) by (unfold buf; rewrite zlen_py_slice by lia; lia).
  destruct (unpack_iff sub e p buf SC SS (or_intror SI) P B) as [(h & U & _ & H & HV)|(U & R)].
  - left. eapply reads_lift_bind; [apply (rd_offset _ _ _ _ _ _ _ _ _ O k tr TO)|]. intros q. rewrite R0, U. eexists. eexists. split; [reflexivity|].
    intros n N. destruct (HF n N) as (f & F & E). destruct (HV f) as (v & G & A & I & S). { apply S3. split; [exact F|]. now rewrite E. }
    exists v. rewrite <- E. split; [exact G|]. apply field_of_slice; auto. exists f. rewrite FP in S. auto.
  - right. split.
    + eapply fails_lift_bind; [apply (rd_offset _ _ _ _ _ _ _ _ _ O k tr TO)|]. intros q. rewrite R0, U. eauto.
    + destruct R as [R|(f & v & F & I & S & A)].
      * exfalso. apply R. unfold header_length. rewrite S2, LEN. exact L.
      * apply S3 in F. destruct F as (F & N). exists (fd_name f). split; [exact N|]. apply bad_of_slice; auto. exists f, v. rewrite FP in S. auto.
Qed.

Lemma columns_ok sub names ks hs : (forall n, In n names -> exists dt, field_dtype sub n = Ok dt) ->
  Forall2 (fun k h => exists tr, trace_of ts k tr /\ forall n, In n names -> exists v, hdr_get h n = Ok v /\ field_at tc e d (t_pos tr) n v) ks hs ->
  forall ns, (forall n, In n ns -> In n names) ->
  exists out, map_res (fun n => do _ <- field_dtype sub n ;; do vs <- map_res (fun h => hdr_get h n) hs ;; Ok (n, vs)) ns = Ok out /\
    Forall2 (fun n nv => fst nv = n /\ column d e tc ts n ks (snd nv)) ns out.
Proof.
  intros DT HS. assert (COL : forall n, In n names -> exists vs, map_res (fun h => hdr_get h n) hs = Ok vs /\ column d e tc ts n ks vs).
  { intros n N. clear DT. induction HS as [|k h ks hs (tr & TO & V) _ (vs & E & F)]; [exists []; split; [reflexivity|constructor]|].
    destruct (V n N) as (v & G & FA). exists (v :: vs). cbn [map_res]. rewrite G. cbn [bind]. rewrite E. split; [reflexivity|].
    constructor; [exists tr; auto|exact F]. }
  induction ns as [|n ns IH]; intros I; [exists []; split; [reflexivity|constructor]|].
  destruct (DT n (I n (or_introl eq_refl))) as (dt & ED). destruct (COL n (I n (or_introl eq_refl))) as (vs & EV & CV).
  destruct IH as (out & EO & FO); [intros; apply I; now right|].
  exists ((n, vs) :: out). cbn [map_res]. rewrite ED. cbn [bind]. rewrite EV. cbn [bind]. rewrite EO. split; [reflexivity|]. constructor; auto.
Qed.
Lemma headers_read names ixs : let ks := match ixs with None => rd_trace_indexes r | Some l => l end in
  names <> [] -> in_stored_order tc names -> signed_fields tc names ->
  (forall k, In k ks -> exists tr, trace_of ts k tr /\ forall n, In n names -> ~ bad_field_at tc e d (t_pos tr) n) ->
  reads d (extract_trace_headers r names ixs) (Forall2 (fun n nv => fst nv = n /\ column d e tc ts n ks (snd nv)) names).
Proof.
  intros ks NE HN SG HK. destruct (sub_reads names NE HN SG) as (sp & dts & E1 & E2 & _ & DT & RH). unfold extract_trace_headers. fold ks.
  eapply reads_lift_bind; [exact E1|]. eapply reads_lift_bind; [exact E2|].
  eapply reads_bind.
  { apply (reads_map d _ (fun k h => exists tr, trace_of ts k tr /\ forall n, In n names -> exists v, hdr_get h n = Ok v /\ field_at tc e d (t_pos tr) n v)).
    intros k K. destruct (HK k K) as (tr & TO & NB). destruct (RH k tr TO) as [G|(_ & n & N & B)]; [|exfalso; eapply NB; eauto].
    eapply reads_weaken; [exact G|]. eauto. }
  intros hs HS. cbn beta in HS.
  destruct (columns_ok (fst sp) names ks hs DT HS names (fun _ N => N)) as (out & E & F). eapply reads_lift; [exact E|exact F].
Qed.
Lemma headers_fail names ixs k tr n : let ks := match ixs with None => rd_trace_indexes r | Some l => l end in
  names <> [] -> in_stored_order tc names -> signed_fields tc names -> (forall k, In k ks -> 0 <= k < zlen ts) ->
  In k ks -> trace_of ts k tr -> In n names -> bad_field_at tc e d (t_pos tr) n ->
  fails d (extract_trace_headers r names ixs) EOFError.
Proof.
  intros ks NE HN SG HK K TO N B. destruct (sub_reads names NE HN SG) as (sp & dts & E1 & E2 & _ & DT & RH). unfold extract_trace_headers. fold ks.
  eapply fails_lift_bind; [exact E1|]. eapply fails_lift_bind; [exact E2|]. apply fails_bind. apply fails_map.
  - intros k' K'. destruct (trace_of_exists ts k' (HK k' K')) as (tr' & TO'). destruct (RH k' tr' TO') as [G|(G & _)]; [left|now right].
    eapply reads_weaken; [exact G|]. auto.
  - exists k. split; [exact K|]. destruct (RH k tr TO) as [G|(G & _)]; [|exact G]. exfalso.
    destruct (G 0) as (h & q' & _ & V). destruct (V n N) as (v & _ & FA). destruct RD as (_ & _ & ((C & _) & _) & _). exact (field_at_bad _ _ _ _ _ _ C FA B).
Qed.

Hypothesis ND : NoDup (map (fun t => (t_inline t, t_xline t)) ts).
Hypothesis DIM : dim = None \/ dim = Some 3.

Lemma index3 : (forall i j k, rd_trace_index3 r (i, j) = Ok k <-> exists tr, trace_of ts k tr /\ t_inline tr = i /\ t_xline tr = j) /\
  (forall i j, exists b, rd_has_trace_index3 r (i, j) = Ok b /\ (b = true <-> exists tr, trace_at ts i j tr)).
Proof.
  destruct (get_opened d enc bc tc e dim r t ts RD OP TR) as (x & _ & O).
  destruct (index_3d x bc tc e dim d r ts t O ND DIM) as (A & _ & B & _). split; [exact A|exact B].
Qed.
Lemma lines3 : (exists s, rd_inline_numbers r = Ok s /\ plain_seq s /\ ascending (sseq_list s) /\ forall i, In i (sseq_list s) <-> In i (map t_inline ts)) /\
  (exists s, rd_xline_numbers r = Ok s /\ plain_seq s /\ ascending (sseq_list s) /\ forall i, In i (sseq_list s) <-> In i (map t_xline ts)).
Proof.
  destruct (get_opened d enc bc tc e dim r t ts RD OP TR) as (x & _ & O).
  destruct (index_3d x bc tc e dim d r ts t O ND DIM) as (_ & _ & _ & (s1 & E1 & A1 & M1) & (s2 & E2 & A2 & M2) & _).
  destruct (kind3 x bc tc e dim d r ts t O ND DIM) as (c & K & CR). destruct (create2_plain _ _ CR) as (P1 & P2).
  assert (E1' : s1 = cat2_i_range c) by (unfold rd_inline_numbers, line_numbers in E1; rewrite K in E1; congruence).
  assert (E2' : s2 = cat2_j_range c) by (unfold rd_xline_numbers, line_numbers in E2; rewrite K in E2; congruence).
  split; [exists s1|exists s2]; subst; auto.
Qed.

Lemma at_trace_reads {A} i j (absent : A) present (P : A -> Prop) :
  ((forall tr, ~ trace_at ts i j tr) -> P absent) ->
  (forall k tr, trace_of ts k tr -> trace_at ts i j tr -> reads d (present k) P) -> reads d (at_trace r (i, j) absent present) P.
Proof.
  intros H1 H2. destruct index3 as (IX & HAS). destruct (HAS i j) as (b & EB & B). unfold at_trace.
  eapply reads_lift_bind; [exact EB|]. destruct b.
  - destruct (proj1 B eq_refl) as (tr & (I & <- & <-)). apply in_trace_of in I. destruct I as (k & K).
    eapply reads_lift_bind; [apply IX; exists tr; eauto|]. apply (H2 k tr K). repeat split. eapply trace_in; eauto.
  - apply reads_ret, H1. intros tr T. assert (false = true) by (apply B; eauto). discriminate.
Qed.
Lemma at_trace_fails {A} i j (absent : A) present y tr :
  trace_at ts i j tr -> (forall k, trace_of ts k tr -> fails d (present k) y) -> fails d (at_trace r (i, j) absent present) y.
Proof.
  intros T H2. destruct index3 as (IX & HAS). destruct (HAS i j) as (b & EB & B). unfold at_trace.
  eapply fails_lift_bind; [exact EB|]. rewrite (proj2 B (ex_intro _ tr T)). destruct T as (I & <- & <-). apply in_trace_of in I. destruct I as (k & K).
  eapply fails_lift_bind; [apply IX; exists tr; eauto|]. auto.
Qed.
Lemma dtype_ok : exists dt, make_dtype t = Ok dt.
Proof.
  destruct TR as ((code & _ & F) & _). unfold format_code in F. cbn in F.
  destruct F as [F|[F|[F|[F|[F|[]]]]]]; injection F as _ <-; cbn; eauto.
Qed.
Lemma format_of : sample_format (rd_binary r) = Ok t.
Proof. apply sample_format_ok. apply TR. Qed.

Lemma in_index_seq i j tr : trace_at ts i j tr -> In i (map t_inline ts) /\ In j (map t_xline ts).
Proof. intros (I & <- & <-). split; now apply in_map. Qed.

Lemma timeslice n inlines xlines i_all i_nums j_all j_nums :
  rd_inline_numbers r = Ok i_all -> ensure_superset i_all inlines = Ok i_nums ->
  rd_xline_numbers r = Ok j_all -> ensure_superset j_all xlines = Ok j_nums ->
  (forall tr, In tr ts -> In (t_inline tr) (sseq_list i_nums) -> In (t_xline tr) (sseq_list j_nums) -> has_sample d t tr n) ->
  reads d (extract_timeslice_3d native r n inlines xlines)
    (grid (fun i j => sample_cell d e t ts i j n) (sseq_list i_nums) (sseq_list j_nums)).
Proof.
  intros E1 E2 E3 E4 H. unfold extract_timeslice_3d. do 4 (eapply reads_lift_bind; [eassumption|]).
  eapply reads_lift_bind; [exact format_of|]. destruct dtype_ok as (dt & ED). eapply reads_lift_bind; [exact ED|].
  apply reads_map. intros i Hi. apply reads_map. intros j Hj. apply at_trace_reads.
  - intros N. right. auto.
  - intros k tr K T. destruct T as (I & <- & <-). destruct (H tr I Hi Hj) as (B & LEN).
    eapply reads_bind; [apply (part_read k tr n (n + 1)); auto; lia|]. intros ss (ZL & SS). cbn beta in *.
    eapply reads_lift_bind; [apply (py_get_ok ss 0 (RInt 0)); lia|]. apply reads_ret. left. exists tr, (nth (Z.to_nat 0) ss (RInt 0)).
    split; [repeat split; auto|]. split; [reflexivity|]. specialize (SS 0 ltac:(lia)). now rewrite Z.add_0_r in SS.
Qed.
Lemma timeslice_fails n inlines xlines i_all i_nums j_all j_nums tr :
  rd_inline_numbers r = Ok i_all -> ensure_superset i_all inlines = Ok i_nums ->
  rd_xline_numbers r = Ok j_all -> ensure_superset j_all xlines = Ok j_nums ->
  In tr ts -> In (t_inline tr) (sseq_list i_nums) -> In (t_xline tr) (sseq_list j_nums) -> ~ 0 <= n < t_count tr ->
  (forall tr, In tr ts -> whole d t tr) ->
  fails d (extract_timeslice_3d native r n inlines xlines) ValueError.
Proof.
  intros E1 E2 E3 E4 I Hi Hj B WH. unfold extract_timeslice_3d. do 4 (eapply fails_lift_bind; [eassumption|]).
  eapply fails_lift_bind; [exact format_of|]. destruct dtype_ok as (dt & ED). eapply fails_lift_bind; [exact ED|].
  pose (f := fun i j => at_trace r (i, j) None (fun k =>
        run ss <- rd_trace_samples native r k (Some n) (Some (n + 1)) ;; run v <- lift (py_get ss 0) ;; ret (Some v))).
  assert (C : forall i j, reads d (f i j) (fun _ => True) \/ fails d (f i j) ValueError).
  { intros i j. destruct index3 as (_ & HAS). destruct (HAS i j) as (b & _ & Bb).
    assert (Q : (exists tr, trace_at ts i j tr /\ ~ 0 <= n < t_count tr) \/ forall tr, trace_at ts i j tr -> 0 <= n < t_count tr).
    { destruct b; [|right; intros tr' T; assert (false = true) by (apply Bb; eauto); discriminate].
      destruct (proj1 Bb eq_refl) as (tr' & T). destruct (Z_le_dec 0 n); [destruct (Z_lt_dec n (t_count tr'))|]; [|left; exists tr'; split; [exact T|lia]..].
      right. intros tr2 T2. assert (tr2 = tr') as ->; [|lia]. destruct T as (I1 & H1 & H2), T2 as (I2 & H3 & H4).
      revert I1 I2. clear - ND H1 H2 H3 H4. induction ts as [|x l IH]; intros I1 I2; [destruct I1|]. cbn [map] in ND. inversion ND as [|? ? N1 N2]; subst.
      destruct I1 as [->|I1], I2 as [->|I2]; auto.
      - exfalso. apply N1. apply in_map_iff. exists tr2. rewrite H3, H4. auto.
      - exfalso. apply N1. apply in_map_iff. exists tr'. rewrite H3, H4. auto. }
    destruct Q as [(tr' & T & Q)|Q].
    - right. apply at_trace_fails with tr'; auto. intros k K. apply fails_bind. apply (part_fails k tr'); auto. lia.
    - left. apply at_trace_reads; [auto|]. intros k tr' K T. specialize (Q tr' T). assert (W := WH tr' (proj1 T)). unfold whole in W.
      pose proof (sample_size_pos t). eapply reads_bind; [apply (part_read k tr' n (n + 1)); auto; nia|]. intros ss (ZL & _). cbn beta in *.
      eapply reads_lift_bind; [apply (py_get_ok ss 0 (RInt 0)); lia|]. now apply reads_ret. }
  assert (CF : fails d (f (t_inline tr) (t_xline tr)) ValueError).
  { apply at_trace_fails with tr; [repeat split; auto|]. intros k K. apply fails_bind. apply (part_fails k tr); auto. lia. }
  assert (CR : forall i, reads d (map_io (f i) (sseq_list j_nums)) (fun _ => True) \/ fails d (map_io (f i) (sseq_list j_nums)) ValueError).
  { intros i. generalize (sseq_list j_nums). intros l. induction l as [|j l IH]; [left; now apply reads_ret|]. cbn [map_io].
    destruct (C i j) as [C1|C1]; [|right; now apply fails_bind]. destruct IH as [IH|IH].
    - left. eapply reads_bind; [exact C1|]. intros a _. eapply reads_bind; [exact IH|]. intros b _. now apply reads_ret.
    - right. eapply fails_after; [exact C1|]. intros a _. now apply fails_bind. }
  apply fails_map; [intros; apply CR|]. exists (t_inline tr). split; [exact Hi|]. apply fails_map; [intros; apply C|]. eauto.
Qed.

Lemma range_row_reads k tr q : trace_of ts k tr -> 0 < r_step q -> range_list q <> [] -> (forall s, In s (range_list q) -> 0 <= s < t_count tr) -> whole d t tr ->
  reads d (range_row native r q k) (Forall2 (fun s c => exists v, c = Some v /\ sample_of d e t tr s v) (range_list q)).
Proof.
  intros K SP NE IN W.
  assert (L : 0 < range_len q).
  { rewrite <- range_list_length. destruct (range_list q); [congruence|]. unfold zlen. cbn. lia. }
  assert (WQ : range_ok q) by (unfold range_ok; lia).
  assert (S0 := IN _ (range_start_In q WQ L)).
  assert (SL : 0 <= r_start q + (range_len q - 1) * r_step q < t_count tr) by (apply IN, range_list_In; exists (range_len q - 1); lia).
  destruct (counts_ok d enc bc tc e dim r t ts RD OP TR) as (_ & _ & CNT & _).
  unfold range_row. eapply reads_lift_bind; [apply (CNT k tr K)|].
  eapply reads_bind; [apply (all_read k tr K); [lia|exact W]|]. intros ss (ZL & SS). cbn beta in *.
  assert (EQ : list_slice ss (mk_slice (Some (r_start q)) (Some (Z.min (r_stop q) (t_count tr))) (Some (r_step q))) =
    Ok (map (fun s => nth (Z.to_nat s) ss (RInt 0)) (range_list q))).
  { assert (ST : r_start q < r_stop q).
    { unfold range_len in L. replace (0 <? r_step q) with true in L by lia. destruct (r_start q <? r_stop q) eqn:E; lia. }
    unfold list_slice, slice_positions. cbn [sl_step sl_start sl_stop]. replace (r_step q =? 0) with false by lia. cbv zeta.
    replace (r_step q <? 0) with false by lia. replace (r_start q <? 0) with false by lia.
    replace (Z.min (r_stop q) (t_count tr) <? 0) with false by lia. cbn [bind].
    replace (Z.min (r_start q) (zlen ss)) with (r_start q) by lia. replace (Z.min (Z.min (r_stop q) (t_count tr)) (zlen ss)) with (Z.min (r_stop q) (t_count tr)) by lia.
    assert (RL : range_list (mk_range (r_start q) (Z.min (r_stop q) (t_count tr)) (r_step q)) = range_list q).
    { apply range_list_eq; [|intros; reflexivity]. unfold range_len in *. cbn [r_start r_stop r_step]. replace (0 <? r_step q) with true in * by lia.
      replace (r_start q <? r_stop q) with true in * by lia. replace (r_start q <? Z.min (r_stop q) (t_count tr)) with true by lia. f_equal.
      destruct (Z_le_dec (r_stop q) (t_count tr)); [f_equal; lia|]. set (c := (r_stop q - 1 - r_start q) / r_step q) in *.
      pose proof (Z.mul_div_le (r_stop q - 1 - r_start q) (r_step q) SP) as D1. pose proof (Z.mul_succ_div_gt (r_stop q - 1 - r_start q) (r_step q) SP) as D2. fold c in D1, D2.
      symmetry. apply (Z.div_unique_pos _ _ _ (Z.min (r_stop q) (t_count tr) - 1 - r_start q - r_step q * c)); lia. }
    rewrite RL. apply map_res_ok. intros s Hs. apply py_get_ok. specialize (IN s Hs). lia. }
  eapply reads_lift_bind; [exact EQ|].
  eapply reads_lift; [unfold assign_row; rewrite zlen_map, range_list_length, Z.eqb_refl; reflexivity|].
  rewrite map_map. revert IN. generalize (range_list q) as l. induction l as [|s l IH]; intros IN; cbn [map]; constructor.
  - eexists. split; [reflexivity|]. apply SS. apply IN. now left.
  - apply IH. intros; apply IN. now right.
Qed.

Lemma numbered_row_reads k tr l : trace_of ts k tr -> ascending l -> l <> [] -> (forall s, In s l -> 0 <= s < t_count tr) -> whole d t tr ->
  reads d (numbered_row native r (QSet l) k) (Forall2 (fun s c => exists v, c = Some v /\ sample_of d e t tr s v) l).
Proof.
  intros K A NE IN W. destruct (counts_ok d enc bc tc e dim r t ts RD OP TR) as (_ & _ & CNT & _).
  unfold numbered_row. eapply reads_lift_bind; [apply (CNT k tr K)|]. cbn [sseq_get sseq_list].
  assert (L : (0 < length l)%nat) by (destruct l; [congruence|cbn; lia]).
  eapply reads_lift_bind; [apply (py_get_ok l 0 0); unfold zlen; lia|].
  eapply reads_lift_bind; [apply (CatalogFacts.py_get_last' l 0 NE)|].
  set (a := nth (Z.to_nat 0) l 0). set (b := nth (length l - 1) l 0).
  assert (IA : In a l) by (apply nth_In; lia). assert (IB : In b l) by (apply nth_In; lia).
  assert (AB : forall s, In s l -> a <= s <= b).
  { intros s Hs. apply (In_nth _ _ 0) in Hs. destruct Hs as (i & Hi & <-). unfold a, b. change (Z.to_nat 0) with 0%nat. split.
    - destruct i; [lia|]. pose proof (ascending_lt_nth l 0 (S i) A ltac:(lia) Hi). lia.
    - destruct (Nat.eq_dec i (length l - 1)) as [->|NE']; [lia|]. pose proof (ascending_lt_nth l i (length l - 1) A ltac:(lia) ltac:(lia)). lia. }
  pose proof (IN a IA). pose proof (IN b IB). pose proof (AB b IB). pose proof (sample_size_pos t). unfold whole in W.
  replace (Z.min (b + 1) (t_count tr)) with (b + 1) by lia.
  eapply reads_bind; [apply (part_read k tr a (b + 1) K); [lia|lia|nia]|]. intros ss (ZL & SS). cbn beta in *.
  eapply reads_lift.
  { apply (map_res_ok _ (fun s => Some (nth (Z.to_nat (s - a)) ss (RInt 0)))). intros s Hs. specialize (AB s Hs).
    rewrite (py_get_ok ss (s - a) (RInt 0)) by lia. reflexivity. }
  revert AB. clear - SS. generalize l as m. induction m as [|s m IH]; intros AB; cbn [map]; constructor.
  - eexists. split; [reflexivity|]. specialize (SS (s - a)). replace (a + (s - a)) with s in SS by lia. apply SS.
    specialize (AB s (or_introl eq_refl)). lia.
  - apply IH. intros; apply AB. now right.
Qed.

Lemma ensure_forward m c nums : 0 <= m -> forward c -> ensure_superset (QRange (mk_range 0 m 1)) c = Ok nums ->
  ascending (sseq_list nums) /\ plain_seq nums /\ forall q, nums = QRange q -> 0 < r_step q.
Proof.
  intros Hm F E. destruct c as [|s|it]; cbn [forward] in F.
  - injection E as <-. split; [apply sorted_range_pos; [unfold range_ok|]; cbn; lia|]. split; [split; [cbn; unfold range_ok; cbn; lia|discriminate]|].
    intros q Q. injection Q as <-. cbn. lia.
  - destruct (sliced (QRange (mk_range 0 m 1)) s) as (q & E' & W & _ & A); [cbn; unfold range_ok; cbn; lia|discriminate|lia|].
    rewrite E in E'. injection E' as <-. split; [apply A; auto; apply sorted_range_pos; [unfold range_ok|]; cbn; lia|].
    unfold ensure_superset, sseq_slice, range_slice in E.
    destruct (slice_positions_ok s (range_len (mk_range 0 m 1)) (range_len_nonneg _) ltac:(lia)) as (p & EP & SP & _). rewrite EP in E. cbn [bind] in E.
    injection E as <-. split; [split; [exact W|discriminate]|]. intros q Q. injection Q as <-. cbn [r_step]. lia.
  - destruct (msds_items it F) as (s & E' & W & M & A & NE). unfold ensure_superset in E. rewrite E' in E. cbn [bind] in E.
    destruct (is_superset _ s) as [[]|]; try discriminate. injection E as <-. split; [exact A|]. split; [apply (msds_plain it); [apply F|exact E']|].
    intros q ->. cbn [sseq_list] in *. destruct (range_ascending q W A) as [P|P]; [exact P|].
    assert (Q : (exists r, it = ItRange r) \/ compress_sorted_sequence_to_range (QSet (sfs_new (it_list it))) = Ok (QRange q)).
    { destruct it; [left; eauto| | |]; right; exact E'. }
    destruct Q as [(r0 & ->)|Q].
    + unfold make_sorted_distinct_sequence in E'. destruct (0 <? r_step r0) eqn:P0; injection E' as <-; [lia|].
      destruct F as (_ & F). specialize (F r0 eq_refl). cbn. lia.
    + unfold compress_sorted_sequence_to_range in Q. destruct (sseq_len _ =? 1) eqn:L1.
      * destruct (sseq_get _ _); [|discriminate]. injection Q as <-. cbn. lia.
      * exfalso. rewrite sseq_len_spec in L1. cbn [sseq_list] in L1.
        assert (SS : ascending (sfs_new (it_list it))) by apply sorted_set_sorted.
        assert (MM : forall x, In x (sfs_new (it_list it)) <-> In x (range_list q)) by (intros x; unfold sfs_new; rewrite sorted_set_In; symmetry; apply M).
        rewrite <- range_list_length in P. unfold zlen in *. destruct (range_list q) as [|x [|? ?]]; [congruence| |cbn in P; lia].
        destruct (sfs_new (it_list it)) as [|y [|z l]]; cbn in L1; [destruct (MM x) as (_ & MM'); destruct MM'; now left|lia|].
        assert (Y : y = x) by (destruct (proj1 (MM y) (or_introl eq_refl)) as [|[]]; auto).
        assert (ZX : z = x) by (destruct (proj1 (MM z) (or_intror (or_introl eq_refl))) as [|[]]; auto).
        inversion SS as [|? ? _ FF]; subst. inversion FF; subst. lia.
Qed.

Lemma sample_row_reads i j k tr m c nums : 0 <= m -> forward c -> ensure_superset (QRange (mk_range 0 m 1)) c = Ok nums -> sseq_list nums <> [] ->
  trace_of ts k tr -> trace_at ts i j tr -> (forall s, In s (sseq_list nums) -> 0 <= s < t_count tr) -> whole d t tr ->
  reads d (sample_row native r nums k) (Forall2 (sample_cell d e t ts i j) (sseq_list nums)).
Proof.
  intros Hm F E NE K T IN W. destruct (ensure_forward m c nums Hm F E) as (A & (WF & NR) & P).
  assert (G : reads d (sample_row native r nums k) (Forall2 (fun s c => exists v, c = Some v /\ sample_of d e t tr s v) (sseq_list nums))).
  { destruct nums as [q|l|l]; cbn [sample_row sseq_list] in *.
    - apply range_row_reads; auto.
    - apply numbered_row_reads; auto.
    - now exfalso; apply (NR l). }
  eapply reads_weaken; [exact G|]. intros row H. clear - H T. induction H as [|s c l l' (v & -> & S) _ IH]; constructor; [|exact IH].
  left. exists tr, v. auto.
Qed.
Lemma absent_row i j nums : (forall tr, ~ trace_at ts i j tr) -> Forall2 (sample_cell d e t ts i j) (sseq_list nums) (zrepeat None (sseq_len nums)).
Proof.
  intros N. rewrite sseq_len_spec. unfold zrepeat, zlen. rewrite Nat2Z.id. induction (sseq_list nums) as [|s l IH]; cbn; constructor; auto. right. auto.
Qed.
Lemma max_ok m : rd_max_num_trace_samples r = Ok m -> (exists tr, In tr ts /\ 0 <= t_count tr) -> 0 <= m.
Proof.
  intros E (tr & I & C). destruct (counts_ok d enc bc tc e dim r t ts RD OP TR) as (_ & _ & _ & _ & m' & E' & _ & B). rewrite E in E'. injection E' as <-.
  specialize (B tr I). lia.
Qed.

Lemma inline3 inline xlines samples j_all j_nums m nums :
  In inline (map t_inline ts) -> rd_xline_numbers r = Ok j_all -> ensure_superset j_all xlines = Ok j_nums ->
  rd_max_num_trace_samples r = Ok m -> 0 <= m -> forward samples -> ensure_superset (QRange (mk_range 0 m 1)) samples = Ok nums -> sseq_list nums <> [] ->
  (forall tr, In tr ts -> t_inline tr = inline -> In (t_xline tr) (sseq_list j_nums) ->
     whole d t tr /\ forall s, In s (sseq_list nums) -> 0 <= s < t_count tr) ->
  reads d (extract_inline_3d native r inline xlines samples)
    (grid (fun j s => sample_cell d e t ts inline j s) (sseq_list j_nums) (sseq_list nums)).
Proof.
  intros IL E3 E4 EM Hm FW EN NE H. unfold extract_inline_3d. destruct lines3 as ((i_all & E1 & (W1 & _) & _ & M1) & _).
  eapply reads_lift_bind; [exact E1|]. rewrite (proj2 (sseq_mem_spec _ _ W1) (proj2 (M1 _) IL)). cbn [negb].
  do 4 (eapply reads_lift_bind; [eassumption|]). eapply reads_lift_bind; [exact format_of|]. destruct dtype_ok as (dt & ED). eapply reads_lift_bind; [exact ED|].
  apply reads_map. intros j Hj. apply at_trace_reads; [apply absent_row|]. intros k tr K T. pose proof T as (I & HI & HJ).
  destruct (H tr I HI ltac:(now rewrite HJ)) as (W & IN). eapply sample_row_reads; eauto.
Qed.
Lemma xline3 xline inlines samples i_all i_nums m nums :
  In xline (map t_xline ts) -> rd_inline_numbers r = Ok i_all -> ensure_superset i_all inlines = Ok i_nums ->
  rd_max_num_trace_samples r = Ok m -> 0 <= m -> forward samples -> ensure_superset (QRange (mk_range 0 m 1)) samples = Ok nums -> sseq_list nums <> [] ->
  (forall tr, In tr ts -> t_xline tr = xline -> In (t_inline tr) (sseq_list i_nums) ->
     whole d t tr /\ forall s, In s (sseq_list nums) -> 0 <= s < t_count tr) ->
  reads d (extract_xline_3d native r xline inlines samples)
    (grid (fun i s => sample_cell d e t ts i xline s) (sseq_list i_nums) (sseq_list nums)).
Proof.
  intros IL E3 E4 EM Hm FW EN NE H. unfold extract_xline_3d. destruct lines3 as (_ & (j_all & E1 & (W1 & _) & _ & M1)).
  eapply reads_lift_bind; [exact E1|]. rewrite (proj2 (sseq_mem_spec _ _ W1) (proj2 (M1 _) IL)). cbn [negb].
  do 4 (eapply reads_lift_bind; [eassumption|]). eapply reads_lift_bind; [exact format_of|]. destruct dtype_ok as (dt & ED). eapply reads_lift_bind; [exact ED|].
  apply reads_map. intros i Hi. apply at_trace_reads; [apply absent_row|]. intros k tr K T. pose proof T as (I & HI & HJ).
  destruct (H tr I HJ ltac:(now rewrite HI)) as (W & IN). eapply sample_row_reads; eauto.
Qed.

Lemma fields3 names inlines xlines i_all i_nums j_all j_nums : names <> [] -> in_stored_order tc names -> signed_fields tc names ->
  rd_inline_numbers r = Ok i_all -> ensure_superset i_all inlines = Ok i_nums ->
  rd_xline_numbers r = Ok j_all -> ensure_superset j_all xlines = Ok j_nums ->
  (forall tr n, In tr ts -> In (t_inline tr) (sseq_list i_nums) -> In (t_xline tr) (sseq_list j_nums) -> In n names -> ~ bad_field_at tc e d (t_pos tr) n) ->
  reads d (extract_trace_header_field_3d r names inlines xlines)
    (grid (fields_cell d e tc names ts) (sseq_list i_nums) (sseq_list j_nums)).
Proof.
  intros NE HN SG E1 E2 E3 E4 H. destruct (sub_reads names NE HN SG) as (sp & dts & S1 & S2 & S3 & _ & RH). unfold extract_trace_header_field_3d.
  do 4 (eapply reads_lift_bind; [eassumption|]). eapply reads_lift_bind; [exact S1|]. eapply reads_lift_bind; [exact S2|]. eapply reads_lift_bind; [exact S3|].
  apply reads_map. intros i Hi. apply reads_map. intros j Hj. apply at_trace_reads.
  - intros N. right. auto.
  - intros k tr K T. pose proof T as (I & <- & <-). destruct (RH k tr K) as [G|(_ & n & N & B)]; [|exfalso; exact (H tr n I Hi Hj N B)].
    eapply reads_bind; [exact G|]. intros h V. cbn beta in V.
    assert (Q : exists vs, map_res (hdr_get h) names = Ok vs /\ Forall2 (field_at tc e d (t_pos tr)) names vs).
    { clear - V. induction names as [|n names IH]; [exists []; split; [reflexivity|constructor]|].
      destruct (V n (or_introl eq_refl)) as (v & E & F). destruct IH as (vs & EV & FV); [intros; apply V; now right|].
      exists (v :: vs). cbn [map_res]. rewrite E. cbn [bind]. rewrite EV. split; [reflexivity|]. now constructor. }
    destruct Q as (vs & E & F). eapply reads_lift_bind; [exact E|]. apply reads_ret. left. exists tr, vs. auto.
Qed.

Lemma trace2 k tr m c nums : NoDup (map t_cdp ts) -> (dim = None /\ ~ NoDup (map (fun t => (t_inline t, t_xline t)) ts)) \/ dim = Some 2 ->
  In k (map t_cdp ts) -> trace_of ts k tr ->
  rd_max_num_trace_samples r = Ok m -> 0 <= m -> forward c -> ensure_superset (QRange (mk_range 0 m 1)) c = Ok nums -> sseq_list nums <> [] ->
  (forall s, In s (sseq_list nums) -> 0 <= s < t_count tr) -> whole d t tr ->
  reads d (extract_trace native r k c) (Forall2 (sample_of d e t tr) (sseq_list nums)).
Proof.
  intros NC D IK K EM Hm F EN NE IN W. destruct (get_opened d enc bc tc e dim r t ts RD OP TR) as (x & _ & O).
  destruct (index_2d x bc tc e dim d r ts t O NC D) as (_ & _ & HAS & _). destruct (HAS k) as (b & EB & B). apply B in IK. subst b.
  assert (EH : has_trace_index_int r k = Ok true).
  { unfold has_trace_index_int. unfold rd_has_trace_index2 in EB. destruct (rd_kind r); [discriminate|exact EB|discriminate]. }
  unfold extract_trace. eapply reads_lift_bind; [exact EH|]. cbn [negb].
  eapply reads_lift_bind; [exact EM|]. eapply reads_lift_bind; [exact EN|].
  destruct (counts_ok d enc bc tc e dim r t ts RD OP TR) as (_ & _ & CNT & _).
  destruct (ensure_forward m c nums Hm F EN) as (A & _). set (l := sseq_list nums) in *.
  assert (L : (0 < length l)%nat) by (destruct l; [congruence|cbn; lia]).
  eapply reads_lift_bind; [rewrite sseq_get_spec; apply (py_get_ok _ 0 0); fold l; unfold zlen; lia|].
  eapply reads_lift_bind; [rewrite sseq_get_spec; apply (CatalogFacts.py_get_last' _ 0 NE)|]. fold l.
  set (a := nth (Z.to_nat 0) l 0). set (z := nth (length l - 1) l 0).
  assert (IA : In a l) by (apply nth_In; lia). assert (IB : In z l) by (apply nth_In; lia).
  assert (AB : forall s, In s l -> a <= s <= z).
  { intros s Hs. apply (In_nth _ _ 0) in Hs. destruct Hs as (i & Hi & <-). unfold a, z. change (Z.to_nat 0) with 0%nat. split.
    - destruct i; [lia|]. pose proof (ascending_lt_nth l 0 (S i) A ltac:(lia) Hi). lia.
    - destruct (Nat.eq_dec i (length l - 1)) as [->|NE']; [lia|]. pose proof (ascending_lt_nth l i (length l - 1) A ltac:(lia) ltac:(lia)). lia. }
  pose proof (IN a IA). pose proof (IN z IB). pose proof (AB z IB). pose proof (sample_size_pos t). unfold whole in W.
  eapply reads_lift_bind; [apply (CNT k tr K)|]. replace (Z.min (z + 1) (t_count tr)) with (z + 1) by lia.
  eapply reads_bind; [apply (part_read k tr a (z + 1) K); [lia|lia|nia]|]. intros ss (ZL & SS). cbn beta in *.
  eapply reads_lift_bind; [exact format_of|]. destruct dtype_ok as (dt & ED). eapply reads_lift_bind; [exact ED|].
  eapply reads_lift.
  { apply (map_res_ok _ (fun s => nth (Z.to_nat (s - a)) ss (RInt 0))). intros s Hs. specialize (AB s Hs). now apply py_get_ok; lia. }
  revert AB. clear - SS. generalize l as ll. induction ll as [|s ll IH]; intros AB; cbn [map]; constructor.
  - specialize (SS (s - a)). replace (a + (s - a)) with s in SS by lia. apply SS. specialize (AB s (or_introl eq_refl)). lia.
  - apply IH. intros; apply AB. now right.
Qed.
End Extract.

Lemma trace_plain native r k c f : rd_kind r = Plain -> fst (extract_trace native r k c f) = Err AttributeError.
Proof. intros K. unfold extract_trace, has_trace_index_int, ibind, lift. rewrite K. reflexivity. Qed.
Lemma trace_3d native r k c f o : rd_kind r = Kind3D o -> exists y, extract_trace native r k c f = (Err y, f).
Proof.
  intros K. unfold extract_trace, has_trace_index_int, ibind, lift. rewrite K. destruct f as [d q].
  destruct o as [[]|]; eexists; reflexivity.
Qed.

(* ---------------- array_dataset.py ---------------- *)

Lemma square_index n k i j : 0 <= n -> complete_inline_xline_index n n k = Ok (i, j) <-> 0 <= i < n /\ 0 <= j < n /\ k = i * n + j.
Proof.
  intros H. unfold complete_inline_xline_index. destruct (n =? 0) eqn:E.
  - split; [discriminate|lia].
  - assert (P : 0 < n) by lia. split.
    + destruct (negb _) eqn:B; [discriminate|]. intros Q. injection Q as <- <-. pose proof (Z.div_mod k n ltac:(lia)). lia.
    + intros (A & B & ->). rewrite (Z.add_comm (i * n) j), Z.div_add, Z.mod_add by lia. rewrite (Z.div_small j n), (Z.mod_small j n) by lia.
      replace (negb _) with false by lia. repeat f_equal; lia.
Qed.
Lemma square_outside n k : 0 < n -> ~ 0 <= k < n * n -> complete_inline_xline_index n n k = Err ValueError.
Proof.
  intros P H. unfold complete_inline_xline_index. replace (n =? 0) with false by lia.
  pose proof (Z.div_mod k n ltac:(lia)). pose proof (Z.mod_pos_bound k n P). replace (negb _) with true; [reflexivity|].
  symmetry. apply negb_true_iff. destruct (0 <=? k / n) eqn:A; [|reflexivity]. destruct (k / n <? n) eqn:B; [|reflexivity]. nia.
Qed.

Lemma lines_in_order : in_stored_order TraceHeaderRev1 ["ensemble_num"; "inline_number"; "crossline_number"].
Proof.
  destruct rev1_trace_format as (_ & _ & F2 & _ & F4 & F5 & _ & _ & _ & _ & _ & B6 & B7 & _ & _ & B10 & _). split.
  - intros n [<-|[<-|[<-|[]]]]; assumption.
  - repeat constructor; assumption.
Qed.
Lemma lines_signed : signed_fields TraceHeaderRev1 ["ensemble_num"; "inline_number"; "crossline_number"].
Proof.
  destruct rev1_trace_format as ((C & _) & _). intros f F N. pose proof (is_field_class _ f C F) as E.
  destruct N as [N|[N|[N|[]]]]; rewrite <- N in E; vm_compute in E; injection E as <-; cbn; tauto.
Qed.

Lemma complete_indexes n m : 0 <= n -> 0 <= m ->
  ascending (range_list (complete_trace_indexes n m)) /\
  forall k, In k (range_list (complete_trace_indexes n m)) <-> exists i j, placed n m k i j.
Proof.
  intros N M. split; [apply sorted_range_pos; [unfold range_ok; cbn; lia|reflexivity]|].
  intros k. rewrite range_list_In.
  assert (L : range_len (complete_trace_indexes n m) = n * m).
  { unfold range_len, complete_trace_indexes. cbn [r_start r_stop r_step]. change (0 <? 1) with true. cbv iota.
    destruct (0 <? n * m) eqn:E; [rewrite Z.div_1_r; lia|nia]. }
  rewrite L. cbn [complete_trace_indexes r_start r_step]. unfold placed. split.
  - intros (i & I & ->). exists (i / m), (i mod m). assert (0 < m) by nia.
    pose proof (Z.div_mod i m ltac:(lia)). pose proof (Z.mod_pos_bound i m ltac:(lia)).
    split; [split; [apply Z.div_pos; lia|apply Z.div_lt_upper_bound; lia]|]. lia.
  - intros (i & j & I & J & ->). exists (i * m + j). nia.
Qed.
