(* Extraction of lines from traces with fewer samples than selected, and with
   slices of samples that walk backwards. *)
From Coq Require Import String ZArith List Bool Lia Sorted ZifyBool ZifyNat.
From Verif Require Import Py PyFacts PyFloat IbmFloat Spec_Ibm Util Spec_Util UtilFacts PackFacts CompileFacts TextIOFacts Catalog Packing Spec_Packing Formats FormatFacts FileIO Text Float32
  Toolkit Spec_Segy ToolkitFacts Reader Spec_Reader ReaderFacts HeaderFacts PackingFacts OpenFacts NumpyExt Spec_Numpy NumpyFacts.
Import ListNotations.
Local Open Scope string_scope.
Open Scope list_scope.
Open Scope Z_scope.

(* ---------------- lists ---------------- *)

Lemma ascending_same l : forall m, ascending l -> ascending m -> (forall x, In x l <-> In x m) -> l = m.
Proof.
  induction l as [|a l IH]; intros m A B H.
  - destruct m as [|b m]; [reflexivity|]. destruct (proj2 (H b) (or_introl eq_refl)).
  - destruct m as [|b m]; [destruct (proj1 (H a) (or_introl eq_refl))|].
    inversion A as [|? ? A1 A2]; subst. inversion B as [|? ? B1 B2]; subst. rewrite Forall_forall in A2, B2.
    assert (a = b) as ->.
    { destruct (proj1 (H a) (or_introl eq_refl)) as [->|Ha]; [reflexivity|]. destruct (proj2 (H b) (or_introl eq_refl)) as [->|Hb]; [reflexivity|].
      specialize (A2 b Hb). specialize (B2 a Ha). lia. }
    f_equal. apply IH; auto. intros x. split; intros Hx.
    + destruct (proj1 (H x) (or_intror Hx)) as [<-|Q]; [specialize (A2 _ Hx); lia|exact Q].
    + destruct (proj2 (H x) (or_intror Hx)) as [<-|Q]; [specialize (B2 _ Hx); lia|exact Q].
Qed.
Lemma ascending_filter f l : ascending l -> ascending (filter f l).
Proof.
  induction 1 as [|a l A IH F]; cbn [filter]; [constructor|]. destruct (f a); [|exact IH]. constructor; [exact IH|].
  rewrite Forall_forall in *. intros x Hx. apply filter_In in Hx. apply F, Hx.
Qed.
Lemma filter_le {A} f (l : list A) : (length (filter f l) <= length l)%nat.
Proof. induction l as [|a l IH]; cbn; [lia|]. destruct (f a); cbn; lia. Qed.
Lemma filter_full {A} f (l : list A) : length (filter f l) = length l -> filter f l = l.
Proof.
  induction l as [|a l IH]; cbn; [auto|]. pose proof (filter_le f l). destruct (f a); cbn; [|lia]. intros L. f_equal. apply IH. lia.
Qed.

(* the start of a range cut at c *)
Lemma range_cut q c : 0 < r_step q -> range_list q <> [] -> 0 <= c ->
  range_list (mk_range (Z.min (r_start q) c) (Z.min (Z.min (r_stop q) c) c) (r_step q)) = filter (fun s => s <? c) (range_list q).
Proof.
  intros SP NE C. assert (OK : forall a b, range_ok (mk_range a b (r_step q))) by (intros; unfold range_ok; cbn; lia).
  assert (OQ : range_ok q) by (unfold range_ok; lia).
  apply ascending_same.
  - apply sorted_range_pos; [apply OK|exact SP].
  - apply ascending_filter, sorted_range_pos; auto.
  - intros x. rewrite filter_In, <- !range_mem_In by auto. unfold range_mem. cbn [r_start r_stop r_step].
    replace (0 <? r_step q) with true by lia. destruct (Z_lt_dec (r_start q) c).
    + replace (Z.min (r_start q) c) with (r_start q) by lia. lia.
    + lia.
Qed.

(* the samples selected are samples of some trace *)
Lemma ensure_within m c nums : 0 <= m -> forward c -> ensure_superset (QRange (mk_range 0 m 1)) c = Ok nums ->
  forall s, In s (sseq_list nums) -> 0 <= s < m.
Proof.
  intros Hm F E. assert (R : forall x, In x (range_list (mk_range 0 m 1)) <-> 0 <= x < m).
  { intros x. rewrite <- range_mem_In by (unfold range_ok; cbn; lia). unfold range_mem. cbn [r_start r_stop r_step]. change (0 <? 1) with true. cbv iota. rewrite Z.mod_1_r. lia. }
  assert (WF : sseq_wf (QRange (mk_range 0 m 1))) by (cbn; unfold range_ok; cbn; lia).
  assert (AS : ascending (sseq_list (QRange (mk_range 0 m 1)))) by (apply sorted_range_pos; [unfold range_ok|]; cbn; lia).
  intros s Hs. destruct c as [|sl|it]; cbn [forward] in F.
  - injection E as <-. now apply R.
  - destruct (sliced (QRange (mk_range 0 m 1)) sl) as (q & E' & W & P & A); [exact WF|discriminate|lia|].
    rewrite E in E'. injection E' as <-. apply P in Hs. destruct Hs as (i & _ & N). apply nth_error_In in N. now apply R.
  - destruct (in_dec Z.eq_dec s (range_list (mk_range 0 m 1))) as [I|I]; [now apply R|]. exfalso.
    destruct (msds_items it F) as (s' & E' & W & M & A & NE). pose proof E as E0. unfold ensure_superset in E. rewrite E' in E. cbn [bind] in E.
    destruct (is_superset _ s') as [[]|]; try discriminate. injection E as <-.
    rewrite (ensure_reject _ it s WF AS F) in E0; [discriminate|now apply M|exact I].
Qed.
Lemma ensure_kind m c nums : 0 <= m -> forward c -> ensure_superset (QRange (mk_range 0 m 1)) c = Ok nums ->
  (exists q, nums = QRange q) <-> even_steps (sseq_list nums).
Proof.
  intros Hm F E. split; [intros (q & ->); apply (evenly_spaced_QRange q)|]. intros EV. destruct c as [|sl|it]; cbn [forward] in F.
  - injection E as <-. eauto.
  - unfold ensure_superset, sseq_slice, range_slice in E. destruct (slice_positions _ _); [|discriminate]. cbn [bind] in E. injection E as <-. eauto.
  - unfold ensure_superset in E. destruct (make_sorted_distinct_sequence it SAscending) as [s|] eqn:E'; [|discriminate]. cbn [bind] in E.
    destruct (is_superset _ s) as [[]|]; try discriminate. injection E as <-.
    destruct it as [r|l|l|l] eqn:Eit.
    + cbn in E'. destruct (0 <? r_step r); injection E' as <-; eauto.
    + destruct (msds_list it SAscending) as (s' & E2 & _ & _ & _ & K); subst it; try discriminate; [apply F|]. rewrite E' in E2. injection E2 as <-. now apply K.
    + destruct (msds_list it SAscending) as (s' & E2 & _ & _ & _ & K); subst it; try discriminate; [apply F|]. rewrite E' in E2. injection E2 as <-. now apply K.
    + destruct (msds_list it SAscending) as (s' & E2 & _ & _ & _ & K); subst it; try discriminate; [apply F|]. rewrite E' in E2. injection E2 as <-. now apply K.
Qed.

(* ---------------- failures of several kinds ---------------- *)

Definition fails_in {A} (d : list Z) (m : io A) (Y : exn -> Prop) : Prop :=
  forall q, exists y q', m (mk_file d q) = (Err y, mk_file d q') /\ Y y.
Section Fails.
Variable d : list Z.
Lemma fails_in_one {A} (m : io A) (Y : exn -> Prop) y : fails d m y -> Y y -> fails_in d m Y.
Proof. intros F H q. destruct (F q) as (q' & E). eauto. Qed.
Lemma fails_in_bind {A B} (m : io A) (k : A -> io B) Y : fails_in d m Y -> fails_in d (ibind m k) Y.
Proof. intros M q. destruct (M q) as (y & q1 & E & H). exists y, q1. unfold ibind. now rewrite E. Qed.
Lemma fails_in_after {A B} (m : io A) (k : A -> io B) P Y : reads d m P -> (forall a, P a -> fails_in d (k a) Y) -> fails_in d (ibind m k) Y.
Proof.
  intros M K q. destruct (M q) as (a & q1 & E & Pa). destruct (K a Pa q1) as (y & q2 & E' & H). exists y, q2. unfold ibind. now rewrite E, E'.
Qed.
Lemma fails_in_lift_bind {A B} (x : res A) a (k : A -> io B) Y : x = Ok a -> fails_in d (k a) Y -> fails_in d (ibind (lift x) k) Y.
Proof. intros -> K q. destruct (K q) as (y & q2 & E' & H). exists y, q2. unfold ibind, lift. now rewrite E'. Qed.
Lemma fails_in_map {A B} (f : A -> io B) Y l : (forall x, In x l -> reads d (f x) (fun _ => True) \/ fails_in d (f x) Y) ->
  (exists x, In x l /\ fails_in d (f x) Y) -> fails_in d (map_io f l) Y.
Proof.
  induction l as [|x l IH]; intros H (x' & I & F); [destruct I|]. cbn [map_io].
  destruct (H x (or_introl eq_refl)) as [R|R]; [|now apply fails_in_bind].
  destruct I as [->|I]; [now apply fails_in_bind|]. eapply fails_in_after; [exact R|]. intros a _. apply fails_in_bind. apply IH; eauto.
  intros z Hz. apply H. now right.
Qed.
End Fails.

(* what is raised when a row cannot be filled *)
Definition short_error (nums : list Z) (y : exn) : Prop := y = ValueError \/ (y = IndexError /\ ~ even_steps nums).

Section Short.
Variables (d : list Z) (enc : option encoding) (bc tc : fmt) (e : endian) (dim : option Z) (r : reader) (t : segytype) (ts : list tinfo) (native : endian).
Hypothesis RD : readable d enc bc tc.
Hypothesis OP : opens d enc bc tc e dim r.
Hypothesis TR : traces_of d tc e r t ts.

Let all_read := all_read d enc bc tc e dim r t ts native RD OP TR.
Let part_read := part_read d enc bc tc e dim r t ts native RD OP TR.
Let part_fails := part_fails d enc bc tc e dim r t ts native RD OP TR.

Lemma held_In tr l s : In s (held tr l) <-> In s l /\ s < t_count tr.
Proof. unfold held. now rewrite filter_In, Z.ltb_lt. Qed.
Lemma held_full tr l : held tr l = l <-> forall s, In s l -> s < t_count tr.
Proof.
  unfold held. split.
  - intros E s Hs. rewrite <- E in Hs. apply filter_In in Hs. lia.
  - intros H. induction l as [|a l IH]; cbn [filter]; [reflexivity|]. replace (a <? t_count tr) with true by (specialize (H a (or_introl eq_refl)); lia).
    f_equal. apply IH. intros; apply H. now right.
Qed.

(* the part of the samples that range_row assigns to the row *)
Lemma range_part ss tr q : zlen ss = t_count tr -> 0 < r_step q -> range_list q <> [] -> (forall s, In s (range_list q) -> 0 <= s) ->
  list_slice ss (mk_slice (Some (r_start q)) (Some (Z.min (r_stop q) (t_count tr))) (Some (r_step q))) =
    Ok (map (fun s => nth (Z.to_nat s) ss (RInt 0)) (held tr (range_list q))).
Proof.
  intros ZL SP NE IN. assert (C := zlen_nonneg ss).
  assert (L : 0 < range_len q).
  { rewrite <- range_list_length. destruct (range_list q); [congruence|]. unfold zlen. cbn. lia. }
  assert (WQ : range_ok q) by (unfold range_ok; lia).
  assert (S0 := IN _ (range_start_In q WQ L)).
  assert (ST : r_start q < r_stop q).
  { unfold range_len in L. replace (0 <? r_step q) with true in L by lia. destruct (r_start q <? r_stop q) eqn:E; lia. }
  unfold list_slice, slice_positions. cbn [sl_step sl_start sl_stop]. replace (r_step q =? 0) with false by lia. cbv zeta.
  replace (r_step q <? 0) with false by lia. replace (r_start q <? 0) with false by lia.
  replace (Z.min (r_stop q) (t_count tr) <? 0) with false by lia. cbn [bind]. rewrite ZL.
  rewrite (range_cut q (t_count tr) SP NE ltac:(lia)). fold (held tr (range_list q)).
  apply map_res_ok. intros s Hs. apply held_In in Hs. destruct Hs as (Hs & ?). specialize (IN s Hs). apply py_get_ok. lia.
Qed.

(* one row from an evenly spaced selection *)
Lemma range_row_short k tr q : trace_of ts k tr -> 0 < r_step q -> range_list q <> [] -> (forall s, In s (range_list q) -> 0 <= s) -> 0 <= t_count tr -> whole d t tr ->
  (forall s, held tr (range_list q) = [s] ->
     reads d (range_row native r q k) (Forall2 (fun _ c => exists v, c = Some v /\ sample_of d e t tr s v) (range_list q))) /\
  (~ fills (range_list q) tr -> fails d (range_row native r q k) ValueError).
Proof.
  intros K SP NE IN C W. destruct (counts_ok d enc bc tc e dim r t ts RD OP TR) as (_ & _ & CNT & _). split.
  - intros s Hs. unfold range_row. eapply reads_lift_bind; [apply (CNT k tr K)|].
    eapply reads_bind; [apply (all_read k tr K C W)|]. intros ss (ZL & SS). cbn beta in *.
    eapply reads_lift_bind; [apply (range_part ss tr q ZL SP NE IN)|]. rewrite Hs. cbn [map].
    assert (HS : In s (held tr (range_list q))) by (rewrite Hs; now left). apply held_In in HS. destruct HS as (HI & HC).
    assert (G : forall n l, n = zlen l -> Forall2 (fun (_ : Z) c => exists v, c = Some v /\ sample_of d e t tr s v) l (zrepeat (Some (nth (Z.to_nat s) ss (RInt 0))) n)).
    { intros n l ->. unfold zrepeat, zlen. rewrite Nat2Z.id. induction l as [|x l IH]; cbn; constructor; [|exact IH]. eexists. split; [reflexivity|].
      apply SS. split; [now apply IN|exact HC]. }
    unfold assign_row. destruct (zlen [nth (Z.to_nat s) ss (RInt 0)] =? range_len q) eqn:E1.
    + eapply reads_lift; [reflexivity|]. cbn [map]. change [Some (nth (Z.to_nat s) ss (RInt 0))] with (zrepeat (Some (nth (Z.to_nat s) ss (RInt 0))) 1).
      apply G. rewrite range_list_length. apply Z.eqb_eq in E1. rewrite <- E1. reflexivity.
    + eapply reads_lift; [reflexivity|]. apply G. now rewrite range_list_length.
  - intros NF. unfold range_row. eapply fails_lift_bind; [apply (CNT k tr K)|].
    eapply fails_after; [apply (all_read k tr K C W)|]. intros ss (ZL & SS). cbn beta in *.
    eapply fails_lift_bind; [apply (range_part ss tr q ZL SP NE IN)|].
    assert (EQ : assign_row (range_len q) (map (fun s => nth (Z.to_nat s) ss (RInt 0)) (held tr (range_list q))) = Err ValueError).
    { unfold assign_row. rewrite zlen_map. destruct (zlen (held tr (range_list q)) =? range_len q) eqn:E1.
      - exfalso. apply NF. left. apply filter_full. apply Z.eqb_eq in E1. rewrite <- range_list_length in E1. unfold zlen, held in E1. lia.
      - destruct (held tr (range_list q)) as [|a [|b l]] eqn:EH; [reflexivity| |reflexivity]. exfalso. apply NF. right. split; [apply (evenly_spaced_QRange q)|eauto]. }
    intros p. exists p. unfold lift. now rewrite EQ.
Qed.

(* one row from any other selection *)
Lemma numbered_row_short k tr l : trace_of ts k tr -> ascending l -> l <> [] -> (forall s, In s l -> 0 <= s) -> 0 <= t_count tr -> whole d t tr ->
  held tr l <> l -> ~ even_steps l -> fails_in d (numbered_row native r (QSet l) k) (short_error l).
Proof.
  intros K A NE IN C W NF EV. destruct (counts_ok d enc bc tc e dim r t ts RD OP TR) as (_ & _ & CNT & _).
  unfold numbered_row. eapply fails_in_lift_bind; [apply (CNT k tr K)|]. cbn [sseq_get sseq_list].
  assert (L : (0 < length l)%nat) by (destruct l; [congruence|cbn; lia]).
  eapply fails_in_lift_bind; [apply (py_get_ok l 0 0); unfold zlen; lia|].
  eapply fails_in_lift_bind; [apply (CatalogFacts.py_get_last' l 0 NE)|].
  set (a := nth (Z.to_nat 0) l 0). set (b := nth (length l - 1) l 0).
  assert (IA : In a l) by (apply nth_In; lia). assert (IB : In b l) by (apply nth_In; lia).
  assert (AB : forall s, In s l -> a <= s <= b).
  { intros s Hs. apply (In_nth _ _ 0) in Hs. destruct Hs as (i & Hi & <-). unfold a, b. change (Z.to_nat 0) with 0%nat. split.
    - destruct i; [lia|]. pose proof (ascending_lt_nth l 0 (S i) A ltac:(lia) Hi). lia.
    - destruct (Nat.eq_dec i (length l - 1)) as [->|NE']; [lia|]. pose proof (ascending_lt_nth l i (length l - 1) A ltac:(lia) ltac:(lia)). lia. }
  assert (BC : t_count tr <= b).
  { destruct (Z_lt_dec b (t_count tr)); [|lia]. exfalso. apply NF, held_full. intros s Hs. specialize (AB s Hs). lia. }
  pose proof (IN a IA). pose proof (sample_size_pos t). unfold whole in W.
  replace (Z.min (b + 1) (t_count tr)) with (t_count tr) by lia.
  destruct (Z_le_dec a (t_count tr)).
  - eapply fails_in_after; [apply (part_read k tr a (t_count tr) K); [lia|lia|lia]|]. intros ss (ZL & SS). cbn beta in *.
    apply fails_in_one with IndexError; [|right; auto].
    assert (EQ : map_res (fun s => do v <- py_get ss (s - a);; Ok (Some v)) l = Err IndexError).
    { assert (EX : exists s, In s l /\ t_count tr <= s) by eauto. revert AB EX. clear - ZL. generalize l as m. induction m as [|x m IH]; intros AB (s & I & S).
      - destruct I.
      - cbn [map_res]. pose proof (AB x (or_introl eq_refl)). destruct (Z_lt_dec (x - a) (zlen ss)).
        + rewrite (py_get_ok ss (x - a) (RInt 0)) by lia. cbn [bind]. rewrite IH; [reflexivity|intros; apply AB; now right|].
          destruct I as [->|I]; [lia|]. eauto.
        + rewrite py_get_err by lia. reflexivity. }
    intros p. exists p. unfold lift. now rewrite EQ.
  - apply fails_in_bind. apply fails_in_one with ValueError; [|now left]. apply (part_fails k tr); auto. lia.
Qed.

Lemma row_short i j k tr m c nums : 0 <= m -> forward c -> ensure_superset (QRange (mk_range 0 m 1)) c = Ok nums -> sseq_list nums <> [] ->
  trace_of ts k tr -> trace_at ts i j tr -> 0 <= t_count tr -> whole d t tr ->
  (fills (sseq_list nums) tr -> reads d (sample_row native r nums k) (Forall2 (row_cell d e t ts (sseq_list nums) i j) (sseq_list nums))) /\
  (~ fills (sseq_list nums) tr -> fails_in d (sample_row native r nums k) (short_error (sseq_list nums))).
Proof.
  intros Hm F E NE K T C W. destruct (ensure_forward m c nums Hm F E) as (A & (WF & NR) & P).
  pose proof (ensure_within m c nums Hm F E) as IN. pose proof (ensure_kind m c nums Hm F E) as KD.
  assert (FULL : held tr (sseq_list nums) = sseq_list nums -> reads d (sample_row native r nums k) (Forall2 (row_cell d e t ts (sseq_list nums) i j) (sseq_list nums))).
  { intros H. pose proof (proj1 (held_full tr _) H) as HF.
    assert (G : reads d (sample_row native r nums k) (Forall2 (fun s c => exists v, c = Some v /\ sample_of d e t tr s v) (sseq_list nums))).
    { destruct nums as [q|l|l]; cbn [sample_row sseq_list] in *.
      - apply (range_row_reads d enc bc tc e dim r t ts native RD OP TR); auto. intros s Hs. specialize (IN s Hs). specialize (HF s Hs). lia.
      - apply (numbered_row_reads d enc bc tc e dim r t ts native RD OP TR); auto. intros s Hs. specialize (IN s Hs). specialize (HF s Hs). lia.
      - now exfalso; apply (NR l). }
    eapply reads_weaken; [exact G|]. intros row. clear - H T. intros Q.
    assert (GG : forall l row, Forall2 (fun s c => exists v, c = Some v /\ sample_of d e t tr s v) l row -> Forall2 (row_cell d e t ts (sseq_list nums) i j) l row).
    { clear row Q. intros l row Q. induction Q as [|s c l l' (v & -> & S) _ IH]; constructor; [left; exists tr, v, s; auto 10|exact IH]. }
    now apply GG. }
  split.
  - intros [H|(EV & s & Hs)]; [now apply FULL|]. apply KD in EV. destruct EV as (q & ->). cbn [sample_row sseq_list] in *.
    destruct (range_row_short k tr q K (P q eq_refl) NE ltac:(intros ? H; apply IN in H; lia) C W) as (G & _).
    eapply reads_weaken; [apply (G s Hs)|]. intros row. clear - Hs T. intros Q.
    assert (GG : forall l row, Forall2 (fun _ c => exists v, c = Some v /\ sample_of d e t tr s v) l row -> Forall2 (row_cell d e t ts (range_list q) i j) l row).
    { clear row Q. intros l row Q. induction Q as [|x c l l' (v & -> & S) _ IH]; constructor; [left; exists tr, v, s; auto 10|exact IH]. }
    now apply GG.
  - intros NF. destruct nums as [q|l|l]; cbn [sample_row sseq_list] in *.
    + destruct (range_row_short k tr q K (P q eq_refl) NE ltac:(intros ? H; apply IN in H; lia) C W) as (_ & G).
      apply fails_in_one with ValueError; [now apply G|now left].
    + apply (numbered_row_short k tr l); auto; [intros ? H; apply IN in H; lia|intros H; apply NF; now left|].
      intros EV. apply KD in EV. destruct EV. discriminate.
    + now exfalso; apply (NR l).
Qed.
Lemma even_steps_dec m c nums : 0 <= m -> forward c -> ensure_superset (QRange (mk_range 0 m 1)) c = Ok nums -> even_steps (sseq_list nums) \/ ~ even_steps (sseq_list nums).
Proof.
  intros Hm F E. pose proof (ensure_kind m c nums Hm F E) as KD. destruct nums as [q|l|l]; [left; apply KD; eauto| |]; right; intros EV; apply KD in EV; destruct EV; discriminate.
Qed.
Lemma fills_dec m c nums tr : 0 <= m -> forward c -> ensure_superset (QRange (mk_range 0 m 1)) c = Ok nums -> fills (sseq_list nums) tr \/ ~ fills (sseq_list nums) tr.
Proof.
  intros Hm F E. unfold fills. destruct (list_eq_dec Z.eq_dec (held tr (sseq_list nums)) (sseq_list nums)) as [H|H]; [auto|].
  destruct (even_steps_dec m c nums Hm F E) as [EV|EV]; [|right; tauto].
  destruct (held tr (sseq_list nums)) as [|a [|b l]] eqn:EH.
  - right. intros [Q|(_ & s & Q)]; [tauto|discriminate].
  - left. right. eauto.
  - right. intros [Q|(_ & s & Q)]; [tauto|discriminate].
Qed.

(* extract_trace *)
Lemma trace2_short k tr m c nums : NoDup (map t_cdp ts) -> (dim = None /\ ~ NoDup (map (fun t => (t_inline t, t_xline t)) ts)) \/ dim = Some 2 ->
  In k (map t_cdp ts) -> trace_of ts k tr ->
  rd_max_num_trace_samples r = Ok m -> 0 <= m -> forward c -> ensure_superset (QRange (mk_range 0 m 1)) c = Ok nums -> sseq_list nums <> [] ->
  held tr (sseq_list nums) <> sseq_list nums -> 0 <= t_count tr -> whole d t tr ->
  fails_in d (extract_trace native r k c) (fun y => y = ValueError \/ y = IndexError).
Proof.
  intros NC D IK K EM Hm F EN NE NF C W. destruct (get_opened d enc bc tc e dim r t ts RD OP TR) as (x & _ & O).
  destruct (index_2d x bc tc e dim d r ts t O NC D) as (_ & _ & HAS & _). destruct (HAS k) as (b & EB & B). apply B in IK. subst b.
  assert (EH : has_trace_index_int r k = Ok true).
  { unfold has_trace_index_int. unfold rd_has_trace_index2 in EB. destruct (rd_kind r); [discriminate|exact EB|discriminate]. }
  unfold extract_trace. eapply fails_in_lift_bind; [exact EH|]. cbn [negb].
  eapply fails_in_lift_bind; [exact EM|]. eapply fails_in_lift_bind; [exact EN|].
  destruct (counts_ok d enc bc tc e dim r t ts RD OP TR) as (_ & _ & CNT & _).
  pose proof (ensure_within m c nums Hm F EN) as IN.
  destruct (ensure_forward m c nums Hm F EN) as (A & _). set (l := sseq_list nums) in *.
  assert (L : (0 < length l)%nat) by (destruct l; [congruence|cbn; lia]).
  eapply fails_in_lift_bind; [rewrite sseq_get_spec; apply (py_get_ok _ 0 0); fold l; unfold zlen; lia|].
  eapply fails_in_lift_bind; [rewrite sseq_get_spec; apply (CatalogFacts.py_get_last' _ 0 NE)|]. fold l.
  set (a := nth (Z.to_nat 0) l 0). set (z := nth (length l - 1) l 0).
  assert (IA : In a l) by (apply nth_In; lia). assert (IB : In z l) by (apply nth_In; lia).
  assert (AB : forall s, In s l -> a <= s <= z).
  { intros s Hs. apply (In_nth _ _ 0) in Hs. destruct Hs as (i & Hi & <-). unfold a, z. change (Z.to_nat 0) with 0%nat. split.
    - destruct i; [lia|]. pose proof (ascending_lt_nth l 0 (S i) A ltac:(lia) Hi). lia.
    - destruct (Nat.eq_dec i (length l - 1)) as [->|NE']; [lia|]. pose proof (ascending_lt_nth l i (length l - 1) A ltac:(lia) ltac:(lia)). lia. }
  assert (BC : t_count tr <= z).
  { destruct (Z_lt_dec z (t_count tr)); [|lia]. exfalso. apply NF, held_full. intros s Hs. specialize (AB s Hs). lia. }
  pose proof (IN a IA). pose proof (sample_size_pos t). unfold whole in W.
  eapply fails_in_lift_bind; [apply (CNT k tr K)|]. replace (Z.min (z + 1) (t_count tr)) with (t_count tr) by lia.
  destruct (Z_le_dec a (t_count tr)).
  - eapply fails_in_after; [apply (part_read k tr a (t_count tr) K); [lia|lia|lia]|]. intros ss (ZL & SS). cbn beta in *.
    eapply fails_in_lift_bind; [exact (format_of d tc e r t ts TR)|]. destruct (dtype_ok d tc e r t ts TR) as (dt & ED). eapply fails_in_lift_bind; [exact ED|].
    apply fails_in_one with IndexError; [|now right].
    assert (EQ : map_res (fun s => py_get ss (s - a)) l = Err IndexError).
    { assert (EX : exists s, In s l /\ t_count tr <= s) by eauto. revert AB EX. clear - ZL. generalize l as ll. induction ll as [|x ll IH]; intros AB (s & I & S).
      - destruct I.
      - cbn [map_res]. pose proof (AB x (or_introl eq_refl)). destruct (Z_lt_dec (x - a) (zlen ss)).
        + rewrite (py_get_ok ss (x - a) (RInt 0)) by lia. cbn [bind]. rewrite IH; [reflexivity|intros; apply AB; now right|].
          destruct I as [->|I]; [lia|]. eauto.
        + rewrite py_get_err by lia. reflexivity. }
    intros p. exists p. unfold lift. now rewrite EQ.
  - apply fails_in_bind. apply fails_in_one with ValueError; [|now left]. apply (part_fails k tr); auto. lia.
Qed.
(* a number that is not an ensemble number *)
Lemma trace2_absent k c : NoDup (map t_cdp ts) -> (dim = None /\ ~ NoDup (map (fun t => (t_inline t, t_xline t)) ts)) \/ dim = Some 2 ->
  ~ In k (map t_cdp ts) -> forall f, extract_trace native r k c f = (Err ValueError, f).
Proof.
  intros NC D NK f. destruct (get_opened d enc bc tc e dim r t ts RD OP TR) as (x & _ & O).
  destruct (index_2d x bc tc e dim d r ts t O NC D) as (_ & _ & HAS & _). destruct (HAS k) as (b & EB & B).
  assert (EH : has_trace_index_int r k = Ok b).
  { unfold has_trace_index_int. unfold rd_has_trace_index2 in EB. destruct (rd_kind r); [discriminate|exact EB|discriminate]. }
  destruct b; [exfalso; apply NK; now apply B|]. unfold extract_trace, ibind, lift. rewrite EH. reflexivity.
Qed.

Hypothesis ND : NoDup (map (fun t => (t_inline t, t_xline t)) ts).
Hypothesis DIM : dim = None \/ dim = Some 3.

Lemma at_trace_fails_in {A} i j (absent : A) present Y tr :
  trace_at ts i j tr -> (forall k, trace_of ts k tr -> fails_in d (present k) Y) -> fails_in d (at_trace r (i, j) absent present) Y.
Proof.
  intros T H2. destruct (index3 d enc bc tc e dim r t ts RD OP TR ND DIM) as (IX & HAS). destruct (HAS i j) as (b & EB & B). unfold at_trace.
  eapply fails_in_lift_bind; [exact EB|]. rewrite (proj2 B (ex_intro _ tr T)). destruct T as (I & <- & <-). apply in_trace_of in I. destruct I as (k & K).
  eapply fails_in_lift_bind; [apply IX; exists tr; eauto|]. now apply H2.
Qed.
Lemma absent_cells i j nums l : (forall tr, ~ trace_at ts i j tr) -> Forall2 (row_cell d e t ts nums i j) (sseq_list l) (zrepeat None (sseq_len l)).
Proof.
  intros N. rewrite sseq_len_spec. unfold zrepeat, zlen. rewrite Nat2Z.id. induction (sseq_list l) as [|s l' IH]; cbn; constructor; auto. right. auto.
Qed.

(* rows for the traces at the places (place j): the common part of inlines and crosslines *)
Lemma rows_short (place : Z -> Z * Z) m c nums l : 0 <= m -> forward c -> ensure_superset (QRange (mk_range 0 m 1)) c = Ok nums -> sseq_list nums <> [] ->
  (forall x tr, In x l -> trace_at ts (fst (place x)) (snd (place x)) tr -> whole d t tr /\ 0 <= t_count tr) ->
  let get := map_io (fun x => at_trace r (place x) (zrepeat None (sseq_len nums)) (sample_row native r nums)) l in
  ((forall x tr, In x l -> trace_at ts (fst (place x)) (snd (place x)) tr -> fills (sseq_list nums) tr) ->
     reads d get (Forall2 (fun x row => Forall2 (row_cell d e t ts (sseq_list nums) (fst (place x)) (snd (place x))) (sseq_list nums) row) l)) /\
  ((exists x tr, In x l /\ trace_at ts (fst (place x)) (snd (place x)) tr /\ ~ fills (sseq_list nums) tr) ->
     fails_in d get (short_error (sseq_list nums))).
Proof.
  intros Hm F E NE WH get. unfold get. split.
  - intros H. apply reads_map. intros x Hx. rewrite (surjective_pairing (place x)).
    apply (at_trace_reads d enc bc tc e dim r t ts RD OP TR ND DIM); [apply absent_cells|]. intros k tr K T.
    destruct (WH x tr Hx T) as (W & C). apply (row_short _ _ k tr m c nums); auto. now apply (H x tr).
  - intros (x & tr & Hx & T & NF).
    assert (Q : forall x tr, In x l -> trace_at ts (fst (place x)) (snd (place x)) tr -> ~ fills (sseq_list nums) tr ->
      fails_in d (at_trace r (place x) (zrepeat None (sseq_len nums)) (sample_row native r nums)) (short_error (sseq_list nums))).
    { clear x tr Hx T NF. intros x tr Hx T NF. rewrite (surjective_pairing (place x)). apply at_trace_fails_in with tr; auto. intros k K.
      destruct (WH x tr Hx T) as (W & C). apply (row_short (fst (place x)) (snd (place x)) k tr m c nums); auto. }
    apply fails_in_map; [|eauto]. clear x tr Hx T NF. intros x Hx.
    destruct (index3 d enc bc tc e dim r t ts RD OP TR ND DIM) as (IX & HAS). destruct (HAS (fst (place x)) (snd (place x))) as (b & EB & B). destruct b.
    + destruct (proj1 B eq_refl) as (tr & T). destruct (fills_dec m c nums tr Hm F E) as [FI|FI]; [left|right; eauto].
      rewrite (surjective_pairing (place x)). apply (at_trace_reads d enc bc tc e dim r t ts RD OP TR ND DIM); [auto|]. intros k tr' K T'.
      assert (tr' = tr) as ->.
      { destruct T as (I1 & H1 & H2), T' as (I2 & H3 & H4). rewrite <- H1 in H3. rewrite <- H2 in H4.
        revert I1 I2. clear - ND H3 H4. induction ts as [|y l0 IH]; intros I1 I2; [destruct I1|]. cbn [map] in ND. inversion ND as [|? ? N1 N2]; subst.
        destruct I1 as [->|I1], I2 as [->|I2]; auto; exfalso; apply N1; apply in_map_iff; eexists; (split; [|eassumption]); congruence. }
      destruct (WH x tr Hx T) as (W & C). eapply reads_weaken; [apply (row_short (fst (place x)) (snd (place x)) k tr m c nums); eauto|auto].
    + left. rewrite (surjective_pairing (place x)). apply (at_trace_reads d enc bc tc e dim r t ts RD OP TR ND DIM); [auto|]. intros k tr' K T'.
      assert (false = true) by (apply B; eauto). discriminate.
Qed.

Lemma inline_short inline xlines samples j_all j_nums m nums :
  In inline (map t_inline ts) -> rd_xline_numbers r = Ok j_all -> ensure_superset j_all xlines = Ok j_nums ->
  rd_max_num_trace_samples r = Ok m -> 0 <= m -> forward samples -> ensure_superset (QRange (mk_range 0 m 1)) samples = Ok nums -> sseq_list nums <> [] ->
  (forall tr, In tr ts -> t_inline tr = inline -> In (t_xline tr) (sseq_list j_nums) -> whole d t tr /\ 0 <= t_count tr) ->
  ((forall tr, In tr ts -> t_inline tr = inline -> In (t_xline tr) (sseq_list j_nums) -> fills (sseq_list nums) tr) ->
     reads d (extract_inline_3d native r inline xlines samples)
       (grid (fun j s => row_cell d e t ts (sseq_list nums) inline j s) (sseq_list j_nums) (sseq_list nums))) /\
  ((exists tr, In tr ts /\ t_inline tr = inline /\ In (t_xline tr) (sseq_list j_nums) /\ ~ fills (sseq_list nums) tr) ->
     fails_in d (extract_inline_3d native r inline xlines samples) (short_error (sseq_list nums))).
Proof.
  intros IL E3 E4 EM Hm FW EN NE H. unfold extract_inline_3d.
  destruct (lines3 d enc bc tc e dim r t ts RD OP TR ND DIM) as ((i_all & E1 & (W1 & _) & _ & M1) & _).
  destruct (dtype_ok d tc e r t ts TR) as (dt & ED). assert (FM := format_of d tc e r t ts TR).
  destruct (rows_short (fun j => (inline, j)) m samples nums (sseq_list j_nums) Hm FW EN NE) as (R & X).
  { intros j tr Hj (I & HI & HJ). cbn [fst snd] in *. apply H; auto. now rewrite HJ. }
  split; intros Q.
  - eapply reads_lift_bind; [exact E1|]. rewrite (proj2 (sseq_mem_spec _ _ W1) (proj2 (M1 _) IL)). cbn [negb].
    do 4 (eapply reads_lift_bind; [eassumption|]). eapply reads_lift_bind; [exact FM|]. eapply reads_lift_bind; [exact ED|].
    apply R. intros j tr Hj (I & HI & HJ). cbn [fst snd] in *. apply Q; auto. now rewrite HJ.
  - eapply fails_in_lift_bind; [exact E1|]. rewrite (proj2 (sseq_mem_spec _ _ W1) (proj2 (M1 _) IL)). cbn [negb].
    do 4 (eapply fails_in_lift_bind; [eassumption|]). eapply fails_in_lift_bind; [exact FM|]. eapply fails_in_lift_bind; [exact ED|].
    apply X. destruct Q as (tr & I & HI & HJ & NF). exists (t_xline tr), tr. repeat split; auto.
Qed.
Lemma xline_short xline inlines samples i_all i_nums m nums :
  In xline (map t_xline ts) -> rd_inline_numbers r = Ok i_all -> ensure_superset i_all inlines = Ok i_nums ->
  rd_max_num_trace_samples r = Ok m -> 0 <= m -> forward samples -> ensure_superset (QRange (mk_range 0 m 1)) samples = Ok nums -> sseq_list nums <> [] ->
  (forall tr, In tr ts -> t_xline tr = xline -> In (t_inline tr) (sseq_list i_nums) -> whole d t tr /\ 0 <= t_count tr) ->
  ((forall tr, In tr ts -> t_xline tr = xline -> In (t_inline tr) (sseq_list i_nums) -> fills (sseq_list nums) tr) ->
     reads d (extract_xline_3d native r xline inlines samples)
       (grid (fun i s => row_cell d e t ts (sseq_list nums) i xline s) (sseq_list i_nums) (sseq_list nums))) /\
  ((exists tr, In tr ts /\ t_xline tr = xline /\ In (t_inline tr) (sseq_list i_nums) /\ ~ fills (sseq_list nums) tr) ->
     fails_in d (extract_xline_3d native r xline inlines samples) (short_error (sseq_list nums))).
Proof.
  intros IL E3 E4 EM Hm FW EN NE H. unfold extract_xline_3d.
  destruct (lines3 d enc bc tc e dim r t ts RD OP TR ND DIM) as (_ & (j_all & E1 & (W1 & _) & _ & M1)).
  destruct (dtype_ok d tc e r t ts TR) as (dt & ED). assert (FM := format_of d tc e r t ts TR).
  destruct (rows_short (fun i => (i, xline)) m samples nums (sseq_list i_nums) Hm FW EN NE) as (R & X).
  { intros i tr Hi (I & HI & HJ). cbn [fst snd] in *. apply H; auto. now rewrite HI. }
  split; intros Q.
  - eapply reads_lift_bind; [exact E1|]. rewrite (proj2 (sseq_mem_spec _ _ W1) (proj2 (M1 _) IL)). cbn [negb].
    do 4 (eapply reads_lift_bind; [eassumption|]). eapply reads_lift_bind; [exact FM|]. eapply reads_lift_bind; [exact ED|].
    apply R. intros i tr Hi (I & HI & HJ). cbn [fst snd] in *. apply Q; auto. now rewrite HI.
  - eapply fails_in_lift_bind; [exact E1|]. rewrite (proj2 (sseq_mem_spec _ _ W1) (proj2 (M1 _) IL)). cbn [negb].
    do 4 (eapply fails_in_lift_bind; [eassumption|]). eapply fails_in_lift_bind; [exact FM|]. eapply fails_in_lift_bind; [exact ED|].
    apply X. destruct Q as (tr & I & HI & HJ & NF). exists (t_inline tr), tr. repeat split; auto.
Qed.

(* slices of samples that walk backwards *)
Lemma back_range m sl : 0 <= m -> slice_step sl < 0 -> exists q, ensure_superset (QRange (mk_range 0 m 1)) (Sliced sl) = Ok (QRange q) /\
  r_step q = slice_step sl /\ r_stop q = match sl_stop sl with None => -1 | Some v => if v <? 0 then Z.max (v + m) (-1) else Z.min v (m - 1) end.
Proof.
  intros Hm NS. unfold ensure_superset, sseq_slice, range_slice, slice_positions.
  change (match sl_step sl with None => 1 | Some v => v end) with (slice_step sl). cbv zeta.
  assert (RL : range_len (mk_range 0 m 1) = m).
  { unfold range_len. cbn [r_start r_stop r_step]. change (0 <? 1) with true. cbv iota. destruct (0 <? m) eqn:E; [|lia]. rewrite Z.div_1_r. lia. }
  rewrite RL. replace (slice_step sl =? 0) with false by lia. replace (slice_step sl <? 0) with true by lia. cbn [bind r_start r_stop r_step].
  eexists. split; [reflexivity|]. cbn [r_step r_stop r_start]. split; [lia|]. rewrite Z.mul_1_r. reflexivity.
Qed.
Lemma range_row_back k tr q : trace_of ts k tr -> r_step q < 0 -> range_list q <> [] -> whole d t tr ->
  (0 <= r_stop q -> (forall s, In s (range_list q) -> 0 <= s < t_count tr) ->
     reads d (range_row native r q k) (Forall2 (fun s c => exists v, c = Some v /\ sample_of d e t tr s v) (range_list q))) /\
  (r_stop q = -1 -> 0 <= t_count tr -> fails d (range_row native r q k) ValueError).
Proof.
  intros K SP NE W.
  assert (L : 0 < range_len q).
  { rewrite <- range_list_length. destruct (range_list q); [congruence|]. unfold zlen. cbn. lia. }
  assert (WQ : range_ok q) by (unfold range_ok; lia).
  assert (ST : r_stop q < r_start q).
  { unfold range_len in L. replace (0 <? r_step q) with false in L by lia. destruct (r_stop q <? r_start q) eqn:E; lia. }
  destruct (counts_ok d enc bc tc e dim r t ts RD OP TR) as (_ & _ & CNT & _). split.
  - intros S0 IN. assert (SL := IN _ (range_start_In q WQ L)).
    unfold range_row. eapply reads_lift_bind; [apply (CNT k tr K)|].
    eapply reads_bind; [apply (all_read k tr K); [lia|exact W]|]. intros ss (ZL & SS). cbn beta in *.
    assert (EQ : list_slice ss (mk_slice (Some (r_start q)) (Some (Z.min (r_stop q) (t_count tr))) (Some (r_step q))) =
      Ok (map (fun s => nth (Z.to_nat s) ss (RInt 0)) (range_list q))).
    { unfold list_slice, slice_positions. cbn [sl_step sl_start sl_stop]. replace (r_step q =? 0) with false by lia. cbv zeta.
      replace (r_step q <? 0) with true by lia. replace (r_start q <? 0) with false by lia.
      replace (Z.min (r_stop q) (t_count tr) <? 0) with false by lia. cbn [bind].
      replace (Z.min (r_start q) (zlen ss - 1)) with (r_start q) by lia. replace (Z.min (Z.min (r_stop q) (t_count tr)) (zlen ss - 1)) with (r_stop q) by lia.
      replace (mk_range (r_start q) (r_stop q) (r_step q)) with q by (now destruct q).
      apply map_res_ok. intros s Hs. apply py_get_ok. specialize (IN s Hs). lia. }
    eapply reads_lift_bind; [exact EQ|].
    eapply reads_lift; [unfold assign_row; rewrite zlen_map, range_list_length, Z.eqb_refl; reflexivity|].
    rewrite map_map. revert IN. generalize (range_list q) as l. induction l as [|s l IH]; intros IN; cbn [map]; constructor.
    + eexists. split; [reflexivity|]. apply SS. apply IN. now left.
    + apply IH. intros; apply IN. now right.
  - intros S0 C. unfold range_row. eapply fails_lift_bind; [apply (CNT k tr K)|].
    eapply fails_after; [apply (all_read k tr K C W)|]. intros ss (ZL & SS). cbn beta in *.
    assert (EQ : list_slice ss (mk_slice (Some (r_start q)) (Some (Z.min (r_stop q) (t_count tr))) (Some (r_step q))) = Ok []).
    { unfold list_slice, slice_positions. cbn [sl_step sl_start sl_stop]. replace (r_step q =? 0) with false by lia. cbv zeta.
      replace (r_step q <? 0) with true by lia. replace (r_start q <? 0) with false by lia.
      replace (Z.min (r_stop q) (t_count tr) <? 0) with true by lia. cbn [bind].
      assert (E : range_list (mk_range (Z.min (r_start q) (zlen ss - 1)) (Z.max (Z.min (r_stop q) (t_count tr) + zlen ss) (-1)) (r_step q)) = []).
      { unfold range_list, range_len. cbn [r_start r_stop r_step]. replace (0 <? r_step q) with false by lia.
        match goal with |- context [if ?b then _ else 0] => replace b with false by lia end. reflexivity. }
      rewrite E. reflexivity. }
    eapply fails_lift_bind; [exact EQ|]. intros p. exists p. unfold lift, assign_row. change (@zlen real []) with 0.
    replace (0 =? range_len q) with false by lia. reflexivity.
Qed.
Lemma rows_back (place : Z -> Z * Z) m sl nums l : 0 <= m -> slice_step sl < 0 -> ensure_superset (QRange (mk_range 0 m 1)) (Sliced sl) = Ok nums -> sseq_list nums <> [] ->
  let get := map_io (fun x => at_trace r (place x) (zrepeat None (sseq_len nums)) (sample_row native r nums)) l in
  ((exists v, sl_stop sl = Some v /\ 0 <= counted m v) ->
   (forall x tr, In x l -> trace_at ts (fst (place x)) (snd (place x)) tr -> whole d t tr /\ forall s, In s (sseq_list nums) -> 0 <= s < t_count tr) ->
     reads d get (Forall2 (fun x row => Forall2 (sample_cell d e t ts (fst (place x)) (snd (place x))) (sseq_list nums) row) l)) /\
  ((forall v, sl_stop sl = Some v -> counted m v < 0) ->
   (forall x tr, In x l -> trace_at ts (fst (place x)) (snd (place x)) tr -> whole d t tr /\ 0 <= t_count tr) ->
   (exists x tr, In x l /\ trace_at ts (fst (place x)) (snd (place x)) tr) -> fails d get ValueError).
Proof.
  intros Hm NS E NE get. unfold get. destruct (back_range m sl Hm NS) as (q & E' & QS & QT). rewrite E in E'. injection E' as ->. cbn [sseq_list sample_row] in *. split.
  - intros (v & EV & CV) H. rewrite EV in QT. unfold counted in CV.
    assert (M0 : 0 < m).
    { destruct (Z_lt_dec 0 m); [auto|]. exfalso. apply NE. replace m with 0 in * by lia.
      destruct (sliced (QRange (mk_range 0 0 1)) sl) as (q' & E2 & _ & P & _); [cbn; unfold range_ok; cbn; lia|discriminate|lia|].
      rewrite E in E2. injection E2 as <-. cbn [sseq_list] in P. destruct (range_list q) as [|x lq]; [reflexivity|].
      destruct (proj1 (P x) (or_introl eq_refl)) as (i & _ & N). unfold range_list in N. cbn in N. destruct (Z.to_nat i); discriminate. }
    assert (S0 : 0 <= r_stop q) by (destruct (v <? 0); lia).
    apply reads_map. intros x Hx. rewrite (surjective_pairing (place x)).
    apply (at_trace_reads d enc bc tc e dim r t ts RD OP TR ND DIM); [intros N; apply (absent_row d e t ts _ _ (QRange q) N)|]. intros k tr K T.
    destruct (H x tr Hx T) as (W & IN). destruct (range_row_back k tr q K ltac:(lia) NE W) as (G & _).
    eapply reads_weaken; [apply (G S0 IN)|]. intros row. clear - T. generalize (range_list q) as l0. intros l0 Q.
    induction Q as [|s c l0 l' (v & -> & S) _ IH]; constructor; [left; exists tr, v; auto|exact IH].
  - intros EV H (x & tr & Hx & T).
    assert (S0 : r_stop q = -1).
    { destruct (sl_stop sl) as [v|]; [|exact QT]. specialize (EV v eq_refl). unfold counted in EV. destruct (v <? 0) eqn:?; lia. }
    apply fails_map.
    + clear x tr Hx T. intros x Hx. destruct (index3 d enc bc tc e dim r t ts RD OP TR ND DIM) as (IX & HAS). destruct (HAS (fst (place x)) (snd (place x))) as (b & EB & B). destruct b.
      * right. destruct (proj1 B eq_refl) as (tr & T). rewrite (surjective_pairing (place x)).
        apply (at_trace_fails d enc bc tc e dim r t ts RD OP TR ND DIM) with tr; auto. intros k K. destruct (H x tr Hx T) as (W & C).
        apply (range_row_back k tr q K ltac:(lia) NE W); auto.
      * left. rewrite (surjective_pairing (place x)). apply (at_trace_reads d enc bc tc e dim r t ts RD OP TR ND DIM); [auto|]. intros k tr' K T'.
        assert (false = true) by (apply B; eauto). discriminate.
    + exists x. split; [exact Hx|]. rewrite (surjective_pairing (place x)).
      apply (at_trace_fails d enc bc tc e dim r t ts RD OP TR ND DIM) with tr; auto. intros k K. destruct (H x tr Hx T) as (W & C).
      apply (range_row_back k tr q K ltac:(lia) NE W); auto.
Qed.
Lemma inline_back inline xlines sl j_all j_nums m nums :
  In inline (map t_inline ts) -> rd_xline_numbers r = Ok j_all -> ensure_superset j_all xlines = Ok j_nums ->
  rd_max_num_trace_samples r = Ok m -> 0 <= m -> slice_step sl < 0 -> ensure_superset (QRange (mk_range 0 m 1)) (Sliced sl) = Ok nums -> sseq_list nums <> [] ->
  ((exists v, sl_stop sl = Some v /\ 0 <= counted m v) ->
   (forall tr, In tr ts -> t_inline tr = inline -> In (t_xline tr) (sseq_list j_nums) ->
      whole d t tr /\ forall s, In s (sseq_list nums) -> 0 <= s < t_count tr) ->
     reads d (extract_inline_3d native r inline xlines (Sliced sl))
       (grid (fun j s => sample_cell d e t ts inline j s) (sseq_list j_nums) (sseq_list nums))) /\
  ((forall v, sl_stop sl = Some v -> counted m v < 0) ->
   (forall tr, In tr ts -> t_inline tr = inline -> In (t_xline tr) (sseq_list j_nums) -> whole d t tr /\ 0 <= t_count tr) ->
   (exists tr, In tr ts /\ t_inline tr = inline /\ In (t_xline tr) (sseq_list j_nums)) ->
     fails d (extract_inline_3d native r inline xlines (Sliced sl)) ValueError).
Proof.
  intros IL E3 E4 EM Hm FW EN NE. unfold extract_inline_3d.
  destruct (lines3 d enc bc tc e dim r t ts RD OP TR ND DIM) as ((i_all & E1 & (W1 & _) & _ & M1) & _).
  destruct (dtype_ok d tc e r t ts TR) as (dt & ED). assert (FM := format_of d tc e r t ts TR).
  destruct (rows_back (fun j => (inline, j)) m sl nums (sseq_list j_nums) Hm FW EN NE) as (R & X).
  split; [intros V Q|intros V Q (tr & I & HI & HJ)].
  - eapply reads_lift_bind; [exact E1|]. rewrite (proj2 (sseq_mem_spec _ _ W1) (proj2 (M1 _) IL)). cbn [negb].
    do 4 (eapply reads_lift_bind; [eassumption|]). eapply reads_lift_bind; [exact FM|]. eapply reads_lift_bind; [exact ED|].
    apply R; auto. intros j tr Hj (I & HI & HJ). cbn [fst snd] in *. apply Q; auto. now rewrite HJ.
  - eapply fails_lift_bind; [exact E1|]. rewrite (proj2 (sseq_mem_spec _ _ W1) (proj2 (M1 _) IL)). cbn [negb].
    do 4 (eapply fails_lift_bind; [eassumption|]). eapply fails_lift_bind; [exact FM|]. eapply fails_lift_bind; [exact ED|].
    apply X; auto.
    + intros j tr' Hj (I' & HI' & HJ'). cbn [fst snd] in *. apply Q; auto. now rewrite HJ'.
    + exists (t_xline tr), tr. repeat split; auto.
Qed.
Lemma xline_back xline inlines sl i_all i_nums m nums :
  In xline (map t_xline ts) -> rd_inline_numbers r = Ok i_all -> ensure_superset i_all inlines = Ok i_nums ->
  rd_max_num_trace_samples r = Ok m -> 0 <= m -> slice_step sl < 0 -> ensure_superset (QRange (mk_range 0 m 1)) (Sliced sl) = Ok nums -> sseq_list nums <> [] ->
  ((exists v, sl_stop sl = Some v /\ 0 <= counted m v) ->
   (forall tr, In tr ts -> t_xline tr = xline -> In (t_inline tr) (sseq_list i_nums) ->
      whole d t tr /\ forall s, In s (sseq_list nums) -> 0 <= s < t_count tr) ->
     reads d (extract_xline_3d native r xline inlines (Sliced sl))
       (grid (fun i s => sample_cell d e t ts i xline s) (sseq_list i_nums) (sseq_list nums))) /\
  ((forall v, sl_stop sl = Some v -> counted m v < 0) ->
   (forall tr, In tr ts -> t_xline tr = xline -> In (t_inline tr) (sseq_list i_nums) -> whole d t tr /\ 0 <= t_count tr) ->
   (exists tr, In tr ts /\ t_xline tr = xline /\ In (t_inline tr) (sseq_list i_nums)) ->
     fails d (extract_xline_3d native r xline inlines (Sliced sl)) ValueError).
Proof.
  intros IL E3 E4 EM Hm FW EN NE. unfold extract_xline_3d.
  destruct (lines3 d enc bc tc e dim r t ts RD OP TR ND DIM) as (_ & (j_all & E1 & (W1 & _) & _ & M1)).
  destruct (dtype_ok d tc e r t ts TR) as (dt & ED). assert (FM := format_of d tc e r t ts TR).
  destruct (rows_back (fun i => (i, xline)) m sl nums (sseq_list i_nums) Hm FW EN NE) as (R & X).
  split; [intros V Q|intros V Q (tr & I & HJ & HI)].
  - eapply reads_lift_bind; [exact E1|]. rewrite (proj2 (sseq_mem_spec _ _ W1) (proj2 (M1 _) IL)). cbn [negb].
    do 4 (eapply reads_lift_bind; [eassumption|]). eapply reads_lift_bind; [exact FM|]. eapply reads_lift_bind; [exact ED|].
    apply R; auto. intros i tr Hi (I & HI & HJ). cbn [fst snd] in *. apply Q; auto. now rewrite HI.
  - eapply fails_lift_bind; [exact E1|]. rewrite (proj2 (sseq_mem_spec _ _ W1) (proj2 (M1 _) IL)). cbn [negb].
    do 4 (eapply fails_lift_bind; [eassumption|]). eapply fails_lift_bind; [exact FM|]. eapply fails_lift_bind; [exact ED|].
    apply X; auto.
    + intros i tr' Hi (I' & HI' & HJ'). cbn [fst snd] in *. apply Q; auto. now rewrite HI'.
    + exists (t_inline tr), tr. repeat split; auto.
Qed.
End Short.
