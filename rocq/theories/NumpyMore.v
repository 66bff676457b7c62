(* Facts for what the Numpy extension gives in the remaining cases. *)
From Coq Require Import String ZArith List Bool Lia Sorted ZifyBool ZifyNat.
From Verif Require Import Py PyFacts Util Spec_Util UtilFacts NumpyExt Spec_Numpy NumpyFacts Spec_Order.
Import ListNotations.
Open Scope Z_scope.


Lemma sorted_one l x : StronglySorted Z.lt l -> l <> [] -> (forall y, In y l -> y = x) -> l = [x].
Proof.
  intros S NE H. destruct l as [|a [|b l]]; [congruence|rewrite (H a); [reflexivity|now left]|].
  exfalso. inversion S as [|? ? _ F]; subst. inversion F; subst. rewrite (H a), (H b) in * by (cbn; auto). lia.
Qed.
Lemma sfs_one l x : l <> [] -> (forall y, In y l -> y = x) -> sfs_new l = [x].
Proof.
  intros NE H. unfold sfs_new. apply sorted_one.
  - apply sorted_set_sorted.
  - destruct l as [|a l]; [congruence|]. intros E. assert (I : In a (sorted_set (a :: l))) by (apply sorted_set_In; now left). rewrite E in I. contradiction.
  - intros y Y. apply H. now apply sorted_set_In.
Qed.

(* a single item becomes a range of the step given *)
Lemma msds_one it x : items_ok it -> (forall y, In y (it_list it) -> y = x) ->
  exists s, make_sorted_distinct_sequence it SAscending = Ok (QRange s) /\ range_ok s /\ range_list s = [x] /\
    (r_step s = given_step it \/ r_step s = - given_step it).
Proof.
  intros OK H. destruct (msds_items it OK) as (s & E & W & M & A & NE).
  assert (L : sseq_list s = [x]) by (apply sorted_one; auto; intros y Y; apply H, M, Y).
  assert (Q : exists r, s = QRange r /\ (r_step r = given_step it \/ r_step r = - given_step it)).
  { destruct OK as (N & _). clear L M A NE. destruct it as [r|l|l|l]; cbn [make_sorted_distinct_sequence bind it_list given_step] in *.
    { destruct (0 <? r_step r); injection E as <-; eexists; split; try reflexivity; [now left|right; reflexivity]. }
    all: rewrite (sfs_one l x N H) in E; injection E as <-; eexists; split; [reflexivity|now left]. }
  destruct Q as (r & -> & R). exists r. auto.
Qed.


Lemma ensure_exact all it : sseq_wf all -> ascending (sseq_list all) -> items_ok it ->
  (accepted all it -> exists s, ensure_superset all (Items it) = Ok s /\ ascending (sseq_list s) /\ forall x, In x (sseq_list s) <-> In x (it_list it)) /\
  (~ accepted all it -> ensure_superset all (Items it) = Err ValueError).
Proof.
  intros W A OK.
  assert (D : (exists x y, In x (it_list it) /\ In y (it_list it) /\ x <> y) \/ (exists x, forall y, In y (it_list it) -> y = x)).
  { destruct OK as (NE & _). destruct (it_list it) as [|a l]; [congruence|].
    assert (D : (exists y, In y l /\ y <> a) \/ (forall y, In y l -> y = a)).
    { clear. induction l as [|b l IH]; [right; intros y []|]. destruct (Z.eq_dec b a) as [->|N]; [|left; exists b; split; [now left|exact N]].
      destruct IH as [(y & Y & N)|IH]; [left; exists y; split; [now right|exact N]|]. right. intros y [<-|Y]; auto. }
    destruct D as [(y & Y & N)|D]; [left; exists a, y; cbn; auto|right; exists a; intros y [<-|Y]; auto]. }
  assert (IN : (forall x, In x (it_list it) -> In x (sseq_list all)) \/ exists x, In x (it_list it) /\ ~ In x (sseq_list all)).
  { clear. induction (it_list it) as [|a l IH]; [left; intros x []|]. destruct (in_dec Z.eq_dec a (sseq_list all)) as [I|N]; [|right; exists a; cbn; auto].
    destruct IH as [IH|(x & X & N)]; [left; intros x [<-|X]; auto|right; exists x; cbn; auto]. }
  destruct IN as [IN|(x & X & N)]; [|split; [intros (B & _); exfalso; auto|intros _; exact (ensure_reject all it x W A OK X N)]].
  destruct D as [D|(x & D)].
  { split; [intros _; apply ensure_accept; auto|]. intros N. exfalso. apply N. split; auto. }
  destruct all as [r|l|l].
  2, 3: split; [intros _; apply ensure_accept; auto; right; discriminate|intros N; exfalso; apply N; split; [auto|right; discriminate]].
  destruct (msds_one it x OK D) as (s & E & Ws & L & ST). cbn in W, A. pose proof W as W'. pose proof Ws as Ws'. unfold range_ok in W', Ws'.
  assert (LS : range_len s = 1) by (rewrite <- range_list_length, L; reflexivity).
  assert (X0 : r_start s = x).
  { pose proof (range_start_In s Ws ltac:(lia)) as I. rewrite L in I. destruct I as [I|[]]; auto. }
  assert (IX : In x (range_list r)).
  { apply IN. destruct OK as (NE & _). destruct (it_list it) as [|a l]; [congruence|]. rewrite (D a) by now left. now left. }
  assert (LR : 0 < range_len r) by (apply range_list_In in IX; destruct IX as (i & Hi & _); lia).
  assert (V : (r_step r | given_step it) <-> r_step s mod r_step r = 0).
  { rewrite Z.mod_divide by exact W'. destruct ST as [->| ->]; [tauto|]. now rewrite Z.divide_opp_r. }
  unfold ensure_superset. rewrite E. cbn [bind is_superset]. unfold is_range_superset_of_range.
  rewrite X0, (proj2 (range_mem_In r x W) IX). cbn [negb].
  destruct (r_step s mod r_step r =? 0) eqn:Q; cbn [negb bind].
  - assert (AC : accepted (QRange r) it). { split; [auto|]. right. intros r' F. injection F as <-. apply V. lia. }
    split; [intros _|intros N; contradiction].
    rewrite !range_get_neg by lia. cbn [bind].
    replace (r_start r + (-1 + range_len r) * r_step r <? r_start s + (-1 + range_len s) * r_step s) with false.
    + rewrite L. cbn [forallb]. rewrite (proj2 (range_mem_In r x W) IX). cbn [andb bind]. exists (QRange s). cbn [sseq_list]. rewrite L.
      split; [reflexivity|]. split; [repeat constructor|]. intros y. cbn [In]. split.
      * intros [<-|[]]. destruct OK as (NE & _). destruct (it_list it) as [|a l]; [congruence|]. rewrite (D a) by now left. now left.
      * intros Y. left. symmetry. now apply D.
    + symmetry. apply Z.ltb_ge. rewrite LS, X0. apply range_list_In in IX. destruct IX as (i & Hi & ->).
      destruct (range_ascending r W A) as [P|P]; nia.
  - split; [|reflexivity]. intros (_ & [(y & z & Y & Z0 & N)|H]); [exfalso; apply N; rewrite (D y Y), (D z Z0); reflexivity|].
    specialize (H r eq_refl). apply V in H. lia.
Qed.

(* the traces of an array that is not square *)
Lemma index_right n m k : 0 < n -> 0 < m -> n <> m -> 0 <= k < n * m ->
  (exists i j, complete_inline_xline_index n m k = Ok (i, j) /\ placed n m k i j) <-> k < n /\ k < m.
Proof.
  intros N M D K. unfold complete_inline_xline_index, placed. replace (n =? 0) with false by lia.
  pose proof (Z.div_mod k n ltac:(lia)) as E. pose proof (Z.mod_pos_bound k n N) as B.
  destruct (negb _) eqn:Q.
  - split; [intros (i & j & F & _); discriminate|]. intros (K1 & K2). rewrite (Z.div_small k n), (Z.mod_small k n) in Q by lia. lia.
  - split.
    + intros (i & j & F & P). injection F as F1 F2. rewrite F1, F2 in *. assert (i * (n - m) = 0) by nia.
      assert (i = 0) by nia. subst i. nia.
    + intros (K1 & K2). exists 0, k. rewrite Z.div_small, Z.mod_small by lia. split; [reflexivity|]. lia.
Qed.
(* a place, or ValueError, of any array *)
Lemma index_answer n m k i j : 0 < n -> complete_inline_xline_index n m k = Ok (i, j) <-> k = i * n + j /\ 0 <= i < n /\ 0 <= j < n /\ j < m.
Proof.
  intros N. unfold complete_inline_xline_index. replace (n =? 0) with false by lia.
  pose proof (Z.div_mod k n ltac:(lia)) as E. pose proof (Z.mod_pos_bound k n N) as B.
  split.
  - destruct (negb _) eqn:Q; [discriminate|]. intros F. injection F as F1 F2. rewrite F1, F2 in *. lia.
  - intros (-> & I & J & JM). replace ((i * n + j) / n) with i by (apply (Z.div_unique_pos _ _ _ j); lia).
    replace ((i * n + j) mod n) with j by (apply (Z.mod_unique_pos _ _ i); lia).
    replace (negb _) with false by lia. reflexivity.
Qed.
Lemma index_error n m k : (exists p, complete_inline_xline_index n m k = Ok p) \/
  complete_inline_xline_index n m k = Err (if n =? 0 then ZeroDivisionError else ValueError).
Proof. unfold complete_inline_xline_index. destruct (n =? 0); [now right|]. destruct (negb _); [now right|eauto]. Qed.
