(* Proofs for C149. *)
From Coq Require Import String ZArith List Bool Lia ZifyBool ZifyNat Sorted.
From Verif Require Import Py PyFacts Util UtilFacts HeaderFacts NumpyExt Spec_Numpy NumpyFacts SetItems Spec_SetItems.
Import ListNotations.
Open Scope list_scope.
Open Scope Z_scope.

Lemma different_set xs : zlen (sfs_new xs) = different xs.
Proof.
  unfold different, zlen. f_equal. apply NoDup_same_length; [apply sorted_set_NoDup|apply NoDup_nodup|].
  intros x. unfold sfs_new. now rewrite sorted_set_In, nodup_In.
Qed.
Lemma rank_set xs x : rank xs x = zlen (filter (fun y => y <? x) (sfs_new xs)).
Proof.
  unfold rank, different, zlen. f_equal. apply NoDup_same_length; [apply NoDup_nodup|apply NoDup_filter, sorted_set_NoDup|].
  intros y. unfold sfs_new. now rewrite nodup_In, !filter_In, sorted_set_In.
Qed.
Lemma filter_none {A} (p : A -> bool) l : (forall x, In x l -> p x = false) -> filter p l = [].
Proof. induction l as [|y l IH]; intros H; [reflexivity|]. cbn. rewrite H by now left. apply IH. intros x I. apply H. now right. Qed.
Lemma sorted_nth l : StronglySorted Z.lt l -> forall k x, nth_error l k = Some x <-> In x l /\ length (filter (fun y => y <? x) l) = k.
Proof.
  induction 1 as [|y l S IH F]; intros k x.
  - split; [destruct k; discriminate|intros ([] & _)].
  - rewrite Forall_forall in F. cbn [filter]. destruct k as [|k]; cbn [nth_error].
    + split.
      * intros [= ->]. split; [now left|]. replace (x <? x) with false by lia. rewrite filter_none; [reflexivity|]. intros z I. specialize (F z I). lia.
      * intros (I & E). destruct I as [->|I]; [reflexivity|]. specialize (F x I). replace (y <? x) with true in E by lia. discriminate E.
    + rewrite IH. split.
      * intros (I & E). split; [now right|]. specialize (F x I). replace (y <? x) with true by lia. cbn. now rewrite E.
      * intros (I & E). destruct I as [->|I].
        -- replace (x <? x) with false in E by lia. rewrite filter_none in E; [discriminate E|]. intros z I. specialize (F z I). lia.
        -- split; [exact I|]. specialize (F x I). replace (y <? x) with true in E by lia. cbn in E. now injection E.
Qed.
Lemma set_nth xs k x : 0 <= k -> nth_error (sfs_new xs) (Z.to_nat k) = Some x <-> In x xs /\ rank xs x = k.
Proof.
  intros K. rewrite sorted_nth by apply sorted_set_sorted. rewrite rank_set. unfold sfs_new, zlen. rewrite sorted_set_In. split; intros (A & B); (split; [exact A|lia]).
Qed.
Lemma rank_bounds xs x : In x xs -> 0 <= rank xs x < different xs.
Proof.
  intros I. assert (Z0 : 0 <= rank xs x) by (unfold rank, different, zlen; lia). split; [exact Z0|].
  assert (H := proj2 (set_nth xs (rank xs x) x Z0) (conj I eq_refl)). rewrite <- different_set. unfold zlen.
  assert (L : (Z.to_nat (rank xs x) < length (sfs_new xs))%nat) by (apply nth_error_Some; now rewrite H). lia.
Qed.

Lemma item_spec xs i x : sfs_item (sfs_new xs) i = Ok x <-> In x xs /\ rank xs x = counted (different xs) i.
Proof.
  unfold sfs_item, py_get. fold (counted (zlen (sfs_new xs)) i). rewrite different_set. set (k := counted (different xs) i).
  destruct ((0 <=? k) && (k <? different xs)) eqn:B.
  - rewrite <- set_nth by lia. destruct (nth_error (sfs_new xs) (Z.to_nat k)) as [y|]; split; congruence.
  - split; [discriminate|]. intros (I & E). assert (R := rank_bounds xs x I). lia.
Qed.
Lemma item_error xs i : (exists x, sfs_item (sfs_new xs) i = Ok x) \/ sfs_item (sfs_new xs) i = Err IndexError.
Proof. unfold sfs_item, py_get. cbv zeta. destruct (_ && _); [|now right]. destruct (nth_error _ _); eauto. Qed.
Lemma item_range xs i : (exists x, sfs_item (sfs_new xs) i = Ok x) <-> - different xs <= i < different xs.
Proof.
  unfold sfs_item, py_get. fold (counted (zlen (sfs_new xs)) i). rewrite different_set. set (k := counted (different xs) i).
  assert (D : 0 <= different xs) by (unfold different, zlen; lia).
  assert (Q : (0 <=? k) && (k <? different xs) = true <-> - different xs <= i < different xs) by (unfold k, counted; destruct (i <? 0) eqn:E; lia).
  rewrite <- Q. destruct ((0 <=? k) && (k <? different xs)) eqn:B.
  - split; [reflexivity|intros _]. destruct (nth_error (sfs_new xs) (Z.to_nat k)) as [y|] eqn:N; [eauto|]. apply nth_error_None in N.
    rewrite <- different_set in B. unfold zlen in B. lia.
  - split; [intros (x & X); discriminate X|discriminate].
Qed.
Lemma index_spec xs x i : sfs_index (sfs_new xs) x = Ok i <-> In x xs /\ rank xs x = i.
Proof.
  unfold sfs_new at 1. rewrite sfs_index_spec by apply sorted_set_sorted. split.
  - intros (K & N). now apply set_nth in N.
  - intros (I & <-). assert (R := rank_bounds xs x I). split; [lia|]. apply set_nth; [lia|now split].
Qed.
Lemma slice_spec xs s : slice_step s <> 0 -> exists t, sfs_slice (sfs_new xs) s = Ok t /\ StronglySorted Z.lt t /\
  forall x, In x t <-> In x xs /\ picks (different xs) s (rank xs x).
Proof.
  intros NZ. destruct (slice_positions_ok s (zlen (sfs_new xs)) (zlen_nonneg _) NZ) as (p & EP & SP & P).
  unfold sfs_slice, list_slice. rewrite EP. cbn [bind]. rewrite (map_res_ok _ (fun i => nth (Z.to_nat i) (sfs_new xs) 0)).
  2:{ intros i I. apply P in I. destruct I as (B & _). now apply py_get_ok. }
  cbn [bind]. eexists. split; [reflexivity|]. split; [apply sorted_set_sorted|]. intros x. unfold sfs_new at 1. rewrite sorted_set_In, in_map_iff.
  rewrite different_set in P. split.
  - intros (i & <- & I). apply P in I. assert (B := proj1 I).
    assert (N : nth_error (sfs_new xs) (Z.to_nat i) = Some (nth (Z.to_nat i) (sfs_new xs) 0)).
    { apply nth_error_nth'. assert (Q := different_set xs). unfold zlen in Q. lia. }
    apply set_nth in N; [|lia]. destruct N as (A & R). split; [exact A|]. now rewrite R.
  - intros (A & K). exists (rank xs x). split; [|now apply P]. assert (B := proj1 K).
    apply nth_error_nth. apply set_nth; [lia|now split].
Qed.
Lemma slice_zero s sl : slice_step sl = 0 -> sfs_slice s sl = Err ValueError.
Proof. intros Z0. unfold sfs_slice, list_slice, slice_positions. change (match sl_step sl with None => 1 | Some v => v end) with (slice_step sl). now rewrite Z0. Qed.
Lemma sorted_same l m : StronglySorted Z.lt l -> StronglySorted Z.lt m -> (forall x, In x l <-> In x m) -> l = m.
Proof.
  intros L. revert m. induction L as [|y l L IH F]; intros m M H.
  - destruct m as [|z m]; [reflexivity|]. destruct (proj2 (H z) (or_introl eq_refl)).
  - destruct M as [|z m M G]; [destruct (proj1 (H y) (or_introl eq_refl))|]. rewrite Forall_forall in F, G.
    assert (y = z) as ->.
    { destruct (proj1 (H y) (or_introl eq_refl)) as [E|I]; [now symmetry|]. destruct (proj2 (H z) (or_introl eq_refl)) as [E|J]; [exact E|].
      specialize (G y I). specialize (F z J). lia. }
    f_equal. apply IH; [exact M|]. intros x. split; intros I.
    + destruct (proj1 (H x) (or_intror I)) as [->|J]; [specialize (F x I); lia|exact J].
    + destruct (proj2 (H x) (or_intror I)) as [->|J]; [specialize (G x I); lia|exact J].
Qed.
Lemma slice_backwards xs step : step = 1 \/ step = -1 -> sfs_slice (sfs_new xs) (mk_slice None None (Some step)) = Ok (sfs_new xs).
Proof.
  intros [-> | ->]; (destruct (slice_spec xs (mk_slice None None (Some 1))) as (t & E & S & I) || idtac).
  - discriminate.
  - rewrite E. f_equal. apply sorted_same; [exact S|apply sorted_set_sorted|]. intros x. rewrite I. unfold sfs_new. rewrite sorted_set_In. split; [tauto|].
    intros A. split; [exact A|]. assert (R := rank_bounds xs x A). split; [exact R|]. unfold slice_step. cbn. split; [|lia]. intros _. split; [lia|]. split; [apply Z.mod_1_r|discriminate].
  - discriminate.
  - clear t E S I. destruct (slice_spec xs (mk_slice None None (Some (-1)))) as (t & E & S & I); [discriminate|].
    rewrite E. f_equal. apply sorted_same; [exact S|apply sorted_set_sorted|]. intros x. rewrite I. unfold sfs_new. rewrite sorted_set_In. split; [tauto|].
    intros A. split; [exact A|]. assert (R := rank_bounds xs x A). split; [exact R|]. unfold slice_step. cbn. split; [lia|]. intros _. split; [lia|]. split; [apply Z.mod_1_r|discriminate].
Qed.
