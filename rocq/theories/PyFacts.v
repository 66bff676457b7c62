(* Facts about the Python basics of Py.v. *)
From Coq Require Import ZArith List Bool Lia ZifyBool ZifyNat Permutation Sorted Arith.
From Verif Require Import Py.
Import ListNotations.
Open Scope Z_scope.
Ltac Zify.zify_post_hook ::= Z.div_mod_to_equations.

Lemma bind_ok {A B} (r : res A) (f : A -> res B) b :
  bind r f = Ok b <-> exists a, r = Ok a /\ f a = Ok b.
Proof.
  destruct r as [a|e]; cbn; split.
  - intros H; eauto.
  - intros (a' & H & K); congruence.
  - discriminate.
  - intros (a' & H & K); congruence.
Qed.

Lemma bind_err {A B} (r : res A) (f : A -> res B) e :
  bind r f = Err e <-> r = Err e \/ exists a, r = Ok a /\ f a = Err e.
Proof.
  destruct r as [a|e']; cbn; split.
  - intros H; eauto.
  - intros [H|(a' & H & K)]; congruence.
  - intros H; left; congruence.
  - intros [H|(a' & H & K)]; congruence.
Qed.

Lemma zlen_nil {A} : zlen (@nil A) = 0. Proof. reflexivity. Qed.
Lemma zlen_cons {A} (x : A) l : zlen (x :: l) = 1 + zlen l.
Proof. unfold zlen; cbn [length]; lia. Qed.
Lemma zlen_app {A} (l m : list A) : zlen (l ++ m) = zlen l + zlen m.
Proof. unfold zlen; rewrite app_length; lia. Qed.
Lemma zlen_map {A B} (f : A -> B) l : zlen (map f l) = zlen l.
Proof. unfold zlen; now rewrite map_length. Qed.
Lemma zlen_rev {A} (l : list A) : zlen (rev l) = zlen l.
Proof. unfold zlen; now rewrite rev_length. Qed.
Lemma zlen_nonneg {A} (l : list A) : 0 <= zlen l.
Proof. unfold zlen; lia. Qed.
Lemma zlen_zrepeat {A} (x : A) n : 0 <= n -> zlen (zrepeat x n) = n.
Proof. intros; unfold zlen, zrepeat; rewrite repeat_length; lia. Qed.
Lemma zlen_zrepeat_max {A} (x : A) n : zlen (zrepeat x n) = Z.max 0 n.
Proof. unfold zlen, zrepeat; rewrite repeat_length; lia. Qed.
Lemma zlen_0 {A} (l : list A) : zlen l = 0 <-> l = [].
Proof. destruct l; unfold zlen; cbn [length]; split; try easy; lia. Qed.
Lemma zlen_firstn {A} n (l : list A) : zlen (firstn n l) = Z.min (Z.of_nat n) (zlen l).
Proof. unfold zlen; rewrite firstn_length; lia. Qed.
Lemma zlen_skipn {A} n (l : list A) : zlen (skipn n l) = Z.max 0 (zlen l - Z.of_nat n).
Proof. unfold zlen; rewrite skipn_length; lia. Qed.

Lemma py_get_ok {A} (l : list A) i d :
  0 <= i < zlen l -> py_get l i = Ok (nth (Z.to_nat i) l d).
Proof.
  intros H. unfold py_get. destruct (i <? 0) eqn:E; [lia|].
  replace ((0 <=? i) && (i <? zlen l)) with true by lia.
  unfold zlen in H.
  rewrite (nth_error_nth' l d) by lia. reflexivity.
Qed.

Lemma py_get_neg {A} (l : list A) i :
  - zlen l <= i < 0 -> py_get l i = py_get l (i + zlen l).
Proof.
  intros H. unfold py_get. destruct (i <? 0) eqn:E; [|lia].
  destruct (i + zlen l <? 0) eqn:E2; [lia|]. reflexivity.
Qed.

Lemma py_get_err {A} (l : list A) i :
  i < - zlen l \/ zlen l <= i -> py_get l i = Err IndexError.
Proof.
  intros H. unfold py_get. pose proof (zlen_nonneg l).
  destruct (i <? 0) eqn:E.
  - destruct ((0 <=? i + zlen l) && (i + zlen l <? zlen l)) eqn:F; [lia|reflexivity].
  - destruct ((0 <=? i) && (i <? zlen l)) eqn:F; [lia|reflexivity].
Qed.

Lemma zmem_In x l : zmem x l = true <-> In x l.
Proof.
  unfold zmem. rewrite existsb_exists. split.
  - intros (y & Hy & E). apply Z.eqb_eq in E. now subst.
  - intros H. exists x. split; auto. apply Z.eqb_refl.
Qed.

(* --- ranges --- *)

Definition range_ok (r : prange) : Prop := r_step r <> 0.

Lemma range_len_nonneg r : 0 <= range_len r.
Proof.
  unfold range_len. destruct (0 <? r_step r) eqn:E.
  - destruct (r_start r <? r_stop r) eqn:F; [|lia].
    assert (0 <= (r_stop r - 1 - r_start r) / r_step r) by (apply Z.div_pos; lia). lia.
  - destruct (r_stop r <? r_start r) eqn:F; [|lia].
    destruct (Z.eq_dec (r_step r) 0) as [Z0|Z0].
    + rewrite Z0. change (- 0) with 0. rewrite Zdiv_0_r. lia.
    + assert (0 <= (r_start r - 1 - r_stop r) / (- r_step r)) by (apply Z.div_pos; lia). lia.
Qed.

Lemma range_list_length r : zlen (range_list r) = range_len r.
Proof.
  unfold range_list. rewrite zlen_map. unfold zlen. rewrite seq_length.
  pose proof (range_len_nonneg r). lia.
Qed.

Lemma range_list_nth r i d :
  0 <= i < range_len r ->
  nth (Z.to_nat i) (range_list r) d = r_start r + i * r_step r.
Proof.
  intros H. unfold range_list.
  rewrite (nth_indep _ d (r_start r + Z.of_nat 0 * r_step r))
    by (rewrite map_length, seq_length; lia).
  rewrite (map_nth (fun i => r_start r + Z.of_nat i * r_step r)).
  rewrite seq_nth by lia. do 2 f_equal. lia.
Qed.

(* membership in terms of the index *)
Lemma range_mem_iff r x : range_ok r ->
  range_mem r x = true <-> exists i, 0 <= i < range_len r /\ x = r_start r + i * r_step r.
Proof.
  unfold range_ok, range_mem, range_len. intros Hs.
  destruct (0 <? r_step r) eqn:E.
  - assert (Hp : 0 < r_step r) by lia. split.
    + intros H.
      assert (H1 : r_start r <= x /\ x < r_stop r /\ (x - r_start r) mod r_step r = 0) by lia.
      destruct H1 as (H1 & H2 & H3).
      exists ((x - r_start r) / r_step r).
      pose proof (Z.div_mod (x - r_start r) (r_step r) ltac:(lia)) as D.
      rewrite H3 in D.
      replace (r_start r <? r_stop r) with true by lia.
      split; [|lia].
      split; [apply Z.div_pos; lia|].
      assert ((x - r_start r) / r_step r <= (r_stop r - 1 - r_start r) / r_step r)
        by (apply Z.div_le_mono; lia). lia.
    + intros (i & Hi & ->).
      destruct (r_start r <? r_stop r) eqn:F; [|lia].
      replace (r_start r + i * r_step r - r_start r) with (i * r_step r) by lia.
      rewrite Z.mod_mul by lia.
      assert (Hm : i * r_step r <= r_stop r - 1 - r_start r).
      { pose proof (Z.mul_div_le (r_stop r - 1 - r_start r) (r_step r) Hp).
        assert (i <= (r_stop r - 1 - r_start r) / r_step r) by lia. nia. }
      assert (0 <= i * r_step r) by nia. lia.
  - assert (Hp : 0 < - r_step r) by lia. split.
    + intros H.
      assert (H1 : r_stop r < x /\ x <= r_start r /\ (x - r_start r) mod r_step r = 0) by lia.
      destruct H1 as (H1 & H2 & H3).
      exists ((x - r_start r) / r_step r).
      pose proof (Z.div_mod (x - r_start r) (r_step r) ltac:(lia)) as D.
      rewrite H3 in D.
      replace (r_stop r <? r_start r) with true by lia.
      assert (Eq : (x - r_start r) / r_step r = (r_start r - x) / (- r_step r)).
      { rewrite <- (Z.div_opp_opp (x - r_start r) (r_step r)) by lia. f_equal; lia. }
      split; [|lia]. rewrite Eq.
      split; [apply Z.div_pos; lia|].
      assert ((r_start r - x) / (- r_step r) <= (r_start r - 1 - r_stop r) / (- r_step r))
        by (apply Z.div_le_mono; lia). lia.
    + intros (i & Hi & ->).
      destruct (r_stop r <? r_start r) eqn:F; [|lia].
      replace (r_start r + i * r_step r - r_start r) with (i * r_step r) by lia.
      rewrite Z.mod_mul by lia.
      assert (Hm : i * (- r_step r) <= r_start r - 1 - r_stop r).
      { pose proof (Z.mul_div_le (r_start r - 1 - r_stop r) (- r_step r) Hp).
        assert (i <= (r_start r - 1 - r_stop r) / (- r_step r)) by lia. nia. }
      assert (0 <= i * (- r_step r)) by nia. lia.
Qed.

Lemma range_list_In r x :
  In x (range_list r) <-> exists i, 0 <= i < range_len r /\ x = r_start r + i * r_step r.
Proof.
  unfold range_list. rewrite in_map_iff. split.
  - intros (n & <- & Hn). apply in_seq in Hn. exists (Z.of_nat n).
    pose proof (range_len_nonneg r). split; lia.
  - intros (i & Hi & ->). exists (Z.to_nat i). split; [rewrite Z2Nat.id by lia; reflexivity|].
    apply in_seq. lia.
Qed.

Lemma range_mem_In r x : range_ok r -> range_mem r x = true <-> In x (range_list r).
Proof. intros H. now rewrite range_mem_iff, range_list_In. Qed.

Lemma range_index_ok r i : range_ok r -> 0 <= i < range_len r ->
  range_index r (r_start r + i * r_step r) = Ok i.
Proof.
  intros Hs Hi. unfold range_index.
  replace (range_mem r (r_start r + i * r_step r)) with true
    by (symmetry; apply range_mem_iff; eauto).
  replace (r_start r + i * r_step r - r_start r) with (i * r_step r) by lia.
  now rewrite Z.div_mul.
Qed.

Lemma range_get_ok r i : 0 <= i < range_len r ->
  range_get r i = Ok (r_start r + i * r_step r).
Proof.
  intros H. unfold range_get. destruct (i <? 0) eqn:E; [lia|].
  now replace ((0 <=? i) && (i <? range_len r)) with true by lia.
Qed.

Lemma range_get_neg r i : - range_len r <= i < 0 ->
  range_get r i = Ok (r_start r + (i + range_len r) * r_step r).
Proof.
  intros H. unfold range_get. destruct (i <? 0) eqn:E; [|lia].
  now replace ((0 <=? i + range_len r) && (i + range_len r <? range_len r)) with true by lia.
Qed.

Lemma range_get_spec r i : range_get r i = py_get (range_list r) i.
Proof.
  unfold range_get, py_get. rewrite range_list_length.
  set (i' := if i <? 0 then i + range_len r else i).
  destruct ((0 <=? i') && (i' <? range_len r)) eqn:E; [|reflexivity].
  assert (Hb : 0 <= i' < range_len r) by lia.
  rewrite (nth_error_nth' (range_list r) 0).
  - rewrite range_list_nth by lia. reflexivity.
  - pose proof (range_list_length r) as L. unfold zlen in L. lia.
Qed.

(* --- sorting --- *)

Lemma insert_by_perm {A} (leb : A -> A -> bool) x l :
  Permutation (insert_by leb x l) (x :: l).
Proof.
  induction l as [|y ys IH]; cbn; auto.
  destruct (leb x y); auto.
  rewrite IH. apply perm_swap.
Qed.

Lemma sort_by_perm {A} (leb : A -> A -> bool) l : Permutation (sort_by leb l) l.
Proof.
  induction l as [|x xs IH]; cbn; auto.
  rewrite insert_by_perm. now constructor.
Qed.

Lemma insert_by_sorted {A} (leb : A -> A -> bool) x l :
  (forall a b, leb a b = true \/ leb b a = true) ->
  (forall a b c, leb a b = true -> leb b c = true -> leb a c = true) ->
  StronglySorted (fun a b => leb a b = true) l ->
  StronglySorted (fun a b => leb a b = true) (insert_by leb x l).
Proof.
  intros tot tr. induction l as [|y ys IH]; intros S; cbn.
  - repeat constructor.
  - inversion S as [|? ? S' F]; subst. destruct (leb x y) eqn:E.
    + constructor; auto. constructor; auto.
      eapply Forall_impl; [|exact F]. cbn; intros; eauto.
    + constructor; auto.
      assert (leb y x = true) by (destruct (tot x y); congruence).
      eapply Permutation_Forall; [symmetry; apply insert_by_perm|].
      constructor; auto.
Qed.

Lemma sort_by_sorted {A} (leb : A -> A -> bool) l :
  (forall a b, leb a b = true \/ leb b a = true) ->
  (forall a b c, leb a b = true -> leb b c = true -> leb a c = true) ->
  StronglySorted (fun a b => leb a b = true) (sort_by leb l).
Proof.
  intros tot tr. induction l; cbn; [constructor|]. now apply insert_by_sorted.
Qed.

Lemma sort_by_length {A} (leb : A -> A -> bool) l : length (sort_by leb l) = length l.
Proof. apply Permutation_length, sort_by_perm. Qed.

Lemma sort_by_In {A} (leb : A -> A -> bool) l x : In x (sort_by leb l) <-> In x l.
Proof.
  split; apply Permutation_in; [|symmetry]; apply sort_by_perm.
Qed.

(* sorting an already sorted list does nothing (stability) *)
Lemma sort_by_id {A} (leb : A -> A -> bool) l :
  StronglySorted (fun a b => leb a b = true) l -> sort_by leb l = l.
Proof.
  induction 1 as [|x l S IH F]; cbn; auto.
  rewrite IH. destruct l as [|y l]; cbn; auto.
  inversion F; subst. now rewrite H1.
Qed.

Lemma StronglySorted_app_inv {A} (R : A -> A -> Prop) l m :
  StronglySorted R (l ++ m) ->
  StronglySorted R l /\ StronglySorted R m /\ (forall x y, In x l -> In y m -> R x y).
Proof.
  induction l as [|a l IH]; cbn; intros S.
  - split; [constructor|]. split; auto. intros x y [].
  - inversion S as [|? ? S' F]; subst. destruct (IH S') as (S1 & S2 & S3).
    rewrite Forall_forall in F.
    split; [constructor; auto; apply Forall_forall; intros; apply F, in_app_iff; auto|].
    split; auto. intros x y [->|Hx] Hy; auto. apply F, in_app_iff; auto.
Qed.

Lemma StronglySorted_app {A} (R : A -> A -> Prop) l m :
  StronglySorted R l -> StronglySorted R m -> (forall x y, In x l -> In y m -> R x y) ->
  StronglySorted R (l ++ m).
Proof.
  induction l as [|a l IH]; cbn; intros S1 S2 H; auto.
  inversion S1 as [|? ? S' F]; subst. constructor.
  - apply IH; auto.
  - rewrite Forall_forall in *. intros x Hx. apply in_app_iff in Hx. destruct Hx; auto.
Qed.

Lemma StronglySorted_rev {A} (R : A -> A -> Prop) l :
  StronglySorted R l -> StronglySorted (fun a b => R b a) (rev l).
Proof.
  induction 1 as [|a l S IH F]; cbn; [constructor|].
  apply StronglySorted_app; auto; [repeat constructor|].
  intros x y Hx [<-|[]]. rewrite <- in_rev in Hx. rewrite Forall_forall in F. auto.
Qed.

Lemma StronglySorted_weaken {A} (R Q : A -> A -> Prop) l :
  (forall x y, R x y -> Q x y) -> StronglySorted R l -> StronglySorted Q l.
Proof.
  intros H. induction 1 as [|a l S IH F]; constructor; auto.
  eapply Forall_impl; [|exact F]; auto.
Qed.

Lemma StronglySorted_map {A B} (f : A -> B) (R : B -> B -> Prop) l :
  StronglySorted (fun a b => R (f a) (f b)) l <-> StronglySorted R (map f l).
Proof.
  induction l as [|a l IH]; cbn; split; intros S; constructor;
    inversion S as [|? ? S' F]; subst; try tauto.
  - rewrite Forall_map. exact F.
  - rewrite Forall_map in F. exact F.
Qed.

Lemma StronglySorted_nth {A} (R : A -> A -> Prop) l d : StronglySorted R l ->
  forall i j, (i < j < length l)%nat -> R (nth i l d) (nth j l d).
Proof.
  induction 1 as [|a l S IH F]; cbn [length nth]; intros i j H; [lia|].
  destruct j as [|j]; [lia|]. destruct i as [|i].
  - rewrite Forall_forall in F. apply F, nth_In. lia.
  - apply IH. lia.
Qed.

Lemma StronglySorted_NoDup l : StronglySorted Z.lt l -> NoDup l.
Proof.
  induction 1 as [|a l S IH F]; constructor; auto.
  rewrite Forall_forall in F. intros H. specialize (F _ H). lia.
Qed.

Lemma StronglySorted_gt_NoDup l : StronglySorted Z.gt l -> NoDup l.
Proof.
  induction 1 as [|a l S IH F]; constructor; auto.
  rewrite Forall_forall in F. intros H. specialize (F _ H). lia.
Qed.

(* strictly increasing lists with the same elements are equal *)
Lemma sorted_lt_ext l m :
  StronglySorted Z.lt l -> StronglySorted Z.lt m ->
  (forall x, In x l <-> In x m) -> l = m.
Proof.
  intros S. revert m. induction S as [|a l S IH F]; intros m Sm H.
  - destruct m as [|b m]; auto. exfalso. apply (H b). now left.
  - destruct Sm as [|b m Sm Fm].
    + exfalso. apply (H a). now left.
    + rewrite Forall_forall in F, Fm.
      assert (a = b).
      { destruct (proj1 (H a) (or_introl eq_refl)) as [<-|Ha]; auto.
        destruct (proj2 (H b) (or_introl eq_refl)) as [->|Hb]; auto.
        specialize (F _ Hb). specialize (Fm _ Ha). lia. }
      subst b. f_equal. apply IH; auto. intros x. split; intros Hx.
      * destruct (proj1 (H x) (or_intror Hx)) as [->|]; auto.
        specialize (F _ Hx). lia.
      * destruct (proj2 (H x) (or_intror Hx)) as [->|]; auto.
        specialize (Fm _ Hx). lia.
Qed.

Lemma set_insert_In x l y : In y (set_insert x l) <-> y = x \/ In y l.
Proof.
  induction l as [|z l IH]; cbn [set_insert].
  - cbn. intuition.
  - destruct (x <? z) eqn:E1; [cbn; intuition|].
    destruct (x =? z) eqn:E2.
    + apply Z.eqb_eq in E2. subst. cbn. intuition.
    + cbn. rewrite IH. intuition.
Qed.

Lemma set_insert_sorted x l : StronglySorted Z.lt l -> StronglySorted Z.lt (set_insert x l).
Proof.
  induction 1 as [|a l S IH F]; cbn; [repeat constructor|].
  destruct (x <? a) eqn:E1.
  - constructor; [constructor; auto|]. constructor; [lia|].
    eapply Forall_impl; [|exact F]. cbn; intros; lia.
  - destruct (x =? a) eqn:E2; [constructor; auto|].
    constructor; auto. apply Forall_forall. intros y Hy.
    apply set_insert_In in Hy. rewrite Forall_forall in F.
    destruct Hy as [->|Hy]; [lia|auto].
Qed.

Lemma sorted_set_In l x : In x (sorted_set l) <-> In x l.
Proof.
  unfold sorted_set. induction l as [|a l IH]; cbn [fold_right]; [easy|].
  rewrite set_insert_In, IH. cbn. intuition.
Qed.

Lemma sorted_set_sorted l : StronglySorted Z.lt (sorted_set l).
Proof.
  unfold sorted_set. induction l; cbn; [constructor|]. now apply set_insert_sorted.
Qed.

Lemma sorted_set_id l : StronglySorted Z.lt l -> sorted_set l = l.
Proof.
  intros S. apply sorted_lt_ext; auto using sorted_set_sorted.
  intros; apply sorted_set_In.
Qed.

Lemma sorted_set_NoDup l : NoDup (sorted_set l).
Proof. apply StronglySorted_NoDup, sorted_set_sorted. Qed.

Lemma NoDup_same_length {A} (l m : list A) :
  NoDup l -> NoDup m -> (forall x, In x l <-> In x m) -> length l = length m.
Proof.
  intros Hl Hm H. apply Permutation_length, NoDup_Permutation; auto.
Qed.

Lemma sorted_set_nil l : sorted_set l = [] <-> l = [].
Proof.
  split; [|now intros ->]. intros E. destruct l as [|a l]; auto.
  assert (H : In a (sorted_set (a :: l))) by (apply sorted_set_In; now left).
  rewrite E in H. destruct H.
Qed.
