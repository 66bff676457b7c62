(* Proofs about the models in Util.v. *)
From Coq Require Import ZArith List Bool Lia ZifyBool ZifyNat Permutation Sorted Arith.
From Verif Require Import Py Util PyFacts Spec_Util.
Import ListNotations.
Open Scope Z_scope.
Ltac Zify.zify_post_hook ::= Z.div_mod_to_equations.

(* --- batched --- *)

Lemma batched_loop_spec {A} (n : Z) (pad : option A) : 1 <= n ->
  forall xs pending, zlen pending < n ->
  let bs := batched_loop n pad pending xs in
  Forall (fun b => b <> []) bs /\
  match pad with
  | None => concat bs = pending ++ xs /\
            Forall (fun b => zlen b = n) (removelast bs) /\
            Forall (fun b => zlen b <= n) bs
  | Some p => (exists k, 0 <= k < n /\ concat bs = pending ++ xs ++ zrepeat p k) /\
              Forall (fun b => zlen b = n) bs
  end.
Proof.
  intros Hn. induction xs as [|x xs IH]; intros pending Hp; cbn [batched_loop].
  - destruct (0 <? zlen pending) eqn:E.
    + assert (Hne : pending <> []) by (intros ->; discriminate).
      destruct pad as [p|]; cbn.
      * pose proof (zlen_zrepeat p (n - zlen pending) ltac:(lia)) as L.
        split; [constructor; [|constructor]|].
        { intros F. apply app_eq_nil in F. tauto. }
        split.
        { exists (n - zlen pending). rewrite !app_nil_r. split; [lia|reflexivity]. }
        constructor; [|constructor]. rewrite zlen_app. lia.
      * repeat split; try (repeat constructor; auto; lia).
    + assert (pending = []) by (apply zlen_0; pose proof (zlen_nonneg pending); lia). subst.
      destruct pad as [p|]; cbn.
      * split; [constructor|]. split; [|constructor]. exists 0. split; [lia|reflexivity].
      * repeat split; constructor.
  - rewrite zlen_app, zlen_cons, zlen_nil.
    destruct (zlen pending + (1 + 0) =? n) eqn:E.
    + destruct (IH [] ltac:(rewrite zlen_nil; lia)) as (H1 & H2).
      assert (Hne : pending ++ [x] <> []) by (intros F; apply app_eq_nil in F; destruct F; discriminate).
      split; [constructor; auto|].
      assert (Hl : zlen (pending ++ [x]) = n) by (rewrite zlen_app, zlen_cons, zlen_nil; lia).
      destruct pad as [p|].
      * destruct H2 as ((k & Hk & E2) & H3). split.
        { exists k. split; auto. cbn [concat]. rewrite E2. cbn. now rewrite <- app_assoc. }
        constructor; auto.
      * destruct H2 as (E2 & H3 & H4). repeat split.
        { cbn [concat]. rewrite E2. cbn. now rewrite <- app_assoc. }
        { destruct (batched_loop n None [] xs); cbn [removelast]; [constructor|].
          constructor; auto. }
        constructor; auto; lia.
    + destruct (IH (pending ++ [x])) as (H1 & H2).
      { rewrite zlen_app, zlen_cons, zlen_nil. lia. }
      split; auto.
      destruct pad as [p|].
      * destruct H2 as ((k & Hk & E2) & H3). split; auto.
        exists k. split; auto. rewrite E2. now rewrite <- app_assoc.
      * destruct H2 as (E2 & H3 & H4). repeat split; auto.
        rewrite E2. now rewrite <- app_assoc.
Qed.

Lemma batched_unpadded {A} (xs : list A) n : 1 <= n ->
  exists batches, batched xs n None = Ok batches /\
    concat batches = xs /\
    Forall (fun b => zlen b = n) (removelast batches) /\
    Forall (fun b => 1 <= zlen b <= n) batches.
Proof.
  intros Hn. exists (batched_loop n None [] xs). unfold batched.
  replace (n <? 1) with false by lia. split; auto.
  destruct (batched_loop_spec n (@None A) Hn xs [] ltac:(rewrite zlen_nil; lia)) as (H1 & H2 & H3 & H4).
  repeat split; auto.
  rewrite Forall_forall in *. intros b Hb. specialize (H1 b Hb). specialize (H4 b Hb).
  destruct b; [congruence|]. rewrite zlen_cons in *. pose proof (zlen_nonneg b). lia.
Qed.

Lemma batched_padded {A} (xs : list A) n p : 1 <= n ->
  exists batches k, batched xs n (Some p) = Ok batches /\
    0 <= k < n /\ concat batches = xs ++ zrepeat p k /\
    Forall (fun b => zlen b = n) batches.
Proof.
  intros Hn.
  destruct (batched_loop_spec n (Some p) Hn xs [] ltac:(rewrite zlen_nil; lia)) as (H1 & (k & Hk & H3) & H4).
  exists (batched_loop n (Some p) [] xs), k. unfold batched.
  replace (n <? 1) with false by lia. repeat split; auto; lia.
Qed.

Lemma batched_rejects {A} (xs : list A) n pad : n < 1 -> batched xs n pad = Err ValueError.
Proof. intros H. unfold batched. now replace (n <? 1) with true by lia. Qed.

Lemma firstn_repeat {A} (p : A) n : forall k, (k <= n)%nat -> firstn k (repeat p n) = repeat p k.
Proof.
  induction n as [|n IH]; intros [|k] H; cbn; auto; [lia|]. f_equal. apply IH. lia.
Qed.

Lemma pad_to_eq {A} (l : list A) p size : 0 <= size ->
  pad_to l p size = firstn (Z.to_nat size) l ++ zrepeat p (size - zlen l).
Proof.
  intros H. unfold pad_to. rewrite firstn_app. f_equal. unfold zrepeat.
  rewrite firstn_repeat by lia. f_equal. unfold zlen; lia.
Qed.

Lemma pad_to_spec {A} (l : list A) p size : 0 <= size ->
  zlen (pad_to l p size) = size /\
  (zlen l <= size -> exists tail, pad_to l p size = l ++ tail /\ Forall (eq p) tail) /\
  (size <= zlen l -> exists tail, l = pad_to l p size ++ tail).
Proof.
  intros H. rewrite pad_to_eq by auto. pose proof (zlen_nonneg l). repeat split.
  - rewrite zlen_app, zlen_firstn, zlen_zrepeat_max. lia.
  - intros L. exists (zrepeat p (size - zlen l)). split.
    + rewrite firstn_all2 by (unfold zlen in L; lia). reflexivity.
    + unfold zrepeat. apply Forall_forall. intros x Hx. apply repeat_spec in Hx. congruence.
  - intros L. exists (skipn (Z.to_nat size) l).
    unfold zrepeat. replace (Z.to_nat (size - zlen l)) with O by lia. cbn.
    now rewrite app_nil_r, firstn_skipn.
Qed.

(* --- intervals --- *)

Lemma compl_loop_len l : forall a b, zlen (compl_loop a l b) = zlen l + 1.
Proof.
  induction l as [|s l IH]; intros a b; cbn [compl_loop]; rewrite !zlen_cons; [reflexivity|].
  rewrite IH. lia.
Qed.

Lemma compl_loop_tiles l : forall a b,
  ordered_within a b l -> tiles a b (interleave (compl_loop a l b) l).
Proof.
  induction l as [|s l IH]; intros a b H; cbn in *.
  - lia.
  - destruct H as (H1 & H2 & H3). repeat split; try lia. auto.
Qed.

Lemma compl_loop_points l : forall a b x,
  ordered_within a b l -> a <= x < b ->
  (exists g, In g (compl_loop a l b) /\ in_interval x g) <->
  ~ (exists s, In s l /\ in_interval x s).
Proof.
  induction l as [|s l IH]; intros a b x H Hx; cbn in *.
  - split; [intros _ (s & [] & _)|]. intros _. exists (a, b). unfold in_interval; cbn. auto.
  - destruct H as (H1 & H2 & H3).
    assert (Hl : forall c d l', ordered_within c d l' -> forall i, In i l' -> c <= fst i).
    { clear. intros c d l'. revert c. induction l' as [|i l' IH']; cbn; [tauto|].
      intros c (A1 & A2 & A3) j [<-|J]; auto. specialize (IH' _ A3 j J). lia. }
    assert (Hg : forall l' c d, ordered_within c d l' -> forall i, In i (compl_loop c l' d) -> c <= fst i).
    { clear. induction l' as [|i l' IH']; cbn.
      - intros c d H j [<-|[]]. cbn; lia.
      - intros c d (A1 & A2 & A3) j [<-|J]; [cbn; lia|]. specialize (IH' _ _ A3 j J). lia. }
    destruct (Z_lt_ge_dec x (fst s)) as [X|X].
    { split.
      - intros _ (t & [<-|T] & Ht); unfold in_interval in *; [lia|].
        specialize (Hl _ _ _ H3 t T). lia.
      - intros _. exists (a, fst s). unfold in_interval; cbn. split; [auto|lia]. }
    destruct (Z_lt_ge_dec x (snd s)) as [Y|Y].
    { split.
      - intros (g & [<-|G] & Hgx) _; unfold in_interval in *; cbn in *; [lia|].
        specialize (Hg _ _ _ H3 g G). lia.
      - intros N. exfalso. apply N. exists s. unfold in_interval. split; [auto|lia]. }
    specialize (IH (snd s) b x H3 ltac:(lia)). split.
    + intros (g & [<-|G] & Hgx); unfold in_interval in *; cbn in *; [lia|].
      intros (t & [<-|T] & Ht); [lia|]. apply IH; eauto.
    + intros N. destruct IH as (_ & IH). destruct IH as (g & G & Hgx).
      { intros (t & T & Ht). apply N. eauto. }
      eauto.
Qed.

Lemma complementary_intervals_tiles l start stop :
  l <> [] -> ordered_within start stop l ->
  exists gaps, complementary_intervals l (Some start) (Some stop) = Ok gaps /\
    zlen gaps = zlen l + 1 /\
    tiles start stop (interleave gaps l) /\
    (forall x, start <= x < stop ->
       (exists g, In g gaps /\ in_interval x g) <-> ~ (exists s, In s l /\ in_interval x s)).
Proof.
  intros Hne H. destruct l as [|s l]; [congruence|].
  eexists. split; [reflexivity|]. split; [apply compl_loop_len|].
  split; [now apply compl_loop_tiles|]. intros. now apply compl_loop_points.
Qed.

Lemma complementary_intervals_defaults s0 l start stop :
  complementary_intervals (s0 :: l) start stop =
  complementary_intervals (s0 :: l)
    (Some (match start with Some a => a | None => fst s0 end))
    (Some (match stop with Some b => b | None => snd (last (s0 :: l) s0) end)).
Proof. reflexivity. Qed.

Lemma overlap_spec k a b : fst a < snd a -> fst b < snd b ->
  intervals_partially_overlap k a b = true <->
  (exists x, in_interval x a /\ in_interval x b) /\ a <> b.
Proof.
  destruct a as [a1 a2], b as [b1 b2]. unfold in_interval. cbn. intros Ha Hb.
  unfold intervals_partially_overlap.
  assert (Heq : interval_eqb k (a1, a2) (b1, b2) = (a1 =? b1) && (a2 =? b2)).
  { destruct k; cbn; lia. }
  rewrite Heq. destruct ((a1 =? b1) && (a2 =? b2)) eqn:E.
  - split; [discriminate|]. intros (_ & N). exfalso. apply N. f_equal; lia.
  - cbn. destruct (a1 <=? b1) eqn:F; cbn.
    + split.
      * intros H. split; [exists b1; lia|]. intros C. inversion C. lia.
      * intros ((x & Hx) & _). lia.
    + split.
      * intros H. split; [exists a1; lia|]. intros C. inversion C. lia.
      * intros ((x & Hx) & _). lia.
Qed.

(* --- reversed_range --- *)

Lemma reversed_range_len r : range_ok r -> range_len (reversed_range r) = range_len r.
Proof.
  unfold range_ok, range_len, reversed_range. cbn [r_start r_stop r_step]. intros Hs.
  set (a := r_start r) in *. set (b := r_stop r) in *. set (s := r_step r) in *.
  pose proof (Z.div_mod (b - a) s Hs) as D.
  set (q := (b - a) / s) in *. set (m := (b - a) mod s) in *.
  destruct (Z_lt_ge_dec 0 s) as [P|P].
  - assert (Hm : 0 <= m < s) by (apply Z.mod_pos_bound; lia).
    replace (0 <? s) with true by lia. replace (0 <? - s) with false by lia.
    replace (a + (q - b2z (m =? 0)) * s + (q - b2z (m =? 0)) * - s + (- s + m)) with (a - s + m) by lia.
    unfold b2z. destruct (m =? 0) eqn:E.
    + assert (m = 0) by lia.
      destruct (a <? b) eqn:F.
      * assert (1 <= q) by nia.
        replace (a - s + m <? a + (q - 1) * s) with true by nia.
        replace (b - 1 - a) with ((q - 1) * s + (s - 1)) by nia.
        replace (a + (q - 1) * s - 1 - (a - s + m)) with ((q - 1) * s + (s - 1)) by nia.
        rewrite Z.opp_involutive. reflexivity.
      * assert (q <= 0) by nia.
        replace (a - s + m <? a + (q - 1) * s) with false by nia. reflexivity.
    + destruct (a <? b) eqn:F.
      * assert (0 <= q) by nia.
        replace (a - s + m <? a + (q - 0) * s) with true by nia.
        replace (b - 1 - a) with ((m - 1) + q * s) by nia.
        replace (a + (q - 0) * s - 1 - (a - s + m)) with ((s - m - 1) + q * s) by nia.
        rewrite Z.opp_involutive. rewrite !Z.div_add by lia.
        rewrite !Z.div_small by lia. reflexivity.
      * assert (q < 0) by nia.
        replace (a - s + m <? a + (q - 0) * s) with false by nia. reflexivity.
  - assert (Hm : s < m <= 0) by (apply Z.mod_neg_bound; lia).
    replace (0 <? s) with false by lia. replace (0 <? - s) with true by lia.
    replace (a + (q - b2z (m =? 0)) * s + (q - b2z (m =? 0)) * - s + (- s + m)) with (a - s + m) by lia.
    unfold b2z. destruct (m =? 0) eqn:E.
    + assert (m = 0) by lia.
      destruct (b <? a) eqn:F.
      * assert (1 <= q) by nia.
        replace (a + (q - 1) * s <? a - s + m) with true by nia.
        replace (a - 1 - b) with ((q - 1) * (-s) + (-s - 1)) by nia.
        replace (a - s + m - 1 - (a + (q - 1) * s)) with ((q - 1) * (-s) + (-s - 1)) by nia.
        reflexivity.
      * assert (q <= 0) by nia.
        replace (a + (q - 1) * s <? a - s + m) with false by nia. reflexivity.
    + destruct (b <? a) eqn:F.
      * assert (0 <= q) by nia.
        replace (a + (q - 0) * s <? a - s + m) with true by nia.
        replace (a - 1 - b) with ((- m - 1) + q * (-s)) by nia.
        replace (a - s + m - 1 - (a + (q - 0) * s)) with ((- s + m - 1) + q * (-s)) by nia.
        rewrite !Z.div_add by lia.
        rewrite !Z.div_small by lia. reflexivity.
      * assert (q < 0) by nia.
        replace (a + (q - 0) * s <? a - s + m) with false by nia. reflexivity.
Qed.

Lemma reversed_range_start r : range_ok r -> 0 < range_len r ->
  r_start (reversed_range r) = r_start r + (range_len r - 1) * r_step r.
Proof.
  unfold range_ok, range_len, reversed_range. cbn [r_start r_stop r_step]. intros Hs HL.
  set (a := r_start r) in *. set (b := r_stop r) in *. set (s := r_step r) in *.
  pose proof (Z.div_mod (b - a) s Hs) as D.
  set (q := (b - a) / s) in *. set (m := (b - a) mod s) in *.
  destruct (Z_lt_ge_dec 0 s) as [P|P].
  - assert (Hm : 0 <= m < s) by (apply Z.mod_pos_bound; lia).
    replace (0 <? s) with true in * by lia.
    destruct (a <? b) eqn:F; [|lia].
    assert (E1 : (b - 1 - a) / s = q - b2z (m =? 0)).
    { unfold b2z. destruct (m =? 0) eqn:E.
      - replace (b - 1 - a) with ((s - 1) + (q - 1) * s) by lia.
        rewrite Z.div_add by lia. rewrite Z.div_small by lia. lia.
      - replace (b - 1 - a) with ((m - 1) + q * s) by lia.
        rewrite Z.div_add by lia. rewrite Z.div_small by lia. lia. }
    rewrite E1. lia.
  - assert (Hm : s < m <= 0) by (apply Z.mod_neg_bound; lia).
    replace (0 <? s) with false in * by lia.
    destruct (b <? a) eqn:F; [|lia].
    assert (E1 : (a - 1 - b) / (- s) = q - b2z (m =? 0)).
    { unfold b2z. destruct (m =? 0) eqn:E.
      - replace (a - 1 - b) with ((- s - 1) + (q - 1) * - s) by lia.
        rewrite Z.div_add by lia. rewrite Z.div_small by lia. lia.
      - replace (a - 1 - b) with ((- m - 1) + q * - s) by lia.
        rewrite Z.div_add by lia. rewrite Z.div_small by lia. lia. }
    rewrite E1. lia.
Qed.

Lemma range_ok_reversed r : range_ok r -> range_ok (reversed_range r).
Proof. unfold range_ok, reversed_range. cbn. lia. Qed.

Lemma range_list_eq r s :
  range_len r = range_len s ->
  (forall i, 0 <= i < range_len r -> r_start r + i * r_step r = r_start s + i * r_step s) ->
  range_list r = range_list s.
Proof.
  intros L H. unfold range_list. rewrite <- L. apply map_ext_in. intros n Hn.
  apply in_seq in Hn. apply H. lia.
Qed.

Lemma reversed_range_spec r : range_ok r -> range_list (reversed_range r) = rev (range_list r).
Proof.
  intros Hs. apply nth_ext with (d := 0) (d' := 0).
  - rewrite rev_length.
    pose proof (range_list_length r) as L1. pose proof (range_list_length (reversed_range r)) as L2.
    rewrite reversed_range_len in L2 by auto. unfold zlen in *. lia.
  - intros n Hn.
    pose proof (range_list_length r) as L1. pose proof (range_list_length (reversed_range r)) as L2.
    rewrite reversed_range_len in L2 by auto. unfold zlen in *.
    rewrite rev_nth by lia.
    replace n with (Z.to_nat (Z.of_nat n)) at 1 by lia.
    rewrite range_list_nth by (rewrite reversed_range_len by auto; lia).
    replace (length (range_list r) - S n)%nat with (Z.to_nat (range_len r - 1 - Z.of_nat n)) by lia.
    rewrite range_list_nth by lia.
    rewrite reversed_range_start by (auto; lia). unfold reversed_range; cbn [r_step]. nia.
Qed.

(* --- pairwise-based functions --- *)

Lemma pairwise_empty {A} : pairwise (@nil A) = Err RuntimeError.
Proof. reflexivity. Qed.

Lemma combine_tl_nth {A} (l : list A) x y :
  In (x, y) (combine l (tl l)) <-> exists i, nth_error l i = Some x /\ nth_error l (S i) = Some y.
Proof.
  induction l as [|a [|b l] IH]; cbn [tl] in *.
  - cbn. split; [easy|]. intros ([|i] & H & _); discriminate.
  - cbn. split; [easy|]. intros ([|i] & H & H2); cbn in H2; [discriminate|]. destruct i; discriminate.
  - change (combine (a :: b :: l) (b :: l)) with ((a, b) :: combine (b :: l) l).
    cbn [In]. rewrite IH. split.
    + intros [E|(i & H1 & H2)].
      * injection E as <- <-. exists O. auto.
      * exists (S i). auto.
    + intros ([|i] & H1 & H2).
      * left. cbn in *. congruence.
      * right. exists i. auto.
Qed.

Lemma ordered_ss (R : Z -> Z -> Prop) l : StronglySorted R l <-> ordered R l.
Proof.
  unfold ordered, item_at. split.
  - intros S i j x y Hij Hx Hy.
    assert (Hj : (j < length l)%nat) by (apply nth_error_Some; congruence).
    assert (Hi : (i < length l)%nat) by lia.
    rewrite (nth_error_nth' l 0) in Hx by auto. rewrite (nth_error_nth' l 0) in Hy by auto.
    injection Hx as <-. injection Hy as <-. apply StronglySorted_nth; auto.
  - induction l as [|a l IH]; intros H; constructor.
    + apply IH. intros i j x y Hij Hx Hy. apply (H (S i) (S j) x y); auto; lia.
    + apply Forall_forall. intros y Hy. apply In_nth_error in Hy. destruct Hy as (j & Hj).
      apply (H O (S j)); auto; lia.
Qed.

Lemma chain_sorted (R : Z -> Z -> Prop) l :
  (forall x y z, R x y -> R y z -> R x z) ->
  (forall p, In p (combine l (tl l)) -> R (fst p) (snd p)) <-> StronglySorted R l.
Proof.
  intros tr. split.
  - intros H. apply Sorted_StronglySorted; [exact tr|].
    induction l as [|a [|b l] IH]; [constructor|repeat constructor|constructor].
    + apply IH. intros p Hp. apply H. cbn [tl combine]. now right.
    + constructor. apply (H (a, b)). cbn. now left.
  - intros S (x, y) Hp. cbn. apply combine_tl_nth in Hp. destruct Hp as (i & H1 & H2).
    apply ordered_ss in S. apply (S i (Datatypes.S i)); auto; lia.
Qed.

Lemma pairwise_forallb {A} (f : A * A -> bool) l : l <> [] ->
  (do ps <- pairwise l ;; Ok (forallb f ps)) = Ok (forallb f (combine l (tl l))).
Proof. destruct l; [congruence|reflexivity]. Qed.

Definition sort_rel (reverse distinct : bool) : Z -> Z -> Prop :=
  if reverse then (if distinct then Z.gt else Z.ge)
  else (if distinct then Z.lt else Z.le).

Lemma sort_op_rel reverse distinct x y :
  sort_op reverse distinct x y = true <-> sort_rel reverse distinct x y.
Proof. unfold sort_op, sort_rel. destruct reverse, distinct; lia. Qed.

Lemma sort_rel_trans reverse distinct x y z :
  sort_rel reverse distinct x y -> sort_rel reverse distinct y z -> sort_rel reverse distinct x z.
Proof. unfold sort_rel. destruct reverse, distinct; lia. Qed.

Lemma is_sorted_spec {A} (key : A -> Z) l reverse distinct : l <> [] ->
  exists b, is_sorted key l reverse distinct = Ok b /\
    (b = true <-> StronglySorted (sort_rel reverse distinct) (map key l)).
Proof.
  intros Hne. unfold is_sorted. rewrite pairwise_forallb by (destruct l; cbn; congruence).
  eexists. split; [reflexivity|]. rewrite forallb_forall, <- chain_sorted by apply sort_rel_trans.
  split; intros H p Hp; apply sort_op_rel; auto.
Qed.

Lemma range_sorted r : range_ok r ->
  StronglySorted (if 0 <? r_step r then Z.lt else Z.gt) (range_list r).
Proof.
  intros Hs. unfold range_ok in Hs. unfold range_list.
  generalize (Z.to_nat (range_len r)) as n. intros n.
  apply (proj1 (StronglySorted_map (fun i : nat => r_start r + Z.of_nat i * r_step r) _ (seq 0 n))).
  assert (forall k, StronglySorted (fun a b => (a < b)%nat) (seq k n)) as S.
  { induction n; intros k; cbn; constructor; auto.
    apply Forall_forall. intros x Hx. apply in_seq in Hx. lia. }
  eapply StronglySorted_weaken; [|apply S]. cbn. intros x y Hxy.
  destruct (0 <? r_step r) eqn:E; nia.
Qed.

Lemma is_sorted_range_spec r reverse distinct : range_ok r -> range_list r <> [] ->
  exists b, is_sorted_range r reverse distinct = Ok b /\
    (b = true <-> StronglySorted (sort_rel reverse distinct) (range_list r)).
Proof.
  intros Hs Hne. unfold is_sorted_range. pose proof (range_sorted r Hs) as S.
  destruct (reverse && distinct && (r_step r <? 0)) eqn:E1.
  - exists true. split; auto. split; auto. intros _.
    destruct reverse, distinct; try discriminate. cbn.
    replace (0 <? r_step r) with false in S by lia. auto.
  - destruct (negb reverse && distinct && (0 <? r_step r)) eqn:E2.
    + exists true. split; auto. split; auto. intros _.
      destruct reverse, distinct; try discriminate. cbn.
      replace (0 <? r_step r) with true in S by lia. auto.
    + destruct (is_sorted_spec (fun x => x) (range_list r) reverse distinct Hne) as (b & H1 & H2).
      exists b. rewrite map_id in H2. auto.
Qed.

Lemma contains_duplicates_spec l reverse : l <> [] ->
  StronglySorted (sort_rel reverse false) l ->
  exists b, contains_duplicates l = Ok b /\ (b = true <-> has_repeat l).
Proof.
  intros Hne S. unfold contains_duplicates, contains_duplicates_by.
  destruct l as [|a l]; [congruence|]. clear Hne. cbn [pairwise bind].
  eexists. split; [reflexivity|].
  change (combine (a :: l) l) with (combine (a :: l) (tl (a :: l))).
  rewrite existsb_exists. split.
  - intros ((x, y) & Hp & E). apply combine_tl_nth in Hp. destruct Hp as (i & H1 & H2).
    apply Z.eqb_eq in E. cbn in E. subst y. exists i, (Datatypes.S i), x. auto.
  - intros (i & j & x & Hij & Hi & Hj). unfold item_at in *.
    assert (Hl : (j < length (a :: l))%nat) by (apply nth_error_Some; congruence).
    destruct (nth_error (a :: l) (Datatypes.S i)) as [y|] eqn:Ey;
      [|apply nth_error_None in Ey; lia].
    exists (x, y). split; [apply combine_tl_nth; eauto|]. cbn.
    apply ordered_ss in S. unfold ordered, item_at in S.
    pose proof (S i (Datatypes.S i) x y ltac:(lia) Hi Ey) as R1.
    destruct (Nat.eq_dec (Datatypes.S i) j) as [Eij|N].
    + subst j. assert (x = y) by congruence. lia.
    + pose proof (S (Datatypes.S i) j y x ltac:(lia) Ey Hj) as R2.
      unfold sort_rel in *. destruct reverse; lia.
Qed.

Lemma stride_loop_some s l : stride_loop (Some s) l = Some s <-> Forall (fun p => snd p - fst p = s) l.
Proof.
  induction l as [|(a, b) l IH]; cbn [stride_loop].
  - split; auto.
  - destruct (s =? b - a) eqn:E.
    + rewrite IH. split; intros H; [constructor; auto; cbn; lia|now inversion H].
    + split; [discriminate|]. intros H. inversion H; subst. cbn in *. lia.
Qed.

Lemma stride_loop_some' s l t : stride_loop (Some s) l = Some t -> s = t.
Proof.
  induction l as [|(a, b) l IH]; cbn [stride_loop]; [congruence|].
  destruct (s =? b - a); auto. discriminate.
Qed.

Lemma measure_stride_spec l d : l <> [] ->
  measure_stride l = Ok (Some d) <-> (2 <= zlen l /\ successive_differences l d).
Proof.
  intros Hne. unfold measure_stride. destruct l as [|a l]; [congruence|]. clear Hne.
  cbn [pairwise bind].
  assert (Hs : successive_differences (a :: l) d <->
               Forall (fun p => snd p - fst p = d) (combine (a :: l) l)).
  { unfold successive_differences, item_at. rewrite Forall_forall. split.
    - intros H (x, y) Hp. change (combine (a :: l) l) with (combine (a :: l) (tl (a :: l))) in Hp.
      apply combine_tl_nth in Hp. destruct Hp as (i & H1 & H2). cbn. eauto.
    - intros H i x y H1 H2. apply (H (x, y)).
      change (combine (a :: l) l) with (combine (a :: l) (tl (a :: l))).
      apply combine_tl_nth. eauto. }
  rewrite Hs. destruct l as [|b l].
  - cbn [combine stride_loop]. split; [discriminate|]. intros (H & _). rewrite zlen_cons, zlen_nil in H. lia.
  - cbn [combine stride_loop]. rewrite !zlen_cons. pose proof (zlen_nonneg l).
    split.
    + intros E. injection E as E. pose proof (stride_loop_some' _ _ _ E) as Ed.
      rewrite Ed in E. apply stride_loop_some in E. split; [lia|].
      constructor; auto.
    + intros (_ & F). inversion F; subst. cbn [fst snd] in *.
      f_equal. now apply stride_loop_some.
Qed.

Lemma measure_stride_none l : l <> [] ->
  (exists r, measure_stride l = Ok r).
Proof. destruct l; [congruence|]. intros _. eexists. reflexivity. Qed.

Lemma minmax_spec l : l <> [] ->
  exists lo hi, minmax l = Ok (lo, hi) /\ In lo l /\ In hi l /\
    (forall x, In x l -> lo <= x <= hi).
Proof.
  destruct l as [|a l]; [congruence|]. intros _. cbn [minmax].
  set (f := fun mm item => (Z.min (fst mm) item, Z.max (snd mm) item)).
  enough (H : forall l lo hi, lo <= hi ->
             let r := fold_left f l (lo, hi) in
             (fst r = lo \/ In (fst r) l) /\ (snd r = hi \/ In (snd r) l) /\
             fst r <= lo /\ hi <= snd r /\
             (forall x, In x l -> fst r <= x <= snd r)).
  { specialize (H l a a ltac:(lia)). cbn zeta in H. destruct (fold_left f l (a, a)) as (lo, hi).
    cbn [fst snd] in H. destruct H as (H1 & H2 & H3 & H4 & H5).
    exists lo, hi. split; auto. split; [destruct H1; [now left|now right]|].
    split; [destruct H2; [now left|now right]|].
    intros x [<-|Hx]; [lia|auto]. }
  clear. induction l as [|b l IH]; intros lo hi Hle; cbn [fold_left].
  - cbn. repeat split; auto; lia || easy.
  - cbn zeta in *. specialize (IH (Z.min lo b) (Z.max hi b) ltac:(lia)).
    change (f (lo, hi) b) with (Z.min lo b, Z.max hi b).
    destruct (fold_left f l (Z.min lo b, Z.max hi b)) as (lo', hi'). cbn [fst snd In] in *.
    destruct IH as (H1 & H2 & H3 & H4 & H5).
    repeat split; try lia.
    + destruct H1 as [H1|H1]; auto. destruct (Z.min_spec lo b) as [[? E]|[? E]]; rewrite E in H1; auto.
    + destruct H2 as [H2|H2]; auto. destruct (Z.max_spec hi b) as [[? E]|[? E]]; rewrite E in H2; auto.
    + destruct H as [<-|H]; [lia|]. apply H5 in H. lia.
    + destruct H as [<-|H]; [lia|]. apply H5 in H. lia.
Qed.

(* --- round_up, cmp, sgn --- *)

Lemma round_up_spec n m : 1 <= m ->
  exists v, round_up n m = Ok v /\ (exists k, v = k * m) /\ n <= v /\
    (forall k, n <= k * m -> v <= k * m).
Proof.
  intros Hm. unfold round_up. replace (m <=? 0) with false by lia.
  eexists. split; [reflexivity|].
  pose proof (Z.div_mod n m ltac:(lia)) as D. pose proof (Z.mod_pos_bound n m ltac:(lia)) as B.
  set (q := n / m) in *. set (r := n mod m) in *.
  destruct (r =? 0) eqn:E.
  - split; [exists q; lia|]. split; [lia|]. intros; lia.
  - split; [exists (q + 1); lia|]. split; [lia|]. intros k Hk.
    assert (q < k) by nia. nia.
Qed.

(* --- all_equal --- *)

Lemma all_equal_spec l : all_equal l = true <-> (forall x y, In x l -> In y l -> x = y).
Proof.
  destruct l as [|a l]; cbn [all_equal].
  - split; auto. intros _ x y [].
  - rewrite Nat.leb_le.
    assert (G : forall l p, (group_count p l >= 1)%nat).
    { clear. induction l; intros p; cbn; [lia|]. destruct (a =? p); [auto|lia]. }
    assert (H : forall l p, (group_count p l <= 1)%nat <-> Forall (eq p) l).
    { clear -G. induction l as [|b l IH]; intros p; cbn; [split; auto; lia|].
      destruct (b =? p) eqn:E.
      - apply Z.eqb_eq in E. subst. rewrite IH. split; [auto|]. intros F; now inversion F.
      - specialize (G l b). split; [lia|]. intros F. inversion F; lia. }
    rewrite H, Forall_forall. split.
    + intros F x y [<-|Hx] [<-|Hy]; auto.
      * symmetry; auto.
      * rewrite <- (F x), <- (F y); auto.
    + intros F x Hx. apply F; [now left|now right].
Qed.

(* --- bisect and SortedFrozenSet --- *)

Lemma bisect_loop_spec a x : StronglySorted Z.lt a ->
  forall fuel lo hi, 0 <= lo <= hi -> hi <= zlen a -> Z.of_nat fuel > hi - lo ->
  (forall i, 0 <= i < lo -> nth (Z.to_nat i) a 0 < x) ->
  (forall i, hi <= i < zlen a -> x <= nth (Z.to_nat i) a 0) ->
  let r := bisect_loop fuel a x lo hi in
  lo <= r <= hi /\
  (forall i, 0 <= i < r -> nth (Z.to_nat i) a 0 < x) /\
  (forall i, r <= i < zlen a -> x <= nth (Z.to_nat i) a 0).
Proof.
  intros S. induction fuel as [|fuel IH]; intros lo hi H1 H2 HF HL HR; [lia|].
  cbn [bisect_loop].
  assert (Hmono : forall i j, 0 <= i <= j -> j < zlen a ->
             nth (Z.to_nat i) a 0 <= nth (Z.to_nat j) a 0).
  { intros i j Hij Hj. destruct (Z.eq_dec i j) as [->|N]; [lia|].
    assert (nth (Z.to_nat i) a 0 < nth (Z.to_nat j) a 0); [|lia].
    apply StronglySorted_nth; auto. unfold zlen in Hj. lia. }
  destruct (lo <? hi) eqn:E.
  - assert (Hm : lo <= (lo + hi) / 2 < hi) by lia.
    set (mid := (lo + hi) / 2) in *.
    destruct (nth (Z.to_nat mid) a 0 <? x) eqn:F.
    + destruct (IH (mid + 1) hi) as (A & B & C); try lia; auto.
      { intros i Hi. pose proof (Hmono i mid ltac:(lia) ltac:(lia)). lia. }
      repeat split; auto; lia.
    + destruct (IH lo mid) as (A & B & C); try lia; auto.
      { intros i Hi. pose proof (Hmono mid i ltac:(lia) ltac:(lia)). lia. }
      repeat split; auto; lia.
  - assert (lo = hi) by lia. subst hi. repeat split; auto; lia.
Qed.

Lemma bisect_left_spec a x : StronglySorted Z.lt a ->
  0 <= bisect_left a x <= zlen a /\
  (forall i, 0 <= i < bisect_left a x -> nth (Z.to_nat i) a 0 < x) /\
  (forall i, bisect_left a x <= i < zlen a -> x <= nth (Z.to_nat i) a 0).
Proof.
  intros S. unfold bisect_left. pose proof (zlen_nonneg a).
  apply bisect_loop_spec; auto; try lia; unfold zlen; lia.
Qed.

Lemma sfs_index_spec s x i : StronglySorted Z.lt s ->
  sfs_index s x = Ok i <-> (0 <= i /\ nth_error s (Z.to_nat i) = Some x).
Proof.
  intros S. destruct (bisect_left_spec s x S) as (B1 & B2 & B3).
  unfold sfs_index. set (k := bisect_left s x) in *.
  assert (Hmono : forall a b, 0 <= a < b -> b < zlen s -> nth (Z.to_nat a) s 0 < nth (Z.to_nat b) s 0).
  { intros a b Hab Hb. apply StronglySorted_nth; auto. unfold zlen in Hb. lia. }
  split.
  - destruct (negb (k =? zlen s) && (nth (Z.to_nat k) s 0 =? x)) eqn:E; [|discriminate].
    intros Eq. injection Eq as <-. split; [lia|].
    rewrite (nth_error_nth' s 0) by (unfold zlen in *; lia). f_equal. lia.
  - intros (Hi & Hx).
    assert (Hl : (Z.to_nat i < length s)%nat) by (apply nth_error_Some; congruence).
    rewrite (nth_error_nth' s 0) in Hx by auto. injection Hx as Hx.
    assert (Hb : i < zlen s) by (unfold zlen; lia).
    destruct (Z_lt_ge_dec i k) as [L|L].
    { specialize (B2 i ltac:(lia)). lia. }
    specialize (B3 k ltac:(lia)).
    destruct (Z.eq_dec i k) as [->|N].
    + replace (negb (k =? zlen s) && (nth (Z.to_nat k) s 0 =? x)) with true by lia. reflexivity.
    + specialize (Hmono k i ltac:(lia) ltac:(lia)). lia.
Qed.

Lemma sfs_index_err s x : StronglySorted Z.lt s ->
  sfs_index s x = Err ValueError <-> ~ In x s.
Proof.
  intros S. split.
  - intros E H. apply In_nth_error in H. destruct H as (n & Hn).
    assert (sfs_index s x = Ok (Z.of_nat n)); [|congruence].
    apply sfs_index_spec; auto. split; [lia|]. now rewrite Nat2Z.id.
  - intros N. destruct (sfs_index s x) as [i|e] eqn:E.
    + exfalso. apply sfs_index_spec in E; auto. destruct E as (_ & E).
      apply N. eapply nth_error_In; eauto.
    + unfold sfs_index in E. destruct (negb _ && _); congruence.
Qed.

Lemma sfs_mem_spec s x : StronglySorted Z.lt s -> sfs_mem s x = true <-> In x s.
Proof.
  intros S. unfold sfs_mem. destruct (sfs_index s x) as [i|e] eqn:E; cbn.
  - apply sfs_index_spec in E; auto. destruct E as (_ & E).
    split; auto. intros _. eapply nth_error_In; eauto.
  - split; [discriminate|]. intros H.
    assert (e = ValueError) as ->.
    { unfold sfs_index in E. destruct (negb _ && _); congruence. }
    apply (proj1 (sfs_index_err s x S)) in E. contradiction.
Qed.

Lemma sfs_and_In s t x : StronglySorted Z.lt s -> In x (sfs_and s t) <-> In x s /\ In x t.
Proof.
  intros S. unfold sfs_and, sfs_new. rewrite sorted_set_In, filter_In, sfs_mem_spec by auto. tauto.
Qed.

Lemma sfs_or_In s t x : In x (sfs_or s t) <-> In x s \/ In x t.
Proof. unfold sfs_or, sfs_new. now rewrite sorted_set_In, in_app_iff. Qed.

Lemma sfs_sub_In s t x : StronglySorted Z.lt t -> In x (sfs_sub s t) <-> In x s /\ ~ In x t.
Proof.
  intros S. unfold sfs_sub, sfs_new. rewrite sorted_set_In, filter_In, negb_true_iff.
  pose proof (sfs_mem_spec t x S). destruct (sfs_mem t x).
  - split; [intros (_ & H0); discriminate|]. tauto.
  - split; [|intros (H1 & _); auto]. intros (H1 & _). split; auto. intros H2. apply H in H2. discriminate.
Qed.

Lemma sfs_xor_In s t x : StronglySorted Z.lt s -> StronglySorted Z.lt t ->
  In x (sfs_xor s t) <-> (In x s /\ ~ In x t) \/ (In x t /\ ~ In x s).
Proof. intros S T. unfold sfs_xor. rewrite sfs_or_In, !sfs_sub_In by auto. tauto. Qed.

Lemma sfs_le_spec s t : StronglySorted Z.lt s -> StronglySorted Z.lt t ->
  sfs_le s t = true <-> (forall x, In x s -> In x t).
Proof.
  intros S T. unfold sfs_le. destruct (zlen t <? zlen s) eqn:E.
  - split; [discriminate|]. intros H. exfalso.
    assert (length s <= length t)%nat
      by (apply NoDup_incl_length; [now apply StronglySorted_NoDup|exact H]).
    unfold zlen in E. lia.
  - rewrite forallb_forall. split; intros H x Hx; [|rewrite sfs_mem_spec by auto; auto].
    rewrite <- sfs_mem_spec by auto. auto.
Qed.

Lemma sfs_ge_le s t : sfs_ge s t = sfs_le t s.
Proof. reflexivity. Qed.

Lemma sfs_ops_spec xs ys :
  let s := sfs_new xs in
  (forall x, In x (sfs_union s ys) <-> In x xs \/ In x ys) /\
  (forall x, In x (sfs_intersection s ys) <-> In x xs /\ In x ys) /\
  (forall x, In x (sfs_difference s ys) <-> In x xs /\ ~ In x ys) /\
  (forall x, In x (sfs_symmetric_difference s ys) <->
             (In x xs /\ ~ In x ys) \/ (In x ys /\ ~ In x xs)) /\
  (sfs_issubset s ys = true <-> forall x, In x xs -> In x ys) /\
  (sfs_issuperset s ys = true <-> forall x, In x ys -> In x xs) /\
  Forall (StronglySorted Z.lt)
    [sfs_union s ys; sfs_intersection s ys; sfs_difference s ys; sfs_symmetric_difference s ys].
Proof.
  cbn zeta. unfold sfs_new, sfs_union, sfs_intersection, sfs_difference,
    sfs_symmetric_difference, sfs_issubset, sfs_issuperset, sfs_new.
  rewrite sfs_ge_le.
  split; [intros; rewrite sfs_or_In, !sorted_set_In; tauto|].
  split; [intros; rewrite sfs_and_In, !sorted_set_In by apply sorted_set_sorted; tauto|].
  split; [intros; rewrite sfs_sub_In, !sorted_set_In by apply sorted_set_sorted; tauto|].
  split; [intros; rewrite sfs_xor_In, !sorted_set_In by apply sorted_set_sorted; tauto|].
  split.
  { rewrite sfs_le_spec by apply sorted_set_sorted.
    split; intros H x; specialize (H x); rewrite ?sorted_set_In in *; auto. }
  split.
  { rewrite sfs_le_spec by apply sorted_set_sorted.
    split; intros H x; specialize (H x); rewrite ?sorted_set_In in *; auto. }
  repeat constructor; apply sorted_set_sorted.
Qed.

(* --- ReversedSequenceView --- *)

Lemma nth_error_rev {A} (s : list A) n : (n < length s)%nat ->
  nth_error (rev s) n = nth_error s (length s - S n).
Proof.
  intros H. destruct s as [|d s]; [cbn in H; lia|].
  rewrite (nth_error_nth' (rev (d :: s)) d) by (rewrite rev_length; auto).
  rewrite (nth_error_nth' (d :: s) d) by lia. now rewrite rev_nth.
Qed.

Lemma rsv_get_spec {A} (s : list A) i : rsv_get s i = py_get (rev s) i.
Proof.
  unfold rsv_get, rsv_reverse_index, py_get. rewrite zlen_rev.
  set (i' := if i <? 0 then i + zlen s else i).
  destruct ((0 <=? i') && (i' <? zlen s)) eqn:E; [|reflexivity].
  cbn [bind].
  replace (zlen s - i' - 1 <? 0) with false by lia.
  replace ((0 <=? zlen s - i' - 1) && (zlen s - i' - 1 <? zlen s)) with true by lia.
  rewrite nth_error_rev by (unfold zlen in *; lia).
  replace (length s - S (Z.to_nat i'))%nat with (Z.to_nat (zlen s - i' - 1)) by (unfold zlen; lia).
  reflexivity.
Qed.

Lemma list_index_from_spec s x : forall k i,
  list_index_from k s x = Ok i <->
  (k <= i /\ nth_error s (Z.to_nat (i - k)) = Some x /\
   forall j, k <= j < i -> nth_error s (Z.to_nat (j - k)) <> Some x).
Proof.
  induction s as [|y s IH]; intros k i; cbn [list_index_from].
  - split; [discriminate|]. intros (_ & H & _). destruct (Z.to_nat (i - k)); discriminate.
  - destruct (y =? x) eqn:E.
    + apply Z.eqb_eq in E. subst y. split.
      * intros H. injection H as <-. split; [lia|]. rewrite Z.sub_diag. split; auto. intros; lia.
      * intros (H1 & H2 & H3). f_equal. destruct (Z.eq_dec k i) as [|N]; auto.
        exfalso. apply (H3 k); [lia|]. rewrite Z.sub_diag. reflexivity.
    + rewrite IH. split.
      * intros (H1 & H2 & H3). split; [lia|].
        replace (Z.to_nat (i - k)) with (S (Z.to_nat (i - (k + 1)))) by lia. split; auto.
        intros j Hj. destruct (Z.eq_dec j k) as [->|N].
        { rewrite Z.sub_diag. cbn. intros F. injection F as ->. lia. }
        replace (Z.to_nat (j - k)) with (S (Z.to_nat (j - (k + 1)))) by lia. cbn. apply H3. lia.
      * intros (H1 & H2 & H3).
        destruct (Z.eq_dec i k) as [->|N].
        { rewrite Z.sub_diag in H2. cbn in H2. injection H2 as ->. lia. }
        split; [lia|].
        replace (Z.to_nat (i - k)) with (S (Z.to_nat (i - (k + 1)))) in H2 by lia. split; auto.
        intros j Hj. specialize (H3 j ltac:(lia)).
        replace (Z.to_nat (j - k)) with (S (Z.to_nat (j - (k + 1)))) in H3 by lia. auto.
Qed.

Lemma list_index_spec s x i :
  list_index s x = Ok i <->
  (0 <= i /\ nth_error s (Z.to_nat i) = Some x /\
   forall j, 0 <= j < i -> nth_error s (Z.to_nat j) <> Some x).
Proof.
  unfold list_index. rewrite list_index_from_spec.
  rewrite Z.sub_0_r. split; intros (A & B & C); repeat split; auto; intros j Hj;
    specialize (C j Hj); rewrite Z.sub_0_r in *; auto.
Qed.

Lemma list_index_from_err s x k e : list_index_from k s x = Err e <-> (e = ValueError /\ ~ In x s).
Proof.
  revert k. induction s as [|y s IH]; intros k; cbn [list_index_from].
  - cbn. split; [|intros (-> & _); reflexivity]. intros H. injection H as <-. auto.
  - destruct (y =? x) eqn:E.
    + apply Z.eqb_eq in E. subst. split; [discriminate|]. cbn. intros (_ & H). tauto.
    + rewrite IH. cbn. split; intros (A & B); split; auto. intros [C|C]; [lia|auto].
Qed.

Lemma list_index_err s x e : list_index s x = Err e <-> (e = ValueError /\ ~ In x s).
Proof. apply list_index_from_err. Qed.

Lemma list_count_rev s x : list_count (rev s) x = list_count s x.
Proof.
  unfold list_count. unfold zlen. f_equal. apply Permutation_length.
  assert (P : Permutation (rev s) s) by (symmetry; apply Permutation_rev).
  induction P; cbn; auto.
  - destruct (x0 =? x); auto.
  - destruct (y =? x), (x0 =? x); auto. apply perm_swap.
  - etransitivity; eauto.
Qed.

Lemma filter_one s x :
  zlen (filter (fun y => y =? x) s) = 1 -> exists a b, s = a ++ x :: b /\ ~ In x a /\ ~ In x b.
Proof.
  induction s as [|y s IH]; cbn [filter]; [rewrite zlen_nil; lia|].
  destruct (y =? x) eqn:E.
  - apply Z.eqb_eq in E. subst. rewrite zlen_cons. intros H.
    exists [], s. repeat split; auto. intros F.
    assert (In x (filter (fun y => y =? x) s)) by (apply filter_In; split; auto; lia).
    destruct (filter (fun y => y =? x) s); [auto|]. rewrite zlen_cons in H.
    pose proof (zlen_nonneg l). lia.
  - intros H. destruct (IH H) as (a & b & -> & A & B). exists (y :: a), b.
    repeat split; auto. intros [F|F]; [lia|auto].
Qed.

Lemma list_index_split a x b : ~ In x a -> list_index (a ++ x :: b) x = Ok (zlen a).
Proof.
  intros N. apply list_index_spec. split; [apply zlen_nonneg|].
  unfold zlen. rewrite Nat2Z.id, nth_error_app2 by lia. rewrite Nat.sub_diag. split; auto.
  intros j Hj. rewrite nth_error_app1 by lia. intros F. apply nth_error_In in F. auto.
Qed.

Lemma rsv_index_spec s x : rsv_index s x = list_index (rev s) x.
Proof.
  unfold rsv_index. destruct (list_count s x =? 1) eqn:E; [|reflexivity].
  apply Z.eqb_eq in E. apply filter_one in E. destruct E as (a & b & -> & A & B).
  rewrite list_index_split by auto. cbn [bind].
  unfold rsv_reverse_index. rewrite zlen_app, zlen_cons.
  pose proof (zlen_nonneg a). pose proof (zlen_nonneg b).
  replace (zlen a <? 0) with false by lia.
  replace ((0 <=? zlen a) && (zlen a <? zlen a + (1 + zlen b))) with true by lia.
  rewrite rev_app_distr. cbn [rev]. rewrite <- app_assoc. cbn [app].
  rewrite list_index_split by (rewrite <- in_rev; auto). rewrite zlen_rev. f_equal. lia.
Qed.

Lemma sfs_count_list s x : StronglySorted Z.lt s -> sfs_count s x = list_count s x.
Proof.
  intros S. apply StronglySorted_NoDup in S. unfold sfs_count, list_count, zmem.
  induction S as [|a l N D IH]; cbn; auto.
  rewrite (Z.eqb_sym x a). destruct (a =? x) eqn:E; cbn [orb b2z].
  - apply Z.eqb_eq in E. subst. rewrite zlen_cons, <- IH.
    destruct (existsb (Z.eqb x) l) eqn:F; auto. exfalso.
    apply existsb_exists in F. destruct F as (y & Hy & Ey). apply Z.eqb_eq in Ey. subst. auto.
  - exact IH.
Qed.

Lemma sfs_index_list s x : StronglySorted Z.lt s -> sfs_index s x = list_index s x.
Proof.
  intros S. destruct (list_index s x) as [i|e] eqn:E.
  - apply list_index_spec in E. destruct E as (A & B & _). apply sfs_index_spec; auto.
  - apply list_index_err in E. destruct E as (-> & N). apply sfs_index_err; auto.
Qed.

Lemma rsv_sfs_index_spec s x : StronglySorted Z.lt s -> rsv_sfs_index s x = list_index (rev s) x.
Proof.
  intros S. rewrite <- rsv_index_spec. unfold rsv_sfs_index, rsv_index.
  rewrite sfs_count_list, sfs_index_list by auto. reflexivity.
Qed.

(* --- the sequences returned by make_sorted_distinct_sequence --- *)

Definition sseq_wf (s : sseq) : Prop :=
  match s with
  | QRange r => range_ok r
  | QSet l => StronglySorted Z.lt l
  | QRev l => StronglySorted Z.lt l
  end.

Lemma sseq_len_spec s : sseq_len s = zlen (sseq_list s).
Proof.
  destruct s; cbn.
  - now rewrite range_list_length.
  - reflexivity.
  - unfold rsv_list. now rewrite zlen_rev.
Qed.

Lemma sseq_get_spec s i : sseq_get s i = py_get (sseq_list s) i.
Proof.
  destruct s; cbn.
  - apply range_get_spec.
  - reflexivity.
  - apply rsv_get_spec.
Qed.

Lemma sseq_mem_spec s x : sseq_wf s -> sseq_mem s x = true <-> In x (sseq_list s).
Proof.
  destruct s; cbn; intros W.
  - now apply range_mem_In.
  - now apply sfs_mem_spec.
  - unfold rsv_list. rewrite <- in_rev. now apply sfs_mem_spec.
Qed.

Lemma range_index_list r x : range_ok r -> range_index r x = list_index (range_list r) x.
Proof.
  intros W. pose proof (range_list_length r) as L.
  destruct (range_mem r x) eqn:M.
  - pose proof M as M'. apply range_mem_iff in M; auto. destruct M as (i & Hi & ->).
    rewrite range_index_ok by auto. symmetry. apply list_index_spec.
    split; [lia|].
    rewrite (nth_error_nth' _ 0) by (unfold zlen in L; lia).
    rewrite range_list_nth by lia. split; auto.
    intros j Hj. rewrite (nth_error_nth' _ 0) by (unfold zlen in L; lia).
    rewrite range_list_nth by lia. intros F. injection F as F.
    unfold range_ok in W. nia.
  - unfold range_index. rewrite M. symmetry. apply list_index_err. split; auto.
    intros F. apply range_mem_In in F; auto. congruence.
Qed.

Lemma sseq_index_spec s x : sseq_wf s -> sseq_index s x = list_index (sseq_list s) x.
Proof.
  destruct s; cbn; intros W.
  - now apply range_index_list.
  - now apply sfs_index_list.
  - now apply rsv_sfs_index_spec.
Qed.

Definition evenly_spaced (l : list Z) : Prop := exists d, successive_differences l d.

Lemma range_differences r : successive_differences (range_list r) (r_step r).
Proof.
  unfold successive_differences, item_at. intros i x y Hx Hy.
  assert (Hl : (S i < length (range_list r))%nat) by (apply nth_error_Some; congruence).
  pose proof (range_list_length r) as L. unfold zlen in L.
  rewrite (nth_error_nth' _ 0) in Hx by lia. rewrite (nth_error_nth' _ 0) in Hy by lia.
  injection Hx as <-. injection Hy as <-.
  replace i with (Z.to_nat (Z.of_nat i)) at 2 by lia.
  replace (S i) with (Z.to_nat (Z.of_nat i + 1)) by lia.
  rewrite !range_list_nth by lia. lia.
Qed.

Lemma differences_nth l d : successive_differences l d ->
  forall i, (i < length l)%nat -> nth i l 0 = nth 0 l 0 + Z.of_nat i * d.
Proof.
  intros H. induction i as [|i IH]; intros Hi; [lia|].
  specialize (IH ltac:(lia)).
  specialize (H i (nth i l 0) (nth (S i) l 0)). unfold item_at in H.
  rewrite !(nth_error_nth' l 0) in H by lia. specialize (H eq_refl eq_refl). nia.
Qed.

(* a list with constant non-zero difference is the range from first to last + d *)
Lemma differences_range l d : successive_differences l d -> d <> 0 -> l <> [] ->
  range_list (mk_range (nth 0 l 0) (nth (length l - 1) l 0 + d) d) = l.
Proof.
  intros H Hd Hne.
  assert (Hl : (0 < length l)%nat) by (destruct l; cbn; [congruence|lia]).
  pose proof (differences_nth l d H) as N.
  set (r := mk_range _ _ _).
  assert (L : range_len r = zlen l).
  { unfold range_len, r; cbn [r_start r_stop r_step]. rewrite (N (length l - 1)%nat) by lia.
    unfold zlen. set (n := length l) in *. set (a := nth 0 l 0).
    replace (Z.of_nat (n - 1)) with (Z.of_nat n - 1) by lia.
    destruct (0 <? d) eqn:E.
    - replace (a <? a + (Z.of_nat n - 1) * d + d) with true by nia.
      replace (a + (Z.of_nat n - 1) * d + d - 1 - a) with ((d - 1) + (Z.of_nat n - 1) * d) by lia.
      rewrite Z.div_add by lia. rewrite Z.div_small by lia. lia.
    - replace (a + (Z.of_nat n - 1) * d + d <? a) with true by nia.
      replace (a - 1 - (a + (Z.of_nat n - 1) * d + d)) with ((- d - 1) + (Z.of_nat n - 1) * (- d)) by lia.
      rewrite Z.div_add by lia. rewrite Z.div_small by lia. lia. }
  pose proof (range_list_length r) as L2. rewrite L in L2.
  apply nth_ext with (d := 0) (d' := 0); [unfold zlen in L2; lia|].
  intros n Hn. rewrite (N n) by (unfold zlen in L2; lia).
  replace n with (Z.to_nat (Z.of_nat n)) at 1 by lia.
  rewrite range_list_nth by (rewrite L; unfold zlen in *; lia). reflexivity.
Qed.

Lemma py_get_last (l : list Z) : l <> [] -> py_get l (-1) = Ok (nth (length l - 1) l 0).
Proof.
  intros H. assert (0 < length l)%nat by (destruct l; cbn; [congruence|lia]).
  rewrite py_get_neg by (unfold zlen; lia).
  rewrite (py_get_ok l (-1 + zlen l) 0) by (unfold zlen; lia).
  do 2 f_equal. unfold zlen; lia.
Qed.

Definition monotone_strict (l : list Z) : Prop := StronglySorted Z.lt l \/ StronglySorted Z.gt l.

Lemma monotone_stride l d : monotone_strict l -> successive_differences l d -> 2 <= zlen l -> d <> 0.
Proof.
  intros M H L. destruct l as [|a [|b l]]; rewrite ?zlen_cons, ?zlen_nil in L; try lia.
  specialize (H O a b eq_refl eq_refl).
  destruct M as [M|M]; inversion M as [|? ? _ F]; inversion F; lia.
Qed.

Lemma compress_spec s : sseq_wf s -> sseq_list s <> [] -> monotone_strict (sseq_list s) ->
  exists t, compress_sorted_sequence_to_range s = Ok t /\ sseq_wf t /\
    sseq_list t = sseq_list s /\
    (evenly_spaced (sseq_list s) -> exists r, t = QRange r) /\
    (~ evenly_spaced (sseq_list s) -> t = s).
Proof.
  intros W Hne M. unfold compress_sorted_sequence_to_range. rewrite sseq_len_spec.
  destruct (zlen (sseq_list s) =? 1) eqn:E1.
  - assert (H : exists x, sseq_list s = [x]).
    { destruct (sseq_list s) as [|x [|y l]]; rewrite ?zlen_cons, ?zlen_nil in E1;
        [congruence|eauto|pose proof (zlen_nonneg l); lia]. }
    destruct H as (x & Hx). rewrite sseq_get_spec, Hx. cbn.
    eexists. split; [reflexivity|]. split; [cbn; unfold range_ok; cbn; lia|].
    split.
    { unfold single_item_range, sseq_list, range_list, range_len. cbn [r_step r_start r_stop].
      replace (0 <? 1) with true by lia. replace (x <? x + 1) with true by lia.
      replace (x + 1 - 1 - x) with 0 by lia. change (Z.to_nat (1 + 0 / 1)) with 1%nat.
      cbn [seq map]. f_equal. lia. }
    split; [eauto|].
    intros N. exfalso. apply N. exists 0. intros [|i] a b H1 H2; cbn in *; [discriminate|].
    destruct i; discriminate.
  - assert (L : 2 <= zlen (sseq_list s)).
    { destruct (sseq_list s) as [|x [|y l]]; rewrite ?zlen_cons, ?zlen_nil in *; [congruence|lia|].
      pose proof (zlen_nonneg l). lia. }
    assert (Hst : measure_stride_sseq s =
                  match s with QRange r => Ok (Some (r_step r)) | _ => measure_stride (sseq_list s) end)
      by (destruct s; reflexivity).
    assert (Hcase : exists o, measure_stride_sseq s = Ok o /\
               match o with
               | Some d => successive_differences (sseq_list s) d
               | None => ~ evenly_spaced (sseq_list s)
               end).
    { rewrite Hst. destruct s as [r|l|l].
      - eexists. split; [reflexivity|]. apply range_differences.
      - destruct (measure_stride_none _ Hne) as (o & Ho). exists o. split; auto.
        destruct o as [d|].
        + apply (measure_stride_spec _ _ Hne) in Ho. tauto.
        + intros (d & Hd). assert (measure_stride (sseq_list (QSet l)) = Ok (Some d)); [|congruence].
          apply measure_stride_spec; auto.
      - destruct (measure_stride_none _ Hne) as (o & Ho). exists o. split; auto.
        destruct o as [d|].
        + apply (measure_stride_spec _ _ Hne) in Ho. tauto.
        + intros (d & Hd). assert (measure_stride (sseq_list (QRev l)) = Ok (Some d)); [|congruence].
          apply measure_stride_spec; auto. }
    destruct Hcase as (o & -> & Ho). cbn [bind]. destruct o as [d|].
    + pose proof (monotone_stride _ _ M Ho L) as Hd.
      rewrite !sseq_get_spec, (py_get_ok _ 0 0) by lia. rewrite py_get_last by auto. cbn [bind].
      unfold py_range. replace (d =? 0) with false by lia. cbn [bind].
      eexists. split; [reflexivity|]. split; [exact Hd|].
      split; [cbn [sseq_list]; now apply differences_range|].
      split; [eauto|]. intros N. exfalso. apply N. now exists d.
    + exists s. repeat split; auto. intros F. contradiction.
Qed.

Lemma evenly_spaced_QRange r : evenly_spaced (sseq_list (QRange r)).
Proof. exists (r_step r). apply range_differences. Qed.

(* the full specification of the result for anything but a range *)
Lemma msds_list it sn :
  (forall r, it <> ItRange r) -> it_list it <> [] -> sn <> SOther ->
  (sn = SNone -> it_list_again it = it_list it) ->
  exists s, make_sorted_distinct_sequence it sn = Ok s /\ sseq_wf s /\
    (forall x, In x (sseq_list s) <-> In x (it_list it)) /\
    match sn with
    | SAscending => StronglySorted Z.lt (sseq_list s)
    | SDescending => StronglySorted Z.gt (sseq_list s)
    | _ => (StronglySorted Z.gt (it_list it) -> sseq_list s = it_list it) /\
           (~ StronglySorted Z.gt (it_list it) -> StronglySorted Z.lt (sseq_list s))
    end /\
    ((exists r, s = QRange r) <-> evenly_spaced (sseq_list s)).
Proof.
  intros Hnr Hne Hso Hag.
  assert (Main : forall s0, sseq_wf s0 -> monotone_strict (sseq_list s0) ->
            (forall r, s0 <> QRange r) ->
            (forall x, In x (sseq_list s0) <-> In x (it_list it)) ->
            exists s, compress_sorted_sequence_to_range s0 = Ok s /\ sseq_wf s /\
              sseq_list s = sseq_list s0 /\
              ((exists r, s = QRange r) <-> evenly_spaced (sseq_list s))).
  { intros s0 W M Nr Hin.
    assert (Hne0 : sseq_list s0 <> []).
    { intros E. destruct (it_list it) as [|a l]; [congruence|].
      specialize (Hin a). rewrite E in Hin. destruct Hin as (_ & H). apply H. now left. }
    destruct (compress_spec s0 W Hne0 M) as (t & Ht & Wt & Lt & E1 & E2).
    exists t. repeat split; auto.
    - intros (r & ->). apply evenly_spaced_QRange.
    - rewrite Lt. auto. }
  assert (Hasc : forall l, it_list it = l -> exists s,
            compress_sorted_sequence_to_range (QSet (sfs_new l)) = Ok s /\ sseq_wf s /\
            sseq_list s = sorted_set l /\
            ((exists r, s = QRange r) <-> evenly_spaced (sseq_list s))).
  { intros l El. apply (Main (QSet (sfs_new l))); cbn.
    - apply sorted_set_sorted.
    - left. apply sorted_set_sorted.
    - discriminate.
    - intros x. unfold sfs_new. rewrite sorted_set_In, El. tauto. }
  assert (Hdesc : forall l, it_list it = l -> exists s,
            compress_sorted_sequence_to_range (QRev (sfs_new l)) = Ok s /\ sseq_wf s /\
            sseq_list s = rev (sorted_set l) /\
            ((exists r, s = QRange r) <-> evenly_spaced (sseq_list s))).
  { intros l El. apply (Main (QRev (sfs_new l))); cbn.
    - apply sorted_set_sorted.
    - right. unfold rsv_list. eapply StronglySorted_weaken;
        [|apply StronglySorted_rev, sorted_set_sorted]. cbn; lia.
    - discriminate.
    - intros x. unfold rsv_list, sfs_new. rewrite <- in_rev, sorted_set_In, El. tauto. }
  assert (Hrevsorted : forall l, StronglySorted Z.gt (rev (sorted_set l))).
  { intros l. eapply StronglySorted_weaken; [|apply StronglySorted_rev, sorted_set_sorted].
    cbn; lia. }
  assert (Hunfold : make_sorted_distinct_sequence it sn =
    (do sorted_seq <-
        match sn with
        | SAscending => Ok (QSet (sfs_new (it_list it)))
        | SDescending => Ok (QRev (sfs_new (it_list it)))
        | SNone =>
            do down <- is_sorted (fun x => x) (it_list it) true true ;;
            if (down : bool)
            then Ok (QRev (sfs_new (it_list_again it)))
            else Ok (QSet (sfs_new (it_list_again it)))
        | SOther => Err TypeError
        end ;;
      compress_sorted_sequence_to_range sorted_seq)).
  { destruct it; try reflexivity. exfalso. eapply Hnr. reflexivity. }
  rewrite Hunfold. destruct sn; try congruence; cbn [bind].
  - destruct (Hasc _ eq_refl) as (s & E & W & L & R). exists s. repeat split; auto.
    + rewrite L. apply sorted_set_In.
    + rewrite L. apply sorted_set_In.
    + rewrite L. apply sorted_set_sorted.
    + apply R.
    + apply R.
  - destruct (Hdesc _ eq_refl) as (s & E & W & L & R). exists s. split; auto. split; auto.
    split; [intros x; rewrite L, <- in_rev; apply sorted_set_In|].
    split; auto. rewrite L. auto.
  - rewrite (Hag eq_refl).
    destruct (is_sorted_spec (fun x => x) (it_list it) true true Hne) as (b & -> & Hb).
    rewrite map_id in Hb. cbn [bind sort_rel] in *. unfold sort_rel in Hb.
    destruct b.
    + destruct (Hdesc _ eq_refl) as (s & E & W & L & R). exists s. split; auto. split; auto.
      split; [intros x; rewrite L, <- in_rev; apply sorted_set_In|].
      split; [|exact R]. split; [|tauto].
      intros S. rewrite L. rewrite <- (rev_involutive (it_list it)). f_equal.
      assert (S' : StronglySorted Z.lt (rev (it_list it))).
      { eapply StronglySorted_weaken; [|apply StronglySorted_rev; exact S]. cbn; lia. }
      apply sorted_lt_ext; auto using sorted_set_sorted.
      intros x. rewrite sorted_set_In, <- in_rev. tauto.
    + destruct (Hasc _ eq_refl) as (s & E & W & L & R). exists s. split; auto. split; auto.
      split; [intros x; rewrite L; apply sorted_set_In|].
      split; [|exact R]. split.
      * intros S. apply Hb in S. discriminate.
      * intros _. rewrite L. apply sorted_set_sorted.
Qed.

Lemma rev_sorted_gt l : StronglySorted Z.lt l -> StronglySorted Z.gt (rev l).
Proof. intros S. eapply StronglySorted_weaken; [|apply StronglySorted_rev; exact S]. cbn; lia. Qed.

Lemma rev_sorted_lt l : StronglySorted Z.gt l -> StronglySorted Z.lt (rev l).
Proof. intros S. eapply StronglySorted_weaken; [|apply StronglySorted_rev; exact S]. cbn; lia. Qed.

Lemma msds_range r sn : range_ok r -> sn <> SOther ->
  exists s, make_sorted_distinct_sequence (ItRange r) sn = Ok (QRange s) /\ range_ok s /\
    (forall x, In x (range_list s) <-> In x (range_list r)) /\
    match sn with
    | SAscending => StronglySorted Z.lt (range_list s)
    | SDescending => StronglySorted Z.gt (range_list s)
    | _ => range_list s = range_list r
    end.
Proof.
  intros W Hso. pose proof (range_sorted r W) as S.
  pose proof (range_sorted _ (range_ok_reversed r W)) as S'.
  unfold range_ok in W.
  assert (Hin : forall x, In x (range_list (reversed_range r)) <-> In x (range_list r)).
  { intros x. rewrite reversed_range_spec by auto. now rewrite <- in_rev. }
  destruct sn; try congruence; cbn [make_sorted_distinct_sequence].
  - destruct (0 <? r_step r) eqn:E.
    + exists r. repeat split; auto.
    + exists (reversed_range r). repeat split; auto using range_ok_reversed; try apply Hin.
      rewrite reversed_range_spec by auto. now apply rev_sorted_lt.
  - destruct (r_step r <? 0) eqn:E.
    + exists r. repeat split; auto. now replace (0 <? r_step r) with false in S by lia.
    + exists (reversed_range r). repeat split; auto using range_ok_reversed; try apply Hin.
      rewrite reversed_range_spec by auto. apply rev_sorted_gt.
      now replace (0 <? r_step r) with true in S by lia.
  - exists r. repeat split; auto.
Qed.

(* --- roundrobin --- *)

Definition heads {A} (ls : list (list A)) : list A := round_items 0 ls.
Definition tails {A} (ls : list (list A)) : list (list A) :=
  flat_map (fun l => match l with [] => [] | _ :: t => [t] end) ls.

(* the fuel needed by a queue *)
Definition rr_cost {A} (q : list (list A)) : nat := (total_length q + length q)%nat.

Lemma rr_cost_app {A} (q r : list (list A)) : rr_cost (q ++ r) = (rr_cost q + rr_cost r)%nat.
Proof.
  unfold rr_cost. rewrite app_length.
  assert (E : total_length (q ++ r) = (total_length q + total_length r)%nat).
  { unfold total_length. induction q as [|l q IH]; cbn; [reflexivity|]. rewrite IH. lia. }
  rewrite E. lia.
Qed.

Lemma rr_cost_cons {A} (l : list A) q : rr_cost (l :: q) = (S (length l) + rr_cost q)%nat.
Proof. unfold rr_cost, total_length. cbn [fold_right length]. lia. Qed.

(* once the fuel suffices, more fuel changes nothing *)
Lemma rr_enough {A} : forall f (q : list (list A)), (rr_cost q <= f)%nat ->
  roundrobin_loop f q = roundrobin_loop (rr_cost q) q.
Proof.
  assert (H : forall f g (q : list (list A)), (rr_cost q <= f)%nat -> (rr_cost q <= g)%nat ->
             roundrobin_loop f q = roundrobin_loop g q).
  { induction f as [|f IH]; intros g q Hf Hg.
    - destruct q as [|l q]; [|rewrite rr_cost_cons in Hf; lia]. now destruct g.
    - destruct g as [|g].
      + destruct q as [|l q]; [reflexivity|rewrite rr_cost_cons in Hg; lia].
      + destruct q as [|[|x l] q]; cbn [roundrobin_loop]; auto.
        * rewrite rr_cost_cons in *. cbn [length] in *. apply IH; lia.
        * f_equal. rewrite rr_cost_cons in *. cbn [length] in *.
          assert (E : rr_cost [l] = S (length l)) by (unfold rr_cost, total_length; cbn [fold_right length]; lia).
          apply IH; rewrite rr_cost_app, E; lia. }
  intros. apply H; lia.
Qed.

Lemma rr_round {A} : forall (q acc : list (list A)),
  roundrobin_loop (rr_cost (q ++ acc)) (q ++ acc) =
  heads q ++ roundrobin_loop (rr_cost (acc ++ tails q)) (acc ++ tails q).
Proof.
  induction q as [|[|x l] q IH]; intros acc.
  - cbn. now rewrite app_nil_r.
  - cbn [app]. rewrite rr_cost_cons. cbn [length plus roundrobin_loop]. apply IH.
  - cbn [app]. rewrite rr_cost_cons. cbn [length].
    set (f := (S (length l) + rr_cost (q ++ acc))%nat).
    change (S (S (length l)) + rr_cost (q ++ acc))%nat with (S f).
    change (roundrobin_loop (S f) ((x :: l) :: q ++ acc))
      with (x :: roundrobin_loop f ((q ++ acc) ++ [l])).
    cbn [heads round_items flat_map nth_error app]. f_equal.
    rewrite (rr_enough _ ((q ++ acc) ++ [l])).
    2:{ assert (E : rr_cost [l] = S (length l)) by (unfold rr_cost, total_length; cbn [fold_right length]; lia).
        unfold f. rewrite !rr_cost_app, E. lia. }
    rewrite <- app_assoc. rewrite IH. unfold heads, round_items. f_equal.
    cbn [tails flat_map]. rewrite <- app_assoc. reflexivity.
Qed.

Lemma heads_tails_round {A} (ls : list (list A)) k :
  round_items k (tails ls) = round_items (S k) ls.
Proof.
  unfold round_items, tails. induction ls as [|[|x l] ls IH]; cbn; auto.
  now rewrite IH.
Qed.

Lemma longest_cons {A} (l : list A) ls : longest (l :: ls) = Nat.max (length l) (longest ls).
Proof. reflexivity. Qed.

Lemma longest_nil_heads {A} (ls : list (list A)) : longest ls = O -> tails ls = [] /\ heads ls = [].
Proof.
  induction ls as [|[|x l] ls IH].
  - auto.
  - rewrite longest_cons. cbn [length]. intros H. apply IH. lia.
  - rewrite longest_cons. cbn [length]. intros H. lia.
Qed.

Lemma longest_tails {A} (ls : list (list A)) : longest (tails ls) = pred (longest ls).
Proof.
  induction ls as [|[|x l] ls IH]; [reflexivity| |].
  - rewrite longest_cons. exact IH.
  - change (tails ((x :: l) :: ls)) with (l :: tails ls).
    rewrite !longest_cons, IH. cbn [length]. lia.
Qed.

Lemma roundrobin_spec {A} (ls : list (list A)) : roundrobin ls = rounds ls.
Proof.
  unfold roundrobin. change (total_length ls + length ls)%nat with (rr_cost ls).
  unfold rounds. remember (longest ls) as n eqn:En. revert ls En.
  induction n as [|n IH]; intros ls En.
  - pose proof (rr_round ls []) as R. rewrite app_nil_r in R. rewrite R.
    destruct (longest_nil_heads ls (eq_sym En)) as (-> & ->). reflexivity.
  - pose proof (rr_round ls []) as R. rewrite app_nil_r in R. rewrite R. cbn [app].
    rewrite (IH (tails ls)).
    2:{ rewrite longest_tails, <- En. reflexivity. }
    cbn [seq flat_map]. f_equal. rewrite <- seq_shift.
    clear. induction (seq 0 n); cbn; auto. now rewrite IHl, heads_tails_round.
Qed.

(* --- views of any sequence --- *)

(* the items in order, following the views down to the list *)
Fixpoint so_items (s : seqobj) : list Z :=
  match s with SoList l => l | SoView s' => rev (so_items s') end.

Lemma so_len_spec s : so_len s = zlen (so_items s).
Proof. induction s; cbn; auto. now rewrite zlen_rev. Qed.

Lemma so_get_spec s : forall i, so_get s i = py_get (so_items s) i.
Proof.
  induction s as [l|s IH]; intros i; cbn; auto.
  rewrite so_len_spec. rewrite <- rsv_get_spec. unfold rsv_get.
  destruct (rsv_reverse_index (zlen (so_items s)) i) as [r|e]; cbn; auto.
Qed.

Lemma so_mem_spec s x : so_mem s x = true <-> In x (so_items s).
Proof. induction s; cbn; [apply zmem_In|]. now rewrite <- in_rev. Qed.

Lemma so_count_spec s x : so_count s x = list_count (so_items s) x.
Proof. induction s; cbn; auto. now rewrite list_count_rev. Qed.

Lemma view_getitem s i n x : n = so_len s ->
  (0 <= i < n -> so_get (SoView s) i = so_get s (n - 1 - i)) /\
  (- n <= i < 0 -> so_get (SoView s) i = so_get (SoView s) (n + i)) /\
  (i < - n \/ n <= i -> so_get (SoView s) i = Err IndexError) /\
  so_mem (SoView s) x = so_mem s x /\ so_count (SoView s) x = so_count s x /\
  so_len (SoView s) = n.
Proof.
  intros ->. cbn [so_get so_mem so_count so_len]. unfold rsv_reverse_index.
  assert (0 <= so_len s) by (rewrite so_len_spec; apply zlen_nonneg).
  repeat split; intros Hi.
  - replace (i <? 0) with false by lia.
    replace ((0 <=? i) && (i <? so_len s)) with true by lia. cbn [bind]. f_equal. lia.
  - replace (i <? 0) with true by lia. replace (so_len s + i <? 0) with false by lia.
    now rewrite (Z.add_comm i).
  - destruct (i <? 0) eqn:E;
      [replace ((0 <=? i + so_len s) && (i + so_len s <? so_len s)) with false by lia
      |replace ((0 <=? i) && (i <? so_len s)) with false by lia]; reflexivity.
Qed.

Lemma rsv_index_absent l x : rsv_index l x = Err ValueError <-> ~ In x l.
Proof. rewrite rsv_index_spec, list_index_err, <- in_rev. tauto. Qed.

Lemma round_up_rejects n m : m <= 0 -> round_up n m = Err ValueError.
Proof. intros H. unfold round_up. now replace (m <=? 0) with true by lia. Qed.

Lemma cmp_sgn_spec x y : cmp x y = Z.sgn (x - y) /\ sgn x = Z.sgn x.
Proof.
  assert (H : forall a b, cmp a b = Z.sgn (a - b)).
  { intros a b. unfold cmp, b2z.
    destruct (b <? a) eqn:E1, (a <? b) eqn:E2; lia. }
  unfold sgn. rewrite !H, Z.sub_0_r. auto.
Qed.

Lemma msds_explicit_sense it1 it2 sn :
  (forall r, it1 <> ItRange r) -> (forall r, it2 <> ItRange r) ->
  it_list it1 = it_list it2 -> sn <> SNone ->
  make_sorted_distinct_sequence it1 sn = make_sorted_distinct_sequence it2 sn.
Proof.
  intros H1 H2 E N.
  destruct it1; try (exfalso; eapply H1; reflexivity);
  destruct it2; try (exfalso; eapply H2; reflexivity);
  cbn in E; subst; destruct sn; try congruence; reflexivity.
Qed.

Lemma msds_iterator_loses_items :
  exists l, make_sorted_distinct_sequence (ItIter l) SNone
            <> make_sorted_distinct_sequence (ItSeq l) SNone.
Proof. exists [1; 2; 3]. vm_compute. intros H. discriminate H. Qed.

(* ------------------------------------------------------------------ *)
(* additions *)

Lemma contiguous_tiles l : l <> [] -> Forall (fun i => fst i <= snd i) l ->
  exists b, intervals_are_contiguous l = Ok b /\ (b = true <-> exists start stop, tiles start stop l).
Proof.
  intros N F. destruct l as [|i l]; [congruence|]. clear N.
  unfold intervals_are_contiguous. cbn [pairwise bind]. eexists; split; [reflexivity|].
  revert i F. induction l as [|j l IH]; intros i F; inversion F as [|? ? Hi Fl]; subst.
  - cbn. split; [intros _|reflexivity]. exists (fst i), (snd i). auto.
  - cbn [combine forallb fst snd]. rewrite andb_true_iff, (IH j Fl), Z.eqb_eq. split.
    + intros [E (a & b & T)]. exists (fst i), b. cbn in T |- *. intuition lia.
    + intros (a & b & T). cbn in T. destruct T as (? & ? & ? & ? & ?). split; [lia|].
      exists (fst j), b. cbn. auto.
Qed.

Lemma measure_stride_range_spec r : range_ok r -> 2 <= zlen (range_list r) -> forall d,
  measure_stride_range r = Ok (Some d) <-> successive_differences (range_list r) d.
Proof.
  intros _ L d. unfold measure_stride_range. pose proof (range_differences r) as D. split.
  - intros [= <-]. exact D.
  - intros E. f_equal. f_equal.
    destruct (range_list r) as [|x [|y l]]; [cbn in L; lia|cbn in L; lia|].
    specialize (D 0%nat x y eq_refl eq_refl). specialize (E 0%nat x y eq_refl eq_refl). lia.
Qed.

Lemma sfs_eq_spec s t : sfs_eq s t = true <-> s = t.
Proof.
  revert t. induction s as [|x s IH]; intros [|y t]; cbn; try (split; congruence).
  rewrite andb_true_iff, IH, Z.eqb_eq. split; [intros [-> ->]; reflexivity|intros [= -> ->]; auto].
Qed.

Lemma sfs_more_spec xs ys n x :
  let s := sfs_new xs in let t := sfs_new ys in
  (sfs_eq s t = true <-> forall y, In y xs <-> In y ys) /\
  (sfs_lt s t = true <-> (forall y, In y xs -> In y ys) /\ exists y, In y ys /\ ~ In y xs) /\
  (sfs_gt s t = true <-> (forall y, In y ys -> In y xs) /\ exists y, In y xs /\ ~ In y ys) /\
  (sfs_isdisjoint s t = true <-> forall y, In y xs -> ~ In y ys) /\
  sfs_count s x = (if in_dec Z.eq_dec x xs then 1 else 0) /\
  sfs_add s t = sfs_new (xs ++ ys) /\
  sfs_mul s n = (if 0 <? n then s else sfs_new []).
Proof.
  intros s t.
  assert (Ss : StronglySorted Z.lt s) by apply sorted_set_sorted.
  assert (St : StronglySorted Z.lt t) by apply sorted_set_sorted.
  assert (Is : forall y, In y s <-> In y xs) by apply sorted_set_In.
  assert (It : forall y, In y t <-> In y ys) by apply sorted_set_In.
  assert (LT : forall a b, StronglySorted Z.lt a -> StronglySorted Z.lt b ->
    (zlen a <? zlen b) && sfs_le a b = true <-> (forall y, In y a -> In y b) /\ exists y, In y b /\ ~ In y a).
  { intros a b A B. rewrite andb_true_iff, (sfs_le_spec a b A B), Z.ltb_lt. split.
    - intros [L I]. split; [exact I|].
      destruct (Exists_dec (fun y => ~ In y a) b) as [E|E].
      { intros y. destruct (in_dec Z.eq_dec y a); [right|left]; tauto. }
      + apply Exists_exists in E. exact E.
      + exfalso. assert (I' : forall y, In y b -> In y a).
        { intros y Hy. destruct (in_dec Z.eq_dec y a) as [|n0]; [assumption|].
          exfalso. apply E. apply Exists_exists. exists y. auto. }
        pose proof (NoDup_same_length a b (StronglySorted_NoDup _ A) (StronglySorted_NoDup _ B)
          (fun y => conj (I y) (I' y))) as EL.
        unfold zlen in L. lia.
    - intros [I (y & Hy & Ny)]. split; [|exact I].
      assert (L : (length (y :: a) <= length b)%nat).
      { apply NoDup_incl_length.
        - constructor; [exact Ny|apply StronglySorted_NoDup; exact A].
        - intros z [<-|Hz]; auto. }
      cbn in L. unfold zlen. lia. }
  split; [|split; [|split; [|split; [|split; [|split]]]]].
  - rewrite sfs_eq_spec. split.
    + intros E y. rewrite <- Is, E, It. reflexivity.
    + intros E. apply sorted_lt_ext; auto. intros y. rewrite Is, It. apply E.
  - unfold sfs_lt. rewrite (LT s t Ss St). setoid_rewrite Is. setoid_rewrite It. reflexivity.
  - unfold sfs_gt. rewrite sfs_ge_le, (LT t s St Ss). setoid_rewrite Is. setoid_rewrite It. reflexivity.
  - unfold sfs_isdisjoint. rewrite negb_true_iff, <- not_true_iff_false, existsb_exists. split.
    + intros N y Hx Hy. apply N. exists y. rewrite It, (sfs_mem_spec s y Ss), Is. auto.
    + intros N (y & Hy & Hx). rewrite It in Hy. rewrite (sfs_mem_spec s y Ss), Is in Hx. exact (N y Hx Hy).
  - unfold sfs_count. destruct (in_dec Z.eq_dec x xs) as [I|I].
    + assert (E : zmem x s = true) by (apply zmem_In, Is, I). rewrite E. reflexivity.
    + assert (E : zmem x s = false).
      { apply not_true_iff_false. rewrite zmem_In, Is. exact I. }
      rewrite E. reflexivity.
  - unfold sfs_add. apply sorted_lt_ext; try apply sorted_set_sorted.
    intros y. unfold sfs_new. rewrite !sorted_set_In, !in_app_iff, <- (sorted_set_In xs y), <- (sorted_set_In ys y).
    subst s t. unfold sfs_new. rewrite ?sorted_set_In. reflexivity.
  - unfold sfs_mul. destruct (0 <? n); [apply sorted_set_id; exact Ss|reflexivity].
Qed.

Lemma msds_bad_sense it : make_sorted_distinct_sequence it SOther = Err TypeError.
Proof. destruct it; reflexivity. Qed.

Lemma last_loop_spec {A} (l : list A) : forall x, last_loop x l = List.last (x :: l) x.
Proof.
  assert (G : forall (l : list A) d e, l <> [] -> List.last l d = List.last l e).
  { clear l. induction l as [|x [|y l'] IH]; intros d e N; [destruct (N eq_refl)|reflexivity|].
    change (List.last (y :: l') d = List.last (y :: l') e). apply IH. discriminate. }
  induction l as [|y l IH]; intros x; [reflexivity|].
  change (last_loop y l = List.last (y :: l) x). rewrite IH. apply G. discriminate.
Qed.

Lemma first_last_spec {A} (sq : bool) (l : list A) : 
  (l = [] -> first l = Err ValueError /\ last_item sq l = Err ValueError) /\
  (forall x m, l = x :: m -> first l = Ok x) /\
  (forall x m, l = m ++ [x] -> last_item sq l = Ok x).
Proof.
  split; [|split].
  - intros ->. destruct sq; split; reflexivity.
  - intros x m ->. reflexivity.
  - intros x m ->. unfold last_item.
    assert (E : py_get (m ++ [x]) (zlen (m ++ [x]) - 1) = Ok x).
    { unfold py_get. rewrite zlen_app. change (zlen [x]) with 1.
      pose proof (zlen_nonneg m). 
      replace (zlen m + 1 - 1) with (zlen m) by lia.
      destruct (zlen m <? 0) eqn:B; [lia|]. 
      replace (Z.to_nat (zlen m)) with (length m) by (unfold zlen; lia).
      rewrite nth_error_app2, Nat.sub_diag by lia. cbn.
      repeat match goal with |- context [if ?b then _ else _] => destruct b eqn:? end; try lia; reflexivity. }
    destruct sq; [rewrite E; reflexivity|].
    destruct (m ++ [x]) as [|y l] eqn:Em; [destruct m; discriminate|].
    rewrite last_loop_spec, <- Em, last_last. reflexivity.
Qed.
