(* Proofs about finding items in views. *)
From Coq Require Import ZArith List Bool Lia ZifyBool ZifyNat.
From Verif Require Import Py Util Views PyFacts UtilFacts.
Import ListNotations.
Open Scope Z_scope.

(* what a sequence holds, in its order *)
Fixpoint held (s : seqobj) : list Z := match s with SoList l => l | SoView s' => rev (held s') end.

Lemma held_len s : so_len s = zlen (held s).
Proof. induction s as [l|s IH]; cbn [so_len held]; [reflexivity|]. now rewrite zlen_rev. Qed.
Lemma held_count s x : so_count s x = list_count (held s) x.
Proof. induction s as [l|s IH]; cbn [so_count held]; [reflexivity|]. now rewrite list_count_rev. Qed.
Lemma held_mem s x : so_mem s x = true <-> In x (held s).
Proof. induction s as [l|s IH]; cbn [so_mem held]; [|rewrite IH; apply in_rev]. unfold zmem. rewrite existsb_exists. split; [intros (y & H & E); now replace x with y by lia|]. intros H. exists x. split; [exact H|lia]. Qed.

Lemma rev_get (l : list Z) i : (do r <- rsv_reverse_index (zlen l) i ;; @py_get Z l r) = py_get (rev l) i.
Proof.
  unfold rsv_reverse_index, py_get at 2. rewrite zlen_rev. set (j := if i <? 0 then i + zlen l else i). clearbody j.
  destruct ((0 <=? j) && (j <? zlen l)) eqn:E; [|reflexivity]. cbn [bind]. unfold py_get.
  replace (zlen l - j - 1 <? 0) with false by lia. replace ((0 <=? zlen l - j - 1) && (zlen l - j - 1 <? zlen l)) with true by lia.
  assert (R : nth_error (rev l) (Z.to_nat j) = nth_error l (Z.to_nat (zlen l - j - 1))); [|now rewrite R].
  unfold zlen in *. assert (Hj : (Z.to_nat j < length l)%nat) by lia.
  rewrite (nth_error_nth' (rev l) 0) by (rewrite rev_length; lia). rewrite (nth_error_nth' l 0) by lia.
  rewrite rev_nth by lia. do 2 f_equal. lia.
Qed.

Lemma held_get s i : so_get s i = py_get (held s) i.
Proof.
  revert i. induction s as [l|s IH]; intros i; cbn [so_get held]; [reflexivity|]. rewrite <- rev_get, held_len.
  destruct (rsv_reverse_index (zlen (held s)) i) as [r|e]; cbn [bind]; [apply IH|reflexivity].
Qed.

Lemma once_rev l x : list_count l x = 1 -> (do i <- list_index l x ;; rsv_reverse_index (zlen l) i) = list_index (rev l) x.
Proof. intros E. rewrite <- rsv_index_spec. unfold rsv_index. now rewrite E. Qed.

Lemma index_once s x : so_count s x = 1 -> so_index s x = list_index (held s) x.
Proof.
  induction s as [l|s IH]; intros C; cbn [so_index held]; [reflexivity|]. cbn [so_count] in C. rewrite C. cbn.
  rewrite IH, held_len by exact C. apply once_rev. rewrite <- held_count. exact C.
Qed.

Lemma index_one_level l x : so_index (SoView (SoList l)) x = list_index (rev l) x.
Proof. rewrite <- rsv_index_spec. reflexivity. Qed.

Lemma index_nested s x : so_count s x <> 1 -> so_index (SoView (SoView s)) x = Err TypeError.
Proof. intros N. cbn [so_index so_count]. replace (so_count s x =? 1) with false by lia. reflexivity. Qed.

Lemma count_absent l x : ~ In x l -> list_count l x = 0.
Proof.
  intros N. unfold list_count. induction l as [|y l IH]; cbn [filter]; [reflexivity|].
  destruct (y =? x) eqn:E; [|apply IH; intros H; apply N; now right]. exfalso. apply N. apply or_introl. lia.
Qed.

Lemma index_absent_nested s x : ~ In x (held s) -> so_index (SoView (SoView s)) x = Err TypeError.
Proof. intros N. apply index_nested. rewrite held_count, count_absent by exact N. lia. Qed.
