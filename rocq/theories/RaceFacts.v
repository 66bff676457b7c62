(* Proofs about processes that share a cache directory. *)
From Coq Require Import ZArith List Bool Arith Lia.
From Verif Require Import Py Threads ThreadFacts Race Spec_Race.
Import ListNotations.
Open Scope list_scope.
Open Scope nat_scope.

Lemma prefix_firstn (p l : list Z) : prefix p l <-> p = firstn (length p) l.
Proof.
  split.
  - intros (t & ->). now rewrite firstn_app, Nat.sub_diag, firstn_all, firstn_O, app_nil_r.
  - intros E. exists (skipn (length p) l). rewrite E at 1. symmetry. apply firstn_skipn.
Qed.
Lemma firstn_prefix n (l : list Z) : prefix (firstn n l) l.
Proof. exists (skipn n l). symmetry. apply firstn_skipn. Qed.
Lemma prefix_length (p l : list Z) : prefix p l -> length p <= length l.
Proof. intros (t & ->). rewrite app_length. lia. Qed.
Lemma prefix_trans (p q l : list Z) : prefix p q -> prefix q l -> prefix p l.
Proof. intros (t & ->) (u & ->). exists (t ++ u). now rewrite app_assoc. Qed.
(* what is read next from contents that begin with what has been read *)
Lemma read_on m (got l D : list Z) : prefix got D -> prefix l D -> firstn m (skipn (length got) l) <> [] -> prefix (got ++ firstn m (skipn (length got) l)) D.
Proof.
  intros G L NE. assert (LT : length got < length l).
  { destruct (Nat.le_gt_cases (length l) (length got)) as [X|X]; [|exact X]. rewrite skipn_all2 in NE by exact X. now rewrite firstn_nil in NE. }
  assert (E : got = firstn (length got) l).
  { apply prefix_firstn in G. apply prefix_firstn in L. rewrite L. rewrite firstn_firstn, Nat.min_l by lia. exact G. }
  apply prefix_trans with l; [|exact L]. exists (skipn m (skipn (length got) l)). rewrite <- app_assoc, firstn_skipn. rewrite E at 1. symmetry. apply firstn_skipn.
Qed.
Lemma write_on m k (D : list Z) : k <= length D -> write_at (firstn k D) k (firstn m (skipn k D)) = firstn (k + length (firstn m (skipn k D))) D.
Proof.
  intros K. unfold write_at. assert (LK : length (firstn k D) = k) by (rewrite firstn_length; lia). rewrite LK, Nat.sub_diag, app_nil_r.
  rewrite firstn_all2 by lia. rewrite (skipn_all2 (firstn k D)) by lia. rewrite app_nil_r.
  set (b := firstn m (skipn k D)). assert (B : b = firstn (length b) (skipn k D)) by (apply prefix_firstn, firstn_prefix).
  rewrite B at 1. generalize (length b). clear -K. intros n. revert D K. induction k as [|k IH]; intros [|x D] K; cbn in *; try reflexivity; try lia. f_equal. apply IH. lia.
Qed.
Lemma write_length l off b : length (write_at l off b) = Nat.max (length l) (off + length b).
Proof. unfold write_at. rewrite !app_length, firstn_length, app_length, repeat_length, skipn_length. lia. Qed.

Section Race.
Context {A : Type}.
Variables (unpickle : list Z -> verdict A) (pickles : nat -> list Z).
Notation occur := (occur unpickle pickles).
Notation occur_all := (occur_all unpickle pickles).

Section Same.
Variables (D : list Z) (r : A).
Hypothesis PK : is_pickle unpickle D r.
Hypothesis PI : forall i, pickles i = D.

Definition proc_ok (s : disk A) (p : at_step A) : Prop :=
  match p with
  | Reading ino got => ino < dk_next s /\ prefix got D /\ got <> D
  | Writing ino k => ino < dk_next s /\ k <= length D /\ dk_inodes s ino = firstn k D
  | Returned x => x = Own \/ x = FromCache r \/ x = Raised OSError
  | _ => True
  end.
Record inv (s : disk A) : Prop := {
  inv_inodes : forall ino, prefix (dk_inodes s ino) D;
  inv_entry : forall ino, dk_entry s = Some ino -> ino < dk_next s;
  inv_procs : forall i, proc_ok s (dk_procs s i);
  inv_writers : forall i j ino k k', i <> j -> dk_procs s i = Writing ino k -> dk_procs s j <> Writing ino k' }.

Lemma goes_inv s i p : inv s -> proc_ok s p -> (forall ino k, p <> Writing ino k) -> inv (goes s i p).
Proof.
  intros [I1 I2 I3 I4] P N. split; cbn [goes dk_entry dk_inodes dk_next dk_procs]; auto.
  - intros j. destruct (Nat.eq_dec j i) as [->|X]; [rewrite upd_same; exact P|rewrite upd_other by exact X; apply I3].
  - intros j j' ino k k' J. destruct (Nat.eq_dec j i) as [->|X].
    + rewrite upd_same. intros E. now destruct (N ino k).
    + rewrite upd_other by exact X. intros E. destruct (Nat.eq_dec j' i) as [->|X']; [rewrite upd_same; apply N|rewrite upd_other by exact X'; now apply (I4 j j' ino k k')].
Qed.
Lemma gone_inv s : inv s -> inv (mk_disk None (dk_inodes s) (dk_next s) (dk_procs s)).
Proof. intros [I1 I2 I3 I4]. split; cbn [dk_entry dk_inodes dk_next dk_procs]; auto. discriminate. Qed.

(* a process has an inode to itself for writing: it may change its contents *)
Lemma write_inv s i ino l nx e k : inv s -> (forall j k', j <> i -> dk_procs s j <> Writing ino k') -> dk_next s <= nx -> ino < nx ->
  (forall x, e = Some x -> x < nx) -> k <= length D -> l = firstn k D ->
  inv (goes (mk_disk e (upd (dk_inodes s) ino l) nx (dk_procs s)) i (Writing ino k)).
Proof.
  intros [I1 I2 I3 I4] N LE LT E K ->. split; cbn [goes dk_entry dk_inodes dk_next dk_procs].
  - intros x. destruct (Nat.eq_dec x ino) as [->|X]; [rewrite upd_same; apply firstn_prefix|rewrite upd_other by exact X; apply I1].
  - exact E.
  - intros j. destruct (Nat.eq_dec j i) as [->|X].
    + rewrite upd_same. cbn [proc_ok goes dk_inodes dk_next]. now rewrite upd_same.
    + rewrite upd_other by exact X. specialize (I3 j). specialize (N j). destruct (dk_procs s j) as [| |x g| | |x kx|x|]; cbn [proc_ok goes dk_inodes dk_next] in *; auto.
      * destruct I3 as (J1 & J2 & J3). split; [lia|auto].
      * destruct I3 as (J1 & J2 & J3). split; [lia|]. split; [exact J2|]. rewrite upd_other; [exact J3|]. intros ->. now apply (N kx X).
  - intros j j' x kx kx' J. destruct (Nat.eq_dec j i) as [->|X].
    + rewrite upd_same. intros [= <- <-]. rewrite upd_other by auto. apply N. auto.
    + rewrite upd_other by exact X. intros EJ. destruct (Nat.eq_dec j' i) as [->|X'].
      * rewrite upd_same. intros [= <- <-]. now apply (N j kx X).
      * rewrite upd_other by exact X'. now apply (I4 j j' x kx kx').
Qed.

Lemma occur_inv ev s : inv s ->
  (match ev with Act i _ => dk_procs s i = Saving -> forall ino j k, dk_entry s = Some ino -> dk_procs s j <> Writing ino k | _ => True end) ->
  inv (occur ev s).
Proof.
  intros I OW. destruct ev as [i n|i|]; cbn [Race.occur]; [| |now apply gone_inv].
  2:{ destruct (dk_procs s i) eqn:E; try exact I; apply goes_inv; try exact I; try discriminate; exact Logic.I. }
  assert (P := inv_procs s I i). destruct (dk_procs s i) as [| |ino got| | |ino k|x|] eqn:E; cbn [proc_ok] in P; try exact I.
  - destruct (dk_entry s); apply goes_inv; try exact I; try discriminate; exact Logic.I.
  - destruct (dk_entry s) as [ino|] eqn:EE; apply goes_inv; try exact I; try discriminate; cbn [proc_ok]; [|auto].
    split; [now apply (inv_entry s I)|]. split; [now exists D|]. intros X. now apply (proj1 PK).
  - destruct P as (P1 & P2 & P3). destruct (firstn (Nat.max 1 n) (skipn (length got) (dk_inodes s ino))) as [|x b] eqn:EB.
    + apply goes_inv; try exact I; try discriminate; exact Logic.I.
    + assert (PF : prefix (got ++ x :: b) D) by (rewrite <- EB; apply read_on; [exact P2|apply I|now rewrite EB]).
      destruct (list_eq_dec Z.eq_dec (got ++ x :: b) D) as [ED|ND].
      * rewrite ED, (proj1 (proj2 PK)). apply goes_inv; try exact I; try discriminate. cbn [proc_ok]. auto.
      * rewrite (proj2 (proj2 PK) _ PF ND). apply goes_inv; try exact I; try discriminate. cbn [proc_ok]. auto.
  - apply (goes_inv (mk_disk None _ _ _)); [now apply gone_inv|exact Logic.I|discriminate].
  - destruct (dk_entry s) as [ino|] eqn:EE.
    + assert (LT := inv_entry s I ino EE). apply write_inv; [exact I| |lia|exact LT| |lia|reflexivity].
      * intros j k' _. now apply OW.
      * intros x [= <-]. exact LT.
    + apply write_inv; [exact I| |lia|lia| |lia|reflexivity].
      * intros j k' _ EJ. assert (PJ := inv_procs s I j). rewrite EJ in PJ. cbn [proc_ok] in PJ. lia.
      * intros x [= <-]. lia.
  - destruct P as (P1 & P2 & P3). rewrite PI. destruct (firstn (Nat.max 1 n) (skipn k D)) as [|x b] eqn:EB.
    + apply goes_inv; try exact I; try discriminate. cbn [proc_ok]. auto.
    + rewrite <- EB. assert (LB : k + length (firstn (Nat.max 1 n) (skipn k D)) <= length D) by (rewrite firstn_length, skipn_length; lia).
      apply write_inv; [exact I| |lia|exact P1| |exact LB|].
      * intros j k' J EJ. now apply (inv_writers s I i j ino k k' (fun e => J (eq_sym e)) E).
      * apply (inv_entry s I).
      * rewrite P3. now apply write_on.
Qed.
Lemma all_inv evs : forall s, inv s -> one_writer unpickle pickles evs s -> inv (occur_all evs s).
Proof. induction evs as [|ev evs IH]; intros s I O; [exact I|]. destruct O as (O1 & O2). cbn [Race.occur_all fold_left]. apply IH; [now apply occur_inv|exact O2]. Qed.
Lemma fresh_inv entry : (forall l, entry = Some l -> prefix l D) -> inv (fresh entry).
Proof.
  intros P. split; cbn [fresh dk_entry dk_inodes dk_next dk_procs].
  - intros _. destruct entry as [l|]; [now apply P|]. now exists D.
  - destruct entry; [|discriminate]. intros ino [= <-]. lia.
  - intros i. exact Logic.I.
  - intros i j ino k k' _ [=].
Qed.
Lemma race_outcome entry evs i x : (forall l, entry = Some l -> prefix l D) -> one_writer unpickle pickles evs (fresh entry) ->
  dk_procs (occur_all evs (fresh entry)) i = Returned x -> x = Own \/ x = FromCache r \/ x = Raised OSError.
Proof. intros P O E. pose proof (inv_procs _ (all_inv evs _ (fresh_inv entry P) O) i) as H. now rewrite E in H. Qed.
Lemma race_entry entry evs ino : (forall l, entry = Some l -> prefix l D) -> one_writer unpickle pickles evs (fresh entry) ->
  dk_entry (occur_all evs (fresh entry)) = Some ino -> prefix (dk_inodes (occur_all evs (fresh entry)) ino) D.
Proof. intros P O E. apply (inv_inodes _ (all_inv evs _ (fresh_inv entry P) O)). Qed.
End Same.

(* Testing and opening with nothing in between *)
Lemma together s i n m : dk_procs s i = Testing -> let s' := occur (Act i m) (occur (Act i n) s) in
  match dk_entry s with Some ino => dk_procs s' i = Reading ino [] | None => exists ino, dk_procs s' i = Writing ino 0 end.
Proof.
  intros E. cbv zeta. cbn [Race.occur]. rewrite E. destruct (dk_entry s) as [ino|] eqn:EE; cbn [goes dk_procs]; rewrite upd_same.
  - cbn [goes dk_entry]. rewrite EE. cbn [goes dk_procs]. now rewrite upd_same.
  - cbn [goes dk_entry]. rewrite EE. cbn [goes dk_procs]. rewrite upd_same. eauto.
Qed.

(* Every process ends. *)
Variable L : nat.
Hypothesis PL : forall i, length (pickles i) <= L.
Definition steps_left (p : at_step A) : nat :=
  match p with
  | Testing => 2 * L + 6
  | Opening => 2 * L + 5
  | Reading _ got => (L - length got) + L + 4
  | Unlinking => L + 3
  | Saving => L + 2
  | Writing _ k => L - k + 1
  | Returned _ | Dead => 0
  end.
Definition sizes (s : disk A) : Prop := forall ino, length (dk_inodes s ino) <= L.
Lemma occur_sizes ev s : sizes s -> sizes (occur ev s).
Proof.
  assert (U : forall f ino (l : list Z), (forall x, length (f x) <= L) -> length l <= L -> forall x, length (upd f ino l x) <= L).
  { intros f ino l F H x. destruct (Nat.eq_dec x ino) as [->|X]; [now rewrite upd_same|now rewrite upd_other]. }
  intros S. unfold sizes in *. destruct ev as [i n|i|]; cbn [Race.occur]; [| |exact S].
  2:{ destruct (dk_procs s i); exact S. }
  destruct (dk_procs s i) as [| |ino got| | |ino k|x|]; try exact S.
  - destruct (firstn _ _); [exact S|]. destruct (unpickle _); exact S.
  - destruct (dk_entry s); cbn [goes dk_inodes]; apply U; auto; cbn; lia.
  - destruct (firstn (Nat.max 1 n) (skipn k (pickles i))) as [|x b] eqn:EB; [exact S|]. cbn [goes dk_inodes]. apply U; [exact S|]. rewrite write_length, <- EB, firstn_length, skipn_length.
    assert (X : length (firstn (Nat.max 1 n) (skipn k (pickles i))) <> 0) by now rewrite EB. rewrite firstn_length, skipn_length in X. specialize (S ino). specialize (PL i). lia.
Qed.
Lemma occur_left ev s i : sizes s -> steps_left (dk_procs (occur ev s) i) <= steps_left (dk_procs s i) - match ev with Act j _ => if Nat.eq_dec j i then 1 else 0 | _ => 0 end.
Proof.
  intros S. destruct ev as [j n|j|]; cbn [Race.occur]; [| |cbn [dk_procs]; lia].
  2:{ destruct (dk_procs s j) eqn:E; cbn [goes dk_procs]; try lia;
        (destruct (Nat.eq_dec i j) as [->|X]; [rewrite upd_same; cbn; lia|rewrite upd_other by exact X; lia]). }
  destruct (Nat.eq_dec j i) as [->|X].
  2:{ assert (O : dk_procs (occur (Act j n) s) i = dk_procs s i); [|cbn [Race.occur] in O; rewrite O; lia].
      cbn [Race.occur]. assert (U : forall p, upd (dk_procs s) j p i = dk_procs s i) by (intros p; apply upd_other; auto).
      destruct (dk_procs s j) as [| |ino got| | |ino k|x|]; cbn [goes dk_procs]; auto.
      - destruct (firstn _ _); [apply U|]. destruct (unpickle _); apply U.
      - destruct (dk_entry s); apply U.
      - destruct (firstn _ _); apply U. }
  assert (U : forall p, upd (dk_procs s) i p i = p) by (intros p; apply upd_same).
  destruct (dk_procs s i) as [| |ino got| | |ino k|x|] eqn:E; cbn [goes dk_procs]; rewrite ?U; try (rewrite E; cbn [steps_left]; lia).
  - destruct (dk_entry s); cbn [steps_left length]; lia.
  - destruct (dk_entry s); cbn [steps_left length]; lia.
  - destruct (firstn (Nat.max 1 n) (skipn (length got) (dk_inodes s ino))) as [|x b] eqn:EB; cbn [goes dk_procs].
    + rewrite U. cbn [steps_left]. lia.
    + assert (X : length (firstn (Nat.max 1 n) (skipn (length got) (dk_inodes s ino))) <> 0) by now rewrite EB. rewrite firstn_length, skipn_length in X. specialize (S ino).
      destruct (unpickle _); cbn [goes dk_procs]; rewrite U; cbn [steps_left]; rewrite ?app_length; cbn [length]; lia.
  - cbn [steps_left]. lia.
  - destruct (dk_entry s); cbn [goes dk_procs]; rewrite U; cbn [steps_left]; lia.
  - destruct (firstn (Nat.max 1 n) (skipn k (pickles i))) as [|x b] eqn:EB; cbn [goes dk_procs]; rewrite U; cbn [steps_left]; [lia|].
    assert (X : length (firstn (Nat.max 1 n) (skipn k (pickles i))) <> 0) by now rewrite EB. rewrite firstn_length, skipn_length in X. specialize (PL i). cbn [length]. lia.
Qed.
Lemma all_left i evs : forall s, sizes s -> steps_left (dk_procs (occur_all evs s) i) <= steps_left (dk_procs s i) - turns i evs.
Proof.
  unfold turns. induction evs as [|ev evs IH]; intros s S; [cbn; lia|]. cbn [Race.occur_all fold_left].
  specialize (IH (occur ev s) (occur_sizes ev s S)). pose proof (occur_left ev s i S) as H. unfold Race.occur_all in IH.
  destruct ev as [j n|j|]; cbn [filter] in *; try lia. destruct (Nat.eq_dec j i) as [->|X]; [rewrite Nat.eqb_refl; cbn [length]; lia|].
  apply Nat.eqb_neq in X. rewrite X. lia.
Qed.
Lemma race_ends entry evs i : (forall l, entry = Some l -> length l <= L) -> 2 * L + 6 <= turns i evs ->
  dk_procs (occur_all evs (fresh entry)) i = Dead \/ exists x, dk_procs (occur_all evs (fresh entry)) i = Returned x.
Proof.
  intros E T. assert (S : sizes (@fresh A entry)) by (intros ino; destruct entry as [l|]; cbn; [now apply E|lia]).
  pose proof (all_left i evs (fresh entry) S) as H. cbn [fresh dk_procs steps_left] in H. fold (@fresh A entry) in H.
  destruct (dk_procs (occur_all evs (fresh entry)) i) as [| |ino got| | |ino k|x|]; cbn [steps_left] in H; try lia; eauto.
Qed.
End Race.

(* Without deaths, the entry is whole when nobody writes. *)
Lemma nth_write l k b p : nth_error (write_at l k b) p =
  if p <? k then (if p <? length l then nth_error l p else Some 0%Z) else if p <? k + length b then nth_error b (p - k) else nth_error l p.
Proof.
  unfold write_at. assert (LF : length (firstn k (l ++ repeat 0%Z (k - length l))) = k) by (rewrite firstn_length, app_length, repeat_length; lia).
  destruct (Nat.ltb_spec p k) as [H|H].
  - rewrite nth_error_app1 by lia.
    assert (E : forall (x : list Z) n q, q < n -> nth_error (firstn n x) q = nth_error x q).
    { induction x as [|a x IH]; intros [|n] [|q] Q; cbn; try reflexivity; try lia. apply IH. lia. }
    rewrite E by exact H. destruct (Nat.ltb_spec p (length l)) as [Q|Q]; [now apply nth_error_app1|]. rewrite nth_error_app2 by exact Q.
    rewrite (nth_error_nth' _ 0%Z) by (rewrite repeat_length; lia). f_equal. apply nth_repeat.
  - rewrite nth_error_app2, LF by lia. destruct (Nat.ltb_spec p (k + length b)) as [Q|Q]; [apply nth_error_app1; lia|].
    rewrite nth_error_app2 by lia. assert (E : forall (x : list Z) n q, nth_error (skipn n x) q = nth_error x (n + q)).
    { induction x as [|a x IH]; intros [|n] q; cbn; try reflexivity; [now destruct q|apply IH]. }
    rewrite E. f_equal. lia.
Qed.
Section Heal.
Context {A : Type}.
Variables (unpickle : list Z -> verdict A) (pickles : nat -> list Z) (D : list Z).
Hypothesis PI : forall i, pickles i = D.
Notation occur := (occur unpickle pickles).
Notation occur_all := (occur_all unpickle pickles).
Definition healing (s : disk A) : Prop :=
  sizes (length D) s /\ forall ino, dk_entry s = Some ino -> forall p, p < length D -> nth_error (dk_inodes s ino) p = nth_error D p \/ exists i k, dk_procs s i = Writing ino k /\ k <= p.
Lemma occur_healing ev s : (forall i, ev <> Die i) -> healing s -> healing (occur ev s).
Proof.
  intros ND (SZ & H). split; [apply occur_sizes; [intros; rewrite PI; lia|exact SZ]|]. intros ino EN p LP.
  assert (K : forall i q, (forall k, dk_procs s i <> Writing ino k) -> (exists j k, dk_procs s j = Writing ino k /\ k <= p) -> exists j k, upd (dk_procs s) i q j = Writing ino k /\ k <= p).
  { intros i q N (j & k & J & Q). exists j, k. split; [|exact Q]. rewrite upd_other; [exact J|]. intros ->. now apply (N k). }
  destruct ev as [i n|i|]; [|now destruct (ND i)|discriminate EN]. cbn [Race.occur] in EN |- *.
  destruct (dk_procs s i) as [| |io got| | |io k|x|] eqn:E.
  - cbn [goes dk_entry dk_inodes dk_procs] in *. destruct (H ino EN p LP) as [X|X]; [now left|right]. apply K; [now rewrite E|exact X].
  - cbn [goes dk_entry dk_inodes dk_procs] in *. destruct (H ino EN p LP) as [X|X]; [now left|right]. apply K; [now rewrite E|exact X].
  - destruct (firstn (Nat.max 1 n) (skipn (length got) (dk_inodes s io))) as [|x b]; [|destruct (unpickle (got ++ x :: b))];
      cbn [goes dk_entry dk_inodes dk_procs] in *; (destruct (H ino EN p LP) as [X|X]; [now left|right]; apply K; [now rewrite E|exact X]).
  - cbn [goes dk_entry] in EN. discriminate.
  - destruct (dk_entry s) as [io|] eqn:EE; cbn [goes dk_entry dk_inodes dk_procs] in *.
    + injection EN as <-. right. exists i, 0. rewrite upd_same. split; [reflexivity|lia].
    + injection EN as <-. right. exists i, 0. rewrite upd_same. split; [reflexivity|lia].
  - rewrite PI in *. destruct (firstn (Nat.max 1 n) (skipn k D)) as [|x b] eqn:EB; cbn [goes dk_entry dk_inodes dk_procs] in *.
    + destruct (H ino EN p LP) as [X|(j & k' & J & Q)]; [now left|right]. exists j, k'. split; [|exact Q]. rewrite upd_other; [exact J|]. intros ->. rewrite E in J. injection J as -> ->.
      assert (length (firstn (Nat.max 1 n) (skipn k' D)) = 0) as Z0 by now rewrite EB. rewrite firstn_length, skipn_length in Z0. lia.
    + destruct (Nat.eq_dec ino io) as [->|NI].
      * rewrite upd_same. rewrite nth_write. destruct (Nat.lt_ge_cases p k) as [LK|LK].
        -- replace (p <? k) with true by (symmetry; apply Nat.ltb_lt; lia). destruct (H io EN p LP) as [X|(j & k' & J & Q)].
           ++ left. assert (p < length (dk_inodes s io)) by (apply nth_error_Some; rewrite X; apply nth_error_Some; exact LP).
              replace (p <? length (dk_inodes s io)) with true by (symmetry; now apply Nat.ltb_lt). exact X.
           ++ right. exists j, k'. split; [|exact Q]. rewrite upd_other; [exact J|]. intros ->. rewrite E in J. injection J as ->. lia.
        -- replace (p <? k) with false by (symmetry; apply Nat.ltb_ge; lia). destruct (Nat.lt_ge_cases p (k + length (x :: b))) as [LB|LB].
           ++ left. replace (p <? k + length (x :: b)) with true by (symmetry; now apply Nat.ltb_lt). rewrite <- EB.
              assert (LB' : p - k < length (firstn (Nat.max 1 n) (skipn k D))) by (rewrite EB; lia).
              rewrite <- (firstn_skipn k D) at 2. rewrite nth_error_app2 by (rewrite firstn_length; lia). rewrite firstn_length, Nat.min_l by lia.
              rewrite <- (firstn_skipn (Nat.max 1 n) (skipn k D)) at 2. now rewrite nth_error_app1.
           ++ right. exists i, (k + length (x :: b)). rewrite upd_same. split; [reflexivity|exact LB].
      * rewrite upd_other by exact NI. destruct (H ino EN p LP) as [X|X]; [now left|right]. apply K; [|exact X]. intros k' E'. rewrite E in E'. injection E' as -> ->. now apply NI.
  - exact (H ino EN p LP).
  - exact (H ino EN p LP).
Qed.
Lemma race_heals entry evs ino : (entry = None \/ entry = Some D) -> (forall i, ~ In (Die i) evs) -> let s := occur_all evs (fresh entry) in
  (forall i k, dk_procs s i <> Writing ino k) -> dk_entry s = Some ino -> dk_inodes s ino = D.
Proof.
  intros E ND. cbv zeta. assert (B : healing (@fresh A entry)).
  { split; [intros ino'; destruct E as [->| ->]; cbn; lia|]. intros ino' EN p P. destruct E as [->| ->]; [discriminate EN|]. now left. }
  revert ND B. generalize (@fresh A entry). induction evs as [|ev evs IH]; intros s ND B.
  - cbn [Race.occur_all fold_left]. intros NW EN. destruct B as (SZ & H). assert (P : forall p, p < length D -> nth_error (dk_inodes s ino) p = nth_error D p).
    { intros p P. destruct (H ino EN p P) as [X|(i & k & X & _)]; [exact X|]. now destruct (NW i k). }
    specialize (SZ ino). revert P SZ. generalize (dk_inodes s ino). clear. induction D as [|x l IH]; intros [|y m] P SZ; cbn in *; try lia; [reflexivity| |].
    + specialize (P 0 ltac:(lia)). discriminate.
    + f_equal; [specialize (P 0 ltac:(lia)); now injection P|]. apply IH; [|lia]. intros p Q. apply (P (S p)). lia.
  - cbn [Race.occur_all fold_left]. apply IH; [intros i I; apply (ND i); now right|]. apply occur_healing; [|exact B]. intros i ->. apply (ND i). now left.
Qed.
End Heal.
