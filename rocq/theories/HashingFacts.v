(* Proofs for C141_hash and C142_hash: hash_for_file while the file grows, and with
   short reads. *)
From Coq Require Import String ZArith List Bool Lia ZifyBool ZifyNat.
From Verif Require Import Py PyFacts FileIO TextIO TextIOFacts Toolkit Cache CacheFacts Growing Spec_Growing GrowingFacts Spec_Pieces PiecesFacts Hashing.
Import ListNotations.
Open Scope list_scope.
Open Scope Z_scope.

Lemma is_chunks fuel : is (chunks_steps fuel) (on_file (read_chunks fuel)).
Proof.
  induction fuel as [|fuel IH]; [apply is_raise'|]. cbn [chunks_steps read_chunks]. apply is_on; [apply is_read|]. intros [|v b]; [apply is_ret'|].
  apply is_on; [exact IH|]. intros r. apply is_ret'.
Qed.
Lemma hash_alone args d q log : 0 <= q ->
  alone (hash_steps (S (length d)) args) (mk_world (mk_file d q) log) = on_file (hash_for_file args) (mk_world (mk_file d q) log).
Proof.
  intros Q. unfold hash_steps, hash_for_file. rewrite alone_bind. rewrite (proj1 (is_seek 0 (mk_world (mk_file d q) log) Q)).
  unfold on_file at 1. cbn [w_file]. unfold seek at 1. change (0 <? 0) with false. cbv beta iota zeta. cbn [f_data w_log]. rewrite alone_bind.
  rewrite (proj1 (is_chunks (S (length d)) (mk_world (mk_file d 0) log) ltac:(cbn; lia))). unfold on_file. cbn [w_file w_log]. unfold ibind at 1. unfold seek at 1. change (0 <? 0) with false. cbv beta iota zeta.
  unfold ibind at 1. cbn [f_data]. destruct (read_chunks (S (length d)) (mk_file d 0)) as [[b|y] f']; [|reflexivity]. cbn [sbind alone w_file w_log].
  unfold s_seek, ibind, tell, seek, ret. change (0 <? 0) with false. reflexivity.
Qed.

(* --- short reads: what is left of the steps, the number of the next read and the position --- *)
Fixpoint pieces_end {A} (d : list Z) (s : nat -> Z) (p : steps A) (i : nat) (q : Z) : res A * nat * Z :=
  match p with
  | Fin r => (r, i, q)
  | AskLength k => pieces_end d s (k (zlen d)) i q
  | AskPos k => pieces_end d s (k q) i q
  | MoveTo q k => pieces_end d s k i q
  | GetBytes n k => let b := firstn (Z.to_nat (s i)) (py_slice d q (q + n)) in pieces_end d s (k b) (S i) (q + zlen b)
  | Show _ _ k => pieces_end d s k i q
  end.
Lemma pieces_bind {A B} d s (m : steps A) (k : A -> steps B) : forall i q,
  pieces_end d s (sbind m k) i q = match pieces_end d s m i q with (Ok a, i', q') => pieces_end d s (k a) i' q' | (Err y, i', q') => (Err y, i', q') end.
Proof. induction m as [[a|y]|f IH|f IH|p f IH|n f IH|x y f IH]; intros i q; cbn [sbind pieces_end]; cbv zeta; auto. Qed.
Lemma pieces_fst {A} d s (m : steps A) : forall i q, piecemeal d s m i q = fst (fst (pieces_end d s m i q)).
Proof. induction m as [[a|y]|f IH|f IH|p f IH|n f IH|x y f IH]; intros i q; cbn [piecemeal pieces_end]; cbv zeta; auto. Qed.

Lemma chunks_pieces d s fuel : giving s -> forall i q, 0 <= q <= zlen d -> (length d < fuel + Z.to_nat q)%nat ->
  exists i', pieces_end d s (chunks_steps fuel) i q = (Ok (skipn (Z.to_nat q) d), i', zlen d).
Proof.
  intros G. assert (HB : 0 < HASH_BLOCK_SIZE) by reflexivity. induction fuel as [|fuel IH]; intros i q Q F; [unfold zlen in Q; lia|].
  cbn [chunks_steps]. unfold s_read. cbn [sbind pieces_end]. cbv zeta. generalize dependent HASH_BLOCK_SIZE. intros B HB.
  set (b := firstn (Z.to_nat (s i)) (py_slice d q (q + B))). specialize (G i).
  assert (EB : b = firstn (Nat.min (Z.to_nat (s i)) (Z.to_nat (q + B - q))) (skipn (Z.to_nat q) d)) by (unfold b, py_slice; apply firstn_firstn).
  assert (LB : length b = Nat.min (Nat.min (Z.to_nat (s i)) (Z.to_nat (q + B - q))) (length d - Z.to_nat q)) by (rewrite EB, firstn_length, skipn_length; reflexivity).
  assert (REST : b ++ skipn (Z.to_nat (q + zlen b)) d = skipn (Z.to_nat q) d).
  { rewrite Z.add_comm, <- skipn_plus by (try apply zlen_nonneg; lia). unfold zlen. rewrite Nat2Z.id, EB. apply firstn_skipn_length. }
  destruct b as [|v b'] eqn:Eb.
  - assert (q = zlen d) as -> by (cbn [length] in LB; unfold zlen in *; lia). cbn [pieces_end]. rewrite zlen_nil, Z.add_0_r. exists (S i). do 2 f_equal. f_equal.
    rewrite skipn_all2 by (unfold zlen; lia). reflexivity.
  - rewrite <- Eb in *. rewrite pieces_bind. destruct (IH (S i) (q + zlen (v :: b'))) as (i' & E).
    { rewrite <- Eb. unfold zlen in *. lia. } { rewrite <- Eb. rewrite Eb in LB |- *. unfold zlen in *. cbn [length] in *. lia. }
    rewrite <- Eb in *. rewrite E. cbn [pieces_end]. exists i'. now rewrite REST.
Qed.
Theorem hash_pieces d s args q i : giving s ->
  piecemeal d s (hash_steps (S (length d)) args) i q = fst (hash_for_file args (mk_file d q)).
Proof.
  intros G. rewrite hash_ok. cbn [fst f_data]. rewrite pieces_fst. unfold hash_steps, s_seek. change (0 <? 0) with false. cbn [sbind pieces_end]. rewrite pieces_bind.
  destruct (chunks_pieces d s (S (length d)) G i 0) as (i' & ->); [unfold zlen; lia|lia|]. cbn [sbind pieces_end fst]. reflexivity.
Qed.

(* --- growing files --- *)
Fixpoint grown_end {A} (d : nat -> list Z) (p : steps A) (i : nat) (q : Z) : res A * nat * Z :=
  match p with
  | Fin r => (r, i, q)
  | AskLength k => grown_end d (k (zlen (d i))) (S i) q
  | AskPos k => grown_end d (k q) (S i) q
  | MoveTo q k => grown_end d k (S i) q
  | GetBytes n k => let b := py_slice (d i) q (q + n) in grown_end d (k b) (S i) (q + zlen b)
  | Show _ _ k => grown_end d k (S i) q
  end.
Lemma grown_bind {A B} d (m : steps A) (k : A -> steps B) : forall i q,
  grown_end d (sbind m k) i q = match grown_end d m i q with (Ok a, i', q') => grown_end d (k a) i' q' | (Err y, i', q') => (Err y, i', q') end.
Proof. induction m as [[a|y]|f IH|f IH|p f IH|n f IH|x y f IH]; intros i q; cbn [sbind grown_end]; cbv zeta; auto. Qed.
Lemma grown_fst {A} d (m : steps A) : forall i q, meanwhile d m i q = fst (grown_end d m i q).
Proof. induction m as [[a|y]|f IH|f IH|p f IH|n f IH|x y f IH]; intros i q; cbn [meanwhile grown_end]; cbv zeta; auto. Qed.

Section Grown.
Variable d : nat -> list Z.
Hypothesis GR : growing d.
Lemma after_it i : forall j, (i <= j)%nat -> exists z, d j = d i ++ z.
Proof.
  intros j L. induction L as [|j L (z & IH)]; [exists []; now rewrite app_nil_r|]. destruct (GR j) as (z' & E). exists (z ++ z'). rewrite E, IH. now rewrite app_assoc.
Qed.
Lemma chunks_grown fuel : forall i q, 0 <= q <= zlen (d i) ->
  match grown_end d (chunks_steps fuel) i q with
  | (r, i', q') => (i <= i')%nat /\ (r = Err OutOfFuel /\ (fuel + Z.to_nat q <= length (d i'))%nat \/
                   exists j, (i <= j < i')%nat /\ r = Ok (skipn (Z.to_nat q) (d j)) /\ q' = zlen (d j)) end.
Proof.
  assert (HB : 0 < HASH_BLOCK_SIZE) by reflexivity. induction fuel as [|fuel IH]; intros i q Q.
  { cbn [chunks_steps grown_end]. split; [lia|]. left. split; [reflexivity|]. unfold zlen in Q. lia. }
  cbn [chunks_steps]. unfold s_read. cbn [sbind grown_end]. cbv zeta. generalize dependent HASH_BLOCK_SIZE. intros B HB.
  set (b := py_slice (d i) q (q + B)).
  assert (LB : length b = Nat.min (Z.to_nat (q + B - q)) (length (d i) - Z.to_nat q)) by (unfold b, py_slice; rewrite firstn_length, skipn_length; reflexivity).
  destruct b as [|v b'] eqn:Eb.
  - assert (q = zlen (d i)) as -> by (cbn [length] in LB; unfold zlen in *; lia). cbn [grown_end]. rewrite zlen_nil, Z.add_0_r. split; [lia|]. right. exists i. split; [lia|].
    split; [|reflexivity]. f_equal. rewrite skipn_all2 by (unfold zlen; lia). reflexivity.
  - rewrite <- Eb in *. rewrite grown_bind. destruct (GR i) as (z & EZ).
    assert (Q1 : 0 <= q + zlen b <= zlen (d (S i))) by (rewrite EZ, zlen_app; pose proof (zlen_nonneg z); unfold zlen in *; lia).
    assert (P1 : (1 <= length b)%nat) by (rewrite Eb; cbn [length]; lia).
    specialize (IH (S i) (q + zlen b) Q1). destruct (grown_end d (chunks_steps fuel) (S i) (q + zlen b)) as [[r i'] q']. destruct IH as (LI & [(-> & F)|(j & J & -> & ->)]).
    + split; [lia|]. left. split; [reflexivity|]. unfold zlen in F. lia.
    + cbn [grown_end]. split; [lia|]. right. exists j. split; [lia|]. split; [|reflexivity]. f_equal.
      destruct (after_it i j ltac:(lia)) as (w & EW). rewrite EW. rewrite Z.add_comm, <- skipn_plus by (try apply zlen_nonneg; lia).
      replace b with (firstn (length b) (skipn (Z.to_nat q) (d i ++ w))) at 1.
      { unfold zlen. rewrite Nat2Z.id. apply firstn_skipn. }
      rewrite skipn_app. replace (Z.to_nat q - length (d i))%nat with 0%nat by (unfold zlen in Q; lia). cbn [skipn]. rewrite firstn_app, skipn_length.
      replace (length b - (length (d i) - Z.to_nat q))%nat with 0%nat by lia. cbn [firstn]. rewrite app_nil_r.
      unfold b at 2, py_slice. rewrite LB. destruct (Nat.le_gt_cases (Z.to_nat (q + B - q)) (length (d i) - Z.to_nat q)) as [W|W]; [f_equal; lia|].
      rewrite !firstn_all2 by (rewrite skipn_length; lia). reflexivity.
Qed.
Theorem hash_grown fuel args q :
  let (r, m) := meanwhile d (hash_steps fuel args) 0 q in
  r <> Err OutOfFuel \/ (forall i, (length (d i) < fuel)%nat) ->
  exists j, (j <= m)%nat /\ forall q', r = fst (hash_for_file args (mk_file (d j) q')).
Proof.
  rewrite grown_fst. unfold hash_steps, s_seek. change (0 <? 0) with false. cbn [sbind grown_end]. rewrite grown_bind.
  pose proof (chunks_grown fuel 1 0 ltac:(unfold zlen; lia)) as C. destruct (grown_end d (chunks_steps fuel) 1 0) as [[r i'] q0]. destruct C as (LI & [(-> & F)|(j & J & -> & ->)]).
  - cbn [fst]. intros [N|N]; [now contradiction N|]. specialize (N i'). lia.
  - cbn [sbind grown_end fst]. intros _. exists j. split; [lia|]. intros q'. rewrite hash_ok. reflexivity.
Qed.
End Grown.
