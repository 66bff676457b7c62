(* Proofs about a SortedFrozenSet together with another collection. *)
From Coq Require Import ZArith List Bool Lia Sorted ZifyBool.
From Verif Require Import Py PyFacts Util Spec_Util UtilFacts Mixed Spec_Mixed.
Import ListNotations.
Open Scope Z_scope.

Lemma sorted_NoDup (s : list Z) : StronglySorted Z.lt s -> NoDup s.
Proof.
  induction 1 as [|x s S IH F]; constructor; auto. intros I. rewrite Forall_forall in F. specialize (F x I). lia.
Qed.
Lemma coll_NoDup c : coll_ok c -> is_set c = true -> NoDup (items_of c).
Proof. destruct c; cbn; intros K H; try discriminate; auto. now apply sorted_NoDup. Qed.
Lemma coll_mem_spec c v : coll_ok c -> coll_mem c v = true <-> In v (items_of c).
Proof. destruct c; cbn [coll_mem items_of coll_ok]; intros K; [now apply sfs_mem_spec| | |]; apply zmem_In. Qed.
Lemma as_set_ok c : coll_ok c -> coll_ok (as_set c) /\ is_set (as_set c) = true /\ forall v, In v (items_of (as_set c)) <-> In v (items_of c).
Proof.
  intros K. unfold as_set. destruct (is_set c) eqn:E; [split; [exact K|]; split; [exact E|tauto]|].
  split; [apply sorted_set_sorted|]. split; [reflexivity|]. intros v. cbn [items_of]. unfold sfs_new. now rewrite sorted_set_In.
Qed.

Lemma m_and_In s c v : StronglySorted Z.lt s -> In v (m_and s c) <-> In v s /\ In v (items_of c).
Proof. intros S. unfold m_and, sfs_new. rewrite sorted_set_In, filter_In, sfs_mem_spec by auto. tauto. Qed.
Lemma m_or_In s c v : In v (m_or s c) <-> In v s \/ In v (items_of c).
Proof. unfold m_or, sfs_new. rewrite sorted_set_In, in_app_iff. tauto. Qed.
Lemma negb_not (b : bool) (P : Prop) : (b = true <-> P) -> negb b = true <-> ~ P.
Proof. destruct b; cbn; intuition congruence. Qed.
Lemma m_sub_In s c v : coll_ok c -> In v (m_sub s c) <-> In v s /\ ~ In v (items_of c).
Proof.
  intros K. destruct (as_set_ok c K) as (K' & _ & I). unfold m_sub, sfs_new. rewrite sorted_set_In, filter_In.
  rewrite (negb_not _ _ (coll_mem_spec (as_set c) v K')), I. tauto.
Qed.
Lemma m_rsub_In s c v : StronglySorted Z.lt s -> coll_ok c -> In v (m_rsub s c) <-> In v (items_of c) /\ ~ In v s.
Proof.
  intros S K. destruct (as_set_ok c K) as (K' & _ & I). unfold m_rsub, sfs_new. rewrite sorted_set_In, filter_In.
  rewrite (negb_not _ _ (sfs_mem_spec s v S)), I. tauto.
Qed.
Lemma m_xor_In s c v : StronglySorted Z.lt s -> coll_ok c ->
  In v (m_xor s c) <-> (In v s /\ ~ In v (items_of c)) \/ (In v (items_of c) /\ ~ In v s).
Proof.
  intros S K. destruct (as_set_ok c K) as (K' & _ & I). unfold m_xor. cbv zeta. rewrite m_or_In, (m_sub_In s (as_set c) v K'), I.
  cbn [items_of].
  assert (B : In v (match as_set c with CSorted t => m_sub t (CSorted s) | _ => m_rsub s (as_set c) end) <-> In v (items_of c) /\ ~ In v s).
  { rewrite <- I. destruct (as_set c) as [t|t|t|t] eqn:E; apply (m_rsub_In s _ v S K'). }
  rewrite B. tauto.
Qed.
Lemma m_results s c : StronglySorted Z.lt (m_and s c) /\ StronglySorted Z.lt (m_or s c) /\ StronglySorted Z.lt (m_sub s c) /\
  StronglySorted Z.lt (m_rsub s c) /\ StronglySorted Z.lt (m_xor s c).
Proof. repeat apply conj; apply sorted_set_sorted. Qed.

(* --- the operators --- *)

Lemma set_operator_combines method reflected P :
  (forall s c, StronglySorted Z.lt (method s c)) -> (forall s c, StronglySorted Z.lt (reflected s c)) ->
  (forall s c v, StronglySorted Z.lt s -> coll_ok c -> In v (method s c) <-> P (In v s) (In v (items_of c))) ->
  (forall s c v, StronglySorted Z.lt s -> coll_ok c -> In v (reflected s c) <-> P (In v (items_of c)) (In v s)) ->
  combines (set_operator method reflected) P.
Proof.
  intros S1 S2 H1 H2 a b Ka Kb D.
  destruct a as [s|l|l|l]; [eexists; split; [reflexivity|]; split; [apply S1|]; intros v; now apply H1| | |];
  (destruct D as [(s & D)|(s & ->)]; [discriminate|]; eexists; split; [reflexivity|]; split; [apply S2|]; intros v; now apply (H2 s)).
Qed.
Lemma operators_combine :
  combines coll_and and /\ combines coll_or or /\ combines coll_sub (fun p q => p /\ ~ q) /\
  combines coll_xor (fun p q => (p /\ ~ q) \/ (q /\ ~ p)).
Proof.
  split; [|split; [|split]]; apply set_operator_combines; try (intros s c; apply (m_results s c)); intros s c v S K.
  - now apply m_and_In. - rewrite m_and_In by auto. tauto.
  - apply m_or_In. - rewrite m_or_In. tauto.
  - now apply m_sub_In. - now apply m_rsub_In.
  - now apply m_xor_In. - rewrite m_xor_In by auto. tauto.
Qed.

(* --- comparisons --- *)

Lemma incl_length (a b : list Z) : NoDup a -> incl a b -> zlen a <= zlen b.
Proof. intros N I. pose proof (NoDup_incl_length N I). unfold zlen. lia. Qed.
Lemma incl_equal (a b : list Z) : NoDup a -> NoDup b -> incl a b -> zlen b <= zlen a -> incl b a.
Proof. intros N N' I L. apply (NoDup_length_incl N); [unfold zlen in L; lia|exact I]. Qed.
Lemma m_le_spec s c : StronglySorted Z.lt s -> coll_ok c -> is_set c = true ->
  exists r, m_le s c = Some r /\ (r = true <-> incl s (items_of c)).
Proof.
  intros S K E. unfold m_le. rewrite E. eexists. split; [reflexivity|]. destruct (Z.ltb_spec (zlen (items_of c)) (zlen s)) as [L|L].
  - split; [discriminate|]. intros I. pose proof (incl_length s (items_of c) (sorted_NoDup s S) I). lia.
  - rewrite forallb_forall. split; intros H v I; now apply (coll_mem_spec c v K), H.
Qed.
Lemma m_ge_spec s c : StronglySorted Z.lt s -> coll_ok c -> is_set c = true ->
  exists r, m_ge s c = Some r /\ (r = true <-> incl (items_of c) s).
Proof.
  intros S K E. unfold m_ge. rewrite E. eexists. split; [reflexivity|]. destruct (Z.ltb_spec (zlen s) (zlen (items_of c))) as [L|L].
  - split; [discriminate|]. intros I. pose proof (incl_length (items_of c) s (coll_NoDup c K E) I). lia.
  - rewrite forallb_forall. split; intros H v I; now apply (sfs_mem_spec s v S), H.
Qed.
Lemma proper (a b : list Z) : NoDup a -> NoDup b -> zlen a < zlen b -> ~ incl b a.
Proof. intros N N' L I. pose proof (incl_length b a N' I). lia. Qed.
Lemma m_lt_spec s c : StronglySorted Z.lt s -> coll_ok c -> is_set c = true ->
  exists r, m_lt s c = Some r /\ (r = true <-> incl s (items_of c) /\ ~ incl (items_of c) s).
Proof.
  intros S K E. pose proof (sorted_NoDup s S). pose proof (coll_NoDup c K E). unfold m_lt. rewrite E.
  destruct (Z.ltb_spec (zlen s) (zlen (items_of c))) as [L|L].
  - destruct (m_le_spec s c S K E) as (r & -> & R). exists r. split; [reflexivity|]. rewrite R.
    pose proof (proper s (items_of c)). intuition.
  - exists false. split; [reflexivity|]. split; [discriminate|]. intros (I & N). exfalso. apply N. now apply incl_equal.
Qed.
Lemma m_gt_spec s c : StronglySorted Z.lt s -> coll_ok c -> is_set c = true ->
  exists r, m_gt s c = Some r /\ (r = true <-> incl (items_of c) s /\ ~ incl s (items_of c)).
Proof.
  intros S K E. pose proof (sorted_NoDup s S). pose proof (coll_NoDup c K E). unfold m_gt. rewrite E.
  destruct (Z.ltb_spec (zlen (items_of c)) (zlen s)) as [L|L].
  - destruct (m_ge_spec s c S K E) as (r & -> & R). exists r. split; [reflexivity|]. rewrite R.
    pose proof (proper (items_of c) s). intuition.
  - exists false. split; [reflexivity|]. split; [discriminate|]. intros (I & N). exfalso. apply N. now apply incl_equal.
Qed.

Lemma comparison_compares method reflected P :
  (forall s c, StronglySorted Z.lt s -> coll_ok c -> is_set c = true -> exists r, method s c = Some r /\ (r = true <-> P s (items_of c))) ->
  (forall s c, StronglySorted Z.lt s -> coll_ok c -> is_set c = true -> exists r, reflected s c = Some r /\ (r = true <-> P (items_of c) s)) ->
  (forall s c, is_set c = false -> method s c = None) -> (forall s c, is_set c = false -> reflected s c = None) ->
  compares (comparison method reflected) P.
Proof.
  intros H1 H2 N1 N2 a b Ka Kb D. unfold comparison. destruct a as [s|l|l|l].
  - split.
    + intros _ E. destruct (H1 s b Ka Kb E) as (r & -> & R). exists r. auto.
    + intros [E|E]; [discriminate|]. now rewrite N1.
  - destruct D as [(s & D)|(s & ->)]; [discriminate|]. split.
    + intros E _. destruct (H2 s (CSet l) Kb Ka E) as (r & -> & R). exists r. auto.
    + intros [E|E]; discriminate.
  - destruct D as [(s & D)|(s & ->)]; [discriminate|]. split; [discriminate|]. intros _. now rewrite N2.
  - destruct D as [(s & D)|(s & ->)]; [discriminate|]. split; [discriminate|]. intros _. now rewrite N2.
Qed.
Lemma comparisons_compare :
  compares coll_le (fun a b => incl a b) /\ compares coll_ge (fun a b => incl b a) /\
  compares coll_lt (fun a b => incl a b /\ ~ incl b a) /\ compares coll_gt (fun a b => incl b a /\ ~ incl a b).
Proof.
  split; [|split; [|split]]; apply comparison_compares; first
    [exact m_le_spec|exact m_ge_spec|exact m_lt_spec|exact m_gt_spec|intros s c E; unfold m_le, m_ge, m_lt, m_gt; now rewrite E].
Qed.

Lemma equality_outcome a b : coll_ok a -> coll_ok b -> sorted_coll a \/ sorted_coll b ->
  exists r, coll_eq a b = Ok r /\ (r = true <-> sorted_coll a /\ sorted_coll b /\ items_of a = items_of b).
Proof.
  intros Ka Kb D. destruct a as [s|l|l|l].
  - eexists. split; [reflexivity|]. destruct b as [t|l|l|l]; cbn [m_eq]; [rewrite sfs_eq_spec; split; [intros ->; repeat split; eexists; reflexivity|tauto]| | |];
    (split; [discriminate|intros (_ & (x & E) & _); discriminate]).
  - destruct D as [(x & E)|(t & ->)]; [discriminate|]. exists false. split; [reflexivity|]. split; [discriminate|]. intros ((x & E) & _). discriminate.
  - destruct D as [(x & E)|(t & ->)]; [discriminate|]. exists false. split; [reflexivity|]. split; [discriminate|]. intros ((x & E) & _). discriminate.
  - destruct D as [(x & E)|(t & ->)]; [discriminate|]. exists false. split; [reflexivity|]. split; [discriminate|]. intros ((x & E) & _). discriminate.
Qed.
Lemma isdisjoint_spec s c : StronglySorted Z.lt s -> coll_isdisjoint s c = true <-> forall v, In v s -> ~ In v (items_of c).
Proof.
  intros S. unfold coll_isdisjoint. rewrite negb_true_iff. split.
  - intros H v I J. assert (existsb (sfs_mem s) (items_of c) = true) by (apply existsb_exists; exists v; split; [exact J|now apply sfs_mem_spec]). congruence.
  - intros H. destruct (existsb (sfs_mem s) (items_of c)) eqn:E; [|reflexivity]. apply existsb_exists in E. destruct E as (v & I & M).
    exfalso. apply (H v); [now apply sfs_mem_spec|exact I].
Qed.
Lemma add_outcome a b : sorted_coll a \/ sorted_coll b ->
  (sorted_coll a -> sorted_coll b -> exists s, coll_add a b = Ok s /\ StronglySorted Z.lt s /\
     forall v, In v s <-> In v (items_of a) \/ In v (items_of b)) /\
  (sorted_coll a -> ~ sorted_coll b -> coll_add a b = Err AttributeError) /\
  (~ sorted_coll a -> coll_add a b = Err TypeError).
Proof.
  intros D. split; [|split].
  - intros (s & ->) (t & ->). exists (sfs_add s t). split; [reflexivity|]. split; [apply sorted_set_sorted|].
    intros v. unfold sfs_add, sfs_new. now rewrite sorted_set_In, in_app_iff.
  - intros (s & ->) N. destruct b as [t|l|l|l]; try reflexivity. exfalso. apply N. now exists t.
  - intros N. destruct a as [s|l|l|l]; try reflexivity. exfalso. apply N. now exists s.
Qed.
