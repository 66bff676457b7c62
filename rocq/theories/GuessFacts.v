(* Proofs about the decision of guess_encoding. *)
From Coq Require Import String ZArith List Bool Lia ZifyBool ZifyNat Permutation.
From Verif Require Import Py Util Text PyFacts Spec_Text TextFacts.
Import ListNotations.
Open Scope Z_scope.

(* the byte stands for a letter, digit, ':', '_', '-' or space *)
Lemma common_of_iff e x : supported e -> zmem x (common_of e) = true <-> common_in e x.
Proof.
  intros S. split; [now apply common_origin|]. intros (c & C & E).
  assert (F : Forall (fun c => In c COMMON_CHARS) [c]) by (constructor; [now apply common_iff|constructor]).
  pose proof (encode_common e [c] [x] S F E) as Q. inversion Q; subst. tauto.
Qed.

Lemma filter_split {A} (p : A -> bool) l :
  Permutation l (filter p l ++ filter (fun x => negb (p x)) l).
Proof.
  induction l as [|x l IH]; cbn; [constructor|]. destruct (p x); cbn.
  - now constructor.
  - rewrite IH at 1. apply Permutation_middle.
Qed.

Lemma half_iff e bs : supported e ->
  zlen bs <= 2 * count_if (fun x => zmem x (common_of e)) bs <-> at_least_half (common_in e) bs.
Proof.
  intros S. split.
  - intros H. exists (filter (fun x => zmem x (common_of e)) bs), (filter (fun x => negb (zmem x (common_of e))) bs).
    split; [apply filter_split|]. split; [|exact H].
    apply Forall_forall. intros x Hx. apply filter_In in Hx. now apply common_of_iff.
  - intros (l & m & P & F & H). rewrite (count_perm _ _ _ P), count_if_app, (count_if_all _ l).
    + pose proof (count_if_le (fun x => zmem x (common_of e)) m). lia.
    + intros x Hx. rewrite Forall_forall in F. apply common_of_iff; auto.
Qed.

Lemma guess_decides bs : bs <> [] -> ~ Forall (eq 0) bs ->
  let a := at_least_half (common_in ASCII) bs in let e := at_least_half (common_in EBCDIC) bs in
  (guess_encoding bs 1 2 = Some ASCII <-> a /\ ~ e) /\
  (guess_encoding bs 1 2 = Some EBCDIC <-> e /\ ~ a) /\
  (guess_encoding bs 1 2 = None <-> (a /\ e) \/ (~ a /\ ~ e)).
Proof.
  intros N Z0 a e. subst a e.
  rewrite <- (half_iff ASCII bs) by (solve [left; reflexivity | right; reflexivity]). rewrite <- (half_iff EBCDIC bs) by (solve [left; reflexivity | right; reflexivity]).
  unfold guess_encoding. cbn [common_of].
  assert (L : zlen bs =? 0 = false).
  { destruct bs as [|x bs]; [congruence|]. rewrite zlen_cons. pose proof (zlen_nonneg bs). lia. }
  rewrite L.
  assert (Q : count_if (fun b => b =? 0) bs =? zlen bs = false).
  { apply not_true_iff_false. intros Q. apply Z0. apply Z.eqb_eq in Q. clear -Q.
    induction bs as [|x bs IH]; constructor; unfold count_if in *; cbn [filter] in Q;
    pose proof (count_if_le (fun b => b =? 0) bs) as B; unfold count_if in B; destruct (x =? 0) eqn:E; rewrite ?zlen_cons in Q; try lia.
    apply IH. lia. }
  rewrite Q.
  set (x := count_if (fun b => zmem b COMMON_EBCDIC_CHARS) bs). set (y := count_if (fun b => zmem b COMMON_ASCII_CHARS) bs).
  destruct (x * 2 <? 1 * zlen bs) eqn:E1, (1 * zlen bs <=? y * 2) eqn:E2, (1 * zlen bs <=? x * 2) eqn:E3, (y * 2 <? 1 * zlen bs) eqn:E4;
  cbn [andb]; repeat split; intros; try discriminate; try lia; try reflexivity; try (exfalso; lia).
Qed.
