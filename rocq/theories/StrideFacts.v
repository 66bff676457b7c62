(* Catalogs with negative strides. *)
From Coq Require Import ZArith List Bool Znumtheory Lia ZifyBool ZifyNat.
From Verif Require Import Py Util Catalog PyFacts.
Import ListNotations.
Open Scope Z_scope.

Lemma mod_zero_divide a d : d <> 0 -> a mod d = 0 <-> (d | a).
Proof. intros H. split; [now apply Z.mod_divide|now apply Z.mod_divide]. Qed.

Lemma back_range kmin kmax d : d < 0 -> kmin <= kmax -> range_list (mk_range kmin (kmax + 1) d) = [].
Proof.
  intros D L. unfold range_list. replace (Z.to_nat (range_len (mk_range kmin (kmax + 1) d))) with 0%nat; [reflexivity|].
  unfold range_len. cbn [r_start r_stop r_step]. destruct (0 <? d) eqn:E1; [lia|]. destruct (d <? 0) eqn:E2; [|lia].
  destruct (kmax + 1 <? kmin) eqn:E3; [lia|reflexivity].
Qed.

Lemma stride_negative kmin kmax d v vs : d < 0 ->
  (kmin <= kmax /\ (d | kmax - kmin) ->
   exists c, regular_constant_catalog kmin kmax d v = Ok c /\ cat1_iter c = [] /\
     (exists n, 0 <= n /\ kmax = kmin - n * d /\ cat1_len c = 1 - n) /\
     (forall k, cat1_mem c k = true <-> kmin <= k <= kmax /\ (d | k - kmin)) /\
     (forall k, cat1_get c k = if cat1_mem c k then Ok v else Err KeyError)) /\
  (~ (kmin <= kmax /\ (d | kmax - kmin)) -> regular_constant_catalog kmin kmax d v = Err ValueError) /\
  ((kmax = kmin /\ zlen vs = 1) \/ (kmax = kmin - d /\ vs = []) ->
   exists c, regular_catalog kmin kmax d vs = Ok c /\ cat1_iter c = [] /\ cat1_len c = zlen vs /\
     (forall k, cat1_mem c k = true <-> k = kmin \/ k = kmax) /\
     (forall k, cat1_get c k = if negb (cat1_mem c k) then Err KeyError else match vs with u :: _ => Ok u | [] => Err IndexError end)) /\
  (~ ((kmax = kmin /\ zlen vs = 1) \/ (kmax = kmin - d /\ vs = [])) -> regular_catalog kmin kmax d vs = Err ValueError).
Proof.
  intros D. assert (D0 : d <> 0) by lia. assert (PM : forall a, py_mod a d = Ok (a mod d)).
  { intros a. unfold py_mod. destruct (d =? 0) eqn:E; [lia|reflexivity]. }
  assert (MEM : forall k, ((kmin <=? k) && (k <=? kmax)) && ((k - kmin) mod d =? 0) = true <-> kmin <= k <= kmax /\ (d | k - kmin)).
  { intros k. rewrite <- (mod_zero_divide (k - kmin) d D0). lia. }
  split; [|split; [|split]].
  - intros (L & DV). unfold regular_constant_catalog. rewrite PM. destruct (kmax <? kmin) eqn:E; [lia|]. cbn [bind].
    rewrite (proj2 (mod_zero_divide _ d D0) DV). cbn [Z.eqb negb]. eexists. split; [reflexivity|]. split; [now apply back_range|].
    split; [|split; [exact MEM|reflexivity]]. destruct DV as (q & Q). exists (- q). cbn [cat1_len].
    split; [nia|]. split; [nia|]. assert (QD : (kmax - kmin) / d = q) by (rewrite Q; apply Z.div_mul; lia). lia.
  - intros N. unfold regular_constant_catalog. rewrite PM. destruct (kmax <? kmin) eqn:E; [reflexivity|]. cbn [bind].
    destruct ((kmax - kmin) mod d =? 0) eqn:E2; [|reflexivity]. exfalso. apply N. split; [lia|]. apply mod_zero_divide; lia.
  - intros C. assert (exists n, 0 <= n /\ kmax = kmin - n * d /\ zlen vs = 1 - n /\ (n = 0 \/ n = 1)) as (n & N0 & KM & LN & N1).
    { destruct C as [(-> & L)|(-> & ->)]; [exists 0|exists 1; change (zlen (@nil Z)) with 0]; lia. }
    unfold regular_catalog. rewrite PM. destruct (kmax <? kmin) eqn:E; [nia|]. cbn [bind].
    replace (kmax - kmin) with ((- n) * d) by lia. rewrite Z.mod_mul, Z.div_mul by lia. cbn [Z.eqb negb].
    destruct (1 + - n =? zlen vs) eqn:E2; [|lia]. cbn [negb]. eexists. split; [reflexivity|]. split; [apply back_range; lia|]. split; [reflexivity|].
    assert (MK : forall k, cat1_mem (CRegular kmin kmax d vs) k = true <-> k = kmin \/ k = kmax).
    { intros k. cbn [cat1_mem]. rewrite MEM. split.
      - intros (R & (q & Q)). assert (q = 0 \/ q = -1) by (destruct N1 as [-> | ->]; nia). lia.
      - intros [-> | ->]; (split; [lia|]); [exists 0; lia|exists (- n); lia]. }
    split; [exact MK|]. intros k. specialize (MK k). cbn [cat1_mem] in MK. cbn [cat1_get cat1_mem].
    destruct ((kmin <=? k) && (k <=? kmax)) eqn:R; cbn in *; [|reflexivity].
    destruct ((k - kmin) mod d =? 0) eqn:M; cbn in *; [|reflexivity].
    destruct (proj1 MK eq_refl) as [-> | ->].
    + replace (kmin - kmin) with 0 by lia. rewrite Z.div_0_l by lia. destruct vs; reflexivity.
    + replace (kmax - kmin) with ((- n) * d) by lia. rewrite Z.div_mul by lia. destruct C as [(-> & L)|(-> & ->)].
      * assert (n = 0) as -> by lia. destruct vs; reflexivity.
      * assert (n = 1) as -> by (cbn in LN; lia). reflexivity.
  - intros N. unfold regular_catalog. rewrite PM. destruct (kmax <? kmin) eqn:E; [reflexivity|]. cbn [bind].
    destruct ((kmax - kmin) mod d =? 0) eqn:E2; [|reflexivity]. cbn [negb]. destruct (1 + (kmax - kmin) / d =? zlen vs) eqn:E3; [|reflexivity]. exfalso. apply N.
    assert (DV : (d | kmax - kmin)) by (apply mod_zero_divide; lia). destruct DV as (q & Q). rewrite Q, Z.div_mul in E3 by lia.
    pose proof (zlen_nonneg vs). assert (q <= 0) by nia. assert (q = 0 \/ q = -1) as [-> | ->] by lia.
    + left. lia.
    + right. split; [lia|]. destruct vs as [|u vs]; [reflexivity|]. unfold zlen in *. cbn [length] in E3. lia.
Qed.
