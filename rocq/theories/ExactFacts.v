(* What the operations give where they do not give what they should. *)
From Coq Require Import ZArith List Bool Lia ZifyBool ZifyNat.
From Verif Require Import Py PyFloat IbmFloat PyFacts Util UtilFacts Spec_Ibm FloatFacts RoundFacts IbmFacts IbmArith.
Import ListNotations.
Open Scope Z_scope.

Lemma eq_different_signs x y : word_ok x -> word_ok y -> (w0 x <? 128) <> (w0 y <? 128) -> ibm_eq x y = Ok false.
Proof.
  intros Hx Hy S. unfold ibm_eq. destruct (word_eqb x y) eqn:W; [apply word_eqb_spec in W; congruence|].
  rewrite !signbit_spec by auto. destruct (w0 x <? 128), (w0 y <? 128); cbn; congruence.
Qed.
Lemma eq_not_tiny x y : word_ok x -> word_ok y -> ~ (tiny x /\ tiny y) ->
  exists b, ibm_eq x y = Ok b /\ (b = true <-> ibm_units x = ibm_units y /\ (w0 x <? 128) = (w0 y <? 128)).
Proof.
  intros Hx Hy T. destruct (ibm_eq_spec x y Hx Hy) as (b & E & F & G). exists b. split; [exact E|].
  destruct (Bool.bool_dec (w0 x <? 128) (w0 y <? 128)) as [S|S].
  - split.
    + intros B. split; [|exact S]. destruct (F B) as [U|U]; tauto.
    + intros (U & _). destruct (G U) as [B|B]; [exact B|tauto].
  - assert (Q := eq_different_signs x y Hx Hy S). rewrite Q in E. injection E as <-. split; [discriminate|tauto].
Qed.
Lemma eq_tiny x y : word_ok x -> word_ok y -> tiny x -> tiny y -> ibm_E x <= ibm_E y ->
  exists b, ibm_eq x y = Ok b /\ (b = true <-> (w0 x <? 128) = (w0 y <? 128) /\ ibm_M x / 16 ^ (ibm_E y - ibm_E x) = ibm_M y).
Proof.
  intros Hx Hy Tx Ty L. destruct (Bool.bool_dec (w0 x <? 128) (w0 y <? 128)) as [S|S].
  2: { exists false. split; [now apply eq_different_signs|]. split; [discriminate|tauto]. }
  unfold ibm_eq. destruct (word_eqb x y) eqn:W.
  { apply word_eqb_spec in W. subst y. exists true. split; [reflexivity|]. split; [|reflexivity]. intros _. split; [reflexivity|].
    now rewrite Z.sub_diag, Z.pow_0_r, Z.div_1_r. }
  rewrite !signbit_spec, S, eqb_reflx by auto. cbn [negb].
  destruct (try_normalize_spec x Hx) as (nx & Nx & _ & _ & _ & Qx & _). destruct (try_normalize_spec y Hy) as (ny & Ny & _ & _ & _ & Qy & _).
  rewrite Nx, Ny, (Qx Tx), (Qy Ty). cbn [bind].
  assert (SX : is_subnormal x = true).
  { destruct (is_subnormal x) eqn:Q; [reflexivity|]. apply is_subnormal_spec in Q; [|exact Hx]. now apply canonical_not_tiny in Q. }
  rewrite SX. cbn [orb negb]. rewrite !exp16_spec, !int_mantissa_spec by auto.
  pose proof (E_range x). pose proof (E_range y).
  destruct (ibm_E x - 64 <? ibm_E y - 64) eqn:C.
  - replace (ibm_E x - 64 + (ibm_E y - 64 - (ibm_E x - 64))) with (ibm_E y - 64) by lia. rewrite Z.ltb_irrefl, Z.eqb_refl. cbn [negb].
    eexists. split; [reflexivity|]. rewrite Z.shiftr_div_pow2 by lia. replace (ibm_E y - 64 - (ibm_E x - 64)) with (ibm_E y - ibm_E x) by lia.
    rewrite <- pow16 by lia. rewrite Z.eqb_eq. tauto.
  - assert (EE : ibm_E y = ibm_E x) by lia. rewrite EE, Z.ltb_irrefl, Z.eqb_refl. cbn [negb]. eexists. split; [reflexivity|].
    rewrite Z.sub_diag, Z.pow_0_r, Z.div_1_r, Z.eqb_eq. tauto.
Qed.

Lemma eq_symmetric x y : word_ok x -> word_ok y -> ibm_eq x y = ibm_eq y x.
Proof.
  intros Hx Hy.
  assert (D : (tiny x /\ tiny y) \/ ~ (tiny x /\ tiny y)).
  { destruct (normalize_spec x Hx) as [(_ & Tx)|(_ & _ & Tx & _)]; destruct (normalize_spec y Hy) as [(_ & Ty)|(_ & _ & Ty & _)]; tauto. }
  assert (K : forall b b', (b = true <-> b' = true) -> b = b') by (intros [] [] (P & Q); auto; symmetry; auto).
  destruct D as [(Tx & Ty)|N].
  - assert (SYM : forall u v, word_ok u -> word_ok v -> tiny u -> tiny v -> ibm_E u = ibm_E v -> ibm_eq u v = ibm_eq v u).
    { intros u v Hu Hv Tu Tv E. destruct (eq_tiny u v Hu Hv Tu Tv ltac:(lia)) as (b & E1 & F1).
      destruct (eq_tiny v u Hv Hu Tv Tu ltac:(lia)) as (b' & E2 & F2). rewrite E1, E2. f_equal. apply K. rewrite F1, F2.
      rewrite E, Z.sub_diag, Z.pow_0_r, !Z.div_1_r. intuition congruence. }
    destruct (Z.eq_dec (ibm_E x) (ibm_E y)) as [E|E]; [now apply SYM|].
    (* the larger exponent's mantissa is not shifted, whichever side it is on *)
    assert (GEN : forall u v, word_ok u -> word_ok v -> tiny u -> tiny v -> ibm_E u < ibm_E v -> ibm_eq v u = ibm_eq u v).
    { clear. intros u v Hu Hv Tu Tv L. destruct (eq_tiny u v Hu Hv Tu Tv ltac:(lia)) as (b & E1 & F1). rewrite E1.
      destruct (Bool.bool_dec (w0 v <? 128) (w0 u <? 128)) as [S|S].
      2: { rewrite eq_different_signs by auto. f_equal. destruct b; [|reflexivity]. exfalso. apply S. symmetry. now apply F1. }
      unfold ibm_eq. destruct (word_eqb v u) eqn:W; [apply word_eqb_spec in W; subst; lia|].
      rewrite !signbit_spec, S, eqb_reflx by auto. cbn [negb].
      destruct (try_normalize_spec u Hu) as (nu & Nu & _ & _ & _ & Qu & _). destruct (try_normalize_spec v Hv) as (nv & Nv & _ & _ & _ & Qv & _).
      rewrite Nu, Nv, (Qu Tu), (Qv Tv). cbn [bind].
      assert (SX : is_subnormal v = true).
      { destruct (is_subnormal v) eqn:Q; [reflexivity|]. apply is_subnormal_spec in Q; [|exact Hv]. now apply canonical_not_tiny in Q. }
      rewrite SX. cbn [orb negb]. rewrite !exp16_spec, !int_mantissa_spec by auto.
      pose proof (E_range u). pose proof (E_range v).
      replace (ibm_E v - 64 <? ibm_E u - 64) with false by lia. replace (ibm_E u - 64 <? ibm_E v - 64) with true by lia.
      replace (ibm_E u - 64 + (ibm_E v - 64 - (ibm_E u - 64))) with (ibm_E v - 64) by lia. rewrite Z.eqb_refl. cbn [negb].
      rewrite Z.shiftr_div_pow2 by lia. replace (ibm_E v - 64 - (ibm_E u - 64)) with (ibm_E v - ibm_E u) by lia.
      rewrite <- pow16 in * by lia. f_equal. destruct b.
      - assert (Q := proj1 F1 eq_refl). rewrite <- (proj2 Q). apply Z.eqb_refl.
      - apply Z.eqb_neq. intros Q. assert (false = true); [|discriminate]. apply F1. split; [congruence|]. now rewrite <- Q. }
    destruct (Z.lt_ge_cases (ibm_E x) (ibm_E y)) as [L|L]; [symmetry; now apply GEN|apply GEN; auto; lia].
  - destruct (eq_not_tiny x y Hx Hy N) as (b & E1 & F1). destruct (eq_not_tiny y x Hy Hx ltac:(tauto)) as (b' & E2 & F2).
    rewrite E1, E2. f_equal. apply K. rewrite F1, F2. intuition congruence.
Qed.

Lemma ceil_floor_exact w : word_ok w -> exists n, ibm_trunc w = Ok n /\ ibm_units w = n * unit + Z.rem (ibm_units w) unit /\
  ibm_ceil w = Ok (if w0 w <? 128 then n + 1 else n) /\ ibm_floor w = Ok (if w0 w <? 128 then n else n - 1).
Proof.
  intros Hw. exists (Z.quot (ibm_units w) unit). rewrite ibm_trunc_spec by auto. split; [reflexivity|].
  split; [pose proof (Z.quot_rem' (ibm_units w) unit); lia|].
  unfold ibm_ceil, ibm_floor. rewrite ibm_trunc_spec, signbit_spec by auto. cbn [bind]. destruct (w0 w <? 128); auto.
Qed.
Lemma ceil_floor_integral w n : word_ok w -> ibm_units w = n * unit ->
  ibm_ceil w = Ok (if w0 w <? 128 then n + 1 else n) /\ ibm_floor w = Ok (if w0 w <? 128 then n else n - 1).
Proof.
  intros Hw U. unfold ibm_ceil, ibm_floor. rewrite ibm_trunc_spec, signbit_spec, U by auto.
  assert (P : unit <> 0) by (unfold unit; lia). rewrite Z.quot_mul by exact P. cbn [bind]. destruct (w0 w <? 128); auto.
Qed.

Lemma one_shot l : make_sorted_distinct_sequence (ItIter l) SNone = Err RuntimeError.
Proof.
  unfold make_sorted_distinct_sequence. cbn [it_list it_list_again]. destruct l as [|x l]; [reflexivity|].
  destruct (is_sorted_spec (fun x => x) (x :: l) true true) as (b & E & _); [discriminate|]. rewrite E. cbn [bind]. destruct b; reflexivity.
Qed.
