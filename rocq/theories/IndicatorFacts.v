(* Proofs about the progress indicator. *)
From Coq Require Import String ZArith List Bool Sorted Lia ZifyBool.
From Verif Require Import Py PyFacts PyFloat Packing Spec_Packing FileIO Text Toolkit ToolkitFacts Spec_Segy Reader Spec_Ibm FloatFacts RoundFacts RoundUnique IbmNumberFacts IbmNumberProps
  Spec_Reader ReaderFacts OpenFacts Spec_Writer WriterFacts FieldTypesFacts CopyFacts Indicator.
Import ListNotations.
Local Open Scope string_scope.
Open Scope list_scope.
Open Scope Z_scope.

(* --- correct rounding keeps the order --- *)

Lemma unit_pos : 0 < unit.
Proof. unfold unit. lia. Qed.

Lemma rounds_times c N D r : 0 < c -> rounds_to N D r -> rounds_to (c * N) (c * D) r.
Proof.
  intros P (W & F & H). split; [exact W|]. split; [exact F|]. intros g Wg Fg. destruct (H g Wg Fg) as (A & B).
  replace (units r * (c * D) - c * N) with (c * (units r * D - N)) by ring. replace (units g * (c * D) - c * N) with (c * (units g * D - N)) by ring.
  rewrite !Z.abs_mul, (Z.abs_eq c) by lia. split; [nia|]. intros E. apply B. nia.
Qed.

Lemma rounds_mono N D r N' D' r' : 0 < D -> 0 < D' -> rounds_to N D r -> rounds_to N' D' r' -> N * D' <= N' * D -> units r <= units r'.
Proof.
  intros P P' R R' L. destruct (Z.le_gt_cases (units r) (units r')) as [Q|Q]; [exact Q|exfalso].
  apply (rounds_times D') in R; [|exact P']. apply (rounds_times D) in R'; [|exact P].
  assert (E : D * N' = D' * N /\ D * D' = D' * D).
  { split; [|ring]. destruct R as (W & F & H), R' as (W' & F' & H'). destruct (H r' W' F') as (A & _). destruct (H' r W F) as (A' & _).
    replace (D * D') with (D' * D) in A' by ring. assert (K : 0 < D' * D) by nia. assert (M : units r' * (D' * D) < units r * (D' * D)) by (apply Z.mul_lt_mono_pos_r; lia).
    replace (N * D') with (D' * N) in L by ring. replace (N' * D) with (D * N') in L by ring.
    revert A A' L M. clear. generalize (units r * (D' * D)) (units r' * (D' * D)) (D' * N) (D * N'). intros. lia. }
  destruct E as (E & E'). rewrite E, E' in R'. assert (U := rounds_unique (D' * N) (D' * D) r r' ltac:(nia) R R'). lia.
Qed.

(* --- a percentage --- *)

Definition proper (v : Z * Z) : Prop := 0 <= fst v <= 2 ^ 53 /\ 0 < snd v <= 2 ^ 53.

Lemma hundred : float_wf HUNDRED /\ finite HUNDRED /\ units HUNDRED = 100 * unit.
Proof. split; [vm_compute; reflexivity|]. split; [exact I|]. vm_compute. reflexivity. Qed.

Lemma reported_ok v : proper v -> exists p, reported v = Ok p /\ rounds_to (fst v * unit) (snd v) p.
Proof.
  intros (A & B). unfold reported. destruct (f_of_int_exact (fst v)) as (a & -> & Wa & Fa & Ua); [lia|]. destruct (f_of_int_exact (snd v)) as (b & -> & Wb & Fb & Ub); [lia|].
  cbn [bind]. assert (PU := unit_pos). destruct (f_div_rounds a b Wa Fa Wb Fb) as (p & E & R).
  - rewrite Ub. nia.
  - rewrite Ua, Ub, !Z.abs_mul, (Z.abs_eq unit), (Z.abs_eq (fst v)), (Z.abs_eq (snd v)) by lia.
    apply Z.lt_le_trans with (1 * unit * 2 ^ 1023); [|apply Z.mul_le_mono_nonneg_r; [lia|nia]].
    replace (1 * unit * 2 ^ 1023) with (2 ^ 1023 * unit) by ring. apply Z.mul_lt_mono_pos_r; [exact PU|].
    apply Z.le_lt_trans with (2 ^ 53); [lia|]. apply Z.pow_lt_mono_r; lia.
  - exists p. split; [exact E|]. rewrite Ua, Ub in R. apply (rounds_scale unit); [exact PU|].
    replace (Z.sgn (snd v * unit)) with 1 in R by (symmetry; apply Z.sgn_pos; nia). rewrite (Z.abs_eq (snd v * unit)) in R by nia.
    replace (unit * (fst v * unit)) with (fst v * unit * unit * 1) by ring. replace (unit * snd v) with (snd v * unit) by ring. exact R.
Qed.

(* percent v = q where q is the product of the rounded quotient with 100, rounded
   again, without its fraction *)
Lemma percent_ok v : proper v -> exists p m, percent v = Ok (Z.quot (units m) unit) /\
  rounds_to (fst v * unit) (snd v) p /\ rounds_to (100 * units p) 1 m /\ 0 <= units p.
Proof.
  intros V. destruct (reported_ok v V) as (p & E & R). destruct hundred as (WH & FH & UH). assert (PU := unit_pos). destruct V as (A & B).
  assert (WP := proj1 R). assert (FP := proj1 (proj2 R)).
  assert (P0 : 0 <= units p).
  { assert (Z0 : rounds_to (0 * unit) 1 (S754_zero false)) by (apply rounds_exact; [lia|reflexivity|exact I|reflexivity]).
    change 0 with (units (S754_zero false)). refine (rounds_mono _ _ _ _ _ _ _ _ Z0 R _); [lia|lia|]. rewrite Z.mul_0_l, Z.mul_1_r. apply Z.mul_nonneg_nonneg; lia. }
  assert (P1 : units p <= 2 ^ 53 * unit).
  { destruct (double_of_int (2 ^ 53)) as (g & Wg & Fg & Ug); [lia|]. rewrite <- Ug.
    assert (RG : rounds_to (2 ^ 53 * unit) 1 g) by (apply rounds_exact; [lia|exact Wg|exact Fg|lia]).
    refine (rounds_mono _ _ _ _ _ _ _ _ R RG _); [lia|lia|]. assert (fst v * 1 <= 2 ^ 53 * snd v) by lia. rewrite Z.mul_1_r, <- Z.mul_assoc, (Z.mul_comm unit), Z.mul_assoc. apply Z.mul_le_mono_nonneg_r; lia. }
  assert (M : rounds_to (units p * units HUNDRED) unit (f_mul p HUNDRED)).
  { apply f_mul_rounds; auto. rewrite UH, Z.abs_eq by nia. apply Z.le_lt_trans with (2 ^ 53 * unit * (2 ^ 7 * unit)); [nia|].
    unfold unit. rewrite <- !Z.pow_add_r by lia. apply Z.pow_lt_mono_r; lia. }
  exists p, (f_mul p HUNDRED). unfold percent. rewrite E. cbn [bind]. rewrite (f_int_quot _ (proj1 M) (proj1 (proj2 M))). split; [reflexivity|].
  split; [exact R|]. split; [|exact P0]. apply (rounds_scale unit); [exact PU|]. rewrite UH in M.
  replace (unit * (100 * units p)) with (units p * (100 * unit)) by ring. now rewrite Z.mul_1_r.
Qed.

Lemma percent_mono v w a b : proper v -> proper w -> fst v * snd w <= fst w * snd v -> percent v = Ok a -> percent w = Ok b -> a <= b.
Proof.
  intros V W L A B. destruct (percent_ok v V) as (p & m & E & R & S & _). destruct (percent_ok w W) as (p' & m' & E' & R' & S' & _).
  rewrite E in A. rewrite E' in B. injection A as <-. injection B as <-. assert (PU := unit_pos).
  assert (U : units p <= units p'). { refine (rounds_mono _ _ _ _ _ _ _ _ R R' _); [apply V|apply W|]. rewrite (Z.mul_shuffle0 (fst v)), (Z.mul_shuffle0 (fst w)). apply Z.mul_le_mono_nonneg_r; lia. }
  assert (U' : units m <= units m'). { refine (rounds_mono _ _ _ _ _ _ _ _ S S' _); [lia|lia|]. lia. }
  apply Z.quot_le_mono; lia.
Qed.

(* what some values give *)
Lemma percent_whole n : 0 < n <= 2 ^ 53 -> percent (n, n) = Ok 100.
Proof.
  intros N. assert (V : proper (n, n)) by (split; cbn [fst snd]; lia). assert (O : proper (1, 1)) by (split; cbn [fst snd]; lia).
  assert (E1 : percent (1, 1) = Ok 100) by (vm_compute; reflexivity).
  destruct (percent_ok (n, n) V) as (p & m & E & _). rewrite E. f_equal.
  apply Z.le_antisymm.
  - apply (percent_mono (n, n) (1, 1)); auto; cbn [fst snd]; lia.
  - apply (percent_mono (1, 1) (n, n)); auto; cbn [fst snd]; lia.
Qed.
Lemma percent_zero n : 0 < n <= 2 ^ 53 -> percent (0, n) = Ok 0.
Proof.
  intros N. assert (V : proper (0, n)) by (split; cbn [fst snd]; lia). assert (O : proper (0, 1)) by (split; cbn [fst snd]; lia).
  assert (E1 : percent (0, 1) = Ok 0) by (vm_compute; reflexivity).
  destruct (percent_ok (0, n) V) as (p & m & E & _). rewrite E. f_equal.
  apply Z.le_antisymm.
  - apply (percent_mono (0, n) (0, 1)); auto; cbn [fst snd]; lia.
  - apply (percent_mono (0, 1) (0, n)); auto; cbn [fst snd]; lia.
Qed.
Lemma percent_range v q : proper v -> percent v = Ok q -> 0 <= q /\ (fst v <= snd v -> q <= 100).
Proof.
  intros V E. split.
  - apply (percent_mono (0, 1) v); [split; cbn [fst snd]; lia|exact V|cbn [fst snd]; destruct V; nia|vm_compute; reflexivity|exact E].
  - intros L. apply (percent_mono v (1, 1)); [exact V|split; cbn [fst snd]; lia|cbn [fst snd]; lia|exact E|vm_compute; reflexivity].
Qed.

(* --- what is printed --- *)

Lemma indicated_increasing l : Forall proper l -> StronglySorted (fun v w => fst v * snd w <= fst w * snd v) l ->
  forall previous, (forall v a, In v l -> percent v = Ok a -> previous <= a) ->
  exists ps, indicated previous l = Ok ps /\ StronglySorted Z.lt ps /\ Forall (Z.lt previous) ps /\
    (forall a, In a ps <-> a <> previous /\ exists v, In v l /\ percent v = Ok a).
Proof.
  induction l as [|v l IH]; intros F S previous P.
  - exists []. split; [reflexivity|]. split; [constructor|]. split; [constructor|]. intros a. split; [contradiction|intros (_ & v & [] & _)].
  - inversion F as [|? ? V F']; subst. inversion S as [|? ? S' SV]; subst. destruct (percent_ok v V) as (_ & m & E & _). set (q := Z.quot (units m) unit) in *.
    assert (Q : previous <= q) by (apply (P v); [now left|exact E]). rewrite Forall_forall in F', SV.
    destruct (IH (proj2 (Forall_forall _ _) F') S' q) as (ps & I & S1 & F1 & A1).
    { intros w a H HA. apply (percent_mono v w); auto. }
    cbn [indicated]. rewrite E. cbn [bind]. rewrite I. cbn [bind]. eexists. split; [reflexivity|].
    destruct (Z.eqb_spec q previous) as [D|D]; cbn [negb].
    + rewrite D in *. split; [exact S1|]. split; [exact F1|]. intros a. rewrite A1. split.
      * intros (N & w & H & HA). split; [exact N|]. exists w. split; [now right|exact HA].
      * intros (N & w & [<-|H] & HA); [congruence|]. split; [exact N|]. now exists w.
    + split; [now constructor|]. split.
      * constructor; [lia|]. eapply Forall_impl; [|exact F1]. cbn beta. lia.
      * intros a. cbn [In]. rewrite A1. split.
        -- intros [<-|(N & w & H & HA)]; [split; [exact D|]; exists v; split; [now left|exact E]|].
           split; [|exists w; split; [now right|exact HA]]. assert (q <= a) by (apply (percent_mono v w); auto). lia.
        -- intros (N & w & [<-|H] & HA); [left; congruence|]. destruct (Z.eq_dec a q) as [->|N']; [now left|right]. split; [exact N'|]. now exists w.
Qed.

Lemma indicated_app l l' previous ps : indicated previous l = Ok ps -> exists q, (forall ps', indicated q l' = Ok ps' -> indicated previous (l ++ l') = Ok (ps ++ ps')) /\
  (l = [] /\ q = previous \/ exists l0 v, l = l0 ++ [v] /\ percent v = Ok q).
Proof.
  revert previous ps. induction l as [|v l IH]; intros previous ps.
  - intros [= <-]. exists previous. split; [auto|]. now left.
  - cbn [indicated app]. destruct (percent v) as [q|y] eqn:E; [|discriminate]. cbn [bind]. destruct (indicated q l) as [qs|y] eqn:I; [|discriminate]. cbn [bind].
    intros [= <-]. destruct (IH q qs I) as (q' & K & C). exists q'. split.
    + intros ps' H. rewrite (K ps' H). cbn [bind]. now destruct (negb (q =? previous)).
    + right. destruct C as [(-> & ->)|(l0 & w & -> & H)]; [exists [], v; auto|]. exists (v :: l0), w. auto.
Qed.

Lemma indicator_ok l : progress_ok l -> Forall (fun v => snd v <= 2 ^ 53) l ->
  exists ps, indicator l = Ok (ps ++ [100]) /\ StronglySorted Z.lt (ps ++ [100]) /\ Forall (fun q => 0 <= q < 100) ps /\
    (forall q, In q (ps ++ [100]) <-> exists v, In v l /\ percent v = Ok q).
Proof.
  intros (F & S & l' & n & ->) B.
  assert (PF : Forall proper (l' ++ [(n, n)])).
  { rewrite Forall_forall in F, B |- *. intros v I. specialize (F v I). specialize (B v I). split; lia. }
  destruct (indicated_increasing _ PF S (-1)) as (ps & I & S1 & F1 & A1).
  { intros v a H E. rewrite Forall_forall in PF. destruct (percent_range v a (PF v H) E). lia. }
  assert (H100 : In 100 ps).
  { apply A1. split; [lia|]. exists (n, n). rewrite Forall_forall in F, B. assert (Q : In (n, n) (l' ++ [(n, n)])) by (apply in_or_app; right; now left).
    split; [exact Q|]. apply percent_whole. specialize (F _ Q). specialize (B _ Q). cbn [fst snd] in F, B. lia. }
  assert (LE : forall q, In q ps -> 0 <= q <= 100).
  { intros q H. apply A1 in H. destruct H as (_ & v & H & E). rewrite Forall_forall in PF, F. destruct (percent_range v q (PF v H) E) as (Q1 & Q2).
    specialize (F v H). lia. }
  apply in_split in H100. destruct H100 as (p1 & p2 & ->). assert (p2 = []) as ->.
  { destruct p2 as [|q p2]; [reflexivity|exfalso]. assert (Q : 100 < q).
    { clear -S1. induction p1 as [|a p1 IH]; cbn [app] in S1; [inversion S1 as [|? ? _ G]; subst; inversion G; subst; assumption|]. inversion S1; auto. }
    assert (0 <= q <= 100) by (apply LE, in_or_app; right; cbn; tauto). lia. }
  exists p1. split; [exact I|]. split; [exact S1|]. split.
  - rewrite Forall_forall. intros q H. assert (0 <= q <= 100) by (apply LE, in_or_app; now left). split; [lia|].
    clear -S1 H. induction p1 as [|a p1 IH]; [contradiction|]. cbn [app] in S1. inversion S1 as [|? ? S2 G]; subst. destruct H as [->|H]; [|now apply IH].
    rewrite Forall_forall in G. apply G, in_or_app. right. now left.
  - intros q. rewrite A1. split; [intros (_ & H); exact H|]. intros (v & H & E). split; [|now exists v].
    rewrite Forall_forall in PF. destruct (percent_range v q (PF v H) E). lia.
Qed.

Lemma writing_indicated ds enc tc e pr f w : StronglySorted Z.le (ds_trace_indexes ds) ->
  Forall (fun k => 0 <= k <= ds_num_traces ds) (ds_trace_indexes ds) -> ds_num_traces ds <= 2 ^ 53 ->
  write_segy ds enc tc e pr (mk_world f []) = (Ok tt, w) ->
  exists ps, indicator (w_log w) = Ok (ps ++ [100]) /\ StronglySorted Z.lt (ps ++ [100]) /\ Forall (fun q => 0 <= q < 100) ps.
Proof.
  intros S F N W. destruct (write_progress ds enc tc e pr f (Ok tt) w S F W) as (_ & _ & P). specialize (P eq_refl).
  destruct (indicator_ok (w_log w) P) as (ps & H1 & H2 & H3 & _); [|eauto].
  destruct (write_log _ _ _ _ _ _ _ _ W) as (ks1 & ks2 & _ & _ & [((y & H) & _)|(_ & _ & ->)]); [discriminate|].
  apply Forall_app. split; [|repeat constructor; cbn [snd]; lia]. apply Forall_map. apply Forall_forall. intros k _. cbn [snd]. exact N.
Qed.

(* --- how far the percentages are from the truth --- *)

(* a power of two: T = 2^1021, so that unit = 2^53 T *)
Definition fine_step : Z := 2 ^ 1021.
Lemma fine_unit : unit = fine_step * 2 ^ 53 /\ 0 < fine_step.
Proof. split; [|reflexivity]. unfold unit, fine_step. now rewrite <- Z.pow_add_r by lia. Qed.
Lemma fine_double M : Z.abs M <= 2 ^ 53 -> exists g, float_wf g /\ finite g /\ units g = M * fine_step.
Proof. intros H. apply (double_of M 1021); [exact H|lia]. Qed.
Lemma coarse_double M : Z.abs M <= 2 ^ 53 -> exists g, float_wf g /\ finite g /\ units g = M * (fine_step * 2 ^ 7).
Proof.
  intros H. destruct (double_of M 1028 H) as (g & A & B & C); [lia|]. exists g. split; [exact A|]. split; [exact B|]. rewrite C.
  unfold fine_step. now rewrite <- Z.pow_add_r by lia.
Qed.

Lemma near_quotient k n p : 0 <= k <= n -> 0 < n -> rounds_to (k * unit) n p -> Z.abs (units p * n - k * unit) <= fine_step * n.
Proof.
  intros K N (_ & _ & R). destruct fine_unit as (HU & PT). rewrite HU in *.
  destruct (fine_double (k * 2 ^ 53 / n)) as (g & Wg & Fg & Ug).
  { assert (k * 2 ^ 53 / n <= 2 ^ 53) by (apply Z.div_le_upper_bound; lia). assert (0 <= k * 2 ^ 53 / n) by (apply Z.div_pos; lia). lia. }
  destruct (R g Wg Fg) as (H & _). eapply Z.le_trans; [exact H|]. rewrite Ug. clear -PT N. generalize dependent fine_step. intros T PT.
  pose proof (Z.div_mod (k * 2 ^ 53) n ltac:(lia)) as DM. pose proof (Z.mod_pos_bound (k * 2 ^ 53) n ltac:(lia)) as MB.
  replace (k * 2 ^ 53 / n * T * n - k * (T * 2 ^ 53)) with (T * (n * (k * 2 ^ 53 / n) - k * 2 ^ 53)) by ring.
  rewrite Z.abs_mul, (Z.abs_eq T) by lia. apply Z.mul_le_mono_nonneg_l; lia.
Qed.
Lemma near_product u m : 0 <= u <= unit -> rounds_to (100 * u) 1 m -> Z.abs (units m - 100 * u) <= fine_step * 2 ^ 7.
Proof.
  intros U (_ & _ & R). destruct fine_unit as (HU & PT). rewrite HU in *.
  destruct (coarse_double (100 * u / (fine_step * 2 ^ 7))) as (g & Wg & Fg & Ug).
  { clear -U PT. generalize dependent fine_step. intros T U PT. assert (0 <= 100 * u / (T * 2 ^ 7)) by (apply Z.div_pos; lia). rewrite Z.abs_eq by lia.
    apply Z.div_le_upper_bound; lia. }
  destruct (R g Wg Fg) as (H & _). rewrite !Z.mul_1_r in H. eapply Z.le_trans; [exact H|]. rewrite Ug. clear -PT. generalize dependent fine_step. intros T PT.
  pose proof (Z.div_mod (100 * u) (T * 2 ^ 7) ltac:(lia)) as DM. pose proof (Z.mod_pos_bound (100 * u) (T * 2 ^ 7) ltac:(lia)) as MB.
  rewrite (Z.mul_comm (100 * u / (T * 2 ^ 7))). lia.
Qed.
Lemma near_both T n k x p m : 0 < T -> 0 < n <= 2 ^ 40 -> Z.abs (p * n - k * (T * 2 ^ 53)) <= T * n -> Z.abs (m - 100 * p) <= T * 2 ^ 7 ->
  T * 2 ^ 53 * x <= m < T * 2 ^ 53 * x + T * 2 ^ 53 -> n * x <= 100 * k <= n * (x + 1).
Proof.
  intros PT N A B X.
  assert (C : Z.abs (n * m - 100 * k * (T * 2 ^ 53)) <= T * (n * 2 ^ 8)).
  { replace (n * m - 100 * k * (T * 2 ^ 53)) with (n * (m - 100 * p) + 100 * (p * n - k * (T * 2 ^ 53))) by ring.
    assert (Z.abs (n * (m - 100 * p)) <= n * (T * 2 ^ 7)) by (rewrite Z.abs_mul, (Z.abs_eq n) by lia; apply Z.mul_le_mono_nonneg_l; lia).
    assert (n * (T * 2 ^ 7) = T * n * 2 ^ 7) by ring. assert (T * (n * 2 ^ 8) = T * n * 2 ^ 8) by ring. lia. }
  assert (D : T * (n * 2 ^ 8) <= T * 2 ^ 48) by (apply Z.mul_le_mono_nonneg_l; lia).
  assert (E1 : n * (T * 2 ^ 53 * x) <= n * m) by (apply Z.mul_le_mono_nonneg_l; lia).
  assert (E2 : n * m < n * (T * 2 ^ 53 * x + T * 2 ^ 53)) by (apply Z.mul_lt_mono_pos_l; lia).
  replace (n * (T * 2 ^ 53 * x)) with (T * (2 ^ 53 * (n * x))) in E1 by ring.
  replace (n * (T * 2 ^ 53 * x + T * 2 ^ 53)) with (T * (2 ^ 53 * (n * (x + 1)))) in E2 by ring.
  replace (100 * k * (T * 2 ^ 53)) with (T * (2 ^ 53 * (100 * k))) in C by ring.
  assert (F1 : T * (2 ^ 53 * (n * x)) <= T * (2 ^ 53 * (100 * k) + 2 ^ 48)) by lia.
  assert (F2 : T * (2 ^ 53 * (100 * k)) < T * (2 ^ 53 * (n * (x + 1)) + 2 ^ 48)) by lia.
  apply Z.mul_le_mono_pos_l in F1; [|exact PT]. apply Z.mul_lt_mono_pos_l in F2; [|exact PT]. lia.
Qed.

Lemma percent_near k n q : 0 <= k <= n -> 0 < n <= 2 ^ 40 -> percent (k, n) = Ok q ->
  q = 100 * k / n \/ (100 * k) mod n = 0 /\ q = 100 * k / n - 1.
Proof.
  intros K N E. assert (V : proper (k, n)) by (split; cbn [fst snd]; lia). destruct (percent_ok (k, n) V) as (p & m & E' & R & S & P0). cbn [fst snd] in R.
  rewrite E in E'. injection E' as ->. assert (PU := unit_pos).
  assert (P1 : units p <= unit).
  { destruct (double_of_int 1) as (o & Wo & Fo & Uo); [lia|]. rewrite Z.mul_1_l in Uo.
    assert (O : rounds_to unit 1 o) by (apply rounds_exact; [lia|exact Wo|exact Fo|rewrite Z.mul_1_r; exact Uo]). rewrite <- Uo.
    refine (rounds_mono _ _ _ _ _ _ _ _ R O _); [lia|lia|]. rewrite Z.mul_1_r, (Z.mul_comm unit). apply Z.mul_le_mono_nonneg_r; lia. }
  assert (A := near_quotient k n p K (proj1 N) R). assert (B := near_product (units p) m (conj P0 P1) S).
  assert (M0 : 0 <= units m).
  { assert (Z0 : rounds_to 0 1 (S754_zero false)) by (apply rounds_exact; [lia|reflexivity|exact I|reflexivity]).
    change 0 with (units (S754_zero false)). refine (rounds_mono _ _ _ _ _ _ _ _ Z0 S _); lia. }
  rewrite (Z.quot_div_nonneg (units m) unit) by lia.
  set (x := units m / unit) in *.
  assert (X : unit * x <= units m < unit * x + unit).
  { unfold x. pose proof (Z.div_mod (units m) unit ltac:(lia)). pose proof (Z.mod_pos_bound (units m) unit ltac:(lia)). lia. }
  clearbody x. destruct fine_unit as (HU & PT). rewrite HU in A, X. destruct (near_both fine_step n k x (units p) (units m) PT N A B X) as (UP & DN).
  clear -UP DN N. pose proof (Z.div_mod (100 * k) n ltac:(lia)). pose proof (Z.mod_pos_bound (100 * k) n ltac:(lia)).
  set (f := 100 * k / n) in *. set (r := (100 * k) mod n) in *. clearbody f r. assert (x <= f) by nia. assert (f - 1 <= x) by nia.
  destruct (Z.eq_dec r 0) as [R|R]; [|assert (f <= x) by nia]; lia.
Qed.

(* --- reading --- *)

Lemma complete d enc bc tc e dim r native t ts q : readable d enc bc tc -> opens d enc bc tc e dim r -> traces_of d tc e r t ts -> all_readable native d r ->
  scan tc e (sample_size t) d (first_trace (rd_ext r)) ts q -> ts <> [] /\ q <= zlen d.
Proof.
  intros RD OP TR AR S. destruct (counts_ok d enc bc tc e dim r t ts RD OP TR) as (C1 & _).
  assert (N : ts <> []).
  { destruct (opens_opened d enc bc tc e dim r RD OP) as (x & ts' & t' & _ & O). destruct O as [_ TY FT NE _ _ _ _ _ _ _ _ _].
    assert (TR' : traces_of d tc e r t' ts') by now split. destruct (counts_ok d enc bc tc e dim r t' ts' RD OP TR') as (C1' & _).
    intros ->. rewrite C1 in C1'. destruct ts'; [congruence|]. rewrite zlen_cons in C1'. pose proof (zlen_nonneg ts'). change (zlen (@nil tinfo)) with 0 in C1'. lia. }
  split; [exact N|]. apply (scan_within _ _ _ _ _ _ _ S N). intros i I. apply In_nth_error in I. destruct I as (k & I).
  assert (KB : 0 <= Z.of_nat k < zlen ts). { assert (K : (k < length ts)%nat) by (apply nth_error_Some; congruence). unfold zlen. lia. }
  assert (TI : trace_of ts (Z.of_nat k) i) by (split; [lia|now rewrite Nat2Z.id]).
  destruct (AR (Z.of_nat k)) as (h & ss & _ & RS); [lia|].
  destruct (samples_ok d enc bc tc e dim r t ts RD OP TR native (Z.of_nat k) None None 0) as (_ & _ & SO). rewrite RS in SO.
  inversion SO as [| | |i2 ss2 TI2 B1 B2 B3 SL SA]; subst ss2. rewrite (trace_of_unique _ _ _ _ TI2 TI) in *. cbn [or_else] in *.
  assert (PL := trace_layout tc e (sample_size t) d _ ts (proj2 TR)). destruct PL as (_ & _ & PL & _). destruct (PL _ i TI) as (P1 & _).
  destruct B3 as [B3|B3]; [rewrite <- B3; lia|exact B3].
Qed.

Lemma reading_indicated a enc bc tc e pr dim d r w native : readable d enc bc tc -> create_reader a enc bc tc (Some e) pr dim (mk_world (mk_file d 0) []) = (Ok r, w) ->
  all_readable native d r -> zlen d <= 2 ^ 51 ->
  exists ps, indicator (w_log w) = Ok (ps ++ [75; 93; 112; 131; 100]) /\ StronglySorted Z.lt ps /\ Forall (fun q => 0 <= q < 75) ps.
Proof.
  intros RD E AR L. assert (OP : opens d enc bc tc e dim r) by (do 4 eexists; exact E).
  destruct (open_log _ _ _ _ _ _ _ _ _ _ _ RD E) as (t & ts & q & TR & S & ->). cbn [app].
  destruct (complete _ _ _ _ _ _ _ _ _ _ _ RD OP TR AR S) as (N & Q). assert (L3 := opens_length _ _ _ _ _ _ _ OP).
  assert (PS : 0 < sample_size t) by (destruct t; reflexivity). assert (F0 : 0 <= first_trace (rd_ext r)) by (unfold first_trace; pose proof (zlen_nonneg (rd_ext r)); lia).
  assert (NN : forall f v, is_field tc f -> fd_name f = "num_samples" -> accepts (fd_type f) v -> 0 <= v) by apply RD.
  assert (PO := scan_positions _ _ _ _ _ _ _ F0 (Z.lt_le_incl _ _ PS) NN S).
  set (before := map (fun p => (3 * p, 4 * zlen d)) (map t_pos ts ++ [q]) ++ [(3, 4)]).
  set (after := [(15, 16); (9, 8); (21, 16); (1, 1); (1, 1)]).
  assert (BA : map (fun p => (3 * p, 4 * zlen d)) (map t_pos ts ++ [q]) ++ (3, 4) :: after = before ++ after) by (unfold before; now rewrite <- app_assoc).
  assert (SQ : StronglySorted Z.le (map t_pos ts ++ [q]) /\ Forall (fun p => 0 <= p <= zlen d) (map t_pos ts ++ [q])).
  { clear -S PO Q F0 PS. assert (G : forall p, 0 <= p -> scan tc e (sample_size t) d p ts q -> StronglySorted Z.le (map t_pos ts ++ [q]) /\ Forall (fun x => p <= x <= zlen d) (map t_pos ts ++ [q]) /\ p <= q).
    { revert PO. clear -Q PS. induction ts as [|i ts IH]; intros PO p P S; inversion S; subst; cbn [map app].
      - split; [repeat constructor|]. split; [repeat constructor; lia|lia].
      - destruct (PO i (or_introl eq_refl)) as (P1 & P2 & P3). destruct (IH (fun j J => PO j (or_intror J)) (t_pos i + 240 + sample_size t * t_count i) ltac:(nia)) as (A & B & C); [assumption|].
        split; [|split; [|nia]]; constructor; auto; try lia; eapply Forall_impl; try exact B; cbn beta; intros; nia. }
    destruct (G _ F0 S) as (A & B & _). split; [exact A|]. eapply Forall_impl; [|exact B]. cbn beta. lia. }
  destruct SQ as (SQ & FQ).
  assert (PF : Forall proper before).
  { unfold before. apply Forall_app. split; [|repeat constructor; cbn [fst snd]; lia]. apply Forall_map. eapply Forall_impl; [|exact FQ].
    cbn beta. intros p P. split; cbn [fst snd]; lia. }
  assert (P75 : percent (3, 4) = Ok 75) by (vm_compute; reflexivity).
  assert (BL : forall v, In v before -> fst v * 4 <= 3 * snd v).
  { intros v. unfold before. rewrite in_app_iff, in_map_iff. intros [(p & <- & I)|[<-|[]]]; cbn [fst snd]; [|lia]. rewrite Forall_forall in FQ. specialize (FQ p I). lia. }
  assert (SS : StronglySorted (fun v w => fst v * snd w <= fst w * snd v) before).
  { unfold before. clear -SQ FQ L3. induction (map t_pos ts ++ [q]) as [|p l IH]; cbn [map app]; [repeat constructor|].
    inversion SQ as [|? ? S1 S2]; subst. inversion FQ as [|? ? F1 F2]; subst. constructor; [now apply IH|]. apply Forall_app. split.
    - apply Forall_map. eapply Forall_impl; [|exact S2]. cbn beta. cbn [fst snd]. intros. nia.
    - constructor; [|constructor]. cbn [fst snd]. lia. }
  destruct (indicated_increasing before PF SS (-1)) as (ps & I & S1 & F1 & A1).
  { intros v x H P. rewrite Forall_forall in PF. destruct (percent_range v x (PF v H) P). lia. }
  destruct (indicated_app before after (-1) ps I) as (q' & K & [(BE & _)|(l0 & v & BE & PV)]).
  { unfold before in BE. destruct (map _ _) in BE; discriminate. }
  assert (v = (3, 4)) as -> by (unfold before in BE; apply app_inj_tail in BE; symmetry; exact (proj2 BE)). assert (q' = 75) as -> by congruence.
  assert (H75 : In 75 ps). { apply A1. split; [lia|]. exists (3, 4). split; [|exact P75]. unfold before. apply in_or_app. right. now left. }
  assert (LE : forall x, In x ps -> 0 <= x <= 75).
  { intros x H. apply A1 in H. destruct H as (_ & v & H & EV). rewrite Forall_forall in PF. destruct (percent_range v x (PF v H) EV) as (Q1 & _). split; [exact Q1|].
    apply (percent_mono v (3, 4)); [now apply PF|apply PF; unfold before; apply in_or_app; right; now left|cbn [fst snd]; specialize (BL v H); lia|exact EV|exact P75]. }
  apply in_split in H75. destruct H75 as (p1 & p2 & ->). assert (p2 = []) as ->.
  { destruct p2 as [|x p2]; [reflexivity|exfalso]. assert (X : 75 < x).
    { clear -S1. induction p1 as [|y p1 IH]; cbn [app] in S1; [inversion S1 as [|? ? _ G]; subst; inversion G; subst; assumption|]. inversion S1; auto. }
    assert (0 <= x <= 75) by (apply LE, in_or_app; right; cbn; tauto). lia. }
  exists p1. split.
  - unfold indicator. rewrite BA. rewrite (K [93; 112; 131; 100]); [now rewrite <- app_assoc|]. unfold after. vm_compute. reflexivity.
  - split; [clear -S1; induction p1 as [|y p1 IH]; cbn [app] in S1; [constructor|]; inversion S1 as [|? ? S2 G]; subst; constructor; [now apply IH|]; now apply Forall_app in G|].
    rewrite Forall_forall. intros x H. assert (0 <= x <= 75) by (apply LE, in_or_app; now left). split; [lia|].
    clear -S1 H. induction p1 as [|y p1 IH]; [contradiction|]. cbn [app] in S1. inversion S1 as [|? ? S2 G]; subst. destruct H as [->|H]; [|now apply IH].
    rewrite Forall_forall in G. apply G, in_or_app. right. now left.
Qed.
