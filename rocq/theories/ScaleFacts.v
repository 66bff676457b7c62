(* Proofs about samples scaled by any factor. *)
From Coq Require Import String ZArith List Bool Lia ZifyBool ZifyNat SpecFloat.
From Verif Require Import Py PyFloat IbmFloat IbmNumber Packing Formats FileIO Text Float32 Toolkit Reader FieldTypes Transform
  PyFacts Spec_Ibm FloatFacts RoundFacts IbmFacts IbmArith IbmNumberProps RoundUnique Spec_Packing CompileFacts HeaderFacts PackingFacts FormatFacts Spec_Text Spec_Segy Spec_Reader ToolkitFacts ReaderFacts OpenFacts
  Spec_Writer WriterFacts Spec_Fields FieldTypesFacts Spec_Transform TransformFacts Spec_Scale RoundAll.
Import ListNotations.
Local Open Scope string_scope.
Open Scope list_scope.
Open Scope Z_scope.

Lemma sign_units x : float_wf x -> finite x -> units x <> 0 -> (units x <? 0) = sign_of x.
Proof.
  intros W F N. destruct x as [s|s| |s m e]; try destruct F; [now destruct N|]. cbn [units sign_of]. cbn [units] in N.
  assert (P : 0 <= 2 ^ (e + 1074)) by (apply Z.pow_nonneg; lia). revert N P. generalize (2 ^ (e + 1074)). intros z N P. destruct s; nia.
Qed.
Lemma finite_value x : finite x -> float_value x = Num (units x).
Proof. destruct x; cbn; tauto. Qed.
Lemma sign_value s m e : float_wf (S754_finite s m e) -> (s = true /\ units (S754_finite s m e) < 0) \/ (s = false /\ 0 < units (S754_finite s m e)).
Proof.
  intros W. cbn [units]. assert (E : -1074 <= e). { apply bounded_spec in W. lia. }
  assert (P : 0 < 2 ^ (e + 1074)) by (apply Z.pow_pos_nonneg; lia). revert P. generalize (2 ^ (e + 1074)). intros z P. destruct s; [left|right]; split; auto; nia.
Qed.

Lemma mul_value x f : float_wf x -> float_wf f -> ieee_product (float_value x) (float_value f) (float_value (f_mul x f)).
Proof.
  intros W W'. assert (FIN : finite x -> finite f -> ieee_product (float_value x) (float_value f) (float_value (f_mul x f))).
  { intros F F'. destruct (f_mul_all x f W F W' F') as (A & B). rewrite (finite_value x F), (finite_value f F'). cbn [ieee_product].
    destruct (Z.lt_ge_cases (Z.abs (units x * units f)) (too_large * unit)) as [L|L].
    - left. split; [exact L|]. specialize (A L). exists (f_mul x f). split; [exact A|]. apply finite_value, A.
    - right. split; [exact L|]. rewrite (B L). cbn [float_value]. f_equal.
      assert (Q : 0 < too_large * unit) by (apply Z.mul_pos_pos; [reflexivity|unfold unit; apply Z.pow_pos_nonneg; lia]).
      clear A B. revert Q L. generalize (too_large * unit). intros z Q L.
      assert (NX : units x <> 0) by (intros E; rewrite E in L; lia). assert (NF : units f <> 0) by (intros E; rewrite E, Z.mul_0_r in L; lia).
      rewrite <- (sign_units x W F NX), <- (sign_units f W' F' NF). clear L. revert NX NF. generalize (units x) (units f). intros a b NA NB.
      destruct (Z.ltb_spec a 0), (Z.ltb_spec b 0); cbn [xorb]; nia. }
  destruct x as [s|s| |s m e]; destruct f as [s'|s'| |s' m' e']; try (apply FIN; exact I); clear FIN; try reflexivity;
    try (cbn [float_value f_mul SFmul ieee_product]; left; split; reflexivity).
  - destruct (sign_value s' m' e' W') as [(-> & L)|(-> & L)]; revert L; cbn [float_value f_mul SFmul ieee_product]; intros L; right; [right|left]; (split; [exact L|]); now destruct s.
  - destruct (sign_value s m e W) as [(-> & L)|(-> & L)]; revert L; cbn [float_value f_mul SFmul ieee_product]; intros L; right; [right|left]; (split; [exact L|]); now destruct s'.
Qed.

(* the product is determined *)
Lemma product_unique a b c c' : ieee_product a b c -> ieee_product a b c' -> c' = c.
Proof.
  destruct a as [u|s|], b as [v|t|]; cbn [ieee_product]; intros H H'; try congruence.
  - destruct H as [(L & p & P & ->)|(L & ->)], H' as [(L' & p' & P' & ->)|(L' & ->)]; try reflexivity; try (exfalso; revert L L'; generalize (too_large * unit); lia).
    f_equal. symmetry. apply (rounds_unique _ _ _ _ unit_pos P P').
  - destruct H as [(A & ->)|[(A & ->)|(A & ->)]], H' as [(A' & ->)|[(A' & ->)|(A' & ->)]]; try reflexivity; lia.
  - destruct H as [(A & ->)|[(A & ->)|(A & ->)]], H' as [(A' & ->)|[(A' & ->)|(A' & ->)]]; try reflexivity; lia.
Qed.

Lemma mul_wf x f : float_wf x -> float_wf f -> finite (f_mul x f) -> float_wf (f_mul x f).
Proof.
  intros W W' F. destruct x as [s|s| |s m e]; destruct f as [s'|s'| |s' m' e']; try reflexivity.
  destruct (f_mul_all _ _ W I W' I) as (A & B). destruct (Z.lt_ge_cases (Z.abs (units (S754_finite s m e) * units (S754_finite s' m' e'))) (too_large * unit)) as [L|L].
  - apply A, L.
  - rewrite (B L) in F. destruct F.
Qed.

Lemma clip_kept lo hi m x : float_wf lo -> finite lo -> float_wf hi -> finite hi -> units hi = m -> units lo = - m -> 0 < m -> (finite x -> float_wf x) ->
  float_wf (f_clip lo hi x) /\ finite (f_clip lo hi x) /\ units (f_clip lo hi x) = kept m (float_value x).
Proof.
  intros W1 F1 W2 F2 U2 U1 M W. assert (LH : f_lt lo hi = true) by (rewrite f_lt_units by auto; lia).
  assert (K : finite x -> float_wf (f_clip lo hi x) /\ finite (f_clip lo hi x) /\ units (f_clip lo hi x) = kept m (float_value x)).
  { intros F. rewrite (finite_value x F). cbn [kept]. apply clip_units; auto. lia. }
  destruct x as [s|s| |s n e]; try (apply K; exact I); clear K.
  - destruct s; unfold f_clip.
    + assert (E : f_lt (S754_infinity true) hi = true) by (destruct hi; try destruct F2; reflexivity). rewrite E.
      assert (E' : f_lt lo (S754_infinity true) = false) by (destruct lo as [?|?| |[] ? ?]; try destruct F1; reflexivity). rewrite E'. auto.
    + assert (E : f_lt (S754_infinity false) hi = false) by (destruct hi as [?|?| |[] ? ?]; try destruct F2; reflexivity). rewrite E, LH. auto.
  - unfold f_clip. assert (E : f_lt S754_nan hi = false) by reflexivity. rewrite E, LH. auto.
Qed.

Lemma kept_abs m c : 0 <= m -> Z.abs (kept m c) <= m.
Proof. intros M. destruct c as [u|[]|]; cbn [kept]; try lia. now apply limited_abs. Qed.

(* what becomes of a sample *)
Definition result (t : segytype) (c : extended) (s1 : real) : Prop :=
  match t with
  | T_IBM => exists q, s1 = RFloat q /\ float_wf q /\ finite q /\ units q = kept ibm_max c
  | T_FLOAT32 => exists q, s1 = RFloat q /\ float_wf q /\ finite q /\ units q = kept float32_limit c
  | _ => exists u k, c = Num u /\ s1 = RInt k /\ nearest_in t (Z.quot u unit) k
  end.
Definition outcome (t : segytype) (c : extended) (o : res real) : Prop :=
  match t, c with
  | T_IBM, _ | T_FLOAT32, _ | _, Num _ => exists s1, o = Ok s1 /\ result t c s1
  | _, Inf _ => o = Err OverflowError
  | _, NoNumber => o = Err ValueError
  end.

Lemma scale_int_any t f n : int_type t -> in_sample_type t n -> float_wf f ->
  exists c, ieee_product (sample_value (RInt n)) (float_value f) c /\ outcome t c (scale_sample t f (RInt n)).
Proof.
  intros T I W. pose proof (in_type_small t n I) as SM. destruct (IbmNumberProps.f_of_int_exact n) as (g & E & GW & GF & GU). { clear -SM. lia. }
  exists (float_value (f_mul g f)). split.
  { cbn [sample_value]. rewrite <- GU, <- (finite_value g GF). now apply mul_value. }
  unfold scale_sample. cbn [real_times]. rewrite E. cbn [bind].
  assert (K : finite (f_mul g f) -> outcome t (float_value (f_mul g f)) (match t with
    | T_FLOAT32 | T_IBM => do g0 <- real_float (RFloat (f_mul g f)) ;; Ok (RFloat (f_clip (fst (float_limits t)) (snd (float_limits t)) g0))
    | _ => do k <- int_of (RFloat (f_mul g f)) ;; Ok (RInt (clip (fst (sample_limits t)) (snd (sample_limits t)) k)) end)).
  { intros F. pose proof (mul_wf g f GW W F) as PW. rewrite (finite_value _ F). cbn [int_of]. rewrite (f_int_quot _ PW F).
    revert F PW. generalize (f_mul g f). intros p F PW. destruct (int_result t (Z.quot (units p) unit) T) as (_ & _ & N). cbn [bind].
    destruct t; try contradiction; (eexists; split; [reflexivity|]); do 2 eexists; (split; [reflexivity|]); (split; [reflexivity|exact N]). }
  destruct (f_mul g f) as [s|s| |s m e]; try (apply K; exact Logic.I); destruct t; try contradiction; reflexivity.
Qed.

Lemma ibm_max_pos : 0 < ibm_max.
Proof. unfold ibm_max. apply Z.mul_pos_pos; [lia|apply Z.pow_pos_nonneg; lia]. Qed.
Lemma float32_limit_pos : 0 < float32_limit.
Proof. unfold float32_limit. apply Z.mul_pos_pos; [lia|apply Z.pow_pos_nonneg; lia]. Qed.

Lemma scale_outcome t f s : match t with T_NNINT8 | T_NNINT16 | T_NNINT32 => False | _ => True end -> exact_sample t s -> float_wf f ->
  exists c, ieee_product (sample_value s) (float_value f) c /\ outcome t c (scale_sample t f s).
Proof.
  intros T X W. destruct t; try contradiction; try (destruct X as (n & -> & X); apply scale_int_any; [exact I|exact X|exact W]).
  - destruct X as (g & -> & GW & B). exists (float_value (f_mul g f)). split; [now apply mul_value|].
    destruct (clip_kept FLOAT32_MIN FLOAT32_MAX float32_limit (f_mul g f)) as (W1 & F1 & U1); [reflexivity|exact I|reflexivity|exact I|apply float32_max_units|apply float32_min_units|apply float32_limit_pos|now apply mul_wf|].
    unfold scale_sample. cbn [real_times bind real_float float_limits fst snd outcome]. eexists. split; [reflexivity|]. eexists. split; [reflexivity|]. auto.
  - destruct X as (w & -> & WO). destruct (ibm_exact w WO) as (g & E & GW & GF & GU). exists (float_value (f_mul g f)). split.
    { cbn [sample_value]. rewrite <- GU, <- (finite_value g GF). now apply mul_value. }
    destruct MAX_wf as (M1 & M2 & M3 & M4).
    destruct (clip_kept MIN_IBM_FLOAT MAX_IBM_FLOAT ibm_max (f_mul g f)) as (W1 & F1 & U1);
      [assumption|assumption|assumption|assumption|apply MAX_units|apply MIN_units|apply ibm_max_pos|now apply mul_wf|].
    unfold scale_sample. cbn [real_times]. unfold num_mul, operator, ibm_mul_num. rewrite E. cbn [bind num_float ibm_if is_ibm real_float float_limits fst snd outcome].
    eexists. split; [reflexivity|]. eexists. split; [reflexivity|]. auto.
Qed.

Lemma scale_fits t f s : match t with T_NNINT8 | T_NNINT16 | T_NNINT32 => False | _ => True end -> exact_sample t s -> fits_by t f s -> float_wf f ->
  exists s1, scale_sample t f s = Ok s1 /\ storable t s1 /\ forall s', stored_as t s1 s' -> scaled_by t f s s'.
Proof.
  intros T X FB W. destruct (scale_outcome t f s T X W) as (c & P & O). specialize (FB c P).
  assert (INT : int_type t -> exists s1, scale_sample t f s = Ok s1 /\ storable t s1 /\ forall s', stored_as t s1 s' -> scaled_by t f s s').
  { intros IT. assert (exists u, c = Num u) as (u & ->) by (destruct t; try contradiction; exact FB).
    assert (exists s1, scale_sample t f s = Ok s1 /\ result t (Num u) s1) as (s1 & -> & R) by (destruct t; try contradiction; exact O).
    assert (exists u0 k, Num u = Num u0 /\ s1 = RInt k /\ nearest_in t (Z.quot u0 unit) k) as (u0 & k & EU & -> & N) by (destruct t; try contradiction; exact R).
    exists (RInt k). split; [reflexivity|]. split; [destruct N as (N & _); destruct t; try contradiction; exact N|].
    intros s' H. assert (s' = RInt k) as -> by (destruct t; try contradiction; exact H).
    exists (Num u). split; [exact P|]. destruct t; try contradiction; exists u0, k; auto. }
  destruct t; try contradiction; try (apply INT; exact I); clear INT.
  - cbn [outcome] in O. destruct O as (s1 & -> & q & -> & QW & QF & QU). exists (RFloat q). split; [reflexivity|]. split.
    { cbn [storable]. split; [exact QW|]. intros _. rewrite QU. eapply Z.le_lt_trans; [apply kept_abs|]; apply float32_limit_single. }
    intros s' (g' & -> & N & _). exists c. split; [exact P|]. exists q, g'. auto 6.
  - cbn [outcome] in O. destruct O as (s1 & -> & q & -> & QW & QF & QU). exists (RFloat q). split; [reflexivity|]. split.
    { cbn [storable]. split; [exact QW|]. split; [exact QF|]. rewrite QU. destruct FB as [Z0|L]; [now left|right]. split; [exact L|].
      apply kept_abs. pose proof ibm_max_pos. lia. }
    intros s' (w' & -> & TC). exists c. split; [exact P|]. exists w'. rewrite QU in TC. auto.
Qed.

(* a sample whose product does not fit *)
Lemma scale_unfit t f s c : match t with T_NNINT8 | T_NNINT16 | T_NNINT32 => False | _ => True end -> exact_sample t s -> float_wf f ->
  ieee_product (sample_value s) (float_value f) c -> ~ fits t c ->
  match t with
  | T_IBM => exists s1, scale_sample t f s = Ok s1 /\ refused t s1
  | _ => scale_sample t f s = Err (match c with NoNumber => ValueError | _ => OverflowError end)
  end.
Proof.
  intros T X W P' NF. destruct (scale_outcome t f s T X W) as (c0 & P & O). rewrite <- (product_unique _ _ _ _ P P') in *. clear P'. subst.
  destruct t; try contradiction; try (destruct c as [u|b|]; cbn [fits outcome] in *; [destruct NF; now exists u|exact O|exact O]).
  cbn [outcome fits] in *. destruct O as (s1 & -> & q & -> & QW & QF & QU). eexists. split; [reflexivity|]. cbn [refused]. split; [exact QW|]. right. right. rewrite QU.
  clear -NF. revert NF. generalize (kept ibm_max c) ibm_min. intros. lia.
Qed.

(* what has been written could be written *)
Lemma traces_written ds p e n t : forall ks w w', write_traces ds p e n ks w = (Ok tt, w') -> ds_sample_format ds = Ok t ->
  forall k, In k ks -> exists ss, ds_trace_samples ds k None None = Ok ss /\ forall s, In s ss -> ~ refused t s.
Proof.
  induction ks as [|k0 ks IH]; intros w w' H T k I; [destruct I|]. cbn [write_traces] in H.
  apply wbind_inv in H. destruct H as (h & w1 & _ & H). apply wbind_inv in H. destruct H as (u & w2 & _ & H).
  apply wbind_inv in H. destruct H as (ss & w3 & S & H). apply wbind_inv in H. destruct H as (t' & w4 & T' & H).
  apply wbind_inv in H. destruct H as (u' & w5 & V & H). apply wbind_inv in H. destruct H as (u'' & w6 & _ & H).
  destruct I as [<- | I]; [|eapply IH; eauto]. apply on_file_inv in S. destruct S as (S & _). apply on_file_inv in T'. destruct T' as (T' & _). apply on_file_inv in V. destruct V as (V & _).
  unfold lift in S, T'. exists ss. split; [congruence|]. assert (t' = t) by congruence. subst t'. intros s I R.
  destruct (samples_refused e t ss (w_file w4) s I R) as (y & Q). congruence.
Qed.
Lemma written_samples ds enc tc e pr w w' t : write_segy ds enc tc e pr w = (Ok tt, w') -> ds_sample_format ds = Ok t ->
  forall k, In k (ds_trace_indexes ds) -> exists ss, ds_trace_samples ds k None None = Ok ss /\ forall s, In s ss -> ~ refused t s.
Proof.
  intros H T. unfold write_segy in H. assert (NC : pr <> NotCallable) by (intros ->; discriminate).
  set (x := match enc with Some x => x | None => match ds_encoding ds with Some (Some x) => x | _ => ASCII end end) in H.
  destruct (negb (is_supported_encoding x)); [destruct pr; discriminate|].
  assert (Q : exists p w1 w2, write_traces ds p e (ds_num_traces ds) (ds_trace_indexes ds) w1 = (Ok tt, w2)).
  { destruct pr; try (now destruct NC); (apply wbind_inv in H; destruct H as (u1 & w1 & _ & H); apply wbind_inv in H; destruct H as (u2 & w2 & _ & H); apply wbind_inv in H; destruct H as (u3 & w3 & _ & H);
    apply wbind_inv in H; destruct H as (p & w4 & _ & H); apply wbind_inv in H; destruct H as ([] & w5 & H & _); eauto). }
  destruct Q as (p & w1 & w2 & Q). eapply traces_written; eassumption.
Qed.

Lemma map_res_each {A B} (g : A -> res B) : forall l l', map_res g l = Ok l' -> forall a, In a l -> exists b, g a = Ok b /\ In b l'.
Proof.
  induction l as [|x l IH]; intros l' H a I; [destruct I|]. cbn [map_res] in H. destruct (g x) as [b|y] eqn:E; [|discriminate]. cbn [bind] in H.
  destruct (map_res g l) as [bs|y]; [|discriminate]. cbn [bind] in H. injection H as <-. destruct I as [<- | I]; [exists b; split; [exact E|now left]|].
  destruct (IH bs eq_refl a I) as (b' & E' & I'). exists b'. split; [exact E'|now right].
Qed.
Lemma fits_dec t c : fits t c \/ ~ fits t c.
Proof. destruct t; cbn [fits]; try (destruct c as [u|b|]; [left; now exists u|right; intros (u & E); discriminate|right; intros (u & E); discriminate]); [tauto|generalize (kept ibm_max c) ibm_min; lia]. Qed.

Section Scale.
Variables (d : list Z) (enc : option encoding) (tc : fmt) (e : endian) (dim : option Z) (r : reader) (native : endian) (x' : encoding) (t : segytype) (f : float).
Hypothesis RD : readable d enc BinaryReelHeader tc.
Hypothesis OP : opens d enc BinaryReelHeader tc e dim r.
Hypothesis AR : all_readable native d r.
Hypothesis AT : coincident_alike tc.
Hypothesis S' : supported x'.
Hypothesis TE : text_encodable r x'.
Hypothesis ST : sample_type (rd_binary r) t.
Hypothesis WF : float_wf f.

Lemma scale_by_all e' pr log : all_samples native d r (fits_by t f) -> pr <> NotCallable -> exists ds', scaling (reader_dataset native r (mk_file d 0)) f = Ok ds' /\ exists b w,
  write_segy ds' (Some x') tc e' pr (mk_world (mk_file [] 0) log) = (Ok tt, w) /\ f_data (w_file w) = b /\ all_bytes b /\
  forall a pr' dim' log', attrs_ok a -> pr' <> NotCallable -> (forall k, dim' = Some k -> In k [1; 2; 3]) ->
  exists r' w', create_reader a (Some x') BinaryReelHeader tc (Some e') pr' dim' (mk_world (mk_file b 0) log') = (Ok r', w') /\
    transformed same_fields same_fields (scaled_by t f) d r b r'.
Proof.
  intros SC P. pose proof (binary_good r d enc tc e dim RD OP) as GB. pose proof (sample_format_ok _ _ ST) as SF.
  unfold scaling. cbn [ds_sample_format reader_dataset]. rewrite SF. cbn [bind]. eexists. split; [reflexivity|].
  apply (rewritten d enc BinaryReelHeader tc e dim r native x' RD OP AR binary_alike AT S' TE _ t); try reflexivity; auto; cbn [ds_binary reader_dataset].
  - split; [reflexivity|]. auto.
  - intros k h ss t0 KB ST0 EH ES GH EX. apply (type_unique r t ST) in ST0. subst t0. cbn [ds_trace_header ds_trace_samples reader_dataset]. rewrite EH, ES. cbn [bind].
    destruct (map_res_all (scale_sample t f) (fun s s' => storable t s' /\ forall s'', stored_as t s' s'' -> scaled_by t f s s'') ss) as (ss' & Q & F).
    { specialize (SC k ss KB ES). rewrite Forall_forall in *. intros s I. apply scale_fits; auto. apply (type_known r t ST). }
    exists h, ss'. split; [reflexivity|]. split; [exact Q|]. split; [exact GH|]. split; [reflexivity|]. split; [auto|exact F].
Qed.

Lemma scale_only ds' e' pr w w' : scaling (reader_dataset native r (mk_file d 0)) f = Ok ds' -> write_segy ds' (Some x') tc e' pr w = (Ok tt, w') ->
  all_samples native d r (fits_by t f).
Proof.
  intros SC H k ss KB ES. pose proof (sample_format_ok _ _ ST) as SF. unfold scaling in SC. cbn [ds_sample_format reader_dataset] in SC. rewrite SF in SC. cbn [bind] in SC.
  injection SC as <-. pose proof (written_samples _ _ _ _ _ _ _ t H SF k) as WS. cbn [ds_trace_indexes ds_trace_samples reader_dataset] in WS.
  destruct (reader_writable d enc BinaryReelHeader tc e dim r native x' RD OP AR binary_alike AT S' TE) as (t0 & trs & W & CO & NT & EX & LN & RE).
  assert (t0 = t) as -> by (apply (type_unique r t ST); destruct CO; assumption).
  assert (IX : rd_trace_indexes r = map Z.of_nat (seq 0 (length trs))).
  { destruct (opens_opened d enc BinaryReelHeader tc e dim r RD OP) as (x & ts & t0 & X & O). destruct O as [_ TY0 FT _ _ _ _ _ _ _ _ _ _].
    assert (TR : traces_of d tc e r t0 ts) by now split. destruct (counts_ok d enc BinaryReelHeader tc e dim r t0 ts RD OP TR) as (C1 & C2 & _).
    rewrite C2. do 2 f_equal. unfold zlen in *. lia. }
  destruct WS as (ss' & MS & NR). { rewrite IX. apply in_map_iff. exists (Z.to_nat k). split; [lia|]. apply in_seq. unfold zlen in LN. lia. }
  rewrite ES in MS. cbn [bind] in MS. apply Forall_forall. intros s I c P. destruct (map_res_each _ _ _ MS s I) as (s1 & E1 & I1).
  assert (XS : exact_sample t s).
  { destruct (nth_error trs (Z.to_nat k)) as [tr|] eqn:E. 2: { apply nth_error_None in E. unfold zlen in LN. lia. }
    destruct (RE _ _ E) as (_ & R2). rewrite Z2Nat.id in R2 by lia. assert (snd tr = ss) as SE by congruence. apply nth_error_In in E. rewrite Forall_forall in EX.
    specialize (EX _ E). cbn beta in EX. rewrite SE in EX. rewrite Forall_forall in EX. now apply EX. }
  destruct (fits_dec t c) as [F|F]; [exact F|exfalso]. pose proof (scale_unfit t f s c (type_known r t ST) XS WF P F) as U.
  specialize (NR s1 I1). destruct t; try (rewrite E1 in U; discriminate). destruct U as (s2 & E2 & R). rewrite E1 in E2. injection E2 as <-. contradiction.
Qed.
End Scale.

Lemma scale_by_exactly d enc tc (e : endian) dim r native x' t f :
  readable d enc BinaryReelHeader tc -> opens d enc BinaryReelHeader tc e dim r -> all_readable native d r -> coincident_alike tc ->
  supported x' -> text_encodable r x' -> sample_type (rd_binary r) t -> float_wf f ->
  exists ds', scaling (reader_dataset native r (mk_file d 0)) f = Ok ds' /\
  forall e' pr, pr <> NotCallable ->
  (forall w w', write_segy ds' (Some x') tc e' pr w = (Ok tt, w') -> all_samples native d r (fits_by t f)) /\
  (all_samples native d r (fits_by t f) -> forall log, exists b w,
    write_segy ds' (Some x') tc e' pr (mk_world (mk_file [] 0) log) = (Ok tt, w) /\ f_data (w_file w) = b /\ all_bytes b /\
    forall a pr' dim' log', attrs_ok a -> pr' <> NotCallable -> (forall k, dim' = Some k -> In k [1; 2; 3]) ->
    exists r' w', create_reader a (Some x') BinaryReelHeader tc (Some e') pr' dim' (mk_world (mk_file b 0) log') = (Ok r', w') /\
      transformed same_fields same_fields (scaled_by t f) d r b r').
Proof.
  intros RD OP AR AT S' TE ST WF. destruct (scaling (reader_dataset native r (mk_file d 0)) f) as [ds'|y] eqn:E.
  2: { exfalso. unfold scaling in E. cbn [ds_sample_format reader_dataset] in E. rewrite (sample_format_ok _ _ ST) in E. discriminate. }
  exists ds'. split; [reflexivity|]. intros e' pr P. split.
  - intros w w' H. eapply (scale_only d enc tc e dim r native x' t f); eassumption.
  - intros SC log. destruct (scale_by_all d enc tc e dim r native x' t f RD OP AR AT S' TE ST WF e' pr log SC P) as (ds0 & E0 & H).
    rewrite E in E0. injection E0 as <-. exact H.
Qed.
