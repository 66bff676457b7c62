(* Proofs about datasets transformed on writing. *)
From Coq Require Import String ZArith List Bool Lia ZifyBool ZifyNat.
From Verif Require Import Py PyFloat IbmFloat IbmNumber Packing Formats FileIO Text Float32 Toolkit Reader FieldTypes Transform
  PyFacts Spec_Ibm FloatFacts RoundFacts IbmFacts IbmArith IbmNumberProps RoundUnique Spec_Packing CompileFacts HeaderFacts PackingFacts FormatFacts Spec_Text Spec_Segy Spec_Reader ToolkitFacts ReaderFacts OpenFacts
  Spec_Writer WriterFacts Spec_Fields FieldTypesFacts Spec_Transform.
Import ListNotations.
Local Open Scope string_scope.
Open Scope list_scope.
Open Scope Z_scope.

Lemma choose {A B} (P : nat -> A -> B -> Prop) : forall l s, (forall k a, nth_error l k = Some a -> exists b, P (s + k)%nat a b) ->
  exists l', length l' = length l /\ forall k a b, nth_error l k = Some a -> nth_error l' k = Some b -> P (s + k)%nat a b.
Proof.
  induction l as [|a l IH]; intros s H. { exists []. split; [reflexivity|]. intros [|k] a b E; discriminate. }
  destruct (H 0%nat a eq_refl) as (b & Pb). destruct (IH (S s)) as (l' & L & F).
  { intros k x E. destruct (H (S k) x E) as (y & Py). exists y. now replace (S s + k)%nat with (s + S k)%nat by lia. }
  exists (b :: l'). split; [cbn; now f_equal|]. intros [|k] x y E F'; cbn in E, F'.
  - congruence.
  - replace (s + S k)%nat with (S s + k)%nat by lia. eapply F; eauto.
Qed.

Section Rewrite.
Variables (d : list Z) (enc : option encoding) (bc tc : fmt) (e : endian) (dim : option Z) (r : reader) (native : endian) (x' : encoding).
Hypothesis RD : readable d enc bc tc.
Hypothesis OP : opens d enc bc tc e dim r.
Hypothesis AR : all_readable native d r.
Hypothesis AB : coincident_alike bc.
Hypothesis AT : coincident_alike tc.
Hypothesis S' : supported x'.
Hypothesis TE : text_encodable r x'.
Let ds := reader_dataset native r (mk_file d 0).

Variables (ds' : dataset) (t' : segytype) (bin hd : header -> header -> Prop) (sm : real -> real -> Prop).
Hypothesis D1 : ds_text ds' = rd_text r.
Hypothesis D2 : ds_ext ds' = rd_ext r.
Hypothesis D3 : ds_num_traces ds' = rd_num_traces r.
Hypothesis D4 : ds_trace_indexes ds' = rd_trace_indexes r.
Hypothesis D5 : ds_sample_format ds' = sample_format (ds_binary ds').
Hypothesis B1 : good_header bc (ds_binary ds').
Hypothesis B2 : sample_type (ds_binary ds') t'.
Hypothesis B3 : same_but ["data_sample_format"] (rd_binary r) (ds_binary ds').
Hypothesis B4 : forall b, same_fields (ds_binary ds') b -> bin (rd_binary r) b.
Hypothesis T : forall k h ss t, 0 <= k < rd_num_traces r -> sample_type (rd_binary r) t ->
  fst (rd_trace_header r k None (mk_file d 0)) = Ok h -> fst (rd_trace_samples native r k None None (mk_file d 0)) = Ok ss ->
  good_header tc h -> Forall (exact_sample t) ss ->
  exists h' ss', ds_trace_header ds' k = Ok h' /\ ds_trace_samples ds' k None None = Ok ss' /\ good_header tc h' /\
    hdr_get h' "num_samples" = hdr_get h "num_samples" /\ (forall h'', same_fields h' h'' -> hd h h'') /\
    Forall2 (fun s s' => storable t' s' /\ forall s'', stored_as t' s' s'' -> sm s s'') ss ss'.

Lemma bin_field n : n <> "data_sample_format" -> has_field bc n -> hdr_get (ds_binary ds') n = hdr_get (rd_binary r) n.
Proof.
  intros N (f & F & <-). destruct B3 as (C & G). assert (h_cls (rd_binary r) = bc). { destruct B1 as (E & _). congruence. }
  apply G; [congruence|]. intros [E|[]]. congruence.
Qed.

Lemma rewritten e' pr log : pr <> NotCallable -> exists b w,
  write_segy ds' (Some x') tc e' pr (mk_world (mk_file [] 0) log) = (Ok tt, w) /\ f_data (w_file w) = b /\ all_bytes b /\
  forall a pr' dim' log', attrs_ok a -> pr' <> NotCallable -> (forall k, dim' = Some k -> In k [1; 2; 3]) ->
  exists r' w', create_reader a (Some x') bc tc (Some e') pr' dim' (mk_world (mk_file b 0) log') = (Ok r', w') /\ transformed bin hd sm d r b r'.
Proof.
  intros P. destruct (reader_writable d enc bc tc e dim r native x' RD OP AR AB AT S' TE) as (t & trs & W & CO & NT & EX & LN & RE).
  assert (GD : forall k tr, nth_error trs k = Some tr -> good_header tc (fst tr) /\ hdr_get (fst tr) "num_samples" = Ok (zlen (snd tr)) /\ Forall (exact_sample t) (snd tr)).
  { intros k tr E. apply nth_error_In in E. destruct W as [_ _ _ _ _ _ _ _ _ WG], CO as [_ _ _ _ _ CS]. rewrite Forall_forall in WG, CS, EX.
    split; [now apply WG|]. split; [now apply CS|now apply EX]. }
  assert (TY : sample_type (rd_binary r) t) by (destruct CO; assumption).
  destruct (choose (fun k (tr tr' : trace) => ds_trace_header ds' (Z.of_nat k) = Ok (fst tr') /\ ds_trace_samples ds' (Z.of_nat k) None None = Ok (snd tr') /\ good_header tc (fst tr') /\
    hdr_get (fst tr') "num_samples" = hdr_get (fst tr) "num_samples" /\ (forall h'', same_fields (fst tr') h'' -> hd (fst tr) h'') /\
    Forall2 (fun s s' => storable t' s' /\ forall s'', stored_as t' s' s'' -> sm s s'') (snd tr) (snd tr')) trs 0) as (trs' & L & F).
  { intros k tr E. destruct (RE k tr E) as (R1 & R2). destruct (GD k tr E) as (G1 & G2 & G3).
    destruct (T (Z.of_nat k) (fst tr) (snd tr) t) as (h' & ss' & H); auto.
    { rewrite <- LN. assert (nth_error trs k <> None) by congruence. apply nth_error_Some in H. unfold zlen. lia. }
    exists (h', ss'). exact H. }
  assert (PR : forall k tr', nth_error trs' k = Some tr' -> exists tr, nth_error trs k = Some tr).
  { intros k tr' E. assert (nth_error trs' k <> None) by congruence. apply nth_error_Some in H. destruct (nth_error trs k) as [tr|] eqn:Q; [eauto|].
    apply nth_error_None in Q. lia. }
  assert (FA : forall tr', In tr' trs' -> exists k tr, nth_error trs k = Some tr /\ nth_error trs' k = Some tr').
  { intros tr' I. apply In_nth_error in I. destruct I as (k & E). destruct (PR k tr' E) as (tr & Q). eauto. }
  assert (IX : rd_trace_indexes r = map Z.of_nat (seq 0 (length trs))).
  { destruct (opens_opened d enc bc tc e dim r RD OP) as (x & ts & t0 & X & O). destruct O as [_ TY0 FT _ _ _ _ _ _ _ _ _ _].
    assert (TR : traces_of d tc e r t0 ts) by now split. destruct (counts_ok d enc bc tc e dim r t0 ts RD OP TR) as (C1 & C2 & _).
    rewrite C2. do 2 f_equal. unfold zlen in *. lia. }
  assert (W' : writable ds' x' bc tc t' trs').
  { destruct W as [W1 W2 W3 W4 W5 W6 W7 W8 W9 W10]. constructor; auto.
    - now rewrite D1.
    - now rewrite D2.
    - rewrite D5. now apply sample_format_ok.
    - right. rewrite D3, <- LN. destruct trs; [congruence|]. rewrite zlen_cons. pose proof (zlen_nonneg trs). lia.
    - unfold presents. rewrite D4, IX, <- L. clear -F PR.
      assert (Q : forall n s l, (forall k tr', nth_error l k = Some tr' -> ds_trace_header ds' (Z.of_nat (s + k)) = Ok (fst tr') /\ ds_trace_samples ds' (Z.of_nat (s + k)) None None = Ok (snd tr')) ->
        n = length l -> Forall2 (fun k tr => ds_trace_header ds' k = Ok (fst tr) /\ ds_trace_samples ds' k None None = Ok (snd tr)) (map Z.of_nat (seq s n)) l).
      { induction n as [|n IH]; intros s [|tr' l] H E; try discriminate; cbn [seq map]; constructor.
        - specialize (H 0%nat tr' eq_refl). now rewrite Nat.add_0_r in H.
        - apply IH; [|now injection E]. intros k t2 E2. specialize (H (S k) t2 E2). now replace (S s + k)%nat with (s + S k)%nat by lia. }
      apply Q; [|reflexivity]. intros k tr' E. destruct (PR k tr' E) as (tr & E'). destruct (F k tr tr' E' E) as (F1 & F2 & _). auto.
    - apply Forall_forall. intros tr' I. destruct (FA tr' I) as (k & tr & E & E'). destruct (F k tr tr' E E') as (_ & _ & F3 & _ & _ & F6). split; [exact F3|].
      clear -F6. induction F6; constructor; tauto. }
  assert (CO' : consistent ds' bc tc t' trs').
  { destruct CO as [C1 C2 C3 (v & rev & C4 & C4') C5 C6]. constructor; auto.
    - exists v, rev. rewrite bin_field; auto; [discriminate|apply C1].
    - destruct C5 as (n & C5 & C5'). exists n. rewrite bin_field, D2; auto; [discriminate|apply C1].
    - apply Forall_forall. intros tr' I. destruct (FA tr' I) as (k & tr & E & E'). destruct (F k tr tr' E E') as (_ & _ & _ & F4 & _ & F6).
      destruct (GD k tr E) as (_ & G2 & _). rewrite F4, G2. f_equal. unfold zlen. f_equal. clear -F6. induction F6; cbn; congruence. }
  assert (NT' : trs' <> []) by (intros ->; destruct trs; [congruence|discriminate]).
  destruct (write_contents ds' (Some x') x' bc tc e' t' trs' pr [] log W' eq_refl P) as (b & SC & WR).
  exists b. eexists. split; [exact WR|]. split; [cbn; now rewrite skipn_nil, app_nil_r|]. split; [apply (contents_bytes _ _ _ _ _ _ _ _ SC)|].
  intros a pr' dim' log' A P' D.
  destruct (contents_read ds' x' bc tc e' t' trs' b CO' S' (wr_ext _ _ _ _ _ _ W') SC NT' a pr' dim' log' A P' D) as (r' & w & R & G1 & G2 & G3 & G4 & G5 & G6).
  exists r', w. split; [exact R|].
  destruct (opens_opened d enc bc tc e dim r RD OP) as (x & ts & t0 & X & O). destruct O as [(RT & _) TY0 FT _ _ _ _ _ _ _ _ _ _].
  assert (TR : traces_of d tc e r t0 ts) by now split.
  split. { rewrite D1 in G1. apply fitted_same; [apply RT|apply RT|exact G1]. }
  split; [now apply B4|]. split; [congruence|]. split. { unfold zlen in *. lia. } split. { rewrite G5, IX. now rewrite L. }
  intros k nat q q' K. destruct (nth_error trs (Z.to_nat k)) as [tr|] eqn:E.
  2: { apply nth_error_None in E. unfold zlen in *. lia. }
  destruct (nth_error trs' (Z.to_nat k)) as [tr'|] eqn:E'.
  2: { apply nth_error_None in E'. unfold zlen in *. lia. }
  destruct (F _ _ _ E E') as (F1 & F2 & F3 & F4 & F5 & F6).
  destruct (RE _ _ E) as (R1 & R2). rewrite Z2Nat.id in R1, R2 by lia.
  destruct (G6 k tr' ltac:(lia) E' nat q') as ((h' & H1 & H2) & rs & H3 & H4).
  exists (fst tr), h', (snd tr), rs. split. { rewrite <- R1. apply positionless_header. }
  split; [exact H1|]. split; [now apply F5|]. split.
  { destruct (samples_ok d enc bc tc e dim r t0 ts RD OP TR nat k None None q) as (_ & _ & O1).
    destruct (samples_ok d enc bc tc e dim r t0 ts RD OP TR native k None None 0) as (_ & _ & O2). rewrite R2 in O2.
    exact (samples_outcome_unique _ _ _ _ _ _ _ _ _ O1 O2). }
  split; [exact H3|]. clear -F6 H4. revert rs H4. induction F6 as [|s s' ss ss' H F IH]; intros rs H4; inversion H4; subst; constructor; [|now apply IH].
  now apply H.
Qed.
End Rewrite.

(* ------------------------------------------------------------------ *)
(* samples *)
Lemma unit_pos : 0 < unit.
Proof. unfold unit. apply Z.pow_pos_nonneg; lia. Qed.
Lemma limits_type t : match t with T_FLOAT32 | T_IBM | T_NNINT8 | T_NNINT16 | T_NNINT32 => False | _ => True end ->
  forall k, in_sample_type t k <-> fst (sample_limits t) <= k <= snd (sample_limits t).
Proof. destruct t; cbn; try tauto; lia. Qed.
Lemma clip_nearest t k : match t with T_FLOAT32 | T_IBM | T_NNINT8 | T_NNINT16 | T_NNINT32 => False | _ => True end ->
  nearest_in t k (clip (fst (sample_limits t)) (snd (sample_limits t)) k).
Proof. unfold nearest_in, clip. destruct t; cbn; try tauto; intros _; split; try lia; intros j J; lia. Qed.

Lemma ibm_bounds w : word_ok w -> Z.abs (ibm_units w) <= ibm_max.
Proof. intros H. now apply ibm_max_bound. Qed.
Lemma ibm_exact w : word_ok w -> exists g, ibm_float w = Ok g /\ float_wf g /\ finite g /\ units g = ibm_units w.
Proof. intros H. destruct w as [a b c d]. destruct (decode_bytes a b c d [] H) as (f & _ & E & W & F & U & _). eauto. Qed.
Lemma truncation_exact w w' : word_ok w -> truncation (ibm_units w) w' -> ibm_units w' = ibm_units w.
Proof.
  intros H (W' & P & N & L & B). specialize (B w H ltac:(lia)). destruct (Z.le_ge_cases 0 (ibm_units w)) as [G|G]; [specialize (P G)|specialize (N G)]; lia.
Qed.

Definition int_type (t : segytype) : Prop := match t with T_FLOAT32 | T_IBM | T_NNINT8 | T_NNINT16 | T_NNINT32 => False | _ => True end.
Lemma int_result t k : int_type t -> let c := clip (fst (sample_limits t)) (snd (sample_limits t)) k in
  storable t (RInt c) /\ (forall s', stored_as t (RInt c) s' -> s' = RInt c) /\ nearest_in t k c.
Proof.
  intros T c. pose proof (clip_nearest t k T) as N. fold c in N. generalize dependent c. intros c N. split; [|split; [|exact N]].
  - destruct N as (N & _). destruct t; try contradiction; exact N.
  - destruct t; try contradiction; intros s' H; exact H.
Qed.
(* the number as a double, without its fraction *)
Lemma in_type_small t n : in_sample_type t n -> Z.abs n < 2 ^ 33.
Proof. destruct t; cbn; lia. Qed.
Lemma exact_number t s : exact_sample t s -> finite_number s ->
  (exists g, real_float s = Ok g /\ float_wf g /\ finite g /\ units g = value s) /\ int_of s = Ok (Z.quot (value s) unit).
Proof.
  assert (PU : unit <> 0) by (vm_compute; discriminate).
  intros X F. assert (C : (exists n, s = RInt n /\ in_sample_type t n) \/ (exists g, s = RFloat g /\ float_wf g) \/ exists w, s = RIbm w /\ word_ok w).
  { destruct t; cbn [exact_sample] in X; try (left; exact X); [right; left|right; right; exact X]. destruct X as (g & -> & W & _). eauto. }
  destruct C as [(n & -> & I)|[(g & -> & W)|(w & -> & W)]]; cbn [real_float int_of value finite_number] in *.
  - split. { destruct (IbmNumberProps.f_of_int_exact n) as (g & E & W & F' & U); [|eauto]. apply in_type_small in I. lia. } now rewrite Z.quot_mul.
  - split; [eauto|]. now apply f_int_quot.
  - split; [now apply ibm_exact|]. now apply ibm_trunc_spec.
Qed.
Lemma value_small t s : exact_sample t s -> finite_number s -> value s = 0 \/ ibm_min <= Z.abs (value s) <= ibm_max.
Proof.
  intros X F. destruct (Z.eq_dec (value s) 0) as [Z0|Z0]; [now left|right].
  assert (C : (exists n, s = RInt n /\ Z.abs n < 2 ^ 33) \/ (exists g b, s = RFloat g /\ is_single b g) \/ exists w, s = RIbm w /\ word_ok w).
  { destruct t; cbn [exact_sample] in X; try (left; destruct X as (n & -> & X); exists n; split; [reflexivity|]; now apply (in_type_small _ _) in X); [right; left|right; right; exact X].
    destruct X as (g & -> & W & [B|(b & B)]); [contradiction|eauto]. }
  assert (LO : ibm_min <= unit) by (vm_compute; discriminate).
  destruct C as [(n & -> & I)|[(g & b & -> & B)|(w & -> & W)]]; cbn [value finite_number] in *.
  - assert (HI : 2 ^ 33 * unit <= ibm_max) by (vm_compute; discriminate). rewrite Z.abs_mul. pose proof unit_pos as P. rewrite (Z.abs_eq unit) by (revert P; generalize unit; lia).
    assert (1 <= Z.abs n). { assert (n <> 0) by (intros ->; now apply Z0). lia. } revert LO HI P. generalize unit ibm_min ibm_max. intros u a z; nia.
  - split; [|apply Z.lt_le_incl; eapply Z.lt_le_trans; [exact (single_bound b g B F)|vm_compute; discriminate]].
    destruct B as (_ & _ & B). destruct g as [s|s| |s m x]; try destruct F; [now destruct Z0|]. destruct B as (B1 & B2 & _). rewrite B2 in *. clear B2.
    unfold single_units in *. revert Z0. rewrite !Z.abs_mul. assert (S1 : Z.abs (if single_sign b then -1 else 1) = 1) by (destruct (single_sign b); reflexivity). rewrite S1.
    assert (FR : 0 <= single_frac b) by (apply Z.mod_pos_bound; reflexivity). assert (EX : 0 <= single_exp b) by (apply Z.mod_pos_bound; reflexivity).
    intros Z0. rewrite Z.mul_1_l. apply Z.le_trans with (2 ^ (-149 + 1074)); [vm_compute; discriminate|].
    destruct (single_exp b =? 0) eqn:E0; rewrite ?(Z.abs_eq (2 ^ _)) by (apply Z.pow_nonneg; lia).
    + assert (single_frac b <> 0) by (intros Q; rewrite Q in Z0; apply Z0; ring). assert (0 < 2 ^ (-149 + 1074)) by reflexivity. revert H0. generalize (2 ^ (-149 + 1074)). intros; nia.
    + assert (2 ^ (-149 + 1074) <= 2 ^ (single_exp b - 150 + 1074)) by (apply Z.pow_le_mono_r; lia). assert (0 < 2 ^ (-149 + 1074)) by reflexivity.
      revert H H0. generalize (2 ^ (-149 + 1074)) (2 ^ (single_exp b - 150 + 1074)). intros; nia.
  - split; [now apply ibm_min_le|now apply ibm_bounds].
Qed.

Lemma convert_int t0 t s : int_type t -> exact_sample t0 s -> finite_number s ->
  exists s1, convert_sample t s = Ok s1 /\ storable t s1 /\ forall s', stored_as t s1 s' -> converted t s s'.
Proof.
  intros T X F. destruct (exact_number t0 s X F) as (_ & TR). revert TR. generalize (eq_refl (Z.quot (value s) unit)).
  generalize (Z.quot (value s) unit) at 1 3. intros k KE TR. destruct (int_result t k T) as (A & B & C).
  exists (RInt (clip (fst (sample_limits t)) (snd (sample_limits t)) k)). split.
  { destruct t; try contradiction; cbn [convert_sample]; rewrite TR; reflexivity. }
  split; [exact A|]. intros s' H'. rewrite (B _ H').
  rewrite KE in C at 1. revert C. generalize (clip (fst (sample_limits t)) (snd (sample_limits t)) k). intros c C.
  destruct t; try contradiction; exists c; (split; [reflexivity|exact C]).
Qed.
Lemma convert_any t0 t s : exact_sample t0 s -> match t with T_NNINT8 | T_NNINT16 | T_NNINT32 => False | _ => True end -> convertible t s ->
  exists s1, convert_sample t s = Ok s1 /\ storable t s1 /\ forall s', stored_as t s1 s' -> converted t s s'.
Proof.
  intros X T L. destruct t; try contradiction; try (apply (convert_int t0); [exact I|exact X|exact L]); cbn [convert_sample convertible] in *.
  - assert (D : finite_number s \/ exists f, s = RFloat f /\ float_wf f /\ ~ finite f).
    { destruct s as [f|n|w]; [|now left|now left]. assert (float_wf f) by (destruct t0; destruct X as (g & E & X'); try discriminate; injection E as ->; apply X').
      destruct f; cbn [finite_number finite]; [left; exact I|right|right|left; exact I]; eexists; (split; [reflexivity|]); (split; [exact H|]); intros []. }
    destruct D as [D|(f & -> & W & NF)].
    + destruct (exact_number t0 s X D) as ((g & E & W & F & U) & _). rewrite E. cbn [bind]. eexists. split; [reflexivity|]. split. { cbn [storable]. split; [exact W|]. intros _. rewrite U. now apply L. }
      intros s' (f' & -> & N & _). right. exists f', g. exact (conj eq_refl (conj W (conj F (conj U (N F))))).
    + cbn [real_float bind]. eexists. split; [reflexivity|]. split. { split; [exact W|]. contradiction. }
      intros s' (f' & -> & _ & K). left. split; [exact NF|]. f_equal. apply K. now left.
  - destruct (exact_number t0 s X L) as ((g & E & W & F & U) & _). rewrite E. cbn [bind]. eexists. split; [reflexivity|]. split.
    { cbn [storable]. split; [exact W|]. split; [exact F|]. rewrite U. now apply (value_small t0). }
    intros s' (w' & -> & TC). exists w'. split; [reflexivity|]. now rewrite U in TC.
Qed.

Lemma map_res_all {A B} (f : A -> res B) (P : A -> B -> Prop) l : Forall (fun a => exists b, f a = Ok b /\ P a b) l ->
  exists l', map_res f l = Ok l' /\ Forall2 P l l'.
Proof.
  induction 1 as [|a l (b & E & H) _ (l' & E' & F)]; [exists []; now split|]. exists (b :: l'). cbn [map_res]. rewrite E. cbn [bind]. rewrite E'. cbn [bind].
  split; [reflexivity|now constructor].
Qed.

Lemma binary_good r d enc tc e dim : readable d enc BinaryReelHeader tc -> opens d enc BinaryReelHeader tc e dim r -> good_header BinaryReelHeader (rd_binary r).
Proof.
  intros RD OP. destruct (opens_opened d enc _ tc e dim r RD OP) as (x & ts & t & X & O). destruct O as [(_ & RB & _) _ _ _ _ _ _ _ _ _ _ _ _].
  apply (holds_good BinaryReelHeader e (block d 3200 400) _ 400); [apply binary_reel_format|exact binary_alike|exact RB].
Qed.
Lemma no_coincident_good h : h_cls h = BinaryReelHeader \/ h_cls h = TraceHeaderRev1 -> header_ok h -> good_header (h_cls h) h.
Proof.
  intros C H. split; [reflexivity|]. split; [exact H|]. assert (I : In (h_cls h) shipped) by (cbn; destruct C as [-> | ->]; tauto).
  destruct (shipped_ok _ I) as (K & _ & _ & D). intros f g F G O. f_equal. f_equal. now apply (declared_no_coincident _ K D).
Qed.

Section Convert.
Variables (d : list Z) (enc : option encoding) (tc : fmt) (e : endian) (dim : option Z) (r : reader) (native : endian) (x' : encoding) (t : segytype) (code : Z).
Hypothesis RD : readable d enc BinaryReelHeader tc.
Hypothesis OP : opens d enc BinaryReelHeader tc e dim r.
Hypothesis AR : all_readable native d r.
Hypothesis AT : coincident_alike tc.
Hypothesis S' : supported x'.
Hypothesis TE : text_encodable r x'.
Hypothesis TT : format_code code t.
Hypothesis TL : all_samples native d r (convertible t).

Lemma convert_type e' pr log : pr <> NotCallable -> exists ds', converting (reader_dataset native r (mk_file d 0)) t = Ok ds' /\ exists b w,
  write_segy ds' (Some x') tc e' pr (mk_world (mk_file [] 0) log) = (Ok tt, w) /\ f_data (w_file w) = b /\ all_bytes b /\
  forall a pr' dim' log', attrs_ok a -> pr' <> NotCallable -> (forall k, dim' = Some k -> In k [1; 2; 3]) ->
  exists r' w', create_reader a (Some x') BinaryReelHeader tc (Some e') pr' dim' (mk_world (mk_file b 0) log') = (Ok r', w') /\
    transformed (fun h h' => same_but ["data_sample_format"] h h' /\ hdr_get h' "data_sample_format" = Ok code) same_fields (converted t) d r b r'.
Proof.
  intros P. destruct (shipped_ok BinaryReelHeader) as (K & _ & _ & _); [now left|].
  destruct (binary_good r d enc tc e dim RD OP) as (HC & HO & HA).
  assert (FT : match t with T_NNINT8 | T_NNINT16 | T_NNINT32 => False | _ => True end /\ format_for t = Ok code).
  { unfold format_code in TT. cbn in TT. destruct TT as [E|[E|[E|[E|[E|[]]]]]]; injection E as <- <-; now split. }
  destruct FT as (FT & FC).
  assert (DSF : is_field BinaryReelHeader (mk_field "data_sample_format" DataSampleFormatField 3225 5)).
  { apply (class_field_spec _ "data_sample_format"); [now apply class_ok_levels|vm_compute; reflexivity]. }
  assert (AC : accepts DataSampleFormatField code).
  { unfold format_code in TT. cbn in TT. destruct TT as [E|[E|[E|[E|[E|[]]]]]]; injection E as <- <-; cbn; tauto. }
  destruct (copy_ok (rd_binary r) [("data_sample_format", code)]) as (bin & CP & CC & CF).
  { now rewrite HC. } { exact HO. } { repeat constructor; easy. }
  { intros n v [E|[]]. injection E as <- <-. rewrite HC. eexists. split; [exact DSF|]. now split. }
  rewrite HC in CF, CC.
  unfold converting. rewrite FC. cbn [bind]. cbn [ds_binary reader_dataset]. rewrite CP. cbn [bind]. eexists. split; [reflexivity|].
  assert (GB : hdr_get bin "data_sample_format" = Ok code) by (apply (CF _ DSF); now left).
  assert (SB : same_but ["data_sample_format"] (rd_binary r) bin).
  { split; [congruence|]. rewrite HC. intros f F N. now apply CF. }
  apply (rewritten d enc BinaryReelHeader tc e dim r native x' RD OP AR binary_alike AT S' TE _ t); try reflexivity; auto; cbn [ds_binary].
  - rewrite <- CC. apply no_coincident_good; [now left|]. intros f F. rewrite CC in F. destruct (String.string_dec (fd_name f) "data_sample_format") as [E|E].
    + exists code. rewrite E. split; [exact GB|]. apply (is_field_class _ _ K) in F. rewrite E in F. apply (is_field_class _ _ K) in DSF. cbn [fd_name] in DSF.
      rewrite F in DSF. injection DSF as ->. exact AC.
    + destruct (CF f F) as (_ & G). rewrite G; [|intros [E'|[]]; cbn in E'; congruence]. apply HO. now rewrite HC.
  - exists code. now split.
  - intros b (BC & BF). split.
    + split; [congruence|]. rewrite HC. intros f F N. rewrite BF by now rewrite CC. now apply CF.
    + rewrite <- GB. apply (BF _ ltac:(rewrite CC; exact DSF)).
  - intros k h ss t0 KB ST EH ES GH EX. cbn [ds_trace_header ds_trace_samples reader_dataset]. rewrite EH, ES. cbn [bind].
    destruct (map_res_all (convert_sample t) (fun s s' => storable t s' /\ forall s'', stored_as t s' s'' -> converted t s s'') ss) as (ss' & M & F).
    { specialize (TL k ss KB ES). rewrite Forall_forall in *. intros s I. apply (convert_any t0); auto. }
    exists h, ss'. split; [reflexivity|]. split; [exact M|]. split; [exact GH|]. split; [reflexivity|]. split; [auto|exact F].
Qed.
End Convert.

(* ------------------------------------------------------------------ *)
(* scaling *)
Lemma clip_units lo hi m x : float_wf lo -> finite lo -> float_wf hi -> finite hi -> units hi = m -> units lo = - m -> 0 <= m -> float_wf x -> finite x ->
  float_wf (f_clip lo hi x) /\ finite (f_clip lo hi x) /\ units (f_clip lo hi x) = limited m (units x).
Proof.
  intros W1 F1 W2 F2 U2 U1 M W F. unfold f_clip, limited. rewrite (f_lt_units x hi) by auto.
  destruct (Z.ltb_spec (units x) (units hi)); rewrite f_lt_units by auto.
  - destruct (Z.ltb_spec (units lo) (units x)); (split; [assumption|]); (split; [assumption|]); lia.
  - destruct (Z.ltb_spec (units lo) (units hi)); (split; [assumption|]); (split; [assumption|]); lia.
Qed.
Lemma float32_max_units : units FLOAT32_MAX = float32_limit.
Proof. reflexivity. Qed.
Lemma float32_min_units : units FLOAT32_MIN = - float32_limit.
Proof. unfold FLOAT32_MIN, float32_limit, units. generalize (2 ^ (75 + 1074)). intros. lia. Qed.
Lemma float32_limit_single : 0 <= float32_limit < single_limit.
Proof.
  unfold float32_limit, single_limit. rewrite Z.pow_add_r by lia. assert (0 < 2 ^ 1074) by (apply Z.pow_pos_nonneg; lia). revert H.
  generalize (2 ^ 1074). intros z Hz. nia.
Qed.
Lemma limited_abs m u : 0 <= m -> Z.abs (limited m u) <= m.
Proof. unfold limited. lia. Qed.

Lemma mul_product x f : float_wf x -> finite x -> Z.abs (units x) < 2 ^ 253 * unit -> moderate f -> product (units x) (units f) (f_mul x f).
Proof.
  intros W F B (W' & F' & B'). apply f_mul_rounds; auto. rewrite Z.abs_mul. replace (1023 + 2148) with (70 + (253 + 1074) + (700 + 1074)) by lia.
  rewrite !Z.pow_add_r by lia. fold unit. assert (P : 0 < unit) by (unfold unit; apply Z.pow_pos_nonneg; lia).
  revert B B' P. generalize unit. intros u B B' P. nia.
Qed.
Lemma wide_ibm w : word_ok w -> Z.abs (ibm_units w) < 2 ^ 253 * unit.
Proof.
  intros H. eapply Z.le_lt_trans; [now apply ibm_bounds|]. unfold ibm_max, unit. replace (-24 + 4 * 63 + 1074) with (228 + 1074) by lia.
  rewrite Z.pow_add_r by lia. assert (P : 0 < 2 ^ 1074) by (apply Z.pow_pos_nonneg; lia). revert P. generalize (2 ^ 1074). intros u P. nia.
Qed.
Lemma wide_single bits g : is_single bits g -> finite g -> Z.abs (units g) < 2 ^ 253 * unit.
Proof.
  intros H F. pose proof (single_bound bits g H F) as B. unfold single_limit in B. unfold unit.
  assert (P : 0 < 2 ^ 1074) by (apply Z.pow_pos_nonneg; lia). revert P B. generalize (2 ^ 1074). intros u P B. nia.
Qed.
Lemma wide_int n : Z.abs n < 2 ^ 33 -> Z.abs (n * unit) < 2 ^ 253 * unit.
Proof.
  intros H. rewrite Z.abs_mul. assert (P : 0 < unit) by (unfold unit; apply Z.pow_pos_nonneg; lia). revert P. generalize unit. intros u P. nia.
Qed.

(* an int times a moderate float *)
Lemma int_times n f : Z.abs n < 2 ^ 33 -> moderate f -> exists p, real_times (RInt n) f = Ok (RFloat p) /\ product (n * unit) (units f) p /\
  int_of (RFloat p) = Ok (Z.quot (units p) unit).
Proof.
  intros H M. destruct (IbmNumberProps.f_of_int_exact n) as (g & E & W & F & U). { clear -H. lia. }
  exists (f_mul g f). cbn [real_times]. rewrite E. cbn [bind]. split; [reflexivity|]. assert (P : product (n * unit) (units f) (f_mul g f)).
  { rewrite <- U. apply mul_product; auto. rewrite U. now apply wide_int. }
  split; [exact P|]. cbn [int_of]. apply f_int_quot; apply P.
Qed.

Lemma scale_int t f n : int_type t -> in_sample_type t n -> moderate f ->
  exists s, scale_sample t f (RInt n) = Ok s /\ storable t s /\ forall s', stored_as t s s' -> scaled t f (RInt n) s'.
Proof.
  intros T I M. destruct (int_times n f (in_type_small t n I) M) as (p & E & P & K). revert K. generalize (eq_refl (Z.quot (units p) unit)).
  generalize (Z.quot (units p) unit) at 1 3. intros k KE K. destruct (int_result t k T) as (A & B & C).
  exists (RInt (clip (fst (sample_limits t)) (snd (sample_limits t)) k)). split.
  { unfold scale_sample. rewrite E. cbn [bind]. destruct t; try contradiction; rewrite K; reflexivity. }
  split; [exact A|]. intros s' H'. rewrite (B _ H'). rewrite KE in C at 1. revert C. generalize (clip (fst (sample_limits t)) (snd (sample_limits t)) k). intros c C.
  destruct t; try contradiction; exists n, p, c; (split; [reflexivity|]); (split; [reflexivity|]); (split; [exact P|exact C]).
Qed.

Lemma scale_any t f s : match t with T_NNINT8 | T_NNINT16 | T_NNINT32 => False | _ => True end -> exact_sample t s -> scalable t f s -> moderate f ->
  exists s1, scale_sample t f s = Ok s1 /\ storable t s1 /\ forall s', stored_as t s1 s' -> scaled t f s s'.
Proof.
  intros T X SC M. destruct t; try contradiction; try (destruct X as (n & -> & X); apply scale_int; [exact I|exact X|exact M]).
  - destruct X as (g & -> & W & B). cbn [scalable] in SC. destruct B as [B|(bits & B)]; [contradiction|].
    assert (P : product (units g) (units f) (f_mul g f)) by (apply mul_product; auto; eapply wide_single; eauto).
    assert (PW : float_wf (f_mul g f) /\ finite (f_mul g f)) by (split; apply P). destruct PW as (PW & PF).
    destruct (clip_units FLOAT32_MIN FLOAT32_MAX float32_limit (f_mul g f)) as (W1 & F1 & U1); auto; try reflexivity; try apply float32_min_units; try apply float32_limit_single.
    unfold scale_sample. cbn [real_times bind real_float float_limits fst snd]. eexists. split; [reflexivity|]. split.
    { cbn [storable]. split; [exact W1|]. intros _. rewrite U1. eapply Z.le_lt_trans; [apply limited_abs|]; apply float32_limit_single. }
    intros s' (f' & -> & N & _). exists g, (f_mul g f), (f_clip FLOAT32_MIN FLOAT32_MAX (f_mul g f)), f'.
    split; [reflexivity|]. split; [reflexivity|]. split; [exact P|]. split; [exact W1|]. split; [exact F1|]. split; [exact U1|exact (N F1)].
  - destruct X as (w & -> & W). cbn [scalable] in SC. destruct (ibm_exact w W) as (g & E & GW & GF & GU).
    assert (P : product (ibm_units w) (units f) (f_mul g f)) by (rewrite <- GU; apply mul_product; auto; rewrite GU; now apply wide_ibm).
    assert (PW : float_wf (f_mul g f) /\ finite (f_mul g f)) by (split; apply P). destruct PW as (PW & PF). destruct MAX_wf as (M1 & M2 & M3 & M4).
    assert (MM : ibm_min <= ibm_max).
    { unfold ibm_min, ibm_max. change (-4 * 70 + 1074) with 794. change (-24 + 4 * 63 + 1074) with (508 + 794). rewrite Z.pow_add_r by lia.
      assert (Q : 0 < 2 ^ 794) by (apply Z.pow_pos_nonneg; lia). revert Q. generalize (2 ^ 794). intros u Q. nia. }
    assert (M0 : 0 < ibm_min) by (unfold ibm_min; apply Z.pow_pos_nonneg; lia).
    destruct (clip_units MIN_IBM_FLOAT MAX_IBM_FLOAT ibm_max (f_mul g f)) as (W1 & F1 & U1); auto; try apply MAX_units; try apply MIN_units.
    unfold scale_sample. cbn [real_times]. unfold num_mul, operator, ibm_mul_num. rewrite E. cbn [bind num_float ibm_if is_ibm real_float float_limits fst snd].
    eexists. split; [reflexivity|]. split.
    { cbn [storable]. split; [exact W1|]. split; [exact F1|]. rewrite U1. specialize (SC _ P). clear -SC MM M0. revert SC MM M0. unfold limited. generalize ibm_max ibm_min (units (f_mul g f)). intros. lia. }
    intros s' (w' & -> & TC). exists w, (f_mul g f), w'. rewrite U1 in TC. split; [reflexivity|]. split; [reflexivity|]. split; [exact P|exact TC].
Qed.

Section Scale.
Variables (d : list Z) (enc : option encoding) (tc : fmt) (e : endian) (dim : option Z) (r : reader) (native : endian) (x' : encoding) (t : segytype) (f : float).
Hypothesis RD : readable d enc BinaryReelHeader tc.
Hypothesis OP : opens d enc BinaryReelHeader tc e dim r.
Hypothesis AR : all_readable native d r.
Hypothesis AT : coincident_alike tc.
Hypothesis S' : supported x'.
Hypothesis TE : text_encodable r x'.
Hypothesis ST : sample_type (rd_binary r) t.
Hypothesis MO : moderate f.

Lemma type_known : match t with T_NNINT8 | T_NNINT16 | T_NNINT32 => False | _ => True end.
Proof. destruct ST as (c & _ & F). unfold format_code in F. cbn in F. destruct F as [F|[F|[F|[F|[F|[]]]]]]; injection F as <- <-; exact I. Qed.
Lemma type_unique t' : sample_type (rd_binary r) t' -> t' = t.
Proof.
  intros (c & G & F). destruct ST as (c' & G' & F'). rewrite G in G'. injection G' as <-. unfold format_code in F, F'. cbn in F, F'.
  destruct F as [F|[F|[F|[F|[F|[]]]]]], F' as [F'|[F'|[F'|[F'|[F'|[]]]]]]; congruence.
Qed.

Lemma scale_all e' pr log : all_samples native d r (scalable t f) -> pr <> NotCallable -> exists ds', scaling (reader_dataset native r (mk_file d 0)) f = Ok ds' /\ exists b w,
  write_segy ds' (Some x') tc e' pr (mk_world (mk_file [] 0) log) = (Ok tt, w) /\ f_data (w_file w) = b /\ all_bytes b /\
  forall a pr' dim' log', attrs_ok a -> pr' <> NotCallable -> (forall k, dim' = Some k -> In k [1; 2; 3]) ->
  exists r' w', create_reader a (Some x') BinaryReelHeader tc (Some e') pr' dim' (mk_world (mk_file b 0) log') = (Ok r', w') /\
    transformed same_fields same_fields (scaled t f) d r b r'.
Proof.
  intros SC P. pose proof (binary_good r d enc tc e dim RD OP) as GB. pose proof (sample_format_ok _ _ ST) as SF.
  unfold scaling. cbn [ds_sample_format reader_dataset]. rewrite SF. cbn [bind]. eexists. split; [reflexivity|].
  apply (rewritten d enc BinaryReelHeader tc e dim r native x' RD OP AR binary_alike AT S' TE _ t); try reflexivity; auto; cbn [ds_binary reader_dataset].
  - split; [reflexivity|]. auto.
  - intros k h ss t0 KB ST0 EH ES GH EX. apply type_unique in ST0. subst t0. cbn [ds_trace_header ds_trace_samples reader_dataset]. rewrite EH, ES. cbn [bind].
    destruct (map_res_all (scale_sample t f) (fun s s' => storable t s' /\ forall s'', stored_as t s' s'' -> scaled t f s s'') ss) as (ss' & Q & F).
    { specialize (SC k ss KB ES). rewrite Forall_forall in *. intros s I. apply scale_any; auto. apply type_known. }
    exists h, ss'. split; [reflexivity|]. split; [exact Q|]. split; [exact GH|]. split; [reflexivity|]. split; [auto|exact F].
Qed.
End Scale.

(* ------------------------------------------------------------------ *)
(* coordinates *)
Lemma scale_field_spec f h g : moderate f -> class_ok (h_cls h) -> header_ok h -> is_field (h_cls h) g -> fd_type g = Int32 ->
  exists v p, hdr_get h (fd_name g) = Ok v /\ product (v * unit) (units f) p /\
    (- 2 ^ 31 <= Z.quot (units p) unit < 2 ^ 31 -> exists h', scale_field f h (fd_name g) = Ok h' /\ h_cls h' = h_cls h /\ header_ok h' /\
       hdr_get h' (fd_name g) = Ok (Z.quot (units p) unit) /\ forall n, n <> fd_name g -> hdr_get h' n = hdr_get h n) /\
    (~ (- 2 ^ 31 <= Z.quot (units p) unit < 2 ^ 31) -> scale_field f h (fd_name g) = Err ValueError).
Proof.
  intros M C HO F T. destruct (HO g F) as (v & G & A). assert (B : - 2 ^ 31 <= v < 2 ^ 31). { rewrite T in A. cbn in A. lia. }
  destruct (int_times v f) as (p & E & P & K); [lia|exact M|]. exists v, p. split; [exact G|]. split; [exact P|].
  unfold scale_field. rewrite G. cbn [bind]. rewrite E. cbn [bind].
  assert (N : number_ok (RFloat p)) by apply P. assert (PF : finite p) by apply P. assert (TZ : toward_zero (RFloat p) (Z.quot (units p) unit)) by now split.
  revert TZ. generalize (Z.quot (units p) unit). intros q TZ.
  assert (AQ : accepts (fd_type g) q <-> - 2 ^ 31 <= q < 2 ^ 31) by (rewrite T; cbn; lia).
  destruct (assign_outcome h g (RFloat p) C F N) as [(k & h' & T' & A' & E' & C' & G' & R)|[(E' & NA)|(E' & s & SI)]].
  - rewrite (toward_zero_unique _ k q T' TZ) in *. split; [|tauto]. intros Q. exists h'. split; [exact E'|]. split; [exact C'|]. split; [|now split].
    intros f0 F0. rewrite C' in F0. destruct (String.string_dec (fd_name f0) (fd_name g)) as [Eq|Ne].
    + rewrite Eq. exists q. split; [exact G'|]. apply (is_field_class _ _ C) in F0. rewrite Eq, (is_field_class _ _ C F) in F0. now injection F0 as <-.
    + rewrite R by exact Ne. now apply HO.
  - split; [|auto]. intros Q. exfalso. apply (NA q TZ). tauto.
  - injection SI as ->. destruct PF.
Qed.

Lemma source_fields n : source_field n -> exists g, is_field TraceHeaderRev1 g /\ fd_name g = n /\ fd_type g = Int32.
Proof.
  destruct (shipped_ok TraceHeaderRev1) as (K & _); [cbn; tauto|].
  assert (C : forall n g, class_field TraceHeaderRev1 n = Some g -> is_field TraceHeaderRev1 g /\ fd_name g = n).
  { intros n' g H. now apply class_field_spec in H; [|apply class_ok_levels]. }
  assert (X : class_field TraceHeaderRev1 "source_x" = Some (mk_field "source_x" Int32 73 0)) by (vm_compute; reflexivity).
  assert (Y : class_field TraceHeaderRev1 "source_y" = Some (mk_field "source_y" Int32 77 0)) by (vm_compute; reflexivity).
  intros [-> | ->]; eexists; [split; [apply (C _ _ X)|]|split; [apply (C _ _ Y)|]]; split; reflexivity.
Qed.
Lemma coordinate_spec f h n : moderate f -> good_header TraceHeaderRev1 h -> source_field n ->
  exists v p, hdr_get h n = Ok v /\ product (v * unit) (units f) p /\
    (- 2 ^ 31 <= Z.quot (units p) unit < 2 ^ 31 -> exists h', scale_field f h n = Ok h' /\ good_header TraceHeaderRev1 h' /\
       hdr_get h' n = Ok (Z.quot (units p) unit) /\ forall n', n' <> n -> hdr_get h' n' = hdr_get h n') /\
    (~ (- 2 ^ 31 <= Z.quot (units p) unit < 2 ^ 31) -> scale_field f h n = Err ValueError).
Proof.
  intros M (HC & HO & _) SF. destruct (shipped_ok TraceHeaderRev1) as (K & _); [cbn; tauto|].
  destruct (source_fields n SF) as (g & F & <- & T).
  destruct (scale_field_spec f h g) as (v & p & G & P & A & B); auto; try (rewrite HC; assumption).
  exists v, p. split; [exact G|]. split; [exact P|]. split; [|exact B]. intros Q. destruct (A Q) as (h' & E & C' & O' & G' & R). exists h'. split; [exact E|]. split; [|now split].
  rewrite HC in C'. rewrite <- C'. apply no_coincident_good; [now right|exact O'].
Qed.
Lemma coordinates_spec f h : moderate f -> good_header TraceHeaderRev1 h ->
  let scaled_header := do h1 <- scale_field f h "source_x" ;; scale_field f h1 "source_y" in
  (coordinate_fits f "source_x" h /\ coordinate_fits f "source_y" h -> exists h', scaled_header = Ok h' /\ good_header TraceHeaderRev1 h' /\ coordinates_scaled f h h') /\
  (forall n v p, source_field n -> hdr_get h n = Ok v -> product (v * unit) (units f) p -> ~ (- 2 ^ 31 <= Z.quot (units p) unit < 2 ^ 31) -> scaled_header = Err ValueError).
Proof.
  intros M GH sh. unfold sh. clear sh.
  destruct (coordinate_spec f h "source_x" M GH (or_introl eq_refl)) as (v & p & G & P & A & B). split.
  - intros (FX & FY). destruct (A (FX v p G P)) as (h1 & -> & GH1 & G1 & R1). cbn [bind].
    destruct (coordinate_spec f h1 "source_y" M GH1 (or_intror eq_refl)) as (v2 & p2 & G2 & P2 & A2 & B2). rewrite R1 in G2 by discriminate.
    destruct (A2 (FY v2 p2 G2 P2)) as (h2 & -> & GH2 & G3 & R2). exists h2. split; [reflexivity|]. split; [exact GH2|]. split; [|split].
    + split. { destruct GH as (-> & _), GH2 as (-> & _). reflexivity. } intros g _ N. rewrite R2, R1; [reflexivity|intros Q; apply N; rewrite Q; now left|intros Q; apply N; rewrite Q; right; now left].
    + exists v, p. split; [exact G|]. split; [exact P|]. rewrite R2 by discriminate. exact G1.
    + exists v2, p2. auto.
  - assert (U : forall n (h h1 : header) v p v' p', hdr_get h1 n = hdr_get h n -> hdr_get h n = Ok v -> product (v * unit) (units f) p -> hdr_get h1 n = Ok v' -> product (v' * unit) (units f) p' ->
      Z.quot (units p) unit = Z.quot (units p') unit).
    { intros n h0 h1 v0 p0 v' p' Q G0 P0 G' P'. assert (v' = v0) by congruence. subst v'. assert (PU : 0 < unit) by (unfold unit; apply Z.pow_pos_nonneg; lia). now rewrite (rounds_unique _ _ _ _ PU P0 P'). }
    intros n v' p' SF G' P' NR. destruct SF as [-> | ->].
    + rewrite B; [reflexivity|]. now rewrite <- (U _ h h v' p' v p eq_refl G' P' G P).
    + assert (D : (- 2 ^ 31 <= Z.quot (units p) unit < 2 ^ 31) \/ ~ (- 2 ^ 31 <= Z.quot (units p) unit < 2 ^ 31)).
      { generalize (Z.quot (units p) unit). intros z. lia. }
      destruct D as [D|D]; [|rewrite (B D); reflexivity]. destruct (A D) as (h1 & -> & GH1 & G1 & R1). cbn [bind].
      destruct (coordinate_spec f h1 "source_y" M GH1 (or_intror eq_refl)) as (v2 & p2 & G2 & P2 & A2 & B2).
      apply B2. rewrite <- (U "source_y" h h1 v' p' v2 p2 ltac:(apply R1; discriminate) G' P' G2 P2). exact NR.
Qed.

Lemma exact_storable t s : exact_sample t s -> storable t s.
Proof.
  destruct t; cbn [exact_sample]; try (intros (n & -> & H); exact H).
  intros (g & -> & W & B). split; [exact W|]. intros F. destruct B as [B|(bits & B)]; [contradiction|]. exact (single_bound bits g B F).
Qed.

Section Coordinates.
Variables (d : list Z) (enc : option encoding) (e : endian) (dim : option Z) (r : reader) (native : endian) (x' : encoding) (f : float).
Hypothesis RD : readable d enc BinaryReelHeader TraceHeaderRev1.
Hypothesis OP : opens d enc BinaryReelHeader TraceHeaderRev1 e dim r.
Hypothesis MO : moderate f.

Lemma scale_coords e' pr log : all_readable native d r -> supported x' -> text_encodable r x' ->
  (forall k h, 0 <= k < rd_num_traces r -> fst (rd_trace_header r k None (mk_file d 0)) = Ok h -> coordinate_fits f "source_x" h /\ coordinate_fits f "source_y" h) ->
  pr <> NotCallable -> exists b w,
  write_segy (scaling_coords (reader_dataset native r (mk_file d 0)) f) (Some x') TraceHeaderRev1 e' pr (mk_world (mk_file [] 0) log) = (Ok tt, w) /\ f_data (w_file w) = b /\ all_bytes b /\
  forall a pr' dim' log', attrs_ok a -> pr' <> NotCallable -> (forall k, dim' = Some k -> In k [1; 2; 3]) ->
  exists r' w', create_reader a (Some x') BinaryReelHeader TraceHeaderRev1 (Some e') pr' dim' (mk_world (mk_file b 0) log') = (Ok r', w') /\
    transformed same_fields (coordinates_scaled f) eq d r b r'.
Proof.
  intros AR S' TE FT P. destruct (shipped_ok TraceHeaderRev1) as (K & _); [cbn; tauto|]. pose proof (binary_good r d enc TraceHeaderRev1 e dim RD OP) as GB.
  assert (exists t, sample_type (rd_binary r) t) as (t & ST).
  { destruct (opens_opened d enc _ _ e dim r RD OP) as (x & ts & t & X & O). destruct O. eauto. }
  apply (rewritten d enc BinaryReelHeader TraceHeaderRev1 e dim r native x' RD OP AR binary_alike rev1_alike S' TE _ t); try reflexivity; auto; cbn [ds_binary scaling_coords reader_dataset].
  - split; [reflexivity|]. auto.
  - intros k h ss t0 KB ST0 EH ES GH EX. rewrite (type_unique r t ST t0 ST0) in EX. cbn [ds_trace_header ds_trace_samples scaling_coords reader_dataset]. rewrite EH, ES. cbn [bind].
    destruct (coordinates_spec f h MO GH) as (A & _). destruct (A (FT k h KB EH)) as (h' & E & GH' & SB & CX & CY).
    exists h', ss. split; [exact E|]. split; [reflexivity|]. split; [exact GH'|].
    destruct GH as (HC & _). destruct GH' as (HC' & _).
    assert (FN : forall n, has_field TraceHeaderRev1 n -> n <> "source_x" -> n <> "source_y" -> hdr_get h' n = hdr_get h n).
    { intros n (g & G & <-) N1 N2. apply SB; [now rewrite HC|]. intros [Q|[Q|[]]]; congruence. }
    split. { apply FN; [|discriminate|discriminate]. eapply has_field_by; [exact K|vm_compute; reflexivity]. }
    split.
    { intros h'' (C2 & F2). assert (FS : forall n, has_field TraceHeaderRev1 n -> hdr_get h'' n = hdr_get h' n).
      { intros n (g & G & <-). apply F2. now rewrite HC'. }
      split; [|split].
      - split; [congruence|]. intros g G N. rewrite F2 by congruence. apply SB; [congruence|exact N].
      - destruct CX as (v & p & Q1 & Q2 & Q3). exists v, p. split; [exact Q1|]. split; [exact Q2|]. rewrite FS; [exact Q3|]. eapply has_field_by; [exact K|vm_compute; reflexivity].
      - destruct CY as (v & p & Q1 & Q2 & Q3). exists v, p. split; [exact Q1|]. split; [exact Q2|]. rewrite FS; [exact Q3|]. eapply has_field_by; [exact K|vm_compute; reflexivity]. }
    clear -EX. induction EX as [|s ss X _ IH]; constructor; [|exact IH]. split; [now apply exact_storable|]. intros s'' H.
    assert (Q : [s''] = [s]) by (apply (exact_kept t); repeat constructor; assumption). now injection Q.
Qed.

Lemma coords_beyond k h n v p : fst (rd_trace_header r k None (mk_file d 0)) = Ok h -> good_header TraceHeaderRev1 h -> source_field n ->
  hdr_get h n = Ok v -> product (v * unit) (units f) p -> ~ (- 2 ^ 31 <= Z.quot (units p) unit < 2 ^ 31) ->
  ds_trace_header (scaling_coords (reader_dataset native r (mk_file d 0)) f) k = Err ValueError.
Proof.
  intros E GH SF G P N. cbn [ds_trace_header scaling_coords reader_dataset]. rewrite E. cbn [bind]. destruct (coordinates_spec f h MO GH) as (_ & B).
  exact (B n v p SF G P N).
Qed.
End Coordinates.

(* ------------------------------------------------------------------ *)
(* scaling by one *)
Lemma product_one u f p g : float_wf g -> finite g -> units g = u -> units f = unit -> product u (units f) p -> units p = u.
Proof.
  intros W F U E (_ & _ & H). destruct (H g W F) as (A & _). rewrite E, U in A. revert A. pose proof unit_pos as P. revert P. generalize unit (units p). intros z y P A. nia.
Qed.
Lemma limited_same m u : Z.abs u <= m -> limited m u = u.
Proof. unfold limited. lia. Qed.
Lemma nearest_in_same t k c : in_sample_type t k -> nearest_in t k c -> c = k.
Proof. intros I (_ & H). specialize (H k I). lia. Qed.
Lemma scaled_int_one t f n s' : int_type t -> units f = unit -> in_sample_type t n -> scaled t f (RInt n) s' -> s' = RInt n.
Proof.
  intros T E I S. assert (Q : exists n' p k, RInt n = RInt n' /\ s' = RInt k /\ product (n' * unit) (units f) p /\ nearest_in t (Z.quot (units p) unit) k).
  { destruct t; try contradiction; exact S. }
  destruct Q as (n' & p & k & E1 & -> & P & N). injection E1 as <-. destruct (IbmNumberProps.f_of_int_exact n) as (g & _ & W & F & U).
  { pose proof (in_type_small t n I) as B. clear -B. lia. }
  rewrite (product_one _ f p g W F U E P), Z.quot_mul in N by (pose proof unit_pos as PU; revert PU; generalize unit; lia).
  f_equal. now apply (nearest_in_same t).
Qed.
Lemma scaled_ibm_one f w s' : units f = unit -> word_ok w -> scaled T_IBM f (RIbm w) s' -> exists w', s' = RIbm w' /\ ibm_units w' = ibm_units w.
Proof.
  intros E W (w0 & p & w' & E1 & -> & P & T). injection E1 as <-. destruct (ibm_exact w W) as (g & _ & GW & GF & GU).
  rewrite (product_one _ f p g GW GF GU E P), limited_same in T by now apply ibm_bounds. exists w'. split; [reflexivity|]. now apply truncation_exact.
Qed.
Lemma scaled_float_one f g s' bits : units f = unit -> is_single bits g -> finite g -> Z.abs (units g) <= float32_limit -> scaled T_FLOAT32 f (RFloat g) s' ->
  exists g', s' = RFloat g' /\ units g' = units g.
Proof.
  intros E B F L (g0 & p & q & g' & E1 & -> & P & QW & QF & U & N). injection E1 as <-.
  assert (W : float_wf g) by apply B. rewrite (product_one _ f p g W F eq_refl E P), limited_same in U by exact L. exists g'. split; [reflexivity|].
  destruct N as (_ & b & _ & H). destruct (H bits g B F) as (A & _). rewrite U in A. revert A. generalize (units g) (units g'). intros; lia.
Qed.
(* what goes wrong *)
Lemma convert_refused w : word_ok w -> single_limit <= Z.abs (ibm_units w) -> exists s, convert_sample T_FLOAT32 (RIbm w) = Ok s /\ refused T_FLOAT32 s.
Proof.
  intros W L. destruct (ibm_exact w W) as (g & E & GW & GF & GU). exists (RFloat g). cbn [convert_sample real_float]. rewrite E. split; [reflexivity|].
  cbn [refused]. rewrite GU. now split.
Qed.
Lemma convert_infinite t f : ~ finite f -> match t with
  | T_INT8 | T_INT16 | T_INT32 => convert_sample t (RFloat f) = Err (match f with S754_nan => ValueError | _ => OverflowError end)
  | T_IBM => float_wf f -> convert_sample t (RFloat f) = Ok (RFloat f) /\ refused t (RFloat f)
  | _ => True end.
Proof.
  intros N. destruct t; try exact I; try (destruct f; cbn in N; try tauto; reflexivity). intros W. split; [reflexivity|]. split; [exact W|now left].
Qed.
Lemma convert_nonnegative src t : t = T_NNINT8 \/ t = T_NNINT16 \/ t = T_NNINT32 -> converting src t = Err KeyError.
Proof. intros [-> | [-> | ->]]; reflexivity. Qed.
Lemma scale_nan f : scale_sample T_FLOAT32 f (RFloat S754_nan) = Ok (RFloat FLOAT32_MAX).
Proof. unfold scale_sample, real_times. destruct f; reflexivity. Qed.
Lemma scale_underflow w f p : word_ok w -> moderate f -> product (ibm_units w) (units f) p -> 0 < Z.abs (units p) < ibm_min ->
  exists s, scale_sample T_IBM f (RIbm w) = Ok s /\ refused T_IBM s.
Proof.
  intros W M P B. destruct (ibm_exact w W) as (g & E & GW & GF & GU).
  assert (P' : product (ibm_units w) (units f) (f_mul g f)) by (rewrite <- GU; apply mul_product; auto; rewrite GU; now apply wide_ibm).
  pose proof (rounds_unique _ _ _ _ unit_pos P P') as UE. destruct MAX_wf as (M1 & M2 & M3 & M4).
  assert (PW : float_wf (f_mul g f) /\ finite (f_mul g f)) by (split; apply P'). destruct PW as (PW & PF).
  destruct (clip_units MIN_IBM_FLOAT MAX_IBM_FLOAT ibm_max (f_mul g f)) as (W1 & F1 & U1); auto; try apply MAX_units; try apply MIN_units. { unfold ibm_max. apply Z.mul_nonneg_nonneg; [lia|apply Z.pow_nonneg; lia]. }
  unfold scale_sample. cbn [real_times]. unfold num_mul, operator, ibm_mul_num. rewrite E. cbn [bind num_float ibm_if is_ibm real_float float_limits fst snd].
  eexists. split; [reflexivity|]. cbn [refused]. split; [exact W1|]. right. right. rewrite U1, <- UE. rewrite limited_same; [exact B|].
  assert (ibm_min < ibm_max).
  { unfold ibm_min, ibm_max. change (-4 * 70 + 1074) with 794. change (-24 + 4 * 63 + 1074) with (508 + 794). rewrite Z.pow_add_r by lia.
    assert (Q : 0 < 2 ^ 794) by (apply Z.pow_pos_nonneg; lia). revert Q. generalize (2 ^ 794). intros u Q. nia. }
  revert B H. generalize ibm_min ibm_max (units p). intros; lia.
Qed.

(* checking a concrete file *)
Definition all_samplesb (native : endian) (d : list Z) (r : reader) (p : real -> bool) : bool :=
  forallb (fun k => match fst (rd_trace_samples native r (Z.of_nat k) None None (mk_file d 0)) with Ok ss => forallb p ss | _ => true end)
    (seq 0 (Z.to_nat (rd_num_traces r))).
Lemma all_samplesb_ok native d r p (P : real -> Prop) : (forall s, p s = true -> P s) -> all_samplesb native d r p = true -> all_samples native d r P.
Proof.
  intros PP H k ss K E. unfold all_samplesb in H. rewrite forallb_forall in H. specialize (H (Z.to_nat k) ltac:(apply in_seq; lia)). rewrite Z2Nat.id, E in H by lia.
  apply Forall_forall. intros s I. apply PP. rewrite forallb_forall in H. now apply H.
Qed.
