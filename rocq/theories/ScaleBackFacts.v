(* Proofs for C150. *)
From Coq Require Import String ZArith List Bool Lia ZifyBool ZifyNat SpecFloat.
From Verif Require Import Py PyFloat IbmFloat Packing Formats FileIO Text Float32 Toolkit Reader Transform
  Spec_Ibm FloatFacts IbmFacts Spec_Packing Spec_Text Spec_Segy Float32Facts Spec_Reader ReaderFacts OpenFacts
  Spec_Writer WriterFacts Spec_Fields Spec_Transform TransformFacts BothWaysFacts Spec_TypesBack TypesBackFacts Spec_ScaleBack.
Import ListNotations.
Local Open Scope string_scope.
Open Scope list_scope.
Open Scope Z_scope.

Lemma unit_cancel a b : a * unit = b * unit -> a = b.
Proof. pose proof unit_pos as P. revert P. generalize unit. intros u P H. nia. Qed.
Lemma product_exact t u f p v : v * unit = u * units f -> has_value t v -> product u (units f) p -> units p = v.
Proof.
  intros E (s0 & X & F & V) (_ & _ & H). destruct (exact_number t s0 X F) as ((g & _ & W & G & U) & _). rewrite V in U. destruct (H g W G) as (A & _). rewrite U, <- E in A.
  revert A. pose proof unit_pos as P. revert P. generalize unit (units p). intros z y P A. nia.
Qed.
Lemma scaled_exact t f s s' : exact_product t f s -> scaled t f s s' -> times f s s'.
Proof.
  intros (F & v & E & H & L) S. split; [exact F|]. unfold scaled in S. destruct t;
  try (destruct S as (n & p & k & -> & -> & P & N); assert (U := product_exact _ _ _ _ _ E H P); destruct H as (s0 & (m & -> & I) & _ & V); cbn [value] in V |- *;
       rewrite U, <- V, Z.quot_mul in N by (pose proof unit_pos as PU; revert PU; generalize unit; lia); apply nearest_in_same in N; [|exact I]; subst k; split; [exact Logic.I|]; cbn [value] in E; now rewrite V).
  - destruct S as (g & p & q & g' & -> & -> & P & QW & QF & U & N). assert (UP := product_exact _ _ _ _ _ E H P).
    rewrite UP, limited_same in U by now apply L. destruct N as (FG & b & _ & N). split; [exact FG|]. cbn [value].
    destruct H as (s0 & (f0 & -> & W0 & [NF|(bits & S)]) & F0 & V); [now elim NF|]. destruct (N bits f0 S F0) as (A & _). cbn [value] in V.
    assert (units g' = v) as -> by lia. exact E.
  - destruct S as (w & p & w' & -> & -> & P & T). assert (UP := product_exact _ _ _ _ _ E H P). destruct H as (s0 & (w0 & -> & W0) & _ & V). cbn [value] in V |- *.
    rewrite UP, <- V, limited_same in T by now apply ibm_bounds. split; [exact I|]. rewrite (truncation_exact _ _ W0 T), V. exact E.
Qed.
Lemma exact_scalable t f s : exact_product t f s -> scalable t f s.
Proof.
  intros (F & v & E & H & L). destruct t, s as [n|g|w]; try exact I; [exact F|]. cbn [scalable]. intros p P.
  assert (U := product_exact _ _ _ _ _ E H P). destruct H as (s0 & X & F0 & V). destruct (value_small T_IBM s0 X F0) as [Z0|(Z0 & _)]; [left; congruence|right; congruence].
Qed.
Lemma back_exact t f g s s' : units f * units g = unit * unit -> exact_sample t s -> in_limit t (value s) -> times f s s' -> exact_product t g s'.
Proof.
  intros E X L (F & F' & V). split; [exact F'|]. exists (value s). split; [|split; [|exact L]].
  - apply unit_cancel. transitivity (value s * (units f * units g)); [rewrite E; ring|]. transitivity (value s * units f * units g); [ring|]. rewrite <- V. ring.
  - exists s. now split.
Qed.
Lemma times_back f g s s' s'' : units f * units g = unit * unit -> times f s s' -> times g s' s'' -> same_number s s''.
Proof.
  intros E (F & _ & V) (_ & F'' & V'). split; [exact F|]. split; [exact F''|]. do 2 apply unit_cancel.
  rewrite V'. transitivity (value s' * unit * units g); [ring|]. rewrite V. transitivity (value s * (units f * units g)); [ring|]. rewrite E. ring.
Qed.
Lemma scaled_all t f ss ss' : Forall (exact_product t f) ss -> Forall2 (scaled t f) ss ss' -> Forall2 (times f) ss ss'.
Proof. intros A F. induction F as [|s s' ss ss' C F IH]; constructor; inversion A; subst; [now apply (scaled_exact t)|auto]. Qed.

(* one scaling *)
Lemma rescale (tc : fmt) d enc e dim r native t f x1 e1 : coincident_alike tc ->
  readable d enc BinaryReelHeader tc -> opens d enc BinaryReelHeader tc e dim r -> all_readable native d r -> sample_type (rd_binary r) t -> moderate f ->
  all_samples native d r (exact_product t f) -> supported x1 -> text_encodable r x1 ->
  forall pr log, pr <> NotCallable -> exists ds b w, scaling (reader_dataset native r (mk_file d 0)) f = Ok ds /\
  write_segy ds (Some x1) tc e1 pr (mk_world (mk_file [] 0) log) = (Ok tt, w) /\ f_data (w_file w) = b /\ all_bytes b /\
  (exists r', opens b (Some x1) BinaryReelHeader tc e1 dim r') /\
  forall dim' r', opens b (Some x1) BinaryReelHeader tc e1 dim' r' -> transformed same_fields same_fields (times f) d r b r'.
Proof.
  intros AT RD OP AR ST MO HV S1 TE1 pr log P. assert (SC : all_samples native d r (scalable t f)).
  { intros k ss K E. generalize (HV k ss K E). apply Forall_impl. apply exact_scalable. }
  destruct (scale_all d enc tc e dim r native x1 t f RD OP AR AT S1 TE1 ST MO e1 pr log SC P) as (ds & C & b & w & W & D & BB & H).
  exists ds, b, w. do 4 (split; [assumption|]). split.
  { destruct OP as (a & pr' & log' & w' & CR). destruct (create_args _ _ _ _ _ _ _ _ _ _ _ CR) as (V1 & V2 & V3).
    destruct (H a pr' dim log' V1 V2 V3) as (r' & w2 & C2 & _). exists r', a, pr', log', w2. exact C2. }
  intros dim' r' (a & pr' & log' & w' & CR). destruct (create_args _ _ _ _ _ _ _ _ _ _ _ CR) as (V1 & V2 & V3).
  destruct (H a pr' dim' log' V1 V2 V3) as (r2 & w2 & C2 & T). rewrite CR in C2. injection C2 as <- _.
  destruct T as (T1 & T2 & T3 & T4 & T5 & T6). do 5 (split; [assumption|]).
  intros k nat q q' K. destruct (T6 k nat q q' K) as (h & h' & ss & ss' & A1 & A2 & A3 & A4 & A5 & A6). exists h, h', ss, ss'.
  do 5 (split; [assumption|]). apply (scaled_all t); [|exact A6].
  destruct (T6 k nat 0 q' K) as (h0 & h0' & s0 & s0' & _ & _ & _ & B4 & _ & _).
  assert (s0 = ss) as ->.
  { destruct (opens_opened d enc BinaryReelHeader tc e dim r RD OP) as (x0 & ts & t1 & _ & O). destruct O as [_ TY FT _ _ _ _ _ _ _ _ _ _].
    assert (TR : traces_of d tc e r t1 ts) by now split.
    destruct (samples_ok d enc BinaryReelHeader tc e dim r t1 ts RD OP TR nat k None None 0) as (_ & _ & O1).
    destruct (samples_ok d enc BinaryReelHeader tc e dim r t1 ts RD OP TR nat k None None q) as (_ & _ & O2).
    assert (Q := samples_outcome_unique _ _ _ _ _ _ _ _ _ O1 O2). congruence. }
  exact (samples_any_native d enc BinaryReelHeader tc e dim r native nat _ RD OP HV AR k ss K B4).
Qed.

(* there and back *)
Lemma scale_back (tc : fmt) d enc e dim r native t f g x1 e1 x2 e2 : coincident_alike tc ->
  readable d enc BinaryReelHeader tc -> opens d enc BinaryReelHeader tc e dim r -> all_readable native d r ->
  sample_type (rd_binary r) t -> moderate f -> moderate g -> units f * units g = unit * unit ->
  all_samples native d r (fun s => exact_product t f s /\ in_limit t (value s)) ->
  supported x1 -> text_encodable r x1 -> supported x2 -> text_encodable r x2 ->
  forall pr log pr2 log2, pr <> NotCallable -> pr2 <> NotCallable ->
  exists ds b w, scaling (reader_dataset native r (mk_file d 0)) f = Ok ds /\
    write_segy ds (Some x1) tc e1 pr (mk_world (mk_file [] 0) log) = (Ok tt, w) /\ f_data (w_file w) = b /\
    (exists r', opens b (Some x1) BinaryReelHeader tc e1 dim r') /\
    forall native' dim' r', opens b (Some x1) BinaryReelHeader tc e1 dim' r' ->
      transformed same_fields same_fields (times f) d r b r' /\
      exists ds2 c w2, scaling (reader_dataset native' r' (mk_file b 0)) g = Ok ds2 /\
        write_segy ds2 (Some x2) tc e2 pr2 (mk_world (mk_file [] 0) log2) = (Ok tt, w2) /\ f_data (w_file w2) = c /\
        (exists r'', opens c (Some x2) BinaryReelHeader tc e2 dim' r'') /\
        forall dim'' r'', opens c (Some x2) BinaryReelHeader tc e2 dim'' r'' -> transformed same_fields same_fields same_number d r c r''.
Proof.
  intros AT RD OP AR ST MF MG FG HV S1 TE1 S2 TE2 pr log pr2 log2 P P2.
  assert (HV1 : all_samples native d r (exact_product t f)).
  { intros k ss K E. generalize (HV k ss K E). apply Forall_impl. tauto. }
  destruct (rescale tc d enc e dim r native t f x1 e1 AT RD OP AR ST MF HV1 S1 TE1 pr log P) as (ds & b & w & C & W & D & BB & R1 & H).
  exists ds, b, w. do 4 (split; [assumption|]). intros native' dim' r' OP'. assert (T := H dim' r' OP'). split; [exact T|].
  assert (RD' : readable b (Some x1) BinaryReelHeader tc).
  { destruct RD as (_ & A & B & _). split; [exact BB|]. split; [exact A|]. split; [exact B|]. intros y [= <-]. exact S1. }
  assert (HV' : all_samples native' b r' (exact_product t g)).
  { apply (transformed_samples _ _ _ d r b r' native' (fun s => exact_sample t s /\ in_limit t (value s)) _ T).
    - intros k ss K E. apply Forall_and; [exact (samples_typed d enc BinaryReelHeader tc e dim r native' t RD OP ST k ss K E)|].
      generalize (samples_any_native d enc BinaryReelHeader tc e dim r native native' _ RD OP HV AR k ss K E). apply Forall_impl. tauto.
    - intros s s' TM (X & L). now apply (back_exact t f g s). }
  assert (ST' : sample_type (rd_binary r') t).
  { destruct T as (_ & SF & _). destruct ST as (c0 & G & FC). exists c0. split; [|exact FC]. rewrite <- G. destruct SF as (_ & SF).
    assert (HF : has_field (h_cls (rd_binary r)) "data_sample_format").
    { destruct (binary_good r d enc tc e dim RD OP) as (-> & _). apply RD. }
    destruct HF as (fd & I & N). rewrite <- N. now apply SF. }
  destruct (rescale tc b (Some x1) e1 dim' r' native' t g x2 e2 AT RD' OP' (transformed_readable _ _ _ _ _ _ _ native' T) ST' MG HV' S2 (transformed_encodable _ _ _ _ _ _ _ x2 T TE2) pr2 log2 P2)
    as (ds2 & c & w2 & C2 & W2 & D2 & _ & R2 & H2).
  exists ds2, c, w2. do 4 (split; [assumption|]). intros dim'' r'' OP''. assert (T2 := H2 dim'' r'' OP'').
  assert (SF : forall h1 h2 h3, same_fields h1 h2 -> same_fields h2 h3 -> same_fields h1 h3).
  { intros h1 h2 h3 (U1 & U2) (V1 & V2). split; [congruence|]. intros fd I. rewrite V2 by (rewrite U1; exact I). now apply U2. }
  destruct T as (A1 & A2 & A3 & A4 & A5 & A6). destruct T2 as (B1 & B2 & B3 & B4 & B5 & B6).
  split; [congruence|]. split; [eapply SF; eassumption|]. split; [congruence|]. split; [congruence|]. split; [congruence|].
  intros k nat q q' K. destruct (A6 k nat q 0 K) as (h & h' & ss & ss' & E1 & E2 & E3 & E4 & E5 & E6).
  destruct (B6 k nat 0 q' ltac:(rewrite A4; exact K)) as (h1 & h2 & s1 & s2 & F1 & F2 & F3 & F4 & F5 & F6).
  assert (h1 = h') as -> by congruence. assert (s1 = ss') as -> by congruence.
  exists h, h2, ss, s2. split; [exact E1|]. split; [exact F2|]. split; [eapply SF; eassumption|]. split; [exact E4|]. split; [exact F5|].
  clear - E6 F6 FG. revert s2 F6. induction E6 as [|s s' ss ss' S E IH]; intros s2 F; inversion F as [|? y ? l Q F']; subst; constructor; [|now apply IH].
  now apply (times_back f g s s').
Qed.

(* sixteen times an IBM float *)
Lemma ibm_sixteen w : word_ok w -> ibm_E w < 127 -> has_value T_IBM (16 * ibm_units w).
Proof.
  intros O E. exists (RIbm (W (w0 w + 1) (w1 w) (w2 w) (w3 w))). unfold word_ok, ibm_E in *.
  assert (M : (w0 w + 1) mod 128 = w0 w mod 128 + 1 /\ (w0 w + 1 <? 128) = (w0 w <? 128) /\ 0 <= w0 w + 1 < 256).
  { pose proof (Z.div_mod (w0 w) 128 ltac:(lia)). pose proof (Z.mod_pos_bound (w0 w) 128 ltac:(lia)). assert (0 <= w0 w / 128 <= 1) by (split; [apply Z.div_pos; lia|assert (w0 w / 128 < 2) by (apply Z.div_lt_upper_bound; lia); lia]).
    split; [symmetry; apply (Z.mod_unique_pos _ _ (w0 w / 128)); lia|lia]. }
  destruct M as (M1 & M2 & M3). split; [|split; [exact I|]].
  - eexists. split; [reflexivity|]. unfold word_ok. cbn [w0 w1 w2 w3]. intuition lia.
  - cbn [value]. unfold ibm_units, ibm_sign, ibm_E, ibm_M. cbn [w0 w1 w2 w3]. rewrite M1, M2. pose proof (Z.mod_pos_bound (w0 w) 128 ltac:(lia)).
    replace (-24 + 4 * (w0 w mod 128 + 1 - 64) + 1074) with (4 + (-24 + 4 * (w0 w mod 128 - 64) + 1074)) by lia. rewrite Z.pow_add_r by lia. change (2 ^ 4) with 16. ring.
Qed.
