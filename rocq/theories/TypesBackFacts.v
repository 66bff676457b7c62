(* Proofs for C148. *)
From Coq Require Import String ZArith List Bool Lia ZifyBool ZifyNat SpecFloat.
From Verif Require Import Py PyFloat IbmFloat Packing Formats FileIO Text Float32 Toolkit Reader Transform
  Spec_Ibm Spec_Packing Spec_Text Spec_Segy Float32Facts Spec_Reader ReaderFacts OpenFacts
  Spec_Writer WriterFacts Spec_Fields Spec_Transform TransformFacts BothWaysFacts Spec_TypesBack.
Import ListNotations.
Local Open Scope string_scope.
Open Scope list_scope.
Open Scope Z_scope.

Lemma converted_exact t s s' : has_value t (value s) -> finite_number s -> converted t s s' -> same_number s s'.
Proof.
  intros (s0 & X & F0 & V) F C. split; [exact F|]. unfold converted, exact_sample in *. destruct t;
  try (destruct X as (n & -> & I); destruct C as (k & -> & (K & N)); split; [exact Logic.I|]; cbn [value] in V |- *; rewrite <- V in N |- *;
       rewrite Z.quot_mul in N by discriminate; specialize (N n I); assert (k = n) as -> by lia; reflexivity).
  - destruct X as (f0 & -> & W0 & [NF|(bits & S)]); [now elim NF|]. destruct C as [(NF & _)|(f & g & -> & _ & _ & U & (FF & b & _ & N))]; [now elim NF|].
    split; [exact FF|]. destruct (N bits f0 S F0) as (D & _). cbn [value] in *. lia.
  - destruct X as (w0 & -> & W0). destruct C as (w' & -> & (W' & P & Q & L & M)). split; [exact Logic.I|]. cbn [value] in V |- *.
    specialize (M w0 W0). rewrite V in M. lia.
Qed.

(* singles *)
Lemma single_value b : 0 <= b < 2 ^ 32 -> single_exp b < 255 -> has_value T_FLOAT32 (single_units b).
Proof.
  intros R X. exists (RFloat (f32_decode b)). pose proof (decode_single b R) as S.
  assert (FU : finite (f32_decode b) /\ units (f32_decode b) = single_units b).
  { destruct S as (_ & _ & S). destruct (f32_decode b) as [s|s| |s m e].
    - split; [exact I|]. unfold single_units. destruct S as (-> & -> & _). cbn. destruct (single_sign b); reflexivity.
    - lia.
    - lia.
    - split; [exact I|]. apply S. }
  split; [|exact FU]. exists (f32_decode b). split; [reflexivity|]. split; [apply S|]. right. now exists b.
Qed.
Lemma single_of_form n : forall M E (s : bool), Z.to_nat (E + 149) = n -> -149 <= E -> 0 <= M < 2 ^ 24 -> M * 2 ^ (E + 149) < 2 ^ 277 ->
  has_value T_FLOAT32 ((if s then -1 else 1) * (M * 2 ^ (E + 1074))).
Proof.
  induction n as [|n IH]; intros M E s N HE HM HL.
  - assert (E = -149) as -> by lia. destruct (made_single s (-149) M _ ltac:(lia) ltac:(lia) (or_introl eq_refl) ltac:(lia) eq_refl) as (R & S & X & U).
    rewrite <- U. now apply single_value.
  - destruct (Z_lt_le_dec M (2 ^ 23)) as [L|L].
    + replace (M * 2 ^ (E + 1074)) with (2 * M * 2 ^ (E - 1 + 1074)).
      * apply IH; try lia. replace (E - 1 + 149) with (E + 149 - 1) by lia. assert (Q : 2 ^ (E + 149) = 2 * 2 ^ (E + 149 - 1)).
        { rewrite <- Z.pow_succ_r by lia. f_equal. lia. } rewrite Q in HL. lia.
      * assert (Q : 2 ^ (E + 1074) = 2 * 2 ^ (E - 1 + 1074)). { rewrite <- Z.pow_succ_r by lia. f_equal. lia. } rewrite Q. ring.
    + assert (E <= 104).
      { destruct (Z_le_gt_dec E 104) as [|G]; [assumption|]. assert (2 ^ 254 <= 2 ^ (E + 149)) by (apply Z.pow_le_mono_r; lia).
        assert (2 ^ 23 * 2 ^ 254 <= M * 2 ^ (E + 149)) by (apply Z.mul_le_mono_nonneg; lia). change (2 ^ 23 * 2 ^ 254) with (2 ^ 277) in *. lia. }
      destruct (made_single s E M _ ltac:(lia) ltac:(lia) (or_intror L) ltac:(lia) eq_refl) as (R & S & X & U). rewrite <- U. now apply single_value.
Qed.
Lemma single_bounds b : 0 <= b < 2 ^ 32 -> single_exp b < 255 -> Z.abs (single_units b) < single_limit /\ (2 ^ 925 | single_units b).
Proof.
  intros R X. destruct (bits_split b R) as (_ & RE & RM & _). unfold single_units.
  assert (K1 : 2 ^ 23 * 2 ^ 925 < single_limit) by reflexivity. assert (K2 : (2 ^ 24 - 1) * (2 ^ 253 * 2 ^ 925) < single_limit) by reflexivity.
  assert (K3 : 0 < 2 ^ 925) by reflexivity. replace (2 ^ (single_exp b - 150 + 1074)) with (2 ^ (single_exp b - 1 + 925)) by (f_equal; lia).
  change (-149 + 1074) with 925. destruct (single_exp b =? 0) eqn:E0.
  - revert K1 K3. clear K2. generalize (2 ^ 925) single_limit. intros u l K1 K3. split.
    + assert (Z.abs ((if single_sign b then -1 else 1) * (single_frac b * u)) = single_frac b * u) as -> by (destruct (single_sign b); nia).
      apply Z.le_lt_trans with (2 ^ 23 * u); [nia|exact K1].
    + apply Z.divide_mul_r. exists (single_frac b). reflexivity.
  - rewrite Z.pow_add_r by lia. revert K2 K3. clear K1. generalize (2 ^ 925) single_limit. intros u l K2 K3. split.
    + assert (L : 2 ^ (single_exp b - 1) <= 2 ^ 253) by (apply Z.pow_le_mono_r; lia). assert (P : 0 < 2 ^ (single_exp b - 1)) by (apply Z.pow_pos_nonneg; lia).
      revert L P K2. generalize (2 ^ (single_exp b - 1)) (2 ^ 253). intros v m L P K2.
      assert (Q : (2 ^ 23 + single_frac b) * (v * u) <= (2 ^ 24 - 1) * (m * u)) by (apply Z.mul_le_mono_nonneg; [lia|lia|nia|nia]).
      assert (P' : 0 < v * u) by (apply Z.mul_pos_pos; assumption).
      apply Z.le_lt_trans with ((2 ^ 24 - 1) * (m * u)); [|exact K2]. revert P' Q. generalize (v * u) (m * u). intros z y P' Q. destruct (single_sign b); nia.
    + apply Z.divide_mul_r, Z.divide_mul_r. exists (2 ^ (single_exp b - 1)). reflexivity.
Qed.
Lemma single_values v : has_value T_FLOAT32 v -> Z.abs v < single_limit /\ (2 ^ 925 | v).
Proof.
  intros (s & (f & -> & W & [N|(b & R & _ & S)]) & F & <-); [now elim N|]. cbn [value]. destruct f as [z|z| |z m e]; try now elim F.
  - cbn [units]. split; [reflexivity|apply Z.divide_0_r].
  - destruct S as (X & -> & _). now apply single_bounds.
Qed.
Lemma ibm_to_single v : has_value T_IBM v -> Z.abs v < single_limit -> (2 ^ 925 | v) -> has_value T_FLOAT32 v.
Proof.
  intros (s & (w & -> & W) & _ & <-) L D. cbn [value] in *. unfold ibm_units in *. unfold word_ok in W.
  assert (HM : 0 <= ibm_M w < 2 ^ 24) by (unfold ibm_M; lia). assert (HE : 0 <= ibm_E w < 128) by (unfold ibm_E; apply Z.mod_pos_bound; lia).
  revert L D. generalize (ibm_M w) (ibm_E w) HM HE. clear HM HE. intros M E HM HE.
  assert (exists s : bool, ibm_sign w = if s then -1 else 1) as (sg & ->) by (unfold ibm_sign; destruct (w0 w <? 128); [now exists false|now exists true]).
  intros L D. assert (P : 0 < 2 ^ (-24 + 4 * (E - 64) + 1074)) by lia.
  assert (L' : M * 2 ^ (-24 + 4 * (E - 64) + 1074) < single_limit) by (destruct sg; nia). clear L.
  assert (B : M * 2 ^ (-24 + 4 * (E - 64) + 1074) < 2 ^ 277 * 2 ^ 925) by (eapply Z.lt_le_trans; [exact L'|apply Z.lt_le_incl; reflexivity]). clear L'.
  destruct (Z_le_gt_dec (-149) (-24 + 4 * (E - 64))) as [G|G].
  - apply (single_of_form _ M _ sg eq_refl G HM).
    replace (-24 + 4 * (E - 64) + 1074) with (-24 + 4 * (E - 64) + 149 + 925) in B by lia. rewrite Z.pow_add_r in B by lia.
    revert B. generalize (M) (2 ^ (-24 + 4 * (E - 64) + 149)). intros a b B. assert (0 < 2 ^ 925) by reflexivity. rewrite Z.mul_assoc in B. now apply Z.mul_lt_mono_pos_r in B.
  - assert (exists q, M * 2 ^ (-24 + 4 * (E - 64) + 1074) = q * 2 ^ 925) as (q & Q).
    { clear B. destruct D as (q & Q). exists (if sg then - q else q). revert Q. generalize (2 ^ (-24 + 4 * (E - 64) + 1074)) (2 ^ 925). clear. intros a b Q. destruct sg; lia. }
    clear B D. rewrite Q. assert (0 <= q < 2 ^ 24).
    { assert (LE : 2 ^ (-24 + 4 * (E - 64) + 1074) <= 2 ^ 925) by (clear Q; apply Z.pow_le_mono_r; lia). assert (0 < 2 ^ 925) by reflexivity.
      revert Q LE P H. clear - HM. generalize (2 ^ (-24 + 4 * (E - 64) + 1074)) (2 ^ 925). intros. nia. }
    change 925 with (-149 + 1074). apply (single_of_form _ q (-149) sg eq_refl); [lia|assumption|]. change (2 ^ (-149 + 149)) with 1.
    apply Z.lt_trans with (2 ^ 24); [lia|reflexivity].
Qed.
Lemma int_to_single n : Z.abs n < 2 ^ 24 -> has_value T_FLOAT32 (n * unit).
Proof.
  intros H. replace (n * unit) with ((if n <? 0 then -1 else 1) * (Z.abs n * 2 ^ (0 + 1074))).
  - apply (single_of_form _ (Z.abs n) 0 (n <? 0) eq_refl); [lia|lia|]. change (2 ^ (0 + 149)) with (2 ^ 149). change (2 ^ 277) with (2 ^ 128 * 2 ^ 149).
    apply Z.mul_lt_mono_pos_r; [reflexivity|]. apply Z.lt_trans with (2 ^ 24); [lia|reflexivity].
  - change (2 ^ (0 + 1074)) with unit. generalize unit. intros u. destruct (n <? 0) eqn:E; nia.
Qed.
Lemma int_to_ibm n : Z.abs n < 2 ^ 24 -> has_value T_IBM (n * unit).
Proof.
  intros H. set (w := W (if n <? 0 then 198 else 70) (Z.abs n / 65536) (Z.abs n / 256 mod 256) (Z.abs n mod 256)).
  assert (Z.abs n / 256 mod 256 = Z.abs n / 256 - 256 * (Z.abs n / 65536)) as Q1.
  { rewrite Z.mod_eq by lia. rewrite Z.div_div by lia. reflexivity. }
  exists (RIbm w). split; [|split; [exact I|]].
  - exists w. split; [reflexivity|]. unfold word_ok, w. cbn [w0 w1 w2 w3]. destruct (n <? 0); (split; [lia|]);
    (split; [split; [apply Z.div_pos; lia|apply Z.div_lt_upper_bound; lia]|]); (split; apply Z.mod_pos_bound; lia).
  - cbn [value]. unfold ibm_units. assert (ibm_M w = Z.abs n) as ->.
    { unfold ibm_M, w. cbn [w1 w2 w3]. rewrite Q1. pose proof (Z.div_mod (Z.abs n) 256 ltac:(lia)). lia. }
    unfold ibm_sign, ibm_E, w. cbn [w0]. destruct (n <? 0) eqn:E; cbn [Z.ltb Z.compare Pos.compare Pos.compare_cont].
    + change (198 mod 128) with 70. change (-24 + 4 * (70 - 64) + 1074) with 1074. fold unit. generalize unit. intros. nia.
    + change (70 mod 128) with 70. change (-24 + 4 * (70 - 64) + 1074) with 1074. fold unit. generalize unit. intros. nia.
Qed.

Lemma same_integer t s s' : In t [T_INT8; T_INT16; T_INT32] -> exact_sample t s -> exact_sample t s' -> same_number s s' -> s' = s.
Proof.
  intros I X X' (_ & _ & V). assert (exists n m, s = RInt n /\ s' = RInt m) as (n & m & -> & ->).
  { destruct I as [<-|[<-|[<-|[]]]]; destruct X as (n & -> & _), X' as (m & -> & _); eauto. }
  cbn [value] in V. f_equal. apply Z.mul_cancel_r in V; [exact V|discriminate V || (unfold unit; lia)].
Qed.

Lemma samples_any_native d enc bc tc e dim r native native' P : readable d enc bc tc -> opens d enc bc tc e dim r ->
  all_samples native d r P -> all_readable native d r -> all_samples native' d r P.
Proof.
  intros RD OP A AR k ss K E. destruct (opens_opened d enc bc tc e dim r RD OP) as (x0 & ts & t0 & _ & O). destruct O as [_ TY FT _ _ _ _ _ _ _ _ _ _].
  assert (TR : traces_of d tc e r t0 ts) by now split.
  destruct (samples_ok d enc bc tc e dim r t0 ts RD OP TR native k None None 0) as (_ & _ & O1).
  destruct (samples_ok d enc bc tc e dim r t0 ts RD OP TR native' k None None 0) as (_ & _ & O2).
  assert (Q := samples_outcome_unique _ _ _ _ _ _ _ _ _ O1 O2). apply (A k ss K). now rewrite Q.
Qed.
Lemma samples_typed d enc bc tc e dim r native t : readable d enc bc tc -> opens d enc bc tc e dim r -> sample_type (rd_binary r) t ->
  all_samples native d r (exact_sample t).
Proof.
  intros RD OP ST k ss K E. destruct (opens_opened d enc bc tc e dim r RD OP) as (x0 & ts & t0 & _ & O). destruct O as [_ TY FT _ _ _ _ _ _ _ _ _ _].
  assert (TR : traces_of d tc e r t0 ts) by now split. rewrite (sample_type_unique _ _ _ ST TY).
  destruct (samples_ok d enc bc tc e dim r t0 ts RD OP TR native k None None 0) as (_ & _ & SO). rewrite E in SO.
  inversion SO as [| | |i' ss' TI' B1 B2 B3 SL SA]; subst ss'. apply (samples_exact _ _ _ _ _ SA).
Qed.

Lemma value_convertible t s : finite_number s -> has_value t (value s) -> convertible t s.
Proof. intros F H. destruct t; cbn [convertible]; auto. intros _. apply (single_values _ H). Qed.
Lemma converted_all t ss ss' : Forall (fun s => finite_number s /\ has_value t (value s)) ss -> Forall2 (converted t) ss ss' -> Forall2 same_number ss ss'.
Proof. intros A F. induction F as [|s s' ss ss' C F IH]; constructor; inversion A as [|? ? (A1 & A2) A3]; subst; [now apply (converted_exact t)|auto]. Qed.

Section Back.
Context (tc : fmt) (AT : coincident_alike tc).
Context (d : list Z) (enc : option encoding) (e : endian) (dim : option Z) (r : reader) (native : endian) (t0 t : segytype) (code0 code : Z).
Context (RD : readable d enc BinaryReelHeader tc) (OP : opens d enc BinaryReelHeader tc e dim r) (AR : all_readable native d r).
Context (ST : sample_type (rd_binary r) t0) (FC0 : format_code code0 t0) (FC : format_code code t).
Context (HV : all_samples native d r (fun s => finite_number s /\ has_value t (value s))).
Context (x1 : encoding) (e1 : endian) (S1 : supported x1) (TE1 : text_encodable r x1).

(* one conversion *)
Lemma retype pr log : pr <> NotCallable -> exists ds b w, converting (reader_dataset native r (mk_file d 0)) t = Ok ds /\
  write_segy ds (Some x1) tc e1 pr (mk_world (mk_file [] 0) log) = (Ok tt, w) /\ f_data (w_file w) = b /\ all_bytes b /\
  (exists r', opens b (Some x1) BinaryReelHeader tc e1 dim r') /\
  forall dim' r', opens b (Some x1) BinaryReelHeader tc e1 dim' r' -> transformed (retyped code) same_fields same_number d r b r'.
Proof.
  intros P. assert (CV : all_samples native d r (convertible t)).
  { intros k ss K E. generalize (HV k ss K E). apply Forall_impl. intros s (F & H). now apply value_convertible. }
  destruct (convert_type d enc tc e dim r native x1 t code RD OP AR AT S1 TE1 FC CV e1 pr log P) as (ds & C & b & w & W & D & BB & H).
  exists ds, b, w. split; [exact C|]. split; [exact W|]. split; [exact D|]. split; [exact BB|]. split.
  { destruct OP as (a & pr' & log' & w' & CR). destruct (create_args _ _ _ _ _ _ _ _ _ _ _ CR) as (V1 & V2 & V3).
    destruct (H a pr' dim log' V1 V2 V3) as (r' & w2 & C2 & _). exists r', a, pr', log', w2. exact C2. }
  intros dim' r' (a & pr' & log' & w' & CR). destruct (create_args _ _ _ _ _ _ _ _ _ _ _ CR) as (V1 & V2 & V3).
  destruct (H a pr' dim' log' V1 V2 V3) as (r2 & w2 & C2 & T). rewrite CR in C2. injection C2 as <- _.
  destruct T as (T1 & T2 & T3 & T4 & T5 & T6). split; [exact T1|]. split; [exact T2|]. split; [exact T3|]. split; [exact T4|]. split; [exact T5|].
  intros k nat q q' K. destruct (T6 k nat q q' K) as (h & h' & ss & ss' & A1 & A2 & A3 & A4 & A5 & A6). exists h, h', ss, ss'.
  do 5 (split; [assumption|]). apply (converted_all t); [|exact A6].
  destruct (T6 k nat 0 q' K) as (h0 & h0' & s0 & s0' & _ & _ & _ & B4 & _ & _).
  assert (s0 = ss) as ->.
  { destruct (opens_opened d enc BinaryReelHeader tc e dim r RD OP) as (x0 & ts & t1 & _ & O). destruct O as [_ TY FT _ _ _ _ _ _ _ _ _ _].
    assert (TR : traces_of d tc e r t1 ts) by now split.
    destruct (samples_ok d enc BinaryReelHeader tc e dim r t1 ts RD OP TR nat k None None 0) as (_ & _ & O1).
    destruct (samples_ok d enc BinaryReelHeader tc e dim r t1 ts RD OP TR nat k None None q) as (_ & _ & O2).
    assert (Q := samples_outcome_unique _ _ _ _ _ _ _ _ _ O1 O2). congruence. }
  exact (samples_any_native d enc BinaryReelHeader tc e dim r native nat _ RD OP HV AR k ss K B4).
Qed.
End Back.

Lemma transformed_samples bin hd sm d r d' r' native (P Q : real -> Prop) : transformed bin hd sm d r d' r' -> all_samples native d r P ->
  (forall s s', sm s s' -> P s -> Q s') -> all_samples native d' r' Q.
Proof.
  intros (_ & _ & _ & N & _ & H) A I k ss' K E. rewrite N in K. destruct (H k native 0 0 K) as (h & h' & ss & ss2 & _ & _ & _ & E1 & E2 & F).
  assert (ss2 = ss') as -> by congruence. assert (G := A k ss K E1). clear - F G I. induction F as [|s s' ss ss' S F IH]; constructor; inversion G; subst; eauto.
Qed.
Lemma transformed_readable bin hd sm d r d' r' native : transformed bin hd sm d r d' r' -> all_readable native d' r'.
Proof. intros (_ & _ & _ & N & _ & H) k K. rewrite N in K. destruct (H k native 0 0 K) as (h & h' & ss & ss' & _ & E1 & _ & _ & E2 & _). eauto. Qed.
Lemma transformed_encodable bin hd sm d r d' r' x : transformed bin hd sm d r d' r' -> text_encodable r x -> text_encodable r' x.
Proof. intros (T & _ & X & _) (A & B). split; [now rewrite T|now rewrite X]. Qed.
Lemma format_code_one code code' t : format_code code t -> format_code code' t -> code' = code.
Proof. unfold format_code. cbn. intros H H'. destruct t; intuition congruence. Qed.
Lemma retyped_back code code' h h' h'' : retyped code h h' -> retyped code' h' h'' -> hdr_get h "data_sample_format" = Ok code' -> same_fields h h''.
Proof.
  intros ((C & S) & _) ((C' & S') & G) G0. split; [congruence|]. intros f I.
  destruct (string_dec (fd_name f) "data_sample_format") as [->|N]; [congruence|].
  assert (NI : ~ In (fd_name f) ["data_sample_format"]) by (intros [E|[]]; now elim N).
  rewrite S' by (rewrite ?C; assumption). now apply S.
Qed.

(* there and back *)
Lemma types_back (tc : fmt) d enc e dim r native t0 t code0 code x1 e1 x2 e2 : coincident_alike tc ->
  readable d enc BinaryReelHeader tc -> opens d enc BinaryReelHeader tc e dim r -> all_readable native d r ->
  sample_type (rd_binary r) t0 -> format_code code0 t0 -> format_code code t ->
  all_samples native d r (fun s => finite_number s /\ has_value t (value s)) ->
  supported x1 -> text_encodable r x1 -> supported x2 -> text_encodable r x2 ->
  forall pr log pr2 log2, pr <> NotCallable -> pr2 <> NotCallable ->
  exists ds b w, converting (reader_dataset native r (mk_file d 0)) t = Ok ds /\
    write_segy ds (Some x1) tc e1 pr (mk_world (mk_file [] 0) log) = (Ok tt, w) /\ f_data (w_file w) = b /\
    (exists r', opens b (Some x1) BinaryReelHeader tc e1 dim r') /\
    forall native' dim' r', opens b (Some x1) BinaryReelHeader tc e1 dim' r' ->
      transformed (retyped code) same_fields same_number d r b r' /\
      exists ds2 c w2, converting (reader_dataset native' r' (mk_file b 0)) t0 = Ok ds2 /\
        write_segy ds2 (Some x2) tc e2 pr2 (mk_world (mk_file [] 0) log2) = (Ok tt, w2) /\ f_data (w_file w2) = c /\
        (exists r'', opens c (Some x2) BinaryReelHeader tc e2 dim' r'') /\
        forall dim'' r'', opens c (Some x2) BinaryReelHeader tc e2 dim'' r'' -> transformed same_fields same_fields same_number d r c r''.
Proof.
  intros AT RD OP AR ST FC0 FC HV S1 TE1 S2 TE2 pr log pr2 log2 P P2.
  destruct (retype tc AT d enc e dim r native t code RD OP AR FC HV x1 e1 S1 TE1 pr log P) as (ds & b & w & C & W & D & BB & R1 & H).
  exists ds, b, w. do 4 (split; [assumption|]). intros native' dim' r' OP'. assert (T := H dim' r' OP'). split; [exact T|].
  assert (RD' : readable b (Some x1) BinaryReelHeader tc).
  { destruct RD as (_ & A & B & _). split; [exact BB|]. split; [exact A|]. split; [exact B|]. intros y [= <-]. exact S1. }
  assert (HV' : all_samples native' b r' (fun s => finite_number s /\ has_value t0 (value s))).
  { apply (transformed_samples _ _ _ d r b r' native' (fun s => exact_sample t0 s) _ T); [now apply (samples_typed d enc BinaryReelHeader tc e dim)|].
    intros s s' (F & F' & V) X. split; [exact F'|]. exists s. split; [exact X|]. split; [exact F|now symmetry]. }
  destruct (retype tc AT b (Some x1) e1 dim' r' native' t0 code0 RD' OP' (transformed_readable _ _ _ _ _ _ _ native' T) FC0 HV' x2 e2 S2 (transformed_encodable _ _ _ _ _ _ _ x2 T TE2) pr2 log2 P2)
    as (ds2 & c & w2 & C2 & W2 & D2 & _ & R2 & H2).
  exists ds2, c, w2. do 4 (split; [assumption|]). intros dim'' r'' OP''. assert (T2 := H2 dim'' r'' OP'').
  destruct T as (A1 & A2 & A3 & A4 & A5 & A6). destruct T2 as (B1 & B2 & B3 & B4 & B5 & B6).
  split; [congruence|]. split.
  { destruct ST as (c0 & G & FC0'). rewrite (format_code_one _ _ _ FC0 FC0') in G. exact (retyped_back _ _ _ _ _ A2 B2 G). }
  split; [congruence|]. split; [congruence|]. split; [congruence|].
  intros k nat q q' K. destruct (A6 k nat q 0 K) as (h & h' & ss & ss' & E1 & E2 & E3 & E4 & E5 & E6).
  destruct (B6 k nat 0 q' ltac:(rewrite A4; exact K)) as (h1 & h2 & s1 & s2 & F1 & F2 & F3 & F4 & F5 & F6).
  assert (h1 = h') as -> by congruence. assert (s1 = ss') as -> by congruence.
  exists h, h2, ss, s2. split; [exact E1|]. split; [exact F2|]. split; [destruct E3 as (U1 & U2), F3 as (V1 & V2); split; [congruence|intros f I; rewrite V2 by (rewrite U1; exact I); now apply U2]|].
  split; [exact E4|]. split; [exact F5|].
  clear - E6 F6. revert s2 F6. induction E6 as [|s s' ss ss' (P1 & P2 & P3) E IH]; intros s2 F; inversion F as [|? y ? l (Q1 & Q2 & Q3) F']; subst; constructor; [|now apply IH].
  split; [exact P1|]. split; [exact Q2|congruence].
Qed.
