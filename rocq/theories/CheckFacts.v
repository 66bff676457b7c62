(* Proofs about comparing a copy with its original. *)
From Coq Require Import String ZArith List Bool Lia ZifyBool ZifyNat.
From Verif Require Import Py PyFacts PyFloat IbmFloat Spec_Ibm Util Catalog Spec_Catalog Packing Spec_Packing PackingFacts CompileFacts HeaderFacts Formats FormatFacts FileIO Text Spec_Text TextIO
  Float32 Toolkit Spec_Segy ToolkitFacts Reader Spec_Reader ReaderFacts OpenFacts Spec_Writer WriterFacts Spec_Copy CopyFacts FieldTypes FieldTypesFacts Checks Spec_Check.
Import ListNotations.
Local Open Scope string_scope.
Open Scope list_scope.
Open Scope Z_scope.

Definition is_nan (r : real) : bool := match r with RFloat S754_nan => true | _ => false end.
Lemma word_eqb_refl w : word_eqb w w = true.
Proof. destruct w. unfold word_eqb. cbn. now rewrite !Z.eqb_refl. Qed.
Lemma f_eq_refl f : f <> S754_nan -> f_eq f f = true.
Proof.
  unfold f_eq, SFeqb, SFcompare. destruct f as [s|s| |s m x]; intros H; try (destruct s; reflexivity); [congruence|].
  destruct s; rewrite Z.compare_refl; now rewrite ?Pos.compare_cont_refl.
Qed.
Lemma real_eq_refl r : real_eq r r = Ok (negb (is_nan r)).
Proof.
  destruct r as [f|n|w]; cbn [real_eq is_nan].
  - f_equal. destruct f as [s|s| |s m x]; try reflexivity; rewrite f_eq_refl; try reflexivity; discriminate.
  - now rewrite Z.eqb_refl.
  - unfold ibm_eq. now rewrite word_eqb_refl.
Qed.
Lemma elements_eq_refl l : elements_eq l l = Ok (forallb (fun r => negb (is_nan r)) l).
Proof. induction l as [|r l IH]; [reflexivity|]. cbn [elements_eq forallb]. rewrite real_eq_refl. cbn. destruct (is_nan r); [reflexivity|exact IH]. Qed.
Lemma samples_eq_refl l : samples_eq l l = Ok (forallb (fun r => negb (is_nan r)) l).
Proof. unfold samples_eq. rewrite Z.eqb_refl. apply elements_eq_refl. Qed.
Lemma some_nan l : forallb (fun r => negb (is_nan r)) l = false -> In (RFloat S754_nan) l.
Proof.
  induction l as [|r l IH]; [discriminate|]. cbn [forallb]. intros H. apply andb_false_iff in H. destruct H as [H|H]; [left|right; auto].
  destruct r as [[]| |]; try discriminate. reflexivity.
Qed.
Lemma no_nan_iff l : forallb (fun r => negb (is_nan r)) l = true <-> ~ In (RFloat S754_nan) l.
Proof.
  rewrite forallb_forall. split; intros H.
  - intros I. specialize (H _ I). discriminate.
  - intros r I. destruct r as [[]| |]; try reflexivity. now destruct H.
Qed.

(* the custom format *)
Lemma custom_trace_checks : class_ok CustomTraceHeader /\ types_fit CustomTraceHeader /\ starts_ok CustomTraceHeader /\ declared_in_order CustomTraceHeader.
Proof. apply fmt_checks_ok; vm_compute; reflexivity. Qed.
Lemma custom_trace_format : trace_format CustomTraceHeader.
Proof.
  destruct custom_trace_checks as (C & TF & ST & OR).
  split; [|split; [|split; [|split; [|split; [|split]]]]].
  - split; [exact C|]. split; [exact TF|]. split; [exact ST|]. split; [now right|]. split; [reflexivity|].
    intros [|]; eexists; vm_compute; reflexivity.
  - eapply has_field_by; [exact C|vm_compute; reflexivity].
  - eapply has_field_by; [exact C|vm_compute; reflexivity].
  - eapply has_field_by; [exact C|vm_compute; reflexivity].
  - eapply has_field_by; [exact C|vm_compute; reflexivity].
  - eapply has_field_by; [exact C|vm_compute; reflexivity].
  - do 10 (split; [eapply before_by; [exact C|vm_compute; reflexivity|vm_compute; reflexivity|vm_compute; reflexivity]|]).
    intros f v F E A. apply (is_field_class _ f C) in F. rewrite E in F.
    assert (ET : fd_type f = NNInt16). { vm_compute in F. injection F as <-. reflexivity. }
    rewrite ET in A. cbn in A. lia.
Qed.
Lemma custom_alike : coincident_alike CustomTraceHeader.
Proof. apply alikeb_ok; [apply custom_trace_checks|vm_compute; reflexivity]. Qed.

Definition coversb (c : fmt) (i : Z) : bool := existsb (fun f => (field_pos c f <=? i) && (i <? field_pos c f + field_size f)) (class_fields c).
Lemma coversb_ok c i : class_ok c -> coversb c i = true <-> covered c i.
Proof.
  intros C. unfold coversb, covered. rewrite existsb_exists. split.
  - intros (f & I & H). exists f. split; [apply class_fields_In; [now apply class_ok_levels|exact I]|lia].
  - intros (f & I & H). exists f. split; [apply class_fields_In; [now apply class_ok_levels|exact I]|lia].
Qed.
Lemma custom_covers i : 0 <= i < 240 -> covered CustomTraceHeader i <-> i <> 222 /\ i <> 223.
Proof.
  intros I. rewrite <- (coversb_ok _ _ (proj1 custom_trace_checks)).
  assert (H : forallb (fun i => Bool.eqb (coversb CustomTraceHeader i) (negb (i =? 222) && negb (i =? 223))) (map Z.of_nat (seq 0 240)) = true) by (vm_compute; reflexivity).
  rewrite forallb_forall in H. specialize (H i). rewrite in_map_iff in H.
  assert (Q : Bool.eqb (coversb CustomTraceHeader i) (negb (i =? 222) && negb (i =? 223)) = true).
  { apply H. exists (Z.to_nat i). split; [lia|]. apply in_seq. lia. }
  apply eqb_prop in Q. rewrite Q. lia.
Qed.

(* opening with the encoding guessed *)
Lemma create_reader_enc a enc bc tc e pr dim d log x : encoding_used enc d x ->
  create_reader a enc bc tc (Some e) pr dim (mk_world (mk_file d 0) log) = create_reader a (Some x) bc tc (Some e) pr dim (mk_world (mk_file d 0) log).
Proof.
  intros X. unfold create_reader, wbind. destruct (checks_cases a (Some e) pr dim (mk_file d 0) log ltac:(cbn; lia)) as [(e' & [= <-] & A & L & P & D)|(y & E)].
  - rewrite (checks_pass a e pr dim d log) by assumption. now rewrite (make_reader_enc enc bc tc e dim d log x X).
  - now rewrite E.
Qed.

Section Check.
Variables (native : endian) (tc : fmt) (d : list Z) (r : reader) (w : world).
Hypothesis HB : all_bytes d.
Hypothesis TF : trace_format tc.
Hypothesis AT : coincident_alike tc.
Hypothesis OD : open_default tc d = (Ok r, w).
Hypothesis AR : all_readable native d r.

Lemma open_readable : readable d None BinaryReelHeader tc.
Proof. split; [exact HB|]. split; [apply binary_reel_format|]. split; [exact TF|]. discriminate. Qed.
Lemma open_opens : opens d None BinaryReelHeader tc Big None r.
Proof. do 4 eexists. exact OD. Qed.

Lemma compare_same b r' : same_readings d r b r' -> class_ok tc ->
  (forall k q, exists q', snd (rd_trace_header r' k None (mk_file b q)) = mk_file b q') ->
  (forall k q, exists q', snd (rd_trace_samples native r' k None None (mk_file b q)) = mk_file b q') ->
  forall ks, (forall k, In k ks -> 0 <= k < rd_num_traces r) -> forall q q',
  (Forall (fun k => ~ has_nan native d r k) ks /\ compare_traces native r (mk_file d q) r' (mk_file b q') ks = Ok tt) \/
  (Exists (has_nan native d r) ks /\ compare_traces native r (mk_file d q) r' (mk_file b q') ks = Err AssertionError).
Proof.
  intros SR CT PH PS. destruct SR as (_ & _ & _ & _ & _ & SR). induction ks as [|k ks IH]; intros IN q q'.
  { left. split; [constructor|reflexivity]. }
  assert (K := IN k (or_introl eq_refl)). destruct (opens_opened _ _ _ _ _ _ _ open_readable open_opens) as (x & ts' & t' & X & O).
  assert (TR' : traces_of d tc Big r t' ts') by (split; [exact (op_type _ _ _ _ _ _ _ _ _ O)|exact (op_traces _ _ _ _ _ _ _ _ _ O)]).
  destruct (counts_ok d None BinaryReelHeader tc Big None r t' ts' open_readable open_opens TR') as (C1 & _).
  destruct (trace_of_exists ts' k ltac:(lia)) as (tr & TK). cbn [compare_traces].
  rewrite (rd_offset _ _ _ _ _ _ _ _ _ O k tr TK). cbn.
  destruct (SR k native q q' K) as (h & h' & ss0 & H1 & H2 & H3 & _).
  destruct (header_ok_read d None BinaryReelHeader tc Big None r t' ts' open_readable open_opens TR' k q) as (q1 & Q1 & HO). rewrite H1 in HO.
  inversion HO as [| |tr1 h1 T1 HH]; subst h1.
  destruct (PH k q') as (q2 & Q2).
  destruct (rd_trace_header r k None (mk_file d q)) as [a1 f1]. destruct (rd_trace_header r' k None (mk_file b q')) as [a2 f2]. cbn in H1, H2, Q1, Q2. subst a1 a2 f1 f2. cbn.
  assert (CH : h_cls h = tc) by apply HH.
  destruct (are_equal_iff h h') as (eq & EQ & EI); [rewrite CH; exact CT|apply H3|]. rewrite EQ. cbn. rewrite (proj2 EI H3). cbn.
  destruct (SR k native q1 q2 K) as (_ & _ & ss & _ & _ & _ & S1 & S2).
  destruct (SR k native 0 q2 K) as (_ & _ & ss' & _ & _ & _ & S3 & S4). assert (ss' = ss) by congruence. subst ss'.
  destruct (samples_ok d None BinaryReelHeader tc Big None r t' ts' open_readable open_opens TR' native k None None q1) as (q3 & Q3 & _).
  destruct (PS k q2) as (q4 & Q4).
  destruct (rd_trace_samples native r k None None (mk_file d q1)) as [a3 f3]. destruct (rd_trace_samples native r' k None None (mk_file b q2)) as [a4 f4].
  cbn in S1, S2, Q3, Q4. subst a3 a4 f3 f4. cbn. rewrite samples_eq_refl. cbn. destruct (forallb (fun s => negb (is_nan s)) ss) eqn:NN; cbn [negb].
  - assert (NH : ~ has_nan native d r k) by (intros (s & E & I); rewrite S3 in E; injection E as <-; now apply (proj1 (no_nan_iff ss) NN)).
    destruct (IH (fun k' I => IN k' (or_intror I)) q3 q4) as [(A & B)|(A & B)]; [left|right]; split; auto.
  - right. split; [|reflexivity]. left. exists ss. split; [exact S3|]. now apply some_nan.
Qed.

Lemma same_start b : bytes_copied d b 0 3200 -> 3200 <= zlen d -> 3200 <= zlen b -> firstn (Z.to_nat 3200) b = firstn (Z.to_nat 3200) d.
Proof.
  intros C L1 L2. apply byte_ext.
  - unfold zlen in *. rewrite !firstn_length. lia.
  - intros i I. unfold zlen in I. rewrite firstn_length in I. specialize (C i ltac:(lia)). unfold byte_at in *.
    rewrite <- (firstn_skipn (Z.to_nat 3200) b), <- (firstn_skipn (Z.to_nat 3200) d), !app_nth1 in C; [exact C| |]; rewrite firstn_length; unfold zlen in *; lia.
Qed.

Lemma check_outcome t ts : traces_of d tc Big r t ts -> exists b,
  copied BinaryReelHeader tc Big t (first_trace (rd_ext r)) ts d b /\ (((forall k, 0 <= k < rd_num_traces r -> ~ has_nan native d r k) /\ check_equal native tc d = (Ok tt, b)) \/
   ((exists k, 0 <= k < rd_num_traces r /\ has_nan native d r k) /\ check_equal native tc d = (Err AssertionError, b))).
Proof.
  intros TR. assert (RD := open_readable). assert (OP := open_opens).
  destruct (copy d None BinaryReelHeader tc Big None r native t ts RD OP AR binary_alike AT TR None NoProgress [] (or_introl eq_refl) ltac:(discriminate))
    as (b & w1 & W & DB & C). exists b. split; [exact C|].
  destruct (own_text d None BinaryReelHeader tc Big None r RD OP) as (S & TE).
  destruct (convert d None BinaryReelHeader tc Big None r native (rd_encoding r) RD OP AR binary_alike AT S TE Big NoProgress [] ltac:(discriminate)) as (b' & W' & CR).
  assert (WE : write_segy (reader_dataset native r (mk_file d 0)) None tc Big NoProgress (mk_world (mk_file [] 0) []) =
    write_segy (reader_dataset native r (mk_file d 0)) (Some (rd_encoding r)) tc Big NoProgress (mk_world (mk_file [] 0) [])) by reflexivity.
  rewrite WE, W' in W. injection W as <-. cbn [w_file f_data] in DB. subst b'.
  destruct (CR (mk_attrs false false true) NoProgress None [] (conj eq_refl (conj eq_refl eq_refl)) ltac:(discriminate) ltac:(discriminate)) as (r' & wr & R & SR). clear CR.
  destruct (opens_opened _ _ _ _ _ _ _ RD OP) as (x & ts' & t' & X & O). assert (EX := op_encoding _ _ _ _ _ _ _ _ _ O).
  assert (L := opens_length _ _ _ _ _ _ _ OP).
  assert (OPB : opens b (Some (rd_encoding r)) BinaryReelHeader tc Big None r') by (do 4 eexists; exact R).
  assert (LB := opens_length _ _ _ _ _ _ _ OPB).
  assert (XB : encoding_used None b (rd_encoding r)).
  { rewrite EX. unfold encoding_used in *. rewrite (same_start b); [exact X|apply C|lia|lia]. }
  assert (RB : readable b (Some (rd_encoding r)) BinaryReelHeader tc).
  { split; [apply C|]. split; [apply RD|]. split; [exact TF|]. intros y [= <-]. exact S. }
  assert (ODB : open_default tc b = (Ok r', wr)) by (unfold open_default; rewrite (create_reader_enc _ _ _ _ _ _ _ _ _ _ XB); exact R).
  destruct (opens_opened _ _ _ _ _ _ _ RB OPB) as (xb & tsb & tb & _ & OB).
  assert (TRB : traces_of b tc Big r' tb tsb) by (split; [exact (op_type _ _ _ _ _ _ _ _ _ OB)|exact (op_traces _ _ _ _ _ _ _ _ _ OB)]).
  assert (FW : exists q, w_file w = mk_file d q).
  { destruct (create_reader_total (mk_attrs false false true) None BinaryReelHeader tc Big NoProgress None d [] x RD (conj eq_refl (conj eq_refl eq_refl)) L ltac:(discriminate) ltac:(discriminate) X)
      as (rr & q & log' & E & _). unfold open_default in OD. rewrite OD in E. injection E as _ ->. now exists q. }
  assert (FB : exists q, w_file wr = mk_file b q).
  { destruct (create_reader_total (mk_attrs false false true) (Some (rd_encoding r)) BinaryReelHeader tc Big NoProgress None b [] (rd_encoding r) RB (conj eq_refl (conj eq_refl eq_refl)) LB ltac:(discriminate) ltac:(discriminate) eq_refl)
      as (rr & q & log' & E & _). rewrite R in E. injection E as _ ->. now exists q. }
  destruct FW as (q & FW). destruct FB as (q' & FB).
  unfold check_equal. rewrite OD. cbv beta iota zeta. rewrite WE, W'. cbn [w_file f_data bind]. rewrite ODB, FW, FB.
  assert (TC : class_ok tc) by apply TF.
  assert (IX : forall k, In k (rd_trace_indexes r) <-> 0 <= k < rd_num_traces r).
  { destruct (counts_ok d None BinaryReelHeader tc Big None r t ts RD OP TR) as (C1 & C2 & _). intros k. rewrite C1, C2, in_map_iff. unfold zlen. split.
    - intros (n & <- & I). apply in_seq in I. lia.
    - intros K. exists (Z.to_nat k). split; [lia|]. apply in_seq. lia. }
  destruct (compare_same b r' SR TC) with (ks := rd_trace_indexes r) (q := q) (q' := q') as [(A & B)|(A & B)].
  - intros k p. destruct (header_ok_read b (Some (rd_encoding r)) BinaryReelHeader tc Big None r' tb tsb RB OPB TRB k p) as (p' & P & _). now exists p'.
  - intros k p. destruct (samples_ok b (Some (rd_encoding r)) BinaryReelHeader tc Big None r' tb tsb RB OPB TRB native k None None p) as (p' & P & _). now exists p'.
  - intros k I. now apply IX.
  - left. split; [|now rewrite B]. intros k K. rewrite Forall_forall in A. apply A. now apply IX.
  - right. split; [|now rewrite B]. apply Exists_exists in A. destruct A as (k & I & N). exists k. split; [now apply IX|exact N].
Qed.
End Check.
