(* Which files can be converted to another sample type. *)
From Coq Require Import String ZArith List Bool Lia ZifyBool ZifyNat SpecFloat.
From Verif Require Import Py PyFloat IbmFloat IbmNumber Packing Formats FileIO Text Float32 Toolkit Reader FieldTypes Transform
  PyFacts Spec_Ibm FloatFacts RoundFacts IbmFacts IbmArith IbmNumberProps RoundUnique Spec_Packing CompileFacts HeaderFacts PackingFacts FormatFacts Spec_Text Spec_Segy Spec_Reader ToolkitFacts ReaderFacts OpenFacts
  Spec_Writer WriterFacts Spec_Fields FieldTypesFacts Spec_Transform TransformFacts Spec_Scale RoundAll ScaleFacts.
Import ListNotations.
Local Open Scope string_scope.
Open Scope list_scope.
Open Scope Z_scope.

Lemma finite_number_dec s : finite_number s \/ exists f, s = RFloat f /\ ~ finite f.
Proof. destruct s as [f|n|w]; [|now left|now left]. destruct f; cbn; [now left|right|right|now left]; eexists; (split; [reflexivity|]); intros []. Qed.
Lemma sample_float_wf t f : exact_sample t (RFloat f) -> float_wf f.
Proof. destruct t; intros (g & E & X); try discriminate. injection E as ->. apply X. Qed.

(* what a sample the type has no room for does *)
Lemma convert_unfit t0 t s : exact_sample t0 s -> match t with T_NNINT8 | T_NNINT16 | T_NNINT32 => False | _ => True end -> ~ convertible t s ->
  (exists y, convert_sample t s = Err y) \/ exists s1, convert_sample t s = Ok s1 /\ refused t s1.
Proof.
  intros X T N. destruct (finite_number_dec s) as [F|(f & -> & NF)].
  - destruct t; try contradiction; cbn [convertible] in N; try (now destruct N). right.
    destruct (exact_number t0 s X F) as ((g & E & W & FG & U) & _). exists (RFloat g). cbn [convert_sample]. rewrite E. split; [reflexivity|].
    cbn [refused]. rewrite U. split; [exact W|]. split; [exact FG|]. destruct (Z_lt_le_dec (Z.abs (value s)) single_limit) as [L|L]; [|exact L]. now destruct N.
  - pose proof (convert_infinite t f NF) as C. destruct t; try contradiction; try (left; eexists; exact C).
    + cbn [convertible finite_number] in N. destruct N. intros H. contradiction.
    + right. eexists. apply C. now apply (sample_float_wf t0).
Qed.

Lemma convertible_dec t s : convertible t s \/ ~ convertible t s.
Proof.
  destruct (finite_number_dec s) as [F|(f & -> & NF)].
  - destruct t; cbn [convertible]; try (now left). destruct (Z_lt_le_dec (Z.abs (value s)) single_limit) as [L|L]; [now left|right]. intros H. apply Z.lt_nge in H; auto.
  - destruct t; cbn [convertible finite_number]; try (now right). left. contradiction.
Qed.

Lemma convert_only d enc tc (e : endian) dim r native x' t code : readable d enc BinaryReelHeader tc -> opens d enc BinaryReelHeader tc e dim r ->
  all_readable native d r -> coincident_alike tc -> supported x' -> text_encodable r x' -> format_code code t ->
  forall ds' e' pr w w', converting (reader_dataset native r (mk_file d 0)) t = Ok ds' -> write_segy ds' (Some x') tc e' pr w = (Ok tt, w') ->
  all_samples native d r (convertible t).
Proof.
  intros RD OP AR AT S' TE TT ds' e' pr w w' CV H k ss KB ES.
  destruct (shipped_ok BinaryReelHeader) as (K & _ & _ & _); [now left|].
  destruct (binary_good r d enc tc e dim RD OP) as (HC & HO & HA).
  assert (FT : match t with T_NNINT8 | T_NNINT16 | T_NNINT32 => False | _ => True end /\ format_for t = Ok code).
  { unfold format_code in TT. cbn in TT. destruct TT as [E|[E|[E|[E|[E|[]]]]]]; injection E as <- <-; now split. }
  destruct FT as (FT & FC).
  assert (DSF : is_field BinaryReelHeader (mk_field "data_sample_format" DataSampleFormatField 3225 5)).
  { apply (class_field_spec _ "data_sample_format"); [now apply class_ok_levels|vm_compute; reflexivity]. }
  assert (AC : accepts DataSampleFormatField code).
  { unfold format_code in TT. cbn in TT. destruct TT as [E|[E|[E|[E|[E|[]]]]]]; injection E as <- <-; cbn; tauto. }
  destruct (copy_ok (rd_binary r) [("data_sample_format", code)]) as (bin & CP & CC & CF).
  { now rewrite HC. } { exact HO. } { repeat constructor; easy. }
  { intros n v [E|[]]. injection E as <- <-. rewrite HC. eexists. split; [exact DSF|]. now split. }
  rewrite HC in CF, CC.
  assert (SF : sample_format bin = Ok t).
  { apply sample_format_ok. exists code. split; [|exact TT]. apply (CF _ DSF). now left. }
  unfold converting in CV. rewrite FC in CV. cbn [bind] in CV. cbn [ds_binary reader_dataset] in CV. rewrite CP in CV. cbn [bind] in CV. injection CV as <-.
  pose proof (written_samples _ _ _ _ _ _ _ t H SF k) as WS. cbn [ds_trace_indexes ds_trace_samples reader_dataset] in WS.
  destruct (reader_writable d enc BinaryReelHeader tc e dim r native x' RD OP AR binary_alike AT S' TE) as (t0 & trs & W & CO & NT & EX & LN & RE).
  assert (IX : rd_trace_indexes r = map Z.of_nat (seq 0 (length trs))).
  { destruct (opens_opened d enc BinaryReelHeader tc e dim r RD OP) as (x & ts & t1 & X & O). destruct O as [_ TY0 FT0 _ _ _ _ _ _ _ _ _ _].
    assert (TR : traces_of d tc e r t1 ts) by now split. destruct (counts_ok d enc BinaryReelHeader tc e dim r t1 ts RD OP TR) as (C1 & C2 & _).
    rewrite C2. do 2 f_equal. unfold zlen in *. lia. }
  destruct WS as (ss' & MS & NR). { rewrite IX. apply in_map_iff. exists (Z.to_nat k). split; [lia|]. apply in_seq. unfold zlen in LN. lia. }
  rewrite ES in MS. cbn [bind] in MS. apply Forall_forall. intros s I. destruct (map_res_each _ _ _ MS s I) as (s1 & E1 & I1).
  assert (XS : exact_sample t0 s).
  { destruct (nth_error trs (Z.to_nat k)) as [tr|] eqn:E. 2: { apply nth_error_None in E. unfold zlen in LN. lia. }
    destruct (RE _ _ E) as (_ & R2). rewrite Z2Nat.id in R2 by lia. assert (snd tr = ss) as SE by congruence. apply nth_error_In in E. rewrite Forall_forall in EX.
    specialize (EX _ E). cbn beta in EX. rewrite SE in EX. rewrite Forall_forall in EX. now apply EX. }
  destruct (convertible_dec t s) as [F|F]; [exact F|exfalso]. destruct (convert_unfit t0 t s XS FT F) as [(y & U)|(s2 & U & R)]; rewrite E1 in U; [discriminate|].
  injection U as <-. exact (NR s1 I1 R).
Qed.
