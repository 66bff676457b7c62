(* Writing the contents of a reader in an encoding that lacks some character. *)
From Coq Require Import String ZArith List Bool Lia ZifyBool ZifyNat.
From Verif Require Import Py PyFloat IbmFloat Util Catalog Packing Formats FileIO Text TextIO Float32 Toolkit Reader
  PyFacts Spec_Util Spec_Catalog CatalogFacts Spec_Ibm FloatFacts RoundFacts IbmFacts IbmArith Spec_Packing PackFacts CompileFacts HeaderFacts PackingFacts FormatFacts
  Spec_Text TextFacts TextIOFacts ExtReadFacts Spec_Segy Float32Facts Spec_Reader ToolkitFacts ReaderFacts OpenFacts Spec_Writer WriterFacts Spec_Cut CutFacts Spec_Copy CopyFacts.
Import ListNotations.
Local Open Scope string_scope.
Open Scope list_scope.
Open Scope Z_scope.

Lemma encodable_text x s : encodable x s -> is_text s.
Proof. unfold encodable, is_text. intros H. eapply Forall_impl; [|exact H]. intros c. destruct x; cbn; [lia|lia|contradiction]. Qed.

Lemma char_dec x c : {encodable_char x c} + {~ encodable_char x c}.
Proof. destruct x; cbn; [destruct (Z_le_dec 0 c), (Z_lt_dec c 128)|destruct (Z_le_dec 0 c), (Z_lt_dec c 256)|right; tauto]; ((left; lia) || (right; lia)). Defined.

Lemma not_encodable d enc bc tc e dim r native x' : readable d enc bc tc -> opens d enc bc tc e dim r -> coincident_alike bc ->
  supported x' -> ~ text_encodable r x' -> forall e' pr log, pr <> NotCallable ->
  exists b, write_segy (reader_dataset native r (mk_file d 0)) (Some x') tc e' pr (mk_world (mk_file [] 0) log) = (Err UnicodeEncodeError, mk_world (mk_file b (zlen b)) log) /\
    (Forall (encodable x') (rd_text r) -> zlen b = 3600) /\ (~ Forall (encodable x') (rd_text r) -> b = []).
Proof.
  intros RD OP AB S' NE e' pr log P. set (ds := reader_dataset native r (mk_file d 0)).
  destruct (own_text d enc bc tc e dim r RD OP) as (_ & TE1 & TE2).
  assert (I1 : Forall is_text (ds_text ds)) by (eapply Forall_impl; [|exact TE1]; intros l; apply encodable_text).
  assert (I2 : Forall (Forall is_text) (ds_ext ds)).
  { eapply Forall_impl; [|exact TE2]. intros p Q. eapply Forall_impl; [|exact Q]. intros l. apply encodable_text. }
  destruct (opens_opened d enc bc tc e dim r RD OP) as (x & ts & t & X & O). assert (RD' := RD). destruct RD' as (HB & B & T & SE).
  destruct O as [((L40 & L80 & DT) & RB & n & GN & EO) _ _ _ _ _ _ _ _ _ _ _ _].
  assert (BH : good_header bc (ds_binary ds)) by (cbn [ds reader_dataset ds_binary]; apply (holds_good bc e (block d 3200 400) _ 400); [apply B|exact AB|exact RB]).
  assert (BC : format_ok bc 400) by apply B.
  assert (F40 : firstn 40 (ds_text ds) = rd_text r) by (apply (firstn_all2 (n := 40) (rd_text r)); unfold zlen in L40; lia).
  assert (XF : encoding_for (Some x') ds x') by reflexivity.
  assert (ED : Forall (encodable x') (rd_text r) \/ ~ Forall (encodable x') (rd_text r)).
  { destruct (Forall_dec (encodable x') (fun l => Forall_dec (encodable_char x') (char_dec x') l) (rd_text r)); tauto. }
  rewrite (write_segy_eq ds (Some x') x' tc e' pr _ S' XF P). destruct ED as [TX|NX].
  - rewrite <- F40 in TX. destruct (text_then ds x' bc e' [] log S' TX BC (proj1 BH)) as (tx & tb & p & FT & TB & EP & E).
    destruct (header_written bc 400 e' (ds_binary ds) BC BH) as (p' & bb & EP' & BPK & BB). rewrite EP in EP'. injection EP' as <-.
    assert (L : zlen (tb ++ bb) = 3600) by (rewrite zlen_app; destruct TB as (-> & _), BB as (-> & _); reflexivity).
    exists (tb ++ bb). split; [|split; [auto|now rewrite F40 in TX]].
    assert (NP : ~ Forall (page_ok x') (ds_ext ds)).
    { intros F. apply NE. rewrite F40 in TX. split; [exact TX|]. eapply Forall_impl; [|exact F]. intros q (_ & Q). eapply Forall_impl; [|exact Q]. now intros l (_ & H). }
    destruct (write_ext_refused x' (ds_ext ds) (upon [] (tb ++ bb)) S' I2 NP) as (W & _ & WU).
    assert (SH : Forall (fun p => zlen p = 40 /\ Forall (fun l => zlen l = 80) p) (ds_ext ds)).
    { change (ds_ext ds) with (rd_ext r). apply Forall_forall. intros q I. apply In_nth with (d := []) in I. destruct I as (i & Hi & <-).
      destruct (ext_pages x d n (rd_ext r) EO (Z.of_nat i) (conj (Zle_0_nat i) (inj_lt _ _ Hi))) as (_ & Q1 & Q2 & _). rewrite Nat2Z.id in *. now split. }
    specialize (WU SH).
    assert (W' : write_extended_textual_headers (ds_ext ds) x' (upon [] (tb ++ bb)) = (Err UnicodeEncodeError, mk_file (f_data (upon [] (tb ++ bb))) 3600)).
    { destruct W as [W|W]; [|exact W]. rewrite W in WU. discriminate WU. }
    erewrite wbind_err; [reflexivity|]. rewrite E. erewrite wbind_ok; [|apply on_file_ok; rewrite BPK; erewrite ibind_ok by reflexivity; apply write_upon].
    rewrite (on_file_ok _ _ _ _ _ W'). rewrite L. unfold upon, over. cbn [f_data]. now rewrite skipn_nil, app_nil_r.
  - exists []. split; [|split; [tauto|reflexivity]]. rewrite <- F40 in NX.
    destruct (write_textual_refused x' (ds_text ds) (mk_file [] 0)) as (_ & R & _). specialize (R S' I1 NX).
    unfold upto_traces. rewrite wbind_wbind. erewrite wbind_err; [reflexivity|]. apply on_file_ok. exact R.
Qed.

