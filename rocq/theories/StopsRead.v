(* Proofs for C137: what can be read of a file whose writing was stopped. *)
From Coq Require Import String ZArith List Bool Lia ZifyBool ZifyNat.
From Verif Require Import Py PyFacts PyFloat IbmFloat Spec_Ibm Util Catalog Spec_Catalog Packing Spec_Packing PackFacts CompileFacts HeaderFacts Formats FileIO Text Spec_Text
  TextIO Float32 Toolkit Spec_Segy ToolkitFacts Reader Spec_Reader ReaderFacts OpenFacts PackingFacts FormatFacts Spec_Writer WriterFacts Spec_Written WrittenFacts
  Spec_Cut CutFacts Stops Spec_Stops StopsFacts.
Import ListNotations.
Local Open Scope string_scope.
Open Scope list_scope.
Open Scope Z_scope.

Lemma positions tc e t d : forall trs ts, Forall2 (found tc e t d) trs ts -> forall p q, scan tc e (sample_size t) d p ts q ->
  forall k i tr, nth_error ts k = Some i -> nth_error trs k = Some tr -> t_pos i = p + sizes t (firstn k trs) /\ t_count i = zlen (snd tr).
Proof.
  induction 1 as [|tr0 i0 trs ts FD F IH]; intros p q S k i tr N N'; [destruct k; discriminate|].
  inversion S as [|i1 ts1 q1 s L F1 F2 F3 F4 F5 S']; subst. destruct FD as (C & _).
  destruct k as [|k]; cbn [nth_error] in N, N'.
  - injection N as <-. injection N' as <-. split; [cbn; lia|exact C].
  - destruct (IH _ _ S' k i tr N N') as (P & K). split; [|exact K]. rewrite P. cbn [firstn sizes fold_right]. unfold sizes, trace_size. rewrite C. lia.
Qed.

Lemma firstn_succ {A} : forall k (l : list A) v, nth_error l k = Some v -> firstn (Datatypes.S k) l = firstn k l ++ [v].
Proof. induction k as [|k IH]; intros [|u l] v N; try discriminate; cbn in N |- *; [now injection N as ->|]. f_equal. now apply IH. Qed.
Lemma sizes_from t n : forall l, fold_right (fun tr n => trace_size t tr + n) n l = sizes t l + n.
Proof. induction l as [|u l IH]; unfold sizes in *; cbn [fold_right]; lia. Qed.

Section Reading.
Variables (ds : dataset) (x : encoding) (bc tc : fmt) (e : endian) (t : segytype) (trs : list trace) (b : list Z).
Hypothesis CO : consistent ds bc tc t trs.
Hypothesis SU : supported x.
Hypothesis PO : Forall (page_ok x) (ds_ext ds).
Hypothesis SC : segy_contents ds x bc tc e t trs b.
Hypothesis NE : trs <> [].

Theorem cut_contents p z : b = p ++ z -> forall a pr dim log, attrs_ok a -> pr <> NotCallable -> (forall k, dim = Some k -> In k [1; 2; 3]) ->
  let outcome := fst (create_reader a (Some x) bc tc (Some e) pr dim (mk_world (mk_file p 0) log)) in
  (zlen p < 3600 -> outcome = Err ValueError) /\
  (3600 <= zlen p < trace_start ds t trs 0 -> outcome = Err EOFError) /\
  (trace_start ds t trs 0 <= zlen p < trace_start ds t trs 0 + 240 -> outcome = Err RuntimeError) /\
  (trace_start ds t trs 0 + 240 <= zlen p -> exists r m, outcome = Ok r /\
     fitted_lines 40 80 (ds_text ds) (rd_text r) /\ same_fields (ds_binary ds) (rd_binary r) /\ rd_ext r = ds_ext ds /\ rd_num_traces r = Z.of_nat m /\
     (forall k, (k < m)%nat <-> (k < length trs)%nat /\ trace_start ds t trs k + 240 <= zlen p) /\
     forall k tr native q, (k < m)%nat -> nth_error trs k = Some tr ->
       (exists h, fst (rd_trace_header r (Z.of_nat k) None (mk_file p q)) = Ok h /\ same_fields (fst tr) h) /\
       (trace_start ds t trs (Datatypes.S k) <= zlen p ->
          exists rs, fst (rd_trace_samples native r (Z.of_nat k) None None (mk_file p q)) = Ok rs /\ Forall2 (stored_as t) (snd tr) rs) /\
       (zlen p < trace_start ds t trs (Datatypes.S k) -> fst (rd_trace_samples native r (Z.of_nat k) None None (mk_file p q)) = Err EOFError)).
Proof.
  intros EB a pr dim log A P D outcome.
  destruct (contents_read ds x bc tc e t trs b CO SU PO SC NE a pr dim log A P D) as (r & w & E & (TX & BN & EX & NT & _ & GB)).
  assert (OP : opens b (Some x) bc tc e dim r) by (exists a, pr, log, w; exact E). clear E.
  destruct (contents_bytes _ _ _ _ _ _ _ _ SC) as (AB & L3). destruct CO as [CB CT TY RV PC CS].
  assert (RD : readable b (Some x) bc tc) by (split; [exact AB|]; split; [exact CB|]; split; [exact CT|]; intros y [= <-]; exact SU).
  assert (FTR : exists ts q, scan tc e (sample_size t) b (trace_start ds t trs 0) ts q /\ zlen b < q + 240 /\ Forall2 (found tc e t b) trs ts).
  { destruct SC as (tx' & tb & bb & pbs & tbs & EB' & _ & (TL & _) & (BL & _) & FP & FR).
    destruct (trace_blocks_scan tc e t b CT trs tbs (tb ++ bb ++ concat pbs) FR ltac:(now rewrite EB', <- !app_assoc) CS) as (ts & SCN & FD).
    exists ts, (zlen b). split; [|split; [lia|exact FD]]. destruct (blocks_bytes _ _ _ FP) as (_ & PL).
    replace (trace_start ds t trs 0) with (zlen (tb ++ bb ++ concat pbs)); [exact SCN|]. unfold trace_start. cbn [firstn fold_right]. rewrite !zlen_app. lia. }
  destruct FTR as (ts & q0 & SCN & QE & FD).
  assert (FT : first_trace (rd_ext r) = trace_start ds t trs 0) by (unfold first_trace, trace_start; cbn [firstn fold_right]; rewrite EX; lia).
  assert (TYR : sample_type (rd_binary r) t).
  { destruct BN as (HC & HF). destruct TY as (code & G & Q). exists code. split; [|exact Q]. rewrite <- G.
    destruct (opens_opened b (Some x) bc tc e dim r RD OP) as (x' & ts' & t' & X' & O'). destruct (op_headers _ _ _ _ _ _ _ _ _ O') as (_ & (HB & _) & _).
    assert (HFD : has_field bc "data_sample_format") by apply CB. destruct HFD as (f & FI & FN). rewrite <- FN. apply HF. rewrite <- HC, HB. exact FI. }
  assert (TR : traces_of b tc e r t ts) by (split; [exact TYR|]; rewrite FT; exists q0; auto).
  assert (LT : length ts = length trs) by (pose proof (Forall2_zlen' _ _ _ FD) as Q; unfold zlen in Q; change trace with (header * list real)%type in *; lia).
  clear TYR TY QE. subst b.
  destruct (cut_opening p z (Some x) bc tc e dim r t ts RD OP TR a pr dim log A P D) as (C1 & C2 & C3 & C4).
  fold outcome in C1, C2, C3, C4. rewrite FT in C2, C3, C4.
  split; [exact C1|]. split; [exact C2|]. split; [exact C3|]. intros L. destruct (C4 L) as (r' & ts' & EO & KP & NE' & TX' & EX' & BF & TR'). clear C1 C2 C3 C4.
  assert (OP' : opens p (Some x) bc tc e dim r').
  { unfold outcome in EO. destruct (create_reader a (Some x) bc tc (Some e) pr dim (mk_world (mk_file p 0) log)) as (o & w') eqn:EC. cbn [fst] in EO. subst o. exists a, pr, log, w'. exact EC. }
  assert (RC : readable p (Some x) bc tc) by exact (readable_cut p z (Some x) bc tc RD).
  destruct (cut_reading p z (Some x) bc tc e dim r t ts RD OP TR dim r' t ts' OP' TR') as (_ & _ & _ & _ & SB & _ & RDG).
  destruct (counts_ok p (Some x) bc tc e dim r' t ts' RC OP' TR') as (CN & _).
  destruct KP as (lost & ET & KI & KO). rewrite Forall_forall in KI, KO.
  assert (LL : length ts = (length ts' + length lost)%nat) by (rewrite ET; apply app_length).
  assert (PS : forall k i tr, nth_error ts k = Some i -> nth_error trs k = Some tr -> t_pos i = trace_start ds t trs k /\ t_count i = zlen (snd tr)).
  { intros k i tr N N'. destruct (positions tc e t (p ++ z) trs ts FD _ _ SCN k i tr N N') as (PP & PC'). split; [|exact PC'].
    rewrite PP. unfold trace_start, sizes. cbn [firstn fold_right]. lia. }
  exists r', (length ts'). split; [exact EO|]. split; [rewrite TX'; exact TX|]. split.
  { destruct BN as (B1 & B2), SB as (B3 & B4). split; [congruence|]. intros f Ff. rewrite B4, B2 by congruence. reflexivity. }
  split; [rewrite EX'; exact EX|]. split; [exact CN|]. split.
  - intros k. split.
    + intros LK. assert (LK' : (k < length trs)%nat) by lia. split; [exact LK'|].
      destruct (nth_error ts' k) as [i|] eqn:N; [|apply nth_error_None in N; lia]. destruct (nth_error trs k) as [tr|] eqn:N'; [|apply nth_error_None in N'; lia].
      assert (NI : nth_error ts k = Some i) by (rewrite ET, nth_error_app1; assumption).
      destruct (PS k i tr NI N') as (<- & _). apply KI. eapply nth_error_In; exact N.
    + intros (LK & Q). destruct (le_lt_dec (length ts') k) as [G|G]; [exfalso|exact G].
      destruct (nth_error ts k) as [i|] eqn:N; [|apply nth_error_None in N; lia]. destruct (nth_error trs k) as [tr|] eqn:N'; [|apply nth_error_None in N'; lia].
      destruct (PS k i tr N N') as (PK & _). rewrite ET, nth_error_app2 in N by exact G. specialize (KO i (nth_error_In _ _ N)). cbv beta in KO. lia.
  - intros k tr native q LK N'. destruct (nth_error ts' k) as [i|] eqn:N; [|apply nth_error_None in N; lia].
    assert (NI : nth_error ts k = Some i) by (rewrite ET, nth_error_app1; assumption). destruct (PS k i tr NI N') as (PK & PN).
    assert (TK : trace_of ts' (Z.of_nat k) i) by (split; [unfold zlen; lia|rewrite Nat2Z.id; exact N]).
    destruct (RDG (Z.of_nat k) i TK) as (RH & RS).
    destruct (GB (Z.of_nat k) tr ltac:(lia) ltac:(rewrite Nat2Z.id; exact N') native q) as ((h & RH' & SH) & (rs & RS' & ST)).
    assert (KE : t_pos i + 240 + sample_size t * t_count i = trace_start ds t trs (Datatypes.S k)).
    { rewrite PK, PN. unfold trace_start. rewrite (firstn_succ k trs tr N'), fold_right_app. cbn [fold_right]. fold (sizes t (firstn k trs)).
      rewrite sizes_from. unfold trace_size. lia. }
    specialize (KI i (nth_error_In _ _ N)). cbv beta in KI.
    split; [|split].
    + specialize (RH q q). rewrite RH' in RH. unfold same_header in RH. destruct (fst (rd_trace_header r' (Z.of_nat k) None (mk_file p q))) as [h'|]; [|destruct RH].
      exists h'. split; [reflexivity|]. destruct SH as (S1 & S2), RH as (S3 & S4). split; [congruence|]. intros f Ff. rewrite S4, S2 by congruence. reflexivity.
    + intros Q. exists rs. split; [|exact ST]. rewrite <- RS'. apply (proj1 (RS native None None q q)). cbn [or_else]. rewrite KE. exact Q.
    + intros Q. apply (proj2 (RS native None None q q)); cbn [or_else]; [rewrite KE; exact Q| |lia].
      pose proof (sample_size_pos t). nia.
Qed.
End Reading.
