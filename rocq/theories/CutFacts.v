(* Proofs about files that have been cut off. *)
From Coq Require Import String ZArith List Bool Lia Sorted Permutation ZifyBool ZifyNat.
From Verif Require Import Py PyFloat IbmFloat Util Catalog Packing Formats FileIO Text TextIO Float32 Toolkit Reader
  PyFacts Spec_Util Spec_Catalog CatalogFacts Spec_Ibm FloatFacts RoundFacts IbmFacts IbmArith Spec_Packing PackFacts CompileFacts HeaderFacts PackingFacts FormatFacts
  Spec_Text TextFacts TextIOFacts ExtReadFacts Spec_Segy Float32Facts Spec_Reader ToolkitFacts ReaderFacts OpenFacts Spec_Writer WriterFacts Spec_Cut.
Import ListNotations.
Local Open Scope string_scope.
Open Scope list_scope.
Open Scope Z_scope.

(* ------------------------------------------------------------------ *)
(* parts of a file that lie within the kept bytes *)
Lemma byte_at_kept p z i : 0 <= i < zlen p -> byte_at (p ++ z) i = byte_at p i.
Proof. intros H. unfold byte_at. apply app_nth1. unfold zlen in H. lia. Qed.
Lemma stored_cut e p z pos size v : stored_at e (p ++ z) pos size v -> pos + size <= zlen p -> stored_at e p pos size v.
Proof.
  intros (P & _ & H) L. split; [exact P|]. split; [exact L|]. intros k K. rewrite <- (H k K). symmetry. apply byte_at_kept. destruct e; lia.
Qed.
Lemma stored_grow e p z pos size v : stored_at e p pos size v -> stored_at e (p ++ z) pos size v.
Proof.
  intros (P & L & H). split; [exact P|]. split; [rewrite zlen_app; pose proof (zlen_nonneg z); lia|]. intros k K. rewrite <- (H k K).
  apply byte_at_kept. destruct e; lia.
Qed.
Lemma block_cut p z n m : 0 <= n -> 0 <= m -> n + m <= zlen p -> block (p ++ z) n m = block p n m.
Proof.
  intros N M L. unfold block, zlen in *. rewrite skipn_app, firstn_app, skipn_length.
  replace (Z.to_nat m - (length p - Z.to_nat n))%nat with 0%nat by lia. cbn [firstn]. apply app_nil_r.
Qed.
Lemma page_cut x p z k page : 0 <= k -> page_at x (p ++ z) k page -> page_present p k -> page_at x p k page.
Proof.
  intros K (_ & A & B & D) P. split; [exact P|]. split; [exact A|]. split; [exact B|]. rewrite <- D. f_equal. symmetry.
  unfold page_present in P. apply (block_cut p z (3600 + 3200 * k) 3200); lia.
Qed.
Lemma sample_grow t e p z pos v : sample_at t e p pos v -> sample_at t e (p ++ z) pos v.
Proof.
  unfold sample_at. pose proof (zlen_nonneg z).
  destruct t; try (intros (n & R & I & S); exists n; split; [exact R|]; split; [exact I|]; now apply stored_grow).
  - intros (bits & f & R & S & I). exists bits, f. split; [exact R|]. split; [|exact I]. now apply stored_grow.
  - intros (w & R & W & P & L & A & B & C & D). exists w. rewrite zlen_app, !byte_at_kept by lia. split; [exact R|]. split; [exact W|]. split; [exact P|]. split; [lia|]. auto.
Qed.
Lemma field_within c n f : format_ok c n -> is_field c f -> 0 <= field_pos c f /\ field_pos c f + field_size f <= n.
Proof.
  intros (C & TF & ST & OR & LEN & MK) F. destruct (MK Big) as (p & PK).
  destruct (unpack_spec c Big p [] C ST OR PK) as (len & E & W & _). rewrite LEN in E. subst len. now apply W.
Qed.

Lemma field_cut c e p z pos n v : format_ok c 240 -> pos + 240 <= zlen p ->
  field_at c e (p ++ z) pos n v -> field_at c e p pos n v.
Proof.
  intros FO L (f & F & E & A & I & S). exists f. repeat (split; [assumption|]). apply (stored_cut e p z); [exact S|].
  pose proof (field_within c 240 f FO F). lia.
Qed.
Lemma bad_field_grow c e p z pos n : bad_field_at c e p pos n -> bad_field_at c e (p ++ z) pos n.
Proof. intros (f & v & F & E & A & I & S). exists f, v. repeat (split; [assumption|]). now apply stored_grow. Qed.

(* ------------------------------------------------------------------ *)
(* the traces that are left *)
Lemma scan_after c e bps d p ts q : 0 <= bps -> (forall f v, is_field c f -> fd_name f = "num_samples" -> accepts (fd_type f) v -> 0 <= v) ->
  scan c e bps d p ts q -> forall t, In t ts -> p <= t_pos t.
Proof.
  intros Hb NN S. induction S as [p|t ts q s L F1 F2 F3 F4 F5 S IH]; intros t' I; [destruct I|].
  assert (0 <= t_count t) by (destruct F3 as (f & A & B & C & _); eauto).
  destruct I as [<-|I]; [lia|]. specialize (IH t' I). nia.
Qed.
Lemma scan_cut c e bps p z pos ts q : trace_format c -> 0 <= bps -> scan c e bps (p ++ z) pos ts q -> zlen (p ++ z) < q + 240 ->
  exists ts' q', kept (zlen p) ts ts' /\ scan c e bps p pos ts' q' /\ zlen p < q' + 240.
Proof.
  intros T Hb S. assert (NN : forall f v, is_field c f -> fd_name f = "num_samples" -> accepts (fd_type f) v -> 0 <= v) by apply T.
  assert (FO : format_ok c 240) by apply T. pose proof (zlen_nonneg z) as ZN.
  induction S as [pos|t ts q s L F1 F2 F3 F4 F5 S IH]; intros E.
  - exists [], pos. rewrite zlen_app in E. split; [|split; [constructor|lia]]. exists []. auto.
  - destruct (Z_le_dec (t_pos t + 240) (zlen p)) as [K|K].
    + destruct (IH E) as (ts' & q' & (lost & -> & A & B) & S' & E'). exists (t :: ts'), q'. split; [exists lost; split; [reflexivity|]; split; [constructor; auto|exact B]|].
      split; [|exact E']. apply (scan_trace c e bps p t ts' q' s); auto; eapply field_cut; eauto.
    + exists [], (t_pos t). split; [|split; [constructor|lia]]. exists (t :: ts). split; [reflexivity|]. split; [constructor|].
      constructor; [lia|]. apply Forall_forall. intros t' I. pose proof (scan_after c e bps (p ++ z) _ ts q Hb NN S t' I).
      assert (0 <= t_count t) by (destruct F3 as (f & A' & B' & C' & _); eauto). nia.
Qed.

(* ------------------------------------------------------------------ *)
(* the headers before the traces *)
Lemma encoding_cut enc p z x : 3200 <= zlen p -> encoding_used enc (p ++ z) x -> encoding_used enc p x.
Proof.
  intros L. unfold encoding_used. destruct enc; [auto|]. replace (firstn (Z.to_nat 3200) (p ++ z)) with (firstn (Z.to_nat 3200) p); [auto|].
  symmetry. rewrite firstn_app. unfold zlen in L. replace (Z.to_nat 3200 - length p)%nat with 0%nat by lia. apply app_nil_r.
Qed.
Lemma text_cut x p z tx : 3600 <= zlen p -> reel_text x (p ++ z) tx -> reel_text x p tx.
Proof. intros L (A & B & D). rewrite (block_cut p z 0 3200) in D by lia. split; auto. Qed.

Lemma ext_page_at x d n ext k : ext_outcome x d n (Ok ext) -> 0 <= k < zlen ext - 1 -> ~ end_page (nth (Z.to_nat k) ext []).
Proof.
  intros (P & Q) K. destruct (Z_lt_dec n 0) as [N|N].
  - specialize (Q N). inversion Q as [ps pg PL PA EP| |]; subst. rewrite zlen_app in K. change (zlen [pg]) with 1 in K.
    rewrite nth_before by lia. apply PL. lia.
  - specialize (P ltac:(lia)). inversion P; subst. auto.
Qed.
Lemma ext_kept x p z n ext : ext_outcome x (p ++ z) n (Ok ext) -> first_trace ext <= zlen p -> ext_outcome x p n (Ok ext).
Proof.
  unfold first_trace. intros (P & Q) L. split; intros N.
  - specialize (P N). inversion P as [ps E PA NE| | |]; subst. apply counted_read; auto. intros k K.
    apply (page_cut x p z); [lia|auto|]. unfold page_present. lia.
  - specialize (Q N). inversion Q as [ps pg PL PA EP| |]; subst. rewrite zlen_app in L. change (zlen [pg]) with 1 in L. pose proof (zlen_nonneg ps).
    apply until_read; auto.
    + intros k K. destruct (PL k K) as (A & B). split; [|exact B]. apply (page_cut x p z); [lia|auto|]. unfold page_present. lia.
    + apply (page_cut x p z); [lia|auto|]. unfold page_present. lia.
Qed.
Lemma ext_short x p z n ext : ext_outcome x (p ++ z) n (Ok ext) -> 3600 <= zlen p < first_trace ext -> ext_outcome x p n (Err EOFError).
Proof.
  unfold first_trace. intros EO L. set (m := (zlen p - 3600) / 3200).
  assert (M : 0 <= m < zlen ext) by (unfold m; split; [apply Z.div_pos; lia|apply Z.div_lt_upper_bound; lia]).
  assert (M2 : 3600 + 3200 * m <= zlen p < 3600 + 3200 * (m + 1)).
  { unfold m. pose proof (Z.div_mod (zlen p - 3600) 3200). pose proof (Z.mod_pos_bound (zlen p - 3600) 3200). lia. }
  assert (LN : zlen (firstn (Z.to_nat m) ext) = m) by (unfold zlen in *; rewrite firstn_length; lia).
  assert (NT : forall k, 0 <= k < m -> nth (Z.to_nat k) (firstn (Z.to_nat m) ext) [] = nth (Z.to_nat k) ext []).
  { intros k K. rewrite <- (firstn_skipn (Z.to_nat m) ext) at 2. rewrite app_nth1; [reflexivity|]. unfold zlen in *. lia. }
  assert (PL : plain_pages x p (firstn (Z.to_nat m) ext)).
  { intros k K. rewrite LN in K. rewrite NT by exact K. split.
    - apply (page_cut x p z); [lia|apply (ext_pages x (p ++ z) n ext EO); lia|]. unfold page_present. lia.
    - apply (ext_page_at x (p ++ z) n ext k EO). lia. }
  assert (NP : ~ page_present p (zlen (firstn (Z.to_nat m) ext))) by (rewrite LN; unfold page_present; lia).
  split; intros N.
  - apply (counted_short x p n (firstn (Z.to_nat m) ext)); auto. rewrite LN. destruct EO as (P & _). specialize (P N). inversion P; subst. lia.
  - apply (until_short x p (firstn (Z.to_nat m) ext)); auto.
Qed.

Lemma outcome_ext_err x bc tc e d tx bin n y r : supported x -> binary_format bc -> 3600 <= zlen d -> reel_text x d tx ->
  holds_buffer bc e (block d 3200 400) bin -> hdr_get bin "num_extended_textual_headers" = Ok n -> ext_outcome x d n (Err y) ->
  open_outcome x bc tc e d r -> r = Err y.
Proof.
  intros S B L RT HB G EO O.
  assert (NH : forall tx' bin' ext', ~ reel_headers x bc e d tx' bin' ext').
  { intros tx' bin' ext' H. exact (headers_ext_err x bc e d S B tx' bin' ext' bin n y H HB G EO). }
  destruct O as [D|tx' n' RT' BF|tx' bin' n' y' RT' HB' G' EO'|tx' bin' ext' RH NT|tx' bin' ext' t' y' RH TY' CO|tx' bin' ext' t' v ts RH TY' FT NE GV NR|r ts t' v RH TY' FT NE GV RC _ _ _];
    try (exfalso; eapply NH; eassumption).
  - exfalso. now apply (text_decodes x d tx).
  - exfalso. now apply (binary_reads bc e d B L bin n').
  - destruct B as ((C & _) & _ & FN & _). rewrite (holds_get _ _ _ bin bin' _ C HB HB' FN), G' in G. injection G as <-.
    pose proof (ext_outcome_unique x d n' _ _ S EO EO'). congruence.
Qed.

Section Cut.
Variables (p z : list Z) (enc : option encoding) (bc tc : fmt) (e : endian) (dim : option Z) (r : reader) (t : segytype) (ts : list tinfo).
Hypothesis RD : readable (p ++ z) enc bc tc.
Hypothesis OP : opens (p ++ z) enc bc tc e dim r.
Hypothesis TR : traces_of (p ++ z) tc e r t ts.

Lemma readable_cut : readable p enc bc tc.
Proof. destruct RD as (A & B & C & D). split; [|auto]. unfold all_bytes in A. now apply Forall_app in A. Qed.

Lemma cut_opening a pr dim' log : attrs_ok a -> pr <> NotCallable -> (forall k, dim' = Some k -> In k [1; 2; 3]) ->
  let o := fst (create_reader a enc bc tc (Some e) pr dim' (mk_world (mk_file p 0) log)) in
  (zlen p < 3600 -> o = Err ValueError) /\
  (3600 <= zlen p < first_trace (rd_ext r) -> o = Err EOFError) /\
  (first_trace (rd_ext r) <= zlen p < first_trace (rd_ext r) + 240 -> o = Err RuntimeError) /\
  (first_trace (rd_ext r) + 240 <= zlen p -> exists r' ts', o = Ok r' /\ kept (zlen p) ts ts' /\ ts' <> [] /\
     rd_text r' = rd_text r /\ rd_ext r' = rd_ext r /\ (forall n, has_field bc n -> hdr_get (rd_binary r') n = hdr_get (rd_binary r) n) /\
     traces_of p tc e r' t ts').
Proof.
  intros A P D o. pose proof readable_cut as RC. pose proof RD as (_ & B & T & HE). pose proof (zlen_nonneg (rd_ext r)) as ZE.
  destruct (get_opened (p ++ z) enc bc tc e dim r t ts RD OP TR) as (x & X & O).
  assert (S : supported x) by (eapply guessed_supported; [apply RD|exact X]).
  assert (EX : 3600 <= zlen p -> encoding_used enc p x) by (intros L; apply (encoding_cut enc p z); [lia|exact X]).
  destruct (op_headers _ _ _ _ _ _ _ _ _ O) as (RT & HB & n & G & EO).
  assert (HD : 3600 <= zlen p -> reel_text x p (rd_text r) /\ holds_buffer bc e (block p 3200 400) (rd_binary r)).
  { intros L. split; [now apply (text_cut x p z)|]. now rewrite <- (block_cut p z 3200 400) by lia. }
  assert (OUT : 3600 <= zlen p -> open_outcome x bc tc e p o).
  { intros L. destruct (create_reader_total a enc bc tc e pr dim' p log x RC A L P D (EX L)) as (r' & q & log' & E & OO & _).
    unfold o. rewrite E. exact OO. }
  pose proof (op_type _ _ _ _ _ _ _ _ _ O) as TY.
  assert (RH : first_trace (rd_ext r) <= zlen p -> reel_headers x bc e p (rd_text r) (rd_binary r) (rd_ext r)).
  { intros L. destruct HD as (RT' & HB'); [unfold first_trace in L; lia|]. split; [exact RT'|]. split; [exact HB'|].
    exists n. split; [exact G|]. now apply (ext_kept x p z). }
  split; [|split; [|split]].
  - intros L. destruct (checks_order a enc bc tc (Some e) pr dim' (mk_file p 0) log ltac:(cbn; lia)) as (_ & _ & _ & C & _).
    cbn [f_data] in C. unfold o. now rewrite (C A L).
  - intros L. destruct (HD (proj1 L)) as (RT' & HB'). apply (outcome_ext_err x bc tc e p (rd_text r) (rd_binary r) n EOFError o S B (proj1 L) RT' HB' G); [|apply OUT; lia].
    now apply (ext_short x p z n (rd_ext r)).
  - intros L. assert (L36 : 3600 <= zlen p) by (unfold first_trace in L; lia). 
    destruct (outcome_traces x bc tc e p S B T L36 (rd_text r) (rd_binary r) (rd_ext r) t o (RH (proj1 L)) TY (OUT L36)) as (H & _).
    apply H. exists (first_trace (rd_ext r)). split; [constructor|lia].
  - intros L. assert (L36 : 3600 <= zlen p) by (unfold first_trace in L; lia).
    destruct (op_traces _ _ _ _ _ _ _ _ _ O) as (q & SC & QE). pose proof (sample_size_pos t) as SP.
    destruct (scan_cut tc e (sample_size t) p z _ ts q T ltac:(lia) SC QE) as (ts' & q' & K & SC' & QE').
    assert (NE : ts' <> []). { intros ->. inversion SC'; subst. lia. }
    destruct (op_revision _ _ _ _ _ _ _ _ _ O) as (v & GV & RV).
    destruct (outcome_ok x bc tc e p S B T L36 (rd_text r) (rd_binary r) (rd_ext r) t ts' v (rd_revision r) o (RH ltac:(lia)) TY) as (r' & E & TX & EXT & BF & TO); auto.
    { exists q'. auto. }
    exists r', ts'. repeat (split; [assumption|]). exact TO.
Qed.

Lemma revision_code_unique v a b : revision_code v a -> revision_code v b -> a = b.
Proof. intros A B. cbn in A, B. intuition congruence. Qed.

Lemma trace_of_app ts' lost k tr : trace_of ts' k tr -> trace_of (ts' ++ lost) k tr.
Proof.
  intros (K & E). split; [rewrite zlen_app; pose proof (zlen_nonneg lost); lia|]. rewrite nth_error_app1; [exact E|]. unfold zlen in K. lia.
Qed.

Lemma cut_reading dim' r' t' ts' : opens p enc bc tc e dim' r' -> traces_of p tc e r' t' ts' ->
  kept (zlen p) ts ts' /\ t' = t /\ rd_text r' = rd_text r /\ rd_ext r' = rd_ext r /\ same_fields (rd_binary r) (rd_binary r') /\
  rd_revision r' = rd_revision r /\
  forall k tr, trace_of ts' k tr ->
    (forall q q', same_header (fst (rd_trace_header r k None (mk_file (p ++ z) q))) (fst (rd_trace_header r' k None (mk_file p q')))) /\
    forall native a b q q',
      (t_pos tr + 240 + sample_size t * or_else b (t_count tr) <= zlen p ->
         fst (rd_trace_samples native r' k a b (mk_file p q')) = fst (rd_trace_samples native r k a b (mk_file (p ++ z) q))) /\
      (zlen p < t_pos tr + 240 + sample_size t * or_else b (t_count tr) -> 0 <= or_else a 0 < or_else b (t_count tr) -> or_else b (t_count tr) <= t_count tr ->
         fst (rd_trace_samples native r' k a b (mk_file p q')) = Err EOFError).
Proof.
  intros OP' TR'. pose proof readable_cut as RC. pose proof RD as (_ & B & T & HE).
  destruct (get_opened p enc bc tc e dim' r' t' ts' RC OP' TR') as (x' & X' & O').
  destruct (get_opened (p ++ z) enc bc tc e dim r t ts RD OP TR) as (x & X & O).
  destruct OP' as (a & pr & log & w & E0).
  destruct (checks_cases a (Some e) pr dim' (mk_file p 0) log ltac:(cbn; lia)) as [(e' & [= <-] & A & L & P & D)|(y & E)].
  2: { unfold create_reader in E0. erewrite wbind_err in E0 by exact E. discriminate. }
  cbn [f_data] in L. destruct (cut_opening a pr dim' log A P D) as (_ & C2 & C3 & C4). rewrite E0 in C2, C3, C4. cbn [fst] in C2, C3, C4.
  destruct (Z_lt_dec (zlen p) (first_trace (rd_ext r))) as [Q|Q]. { specialize (C2 ltac:(lia)). discriminate. }
  destruct (Z_lt_dec (zlen p) (first_trace (rd_ext r) + 240)) as [Q'|Q']. { specialize (C3 ltac:(lia)). discriminate. }
  destruct (C4 ltac:(lia)) as (r0 & ts0 & [= <-] & K & NE & TX & EXT & BF & TO). clear C2 C3 C4.
  destruct (traces_opened _ _ _ _ _ _ _ _ _ _ _ T O' TO) as (<- & <-).
  assert (OP' : opens p enc bc tc e dim' r') by (exists a, pr, log, w; exact E0).
  assert (SF : same_fields (rd_binary r) (rd_binary r')).
  { destruct (op_headers _ _ _ _ _ _ _ _ _ O) as (_ & HB & _). destruct (op_headers _ _ _ _ _ _ _ _ _ O') as (_ & HB' & _).
    rewrite (block_cut p z 3200 400) in HB by lia. apply (holds_same bc e (block p 3200 400)); auto. apply B. }
  assert (RV : rd_revision r' = rd_revision r).
  { destruct (op_revision _ _ _ _ _ _ _ _ _ O) as (v & G & V). destruct (op_revision _ _ _ _ _ _ _ _ _ O') as (v' & G' & V').
    rewrite BF, G in G' by apply B. injection G' as <-. now apply (revision_code_unique v). }
  repeat (split; [solve [assumption|reflexivity]|]). intros k tr TK. pose proof K as (lost & EQ & IN & _).
  assert (TK' : trace_of ts k tr) by (rewrite EQ; now apply trace_of_app).
  assert (HP : 0 <= t_pos tr) by (apply (trace_placed x bc tc e dim (p ++ z) r ts t T O tr); now apply (trace_in ts k)).
  assert (IN' : t_pos tr + 240 <= zlen p). { rewrite Forall_forall in IN. apply IN. destruct TK as (_ & TK). eapply nth_error_In; eauto. }
  split.
  - intros q q'. destruct (header_ok_read (p ++ z) enc bc tc e dim r t ts RD OP TR k q) as (_ & _ & H).
    destruct (header_ok_read p enc bc tc e dim' r' t ts0 RC OP' TO k q') as (_ & _ & H').
    assert (C : class_ok tc) by apply T. unfold same_header.
    inversion H as [NK|i n TI BD|i h TI HB]; inversion H' as [NK'|i' n' TI' BD'|i' h' TI' HB']; try (destruct TK, TK'; lia); try reflexivity;
      rewrite (trace_of_unique _ _ _ _ TI TK') in *; rewrite (trace_of_unique _ _ _ _ TI' TK) in *.
    + rewrite <- (block_cut p z) in HB' by lia. destruct T as (FO & _). destruct FO as (C1 & TF & ST & OR & LEN & MK).
      apply (holds_not_bad tc e (p ++ z) (t_pos tr) 240 h' n C1 ST LEN) in BD; auto; try lia. rewrite zlen_app; pose proof (zlen_nonneg z); lia.
    + apply (bad_field_grow tc e p z) in BD'. destruct T as (FO & _). destruct FO as (C1 & TF & ST & OR & LEN & MK).
      apply (holds_not_bad tc e (p ++ z) (t_pos tr) 240 h n' C1 ST LEN) in BD'; auto; try lia. rewrite zlen_app; pose proof (zlen_nonneg z); lia.
    + rewrite (block_cut p z) in HB by lia. now apply (holds_same tc e (block p (t_pos tr) 240)).
  - intros native a0 b q q'. destruct (samples_ok (p ++ z) enc bc tc e dim r t ts RD OP TR native k a0 b q) as (_ & _ & H).
    destruct (samples_ok p enc bc tc e dim' r' t ts0 RC OP' TO native k a0 b q') as (_ & _ & H'). split.
    + intros IN2. apply (samples_outcome_unique (p ++ z) e t ts k a0 b); [|exact H].
      inversion H' as [NK|i TI BD|i TI BD BL SH|i rs TI B1 B2 B3 RL SA]; try (destruct TK; lia);
        rewrite (trace_of_unique _ _ _ _ TI TK) in *.
      * now apply (no_such_range _ _ _ _ _ _ _ tr).
      * lia.
      * apply (samples_read _ _ _ _ _ _ _ tr); auto; [right; rewrite zlen_app; pose proof (zlen_nonneg z); lia|].
        intros i' I'. apply sample_grow. auto.
    + intros SH B1 B2. apply (samples_outcome_unique p e t ts0 k a0 b); [exact H'|]. now apply (samples_cut_off _ _ _ _ _ _ _ tr).
Qed.
End Cut.

(* ------------------------------------------------------------------ *)
(* writing that stops *)
Lemma wbind_wbind {A B C} (m : wio A) (k : A -> wio B) (l : B -> wio C) w : wbind (wbind m k) l w = wbind m (fun a => wbind (k a) l) w.
Proof. unfold wbind. destruct (m w) as [[a|x] w']; reflexivity. Qed.
Lemma wbind_ext {A B} (m : wio A) (k l : A -> wio B) w : (forall a w, k a w = l a w) -> wbind m k w = wbind m l w.
Proof. intros H. unfold wbind. destruct (m w) as [[a|x] w']; auto. Qed.
Lemma write_traces_app ds p e n ks rest w : write_traces ds p e n (ks ++ rest) w = wbind (write_traces ds p e n ks) (fun _ => write_traces ds p e n rest) w.
Proof.
  revert w. induction ks as [|k ks IH]; intros w; [reflexivity|]. cbn [write_traces app].
  repeat (rewrite wbind_wbind; apply wbind_ext; intros ? ?). apply IH.
Qed.
Lemma write_traces_restrict ds ks p e n l w : write_traces (restrict ds ks) p e n l w = write_traces ds p e n l w.
Proof. revert w. induction l as [|k l IH]; intros w; [reflexivity|]. cbn [write_traces restrict ds_trace_header ds_trace_samples ds_sample_format]. repeat (apply wbind_ext; intros ? ?). apply IH. Qed.

Definition upto_traces (ds : dataset) (enc : encoding) (e : endian) : wio Datatypes.unit :=
  wbind (on_file (write_textual_reel_header (ds_text ds) enc)) (fun _ =>
  wbind (on_file (write_binary_reel_header (ds_binary ds) e)) (fun _ => on_file (write_extended_textual_headers (ds_ext ds) enc))).
Lemma write_segy_eq ds enc x tc e pr w : supported x -> encoding_for enc ds x -> pr <> NotCallable ->
  write_segy ds enc tc e pr w = wbind (upto_traces ds x e) (fun _ => wbind (on_file (lift (make_header_packer tc e))) (fun p =>
    wbind (write_traces ds p e (ds_num_traces ds) (ds_trace_indexes ds)) (fun _ => report 1 1))) w.
Proof.
  intros S X P. unfold write_segy. assert (Q : forall A (a b : A), match pr with NotCallable => a | _ => b end = b) by (destruct pr; congruence). rewrite Q. clear Q.
  assert (XE : match enc with Some x => x | None => match ds_encoding ds with Some (Some x) => x | _ => ASCII end end = x).
  { unfold encoding_for in X. destruct enc; [now subst|]. destruct (ds_encoding ds) as [[y|]|]; now subst. }
  cbv zeta. rewrite XE. replace (is_supported_encoding x) with true by (destruct S as [->| ->]; reflexivity). cbn [negb].
  unfold upto_traces. rewrite wbind_wbind. apply wbind_ext. intros _ w1. now rewrite wbind_wbind.
Qed.

Lemma text_then ds x bc e old log : supported x -> Forall (encodable x) (firstn 40 (ds_text ds)) -> format_ok bc 400 -> h_cls (ds_binary ds) = bc ->
  exists tx tb p, fitted_lines 40 80 (ds_text ds) tx /\ text_block x tx tb /\ make_header_packer bc e = Ok p /\
    upto_traces ds x e (mk_world (mk_file old 0) log) =
    wbind (on_file (run buf <- lift (pk_pack p (ds_binary ds)) ;; write buf)) (fun _ => on_file (write_extended_textual_headers (ds_ext ds) x)) (mk_world (upon old tb) log).
Proof.
  intros S TX (C & TF & ST & OR & LEN & MK) HC. destruct (MK e) as (p & EP).
  destruct (text_written x (ds_text ds) (mk_file old 0) S TX) as (tx & tb & FT & TB & WT). exists tx, tb, p. repeat (split; [assumption|]).
  unfold upto_traces. erewrite wbind_ok; [|apply on_file_ok; rewrite WT, <- upon_nil; apply write_upon]. cbn [app].
  unfold write_binary_reel_header. rewrite HC, EP. reflexivity.
Qed.

Lemma upto_ok ds x bc e old log : supported x -> Forall (encodable x) (firstn 40 (ds_text ds)) -> format_ok bc 400 -> good_header bc (ds_binary ds) ->
  Forall (page_ok x) (ds_ext ds) ->
  exists tx tb bb pbs, fitted_lines 40 80 (ds_text ds) tx /\ text_block x tx tb /\ header_block bc e (ds_binary ds) 400 bb /\
    Forall2 (text_block x) (ds_ext ds) pbs /\
    upto_traces ds x e (mk_world (mk_file old 0) log) = (Ok tt, mk_world (upon old (tb ++ bb ++ concat pbs)) log).
Proof.
  intros S TX BC BH EX. destruct (text_then ds x bc e old log S TX BC (proj1 BH)) as (tx & tb & p & FT & TB & EP & E).
  destruct (header_written bc 400 e (ds_binary ds) BC BH) as (p' & bb & EP' & BPK & BB). rewrite EP in EP'. injection EP' as <-.
  assert (L : zlen (tb ++ bb) = 3600) by (rewrite zlen_app; destruct TB as (-> & _), BB as (-> & _); reflexivity).
  destruct (pages_written x (ds_ext ds) old (tb ++ bb) S EX L) as (pbs & FP & WP).
  exists tx, tb, bb, pbs. repeat (split; [assumption|]). rewrite E.
  erewrite wbind_ok; [|apply on_file_ok; rewrite BPK; erewrite ibind_ok by reflexivity; apply write_upon].
  rewrite app_assoc. apply on_file_ok. exact WP.
Qed.

Section Stop.
Variables (ds : dataset) (enc : option encoding) (x : encoding) (bc tc : fmt) (e : endian) (t : segytype) (pr : progress_arg) (old : list Z) (log : list (Z * Z)).
Hypothesis X : encoding_for enc ds x.
Hypothesis P : pr <> NotCallable.
Let outcome := write_segy ds enc tc e pr (mk_world (mk_file old 0) log).

Lemma stop_reel : supported x -> Forall is_text (ds_text ds) -> Forall (Forall is_text) (ds_ext ds) -> format_ok bc 400 ->
  h_cls (ds_binary ds) = bc -> header_ok (ds_binary ds) ->
  (~ Forall (encodable x) (firstn 40 (ds_text ds)) -> outcome = (Err UnicodeEncodeError, mk_world (mk_file old 0) log)) /\
  (Forall (encodable x) (firstn 40 (ds_text ds)) -> exists tx tb, fitted_lines 40 80 (ds_text ds) tx /\ text_block x tx tb /\
     (~ coincident_agree (ds_binary ds) -> outcome = (Err ValueError, mk_world (overwritten old tb) log)) /\
     (coincident_agree (ds_binary ds) -> exists bb, header_block bc e (ds_binary ds) 400 bb /\
        (~ Forall (page_ok x) (ds_ext ds) -> exists y, In y [ValueError; UnicodeEncodeError] /\ outcome = (Err y, mk_world (overwritten old (tb ++ bb)) log)))).
Proof.
  intros S IT IE BC HC HO. unfold outcome. rewrite (write_segy_eq ds enc x tc e pr _ S X P). split.
  - intros N. destruct (write_textual_refused x (ds_text ds) (mk_file old 0)) as (_ & R & _). specialize (R S IT N).
    unfold upto_traces. rewrite wbind_wbind. erewrite wbind_err; [reflexivity|]. apply on_file_ok. exact R.
  - intros TX. destruct (text_then ds x bc e old log S TX BC HC) as (tx & tb & p & FT & TB & EP & E). exists tx, tb.
    split; [exact FT|]. split; [exact TB|]. pose proof BC as (C & TF & ST & OR & LEN & MK).
    destruct (pack_total bc e p (ds_binary ds) C ST TF EP HC HO) as [(b & PK & AG)|(PK & f & g & F & G & O & D)]; split; intros CA.
    + exfalso. apply CA. intros f g F G O. rewrite HC in F, G. now apply AG.
    + destruct (header_written bc 400 e (ds_binary ds) BC (conj HC (conj HO CA))) as (p' & bb & EP' & BPK & BB). rewrite EP in EP'. injection EP' as <-.
      exists bb. split; [exact BB|]. intros NP.
      destruct (write_ext_refused x (ds_ext ds) (upon old (tb ++ bb)) S IE NP) as ([W|W] & _); [exists ValueError|exists UnicodeEncodeError]; (split; [cbn; tauto|]).
      all: (erewrite wbind_err; [reflexivity|]; rewrite E; erewrite wbind_ok; [|apply on_file_ok; rewrite BPK; erewrite ibind_ok by reflexivity; apply write_upon];
        rewrite (on_file_ok _ _ _ _ _ W); f_equal; f_equal; unfold overwritten, upon, over; cbn [f_data]; f_equal; destruct TB as (L1 & _), BB as (L2 & _); rewrite zlen_app; lia).
    + erewrite wbind_err; [reflexivity|]. rewrite E. erewrite wbind_err; [reflexivity|]. apply on_file_ok. rewrite PK. reflexivity.
    + exfalso. apply D. apply CA; now rewrite ?HC.
Qed.

Lemma stop_trace trs ks k rest : writable (restrict ds ks) x bc tc t trs -> ds_num_traces ds <> 0 -> ds_trace_indexes ds = ks ++ k :: rest ->
  exists b, segy_contents ds x bc tc e t trs b /\
    let stops y b' := outcome = (Err y, mk_world (overwritten old b') (log ++ map (fun k => (k, ds_num_traces ds)) ks)) in
    (forall y, ds_trace_header ds k = Err y -> stops y b) /\
    (forall h, ds_trace_header ds k = Ok h -> h_cls h = tc -> header_ok h -> ~ coincident_agree h -> stops ValueError b) /\
    (forall h, ds_trace_header ds k = Ok h -> good_header tc h -> exists hb, header_block tc e h 240 hb /\
       (forall y, ds_trace_samples ds k None None = Err y -> stops y (b ++ hb)) /\
       (forall ss r, ds_trace_samples ds k None None = Ok ss -> In r ss -> refused t r -> exists y, stops y (b ++ hb))).
Proof.
  intros [S TX BC BH EX TC TY N PR G] NZ EI. cbn [restrict ds_text ds_binary ds_ext ds_sample_format ds_num_traces] in *.
  destruct (upto_ok ds x bc e old log S TX BC BH EX) as (tx & tb & bb & pbs & FT & TB & BB & FP & U).
  assert (TC' := TC). destruct TC' as (C & TF & ST & OR & LEN & MP). destruct (MP e) as (p & EP).
  destruct (traces_written (restrict ds ks) tc e t trs p (ds_num_traces ds) old TC EP TY _ PR G (or_intror NZ)) as (tbs & F2 & WTR).
  cbn [restrict ds_trace_indexes] in WTR.
  exists ((tb ++ bb ++ concat pbs) ++ concat tbs). split.
  { exists tx, tb, bb, pbs, tbs. rewrite <- !app_assoc. auto 10. }
  assert (W : outcome = wbind (write_traces ds p e (ds_num_traces ds) (k :: rest)) (fun _ => report 1 1)
     (mk_world (upon old ((tb ++ bb ++ concat pbs) ++ concat tbs)) (log ++ map (fun k => (k, ds_num_traces ds)) ks))).
  { unfold outcome. rewrite (write_segy_eq ds enc x tc e pr _ S X P), (wbind_ok _ _ _ _ _ U), EP, on_lift_ok, EI.
    unfold wbind at 1. rewrite write_traces_app. unfold wbind at 1. rewrite <- (write_traces_restrict ds ks). rewrite WTR. reflexivity. }
  rewrite W. clear W U WTR. set (b := (tb ++ bb ++ concat pbs) ++ concat tbs). cbv zeta. cbn [write_traces]. split; [|split].
  - intros y H. rewrite H, wbind_wbind, on_lift_err. reflexivity.
  - intros h H HC HO NA. rewrite H, wbind_wbind, on_lift_ok, wbind_wbind.
    destruct (pack_total tc e p h C ST TF EP HC HO) as [(b' & PK & AG)|(PK & _)].
    { exfalso. apply NA. intros f g F G' O. rewrite HC in F, G'. now apply AG. }
    erewrite wbind_err; [reflexivity|]. apply on_file_ok. unfold write_trace_header. rewrite PK. reflexivity.
  - intros h H GH. destruct (header_written tc 240 e h TC GH) as (p' & hb & EP' & PK & HB). rewrite EP in EP'. injection EP' as <-.
    exists hb. split; [exact HB|].
    assert (Q : forall K : _ -> wio Datatypes.unit, wbind (on_file (write_trace_header h p)) K (mk_world (upon old b) (log ++ map (fun k => (k, ds_num_traces ds)) ks)) =
      K tt (mk_world (upon old (b ++ hb)) (log ++ map (fun k => (k, ds_num_traces ds)) ks))).
    { intros K. erewrite wbind_ok; [reflexivity|]. apply on_file_ok. unfold write_trace_header. rewrite PK. erewrite ibind_ok by reflexivity. apply write_upon. }
    rewrite H, wbind_wbind, on_lift_ok, wbind_wbind, Q. split.
    + intros y E. rewrite E, wbind_wbind, on_lift_err. reflexivity.
    + intros ss r E I R. rewrite E, wbind_wbind, on_lift_ok, TY, wbind_wbind, on_lift_ok, wbind_wbind.
      destruct (samples_refused e t ss (upon old (b ++ hb)) r I R) as (y & WB). exists y. erewrite wbind_err; [reflexivity|]. now apply on_file_ok.
Qed.
End Stop.

(* ------------------------------------------------------------------ *)
(* a header without its samples at the end *)
Lemma page_grow x p z k page : 0 <= k -> page_at x p k page -> page_at x (p ++ z) k page.
Proof.
  intros K (P & A & B & D). unfold page_present in P. split; [unfold page_present; rewrite zlen_app; pose proof (zlen_nonneg z); lia|].
  split; [exact A|]. split; [exact B|]. rewrite <- D. f_equal. apply (block_cut p z (3600 + 3200 * k) 3200); lia.
Qed.
Lemma ext_grow x p z n ext : ext_outcome x p n (Ok ext) -> ext_outcome x (p ++ z) n (Ok ext).
Proof.
  intros (P & Q). split; intros N.
  - specialize (P N). inversion P as [ps E PA NE| | |]; subst. apply counted_read; auto. intros k K. apply page_grow; [lia|auto].
  - specialize (Q N). inversion Q as [ps pg PL PA EP| |]; subst. pose proof (zlen_nonneg ps). apply until_read; auto.
    + intros k K. destruct (PL k K) as (A & B). split; [|exact B]. apply page_grow; [lia|auto].
    + apply page_grow; [lia|auto].
Qed.
Lemma headers_grow x bc e p z tx bin ext : 3600 <= zlen p -> reel_headers x bc e p tx bin ext -> reel_headers x bc e (p ++ z) tx bin ext.
Proof.
  intros L ((A & B & D) & H & n & G & E). split; [|split].
  - split; [exact A|]. split; [exact B|]. now rewrite (block_cut p z 0 3200) by lia.
  - now rewrite (block_cut p z 3200 400) by lia.
  - exists n. split; [exact G|]. now apply ext_grow.
Qed.
Lemma field_grow c e p z pos n v : field_at c e p pos n v -> field_at c e (p ++ z) pos n v.
Proof. intros (f & F & E & A & I & S). exists f. repeat (split; [assumption|]). now apply stored_grow. Qed.
Lemma scan_grow c e bps p z pos ts q : scan c e bps p pos ts q -> scan c e bps (p ++ z) pos ts q.
Proof.
  intros S. induction S as [pos|t ts q s L F1 F2 F3 F4 F5 S IH]; [constructor|].
  apply (scan_trace _ _ _ _ _ _ _ s); auto using field_grow. rewrite zlen_app. pose proof (zlen_nonneg z). lia.
Qed.
Lemma scan_snoc c e bps d pos ts q ts' q' : scan c e bps d pos ts q -> scan c e bps d q ts' q' -> scan c e bps d pos (ts ++ ts') q'.
Proof. intros S S'. induction S as [pos|t ts q s L F1 F2 F3 F4 F5 S IH]; [exact S'|]. cbn [app]. apply (scan_trace _ _ _ _ _ _ _ s); auto. Qed.

Lemma contents_leftover ds x bc tc e t trs b h hb n : consistent ds bc tc t trs -> supported x -> Forall (page_ok x) (ds_ext ds) ->
  segy_contents ds x bc tc e t trs b -> header_block tc e h 240 hb -> hdr_get h "num_samples" = Ok n -> 0 < n -> forall a pr dim log, attrs_ok a -> pr <> NotCallable ->
  (forall k, dim = Some k -> In k [1; 2; 3]) ->
  exists r w, create_reader a (Some x) bc tc (Some e) pr dim (mk_world (mk_file (b ++ hb) 0) log) = (Ok r, w) /\
    rd_num_traces r = zlen trs + 1 /\
    (forall k tr, 0 <= k -> nth_error trs (Z.to_nat k) = Some tr -> forall native q,
      (exists h, fst (rd_trace_header r k None (mk_file (b ++ hb) q)) = Ok h /\ same_fields (fst tr) h) /\
      (exists rs, fst (rd_trace_samples native r k None None (mk_file (b ++ hb) q)) = Ok rs /\ Forall2 (stored_as t) (snd tr) rs)) /\
    forall native q,
      (exists h', fst (rd_trace_header r (zlen trs) None (mk_file (b ++ hb) q)) = Ok h' /\ same_fields h h') /\
      fst (rd_trace_samples native r (zlen trs) None None (mk_file (b ++ hb) q)) = Err EOFError.
Proof.
  intros CO S PO SC (HL & HB & HH & HZ) HN N0 a pr dim log A P D. pose proof CO as [CB CT TY (v & rev & GV & RV) PC CS].
  destruct (contents_bytes _ _ _ _ _ _ _ _ SC) as (AB & L3).
  destruct (contents_headers _ _ _ _ _ _ _ _ SC PO PC) as (tx & FT & RH).
  assert (FTR : exists ts, scan tc e (sample_size t) b (first_trace (ds_ext ds)) ts (zlen b) /\ Forall2 (found tc e t b) trs ts).
  { destruct SC as (tx' & tb & bb & pbs & tbs & EB & _ & (TL & _) & (BL & _) & FP & FR).
    destruct (trace_blocks_scan tc e t b CT trs tbs (tb ++ bb ++ concat pbs) FR ltac:(now rewrite EB, <- !app_assoc) CS) as (ts & SCN & FD).
    exists ts. split; [|exact FD]. destruct (blocks_bytes _ _ _ FP) as (_ & PL).
    replace (first_trace (ds_ext ds)) with (zlen (tb ++ bb ++ concat pbs)); [exact SCN|]. unfold first_trace. rewrite !zlen_app. lia. }
  destruct FTR as (ts & SCN & FD). assert (LT := Forall2_zlen' _ _ _ FD).
  set (d := b ++ hb). assert (LD : zlen d = zlen b + 240) by (unfold d; rewrite zlen_app; lia).
  assert (RD : readable d (Some x) bc tc).
  { split; [unfold d; now apply all_bytes_app|]. split; [exact CB|]; split; [exact CT|]; intros y [= <-]; exact S. }
  assert (BLK : block d (zlen b) 240 = hb). { unfold d. rewrite <- (app_nil_r hb) at 1. now apply block_mid. }
  pose proof CT as ((C & TF & ST & OR & LEN & MK) & F1 & F2 & F3 & F4 & F5 & _).
  assert (FA : forall n, has_field tc n -> exists v, hdr_get h n = Ok v /\ field_at tc e d (zlen b) n v).
  { intros m. apply (holds_field tc e d (zlen b) 240); auto; try lia. now rewrite BLK. }
  destruct (FA _ F1) as (v1 & _ & A1). destruct (FA _ F2) as (v2 & _ & A2). destruct (FA _ F3) as (v3 & G3 & A3).
  destruct (FA _ F4) as (v4 & _ & A4). destruct (FA _ F5) as (v5 & _ & A5). rewrite HN in G3. injection G3 as <-. clear FA.
  pose proof (sample_size_pos t) as SP.
  set (last := mk_tinfo (zlen b) n v4 v5 v2).
  assert (FTR : file_traces tc e (sample_size t) d (first_trace (ds_ext ds)) (ts ++ [last])).
  { exists (zlen b + 240 + sample_size t * n). split; [|nia]. apply (scan_snoc _ _ _ _ _ _ (zlen b)); [now apply scan_grow|].
    change (zlen b) with (t_pos last) at 1. apply (scan_trace _ _ _ _ _ _ _ v1); cbn [last t_pos t_count t_inline t_xline t_cdp]; auto; try lia; constructor. }
  assert (NT : ts ++ [last] <> []) by (destruct ts; discriminate).
  destruct (create_reader_total a (Some x) bc tc e pr dim d log x RD A ltac:(lia) P D eq_refl) as (res & q & log' & R & O & K).
  destruct (outcome_ok x bc tc e d S CB CT ltac:(lia) tx (ds_binary ds) (ds_ext ds) t (ts ++ [last]) v rev res (headers_grow _ _ _ b hb _ _ _ L3 RH) TY FTR NT GV RV O)
    as (r & -> & TX & EX & BN & TR).
  exists r, (mk_world (mk_file d q) log'). split; [exact R|].
  assert (OP : opens d (Some x) bc tc e dim r) by (exists a, pr, log, (mk_world (mk_file d q) log'); exact R).
  destruct (counts_ok d (Some x) bc tc e dim r t _ RD OP TR) as (C1 & _).
  split; [rewrite C1, zlen_app; change (zlen [last]) with 1; lia|]. split.
  - intros k tr Hk NE native q'. assert (KL : (Z.to_nat k < length trs)%nat) by (apply nth_error_Some; congruence).
    assert (TN : trs <> []) by (intros ->; cbn in KL; lia).
    destruct (contents_read ds x bc tc e t trs b CO S PO SC TN a pr dim log A P D) as (r' & w' & R' & GB).
    destruct GB as (_ & _ & _ & GN & _ & GB). destruct (GB k tr Hk NE native q') as ((h' & RH' & SH) & rs & RS & ST').
    assert (OP' : opens b (Some x) bc tc e dim r') by (exists a, pr, log, w'; exact R').
    destruct (opens_opened b (Some x) bc tc e dim r' ltac:(split; [exact AB|]; split; [exact CB|]; split; [exact CT|]; intros y [= <-]; exact S) OP') as (x' & ts' & t' & X' & O').
    assert (TR' : traces_of b tc e r' t' ts') by (split; [apply (op_type _ _ _ _ _ _ _ _ _ O')|apply (op_traces _ _ _ _ _ _ _ _ _ O')]).
    destruct (cut_reading b hb (Some x) bc tc e dim r t (ts ++ [last]) RD OP TR dim r' t' ts' OP' TR') as (KP & -> & _ & _ & _ & _ & RDG).
    destruct (counts_ok b (Some x) bc tc e dim r' t ts' ltac:(split; [exact AB|]; split; [exact CB|]; split; [exact CT|]; intros y [= <-]; exact S) OP' TR') as (C2 & _).
    destruct (trace_of_exists ts' k ltac:(unfold zlen in *; lia)) as (i & TI). destruct (RDG k i TI) as (RG1 & RG2).
    assert (F : found tc e t b tr i).
    { destruct KP as (lost & EQ & _). assert (EI : nth_error (ts ++ [last]) (Z.to_nat k) = Some i) by (rewrite EQ; apply (trace_of_app ts' lost k i TI)).
      rewrite nth_error_app1 in EI by (unfold zlen in LT; lia).
      clear -FD NE EI. revert NE EI. generalize (Z.to_nat k). induction FD as [|? ? ? ? H _ IH]; intros [|n] N TI; cbn in *; try congruence. now apply (IH n). }
    destruct F as (Fa & Fb & Fc & _). split.
    + specialize (RG1 q' q'). fold d in RG1. rewrite RH' in RG1. unfold same_header in RG1. destruct (fst (rd_trace_header r k None (mk_file d q'))) as [h''|]; [|destruct RG1].
      exists h''. split; [reflexivity|]. destruct SH as (S1 & S2), RG1 as (S3 & S4). split; [congruence|]. intros f0 Ff. rewrite <- S2 by assumption. symmetry. apply S4. now replace (h_cls h'') with (h_cls (fst tr)) by congruence.
    + exists rs. split; [|exact ST']. rewrite <- RS. symmetry. apply (proj1 (RG2 native None None q' q')). cbn [or_else]. exact Fc.
  - intros native q'.
    assert (TI : trace_of (ts ++ [last]) (zlen trs) last).
    { rewrite LT. split; [rewrite zlen_app; change (zlen [last]) with 1; pose proof (zlen_nonneg ts); lia|].
      rewrite nth_error_app2 by (unfold zlen; lia). unfold zlen. rewrite Nat2Z.id, Nat.sub_diag. reflexivity. }
    split.
    + destruct (header_ok_read d (Some x) bc tc e dim r t _ RD OP TR (zlen trs) q') as (q2 & _ & HO).
      remember (fst (rd_trace_header r (zlen trs) None (mk_file d q'))) as o eqn:EO.
      destruct HO as [NK|i' m TI' BF|i' h' TI' HB'].
      * destruct TI as (TI & _). lia.
      * rewrite (trace_of_unique _ _ _ _ TI' TI) in BF. exfalso. cbn [last t_pos] in BF.
        refine (holds_not_bad tc e d (zlen b) 240 h m C ST LEN (zlen_nonneg b) ltac:(lia) ltac:(lia) (MK e) _ BF). now rewrite BLK.
      * rewrite (trace_of_unique _ _ _ _ TI' TI) in HB'. cbn [last t_pos] in HB'. rewrite BLK in HB'. exists h'. split; [reflexivity|]. now apply (holds_same tc e hb).
    + destruct (samples_ok d (Some x) bc tc e dim r t _ RD OP TR native (zlen trs) None None q') as (_ & _ & H).
      apply (samples_outcome_unique d e t (ts ++ [last]) (zlen trs) None None); [exact H|]. apply (samples_cut_off _ _ _ _ _ _ _ last TI); cbn [or_else last t_count t_pos]; nia.
Qed.
