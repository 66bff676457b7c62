(* Proofs about writing files. *)
From Coq Require Import String ZArith List Bool Lia Sorted Permutation ZifyBool ZifyNat.
From Verif Require Import Py PyFloat IbmFloat Util Catalog Packing Formats FileIO Text TextIO Float32 Toolkit Reader
  PyFacts Spec_Util Spec_Catalog CatalogFacts Spec_Ibm FloatFacts RoundFacts IbmFacts IbmArith Spec_Packing PackFacts CompileFacts HeaderFacts PackingFacts FormatFacts
  Spec_Text TextFacts TextIOFacts ExtReadFacts Spec_Segy Float32Facts Spec_Reader ToolkitFacts ReaderFacts OpenFacts Spec_Writer.
Import ListNotations.
Local Open Scope string_scope.
Open Scope list_scope.
Open Scope Z_scope.

(* ------------------------------------------------------------------ *)
(* writing from the start of a file whose former contents are old *)
Definition over (old pre : list Z) : list Z := pre ++ skipn (Z.to_nat (zlen pre)) old.
Definition upon (old pre : list Z) : file := mk_file (over old pre) (zlen pre).

Lemma upon_nil old : upon old [] = mk_file old 0.
Proof. reflexivity. Qed.
Lemma write_upon old pre b : write b (upon old pre) = (Ok tt, upon old (pre ++ b)).
Proof.
  destruct b as [|y b'] eqn:B. { now rewrite app_nil_r. } rewrite <- B. unfold upon. rewrite write_run by (subst; discriminate). cbn [f_data f_pos].
  pose proof (zlen_nonneg pre). pose proof (zlen_nonneg b).
  f_equal. f_equal; [|now rewrite zlen_app]. unfold over. rewrite zlen_app, <- app_assoc. f_equal.
  - unfold padded_prefix. rewrite <- app_assoc. now apply firstn_zlen_app.
  - f_equal. rewrite Z.add_comm, <- skipn_plus by lia. rewrite skipn_zlen_app by reflexivity. now rewrite skipn_plus by lia.
Qed.

(* ------------------------------------------------------------------ *)
(* parts *)
Lemma text_written x lines f : supported x -> Forall (encodable x) (firstn 40 lines) ->
  exists tx b, fitted_lines 40 80 lines tx /\ text_block x tx b /\ write_textual_reel_header lines x f = write b f.
Proof.
  intros S Y. assert (Y' : Forall (encodable x) (forty lines)) by (apply forty_Forall; auto; constructor).
  assert (Q : exists cs, map_res (encode_card x) (forty lines) = Ok cs /\ Forall (fun c => zlen c = 80) cs /\ zlen cs = zlen (forty lines) /\
    all_bytes (concat cs) /\ decode x (concat cs) = Ok (concat (map (fit 80) (forty lines)))).
  { clear Y. induction Y' as [|l ls Y _ (cs & E & F & L & B & D)].
    - exists []. split; [reflexivity|]. split; [constructor|]. split; [reflexivity|]. split; [constructor|]. now rewrite decode_map by auto.
    - destruct (encode_card_ok x l S Y) as (c & Ec & Lc & Bc & _ & Dc). exists (c :: cs). cbn [map_res map concat]. rewrite Ec, E. cbn [bind].
      split; [reflexivity|]. split; [now constructor|]. split; [now rewrite !zlen_cons, L|]. split; [now apply all_bytes_app|]. now apply decode_app. }
  destruct Q as (cs & E & F & L & B & D). rewrite forty_zlen in L. exists (map (fit 80) (forty lines)), (concat cs).
  split; [apply fitted_forty|]. split.
  { split; [rewrite (concat_zlen cs 80) by auto; lia|]. now split. }
  unfold write_textual_reel_header. replace (is_supported_encoding x) with true by (destruct S as [->| ->]; reflexivity). cbn [negb].
  unfold ibind, lift. change (pad_to lines [] CARDS_PER_HEADER) with (forty lines). rewrite E.
  rewrite (concat_zlen cs 80) by auto. rewrite L. reflexivity.
Qed.

Lemma page_written x p : supported x -> page_ok x p -> exists cs, encode_page x p = Ok cs /\ text_block x p (concat cs).
Proof.
  intros S (L & F). assert (Q : exists cs, map_res (encode_ext_line x) p = Ok cs /\ zlen cs = zlen p /\
     Forall (fun c => zlen c = 80) cs /\ all_bytes (concat cs) /\ decode x (concat cs) = Ok (concat p)).
  { clear L. induction F as [|l p (Ll & Y) _ (cs & E & Lc & Fc & B & D)].
    - exists []. split; [reflexivity|]. split; [reflexivity|]. split; [constructor|]. split; [constructor|]. now rewrite decode_map by auto.
    - destruct (TextFacts.encode_decode x l S Y) as (c & Ec & L' & Bc & Dc). exists (c :: cs). cbn [map_res concat]. unfold encode_ext_line at 1.
      rewrite Ec. cbn [bind]. change CARD_LENGTH with 80. rewrite L', Ll. change (negb (80 =? 80)) with false. cbv iota. rewrite E. cbn [bind].
      split; [reflexivity|]. split; [now rewrite !zlen_cons, Lc|]. split; [constructor; [lia|assumption]|]. split; [now apply all_bytes_app|].
      now apply decode_app. }
  destruct Q as (cs & E & Lc & Fc & B & D). exists cs. unfold encode_page. rewrite E. cbn [bind]. rewrite Lc, L. split; [reflexivity|].
  split; [rewrite (concat_zlen cs 80) by auto; lia|]. now split.
Qed.
Lemma pages_written x pages old pre : supported x -> Forall (page_ok x) pages -> zlen pre = 3600 ->
  exists pbs, Forall2 (text_block x) pages pbs /\
    write_extended_textual_headers pages x (upon old pre) = (Ok tt, upon old (pre ++ concat pbs)).
Proof.
  intros S F L.
  assert (Q : exists css, map_res (encode_page x) pages = Ok css /\ Forall2 (fun p cs => text_block x p (concat cs)) pages css).
  { induction F as [|p pages H _ (css & E & F2)]. { exists []. now split. }
    destruct (page_written x p S H) as (cs & Ec & T). exists (cs :: css). cbn [map_res]. rewrite Ec, E. split; [reflexivity|]. now constructor. }
  destruct Q as (css & E & F2). exists (map (@concat Z) css). split.
  { clear -F2. induction F2; constructor; auto. }
  unfold write_extended_textual_headers. replace (is_supported_encoding x) with true by (destruct S as [->| ->]; reflexivity). cbn [negb].
  erewrite ibind_ok by (apply seek_ok; vm_compute; discriminate). rewrite E. cbn [upon f_data].
  replace (mk_file (over old pre) REEL_HEADER_NUM_BYTES) with (upon old pre) by (unfold upon; rewrite L; reflexivity).
  erewrite ibind_ok by reflexivity. clear E L F. revert pre. induction F2 as [|p cs pages css (L & _) _ IH]; intros pre.
  - cbn. now rewrite app_nil_r.
  - cbn [write_pages map concat]. change TEXTUAL_HEADER_NUM_BYTES with 3200. rewrite L. change (negb (3200 =? 3200)) with false. cbv iota.
    erewrite ibind_ok by apply write_upon. rewrite IH. now rewrite <- app_assoc.
Qed.

Lemma header_written c n e h : format_ok c n -> good_header c h ->
  exists p b, make_header_packer c e = Ok p /\ pk_pack p h = Ok b /\ header_block c e h n b.
Proof.
  intros (C & T & S & _ & LN & P) (HC & HO & CA). destruct (P e) as (p & EP). exists p.
  destruct (pack_total c e p h C S T EP HC HO) as [(b & PK & _)|(_ & f & g & F & G & O & N)].
  - exists b. split; [exact EP|]. split; [exact PK|]. destruct (pack_layout c e p h b C S EP HC PK) as (HL & B & ST & Z).
    unfold header_length in HL. rewrite LN in HL. split; [exact HL|]. split; [exact B|]. split.
    + split; [exact HC|]. intros f F. destruct (ST f F) as (v & G & SV). destruct (HO f ltac:(now rewrite HC)) as (w & G' & A).
      rewrite G in G'. injection G' as <-. exists v. split; [exact G|]. split; [exact A|]. split; [now apply (T f v F A)|exact SV].
    + intros i I. apply Z. lia.
  - exfalso. apply N. apply CA; now rewrite ?HC.
Qed.

Lemma traces_written ds tc e t trs p n old : format_ok tc 240 -> make_header_packer tc e = Ok p -> ds_sample_format ds = Ok t ->
  forall ks, Forall2 (fun k tr => ds_trace_header ds k = Ok (fst tr) /\ ds_trace_samples ds k None None = Ok (snd tr)) ks trs ->
  Forall (fun tr => good_header tc (fst tr) /\ Forall (storable t) (snd tr)) trs -> trs = [] \/ n <> 0 ->
  exists tbs, Forall2 (trace_block tc e t) trs tbs /\ forall pre log,
    write_traces ds p e n ks (mk_world (upon old pre) log) = (Ok tt, mk_world (upon old (pre ++ concat tbs)) (log ++ map (fun k => (k, n)) ks)).
Proof.
  intros F EP HT ks P. induction P as [|k tr ks trs (HH & HS) _ IH]; intros G N.
  - exists []. split; [constructor|]. intros pre log. cbn. now rewrite !app_nil_r.
  - inversion G as [|? ? (G1 & G2) G']; subst. destruct N as [N|N]; [discriminate|]. destruct (IH G' (or_intror N)) as (tbs & F2 & W).
    destruct (header_written tc 240 e (fst tr) F G1) as (p' & hb & EP' & PK & HB). rewrite EP in EP'. injection EP' as <-.
    destruct (store_all e t (snd tr) G2) as (sb & rs & PS & L & B & S2 & BS).
    exists ((hb ++ sb) :: tbs). split.
    { constructor; [|exact F2]. exists hb, sb, rs. split; [reflexivity|]. split; [exact HB|]. split; [exact L|]. split; [exact B|]. split; [exact S2|].
      pose proof (samples_embed t e [] sb [] rs BS) as E. cbn [app] in E. now rewrite app_nil_r in E. }
    intros pre log. cbn [write_traces]. rewrite HH, on_lift_ok.
    erewrite wbind_ok; [|apply on_file_ok; unfold write_trace_header; rewrite PK; erewrite ibind_ok by reflexivity; apply write_upon].
    rewrite HS, on_lift_ok, HT, on_lift_ok.
    erewrite wbind_ok; [|apply on_file_ok; unfold write_binary_values; rewrite PS; erewrite ibind_ok by reflexivity; apply write_upon].
    rewrite report_ok by exact N. cbn [w_file w_log]. rewrite W. cbn [map concat]. now rewrite <- !app_assoc.
Qed.

Theorem write_contents ds enc x bc tc e t trs pr old log : writable ds x bc tc t trs -> encoding_for enc ds x -> pr <> NotCallable ->
  exists b, segy_contents ds x bc tc e t trs b /\
    write_segy ds enc tc e pr (mk_world (mk_file old 0) log) =
    (Ok tt, mk_world (mk_file (b ++ skipn (Z.to_nat (zlen b)) old) (zlen b)) (log ++ map (fun k => (k, ds_num_traces ds)) (ds_trace_indexes ds) ++ [(1, 1)])).
Proof.
  intros W X P. destruct W as [S TX BC BH EX TC TY N PR G].
  destruct (text_written x (ds_text ds) (mk_file old 0) S TX) as (tx & tb & FT & TB & WT).
  destruct (header_written bc 400 e (ds_binary ds) BC BH) as (bp & bb & EBP & BPK & BB).
  assert (L : zlen (tb ++ bb) = 3600) by (rewrite zlen_app; destruct TB as (-> & _), BB as (-> & _); reflexivity).
  destruct (pages_written x (ds_ext ds) old (tb ++ bb) S EX L) as (pbs & FP & WP).
  assert (TC' := TC). destruct TC' as (_ & _ & _ & _ & _ & MP). destruct (MP e) as (p & EP).
  destruct (traces_written ds tc e t trs p (ds_num_traces ds) old TC EP TY _ PR G N) as (tbs & F2 & WTR).
  exists (tb ++ bb ++ concat pbs ++ concat tbs). split.
  { exists tx, tb, bb, pbs, tbs. auto 10. }
  unfold write_segy. assert (Q : forall A (a b : A), match pr with NotCallable => a | _ => b end = b) by (destruct pr; congruence). rewrite Q. clear Q.
  assert (XE : match enc with Some x => x | None => match ds_encoding ds with Some (Some x) => x | _ => ASCII end end = x).
  { unfold encoding_for in X. destruct enc; [now subst|]. destruct (ds_encoding ds) as [[y|]|]; now subst. }
  cbv zeta. rewrite XE. replace (is_supported_encoding x) with true by (destruct S as [->| ->]; reflexivity). cbn [negb].
  erewrite wbind_ok; [|apply on_file_ok; rewrite WT, <- upon_nil; apply write_upon]. cbn [app].
  erewrite wbind_ok; [|apply on_file_ok; unfold write_binary_reel_header; destruct BH as (-> & _); rewrite EBP; erewrite ibind_ok by reflexivity; rewrite BPK; erewrite ibind_ok by reflexivity; apply write_upon].
  erewrite wbind_ok by (apply on_file_ok; exact WP). rewrite EP, on_lift_ok. erewrite wbind_ok by apply WTR.
  unfold report. change (1 =? 0) with false. cbv iota. cbn [w_file w_log]. unfold upon, over. rewrite <- !app_assoc. reflexivity.
Qed.

(* ------------------------------------------------------------------ *)
(* reading what has been written *)
Lemma block_mid pre b post n m : zlen pre = n -> zlen b = m -> block (pre ++ b ++ post) n m = b.
Proof. intros <- <-. unfold block. rewrite skipn_zlen_app by reflexivity. now rewrite firstn_zlen_app by reflexivity. Qed.
Lemma holds_field c e d p m h n : class_ok c -> starts_ok c -> 0 <= p -> 0 <= m -> p + m <= zlen d -> holds_buffer c e (block d p m) h -> has_field c n ->
  exists v, hdr_get h n = Ok v /\ field_at c e d p n v.
Proof.
  intros C ST P M L (_ & H) (f & F & <-). destruct (H f F) as (v & G & A & I & S). exists v. split; [exact G|]. exists f.
  repeat (split; [first [assumption|reflexivity]|]). rewrite <- block_slice in S by lia. apply (stored_of_slice e d p (p + m)) in S; try lia; [exact S|].
  specialize (ST f F). unfold field_pos. lia.
Qed.

(* what is known about a trace of the file *)
Definition found (tc : fmt) (e : endian) (t : segytype) (d : list Z) (tr : trace) (i : tinfo) : Prop :=
  t_count i = zlen (snd tr) /\ 0 <= t_pos i /\ t_pos i + 240 + sample_size t * t_count i <= zlen d /\
  holds_buffer tc e (block d (t_pos i) 240) (fst tr) /\
  exists rs, Forall2 (stored_as t) (snd tr) rs /\ samples_at t e d (t_pos i + 240) rs.

Lemma Forall2_zlen' {A B} (P : A -> B -> Prop) l m : Forall2 P l m -> zlen l = zlen m.
Proof. intros H. unfold zlen. f_equal. induction H; cbn; congruence. Qed.

Lemma samples_shift t e pre b post rs : samples_at t e b 0 rs -> samples_at t e (pre ++ b ++ post) (zlen pre) rs.
Proof. intros H. apply samples_embed. intros i Hi. exact (H i Hi). Qed.

Lemma trace_blocks_scan tc e t d : trace_format tc -> forall trs tbs pre,
  Forall2 (trace_block tc e t) trs tbs -> d = pre ++ concat tbs ->
  Forall (fun tr => hdr_get (fst tr) "num_samples" = Ok (zlen (snd tr))) trs ->
  exists ts, scan tc e (sample_size t) d (zlen pre) ts (zlen d) /\ Forall2 (found tc e t d) trs ts.
Proof.
  intros T trs tbs pre F. revert pre. assert (T' := T). destruct T as ((C & TF & ST & OR & LEN & MK) & F1 & F2 & F3 & F4 & F5 & _).
  induction F as [|tr b trs tbs (hb & sb & rs & -> & (HL & HB & HH & HZ) & SL & SB & S2 & SA) F IH]; intros pre ED N.
  - exists []. split; [|constructor]. cbn [concat] in ED. rewrite app_nil_r in ED. subst. constructor.
  - inversion N as [|? ? N1 N']; subst l x. cbn [concat] in ED.
    destruct (IH (pre ++ hb ++ sb) ltac:(now rewrite ED, <- !app_assoc) N') as (ts & SC & FD). clear IH.
    assert (E1 : d = pre ++ hb ++ sb ++ concat tbs) by now rewrite ED, <- !app_assoc.
    assert (E2 : d = (pre ++ hb) ++ sb ++ concat tbs) by now rewrite ED, <- !app_assoc.
    clear ED.
    assert (LD : zlen d = zlen pre + 240 + sample_size t * zlen (snd tr) + zlen (concat tbs)) by (rewrite E1, !zlen_app; lia).
    pose proof (zlen_nonneg pre). pose proof (zlen_nonneg (concat tbs)). pose proof (sample_size_pos t). pose proof (zlen_nonneg (snd tr)).
    assert (SZ : 0 <= sample_size t * zlen (snd tr)) by (apply Z.mul_nonneg_nonneg; lia).
    assert (BL : block d (zlen pre) 240 = hb) by (rewrite E1; now apply block_mid).
    assert (HH' : holds_buffer tc e (block d (zlen pre) 240) (fst tr)) by now rewrite BL.
    assert (FA : forall n, has_field tc n -> exists v, hdr_get (fst tr) n = Ok v /\ field_at tc e d (zlen pre) n v) by
      (intros n; apply (holds_field tc e d (zlen pre) 240); auto; lia).
    destruct (FA _ F1) as (v1 & _ & A1). destruct (FA _ F2) as (v2 & _ & A2). destruct (FA _ F3) as (v3 & G3 & A3).
    destruct (FA _ F4) as (v4 & _ & A4). destruct (FA _ F5) as (v5 & _ & A5). rewrite N1 in G3. injection G3 as <-. clear FA.
    exists (mk_tinfo (zlen pre) (zlen (snd tr)) v4 v5 v2 :: ts). split.
    + change (zlen pre) with (t_pos (mk_tinfo (zlen pre) (zlen (snd tr)) v4 v5 v2)) at 1. apply (scan_trace _ _ _ _ _ _ _ v1); cbn [t_pos t_count t_inline t_xline t_cdp]; auto; [lia|].
      rewrite !zlen_app in SC. now replace (zlen pre + 240 + sample_size t * zlen (snd tr)) with (zlen pre + (zlen hb + zlen sb)) by lia.
    + constructor; [|exact FD]. unfold found. cbn [t_pos t_count]. split; [reflexivity|]. split; [lia|]. split; [lia|]. split; [exact HH'|].
      exists rs. split; [exact S2|]. rewrite E2. replace (zlen pre + 240) with (zlen (pre ++ hb)) by (rewrite zlen_app; lia). now apply samples_shift.
Qed.

Lemma blocks_bytes x pages pbs : Forall2 (text_block x) pages pbs -> all_bytes (concat pbs) /\ zlen (concat pbs) = 3200 * zlen pages.
Proof.
  induction 1 as [|p b pages pbs (L & B & _) F (IH1 & IH2)]; cbn [concat]. { split; [constructor|reflexivity]. }
  rewrite zlen_app, zlen_cons. split; [now apply all_bytes_app|lia].
Qed.
Lemma traces_bytes tc e t trs tbs : Forall2 (trace_block tc e t) trs tbs -> all_bytes (concat tbs).
Proof.
  induction 1 as [|tr b trs tbs (hb & sb & rs & -> & (HL & HB & _) & SL & SB & _) F IH]; cbn [concat]; [constructor|].
  apply all_bytes_app. split; [now apply all_bytes_app|exact IH].
Qed.
Lemma pages_at x pages pbs pre post : Forall (page_ok x) pages -> Forall2 (text_block x) pages pbs -> zlen pre = 3600 ->
  forall k, 0 <= k < zlen pages -> page_at x (pre ++ concat pbs ++ post) k (nth (Z.to_nat k) pages []).
Proof.
  intros P F L k K.
  assert (F' : Forall (fun c => zlen c = 3200) pbs) by (clear -F; induction F as [|? ? ? ? (L & _)]; constructor; auto).
  assert (Lc := Forall2_zlen' _ _ _ F).
  assert (E : text_block x (nth (Z.to_nat k) pages []) (nth (Z.to_nat k) pbs [])).
  { assert (Kn : (Z.to_nat k < length pages)%nat) by (unfold zlen in *; lia). clear -F Kn. revert Kn. generalize (Z.to_nat k). intros n. revert n.
    induction F; intros [|n] K; cbn in *; auto; try lia. apply IHF. lia. }
  assert (Q : page_ok x (nth (Z.to_nat k) pages [])).
  { rewrite Forall_forall in P. apply P. apply nth_In. unfold zlen in *. lia. }
  split; [|split; [|split]].
  - destruct (blocks_bytes _ _ _ F) as (_ & LB). unfold page_present. rewrite !zlen_app, LB, L. pose proof (zlen_nonneg post). lia.
  - apply Q.
  - destruct Q as (_ & Q). eapply Forall_impl; [|exact Q]. cbn. tauto.
  - unfold page_bytes. rewrite <- L. rewrite (concat_nth_slice _ 3200) by (auto; lia). apply E.
Qed.
Lemma pages_outcome x pages d n : (forall k, 0 <= k < zlen pages -> page_at x d k (nth (Z.to_nat k) pages [])) ->
  (0 <= n -> zlen pages = n /\ Forall (fun p => ~ end_page p) (removelast pages)) ->
  (n < 0 -> exists ps p, pages = ps ++ [p] /\ Forall (fun p => ~ end_page p) ps /\ end_page p) -> ext_outcome x d n (Ok pages).
Proof.
  intros A P Q. split; intros H.
  - destruct (P H) as (L & N). constructor; [exact L|rewrite <- L; exact A|]. intros k K.
    destruct (rev_case pages) as [->|(ps & p & ->)]. { unfold zlen in L. cbn in L. lia. }
    rewrite removelast_last in N. rewrite zlen_app in L. change (zlen [p]) with 1 in L. rewrite nth_before by lia.
    rewrite Forall_forall in N. apply N. apply nth_In. unfold zlen in *. lia.
  - destruct (Q H) as (ps & p & -> & N & EP). constructor; auto.
    + intros k K. split. { rewrite <- (nth_before ps [p]) by auto. apply A. rewrite zlen_app. change (zlen [p]) with 1. lia. }
      rewrite Forall_forall in N. apply N. apply nth_In. unfold zlen in *. lia.
    + specialize (A (zlen ps)). rewrite nth_zlen in A. apply A. rewrite zlen_app. change (zlen [p]) with 1. pose proof (zlen_nonneg ps). lia.
Qed.

Lemma contents_bytes ds x bc tc e t trs b : segy_contents ds x bc tc e t trs b -> all_bytes b /\ 3600 <= zlen b.
Proof.
  intros (tx & tb & bb & pbs & tbs & -> & FT & (TL & TB & TD) & (BL & BB & BH & BZ) & FP & FR). destruct (blocks_bytes _ _ _ FP) as (PB & PL).
  split; [do 3 (apply all_bytes_app; split; [assumption|]); now apply (traces_bytes tc e t trs)|].
  rewrite !zlen_app. pose proof (zlen_nonneg (concat pbs)). pose proof (zlen_nonneg (concat tbs)). lia.
Qed.
Lemma contents_headers ds x bc tc e t trs b : segy_contents ds x bc tc e t trs b -> Forall (page_ok x) (ds_ext ds) ->
  pages_counted (ds_binary ds) (ds_ext ds) ->
  exists tx, fitted_lines 40 80 (ds_text ds) tx /\ reel_headers x bc e b tx (ds_binary ds) (ds_ext ds).
Proof.
  intros (tx & tb & bb & pbs & tbs & -> & FT & (TL & TB & TD) & (BL & BB & BH & BZ) & FP & FR) PO (n & G & P & Q).
  exists tx. split; [exact FT|]. split.
  { split; [apply FT|]. split.
    - apply Forall_forall. intros l I. apply In_nth with (d := []) in I. destruct I as (i & Hi & <-). destruct FT as (L & FT).
      specialize (FT (Z.of_nat i)). rewrite Nat2Z.id in FT. apply FT. unfold zlen in L. change text with (list Z) in *. lia.
    - change (tb ++ bb ++ concat pbs ++ concat tbs) with ([] ++ tb ++ (bb ++ concat pbs ++ concat tbs)). now rewrite block_mid. }
  split. { now rewrite block_mid. }
  exists n. split; [exact G|]. apply pages_outcome; auto. intros k K. rewrite app_assoc. apply pages_at; auto. rewrite zlen_app. lia.
Qed.

Section OutcomeOk.
Variables (x : encoding) (bc tc : fmt) (e : endian) (d : list Z).
Hypothesis S : supported x.
Hypothesis B : binary_format bc.
Hypothesis T : trace_format tc.
Hypothesis L : 3600 <= zlen d.
Lemma outcome_ok tx bin ext t ts v rev r : reel_headers x bc e d tx bin ext -> sample_type bin t ->
  file_traces tc e (sample_size t) d (first_trace ext) ts -> ts <> [] ->
  hdr_get bin "format_revision_num" = Ok v -> revision_code v rev -> open_outcome x bc tc e d r ->
  exists rd, r = Ok rd /\ rd_text rd = tx /\ rd_ext rd = ext /\ (forall n, has_field bc n -> hdr_get (rd_binary rd) n = hdr_get bin n) /\
    traces_of d tc e rd t ts.
Proof.
  intros H TY FT NE GV RV O.
  assert (TC : class_ok tc) by apply (proj1 T).
  assert (U : forall ts', file_traces tc e (sample_size t) d (first_trace ext) ts' -> ts' = ts) by (intros ts' FT'; now apply (traces_unique tc e (sample_size t) d (first_trace ext))).
  assert (NU : ~ unreadable_trace tc e (sample_size t) d (first_trace ext)).
  { destruct FT as (q & SC & QE). intros (ts' & q' & n & SC' & QE' & BD & I).
    destruct (scan_unique tc e _ d _ ts q ts' q' TC SC SC') as (<- & <-); [now left|right; eauto|]. lia. }
  destruct O as [D|tx' n RT BF|tx' bin' n y RT HB G EO|tx' bin' ext' RH NT|tx' bin' ext' t' y RH TY' CO|tx' bin' ext' t' v' ts' RH TY' FT' NE' GV' NR|r ts' t' v' RH TY' FT' NE' GV' RC _ _ _].
  - exfalso. now apply (text_decodes x d tx (proj1 H)).
  - exfalso. now apply (binary_reads bc e d B L bin n (proj1 (proj2 H))).
  - exfalso. eapply (headers_ext_err x bc e d); eauto.
  - exfalso. destruct (reel_headers_unique _ _ _ _ S B _ _ _ _ _ _ H RH) as (_ & _ & E). apply (NT t). now apply (sample_type_transfer bc B bin bin').
  - exfalso. destruct (reel_headers_unique _ _ _ _ S B _ _ _ _ _ _ H RH) as (_ & <- & E).
    assert (t' = t) as -> by (eapply sample_type_unique; [exact TY'|now apply (sample_type_transfer bc B bin bin')]).
    inversion CO as [|U'|F D|D]; subst; [now apply NU|apply NE; symmetry; now apply U|]. unfold zlen in L. cbn in L. lia.
  - exfalso. destruct (reel_headers_unique _ _ _ _ S B _ _ _ _ _ _ H RH) as (_ & _ & E). apply (NR rev).
    rewrite E in GV by apply B. rewrite GV in GV'. injection GV' as <-. exact RV.
  - destruct (reel_headers_unique _ _ _ _ S B _ _ _ _ _ _ RH H) as (TX & EX & E). exists r. split; [reflexivity|]. split; [exact TX|]. split; [exact EX|].
    split; [exact E|]. split; [apply (sample_type_transfer bc B bin); [intros; symmetry; auto|exact TY]|]. now rewrite EX.
Qed.
End OutcomeOk.

(* ------------------------------------------------------------------ *)
(* write, then read *)
Lemma holds_same c e buf h h' : class_ok c -> holds_buffer c e buf h -> holds_buffer c e buf h' -> same_fields h h'.
Proof.
  intros C H H'. split; [destruct H, H'; congruence|]. intros f F. rewrite (proj1 H) in F. symmetry.
  apply (holds_get c e buf); auto. exists f. now split.
Qed.

Lemma contents_read ds x bc tc e t trs b : consistent ds bc tc t trs -> supported x -> Forall (page_ok x) (ds_ext ds) ->
  segy_contents ds x bc tc e t trs b -> trs <> [] -> forall a pr dim log, attrs_ok a -> pr <> NotCallable ->
  (forall k, dim = Some k -> In k [1; 2; 3]) ->
  exists r w, create_reader a (Some x) bc tc (Some e) pr dim (mk_world (mk_file b 0) log) = (Ok r, w) /\
    gives_back ds trs (Forall2 (stored_as t)) b r.
Proof.
  intros [CB CT TY (v & rev & GV & RV) PC CS] S PO SC NE a pr dim log A P D.
  destruct (contents_bytes _ _ _ _ _ _ _ _ SC) as (AB & L3).
  destruct (contents_headers _ _ _ _ _ _ _ _ SC PO PC) as (tx & FT & RH).
  assert (FTR : exists ts, file_traces tc e (sample_size t) b (first_trace (ds_ext ds)) ts /\ Forall2 (found tc e t b) trs ts).
  { destruct SC as (tx' & tb & bb & pbs & tbs & EB & _ & (TL & _) & (BL & _) & FP & FR).
    destruct (trace_blocks_scan tc e t b CT trs tbs (tb ++ bb ++ concat pbs) FR ltac:(now rewrite EB, <- !app_assoc) CS) as (ts & SCN & FD).
    exists ts. split; [|exact FD]. exists (zlen b). split; [|lia]. destruct (blocks_bytes _ _ _ FP) as (_ & PL).
    replace (first_trace (ds_ext ds)) with (zlen (tb ++ bb ++ concat pbs)); [exact SCN|]. unfold first_trace. rewrite !zlen_app. lia. }
  destruct FTR as (ts & FTR & FD). assert (LT := Forall2_zlen' _ _ _ FD).
  assert (NT : ts <> []) by (intros ->; inversion FD; congruence).
  assert (RD : readable b (Some x) bc tc) by (split; [exact AB|]; split; [exact CB|]; split; [exact CT|]; intros y [= <-]; exact S).
  destruct (create_reader_total a (Some x) bc tc e pr dim b log x RD A L3 P D eq_refl) as (res & q & log' & R & O & K).
  destruct (outcome_ok x bc tc e b S CB CT L3 tx (ds_binary ds) (ds_ext ds) t ts v rev res RH TY FTR NT GV RV O) as (r & -> & TX & EX & BN & TR).
  exists r, (mk_world (mk_file b q) log'). split; [exact R|].
  assert (OP : opens b (Some x) bc tc e dim r) by (exists a, pr, log, (mk_world (mk_file b q) log'); exact R).
  destruct (counts_ok b (Some x) bc tc e dim r t ts RD OP TR) as (C1 & C2 & _).
  destruct (K r eq_refl) as (ts' & t' & p' & OPD & _).
  split; [now rewrite TX|]. split.
  { apply (holds_same bc e (block b 3200 400)); [apply CB|apply RH|apply (op_headers _ _ _ _ _ _ _ _ _ OPD)]. }
  split; [exact EX|]. split; [now rewrite C1|]. split; [rewrite C2; unfold zlen in LT; do 2 f_equal; lia|].
  intros k tr Hk N native q'. assert (KL : (Z.to_nat k < length trs)%nat) by (apply nth_error_Some; congruence).
  destruct (trace_of_exists ts k ltac:(unfold zlen in *; lia)) as (i & TI).
  assert (F : found tc e t b tr i).
  { destruct TI as (_ & TI). clear -FD N TI. revert N TI. generalize (Z.to_nat k). induction FD as [|? ? ? ? H _ IH]; intros [|n] N TI; cbn in *; try congruence.
    now apply (IH n). }
  destruct F as (F1 & F2 & F3 & F4 & rs & F5 & F6). split.
  - destruct (header_ok_read b (Some x) bc tc e dim r t ts RD OP TR k q') as (q2 & _ & HO). remember (fst (rd_trace_header r k None (mk_file b q'))) as o eqn:EO.
    destruct HO as [NK|i' n TI' BF|i' h TI' HB].
    + destruct TI as (TI & _). lia.
    + rewrite (trace_of_unique _ _ _ _ TI' TI) in BF. exfalso. destruct CT as ((C & TF & ST & OR & LEN & MK) & _).
      pose proof (sample_size_pos t). assert (0 <= sample_size t * t_count i) by (apply Z.mul_nonneg_nonneg; [lia|rewrite F1; apply zlen_nonneg]).
      exact (holds_not_bad tc e b (t_pos i) 240 (fst tr) n C ST LEN F2 ltac:(lia) ltac:(lia) (MK e) F4 BF).
    + rewrite (trace_of_unique _ _ _ _ TI' TI) in HB. exists h. split; [reflexivity|]. apply (holds_same tc e (block b (t_pos i) 240)); auto. apply CT.
  - destruct (samples_ok b (Some x) bc tc e dim r t ts RD OP TR native k None None q') as (q2 & _ & SO).
    remember (fst (rd_trace_samples native r k None None (mk_file b q'))) as o eqn:EO. pose proof (zlen_nonneg (snd tr)).
    destruct SO as [NK|i' TI' BD|i' TI' BD BL SH|i' rs' TI' B1 B2 B3 RL SA].
    + destruct TI as (TI & _). lia.
    + exfalso. rewrite (trace_of_unique _ _ _ _ TI' TI) in *. cbn [or_else] in *. lia.
    + exfalso. rewrite (trace_of_unique _ _ _ _ TI' TI) in *. cbn [or_else] in *. lia.
    + rewrite (trace_of_unique _ _ _ _ TI' TI) in *. cbn [or_else] in *. exists rs'. split; [reflexivity|].
      rewrite Z.mul_0_r, Z.add_0_r in SA. assert (rs' = rs) as ->; [|exact F5].
      apply (samples_unique t e b (t_pos i + 240)); auto. rewrite RL, F1, Z.sub_0_r. now apply (Forall2_zlen' (stored_as t)).
Qed.

Lemma exact_kept t ss rs : Forall (exact_sample t) ss -> Forall2 (stored_as t) ss rs -> rs = ss.
Proof.
  intros E F. revert E. induction F as [|s r ss rs H _ IH]; intros E; inversion E; subst; [reflexivity|]. f_equal; [|now apply IH].
  destruct t; cbn in *; auto.
  - destruct H as (f' & -> & H). destruct H2 as (f & -> & W & X). f_equal. now apply H.
  - destruct H as (w' & -> & H). destruct H2 as (w & -> & W). congruence.
Qed.

(* ------------------------------------------------------------------ *)
(* read, then write *)
Lemma single_bound bits f : is_single bits f -> finite f -> Z.abs (units f) < single_limit.
Proof.
  intros (R & W & H) F. assert (P : 0 < single_limit) by reflexivity. destruct f as [s|s| |s m ex]; try destruct F; cbn [units]; try (rewrite Z.abs_0; exact P).
  destruct H as (E & U & _). change (if s then -1 else 1) with (if s then -1 else 1) in U. unfold units in U. rewrite U.
  unfold single_units. rewrite Z.abs_mul. replace (Z.abs (if single_sign bits then -1 else 1)) with 1 by (destruct (single_sign bits); reflexivity).
  rewrite Z.mul_1_l. assert (FR : 0 <= single_frac bits < 2 ^ 23) by (apply Z.mod_pos_bound; reflexivity).
  assert (EX : 0 <= single_exp bits) by (apply Z.mod_pos_bound; reflexivity).
  revert FR EX E. generalize (single_frac bits) (single_exp bits). clear. intros f e FR EX E.
  assert (LIM : single_limit = (2 ^ 25 - 1) * 2 ^ (103 + 1074)) by reflexivity.
  destruct (e =? 0) eqn:Z.
  - rewrite Z.abs_eq by (apply Z.mul_nonneg_nonneg; [lia|apply Z.pow_nonneg; lia]).
    apply Z.lt_trans with (2 ^ 23 * 2 ^ (-149 + 1074)); [apply Z.mul_lt_mono_pos_r; [reflexivity|lia]|reflexivity].
  - rewrite Z.abs_eq by (apply Z.mul_nonneg_nonneg; [lia|apply Z.pow_nonneg; lia]).
    apply Z.le_lt_trans with ((2 ^ 24 - 1) * 2 ^ (e - 150 + 1074)).
    + apply Z.mul_le_mono_nonneg_r; [apply Z.pow_nonneg; lia|]. change (2 ^ 24) with (2 ^ 23 + 2 ^ 23). lia.
    + apply Z.le_lt_trans with ((2 ^ 24 - 1) * 2 ^ (254 - 150 + 1074)); [|reflexivity].
      apply Z.mul_le_mono_nonneg_l; [vm_compute; discriminate|]. apply Z.pow_le_mono_r; lia.
Qed.
Lemma sample_exact t e d p r : sample_at t e d p r -> exact_sample t r /\ storable t r.
Proof.
  destruct t; cbn [sample_at exact_sample storable].
  1-6: (intros (n & -> & I & _); split; [now exists n|exact I]).
  - intros (bits & f & -> & _ & H). assert (W : float_wf f) by apply H. split; [exists f; eauto|]. split; [exact W|]. now apply (single_bound bits).
  - intros (w & -> & W & _). split; [now exists w|exact W].
Qed.
Lemma samples_exact t e d p rs : samples_at t e d p rs -> Forall (exact_sample t) rs /\ Forall (storable t) rs.
Proof.
  intros H. split; apply Forall_forall; intros r I; apply In_nth with (d := RInt 0) in I; destruct I as (i & Hi & <-);
    specialize (H (Z.of_nat i)); rewrite Nat2Z.id in H; eapply sample_exact; apply H; unfold zlen; lia.
Qed.

Lemma holds_good c e buf h n : format_ok c n -> coincident_alike c -> holds_buffer c e buf h -> good_header c h.
Proof.
  intros (C & _) A (HC & H). split; [exact HC|]. split.
  - intros f F. rewrite HC in F. destruct (H f F) as (v & G & AC & _). eauto.
  - intros f g F G O. rewrite HC in F, G. destruct (H f F) as (v & Gv & _ & Iv & Sv). destruct (H g G) as (w & Gw & _ & Iw & Sw).
    rewrite Gv, Gw. f_equal. unfold field_size, field_pos in *. rewrite <- (A f g F G O), <- O in *.
    rewrite <- ctype_size_spec in *. exact (stored_unique e buf _ _ v w Iv Iw Sv Sw).
Qed.

Lemma decoded_encodable x b s : supported x -> bytes_ok b -> decode x b = Ok s -> encodable x s.
Proof.
  intros [->| ->] B D.
  - destruct (decode_ascii b B) as (P & Q). destruct (Forall_dec (fun y => y < 128) (fun y => Z_lt_dec y 128) b) as [F|N].
    + destruct (P F) as (E & _). rewrite D in E. injection E as ->. unfold encodable, bytes_ok in *. rewrite Forall_forall in *.
      intros c I. specialize (B c I). specialize (F c I). cbn in *. lia.
    + rewrite (Q N) in D. discriminate.
  - destruct (decode_encode_ebcdic b B) as (s' & E & _ & Y & _). rewrite D in E. now injection E as ->.
Qed.
Lemma encodable_lines x ls : encodable x (concat ls) -> Forall (encodable x) ls.
Proof. induction ls as [|l ls IH]; intros H; constructor; cbn [concat] in H; apply Forall_app in H; [apply H|]. apply IH, H. Qed.

Lemma block_bytes d n m : all_bytes d -> all_bytes (block d n m).
Proof.
  intros H. unfold block, all_bytes in *. rewrite Forall_forall in *. intros b I. apply H.
  rewrite <- (firstn_skipn (Z.to_nat n) d). apply in_or_app. right. rewrite <- (firstn_skipn (Z.to_nat m) (skipn (Z.to_nat n) d)). apply in_or_app. now left.
Qed.

(* pages read *)
Lemma ext_pages x d n pages : ext_outcome x d n (Ok pages) -> forall k, 0 <= k < zlen pages -> page_at x d k (nth (Z.to_nat k) pages []).
Proof.
  intros (P & Q) k K. destruct (Z_lt_dec n 0) as [N|N].
  - specialize (Q N). inversion Q as [ps p PL PA EP| |]; subst. rewrite zlen_app in K. change (zlen [p]) with 1 in K.
    destruct (Z.eq_dec k (zlen ps)) as [->|NK]; [now rewrite nth_zlen|]. rewrite nth_before by lia. apply PL. lia.
  - specialize (P ltac:(lia)). inversion P; subst. auto.
Qed.
Lemma ext_counted x d n bin pages : hdr_get bin "num_extended_textual_headers" = Ok n -> ext_outcome x d n (Ok pages) -> pages_counted bin pages.
Proof.
  intros G (P & Q). exists n. split; [exact G|]. split; intros N.
  - specialize (P N). inversion P as [ps L PA NE| | |]; subst. split; [reflexivity|].
    destruct (rev_case pages) as [->|(ps & p & ->)]; [constructor|]. rewrite removelast_last. rewrite zlen_app in NE. change (zlen [p]) with 1 in NE.
    apply Forall_forall. intros q I. apply In_nth with (d := []) in I. destruct I as (i & Hi & <-).
    specialize (NE (Z.of_nat i) ltac:(unfold zlen; lia)). rewrite nth_before in NE by (unfold zlen; lia). now rewrite Nat2Z.id in NE.
  - specialize (Q N). inversion Q as [ps p PL PA EP| |]; subst. exists ps, p. split; [reflexivity|]. split; [|exact EP].
    apply Forall_forall. intros q I. apply In_nth with (d := []) in I. destruct I as (i & Hi & <-).
    specialize (PL (Z.of_nat i) ltac:(unfold zlen; lia)). rewrite Nat2Z.id in PL. apply PL.
Qed.
Lemma ext_pages_ok x x' d n pages : ext_outcome x d n (Ok pages) -> Forall (Forall (encodable x')) pages -> Forall (page_ok x') pages.
Proof.
  intros E F. apply Forall_forall. intros p I. rewrite Forall_forall in F. specialize (F p I).
  apply In_nth with (d := []) in I. destruct I as (i & Hi & <-).
  destruct (ext_pages x d n pages E (Z.of_nat i) ltac:(unfold zlen; lia)) as (_ & L & L80 & _). rewrite Nat2Z.id in *.
  split; [exact L|]. rewrite Forall_forall in *. intros l I. split; auto.
Qed.

Lemma collect {A} (P : Z -> A -> Prop) n : (forall k, 0 <= k < Z.of_nat n -> exists a, P k a) ->
  exists l, Forall2 P (map Z.of_nat (seq 0 n)) l.
Proof.
  intros H. assert (G : forall m s, (s + m <= n)%nat -> exists l, Forall2 P (map Z.of_nat (seq s m)) l).
  { induction m as [|m IH]; intros s L; cbn [seq map]; [exists []; constructor|].
    destruct (H (Z.of_nat s) ltac:(lia)) as (a & Pa). destruct (IH (Datatypes.S s) ltac:(lia)) as (l & F). exists (a :: l). now constructor. }
  apply (G n 0%nat). lia.
Qed.
Lemma upto_nth {A} (P : Z -> A -> Prop) : forall n l s, Forall2 P (map Z.of_nat (seq s n)) l -> forall k a, nth_error l k = Some a -> P (Z.of_nat (s + k)) a.
Proof.
  induction n as [|n IH]; intros l s F k a E; inversion F; subst; [destruct k; discriminate|]. destruct k as [|k]; cbn in E.
  - injection E as <-. now rewrite Nat.add_0_r.
  - replace (s + Datatypes.S k)%nat with (Datatypes.S s + k)%nat by lia. eapply IH; eauto.
Qed.

Lemma fitted_same lines tx : zlen lines = 40 -> Forall (fun l => zlen l = 80) lines -> fitted_lines 40 80 lines tx -> tx = lines.
Proof.
  intros L F (L' & H). change text with (list Z) in *. apply (nth_ext _ _ [] []); [unfold zlen in *; lia|]. intros i Hi.
  specialize (H (Z.of_nat i) ltac:(unfold zlen in *; lia)). rewrite Nat2Z.id in H. destruct H as (LT & H).
  assert (LL : zlen (nth i lines []) = 80) by (rewrite Forall_forall in F; apply F, nth_In; unfold zlen in *; lia).
  apply (nth_ext _ _ 0 0); [unfold zlen in *; lia|]. intros j Hj. specialize (H (Z.of_nat j) ltac:(unfold zlen in *; lia)). rewrite Nat2Z.id in H.
  rewrite H, LL. replace (Z.of_nat j <? 80) with true by (unfold zlen in *; lia). reflexivity.
Qed.

Lemma samples_outcome_unique d e t ts k a b r r' : samples_outcome d e t ts k a b r -> samples_outcome d e t ts k a b r' -> r = r'.
Proof.
  pose proof (sample_size_pos t) as P.
  intros [K|i TI BD|i TI BD BL SH|i rs TI B1 B2 B3 RL SA] [K'|i' TI' BD'|i' TI' BD' BL' SH'|i' rs' TI' B1' B2' B3' RL' SA'];
    try reflexivity; try (destruct TI; lia); try (destruct TI'; lia);
    try (rewrite (trace_of_unique _ _ _ _ TI' TI) in *); try lia.
  f_equal. apply (samples_unique t e d (t_pos i + 240 + sample_size t * or_else a 0)); auto. congruence.
Qed.

Section Convert.
Variables (d : list Z) (enc : option encoding) (bc tc : fmt) (e : endian) (dim : option Z) (r : reader) (native : endian) (x' : encoding).
Hypothesis RD : readable d enc bc tc.
Hypothesis OP : opens d enc bc tc e dim r.
Hypothesis AR : all_readable native d r.
Hypothesis AB : coincident_alike bc.
Hypothesis AT : coincident_alike tc.
Hypothesis S' : supported x'.
Hypothesis TE : text_encodable r x'.

Let ds := reader_dataset native r (mk_file d 0).
Lemma reader_writable : exists t trs, writable ds x' bc tc t trs /\ consistent ds bc tc t trs /\ trs <> [] /\
  Forall (fun tr => Forall (exact_sample t) (snd tr)) trs /\ zlen trs = rd_num_traces r /\
  forall k tr, nth_error trs k = Some tr ->
    fst (rd_trace_header r (Z.of_nat k) None (mk_file d 0)) = Ok (fst tr) /\ fst (rd_trace_samples native r (Z.of_nat k) None None (mk_file d 0)) = Ok (snd tr).
Proof.
  destruct (opens_opened d enc bc tc e dim r RD OP) as (x & ts & t & X & O). assert (RD' := RD). destruct RD' as (HB & B & T & SE).
  assert (S : supported x) by (eapply guessed_supported; eauto). assert (L3 := opens_length _ _ _ _ _ _ _ OP).
  assert (O' := O). destruct O' as [(RT & RB & n & GN & EO) TY FT NE (v & GV & RV) _ _ _ _ _ _ _ _].
  assert (TR : traces_of d tc e r t ts) by now split.
  destruct (counts_ok d enc bc tc e dim r t ts RD OP TR) as (C1 & C2 & _).
  assert (Q : forall k, 0 <= k < Z.of_nat (length ts) -> exists tr : trace,
     fst (rd_trace_header r k None (mk_file d 0)) = Ok (fst tr) /\ fst (rd_trace_samples native r k None None (mk_file d 0)) = Ok (snd tr) /\
     good_header tc (fst tr) /\ Forall (storable t) (snd tr) /\ Forall (exact_sample t) (snd tr) /\ hdr_get (fst tr) "num_samples" = Ok (zlen (snd tr))).
  { intros k K. destruct (AR k) as (h & ss & EH & ES). { rewrite C1. unfold zlen. lia. }
    exists (h, ss). cbn [fst snd]. split; [exact EH|]. split; [exact ES|].
    destruct (header_ok_read d enc bc tc e dim r t ts RD OP TR k 0) as (_ & _ & HO). rewrite EH in HO.
    destruct (samples_ok d enc bc tc e dim r t ts RD OP TR native k None None 0) as (_ & _ & SO). rewrite ES in SO.
    inversion HO as [| |i h' TI HH]; subst h'. inversion SO as [| | |i' ss' TI' B1 B2 B3 SL SA]; subst ss'.
    rewrite (trace_of_unique _ _ _ _ TI' TI) in *. cbn [or_else] in *. destruct (samples_exact _ _ _ _ _ SA) as (X1 & X2).
    split; [now apply (holds_good tc e (block d (t_pos i) 240) h 240); [apply T| |]|]. split; [exact X2|]. split; [exact X1|].
    assert (PL := trace_layout tc e (sample_size t) d _ ts FT). destruct PL as (_ & _ & PL & _). destruct (PL k i TI) as (P1 & P2 & _).
    assert (P0 : 0 <= t_pos i).
    { apply (trace_placed x bc tc e dim d r ts t T O). now apply (trace_in ts k). }
    destruct T as ((C & TF & ST & OR & LEN & MK) & F1 & F2 & F3 & _).
    destruct (holds_field tc e d (t_pos i) 240 h "num_samples" C ST P0 ltac:(lia) P1 HH F3) as (w & GW & FW).
    rewrite (field_at_unique tc e d _ _ _ _ C FW P2) in GW. rewrite GW. f_equal. lia. }
  destruct (collect _ _ Q) as (trs & F).
  assert (LT : zlen trs = zlen ts). { apply Forall2_zlen' in F. rewrite <- F. unfold zlen. now rewrite map_length, seq_length. }
  exists t, trs.
  assert (NT : trs <> []) by (intros ->; destruct ts; [congruence|]; rewrite zlen_cons in LT; pose proof (zlen_nonneg ts); change (zlen (@nil trace)) with 0 in LT; lia).
  assert (Z0 : rd_num_traces r <> 0). { rewrite C1, <- LT. destruct trs; [congruence|]. rewrite zlen_cons. pose proof (zlen_nonneg trs). lia. }
  assert (FALL : Forall (fun tr : trace => good_header tc (fst tr) /\ Forall (storable t) (snd tr) /\ Forall (exact_sample t) (snd tr) /\ hdr_get (fst tr) "num_samples" = Ok (zlen (snd tr))) trs).
  { clear -F. induction F; constructor; auto. tauto. }
  split; [|split; [|split; [exact NT|split; [|split]]]].
  - constructor; auto.
    + cbn. rewrite Forall_forall. destruct TE as (TE1 & _). rewrite Forall_forall in TE1. intros l I. apply TE1.
      rewrite <- (firstn_skipn 40 (rd_text r)). apply in_or_app. now left.
    + apply B.
    + cbn. apply (holds_good bc e (block d 3200 400) _ 400); [apply B|exact AB|exact RB].
    + cbn. apply (ext_pages_ok x x' d n); [exact EO|apply TE].
    + apply T.
    + cbn. now apply sample_format_ok.
    + unfold presents. cbn. rewrite C2. clear -F. induction F; constructor; tauto.
    + eapply Forall_impl; [|exact FALL]. cbn. tauto.
  - constructor; auto.
    + exists v, (rd_revision r). now split.
    + cbn. now apply (ext_counted x d n).
    + eapply Forall_impl; [|exact FALL]. cbn. tauto.
  - eapply Forall_impl; [|exact FALL]. cbn. tauto.
  - congruence.
  - intros k tr E. specialize (upto_nth _ _ _ _ F k tr E). cbn. tauto.
Qed.

Lemma convert e' pr log : pr <> NotCallable -> exists b,
  write_segy ds (Some x') tc e' pr (mk_world (mk_file [] 0) log) = (Ok tt, mk_world (mk_file b (zlen b)) (log ++ map (fun k => (k, rd_num_traces r)) (rd_trace_indexes r) ++ [(1, 1)])) /\
  forall a pr' dim' log', attrs_ok a -> pr' <> NotCallable -> (forall k, dim' = Some k -> In k [1; 2; 3]) ->
  exists r' w, create_reader a (Some x') bc tc (Some e') pr' dim' (mk_world (mk_file b 0) log') = (Ok r', w) /\ same_readings d r b r'.
Proof.
  intros P. destruct reader_writable as (t & trs & W & CO & NT & EX & LN & RE).
  destruct (write_contents ds (Some x') x' bc tc e' t trs pr [] log W eq_refl P) as (b & SC & WR). exists b. split.
  { rewrite WR. rewrite skipn_nil, app_nil_r. reflexivity. }
  intros a pr' dim' log' A P' D.
  destruct (contents_read ds x' bc tc e' t trs b CO S' (wr_ext _ _ _ _ _ _ W) SC NT a pr' dim' log' A P' D) as (r' & w & R & G1 & G2 & G3 & G4 & G5 & G6).
  exists r', w. split; [exact R|].
  destruct (opens_opened d enc bc tc e dim r RD OP) as (x & ts & t0 & X & O). destruct O as [(RT & _) TY FT _ _ _ _ _ _ _ _ _ _].
  assert (TR : traces_of d tc e r t0 ts) by now split.
  destruct (counts_ok d enc bc tc e dim r t0 ts RD OP TR) as (C1 & C2 & _).
  split; [apply fitted_same; [apply RT|apply RT|exact G1]|]. split; [exact G2|]. split; [exact G3|]. split; [congruence|]. split.
  { rewrite G5, C2. do 2 f_equal. unfold zlen in *. lia. }
  intros k nat q q' K. rewrite <- LN in K. destruct (nth_error trs (Z.to_nat k)) as [tr|] eqn:E.
  2: { apply nth_error_None in E. unfold zlen in K. lia. }
  destruct (RE _ _ E) as (R1 & R2). rewrite Z2Nat.id in R1, R2 by lia.
  destruct (G6 k tr ltac:(lia) E nat q') as ((h' & H1 & H2) & rs & H3 & H4).
  exists (fst tr), h', (snd tr). split.
  { rewrite <- R1. apply positionless_header. }
  split; [exact H1|]. split; [exact H2|]. split.
  { destruct (samples_ok d enc bc tc e dim r t0 ts RD OP TR nat k None None q) as (_ & _ & O1).
    destruct (samples_ok d enc bc tc e dim r t0 ts RD OP TR native k None None 0) as (_ & _ & O2). rewrite R2 in O2.
    exact (samples_outcome_unique _ _ _ _ _ _ _ _ _ O1 O2). }
  rewrite H3. f_equal. apply (exact_kept t); [|exact H4]. rewrite Forall_forall in EX. apply EX. eapply nth_error_In; eauto.
Qed.
End Convert.

Lemma text_encodable_same d x bc tc e dim r : readable d (Some x) bc tc -> opens d (Some x) bc tc e dim r -> text_encodable r x.
Proof.
  intros RD OP. destruct (opens_opened _ _ _ _ _ _ _ RD OP) as (y & ts & t & X & O). cbn in X. subst y. destruct RD as (HB & _ & _ & SE).
  assert (S := SE x eq_refl). destruct O as [((_ & _ & DT) & _ & n & _ & EO) _ _ _ _ _ _ _ _ _ _ _ _]. split.
  - apply encodable_lines. apply (decoded_encodable x (block d 0 3200)); auto. now apply block_bytes.
  - apply Forall_forall. intros p I. apply In_nth with (d := []) in I. destruct I as (i & Hi & <-).
    destruct (ext_pages x d n _ EO (Z.of_nat i) ltac:(unfold zlen; lia)) as (_ & _ & _ & D). rewrite Nat2Z.id in D.
    apply encodable_lines. apply (decoded_encodable x (page_bytes d (Z.of_nat i))); auto.
    change (page_bytes d (Z.of_nat i)) with (block d (3600 + 3200 * Z.of_nat i) 3200). now apply block_bytes.
Qed.

(* ------------------------------------------------------------------ *)
(* no traces *)
Lemma contents_no_traces ds x bc tc e t b : consistent ds bc tc t [] -> supported x -> Forall (page_ok x) (ds_ext ds) ->
  segy_contents ds x bc tc e t [] b -> forall a pr dim log, attrs_ok a -> pr <> NotCallable ->
  (forall k, dim = Some k -> In k [1; 2; 3]) ->
  fst (create_reader a (Some x) bc tc (Some e) pr dim (mk_world (mk_file b 0) log)) = Err RuntimeError.
Proof.
  intros [CB CT TY _ PC _] S PO SC a pr dim log A P D.
  destruct (contents_bytes _ _ _ _ _ _ _ _ SC) as (AB & L3).
  destruct (contents_headers _ _ _ _ _ _ _ _ SC PO PC) as (tx & FT & RH).
  assert (RD : readable b (Some x) bc tc) by (split; [exact AB|]; split; [exact CB|]; split; [exact CT|]; intros y [= <-]; exact S).
  apply (open_no_traces a (Some x) bc tc e pr dim b log x tx (ds_binary ds) (ds_ext ds) t); auto. reflexivity.
  destruct SC as (tx' & tb & bb & pbs & tbs & EB & _ & (TL & _) & (BL & _) & FP & FR). inversion FR; subst tbs.
  destruct (blocks_bytes _ _ _ FP) as (_ & PL). subst b. unfold first_trace. rewrite !zlen_app. cbn [concat]. change (zlen []) with 0. lia.
Qed.

(* ------------------------------------------------------------------ *)
(* progress *)
Lemma on_file_log {A B} (m : io A) (k : A -> wio B) w r w' : wbind (on_file m) k w = (r, w') ->
  (exists y, r = Err y /\ w_log w' = w_log w) \/ exists a w1, w_log w1 = w_log w /\ k a w1 = (r, w').
Proof.
  unfold wbind, on_file. destruct (m (w_file w)) as [[a|y] f1]; intros H.
  - right. exists a, (mk_world f1 (w_log w)). now split.
  - left. injection H as <- <-. eauto.
Qed.
Lemma write_traces_log ds p e n : forall ks w r w', write_traces ds p e n ks w = (r, w') ->
  exists ks1 ks2, ks = ks1 ++ ks2 /\ (ks1 = [] \/ n <> 0) /\ w_log w' = w_log w ++ map (fun k => (k, n)) ks1 /\ (r = Ok tt -> ks2 = []).
Proof.
  induction ks as [|k ks IH]; intros w r w' H.
  - injection H as <- <-. exists [], []. cbn. rewrite app_nil_r. auto.
  - cbn [write_traces] in H.
    assert (STOP : forall y, r = Err y -> w_log w' = w_log w -> exists ks1 ks2, k :: ks = ks1 ++ ks2 /\ (ks1 = [] \/ n <> 0) /\
       w_log w' = w_log w ++ map (fun k => (k, n)) ks1 /\ (r = Ok tt -> ks2 = [])).
    { intros y -> L. exists [], (k :: ks). cbn. rewrite app_nil_r. split; [reflexivity|]. split; [now left|]. split; [exact L|discriminate]. }
    apply on_file_log in H. destruct H as [(y & -> & L)|(a1 & w1 & L1 & H)]; [now apply (STOP y)|].
    apply on_file_log in H. destruct H as [(y & -> & L)|(a2 & w2 & L2 & H)]; [apply (STOP y); congruence|].
    apply on_file_log in H. destruct H as [(y & -> & L)|(a3 & w3 & L3 & H)]; [apply (STOP y); congruence|].
    apply on_file_log in H. destruct H as [(y & -> & L)|(a4 & w4 & L4 & H)]; [apply (STOP y); congruence|].
    apply on_file_log in H. destruct H as [(y & -> & L)|(a5 & w5 & L5 & H)]; [apply (STOP y); congruence|].
    destruct (Z.eq_dec n 0) as [->|N].
    + unfold wbind, report in H. change (0 =? 0) with true in H. cbv iota in H. injection H as <- <-. apply (STOP ZeroDivisionError); congruence.
    + rewrite report_ok in H by exact N. apply IH in H. destruct H as (ks1 & ks2 & -> & _ & L & F). exists (k :: ks1), ks2.
      split; [reflexivity|]. split; [now right|]. split; [|exact F]. rewrite L. cbn [w_log map]. rewrite <- app_assoc. cbn [app]. congruence.
Qed.
Lemma write_log ds enc tc e pr f r w : write_segy ds enc tc e pr (mk_world f []) = (r, w) ->
  exists ks1 ks2, ds_trace_indexes ds = ks1 ++ ks2 /\ (ks1 = [] \/ ds_num_traces ds <> 0) /\
    ((exists y, r = Err y) /\ w_log w = map (fun k => (k, ds_num_traces ds)) ks1 \/
     r = Ok tt /\ ks2 = [] /\ w_log w = map (fun k => (k, ds_num_traces ds)) ks1 ++ [(1, 1)]).
Proof.
  intros H. unfold write_segy in H.
  assert (STOP : forall y, r = Err y -> w_log w = [] -> exists ks1 ks2, ds_trace_indexes ds = ks1 ++ ks2 /\ (ks1 = [] \/ ds_num_traces ds <> 0) /\
    ((exists y, r = Err y) /\ w_log w = map (fun k => (k, ds_num_traces ds)) ks1 \/
     r = Ok tt /\ ks2 = [] /\ w_log w = map (fun k => (k, ds_num_traces ds)) ks1 ++ [(1, 1)])).
  { intros y -> L. exists [], (ds_trace_indexes ds). split; [reflexivity|]. split; [now left|]. left. split; [eauto|exact L]. }
  assert (pr = NotCallable \/ match pr with NotCallable => false | _ => true end = true) as [->|P] by (destruct pr; auto).
  { injection H as <- <-. now apply (STOP TypeError). }
  cbv zeta in H. set (x := match enc with Some y => y | None => _ end) in H. clearbody x.
  assert (H' : (if negb (is_supported_encoding x) then wraise UnsupportedEncodingError else
      go _ <- on_file (write_textual_reel_header (ds_text ds) x) ;;
      go _ <- on_file (write_binary_reel_header (ds_binary ds) e) ;;
      go _ <- on_file (write_extended_textual_headers (ds_ext ds) x) ;;
      go p <- on_file (lift (make_header_packer tc e)) ;;
      go _ <- write_traces ds p e (ds_num_traces ds) (ds_trace_indexes ds) ;;
      report 1 1) (mk_world f []) = (r, w)) by (destruct pr; [exact H|exact H|discriminate]).
  clear H P. rename H' into H. destruct (negb _). { injection H as <- <-. now apply (STOP UnsupportedEncodingError). }
  apply on_file_log in H. destruct H as [(y & -> & L)|(a1 & w1 & L1 & H)]; [now apply (STOP y)|].
  cbn [w_log] in L1.
  apply on_file_log in H. destruct H as [(y & -> & L)|(a2 & w2 & L2 & H)]; [apply (STOP y); congruence|].
  apply on_file_log in H. destruct H as [(y & -> & L)|(a3 & w3 & L3 & H)]; [apply (STOP y); congruence|].
  apply on_file_log in H. destruct H as [(y & -> & L)|(p & w4 & L4 & H)]; [apply (STOP y); congruence|].
  unfold wbind in H. destruct (write_traces ds p e (ds_num_traces ds) (ds_trace_indexes ds) w4) as [r5 w5] eqn:E.
  destruct (write_traces_log _ _ _ _ _ _ _ _ E) as (ks1 & ks2 & EK & N & L & F). exists ks1, ks2. split; [exact EK|]. split; [exact N|].
  assert (L0 : w_log w4 = []) by congruence. rewrite L0 in L. cbn [app] in L. destruct r5 as [[]|y].
  - right. unfold report in H. change (1 =? 0) with false in H. cbv iota in H. injection H as <- <-. cbn [w_log]. rewrite L. auto.
  - left. injection H as <- <-. split; [eauto|exact L].
Qed.
Lemma sorted_pairs n ks l : 0 < n -> StronglySorted Z.le ks -> Forall (fun k => k <= n) ks -> l = [] \/ l = [(1, 1)] ->
  StronglySorted (fun v w : Z * Z => fst v * snd w <= fst w * snd v) (map (fun k => (k, n)) ks ++ l).
Proof.
  intros N S F L. induction S as [|k ks S IH K]; cbn [map app].
  - destruct L as [->| ->]; repeat constructor.
  - inversion F; subst. constructor; [now apply IH|]. apply Forall_app. split.
    + apply Forall_map. eapply Forall_impl; [|exact K]. cbn [fst snd]. intros. apply Z.mul_le_mono_nonneg_r; lia.
    + destruct L as [->| ->]; repeat constructor. cbn [fst snd]; lia.
Qed.
Lemma StronglySorted_app_l {A} (R : A -> A -> Prop) l m : StronglySorted R (l ++ m) -> StronglySorted R l.
Proof.
  induction l as [|a l IH]; intros H; [constructor|]. inversion H; subst. constructor; [now apply IH|]. now apply Forall_app in H3.
Qed.
Lemma write_progress ds enc tc e pr f r w : StronglySorted Z.le (ds_trace_indexes ds) ->
  Forall (fun k => 0 <= k <= ds_num_traces ds) (ds_trace_indexes ds) ->
  write_segy ds enc tc e pr (mk_world f []) = (r, w) ->
  Forall (fun v => 0 < snd v /\ 0 <= fst v <= snd v) (w_log w) /\
  StronglySorted (fun v w => fst v * snd w <= fst w * snd v) (w_log w) /\
  (r = Ok tt -> progress_ok (w_log w)).
Proof.
  intros S F H. destruct (write_log _ _ _ _ _ _ _ _ H) as (ks1 & ks2 & EK & N & O). rewrite EK in S, F.
  apply StronglySorted_app_l in S. apply Forall_app in F. destruct F as (F & _). set (n := ds_num_traces ds) in *.
  assert (P : exists l, (l = [] \/ l = [(1, 1)]) /\ w_log w = map (fun k => (k, n)) ks1 ++ l /\ (r = Ok tt -> l = [(1, 1)])).
  { destruct O as [((y & ->) & L)|(-> & _ & L)].
    - exists []. rewrite app_nil_r. split; [now left|]. split; [exact L|discriminate].
    - exists [(1, 1)]. auto. }
  destruct P as (l & PL & -> & OK).
  assert (A : Forall (fun v : Z * Z => 0 < snd v /\ 0 <= fst v <= snd v) (map (fun k => (k, n)) ks1 ++ l)).
  { apply Forall_app. split; [|destruct PL as [->| ->]; repeat constructor; cbn; lia]. apply Forall_map.
    destruct N as [->|N]; [constructor|]. eapply Forall_impl; [|exact F]. cbn. lia. }
  assert (B : StronglySorted (fun v w : Z * Z => fst v * snd w <= fst w * snd v) (map (fun k => (k, n)) ks1 ++ l)).
  { destruct N as [->|N]. { destruct PL as [->| ->]; repeat constructor. }
    destruct ks1 as [|k ks1]. { destruct PL as [->| ->]; repeat constructor. }
    apply sorted_pairs; auto. { inversion F; subst. lia. } eapply Forall_impl; [|exact F]. cbn. lia. }
  split; [exact A|]. split; [exact B|]. intros ->. split; [exact A|]. split; [exact B|]. rewrite (OK eq_refl). eauto.
Qed.

(* ------------------------------------------------------------------ *)
(* delegation *)
Lemma write_traces_ext ds ds' p e n : (forall k, ds_trace_header ds k = ds_trace_header ds' k) ->
  (forall k a b, ds_trace_samples ds k a b = ds_trace_samples ds' k a b) -> ds_sample_format ds = ds_sample_format ds' ->
  forall ks w, write_traces ds p e n ks w = write_traces ds' p e n ks w.
Proof.
  intros H S F. induction ks as [|k ks IH]; intros w; [reflexivity|]. cbn [write_traces]. rewrite H, S, F.
  unfold wbind. repeat (match goal with |- context [match ?m with _ => _ end] => destruct m as [[?|?] ?]; try reflexivity end). apply IH.
Qed.
Lemma delegating_same ds enc tc e pr w : ds_sample_format ds = sample_format (ds_binary ds) ->
  write_segy (delegating ds) enc tc e pr w = write_segy ds enc tc e pr w.
Proof.
  intros F. unfold write_segy, delegating. cbn [ds_text ds_binary ds_ext ds_encoding ds_num_traces ds_trace_indexes].
  destruct pr; try reflexivity; cbv zeta; (destruct (negb _); [reflexivity|]);
  unfold wbind; repeat (match goal with |- context [match on_file ?m ?w with _ => _ end] => destruct (on_file m w) as [[?|?] ?]; try reflexivity end);
  (erewrite (write_traces_ext _ ds); [reflexivity|reflexivity|reflexivity|exact (eq_sym F)]).
Qed.

(* ------------------------------------------------------------------ *)
(* samples *)
Lemma padded_bytes d p : all_bytes d -> all_bytes (padded_prefix d p).
Proof.
  intros H. unfold padded_prefix, all_bytes in *. rewrite Forall_forall in *. intros b I.
  assert (J : In b (d ++ zrepeat 0 (p - zlen d))) by (rewrite <- (firstn_skipn (Z.to_nat p)); apply in_or_app; now left).
  apply in_app_or in J. destruct J as [J|J]; [auto|]. unfold zrepeat in J. apply repeat_spec in J. lia.
Qed.

Lemma samples_round_trip native e t ss f : all_bytes (f_data f) -> 0 <= f_pos f -> Forall (storable t) ss ->
  exists b f' rs q, write_binary_values ss t e f = (Ok tt, f') /\ zlen b = sample_size t * zlen ss /\ (ss <> [] -> wrote f b f') /\ (ss = [] -> f' = f) /\
    read_binary_values native (Some (f_pos f)) t (zlen ss) e f' = (Ok rs, mk_file (f_data f') q) /\
    Forall2 (stored_as t) ss rs /\ (ss <> [] -> samples_at t e (f_data f') (f_pos f) rs).
Proof.
  intros HB P ST. destruct (store_all e t ss ST) as (b & rs & PK & L & B & S2 & BS). pose proof (sample_size_pos t) as SP.
  destruct ss as [|s ss].
  - inversion S2; subst rs. destruct b; [|unfold zlen in L; cbn in L; lia]. exists [], f.
    destruct (read_values_ok native (f_pos f) t 0 e (f_data f) (f_pos f) HB P ltac:(lia) (or_introl eq_refl)) as (rs & q & R & RL & _).
    destruct rs; [|rewrite zlen_cons in RL; pose proof (zlen_nonneg rs); lia]. exists [], q. unfold write_binary_values. rewrite PK.
    split; [reflexivity|]. split; [unfold zlen; cbn; lia|]. split; [congruence|]. split; [reflexivity|]. split; [destruct f; exact R|]. split; [constructor|congruence].
  - assert (BN : b <> []). { intros ->. rewrite zlen_cons in L. pose proof (zlen_nonneg ss). unfold zlen at 1 in L. cbn [length] in L. nia. }
    destruct (write_wrote b f BN P) as (f' & W & WR).
    assert (W' := W). rewrite write_run in W' by exact BN. injection W' as EF.
    set (pre := padded_prefix (f_data f) (f_pos f)) in *. assert (LP : zlen pre = f_pos f) by now apply padded_prefix_len.
    assert (SA : samples_at t e (f_data f') (f_pos f) rs). { rewrite <- EF. cbn [f_data]. rewrite <- LP. now apply samples_embed. }
    assert (HB' : all_bytes (f_data f')).
    { rewrite <- EF. cbn [f_data]. apply all_bytes_app. split; [now apply padded_bytes|]. apply all_bytes_app. split; [exact B|].
      unfold all_bytes in *. rewrite Forall_forall in *. intros y I. apply HB. rewrite <- (firstn_skipn (Z.to_nat (f_pos f + zlen b)) (f_data f)). apply in_or_app. now right. }
    assert (LF : f_pos f + sample_size t * zlen (s :: ss) <= zlen (f_data f')) by (destruct WR as (_ & LW & _); lia).
    destruct (read_values_ok native (f_pos f) t (zlen (s :: ss)) e (f_data f') (f_pos f') HB' P (zlen_nonneg _) (or_intror LF)) as (rs' & q & R & RL & RS).
    assert (rs' = rs) as ->. { apply (samples_unique t e (f_data f') (f_pos f)); auto. rewrite RL. now apply (Forall2_zlen' (stored_as t)). }
    exists b, f', rs, q. unfold write_binary_values. rewrite PK. split; [exact W|]. split; [exact L|]. split; [auto|]. split; [discriminate|].
    split; [destruct f'; exact R|]. auto.
Qed.

Lemma encode_refuses f : float_wf f -> finite f -> single_limit <= Z.abs (units f) -> f32_encode f = Err OverflowError.
Proof. intros W F L. now apply (encode_overflow f W F). Qed.

Lemma item_refused e t r : refused t r -> exists y, item_pack e (ctype_of t) r = Err y.
Proof.
  intros H.
  assert (INT : forall c, ctype_of t = S_int c -> (forall n, r = RInt n -> ~ in_ctype c n) -> exists y, item_pack e (ctype_of t) r = Err y).
  { intros c E N. rewrite E. cbn [item_pack]. destruct r as [f|n|w]; cbn [pack_int_sample]; eauto. rewrite pack_int_err by (now apply N). eauto. }
  destruct t.
  1-6: (eapply INT; [reflexivity|]; intros n ->; exact H).
  - clear INT. cbn [ctype_of item_pack]. unfold f32_pack, as_double. destruct r as [f|n|w]; cbn [refused] in H.
    + destruct H as (W & F & L). cbn [bind]. rewrite (encode_refuses f W F L). cbn. eauto.
    + destruct (Z.le_gt_cases (2 ^ 1023) (Z.abs n)) as [G|G].
      * pose proof (large_int n G) as L. destruct (f_of_int n) as [g|y] eqn:E; [|cbn; eauto]. destruct g as [s|s| |s m x]; try (destruct L; fail).
        cbn [bind]. destruct L as (L & W).
        rewrite (encode_refuses (S754_finite s m x) W I); [cbn; eauto|]. cbn [units]. rewrite Z.abs_mul.
        replace (Z.abs (if s then -1 else 1)) with 1 by (destruct s; reflexivity). rewrite Z.mul_1_l, Z.abs_eq by (apply Z.mul_nonneg_nonneg; [lia|apply Z.pow_nonneg; lia]).
        apply Z.le_trans with (2 ^ (971 + 1074)); [vm_compute; discriminate|]. rewrite <- (Z.mul_1_l (2 ^ (971 + 1074))).
        apply Z.mul_le_mono_nonneg; [lia|lia|apply Z.pow_nonneg; lia|apply Z.pow_le_mono_r; lia].
      * destruct (binary_normalize_nearest n 0 ltac:(lia)) as (W & F & R).
        { change (0 + 1074) with 1074. rewrite Z.pow_add_r by lia. apply Z.mul_lt_mono_pos_r; [lia|exact G]. }
        set (g := binary_normalize 53 1024 n 0 false) in *.
        assert (EG : f_of_int n = Ok g) by (unfold f_of_int; fold g; destruct g; try reflexivity; destruct F).
        rewrite EG. cbn [bind]. rewrite (encode_refuses g W F); [cbn; eauto|].
        apply (int_above g _ (conj W (conj F R))). change (0 + 1074) with 1074.
        rewrite Z.abs_mul, (Z.abs_eq (2 ^ 1074)) by (apply Z.pow_nonneg; lia).
        replace (single_limit - half_gap) with (int_limit * 2 ^ 1074) by (vm_compute; reflexivity).
        apply Z.mul_le_mono_nonneg_r; [apply Z.pow_nonneg; lia|exact H].
    + destruct H as (W & L). destruct (decoded_wf w W) as (Wg & Fg). pose proof (decoded_units w W) as U.
      rewrite (ibm_float_spec w W). cbn [bind]. rewrite (encode_refuses (decoded w) Wg Fg); [cbn; eauto|]. now rewrite U.
  - clear INT. cbn [ctype_of item_pack]. destruct r as [f|n|w]; cbn [refused] in H; [| |destruct H].
    + destruct H as (W & H). destruct (encode_errors f W) as (E1 & E2 & E3 & _). cbn [from_float].
      assert (Dec : finite f \/ ~ finite f) by (destruct f; cbn; tauto). destruct Dec as [F|F].
      * destruct H as [H|[H|H]]; [tauto| |].
        -- rewrite (proj2 E2 (conj F H)). cbn. eauto.
        -- rewrite (proj2 E3 (conj F H)). cbn. eauto.
      * rewrite (proj2 E1 F). cbn. eauto.
    + cbn [from_float]. destruct (ieee2ibm_int_spec n) as (_ & A). rewrite A; [cbn; eauto|].
      assert (EM : ibm_max = MAX_IBM_INT * 2 ^ 1074) by (vm_compute; reflexivity).
      rewrite EM, Z.abs_mul in H. rewrite (Z.abs_eq (2 ^ 1074)) in H by (apply Z.pow_nonneg; lia).
      eapply Z.mul_lt_mono_pos_r; [|exact H]. apply Z.pow_pos_nonneg; lia.
Qed.
Lemma samples_refused e t ss f r : In r ss -> refused t r -> exists y, write_binary_values ss t e f = (Err y, f).
Proof.
  intros I R. unfold write_binary_values. rewrite pack_samples_items.
  assert (M : exists y, map_res (item_pack e (ctype_of t)) ss = Err y).
  { destruct (item_refused e t r R) as (y & E). induction ss as [|s ss IH]; [destruct I|]. cbn [map_res].
    destruct (item_pack e (ctype_of t) s) as [b|y'] eqn:E'; cbn [bind]; [|eauto].
    destruct I as [->|I]; [congruence|]. destruct (IH I) as (y' & ->). cbn. eauto. }
  destruct M as (y & ->). exists y. reflexivity.
Qed.

(* ------------------------------------------------------------------ *)
(* For the examples: the hypotheses, computed. *)
Definition all_readableb (native : endian) (d : list Z) (r : reader) : bool :=
  forallb (fun k => match fst (rd_trace_header r k None (mk_file d 0)), fst (rd_trace_samples native r k None None (mk_file d 0)) with
                    | Ok _, Ok _ => true | _, _ => false end) (map Z.of_nat (seq 0 (Z.to_nat (rd_num_traces r)))).
Lemma all_readableb_ok native d r : all_readableb native d r = true -> all_readable native d r.
Proof.
  unfold all_readableb. rewrite forallb_forall. intros H k K. specialize (H k).
  destruct (fst (rd_trace_header r k None (mk_file d 0))) as [h|y]; [|].
  - destruct (fst (rd_trace_samples native r k None None (mk_file d 0))) as [ss|y]; [eauto|].
    assert (false = true); [apply H|discriminate]. apply in_map_iff. exists (Z.to_nat k). split; [lia|]. apply in_seq. lia.
  - assert (false = true); [apply H|discriminate]. apply in_map_iff. exists (Z.to_nat k). split; [lia|]. apply in_seq. lia.
Qed.
Definition ctype_eqb (a b : ctype) : bool :=
  match a, b with C_i, C_i => true | C_I, C_I => true | C_h, C_h => true | C_H, C_H => true | C_b, C_b => true | C_B, C_B => true | _, _ => false end.
Definition alikeb (c : fmt) : bool :=
  forallb (fun f => forallb (fun g => negb (fd_offset f =? fd_offset g) || ctype_eqb (ft_ctype (fd_type f)) (ft_ctype (fd_type g))) (class_fields c)) (class_fields c).
Lemma alikeb_ok c : class_ok c -> alikeb c = true -> coincident_alike c.
Proof.
  unfold alikeb. rewrite forallb_forall. intros (K & _) H f g F G E. specialize (H f (proj2 (class_fields_In c f K) F)). rewrite forallb_forall in H.
  specialize (H g (proj2 (class_fields_In c g K) G)). rewrite E, Z.eqb_refl in H. cbn in H.
  destruct (ft_ctype (fd_type f)), (ft_ctype (fd_type g)); (reflexivity || discriminate).
Qed.

Lemma rev1_alike : coincident_alike TraceHeaderRev1.
Proof. apply alikeb_ok; [apply rev1_trace_format|vm_compute; reflexivity]. Qed.
Lemma binary_alike : coincident_alike BinaryReelHeader.
Proof. apply alikeb_ok; [apply binary_reel_format|vm_compute; reflexivity]. Qed.

(* what a reader of a file gives, as a dataset *)
Definition read_dataset (d : list Z) : option dataset :=
  match open_file d with (Ok r, _) => if all_readableb Little d r then Some (reader_dataset Little r (mk_file d 0)) else None | _ => None end.
Lemma read_dataset_writable d : bytesb d = true -> forall ds, read_dataset d = Some ds -> exists t trs,
  writable ds ASCII BinaryReelHeader TraceHeaderRev1 t trs /\ consistent ds BinaryReelHeader TraceHeaderRev1 t trs /\ trs <> [] /\
  Forall (fun tr => Forall (exact_sample t) (snd tr)) trs /\ zlen trs = ds_num_traces ds.
Proof.
  intros B ds. unfold read_dataset. destruct (open_file d) as [[r|y] w] eqn:E; [|discriminate].
  destruct (all_readableb Little d r) eqn:A; [|discriminate]. intros [= <-].
  assert (RD := readable_by d B). assert (OP : opens d (Some ASCII) BinaryReelHeader TraceHeaderRev1 Big None r) by (do 4 eexists; exact E).
  destruct (reader_writable d (Some ASCII) _ _ Big None r Little ASCII RD OP (all_readableb_ok _ _ _ A) binary_alike rev1_alike (or_introl eq_refl)
    (text_encodable_same _ _ _ _ _ _ _ RD OP)) as (t & trs & H1 & H2 & H3 & H4 & H5 & _). exists t, trs. auto.
Qed.

Lemma storable_or_refused t r : match r with RFloat f => float_wf f | RInt _ => True | RIbm w => word_ok w end -> storable t r \/ refused t r.
Proof.
  intros OK. assert (FD : forall f, finite f \/ ~ finite f) by (intros f; destruct f; cbn; tauto).
  destruct t; destruct r as [f|n|w]; cbn [storable refused]; auto.
  1-6: (unfold in_sample_type; lia).
  - destruct (FD f) as [F|F]; [|left; tauto]. destruct (Z.lt_ge_cases (Z.abs (units f)) single_limit); [left|right]; tauto.
  - destruct (Z.lt_ge_cases (Z.abs n) int_limit); [left|right]; assumption.
  - destruct (Z.lt_ge_cases (Z.abs (ibm_units w)) single_limit); [left|right]; tauto.
  - destruct (FD f) as [F|F]; [|right; tauto]. destruct (Z.lt_ge_cases ibm_max (Z.abs (units f))); [right; tauto|].
    destruct (Z.lt_ge_cases (Z.abs (units f)) ibm_min); [|left; tauto]. destruct (Z.eq_dec (units f) 0); [left; tauto|].
    right. split; [exact OK|]. right. right. lia.
  - destruct (Z.lt_ge_cases ibm_max (Z.abs (n * 2 ^ 1074))); [right|left]; assumption.
Qed.
Lemma storable_not_refused t r : storable t r -> ~ refused t r.
Proof.
  destruct t; destruct r as [f|n|w]; cbn [storable refused]; try tauto.
  - intros (W & L) (_ & F & G). specialize (L F). lia.
  - lia.
  - lia.
  - intros (W & F & [U|U]) (_ & [G|[G|G]]); try tauto; try lia. rewrite U in G. assert (0 <= ibm_max) by (vm_compute; discriminate). lia.
  - lia.
Qed.

Lemma contents_length : forall ds x (bc tc : fmt) (e : endian) t trs b, segy_contents ds x bc tc e t trs b ->
  zlen b = 3200 + 400 + 3200 * zlen (ds_ext ds) + fold_right (fun tr n => 240 + sample_size t * zlen (snd tr) + n) 0 trs.
Proof.
  intros ds x bc tc e t trs b (tx & tb & bb & pbs & tbs & -> & _ & (T & _) & (B & _) & P & F). rewrite !zlen_app.
  destruct (blocks_bytes _ _ _ P) as (_ & L). rewrite T, B, L.
  enough (zlen (concat tbs) = fold_right (fun tr n => 240 + sample_size t * zlen (snd tr) + n) 0 trs) by lia.
  clear -F. induction F as [|tr tb trs tbs (hb & sb & rs & -> & (H & _) & S & _) F IH]; [reflexivity|].
  cbn [concat fold_right]. rewrite !zlen_app. lia.
Qed.
