(* Facts about files as a whole: which outcome opening them has, and concrete
   files used in examples and refutations. *)
From Coq Require Import String ZArith List Bool Sorted Permutation Lia ZifyBool ZifyNat.
From Verif Require Import Py PyFloat IbmFloat Util Catalog Packing Formats FileIO Text TextIO Float32 Toolkit Reader
  PyFacts Spec_Util Spec_Catalog CatalogFacts Spec_Ibm Spec_Packing PackFacts CompileFacts HeaderFacts PackingFacts FormatFacts
  Spec_Text TextFacts TextIOFacts ExtReadFacts Spec_Segy Float32Facts Spec_Reader ToolkitFacts ReaderFacts.
Import ListNotations.
Local Open Scope string_scope.
Open Scope list_scope.
Open Scope Z_scope.

(* ------------------------------------------------------------------ *)
(* formats *)
Lemma before_by c n m f g : class_ok c -> class_field c n = Some f -> class_field c m = Some g -> fd_offset f < fd_offset g -> before c n m.
Proof.
  intros C F G L f' g' F' G' EF EG. apply (is_field_class c f' C) in F'. apply (is_field_class c g' C) in G'. rewrite EF in F'. rewrite EG in G'.
  congruence.
Qed.
Lemma has_field_by c n f : class_ok c -> class_field c n = Some f -> has_field c n.
Proof. intros C F. apply class_field_spec in F; [|now apply class_ok_levels]. exists f. tauto. Qed.

Lemma rev1_trace_format : trace_format TraceHeaderRev1.
Proof.
  destruct (shipped_ok TraceHeaderRev1) as (C & TF & ST & OR); [cbn; tauto|].
  split; [|split; [|split; [|split; [|split; [|split]]]]].
  - split; [exact C|]. split; [exact TF|]. split; [exact ST|]. split; [now right|]. split; [reflexivity|].
    intros e. apply shipped_packer. cbn; tauto.
  - eapply has_field_by; [exact C|vm_compute; reflexivity].
  - eapply has_field_by; [exact C|vm_compute; reflexivity].
  - eapply has_field_by; [exact C|vm_compute; reflexivity].
  - eapply has_field_by; [exact C|vm_compute; reflexivity].
  - eapply has_field_by; [exact C|vm_compute; reflexivity].
  - do 10 (split; [eapply before_by; [exact C|vm_compute; reflexivity|vm_compute; reflexivity|vm_compute; reflexivity]|]).
    intros f v F E A. apply (is_field_class _ f C) in F. rewrite E in F.
    assert (ET : fd_type f = NNInt16). { vm_compute in F. injection F as <-. reflexivity. }
    rewrite ET in A. cbn in A. lia.
Qed.
Lemma rev0_format_ok : format_ok TraceHeaderRev0 240.
Proof.
  destruct (shipped_ok TraceHeaderRev0) as (C & TF & ST & OR); [cbn; tauto|].
  split; [exact C|]. split; [exact TF|]. split; [exact ST|]. split; [now right|]. split; [reflexivity|].
  intros e. apply shipped_packer. cbn; tauto.
Qed.
Lemma binary_reel_format : binary_format BinaryReelHeader.
Proof.
  destruct (shipped_ok BinaryReelHeader) as (C & TF & ST & OR); [cbn; tauto|].
  split; [|split; [|split]]; try (eapply has_field_by; [exact C|vm_compute; reflexivity]).
  split; [exact C|]. split; [exact TF|]. split; [exact ST|]. split; [now right|]. split; [reflexivity|].
  intros e. apply shipped_packer. cbn; tauto.
Qed.

(* ------------------------------------------------------------------ *)
(* the headers of a file are determined *)
Lemma reel_text_unique x d tx tx' : reel_text x d tx -> reel_text x d tx' -> tx = tx'.
Proof.
  intros (L & F & D) (L' & F' & D'). rewrite D in D'. injection D' as E. apply (concat_unique 80); auto. congruence.
Qed.
Lemma holds_get c e buf h h' n : class_ok c -> holds_buffer c e buf h -> holds_buffer c e buf h' -> has_field c n -> hdr_get h n = hdr_get h' n.
Proof.
  intros C (_ & H) (_ & H') (f & F & <-). destruct (H f F) as (v & G & _ & I & S). destruct (H' f F) as (v' & G' & _ & I' & S').
  rewrite G, G'. f_equal. unfold field_size in *. rewrite <- ctype_size_spec in *. exact (stored_unique e buf _ _ v v' I I' S S').
Qed.
Lemma holds_not_bad c e d p m h n : class_ok c -> starts_ok c -> fmt_length c = Some m -> 0 <= p -> 0 <= m -> p + m <= zlen d ->
  (exists pk, make_header_packer c e = Ok pk) ->
  holds_buffer c e (block d p m) h -> ~ bad_field_at c e d p n.
Proof.
  intros C ST LEN P M L (pk & PK) (HC & H) (f & v & F & E & A & I & S). destruct (H f F) as (w & _ & AW & IW & SW).
  assert (v = w) as ->; [|tauto].
  assert (SW' : stored_at e d (p + field_pos c f) (field_size f) w).
  { rewrite <- block_slice in SW by lia. apply (stored_of_slice e d p (p + m)) in SW; [exact SW|lia| |lia|lia]. specialize (ST f F). unfold field_pos. lia. }
  unfold field_size in *. rewrite <- ctype_size_spec in *. exact (stored_unique e d _ _ v w I IW S SW').
Qed.

Section Outcome.
Variables (x : encoding) (bc tc : fmt) (e : endian) (d : list Z).
Hypothesis S : supported x.
Hypothesis B : binary_format bc.
Hypothesis T : trace_format tc.
Hypothesis L : 3600 <= zlen d.

Lemma text_decodes tx : reel_text x d tx -> decode x (block d 0 3200) <> Err UnicodeDecodeError.
Proof. intros (_ & _ & D). rewrite D. discriminate. Qed.
Lemma binary_reads bin n : holds_buffer bc e (block d 3200 400) bin -> ~ bad_field_at bc e d 3200 n.
Proof.
  destruct B as ((C & TF & ST & OR & LEN & MK) & _). apply (holds_not_bad bc e d 3200 400 bin n C ST LEN); [lia|lia|lia|apply MK].
Qed.
Lemma reel_headers_unique tx bin ext tx' bin' ext' : reel_headers x bc e d tx bin ext -> reel_headers x bc e d tx' bin' ext' ->
  tx = tx' /\ ext = ext' /\ (forall n, has_field bc n -> hdr_get bin n = hdr_get bin' n).
Proof.
  intros (RT & H & n & G & E) (RT' & H' & n' & G' & E'). destruct B as ((C & _) & _ & FN & _).
  split; [now apply (reel_text_unique x d)|]. split; [|intros m M; now apply (holds_get bc e (block d 3200 400))].
  rewrite (holds_get _ _ _ bin bin' "num_extended_textual_headers" C H H' FN), G' in G. injection G as <-.
  pose proof (ext_outcome_unique x d n' _ _ S E E'). congruence.
Qed.
Lemma headers_ext_err tx bin ext bin' n y : reel_headers x bc e d tx bin ext -> holds_buffer bc e (block d 3200 400) bin' ->
  hdr_get bin' "num_extended_textual_headers" = Ok n -> ext_outcome x d n (Err y) -> False.
Proof.
  intros (RT & H & n' & G & E) H' G' E'. destruct B as ((C & _) & _ & FN & _).
  rewrite (holds_get _ _ _ bin bin' _ C H H' FN), G' in G. injection G as <-.
  pose proof (ext_outcome_unique x d n _ _ S E E'). discriminate.
Qed.
Lemma sample_type_transfer bin bin' t : (forall n, has_field bc n -> hdr_get bin n = hdr_get bin' n) -> sample_type bin t -> sample_type bin' t.
Proof. intros H (c & G & F). exists c. split; [|exact F]. rewrite <- H; [exact G|]. apply B. Qed.

(* a file with readable headers and a trace that cannot be read, or none *)
Lemma outcome_traces tx bin ext t r : reel_headers x bc e d tx bin ext -> sample_type bin t -> open_outcome x bc tc e d r ->
  (file_traces tc e (sample_size t) d (first_trace ext) [] -> r = Err RuntimeError) /\
  (unreadable_trace tc e (sample_size t) d (first_trace ext) -> r = Err ValueError).
Proof.
  intros H TY O.
  assert (TC : class_ok tc) by apply (proj1 T).
  assert (DN : d <> []) by (intros ->; unfold zlen in L; cbn in L; lia).
  assert (EXCL : file_traces tc e (sample_size t) d (first_trace ext) [] -> ~ unreadable_trace tc e (sample_size t) d (first_trace ext)).
  { intros (q & SC & E) (ts & q' & n & SC' & E' & BD & I). destruct (scan_unique tc e _ d _ [] q ts q' TC SC SC') as (<- & <-); [now left|right; eauto|]. lia. }
  destruct O as [D|tx' n RT BF|tx' bin' n y RT HB G EO|tx' bin' ext' RH NT|tx' bin' ext' t' y RH TY' CO|tx' bin' ext' t' v ts RH TY' FT NE GV NR|r ts t' v RH TY' FT NE GV RC _ _ _].
  - exfalso. now apply (text_decodes tx (proj1 H)).
  - exfalso. now apply (binary_reads bin n (proj1 (proj2 H))).
  - exfalso. eapply headers_ext_err; eauto.
  - exfalso. destruct (reel_headers_unique _ _ _ _ _ _ H RH) as (_ & _ & E). apply (NT t). now apply (sample_type_transfer bin bin').
  - destruct (reel_headers_unique _ _ _ _ _ _ H RH) as (_ & <- & E). assert (t' = t) as -> by (eapply sample_type_unique; [exact TY'|now apply (sample_type_transfer bin bin')]).
    split; intros FT.
    + inversion CO as [|U|F D|D]; subst; [|reflexivity|congruence]. exfalso. now apply EXCL.
    + inversion CO as [|U|F D|D]; subst; [reflexivity| |congruence]. exfalso. now apply EXCL.
  - destruct (reel_headers_unique _ _ _ _ _ _ H RH) as (_ & <- & E). assert (t' = t) as -> by (eapply sample_type_unique; [exact TY'|now apply (sample_type_transfer bin bin')]).
    destruct FT as (q & SC & QE). split; intros FT'.
    + exfalso. destruct FT' as (q' & SC' & QE'). destruct (scan_unique tc e _ d _ ts q [] q' TC SC SC') as (-> & _); auto.
    + exfalso. destruct FT' as (ts' & q' & n & SC' & QE' & BD & I). destruct (scan_unique tc e _ d _ ts q ts' q' TC SC SC') as (<- & <-); [now left|right; eauto|]. lia.
  - destruct (reel_headers_unique _ _ _ _ _ _ H RH) as (_ & EX & E). rewrite <- EX in FT. assert (t' = t) as -> by (eapply sample_type_unique; [exact TY'|now apply (sample_type_transfer bin (rd_binary r))]).
    destruct FT as (q & SC & QE). split; intros FT'.
    + exfalso. destruct FT' as (q' & SC' & QE'). destruct (scan_unique tc e _ d _ ts q [] q' TC SC SC') as (-> & _); auto.
    + exfalso. destruct FT' as (ts' & q' & n & SC' & QE' & BD & I). destruct (scan_unique tc e _ d _ ts q ts' q' TC SC SC') as (<- & <-); [now left|right; eauto|]. lia.
Qed.
End Outcome.

Lemma outcome_bad_binary x bc tc e d tx n r : binary_format bc -> 3600 <= zlen d -> reel_text x d tx -> bad_field_at bc e d 3200 n ->
  open_outcome x bc tc e d r -> r = Err ValueError.
Proof.
  intros B L RT BF O. assert (NH : forall bin, ~ holds_buffer bc e (block d 3200 400) bin).
  { intros bin H. exact (binary_reads bc e d B L bin n H BF). }
  destruct O as [D|tx' n' RT' BF'|tx' bin' m y RT' HB G EO|tx' bin' ext' RH NT|tx' bin' ext' t' y RH TY' CO|tx' bin' ext' t' v ts RH TY' FT NE GV NR|r ts t' v RH TY' FT NE GV RC _ _ _];
    try reflexivity; try (exfalso; exact (NH _ (proj1 (proj2 RH)))); try (exfalso; exact (NH _ HB)).
  exfalso. now apply (text_decodes x d tx RT).
Qed.

(* ------------------------------------------------------------------ *)
(* concrete files *)
Definition packed (c : fmt) (e : endian) (kws : list (string * Z)) : list Z :=
  match (do p <- make_header_packer c e ;; do h <- hdr_init c [] kws ;; pk_pack p h) with Ok b => b | Err _ => [] end.
Definition blank_text : list Z := repeat 32 3200.
(* 16-bit samples *)
Definition file_head (e : endian) : list Z := blank_text ++ packed BinaryReelHeader e [("data_sample_format", 3)].
Definition file_trace (e : endian) (cdp il xl : Z) (samples : list Z) : list Z :=
  packed TraceHeaderRev1 e [("ensemble_num", cdp); ("num_samples", zlen samples); ("inline_number", il); ("crossline_number", xl)] ++
  match pack_values e C_h samples with Ok b => b | Err _ => [] end.
Definition attrs : file_attrs := mk_attrs false false true.
Definition open_file (d : list Z) : res reader * world :=
  create_reader attrs (Some ASCII) BinaryReelHeader TraceHeaderRev1 (Some Big) Callable None (mk_world (mk_file d 0) []).

(* two inlines of two crosslines *)
Definition file_3d : list Z := file_head Big ++ file_trace Big 7 1 5 [10; -20; 30] ++ file_trace Big 7 1 6 [40; 50] ++
  file_trace Big 8 2 5 [] ++ file_trace Big 8 2 6 [-1].
Definition file_2d : list Z := file_head Big ++ file_trace Big 7 0 0 [10; -20; 30] ++ file_trace Big 9 0 0 [40; 50] ++ file_trace Big 8 0 0 [6].
Definition file_1d : list Z := file_head Big ++ file_trace Big 7 0 0 [10; -20; 30] ++ file_trace Big 7 0 0 [40; 50].


(* the witnesses open; the checks are computed *)
Definition opens_ok (d : list Z) : bool := match open_file d with (Ok _, _) => true | _ => false end.
Lemma opens_ok_opens d : opens_ok d = true -> exists r, opens d (Some ASCII) BinaryReelHeader TraceHeaderRev1 Big None r.
Proof.
  unfold opens_ok. destruct (open_file d) as [[r|y] w] eqn:E; [|discriminate]. intros _. exists r, attrs, Callable, [], w. exact E.
Qed.
Definition bytesb (d : list Z) : bool := forallb (fun b => (0 <=? b) && (b <? 256)) d.
Lemma bytesb_ok d : bytesb d = true -> all_bytes d.
Proof. unfold bytesb, all_bytes. rewrite forallb_forall, Forall_forall. intros H b I. specialize (H b I). lia. Qed.
Lemma readable_by d : bytesb d = true -> readable d (Some ASCII) BinaryReelHeader TraceHeaderRev1.
Proof.
  intros H. split; [now apply bytesb_ok|]. split; [apply binary_reel_format|]. split; [apply rev1_trace_format|].
  intros x [= <-]. now left.
Qed.

(* ------------------------------------------------------------------ *)
(* C55 *)
Lemma scan_first c e bps d p ts q : scan c e bps d p ts q -> forall t, trace_of ts 0 t -> t_pos t = p.
Proof. intros S t (_ & H). destruct S; cbn in H; congruence. Qed.
Lemma scan_next c e bps d p ts q : scan c e bps d p ts q -> forall k t t', trace_of ts k t -> trace_of ts (k + 1) t' ->
  t_pos t' = t_pos t + 240 + bps * t_count t.
Proof.
  induction 1 as [|t ts q s L F1 F2 F3 F4 F5 S IH]; intros k u u' (K & U) (K' & U'); [unfold zlen in K; cbn in K; lia|].
  replace (Z.to_nat (k + 1)) with (Datatypes.S (Z.to_nat k)) in U' by lia. cbn [nth_error] in U'.
  rewrite zlen_cons in K, K'. pose proof (zlen_nonneg ts).
  destruct (Z.eq_dec k 0) as [->|N].
  - cbn in U. injection U as <-. eapply scan_first; [exact S|]. split; [lia|exact U'].
  - replace (Z.to_nat k) with (Datatypes.S (Z.to_nat (k - 1))) in U by lia. cbn [nth_error] in U. apply (IH (k - 1)).
    + split; [lia|exact U].
    + split; [lia|]. replace (k - 1 + 1) with k by lia. exact U'.
Qed.
Lemma scan_last c e bps d p ts q : scan c e bps d p ts q -> forall t, trace_of ts (zlen ts - 1) t -> q = t_pos t + 240 + bps * t_count t.
Proof.
  induction 1 as [|t ts q s L F1 F2 F3 F4 F5 S IH]; intros u (K & U); [unfold zlen in K; cbn in K; lia|].
  destruct ts as [|t1 ts1].
  - cbn in U. injection U as <-. now inversion S.
  - apply IH. pose proof (zlen_nonneg ts1). unfold trace_of. rewrite (zlen_cons t) in U. rewrite (zlen_cons t1) in U |- *. split; [lia|].
    replace (Z.to_nat (1 + (1 + zlen ts1) - 1)) with (Datatypes.S (Z.to_nat (1 + zlen ts1 - 1))) in U by lia. exact U.
Qed.
Lemma trace_layout c e bps d p ts : file_traces c e bps d p ts ->
  (forall t, trace_of ts 0 t -> t_pos t = p) /\
  (forall k t t', trace_of ts k t -> trace_of ts (k + 1) t' -> t_pos t' = t_pos t + 240 + bps * t_count t) /\
  (forall k t, trace_of ts k t -> t_pos t + 240 <= zlen d /\ field_at c e d (t_pos t) "num_samples" (t_count t) /\
     field_at c e d (t_pos t) "ensemble_num" (t_cdp t) /\ field_at c e d (t_pos t) "inline_number" (t_inline t) /\
     field_at c e d (t_pos t) "crossline_number" (t_xline t)) /\
  (forall t, trace_of ts (zlen ts - 1) t -> zlen d < t_pos t + 240 + bps * t_count t + 240) /\
  (ts = [] -> zlen d < p + 240).
Proof.
  intros (q & S & E). split; [now apply (scan_first _ _ _ _ _ _ _ S)|]. split; [now apply (scan_next _ _ _ _ _ _ _ S)|]. split; [|split].
  - intros k t (_ & I). apply nth_error_In in I. clear E. induction S as [|t' ts q s L F1 F2 F3 F4 F5 S IH]; [destruct I|].
    destruct I as [<-|I]; auto.
  - intros t TR. rewrite <- (scan_last _ _ _ _ _ _ _ S t TR). exact E.
  - intros ->. inversion S; subst. exact E.
Qed.
Lemma traces_unique c e bps d p ts ts' : trace_format c -> file_traces c e bps d p ts -> file_traces c e bps d p ts' -> ts = ts'.
Proof.
  intros T (q & S & E) (q' & S' & E'). destruct (scan_unique c e bps d p ts q ts' q' (proj1 (proj1 T)) S S'); auto.
Qed.

(* ------------------------------------------------------------------ *)
(* methods, for any reader that create_reader has returned *)
Section Reading.
Variables (d : list Z) (enc : option encoding) (bc tc : fmt) (e : endian) (dim : option Z) (r : reader) (t : segytype) (ts : list tinfo).
Hypothesis RD : readable d enc bc tc.
Hypothesis OP : opens d enc bc tc e dim r.
Hypothesis TR : traces_of d tc e r t ts.

Lemma get_opened : exists x, encoding_used enc d x /\ opened x bc tc e dim d r ts t.
Proof.
  destruct (opens_opened d enc bc tc e dim r RD OP) as (x & ts' & t' & X & O). exists x. split; [exact X|].
  destruct RD as (_ & _ & T & _). destruct (traces_opened _ _ _ _ _ _ _ _ _ _ _ T O TR) as (-> & ->). exact O.
Qed.
Lemma counts_ok : rd_num_traces r = zlen ts /\ rd_trace_indexes r = map Z.of_nat (seq 0 (length ts)) /\
  (forall k tr, trace_of ts k tr -> rd_num_trace_samples r k = Ok (t_count tr)) /\
  (forall k, ~ 0 <= k < zlen ts -> rd_num_trace_samples r k = Err KeyError) /\
  exists m, rd_max_num_trace_samples r = Ok m /\ (exists tr, In tr ts /\ t_count tr = m) /\ forall tr, In tr ts -> t_count tr <= m.
Proof.
  destruct get_opened as (x & X & O). destruct RD as (HB & _ & T & _).
  split; [eapply rd_num; eauto|]. split.
  { rewrite (rd_indexes _ _ _ _ _ _ _ _ _ O). unfold upto, zlen. now rewrite Nat2Z.id. }
  split; [intros; eapply rd_count; eauto|]. split; [intros; eapply rd_count_none; eauto|]. eapply rd_max; eauto.
Qed.
Lemma samples_ok native k a b q : exists q', snd (rd_trace_samples native r k a b (mk_file d q)) = mk_file d q' /\
  samples_outcome d e t ts k a b (fst (rd_trace_samples native r k a b (mk_file d q))).
Proof.
  destruct get_opened as (x & X & O). destruct RD as (HB & _ & T & _).
  destruct (rd_samples x bc tc e dim d r ts t T HB O native k a b q) as (A & B).
  destruct (Z_le_dec 0 k) as [K1|K1]; [destruct (Z_lt_dec k (zlen ts)) as [K2|K2]|].
  2,3: (rewrite A by lia; exists q; split; [reflexivity|apply no_such_trace; lia]).
  destruct (trace_of_exists ts k (conj K1 K2)) as (tr & TR'). destruct (B tr TR') as (B1 & B2 & B3). clear A B.
  set (a' := or_else a 0) in *. set (b' := or_else b (t_count tr)) in *.
  destruct (Z_le_dec 0 a') as [C1|C1]; [destruct (Z_le_dec a' b') as [C2|C2]; [destruct (Z_le_dec b' (t_count tr)) as [C3|C3]|]|].
  2,3,4: (rewrite B1 by lia; exists q; split; [reflexivity|apply (no_such_range _ _ _ _ _ _ _ tr TR'); fold a' b'; lia]).
  destruct (Z.eq_dec a' b') as [EQ|NE]; [|destruct (Z_lt_dec (zlen d) (t_pos tr + 240 + sample_size t * b')) as [SH|SH]].
  - destruct (B3 (conj C1 C2) C3 (or_introl EQ)) as (rs & q' & R & RL & RS). rewrite R. exists q'. split; [reflexivity|].
    apply (samples_read _ _ _ _ _ _ _ tr); auto.
  - destruct (B2 (conj C1 C2) C3 ltac:(lia) SH) as (q' & R). rewrite R. exists q'. split; [reflexivity|].
    apply (samples_cut_off _ _ _ _ _ _ _ tr); fold a' b'; auto; lia.
  - assert (SH' : t_pos tr + 240 + sample_size t * b' <= zlen d) by lia.
    destruct (B3 (conj C1 C2) C3 (or_intror SH')) as (rs & q' & R & RL & RS). rewrite R. exists q'. split; [reflexivity|].
    apply (samples_read _ _ _ _ _ _ _ tr); auto.
Qed.
Lemma header_ok_read k q : exists q', snd (rd_trace_header r k None (mk_file d q)) = mk_file d q' /\
  header_outcome d e tc ts k (fst (rd_trace_header r k None (mk_file d q))).
Proof.
  destruct get_opened as (x & X & O). destruct RD as (HB & _ & T & _). destruct (rd_header x bc tc e dim d r ts t T HB O k q) as (A & B).
  destruct (Z_le_dec 0 k) as [K1|K1]; [destruct (Z_lt_dec k (zlen ts)) as [K2|K2]|].
  2,3: (rewrite A by lia; exists q; split; [reflexivity|apply no_such_header; lia]).
  destruct (trace_of_exists ts k (conj K1 K2)) as (tr & TR'). destruct (B tr TR') as [(h & q' & R & H)|(n & q' & R & H)]; rewrite R; exists q'; (split; [reflexivity|]).
  - now apply (header_read _ _ _ _ _ tr).
  - now apply (header_refused _ _ _ _ _ tr n).
Qed.
Lemma header_ok_read_as p c' e' k q : format_ok c' 240 -> make_header_packer c' e' = Ok p -> 
  exists q', snd (rd_trace_header r k (Some p) (mk_file d q)) = mk_file d q' /\
  header_outcome d e' c' ts k (fst (rd_trace_header r k (Some p) (mk_file d q))).
Proof.
  intros FO PK.
  destruct get_opened as (x & X & O). destruct RD as (HB & _ & T & _). destruct (rd_header_as x bc tc e dim d r ts t T HB O (Some p) c' e' k q FO PK) as (A & B).
  destruct (Z_le_dec 0 k) as [K1|K1]; [destruct (Z_lt_dec k (zlen ts)) as [K2|K2]|].
  2,3: (rewrite A by lia; exists q; split; [reflexivity|apply no_such_header; lia]).
  destruct (trace_of_exists ts k (conj K1 K2)) as (tr & TR'). destruct (B tr TR') as [(h & q' & R & H)|(n & q' & R & H)]; rewrite R; exists q'; (split; [reflexivity|]).
  - now apply (header_read _ _ _ _ _ tr).
  - now apply (header_refused _ _ _ _ _ tr n).
Qed.
End Reading.

(* the samples of a part of a trace are a part of its samples *)
Lemma samples_at_slice t e d pos rs a b : 0 <= a <= b -> b <= zlen rs -> samples_at t e d pos rs ->
  samples_at t e d (pos + sample_size t * a) (firstn (Z.to_nat (b - a)) (skipn (Z.to_nat a) rs)).
Proof.
  intros A B S i Hi. rewrite zlen_firstn, zlen_skipn in Hi. specialize (S (a + i) ltac:(lia)).
  replace (pos + sample_size t * a + sample_size t * i) with (pos + sample_size t * (a + i)) by lia.
  replace (nth (Z.to_nat i) (firstn (Z.to_nat (b - a)) (skipn (Z.to_nat a) rs)) (RInt 0)) with (nth (Z.to_nat (a + i)) rs (RInt 0)); [exact S|].
  rewrite nth_firstn', nth_skipn' by lia. f_equal. lia.
Qed.
Lemma samples_slice d enc bc tc e dim r native k a b q q0 all : readable d enc bc tc -> opens d enc bc tc e dim r ->
  fst (rd_trace_samples native r k None None (mk_file d q0)) = Ok all -> 0 <= a <= b -> b <= zlen all ->
  fst (rd_trace_samples native r k (Some a) (Some b) (mk_file d q)) = Ok (firstn (Z.to_nat (b - a)) (skipn (Z.to_nat a) all)).
Proof.
  intros RD OP R A B. destruct (opens_opened d enc bc tc e dim r RD OP) as (x & ts & t & X & O).
  assert (TR : traces_of d tc e r t ts) by (split; [exact (op_type _ _ _ _ _ _ _ _ _ O)|exact (op_traces _ _ _ _ _ _ _ _ _ O)]).
  destruct (samples_ok d enc bc tc e dim r t ts RD OP TR native k None None q0) as (_ & _ & SO). rewrite R in SO.
  destruct (samples_ok d enc bc tc e dim r t ts RD OP TR native k (Some a) (Some b) q) as (_ & _ & SO').
  inversion SO as [| | |tr rs TR1 C1 C2 C3 C4 C5]; subst. cbn [or_else] in *. pose proof (sample_size_pos t).
  inversion SO' as [N|tr' TR2 D1|tr' TR2 D1 D2 D3|tr' rs TR2 D1 D2 D3 D4 D5]; cbn [or_else] in *.
  - exfalso. apply N, TR1.
  - rewrite (trace_of_unique ts k tr' tr TR2 TR1) in *. lia.
  - rewrite (trace_of_unique ts k tr' tr TR2 TR1) in *. nia.
  - rewrite (trace_of_unique ts k tr' tr TR2 TR1) in *. f_equal. apply (samples_unique t e d (t_pos tr + 240 + sample_size t * a)).
    + rewrite zlen_firstn, zlen_skipn. lia.
    + exact D5.
    + apply samples_at_slice; [lia|lia|]. replace (t_pos tr + 240 + sample_size t * 0) with (t_pos tr + 240) in C5 by lia. exact C5.
Qed.

(* ------------------------------------------------------------------ *)
(* custom trace header formats *)
Definition base_checks (c : fmt) : bool :=
  forallb (fun l => nodupb (map fd_name (snd l))) (fmt_levels c) &&
  forallb (fun f => acceptsb (fd_type f) (fd_default f)) (class_fields c) &&
  nodupb (map ft_name (class_types c)) && forallb fitsb (class_types c) &&
  forallb (fun f => fmt_start c <=? fd_offset f) (class_fields c).
Lemma base_checks_ok c : base_checks c = true -> class_ok c /\ types_fit c /\ starts_ok c.
Proof.
  unfold base_checks. rewrite !andb_true_iff. intros ((((A & B) & C) & D) & E).
  assert (K : levels_ok c).
  { intros l Hl. rewrite forallb_forall in A. apply nodupb_NoDup. now apply A. }
  assert (FI : forall f, is_field c f -> In f (class_fields c)) by (intros; now apply class_fields_In).
  rewrite forallb_forall in B, D, E. split; [|split].
  - split; [exact K|]. split.
    + intros f Hf. apply acceptsb_spec. apply B. auto.
    + intros f g Hf Hg N. apply nodupb_NoDup in C. apply (NoDup_map_inj ft_name (class_types c)); auto using class_types_In.
  - intros f v Hf. apply fitsb_spec. apply D. auto using class_types_In.
  - intros f Hf. specialize (E f (FI f Hf)). lia.
Qed.

(* class Name(TraceHeaderRev1): with some fields *)
Definition sub_class (name : string) (fs : list fieldd) : fmt :=
  mk_fmt (fmt_levels TraceHeaderRev1 ++ [(name, fs)]) (fmt_start TraceHeaderRev1) (fmt_length TraceHeaderRev1) (fmt_attrs TraceHeaderRev1).

(* a signed number of samples *)
Definition signed_count : fmt := sub_class "SignedCount" [mk_field "num_samples" Int16 115 0].
(* one header with -60 samples *)
Definition stuck_file : list Z := repeat 0 114 ++ [255; 196] ++ repeat 0 124.
(* the name of an overridden field is listed twice *)
Lemma overridden_coincident c ls name f : class_ok c -> fmt_levels c = ls ++ [(name, [f])] ->
  In (fd_name f) (flat_map (fun l => map fd_name (snd l)) ls) -> has_coincident c.
Proof.
  intros C E I. apply in_split in I. destruct I as (a & b & EA).
  assert (F : is_field c f). { exists ls, (name, [f]), []. split; [exact E|]. split; [now left|]. intros l' g []. }
  exists a, (fd_name f), b, (fd_name f), [], f, f. rewrite E, flat_map_app, EA. cbn. rewrite <- app_assoc. auto 10.
Qed.
Lemma sub_class_ok name f : base_checks (sub_class name [f]) = true -> In (fd_name f) (ordered_field_names TraceHeaderRev1) ->
  (forall e, exists p, make_header_packer (sub_class name [f]) e = Ok p) -> format_ok (sub_class name [f]) 240.
Proof.
  intros B I MK. destruct (base_checks_ok _ B) as (C & TF & ST). split; [exact C|]. split; [exact TF|]. split; [exact ST|]. split; [|now split].
  left. apply (overridden_coincident _ (fmt_levels TraceHeaderRev1) name f C); [reflexivity|exact I].
Qed.
Lemma signed_count_ok : format_ok signed_count 240.
Proof.
  apply sub_class_ok; [vm_compute; reflexivity|apply smem_In; vm_compute; reflexivity|].
  intros [|]; eexists; vm_compute; reflexivity.
Qed.

Lemma stuck_loop p : (exists h, pk_unpack p stuck_file = Ok h /\ hdr_get h "num_samples" = Ok (-60) /\ hdr_get h "inline_number" = Ok 0 /\
    hdr_get h "crossline_number" = Ok 0 /\ hdr_get h "ensemble_num" = Ok 0) ->
  forall fuel k b q log, fst (catalog_loop fuel p 4 (zlen stuck_file) k 0 b (mk_world (mk_file stuck_file q) log)) = Err OutOfFuel.
Proof.
  intros (h & U & N & I & X & E). induction fuel as [|fuel IH]; intros k b q log; [reflexivity|]. cbn [catalog_loop].
  rewrite report_ok by (vm_compute; discriminate). cbn [w_file w_log].
  erewrite wbind_ok by (apply on_file_ok, seek_ok; lia). cbn [f_data].
  erewrite wbind_ok by (apply on_file_ok; reflexivity). cbn [f_data f_pos].
  change (py_slice stuck_file 0 (0 + TRACE_HEADER_NUM_BYTES)) with stuck_file.
  change (zlen stuck_file <? TRACE_HEADER_NUM_BYTES) with false. cbv iota.
  rewrite U, on_lift_ok, N, on_lift_ok, I, on_lift_ok, X, on_lift_ok, E, on_lift_ok.
  change (0 + TRACE_HEADER_NUM_BYTES + -60 * 4) with 0. apply IH.
Qed.
Lemma stuck fuel log : fst (catalog_traces_fuel fuel 4 signed_count Big (mk_world (mk_file stuck_file 0) log)) = Err OutOfFuel.
Proof.
  unfold catalog_traces_fuel.
  destruct (sub_format "CatalogSubFormat" signed_count catalog_field_names) as [sub|y] eqn:ES; [|exfalso; vm_compute in ES; discriminate].
  rewrite on_lift_ok. destruct (make_header_packer sub Big) as [p|y] eqn:EP.
  2:{ exfalso. assert (A : (do sub <- sub_format "CatalogSubFormat" signed_count catalog_field_names ;; make_header_packer sub Big) = Err y)
        by (rewrite ES; exact EP). vm_compute in A. discriminate. }
  rewrite on_lift_ok. erewrite wbind_ok by (apply on_file_ok, file_length_ok; cbn; lia).
  erewrite wbind_ok by (apply on_file_ok; reflexivity). cbn [f_pos f_data].
  unfold wbind at 1. match goal with |- fst (match ?m with _ => _ end) = _ => assert (H : fst m = Err OutOfFuel); [|destruct m as [[a|y] w]; cbn [fst] in H |- *; [discriminate|injection H as ->; reflexivity]] end.
  apply stuck_loop.
  assert (A : exists h, (do sub <- sub_format "CatalogSubFormat" signed_count catalog_field_names ;; do p <- make_header_packer sub Big ;; pk_unpack p stuck_file) = Ok h /\
    hdr_get h "num_samples" = Ok (-60) /\ hdr_get h "inline_number" = Ok 0 /\ hdr_get h "crossline_number" = Ok 0 /\ hdr_get h "ensemble_num" = Ok 0).
  { eexists. split; [vm_compute; reflexivity|]. vm_compute. auto. }
  rewrite ES in A. cbn [bind] in A. rewrite EP in A. exact A.
Qed.

(* the inline number moved to byte 9 *)
Definition moved_inline : fmt := sub_class "MovedInline" [mk_field "inline_number" Int32 9 0].
Lemma moved_inline_ok : format_ok moved_inline 240.
Proof.
  apply sub_class_ok; [vm_compute; reflexivity|apply smem_In; vm_compute; reflexivity|].
  intros [|]; eexists; vm_compute; reflexivity.
Qed.
Definition moved_trace (il xl : Z) : list Z := packed moved_inline Big [("field_record_num", il); ("inline_number", il); ("crossline_number", xl)].
Definition moved_file : list Z := file_head Big ++ moved_trace 1 5 ++ moved_trace 2 5.
Definition open_moved : res reader * world :=
  create_reader attrs (Some ASCII) BinaryReelHeader moved_inline (Some Big) Callable None (mk_world (mk_file moved_file 0) []).
(* the (inline, crossline) pairs of the trace headers *)
Definition header_pair (r : reader) (d : list Z) (k : Z) : res (Z * Z) :=
  do h <- fst (rd_trace_header r k None (mk_file d 0)) ;;
  do i <- hdr_get h "inline_number" ;; do j <- hdr_get h "crossline_number" ;; Ok (i, j).
Lemma moved_misread : exists r w, open_moved = (Ok r, w) /\ rd_num_traces r = 2 /\
  header_pair r moved_file 0 = Ok (1, 5) /\ header_pair r moved_file 1 = Ok (2, 5) /\ rd_dimensionality r = 2 /\
  rd_trace_index3 r (1, 5) = Err AttributeError.
Proof.
  assert (E : match open_moved with
    | (Ok r, _) => Some (rd_num_traces r, header_pair r moved_file 0, header_pair r moved_file 1, rd_dimensionality r, rd_trace_index3 r (1, 5))
    | _ => None end = Some (2, Ok (1, 5), Ok (2, 5), 2, Err AttributeError)) by (vm_compute; reflexivity).
  destruct open_moved as [[r|y] w]; [|discriminate]. exists r, w. split; [reflexivity|]. injection E as E1 E2 E3 E4 E5. auto.
Qed.

(* ------------------------------------------------------------------ *)
(* revision codes *)
Lemma has_field_revision_field : exists f, is_field BinaryReelHeader f /\ fd_name f = "format_revision_num" /\ field_pos BinaryReelHeader f = 300 /\
  field_size f = 2 /\ ft_ctype (fd_type f) = C_h /\ forall v, accepts (fd_type f) v <-> v = 0 \/ v = 256.
Proof.
  destruct (shipped_ok BinaryReelHeader) as (C & _); [cbn; tauto|].
  destruct (class_field BinaryReelHeader "format_revision_num") as [f|] eqn:E; [|vm_compute in E; discriminate].
  exists f. assert (E' := E). apply class_field_spec in E; [|now apply class_ok_levels]. destruct E as (F & N).
  split; [exact F|]. split; [exact N|]. vm_compute in E'. injection E' as <-. split; [reflexivity|]. split; [reflexivity|]. split; [reflexivity|].
  intros v. cbn. intuition lia.
Qed.
Lemma common_codes_refused e d v : 3600 <= zlen d -> - 2 ^ 15 <= v < 2 ^ 15 -> v <> 0 -> v <> 256 -> stored_at e d 3500 2 v ->
  bad_field_at BinaryReelHeader e d 3200 "format_revision_num".
Proof.
  intros L R N0 N1 S. destruct has_field_revision_field as (f & F & N & P & SZ & CT & A). exists f, v.
  split; [exact F|]. split; [exact N|]. split; [rewrite A; tauto|]. split; [rewrite CT; exact R|]. now rewrite P, SZ.
Qed.
Lemma open_revision a enc tc e pr dim d log x tx v : readable d enc BinaryReelHeader tc -> attrs_ok a -> 3600 <= zlen d -> pr <> NotCallable ->
  (forall k, dim = Some k -> In k [1; 2; 3]) -> encoding_used enc d x -> reel_text x d tx ->
  - 2 ^ 15 <= v < 2 ^ 15 -> v <> 0 -> v <> 256 -> stored_at e d 3500 2 v ->
  fst (create_reader a enc BinaryReelHeader tc (Some e) pr dim (mk_world (mk_file d 0) log)) = Err ValueError.
Proof.
  intros RD A L P D X RT R N0 N1 S.
  destruct (create_reader_total a enc BinaryReelHeader tc e pr dim d log x RD A L P D X) as (r & q & log' & E & O & _). rewrite E. cbn [fst].
  eapply outcome_bad_binary; [apply RD|exact L|exact RT|eapply common_codes_refused; eassumption|exact O].
Qed.
Lemma opens_length d enc bc tc e dim r : opens d enc bc tc e dim r -> 3600 <= zlen d.
Proof.
  intros (a & pr & log & w & E). destruct (checks_cases a (Some e) pr dim (mk_file d 0) log ltac:(cbn; lia)) as [(_ & _ & _ & L & _)|(y & E')]; [exact L|].
  unfold create_reader in E. erewrite wbind_err in E by exact E'. discriminate.
Qed.
Lemma opened_revision d enc tc e dim r : readable d enc BinaryReelHeader tc -> opens d enc BinaryReelHeader tc e dim r ->
  exists v, hdr_get (rd_binary r) "format_revision_num" = Ok v /\ stored_at e d 3500 2 v /\ (v = 0 /\ rd_revision r = 0 \/ v = 256 /\ rd_revision r = 256).
Proof.
  intros RD OP. assert (L := opens_length _ _ _ _ _ _ _ OP). destruct (opens_opened d enc BinaryReelHeader tc e dim r RD OP) as (x & ts & t & X & O).
  destruct (op_revision _ _ _ _ _ _ _ _ _ O) as (v & G & RC). exists v. split; [exact G|].
  destruct (op_headers _ _ _ _ _ _ _ _ _ O) as (_ & (_ & H) & _).
  destruct has_field_revision_field as (f & F & N & P & SZ & CT & A). destruct (H f F) as (w & G' & AC & _ & S).
  rewrite N, G in G'. injection G' as <-. split.
  - rewrite P, SZ in S. rewrite <- block_slice in S by lia. apply (stored_of_slice e d 3200 (3200 + 400)) in S; [exact S|lia|lia|lia|lia].
  - apply A in AC. destruct AC as [-> | ->].
    + left. split; [reflexivity|]. destruct RC as [RC|[RC|[RC|[RC|[]]]]]; congruence.
    + right. split; [reflexivity|]. destruct RC as [RC|[RC|[RC|[RC|[]]]]]; congruence.
Qed.

(* ------------------------------------------------------------------ *)
(* progress *)
Lemma open_log a enc bc tc e pr dim d log r w : readable d enc bc tc ->
  create_reader a enc bc tc (Some e) pr dim (mk_world (mk_file d 0) log) = (Ok r, w) ->
  exists t ts q, traces_of d tc e r t ts /\ scan tc e (sample_size t) d (first_trace (rd_ext r)) ts q /\
    w_log w = log ++ map (fun p => (3 * p, 4 * zlen d)) (map t_pos ts ++ [q]) ++ [(3, 4); (15, 16); (9, 8); (21, 16); (1, 1); (1, 1)].
Proof.
  intros RD E. destruct (encoding_exists enc d) as (x & X).
  destruct (checks_cases a (Some e) pr dim (mk_file d 0) log ltac:(cbn; lia)) as [(e' & [= <-] & A & L & P & D)|(y & E')].
  - cbn [f_data] in L. destruct (create_reader_total a enc bc tc e pr dim d log x RD A L P D X) as (r' & q & log' & R & _ & K).
    rewrite E in R. injection R as <- ->. destruct (K r eq_refl) as (ts & t & p & OP & SC & PE & ->). exists t, ts, p.
    split; [split; [apply OP|apply OP]|]. split; [exact SC|]. cbn [w_log]. f_equal. unfold scan_log, marks, finished. now rewrite <- app_assoc.
  - unfold create_reader in E. erewrite wbind_err in E by exact E'. discriminate.
Qed.
Lemma bad_progress l m : In (9, 8) l -> ~ progress_ok (l ++ m).
Proof. intros I (F & _). apply Forall_app in F. destruct F as (F & _). rewrite Forall_forall in F. apply F in I. cbn in I. lia. Qed.
Lemma open_progress a enc bc tc e pr dim d r w : readable d enc bc tc ->
  create_reader a enc bc tc (Some e) pr dim (mk_world (mk_file d 0) []) = (Ok r, w) ->
  ~ progress_ok (w_log w) /\ In (9, 8) (w_log w) /\ In (21, 16) (w_log w) /\ exists l, w_log w = l ++ [(1, 1)].
Proof.
  intros RD E. destruct (open_log _ _ _ _ _ _ _ _ _ _ _ RD E) as (t & ts & q & _ & _ & ->). cbn [app]. split; [|split; [|split]].
  - rewrite <- (app_nil_r (map _ _ ++ _)). apply bad_progress. apply in_or_app. right. cbn. tauto.
  - apply in_or_app. right. cbn. tauto.
  - apply in_or_app. right. cbn. tauto.
  - eexists. change [(3, 4); (15, 16); (9, 8); (21, 16); (1, 1); (1, 1)] with ([(3, 4); (15, 16); (9, 8); (21, 16); (1, 1)] ++ [(1, 1)]).
    now rewrite app_assoc.
Qed.

(* ------------------------------------------------------------------ *)
(* no traces *)
Lemma open_no_traces a enc bc tc e pr dim d log x tx bin ext t : readable d enc bc tc -> attrs_ok a -> 3600 <= zlen d -> pr <> NotCallable ->
  (forall k, dim = Some k -> In k [1; 2; 3]) -> encoding_used enc d x -> reel_headers x bc e d tx bin ext -> sample_type bin t ->
  zlen d < first_trace ext + 240 ->
  fst (create_reader a enc bc tc (Some e) pr dim (mk_world (mk_file d 0) log)) = Err RuntimeError.
Proof.
  intros RD A L P D X RH TY SH.
  destruct (create_reader_total a enc bc tc e pr dim d log x RD A L P D X) as (r & q & log' & E & O & _). rewrite E. cbn [fst].
  assert (S : supported x) by (eapply guessed_supported; [apply RD|exact X]). destruct RD as (_ & B & T & _).
  destruct (outcome_traces x bc tc e d S B T L tx bin ext t r RH TY O) as (H & _). apply H. exists (first_trace ext). split; [constructor|exact SH].
Qed.

(* ------------------------------------------------------------------ *)
(* the order of the checks *)
Lemma checks_order a enc bc tc eo pr dim f log : 0 <= f_pos f ->
  let outcome := create_reader a enc bc tc eo pr dim (mk_world f log) in
  let raises x := outcome = (Err x, mk_world f log) in
  (fa_closed a = true -> raises ValueError) /\
  (fa_closed a = false -> fa_text a = true -> raises TypeError) /\
  (fa_closed a = false -> fa_text a = false -> fa_seekable a = false -> raises TypeError) /\
  (attrs_ok a -> zlen (f_data f) < 3600 -> raises ValueError) /\
  (attrs_ok a -> 3600 <= zlen (f_data f) -> eo = None -> raises ValueError) /\
  (attrs_ok a -> 3600 <= zlen (f_data f) -> eo <> None -> pr = NotCallable -> raises TypeError) /\
  (attrs_ok a -> 3600 <= zlen (f_data f) -> eo <> None -> pr <> NotCallable ->
     forall k, dim = Some k -> ~ In k [1; 2; 3] -> raises ValueError).
Proof.
  intros P outcome raises. unfold raises, outcome, create_reader, create_reader_checks, attrs_ok. clear raises outcome.
  assert (FL : forall k : Z -> wio endian, wbind (on_file file_length) k (mk_world f log) = k (zlen (f_data f)) (mk_world f log))
    by (intros k; erewrite wbind_ok; [reflexivity|apply on_file_ok, file_length_ok; exact P]).
  split; [|split; [|split; [|split; [|split; [|split]]]]].
  - intros ->. reflexivity.
  - intros -> ->. reflexivity.
  - intros -> -> ->. reflexivity.
  - intros (-> & -> & ->) H. cbn [negb]. erewrite wbind_err; [reflexivity|]. rewrite FL. change REEL_HEADER_NUM_BYTES with 3600.
    replace (zlen (f_data f) <? 3600) with true by lia. reflexivity.
  - intros (-> & -> & ->) H ->. cbn [negb]. erewrite wbind_err; [reflexivity|]. rewrite FL. change REEL_HEADER_NUM_BYTES with 3600.
    replace (zlen (f_data f) <? 3600) with false by lia. reflexivity.
  - intros (-> & -> & ->) H N ->. cbn [negb]. erewrite wbind_err; [reflexivity|]. rewrite FL. change REEL_HEADER_NUM_BYTES with 3600.
    replace (zlen (f_data f) <? 3600) with false by lia. destruct eo; [reflexivity|congruence].
  - intros (-> & -> & ->) H N NP k -> NI. cbn [negb]. erewrite wbind_err; [reflexivity|]. rewrite FL. change REEL_HEADER_NUM_BYTES with 3600.
    replace (zlen (f_data f) <? 3600) with false by lia. destruct eo; [|congruence].
    assert (Z : zmem k [1; 2; 3] = false) by (destruct (zmem k [1; 2; 3]) eqn:E; [apply zmem123 in E; tauto|reflexivity]).
    rewrite Z. destruct pr; [reflexivity|reflexivity|congruence].
Qed.

(* a header whose unchecked fields are unacceptable *)
Definition zero_header_file : list Z := file_head Big ++ repeat 0 240.
Lemma zero_header_eof : exists d r w, open_file d = (Ok r, w) /\ rd_num_traces r = 1 /\ zlen d = 3600 + 240 /\
  fst (rd_trace_header r 0 None (mk_file d 0)) = Err EOFError.
Proof.
  exists zero_header_file. assert (E : match open_file zero_header_file with
    | (Ok r, _) => Some (rd_num_traces r, match fst (rd_trace_header r 0 None (mk_file zero_header_file 0)) with Err EOFError => true | _ => false end)
    | _ => None end = Some (1, true)) by (vm_compute; reflexivity).
  destruct (open_file zero_header_file) as [[r|y] w]; [|discriminate]. exists r, w. injection E as E1 E2. split; [reflexivity|]. split; [exact E1|].
  split; [vm_compute; reflexivity|].
  destruct (fst (rd_trace_header r 0 None (mk_file zero_header_file 0))) as [h|y]; [discriminate|]. destruct y; try discriminate. reflexivity.
Qed.
Lemma header_eof d enc bc tc e dim r t ts k q : readable d enc bc tc -> opens d enc bc tc e dim r -> traces_of d tc e r t ts ->
  fst (rd_trace_header r k None (mk_file d q)) = Err EOFError ->
  exists tr n, trace_of ts k tr /\ t_pos tr + 240 <= zlen d /\ bad_field_at tc e d (t_pos tr) n.
Proof.
  intros RD OP TR E. destruct (header_ok_read d enc bc tc e dim r t ts RD OP TR k q) as (q' & _ & H). rewrite E in H.
  inversion H as [|tr n T B|]; subst. exists tr, n. split; [exact T|]. split; [|exact B].
  destruct TR as (_ & F). apply trace_layout in F. destruct F as (_ & _ & F & _). now apply (F k tr).
Qed.
Lemma scan_terminates bps c e pr d pos log : trace_format c -> all_bytes d -> 0 <= bps -> 0 <= pos -> pr <> NotCallable ->
  fst (catalog_traces bps c e pr (mk_world (mk_file d pos) log)) <> Err OutOfFuel.
Proof.
  intros T B H P N. destruct (catalog_traces_spec bps c e pr d pos log T B H P N) as (r & q & l & E & O & _). rewrite E. cbn [fst].
  intros ->. inversion O.
Qed.
Lemma opens_ok_open d : opens_ok d = true -> exists r w, open_file d = (Ok r, w).
Proof. unfold opens_ok. destruct (open_file d) as [[r|y] w]; [eauto|discriminate]. Qed.
Lemma rev0_refused : readable file_3d (Some ASCII) BinaryReelHeader TraceHeaderRev1 /\ (exists r w, open_file file_3d = (Ok r, w)) /\
  fst (create_reader attrs (Some ASCII) BinaryReelHeader TraceHeaderRev0 (Some Big) Callable None (mk_world (mk_file file_3d 0) [])) = Err AttributeError.
Proof.
  split; [apply readable_by; vm_compute; reflexivity|]. split; [|vm_compute; reflexivity].
  apply opens_ok_open. vm_compute. reflexivity.
Qed.
