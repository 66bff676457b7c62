(* Proofs about the bytes that answers depend on. *)
From Coq Require Import String ZArith List Bool Lia ZifyBool ZifyNat.
From Verif Require Import Py PyFloat IbmFloat Util Catalog Packing Formats FileIO Text TextIO Float32 Toolkit Reader
  PyFacts Spec_Util Spec_Catalog CatalogFacts Spec_Ibm Spec_Packing PackFacts CompileFacts HeaderFacts PackingFacts FormatFacts
  Spec_Text TextFacts TextIOFacts ExtReadFacts Spec_Segy Float32Facts Spec_Reader ToolkitFacts ReaderFacts OpenFacts Spec_Writer WriterFacts CutFacts Spec_Local.
Import ListNotations.
Local Open Scope string_scope.
Open Scope list_scope.
Open Scope Z_scope.

Lemma same_sub d d' lo hi a b : same_bytes d d' lo hi -> lo <= a -> b <= hi -> same_bytes d d' a b.
Proof. intros H A B i I. apply H. lia. Qed.

Lemma same_slice d d' a b : 0 <= a -> zlen d' = zlen d -> same_bytes d d' a (Z.min b (zlen d)) -> py_slice d' a b = py_slice d a b.
Proof.
  intros A L H. destruct (Z_le_dec a b) as [AB|AB].
  - apply byte_ext; rewrite !zlen_py_slice by lia; rewrite L; [reflexivity|]. intros i I. rewrite !byte_at_slice by lia. apply H. lia.
  - unfold py_slice. replace (Z.to_nat (b - a)) with 0%nat by lia. reflexivity.
Qed.
Lemma same_block d d' a n : 0 <= a -> 0 <= n -> zlen d' = zlen d -> same_bytes d d' a (a + n) -> block d' a n = block d a n.
Proof. intros A N L H. rewrite <- !block_slice by assumption. apply same_slice; auto. apply (same_sub _ _ _ _ _ _ H); lia. Qed.

Lemma stored_same e d d' pos size v : zlen d' = zlen d -> same_bytes d d' pos (pos + size) -> stored_at e d pos size v -> stored_at e d' pos size v.
Proof.
  intros L H (P & B & S). split; [exact P|]. split; [lia|]. intros k K. rewrite <- (S k K). apply H. destruct e; lia.
Qed.
Definition same_five (c : fmt) (pos : Z) (d d' : list Z) : Prop := forall f, is_field c f -> In (fd_name f) catalog_names ->
  same_bytes d d' (pos + field_pos c f) (pos + field_pos c f + field_size f).
Lemma field_same c e d d' pos n v : zlen d' = zlen d -> same_five c pos d d' -> In n catalog_names ->
  field_at c e d pos n v -> field_at c e d' pos n v.
Proof.
  intros L H N (f & F & E & A & I & S). exists f. repeat (split; [assumption|]). apply (stored_same e d); [exact L| |exact S].
  apply H; [exact F|]. now rewrite E.
Qed.

Definition same_headers (c : fmt) (ts : list tinfo) (d d' : list Z) : Prop := forall tr, In tr ts -> same_five c (t_pos tr) d d'.

Lemma scan_same c e bps d d' p ts q : zlen d' = zlen d -> same_headers c ts d d' ->
  scan c e bps d p ts q -> scan c e bps d' p ts q.
Proof.
  intros L H S. induction S as [p|t ts q s B F1 F2 F3 F4 F5 S IH]; [constructor|].
  assert (K : same_five c (t_pos t) d d') by (apply H; now left).
  apply (scan_trace c e bps d' t ts q s); [lia| | | | | |].
  1-5: eapply field_same; [exact L|exact K|unfold catalog_names; cbn; tauto|eassumption].
  apply IH. intros tr I. apply H. now right.
Qed.

(* where the traces end is determined by the traces *)
Lemma scan_ends c e bps d d' p ts q q' : scan c e bps d p ts q -> scan c e bps d' p ts q' -> q = q'.
Proof.
  intros S. revert q'. induction S as [p|t ts q s L F1 F2 F3 F4 F5 S IH]; intros q' S'; inversion S'; subst; auto.
Qed.
Lemma marks_same d d' ts q : zlen d' = zlen d -> marks d' ts q = marks d ts q.
Proof. intros L. unfold marks. now rewrite L. Qed.

(* the catalogs *)
Lemma loop_same c e bps p d d' : trace_format c -> all_bytes d -> all_bytes d' -> 0 <= bps -> zlen d' = zlen d -> d <> [] ->
  (forall buf, all_bytes buf -> zlen buf = 240 ->
    (exists h, pk_unpack p buf = Ok h /\ forall n, In n catalog_names -> exists v, hdr_get h n = Ok v /\ field_at c e buf 0 n v) \/
    (pk_unpack p buf = Err ValueError /\ exists n, In n catalog_names /\ bad_field_at c e buf 0 n)) ->
  forall fuel pos b x x' log out w, 0 <= pos -> zlen d < pos + 240 * Z.of_nat fuel -> (1 <= fuel)%nat ->
  (forall ts, file_traces c e bps d pos ts -> file_traces c e bps d' pos ts) ->
  catalog_loop fuel p bps (zlen d) 0 pos b (mk_world (mk_file d x) log) = (Ok out, w) ->
  exists y, catalog_loop fuel p bps (zlen d') 0 pos b (mk_world (mk_file d' x') log) = (Ok out, mk_world (mk_file d' y) (w_log w)).
Proof.
  intros T HB HB' Hb L ND HP fuel pos b x x' log out w P F N SH R.
  destruct (catalog_loop_spec c e bps d p T HB Hb HP fuel ND 0 pos b x log P F N) as (ts & q & y & SC & _ & [(Q & E)|(_ & _ & E)]);
    rewrite E in R; [|discriminate]. injection R as <- <-.
  assert (ND' : d' <> []).
  { intros ->. destruct d; [congruence|]. rewrite zlen_cons in L. change (zlen (@nil Z)) with 0 in L. pose proof (zlen_nonneg d). lia. }
  assert (FT' : file_traces c e bps d' pos ts) by (apply SH; now exists q). destruct FT' as (q0 & SC' & Q0).
  destruct (catalog_loop_spec c e bps d' p T HB' Hb HP fuel ND' 0 pos b x' log P ltac:(lia) N) as (ts' & q' & y' & SC2 & _ & D).
  assert (U : ts = ts' /\ q0 = q').
  { apply (ToolkitFacts.scan_unique c e bps d' pos ts q0 ts' q' (proj1 (proj1 T)) SC' SC2); [left; lia|].
    destruct D as [(Q' & _)|(_ & (n & I & B) & _)]; [left; lia|right; eauto]. }
  destruct U as (<- & <-). destruct D as [(_ & E')|(Q' & _)]; [|lia]. exists y'. rewrite E'. cbn [w_log].
  rewrite (scan_ends c e bps d d' pos ts q q0 SC SC'). now rewrite (marks_same d d').
Qed.

Lemma catalog_same bps c e d d' pos log cs w : trace_format c -> all_bytes d -> all_bytes d' -> 0 <= bps -> 0 <= pos -> zlen d' = zlen d ->
  (forall ts, file_traces c e bps d pos ts -> file_traces c e bps d' pos ts) ->
  catalog_traces bps c e Callable (mk_world (mk_file d pos) log) = (Ok cs, w) ->
  exists y, catalog_traces bps c e Callable (mk_world (mk_file d' pos) log) = (Ok cs, mk_world (mk_file d' y) (w_log w)).
Proof.
  intros T HB HB' Hb Hp L SH R. destruct (catalog_packer c e T) as (sub & p & SF & MP & HP).
  cbn [catalog_traces w_file f_data] in R |- *. replace (length d') with (length d) by (unfold zlen in L; lia).
  unfold catalog_traces_fuel in R |- *. rewrite SF, on_lift_ok, MP, on_lift_ok in R. rewrite SF, on_lift_ok, MP, on_lift_ok.
  erewrite wbind_ok in R by (apply on_file_ok, file_length_ok; exact Hp).
  erewrite wbind_ok by (apply on_file_ok, file_length_ok; exact Hp).
  erewrite wbind_ok in R by (apply on_file_ok; reflexivity). erewrite wbind_ok by (apply on_file_ok; reflexivity). cbn [f_pos f_data] in R |- *.
  apply wbind_inv in R. destruct R as (b & w1 & R1 & R).
  destruct d as [|d0 dr] eqn:ED; [discriminate R1|]. rewrite <- ED in *. assert (ND : d <> []) by (rewrite ED; discriminate). clear ED.
  destruct (loop_same c e bps p d d' T HB HB' Hb L ND HP (Datatypes.S (Datatypes.S (length d))) pos _ pos pos log b w1 Hp ltac:(unfold zlen; lia) ltac:(lia) SH R1) as (y & E).
  erewrite wbind_ok by exact E. clear E R1. exists y. destruct w1 as [f1 log1]. cbn [w_log].
  rewrite report_ok in R by lia. rewrite report_ok by lia. cbn [w_log w_file] in R |- *.
  destruct (fst (create1 (b_offsets b))) as [o|]; [|discriminate R]. rewrite on_lift_ok, report_ok in R by lia. rewrite on_lift_ok, report_ok by lia. cbn [w_log w_file] in R |- *.
  destruct (fst (create1 (b_lengths b))) as [l|]; [|discriminate R]. rewrite on_lift_ok, report_ok in R by lia. rewrite on_lift_ok, report_ok by lia. cbn [w_log w_file] in R |- *.
  destruct (fst (create1 (b_cdps b))) as [cd|]; [|discriminate R]. rewrite on_lift_ok, report_ok in R by lia. rewrite on_lift_ok, report_ok by lia. cbn [w_log w_file] in R |- *.
  destruct (fst (create2 (b_lines b))) as [li|]; [|discriminate R]. rewrite on_lift_ok, report_ok in R by lia. rewrite on_lift_ok, report_ok by lia. cbn [w_log w_file] in R |- *.
  unfold wret in R |- *. injection R as <- <-. reflexivity.
Qed.

(* the headers before the traces *)
Lemma ibind_lifted {A B} (r : res A) (k : A -> io B) f : ibind (lift r) k f = match r with Ok a => k a f | Err y => (Err y, f) end.
Proof. reflexivity. Qed.
Lemma text_same x d d' : supported x -> 3200 <= zlen d -> zlen d' = zlen d -> same_bytes d d' 0 3200 ->
  forall tx f, read_textual_reel_header x (mk_file d 0) = (Ok tx, f) -> f = mk_file d 3200 /\ read_textual_reel_header x (mk_file d' 0) = (Ok tx, mk_file d' 3200).
Proof.
  intros S L E H tx f R. assert (B : block d' 0 3200 = block d 0 3200) by (apply same_block; [lia|lia|exact E|exact H]).
  split.
  - destruct (read_text_at x d S L) as [(_ & q & R')|(tx' & _ & R')]; rewrite R' in R; [discriminate|]. congruence.
  - revert R. unfold read_textual_reel_header, ibind, read. cbn [f_data f_pos]. change TEXTUAL_HEADER_NUM_BYTES with 3200.
    rewrite !block_slice by lia. rewrite B.
    assert (LB : zlen (block d 0 3200) = 3200) by (unfold block; rewrite zlen_firstn, zlen_skipn; lia).
    rewrite LB, Z.ltb_irrefl. unfold lift. destruct (batched _ _ _) as [bs|]; [|discriminate]. cbn [bind].
    destruct (map_res _ bs); [|discriminate]. intros R. injection R as <- _. reflexivity.
Qed.
Lemma binary_same bc e d d' : binary_format bc -> 3600 <= zlen d -> zlen d' = zlen d -> same_bytes d d' 3200 3600 ->
  forall bin f, read_binary_reel_header bc e (mk_file d 3200) = (Ok bin, f) -> f = mk_file d 3600 /\ read_binary_reel_header bc e (mk_file d' 3200) = (Ok bin, mk_file d' 3600).
Proof.
  intros ((C & TF & ST & OR & LEN & MK) & _) L E H bin f. destruct (MK e) as (p & P). unfold read_binary_reel_header.
  assert (B : block d' 3200 400 = block d 3200 400) by (apply same_block; [lia|lia|exact E|exact H]).
  assert (LB : zlen (block d 3200 400) = 400) by (unfold block; rewrite zlen_firstn, zlen_skipn; lia).
  rewrite !ibind_lifted, P, LEN. unfold ibind. rewrite !read_opt_some by lia.
  rewrite !block_slice by lia. rewrite B, LB. unfold lift.
  intros R. injection R as R <-. split; [reflexivity|]. now rewrite R.
Qed.
Lemma page_same x d d' k page : 0 <= k -> zlen d' = zlen d -> same_bytes d d' (3600 + 3200 * k) (3600 + 3200 * k + 3200) -> page_at x d k page -> page_at x d' k page.
Proof.
  intros K L H (P & A & B & D). split; [unfold page_present in *; lia|]. split; [exact A|]. split; [exact B|]. rewrite <- D. f_equal.
  apply same_block; [lia|lia|exact L|exact H].
Qed.
Lemma ext_same x d d' n ext : zlen d' = zlen d -> same_bytes d d' 3600 (first_trace ext) -> ext_outcome x d n (Ok ext) -> ext_outcome x d' n (Ok ext).
Proof.
  unfold first_trace. intros L H (P & Q). split; intros N.
  - specialize (P N). inversion P as [ps E PA NE| | |]; subst. apply counted_read; auto. intros k K.
    apply (page_same x d d'); [lia|exact L| |auto]. apply (same_sub _ _ _ _ _ _ H); lia.
  - specialize (Q N). inversion Q as [ps pg PL PA EP| |]; subst. rewrite zlen_app in H. change (zlen [pg]) with 1 in H. pose proof (zlen_nonneg ps).
    apply until_read; auto.
    + intros k K. destruct (PL k K) as (A & B). split; [|exact B]. apply (page_same x d d'); [lia|exact L| |exact A]. apply (same_sub _ _ _ _ _ _ H); lia.
    + apply (page_same x d d'); [lia|exact L| |exact PA]. apply (same_sub _ _ _ _ _ _ H); lia.
Qed.
Lemma read_ext_same x d d' n q f ext : supported x -> zlen d' = zlen d -> same_bytes d d' 3600 (first_trace ext) ->
  read_extended_textual_headers n x (mk_file d q) = (Ok ext, f) ->
  f = mk_file d (first_trace ext) /\ read_extended_textual_headers n x (mk_file d' q) = (Ok ext, mk_file d' (first_trace ext)).
Proof.
  intros S L H R. destruct (read_ext_total x d n q S) as (r1 & q1 & R1 & O1 & Q1). rewrite R1 in R. injection R as -> <-. rewrite (Q1 ext eq_refl).
  split; [reflexivity|]. apply (ext_same x d d' n ext L H) in O1.
  destruct (Z_le_dec 0 n) as [N|N].
  - destruct (read_counted_spec x n (mk_file d' q) S N) as (r2 & q2 & R2 & O2 & Q2). cbn [f_data] in *. rewrite R2.
    assert (r2 = Ok ext) as -> by (symmetry; apply O2; now apply O1). f_equal. f_equal. rewrite (Q2 ext eq_refl). unfold first_trace.
    destruct O1 as (O1 & _). specialize (O1 N). inversion O1; subst; lia.
  - destruct (read_until_spec x n (mk_file d' q) S ltac:(lia)) as (r2 & q2 & R2 & O2 & Q2). cbn [f_data] in *. rewrite R2.
    assert (r2 = Ok ext) as -> by (symmetry; apply O2; apply O1; lia). now rewrite (Q2 ext eq_refl).
Qed.

(* samples lie outside everything else *)
Lemma outside_headers c e bps d p ts q : 0 <= bps -> (forall f v, is_field c f -> fd_name f = "num_samples" -> accepts (fd_type f) v -> 0 <= v) ->
  scan c e bps d p ts q -> forall tr tr', In tr ts -> In tr' ts -> forall i, t_pos tr <= i < t_pos tr + 240 ->
  ~ t_pos tr' + 240 <= i < t_pos tr' + 240 + bps * t_count tr'.
Proof.
  intros Hb NN S. induction S as [p|t ts q s L F1 F2 F3 F4 F5 S IH]; [intros ? ? []|].
  pose proof (scan_after c e bps d _ ts q Hb NN S) as AF.
  assert (C : 0 <= t_count t) by (destruct F3 as (f & A & B & C & _); eauto). assert (M : 0 <= bps * t_count t) by nia.
  intros tr tr' [<-|I] [<-|I'] i H; [lia| |specialize (AF tr I); lia|now apply (IH tr tr' I I')].
  specialize (AF tr' I'). lia.
Qed.

Lemma make_reader_same x bc tc e dim d d' log r w t ts : supported x -> binary_format bc -> trace_format tc -> all_bytes d -> 3600 <= zlen d ->
  make_reader (Some x) bc tc e dim (mk_world (mk_file d 0) log) = (Ok r, w) ->
  traces_of d tc e r t ts -> all_bytes d' -> zlen d' = zlen d -> same_bytes d d' 0 (first_trace (rd_ext r)) -> traces_of d' tc e r t ts ->
  exists y, make_reader (Some x) bc tc e dim (mk_world (mk_file d' 0) log) = (Ok r, mk_world (mk_file d' y) (w_log w)).
Proof.
  intros S B T HB L R (TY & FT) HB' E SF (_ & FT').
  assert (NN : forall f v, is_field tc f -> fd_name f = "num_samples" -> accepts (fd_type f) v -> 0 <= v) by apply T.
  pose proof (sample_size_pos t) as SP.
  assert (P0 : 3600 <= first_trace (rd_ext r)) by (unfold first_trace; pose proof (zlen_nonneg (rd_ext r)); lia).
  unfold make_reader in R |- *. erewrite wbind_ok in R by reflexivity. erewrite wbind_ok by reflexivity.
  apply wbind_inv in R. destruct R as (tx & w1 & R1 & R). apply on_file_inv in R1. cbn [w_file w_log] in R1. destruct R1 as (R1 & L1).
  destruct (text_same x d d' S ltac:(lia) E ltac:(apply (same_sub _ _ _ _ _ _ SF); lia) tx _ R1) as (F1 & R1').
  erewrite wbind_ok by (apply on_file_ok; exact R1'). destruct w1 as [f1 l1]. cbn [w_file w_log] in *. subst f1 l1. clear R1 R1'.
  apply wbind_inv in R. destruct R as (bin & w1 & R1 & R). apply on_file_inv in R1. cbn [w_file w_log] in R1. destruct R1 as (R1 & L1).
  destruct (binary_same bc e d d' B ltac:(lia) E ltac:(apply (same_sub _ _ _ _ _ _ SF); lia) bin _ R1) as (F1 & R1').
  erewrite wbind_ok by (apply on_file_ok; exact R1'). destruct w1 as [f1 l1]. cbn [w_file w_log] in *. subst f1 l1. clear R1 R1'.
  erewrite wbind_ok in R by (apply on_file_ok, seek_ok; discriminate). erewrite wbind_ok by (apply on_file_ok, seek_ok; discriminate).
  cbn [f_data] in R |- *. change REEL_HEADER_NUM_BYTES with 3600 in R |- *.
  destruct (num_extended_textual_headers bin) as [n|] eqn:NE; [|discriminate R]. rewrite on_lift_ok in R. rewrite on_lift_ok.
  apply wbind_inv in R. destruct R as (ext & w1 & R1 & R). apply on_file_inv in R1. cbn [w_file w_log] in R1. destruct R1 as (R1 & L1).
  destruct (bytes_per_sample bin) as [bps|] eqn:BP; [|discriminate R]. rewrite on_lift_ok in R.
  apply wbind_inv in R. destruct R as ([[[offsets lengths] cdps] lines] & w2 & R2 & R). cbv zeta in R.
  destruct (negb _) eqn:DK; [discriminate R|].
  (* what the reader is made of *)
  assert (RX : rd_ext r = ext /\ rd_binary r = bin).
  { revert R. unfold on_file, lift, reader_init. destruct (make_header_packer tc e); [|discriminate]. cbn [bind].
    destruct (extract_revision bin); [|discriminate]. cbn [bind]. rewrite BP. cbn [bind]. intros R. injection R as <- _. auto. }
  destruct RX as (<- & <-).
  destruct (read_ext_same x d d' n 3600 _ (rd_ext r) S E ltac:(apply (same_sub _ _ _ _ _ _ SF); lia) R1) as (F1 & R1').
  erewrite wbind_ok by (apply on_file_ok; exact R1'). destruct w1 as [f1 l1]. cbn [w_file w_log] in *. subst f1 l1. clear R1 R1'.
  rewrite on_lift_ok. rewrite (bps_ok (rd_binary r) t TY) in BP. injection BP as <-.
  assert (SH' : forall ts', file_traces tc e (sample_size t) d (first_trace (rd_ext r)) ts' -> file_traces tc e (sample_size t) d' (first_trace (rd_ext r)) ts').
  { intros ts' FT2. now rewrite <- (traces_unique tc e _ d _ ts ts' T FT FT2). }
  destruct (catalog_same (sample_size t) tc e d d' (first_trace (rd_ext r)) log (offsets, lengths, cdps, lines) w2 T HB HB' ltac:(lia) ltac:(lia) E SH' R2) as (y & R2').
  erewrite wbind_ok by exact R2'. cbv beta iota zeta. rewrite DK. exists y.
  destruct w2 as [f2 l2]. unfold on_file in R |- *. cbn [w_file w_log] in *. unfold lift in R |- *. injection R as -> <-. reflexivity.
Qed.

Lemma opening_alike a enc bc tc e pr dim d d' log r w t ts : readable d enc bc tc ->
  create_reader a enc bc tc (Some e) pr dim (mk_world (mk_file d 0) log) = (Ok r, w) ->
  traces_of d tc e r t ts -> all_bytes d' -> zlen d' = zlen d -> same_bytes d d' 0 (first_trace (rd_ext r)) -> traces_of d' tc e r t ts ->
  exists y, create_reader a enc bc tc (Some e) pr dim (mk_world (mk_file d' 0) log) = (Ok r, mk_world (mk_file d' y) (w_log w)).
Proof.
  intros (HB & B & T & HE) R TR HB' E OB TR'. destruct (encoding_exists enc d) as (x & X). pose proof (guessed_supported enc d x HE X) as S.
  destruct (checks_cases a (Some e) pr dim (mk_file d 0) log ltac:(cbn; lia)) as [(e' & [= <-] & A & L & P & D)|(y & E0)].
  2:{ unfold create_reader in R. erewrite wbind_err in R by exact E0. discriminate. }
  cbn [f_data] in L. unfold create_reader in R |- *.
  erewrite wbind_ok in R by (apply checks_pass; assumption). erewrite wbind_ok by (apply checks_pass; try assumption; lia).
  apply wbind_inv in R. destruct R as (r' & w1 & R1 & R). rewrite report_ok in R by lia. unfold wret in R. injection R as <- <-.
  rewrite (make_reader_enc _ _ _ _ _ _ _ _ X) in R1.
  assert (X' : encoding_used enc d' x).
  { unfold encoding_used in X |- *. destruct enc as [z|]; [exact X|]. replace (firstn (Z.to_nat 3200) d') with (firstn (Z.to_nat 3200) d); [exact X|].
    symmetry. change (block d' 0 3200 = block d 0 3200). apply same_block; [lia|lia|exact E|]. intros i I. apply OB.
    unfold first_trace. pose proof (zlen_nonneg (rd_ext r')). lia. }
  destruct (make_reader_same x bc tc e dim d d' log r' w1 t ts S B T HB L R1 TR HB' E OB TR') as (y & R').
  exists y. erewrite wbind_ok by (rewrite (make_reader_enc _ _ _ _ _ _ _ _ X'); exact R'). rewrite report_ok by lia. reflexivity.
Qed.

Lemma counting_traces d d' tc e r t ts : traces_of d tc e r t ts -> same_where_it_counts tc (first_trace (rd_ext r)) ts d d' -> traces_of d' tc e r t ts.
Proof.
  intros (TY & q & SC & Q) (HB' & E & OS). split; [exact TY|]. exists q. split; [|lia]. apply (scan_same tc e _ d d'); [exact E| |exact SC].
  intros tr IT f F N i I. apply OS. right. now exists tr, f.
Qed.
Lemma opening_same a enc bc tc e pr dim d d' log r w t ts : readable d enc bc tc ->
  create_reader a enc bc tc (Some e) pr dim (mk_world (mk_file d 0) log) = (Ok r, w) ->
  traces_of d tc e r t ts -> same_where_it_counts tc (first_trace (rd_ext r)) ts d d' ->
  exists y, create_reader a enc bc tc (Some e) pr dim (mk_world (mk_file d' 0) log) = (Ok r, mk_world (mk_file d' y) (w_log w)).
Proof.
  intros RD R TR OS. pose proof (counting_traces d d' tc e r t ts TR OS) as TR'. destruct OS as (HB' & E & OS).
  apply (opening_alike a enc bc tc e pr dim d d' log r w t ts); auto. intros i I. apply OS. now left.
Qed.

(* what a reader reads *)
Section Reading.
Variables (d d' : list Z) (enc : option encoding) (bc tc : fmt) (e : endian) (dim : option Z) (r : reader) (t : segytype) (ts : list tinfo).
Hypothesis RD : readable d enc bc tc.
Hypothesis OP : opens d enc bc tc e dim r.
Hypothesis TR : traces_of d tc e r t ts.
Hypothesis LE : zlen d' = zlen d.

Lemma header_same k tr p p' o : trace_of ts k tr -> same_bytes d d' (t_pos tr) (t_pos tr + 240) ->
  fst (rd_trace_header r k o (mk_file d p)) = fst (rd_trace_header r k o (mk_file d' p')).
Proof.
  intros TK H. destruct RD as (HB & B & T & HE). destruct (opens_opened d enc bc tc e dim r RD OP) as (x & ts' & t' & X & O).
  destruct (traces_opened x bc tc e dim d r ts' t' t ts T O TR) as (-> & ->).
  unfold rd_trace_header. destruct (negb _); [reflexivity|]. cbv zeta. rewrite !ibind_lifted.
  destruct (cat1_get (rd_offsets r) k) as [q|] eqn:G; [|reflexivity].
  assert (q = t_pos tr) as ->.
  { assert (HG := he_get _ _ _ _ _ (op_offsets _ _ _ _ _ _ _ _ _ O) k (t_pos tr)). change (rd_num_trace_samples r k) with (cat1_get (rd_lengths r) k) in *.
    rewrite G in HG. specialize (HG ltac:(apply In_numbered_map; eauto)). congruence. }
  unfold read_trace_header. change (ret (t_pos tr)) with (lift (Ok (t_pos tr))). rewrite !ibind_lifted.
  destruct (op_traces _ _ _ _ _ _ _ _ _ O) as (q & SC & _).
  unfold ibind, seek. destruct (t_pos tr <? 0) eqn:N; [reflexivity|]. unfold read, lift. cbn [f_data f_pos fst].
  rewrite (same_slice d d' (t_pos tr) (t_pos tr + TRACE_HEADER_NUM_BYTES) ltac:(lia) LE); [reflexivity|]. change TRACE_HEADER_NUM_BYTES with 240. apply (same_sub _ _ _ _ _ _ H); lia.
Qed.
Lemma samples_same native k tr a b p p' : trace_of ts k tr ->
  (0 <= or_else a 0 <= or_else b (t_count tr) -> or_else b (t_count tr) <= t_count tr ->
   same_bytes d d' (t_pos tr + 240 + sample_size t * or_else a 0) (t_pos tr + 240 + sample_size t * or_else b (t_count tr))) ->
  fst (rd_trace_samples native r k a b (mk_file d p)) = fst (rd_trace_samples native r k a b (mk_file d' p')).
Proof.
  intros TK H. destruct RD as (HB & B & T & HE). destruct (opens_opened d enc bc tc e dim r RD OP) as (x & ts' & t' & X & O).
  destruct (traces_opened x bc tc e dim d r ts' t' t ts T O TR) as (-> & ->).
  assert (NN : forall f v, is_field tc f -> fd_name f = "num_samples" -> accepts (fd_type f) v -> 0 <= v) by apply T. pose proof (sample_size_pos t') as SP.
  assert (P0 : 0 <= first_trace (rd_ext r)) by (unfold first_trace; pose proof (zlen_nonneg (rd_ext r)); lia).
  destruct (op_traces _ _ _ _ _ _ _ _ _ O) as (q & SC & _).
  destruct (scan_positions tc e (sample_size t') d _ ts' q P0 ltac:(lia) NN SC tr) as (A1 & A2 & A3); [destruct TK as (_ & TK); now apply nth_error_In in TK|].
  unfold rd_trace_samples. destruct (negb _); [reflexivity|]. rewrite !ibind_lifted.
  destruct (rd_num_trace_samples r k) as [n|] eqn:G; [|reflexivity].
  assert (n = t_count tr) as ->.
  { assert (HG := he_get _ _ _ _ _ (op_lengths _ _ _ _ _ _ _ _ _ O) k (t_count tr)). change (rd_num_trace_samples r k) with (cat1_get (rd_lengths r) k) in *.
    rewrite G in HG. specialize (HG ltac:(apply In_numbered_map; eauto)). congruence. }
  cbv zeta. fold (or_else a 0) (or_else b (t_count tr)). set (s := or_else a 0) in *. set (u := or_else b (t_count tr)) in *. clearbody s u.
  destruct (negb _) eqn:E1; [reflexivity|]. destruct (negb _) eqn:E2 in |- *; [reflexivity|]. specialize (H ltac:(lia) ltac:(lia)).
  rewrite !ibind_lifted. rewrite (sample_format_ok (rd_binary r) t') by exact (op_type _ _ _ _ _ _ _ _ _ O).
  rewrite !ibind_lifted. destruct (cat1_get (rd_offsets r) k) as [o|] eqn:GO; [|reflexivity].
  assert (o = t_pos tr) as ->.
  { assert (HG := he_get _ _ _ _ _ (op_offsets _ _ _ _ _ _ _ _ _ O) k (t_pos tr)). change (rd_num_trace_samples r k) with (cat1_get (rd_lengths r) k) in *.
    rewrite GO in HG. specialize (HG ltac:(apply In_numbered_map; eauto)). congruence. }
  change TRACE_HEADER_NUM_BYTES with 240. replace (size_in_bytes (ctype_of t')) with (sample_size t') by (destruct t'; reflexivity).
  unfold read_binary_values. cbv zeta. replace (size_in_bytes (ctype_of t')) with (sample_size t') by (destruct t'; reflexivity).
  assert (P1 : 0 <= t_pos tr + 240 + s * sample_size t') by nia.
  set (pos := t_pos tr + 240 + s * sample_size t') in *. change (ret pos) with (lift (Ok pos)). rewrite !ibind_lifted.
  unfold ibind, seek. replace (pos <? 0) with false by lia. cbn [f_data].
  assert (P2 : 0 <= sample_size t' * (u - s)) by nia. rewrite !read_opt_some by lia.
  rewrite (same_slice d d' _ _ P1 LE); [|apply (same_sub _ _ _ _ _ _ H); unfold pos; nia].
  destruct (zlen _ <? _); [reflexivity|]. unfold lift. destruct (unpack_samples _ _ _ _ _) as [vs|]; [|reflexivity].
  destruct (zlen vs =? u - s); reflexivity.
Qed.
End Reading.

(* traces do not overlap *)
Lemma scan_apart c e bps d p ts q : 0 <= bps -> (forall f v, is_field c f -> fd_name f = "num_samples" -> accepts (fd_type f) v -> 0 <= v) ->
  scan c e bps d p ts q -> forall k k' tr tr', trace_of ts k tr -> trace_of ts k' tr' -> k < k' -> t_pos tr + 240 + bps * t_count tr <= t_pos tr'.
Proof.
  intros Hb NN S. induction S as [p|t ts q s L F1 F2 F3 F4 F5 S IH]; intros k k' tr tr' (K & N) (K' & N') LT; [destruct (Z.to_nat k); discriminate|].
  replace (Z.to_nat k') with (Datatypes.S (Z.to_nat (k' - 1))) in N' by lia. cbn [nth_error] in N'.
  destruct (Z.eq_dec k 0) as [->|NK].
  - cbn in N. injection N as <-. apply (scan_after c e bps d _ ts q Hb NN S). eapply nth_error_In; eauto.
  - replace (Z.to_nat k) with (Datatypes.S (Z.to_nat (k - 1))) in N by lia. cbn [nth_error] in N. rewrite zlen_cons in *.
    apply (IH (k - 1) (k' - 1)); [split; [lia|exact N]|split; [lia|exact N']|lia].
Qed.

(* samples that are written over samples *)
Lemma write_values_bytes ss t e f : all_bytes (f_data f) -> 0 <= f_pos f -> Forall (storable t) ss -> forall f', write_binary_values ss t e f = (Ok tt, f') -> all_bytes (f_data f').
Proof.
  intros HB P ST f'. destruct (store_all e t ss ST) as (b & rs & PK & L & B & _). unfold write_binary_values. rewrite ibind_lifted, PK.
  destruct b as [|b0 b1] eqn:EB; [intros [= <-]; exact HB|]. rewrite <- EB in *. rewrite write_run by (rewrite EB; discriminate). intros [= <-]. cbn [f_data].
  apply all_bytes_app. split; [now apply padded_bytes|]. apply all_bytes_app. split; [exact B|].
  unfold all_bytes in *. rewrite Forall_forall in *. intros y I. apply HB. rewrite <- (firstn_skipn (Z.to_nat (f_pos f + zlen b)) (f_data f)). apply in_or_app. now right.
Qed.

Lemma patched d enc bc tc e dim r t ts k tr a ss native : readable d enc bc tc -> opens d enc bc tc e dim r -> traces_of d tc e r t ts ->
  trace_of ts k tr -> 0 <= a -> a + zlen ss <= t_count tr -> t_pos tr + 240 + sample_size t * (a + zlen ss) <= zlen d -> Forall (storable t) ss ->
  exists d' q, write_binary_values ss t e (mk_file d (t_pos tr + 240 + sample_size t * a)) = (Ok tt, mk_file d' q) /\
    same_where_it_counts tc (first_trace (rd_ext r)) ts d d' /\
    (exists rs, Forall2 (stored_as t) ss rs /\ forall p, fst (rd_trace_samples native r k (Some a) (Some (a + zlen ss)) (mk_file d' p)) = Ok rs) /\
    (forall k' tr' a' b' p p', trace_of ts k' tr' -> k' <> k \/ or_else b' (t_count tr') <= a \/ a + zlen ss <= or_else a' 0 ->
       fst (rd_trace_samples native r k' a' b' (mk_file d' p')) = fst (rd_trace_samples native r k' a' b' (mk_file d p))) /\
    (forall k' tr' o p p', trace_of ts k' tr' -> fst (rd_trace_header r k' o (mk_file d' p')) = fst (rd_trace_header r k' o (mk_file d p))).
Proof.
  intros RD OP TR TK A0 AN RG ST. pose proof RD as (HB & B & T & HE). pose proof (sample_size_pos t) as SP.
  destruct (opens_opened d enc bc tc e dim r RD OP) as (x & ts' & t' & X & O).
  destruct (traces_opened x bc tc e dim d r ts' t' t ts T O TR) as (-> & ->).
  assert (NN : forall f v, is_field tc f -> fd_name f = "num_samples" -> accepts (fd_type f) v -> 0 <= v) by apply T.
  assert (SZ : size_in_bytes (ctype_of t') = sample_size t') by (clear; destruct t'; reflexivity).
  pose proof (trace_placed x bc tc e dim d r ts' t' T O) as TP. destruct (TP tr (trace_in ts' k tr TK)) as (P1 & P2 & P3).
  set (pos := t_pos tr + 240 + sample_size t' * a) in *. assert (PP : 0 <= pos) by (unfold pos; nia). pose proof (zlen_nonneg ss) as NS.
  destruct (samples_round_trip native e t' ss (mk_file d pos) HB PP ST) as (b & f' & rs & q & W & LB & WR & WE & RB & S2 & SA). cbn [f_data f_pos] in *.
  pose proof (write_values_bytes ss t' e (mk_file d pos) HB PP ST f' W) as HB'. destruct f' as [d' y]. cbn [f_data f_pos] in *.
  assert (CH : zlen d' = zlen d /\ forall i, 0 <= i -> ~ pos <= i < pos + sample_size t' * zlen ss -> byte_at d' i = byte_at d i).
  { destruct ss as [|s0 ss]; [specialize (WE eq_refl); injection WE as -> _; auto|]. destruct WR as (_ & L & _ & R); [discriminate|]. cbn [f_data f_pos] in *.
    assert (L' : zlen d' = zlen d) by (unfold pos in *; nia). split; [exact L'|]. intros i I N. destruct (Z_lt_dec i (zlen d)) as [IL|IL].
    - apply R; [lia|]. now rewrite LB.
    - unfold byte_at. rewrite !nth_overflow by (unfold zlen in *; lia). reflexivity. }
  destruct CH as (LE & CH). pose proof TR as TRK. destruct TR as (TY & qq & SC & QE).
  exists d', y. split; [exact W|]. split.
  { split; [exact HB'|]. split; [exact LE|]. intros i C. assert (AF := scan_after tc e (sample_size t') d _ ts' qq ltac:(lia) NN SC).
    pose proof (AF tr (trace_in ts' k tr TK)) as F0. destruct C as [I|(tr' & f & IT & IF & FN & I)]; [apply CH; [lia|unfold pos; nia]|].
    pose proof (field_within tc 240 f (proj1 T) IF). destruct (TP tr' IT) as (Q1 & Q2 & Q3). apply CH; [lia|]. intros H'.
    apply (outside_headers tc e (sample_size t') d _ ts' qq ltac:(lia) NN SC tr' tr IT (trace_in ts' k tr TK) i); [lia|]. unfold pos in H'. nia. }
  split; [|split].
  - exists rs. split; [exact S2|]. intros p. unfold rd_trace_samples. rewrite (rd_num x bc tc e dim d r ts' t' O).
    destruct TK as (KR & KN). replace ((0 <=? k) && (k <? zlen ts')) with true by lia. cbn [negb].
    rewrite !ibind_lifted, (rd_count x bc tc e dim d r ts' t' O k tr) by now split. cbv zeta.
    replace ((0 <=? a + zlen ss) && (a + zlen ss <=? t_count tr)) with true by lia. replace ((0 <=? a) && (a <=? a + zlen ss)) with true by lia. cbn [negb].
    rewrite ibind_lifted, (sample_format_ok (rd_binary r) t' TY), ibind_lifted, (rd_offset x bc tc e dim d r ts' t' O k tr) by now split.
    replace (a + zlen ss - a) with (zlen ss) by lia. rewrite (op_endian _ _ _ _ _ _ _ _ _ O). change TRACE_HEADER_NUM_BYTES with 240.
    replace (t_pos tr + 240 + a * size_in_bytes (ctype_of t')) with pos by (unfold pos; rewrite SZ; lia).
    revert RB. unfold read_binary_values. cbv zeta. change (ret pos) with (lift (Ok pos)). rewrite !ibind_lifted. unfold ibind, seek. replace (pos <? 0) with false by lia. cbn [f_data].
    intros ->. reflexivity.
  - intros k' tr' a' b' p p' TK' CASE. symmetry. apply (samples_same d d' enc bc tc e dim r t' ts' RD OP TRK LE native k' tr' a' b' p p' TK').
    intros I1 I2 i I. destruct (TP tr' (trace_in ts' k' tr' TK')) as (Q1 & Q2 & Q3). apply CH; [nia|]. intros H. unfold pos in H.
    destruct (Z.eq_dec k' k) as [->|NK].
    + pose proof (trace_of_unique ts' k tr tr' TK TK') as <-. nia.
    + assert (t_pos tr' + 240 + sample_size t' * t_count tr' <= t_pos tr \/ t_pos tr + 240 + sample_size t' * t_count tr <= t_pos tr').
      { destruct (Z_lt_dec k' k); [left; apply (scan_apart tc e (sample_size t') d _ ts' qq ltac:(lia) NN SC k' k)|right; apply (scan_apart tc e (sample_size t') d _ ts' qq ltac:(lia) NN SC k k')]; auto; lia. }
      nia.
  - intros k' tr' o p p' TK'. symmetry. apply (header_same d d' enc bc tc e dim r t' ts' RD OP TRK LE k' tr' p p' o TK').
    intros i I. destruct (TP tr' (trace_in ts' k' tr' TK')) as (Q1 & Q2 & Q3). apply CH; [lia|]. intros H.
    apply (outside_headers tc e (sample_size t') d _ ts' qq ltac:(lia) NN SC tr' tr (trace_in ts' k' tr' TK') (trace_in ts' k tr TK) i I). unfold pos in H. nia.
Qed.

(* a header that is written over a header *)
Lemma header_patched d enc bc tc e dim r t ts k tr h native : readable d enc bc tc -> opens d enc bc tc e dim r -> traces_of d tc e r t ts ->
  trace_of ts k tr -> good_header tc h -> hdr_get h "num_samples" = Ok (t_count tr) -> hdr_get h "ensemble_num" = Ok (t_cdp tr) ->
  hdr_get h "inline_number" = Ok (t_inline tr) -> hdr_get h "crossline_number" = Ok (t_xline tr) ->
  exists d' q, write_trace_header h (rd_packer r) (mk_file d (t_pos tr)) = (Ok tt, mk_file d' q) /\
    all_bytes d' /\ zlen d' = zlen d /\ same_bytes d d' 0 (first_trace (rd_ext r)) /\ traces_of d' tc e r t ts /\
    (exists h', Spec_Packing.same_fields h h' /\ forall p, fst (rd_trace_header r k None (mk_file d' p)) = Ok h') /\
    (forall k' tr' o p p', trace_of ts k' tr' -> k' <> k -> fst (rd_trace_header r k' o (mk_file d' p')) = fst (rd_trace_header r k' o (mk_file d p))) /\
    (forall k' tr' a b p p', trace_of ts k' tr' -> fst (rd_trace_samples native r k' a b (mk_file d' p')) = fst (rd_trace_samples native r k' a b (mk_file d p))).
Proof.
  intros RD OP TR TK GH G1 G2 G3 G4. pose proof RD as (HB & B & T & HE). pose proof (sample_size_pos t) as SP. pose proof TR as TRK.
  destruct (opens_opened d enc bc tc e dim r RD OP) as (x & ts' & t' & X & O).
  destruct (traces_opened x bc tc e dim d r ts' t' t ts T O TR) as (-> & ->).
  assert (NN : forall f v, is_field tc f -> fd_name f = "num_samples" -> accepts (fd_type f) v -> 0 <= v) by apply T.
  pose proof (trace_placed x bc tc e dim d r ts' t' T O) as TP. destruct (TP tr (trace_in ts' k tr TK)) as (P1 & P2 & P3).
  destruct (header_written tc 240 e h (proj1 T) GH) as (p & b & EP & PK & (LB & AB & HO & _)).
  assert (p = rd_packer r) as -> by (pose proof (op_packer _ _ _ _ _ _ _ _ _ O); congruence).
  assert (BN : b <> []) by (intros ->; discriminate LB).
  destruct (write_wrote b (mk_file d (t_pos tr)) BN P1) as (f' & W & WR).
  assert (HB' : all_bytes (f_data f')).
  { rewrite write_run in W by exact BN. injection W as <-. cbn [f_data f_pos]. apply all_bytes_app. split; [now apply padded_bytes|]. apply all_bytes_app. split; [exact AB|].
    unfold all_bytes in *. rewrite Forall_forall in *. intros y I. apply HB. rewrite <- (firstn_skipn (Z.to_nat (t_pos tr + zlen b)) d). apply in_or_app. now right. }
  destruct f' as [d' y]. destruct WR as (_ & LE & IN & OUT). cbn [f_data f_pos] in *. rewrite LB in *.
  assert (LE' : zlen d' = zlen d) by lia. clear LE.
  assert (CH : forall i, 0 <= i -> ~ t_pos tr <= i < t_pos tr + 240 -> byte_at d' i = byte_at d i).
  { intros i I N. destruct (Z_lt_dec i (zlen d)) as [IL|IL]; [apply OUT; lia|]. unfold byte_at. rewrite !nth_overflow by (unfold zlen in *; lia). reflexivity. }
  assert (BL : py_slice d' (t_pos tr) (t_pos tr + 240) = b).
  { apply byte_ext; rewrite zlen_py_slice by lia; [lia|]. intros i I. rewrite byte_at_slice by lia. apply IN. lia. }
  destruct TR as (TY & qq & SC & QE).
  assert (FA : forall n v, hdr_get h n = Ok v -> has_field tc n -> field_at tc e d' (t_pos tr) n v).
  { intros n v G (f & F & <-). destruct HO as (_ & HO). destruct (HO f F) as (v' & G' & A & C & S). rewrite G in G'. injection G' as <-.
    apply field_of_slice; [apply (proj1 T)|exact P1|lia|]. rewrite BL. exists f. repeat (split; [assumption || reflexivity|]). exact S. }
  assert (APART : forall k' tr', trace_of ts' k' tr' -> k' <> k ->
    t_pos tr' + 240 + sample_size t' * t_count tr' <= t_pos tr \/ t_pos tr + 240 + sample_size t' * t_count tr <= t_pos tr').
  { intros k' tr' TK' NK. destruct (Z_lt_dec k' k); [left; apply (scan_apart tc e (sample_size t') d _ ts' qq ltac:(lia) NN SC k' k)|right; apply (scan_apart tc e (sample_size t') d _ ts' qq ltac:(lia) NN SC k k')]; auto; lia. }
  assert (TR' : traces_of d' tc e r t' ts').
  { split; [exact TY|]. exists qq. split; [|lia].
    assert (ALL : forall tr', In tr' ts' -> forall n v, In n catalog_names -> n <> "file_sequence_num" -> field_at tc e d (t_pos tr') n v -> 
      (tr' = tr -> hdr_get h n = Ok v) -> field_at tc e d' (t_pos tr') n v).
    { intros tr' IT n v N _ F HG. apply In_nth_error in IT. destruct IT as (j & J). assert (TK' : trace_of ts' (Z.of_nat j) tr').
      { split; [|now rewrite Nat2Z.id]. assert (j < length ts')%nat by (apply nth_error_Some; congruence). unfold zlen. lia. }
      destruct (Z.eq_dec (Z.of_nat j) k) as [JK|JK].
      - rewrite JK in TK'. pose proof (trace_of_unique ts' k tr tr' TK TK') as <-. apply FA; [now apply HG|]. destruct F as (f & F & E & _). now exists f.
      - destruct (TP tr' (trace_in ts' _ tr' TK')) as (Q1 & Q2 & Q3). pose proof (APART _ tr' TK' JK) as AP.
        apply (field_same tc e d d'); auto. intros f F' N' i I. pose proof (field_within tc 240 f (proj1 T) F'). apply CH; [lia|]. nia. }
    assert (SEQ : forall tr', In tr' ts' -> forall v, field_at tc e d (t_pos tr') "file_sequence_num" v -> exists v', field_at tc e d' (t_pos tr') "file_sequence_num" v').
    { intros tr' IT v F. apply In_nth_error in IT. destruct IT as (j & J). assert (TK' : trace_of ts' (Z.of_nat j) tr').
      { split; [|now rewrite Nat2Z.id]. assert (j < length ts')%nat by (apply nth_error_Some; congruence). unfold zlen. lia. }
      destruct (Z.eq_dec (Z.of_nat j) k) as [JK|JK].
      - rewrite JK in TK'. pose proof (trace_of_unique ts' k tr tr' TK TK') as <-. destruct F as (f & F & E & _). destruct HO as (_ & HO). destruct (HO f F) as (v' & G' & _).
        exists v'. apply FA; [now rewrite <- E|now exists f].
      - destruct (TP tr' (trace_in ts' _ tr' TK')) as (Q1 & Q2 & Q3). pose proof (APART _ tr' TK' JK) as AP.
        exists v. apply (field_same tc e d d'); auto; [|now left]. intros f F' N' i I. pose proof (field_within tc 240 f (proj1 T) F'). apply CH; [lia|]. nia. }
    clear -SC ALL SEQ LE' G1 G2 G3 G4. revert ALL SEQ. induction SC as [q|t0 ts q s L F1 F2 F3 F4 F5 SC IH]; intros ALL SEQ; [constructor|].
    destruct (SEQ t0 (or_introl eq_refl) s F1) as (s' & F1'). apply (scan_trace tc e _ d' t0 ts q s'); [lia|exact F1'| | | | |].
    1-4: apply (ALL t0 (or_introl eq_refl)); [unfold catalog_names; cbn; tauto|discriminate|assumption|now intros ->].
    apply IH; intros tr' IT; [apply ALL|apply SEQ]; now right. }
  exists d', y. split; [unfold write_trace_header; rewrite ibind_lifted, PK; exact W|]. split; [exact HB'|]. split; [exact LE'|].
  split. { intros i I. apply CH; [lia|]. pose proof (scan_after tc e (sample_size t') d _ ts' qq ltac:(lia) NN SC tr (trace_in ts' k tr TK)). lia. }
  split; [exact TR'|]. split; [|split].
  - destruct GH as (HC & HOK & CA). destruct (proj1 T) as (C & TF & ST & OR & LEN & MK).
    destruct (round_trip tc e (rd_packer r) h C ST TF OR EP HC HOK b PK) as (h' & U & SFS). exists h'. split; [exact SFS|]. intros p.
    unfold rd_trace_header. rewrite (rd_num x bc tc e dim d r ts' t' O). destruct TK as (KR & KN). replace ((0 <=? k) && (k <? zlen ts')) with true by lia. cbn [negb].
    cbv zeta. rewrite !ibind_lifted, (rd_offset x bc tc e dim d r ts' t' O k tr) by now split.
    unfold read_trace_header. change (ret (t_pos tr)) with (lift (Ok (t_pos tr))). rewrite !ibind_lifted. unfold ibind, seek.
    replace (t_pos tr <? 0) with false by lia. unfold read, lift. cbn [f_data f_pos fst]. change TRACE_HEADER_NUM_BYTES with 240. now rewrite BL, U.
  - intros k' tr' o p p' TK' NK. symmetry. apply (header_same d d' enc bc tc e dim r t' ts' RD OP TRK LE' k' tr' p p' o TK').
    intros i I. destruct (TP tr' (trace_in ts' k' tr' TK')) as (Q1 & Q2 & Q3). pose proof (APART k' tr' TK' NK). apply CH; [lia|]. nia.
  - intros k' tr' a' b' p p' TK'. symmetry. apply (samples_same d d' enc bc tc e dim r t' ts' RD OP TRK LE' native k' tr' a' b' p p' TK').
    intros I1 I2 i I. destruct (TP tr' (trace_in ts' k' tr' TK')) as (Q1 & Q2 & Q3). apply CH; [nia|]. intros H.
    apply (outside_headers tc e (sample_size t') d _ ts' qq ltac:(lia) NN SC tr tr' (trace_in ts' k tr TK) (trace_in ts' k' tr' TK') i H). nia.
Qed.
