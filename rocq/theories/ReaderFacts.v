(* Facts about create_reader and the readers it returns. *)
From Coq Require Import String ZArith List Bool Sorted ListDec Permutation Lia ZifyBool ZifyNat.
From Verif Require Import Py PyFloat IbmFloat Util Catalog Packing Formats FileIO Text TextIO Float32 Toolkit Reader
  PyFacts Spec_Util UtilFacts Spec_Catalog CatalogFacts Spec_Ibm Spec_Packing PackFacts HeaderFacts PackingFacts FormatFacts
  Spec_Text TextFacts TextIOFacts ExtReadFacts Spec_Segy Float32Facts Spec_Reader ToolkitFacts.
Import ListNotations.
Local Open Scope string_scope.
Open Scope list_scope.
Open Scope Z_scope.

Lemma block_slice (d : list Z) n m : 0 <= n -> 0 <= m -> py_slice d n (n + m) = block d n m.
Proof. intros Hn Hm. unfold py_slice, block. f_equal. lia. Qed.

Lemma read_text_at x d : supported x -> 3200 <= zlen d ->
  (decode x (block d 0 3200) = Err UnicodeDecodeError /\
     exists q, read_textual_reel_header x (mk_file d 0) = (Err UnicodeDecodeError, mk_file d q)) \/
  (exists tx, reel_text x d tx /\ read_textual_reel_header x (mk_file d 0) = (Ok tx, mk_file d 3200)).
Proof.
  intros S L. unfold read_textual_reel_header, ibind, read. cbn [f_data f_pos]. change TEXTUAL_HEADER_NUM_BYTES with 3200.
  rewrite block_slice by lia.
  assert (LB : zlen (block d 0 3200) = 3200). { unfold block. rewrite zlen_firstn, zlen_skipn. lia. }
  rewrite LB, Z.ltb_irrefl.
  destruct (batched_exact (block d 0 3200) 80 40 ltac:(lia) ltac:(lia) LB) as (bs & E & Lb & Fb & C).
  unfold lift. change CARD_LENGTH with 80. rewrite E. cbn [bind]. destruct (map_res (decode x) bs) as [p|y] eqn:M.
  - right. exists p. split; [|reflexivity]. split; [|split].
    + rewrite (map_res_zlen _ _ _ M). auto.
    + apply map_res_iff in M. clear -S M Fb. induction M; constructor; inversion Fb; subst; auto. rewrite (decode_zlen x _ _ S H). auto.
    + rewrite <- C. now apply decode_concat.
  - left. split. { rewrite <- C. eapply decode_concat_err; eauto. }
    apply map_res_err in M. destruct M as (a & c & b & -> & _ & Hc). rewrite (decode_err x c y S Hc). eauto.
Qed.

Lemma read_binary_at bc e d : binary_format bc -> all_bytes d -> 3600 <= zlen d ->
  (exists bin, holds_buffer bc e (block d 3200 400) bin /\
     read_binary_reel_header bc e (mk_file d 3200) = (Ok bin, mk_file d 3600)) \/
  ((exists n, bad_field_at bc e d 3200 n) /\ read_binary_reel_header bc e (mk_file d 3200) = (Err ValueError, mk_file d 3600)).
Proof.
  intros ((C & TF & ST & OR & LEN & MK) & _) HB L. destruct (MK e) as (p & P). unfold read_binary_reel_header.
  erewrite ibind_ok by (unfold lift; rewrite P; reflexivity). rewrite LEN.
  erewrite ibind_ok by (apply read_opt_some; lia). rewrite block_slice by lia.
  assert (LB : zlen (block d 3200 400) = 400). { unfold block. rewrite zlen_firstn, zlen_skipn. lia. } rewrite LB.
  assert (BB : all_bytes (block d 3200 400)) by (rewrite <- block_slice by lia; now apply all_bytes_slice).
  unfold lift.
  destruct (unpack_iff bc e p _ C ST OR P BB) as [(bin & U & _ & H)|(U & R)]; rewrite U.
  - left. exists bin. split; [exact H|reflexivity].
  - right. split; [|reflexivity]. destruct R as [R|(f & v & F & I & S & A)].
    + exfalso. apply R. unfold header_length. now rewrite LEN.
    + exists (fd_name f), f, v. repeat (split; [assumption || reflexivity|]).
      rewrite <- block_slice in S by lia. apply (stored_of_slice e d 3200 (3200 + 400)) in S; [exact S|lia| |lia|lia].
      specialize (ST f F). unfold field_pos. lia.
Qed.

Lemma read_ext_total x d n q : supported x -> exists r q', read_extended_textual_headers n x (mk_file d q) = (r, mk_file d q') /\
  ext_outcome x d n r /\ (forall pages, r = Ok pages -> q' = first_trace pages).
Proof.
  intros S. destruct (Z_le_dec 0 n) as [H|H].
  - destruct (read_counted_spec x n (mk_file d q) S H) as (r & q' & E & O & Q). cbn [f_data] in *. exists r, q'. split; [exact E|].
    split; [split; [intros _; now apply O|lia]|]. intros pages ->. rewrite (Q pages eq_refl). unfold first_trace.
    assert (OO : counted_outcome x d n (Ok pages)) by now apply O. inversion OO; subst; lia.
  - destruct (read_until_spec x n (mk_file d q) S ltac:(lia)) as (r & q' & E & O & Q). cbn [f_data] in *. exists r, q'. split; [exact E|].
    split; [split; [lia|intros _; now apply O]|]. intros pages ->. now rewrite (Q pages eq_refl).
Qed.

Lemma ext_outcome_unique x d n r r' : supported x -> ext_outcome x d n r -> ext_outcome x d n r' -> r = r'.
Proof.
  intros S (A & B) (A' & B'). destruct (Z_le_dec 0 n) as [H|H].
  - destruct (read_counted_spec x n (mk_file d 0) S H) as (r0 & q' & _ & O & _). cbn [f_data] in O.
    rewrite (proj1 (O r) (A H)), (proj1 (O r') (A' H)). reflexivity.
  - assert (H' : n < 0) by lia. destruct (read_until_spec x n (mk_file d 0) S H') as (r0 & q' & _ & O & _). cbn [f_data] in O.
    rewrite (proj1 (O r) (B H')), (proj1 (O r') (B' H')). reflexivity.
Qed.

Lemma format_code_type code t : segy_type_of code = Ok t <-> format_code code t.
Proof.
  unfold format_code. cbn [In]. split.
  - intros H. destruct code as [|p|p]; try discriminate H.
    do 4 (try (destruct p as [p|p|]; try discriminate H)); cbn in H; injection H as <-; tauto.
  - intros [H|[H|[H|[H|[H|[]]]]]]; injection H as <- <-; reflexivity.
Qed.
Lemma no_format_code code : (forall t, ~ format_code code t) -> segy_type_of code = Err KeyError.
Proof.
  intros H. destruct (segy_type_of code) as [t|x] eqn:E; [exfalso; now apply (H t), format_code_type|].
  unfold segy_type_of in E. destruct code as [|p|p]; try congruence. do 4 (try (destruct p as [p|p|]; try congruence)).
Qed.
Lemma format_code_unique code t t' : format_code code t -> format_code code t' -> t = t'.
Proof. intros A B. apply format_code_type in A. apply format_code_type in B. congruence. Qed.
Lemma sample_type_unique bin t t' : sample_type bin t -> sample_type bin t' -> t = t'.
Proof. intros (c & E & F) (c' & E' & F'). rewrite E in E'. injection E' as <-. now apply (format_code_unique c). Qed.
Lemma sample_format_ok bin t : sample_type bin t -> sample_format bin = Ok t.
Proof. intros (c & E & F). unfold sample_format. rewrite E. cbn [bind]. now apply format_code_type. Qed.
Lemma bps_ok bin t : sample_type bin t -> bytes_per_sample bin = Ok (sample_size t).
Proof.
  intros (c & E & F). unfold bytes_per_sample. rewrite E. cbn [bind]. apply format_code_type in F. rewrite F. now rewrite ctype_of_size.
Qed.
Lemma revision_ok v rev : canonicalize_revision v = Ok rev <-> revision_code v rev.
Proof.
  unfold revision_code. cbn [In]. split.
  - intros H. destruct v as [|p|p]; try discriminate H; [cbn in H; injection H as <-; tauto|].
    do 9 (try (destruct p as [p|p|]; try discriminate H)); cbn in H; injection H as <-; tauto.
  - intros [H|[H|[H|[H|[]]]]]; injection H as <- <-; reflexivity.
Qed.
Lemma no_revision v : (forall rev, ~ revision_code v rev) -> canonicalize_revision v = Err SegYRevisionError.
Proof.
  intros H. destruct (canonicalize_revision v) as [t|x] eqn:E; [exfalso; now apply (H t), revision_ok|].
  unfold canonicalize_revision in E. destruct v as [|p|p]; try congruence. do 9 (try (destruct p as [p|p|]; try congruence)).
Qed.

Lemma nonempty_cat1 c items : items <> [] -> holds_exactly (cat1_get c) (cat1_mem c) (cat1_len c) (cat1_iter c) items ->
  cat1_or_empty (Some c) = c.
Proof.
  intros NE H. unfold cat1_or_empty. rewrite (he_len _ _ _ _ _ H). destruct items as [|i items]; [congruence|].
  rewrite zlen_cons. pose proof (zlen_nonneg items). destruct (1 + zlen items =? 0) eqn:E; [lia|reflexivity].
Qed.
Lemma nonempty_cat2 c items : items <> [] -> holds_exactly (cat2_get c) (cat2_mem c) (cat2_len c) (cat2_iter c) items ->
  cat2_or_empty (Some c) = Some c.
Proof.
  intros NE H. unfold cat2_or_empty, truthy. rewrite (he_len _ _ _ _ _ H). destruct items as [|i items]; [congruence|].
  rewrite zlen_cons. pose proof (zlen_nonneg items). destruct (1 + zlen items =? 0) eqn:E; [lia|reflexivity].
Qed.

(* the kind of reader for the traces ts *)
Definition pairs (ts : list tinfo) : list (Z * Z) := map (fun t => (t_inline t, t_xline t)) ts.
Definition chosen (dim : option Z) (ts : list tinfo) (k : Z) : Prop :=
  match dim with
  | Some d => k = d
  | None => (NoDup (pairs ts) /\ k = 3) \/ (~ NoDup (pairs ts) /\ NoDup (map t_cdp ts) /\ k = 2) \/
            (~ NoDup (pairs ts) /\ ~ NoDup (map t_cdp ts) /\ k = 1)
  end.
Definition kind_for (ts : list tinfo) (k : Z) (rk : rkind) : Prop :=
  (k = 1 /\ rk = Plain) \/
  (k = 2 /\ exists c, rk = Kind2D c /\
     (NoDup (map t_cdp ts) -> holds_exactly (cat1_get c) (cat1_mem c) (cat1_len c) (cat1_iter c) (keyed (map t_cdp ts)) /\
        StronglySorted Z.lt (cat1_iter c)) /\
     (~ NoDup (map t_cdp ts) -> c = CDict [])) \/
  (k = 3 /\ exists o, rk = Kind3D o /\
     (NoDup (pairs ts) -> exists c, o = Some c /\ fst (create2 (keyed (pairs ts))) = Ok (Some c)) /\
     (~ NoDup (pairs ts) -> o = None)).

Record opened (x : encoding) (bc tc : fmt) (e : endian) (dim : option Z) (d : list Z) (r : reader) (ts : list tinfo) (t : segytype)
  : Prop := {
  op_headers : reel_headers x bc e d (rd_text r) (rd_binary r) (rd_ext r);
  op_type : sample_type (rd_binary r) t;
  op_traces : file_traces tc e (sample_size t) d (first_trace (rd_ext r)) ts;
  op_nonempty : ts <> [];
  op_revision : exists v, hdr_get (rd_binary r) "format_revision_num" = Ok v /\ revision_code v (rd_revision r);
  op_encoding : rd_encoding r = x;
  op_endian : rd_endian r = e;
  op_bps : rd_bps r = sample_size t;
  op_packer : make_header_packer tc e = Ok (rd_packer r);
  op_offsets : holds_exactly (cat1_get (rd_offsets r)) (cat1_mem (rd_offsets r)) (cat1_len (rd_offsets r)) (cat1_iter (rd_offsets r)) (numbered (map t_pos ts));
  op_lengths : holds_exactly (cat1_get (rd_lengths r)) (cat1_mem (rd_lengths r)) (cat1_len (rd_lengths r)) (cat1_iter (rd_lengths r)) (numbered (map t_count ts));
  op_sorted : StronglySorted Z.lt (cat1_iter (rd_offsets r)) /\ StronglySorted Z.lt (cat1_iter (rd_lengths r));
  op_kind : exists k, chosen dim ts k /\ kind_for ts k (rd_kind r) }.

Lemma field_of_holds c e buf h n : holds_buffer c e buf h -> has_field c n -> exists v, hdr_get h n = Ok v.
Proof. intros (_ & H) (f & F & <-). destruct (H f F) as (v & G & _). eauto. Qed.

Lemma kind_chosen dim ts cs : ts <> [] -> (forall k, dim = Some k -> In k [1; 2; 3]) -> catalogs_of ts cs ->
  fst (create2 (keyed (pairs ts))) = Ok (snd cs) ->
  let cdps := snd (fst cs) in let lines := snd cs in
  let k := match dim with Some d => d | None => match cdps, lines with Some _, None => 2 | _, Some _ => 3 | None, None => 1 end end in
  (1 <=? k) && (k <=? 3) = true /\ chosen dim ts k /\
  kind_for ts k (if k =? 1 then Plain else if k =? 2 then Kind2D (cat1_or_empty cdps) else Kind3D (cat2_or_empty lines)).
Proof.
  destruct cs as [[[o l] cd] ln]. intros NE HD (_ & _ & _ & _ & IC & IL) CR. cbn [fst snd]. cbn [fst snd] in CR.
  assert (NK : forall {K} (f : tinfo -> K), keyed (map f ts) <> []).
  { intros K f H. unfold keyed in H. apply map_eq_nil in H. apply numbered_nonempty in H; [assumption|]. destruct ts; [congruence|discriminate]. }
  assert (NC : cd = None <-> ~ NoDup (map t_cdp ts)).
  { unfold index1 in IC. rewrite keyed_fst in IC. destruct cd; [|easy]. destruct IC. split; [discriminate|tauto]. }
  assert (NL : ln = None <-> ~ NoDup (pairs ts)).
  { unfold index2 in IL. rewrite keyed_fst in IL. destruct ln; [|easy]. destruct IL. split; [discriminate|tauto]. }
  assert (CC : chosen dim ts (match dim with Some d => d | None => match cd, ln with Some _, None => 2 | _, Some _ => 3 | None, None => 1 end end)).
  { unfold chosen. destruct dim as [k|]; [reflexivity|].
    assert (SC : forall c, cd = Some c -> NoDup (map t_cdp ts)) by (intros; unfold index1 in IC; rewrite keyed_fst in IC; subst; tauto).
    assert (SL : forall c, ln = Some c -> NoDup (pairs ts)) by (intros; unfold index2 in IL; rewrite keyed_fst in IL; subst; apply IL).
    destruct ln as [c|]; [left; destruct cd; (split; [eauto|reflexivity])|].
    destruct cd as [c|]; right; [left|right]; (split; [tauto|]); (split; [eauto; tauto|reflexivity]). }
  set (k := match dim with Some d => d | None => _ end) in *.
  assert (HK : k = 1 \/ k = 2 \/ k = 3).
  { subst k. destruct dim as [k|]; [destruct (HD k eq_refl) as [<-|[<-|[<-|[]]]]; tauto|]. destruct cd, ln; tauto. }
  clearbody k. split; [lia|]. split; [exact CC|]. unfold kind_for. destruct HK as [->|[->| ->]]; cbn.
  - tauto.
  - right; left. split; [reflexivity|]. eexists; split; [reflexivity|]. split.
    + intros ND. destruct cd as [c|]; [|tauto]. unfold index1 in IC. destruct IC as (_ & H & SS).
      rewrite (nonempty_cat1 c _ (NK _ t_cdp) H). auto.
    + intros ND. apply NC in ND. subst cd. reflexivity.
  - right; right. split; [reflexivity|]. eexists; split; [reflexivity|]. split.
    + intros ND. destruct ln as [c|]; [|tauto]. unfold index2 in IL. destruct IL as (_ & H).
      rewrite (nonempty_cat2 c _ (NK _ _) H). eauto.
    + intros ND. apply NL in ND. subst ln. reflexivity.
Qed.

(* the progress calls of catalog_traces when it succeeds *)
Definition scan_log (d : list Z) (ts : list tinfo) (q : Z) : list (Z * Z) := marks d ts q ++ finished.

Lemma make_reader_total x bc tc e dim d log : supported x -> binary_format bc -> trace_format tc -> all_bytes d -> 3600 <= zlen d ->
  (forall k, dim = Some k -> In k [1; 2; 3]) ->
  exists r q log', make_reader (Some x) bc tc e dim (mk_world (mk_file d 0) log) = (r, mk_world (mk_file d q) log') /\
    open_outcome x bc tc e d r /\
    forall rd, r = Ok rd -> exists ts t p, opened x bc tc e dim d rd ts t /\
      scan tc e (sample_size t) d (first_trace (rd_ext rd)) ts p /\ zlen d < p + 240 /\ log' = log ++ scan_log d ts p.
Proof.
  intros S B T HB L HD. unfold make_reader. erewrite wbind_ok by reflexivity.
  assert (L2 : 3200 <= zlen d) by lia. destruct (read_text_at x d S L2) as [(D & q & R)|(tx & RT & R)].
  { erewrite wbind_err by (apply on_file_ok; exact R). eexists _, _, _. split; [reflexivity|]. split; [now apply open_bad_text|discriminate]. }
  erewrite wbind_ok by (apply on_file_ok; exact R). clear R.
  destruct (read_binary_at bc e d B HB L) as [(bin & HO & R)|((n & BF) & R)].
  2:{ erewrite wbind_err by (apply on_file_ok; exact R). eexists _, _, _. split; [reflexivity|]. split; [|discriminate].
      exact (open_bad_binary _ _ _ _ _ tx n RT BF). }
  erewrite wbind_ok by (apply on_file_ok; exact R). clear R.
  erewrite wbind_ok by (apply on_file_ok, seek_ok; discriminate). cbn [f_data]. change REEL_HEADER_NUM_BYTES with 3600.
  destruct B as (BF & FD & FN & FR). destruct (field_of_holds _ _ _ _ _ HO FN) as (n & GN).
  unfold num_extended_textual_headers. rewrite GN, on_lift_ok.
  destruct (read_ext_total x d n 3600 S) as (re & q & R & OE & QE).
  destruct re as [ext|y].
  2:{ erewrite wbind_err by (apply on_file_ok; exact R). eexists _, _, _. split; [reflexivity|]. split; [|discriminate].
      exact (open_bad_ext _ _ _ _ _ tx bin n y RT HO GN OE). }
  erewrite wbind_ok by (apply on_file_ok; exact R). clear R. rewrite (QE ext eq_refl). clear QE q.
  assert (RH : reel_headers x bc e d tx bin ext) by (split; [exact RT|split; [exact HO|exists n; auto]]).
  destruct (field_of_holds _ _ _ _ _ HO FD) as (code & GC).
  destruct (segy_type_of code) as [t|y] eqn:ST.
  2:{ assert (E : bytes_per_sample bin = Err ValueError) by (unfold bytes_per_sample; rewrite GC; cbn [bind]; now rewrite ST).
      rewrite E, on_lift_err. eexists _, _, _. split; [reflexivity|]. split; [|discriminate].
      apply (open_bad_format _ _ _ _ _ tx bin ext RH). intros t (c' & G & F). rewrite GC in G. injection G as <-.
      apply format_code_type in F. congruence. }
  apply format_code_type in ST. assert (TY : sample_type bin t) by (exists code; auto).
  rewrite (bps_ok bin t TY), on_lift_ok. pose proof (sample_size_pos t).
  assert (P0 : 0 <= first_trace ext) by (unfold first_trace; pose proof (zlen_nonneg ext); lia).
  destruct (catalog_traces_spec (sample_size t) tc e Callable d (first_trace ext) log T HB ltac:(lia) P0 ltac:(discriminate))
    as (rc & q & log' & R & OC & CS).
  destruct rc as [cs|y].
  2:{ erewrite wbind_err by exact R. eexists _, _, _. split; [reflexivity|]. split; [|discriminate].
      exact (open_bad_traces _ _ _ _ _ tx bin ext t y RH TY OC). }
  erewrite wbind_ok by exact R. clear R OC. destruct (CS cs eq_refl) as (ts & p & SC & PE & NE & -> & CO & CR). clear CS.
  change (map (fun t0 : tinfo => (t_inline t0, t_xline t0)) ts) with (pairs ts) in CR.
  destruct (kind_chosen dim ts cs NE HD CO CR) as (DK & CH & KF).
  destruct cs as [[[offs lens] cdps] lines]. cbn [fst snd] in *. destruct CO as (IO & NO & IL & NL & _).
  destruct offs as [offs|]; [|congruence]. destruct lens as [lens|]; [|congruence]. clear NO NL.
  set (k := match dim with Some d => d | None => _ end) in *. rewrite DK. cbn [negb]. clearbody k.
  set (kd := if k =? 1 then _ else _) in *. clearbody kd.
  assert (NM : forall {A} (f : tinfo -> A), map f ts <> []) by (intros A f; destruct ts; [congruence|discriminate]).
  destruct IO as (_ & HO1 & SO). destruct IL as (_ & HL1 & SL).
  rewrite (nonempty_cat1 offs _ (numbered_nonempty _ (NM _ t_pos)) HO1), (nonempty_cat1 lens _ (numbered_nonempty _ (NM _ t_count)) HL1).
  unfold reader_init. destruct T as ((C & TF & ST' & OR & LEN & MK) & _). destruct (MK e) as (pk & PK). rewrite PK. cbn [bind].
  destruct (field_of_holds _ _ _ _ _ HO FR) as (v & GV). unfold extract_revision. rewrite GV. cbn [bind].
  assert (FT : file_traces tc e (sample_size t) d (first_trace ext) ts) by (exists p; auto).
  destruct (canonicalize_revision v) as [rev|y] eqn:RV.
  2:{ cbn [bind]. eexists _, _, _. split; [reflexivity|]. assert (NR : forall rev, ~ revision_code v rev).
      { intros rev H'. apply revision_ok in H'. congruence. }
      rewrite (no_revision v NR) in RV. injection RV as <-. split; [|discriminate].
      exact (open_bad_revision _ _ _ _ _ tx bin ext t v ts RH TY FT NE GV NR). }
  apply revision_ok in RV. rewrite (bps_ok bin t TY). cbn [bind].
  eexists _, _, _. split; [reflexivity|]. split.
  - eapply (open_reader x bc tc e d) with (ts := ts) (t := t) (v := v); try reflexivity; assumption.
  - intros rd [= <-]. exists ts, t, p. cbn [rd_ext]. split; [|auto]. split; cbn; try assumption; try reflexivity; eauto.
Qed.

(* create_reader *)
Definition attrs_ok (a : file_attrs) : Prop := fa_closed a = false /\ fa_text a = false /\ fa_seekable a = true.

Lemma guessed_supported enc d x : (forall y, enc = Some y -> supported y) -> encoding_used enc d x -> supported x.
Proof.
  unfold encoding_used. destruct enc as [y|]; intros H; [intros ->; auto|]. unfold guess_encoding.
  intros E. repeat match type of E with context [if ?b then _ else _] => destruct b end; subst; unfold supported; tauto.
Qed.
Lemma encoding_exists enc d : exists x, encoding_used enc d x.
Proof. unfold encoding_used. destruct enc; [eauto|]. destruct (guess_encoding _ _ _); eauto. Qed.

Lemma make_reader_enc enc bc tc e dim d log x : encoding_used enc d x ->
  make_reader enc bc tc e dim (mk_world (mk_file d 0) log) = make_reader (Some x) bc tc e dim (mk_world (mk_file d 0) log).
Proof.
  destruct enc as [y|]; [intros ->; reflexivity|]. intros H. unfold make_reader.
  unfold wbind at 1. unfold wbind at 1. erewrite on_file_ok by (apply guess_textual_ok; cbn; lia). cbn [f_data].
  unfold encoding_used in H. unfold wret at 1. destruct (guess_encoding _ _ _) as [z|]; subst; reflexivity.
Qed.

Lemma zmem123 k : zmem k [1; 2; 3] = true <-> In k [1; 2; 3].
Proof.
  cbn [zmem existsb In]. split; [|intros [<-|[<-|[<-|[]]]]; reflexivity].
  intros H. destruct (k =? 1) eqn:E1; [left; lia|]. destruct (k =? 2) eqn:E2; [right; left; lia|]. destruct (k =? 3) eqn:E3; [right; right; left; lia|].
  unfold zmem in H. cbn in H. rewrite ?(Z.eqb_sym 1 k), ?(Z.eqb_sym 2 k), ?(Z.eqb_sym 3 k) in H. rewrite ?E1, ?E2, ?E3 in H. discriminate.
Qed.

Lemma checks_pass a e pr dim d log : attrs_ok a -> 3600 <= zlen d -> pr <> NotCallable -> (forall k, dim = Some k -> In k [1; 2; 3]) ->
  create_reader_checks a (Some e) pr dim (mk_world (mk_file d 0) log) = (Ok e, mk_world (mk_file d 0) log).
Proof.
  intros (C & X & S) L P D. unfold create_reader_checks. rewrite C, X, S. cbn [negb].
  erewrite wbind_ok by (apply on_file_ok, file_length_ok; cbn; lia). cbn [f_data].
  destruct (zlen d <? REEL_HEADER_NUM_BYTES) eqn:E; [change REEL_HEADER_NUM_BYTES with 3600 in E; lia|].
  destruct dim as [k|]; [|destruct pr; [reflexivity|reflexivity|congruence]].
  specialize (D k eq_refl). apply zmem123 in D. rewrite D. destruct pr; [reflexivity|reflexivity|congruence].
Qed.

Lemma checks_cases a eo pr dim f log : 0 <= f_pos f ->
  (exists e, eo = Some e /\ attrs_ok a /\ 3600 <= zlen (f_data f) /\ pr <> NotCallable /\ (forall k, dim = Some k -> In k [1; 2; 3])) \/
  exists x, create_reader_checks a eo pr dim (mk_world f log) = (Err x, mk_world f log).
Proof.
  intros P. unfold create_reader_checks. destruct (fa_closed a) eqn:C; [right; eexists; reflexivity|].
  destruct (fa_text a) eqn:X; [right; eexists; reflexivity|]. destruct (fa_seekable a) eqn:S; [|right; eexists; reflexivity]. cbn [negb].
  erewrite wbind_ok by (apply on_file_ok, file_length_ok; exact P).
  destruct (zlen (f_data f) <? REEL_HEADER_NUM_BYTES) eqn:E; change REEL_HEADER_NUM_BYTES with 3600 in E; [right; eexists; reflexivity|].
  destruct eo as [e|]; [|right; eexists; reflexivity].
  destruct dim as [k|].
  - destruct (zmem k [1; 2; 3]) eqn:D; cbn [negb]; [|destruct pr; right; eexists; reflexivity].
    destruct pr; [left|left|right; eexists; reflexivity]; (exists e; split; [reflexivity|]; split; [now split|]; split; [lia|]; split; [discriminate|]);
      intros k' [= <-]; now apply zmem123.
  - destruct pr; [left|left|right; eexists; reflexivity]; (exists e; split; [reflexivity|]; split; [now split|]; split; [lia|]; split; discriminate).
Qed.

Lemma create_reader_total a enc bc tc e pr dim d log x : readable d enc bc tc -> attrs_ok a -> 3600 <= zlen d -> pr <> NotCallable ->
  (forall k, dim = Some k -> In k [1; 2; 3]) -> encoding_used enc d x ->
  exists r q log', create_reader a enc bc tc (Some e) pr dim (mk_world (mk_file d 0) log) = (r, mk_world (mk_file d q) log') /\
    open_outcome x bc tc e d r /\
    forall rd, r = Ok rd -> exists ts t p, opened x bc tc e dim d rd ts t /\
      scan tc e (sample_size t) d (first_trace (rd_ext rd)) ts p /\ zlen d < p + 240 /\ log' = log ++ scan_log d ts p ++ [(1, 1)].
Proof.
  intros (HB & B & T & HE) A L P D X. pose proof (guessed_supported enc d x HE X) as S.
  unfold create_reader. erewrite wbind_ok by (apply checks_pass; assumption). unfold wbind. rewrite (make_reader_enc _ _ _ _ _ _ _ _ X).
  destruct (make_reader_total x bc tc e dim d log S B T HB L D) as (r & q & log' & R & O & K). rewrite R.
  destruct r as [rd|y].
  - destruct (K rd eq_refl) as (ts & t & p & OP & SC & PE & ->).
    eexists _, _, _. split; [reflexivity|]. split; [exact O|]. intros rd' [= <-]. exists ts, t, p. split; [exact OP|]. split; [exact SC|].
    split; [exact PE|]. cbn [w_log]. now rewrite <- !app_assoc.
  - eexists _, _, _. split; [reflexivity|]. split; [exact O|discriminate].
Qed.

Lemma opens_opened d enc bc tc e dim r : readable d enc bc tc -> opens d enc bc tc e dim r ->
  exists x ts t, encoding_used enc d x /\ opened x bc tc e dim d r ts t.
Proof.
  intros RD (a & pr & log & w & O). destruct (encoding_exists enc d) as (x & X).
  destruct (checks_cases a (Some e) pr dim (mk_file d 0) log ltac:(cbn; lia)) as [(e' & [= <-] & A & L & P & D)|(y & E)].
  - cbn [f_data] in L. destruct (create_reader_total a enc bc tc e pr dim d log x RD A L P D X) as (r' & q & log' & R & _ & K).
    rewrite O in R. injection R as <- _. destruct (K r eq_refl) as (ts & t & p & OP & _). exists x, ts, t. auto.
  - unfold create_reader in O. erewrite wbind_err in O by exact E. discriminate.
Qed.

Lemma traces_opened x bc tc e dim d r ts t t' ts' : trace_format tc -> opened x bc tc e dim d r ts t -> traces_of d tc e r t' ts' ->
  t' = t /\ ts' = ts.
Proof.
  intros T O (TY & FT). assert (t' = t) as -> by (eapply sample_type_unique; [exact TY|exact (op_type _ _ _ _ _ _ _ _ _ O)]).
  split; [reflexivity|]. destruct FT as (q & S & E). destruct (op_traces _ _ _ _ _ _ _ _ _ O) as (q' & S' & E').
  destruct (scan_unique tc e _ d _ ts' q ts q' (proj1 (proj1 T)) S S') as (-> & _); auto.
Qed.

(* ------------------------------------------------------------------ *)
(* methods *)
Lemma nth_error_map_some {A B} (f : A -> B) l n b : nth_error (map f l) n = Some b <-> exists a, nth_error l n = Some a /\ f a = b.
Proof.
  rewrite nth_error_map. destruct (nth_error l n) as [a|]; cbn; split.
  - intros [= <-]. eauto.
  - intros (a' & [= <-] & <-). reflexivity.
  - discriminate.
  - intros (a & H & _). discriminate.
Qed.
Lemma In_numbered_map (f : tinfo -> Z) ts k v : In (k, v) (numbered (map f ts)) <-> exists t, trace_of ts k t /\ f t = v.
Proof.
  rewrite In_numbered, nth_error_map_some. unfold trace_of. replace (zlen (map f ts)) with (zlen ts) by (unfold zlen; now rewrite map_length).
  split; [intros (A & t & B & C); eauto|intros (t & (A & B) & C); eauto].
Qed.
Lemma In_keyed_map {K} (f : tinfo -> K) ts v k : In (v, k) (keyed (map f ts)) <-> exists t, trace_of ts k t /\ f t = v.
Proof.
  rewrite In_keyed, nth_error_map_some. unfold trace_of. replace (zlen (map f ts)) with (zlen ts) by (unfold zlen; now rewrite map_length).
  split; [intros (A & t & B & C); eauto|intros (t & (A & B) & C); eauto].
Qed.
Lemma trace_of_unique ts k t t' : trace_of ts k t -> trace_of ts k t' -> t = t'.
Proof. intros (_ & A) (_ & B). congruence. Qed.
Lemma trace_of_exists ts k : 0 <= k < zlen ts -> exists t, trace_of ts k t.
Proof.
  intros H. destruct (nth_error ts (Z.to_nat k)) as [t|] eqn:E; [now exists t|]. apply nth_error_None in E. unfold zlen in H. lia.
Qed.
Lemma In_upto n k : In k (map Z.of_nat (seq 0 n)) <-> 0 <= k < Z.of_nat n.
Proof.
  rewrite in_map_iff. split.
  - intros (i & <- & I). apply in_seq in I. lia.
  - intros H. exists (Z.to_nat k). split; [lia|]. apply in_seq. lia.
Qed.
Lemma sorted_upto n : StronglySorted Z.lt (map Z.of_nat (seq 0 n)).
Proof.
  generalize 0%nat. induction n as [|n IH]; intros s; cbn; constructor; [apply IH|]. apply Forall_forall. intros x I.
  apply in_map_iff in I. destruct I as (i & <- & I). apply in_seq in I. lia.
Qed.
Lemma sorted_NoDup l : StronglySorted Z.lt l -> NoDup l.
Proof.
  induction 1 as [|a l S IH F]; constructor; [|assumption]. intros I. rewrite Forall_forall in F. specialize (F a I). lia.
Qed.

Definition upto (n : Z) : list Z := map Z.of_nat (seq 0 (Z.to_nat n)).

Lemma scan_positions c e bps d p ts q : 0 <= p -> 0 <= bps -> (forall f v, is_field c f -> fd_name f = "num_samples" -> accepts (fd_type f) v -> 0 <= v) ->
  scan c e bps d p ts q -> forall t, In t ts -> 0 <= t_pos t /\ t_pos t + 240 <= zlen d /\ 0 <= t_count t.
Proof.
  intros Hp Hb NN S. induction S as [p|t ts q s L F1 F2 F3 F4 F5 S IH]; intros t' I; [destruct I|].
  assert (0 <= t_count t) by (destruct F3 as (f & A & B & C & _); eauto).
  destruct I as [<-|I]; [lia|]. apply IH; [nia|exact I].
Qed.

Section Opened.
Variables (x : encoding) (bc tc : fmt) (e : endian) (dim : option Z) (d : list Z) (r : reader) (ts : list tinfo) (t : segytype).
Hypothesis T : trace_format tc.
Hypothesis HB : all_bytes d.
Hypothesis O : opened x bc tc e dim d r ts t.

Lemma rd_num : rd_num_traces r = zlen ts.
Proof.
  unfold rd_num_traces. rewrite (he_len _ _ _ _ _ (op_offsets _ _ _ _ _ _ _ _ _ O)). unfold numbered, zlen.
  rewrite combine_length, !map_length, seq_length. lia.
Qed.
Lemma rd_indexes : rd_trace_indexes r = upto (zlen ts).
Proof.
  unfold rd_trace_indexes. pose proof (he_iter _ _ _ _ _ (op_offsets _ _ _ _ _ _ _ _ _ O)) as P. rewrite numbered_fst, map_length in P.
  apply sorted_lt_ext; [apply (op_sorted _ _ _ _ _ _ _ _ _ O)|apply sorted_upto|].
  intros k. unfold upto, zlen. rewrite Nat2Z.id. split; [apply Permutation_in; exact P|apply Permutation_in, Permutation_sym; exact P].
Qed.
Lemma trace_placed tr : In tr ts -> 0 <= t_pos tr /\ t_pos tr + 240 <= zlen d /\ 0 <= t_count tr.
Proof.
  destruct (op_traces _ _ _ _ _ _ _ _ _ O) as (q & S & _). pose proof (sample_size_pos t).
  apply (scan_positions tc e (sample_size t) d (first_trace (rd_ext r)) ts q); [unfold first_trace; pose proof (zlen_nonneg (rd_ext r)); lia|lia| |exact S].
  apply T.
Qed.
Lemma trace_in k tr : trace_of ts k tr -> In tr ts.
Proof. intros (_ & H). eapply nth_error_In; eauto. Qed.

Lemma rd_offset k tr : trace_of ts k tr -> cat1_get (rd_offsets r) k = Ok (t_pos tr).
Proof. intros H. apply (he_get _ _ _ _ _ (op_offsets _ _ _ _ _ _ _ _ _ O)), In_numbered_map. eauto. Qed.
Lemma rd_count k tr : trace_of ts k tr -> rd_num_trace_samples r k = Ok (t_count tr).
Proof. intros H. apply (he_get _ _ _ _ _ (op_lengths _ _ _ _ _ _ _ _ _ O)), In_numbered_map. eauto. Qed.
Lemma rd_count_none k : ~ 0 <= k < zlen ts -> rd_num_trace_samples r k = Err KeyError.
Proof.
  intros H. apply (he_absent _ _ _ _ _ (op_lengths _ _ _ _ _ _ _ _ _ O)). rewrite numbered_fst, In_upto, map_length.
  unfold zlen in H. exact H.
Qed.
Lemma lengths_iter : cat1_iter (rd_lengths r) = upto (zlen ts).
Proof.
  pose proof (he_iter _ _ _ _ _ (op_lengths _ _ _ _ _ _ _ _ _ O)) as P. rewrite numbered_fst, map_length in P.
  apply sorted_lt_ext; [apply (op_sorted _ _ _ _ _ _ _ _ _ O)|apply sorted_upto|].
  intros k. unfold upto, zlen. rewrite Nat2Z.id. split; [apply Permutation_in; exact P|apply Permutation_in, Permutation_sym; exact P].
Qed.

Lemma fold_max l : forall v, let m := fold_left Z.max l v in v <= m /\ (forall y, In y l -> y <= m) /\ (m = v \/ In m l).
Proof.
  induction l as [|a l IH]; intros v; cbn; [intuition lia|]. destruct (IH (Z.max v a)) as (A & B & C).
  split; [lia|]. split; [intros y [<-|I]; [lia|auto]|]. destruct C as [C|C]; [|auto]. rewrite C. lia.
Qed.
Lemma upto_counts : map_res (cat1_get (rd_lengths r)) (upto (zlen ts)) = Ok (map t_count ts).
Proof.
  apply map_res_iff. unfold upto, zlen. rewrite Nat2Z.id.
  assert (G : forall l l', ts = l ++ l' -> Forall2 (fun k v => cat1_get (rd_lengths r) k = Ok v) (map Z.of_nat (seq (length l) (length l'))) (map t_count l')).
  { intros l l'. revert l. induction l' as [|t' l' IH]; intros l E; cbn; constructor.
    - apply (rd_count (Z.of_nat (length l)) t'). rewrite E. split; [unfold zlen; rewrite app_length; cbn; lia|].
      rewrite Nat2Z.id, nth_error_app2 by lia. now rewrite Nat.sub_diag.
    - specialize (IH (l ++ [t'])). rewrite app_length in IH. cbn [length] in IH. rewrite Nat.add_1_r in IH. apply IH. now rewrite <- app_assoc. }
  exact (G [] ts eq_refl).
Qed.
Lemma rd_max : exists m, rd_max_num_trace_samples r = Ok m /\ (exists tr, In tr ts /\ t_count tr = m) /\ forall tr, In tr ts -> t_count tr <= m.
Proof.
  unfold rd_max_num_trace_samples. rewrite lengths_iter, upto_counts. cbn [bind].
  pose proof (op_nonempty _ _ _ _ _ _ _ _ _ O) as NE. destruct ts as [|t0 tr0] eqn:E; [congruence|]. cbn [map].
  eexists; split; [reflexivity|]. destruct (fold_max (map t_count tr0) (t_count t0)) as (A & B & C). split.
  - destruct C as [C|C]; [exists t0; split; [now left|congruence]|]. apply in_map_iff in C. destruct C as (t' & F & I). exists t'. split; [now right|exact F].
  - intros tr [<-|I]; [exact A|]. apply B. now apply in_map.
Qed.

(* samples *)
Lemma rd_samples native k a b q :
  (~ 0 <= k < zlen ts -> rd_trace_samples native r k a b (mk_file d q) = (Err ValueError, mk_file d q)) /\
  (forall tr, trace_of ts k tr -> let a' := or_else a 0 in let b' := or_else b (t_count tr) in
    (~ 0 <= a' <= b' \/ ~ b' <= t_count tr -> rd_trace_samples native r k a b (mk_file d q) = (Err ValueError, mk_file d q)) /\
    (0 <= a' <= b' -> b' <= t_count tr -> a' < b' -> zlen d < t_pos tr + 240 + sample_size t * b' ->
       exists q', rd_trace_samples native r k a b (mk_file d q) = (Err EOFError, mk_file d q')) /\
    (0 <= a' <= b' -> b' <= t_count tr -> a' = b' \/ t_pos tr + 240 + sample_size t * b' <= zlen d ->
       exists rs q', rd_trace_samples native r k a b (mk_file d q) = (Ok rs, mk_file d q') /\
         zlen rs = b' - a' /\ samples_at t e d (t_pos tr + 240 + sample_size t * a') rs)).
Proof.
  pose proof (sample_size_pos t) as SP. split.
  - intros H. unfold rd_trace_samples. rewrite rd_num. replace ((0 <=? k) && (k <? zlen ts)) with false by lia. reflexivity.
  - intros tr TR. pose proof (proj1 TR) as RG. destruct (trace_placed tr (trace_in k tr TR)) as (P1 & P2 & P3). cbv zeta.
    set (a' := or_else a 0). set (b' := or_else b (t_count tr)).
    assert (EX : rd_trace_samples native r k a b (mk_file d q) =
      (if negb ((0 <=? b') && (b' <=? t_count tr)) then raise ValueError else if negb ((0 <=? a') && (a' <=? b')) then raise ValueError
       else read_binary_values native (Some (t_pos tr + 240 + a' * sample_size t)) t (b' - a') e) (mk_file d q)).
    { unfold rd_trace_samples. rewrite rd_num. replace ((0 <=? k) && (k <? zlen ts)) with true by lia. cbn [negb].
      rewrite (ibind_ok (lift (rd_num_trace_samples r k)) _ (mk_file d q) (t_count tr) (mk_file d q)) by (unfold lift; now rewrite (rd_count k tr TR)).
      change (match a with Some s => s | None => 0 end) with a'. change (match b with Some s => s | None => t_count tr end) with b'. cbv zeta.
      destruct (negb _); [reflexivity|]. destruct (negb _); [reflexivity|].
      erewrite ibind_ok by (unfold lift; rewrite (sample_format_ok _ _ (op_type _ _ _ _ _ _ _ _ _ O)); reflexivity).
      erewrite ibind_ok by (unfold lift; rewrite (rd_offset k tr TR); reflexivity).
      rewrite ctype_of_size, (op_endian _ _ _ _ _ _ _ _ _ O). reflexivity. }
    clearbody a' b'. rewrite EX. clear EX.
    split; [|split].
    + intros H. destruct ((0 <=? b') && (b' <=? t_count tr)) eqn:E1; [|reflexivity]. cbn [negb].
      destruct ((0 <=? a') && (a' <=? b')) eqn:E2; [lia|reflexivity].
    + intros H1 H2 H3 H4. replace ((0 <=? b') && (b' <=? t_count tr)) with true by lia. replace ((0 <=? a') && (a' <=? b')) with true by lia. cbn [negb].
      apply read_values_eof; nia.
    + intros H1 H2 H3. replace ((0 <=? b') && (b' <=? t_count tr)) with true by lia. replace ((0 <=? a') && (a' <=? b')) with true by lia. cbn [negb].
      replace (t_pos tr + 240 + sample_size t * a') with (t_pos tr + 240 + a' * sample_size t) by lia.
      apply read_values_ok; [exact HB|nia|lia|nia].
Qed.

(* headers *)
Lemma rd_header_as ov c' e' k q : format_ok c' 240 -> make_header_packer c' e' = Ok (match ov with Some p => p | None => rd_packer r end) ->
  (~ 0 <= k < zlen ts -> rd_trace_header r k ov (mk_file d q) = (Err ValueError, mk_file d q)) /\
  (forall tr, trace_of ts k tr ->
    (exists h q', rd_trace_header r k ov (mk_file d q) = (Ok h, mk_file d q') /\ holds_buffer c' e' (block d (t_pos tr) 240) h) \/
    (exists n q', rd_trace_header r k ov (mk_file d q) = (Err EOFError, mk_file d q') /\ bad_field_at c' e' d (t_pos tr) n)).
Proof.
  intros FO PK. unfold rd_trace_header. rewrite rd_num. split.
  - intros H. replace ((0 <=? k) && (k <? zlen ts)) with false by lia. reflexivity.
  - intros tr TR. pose proof (proj1 TR) as RG. destruct (trace_placed tr (trace_in k tr TR)) as (P1 & P2 & P3).
    replace ((0 <=? k) && (k <? zlen ts)) with true by lia. cbn [negb].
    rewrite (ibind_ok (lift (cat1_get (rd_offsets r) k)) _ (mk_file d q) (t_pos tr) (mk_file d q)) by (unfold lift; now rewrite (rd_offset k tr TR)).
    unfold read_trace_header. erewrite ibind_ok by reflexivity. erewrite ibind_ok by (apply seek_ok; exact P1). cbn [f_data].
    erewrite ibind_ok by reflexivity. cbn [f_data f_pos]. unfold TRACE_HEADER_NUM_BYTES. rewrite block_slice by lia.
    assert (LB : zlen (block d (t_pos tr) 240) = 240) by (unfold block; rewrite zlen_firstn, zlen_skipn; lia).
    assert (BB : all_bytes (block d (t_pos tr) 240)) by (rewrite <- block_slice by lia; now apply all_bytes_slice).
    destruct FO as (C & TF & ST & OR & LEN & MK).
    unfold lift. destruct (unpack_iff c' e' _ _ C ST OR PK BB) as [(h & U & _ & H)|(U & R)]; rewrite U.
    + left. exists h. eexists. split; [reflexivity|exact H].
    + right. destruct R as [R|(f & v & F & I & S & A)]; [exfalso; apply R; unfold header_length; now rewrite LEN|].
      exists (fd_name f). eexists. split; [reflexivity|]. exists f, v. repeat (split; [assumption || reflexivity|]).
      rewrite <- block_slice in S by lia. apply (stored_of_slice e' d (t_pos tr) (t_pos tr + 240)) in S; [exact S|lia| |lia|lia].
      specialize (ST f F). unfold field_pos. lia.
Qed.

Lemma rd_header k q :
  (~ 0 <= k < zlen ts -> rd_trace_header r k None (mk_file d q) = (Err ValueError, mk_file d q)) /\
  (forall tr, trace_of ts k tr ->
    (exists h q', rd_trace_header r k None (mk_file d q) = (Ok h, mk_file d q') /\ holds_buffer tc e (block d (t_pos tr) 240) h) \/
    (exists n q', rd_trace_header r k None (mk_file d q) = (Err EOFError, mk_file d q') /\ bad_field_at tc e d (t_pos tr) n)).
Proof. apply (rd_header_as None); [exact (proj1 T)|exact (op_packer _ _ _ _ _ _ _ _ _ O)]. Qed.

(* the 3D index *)
Lemma kind3 : NoDup (pairs ts) -> dim = None \/ dim = Some 3 ->
  exists c, rd_kind r = Kind3D (Some c) /\ fst (create2 (keyed (pairs ts))) = Ok (Some c).
Proof.
  intros ND D. destruct (op_kind _ _ _ _ _ _ _ _ _ O) as (k & CH & KF). assert (k = 3) as ->.
  { destruct D as [-> | ->]; [|exact CH]. destruct CH as [(_ & H)|[(H & _)|(H & _)]]; [exact H|tauto|tauto]. }
  destruct KF as [(H & _)|[(H & _)|(_ & o & E & K & _)]]; [lia|lia|]. destruct (K ND) as (c & -> & CR). eauto.
Qed.
Lemma pairs_nonempty : keyed (pairs ts) <> [].
Proof.
  intros H. unfold keyed in H. apply map_eq_nil in H. apply numbered_nonempty in H; [assumption|].
  pose proof (op_nonempty _ _ _ _ _ _ _ _ _ O). unfold pairs. destruct ts; [congruence|discriminate].
Qed.
Lemma cdps_nonempty : keyed (map t_cdp ts) <> [].
Proof.
  intros H. unfold keyed in H. apply map_eq_nil in H. apply numbered_nonempty in H; [assumption|].
  pose proof (op_nonempty _ _ _ _ _ _ _ _ _ O). destruct ts; [congruence|discriminate].
Qed.
Lemma in_trace_of tr : In tr ts <-> exists k, trace_of ts k tr.
Proof.
  split; [|intros (k & H); now apply (trace_in k)]. intros H. apply In_nth_error in H. destruct H as (n & H). exists (Z.of_nat n).
  assert (n < length ts)%nat by (apply nth_error_Some; congruence). split; [unfold zlen; lia|now rewrite Nat2Z.id].
Qed.

Lemma index_3d : NoDup (pairs ts) -> dim = None \/ dim = Some 3 ->
  (forall i j k, rd_trace_index3 r (i, j) = Ok k <-> exists tr, trace_of ts k tr /\ t_inline tr = i /\ t_xline tr = j) /\
  (forall i j, (exists tr, In tr ts /\ t_inline tr = i /\ t_xline tr = j) \/ rd_trace_index3 r (i, j) = Err KeyError) /\
  (forall i j, exists b, rd_has_trace_index3 r (i, j) = Ok b /\ (b = true <-> exists tr, In tr ts /\ t_inline tr = i /\ t_xline tr = j)) /\
  (exists s, rd_inline_numbers r = Ok s /\ StronglySorted Z.lt (sseq_list s) /\ forall i, In i (sseq_list s) <-> In i (map t_inline ts)) /\
  (exists s, rd_xline_numbers r = Ok s /\ StronglySorted Z.lt (sseq_list s) /\ forall j, In j (sseq_list s) <-> In j (map t_xline ts)) /\
  (exists l, rd_inline_xline_numbers r = Ok l /\ Permutation l (pairs ts)).
Proof.
  intros ND D. destruct (kind3 ND D) as (c & K & CR).
  assert (ND' : NoDup (map fst (keyed (pairs ts)))) by now rewrite keyed_fst.
  destruct (create2_holds _ pairs_nonempty ND') as (c' & E & H & S1 & S2 & M1 & M2). rewrite CR in E. injection E as <-.
  unfold rd_trace_index3, rd_has_trace_index3, rd_inline_numbers, rd_xline_numbers, rd_inline_xline_numbers, line_numbers. rewrite K.
  assert (IN : forall i j k, In ((i, j), k) (keyed (pairs ts)) <-> exists tr, trace_of ts k tr /\ t_inline tr = i /\ t_xline tr = j).
  { intros i j k. unfold pairs. rewrite In_keyed_map. split; intros (tr & A & B).
    - exists tr. injection B as <- <-. auto.
    - exists tr. destruct B as (-> & ->). auto. }
  assert (INF : forall i j, In (i, j) (map fst (keyed (pairs ts))) <-> exists tr, In tr ts /\ t_inline tr = i /\ t_xline tr = j).
  { intros i j. rewrite keyed_fst. unfold pairs. rewrite in_map_iff. split; intros (tr & A & B).
    - exists tr. injection A as <- <-. auto.
    - exists tr. destruct B as (-> & ->). auto. }
  split; [|split; [|split; [|split; [|split]]]].
  - intros i j k. split.
    + intros G. destruct (in_dec pair_dec (i, j) (map fst (keyed (pairs ts)))) as [I|I].
      * apply in_map_iff in I. destruct I as ((p & k') & Ep & I). cbn in Ep. subst p. rewrite (he_get _ _ _ _ _ H _ _ I) in G. injection G as <-. now apply IN.
      * rewrite (he_absent _ _ _ _ _ H _ I) in G. discriminate.
    + intros G. apply (he_get _ _ _ _ _ H). now apply IN.
  - intros i j. destruct (in_dec pair_dec (i, j) (map fst (keyed (pairs ts)))) as [I|I]; [left; now apply INF|right].
    now apply (he_absent _ _ _ _ _ H).
  - intros i j. eexists; split; [reflexivity|]. rewrite (he_mem _ _ _ _ _ H). apply INF.
  - eexists; split; [reflexivity|]. split; [exact S1|]. intros i. rewrite M1. split.
    + intros (j & k & I). apply IN in I. destruct I as (tr & A & B & _). subst i. apply in_map. now apply (trace_in k).
    + intros I. apply in_map_iff in I. destruct I as (tr & <- & I). apply in_trace_of in I. destruct I as (k & I). exists (t_xline tr), k. apply IN. eauto.
  - eexists; split; [reflexivity|]. split; [exact S2|]. intros j. rewrite M2. split.
    + intros (i & k & I). apply IN in I. destruct I as (tr & A & _ & B). subst j. apply in_map. now apply (trace_in k).
    + intros I. apply in_map_iff in I. destruct I as (tr & <- & I). apply in_trace_of in I. destruct I as (k & I). exists (t_inline tr), k. apply IN. eauto.
  - eexists; split; [reflexivity|]. rewrite <- (keyed_fst (pairs ts)). apply (he_iter _ _ _ _ _ H).
Qed.

(* the 2D index *)
Lemma index_2d : NoDup (map t_cdp ts) -> (dim = None /\ ~ NoDup (pairs ts)) \/ dim = Some 2 ->
  (forall c k, rd_trace_index2 r c = Ok k <-> exists tr, trace_of ts k tr /\ t_cdp tr = c) /\
  (forall c, In c (map t_cdp ts) \/ rd_trace_index2 r c = Err KeyError) /\
  (forall c, exists b, rd_has_trace_index2 r c = Ok b /\ (b = true <-> In c (map t_cdp ts))) /\
  (exists s, rd_cdp_numbers r = Ok s /\ StronglySorted Z.lt (sseq_list s) /\ forall c, In c (sseq_list s) <-> In c (map t_cdp ts)) /\
  rd_num_cdps r = Ok (zlen ts).
Proof.
  intros ND D. destruct (op_kind _ _ _ _ _ _ _ _ _ O) as (k & CH & KF). assert (k = 2) as ->.
  { destruct D as [(-> & NP)| ->]; [|exact CH]. destruct CH as [(H & _)|[(_ & _ & H)|(_ & H & _)]]; [tauto|exact H|tauto]. }
  destruct KF as [(H & _)|[(_ & c & K & KH & _)|(H & _)]]; [lia| |lia]. destruct (KH ND) as (H & SS). clear KH.
  unfold rd_trace_index2, rd_has_trace_index2, rd_cdp_numbers, rd_num_cdps. rewrite K.
  assert (PI : forall y, In y (cat1_iter c) <-> In y (map t_cdp ts)).
  { intros y. pose proof (he_iter _ _ _ _ _ H) as P. rewrite keyed_fst in P.
    split; [apply Permutation_in; exact P|apply Permutation_in, Permutation_sym; exact P]. }
  split; [|split; [|split; [|split]]].
  - intros y k. split.
    + intros G. destruct (in_dec Z.eq_dec y (map fst (keyed (map t_cdp ts)))) as [I|I].
      * apply in_map_iff in I. destruct I as ((p & k') & Ep & I). cbn in Ep. subst p. rewrite (he_get _ _ _ _ _ H _ _ I) in G. injection G as <-.
        now apply In_keyed_map.
      * rewrite (he_absent _ _ _ _ _ H _ I) in G. discriminate.
    + intros G. apply (he_get _ _ _ _ _ H). now apply In_keyed_map.
  - intros y. destruct (in_dec Z.eq_dec y (map t_cdp ts)) as [I|I]; [now left|right].
    apply (he_absent _ _ _ _ _ H). now rewrite keyed_fst.
  - intros y. eexists; split; [reflexivity|]. rewrite (he_mem _ _ _ _ _ H), keyed_fst. reflexivity.
  - assert (NI : cat1_iter c <> []).
    { intros EI. pose proof (op_nonempty _ _ _ _ _ _ _ _ _ O) as NE. destruct ts as [|t0 ?]; [congruence|].
      specialize (PI (t_cdp t0)). rewrite EI in PI. cbn in PI. tauto. }
    destruct (msds_list (ItIter (cat1_iter c)) SAscending) as (s & E & _ & M & SO & _); [discriminate|exact NI|discriminate|discriminate|].
    exists s. split; [exact E|]. split; [exact SO|]. intros y. rewrite M. apply PI.
  - rewrite (he_len _ _ _ _ _ H). f_equal. unfold keyed, numbered, zlen. rewrite map_length, combine_length, !map_length, seq_length. lia.
Qed.

Lemma rd_dim : match dim with
  | None => natural_dimensionality ts (rd_dimensionality r)
  | Some 1 => rd_dimensionality r = (if zlen ts =? 1 then 1 else 0)
  | Some k => rd_dimensionality r = k
  end.
Proof.
  destruct (op_kind _ _ _ _ _ _ _ _ _ O) as (k & CH & KF).
  assert (RK : rd_dimensionality r = if k =? 1 then (if zlen ts =? 1 then 1 else 0) else k).
  { unfold rd_dimensionality. rewrite rd_num. destruct KF as [(-> & ->)|[(-> & c & -> & _)|(-> & c & -> & _)]]; reflexivity. }
  destruct dim as [y|].
  - cbn in CH. subst y. assert (K : k = 1 \/ k = 2 \/ k = 3) by (destruct KF as [(-> & _)|[(-> & _)|(-> & _)]]; tauto).
    rewrite RK. destruct K as [-> |[-> | ->]]; reflexivity.
  - unfold natural_dimensionality. change (map (fun t0 : tinfo => (t_inline t0, t_xline t0)) ts) with (pairs ts).
    destruct CH as [(A & ->)|[(A & B & ->)|(A & B & ->)]]; rewrite RK; cbn [Z.eqb Pos.eqb].
    + split; [|split]; split; try tauto; try discriminate.
    + split; [|split]; split; try tauto; try discriminate.
    + destruct (zlen ts =? 1) eqn:E; [|split; [|split]; split; try tauto; try discriminate].
      exfalso. apply A. assert (length ts = 1%nat) by (unfold zlen in E; lia). unfold pairs. destruct ts as [|t0 [|? ?]]; try discriminate.
      cbn. constructor; [easy|constructor].
Qed.
End Opened.

(* ------------------------------------------------------------------ *)
(* histories *)
Definition positionless {A} (m : io A) : Prop := forall d q q',
  fst (m (mk_file d q)) = fst (m (mk_file d q')) /\ f_data (snd (m (mk_file d q))) = d.
Definition keeps {A} (m : io A) : Prop := forall f, f_data (snd (m f)) = f_data f.

Lemma keeps_ibind {A B} (m : io A) (k : A -> io B) : keeps m -> (forall a, keeps (k a)) -> keeps (ibind m k).
Proof.
  intros M K f. unfold ibind. pose proof (M f) as E. destruct (m f) as [[a|y] f1]; cbn [snd] in *; [|exact E]. rewrite K. exact E.
Qed.
Lemma keeps_lift {A} (v : res A) : keeps (lift v).  Proof. intros f. reflexivity. Qed.
Lemma keeps_ret {A} (v : A) : keeps (ret v).  Proof. intros f. reflexivity. Qed.
Lemma keeps_raise {A} y : keeps (@raise A y).  Proof. intros f. reflexivity. Qed.
Lemma keeps_read n : keeps (read n).  Proof. intros f. reflexivity. Qed.
Lemma keeps_read_opt n : keeps (read_opt n).
Proof. intros f. unfold read_opt. destruct n as [n|]; [destruct (n <? 0)|]; reflexivity. Qed.
Lemma keeps_seek n : keeps (seek n).  Proof. intros f. unfold seek. destruct (n <? 0); reflexivity. Qed.
Lemma positionless_raise {A} y : positionless (@raise A y).
Proof. intros d q q'. now split. Qed.
Lemma positionless_lift {A B} (v : res A) (k : A -> io B) : (forall a, positionless (k a)) -> positionless (run a <- lift v ;; k a).
Proof. intros K d q q'. unfold ibind, lift. destruct v as [a|y]; [apply K|now split]. Qed.
Lemma positionless_seek {B} p (k : Datatypes.unit -> io B) : (forall u, keeps (k u)) -> positionless (run u <- seek p ;; k u).
Proof.
  intros K d q q'. unfold ibind, seek. destruct (p <? 0); [now split|]. cbn [f_data]. split; [reflexivity|].
  rewrite K. reflexivity.
Qed.
Lemma positionless_ret {A B} (v : A) (k : A -> io B) : positionless (k v) -> positionless (run a <- ret v ;; k a).
Proof. intros K d q q'. apply K. Qed.

Lemma positionless_read_values native p t n e : positionless (read_binary_values native (Some p) t n e).
Proof.
  unfold read_binary_values. apply positionless_ret, positionless_seek. intros _. apply keeps_ibind; [apply keeps_read_opt|]. intros b.
  destruct (zlen b <? _); [apply keeps_raise|]. apply keeps_ibind; [apply keeps_lift|]. intros vs. destruct (_ =? _); [apply keeps_ret|apply keeps_raise].
Qed.
Lemma positionless_samples native r k a b : positionless (rd_trace_samples native r k a b).
Proof.
  unfold rd_trace_samples. destruct (negb _); [apply positionless_raise|]. apply positionless_lift. intros n. cbv zeta.
  destruct (negb _); [apply positionless_raise|]. destruct (negb _); [apply positionless_raise|].
  apply positionless_lift. intros t. apply positionless_lift. intros o. apply positionless_read_values.
Qed.
Lemma positionless_header r k o : positionless (rd_trace_header r k o).
Proof.
  unfold rd_trace_header. destruct (negb _); [apply positionless_raise|]. cbv zeta. apply positionless_lift. intros p.
  unfold read_trace_header. apply positionless_ret, positionless_seek. intros _. apply keeps_ibind; [apply keeps_read|]. intros b. apply keeps_lift.
Qed.

(* what a memo may hold *)
Record memo_ok (r : reader) (m : memo) : Prop := {
  mo_max : forall v, m_max m = Some v -> rd_max_num_trace_samples r = Ok v;
  mo_inline : forall v, m_inline m = Some v -> rd_inline_numbers r = Ok v;
  mo_xline : forall v, m_xline m = Some v -> rd_xline_numbers r = Ok v;
  mo_cdp : forall v, m_cdp m = Some v -> rd_cdp_numbers r = Ok v }.

Lemma memoised_fresh {A} (get : memo -> option A) put c s : get no_memo = None ->
  fst (memoised get put c (mk_session no_memo (s_file s))) = c.
Proof. intros H. unfold memoised. cbn [s_memo]. rewrite H. now destruct c. Qed.
Lemma memoised_hist {A} (get : memo -> option A) put c s : (forall v, get (s_memo s) = Some v -> c = Ok v) ->
  fst (memoised get put c s) = c /\ s_file (snd (memoised get put c s)) = s_file s /\
  (s_memo (snd (memoised get put c s)) = s_memo s \/ exists v, c = Ok v /\ s_memo (snd (memoised get put c s)) = put (s_memo s) v).
Proof.
  intros H. unfold memoised. destruct (get (s_memo s)) as [v|]; [rewrite (H v eq_refl); auto|].
  destruct c as [v|y]; cbn; (split; [reflexivity|split; [reflexivity|]]); [right; eauto|left; reflexivity].
Qed.

Lemma exec_step native r c s s' d : memo_ok r (s_memo s) -> memo_ok r (s_memo s') -> f_data (s_file s) = d -> f_data (s_file s') = d ->
  fst (exec native r c s) = fst (exec native r c s') /\ memo_ok r (s_memo (snd (exec native r c s))) /\
  f_data (s_file (snd (exec native r c s))) = d.
Proof.
  intros M M' D D'.
  assert (ME : forall {A} (get : memo -> option A) put comp (f : A -> answer),
    (forall v, get (s_memo s) = Some v -> comp = Ok v) -> (forall v, get (s_memo s') = Some v -> comp = Ok v) ->
    (forall v, comp = Ok v -> memo_ok r (put (s_memo s) v)) ->
    fst (answers f (memoised get put comp s)) = fst (answers f (memoised get put comp s')) /\
    memo_ok r (s_memo (snd (answers f (memoised get put comp s)))) /\ f_data (s_file (snd (answers f (memoised get put comp s)))) = d).
  { intros A get put comp f H H' P. destruct (memoised_hist get put comp s H) as (E1 & E2 & E3).
    destruct (memoised_hist get put comp s' H') as (F1 & _ & _). unfold answers. cbn [fst snd]. rewrite E1, F1, E2.
    split; [reflexivity|]. split; [|exact D]. destruct E3 as [-> |(v & Ev & ->)]; auto. }
  assert (UF : forall {A} (f : A -> answer) (m : io A), positionless m ->
    fst (uses_file f m s) = fst (uses_file f m s') /\ memo_ok r (s_memo (snd (uses_file f m s))) /\ f_data (s_file (snd (uses_file f m s))) = d).
  { intros A f m P. unfold uses_file. destruct (s_file s) as [d1 q1]. destruct (s_file s') as [d2 q2]. cbn [f_data] in *. subst d1 d2.
    destruct (P d q1 q2) as (P1 & P2). destruct (m (mk_file d q1)) as [v f1]. destruct (m (mk_file d q2)) as [v' f2]. cbn [fst snd] in *.
    subst v'. cbn [s_memo s_file]. auto. }
  destruct c; cbn [exec]; try (unfold pure; cbn [fst snd]; auto; fail);
    try (apply UF; apply positionless_samples); try (apply UF; apply positionless_header);
    (apply ME; [apply M|apply M'|]; intros v Ev; destruct M; split; cbn; auto; intros v' [= <-]; exact Ev).
Qed.

Lemma history native r cs c d q q' :
  let s := exec_all native r cs (mk_session no_memo (mk_file d q)) in
  fst (exec native r c s) = fst (exec native r c (mk_session no_memo (mk_file d q'))) /\ f_data (s_file s) = d.
Proof.
  assert (N : memo_ok r no_memo) by (split; discriminate).
  assert (G : forall s, memo_ok r (s_memo s) -> f_data (s_file s) = d ->
    memo_ok r (s_memo (exec_all native r cs s)) /\ f_data (s_file (exec_all native r cs s)) = d).
  { induction cs as [|c' cs IH]; intros s M D; [now split|]. cbn [exec_all fold_left].
    destruct (exec_step native r c' s s d M M D D) as (_ & M' & D'). apply IH; assumption. }
  destruct (G (mk_session no_memo (mk_file d q)) N eq_refl) as (M & D). cbv zeta. split; [|exact D].
  apply (exec_step native r c _ (mk_session no_memo (mk_file d q')) d M N D eq_refl).
Qed.
