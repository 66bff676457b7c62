(* Opening files with trace header formats of any kind. *)
From Coq Require Import String ZArith List Bool Sorted ListDec Permutation Lia ZifyBool ZifyNat.
From Verif Require Import Py PyFloat IbmFloat Util Catalog Packing Formats FileIO Text TextIO Float32 Toolkit
  PyFacts Spec_Catalog CatalogFacts Spec_Ibm FloatFacts RoundFacts IbmFacts IbmArith Spec_Packing CompileFacts PackFacts HeaderFacts PackingFacts FormatFacts
  Spec_Text TextIOFacts ExtReadFacts Spec_Segy Float32Facts ToolkitFacts Reader Spec_Reader ReaderFacts OpenFacts EarlyFacts Spec_Custom.
Import ListNotations.
Local Open Scope string_scope.
Open Scope list_scope.
Open Scope Z_scope.

(* everything before the search for traces *)
Lemma before_traces x bc tc e dim d log : supported x -> binary_format bc -> all_bytes d -> 3600 <= zlen d ->
  (exists y q, make_reader (Some x) bc tc e dim (mk_world (mk_file d 0) log) = (Err y, mk_world (mk_file d q) log) /\
     forall tx bin ext t, reel_headers x bc e d tx bin ext -> ~ sample_type bin t) \/
  exists tx bin ext t, reel_headers x bc e d tx bin ext /\ sample_type bin t /\
    forall y w, catalog_traces (sample_size t) tc e Callable (mk_world (mk_file d (first_trace ext)) log) = (Err y, w) ->
      make_reader (Some x) bc tc e dim (mk_world (mk_file d 0) log) = (Err y, w).
Proof.
  intros S B HB L. unfold make_reader. erewrite wbind_ok by reflexivity.
  assert (L2 : 3200 <= zlen d) by lia. destruct (read_text_at x d S L2) as [(D & q & R)|(tx & RT & R)].
  { left. erewrite wbind_err by (apply on_file_ok; exact R). eexists _, _. split; [reflexivity|].
    intros tx bin ext t H. exfalso. now apply (text_decodes x d tx (proj1 H)). }
  erewrite wbind_ok by (apply on_file_ok; exact R). clear R.
  destruct (read_binary_at bc e d B HB L) as [(bin & HO & R)|((n & BF) & R)].
  2:{ left. erewrite wbind_err by (apply on_file_ok; exact R). eexists _, _. split; [reflexivity|].
      intros tx' bin ext t H. exfalso. now apply (binary_reads bc e d B L bin n (proj1 (proj2 H))). }
  erewrite wbind_ok by (apply on_file_ok; exact R). clear R.
  erewrite wbind_ok by (apply on_file_ok, seek_ok; discriminate). cbn [f_data]. change REEL_HEADER_NUM_BYTES with 3600.
  assert (B' := B). destruct B' as (BF & FD & FN & FR). destruct (field_of_holds _ _ _ _ _ HO FN) as (n & GN).
  unfold num_extended_textual_headers. rewrite GN, on_lift_ok.
  destruct (read_ext_total x d n 3600 S) as (re & q & R & OE & QE).
  destruct re as [ext|y].
  2:{ left. erewrite wbind_err by (apply on_file_ok; exact R). eexists _, _. split; [reflexivity|].
      intros tx' bin' ext t H. exfalso. exact (headers_ext_err x bc e d S B _ _ _ _ _ _ H HO GN OE). }
  erewrite wbind_ok by (apply on_file_ok; exact R). clear R. rewrite (QE ext eq_refl). clear QE q.
  assert (RH : reel_headers x bc e d tx bin ext) by (split; [exact RT|split; [exact HO|exists n; auto]]).
  destruct (field_of_holds _ _ _ _ _ HO FD) as (code & GC).
  destruct (segy_type_of code) as [t|y] eqn:ST.
  2:{ assert (E : bytes_per_sample bin = Err ValueError) by (unfold bytes_per_sample; rewrite GC; cbn [bind]; now rewrite ST).
      left. rewrite E, on_lift_err. eexists _, _. split; [reflexivity|].
      intros tx' bin' ext' t H TY. destruct (reel_headers_unique x bc e d S B _ _ _ _ _ _ H RH) as (_ & _ & EQ).
      apply (sample_type_transfer bc B bin' bin t EQ) in TY. destruct TY as (c' & G & F). rewrite GC in G. injection G as <-.
      apply format_code_type in F. congruence. }
  apply format_code_type in ST. assert (TY : sample_type bin t) by (exists code; auto).
  rewrite (bps_ok bin t TY), on_lift_ok. right. exists tx, bin, ext, t. split; [exact RH|]. split; [exact TY|].
  intros y w R. now erewrite wbind_err by exact R.
Qed.

(* an error of the search is the outcome *)
Lemma search_fails a enc bc tc e pr dim d log x : binary_format bc -> all_bytes d -> (forall y, enc = Some y -> supported y) -> encoding_used enc d x ->
  forall P : exn -> Prop, (forall t ext, exists y, P y /\ fst (catalog_traces (sample_size t) tc e Callable (mk_world (mk_file d (first_trace ext)) log)) = Err y) ->
  (exists y, fst (create_reader a enc bc tc (Some e) pr dim (mk_world (mk_file d 0) log)) = Err y) /\
  (attrs_ok a -> 3600 <= zlen d -> pr <> NotCallable -> (forall k, dim = Some k -> In k [1; 2; 3]) ->
   forall tx bin ext t, reel_headers x bc e d tx bin ext -> sample_type bin t ->
   exists y, P y /\ fst (create_reader a enc bc tc (Some e) pr dim (mk_world (mk_file d 0) log)) = Err y).
Proof.
  intros B HB HE X P CT. pose proof (guessed_supported enc d x HE X) as S. unfold create_reader.
  destruct (checks_cases a (Some e) pr dim (mk_file d 0) log ltac:(cbn; lia)) as [(e' & [= <-] & A & L & PR & D)|(y & E)].
  2:{ unfold wbind at 1. rewrite E. split; [now exists y|]. intros A L PR D. rewrite (checks_pass a e pr dim d log A L PR D) in E. discriminate. }
  cbn [f_data] in L. erewrite wbind_ok by (apply checks_pass; assumption). unfold wbind. rewrite (make_reader_enc _ _ _ _ _ _ _ _ X).
  destruct (before_traces x bc tc e dim d log S B HB L) as [(y & q & R & N)|(tx & bin & ext & t & RH & TY & R)].
  - rewrite R. split; [now exists y|]. intros _ _ _ _ tx bin ext t RH TY. now destruct (N _ _ _ _ RH TY).
  - destruct (CT t ext) as (y & PY & CE). destruct (catalog_traces (sample_size t) tc e Callable (mk_world (mk_file d (first_trace ext)) log)) as [c w] eqn:C.
    cbn [fst] in CE. subst c. rewrite (R _ _ eq_refl). split; [now exists y|]. intros. now exists y.
Qed.

(* a format without one of the fields *)
Lemma lacking_sub tc names n acc : In n names -> class_field tc n = None -> sub_fields tc names acc = Err AttributeError.
Proof.
  revert acc. induction names as [|m names IH]; intros acc I N; [contradiction|]. cbn [sub_fields].
  destruct (class_field tc m) as [f|] eqn:E; [|reflexivity]. destruct I as [->|I]; [congruence|]. now apply IH.
Qed.
Lemma lacking_search bps tc e w n : class_ok tc -> In n catalog_field_names -> ~ has_field tc n ->
  catalog_traces bps tc e Callable w = (Err AttributeError, w).
Proof.
  intros C I N. unfold catalog_traces, catalog_traces_fuel, sub_format.
  destruct (class_field tc n) as [f|] eqn:E.
  { apply class_field_spec in E; [|now apply class_ok_levels]. exfalso. apply N. exists f. exact E. }
  rewrite (lacking_sub tc _ n [] I E). cbn [bind]. now destruct w.
Qed.

(* ------------------------------------------------------------------ *)
(* formats with a signed number of samples *)
Lemma ordered_packer c e : ordered_format c -> exists sub p,
  sub_format "CatalogSubFormat" c catalog_field_names = Ok sub /\ make_header_packer sub e = Ok p /\
  forall buf, all_bytes buf -> zlen buf = 240 ->
    (exists h, pk_unpack p buf = Ok h /\ forall n, In n catalog_names -> exists v, hdr_get h n = Ok v /\ field_at c e buf 0 n v) \/
    (pk_unpack p buf = Err ValueError /\ exists n, In n catalog_names /\ bad_field_at c e buf 0 n).
Proof.
  intros ((C & TF & ST & OR & LEN & MK) & HF & HO').
  assert (HO : forall f g ns1 ns2 ns3, catalog_names = ns1 ++ fd_name f :: ns2 ++ fd_name g :: ns3 -> is_field c f -> is_field c g ->
     fd_offset f < fd_offset g) by (intros f g a b z E If Ig; exact (HO' _ _ _ _ _ E f g If Ig eq_refl eq_refl)).
  destruct (sub_format_ok "CatalogSubFormat" c catalog_field_names (class_ok_levels c C) HF) as (sub & fs & SF & LV & ND & SO).
  pose proof (PackingFacts.sub_class_ok sub c _ _ fs C LV ND SO) as SC.
  pose proof (sub_in_order c _ _ sub (class_ok_levels c C) HF HO SF) as SI.
  destruct (MK e) as (p0 & P0). destruct SO as (S1 & S2 & S3).
  assert (EF : exists f, is_field sub f).
  { destruct (HF "num_samples" ltac:(cbn; tauto)) as (f & F & N). exists f. apply S3. split; [exact F|]. rewrite N. cbn. tauto. }
  destruct (sub_compiles sub c _ e p0 240 C SC (conj S1 (conj S2 S3)) LEN P0 EF) as (p & P).
  exists sub, p. split; [exact SF|]. split; [exact P|]. intros buf B L.
  assert (SS : starts_ok sub). { intros f F. rewrite S1. apply ST. now apply S3. }
  assert (FP : forall f, field_pos sub f = field_pos c f) by (intros f; unfold field_pos; now rewrite S1).
  destruct (unpack_iff sub e p buf SC SS (or_intror SI) P B) as [(h & U & _ & H & HB)|(U & R)].
  - left. exists h. split; [exact U|]. intros n N. destruct (HF n N) as (f & F & E).
    destruct (HB f) as (v & G & A & I & S). { apply S3. split; [exact F|]. now rewrite E. }
    exists v. rewrite <- E. split; [exact G|]. exists f. rewrite FP in S. auto.
  - right. split; [exact U|]. destruct R as [R|(f & v & F & I & S & A)].
    + exfalso. apply R. unfold header_length. rewrite S2, LEN. exact L.
    + apply S3 in F. destruct F as (F & N). exists (fd_name f). split; [exact N|]. exists f, v. rewrite FP in S. auto.
Qed.

(* where following the headers stops *)
Definition stops (c : fmt) (e : endian) (d : list Z) (q : Z) : Prop :=
  q < 0 \/ zlen d < q + 240 \/ exists n, bad_field_at c e d q n /\ In n catalog_names.

Section Round.
Variables (c : fmt) (e : endian) (bps : Z) (d : list Z) (p : packer).
Hypothesis C : class_ok c.
Hypothesis ST : starts_ok c.
Hypothesis HB : all_bytes d.
Hypothesis HP : forall buf, all_bytes buf -> zlen buf = 240 ->
    (exists h, pk_unpack p buf = Ok h /\ forall n, In n catalog_names -> exists v, hdr_get h n = Ok v /\ field_at c e buf 0 n v) \/
    (pk_unpack p buf = Err ValueError /\ exists n, In n catalog_names /\ bad_field_at c e buf 0 n).

Lemma loop_stops fuel : d <> [] -> forall k pos b x log,
  exists ts q, scan c e bps d pos ts q /\ inside ts /\ exists r w, catalog_loop fuel p bps (zlen d) k pos b (mk_world (mk_file d x) log) = (r, w) /\
    ((r = Err OutOfFuel /\ length ts = fuel) \/ (r <> Err OutOfFuel /\ stops c e d q)).
Proof.
  intros ND. assert (DL : 0 < zlen d) by (destruct d; [congruence|rewrite zlen_cons; pose proof (zlen_nonneg l); lia]).
  induction fuel as [|fuel IH]; intros k pos b x log.
  { exists [], pos. split; [constructor|]. split; [constructor|]. eexists _, _. split; [reflexivity|]. now left. }
  cbn [catalog_loop]. rewrite report_ok by lia. cbn [w_file w_log].
  destruct (Z_lt_dec pos 0) as [NG|Hp].
  { exists [], pos. split; [constructor|]. split; [constructor|]. unfold seek, on_file, wbind at 1. destruct (pos <? 0) eqn:E; [|lia].
    eexists _, _. split; [reflexivity|]. right. split; [discriminate|]. now left. }
  erewrite wbind_ok by (apply on_file_ok, seek_ok; lia). cbn [f_data].
  erewrite wbind_ok by (apply on_file_ok; reflexivity). cbn [f_data f_pos].
  set (buf := py_slice d pos (pos + TRACE_HEADER_NUM_BYTES)).
  assert (LB : zlen buf = Z.max 0 (Z.min (pos + 240) (zlen d) - pos)).
  { subst buf. unfold TRACE_HEADER_NUM_BYTES. rewrite zlen_py_slice by lia. reflexivity. }
  destruct (zlen buf <? TRACE_HEADER_NUM_BYTES) eqn:E; unfold TRACE_HEADER_NUM_BYTES in E.
  { exists [], pos. split; [constructor|]. split; [constructor|]. eexists _, _. split; [reflexivity|]. right. split; [discriminate|]. right. left. lia. }
  assert (L240 : pos + 240 <= zlen d) by lia.
  assert (BB : all_bytes buf) by now apply all_bytes_slice.
  destruct (HP buf BB ltac:(lia)) as [(h & U & G)|(U & n & N & BAD)]; rewrite U.
  - rewrite on_lift_ok.
    destruct (G "num_samples") as (ns & Gn & An); [cbn; tauto|]. destruct (G "inline_number") as (il & Gi & Ai); [cbn; tauto|].
    destruct (G "crossline_number") as (xl & Gx & Ax); [cbn; tauto|]. destruct (G "ensemble_num") as (en & Ge & Ae); [cbn; tauto|].
    destruct (G "file_sequence_num") as (fs & _ & Af); [cbn; tauto|].
    rewrite Gn, Gi, Gx, Ge, !on_lift_ok. clear Gn Gi Gx Ge G U.
    apply (field_of_slice c e d pos) in An; [|first [assumption|lia]..]. apply (field_of_slice c e d pos) in Ai; [|first [assumption|lia]..].
    apply (field_of_slice c e d pos) in Ax; [|first [assumption|lia]..]. apply (field_of_slice c e d pos) in Ae; [|first [assumption|lia]..].
    apply (field_of_slice c e d pos) in Af; [|first [assumption|lia]..].
    set (pos' := pos + TRACE_HEADER_NUM_BYTES + ns * bps). unfold TRACE_HEADER_NUM_BYTES in pos'.
    set (b' := mk_builders _ _ _ _).
    destruct (IH (k + 1) pos' b' (pos + zlen buf) (log ++ [(3 * pos, 4 * zlen d)])) as (ts & q & SC & IN & r & w & R & K).
    set (t := mk_tinfo pos ns il xl en). exists (t :: ts), q. split.
    { apply (scan_trace c e bps d t ts q fs); cbn [t t_pos t_count t_inline t_xline t_cdp]; try assumption.
      replace (pos + 240 + bps * ns) with pos' by (subst pos'; lia). exact SC. }
    split; [constructor; [cbn; lia|exact IN]|]. exists r, w. split; [exact R|]. destruct K as [(-> & K)|K]; [left|now right].
    split; [reflexivity|]. cbn. now rewrite K.
  - rewrite on_lift_err. exists [], pos. split; [constructor|]. split; [constructor|]. eexists _, _. split; [reflexivity|].
    right. split; [discriminate|]. right. right. exists n. split; [|exact N]. apply (bad_of_slice c e d pos n ST ltac:(lia) L240 BAD).
Qed.

End Round.

Section Lengths.
Variables (c : fmt) (e : endian) (bps : Z) (d : list Z).
Lemma scan_length pos ts q ts' q' : class_ok c -> scan c e bps d pos ts q -> inside ts -> stops c e d q -> scan c e bps d pos ts' q' -> inside ts' ->
  (length ts' <= length ts)%nat.
Proof.
  intros C S. revert ts' q'. induction S as [pos|t ts q s L F1 F2 F3 F4 F5 S IH]; intros ts' q' IN E S' IN'.
  - inversion S' as [|t' ts2 q2 s' L' G1 G2 G3 G4 G5 S2]; subst; [auto|]. exfalso. inversion IN'; subst. destruct E as [E|[E|(n & B & N)]]; [lia|lia|].
    destruct N as [<-|[<-|[<-|[<-|[<-|[]]]]]]; (eapply field_at_bad; [exact C| |exact B]); eassumption.
  - inversion S' as [|t' ts2 q2 s' L' G1 G2 G3 G4 G5 S2 EP]; subst; [cbn; lia|].
    rewrite EP in *. pose proof (field_at_unique _ _ _ _ _ _ _ C F3 G3) as EC. inversion IN; inversion IN'; subst.
    cbn [length]. apply le_n_S. apply (IH ts2 q'); auto. now rewrite EC.
Qed.
Lemma scan_more a ts b us z : scan c e bps d a ts b -> scan c e bps d b us z -> scan c e bps d a (ts ++ us) z.
Proof. induction 1 as [a|t ts q s L F1 F2 F3 F4 F5 S IH]; intros H; [exact H|]. cbn. econstructor; eauto. Qed.
Lemma scan_cut a ts us z : scan c e bps d a (ts ++ us) z -> exists b, scan c e bps d a ts b /\ scan c e bps d b us z.
Proof.
  revert a. induction ts as [|t ts IH]; intros a S; [exists a; split; [constructor|exact S]|].
  cbn in S. inversion S as [|t' ts2 q2 s' L' G1 G2 G3 G4 G5 S2]; subst. destruct (IH _ S2) as (b & S3 & S4). exists b. split; [|exact S4]. econstructor; eauto.
Qed.
Lemma scan_from a t ts z : scan c e bps d a (t :: ts) z -> a = t_pos t /\ t_pos t + 240 <= zlen d.
Proof. intros S. inversion S; subst. auto. Qed.

Lemma round_repeats q round n : scan c e bps d q round q -> inside round -> scan c e bps d q (concat (repeat round n)) q /\ inside (concat (repeat round n)).
Proof.
  intros S I. induction n as [|n (IH1 & IH2)]; [split; constructor|]. cbn. split; [now apply (scan_more q round q)|]. apply Forall_app. now split.
Qed.
Lemma length_repeats {A} (l : list A) n : l <> [] -> (n <= length (concat (repeat l n)))%nat.
Proof. intros N. induction n as [|n IH]; [lia|]. cbn. rewrite app_length. destruct l; [congruence|]. cbn [length] in *. lia. Qed.

Lemma dup_split (l : list Z) : ~ NoDup l -> exists a x b z, l = a ++ x :: b ++ x :: z.
Proof.
  induction l as [|x l IH]; intros N; [exfalso; apply N; constructor|].
  destruct (in_dec Z.eq_dec x l) as [I|I].
  - apply in_split in I. destruct I as (b & z & ->). now exists [], x, b, z.
  - destruct IH as (a & y & b & z & ->). { intros H. apply N. now constructor. } now exists (x :: a), y, b, z.
Qed.
Lemma map_split_mid {A} (f : A -> Z) l a x b : map f l = a ++ x :: b -> exists a' y b', l = a' ++ y :: b' /\ map f a' = a /\ f y = x /\ map f b' = b.
Proof.
  revert a. induction l as [|y l IH]; intros [|w a] E; try discriminate; cbn in E; injection E as <- E.
  - now exists [], y, l.
  - destruct (IH a E) as (a' & y' & b' & -> & <- & <- & <-). now exists (y :: a'), y', b'.
Qed.

Lemma long_round pos ts q : scan c e bps d pos ts q -> inside ts -> (length d < length ts)%nat -> goes_round c e bps d pos.
Proof.
  intros S IN L. assert (N : ~ NoDup (map t_pos ts)).
  { intros ND. assert (B : forall u, In u (map t_pos ts) -> 0 <= u < zlen d).
    { intros u I. apply in_map_iff in I. destruct I as (t & <- & I). split; [unfold inside in IN; rewrite Forall_forall in IN; auto|].
      apply in_split in I. destruct I as (a & b & ->). destruct (scan_cut _ _ _ _ S) as (z & _ & S'). apply scan_from in S'. lia. }
    assert (NN : NoDup (map Z.to_nat (map t_pos ts))).
    { clear - ND B. induction (map t_pos ts) as [|u l IH]; [constructor|]. inversion ND; subst. cbn. constructor; [|apply IH; auto; intros; apply B; now right].
      intros I. apply in_map_iff in I. destruct I as (v & E & I). assert (v = u); [|congruence].
      pose proof (B u (or_introl eq_refl)). pose proof (B v (or_intror I)). lia. }
    assert (H : (length (map Z.to_nat (map t_pos ts)) <= length (seq 0 (length d)))%nat).
    { apply NoDup_incl_length; [exact NN|]. intros u I. apply in_map_iff in I. destruct I as (v & <- & I). apply in_seq. specialize (B v I). unfold zlen in B. lia. }
    rewrite !map_length, seq_length in H. lia. }
  destruct (dup_split _ N) as (a & x & b & z & E).
  destruct (map_split_mid t_pos ts a x (b ++ x :: z) E) as (a' & t1 & r & -> & _ & E1 & E2).
  destruct (map_split_mid t_pos r b x z E2) as (b' & t2 & z' & -> & _ & E3 & _).
  destruct (scan_cut _ _ _ _ S) as (q1 & S1 & S2). change (t1 :: b' ++ t2 :: z') with ((t1 :: b') ++ t2 :: z') in S2.
  destruct (scan_cut _ _ _ _ S2) as (q2 & S3 & S4).
  destruct (scan_from _ _ _ _ S3) as (Q1 & _). destruct (scan_from _ _ _ _ S4) as (Q2 & _). assert (q2 = q1) as -> by congruence.
  apply Forall_app in IN. destruct IN as (I1 & I2). inversion I2; subst. apply Forall_app in H2. destruct H2 as (I3 & I4).
  exists a', (t_pos t1), (t1 :: b'). split; [exact S1|]. split; [exact S3|]. split; [discriminate|]. split; [exact I1|]. constructor; auto.
Qed.
Lemma round_long pos n : goes_round c e bps d pos -> exists ts q, scan c e bps d pos ts q /\ inside ts /\ (n <= length ts)%nat.
Proof.
  intros (ts & q & round & S & R & N & I1 & I2). destruct (round_repeats q round n R I2) as (R1 & R2).
  exists (ts ++ concat (repeat round n)), q. split; [now apply (scan_more pos ts q)|]. split; [apply Forall_app; now split|].
  rewrite app_length. pose proof (length_repeats round n N). lia.
Qed.
End Lengths.

Lemma search_ends bps c e d pos log : ordered_format c -> all_bytes d -> 0 <= pos ->
  let search fuel := fst (catalog_traces_fuel fuel bps c e (mk_world (mk_file d pos) log)) in
  (goes_round c e bps d pos -> forall fuel, search fuel = Err OutOfFuel) /\
  (search (S (S (length d))) = Err OutOfFuel -> goes_round c e bps d pos).
Proof.
  intros T HB Hp search. destruct (ordered_packer c e T) as (sub & p & SF & MP & HP). destruct T as ((C & TF & ST & OR & LEN & MK) & _).
  assert (D : d = [] \/ d <> []) by (destruct d; [now left|now right]).
  assert (K : forall fuel, d <> [] -> exists ts q, scan c e bps d pos ts q /\ inside ts /\
    ((search fuel = Err OutOfFuel /\ length ts = fuel) \/ (search fuel <> Err OutOfFuel /\ stops c e d q))).
  { intros fuel NE. unfold search, catalog_traces_fuel. rewrite SF, on_lift_ok, MP, on_lift_ok.
    erewrite wbind_ok by (apply on_file_ok, file_length_ok; exact Hp).
    erewrite wbind_ok by (apply on_file_ok; reflexivity). cbn [f_pos f_data].
    destruct (loop_stops c e bps d p ST HB HP fuel NE 0 pos (mk_builders [] [] [] []) pos log) as (ts & q & SC & IN & r & w & R & O).
    exists ts, q. split; [exact SC|]. split; [exact IN|]. destruct O as [(-> & L)|(NF & SP)].
    - left. split; [|exact L]. now erewrite wbind_err by exact R.
    - right. split; [|exact SP]. destruct r as [b|y].
      2:{ erewrite wbind_err by exact R. cbn [fst]. congruence. }
      erewrite wbind_ok by exact R. clear R. rewrite report_ok by lia.
      assert (C1 : forall items, fst (create1 items) <> Err OutOfFuel).
      { intros [|i items]; [discriminate|]. destruct (create1_index (i :: items) ltac:(discriminate)) as (o & EO & _). rewrite EO. discriminate. }
      assert (C2 : forall items, fst (create2 items) <> Err OutOfFuel).
      { intros [|i items]; [discriminate|]. destruct (create2_index (i :: items) ltac:(discriminate)) as (o & EO & _). rewrite EO. discriminate. }
      destruct (fst (create1 (b_offsets b))) as [o|y] eqn:E1; [|rewrite on_lift_err; cbn [fst]; intros [= ->]; now apply (C1 (b_offsets b))].
      rewrite on_lift_ok, report_ok by lia.
      destruct (fst (create1 (b_lengths b))) as [l|y] eqn:E2; [|rewrite on_lift_err; cbn [fst]; intros [= ->]; now apply (C1 (b_lengths b))].
      rewrite on_lift_ok, report_ok by lia.
      destruct (fst (create1 (b_cdps b))) as [cd|y] eqn:E3; [|rewrite on_lift_err; cbn [fst]; intros [= ->]; now apply (C1 (b_cdps b))].
      rewrite on_lift_ok, report_ok by lia.
      destruct (fst (create2 (b_lines b))) as [li|y] eqn:E4; [|rewrite on_lift_err; cbn [fst]; intros [= ->]; now apply (C2 (b_lines b))].
      rewrite on_lift_ok, report_ok by lia. discriminate. }
  split.
  - intros GR fuel. destruct D as [->|NE].
    { exfalso. destruct GR as (us & z & round & S1 & S2 & N & I1 & I2). destruct round as [|u round]; [congruence|].
      apply scan_from in S2. inversion I2 as [|u' r' I3 I4]; subst. destruct S2 as (_ & S2). change (zlen []) with 0 in S2. lia. }
    destruct (K fuel NE) as (ts & q & S & IN & [(E & _)|(_ & SP)]); [exact E|]. exfalso.
    destruct (round_long c e bps d pos (Datatypes.S (length ts)) GR) as (us & z & S' & IN' & L).
    pose proof (scan_length c e bps d _ _ _ _ _ C S IN SP S' IN'). lia.
  - intros E. destruct D as [->|NE].
    { unfold search, catalog_traces_fuel in E. rewrite SF, on_lift_ok, MP, on_lift_ok in E.
      erewrite wbind_ok in E by (apply on_file_ok, file_length_ok; exact Hp).
      erewrite wbind_ok in E by (apply on_file_ok; reflexivity). discriminate. }
    destruct (K (S (S (length d))) NE) as (ts & q & SC & IN & [(_ & L)|(NF & _)]); [|congruence].
    apply (long_round c e bps d pos ts q SC IN). lia.
Qed.
