(* Proofs about header fields extracted in any order. *)
From Coq Require Import String ZArith List Bool Lia Sorted Permutation ZifyBool ZifyNat.
From Verif Require Import Py PyFacts PyFloat IbmFloat Util Spec_Util UtilFacts Catalog Packing Spec_Packing PackFacts CompileFacts HeaderFacts
  PackingFacts Formats FormatFacts FileIO Text TextIOFacts Float32 Toolkit Spec_Segy ToolkitFacts Reader Spec_Reader ReaderFacts OpenFacts
  NumpyExt Spec_Numpy NumpyFacts Spec_Order OrderFacts.
Import ListNotations.
Open Scope Z_scope.

Lemma map_cases {A B} d (f : A -> io B) y l : (forall x, In x l -> reads d (f x) (fun _ => True) \/ fails d (f x) y) ->
  reads d (map_io f l) (fun _ => True) \/ fails d (map_io f l) y.
Proof.
  intros H. assert (D : (exists x, In x l /\ fails d (f x) y) \/ (forall x, In x l -> reads d (f x) (fun _ => True))).
  { induction l as [|a l IH]; [right; intros x []|]. destruct (H a (or_introl eq_refl)) as [R|F]; [|left; exists a; split; [now left|exact F]].
    destruct IH as [(x & X & F)|IH]; [intros; apply H; now right|left; exists x; split; [now right|exact F]|]. right. intros x [<-|X]; auto. }
  destruct D as [D|D]; [right; apply fails_map; auto|left]. eapply reads_weaken; [apply (reads_map d f (fun _ _ => True) l); auto|auto].
Qed.

Section Order.
Variables (d : list Z) (enc : option encoding) (bc tc : fmt) (e : endian) (dim : option Z) (r : reader) (t : segytype) (ts : list tinfo).
Hypothesis RD : readable d enc bc tc.
Hypothesis OP : opens d enc bc tc e dim r.
Hypothesis TR : traces_of d tc e r t ts.

Definition read_as (p : Z) (h : header) (f g : fieldd) : Prop :=
  exists v, place_holds tc e d p g v /\ accepts (fd_type f) v /\ hdr_get h (fd_name f) = Ok v.

Lemma place_slice q g v : is_field tc g -> starts_ok tc -> 0 <= q -> q + 240 <= zlen d ->
  value_at tc e (py_slice d q (q + 240)) g v -> place_holds tc e d q g v.
Proof.
  intros F ST Hq L (I & S). split; [exact I|].
  apply (stored_of_slice e d q (q + 240)); try lia; [|exact S]. specialize (ST g F). unfold field_pos. lia.
Qed.

Lemma place_unique p g v w : place_holds tc e d p g v -> place_holds tc e d p g w -> v = w.
Proof. intros (I & S) (I' & S'). rewrite <- size_of_field in *. exact (stored_unique e d _ _ v w I I' S S'). Qed.

Lemma sub_order_reads names chosen placed : names <> [] -> chosen_as tc names chosen -> placed_as chosen placed ->
  exists sp, sub_packer r names = Ok sp /\ namedtuple_check names = Ok tt /\
  (forall f, In f chosen -> field_dtype (fst sp) (fd_name f) = make_dtype (field_segy_type (fd_type f))) /\
  forall k tr, trace_of ts k tr ->
    reads d (rd_trace_header r k (Some (snd sp))) (fun h => Forall2 (read_as (t_pos tr) h) chosen placed) \/
    (fails d (rd_trace_header r k (Some (snd sp))) EOFError /\ misread tc e d (t_pos tr) chosen placed).
Proof.
  intros NE CH PL. destruct (get_opened d enc bc tc e dim r t ts RD OP TR) as (x & _ & O). pose proof (op_packer _ _ _ _ _ _ _ _ _ O) as PK.
  destruct RD as (HB & _ & T & _). pose proof T as ((C & TF & ST & OR & LEN & MK) & _).
  assert (PC : pk_cls (rd_packer r) = tc).
  { unfold make_header_packer in PK. destruct (compile_struct _ _ _) as [[]|]; [|discriminate]. cbn [bind] in PK. injection PK as <-. reflexivity. }
  pose proof (placed_names_NoDup tc chosen placed (class_ok_levels _ C) (proj2 CH) PL) as ND. rewrite (proj1 CH) in ND.
  assert (ALL : forall buf, all_bytes buf -> _) by (intros buf B; exact (sub_order_cases "SubFormat" tc names e _ 240 buf chosen placed C ST LEN NE CH PL PK B)).
  destruct (ALL [] ltac:(constructor)) as (sub & p & SF & SO & SC & MP & _).
  exists (sub, p). split.
  { unfold sub_packer. rewrite PC, SF, (op_endian _ _ _ _ _ _ _ _ _ O). cbn [bind]. now rewrite MP. }
  split.
  { unfold namedtuple_check. replace (distinct_names names) with true; [reflexivity|]. symmetry. clear - ND.
    induction ND as [|n names I N IH]; [reflexivity|]. cbn [distinct_names]. rewrite IH, andb_true_r. apply negb_true_iff.
    destruct (smem n names) eqn:Q; [|reflexivity]. apply smem_In in Q. contradiction. }
  split.
  { intros f I. cbn [fst]. unfold field_dtype.
    now rewrite (proj2 (class_field_spec sub (fd_name f) f (class_ok_levels _ SC)))
      by (split; [apply SO; split; [now apply (proj2 CH)|rewrite <- (proj1 CH); now apply in_map]|reflexivity]). }
  intros k tr TO. cbn [snd]. unfold rd_trace_header. rewrite (rd_num _ _ _ _ _ _ _ _ _ O). pose proof (proj1 TO) as RG.
  replace ((0 <=? k) && (k <? zlen ts)) with true by lia. cbn [negb].
  destruct (trace_placed _ _ _ _ _ _ _ _ _ T O tr (trace_in ts k tr TO)) as (P1 & P2 & _).
  assert (R0 : forall q, read_trace_header p (Some (t_pos tr)) (mk_file d q) =
     (match pk_unpack p (py_slice d (t_pos tr) (t_pos tr + 240)) with Err ValueError => Err EOFError | x => x end, mk_file d (t_pos tr + zlen (py_slice d (t_pos tr) (t_pos tr + 240))))).
  { intros q. unfold read_trace_header. erewrite ibind_ok by reflexivity. erewrite ibind_ok by (apply seek_ok; exact P1). cbn [f_data].
    unfold ibind, read, lift. cbn [f_data f_pos]. unfold TRACE_HEADER_NUM_BYTES. reflexivity. }
  set (buf := py_slice d (t_pos tr) (t_pos tr + 240)) in *.
  assert (B : all_bytes buf) by now apply all_bytes_slice.
  assert (L : zlen buf = 240) by (unfold buf; rewrite zlen_py_slice by lia; lia).
  destruct (ALL buf B) as (sub' & p' & SF' & _ & _ & MP' & U). rewrite SF in SF'. injection SF' as <-. rewrite MP in MP'. injection MP' as <-.
  assert (PF : forall g, In g placed -> is_field tc g).
  { intros g G. apply (proj2 CH). eapply Permutation_in; [apply Permutation_sym, (proj1 PL)|exact G]. }
  destruct U as [(h & U & _ & RO)|(U & RF)].
  - left. eapply reads_lift_bind; [apply (rd_offset _ _ _ _ _ _ _ _ _ O k tr TO)|]. intros q. rewrite R0, U. eexists. eexists. split; [reflexivity|].
    clear - RO PF ST P1 P2.
    assert (H : forall g, In g placed -> is_field tc g) by auto. clear PF. revert H. induction RO as [|f g l m (v & V & A & G) _ IH]; intros PF; constructor.
    + exists v. split; [apply place_slice; auto; apply PF; now left|auto].
    + apply IH. intros; apply PF; now right.
  - right. split.
    + eapply fails_lift_bind; [apply (rd_offset _ _ _ _ _ _ _ _ _ O k tr TO)|]. intros q. rewrite R0, U. eauto.
    + destruct RF as [RF|(n & f & g & v & N1 & N2 & V & A)]; [contradiction|]. exists n, f, g, v. split; [exact N1|]. split; [exact N2|]. split; [|exact A].
      apply place_slice; auto. apply PF. eapply nth_error_In; exact N2.
Qed.

Lemma order_columns sub ks hs : forall chosen placed, length chosen = length placed ->
  (forall f, In f chosen -> exists dt, field_dtype sub (fd_name f) = Ok dt) ->
  Forall2 (fun k h => exists tr, trace_of ts k tr /\ Forall2 (read_as (t_pos tr) h) chosen placed) ks hs ->
  exists out, map_res (fun n => do _ <- field_dtype sub n ;; do vs <- map_res (fun h => hdr_get h n) hs ;; Ok (n, vs)) (map fd_name chosen) = Ok out /\
    columns_as d e tc ts ks chosen placed out.
Proof.
  induction chosen as [|f l IH]; intros [|g m] LL DT HS; try discriminate.
  - exists []. split; [reflexivity|constructor].
  - destruct (DT f (or_introl eq_refl)) as (dt & ED).
    assert (COL : exists vs, map_res (fun h => hdr_get h (fd_name f)) hs = Ok vs /\ Forall2 (fun k v => exists tr, trace_of ts k tr /\ place_holds tc e d (t_pos tr) g v) ks vs).
    { clear - HS. induction HS as [|k h ks hs (tr & TO & V) _ (vs & E & F)]; [exists []; split; [reflexivity|constructor]|].
      inversion V as [|? ? ? ? (v & P & _ & G) _]; subst. exists (v :: vs). cbn [map_res]. rewrite G. cbn [bind]. rewrite E. split; [reflexivity|].
      constructor; [exists tr; auto|exact F]. }
    destruct COL as (vs & EV & CV).
    destruct (IH m) as (out & EO & FO); [now injection LL|intros; apply DT; now right| |].
    { clear - HS. induction HS as [|k h ks hs (tr & TO & V) _ F]; constructor; auto. inversion V; subst. eauto. }
    exists ((fd_name f, vs) :: out). cbn [map map_res]. rewrite ED. cbn [bind]. rewrite EV. cbn [bind]. rewrite EO. split; [reflexivity|].
    constructor; auto.
Qed.

Lemma headers_any names chosen placed ixs : let ks := match ixs with None => rd_trace_indexes r | Some l => l end in
  names <> [] -> chosen_as tc names chosen -> placed_as chosen placed -> signed_fields tc names ->
  (forall k, In k ks -> exists tr, trace_of ts k tr /\ ~ misread tc e d (t_pos tr) chosen placed) ->
  reads d (extract_trace_headers r names ixs) (columns_as d e tc ts ks chosen placed).
Proof.
  intros ks NE CH PL SG HK. destruct (sub_order_reads names chosen placed NE CH PL) as (sp & E1 & E2 & DT & RH). unfold extract_trace_headers. fold ks.
  eapply reads_lift_bind; [exact E1|]. eapply reads_lift_bind; [exact E2|].
  eapply reads_bind.
  { apply (reads_map d _ (fun k h => exists tr, trace_of ts k tr /\ Forall2 (read_as (t_pos tr) h) chosen placed)).
    intros k K. destruct (HK k K) as (tr & TO & NB). destruct (RH k tr TO) as [G|(_ & B)]; [|contradiction].
    eapply reads_weaken; [exact G|]. eauto. }
  intros hs HS. cbn beta in HS.
  destruct (order_columns (fst sp) ks hs chosen placed) as (out & E & F); auto.
  - now apply Permutation_length, PL.
  - intros f F. rewrite (DT f F). destruct (SG f (proj2 CH f F) ltac:(rewrite <- (proj1 CH); now apply in_map)) as [Q|[Q|[Q|[]]]];
      unfold field_segy_type; rewrite <- Q; cbn; eauto.
  - rewrite (proj1 CH) in E. eapply reads_lift; [exact E|exact F].
Qed.

Lemma headers_any_fail names chosen placed ixs k tr : let ks := match ixs with None => rd_trace_indexes r | Some l => l end in
  names <> [] -> chosen_as tc names chosen -> placed_as chosen placed -> signed_fields tc names -> (forall k, In k ks -> 0 <= k < zlen ts) ->
  In k ks -> trace_of ts k tr -> misread tc e d (t_pos tr) chosen placed -> fails d (extract_trace_headers r names ixs) EOFError.
Proof.
  intros ks NE CH PL SG HK K TO B. destruct (sub_order_reads names chosen placed NE CH PL) as (sp & E1 & E2 & DT & RH). unfold extract_trace_headers. fold ks.
  eapply fails_lift_bind; [exact E1|]. eapply fails_lift_bind; [exact E2|]. apply fails_bind. apply fails_map.
  - intros k' K'. destruct (trace_of_exists ts k' (HK k' K')) as (tr' & TO'). destruct (RH k' tr' TO') as [G|(G & _)]; [left|now right].
    eapply reads_weaken; [exact G|]. auto.
  - exists k. split; [exact K|]. destruct (RH k tr TO) as [G|(G & _)]; [|exact G]. exfalso.
    destruct (G 0) as (h & q' & _ & V). destruct B as (n & f & g & v & N1 & N2 & P & A).
    destruct (Forall2_nth _ _ _ V n f g N1 N2) as (w & P' & A' & _). apply A. now rewrite (place_unique _ _ _ _ P P').
Qed.

(* an unsigned field among them *)
Lemma dtype_err sub hs f : forall chosen, In f chosen -> (forall f, In f chosen -> field_dtype sub (fd_name f) = make_dtype (field_segy_type (fd_type f))) ->
  ~ In (ft_ctype (fd_type f)) [C_i; C_h; C_b] -> (forall f h, In f chosen -> In h hs -> exists v, hdr_get h (fd_name f) = Ok v) ->
  map_res (fun n => do _ <- field_dtype sub n ;; do vs <- map_res (fun h => hdr_get h n) hs ;; Ok (n, vs)) (map fd_name chosen) = Err ValueError.
Proof.
  induction chosen as [|g l IH]; intros I DT NS HG; [contradiction|]. cbn [map map_res].
  assert (GET : exists vs, map_res (fun h => hdr_get h (fd_name g)) hs = Ok vs).
  { clear - HG. induction hs as [|h hs IH]; [exists []; reflexivity|]. destruct (HG g h (or_introl eq_refl) (or_introl eq_refl)) as (v & E).
    destruct IH as (vs & E'); [intros; apply HG; [assumption|now right]|]. exists (v :: vs). cbn [map_res]. now rewrite E, E'. }
  rewrite (DT g (or_introl eq_refl)). destruct GET as (vs & ->).
  assert (UN : forall x, ~ In (ft_ctype (fd_type x)) [C_i; C_h; C_b] -> make_dtype (field_segy_type (fd_type x)) = Err ValueError).
  { intros x N. unfold field_segy_type. destruct (ft_ctype (fd_type x)); cbn in *; tauto. }
  destruct I as [->|I]; [now rewrite (UN f NS)|].
  destruct (make_dtype (field_segy_type (fd_type g))) as [dt|y] eqn:E; cbn [bind].
  - rewrite IH; auto; intros; [apply DT|apply HG]; auto; now right.
  - unfold field_segy_type in E. destruct (ft_ctype (fd_type g)); cbn in E; congruence.
Qed.
Lemma headers_unsigned names chosen placed ixs f : let ks := match ixs with None => rd_trace_indexes r | Some l => l end in
  chosen_as tc names chosen -> placed_as chosen placed -> In f chosen -> ~ In (ft_ctype (fd_type f)) [C_i; C_h; C_b] ->
  (forall k, In k ks -> exists tr, trace_of ts k tr /\ ~ misread tc e d (t_pos tr) chosen placed) ->
  fails d (extract_trace_headers r names ixs) ValueError.
Proof.
  intros ks CH PL I NS HK. assert (NE : names <> []) by (rewrite <- (proj1 CH); destruct chosen; [contradiction|discriminate]).
  destruct (sub_order_reads names chosen placed NE CH PL) as (sp & E1 & E2 & DT & RH). unfold extract_trace_headers. fold ks.
  eapply fails_lift_bind; [exact E1|]. eapply fails_lift_bind; [exact E2|].
  eapply fails_after.
  { apply (reads_map d _ (fun k h => exists tr, trace_of ts k tr /\ Forall2 (read_as (t_pos tr) h) chosen placed)).
    intros k K. destruct (HK k K) as (tr & TO & NB). destruct (RH k tr TO) as [G|(_ & B)]; [|contradiction].
    eapply reads_weaken; [exact G|]. eauto. }
  intros hs HS q. cbn beta in HS. rewrite <- (proj1 CH). unfold lift. rewrite (dtype_err (fst sp) hs f chosen I DT NS); [eauto|].
  intros g h G H. clear - HS G H. induction HS as [|k h' ks hs (tr & _ & F) _ IH]; [contradiction|]. destruct H as [->|H]; [|auto].
  clear - F G. induction F as [|a b l m (v & _ & _ & E) _ IH]; [contradiction|]. destruct G as [->|G]; [eauto|auto].
Qed.

(* a name that is not a field, a name given twice *)
Lemma headers_unknown names ixs n f : In n names -> ~ has_field tc n -> extract_trace_headers r names ixs f = (Err AttributeError, f).
Proof.
  intros N HF. destruct (get_opened d enc bc tc e dim r t ts RD OP TR) as (x & _ & O). pose proof (op_packer _ _ _ _ _ _ _ _ _ O) as PK.
  destruct RD as (HB & _ & T & _). pose proof T as ((C & _) & _).
  assert (PC : pk_cls (rd_packer r) = tc).
  { unfold make_header_packer in PK. destruct (compile_struct _ _ _) as [[]|]; [|discriminate]. cbn [bind] in PK. injection PK as <-. reflexivity. }
  assert (SF : forall acc, sub_fields tc names acc = Err AttributeError).
  { induction names as [|m names IH]; [contradiction|]. intros acc. cbn [sub_fields]. destruct (class_field tc m) as [g|] eqn:CF; [|reflexivity].
    destruct N as [->|N]; [|now apply IH]. exfalso. apply HF. apply class_field_spec in CF; [|now apply class_ok_levels]. destruct CF. exists g. auto. }
  unfold extract_trace_headers, ibind, lift, sub_packer, sub_format. rewrite PC, SF. reflexivity.
Qed.
Lemma headers_repeated names ixs f : names <> [] -> (forall n, In n names -> has_field tc n) -> ~ NoDup names ->
  extract_trace_headers r names ixs f = (Err ValueError, f).
Proof.
  intros NE HF DU. destruct (get_opened d enc bc tc e dim r t ts RD OP TR) as (x & _ & O). pose proof (op_packer _ _ _ _ _ _ _ _ _ O) as PK.
  destruct RD as (HB & _ & T & _). pose proof T as ((C & TF & ST & OR & LEN & MK) & _).
  assert (PC : pk_cls (rd_packer r) = tc).
  { unfold make_header_packer in PK. destruct (compile_struct _ _ _) as [[]|]; [|discriminate]. cbn [bind] in PK. injection PK as <-. reflexivity. }
  destruct (sub_format_ok "SubFormat" tc names (class_ok_levels _ C) HF) as (sub & fs & SF & LV & NDF & SO).
  pose proof (PackingFacts.sub_class_ok sub tc _ _ fs C LV NDF SO) as SC.
  assert (EF : exists f, is_field sub f).
  { destruct names as [|n0 names]; [easy|]. destruct (HF n0 (or_introl eq_refl)) as (g & Hf & <-). exists g. apply SO. split; auto. now left. }
  destruct (sub_compiles sub tc _ e _ 240 C SC SO LEN PK EF) as (p & P).
  unfold extract_trace_headers, ibind, lift, sub_packer. rewrite PC, SF, (op_endian _ _ _ _ _ _ _ _ _ O). cbn [bind]. rewrite P. cbn [bind].
  unfold namedtuple_check. replace (distinct_names names) with false; [reflexivity|]. symmetry.
  destruct (distinct_names names) eqn:Q; [|reflexivity]. exfalso. apply DU. clear - Q. induction names as [|n names IH]; constructor.
  - cbn in Q. intros I. apply smem_In in I. rewrite I in Q. discriminate.
  - apply IH. cbn in Q. now apply andb_prop in Q.
Qed.
(* an ensemble number that is not a trace index *)
Lemma trace2_outside native k m c nums : NoDup (map t_cdp ts) ->
  (dim = None /\ ~ NoDup (map (fun t => (t_inline t, t_xline t)) ts)) \/ dim = Some 2 -> In k (map t_cdp ts) -> ~ 0 <= k < zlen ts ->
  rd_max_num_trace_samples r = Ok m -> ensure_superset (QRange (mk_range 0 m 1)) c = Ok nums -> sseq_list nums <> [] ->
  forall f, extract_trace native r k c f = (Err KeyError, f).
Proof.
  intros NC D IK K EM EN NE f. destruct (get_opened d enc bc tc e dim r t ts RD OP TR) as (x & _ & O).
  destruct (index_2d x bc tc e dim d r ts t O NC D) as (_ & _ & HAS & _). destruct (HAS k) as (b & EB & B). apply B in IK. subst b.
  assert (EH : has_trace_index_int r k = Ok true).
  { unfold has_trace_index_int. unfold rd_has_trace_index2 in EB. destruct (rd_kind r); [discriminate|exact EB|discriminate]. }
  destruct (counts_ok d enc bc tc e dim r t ts RD OP TR) as (_ & _ & _ & CNT & _).
  assert (L : (0 < length (sseq_list nums))%nat) by (destruct (sseq_list nums); [congruence|cbn; lia]).
  unfold extract_trace, ibind, lift. rewrite EH, EM, EN. cbn [negb].
  rewrite !sseq_get_spec, (py_get_ok (sseq_list nums) 0 0), (CatalogFacts.py_get_last' _ 0 NE), (CNT k K) by (unfold zlen; lia). reflexivity.
Qed.

Hypothesis ND : NoDup (map (fun t => (t_inline t, t_xline t)) ts).
Hypothesis DIM : dim = None \/ dim = Some 3.

Lemma one_trace i j k tr k' tr' : trace_of ts k tr -> trace_at ts i j tr -> trace_of ts k' tr' -> trace_at ts i j tr' -> k = k'.
Proof.
  intros K (_ & <- & <-) K' (_ & E1 & E2). destruct (index3 d enc bc tc e dim r t ts RD OP TR ND DIM) as (IX & _).
  assert (A : rd_trace_index3 r (t_inline tr, t_xline tr) = Ok k) by (apply IX; eauto).
  assert (B : rd_trace_index3 r (t_inline tr, t_xline tr) = Ok k') by (apply IX; exists tr'; auto). congruence.
Qed.

Lemma dtypes_ok sub chosen : (forall f, In f chosen -> field_dtype sub (fd_name f) = make_dtype (field_segy_type (fd_type f))) ->
  ((forall f, In f chosen -> In (ft_ctype (fd_type f)) [C_i; C_h; C_b]) -> exists dts, map_res (field_dtype sub) (map fd_name chosen) = Ok dts) /\
  ((exists f, In f chosen /\ ~ In (ft_ctype (fd_type f)) [C_i; C_h; C_b]) -> map_res (field_dtype sub) (map fd_name chosen) = Err ValueError).
Proof.
  induction chosen as [|f l IH]; intros DT; [split; [exists []; reflexivity|intros (f & [] & _)]|]. cbn [map map_res].
  destruct IH as (I1 & I2); [intros; apply DT; now right|]. rewrite (DT f (or_introl eq_refl)). split.
  - intros H. destruct I1 as (dts & E); [intros; apply H; now right|]. rewrite E.
    destruct (H f (or_introl eq_refl)) as [Q|[Q|[Q|[]]]]; unfold field_segy_type; rewrite <- Q; cbn; eauto.
  - intros (g & [<-|G] & N).
    + unfold field_segy_type. destruct (ft_ctype (fd_type f)); cbn in *; tauto.
    + rewrite I2 by eauto. unfold field_segy_type. destruct (ft_ctype (fd_type f)); reflexivity.
Qed.

Lemma fields3_any names chosen placed inlines xlines i_all i_nums j_all j_nums : names <> [] -> chosen_as tc names chosen -> placed_as chosen placed ->
  signed_fields tc names ->
  rd_inline_numbers r = Ok i_all -> ensure_superset i_all inlines = Ok i_nums ->
  rd_xline_numbers r = Ok j_all -> ensure_superset j_all xlines = Ok j_nums ->
  ((forall tr, In tr ts -> In (t_inline tr) (sseq_list i_nums) -> In (t_xline tr) (sseq_list j_nums) -> ~ misread tc e d (t_pos tr) chosen placed) ->
   reads d (extract_trace_header_field_3d r names inlines xlines)
     (grid (order_cell d e tc placed ts) (sseq_list i_nums) (sseq_list j_nums))) /\
  (forall tr, In tr ts -> In (t_inline tr) (sseq_list i_nums) -> In (t_xline tr) (sseq_list j_nums) -> misread tc e d (t_pos tr) chosen placed ->
   fails d (extract_trace_header_field_3d r names inlines xlines) EOFError).
Proof.
  intros NE CH PL SG E1 E2 E3 E4. destruct (sub_order_reads names chosen placed NE CH PL) as (sp & S1 & S2 & DT & RH). unfold extract_trace_header_field_3d.
  destruct (proj1 (dtypes_ok (fst sp) chosen DT)) as (dts & S3).
  { intros f F. apply SG; [now apply (proj2 CH)|rewrite <- (proj1 CH); now apply in_map]. }
  rewrite (proj1 CH) in S3.
  assert (VS : forall p h, Forall2 (read_as p h) chosen placed -> exists vs, map_res (hdr_get h) names = Ok vs /\ Forall2 (place_holds tc e d p) placed vs).
  { intros p h V. rewrite <- (proj1 CH). clear - V. induction V as [|f g l m (v & P & _ & E) _ (vs & EV & FV)]; [exists []; split; [reflexivity|constructor]|].
    exists (v :: vs). cbn [map map_res]. rewrite E. cbn [bind]. rewrite EV. split; [reflexivity|]. now constructor. }
  split.
  - intros H. do 4 (eapply reads_lift_bind; [eassumption|]). eapply reads_lift_bind; [exact S1|]. eapply reads_lift_bind; [exact S2|].
    eapply reads_lift_bind; [exact S3|].
    apply reads_map. intros i Hi. apply reads_map. intros j Hj. apply (at_trace_reads d enc bc tc e dim r t ts RD OP TR ND DIM).
    + intros N. right. auto.
    + intros k tr K T. pose proof T as (I & <- & <-). destruct (RH k tr K) as [G|(_ & B)]; [|exfalso; exact (H tr I Hi Hj B)].
      eapply reads_bind; [exact G|]. intros h V. cbn beta in V. destruct (VS _ _ V) as (vs & E & F).
      eapply reads_lift_bind; [exact E|]. apply reads_ret. left. exists tr, vs. auto.
  - intros tr I Hi Hj B. do 4 (eapply fails_lift_bind; [eassumption|]). eapply fails_lift_bind; [exact S1|]. eapply fails_lift_bind; [exact S2|].
    eapply fails_lift_bind; [exact S3|].
    assert (CELL : forall i j, reads d (at_trace r (i, j) None (fun k => run h <- rd_trace_header r k (Some (snd sp)) ;; run vs <- lift (map_res (hdr_get h) names) ;; ret (Some vs))) (fun _ => True) \/
      fails d (at_trace r (i, j) None (fun k => run h <- rd_trace_header r k (Some (snd sp)) ;; run vs <- lift (map_res (hdr_get h) names) ;; ret (Some vs))) EOFError).
    { intros i j. destruct (index3 d enc bc tc e dim r t ts RD OP TR ND DIM) as (_ & HAS). destruct (HAS i j) as (b & EB & BB). destruct b.
      - destruct (proj1 BB eq_refl) as (tr' & T'). pose proof (proj1 T') as I'. apply in_trace_of in I'. destruct I' as (k' & K'). destruct (RH k' tr' K') as [G|(G & _)].
        + left. apply (at_trace_reads d enc bc tc e dim r t ts RD OP TR ND DIM); [auto|]. intros k tr2 K T2.
          destruct (RH k tr2 K) as [G2|(G2 & B2)].
          * eapply reads_bind; [exact G2|]. intros h V. cbn beta in V. destruct (VS _ _ V) as (vs & E & F).
            eapply reads_lift_bind; [exact E|]. now apply reads_ret.
          * exfalso. pose proof (one_trace i j k tr2 k' tr' K T2 K' T') as ->. destruct (G 0) as (h & q1 & X1 & _). destruct (G2 0) as (q2 & X2). congruence.
        + right. apply (at_trace_fails d enc bc tc e dim r t ts RD OP TR ND DIM) with (tr := tr'); [exact T'|]. intros k K.
          apply fails_bind. destruct (RH k tr' K) as [G2|(G2 & _)]; [|exact G2]. pose proof (one_trace i j k tr' k' tr' K T' K' T') as ->. exact G.
      - left. apply (at_trace_reads d enc bc tc e dim r t ts RD OP TR ND DIM); [auto|]. intros k tr2 K T2.
        assert (false = true) by (apply BB; eauto). discriminate. }
    apply fails_map.
    + intros i Hi'. apply map_cases. intros j Hj'. apply CELL.
    + exists (t_inline tr). split; [exact Hi|]. apply fails_map; [intros; apply CELL|]. exists (t_xline tr). split; [exact Hj|].
      apply (at_trace_fails d enc bc tc e dim r t ts RD OP TR ND DIM) with (tr := tr); [repeat split; auto|]. intros k K.
      apply fails_bind. destruct (RH k tr K) as [G2|(G2 & _)]; [|exact G2]. exfalso.
      destruct (G2 0) as (h & q' & _ & V). destruct B as (n & f & g & v & N1 & N2 & P & A).
      destruct (Forall2_nth _ _ _ V n f g N1 N2) as (w & P' & A' & _). apply A. now rewrite (place_unique _ _ _ _ P P').
Qed.

Lemma fields3_unsigned names chosen placed inlines xlines i_all i_nums j_all j_nums f0 : chosen_as tc names chosen -> placed_as chosen placed ->
  In f0 chosen -> ~ In (ft_ctype (fd_type f0)) [C_i; C_h; C_b] ->
  rd_inline_numbers r = Ok i_all -> ensure_superset i_all inlines = Ok i_nums ->
  rd_xline_numbers r = Ok j_all -> ensure_superset j_all xlines = Ok j_nums ->
  forall f, extract_trace_header_field_3d r names inlines xlines f = (Err ValueError, f).
Proof.
  intros CH PL I NS E1 E2 E3 E4 f. assert (NE : names <> []) by (rewrite <- (proj1 CH); destruct chosen; [contradiction|discriminate]).
  destruct (sub_order_reads names chosen placed NE CH PL) as (sp & S1 & S2 & DT & _). pose proof (proj2 (dtypes_ok (fst sp) chosen DT) (ex_intro _ f0 (conj I NS))) as S3.
  rewrite (proj1 CH) in S3. unfold extract_trace_header_field_3d, ibind, lift. now rewrite E1, E2, E3, E4, S1, S2, S3.
Qed.
End Order.
