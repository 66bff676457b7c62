(* Proofs about datasets that are written over the file they are read from. *)
From Coq Require Import String ZArith List Bool Lia Sorted.
From Coq Require Import ZifyBool ZifyNat.
From Verif Require Import Py PyFacts PyFloat IbmFloat Util Catalog Spec_Catalog Packing Spec_Packing PackFacts CompileFacts HeaderFacts PackingFacts Formats FileIO Text TextIO TextIOFacts
  Float32 Toolkit Spec_Text Spec_Segy ToolkitFacts Reader Spec_Reader ReaderFacts Spec_Position PositionFacts OpenFacts FormatFacts Transform InPlace Spec_InPlace.
Import ListNotations.
Local Open Scope string_scope.
Open Scope list_scope.
Open Scope Z_scope.

(* ---------------- contents that agree from some offset on ---------------- *)
Definition agree (p : Z) (d d' : list Z) : Prop := skipn (Z.to_nat p) d = skipn (Z.to_nat p) d'.

Lemma agree_later p q d d' : 0 <= p <= q -> agree p d d' -> agree q d d'.
Proof.
  unfold agree. intros L H. replace (Z.to_nat q) with (Z.to_nat p + Z.to_nat (q - p))%nat by lia. rewrite <- !skipn_skipn. now rewrite H.
Qed.
Lemma agree_slice p a b d d' : 0 <= p <= a -> agree p d d' -> py_slice d a b = py_slice d' a b.
Proof. intros L H. unfold py_slice. f_equal. exact (agree_later p a d d' L H). Qed.
Lemma agree_write p q b d d' : 0 <= q -> q + zlen b <= p -> agree p d d' -> agree p d (write_at d' q b).
Proof.
  unfold agree. intros Q L ->. unfold write_at. fold (padded_prefix d' q). rewrite app_assoc, skipn_app.
  assert (E : zlen (padded_prefix d' q ++ b) = q + zlen b) by (rewrite zlen_app, padded_prefix_len by exact Q; reflexivity).
  unfold zlen in E, L. rewrite (skipn_all2 (padded_prefix d' q ++ b)) by lia. cbn [app]. rewrite skipn_skipn. f_equal. unfold zlen. lia.
Qed.

Lemma read_opt_agree p a n d d' : 0 <= p <= a -> agree p d d' -> fst (read_opt (Some n) (mk_file d a)) = fst (read_opt (Some n) (mk_file d' a)).
Proof. intros L H. unfold read_opt. destruct (n <? 0); unfold read_all, read; cbn [f_data f_pos fst]; f_equal; [exact (agree_later p a d d' L H)|now apply (agree_slice p)]. Qed.

(* ---------------- what a reader reads ---------------- *)
Lemma ibind_lift {A B} (r : res A) (k : A -> io B) f : ibind (lift r) k f = match r with Ok a => k a f | Err y => (Err y, f) end.
Proof. reflexivity. Qed.
Lemma ibind_seek {B} p (k : unit -> io B) f : 0 <= p -> ibind (seek p) k f = k tt (mk_file (f_data f) p).
Proof. intros P. unfold ibind, seek. now replace (p <? 0) with false by lia. Qed.

Lemma header_agree r k d d' q : 0 <= q -> (forall p, cat1_get (rd_offsets r) k = Ok p -> q <= p) -> agree q d d' ->
  fst (rd_trace_header r k None (mk_file d 0)) = fst (rd_trace_header r k None (mk_file d' 0)).
Proof.
  intros Q P H. unfold rd_trace_header. destruct (negb _); [reflexivity|]. cbv zeta. rewrite !ibind_lift.
  destruct (cat1_get (rd_offsets r) k) as [p|]; [|reflexivity]. specialize (P p eq_refl). unfold read_trace_header.
  change (ret p) with (lift (Ok p)). rewrite !ibind_lift, !ibind_seek by lia. cbn [f_data]. unfold ibind, read, lift. cbn [f_data f_pos fst].
  now rewrite (agree_slice q _ _ d d').
Qed.

Lemma samples_agree native r k d d' q : 0 <= q -> (forall p, cat1_get (rd_offsets r) k = Ok p -> q <= p + 240) -> agree q d d' ->
  fst (rd_trace_samples native r k None None (mk_file d 0)) = fst (rd_trace_samples native r k None None (mk_file d' 0)).
Proof.
  intros Q P H. unfold rd_trace_samples. destruct (negb _); [reflexivity|]. rewrite !ibind_lift.
  destruct (rd_num_trace_samples r k) as [n|]; [|reflexivity]. cbv zeta. destruct (negb _); [reflexivity|]. destruct (negb _); [reflexivity|].
  rewrite !ibind_lift. destruct (sample_format (rd_binary r)) as [t|]; [|reflexivity].
  rewrite !ibind_lift. destruct (cat1_get (rd_offsets r) k) as [p|]; [|reflexivity]. specialize (P p eq_refl).
  change TRACE_HEADER_NUM_BYTES with 240. replace (p + 240 + 0 * size_in_bytes (ctype_of t)) with (p + 240) by lia. unfold read_binary_values. cbv zeta.
  change (ret (p + 240)) with (lift (Ok (p + 240))). rewrite !ibind_lift, !ibind_seek by lia. cbn [f_data].
  assert (R := read_opt_agree q (p + 240) (size_in_bytes (ctype_of t) * (n - 0)) d d' ltac:(lia) H). unfold ibind at 1. symmetry. unfold ibind at 1. symmetry.
  destruct (read_opt _ (mk_file d (p + 240))) as [[b|y] f], (read_opt _ (mk_file d' (p + 240))) as [[b'|y'] f']; cbn [fst] in R; try discriminate.
  - injection R as <-. destruct (zlen b <? _); [reflexivity|]. rewrite !ibind_lift. destruct (unpack_samples _ _ _ _ _) as [v|]; [|reflexivity].
    destruct (zlen v =? _); reflexivity.
  - injection R as <-. reflexivity.
Qed.

(* ---------------- what is written ---------------- *)
Lemma packed_length tc e p h b : format_ok tc 240 -> make_header_packer tc e = Ok p -> pk_pack p h = Ok b -> zlen b = 240.
Proof.
  intros (K & _ & S & _ & FL & _) M. destruct (make_packer_ok _ _ _ M) as (d & len & -> & C & LB & TB).
  assert (FI : forall f, In f (class_fields tc) <-> is_field tc f) by (intros; apply class_fields_In; auto using class_ok_levels).
  assert (L : laid_out 0 (items_of d) len).
  { apply (compiled_laid_out _ _ _ _ _ C).
    - intros f Hf. apply S. now apply FI.
    - intros E. apply TB. now left. }
  assert (EL : len = 240) by (destruct C as (_ & _ & _ & _ & Q); rewrite FL in Q; exact Q).
  unfold pk_pack. cbn [pk_endian pk_chunks pk_bijective pk_cls pk_alloc]. destruct (negb _); [discriminate|].
  destruct (if _ : bool then _ else _) as [[]|]; [|discriminate]. cbn [bind]. destruct (map_res _ _) as [vs|]; [|discriminate]. cbn [bind].
  destruct (struct_pack_chunks e (items_of d) 0 len vs L) as [(buf & E & _ & Z & _)|(E & _)]; rewrite E; [|discriminate]. intros [= <-]. lia.
Qed.

Lemma item_length e t r b : item_pack e (ctype_of t) r = Ok b -> zlen b = sample_size t.
Proof.
  assert (INT : forall c, item_pack e (S_int c) r = Ok b -> zlen b = ctype_size c).
  { intros c. cbn [item_pack]. unfold pack_int_sample. destruct r; try discriminate. intros H. apply (pack_int_inv _ _ _ _ H). }
  destruct t; cbn [ctype_of]; try (intros H; exact (INT _ H)).
  - cbn [item_pack]. unfold f32_pack. destruct (as_double r) as [f|]; [|discriminate]. cbn [bind]. destruct (f32_encode f) as [n|]; [|discriminate].
    cbn [bind]. intros H. apply (pack_int_inv _ _ _ _ H).
  - cbn [item_pack]. destruct (from_float r) as [w|]; [|discriminate]. cbn [rmap bind]. intros [= <-]. reflexivity.
Qed.
Lemma samples_length e t rs b : pack_samples e (ctype_of t) rs = Ok b -> zlen b = sample_size t * zlen rs.
Proof.
  rewrite pack_samples_items. destruct (map_res (item_pack e (ctype_of t)) rs) as [bs|] eqn:E; [|discriminate]. cbn [bind]. intros [= <-].
  revert bs E. induction rs as [|x rs IH]; cbn [map_res]; intros bs; [intros [= <-]; unfold zlen; cbn [concat length]; lia|].
  destruct (item_pack e (ctype_of t) x) as [b|] eqn:I; [|discriminate]. cbn [bind]. destruct (map_res _ rs) as [bs'|]; [|discriminate]. cbn [bind]. intros [= <-].
  cbn [concat]. rewrite zlen_app, zlen_cons, (IH bs' eq_refl), (item_length _ _ _ _ I). lia.
Qed.

(* the traces follow each other *)
Lemma scan_order c e bps d p ts q : scan c e bps d p ts q -> 0 <= bps -> (forall tr, In tr ts -> 0 <= t_count tr) ->
  (forall tr, In tr ts -> p <= t_pos tr) /\
  forall j k tr tr', (j < k)%nat -> nth_error ts j = Some tr -> nth_error ts k = Some tr' -> t_pos tr + 240 + bps * t_count tr <= t_pos tr'.
Proof.
  intros S B. induction S as [p|t ts q s L F1 F2 F3 F4 F5 S IH]; intros C.
  - split; [intros ? []|]. intros [|j] k tr tr' _; discriminate.
  - destruct IH as (A & O); [intros; apply C; now right|]. pose proof (C t (or_introl eq_refl)) as C0. split.
    + intros tr [<-|I]; [lia|]. specialize (A tr I). nia.
    + intros [|j] [|k] tr tr' J; try lia; cbn [nth_error].
      * intros [= <-] N. apply A. eapply nth_error_In; eauto.
      * intros N N'. apply (O j k); auto. lia.
Qed.

(* ---------------- the loop ---------------- *)
Lemma write_moves b d0 q log : on_file (write b) (mk_world (mk_file d0 q) log) = (Ok tt, mk_world (mk_file (wr d0 q b) (q + zlen b)) log).
Proof. destruct b; [unfold on_file, write, wr; cbn [w_file w_log]; do 3 f_equal; unfold zlen; cbn; lia|reflexivity]. Qed.

Lemma agree_wr d q0 q b d' : 0 <= q -> q + zlen b <= q0 -> agree q0 d d' -> agree q0 d (wr d' q b).
Proof. intros Q L H. destruct b as [|z b]; [exact H|]. now apply agree_write. Qed.

Lemma on_lift {A B} (r : res A) (k : A -> wio B) w : wbind (on_file (lift r)) k w = match r with Ok a => k a w | Err y => (Err y, w) end.
Proof. destruct w as [f l]. unfold wbind, on_file, lift. cbn [w_file w_log]. now destruct r. Qed.
Lemma on_ask {A B} (g : list Z -> res A) (k : A -> wio B) w : wbind (ask g) k w = match g (f_data (w_file w)) with Ok a => k a w | Err y => (Err y, w) end.
Proof. unfold wbind, ask. now destruct (g _). Qed.
Lemma on_write {B} (r : res (list Z)) (k : unit -> wio B) d0 q log : wbind (on_file (run buf <- lift r ;; write buf)) k (mk_world (mk_file d0 q) log) =
  match r with Ok b => k tt (mk_world (mk_file (wr d0 q b) (q + zlen b)) log) | Err y => (Err y, mk_world (mk_file d0 q) log) end.
Proof.
  destruct r as [b|y]; [|reflexivity]. unfold wbind. change (on_file (run buf <- lift (Ok b) ;; write buf)) with (on_file (write b)). now rewrite write_moves.
Qed.

Section Loop.
Variables (ds : live) (d : list Z) (p : packer) (e : endian) (n : Z) (pos room : Z -> Z).
Hypothesis PACK : forall h b, pk_pack p h = Ok b -> zlen b = 240.
Hypothesis HEAD : forall d' k, agree (pos k) d d' -> ds_trace_header (ds d') k = ds_trace_header (ds d) k.
Hypothesis SAMP : forall d' k, agree (pos k + 240) d d' -> ds_trace_samples (ds d') k None None = ds_trace_samples (ds d) k None None.
Hypothesis TYPE : forall d', ds_sample_format (ds d') = ds_sample_format (ds d).

Fixpoint chained (q : Z) (ks : list Z) : Prop :=
  match ks with
  | [] => True
  | k :: ks => q <= pos k /\ 0 <= room k /\
      (forall s t b, ds_trace_samples (ds d) k None None = Ok s -> ds_sample_format (ds d) = Ok t -> pack_samples e (ctype_of t) s = Ok b -> zlen b <= room k) /\
      chained (pos k + 240 + room k) ks
  end.

Lemma loop_live ks : forall q0 d' q log, 0 <= q <= q0 -> agree q0 d d' -> chained q0 ks ->
  write_traces_live ds p e n ks (mk_world (mk_file d' q) log) = write_traces (ds d) p e n ks (mk_world (mk_file d' q) log).
Proof.
  induction ks as [|k ks IH]; intros q0 d' q log Q A CH; [reflexivity|]. destruct CH as (LP & R & FIT & CH). cbn [write_traces_live write_traces].
  rewrite on_ask, on_lift. cbn [w_file f_data].
  rewrite (HEAD d' k (agree_later q0 (pos k) d d' ltac:(lia) A)). destruct (ds_trace_header (ds d) k) as [h|y]; [|reflexivity].
  unfold write_trace_header. rewrite !on_write. destruct (pk_pack p h) as [b|y] eqn:PK; [|reflexivity]. rewrite (PACK h b PK).
  assert (A1 : agree (pos k + 240) d (wr d' q b)).
  { apply agree_wr; [lia|rewrite (PACK h b PK); lia|]. apply (agree_later q0); [lia|exact A]. }
  rewrite on_ask, on_lift. cbn [w_file f_data].
  rewrite (SAMP _ _ A1). destruct (ds_trace_samples (ds d) k None None) as [s|y] eqn:DS; [|reflexivity].
  rewrite on_ask, on_lift. cbn [w_file f_data].
  rewrite TYPE. destruct (ds_sample_format (ds d)) as [t|y] eqn:DT; [|reflexivity].
  unfold write_binary_values. rewrite !on_write. destruct (pack_samples e (ctype_of t) s) as [b'|y] eqn:PS; [|reflexivity].
  unfold wbind. destruct (report k n _) as [[[]|y] w] eqn:RP; [|reflexivity].
  assert (W : w_file w = mk_file (wr (wr d' q b) (q + 240) b') (q + 240 + zlen b')).
  { unfold report in RP. destruct (n =? 0); [discriminate|]. injection RP as <-. reflexivity. }
  destruct w as [f l]. cbn [w_file] in W. subst f. specialize (FIT s t b' eq_refl eq_refl PS). pose proof (zlen_nonneg b').
  apply (IH (pos k + 240 + room k)); [lia| |exact CH]. apply agree_wr; [lia|lia|]. apply (agree_later (pos k + 240)); [lia|exact A1].
Qed.
End Loop.

(* ---------------- what comes before the traces ---------------- *)
Lemma text_run lines x d q log w : on_file (write_textual_reel_header lines x) (mk_world (mk_file d q) log) = (Ok tt, w) ->
  exists b, zlen b = 3200 /\ w = mk_world (mk_file (wr d q b) (q + zlen b)) log.
Proof.
  unfold on_file, write_textual_reel_header. destruct (negb (is_supported_encoding x)); [discriminate|]. rewrite ibind_lift. cbn [w_file w_log].
  destruct (map_res _ _) as [padded|]; [|discriminate]. cbv zeta. destruct (negb (zlen (concat padded) =? TEXTUAL_HEADER_NUM_BYTES)) eqn:E; [discriminate|].
  change TEXTUAL_HEADER_NUM_BYTES with 3200 in E. assert (W := write_moves (concat padded) d q log). unfold on_file in W. cbn [w_file w_log] in W.
  rewrite W. intros [= <-]. exists (concat padded). split; [lia|reflexivity].
Qed.
Lemma binary_run bc h e d q log w : format_ok bc 400 -> h_cls h = bc -> on_file (write_binary_reel_header h e) (mk_world (mk_file d q) log) = (Ok tt, w) ->
  exists b, zlen b = 400 /\ w = mk_world (mk_file (wr d q b) (q + zlen b)) log.
Proof.
  intros (K & _ & S & _ & FL & _) H. unfold on_file, write_binary_reel_header. rewrite H, ibind_lift. cbn [w_file w_log].
  destruct (make_header_packer bc e) as [p|] eqn:P; [|discriminate]. rewrite ibind_lift. destruct (pk_pack p h) as [b|] eqn:PK; [|discriminate].
  destruct (pack_layout bc e p h b K S P H PK) as (HL & _). unfold header_length in HL. rewrite FL in HL.
  assert (W := write_moves b d q log). unfold on_file in W. cbn [w_file w_log] in W. rewrite W. intros [= <-]. exists b. auto.
Qed.
Lemma pages_run pages : forall d q log w, 0 <= q -> on_file (write_pages pages) (mk_world (mk_file d q) log) = (Ok tt, w) ->
  exists b, zlen b = 3200 * zlen pages /\ w = mk_world (mk_file (wr d q b) (q + zlen b)) log.
Proof.
  induction pages as [|p pages IH]; intros d q log w Q.
  - cbn. intros [= <-]. exists []. split; [reflexivity|]. cbn [wr]. do 2 f_equal. unfold zlen. cbn. lia.
  - cbn [write_pages]. destruct (negb _) eqn:E; [discriminate|]. change TEXTUAL_HEADER_NUM_BYTES with 3200 in E. assert (LP : zlen (concat p) = 3200) by lia.
    intros H. assert (H' : on_file (write_pages pages) (mk_world (mk_file (wr d q (concat p)) (q + zlen (concat p))) log) = (Ok tt, w)).
    { rewrite <- H. unfold on_file. cbn [w_file w_log]. unfold ibind. assert (W := write_moves (concat p) d q log). unfold on_file in W. cbn [w_file w_log] in W.
      destruct (write (concat p) (mk_file d q)) as [y f]. injection W as -> <-. reflexivity. }
    destruct (IH _ (q + zlen (concat p)) _ _ ltac:(lia) H') as (b & LB & ->). exists (concat p ++ b). split; [rewrite zlen_app, zlen_cons; lia|].
    rewrite zlen_app, Z.add_assoc. now rewrite <- wr_app.
Qed.
Lemma map_res_zlen {A B} (f : A -> res B) l : forall l', map_res f l = Ok l' -> zlen l' = zlen l.
Proof.
  induction l as [|a l IH]; cbn [map_res]; intros l'; [intros [= <-]; reflexivity|]. destruct (f a) as [b|]; [|discriminate]. cbn [bind].
  destruct (map_res f l) as [m|]; [|discriminate]. cbn [bind]. intros [= <-]. rewrite !zlen_cons. now rewrite (IH m eq_refl).
Qed.
Lemma ext_run pages x d q log w : on_file (write_extended_textual_headers pages x) (mk_world (mk_file d q) log) = (Ok tt, w) ->
  exists b, zlen b = 3200 * zlen pages /\ w = mk_world (mk_file (wr d 3600 b) (3600 + zlen b)) log.
Proof.
  unfold on_file, write_extended_textual_headers. destruct (negb _); [discriminate|]. rewrite ibind_seek by (cbn; lia). rewrite ibind_lift. cbn [w_file w_log f_data].
  destruct (map_res (encode_page x) pages) as [css|] eqn:M; [|discriminate]. change REEL_HEADER_NUM_BYTES with 3600. intros H.
  destruct (pages_run css d 3600 log w ltac:(lia)) as (b & L & ->); [unfold on_file; cbn [w_file w_log]; exact H|].
  exists b. split; [|reflexivity]. rewrite L. f_equal. exact (map_res_zlen _ _ _ M).
Qed.

(* ---------------- the whole ---------------- *)
Lemma reading_frame native r d d' : same_frame (reading native r d) (reading native r d').
Proof. repeat split. Qed.

Section Whole.
Variables (d : list Z) (enc : option encoding) (bc tc : fmt) (e : endian) (dim : option Z) (r : reader) (t : segytype) (ts : list tinfo).
Hypothesis RD : readable d enc bc tc.
Hypothesis OP : opens d enc bc tc e dim r.
Hypothesis TR : traces_of d tc e r t ts.
Variables (native : endian) (F : dataset -> dataset).
Hypothesis TW : tracewise F.

Definition place (k : Z) : Z := match nth_error ts (Z.to_nat k) with Some tr => t_pos tr | None => 0 end.
Definition space (k : Z) : Z := match nth_error ts (Z.to_nat k) with Some tr => sample_size t * t_count tr | None => 0 end.

Lemma trace_exists k : 0 <= k < zlen ts -> exists tr, trace_of ts k tr.
Proof.
  intros K. destruct (nth_error ts (Z.to_nat k)) as [tr|] eqn:E; [exists tr; split; auto|]. apply nth_error_None in E. unfold zlen in K. lia.
Qed.

Lemma offset_cases k p : cat1_get (rd_offsets r) k = Ok p -> exists tr, trace_of ts k tr /\ p = t_pos tr.
Proof.
  intros H. destruct (get_opened d enc bc tc e dim r t ts RD OP TR) as (x & _ & O).
  destruct (Z_le_dec 0 k) as [K1|K1]; [destruct (Z_lt_dec k (zlen ts)) as [K2|K2]|].
  { destruct (trace_exists k ltac:(lia)) as (tr & T). exists tr. split; [exact T|]. rewrite (rd_offset _ _ _ _ _ _ _ _ _ O k tr T) in H. now injection H as <-. }
  all: assert (A := he_absent _ _ _ _ _ (op_offsets _ _ _ _ _ _ _ _ _ O) k); rewrite H in A; exfalso; assert (X : ~ In k (map fst (numbered (map t_pos ts)))) by
    (rewrite numbered_fst, In_upto, map_length; unfold zlen in *; lia); discriminate (A X).
Qed.

Lemma trace_unique k tr tr' : trace_of ts k tr -> trace_of ts k tr' -> tr = tr'.
Proof. intros (_ & A) (_ & B). rewrite A in B. now injection B as <-. Qed.

Lemma in_place_chain e' q ks : fits (F (reading native r d)) t ts (zlen (rd_ext r)) -> (forall k, In k ks -> In k (ds_trace_indexes (F (reading native r d)))) ->
  StronglySorted Z.lt ks -> (forall k tr, In k ks -> trace_of ts k tr -> q <= t_pos tr) ->
  chained (fun d => F (reading native r d)) d e' place space q ks.
Proof.
  intros (_ & _ & IN & FIT) SUB SS. revert q. rewrite Forall_forall in IN. destruct (get_opened d enc bc tc e dim r t ts RD OP TR) as (x & _ & O).
  destruct (op_traces _ _ _ _ _ _ _ _ _ O) as (q9 & SC & _). pose proof (sample_size_pos t) as SP.
  assert (PL : forall tr, In tr ts -> 0 <= t_pos tr /\ t_pos tr + 240 <= zlen d /\ 0 <= t_count tr).
  { destruct RD as (_ & _ & T & _). exact (trace_placed _ _ _ _ _ _ _ _ _ T O). }
  destruct (scan_order _ _ _ _ _ _ _ SC ltac:(lia) ltac:(intros; now apply PL)) as (_ & ORD).
  induction SS as [|k ks SS IH FA]; intros q LE; [exact I|]. cbn [chained].
  assert (K : In k (ds_trace_indexes (F (reading native r d)))) by (apply SUB; now left).
  destruct (trace_exists k (IN k K)) as (tr & T). assert (EP : place k = t_pos tr) by (unfold place; now rewrite (proj2 T)).
  assert (ES : space k = sample_size t * t_count tr) by (unfold space; now rewrite (proj2 T)).
  assert (CT : 0 <= t_count tr) by (apply PL; eapply trace_in; eauto).
  rewrite EP, ES. split; [apply (LE k tr); [now left|exact T]|]. split; [nia|]. split.
  - intros s t' b DS DT PS. rewrite (samples_length _ _ _ _ PS). exact (FIT k tr s t' K T DS DT).
  - apply IH; [intros; apply SUB; now right|]. intros j tr' J T'. rewrite Forall_forall in FA. specialize (FA j J).
    apply (ORD (Z.to_nat k) (Z.to_nat j)); [destruct T, T'; lia|apply T|apply T'].
Qed.

Lemma in_place enc' tc' e' pr log : format_ok (h_cls (ds_binary (F (reading native r d)))) 400 -> format_ok tc' 240 ->
  fits (F (reading native r d)) t ts (zlen (rd_ext r)) ->
  write_segy_live (fun d => F (reading native r d)) enc' tc' e' pr (mk_world (mk_file d 0) log) =
  write_segy (F (reading native r d)) enc' tc' e' pr (mk_world (mk_file d 0) log).
Proof.
  intros FB FT FIT.
  assert (FR : forall d', same_frame (F (reading native r d')) (F (reading native r d))) by (intros d'; apply (TW _ _ (reading_frame native r d' d))).
  destruct (get_opened d enc bc tc e dim r t ts RD OP TR) as (x0 & _ & O).
  assert (PL : forall tr, In tr ts -> 0 <= t_pos tr /\ t_pos tr + 240 <= zlen d /\ 0 <= t_count tr).
  { destruct RD as (_ & _ & T & _). exact (trace_placed _ _ _ _ _ _ _ _ _ T O). }
  assert (P0 : forall k, 0 <= place k).
  { intros k. unfold place. destruct (nth_error ts (Z.to_nat k)) eqn:E; [|lia]. apply PL. eapply nth_error_In; eauto. }
  assert (PO : forall k p, cat1_get (rd_offsets r) k = Ok p -> place k = p).
  { intros k p HP. destruct (offset_cases k p HP) as (tr & T & ->). unfold place. now rewrite (proj2 T). }
  assert (HEAD : forall d' k, agree (place k) d d' -> ds_trace_header (F (reading native r d')) k = ds_trace_header (F (reading native r d)) k).
  { intros d' k A. symmetry. apply (TW _ _ (reading_frame native r d d')). cbn [reading reader_dataset ds_trace_header].
    apply (header_agree _ _ _ _ (place k)); auto. intros p HP. rewrite (PO k p HP). lia. }
  assert (SAMP : forall d' k, agree (place k + 240) d d' -> ds_trace_samples (F (reading native r d')) k None None = ds_trace_samples (F (reading native r d)) k None None).
  { intros d' k A. symmetry. apply (TW _ _ (reading_frame native r d d')). cbn [reading reader_dataset ds_trace_samples]. specialize (P0 k).
    apply (samples_agree _ _ _ _ _ (place k + 240)); auto; [lia|]. intros p HP. rewrite (PO k p HP). lia. }
  assert (CH : chained (fun d => F (reading native r d)) d e' place space (first_trace (rd_ext r)) (ds_trace_indexes (F (reading native r d)))).
  { apply in_place_chain; auto; [apply FIT|]. intros k tr _ T. destruct (op_traces _ _ _ _ _ _ _ _ _ O) as (q9 & SC & _). pose proof (sample_size_pos t).
    apply (scan_order _ _ _ _ _ _ _ SC ltac:(lia) ltac:(intros; now apply PL)). eapply trace_in; eauto. }
  unfold write_segy_live, write_segy. destruct pr; [| |reflexivity].
  all: rewrite on_ask; cbn [w_file f_data]; cbv zeta.
  all: destruct (negb (is_supported_encoding _)) eqn:SE; [reflexivity|].
  all: set (x := match enc' with Some _ => _ | None => _ end) in *.
  all: rewrite on_ask; cbn [w_file f_data]; unfold wbind at 1; symmetry; unfold wbind at 1; symmetry.
  all: destruct (on_file (write_textual_reel_header _ x) (mk_world (mk_file d 0) log)) as [[[]|y] w1] eqn:X1; [|reflexivity].
  all: destruct (text_run _ _ _ _ _ _ X1) as (b1 & L1 & ->).
  all: rewrite on_ask; cbn [w_file f_data]; destruct (FR (wr d 0 b1)) as (_ & -> & _).
  all: unfold wbind at 1; symmetry; unfold wbind at 1; symmetry.
  all: destruct (on_file (write_binary_reel_header _ e') _) as [[[]|y] w2] eqn:X2; [|reflexivity].
  all: destruct (binary_run _ _ _ _ _ _ _ FB eq_refl X2) as (b2 & L2 & ->).
  all: rewrite on_ask; cbn [w_file f_data]; destruct (FR (wr (wr d 0 b1) (0 + zlen b1) b2)) as (_ & _ & -> & _).
  all: unfold wbind at 1; symmetry; unfold wbind at 1; symmetry.
  all: destruct (on_file (write_extended_textual_headers _ x) _) as [[[]|y] w3] eqn:X3; [|reflexivity].
  all: destruct (ext_run _ _ _ _ _ _ X3) as (b3 & L3 & ->).
  all: rewrite !on_lift; destruct (make_header_packer tc' e') as [p|y] eqn:MP; [|reflexivity].
  all: rewrite !on_ask; cbn [w_file f_data].
  all: set (d3 := wr (wr (wr d 0 b1) (0 + zlen b1) b2) 3600 b3) in *.
  all: destruct (FR d3) as (_ & _ & _ & _ & -> & -> & _).
  all: assert (LE : 3600 + zlen b3 <= first_trace (rd_ext r)) by (unfold first_trace; destruct FIT as (PG & _); lia).
  all: unfold wbind; rewrite (loop_live (fun d => F (reading native r d)) d p e' _ place space) with (q0 := first_trace (rd_ext r)); [reflexivity|..].
  all: pose proof (zlen_nonneg b3).
  all: assert (AG : agree (first_trace (rd_ext r)) d d3) by (apply agree_wr; [lia|lia|]; apply agree_wr; [lia|unfold first_trace; pose proof (zlen_nonneg (rd_ext r)); lia|];
    apply agree_wr; [lia|unfold first_trace; pose proof (zlen_nonneg (rd_ext r)); lia|reflexivity]).
  all: try (intros h b; now apply packed_length with (tc := tc') (e := e')).
  all: try exact HEAD. all: try exact SAMP. all: try (intros d'; apply FR).
  all: try lia. all: try exact AG. all: try exact CH.
Qed.
End Whole.

(* ---------------- compared with a new file ---------------- *)
Lemma put_laid_over old n b mid new : 0 <= n -> put old 0 (firstn (Z.to_nat n) b) mid -> put mid n (skipn (Z.to_nat n) b) new -> laid_over old b new.
Proof.
  intros N (P1 & P2) (Q1 & Q2). unfold laid_over.
  assert (GEN : forall c m, zlen m = Z.max (zlen old) (0 + zlen c) ->
    (forall i, 0 <= i < zlen m -> byte_at m i = if (0 <=? i) && (i <? 0 + zlen c) then byte_at c (i - 0) else if i <? zlen old then byte_at old i else 0) ->
    m = c ++ skipn (Z.to_nat (zlen c)) old).
  { intros c m L B. apply (nth_ext _ _ 0 0).
    - rewrite app_length, skipn_length. unfold zlen in *. lia.
    - intros i I. specialize (B (Z.of_nat i) ltac:(unfold zlen; lia)). unfold byte_at in B. rewrite Nat2Z.id in B. rewrite B.
      destruct (Z.of_nat i <? 0 + zlen c) eqn:E.
      + replace (0 <=? Z.of_nat i) with true by lia. cbn [andb]. rewrite app_nth1 by (unfold zlen in E; lia). f_equal. lia.
      + rewrite andb_false_r. rewrite app_nth2 by (unfold zlen in E; lia). rewrite nth_skipn. unfold zlen in *.
        replace (Z.of_nat i <? Z.of_nat (length old)) with true by lia. f_equal. lia. }
  destruct (Z_le_dec (zlen b) n) as [L|L].
  - assert (S : skipn (Z.to_nat n) b = []) by (apply skipn_all2; unfold zlen in L; lia). assert (F : firstn (Z.to_nat n) b = b) by (apply firstn_all2; unfold zlen in L; lia).
    rewrite F in *. rewrite S in *. rewrite (Q1 eq_refl). destruct b as [|z b]; [rewrite (P1 eq_refl); reflexivity|].
    destruct (P2 ltac:(discriminate)) as (L1 & B1). now apply GEN.
  - assert (LF : zlen (firstn (Z.to_nat n) b) = n) by (unfold zlen in *; rewrite firstn_length; lia).
    assert (LS : zlen (skipn (Z.to_nat n) b) = zlen b - n) by (unfold zlen in *; rewrite skipn_length; lia).
    assert (NS : skipn (Z.to_nat n) b <> []) by (intros E; rewrite E in LS; unfold zlen in *; cbn in LS; lia).
    destruct (Q2 NS) as (L2 & B2). rewrite LS in *.
    assert (M : zlen mid = Z.max (zlen old) n /\ forall i, 0 <= i < zlen mid -> byte_at mid i = if i <? n then byte_at b i else if i <? zlen old then byte_at old i else 0).
    { destruct (Z.eq_dec n 0) as [->|NZ].
      - cbn [Z.to_nat firstn] in P1. rewrite (P1 eq_refl). pose proof (zlen_nonneg old). split; [lia|]. intros i I. replace (i <? 0) with false by lia. now replace (i <? zlen old) with true by lia.
      - assert (NF : firstn (Z.to_nat n) b <> []) by (intros E; rewrite E in LF; unfold zlen in *; cbn in LF; lia).
        destruct (P2 NF) as (L1 & B1). rewrite LF in *. split; [lia|]. intros i I. rewrite (B1 i I). replace (0 <=? i) with true by lia. cbn [andb].
        replace (0 + n) with n by lia. destruct (i <? n) eqn:E; [|reflexivity]. unfold byte_at. rewrite nth_firstn' by lia. f_equal. lia. }
    destruct M as (LM & BM). apply GEN; [lia|]. intros i I. rewrite (B2 i I). replace (0 <=? i) with true by lia. cbn [andb].
    replace (n + (zlen b - n)) with (zlen b) by lia. replace (0 + zlen b) with (zlen b) by lia. replace (i - 0) with i by lia.
    destruct (n <=? i) eqn:E1; cbn [andb].
    + destruct (i <? zlen b) eqn:E2; [unfold byte_at; rewrite nth_skipn; f_equal; lia|].
      destruct (i <? zlen mid) eqn:E3; [rewrite BM by lia; now replace (i <? n) with false by lia|]. replace (i <? zlen old) with false by lia. reflexivity.
    + replace (i <? zlen b) with true by lia. replace (i <? zlen mid) with true by lia. rewrite BM by lia. now replace (i <? n) with true by lia.
Qed.

Lemma over_new ds enc tc e pr old log : format_ok (h_cls (ds_binary ds)) 400 ->
  let new := write_segy ds enc tc e pr (mk_world (mk_file [] 0) log) in
  let out := write_segy ds enc tc e pr (mk_world (mk_file old 0) log) in
  fst out = fst new /\ w_log (snd out) = w_log (snd new) /\
  (fst new = Ok tt -> laid_over old (f_data (w_file (snd new))) (f_data (w_file (snd out)))).
Proof.
  intros FB. cbv zeta. destruct (write_at_position ds enc tc e pr old 0 log _ ltac:(lia) FB eq_refl) as (A & B & C). cbv zeta in A, B, C.
  split; [exact A|]. split; [exact B|]. intros OK. destruct (C OK) as (mid & P & Q). exact (put_laid_over _ 3600 _ mid _ ltac:(lia) P Q).
Qed.

(* any dataset made trace by trace from the reader *)
Lemma made_in_place d enc bc tc e dim r t ts native F enc' tc' e' pr log : readable d enc bc tc -> opens d enc bc tc e dim r -> traces_of d tc e r t ts ->
  tracewise F -> format_ok (h_cls (ds_binary (F (reading native r d)))) 400 -> format_ok tc' 240 -> fits (F (reading native r d)) t ts (zlen (rd_ext r)) ->
  let new := write_segy (F (reading native r d)) enc' tc' e' pr (mk_world (mk_file [] 0) log) in
  let out := write_segy_live (fun d => F (reading native r d)) enc' tc' e' pr (mk_world (mk_file d 0) log) in
  fst out = fst new /\ w_log (snd out) = w_log (snd new) /\
  (fst new = Ok tt -> laid_over d (f_data (w_file (snd new))) (f_data (w_file (snd out)))).
Proof.
  intros RD OP TR TW FB FT FI. cbv zeta. rewrite (in_place d enc bc tc e dim r t ts RD OP TR native F TW); auto. now apply over_new.
Qed.

(* ---------------- the examples ---------------- *)
Lemma copy_value h n v h' : class_ok (h_cls h) -> has_field (h_cls h) n -> hdr_copy h [(n, v)] = Ok h' -> hdr_get h' n = Ok v.
Proof.
  intros K (f & F & <-). unfold hdr_copy.
  destruct (field_dict_spec h (ordered_field_names (h_cls h))) as (d & -> & ND & KS & AS). { intros m Hm. now apply ordered_names_In. }
  cbn [bind]. set (ups := [(fd_name f, v)]).
  assert (DG : assoc (fd_name f) (dict_update d ups) = Some v).
  { rewrite dict_update_get; [unfold ups; now rewrite assoc_cons, String.eqb_refl|]. intros a b [A|[]] [B|[]]. congruence. }
  assert (ND2 : NoDup (map fst (dict_update d ups))) by now apply dict_update_NoDup.
  assert (KF : keys_are_fields (h_cls h) (dict_update d ups)).
  { intros m I. apply dict_update_keys in I. destruct I as [I|[<-|[]]].
    - apply KS in I. now apply ordered_names_In in I.
    - cbn [fst]. rewrite (is_field_class _ f K F). discriminate. }
  destruct (hdr_init_kw (h_cls h) (dict_update d ups) KF ND2) as [(h2 & -> & HC & _ & _ & HV)|(-> & _)]; [|discriminate].
  intros [= <-]. unfold hdr_get. rewrite HC, (is_field_class _ f K F), HV, DG. reflexivity.
Qed.
Lemma same_frame_refl ds : same_frame ds ds.
Proof. repeat split. Qed.
Lemma no_wider_tracewise t G : no_wider t G -> tracewise (made G).
Proof.
  intros H ds ds' FR. assert (FR' := FR). destruct FR' as (E1 & E2 & E3 & E4 & E5 & E6 & E7).
  assert (ST : same_frame ds ds' /\ forall k, (ds_trace_header ds k = ds_trace_header ds' k -> ds_trace_header ds k = ds_trace_header ds' k) /\
    (ds_trace_samples ds k None None = ds_trace_samples ds' k None None -> ds_trace_samples ds k None None = ds_trace_samples ds' k None None)) by (split; auto).
  destruct H; unfold made; [exact ST|..].
  - unfold scaling. rewrite E7. destruct (ds_sample_format ds') as [t'|]; cbn [bind]; [|exact ST]. split; [repeat split; cbn; auto; now rewrite E2|].
    intros k. split; cbn [ds_trace_header ds_trace_samples]; auto. now intros ->.
  - unfold scaling_coords. split; [repeat split; cbn; auto; now rewrite E2|]. intros k. split; cbn [ds_trace_header ds_trace_samples]; auto. now intros ->.
  - unfold converting. destruct (format_for t') as [code|]; cbn [bind]; [|exact ST]. rewrite E2. destruct (hdr_copy (ds_binary ds') _) as [bin|]; cbn [bind]; [|exact ST].
    split; [repeat split; cbn; auto|]. intros k. split; cbn [ds_trace_header ds_trace_samples]; auto. now intros ->.
Qed.

Section Examples.
Variables (d : list Z) (enc : option encoding) (bc tc : fmt) (e : endian) (dim : option Z) (r : reader) (t : segytype) (ts : list tinfo).
Hypothesis RD : readable d enc bc tc.
Hypothesis OP : opens d enc bc tc e dim r.
Hypothesis TR : traces_of d tc e r t ts.
Variable native : endian.

Lemma opened_samples k tr s : trace_of ts k tr -> fst (rd_trace_samples native r k None None (mk_file d 0)) = Ok s -> zlen s = t_count tr.
Proof.
  intros T H. destruct (samples_ok d enc bc tc e dim r t ts RD OP TR native k None None 0) as (_ & _ & SO). rewrite H in SO.
  inversion SO as [| | |tr' rs T' A B C LN SA EQ]; subst. destruct T as (_ & T), T' as (_ & T'). rewrite T in T'. injection T' as <-. cbn [or_else] in LN. lia.
Qed.

Lemma no_wider_fits G ds' : no_wider t G -> G (reading native r d) = Ok ds' -> fits ds' t ts (zlen (rd_ext r)) /\ format_ok (h_cls (ds_binary ds')) 400.
Proof.
  intros NW EG. destruct (get_opened d enc bc tc e dim r t ts RD OP TR) as (x & _ & O). pose proof (sample_size_pos t) as SP.
  assert (HB : h_cls (rd_binary r) = bc) by (destruct (op_headers _ _ _ _ _ _ _ _ _ O) as (_ & (C & _) & _); exact C).
  assert (FB : format_ok bc 400) by (destruct RD as (_ & B & _); apply B).
  assert (TY : sample_format (rd_binary r) = Ok t) by (eapply sample_format_ok; apply (op_type _ _ _ _ _ _ _ _ _ O)).
  assert (LP : forall s' u, ds_ext u = rd_ext r -> ds_trace_indexes u = rd_trace_indexes r ->
    (forall k tr s, trace_of ts k tr -> ds_trace_samples u k None None = Ok s -> zlen s = t_count tr) ->
    ds_sample_format u = Ok s' -> sample_size s' <= sample_size t -> fits u t ts (zlen (rd_ext r))).
  { intros s' u EX EI LN ST LE. unfold fits. rewrite EX, EI, (rd_indexes _ _ _ _ _ _ _ _ _ O). split; [lia|]. split; [apply sorted_upto|]. split.
    - apply Forall_forall. intros k I. apply In_upto in I. pose proof (zlen_nonneg ts). lia.
    - intros k tr s t' _ T DS DT. rewrite ST in DT. injection DT as <-. rewrite (LN k tr s T DS).
      destruct RD as (_ & _ & TF & _). destruct (trace_placed _ _ _ _ _ _ _ _ _ TF O tr ltac:(eapply trace_in; eauto)) as (_ & _ & C). nia. }
  assert (MR : forall A B (f : A -> res B) l l', map_res f l = Ok l' -> zlen l' = zlen l) by (intros; eapply map_res_zlen; eauto).
  destruct NW as [|f|f|t' LE].
  - injection EG as <-. cbn [reading reader_dataset ds_binary]. rewrite HB. split; [|exact FB]. apply (LP t); auto; [|lia]. intros k tr s T DS. eapply opened_samples; eauto.
  - unfold scaling in EG. cbn [reading reader_dataset ds_sample_format] in EG. rewrite TY in EG. cbn [bind] in EG. injection EG as <-.
    cbn [ds_binary]. rewrite HB. split; [|exact FB]. apply (LP t); auto; [|cbn [ds_sample_format]; lia].
    intros k tr s T. cbn [ds_trace_samples]. destruct (fst (rd_trace_samples native r k None None (mk_file d 0))) as [ss|] eqn:SS; [|discriminate]. cbn [bind]. intros MRS.
    rewrite (MR _ _ _ _ _ MRS). eapply opened_samples; eauto.
  - injection EG as <-. cbn [scaling_coords reading reader_dataset ds_binary]. rewrite HB. split; [|exact FB]. apply (LP t); auto; [|cbn [ds_sample_format]; lia].
    intros k tr s T DS. eapply opened_samples; eauto.
  - unfold converting in EG. destruct (format_for t') as [code|] eqn:FF; [|discriminate]. cbn [bind] in EG. cbn [reading reader_dataset ds_binary] in EG.
    destruct (hdr_copy (rd_binary r) [("data_sample_format", code)]) as [bin|] eqn:HC; [|discriminate]. cbn [bind] in EG. injection EG as <-. cbn [ds_binary].
    assert (CB : h_cls bin = bc). { unfold hdr_copy in HC. destruct (field_dict _ _); [|discriminate]. cbn [bind] in HC. apply hdr_init_cls in HC. congruence. }
    rewrite CB. split; [|exact FB].
    assert (HG : hdr_get bin "data_sample_format" = Ok code).
    { apply (copy_value (rd_binary r)); [rewrite HB; apply (proj1 FB)|rewrite HB; destruct RD as (_ & B & _); apply B|exact HC]. }
    assert (SF : sample_format bin = Ok t').
    { apply sample_format_ok. exists code. split; [exact HG|]. unfold format_code. cbn. destruct t'; try discriminate; injection FF as <-; tauto. }
    apply (LP t'); auto. intros k tr s T. cbn [ds_trace_samples]. destruct (fst (rd_trace_samples native r k None None (mk_file d 0))) as [ss|] eqn:SS; [|discriminate]. cbn [bind]. intros MRS.
    rewrite (MR _ _ _ _ _ MRS). eapply opened_samples; eauto.
Qed.

Lemma example_in_place G ds' enc' tc' e' pr log : no_wider t G -> G (reading native r d) = Ok ds' -> format_ok tc' 240 ->
  let new := write_segy ds' enc' tc' e' pr (mk_world (mk_file [] 0) log) in
  let out := write_segy_live (fun d => made G (reading native r d)) enc' tc' e' pr (mk_world (mk_file d 0) log) in
  fst out = fst new /\ w_log (snd out) = w_log (snd new) /\
  (fst new = Ok tt -> laid_over d (f_data (w_file (snd new))) (f_data (w_file (snd out)))).
Proof.
  intros NW EG FT. destruct (no_wider_fits G ds' NW EG) as (FI & FB). cbv zeta.
  assert (M : made G (reading native r d) = ds') by (unfold made; now rewrite EG).
  rewrite (in_place d enc bc tc e dim r t ts RD OP TR native (made G) (no_wider_tracewise t G NW)); rewrite ?M; auto. now apply over_new.
Qed.
End Examples.
