(* Proofs about which part of a dataset a byte of the written file comes from. *)
From Coq Require Import String ZArith List Bool Lia ZifyBool ZifyNat.
From Verif Require Import Py PyFloat IbmFloat Util Catalog Packing Formats FileIO Text TextIO Float32 Toolkit Reader
  PyFacts Spec_Util Spec_Catalog CatalogFacts Spec_Ibm FloatFacts RoundFacts IbmFacts IbmArith Spec_Packing PackFacts CompileFacts HeaderFacts PackingFacts FormatFacts
  Spec_Text TextFacts TextIOFacts ExtReadFacts Spec_Segy Float32Facts Spec_Reader ToolkitFacts ReaderFacts OpenFacts Spec_Writer WriterFacts Spec_Written.
Import ListNotations.
Local Open Scope string_scope.
Open Scope list_scope.
Open Scope Z_scope.

(* --- the parts as functions of what they hold --- *)

Definition text_part (x : encoding) (lines : list text) : list Z :=
  match map_res (encode_card x) (forty lines) with Ok cs => concat cs | Err _ => [] end.
Definition page_part (x : encoding) (p : list text) : list Z :=
  match encode_page x p with Ok cs => concat cs | Err _ => [] end.
Definition header_part (c : fmt) (e : endian) (h : header) : list Z :=
  match make_header_packer c e with
  | Ok p => match pk_pack p h with Ok b => b | Err _ => [] end
  | Err _ => []
  end.
Definition samples_part (t : segytype) (e : endian) (ss : list real) : list Z :=
  match pack_samples e (ctype_of t) ss with Ok b => b | Err _ => [] end.
Definition trace_part (tc : fmt) (e : endian) (t : segytype) (tr : trace) : list Z :=
  header_part tc e (fst tr) ++ samples_part t e (snd tr).

Lemma text_part_ok x lines : supported x -> Forall (encodable x) (firstn 40 lines) ->
  zlen (text_part x lines) = 3200 /\ forall f, write_textual_reel_header lines x f = write (text_part x lines) f.
Proof.
  intros S Y. assert (Y' : Forall (encodable x) (forty lines)) by (apply forty_Forall; auto; constructor).
  assert (Q : exists cs, map_res (encode_card x) (forty lines) = Ok cs /\ Forall (fun c => zlen c = 80) cs /\ zlen cs = zlen (forty lines)).
  { clear Y. induction Y' as [|l ls Y _ (cs & E & F & L)].
    - exists []. split; [reflexivity|]. split; [constructor|reflexivity].
    - destruct (encode_card_ok x l S Y) as (c & Ec & Lc & _). exists (c :: cs). cbn [map_res]. rewrite Ec, E. cbn [bind].
      split; [reflexivity|]. split; [now constructor|]. now rewrite !zlen_cons, L. }
  destruct Q as (cs & E & F & L). rewrite forty_zlen in L. unfold text_part. rewrite E.
  split; [rewrite (concat_zlen cs 80) by auto; lia|]. intros f.
  unfold write_textual_reel_header. replace (is_supported_encoding x) with true by (destruct S as [->| ->]; reflexivity). cbn [negb].
  unfold ibind, lift. change (pad_to lines [] CARDS_PER_HEADER) with (forty lines). rewrite E.
  rewrite (concat_zlen cs 80) by auto. rewrite L. reflexivity.
Qed.

Lemma page_part_ok x p : supported x -> page_ok x p -> exists cs, encode_page x p = Ok cs /\ page_part x p = concat cs /\ zlen (page_part x p) = 3200.
Proof.
  intros S H. destruct (page_written x p S H) as (cs & E & (L & _)). exists cs. unfold page_part. rewrite E. auto.
Qed.
Lemma pages_part_ok x pages old pre : supported x -> Forall (page_ok x) pages -> zlen pre = 3600 ->
  zlen (concat (map (page_part x) pages)) = 3200 * zlen pages /\
  write_extended_textual_headers pages x (upon old pre) = (Ok tt, upon old (pre ++ concat (map (page_part x) pages))).
Proof.
  intros S F L.
  assert (Q : exists css, map_res (encode_page x) pages = Ok css /\ map (page_part x) pages = map (@concat Z) css /\ Forall (fun cs => zlen (concat cs) = 3200) css).
  { induction F as [|p pages H _ (css & E & E2 & F2)]. { exists []. now split. }
    destruct (page_part_ok x p S H) as (cs & Ec & P & T). exists (cs :: css). cbn [map_res map]. rewrite Ec, E. split; [reflexivity|].
    split; [now rewrite P, E2|]. constructor; [congruence|assumption]. }
  destruct Q as (css & E & E2 & F2). split.
  { rewrite (concat_zlen _ 3200); [rewrite zlen_map; lia|]. rewrite E2. clear -F2. induction F2; constructor; auto. }
  rewrite E2. unfold write_extended_textual_headers. replace (is_supported_encoding x) with true by (destruct S as [->| ->]; reflexivity). cbn [negb].
  erewrite ibind_ok by (apply seek_ok; vm_compute; discriminate). rewrite E. cbn [upon f_data].
  replace (mk_file (over old pre) REEL_HEADER_NUM_BYTES) with (upon old pre) by (unfold upon; rewrite L; reflexivity).
  erewrite ibind_ok by reflexivity. clear E E2 L F. revert pre. induction F2 as [|cs css L _ IH]; intros pre.
  - cbn. now rewrite app_nil_r.
  - cbn [write_pages map concat]. change TEXTUAL_HEADER_NUM_BYTES with 3200. rewrite L. change (negb (3200 =? 3200)) with false. cbv iota.
    erewrite ibind_ok by apply write_upon. rewrite IH. now rewrite <- app_assoc.
Qed.

Lemma header_part_ok c n e h p : format_ok c n -> good_header c h -> make_header_packer c e = Ok p ->
  pk_pack p h = Ok (header_part c e h) /\ header_block c e h n (header_part c e h).
Proof.
  intros F G EP. destruct (header_written c n e h F G) as (p' & b & EP' & PK & HB). rewrite EP in EP'. injection EP' as <-.
  unfold header_part. rewrite EP, PK. auto.
Qed.
Lemma samples_part_ok t e ss : Forall (storable t) ss ->
  pack_samples e (ctype_of t) ss = Ok (samples_part t e ss) /\ zlen (samples_part t e ss) = sample_size t * zlen ss.
Proof. intros G. destruct (store_all e t ss G) as (sb & rs & PS & L & _). unfold samples_part. rewrite PS. auto. Qed.

Definition good_trace (tc : fmt) (t : segytype) (tr : trace) : Prop := good_header tc (fst tr) /\ Forall (storable t) (snd tr).
Lemma trace_part_size tc e t tr : format_ok tc 240 -> good_trace tc t tr -> zlen (trace_part tc e t tr) = trace_size t tr.
Proof.
  intros F (G & S). assert (F' := F). destruct F' as (_ & _ & _ & _ & _ & MP). destruct (MP e) as (p & EP).
  destruct (header_part_ok tc 240 e (fst tr) p F G EP) as (_ & (L & _)). destruct (samples_part_ok t e (snd tr) S) as (_ & L').
  unfold trace_part, trace_size. rewrite zlen_app. lia.
Qed.

Lemma traces_part_ok ds tc e t trs p n old : format_ok tc 240 -> make_header_packer tc e = Ok p -> ds_sample_format ds = Ok t ->
  forall ks, Forall2 (fun k tr => ds_trace_header ds k = Ok (fst tr) /\ ds_trace_samples ds k None None = Ok (snd tr)) ks trs ->
  Forall (good_trace tc t) trs -> trs = [] \/ n <> 0 -> forall pre log,
    write_traces ds p e n ks (mk_world (upon old pre) log) =
      (Ok tt, mk_world (upon old (pre ++ concat (map (trace_part tc e t) trs))) (log ++ map (fun k => (k, n)) ks)).
Proof.
  intros F EP HT ks P. induction P as [|k tr ks trs (HH & HS) _ IH]; intros G N pre log.
  - cbn. now rewrite !app_nil_r.
  - inversion G as [|? ? (G1 & G2) G']; subst. destruct N as [N|N]; [discriminate|].
    destruct (header_part_ok tc 240 e (fst tr) p F G1 EP) as (PK & HB). destruct (samples_part_ok t e (snd tr) G2) as (PS & L).
    cbn [write_traces]. rewrite HH, on_lift_ok.
    erewrite wbind_ok; [|apply on_file_ok; unfold write_trace_header; rewrite PK; erewrite ibind_ok by reflexivity; apply write_upon].
    rewrite HS, on_lift_ok, HT, on_lift_ok.
    erewrite wbind_ok; [|apply on_file_ok; unfold write_binary_values; rewrite PS; erewrite ibind_ok by reflexivity; apply write_upon].
    rewrite report_ok by exact N. cbn [w_file w_log]. rewrite (IH G' (or_intror N)). cbn [map concat]. unfold trace_part at 2. now rewrite <- !app_assoc.
Qed.

(* --- the whole file --- *)

Definition file_part (ds : dataset) (x : encoding) (bc tc : fmt) (e : endian) (t : segytype) (trs : list trace) : list Z :=
  text_part x (ds_text ds) ++ header_part bc e (ds_binary ds) ++ concat (map (page_part x) (ds_ext ds)) ++ concat (map (trace_part tc e t) trs).

Lemma file_parts ds enc x bc tc e t trs pr old log : writable ds x bc tc t trs -> encoding_for enc ds x -> pr <> NotCallable ->
  let b := file_part ds x bc tc e t trs in
  write_segy ds enc tc e pr (mk_world (mk_file old 0) log) =
    (Ok tt, mk_world (mk_file (b ++ skipn (Z.to_nat (zlen b)) old) (zlen b)) (log ++ map (fun k => (k, ds_num_traces ds)) (ds_trace_indexes ds) ++ [(1, 1)])).
Proof.
  intros W X P. cbv zeta. destruct W as [S TX BC BH EX TC TY N PR G].
  destruct (text_part_ok x (ds_text ds) S TX) as (LT & WT).
  assert (BC' := BC). destruct BC' as (_ & _ & _ & _ & _ & MB). destruct (MB e) as (bp & EBP).
  destruct (header_part_ok bc 400 e (ds_binary ds) bp BC BH EBP) as (BPK & BB).
  assert (L : zlen (text_part x (ds_text ds) ++ header_part bc e (ds_binary ds)) = 3600) by (rewrite zlen_app; destruct BB as (-> & _); lia).
  destruct (pages_part_ok x (ds_ext ds) old _ S EX L) as (LP & WP).
  assert (TC' := TC). destruct TC' as (_ & _ & _ & _ & _ & MP). destruct (MP e) as (p & EP).
  pose proof (traces_part_ok ds tc e t trs p (ds_num_traces ds) old TC EP TY _ PR G N) as WTR.
  unfold write_segy. assert (Q : forall A (a b : A), match pr with NotCallable => a | _ => b end = b) by (destruct pr; congruence). rewrite Q. clear Q.
  assert (XE : match enc with Some x => x | None => match ds_encoding ds with Some (Some x) => x | _ => ASCII end end = x).
  { unfold encoding_for in X. destruct enc; [now subst|]. destruct (ds_encoding ds) as [[y|]|]; now subst. }
  cbv zeta. rewrite XE. replace (is_supported_encoding x) with true by (destruct S as [->| ->]; reflexivity). cbn [negb].
  erewrite wbind_ok; [|apply on_file_ok; rewrite WT, <- upon_nil; apply write_upon]. cbn [app].
  erewrite wbind_ok; [|apply on_file_ok; unfold write_binary_reel_header; destruct BH as (-> & _); rewrite EBP; erewrite ibind_ok by reflexivity; rewrite BPK; erewrite ibind_ok by reflexivity; apply write_upon].
  erewrite wbind_ok by (apply on_file_ok; exact WP). rewrite EP, on_lift_ok. erewrite wbind_ok by apply WTR.
  unfold report. change (1 =? 0) with false. cbv iota. cbn [w_file w_log]. unfold file_part, upon, over. rewrite <- !app_assoc. reflexivity.
Qed.

Lemma parts_size ds x bc tc e t trs : writable ds x bc tc t trs ->
  zlen (text_part x (ds_text ds)) = 3200 /\ zlen (header_part bc e (ds_binary ds)) = 400 /\
  Forall (fun p => zlen (page_part x p) = 3200) (ds_ext ds) /\ Forall (fun tr => zlen (trace_part tc e t tr) = trace_size t tr) trs.
Proof.
  intros [S TX BC BH EX TC TY N PR G]. split; [now apply text_part_ok|].
  assert (BC' := BC). destruct BC' as (_ & _ & _ & _ & _ & MB). destruct (MB e) as (bp & EBP).
  destruct (header_part_ok bc 400 e (ds_binary ds) bp BC BH EBP) as (_ & (LB & _)). split; [exact LB|]. split.
  - revert EX. apply Forall_impl. intros p H. now destruct (page_part_ok x p S H) as (_ & _ & _ & L).
  - revert G. apply Forall_impl. intros tr H. now apply trace_part_size.
Qed.

Lemma written_parts x bc tc e t : exists (text_bytes : list text -> list Z) (header_bytes : header -> list Z)
    (page_bytes : list text -> list Z) (trace_bytes : trace -> list Z),
  forall ds enc trs pr old log, writable ds x bc tc t trs -> encoding_for enc ds x -> pr <> NotCallable ->
    let b := text_bytes (ds_text ds) ++ header_bytes (ds_binary ds) ++ concat (map page_bytes (ds_ext ds)) ++ concat (map trace_bytes trs) in
    zlen (text_bytes (ds_text ds)) = 3200 /\ zlen (header_bytes (ds_binary ds)) = 400 /\
    Forall (fun p => zlen (page_bytes p) = 3200) (ds_ext ds) /\ Forall (fun tr => zlen (trace_bytes tr) = trace_size t tr) trs /\
    exists log', write_segy ds enc tc e pr (mk_world (mk_file old 0) log) =
      (Ok tt, mk_world (mk_file (b ++ skipn (Z.to_nat (zlen b)) old) (zlen b)) log').
Proof.
  exists (text_part x), (header_part bc e), (page_part x), (trace_part tc e t). intros ds enc trs pr old log W X P b.
  destruct (parts_size ds x bc tc e t trs W) as (A & B & C & D). split; [exact A|]. split; [exact B|]. split; [exact C|]. split; [exact D|].
  eexists. unfold b. apply (file_parts ds enc x bc tc e t trs pr old log W X P).
Qed.

(* --- headers with the same values --- *)

Lemma block_unique c e h h' n b b' : same_fields h h' -> h_cls h = c -> header_block c e h n b -> header_block c e h' n b' ->
  (forall i, covered c i \/ ~ covered c i) -> b' = b.
Proof.
  intros (_ & SF) HC (L & _ & (_ & H) & Z0) (L' & _ & (_ & H') & Z0') D. apply byte_ext; [lia|]. intros i I.
  destruct (D i) as [(f & F & R)|N]; [|rewrite Z0, Z0' by (auto; lia); reflexivity].
  destruct (H f F) as (v & G & _ & _ & ST). destruct (H' f F) as (v' & G' & _ & _ & ST').
  rewrite SF in G' by (now rewrite HC). assert (v' = v) as -> by congruence.
  now apply (PackingFacts.stored_bytes e b' b (field_pos c f) (field_size f) v).
Qed.
Lemma covered_or c i : class_ok c -> covered c i \/ ~ covered c i.
Proof.
  intros K.
  destruct (existsb (fun f => (field_pos c f <=? i) && (i <? field_pos c f + field_size f)) (class_fields c)) eqn:E.
  - left. apply existsb_exists in E. destruct E as (f & F & R). exists f. split; [now apply (class_fields_In c f (class_ok_levels _ K))|lia].
  - right. intros (f & F & R). apply (class_fields_In c f (class_ok_levels _ K)) in F.
    assert (existsb (fun f => (field_pos c f <=? i) && (i <? field_pos c f + field_size f)) (class_fields c) = true) by (apply existsb_exists; exists f; split; [exact F|lia]).
    congruence.
Qed.
Lemma header_part_same c n e h h' : format_ok c n -> good_header c h -> good_header c h' -> same_fields h h' -> header_part c e h' = header_part c e h.
Proof.
  intros F G G' SF. assert (F' := F). destruct F' as (K & _ & _ & _ & _ & MP). destruct (MP e) as (p & EP).
  destruct (header_part_ok c n e h p F G EP) as (_ & B). destruct (header_part_ok c n e h' p F G' EP) as (_ & B').
  apply (block_unique c e h h' n); auto. { apply G. } intros i. now apply covered_or.
Qed.
Lemma trace_part_same tc e t tr tr' : format_ok tc 240 -> good_trace tc t tr -> good_trace tc t tr' -> same_trace tr tr' ->
  trace_part tc e t tr' = trace_part tc e t tr.
Proof.
  intros F (G & _) (G' & _) (SF & SS). unfold trace_part. rewrite SS. f_equal. now apply (header_part_same tc 240).
Qed.

(* --- what write_segy makes of a dataset --- *)

Lemma writes_parts ds enc x bc tc e t trs b : writable ds x bc tc t trs -> encoding_for enc ds x -> writes ds enc tc e b ->
  b = file_part ds x bc tc e t trs.
Proof.
  intros W X (pr & log & w & R & E). assert (P : pr <> NotCallable) by (intros ->; discriminate R).
  pose proof (file_parts ds enc x bc tc e t trs pr [] log W X P) as Q. cbv zeta in Q. rewrite R in Q. injection Q as ->.
  rewrite <- E. cbn [w_file f_data]. now rewrite skipn_nil, app_nil_r.
Qed.

Lemma reel_part_same ds ds' x bc tc tc' t t' trs trs' e : writable ds x bc tc t trs -> writable ds' x bc tc' t' trs' -> same_reel ds ds' ->
  text_part x (ds_text ds') = text_part x (ds_text ds) /\ header_part bc e (ds_binary ds') = header_part bc e (ds_binary ds) /\
  concat (map (page_part x) (ds_ext ds')) = concat (map (page_part x) (ds_ext ds)).
Proof.
  intros W W' (-> & SF & ->). split; [reflexivity|]. split; [|reflexivity].
  apply (header_part_same bc 400); auto; [apply (wr_bc _ _ _ _ _ _ W)|apply (wr_binary _ _ _ _ _ _ W)|apply (wr_binary _ _ _ _ _ _ W')].
Qed.

Lemma traces_part_same tc e t : format_ok tc 240 -> forall trs trs', Forall (good_trace tc t) trs -> Forall (good_trace tc t) trs' ->
  Forall2 same_trace trs trs' -> map (trace_part tc e t) trs' = map (trace_part tc e t) trs.
Proof.
  intros F trs trs' G G' S. revert G G'. induction S as [|tr tr' trs trs' H S IH]; intros G G'; [reflexivity|].
  inversion G; inversion G'; subst. cbn [map]. rewrite IH by auto. f_equal. now apply trace_part_same.
Qed.

(* the same dataset gives the same file *)
Lemma written_same ds ds' enc enc' x bc tc e t trs trs' b b' : writable ds x bc tc t trs -> writable ds' x bc tc t trs' ->
  encoding_for enc ds x -> encoding_for enc' ds' x -> same_reel ds ds' -> Forall2 same_trace trs trs' ->
  writes ds enc tc e b -> writes ds' enc' tc e b' -> b' = b.
Proof.
  intros W W' X X' SR ST A A'. rewrite (writes_parts _ _ _ _ _ _ _ _ _ W X A), (writes_parts _ _ _ _ _ _ _ _ _ W' X' A').
  unfold file_part. destruct (reel_part_same ds ds' x bc tc tc t t trs trs' e W W' SR) as (-> & -> & ->).
  rewrite (traces_part_same tc e t (wr_tc _ _ _ _ _ _ W) trs trs'); auto; [apply (wr_good _ _ _ _ _ _ W)|apply (wr_good _ _ _ _ _ _ W')].
Qed.

(* more traces after those there were *)
Lemma written_more ds ds' enc enc' x bc tc e t trs trs' more b b' : writable ds x bc tc t trs -> writable ds' x bc tc t (trs' ++ more) ->
  encoding_for enc ds x -> encoding_for enc' ds' x -> same_reel ds ds' -> Forall2 same_trace trs trs' ->
  writes ds enc tc e b -> writes ds' enc' tc e b' -> exists c, b' = b ++ c /\ zlen c = fold_right (fun tr n => trace_size t tr + n) 0 more.
Proof.
  intros W W' X X' SR ST A A'. rewrite (writes_parts _ _ _ _ _ _ _ _ _ W X A), (writes_parts _ _ _ _ _ _ _ _ _ W' X' A').
  unfold file_part. destruct (reel_part_same ds ds' x bc tc tc t t trs _ e W W' SR) as (-> & -> & ->).
  pose proof (wr_good _ _ _ _ _ _ W') as G. apply Forall_app in G. destruct G as (G1 & G2).
  rewrite map_app, concat_app, (traces_part_same tc e t (wr_tc _ _ _ _ _ _ W) trs trs'); auto; [|apply (wr_good _ _ _ _ _ _ W)].
  exists (concat (map (trace_part tc e t) more)). split; [now rewrite <- !app_assoc|].
  pose proof (wr_tc _ _ _ _ _ _ W) as F. clear -G2 F. induction G2 as [|tr more G _ IH]; [reflexivity|].
  cbn [map concat fold_right]. rewrite zlen_app, IH, (trace_part_size tc e t tr) by auto. reflexivity.
Qed.

Lemma concat_size tc e t trs : format_ok tc 240 -> Forall (good_trace tc t) trs ->
  zlen (concat (map (trace_part tc e t) trs)) = fold_right (fun tr n => trace_size t tr + n) 0 trs.
Proof.
  intros F G. induction G as [|tr more G _ IH]; [reflexivity|]. cbn [map concat fold_right]. rewrite zlen_app, IH, (trace_part_size tc e t tr) by auto. reflexivity.
Qed.

(* one trace replaced by one with as many samples *)
Lemma written_one ds ds' enc enc' x bc tc e t pre pre' tr tr' post post' b b' :
  writable ds x bc tc t (pre ++ tr :: post) -> writable ds' x bc tc t (pre' ++ tr' :: post') ->
  encoding_for enc ds x -> encoding_for enc' ds' x -> same_reel ds ds' -> Forall2 same_trace pre pre' -> Forall2 same_trace post post' ->
  zlen (snd tr') = zlen (snd tr) -> writes ds enc tc e b -> writes ds' enc' tc e b' ->
  let s := trace_start ds t (pre ++ tr :: post) (length pre) in
  zlen b' = zlen b /\ forall i, 0 <= i < zlen b -> i < s \/ s + trace_size t tr <= i -> byte_at b' i = byte_at b i.
Proof.
  intros W W' X X' SR S1 S2 SZ A A' s. rewrite (writes_parts _ _ _ _ _ _ _ _ _ W X A), (writes_parts _ _ _ _ _ _ _ _ _ W' X' A').
  unfold file_part. destruct (reel_part_same ds ds' x bc tc tc t t _ _ e W W' SR) as (-> & -> & ->).
  pose proof (wr_tc _ _ _ _ _ _ W) as F.
  pose proof (wr_good _ _ _ _ _ _ W) as G. pose proof (wr_good _ _ _ _ _ _ W') as G'.
  apply Forall_app in G. apply Forall_app in G'. destruct G as (G1 & G2), G' as (G1' & G2').
  inversion G2 as [|? ? G3 G4]; inversion G2' as [|? ? G3' G4']; subst.
  destruct (parts_size ds x bc tc e t _ W) as (L1 & L2 & _ & _).
  assert (L3 : zlen (concat (map (page_part x) (ds_ext ds))) = 3200 * zlen (ds_ext ds)).
  { apply (pages_part_ok x (ds_ext ds) [] (repeat 0 3600)); [apply (wr_encoding _ _ _ _ _ _ W)|apply (wr_ext _ _ _ _ _ _ W)|].
    unfold zlen. rewrite repeat_length. lia. }
  rewrite !map_app, !concat_app. cbn [map concat]. rewrite (traces_part_same tc e t F pre pre'), (traces_part_same tc e t F post post') by auto.
  pose proof (concat_size tc e t pre F G1) as LP.
  assert (T : zlen (trace_part tc e t tr) = trace_size t tr) by now apply trace_part_size.
  assert (T' : zlen (trace_part tc e t tr') = trace_size t tr) by (rewrite trace_part_size by auto; unfold trace_size; lia).
  assert (ES : s = zlen (text_part x (ds_text ds) ++ header_part bc e (ds_binary ds) ++ concat (map (page_part x) (ds_ext ds)) ++ concat (map (trace_part tc e t) pre))).
  { unfold s, trace_start. rewrite firstn_app, Nat.sub_diag, firstn_all, firstn_O, app_nil_r, !zlen_app, L1, L2, L3, LP. lia. }
  assert (SP : forall a b c d f g : list Z, a ++ b ++ c ++ d ++ f ++ g = (a ++ b ++ c ++ d) ++ f ++ g) by (intros; now rewrite <- !app_assoc).
  rewrite !SP. revert ES. generalize (text_part x (ds_text ds) ++ header_part bc e (ds_binary ds) ++ concat (map (page_part x) (ds_ext ds)) ++ concat (map (trace_part tc e t) pre)).
  intros P ES. generalize (concat (map (trace_part tc e t) post)). intros Q. clearbody s.
  split; [rewrite !zlen_app; lia|]. intros i I [J|J].
  - unfold byte_at. rewrite (app_nth1 P), (app_nth1 P) by (unfold zlen in *; lia). reflexivity.
  - unfold byte_at. rewrite (app_nth2 P), (app_nth2 P) by (unfold zlen in *; lia).
    rewrite !app_nth2 by (unfold zlen in *; lia). f_equal. unfold zlen in *; lia.
Qed.
