(* Proofs about files that are opened or written at some position. *)
From Coq Require Import String ZArith List Bool Lia.
From Coq Require Import ZifyBool ZifyNat.
From Verif Require Import Py PyFacts PyFloat IbmFloat Util Catalog Packing Spec_Packing PackFacts CompileFacts HeaderFacts PackingFacts Formats FileIO Text TextIO TextIOFacts
  Float32 Toolkit Spec_Text Spec_Segy ToolkitFacts Reader Spec_Reader ReaderFacts Spec_Position.
Import ListNotations.
Local Open Scope string_scope.
Open Scope list_scope.
Open Scope Z_scope.

(* ---------------- reading ---------------- *)

(* files that do not differ from the first trace header on, and are there *)
Definition tails (w w' : world) : Prop :=
  let f := w_file w in let f' := w_file w' in
  f_pos f = f_pos f' /\ 3600 <= f_pos f /\ all_bytes (f_data f) /\ zlen (f_data f) = zlen (f_data f') /\
  skipn (Z.to_nat 3600) (f_data f) = skipn (Z.to_nat 3600) (f_data f') /\ w_log w = w_log w'.
Definition alike {A} (m m' : wio A) : Prop := forall w w', tails w w' -> fst (m w) = fst (m' w') /\ tails (snd (m w)) (snd (m' w')).

Lemma alike_ret {A} (a : A) : alike (wret a) (wret a).
Proof. intros w w' T. auto. Qed.
Lemma alike_raise {A} y : alike (@wraise A y) (wraise y).
Proof. intros w w' T. auto. Qed.
Lemma alike_bind {A B} (m m' : wio A) (k k' : A -> wio B) : alike m m' -> (forall a, alike (k a) (k' a)) -> alike (wbind m k) (wbind m' k').
Proof.
  intros M K w w' T. unfold wbind. destruct (M w w' T) as (E & T'). destruct (m w) as [[a|y] v], (m' w') as [[a'|y'] v']; cbn [fst snd] in *; try discriminate.
  - injection E as <-. now apply K.
  - injection E as <-. auto.
Qed.
Lemma alike_lift {A} (r : res A) : alike (on_file (lift r)) (on_file (lift r)).
Proof. intros [[d p] l] [[d' p'] l'] T. split; [reflexivity|exact T]. Qed.
Lemma alike_report n m : alike (report n m) (report n m).
Proof.
  intros w w' T. unfold report. destruct (m =? 0); [auto|]. split; [reflexivity|]. unfold tails in *. cbn [w_file w_log snd]. destruct T as (? & ? & ? & ? & ? & ->). auto 7.
Qed.
Lemma alike_tell : alike (on_file tell) (on_file tell).
Proof. intros [[d p] l] [[d' p'] l'] T. split; [cbn; f_equal; apply T|exact T]. Qed.
Lemma alike_seek p : 3600 <= p -> alike (on_file (seek p)) (on_file (seek p)).
Proof.
  intros L [[d q] l] [[d' q'] l'] T. unfold on_file, seek. cbn [w_file]. replace (p <? 0) with false by lia. split; [reflexivity|].
  unfold tails in *. cbn in *. intuition lia.
Qed.
Lemma slice_tail (d d' : list Z) a b : 3600 <= a -> skipn (Z.to_nat 3600) d = skipn (Z.to_nat 3600) d' -> py_slice d a b = py_slice d' a b.
Proof.
  intros L E. unfold py_slice. f_equal. assert (X : forall l : list Z, skipn (Z.to_nat a) l = skipn (Z.to_nat (a - 3600)) (skipn (Z.to_nat 3600) l)).
  { intros l. rewrite skipn_skipn. f_equal. lia. }
  rewrite (X d), (X d'), E. reflexivity.
Qed.
Lemma alike_read n : alike (on_file (read n)) (on_file (read n)).
Proof.
  intros [[d q] l] [[d' q'] l'] (P & L & B & Z & S & W). cbn [w_file w_log f_data f_pos] in P, L, Z, S, W. subst q' l'. unfold on_file, read. cbn [w_file f_data f_pos].
  rewrite (slice_tail d d' q (q + n) L S). split; [reflexivity|]. unfold tails. cbn. pose proof (zlen_nonneg (py_slice d' q (q + n))). intuition lia.
Qed.
Lemma alike_length : alike (on_file file_length) (on_file file_length).
Proof.
  intros [[d q] l] [[d' q'] l'] (P & L & B & Z & S & W). cbn [w_file w_log f_data f_pos] in P, L, Z, S, W. subst q' l'.
  unfold on_file, file_length, ibind, tell, seek_end, seek, ret. cbn [w_file f_data f_pos]. replace (q <? 0) with false by lia. cbn [fst snd].
  rewrite Z. split; [reflexivity|]. unfold tails. cbn. auto 7.
Qed.
(* on_file goes inside *)
Lemma on_file_bind {A B} (m : io A) (k : A -> io B) w : on_file (ibind m k) w = wbind (on_file m) (fun a => on_file (k a)) w.
Proof. unfold on_file, ibind, wbind. destruct w as [f l]. cbn [w_file w_log]. destruct (m f) as [[a|y] f']; reflexivity. Qed.
Lemma alike_ext {A} (m n m' n' : wio A) : (forall w, m w = n w) -> (forall w, m' w = n' w) -> alike n n' -> alike m m'.
Proof. intros E E' H w w' T. rewrite E, E'. now apply H. Qed.
Lemma alike_io {A B} (m : io A) (k k' : A -> io B) : alike (on_file m) (on_file m) -> (forall a, alike (on_file (k a)) (on_file (k' a))) ->
  alike (on_file (ibind m k)) (on_file (ibind m k')).
Proof. intros M K. eapply alike_ext; [apply on_file_bind|apply on_file_bind|]. now apply alike_bind. Qed.
Lemma alike_io_ret {A} (a : A) : alike (on_file (ret a)) (on_file (ret a)).
Proof. exact (alike_lift (Ok a)). Qed.
Lemma alike_io_raise {A} y : alike (on_file (@raise A y)) (on_file (raise y)).
Proof. exact (alike_lift (Err y)). Qed.

Lemma alike_text e : alike (on_file (read_textual_reel_header e)) (on_file (read_textual_reel_header e)).
Proof.
  unfold read_textual_reel_header. apply alike_io; [apply alike_read|]. intros raw. destruct (zlen raw <? _); [apply alike_io_raise|apply alike_lift].
Qed.
Lemma alike_until e fuel : forall acc, alike (on_file (until_end_loop fuel e acc)) (on_file (until_end_loop fuel e acc)).
Proof.
  induction fuel as [|fuel IH]; intros acc; cbn [until_end_loop]; [apply alike_io_raise|].
  apply alike_io; [apply alike_text|]. intros ext. apply alike_io; [apply alike_lift|]. intros []; [apply alike_io_ret|apply IH].
Qed.
Lemma alike_counted e n todo : forall acc, alike (on_file (counted_loop todo n e acc)) (on_file (counted_loop todo n e acc)).
Proof.
  induction todo as [|i todo IH]; intros acc; cbn [counted_loop]; [apply alike_io_ret|].
  apply alike_io; [apply alike_text|]. intros ext. apply alike_io; [apply alike_lift|]. intros a. destruct (_ && _); [apply alike_io_raise|apply IH].
Qed.
Lemma alike_extended n e : alike (on_file (read_extended_textual_headers n e)) (on_file (read_extended_textual_headers n e)).
Proof.
  unfold read_extended_textual_headers. apply alike_io; [apply alike_seek; vm_compute; discriminate|]. intros _. destruct (n <? 0).
  - intros w w' T. assert (E : length (f_data (w_file w)) = length (f_data (w_file w'))) by (destruct T as (_ & _ & _ & Z & _); unfold zlen in Z; lia).
    pose proof (alike_until e (Datatypes.S (length (f_data (w_file w)))) [] w w' T) as U.
    unfold on_file, read_extended_headers_until_end in *. rewrite <- E. exact U.
  - unfold read_extended_headers_counted. destruct (n <? 0); [apply alike_io_raise|apply alike_counted].
Qed.

Section Scan.
Variables (c : fmt) (e : endian) (bps : Z) (p : packer).
Hypothesis T : trace_format c.
Hypothesis Hbps : 0 <= bps.
Hypothesis HP : forall buf, all_bytes buf -> zlen buf = 240 ->
    (exists h, pk_unpack p buf = Ok h /\ forall n, In n catalog_names -> exists v, hdr_get h n = Ok v /\ field_at c e buf 0 n v) \/
    (pk_unpack p buf = Err ValueError /\ exists n, In n catalog_names /\ bad_field_at c e buf 0 n).
Lemma alike_loop len fuel : forall k pos b, 3600 <= pos -> alike (catalog_loop fuel p bps len k pos b) (catalog_loop fuel p bps len k pos b).
Proof.
  assert (NN : forall f v, is_field c f -> fd_name f = "num_samples" -> accepts (fd_type f) v -> 0 <= v) by apply T.
  induction fuel as [|fuel IH]; intros k pos b L; cbn [catalog_loop]; [apply alike_raise|].
  apply alike_bind; [apply alike_report|]. intros _. apply alike_bind; [now apply alike_seek|]. intros _.
  intros [[d q] l] [[d' q'] l'] (P & LQ & B & Z & S & W). cbn [w_file w_log f_data f_pos] in P, LQ, B, Z, S, W. subst q' l'.
  set (buf := py_slice d' q (q + TRACE_HEADER_NUM_BYTES)). assert (EB : py_slice d q (q + TRACE_HEADER_NUM_BYTES) = buf) by (apply slice_tail; assumption).
  assert (BB : all_bytes buf) by (rewrite <- EB; now apply all_bytes_slice).
  assert (R : forall D, py_slice D q (q + TRACE_HEADER_NUM_BYTES) = buf -> on_file (read TRACE_HEADER_NUM_BYTES) (mk_world (mk_file D q) l) =
    (Ok buf, mk_world (mk_file D (q + zlen buf)) l)).
  { intros D H. unfold on_file, read. cbn [w_file w_log f_data f_pos]. now rewrite H. }
  rewrite (wbind_ok _ _ _ _ _ (R d EB)), (wbind_ok _ _ _ _ _ (R d' eq_refl)). clear R EB.
  pose proof (zlen_nonneg buf) as N0.
  assert (T' : tails (mk_world (mk_file d (q + zlen buf)) l) (mk_world (mk_file d' (q + zlen buf)) l)) by (unfold tails; cbn [w_file w_log f_data f_pos]; intuition lia).
  destruct (zlen buf <? TRACE_HEADER_NUM_BYTES) eqn:E; [split; [reflexivity|exact T']|].
  assert (LB : zlen buf = 240). { unfold buf, TRACE_HEADER_NUM_BYTES in *. rewrite zlen_py_slice in * by lia. lia. }
  destruct (HP buf BB LB) as [(h & U & G)|(U & _)]; rewrite U; [|rewrite !on_lift_err; split; [reflexivity|exact T']].
  destruct (G "num_samples") as (ns & Gn & An); [cbn; tauto|]. destruct (G "inline_number") as (il & Gi & _); [cbn; tauto|].
  destruct (G "crossline_number") as (xl & Gx & _); [cbn; tauto|]. destruct (G "ensemble_num") as (en & Ge & _); [cbn; tauto|].
  rewrite !on_lift_ok, Gn, Gi, Gx, Ge, !on_lift_ok. apply IH; [|exact T'].
  assert (0 <= ns). { destruct An as (f & F & E' & A & _). exact (NN f ns F E' A). } unfold TRACE_HEADER_NUM_BYTES. nia.
Qed.
End Scan.
Lemma alike_catalog bps c e : trace_format c -> 0 <= bps -> alike (catalog_traces bps c e Callable) (catalog_traces bps c e Callable).
Proof.
  intros T B w w' W. cbn [catalog_traces].
  assert (E : length (f_data (w_file w)) = length (f_data (w_file w'))) by (destruct W as (_ & _ & _ & Z & _); unfold zlen in Z; lia). rewrite E.
  generalize (Datatypes.S (Datatypes.S (length (f_data (w_file w'))))). clear E. intros fuel. revert w w' W. change (alike (catalog_traces_fuel fuel bps c e) (catalog_traces_fuel fuel bps c e)).
  destruct (catalog_packer c e T) as (sub & p & SF & P & HP). unfold catalog_traces_fuel.
  intros w w' W. rewrite SF, !on_lift_ok, P, !on_lift_ok. revert w w' W.
  match goal with |- forall w w', tails w w' -> fst (?m w) = fst (?n w') /\ _ => change (alike m n) end.
  apply alike_bind; [apply alike_length|]. intros len.
  intros w w' W. assert (L := W). destruct L as (EP & LP & _). remember (f_pos (w_file w)) as q eqn:EQ.
  assert (R : forall v, f_pos (w_file v) = q -> on_file tell v = (Ok q, v)). { intros [f l] H. unfold on_file, tell. cbn in *. now rewrite H. }
  rewrite (wbind_ok _ _ _ _ _ (R w (eq_sym EQ))), (wbind_ok _ _ _ _ _ (R w' (eq_sym EP))). clear R EP EQ. revert w w' W.
  match goal with |- forall w w', tails w w' -> fst (?m w) = fst (?n w') /\ _ => change (alike m n) end.
  apply alike_bind; [now apply (alike_loop c e bps p T B HP)|]. intros b.
  repeat first [apply alike_bind; [first [apply alike_report|apply alike_lift]|intros ?] | apply alike_ret].
Qed.

(* make_reader from the extended headers on *)
Definition rest (tx : list text) (bin : header) (enc : encoding) (tc : fmt) (e : endian) (dim : option Z) : wio reader :=
  go declared <- on_file (lift (num_extended_textual_headers bin)) ;;
  go ext <- on_file (read_extended_textual_headers declared enc) ;;
  go bps <- on_file (lift (bytes_per_sample bin)) ;;
  go (offsets, lengths, cdps, lines) <- catalog_traces bps tc e Callable ;;
  let dim := match dim with
             | Some d => d
             | None => match cdps, lines with Some _, None => 2 | _, Some _ => 3 | None, None => 1 end
             end in
  if negb ((1 <=? dim) && (dim <=? 3)) then wraise AssertionError
  else
    let kind := if dim =? 1 then Plain else if dim =? 2 then Kind2D (cat1_or_empty cdps) else Kind3D (cat2_or_empty lines) in
    on_file (lift (reader_init kind tx bin ext (cat1_or_empty offsets) (cat1_or_empty lengths) tc enc e)).
Lemma make_reader_parts x bc tc e dim w : make_reader (Some x) bc tc e dim w =
  (go tx <- on_file (read_textual_reel_header x) ;; go bin <- on_file (read_binary_reel_header bc e) ;;
   go _ <- on_file (seek 3600) ;; rest tx bin x tc e dim) w.
Proof. reflexivity. Qed.
Lemma alike_rest tx bin x tc e dim : trace_format tc -> alike (rest tx bin x tc e dim) (rest tx bin x tc e dim).
Proof.
  intros T. unfold rest. apply alike_bind; [apply alike_lift|]. intros n. apply alike_bind; [apply alike_extended|]. intros ext.
  intros w w' W. destruct (bytes_per_sample bin) as [bps|y] eqn:E; [|rewrite !on_lift_err; auto]. rewrite !on_lift_ok.
  assert (B : 0 <= bps).
  { unfold bytes_per_sample in E. destruct (hdr_get bin "data_sample_format"); [|discriminate]. cbn in E. destruct (segy_type_of _) as [t|]; [|discriminate].
    injection E as <-. destruct t; cbn; lia. }
  revert w w' W. match goal with |- forall w w', tails w w' -> fst (?m w) = fst (?n w') /\ _ => change (alike m n) end.
  apply alike_bind; [now apply alike_catalog|]. intros [[[offsets lengths] cdps] lines]. cbv zeta. destruct (negb _); [apply alike_raise|apply alike_lift].
Qed.

Lemma checks_anywhere a e pr dim d q log : 0 <= q -> exists r, 
  create_reader_checks a e pr dim (mk_world (mk_file d q) log) = (r, mk_world (mk_file d q) log) /\
  forall d', zlen d' = zlen d -> create_reader_checks a e pr dim (mk_world (mk_file d' 0) log) = (r, mk_world (mk_file d' 0) log).
Proof.
  intros Q.
  assert (L : forall D p, 0 <= p -> on_file file_length (mk_world (mk_file D p) log) = (Ok (zlen D), mk_world (mk_file D p) log)).
  { intros D p P. unfold on_file, file_length, ibind, tell, seek_end, seek, ret. cbn [w_file f_data f_pos w_log]. now replace (p <? 0) with false by lia. }
  unfold create_reader_checks. destruct (fa_closed a); [eexists; split; [reflexivity|intros; reflexivity]|].
  destruct (fa_text a); [eexists; split; [reflexivity|intros; reflexivity]|]. destruct (negb (fa_seekable a)); [eexists; split; [reflexivity|intros; reflexivity]|].
  rewrite (wbind_ok _ _ _ _ _ (L d q Q)).
  destruct (zlen d <? REEL_HEADER_NUM_BYTES) eqn:E.
  { eexists. split; [reflexivity|]. intros d' H. rewrite (wbind_ok _ _ _ _ _ (L d' 0 ltac:(lia))), H, E. reflexivity. }
  destruct e as [e|]; [|eexists; split; [reflexivity|]; intros d' H; rewrite (wbind_ok _ _ _ _ _ (L d' 0 ltac:(lia))), H, E; reflexivity].
  exists (match pr with NotCallable => Err TypeError | _ => if match dim with None => false | Some d => negb (zmem d [1; 2; 3]) end then Err ValueError else Ok e end).
  split; [destruct pr; try reflexivity; destruct (match dim with None => _ | Some _ => _ end); reflexivity|].
  intros d' H. rewrite (wbind_ok _ _ _ _ _ (L d' 0 ltac:(lia))), H, E. destruct pr; try reflexivity; destruct (match dim with None => _ | Some _ => _ end); reflexivity.
Qed.

Lemma text_at e d q log : 0 <= q -> q + 3200 <= zlen d -> exists r,
  on_file (read_textual_reel_header e) (mk_world (mk_file d q) log) = (r, mk_world (mk_file d (q + 3200)) log) /\
  forall d' q', 0 <= q' -> py_slice d' q' (q' + 3200) = py_slice d q (q + 3200) ->
    on_file (read_textual_reel_header e) (mk_world (mk_file d' q') log) = (r, mk_world (mk_file d' (q' + 3200)) log).
Proof.
  intros Q L. set (buf := py_slice d q (q + 3200)). assert (Z : zlen buf = 3200) by (subst buf; rewrite zlen_py_slice by lia; lia).
  exists (do batches <- batched buf CARD_LENGTH None ;; map_res (decode e) batches).
  assert (R : forall d' q', 0 <= q' -> py_slice d' q' (q' + 3200) = buf -> on_file (read_textual_reel_header e) (mk_world (mk_file d' q') log) =
    (do batches <- batched buf CARD_LENGTH None ;; map_res (decode e) batches, mk_world (mk_file d' (q' + 3200)) log)).
  { intros d' q' Q' H. unfold on_file, read_textual_reel_header, ibind, read, lift, raise. cbn [w_file w_log f_data f_pos].
    change TEXTUAL_HEADER_NUM_BYTES with 3200. rewrite H, Z. replace (3200 <? 3200) with false by lia. reflexivity. }
  split; [now apply R|exact R].
Qed.
Lemma binary_at bc e d q log : fmt_length bc = Some 400 -> 0 <= q -> q + 400 <= zlen d -> exists r, forall d' q', 0 <= q' -> py_slice d' q' (q' + 400) = py_slice d q (q + 400) ->
    exists q'', on_file (read_binary_reel_header bc e) (mk_world (mk_file d' q') log) = (r, mk_world (mk_file d' q'') log).
Proof.
  intros F Q L. set (buf := py_slice d q (q + 400)). assert (Z : zlen buf = 400) by (subst buf; rewrite zlen_py_slice by lia; lia).
  exists (do p <- make_header_packer bc e ;; pk_unpack p buf).
  intros d' q' Q' H. unfold on_file, read_binary_reel_header, ibind, lift. rewrite F. cbn [read_opt w_file w_log f_data f_pos].
  destruct (make_header_packer bc e) as [p|y]; [|eexists; reflexivity]. unfold read. cbn [Z.ltb Z.compare f_data f_pos]. rewrite H. eexists. reflexivity.
Qed.
Lemma slice_app_l (d t : list Z) a b : 0 <= a -> a <= b -> b <= zlen d -> py_slice (d ++ t) a b = py_slice d a b.
Proof.
  intros A AB B. unfold py_slice, zlen in *. rewrite skipn_app, firstn_app.
  replace (Z.to_nat (b - a) - length (skipn (Z.to_nat a) d))%nat with 0%nat by (rewrite skipn_length; lia). cbn. now rewrite app_nil_r.
Qed.
Lemma slice_slice (d : list Z) q n a b : 0 <= q -> 0 <= a -> a <= b -> b <= n -> py_slice (py_slice d q (q + n)) a b = py_slice d (q + a) (q + b).
Proof.
  intros Q A AB B. unfold py_slice. rewrite skipn_firstn_comm, firstn_firstn, skipn_skipn. f_equal; [lia|]. f_equal. lia.
Qed.
Lemma open_at d q x bc tc : readable d (Some x) bc tc -> 0 <= q -> q + 3600 <= zlen d ->
  let d' := py_slice d q (q + 3600) ++ skipn (Z.to_nat 3600) d in
  forall a e pr dim log,
  let out := create_reader a (Some x) bc tc e pr dim (mk_world (mk_file d q) log) in
  let out' := create_reader a (Some x) bc tc e pr dim (mk_world (mk_file d' 0) log) in
  fst out = fst out' /\ w_log (snd out) = w_log (snd out').
Proof.
  intros (B & (FB & _) & T & _) Q L. cbv zeta. intros a e pr dim log.
  assert (ZL : zlen (py_slice d q (q + 3600)) = 3600) by (rewrite zlen_py_slice by lia; lia).
  set (h := py_slice d q (q + 3600)) in *. set (d' := h ++ skipn (Z.to_nat 3600) d).
  assert (ZD : zlen d' = zlen d). { subst d'. rewrite zlen_app, ZL. unfold zlen in *. rewrite skipn_length. lia. }
  destruct (checks_anywhere a e pr dim d q log Q) as (r & C & C').
  specialize (C' d' ZD). unfold create_reader. destruct r as [e'|y]; [|unfold wbind; rewrite C, C'; auto].
  rewrite (wbind_ok _ _ _ _ _ C), (wbind_ok _ _ _ _ _ C').
  assert (S1 : py_slice d' 0 (0 + 3200) = py_slice d q (q + 3200)).
  { subst d'. rewrite slice_app_l by lia. subst h. rewrite slice_slice by lia. f_equal; lia. }
  assert (S2 : py_slice d' 3200 (3200 + 400) = py_slice d (q + 3200) (q + 3200 + 400)).
  { subst d'. rewrite slice_app_l by lia. subst h. rewrite slice_slice by lia. f_equal; lia. }
  assert (MK : fst (make_reader (Some x) bc tc e' dim (mk_world (mk_file d q) log)) = fst (make_reader (Some x) bc tc e' dim (mk_world (mk_file d' 0) log)) /\
    w_log (snd (make_reader (Some x) bc tc e' dim (mk_world (mk_file d q) log))) = w_log (snd (make_reader (Some x) bc tc e' dim (mk_world (mk_file d' 0) log)))).
  { rewrite !make_reader_parts.
    destruct (text_at x d q log Q ltac:(lia)) as (tx & E1 & E1'). specialize (E1' d' 0 ltac:(lia) S1).
    destruct tx as [tx|y]; [|unfold wbind; rewrite E1, E1'; auto].
    rewrite (wbind_ok _ _ _ _ _ E1), (wbind_ok _ _ _ _ _ E1').
    assert (FL : fmt_length bc = Some 400) by apply FB.
    destruct (binary_at bc e' d (q + 3200) log FL ltac:(lia) ltac:(lia)) as (rb & RB).
    destruct (RB d (q + 3200) ltac:(lia) eq_refl) as (q1 & E2). destruct (RB d' (0 + 3200) ltac:(lia) S2) as (q2 & E2').
    destruct rb as [bin|y]; [|unfold wbind; rewrite E2, E2'; auto].
    rewrite (wbind_ok _ _ _ _ _ E2), (wbind_ok _ _ _ _ _ E2').
    erewrite !wbind_ok by (apply on_file_ok, seek_ok; lia). cbn [f_data].
    assert (W : tails (mk_world (mk_file d 3600) log) (mk_world (mk_file d' 3600) log)).
    { unfold tails. cbn [w_file w_log f_data f_pos]. split; [reflexivity|]. split; [lia|]. split; [exact B|]. split; [now symmetry|]. split; [|reflexivity].
      subst d'. rewrite skipn_app. unfold zlen in ZL. rewrite (skipn_all2 h) by lia. replace (Z.to_nat 3600 - length h)%nat with 0%nat by lia. reflexivity. }
    destruct (alike_rest tx bin x tc e' dim T _ _ W) as (E3 & W3). split; [exact E3|apply W3]. }
  destruct MK as (E & EL). unfold wbind.
  destruct (make_reader (Some x) bc tc e' dim (mk_world (mk_file d q) log)) as [[rd|y] w1], (make_reader (Some x) bc tc e' dim (mk_world (mk_file d' 0) log)) as [[rd'|y'] w1'];
    cbn [fst snd] in *; try discriminate; injection E as <-; [|auto]. unfold report, wret. cbn. now rewrite EL.
Qed.

Lemma make_reader_guess enc bc tc e dim d q log x : 0 <= q -> encoding_used enc d x ->
  make_reader enc bc tc e dim (mk_world (mk_file d q) log) = make_reader (Some x) bc tc e dim (mk_world (mk_file d q) log).
Proof.
  intros Q. destruct enc as [y|]; [intros ->; reflexivity|]. intros H. unfold make_reader.
  unfold wbind at 1. unfold wbind at 1. erewrite on_file_ok by (apply guess_textual_ok; cbn; lia). cbn [f_data].
  unfold encoding_used in H. unfold wret at 1. destruct (guess_encoding _ _ _) as [z|]; subst; reflexivity.
Qed.
Lemma create_reader_guess a enc bc tc e pr dim d q log x : 0 <= q -> encoding_used enc d x ->
  create_reader a enc bc tc e pr dim (mk_world (mk_file d q) log) = create_reader a (Some x) bc tc e pr dim (mk_world (mk_file d q) log).
Proof.
  intros Q X. unfold create_reader. destruct (checks_anywhere a e pr dim d q log Q) as (r & C & _). unfold wbind. rewrite C. destruct r as [e'|y]; [|reflexivity].
  rewrite (make_reader_guess enc bc tc e' dim d q log x Q X). reflexivity.
Qed.
Lemma open_short d q enc x bc tc : readable d enc bc tc -> encoding_used enc d x -> 0 <= q -> zlen d < q + 3600 ->
  forall a e pr dim log, exists y, fst (create_reader a enc bc tc e pr dim (mk_world (mk_file d q) log)) = Err y.
Proof.
  intros (B & (FB & _) & T & _) X Q L a e pr dim log. rewrite (create_reader_guess a enc bc tc e pr dim d q log x Q X). unfold create_reader.
  destruct (checks_anywhere a e pr dim d q log Q) as (r & C & _). unfold wbind at 1. rewrite C. destruct r as [e'|y]; [|now exists y].
  unfold wbind at 1. rewrite make_reader_parts.
  destruct (Z.le_gt_cases (q + 3200) (zlen d)) as [L2|L2].
  - destruct (text_at x d q log Q L2) as (tx & E1 & _). destruct tx as [tx|y]; [|unfold wbind at 1; rewrite E1; now exists y].
    rewrite (wbind_ok _ _ _ _ _ E1). destruct FB as (K & _ & S & O & FL & MK).
    unfold wbind at 1. unfold on_file at 1. unfold read_binary_reel_header, ibind, lift. destruct (MK e') as (p & P). rewrite P, FL. cbn [read_opt w_file w_log]. unfold read. cbn [Z.ltb Z.compare f_data f_pos].
    set (buf := py_slice d (q + 3200) (q + 3200 + 400)).
    assert (BB : all_bytes buf) by now apply all_bytes_slice.
    assert (LB : zlen buf < 400) by (subst buf; rewrite zlen_py_slice by lia; lia).
    destruct (unpack_iff bc e' p buf K S O P BB) as [(h & _ & HL & _)|(U & _)].
    + exfalso. unfold header_length in HL. rewrite FL in HL. lia.
    + rewrite U. now exists ValueError.
  - unfold wbind at 1. unfold on_file at 1. unfold read_textual_reel_header, ibind, read. cbn [w_file w_log f_data f_pos].
    change TEXTUAL_HEADER_NUM_BYTES with 3200. replace (zlen (py_slice d q (q + 3200)) <? 3200) with true by (rewrite zlen_py_slice by lia; lia). now exists EOFError.
Qed.

(* ---------------- writing ---------------- *)

Definition wr (base : list Z) (s : Z) (b : list Z) : list Z := match b with [] => base | _ => write_at base s b end.
Lemma byte_write base s b i : 0 <= s -> 0 <= i < Z.max (zlen base) (s + zlen b) ->
  byte_at (write_at base s b) i = if (s <=? i) && (i <? s + zlen b) then byte_at b (i - s) else if i <? zlen base then byte_at base i else 0.
Proof.
  intros S I. unfold write_at, byte_at, zrepeat, zlen in *.
  assert (LF : length (firstn (Z.to_nat s) (base ++ repeat 0 (Z.to_nat (s - Z.of_nat (length base))))) = Z.to_nat s).
  { rewrite firstn_length, app_length, repeat_length. lia. }
  destruct (s <=? i) eqn:E1.
  - rewrite app_nth2 by (rewrite LF; lia). rewrite LF. destruct (i <? s + Z.of_nat (length b)) eqn:E2; cbn [andb].
    + rewrite app_nth1 by lia. f_equal. lia.
    + rewrite app_nth2 by lia. replace (i <? Z.of_nat (length base)) with true by lia.
      rewrite <- (firstn_skipn (Z.to_nat (s + Z.of_nat (length b))) base) at 2. rewrite app_nth2 by (rewrite firstn_length; lia).
      rewrite firstn_length. f_equal. lia.
  - cbn [andb]. rewrite app_nth1 by (rewrite LF; lia).
    assert (N : forall l : list Z, nth (Z.to_nat i) (firstn (Z.to_nat s) l) 0 = nth (Z.to_nat i) l 0).
    { intros l. destruct (Nat.lt_ge_cases (Z.to_nat i) (length l)) as [H|H].
      - rewrite <- (firstn_skipn (Z.to_nat s) l) at 2. rewrite app_nth1; [reflexivity|]. rewrite firstn_length. lia.
      - rewrite !nth_overflow; [reflexivity|lia|rewrite firstn_length; lia]. }
    rewrite N. destruct (i <? Z.of_nat (length base)) eqn:E3; [rewrite app_nth1 by lia; reflexivity|]. rewrite app_nth2 by lia. apply nth_repeat.
Qed.
Lemma zlen_write base s b : 0 <= s -> zlen (write_at base s b) = Z.max (zlen base) (s + zlen b).
Proof.
  intros S. unfold write_at, zrepeat, zlen. rewrite !app_length, firstn_length, skipn_length, app_length, repeat_length. lia.
Qed.
Lemma wr_put base s b : 0 <= s -> put base s b (wr base s b).
Proof.
  intros S. split; [now intros ->|]. intros N. unfold wr. destruct b as [|z b]; [congruence|]. rewrite zlen_write by exact S. split; [reflexivity|].
  intros i I. now apply byte_write.
Qed.
Lemma wr_app base s b c : 0 <= s -> wr (wr base s b) (s + zlen b) c = wr base s (b ++ c).
Proof.
  intros S. destruct c as [|z c]; [now rewrite app_nil_r|]. destruct b as [|y b]; [cbn [wr app]; f_equal; unfold zlen; cbn [length]; lia|].
  change (write_at (write_at base s (y :: b)) (s + zlen (y :: b)) (z :: c) = write_at base s ((y :: b) ++ z :: c)).
  generalize (y :: b) (z :: c). clear y b z c. intros B C. pose proof (zlen_nonneg B). pose proof (zlen_nonneg C).
  assert (L1 := zlen_write base s (B ++ C) S). assert (L2 := zlen_write (write_at base s B) (s + zlen B) C ltac:(lia)). assert (L3 := zlen_write base s B S). rewrite zlen_app in L1.
  apply (nth_ext _ _ 0 0).
  - unfold zlen in *. lia.
  - intros n H1. assert (L : 0 <= Z.of_nat n < Z.max (zlen base) (s + zlen (B ++ C))) by (rewrite zlen_app; unfold zlen in *; lia).
    assert (F : forall l, nth n l 0 = byte_at l (Z.of_nat n)) by (intros l; unfold byte_at; now rewrite Nat2Z.id). rewrite !F.
    rewrite (byte_write (write_at base s B) (s + zlen B) C), (byte_write base s (B ++ C)) by (rewrite ?zlen_write by lia; rewrite ?zlen_app in *; lia).
    rewrite zlen_write by lia. rewrite zlen_app in *.
    set (i := Z.of_nat n) in *.
    destruct ((s + zlen B <=? i) && (i <? s + zlen B + zlen C)) eqn:E1.
    + replace ((s <=? i) && (i <? s + (zlen B + zlen C))) with true by lia. unfold byte_at. rewrite app_nth2 by (unfold zlen in *; lia). f_equal. unfold zlen in *. lia.
    + destruct ((s <=? i) && (i <? s + zlen B)) eqn:E2.
      * replace (i <? Z.max (zlen base) (s + zlen B)) with true by lia. rewrite byte_write, E2 by lia. replace ((s <=? i) && (i <? s + (zlen B + zlen C))) with true by lia.
        unfold byte_at. rewrite app_nth1 by (unfold zlen in *; lia). reflexivity.
      * replace ((s <=? i) && (i <? s + (zlen B + zlen C))) with false by lia.
        destruct (i <? Z.max (zlen base) (s + zlen B)) eqn:E3; [|replace (i <? zlen base) with false by lia; reflexivity]. rewrite byte_write, E2 by lia. reflexivity.
Qed.

Lemma wr_nil b : wr [] 0 b = b.
Proof. unfold wr, write_at. destruct b as [|z b]; [reflexivity|]. rewrite skipn_nil. cbn. now rewrite app_nil_r. Qed.

(* two files, to which the same bytes were written from here on *)
Definition wrote (base base' : list Z) (s s' : Z) (w w' : world) : Prop :=
  exists b, w_file w = mk_file (wr base s b) (s + zlen b) /\ w_file w' = mk_file (wr base' s' b) (s' + zlen b) /\ w_log w = w_log w'.
Section Stage.
Variables (base base' : list Z) (s s' : Z).
Hypothesis S0 : 0 <= s.
Hypothesis S0' : 0 <= s'.
Definition same {A} (m m' : wio A) : Prop := forall w w', wrote base base' s s' w w' -> fst (m w) = fst (m' w') /\ wrote base base' s s' (snd (m w)) (snd (m' w')).
Lemma same_bind {A B} (m m' : wio A) (k k' : A -> wio B) : same m m' -> (forall a, same (k a) (k' a)) -> same (wbind m k) (wbind m' k').
Proof.
  intros M K w w' T. unfold wbind. destruct (M w w' T) as (E & T'). destruct (m w) as [[a|y] v], (m' w') as [[a'|y'] v']; cbn [fst snd] in *; try discriminate.
  - injection E as <-. now apply K.
  - injection E as <-. auto.
Qed.
Lemma same_ret {A} (a : A) : same (wret a) (wret a).
Proof. intros w w' T. auto. Qed.
Lemma same_lift {A} (r : res A) : same (on_file (lift r)) (on_file (lift r)).
Proof. intros [f l] [f' l'] T. split; [reflexivity|exact T]. Qed.
Lemma same_report n m : same (report n m) (report n m).
Proof.
  intros w w' (b & E & E' & L). unfold report. destruct (m =? 0); [split; [reflexivity|]; exists b; auto|]. split; [reflexivity|]. exists b. cbn. now rewrite L.
Qed.
Lemma same_write c : same (on_file (write c)) (on_file (write c)).
Proof.
  intros [f l] [f' l'] (b & E & E' & L). cbn [w_file w_log] in *. subst f f' l'. split; [destruct c; reflexivity|].
  exists (b ++ c). rewrite <- !wr_app by assumption. rewrite zlen_app. unfold on_file, write. destruct c as [|z c].
  - cbn [w_file w_log snd wr]. rewrite zlen_nil, Z.add_0_r. auto.
  - cbn [w_file w_log snd f_data f_pos fst]. rewrite !Z.add_assoc. auto.
Qed.
Lemma same_io {A B} (m : io A) (k k' : A -> io B) : same (on_file m) (on_file m) -> (forall a, same (on_file (k a)) (on_file (k' a))) ->
  same (on_file (ibind m k)) (on_file (ibind m k')).
Proof. intros M K w w' T. rewrite !on_file_bind. revert w w' T. exact (same_bind _ _ _ _ M K). Qed.
Lemma same_text lines e : same (on_file (write_textual_reel_header lines e)) (on_file (write_textual_reel_header lines e)).
Proof.
  unfold write_textual_reel_header. destruct (negb (is_supported_encoding e)); [exact (same_lift (Err _))|]. apply same_io; [apply same_lift|].
  intros padded. cbv zeta. destruct (negb _); [exact (same_lift (Err _))|apply same_write].
Qed.
Lemma same_binary h e : same (on_file (write_binary_reel_header h e)) (on_file (write_binary_reel_header h e)).
Proof. unfold write_binary_reel_header. apply same_io; [apply same_lift|]. intros p. apply same_io; [apply same_lift|]. intros b. apply same_write. Qed.
Lemma same_pages pages : same (on_file (write_pages pages)) (on_file (write_pages pages)).
Proof.
  induction pages as [|p pages IH]; cbn [write_pages]; [exact (same_lift (Ok tt))|]. destruct (negb _); [exact (same_lift (Err _))|]. apply same_io; [apply same_write|]. intros _. exact IH.
Qed.
Lemma same_traces ds p e n ks : same (write_traces ds p e n ks) (write_traces ds p e n ks).
Proof.
  induction ks as [|k ks IH]; cbn [write_traces]; [apply same_ret|]. apply same_bind; [apply same_lift|]. intros h.
  apply same_bind; [unfold write_trace_header; apply same_io; [apply same_lift|]; intros b; apply same_write|]. intros _.
  apply same_bind; [apply same_lift|]. intros samples. apply same_bind; [apply same_lift|]. intros t.
  apply same_bind; [unfold write_binary_values; apply same_io; [apply same_lift|]; intros b; apply same_write|]. intros _.
  apply same_bind; [apply same_report|]. intros _. exact IH.
Qed.
Lemma same_rest ds pages e enc tc : 
  let m := go _ <- on_file (run encoded <- lift (map_res (encode_page enc) pages) ;; write_pages encoded) ;;
    go p <- on_file (lift (make_header_packer tc e)) ;; go _ <- write_traces ds p e (ds_num_traces ds) (ds_trace_indexes ds) ;; report 1 1 in same m m.
Proof.
  cbv zeta. apply same_bind; [apply same_io; [apply same_lift|]; intros; apply same_pages|]. intros _. apply same_bind; [apply same_lift|]. intros p.
  apply same_bind; [apply same_traces|]. intros _. apply same_report.
Qed.
End Stage.

(* what is written before the extended headers has 3600 bytes *)
Lemma written_text lines x d q log w : 0 <= q -> on_file (write_textual_reel_header lines x) (mk_world (mk_file d q) log) = (Ok tt, w) -> f_pos (w_file w) = q + 3200 /\ f_data (w_file w) <> [].
Proof.
  intros Q. unfold on_file, write_textual_reel_header. destruct (negb (is_supported_encoding x)); [discriminate|]. unfold ibind, lift. cbn [w_file w_log].
  destruct (map_res _ _) as [padded|]; [|discriminate]. cbv zeta. destruct (negb (zlen (concat padded) =? TEXTUAL_HEADER_NUM_BYTES)) eqn:E; [discriminate|].
  change TEXTUAL_HEADER_NUM_BYTES with 3200 in E. unfold write. destruct (concat padded) as [|z b] eqn:EC; [discriminate|]. intros [= <-]. cbn [w_file f_pos f_data]. split; [lia|].
  intros H. apply (f_equal zlen) in H. rewrite zlen_write in H by exact Q. change (zlen (@nil Z)) with 0 in H. pose proof (zlen_nonneg d). lia.
Qed.
Lemma written_binary bc h e d q log w : format_ok bc 400 -> h_cls h = bc -> 0 <= q -> on_file (write_binary_reel_header h e) (mk_world (mk_file d q) log) = (Ok tt, w) -> f_pos (w_file w) = q + 400.
Proof.
  intros (K & _ & S & _ & FL & _) H Q. unfold on_file, write_binary_reel_header, ibind, lift. cbn [w_file w_log]. rewrite H.
  destruct (make_header_packer bc e) as [p|] eqn:P; [|discriminate]. destruct (pk_pack p h) as [b|] eqn:PK; [|discriminate].
  destruct (pack_layout bc e p h b K S P H PK) as (HL & _). unfold header_length in HL. rewrite FL in HL. unfold write.
  destruct b as [|z b]; [discriminate|]. intros [= <-]. cbn [w_file f_pos]. lia.
Qed.

Lemma ext_seek {A} pages x (k : Datatypes.unit -> wio A) d p l : negb (is_supported_encoding x) = false ->
  wbind (on_file (write_extended_textual_headers pages x)) k (mk_world (mk_file d p) l) =
  wbind (on_file (run encoded <- lift (map_res (encode_page x) pages) ;; write_pages encoded)) k (mk_world (mk_file d 3600) l).
Proof. intros SE. unfold wbind, on_file, write_extended_textual_headers. rewrite SE. reflexivity. Qed.

Lemma write_at_position ds enc tc e pr old q log bc : 0 <= q -> format_ok bc 400 -> h_cls (ds_binary ds) = bc ->
  let out := write_segy ds enc tc e pr (mk_world (mk_file [] 0) log) in
  let out' := write_segy ds enc tc e pr (mk_world (mk_file old q) log) in
  fst out' = fst out /\ w_log (snd out') = w_log (snd out) /\
  (fst out = Ok tt -> exists mid, put old q (firstn (Z.to_nat 3600) (f_data (w_file (snd out)))) mid /\
     put mid 3600 (skipn (Z.to_nat 3600) (f_data (w_file (snd out)))) (f_data (w_file (snd out')))).
Proof.
  intros Q FB HC. cbv zeta. unfold write_segy.
  destruct pr; [| |cbn; split; [reflexivity|split; [reflexivity|discriminate]]].
  all: destruct (negb (is_supported_encoding _)) eqn:SE; [cbn; split; [reflexivity|split; [reflexivity|discriminate]]|].
  all: set (x := match enc with Some _ => _ | None => _ end) in *.
  all: assert (W0 : wrote [] old 0 q (mk_world (mk_file [] 0) log) (mk_world (mk_file old q) log)) by (exists []; cbn [w_file w_log wr]; split; [reflexivity|split; [f_equal; unfold zlen; cbn [length]; lia|reflexivity]]).
  all: destruct (same_text [] old 0 q ltac:(lia) Q (ds_text ds) x _ _ W0) as (E1 & W1).
  all: destruct (on_file (write_textual_reel_header (ds_text ds) x) (mk_world (mk_file [] 0) log)) as [[[]|y] w1] eqn:X1,
     (on_file (write_textual_reel_header (ds_text ds) x) (mk_world (mk_file old q) log)) as [[[]|y'] w1'] eqn:X1'; cbn [fst snd] in E1, W1; try discriminate.
  all: try (injection E1 as <-; unfold wbind; rewrite X1, X1'; destruct W1 as (b & _ & _ & L); cbn [fst snd]; split; [reflexivity|split; [now symmetry|discriminate]]).
  all: rewrite (wbind_ok _ _ _ _ _ X1), (wbind_ok _ _ _ _ _ X1').
  all: destruct (same_binary [] old 0 q ltac:(lia) Q (ds_binary ds) e _ _ W1) as (E2 & W2).
  all: destruct (on_file (write_binary_reel_header (ds_binary ds) e) w1) as [[[]|y] w2] eqn:X2,
     (on_file (write_binary_reel_header (ds_binary ds) e) w1') as [[[]|y'] w2'] eqn:X2'; cbn [fst snd] in E2, W2; try discriminate.
  all: try (injection E2 as <-; unfold wbind; rewrite X2, X2'; destruct W2 as (b & _ & _ & L); cbn [fst snd]; split; [reflexivity|split; [now symmetry|discriminate]]).
  all: rewrite (wbind_ok _ _ _ _ _ X2), (wbind_ok _ _ _ _ _ X2').
  all: destruct (written_text _ _ _ _ _ _ (Z.le_refl 0) X1) as (P1 & _).
  all: destruct w1 as [[d1 p1] l1]; cbn [w_file f_pos] in P1; subst p1.
  all: assert (P2 := written_binary bc (ds_binary ds) e d1 (0 + 3200) l1 w2 FB HC ltac:(lia) X2).
  all: destruct w2 as [[d2 p2] l2], w2' as [[d2' p2'] l2']; destruct W2 as (b & B2 & B2' & L2); cbn [w_file w_log f_pos] in *; subst l2' p2; injection B2 as D2 PB; injection B2' as D2' PB'.
  all: assert (LB : zlen b = 3600) by lia.
  all: assert (D2b : d2 = b) by (rewrite D2; apply wr_nil).
  all: rewrite !(ext_seek _ _ _ _ _ _ SE).
  all: assert (W3 : wrote d2 d2' 3600 3600 (mk_world (mk_file d2 3600) l2) (mk_world (mk_file d2' 3600) l2)) by (exists []; cbn [w_file w_log wr]; rewrite zlen_nil; auto).
  all: destruct (same_rest d2 d2' 3600 3600 ltac:(lia) ltac:(lia) ds (ds_ext ds) e x tc _ _ W3) as (E3 & (c & B3 & B3' & L3)).
  all: split; [symmetry; exact E3|]; split; [symmetry; exact L3|]; intros OK; cbv zeta in B3, B3'; rewrite B3, B3'; cbn [f_data].
  all: assert (HR : wr d2 3600 c = b ++ c) by (rewrite D2b, <- (wr_nil b), <- (wr_nil (wr [] 0 b ++ c)), (wr_nil b); replace 3600 with (0 + zlen b) by lia; rewrite <- (wr_nil b) at 1; apply wr_app; lia).
  all: rewrite HR; exists d2'; rewrite firstn_app, skipn_app; unfold zlen in LB; rewrite firstn_all2, skipn_all2 by lia; replace (Z.to_nat 3600 - length b)%nat with 0%nat by lia; cbn [firstn skipn app]; rewrite app_nil_r.
  all: split; [rewrite D2'; now apply wr_put|apply wr_put; lia].
Qed.
