(* Proofs for C142: file objects that give fewer bytes than they are asked for. *)
From Coq Require Import String ZArith List Bool Lia ZifyBool ZifyNat.
From Verif Require Import Py PyFacts PyFloat IbmFloat Spec_Ibm Util Catalog Spec_Catalog Packing Spec_Packing PackFacts CompileFacts HeaderFacts Formats FileIO Text Spec_Text
  TextIO TextIOFacts Float32 Toolkit Spec_Segy ToolkitFacts Reader Spec_Reader ReaderFacts OpenFacts PackingFacts FormatFacts CutFacts Growing Spec_Growing GrowingFacts
  Pieces Spec_Pieces.
Import ListNotations.
Local Open Scope string_scope.
Open Scope list_scope.
Open Scope Z_scope.

(* --- the steps of the reader are those of Reader.v --- *)
Lemma is_values native pos t n e : 0 <= n -> is (values_steps native pos t n e) (on_file (read_binary_values native (Some pos) t n e)).
Proof.
  intros N. unfold values_steps, read_binary_values. cbv zeta.
  assert (B : (size_in_bytes (ctype_of t) * n <? 0) = false). { rewrite ctype_of_size. pose proof (sample_size_pos t). nia. }
  assert (E : forall w, on_file (run pos0 <- ret pos ;; run _ <- seek pos0 ;; run buf <- read_opt (Some (size_in_bytes (ctype_of t) * n)) ;;
      if zlen buf <? size_in_bytes (ctype_of t) * n then raise EOFError
      else run values <- lift (unpack_samples native e (ctype_of t) buf n) ;; if zlen values =? n then ret values else raise AssertionError) w =
    on_file (run _ <- seek pos ;; run buf <- read (size_in_bytes (ctype_of t) * n) ;;
      if zlen buf <? size_in_bytes (ctype_of t) * n then raise EOFError
      else run values <- lift (unpack_samples native e (ctype_of t) buf n) ;; if zlen values =? n then ret values else raise AssertionError) w).
  { intros w. unfold ibind at 1, ret at 1. unfold read_opt. rewrite B. reflexivity. }
  intros w W. rewrite E. revert w W.
  apply is_on; [apply is_seek|]. intros _. apply is_on; [apply is_read|]. intros buf. apply is_on_if; [apply is_raise'|].
  apply is_on; [apply is_fin|]. intros v. apply is_on_if; [apply is_ret'|apply is_raise'].
Qed.
Lemma is_trace_samples native r k a b : is (trace_samples_steps native r k a b) (on_file (rd_trace_samples native r k a b)).
Proof.
  unfold trace_samples_steps, rd_trace_samples. apply is_on_if; [apply is_raise'|]. apply is_on; [apply is_fin|]. intros n. cbv zeta.
  apply is_on_if; [apply is_raise'|]. destruct (negb ((0 <=? match a with Some s => s | None => 0 end) && _)) eqn:E; [apply is_raise'|].
  apply is_on; [apply is_fin|]. intros t. apply is_on; [apply is_fin|]. intros o. apply is_values. lia.
Qed.
Lemma is_trace_header r k o : is (trace_header_steps r k o) (on_file (rd_trace_header r k o)).
Proof.
  unfold trace_header_steps, rd_trace_header. apply is_on_if; [apply is_raise'|]. cbv zeta. apply is_on; [apply is_fin|]. intros pos.
  unfold header_steps, read_trace_header.
  assert (E : forall w, on_file (run pos0 <- ret pos ;; run _ <- seek pos0 ;; run data <- read TRACE_HEADER_NUM_BYTES ;;
      lift (match pk_unpack (match o with Some p => p | None => rd_packer r end) data with Err ValueError => Err EOFError | r => r end)) w =
    on_file (run _ <- seek pos ;; run data <- read TRACE_HEADER_NUM_BYTES ;;
      lift (match pk_unpack (match o with Some p => p | None => rd_packer r end) data with Err ValueError => Err EOFError | r => r end)) w).
  { intros w. reflexivity. }
  intros w W. rewrite E. revert w W. apply is_on; [apply is_seek|]. intros _. apply is_on; [apply is_read|]. intros b. apply is_fin.
Qed.
Lemma reader_alone native r k a b o d q log : 0 <= q ->
  alone (trace_header_steps r k o) (mk_world (mk_file d q) log) = on_file (rd_trace_header r k o) (mk_world (mk_file d q) log) /\
  alone (trace_samples_steps native r k a b) (mk_world (mk_file d q) log) = on_file (rd_trace_samples native r k a b) (mk_world (mk_file d q) log).
Proof. intros Q. split; [apply is_trace_header|apply is_trace_samples]; exact Q. Qed.

(* --- when each read gives all there is --- *)
Lemma firstn_whole {A} (l : list A) n : zlen l <= n -> firstn (Z.to_nat n) l = l.
Proof. intros H. apply firstn_all2. unfold zlen in H. lia. Qed.
Lemma slice_short {A} (l : list A) q n : zlen (py_slice l q n) <= zlen l.
Proof. unfold py_slice, zlen. rewrite firstn_length, skipn_length. lia. Qed.
Lemma whole_alone {A} d s (p : steps A) : (forall i, zlen d <= s i) -> forall i q log, piecemeal d s p i q = fst (alone p (mk_world (mk_file d q) log)).
Proof.
  intros S. induction p as [r|k IH|k IH|p k IH|n k IH|a b k IH]; intros i q log; cbn [piecemeal alone fst w_file w_log f_data f_pos]; auto.
  cbv zeta. unfold read. cbn [f_data f_pos]. cbv beta iota zeta. rewrite firstn_whole; [apply IH|]. pose proof (slice_short d q (q + n)). specialize (S i). lia.
Qed.

(* --- one read --- *)
Lemma piece_cases (s : nat -> Z) (i : nat) (d : list Z) q n : let b := py_slice d q (q + n) in let b' := firstn (Z.to_nat (s i)) b in b' = b \/ zlen b' < zlen b.
Proof.
  intros b b'. destruct (Z_lt_dec (zlen b') (zlen b)) as [L|L]; [now right|left]. subst b'. unfold zlen in L. rewrite firstn_length in L. apply firstn_all2. lia.
Qed.
Lemma slice_le {A} (l : list A) q n : 0 <= n -> zlen (py_slice l q (q + n)) <= n.
Proof. intros N. unfold py_slice, zlen. rewrite firstn_length. lia. Qed.

Lemma samples_pieces native r k a b d s i q :
  piecemeal d s (trace_samples_steps native r k a b) i q = fst (rd_trace_samples native r k a b (mk_file d q)) \/
  piecemeal d s (trace_samples_steps native r k a b) i q = Err EOFError.
Proof.
  unfold trace_samples_steps, rd_trace_samples. destruct (negb ((0 <=? k) && _)); [now left|]. cbn [sbind].
  destruct (rd_num_trace_samples r k) as [n|y]; [|now left]. cbv zeta. unfold ibind at 1, lift at 1.
  destruct (negb ((0 <=? match b with Some s0 => s0 | None => n end) && _)); [now left|].
  destruct (negb ((0 <=? match a with Some s0 => s0 | None => 0 end) && _)) eqn:E; [now left|]. cbn [sbind].
  destruct (sample_format (rd_binary r)) as [t|y]; [|now left]. unfold ibind at 1, lift at 1.
  destruct (cat1_get (rd_offsets r) k) as [o|y]; [|now left]. unfold ibind at 1, lift at 1. unfold values_steps, read_binary_values. cbv zeta.
  set (m := match b with Some s0 => s0 | None => n end - match a with Some s0 => s0 | None => 0 end).
  set (pos := o + _ + _). unfold ibind at 1, ret at 1. unfold s_seek, ibind at 1, seek. destruct (pos <? 0) eqn:P; [now left|]. cbn [sbind piecemeal].
  assert (B : 0 <= size_in_bytes (ctype_of t) * m). { rewrite ctype_of_size. pose proof (sample_size_pos t). subst m. nia. }
  set (bs := size_in_bytes (ctype_of t) * m) in *. unfold s_read. cbn [sbind piecemeal]. cbv zeta. unfold ibind at 1, read_opt, read. replace (bs <? 0) with false by lia.
  cbn [f_data f_pos]. cbv beta iota zeta. pose proof (slice_le d pos bs B) as SL. destruct (piece_cases s i d pos bs) as [->|L].
  - destruct (zlen (py_slice d pos (pos + bs)) <? bs); [now left|]. cbn [sbind]. unfold ibind at 1, lift. destruct (unpack_samples native (rd_endian r) (ctype_of t) _ m) as [v|y]; [|now left].
    destruct (zlen v =? m); now left.
  - right. cbv zeta in L. replace (zlen (firstn (Z.to_nat (s i)) (py_slice d pos (pos + bs))) <? bs) with true by lia. reflexivity.
Qed.
Lemma header_pieces r k o c e d s i q : all_bytes d -> format_ok c 240 -> make_header_packer c e = Ok (match o with Some p => p | None => rd_packer r end) ->
  piecemeal d s (trace_header_steps r k o) i q = fst (rd_trace_header r k o (mk_file d q)) \/
  piecemeal d s (trace_header_steps r k o) i q = Err EOFError.
Proof.
  intros BY (K & _ & S & O & F & _) M. unfold trace_header_steps, rd_trace_header. destruct (negb _); [now left|]. cbn [sbind]. cbv zeta.
  destruct (cat1_get (rd_offsets r) k) as [pos|y]; [|now left]. unfold ibind at 1, lift at 1. unfold header_steps, read_trace_header, ibind at 1, ret at 1.
  unfold s_seek, ibind at 1, seek. destruct (pos <? 0) eqn:P; [now left|]. cbn [sbind piecemeal]. unfold s_read. cbn [sbind piecemeal]. cbv zeta.
  unfold ibind, read, lift. cbn [f_data f_pos fst]. cbv beta iota zeta. unfold TRACE_HEADER_NUM_BYTES. pose proof (slice_le d pos 240 ltac:(lia)) as SL.
  destruct (piece_cases s i d pos 240) as [->|L]; [now left|right]. cbv zeta in L.
  set (b := firstn (Z.to_nat (s i)) (py_slice d pos (pos + 240))) in *.
  assert (BB : all_bytes b).
  { apply Forall_forall. intros v V. assert (B1 : all_bytes (py_slice d pos (pos + 240))) by now apply all_bytes_slice. unfold all_bytes in B1. rewrite Forall_forall in B1. apply B1.
    rewrite <- (firstn_skipn (Z.to_nat (s i))). apply in_or_app. now left. }
  destruct (unpack_iff c e _ b K S O M BB) as [(h & _ & H & _)|(-> & _)]; [|reflexivity]. exfalso. unfold header_length in H. rewrite F in H. lia.
Qed.

(* --- steps whose reads go onward through the file --- *)
(* the position is q, and what has been read lies before top *)
Inductive onward {A} : Z -> Z -> steps A -> Prop :=
| onward_fin q top r : onward q top (Fin r)
| onward_length q top k : 0 < top -> (forall n, 0 < n -> onward q top (k n)) -> (forall n n', 0 < n -> 0 < n' -> below (k n) (k n')) -> onward q top (AskLength k)
| onward_pos q top k : onward q top (k q) -> onward q top (AskPos k)
| onward_move q top p k : 0 <= p -> onward p top k -> onward q top (MoveTo p k)
| onward_read q top n k : top <= q -> 0 < n -> (forall b, all_bytes b -> zlen b = n -> onward (q + n) (q + n) (k b)) ->
    (forall b, all_bytes b -> zlen b < n -> closing (k b)) -> onward q top (GetBytes n k)
| onward_show q top a b k : onward q top k -> onward q top (Show a b k).
(* the same, where a short read raises; P holds at the end *)
Inductive headed {A} (P : Z -> Z -> Prop) : Z -> Z -> steps A -> Prop :=
| headed_ok q top a : P q top -> headed P q top (Fin (Ok a))
| headed_err q top y : headed P q top (Fin (Err y))
| headed_move q top p k : 0 <= p -> headed P p top k -> headed P q top (MoveTo p k)
| headed_read q top n k : top <= q -> 0 < n -> (forall b, all_bytes b -> zlen b = n -> headed P (q + n) (q + n) (k b)) ->
    (forall b, all_bytes b -> zlen b < n -> exists y, k b = Fin (Err y)) -> headed P q top (GetBytes n k).

Lemma headed_bind {A B} P Q q top (m : steps A) (k : A -> steps B) : headed P q top m -> (forall q' top' a, P q' top' -> headed Q q' top' (k a)) -> headed Q q top (sbind m k).
Proof.
  intros M K. induction M as [q top a H|q top y|q top p f X M IH|q top n f T N M IH S]; cbn [sbind]; [now apply K|constructor|constructor; auto|].
  constructor; auto. intros b B1 L. destruct (S b B1 L) as (y & ->). exists y. reflexivity.
Qed.
Lemma onward_headed {A B} P q top (m : steps A) (k : A -> steps B) : headed P q top m -> (forall q' top' a, P q' top' -> onward q' top' (k a)) -> onward q top (sbind m k).
Proof.
  intros M K. induction M as [q top a H|q top y|q top p f X M IH|q top n f T N M IH S]; cbn [sbind]; [now apply K|constructor|constructor; auto|].
  constructor; auto. intros b B1 L. destruct (S b B1 L) as (y & ->). constructor.
Qed.
Lemma onward_closing {A} (p : steps A) : closing p -> forall q top, onward q top p.
Proof. induction 1; intros; constructor; auto. Qed.
Lemma onward_then {A B} q top (m : steps A) (k : A -> steps B) : onward q top m -> (forall a, closing (k a)) -> onward q top (sbind m k).
Proof.
  intros M K. induction M as [q top [a|y]|q top f T M IH S|q top f M IH|q top p f P M IH|q top n f T N M IH S|q top x y f M IH]; cbn [sbind]; try (constructor; auto; fail).
  - apply onward_closing, K.
  - constructor; auto. intros n n' P P'. apply below_bind; auto. intros a. apply below_refl.
  - constructor; auto. intros b B1 L. apply closing_bind; auto.
Qed.

Lemma closing_pieces {A} (p : steps A) : closing p -> forall d s i q w, piecemeal d s p i q = fst (alone p w).
Proof. induction 1 as [r|a b k C IH]; intros; cbn [piecemeal alone]; [reflexivity|apply IH]. Qed.

Lemma cut_slice (d : list Z) m q n : 0 <= q -> 0 <= n -> q + n <= m -> py_slice (firstn (Z.to_nat m) d) q (q + n) = py_slice d q (q + n).
Proof.
  intros Q N L. unfold py_slice. rewrite skipn_firstn_comm, firstn_firstn. f_equal. lia.
Qed.
Lemma zlen_firstn' (d : list Z) m : 0 <= m -> zlen (firstn (Z.to_nat m) d) = Z.min m (zlen d).
Proof. intros M. unfold zlen. rewrite firstn_length. lia. Qed.

Lemma cut_read (d : list Z) q n k : 0 <= q -> 0 <= n -> let b := firstn k (py_slice d q (q + n)) in py_slice (firstn (Z.to_nat (q + zlen b)) d) q (q + n) = b.
Proof.
  intros Q N b. unfold py_slice at 1. rewrite skipn_firstn_comm, firstn_firstn. pose proof (zlen_nonneg b) as ZB.
  replace (Z.to_nat (q + zlen b) - Z.to_nat q)%nat with (length b) by (unfold zlen; lia).
  unfold b at 2, py_slice. rewrite firstn_firstn. set (l := skipn (Z.to_nat q) d).
  assert (LB : length b = Nat.min (Nat.min k (Z.to_nat (q + n - q))) (length l)) by (unfold b, py_slice; rewrite firstn_firstn; apply firstn_length).
  destruct (Nat.le_gt_cases (length l) (Nat.min k (Z.to_nat (q + n - q)))) as [W|W]; [rewrite !firstn_all2 by lia; reflexivity|f_equal; lia].
Qed.

(* the file seems to end where a read was short *)
Lemma seems_cut {A} d s (p : steps A) : all_bytes d -> forall q top, onward q top p -> forall i log, 0 <= q -> 0 <= top <= zlen d ->
  exists m, top <= m <= zlen d /\ piecemeal d s p i q = fst (alone p (mk_world (mk_file (firstn (Z.to_nat m) d) q) log)).
Proof.
  intros BY q top ON. induction ON as [q top r|q top k TP C IH BL|q top k C IH|q top x k X C IH|q top n k TQ N C IH CL|q top a b k C IH]; intros i log Q T;
    cbn [piecemeal alone fst w_file w_log f_data f_pos] in *.
  - exists top. split; [lia|reflexivity].
  - destruct (IH (zlen d) ltac:(lia) i log Q T) as (m & M & E). exists m. split; [exact M|]. rewrite E. rewrite zlen_firstn' by lia. apply below_both; apply BL; lia.
  - exact (IH i log Q T).
  - exact (IH i log X T).
  - cbv zeta. set (b := py_slice d q (q + n)). set (b' := firstn (Z.to_nat (s i)) b). unfold read. cbn [f_data f_pos]. cbv beta iota zeta.
    assert (BB : all_bytes b) by now apply all_bytes_slice.
    assert (BB' : all_bytes b'). { apply Forall_forall. intros v V. unfold all_bytes in BB. rewrite Forall_forall in BB. apply BB. rewrite <- (firstn_skipn (Z.to_nat (s i)) b). apply in_or_app. now left. }
    assert (LB : zlen b <= n) by (apply slice_le; lia). assert (LB' : zlen b' <= zlen b) by (unfold b', zlen; rewrite firstn_length; lia).
    assert (ZB : zlen b = Z.max 0 (Z.min (q + n) (zlen d) - q)) by (unfold b; now rewrite zlen_py_slice by lia).
    destruct (Z.eq_dec (zlen b') n) as [EB|NB].
    + assert (E' : b' = b). { destruct (piece_cases s i d q n) as [E'|L]; [exact E'|]. cbv zeta in L. fold b b' in L. lia. }
      destruct (IH b' BB' EB (Datatypes.S i) log ltac:(lia) ltac:(lia)) as (m & M & E). exists m. split; [lia|]. rewrite cut_slice by lia. fold b. rewrite <- E'. rewrite EB. exact E.
    + assert (CUT : exists m, top <= m <= zlen d /\ py_slice (firstn (Z.to_nat m) d) q (q + n) = b').
      { destruct (Z_lt_dec (zlen d) q) as [LQ|LQ].
        - exists (zlen d). split; [lia|]. rewrite firstn_whole by lia. fold b. assert (B0 : b = []) by (apply length_zero_iff_nil; unfold zlen in ZB, LQ; lia).
          unfold b'. rewrite B0. now rewrite firstn_nil.
        - exists (q + zlen b'). pose proof (zlen_nonneg b'). split; [lia|]. unfold b', b. apply cut_read; lia. }
      destruct CUT as (m & M & E). exists m. split; [exact M|]. rewrite E. apply closing_pieces. apply CL; [exact BB'|lia].
  - exact (IH i (log ++ [(a, b)]) Q T).
Qed.

(* --- the steps of create_reader --- *)
Lemma headed_seek (P : Z -> Z -> Prop) q top p : P p top -> headed P q top (s_seek p).
Proof. intros H. unfold s_seek. destruct (p <? 0) eqn:E; [constructor|]. constructor; [lia|now constructor]. Qed.
Lemma headed_fin {A} (P : Z -> Z -> Prop) q top (r : res A) : P q top -> headed P q top (Fin r).
Proof. intros H. destruct r; now constructor. Qed.
Lemma headed_text e q top : top <= q -> headed (fun q' top' => q' = q + 3200 /\ top' = q + 3200) q top (text_steps e).
Proof.
  intros T. unfold text_steps, s_read. cbn [sbind]. change TEXTUAL_HEADER_NUM_BYTES with 3200. apply headed_read; [lia|lia| |]; intros b _ L.
  - replace (zlen b <? 3200) with false by lia. now apply headed_fin.
  - replace (zlen b <? 3200) with true by lia. eauto.
Qed.
Lemma headed_binary c e q top : format_ok c 400 -> top <= q -> headed (fun q' top' => q' = q + 400 /\ top' = q + 400) q top (binary_steps c e).
Proof.
  intros (K & _ & S & O & F & P) T. destruct (P e) as (p & M). unfold binary_steps. rewrite F, M. unfold s_read. cbn [sbind].
  apply headed_read; [lia|lia| |]; intros b B L; [now apply headed_fin|].
  destruct (unpack_iff c e p b K S O M B) as [(h & _ & H & _)|(-> & _)]; [|eauto]. exfalso. unfold header_length in H. rewrite F in H. lia.
Qed.
Lemma headed_weak {A} (P Q : Z -> Z -> Prop) q top (m : steps A) : headed P q top m -> (forall q' top', P q' top' -> Q q' top') -> headed Q q top m.
Proof. intros H W. induction H; constructor; auto. Qed.
Lemma headed_until fuel e : forall acc q, headed (fun q' top' => q' = top' /\ q <= q') q q (until_end_steps fuel e acc).
Proof.
  induction fuel as [|fuel IH]; intros acc q; [constructor|]. cbn [until_end_steps]. apply (headed_bind _ _ _ _ _ _ (headed_text e q q ltac:(lia))). intros q' top' x (-> & ->).
  eapply (headed_bind (fun q' top' => q' = q + 3200 /\ top' = q + 3200)); [now apply headed_fin|]. intros q' top' l (-> & ->). destruct l; [constructor; lia|].
  apply (headed_weak _ _ _ _ _ (IH _ (q + 3200))). intros; lia.
Qed.
Lemma headed_counted e n : forall todo acc q, headed (fun q' top' => q' = top' /\ q <= q') q q (counted_steps todo n e acc).
Proof.
  induction todo as [|i todo IH]; intros acc q; [constructor; lia|]. cbn [counted_steps]. apply (headed_bind _ _ _ _ _ _ (headed_text e q q ltac:(lia))). intros q' top' x (-> & ->).
  eapply (headed_bind (fun q' top' => q' = q + 3200 /\ top' = q + 3200)); [now apply headed_fin|]. intros q' top' l (-> & ->). destruct (l && _); [constructor|].
  apply (headed_weak _ _ _ _ _ (IH _ (q + 3200))). intros; lia.
Qed.
Lemma headed_ext fuel n e q top : top = 3600 -> headed (fun q' top' => q' = top' /\ 3600 <= q') q top (ext_steps fuel n e).
Proof.
  intros ->. unfold ext_steps. change REEL_HEADER_NUM_BYTES with 3600. apply (headed_bind (fun q' top' => q' = 3600 /\ top' = 3600)); [now apply headed_seek|].
  intros q' top' _ (-> & ->). destruct (n <? 0); [apply headed_until|apply headed_counted].
Qed.

Section Onward.
Variables (c : fmt) (e : endian) (p : packer) (bps : Z).
Hypothesis T : trace_format c.
Hypothesis Hbps : 0 <= bps.
Hypothesis HP : forall buf, all_bytes buf -> zlen buf = 240 ->
    (exists h, pk_unpack p buf = Ok h /\ forall n, In n catalog_names -> exists v, hdr_get h n = Ok v /\ field_at c e buf 0 n v) \/
    (pk_unpack p buf = Err ValueError /\ exists n, In n catalog_names /\ bad_field_at c e buf 0 n).
Lemma onward_scan len fuel : len <> 0 -> forall k pos b q top, top <= pos -> onward q top (scan_steps fuel p bps len k pos b).
Proof.
  intros L. assert (NN : forall f v, is_field c f -> fd_name f = "num_samples" -> accepts (fd_type f) v -> 0 <= v) by apply T.
  induction fuel as [|fuel IH]; intros k pos b q top TP; [constructor|]. cbn [scan_steps]. unfold s_report. replace (4 * len =? 0) with false by lia. cbn [sbind]. constructor.
  apply (onward_headed (fun q' top' => q' = pos /\ top' = top)); [now apply headed_seek|]. intros q' top' _ (-> & ->).
  unfold s_read. cbn [sbind]. unfold TRACE_HEADER_NUM_BYTES. constructor; [lia|lia| |]; intros data B Z.
  - replace (zlen data <? 240) with false by lia. destruct (HP data B Z) as [(h & -> & G)|(-> & _)]; [|constructor].
    destruct (G "num_samples") as (ns & -> & f & F & E & A & _); [cbn; tauto|]. pose proof (NN f ns F E A).
    repeat (match goal with |- onward _ _ (match ?r with Ok _ => _ | Err _ => _ end) => destruct r; [|constructor] end). apply IH. nia.
  - replace (zlen data <? 240) with true by lia. constructor.
Qed.
End Onward.
Lemma onward_catalog fuel bps c e q : trace_format c -> 0 <= bps -> 0 < q -> onward q q (catalog_steps fuel bps c e).
Proof.
  intros T B Q. unfold catalog_steps. destruct (catalog_packer c e T) as (sub & p & -> & P & HP). cbn [sbind]. rewrite P. cbn [sbind]. constructor; [exact Q| |].
  - intros n N. constructor. apply onward_then; [apply (onward_scan c e p bps T B HP); lia|]. intros b.
    repeat (first [apply closing_bind; [apply closing_report|intros ?]|match goal with |- closing (match ?r with Ok _ => _ | Err _ => _ end) => destruct r; [|constructor] end]). constructor.
  - intros n n' N N'. constructor. intros x. apply below_bind; [apply below_scan; lia|]. intros b. apply below_refl.
Qed.
Lemma bps_nonneg bin bps : bytes_per_sample bin = Ok bps -> 0 <= bps.
Proof.
  unfold bytes_per_sample. destruct (hdr_get bin "data_sample_format"); [|discriminate]. cbn [bind]. destruct (segy_type_of _) as [t|]; [|discriminate]. intros [= <-].
  rewrite ctype_of_size. pose proof (sample_size_pos t). lia.
Qed.
Lemma onward_known f1 f2 x bc tc e dim : binary_format bc -> trace_format tc -> onward 0 0 (known_steps f1 f2 x bc tc e dim).
Proof.
  intros (FB & _) T. unfold known_steps. apply (onward_headed _ _ _ _ _ (headed_text x 0 0 ltac:(lia))). intros q1 t1 tx (-> & ->).
  apply (onward_headed _ _ _ _ _ (headed_binary bc e _ _ FB (Z.le_refl _))). intros q1 t1 bin (-> & ->). change REEL_HEADER_NUM_BYTES with 3600.
  apply (onward_headed (fun q' top' => q' = 3600 /\ top' = 3600)); [now apply headed_seek|]. intros q1 t1 _ (-> & ->).
  apply (onward_headed (fun q' top' => q' = 3600 /\ top' = 3600)); [now apply headed_fin|]. intros q1 t1 n (-> & ->).
  apply (onward_headed _ _ _ _ _ (headed_ext f1 n x _ _ eq_refl)). intros q1 t1 ext (-> & LE).
  destruct (bytes_per_sample bin) as [bps|y] eqn:BP; cbn [sbind]; [|constructor]. apply bps_nonneg in BP.
  apply onward_then; [apply onward_catalog; auto; lia|]. intros [[[o l] cd] li]. cbv zeta. destruct (negb _); constructor.
Qed.

(* a file of less than 3600 bytes: the reel headers are not all there, unless the text cannot be decoded *)
Lemma known_short {B} f1 f2 x bc tc e dim (R : reader -> steps B) d m log : all_bytes d -> binary_format bc -> 0 <= m < 3600 -> m <= zlen d ->
  let r := fst (alone (sbind (known_steps f1 f2 x bc tc e dim) R) (mk_world (mk_file (firstn (Z.to_nat m) d) 0) log)) in
  r = Err EOFError \/ r = Err ValueError \/ r = fst (alone (sbind (known_steps f1 f2 x bc tc e dim) R) (mk_world (mk_file d 0) log)).
Proof.
  intros BY ((K & _ & S & O & F & P) & _) M L r. subst r. destruct (P e) as (p & MK).
  assert (TX : forall d' w', alone (text_steps x) (mk_world (mk_file d' 0) w') =
    (if zlen (py_slice d' 0 (0 + 3200)) <? 3200 then Err EOFError else (do batches <- batched (py_slice d' 0 (0 + 3200)) CARD_LENGTH None ;; map_res (decode x) batches),
     mk_world (mk_file d' (0 + zlen (py_slice d' 0 (0 + 3200)))) w')).
  { intros d' w'. unfold text_steps, s_read. cbn [sbind alone w_file w_log]. unfold read. cbn [f_data f_pos]. cbv beta iota zeta. change TEXTUAL_HEADER_NUM_BYTES with 3200.
    destruct (zlen (py_slice d' 0 (0 + 3200)) <? 3200); reflexivity. }
  set (p' := firstn (Z.to_nat m) d).
  assert (LP : zlen (py_slice p' 0 (0 + 3200)) = Z.min 3200 m). { rewrite zlen_py_slice by lia. unfold p'. rewrite zlen_firstn' by lia. lia. }
  rewrite !(alone_bind (known_steps f1 f2 x bc tc e dim)). unfold known_steps. rewrite !(alone_bind (text_steps x)), !TX, LP.
  destruct (Z.min 3200 m <? 3200) eqn:E; [left; reflexivity|].
  assert (SL : py_slice p' 0 (0 + 3200) = py_slice d 0 (0 + 3200)) by (apply cut_slice; lia). rewrite SL in LP |- *. rewrite LP, E.
  destruct (do batches <- batched (py_slice d 0 (0 + 3200)) CARD_LENGTH None ;; map_res (decode x) batches) as [tx|y]; [|right; right; reflexivity].
  right. left. rewrite !(alone_bind (binary_steps bc e)).
  assert (BI : fst (alone (binary_steps bc e) (mk_world (mk_file p' (0 + Z.min 3200 m)) log)) = Err ValueError).
  { unfold binary_steps. rewrite F, MK. unfold s_read. cbn [sbind alone w_file w_log]. unfold read. cbn [f_data f_pos fst]. cbv beta iota zeta. cbn [alone fst].
    set (b := py_slice p' _ _).
    assert (LB : zlen b < 400). { unfold b. rewrite zlen_py_slice by lia. unfold p'. rewrite zlen_firstn' by lia. lia. }
    assert (BB : all_bytes b). { apply all_bytes_slice. apply Forall_forall. intros v V. unfold all_bytes in BY. rewrite Forall_forall in BY. apply BY. rewrite <- (firstn_skipn (Z.to_nat m)). apply in_or_app. now left. }
    destruct (unpack_iff bc e p b K S O MK BB) as [(h & _ & H & _)|(-> & _)]; [|reflexivity]. exfalso. unfold header_length in H. rewrite F in H. lia. }
  destruct (alone (binary_steps bc e) (mk_world (mk_file p' (0 + Z.min 3200 m)) log)) as [rb wb]. cbn [fst] in BI. subst rb. reflexivity.
Qed.

(* the outcome of opening is that of a beginning of the file, or one of two exceptions *)
Theorem open_pieces d enc bc tc s f1 f2 a eo pr dim log : readable d enc bc tc ->
  let r := piecemeal d s (open_steps f1 f2 a enc bc tc eo pr dim) 0 0 in
  r <> Err OutOfFuel \/ (length d < f1)%nat /\ (S (length d) < f2)%nat ->
  r = Err EOFError \/ r = Err ValueError \/
  exists x n, supported x /\ (forall x', enc = Some x' -> x = x') /\ 0 <= n <= zlen d /\
    r = fst (create_reader a (Some x) bc tc eo pr dim (mk_world (mk_file (firstn (Z.to_nat n) d) 0) log)).
Proof.
  intros RD r NF. pose proof RD as (BY & FB & FT & HE). pose proof FB as ((_ & _ & _ & _ & FL & _) & _).
  set (x0 := match enc with Some x => x | None => ASCII end).
  assert (X0 : supported x0 /\ forall x', enc = Some x' -> x0 = x'). { unfold x0. destruct enc as [x|]; [split; [now apply HE|congruence]|split; [now left|discriminate]]. }
  assert (WH : firstn (Z.to_nat (zlen d)) d = d) by (apply firstn_whole; lia). pose proof (zlen_nonneg d) as ZD.
  (* what does not depend on the encoding *)
  assert (Z0 : r = fst (create_reader a (Some x0) bc tc eo pr dim (mk_world (mk_file d 0) log)) \/
    exists e, eo = Some e /\ attrs_ok a /\ 3600 <= zlen d /\ pr <> NotCallable /\ (forall k, dim = Some k -> In k [1; 2; 3]) /\
      let rest x := step r <- make_steps f1 f2 x bc tc e dim ;; step _ <- s_report 1 1 ;; Fin (Ok r) in
      r = piecemeal d s (rest enc) 0 0 /\
      forall x d', 3600 <= zlen d' -> alone (open_steps f1 f2 a x bc tc eo pr dim) (mk_world (mk_file d' 0) log) = alone (rest x) (mk_world (mk_file d' 0) log)).
  { rewrite <- (open_alone a (Some x0) bc tc eo pr dim d 0 log 400 FL ltac:(lia) ltac:(lia)). subst r.
    unfold open_steps. destruct (fa_closed a) eqn:A1; [now left|]. destruct (fa_text a) eqn:A2; [now left|]. destruct (fa_seekable a) eqn:A3; [|now left]. cbn [negb sbind piecemeal alone w_file f_data].
    change REEL_HEADER_NUM_BYTES with 3600. destruct (zlen d <? 3600) eqn:L; [now left|]. destruct eo as [e|]; [|now left].
    assert (PD : match dim with None => false | Some d => negb (zmem d [1; 2; 3]) end = false -> forall k, dim = Some k -> In k [1; 2; 3]).
    { intros DM k ->. destruct (zmem k [1; 2; 3]) eqn:Z; [|discriminate]. now apply zmem_In. }
    destruct pr; [| |now left]; (destruct (match dim with None => false | Some d => negb (zmem d [1; 2; 3]) end) eqn:DM; [now left|]);
      right; exists e; (split; [reflexivity|]); (split; [now split|]); (split; [lia|]); (split; [discriminate|]); (split; [now apply PD|]);
      (split; [reflexivity|]); intros x d' LJ; replace (zlen d' <? 3600) with false by lia; reflexivity. }
  destruct Z0 as [Z0|(e & -> & A & L & P & D & EM & EA)].
  { right; right. exists x0, (zlen d). split; [apply X0|]. split; [apply X0|]. split; [lia|]. now rewrite WH. }
  cbv zeta in EM, EA. set (R := fun r : reader => step _ <- s_report 1 1 ;; Fin (Ok r)) in *.
  assert (RC : forall r, closing (R r)) by (intros r'; apply closing_bind; [apply closing_report|intros; constructor]).
  assert (KN : exists x i, supported x /\ (forall x', enc = Some x' -> x = x') /\ r = piecemeal d s (sbind (known_steps f1 f2 x bc tc e dim) R) i 0).
  { destruct enc as [x|]; [exists x, 0%nat; split; [now apply HE|]; split; [congruence|exact EM]|].
    exists (match guess_encoding (firstn (Z.to_nat (s 0%nat)) (py_slice d 0 3200)) 1 2 with Some x => x | None => ASCII end), 1%nat. split.
    { unfold guess_encoding. repeat match goal with |- context [if ?b then _ else _] => destruct b end; unfold supported; auto. }
    split; [discriminate|]. rewrite EM. unfold make_steps, guess_steps, s_seek, s_read. cbn [sbind piecemeal Z.ltb Z.compare]. cbn [sbind piecemeal]. reflexivity. }
  destruct KN as (x & i & SX & XE & KM).
  destruct (seems_cut d s _ BY 0 0 (onward_then _ _ _ R (onward_known f1 f2 x bc tc e dim FB FT) RC) i log ltac:(lia) ltac:(lia)) as (m & M & E).
  assert (DONE : forall n, 3600 <= n <= zlen d -> r = fst (alone (sbind (known_steps f1 f2 x bc tc e dim) R) (mk_world (mk_file (firstn (Z.to_nat n) d) 0) log)) ->
    r = fst (create_reader a (Some x) bc tc (Some e) pr dim (mk_world (mk_file (firstn (Z.to_nat n) d) 0) log))).
  { intros n N En. set (dn := firstn (Z.to_nat n) d) in *. assert (LN : zlen dn = n) by (unfold dn; rewrite zlen_firstn' by lia; lia).
    assert (EO : r = fst (alone (open_steps f1 f2 a (Some x) bc tc (Some e) pr dim) (mk_world (mk_file dn 0) log))) by (rewrite (EA (Some x) dn ltac:(lia)); exact En).
    assert (RN : readable dn (Some x) bc tc).
    { split; [|split; [exact FB|split; [exact FT|intros y [= <-]; exact SX]]]. unfold dn. apply Forall_forall. intros v V. unfold all_bytes in BY. rewrite Forall_forall in BY. apply BY.
      rewrite <- (firstn_skipn (Z.to_nat n) d). apply in_or_app. now left. }
    assert (LD : (length dn <= length d)%nat) by (unfold dn; rewrite firstn_length; lia).
    rewrite EO. apply (fuel_enough (fun _ => dn) (Some x) bc tc (fun _ => RN) f1 f2 a e pr dim 0%nat log log A ltac:(lia) P D).
    destruct NF as [NF|NF]; [left; rewrite <- EO; exact NF|right; lia]. }
  destruct (Z_lt_dec m 3600) as [SH|SH].
  - destruct (known_short f1 f2 x bc tc e dim R d m log BY FB ltac:(lia) ltac:(lia)) as [H|[H|H]]; rewrite <- E, <- KM in H; [now left|now right; left|].
    right; right. exists x, (zlen d). split; [exact SX|]. split; [exact XE|]. split; [lia|]. apply DONE; [lia|]. now rewrite WH.
  - right; right. exists x, m. split; [exact SX|]. split; [exact XE|]. split; [lia|]. apply DONE; [lia|]. rewrite KM. exact E.
Qed.
