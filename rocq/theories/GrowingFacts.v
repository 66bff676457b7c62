(* Proofs for C141: files that grow while they are opened. *)
From Coq Require Import String ZArith List Bool Lia ZifyBool ZifyNat.
From Verif Require Import Py PyFacts PyFloat IbmFloat Spec_Ibm Util Catalog Spec_Catalog Packing Spec_Packing PackFacts CompileFacts HeaderFacts Formats FileIO Text Spec_Text
  TextIO TextIOFacts Float32 Toolkit Spec_Segy ToolkitFacts Reader Spec_Reader ReaderFacts OpenFacts PackingFacts FormatFacts CutFacts Growing Spec_Growing.
Import ListNotations.
Local Open Scope string_scope.
Open Scope list_scope.
Open Scope Z_scope.

(* --- steps taken alone are the code of Reader.v --- *)
Definition is {A} (p : steps A) (m : wio A) : Prop := forall w, 0 <= f_pos (w_file w) -> alone p w = m w /\ 0 <= f_pos (w_file (snd (m w))).

Lemma alone_bind {A B} (m : steps A) (k : A -> steps B) : forall w,
  alone (sbind m k) w = match alone m w with (Ok a, w') => alone (k a) w' | (Err y, w') => (Err y, w') end.
Proof.
  induction m as [[a|y]|f IH|f IH|p f IH|n f IH|x y f IH]; intros w; cbn [sbind alone]; try reflexivity; try apply IH.
Qed.
Lemma is_bind {A B} (m : steps A) (k : A -> steps B) m' k' : is m m' -> (forall a, is (k a) (k' a)) -> is (sbind m k) (wbind m' k').
Proof.
  intros M K w W. rewrite alone_bind. destruct (M w W) as (E & P). unfold wbind. rewrite E. destruct (m' w) as [[a|y] w']; cbn [snd] in *; [exact (K a w' P)|auto].
Qed.
Lemma is_fin {A} (r : res A) : is (Fin r) (on_file (lift r)).
Proof. intros [f l] W. cbn. auto. Qed.
Lemma is_ret {A} (a : A) : is (Fin (Ok a)) (wret a).
Proof. intros w W. cbn. auto. Qed.
Lemma is_raise {A} y : is (@Fin A (Err y)) (wraise y).
Proof. intros w W. cbn. auto. Qed.
Lemma is_raise' {A} y : is (@Fin A (Err y)) (on_file (raise y)).
Proof. intros [f l] W. cbn. auto. Qed.
Lemma is_ret' {A} (a : A) : is (Fin (Ok a)) (on_file (ret a)).
Proof. intros [f l] W. cbn. auto. Qed.
Lemma is_seek p : is (s_seek p) (on_file (seek p)).
Proof. intros [[d q] l] W. unfold s_seek, on_file, seek. destruct (p <? 0) eqn:E; cbn; split; auto; lia. Qed.
Lemma is_read n : is (s_read n) (on_file (read n)).
Proof. intros [[d q] l] W. cbn in *. split; [reflexivity|]. pose proof (zlen_nonneg (py_slice d q (q + n))). lia. Qed.
Lemma is_pos : is (AskPos (fun q => Fin (Ok q))) (on_file tell).
Proof. intros [[d q] l] W. cbn in *. auto. Qed.
Lemma is_length : is (AskLength (fun n => Fin (Ok n))) (on_file file_length).
Proof.
  intros [[d q] l] W. cbn [w_file f_pos] in W. unfold on_file, file_length, ibind, tell, seek_end, seek, ret. cbn [w_file f_data f_pos].
  replace (q <? 0) with false by lia. cbn. auto.
Qed.
Lemma is_report a b : is (s_report a b) (report a b).
Proof. intros [f l] W. unfold s_report, report. destruct (b =? 0); cbn; auto. Qed.

(* code on the file alone *)
Lemma on_bind {A B} (m : io A) (k : A -> io B) w : on_file (ibind m k) w = wbind (on_file m) (fun a => on_file (k a)) w.
Proof. unfold on_file, ibind, wbind. destruct (m (w_file w)) as [[a|y] f]; cbn; reflexivity. Qed.
Lemma is_on {A B} (m : steps A) (k : A -> steps B) m' k' : is m (on_file m') -> (forall a, is (k a) (on_file (k' a))) -> is (sbind m k) (on_file (ibind m' k')).
Proof. intros M K w W. rewrite on_bind. exact (is_bind m k (on_file m') (fun a => on_file (k' a)) M K w W). Qed.
Lemma is_if {A} (c : bool) (p q : steps A) m n : is p m -> is q n -> is (if c then p else q) (if c then m else n).
Proof. now destruct c. Qed.

Lemma is_on_if {A} (c : bool) (p q : steps A) m n : is p (on_file m) -> is q (on_file n) -> is (if c then p else q) (on_file (if c then m else n)).
Proof. now destruct c. Qed.

Lemma is_guess : is guess_steps (on_file guess_textual_header_encoding).
Proof.
  assert (E : forall w, on_file guess_textual_header_encoding w =
     on_file (run original <- tell ;; run _ <- seek 0 ;; run a <- read TEXTUAL_HEADER_NUM_BYTES ;; run _ <- seek original ;; ret (guess_encoding a 1 2)) w).
  { intros w. unfold guess_textual_header_encoding, restored_position_seek, on_file, ibind, tell. destruct (seek 0 (w_file w)) as [[[]|y] f]; [|reflexivity].
    destruct (read TEXTUAL_HEADER_NUM_BYTES f) as [[a|y] f']; [|reflexivity]. destruct (seek (f_pos (w_file w)) f') as [[[]|y] f'']; reflexivity. }
  cut (is guess_steps (on_file (run original <- tell ;; run _ <- seek 0 ;; run a <- read TEXTUAL_HEADER_NUM_BYTES ;; run _ <- seek original ;; ret (guess_encoding a 1 2)))).
  { intros H w W. rewrite E. exact (H w W). }
  apply is_on; [apply is_pos|]. intros q. apply is_on; [apply is_seek|]. intros _. apply is_on; [apply is_read|]. intros b. apply is_on; [apply is_seek|]. intros _. apply is_ret'.
Qed.
Lemma is_text e : is (text_steps e) (on_file (read_textual_reel_header e)).
Proof. apply is_on; [apply is_read|]. intros raw. apply is_on_if; [apply is_raise'|apply is_fin]. Qed.
Lemma is_binary c e n : fmt_length c = Some n -> 0 <= n -> is (binary_steps c e) (on_file (read_binary_reel_header c e)).
Proof.
  intros F N. unfold binary_steps, read_binary_reel_header. rewrite F. apply is_on; [apply is_fin|]. intros p. cbn [sbind read_opt]. replace (n <? 0) with false by lia.
  apply is_on; [apply is_read|]. intros b. apply is_fin.
Qed.
Lemma is_until fuel e : forall acc, is (until_end_steps fuel e acc) (on_file (until_end_loop fuel e acc)).
Proof.
  induction fuel as [|fuel IH]; intros acc; [apply is_raise'|]. cbn [until_end_steps until_end_loop]. apply is_on; [apply is_text|]. intros x. apply is_on; [apply is_fin|].
  intros last. apply is_on_if; [apply is_ret'|apply IH].
Qed.
Lemma is_counted e n : forall todo acc, is (counted_steps todo n e acc) (on_file (counted_loop todo n e acc)).
Proof.
  induction todo as [|i todo IH]; intros acc; [apply is_ret'|]. cbn [counted_steps counted_loop]. apply is_on; [apply is_text|]. intros x. apply is_on; [apply is_fin|].
  intros last. apply is_on_if; [apply is_raise'|apply IH].
Qed.
Lemma is_ext n e w : 0 <= f_pos (w_file w) -> alone (ext_steps (S (length (f_data (w_file w)))) n e) w = on_file (read_extended_textual_headers n e) w /\
  0 <= f_pos (w_file (snd (on_file (read_extended_textual_headers n e) w))).
Proof.
  intros W. unfold read_extended_textual_headers. rewrite on_bind. unfold ext_steps. rewrite alone_bind. unfold wbind.
  destruct (is_seek REEL_HEADER_NUM_BYTES w W) as (E & P). rewrite E.
  change (on_file (seek REEL_HEADER_NUM_BYTES) w) with (@Ok Datatypes.unit tt, mk_world (mk_file (f_data (w_file w)) REEL_HEADER_NUM_BYTES) (w_log w)) in *. cbn [snd] in P.
  destruct (n <? 0) eqn:N.
  - exact (is_until (S (length (f_data (w_file w)))) e [] (mk_world (mk_file (f_data (w_file w)) REEL_HEADER_NUM_BYTES) (w_log w)) P).
  - unfold read_extended_headers_counted. rewrite N. exact (is_counted e n _ [] _ P).
Qed.
Lemma is_scan fuel p bps len : forall k pos b, is (scan_steps fuel p bps len k pos b) (catalog_loop fuel p bps len k pos b).
Proof.
  induction fuel as [|fuel IH]; intros k pos b; [apply is_raise|]. cbn [scan_steps catalog_loop].
  apply is_bind; [apply is_report|]. intros _. apply is_bind; [apply is_seek|]. intros _. apply is_bind; [apply is_read|]. intros data. apply is_if; [apply is_ret|].
  do 5 (apply is_bind; [apply is_fin|]; intros ?). apply IH.
Qed.
Lemma is_catalog fuel bps c e : is (catalog_steps fuel bps c e) (catalog_traces_fuel fuel bps c e).
Proof.
  unfold catalog_steps, catalog_traces_fuel. apply is_bind; [apply is_fin|]. intros sub. apply is_bind; [apply is_fin|]. intros p.
  apply is_bind; [apply is_length|]. intros n. apply is_bind; [apply is_pos|]. intros q. apply is_bind; [apply is_scan|]. intros b.
  repeat (apply is_bind; [first [apply is_report|apply is_fin]|]; intros ?). apply is_ret.
Qed.

(* operations that do not change the contents *)
Definition keeps_data {A} (m : wio A) : Prop := forall w, f_data (w_file (snd (m w))) = f_data (w_file w).
Lemma alone_keeps {A} (p : steps A) : keeps_data (alone p).
Proof.
  induction p as [r|f IH|f IH|p f IH|n f IH|x y f IH]; intros w; cbn [alone]; [reflexivity|..]; try (rewrite IH; reflexivity).
  all: try (unfold read; cbv zeta beta iota; rewrite IH; reflexivity).
Qed.

Lemma is_known enc bc tc e dim n w : fmt_length bc = Some n -> 0 <= n -> 0 <= f_pos (w_file w) -> let l := length (f_data (w_file w)) in
  alone (known_steps (S l) (S (S l)) enc bc tc e dim) w = make_reader (Some enc) bc tc e dim w /\ 0 <= f_pos (w_file (snd (make_reader (Some enc) bc tc e dim w))).
Proof.
  intros F N W l. unfold make_reader, known_steps.
  set (FILE := fun w' => f_data (w_file w') = f_data (w_file w) /\ 0 <= f_pos (w_file w')).
  assert (FW : FILE w) by (split; auto).
  assert (B : forall A B (m : steps A) (k : A -> steps B) m' k' w', FILE w' -> (alone m w' = m' w' /\ 0 <= f_pos (w_file (snd (m' w')))) ->
    (forall a w'', FILE w'' -> alone (k a) w'' = k' a w'' /\ 0 <= f_pos (w_file (snd (k' a w'')))) ->
    alone (sbind m k) w' = wbind m' k' w' /\ 0 <= f_pos (w_file (snd (wbind m' k' w')))).
  { intros A B m k m' k' w' (FD & FP) (E & P) K. rewrite alone_bind. unfold wbind. assert (KD := alone_keeps m w'). rewrite E in *.
    destruct (m' w') as [[a|y] w'']; cbn [snd] in *; [|auto]. apply K. split; congruence. }
  match goal with |- context [wbind (wret enc) ?K] => change (wbind (wret enc) K w) with (K enc w) end. cbv beta.
  apply B; [exact FW|apply is_text; exact W|]. clear FW. intros tx w1 FW. apply B; [exact FW|apply (is_binary bc e n F N); apply FW|]. clear FW. intros bin w2 FW.
  apply B; [exact FW|apply is_seek; apply FW|]. clear FW. intros _ w3 FW. apply B; [exact FW|apply is_fin; apply FW|]. clear FW. intros declared w4 FW.
  apply B; [exact FW| |]. { destruct FW as (FD & FP). unfold l. rewrite <- FD. apply is_ext. exact FP. } clear FW. intros ext w5 FW.
  apply B; [exact FW|apply is_fin; apply FW|]. clear FW. intros bps w6 FW. apply B; [exact FW| |].
  { destruct FW as (FD & FP). cbn [catalog_traces]. unfold l. rewrite <- FD. apply is_catalog. exact FP. }
  clear FW. intros [[[offsets lengths] cdps] lines] w7 FW. cbv zeta.
  match goal with |- context [negb ?c] => destruct (negb c) end; [apply is_raise; apply FW|apply is_fin; apply FW].
Qed.

Theorem open_alone a enc bc tc eo pr dim d q log n : fmt_length bc = Some n -> 0 <= n -> 0 <= q -> 
  alone (open_steps (S (length d)) (S (S (length d))) a enc bc tc eo pr dim) (mk_world (mk_file d q) log) = create_reader a enc bc tc eo pr dim (mk_world (mk_file d q) log).
Proof.
  intros F N Q. unfold open_steps, create_reader, create_reader_checks. destruct (fa_closed a); [reflexivity|]. destruct (fa_text a); [reflexivity|].
  destruct (negb (fa_seekable a)); [reflexivity|]. rewrite alone_bind.
  destruct (is_length (mk_world (mk_file d q) log) Q) as (E & _). rewrite E. clear E.
  assert (E : on_file file_length (mk_world (mk_file d q) log) = (Ok (zlen d), mk_world (mk_file d q) log)).
  { unfold on_file, file_length, ibind, tell, seek_end, seek, ret. cbn [w_file f_data f_pos]. replace (q <? 0) with false by lia. reflexivity. }
  unfold wbind at 1. unfold wbind at 1. rewrite E. clear E.
  destruct (zlen d <? REEL_HEADER_NUM_BYTES); [reflexivity|]. destruct eo as [e|]; [|reflexivity].
  assert (M : alone (make_steps (S (length d)) (S (S (length d))) enc bc tc e dim) (mk_world (mk_file d q) log) = make_reader enc bc tc e dim (mk_world (mk_file d q) log)).
  { unfold make_steps. rewrite alone_bind. destruct enc as [x|].
    - exact (proj1 (is_known x bc tc e dim n (mk_world (mk_file d q) log) F N Q)).
    - rewrite alone_bind. destruct (is_guess (mk_world (mk_file d q) log) Q) as (E & P). assert (K := alone_keeps guess_steps (mk_world (mk_file d q) log)).
      unfold make_reader. unfold wbind at 1. unfold wbind at 1. rewrite E in *. destruct (on_file guess_textual_header_encoding (mk_world (mk_file d q) log)) as [[g|y] w]; cbn [snd] in *; [|reflexivity].
      cbn [alone]. cbn [w_file f_data] in K. pose proof (proj1 (is_known (match g with Some x => x | None => ASCII end) bc tc e dim n w F N P)) as H. cbv zeta in H. rewrite K in H. exact H. }
  destruct pr; try reflexivity; (destruct (match dim with None => false | Some d => negb (zmem d [1; 2; 3]) end); [reflexivity|]);
    rewrite alone_bind, M; unfold wret at 1; unfold wbind; destruct (make_reader enc bc tc e dim (mk_world (mk_file d q) log)) as [[r|y] w]; reflexivity.
Qed.

(* --- the same steps but for reports, and for running out of fuel --- *)
Inductive below {A} : steps A -> steps A -> Prop :=
| below_out p : below (Fin (Err OutOfFuel)) p
| below_fin r : below (Fin r) (Fin r)
| below_length k k' : (forall n, below (k n) (k' n)) -> below (AskLength k) (AskLength k')
| below_pos k k' : (forall n, below (k n) (k' n)) -> below (AskPos k) (AskPos k')
| below_move p k k' : below k k' -> below (MoveTo p k) (MoveTo p k')
| below_read n k k' : (forall b, below (k b) (k' b)) -> below (GetBytes n k) (GetBytes n k')
| below_show a b a' b' k k' : below k k' -> below (Show a b k) (Show a' b' k').

Lemma below_refl {A} (p : steps A) : below p p.
Proof. induction p; constructor; auto. Qed.
Lemma below_bind {A B} (m m' : steps A) (k k' : A -> steps B) : below m m' -> (forall a, below (k a) (k' a)) -> below (sbind m k) (sbind m' k').
Proof.
  intros M K. induction M; cbn [sbind]; try (constructor; auto; fail).
  destruct r; [apply K|apply below_fin].
Qed.
Lemma below_alone {A} (p p' : steps A) : below p p' -> forall f l l', fst (alone p (mk_world f l)) <> Err OutOfFuel ->
  fst (alone p' (mk_world f l')) = fst (alone p (mk_world f l)).
Proof.
  induction 1 as [p|r|k k' H IH|k k' H IH|p k k' H IH|n k k' H IH|a b a' b' k k' H IH]; intros f l l' N; cbn [alone fst w_file w_log] in *; auto.
  - now contradiction N.
  - unfold read in *. cbv beta iota zeta in *. auto.
Qed.

Lemma below_both {A} (p p' : steps A) : below p p' -> below p' p -> forall f l l', fst (alone p (mk_world f l)) = fst (alone p' (mk_world f l')).
Proof.
  intros B B' f l l'. assert (DEC : forall r : res A, r = Err OutOfFuel \/ r <> Err OutOfFuel) by (intros [a|[]]; (now left) || (right; discriminate)).
  destruct (DEC (fst (alone p (mk_world f l)))) as [E|N]; [|symmetry; now apply below_alone].
  destruct (DEC (fst (alone p' (mk_world f l')))) as [E'|N']; [congruence|]. now apply below_alone.
Qed.

(* --- what happens when a read gives too little --- *)
(* no more questions to the file *)
Inductive closing {A} : steps A -> Prop :=
| closing_fin r : closing (Fin r)
| closing_show a b k : closing k -> closing (Show a b k).
(* what is read too short ends it *)
Inductive careful {A} : steps A -> Prop :=
| careful_fin r : careful (Fin r)
| careful_length k : (forall n, 0 < n -> careful (k n)) -> (forall n n', 0 < n -> 0 < n' -> below (k n) (k n')) -> careful (AskLength k)
| careful_pos k : (forall q, careful (k q)) -> careful (AskPos k)
| careful_move p k : 0 <= p -> careful k -> careful (MoveTo p k)
| careful_read n k : 0 <= n -> (forall b, all_bytes b -> zlen b = n -> careful (k b)) -> (forall b, all_bytes b -> zlen b < n -> closing (k b)) -> careful (GetBytes n k)
| careful_show a b k : careful k -> careful (Show a b k).
(* and it ends with an exception *)
Inductive strict {A} : steps A -> Prop :=
| strict_fin r : strict (Fin r)
| strict_move p k : 0 <= p -> strict k -> strict (MoveTo p k)
| strict_read n k : 0 <= n -> (forall b, all_bytes b -> zlen b = n -> strict (k b)) -> (forall b, all_bytes b -> zlen b < n -> exists y, k b = Fin (Err y)) -> strict (GetBytes n k).

Lemma closing_bind {A B} (m : steps A) (k : A -> steps B) : closing m -> (forall a, closing (k a)) -> closing (sbind m k).
Proof. intros M K. induction M as [[a|y]|a b f M IH]; cbn [sbind]; [apply K|constructor|constructor; exact IH]. Qed.
Lemma careful_closing {A} (p : steps A) : closing p -> careful p.
Proof. induction 1; constructor; auto. Qed.
Lemma strict_bind {A B} (m : steps A) (k : A -> steps B) : strict m -> (forall a, strict (k a)) -> strict (sbind m k).
Proof.
  intros M K. induction M as [[a|y]|p f P M IH|n f N M IH S]; cbn [sbind]; [apply K|constructor|constructor; auto|].
  constructor; auto. intros b B1 L. destruct (S b B1 L) as (y & ->). exists y. reflexivity.
Qed.
Lemma careful_strict {A B} (m : steps A) (k : A -> steps B) : strict m -> (forall a, careful (k a)) -> careful (sbind m k).
Proof.
  intros M K. induction M as [[a|y]|p f P M IH|n f N M IH S]; cbn [sbind]; [apply K|constructor|constructor; auto|].
  constructor; auto. intros b B1 L. destruct (S b B1 L) as (y & ->). constructor.
Qed.
Lemma careful_then {A B} (m : steps A) (k : A -> steps B) : careful m -> (forall a, closing (k a)) -> careful (sbind m k).
Proof.
  intros M K. induction M as [[a|y]|f M IH S|f M IH|p f P M IH|n f N M IH S|x y f M IH]; cbn [sbind]; try (constructor; auto; fail).
  - apply careful_closing, K.
  - constructor; auto. intros n n' P P'. apply below_bind; auto. intros a. apply below_refl.
  - constructor; auto. intros b B1 L. apply closing_bind; auto.
Qed.

Section Grown.
Variable d : nat -> list Z.
Hypothesis GR : growing d.
Hypothesis BY : forall i, all_bytes (d i).

Lemma later i : forall j, (i <= j)%nat -> exists z, d j = d i ++ z.
Proof.
  intros j L. induction L as [|j L (z & IH)]; [exists []; now rewrite app_nil_r|]. destruct (GR j) as (z' & E). exists (z ++ z'). rewrite E, IH. now rewrite app_assoc.
Qed.
Lemma later_len i j : (i <= j)%nat -> zlen (d i) <= zlen (d j).
Proof. intros L. destruct (later i j L) as (z & ->). rewrite zlen_app. pose proof (zlen_nonneg z). lia. Qed.
Lemma later_slice i j q n : (i <= j)%nat -> 0 <= q -> 0 <= n -> zlen (py_slice (d i) q (q + n)) = n -> py_slice (d j) q (q + n) = py_slice (d i) q (q + n).
Proof.
  intros L Q N H. destruct (later i j L) as (z & ->). unfold py_slice, zlen in *. rewrite firstn_length, skipn_length in H.
  rewrite skipn_app, firstn_app, skipn_length. replace (Z.to_nat (q + n - q) - (length (d i) - Z.to_nat q))%nat with 0%nat by lia. cbn [firstn]. apply app_nil_r.
Qed.

Lemma closing_alone {A} (p : steps A) : closing p -> forall i q w, fst (meanwhile d p i q) = fst (alone p w) /\ (i <= snd (meanwhile d p i q))%nat.
Proof.
  induction 1 as [r|a b k C IH]; intros i q w; cbn [meanwhile alone]; [auto|]. destruct (IH (Datatypes.S i) q (mk_world (w_file w) (w_log w ++ [(a, b)]))) as (E & L). split; [exact E|lia].
Qed.
Lemma meanwhile_later {A} (p : steps A) : forall i q, (i <= snd (meanwhile d p i q))%nat.
Proof.
  induction p as [r|k IH|k IH|p k IH|n k IH|a b k IH]; intros i q; cbn [meanwhile snd]; [lia|..]; cbv zeta; (eapply Nat.le_trans; [|apply IH]; lia).
Qed.

(* there is a moment at which it would have had this result *)
Lemma one_moment {A} (p : steps A) : careful p -> forall i q log, 0 <= q -> 0 < zlen (d i) ->
  exists j, (i <= j <= snd (meanwhile d p i q))%nat /\ fst (meanwhile d p i q) = fst (alone p (mk_world (mk_file (d j) q) log)).
Proof.
  induction 1 as [r|k C IH BL|k C IH|x k X C IH|n k N C IH CL|a b k C IH]; intros i q log Q D; cbn [meanwhile alone fst snd w_file w_log f_data f_pos] in *.
  - exists i. split; [lia|reflexivity].
  - pose proof (later_len i (Datatypes.S i) ltac:(lia)) as L1.
    destruct (IH (zlen (d i)) D (Datatypes.S i) q log Q ltac:(lia)) as (j & J & E). exists j. split; [lia|]. rewrite E.
    pose proof (later_len i j ltac:(lia)) as L2. apply below_both; apply BL; lia.
  - pose proof (later_len i (Datatypes.S i) ltac:(lia)) as L1.
    destruct (IH q (Datatypes.S i) q log Q ltac:(lia)) as (j & J & E). exists j. split; [lia|exact E].
  - pose proof (later_len i (Datatypes.S i) ltac:(lia)) as L1.
    destruct (IH (Datatypes.S i) x log X ltac:(lia)) as (j & J & E). exists j. split; [lia|exact E].
  - cbv zeta in *. set (b := py_slice (d i) q (q + n)) in *. unfold read. cbn [f_data f_pos]. cbv beta iota zeta.
    assert (BB : all_bytes b) by (apply all_bytes_slice; apply BY).
    assert (LB : zlen b <= n) by (unfold b; rewrite zlen_py_slice by lia; lia).
    pose proof (later_len i (Datatypes.S i) ltac:(lia)) as L1.
    destruct (Z.eq_dec (zlen b) n) as [EB|NB].
    + destruct (IH b BB EB (Datatypes.S i) (q + zlen b) log ltac:(lia) ltac:(lia)) as (j & J & E). exists j. split; [lia|].
      rewrite (later_slice i j q n) by (try lia; exact EB). fold b. exact E.
    + exists i. fold b. destruct (closing_alone (k b) (CL b BB ltac:(lia)) (Datatypes.S i) (q + zlen b) (mk_world (mk_file (d i) (q + zlen b)) log)) as (E & L). split; [lia|exact E].
  - pose proof (later_len i (Datatypes.S i) ltac:(lia)) as L1.
    destruct (IH (Datatypes.S i) q (log ++ [(a, b)]) Q ltac:(lia)) as (j & J & E). exists j. split; [lia|exact E].
Qed.
End Grown.

(* --- the steps of create_reader --- *)
Lemma strict_seek p : strict (s_seek p).
Proof. unfold s_seek. destruct (p <? 0) eqn:E; [constructor|]. constructor; [lia|constructor]. Qed.
Lemma strict_text e : strict (text_steps e).
Proof.
  unfold text_steps, s_read. cbn [sbind]. change TEXTUAL_HEADER_NUM_BYTES with 3200. apply strict_read; [lia| |]; intros b _ L.
  - replace (zlen b <? 3200) with false by lia. constructor.
  - replace (zlen b <? 3200) with true by lia. eauto.
Qed.
Lemma strict_binary c e : format_ok c 400 -> strict (binary_steps c e).
Proof.
  intros (K & _ & S & O & F & P). destruct (P e) as (p & M). unfold binary_steps. rewrite F, M. cbn [sbind s_read]. unfold s_read. cbn [sbind].
  apply strict_read; [lia| |]; intros b B L; [constructor|].
  destruct (unpack_iff c e p b K S O M B) as [(h & _ & H & _)|(-> & _)]; [|eauto]. exfalso.
  unfold header_length in H. rewrite F in H. lia.
Qed.
Lemma strict_until fuel e : forall acc, strict (until_end_steps fuel e acc).
Proof.
  induction fuel as [|fuel IH]; intros acc; [constructor|]. cbn [until_end_steps]. apply strict_bind; [apply strict_text|]. intros x. apply strict_bind; [constructor|].
  intros [|]; [constructor|apply IH].
Qed.
Lemma strict_counted e n : forall todo acc, strict (counted_steps todo n e acc).
Proof.
  induction todo as [|i todo IH]; intros acc; [constructor|]. cbn [counted_steps]. apply strict_bind; [apply strict_text|]. intros x. apply strict_bind; [constructor|].
  intros l. destruct (l && _); [constructor|apply IH].
Qed.
Lemma strict_ext fuel n e : strict (ext_steps fuel n e).
Proof. apply strict_bind; [apply strict_seek|]. intros _. destruct (n <? 0); [apply strict_until|]. apply strict_counted. Qed.

Lemma careful_scan fuel p bps len : forall k pos b, len <> 0 -> careful (scan_steps fuel p bps len k pos b).
Proof.
  induction fuel as [|fuel IH]; intros k pos b L; [constructor|]. cbn [scan_steps]. unfold s_report. replace (4 * len =? 0) with false by lia. cbn [sbind]. constructor.
  apply careful_strict; [apply strict_seek|]. intros _. unfold s_read. cbn [sbind]. unfold TRACE_HEADER_NUM_BYTES. constructor; [lia| |]; intros data _ Z.
  - replace (zlen data <? 240) with false by lia. repeat (match goal with |- careful (match ?r with Ok _ => _ | Err _ => _ end) => destruct r; [|constructor] end). now apply IH.
  - replace (zlen data <? 240) with true by lia. constructor.
Qed.
Lemma below_scan p bps len len' : len <> 0 -> len' <> 0 -> forall fuel fuel' k pos b, (fuel <= fuel')%nat -> below (scan_steps fuel p bps len k pos b) (scan_steps fuel' p bps len' k pos b).
Proof.
  intros L L'. induction fuel as [|fuel IH]; intros fuel' k pos b F; [apply below_out|]. destruct fuel' as [|fuel']; [lia|]. cbn [scan_steps].
  unfold s_report. replace (4 * len =? 0) with false by lia. replace (4 * len' =? 0) with false by lia. cbn [sbind]. constructor.
  apply below_bind; [apply below_refl|]. intros _. apply below_bind; [apply below_refl|]. intros data. destruct (zlen data <? _); [apply below_refl|].
  repeat (match goal with |- below (match ?r with Ok _ => _ | Err _ => _ end) _ => destruct r; [|apply below_refl] end). apply IH. lia.
Qed.
Lemma below_scan' p bps len : forall fuel fuel' k pos b, (fuel <= fuel')%nat -> below (scan_steps fuel p bps len k pos b) (scan_steps fuel' p bps len k pos b).
Proof.
  induction fuel as [|fuel IH]; intros fuel' k pos b F; [apply below_out|]. destruct fuel' as [|fuel']; [lia|]. cbn [scan_steps].
  do 3 (apply below_bind; [apply below_refl|]; intros ?). destruct (zlen _ <? _); [apply below_refl|].
  do 5 (apply below_bind; [apply below_refl|]; intros ?). apply IH. lia.
Qed.
Lemma closing_report a b : closing (s_report a b).
Proof. unfold s_report. destruct (b =? 0); repeat constructor. Qed.
Lemma careful_catalog fuel bps c e : careful (catalog_steps fuel bps c e).
Proof.
  unfold catalog_steps. apply careful_strict; [constructor|]. intros sub. apply careful_strict; [constructor|]. intros p. cbn [sbind]. constructor.
  - intros n N. constructor. intros q. apply careful_then; [apply careful_scan; lia|]. intros b.
    repeat (first [apply closing_bind; [apply closing_report|intros ?]|match goal with |- closing (match ?r with Ok _ => _ | Err _ => _ end) => destruct r; [|constructor] end]). constructor.
  - intros n n' N N'. constructor. intros q. apply below_bind; [apply below_scan; lia|]. intros b. apply below_refl.
Qed.
Lemma below_catalog fuel fuel' bps c e : (fuel <= fuel')%nat -> below (catalog_steps fuel bps c e) (catalog_steps fuel' bps c e).
Proof.
  intros F. unfold catalog_steps. do 4 (apply below_bind; [apply below_refl|]; intros ?). apply below_bind; [now apply below_scan'|]. intros b. apply below_refl.
Qed.
Lemma below_until e : forall fuel fuel' acc, (fuel <= fuel')%nat -> below (until_end_steps fuel e acc) (until_end_steps fuel' e acc).
Proof.
  induction fuel as [|fuel IH]; intros fuel' acc F; [apply below_out|]. destruct fuel' as [|fuel']; [lia|]. cbn [until_end_steps].
  do 2 (apply below_bind; [apply below_refl|]; intros ?). destruct a0; [apply below_refl|]. apply IH. lia.
Qed.
Lemma careful_known f1 f2 x bc tc e dim : format_ok bc 400 -> careful (known_steps f1 f2 x bc tc e dim).
Proof.
  intros B. unfold known_steps. apply careful_strict; [apply strict_text|]. intros tx. apply careful_strict; [now apply strict_binary|]. intros bin.
  apply careful_strict; [apply strict_seek|]. intros _. apply careful_strict; [constructor|]. intros n. apply careful_strict; [apply strict_ext|]. intros ext.
  apply careful_strict; [constructor|]. intros bps. apply careful_then; [apply careful_catalog|]. intros [[[o l] cd] li]. cbv zeta. destruct (negb _); constructor.
Qed.
Lemma below_known f1 f2 f1' f2' x bc tc e dim : (f1 <= f1')%nat -> (f2 <= f2')%nat -> below (known_steps f1 f2 x bc tc e dim) (known_steps f1' f2' x bc tc e dim).
Proof.
  intros F1 F2. unfold known_steps. do 4 (apply below_bind; [apply below_refl|]; intros ?). apply below_bind.
  { unfold ext_steps. apply below_bind; [apply below_refl|]. intros _. destruct (_ <? 0); [now apply below_until|apply below_refl]. }
  intros ext. apply below_bind; [apply below_refl|]. intros bps. apply below_bind; [now apply below_catalog|]. intros c. apply below_refl.
Qed.
Lemma below_open f1 f2 f1' f2' a enc bc tc eo pr dim : (f1 <= f1')%nat -> (f2 <= f2')%nat ->
  below (open_steps f1 f2 a enc bc tc eo pr dim) (open_steps f1' f2' a enc bc tc eo pr dim).
Proof.
  intros F1 F2. unfold open_steps. destruct (fa_closed a); [apply below_refl|]. destruct (fa_text a); [apply below_refl|]. destruct (negb _); [apply below_refl|].
  apply below_bind; [apply below_refl|]. intros n. destruct (n <? _); [apply below_refl|]. destruct eo as [e|]; [|apply below_refl].
  assert (M : below (step r <- make_steps f1 f2 enc bc tc e dim ;; step _ <- s_report 1 1 ;; Fin (Ok r)) (step r <- make_steps f1' f2' enc bc tc e dim ;; step _ <- s_report 1 1 ;; Fin (Ok r))).
  { apply below_bind; [|intros r; apply below_refl]. apply below_bind; [apply below_refl|]. intros x. now apply below_known. }
  destruct pr; try apply below_refl; (destruct (match dim with None => false | Some d => negb (zmem d [1; 2; 3]) end); [apply below_refl|exact M]).
Qed.

Lemma outcome_ends x bc tc e d : ~ open_outcome x bc tc e d (Err OutOfFuel).
Proof.
  intros H. inversion H; subst.
  - match goal with H : ext_outcome _ _ ?n _ |- _ => destruct H as (E1 & E2); destruct (Z_lt_dec n 0) as [N|N] end.
    + specialize (E2 N). inversion E2.
    + specialize (E1 ltac:(lia)). inversion E1.
  - match goal with H : catalog_outcome _ _ _ _ _ _ |- _ => inversion H end.
Qed.

Section Opening.
Variable d : nat -> list Z.
Hypothesis GR : growing d.
Variables (enc : option encoding) (bc tc : fmt).
Hypothesis RD : forall i, readable (d i) enc bc tc.

Lemma fuel_enough f1 f2 a e pr dim j log l : attrs_ok a -> 3600 <= zlen (d j) -> pr <> NotCallable -> (forall k, dim = Some k -> In k [1; 2; 3]) ->
  fst (alone (open_steps f1 f2 a enc bc tc (Some e) pr dim) (mk_world (mk_file (d j) 0) l)) <> Err OutOfFuel \/ (length (d j) < f1)%nat /\ (S (length (d j)) < f2)%nat ->
  fst (alone (open_steps f1 f2 a enc bc tc (Some e) pr dim) (mk_world (mk_file (d j) 0) l)) = fst (create_reader a enc bc tc (Some e) pr dim (mk_world (mk_file (d j) 0) log)).
Proof.
  intros A L P D NF. pose proof (RD j) as (_ & (FB & _) & _). pose proof FB as (_ & _ & _ & _ & FL & _).
  set (n := length (d j)).
  assert (E0 := open_alone a enc bc tc (Some e) pr dim (d j) 0 log 400 FL ltac:(lia) ltac:(lia)). fold n in E0.
  destruct (encoding_exists enc (d j)) as (x & X).
  destruct (create_reader_total a enc bc tc e pr dim (d j) log x (RD j) A L P D X) as (r & q & log1 & R & O & _).
  assert (NE : fst (alone (open_steps (Datatypes.S n) (Datatypes.S (Datatypes.S n)) a enc bc tc (Some e) pr dim) (mk_world (mk_file (d j) 0) log)) <> Err OutOfFuel).
  { rewrite E0, R. cbn [fst]. intros ->. exact (outcome_ends _ _ _ _ _ O). }
  destruct NF as [NF|(F1 & F2)].
  2: { rewrite <- E0. apply (below_alone _ _ (below_open _ _ f1 f2 a enc bc tc (Some e) pr dim F1 F2)). exact NE. }
  set (g1 := max f1 (Datatypes.S n)). set (g2 := max f2 (Datatypes.S (Datatypes.S n))).
  rewrite <- (below_alone _ _ (below_open f1 f2 g1 g2 a enc bc tc (Some e) pr dim (Nat.le_max_l _ _) (Nat.le_max_l _ _)) (mk_file (d j) 0) l log NF).
  rewrite <- E0. apply (below_alone _ _ (below_open _ _ g1 g2 a enc bc tc (Some e) pr dim (Nat.le_max_r _ _) (Nat.le_max_r _ _))).
  exact NE.
Qed.

Theorem open_moment f1 f2 a eo pr dim log :
  fst (meanwhile d (open_steps f1 f2 a enc bc tc eo pr dim) 0 0) <> Err OutOfFuel \/ (forall i, (length (d i) < f1)%nat /\ (S (length (d i)) < f2)%nat) ->
  exists j, (j <= snd (meanwhile d (open_steps f1 f2 a enc bc tc eo pr dim) 0 0))%nat /\
    fst (meanwhile d (open_steps f1 f2 a enc bc tc eo pr dim) 0 0) = fst (create_reader a enc bc tc eo pr dim (mk_world (mk_file (d j) 0) log)).
Proof.
  intros NF. pose proof (RD 0) as (_ & (FB & _) & _). pose proof FB as (_ & _ & _ & _ & FL & _).
  assert (BY : forall i, all_bytes (d i)) by (intros i; apply RD).
  (* the file is asked for its length at the moment 0 *)
  assert (Z0 : fst (meanwhile d (open_steps f1 f2 a enc bc tc eo pr dim) 0 0) = fst (create_reader a enc bc tc eo pr dim (mk_world (mk_file (d 0%nat) 0) log)) \/
    exists e, eo = Some e /\ attrs_ok a /\ 3600 <= zlen (d 0%nat) /\ pr <> NotCallable /\ (forall k, dim = Some k -> In k [1; 2; 3]) /\
      let rest := step r <- make_steps f1 f2 enc bc tc e dim ;; step _ <- s_report 1 1 ;; Fin (Ok r) in
      meanwhile d (open_steps f1 f2 a enc bc tc eo pr dim) 0 0 = meanwhile d rest 1 0 /\
      forall j, 3600 <= zlen (d j) -> alone (open_steps f1 f2 a enc bc tc eo pr dim) (mk_world (mk_file (d j) 0) log) = alone rest (mk_world (mk_file (d j) 0) log)).
  { rewrite <- (open_alone a enc bc tc eo pr dim (d 0%nat) 0 log 400 FL ltac:(lia) ltac:(lia)).
    unfold open_steps. destruct (fa_closed a) eqn:A1; [now left|]. destruct (fa_text a) eqn:A2; [now left|]. destruct (fa_seekable a) eqn:A3; [|now left]. cbn [negb sbind meanwhile alone w_file f_data].
    change REEL_HEADER_NUM_BYTES with 3600. destruct (zlen (d 0%nat) <? 3600) eqn:L; [now left|]. destruct eo as [e|]; [|now left].
    assert (PD : pr <> NotCallable -> match dim with None => false | Some d => negb (zmem d [1; 2; 3]) end = false -> forall k, dim = Some k -> In k [1; 2; 3]).
    { intros _ DM k ->. destruct (zmem k [1; 2; 3]) eqn:Z; [|discriminate]. now apply zmem_In. }
    destruct pr; [| |now left]; (destruct (match dim with None => false | Some d => negb (zmem d [1; 2; 3]) end) eqn:DM; [now left|]);
      right; exists e; (split; [reflexivity|]); (split; [now split|]); (split; [lia|]); (split; [discriminate|]); (split; [apply PD; [discriminate|reflexivity]|]);
      (split; [reflexivity|]); intros j LJ; replace (zlen (d j) <? 3600) with false by lia; reflexivity. }
  destruct Z0 as [Z0|(e & -> & A & L & P & D & EM & EA)]; [exists 0%nat; split; [lia|exact Z0]|].
  cbv zeta in EM, EA. set (R := fun r : reader => step _ <- s_report 1 1 ;; Fin (Ok r)) in *.
  assert (RC : forall r, closing (R r)) by (intros r; apply closing_bind; [apply closing_report|intros; constructor]).
  assert (LL : forall j, 3600 <= zlen (d j)) by (intros j; pose proof (later_len d GR BY 0 j ltac:(lia)); lia).
  (* the rest, once the encoding is known *)
  assert (KN : exists x i, (1 <= i)%nat /\ meanwhile d (sbind (make_steps f1 f2 enc bc tc e dim) R) 1 0 = meanwhile d (sbind (known_steps f1 f2 x bc tc e dim) R) i 0 /\
    forall j, alone (sbind (make_steps f1 f2 enc bc tc e dim) R) (mk_world (mk_file (d j) 0) log) = alone (sbind (known_steps f1 f2 x bc tc e dim) R) (mk_world (mk_file (d j) 0) log)).
  { destruct enc as [x|]; [exists x, 1%nat; split; [lia|]; split; reflexivity|].
    exists (match guess_encoding (py_slice (d 0%nat) 0 3200) 1 2 with Some x => x | None => ASCII end), 5%nat. split; [lia|].
    assert (SL : forall j, py_slice (d j) 0 3200 = py_slice (d 0%nat) 0 3200).
    { intros j. apply (later_slice d GR BY 0 j 0 3200); try lia. rewrite zlen_py_slice by lia. lia. }
    split.
    - cbn [make_steps guess_steps s_read sbind meanwhile]. unfold make_steps, guess_steps, s_seek, s_read. cbn [sbind meanwhile Z.ltb Z.compare]. cbn [sbind meanwhile].
      change (0 + TEXTUAL_HEADER_NUM_BYTES) with 3200. rewrite (SL 3%nat). reflexivity.
    - intros j. unfold make_steps, guess_steps, s_seek, s_read. cbn [sbind alone Z.ltb Z.compare]. cbn [sbind alone w_file f_data f_pos w_log]. unfold read. cbn [f_data f_pos].
      cbv beta iota zeta. change (0 + TEXTUAL_HEADER_NUM_BYTES) with 3200. rewrite (SL j). reflexivity. }
  destruct KN as (x & i & I & KM & KA). rewrite EM, KM in NF |- *.
  destruct (one_moment d GR BY _ (careful_then _ R (careful_known f1 f2 x bc tc e dim FB) RC) i 0 log ltac:(lia) ltac:(specialize (LL i); lia)) as (j & J & E).
  exists j. split; [lia|]. rewrite E in NF |- *. rewrite <- KA, <- (EA j (LL j)) in NF |- *.
  apply fuel_enough; auto. destruct NF as [NF|NF]; [now left|right; apply NF].
Qed.
End Opening.
