(* Proofs about readers used by several threads. *)
From Coq Require Import ZArith List Bool Lia Arith ZifyBool ZifyNat.
From Verif Require Import Py PyFacts IbmFloat Util Catalog Packing FileIO Text Toolkit Reader ReaderFacts Threads Spec_Threads.
Import ListNotations.
Open Scope list_scope.
Open Scope Z_scope.

(* ------------------------------------------------------------------ *)
(* the steps of a call, taken one after the other, are the call *)
Lemma run_then {A B} (f : A -> B) (p : prog A) : forall s, run_prog (then_ f p) s = (rmap f (fst (run_prog p s)), snd (run_prog p s)).
Proof.
  induction p as [r|n k IH|n k IH|k IH|u k IH]; intros s; cbn [then_ run_prog]; auto.
  - destruct (seek n (s_file s)) as [x fl]. apply IH.
  - destruct (read_opt (Some n) (s_file s)) as [x fl]. apply IH.
Qed.
Lemma run_memo {A} (get : memo -> option A) put comp s : (forall m a, get (put m a) = Some a) -> run_prog (memo_prog get put comp) s = memoised get put comp s.
Proof.
  intros G. unfold memo_prog, memoised. cbn [run_prog]. destruct (get (s_memo s)) as [a|] eqn:E.
  - cbn [run_prog]. now rewrite E.
  - destruct comp as [a|y]; cbn [run_prog s_memo]; [now rewrite G|reflexivity].
Qed.
Lemma run_samples native r k a b s : run_prog (samples_prog native r k a b) s =
  let (x, f) := rd_trace_samples native r k a b (s_file s) in (x, mk_session (s_memo s) f).
Proof.
  unfold samples_prog, rd_trace_samples. destruct s as [m fl]. cbn [s_memo s_file].
  destruct (negb _); [reflexivity|]. unfold ibind at 1, lift at 1. destruct (rd_num_trace_samples r k) as [n|y]; [|reflexivity]. cbv zeta.
  destruct (negb _); [reflexivity|]. destruct (negb _); [reflexivity|]. unfold ibind at 1, lift at 1. destruct (sample_format (rd_binary r)) as [t|y]; [|reflexivity].
  unfold ibind at 1, lift at 1. destruct (cat1_get (rd_offsets r) k) as [o|y]; [|reflexivity].
  unfold seek_read, read_binary_values. unfold ibind at 1, ret at 1. cbn [run_prog s_file].
  unfold ibind at 1. destruct (seek _ fl) as [[u|y] fl']; [|reflexivity]. cbn [run_prog s_file s_memo].
  unfold ibind at 1. destruct (read_opt _ fl') as [[buf|y] fl'']; [|reflexivity]. cbn [run_prog s_file s_memo].
  destruct (zlen buf <? _); [reflexivity|]. unfold ibind, lift. destruct (unpack_samples _ _ _ _ _) as [vs|y]; [|reflexivity]. cbn [bind]. now destruct (zlen vs =? _).
Qed.
Lemma run_header r k o s : run_prog (header_prog r k o) s =
  let (x, f) := rd_trace_header r k o (s_file s) in (x, mk_session (s_memo s) f).
Proof.
  unfold header_prog, rd_trace_header. destruct s as [m fl]. cbn [s_memo s_file].
  destruct (negb _); [reflexivity|]. unfold ibind at 1, lift at 1. destruct (cat1_get (rd_offsets r) k) as [p|y]; [|reflexivity].
  unfold seek_read, read_trace_header. unfold ibind at 1, ret at 1. cbn [run_prog s_file].
  unfold ibind at 1. destruct (seek _ fl) as [[u|y] fl']; [|reflexivity]. cbn [run_prog s_file s_memo].
  unfold ibind at 1. change (read TRACE_HEADER_NUM_BYTES fl') with (read_opt (Some TRACE_HEADER_NUM_BYTES) fl').
  destruct (read_opt _ fl') as [[buf|y] fl'']; reflexivity.
Qed.
Lemma run_call native r c s : run_prog (prog_of native r c) s = exec native r c s.
Proof.
  destruct c; cbn [prog_of exec]; try (destruct s; reflexivity); rewrite run_then;
    try (rewrite run_samples; unfold uses_file; destruct (rd_trace_samples native r _ _ _ (s_file s)); reflexivity);
    try (rewrite run_header; unfold uses_file; destruct (rd_trace_header r _ _ (s_file s)); reflexivity);
    (rewrite run_memo by reflexivity; reflexivity).
Qed.

(* ------------------------------------------------------------------ *)
(* what other threads may do in between *)
Record grown (m m' : memo) : Prop := mk_grown {
  gr_max : forall v, m_max m = Some v -> m_max m' = Some v;
  gr_inline : forall v, m_inline m = Some v -> m_inline m' = Some v;
  gr_xline : forall v, m_xline m = Some v -> m_xline m' = Some v;
  gr_cdp : forall v, m_cdp m = Some v -> m_cdp m' = Some v }.
Lemma grown_refl m : grown m m.
Proof. now split. Qed.
Lemma grown_trans a b c : grown a b -> grown b c -> grown a c.
Proof. intros [] []. split; auto. Qed.

(* The rest p of a call ends with the answer a, if nobody else uses the file f. *)
Fixpoint safe {A} (r : reader) (a : res A) (p : prog A) (f : file) (m : memo) : Prop :=
  match p with
  | Done x => x = a
  | Seek q k => safe r a (k (fst (seek q f))) (snd (seek q f)) m
  | Read n k => safe r a (k (fst (read_opt (Some n) f))) (snd (read_opt (Some n) f)) m
  | Load k => forall m', grown m m' -> memo_ok r m' -> safe r a (k m') f m'
  | Store u k => forall m', grown m m' -> memo_ok r m' -> memo_ok r (u m') /\ grown m' (u m') /\ safe r a k f (u m')
  end.
Lemma safe_grown {A} r (a : res A) p : forall f m m', grown m m' -> safe r a p f m -> safe r a p f m'.
Proof.
  induction p as [x|q k IH|n k IH|k IH|u k IH]; intros f m m' G S; cbn [safe] in *; auto.
  - eapply IH; eauto.
  - eapply IH; eauto.
  - intros m2 G2 M2. apply S; [eapply grown_trans; eauto|exact M2].
  - intros m2 G2 M2. apply S; [eapply grown_trans; eauto|exact M2].
Qed.
(* a program without seeks and reads *)
Fixpoint file_free {A} (p : prog A) : Prop :=
  match p with Done _ => True | Seek _ _ | Read _ _ => False | Load k => forall m, file_free (k m) | Store _ k => file_free k end.
(* at most n steps to the end *)
Fixpoint short {A} (p : prog A) (n : nat) : Prop :=
  match p with
  | Done _ => True
  | Seek _ k => match n with O => False | S n => forall r, short (k r) n end
  | Read _ k => match n with O => False | S n => forall r, short (k r) n end
  | Load k => match n with O => False | S n => forall m, short (k m) n end
  | Store _ k => match n with O => False | S n => short k n end
  end.

Lemma safe_then {A B} (g : A -> B) r a (p : prog A) : forall f m, safe r a p f m -> safe r (rmap g a) (then_ g p) f m.
Proof.
  induction p as [x|q k IH|n k IH|k IH|u k IH]; intros f m S; cbn [safe then_] in *; auto.
  - now subst.
  - intros m' G M. destruct (S m' G M) as (S1 & S2 & S3). auto.
Qed.
Lemma free_then {A B} (g : A -> B) (p : prog A) : file_free p -> file_free (then_ g p).
Proof. induction p as [x|q k IH|n k IH|k IH|u k IH]; cbn; auto. Qed.
Lemma short_then {A B} (g : A -> B) (p : prog A) : forall n, short p n -> short (then_ g p) n.
Proof. induction p as [x|q k IH|n k IH|k IH|u k IH]; intros [|l]; cbn; auto. Qed.

Lemma memo_safe {A} r (get : memo -> option A) put comp : (forall m a, get (put m a) = Some a) ->
  (forall m v, memo_ok r m -> get m = Some v -> comp = Ok v) -> (forall m m' v, grown m m' -> get m = Some v -> get m' = Some v) ->
  (forall m v, memo_ok r m -> comp = Ok v -> memo_ok r (put m v) /\ grown m (put m v)) ->
  forall f m, safe r comp (memo_prog get put comp) f m.
Proof.
  intros G K GR P f m. unfold memo_prog. cbn [safe]. intros m1 _ M1. destruct (get m1) as [v|] eqn:E.
  - cbn [safe]. intros m2 G2 M2. rewrite (GR m1 m2 v G2 E). cbn [safe]. symmetry. eauto.
  - destruct comp as [v|y]; cbn [safe]; [|reflexivity]. intros m2 G2 M2. destruct (P m2 v M2 eq_refl) as (P1 & P2). split; [exact P1|]. split; [exact P2|].
    intros m3 G3 M3. rewrite (GR (put m2 v) m3 v G3 (G m2 v)). reflexivity.
Qed.
Lemma memo_prog_free {A} (get : memo -> option A) put comp : file_free (memo_prog get put comp).
Proof. unfold memo_prog. cbn. intros m. destruct (get m); [cbn; intros m'; now destruct (get m')|]. destruct comp; cbn; auto. intros m'. now destruct (get m'). Qed.
Lemma memo_short {A} (get : memo -> option A) put comp : short (memo_prog get put comp) 3.
Proof. unfold memo_prog. cbn. intros m. destruct (get m); [cbn; intros m'; now destruct (get m')|]. destruct comp; cbn; auto. intros m'. now destruct (get m'). Qed.

(* a program without attributes: it is safe if it gives the answer *)
Lemma seek_read_safe {A} r pos n (k : list Z -> res A) f m : safe r (fst (run_prog (seek_read pos n k) (mk_session m f))) (seek_read pos n k) f m.
Proof.
  unfold seek_read. cbn [safe run_prog s_file s_memo]. destruct (seek pos f) as [[u|y] f']; cbn [fst snd safe run_prog s_file s_memo]; [|reflexivity].
  destruct (read_opt (Some n) f') as [[b|y] f'']; reflexivity.
Qed.
Lemma seek_read_short {A} pos n (k : list Z -> res A) : short (seek_read pos n k) 3.
Proof. unfold seek_read. cbn. intros [u|y]; cbn; auto. intros [b|y]; exact I. Qed.
Lemma samples_safe native r k a b f m : safe r (fst (rd_trace_samples native r k a b f)) (samples_prog native r k a b) f m.
Proof.
  replace (fst (rd_trace_samples native r k a b f)) with (fst (run_prog (samples_prog native r k a b) (mk_session m f))) by (rewrite run_samples; cbn [s_file]; now destruct (rd_trace_samples native r k a b f)).
  unfold samples_prog. destruct (negb _); [reflexivity|]. destruct (rd_num_trace_samples r k) as [n|y]; [|reflexivity]. cbv zeta.
  destruct (negb _); [reflexivity|]. destruct (negb _); [reflexivity|]. destruct (sample_format _) as [t|y]; [|reflexivity].
  destruct (cat1_get _ _) as [o|y]; [|reflexivity]. apply seek_read_safe.
Qed.
Lemma header_safe r k o f m : safe r (fst (rd_trace_header r k o f)) (header_prog r k o) f m.
Proof.
  replace (fst (rd_trace_header r k o f)) with (fst (run_prog (header_prog r k o) (mk_session m f))) by (rewrite run_header; cbn [s_file]; now destruct (rd_trace_header r k o f)).
  unfold header_prog. destruct (negb _); [reflexivity|]. destruct (cat1_get _ _) as [p|y]; [|reflexivity]. apply seek_read_safe.
Qed.
Lemma samples_short native r k a b : short (samples_prog native r k a b) 3.
Proof.
  unfold samples_prog. destruct (negb _); [exact I|]. destruct (rd_num_trace_samples r k) as [n|y]; [|exact I]. cbv zeta.
  destruct (negb _); [exact I|]. destruct (negb _); [exact I|]. destruct (sample_format _) as [t|y]; [|exact I].
  destruct (cat1_get _ _) as [o|y]; [|exact I]. apply seek_read_short.
Qed.
Lemma header_short r k o : short (header_prog r k o) 3.
Proof. unfold header_prog. destruct (negb _); [exact I|]. destruct (cat1_get _ _) as [p|y]; [|exact I]. apply seek_read_short. Qed.

Lemma call_safe native r c f m q : safe r (fst (exec native r c (mk_session no_memo (mk_file (f_data f) q)))) (prog_of native r c) f m.
Proof.
  assert (PM : forall m v, memo_ok r m -> rd_max_num_trace_samples r = Ok v -> memo_ok r (put_max m v) /\ grown m (put_max m v)).
  { intros m0 v [M1 M2 M3 M4] E. split; split; cbn; auto; intros v' H; [congruence|apply M1 in H; congruence]. }
  assert (PI : forall m v, memo_ok r m -> rd_inline_numbers r = Ok v -> memo_ok r (put_inline m v) /\ grown m (put_inline m v)).
  { intros m0 v [M1 M2 M3 M4] E. split; split; cbn; auto; intros v' H; [congruence|apply M2 in H; congruence]. }
  assert (PX : forall m v, memo_ok r m -> rd_xline_numbers r = Ok v -> memo_ok r (put_xline m v) /\ grown m (put_xline m v)).
  { intros m0 v [M1 M2 M3 M4] E. split; split; cbn; auto; intros v' H; [congruence|apply M3 in H; congruence]. }
  assert (PC : forall m v, memo_ok r m -> rd_cdp_numbers r = Ok v -> memo_ok r (put_cdp m v) /\ grown m (put_cdp m v)).
  { intros m0 v [M1 M2 M3 M4] E. split; split; cbn; auto; intros v' H; [congruence|apply M4 in H; congruence]. }
  assert (SM : forall B (g : Z -> B) f m, safe r (rmap g (rd_max_num_trace_samples r)) (then_ g (memo_prog m_max put_max (rd_max_num_trace_samples r))) f m).
  { intros B g f0 m0. apply safe_then, memo_safe; auto; [intros m1 v [M1 M2 M3 M4]; apply M1|intros m1 m2 v [G1 G2 G3 G4]; apply G1]. }
  assert (SI : forall B (g : sseq -> B) f m, safe r (rmap g (rd_inline_numbers r)) (then_ g (memo_prog m_inline put_inline (rd_inline_numbers r))) f m).
  { intros B g f0 m0. apply safe_then, memo_safe; auto; [intros m1 v [M1 M2 M3 M4]; apply M2|intros m1 m2 v [G1 G2 G3 G4]; apply G2]. }
  assert (SX : forall B (g : sseq -> B) f m, safe r (rmap g (rd_xline_numbers r)) (then_ g (memo_prog m_xline put_xline (rd_xline_numbers r))) f m).
  { intros B g f0 m0. apply safe_then, memo_safe; auto; [intros m1 v [M1 M2 M3 M4]; apply M3|intros m1 m2 v [G1 G2 G3 G4]; apply G3]. }
  assert (SC : forall B (g : sseq -> B) f m, safe r (rmap g (rd_cdp_numbers r)) (then_ g (memo_prog m_cdp put_cdp (rd_cdp_numbers r))) f m).
  { intros B g f0 m0. apply safe_then, memo_safe; auto; [intros m1 v [M1 M2 M3 M4]; apply M4|intros m1 m2 v [G1 G2 G3 G4]; apply G4]. }
  assert (ME : forall A (get : memo -> option A) put comp, get no_memo = None -> fst (memoised get put comp (mk_session no_memo (mk_file (f_data f) q))) = comp).
  { intros A get put comp G. unfold memoised. cbn [s_memo]. rewrite G. now destruct comp. }
  destruct f as [d p]. cbn [f_data] in *.
  destruct c; cbn [prog_of exec]; try reflexivity; unfold answers, uses_file; cbn [fst s_file];
    try (rewrite ME by reflexivity; auto; fail).
  - destruct (rd_trace_samples native r k start stop (mk_file d q)) as [v f'] eqn:E. cbn [fst].
    replace v with (fst (rd_trace_samples native r k start stop (mk_file d p))); [apply safe_then, samples_safe|].
    rewrite (proj1 (positionless_samples native r k start stop d p q)), E. reflexivity.
  - destruct (rd_trace_header r k override (mk_file d q)) as [v f'] eqn:E. cbn [fst].
    replace v with (fst (rd_trace_header r k override (mk_file d p))); [apply safe_then, header_safe|].
    rewrite (proj1 (positionless_header r k override d p q)), E. reflexivity.
Qed.
Lemma call_free native r c : touches c \/ file_free (prog_of native r c).
Proof. destruct c; cbn [touches prog_of]; try (left; exact I); right; try exact I; apply free_then, memo_prog_free. Qed.
Lemma call_short native r c : short (prog_of native r c) 3.
Proof. destruct c; cbn [prog_of]; try exact I; apply short_then; try apply memo_short; [apply samples_short|apply header_short]. Qed.

(* ------------------------------------------------------------------ *)
(* schedules *)
Lemma upd_same {A} (f : nat -> A) n a : upd f n a n = a.
Proof. unfold upd. now rewrite Nat.eqb_refl. Qed.
Lemma upd_other {A} (f : nat -> A) n a m : m <> n -> upd f n a m = f m.
Proof. intros N. unfold upd. apply Nat.eqb_neq in N. now rewrite N. Qed.
Lemma seek_data q f : f_data (snd (seek q f)) = f_data f.
Proof. unfold seek. now destruct (q <? 0). Qed.
Lemma read_data n f : f_data (snd (read_opt (Some n) f)) = f_data f.
Proof. unfold read_opt. now destruct (n <? 0). Qed.

Section Schedule.
Variables (native : endian) (rs : nat -> handle) (files : nat -> file) (calls : nat -> list (nat * call)).
Let ans := alone native rs files.

(* a program that does not use attributes *)
Fixpoint memo_free {A} (p : prog A) : Prop :=
  match p with Done _ => True | Seek _ k => forall r, memo_free (k r) | Read _ k => forall r, memo_free (k r) | Load _ | Store _ _ => False end.
Lemma memo_free_then {A B} (g : A -> B) (p : prog A) : memo_free p -> memo_free (then_ g p).
Proof. induction p as [x|q k IH|n k IH|k IH|u k IH]; cbn; auto. Qed.
Lemma touches_free r c : touches c -> memo_free (prog_of native r c).
Proof.
  assert (SR : forall A pos n (k : list Z -> res A), memo_free (seek_read pos n k)). { intros A pos n k. cbn. intros [u|y]; cbn; auto. intros [b|y]; exact I. }
  destruct c; cbn [touches prog_of]; try tauto; intros _; apply memo_free_then.
  - unfold samples_prog. destruct (negb _); [exact I|]. destruct (rd_num_trace_samples r k) as [n|y]; [|exact I]. cbv zeta.
    destruct (negb _); [exact I|]. destruct (negb _); [exact I|]. destruct (sample_format _) as [t|y]; [|exact I].
    destruct (cat1_get _ _) as [o|y]; [|exact I]. apply SR.
  - unfold header_prog. destruct (negb _); [exact I|]. destruct (cat1_get _ _) as [p|y]; [|exact I]. apply SR.
Qed.
Lemma touches_dec c : touches c \/ ~ touches c.
Proof. destruct c; cbn; auto. Qed.

Lemma untouched r c f f' : ~ touches c -> fst (exec native r c (mk_session no_memo f)) = fst (exec native r c (mk_session no_memo f')).
Proof.
  destruct c; cbn [touches exec]; intros T; try tauto; try reflexivity; unfold answers, memoised; cbn [s_memo m_max m_inline m_xline m_cdp no_memo fst].
  - now destruct (rd_max_num_trace_samples r).
  - now destruct (rd_inline_numbers r).
  - now destruct (rd_inline_numbers r).
  - now destruct (rd_xline_numbers r).
  - now destruct (rd_xline_numbers r).
  - now destruct (rd_cdp_numbers r).
Qed.

(* Thread i is at a point of its calls.  The rest of the call it is in gives the
   right answer if the call does not read from the file, or if good. *)
Definition right_ (good : bool) (nc : nat * call) (a : res answer) : Prop := good = true \/ ~ touches (snd nc) -> a = ans nc.
Definition at_point (good : bool) (i : nat) (s : state) : Prop :=
  let t := st_threads s i in
  match th_now t with
  | None => exists pre, calls i = pre ++ th_todo t /\ Forall2 (right_ good) pre (th_done t)
  | Some (n, p) => exists pre c, calls i = pre ++ (n, c) :: th_todo t /\ Forall2 (right_ good) pre (th_done t) /\
      ((touches c /\ memo_free p /\ (good = true -> safe (hd_reader (rs n)) (ans (n, c)) p (st_files s (hd_file (rs n))) (st_memos s n))) \/
       (file_free p /\ forall f, safe (hd_reader (rs n)) (ans (n, c)) p f (st_memos s n)))
  end.
Definition stores_ok (s : state) : Prop :=
  (forall j, f_data (st_files s j) = f_data (files j)) /\ (forall n, memo_ok (hd_reader (rs n)) (st_memos s n)).

Lemma step_stores k s : stores_ok s -> at_point false k s -> let s' := step native rs k s in
  stores_ok s' /\ (forall n, grown (st_memos s n) (st_memos s' n)) /\ (forall i, i <> k -> st_threads s' i = st_threads s i) /\
  forall j, st_files s' j = st_files s j \/ exists n c, In (n, c) (calls k) /\ touches c /\ hd_file (rs n) = j.
Proof.
  intros (SF & SM) AP. cbv zeta. unfold step, at_point in *. set (t := st_threads s k) in *.
  assert (TH : forall x i, i <> k -> upd (st_threads s) k x i = st_threads s i) by (intros x i N; now apply upd_other).
  destruct (th_now t) as [[n p]|].
  2:{ destruct (th_todo t) as [|[n c] cs]; cbn [st_files st_memos st_threads]; (split; [now split|]); (split; [intros; apply grown_refl|]); split; auto. }
  destruct AP as (pre & c & EC & _ & AP).
  assert (IN : In (n, c) (calls k)) by (rewrite EC; apply in_elt).
  destruct p as [a|q pk|m pk|pk|u pk].
  - cbn [st_files st_memos st_threads]. split; [now split|]. split; [intros; apply grown_refl|]. split; auto.
  - destruct AP as [(TC & MF & _)|(FF & _)]; [|destruct FF]. pose proof (seek_data q (st_files s (hd_file (rs n)))) as D. destruct (seek q (st_files s (hd_file (rs n)))) as [x f].
    cbn [st_files st_memos st_threads fst snd] in *. split; [split; [|exact SM]|].
    + intros j. cbn [st_files]. destruct (Nat.eq_dec j (hd_file (rs n))) as [->|N]; [rewrite upd_same, D; apply SF|rewrite upd_other by exact N; apply SF].
    + split; [intros; apply grown_refl|]. split; [auto|]. intros j. destruct (Nat.eq_dec j (hd_file (rs n))) as [->|N]; [right; eauto|left; now apply upd_other].
  - destruct AP as [(TC & MF & _)|(FF & _)]; [|destruct FF]. pose proof (read_data m (st_files s (hd_file (rs n)))) as D. destruct (read_opt (Some m) (st_files s (hd_file (rs n)))) as [x f].
    cbn [st_files st_memos st_threads fst snd] in *. split; [split; [|exact SM]|].
    + intros j. cbn [st_files]. destruct (Nat.eq_dec j (hd_file (rs n))) as [->|N]; [rewrite upd_same, D; apply SF|rewrite upd_other by exact N; apply SF].
    + split; [intros; apply grown_refl|]. split; [auto|]. intros j. destruct (Nat.eq_dec j (hd_file (rs n))) as [->|N]; [right; eauto|left; now apply upd_other].
  - cbn [st_files st_memos st_threads]. split; [now split|]. split; [intros; apply grown_refl|]. split; auto.
  - destruct AP as [(_ & MF & _)|(FF & SA)]; [destruct MF|]. cbn [st_files st_memos st_threads].
    destruct (SA (st_files s 0%nat) (st_memos s n) (grown_refl _) (SM n)) as (M' & G' & _).
    split; [split; [exact SF|]|].
    + intros n'. cbn [st_memos]. destruct (Nat.eq_dec n' n) as [->|N]; [now rewrite upd_same|rewrite upd_other by exact N; apply SM].
    + split; [|split; auto]. intros n'. destruct (Nat.eq_dec n' n) as [->|N]; [now rewrite upd_same|rewrite upd_other by exact N; apply grown_refl].
Qed.

Lemma step_own good k s : stores_ok s -> at_point good k s -> at_point good k (step native rs k s).
Proof.
  intros (SF & SM) AP. unfold step. unfold at_point in AP. set (t := st_threads s k) in *.
  destruct (th_now t) as [[n p]|] eqn:NOW.
  2:{ destruct AP as (pre & EC & D). destruct (th_todo t) as [|[n c] cs] eqn:TD.
      - unfold at_point. fold t. rewrite NOW, TD. eauto.
      - unfold at_point. cbn [st_threads st_files st_memos]. rewrite upd_same. cbn [th_now th_todo th_done]. exists pre, c. split; [exact EC|]. split; [exact D|].
        destruct (touches_dec c) as [TC|TC].
        + left. split; [exact TC|]. split; [now apply touches_free|]. intros _. unfold ans, alone. cbn [fst snd]. rewrite <- (SF (hd_file (rs n))). apply call_safe.
        + right. split; [destruct (call_free native (hd_reader (rs n)) c); tauto|]. intros f. unfold ans, alone. cbn [fst snd].
          rewrite (untouched _ c _ (mk_file (f_data f) 0) TC). apply call_safe. }
  destruct AP as (pre & c & EC & D & AP). destruct p as [a|q pk|m pk|pk|u pk].
  - unfold at_point. cbn [st_threads st_files st_memos]. rewrite upd_same. cbn [th_now th_todo th_done]. exists (pre ++ [(n, c)]). split; [now rewrite EC, <- app_assoc|].
    apply Forall2_app; [exact D|]. constructor; [|constructor]. intros G. cbn [snd] in G. destruct AP as [(TC & _ & SA)|(_ & SA)]; [destruct G as [G|G]; [exact (SA G)|tauto]|exact (SA (st_files s 0%nat))].
  - destruct AP as [(TC & MF & SA)|(FF & _)]; [|destruct FF]. cbn [safe] in SA. destruct (seek q (st_files s (hd_file (rs n)))) as [x f] eqn:E.
    unfold at_point. cbn [st_threads st_files st_memos fst snd] in *. rewrite upd_same. cbn [th_now th_todo th_done]. exists pre, c. split; [exact EC|]. split; [exact D|].
    left. split; [exact TC|]. split; [apply MF|]. rewrite upd_same. exact SA.
  - destruct AP as [(TC & MF & SA)|(FF & _)]; [|destruct FF]. cbn [safe] in SA. destruct (read_opt (Some m) (st_files s (hd_file (rs n)))) as [x f] eqn:E.
    unfold at_point. cbn [st_threads st_files st_memos fst snd] in *. rewrite upd_same. cbn [th_now th_todo th_done]. exists pre, c. split; [exact EC|]. split; [exact D|].
    left. split; [exact TC|]. split; [apply MF|]. rewrite upd_same. exact SA.
  - destruct AP as [(_ & MF & _)|(FF & SA)]; [destruct MF|]. unfold at_point. cbn [st_threads st_files st_memos]. rewrite upd_same. cbn [th_now th_todo th_done].
    exists pre, c. split; [exact EC|]. split; [exact D|]. right. split; [apply FF|]. intros f. apply (SA f); [apply grown_refl|apply SM].
  - destruct AP as [(_ & MF & _)|(FF & SA)]; [destruct MF|]. unfold at_point. cbn [st_threads st_files st_memos]. rewrite upd_same. cbn [th_now th_todo th_done].
    exists pre, c. split; [exact EC|]. split; [exact D|]. right. split; [apply FF|]. intros f. rewrite upd_same. apply (SA f); [apply grown_refl|apply SM].
Qed.

Lemma step_other good i k s : (good = true -> private rs calls i) -> i <> k -> stores_ok s -> at_point false k s -> at_point good i s -> at_point good i (step native rs k s).
Proof.
  intros PR N SO AK AP. destruct (step_stores k s SO AK) as (_ & GR & TH & FI). unfold at_point in *. rewrite (TH i N).
  destruct (th_now (st_threads s i)) as [[n p]|]; [|exact AP]. destruct AP as (pre & c & EC & D & AP). exists pre, c. split; [exact EC|]. split; [exact D|].
  destruct AP as [(TC & MF & SA)|(FF & SA)]; [left|right].
  - split; [exact TC|]. split; [exact MF|]. intros G. destruct (FI (hd_file (rs n))) as [->|(n' & c' & IN & TC' & EF)].
    + eapply safe_grown; [apply GR|now apply SA].
    + exfalso. apply (PR G k n n' c c'); auto. rewrite EC. apply in_elt.
  - split; [exact FF|]. intros f. eapply safe_grown; [apply GR|apply SA].
Qed.

Lemma schedule_inv good i : (good = true -> private rs calls i) -> forall schedule, let s := steps native rs schedule (begin files calls) in
  stores_ok s /\ (forall k, at_point false k s) /\ at_point good i s.
Proof.
  intros PR schedule. unfold steps.
  assert (B : stores_ok (begin files calls) /\ (forall k, at_point false k (begin files calls)) /\ at_point good i (begin files calls)).
  { split; [split; [reflexivity|intros n; cbn; now split]|]. assert (Q : forall g k, at_point g k (begin files calls)) by (intros g k; exists []; split; [reflexivity|constructor]). auto. }
  revert B. generalize (begin files calls). induction schedule as [|k sch IH]; intros s (B1 & B2 & B3); [auto|]. cbn [fold_left]. apply IH.
  split; [apply step_stores; auto|]. split.
  - intros k'. destruct (Nat.eq_dec k' k) as [->|N]; [now apply step_own|]. apply step_other; auto. discriminate.
  - destruct (Nat.eq_dec i k) as [<-|N]; [now apply step_own|now apply step_other].
Qed.

Lemma Forall2_len {A B} (R : A -> B -> Prop) l l' : Forall2 R l l' -> length l = length l'.
Proof. induction 1; cbn; congruence. Qed.
Lemma Forall2_firstn {A B} (R : A -> B -> Prop) pre l rest : Forall2 R pre l -> Forall2 R (firstn (length l) (pre ++ rest)) l.
Proof.
  intros F. pose proof (Forall2_len _ _ _ F) as L. rewrite <- L, firstn_app, Nat.sub_diag, firstn_all, firstn_O, app_nil_r. exact F.
Qed.
Lemma right_map pre l : Forall2 (right_ true) pre l -> l = map ans pre.
Proof. induction 1 as [|nc a pre l R _ IH]; [reflexivity|]. cbn. f_equal; [|exact IH]. apply R. now left. Qed.

Lemma answered good i schedule : (good = true -> private rs calls i) -> let t := st_threads (steps native rs schedule (begin files calls)) i in
  Forall2 (right_ good) (firstn (length (th_done t)) (calls i)) (th_done t).
Proof.
  intros PR. destruct (schedule_inv good i PR schedule) as (_ & _ & AP). cbv zeta. unfold at_point in AP.
  set (t := st_threads _ i) in *. assert (E : exists pre rest, calls i = pre ++ rest /\ Forall2 (right_ good) pre (th_done t)).
  { destruct (th_now t) as [[n p]|]; [destruct AP as (pre & c & EC & D & _)|destruct AP as (pre & EC & D)]; eauto. }
  destruct E as (pre & rest & EC & D). rewrite EC. now apply Forall2_firstn.
Qed.
Lemma threads_right i schedule : private rs calls i -> let t := st_threads (steps native rs schedule (begin files calls)) i in
  th_done t = map ans (firstn (length (th_done t)) (calls i)).
Proof. intros PR. apply right_map. exact (answered true i schedule (fun _ => PR)). Qed.
Lemma threads_attributes i schedule : let t := st_threads (steps native rs schedule (begin files calls)) i in
  Forall2 (fun nc a => ~ touches (snd nc) -> a = ans nc) (firstn (length (th_done t)) (calls i)) (th_done t).
Proof.
  cbv zeta. generalize (answered false i schedule ltac:(discriminate)). cbv zeta. generalize (firstn (length (th_done (st_threads (steps native rs schedule (begin files calls)) i))) (calls i)).
  generalize (th_done (st_threads (steps native rs schedule (begin files calls)) i)). intros l l'. induction 1 as [|nc a pre rest R _ IH]; constructor; [|exact IH]. intros N. apply R. now right.
Qed.
Lemma files_kept schedule j : f_data (st_files (steps native rs schedule (begin files calls)) j) = f_data (files j).
Proof. destruct (schedule_inv false 0%nat ltac:(discriminate) schedule) as ((SF & _) & _). apply SF. Qed.

(* a thread ends *)
Definition left_ (t : thread) (b : nat) : Prop :=
  match th_now t with
  | None => b = (5 * length (th_todo t))%nat
  | Some (_, p) => exists l, short p l /\ b = (5 * length (th_todo t) + 1 + l)%nat
  end.
Lemma step_left k s b : left_ (st_threads s k) b -> exists b', left_ (st_threads (step native rs k s) k) b' /\ (b' <= b - 1)%nat.
Proof.
  unfold left_, step. set (t := st_threads s k). destruct (th_now t) as [[n p]|] eqn:NOW.
  - intros (l & SH & ->). destruct p as [a|q pk|m pk|pk|u pk].
    + cbn [st_threads]. rewrite upd_same. cbn [th_now th_todo]. eexists. split; [reflexivity|lia].
    + destruct (seek q _) as [x f]. cbn [st_threads]. rewrite upd_same. cbn [th_now th_todo]. destruct l as [|l]; [destruct SH|]. eexists. split; [exists l; split; [apply SH|reflexivity]|lia].
    + destruct (read_opt (Some m) _) as [x f]. cbn [st_threads]. rewrite upd_same. cbn [th_now th_todo]. destruct l as [|l]; [destruct SH|]. eexists. split; [exists l; split; [apply SH|reflexivity]|lia].
    + cbn [st_threads]. rewrite upd_same. cbn [th_now th_todo]. destruct l as [|l]; [destruct SH|]. eexists. split; [exists l; split; [apply SH|reflexivity]|lia].
    + cbn [st_threads]. rewrite upd_same. cbn [th_now th_todo]. destruct l as [|l]; [destruct SH|]. eexists. split; [exists l; split; [apply SH|reflexivity]|lia].
  - intros ->. destruct (th_todo t) as [|[n c] cs] eqn:TD.
    + fold t. rewrite NOW, TD. exists 0%nat. split; [reflexivity|lia].
    + cbn [st_threads]. rewrite upd_same. cbn [th_now th_todo]. eexists. split; [exists 3%nat; split; [apply call_short|reflexivity]|]. cbn [length]. lia.
Qed.
Lemma step_thread_other k i s : i <> k -> st_threads (step native rs k s) i = st_threads s i.
Proof.
  intros N. unfold step. destruct (th_now (st_threads s k)) as [[n p]|].
  - destruct p as [a|q pk|m pk|pk|u pk]; [|destruct (seek q _) as [x f]|destruct (read_opt (Some m) _) as [x f]| |]; cbn [st_threads]; now apply upd_other.
  - destruct (th_todo (st_threads s k)) as [|[n c] cs]; [reflexivity|]. cbn [st_threads]. now apply upd_other.
Qed.
Lemma steps_left i : forall schedule s b, left_ (st_threads s i) b -> exists b', left_ (st_threads (steps native rs schedule s) i) b' /\ (b' <= b - count_occ Nat.eq_dec schedule i)%nat.
Proof.
  unfold steps. induction schedule as [|k sch IH]; intros s b L.
  - exists b. split; [exact L|]. cbn. lia.
  - cbn [fold_left count_occ]. destruct (Nat.eq_dec k i) as [->|N].
    + destruct (step_left i s b L) as (b1 & L1 & B1). destruct (IH _ _ L1) as (b2 & L2 & B2). exists b2. split; [exact L2|lia].
    + apply IH. rewrite step_thread_other by auto. exact L.
Qed.
Lemma threads_finish i schedule : (5 * length (calls i) <= count_occ Nat.eq_dec schedule i)%nat ->
  length (th_done (st_threads (steps native rs schedule (begin files calls)) i)) = length (calls i).
Proof.
  intros C. destruct (schedule_inv false i ltac:(discriminate) schedule) as (_ & _ & AP).
  destruct (steps_left i schedule (begin files calls) (5 * length (calls i)) eq_refl) as (b & L & B).
  unfold at_point, left_ in *. set (t := st_threads _ i) in *. destruct (th_now t) as [[n p]|].
  - destruct L as (l & _ & E). lia.
  - destruct AP as (pre & EC & D). assert (th_todo t = []) as TD by (destruct (th_todo t); [reflexivity|cbn in L; lia]).
    rewrite TD, app_nil_r in EC. rewrite EC. symmetry. exact (Forall2_len _ _ _ D).
Qed.
Lemma threads_end i schedule : private rs calls i -> (5 * length (calls i) <= count_occ Nat.eq_dec schedule i)%nat ->
  th_done (st_threads (steps native rs schedule (begin files calls)) i) = map ans (calls i).
Proof. intros PR C. rewrite (threads_right i schedule PR), (threads_finish i schedule C), firstn_all. reflexivity. Qed.
End Schedule.

Lemma shared native readers acts n c (d : list Z) q q' :
  let s := fold_left (act native readers) acts (fun _ => no_memo, mk_file d q) in
  fst (exec native (readers n) c (mk_session (fst s n) (snd s))) = fst (exec native (readers n) c (mk_session no_memo (mk_file d q'))) /\ f_data (snd s) = d.
Proof.
  assert (N : forall n, memo_ok (readers n) no_memo) by (split; discriminate).
  assert (G : forall s, (forall n, memo_ok (readers n) (fst s n)) -> f_data (snd s) = d ->
    (forall n, memo_ok (readers n) (fst (fold_left (act native readers) acts s) n)) /\ f_data (snd (fold_left (act native readers) acts s)) = d).
  { induction acts as [|[n' c'|q1] acts IH]; intros s M D; [now split| |]; cbn [fold_left]; apply IH; cbn [act fst snd f_data]; auto.
    - destruct (exec_step native (readers n') c' (mk_session (fst s n') (snd s)) (mk_session (fst s n') (snd s)) d (M n') (M n') D D) as (_ & M' & _).
      intros m. destruct (Nat.eq_dec m n') as [->|X]; [now rewrite upd_same|rewrite upd_other by exact X; apply M].
    - apply (exec_step native (readers n') c' (mk_session (fst s n') (snd s)) (mk_session (fst s n') (snd s)) d (M n') (M n') D D). }
  destruct (G (fun _ => no_memo, mk_file d q) N eq_refl) as (M & D). cbv zeta. split; [|exact D].
  exact (proj1 (exec_step native (readers n) c (mk_session _ _) (mk_session no_memo (mk_file d q')) d (M n) (N n) D eq_refl)).
Qed.
