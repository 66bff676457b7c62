(* Proofs for C143: create_reader with a cache directory while the file grows. *)
From Coq Require Import String ZArith List Bool Lia ZifyBool ZifyNat.
From Verif Require Import Py PyFacts Util Catalog Packing Spec_Packing Formats FileIO Text Spec_Text TextIO Toolkit Reader Spec_Reader ReaderFacts OpenFacts
  Cache Spec_Cache CacheFacts Growing Spec_Growing GrowingFacts Hashing HashingFacts CachedSteps.
Import ListNotations.
Open Scope list_scope.
Open Scope Z_scope.

Lemma attempt_alone {A} (m : steps A) : forall w, alone (attempt m) w = let (r, w') := alone m w in (Ok r, w').
Proof.
  induction m as [r|f IH|f IH|p f IH|n f IH|x y f IH]; intros w; cbn [attempt alone]; try reflexivity; apply IH.
Qed.
Lemma attempt_grown {A} d (m : steps A) : forall i q, grown_end d (attempt m) i q = match grown_end d m i q with (r, i', q') => (Ok r, i', q') end.
Proof. induction m as [r|f IH|f IH|p f IH|n f IH|x y f IH]; intros i q; cbn [attempt grown_end]; cbv zeta; auto. Qed.

Lemma make_alone enc bc tc e dim d q log n : fmt_length bc = Some n -> 0 <= n -> 0 <= q ->
  alone (make_steps (S (length d)) (S (S (length d))) enc bc tc e dim) (mk_world (mk_file d q) log) = make_reader enc bc tc e dim (mk_world (mk_file d q) log).
Proof.
  intros F N Q. unfold make_steps. rewrite alone_bind. destruct enc as [x|].
  - exact (proj1 (is_known x bc tc e dim n (mk_world (mk_file d q) log) F N Q)).
  - rewrite alone_bind. destruct (is_guess (mk_world (mk_file d q) log) Q) as (E & P). assert (K := alone_keeps guess_steps (mk_world (mk_file d q) log)).
    unfold make_reader. unfold wbind at 1. unfold wbind at 1. rewrite E in *. destruct (on_file guess_textual_header_encoding (mk_world (mk_file d q) log)) as [[g|y] w]; cbn [snd] in *; [|reflexivity].
    cbn [alone]. cbn [w_file f_data] in K. pose proof (proj1 (is_known (match g with Some x => x | None => ASCII end) bc tc e dim n w F N P)) as H. cbv zeta in H. rewrite K in H. exact H.
Qed.
Lemma check_alone a eo pr dim d log : alone (check_steps a eo pr dim) (mk_world (mk_file d 0) log) = create_reader_checks a eo pr dim (mk_world (mk_file d 0) log).
Proof.
  unfold check_steps, create_reader_checks. destruct (fa_closed a); [reflexivity|]. destruct (fa_text a); [reflexivity|]. destruct (negb (fa_seekable a)); [reflexivity|].
  cbn [sbind alone w_file f_data]. unfold wbind.
  assert (E : on_file file_length (mk_world (mk_file d 0) log) = (Ok (zlen d), mk_world (mk_file d 0) log)) by reflexivity.
  rewrite E. destruct (zlen d <? REEL_HEADER_NUM_BYTES); [reflexivity|]. destruct eo; [|reflexivity]. destruct pr; try reflexivity;
    destruct (match dim with None => false | Some d => negb (zmem d [1; 2; 3]) end); reflexivity.
Qed.
Lemma checks_same a eo pr dim d log e w : create_reader_checks a eo pr dim (mk_world (mk_file d 0) log) = (Ok e, w) -> w = mk_world (mk_file d 0) log.
Proof.
  rewrite <- check_alone. unfold check_steps. destruct (fa_closed a); [discriminate|]. destruct (fa_text a); [discriminate|]. destruct (negb (fa_seekable a)); [discriminate|].
  cbn [sbind alone w_file f_data]. destruct (zlen d <? REEL_HEADER_NUM_BYTES); [discriminate|]. destruct eo; [|discriminate]. destruct pr; try discriminate;
    destruct (match dim with None => false | Some d => negb (zmem d [1; 2; 3]) end); try discriminate; now intros [= _ <-].
Qed.

Theorem cached_alone c name a d en : (forall bc, class_of en (ca_bc c) = Some bc -> exists n, fmt_length bc = Some n /\ 0 <= n) ->
  exists f, alone (cached_steps (S (length d)) (S (length d)) (S (S (length d))) c name a en) (mk_world (mk_file d 0) []) =
  match create_reader_cached c (mk_handle name a d) en with (o, en') => (Ok (fst o, en'), mk_world f (snd o)) end.
Proof.
  intros FB.
  assert (SELF : forall (w : world), w = mk_world (w_file w) (w_log w)) by (intros []; reflexivity).
  unfold cached_steps, create_reader_cached. cbn [hd_attrs hd_data hd_name]. rewrite alone_bind, attempt_alone, check_alone.
  destruct (create_reader_checks a (ca_endian c) (ca_progress c) (ca_dim c) (mk_world (mk_file d 0) [])) as [[e|y] w] eqn:CH;
    [|cbn [alone fst snd]; exists (w_file w); now rewrite <- SELF].
  pose proof (checks_same _ _ _ _ _ _ _ _ CH) as ->. clear CH.
  destruct (class_of en (ca_bc c)) as [bc|]; [|exists (mk_file d 0); reflexivity]. destruct (class_of en (ca_tc c)) as [tc|]; [|exists (mk_file d 0); reflexivity].
  destruct (FB bc eq_refl) as (n & FN & NN). cbv zeta.
  assert (BS : forall k en, exists f, alone (build_steps (S (length d)) (S (S (length d))) c name bc tc e k en) (mk_world (mk_file d 0) []) =
    match match make_reader (ca_enc c) bc tc e (ca_dim c) (mk_world (mk_file d 0) []) with
            | (Err y, w) => ((Err y, w_log w), en)
            | (Ok r, w) =>
                match match k with
                      | Some k => save_reader k name (f_pos (w_file w)) (ca_bc c) (ca_tc c) r en
                      | None => (Ok tt, en)
                      end with
                | (Err y, en) => ((Err y, w_log w), en)
                | (Ok _, en) => ((Ok (r, Callers), w_log w ++ [(1, 1)]), en)
                end
            end with (o, en') => (Ok (fst o, en'), mk_world f (snd o)) end).
  { clear -FN NN SELF. intros k en. unfold build_steps. rewrite alone_bind, attempt_alone, (make_alone _ _ _ _ _ d 0 [] n FN NN ltac:(lia)).
    destruct (make_reader (ca_enc c) bc tc e (ca_dim c) (mk_world (mk_file d 0) [])) as [[r|y] w]; [|exists (w_file w); cbn [alone fst snd]; now rewrite <- SELF].
    exists (w_file w). destruct k as [k|].
    - cbn [sbind alone]. destruct (save_reader k name (f_pos (w_file w)) (ca_bc c) (ca_tc c) r en) as [[[]|y] en']; cbn [alone fst snd]; [reflexivity|now rewrite <- SELF].
    - reflexivity. }
  assert (CASE : ca_dir c = NoCache \/ ca_dir c <> NoCache) by (destruct (ca_dir c); [now left|right; discriminate|right; discriminate]).
  destruct CASE as [->|ND]; [apply BS|].
  assert (HS : alone (attempt (hash_steps (S (length d)) (hash_args c e))) (mk_world (mk_file d 0) []) = (Ok (Ok (hashed d (hash_args c e))), mk_world (mk_file d 0) [])).
  { rewrite attempt_alone, hash_alone by lia. unfold on_file. cbn [w_file w_log]. rewrite hash_ok. reflexivity. }
  assert (HR : on_file (hash_for_file (hash_args c e)) (mk_world (mk_file d 0) []) = (Ok (hashed d (hash_args c e)), mk_world (mk_file d 0) [])).
  { unfold on_file. cbn [w_file w_log]. rewrite hash_ok. reflexivity. }
  destruct (ca_dir c) as [|dir|dir] eqn:ED; [now contradiction ND| |]; rewrite alone_bind, HS, HR.
  all: destruct (locate_cache_file name _ (hashed d (hash_args c e))) as [[k|]|y]; [|apply BS|exists (mk_file d 0); reflexivity].
  all: destruct (load_reader k en) as [[[[r f]|]|y] en']; [exists (mk_file d 0); reflexivity|apply BS|exists (mk_file d 0); reflexivity].
Qed.

(* --- growing files --- *)
Lemma grown_shift {A} d s (m : steps A) : forall i q, grown_end d m (s + i) q = match grown_end (fun i => d (s + i)%nat) m i q with (r, i', q') => (r, (s + i')%nat, q') end.
Proof.
  induction m as [r|f IH|f IH|p f IH|n f IH|x y f IH]; intros i q; cbn [grown_end]; cbv zeta; try reflexivity; rewrite <- IH; now rewrite Nat.add_succ_r.
Qed.
Lemma grown_on {A} d (m : steps A) : forall i q, (i <= snd (fst (grown_end d m i q)))%nat.
Proof.
  induction m as [r|f IH|f IH|p f IH|n f IH|x y f IH]; intros i q; cbn [grown_end fst snd]; cbv zeta; [lia|..]; (eapply Nat.le_trans; [|apply IH]); lia.
Qed.
Lemma alone_log {A} (p : steps A) : forall f l l', fst (alone p (mk_world f l)) = fst (alone p (mk_world f l')).
Proof.
  induction p as [r|k IH|k IH|p k IH|n k IH|x y k IH]; intros f l l'; cbn [alone w_file w_log]; try reflexivity; try apply IH.
Qed.
Section Cached.
Variable d : nat -> list Z.
Hypothesis GR : growing d.
Lemma hash_grown_end fuel args i q : match grown_end d (hash_steps fuel args) i q with
  | (r, i', q') => (r = Err OutOfFuel /\ (fuel <= length (d i'))%nat) \/ exists j, (i <= j < i')%nat /\ r = Ok (hashed (d j) args) /\ q' = 0 end.
Proof.
  unfold hash_steps, s_seek. change (0 <? 0) with false. cbn [sbind grown_end]. rewrite grown_bind.
  pose proof (chunks_grown d GR fuel (S i) 0 ltac:(unfold zlen; lia)) as C. destruct (grown_end d (chunks_steps fuel) (S i) 0) as [[r i'] q0]. destruct C as (LI & [(-> & F)|(j & J & -> & ->)]).
  - left. split; [reflexivity|]. lia.
  - cbn [sbind grown_end fst]. right. exists j. split; [lia|]. split; reflexivity.
Qed.
Lemma longer i j : (i <= j)%nat -> zlen (d i) <= zlen (d j).
Proof. intros L. destruct (after_it d GR i j L) as (z & ->). rewrite zlen_app. pose proof (zlen_nonneg z). lia. Qed.
Lemma check_grown a eo pr dim : match grown_end d (check_steps a eo pr dim) 0 0 with
  | (Ok e, i', q') => i' = 1%nat /\ q' = 0 /\ eo = Some e /\ (forall j log, create_reader_checks a eo pr dim (mk_world (mk_file (d j) 0) log) = (Ok e, mk_world (mk_file (d j) 0) log)) /\
      (forall f1 f2 enc bc tc s, exists R, open_steps f1 f2 a enc bc tc eo pr dim = AskLength R /\
         R (zlen (d s)) = (step r <- make_steps f1 f2 enc bc tc e dim ;; step _ <- s_report 1 1 ;; Fin (Ok r)))
  | (Err y, _, _) => forall log, fst (create_reader_checks a eo pr dim (mk_world (mk_file (d 0%nat) 0) log)) = Err y end.
Proof.
  assert (G : forall j log, alone (check_steps a eo pr dim) (mk_world (mk_file (d j) 0) log) = create_reader_checks a eo pr dim (mk_world (mk_file (d j) 0) log)) by (intros; apply check_alone).
  unfold check_steps in *. unfold open_steps. destruct (fa_closed a); [intros log; now rewrite <- G|]. destruct (fa_text a); [intros log; now rewrite <- G|]. destruct (negb (fa_seekable a)); [intros log; now rewrite <- G|].
  cbn [sbind alone grown_end w_file f_data] in *. destruct (zlen (d 0%nat) <? REEL_HEADER_NUM_BYTES) eqn:L.
  { intros log. rewrite <- G, L. reflexivity. }
  assert (LJ : forall j, zlen (d j) <? REEL_HEADER_NUM_BYTES = false) by (intros j; pose proof (longer 0 j ltac:(lia)); lia).
  destruct eo as [e|]; [|intros log; rewrite <- G, LJ; reflexivity].
  destruct pr; [| |intros log; rewrite <- G, LJ; reflexivity].
  all: destruct (match dim with None => false | Some d => negb (zmem d [1; 2; 3]) end) eqn:DM; [intros log; rewrite <- G, LJ; reflexivity|].
  all: split; [reflexivity|]; split; [reflexivity|]; split; [reflexivity|]; split; [intros j log; rewrite <- G, LJ; reflexivity|].
  all: intros f1 f2 enc bc tc s; eexists; split; [reflexivity|]; cbv beta; rewrite LJ; reflexivity.
Qed.

Variables (enc : option encoding) (bc tc : fmt).
Hypothesis RD : forall i, readable (d i) enc bc tc.
Lemma make_grown a eo pr dim e s f1 f2 : (forall s, exists R, open_steps f1 f2 a enc bc tc eo pr dim = AskLength R /\
         R (zlen (d s)) = (step r <- make_steps f1 f2 enc bc tc e dim ;; step _ <- s_report 1 1 ;; Fin (Ok r))) ->
  match grown_end d (make_steps f1 f2 enc bc tc e dim) (S s) 0 with
  | (r, i', q') => r <> Err OutOfFuel \/ (forall i, (length (d i) < f1)%nat /\ (S (length (d i)) < f2)%nat) -> exists j, (s <= j <= match r with Ok _ => S i' | Err _ => i' end)%nat /\ forall log, r = fst (create_reader a enc bc tc eo pr dim (mk_world (mk_file (d j) 0) log)) end.
Proof.
  intros OP. destruct (OP s) as (R & ER & RR). set (d' := fun i => d (s + i)%nat).
  assert (G' : growing d') by (intros i; unfold d'; rewrite Nat.add_succ_r; apply GR).
  assert (E : meanwhile d' (open_steps f1 f2 a enc bc tc eo pr dim) 0 0 = match grown_end d (make_steps f1 f2 enc bc tc e dim) (S s) 0 with
    | (Ok r, i', q') => (Ok r, (S i' - s)%nat) | (Err y, i', q') => (Err y, (i' - s)%nat) end).
  { rewrite ER. cbn [meanwhile]. change (d' 0%nat) with (d (s + 0)%nat). rewrite Nat.add_0_r, RR, grown_fst, grown_bind. replace (S s) with (s + 1)%nat by lia. rewrite grown_shift. fold d'.
    destruct (grown_end d' (make_steps f1 f2 enc bc tc e dim) 1 0) as [[[r|y] i'] q']; cbn [sbind grown_end fst]; [|f_equal; lia]. change (s_report 1 1) with (Show 1 1 (Fin (Ok tt))). cbn [sbind grown_end fst]. f_equal. lia. }
  pose proof (fun log => open_moment d' G' enc bc tc (fun i => RD (s + i)%nat) f1 f2 a eo pr dim log) as O. rewrite E in O.
  pose proof (grown_on d (make_steps f1 f2 enc bc tc e dim) (S s) 0) as ON.
  destruct (grown_end d (make_steps f1 f2 enc bc tc e dim) (S s) 0) as [[r i'] q']. cbn [fst snd] in ON.
  intros NF.
  destruct (O [] ltac:(destruct NF as [NF|NF]; [left; destruct r; exact NF|right; intros i; apply NF])) as (j & J & EJ). exists (s + j)%nat. split; [destruct r; cbn [snd] in J; lia|]. intros log.
  transitivity (fst (create_reader a enc bc tc eo pr dim (mk_world (mk_file (d' j) 0) []))); [destruct r; exact EJ|].
  unfold d'. destruct (RD 0) as (_ & ((_ & _ & _ & _ & FL & _) & _) & _).
  rewrite <- !(open_alone a enc bc tc eo pr dim _ 0 _ 400 FL ltac:(lia) ltac:(lia)). apply alone_log.
Qed.

(* where the reader of the contents x is kept *)
Lemma location c name a e x : create_reader_checks a (ca_endian c) (ca_progress c) (ca_dim c) (mk_world (mk_file x 0) []) = (Ok e, mk_world (mk_file x 0) []) -> ca_dir c <> NoCache ->
  call_location c (mk_handle name a x) = match locate_cache_file name (ca_dir c) (hashed x (hash_args c e)) with Ok k => k | Err _ => None end.
Proof.
  intros CH ND. unfold call_location. cbn [hd_attrs hd_data hd_name]. rewrite CH.
  assert (HR : on_file (hash_for_file (hash_args c e)) (mk_world (mk_file x 0) []) = (Ok (hashed x (hash_args c e)), mk_world (mk_file x 0) [])).
  { unfold on_file. cbn [w_file w_log]. rewrite hash_ok. reflexivity. }
  destruct (ca_dir c) as [|dir|dir]; [now contradiction ND| |]; rewrite HR; reflexivity.
Qed.
Lemma cached_call c name a e en x : create_reader_checks a (ca_endian c) (ca_progress c) (ca_dim c) (mk_world (mk_file x 0) []) = (Ok e, mk_world (mk_file x 0) []) -> ca_dir c <> NoCache ->
  class_of en (ca_bc c) = Some bc -> class_of en (ca_tc c) = Some tc ->
  match locate_cache_file name (ca_dir c) (hashed x (hash_args c e)) with
  | Err y => fst (fst (create_reader_cached c (mk_handle name a x) en)) = Err y
  | Ok (Some k) => match load_reader k en with
                   | (Err y, _) => fst (fst (create_reader_cached c (mk_handle name a x) en)) = Err y
                   | (Ok (Some (r, f)), _) => fst (fst (create_reader_cached c (mk_handle name a x) en)) = Ok (r, Reopened f)
                   | _ => True
                   end
  | _ => True
  end.
Proof.
  intros CH ND CB CT. unfold create_reader_cached. cbn [hd_attrs hd_data hd_name]. rewrite CH, CB, CT. cbv zeta.
  assert (HR : on_file (hash_for_file (hash_args c e)) (mk_world (mk_file x 0) []) = (Ok (hashed x (hash_args c e)), mk_world (mk_file x 0) [])).
  { unfold on_file. cbn [w_file w_log]. rewrite hash_ok. reflexivity. }
  destruct (ca_dir c) as [|dir|dir]; [now contradiction ND| |]; rewrite HR; (destruct (locate_cache_file name _ _) as [[k|]|y]; [|exact I|reflexivity]);
    destruct (load_reader k en) as [[[[r f]|]|y] en']; try exact I; reflexivity.
Qed.
Lemma set_entry_saved en k x k' s : en_cache (set_entry en k x) k' = Saved s -> (k' = k /\ x = Saved s) \/ en_cache en k' = Saved s.
Proof. cbn [set_entry en_cache]. destruct (key_eqb k' k) eqn:E; [|now right]. left. split; [now apply key_eqb_eq|assumption]. Qed.
Lemma load_saved k en r en' k' s : load_reader k en = (r, en') -> en_cache en' k' = Saved s -> en_cache en k' = Saved s.
Proof.
  unfold load_reader. intros L. assert (ST : en' = en \/ en' = set_entry en k Missing).
  { destruct (en_cache en k) as [| | | | |sv]; try (injection L as _ <-; now left).
    - destruct (en_unlink en); injection L as _ <-; [now right|now left].
    - destruct (reader_setstate en sv); [injection L as _ <-; now left|]. destruct (en_unlink en); injection L as _ <-; [now right|now left]. }
  destruct ST as [->| ->]; [auto|]. intros H. destruct (set_entry_saved _ _ _ _ _ H) as [(_ & X)|X]; [discriminate X|exact X].
Qed.
Lemma save_saved k name pos c r en x en' k' s : save_reader k name pos (ca_bc c) (ca_tc c) r en = (x, en') -> en_cache en' k' = Saved s -> (k' = k /\ sv_reader s = r /\ sv_name s = name) \/ en_cache en k' = Saved s.
Proof.
  unfold save_reader. destruct (negb (en_mkdir en)); [intros [= _ <-]; now right|]. destruct (negb (en_write en)); [intros [= _ <-]; now right|].
  assert (W : match reader_getstate en name pos (ca_bc c) (ca_tc c) r with
         | Ok s => (Ok tt, set_entry en k (Saved s))
         | Err AttributeError | Err TypeError => (Ok tt, set_entry en k Damaged)
         | Err y => (Err y, set_entry en k Damaged)
         end = (x, en') -> en_cache en' k' = Saved s -> (k' = k /\ sv_reader s = r /\ sv_name s = name) \/ en_cache en k' = Saved s).
  { destruct (reader_getstate en name pos (ca_bc c) (ca_tc c) r) as [sv|y] eqn:GS.
    - intros [= _ <-] H. destruct (set_entry_saved _ _ _ _ _ H) as [(-> & [= <-])|X]; [left|now right]. split; [reflexivity|].
      clear -GS. unfold reader_getstate in GS. destruct (match rd_kind r with Plain => Ok tt | Kind2D _ => _ | Kind3D _ => _ end); [cbn [bind] in GS|discriminate GS].
      destruct name; [discriminate GS| |]; (destruct (rd_max_num_trace_samples r); [cbn [bind] in GS|discriminate GS]); (destruct (hdr_getstate (rd_binary r)); [cbn [bind] in GS|discriminate GS]);
        (destruct (ca_bc c); [|discriminate GS]); (destruct (ca_tc c); [|discriminate GS]); injection GS as <-; split; reflexivity.
    - intros E H. assert (en' = set_entry en k Damaged) as -> by (destruct y; injection E as _ <-; reflexivity).
      destruct (set_entry_saved _ _ _ _ _ H) as [(_ & X)|X]; [discriminate X|now right]. }
  destruct (en_cache en k); try exact W. intros [= _ <-]; now right.
Qed.

Theorem cached_grown f0 f1 f2 c name a en o en' m : ca_enc c = enc -> class_of en (ca_bc c) = Some bc -> class_of en (ca_tc c) = Some tc ->
  meanwhile d (cached_steps f0 f1 f2 c name a en) 0 0 = (Ok (o, en'), m) -> o <> Err OutOfFuel \/ (forall i, (length (d i) < f0)%nat /\ (length (d i) < f1)%nat /\ (S (length (d i)) < f2)%nat) ->
  let plain j := fst (create_reader a enc bc tc (ca_endian c) (ca_progress c) (ca_dim c) (mk_world (mk_file (d j) 0) [])) in
  let kept j := fst (fst (create_reader_cached c (mk_handle name a (d j)) en)) in
  match o with
  | Ok (r, Callers) => exists j, (j <= m)%nat /\ plain j = Ok r
  | Ok (r, Reopened f) => exists j, (j <= m)%nat /\ kept j = Ok (r, Reopened f)
  | Err y => exists j, (j <= m)%nat /\ (plain j = Err y \/ kept j = Err y \/
      exists r k pos en1, plain j = Ok r /\ save_reader k name pos (ca_bc c) (ca_tc c) r en1 = (Err y, en'))
  end /\
  forall k s, en_cache en' k = Saved s -> en_cache en k = Saved s \/
    exists i j, (i <= j <= m)%nat /\ call_location c (mk_handle name a (d i)) = Some k /\ sv_name s = name /\ plain j = Ok (sv_reader s).
Proof.
  intros EE CB CT M NF plain kept. rewrite grown_fst in M. unfold cached_steps in M. rewrite grown_bind, attempt_grown in M.
  pose proof (check_grown a (ca_endian c) (ca_progress c) (ca_dim c)) as CH.
  destruct (grown_end d (check_steps a (ca_endian c) (ca_progress c) (ca_dim c)) 0 0) as [[[e|y] i'] q'].
  2: { cbn [grown_end fst] in M. injection M as <- <- <-. split; [|auto]. exists 0%nat. split; [lia|]. left. unfold plain, create_reader, wbind. specialize (CH []).
       destruct (create_reader_checks a (ca_endian c) (ca_progress c) (ca_dim c) (mk_world (mk_file (d 0%nat) 0) [])) as [[e|y'] w]; [discriminate CH|injection CH as ->; reflexivity]. }
  destruct CH as (-> & -> & EO & CJ & OP). rewrite CB, CT in M.
  (* making the reader *)
  assert (BLD : forall k0 en0 s, grown_end d (build_steps f1 f2 c name bc tc e k0 en0) (S s) 0 = (Ok (o, en'), m, snd (grown_end d (build_steps f1 f2 c name bc tc e k0 en0) (S s) 0)) ->
    match o with
    | Ok (r, Callers) => exists j, (s <= j <= m)%nat /\ plain j = Ok r
    | Ok (r, Reopened f) => False
    | Err y => exists j, (s <= j <= m)%nat /\ (plain j = Err y \/
        exists r k pos en1, plain j = Ok r /\ save_reader k name pos (ca_bc c) (ca_tc c) r en1 = (Err y, en'))
    end /\
    forall k s', en_cache en' k = Saved s' -> en_cache en0 k = Saved s' \/ exists j, (s <= j <= m)%nat /\ k0 = Some k /\ sv_name s' = name /\ plain j = Ok (sv_reader s')).
  { intros k0 en0 s B. unfold build_steps in B. rewrite grown_bind, attempt_grown, EE in B.
    pose proof (make_grown a (ca_endian c) (ca_progress c) (ca_dim c) e s f1 f2 (fun s => OP f1 f2 enc bc tc s)) as MK.
    destruct (grown_end d (make_steps f1 f2 enc bc tc e (ca_dim c)) (S s) 0) as [[r i'] q']. cbn [fst snd] in B.
    destruct r as [r|y].
    2: { cbn [grown_end] in B. injection B as <- <- <-. destruct MK as (j & J & EJ); [destruct NF as [NF|NF]; [left; intros [= ->]; now apply NF|right; intros i; apply NF]|]. split; [|auto]. exists j. split; [lia|]. left. symmetry. apply EJ. }
    destruct MK as (j & J & EJ); [left; discriminate|]. destruct k0 as [k0|].
    - cbn [sbind grown_end] in B. destruct (save_reader k0 name q' (ca_bc c) (ca_tc c) r en0) as [[[]|y] en1] eqn:SV; cbn [grown_end] in B; injection B as <- <- <-.
      + split; [exists j; split; [lia|symmetry; apply EJ]|]. intros k s' H. destruct (save_saved _ _ _ _ _ _ _ _ _ _ SV H) as [(-> & R & NM)|H']; [right|now left].
        exists j. split; [lia|]. split; [reflexivity|]. split; [exact NM|]. rewrite R. symmetry. apply EJ.
      + split; [exists j; split; [lia|right; exists r, k0, q', en0; split; [symmetry; apply EJ|exact SV]]|]. intros k s' H. destruct (save_saved _ _ _ _ _ _ _ _ _ _ SV H) as [(-> & R & NM)|H']; [right|now left].
        exists j. split; [lia|]. split; [reflexivity|]. split; [exact NM|]. rewrite R. symmetry. apply EJ.
    - cbn [sbind grown_end] in B. injection B as <- <- <-. split; [exists j; split; [lia|symmetry; apply EJ]|]. auto. }
  assert (FS : forall k0 en0 i, fst (grown_end d (build_steps f1 f2 c name bc tc e k0 en0) i 0) = (Ok (o, en'), m) ->
    grown_end d (build_steps f1 f2 c name bc tc e k0 en0) i 0 = (Ok (o, en'), m, snd (grown_end d (build_steps f1 f2 c name bc tc e k0 en0) i 0))).
  { intros k0 en0 i E. destruct (grown_end d (build_steps f1 f2 c name bc tc e k0 en0) i 0) as [x q]. cbn [fst snd] in *. now subst x. }
  assert (CASE : ca_dir c = NoCache \/ ca_dir c <> NoCache) by (destruct (ca_dir c); [now left|right; discriminate|right; discriminate]).
  destruct CASE as [ND|ND].
  { rewrite ND in M. apply FS, BLD in M. destruct M as (MO & MC). split.
    - destruct o as [[r []]|y]; [|destruct MO|].
      + destruct MO as (j & J & EJ). exists j. split; [lia|exact EJ].
      + destruct MO as (j & J & [EJ|EJ]); exists j; (split; [lia|]); [now left|right; right; exact EJ].
    - intros k s H. destruct (MC k s H) as [H'|(j & _ & X & _)]; [now left|discriminate X]. }
  assert (M' : fst (grown_end d (step sha1 <- attempt (hash_steps f0 (hash_args c e)) ;;
              match sha1 with
              | Err y => Fin (Ok (Err y, en))
              | Ok sha1 =>
                  match locate_cache_file name (ca_dir c) sha1 with
                  | Err y => Fin (Ok (Err y, en))
                  | Ok None => build_steps f1 f2 c name bc tc e None en
                  | Ok (Some k) =>
                      match load_reader k en with
                      | (Err y, en) => Fin (Ok (Err y, en))
                      | (Ok (Some (r, f)), en) => Show 1 1 (Fin (Ok (Ok (r, Reopened f), en)))
                      | (Ok None, en) => build_steps f1 f2 c name bc tc e (Some k) en
                      end
                  end
              end) 1 0) = (Ok (o, en'), m)) by (destruct (ca_dir c); [now contradiction ND|exact M|exact M]).
  clear M. rename M' into M. rewrite grown_bind, attempt_grown in M. pose proof (hash_grown_end f0 (hash_args c e) 1 0) as HG.
  destruct (grown_end d (hash_steps f0 (hash_args c e)) 1 0) as [[r i'] q']. destruct HG as [(-> & HL)|(i & I & -> & ->)].
  { cbn [grown_end fst] in M. injection M as <- _ _. destruct NF as [NF|NF]; [now contradiction NF|]. destruct (NF i'); lia. }
  pose proof (location c name a e (d i) (CJ i []) ND) as LOC. pose proof (cached_call c name a e en (d i) (CJ i []) ND CB CT) as CC.
  destruct i' as [|s]; [lia|].
  destruct (locate_cache_file name (ca_dir c) (hashed (d i) (hash_args c e))) as [[k0|]|y].
  - destruct (load_reader k0 en) as [[[[r f]|]|y] en1] eqn:LD.
    + cbn [grown_end fst] in M. injection M as <- <- <-. split; [exists i; split; [lia|exact CC]|]. intros k s' H. left. exact (load_saved _ _ _ _ _ _ LD H).
    + apply FS, BLD in M. destruct M as (MO & MC). split.
      * destruct o as [[r []]|y]; [|destruct MO|].
        -- destruct MO as (j & J & EJ). exists j. split; [lia|exact EJ].
        -- destruct MO as (j & J & [EJ|EJ]); exists j; (split; [lia|]); [now left|right; right; exact EJ].
      * intros k s' H. destruct (MC k s' H) as [H'|(j & J & [= ->] & NM & EJ)]; [left; exact (load_saved _ _ _ _ _ _ LD H')|]. right. exists i, j. split; [lia|]. split; [exact LOC|]. split; assumption.
    + cbn [grown_end fst] in M. injection M as <- <- <-. split; [exists i; split; [lia|right; left; exact CC]|]. intros k s' H. left. exact (load_saved _ _ _ _ _ _ LD H).
  - apply FS, BLD in M. destruct M as (MO & MC). split.
    + destruct o as [[r []]|y]; [|destruct MO|].
      * destruct MO as (j & J & EJ). exists j. split; [lia|exact EJ].
      * destruct MO as (j & J & [EJ|EJ]); exists j; (split; [lia|]); [now left|right; right; exact EJ].
    + intros k s' H. destruct (MC k s' H) as [H'|(j & _ & X & _)]; [now left|discriminate X].
  - cbn [grown_end fst] in M. injection M as <- <- <-. split; [exists i; split; [lia|right; left; exact CC]|]. auto.
Qed.
End Cached.
